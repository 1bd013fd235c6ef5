(** Proofs about the Read and Write services. *)
From Coq Require Import ZArith List Bool Lia Strings.Byte.
From Verif Require Import Bytes BytesProofs Prim Value Registry RegistryProofs IndexRange Roles RolesSpec RolesProofs Nodes NodeAccess AccessSpec AccessProofs DataPath DataPathSpec.
Import ListNotations.
Open Scope Z_scope.
Ltac Zify.zify_post_hook ::= idtac.

Section S.
Variable default : list perm.
Variable vt : Z -> Z.
Variable lim : limits.
Variable max_read max_write : Z.
Variable nodes : nodeid -> option node.
Variable range_read : val -> bytes -> ranged.
Variable range_write : val -> val -> bytes -> ranged.
Variable app_read : nodeid -> bytes -> dval.
Variable app_write : wop -> dval * Z.
Variable other_read : caller -> rop -> time -> dval.
Variable other_write : caller -> wop -> Z.
Notation read_data := (read_data default nodes range_read app_read other_read).
Notation read_stored := (read_stored range_read).
Notation prepare := (prepare default vt lim nodes range_write app_write other_write).
Notation work := (work default vt lim nodes range_read range_write app_read app_write other_read other_write).
Notation step := (step default vt lim max_read max_write nodes range_read range_write app_read app_write other_read other_write).
Notation run := (run default vt lim max_read max_write nodes range_read range_write app_read app_write other_read other_write).
Notation register := (register nodes).
Notation may_read := (may_read default).
Notation may_write := (may_write default).
Notation holds := (holds vt).
Notation begin_call := (begin_call max_read max_write).

(** * Values *)
Lemma bytes_back s : map byte_of_val (map (fun b => VB BByte (Z_of_byte b)) s) = s.
Proof. induction s as [|b s IH]; [reflexivity|]. cbn [map]. rewrite IH. cbn [byte_of_val]. now rewrite byte_of_Z_of_byte. Qed.
Lemma bytes_proper l : Forall (fun x => exists z, x = VB BByte z /\ 0 <= z < 256) l -> map (fun b => VB BByte (Z_of_byte b)) (map byte_of_val l) = l.
Proof.
  induction 1 as [|x l (z & -> & B) _ IH]; [reflexivity|]. cbn [map]. rewrite IH. cbn [byte_of_val].
  rewrite Z_of_byte_of_Z, Z.mod_small by exact B. reflexivity.
Qed.
Ltac differs := let T := fresh in let R := fresh in let H := fresh in
  intros (T & R & H); first [discriminate T | discriminate H | destruct H as (? & H); discriminate H | congruence].
Ltac same := right; right; right; split; [reflexivity|]; split; [differs|split; differs].
Lemma stored_holds v x : proper x -> holds v x (to_stored (vt (va_type v)) (va_rank v) x).
Proof.
  intros P. unfold to_stored, holds. destruct ((vt (va_type v) =? 3) && (va_rank v =? 1)) eqn:A.
  - apply andb_true_iff in A. destruct A as [T R]. apply Z.eqb_eq in T, R. rewrite T, R. change (3 =? 15) with false. cbn [andb].
    destruct x as [tb b|ob|lb| |lb|lb| |k y|k|k lb|k m|k m|y st t1 p1 t2 p2| |tid lb|db]; try same.
    destruct k as [[]| | | |]; try same.
    destruct y as [tb b|ob|lb| |lb|lb| |k y|k|k lb|k m|k m|y st t1 p1 t2 p2| |tid lb|db]; try same.
    destruct tb; try same.
    left. repeat split. now exists b.
  - assert (forall s, ~ (vt (va_type v) = 3 /\ va_rank v = 1 /\ s)) as N
      by (intros s (T & R & _); rewrite T, R in A; discriminate).
    destruct ((vt (va_type v) =? 15) && (va_rank v =? -1)) eqn:B.
    + apply andb_true_iff in B. destruct B as [T R]. apply Z.eqb_eq in T, R.
      destruct x as [tb b|ob|lb| |lb|lb| |k y|k|k lb|k m|k m|y st t1 p1 t2 p2| |tid lb|db]; try same.
      * destruct k as [[]| | | |]; try same.
        right. right. left. now repeat split.
      * destruct k as [[]| | | |]; try same.
        right. left. split; [exact T|]. split; [exact R|]. exists (map byte_of_val lb). cbn [proper] in P. unfold byte_array. rewrite bytes_proper by exact P. now split.
    + assert (forall s, ~ (vt (va_type v) = 15 /\ va_rank v = -1 /\ s)) as N'
        by (intros s (T & R & _); rewrite T, R in B; discriminate).
      right. right. right. split; [reflexivity|]. split; [apply N|]. split; apply N'.
Qed.
Lemma holds_stored v x y : proper x -> holds v x y -> y = to_stored (vt (va_type v)) (va_rank v) x.
Proof.
  intros P. unfold holds, to_stored. intros [(T & R & s & -> & ->)|[(T & R & s & -> & ->)|[(T & R & -> & ->)|(-> & N1 & N2 & N3)]]].
  - rewrite T, R. reflexivity.
  - rewrite T, R. change (15 =? 3) with false. cbn [andb]. rewrite Z.eqb_refl. change (-1 =? -1) with true. cbn [andb]. unfold byte_string, byte_array. now rewrite bytes_back.
  - rewrite T, R. reflexivity.
  - assert ((if (vt (va_type v) =? 3) && (va_rank v =? 1)
           then match x with VScalar (KB BByteString) (VB BByteString s) => VArr (KB BByte) (map (fun b => VB BByte (Z_of_byte b)) s) | _ => x end
           else x) = x) as ->.
    { destruct (_ && _) eqn:A; [|reflexivity]. apply andb_true_iff in A. destruct A as [T R]. apply Z.eqb_eq in T, R.
      destruct x as [tb b|ob|lb| |lb|lb| |k y|k|k lb|k m|k m|y st t1 p1 t2 p2| |tid lb|db]; try reflexivity. destruct k as [[]| | | |]; try reflexivity.
      destruct y as [tb b|ob|lb| |lb|lb| |k y|k|k lb|k m|k m|y st t1 p1 t2 p2| |tid lb|db]; try reflexivity. destruct tb; try reflexivity.
      destruct N1. repeat split; try assumption. now exists b. }
    destruct ((vt (va_type v) =? 15) && (va_rank v =? -1)) eqn:A; [|reflexivity]. apply andb_true_iff in A. destruct A as [T R]. apply Z.eqb_eq in T, R.
    destruct x as [tb b|ob|lb| |lb|lb| |k y|k|k lb|k m|k m|y st t1 p1 t2 p2| |tid lb|db]; try reflexivity; destruct k as [[]| | | |]; try reflexivity.
    + destruct N3. now repeat split.
    + destruct N2. split; [exact T|]. split; [exact R|]. exists (map byte_of_val lb). unfold byte_array. now rewrite bytes_proper.
Qed.

(** * Read *)
Lemma bit_read v roles n : (Z.land (user_access (va_access v) roles (nd_perms n) default) al_read =? 0) = false <-> readable v /\ user_may default roles n p_read.
Proof. change al_read with (2 ^ 0). rewrite access_bit by lia. rewrite negb_false_iff. apply read_bit. Qed.
Lemma bit_write v roles n : (Z.land (user_access (va_access v) roles (nd_perms n) default) al_write =? 0) = false <-> writable v /\ user_may default roles n p_write.
Proof. change al_write with (2 ^ 1). rewrite access_bit by lia. rewrite negb_false_iff. apply write_bit. Qed.
Lemma level_read v : (Z.land (va_access v) al_read =? 0) = false <-> readable v.
Proof. change al_read with (2 ^ 0). rewrite level_bit by lia. now rewrite negb_false_iff. Qed.
Lemma level_write v : (Z.land (va_access v) al_write =? 0) = false <-> writable v.
Proof. change al_write with (2 ^ 1). rewrite level_bit by lia. now rewrite negb_false_iff. Qed.
Lemma read_yes who data q now n v : r_attr q = 13 -> r_encoding q = [] -> register (r_node q) n v -> may_read who n v ->
  read_data who data q now = read_stored (data (r_node q)) (r_range q).
Proof.
  intros A E (N & K & R & _) (roles & -> & B & L & P). unfold DataPath.read_data. rewrite A, E, N.
  change (13 =? at_value) with true. rewrite andb_false_r. cbn [negb].
  apply browsable_may in B. rewrite B, K, R. cbn [negb].
  rewrite (proj2 (level_read v) L), (proj2 (bit_read v roles n) (conj L P)). reflexivity.
Qed.
Lemma read_no who data q now n v : r_attr q = 13 -> r_encoding q = [] -> register (r_node q) n v -> ~ may_read who n v ->
  exists st, read_data who data q now = refused st now /\ Z.testbit st 31 = true.
Proof.
  intros A E (N & K & R & _) M. unfold DataPath.read_data. rewrite A, E, N.
  change (13 =? at_value) with true. rewrite andb_false_r. cbn [negb].
  destruct who as [|roles]; [eexists; split; reflexivity|].
  destruct (browsable default roles n) eqn:B; cbn [negb]; [|eexists; split; reflexivity]. rewrite K, R.
  destruct (Z.land (va_access v) al_read =? 0) eqn:L; [eexists; split; reflexivity|].
  destruct (Z.land (user_access (va_access v) roles (nd_perms n) default) al_read =? 0) eqn:P; [eexists; split; reflexivity|].
  destruct M. exists roles. apply browsable_may in B. apply bit_read in P. tauto.
Qed.

(** * Write *)
Lemma ready_value who data q t1 t2 d : prepare who data q t1 t2 = Ready d -> w_attr q = 13.
Proof.
  unfold DataPath.prepare. destruct who; [discriminate|]. destruct (nodes (w_node q)) as [n|]; [|discriminate].
  destruct (negb _); [discriminate|]. destruct (w_attr q =? at_value) eqn:A; [|discriminate]. now apply Z.eqb_eq in A.
Qed.
Lemma prepare_cases who data q t1 t2 n v : w_attr q = 13 -> w_range q = [] -> register (w_node q) n v ->
  let x := to_stored (vt (va_type v)) (va_rank v) (d_value (w_value q)) in
  (may_write who n v /\ check_value lim (vt (va_type v)) (va_rank v) (shape x) = 0 /\
   prepare who data q t1 t2 = Ready (mkDV x (d_status (w_value q)) t1 0 t2 0)) \/
  (~ (may_write who n v /\ check_value lim (vt (va_type v)) (va_rank v) (shape x) = 0) /\
   exists st, prepare who data q t1 t2 = NotReady st /\ st <> 0).
Proof.
  intros A E (N & K & _ & W) x. unfold DataPath.prepare. rewrite A, E, N. change (13 =? at_value) with true.
  destruct who as [|roles].
  { right. split; [intros [(r & H & _) _]; discriminate H|]. eexists. split; [reflexivity|discriminate]. }
  destruct (browsable default roles n) eqn:B; cbn [negb].
  2: { right. split; [|eexists; split; [reflexivity|discriminate]]. intros [(r & H & C & _) _]. injection H as <-. apply browsable_may in C. congruence. }
  rewrite K, W. apply browsable_may in B.
  destruct (Z.land (va_access v) al_write =? 0) eqn:L.
  { right. split; [|eexists; split; [reflexivity|discriminate]]. intros [(r & H & _ & C & _) _]. apply level_write in C. congruence. }
  apply level_write in L. destruct (Z.land (user_access (va_access v) roles (nd_perms n) default) al_write =? 0) eqn:P.
  { right. split; [|eexists; split; [reflexivity|discriminate]]. intros [(r & H & _ & C) _]. injection H as <-. apply bit_write in C. congruence. }
  apply bit_write in P. cbv zeta. fold x.
  destruct (check_value lim (vt (va_type v)) (va_rank v) (shape x) =? 0) eqn:C; cbn [negb].
  - left. split; [|split; [now apply Z.eqb_eq in C|reflexivity]]. exists roles. tauto.
  - apply Z.eqb_neq in C. right. split; [tauto|]. eexists. split; [reflexivity|exact C].
Qed.

(** * Timestamps *)
Lemma select_value st d : d_value (select_stamps st d) = d_value d /\ d_status (select_stamps st d) = d_status d.
Proof. unfold select_stamps. destruct (st =? 0), (st =? 1), (st =? 3); now split. Qed.
Lemma select_with st d : 0 <= st <= 3 -> d_srcp d = 0 -> d_srvp d = 0 -> select_stamps st d = with_stamps st d.
Proof.
  intros B P1 P2. destruct d as [v s t1 p1 t2 p2]. cbn in P1, P2. subst.
  assert (st = 0 \/ st = 1 \/ st = 2 \/ st = 3) as [->|[->|[->| ->]]] by lia; reflexivity.
Qed.

(** * Histories *)
Lemma before_got h a b : before h a b -> exists res t, In (Got a res t) h.
Proof. intros (h1 & h2 & h3 & res & t & q & t' & ->). exists res, t. apply in_or_app. right. now left. Qed.
Lemma before_sent h a b : before h a b -> exists q t, In (Sent b q t) h.
Proof. intros (h1 & h2 & h3 & res & t & q & t' & ->). exists q, t'. apply in_or_app. right. right. apply in_or_app. right. now left. Qed.
Lemma snoc_cases {A} (l : list A) : l = [] \/ exists l' x, l = l' ++ [x].
Proof. destruct l as [|a l] using rev_ind; [now left|]. right. now exists l, a. Qed.
Lemma before_snoc h e a b : before (h ++ [e]) a b -> before h a b \/ exists q t, e = Sent b q t.
Proof.
  intros (h1 & h2 & h3 & res & t & q & t' & E). destruct (snoc_cases h3) as [->|(h3' & x & ->)].
  - rewrite app_comm_cons, app_assoc in E. apply app_inj_tail in E. destruct E as [_ ->]. right. now exists q, t'.
  - left. exists h1, h2, h3', res, t, q, t'.
    assert (h1 ++ Got a res t :: h2 ++ Sent b q t' :: h3' ++ [x] = (h1 ++ Got a res t :: h2 ++ Sent b q t' :: h3') ++ [x]) as F.
    { repeat (rewrite <- app_assoc; cbn [app]). reflexivity. }
    rewrite F in E. now apply app_inj_tail in E.
Qed.

Lemma NoDup_app_snoc_local {A} (l : list A) x : NoDup l -> ~ In x l -> NoDup (l ++ [x]).
Proof.
  induction 1 as [|y l N D IH]; intros F; cbn [app]; [constructor; [easy|constructor]|].
  constructor; [|apply IH; intros I; apply F; now right]. intros I. apply in_app_or in I. destruct I as [I|[->|[]]]; [contradiction|]. apply F. now left.
Qed.
Definition final (q : request) (a : answer) : answer :=
  match q, a with Read _ _ st _, AValue d => AValue (select_stamps st d) | _, _ => a end.

Lemma answers_nth l : forall r i a, answers l = Some r -> nth_error r i = Some a -> exists k, nth_error l i = Some k /\ k_answer k = Some a.
Proof.
  induction l as [|k l IH]; intros r i a E N; cbn [answers] in E.
  - injection E as <-. destruct i; discriminate N.
  - destruct (k_answer k) as [x|] eqn:A; [|discriminate E]. destruct (answers l) as [r'|]; [|discriminate E]. injection E as <-.
    destruct i as [|i]; cbn [nth_error] in N |- *; [injection N as <-; now exists k|]. exact (IH r' i a eq_refl N).
Qed.
Lemma answers_length l r : answers l = Some r -> length r = length l.
Proof.
  revert r. induction l as [|k l IH]; intros r E; cbn [answers] in E; [now injection E as <-|].
  destruct (k_answer k); [|discriminate E]. destruct (answers l) as [r'|]; [|discriminate E]. injection E as <-. cbn [length]. now rewrite (IH r' eq_refl).
Qed.
Lemma answers_all l r k : answers l = Some r -> In k l -> k_answer k <> None.
Proof.
  revert r. induction l as [|x l IH]; intros r E I; [destruct I|]. cbn [answers] in E.
  destruct (k_answer x) eqn:A; [|discriminate E]. destruct (answers l) as [r'|]; [|discriminate E].
  destruct I as [<-|I]; [congruence|]. exact (IH r' eq_refl I).
Qed.

(** * The invariant *)
Variable init : nodeid -> dval.
(** Tasks of a request answer in kind *)
Definition kind_ok (k : task) : Prop :=
  match k_op k, k_answer k with RD _, Some (AStatus _) => False | WR _, Some (AValue _) => False | _, _ => True end.
Record shaped (c : call) : Prop := {
  sh_fault : c_fault c = fault_of max_read max_write (c_request c);
  sh_none : c_fault c <> None -> c_tasks c = [];
  sh_ops : c_fault c = None -> map k_op (c_tasks c) = ops_of (c_request c);
  sh_kind : Forall kind_ok (c_tasks c) }.
Definition waiting (who : caller) (q : wop) (d : dval) : Prop :=
  w_attr q = 13 /\ forall n v, register (w_node q) n v ->
    may_write who n v /\ holds v (d_value (w_value q)) (d_value d) /\
    check_value lim (vt (va_type v)) (va_rank v) (shape (d_value d)) = 0 /\
    d_status d = d_status (w_value q) /\ d_srcp d = 0 /\ d_srvp d = 0.
Definition plain_ops (q : request) : Prop :=
  forall who ops w, q = Write who ops -> In w ops -> w_range w = [] /\ proper (d_value (w_value w)).
(** Times; [None]: nothing is known about the clock *)
Record clocked (now : time) (w : world) (h : list obs) (l : list effect) : Prop := {
  ck_sent : forall r q t, In (Sent r q t) h -> not_after t now;
  ck_ready : forall r c i k q d t q', w_calls w r = Some c -> nth_error (c_tasks c) i = Some k -> k_op k = WR q -> (exists n v, register (w_node q) n v) -> k_ready k = Some d ->
    In (Sent r q' t) h -> not_after t (d_src d) /\ not_after (d_src d) (d_srv d) /\ not_after (d_srv d) now;
  ck_done : forall o q, In o l -> o_op o = WR q -> w_attr q = 13 -> o_answer o = AStatus 0 -> (exists n v, register (w_node q) n v) ->
    (forall q t, In (Sent (o_req o) q t) h -> not_after t (o_from o)) /\ not_after (o_from o) (o_to o) /\
    not_after (o_to o) now /\ (forall a t, In (Got (o_req o) a t) h -> not_after (o_to o) t) }.
Record inv (clock : option time) (w : world) (h : list obs) (l : list effect) : Prop := {
  i_sent : forall r c, w_calls w r = Some c -> exists t, In (Sent r (c_request c) t) h;
  i_call : forall r q t, In (Sent r q t) h -> exists c, w_calls w r = Some c /\ c_request c = q;
  i_shape : forall r c, w_calls w r = Some c -> shaped c /\ plain_ops (c_request c);
  i_got : forall r a t, In (Got r a t) h -> exists c, w_calls w r = Some c /\ c_done c = true /\ respond c = Some a;
  i_task : forall r c i k a, w_calls w r = Some c -> nth_error (c_tasks c) i = Some k -> k_answer k = Some a ->
    exists o, In o l /\ o_req o = r /\ o_index o = i /\ o_answer o = final (c_request c) a;
  i_eff : forall o, In o l -> exists c k, w_calls w (o_req o) = Some c /\ nth_error (c_tasks c) (o_index o) = Some k /\
    k_op k = o_op o /\ c_request c = o_request o /\ k_answer k <> None;
  i_ready : forall r c i k q d, w_calls w r = Some c -> nth_error (c_tasks c) i = Some k -> k_op k = WR q -> k_ready k = Some d ->
    waiting (sender (c_request c)) q d;
  i_once : NoDup (map (fun o => (o_req o, o_index o)) l);
  i_time : forall l1 a l2 b l3, l = l1 ++ a :: l2 ++ b :: l3 -> ~ before h (o_req b) (o_req a);
  i_legal : forall l1 o l2, l = l1 ++ o :: l2 -> legal default nodes vt lim range_read init l1 o;
  i_data : forall x n v, register x n v -> contents vt init x v l (w_data w x);
  i_clock : forall now, clock = Some now -> clocked now w h l }.


Lemma inv_start clock : inv clock (fst (start init)) (snd (start init)) [].
Proof.
  split; cbn; try (intros; contradiction); try (intros; discriminate); try constructor.
  - intros l1 a l2 b l3 E. destruct l1; discriminate E.
  - intros l1 o l2 E. destruct l1; discriminate E.
  - intros o [].
  - cbn. intros; contradiction.
  - cbn. intros; discriminate.
  - cbn. intros; contradiction.
Qed.
Lemma later now now' w h l : not_after now now' -> clocked now w h l -> clocked now' w h l.
Proof.
  unfold not_after. intros L [A B C]. split.
  - intros r q t I. specialize (A r q t I). unfold not_after in *. lia.
  - intros r c i k q d t q' X1 X2 X3 X4 X5 X6. destruct (B r c i k q d t q' X1 X2 X3 X4 X5 X6) as (Y1 & Y2 & Y3). unfold not_after in *. repeat split; lia.
  - intros o q I O W R1 R2. destruct (C o q I O W R1 R2) as (Y1 & Y2 & Y3 & Y4). unfold not_after in *. repeat split; try assumption; try lia.
Qed.
Lemma inv_later clock clock' w h l down : (forall now', clock' = Some now' -> exists now, clock = Some now /\ not_after now now') ->
  inv clock w h l -> inv clock' (mkWorld (w_data w) (w_calls w) down) h l.
Proof.
  intros T V. destruct V. split; try assumption. cbn. intros now' E. destruct (T now' E) as (now & E' & L). destruct (later now now' w h l L (i_clock0 now E')) as [A B C]. split; assumption.
Qed.
Definition tick (clock : option time) (e : event) : option time := match clock with Some _ => Some (ends e) | None => None end.
Definition in_time (clock : option time) (e : event) : Prop :=
  forall now, clock = Some now -> not_after now (begins e) /\ not_after (begins e) (ends e).
Lemma tick_later clock e : in_time clock e -> forall now', tick clock e = Some now' -> exists now, clock = Some now /\ not_after now now'.
Proof.
  intros T now' E. destruct clock as [now|]; [|discriminate E]. injection E as <-. exists now. split; [reflexivity|].
  destruct (T now eq_refl). unfold not_after in *. lia.
Qed.

(** ** A request is sent *)
Lemma inv_invoke clock w h l r q t : inv clock w h l -> in_time clock (Invoke r q t) -> plain_ops q -> w_calls w r = None ->
  inv (tick clock (Invoke r q t)) (mkWorld (w_data w) (upd_call (w_calls w) r (begin_call q)) false) (h ++ [Sent r q t]) l.
Proof.
  intros V T P F. assert (forall y c, w_calls w y = Some c -> y <> r) as Old by (intros y c E ->; congruence).
  assert (c_request (begin_call q) = q) as Q by (unfold DataPath.begin_call; destruct (fault_of _ _ q); reflexivity).
  assert (forall i k, nth_error (c_tasks (begin_call q)) i = Some k -> k_ready k = None /\ k_answer k = None) as New.
  { intros i k N. unfold DataPath.begin_call in N. destruct (fault_of _ _ q); cbn [c_tasks] in N; [destruct i; discriminate N|].
    rewrite nth_error_map in N. destruct (nth_error (ops_of q) i); [|discriminate N]. injection N as <-. now split. }
  assert (forall y c, upd_call (w_calls w) r (begin_call q) y = Some c -> (y = r /\ c = begin_call q) \/ (y <> r /\ w_calls w y = Some c)) as Cases.
  { intros y c. unfold upd_call. destruct (Z.eqb_spec y r); [|now right]. intros E. injection E as <-. now left. }
  assert (forall y c, w_calls w y = Some c -> upd_call (w_calls w) r (begin_call q) y = Some c) as Keep.
  { intros y c E. unfold upd_call. rewrite (proj2 (Z.eqb_neq y r) (Old y c E)). exact E. }
  destruct V. split; cbn [w_calls w_data].
  - intros y c E. destruct (Cases y c E) as [[-> ->]|[N E']].
    + rewrite Q. exists t. apply in_or_app. right. now left.
    + destruct (i_sent0 y c E') as (t' & I). exists t'. apply in_or_app. now left.
  - intros y q' t' I. apply in_app_or in I. destruct I as [I|[I|[]]].
    + destruct (i_call0 y q' t' I) as (c & E & R). exists c. split; [now apply Keep|exact R].
    + injection I as <- <- <-. exists (begin_call q). split; [|exact Q]. unfold upd_call. now rewrite Z.eqb_refl.
  - intros y c E. destruct (Cases y c E) as [[-> ->]|[N E']]; [|now apply (i_shape0 y)].
    rewrite Q. split; [|exact P]. unfold DataPath.begin_call. destruct (fault_of max_read max_write q) eqn:FF; split; cbn [c_fault c_tasks c_request]; try congruence; try (symmetry; exact FF); try (intros; congruence); try constructor.
    * intros _. rewrite map_map. cbn [k_op]. apply map_id.
    * apply Forall_map. apply Forall_forall. intros o _. unfold kind_ok. cbn. destruct o; exact I.
  - intros y a t' I. apply in_app_or in I. destruct I as [I|[I|[]]]; [|discriminate I].
    destruct (i_got0 y a t' I) as (c & E & D & R). exists c. split; [now apply Keep|now split].
  - intros y c i k a E N A. destruct (Cases y c E) as [[-> ->]|[Ny E']]; [destruct (New i k N); congruence|]. exact (i_task0 y c i k a E' N A).
  - intros o I. destruct (i_eff0 o I) as (c & k & E & R). exists c, k. split; [now apply Keep|exact R].
  - intros y c i k q' d E N O R. destruct (Cases y c E) as [[-> ->]|[Ny E']]; [destruct (New i k N); congruence|]. exact (i_ready0 y c i k q' d E' N O R).
  - exact i_once0.
  - intros l1 a l2 b l3 E B. apply before_snoc in B. destruct B as [B|(q' & t' & B)]; [exact (i_time0 _ _ _ _ _ E B)|]. injection B as B _ _.
    destruct (i_eff0 a) as (c & k & Ec & _); [rewrite E; apply in_or_app; right; now left|]. apply Old in Ec. congruence.
  - exact i_legal0.
  - exact i_data0.
  - intros now' E. destruct (tick_later clock _ T now' E) as (now & E' & L). destruct (later now now' w h l L (i_clock0 now E')) as [A B C].
    assert (now' = t) as -> by (subst clock; injection E as <-; reflexivity). split; cbn [w_calls].
    + intros y q' t' I. apply in_app_or in I. destruct I as [I|[I|[]]]; [exact (A y q' t' I)|]. injection I as <- <- <-. unfold not_after. lia.
    + intros y c i k q' d t' q'' Ec N O R D I. destruct (Cases y c Ec) as [[-> ->]|[Ny Ec']]; [destruct (New i k N); congruence|].
      apply in_app_or in I. destruct I as [I|[I|[]]]; [exact (B y c i k q' d t' q'' Ec' N O R D I)|]. injection I as <- _ _. congruence.
    + intros o q' I O W R1 R2. destruct (C o q' I O W R1 R2) as (Y1 & Y2 & Y3 & Y4). split; [|split; [exact Y2|split; [exact Y3|]]].
      * intros q'' t' J. apply in_app_or in J. destruct J as [J|[J|[]]]; [exact (Y1 q'' t' J)|]. injection J as J _ _. destruct (i_eff0 o I) as (c & k & Ec & _). apply Old in Ec. congruence.
      * intros a t' J. apply in_app_or in J. destruct J as [J|[J|[]]]; [exact (Y4 a t' J)|discriminate J].
Qed.

(** ** A response is sent *)
Lemma inv_respond clock w h l r c a t : inv clock w h l -> in_time clock (Respond r t) -> w_calls w r = Some c -> c_done c = false -> respond c = Some a ->
  inv (tick clock (Respond r t)) (mkWorld (w_data w) (upd_call (w_calls w) r (mkCall (c_request c) (c_fault c) (c_tasks c) true)) false) (h ++ [Got r a t]) l.
Proof.
  intros V T Ec Dc Rc. set (c' := mkCall (c_request c) (c_fault c) (c_tasks c) true).
  assert (forall y x, upd_call (w_calls w) r c' y = Some x -> exists x0, w_calls w y = Some x0 /\ c_request x0 = c_request x /\ c_tasks x0 = c_tasks x /\ c_fault x0 = c_fault x /\ (c_done x0 = true -> c_done x = true)) as Cases.
  { intros y x. unfold upd_call. destruct (Z.eqb_spec y r) as [->|N]; intros E; [injection E as <-; now exists c|now exists x]. }
  assert (forall y x, w_calls w y = Some x -> exists x', upd_call (w_calls w) r c' y = Some x' /\ c_request x' = c_request x /\ c_tasks x' = c_tasks x /\ c_fault x' = c_fault x /\ (c_done x = true -> c_done x' = true)) as Keep.
  { intros y x E. unfold upd_call. destruct (Z.eqb_spec y r) as [->|N]; [exists c'; assert (x = c) by congruence; subst; now repeat split|now exists x]. }
  assert (forall x y, c_request x = c_request y -> c_tasks x = c_tasks y -> c_fault x = c_fault y -> respond x = respond y) as Same.
  { intros x y H1 H2 H3. unfold respond. now rewrite H1, H2, H3. }
  destruct V. split; cbn [w_calls w_data].
  - intros y x E. destruct (Cases y x E) as (x0 & E0 & Q & _). destruct (i_sent0 y x0 E0) as (t' & I). exists t'. rewrite <- Q. apply in_or_app. now left.
  - intros y q t' I. apply in_app_or in I. destruct I as [I|[I|[]]]; [|discriminate I].
    destruct (i_call0 y q t' I) as (x & E & R). destruct (Keep y x E) as (x' & E' & Q & _). exists x'. split; [exact E'|congruence].
  - intros y x E. destruct (Cases y x E) as (x0 & E0 & Q & K & F & _). destruct (i_shape0 y x0 E0) as [[S1 S2 S3 S4] S5]. rewrite Q in *. rewrite K in *. rewrite F in *. split; [split; assumption|exact S5].
  - intros y b t' I. apply in_app_or in I. destruct I as [I|[I|[]]].
    + destruct (i_got0 y b t' I) as (x & E & D & R). destruct (Keep y x E) as (x' & E' & Q & K & F & D'). exists x'. split; [exact E'|]. split; [auto|]. now rewrite (Same x' x).
    + injection I as <- <- <-. exists c'. split; [unfold upd_call; now rewrite Z.eqb_refl|]. split; [reflexivity|]. now rewrite (Same c' c).
  - intros y x i k b E N A. destruct (Cases y x E) as (x0 & E0 & Q & K & _). rewrite <- K in N. destruct (i_task0 y x0 i k b E0 N A) as (o & O). rewrite <- Q. now exists o.
  - intros o I. destruct (i_eff0 o I) as (x & k & E & N & O & Q & A). destruct (Keep _ x E) as (x' & E' & Q' & K' & _). exists x', k. rewrite K', Q'. now repeat split.
  - intros y x i k q d E N O R. destruct (Cases y x E) as (x0 & E0 & Q & K & _). rewrite <- K in N. rewrite <- Q. exact (i_ready0 y x0 i k q d E0 N O R).
  - exact i_once0.
  - intros l1 o1 l2 o2 l3 E B. apply before_snoc in B. destruct B as [B|(q' & t' & B)]; [exact (i_time0 _ _ _ _ _ E B)|discriminate B].
  - exact i_legal0.
  - exact i_data0.
  - intros now' E. destruct (tick_later clock _ T now' E) as (now & E' & L). destruct (later now now' w h l L (i_clock0 now E')) as [A B C].
    assert (now' = t) as -> by (subst clock; injection E as <-; reflexivity). split; cbn [w_calls].
    + intros y q' t' I. apply in_app_or in I. destruct I as [I|[I|[]]]; [exact (A y q' t' I)|discriminate I].
    + intros y x i k q' d t' q'' Ex N O R D I. destruct (Cases y x Ex) as (x0 & E0 & Q & K & _). rewrite <- K in N.
      apply in_app_or in I. destruct I as [I|[I|[]]]; [exact (B y x0 i k q' d t' q'' E0 N O R D I)|discriminate I].
    + intros o q' I O W R1 R2. destruct (C o q' I O W R1 R2) as (Y1 & Y2 & Y3 & Y4). split; [|split; [exact Y2|split; [exact Y3|]]].
      * intros q'' t' J. apply in_app_or in J. destruct J as [J|[J|[]]]; [exact (Y1 q'' t' J)|discriminate J].
      * intros b t' J. apply in_app_or in J. destruct J as [J|[J|[]]]; [exact (Y4 b t' J)|]. injection J as _ _ <-. exact Y3.
Qed.

(** ** A worker runs *)
Lemma not_got clock w h l r c i k a t : inv clock w h l -> w_calls w r = Some c -> nth_error (c_tasks c) i = Some k -> k_answer k = None -> ~ In (Got r a t) h.
Proof.
  intros V E N A I. destruct (i_got _ _ _ _ V r a t I) as (c' & E' & _ & R). assert (c' = c) as -> by congruence.
  unfold respond in R. destruct (i_shape _ _ _ _ V r c E) as [[S1 S2 _ _] _]. destruct (c_fault c) eqn:F.
  - rewrite S2 in N by congruence. destruct i; discriminate N.
  - destruct (answers (c_tasks c)) as [x|] eqn:X; [|discriminate R]. exact (answers_all _ _ k X (nth_error_In _ _ N) A).
Qed.
Lemma map_set_at {A B} (f : A -> B) i x l y : nth_error l i = Some y -> f x = f y -> map f (set_at i x l) = map f l.
Proof.
  revert i. induction l as [|z l IH]; intros [|i] N E; cbn in *; try discriminate N; [injection N as <-; now rewrite E|]. now rewrite IH.
Qed.
Lemma forall_set_at {A} (P : A -> Prop) i x l : P x -> Forall P l -> Forall P (set_at i x l).
Proof. intros X. revert i. induction l as [|z l IH]; intros [|i] F; cbn; try constructor; inversion F; subst; auto. Qed.
Lemma nth_set_at {A} i (x : A) l y j : nth_error l i = Some y -> nth_error (set_at i x l) j = if Nat.eqb i j then Some x else nth_error l j.
Proof.
  intros N. rewrite set_at_nth. destruct (Nat.eqb_spec i j) as [->|]; [|reflexivity].
  assert (j < length l)%nat as L by (apply nth_error_Some; congruence). apply Nat.ltb_lt in L. now rewrite L.
Qed.
Section Worker.
Variables (clock : option time) (w : world) (h : list obs) (l : list effect) (r : Z) (i : nat) (t1 t2 : time) (c : call) (k k' : task).
Hypothesis V : inv clock w h l.
Hypothesis T : in_time clock (Run r i t1 t2).
Hypothesis Ec : w_calls w r = Some c.
Hypothesis Nk : nth_error (c_tasks c) i = Some k.
Hypothesis Ak : k_answer k = None.
Hypothesis Ok : k_op k' = k_op k.
Hypothesis Kk : kind_ok k'.
Let c' := mkCall (c_request c) (c_fault c) (set_at i k' (c_tasks c)) (c_done c).
Lemma w_cases y x : upd_call (w_calls w) r c' y = Some x -> (y = r /\ x = c') \/ (y <> r /\ w_calls w y = Some x).
Proof. unfold upd_call. destruct (Z.eqb_spec y r); intros E; [injection E as <-; now left|now right]. Qed.
Lemma w_keep y x : w_calls w y = Some x -> y <> r -> upd_call (w_calls w) r c' y = Some x.
Proof. intros E N. unfold upd_call. now rewrite (proj2 (Z.eqb_neq y r) N). Qed.
Lemma w_here : upd_call (w_calls w) r c' r = Some c'.
Proof. unfold upd_call. now rewrite Z.eqb_refl. Qed.
Lemma w_nth j x : nth_error (c_tasks c') j = Some x -> (j = i /\ x = k') \/ (j <> i /\ nth_error (c_tasks c) j = Some x).
Proof.
  cbn [c_tasks c']. unfold c'. cbn [c_tasks]. rewrite (nth_set_at _ _ _ _ _ Nk). destruct (Nat.eqb_spec i j) as [->|N]; intros E; [injection E as <-; now left|right]. split; congruence.
Qed.
Lemma w_nth_other j : j <> i -> nth_error (c_tasks c') j = nth_error (c_tasks c) j.
Proof. intros N. unfold c'. cbn [c_tasks]. rewrite (nth_set_at _ _ _ _ _ Nk). destruct (Nat.eqb_spec i j); congruence. Qed.
Lemma w_nth_here : nth_error (c_tasks c') i = Some k'.
Proof. unfold c'. cbn [c_tasks]. rewrite (nth_set_at _ _ _ _ _ Nk). now rewrite Nat.eqb_refl. Qed.
Lemma w_shape : shaped c' /\ plain_ops (c_request c').
Proof.
  destruct (i_shape _ _ _ _ V r c Ec) as [[S1 S2 S3 S4] S5]. split; [|exact S5]. split; unfold c'; cbn [c_fault c_tasks c_request].
  - exact S1.
  - intros F. apply S2 in F. rewrite F in Nk. destruct i; discriminate Nk.
  - intros F. rewrite (map_set_at k_op i k' _ k Nk Ok). now apply S3.
  - now apply forall_set_at.
Qed.
Lemma w_fresh o : In o l -> ~ (o_req o = r /\ o_index o = i).
Proof.
  intros I [Er Ei]. destruct (i_eff _ _ _ _ V o I) as (x & y & E & N & _ & _ & A). rewrite Er in E. assert (x = c) as -> by congruence.
  rewrite Ei in N. assert (y = k) as -> by congruence. contradiction.
Qed.
(** The part of the invariant that does not depend on the kind of step *)
Lemma w_sent y x : upd_call (w_calls w) r c' y = Some x -> exists t, In (Sent y (c_request x) t) h.
Proof. intros E. destruct (w_cases y x E) as [[-> ->]|[_ E']]; [exact (i_sent _ _ _ _ V r c Ec)|exact (i_sent _ _ _ _ V y x E')]. Qed.
Lemma w_call y q t : In (Sent y q t) h -> exists x, upd_call (w_calls w) r c' y = Some x /\ c_request x = q.
Proof.
  intros I. destruct (i_call _ _ _ _ V y q t I) as (x & E & Q). destruct (Z.eq_dec y r) as [->|N].
  - exists c'. split; [apply w_here|]. assert (x = c) as -> by congruence. exact Q.
  - exists x. split; [now apply w_keep|exact Q].
Qed.
Lemma w_got y a t : In (Got y a t) h -> exists x, upd_call (w_calls w) r c' y = Some x /\ c_done x = true /\ respond x = Some a.
Proof.
  intros I. destruct (Z.eq_dec y r) as [->|N]; [destruct (not_got _ _ _ _ _ _ _ _ _ _ V Ec Nk Ak I)|].
  destruct (i_got _ _ _ _ V y a t I) as (x & E & R). exists x. split; [now apply w_keep|exact R].
Qed.
Lemma w_eff o : In o l -> exists x y, upd_call (w_calls w) r c' (o_req o) = Some x /\ nth_error (c_tasks x) (o_index o) = Some y /\
    k_op y = o_op o /\ c_request x = o_request o /\ k_answer y <> None.
Proof.
  intros I. destruct (i_eff _ _ _ _ V o I) as (x & y & E & N & O & Q & A). destruct (Z.eq_dec (o_req o) r) as [Er|Nr].
  - rewrite Er in *. assert (x = c) as -> by congruence. exists c', y. split; [apply w_here|]. split; [|now split].
    rewrite w_nth_other; [exact N|]. intros Ei. exact (w_fresh o I (conj Er Ei)).
  - exists x, y. split; [now apply w_keep|now repeat split].
Qed.

Lemma w_tick now' : tick clock (Run r i t1 t2) = Some now' -> exists now, clock = Some now /\ now' = t2.
Proof. unfold tick. intros E. destruct clock as [now|]; [|discriminate E]. injection E as <-. now exists now. Qed.

(** A new value is worked out *)
Lemma inv_prepare q d : k_op k = WR q -> k_ready k' = Some d -> k_answer k' = None -> waiting (sender (c_request c)) q d ->
  (forall n v, register (w_node q) n v -> d_src d = t1 /\ d_srv d = t2) ->
  inv (tick clock (Run r i t1 t2)) (mkWorld (w_data w) (upd_call (w_calls w) r c') false) h l.
Proof.
  intros O R A W D. split; cbn [w_calls w_data].
  - exact w_sent.
  - exact w_call.
  - intros y x E. destruct (w_cases y x E) as [[-> ->]|[_ E']]; [exact w_shape|exact (i_shape _ _ _ _ V y x E')].
  - exact w_got.
  - intros y x j z a E N B. destruct (w_cases y x E) as [[-> ->]|[_ E']]; [|exact (i_task _ _ _ _ V y x j z a E' N B)].
    destruct (w_nth j z N) as [[-> ->]|[_ N']]; [congruence|]. exact (i_task _ _ _ _ V r c j z a Ec N' B).
  - exact w_eff.
  - intros y x j z q' d' E N Oz Rz. destruct (w_cases y x E) as [[-> ->]|[_ E']]; [|exact (i_ready _ _ _ _ V y x j z q' d' E' N Oz Rz)].
    destruct (w_nth j z N) as [[-> ->]|[_ N']]; [|exact (i_ready _ _ _ _ V r c j z q' d' Ec N' Oz Rz)].
    assert (q' = q) as -> by congruence. assert (d' = d) as -> by congruence. exact W.
  - exact (i_once _ _ _ _ V).
  - exact (i_time _ _ _ _ V).
  - exact (i_legal _ _ _ _ V).
  - exact (i_data _ _ _ _ V).
  - intros now' En. destruct (w_tick now' En) as (now & CL & ->). destruct (T now CL) as [T1 T2]. cbn [begins ends] in T1, T2.
    pose proof (i_clock _ _ _ _ V now CL) as C0. destruct C0 as [A0 B0 C0]. unfold not_after in *. split; cbn [w_calls ends].
    + intros y q' t I. specialize (A0 y q' t I). unfold not_after in *. lia.
    + intros y x j z q' d' t q'' E N Oz Rg Rz I. unfold not_after. destruct (w_cases y x E) as [[-> ->]|[_ E']].
      * destruct (w_nth j z N) as [[-> ->]|[_ N']].
        -- assert (q' = q) as -> by congruence. assert (d' = d) as -> by congruence. destruct Rg as (n & v & Rg). destruct (D n v Rg) as [-> ->].
           specialize (A0 r q'' t I). unfold not_after in A0. repeat split; lia.
        -- destruct (B0 r c j z q' d' t q'' Ec N' Oz Rg Rz I) as (Y1 & Y2 & Y3). unfold not_after in *. repeat split; lia.
      * destruct (B0 y x j z q' d' t q'' E' N Oz Rg Rz I) as (Y1 & Y2 & Y3). unfold not_after in *. repeat split; lia.
    + intros o q' I Oo Wo R1 R2. destruct (C0 o q' I Oo Wo R1 R2) as (Y1 & Y2 & Y3 & Y4). unfold not_after in *. repeat split; try assumption; lia.
Qed.

(** An operation takes effect *)
Lemma split_snoc {A} (x : A) m l1 y l2 : m ++ [x] = l1 ++ y :: l2 -> (l2 = [] /\ y = x /\ l1 = m) \/ exists l2', l2 = l2' ++ [x] /\ m = l1 ++ y :: l2'.
Proof.
  intros E. destruct (snoc_cases l2) as [->|(l2' & z & ->)].
  - apply app_inj_tail in E. destruct E as [-> ->]. now left.
  - right. exists l2'. rewrite app_comm_cons, app_assoc in E. apply app_inj_tail in E. destruct E as [-> ->]. now split.
Qed.
Lemma inv_append a data f t : let o := mkEffect r i (c_request c) (k_op k) (final (c_request c) a) f t in
  k_answer k' = Some a -> k_ready k' = None -> legal default nodes vt lim range_read init l o ->
  (forall x n v, register x n v -> contents vt init x v (l ++ [o]) (data x)) ->
  (forall now, clock = Some now -> forall q, k_op k = WR q -> w_attr q = 13 -> a = AStatus 0 -> (exists n v, register (w_node q) n v) ->
     (forall q' s, In (Sent r q' s) h -> not_after s f) /\ not_after f t /\ not_after t t2) ->
  inv (tick clock (Run r i t1 t2)) (mkWorld data (upd_call (w_calls w) r c') false) h (l ++ [o]).
Proof.
  intros o A R L D Ck. split; cbn [w_calls w_data].
  - exact w_sent.
  - exact w_call.
  - intros y x E. destruct (w_cases y x E) as [[-> ->]|[_ E']]; [exact w_shape|exact (i_shape _ _ _ _ V y x E')].
  - exact w_got.
  - intros y x j z b E N B.
    assert ((exists o0, In o0 l /\ o_req o0 = y /\ o_index o0 = j /\ o_answer o0 = final (c_request x) b) -> exists o0, In o0 (l ++ [o]) /\ o_req o0 = y /\ o_index o0 = j /\ o_answer o0 = final (c_request x) b) as W.
    { intros (o0 & I & X). exists o0. split; [apply in_or_app; now left|exact X]. }
    destruct (w_cases y x E) as [[-> ->]|[_ E']]; [|exact (W (i_task _ _ _ _ V y x j z b E' N B))].
    destruct (w_nth j z N) as [[-> ->]|[_ N']]; [|exact (W (i_task _ _ _ _ V r c j z b Ec N' B))].
    exists o. split; [apply in_or_app; right; now left|]. cbn. assert (b = a) as -> by congruence. now repeat split.
  - intros o0 I. apply in_app_or in I. destruct I as [I|[<-|[]]]; [now apply w_eff|]. cbn. exists c', k'. split; [apply w_here|]. split; [apply w_nth_here|]. split; [exact Ok|]. split; [reflexivity|congruence].
  - intros y x j z q' d' E N Oz Rz. destruct (w_cases y x E) as [[-> ->]|[_ E']]; [|exact (i_ready _ _ _ _ V y x j z q' d' E' N Oz Rz)].
    destruct (w_nth j z N) as [[-> ->]|[_ N']]; [congruence|exact (i_ready _ _ _ _ V r c j z q' d' Ec N' Oz Rz)].
  - rewrite map_app. cbn [map]. apply NoDup_app_snoc_local; [exact (i_once _ _ _ _ V)|]. intros I. apply in_map_iff in I. destruct I as (o0 & E & I). cbn in E. injection E as E1 E2. exact (w_fresh o0 I (conj E1 E2)).
  - intros l1 x l2 y l3 E B. rewrite app_comm_cons, app_assoc in E. destruct (split_snoc o l _ _ _ E) as [(-> & -> & E')|(l3' & -> & E')].
    + apply before_got in B. destruct B as (res & s & B). cbn [o_req o] in B. exact (not_got _ _ _ _ _ _ _ _ _ _ V Ec Nk Ak B).
    + rewrite <- app_assoc in E'. cbn [app] in E'. exact (i_time _ _ _ _ V _ _ _ _ _ E' B).
  - intros l1 x l2 E. destruct (split_snoc o l _ _ _ E) as [(-> & -> & ->)|(l2' & -> & E')]; [exact L|exact (i_legal _ _ _ _ V _ _ _ E')].
  - exact D.
  - intros now' En. destruct (w_tick now' En) as (now & CL & ->). destruct (T now CL) as [T1 T2]. cbn [begins ends] in T1, T2.
    pose proof (i_clock _ _ _ _ V now CL) as C0. destruct C0 as [A0 B0 C0]. unfold not_after in *. split; cbn [w_calls ends].
    + intros y q' s I. specialize (A0 y q' s I). unfold not_after in *. lia.
    + intros y x j z q' d' s q'' E N Oz Rg Rz I. unfold not_after. destruct (w_cases y x E) as [[-> ->]|[_ E']].
      * destruct (w_nth j z N) as [[-> ->]|[_ N']]; [congruence|].
        destruct (B0 r c j z q' d' s q'' Ec N' Oz Rg Rz I) as (Y1 & Y2 & Y3). unfold not_after in *. repeat split; lia.
      * destruct (B0 y x j z q' d' s q'' E' N Oz Rg Rz I) as (Y1 & Y2 & Y3). unfold not_after in *. repeat split; lia.
    + intros o0 q' I Oo Wo R1 R2. apply in_app_or in I. destruct I as [I|[<-|[]]].
      * destruct (C0 o0 q' I Oo Wo R1 R2) as (Y1 & Y2 & Y3 & Y4). unfold not_after in *. repeat split; try assumption; lia.
      * cbn [o_op o_answer o_req o_from o_to o] in *. assert (a = AStatus 0) as Ea by (unfold final in R1; destruct (c_request c), a; congruence).
        destruct (Ck now CL q' Oo Wo Ea R2) as (Y1 & Y2 & Y3). split; [exact Y1|]. split; [exact Y2|]. split; [exact Y3|].
        intros b s J. destruct (not_got _ _ _ _ _ _ _ _ _ _ V Ec Nk Ak J).
Qed.
End Worker.

(** * The registers *)
Notation contents := (contents vt init).
Lemma contents_skip x v l o d : ~ writes o x -> contents x v l d -> contents x v (l ++ [o]) d.
Proof.
  intros N [H|l1 o1 l2 d' E W H].
  - constructor. intros o' I. apply in_app_or in I. destruct I as [I|[<-|[]]]; auto.
  - apply Last with (l1 := l1) (o := o1) (l2 := l2 ++ [o]); [rewrite E, <- app_assoc; reflexivity|exact W|].
    intros o' I. apply in_app_or in I. destruct I as [I|[<-|[]]]; auto.
Qed.
Lemma contents_write x v l o d : wrote vt o x v d -> contents x v (l ++ [o]) d.
Proof. intros W. apply Last with (l1 := l) (o := o) (l2 := []); [reflexivity|exact W|]. intros o' []. Qed.
Lemma contents_picos x v l d : no_picoseconds init -> contents x v l d -> d_srcp d = 0 /\ d_srvp d = 0.
Proof. intros P [H|l1 o l2 d' E (q & W) H]; [apply P|tauto]. Qed.
Lemma wrote_writes o x v d : wrote vt o x v d -> writes o x.
Proof. intros (q & O & N & A & S & _). exists q. now repeat split. Qed.
Lemma contents_fun x v l d d' : (forall o q, In o l -> o_op o = WR q -> proper (d_value (w_value q))) -> contents x v l d -> contents x v l d' -> d = d'.
Proof.
  intros P [H|l1 o l2 d1 E W H] [H'|l1' o' l2' d1' E' W' H'].
  - reflexivity.
  - destruct (H o'); [rewrite E'; apply in_or_app; right; now left|]. now apply wrote_writes in W'.
  - destruct (H' o); [rewrite E; apply in_or_app; right; now left|]. now apply wrote_writes in W.
  - assert (o = o') as <-.
    { rewrite E' in E. clear E'. apply wrote_writes in W, W'. revert l1' E. induction l1 as [|a l1 IH]; intros [|b l1'] E; cbn [app] in E; injection E as E1 E2.
      - congruence.
      - destruct (H o'); [|exact W']. rewrite <- E2. apply in_or_app. right. now left.
      - destruct (H' o); [|exact W]. rewrite E2. apply in_or_app. right. now left.
      - exact (IH l1' E2). }
    assert (In o l) as I by (rewrite E; apply in_or_app; right; now left).
    destruct W as (q & O & _ & _ & _ & Hd & S & F1 & F2 & P1 & P2). destruct W' as (q' & O' & _ & _ & _ & Hd' & S' & F1' & F2' & P1' & P2').
    assert (q' = q) as -> by congruence. pose proof (P o q I O) as Pr. apply holds_stored in Hd; [|exact Pr]. apply holds_stored in Hd'; [|exact Pr].
    destruct d1, d1'. cbn in *. congruence.
Qed.

Lemma op_at r c i k clock w h l : inv clock w h l -> w_calls w r = Some c -> nth_error (c_tasks c) i = Some k ->
  nth_error (ops_of (c_request c)) i = Some (k_op k) /\ fault_of max_read max_write (c_request c) = None.
Proof.
  intros V E N. destruct (i_shape _ _ _ _ V r c E) as [[S1 S2 S3 S4] _]. destruct (c_fault c) eqn:F.
  - rewrite S2 in N by congruence. destruct i; discriminate N.
  - split; [|congruence]. rewrite <- S3 by reflexivity. rewrite nth_error_map, N. reflexivity.
Qed.
Lemma stamps_ok who age st ops : fault_of max_read max_write (Read who age st ops) = None -> 0 <= st <= 3.
Proof.
  unfold fault_of. destruct (below_zero age); [discriminate|]. destruct ((st <? 0) || (3 <? st)) eqn:B; [discriminate|]. intros _.
  apply orb_false_iff in B. destruct B as [B1 B2]. apply Z.ltb_ge in B1, B2. lia.
Qed.
Definition event_plain (e : event) : Prop := match e with Invoke _ q _ => plain_ops q | _ => True end.

Lemma inv_step clock w h l e w' h' : no_picoseconds init -> inv clock w h l -> in_time clock e -> event_plain e ->
  step (w, h) e = Some (w', h') -> exists l', inv (tick clock e) w' h' l'.
Proof.
  intros NP V T P E. unfold DataPath.step in E. destruct (w_down w); [discriminate E|].
  destruct e as [r q t|r i t1 t2|r t].
  - destruct (w_calls w r) eqn:C; [discriminate E|]. injection E as <- <-. exists l. now apply inv_invoke.
  - destruct (w_calls w r) as [c|] eqn:Ec; [|discriminate E]. destruct (nth_error (c_tasks c) i) as [k|] eqn:Nk; [|discriminate E].
    destruct (k_answer k) eqn:Ak; [discriminate E|]. destruct (op_at r c i k clock w h l V Ec Nk) as [Op Ft].
    assert (forall w'', inv (tick clock (Run r i t1 t2)) (mkWorld (w_data w) (w_calls w) w'') h l) as Dead.
    { intros dn. apply inv_later with (clock := clock); [now apply tick_later|exact V]. }
    unfold DataPath.work in E. destruct (k_op k) as [q|q] eqn:Ok.
    + (* read *)
      injection E as <- <-. destruct (c_request c) as [who age st ops|who ops] eqn:Q; cbn [ops_of] in Op;
        [|rewrite nth_error_map in Op; destruct (nth_error ops i); discriminate Op]. cbn [sender].
      eexists. rewrite <- Q at 1.
      eapply (inv_append clock w h l r i t1 t2 c k _ V T Ec Nk Ak) with (a := AValue (read_data who (w_data w) q t1)) (f := no_time) (t := no_time).
      * cbn [k_op]. now rewrite Ok.
      * unfold kind_ok. cbn [k_op k_answer]. exact I.
      * reflexivity.
      * reflexivity.
      * unfold legal. cbn [o_request o_op o_answer]. rewrite Q, Ok. cbn [final]. intros n v A En R. apply stamps_ok in Ft. split.
        -- intros M. exists (w_data w (r_node q)). pose proof (i_data _ _ _ _ V _ n v R) as D. split; [exact D|]. rewrite (read_yes who (w_data w) q t1 n v A En R M).
           destruct (contents_picos _ _ _ _ NP D) as [P1 P2]. split.
           ++ intros ->. cbn [DataPath.read_stored]. now rewrite select_with.
           ++ intros Rn. eexists. split; [reflexivity|]. destruct (select_value st (read_stored (w_data w (r_node q)) (r_range q))) as [-> ->].
              unfold DataPath.read_stored. destruct (r_range q) as [|b0 br]; [congruence|]. destruct (range_read _ _); [now split|now split|exact I].
        -- intros M. destruct (read_no who (w_data w) q t1 n v A En R M) as (st' & -> & B). eexists. split; [reflexivity|].
           destruct (select_value st (refused st' t1)) as [-> ->]. now split.
      * intros x n v R. apply contents_skip; [|exact (i_data _ _ _ _ V _ n v R)]. intros (q' & O & _). cbn [o_op] in O. congruence.
      * intros now _ q' O. congruence.
    + (* write *)
      destruct (c_request c) as [who age st ops|who ops] eqn:Q; cbn [ops_of] in Op;
        [rewrite nth_error_map in Op; destruct (nth_error ops i); discriminate Op|]. cbn [sender] in E.
      assert (w_range q = [] /\ proper (d_value (w_value q))) as [Wr Pr].
      { destruct (i_shape _ _ _ _ V r c Ec) as [_ Pl]. apply (Pl who ops); [exact Q|]. rewrite nth_error_map in Op. destruct (nth_error ops i) eqn:N; [|discriminate Op]. injection Op as <-. exact (nth_error_In _ _ N). }
      destruct (k_ready k) as [d|] eqn:Rk.
      * (* stored *)
        destruct (bad_history nodes (w_node q)); injection E as <- <-; [exists l; apply Dead|].
        pose proof (i_ready _ _ _ _ V r c i k q d Ec Nk Ok Rk) as [W13 Wt]. rewrite Q in Wt. cbn [sender] in Wt.
        eexists. rewrite <- Q at 1.
        eapply (inv_append clock w h l r i t1 t2 c k _ V T Ec Nk Ak) with (a := AStatus 0) (f := d_src d) (t := d_srv d).
        -- cbn [k_op]. now rewrite Ok.
        -- exact I.
        -- reflexivity.
        -- reflexivity.
        -- unfold legal. cbn [o_request o_op o_answer]. rewrite Q, Ok. cbn [final]. intros n v A R. destruct (Wt n v R) as (M & Hd & Ck & _).
           split; [intros _|reflexivity]. split; [exact M|]. now exists (d_value d).
        -- intros x n v R. unfold upd_data. destruct (nodeid_eqb x (w_node q)) eqn:X.
           ++ apply nodeid_eqb_eq in X. subst x. apply contents_write. destruct (Wt n v R) as (M & Hd & Ck & S & P1 & P2).
              exists q. cbn [o_op o_answer o_from o_to]. rewrite Q. cbn [final]. now repeat split.
           ++ apply contents_skip; [|exact (i_data _ _ _ _ V _ n v R)]. intros (q' & O & N & _). cbn [o_op] in O. assert (q' = q) as -> by congruence.
              subst x. assert (nodeid_eqb (w_node q) (w_node q) = true) by (now apply nodeid_eqb_eq). congruence.
        -- intros now Cl q' O A _ (n & v & R). assert (q' = q) as -> by congruence. destruct (i_clock _ _ _ _ V now Cl) as [A0 B0 C0].
           destruct (T now Cl) as [T1 T2]. cbn [begins ends] in T1, T2.
           destruct (i_sent _ _ _ _ V r c Ec) as (s0 & I0).
           destruct (B0 r c i k q d s0 _ Ec Nk Ok (ex_intro _ n (ex_intro _ v R)) Rk I0) as (Y1 & Y2 & Y3).
           split; [|unfold not_after in *; split; lia].
           intros q'' s Is. now apply (B0 r c i k q d s _ Ec Nk Ok (ex_intro _ n (ex_intro _ v R)) Rk Is).
      * (* worked out *)
        destruct (prepare who (w_data w) q t1 t2) as [d|st|] eqn:Pp; injection E as <- <-.
        -- exists l. rewrite <- Q at 1. pose proof (ready_value _ _ _ _ _ _ Pp) as W13.
           assert (forall n v, register (w_node q) n v -> may_write who n v /\ check_value lim (vt (va_type v)) (va_rank v) (shape (to_stored (vt (va_type v)) (va_rank v) (d_value (w_value q)))) = 0 /\
              d = mkDV (to_stored (vt (va_type v)) (va_rank v) (d_value (w_value q))) (d_status (w_value q)) t1 0 t2 0) as F.
           { intros n v R. destruct (prepare_cases who (w_data w) q t1 t2 n v W13 Wr R) as [(M & Ck & X)|(_ & st & X & _)]; [|congruence]. split; [exact M|]. split; [exact Ck|congruence]. }
           apply (inv_prepare clock w h l r i t1 t2 c k) with (q := q) (d := d); try assumption; try reflexivity.
           ++ rewrite Ok. reflexivity.
           ++ rewrite Q. cbn [sender]. split; [exact W13|]. intros n v R. destruct (F n v R) as (M & Ck & ->). cbn. repeat split; try assumption. now apply stored_holds.
           ++ intros n v R. destruct (F n v R) as (_ & _ & ->). now split.
        -- assert (forall n v, w_attr q = 13 -> register (w_node q) n v -> st <> 0 /\
              ~ (may_write who n v /\ check_value lim (vt (va_type v)) (va_rank v) (shape (to_stored (vt (va_type v)) (va_rank v) (d_value (w_value q)))) = 0)) as F.
           { intros n v A R. destruct (prepare_cases who (w_data w) q t1 t2 n v A Wr R) as [(M & Ck & X)|(N & st' & X & Z)]; [congruence|]. split; congruence || exact N. }
           eexists. rewrite <- Q at 1.
           eapply (inv_append clock w h l r i t1 t2 c k _ V T Ec Nk Ak) with (a := AStatus st) (f := no_time) (t := no_time).
           ++ cbn [k_op]. now rewrite Ok.
           ++ exact I.
           ++ reflexivity.
           ++ reflexivity.
           ++ unfold legal. cbn [o_request o_op o_answer]. rewrite Q, Ok. cbn [final]. intros n v A R. destruct (F n v A R) as [Z N]. split.
              ** intros X. congruence.
              ** intros (M & kept & Hd & Ck). destruct N. apply holds_stored in Hd; [|exact Pr]. subst kept. now split.
           ++ intros x n v R. apply contents_skip; [|exact (i_data _ _ _ _ V _ n v R)]. intros (q' & O & N & A & S). cbn [o_op o_answer] in O, S. assert (q' = q) as -> by congruence.
              subst x. destruct (F n v A R) as [Z _]. rewrite Q in S. cbn [final] in S. congruence.
           ++ intros now _ q' O A S (n & v & R). assert (q' = q) as -> by congruence. destruct (F n v A R) as [Z _]. congruence.
        -- exists l. apply Dead.
  - destruct (w_calls w r) as [c|] eqn:Ec; [|discriminate E]. destruct (c_done c) eqn:Dc; [discriminate E|]. destruct (respond c) as [a|] eqn:Rc; [|discriminate E].
    injection E as <- <-. exists l. now apply inv_respond.
Qed.
Fixpoint in_times (clock : option time) (l : list event) : Prop :=
  match l with [] => True | e :: r => in_time clock e /\ in_times (tick clock e) r end.
Lemma inv_run : no_picoseconds init -> forall evs clock w h l w' h', inv clock w h l -> in_times clock evs -> Forall event_plain evs ->
  run (w, h) evs = Some (w', h') -> exists clock' l', inv clock' w' h' l' /\ (clock <> None -> clock' <> None).
Proof.
  intros NP. induction evs as [|e evs IH]; intros clock w h l w' h' V T P E; cbn [DataPath.run] in E.
  - injection E as <- <-. exists clock, l. now split.
  - destruct T as [T1 T2]. inversion P as [|? ? P1 P2]; subst. destruct (step (w, h) e) as [[w1 h1]|] eqn:St; [|discriminate E].
    destruct (inv_step clock w h l e w1 h1 NP V T1 P1 St) as (l1 & V1).
    destruct (IH _ w1 h1 l1 w' h' V1 T2 P2 E) as (cl & l2 & V2 & C). exists cl, l2. split; [exact V2|]. intros N. apply C. destruct clock; [discriminate|congruence].
Qed.

(** * From the invariant to the statement *)
Lemma final_values who age st ops l i d : Forall (fun a => match a with AValue _ => True | AStatus _ => False end) l ->
  nth_error (map (select_stamps st) (values_of l)) i = Some d -> exists a, nth_error l i = Some a /\ AValue d = final (Read who age st ops) a.
Proof.
  intros F. revert i. induction F as [|a l A F IH]; intros i N; [destruct i; discriminate N|]. destruct a as [x|]; [|destruct A].
  destruct i as [|i]; cbn in N |- *; [injection N as <-; now exists (AValue x)|]. now apply IH.
Qed.
Lemma final_statuses who ops l i s : Forall (fun a => match a with AValue _ => False | AStatus _ => True end) l ->
  nth_error (statuses_of l) i = Some s -> exists a, nth_error l i = Some a /\ AStatus s = final (Write who ops) a.
Proof.
  intros F. revert i. induction F as [|a l A F IH]; intros i N; [destruct i; discriminate N|]. destruct a as [|x]; [destruct A|].
  destruct i as [|i]; cbn in N |- *; [injection N as <-; now exists (AStatus x)|]. now apply IH.
Qed.
Lemma answers_kind tasks l (P : op -> Prop) : answers tasks = Some l -> Forall kind_ok tasks -> Forall (fun k => P (k_op k)) tasks ->
  Forall (fun a => exists k, P (k_op k) /\ k_answer k = Some a /\ kind_ok k) l.
Proof.
  revert l. induction tasks as [|k t IH]; intros l E F G; cbn [answers] in E; [injection E as <-; constructor|].
  destruct (k_answer k) as [a|] eqn:A; [|discriminate E]. destruct (answers t) as [l'|]; [|discriminate E]. injection E as <-.
  inversion F; subst. inversion G; subst. constructor; [now exists k|]. now apply IH.
Qed.
Lemma inv_explains clock w h l : inv clock w h l -> explains default nodes vt lim range_read init h l.
Proof.
  intros V. split.
  - exact (i_once _ _ _ _ V).
  - intros o I. destruct (i_eff _ _ _ _ V o I) as (c & k & E & N & O & Q & A). destruct (op_at _ _ _ _ _ _ _ _ V E N) as [Op _].
    destruct (i_sent _ _ _ _ V _ c E) as (t & S). rewrite Q in *. split; [now exists t|congruence].
  - intros r i a An.
    assert (forall res t, In (Got r res t) h -> exists c, w_calls w r = Some c /\ respond c = Some res /\ shaped c) as G.
    { intros res t I. destruct (i_got _ _ _ _ V r res t I) as (c & E & _ & R). exists c. destruct (i_shape _ _ _ _ V r c E) as [S _]. split; [exact E|]. split; [exact R|exact S]. }
    destruct An as [(lv & t & d & I & N & ->)|(lv & t & s & I & N & ->)]; destruct (G _ _ I) as (c & E & R & [S1 S2 S3 S4]); unfold respond in R;
      (destruct (c_fault c) eqn:F; [discriminate R|]); (destruct (answers (c_tasks c)) as [la|] eqn:A; [|discriminate R]);
      specialize (S3 eq_refl); destruct (c_request c) as [who age st ops|who ops] eqn:Q; try discriminate R; injection R as <-.
    + assert (Forall (fun a => match a with AValue _ => True | AStatus _ => False end) la) as Fa.
      { assert (Forall (fun k => match k_op k with RD _ => True | WR _ => False end) (c_tasks c)) as G1.
        { apply Forall_forall. intros k Ik. assert (In (k_op k) (map RD ops)) as Im by (cbn [ops_of] in S3; rewrite <- S3; now apply in_map).
          apply in_map_iff in Im. destruct Im as (q & <- & _). exact Logic.I. }
        pose proof (answers_kind _ _ (fun o => match o with RD _ => True | WR _ => False end) A S4 G1) as K. eapply Forall_impl; [|exact K]. intros x (k & K1 & K2 & K3). unfold kind_ok in K3. rewrite K2 in K3.
        destruct (k_op k); [|destruct K1]. destruct x; [exact Logic.I|exact K3]. }
      destruct (final_values who age st ops la i d Fa N) as (x & Nx & Fx). destruct (answers_nth _ _ _ _ A Nx) as (k & Nk & Ak).
      destruct (i_task _ _ _ _ V r c i k x E Nk Ak) as (o & Io & O1 & O2 & O3). exists o. rewrite Q in O3. now rewrite Fx.
    + assert (Forall (fun a => match a with AValue _ => False | AStatus _ => True end) la) as Fa.
      { assert (Forall (fun k => match k_op k with RD _ => False | WR _ => True end) (c_tasks c)) as G1.
        { apply Forall_forall. intros k Ik. assert (In (k_op k) (map WR ops)) as Im by (cbn [ops_of] in S3; rewrite <- S3; now apply in_map).
          apply in_map_iff in Im. destruct Im as (q & <- & _). exact Logic.I. }
        pose proof (answers_kind _ _ (fun o => match o with RD _ => False | WR _ => True end) A S4 G1) as K. eapply Forall_impl; [|exact K]. intros x (k & K1 & K2 & K3). unfold kind_ok in K3. rewrite K2 in K3.
        destruct (k_op k); [destruct K1|]. destruct x; [exact K3|exact Logic.I]. }
      destruct (final_statuses who ops la i s Fa N) as (x & Nx & Fx). destruct (answers_nth _ _ _ _ A Nx) as (k & Nk & Ak).
      destruct (i_task _ _ _ _ V r c i k x E Nk Ak) as (o & Io & O1 & O2 & O3). exists o. rewrite Q in O3. now rewrite Fx.
  - exact (i_time _ _ _ _ V).
  - exact (i_legal _ _ _ _ V).
Qed.
Lemma inv_timely clock w h l : inv clock w h l -> clock <> None -> timely nodes h l.
Proof.
  intros V C. destruct clock as [now|]; [|congruence]. destruct (i_clock _ _ _ _ V now eq_refl) as [_ _ D].
  intros o x n v I (q & O & N & A & S) R. destruct (D o q I O A S) as (Y1 & Y2 & Y3 & Y4); [exists n, v; now rewrite N|]. now repeat split.
Qed.

(** Every request that was sent is in the history *)
Lemma step_history w h e w' h' : step (w, h) e = Some (w', h') -> (exists x, h' = h ++ x) /\ match e with Invoke r q t => In (Sent r q t) h' | _ => True end.
Proof.
  unfold DataPath.step. destruct (w_down w); [discriminate|]. destruct e as [r q t|r i t1 t2|r t].
  - destruct (w_calls w r); [discriminate|]. intros E. injection E as _ <-. split; [now eexists|]. apply in_or_app. right. now left.
  - destruct (w_calls w r) as [c|]; [|discriminate]. destruct (nth_error _ _) as [k|]; [|discriminate]. destruct (k_answer k); [discriminate|].
    destruct (work _ _ _ _ _); intros E; injection E as _ <-; (split; [exists []; now rewrite app_nil_r|exact I]).
  - destruct (w_calls w r) as [c|]; [|discriminate]. destruct (c_done c); [discriminate|]. destruct (respond c); [|discriminate]. intros E. injection E as _ <-. split; [now eexists|exact I].
Qed.
Lemma run_history evs : forall w h w' h', run (w, h) evs = Some (w', h') ->
  (exists x, h' = h ++ x) /\ forall r q t, In (Invoke r q t) evs -> In (Sent r q t) h'.
Proof.
  induction evs as [|e evs IH]; intros w h w' h' E; cbn [DataPath.run] in E.
  - injection E as _ <-. split; [exists []; now rewrite app_nil_r|]. intros r q t [].
  - destruct (step (w, h) e) as [[w1 h1]|] eqn:St; [|discriminate E]. destruct (step_history _ _ _ _ _ St) as [(x & X) Y]. destruct (IH _ _ _ _ E) as [(x' & X') Z].
    split; [exists (x ++ x'); now rewrite X', X, app_assoc|]. intros r q t [->|I]; [|now apply Z]. rewrite X'. apply in_or_app. now left.
Qed.
Lemma whole_plain evs w h w' h' : run (w, h) evs = Some (w', h') -> whole_writes h' -> Forall event_plain evs.
Proof.
  intros E W. destruct (run_history _ _ _ _ _ E) as [_ S]. apply Forall_forall. intros [r q t|r i t1 t2|r t] I; cbn [event_plain]; try exact Logic.I.
  intros who ops x -> Ix. exact (W r who ops t x (S _ _ _ I) Ix).
Qed.
Lemma times_none evs : in_times None evs.
Proof. induction evs as [|e evs IH]; [exact I|]. split; [intros now H; discriminate H|exact IH]. Qed.
Lemma times_some evs : forall from, clock_runs from evs -> in_times (Some from) evs.
Proof. induction evs as [|e evs IH]; intros from H; [exact I|]. destruct H as (A & B & C). split; [|exact (IH _ C)]. intros now E. injection E as <-. now split. Qed.

Theorem linearizable evs w h : no_picoseconds init -> run (start init) evs = Some (w, h) -> whole_writes h ->
  exists l, explains default nodes vt lim range_read init h l.
Proof.
  intros NP E W. destruct (inv_run NP evs None _ _ _ w h (inv_start None) (times_none evs) (whole_plain _ _ _ _ _ E W) E) as (cl & l & V & _).
  exists l. exact (inv_explains _ _ _ _ V).
Qed.
Theorem linearizable_timely evs w h : no_picoseconds init -> run (start init) evs = Some (w, h) -> whole_writes h -> clock_ok evs ->
  exists l, explains default nodes vt lim range_read init h l /\ timely nodes h l.
Proof.
  intros NP E W (from & C). destruct (inv_run NP evs (Some from) _ _ _ w h (inv_start (Some from)) (times_some evs from C) (whole_plain _ _ _ _ _ E W) E) as (cl & l & V & X).
  exists l. split; [exact (inv_explains _ _ _ _ V)|]. apply (inv_timely cl w); [exact V|]. apply X. discriminate.
Qed.

(** * Answers to requests *)
Lemma below_zero_negative b : 0 <= b < 2 ^ 64 -> below_zero b = true <-> negative b.
Proof.
  intros B. unfold below_zero, negative. cbv zeta. rewrite andb_true_iff, Z.ltb_lt, Z.leb_le.
  change (2 ^ 64) with (2 * 2 ^ 63) in B.
  assert (b = 2 ^ 63 * (b / 2 ^ 63) + b mod 2 ^ 63) as D by (apply Z.div_mod; lia). pose proof (Z.mod_pos_bound b (2 ^ 63)) as M. specialize (M ltac:(lia)).
  assert (b = 2 ^ 52 * (b / 2 ^ 52) + b mod 2 ^ 52) as E by (apply Z.div_mod; lia). pose proof (Z.mod_pos_bound b (2 ^ 52)) as N. specialize (N ltac:(lia)).
  assert (b / 2 ^ 52 / 2 ^ 11 = b / 2 ^ 63) as F by (rewrite Z.div_div by lia; reflexivity).
  assert (b / 2 ^ 52 = 2 ^ 11 * (b / 2 ^ 63) + b / 2 ^ 52 mod 2 ^ 11) as G by (rewrite <- F; apply Z.div_mod; lia).
  pose proof (Z.mod_pos_bound (b / 2 ^ 52) (2 ^ 11)) as H. specialize (H ltac:(lia)).
  set (s := b / 2 ^ 63) in *. set (x := b / 2 ^ 52 mod 2 ^ 11) in *. set (f := b mod 2 ^ 52) in *. set (m := b mod 2 ^ 63) in *. rewrite G in E. clearbody s x f m. clear F G.
  assert (0 <= s <= 1) by lia. lia.
Qed.
Lemma fault_reason q : bits_ok q -> match fault_of max_read max_write q with Some st => reason max_read max_write q st | None => forall st, ~ reason max_read max_write q st end.
Proof.
  intros B. destruct q as [who age st ops|who ops]; cbn [bits_ok] in B; unfold fault_of, reason, zlen.
  - pose proof (below_zero_negative age B) as NZ. destruct (below_zero age).
    { left. split; [reflexivity|now apply NZ]. }
    assert (~ negative age) as N by (intros X; apply NZ in X; discriminate X). clear NZ.
    destruct ((st <? 0) || (3 <? st)) eqn:S.
    { right. left. split; [reflexivity|]. split; [exact N|]. apply orb_true_iff in S. rewrite !Z.ltb_lt in S. lia. }
    apply orb_false_iff in S. rewrite !Z.ltb_ge in S. assert (0 <= st <= 3) as S' by lia. clear S.
    destruct (Z.of_nat (length ops) =? 0) eqn:L.
    { right. right. left. apply Z.eqb_eq in L. destruct ops; [tauto|cbn in L; lia]. }
    assert (ops <> []) as O by (intros ->; discriminate L).
    destruct (max_read <? Z.of_nat (length ops)) eqn:M; [apply Z.ltb_lt in M; tauto|]. apply Z.ltb_ge in M. intros x [X|[X|[X|X]]]; try tauto; lia.
  - destruct (Z.of_nat (length ops) =? 0) eqn:L.
    { left. apply Z.eqb_eq in L. destruct ops; [tauto|cbn in L; lia]. }
    assert (ops <> []) as O by (intros ->; discriminate L).
    destruct (max_write <? Z.of_nat (length ops)) eqn:M; [apply Z.ltb_lt in M; tauto|]. apply Z.ltb_ge in M. intros x [X|X]; try tauto; lia.
Qed.
(** Without any assumption on the writes *)
Record base (w : world) (h : list obs) : Prop := {
  b_call : forall r q t, In (Sent r q t) h -> exists c, w_calls w r = Some c /\ c_request c = q;
  b_sent : forall r c, w_calls w r = Some c -> exists t, In (Sent r (c_request c) t) h;
  b_shape : forall r c, w_calls w r = Some c -> shaped c;
  b_got : forall r a t, In (Got r a t) h -> exists c, w_calls w r = Some c /\ c_done c = true /\ respond c = Some a }.
Lemma work_kind who data k t1 t2 data' k' : work who data k t1 t2 = Worked data' k' -> k_op k' = k_op k /\ kind_ok k'.
Proof.
  unfold DataPath.work, kind_ok. destruct (k_op k) eqn:O; [intros E; injection E as _ <-; cbn; now split|].
  destruct (k_ready k); [destruct (bad_history _ _); [discriminate|]; intros E; injection E as _ <-; cbn; now split|].
  destruct (prepare _ _ _ _ _); try discriminate; intros E; injection E as _ <-; cbn; now split.
Qed.
Lemma base_step w h e w' h' : base w h -> step (w, h) e = Some (w', h') -> base w' h'.
Proof.
  intros [B1 B2 B3 B4] E. unfold DataPath.step in E. destruct (w_down w); [discriminate E|].
  destruct e as [r q t|r i t1 t2|r t].
  - destruct (w_calls w r) eqn:C; [discriminate E|]. injection E as <- <-.
    assert (c_request (begin_call q) = q) as Q by (unfold DataPath.begin_call; destruct (fault_of _ _ q); reflexivity).
    split; cbn [w_calls]; unfold upd_call.
    + intros y q' t' I. apply in_app_or in I. destruct I as [I|[I|[]]].
      * destruct (B1 y q' t' I) as (c & Ec & R). exists c. split; [|exact R]. destruct (Z.eqb_spec y r); [congruence|exact Ec].
      * injection I as <- <- <-. rewrite Z.eqb_refl. now exists (begin_call q).
    + intros y c Ey. destruct (Z.eqb_spec y r) as [->|N]; [injection Ey as <-; rewrite Q; exists t; apply in_or_app; right; now left|].
      destruct (B2 y c Ey) as (t' & I). exists t'. apply in_or_app. now left.
    + intros y c Ey. destruct (Z.eqb_spec y r) as [->|N]; [injection Ey as <-|exact (B3 y c Ey)].
      unfold DataPath.begin_call. destruct (fault_of max_read max_write q) eqn:FF; split; cbn [c_fault c_tasks c_request]; try congruence; try (symmetry; exact FF); try (intros; congruence); try constructor.
      * intros _. rewrite map_map. cbn [k_op]. apply map_id.
      * apply Forall_map. apply Forall_forall. intros o _. unfold kind_ok. cbn. destruct o; exact I.
    + intros y a t' I. apply in_app_or in I. destruct I as [I|[I|[]]]; [|discriminate I]. destruct (B4 y a t' I) as (c & Ec & R). exists c. split; [|exact R]. destruct (Z.eqb_spec y r); [congruence|exact Ec].
  - destruct (w_calls w r) as [c|] eqn:Ec; [|discriminate E]. destruct (nth_error (c_tasks c) i) as [k|] eqn:Nk; [|discriminate E].
    destruct (k_answer k) eqn:Ak; [discriminate E|]. destruct (work _ _ _ _ _) as [data k'|] eqn:Wk; injection E as <- <-; [|split; assumption].
    destruct (work_kind _ _ _ _ _ _ _ Wk) as [Ok Kk]. destruct (B3 r c Ec) as [S1 S2 S3 S4].
    assert (forall a t, ~ In (Got r a t) h) as NG.
    { intros a t I. destruct (B4 r a t I) as (c' & Ec' & _ & R). assert (c' = c) as -> by congruence. unfold respond in R. destruct (c_fault c) eqn:F.
      - rewrite S2 in Nk by congruence. destruct i; discriminate Nk.
      - destruct (answers (c_tasks c)) as [x|] eqn:X; [|discriminate R]. exact (answers_all _ _ k X (nth_error_In _ _ Nk) Ak). }
    split; cbn [w_calls]; unfold upd_call.
    + intros y q t I. destruct (B1 y q t I) as (x & Ex & R). destruct (Z.eqb_spec y r) as [->|N]; [|now exists x]. eexists. split; [reflexivity|]. cbn. congruence.
    + intros y x Ey. destruct (Z.eqb_spec y r) as [->|N]; [injection Ey as <-; cbn; exact (B2 r c Ec)|exact (B2 y x Ey)].
    + intros y x Ey. destruct (Z.eqb_spec y r) as [->|N]; [injection Ey as <-|exact (B3 y x Ey)]. split; cbn [c_fault c_tasks c_request].
      * exact S1.
      * intros F. apply S2 in F. rewrite F in Nk. destruct i; discriminate Nk.
      * intros F. rewrite (map_set_at k_op i k' _ k Nk Ok). now apply S3.
      * now apply forall_set_at.
    + intros y a t I. destruct (Z.eqb_spec y r) as [->|N]; [destruct (NG a t I)|exact (B4 y a t I)].
  - destruct (w_calls w r) as [c|] eqn:Ec; [|discriminate E]. destruct (c_done c) eqn:Dc; [discriminate E|]. destruct (respond c) as [a|] eqn:Rc; [|discriminate E].
    injection E as <- <-. split; cbn [w_calls]; unfold upd_call.
    + intros y q t' I. apply in_app_or in I. destruct I as [I|[I|[]]]; [|discriminate I]. destruct (B1 y q t' I) as (x & Ex & R).
      destruct (Z.eqb_spec y r) as [->|N]; [|now exists x]. eexists. split; [reflexivity|]. cbn. congruence.
    + intros y x Ey. assert (exists t', In (Sent y (c_request x) t') h) as (t' & I); [|exists t'; apply in_or_app; now left].
      destruct (Z.eqb_spec y r) as [->|N]; [injection Ey as <-; cbn; exact (B2 r c Ec)|exact (B2 y x Ey)].
    + intros y x Ey. destruct (Z.eqb_spec y r) as [->|N]; [injection Ey as <-|exact (B3 y x Ey)]. destruct (B3 r c Ec). split; assumption.
    + intros y b t' I. apply in_app_or in I. destruct I as [I|[I|[]]].
      * destruct (B4 y b t' I) as (x & Ex & D & R). destruct (Z.eqb_spec y r) as [->|N]; [congruence|now exists x].
      * injection I as <- <- <-. rewrite Z.eqb_refl. eexists. split; [reflexivity|]. split; [reflexivity|exact Rc].
Qed.
Lemma base_run evs : forall w h w' h', base w h -> run (w, h) evs = Some (w', h') -> base w' h'.
Proof.
  induction evs as [|e evs IH]; intros w h w' h' B E; cbn [DataPath.run] in E; [now injection E as <- <-|].
  destruct (step (w, h) e) as [[w1 h1]|] eqn:St; [|discriminate E]. exact (IH _ _ _ _ (base_step _ _ _ _ _ B St) E).
Qed.
Lemma base_start : base (fst (start init)) (snd (start init)).
Proof. split; cbn; try (intros; contradiction); intros; discriminate. Qed.
Theorem answers_fit evs w h r q t a t' : run (start init) evs = Some (w, h) -> bits_ok q -> In (Sent r q t) h -> In (Got r a t') h ->
  fits_request max_read max_write q a.
Proof.
  intros E B S G. pose proof (base_run _ _ _ _ _ base_start E) as [B1 B2 B3 B4].
  destruct (B1 r q t S) as (c & Ec & Q). destruct (B4 r a t' G) as (c' & Ec' & _ & R). assert (c' = c) as -> by congruence.
  destruct (B3 r c Ec) as [S1 S2 S3 S4]. pose proof (fault_reason q B) as F. rewrite Q in S1. unfold respond in R. destruct (c_fault c) as [st|].
  - injection R as <-. rewrite <- S1 in F. cbn [fits_request]. exact F.
  - specialize (S3 eq_refl). destruct (answers (c_tasks c)) as [l|] eqn:A; [|discriminate R]. rewrite Q in *. injection R as <-.
    pose proof (answers_length _ _ A) as L. assert (length (c_tasks c) = length (ops_of q)) as L' by (rewrite <- S3; now rewrite map_length).
    destruct q as [who age st ops|who ops]; cbn [fits_request ops_of] in *; rewrite map_length in L'.
    + rewrite map_length. rewrite <- L', <- L.
      assert (Forall (fun k => match k_op k with RD _ => True | WR _ => False end) (c_tasks c)) as G1.
      { apply Forall_forall. intros k Ik. assert (In (k_op k) (map RD ops)) as Im by (rewrite <- S3; now apply in_map). apply in_map_iff in Im. destruct Im as (x & <- & _). exact Logic.I. }
      pose proof (answers_kind _ _ (fun o => match o with RD _ => True | WR _ => False end) A S4 G1) as K. clear - K.
      induction K as [|x l (k & K1 & K2 & K3) K IH]; [reflexivity|]. unfold kind_ok in K3. rewrite K2 in K3. destruct (k_op k); [|destruct K1]. destruct x; [|destruct K3]. cbn. f_equal. exact IH.
    + rewrite <- L', <- L.
      assert (Forall (fun k => match k_op k with RD _ => False | WR _ => True end) (c_tasks c)) as G1.
      { apply Forall_forall. intros k Ik. assert (In (k_op k) (map WR ops)) as Im by (rewrite <- S3; now apply in_map). apply in_map_iff in Im. destruct Im as (x & <- & _). exact Logic.I. }
      pose proof (answers_kind _ _ (fun o => match o with RD _ => False | WR _ => True end) A S4 G1) as K. clear - K.
      induction K as [|x l (k & K1 & K2 & K3) K IH]; [reflexivity|]. unfold kind_ok in K3. rewrite K2 in K3. destruct (k_op k); [destruct K1|]. destruct x; [destruct K3|]. cbn. f_equal. exact IH.
Qed.

(** * The last value *)
Lemma explained_last h l : explains default nodes vt lim range_read init h l ->
  (forall r q t q' t', In (Sent r q t) h -> In (Sent r q' t') h -> q = q') ->
  forall r1 i q1 x r2 j who age st ops y n v d,
  asked h r1 i q1 (WR x) -> w_attr x = 13 -> register (w_node x) n v -> answered h r1 i (AStatus 0) ->
  asked h r2 j (Read who age st ops) (RD y) -> r_node y = w_node x -> r_attr y = 13 -> r_encoding y = [] -> r_range y = [] -> may_read who n v ->
  before h r1 r2 ->
  (forall r k q z, asked h r k q (WR z) -> w_node z = w_node x -> w_attr z = 13 -> (r = r1 /\ k = i) \/ before h r r1 \/ before h r2 r) ->
  answered h r2 j (AValue d) ->
  holds v (d_value (w_value x)) (d_value d) /\ d_status d = d_status (w_value x).
Proof.
  intros [E1 E2 E3 E4 E5] U r1 i q1 x r2 j who age st ops y n v d A1 X13 Rg G1 A2 Yn Y13 Ye Yr M Bf Only G2.
  destruct (E3 _ _ _ G1) as (o1 & I1 & R1 & K1 & S1). destruct (E3 _ _ _ G2) as (o2 & I2 & R2 & K2 & S2).
  assert (o_op o1 = WR x) as O1.
  { destruct (E2 o1 I1) as [(t & J) N]. destruct A1 as [(t' & J') N']. rewrite R1 in J. rewrite K1 in N. pose proof (U _ _ _ _ _ J J') as Q. rewrite Q in N. congruence. }
  assert (o_request o2 = Read who age st ops /\ o_op o2 = RD y) as [Q2 O2].
  { destruct (E2 o2 I2) as [(t & J) N]. destruct A2 as [(t' & J') N']. rewrite R2 in J. rewrite K2 in N. pose proof (U _ _ _ _ _ J J') as Q. rewrite Q in N. split; [exact Q|congruence]. }
  assert (writes o1 (w_node x)) as W1 by (exists x; now repeat split).
  apply in_split in I2. destruct I2 as (l1 & l2 & L).
  pose proof (E5 l1 o2 l2 L) as Lg. unfold legal in Lg. rewrite Q2, O2 in Lg. destruct (Lg n v Y13 Ye ltac:(now rewrite Yn)) as [Lr _]. destruct (Lr M) as (d0 & C & Sm & _). specialize (Sm Yr).
  rewrite S2 in Sm. injection Sm as ->. cbn [with_stamps d_value d_status].
  assert (In o1 l1) as J1.
  { rewrite L in I1. apply in_app_or in I1. destruct I1 as [I1|[I1|I1]]; [exact I1|subst o1; congruence|].
    apply in_split in I1. destruct I1 as (m1 & m2 & ->). destruct (E4 l1 o2 m1 o1 m2 L). now rewrite R1, R2. }
  rewrite Yn in C. destruct C as [H|la o lb d1 Ell Wr H].
  - destruct (H o1 J1 W1).
  - assert (o = o1) as ->.
    { pose proof (wrote_writes _ _ _ _ Wr) as (z & Oz & Nz & Az & Sz).
      assert (In o l) as Io by (rewrite L, Ell; apply in_or_app; left; apply in_or_app; right; now left).
      assert (forall a b, In a l -> In b l -> o_req a = o_req b -> o_index a = o_index b -> a = b) as Inj.
      { clear - E1. induction l as [|c l IH]; [intros a b []|]. cbn [map] in E1. inversion E1 as [|? ? N D]; subst. intros a b [->|Ia] [->|Ib] Er Ei.
        - reflexivity.
        - destruct N. apply in_map_iff. exists b. split; [congruence|exact Ib].
        - destruct N. apply in_map_iff. exists a. split; [congruence|exact Ia].
        - exact (IH D a b Ia Ib Er Ei). }
      pose proof (E2 o Io) as As. rewrite Oz in As. destruct (Only _ _ _ _ As Nz Az) as [[Er Ei]|[Bo|Bo]].
      - apply Inj; [exact Io|rewrite L; apply in_or_app; now left|congruence|congruence].
      - rewrite Ell in J1. apply in_app_or in J1. destruct J1 as [J1|[J1|J1]]; [|exact J1|destruct (H o1 J1 W1)].
        apply in_split in J1. destruct J1 as (m1 & m2 & ->). rewrite L, Ell in E4. destruct (E4 m1 o1 m2 o (lb ++ o2 :: l2)); [|now rewrite R1].
        repeat (rewrite <- app_assoc; cbn [app]). reflexivity.
      - destruct (E4 la o lb o2 l2); [|now rewrite R2]. rewrite L, Ell. repeat (rewrite <- app_assoc; cbn [app]). reflexivity. }
    destruct Wr as (z & Oz & _ & _ & _ & Hd & Sd & _). assert (z = x) as -> by congruence. now split.
Qed.
Theorem last_value evs w h : no_picoseconds init -> run (start init) evs = Some (w, h) -> whole_writes h ->
  forall r1 i q1 x r2 j who age st ops y n v d,
  asked h r1 i q1 (WR x) -> w_attr x = 13 -> register (w_node x) n v -> answered h r1 i (AStatus 0) ->
  asked h r2 j (Read who age st ops) (RD y) -> r_node y = w_node x -> r_attr y = 13 -> r_encoding y = [] -> r_range y = [] -> may_read who n v ->
  before h r1 r2 ->
  (forall r k q z, asked h r k q (WR z) -> w_node z = w_node x -> w_attr z = 13 -> (r = r1 /\ k = i) \/ before h r r1 \/ before h r2 r) ->
  answered h r2 j (AValue d) ->
  holds v (d_value (w_value x)) (d_value d) /\ d_status d = d_status (w_value x).
Proof.
  intros NP E W. destruct (linearizable evs w h NP E W) as (l & X).
  pose proof (base_run _ _ _ _ _ base_start E) as [B1 B2 B3 B4].
  apply (explained_last h l X).
  intros r q t q' t' I1 I2. destruct (B1 _ _ _ I1) as (c & H1 & H2). destruct (B1 _ _ _ I2) as (c' & H3 & H4). congruence.
Qed.
End S.
