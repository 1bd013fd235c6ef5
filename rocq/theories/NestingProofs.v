(** Proofs about how deep the decoder calls itself. *)
From Coq Require Import ZArith String List Bool Lia Strings.Byte.
From Verif Require Import Bytes Prim Value Registry StructTable MessageTable Messages BytesProofs CodecSpec PrimSpec ValueSpec PrimProofs ValueProofs MessageProofs Nesting NestingSpec.
Import ListNotations.
Open Scope Z_scope.
Ltac Zify.zify_post_hook ::= idtac.

Lemma least_ok f n : forall k, f (k + n)%nat = true ->
  f (least f n k) = true /\ (k <= least f n k <= k + n)%nat /\ forall m, (k <= m < least f n k)%nat -> f m = false.
Proof.
  induction n as [|n IH]; intros k H; cbn [least].
  - rewrite Nat.add_0_r in H. split; [exact H|]. split; [lia|]. intros m M. lia.
  - destruct (f k) eqn:F; [split; [exact F|]; split; [lia|]; intros m M; lia|].
    replace (k + S n)%nat with (S k + n)%nat in H by lia. destruct (IH (S k) H) as (A & B & C). split; [exact A|]. split; [lia|].
    intros m M. destruct (Nat.eq_dec m k) as [->|N]; [exact F|]. apply C. lia.
Qed.
Lemma depth_ok E t s : dec E (depth E t s) t s = decode E t s /\ (depth E t s <= S (length s))%nat /\
  forall m, (m < depth E t s)%nat -> dec E m t s = Fuel.
Proof.
  unfold depth. set (f := fun m => negb (exhausted (dec E m t s))).
  assert (T : f (0 + S (length s))%nat = true).
  { unfold f. pose proof (decode_no_fuel E t s) as N. unfold decode in N. cbn [Nat.add]. destruct (dec E (S (length s)) t s); try reflexivity. congruence. }
  destruct (least_ok f _ 0%nat T) as (A & B & C). set (n := least f (S (length s)) 0) in *. split; [|split; [lia|]].
  - destruct (dec_mono E n (S (length s)) t ltac:(lia) s) as [F|F]; [unfold f in A; rewrite F in A; discriminate|]. symmetry. exact F.
  - intros m M. specialize (C m ltac:(lia)). unfold f in C. destruct (dec E m t s); try discriminate C. reflexivity.
Qed.
Lemma depth_unique E t s n : dec E n t s <> Fuel -> (forall m, (m < n)%nat -> dec E m t s = Fuel) -> depth E t s = n.
Proof.
  intros A B. destruct (depth_ok E t s) as (C & _ & D). destruct (lt_eq_lt_dec (depth E t s) n) as [[L|L]|L]; [|exact L|].
  - exfalso. apply (decode_no_fuel E t s). rewrite <- C. apply B, L.
  - exfalso. apply A, D, L.
Qed.

(** a type without dynamic parts makes no call *)
Lemma zip_same f g ts : Forall (fun t => forall s, f t s = g t s) ts -> forall s, dzip f ts s = dzip g ts s.
Proof.
  induction 1 as [|t ts P _ IH]; intro s; cbn [dzip]; [reflexivity|]. unfold bind at 1 2. rewrite P. destruct (g t s); try reflexivity.
  unfold fmap, bind. rewrite IH. reflexivity.
Qed.
Lemma read_n_same {A} (f g : reader A) n : (forall s, f s = g s) -> forall s, read_n n f s = read_n n g s.
Proof.
  intro P. induction n as [|n IH]; intro s; cbn [read_n]; [reflexivity|]. unfold bind. rewrite P. destruct (g s); try reflexivity.
  unfold fmap, bind. rewrite IH. reflexivity.
Qed.
Lemma static_same E f g t : static t = true -> forall s, dty E f t s = dty E g t s.
Proof.
  induction t as [b| | | | | |l IH|l IH|t IH| ] using ty_ind'; cbn [static dty]; intros S s; try discriminate; try reflexivity.
  - unfold fmap, bind. rewrite (zip_same (dty E f) (dty E g)); [reflexivity|]. rewrite Forall_forall in *. rewrite forallb_forall in S. auto.
  - unfold fmap, bind. rewrite (zip_same (dty E f) (dty E g)); [reflexivity|]. rewrite Forall_forall in *. rewrite forallb_forall in S. auto.
  - unfold bind at 1 2. destruct (read_sint 4 s); try reflexivity. destruct (_ <=? 0); [reflexivity|].
    unfold fmap, bind. rewrite (read_n_same (dty E f t) (dty E g t)) by (intro; apply IH, S). reflexivity.
Qed.
Lemma static_depth E t s : static t = true -> depth E t s = 1%nat.
Proof.
  intro S. apply depth_unique.
  - intro F. apply (decode_no_fuel E t s). rewrite <- F. unfold decode. cbn [dec]. destruct (supported t); [|reflexivity].
    apply static_same, S.
  - intros m M. replace m with 0%nat by lia. reflexivity.
Qed.

(* ------------------------------------------------------------------ *)
Lemma flat_static t : flat t = static t.
Proof.
  assert (F : forall l, Forall (fun t => flat t = static t) l -> forallb flat l = forallb static l) by (intros l H; induction H as [|t' l A _ IH]; [reflexivity|cbn [forallb]; rewrite A, IH; reflexivity]).
  induction t using ty_ind'; cbn [flat static]; auto.
Qed.
Lemma flat_depth E t s : flat t = true -> depth E t s = 1%nat.
Proof. rewrite flat_static. apply static_depth. Qed.

Lemma byte_read z (s : bytes) : 0 <= z < 256 -> read_uint 1 (le_enc 1 z ++ s) = Ok z s.
Proof. intro H. exact (codes_rt (codes_uint false 1 z H) s). Qed.
Lemma box_step rec s : read_variant rec (x18 :: s) = fmap (fun v => v) (rec TVar) s.
Proof. change (x18 :: s) with (le_enc 1 24 ++ s). unfold read_variant. unfold bind at 1. rewrite byte_read by lia. reflexivity. Qed.
Lemma null_step rec s : read_variant rec (x00 :: s) = Ok VNil s.
Proof. change (x00 :: s) with (le_enc 1 0 ++ s). unfold read_variant. unfold bind at 1. rewrite byte_read by lia. reflexivity. Qed.
Lemma boxes_read E n : forall k rest, read_variant (dec E k) (boxes n ++ rest) = if (n <=? k)%nat then Ok VNil rest else Fuel.
Proof.
  induction n as [|n IH]; intros k rest; [apply null_step|]. unfold boxes. cbn [repeat app]. rewrite box_step. unfold fmap, bind, ret.
  destruct k as [|k]; [reflexivity|]. cbn [dec supported dty]. fold (boxes n). rewrite IH. cbn [Nat.leb]. destruct (n <=? k)%nat; reflexivity.
Qed.
Lemma boxes_dec E n m : dec E m TVar (boxes n) = if (n <? m)%nat then Ok VNil [] else Fuel.
Proof.
  destruct m as [|m]; [reflexivity|]. cbn [dec supported dty]. rewrite <- (app_nil_r (boxes n)), boxes_read. reflexivity.
Qed.
Lemma boxes_depth E n : decode E TVar (boxes n) = Ok VNil [] /\ depth E TVar (boxes n) = S n.
Proof.
  split.
  - unfold decode. rewrite boxes_dec. unfold boxes. rewrite app_length, repeat_length. cbn [length].
    destruct (Nat.ltb_spec n (S (n + 1))); [reflexivity|lia].
  - apply depth_unique; [rewrite boxes_dec; destruct (Nat.ltb_spec n (S n)); [discriminate|lia]|].
    intros m M. rewrite boxes_dec. destruct (Nat.ltb_spec n m); [lia|reflexivity].
Qed.

Lemma chain_step rec s : read_dv rec (x01 :: s) =
  bind (catch_variant (rec TVar)) (fun vs => ret (VDV (fst vs) (snd vs) zero_time 0 zero_time 0)) s.
Proof. change (x01 :: s) with (le_enc 1 1 ++ s). unfold read_dv. unfold bind at 1. rewrite byte_read by lia. reflexivity. Qed.
Lemma value_step rec s : read_variant rec (x17 :: s) = fmap (VScalar KDV) (rec TDV) s.
Proof. change (x17 :: s) with (le_enc 1 23 ++ s). unfold read_variant. unfold bind at 1. rewrite byte_read by lia. reflexivity. Qed.
Lemma end_step rec s : read_dv rec (x00 :: s) = Ok (chained 0) s.
Proof. change (x00 :: s) with (le_enc 1 0 ++ s). unfold read_dv. unfold bind at 1. rewrite byte_read by lia. reflexivity. Qed.
Lemma chain_read E n : forall k rest, read_dv (dec E k) (chain n ++ rest) = if (2 * n <=? k)%nat then Ok (chained n) rest else Fuel.
Proof.
  induction n as [|n IH]; intros k rest; [apply end_step|]. cbn [chain app]. rewrite chain_step. unfold bind, catch_variant.
  destruct k as [|k]; [reflexivity|]. cbn [dec supported dty]. rewrite value_step. unfold fmap, bind.
  destruct k as [|k]; [replace (2 * S n <=? 1)%nat with false by (symmetry; apply Nat.leb_gt; lia); reflexivity|].
  cbn [dec supported dty]. rewrite IH. replace (2 * S n)%nat with (S (S (2 * n))) by lia. cbn [Nat.leb].
  destruct (2 * n <=? k)%nat; reflexivity.
Qed.
Lemma chain_dec E n m : dec E m TDV (chain n) = if (2 * n <? m)%nat then Ok (chained n) [] else Fuel.
Proof.
  destruct m as [|m]; [reflexivity|]. cbn [dec supported dty]. rewrite <- (app_nil_r (chain n)), chain_read. reflexivity.
Qed.
Lemma chain_length n : length (chain n) = (2 * n + 1)%nat.
Proof. induction n as [|n IH]; [reflexivity|]. cbn [chain length app]. lia. Qed.
Lemma chain_depth E n : decode E TDV (chain n) = Ok (chained n) [] /\ depth E TDV (chain n) = S (2 * n).
Proof.
  split.
  - unfold decode. rewrite chain_dec, chain_length. destruct (Nat.ltb_spec (2 * n) (S (2 * n + 1))); [reflexivity|lia].
  - apply depth_unique; [rewrite chain_dec; destruct (Nat.ltb_spec (2 * n) (S (2 * n))); [discriminate|lia]|].
    intros m M. rewrite chain_dec. destruct (Nat.ltb_spec (2 * n) m); [lia|reflexivity].
Qed.

(* ------------------------------------------------------------------ *)
(** * Messages *)

Lemma within_enough table uris m s : (length s < m)%nat -> receive_within m table uris s = receive table uris s.
Proof.
  intro L. unfold receive_within, receive, bind. pose proof (eats_nodeid s) as N. destruct (read_nodeid s) as [i r|r| |]; try reflexivity.
  destruct (find _ table) as [[k name]|]; [|reflexivity]. destruct (fields_of_name name) as [f|]; [|reflexivity].
  rewrite (decode_eq_dec (std_env uris) m (TStruct f) r) by lia. reflexivity.
Qed.
Lemma within_same table uris m s : receive_within m table uris s <> Fuel -> receive_within m table uris s = receive table uris s.
Proof.
  unfold receive_within, receive, bind. destruct (read_nodeid s) as [i r|r| |]; try reflexivity.
  destruct (find _ table) as [[k name]|]; [|reflexivity]. destruct (fields_of_name name) as [f|]; [|reflexivity].
  intro N. rewrite <- (decode_eq_dec (std_env uris) (m + S (length r)) (TStruct f) r) by lia.
  destruct (dec_mono (std_env uris) m (m + S (length r)) (TStruct f) ltac:(lia) r) as [F|F]; [rewrite F in N; congruence|].
  rewrite F. reflexivity.
Qed.

Definition map_ok {A B} (f : A -> B) (r : res A) : res B :=
  match r with Ok a x => Ok (f a) x | Err x => Err x | Panic => Panic | Fuel => Fuel end.
Lemma zip_step f t ts (a s : bytes) v : f t (a ++ s) = Ok v s -> dzip f (t :: ts) (a ++ s) = map_ok (cons v) (dzip f ts s).
Proof. intro H. cbn [dzip]. unfold bind at 1. rewrite H. unfold fmap, bind. destruct (dzip f ts s); reflexivity. Qed.
Lemma sint_read k z (s : bytes) : (0 < k)%nat -> in_s (Z.of_nat k) z -> read_sint k (le_enc k z ++ s) = Ok z s.
Proof. intros K H. exact (codes_rt (codes_sint false k z K H) s). Qed.
Lemma uint_read k z (s : bytes) : in_u (Z.of_nat k) z -> read_uint k (le_enc k z ++ s) = Ok z s.
Proof. intro H. exact (codes_rt (codes_uint false k z H) s). Qed.
Lemma leaf_read E rec t x (s : bytes) : bwf t x -> dty E rec (TB t) (bwrite t x ++ s) = Ok (VB t (bnorm t x)) s.
Proof. intro H. exact (codes_rt (codes_fmap false (bread t) (VB t) _ _ (codes_leaf false t x H)) s). Qed.

Definition pair_fields : list ty := [TB BQName; TVar].
Lemma pair_type uris : exists tid, v_type_of_id (std_env uris) (std_id 14846) = Some tid /\ v_fields (std_env uris) tid = pair_fields.
Proof.
  destruct (table_registered "KeyValuePair" 14846 f_KeyValuePair uris) as (t & _ & F & _ & T); [left; reflexivity|].
  exists t. split; [exact T|exact F].
Qed.
Lemma ext_read uris k n rest : exists v,
  read_ext (std_env uris) (dec (std_env uris) k) (([x01; x00; xfe; x39; x01] ++ le_enc 4 0 ++ ([x00; x00] ++ le_enc 4 (-1)) ++ boxes n) ++ rest) =
  if (n <? k)%nat then Ok v rest else Fuel.
Proof.
  destruct (pair_type uris) as (tid & T & F). eexists. rewrite <- !app_assoc. unfold read_ext.
  change ([x01; x00; xfe; x39; x01] ++ ?s) with (write_nodeid (NNum 0 14846) ++ le_enc 1 1 ++ s).
  unfold bind at 1. rewrite (codes_rt (codes_nodeid false (NNum 0 14846) ltac:(cbn; unfold in_u; lia))).
  unfold bind at 1. rewrite uint_read by (unfold in_u; cbn; lia). cbn [Z.eqb Pos.eqb norm_nodeid].
  change (to_expanded (NNum 0 14846) (v_uris (std_env uris))) with (std_id 14846). rewrite T.
  unfold bind at 1. rewrite sint_read by (unfold in_s; cbn; lia). rewrite F. unfold bind at 1.
  destruct k as [|k]; [reflexivity|]. cbn [dec supported dty]. change (forallb supported pair_fields) with true. cbv iota.
  unfold fmap at 1. unfold bind at 1. unfold pair_fields.
  change ([x00; x00] ++ le_enc 4 (-1) ++ boxes n ++ rest) with (bwrite BQName (mkQ 0 []) ++ boxes n ++ rest).
  rewrite (zip_step _ (TB BQName) [TVar] _ _ _ (leaf_read (std_env uris) _ BQName (mkQ 0 []) (boxes n ++ rest) ltac:(cbn; unfold wf_qname, in_u, len_ok; cbn; lia))).
  cbn [dzip dty]. unfold bind at 1. rewrite boxes_read. change (n <? S k)%nat with (n <=? k)%nat. destruct (n <=? k)%nat; reflexivity.
Qed.

(** what is left after the header of a request, at room [k] *)
Lemma header_read uris k n rest : exists l,
  dty (std_env uris) (dec (std_env uris) k) (TStruct f_RequestHeader) (boxed_header n ++ rest) = if (n <? k)%nat then Ok (VStruct l) rest else Fuel.
Proof.
  destruct (ext_read uris k n rest) as (v & X). eexists. unfold boxed_header. repeat rewrite <- app_assoc in X. repeat rewrite <- app_assoc. cbn [dty]. unfold fmap. unfold bind at 1. unfold f_RequestHeader.
  change ([x00; x00] ++ ?s) with (bwrite BNodeId NNull ++ s) at 1.
  rewrite (zip_step _ (TB BNodeId) _ _ _ _ (leaf_read _ _ BNodeId NNull _ ltac:(cbn; auto))).
  rewrite (zip_step _ (TB BTime) _ (le_enc 8 0) _ (VB BTime (time_of_ticks 0))) by (cbn [dty bread]; unfold read_time, fmap, bind; rewrite sint_read by (unfold in_s; cbn; lia); reflexivity).
  rewrite (zip_step _ (TB BUInt32) _ _ _ _ (leaf_read _ _ BUInt32 1 _ ltac:(cbn; unfold in_u; lia))).
  rewrite (zip_step _ (TB BUInt32) _ _ _ _ (leaf_read _ _ BUInt32 0 _ ltac:(cbn; unfold in_u; lia))).
  rewrite (zip_step _ (TB BString) _ (le_enc 4 (-1)) _ (VB BString [])) by exact (leaf_read _ _ BString [] _ ltac:(cbn; unfold len_ok; cbn; lia)).
  rewrite (zip_step _ (TB BUInt32) _ _ _ _ (leaf_read _ _ BUInt32 1000 _ ltac:(cbn; unfold in_u; lia))).
  cbn [dzip dty]. unfold bind at 1. rewrite X. destruct (n <? k)%nat; reflexivity.
Qed.

Lemma answer_read uris k n rest : exists l,
  dty (std_env uris) (dec (std_env uris) k) (TStruct f_ResponseHeader) (boxed_answer n ++ rest) = if (n <? k)%nat then Ok (VStruct l) rest else Fuel.
Proof.
  destruct (ext_read uris k n rest) as (v & X). eexists. unfold boxed_answer. repeat rewrite <- app_assoc in X. repeat rewrite <- app_assoc. cbn [dty]. unfold fmap. unfold bind at 1. unfold f_ResponseHeader.
  rewrite (zip_step _ (TB BTime) _ (le_enc 8 0) _ (VB BTime (time_of_ticks 0))) by (cbn [dty bread]; unfold read_time, fmap, bind; rewrite sint_read by (unfold in_s; cbn; lia); reflexivity).
  rewrite (zip_step _ (TB BUInt32) _ _ _ _ (leaf_read _ _ BUInt32 1 _ ltac:(cbn; unfold in_u; lia))).
  rewrite (zip_step _ (TB BUInt32) _ _ _ _ (leaf_read _ _ BUInt32 0 _ ltac:(cbn; unfold in_u; lia))).
  rewrite (zip_step _ TDiag _ [x00] _ (VDiag (Diag None None None None None None None)))
    by (cbn [dty]; unfold read_diag; unfold bind at 1; change ([x00] ++ ?s) with (le_enc 1 0 ++ s); rewrite byte_read by lia; reflexivity).
  rewrite (zip_step _ (TSlice (TB BString)) _ (le_enc 4 0) _ (VSlice []))
    by (cbn [dty]; unfold fmap, bind; rewrite sint_read by (unfold in_s; cbn; lia); reflexivity).
  cbn [dzip dty]. unfold bind at 1. rewrite X. destruct (n <? k)%nat; reflexivity.
Qed.

Definition wf_num (z : Z) : bool := (0 <? z) && (z <? 2 ^ 32).
(** the messages whose first field is the header *)
Definition heads (h : list ty) (q : Z * string) : bool :=
  match fields_of_name (snd q) with
  | Some (TStruct l :: rest) => ty_eqb (TStruct l) (TStruct h) && supported (TStruct (TStruct l :: rest))
  | _ => false
  end.
Definition found (h : list ty) (table : list (Z * string)) (p : Z * string) : bool :=
  wf_num (fst p) && match find (fun q => nodeid_eqb (NNum 0 (fst p)) (NNum 0 (fst q))) table with Some q => heads h q | None => false end.
Lemma server_found : forallb (found f_RequestHeader server_reads) server_reads = true.
Proof. vm_compute. reflexivity. Qed.
Lemma client_found : forallb (found f_ResponseHeader client_reads) client_reads = true.
Proof. vm_compute. reflexivity. Qed.
Lemma deep h head table uris id name n rest m :
  (forall k rest, exists l, dty (std_env uris) (dec (std_env uris) k) (TStruct h) (head n ++ rest) = if (n <? k)%nat then Ok (VStruct l) rest else Fuel) ->
  forallb (found h table) table = true -> In (id, name) table -> (m <= S n)%nat ->
  receive_within m table uris (write_nodeid (NNum 0 id) ++ head n ++ rest) = Fuel.
Proof.
  intros H C I M. pose proof (proj1 (forallb_forall _ _) C _ I) as D. unfold found in D. apply andb_prop in D as (W & D). cbn [fst] in W, D.
  unfold receive_within. unfold bind at 1.
  assert (R : wf_nodeid (NNum 0 id)) by (unfold wf_num in W; cbn; unfold in_u; lia).
  assert (N : norm_nodeid (NNum 0 id) = NNum 0 id) by (unfold wf_num in W; destruct id; [discriminate|reflexivity|reflexivity]).
  rewrite (codes_rt (codes_nodeid false (NNum 0 id) R)), N.
  destruct (find _ table) as [[i nm]|]; [|discriminate]. unfold heads in D. cbn [snd] in D.
  destruct (fields_of_name nm) as [f|]; [|discriminate].
  destruct f as [|[| | | | | |l| | |] f]; try discriminate. apply andb_prop in D as (D1 & D2). apply ty_eqb_eq in D1. injection D1 as ->.
  destruct m as [|m]; [reflexivity|]. cbn [dec]. rewrite D2. destruct (H m rest) as (l & X).
  unfold bind at 1. cbn [dty dzip]. cbn [dty] in X. unfold fmap at 1, bind at 1 2. rewrite X.
  destruct (Nat.ltb_spec n m); [lia|]. reflexivity.
Qed.

Lemma deep_request uris id name n rest m : In (id, name) server_reads -> (m <= S n)%nat ->
  receive_within m server_reads uris (write_nodeid (NNum 0 id) ++ boxed_header n ++ rest) = Fuel.
Proof. intros I M. apply (deep f_RequestHeader boxed_header _ _ _ name); [intros; apply header_read|exact server_found|exact I|exact M]. Qed.
Lemma deep_response uris id name n rest m : In (id, name) client_reads -> (m <= S n)%nat ->
  receive_within m client_reads uris (write_nodeid (NNum 0 id) ++ boxed_answer n ++ rest) = Fuel.
Proof. intros I M. apply (deep f_ResponseHeader boxed_answer _ _ _ name); [intros; apply answer_read|exact client_found|exact I|exact M]. Qed.

Lemma accepted table uris head h name id f n rest r :
  (forall k rest, exists l, dty (std_env uris) (dec (std_env uris) k) (TStruct h) (head n ++ rest) = if (n <? k)%nat then Ok (VStruct l) rest else Fuel) ->
  0 < id < 2 ^ 32 -> find (fun q => nodeid_eqb (NNum 0 id) (NNum 0 (fst q))) table = Some (id, name) -> fields_of_name name = Some (TStruct h :: f) ->
  supported (TStruct (TStruct h :: f)) = true -> (n < length (head n))%nat ->
  (forall k, exists l, dzip (dty (std_env uris) (dec (std_env uris) k)) f rest = Ok l r) ->
  exists l, receive table uris (write_nodeid (NNum 0 id) ++ head n ++ rest) = Ok (name, l) r.
Proof.
  intros H R F G SP L T. rewrite <- (within_enough table uris (S (length (write_nodeid (NNum 0 id) ++ head n ++ rest)))) by lia.
  unfold receive_within. unfold bind at 1.
  assert (W : wf_nodeid (NNum 0 id)) by (cbn; unfold in_u; lia).
  assert (N : norm_nodeid (NNum 0 id) = NNum 0 id) by (destruct id; [lia|reflexivity|reflexivity]).
  rewrite (codes_rt (codes_nodeid false (NNum 0 id) W)), N, F, G.
  set (m := length (write_nodeid _ ++ _)). destruct (H m rest) as (l & X). destruct (T m) as (l2 & Y). cbn [dec]. rewrite SP. exists (VStruct l :: l2).
  unfold bind at 1. cbn [dty dzip]. cbn [dty] in X. unfold fmap at 1, bind at 1 2. rewrite X.
  destruct (Nat.ltb_spec n m) as [Q|Q]; [|unfold m in Q; rewrite !app_length in Q; lia].
  unfold fmap, bind. rewrite Y. reflexivity.
Qed.
Lemma header_long n : (n < length (boxed_header n))%nat.
Proof. unfold boxed_header, boxes. rewrite !app_length, repeat_length. cbn [length]. lia. Qed.
Lemma answer_long n : (n < length (boxed_answer n))%nat.
Proof. unfold boxed_answer, boxes. rewrite !app_length, repeat_length. cbn [length]. lia. Qed.

Lemma endpoints_accepted uris n : exists l,
  receive server_reads uris (write_nodeid (NNum 0 428) ++ boxed_header n ++ le_enc 4 (-1) ++ le_enc 4 0 ++ le_enc 4 0) = Ok ("GetEndpointsRequest"%string, l) [].
Proof.
  apply (accepted server_reads uris boxed_header f_RequestHeader _ _ [TB BString; TSlice (TB BString); TSlice (TB BString)]);
    [intros; apply header_read|lia|vm_compute; reflexivity|vm_compute; reflexivity|reflexivity|apply header_long|].
  intro k. eexists. vm_compute. reflexivity.
Qed.
Lemma fault_accepted uris n : exists l,
  receive client_reads uris (write_nodeid (NNum 0 397) ++ boxed_answer n ++ []) = Ok ("ServiceFault"%string, l) [].
Proof.
  apply (accepted client_reads uris boxed_answer f_ResponseHeader _ _ []);
    [intros; apply answer_read|lia|vm_compute; reflexivity|vm_compute; reflexivity|reflexivity|apply answer_long|].
  intro k. eexists. vm_compute. reflexivity.
Qed.
