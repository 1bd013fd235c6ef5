(** Facts about the tables of structures and messages. *)
From Coq Require Import ZArith List String Bool Lia Strings.Byte.
From Verif Require Import Bytes CodecSpec BytesProofs Prim PrimSpec PrimProofs Value ValueSpec ValueProofs CodecLemmas
  Registry StructTable MessageTable Messages StructSpec MessageSpec.
Import ListNotations.
Open Scope Z_scope.
Ltac Zify.zify_post_hook ::= idtac.
Local Opaque std_registry struct_table.

(** ** The registry *)
Lemma bytes_eqb_nil b : bytes_eqb b [] = true -> b = [].
Proof. destruct b; cbn; [reflexivity|discriminate]. Qed.

Definition is_std (e : expnodeid) : bool :=
  match e with mkExp 0 [] (NNum 0 k) => (0 <? k) && (k <? 65536) | _ => false end.
Lemma is_std_inv e : is_std e = true -> exists k, e = std_id k /\ 0 < k < 65536.
Proof.
  destruct e as [s u n]. cbn. destruct s, u, n; try discriminate. destruct ns; try discriminate.
  intros H. apply andb_true_iff in H. destruct H as [A B]. exists id.
  apply Z.ltb_lt in A, B. split; [reflexivity|lia].
Qed.
Lemma lookup_In {K V} (eqb : K -> K -> bool) k (m : list (K * V)) v :
  lookup eqb k m = Some v -> exists k', In (k', v) m /\ eqb k k' = true.
Proof.
  induction m as [|[k' v'] r IH]; cbn; [discriminate|]. destruct (eqb k k') eqn:Q.
  - intros [= <-]. exists k'. auto.
  - intros H. destruct (IH H) as (k2 & A & B). exists k2. auto.
Qed.
Definition is_type (o : option Z) (t : Z) : bool := match o with Some t' => t' =? t | None => false end.
Lemma is_type_eq o t : is_type o t = true -> o = Some t.
Proof. destruct o; cbn; [intros H; apply Z.eqb_eq in H; congruence|discriminate]. Qed.
Definition is_id (o : option expnodeid) (k : Z) : bool := match o with Some e => exp_eqb e (std_id k) | None => false end.
Definition id_check (p : Z * expnodeid) : bool := is_std (snd p) && is_type (find_type std_registry (snd p)) (fst p).
Definition ids_check : bool := forallb id_check (r_ids std_registry).
Lemma ids_check_ok : ids_check = true. Proof. vm_compute. reflexivity. Qed.
Lemma find_id_std t e : find_id std_registry t = Some e ->
  exists k, e = std_id k /\ 0 < k < 65536 /\ find_type std_registry (std_id k) = Some t.
Proof.
  intros H. unfold find_id in H. apply lookup_In in H. destruct H as (t' & I & Q). apply Z.eqb_eq in Q. subst t'.
  pose proof (proj1 (forallb_forall id_check (r_ids std_registry)) ids_check_ok _ I) as C. unfold id_check in C. cbn [fst snd] in C.
  apply andb_true_iff in C. destruct C as [C D]. apply is_type_eq in D. destruct (is_std_inv _ C) as (k & -> & R). exists k.
  split; [reflexivity|]. split; [exact R|exact D].
Qed.
Local Opaque find_id find_type.

(** position of a structure *)
Definition struct_check (p : Z * (string * Z * list ty)) : bool := is_id (find_id std_registry (fst p)) (snd (fst (snd p))).
Definition table_check : bool := forallb struct_check (numbered 0 struct_table).
Lemma table_check_ok : table_check = true. Proof. vm_compute. reflexivity. Qed.
Lemma In_numbered {A} (l : list A) x i : In x l -> exists n, In (i + Z.of_nat n, x) (numbered i l) /\ nth_error l n = Some x.
Proof.
  revert i. induction l as [|y r IH]; intros i; cbn; [contradiction|]. intros [-> |H].
  - exists O. split; [left; f_equal; lia|reflexivity].
  - destruct (IH (i + 1) H) as (n & Q & B). exists (S n). split; [right|exact B].
    replace (i + Z.of_nat (S n)) with (i + 1 + Z.of_nat n) by lia. exact Q.
Qed.
Lemma exp_eqb_std e k : exp_eqb e (std_id k) = true -> e = std_id k.
Proof.
  destruct e as [s u n]. unfold exp_eqb. cbn. intros H. apply andb_true_iff in H. destruct H as [H C].
  apply andb_true_iff in H. destruct H as [A B]. apply Z.eqb_eq in A. apply bytes_eqb_nil in B. subst.
  destruct n; try discriminate. cbn in C. apply andb_true_iff in C. destruct C as [C D].
  apply Z.eqb_eq in C, D. subst. reflexivity.
Qed.
Lemma is_id_eq o k : is_id o k = true -> o = Some (std_id k).
Proof. destruct o; cbn [is_id]; [intros H; apply exp_eqb_std in H; congruence|discriminate]. Qed.

Lemma table_registered name k f uris : In (name, k, f) struct_table ->
  exists t, v_id_of_type (std_env uris) t = Some (std_id k) /\ v_fields (std_env uris) t = f /\
    0 < k < 65536 /\ v_type_of_id (std_env uris) (std_id k) = Some t.
Proof.
  intros H. destruct (In_numbered struct_table _ 0 H) as (n & A & B). exists (0 + Z.of_nat n).
  pose proof (proj1 (forallb_forall struct_check (numbered 0 struct_table)) table_check_ok _ A) as F.
  unfold struct_check in F. cbn [fst snd] in F. apply is_id_eq in F. cbn [v_id_of_type v_fields v_type_of_id std_env]. split; [exact F|]. split.
  - unfold fields_of_type. replace (Z.to_nat (0 + Z.of_nat n)) with n by lia. rewrite B. reflexivity.
  - destruct (find_id_std _ _ F) as (k' & E1 & R & T). injection E1 as ->. split; [exact R|exact T].
Qed.

Lemma to_nodeid_std k u : to_nodeid (std_id k) u = NNum 0 k. Proof. reflexivity. Qed.
Lemma norm_std k : 0 < k -> norm_nodeid (NNum 0 k) = NNum 0 k.
Proof. destruct k; [lia|reflexivity|lia]. Qed.

Lemma registered_std name k f uris : In (name, k, f) struct_table -> supported (TStruct f) = true ->
  exists t, registered (std_env uris) t /\ v_id_of_type (std_env uris) t = Some (std_id k) /\ v_fields (std_env uris) t = f.
Proof.
  intros H Sf. destruct (table_registered name k f uris H) as (t & A & B & R & T). exists t.
  split; [|split; assumption]. split; [rewrite B; exact Sf|]. exists (std_id k). split; [exact A|].
  rewrite to_nodeid_std, (norm_std k) by lia. split; [|exact T]. cbn. unfold in_u. cbn. lia.
Qed.

(** ** The bytes do not depend on the namespace table *)
Lemma emap_ext {A} (f g : A -> option bytes) l : Forall (fun x => f x = g x) l -> emap f l = emap g l.
Proof. induction 1 as [|x r Hx _ IH]; cbn; [reflexivity|]. rewrite Hx, IH. reflexivity. Qed.
Lemma ezip_ext (f g : ty -> val -> option bytes) l : Forall (fun x => forall t, f t x = g t x) l ->
  forall ts, ezip f ts l = ezip g ts l.
Proof. induction 1 as [|x r Hx _ IH]; intros [|t ts]; cbn; try reflexivity. rewrite Hx, IH. reflexivity. Qed.
Lemma Forall_at {A} (Q : ty -> A -> Prop) t l : Forall (fun x => forall t, Q t x) l -> Forall (Q t) l.
Proof. apply Forall_impl. auto. Qed.

Lemma enc_env E1 E2 : (forall t, v_fields E1 t = v_fields E2 t) -> (forall t, v_id_of_type E1 t = v_id_of_type E2 t) ->
  (forall t e, v_id_of_type E1 t = Some e -> to_nodeid e (v_uris E1) = to_nodeid e (v_uris E2)) ->
  forall v t, enc E1 t v = enc E2 t v.
Proof.
  intros HF HI HN v.
  induction v as [b x|o|l IH| |l IH|l IH| |k x IH|k|k l IH|k m IH|k m IH|x st t1 p1 t2 p2 IH| |tid l IH|d] using val_ind';
    intros t; cbn [enc]; try reflexivity.
  - destruct t; try reflexivity. apply ezip_ext. exact IH.
  - destruct t; try reflexivity. apply ezip_ext. exact IH.
  - destruct t; try reflexivity. f_equal. apply emap_ext. eapply Forall_impl; [|exact IH]. auto.
  - destruct (scalar_kind k); [|reflexivity]. f_equal. apply IH.
  - destruct (array_kind k); [|reflexivity]. f_equal. apply emap_ext. eapply Forall_impl; [|exact IH]. auto.
  - destruct (array_kind k); [|reflexivity]. f_equal. f_equal. apply emap_ext. eapply Forall_impl; [|exact IH].
    intros r Hr. cbv beta. apply emap_ext. eapply Forall_impl; [|exact Hr]. auto.
  - destruct (array_kind k); [|reflexivity]. f_equal. f_equal. apply emap_ext. eapply Forall_impl; [|exact IH].
    intros r Hr. cbv beta. apply emap_ext. eapply Forall_impl; [|exact Hr]. intros q Hq. cbv beta. apply emap_ext.
    eapply Forall_impl; [|exact Hq]. auto.
  - f_equal. f_equal. rewrite IH. reflexivity.
  - rewrite <- HI, <- HF. destruct (v_id_of_type E1 tid) as [e|] eqn:F; [|reflexivity].
    rewrite <- (HN _ _ F), (ezip_ext _ (enc E2) l IH). reflexivity.
Qed.
Lemma enc_uris u1 u2 v t : enc (std_env u1) t v = enc (std_env u2) t v.
Proof.
  apply enc_env; [intros i; reflexivity|intros i; reflexivity|]. intros i e H. cbn [v_id_of_type std_env] in H. destruct (find_id_std _ _ H) as (k & -> & _).
  rewrite !to_nodeid_std. reflexivity.
Qed.
Lemma encode_uris u1 u2 t v : encode (std_env u1) t v = encode (std_env u2) t v.
Proof. unfold encode. rewrite (enc_uris u1 u2). reflexivity. Qed.

(** ** Tables *)
Fixpoint ty_eqb (a b : ty) : bool :=
  match a, b with
  | TB x, TB y => tag_of (KB x) =? tag_of (KB y)
  | TBytes, TBytes | TVar, TVar | TDV, TDV | TDiag, TDiag | TExt, TExt => true
  | TStruct l, TStruct m | TPtr l, TPtr m =>
      (fix go l m := match l, m with [], [] => true | x :: l, y :: m => ty_eqb x y && go l m | _, _ => false end) l m
  | TSlice x, TSlice y => ty_eqb x y
  | TUnsupported, TUnsupported => true
  | _, _ => false
  end.
Lemma tag_inj x y : tag_of (KB x) = tag_of (KB y) -> x = y.
Proof. destruct x, y; cbn; intros H; try reflexivity; discriminate H. Qed.
Lemma ty_eqb_eq a : forall b, ty_eqb a b = true -> a = b.
Proof.
  induction a as [x| | | | | |l IH|l IH|t IH|] using ty_ind'; intros [y| | | | | |m|m|t'|]; cbn [ty_eqb]; try discriminate; intros H;
    try reflexivity.
  - apply Z.eqb_eq in H. f_equal. apply tag_inj. exact H.
  - f_equal. revert m H. induction IH as [|x r Hx _ IH']; intros [|y m]; try discriminate; [reflexivity|].
    intros H. apply andb_true_iff in H. destruct H as [A B]. f_equal; [apply Hx; exact A|apply IH'; exact B].
  - f_equal. revert m H. induction IH as [|x r Hx _ IH']; intros [|y m]; try discriminate; [reflexivity|].
    intros H. apply andb_true_iff in H. destruct H as [A B]. f_equal; [apply Hx; exact A|apply IH'; exact B].
  - f_equal. apply IH. exact H.
Qed.
Lemma fields_eqb_eq l m : ty_eqb (TStruct l) (TStruct m) = true -> l = m.
Proof. intros H. apply ty_eqb_eq in H. injection H as H. exact H. Qed.

Definition entry_check (name : string) (id : Z) (f : list ty) : bool :=
  match fields_of_name name with Some f' => ty_eqb (TStruct f') (TStruct f) | None => false end &&
  existsb (fun e => String.eqb (fst (fst e)) name && (snd (fst e) =? id)) struct_table &&
  forallb supported f && (0 <? id) && (id <? 65536).
Definition route_check (w : list (string * Z)) (r : list (Z * string)) (name : string) (id : Z) : bool :=
  match find (fun p => String.eqb (fst p) name) w with Some (_, i) => i =? id | None => false end &&
  match find (fun p => fst p =? id) r with Some (_, n) => String.eqb n name | None => false end.

Lemma find_nodeid_eqb (r : list (Z * string)) id : find (fun p => nodeid_eqb (NNum 0 id) (NNum 0 (fst p))) r = find (fun p => fst p =? id) r.
Proof.
  induction r as [|[k n] r IH]; [reflexivity|]. cbn [find nodeid_eqb fst]. rewrite (Z.eqb_sym id k). cbn [Z.eqb andb].
  destruct (k =? id); [reflexivity|exact IH].
Qed.

Lemma carries_ok w r name id f : entry_check name id f = true -> route_check w r name id = true ->
  carries (send w) (receive r) name id f.
Proof.
  intros EC RC u1 u2 vals W. unfold entry_check in EC. repeat (apply andb_true_iff in EC; destruct EC as [EC ?]).
  destruct (fields_of_name name) as [f'|] eqn:FN; [|discriminate]. apply fields_eqb_eq in EC. subst f'.
  unfold route_check in RC. apply andb_true_iff in RC. destruct RC as [RW RR].
  destruct (find (fun p => String.eqb (fst p) name) w) as [[wn wi]|] eqn:FW; [|discriminate]. apply Z.eqb_eq in RW. subst wi.
  destruct (find (fun p => fst p =? id) r) as [[ri rn]|] eqn:FR; [|discriminate]. apply String.eqb_eq in RR. subst rn.
  match goal with H : (0 <? id) = true |- _ => apply Z.ltb_lt in H; rename H into P1 end.
  match goal with H : (id <? 65536) = true |- _ => apply Z.ltb_lt in H; rename H into P2 end.
  assert (SP : supported (TStruct f) = true) by assumption.
  destruct (roundtrip (std_env u2) (TStruct f) (VStruct vals) SP W) as (body & A & B).
  exists body. rewrite (encode_uris u1 u2). split; [exact A|]. split.
  - unfold send. rewrite FW, FN. rewrite (encode_uris u1 u2), A. reflexivity.
  - intros rest. unfold receive. unfold bind. rewrite <- app_assoc.
    assert (N : read_nodeid (write_nodeid (NNum 0 id) ++ body ++ rest) = Ok (NNum 0 id) (body ++ rest)).
    { rewrite <- (norm_std id P1) at 2.
      assert (WN : wf_nodeid (NNum 0 id)) by (cbn; unfold in_u; cbn; lia).
      exact (codes_rt (codes_nodeid true (NNum 0 id) WN) (body ++ rest)). }
    rewrite N, find_nodeid_eqb, FR, FN. rewrite B. reflexivity.
Qed.

Definition service_check (s : string * (Z * list ty) * (Z * list ty)) : bool :=
  match s with (n, (qi, qf), (ri, rf)) =>
    entry_check (n ++ "Request") qi qf && route_check client_sends server_reads (n ++ "Request") qi &&
    entry_check (n ++ "Response") ri rf &&
    (String.eqb n "CloseSecureChannel" || route_check server_sends client_reads (n ++ "Response") ri) end.
Lemma service_check_ok : forallb service_check standard_services = true.
Proof. vm_compute. reflexivity. Qed.
