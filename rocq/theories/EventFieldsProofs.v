(** Proofs about the fields of events (EventFields.v). *)
From Coq Require Import ZArith String List Bool Lia Strings.Byte.
From Verif Require Import Bytes CodecSpec BytesProofs Prim PrimSpec PrimProofs Value ValueSpec ValueProofs Text
  EventFields EventFieldsSpec.
Import ListNotations.
Open Scope Z_scope.
Ltac Zify.zify_post_hook ::= idtac.

(** * Equality of clauses *)
Lemma node_eqb_eq a b : node_eqb a b = true <-> a = b.
Proof.
  destruct a, b; cbn [node_eqb]; try (split; intros X; discriminate X); [tauto|..]; rewrite andb_true_iff;
    rewrite ?Z.eqb_eq, ?bytes_eqb_eq, ?guid_eqb_eq; (split; [intros [-> ->]; reflexivity|intros H; injection H; auto]).
Qed.
Lemma qname_eqb_eq a b : qname_eqb a b = true <-> a = b.
Proof.
  destruct a, b. unfold qname_eqb. cbn. rewrite andb_true_iff, Z.eqb_eq, bytes_eqb_eq.
  split; [intros [-> ->]; reflexivity|intros H; injection H; auto].
Qed.
Lemma path_eqb_eq a b : path_eqb a b = true <-> a = b.
Proof.
  revert b. induction a as [|x r IH]; intros [|y s]; cbn [path_eqb]; try (split; intros X; discriminate X); [tauto|].
  rewrite andb_true_iff, qname_eqb_eq, IH. split; [intros [-> ->]; reflexivity|intros H; injection H; auto].
Qed.
Lemma equal_operand_eq a b : equal_operand a b = true <->
  (o_type a = NNum 0 2041 \/ o_type a = o_type b) /\ o_path a = o_path b /\ o_attr a = o_attr b /\ o_range a = o_range b.
Proof.
  unfold equal_operand, id_base_event_type.
  pose proof (node_eqb_eq (o_type a) (NNum 0 2041)) as H1. pose proof (node_eqb_eq (o_type a) (o_type b)) as H2.
  pose proof (path_eqb_eq (o_path a) (o_path b)) as H3. pose proof (Z.eqb_eq (o_attr a) (o_attr b)) as H4.
  pose proof (bytes_eqb_eq (o_range a) (o_range b)) as H5.
  destruct (node_eqb (o_type a) (NNum 0 2041)), (node_eqb (o_type a) (o_type b)), (path_eqb (o_path a) (o_path b)),
    (o_attr a =? o_attr b), (bytes_eqb (o_range a) (o_range b)); cbn; intuition congruence.
Qed.

(** * The switch *)
(** The clause that names a field by its declaring type *)
Definition clause_of (f : field) : operand := mkOperand (NNum 0 (f_type f)) (map (fun s => mkQ 0 (lit s)) (f_path f)) (f_attr f) [].

Lemma asks_clause c f : asks c f <-> equal_operand c (clause_of f) = true.
Proof. rewrite equal_operand_eq. unfold asks, clause_of. cbn [o_type o_path o_attr o_range]. tauto. Qed.

Definition key (f : field) : list qname * Z := (map (fun s => mkQ 0 (lit s)) (f_path f), f_attr f).
Lemma asks_key c f g : asks c f -> asks c g -> key f = key g.
Proof. unfold asks, key. intros (H1 & H2 & _) (H3 & H4 & _). congruence. Qed.

Lemma switch_in c fs f : NoDup (map key fs) -> In f fs -> asks c f ->
  switch c (map clause_of fs) (map f_value fs) = f_value f.
Proof.
  intros Hn Hi Ha. induction fs as [|g fs IH]; [destruct Hi|]. cbn [map switch] in *. inversion Hn as [|? ? Hk Hn']; subst.
  destruct (equal_operand c (clause_of g)) eqn:E.
  - apply asks_clause in E. destruct Hi as [->|Hi]; [reflexivity|]. exfalso. apply Hk.
    rewrite (asks_key c g f E Ha). now apply in_map.
  - destruct Hi as [->|Hi]; [|now apply IH]. apply asks_clause in Ha. congruence.
Qed.
Lemma switch_none c fs : (forall f, In f fs -> ~ asks c f) -> switch c (map clause_of fs) (map f_value fs) = VNil.
Proof.
  intros H. induction fs as [|g fs IH]; [reflexivity|]. cbn [map switch].
  destruct (equal_operand c (clause_of g)) eqn:E; [exfalso; apply (H g (or_introl eq_refl)); now apply asks_clause|].
  apply IH. intros f Hf. apply H. now right.
Qed.

Ltac in_dec := repeat first [left; reflexivity | right].
Ltac nodup := repeat (apply NoDup_cons; [cbn [In]; intros X; repeat (destruct X as [X|X]; [vm_compute in X; discriminate X|]); exact X|]); apply NoDup_nil.

Lemma get_is e c : get_attribute e c = switch c (map clause_of (fields_of e)) (map f_value (fields_of e)).
Proof. destruct e; reflexivity. Qed.
Lemma keys e : NoDup (map key (fields_of e)).
Proof. destruct e; cbn [fields_of base_part condition_part ack_part alarm_part app map]; nodup. Qed.

Theorem selected e c f : In f (fields_of e) -> asks c f -> get_attribute e c = f_value f.
Proof. rewrite get_is. apply switch_in, keys. Qed.
Theorem nothing_else e c : (forall f, In f (fields_of e) -> ~ asks c f) -> get_attribute e c = VNil.
Proof. rewrite get_is. apply switch_none. Qed.

(** Whichever way, the clause decides *)
Theorem select_length cl e : length (select_fields cl e) = length cl.
Proof. apply map_length. Qed.
Theorem select_nth cl e i c : nth_error cl i = Some c -> nth_error (select_fields cl e) i = Some (get_attribute e c).
Proof. intros H. unfold select_fields. now rewrite nth_error_map, H. Qed.

(** * Own clauses *)
Lemma as_of_node x : as_node (of_node x) = x.
Proof. destruct x; reflexivity. Qed.
Lemma select_base e : select_fields base_clauses (EBase e) = base_fields e. Proof. reflexivity. Qed.
Lemma select_condition e : select_fields condition_clauses (ECondition e) = condition_fields e. Proof. reflexivity. Qed.
Lemma select_ack e : select_fields ack_clauses (EAck e) = ack_fields e. Proof. reflexivity. Qed.
Lemma select_alarm e : select_fields alarm_clauses (EAlarm e) = alarm_fields e. Proof. reflexivity. Qed.

Theorem base_back e : base_unmarshal (select_fields base_clauses (EBase e)) = Some e.
Proof. rewrite select_base. destruct e. unfold base_fields, base_unmarshal. cbn -[of_node as_node]. now rewrite !as_of_node. Qed.
Theorem condition_back e : condition_unmarshal (select_fields condition_clauses (ECondition e)) = Some e.
Proof. rewrite select_condition. destruct e. unfold condition_fields, condition_unmarshal. cbn -[of_node as_node]. now rewrite !as_of_node. Qed.
Theorem ack_back e : ack_unmarshal (select_fields ack_clauses (EAck e)) = Some e.
Proof. rewrite select_ack. destruct e. unfold ack_fields, ack_unmarshal. cbn -[of_node as_node]. now rewrite !as_of_node. Qed.
Theorem alarm_back e : alarm_unmarshal (select_fields alarm_clauses (EAlarm e)) = Some e.
Proof. rewrite select_alarm. destruct e. unfold alarm_fields, alarm_unmarshal. cbn -[of_node as_node]. now rewrite !as_of_node. Qed.

(** * A simpler event asked as an alarm *)
Theorem as_alarm_back e : alarm_unmarshal (select_fields alarm_clauses e) = Some (as_alarm e).
Proof.
  destruct e as [e|e|e|e]; [| | |rewrite alarm_back; destruct e; reflexivity]; destruct e;
    cbv - [of_node as_node]; now rewrite ?as_of_node.
Qed.

(** * Number of fields *)
Theorem base_count l : base_unmarshal l = None <-> length l <> 8%nat.
Proof. split; [intros H X|intros H]; do 9 (destruct l as [|? l]; try discriminate X; try discriminate H; try reflexivity); now destruct H. Qed.
Theorem condition_count l : condition_unmarshal l = None <-> length l <> 12%nat.
Proof. split; [intros H X|intros H]; do 13 (destruct l as [|? l]; try discriminate X; try discriminate H; try reflexivity); now destruct H. Qed.
Theorem ack_count l : ack_unmarshal l = None <-> length l <> 14%nat.
Proof. split; [intros H X|intros H]; do 15 (destruct l as [|? l]; try discriminate X; try discriminate H; try reflexivity); now destruct H. Qed.
Theorem alarm_count l : alarm_unmarshal l = None <-> length l <> 15%nat.
Proof. split; [intros H X|intros H]; do 16 (destruct l as [|? l]; try discriminate X; try discriminate H; try reflexivity); now destruct H. Qed.

(** * Over the wire *)
Section Wire.
Context (E : env).
Lemma wf_of_node s x : wf_nodeid x -> wf E s TVar (of_node x).
Proof. destruct x; intros H; cbn; auto. Qed.
Lemma norm_of_node x : as_node (norm (of_node x)) = norm_nodeid x.
Proof. destruct x as [|n i|n i|n i|n i]; [reflexivity|..]; cbn -[norm_nodeid]; destruct (norm_nodeid _); reflexivity. Qed.

Lemma part_wf s e f : wf_event e -> In f (fields_of e) -> wf E s TVar (f_value f).
Proof.
  intros W Hi. destruct e as [e|e|e|e]; cbn [wf_event fields_of base_part condition_part ack_part alarm_part app In] in *;
    unfold wf_base, wf_condition, wf_ack, wf_alarm in W;
    repeat match goal with H : _ /\ _ |- _ => destruct H end;
    repeat (destruct Hi as [<-|Hi]; [cbn [f_value]; first [now apply wf_of_node | cbn; auto; fail | idtac]|]); try (destruct Hi);
    cbn; repeat split; auto; unfold len_ok; destruct (al_ActiveState e); vm_compute; reflexivity.
Qed.
Lemma get_cases e c : get_attribute e c = VNil \/ exists f, In f (fields_of e) /\ get_attribute e c = f_value f.
Proof.
  rewrite get_is. generalize (fields_of e) as fs. induction fs as [|g fs IH]; [now left|]. cbn [map switch].
  destruct (equal_operand c (clause_of g)); [right; exists g; split; [now left|reflexivity]|].
  destruct IH as [H|(f & Hf & H)]; [now left|right; exists f; split; [now right|exact H]].
Qed.
Lemma selected_wf s cl e : len_ok cl -> wf_event e -> wf E s ty_fields (VSlice (select_fields cl e)).
Proof.
  intros Hl W. cbn. split; [unfold len_ok in *; now rewrite select_length|].
  unfold select_fields. clear Hl. induction cl as [|c cl IH]; cbn [map wall]; [exact I|]. split; [|exact IH].
  destruct (get_cases e c) as [->|(f & Hf & ->)]; [reflexivity|now apply (part_wf s e f)].
Qed.
Theorem travels cl e : len_ok cl -> wf_event e ->
  exists b, encode E ty_fields (VSlice (select_fields cl e)) = Some b /\
            reads_back (decode E ty_fields) b (VSlice (map norm (select_fields cl e))).
Proof.
  intros Hl W. destruct (encode_decode E false ty_fields _ eq_refl (selected_wf false cl e Hl W)) as (b & H1 & H2).
  exists b. split; [exact H1|]. exact (codes_rt H2).
Qed.
Ltac unm := cbn -[of_node as_node norm_nodeid norm_time norm]; rewrite ?norm_of_node; reflexivity.
Theorem base_arrives e : base_unmarshal (map norm (select_fields base_clauses (EBase e))) = Some (arrived_base e).
Proof. rewrite select_base. destruct e. unm. Qed.
Theorem condition_arrives e : condition_unmarshal (map norm (select_fields condition_clauses (ECondition e))) = Some (arrived_condition e).
Proof. rewrite select_condition. destruct e. unm. Qed.
Theorem ack_arrives e : ack_unmarshal (map norm (select_fields ack_clauses (EAck e))) = Some (arrived_ack e).
Proof. rewrite select_ack. destruct e. unm. Qed.
Theorem alarm_arrives e : alarm_unmarshal (map norm (select_fields alarm_clauses (EAlarm e))) = Some (arrived_alarm e).
Proof. rewrite select_alarm. destruct e. unm. Qed.
End Wire.
