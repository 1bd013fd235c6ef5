(** The theorems of EventFieldsProperties.v in their final form, and examples that meet their hypotheses. *)
From Coq Require Import ZArith String List Bool Lia Strings.Byte.
From Verif Require Import Bytes CodecSpec BytesProofs Prim PrimSpec PrimProofs Value ValueSpec ValueProofs Text
  EventFields EventFieldsSpec EventFieldsProofs.
Import ListNotations.
Open Scope Z_scope.
Ltac Zify.zify_post_hook ::= idtac.

Lemma base_delivered : forall E e, wf_base e -> exists b l,
  encode E ty_fields (VSlice (select_fields base_clauses (EBase e))) = Some b /\
  reads_back (decode E ty_fields) b (VSlice l) /\ base_unmarshal l = Some (arrived_base e).
Proof.
  intros E e W. destruct (travels E base_clauses (EBase e) ltac:(vm_compute; reflexivity) W) as (b & H1 & H2).
  exists b. eexists. split; [exact H1|]. split; [exact H2|]. apply base_arrives.
Qed.
Lemma condition_delivered : forall E e, wf_condition e -> exists b l,
  encode E ty_fields (VSlice (select_fields condition_clauses (ECondition e))) = Some b /\
  reads_back (decode E ty_fields) b (VSlice l) /\ condition_unmarshal l = Some (arrived_condition e).
Proof.
  intros E e W. destruct (travels E condition_clauses (ECondition e) ltac:(vm_compute; reflexivity) W) as (b & H1 & H2).
  exists b. eexists. split; [exact H1|]. split; [exact H2|]. apply condition_arrives.
Qed.
Lemma ack_delivered : forall E e, wf_ack e -> exists b l,
  encode E ty_fields (VSlice (select_fields ack_clauses (EAck e))) = Some b /\
  reads_back (decode E ty_fields) b (VSlice l) /\ ack_unmarshal l = Some (arrived_ack e).
Proof.
  intros E e W. destruct (travels E ack_clauses (EAck e) ltac:(vm_compute; reflexivity) W) as (b & H1 & H2).
  exists b. eexists. split; [exact H1|]. split; [exact H2|]. apply ack_arrives.
Qed.
Lemma alarm_delivered : forall E e, wf_alarm e -> exists b l,
  encode E ty_fields (VSlice (select_fields alarm_clauses (EAlarm e))) = Some b /\
  reads_back (decode E ty_fields) b (VSlice l) /\ alarm_unmarshal l = Some (arrived_alarm e).
Proof.
  intros E e W. destruct (travels E alarm_clauses (EAlarm e) ltac:(vm_compute; reflexivity) W) as (b & H1 & H2).
  exists b. eexists. split; [exact H1|]. split; [exact H2|]. apply alarm_arrives.
Qed.

Lemma as_selected : forall cl e i c, nth_error cl i = Some c -> exists v,
  nth_error (select_fields cl e) i = Some v /\
  ((exists f, In f (fields_of e) /\ asks c f /\ v = f_value f) \/ ((forall f, In f (fields_of e) -> ~ asks c f) /\ v = VNil)).
Proof.
  intros cl e i c H. exists (get_attribute e c). split; [now apply select_nth|].
  destruct (Exists_dec (fun f => equal_operand c (clause_of f) = true) (fields_of e)
              (fun f => bool_dec (equal_operand c (clause_of f)) true)) as [X|X].
  - apply Exists_exists in X. destruct X as (f & Hf & Ha). apply asks_clause in Ha. left. exists f.
    split; [exact Hf|]. split; [exact Ha|]. now apply selected.
  - right. assert (N : forall f, In f (fields_of e) -> ~ asks c f).
    { intros f Hf Ha. apply X, Exists_exists. exists f. split; [exact Hf|now apply asks_clause]. }
    split; [exact N|]. now apply nothing_else.
Qed.

(** A field asked for through a subtype of the declaring type *)
Lemma inherited_nil : forall e f c t, In f (fields_of e) -> asks_by_subtype c f -> o_type c = NNum 0 t ->
  t <> 2041 -> t <> f_type f -> get_attribute e c = VNil.
Proof.
  intros e f c t Hf (H1 & H2 & H3 & _) Ht N1 N2. apply nothing_else. intros g Hg (G1 & G2 & G3 & G4).
  assert (K : key f = key g) by (unfold key; congruence).
  assert (f = g).
  { pose proof (keys e) as Hn. revert Hn Hf Hg K. generalize (fields_of e) as fs. clear. induction fs as [|x fs IH]; intros Hn Hf Hg K; [destruct Hf|].
    cbn [map] in Hn. inversion Hn as [|? ? Hx Hn']; subst.
    destruct Hf as [->|Hf], Hg as [->|Hg]; try reflexivity; [exfalso; apply Hx; rewrite K; now apply in_map|exfalso; apply Hx; rewrite <- K; now apply in_map|auto]. }
  subst g. rewrite Ht in G4. destruct G4 as [G4|G4]; injection G4; intros; congruence.
Qed.
Definition ask_message_of_condition : operand := mkOperand (NNum 0 2782) [mkQ 0 (lit "Message")] 13 [].
Lemma inherited_lost : forall e : condition, exists f,
  In f (fields_of (ECondition e)) /\ asks_by_subtype ask_message_of_condition f /\ f_value f = of_text (co_Message e) /\
  get_attribute (ECondition e) ask_message_of_condition = VNil.
Proof.
  intros e. exists (mkField 2041 ["Message"]%string 13 (of_text (co_Message e))).
  split; [cbn; do 6 right; now left|]. split; [|split; reflexivity].
  split; [reflexivity|]. split; [reflexivity|]. split; [reflexivity|]. exists 2782. split; [cbn; auto|reflexivity].
Qed.

Lemma other_types : forall f0 f1 f2 f3 f4 f5 f6 f7, exists e,
  base_unmarshal [f0; f1; f2; f3; f4; f5; f6; f7] = Some e /\
  ((exists k t, f4 = VScalar k (VB BTime t) /\ be_Time e = t) \/ ((forall k t, f4 <> VScalar k (VB BTime t)) /\ be_Time e = mkTime (-62135596800) 0)) /\
  ((exists k n, f7 = VScalar k (VB BUInt16 n) /\ be_Severity e = n) \/ ((forall k n, f7 <> VScalar k (VB BUInt16 n)) /\ be_Severity e = 0)).
Proof.
  intros f0 f1 f2 f3 f4 f5 f6 f7. eexists. split; [reflexivity|]. cbn [be_Time be_Severity]. split.
  - destruct f4; try (right; split; [intros ? ? X; discriminate X|reflexivity]).
    destruct f4; try (right; split; [intros ? ? X; discriminate X|reflexivity]).
    destruct t; try (right; split; [intros ? ? X; discriminate X|reflexivity]).
    left. do 2 eexists. split; reflexivity.
  - destruct f7; try (right; split; [intros ? ? X; discriminate X|reflexivity]).
    destruct f7; try (right; split; [intros ? ? X; discriminate X|reflexivity]).
    destruct t; try (right; split; [intros ? ? X; discriminate X|reflexivity]).
    left. do 2 eexists. split; reflexivity.
Qed.

(** * Examples *)
Definition boiler : alarm :=
  mk_alarm (lit "0123456789abcdef") (NNum 0 2915) (NStr 2 (lit "Boiler")) (lit "Boiler") (mkTime 1700000000 1500) (mkTime 1700000001 0)
    (mkLT (lit "too hot") (lit "en")) 700 (NNum 2 5) (lit "HighTemperature") NNull true false true true.
Example boiler_wf : wf_alarm boiler.
Proof. repeat split; vm_compute; try reflexivity; intros X; discriminate X. Qed.
Example boiler_arrives : arrived_alarm boiler =
  mk_alarm (lit "0123456789abcdef") (NNum 0 2915) (NStr 2 (lit "Boiler")) (lit "Boiler") (mkTime 1700000000 1500) (mkTime 1700000001 0)
    (mkLT (lit "too hot") (lit "en")) 700 (NNum 2 5) (lit "HighTemperature") NNull true false true true.
Proof. vm_compute. reflexivity. Qed.
(** Clauses in the client's order, one unknown, one twice *)
Example boiler_selected :
  select_fields [mkOperand (NNum 0 2041) [mkQ 0 (lit "Severity")] 13 []; mkOperand (NNum 0 2041) [mkQ 2 (lit "Severity")] 13 [];
                 mkOperand (NNum 0 2915) [mkQ 0 (lit "ActiveState"); mkQ 0 (lit "EffectiveDisplayName")] 13 [];
                 mkOperand (NNum 0 2041) [] 1 []; mkOperand (NNum 0 2041) [mkQ 0 (lit "Severity")] 13 []] (EAlarm boiler)
  = [of_uint16 700; VNil; of_text (mkLT (lit "Active") (lit "en")); of_node (NNum 2 5); of_uint16 700].
Proof. vm_compute. reflexivity. Qed.
Example boiler_asks : asks (mkOperand (NNum 0 2782) [] 1 []) (mkField 2782 [] 1 (of_node (NNum 2 5))) /\
  In (mkField 2782 [] 1 (of_node (NNum 2 5))) (fields_of (EAlarm boiler)).
Proof. split; [repeat split; now right|]. cbn. do 8 right. now left. Qed.
Example base_as_alarm : exists a, alarm_unmarshal (select_fields alarm_clauses
   (EBase (mk_base (lit "x") (NNum 0 2041) NNull (lit "s") (mkTime 0 0) (mkTime 0 0) (mkLT [] []) 1))) = Some a /\ al_ActiveState a = false.
Proof. eexists. split; [vm_compute; reflexivity|reflexivity]. Qed.
