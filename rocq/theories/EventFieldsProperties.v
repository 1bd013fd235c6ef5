(** The fields of events. *)
From Coq Require Import ZArith String List Bool Strings.Byte.
From Verif Require Import Bytes CodecSpec Prim PrimSpec Value ValueSpec Text EventFields EventFieldsSpec EventFieldsProofs EventFieldsLemmas.
Import ListNotations.
Open Scope Z_scope.

(** * C95: an event arrives with the fields the client selected *)

(** The answer has one value for each clause, in the order of the clauses. *)
Theorem c95_one_per_clause : forall cl e, length (select_fields cl e) = length cl.
Proof. exact select_length. Qed.
Print Assumptions c95_one_per_clause.

(** Each value is that of the field the clause asks for, or nothing if the event has no such field. Missing: clauses that name an inherited field by a subtype, and clauses with an index range. *)
Theorem c95_as_selected_partial : forall cl e i c, nth_error cl i = Some c -> exists v,
  nth_error (select_fields cl e) i = Some v /\
  ((exists f, In f (fields_of e) /\ asks c f /\ v = f_value f) \/ ((forall f, In f (fields_of e) -> ~ asks c f) /\ v = VNil)).
Proof. exact as_selected. Qed.
Print Assumptions c95_as_selected_partial.

Theorem c95_every_field : forall e c f, In f (fields_of e) -> asks c f -> get_attribute e c = f_value f.
Proof. exact selected. Qed.
Print Assumptions c95_every_field.

(** A field asked for through a subtype of the type that declares it, as the standard allows, is never sent. *)
Theorem c95_subtype_refuted : forall e f c t, In f (fields_of e) -> asks_by_subtype c f -> o_type c = NNum 0 t ->
  t <> 2041 -> t <> f_type f -> get_attribute e c = VNil.
Proof. exact inherited_nil. Qed.
Print Assumptions c95_subtype_refuted.

(** For example the message of any condition. *)
Theorem c95_message_refuted : forall e : condition, exists f,
  In f (fields_of (ECondition e)) /\ asks_by_subtype (mkOperand (NNum 0 2782) [mkQ 0 (lit "Message")] 13 []) f /\ f_value f = of_text (co_Message e) /\
  get_attribute (ECondition e) (mkOperand (NNum 0 2782) [mkQ 0 (lit "Message")] 13 []) = VNil.
Proof. exact inherited_lost. Qed.
Print Assumptions c95_message_refuted.

(** A client that selects with the clauses of a class and reads the fields as that class gets the event. *)
Theorem c95_base : forall e, base_unmarshal (select_fields base_clauses (EBase e)) = Some e.
Proof. exact base_back. Qed.
Print Assumptions c95_base.

Theorem c95_condition : forall e, condition_unmarshal (select_fields condition_clauses (ECondition e)) = Some e.
Proof. exact condition_back. Qed.
Print Assumptions c95_condition.

Theorem c95_acknowledgeable : forall e, ack_unmarshal (select_fields ack_clauses (EAck e)) = Some e.
Proof. exact ack_back. Qed.
Print Assumptions c95_acknowledgeable.

Theorem c95_alarm : forall e, alarm_unmarshal (select_fields alarm_clauses (EAlarm e)) = Some e.
Proof. exact alarm_back. Qed.
Print Assumptions c95_alarm.

(** The same over the wire. *)
Theorem c95_base_delivered : forall E e, wf_base e -> exists b l,
  encode E ty_fields (VSlice (select_fields base_clauses (EBase e))) = Some b /\
  reads_back (decode E ty_fields) b (VSlice l) /\ base_unmarshal l = Some (arrived_base e).
Proof. exact base_delivered. Qed.
Print Assumptions c95_base_delivered.

Theorem c95_condition_delivered : forall E e, wf_condition e -> exists b l,
  encode E ty_fields (VSlice (select_fields condition_clauses (ECondition e))) = Some b /\
  reads_back (decode E ty_fields) b (VSlice l) /\ condition_unmarshal l = Some (arrived_condition e).
Proof. exact condition_delivered. Qed.
Print Assumptions c95_condition_delivered.

Theorem c95_acknowledgeable_delivered : forall E e, wf_ack e -> exists b l,
  encode E ty_fields (VSlice (select_fields ack_clauses (EAck e))) = Some b /\
  reads_back (decode E ty_fields) b (VSlice l) /\ ack_unmarshal l = Some (arrived_ack e).
Proof. exact ack_delivered. Qed.
Print Assumptions c95_acknowledgeable_delivered.

Theorem c95_alarm_delivered : forall E e, wf_alarm e -> exists b l,
  encode E ty_fields (VSlice (select_fields alarm_clauses (EAlarm e))) = Some b /\
  reads_back (decode E ty_fields) b (VSlice l) /\ alarm_unmarshal l = Some (arrived_alarm e).
Proof. exact alarm_delivered. Qed.
Print Assumptions c95_alarm_delivered.

(** Any event read as an alarm: its own fields, and zero values for the rest. *)
Theorem c95_read_as_alarm : forall e, alarm_unmarshal (select_fields alarm_clauses e) = Some (as_alarm e).
Proof. exact as_alarm_back. Qed.
Print Assumptions c95_read_as_alarm.

(** Reading refuses a list of another length, and nothing else. *)
Theorem c95_base_count : forall l, base_unmarshal l = None <-> length l <> 8%nat.
Proof. exact base_count. Qed.
Print Assumptions c95_base_count.

Theorem c95_condition_count : forall l, condition_unmarshal l = None <-> length l <> 12%nat.
Proof. exact condition_count. Qed.
Print Assumptions c95_condition_count.

Theorem c95_acknowledgeable_count : forall l, ack_unmarshal l = None <-> length l <> 14%nat.
Proof. exact ack_count. Qed.
Print Assumptions c95_acknowledgeable_count.

Theorem c95_alarm_count : forall l, alarm_unmarshal l = None <-> length l <> 15%nat.
Proof. exact alarm_count. Qed.
Print Assumptions c95_alarm_count.

(** A value of another type than the field's is read as Go's zero value: year 1 for a time. *)
Theorem c95_other_types : forall f0 f1 f2 f3 f4 f5 f6 f7, exists e,
  base_unmarshal [f0; f1; f2; f3; f4; f5; f6; f7] = Some e /\
  ((exists k t, f4 = VScalar k (VB BTime t) /\ be_Time e = t) \/ ((forall k t, f4 <> VScalar k (VB BTime t)) /\ be_Time e = mkTime (-62135596800) 0)) /\
  ((exists k n, f7 = VScalar k (VB BUInt16 n) /\ be_Severity e = n) \/ ((forall k n, f7 <> VScalar k (VB BUInt16 n)) /\ be_Severity e = 0)).
Proof. exact other_types. Qed.
Print Assumptions c95_other_types.
