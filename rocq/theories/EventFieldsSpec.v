(** What the fields of an event are, by OPC UA Part 5 (BaseEventType) and Part 9 (conditions), and which
    of them a select clause asks for. *)
From Coq Require Import ZArith String List Bool Strings.Byte.
From Verif Require Import Bytes CodecSpec Prim PrimSpec Value ValueSpec Text EventFields.
Import ListNotations.
Open Scope Z_scope.

(** A field: the number of the event type that declares it, its browse path, its attribute (13: Value, 1: NodeId),
    and its value in this event. *)
Record field := mkField { f_type : Z; f_path : list string; f_attr : Z; f_value : val }.

Definition base_part (id : bytes) (ty src : nodeid) (name : bytes) (t rt : time) (msg : ltext) (sev : Z) : list field :=
  [mkField 2041 ["EventId"]%string 13 (of_bytestring id); mkField 2041 ["EventType"]%string 13 (of_node ty);
   mkField 2041 ["SourceNode"]%string 13 (of_node src); mkField 2041 ["SourceName"]%string 13 (of_string name);
   mkField 2041 ["Time"]%string 13 (of_time t); mkField 2041 ["ReceiveTime"]%string 13 (of_time rt);
   mkField 2041 ["Message"]%string 13 (of_text msg); mkField 2041 ["Severity"]%string 13 (of_uint16 sev)].
Definition condition_part (id : nodeid) (name : bytes) (branch : nodeid) (retain : bool) : list field :=
  [mkField 2782 [] 1 (of_node id); mkField 2782 ["ConditionName"]%string 13 (of_string name);
   mkField 2782 ["BranchId"]%string 13 (of_node branch); mkField 2782 ["Retain"]%string 13 (of_bool retain)].
Definition ack_part (acked confirmed : bool) : list field :=
  [mkField 2881 ["AckedState"; "Id"]%string 13 (of_bool acked);
   mkField 2881 ["ConfirmedState"; "Id"]%string 13 (of_bool confirmed)].
Definition alarm_part (active : bool) : list field :=
  [mkField 2915 ["ActiveState"; "Id"]%string 13 (of_bool active);
   mkField 2915 ["ActiveState"; "EffectiveDisplayName"]%string 13
     (of_text (mkLT (lit (if active then "Active" else "Inactive")) (lit "en")))].

Definition fields_of (e : event) : list field :=
  match e with
  | EBase e =>
      base_part (be_EventID e) (be_EventType e) (be_SourceNode e) (be_SourceName e) (be_Time e) (be_ReceiveTime e) (be_Message e) (be_Severity e)
  | ECondition e =>
      base_part (co_EventID e) (co_EventType e) (co_SourceNode e) (co_SourceName e) (co_Time e) (co_ReceiveTime e) (co_Message e) (co_Severity e) ++
      condition_part (co_ConditionID e) (co_ConditionName e) (co_BranchID e) (co_Retain e)
  | EAck e =>
      base_part (ac_EventID e) (ac_EventType e) (ac_SourceNode e) (ac_SourceName e) (ac_Time e) (ac_ReceiveTime e) (ac_Message e) (ac_Severity e) ++
      condition_part (ac_ConditionID e) (ac_ConditionName e) (ac_BranchID e) (ac_Retain e) ++
      ack_part (ac_AckedState e) (ac_ConfirmedState e)
  | EAlarm e =>
      base_part (al_EventID e) (al_EventType e) (al_SourceNode e) (al_SourceName e) (al_Time e) (al_ReceiveTime e) (al_Message e) (al_Severity e) ++
      condition_part (al_ConditionID e) (al_ConditionName e) (al_BranchID e) (al_Retain e) ++
      ack_part (al_AckedState e) (al_ConfirmedState e) ++
      alarm_part (al_ActiveState e)
  end.

(** A clause asks for a field: by its path and attribute, without an index range, with the type that declares it
    or with BaseEventType, which stands for any event. *)
Definition asks (c : operand) (f : field) : Prop :=
  o_path c = map (fun s => mkQ 0 (lit s)) (f_path f) /\ o_attr c = f_attr f /\ o_range c = [] /\
  (o_type c = NNum 0 2041 \/ o_type c = NNum 0 (f_type f)).

(** By Part 4, 7.4.4.5 (SimpleAttributeOperand) the type may be any type the event is an instance of that has the field:
    the declaring type or a subtype of it. *)
Definition subtypes_of (t : Z) : list Z :=
  if t =? 2041 then [2041; 2782; 2881; 2915] else if t =? 2782 then [2782; 2881; 2915]
  else if t =? 2881 then [2881; 2915] else [2915].
Definition asks_by_subtype (c : operand) (f : field) : Prop :=
  o_path c = map (fun s => mkQ 0 (lit s)) (f_path f) /\ o_attr c = f_attr f /\ o_range c = [] /\
  exists t, In t (subtypes_of (f_type f)) /\ o_type c = NNum 0 t.

(** Values that fit the wire types *)
Definition wf_base (e : base) : Prop :=
  len_ok (be_EventID e) /\ wf_nodeid (be_EventType e) /\ wf_nodeid (be_SourceNode e) /\ len_ok (be_SourceName e) /\ (wf_time (be_Time e) /\ time_in_int64_ticks (be_Time e)) /\ (wf_time (be_ReceiveTime e) /\ time_in_int64_ticks (be_ReceiveTime e)) /\ wf_ltext (be_Message e) /\ in_u 2 (be_Severity e).
(** What arrives: times in steps of 100 ns from 1601 on (C02), null node ids as nil (C04) *)
Definition arrived_base (e : base) : base :=
  mk_base (be_EventID e) (norm_nodeid (be_EventType e)) (norm_nodeid (be_SourceNode e)) (be_SourceName e) (norm_time (be_Time e)) (norm_time (be_ReceiveTime e)) (be_Message e) (be_Severity e).

(** Values that fit the wire types *)
Definition wf_condition (e : condition) : Prop :=
  len_ok (co_EventID e) /\ wf_nodeid (co_EventType e) /\ wf_nodeid (co_SourceNode e) /\ len_ok (co_SourceName e) /\ (wf_time (co_Time e) /\ time_in_int64_ticks (co_Time e)) /\ (wf_time (co_ReceiveTime e) /\ time_in_int64_ticks (co_ReceiveTime e)) /\ wf_ltext (co_Message e) /\ in_u 2 (co_Severity e) /\ wf_nodeid (co_ConditionID e) /\ len_ok (co_ConditionName e) /\ wf_nodeid (co_BranchID e).
(** What arrives: times in steps of 100 ns from 1601 on (C02), null node ids as nil (C04) *)
Definition arrived_condition (e : condition) : condition :=
  mk_condition (co_EventID e) (norm_nodeid (co_EventType e)) (norm_nodeid (co_SourceNode e)) (co_SourceName e) (norm_time (co_Time e)) (norm_time (co_ReceiveTime e)) (co_Message e) (co_Severity e) (norm_nodeid (co_ConditionID e)) (co_ConditionName e) (norm_nodeid (co_BranchID e)) (co_Retain e).

(** Values that fit the wire types *)
Definition wf_ack (e : ack) : Prop :=
  len_ok (ac_EventID e) /\ wf_nodeid (ac_EventType e) /\ wf_nodeid (ac_SourceNode e) /\ len_ok (ac_SourceName e) /\ (wf_time (ac_Time e) /\ time_in_int64_ticks (ac_Time e)) /\ (wf_time (ac_ReceiveTime e) /\ time_in_int64_ticks (ac_ReceiveTime e)) /\ wf_ltext (ac_Message e) /\ in_u 2 (ac_Severity e) /\ wf_nodeid (ac_ConditionID e) /\ len_ok (ac_ConditionName e) /\ wf_nodeid (ac_BranchID e).
(** What arrives: times in steps of 100 ns from 1601 on (C02), null node ids as nil (C04) *)
Definition arrived_ack (e : ack) : ack :=
  mk_ack (ac_EventID e) (norm_nodeid (ac_EventType e)) (norm_nodeid (ac_SourceNode e)) (ac_SourceName e) (norm_time (ac_Time e)) (norm_time (ac_ReceiveTime e)) (ac_Message e) (ac_Severity e) (norm_nodeid (ac_ConditionID e)) (ac_ConditionName e) (norm_nodeid (ac_BranchID e)) (ac_Retain e) (ac_AckedState e) (ac_ConfirmedState e).

(** Values that fit the wire types *)
Definition wf_alarm (e : alarm) : Prop :=
  len_ok (al_EventID e) /\ wf_nodeid (al_EventType e) /\ wf_nodeid (al_SourceNode e) /\ len_ok (al_SourceName e) /\ (wf_time (al_Time e) /\ time_in_int64_ticks (al_Time e)) /\ (wf_time (al_ReceiveTime e) /\ time_in_int64_ticks (al_ReceiveTime e)) /\ wf_ltext (al_Message e) /\ in_u 2 (al_Severity e) /\ wf_nodeid (al_ConditionID e) /\ len_ok (al_ConditionName e) /\ wf_nodeid (al_BranchID e).
(** What arrives: times in steps of 100 ns from 1601 on (C02), null node ids as nil (C04) *)
Definition arrived_alarm (e : alarm) : alarm :=
  mk_alarm (al_EventID e) (norm_nodeid (al_EventType e)) (norm_nodeid (al_SourceNode e)) (al_SourceName e) (norm_time (al_Time e)) (norm_time (al_ReceiveTime e)) (al_Message e) (al_Severity e) (norm_nodeid (al_ConditionID e)) (al_ConditionName e) (norm_nodeid (al_BranchID e)) (al_Retain e) (al_AckedState e) (al_ConfirmedState e) (al_ActiveState e).

Definition wf_event (e : event) : Prop :=
  match e with EBase e => wf_base e | ECondition e => wf_condition e | EAck e => wf_ack e | EAlarm e => wf_alarm e end.

(** An event read as an alarm: the fields it does not have are zero values *)
Definition as_alarm (e : event) : alarm :=
  match e with
  | EBase e => mk_alarm (be_EventID e) (be_EventType e) (be_SourceNode e) (be_SourceName e) (be_Time e) (be_ReceiveTime e) (be_Message e) (be_Severity e) NNull [] NNull false false false false
  | ECondition e => mk_alarm (co_EventID e) (co_EventType e) (co_SourceNode e) (co_SourceName e) (co_Time e) (co_ReceiveTime e) (co_Message e) (co_Severity e) (co_ConditionID e) (co_ConditionName e) (co_BranchID e) (co_Retain e) false false false
  | EAck e => mk_alarm (ac_EventID e) (ac_EventType e) (ac_SourceNode e) (ac_SourceName e) (ac_Time e) (ac_ReceiveTime e) (ac_Message e) (ac_Severity e) (ac_ConditionID e) (ac_ConditionName e) (ac_BranchID e) (ac_Retain e) (ac_AckedState e) (ac_ConfirmedState e) false
  | EAlarm e => mk_alarm (al_EventID e) (al_EventType e) (al_SourceNode e) (al_SourceName e) (al_Time e) (al_ReceiveTime e) (al_Message e) (al_Severity e) (al_ConditionID e) (al_ConditionName e) (al_BranchID e) (al_Retain e) (al_AckedState e) (al_ConfirmedState e) (al_ActiveState e) 
  end.
