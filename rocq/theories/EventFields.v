(** Events: which of their fields a client gets, and how it reads them.

    Sources: /repo/ua/base_event.go, /repo/ua/condition.go, /repo/ua/acknowledgeable_condition.go,
    /repo/ua/alarm_condition.go, /repo/ua/content_filter.go, /repo/server/event_monitored_item.go 273-280. *)
From Coq Require Import ZArith String List Bool Strings.Byte.
From Verif Require Import Bytes Prim Value Text.
Import ListNotations.
Open Scope Z_scope.

(** ** Select clauses *)
(** /repo/ua/structs.generated.go SimpleAttributeOperand *)
Record operand := mkOperand { o_type : nodeid; o_path : list qname; o_attr : Z; o_range : bytes }.

(** /repo/ua/nodeids.generated.go 772, 1125, 1134, 1135 *)
Definition id_base_event_type : nodeid := NNum 0 2041.
Definition id_condition_type : nodeid := NNum 0 2782.
Definition id_acknowledgeable_type : nodeid := NNum 0 2881.
Definition id_alarm_type : nodeid := NNum 0 2915.
(** /repo/ua/attributeids.go 7, 19 *)
Definition attr_node_id : Z := 1.
Definition attr_value : Z := 13.

(** == of the Go types *)
Definition node_eqb (a b : nodeid) : bool :=
  match a, b with
  | NNull, NNull => true
  | NNum n i, NNum m j => (n =? m) && (i =? j)
  | NStr n i, NStr m j => (n =? m) && bytes_eqb i j
  | NGuid n i, NGuid m j => (n =? m) && guid_eqb i j
  | NOpq n i, NOpq m j => (n =? m) && bytes_eqb i j
  | _, _ => false
  end.
Definition qname_eqb (a b : qname) : bool := (q_ns a =? q_ns b) && bytes_eqb (q_name a) (q_name b).
Fixpoint path_eqb (a b : list qname) : bool :=
  match a, b with
  | [], [] => true
  | x :: r, y :: s => qname_eqb x y && path_eqb r s
  | _, _ => false
  end.

(** /repo/ua/content_filter.go 5-24 EqualSimpleAttributeOperand *)
Definition equal_operand (a b : operand) : bool :=
  if negb (node_eqb (o_type a) id_base_event_type) && negb (node_eqb (o_type a) (o_type b)) then false
  else if negb (path_eqb (o_path a) (o_path b)) then false
  else if negb (o_attr a =? o_attr b) then false
  else if negb (bytes_eqb (o_range a) (o_range b)) then false
  else true.

(** ** Fields and variants *)
(** Variant(x): an interface with x; a nil NodeID gives a nil Variant. *)
Definition of_bytestring (x : bytes) : val := VScalar (KB BByteString) (VB BByteString x).
Definition of_string (x : bytes) : val := VScalar (KB BString) (VB BString x).
Definition of_time (x : time) : val := VScalar (KB BTime) (VB BTime x).
Definition of_text (x : ltext) : val := VScalar (KB BLText) (VB BLText x).
Definition of_uint16 (x : Z) : val := VScalar (KB BUInt16) (VB BUInt16 x).
Definition of_bool (x : bool) : val := VScalar (KB BBool) (VB BBool x).
Definition of_node (x : nodeid) : val := match x with NNull => VNil | _ => VScalar (KB BNodeId) (VB BNodeId x) end.

(** x, _ = v.(T): the zero value if v is not of type T (/repo/ua/base_event.go 30-37) *)
Definition as_bytestring (v : val) : bytes := match v with VScalar _ (VB BByteString x) => x | _ => [] end.
Definition as_string (v : val) : bytes := match v with VScalar _ (VB BString x) => x | _ => [] end.
Definition zero_time : time := mkTime (-62135596800) 0.
Definition as_time (v : val) : time := match v with VScalar _ (VB BTime x) => x | _ => zero_time end.
Definition as_text (v : val) : ltext := match v with VScalar _ (VB BLText x) => x | _ => mkLT [] [] end.
Definition as_uint16 (v : val) : Z := match v with VScalar _ (VB BUInt16 x) => x | _ => 0 end.
Definition as_bool (v : val) : bool := match v with VScalar _ (VB BBool x) => x | _ => false end.
Definition as_node (v : val) : nodeid := match v with VScalar _ (VB BNodeId x) => x | _ => NNull end.

(** The switches of the GetAttribute methods: the first case that is equal *)
Fixpoint switch (clause : operand) (table : list operand) (values : list val) : val :=
  match table, values with
  | t :: ts, v :: vs => if equal_operand clause t then v else switch clause ts vs
  | _, _ => VNil
  end.

(** One line of the tables of select clauses *)
Definition line (t : nodeid) (path : string) (a : Z) : operand := mkOperand t (parse_path (lit path)) a [].

(** ** BaseEvent *)
(** /repo/ua/base_event.go 14-23 *)
Record base := mk_base {
  be_EventID : bytes;
  be_EventType : nodeid;
  be_SourceNode : nodeid;
  be_SourceName : bytes;
  be_Time : time;
  be_ReceiveTime : time;
  be_Message : ltext;
  be_Severity : Z
}.
(** /repo/ua/base_event.go 66-75 *)
Definition base_clauses : list operand :=
  [line id_base_event_type "EventId" attr_value;
   line id_base_event_type "EventType" attr_value;
   line id_base_event_type "SourceNode" attr_value;
   line id_base_event_type "SourceName" attr_value;
   line id_base_event_type "Time" attr_value;
   line id_base_event_type "ReceiveTime" attr_value;
   line id_base_event_type "Message" attr_value;
   line id_base_event_type "Severity" attr_value].
(** the values of the cases of /repo/ua/base_event.go 42-63 *)
Definition base_fields (e : base) : list val :=
  [of_bytestring (be_EventID e);
   of_node (be_EventType e);
   of_node (be_SourceNode e);
   of_string (be_SourceName e);
   of_time (be_Time e);
   of_time (be_ReceiveTime e);
   of_text (be_Message e);
   of_uint16 (be_Severity e)].
(** /repo/ua/base_event.go 42-63 GetAttribute *)
Definition base_get (e : base) (clause : operand) : val := switch clause base_clauses (base_fields e).
(** /repo/ua/base_event.go 26-39 UnmarshalFields; None: BadUnexpectedError *)
Definition base_unmarshal (l : list val) : option base :=
  match l with
  | [f0; f1; f2; f3; f4; f5; f6; f7] =>
      Some (mk_base (as_bytestring f0) (as_node f1) (as_node f2) (as_string f3) (as_time f4) (as_time f5) (as_text f6) (as_uint16 f7))
  | _ => None
  end.

(** ** Condition *)
(** /repo/ua/condition.go 10-23 *)
Record condition := mk_condition {
  co_EventID : bytes;
  co_EventType : nodeid;
  co_SourceNode : nodeid;
  co_SourceName : bytes;
  co_Time : time;
  co_ReceiveTime : time;
  co_Message : ltext;
  co_Severity : Z;
  co_ConditionID : nodeid;
  co_ConditionName : bytes;
  co_BranchID : nodeid;
  co_Retain : bool
}.
(** /repo/ua/condition.go 78-91 *)
Definition condition_clauses : list operand :=
  [line id_base_event_type "EventId" attr_value;
   line id_base_event_type "EventType" attr_value;
   line id_base_event_type "SourceNode" attr_value;
   line id_base_event_type "SourceName" attr_value;
   line id_base_event_type "Time" attr_value;
   line id_base_event_type "ReceiveTime" attr_value;
   line id_base_event_type "Message" attr_value;
   line id_base_event_type "Severity" attr_value;
   line id_condition_type "" attr_node_id;
   line id_condition_type "ConditionName" attr_value;
   line id_condition_type "BranchId" attr_value;
   line id_condition_type "Retain" attr_value].
(** the values of the cases of /repo/ua/condition.go 46-75 *)
Definition condition_fields (e : condition) : list val :=
  [of_bytestring (co_EventID e);
   of_node (co_EventType e);
   of_node (co_SourceNode e);
   of_string (co_SourceName e);
   of_time (co_Time e);
   of_time (co_ReceiveTime e);
   of_text (co_Message e);
   of_uint16 (co_Severity e);
   of_node (co_ConditionID e);
   of_string (co_ConditionName e);
   of_node (co_BranchID e);
   of_bool (co_Retain e)].
(** /repo/ua/condition.go 46-75 GetAttribute *)
Definition condition_get (e : condition) (clause : operand) : val := switch clause condition_clauses (condition_fields e).
(** /repo/ua/condition.go 26-43 UnmarshalFields; None: BadUnexpectedError *)
Definition condition_unmarshal (l : list val) : option condition :=
  match l with
  | [f0; f1; f2; f3; f4; f5; f6; f7; f8; f9; f10; f11] =>
      Some (mk_condition (as_bytestring f0) (as_node f1) (as_node f2) (as_string f3) (as_time f4) (as_time f5) (as_text f6) (as_uint16 f7) (as_node f8) (as_string f9) (as_node f10) (as_bool f11))
  | _ => None
  end.

(** ** AcknowledgeableCondition *)
(** /repo/ua/acknowledgeable_condition.go 10-25 *)
Record ack := mk_ack {
  ac_EventID : bytes;
  ac_EventType : nodeid;
  ac_SourceNode : nodeid;
  ac_SourceName : bytes;
  ac_Time : time;
  ac_ReceiveTime : time;
  ac_Message : ltext;
  ac_Severity : Z;
  ac_ConditionID : nodeid;
  ac_ConditionName : bytes;
  ac_BranchID : nodeid;
  ac_Retain : bool;
  ac_AckedState : bool;
  ac_ConfirmedState : bool
}.
(** /repo/ua/acknowledgeable_condition.go 86-101 *)
Definition ack_clauses : list operand :=
  [line id_base_event_type "EventId" attr_value;
   line id_base_event_type "EventType" attr_value;
   line id_base_event_type "SourceNode" attr_value;
   line id_base_event_type "SourceName" attr_value;
   line id_base_event_type "Time" attr_value;
   line id_base_event_type "ReceiveTime" attr_value;
   line id_base_event_type "Message" attr_value;
   line id_base_event_type "Severity" attr_value;
   line id_condition_type "" attr_node_id;
   line id_condition_type "ConditionName" attr_value;
   line id_condition_type "BranchId" attr_value;
   line id_condition_type "Retain" attr_value;
   line id_acknowledgeable_type "AckedState/Id" attr_value;
   line id_acknowledgeable_type "ConfirmedState/Id" attr_value].
(** the values of the cases of /repo/ua/acknowledgeable_condition.go 50-83 *)
Definition ack_fields (e : ack) : list val :=
  [of_bytestring (ac_EventID e);
   of_node (ac_EventType e);
   of_node (ac_SourceNode e);
   of_string (ac_SourceName e);
   of_time (ac_Time e);
   of_time (ac_ReceiveTime e);
   of_text (ac_Message e);
   of_uint16 (ac_Severity e);
   of_node (ac_ConditionID e);
   of_string (ac_ConditionName e);
   of_node (ac_BranchID e);
   of_bool (ac_Retain e);
   of_bool (ac_AckedState e);
   of_bool (ac_ConfirmedState e)].
(** /repo/ua/acknowledgeable_condition.go 50-83 GetAttribute *)
Definition ack_get (e : ack) (clause : operand) : val := switch clause ack_clauses (ack_fields e).
(** /repo/ua/acknowledgeable_condition.go 28-47 UnmarshalFields; None: BadUnexpectedError *)
Definition ack_unmarshal (l : list val) : option ack :=
  match l with
  | [f0; f1; f2; f3; f4; f5; f6; f7; f8; f9; f10; f11; f12; f13] =>
      Some (mk_ack (as_bytestring f0) (as_node f1) (as_node f2) (as_string f3) (as_time f4) (as_time f5) (as_text f6) (as_uint16 f7) (as_node f8) (as_string f9) (as_node f10) (as_bool f11) (as_bool f12) (as_bool f13))
  | _ => None
  end.

(** ** AlarmCondition *)
(** /repo/ua/alarm_condition.go 10-26 *)
Record alarm := mk_alarm {
  al_EventID : bytes;
  al_EventType : nodeid;
  al_SourceNode : nodeid;
  al_SourceName : bytes;
  al_Time : time;
  al_ReceiveTime : time;
  al_Message : ltext;
  al_Severity : Z;
  al_ConditionID : nodeid;
  al_ConditionName : bytes;
  al_BranchID : nodeid;
  al_Retain : bool;
  al_AckedState : bool;
  al_ConfirmedState : bool;
  al_ActiveState : bool
}.
(** /repo/ua/alarm_condition.go 96-112 *)
Definition alarm_clauses : list operand :=
  [line id_base_event_type "EventId" attr_value;
   line id_base_event_type "EventType" attr_value;
   line id_base_event_type "SourceNode" attr_value;
   line id_base_event_type "SourceName" attr_value;
   line id_base_event_type "Time" attr_value;
   line id_base_event_type "ReceiveTime" attr_value;
   line id_base_event_type "Message" attr_value;
   line id_base_event_type "Severity" attr_value;
   line id_condition_type "" attr_node_id;
   line id_condition_type "ConditionName" attr_value;
   line id_condition_type "BranchId" attr_value;
   line id_condition_type "Retain" attr_value;
   line id_acknowledgeable_type "AckedState/Id" attr_value;
   line id_acknowledgeable_type "ConfirmedState/Id" attr_value;
   line id_alarm_type "ActiveState/Id" attr_value].
(** the values of the cases of /repo/ua/alarm_condition.go 52-93 *)
Definition alarm_fields (e : alarm) : list val :=
  [of_bytestring (al_EventID e);
   of_node (al_EventType e);
   of_node (al_SourceNode e);
   of_string (al_SourceName e);
   of_time (al_Time e);
   of_time (al_ReceiveTime e);
   of_text (al_Message e);
   of_uint16 (al_Severity e);
   of_node (al_ConditionID e);
   of_string (al_ConditionName e);
   of_node (al_BranchID e);
   of_bool (al_Retain e);
   of_bool (al_AckedState e);
   of_bool (al_ConfirmedState e);
   of_bool (al_ActiveState e)].
(** /repo/ua/alarm_condition.go 114 *)
Definition clause_display_name : operand := line id_alarm_type "ActiveState/EffectiveDisplayName" attr_value.
(** /repo/ua/alarm_condition.go 52-93 GetAttribute *)
Definition alarm_get (e : alarm) (clause : operand) : val :=
  switch clause (alarm_clauses ++ [clause_display_name])
    (alarm_fields e ++ [of_text (mkLT (lit (if al_ActiveState e then "Active" else "Inactive")) (lit "en"))]).
(** /repo/ua/alarm_condition.go 29-49 UnmarshalFields; None: BadUnexpectedError *)
Definition alarm_unmarshal (l : list val) : option alarm :=
  match l with
  | [f0; f1; f2; f3; f4; f5; f6; f7; f8; f9; f10; f11; f12; f13; f14] =>
      Some (mk_alarm (as_bytestring f0) (as_node f1) (as_node f2) (as_string f3) (as_time f4) (as_time f5) (as_text f6) (as_uint16 f7) (as_node f8) (as_string f9) (as_node f10) (as_bool f11) (as_bool f12) (as_bool f13) (as_bool f14))
  | _ => None
  end.

(** ** The server *)
(** Events an application can raise: those of package ua *)
Inductive event := EBase (e : base) | ECondition (e : condition) | EAck (e : ack) | EAlarm (e : alarm).
(** The method GetAttribute of the dynamic type (/repo/ua/base_event.go 9-11) *)
Definition get_attribute (e : event) : operand -> val :=
  match e with EBase e => base_get e | ECondition e => condition_get e | EAck e => ack_get e | EAlarm e => alarm_get e end.
(** /repo/server/event_monitored_item.go 273-280 selectFields *)
Definition select_fields (clauses : list operand) (e : event) : list val := map (get_attribute e) clauses.
(** /repo/ua/structs.generated.go EventFieldList: the fields travel as an array of variants *)
Definition ty_fields : ty := TSlice TVar.
