(** What a server knows about itself: its configuration, its state, its sessions and subscriptions, and the
    Go values its variables are given.

    Source: /repo/server/server.go 43-90 (Server), /repo/ua/server_capabilites.go, /repo/server/session.go 29-117
    (Session), /repo/server/subscription.go 28-66 (Subscription), /repo/ua/binary_encoder.go 895-1711 (WriteVariant).

    Simplifications: the fields of a structure which all are uint32 are one function from the name of the
    field; fields which no variable shows are left out. *)
From Coq Require Import ZArith List Bool String.
From Verif Require Import Bytes Prim Value StructTable Messages.
Import ListNotations.
Open Scope Z_scope.

(** * Go values in a variable *)
(** A value of type any in a DataValue: a value, or a pointer to a structure *)
Inductive goany : Type := GoVal (v : val) | GoPtr (name : string) (fields : list val).

(** binary_encoder.go 1692-1706: a structure is wrapped in an ExtensionObject; every other kind of Go value,
    pointers among them, is BadEncodingError.  [None]: the variant cannot be written. *)
Definition variant_of (g : goany) : option val := match g with GoVal v => Some v | GoPtr _ _ => None end.

(** The number of a structure is its place in the registrations (structs.generated.go 2489-2774) *)
Fixpoint place (n : string) (i : Z) (l : list (string * Z * list ty)) : Z :=
  match l with [] => -1 | (m, _, _) :: r => if String.eqb n m then i else place n (i + 1) r end.
Definition type_number (n : string) : Z := place n 0 struct_table.

Definition g_scalar (t : bty) (v : bval t) : goany := GoVal (VScalar (KB t) (VB t v)).
Definition g_bool := g_scalar BBool.
Definition g_byte := g_scalar BByte.
Definition g_uint16 := g_scalar BUInt16.
Definition g_int32 := g_scalar BInt32.
Definition g_uint32 := g_scalar BUInt32.
Definition g_double := g_scalar BDouble.
Definition g_string := g_scalar BString.
Definition g_bytestring := g_scalar BByteString.
Definition g_time := g_scalar BTime.
Definition g_text := g_scalar BLText.
Definition g_nodeid := g_scalar BNodeId.
Definition g_strings (l : option (list bytes)) : goany :=
  GoVal (match l with None => VArrNil (KB BString) | Some l => VArr (KB BString) (map (VB BString) l) end).
Definition g_struct (n : string) (fields : list val) : goany := GoVal (VScalar KExt (VExt (type_number n) fields)).
Definition g_structs (n : string) (l : list (list val)) : goany := GoVal (VArr KExt (map (VExt (type_number n)) l)).
Definition g_nil : goany := GoVal VNil.

(** * Configuration *)
(** ua/server_capabilites.go 34-47 OperationLimits, by the name of the field *)
Definition limits := string -> Z.
(** ua/server_capabilites.go 4-15; the limits are a pointer *)
Record capabilities : Type := mkCaps {
  cap_LocaleIDArray : option (list bytes); cap_MaxStringLength : Z; cap_MaxArrayLength : Z; cap_MaxByteStringLength : Z;
  cap_MaxBrowseContinuationPoints : Z; cap_MaxHistoryContinuationPoints : Z; cap_MaxQueryContinuationPoints : Z;
  cap_MinSupportedSampleRate : Z; cap_ServerProfileArray : option (list bytes); cap_OperationLimits : option limits }.
(** ua/structs.generated.go 2206 BuildInfo *)
Record build : Type := mkBuild {
  bi_ProductURI : bytes; bi_ManufacturerName : bytes; bi_ProductName : bytes; bi_SoftwareVersion : bytes;
  bi_BuildNumber : bytes; bi_BuildDate : time }.
Definition build_fields (b : build) : list val :=
  [VB BString (bi_ProductURI b); VB BString (bi_ManufacturerName b); VB BString (bi_ProductName b);
   VB BString (bi_SoftwareVersion b); VB BString (bi_BuildNumber b); VB BTime (bi_BuildDate b)].

(** * Subscriptions and sessions *)
(** subscription.go 28-66; [su_count]: the fields of type uint32; [su_items]: len(sub.items) *)
Record subscription : Type := mkSub {
  su_sessionId : nodeid; su_priority : Z; su_publishingInterval : Z; su_publishingEnabled : bool;
  su_count : string -> Z; su_items : Z }.
(** session.go 29-117; [se_count]: the fields of type uint32; [se_queue]: len(s.publishRequests);
    [se_subs]: the subscriptions GetBySession gives; [se_identity]: see [roles_of] in OwnSpace.v *)
Record session : Type := mkSession {
  se_sessionId : nodeid; se_sessionName : bytes; se_clientDescription : list val; se_serverUri : bytes;
  se_endpointURL : bytes; se_localeIds : option (list bytes); se_timeout : Z; se_timeCreated : time; se_lastAccess : time;
  se_subs : list subscription; se_queue : Z; se_count : string -> Z;
  se_clientUserIdOfSession : bytes; se_clientUserIdHistory : option (list bytes); se_authenticationMechanism : bytes;
  se_securityMode : Z; se_securityPolicyURI : bytes; se_clientCertificate : bytes; se_identity : Z }.
Definition item_count (s : session) : Z := fold_right (fun u n => su_items u + n) 0 (se_subs s).
Definition strings_val (l : option (list bytes)) : val :=
  VSlice (match l with None => [] | Some l => map (VB BString) l end).

(** * The server *)
(** server.go 43-90.  [w_caps]: nil when the option gives nil.  [w_summary]: the counters of
    serverDiagnosticsSummary by name.  [w_subs]: the subscriptions in the order the range over the map gives. *)
Record world : Type := mkWorld {
  w_caps : option capabilities; w_build : build; w_start : time; w_diagnostics : bool; w_historian : bool; w_servers : list bytes;
  w_now : time; w_state : Z; w_seconds : Z; w_reason : ltext; w_namespaces : list bytes;
  w_summary : string -> Z; w_subs : list subscription }.

(** server.go 506-959: what initializeNamespace does with one node.  [None]: the expression dereferences a
    nil pointer, which panics in New. *)
Definition expression := world -> option goany.
Definition of_caps (f : capabilities -> goany) : expression := fun w => option_map f (w_caps w).
Definition of_limits (f : limits -> goany) : expression :=
  fun w => match w_caps w with
           | Some c => match cap_OperationLimits c with Some l => Some (f l) | None => None end
           | None => None
           end.
Inductive action : Type :=
| SetValue (e : expression)           (* n.SetValue: computed once, when the server is made *)
| SetHandler (e : expression)         (* n.SetReadValueHandler: computed at every read *)
| SetAccess (level : Z)               (* n.accessLevel = *)
| Delete (children : bool).           (* nm.DeleteNode *)
Inductive node_class : Type := CObject | CVariable | CMethod.
(** A node of /repo/server/nodeset_1_04.xml *)
Record decl : Type := mkDecl {
  d_id : Z; d_parent : Z; d_name : string; d_class : node_class; d_type : Z; d_rank : Z; d_access : Z }.
(** A variable of a diagnostics object: its browse name, data type, value rank, whether its handler asks for
    the rights of the reading session, and its value for the session it describes and the session that reads *)
Record diagnostic (A : Type) : Type := mkDiag {
  v_name : string; v_type : Z; v_rank : Z; v_guarded : bool; v_value : A -> session -> goany }.
Arguments mkDiag {A}. Arguments v_name {A}. Arguments v_type {A}. Arguments v_rank {A}. Arguments v_guarded {A}. Arguments v_value {A}.
