(** What a server's own variables are asked to say, by browse path and standard names. *)
From Coq Require Import ZArith List Bool String.
From Verif Require Import Bytes CodecSpec Prim PrimSpec Value ValueSpec Text StructTable Messages OwnData OwnTable OwnSpace.
Import ListNotations.
Open Scope string_scope.
Open Scope Z_scope.

(** * What is shown *)
(** A value that is no structure, a structure with its name and fields, an array of structures *)
Inductive shown : Type := Plain (v : val) | Structure (n : string) (fields : list val) | Structures (n : string) (l : list (list val)).
(** The number of a structure is that of the structure with the name *)
Definition numbered_as (n : string) (t : Z) : Prop :=
  0 <= t /\ exists e f, nth_error struct_table (Z.to_nat t) = Some (n, e, f).
Definition shows (v : val) (s : shown) : Prop :=
  match s with
  | Plain p => v = p
  | Structure n fs => exists t, numbered_as n t /\ v = VScalar KExt (VExt t fs)
  | Structures n l => exists t, numbered_as n t /\ v = VArr KExt (map (VExt t) l)
  end.
Definition Bool (b : bool) := Plain (VScalar (KB BBool) (VB BBool b)).
Definition Byte (z : Z) := Plain (VScalar (KB BByte) (VB BByte z)).
Definition UInt16 (z : Z) := Plain (VScalar (KB BUInt16) (VB BUInt16 z)).
Definition Int32 (z : Z) := Plain (VScalar (KB BInt32) (VB BInt32 z)).
Definition UInt32 (z : Z) := Plain (VScalar (KB BUInt32) (VB BUInt32 z)).
Definition Double (z : Z) := Plain (VScalar (KB BDouble) (VB BDouble z)).
Definition Str (z : bytes) := Plain (VScalar (KB BString) (VB BString z)).
Definition Octets (z : bytes) := Plain (VScalar (KB BByteString) (VB BByteString z)).
Definition DateTime (t : time) := Plain (VScalar (KB BTime) (VB BTime t)).
Definition Words (t : ltext) := Plain (VScalar (KB BLText) (VB BLText t)).
Definition Node (n : nodeid) := Plain (VScalar (KB BNodeId) (VB BNodeId n)).
Definition Strs (l : list bytes) := Plain (VArr (KB BString) (map (VB BString) l)).
Definition StrsOf (o : option (list bytes)) := match o with Some l => Strs l | None => Plain (VArrNil (KB BString)) end.

(** * C100: the facts, for a server with capabilities c and operation limits l *)
Definition build_shown (b : build) : list val :=
  [VB BString (bi_ProductURI b); VB BString (bi_ManufacturerName b); VB BString (bi_ProductName b);
   VB BString (bi_SoftwareVersion b); VB BString (bi_BuildNumber b); VB BTime (bi_BuildDate b)].
Definition subscription_shown (s : subscription) : list val :=
  let n f := VB BUInt32 (su_count s f) in
  [VB BNodeId (su_sessionId s); n "id"; VB BByte (su_priority s); VB BDouble (su_publishingInterval s); n "maxKeepAliveCount";
   n "maxLifetimeCount"; n "maxNotificationsPerPublish"; VB BBool (su_publishingEnabled s); n "modifyCount";
   VB BUInt32 0; VB BUInt32 0; n "republishRequestCount"; n "republishMessageRequestCount"; n "republishMessageCount";
   VB BUInt32 0; VB BUInt32 0; VB BUInt32 0; n "publishRequestCount"; n "dataChangeNotificationsCount"; n "eventNotificationsCount";
   n "notificationsCount"; n "latePublishRequestCount"; n "keepAliveCount"; n "lifetimeCount"; n "unacknowledgedMessageCount";
   VB BUInt32 0; n "monitoredItemCount"; n "disabledMonitoredItemCount"; n "monitoringQueueOverflowCount"; n "nextSequenceNumber"; VB BUInt32 0].
Definition operation_limits : list string :=
  ["MaxNodesPerRead"; "MaxNodesPerHistoryReadData"; "MaxNodesPerHistoryReadEvents"; "MaxNodesPerWrite"; "MaxNodesPerHistoryUpdateData";
   "MaxNodesPerHistoryUpdateEvents"; "MaxNodesPerMethodCall"; "MaxNodesPerBrowse"; "MaxNodesPerRegisterNodes";
   "MaxNodesPerTranslateBrowsePathsToNodeIds"; "MaxNodesPerNodeManagement"; "MaxMonitoredItemsPerCall"].
Definition summary_counters : list string :=
  ["ServerViewCount"; "CurrentSessionCount"; "CumulatedSessionCount"; "SecurityRejectedSessionCount"; "RejectedSessionCount"; "SessionTimeoutCount";
   "SessionAbortCount"; "CurrentSubscriptionCount"; "CumulatedSubscriptionCount"; "PublishingIntervalCount"; "SecurityRejectedRequestsCount"; "RejectedRequestsCount"].
Definition limit_path (x : string) : list string := ["Server"; "ServerCapabilities"; "OperationLimits"; x].
Definition facts (w : world) (c : capabilities) (l : limits) : list (list string * shown) :=
  [ (["Server"; "ServerArray"], Strs (w_servers w));
    (["Server"; "NamespaceArray"], Strs (w_namespaces w));
    (["Server"; "ServiceLevel"], Byte 255);
    (["Server"; "Auditing"], Bool false);
    (["Server"; "ServerStatus"], Structure "ServerStatusDataType"
       [VB BTime (w_start w); VB BTime (w_now w); VB BInt32 (w_state w); VStruct (build_shown (w_build w)); VB BUInt32 (w_seconds w); VB BLText (w_reason w)]);
    (["Server"; "ServerStatus"; "StartTime"], DateTime (w_start w));
    (["Server"; "ServerStatus"; "CurrentTime"], DateTime (w_now w));
    (["Server"; "ServerStatus"; "State"], Int32 (w_state w));
    (["Server"; "ServerStatus"; "SecondsTillShutdown"], UInt32 (w_seconds w));
    (["Server"; "ServerStatus"; "ShutdownReason"], Words (w_reason w));
    (["Server"; "ServerStatus"; "BuildInfo"], Structure "BuildInfo" (build_shown (w_build w)));
    (["Server"; "ServerStatus"; "BuildInfo"; "ProductUri"], Str (bi_ProductURI (w_build w)));
    (["Server"; "ServerStatus"; "BuildInfo"; "ManufacturerName"], Str (bi_ManufacturerName (w_build w)));
    (["Server"; "ServerStatus"; "BuildInfo"; "ProductName"], Str (bi_ProductName (w_build w)));
    (["Server"; "ServerStatus"; "BuildInfo"; "SoftwareVersion"], Str (bi_SoftwareVersion (w_build w)));
    (["Server"; "ServerStatus"; "BuildInfo"; "BuildNumber"], Str (bi_BuildNumber (w_build w)));
    (["Server"; "ServerStatus"; "BuildInfo"; "BuildDate"], DateTime (bi_BuildDate (w_build w)));
    (["Server"; "ServerCapabilities"; "ServerProfileArray"], StrsOf (cap_ServerProfileArray c));
    (["Server"; "ServerCapabilities"; "LocaleIdArray"], StrsOf (cap_LocaleIDArray c));
    (["Server"; "ServerCapabilities"; "MinSupportedSampleRate"], Double (cap_MinSupportedSampleRate c));
    (["Server"; "ServerCapabilities"; "MaxBrowseContinuationPoints"], UInt16 (cap_MaxBrowseContinuationPoints c));
    (["Server"; "ServerCapabilities"; "MaxQueryContinuationPoints"], UInt16 (cap_MaxQueryContinuationPoints c));
    (["Server"; "ServerCapabilities"; "MaxHistoryContinuationPoints"], UInt16 (cap_MaxHistoryContinuationPoints c));
    (["Server"; "ServerCapabilities"; "MaxArrayLength"], UInt32 (cap_MaxArrayLength c));
    (["Server"; "ServerCapabilities"; "MaxStringLength"], UInt32 (cap_MaxStringLength c));
    (["Server"; "ServerCapabilities"; "MaxByteStringLength"], UInt32 (cap_MaxByteStringLength c));
    (["Server"; "ServerRedundancy"; "RedundancySupport"], Int32 0);
    (["Server"; "ServerDiagnostics"; "EnabledFlag"], Bool (w_diagnostics w));
    (["Server"; "ServerDiagnostics"; "SubscriptionDiagnosticsArray"],
       if w_diagnostics w then Structures "SubscriptionDiagnosticsDataType" (map subscription_shown (w_subs w)) else Plain VNil) ]
  ++ map (fun x => (limit_path x, UInt32 (l x))) operation_limits
  ++ map (fun x => (["Server"; "ServerDiagnostics"; "ServerDiagnosticsSummary"; x], UInt32 (w_summary w x))) summary_counters
  ++ map (fun x => (["HistoryServerCapabilities"; x], Bool false))
       ["InsertDataCapability"; "ReplaceDataCapability"; "UpdateDataCapability"; "DeleteRawCapability"; "DeleteAtTimeCapability";
        "InsertEventCapability"; "ReplaceEventCapability"; "UpdateEventCapability"; "InsertAnnotationCapability"].

(** What the standard has and this server does not: nodes that are removed *)
Definition removed : list (list string) :=
  [["Server"; "RequestServerStateChange"]; ["Server"; "SetSubscriptionDurable"]; ["Server"; "ServerDiagnostics"; "SamplingIntervalDiagnosticsArray"]].
(** The numbers of these nodes in the standard, and of the arguments of the two methods *)
Definition removed_ids : list Z := [12886; 12887; 12749; 12750; 12751; 2289].
(** Variables that no statement gives a value *)
Definition never_set : list (list string) :=
  [["Server"; "ServerDiagnostics"; "SessionsDiagnosticsSummary"; "SessionDiagnosticsArray"];
   ["Server"; "ServerDiagnostics"; "SessionsDiagnosticsSummary"; "SessionSecurityDiagnosticsArray"];
   ["Server"; "EstimatedReturnTime"]; ["Server"; "LocalTime"]; ["Server"; "ServerCapabilities"; "SoftwareCertificates"];
   ["HistoryServerCapabilities"; "DeleteEventCapability"]; ["HistoryServerCapabilities"; "ServerTimestampSupported"]].

(** A reading of index ranges that gives the whole value where there is no range *)
Definition plain_range (range : goany -> bytes -> reading) : Prop := forall g, range g [] = (g, 0).

(** ** Data types *)
(** The built-in type a data type is encoded as: one of the types 1 to 25, or Int32 (6) for an enumeration (29).
    The fuel is the depth of the hierarchy. *)
Fixpoint built_in (fuel : nat) (t : Z) : Z :=
  match fuel with
  | O => 0
  | S f => if (1 <=? t) && (t <=? 25) then t
           else if t =? 29 then 6
           else match find (fun p => fst p =? t) data_types with Some (_, (super, _)) => built_in f super | None => 0 end
  end.
Definition type_name (t : Z) : string :=
  match find (fun p => fst p =? t) data_types with Some (_, (_, n)) => n | None => "" end.
(** A value fits a data type: null, or of the built-in type (any if it is BaseDataType, 24), and when that is a structure, of that structure *)
Definition element_fits (t : Z) (k : kind) (v : val) : Prop :=
  let b := built_in 8 t in
  (b = 24 \/ tag_of k = b) /\
  (b = 22 -> exists n fs, v = VExt n fs /\ numbered_as (type_name t) n).
Definition fits (t rank : Z) (v : val) : Prop :=
  match v with
  | VNil => True
  | VScalar k x => rank = -1 /\ element_fits t k x
  | VArrNil k => rank = 1 /\ (built_in 8 t = 24 \/ tag_of k = built_in 8 t)
  | VArr k l => rank = 1 /\ (built_in 8 t = 24 \/ tag_of k = built_in 8 t) /\ Forall (element_fits t k) l
  | _ => False
  end.

(** ** A server whose values can be sent: every number in the range of its Go type, every text and list short enough *)
Definition ok_time (t : time) : Prop := wf_time t /\ time_in_int64_ticks t.
Definition ok_strings (l : list bytes) : Prop := len_ok l /\ Forall len_ok l.
Definition ok_strings_of (o : option (list bytes)) : Prop := match o with Some l => ok_strings l | None => True end.
Definition ok_sub (s : subscription) : Prop :=
  wf_nodeid (su_sessionId s) /\ in_u 1 (su_priority s) /\ in_u 8 (su_publishingInterval s) /\ forall f, in_u 4 (su_count s f).
Definition ok_build (b : build) : Prop :=
  len_ok (bi_ProductURI b) /\ len_ok (bi_ManufacturerName b) /\ len_ok (bi_ProductName b) /\ len_ok (bi_SoftwareVersion b) /\
  len_ok (bi_BuildNumber b) /\ ok_time (bi_BuildDate b).
Definition ok_caps (c : capabilities) : Prop :=
  ok_strings_of (cap_LocaleIDArray c) /\ ok_strings_of (cap_ServerProfileArray c) /\
  in_u 4 (cap_MaxStringLength c) /\ in_u 4 (cap_MaxArrayLength c) /\ in_u 4 (cap_MaxByteStringLength c) /\
  in_u 2 (cap_MaxBrowseContinuationPoints c) /\ in_u 2 (cap_MaxHistoryContinuationPoints c) /\ in_u 2 (cap_MaxQueryContinuationPoints c) /\
  in_u 8 (cap_MinSupportedSampleRate c) /\ forall l, cap_OperationLimits c = Some l -> forall x, in_u 4 (l x).
Definition ok_moment (m : moment) : Prop :=
  ok_time (m_now m) /\ in_s 4 (m_state m) /\ in_u 4 (m_seconds m) /\ wf_ltext (m_reason m) /\ ok_strings (m_namespaces m) /\
  (forall f, in_u 4 (m_summary m f)) /\ len_ok (m_subs m) /\ Forall ok_sub (m_subs m).
Definition the_moment (w : world) : moment := mkMoment (w_now w) (w_state w) (w_seconds w) (w_reason w) (w_namespaces w) (w_summary w) (w_subs w).
Definition is_write (e : event) : Prop := match e with Written _ _ => True | Later _ => False end.
Definition ok_world (w : world) : Prop :=
  (forall c, w_caps w = Some c -> ok_caps c) /\ ok_build (w_build w) /\ ok_time (w_start w) /\ ok_strings (w_servers w) /\ ok_moment (the_moment w).

(** * C102 *)
Definition counter_shown (s : session) (total errors : string) : shown := Structure "ServiceCounterDataType" [VB BUInt32 (se_count s total); VB BUInt32 (se_count s errors)].
Fixpoint items_of (l : list subscription) : Z := match l with [] => 0 | u :: r => su_items u + items_of r end.
(** Services as they appear in the names of the standard variables and in the names of the counters *)
Definition counted_names : list (string * string) :=
  [("Read", "read"); ("HistoryRead", "historyRead"); ("Write", "write"); ("HistoryUpdate", "historyUpdate"); ("Call", "call");
   ("CreateMonitoredItems", "createMonitoredItems"); ("ModifyMonitoredItems", "modifyMonitoredItems"); ("SetMonitoringMode", "setMonitoringMode");
   ("SetTriggering", "setTriggering"); ("DeleteMonitoredItems", "deleteMonitoredItems"); ("CreateSubscription", "createSubscription");
   ("ModifySubscription", "modifySubscription"); ("SetPublishingMode", "setPublishingMode"); ("Publish", "publish"); ("Republish", "republish");
   ("TransferSubscriptions", "transferSubscriptions"); ("DeleteSubscriptions", "deleteSubscriptions"); ("AddNodes", "addNodes");
   ("AddReferences", "addReferences"); ("DeleteNodes", "deleteNodes"); ("DeleteReferences", "deleteReferences"); ("Browse", "browse");
   ("BrowseNext", "browseNext"); ("TranslateBrowsePathsToNodeIds", "translateBrowsePathsToNodeIds"); ("QueryFirst", "queryFirst");
   ("QueryNext", "queryNext"); ("RegisterNodes", "registerNodes"); ("UnregisterNodes", "unregisterNodes")].
Definition session_facts (s : session) : list (string * shown) :=
  [ ("SessionId", Node (se_sessionId s)); ("SessionName", Str (se_sessionName s));
    ("ClientDescription", Structure "ApplicationDescription" (se_clientDescription s));
    ("ServerUri", Str (se_serverUri s)); ("EndpointUrl", Str (se_endpointURL s)); ("LocaleIds", StrsOf (se_localeIds s));
    ("ActualSessionTimeout", Double (se_timeout s)); ("MaxResponseMessageSize", UInt32 (se_count s "maxResponseMessageSize"));
    ("ClientConnectionTime", DateTime (se_timeCreated s)); ("ClientLastContactTime", DateTime (se_lastAccess s));
    ("CurrentSubscriptionsCount", UInt32 (Z.of_nat (List.length (se_subs s)))); ("CurrentMonitoredItemsCount", UInt32 (items_of (se_subs s)));
    ("CurrentPublishRequestsInQueue", UInt32 (se_queue s)); ("TotalRequestCount", counter_shown s "requestCount" "errorCount");
    ("UnauthorizedRequestCount", UInt32 (se_count s "unauthorizedRequestCount")) ]
  ++ map (fun p => (fst p ++ "Count", counter_shown s (snd p ++ "Count") (snd p ++ "ErrorCount"))) counted_names.
Definition security_facts (s : session) : list (string * shown) :=
  [ ("SessionId", Node (se_sessionId s)); ("ClientUserIdOfSession", Str (se_clientUserIdOfSession s));
    ("ClientUserIdHistory", StrsOf (se_clientUserIdHistory s)); ("AuthenticationMechanism", Str (se_authenticationMechanism s));
    ("Encoding", Str (lit "UA Binary")); ("TransportProtocol", Str (lit "http://opcfoundation.org/UA-Profile/Transport/uatcp-uasc-uabinary")) ].
Definition subscription_facts (s : subscription) : list (string * shown) :=
  let n f := UInt32 (su_count s f) in
  [ ("SessionId", Node (su_sessionId s)); ("SubscriptionId", n "id"); ("Priority", Byte (su_priority s));
    ("PublishingInterval", Double (su_publishingInterval s)); ("MaxKeepAliveCount", n "maxKeepAliveCount"); ("MaxLifetimeCount", n "maxLifetimeCount");
    ("MaxNotificationsPerPublish", n "maxNotificationsPerPublish"); ("PublishingEnabled", Bool (su_publishingEnabled s)); ("ModifyCount", n "modifyCount");
    ("RepublishRequestCount", n "republishRequestCount"); ("RepublishMessageRequestCount", n "republishMessageRequestCount");
    ("RepublishMessageCount", n "republishMessageCount"); ("PublishRequestCount", n "publishRequestCount");
    ("DataChangeNotificationsCount", n "dataChangeNotificationsCount"); ("EventNotificationsCount", n "eventNotificationsCount");
    ("NotificationsCount", n "notificationsCount"); ("LatePublishRequestCount", n "latePublishRequestCount"); ("CurrentKeepAliveCount", n "keepAliveCount");
    ("CurrentLifetimeCount", n "lifetimeCount"); ("UnacknowledgedMessageCount", n "unacknowledgedMessageCount"); ("MonitoredItemCount", n "monitoredItemCount");
    ("DisabledMonitoredItemCount", n "disabledMonitoredItemCount"); ("MonitoringQueueOverflowCount", n "monitoringQueueOverflowCount");
    ("NextSequenceNumber", n "nextSequenceNumber") ].
(** A variable shows a field of a structure: the same value, a structure unwrapped
    (a ByteString in a structure is a Go string, StructTable.v) *)
Definition same_field (v : goany) (field : val) : Prop :=
  match v with
  | GoVal (VScalar KExt (VExt _ fs)) => field = VStruct fs
  | GoVal (VScalar _ (VB BByteString x)) => field = VB BString x
  | GoVal (VScalar _ x) => field = x
  | GoVal (VArr _ l) => field = VSlice l
  | GoVal (VArrNil _) => field = VSlice []
  | _ => False
  end.

(** The variable with the name tells every session the fact *)
Definition tells {A} (l : list (diagnostic A)) (s : A) (roles : Z -> option bool) (q : string * shown) : Prop :=
  forall r, exists d v, component l (fst q) = Some d /\ read_diagnostic roles d s r = (GoVal v, 0) /\ shows v (snd q).
(** It tells the fact to a session of an authenticated user on an encrypted channel, and nothing to others *)
Definition tells_admitted {A} (l : list (diagnostic A)) (s : A) (q : string * shown) : Prop :=
  exists d, component l (fst q) = Some d /\
    forall roles r, (roles (se_identity r) = Some true -> se_securityMode r = 3 -> exists v, read_diagnostic roles d s r = (GoVal v, 0) /\ shows v (snd q)) /\
      (roles (se_identity r) <> Some true -> read_diagnostic roles d s r = (g_nil, 0x801F0000)) /\
      (roles (se_identity r) = Some true -> se_securityMode r <> 3 -> read_diagnostic roles d s r = (g_nil, 0x80E60000)).
(** The variables with the names tell the same as the fields of the structure, in this order *)
Definition agree {A} (l : list (diagnostic A)) (names : list string) (s : A) (r : session) (fields : list val) : Prop :=
  Forall2 (fun n f => exists d, component l n = Some d /\ same_field (v_value d s r) f) names fields.
(** The names of the components of a type of the standard, given with data types and value ranks *)
Definition names_of (l : list (string * Z * Z)) : list string := map (fun p => fst (fst p)) l.
(** The variable has the rank the type declares and its values fit the declared data type *)
Definition has_type {A} (l : list (diagnostic A)) (p : string * Z * Z) : Prop :=
  exists d, component l (fst (fst p)) = Some d /\ v_rank d = snd p /\ forall s r, exists v, v_value d s r = GoVal v /\ fits (snd (fst p)) (snd p) v.
(** The variables of a session whose data type is a structure *)
Definition structured : list string := "ClientDescription" :: "TotalRequestCount" :: map (fun p => fst p ++ "Count") counted_names.
(** The counters of a subscription which nothing counts *)
Definition uncounted : list string := ["EnableCount"; "DisableCount"; "TransferRequestCount"; "TransferredToAltClientCount"; "TransferredToSameClientCount"; "DiscardedMessageCount"; "EventQueueOverFlowCount"].

(** * C103: the order of the states *)
Definition stage (state : Z) : Z := if state =? 7 then 0 else if state =? 0 then 1 else if state =? 4 then 2 else -1.
Definition closes (acts : list act) : nat := List.length (filter (fun a => match a with OwnSpace.Close => true | _ => false end) acts).
(** The call of Close that counts down goes on to its end *)
Definition five : list act := [Proceed 0; Proceed 0; Proceed 0; Proceed 0; Proceed 0].
