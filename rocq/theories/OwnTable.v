(** What the server's own nodes are and what the server puts into them, transcribed by tools/self_table.py.

    Source: /repo/server/nodeset_1_04.xml, /repo/server/server.go 506-959 (initializeNamespace),
    /repo/server/session_manager.go 106-1711 and /repo/server/subscription_manager.go 127-947 (addDiagnosticsNode);
    identifiers /repo/ua/nodeids.generated.go; structures /repo/ua/structs.generated.go.
    Left out: the references of the modelling rules (server.go 703-724) and the handlers of the methods (859-955). *)
From Coq Require Import ZArith List Bool String.
From Verif Require Import Bytes Prim Value Text Messages OwnData.
Import ListNotations.
Open Scope Z_scope.
Open Scope string_scope.

(** nodeset_1_04.xml: the nodes below Server (i=2253) and HistoryServerCapabilities (i=11192): identifier, parent, browse name, class, data type, value rank, access level *)
Definition server_tree : list decl := [
  mkDecl 2253 0 "Server" CObject 0 (-1) 1;
  mkDecl 2254 2253 "ServerArray" CVariable 12 1 1;
  mkDecl 2255 2253 "NamespaceArray" CVariable 12 1 1;
  mkDecl 2256 2253 "ServerStatus" CVariable 862 (-1) 1;
  mkDecl 2257 2256 "StartTime" CVariable 294 (-1) 1;
  mkDecl 2258 2256 "CurrentTime" CVariable 294 (-1) 1;
  mkDecl 2259 2256 "State" CVariable 852 (-1) 1;
  mkDecl 2260 2256 "BuildInfo" CVariable 338 (-1) 1;
  mkDecl 2262 2260 "ProductUri" CVariable 12 (-1) 1;
  mkDecl 2263 2260 "ManufacturerName" CVariable 12 (-1) 1;
  mkDecl 2261 2260 "ProductName" CVariable 12 (-1) 1;
  mkDecl 2264 2260 "SoftwareVersion" CVariable 12 (-1) 1;
  mkDecl 2265 2260 "BuildNumber" CVariable 12 (-1) 1;
  mkDecl 2266 2260 "BuildDate" CVariable 294 (-1) 1;
  mkDecl 2992 2256 "SecondsTillShutdown" CVariable 7 (-1) 1;
  mkDecl 2993 2256 "ShutdownReason" CVariable 21 (-1) 1;
  mkDecl 2267 2253 "ServiceLevel" CVariable 3 (-1) 1;
  mkDecl 2994 2253 "Auditing" CVariable 1 (-1) 1;
  mkDecl 12885 2253 "EstimatedReturnTime" CVariable 13 (-1) 1;
  mkDecl 17634 2253 "LocalTime" CVariable 8912 (-1) 1;
  mkDecl 2268 2253 "ServerCapabilities" CObject 0 (-1) 1;
  mkDecl 2269 2268 "ServerProfileArray" CVariable 12 1 1;
  mkDecl 2271 2268 "LocaleIdArray" CVariable 295 1 1;
  mkDecl 2272 2268 "MinSupportedSampleRate" CVariable 290 (-1) 1;
  mkDecl 2735 2268 "MaxBrowseContinuationPoints" CVariable 5 (-1) 1;
  mkDecl 2736 2268 "MaxQueryContinuationPoints" CVariable 5 (-1) 1;
  mkDecl 2737 2268 "MaxHistoryContinuationPoints" CVariable 5 (-1) 1;
  mkDecl 3704 2268 "SoftwareCertificates" CVariable 344 1 1;
  mkDecl 11702 2268 "MaxArrayLength" CVariable 7 (-1) 1;
  mkDecl 11703 2268 "MaxStringLength" CVariable 7 (-1) 1;
  mkDecl 12911 2268 "MaxByteStringLength" CVariable 7 (-1) 1;
  mkDecl 11704 2268 "OperationLimits" CObject 0 (-1) 1;
  mkDecl 11705 11704 "MaxNodesPerRead" CVariable 7 (-1) 1;
  mkDecl 12165 11704 "MaxNodesPerHistoryReadData" CVariable 7 (-1) 1;
  mkDecl 12166 11704 "MaxNodesPerHistoryReadEvents" CVariable 7 (-1) 1;
  mkDecl 11707 11704 "MaxNodesPerWrite" CVariable 7 (-1) 1;
  mkDecl 12167 11704 "MaxNodesPerHistoryUpdateData" CVariable 7 (-1) 1;
  mkDecl 12168 11704 "MaxNodesPerHistoryUpdateEvents" CVariable 7 (-1) 1;
  mkDecl 11709 11704 "MaxNodesPerMethodCall" CVariable 7 (-1) 1;
  mkDecl 11710 11704 "MaxNodesPerBrowse" CVariable 7 (-1) 1;
  mkDecl 11711 11704 "MaxNodesPerRegisterNodes" CVariable 7 (-1) 1;
  mkDecl 11712 11704 "MaxNodesPerTranslateBrowsePathsToNodeIds" CVariable 7 (-1) 1;
  mkDecl 11713 11704 "MaxNodesPerNodeManagement" CVariable 7 (-1) 1;
  mkDecl 11714 11704 "MaxMonitoredItemsPerCall" CVariable 7 (-1) 1;
  mkDecl 2996 2268 "ModellingRules" CObject 0 (-1) 1;
  mkDecl 2997 2268 "AggregateFunctions" CObject 0 (-1) 1;
  mkDecl 15606 2268 "RoleSet" CObject 0 (-1) 1;
  mkDecl 16301 15606 "AddRole" CMethod 0 (-1) 1;
  mkDecl 16302 16301 "InputArguments" CVariable 296 1 1;
  mkDecl 16303 16301 "OutputArguments" CVariable 296 1 1;
  mkDecl 16304 15606 "RemoveRole" CMethod 0 (-1) 1;
  mkDecl 16305 16304 "InputArguments" CVariable 296 1 1;
  mkDecl 2274 2253 "ServerDiagnostics" CObject 0 (-1) 1;
  mkDecl 2275 2274 "ServerDiagnosticsSummary" CVariable 859 (-1) 1;
  mkDecl 2276 2275 "ServerViewCount" CVariable 7 (-1) 1;
  mkDecl 2277 2275 "CurrentSessionCount" CVariable 7 (-1) 1;
  mkDecl 2278 2275 "CumulatedSessionCount" CVariable 7 (-1) 1;
  mkDecl 2279 2275 "SecurityRejectedSessionCount" CVariable 7 (-1) 1;
  mkDecl 3705 2275 "RejectedSessionCount" CVariable 7 (-1) 1;
  mkDecl 2281 2275 "SessionTimeoutCount" CVariable 7 (-1) 1;
  mkDecl 2282 2275 "SessionAbortCount" CVariable 7 (-1) 1;
  mkDecl 2284 2275 "PublishingIntervalCount" CVariable 7 (-1) 1;
  mkDecl 2285 2275 "CurrentSubscriptionCount" CVariable 7 (-1) 1;
  mkDecl 2286 2275 "CumulatedSubscriptionCount" CVariable 7 (-1) 1;
  mkDecl 2287 2275 "SecurityRejectedRequestsCount" CVariable 7 (-1) 1;
  mkDecl 2288 2275 "RejectedRequestsCount" CVariable 7 (-1) 1;
  mkDecl 2289 2274 "SamplingIntervalDiagnosticsArray" CVariable 856 1 1;
  mkDecl 2290 2274 "SubscriptionDiagnosticsArray" CVariable 874 1 1;
  mkDecl 3706 2274 "SessionsDiagnosticsSummary" CObject 0 (-1) 1;
  mkDecl 3707 3706 "SessionDiagnosticsArray" CVariable 865 1 1;
  mkDecl 3708 3706 "SessionSecurityDiagnosticsArray" CVariable 868 1 1;
  mkDecl 2294 2274 "EnabledFlag" CVariable 1 (-1) 3;
  mkDecl 2295 2253 "VendorServerInfo" CObject 0 (-1) 1;
  mkDecl 2296 2253 "ServerRedundancy" CObject 0 (-1) 1;
  mkDecl 3709 2296 "RedundancySupport" CVariable 851 (-1) 1;
  mkDecl 11715 2253 "Namespaces" CObject 0 (-1) 1;
  mkDecl 11492 2253 "GetMonitoredItems" CMethod 0 (-1) 1;
  mkDecl 11493 11492 "InputArguments" CVariable 296 1 1;
  mkDecl 11494 11492 "OutputArguments" CVariable 296 1 1;
  mkDecl 12873 2253 "ResendData" CMethod 0 (-1) 1;
  mkDecl 12874 12873 "InputArguments" CVariable 296 1 1;
  mkDecl 12749 2253 "SetSubscriptionDurable" CMethod 0 (-1) 1;
  mkDecl 12750 12749 "InputArguments" CVariable 296 1 1;
  mkDecl 12751 12749 "OutputArguments" CVariable 296 1 1;
  mkDecl 12886 2253 "RequestServerStateChange" CMethod 0 (-1) 1;
  mkDecl 12887 12886 "InputArguments" CVariable 296 1 1;
  mkDecl 11192 0 "HistoryServerCapabilities" CObject 0 (-1) 1;
  mkDecl 11193 11192 "AccessHistoryDataCapability" CVariable 1 (-1) 1;
  mkDecl 11242 11192 "AccessHistoryEventsCapability" CVariable 1 (-1) 1;
  mkDecl 11273 11192 "MaxReturnDataValues" CVariable 7 (-1) 1;
  mkDecl 11274 11192 "MaxReturnEventValues" CVariable 7 (-1) 1;
  mkDecl 11196 11192 "InsertDataCapability" CVariable 1 (-1) 1;
  mkDecl 11197 11192 "ReplaceDataCapability" CVariable 1 (-1) 1;
  mkDecl 11198 11192 "UpdateDataCapability" CVariable 1 (-1) 1;
  mkDecl 11199 11192 "DeleteRawCapability" CVariable 1 (-1) 1;
  mkDecl 11200 11192 "DeleteAtTimeCapability" CVariable 1 (-1) 1;
  mkDecl 11281 11192 "InsertEventCapability" CVariable 1 (-1) 1;
  mkDecl 11282 11192 "ReplaceEventCapability" CVariable 1 (-1) 1;
  mkDecl 11283 11192 "UpdateEventCapability" CVariable 1 (-1) 1;
  mkDecl 11502 11192 "DeleteEventCapability" CVariable 1 (-1) 1;
  mkDecl 11275 11192 "InsertAnnotationCapability" CVariable 1 (-1) 1;
  mkDecl 11201 11192 "AggregateFunctions" CObject 0 (-1) 1;
  mkDecl 19091 11192 "ServerTimestampSupported" CVariable 1 (-1) 1
].

(** nodeset_1_04.xml: data types with their supertype (0: none) and name *)
Definition data_types : list (Z * (Z * string)) := [
  (1, (24, "Boolean"));
  (3, (28, "Byte"));
  (5, (28, "UInt16"));
  (7, (28, "UInt32"));
  (11, (26, "Double"));
  (12, (24, "String"));
  (13, (24, "DateTime"));
  (15, (24, "ByteString"));
  (17, (24, "NodeId"));
  (21, (24, "LocalizedText"));
  (22, (24, "Structure"));
  (24, (0, "BaseDataType"));
  (26, (24, "Number"));
  (28, (26, "UInteger"));
  (29, (24, "Enumeration"));
  (290, (11, "Duration"));
  (294, (13, "UtcTime"));
  (295, (12, "LocaleId"));
  (296, (22, "Argument"));
  (302, (29, "MessageSecurityMode"));
  (308, (22, "ApplicationDescription"));
  (338, (22, "BuildInfo"));
  (344, (22, "SignedSoftwareCertificate"));
  (851, (29, "RedundancySupport"));
  (852, (29, "ServerState"));
  (856, (22, "SamplingIntervalDiagnosticsDataType"));
  (859, (22, "ServerDiagnosticsSummaryDataType"));
  (862, (22, "ServerStatusDataType"));
  (865, (22, "SessionDiagnosticsDataType"));
  (868, (22, "SessionSecurityDiagnosticsDataType"));
  (871, (22, "ServiceCounterDataType"));
  (874, (22, "SubscriptionDiagnosticsDataType"));
  (8912, (22, "TimeZoneDataType"))
].

(** server.go 809-844: one element of SubscriptionDiagnosticsArray *)
Definition array_entry (s : subscription) : list val :=
  [VB BNodeId (su_sessionId s); VB BUInt32 (su_count s "id"); VB BByte (su_priority s); VB BDouble (su_publishingInterval s); VB BUInt32 (su_count s "maxKeepAliveCount"); VB BUInt32 (su_count s "maxLifetimeCount"); VB BUInt32 (su_count s "maxNotificationsPerPublish"); VB BBool (su_publishingEnabled s); VB BUInt32 (su_count s "modifyCount"); VB BUInt32 0; VB BUInt32 0; VB BUInt32 (su_count s "republishRequestCount"); VB BUInt32 (su_count s "republishMessageRequestCount"); VB BUInt32 (su_count s "republishMessageCount"); VB BUInt32 0; VB BUInt32 0; VB BUInt32 0; VB BUInt32 (su_count s "publishRequestCount"); VB BUInt32 (su_count s "dataChangeNotificationsCount"); VB BUInt32 (su_count s "eventNotificationsCount"); VB BUInt32 (su_count s "notificationsCount"); VB BUInt32 (su_count s "latePublishRequestCount"); VB BUInt32 (su_count s "keepAliveCount"); VB BUInt32 (su_count s "lifetimeCount"); VB BUInt32 (su_count s "unacknowledgedMessageCount"); VB BUInt32 0; VB BUInt32 (su_count s "monitoredItemCount"); VB BUInt32 (su_count s "disabledMonitoredItemCount"); VB BUInt32 (su_count s "monitoringQueueOverflowCount"); VB BUInt32 (su_count s "nextSequenceNumber"); VB BUInt32 0].

(** server.go 511-858, in the order of the text; the line beside each *)
Definition boot : list (Z * action) := [
  (2994, SetValue (fun w => Some (g_bool false)));   (* 511 *)
  (12886, Delete true);   (* 514 *)
  (12749, Delete true);   (* 517 *)
  (2267, SetValue (fun w => Some (g_byte 255)));   (* 520 *)
  (3709, SetValue (fun w => Some (g_int32 0)));   (* 523 *)
  (11312, Delete false);   (* 526 *)
  (11313, Delete true);   (* 529 *)
  (14415, Delete true);   (* 532 *)
  (11314, Delete true);   (* 535 *)
  (2255, SetHandler (fun w => Some (g_strings (Some (w_namespaces w)))));   (* 539 *)
  (2254, SetHandler (fun w => Some (g_strings (Some (w_servers w)))));   (* 544 *)
  (2256, SetHandler (fun w => Some (g_struct "ServerStatusDataType" [VB BTime (w_start w); VB BTime (w_now w); VB BInt32 (w_state w); VStruct (build_fields (w_build w)); VB BUInt32 (w_seconds w); VB BLText (w_reason w)])));   (* 549 *)
  (2259, SetHandler (fun w => Some (g_int32 (w_state w))));   (* 562 *)
  (2258, SetHandler (fun w => Some (g_time (w_now w))));   (* 567 *)
  (2992, SetHandler (fun w => Some (g_uint32 (w_seconds w))));   (* 572 *)
  (2993, SetHandler (fun w => Some (g_text (w_reason w))));   (* 577 *)
  (2257, SetValue (fun w => Some (g_time (w_start w))));   (* 582 *)
  (2260, SetValue (fun w => Some (g_struct "BuildInfo" (build_fields (w_build w)))));   (* 585 *)
  (2262, SetValue (fun w => Some (g_string (bi_ProductURI (w_build w)))));   (* 588 *)
  (2263, SetValue (fun w => Some (g_string (bi_ManufacturerName (w_build w)))));   (* 591 *)
  (2261, SetValue (fun w => Some (g_string (bi_ProductName (w_build w)))));   (* 594 *)
  (2264, SetValue (fun w => Some (g_string (bi_SoftwareVersion (w_build w)))));   (* 597 *)
  (2265, SetValue (fun w => Some (g_string (bi_BuildNumber (w_build w)))));   (* 600 *)
  (2266, SetValue (fun w => Some (g_time (bi_BuildDate (w_build w)))));   (* 603 *)
  (2271, SetValue (of_caps (fun c => g_strings (cap_LocaleIDArray c))));   (* 606 *)
  (11703, SetValue (of_caps (fun c => g_uint32 (cap_MaxStringLength c))));   (* 609 *)
  (11702, SetValue (of_caps (fun c => g_uint32 (cap_MaxArrayLength c))));   (* 612 *)
  (12911, SetValue (of_caps (fun c => g_uint32 (cap_MaxByteStringLength c))));   (* 615 *)
  (2735, SetValue (of_caps (fun c => g_uint16 (cap_MaxBrowseContinuationPoints c))));   (* 618 *)
  (2737, SetValue (of_caps (fun c => g_uint16 (cap_MaxHistoryContinuationPoints c))));   (* 621 *)
  (2736, SetValue (of_caps (fun c => g_uint16 (cap_MaxQueryContinuationPoints c))));   (* 624 *)
  (2272, SetValue (of_caps (fun c => g_double (cap_MinSupportedSampleRate c))));   (* 627 *)
  (2269, SetValue (of_caps (fun c => g_strings (cap_ServerProfileArray c))));   (* 630 *)
  (11193, SetValue (fun w => Some (g_bool false)));   (* 633 *)
  (11196, SetValue (fun w => Some (g_bool false)));   (* 636 *)
  (11197, SetValue (fun w => Some (g_bool false)));   (* 639 *)
  (11198, SetValue (fun w => Some (g_bool false)));   (* 642 *)
  (11199, SetValue (fun w => Some (g_bool false)));   (* 645 *)
  (11200, SetValue (fun w => Some (g_bool false)));   (* 648 *)
  (11242, SetValue (fun w => Some (g_bool false)));   (* 651 *)
  (11273, SetValue (fun w => Some (g_bool false)));   (* 654 *)
  (11274, SetValue (fun w => Some (g_bool false)));   (* 657 *)
  (11275, SetValue (fun w => Some (g_bool false)));   (* 660 *)
  (11281, SetValue (fun w => Some (g_bool false)));   (* 663 *)
  (11282, SetValue (fun w => Some (g_bool false)));   (* 666 *)
  (11283, SetValue (fun w => Some (g_bool false)));   (* 669 *)
  (11714, SetValue (of_limits (fun l => g_uint32 (l "MaxMonitoredItemsPerCall"))));   (* 672 *)
  (11710, SetValue (of_limits (fun l => g_uint32 (l "MaxNodesPerBrowse"))));   (* 675 *)
  (12165, SetValue (of_limits (fun l => g_uint32 (l "MaxNodesPerHistoryReadData"))));   (* 678 *)
  (12166, SetValue (of_limits (fun l => g_uint32 (l "MaxNodesPerHistoryReadEvents"))));   (* 681 *)
  (12167, SetValue (of_limits (fun l => g_uint32 (l "MaxNodesPerHistoryUpdateData"))));   (* 684 *)
  (12168, SetValue (of_limits (fun l => g_uint32 (l "MaxNodesPerHistoryUpdateEvents"))));   (* 687 *)
  (11709, SetValue (of_limits (fun l => g_uint32 (l "MaxNodesPerMethodCall"))));   (* 690 *)
  (11713, SetValue (of_limits (fun l => g_uint32 (l "MaxNodesPerNodeManagement"))));   (* 693 *)
  (11705, SetValue (of_limits (fun l => g_uint32 (l "MaxNodesPerRead"))));   (* 696 *)
  (11711, SetValue (of_limits (fun l => g_uint32 (l "MaxNodesPerRegisterNodes"))));   (* 699 *)
  (11712, SetValue (of_limits (fun l => g_uint32 (l "MaxNodesPerTranslateBrowsePathsToNodeIds"))));   (* 702 *)
  (11707, SetValue (of_limits (fun l => g_uint32 (l "MaxNodesPerWrite"))));   (* 705 *)
  (112, SetValue (fun w => Some (g_int32 1)));   (* 726 *)
  (11511, SetValue (fun w => Some (g_int32 1)));   (* 729 *)
  (113, SetValue (fun w => Some (g_int32 2)));   (* 732 *)
  (11509, SetValue (fun w => Some (g_int32 2)));   (* 735 *)
  (2294, SetAccess 1);   (* 739 *)
  (2294, SetValue (fun w => Some (g_bool (w_diagnostics w))));   (* 739 *)
  (2275, SetHandler (fun w => Some (GoPtr "ServerDiagnosticsSummaryDataType" [VB BUInt32 (w_summary w "ServerViewCount"); VB BUInt32 (w_summary w "CurrentSessionCount"); VB BUInt32 (w_summary w "CumulatedSessionCount"); VB BUInt32 (w_summary w "SecurityRejectedSessionCount"); VB BUInt32 (w_summary w "RejectedSessionCount"); VB BUInt32 (w_summary w "SessionTimeoutCount"); VB BUInt32 (w_summary w "SessionAbortCount"); VB BUInt32 (w_summary w "CurrentSubscriptionCount"); VB BUInt32 (w_summary w "CumulatedSubscriptionCount"); VB BUInt32 (w_summary w "PublishingIntervalCount"); VB BUInt32 (w_summary w "SecurityRejectedRequestsCount"); VB BUInt32 (w_summary w "RejectedRequestsCount")])));   (* 743 *)
  (2278, SetHandler (fun w => Some (g_uint32 (w_summary w "CumulatedSessionCount"))));   (* 748 *)
  (2286, SetHandler (fun w => Some (g_uint32 (w_summary w "CumulatedSubscriptionCount"))));   (* 753 *)
  (2277, SetHandler (fun w => Some (g_uint32 (w_summary w "CurrentSessionCount"))));   (* 758 *)
  (2285, SetHandler (fun w => Some (g_uint32 (w_summary w "CurrentSubscriptionCount"))));   (* 763 *)
  (2276, SetHandler (fun w => Some (g_uint32 (w_summary w "ServerViewCount"))));   (* 768 *)
  (2279, SetHandler (fun w => Some (g_uint32 (w_summary w "SecurityRejectedSessionCount"))));   (* 773 *)
  (2282, SetHandler (fun w => Some (g_uint32 (w_summary w "SessionAbortCount"))));   (* 778 *)
  (2284, SetHandler (fun w => Some (g_uint32 (w_summary w "PublishingIntervalCount"))));   (* 783 *)
  (2287, SetHandler (fun w => Some (g_uint32 (w_summary w "SecurityRejectedRequestsCount"))));   (* 788 *)
  (2288, SetHandler (fun w => Some (g_uint32 (w_summary w "RejectedRequestsCount"))));   (* 793 *)
  (3705, SetHandler (fun w => Some (g_uint32 (w_summary w "RejectedSessionCount"))));   (* 798 *)
  (2281, SetHandler (fun w => Some (g_uint32 (w_summary w "SessionTimeoutCount"))));   (* 803 *)
  (2290, SetHandler (fun w => Some (if w_diagnostics w then g_structs "SubscriptionDiagnosticsDataType" (map array_entry (w_subs w)) else g_nil)));   (* 808 *)
  (2289, Delete true)   (* 855 *)
].

(** session_manager.go: the components of the object of a session; s: the session it describes, r: the session which reads *)
Definition session_object : list (diagnostic session) := [
  mkDiag "SessionDiagnostics" 865 (-1) false (fun s r => g_struct "SessionDiagnosticsDataType" [VB BNodeId (se_sessionId s); VB BString (se_sessionName s); VStruct (se_clientDescription s); VB BString (se_serverUri s); VB BString (se_endpointURL s); strings_val (se_localeIds s); VB BDouble (se_timeout s); VB BUInt32 (se_count s "maxResponseMessageSize"); VB BTime (se_timeCreated s); VB BTime (se_lastAccess s); VB BUInt32 (Z.of_nat (List.length (se_subs s))); VB BUInt32 (item_count s); VB BUInt32 (se_queue s); VStruct [VB BUInt32 (se_count s "requestCount"); VB BUInt32 (se_count s "errorCount")]; VB BUInt32 (se_count s "unauthorizedRequestCount"); VStruct [VB BUInt32 (se_count s "readCount"); VB BUInt32 (se_count s "readErrorCount")]; VStruct [VB BUInt32 (se_count s "historyReadCount"); VB BUInt32 (se_count s "historyReadErrorCount")]; VStruct [VB BUInt32 (se_count s "writeCount"); VB BUInt32 (se_count s "writeErrorCount")]; VStruct [VB BUInt32 (se_count s "historyUpdateCount"); VB BUInt32 (se_count s "historyUpdateErrorCount")]; VStruct [VB BUInt32 (se_count s "callCount"); VB BUInt32 (se_count s "callErrorCount")]; VStruct [VB BUInt32 (se_count s "createMonitoredItemsCount"); VB BUInt32 (se_count s "createMonitoredItemsErrorCount")]; VStruct [VB BUInt32 (se_count s "modifyMonitoredItemsCount"); VB BUInt32 (se_count s "modifyMonitoredItemsErrorCount")]; VStruct [VB BUInt32 (se_count s "setMonitoringModeCount"); VB BUInt32 (se_count s "setMonitoringModeErrorCount")]; VStruct [VB BUInt32 (se_count s "setTriggeringCount"); VB BUInt32 (se_count s "setTriggeringErrorCount")]; VStruct [VB BUInt32 (se_count s "deleteMonitoredItemsCount"); VB BUInt32 (se_count s "deleteMonitoredItemsErrorCount")]; VStruct [VB BUInt32 (se_count s "createSubscriptionCount"); VB BUInt32 (se_count s "createSubscriptionErrorCount")]; VStruct [VB BUInt32 (se_count s "modifySubscriptionCount"); VB BUInt32 (se_count s "modifySubscriptionErrorCount")]; VStruct [VB BUInt32 (se_count s "setPublishingModeCount"); VB BUInt32 (se_count s "setPublishingModeErrorCount")]; VStruct [VB BUInt32 (se_count s "publishCount"); VB BUInt32 (se_count s "publishErrorCount")]; VStruct [VB BUInt32 (se_count s "republishCount"); VB BUInt32 (se_count s "republishErrorCount")]; VStruct [VB BUInt32 (se_count s "transferSubscriptionsCount"); VB BUInt32 (se_count s "transferSubscriptionsErrorCount")]; VStruct [VB BUInt32 (se_count s "deleteSubscriptionsCount"); VB BUInt32 (se_count s "deleteSubscriptionsErrorCount")]; VStruct [VB BUInt32 (se_count s "addNodesCount"); VB BUInt32 (se_count s "addNodesErrorCount")]; VStruct [VB BUInt32 (se_count s "addReferencesCount"); VB BUInt32 (se_count s "addReferencesErrorCount")]; VStruct [VB BUInt32 (se_count s "deleteNodesCount"); VB BUInt32 (se_count s "deleteNodesErrorCount")]; VStruct [VB BUInt32 (se_count s "deleteReferencesCount"); VB BUInt32 (se_count s "deleteReferencesErrorCount")]; VStruct [VB BUInt32 (se_count s "browseCount"); VB BUInt32 (se_count s "browseErrorCount")]; VStruct [VB BUInt32 (se_count s "browseNextCount"); VB BUInt32 (se_count s "browseNextErrorCount")]; VStruct [VB BUInt32 (se_count s "translateBrowsePathsToNodeIdsCount"); VB BUInt32 (se_count s "translateBrowsePathsToNodeIdsErrorCount")]; VStruct [VB BUInt32 (se_count s "queryFirstCount"); VB BUInt32 (se_count s "queryFirstErrorCount")]; VStruct [VB BUInt32 (se_count s "queryNextCount"); VB BUInt32 (se_count s "queryNextErrorCount")]; VStruct [VB BUInt32 (se_count s "registerNodesCount"); VB BUInt32 (se_count s "registerNodesErrorCount")]; VStruct [VB BUInt32 (se_count s "unregisterNodesCount"); VB BUInt32 (se_count s "unregisterNodesErrorCount")]]);   (* 127 *)
  mkDiag "SessionSecurityDiagnostics" 868 (-1) true (fun s r => g_struct "SessionSecurityDiagnosticsDataType" [VB BNodeId (se_sessionId s); VB BString (se_clientUserIdOfSession s); strings_val (se_clientUserIdHistory s); VB BString (se_authenticationMechanism s); VB BString (lit "UA Binary"); VB BString (lit "http://opcfoundation.org/UA-Profile/Transport/uatcp-uasc-uabinary"); VB BInt32 (se_securityMode r); VB BString (se_securityPolicyURI r); VB BString (se_clientCertificate r)]);   (* 1242 *)
  mkDiag "SubscriptionDiagnosticsArray" 874 1 false (fun s r => g_structs "SubscriptionDiagnosticsDataType" [])   (* 1685 *)
].

(** session_manager.go: the components of its SessionDiagnostics *)
Definition session_details : list (diagnostic session) := [
  mkDiag "SessionId" 17 (-1) false (fun s r => g_nodeid (se_sessionId s));   (* 203 *)
  mkDiag "SessionName" 12 (-1) false (fun s r => g_string (se_sessionName s));   (* 227 *)
  mkDiag "ClientDescription" 24 (-1) false (fun s r => g_struct "ApplicationDescription" (se_clientDescription s));   (* 251 *)
  mkDiag "ServerUri" 12 (-1) false (fun s r => g_string (se_serverUri s));   (* 275 *)
  mkDiag "EndpointUrl" 12 (-1) false (fun s r => g_string (se_endpointURL s));   (* 299 *)
  mkDiag "LocaleIds" 12 1 false (fun s r => g_strings (se_localeIds s));   (* 323 *)
  mkDiag "ActualSessionTimeout" 11 (-1) false (fun s r => g_double (se_timeout s));   (* 347 *)
  mkDiag "MaxResponseMessageSize" 7 (-1) false (fun s r => g_uint32 (se_count s "maxResponseMessageSize"));   (* 371 *)
  mkDiag "ClientConnectionTime" 13 (-1) false (fun s r => g_time (se_timeCreated s));   (* 395 *)
  mkDiag "ClientLastContactTime" 13 (-1) false (fun s r => g_time (se_lastAccess s));   (* 419 *)
  mkDiag "CurrentSubscriptionsCount" 7 (-1) false (fun s r => g_uint32 (Z.of_nat (List.length (se_subs s))));   (* 443 *)
  mkDiag "CurrentMonitoredItemsCount" 7 (-1) false (fun s r => g_uint32 (item_count s));   (* 467 *)
  mkDiag "CurrentPublishRequestsInQueue" 7 (-1) false (fun s r => g_uint32 (se_queue s));   (* 496 *)
  mkDiag "TotalRequestCount" 24 (-1) false (fun s r => g_struct "ServiceCounterDataType" [VB BUInt32 (se_count s "requestCount"); VB BUInt32 (se_count s "errorCount")]);   (* 520 *)
  mkDiag "UnauthorizedRequestCount" 7 (-1) false (fun s r => g_uint32 (se_count s "unauthorizedRequestCount"));   (* 544 *)
  mkDiag "ReadCount" 24 (-1) false (fun s r => g_struct "ServiceCounterDataType" [VB BUInt32 (se_count s "readCount"); VB BUInt32 (se_count s "readErrorCount")]);   (* 568 *)
  mkDiag "HistoryReadCount" 24 (-1) false (fun s r => g_struct "ServiceCounterDataType" [VB BUInt32 (se_count s "historyReadCount"); VB BUInt32 (se_count s "historyReadErrorCount")]);   (* 592 *)
  mkDiag "WriteCount" 24 (-1) false (fun s r => g_struct "ServiceCounterDataType" [VB BUInt32 (se_count s "writeCount"); VB BUInt32 (se_count s "writeErrorCount")]);   (* 616 *)
  mkDiag "HistoryUpdateCount" 24 (-1) false (fun s r => g_struct "ServiceCounterDataType" [VB BUInt32 (se_count s "historyUpdateCount"); VB BUInt32 (se_count s "historyUpdateErrorCount")]);   (* 640 *)
  mkDiag "CallCount" 24 (-1) false (fun s r => g_struct "ServiceCounterDataType" [VB BUInt32 (se_count s "callCount"); VB BUInt32 (se_count s "callErrorCount")]);   (* 664 *)
  mkDiag "CreateMonitoredItemsCount" 24 (-1) false (fun s r => g_struct "ServiceCounterDataType" [VB BUInt32 (se_count s "createMonitoredItemsCount"); VB BUInt32 (se_count s "createMonitoredItemsErrorCount")]);   (* 688 *)
  mkDiag "ModifyMonitoredItemsCount" 24 (-1) false (fun s r => g_struct "ServiceCounterDataType" [VB BUInt32 (se_count s "modifyMonitoredItemsCount"); VB BUInt32 (se_count s "modifyMonitoredItemsErrorCount")]);   (* 712 *)
  mkDiag "SetMonitoringModeCount" 24 (-1) false (fun s r => g_struct "ServiceCounterDataType" [VB BUInt32 (se_count s "setMonitoringModeCount"); VB BUInt32 (se_count s "setMonitoringModeErrorCount")]);   (* 736 *)
  mkDiag "SetTriggeringCount" 24 (-1) false (fun s r => g_struct "ServiceCounterDataType" [VB BUInt32 (se_count s "setTriggeringCount"); VB BUInt32 (se_count s "setTriggeringErrorCount")]);   (* 760 *)
  mkDiag "DeleteMonitoredItemsCount" 24 (-1) false (fun s r => g_struct "ServiceCounterDataType" [VB BUInt32 (se_count s "deleteMonitoredItemsCount"); VB BUInt32 (se_count s "deleteMonitoredItemsErrorCount")]);   (* 784 *)
  mkDiag "CreateSubscriptionCount" 24 (-1) false (fun s r => g_struct "ServiceCounterDataType" [VB BUInt32 (se_count s "createSubscriptionCount"); VB BUInt32 (se_count s "createSubscriptionErrorCount")]);   (* 808 *)
  mkDiag "ModifySubscriptionCount" 24 (-1) false (fun s r => g_struct "ServiceCounterDataType" [VB BUInt32 (se_count s "modifySubscriptionCount"); VB BUInt32 (se_count s "modifySubscriptionErrorCount")]);   (* 832 *)
  mkDiag "SetPublishingModeCount" 24 (-1) false (fun s r => g_struct "ServiceCounterDataType" [VB BUInt32 (se_count s "setPublishingModeCount"); VB BUInt32 (se_count s "setPublishingModeErrorCount")]);   (* 856 *)
  mkDiag "PublishCount" 24 (-1) false (fun s r => g_struct "ServiceCounterDataType" [VB BUInt32 (se_count s "publishCount"); VB BUInt32 (se_count s "publishErrorCount")]);   (* 880 *)
  mkDiag "RepublishCount" 24 (-1) false (fun s r => g_struct "ServiceCounterDataType" [VB BUInt32 (se_count s "republishCount"); VB BUInt32 (se_count s "republishErrorCount")]);   (* 904 *)
  mkDiag "TransferSubscriptionsCount" 24 (-1) false (fun s r => g_struct "ServiceCounterDataType" [VB BUInt32 (se_count s "transferSubscriptionsCount"); VB BUInt32 (se_count s "transferSubscriptionsErrorCount")]);   (* 928 *)
  mkDiag "DeleteSubscriptionsCount" 24 (-1) false (fun s r => g_struct "ServiceCounterDataType" [VB BUInt32 (se_count s "deleteSubscriptionsCount"); VB BUInt32 (se_count s "deleteSubscriptionsErrorCount")]);   (* 952 *)
  mkDiag "AddNodesCount" 24 (-1) false (fun s r => g_struct "ServiceCounterDataType" [VB BUInt32 (se_count s "addNodesCount"); VB BUInt32 (se_count s "addNodesErrorCount")]);   (* 976 *)
  mkDiag "AddReferencesCount" 24 (-1) false (fun s r => g_struct "ServiceCounterDataType" [VB BUInt32 (se_count s "addReferencesCount"); VB BUInt32 (se_count s "addReferencesErrorCount")]);   (* 1000 *)
  mkDiag "DeleteNodesCount" 24 (-1) false (fun s r => g_struct "ServiceCounterDataType" [VB BUInt32 (se_count s "deleteNodesCount"); VB BUInt32 (se_count s "deleteNodesErrorCount")]);   (* 1024 *)
  mkDiag "DeleteReferencesCount" 24 (-1) false (fun s r => g_struct "ServiceCounterDataType" [VB BUInt32 (se_count s "deleteReferencesCount"); VB BUInt32 (se_count s "deleteReferencesErrorCount")]);   (* 1048 *)
  mkDiag "BrowseCount" 24 (-1) false (fun s r => g_struct "ServiceCounterDataType" [VB BUInt32 (se_count s "browseCount"); VB BUInt32 (se_count s "browseErrorCount")]);   (* 1072 *)
  mkDiag "BrowseNextCount" 24 (-1) false (fun s r => g_struct "ServiceCounterDataType" [VB BUInt32 (se_count s "browseNextCount"); VB BUInt32 (se_count s "browseNextErrorCount")]);   (* 1096 *)
  mkDiag "TranslateBrowsePathsToNodeIdsCount" 24 (-1) false (fun s r => g_struct "ServiceCounterDataType" [VB BUInt32 (se_count s "translateBrowsePathsToNodeIdsCount"); VB BUInt32 (se_count s "translateBrowsePathsToNodeIdsErrorCount")]);   (* 1120 *)
  mkDiag "QueryFirstCount" 24 (-1) false (fun s r => g_struct "ServiceCounterDataType" [VB BUInt32 (se_count s "queryFirstCount"); VB BUInt32 (se_count s "queryFirstErrorCount")]);   (* 1144 *)
  mkDiag "QueryNextCount" 24 (-1) false (fun s r => g_struct "ServiceCounterDataType" [VB BUInt32 (se_count s "queryNextCount"); VB BUInt32 (se_count s "queryNextErrorCount")]);   (* 1168 *)
  mkDiag "RegisterNodesCount" 24 (-1) false (fun s r => g_struct "ServiceCounterDataType" [VB BUInt32 (se_count s "registerNodesCount"); VB BUInt32 (se_count s "registerNodesErrorCount")]);   (* 1192 *)
  mkDiag "UnregisterNodesCount" 24 (-1) false (fun s r => g_struct "ServiceCounterDataType" [VB BUInt32 (se_count s "unregisterNodesCount"); VB BUInt32 (se_count s "unregisterNodesErrorCount")])   (* 1216 *)
].

(** session_manager.go: the components of its SessionSecurityDiagnostics *)
Definition security_details : list (diagnostic session) := [
  mkDiag "SessionId" 17 (-1) true (fun s r => g_nodeid (se_sessionId s));   (* 1296 *)
  mkDiag "ClientUserIdOfSession" 12 (-1) true (fun s r => g_string (se_clientUserIdOfSession s));   (* 1339 *)
  mkDiag "ClientUserIdHistory" 12 1 true (fun s r => g_strings (se_clientUserIdHistory s));   (* 1382 *)
  mkDiag "AuthenticationMechanism" 12 (-1) true (fun s r => g_string (se_authenticationMechanism s));   (* 1425 *)
  mkDiag "Encoding" 12 (-1) true (fun s r => g_string (lit "UA Binary"));   (* 1468 *)
  mkDiag "TransportProtocol" 12 (-1) true (fun s r => g_string (lit "http://opcfoundation.org/UA-Profile/Transport/uatcp-uasc-uabinary"));   (* 1511 *)
  mkDiag "SecurityMode" 302 (-1) true (fun s r => g_int32 (se_securityMode r));   (* 1554 *)
  mkDiag "SecurityPolicyURI" 12 (-1) true (fun s r => g_string (se_securityPolicyURI r));   (* 1597 *)
  mkDiag "ClientCertificate" 15 (-1) true (fun s r => g_bytestring (se_clientCertificate r))   (* 1640 *)
].

(** subscription_manager.go: the variable of a subscription, named by its number *)
Definition subscription_variable : list (diagnostic subscription) := [
  mkDiag "" 874 (-1) false (fun s r => g_struct "SubscriptionDiagnosticsDataType" [VB BNodeId (su_sessionId s); VB BUInt32 (su_count s "id"); VB BByte (su_priority s); VB BDouble (su_publishingInterval s); VB BUInt32 (su_count s "maxKeepAliveCount"); VB BUInt32 (su_count s "maxLifetimeCount"); VB BUInt32 (su_count s "maxNotificationsPerPublish"); VB BBool (su_publishingEnabled s); VB BUInt32 (su_count s "modifyCount"); VB BUInt32 0; VB BUInt32 0; VB BUInt32 (su_count s "republishRequestCount"); VB BUInt32 (su_count s "republishMessageRequestCount"); VB BUInt32 (su_count s "republishMessageCount"); VB BUInt32 0; VB BUInt32 0; VB BUInt32 0; VB BUInt32 (su_count s "publishRequestCount"); VB BUInt32 (su_count s "dataChangeNotificationsCount"); VB BUInt32 (su_count s "eventNotificationsCount"); VB BUInt32 (su_count s "notificationsCount"); VB BUInt32 (su_count s "latePublishRequestCount"); VB BUInt32 (su_count s "keepAliveCount"); VB BUInt32 (su_count s "lifetimeCount"); VB BUInt32 (su_count s "unacknowledgedMessageCount"); VB BUInt32 0; VB BUInt32 (su_count s "monitoredItemCount"); VB BUInt32 (su_count s "disabledMonitoredItemCount"); VB BUInt32 (su_count s "monitoringQueueOverflowCount"); VB BUInt32 (su_count s "nextSequenceNumber"); VB BUInt32 0])   (* 144 *)
].

(** subscription_manager.go: its components *)
Definition subscription_details : list (diagnostic subscription) := [
  mkDiag "SessionId" 17 (-1) false (fun s r => g_nodeid (su_sessionId s));   (* 200 *)
  mkDiag "SubscriptionId" 7 (-1) false (fun s r => g_uint32 (su_count s "id"));   (* 225 *)
  mkDiag "Priority" 3 (-1) false (fun s r => g_byte (su_priority s));   (* 249 *)
  mkDiag "PublishingInterval" 11 (-1) false (fun s r => g_double (su_publishingInterval s));   (* 273 *)
  mkDiag "MaxKeepAliveCount" 7 (-1) false (fun s r => g_uint32 (su_count s "maxKeepAliveCount"));   (* 297 *)
  mkDiag "MaxLifetimeCount" 7 (-1) false (fun s r => g_uint32 (su_count s "maxLifetimeCount"));   (* 321 *)
  mkDiag "MaxNotificationsPerPublish" 7 (-1) false (fun s r => g_uint32 (su_count s "maxNotificationsPerPublish"));   (* 345 *)
  mkDiag "PublishingEnabled" 1 (-1) false (fun s r => g_bool (su_publishingEnabled s));   (* 369 *)
  mkDiag "ModifyCount" 7 (-1) false (fun s r => g_uint32 (su_count s "modifyCount"));   (* 393 *)
  mkDiag "EnableCount" 7 (-1) false (fun s r => g_uint32 0);   (* 417 *)
  mkDiag "DisableCount" 7 (-1) false (fun s r => g_uint32 0);   (* 441 *)
  mkDiag "RepublishRequestCount" 7 (-1) false (fun s r => g_uint32 (su_count s "republishRequestCount"));   (* 465 *)
  mkDiag "RepublishMessageRequestCount" 7 (-1) false (fun s r => g_uint32 (su_count s "republishMessageRequestCount"));   (* 489 *)
  mkDiag "RepublishMessageCount" 7 (-1) false (fun s r => g_uint32 (su_count s "republishMessageCount"));   (* 513 *)
  mkDiag "TransferRequestCount" 7 (-1) false (fun s r => g_uint32 0);   (* 537 *)
  mkDiag "TransferredToAltClientCount" 7 (-1) false (fun s r => g_uint32 0);   (* 561 *)
  mkDiag "TransferredToSameClientCount" 7 (-1) false (fun s r => g_uint32 0);   (* 585 *)
  mkDiag "PublishRequestCount" 7 (-1) false (fun s r => g_uint32 (su_count s "publishRequestCount"));   (* 609 *)
  mkDiag "DataChangeNotificationsCount" 7 (-1) false (fun s r => g_uint32 (su_count s "dataChangeNotificationsCount"));   (* 633 *)
  mkDiag "EventNotificationsCount" 7 (-1) false (fun s r => g_uint32 (su_count s "eventNotificationsCount"));   (* 657 *)
  mkDiag "NotificationsCount" 7 (-1) false (fun s r => g_uint32 (su_count s "notificationsCount"));   (* 681 *)
  mkDiag "LatePublishRequestCount" 7 (-1) false (fun s r => g_uint32 (su_count s "latePublishRequestCount"));   (* 705 *)
  mkDiag "CurrentKeepAliveCount" 7 (-1) false (fun s r => g_uint32 (su_count s "keepAliveCount"));   (* 729 *)
  mkDiag "CurrentLifetimeCount" 7 (-1) false (fun s r => g_uint32 (su_count s "lifetimeCount"));   (* 753 *)
  mkDiag "UnacknowledgedMessageCount" 7 (-1) false (fun s r => g_uint32 (su_count s "unacknowledgedMessageCount"));   (* 777 *)
  mkDiag "DiscardedMessageCount" 7 (-1) false (fun s r => g_uint32 0);   (* 801 *)
  mkDiag "MonitoredItemCount" 7 (-1) false (fun s r => g_uint32 (su_count s "monitoredItemCount"));   (* 825 *)
  mkDiag "DisabledMonitoredItemCount" 7 (-1) false (fun s r => g_uint32 (su_count s "disabledMonitoredItemCount"));   (* 849 *)
  mkDiag "MonitoringQueueOverflowCount" 7 (-1) false (fun s r => g_uint32 (su_count s "monitoringQueueOverflowCount"));   (* 873 *)
  mkDiag "NextSequenceNumber" 7 (-1) false (fun s r => g_uint32 (su_count s "nextSequenceNumber"));   (* 897 *)
  mkDiag "EventQueueOverFlowCount" 7 (-1) false (fun s r => g_uint32 0)   (* 921 *)
].

(** nodeset_1_04.xml: components of SessionDiagnosticsVariableType (i=2197): name, data type, rank *)
Definition type_session : list (string * Z * Z) := [
  ("SessionId", 17, (-1));
  ("SessionName", 12, (-1));
  ("ClientDescription", 308, (-1));
  ("ServerUri", 12, (-1));
  ("EndpointUrl", 12, (-1));
  ("LocaleIds", 295, 1);
  ("ActualSessionTimeout", 290, (-1));
  ("MaxResponseMessageSize", 7, (-1));
  ("ClientConnectionTime", 294, (-1));
  ("ClientLastContactTime", 294, (-1));
  ("CurrentSubscriptionsCount", 7, (-1));
  ("CurrentMonitoredItemsCount", 7, (-1));
  ("CurrentPublishRequestsInQueue", 7, (-1));
  ("TotalRequestCount", 871, (-1));
  ("UnauthorizedRequestCount", 7, (-1));
  ("ReadCount", 871, (-1));
  ("HistoryReadCount", 871, (-1));
  ("WriteCount", 871, (-1));
  ("HistoryUpdateCount", 871, (-1));
  ("CallCount", 871, (-1));
  ("CreateMonitoredItemsCount", 871, (-1));
  ("ModifyMonitoredItemsCount", 871, (-1));
  ("SetMonitoringModeCount", 871, (-1));
  ("SetTriggeringCount", 871, (-1));
  ("DeleteMonitoredItemsCount", 871, (-1));
  ("CreateSubscriptionCount", 871, (-1));
  ("ModifySubscriptionCount", 871, (-1));
  ("SetPublishingModeCount", 871, (-1));
  ("PublishCount", 871, (-1));
  ("RepublishCount", 871, (-1));
  ("TransferSubscriptionsCount", 871, (-1));
  ("DeleteSubscriptionsCount", 871, (-1));
  ("AddNodesCount", 871, (-1));
  ("AddReferencesCount", 871, (-1));
  ("DeleteNodesCount", 871, (-1));
  ("DeleteReferencesCount", 871, (-1));
  ("BrowseCount", 871, (-1));
  ("BrowseNextCount", 871, (-1));
  ("TranslateBrowsePathsToNodeIdsCount", 871, (-1));
  ("QueryFirstCount", 871, (-1));
  ("QueryNextCount", 871, (-1));
  ("RegisterNodesCount", 871, (-1));
  ("UnregisterNodesCount", 871, (-1))
].

(** nodeset_1_04.xml: components of SessionSecurityDiagnosticsType (i=2244) *)
Definition type_security : list (string * Z * Z) := [
  ("SessionId", 17, (-1));
  ("ClientUserIdOfSession", 12, (-1));
  ("ClientUserIdHistory", 12, 1);
  ("AuthenticationMechanism", 12, (-1));
  ("Encoding", 12, (-1));
  ("TransportProtocol", 12, (-1));
  ("SecurityMode", 302, (-1));
  ("SecurityPolicyUri", 12, (-1));
  ("ClientCertificate", 15, (-1))
].

(** nodeset_1_04.xml: components of SubscriptionDiagnosticsType (i=2172) *)
Definition type_subscription : list (string * Z * Z) := [
  ("SessionId", 17, (-1));
  ("SubscriptionId", 7, (-1));
  ("Priority", 3, (-1));
  ("PublishingInterval", 290, (-1));
  ("MaxKeepAliveCount", 7, (-1));
  ("MaxLifetimeCount", 7, (-1));
  ("MaxNotificationsPerPublish", 7, (-1));
  ("PublishingEnabled", 1, (-1));
  ("ModifyCount", 7, (-1));
  ("EnableCount", 7, (-1));
  ("DisableCount", 7, (-1));
  ("RepublishRequestCount", 7, (-1));
  ("RepublishMessageRequestCount", 7, (-1));
  ("RepublishMessageCount", 7, (-1));
  ("TransferRequestCount", 7, (-1));
  ("TransferredToAltClientCount", 7, (-1));
  ("TransferredToSameClientCount", 7, (-1));
  ("PublishRequestCount", 7, (-1));
  ("DataChangeNotificationsCount", 7, (-1));
  ("EventNotificationsCount", 7, (-1));
  ("NotificationsCount", 7, (-1));
  ("LatePublishRequestCount", 7, (-1));
  ("CurrentKeepAliveCount", 7, (-1));
  ("CurrentLifetimeCount", 7, (-1));
  ("UnacknowledgedMessageCount", 7, (-1));
  ("DiscardedMessageCount", 7, (-1));
  ("MonitoredItemCount", 7, (-1));
  ("DisabledMonitoredItemCount", 7, (-1));
  ("MonitoringQueueOverflowCount", 7, (-1));
  ("NextSequenceNumber", 7, (-1));
  ("EventQueueOverflowCount", 7, (-1))
].

(** server_service_set.go: the array of the request whose length the handler calls l *)
Definition counted : list (string * string) := [
  ("Browse", "NodesToBrowse");   (* 1161 *)
  ("BrowseNext", "ContinuationPoints");   (* 1425 *)
  ("TranslateBrowsePathsToNodeIDs", "BrowsePaths");   (* 1610 *)
  ("RegisterNodes", "NodesToRegister");   (* 1793 *)
  ("UnregisterNodes", "NodesToUnregister");   (* 1925 *)
  ("Read", "NodesToRead");   (* 2169 *)
  ("Write", "NodesToWrite");   (* 2315 *)
  ("HistoryRead", "NodesToRead");   (* 2483 *)
  ("Call", "MethodsToCall");   (* 3567 *)
  ("CreateMonitoredItems", "ItemsToCreate");   (* 3806 *)
  ("ModifyMonitoredItems", "ItemsToModify");   (* 4093 *)
  ("SetMonitoringMode", "MonitoredItemIDs");   (* 4300 *)
  ("DeleteMonitoredItems", "MonitoredItemIDs");   (* 4648 *)
  ("DeleteSubscriptions", "SubscriptionIDs")   (* 5182 *)
].
