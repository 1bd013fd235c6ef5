(** The enumerations of /repo/ua/enums.generated.go: for each type its constants, and the cases of the switch of its method
    String (all others: the empty string); and the cases of StatusCode.Error (/repo/ua/status_code.generated.go 499-994).
    All the types are int32. Generated by tools/enum_table.py. *)
From Coq Require Import ZArith List String.
Import ListNotations.
Open Scope Z_scope.
Open Scope string_scope.

Definition enum_constants : list (string * list (string * Z)) := [
  (* 11 *) ("NodeIDType", [("NodeIDTypeTwoByte", 0); ("NodeIDTypeFourByte", 1); ("NodeIDTypeNumeric", 2); ("NodeIDTypeString", 3); ("NodeIDTypeGUID", 4); ("NodeIDTypeByteString", 5)]);
  (* 44 *) ("NamingRuleType", [("NamingRuleTypeMandatory", 1); ("NamingRuleTypeOptional", 2); ("NamingRuleTypeConstraint", 3)]);
  (* 68 *) ("OpenFileMode", [("OpenFileModeRead", 1); ("OpenFileModeWrite", 2); ("OpenFileModeEraseExisting", 4); ("OpenFileModeAppend", 8)]);
  (* 95 *) ("IdentityCriteriaType", [("IdentityCriteriaTypeUserName", 1); ("IdentityCriteriaTypeThumbprint", 2); ("IdentityCriteriaTypeRole", 3); ("IdentityCriteriaTypeGroupID", 4); ("IdentityCriteriaTypeAnonymous", 5); ("IdentityCriteriaTypeAuthenticatedUser", 6)]);
  (* 128 *) ("TrustListMasks", [("TrustListMasksNone", 0); ("TrustListMasksTrustedCertificates", 1); ("TrustListMasksTrustedCrls", 2); ("TrustListMasksIssuerCertificates", 4); ("TrustListMasksIssuerCrls", 8); ("TrustListMasksAll", 15)]);
  (* 161 *) ("PubSubState", [("PubSubStateDisabled", 0); ("PubSubStatePaused", 1); ("PubSubStateOperational", 2); ("PubSubStateError", 3)]);
  (* 188 *) ("DataSetFieldFlags", [("DataSetFieldFlagsNone", 0); ("DataSetFieldFlagsPromotedField", 1)]);
  (* 209 *) ("DataSetFieldContentMask", [("DataSetFieldContentMaskNone", 0); ("DataSetFieldContentMaskStatusCode", 1); ("DataSetFieldContentMaskSourceTimestamp", 2); ("DataSetFieldContentMaskServerTimestamp", 4); ("DataSetFieldContentMaskSourcePicoSeconds", 8); ("DataSetFieldContentMaskServerPicoSeconds", 16); ("DataSetFieldContentMaskRawData", 32)]);
  (* 245 *) ("OverrideValueHandling", [("OverrideValueHandlingDisabled", 0); ("OverrideValueHandlingLastUsableValue", 1); ("OverrideValueHandlingOverrideValue", 2)]);
  (* 269 *) ("DataSetOrderingType", [("DataSetOrderingTypeUndefined", 0); ("DataSetOrderingTypeAscendingWriterID", 1); ("DataSetOrderingTypeAscendingWriterIDSingle", 2)]);
  (* 293 *) ("UADPNetworkMessageContentMask", [("UADPNetworkMessageContentMaskNone", 0); ("UADPNetworkMessageContentMaskPublisherID", 1); ("UADPNetworkMessageContentMaskGroupHeader", 2); ("UADPNetworkMessageContentMaskWriterGroupID", 4); ("UADPNetworkMessageContentMaskGroupVersion", 8); ("UADPNetworkMessageContentMaskNetworkMessageNumber", 16); ("UADPNetworkMessageContentMaskSequenceNumber", 32); ("UADPNetworkMessageContentMaskPayloadHeader", 64); ("UADPNetworkMessageContentMaskTimestamp", 128); ("UADPNetworkMessageContentMaskPicoSeconds", 256); ("UADPNetworkMessageContentMaskDataSetClassID", 512); ("UADPNetworkMessageContentMaskPromotedFields", 1024)]);
  (* 344 *) ("UADPDataSetMessageContentMask", [("UADPDataSetMessageContentMaskNone", 0); ("UADPDataSetMessageContentMaskTimestamp", 1); ("UADPDataSetMessageContentMaskPicoSeconds", 2); ("UADPDataSetMessageContentMaskStatus", 4); ("UADPDataSetMessageContentMaskMajorVersion", 8); ("UADPDataSetMessageContentMaskMinorVersion", 16); ("UADPDataSetMessageContentMaskSequenceNumber", 32)]);
  (* 380 *) ("JSONNetworkMessageContentMask", [("JSONNetworkMessageContentMaskNone", 0); ("JSONNetworkMessageContentMaskNetworkMessageHeader", 1); ("JSONNetworkMessageContentMaskDataSetMessageHeader", 2); ("JSONNetworkMessageContentMaskSingleDataSetMessage", 4); ("JSONNetworkMessageContentMaskPublisherID", 8); ("JSONNetworkMessageContentMaskDataSetClassID", 16); ("JSONNetworkMessageContentMaskReplyTo", 32)]);
  (* 416 *) ("JSONDataSetMessageContentMask", [("JSONDataSetMessageContentMaskNone", 0); ("JSONDataSetMessageContentMaskDataSetWriterID", 1); ("JSONDataSetMessageContentMaskMetaDataVersion", 2); ("JSONDataSetMessageContentMaskSequenceNumber", 4); ("JSONDataSetMessageContentMaskTimestamp", 8); ("JSONDataSetMessageContentMaskStatus", 16)]);
  (* 449 *) ("BrokerTransportQoS", [("BrokerTransportQoSNotSpecified", 0); ("BrokerTransportQoSBestEffort", 1); ("BrokerTransportQoSAtLeastOnce", 2); ("BrokerTransportQoSAtMostOnce", 3); ("BrokerTransportQoSExactlyOnce", 4)]);
  (* 479 *) ("DiagnosticsLevel", [("DiagnosticsLevelBasic", 0); ("DiagnosticsLevelAdvanced", 1); ("DiagnosticsLevelInfo", 2); ("DiagnosticsLevelLog", 3); ("DiagnosticsLevelDebug", 4)]);
  (* 509 *) ("PubSubDiagnosticsCounterClassification", [("PubSubDiagnosticsCounterClassificationInformation", 0); ("PubSubDiagnosticsCounterClassificationError", 1)]);
  (* 530 *) ("IDType", [("IDTypeNumeric", 0); ("IDTypeString", 1); ("IDTypeGUID", 2); ("IDTypeOpaque", 3)]);
  (* 557 *) ("NodeClass", [("NodeClassUnspecified", 0); ("NodeClassObject", 1); ("NodeClassVariable", 2); ("NodeClassMethod", 4); ("NodeClassObjectType", 8); ("NodeClassVariableType", 16); ("NodeClassReferenceType", 32); ("NodeClassDataType", 64); ("NodeClassView", 128)]);
  (* 599 *) ("PermissionType", [("PermissionTypeNone", 0); ("PermissionTypeBrowse", 1); ("PermissionTypeReadRolePermissions", 2); ("PermissionTypeWriteAttribute", 4); ("PermissionTypeWriteRolePermissions", 8); ("PermissionTypeWriteHistorizing", 16); ("PermissionTypeRead", 32); ("PermissionTypeWrite", 64); ("PermissionTypeReadHistory", 128); ("PermissionTypeInsertHistory", 256); ("PermissionTypeModifyHistory", 512); ("PermissionTypeDeleteHistory", 1024); ("PermissionTypeReceiveEvents", 2048); ("PermissionTypeCall", 4096); ("PermissionTypeAddReference", 8192); ("PermissionTypeRemoveReference", 16384); ("PermissionTypeDeleteNode", 32768); ("PermissionTypeAddNode", 65536)]);
  (* 668 *) ("AccessLevelType", [("AccessLevelTypeNone", 0); ("AccessLevelTypeCurrentRead", 1); ("AccessLevelTypeCurrentWrite", 2); ("AccessLevelTypeHistoryRead", 4); ("AccessLevelTypeHistoryWrite", 8); ("AccessLevelTypeSemanticChange", 16); ("AccessLevelTypeStatusWrite", 32); ("AccessLevelTypeTimestampWrite", 64)]);
  (* 707 *) ("AccessLevelExType", [("AccessLevelExTypeNone", 0); ("AccessLevelExTypeCurrentRead", 1); ("AccessLevelExTypeCurrentWrite", 2); ("AccessLevelExTypeHistoryRead", 4); ("AccessLevelExTypeHistoryWrite", 8); ("AccessLevelExTypeSemanticChange", 16); ("AccessLevelExTypeStatusWrite", 32); ("AccessLevelExTypeTimestampWrite", 64); ("AccessLevelExTypeNonatomicRead", 256); ("AccessLevelExTypeNonatomicWrite", 512); ("AccessLevelExTypeWriteFullArrayOnly", 1024)]);
  (* 755 *) ("EventNotifierType", [("EventNotifierTypeNone", 0); ("EventNotifierTypeSubscribeToEvents", 1); ("EventNotifierTypeHistoryRead", 4); ("EventNotifierTypeHistoryWrite", 8)]);
  (* 782 *) ("AccessRestrictionType", [("AccessRestrictionTypeNone", 0); ("AccessRestrictionTypeSigningRequired", 1); ("AccessRestrictionTypeEncryptionRequired", 2); ("AccessRestrictionTypeSessionRequired", 4)]);
  (* 809 *) ("StructureType", [("StructureTypeStructure", 0); ("StructureTypeStructureWithOptionalFields", 1); ("StructureTypeUnion", 2)]);
  (* 833 *) ("ApplicationType", [("ApplicationTypeServer", 0); ("ApplicationTypeClient", 1); ("ApplicationTypeClientAndServer", 2); ("ApplicationTypeDiscoveryServer", 3)]);
  (* 860 *) ("MessageSecurityMode", [("MessageSecurityModeInvalid", 0); ("MessageSecurityModeNone", 1); ("MessageSecurityModeSign", 2); ("MessageSecurityModeSignAndEncrypt", 3)]);
  (* 887 *) ("UserTokenType", [("UserTokenTypeAnonymous", 0); ("UserTokenTypeUserName", 1); ("UserTokenTypeCertificate", 2); ("UserTokenTypeIssuedToken", 3)]);
  (* 914 *) ("SecurityTokenRequestType", [("SecurityTokenRequestTypeIssue", 0); ("SecurityTokenRequestTypeRenew", 1)]);
  (* 935 *) ("NodeAttributesMask", [("NodeAttributesMaskNone", 0); ("NodeAttributesMaskAccessLevel", 1); ("NodeAttributesMaskArrayDimensions", 2); ("NodeAttributesMaskBrowseName", 4); ("NodeAttributesMaskContainsNoLoops", 8); ("NodeAttributesMaskDataType", 16); ("NodeAttributesMaskDescription", 32); ("NodeAttributesMaskDisplayName", 64); ("NodeAttributesMaskEventNotifier", 128); ("NodeAttributesMaskExecutable", 256); ("NodeAttributesMaskHistorizing", 512); ("NodeAttributesMaskInverseName", 1024); ("NodeAttributesMaskIsAbstract", 2048); ("NodeAttributesMaskMinimumSamplingInterval", 4096); ("NodeAttributesMaskNodeClass", 8192); ("NodeAttributesMaskNodeID", 16384); ("NodeAttributesMaskSymmetric", 32768); ("NodeAttributesMaskUserAccessLevel", 65536); ("NodeAttributesMaskUserExecutable", 131072); ("NodeAttributesMaskUserWriteMask", 262144); ("NodeAttributesMaskValueRank", 524288); ("NodeAttributesMaskWriteMask", 1048576); ("NodeAttributesMaskValue", 2097152); ("NodeAttributesMaskDataTypeDefinition", 4194304); ("NodeAttributesMaskRolePermissions", 8388608); ("NodeAttributesMaskAccessRestrictions", 16777216); ("NodeAttributesMaskAll", 33554431); ("NodeAttributesMaskBaseNode", 26501220); ("NodeAttributesMaskObject", 26501348); ("NodeAttributesMaskObjectType", 26503268); ("NodeAttributesMaskVariable", 26571383); ("NodeAttributesMaskVariableType", 28600438); ("NodeAttributesMaskMethod", 26632548); ("NodeAttributesMaskReferenceType", 26537060); ("NodeAttributesMaskView", 26501356)]);
  (* 1055 *) ("AttributeWriteMask", [("AttributeWriteMaskNone", 0); ("AttributeWriteMaskAccessLevel", 1); ("AttributeWriteMaskArrayDimensions", 2); ("AttributeWriteMaskBrowseName", 4); ("AttributeWriteMaskContainsNoLoops", 8); ("AttributeWriteMaskDataType", 16); ("AttributeWriteMaskDescription", 32); ("AttributeWriteMaskDisplayName", 64); ("AttributeWriteMaskEventNotifier", 128); ("AttributeWriteMaskExecutable", 256); ("AttributeWriteMaskHistorizing", 512); ("AttributeWriteMaskInverseName", 1024); ("AttributeWriteMaskIsAbstract", 2048); ("AttributeWriteMaskMinimumSamplingInterval", 4096); ("AttributeWriteMaskNodeClass", 8192); ("AttributeWriteMaskNodeID", 16384); ("AttributeWriteMaskSymmetric", 32768); ("AttributeWriteMaskUserAccessLevel", 65536); ("AttributeWriteMaskUserExecutable", 131072); ("AttributeWriteMaskUserWriteMask", 262144); ("AttributeWriteMaskValueRank", 524288); ("AttributeWriteMaskWriteMask", 1048576); ("AttributeWriteMaskValueForVariableType", 2097152); ("AttributeWriteMaskDataTypeDefinition", 4194304); ("AttributeWriteMaskRolePermissions", 8388608); ("AttributeWriteMaskAccessRestrictions", 16777216); ("AttributeWriteMaskAccessLevelEx", 33554432)]);
  (* 1151 *) ("BrowseDirection", [("BrowseDirectionForward", 0); ("BrowseDirectionInverse", 1); ("BrowseDirectionBoth", 2); ("BrowseDirectionInvalid", 3)]);
  (* 1178 *) ("BrowseResultMask", [("BrowseResultMaskNone", 0); ("BrowseResultMaskReferenceTypeID", 1); ("BrowseResultMaskIsForward", 2); ("BrowseResultMaskNodeClass", 4); ("BrowseResultMaskBrowseName", 8); ("BrowseResultMaskDisplayName", 16); ("BrowseResultMaskTypeDefinition", 32); ("BrowseResultMaskAll", 63); ("BrowseResultMaskReferenceTypeInfo", 3); ("BrowseResultMaskTargetInfo", 60)]);
  (* 1223 *) ("FilterOperator", [("FilterOperatorEquals", 0); ("FilterOperatorIsNull", 1); ("FilterOperatorGreaterThan", 2); ("FilterOperatorLessThan", 3); ("FilterOperatorGreaterThanOrEqual", 4); ("FilterOperatorLessThanOrEqual", 5); ("FilterOperatorLike", 6); ("FilterOperatorNot", 7); ("FilterOperatorBetween", 8); ("FilterOperatorInList", 9); ("FilterOperatorAnd", 10); ("FilterOperatorOr", 11); ("FilterOperatorCast", 12); ("FilterOperatorInView", 13); ("FilterOperatorOfType", 14); ("FilterOperatorRelatedTo", 15); ("FilterOperatorBitwiseAnd", 16); ("FilterOperatorBitwiseOr", 17)]);
  (* 1292 *) ("TimestampsToReturn", [("TimestampsToReturnSource", 0); ("TimestampsToReturnServer", 1); ("TimestampsToReturnBoth", 2); ("TimestampsToReturnNeither", 3); ("TimestampsToReturnInvalid", 4)]);
  (* 1322 *) ("HistoryUpdateType", [("HistoryUpdateTypeInsert", 1); ("HistoryUpdateTypeReplace", 2); ("HistoryUpdateTypeUpdate", 3); ("HistoryUpdateTypeDelete", 4)]);
  (* 1349 *) ("PerformUpdateType", [("PerformUpdateTypeInsert", 1); ("PerformUpdateTypeReplace", 2); ("PerformUpdateTypeUpdate", 3); ("PerformUpdateTypeRemove", 4)]);
  (* 1376 *) ("MonitoringMode", [("MonitoringModeDisabled", 0); ("MonitoringModeSampling", 1); ("MonitoringModeReporting", 2)]);
  (* 1400 *) ("DataChangeTrigger", [("DataChangeTriggerStatus", 0); ("DataChangeTriggerStatusValue", 1); ("DataChangeTriggerStatusValueTimestamp", 2)]);
  (* 1424 *) ("DeadbandType", [("DeadbandTypeNone", 0); ("DeadbandTypeAbsolute", 1); ("DeadbandTypePercent", 2)]);
  (* 1448 *) ("RedundancySupport", [("RedundancySupportNone", 0); ("RedundancySupportCold", 1); ("RedundancySupportWarm", 2); ("RedundancySupportHot", 3); ("RedundancySupportTransparent", 4); ("RedundancySupportHotAndMirrored", 5)]);
  (* 1481 *) ("ServerState", [("ServerStateRunning", 0); ("ServerStateFailed", 1); ("ServerStateNoConfiguration", 2); ("ServerStateSuspended", 3); ("ServerStateShutdown", 4); ("ServerStateTest", 5); ("ServerStateCommunicationFault", 6); ("ServerStateUnknown", 7)]);
  (* 1520 *) ("ModelChangeStructureVerbMask", [("ModelChangeStructureVerbMaskNodeAdded", 1); ("ModelChangeStructureVerbMaskNodeDeleted", 2); ("ModelChangeStructureVerbMaskReferenceAdded", 4); ("ModelChangeStructureVerbMaskReferenceDeleted", 8); ("ModelChangeStructureVerbMaskDataTypeChanged", 16)]);
  (* 1550 *) ("AxisScaleEnumeration", [("AxisScaleEnumerationLinear", 0); ("AxisScaleEnumerationLog", 1); ("AxisScaleEnumerationLn", 2)]);
  (* 1574 *) ("ExceptionDeviationFormat", [("ExceptionDeviationFormatAbsoluteValue", 0); ("ExceptionDeviationFormatPercentOfValue", 1); ("ExceptionDeviationFormatPercentOfRange", 2); ("ExceptionDeviationFormatPercentOfEURange", 3); ("ExceptionDeviationFormatUnknown", 4)])
].

Definition enum_cases : list (string * list (Z * string)) := [
  (* 21 *) ("NodeIDType", [(0, "TwoByte"); (1, "FourByte"); (2, "Numeric"); (3, "String"); (4, "GUID"); (5, "ByteString")]);
  (* 51 *) ("NamingRuleType", [(1, "Mandatory"); (2, "Optional"); (3, "Constraint")]);
  (* 76 *) ("OpenFileMode", [(1, "Read"); (2, "Write"); (4, "EraseExisting"); (8, "Append")]);
  (* 105 *) ("IdentityCriteriaType", [(1, "UserName"); (2, "Thumbprint"); (3, "Role"); (4, "GroupID"); (5, "Anonymous"); (6, "AuthenticatedUser")]);
  (* 138 *) ("TrustListMasks", [(0, "None"); (1, "TrustedCertificates"); (2, "TrustedCrls"); (4, "IssuerCertificates"); (8, "IssuerCrls"); (15, "All")]);
  (* 169 *) ("PubSubState", [(0, "Disabled"); (1, "Paused"); (2, "Operational"); (3, "Error")]);
  (* 194 *) ("DataSetFieldFlags", [(0, "None"); (1, "PromotedField")]);
  (* 220 *) ("DataSetFieldContentMask", [(0, "None"); (1, "StatusCode"); (2, "SourceTimestamp"); (4, "ServerTimestamp"); (8, "SourcePicoSeconds"); (16, "ServerPicoSeconds"); (32, "RawData")]);
  (* 252 *) ("OverrideValueHandling", [(0, "Disabled"); (1, "LastUsableValue"); (2, "OverrideValue")]);
  (* 276 *) ("DataSetOrderingType", [(0, "Undefined"); (1, "AscendingWriterID"); (2, "AscendingWriterIDSingle")]);
  (* 309 *) ("UADPNetworkMessageContentMask", [(0, "None"); (1, "PublisherID"); (2, "GroupHeader"); (4, "WriterGroupID"); (8, "GroupVersion"); (16, "NetworkMessageNumber"); (32, "SequenceNumber"); (64, "PayloadHeader"); (128, "Timestamp"); (256, "PicoSeconds"); (512, "DataSetClassID"); (1024, "PromotedFields")]);
  (* 355 *) ("UADPDataSetMessageContentMask", [(0, "None"); (1, "Timestamp"); (2, "PicoSeconds"); (4, "Status"); (8, "MajorVersion"); (16, "MinorVersion"); (32, "SequenceNumber")]);
  (* 391 *) ("JSONNetworkMessageContentMask", [(0, "None"); (1, "NetworkMessageHeader"); (2, "DataSetMessageHeader"); (4, "SingleDataSetMessage"); (8, "PublisherID"); (16, "DataSetClassID"); (32, "ReplyTo")]);
  (* 426 *) ("JSONDataSetMessageContentMask", [(0, "None"); (1, "DataSetWriterID"); (2, "MetaDataVersion"); (4, "SequenceNumber"); (8, "Timestamp"); (16, "Status")]);
  (* 458 *) ("BrokerTransportQoS", [(0, "NotSpecified"); (1, "BestEffort"); (2, "AtLeastOnce"); (3, "AtMostOnce"); (4, "ExactlyOnce")]);
  (* 488 *) ("DiagnosticsLevel", [(0, "Basic"); (1, "Advanced"); (2, "Info"); (3, "Log"); (4, "Debug")]);
  (* 515 *) ("PubSubDiagnosticsCounterClassification", [(0, "Information"); (1, "Error")]);
  (* 538 *) ("IDType", [(0, "Numeric"); (1, "String"); (2, "GUID"); (3, "Opaque")]);
  (* 570 *) ("NodeClass", [(0, "Unspecified"); (1, "Object"); (2, "Variable"); (4, "Method"); (8, "ObjectType"); (16, "VariableType"); (32, "ReferenceType"); (64, "DataType"); (128, "View")]);
  (* 621 *) ("PermissionType", [(0, "None"); (1, "Browse"); (2, "ReadRolePermissions"); (4, "WriteAttribute"); (8, "WriteRolePermissions"); (16, "WriteHistorizing"); (32, "Read"); (64, "Write"); (128, "ReadHistory"); (256, "InsertHistory"); (512, "ModifyHistory"); (1024, "DeleteHistory"); (2048, "ReceiveEvents"); (4096, "Call"); (8192, "AddReference"); (16384, "RemoveReference"); (32768, "DeleteNode"); (65536, "AddNode")]);
  (* 680 *) ("AccessLevelType", [(0, "None"); (1, "CurrentRead"); (2, "CurrentWrite"); (4, "HistoryRead"); (8, "HistoryWrite"); (16, "SemanticChange"); (32, "StatusWrite"); (64, "TimestampWrite")]);
  (* 722 *) ("AccessLevelExType", [(0, "None"); (1, "CurrentRead"); (2, "CurrentWrite"); (4, "HistoryRead"); (8, "HistoryWrite"); (16, "SemanticChange"); (32, "StatusWrite"); (64, "TimestampWrite"); (256, "NonatomicRead"); (512, "NonatomicWrite"); (1024, "WriteFullArrayOnly")]);
  (* 763 *) ("EventNotifierType", [(0, "None"); (1, "SubscribeToEvents"); (4, "HistoryRead"); (8, "HistoryWrite")]);
  (* 790 *) ("AccessRestrictionType", [(0, "None"); (1, "SigningRequired"); (2, "EncryptionRequired"); (4, "SessionRequired")]);
  (* 816 *) ("StructureType", [(0, "Structure"); (1, "StructureWithOptionalFields"); (2, "Union")]);
  (* 841 *) ("ApplicationType", [(0, "Server"); (1, "Client"); (2, "ClientAndServer"); (3, "DiscoveryServer")]);
  (* 868 *) ("MessageSecurityMode", [(0, "Invalid"); (1, "None"); (2, "Sign"); (3, "SignAndEncrypt")]);
  (* 895 *) ("UserTokenType", [(0, "Anonymous"); (1, "UserName"); (2, "Certificate"); (3, "IssuedToken")]);
  (* 920 *) ("SecurityTokenRequestType", [(0, "Issue"); (1, "Renew")]);
  (* 974 *) ("NodeAttributesMask", [(0, "None"); (1, "AccessLevel"); (2, "ArrayDimensions"); (4, "BrowseName"); (8, "ContainsNoLoops"); (16, "DataType"); (32, "Description"); (64, "DisplayName"); (128, "EventNotifier"); (256, "Executable"); (512, "Historizing"); (1024, "InverseName"); (2048, "IsAbstract"); (4096, "MinimumSamplingInterval"); (8192, "NodeClass"); (16384, "NodeID"); (32768, "Symmetric"); (65536, "UserAccessLevel"); (131072, "UserExecutable"); (262144, "UserWriteMask"); (524288, "ValueRank"); (1048576, "WriteMask"); (2097152, "Value"); (4194304, "DataTypeDefinition"); (8388608, "RolePermissions"); (16777216, "AccessRestrictions"); (33554431, "All"); (26501220, "BaseNode"); (26501348, "Object"); (26503268, "ObjectType"); (26571383, "Variable"); (28600438, "VariableType"); (26632548, "Method"); (26537060, "ReferenceType"); (26501356, "View")]);
  (* 1086 *) ("AttributeWriteMask", [(0, "None"); (1, "AccessLevel"); (2, "ArrayDimensions"); (4, "BrowseName"); (8, "ContainsNoLoops"); (16, "DataType"); (32, "Description"); (64, "DisplayName"); (128, "EventNotifier"); (256, "Executable"); (512, "Historizing"); (1024, "InverseName"); (2048, "IsAbstract"); (4096, "MinimumSamplingInterval"); (8192, "NodeClass"); (16384, "NodeID"); (32768, "Symmetric"); (65536, "UserAccessLevel"); (131072, "UserExecutable"); (262144, "UserWriteMask"); (524288, "ValueRank"); (1048576, "WriteMask"); (2097152, "ValueForVariableType"); (4194304, "DataTypeDefinition"); (8388608, "RolePermissions"); (16777216, "AccessRestrictions"); (33554432, "AccessLevelEx")]);
  (* 1159 *) ("BrowseDirection", [(0, "Forward"); (1, "Inverse"); (2, "Both"); (3, "Invalid")]);
  (* 1192 *) ("BrowseResultMask", [(0, "None"); (1, "ReferenceTypeID"); (2, "IsForward"); (4, "NodeClass"); (8, "BrowseName"); (16, "DisplayName"); (32, "TypeDefinition"); (63, "All"); (3, "ReferenceTypeInfo"); (60, "TargetInfo")]);
  (* 1245 *) ("FilterOperator", [(0, "Equals"); (1, "IsNull"); (2, "GreaterThan"); (3, "LessThan"); (4, "GreaterThanOrEqual"); (5, "LessThanOrEqual"); (6, "Like"); (7, "Not"); (8, "Between"); (9, "InList"); (10, "And"); (11, "Or"); (12, "Cast"); (13, "InView"); (14, "OfType"); (15, "RelatedTo"); (16, "BitwiseAnd"); (17, "BitwiseOr")]);
  (* 1301 *) ("TimestampsToReturn", [(0, "Source"); (1, "Server"); (2, "Both"); (3, "Neither"); (4, "Invalid")]);
  (* 1330 *) ("HistoryUpdateType", [(1, "Insert"); (2, "Replace"); (3, "Update"); (4, "Delete")]);
  (* 1357 *) ("PerformUpdateType", [(1, "Insert"); (2, "Replace"); (3, "Update"); (4, "Remove")]);
  (* 1383 *) ("MonitoringMode", [(0, "Disabled"); (1, "Sampling"); (2, "Reporting")]);
  (* 1407 *) ("DataChangeTrigger", [(0, "Status"); (1, "StatusValue"); (2, "StatusValueTimestamp")]);
  (* 1431 *) ("DeadbandType", [(0, "None"); (1, "Absolute"); (2, "Percent")]);
  (* 1458 *) ("RedundancySupport", [(0, "None"); (1, "Cold"); (2, "Warm"); (3, "Hot"); (4, "Transparent"); (5, "HotAndMirrored")]);
  (* 1493 *) ("ServerState", [(0, "Running"); (1, "Failed"); (2, "NoConfiguration"); (3, "Suspended"); (4, "Shutdown"); (5, "Test"); (6, "CommunicationFault"); (7, "Unknown")]);
  (* 1529 *) ("ModelChangeStructureVerbMask", [(1, "NodeAdded"); (2, "NodeDeleted"); (4, "ReferenceAdded"); (8, "ReferenceDeleted"); (16, "DataTypeChanged")]);
  (* 1557 *) ("AxisScaleEnumeration", [(0, "Linear"); (1, "Log"); (2, "Ln")]);
  (* 1583 *) ("ExceptionDeviationFormat", [(0, "AbsoluteValue"); (1, "PercentOfValue"); (2, "PercentOfRange"); (3, "PercentOfEURange"); (4, "Unknown")])
].

Definition status_texts : list (string * string) := [
  ("Good", "The operation completed successfully.");
  ("BadUnexpectedError", "An unexpected error occurred.");
  ("BadInternalError", "An internal error occurred as a result of a programming or configuration error.");
  ("BadOutOfMemory", "Not enough memory to complete the operation.");
  ("BadResourceUnavailable", "An operating system resource is not available.");
  ("BadCommunicationError", "A low level communication error occurred.");
  ("BadEncodingError", "Encoding halted because of invalid data in the objects being serialized.");
  ("BadDecodingError", "Decoding halted because of invalid data in the stream.");
  ("BadEncodingLimitsExceeded", "The message encoding/decoding limits imposed by the stack have been exceeded.");
  ("BadRequestTooLarge", "The request message size exceeds limits set by the server.");
  ("BadResponseTooLarge", "The response message size exceeds limits set by the client.");
  ("BadUnknownResponse", "An unrecognized response was received from the server.");
  ("BadTimeout", "The operation timed out.");
  ("BadServiceUnsupported", "The server does not support the requested service.");
  ("BadShutdown", "The operation was cancelled because the application is shutting down.");
  ("BadServerNotConnected", "The operation could not complete because the client is not connected to the server.");
  ("BadServerHalted", "The server has stopped and cannot process any requests.");
  ("BadNothingToDo", "There was nothing to do because the client passed a list of operations with no elements.");
  ("BadTooManyOperations", "The request could not be processed because it specified too many operations.");
  ("BadTooManyMonitoredItems", "The request could not be processed because there are too many monitored items in the subscription.");
  ("BadDataTypeIDUnknown", "The extension object cannot be (de)serialized because the data type id is not recognized.");
  ("BadCertificateInvalid", "The certificate provided as a parameter is not valid.");
  ("BadSecurityChecksFailed", "An error occurred verifying security.");
  ("BadCertificatePolicyCheckFailed", "The certificate does not meet the requirements of the security policy.");
  ("BadCertificateTimeInvalid", "The certificate has expired or is not yet valid.");
  ("BadCertificateIssuerTimeInvalid", "An issuer certificate has expired or is not yet valid.");
  ("BadCertificateHostNameInvalid", "The HostName used to connect to a server does not match a HostName in the certificate.");
  ("BadCertificateURIInvalid", "The URI specified in the ApplicationDescription does not match the URI in the certificate.");
  ("BadCertificateUseNotAllowed", "The certificate may not be used for the requested operation.");
  ("BadCertificateIssuerUseNotAllowed", "The issuer certificate may not be used for the requested operation.");
  ("BadCertificateUntrusted", "The certificate is not trusted.");
  ("BadCertificateRevocationUnknown", "It was not possible to determine if the certificate has been revoked.");
  ("BadCertificateIssuerRevocationUnknown", "It was not possible to determine if the issuer certificate has been revoked.");
  ("BadCertificateRevoked", "The certificate has been revoked.");
  ("BadCertificateIssuerRevoked", "The issuer certificate has been revoked.");
  ("BadCertificateChainIncomplete", "The certificate chain is incomplete.");
  ("BadUserAccessDenied", "User does not have permission to perform the requested operation.");
  ("BadIdentityTokenInvalid", "The user identity token is not valid.");
  ("BadIdentityTokenRejected", "The user identity token is valid but the server has rejected it.");
  ("BadSecureChannelIDInvalid", "The specified secure channel is no longer valid.");
  ("BadInvalidTimestamp", "The timestamp is outside the range allowed by the server.");
  ("BadNonceInvalid", "The nonce does appear to be not a random value or it is not the correct length.");
  ("BadSessionIDInvalid", "The session id is not valid.");
  ("BadSessionClosed", "The session was closed by the client.");
  ("BadSessionNotActivated", "The session cannot be used because ActivateSession has not been called.");
  ("BadSubscriptionIDInvalid", "The subscription id is not valid.");
  ("BadRequestHeaderInvalid", "The header for the request is missing or invalid.");
  ("BadTimestampsToReturnInvalid", "The timestamps to return parameter is invalid.");
  ("BadRequestCancelledByClient", "The request was cancelled by the client.");
  ("BadTooManyArguments", "Too many arguments were provided.");
  ("BadLicenseExpired", "The server requires a license to operate in general or to perform a service or operation, but existing license is expired.");
  ("BadLicenseLimitsExceeded", "The server has limits on number of allowed operations / objects, based on installed licenses, and these limits where exceeded.");
  ("BadLicenseNotAvailable", "The server does not have a license which is required to operate in general or to perform a service or operation.");
  ("GoodSubscriptionTransferred", "The subscription was transferred to another session.");
  ("GoodCompletesAsynchronously", "The processing will complete asynchronously.");
  ("GoodOverload", "Sampling has slowed down due to resource limitations.");
  ("GoodClamped", "The value written was accepted but was clamped.");
  ("BadNoCommunication", "Communication with the data source is defined, but not established, and there is no last known value available.");
  ("BadWaitingForInitialData", "Waiting for the server to obtain values from the underlying data source.");
  ("BadNodeIDInvalid", "The syntax of the node id is not valid.");
  ("BadNodeIDUnknown", "The node id refers to a node that does not exist in the server address space.");
  ("BadAttributeIDInvalid", "The attribute is not supported for the specified Node.");
  ("BadIndexRangeInvalid", "The syntax of the index range parameter is invalid.");
  ("BadIndexRangeNoData", "No data exists within the range of indexes specified.");
  ("BadDataEncodingInvalid", "The data encoding is invalid.");
  ("BadDataEncodingUnsupported", "The server does not support the requested data encoding for the node.");
  ("BadNotReadable", "The access level does not allow reading or subscribing to the Node.");
  ("BadNotWritable", "The access level does not allow writing to the Node.");
  ("BadOutOfRange", "The value was out of range.");
  ("BadNotSupported", "The requested operation is not supported.");
  ("BadNotFound", "A requested item was not found or a search operation ended without success.");
  ("BadObjectDeleted", "The object cannot be used because it has been deleted.");
  ("BadNotImplemented", "Requested operation is not implemented.");
  ("BadMonitoringModeInvalid", "The monitoring mode is invalid.");
  ("BadMonitoredItemIDInvalid", "The monitoring item id does not refer to a valid monitored item.");
  ("BadMonitoredItemFilterInvalid", "The monitored item filter parameter is not valid.");
  ("BadMonitoredItemFilterUnsupported", "The server does not support the requested monitored item filter.");
  ("BadFilterNotAllowed", "A monitoring filter cannot be used in combination with the attribute specified.");
  ("BadStructureMissing", "A mandatory structured parameter was missing or null.");
  ("BadEventFilterInvalid", "The event filter is not valid.");
  ("BadContentFilterInvalid", "The content filter is not valid.");
  ("BadFilterOperatorInvalid", "An unrecognized operator was provided in a filter.");
  ("BadFilterOperatorUnsupported", "A valid operator was provided, but the server does not provide support for this filter operator.");
  ("BadFilterOperandCountMismatch", "The number of operands provided for the filter operator was less then expected for the operand provided.");
  ("BadFilterOperandInvalid", "The operand used in a content filter is not valid.");
  ("BadFilterElementInvalid", "The referenced element is not a valid element in the content filter.");
  ("BadFilterLiteralInvalid", "The referenced literal is not a valid value.");
  ("BadContinuationPointInvalid", "The continuation point provide is longer valid.");
  ("BadNoContinuationPoints", "The operation could not be processed because all continuation points have been allocated.");
  ("BadReferenceTypeIDInvalid", "The reference type id does not refer to a valid reference type node.");
  ("BadBrowseDirectionInvalid", "The browse direction is not valid.");
  ("BadNodeNotInView", "The node is not part of the view.");
  ("BadNumericOverflow", "The number was not accepted because of a numeric overflow.");
  ("BadServerURIInvalid", "The ServerUri is not a valid URI.");
  ("BadServerNameMissing", "No ServerName was specified.");
  ("BadDiscoveryURLMissing", "No DiscoveryUrl was specified.");
  ("BadSempahoreFileMissing", "The semaphore file specified by the client is not valid.");
  ("BadRequestTypeInvalid", "The security token request type is not valid.");
  ("BadSecurityModeRejected", "The security mode does not meet the requirements set by the server.");
  ("BadSecurityPolicyRejected", "The security policy does not meet the requirements set by the server.");
  ("BadTooManySessions", "The server has reached its maximum number of sessions.");
  ("BadUserSignatureInvalid", "The user token signature is missing or invalid.");
  ("BadApplicationSignatureInvalid", "The signature generated with the client certificate is missing or invalid.");
  ("BadNoValidCertificates", "The client did not provide at least one software certificate that is valid and meets the profile requirements for the server.");
  ("BadIdentityChangeNotSupported", "The server does not support changing the user identity assigned to the session.");
  ("BadRequestCancelledByRequest", "The request was cancelled by the client with the Cancel service.");
  ("BadParentNodeIDInvalid", "The parent node id does not to refer to a valid node.");
  ("BadReferenceNotAllowed", "The reference could not be created because it violates constraints imposed by the data model.");
  ("BadNodeIDRejected", "The requested node id was reject because it was either invalid or server does not allow node ids to be specified by the client.");
  ("BadNodeIDExists", "The requested node id is already used by another node.");
  ("BadNodeClassInvalid", "The node class is not valid.");
  ("BadBrowseNameInvalid", "The browse name is invalid.");
  ("BadBrowseNameDuplicated", "The browse name is not unique among nodes that share the same relationship with the parent.");
  ("BadNodeAttributesInvalid", "The node attributes are not valid for the node class.");
  ("BadTypeDefinitionInvalid", "The type definition node id does not reference an appropriate type node.");
  ("BadSourceNodeIDInvalid", "The source node id does not reference a valid node.");
  ("BadTargetNodeIDInvalid", "The target node id does not reference a valid node.");
  ("BadDuplicateReferenceNotAllowed", "The reference type between the nodes is already defined.");
  ("BadInvalidSelfReference", "The server does not allow this type of self reference on this node.");
  ("BadReferenceLocalOnly", "The reference type is not valid for a reference to a remote server.");
  ("BadNoDeleteRights", "The server will not allow the node to be deleted.");
  ("UncertainReferenceNotDeleted", "The server was not able to delete all target references.");
  ("BadServerIndexInvalid", "The server index is not valid.");
  ("BadViewIDUnknown", "The view id does not refer to a valid view node.");
  ("BadViewTimestampInvalid", "The view timestamp is not available or not supported.");
  ("BadViewParameterMismatch", "The view parameters are not consistent with each other.");
  ("BadViewVersionInvalid", "The view version is not available or not supported.");
  ("UncertainNotAllNodesAvailable", "The list of references may not be complete because the underlying system is not available.");
  ("GoodResultsMayBeIncomplete", "The server should have followed a reference to a node in a remote server but did not. The result set may be incomplete.");
  ("BadNotTypeDefinition", "The provided Nodeid was not a type definition nodeid.");
  ("UncertainReferenceOutOfServer", "One of the references to follow in the relative path references to a node in the address space in another server.");
  ("BadTooManyMatches", "The requested operation has too many matches to return.");
  ("BadQueryTooComplex", "The requested operation requires too many resources in the server.");
  ("BadNoMatch", "The requested operation has no match to return.");
  ("BadMaxAgeInvalid", "The max age parameter is invalid.");
  ("BadSecurityModeInsufficient", "The operation is not permitted over the current secure channel.");
  ("BadHistoryOperationInvalid", "The history details parameter is not valid.");
  ("BadHistoryOperationUnsupported", "The server does not support the requested operation.");
  ("BadInvalidTimestampArgument", "The defined timestamp to return was invalid.");
  ("BadWriteNotSupported", "The server does not support writing the combination of value, status and timestamps provided.");
  ("BadTypeMismatch", "The value supplied for the attribute is not of the same type as the attribute's value.");
  ("BadMethodInvalid", "The method id does not refer to a method for the specified object.");
  ("BadArgumentsMissing", "The client did not specify all of the input arguments for the method.");
  ("BadNotExecutable", "The executable attribute does not allow the execution of the method.");
  ("BadTooManySubscriptions", "The server has reached its maximum number of subscriptions.");
  ("BadTooManyPublishRequests", "The server has reached the maximum number of queued publish requests.");
  ("BadNoSubscription", "There is no subscription available for this session.");
  ("BadSequenceNumberUnknown", "The sequence number is unknown to the server.");
  ("BadMessageNotAvailable", "The requested notification message is no longer available.");
  ("BadInsufficientClientProfile", "The client of the current session does not support one or more Profiles that are necessary for the subscription.");
  ("BadStateNotActive", "The sub-state machine is not currently active.");
  ("BadAlreadyExists", "An equivalent rule already exists.");
  ("BadTCPServerTooBusy", "The server cannot process the request because it is too busy.");
  ("BadTCPMessageTypeInvalid", "The type of the message specified in the header invalid.");
  ("BadTCPSecureChannelUnknown", "The SecureChannelId and/or TokenId are not currently in use.");
  ("BadTCPMessageTooLarge", "The size of the message specified in the header is too large.");
  ("BadTCPNotEnoughResources", "There are not enough resources to process the request.");
  ("BadTCPInternalError", "An internal error occurred.");
  ("BadTCPEndpointURLInvalid", "The server does not recognize the QueryString specified.");
  ("BadRequestInterrupted", "The request could not be sent because of a network interruption.");
  ("BadRequestTimeout", "Timeout occurred while processing the request.");
  ("BadSecureChannelClosed", "The secure channel has been closed.");
  ("BadSecureChannelTokenUnknown", "The token has expired or is not recognized.");
  ("BadSequenceNumberInvalid", "The sequence number is not valid.");
  ("BadProtocolVersionUnsupported", "The applications do not have compatible protocol versions.");
  ("BadConfigurationError", "There is a problem with the configuration that affects the usefulness of the value.");
  ("BadNotConnected", "The variable should receive its value from another variable, but has never been configured to do so.");
  ("BadDeviceFailure", "There has been a failure in the device/data source that generates the value that has affected the value.");
  ("BadSensorFailure", "There has been a failure in the sensor from which the value is derived by the device/data source.");
  ("BadOutOfService", "The source of the data is not operational.");
  ("BadDeadbandFilterInvalid", "The deadband filter is not valid.");
  ("UncertainNoCommunicationLastUsableValue", "Communication to the data source has failed. The variable value is the last value that had a good quality.");
  ("UncertainLastUsableValue", "Whatever was updating this value has stopped doing so.");
  ("UncertainSubstituteValue", "The value is an operational value that was manually overwritten.");
  ("UncertainInitialValue", "The value is an initial value for a variable that normally receives its value from another variable.");
  ("UncertainSensorNotAccurate", "The value is at one of the sensor limits.");
  ("UncertainEngineeringUnitsExceeded", "The value is outside of the range of values defined for this parameter.");
  ("UncertainSubNormal", "The value is derived from multiple sources and has less than the required number of Good sources.");
  ("GoodLocalOverride", "The value has been overridden.");
  ("BadRefreshInProgress", "This Condition refresh failed, a Condition refresh operation is already in progress.");
  ("BadConditionAlreadyDisabled", "This condition has already been disabled.");
  ("BadConditionAlreadyEnabled", "This condition has already been enabled.");
  ("BadConditionDisabled", "Property not available, this condition is disabled.");
  ("BadEventIDUnknown", "The specified event id is not recognized.");
  ("BadEventNotAcknowledgeable", "The event cannot be acknowledged.");
  ("BadDialogNotActive", "The dialog condition is not active.");
  ("BadDialogResponseInvalid", "The response is not valid for the dialog.");
  ("BadConditionBranchAlreadyAcked", "The condition branch has already been acknowledged.");
  ("BadConditionBranchAlreadyConfirmed", "The condition branch has already been confirmed.");
  ("BadConditionAlreadyShelved", "The condition has already been shelved.");
  ("BadConditionNotShelved", "The condition is not currently shelved.");
  ("BadShelvingTimeOutOfRange", "The shelving time not within an acceptable range.");
  ("BadNoData", "No data exists for the requested time range or event filter.");
  ("BadBoundNotFound", "No data found to provide upper or lower bound value.");
  ("BadBoundNotSupported", "The server cannot retrieve a bound for the variable.");
  ("BadDataLost", "Data is missing due to collection started/stopped/lost.");
  ("BadDataUnavailable", "Expected data is unavailable for the requested time range due to an un-mounted volume, an off-line archive or tape, or similar reason for temporary unavailability.");
  ("BadEntryExists", "The data or event was not successfully inserted because a matching entry exists.");
  ("BadNoEntryExists", "The data or event was not successfully updated because no matching entry exists.");
  ("BadTimestampNotSupported", "The client requested history using a timestamp format the server does not support (i.e requested ServerTimestamp when server only supports SourceTimestamp).");
  ("GoodEntryInserted", "The data or event was successfully inserted into the historical database.");
  ("GoodEntryReplaced", "The data or event field was successfully replaced in the historical database.");
  ("UncertainDataSubNormal", "The value is derived from multiple values and has less than the required number of Good values.");
  ("GoodNoData", "No data exists for the requested time range or event filter.");
  ("GoodMoreData", "The data or event field was successfully replaced in the historical database.");
  ("BadAggregateListMismatch", "The requested number of Aggregates does not match the requested number of NodeIds.");
  ("BadAggregateNotSupported", "The requested Aggregate is not support by the server.");
  ("BadAggregateInvalidInputs", "The aggregate value could not be derived due to invalid data inputs.");
  ("BadAggregateConfigurationRejected", "The aggregate configuration is not valid for specified node.");
  ("GoodDataIgnored", "The request specifies fields which are not valid for the EventType or cannot be saved by the historian.");
  ("BadRequestNotAllowed", "The request was rejected by the server because it did not meet the criteria set by the server.");
  ("BadRequestNotComplete", "The request has not been processed by the server yet.");
  ("GoodEdited", "The value does not come from the real source and has been edited by the server.");
  ("GoodPostActionFailed", "There was an error in execution of these post-actions.");
  ("UncertainDominantValueChanged", "The related EngineeringUnit has been changed but the Variable Value is still provided based on the previous unit.");
  ("GoodDependentValueChanged", "A dependent value has been changed but the change has not been applied to the device.");
  ("BadDominantValueChanged", "The related EngineeringUnit has been changed but this change has not been applied to the device. The Variable Value is still dependent on the previous unit but its status is currently Bad.");
  ("UncertainDependentValueChanged", "A dependent value has been changed but the change has not been applied to the device. The quality of the dominant variable is uncertain.");
  ("BadDependentValueChanged", "A dependent value has been changed but the change has not been applied to the device. The quality of the dominant variable is Bad.");
  ("GoodEditedDependentValueChanged", "It is delivered with a dominant Variable value when a dependent Variable has changed but the change has not been applied.");
  ("GoodEditedDominantValueChanged", "It is delivered with a dependent Variable value when a dominant Variable has changed but the change has not been applied.");
  ("GoodEditedDominantValueChangedDependentValueChanged", "It is delivered with a dependent Variable value when a dominant or dependent Variable has changed but change has not been applied.");
  ("BadEditedOutOfRange", "It is delivered with a Variable value when Variable has changed but the value is not legal.");
  ("BadInitialValueOutOfRange", "It is delivered with a Variable value when a source Variable has changed but the value is not legal.");
  ("BadOutOfRangeDominantValueChanged", "It is delivered with a dependent Variable value when a dominant Variable has changed and the value is not legal.");
  ("BadEditedOutOfRangeDominantValueChanged", "It is delivered with a dependent Variable value when a dominant Variable has changed, the value is not legal and the change has not been applied.");
  ("BadOutOfRangeDominantValueChangedDependentValueChanged", "It is delivered with a dependent Variable value when a dominant or dependent Variable has changed and the value is not legal.");
  ("BadEditedOutOfRangeDominantValueChangedDependentValueChanged", "It is delivered with a dependent Variable value when a dominant or dependent Variable has changed, the value is not legal and the change has not been applied.");
  ("GoodCommunicationEvent", "The communication layer has raised an event.");
  ("GoodShutdownEvent", "The system is shutting down.");
  ("GoodCallAgain", "The operation is not finished and needs to be called again.");
  ("GoodNonCriticalTimeout", "A non-critical timeout occurred.");
  ("BadInvalidArgument", "One or more arguments are invalid.");
  ("BadConnectionRejected", "Could not establish a network connection to remote server.");
  ("BadDisconnect", "The server has disconnected from the client.");
  ("BadConnectionClosed", "The network connection has been closed.");
  ("BadInvalidState", "The operation cannot be completed because the object is closed, uninitialized or in some other invalid state.");
  ("BadEndOfStream", "Cannot move beyond end of the stream.");
  ("BadNoDataAvailable", "No data is currently available for reading from a non-blocking stream.");
  ("BadWaitingForResponse", "The asynchronous operation is waiting for a response.");
  ("BadOperationAbandoned", "The asynchronous operation was abandoned by the caller.");
  ("BadExpectedStreamToBlock", "The stream did not return all data requested (possibly because it is a non-blocking stream).");
  ("BadWouldBlock", "Non blocking behaviour is required and the operation would block.");
  ("BadSyntaxError", "A value had an invalid syntax.");
  ("BadMaxConnectionsReached", "The operation could not be finished because all available connections are in use.")
].
Definition status_default : string := "An unknown error occurred.".
