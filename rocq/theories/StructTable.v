(** The structures of the protocol and their identifiers, transcribed by tools/struct_table.py.

    Source: /repo/ua/structs.generated.go (line of each structure beside it); registrations 2489-2773;
    identifiers /repo/ua/nodeids.generated.go.  Enumerations and StatusCode are written by their Kind;
    ByteString is a string (ua/bytestring.go 10); uuid.UUID has no encoder (binary_encoder.go 96-169). *)
From Coq Require Import ZArith List String.
From Verif Require Import Prim Value.
Import ListNotations.
Open Scope Z_scope.

Definition f_KeyValuePair : list ty := [TB BQName; TVar].   (* 15 *)
Definition f_AdditionalParametersType : list ty := [TSlice (TStruct f_KeyValuePair)].   (* 22 *)
Definition f_EphemeralKeyType : list ty := [TB BString; TB BString].   (* 28 *)
Definition f_EndpointType : list ty := [TB BString; TB BInt32; TB BString; TB BString].   (* 35 *)
Definition f_RationalNumber : list ty := [TB BInt32; TB BUInt32].   (* 44 *)
Definition f_Vector : list ty := [].   (* 51 *)
Definition f_ThreeDVector : list ty := [TB BDouble; TB BDouble; TB BDouble].   (* 56 *)
Definition f_CartesianCoordinates : list ty := [].   (* 64 *)
Definition f_ThreeDCartesianCoordinates : list ty := [TB BDouble; TB BDouble; TB BDouble].   (* 69 *)
Definition f_Orientation : list ty := [].   (* 77 *)
Definition f_ThreeDOrientation : list ty := [TB BDouble; TB BDouble; TB BDouble].   (* 82 *)
Definition f_Frame : list ty := [].   (* 90 *)
Definition f_ThreeDFrame : list ty := [TStruct f_ThreeDCartesianCoordinates; TStruct f_ThreeDOrientation].   (* 95 *)
Definition f_IdentityMappingRuleType : list ty := [TB BInt32; TB BString].   (* 102 *)
Definition f_CurrencyUnitType : list ty := [TB BInt16; TB BSByte; TB BString; TB BLText].   (* 109 *)
Definition f_TrustListDataType : list ty := [TB BUInt32; TSlice (TB BString); TSlice (TB BString); TSlice (TB BString); TSlice (TB BString)].   (* 118 *)
Definition f_DecimalDataType : list ty := [TB BInt16; TB BString].   (* 128 *)
Definition f_StructureField : list ty := [TB BString; TB BLText; TB BNodeId; TB BInt32; TSlice (TB BUInt32); TB BUInt32; TB BBool].   (* 577 *)
Definition f_StructureDefinition : list ty := [TB BNodeId; TB BNodeId; TB BInt32; TSlice (TStruct f_StructureField)].   (* 589 *)
Definition f_StructureDescription : list ty := [TB BNodeId; TB BQName; TStruct f_StructureDefinition].   (* 151 *)
Definition f_EnumField : list ty := [TB BInt64; TB BLText; TB BLText; TB BString].   (* 622 *)
Definition f_EnumDefinition : list ty := [TSlice (TStruct f_EnumField)].   (* 598 *)
Definition f_EnumDescription : list ty := [TB BNodeId; TB BQName; TStruct f_EnumDefinition; TB BByte].   (* 159 *)
Definition f_SimpleTypeDescription : list ty := [TB BNodeId; TB BQName; TB BNodeId; TB BByte].   (* 168 *)
Definition f_DataTypeSchemaHeader : list ty := [TSlice (TB BString); TSlice (TStruct f_StructureDescription); TSlice (TStruct f_EnumDescription); TSlice (TStruct f_SimpleTypeDescription)].   (* 135 *)
Definition f_DataTypeDescription : list ty := [TB BNodeId; TB BQName].   (* 144 *)
Definition f_UABinaryFileDataType : list ty := [TSlice (TB BString); TSlice (TStruct f_StructureDescription); TSlice (TStruct f_EnumDescription); TSlice (TStruct f_SimpleTypeDescription); TB BString; TSlice (TStruct f_KeyValuePair); TVar].   (* 177 *)
Definition f_FieldMetaData : list ty := [TB BString; TB BLText; TB BInt32; TB BByte; TB BNodeId; TB BInt32; TSlice (TB BUInt32); TB BUInt32; TUnsupported; TSlice (TStruct f_KeyValuePair)].   (* 203 *)
Definition f_ConfigurationVersionDataType : list ty := [TB BUInt32; TB BUInt32].   (* 218 *)
Definition f_DataSetMetaDataType : list ty := [TSlice (TB BString); TSlice (TStruct f_StructureDescription); TSlice (TStruct f_EnumDescription); TSlice (TStruct f_SimpleTypeDescription); TB BString; TB BLText; TSlice (TStruct f_FieldMetaData); TUnsupported; TStruct f_ConfigurationVersionDataType].   (* 189 *)
Definition f_PublishedDataSetDataType : list ty := [TB BString; TSlice (TB BString); TStruct f_DataSetMetaDataType; TSlice (TStruct f_KeyValuePair); TExt].   (* 225 *)
Definition f_PublishedDataSetSourceDataType : list ty := [].   (* 235 *)
Definition f_PublishedVariableDataType : list ty := [TB BNodeId; TB BUInt32; TB BDouble; TB BUInt32; TB BDouble; TB BString; TVar; TSlice (TB BQName)].   (* 240 *)
Definition f_PublishedDataItemsDataType : list ty := [TSlice (TStruct f_PublishedVariableDataType)].   (* 253 *)
Definition f_SimpleAttributeOperand : list ty := [TB BNodeId; TSlice (TB BQName); TB BUInt32; TB BString].   (* 1486 *)
Definition f_ContentFilterElement : list ty := [TB BInt32; TSlice TExt].   (* 1446 *)
Definition f_ContentFilter : list ty := [TSlice (TStruct f_ContentFilterElement)].   (* 1453 *)
Definition f_PublishedEventsDataType : list ty := [TB BNodeId; TSlice (TStruct f_SimpleAttributeOperand); TStruct f_ContentFilter].   (* 259 *)
Definition f_DataSetWriterDataType : list ty := [TB BString; TB BBool; TB BUInt16; TB BInt32; TB BUInt32; TB BString; TSlice (TStruct f_KeyValuePair); TExt; TExt].   (* 267 *)
Definition f_DataSetWriterTransportDataType : list ty := [].   (* 281 *)
Definition f_DataSetWriterMessageDataType : list ty := [].   (* 286 *)
Definition f_ApplicationDescription : list ty := [TB BString; TB BString; TB BLText; TB BInt32; TB BString; TB BString; TSlice (TB BString)].   (* 650 *)
Definition f_UserTokenPolicy : list ty := [TB BString; TB BInt32; TB BString; TB BString; TB BString].   (* 751 *)
Definition f_EndpointDescription : list ty := [TB BString; TStruct f_ApplicationDescription; TB BString; TB BInt32; TB BString; TSlice (TStruct f_UserTokenPolicy); TB BString; TB BByte].   (* 761 *)
Definition f_PubSubGroupDataType : list ty := [TB BString; TB BBool; TB BInt32; TB BString; TSlice (TStruct f_EndpointDescription); TB BUInt32; TSlice (TStruct f_KeyValuePair)].   (* 291 *)
Definition f_WriterGroupDataType : list ty := [TB BString; TB BBool; TB BInt32; TB BString; TSlice (TStruct f_EndpointDescription); TB BUInt32; TSlice (TStruct f_KeyValuePair); TB BUInt16; TB BDouble; TB BDouble; TB BByte; TSlice (TB BString); TB BString; TExt; TExt; TSlice (TStruct f_DataSetWriterDataType)].   (* 303 *)
Definition f_WriterGroupTransportDataType : list ty := [].   (* 324 *)
Definition f_WriterGroupMessageDataType : list ty := [].   (* 329 *)
Definition f_DataSetReaderDataType : list ty := [TB BString; TB BBool; TVar; TB BUInt16; TB BUInt16; TStruct f_DataSetMetaDataType; TB BInt32; TB BDouble; TB BUInt32; TB BString; TB BInt32; TB BString; TSlice (TStruct f_EndpointDescription); TSlice (TStruct f_KeyValuePair); TExt; TExt; TExt].   (* 391 *)
Definition f_ReaderGroupDataType : list ty := [TB BString; TB BBool; TB BInt32; TB BString; TSlice (TStruct f_EndpointDescription); TB BUInt32; TSlice (TStruct f_KeyValuePair); TExt; TExt; TSlice (TStruct f_DataSetReaderDataType)].   (* 366 *)
Definition f_PubSubConnectionDataType : list ty := [TB BString; TB BBool; TVar; TB BString; TExt; TSlice (TStruct f_KeyValuePair); TExt; TSlice (TStruct f_WriterGroupDataType); TSlice (TStruct f_ReaderGroupDataType)].   (* 334 *)
Definition f_ConnectionTransportDataType : list ty := [].   (* 348 *)
Definition f_NetworkAddressDataType : list ty := [TB BString].   (* 353 *)
Definition f_NetworkAddressURLDataType : list ty := [TB BString; TB BString].   (* 359 *)
Definition f_ReaderGroupTransportDataType : list ty := [].   (* 381 *)
Definition f_ReaderGroupMessageDataType : list ty := [].   (* 386 *)
Definition f_DataSetReaderTransportDataType : list ty := [].   (* 413 *)
Definition f_DataSetReaderMessageDataType : list ty := [].   (* 418 *)
Definition f_SubscribedDataSetDataType : list ty := [].   (* 423 *)
Definition f_FieldTargetDataType : list ty := [TUnsupported; TB BString; TB BNodeId; TB BUInt32; TB BString; TB BInt32; TVar].   (* 434 *)
Definition f_TargetVariablesDataType : list ty := [TSlice (TStruct f_FieldTargetDataType)].   (* 428 *)
Definition f_RolePermissionType : list ty := [TB BNodeId; TB BInt32].   (* 570 *)
Definition f_SubscribedDataSetMirrorDataType : list ty := [TB BString; TSlice (TStruct f_RolePermissionType)].   (* 446 *)
Definition f_PubSubConfigurationDataType : list ty := [TSlice (TStruct f_PublishedDataSetDataType); TSlice (TStruct f_PubSubConnectionDataType); TB BBool].   (* 453 *)
Definition f_UADPWriterGroupMessageDataType : list ty := [TB BUInt32; TB BInt32; TB BInt32; TB BDouble; TSlice (TB BDouble)].   (* 461 *)
Definition f_UADPDataSetWriterMessageDataType : list ty := [TB BInt32; TB BUInt16; TB BUInt16; TB BUInt16].   (* 471 *)
Definition f_UADPDataSetReaderMessageDataType : list ty := [TB BUInt32; TB BUInt16; TB BUInt16; TUnsupported; TB BInt32; TB BInt32; TB BDouble; TB BDouble; TB BDouble].   (* 480 *)
Definition f_JSONWriterGroupMessageDataType : list ty := [TB BInt32].   (* 494 *)
Definition f_JSONDataSetWriterMessageDataType : list ty := [TB BInt32].   (* 500 *)
Definition f_JSONDataSetReaderMessageDataType : list ty := [TB BInt32; TB BInt32].   (* 506 *)
Definition f_DatagramConnectionTransportDataType : list ty := [TExt].   (* 513 *)
Definition f_DatagramWriterGroupTransportDataType : list ty := [TB BByte; TB BDouble].   (* 519 *)
Definition f_BrokerConnectionTransportDataType : list ty := [TB BString; TB BString].   (* 526 *)
Definition f_BrokerWriterGroupTransportDataType : list ty := [TB BString; TB BString; TB BString; TB BInt32].   (* 533 *)
Definition f_BrokerDataSetWriterTransportDataType : list ty := [TB BString; TB BString; TB BString; TB BInt32; TB BString; TB BDouble].   (* 542 *)
Definition f_BrokerDataSetReaderTransportDataType : list ty := [TB BString; TB BString; TB BString; TB BInt32; TB BString].   (* 553 *)
Definition f_AliasNameDataType : list ty := [TB BQName; TSlice (TB BExp)].   (* 563 *)
Definition f_Argument : list ty := [TB BString; TB BNodeId; TB BInt32; TSlice (TB BUInt32); TB BLText].   (* 604 *)
Definition f_EnumValueType : list ty := [TB BInt64; TB BLText; TB BLText].   (* 614 *)
Definition f_OptionSet : list ty := [TB BString; TB BString].   (* 631 *)
Definition f_Union : list ty := [].   (* 638 *)
Definition f_TimeZoneDataType : list ty := [TB BInt16; TB BBool].   (* 643 *)
Definition f_RequestHeader : list ty := [TB BNodeId; TB BTime; TB BUInt32; TB BUInt32; TB BString; TB BUInt32; TExt].   (* 662 *)
Definition f_ResponseHeader : list ty := [TB BTime; TB BUInt32; TB BUInt32; TDiag; TSlice (TB BString); TExt].   (* 674 *)
Definition f_ServiceFault : list ty := [TStruct f_ResponseHeader].   (* 685 *)
Definition f_SessionlessInvokeRequestType : list ty := [TSlice (TB BUInt32); TSlice (TB BString); TSlice (TB BString); TSlice (TB BString); TB BUInt32].   (* 691 *)
Definition f_SessionlessInvokeResponseType : list ty := [TSlice (TB BString); TSlice (TB BString); TB BUInt32].   (* 701 *)
Definition f_FindServersRequest : list ty := [TStruct f_RequestHeader; TB BString; TSlice (TB BString); TSlice (TB BString)].   (* 709 *)
Definition f_FindServersResponse : list ty := [TStruct f_ResponseHeader; TSlice (TStruct f_ApplicationDescription)].   (* 718 *)
Definition f_ServerOnNetwork : list ty := [TB BUInt32; TB BString; TB BString; TSlice (TB BString)].   (* 725 *)
Definition f_FindServersOnNetworkRequest : list ty := [TStruct f_RequestHeader; TB BUInt32; TB BUInt32; TSlice (TB BString)].   (* 734 *)
Definition f_FindServersOnNetworkResponse : list ty := [TStruct f_ResponseHeader; TB BTime; TSlice (TStruct f_ServerOnNetwork)].   (* 743 *)
Definition f_GetEndpointsRequest : list ty := [TStruct f_RequestHeader; TB BString; TSlice (TB BString); TSlice (TB BString)].   (* 774 *)
Definition f_GetEndpointsResponse : list ty := [TStruct f_ResponseHeader; TSlice (TStruct f_EndpointDescription)].   (* 783 *)
Definition f_RegisteredServer : list ty := [TB BString; TB BString; TSlice (TB BLText); TB BInt32; TB BString; TSlice (TB BString); TB BString; TB BBool].   (* 790 *)
Definition f_RegisterServerRequest : list ty := [TStruct f_RequestHeader; TStruct f_RegisteredServer].   (* 803 *)
Definition f_RegisterServerResponse : list ty := [TStruct f_ResponseHeader].   (* 810 *)
Definition f_DiscoveryConfiguration : list ty := [].   (* 816 *)
Definition f_MdnsDiscoveryConfiguration : list ty := [TB BString; TSlice (TB BString)].   (* 821 *)
Definition f_RegisterServer2Request : list ty := [TStruct f_RequestHeader; TStruct f_RegisteredServer; TSlice TExt].   (* 828 *)
Definition f_RegisterServer2Response : list ty := [TStruct f_ResponseHeader; TSlice (TB BUInt32); TSlice TDiag].   (* 836 *)
Definition f_ChannelSecurityToken : list ty := [TB BUInt32; TB BUInt32; TB BTime; TB BUInt32].   (* 844 *)
Definition f_OpenSecureChannelRequest : list ty := [TStruct f_RequestHeader; TB BUInt32; TB BInt32; TB BInt32; TB BString; TB BUInt32].   (* 853 *)
Definition f_OpenSecureChannelResponse : list ty := [TStruct f_ResponseHeader; TB BUInt32; TStruct f_ChannelSecurityToken; TB BString].   (* 864 *)
Definition f_CloseSecureChannelRequest : list ty := [TStruct f_RequestHeader].   (* 873 *)
Definition f_CloseSecureChannelResponse : list ty := [TStruct f_ResponseHeader].   (* 879 *)
Definition f_SignedSoftwareCertificate : list ty := [TB BString; TB BString].   (* 885 *)
Definition f_SignatureData : list ty := [TB BString; TB BString].   (* 892 *)
Definition f_CreateSessionRequest : list ty := [TStruct f_RequestHeader; TStruct f_ApplicationDescription; TB BString; TB BString; TB BString; TB BString; TB BString; TB BDouble; TB BUInt32].   (* 899 *)
Definition f_CreateSessionResponse : list ty := [TStruct f_ResponseHeader; TB BNodeId; TB BNodeId; TB BDouble; TB BString; TB BString; TSlice (TStruct f_EndpointDescription); TSlice (TStruct f_SignedSoftwareCertificate); TStruct f_SignatureData; TB BUInt32].   (* 913 *)
Definition f_UserIdentityToken : list ty := [TB BString].   (* 928 *)
Definition f_AnonymousIdentityToken : list ty := [TB BString].   (* 934 *)
Definition f_UserNameIdentityToken : list ty := [TB BString; TB BString; TB BString; TB BString].   (* 940 *)
Definition f_X509IdentityToken : list ty := [TB BString; TB BString].   (* 949 *)
Definition f_IssuedIdentityToken : list ty := [TB BString; TB BString; TB BString].   (* 956 *)
Definition f_ActivateSessionRequest : list ty := [TStruct f_RequestHeader; TStruct f_SignatureData; TSlice (TStruct f_SignedSoftwareCertificate); TSlice (TB BString); TExt; TStruct f_SignatureData].   (* 964 *)
Definition f_ActivateSessionResponse : list ty := [TStruct f_ResponseHeader; TB BString; TSlice (TB BUInt32); TSlice TDiag].   (* 975 *)
Definition f_CloseSessionRequest : list ty := [TStruct f_RequestHeader; TB BBool].   (* 984 *)
Definition f_CloseSessionResponse : list ty := [TStruct f_ResponseHeader].   (* 991 *)
Definition f_CancelRequest : list ty := [TStruct f_RequestHeader; TB BUInt32].   (* 997 *)
Definition f_CancelResponse : list ty := [TStruct f_ResponseHeader; TB BUInt32].   (* 1004 *)
Definition f_NodeAttributes : list ty := [TB BUInt32; TB BLText; TB BLText; TB BUInt32; TB BUInt32].   (* 1011 *)
Definition f_ObjectAttributes : list ty := [TB BUInt32; TB BLText; TB BLText; TB BUInt32; TB BUInt32; TB BByte].   (* 1021 *)
Definition f_VariableAttributes : list ty := [TB BUInt32; TB BLText; TB BLText; TB BUInt32; TB BUInt32; TVar; TB BNodeId; TB BInt32; TSlice (TB BUInt32); TB BByte; TB BByte; TB BDouble; TB BBool].   (* 1032 *)
Definition f_MethodAttributes : list ty := [TB BUInt32; TB BLText; TB BLText; TB BUInt32; TB BUInt32; TB BBool; TB BBool].   (* 1050 *)
Definition f_ObjectTypeAttributes : list ty := [TB BUInt32; TB BLText; TB BLText; TB BUInt32; TB BUInt32; TB BBool].   (* 1062 *)
Definition f_VariableTypeAttributes : list ty := [TB BUInt32; TB BLText; TB BLText; TB BUInt32; TB BUInt32; TVar; TB BNodeId; TB BInt32; TSlice (TB BUInt32); TB BBool].   (* 1073 *)
Definition f_ReferenceTypeAttributes : list ty := [TB BUInt32; TB BLText; TB BLText; TB BUInt32; TB BUInt32; TB BBool; TB BBool; TB BLText].   (* 1088 *)
Definition f_DataTypeAttributes : list ty := [TB BUInt32; TB BLText; TB BLText; TB BUInt32; TB BUInt32; TB BBool].   (* 1101 *)
Definition f_ViewAttributes : list ty := [TB BUInt32; TB BLText; TB BLText; TB BUInt32; TB BUInt32; TB BBool; TB BByte].   (* 1112 *)
Definition f_GenericAttributeValue : list ty := [TB BUInt32; TVar].   (* 1124 *)
Definition f_GenericAttributes : list ty := [TB BUInt32; TB BLText; TB BLText; TB BUInt32; TB BUInt32; TSlice (TStruct f_GenericAttributeValue)].   (* 1131 *)
Definition f_AddNodesItem : list ty := [TB BExp; TB BNodeId; TB BExp; TB BQName; TB BInt32; TExt; TB BExp].   (* 1142 *)
Definition f_AddNodesResult : list ty := [TB BUInt32; TB BNodeId].   (* 1154 *)
Definition f_AddNodesRequest : list ty := [TStruct f_RequestHeader; TSlice (TStruct f_AddNodesItem)].   (* 1161 *)
Definition f_AddNodesResponse : list ty := [TStruct f_ResponseHeader; TSlice (TStruct f_AddNodesResult); TSlice TDiag].   (* 1168 *)
Definition f_AddReferencesItem : list ty := [TB BNodeId; TB BNodeId; TB BBool; TB BString; TB BExp; TB BInt32].   (* 1176 *)
Definition f_AddReferencesRequest : list ty := [TStruct f_RequestHeader; TSlice (TStruct f_AddReferencesItem)].   (* 1187 *)
Definition f_AddReferencesResponse : list ty := [TStruct f_ResponseHeader; TSlice (TB BUInt32); TSlice TDiag].   (* 1194 *)
Definition f_DeleteNodesItem : list ty := [TB BNodeId; TB BBool].   (* 1202 *)
Definition f_DeleteNodesRequest : list ty := [TStruct f_RequestHeader; TSlice (TStruct f_DeleteNodesItem)].   (* 1209 *)
Definition f_DeleteNodesResponse : list ty := [TStruct f_ResponseHeader; TSlice (TB BUInt32); TSlice TDiag].   (* 1216 *)
Definition f_DeleteReferencesItem : list ty := [TB BNodeId; TB BNodeId; TB BBool; TB BExp; TB BBool].   (* 1224 *)
Definition f_DeleteReferencesRequest : list ty := [TStruct f_RequestHeader; TSlice (TStruct f_DeleteReferencesItem)].   (* 1234 *)
Definition f_DeleteReferencesResponse : list ty := [TStruct f_ResponseHeader; TSlice (TB BUInt32); TSlice TDiag].   (* 1241 *)
Definition f_ViewDescription : list ty := [TB BNodeId; TB BTime; TB BUInt32].   (* 1249 *)
Definition f_BrowseDescription : list ty := [TB BNodeId; TB BInt32; TB BNodeId; TB BBool; TB BUInt32; TB BUInt32].   (* 1257 *)
Definition f_ReferenceDescription : list ty := [TB BNodeId; TB BBool; TB BExp; TB BQName; TB BLText; TB BInt32; TB BExp].   (* 1268 *)
Definition f_BrowseResult : list ty := [TB BUInt32; TB BString; TSlice (TStruct f_ReferenceDescription)].   (* 1280 *)
Definition f_BrowseRequest : list ty := [TStruct f_RequestHeader; TStruct f_ViewDescription; TB BUInt32; TSlice (TStruct f_BrowseDescription)].   (* 1288 *)
Definition f_BrowseResponse : list ty := [TStruct f_ResponseHeader; TSlice (TStruct f_BrowseResult); TSlice TDiag].   (* 1297 *)
Definition f_BrowseNextRequest : list ty := [TStruct f_RequestHeader; TB BBool; TSlice (TB BString)].   (* 1305 *)
Definition f_BrowseNextResponse : list ty := [TStruct f_ResponseHeader; TSlice (TStruct f_BrowseResult); TSlice TDiag].   (* 1313 *)
Definition f_RelativePathElement : list ty := [TB BNodeId; TB BBool; TB BBool; TB BQName].   (* 1321 *)
Definition f_RelativePath : list ty := [TSlice (TStruct f_RelativePathElement)].   (* 1330 *)
Definition f_BrowsePath : list ty := [TB BNodeId; TStruct f_RelativePath].   (* 1336 *)
Definition f_BrowsePathTarget : list ty := [TB BExp; TB BUInt32].   (* 1343 *)
Definition f_BrowsePathResult : list ty := [TB BUInt32; TSlice (TStruct f_BrowsePathTarget)].   (* 1350 *)
Definition f_TranslateBrowsePathsToNodeIDsRequest : list ty := [TStruct f_RequestHeader; TSlice (TStruct f_BrowsePath)].   (* 1357 *)
Definition f_TranslateBrowsePathsToNodeIDsResponse : list ty := [TStruct f_ResponseHeader; TSlice (TStruct f_BrowsePathResult); TSlice TDiag].   (* 1364 *)
Definition f_RegisterNodesRequest : list ty := [TStruct f_RequestHeader; TSlice (TB BNodeId)].   (* 1372 *)
Definition f_RegisterNodesResponse : list ty := [TStruct f_ResponseHeader; TSlice (TB BNodeId)].   (* 1379 *)
Definition f_UnregisterNodesRequest : list ty := [TStruct f_RequestHeader; TSlice (TB BNodeId)].   (* 1386 *)
Definition f_UnregisterNodesResponse : list ty := [TStruct f_ResponseHeader].   (* 1393 *)
Definition f_EndpointConfiguration : list ty := [TB BInt32; TB BBool; TB BInt32; TB BInt32; TB BInt32; TB BInt32; TB BInt32; TB BInt32; TB BInt32].   (* 1399 *)
Definition f_QueryDataDescription : list ty := [TStruct f_RelativePath; TB BUInt32; TB BString].   (* 1413 *)
Definition f_NodeTypeDescription : list ty := [TB BExp; TB BBool; TSlice (TStruct f_QueryDataDescription)].   (* 1421 *)
Definition f_QueryDataSet : list ty := [TB BExp; TB BExp; TSlice TVar].   (* 1429 *)
Definition f_NodeReference : list ty := [TB BNodeId; TB BNodeId; TB BBool; TSlice (TB BNodeId)].   (* 1437 *)
Definition f_FilterOperand : list ty := [].   (* 1459 *)
Definition f_ElementOperand : list ty := [TB BUInt32].   (* 1464 *)
Definition f_LiteralOperand : list ty := [TVar].   (* 1470 *)
Definition f_AttributeOperand : list ty := [TB BNodeId; TB BString; TStruct f_RelativePath; TB BUInt32; TB BString].   (* 1476 *)
Definition f_ContentFilterElementResult : list ty := [TB BUInt32; TSlice (TB BUInt32); TSlice TDiag].   (* 1495 *)
Definition f_ContentFilterResult : list ty := [TSlice (TStruct f_ContentFilterElementResult); TSlice TDiag].   (* 1503 *)
Definition f_ParsingResult : list ty := [TB BUInt32; TSlice (TB BUInt32); TSlice TDiag].   (* 1510 *)
Definition f_QueryFirstRequest : list ty := [TStruct f_RequestHeader; TStruct f_ViewDescription; TSlice (TStruct f_NodeTypeDescription); TStruct f_ContentFilter; TB BUInt32; TB BUInt32].   (* 1518 *)
Definition f_QueryFirstResponse : list ty := [TStruct f_ResponseHeader; TSlice (TStruct f_QueryDataSet); TB BString; TSlice (TStruct f_ParsingResult); TSlice TDiag; TStruct f_ContentFilterResult].   (* 1529 *)
Definition f_QueryNextRequest : list ty := [TStruct f_RequestHeader; TB BBool; TB BString].   (* 1540 *)
Definition f_QueryNextResponse : list ty := [TStruct f_ResponseHeader; TSlice (TStruct f_QueryDataSet); TB BString].   (* 1548 *)
Definition f_ReadValueID : list ty := [TB BNodeId; TB BUInt32; TB BString; TB BQName].   (* 1556 *)
Definition f_ReadRequest : list ty := [TStruct f_RequestHeader; TB BDouble; TB BInt32; TSlice (TStruct f_ReadValueID)].   (* 1565 *)
Definition f_ReadResponse : list ty := [TStruct f_ResponseHeader; TSlice TDV; TSlice TDiag].   (* 1574 *)
Definition f_HistoryReadValueID : list ty := [TB BNodeId; TB BString; TB BQName; TB BString].   (* 1582 *)
Definition f_HistoryReadResult : list ty := [TB BUInt32; TB BString; TExt].   (* 1591 *)
Definition f_HistoryReadDetails : list ty := [].   (* 1599 *)
Definition f_EventFilter : list ty := [TSlice (TStruct f_SimpleAttributeOperand); TStruct f_ContentFilter].   (* 1837 *)
Definition f_ReadEventDetails : list ty := [TB BUInt32; TB BTime; TB BTime; TStruct f_EventFilter].   (* 1604 *)
Definition f_ReadRawModifiedDetails : list ty := [TB BBool; TB BTime; TB BTime; TB BUInt32; TB BBool].   (* 1613 *)
Definition f_AggregateConfiguration : list ty := [TB BBool; TB BBool; TB BByte; TB BByte; TB BBool].   (* 1844 *)
Definition f_ReadProcessedDetails : list ty := [TB BTime; TB BTime; TB BDouble; TSlice (TB BNodeId); TStruct f_AggregateConfiguration].   (* 1623 *)
Definition f_ReadAtTimeDetails : list ty := [TSlice (TB BTime); TB BBool].   (* 1633 *)
Definition f_ReadAnnotationDataDetails : list ty := [TSlice (TB BTime)].   (* 1640 *)
Definition f_HistoryData : list ty := [TSlice TDV].   (* 1646 *)
Definition f_ModificationInfo : list ty := [TB BTime; TB BInt32; TB BString].   (* 1652 *)
Definition f_HistoryModifiedData : list ty := [TSlice TDV; TSlice (TStruct f_ModificationInfo)].   (* 1660 *)
Definition f_HistoryEventFieldList : list ty := [TSlice TVar].   (* 2114 *)
Definition f_HistoryEvent : list ty := [TSlice (TStruct f_HistoryEventFieldList)].   (* 1667 *)
Definition f_HistoryReadRequest : list ty := [TStruct f_RequestHeader; TExt; TB BInt32; TB BBool; TSlice (TStruct f_HistoryReadValueID)].   (* 1673 *)
Definition f_HistoryReadResponse : list ty := [TStruct f_ResponseHeader; TSlice (TStruct f_HistoryReadResult); TSlice TDiag].   (* 1683 *)
Definition f_WriteValue : list ty := [TB BNodeId; TB BUInt32; TB BString; TDV].   (* 1691 *)
Definition f_WriteRequest : list ty := [TStruct f_RequestHeader; TSlice (TStruct f_WriteValue)].   (* 1700 *)
Definition f_WriteResponse : list ty := [TStruct f_ResponseHeader; TSlice (TB BUInt32); TSlice TDiag].   (* 1707 *)
Definition f_HistoryUpdateDetails : list ty := [TB BNodeId].   (* 1715 *)
Definition f_UpdateDataDetails : list ty := [TB BNodeId; TB BInt32; TSlice TDV].   (* 1721 *)
Definition f_UpdateStructureDataDetails : list ty := [TB BNodeId; TB BInt32; TSlice TDV].   (* 1729 *)
Definition f_UpdateEventDetails : list ty := [TB BNodeId; TB BInt32; TStruct f_EventFilter; TSlice (TStruct f_HistoryEventFieldList)].   (* 1737 *)
Definition f_DeleteRawModifiedDetails : list ty := [TB BNodeId; TB BBool; TB BTime; TB BTime].   (* 1746 *)
Definition f_DeleteAtTimeDetails : list ty := [TB BNodeId; TSlice (TB BTime)].   (* 1755 *)
Definition f_DeleteEventDetails : list ty := [TB BNodeId; TSlice (TB BString)].   (* 1762 *)
Definition f_HistoryUpdateResult : list ty := [TB BUInt32; TSlice (TB BUInt32); TSlice TDiag].   (* 1769 *)
Definition f_HistoryUpdateRequest : list ty := [TStruct f_RequestHeader; TSlice TExt].   (* 1777 *)
Definition f_HistoryUpdateResponse : list ty := [TStruct f_ResponseHeader; TSlice (TStruct f_HistoryUpdateResult); TSlice TDiag].   (* 1784 *)
Definition f_CallMethodRequest : list ty := [TB BNodeId; TB BNodeId; TSlice TVar].   (* 1792 *)
Definition f_CallMethodResult : list ty := [TB BUInt32; TSlice (TB BUInt32); TSlice TDiag; TSlice TVar].   (* 1800 *)
Definition f_CallRequest : list ty := [TStruct f_RequestHeader; TSlice (TStruct f_CallMethodRequest)].   (* 1809 *)
Definition f_CallResponse : list ty := [TStruct f_ResponseHeader; TSlice (TStruct f_CallMethodResult); TSlice TDiag].   (* 1816 *)
Definition f_MonitoringFilter : list ty := [].   (* 1824 *)
Definition f_DataChangeFilter : list ty := [TB BInt32; TB BUInt32; TB BDouble].   (* 1829 *)
Definition f_AggregateFilter : list ty := [TB BTime; TB BNodeId; TB BDouble; TStruct f_AggregateConfiguration].   (* 1854 *)
Definition f_MonitoringFilterResult : list ty := [].   (* 1863 *)
Definition f_EventFilterResult : list ty := [TSlice (TB BUInt32); TSlice TDiag; TStruct f_ContentFilterResult].   (* 1868 *)
Definition f_AggregateFilterResult : list ty := [TB BTime; TB BDouble; TStruct f_AggregateConfiguration].   (* 1876 *)
Definition f_MonitoringParameters : list ty := [TB BUInt32; TB BDouble; TExt; TB BUInt32; TB BBool].   (* 1884 *)
Definition f_MonitoredItemCreateRequest : list ty := [TStruct f_ReadValueID; TB BInt32; TStruct f_MonitoringParameters].   (* 1894 *)
Definition f_MonitoredItemCreateResult : list ty := [TB BUInt32; TB BUInt32; TB BDouble; TB BUInt32; TExt].   (* 1902 *)
Definition f_CreateMonitoredItemsRequest : list ty := [TStruct f_RequestHeader; TB BUInt32; TB BInt32; TSlice (TStruct f_MonitoredItemCreateRequest)].   (* 1912 *)
Definition f_CreateMonitoredItemsResponse : list ty := [TStruct f_ResponseHeader; TSlice (TStruct f_MonitoredItemCreateResult); TSlice TDiag].   (* 1921 *)
Definition f_MonitoredItemModifyRequest : list ty := [TB BUInt32; TStruct f_MonitoringParameters].   (* 1929 *)
Definition f_MonitoredItemModifyResult : list ty := [TB BUInt32; TB BDouble; TB BUInt32; TExt].   (* 1936 *)
Definition f_ModifyMonitoredItemsRequest : list ty := [TStruct f_RequestHeader; TB BUInt32; TB BInt32; TSlice (TStruct f_MonitoredItemModifyRequest)].   (* 1945 *)
Definition f_ModifyMonitoredItemsResponse : list ty := [TStruct f_ResponseHeader; TSlice (TStruct f_MonitoredItemModifyResult); TSlice TDiag].   (* 1954 *)
Definition f_SetMonitoringModeRequest : list ty := [TStruct f_RequestHeader; TB BUInt32; TB BInt32; TSlice (TB BUInt32)].   (* 1962 *)
Definition f_SetMonitoringModeResponse : list ty := [TStruct f_ResponseHeader; TSlice (TB BUInt32); TSlice TDiag].   (* 1971 *)
Definition f_SetTriggeringRequest : list ty := [TStruct f_RequestHeader; TB BUInt32; TB BUInt32; TSlice (TB BUInt32); TSlice (TB BUInt32)].   (* 1979 *)
Definition f_SetTriggeringResponse : list ty := [TStruct f_ResponseHeader; TSlice (TB BUInt32); TSlice TDiag; TSlice (TB BUInt32); TSlice TDiag].   (* 1989 *)
Definition f_DeleteMonitoredItemsRequest : list ty := [TStruct f_RequestHeader; TB BUInt32; TSlice (TB BUInt32)].   (* 1999 *)
Definition f_DeleteMonitoredItemsResponse : list ty := [TStruct f_ResponseHeader; TSlice (TB BUInt32); TSlice TDiag].   (* 2007 *)
Definition f_CreateSubscriptionRequest : list ty := [TStruct f_RequestHeader; TB BDouble; TB BUInt32; TB BUInt32; TB BUInt32; TB BBool; TB BByte].   (* 2015 *)
Definition f_CreateSubscriptionResponse : list ty := [TStruct f_ResponseHeader; TB BUInt32; TB BDouble; TB BUInt32; TB BUInt32].   (* 2027 *)
Definition f_ModifySubscriptionRequest : list ty := [TStruct f_RequestHeader; TB BUInt32; TB BDouble; TB BUInt32; TB BUInt32; TB BUInt32; TB BByte].   (* 2037 *)
Definition f_ModifySubscriptionResponse : list ty := [TStruct f_ResponseHeader; TB BDouble; TB BUInt32; TB BUInt32].   (* 2049 *)
Definition f_SetPublishingModeRequest : list ty := [TStruct f_RequestHeader; TB BBool; TSlice (TB BUInt32)].   (* 2058 *)
Definition f_SetPublishingModeResponse : list ty := [TStruct f_ResponseHeader; TSlice (TB BUInt32); TSlice TDiag].   (* 2066 *)
Definition f_NotificationMessage : list ty := [TB BUInt32; TB BTime; TSlice TExt].   (* 2074 *)
Definition f_NotificationData : list ty := [].   (* 2082 *)
Definition f_MonitoredItemNotification : list ty := [TB BUInt32; TDV].   (* 2094 *)
Definition f_DataChangeNotification : list ty := [TSlice (TStruct f_MonitoredItemNotification); TSlice TDiag].   (* 2087 *)
Definition f_EventFieldList : list ty := [TB BUInt32; TSlice TVar].   (* 2107 *)
Definition f_EventNotificationList : list ty := [TSlice (TStruct f_EventFieldList)].   (* 2101 *)
Definition f_StatusChangeNotification : list ty := [TB BUInt32; TDiag].   (* 2120 *)
Definition f_SubscriptionAcknowledgement : list ty := [TB BUInt32; TB BUInt32].   (* 2127 *)
Definition f_PublishRequest : list ty := [TStruct f_RequestHeader; TSlice (TStruct f_SubscriptionAcknowledgement)].   (* 2134 *)
Definition f_PublishResponse : list ty := [TStruct f_ResponseHeader; TB BUInt32; TSlice (TB BUInt32); TB BBool; TStruct f_NotificationMessage; TSlice (TB BUInt32); TSlice TDiag].   (* 2141 *)
Definition f_RepublishRequest : list ty := [TStruct f_RequestHeader; TB BUInt32; TB BUInt32].   (* 2153 *)
Definition f_RepublishResponse : list ty := [TStruct f_ResponseHeader; TStruct f_NotificationMessage].   (* 2161 *)
Definition f_TransferResult : list ty := [TB BUInt32; TSlice (TB BUInt32)].   (* 2168 *)
Definition f_TransferSubscriptionsRequest : list ty := [TStruct f_RequestHeader; TSlice (TB BUInt32); TB BBool].   (* 2175 *)
Definition f_TransferSubscriptionsResponse : list ty := [TStruct f_ResponseHeader; TSlice (TStruct f_TransferResult); TSlice TDiag].   (* 2183 *)
Definition f_DeleteSubscriptionsRequest : list ty := [TStruct f_RequestHeader; TSlice (TB BUInt32)].   (* 2191 *)
Definition f_DeleteSubscriptionsResponse : list ty := [TStruct f_ResponseHeader; TSlice (TB BUInt32); TSlice TDiag].   (* 2198 *)
Definition f_BuildInfo : list ty := [TB BString; TB BString; TB BString; TB BString; TB BString; TB BTime].   (* 2206 *)
Definition f_RedundantServerDataType : list ty := [TB BString; TB BByte; TB BInt32].   (* 2217 *)
Definition f_EndpointURLListDataType : list ty := [TSlice (TB BString)].   (* 2225 *)
Definition f_NetworkGroupDataType : list ty := [TB BString; TSlice (TStruct f_EndpointURLListDataType)].   (* 2231 *)
Definition f_SamplingIntervalDiagnosticsDataType : list ty := [TB BDouble; TB BUInt32; TB BUInt32; TB BUInt32].   (* 2238 *)
Definition f_ServerDiagnosticsSummaryDataType : list ty := [TB BUInt32; TB BUInt32; TB BUInt32; TB BUInt32; TB BUInt32; TB BUInt32; TB BUInt32; TB BUInt32; TB BUInt32; TB BUInt32; TB BUInt32; TB BUInt32].   (* 2247 *)
Definition f_ServerStatusDataType : list ty := [TB BTime; TB BTime; TB BInt32; TStruct f_BuildInfo; TB BUInt32; TB BLText].   (* 2264 *)
Definition f_ServiceCounterDataType : list ty := [TB BUInt32; TB BUInt32].   (* 2337 *)
Definition f_SessionDiagnosticsDataType : list ty := [TB BNodeId; TB BString; TStruct f_ApplicationDescription; TB BString; TB BString; TSlice (TB BString); TB BDouble; TB BUInt32; TB BTime; TB BTime; TB BUInt32; TB BUInt32; TB BUInt32; TStruct f_ServiceCounterDataType; TB BUInt32; TStruct f_ServiceCounterDataType; TStruct f_ServiceCounterDataType; TStruct f_ServiceCounterDataType; TStruct f_ServiceCounterDataType; TStruct f_ServiceCounterDataType; TStruct f_ServiceCounterDataType; TStruct f_ServiceCounterDataType; TStruct f_ServiceCounterDataType; TStruct f_ServiceCounterDataType; TStruct f_ServiceCounterDataType; TStruct f_ServiceCounterDataType; TStruct f_ServiceCounterDataType; TStruct f_ServiceCounterDataType; TStruct f_ServiceCounterDataType; TStruct f_ServiceCounterDataType; TStruct f_ServiceCounterDataType; TStruct f_ServiceCounterDataType; TStruct f_ServiceCounterDataType; TStruct f_ServiceCounterDataType; TStruct f_ServiceCounterDataType; TStruct f_ServiceCounterDataType; TStruct f_ServiceCounterDataType; TStruct f_ServiceCounterDataType; TStruct f_ServiceCounterDataType; TStruct f_ServiceCounterDataType; TStruct f_ServiceCounterDataType; TStruct f_ServiceCounterDataType; TStruct f_ServiceCounterDataType].   (* 2275 *)
Definition f_SessionSecurityDiagnosticsDataType : list ty := [TB BNodeId; TB BString; TSlice (TB BString); TB BString; TB BString; TB BString; TB BInt32; TB BString; TB BString].   (* 2323 *)
Definition f_StatusResult : list ty := [TB BUInt32; TDiag].   (* 2344 *)
Definition f_SubscriptionDiagnosticsDataType : list ty := [TB BNodeId; TB BUInt32; TB BByte; TB BDouble; TB BUInt32; TB BUInt32; TB BUInt32; TB BBool; TB BUInt32; TB BUInt32; TB BUInt32; TB BUInt32; TB BUInt32; TB BUInt32; TB BUInt32; TB BUInt32; TB BUInt32; TB BUInt32; TB BUInt32; TB BUInt32; TB BUInt32; TB BUInt32; TB BUInt32; TB BUInt32; TB BUInt32; TB BUInt32; TB BUInt32; TB BUInt32; TB BUInt32; TB BUInt32; TB BUInt32].   (* 2351 *)
Definition f_ModelChangeStructureDataType : list ty := [TB BNodeId; TB BNodeId; TB BByte].   (* 2387 *)
Definition f_SemanticChangeStructureDataType : list ty := [TB BNodeId; TB BNodeId].   (* 2395 *)
Definition f_Range : list ty := [TB BDouble; TB BDouble].   (* 2402 *)
Definition f_EUInformation : list ty := [TB BString; TB BInt32; TB BLText; TB BLText].   (* 2409 *)
Definition f_ComplexNumberType : list ty := [TB BFloat; TB BFloat].   (* 2418 *)
Definition f_DoubleComplexNumberType : list ty := [TB BDouble; TB BDouble].   (* 2425 *)
Definition f_AxisInformation : list ty := [TStruct f_EUInformation; TStruct f_Range; TB BLText; TB BInt32; TSlice (TB BDouble)].   (* 2432 *)
Definition f_XVType : list ty := [TB BDouble; TB BFloat].   (* 2442 *)
Definition f_ProgramDiagnosticDataType : list ty := [TB BNodeId; TB BString; TB BTime; TB BTime; TB BString; TB BNodeId; TSlice (TStruct f_Argument); TSlice (TStruct f_Argument); TB BTime; TStruct f_StatusResult].   (* 2449 *)
Definition f_ProgramDiagnostic2DataType : list ty := [TB BNodeId; TB BString; TB BTime; TB BTime; TB BString; TB BNodeId; TSlice (TStruct f_Argument); TSlice (TStruct f_Argument); TSlice TVar; TSlice TVar; TB BTime; TStruct f_StatusResult].   (* 2464 *)
Definition f_Annotation : list ty := [TB BString; TB BString; TB BTime].   (* 2481 *)

(** init 2489: name, identifier of the encoding, fields; the position is the number of the type *)
Definition struct_table : list (string * Z * list ty) := [
  ("KeyValuePair"%string, 14846, f_KeyValuePair);
  ("AdditionalParametersType"%string, 17537, f_AdditionalParametersType);
  ("EphemeralKeyType"%string, 17549, f_EphemeralKeyType);
  ("EndpointType"%string, 15671, f_EndpointType);
  ("RationalNumber"%string, 18815, f_RationalNumber);
  ("Vector"%string, 18816, f_Vector);
  ("ThreeDVector"%string, 18817, f_ThreeDVector);
  ("CartesianCoordinates"%string, 18818, f_CartesianCoordinates);
  ("ThreeDCartesianCoordinates"%string, 18819, f_ThreeDCartesianCoordinates);
  ("Orientation"%string, 18820, f_Orientation);
  ("ThreeDOrientation"%string, 18821, f_ThreeDOrientation);
  ("Frame"%string, 18822, f_Frame);
  ("ThreeDFrame"%string, 18823, f_ThreeDFrame);
  ("IdentityMappingRuleType"%string, 15736, f_IdentityMappingRuleType);
  ("CurrencyUnitType"%string, 23507, f_CurrencyUnitType);
  ("TrustListDataType"%string, 12680, f_TrustListDataType);
  ("DecimalDataType"%string, 17863, f_DecimalDataType);
  ("DataTypeSchemaHeader"%string, 15676, f_DataTypeSchemaHeader);
  ("DataTypeDescription"%string, 125, f_DataTypeDescription);
  ("StructureDescription"%string, 126, f_StructureDescription);
  ("EnumDescription"%string, 127, f_EnumDescription);
  ("SimpleTypeDescription"%string, 15421, f_SimpleTypeDescription);
  ("UABinaryFileDataType"%string, 15422, f_UABinaryFileDataType);
  ("DataSetMetaDataType"%string, 124, f_DataSetMetaDataType);
  ("FieldMetaData"%string, 14839, f_FieldMetaData);
  ("ConfigurationVersionDataType"%string, 14847, f_ConfigurationVersionDataType);
  ("PublishedDataSetDataType"%string, 15677, f_PublishedDataSetDataType);
  ("PublishedDataSetSourceDataType"%string, 15678, f_PublishedDataSetSourceDataType);
  ("PublishedVariableDataType"%string, 14323, f_PublishedVariableDataType);
  ("PublishedDataItemsDataType"%string, 15679, f_PublishedDataItemsDataType);
  ("PublishedEventsDataType"%string, 15681, f_PublishedEventsDataType);
  ("DataSetWriterDataType"%string, 15682, f_DataSetWriterDataType);
  ("DataSetWriterTransportDataType"%string, 15683, f_DataSetWriterTransportDataType);
  ("DataSetWriterMessageDataType"%string, 15688, f_DataSetWriterMessageDataType);
  ("PubSubGroupDataType"%string, 15689, f_PubSubGroupDataType);
  ("WriterGroupDataType"%string, 21150, f_WriterGroupDataType);
  ("WriterGroupTransportDataType"%string, 15691, f_WriterGroupTransportDataType);
  ("WriterGroupMessageDataType"%string, 15693, f_WriterGroupMessageDataType);
  ("PubSubConnectionDataType"%string, 15694, f_PubSubConnectionDataType);
  ("ConnectionTransportDataType"%string, 15695, f_ConnectionTransportDataType);
  ("NetworkAddressDataType"%string, 21151, f_NetworkAddressDataType);
  ("NetworkAddressURLDataType"%string, 21152, f_NetworkAddressURLDataType);
  ("ReaderGroupDataType"%string, 21153, f_ReaderGroupDataType);
  ("ReaderGroupTransportDataType"%string, 15701, f_ReaderGroupTransportDataType);
  ("ReaderGroupMessageDataType"%string, 15702, f_ReaderGroupMessageDataType);
  ("DataSetReaderDataType"%string, 15703, f_DataSetReaderDataType);
  ("DataSetReaderTransportDataType"%string, 15705, f_DataSetReaderTransportDataType);
  ("DataSetReaderMessageDataType"%string, 15706, f_DataSetReaderMessageDataType);
  ("SubscribedDataSetDataType"%string, 15707, f_SubscribedDataSetDataType);
  ("TargetVariablesDataType"%string, 15712, f_TargetVariablesDataType);
  ("FieldTargetDataType"%string, 14848, f_FieldTargetDataType);
  ("SubscribedDataSetMirrorDataType"%string, 15713, f_SubscribedDataSetMirrorDataType);
  ("PubSubConfigurationDataType"%string, 21154, f_PubSubConfigurationDataType);
  ("UADPWriterGroupMessageDataType"%string, 15715, f_UADPWriterGroupMessageDataType);
  ("UADPDataSetWriterMessageDataType"%string, 15717, f_UADPDataSetWriterMessageDataType);
  ("UADPDataSetReaderMessageDataType"%string, 15718, f_UADPDataSetReaderMessageDataType);
  ("JSONWriterGroupMessageDataType"%string, 15719, f_JSONWriterGroupMessageDataType);
  ("JSONDataSetWriterMessageDataType"%string, 15724, f_JSONDataSetWriterMessageDataType);
  ("JSONDataSetReaderMessageDataType"%string, 15725, f_JSONDataSetReaderMessageDataType);
  ("DatagramConnectionTransportDataType"%string, 17468, f_DatagramConnectionTransportDataType);
  ("DatagramWriterGroupTransportDataType"%string, 21155, f_DatagramWriterGroupTransportDataType);
  ("BrokerConnectionTransportDataType"%string, 15479, f_BrokerConnectionTransportDataType);
  ("BrokerWriterGroupTransportDataType"%string, 15727, f_BrokerWriterGroupTransportDataType);
  ("BrokerDataSetWriterTransportDataType"%string, 15729, f_BrokerDataSetWriterTransportDataType);
  ("BrokerDataSetReaderTransportDataType"%string, 15733, f_BrokerDataSetReaderTransportDataType);
  ("AliasNameDataType"%string, 23499, f_AliasNameDataType);
  ("RolePermissionType"%string, 128, f_RolePermissionType);
  ("StructureField"%string, 14844, f_StructureField);
  ("StructureDefinition"%string, 122, f_StructureDefinition);
  ("EnumDefinition"%string, 123, f_EnumDefinition);
  ("Argument"%string, 298, f_Argument);
  ("EnumValueType"%string, 8251, f_EnumValueType);
  ("EnumField"%string, 14845, f_EnumField);
  ("OptionSet"%string, 12765, f_OptionSet);
  ("Union"%string, 12766, f_Union);
  ("TimeZoneDataType"%string, 8917, f_TimeZoneDataType);
  ("ApplicationDescription"%string, 310, f_ApplicationDescription);
  ("RequestHeader"%string, 391, f_RequestHeader);
  ("ResponseHeader"%string, 394, f_ResponseHeader);
  ("ServiceFault"%string, 397, f_ServiceFault);
  ("SessionlessInvokeRequestType"%string, 15903, f_SessionlessInvokeRequestType);
  ("SessionlessInvokeResponseType"%string, 21001, f_SessionlessInvokeResponseType);
  ("FindServersRequest"%string, 422, f_FindServersRequest);
  ("FindServersResponse"%string, 425, f_FindServersResponse);
  ("ServerOnNetwork"%string, 12207, f_ServerOnNetwork);
  ("FindServersOnNetworkRequest"%string, 12208, f_FindServersOnNetworkRequest);
  ("FindServersOnNetworkResponse"%string, 12209, f_FindServersOnNetworkResponse);
  ("UserTokenPolicy"%string, 306, f_UserTokenPolicy);
  ("EndpointDescription"%string, 314, f_EndpointDescription);
  ("GetEndpointsRequest"%string, 428, f_GetEndpointsRequest);
  ("GetEndpointsResponse"%string, 431, f_GetEndpointsResponse);
  ("RegisteredServer"%string, 434, f_RegisteredServer);
  ("RegisterServerRequest"%string, 437, f_RegisterServerRequest);
  ("RegisterServerResponse"%string, 440, f_RegisterServerResponse);
  ("DiscoveryConfiguration"%string, 12900, f_DiscoveryConfiguration);
  ("MdnsDiscoveryConfiguration"%string, 12901, f_MdnsDiscoveryConfiguration);
  ("RegisterServer2Request"%string, 12211, f_RegisterServer2Request);
  ("RegisterServer2Response"%string, 12212, f_RegisterServer2Response);
  ("ChannelSecurityToken"%string, 443, f_ChannelSecurityToken);
  ("OpenSecureChannelRequest"%string, 446, f_OpenSecureChannelRequest);
  ("OpenSecureChannelResponse"%string, 449, f_OpenSecureChannelResponse);
  ("CloseSecureChannelRequest"%string, 452, f_CloseSecureChannelRequest);
  ("CloseSecureChannelResponse"%string, 455, f_CloseSecureChannelResponse);
  ("SignedSoftwareCertificate"%string, 346, f_SignedSoftwareCertificate);
  ("SignatureData"%string, 458, f_SignatureData);
  ("CreateSessionRequest"%string, 461, f_CreateSessionRequest);
  ("CreateSessionResponse"%string, 464, f_CreateSessionResponse);
  ("UserIdentityToken"%string, 318, f_UserIdentityToken);
  ("AnonymousIdentityToken"%string, 321, f_AnonymousIdentityToken);
  ("UserNameIdentityToken"%string, 324, f_UserNameIdentityToken);
  ("X509IdentityToken"%string, 327, f_X509IdentityToken);
  ("IssuedIdentityToken"%string, 940, f_IssuedIdentityToken);
  ("ActivateSessionRequest"%string, 467, f_ActivateSessionRequest);
  ("ActivateSessionResponse"%string, 470, f_ActivateSessionResponse);
  ("CloseSessionRequest"%string, 473, f_CloseSessionRequest);
  ("CloseSessionResponse"%string, 476, f_CloseSessionResponse);
  ("CancelRequest"%string, 479, f_CancelRequest);
  ("CancelResponse"%string, 482, f_CancelResponse);
  ("NodeAttributes"%string, 351, f_NodeAttributes);
  ("ObjectAttributes"%string, 354, f_ObjectAttributes);
  ("VariableAttributes"%string, 357, f_VariableAttributes);
  ("MethodAttributes"%string, 360, f_MethodAttributes);
  ("ObjectTypeAttributes"%string, 363, f_ObjectTypeAttributes);
  ("VariableTypeAttributes"%string, 366, f_VariableTypeAttributes);
  ("ReferenceTypeAttributes"%string, 369, f_ReferenceTypeAttributes);
  ("DataTypeAttributes"%string, 372, f_DataTypeAttributes);
  ("ViewAttributes"%string, 375, f_ViewAttributes);
  ("GenericAttributeValue"%string, 17610, f_GenericAttributeValue);
  ("GenericAttributes"%string, 17611, f_GenericAttributes);
  ("AddNodesItem"%string, 378, f_AddNodesItem);
  ("AddNodesResult"%string, 485, f_AddNodesResult);
  ("AddNodesRequest"%string, 488, f_AddNodesRequest);
  ("AddNodesResponse"%string, 491, f_AddNodesResponse);
  ("AddReferencesItem"%string, 381, f_AddReferencesItem);
  ("AddReferencesRequest"%string, 494, f_AddReferencesRequest);
  ("AddReferencesResponse"%string, 497, f_AddReferencesResponse);
  ("DeleteNodesItem"%string, 384, f_DeleteNodesItem);
  ("DeleteNodesRequest"%string, 500, f_DeleteNodesRequest);
  ("DeleteNodesResponse"%string, 503, f_DeleteNodesResponse);
  ("DeleteReferencesItem"%string, 387, f_DeleteReferencesItem);
  ("DeleteReferencesRequest"%string, 506, f_DeleteReferencesRequest);
  ("DeleteReferencesResponse"%string, 509, f_DeleteReferencesResponse);
  ("ViewDescription"%string, 513, f_ViewDescription);
  ("BrowseDescription"%string, 516, f_BrowseDescription);
  ("ReferenceDescription"%string, 520, f_ReferenceDescription);
  ("BrowseResult"%string, 524, f_BrowseResult);
  ("BrowseRequest"%string, 527, f_BrowseRequest);
  ("BrowseResponse"%string, 530, f_BrowseResponse);
  ("BrowseNextRequest"%string, 533, f_BrowseNextRequest);
  ("BrowseNextResponse"%string, 536, f_BrowseNextResponse);
  ("RelativePathElement"%string, 539, f_RelativePathElement);
  ("RelativePath"%string, 542, f_RelativePath);
  ("BrowsePath"%string, 545, f_BrowsePath);
  ("BrowsePathTarget"%string, 548, f_BrowsePathTarget);
  ("BrowsePathResult"%string, 551, f_BrowsePathResult);
  ("TranslateBrowsePathsToNodeIDsRequest"%string, 554, f_TranslateBrowsePathsToNodeIDsRequest);
  ("TranslateBrowsePathsToNodeIDsResponse"%string, 557, f_TranslateBrowsePathsToNodeIDsResponse);
  ("RegisterNodesRequest"%string, 560, f_RegisterNodesRequest);
  ("RegisterNodesResponse"%string, 563, f_RegisterNodesResponse);
  ("UnregisterNodesRequest"%string, 566, f_UnregisterNodesRequest);
  ("UnregisterNodesResponse"%string, 569, f_UnregisterNodesResponse);
  ("EndpointConfiguration"%string, 333, f_EndpointConfiguration);
  ("QueryDataDescription"%string, 572, f_QueryDataDescription);
  ("NodeTypeDescription"%string, 575, f_NodeTypeDescription);
  ("QueryDataSet"%string, 579, f_QueryDataSet);
  ("NodeReference"%string, 582, f_NodeReference);
  ("ContentFilterElement"%string, 585, f_ContentFilterElement);
  ("ContentFilter"%string, 588, f_ContentFilter);
  ("FilterOperand"%string, 591, f_FilterOperand);
  ("ElementOperand"%string, 594, f_ElementOperand);
  ("LiteralOperand"%string, 597, f_LiteralOperand);
  ("AttributeOperand"%string, 600, f_AttributeOperand);
  ("SimpleAttributeOperand"%string, 603, f_SimpleAttributeOperand);
  ("ContentFilterElementResult"%string, 606, f_ContentFilterElementResult);
  ("ContentFilterResult"%string, 609, f_ContentFilterResult);
  ("ParsingResult"%string, 612, f_ParsingResult);
  ("QueryFirstRequest"%string, 615, f_QueryFirstRequest);
  ("QueryFirstResponse"%string, 618, f_QueryFirstResponse);
  ("QueryNextRequest"%string, 621, f_QueryNextRequest);
  ("QueryNextResponse"%string, 624, f_QueryNextResponse);
  ("ReadValueID"%string, 628, f_ReadValueID);
  ("ReadRequest"%string, 631, f_ReadRequest);
  ("ReadResponse"%string, 634, f_ReadResponse);
  ("HistoryReadValueID"%string, 637, f_HistoryReadValueID);
  ("HistoryReadResult"%string, 640, f_HistoryReadResult);
  ("HistoryReadDetails"%string, 643, f_HistoryReadDetails);
  ("ReadEventDetails"%string, 646, f_ReadEventDetails);
  ("ReadRawModifiedDetails"%string, 649, f_ReadRawModifiedDetails);
  ("ReadProcessedDetails"%string, 652, f_ReadProcessedDetails);
  ("ReadAtTimeDetails"%string, 655, f_ReadAtTimeDetails);
  ("ReadAnnotationDataDetails"%string, 23500, f_ReadAnnotationDataDetails);
  ("HistoryData"%string, 658, f_HistoryData);
  ("ModificationInfo"%string, 11226, f_ModificationInfo);
  ("HistoryModifiedData"%string, 11227, f_HistoryModifiedData);
  ("HistoryEvent"%string, 661, f_HistoryEvent);
  ("HistoryReadRequest"%string, 664, f_HistoryReadRequest);
  ("HistoryReadResponse"%string, 667, f_HistoryReadResponse);
  ("WriteValue"%string, 670, f_WriteValue);
  ("WriteRequest"%string, 673, f_WriteRequest);
  ("WriteResponse"%string, 676, f_WriteResponse);
  ("HistoryUpdateDetails"%string, 679, f_HistoryUpdateDetails);
  ("UpdateDataDetails"%string, 682, f_UpdateDataDetails);
  ("UpdateStructureDataDetails"%string, 11300, f_UpdateStructureDataDetails);
  ("UpdateEventDetails"%string, 685, f_UpdateEventDetails);
  ("DeleteRawModifiedDetails"%string, 688, f_DeleteRawModifiedDetails);
  ("DeleteAtTimeDetails"%string, 691, f_DeleteAtTimeDetails);
  ("DeleteEventDetails"%string, 694, f_DeleteEventDetails);
  ("HistoryUpdateResult"%string, 697, f_HistoryUpdateResult);
  ("HistoryUpdateRequest"%string, 700, f_HistoryUpdateRequest);
  ("HistoryUpdateResponse"%string, 703, f_HistoryUpdateResponse);
  ("CallMethodRequest"%string, 706, f_CallMethodRequest);
  ("CallMethodResult"%string, 709, f_CallMethodResult);
  ("CallRequest"%string, 712, f_CallRequest);
  ("CallResponse"%string, 715, f_CallResponse);
  ("MonitoringFilter"%string, 721, f_MonitoringFilter);
  ("DataChangeFilter"%string, 724, f_DataChangeFilter);
  ("EventFilter"%string, 727, f_EventFilter);
  ("AggregateConfiguration"%string, 950, f_AggregateConfiguration);
  ("AggregateFilter"%string, 730, f_AggregateFilter);
  ("MonitoringFilterResult"%string, 733, f_MonitoringFilterResult);
  ("EventFilterResult"%string, 736, f_EventFilterResult);
  ("AggregateFilterResult"%string, 739, f_AggregateFilterResult);
  ("MonitoringParameters"%string, 742, f_MonitoringParameters);
  ("MonitoredItemCreateRequest"%string, 745, f_MonitoredItemCreateRequest);
  ("MonitoredItemCreateResult"%string, 748, f_MonitoredItemCreateResult);
  ("CreateMonitoredItemsRequest"%string, 751, f_CreateMonitoredItemsRequest);
  ("CreateMonitoredItemsResponse"%string, 754, f_CreateMonitoredItemsResponse);
  ("MonitoredItemModifyRequest"%string, 757, f_MonitoredItemModifyRequest);
  ("MonitoredItemModifyResult"%string, 760, f_MonitoredItemModifyResult);
  ("ModifyMonitoredItemsRequest"%string, 763, f_ModifyMonitoredItemsRequest);
  ("ModifyMonitoredItemsResponse"%string, 766, f_ModifyMonitoredItemsResponse);
  ("SetMonitoringModeRequest"%string, 769, f_SetMonitoringModeRequest);
  ("SetMonitoringModeResponse"%string, 772, f_SetMonitoringModeResponse);
  ("SetTriggeringRequest"%string, 775, f_SetTriggeringRequest);
  ("SetTriggeringResponse"%string, 778, f_SetTriggeringResponse);
  ("DeleteMonitoredItemsRequest"%string, 781, f_DeleteMonitoredItemsRequest);
  ("DeleteMonitoredItemsResponse"%string, 784, f_DeleteMonitoredItemsResponse);
  ("CreateSubscriptionRequest"%string, 787, f_CreateSubscriptionRequest);
  ("CreateSubscriptionResponse"%string, 790, f_CreateSubscriptionResponse);
  ("ModifySubscriptionRequest"%string, 793, f_ModifySubscriptionRequest);
  ("ModifySubscriptionResponse"%string, 796, f_ModifySubscriptionResponse);
  ("SetPublishingModeRequest"%string, 799, f_SetPublishingModeRequest);
  ("SetPublishingModeResponse"%string, 802, f_SetPublishingModeResponse);
  ("NotificationMessage"%string, 805, f_NotificationMessage);
  ("NotificationData"%string, 947, f_NotificationData);
  ("DataChangeNotification"%string, 811, f_DataChangeNotification);
  ("MonitoredItemNotification"%string, 808, f_MonitoredItemNotification);
  ("EventNotificationList"%string, 916, f_EventNotificationList);
  ("EventFieldList"%string, 919, f_EventFieldList);
  ("HistoryEventFieldList"%string, 922, f_HistoryEventFieldList);
  ("StatusChangeNotification"%string, 820, f_StatusChangeNotification);
  ("SubscriptionAcknowledgement"%string, 823, f_SubscriptionAcknowledgement);
  ("PublishRequest"%string, 826, f_PublishRequest);
  ("PublishResponse"%string, 829, f_PublishResponse);
  ("RepublishRequest"%string, 832, f_RepublishRequest);
  ("RepublishResponse"%string, 835, f_RepublishResponse);
  ("TransferResult"%string, 838, f_TransferResult);
  ("TransferSubscriptionsRequest"%string, 841, f_TransferSubscriptionsRequest);
  ("TransferSubscriptionsResponse"%string, 844, f_TransferSubscriptionsResponse);
  ("DeleteSubscriptionsRequest"%string, 847, f_DeleteSubscriptionsRequest);
  ("DeleteSubscriptionsResponse"%string, 850, f_DeleteSubscriptionsResponse);
  ("BuildInfo"%string, 340, f_BuildInfo);
  ("RedundantServerDataType"%string, 855, f_RedundantServerDataType);
  ("EndpointURLListDataType"%string, 11957, f_EndpointURLListDataType);
  ("NetworkGroupDataType"%string, 11958, f_NetworkGroupDataType);
  ("SamplingIntervalDiagnosticsDataType"%string, 858, f_SamplingIntervalDiagnosticsDataType);
  ("ServerDiagnosticsSummaryDataType"%string, 861, f_ServerDiagnosticsSummaryDataType);
  ("ServerStatusDataType"%string, 864, f_ServerStatusDataType);
  ("SessionDiagnosticsDataType"%string, 867, f_SessionDiagnosticsDataType);
  ("SessionSecurityDiagnosticsDataType"%string, 870, f_SessionSecurityDiagnosticsDataType);
  ("ServiceCounterDataType"%string, 873, f_ServiceCounterDataType);
  ("StatusResult"%string, 301, f_StatusResult);
  ("SubscriptionDiagnosticsDataType"%string, 876, f_SubscriptionDiagnosticsDataType);
  ("ModelChangeStructureDataType"%string, 879, f_ModelChangeStructureDataType);
  ("SemanticChangeStructureDataType"%string, 899, f_SemanticChangeStructureDataType);
  ("Range"%string, 886, f_Range);
  ("EUInformation"%string, 889, f_EUInformation);
  ("ComplexNumberType"%string, 12181, f_ComplexNumberType);
  ("DoubleComplexNumberType"%string, 12182, f_DoubleComplexNumberType);
  ("AxisInformation"%string, 12089, f_AxisInformation);
  ("XVType"%string, 12090, f_XVType);
  ("ProgramDiagnosticDataType"%string, 896, f_ProgramDiagnosticDataType);
  ("ProgramDiagnostic2DataType"%string, 15397, f_ProgramDiagnostic2DataType);
  ("Annotation"%string, 893, f_Annotation)
].
