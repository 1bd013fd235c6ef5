(** The other structures of the standard (OPC 10000-4, -5, -6, -8, -9, -10, -11, -14): name (spelled as in the library),
    identifier of the binary encoding, fields in order. A field whose type may be replaced by a subtype is an
    ExtensionObject.
    Where this comes from: written by hand from memory of the standard, as no copy of it is available here, and after the
    library's own table (StructTable.v) had been read, from which the names and identifiers are taken. It is not generated
    from the code, but it is not an independent transcription either: agreement with the code is weaker evidence than a
    comparison with the published schema would be. *)
From Coq Require Import ZArith List String.
From Verif Require Import Prim Value StructSpec.
Import ListNotations.
Open Scope Z_scope.

Definition SByte' := TB BSByte.
Definition Int16' := TB BInt16.
Definition UInt16' := TB BUInt16.
Definition Int64' := TB BInt64.
Definition Float' := TB BFloat.
Definition Mask' := TB BInt32.     (* sets of flags of 32 bits: the four bytes, see c115_masks *)

(** with the type of the flags of fields, and that of Guids, left open: see standard_types *)
Section Types.
Variables Flags' Guid' : ty.

Definition KeyValuePair := Of [QName'; TVar].
Definition StructureField := Of [Text'; LText'; Node'; Int32'; Many UInt32'; UInt32'; Bool'].
Definition StructureDefinition := Of [Node'; Node'; Enum'; Many StructureField].
Definition EnumField := Of [Int64'; LText'; LText'; Text'].
Definition EnumDefinition := Of [Many EnumField].
Definition StructureDescription := Of [Node'; QName'; StructureDefinition].
Definition EnumDescription := Of [Node'; QName'; EnumDefinition; Byte'].
Definition SimpleTypeDescription := Of [Node'; QName'; Node'; Byte'].
Definition schema_header := [Many Text'; Many StructureDescription; Many EnumDescription; Many SimpleTypeDescription].
Definition FieldMetaData := [Text'; LText'; Flags'; Byte'; Node'; Int32'; Many UInt32'; UInt32'; Guid'; Many KeyValuePair].
Definition ConfigurationVersion := Of [UInt32'; UInt32'].
Definition DataSetMetaData := schema_header ++ [Text'; LText'; Many (Of FieldMetaData); Guid'; ConfigurationVersion].
Definition PublishedDataSet := [Text'; Many Text'; Of DataSetMetaData; Many KeyValuePair; TExt].
Definition PublishedVariable := Of [Node'; UInt32'; Double'; UInt32'; Double'; Text'; TVar; Many QName'].
Definition DataSetWriter := Of [Text'; Bool'; UInt16'; Mask'; UInt32'; Text'; Many KeyValuePair; TExt; TExt].
Definition pubsub_group := [Text'; Bool'; Enum'; Text'; Many EndpointDescription; UInt32'; Many KeyValuePair].
Definition WriterGroup := pubsub_group ++ [UInt16'; Double'; Double'; Byte'; Many Text'; Text'; TExt; TExt; Many DataSetWriter].
Definition DataSetReader := [Text'; Bool'; TVar; UInt16'; UInt16'; Of DataSetMetaData; Mask'; Double'; UInt32'; Text'; Enum'; Text';
  Many EndpointDescription; Many KeyValuePair; TExt; TExt; TExt].
Definition ReaderGroup := pubsub_group ++ [TExt; TExt; Many (Of DataSetReader)].
Definition PubSubConnection := [Text'; Bool'; TVar; Text'; TExt; Many KeyValuePair; TExt; Many (Of WriterGroup); Many (Of ReaderGroup)].
Definition FieldTarget := [Guid'; Text'; Node'; UInt32'; Text'; Enum'; TVar].
Definition RolePermission := Of [Node'; Mask'].
Definition node_attributes := [UInt32'; LText'; LText'; UInt32'; UInt32'].
Definition ThreeD := [Double'; Double'; Double'].
Definition ModificationInfo := Of [Time'; Enum'; Text'].
Definition EndpointUrlList := Of [Many Text'].
Definition ServiceCounter := Of [UInt32'; UInt32'].
Definition StatusResult := Of [Status'; TDiag].
Definition Argument := Of [Text'; Node'; Int32'; Many UInt32'; LText'].
Definition Range := Of [Double'; Double'].
Definition EUInformation := Of [Text'; Int32'; LText'; LText'].
Definition fields (t : ty) : list ty := match t with TStruct l => l | _ => [] end.

Definition types_with : list (string * Z * list ty) := [
  ("KeyValuePair"%string, 14846, [QName'; TVar]);
  ("AdditionalParametersType"%string, 17537, [Many KeyValuePair]);
  ("EphemeralKeyType"%string, 17549, [Bin'; Bin']);
  ("EndpointType"%string, 15671, [Text'; Enum'; Text'; Text']);
  ("RationalNumber"%string, 18815, [Int32'; UInt32']);
  ("Vector"%string, 18816, []);
  ("ThreeDVector"%string, 18817, ThreeD);
  ("CartesianCoordinates"%string, 18818, []);
  ("ThreeDCartesianCoordinates"%string, 18819, ThreeD);
  ("Orientation"%string, 18820, []);
  ("ThreeDOrientation"%string, 18821, ThreeD);
  ("Frame"%string, 18822, []);
  ("ThreeDFrame"%string, 18823, [Of ThreeD; Of ThreeD]);
  ("IdentityMappingRuleType"%string, 15736, [Enum'; Text']);
  ("CurrencyUnitType"%string, 23507, [Int16'; SByte'; Text'; LText']);
  ("TrustListDataType"%string, 12680, [UInt32'; Many Bin'; Many Bin'; Many Bin'; Many Bin']);
  ("DecimalDataType"%string, 17863, [Int16'; Bin']);
  ("DataTypeSchemaHeader"%string, 15676, schema_header);
  ("DataTypeDescription"%string, 125, [Node'; QName']);
  ("StructureDescription"%string, 126, fields StructureDescription);
  ("EnumDescription"%string, 127, fields EnumDescription);
  ("SimpleTypeDescription"%string, 15421, fields SimpleTypeDescription);
  ("UABinaryFileDataType"%string, 15422, schema_header ++ [Text'; Many KeyValuePair; TVar]);
  ("DataSetMetaDataType"%string, 124, DataSetMetaData);
  ("FieldMetaData"%string, 14839, FieldMetaData);
  ("ConfigurationVersionDataType"%string, 14847, fields ConfigurationVersion);
  ("PublishedDataSetDataType"%string, 15677, PublishedDataSet);
  ("PublishedDataSetSourceDataType"%string, 15678, []);
  ("PublishedVariableDataType"%string, 14323, fields PublishedVariable);
  ("PublishedDataItemsDataType"%string, 15679, [Many PublishedVariable]);
  ("PublishedEventsDataType"%string, 15681, [Node'; Many SimpleAttributeOperand; ContentFilter]);
  ("DataSetWriterDataType"%string, 15682, fields DataSetWriter);
  ("DataSetWriterTransportDataType"%string, 15683, []);
  ("DataSetWriterMessageDataType"%string, 15688, []);
  ("PubSubGroupDataType"%string, 15689, pubsub_group);
  ("WriterGroupDataType"%string, 21150, WriterGroup);
  ("WriterGroupTransportDataType"%string, 15691, []);
  ("WriterGroupMessageDataType"%string, 15693, []);
  ("PubSubConnectionDataType"%string, 15694, PubSubConnection);
  ("ConnectionTransportDataType"%string, 15695, []);
  ("NetworkAddressDataType"%string, 21151, [Text']);
  ("NetworkAddressURLDataType"%string, 21152, [Text'; Text']);
  ("ReaderGroupDataType"%string, 21153, ReaderGroup);
  ("ReaderGroupTransportDataType"%string, 15701, []);
  ("ReaderGroupMessageDataType"%string, 15702, []);
  ("DataSetReaderDataType"%string, 15703, DataSetReader);
  ("DataSetReaderTransportDataType"%string, 15705, []);
  ("DataSetReaderMessageDataType"%string, 15706, []);
  ("SubscribedDataSetDataType"%string, 15707, []);
  ("TargetVariablesDataType"%string, 15712, [Many (Of FieldTarget)]);
  ("FieldTargetDataType"%string, 14848, FieldTarget);
  ("SubscribedDataSetMirrorDataType"%string, 15713, [Text'; Many RolePermission]);
  ("PubSubConfigurationDataType"%string, 21154, [Many (Of PublishedDataSet); Many (Of PubSubConnection); Bool']);
  ("UADPWriterGroupMessageDataType"%string, 15715, [UInt32'; Enum'; Mask'; Double'; Many Double']);
  ("UADPDataSetWriterMessageDataType"%string, 15717, [Mask'; UInt16'; UInt16'; UInt16']);
  ("UADPDataSetReaderMessageDataType"%string, 15718, [UInt32'; UInt16'; UInt16'; Guid'; Mask'; Mask'; Double'; Double'; Double']);
  ("JSONWriterGroupMessageDataType"%string, 15719, [Mask']);
  ("JSONDataSetWriterMessageDataType"%string, 15724, [Mask']);
  ("JSONDataSetReaderMessageDataType"%string, 15725, [Mask'; Mask']);
  ("DatagramConnectionTransportDataType"%string, 17468, [TExt]);
  ("DatagramWriterGroupTransportDataType"%string, 21155, [Byte'; Double']);
  ("BrokerConnectionTransportDataType"%string, 15479, [Text'; Text']);
  ("BrokerWriterGroupTransportDataType"%string, 15727, [Text'; Text'; Text'; Enum']);
  ("BrokerDataSetWriterTransportDataType"%string, 15729, [Text'; Text'; Text'; Enum'; Text'; Double']);
  ("BrokerDataSetReaderTransportDataType"%string, 15733, [Text'; Text'; Text'; Enum'; Text']);
  ("AliasNameDataType"%string, 23499, [QName'; Many ExpNode']);
  ("RolePermissionType"%string, 128, fields RolePermission);
  ("StructureField"%string, 14844, fields StructureField);
  ("StructureDefinition"%string, 122, fields StructureDefinition);
  ("EnumDefinition"%string, 123, fields EnumDefinition);
  ("EnumValueType"%string, 8251, [Int64'; LText'; LText']);
  ("EnumField"%string, 14845, fields EnumField);
  ("OptionSet"%string, 12765, [Bin'; Bin']);
  ("Union"%string, 12766, []);
  ("TimeZoneDataType"%string, 8917, [Int16'; Bool']);
  ("ApplicationDescription"%string, 310, fields ApplicationDescription);
  ("RequestHeader"%string, 391, fields RequestHeader);
  ("ResponseHeader"%string, 394, fields ResponseHeader);
  ("ServiceFault"%string, 397, [ResponseHeader]);
  ("SessionlessInvokeResponseType"%string, 21001, [Many Text'; Many Text'; UInt32']);
  ("ServerOnNetwork"%string, 12207, fields ServerOnNetwork);
  ("UserTokenPolicy"%string, 306, fields UserTokenPolicy);
  ("EndpointDescription"%string, 314, fields EndpointDescription);
  ("RegisteredServer"%string, 434, fields RegisteredServer);
  ("DiscoveryConfiguration"%string, 12900, []);
  ("MdnsDiscoveryConfiguration"%string, 12901, [Text'; Many Text']);
  ("ChannelSecurityToken"%string, 443, fields ChannelSecurityToken);
  ("SignedSoftwareCertificate"%string, 346, fields SignedSoftwareCertificate);
  ("SignatureData"%string, 458, fields SignatureData);
  ("UserIdentityToken"%string, 318, [Text']);
  ("NodeAttributes"%string, 351, node_attributes);
  ("ObjectAttributes"%string, 354, node_attributes ++ [Byte']);
  ("VariableAttributes"%string, 357, node_attributes ++ [TVar; Node'; Int32'; Many UInt32'; Byte'; Byte'; Double'; Bool']);
  ("MethodAttributes"%string, 360, node_attributes ++ [Bool'; Bool']);
  ("ObjectTypeAttributes"%string, 363, node_attributes ++ [Bool']);
  ("VariableTypeAttributes"%string, 366, node_attributes ++ [TVar; Node'; Int32'; Many UInt32'; Bool']);
  ("ReferenceTypeAttributes"%string, 369, node_attributes ++ [Bool'; Bool'; LText']);
  ("DataTypeAttributes"%string, 372, node_attributes ++ [Bool']);
  ("ViewAttributes"%string, 375, node_attributes ++ [Bool'; Byte']);
  ("GenericAttributeValue"%string, 17610, [UInt32'; TVar]);
  ("GenericAttributes"%string, 17611, node_attributes ++ [Many (Of [UInt32'; TVar])]);
  ("AddNodesItem"%string, 378, fields AddNodesItem);
  ("AddNodesResult"%string, 485, fields AddNodesResult);
  ("AddReferencesItem"%string, 381, fields AddReferencesItem);
  ("DeleteNodesItem"%string, 384, fields DeleteNodesItem);
  ("DeleteReferencesItem"%string, 387, fields DeleteReferencesItem);
  ("ViewDescription"%string, 513, fields ViewDescription);
  ("BrowseDescription"%string, 516, fields BrowseDescription);
  ("ReferenceDescription"%string, 520, fields ReferenceDescription);
  ("BrowseResult"%string, 524, fields BrowseResult);
  ("RelativePathElement"%string, 539, fields RelativePathElement);
  ("RelativePath"%string, 542, fields RelativePath);
  ("BrowsePath"%string, 545, fields BrowsePath);
  ("BrowsePathTarget"%string, 548, fields BrowsePathTarget);
  ("BrowsePathResult"%string, 551, fields BrowsePathResult);
  ("EndpointConfiguration"%string, 333, [Int32'; Bool'; Int32'; Int32'; Int32'; Int32'; Int32'; Int32'; Int32']);
  ("QueryDataDescription"%string, 572, fields QueryDataDescription);
  ("NodeTypeDescription"%string, 575, fields NodeTypeDescription);
  ("QueryDataSet"%string, 579, fields QueryDataSet);
  ("NodeReference"%string, 582, [Node'; Node'; Bool'; Many Node']);
  ("ContentFilterElement"%string, 585, fields ContentFilterElement);
  ("ContentFilter"%string, 588, fields ContentFilter);
  ("FilterOperand"%string, 591, []);
  ("ContentFilterElementResult"%string, 606, fields ContentFilterElementResult);
  ("ContentFilterResult"%string, 609, fields ContentFilterResult);
  ("ParsingResult"%string, 612, fields ParsingResult);
  ("ReadValueID"%string, 628, fields ReadValueId);
  ("HistoryReadValueID"%string, 637, fields HistoryReadValueId);
  ("HistoryReadResult"%string, 640, fields HistoryReadResult);
  ("HistoryReadDetails"%string, 643, []);
  ("ReadAnnotationDataDetails"%string, 23500, [Many Time']);
  ("ModificationInfo"%string, 11226, fields ModificationInfo);
  ("HistoryModifiedData"%string, 11227, [Many TDV; Many ModificationInfo]);
  ("WriteValue"%string, 670, fields WriteValue);
  ("HistoryUpdateDetails"%string, 679, [Node']);
  ("UpdateStructureDataDetails"%string, 11300, [Node'; Enum'; Many TDV]);
  ("HistoryUpdateResult"%string, 697, fields HistoryUpdateResult);
  ("CallMethodRequest"%string, 706, fields CallMethodRequest);
  ("CallMethodResult"%string, 709, fields CallMethodResult);
  ("MonitoringFilter"%string, 721, []);
  ("AggregateConfiguration"%string, 950, fields AggregateConfiguration);
  ("MonitoringFilterResult"%string, 733, []);
  ("AggregateFilterResult"%string, 739, [Time'; Double'; AggregateConfiguration]);
  ("MonitoringParameters"%string, 742, fields MonitoringParameters);
  ("MonitoredItemCreateRequest"%string, 745, fields MonitoredItemCreateRequest);
  ("MonitoredItemCreateResult"%string, 748, fields MonitoredItemCreateResult);
  ("MonitoredItemModifyRequest"%string, 757, fields MonitoredItemModifyRequest);
  ("MonitoredItemModifyResult"%string, 760, fields MonitoredItemModifyResult);
  ("NotificationMessage"%string, 805, fields NotificationMessage);
  ("NotificationData"%string, 947, []);
  ("MonitoredItemNotification"%string, 808, fields MonitoredItemNotification);
  ("EventFieldList"%string, 919, fields EventFieldList);
  ("HistoryEventFieldList"%string, 922, fields HistoryEventFieldList);
  ("SubscriptionAcknowledgement"%string, 823, fields SubscriptionAcknowledgement);
  ("TransferResult"%string, 838, fields TransferResult);
  ("BuildInfo"%string, 340, [Text'; Text'; Text'; Text'; Text'; Time']);
  ("RedundantServerDataType"%string, 855, [Text'; Byte'; Enum']);
  ("EndpointURLListDataType"%string, 11957, fields EndpointUrlList);
  ("NetworkGroupDataType"%string, 11958, [Text'; Many EndpointUrlList]);
  ("SamplingIntervalDiagnosticsDataType"%string, 858, [Double'; UInt32'; UInt32'; UInt32']);
  ("ServerDiagnosticsSummaryDataType"%string, 861, repeat UInt32' 12);
  (* 28 services, from Read to UnregisterNodes *)
  ("SessionDiagnosticsDataType"%string, 867, [Node'; Text'; ApplicationDescription; Text'; Text'; Many Text'; Double'; UInt32'; Time'; Time';
     UInt32'; UInt32'; UInt32'; ServiceCounter; UInt32'] ++ repeat ServiceCounter 28);
  ("SessionSecurityDiagnosticsDataType"%string, 870, [Node'; Text'; Many Text'; Text'; Text'; Text'; Enum'; Text'; Bin']);
  ("ServiceCounterDataType"%string, 873, fields ServiceCounter);
  ("StatusResult"%string, 301, fields StatusResult);
  (* 23 counters, from ModifyCount to EventQueueOverflowCount *)
  ("SubscriptionDiagnosticsDataType"%string, 876, [Node'; UInt32'; Byte'; Double'; UInt32'; UInt32'; UInt32'; Bool'] ++ repeat UInt32' 23);
  ("ModelChangeStructureDataType"%string, 879, [Node'; Node'; Byte']);
  ("SemanticChangeStructureDataType"%string, 899, [Node'; Node']);
  ("ComplexNumberType"%string, 12181, [Float'; Float']);
  ("DoubleComplexNumberType"%string, 12182, [Double'; Double']);
  ("AxisInformation"%string, 12089, [EUInformation; Range; LText'; Enum'; Many Double']);
  ("XVType"%string, 12090, [Double'; Float']);
  ("ProgramDiagnosticDataType"%string, 896, [Node'; Text'; Time'; Time'; Text'; Node'; Many Argument; Many Argument; Time'; StatusResult]);
  ("ProgramDiagnostic2DataType"%string, 15397, [Node'; Text'; Time'; Time'; Text'; Node'; Many Argument; Many Argument; Many TVar; Many TVar; Time'; StatusResult]);
  ("Annotation"%string, 893, [Text'; Text'; Time'])
].
End Types.

(** The standard: DataSetFieldFlags is a UInt16 (OPC 10000-14), a Guid is a Guid *)
Definition standard_types := types_with UInt16' (TB BGuid).

(** not compared: its author was not sure of the standard's layout (UrisVersion) *)
Definition not_compared : list string := ["SessionlessInvokeRequestType"%string].

(** the names and identifiers of all the structures of StructSpec.v and of this file *)
Definition standard_names : list string :=
  flat_map (fun s => match s with (n, _, _) => [(n ++ "Request")%string; (n ++ "Response")%string] end) standard_services ++
  map (fun e => fst (fst e)) standard_types.
Definition standard_ids : list Z := fst standard_fault :: map fst standard_parameters.
