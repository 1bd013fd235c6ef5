(** The enumerations of the standard (OPC 10000-3, -4, -5, -6, -8, -11, -14), not as numbers but by what makes them: names
    counted from a first value, or sets of flags with a name for each bit.
    Where this comes from: written by hand from memory of the standard, as no copy of it is available here, with the
    names spelled as in the library, whose own list had been read before. It is not generated from the code, but it is not
    an independent transcription either. *)
From Coq Require Import ZArith List String.
Import ListNotations.
Open Scope Z_scope.
Open Scope string_scope.

Inductive kind : Type :=
| Counted (first : Z) (names : list string)
(** the name of the empty set, if any; the names of the bits from the lowest, "" if not used; names of sets of bits *)
| Flags (empty : list string) (bits : list string) (sets : list (string * list Z)).

Fixpoint count (first : Z) (names : list string) : list (string * Z) :=
  match names with [] => [] | n :: r => (n, first) :: count (first + 1) r end.
Fixpoint powers (p : Z) (names : list string) : list (string * Z) :=
  match names with
  | [] => []
  | n :: r => (if String.eqb n "" then [] else [(n, p)]) ++ powers (2 * p) r
  end.
Definition union (bits : list Z) : Z := fold_right (fun b s => 2 ^ b + s) 0 bits.
Definition values (k : kind) : list (string * Z) :=
  match k with
  | Counted first names => count first names
  | Flags empty bits sets => map (fun n => (n, 0)) empty ++ powers 1 bits ++ map (fun s => (fst s, union (snd s))) sets
  end.

Definition access : list string :=
  ["CurrentRead"; "CurrentWrite"; "HistoryRead"; "HistoryWrite"; "SemanticChange"; "StatusWrite"; "TimestampWrite"].
Definition attributes : list string :=
  ["AccessLevel"; "ArrayDimensions"; "BrowseName"; "ContainsNoLoops"; "DataType"; "Description"; "DisplayName"; "EventNotifier";
   "Executable"; "Historizing"; "InverseName"; "IsAbstract"; "MinimumSamplingInterval"; "NodeClass"; "NodeID"; "Symmetric";
   "UserAccessLevel"; "UserExecutable"; "UserWriteMask"; "ValueRank"; "WriteMask"].
(** BrowseName, Description, DisplayName, NodeClass, NodeID, UserWriteMask, WriteMask, RolePermissions, AccessRestrictions *)
Definition base_node : list Z := [2; 5; 6; 13; 14; 18; 20; 23; 24].

Definition standard_enums : list (string * kind) := [
  ("NodeIDType", Counted 0 ["TwoByte"; "FourByte"; "Numeric"; "String"; "GUID"; "ByteString"]);
  ("NamingRuleType", Counted 1 ["Mandatory"; "Optional"; "Constraint"]);
  ("OpenFileMode", Flags [] ["Read"; "Write"; "EraseExisting"; "Append"] []);
  ("IdentityCriteriaType", Counted 1 ["UserName"; "Thumbprint"; "Role"; "GroupID"; "Anonymous"; "AuthenticatedUser"]);
  ("TrustListMasks", Flags ["None"] ["TrustedCertificates"; "TrustedCrls"; "IssuerCertificates"; "IssuerCrls"] [("All", [0; 1; 2; 3])]);
  ("PubSubState", Counted 0 ["Disabled"; "Paused"; "Operational"; "Error"]);
  ("DataSetFieldFlags", Flags ["None"] ["PromotedField"] []);
  ("DataSetFieldContentMask", Flags ["None"] ["StatusCode"; "SourceTimestamp"; "ServerTimestamp"; "SourcePicoSeconds"; "ServerPicoSeconds"; "RawData"] []);
  ("OverrideValueHandling", Counted 0 ["Disabled"; "LastUsableValue"; "OverrideValue"]);
  ("DataSetOrderingType", Counted 0 ["Undefined"; "AscendingWriterID"; "AscendingWriterIDSingle"]);
  ("UADPNetworkMessageContentMask", Flags ["None"] ["PublisherID"; "GroupHeader"; "WriterGroupID"; "GroupVersion"; "NetworkMessageNumber";
     "SequenceNumber"; "PayloadHeader"; "Timestamp"; "PicoSeconds"; "DataSetClassID"; "PromotedFields"] []);
  ("UADPDataSetMessageContentMask", Flags ["None"] ["Timestamp"; "PicoSeconds"; "Status"; "MajorVersion"; "MinorVersion"; "SequenceNumber"] []);
  ("JSONNetworkMessageContentMask", Flags ["None"] ["NetworkMessageHeader"; "DataSetMessageHeader"; "SingleDataSetMessage"; "PublisherID"; "DataSetClassID"; "ReplyTo"] []);
  ("JSONDataSetMessageContentMask", Flags ["None"] ["DataSetWriterID"; "MetaDataVersion"; "SequenceNumber"; "Timestamp"; "Status"] []);
  ("BrokerTransportQoS", Counted 0 ["NotSpecified"; "BestEffort"; "AtLeastOnce"; "AtMostOnce"; "ExactlyOnce"]);
  ("DiagnosticsLevel", Counted 0 ["Basic"; "Advanced"; "Info"; "Log"; "Debug"]);
  ("PubSubDiagnosticsCounterClassification", Counted 0 ["Information"; "Error"]);
  ("IDType", Counted 0 ["Numeric"; "String"; "GUID"; "Opaque"]);
  ("NodeClass", Flags ["Unspecified"] ["Object"; "Variable"; "Method"; "ObjectType"; "VariableType"; "ReferenceType"; "DataType"; "View"] []);
  ("PermissionType", Flags ["None"] ["Browse"; "ReadRolePermissions"; "WriteAttribute"; "WriteRolePermissions"; "WriteHistorizing"; "Read"; "Write";
     "ReadHistory"; "InsertHistory"; "ModifyHistory"; "DeleteHistory"; "ReceiveEvents"; "Call"; "AddReference"; "RemoveReference"; "DeleteNode"; "AddNode"] []);
  ("AccessLevelType", Flags ["None"] access []);
  ("AccessLevelExType", Flags ["None"] (access ++ [""; "NonatomicRead"; "NonatomicWrite"; "WriteFullArrayOnly"])%list []);
  ("EventNotifierType", Flags ["None"] ["SubscribeToEvents"; ""; "HistoryRead"; "HistoryWrite"] []);
  ("AccessRestrictionType", Flags ["None"] ["SigningRequired"; "EncryptionRequired"; "SessionRequired"] []);
  ("StructureType", Counted 0 ["Structure"; "StructureWithOptionalFields"; "Union"]);
  ("ApplicationType", Counted 0 ["Server"; "Client"; "ClientAndServer"; "DiscoveryServer"]);
  ("MessageSecurityMode", Counted 0 ["Invalid"; "None"; "Sign"; "SignAndEncrypt"]);
  ("UserTokenType", Counted 0 ["Anonymous"; "UserName"; "Certificate"; "IssuedToken"]);
  ("SecurityTokenRequestType", Counted 0 ["Issue"; "Renew"]);
  ("NodeAttributesMask", Flags ["None"] (attributes ++ ["Value"; "DataTypeDefinition"; "RolePermissions"; "AccessRestrictions"])%list
     [("All", [0; 1; 2; 3; 4; 5; 6; 7; 8; 9; 10; 11; 12; 13; 14; 15; 16; 17; 18; 19; 20; 21; 22; 23; 24]);
      ("BaseNode", base_node);
      ("Object", 7 :: base_node);                              (* EventNotifier *)
      ("ObjectType", 11 :: base_node);                         (* IsAbstract *)
      (* the fields of VariableAttributes: AccessLevel, ArrayDimensions, DataType, Historizing, MinimumSamplingInterval,
         UserAccessLevel, ValueRank, Value *)
      ("Variable", [0; 1; 4; 9; 12; 16; 19; 21] ++ base_node)%list;
      (* those of VariableTypeAttributes: ArrayDimensions, DataType, IsAbstract, ValueRank, Value *)
      ("VariableType", [1; 4; 11; 19; 21] ++ base_node)%list;
      ("Method", 8 :: 17 :: base_node);                        (* Executable, UserExecutable *)
      ("ReferenceType", 10 :: 11 :: 15 :: base_node);          (* InverseName, IsAbstract, Symmetric *)
      ("View", 3 :: 7 :: base_node)]);                         (* ContainsNoLoops, EventNotifier *)
  ("AttributeWriteMask", Flags ["None"] (attributes ++ ["ValueForVariableType"; "DataTypeDefinition"; "RolePermissions"; "AccessRestrictions"; "AccessLevelEx"])%list []);
  ("BrowseDirection", Counted 0 ["Forward"; "Inverse"; "Both"; "Invalid"]);
  ("BrowseResultMask", Flags ["None"] ["ReferenceTypeID"; "IsForward"; "NodeClass"; "BrowseName"; "DisplayName"; "TypeDefinition"]
     [("All", [0; 1; 2; 3; 4; 5]); ("ReferenceTypeInfo", [0; 1]); ("TargetInfo", [2; 3; 4; 5])]);
  ("FilterOperator", Counted 0 ["Equals"; "IsNull"; "GreaterThan"; "LessThan"; "GreaterThanOrEqual"; "LessThanOrEqual"; "Like"; "Not"; "Between";
     "InList"; "And"; "Or"; "Cast"; "InView"; "OfType"; "RelatedTo"; "BitwiseAnd"; "BitwiseOr"]);
  ("TimestampsToReturn", Counted 0 ["Source"; "Server"; "Both"; "Neither"; "Invalid"]);
  ("HistoryUpdateType", Counted 1 ["Insert"; "Replace"; "Update"; "Delete"]);
  ("PerformUpdateType", Counted 1 ["Insert"; "Replace"; "Update"; "Remove"]);
  ("MonitoringMode", Counted 0 ["Disabled"; "Sampling"; "Reporting"]);
  ("DataChangeTrigger", Counted 0 ["Status"; "StatusValue"; "StatusValueTimestamp"]);
  ("DeadbandType", Counted 0 ["None"; "Absolute"; "Percent"]);
  ("RedundancySupport", Counted 0 ["None"; "Cold"; "Warm"; "Hot"; "Transparent"; "HotAndMirrored"]);
  ("ServerState", Counted 0 ["Running"; "Failed"; "NoConfiguration"; "Suspended"; "Shutdown"; "Test"; "CommunicationFault"; "Unknown"]);
  ("ModelChangeStructureVerbMask", Flags [] ["NodeAdded"; "NodeDeleted"; "ReferenceAdded"; "ReferenceDeleted"; "DataTypeChanged"] []);
  ("AxisScaleEnumeration", Counted 0 ["Linear"; "Log"; "Ln"]);
  ("ExceptionDeviationFormat", Counted 0 ["AbsoluteValue"; "PercentOfValue"; "PercentOfRange"; "PercentOfEURange"; "Unknown"])
].

(** the two sets whose declared numbers lack attributes *)
Definition incomplete (type name : string) : Prop :=
  type = "NodeAttributesMask" /\ (name = "Variable" \/ name = "VariableType").

(** the status codes with one text for two *)
Definition shared (a b : string) : Prop :=
  (a = "BadNoData" /\ b = "GoodNoData") \/ (a = "GoodEntryReplaced" /\ b = "GoodMoreData").
