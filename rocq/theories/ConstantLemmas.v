(** Which numbers stand for which names: the constants the model's definitions use, by the names they have in
    the library, next to the tables of the library's own constants.  Each number was typed into the model by
    hand, the tables StatusTable.v and EnumTable.v are made from the source. *)
From Coq Require Import ZArith List Bool String.
From Verif Require Accepting Asym Bytes Certificates Chunk ClientSession DataChange DataPath EventFields IndexRange Keys Messages MonService NodeAccess Nodes Opening OwnMethod OwnSpace Roles Sampling Translate Value.
From Verif Require Import StatusTable EnumTable EnumSpec.
Import ListNotations.
Open Scope string_scope.
Open Scope Z_scope.

(** status codes *)
Definition codes_used : list (string * Z) := [
  ("BadCertificateInvalid", Certificates.BadCertificateInvalid);
  ("BadSecurityChecksFailed", Certificates.BadSecurityChecksFailed);
  ("BadCertificateTimeInvalid", Certificates.BadCertificateTimeInvalid);
  ("BadCertificateHostNameInvalid", Certificates.BadCertificateHostNameInvalid);
  ("BadCertificateUseNotAllowed", Certificates.BadCertificateUseNotAllowed);
  ("BadCertificateIssuerUseNotAllowed", Certificates.BadCertificateIssuerUseNotAllowed);
  ("BadCertificateRevocationUnknown", Certificates.BadCertificateRevocationUnknown);
  ("BadCertificateIssuerRevocationUnknown", Certificates.BadCertificateIssuerRevocationUnknown);
  ("BadCertificateRevoked", Certificates.BadCertificateRevoked);
  ("BadCertificateIssuerRevoked", Certificates.BadCertificateIssuerRevoked);
  ("BadCertificateInvalid", ClientSession.BadCertificateInvalid);
  ("BadApplicationSignatureInvalid", ClientSession.BadApplicationSignatureInvalid);
  ("BadIdentityTokenRejected", ClientSession.BadIdentityTokenRejected);
  ("BadWaitingForInitialData", DataChange.BadWaitingForInitialData);
  ("BadMaxAgeInvalid", DataPath.BadMaxAgeInvalid);
  ("BadTimestampsToReturnInvalid", DataPath.BadTimestampsToReturnInvalid);
  ("BadNothingToDo", DataPath.BadNothingToDo);
  ("BadTooManyOperations", DataPath.BadTooManyOperations);
  ("BadIndexRangeInvalid", IndexRange.BadIndexRangeInvalid);
  ("BadIndexRangeNoData", IndexRange.BadIndexRangeNoData);
  ("BadNothingToDo", MonService.BadNothingToDo);
  ("BadTooManyOperations", MonService.BadTooManyOperations);
  ("BadTimestampsToReturnInvalid", MonService.BadTimestampsToReturnInvalid);
  ("BadMonitoredItemIDInvalid", MonService.BadMonitoredItemIDInvalid);
  ("BadFilterNotAllowed", MonService.BadFilterNotAllowed);
  ("BadUserAccessDenied", NodeAccess.BadUserAccessDenied);
  ("BadAttributeIDInvalid", NodeAccess.BadAttributeIDInvalid);
  ("BadDataEncodingInvalid", NodeAccess.BadDataEncodingInvalid);
  ("BadNotReadable", NodeAccess.BadNotReadable);
  ("BadNotWritable", NodeAccess.BadNotWritable);
  ("BadOutOfRange", NodeAccess.BadOutOfRange);
  ("BadNotImplemented", NodeAccess.BadNotImplemented);
  ("BadReferenceTypeIDInvalid", NodeAccess.BadReferenceTypeIDInvalid);
  ("BadBrowseDirectionInvalid", NodeAccess.BadBrowseDirectionInvalid);
  ("BadNodeClassInvalid", NodeAccess.BadNodeClassInvalid);
  ("BadTypeMismatch", NodeAccess.BadTypeMismatch);
  ("BadMethodInvalid", NodeAccess.BadMethodInvalid);
  ("BadNodeIDInvalid", Nodes.BadNodeIDInvalid);
  ("BadNodeIDUnknown", Nodes.BadNodeIDUnknown);
  ("BadArgumentsMissing", OwnMethod.m_BadArgumentsMissing);
  ("BadTooManyArguments", OwnMethod.m_BadTooManyArguments);
  ("BadInvalidArgument", OwnMethod.m_BadInvalidArgument);
  ("BadTypeMismatch", OwnMethod.m_BadTypeMismatch);
  ("BadSubscriptionIDInvalid", OwnMethod.m_BadSubscriptionIDInvalid);
  ("BadUserAccessDenied", OwnMethod.m_BadUserAccessDenied);
  ("BadNodeIDUnknown", OwnSpace.BadNodeIDUnknown);
  ("BadNotReadable", OwnSpace.BadNotReadable);
  ("BadNotWritable", OwnSpace.BadNotWritable);
  ("BadAttributeIDInvalid", OwnSpace.BadAttributeIDInvalid);
  ("BadUserAccessDenied", OwnSpace.BadUserAccessDenied);
  ("BadSecurityModeInsufficient", OwnSpace.BadSecurityModeInsufficient);
  ("BadInternalError", OwnSpace.BadInternalError);
  ("BadTCPEndpointURLInvalid", OwnSpace.BadTCPEndpointURLInvalid);
  ("BadResourceUnavailable", OwnSpace.BadResourceUnavailable);
  ("BadNothingToDo", Translate.BadNothingToDo);
  ("BadNoMatch", Translate.BadNoMatch);
  ("BadBrowseNameInvalid", Translate.BadBrowseNameInvalid);
  ("BadServiceUnsupported", Messages.bad_service_unsupported);
  ("BadDataTypeIDUnknown", Value.bad_data_type_id_unknown);
  ("BadDecodingError", Opening.bad_decoding);
  ("BadSecureChannelClosed", Opening.bad_channel_closed);
  ("BadProtocolVersionUnsupported", Opening.bad_version);
  ("BadServerHalted", Accepting.halted);
  ("BadTCPInternalError", Accepting.internal)].
(** values of enumerations: type, name, number *)
Definition values_used : list (string * string * Z) := [
  ("IdentityCriteriaType", "UserName", Roles.ct_user_name);
  ("IdentityCriteriaType", "Thumbprint", Roles.ct_thumbprint);
  ("IdentityCriteriaType", "Anonymous", Roles.ct_anonymous);
  ("IdentityCriteriaType", "AuthenticatedUser", Roles.ct_authenticated);
  ("PermissionType", "Browse", Roles.pm_browse);
  ("PermissionType", "ReadRolePermissions", Roles.pm_read_role_permissions);
  ("PermissionType", "WriteHistorizing", Roles.pm_write_historizing);
  ("PermissionType", "Read", Roles.pm_read);
  ("PermissionType", "Write", Roles.pm_write);
  ("PermissionType", "ReadHistory", Roles.pm_read_history);
  ("PermissionType", "Call", Roles.pm_call);
  ("PermissionType", "WriteAttribute", Roles.pm_write_attribute);
  ("PermissionType", "WriteRolePermissions", Roles.pm_write_role_permissions);
  ("PermissionType", "ReceiveEvents", Roles.pm_receive_events);
  ("AccessLevelType", "CurrentRead", Roles.al_read);
  ("AccessLevelType", "CurrentWrite", Roles.al_write);
  ("AccessLevelType", "HistoryRead", Roles.al_history_read);
  ("MonitoringMode", "Disabled", DataChange.m_disabled);
  ("MonitoringMode", "Reporting", DataChange.m_reporting);
  ("MonitoringMode", "Disabled", Sampling.Disabled);
  ("MessageSecurityMode", "SignAndEncrypt", OwnSpace.SignAndEncrypt);
  ("ServerState", "Running", OwnSpace.Running);
  ("ServerState", "Shutdown", OwnSpace.Shutdown);
  ("ServerState", "Unknown", OwnSpace.Unknown)].
(** attributes *)
Definition attributes_used : list (string * Z) := [
  ("NodeID", EventFields.attr_node_id);
  ("Value", EventFields.attr_value);
  ("Value", NodeAccess.at_value);
  ("Historizing", NodeAccess.at_historizing);
  ("RolePermissions", NodeAccess.at_role_permissions)].
(** /repo/ua/attributeids.go 7-33: the attributes, counted from 1 (the names in the order of Part 6, A.1) *)
Definition attribute_ids : list (string * Z) := count 1
  ["NodeID"; "NodeClass"; "BrowseName"; "DisplayName"; "Description"; "WriteMask"; "UserWriteMask"; "IsAbstract"; "Symmetric";
   "InverseName"; "ContainsNoLoops"; "EventNotifier"; "Value"; "DataType"; "ValueRank"; "ArrayDimensions"; "AccessLevel";
   "UserAccessLevel"; "MinimumSamplingInterval"; "Historizing"; "Executable"; "UserExecutable"; "DataTypeDefinition";
   "RolePermissions"; "UserRolePermissions"; "AccessRestrictions"; "AccessLevelEx"].

Definition has_entry (t : list (string * Z)) (p : string * Z) : bool :=
  existsb (fun q => String.eqb (fst q) (fst p) && (snd q =? snd p)%Z) t.
Lemma has_entry_In t p : has_entry t p = true -> In p t.
Proof.
  intros H. apply existsb_exists in H as ([n z] & I & E). apply andb_true_iff in E as [E1 E2].
  apply String.eqb_eq in E1. apply Z.eqb_eq in E2. destruct p as [m y]. cbn in E1, E2. now subst.
Qed.
Definition has_value (t : list (string * list (string * Z))) (p : string * string * Z) : bool :=
  existsb (fun q => String.eqb (fst q) (fst (fst p)) && has_entry (snd q) ((fst (fst p) ++ snd (fst p))%string, snd p)) t.

Lemma codes_named name c : In (name, c) codes_used -> In (name, c) status_table.
Proof.
  intros H. assert (A : forallb (has_entry status_table) codes_used = true) by (vm_compute; reflexivity).
  rewrite forallb_forall in A. apply has_entry_In. now apply A.
Qed.
Lemma values_named t name v : In (t, name, v) values_used ->
  exists cs, In (t, cs) enum_constants /\ In ((t ++ name)%string, v) cs.
Proof.
  intros H. assert (A : forallb (has_value enum_constants) values_used = true) by (vm_compute; reflexivity).
  rewrite forallb_forall in A. specialize (A _ H). unfold has_value in A. cbn [fst snd] in A.
  apply existsb_exists in A as ([t' cs] & I & E). apply andb_true_iff in E as [E1 E2]. cbn [fst snd] in E1, E2.
  apply String.eqb_eq in E1. subst t'. exists cs. split; [exact I|]. now apply has_entry_In.
Qed.
Lemma attributes_named name v : In (name, v) attributes_used -> In (name, v) attribute_ids.
Proof.
  intros H. assert (A : forallb (has_entry attribute_ids) attributes_used = true) by (vm_compute; reflexivity).
  rewrite forallb_forall in A. apply has_entry_In. now apply A.
Qed.
Example codes_used_ex : In ("BadCertificateRevoked", 0x801D0000) codes_used /\ In ("PermissionType", "Call", 4096) values_used /\
  In ("RolePermissions", 24) attributes_used.
Proof.
  split; [apply has_entry_In; vm_compute; reflexivity|]. split; [|apply has_entry_In; vm_compute; reflexivity].
  unfold values_used. do 10 right. left. reflexivity.
Qed.

(** The kinds of messages, by the four letters a message begins with *)
Definition message_types : list (string * Z) := [
  ("HELF", Keys.t_hello); ("ACKF", Keys.t_ack); ("ERRF", Opening.t_error); ("OPNF", Asym.t_open);
  ("CLOF", Chunk.t_close); ("MSGF", Chunk.t_final); ("MSGC", Chunk.t_chunk)].
Lemma types_spelled : forall letters t, In (letters, t) message_types -> Bytes.le_enc 4 t = list_byte_of_string letters.
Proof. intros letters t H. cbn in H. repeat (destruct H as [H|H]; [injection H as <- <-; reflexivity|]). contradiction. Qed.
