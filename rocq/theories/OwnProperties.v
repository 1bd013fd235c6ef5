(** Properties of the server's own variables, diagnostics, life and methods. *)
From Coq Require Import ZArith List Bool String.
From Verif Require Import Bytes CodecSpec Prim PrimSpec Value ValueSpec Text Messages MonQueue DataChange.
From Verif Require Import OwnData OwnTable OwnSpace OwnSpec OwnProofs OwnWireProofs OwnDiagProofs LifeProofs OwnMethod OwnMethodSpec OwnMethodProofs OwnLemmas OwnTreeSpec OwnTreeLemmas.
Import ListNotations.
Open Scope string_scope.
Open Scope Z_scope.

(** * C100: the server's own variables say what is so *)

(** A server can be made exactly when its capabilities and operation limits are given. *)
Theorem c100_made : forall w, (exists s, new_server w = Some s) <-> exists c l, w_caps w = Some c /\ cap_OperationLimits c = Some l.
Proof. exact new_ok. Qed.
Print Assumptions c100_made.

(** Whatever happened since the server was made (time, its state, its sessions, writes of clients): each variable of the list of facts is found by its browse path and read with status Good and the value that is so now. Missing: the variables refuted below. *)
Theorem c100_facts_partial : forall range w s c l es q, plain_range range -> w_caps w = Some c -> cap_OperationLimits c = Some l -> new_server w = Some s ->
  let s' := run_server s es in In q (facts (sv_world s') c l) ->
  exists i v, descend (sv_nodes s') 0 (fst q) = Some i /\ read_response range (sv_world s') (sv_nodes s') [(i, [])] = Some [(v, 0)] /\ shows v (snd q).
Proof. exact facts_any. Qed.
Print Assumptions c100_facts_partial.

(** The same for any number of them, in any order, in one Read. *)
Theorem c100_together : forall range w s c l es qs, plain_range range -> w_caps w = Some c -> cap_OperationLimits c = Some l -> new_server w = Some s ->
  let s' := run_server s es in incl qs (facts (sv_world s') c l) ->
  exists ids vs, Forall2 (fun q i => descend (sv_nodes s') 0 (fst q) = Some i) qs ids /\
    read_response range (sv_world s') (sv_nodes s') (map (fun i => (i, [])) ids) = Some (map (fun v => (v, 0)) vs) /\
    Forall2 (fun q v => shows v (snd q)) qs vs.
Proof. exact facts_together. Qed.
Print Assumptions c100_together.

(** What is read of any variable fits the data type and value rank the variable declares. Missing: two variables, refuted below. *)
Theorem c100_types_partial : forall range w s c l es n v st, plain_range range -> w_caps w = Some c -> cap_OperationLimits c = Some l -> new_server w = Some s ->
  let s' := run_server s es in In n (sv_nodes s') -> is_variable n = true -> d_name (n_decl n) <> "MaxReturnDataValues" -> d_name (n_decl n) <> "MaxReturnEventValues" ->
  read_response range (sv_world s') (sv_nodes s') [(n_id n, [])] = Some [(v, st)] -> fits (d_type (n_decl n)) (d_rank (n_decl n)) v.
Proof. exact typed_any. Qed.
Print Assumptions c100_types_partial.

(** The facts survive the encoding: what the client decodes is the value that was shown, up to the precision of the encoding. *)
Theorem c100_wire : forall u w c l q v, w_caps w = Some c -> cap_OperationLimits c = Some l -> ok_world w -> In q (facts w c l) -> shows v (snd q) ->
  exists e, encode (std_env u) TVar v = Some e /\ reads_back (decode (std_env u) TVar) e (norm v).
Proof. exact fact_bytes. Qed.
Print Assumptions c100_wire.

(** No client can change them: every write to any of these nodes is refused and changes nothing. *)
Theorem c100_read_only : forall w s c l es i g, w_caps w = Some c -> cap_OperationLimits c = Some l -> new_server w = Some s ->
  let s' := run_server s es in fst (write_value (sv_nodes s') i g) = sv_nodes s' /\ snd (write_value (sv_nodes s') i g) <> 0.
Proof. exact writes_fail. Qed.
Print Assumptions c100_read_only.

(** The nodes for what the server cannot do are not there. *)
Theorem c100_removed : forall w s c l es p, w_caps w = Some c -> cap_OperationLimits c = Some l -> new_server w = Some s ->
  In p removed -> descend (sv_nodes (run_server s es)) 0 p = None.
Proof. exact gone_always. Qed.
Print Assumptions c100_removed.

(** The server's own nodes are a tree, whatever happened: numbers are unique, names below one parent are, and each node is reached by a path. *)
Theorem c100_tree : forall w s c l es, w_caps w = Some c -> cap_OperationLimits c = Some l -> new_server w = Some s ->
  let ns := sv_nodes (run_server s es) in
  NoDup (map (fun n => d_id (n_decl n)) ns) /\ NoDup (map (fun n => (d_parent (n_decl n), d_name (n_decl n))) ns) /\
  forall n, In n ns -> exists path, leads ns 0 path (d_id (n_decl n)).
Proof. exact tree. Qed.
Print Assumptions c100_tree.

(** A browse path is translated to the node it leads to. *)
Theorem c100_paths : forall w s c l es p i, w_caps w = Some c -> cap_OperationLimits c = Some l -> new_server w = Some s ->
  descend (sv_nodes (run_server s es)) 0 p = Some i <-> leads (sv_nodes (run_server s es)) 0 p i.
Proof. exact paths. Qed.
Print Assumptions c100_paths.

(** A node that is removed with its children takes everything with it that paths from it lead to, here up to four names long. *)
Theorem c100_deleted_partial : forall ns i n path, leads ns i path (d_id (n_decl n)) -> (List.length path <= 4)%nat ->
  ~ In (d_id (n_decl n)) (map n_id (delete true i ns)).
Proof. exact delete_all. Qed.
Print Assumptions c100_deleted_partial.

(** Nor are they, or the arguments of the removed methods, by their numbers: BadNodeIdUnknown. *)
Theorem c100_removed_unknown : forall range w s c l es i r, w_caps w = Some c -> cap_OperationLimits c = Some l -> new_server w = Some s ->
  In i removed_ids -> read_response range (sv_world (run_server s es)) (sv_nodes (run_server s es)) [(i, r)] = Some [(VNil, 0x80340000)].
Proof. exact gone_unread. Qed.
Print Assumptions c100_removed_unknown.

(** The facts are those of the last moment, whatever was written since, *)
Theorem c100_moment : forall s es m ws, Forall is_write ws -> the_moment (sv_world (run_server s (es ++ [Later m] ++ ws))) = m.
Proof. exact last_moment. Qed.
Print Assumptions c100_moment.

(** and of the configuration the server was made with. *)
Theorem c100_configuration : forall s es, let w := sv_world s in let v := sv_world (run_server s es) in
  w_caps v = w_caps w /\ w_build v = w_build w /\ w_start v = w_start w /\ w_diagnostics v = w_diagnostics w /\ w_historian v = w_historian w /\ w_servers v = w_servers w.
Proof. exact same_configuration. Qed.
Print Assumptions c100_configuration.

(** Capabilities without operation limits, or none, make New panic. *)
Theorem c100_nil_limits_refuted : forall w, w_caps w = None \/ (exists c, w_caps w = Some c /\ cap_OperationLimits c = None) -> new_server w = None.
Proof. exact nil_limits. Qed.
Print Assumptions c100_nil_limits_refuted.

(** ServerDiagnosticsSummary holds a pointer, which cannot be encoded: a Read that contains it, at any place and with whatever else, gets no answer. *)
Theorem c100_summary_refuted : forall range w s c l es, w_caps w = Some c -> cap_OperationLimits c = Some l -> new_server w = Some s ->
  let s' := run_server s es in exists i, descend (sv_nodes s') 0 ["Server"; "ServerDiagnostics"; "ServerDiagnosticsSummary"] = Some i /\
  forall ids r, In (i, r) ids -> read_response range (sv_world s') (sv_nodes s') ids = None.
Proof. exact summary_none. Qed.
Print Assumptions c100_summary_refuted.

(** MaxReturnDataValues and MaxReturnEventValues are declared UInt32 (7) and read as the Boolean false. *)
Theorem c100_max_return_refuted : forall range w s c l es p, plain_range range -> w_caps w = Some c -> cap_OperationLimits c = Some l -> new_server w = Some s ->
  In p ["MaxReturnDataValues"; "MaxReturnEventValues"] ->
  let s' := run_server s es in exists n v, In n (sv_nodes s') /\ descend (sv_nodes s') 0 ["HistoryServerCapabilities"; p] = Some (n_id n) /\
    d_type (n_decl n) = 7 /\ read_response range (sv_world s') (sv_nodes s') [(n_id n, [])] = Some [(v, 0)] /\
    v = VScalar (KB BBool) (VB BBool false) /\ ~ fits (d_type (n_decl n)) (d_rank (n_decl n)) v.
Proof. exact wrong_type. Qed.
Print Assumptions c100_max_return_refuted.

(** AccessHistoryDataCapability is false for every server, also one with a historian. *)
Theorem c100_history_refuted : forall range w s c l es, plain_range range -> w_caps w = Some c -> cap_OperationLimits c = Some l -> new_server w = Some s -> w_historian w = true ->
  let s' := run_server s es in exists i, descend (sv_nodes s') 0 ["HistoryServerCapabilities"; "AccessHistoryDataCapability"] = Some i /\
    read_response range (sv_world s') (sv_nodes s') [(i, [])] = Some [(VScalar (KB BBool) (VB BBool false), 0)].
Proof. exact (fun range w s c l es P C L N _ => no_history range w s c l es P C L N). Qed.
Print Assumptions c100_history_refuted.

(** Variables which are never given a value, the arrays of session diagnostics among them, are read as null with status Good. *)
Theorem c100_unset_refuted : forall range w s c l es p, plain_range range -> w_caps w = Some c -> cap_OperationLimits c = Some l -> new_server w = Some s ->
  In p never_set ->
  let s' := run_server s es in exists i, descend (sv_nodes s') 0 p = Some i /\ read_response range (sv_world s') (sv_nodes s') [(i, [])] = Some [(VNil, 0)].
Proof. exact unset. Qed.
Print Assumptions c100_unset_refuted.

(** A Read of NamespaceArray with any index range, well formed or not, gives the whole array with status Good. *)
Theorem c100_index_range_refuted : forall range w s c l es r, w_caps w = Some c -> cap_OperationLimits c = Some l -> new_server w = Some s ->
  let s' := run_server s es in exists i, descend (sv_nodes s') 0 ["Server"; "NamespaceArray"] = Some i /\
    read_response range (sv_world s') (sv_nodes s') [(i, r)] = Some [(VArr (KB BString) (map (VB BString) (w_namespaces (sv_world s'))), 0)].
Proof. exact range_ignored. Qed.
Print Assumptions c100_index_range_refuted.

(** * C102: diagnostics objects *)

(** Every variable of a session's diagnostics tells every reader the state of the session it describes. Missing: that the counters count, C92. *)
Theorem c102_session : forall roles s q, In q (session_facts s) -> tells session_details s roles q.
Proof. exact session_facts_told. Qed.
Print Assumptions c102_session.

(** So they tell of a new session what CreateSession was given, and that nothing was counted yet. *)
Theorem c102_new_session : forall id name timeout description uri endpoint certificate max now identity roles q,
  In q (new_facts id name timeout description uri endpoint max now) ->
  tells session_details (new_session id name timeout description uri endpoint certificate max now identity) roles q.
Proof. exact new_told. Qed.
Print Assumptions c102_new_session.

(** The security diagnostics of a session: an authenticated user on an encrypted channel reads the state of the described session, others a refusal. Missing: SecurityMode, ClientCertificate and SecurityPolicyUri, refuted below. *)
Theorem c102_security_partial : forall s q, In q (security_facts s) -> tells_admitted security_details s q.
Proof. exact security_facts_told. Qed.
Print Assumptions c102_security_partial.

(** No variable of the security diagnostics is left unguarded, nor is the structure. *)
Theorem c102_guarded : forall d, In d security_details \/ component session_object "SessionSecurityDiagnostics" = Some d -> v_guarded d = true.
Proof. exact security_guarded. Qed.
Print Assumptions c102_guarded.

(** Every variable of a subscription's diagnostics tells the state of that subscription. Missing: the counters refuted below. *)
Theorem c102_subscription_partial : forall roles s q, In q (subscription_facts s) -> tells subscription_details s roles q.
Proof. exact subscription_facts_told. Qed.
Print Assumptions c102_subscription_partial.

(** The structure SessionDiagnostics is the variables: field by field, in the order of the standard, what the structure says and what the variables say is the same. *)
Theorem c102_session_structure : forall s r, exists d fields, component session_object "SessionDiagnostics" = Some d /\ v_guarded d = false /\
  (exists v, v_value d s r = GoVal v /\ shows v (Structure "SessionDiagnosticsDataType" fields)) /\ agree session_details (names_of type_session) s r fields.
Proof. exact session_agrees. Qed.
Print Assumptions c102_session_structure.

(** So is the structure SessionSecurityDiagnostics. *)
Theorem c102_security_structure : forall s r, exists d fields, component session_object "SessionSecurityDiagnostics" = Some d /\
  (exists v, v_value d s r = GoVal v /\ shows v (Structure "SessionSecurityDiagnosticsDataType" fields)) /\ agree security_details (map v_name security_details) s r fields.
Proof. exact security_agrees. Qed.
Print Assumptions c102_security_structure.

(** So is the structure of a subscription, which also is the element of SubscriptionDiagnosticsArray in C100. *)
Theorem c102_subscription_structure : forall s r, exists d, nth_error subscription_variable 0 = Some d /\
  (exists v, v_value d s r = GoVal v /\ shows v (Structure "SubscriptionDiagnosticsDataType" (subscription_shown s))) /\
  agree subscription_details (map v_name subscription_details) s r (subscription_shown s).
Proof. exact subscription_agrees. Qed.
Print Assumptions c102_subscription_structure.

(** The values have the data types and ranks of the standard types of these objects. Missing: the two names refuted below. *)
Theorem c102_types_partial : Forall (has_type session_details) type_session /\
  Forall (fun p => fst (fst p) = "SecurityPolicyUri" \/ has_type security_details p) type_security /\
  Forall (fun p => fst (fst p) = "EventQueueOverflowCount" \/ has_type subscription_details p) type_subscription.
Proof. exact (conj session_typed (conj security_typed subscription_typed)). Qed.
Print Assumptions c102_types_partial.

(** SecurityMode and ClientCertificate are those of the session that reads, not of the one described; so every reader who is admitted reads SignAndEncrypt (3). *)
Theorem c102_reader_refuted : forall roles s r d e, component security_details "SecurityMode" = Some d -> component security_details "ClientCertificate" = Some e ->
  roles (se_identity r) = Some true -> se_securityMode r = 3 ->
  read_diagnostic roles d s r = (GoVal (VScalar (KB BInt32) (VB BInt32 3)), 0) /\
  read_diagnostic roles e s r = (GoVal (VScalar (KB BByteString) (VB BByteString (se_clientCertificate r))), 0).
Proof. exact of_reader. Qed.
Print Assumptions c102_reader_refuted.

(** And the certificate of the client is not stored when the session is made. *)
Theorem c102_certificate_refuted : forall id name timeout description uri endpoint certificate max now identity,
  se_clientCertificate (new_session id name timeout description uri endpoint certificate max now identity) = [].
Proof. exact certificate_lost. Qed.
Print Assumptions c102_certificate_refuted.

(** Two variables have other names than in the standard, so their browse paths lead nowhere. *)
Theorem c102_names_refuted : component security_details "SecurityPolicyUri" = None /\ component subscription_details "EventQueueOverflowCount" = None /\
  In "SecurityPolicyUri" (names_of type_security) /\ In "EventQueueOverflowCount" (names_of type_subscription).
Proof. exact names_wrong. Qed.
Print Assumptions c102_names_refuted.

(** The structured variables of a session declare the data type BaseDataType (24) where the standard has a structure. *)
Theorem c102_declared_refuted : forall n, In n structured -> exists d t k, component session_details n = Some d /\ v_type d = 24 /\ In (n, t, k) type_session /\ built_in 8 t = 22.
Proof. exact types_wrong. Qed.
Print Assumptions c102_declared_refuted.

(** SubscriptionDiagnosticsArray of a session is empty whatever subscriptions the session has. *)
Theorem c102_array_refuted : forall s r, exists d, component session_object "SubscriptionDiagnosticsArray" = Some d /\ v_value d s r = GoVal (VArr KExt []).
Proof. exact array_empty. Qed.
Print Assumptions c102_array_refuted.

(** Seven counters of a subscription are 0 whatever happens. *)
Theorem c102_uncounted_refuted : forall n s r, In n uncounted -> exists d, component subscription_details n = Some d /\ v_value d s r = GoVal (VScalar (KB BUInt32) (VB BUInt32 0)).
Proof. exact zero_always. Qed.
Print Assumptions c102_uncounted_refuted.

(** * C103: the life of the server *)

(** The state only goes forward: Unknown, Running, Shutdown. *)
Theorem c103_forward : forall acts more, 0 <= stage (f_state (live_all acts)) /\ stage (f_state (live_all acts)) <= stage (f_state (live_all (acts ++ more))).
Proof. exact stages. Qed.
Print Assumptions c103_forward.

(** A server listens once: after any call of ListenAndServe or Close, ListenAndServe fails with BadInternalError and changes nothing. *)
Theorem c103_once : forall acts url port, (exists u p, In (Listen u p) acts) \/ In Close acts ->
  live (live_all acts) (Listen url port) = (live_all acts, 0x80020000).
Proof. exact listen_again. Qed.
Print Assumptions c103_once.

(** While it listens it is not closed and not in the state Unknown. *)
Theorem c103_serving : forall acts, f_open (live_all acts) = true -> f_closed (live_all acts) = false /\ f_state (live_all acts) <> 7.
Proof. exact serving. Qed.
Print Assumptions c103_serving.

(** At most one call of Close counts down; while it does the state is Shutdown, and the seconds are 3 at most, with the reason Closing. *)
Theorem c103_countdown : forall acts, (List.length (f_closers (live_all acts)) <= 1)%nat /\ forall k, f_closers (live_all acts) = [k] -> f_state (live_all acts) = 4 /\ 0 <= f_seconds (live_all acts) <= 3 /\
  (0 < f_seconds (live_all acts) -> f_reason (live_all acts) = lit "Closing").
Proof. exact countdown_all. Qed.
Print Assumptions c103_countdown.

(** Close ends: after any calls with Close among them, five steps later the listener is closed, nobody counts and the state is Shutdown. *)
Theorem c103_closes : forall acts, (0 < closes acts)%nat -> let f := live_all (acts ++ five) in
  f_closed f = true /\ f_open f = false /\ f_closers f = [] /\ f_state f = 4 /\ f_seconds f = 0.
Proof. exact finish. Qed.
Print Assumptions c103_closes.

(** One call of Close does not panic. *)
Theorem c103_one_close : forall acts, (closes acts <= 1)%nat -> f_panics (live_all acts) = 0.
Proof. exact one_close. Qed.
Print Assumptions c103_one_close.

(** Every further call of Close makes the process panic (close of a closed channel): of n calls, n - 1. *)
Theorem c103_close_again_refuted : forall acts, f_closers (live_all acts) = [] -> (0 < closes acts)%nat ->
  f_panics (live_all acts) = Z.of_nat (closes acts) - 1 /\ f_closed (live_all acts) = true.
Proof. exact panic_count. Qed.
Print Assumptions c103_close_again_refuted.

(** A second Close ends the countdown of the first at once; when the first is done counting it panics. *)
Theorem c103_cut_short_refuted : let f := live_all [Listen true true; Close; Proceed 0; Proceed 0; Close] in
  f_closed f = true /\ f_seconds f = 3 /\ f_panics f = 0 /\ f_panics (live_all [Listen true true; Close; Proceed 0; Proceed 0; Close; Proceed 0; Proceed 0; Proceed 0]) = 1.
Proof. exact close_at_once. Qed.
Print Assumptions c103_cut_short_refuted.

(** A ListenAndServe that fails (bad URL, port taken) leaves the state Running with no listener, and the server can never listen. *)
Theorem c103_failed_listen_refuted : forall acts url port, f_state (live_all acts) = 7 -> url && port = false ->
  let f := live_all (acts ++ [Listen url port]) in
  f_state f = 0 /\ f_open f = false /\ forall u p, live f (Listen u p) = (f, 0x80020000).
Proof. exact failed_listen. Qed.
Print Assumptions c103_failed_listen_refuted.

(** * C104: GetMonitoredItems and ResendData *)

(** A call succeeds exactly when its one argument is the id of a subscription of the calling session. *)
Theorem c104_good : forall m subs caller args, distinct subs -> rs_status (snd (call m subs caller args)) = 0 <-> exists s, names_own subs caller args s.
Proof. exact good_iff. Qed.
Print Assumptions c104_good.

(** GetMonitoredItems gives the items of that subscription, each once: the n-th server handle and the n-th client handle belong together. *)
Theorem c104_items : forall subs caller args s, distinct subs -> names_own subs caller args s ->
  exists servers clients, snd (call GetMonitoredItems subs caller args) =
    mkResult 0 [] [VArr (KB BUInt32) (map (VB BUInt32) servers); VArr (KB BUInt32) (map (VB BUInt32) clients)] /\
  List.length servers = List.length (ms_items s) /\ List.length clients = List.length (ms_items s) /\ combine servers clients = ms_items s.
Proof. exact items_told. Qed.
Print Assumptions c104_items.

(** Both are arrays of UInt32 (7), as the output arguments are declared. *)
Theorem c104_types : forall l, fits 7 1 (VArr (KB BUInt32) (map (VB BUInt32) l)).
Proof. exact handles_typed. Qed.
Print Assumptions c104_types.

(** Every other call is refused with the code of the standard. *)
Theorem c104_refusals : forall m subs caller args, distinct subs ->
  (args = [] -> rs_status (snd (call m subs caller args)) = 0x80760000) /\
  ((1 < List.length args)%nat -> rs_status (snd (call m subs caller args)) = 0x80E50000) /\
  (forall a, args = [a] -> (forall z, a <> VScalar (KB BUInt32) (VB BUInt32 z)) -> snd (call m subs caller args) = mkResult 0x80AB0000 [0x80740000] []) /\
  (forall z, args = [VScalar (KB BUInt32) (VB BUInt32 z)] -> ~ In z (map ms_id subs) -> rs_status (snd (call m subs caller args)) = 0x80280000) /\
  (forall s, args = [VScalar (KB BUInt32) (VB BUInt32 (ms_id s))] -> In s subs -> caller = None \/ ms_session s <> caller -> rs_status (snd (call m subs caller args)) = 0x801F0000).
Proof. exact refusals. Qed.
Print Assumptions c104_refusals.

(** A refused call tells nothing of the items of anybody: the answer is the same whatever they are. *)
Theorem c104_private : forall m a b caller args, alike a b -> rs_status (snd (call m a caller args)) <> 0 -> snd (call m b caller args) = snd (call m a caller args).
Proof. exact secret. Qed.
Print Assumptions c104_private.

(** GetMonitoredItems and refused calls change nothing. *)
Theorem c104_unchanged : forall m subs caller args, m = GetMonitoredItems \/ rs_status (snd (call m subs caller args)) <> 0 -> fst (call m subs caller args) = subs.
Proof. exact unchanged. Qed.
Print Assumptions c104_unchanged.

(** ResendData asks for that subscription's values again and leaves the others alone. *)
Theorem c104_resend : forall subs caller args s, distinct subs -> names_own subs caller args s ->
  let subs' := fst (call ResendData subs caller args) in
  Forall2 (fun a b => ms_id b = ms_id a /\ ms_session b = ms_session a /\ ms_items b = ms_items a /\
                      (ms_id a = ms_id s -> ms_resend b = true) /\ (ms_id a <> ms_id s -> b = a)) subs subs'.
Proof. exact asked_again. Qed.
Print Assumptions c104_resend.

(** When the subscription publishes next, every data item that reports then has a value to send, the current one if it had nothing else; items that do not report behave as if nobody had asked. *)
Theorem c104_resent : forall d tn v,
  (di_mode d = m_reporting -> snd (available d tn true v) = true /\
    (snd (available d tn false v) = false -> mq_queue (di_q (fst (available d tn true v))) = [with_timestamps (di_stamps d) v])) /\
  (di_mode d <> m_reporting -> available d tn true v = available d tn false v).
Proof. exact (fun d tn v => conj (resent d tn v) (not_resent d tn v)). Qed.
Print Assumptions c104_resent.

