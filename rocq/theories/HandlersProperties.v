(** Properties of the service handlers: one answer per request, checks before effects, and the
    request counters. Runs that meet the hypotheses are in HandlersLemmas.v. *)
From Coq Require Import ZArith List String Bool.
From Verif Require Import Handlers HandlerTable HandlersSpec HandlersProofs HandlersCountProofs HandlersLemmas.
Import ListNotations.
Open Scope Z_scope.

(** * C91: every request is answered once *)

(** A handler ends by returning, and then it has answered exactly once, or it closes the connection. *)
Theorem c91_one_answer : forall service t x, handles service t x ->
  (x = Return /\ count_if is_answer t = 1%nat) \/
  (x = Fail /\ count_if is_answer t = 1%nat) \/
  (x = Fail /\ count_if is_answer t = 0%nat /\ In service ["Publish"; "CreateSession"; "ActivateSession"]%string).
Proof. exact one_answer. Qed.
Print Assumptions c91_one_answer.

(** The handlers are those of the services the server offers, and each of them can answer with its response. *)
Theorem c91_offered : forall service, In service offered_services ->
  exists t code, handles service t Return /\ In (Did (Send true (service ++ "Response") code)) t.
Proof. exact all_offered. Qed.
Print Assumptions c91_offered.

Theorem c91_no_others : forall service t x, handles service t x -> In service offered_services.
Proof. exact handled_offered. Qed.
Print Assumptions c91_no_others.

(** The answer is the response of the service, a fault with a bad code, the end of the channel, or for publish requests a place in the queue. *)
Theorem c91_answer_fits : forall service t x e, handles service t x -> In e t -> answer_fits service e = true.
Proof. exact fits. Qed.
Print Assumptions c91_answer_fits.

(** A service fault means that nothing was done.  Missing: acknowledgements in a publish request that is answered BadNoSubscription. *)
Theorem c91_fault_partial : forall service t x call code, handles service t x ->
  In (Did (Send true "ServiceFault" code)) t -> In (Did (Act call)) t ->
  goes_with_fault call code = true \/
  (service = "Publish" /\ call = "sub.acknowledge" /\ code = "BadNoSubscription")%string.
Proof. exact fault_alone. Qed.
Print Assumptions c91_fault_partial.

(** What a request does is done before its answer.  Missing: Republish and DeleteSubscriptions. *)
Theorem c91_effects_first_partial : forall service before e after x, handles service (before ++ e :: after) x ->
  existsb is_answer before = true -> did_something e = true ->
  In service ["Republish"; "DeleteSubscriptions"]%string.
Proof. exact answer_last. Qed.
Print Assumptions c91_effects_first_partial.

(** Three services may close the connection without an answer. *)
Theorem c91_silent_refuted : forall service, In service ["Publish"; "CreateSession"; "ActivateSession"]%string ->
  exists t, handles service t Fail /\ count_if is_answer t = 0%nat.
Proof. exact silent_runs. Qed.
Print Assumptions c91_silent_refuted.

(** One way: a password that does not decrypt, on a session that exists. *)
Theorem c91_password_refuted : exists t, handles "ActivateSession" t Fail /\ count_if is_answer t = 0%nat /\
  In (Did (Act "srv.SessionManager().Get")) t /\ In (Cond "!ok" false) t /\
  In (Cond "case ua.UserNameIdentityToken" true) t.
Proof. exact silent_activation. Qed.
Print Assumptions c91_password_refuted.

(** A publish request may be answered with a fault although its acknowledgements have been carried out. *)
Theorem c91_acknowledged_refuted : exists t, handles "Publish" t Return /\
  In (Did (Send true "ServiceFault" "BadNoSubscription")) t /\ In (Did (Act "sub.acknowledge")) t.
Proof. exact fault_after_acknowledge. Qed.
Print Assumptions c91_acknowledged_refuted.

(** * C34: session services need an activated session on their own channel *)

(** In each of the handlers of session services the four checks come first: whatever changes or uses the server, and every response, comes after all of them; only the deletion of a session that is not activated comes earlier. *)
Theorem c34_handlers : forall service before e after x, handles service (before ++ e :: after) x -> ~ In service open_services ->
  needs_checks e = true ->
  firstn 6 (filter is_check before) = checks_passed \/
  (is_delete_session e = true /\ firstn 6 (filter is_check before) = not_activated).
Proof. exact checks_first. Qed.
Print Assumptions c34_handlers.

(** * C92: the diagnostics count the requests *)

(** The counters of a session: for each service the requests that reached the session, and those answered with a fault; faults sent to waiting publish requests count as publish errors. *)
Theorem c92_service_counts : forall hs sid service, Forall valid hs -> In service counted_services ->
  read_field diagnostics_fields (count_all hs) sid (service ++ "Count") =
  Some (uint32 (number (fun h => of_service service sid h && reached h) hs),
        uint32 (number (fun h => of_service service sid h && reached h && faulted h) hs +
                if String.eqb service "Publish" then queued_faults sid hs else 0)).
Proof. exact service_counts. Qed.
Print Assumptions c92_service_counts.

(** The total over the services. *)
Theorem c92_total : forall hs sid, Forall valid hs ->
  read_field diagnostics_fields (count_all hs) sid "TotalRequestCount" =
  Some (uint32 (number (fun h => of_session sid h && reached h) hs),
        uint32 (number (fun h => of_session sid h && reached h && faulted h) hs + queued_faults sid hs)).
Proof. exact total_counts. Qed.
Print Assumptions c92_total.

(** The variables below the session diagnostics object are those of the standard and show the same. *)
Theorem c92_variables : map fst diagnostics_variables = standard_variables.
Proof. exact variables_standard. Qed.
Print Assumptions c92_variables.

Theorem c92_variables_same : forall d sid service, In service counted_services ->
  read_field diagnostics_variables d sid (variable_name service) = read_field diagnostics_fields d sid (service ++ "Count").
Proof. exact variables_same. Qed.
Print Assumptions c92_variables_same.

Theorem c92_variables_total : forall d sid,
  read_field diagnostics_variables d sid "TotalRequestCount" = read_field diagnostics_fields d sid "TotalRequestCount".
Proof. exact variables_total. Qed.
Print Assumptions c92_variables_total.

(** The counters of the server: refused requests, refused sessions, and of both those refused for a reason of security.  Missing: histories with a refusal of the kinds in not_counted. *)
Theorem c92_rejected_requests_partial : forall hs, Forall valid hs -> Forall (fun h => not_counted h = false) hs ->
  dg_summary (count_all hs) "summary.RejectedRequestsCount"%string = uint32 (number rejected hs).
Proof. exact rejected_requests. Qed.
Print Assumptions c92_rejected_requests_partial.

Theorem c92_rejected_sessions_partial : forall hs, Forall valid hs -> Forall (fun h => not_counted h = false) hs ->
  dg_summary (count_all hs) "summary.RejectedSessionCount"%string = uint32 (number (fun h => opens_session h && rejected h) hs).
Proof. exact rejected_sessions. Qed.
Print Assumptions c92_rejected_sessions_partial.

Theorem c92_rejected_security_requests_partial : forall hs, Forall valid hs -> Forall (fun h => not_counted h = false) hs ->
  dg_summary (count_all hs) "summary.SecurityRejectedRequestsCount"%string = uint32 (number rejected_for_security hs).
Proof. exact security_rejected_requests. Qed.
Print Assumptions c92_rejected_security_requests_partial.

Theorem c92_rejected_security_sessions_partial : forall hs, Forall valid hs -> Forall (fun h => not_counted h = false) hs ->
  dg_summary (count_all hs) "summary.SecurityRejectedSessionCount"%string = uint32 (number (fun h => opens_session h && rejected_for_security h) hs).
Proof. exact security_rejected_sessions. Qed.
Print Assumptions c92_rejected_security_sessions_partial.

(** HistoryRead requests are counted neither by themselves nor in the total. *)
Theorem c92_history_read_refuted : (forall hs sid, Forall valid hs ->
    read_field diagnostics_fields (count_all hs) sid "HistoryReadCount" = Some (0, 0)) /\
  (exists hs, Forall valid hs /\ number (of_service "HistoryRead" 7) hs = 1 /\
     read_field diagnostics_fields (count_all hs) 7 "TotalRequestCount" = Some (0, 0)).
Proof. exact history_read_refuted. Qed.
Print Assumptions c92_history_read_refuted.

(** Three kinds of refusals are not counted as such. *)
Theorem c92_not_counted_refuted : forall service code,
  In (service, code) [("Publish", "BadNoSubscription"); ("Republish", "BadMessageNotAvailable"); ("UnregisterNodes", "BadSessionNotActivated")]%string ->
  exists h, valid h /\ hd_service h = service /\ In (Did (Send true "ServiceFault" code)) (hd_trace h) /\
    rejected h = true /\ dg_summary (count_all [h]) "summary.RejectedRequestsCount"%string = 0.
Proof. exact rejected_refuted. Qed.
Print Assumptions c92_not_counted_refuted.

(** UnauthorizedRequestCount never moves. *)
Theorem c92_unauthorized_refuted : forall hs sid, Forall valid hs -> dg_session (count_all hs) sid "unauthorizedRequestCount"%string = 0.
Proof. exact unauthorized_never. Qed.
Print Assumptions c92_unauthorized_refuted.
