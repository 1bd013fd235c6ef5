(** What is asked of the service handlers, in terms of what a run of a handler does. *)
From Coq Require Import ZArith List String Bool.
From Verif Require Import Handlers HandlerTable.
Import ListNotations.
Open Scope Z_scope.

(** How many events of a run have a property *)
Definition count_if (p : event -> bool) (t : list event) : nat := List.length (filter p t).

(** The request gets an answer: a message on its channel with its request id, the end of the
    channel, or a place in the queue of publish requests. *)
Definition is_answer (e : event) : bool :=
  match e with
  | Did (Send true _ _) | Did (Abort _) | Did Queue => true
  | _ => false
  end.

(** The request is answered with a service fault / with the end of the channel *)
Definition is_fault (e : event) : bool :=
  match e with Did (Send true m _) => String.eqb m "ServiceFault" | _ => false end.
Definition is_abort (e : event) : bool :=
  match e with Did (Abort _) => true | _ => false end.

(** The answers a client of a service can get: its response, a service fault with a bad code, the
    end of the channel; a publish request may also have to wait. *)
Definition answer_fits (service : string) (e : event) : bool :=
  match e with
  | Did (Send true m c) =>
      (String.eqb m (service ++ "Response")) ||
      (String.eqb m "ServiceFault" && (String.prefix "Bad" c || String.eqb c "?"))
  | Did (Abort c) => String.eqb c "BadSecurityPolicyRejected"
  | Did Queue => String.eqb service "Publish"
  | _ => true
  end.

(** The calls that only look something up *)
Definition is_lookup (a : string) : bool :=
  existsb (String.eqb a) ["srv.SessionManager().Get"%string; "session.SecureChannelId"%string].

Definition did_something (e : event) : bool :=
  match e with Did (Act a) => negb (is_lookup a) | _ => false end.

(** The four checks of a request for a session, with the outcomes that let it pass: the channel is
    not for discovery only, the token is that of a session, the session is activated, and it is
    activated on this channel. *)
Definition is_check (e : event) : bool :=
  match e with
  | Did (Act a) => is_lookup a
  | Cond c _ => existsb (String.eqb c)
      ["ch.discoveryOnly"; "!ok"; "id == 0"; "id != ch.ChannelID()"]%string
  | _ => false
  end.

Definition checks_passed : list event := [
  Cond "ch.discoveryOnly" false;
  Did (Act "srv.SessionManager().Get"); Cond "!ok" false;
  Did (Act "session.SecureChannelId"); Cond "id == 0" false;
  Cond "id != ch.ChannelID()" false ]%string.

(** The services of the server *)
Definition offered_services : list string := [
  "FindServers"; "GetEndpoints"; "CreateSession"; "ActivateSession"; "CloseSession"; "Cancel";
  "Browse"; "BrowseNext"; "TranslateBrowsePathsToNodeIDs"; "RegisterNodes"; "UnregisterNodes";
  "Read"; "HistoryRead"; "Write"; "Call"; "CreateMonitoredItems"; "ModifyMonitoredItems";
  "SetMonitoringMode"; "SetTriggering"; "DeleteMonitoredItems"; "CreateSubscription";
  "ModifySubscription"; "SetPublishingMode"; "Publish"; "Republish"; "DeleteSubscriptions" ]%string.

(** The services that need no session *)
Definition open_services : list string :=
  ["FindServers"; "GetEndpoints"; "CreateSession"; "ActivateSession"]%string.

(** The checks up to the point where the session turns out not to be activated *)
Definition not_activated : list event := [
  Cond "ch.discoveryOnly" false;
  Did (Act "srv.SessionManager().Get"); Cond "!ok" false;
  Did (Act "session.SecureChannelId"); Cond "id == 0" true ]%string.

(** What only a request that passed the checks may lead to: a call other than a lookup, a response
    of the service, a place in the queue *)
Definition needs_checks (e : event) : bool :=
  did_something e ||
  match e with
  | Did (Send true m _) => negb (String.eqb m "ServiceFault")
  | Did Queue => true
  | _ => false
  end.

Definition is_delete_session (e : event) : bool :=
  match e with Did (Act a) => String.eqb a "srv.SessionManager().Delete" | _ => false end.

(** The answer is a service fault with this code *)
Definition is_fault_with (code : string) (e : event) : bool :=
  match e with
  | Did (Send true m c) => String.eqb m "ServiceFault" && String.eqb c code
  | _ => false
  end.

(** The calls that may come together with a service fault: a session found not to be activated is
    deleted; a session or a subscription is refused by the table it should be added to; the
    credentials are shown to the application before they are refused. *)
Definition goes_with_fault (call code : string) : bool :=
  is_lookup call ||
  existsb (fun r => String.eqb call (fst r) && String.eqb code (snd r))
    [("srv.SessionManager().Delete", "BadSessionNotActivated");
     ("srv.SessionManager().Add", "BadTooManySessions");
     ("sm.Add", "BadTooManySubscriptions");
     ("auth.AuthenticateAnonymousIdentity", "?"); ("auth.AuthenticateUserNameIdentity", "?");
     ("auth.AuthenticateX509Identity", "?"); ("auth.AuthenticateIssuedIdentity", "?")]%string.

(** A run of the handler of a service *)
Definition handles (service : string) (t : list event) (x : exit) : Prop :=
  exists p, In (service, p) handlers /\ run p t x.

(** The request was handled as the server handles requests for the service *)
Definition valid (h : handled) : Prop := handles (hd_service h) (hd_trace h) (hd_exit h).

(** The services with a counter in the session diagnostics that the server offers *)
Definition counted_services : list string := [
  "Read"; "Write"; "Call"; "CreateMonitoredItems"; "ModifyMonitoredItems"; "SetMonitoringMode";
  "SetTriggering"; "DeleteMonitoredItems"; "CreateSubscription"; "ModifySubscription";
  "SetPublishingMode"; "Publish"; "Republish"; "DeleteSubscriptions"; "Browse"; "BrowseNext";
  "TranslateBrowsePathsToNodeIDs"; "RegisterNodes"; "UnregisterNodes" ]%string.

(** The request reached its session: it was not refused before the session was found *)
Definition reached (h : handled) : bool :=
  negb (existsb is_abort (hd_trace h)) && negb (existsb (is_fault_with "BadSessionIDInvalid") (hd_trace h)).

Definition faulted (h : handled) : bool := existsb is_fault (hd_trace h).

(** A UInt32 that counts starts again at zero after 2^32 steps *)
Definition uint32 (n : Z) : Z := n mod 2 ^ 32.

Definition number (f : handled -> bool) (hs : list handled) : Z := Z.of_nat (List.length (filter f hs)).

(** The service faults sent to publish requests of the session that waited in its queue *)
Definition is_queued_fault (e : event) : bool :=
  match e with Did (Send false m _) => String.eqb m "ServiceFault" | _ => false end.

Definition queued_faults (sid : Z) (hs : list handled) : Z :=
  Z.of_nat (List.list_sum (map (fun h => if hd_sid h =? sid then count_if is_queued_fault (hd_trace h) else 0%nat) hs)).

Definition of_service (service : string) (sid : Z) (h : handled) : bool :=
  String.eqb (hd_service h) service && (hd_sid h =? sid).

Definition of_session (sid : Z) (h : handled) : bool :=
  existsb (String.eqb (hd_service h)) counted_services && (hd_sid h =? sid).

(** The request was refused as a whole *)
Definition rejected (h : handled) : bool := faulted h || existsb is_abort (hd_trace h).

(** The refusals the server does not count (or, the last, does not always count) *)
Definition not_counted (h : handled) : bool :=
  let is s c := String.eqb (hd_service h) s && existsb (is_fault_with c) (hd_trace h) in
  (is "Publish" "BadNoSubscription" || is "Republish" "BadMessageNotAvailable" ||
   is "UnregisterNodes" "BadSessionNotActivated" || is "ActivateSession" "BadIdentityTokenRejected")%string.

(** Refused for a reason of security: the channel is for discovery only, or a session is not created
    or activated, other than for want of room or of a session *)
Definition opens_session (h : handled) : bool :=
  String.eqb (hd_service h) "CreateSession" || String.eqb (hd_service h) "ActivateSession".

Definition rejected_for_security (h : handled) : bool :=
  existsb is_abort (hd_trace h) ||
  opens_session h && faulted h &&
  negb (existsb (is_fault_with "BadTooManySessions") (hd_trace h)) &&
  negb (existsb (is_fault_with "BadSessionIDInvalid") (hd_trace h)).

(** OPC UA Part 5: the variables of a SessionDiagnosticsVariableType object that hold a
    ServiceCounterDataType value, without UnauthorizedRequestCount, which is a plain number *)
Definition standard_variables : list string := [
  "TotalRequestCount"; "ReadCount"; "HistoryReadCount"; "WriteCount"; "HistoryUpdateCount"; "CallCount";
  "CreateMonitoredItemsCount"; "ModifyMonitoredItemsCount"; "SetMonitoringModeCount"; "SetTriggeringCount";
  "DeleteMonitoredItemsCount"; "CreateSubscriptionCount"; "ModifySubscriptionCount"; "SetPublishingModeCount";
  "PublishCount"; "RepublishCount"; "TransferSubscriptionsCount"; "DeleteSubscriptionsCount"; "AddNodesCount";
  "AddReferencesCount"; "DeleteNodesCount"; "DeleteReferencesCount"; "BrowseCount"; "BrowseNextCount";
  "TranslateBrowsePathsToNodeIdsCount"; "QueryFirstCount"; "QueryNextCount"; "RegisterNodesCount";
  "UnregisterNodesCount" ]%string.

(** The name of the variable for a service: as that of the field, but for one letter *)
Definition variable_name (service : string) : string :=
  if String.eqb service "TranslateBrowsePathsToNodeIDs" then "TranslateBrowsePathsToNodeIdsCount"
  else (service ++ "Count")%string.
