(** Accesses of the server's threads to shared data. *)
From Coq Require Import ZArith String List Bool.
From Verif Require Import Flow Mutex Race RaceTable MutexSpec RaceSpec RaceProofs RaceLemmas.
Import ListNotations.

(** * C96: threads of the server do not access data while another writes it *)

(** A lock that one thread holds for writing is held by no other thread. *)
Theorem c96_lock_exclusion : forall work ts, reaches work ts ->
  forall i j ti tj l m, i <> j -> nth_error ts i = Some ti -> nth_error ts j = Some tj ->
  In (Ex, l) (th_held ti) -> ~ In (m, l) (th_held tj).
Proof. exact lock_exclusion. Qed.
Print Assumptions c96_lock_exclusion.

(** For the fields of [guarded]: no schedule of any number of threads of the server comes to a race. Missing: the other fields, some of which are refuted below. *)
Theorem c96_no_race_partial : forall work ts,
  (forall ops, In ops work -> data_thread ops) -> comes_to work ts ->
  forall s f g, guard (fst s) f g -> ~ race work ts s f.
Proof. exact no_race. Qed.
Print Assumptions c96_no_race_partial.

(** While a thread has the lock of a structure, no other thread writes its fields, nor reads them if it has the lock for writing. *)
Theorem c96_protects_partial : forall work ts,
  (forall ops, In ops work -> data_thread ops) -> comes_to work ts ->
  forall i j ops ti tj m x s f g, i <> j -> nth_error ts i = Some ti -> In (m, (g, snd s)) (th_held ti) ->
  nth_error work j = Some ops -> nth_error ts j = Some tj -> next ops tj = Some x -> guard (fst s) f g ->
  (m = Ex -> ~ accesses x s f) /\ ~ writes x s f.
Proof. exact protects. Qed.
Print Assumptions c96_protects_partial.

(** Each of these fields is written by some thread after its structure was made. *)
Theorem c96_guarded_written : forall c f g, guard c f g -> written c f.
Proof. exact all_written. Qed.
Print Assumptions c96_guarded_written.

(** Maps that one thread changes while another reads them; Go then ends the process. Reading the variable SubscriptionDiagnosticsArray walks the subscriptions without the lock of their manager; GetChildren looks up nodes without the lock of the namespace manager. *)
Theorem c96_maps_refuted : (race_of "Server.handleConnection" "Server.handleRead.task1" KSubscriptionManager "subscriptionsByID" [(Ex, (KSubscriptionManager, 0%Z))] [] /\
  race_of "NamespaceManager.AddNodes" "NamespaceManager.GetChildren" KNamespaceManager "nodes" [(Ex, (KNamespaceManager, 0%Z))] [])%string.
Proof. exact (conj race_subs_by_id race_nodes). Qed.
Print Assumptions c96_maps_refuted.

(** Republish works on the queue of sent notifications without the lock of the subscription, while publishing changes it. *)
Theorem c96_republish_refuted : (race_of "Server.handleConnection" "Subscription.startPublishing.go1" KSubscription "retransmissionQueue" [] [(Ex, (KSubscription, 0%Z))])%string.
Proof. exact race_retransmission. Qed.
Print Assumptions c96_republish_refuted.

(** A response can be given the id of a new token while it is still signed with the old keys: the id changes without the mutex for sending. *)
Theorem c96_token_refuted : (race_of "Server.handleConnection" "Subscription.startPublishing.go1" KChannel "tokenID" [(Ex, (KReceiving, 0%Z))] [(Ex, (KSending, 0%Z)); (Ex, (KSubscription, 0%Z))])%string.
Proof. exact race_token. Qed.
Print Assumptions c96_token_refuted.

(** Counts can be lost. *)
Theorem c96_counts_refuted : (lost_update "Server.handleConnection" "Server.handleConnection" KSession "requestCount" /\
  lost_update "Server.handleConnection" "Server.handleConnection" KServer "serverDiagnosticsSummary" /\
  lost_update "Server.handleConnection" "Server.handleConnection" KSubscription "disabledMonitoredItemCount" /\
  lost_update "Subscription.startPublishing.go1" "NamespaceManager.OnEvent" KSubscription "monitoringQueueOverflowCount")%string.
Proof. exact (conj race_request_count (conj race_summary (conj race_disabled race_overflow))). Qed.
Print Assumptions c96_counts_refuted.

(** An item can be taken from the wrong poll group: the sampling interval is read after the lock was released. *)
Theorem c96_sampling_refuted : (race_of "Server.handleConnection" "Server.handleConnection" KDataItem "samplingInterval" [(Ex, (KDataItem, 0%Z))] [])%string.
Proof. exact race_sampling. Qed.
Print Assumptions c96_sampling_refuted.

(** The session of a subscription and its identity, locales, items, the list of endpoints (written under a read lock), the state of the server, and handlers. *)
Theorem c96_others_refuted : (race_of "NewSubscriptionManager.go1" "PollGroup.run" KSubscription "session" [(Ex, (KSubscription, 0%Z)); (Ex, (KSubscriptionManager, 0%Z))] [(Ex, (KDataItem, 0%Z))] /\
  race_of "Server.handleConnection" "Server.handleRead.task1" KSession "userIdentity" [(Ex, (KSession, 0%Z)); (Ex, (KSessionManager, 0%Z))] [] /\
  race_of "Server.handleConnection" "Server.handleRead.task1" KSession "localeIds" [] [] /\
  race_of "Server.handleConnection" "Server.handleRead.task1" KSubscription "items" [(Ex, (KSubscription, 0%Z))] [] /\
  race_of "Server.Endpoints" "Server.Endpoints" KServer "endpoints" [(Sh, (KServer, 0%Z))] [(Sh, (KServer, 0%Z))] /\
  race_of "Server.Close" "Server.handleRead.task1" KServer "state" [(Ex, (KServer, 0%Z))] [] /\
  race_of "MethodNode.SetCallMethodHandler" "Server.handleCall.task1" KMethodNode "callMethodHandler" [(Ex, (KMethodNode, 0%Z))] [] /\
  race_of "VariableNode.SetReadValueHandler" "Server.handleRead.task1" KVariableNode "readValueHandler" [(Ex, (KVariableNode, 0%Z))] [] /\
  race_of "Server.handleConnection" "NewSubscriptionManager.go1" KSubscription "cancelPublishing" [] [(Sh, (KSubscriptionManager, 0%Z))])%string.
Proof. exact (conj race_session (conj race_identity (conj race_locales (conj race_items (conj race_endpoints (conj race_state (conj race_method_handler (conj race_read_handler race_cancel)))))))). Qed.
Print Assumptions c96_others_refuted.
