(** The properties of the server's locks. *)
From Coq Require Import ZArith String List Bool.
From Verif Require Import Flow Mutex MutexTable MutexSpec MutexProofs MutexLemmas.
Import ListNotations.

(** * C75: the server does not deadlock, for all its functions *)

(** There is an order of the kinds of locks in which every thread of the server takes its locks. Missing: the pairs in the list out_of_order. *)
Theorem c75_server_order_partial : exists level : cls -> nat, forall ops, server_thread ops ->
  forall c d, nests ops c d -> level c < level d \/ In (c, d) out_of_order.
Proof. exact server_order. Qed.
Print Assumptions c75_server_order_partial.

(** Any number of threads, doing anything, on any structures: they never deadlock. Missing: threads that take two locks in one of the orders of that list. *)
Theorem c75_server_no_deadlock_partial : forall work, in_order work -> forall ts, reaches work ts -> ~ deadlock ts.
Proof. exact no_deadlock. Qed.
Print Assumptions c75_server_no_deadlock_partial.

Theorem c75_server_completes_partial : forall work, in_order work -> forall ts, reaches work ts ->
  exists schedule ts', execute ts schedule = Some ts' /\ finished ts'.
Proof. exact completes. Qed.
Print Assumptions c75_server_completes_partial.

(** No schedule goes on for ever. *)
Theorem c75_server_bounded : forall work schedule ts, execute (map fresh work) schedule = Some ts -> length schedule <= 2 * length (concat work).
Proof. exact bounded. Qed.
Print Assumptions c75_server_bounded.

(** A subscription expires in its own publishing while the manager looks for expired subscriptions. *)
Theorem c75_server_expiry_refuted : deadlock_of "Subscription.startPublishing.go1" "NewSubscriptionManager.go1"
  [(Ex, sub)] Ex manager [(Ex, manager)] Sh sub.
Proof. exact expiry_deadlock. Qed.
Print Assumptions c75_server_expiry_refuted.

(** An item that monitors the diagnostics of its subscription is sampled while the subscription publishes. *)
Theorem c75_server_diagnostics_refuted : deadlock_of "Subscription.startPublishing.go1" "PollGroup.run"
  [(Ex, sub)] Ex item [(Ex, item)] Sh sub.
Proof. exact poll_deadlock. Qed.
Print Assumptions c75_server_diagnostics_refuted.

(** The same after ResendData, with no other thread. *)
Theorem c75_server_resend_refuted : deadlock_alone "Subscription.startPublishing.go1" [(Ex, item); (Ex, sub)] Sh sub.
Proof. exact resend_deadlock. Qed.
Print Assumptions c75_server_resend_refuted.

(** An item that monitors the subscription diagnostics of its session is sampled while the manager removes its expired subscription. *)
Theorem c75_server_session_diagnostics_refuted : deadlock_of "PollGroup.run" "NewSubscriptionManager.go1"
  [(Ex, item)] Sh manager [(Ex, sub); (Ex, manager)] Ex item.
Proof. exact sweep_deadlock. Qed.
Print Assumptions c75_server_session_diagnostics_refuted.

(** An event is delivered to an item while the item is deleted. *)
Theorem c75_server_event_refuted : deadlock_of "ObjectNode.OnEvent" "EventMonitoredItem.Delete"
  [(Sh, object)] Ex event_item [(Ex, event_item)] Ex object.
Proof. exact event_deadlock. Qed.
Print Assumptions c75_server_event_refuted.

(** An event is filtered by its type while the application adds a node below the object. *)
Theorem c75_server_add_node_refuted : deadlock_of "ObjectNode.OnEvent" "NamespaceManager.AddNode"
  [(Ex, event_item); (Sh, object)] Sh names [(Ex, names)] Ex object.
Proof. exact event_type_deadlock. Qed.
Print Assumptions c75_server_add_node_refuted.

(** An event item that is linked to itself. *)
Theorem c75_server_self_trigger_refuted : deadlock_alone "ObjectNode.OnEvent" [(Ex, event_item); (Sh, object)] Ex event_item.
Proof. exact self_trigger_deadlock. Qed.
Print Assumptions c75_server_self_trigger_refuted.

(** An event item and a data item that are linked to each other. *)
Theorem c75_server_trigger_refuted : deadlock_of "ObjectNode.OnEvent" "Subscription.startPublishing.go1"
  [(Ex, event_item); (Sh, object)] Ex item [(Ex, item); (Ex, sub)] Ex event_item.
Proof. exact trigger_deadlock. Qed.
Print Assumptions c75_server_trigger_refuted.

(** The first request for the endpoints while the server is closed. *)
Theorem c75_server_endpoints_refuted : deadlock_of "Server.Close" "Server.Endpoints" [] Ex server [(Sh, server)] Sh server.
Proof. exact endpoints_deadlock. Qed.
Print Assumptions c75_server_endpoints_refuted.

(** * C93: every lock is released *)

(** When a thread is done it has released every lock as often as it has taken it. *)
Theorem c93_released : forall root ks m c, does root ks -> times (Lk m c) ks = times (Un m c) ks.
Proof. exact all_released. Qed.
Print Assumptions c93_released.

(** It never releases a lock that it does not hold. *)
Theorem c93_no_stray_release : forall root before after m c, does root (before ++ after) -> times (Un m c) before <= times (Lk m c) before.
Proof. exact none_stray. Qed.
Print Assumptions c93_no_stray_release.

(** * C94: one client does not hold up the others *)

(** The only waits of threads with a lock. Missing: the waits in the list waits_with_lock. *)
Theorem c94_waits_partial : forall ops, server_thread ops -> forall c w, waits_holding ops c w -> In (c, w) waits_with_lock.
Proof. exact server_waits. Qed.
Print Assumptions c94_waits_partial.

(** No thread waits for the network, a client or the application while it holds one of these locks. Missing: those of subscriptions, data items, variables and channels. *)
Theorem c94_global_locks_partial : forall ops, server_thread ops -> forall c w, waits_holding ops c w ->
  ~ In c [KServer; KSessionManager; KSession; KSubscriptionManager; KNamespaceManager; KScheduler; KPollGroup; KEventItem; KObjectNode].
Proof. exact server_waits_global. Qed.
Print Assumptions c94_global_locks_partial.

(** A client that does not read its notifications holds up the subscription manager, and with it the requests of every other client. *)
Theorem c94_slow_client_refuted : held_up "Subscription.startPublishing.go1" "NewSubscriptionManager.go1" "Server.handleConnection"
  [(Ex, sending); (Ex, sub)] "network write" [(Ex, manager)] Sh sub [] Sh manager.
Proof. exact slow_client. Qed.
Print Assumptions c94_slow_client_refuted.

(** So does a session that does not ask for its status changes. *)
Theorem c94_state_channel_refuted : held_up "Subscription.startPublishing.go1" "NewSubscriptionManager.go1" "Server.handleConnection"
  [(Ex, sub)] "channel s.session.stateChanges" [(Ex, manager)] Sh sub [] Sh manager.
Proof. exact full_state_channel. Qed.
Print Assumptions c94_state_channel_refuted.
