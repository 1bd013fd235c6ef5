(** The properties of the locks of clients. *)
From Coq Require Import ZArith String List Bool.
From Verif Require Import Flow Mutex MutexSpec ClientLocks ClientLocksSpec ClientLocksProofs ClientLocksLemmas.
Import ListNotations.
Open Scope string_scope.

(** * C109: calls on one client do not deadlock *)

(** When a call is done it has released every lock as often as it has taken it, *)
Theorem c109_released : forall root ks m c, client_does root ks -> times (Lk m c) ks = times (Un m c) ks.
Proof. exact released. Qed.
Print Assumptions c109_released.

(** and it never releases a lock that it does not hold. *)
Theorem c109_no_stray_release : forall root before after m c, client_does root (before ++ after)%list ->
  times (Un m c) before <= times (Lk m c) before.
Proof. exact no_stray. Qed.
Print Assumptions c109_no_stray_release.

(** There is an order in which every thread takes its locks. Missing: the channel's lock while sending. *)
Theorem c109_order_partial : exists level : cls -> nat, forall root ops, client_thread root ops ->
  forall c d, nests ops c d -> level c < level d \/ (c, d) = (KSending, KChannel).
Proof. exact client_order. Qed.
Print Assumptions c109_order_partial.

(** Any number of threads on any clients never deadlock. Missing: requests with extension objects. *)
Theorem c109_no_deadlock_partial : forall work, never_nested KSending KChannel work -> forall ts, reaches work ts -> ~ deadlock ts.
Proof. exact plain_no_deadlock. Qed.
Print Assumptions c109_no_deadlock_partial.

Theorem c109_completes_partial : forall work, never_nested KSending KChannel work -> forall ts, reaches work ts ->
  exists schedule ts', execute ts schedule = Some ts' /\ finished ts'.
Proof. exact plain_completes. Qed.
Print Assumptions c109_completes_partial.

(** Requests of any kind, aborts and the worker never deadlock. Missing: Close, and Dial as long as it opens the channel. *)
Theorem c109_open_no_deadlock_partial : forall work, never_nested KChannel KSending work -> forall ts, reaches work ts -> ~ deadlock ts.
Proof. exact open_no_deadlock. Qed.
Print Assumptions c109_open_no_deadlock_partial.

Theorem c109_open_completes_partial : forall work, never_nested KChannel KSending work -> forall ts, reaches work ts ->
  exists schedule ts', execute ts schedule = Some ts' /\ finished ts'.
Proof. exact open_completes. Qed.
Print Assumptions c109_open_completes_partial.

(** Only these calls take the channel's lock while they send, *)
Theorem c109_who_sends_objects : forall root ops, client_thread root ops -> nests ops KSending KChannel ->
  In root ["Client.request"; "Dial"; "FindServers"].
Proof. exact who_sends_objects. Qed.
Print Assumptions c109_who_sends_objects.

(** and only these send while they have it. *)
Theorem c109_who_sends_locked : forall root ops, client_thread root ops -> nests ops KChannel KSending ->
  In root ["Client.Close"; "Dial"; "FindServers"].
Proof. exact who_sends_locked. Qed.
Print Assumptions c109_who_sends_locked.

(** What is waited for with a lock, and who waits with the channel's lock *)
Theorem c109_waits_partial : forall root ops, client_thread root ops -> forall c w, waits_holding ops c w -> In (c, w) client_waits.
Proof. exact waits_listed. Qed.
Print Assumptions c109_waits_partial.

Theorem c109_who_waits_locked : forall root ops, client_thread root ops -> forall w, waits_holding ops KChannel w ->
  In root ["Client.Close"; "Dial"; "FindServers"].
Proof. exact who_waits_locked. Qed.
Print Assumptions c109_who_waits_locked.

(** A request with an extension object and Close deadlock: the request is being encoded and needs the channel's lock, *)
Theorem c109_close_refuted : client_deadlock "Client.request" "Client.Close"
  [(Ex, sender)] Sh channel [(Ex, channel)] Ex sender.
Proof. exact close_deadlock. Qed.
Print Assumptions c109_close_refuted.

(** and neither they nor any other call that needs that lock ever return. *)
Theorem c109_never_return_refuted : never_finish "Client.request" "Client.Close" channel.
Proof. exact close_for_ever. Qed.
Print Assumptions c109_never_return_refuted.

(** Abort and IsClosing are such calls. *)
Theorem c109_abort_needs_lock : forall root ops, root = "Client.Abort" \/ root = "Client.IsClosing" -> client_thread root ops ->
  exists k, In (OLk Ex (KChannel, k)) ops.
Proof. exact abort_needs_lock. Qed.
Print Assumptions c109_abort_needs_lock.

(** Dial waits for the answer to its first request while the worker waits for Dial before it can decode that answer,
    if the answer has an extension object. *)
Theorem c109_dial_refuted : holds_up "Dial" "responseWorker" [(Ex, channel)] "response" [(Ex, receiver)] Sh channel.
Proof. exact dial_holds_up. Qed.
Print Assumptions c109_dial_refuted.

(** So does a Close that renews the token. *)
Theorem c109_close_renewal_refuted : holds_up "Client.Close" "responseWorker" [(Ex, channel)] "response" [(Ex, receiver)] Sh channel.
Proof. exact shut_holds_up. Qed.
Print Assumptions c109_close_renewal_refuted.
