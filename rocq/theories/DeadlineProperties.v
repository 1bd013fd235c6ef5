(** C121: a connection lives as long as the token used on it, and a client that makes requests keeps it. *)
From Coq Require Import ZArith List Bool.
From Verif Require Import Requests Deadline DeadlineSpec DeadlineProofs DeadlineLemmas.
Import ListNotations.
Open Scope Z_scope.

(** The lifetime a client asks for is granted between 5 minutes and an hour. *)
Theorem c121_lifetime : forall r,
  revised r = lifetime r /\ 300000 <= lifetime r <= 3600000 /\ (300000 <= r <= 3600000 -> lifetime r = r).
Proof. exact lifetimes. Qed.
Print Assumptions c121_lifetime.
(** On a connection still there, what comes next is handled exactly if it comes before the end of the token last
    used (without one: 20 seconds after connecting) and fits: one opening, renewals after it, and messages with
    the token in use or the one issued last. *)
Theorem c121_exact : forall start h o, issued h < 2 ^ 32 - 1 -> k_alive (run (connected start) h) = true ->
  (k_alive (run (connected start) (h ++ [o])) = true <-> time_of o < limit start h /\ fits h o).
Proof. exact exactly_until. Qed.
Print Assumptions c121_exact.
(** A connection that has ended stays so, *)
Theorem c121_for_good : forall start h l, k_alive (run (connected start) h) = false -> k_alive (run (connected start) (h ++ l)) = false.
Proof. exact gone_for_good. Qed.
Print Assumptions c121_for_good.
(** nobody keeps one longer than 20 seconds without opening a channel, *)
Theorem c121_silent : forall start h o, k_alive (run (connected start) (h ++ [o])) = true -> issued h = 0 -> time_of o < start + 20000.
Proof. exact twenty_seconds. Qed.
Print Assumptions c121_silent.
(** or longer than an hour without renewing. *)
Theorem c121_bounded : forall start T h o, issued h < 2 ^ 32 - 1 -> k_alive (run (connected start) (h ++ [o])) = true ->
  Forall (fun o => match o with Opens t _ | Renews t _ => t <= T | _ => True end) h -> time_of o < Z.max (start + 20000) (T + 3600000).
Proof. exact within_the_hour. Qed.
Print Assumptions c121_bounded.
(** The library's client that makes a request at least every minute keeps its connection, whatever lifetimes it asks
    for and however many tokens it uses, if the network is not too slow and its first request after opening comes
    within 20 seconds of connecting. *)
Theorem c121_busy_client : forall gap d start opened back requested c l,
  0 <= gap <= 60000 -> 0 <= d -> gap + 4 * d < 75000 -> start <= opened -> 0 <= back <= d ->
  opened + back <= c_at c -> c_at c + c_go c < start + 20000 -> steady gap d (opened + back) (c :: l) ->
  k_alive (run (connected start) (opening opened back requested (c :: l))) = true.
Proof. exact busy. Qed.
Print Assumptions c121_busy_client.
(** REFUTED: that a token is good for the lifetime it was granted with.  A client which opens a channel and makes its
    first request 20 seconds after connecting finds the connection ended, whatever lifetime was granted. *)
Theorem c121_unused_refuted : forall requested t n, 300000 <= lifetime requested /\
  (20000 <= t -> k_alive (run (connected 0) [Opens 10 requested; Message t n]) = false).
Proof. exact unused_token. Qed.
Print Assumptions c121_unused_refuted.
