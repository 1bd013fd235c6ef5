(** C123: a server takes every connection until it is closed. *)
From Coq Require Import ZArith List Bool.
From Verif Require Import Accepting AcceptingSpec AcceptingLemmas.
Import ListNotations.
Open Scope Z_scope.

(** While connections come or none does in time, each is handled once, in the order they came, and the server waits for the next. *)
Theorem c123_served : forall ts, Forall goes_on ts -> snd (serve 0 ts) = Waiting /\ handled (fst (serve 0 ts)) = came ts.
Proof. exact served. Qed.
Print Assumptions c123_served.
(** It stops waiting for nothing else. *)
Theorem c123_only_then : forall ts, snd (serve 0 ts) = Waiting -> Forall goes_on ts.
Proof. exact only_then. Qed.
Print Assumptions c123_only_then.
(** When it has been closed it returns BadServerHalted, having handled all connections before. *)
Theorem c123_closed : forall a timeout r, Forall goes_on a ->
  snd (serve 0 (a ++ mkTurn (Failed timeout) false :: r)) = Returned 0x800E0000 /\ handled (fst (serve 0 (a ++ mkTurn (Failed timeout) false :: r))) = came a.
Proof. exact closed. Qed.
Print Assumptions c123_closed.
(** When no connection comes in time it pauses 5 milliseconds, twice as long each time in a row, at most a second, and starts anew after a connection. *)
Theorem c123_pauses : (forall k, serve 0 (repeat no_connection k) = (map (fun i => Sleep (pause i)) (seq 0 k), Waiting)) /\
  (forall a c s k, Forall goes_on a ->
    serve 0 (a ++ mkTurn (Conn c) s :: repeat no_connection k) = (fst (serve 0 (a ++ [mkTurn (Conn c) s])) ++ map (fun i => Sleep (pause i)) (seq 0 k), Waiting)) /\
  (forall k, 5 <= pause k <= 1000).
Proof. exact (conj pauses_new (conj backoff pause_range)). Qed.
Print Assumptions c123_pauses.
(** An error that is no time-out, as when there are too many open files for a moment, ends it for good: no later connection is handled, the state still is Running, and it cannot be started again. *)
Theorem c123_error_refuted : forall a r, Forall goes_on a -> let ts := a ++ mkTurn (Failed false) true :: r in
  exists l, listen_and_serve 7 ts = (0, l, Returned 0x80820000) /\ handled l = came a /\ forall later, listen_and_serve 0 later = (0, [], Returned 0x80020000).
Proof. exact gives_up. Qed.
Print Assumptions c123_error_refuted.
(** There is no limit on the connections at one time: any number is taken, ended or not. *)
Theorem c123_limit_refuted : forall cs, serve 0 (map (fun c => mkTurn (Conn c) true) cs) = (map Handle cs, Waiting).
Proof. exact no_limit. Qed.
Print Assumptions c123_limit_refuted.
