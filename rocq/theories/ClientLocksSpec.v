(** What it means that calls on one client do not deadlock. Independent of how the proofs find it out;
    [times], [paired], [nests], [waits_holding], [reaches], [deadlock], [finished], [holding] and [wants] are in MutexSpec.v. *)
From Coq Require Import ZArith String List Bool.
From Verif Require Import Flow Mutex MutexSpec ClientLocks.
Import ListNotations.
Open Scope string_scope.

(** A thread that starts as [root] can do these operations, in this order. *)
Definition client_does (root : string) (ks : list lop) : Prop :=
  exists p t x, In (root, p) client_roots /\ run p t x /\ ops_of t = ks.

(** A thread of that root, with the locks of some channels. Any number of threads can start the same way. *)
Definition client_thread (root : string) (ops : list op) : Prop :=
  client_does root (map kind ops) /\ paired [] ops.

(** Threads of clients, none of which takes a lock of kind d while it has one of kind c *)
Definition never_nested (c d : cls) (work : list (list op)) : Prop :=
  forall ops, In ops work -> (exists root, client_thread root ops) /\ ~ nests ops c d.

(** one channel: its lock, and those for sending and receiving *)
Definition channel : lock := (KChannel, 0%Z).
Definition sender : lock := (KSending, 0%Z).
Definition receiver : lock := (KReceiving, 0%Z).

(** Two threads of these roots can reach a deadlock, in which they hold the locks h1 and h2 (the last one taken
    first) and want the locks l1 and l2. *)
Definition client_deadlock (r1 r2 : string) (h1 : list (mode * lock)) (m1 : mode) (l1 : lock)
  (h2 : list (mode * lock)) (m2 : mode) (l2 : lock) : Prop :=
  exists w1 w2 a b, client_thread r1 w1 /\ client_thread r2 w2 /\ reaches [w1; w2] [a; b] /\ deadlock [a; b] /\
    holding a h1 /\ wants a m1 l1 /\ holding b h2 /\ wants b m2 l2.

(** Threads of the two roots, together with any other threads, can come into a state from which on neither of the
    two nor any of the others that has to take the lock l ever finishes, whatever the schedule. *)
Definition never_finish (r1 r2 : string) (l : lock) : Prop :=
  exists w1 w2, client_thread r1 w1 /\ client_thread r2 w2 /\
    forall others, exists schedule now, execute (map fresh (w1 :: w2 :: others)) schedule = Some now /\
      forall later ts, execute now later = Some ts ->
        exists a b rest, ts = a :: b :: rest /\ th_rest a <> [] /\ th_rest b <> [] /\
          forall i ops m t, nth_error others i = Some ops -> In (OLk m l) ops -> nth_error rest i = Some t -> th_rest t <> [].

(** The first of two threads can wait for [what] with the locks h1 while the second, which has the locks h2, wants
    the lock l2 and cannot make a step until the first goes on. *)
Definition holds_up (r1 r2 : string) (h1 : list (mode * lock)) (what : string)
  (h2 : list (mode * lock)) (m2 : mode) (l2 : lock) : Prop :=
  exists w1 w2 a b, client_thread r1 w1 /\ client_thread r2 w2 /\ reaches [w1; w2] [a; b] /\
    (holding a h1 /\ exists r, th_rest a = OWt what :: r) /\ (holding b h2 /\ wants b m2 l2) /\
    step [a; b] 1 = None.

(** What threads of clients wait for while they hold a lock *)
Definition client_waits : list (cls * string) :=
  [(KChannel, "network connect"); (KChannel, "network read"); (KChannel, "network write");
   (KChannel, "channel ch.pendingResponseCh"); (KChannel, "response");
   (KSending, "network write"); (KReceiving, "network read")].
