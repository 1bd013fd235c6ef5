(** What it means that the server releases its locks, does not deadlock and does not let one client stop
    the others. Independent of how the proofs find it out. *)
From Coq Require Import ZArith String List Bool.
From Verif Require Import Flow Mutex MutexTable.
Import ListNotations.

(** ** Runs of the server's functions *)
(** A thread that starts as [root] (a goroutine of the server, a task of its worker pool or a call of an
    exported function) can do these operations, in this order. *)
Definition does (root : string) (ks : list lop) : Prop :=
  exists p t x, In (root, p) roots /\ run p t x /\ ops_of t = ks.

Definition lop_eq_dec (a b : lop) : {a = b} + {a <> b}.
Proof. decide equality; try apply cls_eq_dec; try apply mode_eq_dec; apply string_dec. Defined.

(** How often an operation occurs *)
Definition times (o : lop) (ks : list lop) : nat := count_occ lop_eq_dec ks o.

(** ** Threads that work on locks *)
(** The locks held after some operations, the last one first *)
Fixpoint held_after (held : list (mode * lock)) (ops : list op) : list (mode * lock) :=
  match ops with
  | [] => held
  | OLk m l :: r => held_after ((m, l) :: held) r
  | OUn m l :: r => held_after (remove1 (m, l) held) r
  | OWt _ :: r => held_after held r
  end.

(** Go code releases the lock of the variable it was taken with: of the locks of this kind that the thread
    holds in this mode, the one taken last. *)
Fixpoint paired (held : list (mode * lock)) (ops : list op) : Prop :=
  match ops with
  | [] => True
  | OLk m l :: r => paired ((m, l) :: held) r
  | OUn m l :: r =>
      (forall before after k, held = before ++ (m, k) :: after -> fst k = fst l ->
         (forall j, In (m, j) before -> fst j <> fst l) -> k = l)
      /\ paired (remove1 (m, l) held) r
  | OWt _ :: r => paired held r
  end.

(** A thread of the server: the operations of one of the roots, on the locks of some structures. Any number of
    threads can start the same way, and any structures can be involved. *)
Definition thread_of (root : string) (ops : list op) : Prop :=
  does root (map kind ops) /\ paired [] ops.

Definition server_thread (ops : list op) : Prop := exists root, thread_of root ops.

(** A thread takes a lock of kind d while it holds one of kind c *)
Definition nests (ops : list op) (c d : cls) : Prop :=
  exists before m l after, ops = before ++ OLk m l :: after /\ fst l = d /\
    exists n k, In (n, k) (held_after [] before) /\ fst k = c.

(** A thread waits for [what] while it holds a lock of kind c *)
Definition waits_holding (ops : list op) (c : cls) (what : string) : Prop :=
  exists before after, ops = before ++ OWt what :: after /\
    exists n k, In (n, k) (held_after [] before) /\ fst k = c.

(** ** Deadlocks *)
Definition finished (ts : list thread) : Prop := forall t, In t ts -> th_rest t = [].
Definition stuck (ts : list thread) : Prop := forall i, step ts i = None.
Definition deadlock (ts : list thread) : Prop := stuck ts /\ ~ finished ts.

(** Some schedule brings threads with these operations into this state *)
Definition reaches (work : list (list op)) (ts : list thread) : Prop :=
  exists schedule, execute (map fresh work) schedule = Some ts.

(** The thread holds these locks and wants that one *)
Definition wants (t : thread) (m : mode) (l : lock) : Prop := exists r, th_rest t = OLk m l :: r.
Definition holding (t : thread) (ls : list (mode * lock)) : Prop := th_held t = ls.

(** ** The order of the locks *)
(** The orders in which the server can take two locks, although it can also take them, or others between them,
    the other way round.
    - a subscription, then the subscription manager: publish removes a subscription that has expired;
    - a subscription, then a subscription: publish samples an item again after ResendData, and the item is one of
      the subscription diagnostics;
    - a data item, then a subscription or the subscription manager: sampling an item that monitors subscription
      diagnostics;
    - an item, then an item: triggering links (that a data item triggers an event item is in order);
    - an object, then an item, the namespace manager or an object: events are delivered to the items, and their
      filters are evaluated, while the object is locked;
    - the server, then the server: the first call of Endpoints. *)
Definition out_of_order : list (cls * cls) :=
  [(KSubscription, KSubscriptionManager); (KSubscription, KSubscription);
   (KDataItem, KSubscription); (KDataItem, KSubscriptionManager);
   (KDataItem, KDataItem); (KEventItem, KEventItem); (KEventItem, KDataItem);
   (KObjectNode, KEventItem); (KObjectNode, KDataItem); (KObjectNode, KNamespaceManager); (KObjectNode, KObjectNode);
   (KServer, KServer)].

(** Threads of the server that take no two locks in one of these orders *)
Definition in_order (work : list (list op)) : Prop :=
  forall ops, In ops work -> server_thread ops /\ forall c d, nests ops c d -> ~ In (c, d) out_of_order.

(** What threads wait for while they hold a lock *)
Definition waits_with_lock : list (cls * string) :=
  [(KChannel, "network read"%string); (KChannel, "network write"%string);
   (KReceiving, "network read"%string); (KSending, "network write"%string);
   (KSubscription, "network write"%string); (KSubscription, "channel s.session.stateChanges"%string);
   (KSubscription, "application GetRoles"%string); (KSubscription, "application handler"%string);
   (KDataItem, "application GetRoles"%string); (KDataItem, "application handler"%string);
   (KVariableNode, "application WriteValue"%string)].

(** ** What the refutations show *)
(** one subscription, its manager, a data item, and so on *)
Definition sub := (KSubscription, 0%Z).
Definition manager := (KSubscriptionManager, 0%Z).
Definition item := (KDataItem, 0%Z).
Definition event_item := (KEventItem, 0%Z).
Definition object := (KObjectNode, 0%Z).
Definition names := (KNamespaceManager, 0%Z).
Definition server := (KServer, 0%Z).
Definition sending := (KSending, 0%Z).

(** Two threads of these roots can reach a deadlock, in which they hold the locks h1 and h2 (the last one taken
    first) and want the locks l1 and l2. *)
Definition deadlock_of (r1 r2 : string) (h1 : list (mode * lock)) (m1 : mode) (l1 : lock)
  (h2 : list (mode * lock)) (m2 : mode) (l2 : lock) : Prop :=
  exists w1 w2 a b, thread_of r1 w1 /\ thread_of r2 w2 /\ reaches [w1; w2] [a; b] /\ deadlock [a; b] /\
    holding a h1 /\ wants a m1 l1 /\ holding b h2 /\ wants b m2 l2.

(** A thread of this root can deadlock with itself. *)
Definition deadlock_alone (r : string) (h : list (mode * lock)) (m : mode) (l : lock) : Prop :=
  exists w a, thread_of r w /\ reaches [w] [a] /\ deadlock [a] /\ holding a h /\ wants a m l.

(** Three threads of these roots can reach a state in which the first waits for [w] with the locks h1, and the
    others cannot make a step until it goes on. *)
Definition held_up (r1 r2 r3 : string) (h1 : list (mode * lock)) (w : string)
  (h2 : list (mode * lock)) (m2 : mode) (l2 : lock) (h3 : list (mode * lock)) (m3 : mode) (l3 : lock) : Prop :=
  exists w1 w2 w3 a b c, thread_of r1 w1 /\ thread_of r2 w2 /\ thread_of r3 w3 /\
    reaches [w1; w2; w3] [a; b; c] /\
    (holding a h1 /\ exists r, th_rest a = OWt w :: r) /\
    (holding b h2 /\ wants b m2 l2) /\ (holding c h3 /\ wants c m3 l3) /\
    forall i, i <> 0 -> step [a; b; c] i = None.
