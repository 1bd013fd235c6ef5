(** Goroutines and the locks of the subscription code.

    sync.RWMutex: Lock waits until nobody holds the lock, RLock waits until no writer holds it and
    no writer is waiting for it.  A goroutine is the list of lock operations it still performs;
    what it does in between does not matter here.

    Not modelled: the send lock of the channel and the network behind it, the channel of state
    changes of a session (a send on it blocks when 64 are pending), user supplied handlers. *)
From Coq Require Import List Bool ZArith Lia.
Import ListNotations.
Open Scope nat_scope.

(** SubscriptionManager, Subscription, the monitored items, NamespaceManager, the nodes, and the
    locks under which no other lock is taken: Server (0; server.go 155-328), Scheduler (1;
    scheduler.go 25), PollGroup (2 and up; scheduler.go 62-92). *)
Inductive lname : Type :=
| LManager | LSub (k : nat) | LItem (k : nat) | LNames | LNode (k : nat) | LLeaf (k : nat).
Definition lname_eqb (a b : lname) : bool :=
  match a, b with
  | LManager, LManager | LNames, LNames => true
  | LSub i, LSub j | LItem i, LItem j | LNode i, LNode j | LLeaf i, LLeaf j => i =? j
  | _, _ => false
  end.
(** [Acq l true] is Lock, [Acq l false] is RLock; [Rel l] is Unlock or RUnlock. *)
Inductive lact : Type := Acq (l : lname) (w : bool) | Rel (l : lname).
Record goroutine := mkG { g_held : list (lname * bool); g_rest : list lact }.

Definition holds (l : lname) (g : goroutine) : bool := existsb (fun h => lname_eqb (fst h) l) (g_held g).
Definition holds_w (l : lname) (g : goroutine) : bool := existsb (fun h => lname_eqb (fst h) l && snd h) (g_held g).
Definition wants_w (l : lname) (g : goroutine) : bool :=
  match g_rest g with Acq l' true :: _ => lname_eqb l' l | _ => false end.
Fixpoint release (l : lname) (held : list (lname * bool)) : list (lname * bool) :=
  match held with
  | [] => []
  | h :: r => if lname_eqb (fst h) l then r else h :: release l r
  end.
(** One step of goroutine [i]; None: it is finished or has to wait. *)
Definition g_step (gs : list goroutine) (g : goroutine) : option goroutine :=
  match g_rest g with
  | [] => None
  | Acq l true :: p => if existsb (holds l) gs then None else Some (mkG ((l, true) :: g_held g) p)
  | Acq l false :: p => if existsb (holds_w l) gs || existsb (wants_w l) gs then None else Some (mkG ((l, false) :: g_held g) p)
  | Rel l :: p => Some (mkG (release l (g_held g)) p)
  end.
Fixpoint g_set (i : nat) (g : goroutine) (gs : list goroutine) {struct gs} : list goroutine :=
  match gs, i with
  | [], _ => []
  | _ :: r, O => g :: r
  | x :: r, S i => x :: g_set i g r
  end.
(** The scheduler picks goroutine [i]; if it has to wait nothing happens. *)
Definition sched (gs : list goroutine) (i : nat) : list goroutine :=
  match nth_error gs i with
  | Some g => match g_step gs g with Some g' => g_set i g' gs | None => gs end
  | None => gs
  end.
Definition start (ps : list (list lact)) : list goroutine := map (mkG []) ps.
Definition sched_run (ps : list (list lact)) (choices : list nat) : list goroutine := fold_left sched choices (start ps).

(** * What the goroutines of the server do *)
Definition during (l : lname) (w : bool) (p : list lact) : list lact := Acq l w :: p ++ [Rel l].
Definition brief (l : lname) (w : bool) : list lact := during l w [].

(** readValue of a variable without a read handler: Server.NamespaceManager, FindNode, Value
    (server_service_set.go 6063-6093, namespace_manager.go 74, variable_node.go 124). *)
Definition p_read (n : nat) : list lact := brief (LLeaf 0) false ++ brief LNames false ++ brief (LNode n) false.
(** readValue of the diagnostics variable of subscription [s]: its handler takes the lock of the
    subscription (subscription_manager.go 158-160, server_service_set.go 6092). *)
Definition p_read_diag (s : nat) : list lact := brief (LLeaf 0) false ++ brief LNames false ++ brief (LSub s) false.
(** DeleteNodes and AddNodes touch the references of nodes under the namespace lock
    (namespace_manager.go 387, 395, 403-449). *)
Definition p_nodes (ns : list nat) : list lact :=
  during LNames true (flat_map (fun n => brief (LNode n) false ++ brief (LNode n) true) ns).

(** What a goroutine does with one monitored item. *)
Inductive visit : Type :=
| VShort (i : nat) (w : bool)         (* MonitoringMode, Triggered, ClientHandle, SetTriggered, notifications,
                                         AddTriggeredItem: datachange_monitored_item.go 87-122, 277-296, 337 *)
| VSample (i n : nat)                 (* Poll 266, notificationsAvailable with resend 403-405 *)
| VRestart (i n g : nat)              (* Modify 128, SetMonitoringMode 155, Delete 142: the item is unlocked
                                         around the poll group 247-263 *)
| VListen (i n : nat).                (* EventMonitoredItem Modify, Delete, SetMonitoringMode: the listener of
                                         the node changes under the item's lock, event_monitored_item.go 115-154, 282-295 *)
Definition p_visit (v : visit) : list lact :=
  match v with
  | VShort i w => brief (LItem i) w
  | VSample i n => during (LItem i) true (p_read n)
  | VRestart i n g =>
      brief (LItem i) true ++ brief (LLeaf 0) false ++ brief (LLeaf 1) true ++ brief (LLeaf (2 + g)) true ++
      during (LItem i) true (p_read n) ++ brief (LLeaf 0) false ++ brief (LLeaf 1) true ++ brief (LLeaf (2 + g)) true ++
      brief (LItem i) true
  | VListen i n => during (LItem i) true (brief (LNode n) true ++ brief (LNode n) true)
  end.
Definition p_visits (vs : list visit) : list lact := flat_map p_visit vs.

Inductive task : Type :=
| TLookup                                        (* Get, Len, GetBySession: subscription_manager.go 41, 78, 85 *)
| TRegister (ns : list nat)                      (* Add 51 and Delete 67, with the diagnostics nodes *)
| TService (s : nat) (vs : list visit)           (* the monitored item services: Get, lifetimeCount = 0, FindItem, the items;
                                                    server_service_set.go 3782, 4069, 4296, 4461, 4644, 5520 *)
| TSub (s : nat) (vs : list visit)               (* under the lock of the subscription: publish without expiry 305,
                                                    handleLatePublishRequest 502, AppendItem 134, DeleteItem 149,
                                                    Delete 93, acknowledge 268, Modify 172: subscription.go *)
| TItem (v : visit)                              (* Poll from the poll group, scheduler.go 69-80 *)
| TSweep (subs : list (nat * (list nat * list visit)))
                                                 (* checkForExpiredSubscriptions: IsExpired of each, and for the expired the
                                                    diagnostics node, the server lock and Delete; subscription_manager.go 97-117 *)
| TExpire (s : nat) (vs : list visit) (ns : list nat) (vs' : list visit)
                                                 (* publish when the lifetime has run out: manager.Delete and deleteImpl
                                                    under the lock of the subscription; subscription.go 418-429, 484-495 *)
| TEnqueue (i : nat) (linked : list nat)         (* enqueue: SetTriggered of the linked items under the item's lock;
                                                    datachange_monitored_item.go 327-332, event_monitored_item.go 205-210 *)
| TPollDiag (i s : nat)                          (* Poll of a diagnostics variable, datachange_monitored_item.go 266 *)
| TResendDiag (s i : nat)                        (* publish after ResendData with an item on the subscription's own
                                                    diagnostics variable: subscription.go 310-315, datachange_monitored_item.go 403-405 *)
| TEvent (n : nat) (items : list nat).           (* ObjectNode.OnEvent 117-123: OnEvent of the items under the node's lock *)
Definition p_task (t : task) : list lact :=
  match t with
  | TLookup => brief LManager false
  | TRegister ns => during LManager true (p_nodes ns)
  | TService s vs => brief LManager false ++ brief (LSub s) true ++ brief (LSub s) false ++ p_visits vs
  | TSub s vs => during (LSub s) true (p_visits vs)
  | TItem v => p_visit v
  | TSweep subs =>
      during LManager true
        (flat_map (fun x => brief (LSub (fst x)) false ++ p_nodes (fst (snd x)) ++ brief (LLeaf 0) true ++
                            during (LSub (fst x)) true (p_visits (snd (snd x)))) subs)
  | TExpire s vs ns vs' => during (LSub s) true (p_visits vs ++ during LManager true (p_nodes ns) ++ p_visits vs')
  | TEnqueue i linked => during (LItem i) true (flat_map (fun j => brief (LItem j) true) linked)
  | TPollDiag i s => during (LItem i) true (p_read_diag s)
  | TResendDiag s i => during (LSub s) true (during (LItem i) true (p_read_diag s))
  | TEvent n items => during (LNode n) false (flat_map (fun i => brief (LItem i) true) items)
  end.
