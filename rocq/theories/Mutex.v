(** The locks of the server and the threads that take them.
    What the functions of the server do with locks is in MutexTable.v. *)
From Coq Require Import ZArith List String Bool.
From Verif Require Export Flow.
Import ListNotations.

(** The kinds of locks: the structures of /repo/server with an embedded sync.RWMutex or sync.Mutex
    (server.go 44, session_manager.go 14, session.go 30, subscription_manager.go 15, subscription.go 29,
    datachange_monitored_item.go 20, event_monitored_item.go 17, namespace_manager.go 27, scheduler.go 9 and 39,
    server_secure_channel.go 48, the eight kinds of nodes), and the two mutexes of a secure channel
    (server_secure_channel.go 65 sendingSemaphore, 66 receivingSemaphore). The client's channel has the same three
    locks (/repo/client/client_secure_channel.go 61, 105, 106) and one for its tokens (96 tokenLock). *)
Inductive cls : Type :=
| KServer | KSessionManager | KSession | KSubscriptionManager | KSubscription | KDataItem | KEventItem
| KNamespaceManager | KScheduler | KPollGroup | KChannel | KSending | KReceiving
| KDataTypeNode | KMethodNode | KObjectNode | KObjectTypeNode | KReferenceTypeNode | KVariableNode
| KVariableTypeNode | KViewNode | KToken.

(** sync.RWMutex: RLock ([Sh]) or Lock ([Ex]); sync.Mutex has only Lock *)
Inductive mode : Type := Sh | Ex.

(** What a function does (MutexTable.v): take or release a lock of a kind, or wait for something else:
    a channel, the network, the application (/repo/server, all files). *)
Inductive lop : Type :=
| Lk (m : mode) (c : cls)
| Un (m : mode) (c : cls)
| Wt (what : string).

(** A lock: its kind and a number that stands for the structure it belongs to *)
Definition lock : Type := cls * Z.

(** The same operations on the lock of one structure *)
Inductive op : Type :=
| OLk (m : mode) (l : lock)
| OUn (m : mode) (l : lock)
| OWt (what : string).

Definition cls_eq_dec (a b : cls) : {a = b} + {a <> b}.
Proof. decide equality. Defined.

Definition mode_eq_dec (a b : mode) : {a = b} + {a <> b}.
Proof. decide equality. Defined.

Definition lock_eq_dec (a b : lock) : {a = b} + {a <> b}.
Proof. decide equality; [apply Z.eq_dec|apply cls_eq_dec]. Defined.

Definition hold_eq_dec (a b : mode * lock) : {a = b} + {a <> b}.
Proof. decide equality; [apply lock_eq_dec|apply mode_eq_dec]. Defined.

(** A thread: what it still has to do, the locks it holds, and whether it has announced to be the next
    writer of the lock it wants. *)
Record thread := mkThread { th_rest : list op; th_held : list (mode * lock); th_announced : bool }.

(** A thread at its start *)
Definition fresh (ops : list op) : thread := mkThread ops [] false.

Definition holds (m : mode) (l : lock) (t : thread) : bool :=
  if in_dec hold_eq_dec (m, l) (th_held t) then true else false.

Definition announces (l : lock) (t : thread) : bool :=
  match th_rest t with
  | OLk Ex k :: _ => th_announced t && (if lock_eq_dec k l then true else false)
  | _ => false
  end.

Fixpoint remove1 (h : mode * lock) (hs : list (mode * lock)) : list (mode * lock) :=
  match hs with
  | [] => []
  | x :: r => if hold_eq_dec h x then r else x :: remove1 h r
  end.

(** Go's sync.RWMutex, for the next operation of thread t among threads ts (t included):
    RLock waits while a writer holds the lock or has announced itself; Lock waits while another writer
    holds it or has announced itself, announces itself, and then waits until the readers are gone.
    None: the thread cannot go on. Releasing a lock that the thread does not hold is such a case too; in Go
    the program ends ("unlock of unlocked mutex"). A wait for something else always ends here.
    Simplification: readers that wait while a writer holds the lock are let in when it is released, before the
    next writer; here a second writer can be faster. *)
Definition advance (ts : list thread) (t : thread) : option thread :=
  match th_rest t with
  | [] => None
  | OLk Sh l :: r =>
      if existsb (fun u => holds Ex l u || announces l u) ts then None
      else Some (mkThread r ((Sh, l) :: th_held t) false)
  | OLk Ex l :: r =>
      if th_announced t then
        if existsb (holds Sh l) ts then None
        else Some (mkThread r ((Ex, l) :: th_held t) false)
      else
        if existsb (fun u => holds Ex l u || announces l u) ts then None
        else Some (mkThread (th_rest t) (th_held t) true)
  | OUn m l :: r =>
      if holds m l t then Some (mkThread r (remove1 (m, l) (th_held t)) false) else None
  | OWt _ :: r => Some (mkThread r (th_held t) false)
  end.

Fixpoint update (ts : list thread) (i : nat) (t : thread) : list thread :=
  match ts, i with
  | [], _ => []
  | _ :: r, O => t :: r
  | u :: r, S j => u :: update r j t
  end.

(** Thread i makes one step *)
Definition step (ts : list thread) (i : nat) : option (list thread) :=
  match nth_error ts i with
  | None => None
  | Some t => match advance ts t with
              | None => None
              | Some t' => Some (update ts i t')
              end
  end.

(** The threads take turns as the list says *)
Fixpoint execute (ts : list thread) (schedule : list nat) : option (list thread) :=
  match schedule with
  | [] => Some ts
  | i :: r => match step ts i with
              | None => None
              | Some ts' => execute ts' r
              end
  end.

(** The operations in a run of MutexTable.v *)
Fixpoint ops_of (t : list (event lop)) : list lop :=
  match t with
  | [] => []
  | Did e :: r => e :: ops_of r
  | Cond _ _ :: r => ops_of r
  end.

(** The kinds of locks in the operations of a thread *)
Definition kind (o : op) : lop :=
  match o with
  | OLk m l => Lk m (fst l)
  | OUn m l => Un m (fst l)
  | OWt w => Wt w
  end.
