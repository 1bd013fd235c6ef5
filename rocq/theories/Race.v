(** The data that the threads of the server share, and the accesses to it.
    What the functions of the server access is in RaceTable.v. *)
From Coq Require Import ZArith List String Bool.
From Verif Require Export Flow Mutex.
Import ListNotations.

(** What a function does (RaceTable.v): something with a lock or a wait (Mutex.v), or an access to a field of a
    structure of kind c (/repo/server, all files). [via] lists the kinds of the locks of this same structure that
    the function has taken, or that all its callers have taken, when it accesses the field: with ch.Lock() and
    ch.sendingSemaphore.Lock() before ch.tokenID, [KChannel; KSending]. There is one server, session manager,
    subscription manager, namespace manager and scheduler: for their fields their kind is always in the list.
    An assignment, an increment, a change of a map, slice or queue that the field holds is a write; any other use
    is a read. A range over a map reads it again in each turn.
    Left out: the accesses of a function to a structure that it is making (before another thread can know it), of
    the options, of the set-up of the server's own nodes and of opening a channel; the fields never written
    afterwards; of the fields that no lock protects, all but those of RaceProperties.v. *)
Inductive aop : Type :=
| L (o : lop)
| Rd (via : list cls) (c : cls) (f : string)
| Wr (via : list cls) (c : cls) (f : string).

(** The same operations on the structures of one thread. A structure is named by its kind and a number, like its
    lock; its other locks (the two mutexes of a channel) have the same number. *)
Inductive xop : Type :=
| XL (o : op)
| XRd (via : list cls) (s : lock) (f : string)
| XWr (via : list cls) (s : lock) (f : string).

Definition xkind (x : xop) : aop :=
  match x with
  | XL o => L (kind o)
  | XRd v s f => Rd v (fst s) f
  | XWr v s f => Wr v (fst s) f
  end.

(** For the locks an access is a step like any other: Mutex.v runs the threads. *)
Definition bare (x : xop) : op :=
  match x with
  | XL o => o
  | XRd _ _ _ | XWr _ _ _ => OWt "access"%string
  end.

(** The operations in a run of RaceTable.v *)
Fixpoint aops_of (t : list (event aop)) : list aop :=
  match t with
  | [] => []
  | Did e :: r => e :: aops_of r
  | Cond _ _ :: r => aops_of r
  end.
