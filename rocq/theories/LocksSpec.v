(** What it means that the server does not hang. *)
From Coq Require Import List Bool.
From Verif Require Import Locks.
Import ListNotations.
Open Scope nat_scope.

Definition finished (gs : list goroutine) : Prop := forall g, In g gs -> g_rest g = [].
(** Goroutine [i] still has something to do. *)
Definition pending (i : nat) (gs : list goroutine) : Prop := exists g, nth_error gs i = Some g /\ g_rest g <> [].
(** [ts] run under the schedule [cs]. *)
Definition tasks_run (ts : list task) (cs : list nat) : list goroutine := sched_run (map p_task ts) cs.
(** After [ts] ran under [cs], the tasks [later] are started too and everything runs under [more]. *)
Definition tasks_then (ts : list task) (cs : list nat) (later : list task) (more : list nat) : list goroutine :=
  fold_left sched more (tasks_run ts cs ++ start (map p_task later)).
(** Tasks that take their locks in the order manager, subscription, item, namespaces, node. *)
Definition orderly (t : task) : Prop :=
  match t with
  | TLookup | TRegister _ | TService _ _ | TSub _ _ | TItem _ | TSweep _ => True
  | TEnqueue _ linked => linked = []
  | TEvent _ items => items = []
  | TExpire _ _ _ _ | TPollDiag _ _ | TResendDiag _ _ => False
  end.
