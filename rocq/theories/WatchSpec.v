(** What a subscriber may expect of an item. *)
From Coq Require Import ZArith List Bool.
From Verif Require Import Float MonQueue DataChange DataChangeSpec Watch.
Import ListNotations.
Open Scope Z_scope.

(** The value, mode and filter set last *)
Definition value_after (v : dval) (l : list wop) : dval := fold_left (fun v o => match o with WWrite w => w | _ => v end) l v.
Definition mode_after (m : Z) (l : list wop) : Z := fold_left (fun m o => match o with WMode k _ => k | _ => m end) l m.
Definition filter_after (f : dfilter) (l : list wop) : dfilter := fold_left (fun f o => match o with WModify g _ _ _ _ => g | _ => f end) l f.
Definition interval_after (t : Z) (l : list wop) : Z := fold_left (fun t o => match o with WModify _ u _ _ _ => u | _ => t end) l t.
(** Every time so far is at most [t]: the clock, and the server timestamps of the values *)
Definition by_time (t : Z) (o : wop) : Prop :=
  match o with WWrite v => dv_server v <= t | WAvail tn _ => tn <= t | WMode _ now | WModify _ _ _ _ now => now <= t | _ => True end.
(** The value has not the status of an item that waits for its first one (BadWaitingForInitialData) *)
Definition not_waiting (v : dval) : Prop := ~ same_status (dv_status v) 0x80320000 /\ status_code (dv_status v).
Definition no_waiting (o : wop) : Prop := match o with WWrite v => not_waiting v | _ => True end.
(** A sequence of calls that does not make a queue which discards the newest values shorter than what it holds *)
Definition not_cut (s : watch) (o : wop) : Prop :=
  match o with
  | WModify _ _ oldest size _ => oldest = true \/ (length (mq_queue (di_q (wt_item s))) <= Z.to_nat (Z.min 1024 (Z.max 1 size)))%nat
  | _ => True
  end.
Fixpoint none_cut (s : watch) (l : list wop) : Prop :=
  match l with [] => True | o :: r => not_cut s o /\ none_cut (w_step s o) r end.
(** Nobody writes the variable or changes the item *)
Definition quiet (o : wop) : Prop := match o with WWrite _ | WMode _ _ | WModify _ _ _ _ _ => False | _ => True end.
(** Every value of a history, first to last *)
Fixpoint written (l : list wop) : list dval := match l with [] => [] | WWrite v :: r => v :: written r | _ :: r => written r end.
(** The last of a list *)
Definition last_of {A} (l : list A) : option A := match rev l with [] => None | x :: _ => Some x end.
(** The subscription does not resend; nobody changes the item *)
Definition no_resend (o : wop) : Prop := match o with WAvail _ true => False | _ => True end.
Definition no_change (o : wop) : Prop := match o with WMode _ _ | WModify _ _ _ _ _ => False | _ => True end.
(** [stutter h l]: [l] has values of [h] in their order, each not at all, once or several times in a row *)
Inductive stutter {A} : list A -> list A -> Prop :=
| st_nil h : stutter h []
| st_take x h l : stutter (x :: h) l -> stutter (x :: h) (x :: l)
| st_skip x h l : stutter h l -> stutter (x :: h) l.
(** A filter with the triggers and deadbands the standard has for all variables *)
Definition usual (f : dfilter) : Prop := 0 <= df_trigger f <= 2 /\ (df_type f = 0 \/ df_type f = 1).
Definition usual_op (o : wop) : Prop := match o with WModify f _ _ _ _ => usual f | _ => True end.
(** For examples: an Int32 with status Good, and the filter status or value without deadband *)
Definition an_int (z t : Z) : dval := mkDv (MInt 6 z) 0 t t.
Definition status_value : dfilter := mkDf 1 0 (FFin 0).
