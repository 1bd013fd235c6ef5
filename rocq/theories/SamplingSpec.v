(** What sampling is asked to do. *)
From Coq Require Import ZArith List Bool.
From Verif Require Import Float Sampling.
Import ListNotations.
Open Scope Z_scope.

(** A least sampling interval of at least a millisecond (and less than 290 years) *)
Definition good_rate (min_rate : f64) : Prop := exists z, min_rate = FFin z /\ f_int 1 <= z < f_int 9000000000000.

(** * One call after the other *)
Inductive turn : Type := Do (o : iop) | Fire (g : Z).
(** The mode and interval that were set last; whether the item is still there *)
Definition mode_after (m : Z) (l : list turn) : Z := fold_left (fun m t => match t with Do (SetMode k) => k | _ => m end) l m.
Definition asked_after (x : f64) (l : list turn) : f64 := fold_left (fun x t => match t with Do (Modify y) => y | _ => x end) l x.
Definition there (l : list turn) : Prop := ~ In (Do Remove) l.
(** No call after the item was removed: the subscription does not find it any more *)
Definition proper (l : list turn) : Prop := forall l1 l2 o, l = l1 ++ Do Remove :: l2 -> ~ In (Do o) l2.

(** * At once *)
Definition no_removal (l : list happening) : Prop := ~ In (Call Remove) l.

Section Spec.
Variable odd : f64 -> Z.
Variable min_rate : f64.
Variable revise : f64 -> f64.
(** A call from its beginning to its end, which takes at most seven steps *)
Definition whole_turn (s : samp) (t : turn) : samp :=
  match t with
  | Do o => all odd min_rate revise s (Call o :: repeat (Go 0) 7)
  | Fire g => happens odd min_rate revise s (Tick g)
  end.
Definition turns (s : samp) (l : list turn) : samp := fold_left whole_turn l s.
End Spec.
