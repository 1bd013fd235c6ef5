(** Specification vocabulary for the codec theorems.  No model function of the
    codec appears here, only bytes and readers. *)
From Coq Require Import ZArith List Bool Strings.Byte.
From Verif Require Import Bytes.
Import ListNotations.
Open Scope Z_scope.

(** [r] reads [a] from the encoding [e] whatever follows it, and stops exactly
    at the end of [e]. *)
Definition reads_back {A} (r : reader A) (e : bytes) (a : A) : Prop :=
  forall rest, r (e ++ rest) = Ok a rest.

Definition proper_prefix (p e : bytes) : Prop := exists q, q <> [] /\ e = p ++ q.

(** Cut anywhere, [e] is refused with an error: no value, no panic. *)
Definition refuses_truncated {A} (r : reader A) (e : bytes) : Prop :=
  forall p, proper_prefix p e -> exists rest, r p = Err rest.

Definition never_panics {A} (r : reader A) : Prop := forall s, r s <> Panic.

(** Machine integer ranges; k is the width in bytes. *)
Definition in_u (k : Z) (z : Z) : Prop := 0 <= z < 2 ^ (8 * k).
Definition in_s (k : Z) (z : Z) : Prop := - 2 ^ (8 * k - 1) <= z < 2 ^ (8 * k - 1).
(** Lengths are written as int32. *)
Definition len_ok {A} (l : list A) : Prop := Z.of_nat (length l) < 2 ^ 31.
