(** Shared tactics.  No definitions. *)
From Coq Require Import ZArith Lia ZifyBool ZifyNat ZifyN.

(** [lia] after clearing hypotheses that are not linear facts; much faster in large contexts *)
Ltac keep_arith :=
  repeat match goal with
  | H : ?T |- _ =>
      lazymatch type of T with
      | Prop =>
          lazymatch T with
          | @eq Z _ _ => fail | @eq nat _ _ => fail | @eq bool _ _ => fail | @eq N _ _ => fail
          | Z.le _ _ => fail | Z.lt _ _ => fail | Z.ge _ _ => fail | Z.gt _ _ => fail
          | le _ _ => fail | lt _ _ => fail | ge _ _ => fail | gt _ _ => fail
          | N.le _ _ => fail | N.lt _ _ => fail
          | and _ _ => fail | or _ _ => fail | not (@eq Z _ _) => fail | not (@eq nat _ _) => fail
          | _ => clear H
          end
      end
  end.
Ltac nlia := keep_arith; lia.
