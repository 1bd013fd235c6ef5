(** What the theorems about token renewal talk about. *)
From Coq Require Import ZArith List Bool Strings.Byte.
From Verif Require Import Bytes Chunk Keys Renew.
Import ListNotations.
Open Scope Z_scope.

(** An undisturbed schedule: one renewal at a time, the new token is used by the client
    before the next renewal, its result is stored while no chunk is half written and
    only after a response under the present token has come in, and the server sends
    nothing in the middle of a token switch or before its first request. *)
Definition calm_op (y : sys) (o : rop) : Prop :=
  match o with
  | RenewStart _ => n_out y = [] /\ n_stok y = n_tok y
  | RenewApply _ => n_hdr y = None /\ n_rtok y = n_tok y
  | SSend => w_sw y = None /\ w_tok y <> 0
  | _ => True
  end.
Inductive calm (kd : bytes -> bytes -> keyset) : sys -> list rop -> sys -> Prop :=
| calm_nil y : calm kd y [] y
| calm_cons y o ops z : calm_op y o -> calm kd (renew_step kd y o) ops z -> calm kd y (o :: ops) z.

(** Nothing is under way: streams empty, no renewal, no half-done operation. *)
Definition settled (y : sys) : Prop :=
  c2s y = [] /\ s2c y = [] /\ n_out y = [] /\ n_resp y = [] /\ n_hdr y = None /\ w_sw y = None.

(** Both ends use the same token and the same keys in each direction. *)
Definition in_step (y : sys) : Prop :=
  w_tok y = n_tok y /\ w_pend y = n_tok y /\
  n_lk y <> None /\ n_lk y = w_rk y /\
  w_lk y <> None /\ (n_rtok y = n_tok y -> n_rk y = w_lk y).
