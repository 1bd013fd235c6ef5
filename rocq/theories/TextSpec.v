(** What the text forms are supposed to preserve. *)
From Coq Require Import ZArith List Bool String Strings.Byte.
From Verif Require Import Bytes CodecSpec Prim PrimSpec.
Import ListNotations.
Open Scope Z_scope.

(** Indices and numeric ids in range; any string, guid or byte string. *)
Definition text_nodeid (n : nodeid) : Prop :=
  match n with
  | NNull => True
  | NNum ns id => in_u 2 ns /\ in_u 4 id
  | NStr ns _ | NGuid ns _ | NOpq ns _ => in_u 2 ns
  end.
(** The numeric id 0 in namespace 0 is the null NodeId. *)
Definition null_numeric (n : nodeid) : nodeid :=
  match n with NNum ns id => if (ns =? 0) && (id =? 0) then NNull else n | _ => n end.

Definition text_exp (e : expnodeid) : Prop := in_u 4 (e_server e) /\ text_nodeid (e_node e).
Definition has_byte (c : byte) (s : bytes) : Prop := In c s.
Definition semicolon : byte := x3b.
Definition slash : byte := x2f.
Definition text_qname (q : qname) : Prop := in_u 2 (q_ns q).

Definition colon : byte := x3a.

(** The same text but for the case of letters *)
Definition same_letter (a b : byte) : Prop :=
  a = b \/ 97 <= Z_of_byte a <= 122 /\ Z_of_byte b = Z_of_byte a - 32 \/ 65 <= Z_of_byte a <= 90 /\ Z_of_byte b = Z_of_byte a + 32.
Definition same_but_case (s t : bytes) : Prop := Forall2 same_letter s t.
