(** Messages that are nested as deep as one likes, and what the standard allows. *)
From Coq Require Import ZArith String List Bool Strings.Byte.
From Verif Require Import Bytes Prim Value StructTable.
Import ListNotations.
Open Scope Z_scope.

(** OPC 10000-6, 5.2.2.16: decoders shall support at least 100 nesting levels, and report an error for more than they support *)
Definition standard_levels : nat := 100.

(** Types that hold no Variant, DataValue, DiagnosticInfo or ExtensionObject *)
Fixpoint flat (t : ty) : bool :=
  match t with
  | TVar | TDV | TDiag | TExt => false
  | TStruct l | TPtr l => forallb flat l
  | TSlice t => flat t
  | TB _ | _ => true
  end.

(** A Variant in a Variant, n times, around a null Variant: one byte each (the type number of Variant is 24) *)
Definition boxes (n : nat) : bytes := repeat x18 n ++ [x00].
(** A DataValue with a value of type DataValue, n times, around an empty one: two bytes each *)
Fixpoint chain (n : nat) : bytes := match n with O => [x00] | S n => [x01; x17] ++ chain n end.
Fixpoint chained (n : nat) : val :=
  match n with
  | O => VDV VNil 0 zero_time 0 zero_time 0
  | S n => VDV (VScalar KDV (chained n)) 0 zero_time 0 zero_time 0
  end.

(** A request header without token, with a KeyValuePair (identifier 14846) whose value is [boxes n] as additional header *)
Definition boxed_header (n : nat) : bytes :=
  [x00; x00] ++ le_enc 8 0 ++ le_enc 4 1 ++ le_enc 4 0 ++ le_enc 4 (-1) ++ le_enc 4 1000
  ++ [x01; x00; xfe; x39; x01] ++ le_enc 4 0 ++ ([x00; x00] ++ le_enc 4 (-1)) ++ boxes n.
(** The header of a response, with the same additional header *)
Definition boxed_answer (n : nat) : bytes :=
  le_enc 8 0 ++ le_enc 4 1 ++ le_enc 4 0 ++ [x00] ++ le_enc 4 0
  ++ [x01; x00; xfe; x39; x01] ++ le_enc 4 0 ++ ([x00; x00] ++ le_enc 4 (-1)) ++ boxes n.
