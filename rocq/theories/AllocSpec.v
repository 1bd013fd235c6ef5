(** When an accepted message asks for no more memory than its length accounts for. *)
From Coq Require Import ZArith List Bool Strings.Byte.
From Verif Require Import Bytes Prim Value Alloc.
Import ListNotations.
Open Scope Z_scope.

(** No array of two or three dimensions in a value, and no DataValue in place of whose value the decoder put the status
    BadDataTypeIDUnknown (0x80110000). *)
Fixpoint tame (v : val) : bool :=
  match v with
  | VStruct l | VPtr l | VSlice l | VArr _ l | VExt _ l => forallb tame l
  | VScalar _ x => tame x
  | VMat2 _ _ | VMat3 _ _ => false
  | VDV x st _ _ _ _ => tame x && negb (st =? 2148597760)
  | _ => true
  end.

(** A value of the type takes at least one byte of the message. *)
Fixpoint solid (t : ty) : bool :=
  match t with
  | TStruct l | TPtr l => existsb solid l
  | _ => true
  end.

(** The elements of every slice inside the type are at most [K] bytes of memory, and at least one byte of the message
    unless they are no memory at all. *)
Fixpoint fits (K : Z) (t : ty) : bool :=
  match t with
  | TStruct l | TPtr l => forallb (fits K) l
  | TSlice t' => (go_size t' <=? (if solid t' then K else 0)) && fits K t'
  | _ => true
  end.

(** The length of a received slice or string: the largest number that four bytes can hold, and -- the bytes themselves. *)
Definition longest : Z := 2147483647.
Definition longest_bytes : bytes := [xff; xff; xff; x7f].
(** A NodeID of namespace 0 that announces such a string, and ends there: seven bytes *)
Definition long_id : bytes := [x03; x00; x00] ++ longest_bytes.
(** little-endian number of four bytes *)
Definition four (z : Z) : bytes := le_enc 4 z.
(** GetEndpoints: header without token, no URL, the number of locales *)
Definition discovery : bytes :=
  write_nodeid (NNum 0 428) ++ [x00; x00] ++ le_enc 8 0 ++ four 1 ++ four 0 ++ four (-1) ++ four 1000 ++ [x00; x00; x00]
  ++ four (-1) ++ longest_bytes.
