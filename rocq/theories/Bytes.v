(** Bytes, little-endian integers and the byte-stream reader.

    Models the parts of Go's [encoding/binary] and [io] that the codec in
    /repo/ua/binary_encoder.go and /repo/ua/binary_decoder.go relies on. *)
From Coq Require Import ZArith List Bool Strings.Byte.
Import ListNotations.
Open Scope Z_scope.

Definition bytes := list byte.

(** [byte(x)]: conversion of an integer to a byte keeps the low 8 bits. *)
Definition byte_of_Z (z : Z) : byte :=
  match Byte.of_N (Z.to_N (z mod 256)) with
  | Some b => b
  | None => x00            (* unreachable: z mod 256 < 256 *)
  end.

Definition Z_of_byte (b : byte) : Z := Z.of_N (Byte.to_N b).

(** [binary.LittleEndian.PutUintN]: k bytes, least significant first. *)
Fixpoint le_enc (k : nat) (z : Z) : bytes :=
  match k with
  | O => []
  | S k' => byte_of_Z z :: le_enc k' (z / 256)
  end.

(** [binary.LittleEndian.UintN]. *)
Fixpoint le_dec (l : bytes) : Z :=
  match l with
  | [] => 0
  | b :: r => Z_of_byte b + 256 * le_dec r
  end.

(** Conversion of a k-byte unsigned integer to the signed type of the same width. *)
Definition to_signed (k : nat) (u : Z) : Z :=
  if u <? 2 ^ (8 * Z.of_nat k - 1) then u else u - 2 ^ (8 * Z.of_nat k).

(** Wrap an integer to the range of int64 (two's complement). *)
Definition wrap64 (z : Z) : Z := (z + 2 ^ 63) mod 2 ^ 64 - 2 ^ 63.
Definition wrap32 (z : Z) : Z := (z + 2 ^ 31) mod 2 ^ 32 - 2 ^ 31.
Definition u32 (z : Z) : Z := z mod 2 ^ 32.
Definition u16 (z : Z) : Z := z mod 2 ^ 16.

(** Outcome of a read: value and unread bytes; error and unread bytes; a Go
    run-time panic; exhausted recursion budget of the model (never a Go outcome). *)
Inductive res (A : Type) : Type :=
| Ok (a : A) (rest : bytes)
| Err (rest : bytes)
| Panic
| Fuel.
Arguments Ok {A} a rest.
Arguments Err {A} rest.
Arguments Panic {A}.
Arguments Fuel {A}.

Definition reader (A : Type) := bytes -> res A.

Definition ret {A} (a : A) : reader A := fun s => Ok a s.
Definition fail {A} : reader A := fun s => Err s.
Definition panic {A} : reader A := fun _ => Panic.
Definition bind {A B} (r : reader A) (k : A -> reader B) : reader B :=
  fun s => match r s with
           | Ok a rest => k a rest
           | Err rest => Err rest
           | Panic => Panic
           | Fuel => Fuel
           end.
Definition fmap {A B} (f : A -> B) (r : reader A) : reader B :=
  bind r (fun a => ret (f a)).

(** [io.ReadFull(r, buf)] with len(buf) = n: takes exactly n bytes, or consumes
    what is left and reports an error.  n = 0 succeeds on the empty stream. *)
Definition read_full (n : Z) : reader bytes :=
  fun s => if Z.of_nat (length s) <? n then Err []
           else Ok (firstn (Z.to_nat n) s) (skipn (Z.to_nat n) s).

(** Read an n element sequence; [for i := range temp { read(&temp[i]) }]. *)
Fixpoint read_n {A} (n : nat) (r : reader A) : reader (list A) :=
  match n with
  | O => ret []
  | S n' => bind r (fun a => fmap (cons a) (read_n n' r))
  end.

(** Equality of byte strings. *)
Fixpoint bytes_eqb (a b : bytes) : bool :=
  match a, b with
  | [], [] => true
  | x :: a', y :: b' => Byte.eqb x y && bytes_eqb a' b'
  | _, _ => false
  end.

Notation "'let*' x := r 'in' k" := (bind r (fun x => k))
  (at level 200, x pattern, right associativity).
