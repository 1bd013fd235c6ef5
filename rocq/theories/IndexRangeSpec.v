(** What index ranges mean (Part 4, 7.27).  Of the model it uses the types of values and outcomes
    only. *)
From Coq Require Import ZArith List Bool Strings.Byte.
From Verif Require Import Bytes IndexRange.
Import ListNotations.
Open Scope Z_scope.

(** * Text of a range *)
(** Decimal digits. *)
Fixpoint digits_from (acc : Z) (s : bytes) (n : Z) : Prop :=
  match s with
  | [] => n = acc
  | b :: r => 48 <= Z_of_byte b <= 57 /\ digits_from (acc * 10 + (Z_of_byte b - 48)) r n
  end.
Definition numeral (s : bytes) (n : Z) : Prop := s <> [] /\ digits_from 0 s n.
Inductive dimension : Type := One (a : Z) | Span (a b : Z).
Definition first_of (d : dimension) : Z := match d with One a | Span a _ => a end.
Definition last_of (d : dimension) : Z := match d with One a => a | Span _ b => b end.
Definition spells (s : bytes) (d : dimension) : Prop :=
  match d with
  | One a => numeral s a
  | Span a b => a < b /\ exists s1 s2, s = s1 ++ x3a :: s2 /\ numeral s1 a /\ numeral s2 b
  end.
Fixpoint with_commas (l : list bytes) : bytes :=
  match l with
  | [] => []
  | [s] => s
  | s :: l' => s ++ x2c :: with_commas l'
  end.
Definition spells_all (s : bytes) (ds : list dimension) : Prop := exists l, Forall2 spells l ds /\ s = with_commas l.
(** Go reads bounds as 32-bit numbers *)
Definition bounded (d : dimension) : Prop := last_of d < 2 ^ 31.
(** Characters Go's ParseInt takes as a sign *)
Definition unsigned_text (s : bytes) : Prop := ~ In x2b s /\ ~ In x2d s.

(** * Elements *)
(** [r] has the elements of [l] at the positions from first to last, as far as they exist. *)
Definition selected {A} (d : dimension) (l r : list A) : Prop :=
  forall k, nth_error r k =
    if first_of d + Z.of_nat k <=? last_of d then nth_error l (Z.to_nat (first_of d) + k) else None.
(** [new] is [old] with [v] at these positions. *)
Definition replaced {A} (d : dimension) (old v new : list A) : Prop :=
  length new = length old /\ selected d new v /\
  forall k, Z.of_nat k < first_of d \/ last_of d < Z.of_nat k -> nth_error new k = nth_error old k.
(** how many positions exist *)
Definition count_of {A} (d : dimension) (l : list A) : Z := Z.min (last_of d + 1) (Z.of_nat (length l)) - first_of d.

(** * Characters of a string: RFC 3629 *)
Definition character (c : Z) : Prop := 0 <= c < 0xD800 \/ 0xE000 <= c <= 0x10FFFF.
Definition utf8 (c : Z) : bytes :=
  let tail n := byte_of_Z (128 + c / 64 ^ n mod 64) in
  if c <? 0x80 then [byte_of_Z c]
  else if c <? 0x800 then [byte_of_Z (192 + c / 64); tail 0]
  else if c <? 0x10000 then [byte_of_Z (224 + c / 64 ^ 2); tail 1; tail 0]
  else [byte_of_Z (240 + c / 64 ^ 3); tail 2; tail 1; tail 0].
Definition is_text (s : bytes) (cs : list Z) : Prop := Forall character cs /\ s = flat_map utf8 cs.

(** * Outcomes *)
(** BadIndexRangeInvalid and BadIndexRangeNoData (Part 6, annex A.2) *)
Definition invalid : Z := 0x80360000.
Definition no_data : Z := 0x80370000.
Definition reads_as {A} (mk : list A -> gval) (d : dimension) (l : list A) (out : rread) : Prop :=
  if first_of d <? Z.of_nat (length l) then exists r, selected d l r /\ out = RVal (mk r) else out = RBad no_data.
Definition writes_as {A} (mk : list A -> gval) (d : dimension) (l v : list A) (out : wrote) : Prop :=
  if (first_of d <? Z.of_nat (length l)) && (Z.of_nat (length v) =? count_of d l)
  then exists r, replaced d l v r /\ out = WrVal (mk r) else out = WrBad no_data.
Definition text_of (cs : list Z) : bytes := flat_map utf8 cs.
Definition all_characters (l : list (list Z)) : Prop := Forall (Forall character) l.
(** The second dimension, inside the elements the first one selects *)
Definition reads_inside {A B} (mk : list B -> gval) (f : list A -> B) (d1 d2 : dimension) (l : list (list A)) (out : rread) : Prop :=
  if first_of d1 <? Z.of_nat (length l)
  then exists r, selected d1 l r /\
    ((Forall (fun x => first_of d2 < Z.of_nat (length x)) r /\ exists r', Forall2 (selected d2) r r' /\ out = RVal (mk (map f r'))) \/
     (Exists (fun x => Z.of_nat (length x) <= first_of d2) r /\ out = RBad no_data))
  else out = RBad no_data.

(** The same Go type, one that has elements *)
Definition same_kind (a b : gval) : Prop :=
  match a, b with
  | GText _, GText _ | GBlob _, GBlob _ | GTexts _, GTexts _ | GBlobs _, GBlobs _ => True
  | GArr t _, GArr t' _ => t = t'
  | _, _ => False
  end.
Definition element_count (v : gval) : Z :=
  match v with
  | GText s => Z.of_nat (length (runes s))
  | GBlob s => Z.of_nat (length s)
  | GArr _ l => Z.of_nat (length l)
  | GTexts l | GBlobs l => Z.of_nat (length l)
  | _ => 0
  end.
Definition well_encoded (v : gval) : Prop := match v with GText s => exists cs, is_text s cs | _ => True end.

(** How many dimensions a range on a variable may have: one for each array dimension and, for
    strings and byte strings, one more for the characters inside.  -3: scalar or one-dimensional,
    -2: anything, -1: scalar, 0: one or more dimensions, otherwise the number of dimensions. *)
Definition admits (textual : bool) (rank n : Z) : Prop :=
  let inside k := n = k \/ textual = true /\ n = k + 1 in
  (rank = -3 /\ inside 1) \/ rank = -2 \/ (rank = -1 /\ textual = true /\ n = 1) \/ rank = 0 \/
  ((1 <= rank \/ rank < -3) /\ inside rank).
