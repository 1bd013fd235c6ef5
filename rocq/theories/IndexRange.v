(** Index ranges.

    Source: /repo/server/server_service_set.go (readRange 2638-2969, writeRange 2972-3414,
    parseBounds 3416-3470).  The conversions between string and []rune and strconv.ParseInt
    belong to Go and its standard library.  int has 64 bits. *)
From Coq Require Import ZArith List Bool Strings.Byte.
From Verif Require Import Bytes Text.
Import ListNotations.
Open Scope Z_scope.

(** * Characters *)
Definition rune_error : Z := 0xFFFD.
Definition in_span (lo hi : Z) (b : byte) : bool := (lo <=? Z_of_byte b) && (Z_of_byte b <=? hi).
Definition cont (b : byte) : bool := in_span 0x80 0xBF b.
Definition low6 (b : byte) : Z := Z_of_byte b - 0x80.
(** []rune(s): a byte that does not begin a well-formed sequence becomes U+FFFD. *)
Fixpoint runes (s : bytes) : list Z :=
  match s with
  | [] => []
  | b0 :: s1 =>
      if in_span 0 0x7F b0 then Z_of_byte b0 :: runes s1
      else if in_span 0xC2 0xDF b0 then
        match s1 with
        | b1 :: s2 => if cont b1 then ((Z_of_byte b0 - 0xC0) * 64 + low6 b1) :: runes s2 else rune_error :: runes s1
        | _ => rune_error :: runes s1
        end
      else if in_span 0xE0 0xEF b0 then
        match s1 with
        | b1 :: b2 :: s3 =>
            if in_span (if Z_of_byte b0 =? 0xE0 then 0xA0 else 0x80) (if Z_of_byte b0 =? 0xED then 0x9F else 0xBF) b1 && cont b2
            then ((Z_of_byte b0 - 0xE0) * 4096 + low6 b1 * 64 + low6 b2) :: runes s3
            else rune_error :: runes s1
        | _ => rune_error :: runes s1
        end
      else if in_span 0xF0 0xF4 b0 then
        match s1 with
        | b1 :: b2 :: b3 :: s4 =>
            if in_span (if Z_of_byte b0 =? 0xF0 then 0x90 else 0x80) (if Z_of_byte b0 =? 0xF4 then 0x8F else 0xBF) b1 && cont b2 && cont b3
            then ((Z_of_byte b0 - 0xF0) * 262144 + low6 b1 * 4096 + low6 b2 * 64 + low6 b3) :: runes s4
            else rune_error :: runes s1
        | _ => rune_error :: runes s1
        end
      else rune_error :: runes s1
  end.
(** string(rs) *)
Definition put_rune (r : Z) : bytes :=
  let ch z := byte_of_Z z in
  if (0 <=? r) && (r <=? 0x7F) then [ch r]
  else if (0x80 <=? r) && (r <=? 0x7FF) then [ch (0xC0 + r / 64); ch (0x80 + r mod 64)]
  else if ((0x800 <=? r) && (r <=? 0xD7FF)) || ((0xE000 <=? r) && (r <=? 0xFFFF))
  then [ch (0xE0 + r / 4096); ch (0x80 + r / 64 mod 64); ch (0x80 + r mod 64)]
  else if (0x10000 <=? r) && (r <=? 0x10FFFF)
  then [ch (0xF0 + r / 262144); ch (0x80 + r / 4096 mod 64); ch (0x80 + r / 64 mod 64); ch (0x80 + r mod 64)]
  else [xef; xbf; xbd].
Definition put_runes (rs : list Z) : bytes := flat_map put_rune rs.

(** * Bounds *)
(** strconv.ParseInt(s, 10, bits); None is an error *)
Definition parse_int (bits : Z) (s : bytes) : option Z :=
  let '(neg, digits) :=
    match s with
    | c :: r => if Byte.eqb c x2b then (false, r) else if Byte.eqb c x2d then (true, r) else (false, s)
    | [] => (false, s)
    end in
  match parse_uint bits digits with
  | NumOk n =>
      if neg then if n <=? 2 ^ (bits - 1) then Some (- n) else None
      else if n <? 2 ^ (bits - 1) then Some n else None
  | _ => None
  end.
Definition BadIndexRangeInvalid : Z := 0x80360000.
Definition BadIndexRangeNoData : Z := 0x80370000.
Inductive bounds : Type := BOk (lo hi : Z) | BBad (status : Z).
(** 3430-3454; an upper bound of -1 is none *)
Definition parse_pair (s : bytes) : option (Z * Z) :=
  match cut x3a s with
  | Some (a, b) =>
      match parse_int 32 a, parse_int 32 b with
      | Some lo, Some hi => if (hi <? 0) || (hi <=? lo) then None else if lo <? 0 then None else Some (lo, hi)
      | _, _ => None
      end
  | None => match parse_int 32 s with Some lo => if lo <? 0 then None else Some (lo, -1) | None => None end
  end.
(** parseBounds 3416-3470 *)
Definition parse_bounds (s : bytes) (len : Z) : bounds :=
  if len =? 0 then BBad BadIndexRangeNoData
  else match s with
  | [] => BOk 0 len
  | _ =>
      match parse_pair s with
      | None => BBad BadIndexRangeInvalid
      | Some (lo, hi) =>
          if len <=? lo then BBad BadIndexRangeNoData
          else
            let hi := if len <=? hi then len - 1 else hi in
            let hi := if hi =? -1 then lo else hi in
            BOk lo (hi + 1)
      end
  end.

(** * Values *)
(** The Go value in a ua.Variant.  [t] is the number of the built-in type; elements that are
    neither strings nor byte strings are represented by codes. *)
Inductive gval : Type :=
| GNil
| GScalar (t c : Z)              (* a scalar of another type than String and ByteString *)
| GText (s : bytes)              (* string *)
| GBlob (s : bytes)              (* ua.ByteString *)
| GArr (t : Z) (els : list Z)    (* a slice of another type than the next two *)
| GTexts (l : list bytes)        (* []string *)
| GBlobs (l : list bytes)        (* []ua.ByteString *)
| GMatrix (t c : Z)              (* a slice of slices *)
| GOther (c : Z).                (* a pointer, map or another Go value *)

(** src[i:j], 0 <= i <= j <= len *)
Definition slice {A} (i j : Z) (l : list A) : list A := firstn (Z.to_nat (j - i)) (skipn (Z.to_nat i) l).
(** copy(dst, src); copy(dst[i:j], v), len(v) = j - i *)
Definition paste {A} (i j : Z) (v src : list A) : list A := firstn (Z.to_nat i) src ++ v ++ skipn (Z.to_nat j) src.
Definition zlen {A} (l : list A) : Z := Z.of_nat (length l).

Inductive rread : Type := RVal (v : gval) | RBad (status : Z).
Definition sub_range {A} (r : bytes) (l : list A) : list A + Z :=
  match parse_bounds r (zlen l) with BOk i j => inl (slice i j l) | BBad st => inr st end.
(** string: 2649-2655 *)
Definition text_range (r : bytes) (s : bytes) : bytes + Z :=
  match sub_range r (runes s) with inl rs => inl (put_runes rs) | inr st => inr st end.
(** the loops 2799-2809 and 2844-2852: the first failure is the result *)
Fixpoint each_range (f : bytes -> bytes + Z) (l : list bytes) : list bytes + Z :=
  match l with
  | [] => inl []
  | s :: l' =>
      match f s with
      | inr st => inr st
      | inl s' => match each_range f l' with inl l'' => inl (s' :: l'') | inr st => inr st end
      end
  end.
Definition inner (f : bytes -> bytes -> bytes + Z) (rs : list bytes) (l : list bytes) : list bytes + Z :=
  match rs with [] => inl l | r :: _ => each_range (f r) l end.
Definition lift {A} (c : A -> gval) (x : A + Z) : rread := match x with inl v => RVal (c v) | inr st => RBad st end.
(** readRange 2638-2969 *)
Definition read_range (src : gval) (range : bytes) : rread :=
  match range with
  | [] => RVal src
  | _ =>
      match split x2c range with
      | [] => RVal src                            (* unreachable *)
      | r :: rs =>
          match src with
          | GText s => if 1 <=? zlen rs then RBad BadIndexRangeNoData else lift GText (text_range r s)
          | GBlob s => if 1 <=? zlen rs then RBad BadIndexRangeNoData else lift GBlob (sub_range r s)
          | GArr t els => if 1 <=? zlen rs then RBad BadIndexRangeNoData else lift (GArr t) (sub_range r els)
          | GTexts l =>
              if 2 <=? zlen rs then RBad BadIndexRangeNoData
              else match sub_range r l with
                   | inl l' => lift GTexts (inner text_range rs l')
                   | inr st => RBad st
                   end
          | GBlobs l =>
              if 2 <=? zlen rs then RBad BadIndexRangeNoData
              else match sub_range r l with
                   | inl l' => lift GBlobs (inner sub_range rs l')
                   | inr st => RBad st
                   end
          | _ => RBad BadIndexRangeNoData
          end
      end
  end.

(** [WrCrash]: a type assertion fails *)
Inductive wrote : Type := WrVal (v : gval) | WrBad (status : Z) | WrCrash.
Definition paste_range {A} (c : list A -> gval) (r : bytes) (src : list A) (v : option (list A)) : wrote :=
  match parse_bounds r (zlen src) with
  | BBad st => WrBad st
  | BOk i j =>
      match v with
      | None => WrCrash
      | Some v => if j - i =? zlen v then WrVal (c (paste i j v src)) else WrBad BadIndexRangeNoData
      end
  end.
(** writeRange 2972-3414 *)
Definition write_range (src v : gval) (range : bytes) : wrote :=
  match range with
  | [] => WrVal v
  | _ =>
      match split x2c range with
      | [] => WrVal v                             (* unreachable *)
      | r :: rs =>
          match src with
          | GText s =>
              if 1 <=? zlen rs then WrBad BadIndexRangeNoData
              else paste_range (fun x => GText (put_runes x)) r (runes s) (match v with GText w => Some (runes w) | _ => None end)
          | GBlob s =>
              if 1 <=? zlen rs then WrBad BadIndexRangeNoData
              else paste_range GBlob r s (match v with GBlob w => Some w | _ => None end)
          | GArr t els =>
              if 1 <=? zlen rs then WrBad BadIndexRangeNoData
              else paste_range (GArr t) r els (match v with GArr t' w => if t =? t' then Some w else None | _ => None end)
          | GTexts l =>
              if 2 <=? zlen rs then WrBad BadIndexRangeNoData
              else paste_range GTexts r l (match v with GTexts w => Some w | _ => None end)
          | GBlobs l =>
              if 2 <=? zlen rs then WrBad BadIndexRangeNoData
              else paste_range GBlobs r l (match v with GBlobs w => Some w | _ => None end)
          | _ => WrBad BadIndexRangeNoData
          end
      end
  end.

(** validateIndexRange 4714-4778, called for a new monitored item; [dest] is the built-in type
    of the variable *)
Definition valid_dim (r : bytes) : bool := match parse_pair r with Some _ => true | None => false end.   (* 4724-4748: as 3430-3454 *)
Definition validate_range (s : bytes) (dest rank : Z) : Z :=
  match s with
  | [] => 0
  | _ =>
      let ranges := split x2c s in
      if negb (forallb valid_dim ranges) then BadIndexRangeInvalid
      else
        let textual := (dest =? 12) || (dest =? 15) in
        let fits diff := (diff =? 0) || ((diff =? 1) && textual) in
        let n := zlen ranges in
        if rank =? -3 then if fits (n - 1) then 0 else BadIndexRangeNoData
        else if rank =? -2 then 0
        else if rank =? -1 then if (n =? 1) && textual then 0 else BadIndexRangeNoData
        else if rank =? 0 then 0
        else if fits (n - rank) then 0 else BadIndexRangeNoData
  end.
