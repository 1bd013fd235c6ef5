(** float64 as Go computes with it: IEEE 754 binary64, round to nearest, ties to even.

    Every finite float64 is a whole number of units of 2^-1074, so values are integers here.  The
    two zeros are identified; no code modelled here distinguishes them.  Not in /repo: this is the
    arithmetic of the Go specification ("IEEE 754 64-bit floating-point numbers"). *)
From Coq Require Import ZArith Bool.
Open Scope Z_scope.

Inductive f64 : Type := FNaN | FInf (neg : bool) | FFin (z : Z).

Definition funit : Z := 2 ^ 1074.
(** A whole number as float64, exact up to 2^53. *)
Definition f_int (n : Z) : Z := n * funit.

(** a / b to the nearest whole number, ties to even; 0 <= a, 0 < b *)
Definition nearest (a b : Z) : Z :=
  let q := a / b in
  let r := a mod b in
  if 2 * r <? b then q else if b <? 2 * r then q + 1 else if Z.even q then q else q + 1.
(** The multiple of the unit nearest to n / d that has at most 53 significant bits; 0 <= n, 0 < d *)
Definition round_q (n d : Z) : Z :=
  let k := Z.max 0 (Z.log2 (n / d) - 52) in
  nearest n (d * 2 ^ k) * 2 ^ k.
Definition f_max : Z := 2 ^ 2098.          (* 2^1024 *)
Definition f_pack (neg : bool) (z : Z) : f64 := if f_max <=? z then FInf neg else FFin (if neg then - z else z).
Definition f_neg (z : Z) : bool := z <? 0.

Definition f_sub (a b : f64) : f64 :=
  match a, b with
  | FFin x, FFin y => f_pack (f_neg (x - y)) (round_q (Z.abs (x - y)) 1)
  | FNaN, _ | _, FNaN => FNaN
  | FInf s, FInf t => if Bool.eqb s t then FNaN else FInf s
  | FInf s, FFin _ => FInf s
  | FFin _, FInf t => FInf (negb t)
  end.
Definition f_mul (a b : f64) : f64 :=
  match a, b with
  | FFin x, FFin y => f_pack (xorb (f_neg x) (f_neg y)) (round_q (Z.abs x * Z.abs y) funit)
  | FNaN, _ | _, FNaN => FNaN
  | FInf s, FInf t => FInf (xorb s t)
  | FInf s, FFin y => if y =? 0 then FNaN else FInf (xorb s (f_neg y))
  | FFin x, FInf t => if x =? 0 then FNaN else FInf (xorb (f_neg x) t)
  end.
(** Division; by zero gives the infinity with the dividend's sign (the divisor's zero has no sign here). *)
Definition f_div (a b : f64) : f64 :=
  match a, b with
  | FFin x, FFin y => if y =? 0 then (if x =? 0 then FNaN else FInf (f_neg x))
                      else f_pack (xorb (f_neg x) (f_neg y)) (round_q (Z.abs x * funit) (Z.abs y))
  | FNaN, _ | _, FNaN => FNaN
  | FInf _, FInf _ => FNaN
  | FInf s, FFin y => FInf (xorb s (f_neg y))
  | FFin _, FInf _ => FFin 0
  end.
Definition f_abs (a : f64) : f64 := match a with FNaN => FNaN | FInf _ => FInf false | FFin z => FFin (Z.abs z) end.
(** math.Mod(x, y) != 0, for finite x >= 0 and finite y > 0; math.Mod is exact *)
Definition f_mod_nonzero (a b : f64) : bool :=
  match a, b with FFin x, FFin y => negb (x mod y =? 0) | _, _ => true end.

(** a < b; false when either is NaN *)
Definition f_lt (a b : f64) : bool :=
  match a, b with
  | FNaN, _ | _, FNaN => false
  | FFin x, FFin y => x <? y
  | FInf s, FInf t => s && negb t
  | FInf s, FFin _ => s
  | FFin _, FInf t => negb t
  end.
Definition f_le (a b : f64) : bool :=
  match a, b with
  | FNaN, _ | _, FNaN => false
  | FFin x, FFin y => x <=? y
  | FInf s, FInf t => s || negb t
  | FInf s, FFin _ => s
  | FFin _, FInf t => negb t
  end.
Definition f_isnan (a : f64) : bool := match a with FNaN => true | _ => false end.
(** float64(n) for an integer type *)
Definition f_of_Z (n : Z) : f64 := f_pack (f_neg n) (round_q (Z.abs (f_int n)) 1).
(** uint32(a) for 0 <= a < 2^32: the fraction is dropped.  Other values are implementation
    specific in Go; they are 0 here. *)
Definition f_u32 (a : f64) : Z :=
  match a with FFin x => if (0 <=? x) && (x <? f_int (2 ^ 32)) then x / funit else 0 | _ => 0 end.
