(** What a multi-state variable is to show (OPC 10000-8, MultiStateValueDiscreteType): its value is one of the values of
    EnumValues, and ValueAsText has the display name of this one. Independent of the model's functions. *)
From Coq Require Import ZArith List Bool.
From Verif Require Import Bytes Prim Value Nodes DataPath MultiState.
Import ListNotations.
Open Scope Z_scope.

(** ** Values *)
(** the variants that hold the integer z *)
Inductive holds_int : val -> Z -> Prop :=
| hi_byte : forall z, 0 <= z < 2 ^ 8 -> holds_int (VScalar (KB BByte) (VB BByte z)) z
| hi_uint16 : forall z, 0 <= z < 2 ^ 16 -> holds_int (VScalar (KB BUInt16) (VB BUInt16 z)) z
| hi_uint32 : forall z, 0 <= z < 2 ^ 32 -> holds_int (VScalar (KB BUInt32) (VB BUInt32 z)) z
| hi_uint64 : forall z, 0 <= z < 2 ^ 64 -> holds_int (VScalar (KB BUInt64) (VB BUInt64 z)) z
| hi_sbyte : forall z, - 2 ^ 7 <= z < 2 ^ 7 -> holds_int (VScalar (KB BSByte) (VB BSByte z)) z
| hi_int16 : forall z, - 2 ^ 15 <= z < 2 ^ 15 -> holds_int (VScalar (KB BInt16) (VB BInt16 z)) z
| hi_int32 : forall z, - 2 ^ 31 <= z < 2 ^ 31 -> holds_int (VScalar (KB BInt32) (VB BInt32 z)) z
| hi_int64 : forall z, - 2 ^ 63 <= z < 2 ^ 63 -> holds_int (VScalar (KB BInt64) (VB BInt64 z)) z.

(** not one of the ten numeric types *)
Definition no_number (v : val) : Prop :=
  match v with
  | VScalar (KB (BSByte | BByte | BInt16 | BUInt16 | BInt32 | BUInt32 | BInt64 | BUInt64 | BFloat | BDouble)) _ => False
  | _ => True
  end.

(** Normal floats of IEEE 754 with m bits of mantissa and e of exponent: (-1)^sg * (2^m + frac) * 2^(ex - bias - m), and
    the integer that is left when the fraction of such a number is cut off *)
Definition float_bits (m e sg ex frac : Z) : Z := sg * 2 ^ (m + e) + ex * 2 ^ m + frac.
Definition normal_float (m e sg ex frac : Z) : Prop := (sg = 0 \/ sg = 1) /\ 0 < ex < 2 ^ e - 1 /\ 0 <= frac < 2 ^ m.
Definition cut_off (m e sg ex frac z : Z) : Prop :=
  let p := ex - (2 ^ (e - 1) - 1) - m in
  exists a, z = (if sg =? 0 then a else - a) /\
    (if 0 <=? p then a = (2 ^ m + frac) * 2 ^ p else a * 2 ^ (- p) <= 2 ^ m + frac < (a + 1) * 2 ^ (- p)).
(** variants that hold such a number *)
Inductive holds_float : val -> Z -> Prop :=
| hf_float : forall sg ex frac z, normal_float 23 8 sg ex frac -> cut_off 23 8 sg ex frac z ->
    holds_float (VScalar (KB BFloat) (VB BFloat (float_bits 23 8 sg ex frac))) z
| hf_double : forall sg ex frac z, normal_float 52 11 sg ex frac -> cut_off 52 11 sg ex frac z ->
    holds_float (VScalar (KB BDouble) (VB BDouble (float_bits 52 11 sg ex frac))) z.

(** The states of a variable: value, display name, description; and EnumValues with them *)
Definition table : Type := list (Z * ltext * ltext).
Definition enum_value (enum_type : Z) (x : Z * ltext * ltext) : val :=
  match x with (z, name, description) => VExt enum_type [VB BInt64 z; VB BLText name; VB BLText description] end.
Definition enum_values (enum_type : Z) (tb : table) : val := VArr KExt (map (enum_value enum_type) tb).

(** the display name of z: the first in the table *)
Definition named (tb : table) (z : Z) (name : ltext) : Prop :=
  exists before description after, tb = before ++ (z, name, description) :: after /\
    forall y n d, In (y, n, d) before -> y <> z.
Definition unlisted (tb : table) (z : Z) : Prop := forall y n d, In (y, n, d) tb -> y <> z.

Definition text_value (name : ltext) (t : time) : dval := mkDV (VScalar (KB BLText) (VB BLText name)) 0 t 0 t 0.

(** the value is listed and ValueAsText shows its name *)
Definition agree (tb : table) (s : states) : Prop :=
  exists z name, holds_int (d_value (s_value s)) z /\ named tb z name /\
    d_value (s_text s) = VScalar (KB BLText) (VB BLText name).

(** a write of one of the states; int64 has them all *)
Definition listed_write (tb : table) (x : dval * time) : Prop :=
  exists z name, holds_int (d_value (fst x)) z /\ - 2 ^ 63 <= z < 2 ^ 63 /\ named tb z name.

(** ** Properties of nodes *)
(** [id] is the target of the first forward reference of this type whose target exists and has this name *)
Definition first_target (sp : space) (start : node) (type name id : Z) : Prop :=
  exists before after, nd_refs start = before ++ mkRef type false id :: after /\
    (exists n, sp id = Some n /\ nd_name n = name) /\
    forall i n, In (mkRef type false i) before -> sp i = Some n -> nd_name n <> name.
Definition is_variable_in (sp : space) (id : Z) : Prop := exists n v, sp id = Some n /\ nd_kind n = KVariable v.
Definition is_object_in (sp : space) (id : Z) : Prop := exists n, sp id = Some n /\ nd_kind n = KObject.
Definition is_method_in (sp : space) (id : Z) : Prop := exists n e h, sp id = Some n /\ nd_kind n = KMethod e h.
Definition has_property_named (sp : space) (start : node) (name id : Z) : Prop :=
  first_target sp start 46 name id /\ is_variable_in sp id.
