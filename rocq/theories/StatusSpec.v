(** The bits of a status code as Part 4, 7.39 gives them (tables 177 and 178: StatusCode bits and
    DataValue info bits), by position: lowest bit, number of bits, value in the field.  Written by hand
    from memory of the standard, after reading the code. *)
From Coq Require Import ZArith List String.
Import ListNotations.
Open Scope string_scope.
Open Scope Z_scope.

Definition field (low width value : Z) : Z := value * 2 ^ low.
Definition whole (low width : Z) : Z := (2 ^ width - 1) * 2 ^ low.
(** Severity 31-30, SubCode 27-16, StructureChanged 15, SemanticsChanged 14, InfoType 11-10, InfoBits 9-0,
    LimitBits 9-8, Overflow 7, HistorianBits 4-0 *)
Definition standard_masks : list (string * Z) :=
  [("SeverityMask", whole 30 2); ("SubCodeMask", whole 16 12); ("StructureChanged", field 15 1 1);
   ("SemanticsChanged", field 14 1 1); ("InfoTypeMask", whole 10 2); ("InfoTypeDataValue", field 10 2 1);
   ("InfoBitsMask", whole 0 10); ("LimitBitsMask", whole 8 2); ("Overflow", field 7 1 1); ("HistorianBitsMask", whole 0 5)].
Definition standard_limit : list (string * Z) :=
  [("LimitBitsNone", field 8 2 0); ("LimitBitsLow", field 8 2 1); ("LimitBitsHigh", field 8 2 2); ("LimitBitsConstant", field 8 2 3)].
(** "XXX01 calculated, XXX10 interpolated, XX1XX partial" *)
Definition standard_historian : list (string * Z) :=
  [("HistorianBitsCalculated", field 0 2 1); ("HistorianBitsInterpolated", field 0 2 2); ("HistorianBitsPartial", field 2 1 1)].
