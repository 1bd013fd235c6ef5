(** The layout OPC UA Part 6 prescribes for the built-in types, written as lists
    of byte numbers.  Nothing here uses the writers of Prim.v or Value.v. *)
From Coq Require Import ZArith List Bool Strings.Byte.
From Verif Require Import Bytes CodecSpec Prim Value.
Import ListNotations.
Open Scope Z_scope.

Definition numbers (b : bytes) : list Z := map Z_of_byte b.

(** Least significant byte first; negative numbers in two's complement. *)
Definition little_endian (k : nat) (z : Z) : list Z :=
  map (fun i => (z / 256 ^ Z.of_nat i) mod 256) (seq 0 k).

(** Length then bytes; the null and the empty string are length -1. *)
Definition lay_string (s : bytes) : list Z :=
  match s with
  | [] => [255; 255; 255; 255]
  | _ => little_endian 4 (Z.of_nat (length s)) ++ numbers s
  end.

(** Guid: first three fields little-endian, the rest in order. *)
Definition lay_guid (g : guid) : list Z :=
  map (fun i => nth i (numbers (guid_bytes g)) 0) [3; 2; 1; 0; 5; 4; 7; 6; 8; 9; 10; 11; 12; 13; 14; 15]%nat.

(** Part 6 table 6-10: TwoByte, FourByte, Numeric, String, Guid, ByteString. *)
Definition lay_nodeid_with (flags : Z) (n : nodeid) : list Z :=
  match n with
  | NNull => [flags + 0; 0]
  | NNum ns id =>
      if (ns =? 0) && (id <? 256) then [flags + 0; id]
      else if (ns <? 256) && (id <? 65536) then [flags + 1; ns] ++ little_endian 2 id
      else [flags + 2] ++ little_endian 2 ns ++ little_endian 4 id
  | NStr ns s => [flags + 3] ++ little_endian 2 ns ++ lay_string s
  | NGuid ns g => [flags + 4] ++ little_endian 2 ns ++ lay_guid g
  | NOpq ns s => [flags + 5] ++ little_endian 2 ns ++ lay_string s
  end.
Definition lay_nodeid := lay_nodeid_with 0.

Definition has_uri (e : expnodeid) : bool := match e_uri e with [] => false | _ => true end.
(** 0x80: namespace URI present; 0x40: server index present. *)
Definition lay_expnodeid (e : expnodeid) : list Z :=
  lay_nodeid_with ((if has_uri e then 128 else 0) + (if e_server e =? 0 then 0 else 64))
                  (if has_uri e then with_ns (e_node e) 0 else e_node e)
  ++ (if has_uri e then lay_string (e_uri e) else [])
  ++ (if e_server e =? 0 then [] else little_endian 4 (e_server e)).

(** bit 0: locale present, bit 1: text present; locale first. *)
Definition lay_ltext (l : ltext) : list Z :=
  match lt_locale l, lt_text l with
  | [], [] => [0]
  | lo, [] => [1] ++ lay_string lo
  | [], tx => [2] ++ lay_string tx
  | lo, tx => [3] ++ lay_string lo ++ lay_string tx
  end.

Definition lay_qname (q : qname) : list Z := little_endian 2 (q_ns q) ++ lay_string (q_name q).

(** Built-in type numbers, Part 6 table 5-1, in order from 1. *)
Definition builtin_types : list kind :=
  [KB BBool; KB BSByte; KB BByte; KB BInt16; KB BUInt16; KB BInt32; KB BUInt32; KB BInt64; KB BUInt64;
   KB BFloat; KB BDouble; KB BString; KB BTime; KB BGuid; KB BByteString; KB BXml; KB BNodeId; KB BExp;
   KB BStatus; KB BQName; KB BLText; KExt; KDV; KVar; KDiag].

(** Variants: the first byte is the built-in type number, plus 128 for an array,
    plus 64 when dimensions follow. *)
Definition shape_bits (v : val) : option (kind * Z) :=
  match v with
  | VScalar k _ => Some (k, 0)
  | VArrNil k | VArr k _ => Some (k, 128)
  | VMat2 k _ | VMat3 k _ => Some (k, 192)
  | _ => None
  end.

(** DataValue: presence bits and the order of the present fields. *)
Definition lay_dv (body : list Z) (v_present : bool) st t1 p1 t2 p2 (w1 w2 : list Z) : list Z :=
  [ (if v_present then 1 else 0) + (if st =? 0 then 0 else 2) + (if time_is_zero t1 then 0 else 4)
    + (if time_is_zero t2 then 0 else 8) + (if p1 =? 0 then 0 else 16) + (if p2 =? 0 then 0 else 32) ]
  ++ (if v_present then body else [])
  ++ (if st =? 0 then [] else little_endian 4 st)
  ++ (if time_is_zero t1 then [] else w1)
  ++ (if p1 =? 0 then [] else little_endian 2 p1)
  ++ (if time_is_zero t2 then [] else w2)
  ++ (if p2 =? 0 then [] else little_endian 2 p2).

(** Legal DiagnosticInfo values: int32 fields, short enough texts. *)
Fixpoint legal_diag (d : diag) : Prop :=
  match d with Diag a b c e f g h =>
    (forall z, a = Some z \/ b = Some z \/ c = Some z \/ e = Some z -> in_s 4 z) /\
    (forall s, f = Some s -> len_ok s) /\ (forall z, g = Some z -> in_u 4 z) /\
    match h with Some i => legal_diag i | None => True end
  end.

Definition empty_diag := Diag None None None None None None None.

Definition diag_nums (o : option Z) (k : nat) : list Z := match o with Some z => little_endian k z | None => [] end.
Fixpoint lay_diag (d : diag) : list Z :=
  match d with Diag sym uri loc txt info st inner =>
    [ (if is_some sym then 1 else 0) + (if is_some uri then 2 else 0) + (if is_some txt then 4 else 0)
      + (if is_some loc then 8 else 0) + (if is_some info then 16 else 0) + (if is_some st then 32 else 0)
      + (if is_some inner then 64 else 0) ]
    ++ diag_nums sym 4 ++ diag_nums uri 4 ++ diag_nums loc 4 ++ diag_nums txt 4
    ++ match info with Some s => lay_string s | None => [] end
    ++ diag_nums st 4
    ++ match inner with Some i => lay_diag i | None => [] end
  end.
