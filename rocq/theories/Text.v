(** Text forms of NodeId, ExpandedNodeId, QualifiedName and browse paths.

    Source: /repo/ua/nodeid.go, /repo/ua/expanded_nodeid.go, /repo/ua/qualified_name.go.
    Go strings are byte strings.  Helpers of the Go standard library (strconv,
    strings, encoding/base64) and of github.com/google/uuid v1.6.0, which are not
    part of /repo, are modelled after their documentation. *)
From Coq Require Import ZArith List Bool String Strings.Byte.
From Verif Require Import Bytes Prim.
Import ListNotations.
Open Scope Z_scope.

Definition lit (s : string) : bytes := String.list_byte_of_string s.

(* ------------------------------------------------------------------ *)
(** * strings *)

(** strings.HasPrefix(s, p) and s[len(p):] *)
Fixpoint strip_prefix (p s : bytes) : option bytes :=
  match p, s with
  | [], _ => Some s
  | x :: p', y :: s' => if Byte.eqb x y then strip_prefix p' s' else None
  | _ :: _, [] => None
  end.

(** strings.Index(s, c) for a one byte separator: the text before the first
    occurrence and the text after it; None is -1. *)
Fixpoint cut (c : byte) (s : bytes) : option (bytes * bytes) :=
  match s with
  | [] => None
  | x :: r => if Byte.eqb x c then Some ([], r)
              else match cut c r with
                   | Some (a, b) => Some (x :: a, b)
                   | None => None
                   end
  end.

(** strings.Split(s, c) for a one byte separator *)
Fixpoint split (c : byte) (s : bytes) : list bytes :=
  match s with
  | [] => [[]]
  | x :: r => if Byte.eqb x c then [] :: split c r
              else match split c r with
                   | t :: ts => (x :: t) :: ts
                   | [] => [[x]]            (* unreachable: split is never empty *)
                   end
  end.

(* ------------------------------------------------------------------ *)
(** * Decimal numbers *)

Definition digit_char (d : Z) : byte := byte_of_Z (48 + d).
(** fmt "%d" of an unsigned number.  20 digits are enough for 64 bits. *)
Fixpoint dec_digits (fuel : nat) (z : Z) : bytes :=
  match fuel with
  | O => []
  | S f => if z <? 10 then [digit_char z] else dec_digits f (z / 10) ++ [digit_char (z mod 10)]
  end.
Definition print_dec (z : Z) : bytes := dec_digits 20 z.

Definition digit_val (b : byte) : option Z :=
  let d := Z_of_byte b - 48 in if (0 <=? d) && (d <=? 9) then Some d else None.

(** strconv.ParseUint(s, 10, bits) with maximum value [max]: NumOk, or a syntax
    error (value 0), or a range error (value max).  A range error is reported at
    the digit where it happens, before any later character is looked at. *)
Inductive num_res : Type := NumOk (z : Z) | NumSyntax | NumRange.
Fixpoint parse_digits (max acc : Z) (s : bytes) : num_res :=
  match s with
  | [] => NumOk acc
  | b :: r => match digit_val b with
              | None => NumSyntax
              | Some d => if max <? acc * 10 + d then NumRange else parse_digits max (acc * 10 + d) r
              end
  end.
Definition parse_uint (bits : Z) (s : bytes) : num_res :=
  match s with [] => NumSyntax | _ => parse_digits (2 ^ bits - 1) 0 s end.

(* ------------------------------------------------------------------ *)
(** * Guid text *)

Definition hex_char (d : Z) : byte := byte_of_Z (if d <? 10 then 48 + d else 87 + d).
Definition hex_val (b : byte) : option Z :=
  let z := Z_of_byte b in
  if (48 <=? z) && (z <=? 57) then Some (z - 48)
  else if (97 <=? z) && (z <=? 102) then Some (z - 87)
  else if (65 <=? z) && (z <=? 70) then Some (z - 55)
  else None.
Definition hex2 (b : byte) : bytes := [hex_char (Z_of_byte b / 16); hex_char (Z_of_byte b mod 16)].
(** uuid.xtob *)
Definition unhex2 (a b : byte) : option byte :=
  match hex_val a, hex_val b with
  | Some x, Some y => Some (byte_of_Z (x * 16 + y))
  | _, _ => None
  end.

(** uuid.UUID.String: 8-4-4-4-12 lower case hex digits *)
Definition print_guid (g : guid) : bytes :=
  match g with
  | Guid b0 b1 b2 b3 b4 b5 b6 b7 b8 b9 b10 b11 b12 b13 b14 b15 =>
      hex2 b0 ++ hex2 b1 ++ hex2 b2 ++ hex2 b3 ++ lit "-" ++ hex2 b4 ++ hex2 b5 ++ lit "-"
      ++ hex2 b6 ++ hex2 b7 ++ lit "-" ++ hex2 b8 ++ hex2 b9 ++ lit "-"
      ++ hex2 b10 ++ hex2 b11 ++ hex2 b12 ++ hex2 b13 ++ hex2 b14 ++ hex2 b15
  end.

Fixpoint unhex_all (s : bytes) : option bytes :=
  match s with
  | [] => Some []
  | a :: b :: r => match unhex2 a b, unhex_all r with
                   | Some x, Some l => Some (x :: l)
                   | _, _ => None
                   end
  | _ => None
  end.
Definition guid_of (l : bytes) : option guid :=
  match l with
  | [b0; b1; b2; b3; b4; b5; b6; b7; b8; b9; b10; b11; b12; b13; b14; b15] =>
      Some (Guid b0 b1 b2 b3 b4 b5 b6 b7 b8 b9 b10 b11 b12 b13 b14 b15)
  | _ => None
  end.
(** the four dashes and the hex digits between them, from 36 bytes *)
Definition parse_guid36 (s : bytes) : option guid :=
  let at_ i := nth i s x00 in
  if Byte.eqb (at_ 8%nat) x2d && Byte.eqb (at_ 13%nat) x2d && Byte.eqb (at_ 18%nat) x2d && Byte.eqb (at_ 23%nat) x2d
  then match unhex_all (firstn 8 s ++ firstn 4 (skipn 9 s) ++ firstn 4 (skipn 14 s)
                        ++ firstn 4 (skipn 19 s) ++ firstn 12 (skipn 24 s)) with
       | Some l => guid_of l
       | None => None
       end
  else None.
(** uuid.Parse: 36 characters, the same with "urn:uuid:" in front or one character
    on each side, or 32 hex digits.  The prefix is compared without case (strings.EqualFold; no other
    character folds to one of its letters). *)
Definition lower_ascii (b : byte) : byte :=
  let z := Z_of_byte b in if (65 <=? z) && (z <=? 90) then byte_of_Z (z + 32) else b.
Definition parse_guid (s : bytes) : option guid :=
  let n := List.length s in
  if Nat.eqb n 36 then parse_guid36 s
  else if Nat.eqb n 45 then
    match strip_prefix (lit "urn:uuid:") (map lower_ascii (firstn 9 s)) with Some _ => parse_guid36 (skipn 9 s) | None => None end
  else if Nat.eqb n 38 then parse_guid36 (firstn 36 (skipn 1 s))
  else if Nat.eqb n 32 then match unhex_all s with Some l => guid_of l | None => None end
  else None.

(* ------------------------------------------------------------------ *)
(** * Base64 (encoding/base64 StdEncoding) *)

Definition b64_char (d : Z) : byte :=
  byte_of_Z (if d <? 26 then 65 + d else if d <? 52 then 71 + d else if d <? 62 then d - 4
             else if d =? 62 then 43 else 47).
Definition b64_val (b : byte) : option Z :=
  let z := Z_of_byte b in
  if (65 <=? z) && (z <=? 90) then Some (z - 65)
  else if (97 <=? z) && (z <=? 122) then Some (z - 71)
  else if (48 <=? z) && (z <=? 57) then Some (z + 4)
  else if z =? 43 then Some 62
  else if z =? 47 then Some 63
  else None.
Definition pad_char : byte := x3d.

(** EncodeToString: groups of three bytes; the last group is padded with '='. *)
Fixpoint b64_enc (s : bytes) : bytes :=
  match s with
  | [] => []
  | [a] => let v := Z_of_byte a * 65536 in
           [b64_char (v / 262144); b64_char (v / 4096 mod 64); pad_char; pad_char]
  | [a; b] => let v := Z_of_byte a * 65536 + Z_of_byte b * 256 in
              [b64_char (v / 262144); b64_char (v / 4096 mod 64); b64_char (v / 64 mod 64); pad_char]
  | a :: b :: c :: r =>
      let v := Z_of_byte a * 65536 + Z_of_byte b * 256 + Z_of_byte c in
      b64_char (v / 262144) :: b64_char (v / 4096 mod 64) :: b64_char (v / 64 mod 64) :: b64_char (v mod 64)
      :: b64_enc r
  end.

(** DecodeString: carriage returns and line feeds are ignored; four characters
    give three bytes; the last group may end in "=" or "==" (its unused low bits
    are not checked); nothing may follow the padding. *)
Definition not_newline (b : byte) : bool := negb (Byte.eqb b x0a || Byte.eqb b x0d).
Fixpoint b64_groups (s : bytes) : option bytes :=
  match s with
  | [] => Some []
  | a :: b :: c :: d :: r =>
      match b64_val a, b64_val b with
      | Some x, Some y =>
          if Byte.eqb d pad_char then
            match r with
            | _ :: _ => None
            | [] => if Byte.eqb c pad_char then Some [byte_of_Z ((x * 64 + y) / 16)]
                    else match b64_val c with
                         | Some z => let v := (x * 64 + y) * 64 + z in
                                     Some [byte_of_Z (v / 1024); byte_of_Z (v / 4)]
                         | None => None
                         end
            end
          else match b64_val c, b64_val d with
               | Some z, Some w =>
                   let v := ((x * 64 + y) * 64 + z) * 64 + w in
                   match b64_groups r with
                   | Some l => Some (byte_of_Z (v / 65536) :: byte_of_Z (v / 256) :: byte_of_Z v :: l)
                   | None => None
                   end
               | _, _ => None
               end
      | _, _ => None
      end
  | _ => None
  end.
Definition b64_dec (s : bytes) : option bytes := b64_groups (filter not_newline s).

(* ------------------------------------------------------------------ *)
(** * NodeId *)

(** nodeid.go:31-38,58-64,84-90,110-116 String: "ns=%d;" only when the index is not 0 *)
Definition print_ns (ns : Z) : bytes := if ns =? 0 then [] else lit "ns=" ++ print_dec ns ++ lit ";".
(** expanded_nodeid.go:71-83: a nil NodeID prints as "i=0" *)
Definition print_nodeid (n : nodeid) : bytes :=
  match n with
  | NNull => lit "i=0"
  | NNum ns id => print_ns ns ++ lit "i=" ++ print_dec id
  | NStr ns s => print_ns ns ++ lit "s=" ++ s
  | NGuid ns g => print_ns ns ++ lit "g=" ++ print_guid g
  | NOpq ns s => print_ns ns ++ lit "b=" ++ b64_enc s
  end.

(** nodeid.go:139-163 the identifier part; nil (NNull) on any error *)
Definition parse_ident (ns : Z) (s : bytes) : nodeid :=
  match strip_prefix (lit "i=") s with
  | Some t => match parse_uint 32 t with
              | NumOk id => if (id =? 0) && (ns =? 0) then NNull else NNum ns id
              | _ => NNull
              end
  | None =>
  match strip_prefix (lit "s=") s with
  | Some t => NStr ns t
  | None =>
  match strip_prefix (lit "g=") s with
  | Some t => match parse_guid t with Some g => NGuid ns g | None => NNull end
  | None =>
  match strip_prefix (lit "b=") s with
  | Some t => match b64_dec t with Some b => NOpq ns b | None => NNull end
  | None => NNull
  end end end end.

(** nodeid.go:125 ParseNodeID.  s[3:pos]: the first ';' cannot be inside "ns=". *)
Definition parse_nodeid (s : bytes) : nodeid :=
  match strip_prefix (lit "ns=") s with
  | Some t => match cut x3b t with
              | None => NNull
              | Some (num, r) => match parse_uint 16 num with
                                 | NumOk ns => parse_ident ns r
                                 | _ => NNull
                                 end
              end
  | None => parse_ident 0 s
  end.

(* ------------------------------------------------------------------ *)
(** * ExpandedNodeId *)

(** expanded_nodeid.go:62 String *)
Definition print_exp (e : expnodeid) : bytes :=
  (if 0 <? e_server e then lit "svr=" ++ print_dec (e_server e) ++ lit ";" else [])
  ++ (if is_empty (e_uri e) then [] else lit "nsu=" ++ e_uri e ++ lit ";")
  ++ print_nodeid (e_node e).

Definition nil_exp : expnodeid := mkExp 0 [] NNull.
(** expanded_nodeid.go:46-57 the part after "svr=" *)
Definition parse_exp_rest (svr : Z) (s : bytes) : expnodeid :=
  match strip_prefix (lit "nsu=") s with
  | Some t => match cut x3b t with
              | None => nil_exp
              | Some (nsu, r) => mkExp svr nsu (parse_nodeid r)
              end
  | None => mkExp svr [] (parse_nodeid s)
  end.
(** expanded_nodeid.go:30 ParseExpandedNodeID *)
Definition parse_exp (s : bytes) : expnodeid :=
  match strip_prefix (lit "svr=") s with
  | Some t => match cut x3b t with
              | None => nil_exp
              | Some (num, r) => match parse_uint 32 num with
                                 | NumOk svr => parse_exp_rest svr r
                                 | _ => nil_exp
                                 end
              end
  | None => parse_exp_rest 0 s
  end.

(* ------------------------------------------------------------------ *)
(** * QualifiedName and browse paths *)

(** qualified_name.go:57 String *)
Definition print_qname (q : qname) : bytes := print_dec (q_ns q) ++ lit ":" ++ q_name q.
(** qualified_name.go:23 ParseQualifiedName.  On a range error ParseUint returns
    the maximum value together with the error, and that value is used. *)
Definition parse_qname (s : bytes) : qname :=
  match cut x3a s with
  | None => mkQ 0 s
  | Some (num, r) => match parse_uint 16 num with
                     | NumOk ns => mkQ ns r
                     | NumSyntax => mkQ 0 s
                     | NumRange => mkQ 65535 s
                     end
  end.
(** qualified_name.go:38 ParseBrowsePath *)
Definition parse_path (s : bytes) : list qname :=
  match s with [] => [] | _ => map parse_qname (split x2f s) end.
(** The text a user writes for a path: the names joined with "/" (no printer exists in /repo). *)
Fixpoint print_path (l : list qname) : bytes :=
  match l with
  | [] => []
  | [q] => print_qname q
  | q :: r => print_qname q ++ lit "/" ++ print_path r
  end.
