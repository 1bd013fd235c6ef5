(** Built-in scalar types: writers and readers.

    Source: /repo/ua/binary_encoder.go lines 368-765, /repo/ua/binary_decoder.go lines 341-765.
    Writers produce byte lists: the only way a Go writer fails here is that the
    underlying io.Writer fails, which is outside these functions. *)
From Coq Require Import ZArith List Bool Strings.Byte.
From Verif Require Import Bytes.
Import ListNotations.
Open Scope Z_scope.

(* ------------------------------------------------------------------ *)
(** * Fixed width scalars *)

(** binary_encoder.go:368 WriteBoolean *)
Definition write_bool (b : bool) : bytes := [if b then x01 else x00].
(** binary_decoder.go:342 ReadBoolean: any non-zero byte is true *)
Definition read_bool : reader bool :=
  fmap (fun l => negb (le_dec l =? 0)) (read_full 1).

(** binary_encoder.go:381,390,399,408,417,426,435,444: WriteSByte, WriteByte,
    WriteInt16/UInt16/Int32/UInt32/Int64/UInt64.  A signed value is first
    converted to the unsigned type of the same width, i.e. taken mod 2^(8k);
    [le_enc] performs exactly that reduction.  k is the width in bytes. *)
Definition write_int (k : nat) (z : Z) : bytes := le_enc k z.
(** binary_decoder.go:360,378,396,414 ReadByte/UInt16/UInt32/UInt64 *)
Definition read_uint (k : nat) : reader Z := fmap le_dec (read_full (Z.of_nat k)).
(** binary_decoder.go:351,369,387,405 ReadSByte/Int16/Int32/Int64 *)
Definition read_sint (k : nat) : reader Z :=
  fmap (fun l => to_signed k (le_dec l)) (read_full (Z.of_nat k)).

(** binary_encoder.go:453,462 WriteFloat, WriteDouble; binary_decoder.go:423,432.
    Floats are represented by their IEEE bit pattern (math.Float32bits /
    math.Float64bits are the identity on patterns), so these are the unsigned
    32 and 64 bit codecs. *)
Definition write_float (bits : Z) := write_int 4 bits.
Definition read_float := read_uint 4.
Definition write_double (bits : Z) := write_int 8 bits.
Definition read_double := read_uint 8.

Definition read_byte : reader byte :=
  fun s => match s with [] => Err [] | b :: r => Ok b r end.

(* ------------------------------------------------------------------ *)
(** * Strings *)

(** binary_encoder.go:471 WriteString: length 0 is written as -1.  The length is
    converted with int32(len), i.e. modulo 2^32. *)
Definition write_string (s : bytes) : bytes :=
  match s with
  | [] => write_int 4 (-1)
  | _ => write_int 4 (Z.of_nat (length s)) ++ s
  end.
(** binary_decoder.go:441 ReadString *)
Definition read_string : reader bytes :=
  bind (read_sint 4) (fun n => if n <? 0 then ret [] else read_full n).

(** binary_encoder.go:526 WriteByteString (same body as WriteString) *)
Definition write_bytestring := write_string.
(** binary_decoder.go:498 ReadByteString: n <= 0 is the empty value *)
Definition read_bytestring : reader bytes :=
  bind (read_sint 4) (fun n => if n <=? 0 then ret [] else read_full n).

(** binary_encoder.go:546 / binary_decoder.go:516 XMLElement is a string *)
Definition write_xml := write_string.
Definition read_xml := read_string.

(** binary_encoder.go:1812 WriteByteArray: nil is -1, otherwise length + bytes *)
Definition write_bytearray (o : option bytes) : bytes :=
  match o with
  | None => write_int 4 (-1)
  | Some s => write_int 4 (Z.of_nat (length s)) ++ s
  end.
(** binary_decoder.go:2173 ReadByteArray *)
Definition read_bytearray : reader (option bytes) :=
  bind (read_sint 4) (fun n => if n <? 0 then ret None else fmap Some (read_full n)).

(* ------------------------------------------------------------------ *)
(** * DateTime *)

(** A time.Time in UTC: seconds since 1970 and nanoseconds within the second
    (0 <= nsec < 10^9).  The monotonic clock reading and the location of
    time.Time are not modelled. *)
Record time := mkTime { t_sec : Z; t_nsec : Z }.

Definition max_ticks := 2650467743990000000.
Definition max_int64 := 9223372036854775807.
Definition epoch_1601 := 11644473600.

(** binary_encoder.go:491 WriteDateTime.  int64 arithmetic wraps. *)
Definition ticks_of (t : time) : Z :=
  let ticks := wrap64 (wrap64 (wrap64 (t_sec t + epoch_1601) * 10000000) + t_nsec t / 100) in
  let ticks := if ticks <? 0 then 0 else ticks in
  if max_ticks <=? ticks then max_int64 else ticks.
Definition write_time (t : time) : bytes := write_int 8 (ticks_of t).
(** binary_decoder.go:460 ReadDateTime *)
Definition time_of_ticks (ticks : Z) : time :=
  let ticks := if ticks <? 0 then 0 else ticks in
  let ticks := if ticks =? max_int64 then max_ticks else ticks in
  mkTime (ticks / 10000000 - epoch_1601) ((ticks mod 10000000) * 100).
Definition read_time : reader time := fmap time_of_ticks (read_sint 8).

(* ------------------------------------------------------------------ *)
(** * Guid *)

(** uuid.UUID is [16]byte *)
Inductive guid : Type :=
  Guid (b0 b1 b2 b3 b4 b5 b6 b7 b8 b9 b10 b11 b12 b13 b14 b15 : byte).

(** binary_encoder.go:507 WriteGUID *)
Definition write_guid (g : guid) : bytes :=
  match g with
  | Guid b0 b1 b2 b3 b4 b5 b6 b7 b8 b9 b10 b11 b12 b13 b14 b15 =>
      [b3; b2; b1; b0; b5; b4; b7; b6; b8; b9; b10; b11; b12; b13; b14; b15]
  end.
(** binary_decoder.go:477 ReadGUID: two reads of 8 bytes *)
Definition read_guid : reader guid :=
  bind (read_full 8) (fun h => bind (read_full 8) (fun t =>
    match h, t with
    | [c0; c1; c2; c3; c4; c5; c6; c7], [d0; d1; d2; d3; d4; d5; d6; d7] =>
        ret (Guid c3 c2 c1 c0 c5 c4 c7 c6 d0 d1 d2 d3 d4 d5 d6 d7)
    | _, _ => fail   (* unreachable: read_full 8 yields 8 bytes *)
    end)).

Definition guid_bytes (g : guid) : bytes :=
  match g with
  | Guid b0 b1 b2 b3 b4 b5 b6 b7 b8 b9 b10 b11 b12 b13 b14 b15 =>
      [b0; b1; b2; b3; b4; b5; b6; b7; b8; b9; b10; b11; b12; b13; b14; b15]
  end.
Definition guid_eqb (a b : guid) : bool := bytes_eqb (guid_bytes a) (guid_bytes b).
(** binary_decoder.go:525 nilGuid *)
Definition nil_guid : guid :=
  Guid x00 x00 x00 x00 x00 x00 x00 x00 x00 x00 x00 x00 x00 x00 x00 x00.

(* ------------------------------------------------------------------ *)
(** * NodeID *)

(** ua/nodeid.go: the NodeID interface and its four implementations; NNull is the
    nil interface. *)
Inductive nodeid : Type :=
| NNull
| NNum (ns id : Z)
| NStr (ns : Z) (id : bytes)
| NGuid (ns : Z) (id : guid)
| NOpq (ns : Z) (id : bytes).

Definition is_empty {A} (l : list A) : bool := match l with [] => true | _ => false end.

(** binary_encoder.go:551 WriteNodeID *)
Definition write_nodeid (n : nodeid) : bytes :=
  match n with
  | NNull => write_int 2 0
  | NNum ns id =>
      if (id <=? 255) && (ns =? 0) then write_int 1 0 ++ write_int 1 id
      else if (id <=? 65535) && (ns <=? 255) then
        write_int 1 1 ++ write_int 1 ns ++ write_int 2 id
      else write_int 1 2 ++ write_int 2 ns ++ write_int 4 id
  | NStr ns id => write_int 1 3 ++ write_int 2 ns ++ write_string id
  | NGuid ns id => write_int 1 4 ++ write_int 2 ns ++ write_guid id
  | NOpq ns id => write_int 1 5 ++ write_int 2 ns ++ write_bytestring id
  end.

(** binary_decoder.go:528 ReadNodeID *)
Definition read_nodeid : reader nodeid :=
  let* b := read_uint 1 in
  if b =? 0 then
    let* id := read_uint 1 in
    if id =? 0 then ret NNull else ret (NNum 0 id)
  else if b =? 1 then
    let* ns := read_uint 1 in
    let* id := read_uint 2 in
    ret (NNum ns id)
  else if b =? 2 then
    let* ns := read_uint 2 in
    let* id := read_uint 4 in
    ret (NNum ns id)
  else if b =? 3 then
    let* ns := read_uint 2 in
    let* id := read_string in
    if (ns =? 0) && is_empty id then ret NNull else ret (NStr ns id)
  else if b =? 4 then
    let* ns := read_uint 2 in
    let* id := read_guid in
    if (ns =? 0) && guid_eqb id nil_guid then ret NNull else ret (NGuid ns id)
  else if b =? 5 then
    let* ns := read_uint 2 in
    let* id := read_bytestring in
    if (ns =? 0) && is_empty id then ret NNull else ret (NOpq ns id)
  else fail.

(* ------------------------------------------------------------------ *)
(** * ExpandedNodeID *)

(** ua/expanded_nodeid.go:12 *)
Record expnodeid := mkExp { e_server : Z; e_uri : bytes; e_node : nodeid }.

(** binary_encoder.go:622 WriteExpandedNodeID.  [b] collects the flag bits. *)
Definition exp_flags (e : expnodeid) : Z :=
  Z.lor (if 0 <? e_server e then 64 else 0)
        (if is_empty (e_uri e) then 0 else 128).
Definition write_expnodeid (e : expnodeid) : bytes :=
  let b := exp_flags e in
  let has_uri := negb (Z.land b 128 =? 0) in
  let strip ns := if has_uri then 0 else ns in
  (match e_node e with
   | NNum ns id =>
       let ns := strip ns in
       if (id <=? 255) && (ns =? 0) then write_int 1 (Z.lor 0 b) ++ write_int 1 id
       else if (id <=? 65535) && (ns <=? 255) then
         write_int 1 (Z.lor 1 b) ++ write_int 1 ns ++ write_int 2 id
       else write_int 1 (Z.lor 2 b) ++ write_int 2 ns ++ write_int 4 id
   | NStr ns id => write_int 1 (Z.lor 3 b) ++ write_int 2 (strip ns) ++ write_string id
   | NGuid ns id => write_int 1 (Z.lor 4 b) ++ write_int 2 (strip ns) ++ write_guid id
   | NOpq ns id => write_int 1 (Z.lor 5 b) ++ write_int 2 (strip ns) ++ write_bytestring id
   | NNull => write_int 2 0              (* flags are not written *)
   end)
  ++ (if has_uri then write_string (e_uri e) else [])
  ++ (if negb (Z.land b 64 =? 0) then write_int 4 (e_server e) else []).

(** binary_decoder.go:623 ReadExpandedNodeID *)
Definition read_expnodeid : reader expnodeid :=
  let* b := read_uint 1 in
  let k := Z.land b 15 in
  let* n :=
    (if k =? 0 then
       let* id := read_uint 1 in
       if id =? 0 then ret NNull else ret (NNum 0 id)
     else if k =? 1 then
       let* ns := read_uint 1 in
       let* id := read_uint 2 in
       ret (NNum ns id)
     else if k =? 2 then
       let* ns := read_uint 2 in
       let* id := read_uint 4 in
       ret (NNum ns id)
     else if k =? 3 then
       let* ns := read_uint 2 in
       let* id := read_string in
       ret (NStr ns id)
     else if k =? 4 then
       let* ns := read_uint 2 in
       let* id := read_guid in
       ret (NGuid ns id)
     else if k =? 5 then
       let* ns := read_uint 2 in
       let* id := read_bytestring in
       ret (NOpq ns id)
     else fail) in
  let* uri := (if negb (Z.land b 128 =? 0) then read_string else ret []) in
  let* svr := (if negb (Z.land b 64 =? 0) then read_uint 4 else ret 0) in
  ret (mkExp svr uri n).

(* ------------------------------------------------------------------ *)
(** * QualifiedName, LocalizedText, StatusCode *)

(** ua/qualified_name.go *)
Record qname := mkQ { q_ns : Z; q_name : bytes }.
(** ua/localized_text.go *)
Record ltext := mkLT { lt_text : bytes; lt_locale : bytes }.

(** binary_encoder.go:726 / binary_decoder.go:719 *)
Definition write_status (c : Z) := write_int 4 c.
Definition read_status := read_uint 4.
(** binary_encoder.go:734 *)
Definition write_qname (q : qname) := write_int 2 (q_ns q) ++ write_string (q_name q).
(** binary_decoder.go:729 *)
Definition read_qname : reader qname :=
  let* ns := read_uint 2 in
  let* name := read_string in
  ret (mkQ ns name).
(** binary_encoder.go:742 *)
Definition lt_mask (l : ltext) : Z :=
  Z.lor (if is_empty (lt_locale l) then 0 else 1) (if is_empty (lt_text l) then 0 else 2).
Definition write_ltext (l : ltext) : bytes :=
  let b := lt_mask l in
  write_int 1 b
  ++ (if negb (Z.land b 1 =? 0) then write_string (lt_locale l) else [])
  ++ (if negb (Z.land b 2 =? 0) then write_string (lt_text l) else []).
(** binary_decoder.go:745 *)
Definition read_ltext : reader ltext :=
  let* b := read_uint 1 in
  let* locale := (if negb (Z.land b 1 =? 0) then read_string else ret []) in
  let* text := (if negb (Z.land b 2 =? 0) then read_string else ret []) in
  ret (mkLT text locale).
