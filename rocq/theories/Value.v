(** Variant, DataValue, DiagnosticInfo, ExtensionObject and the reflective
    struct codec.

    Source: /repo/ua/binary_encoder.go, /repo/ua/binary_decoder.go, lines cited
    at each definition.  Encoders return [None] for BadEncodingError (or an
    "unsupported type" error); the destination buffer is taken large enough
    (its bounds are the subject of Writer.v). *)
From Coq Require Import ZArith List Bool Strings.Byte.
From Verif Require Import Bytes Prim.
Import ListNotations.
Open Scope Z_scope.

(* ------------------------------------------------------------------ *)
(** * Built-in leaf types *)

(** The 21 built-in types with a fixed Go representation.  Order and numbers are
    the VariantType constants, ua/variant_type.go / binary_encoder.go:895ff. *)
Inductive bty : Type :=
| BBool | BSByte | BByte | BInt16 | BUInt16 | BInt32 | BUInt32 | BInt64 | BUInt64
| BFloat | BDouble | BString | BTime | BGuid | BByteString | BXml | BNodeId | BExp
| BStatus | BQName | BLText.

Definition bval (t : bty) : Type :=
  match t with
  | BBool => bool
  | BSByte | BByte | BInt16 | BUInt16 | BInt32 | BUInt32 | BInt64 | BUInt64 => Z
  | BFloat | BDouble | BStatus => Z
  | BString | BByteString | BXml => bytes
  | BTime => time
  | BGuid => guid
  | BNodeId => nodeid
  | BExp => expnodeid
  | BQName => qname
  | BLText => ltext
  end.

(** Dispatch of a leaf to its writer: binary_encoder.go:246-366 (getXxxEncoder),
    and the element writes of 1780-2160 (WriteXxxArray). *)
Definition bwrite (t : bty) : bval t -> bytes :=
  match t with
  | BBool => write_bool
  | BSByte | BByte => write_int 1
  | BInt16 | BUInt16 => write_int 2
  | BInt32 | BUInt32 => write_int 4
  | BInt64 | BUInt64 => write_int 8
  | BFloat => write_float
  | BDouble => write_double
  | BString => write_string
  | BTime => write_time
  | BGuid => write_guid
  | BByteString => write_bytestring
  | BXml => write_xml
  | BNodeId => write_nodeid
  | BExp => write_expnodeid
  | BStatus => write_status
  | BQName => write_qname
  | BLText => write_ltext
  end.

(** binary_decoder.go:228-340 (getXxxDecoder), 2133-2628 (ReadXxxArray elements) *)
Definition bread (t : bty) : reader (bval t) :=
  match t with
  | BBool => read_bool
  | BSByte => read_sint 1
  | BByte => read_uint 1
  | BInt16 => read_sint 2
  | BUInt16 => read_uint 2
  | BInt32 => read_sint 4
  | BUInt32 => read_uint 4
  | BInt64 => read_sint 8
  | BUInt64 => read_uint 8
  | BFloat => read_float
  | BDouble => read_double
  | BString => read_string
  | BTime => read_time
  | BGuid => read_guid
  | BByteString => read_bytestring
  | BXml => read_xml
  | BNodeId => read_nodeid
  | BExp => read_expnodeid
  | BStatus => read_status
  | BQName => read_qname
  | BLText => read_ltext
  end.

(** Element kinds of a Variant: the leaves and the four recursive kinds. *)
Inductive kind : Type := KB (t : bty) | KExt | KDV | KVar | KDiag.

(** VariantType constants (ua/binary_encoder.go:13-39). *)
Definition tag_of (k : kind) : Z :=
  match k with
  | KB BBool => 1 | KB BSByte => 2 | KB BByte => 3 | KB BInt16 => 4 | KB BUInt16 => 5
  | KB BInt32 => 6 | KB BUInt32 => 7 | KB BInt64 => 8 | KB BUInt64 => 9
  | KB BFloat => 10 | KB BDouble => 11 | KB BString => 12 | KB BTime => 13 | KB BGuid => 14
  | KB BByteString => 15 | KB BXml => 16 | KB BNodeId => 17 | KB BExp => 18
  | KB BStatus => 19 | KB BQName => 20 | KB BLText => 21
  | KExt => 22 | KDV => 23 | KVar => 24 | KDiag => 25
  end.
Definition kind_of_tag (z : Z) : option kind :=
  match z with
  | 1 => Some (KB BBool) | 2 => Some (KB BSByte) | 3 => Some (KB BByte) | 4 => Some (KB BInt16)
  | 5 => Some (KB BUInt16) | 6 => Some (KB BInt32) | 7 => Some (KB BUInt32) | 8 => Some (KB BInt64)
  | 9 => Some (KB BUInt64) | 10 => Some (KB BFloat) | 11 => Some (KB BDouble) | 12 => Some (KB BString)
  | 13 => Some (KB BTime) | 14 => Some (KB BGuid) | 15 => Some (KB BByteString) | 16 => Some (KB BXml)
  | 17 => Some (KB BNodeId) | 18 => Some (KB BExp) | 19 => Some (KB BStatus) | 20 => Some (KB BQName)
  | 21 => Some (KB BLText) | 22 => Some KExt | 23 => Some KDV | 24 => Some KVar | 25 => Some KDiag
  | _ => None
  end.

(* ------------------------------------------------------------------ *)
(** * Types and values *)

(** Go types the reflective codec meets (binary_encoder.go:96-169).  A named
    integer or string type has the Kind of its base, so enumerations are
    [BInt32], StatusCode fields are [BUInt32]/[BStatus] (same bytes), ByteString
    fields are [BString].  [TUnsupported] is any type getEncoder rejects; in
    particular uuid.UUID, whose Kind is Array while the code tests Struct.
    Go types are finite trees here: a struct type containing a slice of itself
    (on which getEncoder would not terminate) does not occur in ua/. *)
Inductive ty : Type :=
| TB (t : bty) | TBytes | TVar | TDV | TDiag | TExt
| TStruct (l : list ty) | TPtr (l : list ty) | TSlice (t : ty) | TUnsupported.

(** ua/diagnostic_info.go: every field is a pointer *)
Inductive diag : Type :=
  Diag (symbolic uri locale text : option Z) (info : option bytes) (status : option Z)
       (inner : option diag).

(** Values.  A nil and an empty slice of structs are one value [VSlice []]: the
    codec writes both as length 0 and reads length 0 as empty (encoder:230,
    decoder:202).  An ExtensionObject is its struct type (a number standing for
    the reflect.Type) and fields; pointer or struct makes no difference to the bytes. *)
Inductive val : Type :=
| VB (t : bty) (v : bval t)
| VBytes (o : option bytes)
| VStruct (l : list val)
| VPtrNil
| VPtr (l : list val)
| VSlice (l : list val)
| VNil                                   (* nil Variant *)
| VScalar (k : kind) (v : val)
| VArrNil (k : kind)
| VArr (k : kind) (l : list val)
| VMat2 (k : kind) (m : list (list val))
| VMat3 (k : kind) (m : list (list (list val)))
| VDV (v : val) (status : Z) (t1 : time) (p1 : Z) (t2 : time) (p2 : Z)
| VExtNil
| VExt (tid : Z) (l : list val)
| VDiag (d : diag).

Definition ty_of_kind (k : kind) : ty :=
  match k with KB t => TB t | KExt => TExt | KDV => TDV | KVar => TVar | KDiag => TDiag end.

(** The encoding context and type registry a codec runs with: the namespace
    table, and the two maps of ua/binary_registry.go.  [v_fields tid] is the field
    list of struct type [tid]. *)
Record env := mkEnv {
  v_uris : list bytes;
  v_id_of_type : Z -> option expnodeid;     (* FindBinaryEncodingIDForType *)
  v_type_of_id : expnodeid -> option Z;     (* FindTypeForBinaryEncodingID *)
  v_fields : Z -> list ty
}.

(** A type for which getEncoder/getDecoder succeed (encoder:96-169,171-192). *)
Fixpoint supported (t : ty) : bool :=
  match t with
  | TStruct l | TPtr l => forallb supported l
  | TSlice t => supported t
  | TUnsupported => false
  | _ => true
  end.

(* ------------------------------------------------------------------ *)
(** * Namespace translation *)

Fixpoint index_of (u : bytes) (l : list bytes) (i : Z) : option Z :=
  match l with
  | [] => None
  | x :: r => if bytes_eqb x u then Some i else index_of u r (i + 1)
  end.

Definition with_ns (n : nodeid) (ns : Z) : nodeid :=
  match n with
  | NNull => NNull
  | NNum _ id => NNum ns id
  | NStr _ s => NStr ns s
  | NGuid _ g => NGuid ns g
  | NOpq _ s => NOpq ns s
  end.

(** ua/expanded_nodeid.go ToNodeID: "" keeps the index; a known URI becomes
    uint16(index); an unknown URI gives nil. *)
Definition to_nodeid (e : expnodeid) (uris : list bytes) : nodeid :=
  match e_uri e with
  | [] => e_node e
  | u => match index_of u uris 0 with
         | Some i => with_ns (e_node e) (u16 i)
         | None => NNull
         end
  end.

Definition ns_of (n : nodeid) : Z :=
  match n with NNull => 0 | NNum ns _ | NStr ns _ | NGuid ns _ | NOpq ns _ => ns end.

(** ua/nodeid.go ToExpandedNodeID: an index in (0, uint16(len uris)) is replaced
    by its URI, other indices are kept. *)
Definition to_expanded (n : nodeid) (uris : list bytes) : expnodeid :=
  let ns := ns_of n in
  if (0 <? ns) && (ns <? u16 (Z.of_nat (length uris)))
  then mkExp 0 (nth (Z.to_nat ns) uris []) (with_ns n 0)
  else mkExp 0 [] n.

(* ------------------------------------------------------------------ *)
(** * Encoder *)

Definition oapp (a b : option bytes) : option bytes :=
  match a, b with Some x, Some y => Some (x ++ y) | _, _ => None end.

Section EMap.
  Context {A : Type} (f : A -> option bytes).
  Fixpoint emap (l : list A) : option bytes :=
    match l with [] => Some [] | x :: r => oapp (f x) (emap r) end.
End EMap.
Section EZip.
  Context (f : ty -> val -> option bytes).
  Fixpoint ezip (ts : list ty) (l : list val) {struct l} : option bytes :=
    match ts, l with
    | [], [] => Some []
    | t :: ts', x :: l' => oapp (f t x) (ezip ts' l')
    | _, _ => None
    end.
End EZip.

Definition some_if (b : bool) (x : option bytes) : option bytes := if b then x else Some [].

(** binary_encoder.go:1713 WriteDiagnosticInfo *)
Definition bit (b : bool) (z : Z) : Z := if b then z else 0.
Definition is_some {A} (o : option A) : bool := match o with Some _ => true | None => false end.
Definition diag_mask (d : diag) : Z :=
  match d with Diag a b c e f g h =>
    bit (is_some a) 1 + bit (is_some b) 2 + bit (is_some c) 8 + bit (is_some e) 4
    + bit (is_some f) 16 + bit (is_some g) 32 + bit (is_some h) 64 end.
Definition owrite {A} (w : A -> bytes) (o : option A) : bytes :=
  match o with Some a => w a | None => [] end.
Fixpoint write_diag (d : diag) : bytes :=
  match d with Diag a b c e f g h =>
    write_int 1 (diag_mask d)
    ++ owrite (write_int 4) a ++ owrite (write_int 4) b ++ owrite (write_int 4) c
    ++ owrite (write_int 4) e ++ owrite write_string f ++ owrite write_status g
    ++ match h with Some i => write_diag i | None => [] end
  end.

(** time.Time.IsZero: January 1, year 1, 00:00:00 UTC *)
Definition zero_time : time := mkTime (-62135596800) 0.
Definition time_is_zero (t : time) : bool := (t_sec t =? -62135596800) && (t_nsec t =? 0).

(** binary_encoder.go:827 WriteDataValue: the presence mask *)
Definition is_vnil (v : val) : bool := match v with VNil => true | _ => false end.
Definition dv_mask (v : val) (st : Z) (t1 : time) (p1 : Z) (t2 : time) (p2 : Z) : Z :=
  bit (negb (is_vnil v)) 1 + bit (negb (st =? 0)) 2 + bit (negb (time_is_zero t1)) 4
  + bit (negb (p1 =? 0)) 16 + bit (negb (time_is_zero t2)) 8 + bit (negb (p2 =? 0)) 32.

(** binary_encoder.go:2208 dims2D, 2217 dims3D *)
Definition dims2 (m : list (list val)) : list Z :=
  match m with [] => [0; 0] | r :: _ => [Z.of_nat (length m); Z.of_nat (length r)] end.
Definition dims3 (m : list (list (list val))) : list Z :=
  match m with
  | [] => [0; 0; 0]
  | [] :: _ => [0; 0; 0]
  | ((s :: _) as r) :: _ => [Z.of_nat (length m); Z.of_nat (length r); Z.of_nat (length s)]
  end.
(** binary_encoder.go:1859 WriteInt32Array of a non-nil slice *)
Definition write_dims (d : list Z) : bytes :=
  write_int 4 (Z.of_nat (length d)) ++ concat (map (write_int 4) d).

(** Total number of elements that flatten2D/flatten3D collect (2178, 2191). *)
Definition count2 (m : list (list val)) : Z := Z.of_nat (length (concat m)).
Definition count3 (m : list (list (list val))) : Z := Z.of_nat (length (concat (concat m))).

(** Which kinds WriteVariant has a case for.  Scalars: the leaves, and any struct
    through the ExtensionObject default case (1696); a scalar DataValue or
    DiagnosticInfo is a struct with no registered encoding id, so it fails there;
    a scalar Variant cannot be seen (the dynamic type is the inner one).  Arrays:
    all but []DiagnosticInfo. *)
Definition scalar_kind (k : kind) : bool :=
  match k with KB _ | KExt => true | _ => false end.
Definition array_kind (k : kind) : bool :=
  match k with KDiag => false | _ => true end.

Section Codec.
Context (E : env).

Fixpoint enc (t : ty) (v : val) {struct v} : option bytes :=
  match v with
  (* leaves: encoder:246-366; a value of another Go type cannot be there *)
  | VB b x => match t with TB _ => Some (bwrite b x) | _ => None end
  | VBytes o => match t with TBytes => Some (write_bytearray o) | _ => None end
  (* encoder:171 getStructEncoder *)
  | VStruct l => match t with TStruct ts => ezip enc ts l | _ => None end
  (* encoder:194 getStructPtrEncoder: nil is BadEncodingError *)
  | VPtrNil => None
  | VPtr l => match t with TPtr ts => ezip enc ts l | _ => None end
  (* encoder:221 getSliceEncoder *)
  | VSlice l => match t with
                | TSlice t' => oapp (Some (write_int 4 (Z.of_nat (length l)))) (emap (enc t') l)
                | _ => None end
  (* encoder:895 WriteVariant *)
  | VNil => Some (write_int 1 0)
  | VScalar k x =>
      if scalar_kind k
      then oapp (Some (write_int 1 (tag_of k))) (enc (ty_of_kind k) x) else None
  | VArrNil k =>
      if array_kind k
      then Some (write_int 1 (Z.lor (tag_of k) 128) ++ write_int 4 (-1)) else None
  | VArr k l =>
      if array_kind k
      then oapp (Some (write_int 1 (Z.lor (tag_of k) 128) ++ write_int 4 (Z.of_nat (length l))))
                (emap (enc (ty_of_kind k)) l) else None
  | VMat2 k m =>
      if array_kind k
      then oapp (oapp (Some (write_int 1 (Z.lor (tag_of k) 192) ++ write_int 4 (count2 m)))
                      (emap (emap (enc (ty_of_kind k))) m))
                (Some (write_dims (dims2 m))) else None
  | VMat3 k m =>
      if array_kind k
      then oapp (oapp (Some (write_int 1 (Z.lor (tag_of k) 192) ++ write_int 4 (count3 m)))
                      (emap (emap (emap (enc (ty_of_kind k)))) m))
                (Some (write_dims (dims3 m))) else None
  (* encoder:827 WriteDataValue *)
  | VDV x st t1 p1 t2 p2 =>
      oapp (Some (write_int 1 (dv_mask x st t1 p1 t2 p2)))
     (oapp (some_if (negb (is_vnil x)) (enc TVar x))
           (Some ((if negb (st =? 0) then write_int 4 st else [])
                  ++ (if negb (time_is_zero t1) then write_time t1 else [])
                  ++ (if negb (p1 =? 0) then write_int 2 p1 else [])
                  ++ (if negb (time_is_zero t2) then write_time t2 else [])
                  ++ (if negb (p2 =? 0) then write_int 2 p2 else []))))
  (* encoder:767 WriteExtensionObject *)
  | VExtNil => Some (write_nodeid NNull ++ write_int 1 0)
  | VExt tid l =>
      match v_id_of_type E tid with
      | None => None
      | Some id =>
          if supported (TStruct (v_fields E tid)) then
            match ezip enc (v_fields E tid) l with
            | None => None
            | Some body =>
                Some (write_nodeid (to_nodeid id (v_uris E)) ++ write_int 1 1
                      ++ write_int 4 (Z.of_nat (length body)) ++ body)
            end
          else None
      end
  | VDiag d => Some (write_diag d)
  end.

(** binary_encoder.go:64 BinaryEncoder.Encode *)
Definition encode (t : ty) (v : val) : option bytes :=
  if supported t then enc t v else None.

(* ------------------------------------------------------------------ *)
(** * Decoder *)

(** ReadDataValue keeps going after an error from ReadVariant (decoder:831-834):
    the value stays nil and the status becomes BadDataTypeIDUnknown. *)
Definition bad_data_type_id_unknown : Z := 0x80110000.
Definition catch_variant (r : reader val) : reader (val * Z) :=
  fun s => match r s with
           | Ok v rest => Ok (v, 0) rest
           | Err rest => Ok (VNil, bad_data_type_id_unknown) rest
           | Panic => Panic
           | Fuel => Fuel
           end.

Definition rwhen {A} (b : bool) (r : reader A) (d : A) : reader A := if b then r else ret d.
Definition has (b m : Z) : bool := negb (Z.land b m =? 0).

(** decoder:816 ReadDataValue *)
Definition read_dv (rec : ty -> reader val) : reader val :=
  let* b := read_uint 1 in
  let* vs := rwhen (has b 1) (catch_variant (rec TVar)) (VNil, 0) in
  let* st := rwhen (has b 2 && (snd vs =? 0)) (read_uint 4) (snd vs) in
  let* t1 := rwhen (has b 4) read_time zero_time in
  let* p1 := rwhen (has b 16) (read_uint 2) 0 in
  let* t2 := rwhen (has b 8) read_time zero_time in
  let* p2 := rwhen (has b 32) (read_uint 2) 0 in
  ret (VDV (fst vs) st t1 p1 t2 p2).

(** decoder:2087 ReadDiagnosticInfo.  Each present field is read into a nil
    pointer, so storing it is a nil dereference. *)
Definition read_diag (rec : ty -> reader val) : reader val :=
  let* b := read_uint 1 in
  let* _ := (if has b 1 then let* _ := read_sint 4 in panic else ret tt) in
  let* _ := (if has b 2 then let* _ := read_sint 4 in panic else ret tt) in
  let* _ := (if has b 8 then let* _ := read_sint 4 in panic else ret tt) in
  let* _ := (if has b 4 then let* _ := read_sint 4 in panic else ret tt) in
  let* _ := (if has b 16 then let* _ := read_string in panic else ret tt) in
  let* _ := (if has b 32 then let* _ := read_status in panic else ret tt) in
  let* _ := (if has b 64 then let* _ := rec TDiag in panic else ret tt) in
  ret (VDiag (Diag None None None None None None None)).

(** decoder:769 ReadExtensionObject.  The body length is read and ignored when
    the type is known (781); an unknown body is skipped and the value stays nil. *)
Definition read_ext (rec : ty -> reader val) : reader val :=
  let* n := read_nodeid in
  let* b := read_uint 1 in
  if b =? 0 then ret VExtNil
  else if b =? 1 then
    match v_type_of_id E (to_expanded n (v_uris E)) with
    | Some tid =>
        let* _ := read_sint 4 in
        let* x := rec (TStruct (v_fields E tid)) in
        match x with
        | VStruct l => ret (VExt tid l)
        | _ => fail              (* unreachable: a struct decoder yields a struct *)
        end
    | None => let* _ := read_bytearray in ret VExtNil
    end
  else if b =? 2 then let* _ := read_xml in ret VExtNil
  else fail.

(** One element of a kind; decoder:2133-2628. *)
Definition read_elem (rec : ty -> reader val) (k : kind) : reader val :=
  match k with
  | KB t => fmap (VB t) (bread t)
  | k => rec (ty_of_kind k)
  end.

(** ReadXxxArray: negative length is nil. *)
Definition read_array (rec : ty -> reader val) (k : kind) : reader (option (list val)) :=
  let* n := read_sint 4 in
  if n <? 0 then ret None else fmap Some (read_n (Z.to_nat n) (read_elem rec k)).

Definition read_dims : reader (option (list Z)) :=
  let* n := read_sint 4 in
  if n <? 0 then ret None else fmap Some (read_n (Z.to_nat n) (read_sint 4)).

(** [vals[:d]], [vals[d:]]: panics when d is negative or beyond the capacity
    (equal to the length here); decoder:1320ff. *)
Definition take_row (d : Z) (vals : list val) : option (list val * list val) :=
  if (d <? 0) || (Z.of_nat (length vals) <? d) then None
  else Some (firstn (Z.to_nat d) vals, skipn (Z.to_nat d) vals).
Fixpoint take_rows (n : nat) (d : Z) (vals : list val) : option (list (list val) * list val) :=
  match n with
  | O => Some ([], vals)
  | S n' => match take_row d vals with
            | None => None
            | Some (r, vals') => match take_rows n' d vals' with
                                 | None => None
                                 | Some (rs, rest) => Some (r :: rs, rest)
                                 end
            end
  end.
(** [make([][]T, d)] panics when d < 0. *)
Definition take_mat2 (d0 d1 : Z) (vals : list val) : option (list (list val) * list val) :=
  if d0 <? 0 then None else take_rows (Z.to_nat d0) d1 vals.
Fixpoint take_planes (n : nat) (d1 d2 : Z) (vals : list val) : option (list (list (list val)) * list val) :=
  match n with
  | O => Some ([], vals)
  | S n' => match take_mat2 d1 d2 vals with
            | None => None
            | Some (r, vals') => match take_planes n' d1 d2 vals' with
                                 | None => None
                                 | Some (rs, rest) => Some (r :: rs, rest)
                                 end
            end
  end.
Definition take_mat3 (d0 d1 d2 : Z) (vals : list val) :=
  if d0 <? 0 then None else take_planes (Z.to_nat d0) d1 d2 vals.

(** A scalar NodeID or ExtensionObject that is a nil interface becomes a nil
    Variant ([*value = v] with a nil interface); a scalar Variant is unwrapped. *)
Definition scalar_result (k : kind) (v : val) : val :=
  match k, v with
  | KVar, v => v
  | KExt, VExtNil => VNil
  | KB BNodeId, VB BNodeId NNull => VNil
  | k, v => VScalar k v
  end.

Definition olist {A} (o : option (list A)) : list A := match o with Some l => l | None => [] end.

(** decoder:866-2054 ReadVariant.  All 25 type cases have the same shape. *)
Definition read_variant (rec : ty -> reader val) : reader val :=
  let* b := read_uint 1 in
  let tg := Z.land b 63 in
  if negb (has b 128) then
    if tg =? 0 then ret VNil else
    match kind_of_tag tg with
    | None => fail
    | Some k => fmap (scalar_result k) (read_elem rec k)
    end
  else if negb (has b 64) then
    if tg =? 0 then ret VNil else
    match kind_of_tag tg with
    | None => fail
    | Some k => let* o := read_array rec k in
                ret (match o with None => VArrNil k | Some l => VArr k l end)
    end
  else
    if tg =? 0 then ret VNil else
    match kind_of_tag tg with
    | None => fail
    | Some k =>
        let* vals := read_array rec k in
        let* dims := read_dims in
        match olist dims with
        | [d0; d1] => match take_mat2 d0 d1 (olist vals) with
                      | Some (m, _) => ret (VMat2 k m)
                      | None => panic
                      end
        | [d0; d1; d2] => match take_mat3 d0 d1 d2 (olist vals) with
                          | Some (m, _) => ret (VMat3 k m)
                          | None => panic
                          end
        | _ => fail
        end
    end.

Section DZip.
  Context (f : ty -> reader val).
  Fixpoint dzip (ts : list ty) : reader (list val) :=
    match ts with
    | [] => ret []
    | t :: ts' => let* x := f t in fmap (cons x) (dzip ts')
    end.
End DZip.

(** decoder:67-226.  [rec] decodes the dynamically typed parts. *)
Fixpoint dty (rec : ty -> reader val) (t : ty) : reader val :=
  match t with
  | TB b => fmap (VB b) (bread b)
  | TBytes => fmap VBytes read_bytearray
  | TVar => read_variant rec
  | TDV => read_dv rec
  | TDiag => read_diag rec
  | TExt => read_ext rec
  | TStruct l => fmap VStruct (dzip (dty rec) l)          (* 136 getStructDecoder *)
  | TPtr l => fmap VPtr (dzip (dty rec) l)                (* 158 getStructPtrDecoder: allocates *)
  | TSlice t' =>                                          (* 187 getSliceDecoder *)
      let* n := read_sint 4 in
      if n <=? 0 then ret (VSlice []) else fmap VSlice (read_n (Z.to_nat n) (dty rec t'))
  | TUnsupported => fail
  end.

(** The recursion budget bounds the nesting of variants, data values and
    extension objects; each level consumes at least one byte, so [S (length s)]
    is always enough (ValueProofs.decode_no_fuel).  The type check of getDecoder
    happens before any byte is read. *)
Fixpoint dec (fuel : nat) (t : ty) : reader val :=
  match fuel with
  | O => fun _ => Fuel
  | S f => if supported t then dty (dec f) t else fail
  end.

(** binary_decoder.go:37 BinaryDecoder.Decode *)
Definition decode (t : ty) : reader val := fun s => dec (S (length s)) t s.

End Codec.
