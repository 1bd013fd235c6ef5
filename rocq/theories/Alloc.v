(** The memory a decoder asks for: the readers of Prim.v, Value.v, Messages.v and Keys.v once more, each with the number of
    bytes of the slices it makes.

    Source: /repo/ua/binary_decoder.go, /repo/server/server_secure_channel.go, lines cited at each definition. Counted is
    every [make] and [reflect.MakeSlice] whose length comes from the bytes read, at the moment it is reached: length times
    the size of an element on a 64-bit machine. What has a fixed size (a new structure behind a pointer, the box of an
    interface value) is not counted. That the count leaves the result alone is AllocProofs.same_decode. *)
From Coq Require Import ZArith String List Bool Strings.Byte.
From Verif Require Import Bytes Prim Value StructTable MessageTable Messages Registry Keys.
Import ListNotations.
Open Scope Z_scope.

(* ------------------------------------------------------------------ *)
(** * Readers that count *)

Definition areader (A : Type) := bytes -> Z * res A.
Definition alift {A} (r : reader A) : areader A := fun s => (0, r s).
Definition aret {A} (a : A) : areader A := alift (ret a).
(** [make([]T, n)] *)
Definition ask (n : Z) : areader unit := fun s => (n, Ok tt s).
Definition abind {A B} (r : areader A) (k : A -> areader B) : areader B :=
  fun s => match r s with
           | (n, Ok a rest) => let (m, y) := k a rest in (n + m, y)
           | (n, Err rest) => (n, Err rest)
           | (n, Panic) => (n, Panic)
           | (n, Fuel) => (n, Fuel)
           end.
Definition afmap {A B} (f : A -> B) (r : areader A) : areader B := abind r (fun a => aret (f a)).
Fixpoint aread_n {A} (n : nat) (r : areader A) : areader (list A) :=
  match n with
  | O => aret []
  | S n' => abind r (fun a => afmap (cons a) (aread_n n' r))
  end.

Notation "'do*' x := r 'in' k" := (abind r (fun x => k)) (at level 200, x pattern, right associativity).

(* ------------------------------------------------------------------ *)
(** * Sizes *)

(** reflect.Type.Align and Size of the Go types on a 64-bit machine: a string is two words, a slice three, an interface
    two, time.Time three, uuid.UUID 16 bytes (ua/expanded_nodeid.go 12, ua/qualified_name.go 12, ua/localized_text.go 10,
    ua/data_value.go 10, ua/diagnostic_info.go 6 for the structures).  A structure that ends in a field of size 0 is one
    byte longer in Go; none of ua/ is decoded. *)
Definition balign (t : bty) : Z :=
  match t with
  | BBool | BSByte | BByte | BGuid => 1
  | BInt16 | BUInt16 => 2
  | BInt32 | BUInt32 | BFloat | BStatus => 4
  | _ => 8
  end.
Definition bsize (t : bty) : Z :=
  match t with
  | BBool | BSByte | BByte => 1
  | BInt16 | BUInt16 => 2
  | BInt32 | BUInt32 | BFloat | BStatus => 4
  | BInt64 | BUInt64 | BDouble => 8
  | BString | BByteString | BXml | BNodeId | BGuid => 16
  | BTime | BQName => 24
  | BLText => 32
  | BExp => 40
  end.
Definition round_up (z a : Z) : Z := (z + a - 1) / a * a.
Fixpoint go_align (t : ty) : Z :=
  match t with
  | TB b => balign b
  | TStruct l => fold_right Z.max 1 (map go_align l)
  | _ => 8
  end.
Fixpoint go_size (t : ty) : Z :=
  match t with
  | TB b => bsize b
  | TBytes | TSlice _ => 24
  | TVar | TExt => 16
  | TDV => 88
  | TDiag => 56
  | TPtr _ => 8
  | TStruct l => round_up (fold_left (fun o t => round_up o (go_align t) + go_size t) l 0) (go_align (TStruct l))
  | TUnsupported => 0
  end.
Definition slice_size : Z := 24.

(* ------------------------------------------------------------------ *)
(** * Built-in types *)

(** decoder:441 ReadString: [make] (450) before [io.ReadFull] (451) *)
Definition a_string : areader bytes :=
  do* n := alift (read_sint 4) in if n <? 0 then aret [] else do* _ := ask n in alift (read_full n).
(** decoder:498 ReadByteString *)
Definition a_bytestring : areader bytes :=
  do* n := alift (read_sint 4) in if n <=? 0 then aret [] else do* _ := ask n in alift (read_full n).
(** decoder:2173 ReadByteArray *)
Definition a_bytearray : areader (option bytes) :=
  do* n := alift (read_sint 4) in
  if n <? 0 then aret None else do* _ := ask n in afmap Some (alift (read_full n)).

(** decoder:528 ReadNodeID *)
Definition a_nodeid : areader nodeid :=
  do* b := alift (read_uint 1) in
  if b =? 0 then
    do* id := alift (read_uint 1) in
    if id =? 0 then aret NNull else aret (NNum 0 id)
  else if b =? 1 then
    do* ns := alift (read_uint 1) in
    do* id := alift (read_uint 2) in
    aret (NNum ns id)
  else if b =? 2 then
    do* ns := alift (read_uint 2) in
    do* id := alift (read_uint 4) in
    aret (NNum ns id)
  else if b =? 3 then
    do* ns := alift (read_uint 2) in
    do* id := a_string in
    if (ns =? 0) && is_empty id then aret NNull else aret (NStr ns id)
  else if b =? 4 then
    do* ns := alift (read_uint 2) in
    do* id := alift read_guid in
    if (ns =? 0) && guid_eqb id nil_guid then aret NNull else aret (NGuid ns id)
  else if b =? 5 then
    do* ns := alift (read_uint 2) in
    do* id := a_bytestring in
    if (ns =? 0) && is_empty id then aret NNull else aret (NOpq ns id)
  else alift fail.

(** decoder:623 ReadExpandedNodeID *)
Definition a_expnodeid : areader expnodeid :=
  do* b := alift (read_uint 1) in
  let k := Z.land b 15 in
  do* n :=
    (if k =? 0 then
       do* id := alift (read_uint 1) in
       if id =? 0 then aret NNull else aret (NNum 0 id)
     else if k =? 1 then
       do* ns := alift (read_uint 1) in
       do* id := alift (read_uint 2) in
       aret (NNum ns id)
     else if k =? 2 then
       do* ns := alift (read_uint 2) in
       do* id := alift (read_uint 4) in
       aret (NNum ns id)
     else if k =? 3 then
       do* ns := alift (read_uint 2) in
       do* id := a_string in
       aret (NStr ns id)
     else if k =? 4 then
       do* ns := alift (read_uint 2) in
       do* id := alift read_guid in
       aret (NGuid ns id)
     else if k =? 5 then
       do* ns := alift (read_uint 2) in
       do* id := a_bytestring in
       aret (NOpq ns id)
     else alift fail) in
  do* uri := (if negb (Z.land b 128 =? 0) then a_string else aret []) in
  do* svr := (if negb (Z.land b 64 =? 0) then alift (read_uint 4) else aret 0) in
  aret (mkExp svr uri n).

(** decoder:729 ReadQualifiedName, 745 ReadLocalizedText *)
Definition a_qname : areader qname :=
  do* ns := alift (read_uint 2) in
  do* name := a_string in
  aret (mkQ ns name).
Definition a_ltext : areader ltext :=
  do* b := alift (read_uint 1) in
  do* locale := (if negb (Z.land b 1 =? 0) then a_string else aret []) in
  do* text := (if negb (Z.land b 2 =? 0) then a_string else aret []) in
  aret (mkLT text locale).

(** decoder:228-340: the readers of fixed width ask for nothing *)
Definition a_bread (t : bty) : areader (bval t) :=
  match t return areader (bval t) with
  | BString => a_string
  | BByteString => a_bytestring
  | BXml => a_string
  | BNodeId => a_nodeid
  | BExp => a_expnodeid
  | BQName => a_qname
  | BLText => a_ltext
  | t => alift (bread t)
  end.

(* ------------------------------------------------------------------ *)
(** * Values of the other types *)

Section Counted.
Context (E : env).

(** decoder:816 ReadDataValue; what a value that could not be read asked for has been asked for *)
Definition a_catch (r : areader val) : areader (val * Z) :=
  fun s => match r s with
           | (n, Ok v rest) => (n, Ok (v, 0) rest)
           | (n, Err rest) => (n, Ok (VNil, bad_data_type_id_unknown) rest)
           | (n, Panic) => (n, Panic)
           | (n, Fuel) => (n, Fuel)
           end.
Definition a_dv (rec : ty -> areader val) : areader val :=
  do* b := alift (read_uint 1) in
  do* vs := (if has b 1 then a_catch (rec TVar) else aret (VNil, 0)) in
  alift (
  let* st := rwhen (has b 2 && (snd vs =? 0)) (read_uint 4) (snd vs) in
  let* t1 := rwhen (has b 4) read_time zero_time in
  let* p1 := rwhen (has b 16) (read_uint 2) 0 in
  let* t2 := rwhen (has b 8) read_time zero_time in
  let* p2 := rwhen (has b 32) (read_uint 2) 0 in
  ret (VDV (fst vs) st t1 p1 t2 p2)).

(** decoder:2087 ReadDiagnosticInfo *)
Definition a_diag (rec : ty -> areader val) : areader val :=
  do* b := alift (read_uint 1) in
  do* _ := alift (
    let* _ := (if has b 1 then let* _ := read_sint 4 in panic else ret tt) in
    let* _ := (if has b 2 then let* _ := read_sint 4 in panic else ret tt) in
    let* _ := (if has b 8 then let* _ := read_sint 4 in panic else ret tt) in
    (if has b 4 then let* _ := read_sint 4 in panic else ret tt)) in
  do* _ := (if has b 16 then do* _ := a_string in alift panic else aret tt) in
  do* _ := alift (if has b 32 then let* _ := read_status in panic else ret tt) in
  do* _ := (if has b 64 then do* _ := rec TDiag in alift panic else aret tt) in
  aret (VDiag (Diag None None None None None None None)).

(** decoder:769 ReadExtensionObject *)
Definition a_ext (rec : ty -> areader val) : areader val :=
  do* n := a_nodeid in
  do* b := alift (read_uint 1) in
  if b =? 0 then aret VExtNil
  else if b =? 1 then
    match v_type_of_id E (to_expanded n (v_uris E)) with
    | Some tid =>
        do* _ := alift (read_sint 4) in
        do* x := rec (TStruct (v_fields E tid)) in
        match x with
        | VStruct l => aret (VExt tid l)
        | _ => alift fail
        end
    | None => do* _ := a_bytearray in aret VExtNil
    end
  else if b =? 2 then do* _ := a_string in aret VExtNil
  else alift fail.

(** decoder:2133-2628 ReadXxxArray: [make] before the first element *)
Definition a_elem (rec : ty -> areader val) (k : kind) : areader val :=
  match k with
  | KB t => afmap (VB t) (a_bread t)
  | k => rec (ty_of_kind k)
  end.
Definition a_array (rec : ty -> areader val) (k : kind) : areader (option (list val)) :=
  do* n := alift (read_sint 4) in
  if n <? 0 then aret None
  else do* _ := ask (n * go_size (ty_of_kind k)) in afmap Some (aread_n (Z.to_nat n) (a_elem rec k)).
(** decoder:2231 ReadInt32Array *)
Definition a_dims : areader (option (list Z)) :=
  do* n := alift (read_sint 4) in
  if n <? 0 then aret None else do* _ := ask (n * 4) in afmap Some (aread_n (Z.to_nat n) (alift (read_sint 4))).

(** decoder:1311 [make([][]T, dims[0])] *)
Definition mat2_asked (d0 : Z) : Z := if d0 <? 0 then 0 else d0 * slice_size.
(** decoder:1319-1322 [make([][][]T, dims[0])], then [make([][]T, dims[1])] for each plane until the slicing panics *)
Fixpoint planes_asked (n : nat) (d1 d2 : Z) (vals : list val) : Z :=
  match n with
  | O => 0
  | S n' => mat2_asked d1 + match take_mat2 d1 d2 vals with
                            | None => 0
                            | Some (_, vals') => planes_asked n' d1 d2 vals'
                            end
  end.
Definition mat3_asked (d0 d1 d2 : Z) (vals : list val) : Z :=
  if d0 <? 0 then 0 else d0 * slice_size + planes_asked (Z.to_nat d0) d1 d2 vals.

(** decoder:866 ReadVariant *)
Definition a_variant (rec : ty -> areader val) : areader val :=
  do* b := alift (read_uint 1) in
  let tg := Z.land b 63 in
  if negb (has b 128) then
    if tg =? 0 then aret VNil else
    match kind_of_tag tg with
    | None => alift fail
    | Some k => afmap (scalar_result k) (a_elem rec k)
    end
  else if negb (has b 64) then
    if tg =? 0 then aret VNil else
    match kind_of_tag tg with
    | None => alift fail
    | Some k => do* o := a_array rec k in
                aret (match o with None => VArrNil k | Some l => VArr k l end)
    end
  else
    if tg =? 0 then aret VNil else
    match kind_of_tag tg with
    | None => alift fail
    | Some k =>
        do* vals := a_array rec k in
        do* dims := a_dims in
        match olist dims with
        | [d0; d1] => do* _ := ask (mat2_asked d0) in
                      alift (match take_mat2 d0 d1 (olist vals) with
                             | Some (m, _) => ret (VMat2 k m)
                             | None => panic
                             end)
        | [d0; d1; d2] => do* _ := ask (mat3_asked d0 d1 d2 (olist vals)) in
                          alift (match take_mat3 d0 d1 d2 (olist vals) with
                                 | Some (m, _) => ret (VMat3 k m)
                                 | None => panic
                                 end)
        | _ => alift fail
        end
    end.

Section AZip.
  Context (f : ty -> areader val).
  Fixpoint azip (ts : list ty) : areader (list val) :=
    match ts with
    | [] => aret []
    | t :: ts' => do* x := f t in afmap (cons x) (azip ts')
    end.
End AZip.

(** decoder:67-226; the slice of structures is made at 207 *)
Fixpoint a_dty (rec : ty -> areader val) (t : ty) : areader val :=
  match t with
  | TB b => afmap (VB b) (a_bread b)
  | TBytes => afmap VBytes a_bytearray
  | TVar => a_variant rec
  | TDV => a_dv rec
  | TDiag => a_diag rec
  | TExt => a_ext rec
  | TStruct l => afmap VStruct (azip (a_dty rec) l)
  | TPtr l => afmap VPtr (azip (a_dty rec) l)
  | TSlice t' =>
      do* n := alift (read_sint 4) in
      if n <=? 0 then aret (VSlice [])
      else do* _ := ask (n * go_size t') in afmap VSlice (aread_n (Z.to_nat n) (a_dty rec t'))
  | TUnsupported => alift fail
  end.
Fixpoint a_dec (fuel : nat) (t : ty) : areader val :=
  match fuel with
  | O => fun _ => (0, Fuel)
  | S f => if supported t then a_dty (a_dec f) t else alift fail
  end.

(** decoder:37 Decode: the memory asked for, and the result *)
Definition a_decode (t : ty) : areader val := fun s => a_dec (S (length s)) t s.

End Counted.

(* ------------------------------------------------------------------ *)
(** * Messages *)

(** server_secure_channel.go 1361-1460 and client_secure_channel.go 1623-1725, as in Messages.receive *)
Definition a_receive (table : list (Z * string)) (uris : list bytes) : areader (string * list val) :=
  do* n := a_nodeid in
  match find (fun p => nodeid_eqb n (NNum 0 (fst p))) table with
  | None => alift fail
  | Some (_, name) =>
      match fields_of_name name with
      | None => alift fail
      | Some f => do* v := a_decode (std_env uris) (TStruct f) in
                  match v with VStruct l => aret (name, l) | _ => alift fail end
      end
  end.

(** server_secure_channel.go 194-247: the Hello, as in Keys.read_hello *)
Definition a_hello : areader (Z * Z * Z * Z * bytes) :=
  do* h := alift (let* t := read_uint 4 in
                  if negb (t =? t_hello) then let* _ := read_uint 4 in fail else
                  let* len := read_uint 4 in if len <? 28 then fail else
                  let* ver := read_uint 4 in if ver <? 0 then fail else
                  let* recv := read_uint 4 in
                  let* send := read_uint 4 in
                  let* size := read_uint 4 in
                  let* chunks := read_uint 4 in ret (recv, send, size, chunks)) in
  do* url := a_string in
  aret (h, url).

(** The memory asked for while the bytes are read: by the whole decoder, by a receiver of messages *)
Definition asked (E : env) (t : ty) (s : bytes) : Z := fst (a_decode E t s).
Definition server_asked (uris : list bytes) (s : bytes) : Z := fst (a_receive server_reads uris s).
Definition client_asked (uris : list bytes) (s : bytes) : Z := fst (a_receive client_reads uris s).
Definition hello_asked (s : bytes) : Z := fst (a_hello s).
