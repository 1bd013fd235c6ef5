(** Loading a node set (/repo/server/namespace_manager.go 653-1379, /repo/ua/ua_node_set.go).

    encoding/xml belongs to Go's library: the model starts from the structure that xml.Unmarshal fills. Attributes
    and texts are decoded there; a field marked ",innerxml" holds the bytes of the file between the tags as they are.
    The timestamps of the values (the time of loading) are left out. *)
From Coq Require Import ZArith String List Bool Strings.Byte.
From Verif Require Import Bytes Prim Value Text IndexRange Namespaces.
Import ListNotations.
Open Scope Z_scope.

(** * What xml.Unmarshal gives (ua_node_set.go) *)
(** Elements of a UAVariant (247-294) that hold one value, and their Go types *)
Inductive xk : Type :=
| XBoolean | XByte | XUInt16 | XUInt32 | XUInt64 | XSByte | XInt16 | XInt32 | XInt64 | XFloat | XDouble | XString
| XDateTime | XGuid | XByteString | XXml | XLText | XQName | XNodeId | XExpNodeId.
(** XGuid: UAGUID.String; XByteString: ua.ByteString, a string that has no UnmarshalText (ua/bytestring.go 9-20), so
    the text itself; XXml: innerxml; XLText: Text and Locale; XQName: NamespaceIndex and Name; XNodeId, XExpNodeId:
    Identifier *)
Definition xrep (k : xk) : Type :=
  match k with
  | XBoolean => bool
  | XByte | XUInt16 | XUInt32 | XUInt64 | XSByte | XInt16 | XInt32 | XInt64 | XFloat | XDouble => Z
  | XString | XGuid | XByteString | XXml | XNodeId | XExpNodeId => bytes
  | XDateTime => time
  | XLText => bytes * bytes
  | XQName => Z * bytes
  end.
(** UALocalizedText 157-161; Content is innerxml *)
Record text_el : Type := mkTE { te_text : bytes; te_locale : bytes; te_content : bytes }.
(** UAArgument 184-190, UAEUInformation 193-198, UARange 201-204, UAEnumValueType 207-211 *)
Record xargument : Type := mkXArg { xa_name : bytes; xa_type : bytes; xa_rank : bytes; xa_dims : bytes; xa_description : text_el }.
Record xunit : Type := mkXUnit { xu_uri : bytes; xu_id : Z; xu_display : text_el; xu_description : text_el }.
Record xenum : Type := mkXEnum { xn_value : Z; xn_display : text_el; xn_description : text_el }.
(** UAExtensionObject 214-220: nil without the element *)
Record xext : Type := mkXExt { xe_argument : option xargument; xe_unit : option xunit; xe_range : option (Z * Z); xe_enum : option xenum }.
(** UAVariant 247-294: pointers, nil without the element. ListOfByte holds uint16 (86-88). [uv_list XNodeId] and
    [uv_list XExpNodeId] do not exist in Go and are never looked at. ListOfVariant: name and innerxml of each child
    (297-305). *)
Record uavariant : Type := mkUV {
  uv_one : forall k, option (xrep k);
  uv_list : forall k, option (list (xrep k));
  uv_ext : option xext;
  uv_exts : option (list xext);
  uv_variants : option (list (bytes * bytes)) }.
(** UAReference 63-67; the target is innerxml *)
Record xref : Type := mkXRef { xr_type : bytes; xr_forward : bytes; xr_target : bytes }.
(** UANode 20-54. Left out: WriteMask, UserWriteMask, Definition, UserAccessLevel, UserExecutable, Extensions, which
    are not used. A numeric or Boolean attribute that is missing is zero. *)
Record uanode : Type := mkUN {
  un_tag : bytes;
  un_display : text_el;
  un_description : text_el;
  un_refs : list xref;
  un_id : bytes;
  un_name : bytes;
  un_abstract : bool;
  un_type : bytes;
  un_rank : bytes;
  un_dims : bytes;
  un_inverse_name : bytes;
  un_symmetric : bool;
  un_notifier : Z;
  un_value : uavariant;
  un_access : bytes;
  un_interval : Z;
  un_historizing : bool;
  un_executable : bytes;
  un_no_loops : bool }.
(** UANodeSet 9-17, Alias 57-60 (the NodeID is innerxml) *)
Record uanodeset : Type := mkSet { ns_uris : list bytes; ns_aliases : list (bytes * bytes); ns_nodes : list uanode }.

(** * Namespaces and aliases *)
(** 663-674: [snapshot] is ns1, the table before *)
Fixpoint map_uris (snapshot table : list bytes) (i : Z) (uris : list bytes) (m : list (Z * Z)) : list bytes * list (Z * Z) :=
  match uris with
  | [] => (table, m)
  | u :: r =>
      let '(table', j) := match index_from 0 u snapshot with
                          | Some k => (table, uint16 k)
                          | None => add_uri table u
                          end in
      map_uris snapshot table' (i + 1) r ((uint16 (i + 1), j) :: m)
  end.
(** Lookup in nsMap and aliases: the entry written last *)
Fixpoint ns_lookup (m : list (Z * Z)) (n : Z) : option Z :=
  match m with [] => None | (k, v) :: r => if k =? n then Some v else ns_lookup r n end.
Definition map_ns (m : list (Z * Z)) (n : Z) : Z := match ns_lookup m n with Some k => k | None => n end.
Fixpoint alias_lookup (l : list (bytes * bytes)) (s : bytes) : option bytes :=
  match l with
  | [] => None
  | (a, t) :: r => match alias_lookup r s with
                   | Some x => Some x
                   | None => if bytes_eqb a s then Some t else None
                   end
  end.
Definition resolve (al : list (bytes * bytes)) (s : bytes) : bytes := match alias_lookup al s with Some t => t | None => s end.

(** * Parts of a node *)
(** 815-834: as in ParseNodeID, but i=0 is a NodeID *)
Definition to_ident (ns : Z) (s : bytes) : nodeid :=
  match strip_prefix (lit "i=") s with
  | Some t => match parse_uint 32 t with NumOk id => NNum ns id | _ => NNull end
  | None =>
  match strip_prefix (lit "s=") s with
  | Some t => NStr ns t
  | None =>
  match strip_prefix (lit "g=") s with
  | Some t => match parse_guid t with Some g => NGuid ns g | None => NNull end
  | None =>
  match strip_prefix (lit "b=") s with
  | Some t => match b64_dec t with Some b => NOpq ns b | None => NNull end
  | None => NNull
  end end end end.
(** toNodeID 798-836: an index that cannot be read is 0 *)
Definition to_node_id (al : list (bytes * bytes)) (m : list (Z * Z)) (s : bytes) : nodeid :=
  let s := resolve al s in
  match strip_prefix (lit "ns=") s with
  | Some t => match cut x3b t with
              | None => NNull
              | Some (num, r) => to_ident (map_ns m (match parse_uint 16 num with NumOk n => n | _ => 0 end)) r
              end
  | None => to_ident 0 s
  end.
(** toInt32 903-908, toUint8 910-915 *)
Definition to_int32 (s : bytes) (def : Z) : Z := match parse_int 32 s with Some v => v | None => def end.
Definition to_uint8 (s : bytes) (def : Z) : Z := match parse_uint 8 s with NumOk v => v | _ => def end.
(** strconv.ParseBool *)
Definition parse_bool (s : bytes) : option bool :=
  if existsb (bytes_eqb s) [lit "1"; lit "t"; lit "T"; lit "TRUE"; lit "true"; lit "True"]%string then Some true
  else if existsb (bytes_eqb s) [lit "0"; lit "f"; lit "F"; lit "FALSE"; lit "false"; lit "False"]%string then Some false
  else None.
(** toBool 917-922 *)
Definition to_bool (s : bytes) (def : bool) : bool := match parse_bool s with Some b => b | None => def end.
(** toDims 838-853 *)
Definition to_dims (dims : bytes) (rank : Z) : list Z :=
  match dims with
  | [] => if 0 <? rank then repeat 0 (Z.to_nat rank) else []
  | _ => map (fun a => match parse_uint 32 a with NumOk v => v | _ => 0 end) (split x2c dims)
  end.
(** ua.Reference *)
Record iref : Type := mkIRef { ir_type : nodeid; ir_inverse : bool; ir_target : expnodeid }.
(** toRefs 855-868 *)
Definition to_refs (al : list (bytes * bytes)) (m : list (Z * Z)) (l : list xref) : list iref :=
  map (fun r => mkIRef (to_node_id al m (xr_type r)) (bytes_eqb (xr_forward r) (lit "false"%string))
                       (mkExp 0 [] (to_node_id al m (xr_target r)))) l.
(** toBrowseName 870-885; ParseUint gives 65535 with a range error, 0 with a syntax error *)
Definition to_browse_name (m : list (Z * Z)) (s : bytes) : qname :=
  match cut x3a s with
  | None => mkQ 0 s
  | Some (num, r) => match parse_uint 16 num with
                     | NumOk n => mkQ (map_ns m n) r
                     | NumSyntax => mkQ 0 s
                     | NumRange => mkQ 65535 s
                     end
  end.
(** toLocalizedText 887-892 *)
Definition to_text (t : text_el) : ltext :=
  match te_text t with [] => mkLT (te_content t) [] | _ => mkLT (te_text t) (te_locale t) end.

(** * Values *)
(** strings.TrimSpace, for the ASCII spaces; the others (U+0085, U+00A0 and those after U+1680) are left *)
Definition space_char (b : byte) : bool := existsb (Byte.eqb b) [x20; x09; x0a; x0b; x0c; x0d].
Fixpoint drop_space (s : bytes) : bytes := match s with b :: r => if space_char b then drop_space r else s | [] => [] end.
Definition trim_space (s : bytes) : bytes := rev (drop_space (rev (drop_space s))).
(** The built-in type of each element *)
Definition xty (k : xk) : bty :=
  match k with
  | XBoolean => BBool | XByte => BByte | XUInt16 => BUInt16 | XUInt32 => BUInt32 | XUInt64 => BUInt64
  | XSByte => BSByte | XInt16 => BInt16 | XInt32 => BInt32 | XInt64 => BInt64 | XFloat => BFloat | XDouble => BDouble
  | XString => BString | XDateTime => BTime | XGuid => BGuid | XByteString => BByteString | XXml => BXml
  | XLText => BLText | XQName => BQName | XNodeId => BNodeId | XExpNodeId => BExp
  end.
(** The conversions, for example 939, 994, 1004, 1009, 1014, 1023 and 1028; None: no return in this case *)
Definition conv (k : xk) : xrep k -> option (bval (xty k)) :=
  match k return xrep k -> option (bval (xty k)) with
  | XGuid => fun x => parse_guid x
  | XLText => fun x => Some (mkLT (trim_space (fst x)) (trim_space (snd x)))
  | XQName => fun x => Some (mkQ (fst x) (trim_space (snd x)))
  | XNodeId => fun x => Some (parse_nodeid (trim_space x))
  | XExpNodeId => fun x => Some (parse_exp (trim_space x))
  | XBoolean => fun x => Some x | XByte => fun x => Some x | XUInt16 => fun x => Some x | XUInt32 => fun x => Some x
  | XUInt64 => fun x => Some x | XSByte => fun x => Some x | XInt16 => fun x => Some x | XInt32 => fun x => Some x
  | XInt64 => fun x => Some x | XFloat => fun x => Some x | XDouble => fun x => Some x | XString => fun x => Some x
  | XDateTime => fun x => Some x | XByteString => fun x => Some x | XXml => fun x => Some x
  end.
(** A nil NodeID in a Variant is a nil Variant *)
Definition one (t : bty) (x : bval t) : val :=
  match VB t x with VB BNodeId NNull => VNil | v => VScalar (KB t) v end.
(** The case that comes first of those whose element is there *)
Fixpoint pick (v : uavariant) (ks : list xk) : val :=
  match ks with
  | [] => VNil
  | k :: r => match uv_one v k with
              | None => pick v r
              | Some x => match conv k x with Some y => one (xty k) y | None => VNil end
              end
  end.
(** 934-1046: the elements a data type looks for *)
Definition numbers_signed : list xk := [XSByte; XInt16; XInt32; XInt64].
Definition numbers_unsigned : list xk := [XByte; XUInt16; XUInt32; XUInt64].
Definition one_kinds (t : nodeid) : option (list xk) :=
  match t with
  | NNum 0 1 => Some [XBoolean] | NNum 0 3 => Some [XByte] | NNum 0 4 => Some [XInt16] | NNum 0 5 => Some [XUInt16]
  | NNum 0 6 => Some [XInt32] | NNum 0 7 => Some [XUInt32] | NNum 0 2 => Some [XSByte] | NNum 0 8 => Some [XInt64]
  | NNum 0 9 => Some [XUInt64] | NNum 0 10 => Some [XFloat] | NNum 0 11 => Some [XDouble] | NNum 0 12 => Some [XString]
  | NNum 0 13 => Some [XDateTime] | NNum 0 14 => Some [XGuid] | NNum 0 15 => Some [XByteString] | NNum 0 16 => Some [XXml]
  | NNum 0 21 => Some [XLText] | NNum 0 20 => Some [XQName] | NNum 0 290 => Some [XDouble] | NNum 0 17 => Some [XNodeId]
  | NNum 0 18 => Some [XExpNodeId]
  | NNum 0 27 => Some numbers_signed
  | NNum 0 28 => Some numbers_unsigned
  | NNum 0 26 => Some (numbers_unsigned ++ numbers_signed ++ [XFloat; XDouble])
  | NNum 0 24 => Some (XBoolean :: numbers_unsigned ++ numbers_signed ++
      [XFloat; XDouble; XString; XDateTime; XGuid; XByteString; XXml; XLText; XQName; XNodeId; XExpNodeId])
  | _ => None
  end.
(** 1141-1218: the lists *)
Definition list_kind (t : nodeid) : option xk :=
  match t with
  | NNum 0 1 => Some XBoolean | NNum 0 2 => Some XSByte | NNum 0 3 => Some XByte | NNum 0 4 => Some XInt16
  | NNum 0 5 => Some XUInt16 | NNum 0 6 => Some XInt32 | NNum 0 7 => Some XUInt32 | NNum 0 8 => Some XInt64
  | NNum 0 9 => Some XUInt64 | NNum 0 10 => Some XFloat | NNum 0 11 => Some XDouble | NNum 0 12 => Some XString
  | NNum 0 13 => Some XDateTime | NNum 0 14 => Some XGuid | NNum 0 15 => Some XByteString | NNum 0 16 => Some XXml
  | NNum 0 21 => Some XLText | NNum 0 20 => Some XQName | NNum 0 290 => Some XDouble
  | _ => None
  end.
(** Lists copied by the code have no nil; the others are those of xml.Unmarshal, nil if there is no child *)
Definition copied (k : xk) : bool := match k with XByte | XGuid | XXml | XLText | XQName => true | _ => false end.
(** 1153-1160: byte(item) *)
Definition list_conv (k : xk) : xrep k -> option (bval (xty k)) :=
  match k return xrep k -> option (bval (xty k)) with
  | XByte => fun x => Some (x mod 256)
  | k => conv k
  end.
Fixpoint conv_all (k : xk) (l : list (xrep k)) : option (list val) :=
  match l with
  | [] => Some []
  | x :: r => match list_conv k x, conv_all k r with
              | Some y, Some ys => Some (VB (xty k) y :: ys)
              | _, _ => None
              end
  end.
Definition to_list (k : xk) (l : list (xrep k)) : val :=
  match conv_all k l with
  | None => VNil
  | Some [] => if copied k then VArr (KB (xty k)) [] else VArrNil (KB (xty k))
  | Some vs => VArr (KB (xty k)) vs
  end.
Definition plain_text (t : text_el) : ltext := mkLT (te_text t) (te_locale t).

Section Library.
(** strconv.ParseFloat and time.Parse (None: an error), and xml.Unmarshal of an element around this text, for
    UALocalizedText and UAQualifiedName *)
Variable parse_float : Z -> bytes -> Z.
Variable parse_time : bytes -> option time.
Variable xml_text : bytes -> bytes * bytes.
Variable xml_qname : bytes -> Z * bytes.

(** dst, _ := strconv.ParseUint(s, 10, bits), strconv.ParseInt *)
Definition uint_or (bits : Z) (s : bytes) : Z :=
  match parse_uint bits s with NumOk n => n | NumSyntax => 0 | NumRange => 2 ^ bits - 1 end.
Definition int_or (bits : Z) (s : bytes) : Z :=
  match s with
  | c :: r => if Byte.eqb c x2d then Z.max (- uint_or bits r) (- 2 ^ (bits - 1))
              else Z.min (uint_or bits (if Byte.eqb c x2b then r else s)) (2 ^ (bits - 1) - 1)
  | [] => 0
  end.
Definition nil_guid : guid := Guid x00 x00 x00 x00 x00 x00 x00 x00 x00 x00 x00 x00 x00 x00 x00 x00.
(** The zero time *)
Definition year_one : time := mkTime (-62135596800) 0.
(** 1262-1335: one element of ListOfVariant *)
Definition variant_item (name src : bytes) : val :=
  let is s := bytes_eqb name (lit s) in
  let t := trim_space src in
  (if is "Boolean" then one BBool (match parse_bool t with Some b => b | None => false end)
   else if is "Byte" then one BByte (uint_or 8 t)
   else if is "UInt16" then one BUInt16 (uint_or 16 t)
   else if is "UInt32" then one BUInt32 (uint_or 32 t)
   else if is "UInt64" then one BUInt64 (uint_or 64 t)
   else if is "SByte" then one BSByte (int_or 8 t)
   else if is "Int16" then one BInt16 (int_or 16 t)
   else if is "Int32" then one BInt32 (int_or 32 t)
   else if is "Int64" then one BInt64 (int_or 64 t)
   else if is "Float" then one BFloat (parse_float 32 t)
   else if is "Double" then one BDouble (parse_float 64 t)
   else if is "String" then one BString src
   else if is "DateTime" then one BTime (match parse_time t with Some x => x | None => year_one end)
   else if is "Guid" then one BGuid (match parse_guid t with Some g => g | None => nil_guid end)
   else if is "ByteString" then one BByteString src
   else if is "XMLElement" then one BXml src
   else if is "LocalizedText" then one BLText (mkLT (fst (xml_text src)) (snd (xml_text src)))
   else if is "QualifiedName" then one BQName (mkQ (fst (xml_qname src)) (snd (xml_qname src)))
   else if is "NodeID" then one BNodeId (parse_nodeid t)
   else if is "ExpandedNodeID" then one BExp (parse_exp t)
   else VNil)%string.

(** A nil pointer that is followed *)
Inductive outcome (A : Type) : Type := Fine (a : A) | Panic.
Arguments Fine {A}. Arguments Panic {A}.
(** Structures in Variants, named by the number of their data type *)
Definition ext (t : Z) (l : list val) : val := VScalar KExt (VExt t l).
(** 1115-1119 ua.Range *)
Definition range_value (e : xext) : outcome val :=
  match xe_range e with None => Panic | Some (lo, hi) => Fine (ext 884 [VB BDouble lo; VB BDouble hi]) end.
(** 1120-1129 ua.EUInformation *)
Definition unit_value (e : xext) : outcome val :=
  match xe_unit e with
  | None => Panic
  | Some u => Fine (ext 887 [VB BString (xu_uri u); VB BInt32 (xu_id u); VB BLText (plain_text (xu_display u)); VB BLText (plain_text (xu_description u))])
  end.
(** 1340-1355 ua.Argument *)
Definition argument_value (al : list (bytes * bytes)) (m : list (Z * Z)) (e : xext) : outcome val :=
  match xe_argument e with
  | None => Panic
  | Some a => Fine (VExt 296 [VB BString (xa_name a); VB BNodeId (to_node_id al m (xa_type a)); VB BInt32 (to_int32 (xa_rank a) (-1));
                              VSlice (map (VB BUInt32) (to_dims (xa_dims a) (to_int32 (xa_rank a) (-1)))); VB BLText (plain_text (xa_description a))])
  end.
(** 1356-1369 ua.EnumValueType *)
Definition enum_value (e : xext) : outcome val :=
  match xe_enum e with
  | None => Panic
  | Some n => Fine (VExt 7594 [VB BInt64 (xn_value n); VB BLText (plain_text (xn_display n)); VB BLText (plain_text (xn_description n))])
  end.
Fixpoint all_fine (l : list (outcome val)) : outcome (list val) :=
  match l with
  | [] => Fine []
  | Panic :: _ => Panic
  | Fine x :: r => match all_fine r with Fine xs => Fine (x :: xs) | Panic => Panic end
  end.
Definition ext_list (f : xext -> outcome val) (l : option (list xext)) : outcome val :=
  match l with
  | None => Fine VNil
  | Some l => match all_fine (map f l) with Fine vs => Fine (VArr KExt vs) | Panic => Panic end
  end.

(** IsSubtype(id, Enumeration) in the address space as it is before the nodes are added (147-168) *)
Variable is_enumeration : nodeid -> bool.

(** toDataValue 928-1379 *)
Definition one_value (al : list (bytes * bytes)) (m : list (Z * Z)) (t : bytes) (v : uavariant) : outcome val :=
  match parse_nodeid t with
  | NNum 0 884 => match uv_ext v with Some e => range_value e | None => Fine VNil end
  | NNum 0 887 => match uv_ext v with Some e => unit_value e | None => Fine VNil end
  | NNum 0 6 => match uv_one v XInt32 with Some n => Fine (one BInt32 n) | None => Fine (one BInt32 0) end
  | id => match one_kinds id with
          | Some ks => Fine (pick v ks)
          | None => if is_enumeration (to_node_id al m t)
                    then match uv_one v XInt32 with Some n => Fine (one BInt32 n) | None => Fine VNil end
                    else Fine VNil
          end
  end.
Definition list_value (al : list (bytes * bytes)) (m : list (Z * Z)) (t : bytes) (v : uavariant) : outcome val :=
  match parse_nodeid t with
  | NNum 0 24 => match uv_variants v with
                 | Some l => Fine (VArr KVar (map (fun p => variant_item (fst p) (snd p)) l))
                 | None => Fine VNil
                 end
  | NNum 0 296 => ext_list (argument_value al m) (uv_exts v)
  | NNum 0 7594 => ext_list enum_value (uv_exts v)
  | id => match list_kind id with
          | Some k => match uv_list v k with Some l => Fine (to_list k l) | None => Fine VNil end
          | None => Fine VNil
          end
  end.
Definition to_value (al : list (bytes * bytes)) (m : list (Z * Z)) (v : uavariant) (type : bytes) (rank : Z) : outcome val :=
  let t := resolve al type in
  if rank =? -1 then one_value al m t v else if rank =? 1 then list_value al m t v else Fine VNil.

(** * Nodes *)
(** What the constructors get besides the attributes of every node (object_node.go 30-44, variable_node.go 35-55,
    method_node.go 30-43, object_type_node.go 29-42, variable_type_node.go 29-46, reference_type_node.go 29-44,
    data_type_node.go 30-44, view_node.go 26-40). A data type gets no definition. *)
Inductive ikind : Type :=
| IObject (notifier : Z)
| IVariable (value : val) (type : nodeid) (rank : Z) (dims : list Z) (access : Z) (interval : Z) (historizing : bool)
| IMethod (executable : bool)
| IObjectType (abstract : bool)
| IVariableType (value : val) (type : nodeid) (rank : Z) (dims : list Z) (abstract : bool)
| IReferenceType (abstract symmetric : bool) (inverse_name : ltext)
| IDataType (abstract : bool)
| IView (no_loops : bool) (notifier : Z).
(** Role permissions are nil for every node: those of the server *)
Record inode : Type := mkINode { in_id : nodeid; in_name : qname; in_display : ltext; in_description : ltext; in_refs : list iref; in_kind : ikind }.

(** 682-788; None: no case, the node stays nil *)
Definition to_kind (al : list (bytes * bytes)) (m : list (Z * Z)) (n : uanode) : option (outcome ikind) :=
  let is s := bytes_eqb (un_tag n) (lit s) in
  let rank := to_int32 (un_rank n) (-1) in
  let value := to_value al m (un_value n) (un_type n) rank in
  let type := to_node_id al m (un_type n) in
  let dims := to_dims (un_dims n) rank in
  (if is "UAObjectType" then Some (Fine (IObjectType (un_abstract n)))
   else if is "UAVariableType" then Some match value with Fine v => Fine (IVariableType v type rank dims (un_abstract n)) | Panic => Panic end
   else if is "UADataType" then Some (Fine (IDataType (un_abstract n)))
   else if is "UAReferenceType" then Some (Fine (IReferenceType (un_abstract n) (un_symmetric n) (mkLT (un_inverse_name n) [])))
   else if is "UAObject" then Some (Fine (IObject (un_notifier n)))
   else if is "UAVariable" then
     Some match value with Fine v => Fine (IVariable v type rank dims (to_uint8 (un_access n) 1) (un_interval n) (un_historizing n)) | Panic => Panic end
   else if is "UAMethod" then Some (Fine (IMethod (to_bool (un_executable n) true)))
   else if is "UAView" then Some (Fine (IView (un_no_loops n) (un_notifier n)))
   else None)%string.
Definition to_node (al : list (bytes * bytes)) (m : list (Z * Z)) (n : uanode) : option (outcome inode) :=
  match to_kind al m n with
  | None => None
  | Some Panic => Some Panic
  | Some (Fine k) =>
      Some (Fine (mkINode (to_node_id al m (un_id n)) (to_browse_name m (un_name n)) (to_text (un_display n)) (to_text (un_description n))
                          (to_refs al m (un_refs n)) k))
  end.
(** AddNodes calls NodeID of every node (349-351): a nil node is a nil pointer that is followed *)
Fixpoint to_nodes (al : list (bytes * bytes)) (m : list (Z * Z)) (l : list uanode) : outcome (list inode) :=
  match l with
  | [] => Fine []
  | n :: r => match to_node al m n, to_nodes al m r with
              | Some (Fine x), Fine xs => Fine (x :: xs)
              | _, _ => Panic
              end
  end.
(** LoadNodeSetFromBuffer 654-795 after xml.Unmarshal: the new namespace table and the nodes given to AddNodes
    (Nodes.v) *)
Definition load (table : list bytes) (s : uanodeset) : outcome (list bytes * list inode) :=
  let '(table', m) := map_uris table table 0 (ns_uris s) [] in
  match to_nodes (ns_aliases s) m (ns_nodes s) with
  | Fine l => Fine (table', l)
  | Panic => Panic
  end.
End Library.
Arguments Fine {A}. Arguments Panic {A}.
