(** What a node set file says (OPC 10000-6, Annex F) and how it is written. Independent of how it is loaded. *)
From Coq Require Import ZArith String List Bool Strings.Byte.
From Verif Require Import Bytes CodecSpec Prim PrimSpec Value Text TextSpec NodeSet.
Import ListNotations.
Open Scope Z_scope.

(** ** Namespaces *)
Definition opc_ua : bytes := String.list_byte_of_string "http://opcfoundation.org/UA/"%string.
(** In a file 0 is the namespace of OPC UA, i > 0 the i-th of its list; in the server i is entry i of the table. *)
Definition file_uri (uris : list bytes) (i : Z) (u : bytes) : Prop :=
  (i = 0 /\ u = opc_ua) \/ (0 < i /\ nth_error uris (Z.to_nat (i - 1)) = Some u).
Definition server_uri (table : list bytes) (i : Z) (u : bytes) : Prop := 0 <= i /\ nth_error table (Z.to_nat i) = Some u.
Definition same_namespace (uris table : list bytes) (i j : Z) : Prop := exists u, file_uri uris i u /\ server_uri table j u.
Definition same_id (uris table : list bytes) (a b : nodeid) : Prop :=
  match a, b with
  | NNum i x, NNum j y => x = y /\ same_namespace uris table i j
  | NStr i x, NStr j y => x = y /\ same_namespace uris table i j
  | NGuid i x, NGuid j y => x = y /\ same_namespace uris table i j
  | NOpq i x, NOpq j y => x = y /\ same_namespace uris table i j
  | _, _ => False
  end.
Definition same_name (uris table : list bytes) (a b : qname) : Prop := q_name a = q_name b /\ same_namespace uris table (q_ns a) (q_ns b).

(** ** Contents of a file, with the indices of the file *)
Record fref : Type := mkFRef { fr_type : nodeid; fr_forward : bool; fr_target : nodeid }.
Inductive fvalue : Type := FNone | FOne (t : bty) (x : bval t) | FMany (t : bty) (l : list (bval t)).
Record fdata : Type := mkFData { fd_type : nodeid; fd_rank : Z; fd_dims : list Z; fd_value : fvalue }.
Inductive fkind : Type :=
| FObject (notifier : Z)
| FVariable (d : fdata) (access interval : Z) (historizing : bool)
| FMethod (executable : bool)
| FObjectType (abstract : bool)
| FVariableType (d : fdata) (abstract : bool)
| FReferenceType (abstract symmetric : bool) (inverse_name : ltext)
| FDataType (abstract : bool)
| FView (no_loops : bool) (notifier : Z).
Record fnode : Type := mkFNode { fn_id : nodeid; fn_name : qname; fn_display : ltext; fn_description : ltext; fn_refs : list fref; fn_kind : fkind }.
Record file : Type := mkFile { f_uris : list bytes; f_nodes : list fnode }.

(** ** How it is written *)
(** Text between tags *)
Definition escape (s : bytes) : bytes :=
  flat_map (fun b => match b with x26 => lit "&amp;" | x3c => lit "&lt;" | x3e => lit "&gt;" | _ => [b] end)%string s.
(** A NodeId: itself or an alias of it *)
Definition written_id (al : list (bytes * bytes)) (t : bytes) (n : nodeid) : Prop :=
  (t = print_nodeid n /\ ~ In t (map fst al)) \/
  (In t (map fst al) /\ forall x, In (t, x) al -> x = escape (print_nodeid n)).
(** An attribute xs:boolean with a default *)
Definition written_bool (default b : bool) (s : bytes) : Prop :=
  (s = [] /\ b = default) \/ (b = true /\ (s = lit "true" \/ s = lit "1")%string) \/ (b = false /\ (s = lit "false" \/ s = lit "0")%string).
Definition written_ref (al : list (bytes * bytes)) (r : fref) (x : xref) : Prop :=
  written_id al (xr_type x) (fr_type r) /\ written_bool true (fr_forward r) (xr_forward x) /\
  exists t, written_id al t (fr_target r) /\ xr_target x = escape t.
Definition written_name (q : qname) (s : bytes) : Prop :=
  s = print_qname q \/ (q_ns q = 0 /\ s = q_name q /\ ~ In colon s).
(** <DisplayName Locale="en">text</DisplayName>: encoding/xml finds no elements Text and Locale inside. *)
Definition written_text (t : ltext) (x : text_el) : Prop := x = mkTE [] [] (escape (lt_text t)).
Definition print_int (z : Z) : bytes := if z <? 0 then lit "-" ++ print_dec (- z) else print_dec z.
Definition written_rank (r : Z) (s : bytes) : Prop := s = print_int r \/ (r = -1 /\ s = []).
Fixpoint join (l : list bytes) : bytes := match l with [] => [] | [a] => a | a :: r => a ++ lit "," ++ join r end.
Definition written_access (a : Z) (s : bytes) : Prop := s = print_dec a \/ (a = 1 /\ s = []).
(** Values: the element of each built-in type and its text or contents *)
Definition el (t : bty) : xk :=
  match t with
  | BBool => XBoolean | BByte => XByte | BUInt16 => XUInt16 | BUInt32 | BStatus => XUInt32 | BUInt64 => XUInt64
  | BSByte => XSByte | BInt16 => XInt16 | BInt32 => XInt32 | BInt64 => XInt64 | BFloat => XFloat | BDouble => XDouble
  | BString => XString | BTime => XDateTime | BGuid => XGuid | BByteString => XByteString | BXml => XXml
  | BLText => XLText | BQName => XQName | BNodeId => XNodeId | BExp => XExpNodeId
  end.
Definition spell (t : bty) : bval t -> xrep (el t) :=
  match t return bval t -> xrep (el t) with
  | BGuid => fun x => print_guid x
  | BByteString => fun x => b64_enc x
  | BLText => fun x => (lt_text x, lt_locale x)
  | BQName => fun x => (q_ns x, q_name x)
  | BNodeId => fun x => print_nodeid x
  | BExp => fun x => print_exp x
  | BBool => fun x => x | BByte => fun x => x | BUInt16 => fun x => x | BUInt32 => fun x => x | BStatus => fun x => x | BUInt64 => fun x => x
  | BSByte => fun x => x | BInt16 => fun x => x | BInt32 => fun x => x | BInt64 => fun x => x | BFloat => fun x => x | BDouble => fun x => x
  | BString => fun x => x | BTime => fun x => x | BXml => fun x => x
  end.
Definition written_value (v : fvalue) (uv : uavariant) : Prop :=
  match v with
  | FNone => (forall k, uv_one uv k = None) /\ (forall k, uv_list uv k = None) /\ uv_ext uv = None /\ uv_exts uv = None /\ uv_variants uv = None
  | FOne t x => uv_one uv (el t) = Some (spell t x) /\ forall k, k <> el t -> uv_one uv k = None
  | FMany t l => uv_list uv (el t) = Some (map (spell t) l)
  end.
Definition written_data (al : list (bytes * bytes)) (d : fdata) (n : uanode) : Prop :=
  written_id al (un_type n) (fd_type d) /\ written_rank (fd_rank d) (un_rank n) /\ un_dims n = join (map print_dec (fd_dims d)) /\
  written_value (fd_value d) (un_value n).
Definition written_kind (al : list (bytes * bytes)) (k : fkind) (n : uanode) : Prop :=
  match k with
  | FObject e => un_tag n = lit "UAObject" /\ un_notifier n = e
  | FVariable d a i h => un_tag n = lit "UAVariable" /\ written_data al d n /\ written_access a (un_access n) /\ un_interval n = i /\ un_historizing n = h
  | FMethod b => un_tag n = lit "UAMethod" /\ written_bool true b (un_executable n)
  | FObjectType a => un_tag n = lit "UAObjectType" /\ un_abstract n = a
  | FVariableType d a => un_tag n = lit "UAVariableType" /\ written_data al d n /\ un_abstract n = a
  | FReferenceType a s i => un_tag n = lit "UAReferenceType" /\ un_abstract n = a /\ un_symmetric n = s /\ un_inverse_name n = lt_text i
  | FDataType a => un_tag n = lit "UADataType" /\ un_abstract n = a
  | FView c e => un_tag n = lit "UAView" /\ un_no_loops n = c /\ un_notifier n = e
  end%string.
Definition written_node (al : list (bytes * bytes)) (f : fnode) (n : uanode) : Prop :=
  written_id al (un_id n) (fn_id f) /\ written_name (fn_name f) (un_name n) /\ written_text (fn_display f) (un_display n) /\
  written_text (fn_description f) (un_description n) /\ Forall2 (written_ref al) (fn_refs f) (un_refs n) /\ written_kind al (fn_kind f) n.
Definition written (f : file) (s : uanodeset) : Prop :=
  ns_uris s = f_uris f /\ Forall2 (written_node (ns_aliases s)) (f_nodes f) (ns_nodes s).

(** ** What must come of it *)
Definition meant (v : fvalue) : val :=
  match v with FNone => VNil | FOne t x => VScalar (KB t) (VB t x) | FMany t l => VArr (KB t) (map (VB t) l) end.
Definition same_ref (uris table : list bytes) (f : fref) (r : iref) : Prop :=
  same_id uris table (fr_type f) (ir_type r) /\ ir_inverse r = negb (fr_forward f) /\
  e_server (ir_target r) = 0 /\ e_uri (ir_target r) = [] /\ same_id uris table (fr_target f) (e_node (ir_target r)).
(** Without dimensions in the file each of them is 0, of any length *)
Definition same_data (uris table : list bytes) (d : fdata) (v : val) (t : nodeid) (rank : Z) (dims : list Z) : Prop :=
  v = meant (fd_value d) /\ same_id uris table (fd_type d) t /\ rank = fd_rank d /\
  dims = match fd_dims d with [] => repeat 0 (Z.to_nat (fd_rank d)) | l => l end.
Definition same_kind (uris table : list bytes) (f : fkind) (k : ikind) : Prop :=
  match f, k with
  | FObject e, IObject e' => e' = e
  | FVariable d a i h, IVariable v t r dims a' i' h' => same_data uris table d v t r dims /\ a' = a /\ i' = i /\ h' = h
  | FMethod b, IMethod b' => b' = b
  | FObjectType a, IObjectType a' => a' = a
  | FVariableType d a, IVariableType v t r dims a' => same_data uris table d v t r dims /\ a' = a
  | FReferenceType a s i, IReferenceType a' s' i' => a' = a /\ s' = s /\ i' = i
  | FDataType a, IDataType a' => a' = a
  | FView c e, IView c' e' => c' = c /\ e' = e
  | _, _ => False
  end.
Definition same_node (uris table : list bytes) (f : fnode) (n : inode) : Prop :=
  same_id uris table (fn_id f) (in_id n) /\ same_name uris table (fn_name f) (in_name n) /\ in_display n = fn_display f /\
  in_description n = fn_description f /\ Forall2 (same_ref uris table) (fn_refs f) (in_refs n) /\ same_kind uris table (fn_kind f) (in_kind n).

(** ** Files that can be loaded *)
(** A file that means something: indices in its list, numbers in range *)
Definition index_ok (uris : list bytes) (i : Z) : Prop := exists u, file_uri uris i u.
Definition ns_of (n : nodeid) : Z := match n with NNull => 0 | NNum i _ | NStr i _ | NGuid i _ | NOpq i _ => i end.
Definition id_ok (uris : list bytes) (n : nodeid) : Prop := n <> NNull /\ text_nodeid n /\ index_ok uris (ns_of n).
Definition name_ok (uris : list bytes) (q : qname) : Prop := text_qname q /\ index_ok uris (q_ns q).
Definition data_ok (uris : list bytes) (d : fdata) : Prop :=
  id_ok uris (fd_type d) /\ -2 ^ 31 <= fd_rank d < 2 ^ 31 /\ Forall (fun n => 0 <= n < 2 ^ 32) (fd_dims d).
Definition kind_ok (uris : list bytes) (k : fkind) : Prop :=
  match k with FVariable d a _ _ => data_ok uris d /\ 0 <= a < 2 ^ 32 | FVariableType d _ => data_ok uris d | _ => True end.
Definition ref_ok (uris : list bytes) (r : fref) : Prop := id_ok uris (fr_type r) /\ id_ok uris (fr_target r).
Definition node_ok (uris : list bytes) (n : fnode) : Prop :=
  id_ok uris (fn_id n) /\ name_ok uris (fn_name n) /\ Forall (ref_ok uris) (fn_refs n) /\ kind_ok uris (fn_kind n).
Definition file_ok (f : file) : Prop := Forall (node_ok (f_uris f)) (f_nodes f).

(** The restrictions of the theorem; the refutations show that each is needed. *)
(** No characters that are escaped *)
Definition plain (s : bytes) : Prop := ~ In x26 s /\ ~ In x3c s /\ ~ In x3e s.
Definition plain_label (t : ltext) : Prop := plain (lt_text t) /\ lt_locale t = [].
Definition blank (b : byte) : Prop := In b [x20; x09; x0a; x0b; x0c; x0d].
Definition no_outer_space (s : bytes) : Prop :=
  (forall b r, s = b :: r -> ~ blank b) /\ (forall b r, s = r ++ [b] -> ~ blank b).
(** Numbers of the built-in types *)
Definition builtin_number (t : bty) : Z :=
  match t with
  | BBool => 1 | BSByte => 2 | BByte => 3 | BInt16 => 4 | BUInt16 => 5 | BInt32 => 6 | BUInt32 => 7 | BInt64 => 8 | BUInt64 => 9
  | BFloat => 10 | BDouble => 11 | BString => 12 | BTime => 13 | BGuid => 14 | BByteString => 15 | BXml => 16 | BNodeId => 17 | BExp => 18
  | BStatus => 19 | BQName => 20 | BLText => 21
  end.
Definition kept (t : bty) : bval t -> Prop :=
  match t return bval t -> Prop with
  | BStatus | BByteString | BExp => fun _ => False
  | BNodeId => fun n => text_nodeid n /\ ns_of n = 0 /\ n <> NNull /\ n <> NNum 0 0 /\ no_outer_space (print_nodeid n)
  | BQName => fun q => q_ns q = 0 /\ no_outer_space (q_name q)
  | BLText => fun x => no_outer_space (lt_text x) /\ no_outer_space (lt_locale x)
  | _ => fun _ => True
  end.
Definition kept_element (t : bty) : bval t -> Prop :=
  match t return bval t -> Prop with
  | BNodeId => fun _ => False
  | BByte => fun n => 0 <= n < 256
  | t => kept t
  end.
Definition value_kept (d : fdata) : Prop :=
  match fd_value d with
  | FNone => fd_type d <> NNum 0 6 \/ fd_rank d <> -1
  | FOne t x => fd_rank d = -1 /\ kept t x /\
      (fd_type d = NNum 0 (builtin_number t) \/ fd_type d = NNum 0 24 \/ (t = BDouble /\ fd_type d = NNum 0 290))
  | FMany t l => fd_rank d = 1 /\ l <> [] /\ Forall (kept_element t) l /\
      (fd_type d = NNum 0 (builtin_number t) \/ (t = BDouble /\ fd_type d = NNum 0 290))
  end.
Definition kind_kept (k : fkind) : Prop :=
  match k with
  | FVariable d a _ _ => value_kept d /\ a < 256 /\ plain (print_nodeid (fd_type d))
  | FVariableType d _ => value_kept d /\ plain (print_nodeid (fd_type d))
  | FReferenceType _ _ i => lt_locale i = []
  | _ => True
  end.
Definition node_kept (n : fnode) : Prop :=
  plain (print_nodeid (fn_id n)) /\ plain_label (fn_display n) /\ plain_label (fn_description n) /\
  Forall (fun r => plain (print_nodeid (fr_type r)) /\ plain (print_nodeid (fr_target r))) (fn_refs n) /\ kind_kept (fn_kind n).
Definition file_kept (f : file) : Prop := Forall node_kept (f_nodes f).
(** The direction is not written as the digit 0, and no alias needs escapes. *)
Definition direction_kept (s : uanodeset) : Prop :=
  forall n r, In n (ns_nodes s) -> In r (un_refs n) -> xr_forward r <> lit "0"%string.
Definition alias_kept (s : uanodeset) : Prop := forall a, In a (ns_aliases s) -> plain (fst a).

(** ** Outcome *)
Definition as_written (r : outcome (list bytes * list inode)) (f : file) : Prop :=
  exists table' l, r = Fine (table', l) /\ Forall2 (same_node (f_uris f) table') (f_nodes f) l.
(** Files of one node *)
Definition no_value : uavariant := mkUV (fun _ => None) (fun _ => None) None None None.
Definition label (s : bytes) : text_el := mkTE [] [] (escape s).
Definition an_object (id : bytes) (refs : list xref) (display : bytes) : uanode :=
  mkUN (lit "UAObject"%string) (label display) (label []) refs id (lit "0:x"%string) false [] [] [] [] false 0 no_value [] 0 false [] false.
Definition a_variable (id type rank : bytes) (v : uavariant) (access : bytes) : uanode :=
  mkUN (lit "UAVariable"%string) (label []) (label []) [] id (lit "0:x"%string) false type rank [] [] false 0 v access 0 false [] false.
Definition an_element (tag id : bytes) : uanode :=
  mkUN tag (label []) (label []) [] id (lit "0:x"%string) false [] [] [] [] false 0 no_value [] 0 false [] false.
Definition f_object (id : nodeid) (refs : list fref) (display : ltext) : fnode := mkFNode id (mkQ 0 (lit "x"%string)) display (mkLT [] []) refs (FObject 0).
Definition f_variable (id type : nodeid) (v : fvalue) (access : Z) : fnode :=
  mkFNode id (mkQ 0 (lit "x"%string)) (mkLT [] []) (mkLT [] []) [] (FVariable (mkFData type (-1) [] v) access 0 false).
(** A variant with one element *)
Definition only (k : xk) (x : xrep k) : uavariant :=
  mkUV (fun k' => match k as a, k' as b return xrep a -> option (xrep b) with
        | XBoolean, XBoolean => @Some _ | XInt32, XInt32 => @Some _ | XString, XString => @Some _ | XDateTime, XDateTime => @Some _
        | XByteString, XByteString => @Some _ | XNodeId, XNodeId => @Some _ | XDouble, XDouble => @Some _ | _, _ => fun _ => None end x)
    (fun _ => None) None None None.

(** ** Structures in values: texts with elements Text and Locale, ranges, units, arguments of methods, values of enumerations *)
Definition written_label (t : ltext) (x : text_el) : Prop := te_text x = lt_text t /\ te_locale x = lt_locale t.
Record funit : Type := mkFUnit { fu_uri : bytes; fu_id : Z; fu_display : ltext; fu_description : ltext }.
Definition written_unit (u : funit) (e : xext) : Prop :=
  exists x, xe_unit e = Some x /\ xu_uri x = fu_uri u /\ xu_id x = fu_id u /\ written_label (fu_display u) (xu_display x) /\ written_label (fu_description u) (xu_description x).
Record fargument : Type := mkFArg { fa_name : bytes; fa_type : nodeid; fa_rank : Z; fa_dims : list Z; fa_description : ltext }.
Definition argument_ok (uris : list bytes) (a : fargument) : Prop :=
  id_ok uris (fa_type a) /\ plain (print_nodeid (fa_type a)) /\ -2 ^ 31 <= fa_rank a < 2 ^ 31 /\ Forall (fun n => 0 <= n < 2 ^ 32) (fa_dims a).
Definition written_argument (al : list (bytes * bytes)) (a : fargument) (e : xext) : Prop :=
  exists x, xe_argument e = Some x /\ xa_name x = fa_name a /\ written_id al (xa_type x) (fa_type a) /\ written_rank (fa_rank a) (xa_rank x) /\
    xa_dims x = join (map print_dec (fa_dims a)) /\ written_label (fa_description a) (xa_description x).
Definition same_argument (uris table : list bytes) (a : fargument) (v : val) : Prop :=
  exists t, v = VExt 296 [VB BString (fa_name a); VB BNodeId t; VB BInt32 (fa_rank a);
                          VSlice (map (VB BUInt32) (match fa_dims a with [] => repeat 0 (Z.to_nat (fa_rank a)) | l => l end)); VB BLText (fa_description a)] /\
    same_id uris table (fa_type a) t.
Record fenum : Type := mkFEnum { fe_value : Z; fe_display : ltext; fe_description : ltext }.
Definition written_enum (n : fenum) (e : xext) : Prop :=
  exists x, xe_enum e = Some x /\ xn_value x = fe_value n /\ written_label (fe_display n) (xn_display x) /\ written_label (fe_description n) (xn_description x).
Definition enum_meant (n : fenum) : val := VExt 7594 [VB BInt64 (fe_value n); VB BLText (fe_display n); VB BLText (fe_description n)].
Definition with_ext (e : xext) : uavariant := mkUV (fun _ => None) (fun _ => None) (Some e) None None.
Definition with_exts (l : list xext) : uavariant := mkUV (fun _ => None) (fun _ => None) None (Some l) None.

(** ** Whole numbers in a list of variants, in elements named after the type: the type and its least and greatest value *)
Definition wholes : list (string * (Z -> val) * (Z * Z)) :=
  [("Byte", fun z => VScalar (KB BByte) (VB BByte z), (0, 255));
   ("UInt16", fun z => VScalar (KB BUInt16) (VB BUInt16 z), (0, 65535));
   ("UInt32", fun z => VScalar (KB BUInt32) (VB BUInt32 z), (0, 4294967295));
   ("UInt64", fun z => VScalar (KB BUInt64) (VB BUInt64 z), (0, 18446744073709551615));
   ("SByte", fun z => VScalar (KB BSByte) (VB BSByte z), (-128, 127));
   ("Int16", fun z => VScalar (KB BInt16) (VB BInt16 z), (-32768, 32767));
   ("Int32", fun z => VScalar (KB BInt32) (VB BInt32 z), (-2147483648, 2147483647));
   ("Int64", fun z => VScalar (KB BInt64) (VB BInt64 z), (-9223372036854775808, 9223372036854775807))]%string.
