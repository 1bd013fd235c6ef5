(** Loading of node sets. *)
From Coq Require Import ZArith String List Bool.
From Verif Require Import Bytes CodecSpec Prim PrimSpec Value Text TextSpec IndexRange NodeSet NodeSetSpec NodeSetProofs NodeSetLemmas NodeSetStructLemmas.
Import ListNotations.
Open Scope Z_scope.

(** * C97: loading a node set file gives the nodes that the file describes *)

(** [pf], [pt], [xt], [xq] stand for functions of Go's library, [en] for the test whether a data type is an enumeration. Every file that is well formed and within the restrictions of NodeSetSpec is loaded: every NodeId, name and reference names the same namespace by the index of the server, every attribute and value is that of the file, and the table is extended by the URIs that it did not have, once each. Missing: files outside the restrictions, refuted below; structures in values. *)
Theorem c97_loaded_partial : forall pf pt xt xq en table f s,
  written f s -> file_ok f -> file_kept f -> direction_kept s -> alias_kept s ->
  nth_error table 0 = Some opc_ua -> zlen table + zlen (f_uris f) <= 65536 ->
  exists more l, load pf pt xt xq en table s = Fine (table ++ more, l) /\ Forall2 (same_node (f_uris f) (table ++ more)) (f_nodes f) l /\
    NoDup more /\ forall u, In u more <-> In u (f_uris f) /\ ~ In u table.
Proof. exact loaded. Qed.
Print Assumptions c97_loaded_partial.

(** An index that the file does not declare is taken for an index of the server. *)
Theorem c97_undeclared_refuted : forall pf pt xt xq en table uris n,
  n <> NNull -> text_nodeid n -> zlen uris < ns_of n ->
  exists table' x, load pf pt xt xq en table (mkSet uris [] [an_object (print_nodeid n) [] []]) = Fine (table', [x]) /\ in_id x = n.
Proof. exact undeclared. Qed.
Print Assumptions c97_undeclared_refuted.

(** An index that is no number of 16 bits is taken for 0: the node becomes the Objects folder. *)
Theorem c97_index_refuted : forall pf pt xt xq en table,
  exists x, load pf pt xt xq en table (mkSet [] [] [an_object (lit "ns=65536;i=85"%string) [] []]) = Fine (table, [x]) /\ in_id x = NNum 0 85.
Proof. exact bad_index. Qed.
Print Assumptions c97_index_refuted.

(** IsForward="0" gives a forward reference. *)
Theorem c97_direction_refuted : forall pf pt xt xq en,
  written dir_file dir_set /\ file_ok dir_file /\ file_kept dir_file /\ alias_kept dir_set /\ ~ as_written (load pf pt xt xq en standard_table dir_set) dir_file.
Proof. exact direction. Qed.
Print Assumptions c97_direction_refuted.

(** The target of a reference whose id contains & is not the node of that id in the same file. *)
Theorem c97_escaped_refuted : forall pf pt xt xq en,
  written esc_file esc_set /\ file_ok esc_file /\ ~ as_written (load pf pt xt xq en standard_table esc_set) esc_file.
Proof. exact escaped. Qed.
Print Assumptions c97_escaped_refuted.

(** The locale of a display name is lost. *)
Theorem c97_locale_refuted : forall pf pt xt xq en text locale, locale <> [] ->
  let f := mkFile [] [f_object (NNum 0 70000) [] (mkLT text locale)] in let s := mkSet [] [] [an_object (lit "i=70000"%string) [] text] in
  written f s /\ file_ok f /\ ~ as_written (load pf pt xt xq en standard_table s) f.
Proof. exact label_locale. Qed.
Print Assumptions c97_locale_refuted.

(** An access level with the bits of AccessLevelEx becomes CurrentRead. *)
Theorem c97_access_refuted : forall pf pt xt xq en a, 256 <= a < 2 ^ 32 ->
  let f := mkFile [] [f_variable (NNum 0 70000) (NNum 0 12) FNone a] in
  let s := mkSet [] [] [a_variable (lit "i=70000"%string) (lit "i=12"%string) [] no_value (print_dec a)] in
  written f s /\ file_ok f /\
  exists x v t r d i h, load pf pt xt xq en standard_table s = Fine (standard_table, [x]) /\ in_kind x = IVariable v t r d 1 i h.
Proof. exact access_ex. Qed.
Print Assumptions c97_access_refuted.

(** The value of a ByteString is its base64 text. *)
Theorem c97_bytestring_refuted : forall pf pt xt xq en b,
  let f := mkFile [] [f_variable (NNum 0 70000) (NNum 0 15) (FOne BByteString b) 1] in
  let s := mkSet [] [] [a_variable (lit "i=70000"%string) (lit "i=15"%string) [] (only XByteString (b64_enc b)) []] in
  written f s /\ file_ok f /\
  exists x t r d a i h, load pf pt xt xq en standard_table s = Fine (standard_table, [x]) /\
    in_kind x = IVariable (VScalar (KB BByteString) (VB BByteString (b64_enc b))) t r d a i h.
Proof. exact bytestring. Qed.
Print Assumptions c97_bytestring_refuted.

(** A NodeId in a value keeps the index of the file: a variable whose value is its own id does not have that value. *)
Theorem c97_value_index_refuted : forall pf pt xt xq en u table, nth_error table 1 <> Some u -> zlen table = 2 ->
  exists table' x j t r d a i h,
    load pf pt xt xq en table (mkSet [u] [] [a_variable (lit "ns=1;i=5"%string) (lit "i=17"%string) [] (only XNodeId (lit "ns=1;i=5"%string)) []]) = Fine (table', [x]) /\
    in_id x = NNum j 5 /\ server_uri table' j u /\
    in_kind x = IVariable (VScalar (KB BNodeId) (VB BNodeId (NNum 1 5))) t r d a i h /\ ~ server_uri table' 1 u.
Proof. exact value_index. Qed.
Print Assumptions c97_value_index_refuted.

(** Values of subtypes of built-in types, here UtcTime and LocaleId, are lost. *)
Theorem c97_subtypes_refuted : forall pf pt xt xq en v, en (NNum 0 294) = false -> en (NNum 0 295) = false ->
  exists x y a i h,
  load pf pt xt xq en standard_table (mkSet [] [] [a_variable (lit "i=70000"%string) (lit "i=294"%string) [] (only XDateTime v) [];
    a_variable (lit "i=70001"%string) (lit "i=295"%string) [] (only XString (lit "en"%string)) []]) = Fine (standard_table, [x; y]) /\
  in_kind x = IVariable VNil (NNum 0 294) (-1) [] a i h /\ in_kind y = IVariable VNil (NNum 0 295) (-1) [] a i h.
Proof. exact subtypes. Qed.
Print Assumptions c97_subtypes_refuted.

(** A variable of type Int32 without a value has the value 0. *)
Theorem c97_int32_refuted : forall pf pt xt xq en,
  let f := mkFile [] [f_variable (NNum 0 70000) (NNum 0 6) FNone 1] in
  let s := mkSet [] [] [a_variable (lit "i=70000"%string) (lit "i=6"%string) [] no_value []] in
  written f s /\ file_ok f /\
  exists x t r d a i h, load pf pt xt xq en standard_table s = Fine (standard_table, [x]) /\ in_kind x = IVariable (VScalar (KB BInt32) (VB BInt32 0)) t r d a i h.
Proof. exact int32_zero. Qed.
Print Assumptions c97_int32_refuted.

(** A ListOfVariant, whose elements are named Variant, becomes a list of null Variants. *)
Theorem c97_variants_refuted : forall pf pt xt xq en contents, exists x t r d a i h,
  load pf pt xt xq en standard_table (mkSet [] [] [a_variable (lit "i=70000"%string) (lit "i=24"%string) (lit "1"%string)
    (mkUV (fun _ => None) (fun _ => None) None None (Some (map (fun c => (lit "Variant"%string, c)) contents))) []]) = Fine (standard_table, [x]) /\
  in_kind x = IVariable (VArr KVar (repeat VNil (length contents))) t r d a i h.
Proof. exact variants. Qed.
Print Assumptions c97_variants_refuted.

(** Without the attribute DataType, whose default is BaseDataType, data type and value are null. *)
Theorem c97_default_type_refuted : forall pf pt xt xq en uv, en NNull = false -> exists x a i h,
  load pf pt xt xq en standard_table (mkSet [] [] [a_variable (lit "i=70000"%string) [] [] uv []]) = Fine (standard_table, [x]) /\ in_kind x = IVariable VNil NNull (-1) [] a i h.
Proof. exact no_type. Qed.
Print Assumptions c97_default_type_refuted.

(** An element that is no node, for example Extensions, ends the program, and so does a Range whose body is missing. *)
Theorem c97_panic_refuted : (forall pf pt xt xq en table uris al before tag id after,
  ~ In tag (map lit ["UAObject"; "UAVariable"; "UAMethod"; "UAObjectType"; "UAVariableType"; "UAReferenceType"; "UADataType"; "UAView"]%string) ->
  load pf pt xt xq en table (mkSet uris al (before ++ an_element tag id :: after)) = Panic) /\
  (forall pf pt xt xq en table e, xe_range e = None ->
  load pf pt xt xq en table (mkSet [] [] [a_variable (lit "i=70000"%string) (lit "i=884"%string) [] (mkUV (fun _ => None) (fun _ => None) (Some e) None None) []]) = Panic).
Proof. exact (conj unknown_element range_panic). Qed.
Print Assumptions c97_panic_refuted.

(** Booleans are read from these texts and no others. *)
Theorem c97_booleans : forall s b, parse_bool s = Some b <->
  In s (map lit (if b then ["1"; "t"; "T"; "TRUE"; "true"; "True"] else ["0"; "f"; "F"; "FALSE"; "false"; "False"]))%string.
Proof. exact bool_texts. Qed.
Print Assumptions c97_booleans.

(** Ranges, units, arguments of methods and values of enumerations are read with every field as it is in the file; the data type of an
    argument is the node it is in the file, in the namespaces of the server. *)
Theorem c97_ranges : forall pf pt xt xq en table e lo hi, xe_range e = Some (lo, hi) -> exists x t r d a i h,
  load pf pt xt xq en table (mkSet [] [] [a_variable (lit "i=70000"%string) (lit "i=884"%string) [] (with_ext e) []]) = Fine (table, [x]) /\
  in_kind x = IVariable (VScalar KExt (VExt 884 [VB BDouble lo; VB BDouble hi])) t r d a i h.
Proof. exact range_read. Qed.
Print Assumptions c97_ranges.

Theorem c97_units : forall pf pt xt xq en table e u, written_unit u e -> exists x t r d a i h,
  load pf pt xt xq en table (mkSet [] [] [a_variable (lit "i=70000"%string) (lit "i=887"%string) [] (with_ext e) []]) = Fine (table, [x]) /\
  in_kind x = IVariable (VScalar KExt (VExt 887 [VB BString (fu_uri u); VB BInt32 (fu_id u); VB BLText (fu_display u); VB BLText (fu_description u)])) t r d a i h.
Proof. exact unit_read. Qed.
Print Assumptions c97_units.

Theorem c97_arguments : forall pf pt xt xq en table uris al args es, Forall (argument_ok uris) args -> Forall2 (written_argument al) args es ->
  ~ In (lit "i=296"%string) (map fst al) -> nth_error table 0 = Some opc_ua -> zlen table + zlen uris <= 65536 ->
  exists table' x vs t r d a i h,
    load pf pt xt xq en table (mkSet uris al [a_variable (lit "i=70000"%string) (lit "i=296"%string) (lit "1"%string) (with_exts es) []]) = Fine (table', [x]) /\
    in_kind x = IVariable (VArr KExt vs) t r d a i h /\ Forall2 (same_argument uris table') args vs.
Proof. exact arguments_read. Qed.
Print Assumptions c97_arguments.

Theorem c97_enumerations : forall pf pt xt xq en table ns es, Forall2 written_enum ns es -> exists x t r d a i h,
  load pf pt xt xq en table (mkSet [] [] [a_variable (lit "i=70000"%string) (lit "i=7594"%string) (lit "1"%string) (with_exts es) []]) = Fine (table, [x]) /\
  in_kind x = IVariable (VArr KExt (map enum_meant ns)) t r d a i h.
Proof. exact enums_read. Qed.
Print Assumptions c97_enumerations.

(** Whole numbers in a list of variants are read as they are, or as the nearest number of the type. *)
Theorem c97_variant_numbers : forall pf pt xt xq name mk lo hi z, In (name, mk, (lo, hi)) wholes -> -2 ^ 64 < z < 2 ^ 64 ->
  variant_item pf pt xt xq (lit name) (print_int z) = mk (Z.max lo (Z.min hi z)).
Proof. exact whole_read. Qed.
Print Assumptions c97_variant_numbers.

(** The other values in a list of variants are those of their texts. *)
Theorem c97_variant_values : forall pf pt xt xq s, no_outer_space s ->
  (forall b, parse_bool s = Some b -> variant_item pf pt xt xq (lit "Boolean") s = VScalar (KB BBool) (VB BBool b)) /\
  variant_item pf pt xt xq (lit "Float") s = VScalar (KB BFloat) (VB BFloat (pf 32 s)) /\
  variant_item pf pt xt xq (lit "Double") s = VScalar (KB BDouble) (VB BDouble (pf 64 s)) /\
  variant_item pf pt xt xq (lit "String") s = VScalar (KB BString) (VB BString s) /\
  (forall x, pt s = Some x -> variant_item pf pt xt xq (lit "DateTime") s = VScalar (KB BTime) (VB BTime x)) /\
  (forall g, parse_guid s = Some g -> variant_item pf pt xt xq (lit "Guid") s = VScalar (KB BGuid) (VB BGuid g)) /\
  variant_item pf pt xt xq (lit "LocalizedText") s = VScalar (KB BLText) (VB BLText (mkLT (fst (xt s)) (snd (xt s)))) /\
  variant_item pf pt xt xq (lit "QualifiedName") s = VScalar (KB BQName) (VB BQName (mkQ (fst (xq s)) (snd (xq s)))).
Proof. exact others_read. Qed.
Print Assumptions c97_variant_values.

(** Elements named XmlElement, NodeId and ExpandedNodeId, as the standard spells them, give null. *)
Theorem c97_variant_names_refuted : forall pf pt xt xq s,
  Forall (fun name => variant_item pf pt xt xq (lit name) s = VNil) ["XmlElement"; "NodeId"; "ExpandedNodeId"]%string.
Proof. exact names_lost. Qed.
Print Assumptions c97_variant_names_refuted.

(** One text that is no Guid, and the value of a list of Guids is null. *)
Theorem c97_guids_refuted : forall pf pt xt xq en table v l s, uv_list v XGuid = Some l -> In s l -> parse_guid s = None -> exists x t r d a i h,
  load pf pt xt xq en table (mkSet [] [] [a_variable (lit "i=70000"%string) (lit "i=14"%string) (lit "1"%string) v []]) = Fine (table, [x]) /\
  in_kind x = IVariable VNil t r d a i h.
Proof. exact guids_lost. Qed.
Print Assumptions c97_guids_refuted.

(** Where spaces around a text are left out, all of them are, and nothing else. *)
Theorem c97_spaces : forall a s b, Forall blank a -> Forall blank b -> no_outer_space s -> trim_space (a ++ s ++ b) = s.
Proof. exact trim_blanks. Qed.
Print Assumptions c97_spaces.
