(** C115. The structures of the library are those of the standard. *)
From Coq Require Import ZArith List String.
From Verif Require Import Bytes CodecSpec Prim PrimSpec Value ValueSpec Registry StructTable Messages StructSpec MessageSpec TypeSpec TypeLemmas.
Import ListNotations.
Open Scope Z_scope.

(** Every structure of the standard's table, but for the ten with a Guid, is declared with this identifier and these fields *)
Theorem c115_layouts_partial : forall name id f,
  In (name, id, f) standard_types -> ~ In name without_encoder -> In (name, id, f) struct_table.
Proof. exact types. Qed.
Print Assumptions c115_layouts_partial.

(** So all its values travel as the standard's identifier, and the fields in the standard's order, and are read back *)
Theorem c115_bytes_partial : forall name id f uris vals,
  In (name, id, f) standard_types -> ~ In name without_encoder -> wzip (wf (std_env uris) false) f vals -> exists t body,
    find_id std_registry t = Some (std_id id) /\
    encode (std_env uris) (TStruct f) (VStruct vals) = Some body /\
    encode (std_env uris) TExt (VExt t vals) = Some (write_nodeid (NNum 0 id) ++ write_int 1 1 ++ write_int 4 (Z.of_nat (List.length body)) ++ body) /\
    reads_back (decode (std_env uris) TExt) (write_nodeid (NNum 0 id) ++ write_int 1 1 ++ write_int 4 (Z.of_nat (List.length body)) ++ body)
      (VExt t (map norm vals)).
Proof. exact types_bytes. Qed.
Print Assumptions c115_bytes_partial.

(** No other structure is declared, but for the one that is not compared *)
Theorem c115_no_others : forall name id f, In (name, id, f) struct_table ->
  In name standard_names \/ In id standard_ids \/ In name not_compared.
Proof. exact covered. Qed.
Print Assumptions c115_no_others.

(** The ten differ from the standard in nothing but the Guids and the flags of fields *)
Theorem c115_as_declared : forall name id f,
  In (name, id, f) (types_with (TB BInt32) TUnsupported) -> In (name, id, f) struct_table.
Proof. exact as_declared. Qed.
Print Assumptions c115_as_declared.

(** The flags of fields are declared with four bytes, the standard has two *)
Theorem c115_field_flags_refuted : exists f g,
  In ("FieldMetaData"%string, 14839, f) standard_types /\ In ("FieldMetaData"%string, 14839, g) struct_table /\
  nth_error f 2 = Some (TB BUInt16) /\ nth_error g 2 = Some (TB BInt32).
Proof. exact field_flags. Qed.
Print Assumptions c115_field_flags_refuted.

Theorem c115_flags_width : forall E z, in_u 2 z -> exists a b,
  encode E (TB BUInt16) (VB BUInt16 z) = Some a /\ List.length a = 2%nat /\
  encode E (TB BInt32) (VB BInt32 z) = Some b /\ List.length b = 4%nat.
Proof. exact flags_width. Qed.
Print Assumptions c115_flags_width.

(** Sets of 32 flags, declared as signed numbers, have the bytes of the unsigned *)
Theorem c115_masks : forall E z, 0 <= z < 2 ^ 32 ->
  encode E (TB BUInt32) (VB BUInt32 z) = encode E (TB BInt32) (VB BInt32 (if z <? 2 ^ 31 then z else z - 2 ^ 32)).
Proof. exact masks. Qed.
Print Assumptions c115_masks.
