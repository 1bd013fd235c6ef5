(** C01-C10, wire side: what the encoder writes is the prescribed layout (so that a
    peer written by somebody else understands it).  Property theorems only. *)
From Coq Require Import ZArith List Bool Lia Strings.Byte.
From Verif Require Import Bytes CodecSpec Prim PrimSpec Value ValueSpec CodecLemmas WireSpec WireProofs.
Import ListNotations.
Open Scope Z_scope.

Theorem c01_little_endian : forall k z, numbers (write_int k z) = little_endian k z.
Proof. exact write_int_layout. Qed.
Print Assumptions c01_little_endian.
Example c01_little_endian_ex : little_endian 4 (-2) = [254; 255; 255; 255] /\ little_endian 2 258 = [2; 1].
Proof. split; reflexivity. Qed.

Theorem c01_string_layout : forall s, numbers (write_string s) = lay_string s.
Proof. exact string_layout. Qed.
Print Assumptions c01_string_layout.

Theorem c03_guid_wire : forall g, numbers (write_guid g) = lay_guid g.
Proof. exact guid_layout. Qed.
Print Assumptions c03_guid_wire.

Theorem c04_nodeid_layout : forall n, wf_nodeid n -> numbers (write_nodeid n) = lay_nodeid n.
Proof. exact nodeid_layout. Qed.
Print Assumptions c04_nodeid_layout.
Example c04_nodeid_layout_ex : wf_nodeid (NNum 1 1025) /\ lay_nodeid (NNum 1 1025) = [1; 1; 1; 4].
Proof. unfold wf_nodeid, in_u. cbn. repeat split; lia. Qed.

Theorem c05_expanded_nodeid_layout : forall e, wf_exp e -> e_node e <> NNull ->
  numbers (write_expnodeid e) = lay_expnodeid e.
Proof. exact exp_layout. Qed.
Print Assumptions c05_expanded_nodeid_layout.
Example c05_layout_ex : wf_exp (mkExp 7 [x75] (NNum 2 5)) /\
  lay_expnodeid (mkExp 7 [x75] (NNum 2 5)) = [192; 5; 1; 0; 0; 0; 117; 7; 0; 0; 0].
Proof. unfold wf_exp, wf_nodeid, in_u, len_ok. cbn. repeat split; lia. Qed.

Theorem c06_localized_text_layout : forall l, numbers (write_ltext l) = lay_ltext l.
Proof. exact ltext_layout. Qed.
Print Assumptions c06_localized_text_layout.
Theorem c06_qualified_name_layout : forall q, numbers (write_qname q) = lay_qname q.
Proof. exact qname_layout. Qed.
Print Assumptions c06_qualified_name_layout.

(** The numbers written for element types are those of the standard. *)
Theorem c07_type_numbers : forall k,
  nth_error builtin_types (Z.to_nat (tag_of k - 1)) = Some k /\ 1 <= tag_of k <= 25.
Proof. exact tag_layout. Qed.
Print Assumptions c07_type_numbers.
Theorem c07_header : forall E v k bits e, shape_bits v = Some (k, bits) ->
  encode E TVar v = Some e -> exists r, numbers e = (tag_of k + bits) :: r.
Proof. exact variant_header. Qed.
Print Assumptions c07_header.
Theorem c07_unknown_type_refused : forall E b s, 25 < Z_of_byte b mod 64 -> decode E TVar (b :: s) = Err s.
Proof. exact unknown_variant_refused. Qed.
Print Assumptions c07_unknown_type_refused.
Example c07_unknown_ex : 25 < Z_of_byte x1a mod 64.
Proof. reflexivity. Qed.

Theorem c08_data_value_layout : forall E x st t1 p1 t2 p2 e,
  encode E TDV (VDV x st t1 p1 t2 p2) = Some e ->
  exists body, (x <> VNil -> exists eb, encode E TVar x = Some eb /\ body = numbers eb) /\
   numbers e = lay_dv body (negb (is_vnil x)) st t1 p1 t2 p2
                 (numbers (write_time t1)) (numbers (write_time t2)).
Proof. exact dv_layout. Qed.
Print Assumptions c08_data_value_layout.

Theorem c09_diagnostic_info_layout : forall d, numbers (write_diag d) = lay_diag d.
Proof. exact diag_layout. Qed.
Print Assumptions c09_diagnostic_info_layout.
(** Every DiagnosticInfo with at least one field is encoded but crashes its reader. *)
Theorem c09_any_field_refuted : forall E d, legal_diag d -> d <> empty_diag ->
  encode E TDiag (VDiag d) = Some (write_diag d) /\ decode E TDiag (write_diag d) = Panic.
Proof. exact diag_nonempty_crashes. Qed.
Print Assumptions c09_any_field_refuted.
Example c09_any_field_ex :
  legal_diag (Diag None None None None (Some [x61]) None (Some (Diag (Some 1) None None None None None None))).
Proof.
  cbn [legal_diag]. unfold in_s, in_u, len_ok.
  repeat split; intros; repeat match goal with H : _ \/ _ |- _ => destruct H end; try discriminate;
  match goal with H : Some _ = Some _ |- _ => injection H as <- end; cbn; lia.
Qed.

Theorem c10_layout : forall E tid l e, encode E TExt (VExt tid l) = Some e ->
  exists id body, v_id_of_type E tid = Some id /\
    encode E (TStruct (v_fields E tid)) (VStruct l) = Some body /\
    numbers e = numbers (write_nodeid (to_nodeid id (v_uris E))) ++ [1]
                ++ little_endian 4 (Z.of_nat (length body)) ++ numbers body.
Proof. exact ext_layout. Qed.
Print Assumptions c10_layout.
