(** C01-C14: the binary codec.  Property theorems only. *)
From Coq Require Import ZArith List Bool Lia Strings.Byte.
From Verif Require Import Bytes CodecSpec BytesProofs Prim PrimSpec PrimProofs Value ValueSpec ValueProofs CodecLemmas.
Import ListNotations.
Open Scope Z_scope.

(** * C01 *)
Theorem c01_boolean : forall b, reads_back read_bool (write_bool b) b.
Proof. intros b. exact (codes_rt (codes_bool false b)). Qed.
Print Assumptions c01_boolean.

Theorem c01_unsigned : forall (k : nat) z, In k [1; 2; 4; 8]%nat -> in_u (Z.of_nat k) z ->
  reads_back (read_uint k) (write_int k z) z.
Proof. intros k z _ H. exact (codes_rt (codes_uint false k z H)). Qed.
Print Assumptions c01_unsigned.
Example c01_unsigned_ex : In 2%nat [1; 2; 4; 8]%nat /\ in_u 2 65535.
Proof. unfold in_u; cbn; lia. Qed.

Theorem c01_signed : forall (k : nat) z, In k [1; 2; 4; 8]%nat -> in_s (Z.of_nat k) z ->
  reads_back (read_sint k) (write_int k z) z.
Proof.
  intros k z Hk H. refine (codes_rt (codes_sint false k z _ H)).
  cbn in Hk. lia.
Qed.
Print Assumptions c01_signed.
Example c01_signed_ex : In 8%nat [1; 2; 4; 8]%nat /\ in_s 8 (- 2 ^ 63).
Proof. unfold in_s; cbn; lia. Qed.

Theorem c01_float_double : forall bits,
  (in_u 4 bits -> reads_back read_float (write_float bits) bits) /\
  (in_u 8 bits -> reads_back read_double (write_double bits) bits).
Proof.
  intros bits. split; intros H; [exact (codes_rt (codes_uint false 4 bits H))|exact (codes_rt (codes_uint false 8 bits H))].
Qed.
Print Assumptions c01_float_double.
(** a NaN with a payload *)
Example c01_float_ex : in_u 4 0x7FC00123.
Proof. unfold in_u; cbn; lia. Qed.

Theorem c01_string_bytestring_xml : forall v, len_ok v ->
  reads_back read_string (write_string v) v /\
  reads_back read_bytestring (write_bytestring v) v /\
  reads_back read_xml (write_xml v) v.
Proof.
  intros v H. exact (conj (codes_rt (codes_string false v H))
    (conj (codes_rt (codes_bytestring false v H)) (codes_rt (codes_string false v H)))).
Qed.
Print Assumptions c01_string_bytestring_xml.
Example c01_string_ex : len_ok [xff; x00; xc3].
Proof. unfold len_ok; cbn; lia. Qed.

Theorem c01_byte_slice : forall o, (forall v, o = Some v -> len_ok v) ->
  reads_back read_bytearray (write_bytearray o) o.
Proof. intros o H. exact (codes_rt (codes_bytearray false o H)). Qed.
Print Assumptions c01_byte_slice.
Example c01_byte_slice_ex : write_bytearray None <> write_bytearray (Some []).
Proof. vm_compute. discriminate. Qed.

(** * C02 *)
(** Within +-28519 years of 1970 (where int64 ticks cannot overflow): the instant
    truncated to 100 ns, saturated at 1601 and at 9999-12-31T23:59:59. *)
Theorem c02_datetime_partial : forall t, wf_time t -> time_in_int64_ticks t ->
  reads_back read_time (write_time t) (norm_time t).
Proof. intros t H1 H2. exact (codes_rt (codes_time false t H1 H2)). Qed.
Print Assumptions c02_datetime_partial.
Example c02_datetime_ex : wf_time (mkTime 1700000000 123456789) /\ time_in_int64_ticks (mkTime 1700000000 123456789)
  /\ norm_time (mkTime 1700000000 123456789) = mkTime 1700000000 123456700.
Proof. unfold wf_time, time_in_int64_ticks, in_s. cbn. repeat split; lia. Qed.

(** The full claim fails further out: the tick count wraps and a far future
    instant is written as another date. *)
Theorem c02_datetime_refuted : exists t, wf_time t /\ sec_9999 < t_sec t /\
  exists t', read_time (write_time t) = Ok t' [] /\ t' <> norm_time t /\ t_sec t' < 0.
Proof.
  exists (mkTime (1844674407371 - 11644473600) 0). split; [|split].
  - unfold wf_time, in_s; cbn; lia.
  - vm_compute. reflexivity.
  - eexists. split; [vm_compute; reflexivity|]. split; [vm_compute; discriminate|vm_compute; reflexivity].
Qed.
Print Assumptions c02_datetime_refuted.

(** * C03 *)
Theorem c03_guid : forall g,
  reads_back read_guid (write_guid g) g /\ length (write_guid g) = 16%nat.
Proof. intros g. split; [exact (codes_rt (codes_guid false g))|destruct g; reflexivity]. Qed.
Print Assumptions c03_guid.
Theorem c03_guid_layout : forall g i,
  nth_error (write_guid g) i =
  nth_error (guid_bytes g) (nth i [3; 2; 1; 0; 5; 4; 7; 6; 8; 9; 10; 11; 12; 13; 14; 15]%nat i).
Proof. intros g i. destruct g. do 16 (destruct i as [|i]; [reflexivity|]). destruct i; reflexivity. Qed.
Print Assumptions c03_guid_layout.
Theorem c03_guid_injective : forall a b, write_guid a = write_guid b -> a = b.
Proof. exact guid_inj. Qed.
Print Assumptions c03_guid_injective.

(** * C04 *)
Theorem c04_nodeid : forall n, wf_nodeid n -> reads_back read_nodeid (write_nodeid n) (norm_nodeid n).
Proof. intros n H. exact (codes_rt (codes_nodeid false n H)). Qed.
Print Assumptions c04_nodeid.
Example c04_nodeid_ex : wf_nodeid (NNum 3 70000) /\ norm_nodeid (NNum 3 70000) = NNum 3 70000 /\ norm_nodeid (NStr 0 []) = NNull.
Proof. unfold wf_nodeid, in_u. cbn. repeat split; lia. Qed.

Theorem c04_numeric_forms : forall ns id, in_u 2 ns -> in_u 4 id ->
  length (write_nodeid (NNum ns id)) =
  if (ns =? 0) && (id <=? 255) then 2%nat
  else if (ns <=? 255) && (id <=? 65535) then 4%nat else 7%nat.
Proof. exact write_nodeid_num_length. Qed.
Print Assumptions c04_numeric_forms.

(** No byte string shorter than the one written is read as the same numeric id. *)
Theorem c04_shortest : forall ns id e, in_u 2 ns -> in_u 4 id -> NNum ns id <> NNum 0 0 ->
  reads_back read_nodeid e (NNum ns id) -> (length (write_nodeid (NNum ns id)) <= length e)%nat.
Proof. exact nodeid_no_shorter. Qed.
Print Assumptions c04_shortest.
Example c04_shortest_ex : NNum 0 255 <> NNum 0 0 /\ reads_back read_nodeid [x01; x00; xff; x00] (NNum 0 255).
Proof. split; [discriminate|exact ex_longer_form]. Qed.

(** * C05 *)
Theorem c05_expanded_nodeid_partial : forall e, wf_exp e ->
  (e_node e = NNull -> e_uri e = [] /\ e_server e = 0) ->
  reads_back read_expnodeid (write_expnodeid e) (norm_exp e).
Proof. intros e H1 H2. exact (codes_rt (codes_expnodeid false e H1 H2)). Qed.
Print Assumptions c05_expanded_nodeid_partial.
Example c05_ex : wf_exp (mkExp 7 [x75] (NStr 2 [x61])) /\
  norm_exp (mkExp 7 [x75] (NStr 2 [x61])) = mkExp 7 [x75] (NStr 0 [x61]).
Proof. unfold wf_exp, wf_nodeid, in_u, len_ok. cbn. repeat split; lia. Qed.

(** With the null NodeId the URI and server index are written without their flag
    bits, so the reader loses them and leaves their bytes in the stream. *)
Theorem c05_null_nodeid_refuted : exists e, wf_exp e /\ e_node e = NNull /\
  exists left, left <> [] /\ read_expnodeid (write_expnodeid e) = Ok (mkExp 0 [] NNull) left.
Proof.
  exists (mkExp 1 [x75] NNull). split; [unfold wf_exp, in_u, len_ok; cbn; lia|]. split; [reflexivity|].
  eexists. split; [|vm_compute; reflexivity]. discriminate.
Qed.
Print Assumptions c05_null_nodeid_refuted.

(** * C06 *)
Theorem c06_qualified_name : forall q, wf_qname q -> reads_back read_qname (write_qname q) q.
Proof. intros q H. exact (codes_rt (codes_qname false q H)). Qed.
Print Assumptions c06_qualified_name.
Theorem c06_localized_text : forall l, wf_ltext l -> reads_back read_ltext (write_ltext l) l.
Proof. intros l H. exact (codes_rt (codes_ltext false l H)). Qed.
Print Assumptions c06_localized_text.
Theorem c06_status_code : forall c, in_u 4 c -> reads_back read_status (write_status c) c.
Proof. intros c H. exact (codes_rt (codes_status false c H)). Qed.
Print Assumptions c06_status_code.
Example c06_ex : wf_qname (mkQ 1 [x61]) /\ wf_ltext (mkLT [] [x65; x6e]) /\ in_u 4 0x80110000.
Proof. unfold wf_qname, wf_ltext, len_ok, in_u. cbn. lia. Qed.

(** * C07 *)
(** Every legal Variant: null, scalar, array, rectangular matrix, nested to any depth. *)
Theorem c07_variant : forall E v, wf E false TVar v ->
  exists e, encode E TVar v = Some e /\ reads_back (decode E TVar) e (norm v).
Proof. intros E v H. exact (roundtrip E TVar v eq_refl H). Qed.
Print Assumptions c07_variant.
Example c07_variant_ex : wf ex_env false TVar ex_variant /\ norm ex_variant = ex_variant.
Proof. split; [exact ex_variant_wf|reflexivity]. Qed.

(** The encoder also accepts ragged matrices and silently changes them... *)
Theorem c07_ragged_refuted : forall E, exists e,
  encode E TVar (VMat2 (KB BByte) [[VB BByte 1]; [VB BByte 2; VB BByte 3]]) = Some e /\
  decode E TVar e = Ok (VMat2 (KB BByte) [[VB BByte 1]; [VB BByte 2]]) [].
Proof. intros E. eexists. split; [vm_compute; reflexivity|vm_compute; reflexivity]. Qed.
Print Assumptions c07_ragged_refuted.
(** ...and loses the outer dimension of a three dimensional array with empty planes. *)
Theorem c07_empty_planes_refuted : forall E, exists e,
  encode E TVar (VMat3 (KB BByte) [[]; []]) = Some e /\
  decode E TVar e = Ok (VMat3 (KB BByte) []) [].
Proof. intros E. eexists. split; [vm_compute; reflexivity|vm_compute; reflexivity]. Qed.
Print Assumptions c07_empty_planes_refuted.

(** * C08 *)
Theorem c08_data_value : forall E v, wf E false TDV v ->
  exists e, encode E TDV v = Some e /\ reads_back (decode E TDV) e (norm v).
Proof. intros E v H. exact (roundtrip E TDV v eq_refl H). Qed.
Print Assumptions c08_data_value.
Example c08_ex : wf ex_env false TDV (VDV ex_variant 0x80000000 (mkTime 1700000000 155) 3 (mkTime 1700000000 0) 0).
Proof.
  pose proof ex_variant_wf as X. cbn [wf] in X |- *.
  repeat match goal with |- _ /\ _ => split end; try reflexivity; try exact X; try discriminate;
    unfold in_u, wf_time, in_s, time_in_int64_ticks; cbn; lia.
Qed.

(** * C09 *)
(** Only the empty DiagnosticInfo survives... *)
Theorem c09_empty_diagnostic_info_partial : forall E,
  reads_back (decode E TDiag) (write_diag (Diag None None None None None None None))
             (VDiag (Diag None None None None None None None)).
Proof.
  intros E. destruct (roundtrip E TDiag (VDiag (Diag None None None None None None None)) eq_refl
    (conj eq_refl eq_refl)) as (e & H1 & H2). cbn in H1. injection H1 as <-. exact H2.
Qed.
Print Assumptions c09_empty_diagnostic_info_partial.
(** ...because decoding any other one stores through a nil pointer. *)
Theorem c09_diagnostic_info_refuted : forall E, exists d e,
  encode E TDiag (VDiag d) = Some e /\ decode E TDiag e = Panic.
Proof.
  intros E. exists (Diag (Some 1) None None None None None None). eexists. split; [vm_compute; reflexivity|vm_compute; reflexivity].
Qed.
Print Assumptions c09_diagnostic_info_refuted.

(** * C10 *)
Theorem c10_registered_structure : forall E tid fields,
  registered E tid -> wzip (wf E false) (v_fields E tid) fields ->
  exists e, encode E TExt (VExt tid fields) = Some e /\
            reads_back (decode E TExt) e (VExt tid (map norm fields)).
Proof. intros E tid fields H1 H2. exact (roundtrip E TExt (VExt tid fields) eq_refl (conj eq_refl (conj H1 H2))). Qed.
Print Assumptions c10_registered_structure.
Example c10_ex : registered ex_env 7 /\ wf ex_env false TExt ex_ext.
Proof. split; [exact ex_registered|exact (ex_ext_wf false)]. Qed.

Theorem c10_unknown_type_skipped : forall E n body,
  wf_nodeid n -> (forall b, body = Some b -> len_ok b) ->
  v_type_of_id E (to_expanded (norm_nodeid n) (v_uris E)) = None ->
  reads_back (decode E TExt) (write_nodeid n ++ write_int 1 1 ++ write_bytearray body) VExtNil.
Proof. exact ext_unknown_skipped. Qed.
Print Assumptions c10_unknown_type_skipped.
Example c10_unknown_ex : v_type_of_id ex_env (to_expanded (norm_nodeid (NNum 1 9)) (v_uris ex_env)) = None.
Proof. reflexivity. Qed.

Theorem c10_xml_body_skipped : forall E n body, wf_nodeid n -> len_ok body ->
  reads_back (decode E TExt) (write_nodeid n ++ write_int 1 2 ++ write_xml body) VExtNil.
Proof. exact ext_xml_skipped. Qed.
Print Assumptions c10_xml_body_skipped.

(** For a known type the declared body length is ignored: a body longer than the
    structure (a newer version of the type) puts the stream out of step. *)
Theorem c10_known_type_length_ignored_refuted : exists E n body v left,
  v_type_of_id E (to_expanded n (v_uris E)) <> None /\ left <> [] /\
  decode E TExt (write_nodeid n ++ write_int 1 1 ++ write_bytearray (Some body)) = Ok v left.
Proof.
  exists ex_env, (NNum 1 5001), (write_int 4 1 ++ write_int 4 (-1) ++ write_int 4 0 ++ [x2a]).
  eexists. exists [x2a]. split; [|split]; [vm_compute; discriminate|discriminate|vm_compute; reflexivity].
Qed.
Print Assumptions c10_known_type_length_ignored_refuted.

(** * C11 *)
Theorem c11_structures : forall E fields vals, supported (TStruct fields) = true ->
  wzip (wf E false) fields vals ->
  exists e, encode E (TStruct fields) (VStruct vals) = Some e /\
            reads_back (decode E (TStruct fields)) e (VStruct (map norm vals)).
Proof. intros E fields vals H W. exact (roundtrip E (TStruct fields) (VStruct vals) H W). Qed.
Print Assumptions c11_structures.
Example c11_ex :
  let fields := [TB BNodeId; TPtr [TB BInt32]; TSlice (TStruct [TExt; TVar]); TBytes] in
  supported (TStruct fields) = true /\
  wzip (wf ex_env false) fields
    [VB BNodeId (NNum 0 631); VPtr [VB BInt32 7]; VSlice [VStruct [ex_ext; ex_variant]]; VBytes None].
Proof.
  pose proof (ex_ext_wf false) as X. pose proof ex_variant_wf as Y. split; [reflexivity|].
  cbn [wf wzip wall] in X, Y |- *.
  repeat match goal with |- _ /\ _ => split end; try exact I; try reflexivity; try apply X; try apply Y;
    try (unfold len_ok; cbn; lia); unfold bwf, wf_nodeid, in_u, in_s; cbn; lia.
Qed.

(** A structure with a Guid field cannot be encoded at all (uuid.UUID is not a
    Go struct, so the reflective codec has no case for it). *)
Theorem c11_unsupported_field_rejected : forall E fields vals,
  In TUnsupported fields -> encode E (TStruct fields) (VStruct vals) = None.
Proof.
  intros E fields vals H. unfold encode. cbn [supported].
  replace (forallb supported fields) with false; [reflexivity|].
  symmetry. apply not_true_iff_false. intros C. rewrite forallb_forall in C. discriminate (C _ H).
Qed.
Print Assumptions c11_unsupported_field_rejected.

(** * C12 *)
(** Missing: values containing a DataValue that carries a value (refuted below). *)
Theorem c12_truncated_partial : forall E t v, supported t = true -> wf E true t v ->
  exists e, encode E t v = Some e /\ refuses_truncated (decode E t) e.
Proof. exact truncated. Qed.
Print Assumptions c12_truncated_partial.
Example c12_ex : wf ex_env true (TStruct [TExt; TDV])
   (VStruct [ex_ext; VDV VNil 5 zero_time 0 zero_time 0]).
Proof.
  pose proof (ex_ext_wf true) as X. cbn [wf wzip] in X |- *.
  repeat match goal with |- _ /\ _ => split end; try exact I; try reflexivity; try apply X;
    unfold in_u, wf_time, in_s, time_in_int64_ticks; cbn; lia.
Qed.
(** A DataValue cut inside its value decodes successfully. *)
Theorem c12_data_value_refuted : forall E, exists v e p v', wf E false TDV v /\
  encode E TDV v = Some e /\ proper_prefix p e /\ decode E TDV p = Ok v' [] /\ v' <> norm v.
Proof.
  intros E. exists (VDV (VScalar (KB BInt32) (VB BInt32 5)) 0 zero_time 0 zero_time 0).
  eexists. exists [x01; x06; x05; x00; x00]. eexists. split; [|split; [|split; [|split]]].
  - cbn [wf]. repeat match goal with |- _ /\ _ => split end; try reflexivity; try discriminate;
      unfold in_u, wf_time, bwf, in_s, time_in_int64_ticks; cbn; lia.
  - vm_compute. reflexivity.
  - exists [x00]. split; [discriminate|reflexivity].
  - vm_compute. reflexivity.
  - vm_compute. discriminate.
Qed.
Print Assumptions c12_data_value_refuted.

(** * C13 *)
Theorem c13_prefix_free : forall E t v1 v2 e1 e2 tl, supported t = true ->
  wf E false t v1 -> wf E false t v2 ->
  encode E t v1 = Some e1 -> encode E t v2 = Some e2 -> e2 = e1 ++ tl ->
  tl = [] /\ norm v1 = norm v2.
Proof. exact prefix_free. Qed.
Print Assumptions c13_prefix_free.
Example c13_ex : wf ex_env false TVar ex_variant /\ wf ex_env false TVar VNil.
Proof. split; [exact ex_variant_wf|reflexivity]. Qed.

(** * C14 *)
(** Types without Variant, DataValue, DiagnosticInfo or ExtensionObject parts. *)
Theorem c14_static_types_partial : forall E t s, static t = true -> decode E t s <> Panic.
Proof. intros E t s H. exact (np_decode_static E t H s). Qed.
Print Assumptions c14_static_types_partial.
Example c14_static_ex : static (TStruct [TB BNodeId; TSlice (TStruct [TB BString; TBytes])]) = true.
Proof. reflexivity. Qed.
(** The decoder always answers (no endless recursion) for every type and input. *)
Theorem c14_decoder_total : forall E t s, decode E t s <> Fuel.
Proof. exact decode_no_fuel. Qed.
Print Assumptions c14_decoder_total.
(** Ten bytes that crash a reader of Variants: a matrix whose dimensions exceed its values. *)
Theorem c14_variant_refuted : forall E, exists s, decode E TVar s = Panic.
Proof.
  intros E. exists (write_int 1 (6 + 192) ++ write_int 4 0 ++ write_int 4 2 ++ write_int 4 1 ++ write_int 4 1).
  vm_compute. reflexivity.
Qed.
Print Assumptions c14_variant_refuted.
