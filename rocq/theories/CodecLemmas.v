(** Lemmas behind CodecProperties.v: statements in the vocabulary of CodecSpec,
    PrimSpec and ValueSpec. *)
From Coq Require Import ZArith List Bool Lia Strings.Byte.
From Coq Require Import ZifyBool ZifyNat ZifyN.
From Verif Require Import Bytes CodecSpec BytesProofs Prim PrimSpec PrimProofs Value ValueSpec ValueProofs.
Import ListNotations.
Open Scope Z_scope.
Ltac Zify.zify_post_hook ::= Z.div_mod_to_equations.

Lemma guid_inj a b : write_guid a = write_guid b -> a = b.
Proof.
  intros H. pose proof (codes_rt (codes_guid false a) []) as A.
  pose proof (codes_rt (codes_guid false b) []) as B. rewrite H, B in A. now injection A.
Qed.

(** ** NodeId: no shorter byte string is read as the same numeric id *)
Lemma read_uint_inv k s z rest : read_uint k s = Ok z rest ->
  exists p, s = p ++ rest /\ length p = k /\ z = le_dec p.
Proof.
  unfold read_uint, fmap, bind, read_full. destruct (_ <? _) eqn:C; [discriminate|].
  cbn. intros H. injection H as <- <-. rewrite Nat2Z.id.
  exists (firstn k s). split; [symmetry; apply firstn_skipn|]. split; [|reflexivity].
  apply firstn_length_le. lia.
Qed.

Lemma le_dec_lt p k : length p = k -> 0 <= le_dec p < 256 ^ Z.of_nat k.
Proof. intros <-. apply le_dec_range. Qed.

Lemma nodeid_no_shorter ns id e : in_u 2 ns -> in_u 4 id -> NNum ns id <> NNum 0 0 ->
  reads_back read_nodeid e (NNum ns id) -> (length (write_nodeid (NNum ns id)) <= length e)%nat.
Proof.
  intros Hns Hid Hnz H. specialize (H []). rewrite app_nil_r in H.
  rewrite write_nodeid_num_length by assumption.
  unfold read_nodeid in H. unfold bind at 1 in H.
  destruct (read_uint 1 e) as [b r| | |] eqn:R0; try discriminate.
  apply read_uint_inv in R0 as (p0 & -> & L0 & ->).
  destruct (le_dec p0 =? 0).
  { unfold bind in H. destruct (read_uint 1 r) as [i r1| | |] eqn:R1; try discriminate.
    apply read_uint_inv in R1 as (p1 & -> & L1 & ->). pose proof (le_dec_lt p1 1 L1) as B1. cbn in B1.
    destruct (le_dec p1 =? 0); [discriminate|]. cbn in H. injection H as <- <- ->.
    destruct ((0 =? 0) && (le_dec p1 <=? 255)) eqn:C; [|lia]. rewrite !app_length. cbn. lia. }
  destruct (le_dec p0 =? 1).
  { unfold bind in H. destruct (read_uint 1 r) as [i r1| | |] eqn:R1; try discriminate.
    apply read_uint_inv in R1 as (p1 & -> & L1 & ->). pose proof (le_dec_lt p1 1 L1) as B1. cbn in B1.
    destruct (read_uint 2 r1) as [j r2| | |] eqn:R2; try discriminate.
    apply read_uint_inv in R2 as (p2 & -> & L2 & ->). pose proof (le_dec_lt p2 2 L2) as B2. cbn in B2.
    cbn in H. injection H as <- <- ->. rewrite !app_length.
    destruct ((le_dec p1 =? 0) && (le_dec p2 <=? 255)); [lia|].
    destruct ((le_dec p1 <=? 255) && (le_dec p2 <=? 65535)) eqn:C; [lia|]. lia. }
  destruct (le_dec p0 =? 2).
  { unfold bind in H. destruct (read_uint 2 r) as [i r1| | |] eqn:R1; try discriminate.
    apply read_uint_inv in R1 as (p1 & -> & L1 & ->).
    destruct (read_uint 4 r1) as [j r2| | |] eqn:R2; try discriminate.
    apply read_uint_inv in R2 as (p2 & -> & L2 & ->).
    cbn in H. injection H as <- <- ->. rewrite !app_length.
    destruct ((le_dec p1 =? 0) && (le_dec p2 <=? 255)); [lia|].
    destruct ((le_dec p1 <=? 255) && (le_dec p2 <=? 65535)); lia. }
  exfalso. revert H.
  repeat match goal with |- context [le_dec p0 =? ?k] => destruct (le_dec p0 =? k) end; try discriminate;
  unfold bind; (destruct (read_uint 2 r) as [i r1| | |]; try discriminate);
  [destruct (read_string r1) as [j r2| | |]|destruct (read_guid r1) as [j r2| | |]|destruct (read_bytestring r1) as [j r2| | |]];
  try discriminate; match goal with |- context [if ?c then _ else _] => destruct c end; discriminate.
Qed.

(** ** ExtensionObjects that are skipped *)
Lemma ext_unknown_skipped E n body :
  wf_nodeid n -> (forall b, body = Some b -> len_ok b) ->
  v_type_of_id E (to_expanded (norm_nodeid n) (v_uris E)) = None ->
  reads_back (decode E TExt) (write_nodeid n ++ write_int 1 1 ++ write_bytearray body) VExtNil.
Proof.
  intros Hn Hb Ht. apply (@codes_rt _ true). apply (codes_decode E true _ _ _ 1). intros k Hk.
  destruct k as [|k]; [lia|]. cbn [dec supported dty]. unfold read_ext.
  eapply codes_bind; [apply codes_nodeid; exact Hn|]. cbn beta.
  eapply codes_bind; [apply codes_u8; lia|]. cbn [Z.eqb Pos.eqb]. rewrite Ht.
  eapply codes_bind_last; [apply codes_bytearray; exact Hb|]. apply codes_ret.
Qed.
Lemma ext_xml_skipped E n body : wf_nodeid n -> len_ok body ->
  reads_back (decode E TExt) (write_nodeid n ++ write_int 1 2 ++ write_xml body) VExtNil.
Proof.
  intros Hn Hb. apply (@codes_rt _ true). apply (codes_decode E true _ _ _ 1). intros k Hk.
  destruct k as [|k]; [lia|]. cbn [dec supported dty]. unfold read_ext.
  eapply codes_bind; [apply codes_nodeid; exact Hn|]. cbn beta.
  eapply codes_bind; [apply codes_u8; lia|]. cbn [Z.eqb Pos.eqb].
  eapply codes_bind_last; [apply codes_string; exact Hb|]. apply codes_ret.
Qed.

(** ** Packaged *)
Lemma roundtrip E t v : supported t = true -> wf E false t v ->
  exists e, encode E t v = Some e /\ reads_back (decode E t) e (norm v).
Proof. intros H W. destruct (encode_decode E false t v H W) as (e & H1 & H2). exists e. split; [exact H1|apply H2]. Qed.

Lemma truncated E t v : supported t = true -> wf E true t v ->
  exists e, encode E t v = Some e /\ refuses_truncated (decode E t) e.
Proof. intros H W. destruct (encode_decode E true t v H W) as (e & H1 & H2). exists e. split; [exact H1|apply H2; reflexivity]. Qed.

Lemma prefix_free E t v1 v2 e1 e2 tl : supported t = true -> wf E false t v1 -> wf E false t v2 ->
  encode E t v1 = Some e1 -> encode E t v2 = Some e2 -> e2 = e1 ++ tl ->
  tl = [] /\ norm v1 = norm v2.
Proof.
  intros Hs W1 W2 E1 E2 X.
  destruct (roundtrip E t v1 Hs W1) as (x1 & A1 & R1). rewrite E1 in A1. injection A1 as <-.
  destruct (roundtrip E t v2 Hs W2) as (x2 & A2 & R2). rewrite E2 in A2. injection A2 as <-.
  destruct (reads_back_inj _ _ _ _ _ tl R1 R2 X) as [A B]. split; [exact B|exact A].
Qed.

(** ** Environment and values used as examples and witnesses *)
Definition ex_uris : list bytes := [[x75; x30]; [x75; x31]].            (* "u0", "u1" *)
Definition ex_env : env := mkEnv ex_uris
  (fun tid => if tid =? 7 then Some (mkExp 0 [x75; x31] (NNum 0 5001)) else None)
  (fun id => match e_node id with NNum 0 5001 => if bytes_eqb (e_uri id) [x75; x31] then Some 7 else None | _ => None end)
  (fun _ => [TB BInt32; TB BString; TSlice (TB BUInt16)]).

Definition ex_ext : val := VExt 7 [VB BInt32 (-5); VB BString [x61; x62]; VSlice [VB BUInt16 1; VB BUInt16 65535]].
Definition ex_variant : val :=
  VArr KVar [VScalar (KB BInt32) (VB BInt32 (-7)); VNil; VScalar KExt ex_ext;
             VMat2 (KB BDouble) [[VB BDouble 1; VB BDouble 2]; [VB BDouble 3; VB BDouble 4]];
             VMat3 (KB BByte) [[[VB BByte 1]; [VB BByte 2]]];
             VArr KDV [VDV (VScalar (KB BString) (VB BString [x78])) 0 (mkTime 1700000000 123456700) 9 zero_time 0]].

Lemma ex_registered : registered ex_env 7.
Proof.
  split; [reflexivity|]. eexists. split; [reflexivity|].
  split; [unfold wf_nodeid, in_u; cbn; lia|]. vm_compute. reflexivity.
Qed.
Lemma ex_ext_wf s : wf ex_env s TExt ex_ext.
Proof.
  cbn. split; [reflexivity|]. split; [apply ex_registered|].
  repeat split; unfold len_ok, in_s, in_u; cbn; lia.
Qed.
Lemma ex_variant_wf : wf ex_env false TVar ex_variant.
Proof.
  unfold ex_variant. cbn [wf wall ty_of_kind].
  pose proof (ex_ext_wf false) as X. cbn [wf] in X.
  repeat match goal with |- _ /\ _ => split end; try exact I; try reflexivity; try discriminate; try exact X;
    try (unfold len_ok, in_s, in_u, wf_time, time_in_int64_ticks; cbn; lia);
    try (unfold len_ok; reflexivity);
    try (unfold bwf, in_s, in_u; cbn; lia).
  - exists 2%nat. repeat constructor.
  - exists 2%nat, 1%nat. split; [right; lia|]. repeat constructor.
  - unfold wf_time, in_s; cbn; lia.
  - unfold wf_time, in_s; cbn; lia.
Qed.
Lemma ex_longer_form : reads_back read_nodeid [x01; x00; xff; x00] (NNum 0 255).
Proof.
  change [x01; x00; xff; x00] with (write_int 1 1 ++ write_int 1 0 ++ write_int 2 255).
  apply (@codes_rt _ true). unfold read_nodeid.
  eapply codes_bind; [apply codes_u8; lia|]. cbn [Z.eqb Pos.eqb].
  eapply codes_bind; [apply codes_u8; lia|]. cbn beta.
  eapply codes_bind_last; [apply codes_u16; unfold in_u; cbn; lia|]. apply codes_ret.
Qed.
