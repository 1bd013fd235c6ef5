(** The writers produce the layout of WireSpec.v. *)
From Coq Require Import ZArith List Bool Lia Strings.Byte.
From Coq Require Import ZifyBool ZifyNat ZifyN.
From Verif Require Import Bytes CodecSpec BytesProofs Prim PrimSpec PrimProofs Value ValueSpec ValueProofs CodecLemmas WireSpec.
Import ListNotations.
Open Scope Z_scope.
Ltac Zify.zify_post_hook ::= Z.div_mod_to_equations.

Lemma numbers_app a b : numbers (a ++ b) = numbers a ++ numbers b.
Proof. apply map_app. Qed.

Transparent le_enc.
Lemma write_int_layout k z : numbers (write_int k z) = little_endian k z.
Proof.
  unfold write_int, little_endian, numbers. revert z.
  induction k as [|k IH]; intros z; [reflexivity|].
  cbn [le_enc map seq]. rewrite IH, Z_of_byte_of_Z. f_equal.
  - change (Z.of_nat 0) with 0. rewrite Z.pow_0_r, Z.div_1_r. reflexivity.
  - rewrite <- seq_shift, map_map. apply map_ext. intros i. f_equal.
    rewrite pow256_S, Z.div_div by (try lia; apply Z.pow_pos_nonneg; lia). reflexivity.
Qed.
Opaque le_enc.

Lemma le1 z : little_endian 1 z = [z mod 256].
Proof. unfold little_endian. cbn [seq map]. rewrite Z.pow_0_r, Z.div_1_r. reflexivity. Qed.

Lemma string_layout s : numbers (write_string s) = lay_string s.
Proof.
  unfold write_string, lay_string. destruct s as [|c s].
  - rewrite write_int_layout. reflexivity.
  - rewrite numbers_app, write_int_layout. reflexivity.
Qed.

Lemma guid_layout g : numbers (write_guid g) = lay_guid g.
Proof. destruct g. reflexivity. Qed.

Lemma nodeid_layout n : wf_nodeid n -> numbers (write_nodeid n) = lay_nodeid n.
Proof.
  unfold write_nodeid, lay_nodeid, lay_nodeid_with, wf_nodeid, in_u.
  destruct n as [|ns id|ns s|ns g|ns s]; intros H; change write_bytestring with write_string;
    rewrite ?numbers_app, ?write_int_layout, ?string_layout, ?guid_layout, ?le1; try reflexivity.
  cbn in H. replace ((ns =? 0) && (id <? 256)) with ((id <=? 255) && (ns =? 0)) by lia.
  replace ((ns <? 256) && (id <? 65536)) with ((id <=? 65535) && (ns <=? 255)) by lia.
  destruct ((id <=? 255) && (ns =? 0)) eqn:C1; [|destruct ((id <=? 65535) && (ns <=? 255)) eqn:C2];
    rewrite ?numbers_app, ?write_int_layout, ?le1; try reflexivity.
  - rewrite !Z.mod_small by lia. reflexivity.
  - rewrite !Z.mod_small by lia. reflexivity.
Qed.

Lemma exp_layout e : wf_exp e -> e_node e <> NNull -> numbers (write_expnodeid e) = lay_expnodeid e.
Proof.
  destruct e as [svr uri n]. unfold wf_exp. cbn [e_server e_uri e_node]. intros (Hs & Hu & Hn) Hnn.
  unfold write_expnodeid, lay_expnodeid, has_uri, exp_flags. cbn [e_server e_uri e_node].
  unfold wf_nodeid, in_u in *. cbn in Hs, Hn.
  replace (0 <? svr) with (negb (svr =? 0)) by lia.
  destruct (svr =? 0); destruct uri as [|u0 uri]; cbn [is_empty negb];
    cbv zeta;
    repeat match goal with |- context [Z.land ?a ?b =? 0] =>
      let c := eval vm_compute in (Z.land a b =? 0) in change (Z.land a b =? 0) with c end;
    cbn [negb];
    destruct n as [|ns id|ns s|ns g|ns s]; try congruence; cbn [with_ns lay_nodeid_with];
    change write_bytestring with write_string; change (0 =? 0) with true; change (0 <=? 255) with true;
    change (0 <? 256) with true; cbn [andb]; rewrite ?andb_true_r;
    try (replace (ns <? 256) with (ns <=? 255) by lia); try (replace (id <? 256) with (id <=? 255) by lia);
    try (replace (id <? 65536) with (id <=? 65535) by lia); rewrite ?(andb_comm (id <=? _) _);
    try match goal with |- context [if ?c then write_int _ _ ++ _ else _] => destruct c eqn:? end;
    try match goal with |- context [if ?c then write_int _ _ ++ _ else _] => destruct c eqn:? end;
    rewrite ?numbers_app, ?write_int_layout, ?string_layout, ?guid_layout, ?le1, ?app_nil_r;
    rewrite ?(Z.mod_small id) by lia; rewrite ?(Z.mod_small ns) by lia; rewrite <- ?app_assoc; reflexivity.
Qed.

Lemma ltext_layout l : numbers (write_ltext l) = lay_ltext l.
Proof.
  destruct l as [[|t tx] [|o lo]]; unfold write_ltext, lay_ltext, lt_mask; cbn [lt_text lt_locale is_empty];
    rewrite !numbers_app, write_int_layout, le1;
    repeat match goal with |- context [Z.land ?a ?b =? 0] =>
      let c := eval vm_compute in (Z.land a b =? 0) in change (Z.land a b =? 0) with c end;
    cbn [negb]; rewrite ?string_layout, ?app_nil_r; reflexivity.
Qed.

Lemma qname_layout q : numbers (write_qname q) = lay_qname q.
Proof. unfold write_qname, lay_qname. rewrite numbers_app, write_int_layout, string_layout. reflexivity. Qed.

Lemma tag_layout k : nth_error builtin_types (Z.to_nat (tag_of k - 1)) = Some k /\ 1 <= tag_of k <= 25.
Proof. destruct k as [t| | | |]; [destruct t|..]; (split; [reflexivity|cbn; lia]). Qed.

Lemma numbers_head b z : numbers (write_int 1 z ++ b) = (z mod 256) :: numbers b.
Proof. rewrite numbers_app, write_int_layout, le1. reflexivity. Qed.

Lemma lor_128 k : Z.lor (tag_of k) 128 mod 256 = tag_of k + 128.
Proof. destruct k as [t| | | |]; [destruct t|..]; reflexivity. Qed.
Lemma lor_192 k : Z.lor (tag_of k) 192 mod 256 = tag_of k + 192.
Proof. destruct k as [t| | | |]; [destruct t|..]; reflexivity. Qed.

Lemma some_eq {A} (a b : A) : Some a = Some b -> a = b.
Proof. congruence. Qed.

Lemma variant_header E v k bits e : shape_bits v = Some (k, bits) ->
  encode E TVar v = Some e -> exists r, numbers e = (tag_of k + bits) :: r.
Proof.
  unfold encode. cbn [supported].
  destruct v as [| | | | | | |k0 x|k0|k0 l|k0 m|k0 m| | | |]; cbn [shape_bits]; try discriminate; intros H; injection H as <- <-; cbn [enc].
  - destruct (scalar_kind k0); [|discriminate]. unfold oapp. destruct (enc _ _ x); [|discriminate].
    intros H. apply some_eq in H as <-. rewrite numbers_head.
    rewrite Z.mod_small by (pose proof (tag_layout k0); lia). rewrite Z.add_0_r. eauto.
  - destruct (array_kind k0); [|discriminate]. intros H. apply some_eq in H as <-.
    rewrite numbers_head, lor_128. eauto.
  - destruct (array_kind k0); [|discriminate]. unfold oapp. destruct (emap _ l); [|discriminate].
    intros H. apply some_eq in H as <-. rewrite <- app_assoc, numbers_head, lor_128. eauto.
  - destruct (array_kind k0); [|discriminate]. unfold oapp. destruct (emap _ m); [|discriminate].
    intros H. apply some_eq in H as <-. rewrite <- !app_assoc, numbers_head, lor_192. eauto.
  - destruct (array_kind k0); [|discriminate]. unfold oapp. destruct (emap _ m); [|discriminate].
    intros H. apply some_eq in H as <-. rewrite <- !app_assoc, numbers_head, lor_192. eauto.
Qed.

Lemma unknown_variant_refused E b s : let n := Z_of_byte b in
  25 < n mod 64 -> decode E TVar (b :: s) = Err s.
Proof.
  cbv zeta. intros H. unfold decode. cbn [length]. cbn [dec supported dty]. unfold read_variant.
  assert (R : read_uint 1 (b :: s) = Ok (Z_of_byte b) s).
  { unfold read_uint, fmap, bind, read_full. cbn [length]. destruct (_ <? _) eqn:C; [lia|].
    change (Z.to_nat (Z.of_nat 1)) with 1%nat. cbn [firstn skipn le_dec]. unfold ret. f_equal. lia. }
  unfold bind at 1. rewrite R. cbn beta zeta.
  change (Z.land (Z_of_byte b) 63) with (Z.land (Z_of_byte b) (Z.ones 6)). rewrite Z.land_ones by lia.
  change (2 ^ 6) with 64. pose proof (Z_of_byte_range b) as B.
  set (m := Z_of_byte b mod 64) in *.
  assert (Hm : 25 < m < 64) by lia. clearbody m.
  assert (K : kind_of_tag m = None).
  { assert (A : forallb (fun z => match kind_of_tag z with None => true | _ => false end)
                  (map (fun i => 26 + Z.of_nat i) (seq 0 38)) = true) by (vm_compute; reflexivity).
    rewrite forallb_forall in A. specialize (A m).
    destruct (kind_of_tag m); [|reflexivity]. discriminate A. apply in_map_iff.
    exists (Z.to_nat (m - 26)). split; [lia|]. apply in_seq. lia. }
  assert (Z0 : (m =? 0) = false) by lia. rewrite Z0, K.
  destruct (has _ 128); destruct (has _ 64); reflexivity.
Qed.

Lemma dv_layout E x st t1 p1 t2 p2 e : encode E TDV (VDV x st t1 p1 t2 p2) = Some e ->
  exists body, (x <> VNil -> exists eb, encode E TVar x = Some eb /\ body = numbers eb) /\
   numbers e = lay_dv body (negb (is_vnil x)) st t1 p1 t2 p2
                 (numbers (write_time t1)) (numbers (write_time t2)).
Proof.
  unfold encode. cbn [supported enc]. unfold lay_dv, dv_mask, some_if, oapp, bit. intros H.
  assert (Hb : exists eb, (if negb (is_vnil x) then enc E TVar x else Some []) = Some eb).
  { destruct (if negb (is_vnil x) then enc E TVar x else Some []) as [eb|]; [eauto|discriminate H]. }
  destruct Hb as (eb & Hb). rewrite Hb in H. apply some_eq in H as <-. exists (numbers eb). split.
  { intros Hx. exists eb. split; [|reflexivity]. destruct x; try congruence; exact Hb. }
  destruct (is_vnil x); cbn [negb] in *; [injection Hb as <-|];
    destruct (st =? 0), (time_is_zero t1), (p1 =? 0), (time_is_zero t2), (p2 =? 0); cbn [negb];
    rewrite !numbers_app, ?write_int_layout, le1; reflexivity.
Qed.

(** ExtensionObject: type id, 1, body length, body. *)
Lemma ext_layout E tid l e : encode E TExt (VExt tid l) = Some e ->
  exists id body, v_id_of_type E tid = Some id /\
    encode E (TStruct (v_fields E tid)) (VStruct l) = Some body /\
    numbers e = numbers (write_nodeid (to_nodeid id (v_uris E))) ++ [1]
                ++ little_endian 4 (Z.of_nat (length body)) ++ numbers body.
Proof.
  unfold encode. cbn [enc supported]. destruct (v_id_of_type E tid) as [id|]; [|discriminate].
  destruct (forallb supported (v_fields E tid)); [|discriminate].
  destruct (ezip (enc E) (v_fields E tid) l) as [body|]; [|discriminate].
  intros H. apply some_eq in H as <-. exists id, body. split; [reflexivity|]. split; [reflexivity|].
  rewrite !numbers_app, !write_int_layout. reflexivity.
Qed.

Lemma diag_ind' (P : diag -> Prop) :
  (forall a b c e f g h, (forall i, h = Some i -> P i) -> P (Diag a b c e f g h)) -> forall d, P d.
Proof.
  intros H. fix IH 1. intros [a b c e f g h]. apply H. destruct h as [i|].
  - intros j E. injection E as <-. apply IH.
  - discriminate.
Qed.

Lemma diag_mask_byte d : 0 <= diag_mask d < 256.
Proof. destruct d as [[] [] [] [] [] [] []]; cbn; lia. Qed.

Lemma ostep {A C} (r : reader A) w (o : option A) (k : unit -> reader C) rest :
  (forall z, o = Some z -> reads_back r (w z) z) ->
  bind (if is_some o then bind r (fun _ => panic) else ret tt) k (owrite w o ++ rest) =
  match o with Some _ => Panic | None => k tt rest end.
Proof.
  intros H. destruct o as [z|]; cbn [is_some owrite app]; [|reflexivity].
  unfold bind. rewrite (H z eq_refl rest). reflexivity.
Qed.

Lemma diag_crashes E d rest fuel : legal_diag d -> d <> empty_diag ->
  (length (write_diag d ++ rest) < fuel)%nat -> dec E fuel TDiag (write_diag d ++ rest) = Panic.
Proof.
  revert rest fuel. induction d as [a b c e f g h IH] using diag_ind'. intros rest fuel L N F. destruct fuel as [|fuel]; [lia|]. cbn [dec supported dty].
  pose proof (diag_mask_byte (Diag a b c e f g h)) as M. pose proof (codes_rt (codes_u8 false _ M)) as RM.
  cbn [write_diag] in *. rewrite <- !app_assoc in *. unfold read_diag.
  unfold bind at 1. rewrite RM. cbn beta.
  cbn [legal_diag] in L. destruct L as (Lz & Lf & Lg & Lh).
  set (m := diag_mask (Diag a b c e f g h)) in *.
  assert (H1 : has m 1 = is_some a) by (destruct a, b, c, e, f, g, h; reflexivity).
  assert (H2 : has m 2 = is_some b) by (destruct a, b, c, e, f, g, h; reflexivity).
  assert (H3 : has m 8 = is_some c) by (destruct a, b, c, e, f, g, h; reflexivity).
  assert (H4 : has m 4 = is_some e) by (destruct a, b, c, e, f, g, h; reflexivity).
  assert (H5 : has m 16 = is_some f) by (destruct a, b, c, e, f, g, h; reflexivity).
  assert (H6 : has m 32 = is_some g) by (destruct a, b, c, e, f, g, h; reflexivity).
  assert (H7 : has m 64 = is_some h) by (destruct a, b, c, e, f, g, h; reflexivity).
  rewrite H1, H2, H3, H4, H5, H6, H7. clearbody m. clear H1 H2 H3 H4 H5 H6 H7.
  rewrite ostep by (intros z ->; apply (codes_rt (codes_i32 false z (Lz z (or_introl eq_refl))))).
  destruct a as [z|]; [reflexivity|].
  rewrite ostep by (intros z ->; refine (codes_rt (codes_i32 false z (Lz z _))); tauto).
  destruct b as [z|]; [reflexivity|].
  rewrite ostep by (intros z ->; refine (codes_rt (codes_i32 false z (Lz z _))); tauto).
  destruct c as [z|]; [reflexivity|].
  rewrite ostep by (intros z ->; refine (codes_rt (codes_i32 false z (Lz z _))); tauto).
  destruct e as [z|]; [reflexivity|].
  rewrite ostep by (intros z ->; apply (codes_rt (codes_string false z (Lf z eq_refl)))).
  destruct f as [z|]; [reflexivity|].
  rewrite ostep by (intros z ->; apply (codes_rt (codes_status false z (Lg z eq_refl)))).
  destruct g as [z|]; [reflexivity|].
  destruct h as [i|]; [|exfalso; apply N; reflexivity].
  cbn [is_some]. cbn [owrite app] in F.
  assert (LF : (length (write_diag i ++ rest) < fuel)%nat).
  { rewrite app_length in F. unfold write_int in F. rewrite le_enc_length in F. lia. }
  assert (I : i = empty_diag \/ i <> empty_diag).
  { destruct i as [[] [] [] [] [] [] []]; (left; reflexivity) || (right; discriminate). }
  destruct I as [->|NI].
  - destruct fuel as [|fuel]; [lia|]. cbn [dec supported dty]. unfold read_diag.
    assert (R0 : read_uint 1 (write_diag empty_diag ++ rest) = Ok 0 rest).
    { cbn [write_diag empty_diag owrite app]. rewrite app_nil_r. exact (codes_rt (codes_u8 false 0 ltac:(lia)) rest). }
    unfold bind. rewrite R0. reflexivity.
  - unfold bind. rewrite (IH i eq_refl rest fuel Lh NI LF). reflexivity.
Qed.

Lemma diag_nonempty_crashes E d : legal_diag d -> d <> empty_diag ->
  encode E TDiag (VDiag d) = Some (write_diag d) /\ decode E TDiag (write_diag d) = Panic.
Proof.
  intros L N. split; [reflexivity|]. unfold decode.
  rewrite <- (app_nil_r (write_diag d)) at 2. apply diag_crashes; [exact L|exact N|].
  rewrite app_nil_r. lia.
Qed.

Lemma diag_layout d : numbers (write_diag d) = lay_diag d.
Proof.
  induction d as [a b c e f g h IH] using diag_ind'. cbn [write_diag lay_diag]. rewrite !numbers_app, write_int_layout, le1.
  assert (O : forall o, numbers (owrite (write_int 4) o) = diag_nums o 4).
  { intros [z|]; [apply write_int_layout|reflexivity]. }
  unfold write_status. rewrite !O.
  f_equal; [|f_equal; f_equal; f_equal; f_equal; f_equal].
  - destruct a, b, c, e, f, g, h; reflexivity.
  - destruct f as [s|]; [apply string_layout|reflexivity].
  - f_equal. destruct h as [i|]; [apply IH; reflexivity|reflexivity].
Qed.

