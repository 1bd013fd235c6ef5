(** Proofs about OpenSecureChannel messages. *)
From Coq Require Import ZArith List Bool Strings.Byte Lia ZifyBool ZifyNat ZifyN.
From Verif Require Import Tac Bytes Prim CodecSpec BytesProofs PrimProofs Chunk ChunkSpec ChunkProofs Asym AsymSpec.
Import ListNotations.
Open Scope Z_scope.

(** * Planning *)
Definition pad_hdr2 (c : aconf) : Z := if 256 <? a_cblk c then 2 else 1.
Definition ahdr (c : aconf) : Z := if a_sec c then 16 + Z.of_nat (length (a_uri c)) + 28 + Z.of_nat (length (a_cert c))
                                   else 16 + Z.of_nat (length (a_uri c)) + 8.

Lemma write_string_length s : Z.of_nat (length (write_string s)) = 4 + Z.of_nat (length s).
Proof. destruct s; unfold write_string, write_int; rewrite ?app_length, ?le_enc_length; cbn [length]; lia. Qed.
Lemma write_bytearray_length o : Z.of_nat (length (write_bytearray o)) = 4 + match o with Some s => Z.of_nat (length s) | None => 0 end.
Proof. destruct o; unfold write_bytearray, write_int; rewrite ?app_length, ?le_enc_length; lia. Qed.
Lemma head_length c size : length (a_thumb c) = 20%nat -> Z.of_nat (length (open_head c size)) = ahdr c.
Proof.
  intros T. unfold open_head, ahdr. rewrite !app_length, !le_enc_length, !Nat2Z.inj_add, write_string_length.
  destruct (a_sec c); rewrite app_length, Nat2Z.inj_add, !write_bytearray_length; lia.
Qed.

Lemma blocks_le c q x p : 1 <= p -> 1 <= c -> 0 <= x -> (x + p - 1) / p * c <= q -> x <= q / c * p.
Proof.
  intros P C X H. assert ((x + p - 1) / p <= q / c) by (apply Z.div_le_lower_bound; nia).
  pose proof (Z.div_mod (x + p - 1) p ltac:(lia)). pose proof (Z.mod_pos_bound (x + p - 1) p ltac:(lia)). nia.
Qed.
Lemma blocks_ge c q x p : 1 <= p -> 1 <= c -> 0 <= x -> x <= q / c * p -> (x + p - 1) / p * c <= q.
Proof.
  intros P C X H. assert ((x + p - 1) / p < q / c + 1) by (apply Z.div_lt_upper_bound; nia).
  pose proof (Z.mul_div_le q c ltac:(lia)). nia.
Qed.

Lemma plan_open_spec c send n : aconf_ok c -> 1 <= n ->
  let p := plan_open c send n in
  ap_hdr p = ahdr c /\
  (open_fits c send n <-> n <= ap_body p) /\ ap_body p <= n /\
  (open_fits c send n ->
    ap_body p = n /\ 0 <= ap_pad p /\ ap_chunk p <= send /\ ahdr c <= ap_chunk p /\
    if a_sec c then
      ap_pad p < pblk c /\ ap_padhdr p = pad_hdr2 c /\
      (8 + n + ap_pad p + ap_padhdr p + a_sig c) mod pblk c = 0 /\
      ap_chunk p = ahdr c + (8 + n + ap_pad p + ap_padhdr p + a_sig c) / pblk c * a_cblk c
    else ap_pad p = 0 /\ ap_chunk p = ahdr c + 8 + n).
Proof.
  intros (U & CE & T & CH & SG & RP & PB & CB) N p.
  assert (C1 : 1 <= a_cblk c) by (unfold pblk in PB; lia).
  unfold p, open_fits, plan_open. rewrite head_length by exact T. unfold ahdr. destruct (a_sec c) eqn:S.
  - cbv zeta. cbn [ap_hdr ap_body ap_pad ap_chunk ap_padhdr]. fold (pad_hdr2 c).
    set (h := 16 + Z.of_nat (length (a_uri c)) + 28 + Z.of_nat (length (a_cert c))).
    assert (H2 : 1 <= pad_hdr2 c <= 2) by (unfold pad_hdr2; destruct (256 <? a_cblk c); lia).
    assert (HH : 0 <= h) by lia.
    set (ph := pad_hdr2 c) in *. set (pb := pblk c) in *. set (cb := a_cblk c) in *. set (sg := a_sig c) in *.
    clearbody h ph. assert (PBC : 1 <= pb <= cb) by (unfold pb, cb, pblk in *; lia). clearbody pb cb sg.
    set (mb := Z.quot (send - h) cb * pb - seq_hdr - ph - sg). unfold seq_hdr in *.
    assert (FI : h + (8 + n + ph + sg + pb - 1) / pb * cb <= send <-> n <= mb).
    { destruct (Z_le_gt_dec h send) as [L|L].
      - unfold mb. rewrite Z.quot_div_nonneg by lia. split; intros H.
        + pose proof (blocks_le cb (send - h) (8 + n + ph + sg) pb ltac:(lia) ltac:(lia) ltac:(lia) ltac:(lia)). lia.
        + pose proof (blocks_ge cb (send - h) (8 + n + ph + sg) pb ltac:(lia) ltac:(lia) ltac:(lia) ltac:(lia)). lia.
      - split; intros H.
        + assert (0 <= (8 + n + ph + sg + pb - 1) / pb) by (apply Z.div_pos; lia). nia.
        + exfalso. assert (Z.quot (send - h) cb <= 0) by (apply Z.quot_le_upper_bound; lia). unfold mb in H. nia. }
    split; [reflexivity|]. split; [rewrite FI; destruct (n <? mb) eqn:E; lia|]. split; [destruct (n <? mb) eqn:E; lia|].
    intros F. pose proof (proj1 FI F) as NM.
    assert (BD : (if n <? mb then n else mb) = n) by (destruct (n <? mb) eqn:E; lia). rewrite BD.
    assert (MB : mb = Z.quot (send - h) cb * pb - 8 - ph - sg) by reflexivity. clearbody mb.
    set (x := 8 + n + ph + sg) in *. assert (XB : x = 8 + n + ph + sg) by reflexivity. clearbody x.
    assert (X0 : 0 <= x) by (clear - XB N H2 SG; lia). set (qq := Z.quot (send - h) cb) in *. clearbody qq.
    set (pad := if n <? mb then Z.rem (pb - Z.rem x pb) pb else 0).
    assert (PD : 0 <= pad < pb /\ (x + pad) mod pb = 0).
    { unfold pad. destruct (n <? mb) eqn:E.
      - clear - X0 PBC. assert (0 <= x mod pb < pb) by (apply Z.mod_pos_bound; lia).
        rewrite (Z.rem_mod_nonneg x pb) by lia. rewrite (Z.rem_mod_nonneg (pb - x mod pb) pb) by lia. split; [apply Z.mod_pos_bound; lia|].
        apply pad_multiple. lia.
      - split; [clear - PBC; lia|]. assert (x = qq * pb) by (clear - XB MB E NM; lia).
        rewrite Z.add_0_r, H. apply Z.mod_mul. clear - PBC; lia. }
    clearbody pad. destruct PD as [PD1 PD2].
    replace (8 + n + pad + ph + sg) with (x + pad) by (clear - XB; lia).
    assert (XP : (x + pad) / pb = (x + pb - 1) / pb).
    { apply Z.mod_divide in PD2 as (k & PK); [|clear - PBC; lia]. rewrite PK, Z.div_mul by (clear - PBC; lia).
      apply Z.div_unique with (r := x + pb - 1 - k * pb); [left; clear - PK PD1; lia|clear; lia]. }
    rewrite Z.quot_div_nonneg by (clear - X0 PD1 PBC; lia).
    assert (D0 : 0 <= (x + pad) / pb) by (apply Z.div_pos; clear - X0 PD1 PBC; lia).
    split; [reflexivity|]. split; [clear - PD1; lia|]. split.
    { rewrite XP. exact F. }
    split; [clear - D0 PBC; nia|]. split; [clear - PD1; lia|]. split; [reflexivity|]. split; [exact PD2|reflexivity].
  - cbv zeta. cbn [ap_hdr ap_body ap_pad ap_chunk ap_padhdr]. unfold seq_hdr.
    set (h := 16 + Z.of_nat (length (a_uri c)) + 8). assert (0 <= h) by lia. clearbody h.
    split; [reflexivity|]. destruct (n <? send - h - 8) eqn:E; repeat split; lia.
Qed.

(** * Blocks *)
Section Blocks.
  Variable enc : bytes -> bytes.
  Variable cb pb : Z.
  Hypothesis PB : 1 <= pb.
  Hypothesis ENC : forall x, Z.of_nat (length x) = pb -> Z.of_nat (length (enc x)) = cb.

  Lemma enc_blocks_spec fuel : forall prev rest k, 0 <= k -> Z.of_nat (length rest) = k * pb -> (length rest <= fuel)%nat ->
    Z.of_nat (length prev) = pb ->
    exists blocks, cut pb blocks rest /\ Z.of_nat (length blocks) = k /\
      enc_blocks enc fuel cb pb prev rest = Some (concat (map enc blocks)).
  Proof.
    induction fuel as [|f IH]; intros prev rest k K R F P.
    - destruct rest; [|cbn in F; lia]. exists []. cbn [length] in *. split; [split; constructor|]. split; [nia|reflexivity].
    - destruct rest as [|b0 rest0].
      { exists []. cbn [length] in *. split; [split; constructor|]. split; [nia|reflexivity]. }
      set (rest := b0 :: rest0) in *. assert (L1 : (1 <= length rest)%nat) by (cbn; lia). assert (1 <= k) by nia.
      cbn [enc_blocks]. change (match rest with [] => Some [] | _ => ?x end) with x. cbv zeta.
      assert (FL : length (firstn (Z.to_nat pb) rest) = Z.to_nat pb) by (rewrite firstn_length; nia).
      rewrite FL. rewrite (skipn_all2 prev) by lia. rewrite app_nil_r.
      set (blk := firstn (Z.to_nat pb) rest) in *.
      assert (BL : Z.of_nat (length blk) = pb) by lia. rewrite (ENC blk BL), Z.eqb_refl.
      destruct (IH blk (skipn (Z.to_nat pb) rest) (k - 1)) as (bs & (C1 & C2) & C3 & C4); [lia| | |exact BL|].
      { rewrite skipn_length. nia. }
      { rewrite skipn_length. lia. }
      exists (blk :: bs). unfold rest at 1. fold rest. rewrite C4. split; [|split; [cbn [length]; lia|reflexivity]].
      split; [cbn [concat]; rewrite C1; apply firstn_skipn|]. constructor; assumption.
  Qed.

  Lemma enc_length blocks : Forall (fun b => Z.of_nat (length b) = pb) blocks ->
    Z.of_nat (length (concat (map enc blocks))) = Z.of_nat (length blocks) * cb.
  Proof.
    induction 1 as [|b bs B BS IH]; [reflexivity|]. cbn [map concat length]. rewrite app_length, Nat2Z.inj_add, IH, (ENC b B). lia.
  Qed.

  Variable dec : bytes -> option bytes.
  Hypothesis CB : 1 <= cb.
  Hypothesis DEC : forall x, Z.of_nat (length x) = pb -> dec (enc x) = Some x.

  Lemma dec_blocks_spec stale blocks : Forall (fun b => Z.of_nat (length b) = pb) blocks ->
    forall fuel, (length blocks <= fuel)%nat ->
    dec_blocks dec fuel cb (Z.of_nat (length (concat (map enc blocks)))) (concat (map enc blocks) ++ stale) = Some (concat blocks).
  Proof.
    induction 1 as [|b bs B BS IH]; intros fuel F.
    - destruct fuel; reflexivity.
    - destruct fuel as [|f]; [cbn in F; lia|]. cbn [map concat length] in *. cbn [dec_blocks].
      rewrite app_length. destruct (_ <=? 0) eqn:E; [pose proof (ENC b B); lia|].
      rewrite <- app_assoc, firstn_app_exact, skipn_app_exact by (pose proof (ENC b B); lia).
      rewrite (DEC b B). replace (Z.of_nat (length (enc b) + length (concat (map enc bs))) - cb)
        with (Z.of_nat (length (concat (map enc bs)))) by (pose proof (ENC b B); lia).
      rewrite IH by lia. reflexivity.
  Qed.
End Blocks.

(** * The whole message *)
Section Message.
  Variable sign enc : bytes -> bytes.
  Variable dec : bytes -> option bytes.
  Variable verify : option bytes -> bytes -> bytes -> bool.
  Variable secure : bytes -> option bool.
  Variable rsize : option bytes -> rkey.
  Variable sd : side.
  Variable c : aconf.
  Notation cert := (sent_cert c).
  Notation thumb := (sent_thumb c).
  Hypothesis OK : aconf_ok c.
  Hypothesis G : good_rsa c sign enc dec verify (seen sd cert).
  Hypothesis SEC : secure (a_uri c) = Some (a_sec c).
  Hypothesis RS : a_sec c = true -> rsize (seen sd cert) = RsaKey (a_sig c).
  Variable cap send : Z.
  Hypothesis CAP : send <= cap.
  Hypothesis SB : 0 <= send < 2 ^ 32.

  Lemma open_head_reads size rest : 0 <= size < 2 ^ 32 ->
    open_header sd (open_head c size ++ rest) = Ok (t_open, size, a_uri c, seen sd cert, seen sd thumb) rest.
  Proof.
    clear - OK. intros S. destruct OK as (U & CE & T & CH & _). unfold open_head.
    assert (W : forall o, (forall v, o = Some v -> len_ok v) ->
      codes false (match sd with Server => read_bytearray | Client => fmap Some read_bytestring end) (write_bytearray o) (seen sd o)).
    { intros o O. destruct sd; unfold seen.
      - destruct o as [v|].
        + apply codes_fmap. unfold read_bytestring, write_bytearray.
          eapply codes_bind; [apply codes_len; apply O; reflexivity|]. cbn beta.
          destruct (_ <=? 0) eqn:E; [|apply codes_read_full; reflexivity].
          destruct v; [apply codes_ret|cbn [length] in E; lia].
        + apply codes_fmap. unfold read_bytestring, write_bytearray. eapply codes_bind_last; [apply codes_m1|]. apply codes_ret.
      - apply codes_bytearray. exact O. }
    assert (X : (if a_sec c then write_bytearray (Some (a_cert c)) ++ write_bytearray (Some (a_thumb c))
                 else write_bytearray None ++ write_bytearray None) = write_bytearray cert ++ write_bytearray thumb)
      by (unfold sent_cert, sent_thumb; destruct (a_sec c); reflexivity).
    rewrite X. clear X.
    assert (H : codes false (open_header sd)
      (le_enc 4 t_open ++ le_enc 4 size ++ le_enc 4 (a_chan c) ++ write_string (a_uri c) ++ write_bytearray cert ++ write_bytearray thumb)
      (t_open, size, a_uri c, seen sd cert, seen sd thumb)).
    { unfold open_header.
      eapply codes_bind; [apply codes_u32; unfold in_u; cbn; lia|]. cbn beta.
      eapply codes_bind; [apply codes_u32; exact S|]. cbn beta.
      eapply codes_bind; [apply codes_u32; exact CH|]. cbn beta.
      eapply codes_bind; [apply codes_string; exact U|]. cbn beta.
      eapply codes_bind; [apply W|]. { unfold sent_cert. intros v. destruct (a_sec c); [|discriminate]. intros Q; injection Q as <-. exact CE. }
      cbn beta. eapply codes_bind_last; [apply W|]. { unfold sent_thumb. intros v. destruct (a_sec c); [|discriminate]. intros Q; injection Q as <-. unfold len_ok. rewrite T. lia. }
      apply codes_ret. }
    exact (codes_rt H rest).
  Qed.
  Lemma first_fields size rest : 0 <= size < 2 ^ 32 ->
    exists r4 r8, read_uint 4 (open_head c size ++ rest) = Ok t_open r4 /\ read_uint 4 r4 = Ok size r8.
  Proof.
    clear. intros S. unfold open_head. rewrite <- !app_assoc.
    eexists. eexists. split; [exact (codes_rt (codes_u32 false t_open ltac:(unfold in_u; cbn; lia)) _)|].
    exact (codes_rt (codes_u32 false size S) _).
  Qed.

  Lemma open_message seq rid body stale : 0 <= rid < 2 ^ 32 -> body <> [] ->
    (a_max_size c = 0 \/ Z.of_nat (length body) <= a_max_size c) -> 0 <= a_max_size c ->
    open_fits c send (Z.of_nat (length body)) ->
    exists ch, send_open sign enc c cap send seq rid body = AWrite ch /\
      Z.of_nat (length ch) <= send /\ u32_at 4 ch = Z.of_nat (length ch) /\
      open_layout sign enc c (next_counter seq) rid body ch /\
      recv_open dec verify secure rsize sd (a_cblk c) ch stale = AOpened (a_uri c) (seen sd cert) (seen sd thumb) rid body.
  Proof.
    pose proof open_head_reads as OHR. pose proof first_fields as FFR.
    intros R NE LIM LIM0 FIT. set (n := Z.of_nat (length body)) in *.
    assert (N : 1 <= n) by (unfold n; destruct body; [congruence|cbn [length]; lia]).
    pose proof (plan_open_spec c send n OK N) as (P1 & _ & _ & P2). cbv zeta in P1, P2.
    specialize (P2 FIT). destruct P2 as (P2 & P3 & P4 & P5 & P6).
    unfold send_open. fold n. cbv zeta. set (p := plan_open c send n) in *. clearbody p.
    destruct OK as (U & CE & T & CH & SG & RP & PB & CB). destruct G as [G1 G2].
    destruct ((0 <? a_max_size c) && (a_max_size c <? n)) eqn:E0; [lia|]. destruct (n <=? 0) eqn:E1; [lia|].
    set (head := open_head c (ap_chunk p)).
    assert (HL : Z.of_nat (length head) = ahdr c) by (apply head_length; exact T).
    assert (AH : 24 <= ahdr c) by (unfold ahdr; destruct (a_sec c); lia).
    assert (RD : 8 + n + ahdr c <= ap_chunk p).
    { destruct (a_sec c); [|lia]. destruct P6 as (Q1 & Q2 & Q3 & Q4). rewrite Q4.
      apply Z.mod_divide in Q3 as (k & Q3); [|lia]. rewrite Q3, Z.div_mul by lia.
      assert (1 <= ap_padhdr p) by (rewrite Q2; unfold pad_hdr2; destruct (256 <? a_cblk c); lia).
      assert (K1 : 0 < k * pblk c) by lia. unfold pblk in *. clear - K1 Q3 H RP PB SG N P3. set (y := a_cblk c) in *. clearbody y. assert (0 <= k) by nia. nia. }
    assert (E2 : put cap (put cap (put cap (put cap (put cap (put cap [] (le_enc 4 t_open)) (le_enc 4 (ap_chunk p))) (le_enc 4 (a_chan c)))
              (write_string (a_uri c))) (write_bytearray (if a_sec c then Some (a_cert c) else None)))
              (write_bytearray (if a_sec c then Some (a_thumb c) else None)) = head).
    { assert (A : ahdr c <= cap) by lia. clear - A T. 
      pose proof (write_string_length (a_uri c)) as W1.
      pose proof (write_bytearray_length (if a_sec c then Some (a_cert c) else None)) as W2.
      pose proof (write_bytearray_length (if a_sec c then Some (a_thumb c) else None)) as W3.
      assert (WS : Z.of_nat (length (write_string (a_uri c))) + Z.of_nat (length (write_bytearray (if a_sec c then Some (a_cert c) else None)))
         + Z.of_nat (length (write_bytearray (if a_sec c then Some (a_thumb c) else None))) + 12 = ahdr c).
      { rewrite W1, W2, W3. unfold ahdr. destruct (a_sec c); lia. }
      puts ltac:(rewrite ?app_length, ?le_enc_length; cbn [length]; lia).
      unfold head, open_head. cbn [app]. rewrite <- !app_assoc. destruct (a_sec c); reflexivity. }
    rewrite E2. clear E2. rewrite HL, P1, Z.eqb_refl. cbn [negb].
    set (seqh := le_enc 4 (next_counter seq) ++ le_enc 4 rid).
    assert (SL : Z.of_nat (length seqh) = 8) by (unfold seqh; rewrite app_length, !le_enc_length; reflexivity).
    assert (E3 : put cap (put cap head (le_enc 4 (next_counter seq))) (le_enc 4 rid) = head ++ seqh).
    { assert (A : ahdr c + 8 <= cap) by lia. clear - A HL.
      puts ltac:(rewrite ?app_length, ?le_enc_length; cbn [length]; lia). unfold seqh. now rewrite <- app_assoc. }
    rewrite E3. clear E3.
    assert (E4 : firstn (Z.to_nat (ap_body p)) body = body) by (apply firstn_all2; unfold n in *; lia). rewrite E4. clear E4.
    rewrite (put_fits cap (head ++ seqh) body) by (rewrite app_length; unfold n in *; lia).
    rewrite (app_length (head ++ seqh)), Nat.eqb_refl. cbn [negb orb].
    destruct (Z.of_nat (length body) <? ap_body p) eqn:E5; [unfold n in *; lia|].
    destruct (0 <? n - ap_body p) eqn:E6; [lia|].
    assert (HB : firstn (Z.to_nat (ahdr c)) (head ++ seqh ++ body) = head) by (apply firstn_app_exact; lia).
    destruct (a_sec c) eqn:S.
    - destruct P6 as (Q1 & Q2 & Q3 & Q4).
      assert (PHC : ap_padhdr p = 1 /\ a_cblk c <= 256 \/ ap_padhdr p = 2 /\ 256 < a_cblk c)
        by (rewrite Q2; unfold pad_hdr2; destruct (256 <? a_cblk c) eqn:EE; lia).
      assert (PC : a_rsapad c + pblk c = a_cblk c) by (unfold pblk; lia).
      set (pad := ap_pad p) in *. set (ph := ap_padhdr p) in *.
      assert (PP : byte_of_Z pad :: repeat (byte_of_Z pad) (Z.to_nat pad) ++ (if ph =? 2 then [byte_of_Z (pad / 256)] else [])
                  = padding (a_cblk c) pad).
      { unfold padding. cbn [app]. f_equal. f_equal. destruct PHC as [[-> B]|[-> B]]; destruct (256 <? a_cblk c) eqn:EE; try lia; reflexivity. }
      rewrite PP. clear PP.
      assert (PL : Z.of_nat (length (padding (a_cblk c) pad)) = pad + ph).
      { unfold padding. cbn [app length]. rewrite app_length, repeat_length.
        destruct (256 <? a_cblk c) eqn:EE; cbn [length]; lia. }
      set (plain := seqh ++ body ++ padding (a_cblk c) pad).
      assert (LP : Z.of_nat (length plain) = 8 + n + pad + ph) by (unfold plain; rewrite !app_length; unfold n; lia).
      assert (XP : (8 + n + pad + ph + a_sig c) <= (8 + n + pad + ph + a_sig c) / pblk c * a_cblk c).
      { apply Z.mod_divide in Q3 as (k & Q3); [|lia]. rewrite Q3, Z.div_mul by lia.
        clear - Q3 PB RP PC N P3 PHC SG. set (y := a_cblk c) in *. set (z := pblk c) in *. clearbody y z. assert (0 < k * z) by lia. assert (0 <= k) by nia. clear - H H0 RP PC PB. nia. }
      assert (E7 : put cap ((head ++ seqh) ++ body) (padding (a_cblk c) pad) = head ++ plain).
      { rewrite put_fits by (rewrite !app_length; unfold n in *; lia). unfold plain. now rewrite <- !app_assoc. }
      rewrite E7. clear E7. destruct (G1 (head ++ plain)) as [G1a G1b]. rewrite G1a, Z.eqb_refl. cbn [negb].
      set (sg := sign (head ++ plain)) in *.
      rewrite (put_fits cap (head ++ plain) sg) by (rewrite app_length; lia).
      rewrite (app_length (head ++ plain)), Nat.eqb_refl. cbn [negb].
      assert (E8 : skipn (Z.to_nat (ahdr c)) ((head ++ plain) ++ sg) = plain ++ sg)
        by (rewrite <- app_assoc; apply skipn_app_exact; lia).
      assert (E9 : firstn (Z.to_nat (ahdr c)) ((head ++ plain) ++ sg) = head)
        by (rewrite <- app_assoc; apply firstn_app_exact; lia).
      rewrite E8, E9. clear E8 E9.
      pose proof Q3 as Q3'. apply Z.mod_divide in Q3' as (k & K); [|lia].
      assert (LPS : Z.of_nat (length (plain ++ sg)) = k * pblk c) by (rewrite app_length; lia).
      destruct (enc_blocks_spec enc (a_cblk c) (pblk c) PB (fun x X => proj1 (G2 x X))
         (length (head ++ plain) + length sg) (repeat x00 (Z.to_nat (pblk c))) (plain ++ sg) k)
        as (blocks & (C1 & C2) & C3 & C4); [assert (K1 : 0 < k * pblk c) by lia; clear - K1 PB; nia|exact LPS|rewrite !app_length; lia|rewrite repeat_length; lia|].
      rewrite C4. clear C4.
      pose proof (enc_length enc (a_cblk c) (pblk c) (fun x X => proj1 (G2 x X)) blocks C2) as EL.
      assert (OL : Z.of_nat (length (head ++ concat (map enc blocks))) = ap_chunk p).
      { rewrite app_length, Nat2Z.inj_add, HL, EL, Q4, K, Z.div_mul by lia. f_equal. f_equal. exact C3. }
      rewrite OL, Z.eqb_refl. cbn [negb]. destruct (cap <? ap_chunk p) eqn:E10; [lia|].
      assert (CHR : 0 <= ap_chunk p < 2 ^ 32) by lia.
      exists (head ++ concat (map enc blocks)). split; [reflexivity|]. rewrite OL. split; [exact P4|].
      split.
      { unfold head, open_head. rewrite <- !app_assoc. rewrite (four (le_enc 4 t_open) _ 4) by apply le_enc_length. apply le4. exact CHR. }
      split.
      { unfold open_layout. rewrite S, OL. exists pad, blocks. split; [lia|]. fold head seqh plain sg.
        split; [split; assumption|reflexivity]. }
      (* the receiver *)
      unfold recv_open. rewrite OL.
      destruct (FFR (ap_chunk p) (concat (map enc blocks)) CHR) as (r4 & r8 & F1 & F2).
      fold head in F1. rewrite F1, F2, Z.eqb_refl. cbn [negb]. change (t_open =? t_open) with true. cbn [negb].
      pose proof (OHR (ap_chunk p) (concat (map enc blocks)) CHR) as OH. fold head in OH. rewrite OH. clear OH F1 F2.
      rewrite SEC. 
      assert (CS : seen sd cert = Some (a_cert c)) by (unfold sent_cert, seen; rewrite S; destruct sd; reflexivity).
      rewrite (RS eq_refl).
      assert (KP : 1 <= k) by (assert (K1 : 0 < k * pblk c) by lia; clear - K1 PB; nia).
      assert (BL : (length blocks <= length (concat (map enc blocks)))%nat).
      { assert (C0 : 1 <= a_cblk c) by lia. clear - EL C0. unfold bytes in *. nia. }
      rewrite (dec_blocks_spec enc (a_cblk c) (pblk c) (fun x X => proj1 (G2 x X)) dec ltac:(lia) (fun x X => proj2 (G2 x X)) stale blocks C2)
        by (rewrite app_length; clear - BL; unfold bytes in *; lia).
      assert (HDR : (length (head ++ concat (map enc blocks)) - length (concat (map enc blocks)))%nat = length head)
        by (rewrite app_length; lia).
      rewrite HDR, firstn_app_exact by reflexivity. rewrite C1.
      set (msg := head ++ plain ++ sg). 
      assert (ML : Z.of_nat (length msg) = ahdr c + k * pblk c) by (unfold msg; rewrite app_length; lia).
      rewrite ML. rewrite app_length in LPS.
      destruct (ahdr c + k * pblk c - a_sig c <? 0) eqn:E12; [lia|].
      assert (MSG : msg = (head ++ plain) ++ sg) by (unfold msg; now rewrite <- app_assoc).
      assert (E13 : firstn (Z.to_nat (ahdr c + k * pblk c - a_sig c)) msg = head ++ plain)
        by (rewrite MSG; apply firstn_app_exact; rewrite app_length; clear - HL LP K; lia).
      assert (E14 : skipn (Z.to_nat (ahdr c + k * pblk c - a_sig c)) msg = sg)
        by (rewrite MSG; apply skipn_app_exact; rewrite app_length; clear - HL LP K; lia).
      rewrite E13, E14. clear E13 E14. rewrite G1b. cbn [negb].
      destruct (Z.of_nat (length (concat (map enc blocks))) <? 8) eqn:E15; [unfold bytes in *; rewrite EL, C3 in E15; clear - E15 XP K Q4 N P3 PHC SG PB; rewrite K, Z.div_mul in XP by lia; lia|].
      set (tail := skipn (length msg) _).
      change (if 256 <? a_cblk c then 2 else 1) with (pad_hdr2 c). rewrite <- Q2.
      destruct (ahdr c + k * pblk c - a_sig c - ph <? 0) eqn:E16; [lia|].
      assert (PT : exists a, padding (a_cblk c) pad = a ++ le_enc (Z.to_nat ph) pad /\ Z.of_nat (length a) = pad).
      { destruct (padding_tail pad ph ltac:(lia) ltac:(lia)) as (a & A1 & A2). exists a. split; [|exact A2].
        rewrite <- A1. unfold padding, padding_bytes. cbn [encrypted app]. f_equal. f_equal.
        destruct PHC as [[-> B]|[-> B]]; destruct (256 <? a_cblk c) eqn:EE; try lia; reflexivity. }
      destruct PT as (a & A1 & A2).
      assert (PV : le_dec (firstn (Z.to_nat ph) (skipn (Z.to_nat (ahdr c + k * pblk c - a_sig c - ph)) (msg ++ tail))) = pad).
      { assert (D : msg ++ tail = (head ++ seqh ++ body ++ a) ++ le_enc (Z.to_nat ph) pad ++ sg ++ tail).
        { unfold msg, plain. rewrite A1. now rewrite <- !app_assoc. }
        rewrite D, skipn_app_exact by (rewrite !app_length; clear - A2 SL HL K; unfold n in *; lia).
        rewrite firstn_app_exact by (rewrite le_enc_length; reflexivity).
        rewrite le_dec_enc. apply Z.mod_small. destruct PHC as [[-> B]|[-> B]]; cbn; lia. }
      rewrite PV. rewrite HL. unfold seq_hdr.
      destruct (ahdr c + k * pblk c - ahdr c - 8 - pad - ph - a_sig c <? 0) eqn:E17; [lia|].
      assert (E18 : u32_at (length head + 4) (msg ++ tail) = rid).
      { unfold msg, plain, seqh. rewrite <- !app_assoc. rewrite (app_assoc head).
        rewrite four; [apply le4; exact R|]. rewrite app_length, le_enc_length. reflexivity. }
      rewrite E18.
      assert (E19 : firstn (Z.to_nat (ahdr c + k * pblk c - ahdr c - 8 - pad - ph - a_sig c)) (skipn (length head + 8) (msg ++ tail)) = body).
      { unfold msg, plain. rewrite <- !app_assoc. rewrite (app_assoc head).
        rewrite skipn_app_exact by (rewrite app_length; clear - SL; lia). apply firstn_app_exact.
        clear - K LPS LP G1a. unfold n in *. lia. }
      rewrite E19. rewrite CS. destruct sd; reflexivity.
    - destruct P6 as (Q1 & Q2).
      set (out := head ++ seqh ++ body).
      assert (OUT : (head ++ seqh) ++ body = out) by (unfold out; now rewrite <- app_assoc). rewrite OUT.
      assert (OL : Z.of_nat (length out) = ap_chunk p) by (unfold out; rewrite !app_length; unfold n in *; lia).
      rewrite OL, Z.eqb_refl. cbn [negb]. assert (CHR : 0 <= ap_chunk p < 2 ^ 32) by lia.
      exists out. split; [reflexivity|]. rewrite OL. split; [exact P4|]. split.
      { unfold out, head, open_head. rewrite <- !app_assoc. rewrite (four (le_enc 4 t_open) _ 4) by apply le_enc_length. apply le4. exact CHR. }
      split. { unfold open_layout. rewrite S, OL. reflexivity. }
      unfold recv_open. rewrite OL.
      destruct (FFR (ap_chunk p) (seqh ++ body) CHR) as (r4 & r8 & F1 & F2).
      fold head in F1. fold out in F1. rewrite F1, F2, Z.eqb_refl. cbn [negb]. change (t_open =? t_open) with true. cbn [negb].
      pose proof (OHR (ap_chunk p) (seqh ++ body) CHR) as OH. fold head in OH. fold out in OH. rewrite OH.
      rewrite SEC. destruct (Z.of_nat (length (seqh ++ body)) <? 8) eqn:E12; [rewrite app_length in E12; lia|].
      f_equal.
      + unfold seqh. rewrite <- app_assoc. rewrite four; [apply le4; exact R|apply le_enc_length].
  Qed.

  Lemma open_refused seq rid body : body <> [] -> ~ open_fits c send (Z.of_nat (length body)) ->
    send_open sign enc c cap send seq rid body = AErr.
  Proof.
    intros NE NF. set (n := Z.of_nat (length body)) in *.
    assert (N : 1 <= n) by (unfold n; destruct body; [congruence|cbn [length]; lia]).
    pose proof (plan_open_spec c send n OK N) as (P1 & P2 & P3 & _). cbv zeta in P1, P2, P3.
    unfold send_open. fold n. cbv zeta. set (p := plan_open c send n) in *. clearbody p.
    destruct (_ && _); [reflexivity|]. destruct (n <=? 0) eqn:E1; [lia|].
    destruct (negb _); [reflexivity|]. destruct (_ || _); [reflexivity|].
    destruct (0 <? n - ap_body p) eqn:E2; [reflexivity|]. exfalso. apply NF, P2. lia.
  Qed.
End Message.
