(** Proofs about symmetric chunks. *)
From Coq Require Import ZArith List Bool Strings.Byte Lia ZifyBool ZifyNat ZifyN.
From Verif Require Import Tac Bytes CodecSpec BytesProofs Chunk ChunkSpec.
Import ListNotations.
Open Scope Z_scope.


(* ------------------------------------------------------------------ *)
(** * Planning *)

Lemma round_up_le b n m : 0 < b -> m mod b = 0 -> (round_up b n <= m <-> n <= m).
Proof.
  intros B M. unfold round_up. assert (E : m = m / b * b) by (pose proof (Z.div_mod m b); lia).
  set (q := m / b) in *. clearbody q. subst m. split; intros H.
  - pose proof (Z.div_mod (n + b - 1) b ltac:(lia)). pose proof (Z.mod_pos_bound (n + b - 1) b B). nia.
  - assert ((n + b - 1) / b < q + 1) by (apply Z.div_lt_upper_bound; nia). nia.
Qed.
Lemma round_up_ge b n : 0 < b -> n <= round_up b n /\ round_up b n mod b = 0 /\ round_up b n < n + b.
Proof.
  intros B. unfold round_up. split; [|split].
  - pose proof (Z.div_mod (n + b - 1) b ltac:(lia)). pose proof (Z.mod_pos_bound (n + b - 1) b B). nia.
  - apply Z.mod_mul. lia.
  - pose proof (Z.div_mod (n + b - 1) b ltac:(lia)). pose proof (Z.mod_pos_bound (n + b - 1) b B). nia.
Qed.

(** max_body is the largest body that fits. *)
Lemma max_body_spec m sig block send n : 1 <= block -> 16 <= send ->
  (fits m sig block send n <-> n <= max_body m sig block send).
Proof.
  intros B S. unfold fits, max_body, plain_hdr, seq_hdr. destruct m; [lia|lia|].
  rewrite Z.quot_div_nonneg by lia. set (q := (send - 16) / block).
  assert (Q : q * block <= send - 16 < q * block + block).
  { subst q. pose proof (Z.div_mod (send - 16) block ltac:(lia)). pose proof (Z.mod_pos_bound (send - 16) block ltac:(lia)). nia. }
  assert (R : round_up block (8 + n + pad_hdr block + sig) <= q * block <-> 8 + n + pad_hdr block + sig <= q * block)
    by (apply round_up_le; [lia|apply Z.mod_mul; lia]).
  pose proof (round_up_ge block (8 + n + pad_hdr block + sig) ltac:(lia)) as (U1 & U2 & U3).
  assert (E : round_up block (8 + n + pad_hdr block + sig) = round_up block (8 + n + pad_hdr block + sig) / block * block)
    by (pose proof (Z.div_mod (round_up block (8 + n + pad_hdr block + sig)) block ltac:(lia)); lia).
  set (ru := round_up block (8 + n + pad_hdr block + sig)) in *. clearbody ru.
  set (k := ru / block) in *. clearbody k. split; intros H; [|lia].
  assert (k <= q) by nia. nia.
Qed.
Lemma fits_one m sig block send : one_chunk_fits m sig block send <-> fits m sig block send 1.
Proof. unfold one_chunk_fits, fits. destruct m; reflexivity. Qed.
Lemma pad_hdr_cases b : pad_hdr b = 1 /\ b <= 256 \/ pad_hdr b = 2 /\ 256 < b.
Proof. unfold pad_hdr. destruct (256 <? b) eqn:E; lia. Qed.
Lemma fits_min m sig block send : 1 <= block -> 0 <= sig -> one_chunk_fits m sig block send ->
  1 <= max_body m sig block send /\ 24 < send.
Proof.
  intros B S H. assert (24 < send).
  { unfold one_chunk_fits in H. destruct m; [lia|lia|].
    pose proof (round_up_ge block (8 + 1 + pad_hdr block + sig) ltac:(lia)). pose proof (pad_hdr_cases block). lia. }
  split; [|assumption]. apply max_body_spec; [lia|lia|]. apply fits_one, H.
Qed.

Lemma multiple_le b y q : 0 < b -> y mod b = 0 -> y < q * b + b -> y <= q * b.
Proof. intros B Y L. apply Z.mod_divide in Y as (k & ->); [|lia]. assert (k <= q) by nia. nia. Qed.
Lemma pad_multiple b x : 0 < b -> (x + (b - x mod b) mod b) mod b = 0.
Proof.
  intros B. rewrite Zplus_mod_idemp_r. replace (x + (b - x mod b)) with ((x / b + 1) * b)
    by (pose proof (Z.div_mod x b ltac:(lia)); lia). apply Z.mod_mul. lia.
Qed.

Lemma plan_spec m sig block send count : 1 <= block <= 65536 -> 0 <= sig -> one_chunk_fits m sig block send -> 0 < count ->
  let p := plan_chunk m sig block send count in
  p_body p = Z.min count (max_body m sig block send) /\ 1 <= p_body p <= count /\
  p_padhdr p = (if encrypted m then pad_hdr block else 0) /\ 0 <= p_pad p < Z.max 1 block /\
  (encrypted m = false -> p_pad p = 0) /\
  p_chunk p = 24 + p_body p + p_pad p + p_padhdr p + sig /\ p_chunk p <= send /\
  (m = MSignEnc -> (p_chunk p - 16) mod block = 0).
Proof.
  intros B S F C p. destruct (fits_min m sig block send ltac:(lia) S F) as (M & SD).
  destruct m; cbn [encrypted].
  1, 2: unfold p, plan_chunk; cbn [p_body p_pad p_padhdr p_chunk]; unfold max_body, plain_hdr, seq_hdr in *;
    destruct (count <? _) eqn:E; repeat split; try lia; discriminate.
  pose proof (pad_hdr_cases block) as PH.
  assert (T : forall x, 0 <= x -> Z.rem (block - Z.rem x block) block = (block - x mod block) mod block).
  { intros x X. rewrite Z.rem_mod_nonneg by lia. pose proof (Z.mod_pos_bound x block ltac:(lia)).
    rewrite Z.rem_mod_nonneg by lia. reflexivity. }
  assert (MB : max_body MSignEnc sig block send + 8 + pad_hdr block + sig = (send - 16) / block * block).
  { unfold max_body, plain_hdr, seq_hdr. rewrite Z.quot_div_nonneg by lia. lia. }
  assert (MB2 : (send - 16) / block * block <= send - 16).
  { pose proof (Z.div_mod (send - 16) block ltac:(lia)). pose proof (Z.mod_pos_bound (send - 16) block ltac:(lia)). nia. }
  unfold p, plan_chunk; cbn [p_body p_pad p_padhdr p_chunk]; unfold plain_hdr, seq_hdr.
  set (mb := max_body MSignEnc sig block send) in *. clearbody mb.
  destruct (count <? mb) eqn:E.
  - rewrite T by lia. set (x := 8 + count + pad_hdr block + sig).
    pose proof (Z.mod_pos_bound (block - x mod block) block ltac:(lia)) as R1.
    assert (D : (x + (block - x mod block) mod block) mod block = 0) by (apply pad_multiple; lia).
    assert (L : x + (block - x mod block) mod block <= (send - 16) / block * block).
    { apply multiple_le; [lia|exact D|]. clear D T. subst x. lia. }
    assert (X : x = 8 + count + pad_hdr block + sig) by reflexivity. clearbody x.
    set (pad := (block - x mod block) mod block) in *. clearbody pad. clear T. repeat split; try lia.
    intros _. replace (16 + 8 + count + pad + pad_hdr block + sig - 16) with (x + pad) by lia. exact D.
  - repeat split; try lia. intros _. replace (16 + 8 + mb + 0 + pad_hdr block + sig - 16) with ((send - 16) / block * block) by lia.
    apply Z.mod_mul. lia.
Qed.

(* ------------------------------------------------------------------ *)
(** * Building and opening one chunk *)

Lemma put_fits cap s p : Z.of_nat (length s + length p) <= cap -> put cap s p = s ++ p.
Proof. intros H. unfold put. rewrite firstn_all2; [reflexivity|lia]. Qed.

(** rewrite the writes from the inside out *)
Ltac puts tac :=
  repeat match goal with
  | |- context [put ?c ?a ?b] =>
      lazymatch a with context [put _ _ _] => fail | _ => rewrite (put_fits c a b) by tac end
  end.

Lemma firstn_app_exact {A} (a b : list A) n : n = length a -> firstn n (a ++ b) = a.
Proof. intros ->. rewrite firstn_app, Nat.sub_diag, firstn_all. cbn. apply app_nil_r. Qed.
Lemma skipn_app_exact {A} (a b : list A) n : n = length a -> skipn n (a ++ b) = b.
Proof. intros ->. rewrite skipn_app, Nat.sub_diag, skipn_all. reflexivity. Qed.

Lemma le4 z : 0 <= z < 2 ^ 32 -> le_dec (le_enc 4 z) = z.
Proof. intros H. rewrite le_dec_enc. apply Z.mod_small. cbn. cbn in H. lia. Qed.

Lemma header_length f s c t : length (header f s c t) = 16%nat.
Proof. unfold header. rewrite !app_length, !le_enc_length. reflexivity. Qed.

Lemma four (a b : bytes) k : length a = k -> forall z, u32_at k (a ++ le_enc 4 z ++ b) = le_dec (le_enc 4 z).
Proof.
  intros L z. unfold u32_at. rewrite skipn_app_exact by (symmetry; exact L).
  rewrite firstn_app_exact by (rewrite le_enc_length; reflexivity). reflexivity.
Qed.
Lemma header_fields f s c t r : 0 <= s < 2 ^ 32 -> 0 <= c < 2 ^ 32 ->
  u32_at 0 (header f s c t ++ r) = (if f then t_final else t_chunk) /\
  u32_at 4 (header f s c t ++ r) = s /\ u32_at 8 (header f s c t ++ r) = c.
Proof.
  intros S C. unfold header. rewrite <- !app_assoc. split; [|split].
  - etransitivity; [apply (four [] _ 0 eq_refl)|]. destruct f; reflexivity.
  - rewrite (four (le_enc 4 _) _ 4) by apply le_enc_length. apply le4, S.
  - rewrite (app_assoc (le_enc 4 (if f then t_final else t_chunk))).
    rewrite (four _ _ 8) by (rewrite app_length, !le_enc_length; reflexivity). apply le4, C.
Qed.

Lemma padding_length m pad hdr : 0 <= pad -> (hdr = 0 /\ encrypted m = false \/ (hdr = 1 \/ hdr = 2) /\ encrypted m = true) ->
  Z.of_nat (length (padding_bytes m pad hdr)) = if encrypted m then pad + hdr else 0.
Proof.
  intros P H. unfold padding_bytes. destruct (encrypted m) eqn:E; [|reflexivity].
  destruct H as [[_ H]|[H _]]; [discriminate|].
  cbn [length]. rewrite app_length, repeat_length. destruct H as [-> | ->]; cbn [Z.eqb Pos.eqb length]; lia.
Qed.

(** The last [hdr] bytes of the padding announce its size. *)
Lemma padding_tail pad hdr : 0 <= pad < 65536 -> (hdr = 1 /\ pad < 256 \/ hdr = 2) ->
  exists a, padding_bytes MSignEnc pad hdr = a ++ le_enc (Z.to_nat hdr) pad /\ Z.of_nat (length a) = pad.
Proof.
  intros P H. unfold padding_bytes. cbn [encrypted].
  exists (repeat (byte_of_Z pad) (Z.to_nat pad)). rewrite repeat_length. split; [|lia].
  assert (R : forall n, byte_of_Z pad :: repeat (byte_of_Z pad) n = repeat (byte_of_Z pad) n ++ [byte_of_Z pad]).
  { induction n as [|n IH]; [reflexivity|]. cbn [repeat app]. f_equal. exact IH. }
  destruct H as [[-> _]| ->].
  - change (1 =? 2) with false. cbn iota. rewrite app_nil_r. rewrite R. reflexivity.
  - change (2 =? 2) with true. cbn iota. rewrite app_comm_cons, R, <- app_assoc. reflexivity.
Qed.

Section Crypto.
  Variable sign enc dec : bytes -> bytes.

  Variable s r : conf.
  Hypothesis P : peers s r.
  Hypothesis OK : conf_ok s.
  Hypothesis G : good_crypto (c_sig s) (c_block s) sign enc dec.
  Variable cap send : Z.
  Hypothesis CAP : send <= cap.
  Hypothesis SB : 0 <= send < 2 ^ 32.
  Hypothesis FIT : one_chunk_fits (c_mode s) (c_sig s) (c_block s) send.

  Lemma build_open seq rid count part final : 0 < count -> 0 <= rid < 2 ^ 32 ->
    let p := plan_chunk (c_mode s) (c_sig s) (c_block s) send count in
    Z.of_nat (length part) = p_body p ->
    exists ch, build_chunk sign enc s cap seq rid p final part = Some ch /\
      good_chunk sign enc dec s r send rid seq final part ch /\
      Z.of_nat (length ch) = p_chunk p.
  Proof.
    intros C R p L. destruct OK as (O1 & O2 & O3 & O4 & O5 & O6 & O7). destruct G as [G1 G2].
    destruct P as (P1 & P2 & P3 & P4 & P5).
    destruct (plan_spec (c_mode s) (c_sig s) (c_block s) send count O2 ltac:(nlia) FIT C)
      as (Q0 & Q1 & Q2 & Q3 & Q4 & Q5 & Q6 & Q7). fold p in Q0, Q1, Q2, Q3, Q4, Q5, Q6, Q7.
    clearbody p.
    assert (PH : p_padhdr p = 0 /\ encrypted (c_mode s) = false \/ (p_padhdr p = 1 \/ p_padhdr p = 2) /\ encrypted (c_mode s) = true).
    { rewrite Q2. destruct (encrypted (c_mode s)); [right|left]; split; auto. pose proof (pad_hdr_cases (c_block s)); nlia. }
    pose proof (padding_length (c_mode s) (p_pad p) (p_padhdr p) ltac:(nlia) PH) as PL.
    set (padb := padding_bytes (c_mode s) (p_pad p) (p_padhdr p)) in *.
    assert (PLE : Z.of_nat (length padb) = p_pad p + p_padhdr p).
    { rewrite PL. destruct (encrypted (c_mode s)); [reflexivity|]. rewrite (Q4 eq_refl), Q2. reflexivity. }
    set (h := header final (p_chunk p) (c_chan s) (c_token s)).
    assert (HL : length h = 16%nat) by apply header_length.
    set (body := le_enc 4 seq ++ le_enc 4 rid ++ part ++ padb).
    assert (BL : Z.of_nat (length body) = 8 + p_body p + p_pad p + p_padhdr p).
    { subst body. rewrite !app_length, !le_enc_length. nlia. }
    set (plain := h ++ body).
    set (sg := if secured (c_mode s) then sign plain else []).
    assert (SL : Z.of_nat (length sg) = c_sig s).
    { subst sg. destruct (secured (c_mode s)) eqn:E; [apply G1|]. rewrite O7; [reflexivity|]. destruct (c_mode s); try discriminate; reflexivity. }
    set (full := h ++ body ++ sg).
    assert (FL : Z.of_nat (length full) = p_chunk p).
    { subst full. rewrite !app_length. nlia. }
    assert (BUILD : build_chunk sign enc s cap seq rid p final part =
      Some (if encrypted (c_mode s) then h ++ enc (body ++ sg) else full)).
    { unfold build_chunk. cbv zeta.
      assert (H16 : put cap (put cap (put cap (put cap [] (le_enc 4 (if final then t_final else t_chunk)))
                 (le_enc 4 (p_chunk p))) (le_enc 4 (c_chan s))) (le_enc 4 (c_token s)) = h).
      { assert (24 <= cap) by nlia. clear - H. puts ltac:(rewrite ?app_length, ?le_enc_length; cbn [length]; nlia).
        unfold h, header. cbn [app]. now rewrite <- !app_assoc. }
      rewrite H16, HL.
      assert (E0 : match c_side s with Client => false | Server => negb (Z.of_nat 16 =? plain_hdr) end = false) by (destruct (c_side s); reflexivity).
      rewrite E0. clear E0 H16.
      set (s2 := h ++ le_enc 4 seq ++ le_enc 4 rid).
      assert (E2 : put cap (put cap h (le_enc 4 seq)) (le_enc 4 rid) = s2).
      { assert (24 <= cap) by nlia. clear - H HL. puts ltac:(rewrite ?app_length, ?le_enc_length, ?HL; nlia).
        unfold s2. now rewrite <- app_assoc. }
      rewrite E2. assert (L2 : length s2 = 24%nat) by (unfold s2; rewrite !app_length, HL, !le_enc_length; reflexivity).
      rewrite (put_fits cap s2 part) by nlia.
      rewrite app_length, Nat.eqb_refl. cbn [negb].
      fold padb. rewrite (put_fits cap (s2 ++ part) padb) by (rewrite app_length; nlia).
      assert (E4 : (s2 ++ part) ++ padb = plain).
      { unfold s2, plain, body. now rewrite <- !app_assoc. }
      rewrite E4.
      assert (PLN : Z.of_nat (length plain) = 24 + p_body p + p_pad p + p_padhdr p)
        by (unfold plain; rewrite app_length; nlia).
      assert (E5 : (if secured (c_mode s) then put cap plain (sign plain) else plain) = full).
      { assert (D : full = plain ++ sg) by (unfold full, plain; now rewrite <- app_assoc). rewrite D. unfold sg.
        unfold sg in SL. destruct (secured (c_mode s)); [apply put_fits; nlia|now rewrite app_nil_r]. }
      rewrite E5.
      assert (E6 : match c_side s with
                   | Client => encrypted (c_mode s) && negb (Z.rem (Z.of_nat (length full) - plain_hdr) (c_block s) =? 0)
                   | Server => secured (c_mode s) && negb (Nat.eqb (length full) (length plain + length (sign plain)))
                   end = false).
      { destruct (c_side s).
        - destruct (encrypted (c_mode s)) eqn:E; [|reflexivity]. rewrite FL. unfold plain_hdr.
          assert (M : c_mode s = MSignEnc) by (destruct (c_mode s); try discriminate; reflexivity).
          rewrite Z.rem_mod_nonneg by nlia. rewrite (Q7 M). reflexivity.
        - destruct (secured (c_mode s)) eqn:E; [|reflexivity]. unfold full, plain, sg. rewrite ?E.
          cbn [andb]. rewrite !app_length.
          assert (length (sign (h ++ body)) = Z.to_nat (c_sig s)) by (pose proof (G1 (h ++ body)); nlia).
          fold plain. assert (X : Nat.eqb (length h + (length body + length (sign plain))) (length h + length body + length (sign plain)) = true)
            by (apply Nat.eqb_eq; nlia). rewrite X. reflexivity. }
      rewrite E6. destruct (encrypted (c_mode s)); [|reflexivity].
      unfold full. rewrite firstn_app_exact, skipn_app_exact by (rewrite HL; reflexivity). reflexivity. }
    eexists. split; [exact BUILD|].
    set (ch := if encrypted (c_mode s) then h ++ enc (body ++ sg) else full).
    assert (WB : encrypted (c_mode s) = true -> Z.of_nat (length (body ++ sg)) mod c_block s = 0).
    { intros E. assert (M : c_mode s = MSignEnc) by (destruct (c_mode s); try discriminate; reflexivity).
      rewrite <- (Q7 M). f_equal. rewrite app_length. nlia. }
    assert (CL : Z.of_nat (length ch) = p_chunk p).
    { unfold ch. destruct (encrypted (c_mode s)) eqn:E; [|exact FL].
      rewrite app_length. rewrite (proj2 (G2 _ (WB eq_refl))). rewrite app_length. nlia. }
    assert (CD : (if encrypted (c_mode s) then firstn 16 ch ++ dec (skipn 16 ch) else ch) = full).
    { unfold ch. destruct (encrypted (c_mode s)) eqn:E; [|reflexivity].
      rewrite firstn_app_exact, skipn_app_exact by (rewrite HL; reflexivity).
      rewrite (proj1 (G2 _ (WB eq_refl))). reflexivity. }
    assert (CH : exists y, ch = h ++ y).
    { unfold ch. destruct (encrypted (c_mode s)); [eexists; reflexivity|]. unfold full. eexists; reflexivity. }
    destruct CH as (y & CH).
    assert (HF : u32_at 0 ch = (if final then t_final else t_chunk) /\ u32_at 4 ch = p_chunk p /\ u32_at 8 ch = c_chan s).
    { assert (0 <= p_chunk p < 2 ^ 32) by (clear - SB Q1 Q3 Q5 Q6 SL PLE; nlia). rewrite CH. apply header_fields; assumption. }
    destruct HF as (HF0 & HF4 & HF8).
    split; [|exact CL].
    unfold good_chunk. repeat split.
    - unfold open_chunk. rewrite HF0, HF4, HF8, CL, Z.eqb_refl, <- P4, Z.eqb_refl, <- P1, <- P3. cbn [negb].
      match goal with |- context [open_body sign r ?x] => replace x with full by (symmetry; exact CD) end.
      assert (T : negb ((( if final then t_final else t_chunk) =? t_final) || ((if final then t_final else t_chunk) =? t_chunk)
         || match c_side r with Client => false | Server => (if final then t_final else t_chunk) =? t_close end) = false).
      { destruct final; reflexivity. }
      rewrite T. clear T. destruct (p_chunk p <? 12) eqn:E1; [nlia|]. destruct (p_chunk p <? 16) eqn:E2; [nlia|].
      assert (E3 : encrypted (c_mode s) && negb (Z.rem (p_chunk p - plain_hdr) (c_block s) =? 0) = false).
      { destruct (encrypted (c_mode s)) eqn:E; [|reflexivity]. unfold plain_hdr.
        assert (M : c_mode s = MSignEnc) by (destruct (c_mode s); try discriminate; reflexivity).
        rewrite Z.rem_mod_nonneg by nlia. rewrite (Q7 M). reflexivity. }
      rewrite E3. clear E1 E2 E3.
      unfold open_body. cbv zeta. rewrite <- P1, <- P2, <- P3, FL.
      destruct (p_chunk p - c_sig s <? 0) eqn:E4; [nlia|]. rewrite andb_false_r.
      assert (PT : full = plain ++ sg) by (unfold full, plain; now rewrite <- app_assoc).
      assert (PLN : Z.of_nat (length plain) = p_chunk p - c_sig s) by (unfold plain; rewrite app_length; nlia).
      assert (E5 : secured (c_mode s) && negb (bytes_eqb (sign (firstn (Z.to_nat (p_chunk p - c_sig s)) full))
                     (skipn (Z.to_nat (p_chunk p - c_sig s)) full)) = false).
      { rewrite PT, firstn_app_exact, skipn_app_exact by nlia. unfold sg. destruct (secured (c_mode s)); [|reflexivity].
        assert (X : bytes_eqb (sign plain) (sign plain) = true) by (apply bytes_eqb_eq; reflexivity). rewrite X. reflexivity. }
      rewrite E5. destruct (p_chunk p <? 24) eqn:E6; [nlia|]. clear E5 E6.
      assert (RID : u32_at 20 full = rid).
      { unfold full, body. rewrite <- !app_assoc. rewrite (app_assoc h). rewrite four; [apply le4; exact R|].
        rewrite app_length, HL, le_enc_length. reflexivity. }
      assert (T0 : u32_at 0 full = if final then t_final else t_chunk) by (unfold full; apply header_fields; [clear - SB Q1 Q3 Q5 Q6 SL PLE; nlia|assumption]).
      rewrite RID, T0.
      assert (PART : forall n, n = length part -> firstn n (skipn 24 full) = part).
      { intros n ->. unfold full, body. rewrite <- !app_assoc. rewrite (app_assoc h), (app_assoc (h ++ _)).
        rewrite skipn_app_exact by (rewrite !app_length, HL, !le_enc_length; reflexivity).
        rewrite firstn_app_exact; reflexivity. }
      assert (FIN : match c_side r with Client => (if final then t_final else t_chunk) =? t_final
                    | Server => negb ((if final then t_final else t_chunk) =? t_chunk) end = final).
      { destruct (c_side r), final; reflexivity. }
      rewrite FIN. clear FIN.
      destruct (encrypted (c_mode s)) eqn:E.
      + cbn [andb]. rewrite <- Q2.
        destruct (p_chunk p - c_sig s - p_padhdr p <? 0) eqn:E7; [nlia|].
        assert (M : c_mode s = MSignEnc) by (destruct (c_mode s); try discriminate; reflexivity).
        pose proof (pad_hdr_cases (c_block s)) as PC.
        destruct (padding_tail (p_pad p) (p_padhdr p) ltac:(nlia)) as (a & PA & AL); [nlia|].
        assert (PADV : le_dec (firstn (Z.to_nat (p_padhdr p)) (skipn (Z.to_nat (p_chunk p - c_sig s - p_padhdr p)) full)) = p_pad p).
        { assert (D : full = (h ++ le_enc 4 seq ++ le_enc 4 rid ++ part ++ a) ++ le_enc (Z.to_nat (p_padhdr p)) (p_pad p) ++ sg).
          { unfold full, body, padb. rewrite M, PA. now rewrite <- !app_assoc. }
          rewrite D. rewrite skipn_app_exact.
          2:{ rewrite !app_length, HL, !le_enc_length. nlia. }
          rewrite firstn_app_exact by (rewrite le_enc_length; reflexivity).
          rewrite le_dec_enc. apply Z.mod_small.
          destruct PC as [[PC1 PC2]|[PC1 PC2]]; rewrite Q2, PC1; cbn; nlia. }
        rewrite PADV. unfold plain_hdr, seq_hdr.
        destruct (p_chunk p - 16 - 8 - p_pad p - p_padhdr p - c_sig s <? 0) eqn:E8; [nlia|].
        f_equal. apply PART. nlia.
      + cbn [andb]. specialize (Q4 eq_refl). unfold plain_hdr, seq_hdr.
        destruct (p_chunk p - 16 - 8 - 0 - 0 - c_sig s <? 0) eqn:E8; [nlia|].
        f_equal. apply PART. nlia.
    - intros ->. cbn in L. nlia.
    - nlia.
    - rewrite HF4, CL. reflexivity.
    - nlia.
    - intros M. rewrite CL, <- P3. apply Q7. congruence.
    - exists (p_pad p). split; [nlia|]. rewrite CL. unfold wire_chunk, ch, full, sg, plain, body, padb, h.
      destruct (c_mode s) eqn:M; cbn [encrypted secured].
      + unfold padding_bytes. cbn [encrypted]. now rewrite !app_nil_r, <- !app_assoc.
      + unfold padding_bytes. cbn [encrypted]. now rewrite !app_nil_r, <- !app_assoc.
      + assert (PB : padding_bytes MSignEnc (p_pad p) (p_padhdr p) = padding (c_block s) (p_pad p)).
        { unfold padding_bytes, padding. cbn [encrypted app]. rewrite Q2. cbn [encrypted].
          pose proof (pad_hdr_cases (c_block s)) as PC. destruct (256 <? c_block s) eqn:EB.
          - replace (pad_hdr (c_block s)) with 2 by nlia. reflexivity.
          - replace (pad_hdr (c_block s)) with 1 by nlia. reflexivity. }
        rewrite PB. now rewrite <- !app_assoc.
  Qed.
End Crypto.

(* ------------------------------------------------------------------ *)
(** * The loops *)

Lemma needed_step mb n : 1 <= mb -> mb < n -> chunks_needed mb n = 1 + chunks_needed mb (n - mb).
Proof.
  intros M H. unfold chunks_needed. replace (n + mb - 1) with ((n - mb + mb - 1) + 1 * mb) by lia.
  rewrite Z.div_add by lia. lia.
Qed.
Lemma needed_last mb n : 1 <= n <= mb -> chunks_needed mb n = 1.
Proof.
  intros H. unfold chunks_needed. replace (n + mb - 1) with (1 * mb + (n - 1)) by lia.
  rewrite Z.div_add_l by lia. rewrite Z.div_small by lia. reflexivity.
Qed.
Lemma needed_pos mb n : 1 <= mb -> 1 <= n -> 1 <= chunks_needed mb n.
Proof. intros M H. unfold chunks_needed. apply Z.div_le_lower_bound; lia. Qed.

Section Loops.
  Variable sign enc dec : bytes -> bytes.
  Variable s r : conf.
  Hypothesis P : peers s r.
  Hypothesis OK : conf_ok s.
  Hypothesis G : good_crypto (c_sig s) (c_block s) sign enc dec.
  Variable cap send : Z.
  Hypothesis CAP : send <= cap.
  Hypothesis SB : 0 <= send < 2 ^ 32.
  Hypothesis FIT : one_chunk_fits (c_mode s) (c_sig s) (c_block s) send.
  Let mb := max_body (c_mode s) (c_sig s) (c_block s) send.
  Let lim := c_max_chunks s.

  Lemma send_loop_spec rid : 0 <= rid < 2 ^ 32 -> forall fuel k seq rest,
    (length rest <= fuel)%nat -> rest <> [] -> 0 <= k -> (lim = 0 \/ k <= lim) ->
    let '(chs, st) := send_loop sign enc fuel s cap send rid k seq (Z.of_nat (length rest)) rest in
    (st = Sent /\ carries sign enc dec s r send rid seq chs rest /\
     Z.of_nat (length chs) = chunks_needed mb (Z.of_nat (length rest)) /\ (lim = 0 \/ k + Z.of_nat (length chs) <= lim)) \/
    (st = Refused /\ 0 < lim /\ k + Z.of_nat (length chs) = lim /\
     Z.of_nat (length chs) < chunks_needed mb (Z.of_nat (length rest)) /\
     exists sent left, begins sign enc dec s r send rid seq chs sent /\ rest = sent ++ left /\ left <> []).
  Proof.
    intros R. assert (MB : 1 <= mb) by (apply fits_min; [destruct OK; lia|destruct OK; lia|exact FIT]).
    assert (LIM : 0 <= lim) by (unfold lim; destruct OK; tauto).
    induction fuel as [|f IH]; intros k seq rest F NE K KL.
    { destruct rest; [congruence|cbn in F; lia]. }
    assert (C : 0 < Z.of_nat (length rest)) by (destruct rest; [congruence|cbn [length]; lia]).
    cbn [send_loop]. destruct (Z.of_nat (length rest) <=? 0) eqn:E0; [lia|]. fold lim.
    destruct ((0 <? lim) && (lim <? k + 1)) eqn:E1.
    { right. split; [reflexivity|]. pose proof (needed_pos mb (Z.of_nat (length rest)) MB ltac:(lia)). cbn [length].
      repeat split; [lia|lia|lia|]. exists [], rest. split; [constructor|]. split; [reflexivity|exact NE]. }
    pose proof (plan_spec (c_mode s) (c_sig s) (c_block s) send (Z.of_nat (length rest))
      ltac:(destruct OK; tauto) ltac:(destruct OK; lia) FIT C) as (Q0 & Q1 & _).
    pose proof (fun seq part final => build_open sign enc dec s r P OK G cap send CAP SB FIT seq rid _ part final C R) as B.
    cbv zeta in Q0, Q1, B. fold mb in Q0.
    set (p := plan_chunk (c_mode s) (c_sig s) (c_block s) send (Z.of_nat (length rest))) in *. clearbody p.
    set (part := firstn (Z.to_nat (p_body p)) rest).
    assert (PL : Z.of_nat (length part) = p_body p) by (unfold part; rewrite firstn_length; nlia).
    destruct (Z.of_nat (length part) <? p_body p) eqn:E2; [nlia|].
    destruct (B (next_counter seq) part (negb (p_body p <? Z.of_nat (length rest))) PL) as (ch & B1 & B2 & _).
    rewrite B1. set (rest' := skipn (Z.to_nat (p_body p)) rest) in *.
    assert (RL : Z.of_nat (length rest') = Z.of_nat (length rest) - p_body p) by (unfold rest'; rewrite skipn_length; nlia).
    assert (RS : part ++ rest' = rest) by apply firstn_skipn.
    destruct (p_body p <? Z.of_nat (length rest)) eqn:E3; cbn [negb] in B2.
    - (* more chunks follow *)
      assert (NE' : rest' <> []) by (intros X; rewrite X in RL; cbn [length] in RL; nlia).
      assert (PM : p_body p = mb) by nlia.
      rewrite <- RL. specialize (IH (k + 1) (next_counter seq) rest' ltac:(nlia) NE' ltac:(nlia) ltac:(nlia)).
      destruct (send_loop sign enc f s cap send rid (k + 1) (next_counter seq) (Z.of_nat (length rest')) rest') as [more st].
      assert (ND : chunks_needed mb (Z.of_nat (length rest)) = 1 + chunks_needed mb (Z.of_nat (length rest'))).
      { rewrite RL, PM. apply needed_step; nlia. }
      destruct IH as [(I1 & I2 & I3 & I4)|(I1 & I2 & I3 & I4 & sent & left & I5 & I6 & I7)].
      + left. split; [exact I1|]. split; [rewrite <- RS; constructor; assumption|]. cbn [length]. split; nlia.
      + right. split; [exact I1|]. cbn [length]. split; [exact I2|]. split; [nlia|]. split; [nlia|].
        exists (part ++ sent), left. split; [constructor; assumption|]. split; [|exact I7].
        rewrite <- app_assoc, <- I6. symmetry. exact RS.
    - (* the last chunk *)
      assert (rest' = []) as R0 by (destruct rest'; [reflexivity|cbn [length] in RL; nlia]).
      assert (NX : send_loop sign enc f s cap send rid (k + 1) (next_counter seq) (Z.of_nat (length rest) - p_body p) rest' = ([], Sent)).
      { destruct f; cbn [send_loop]; destruct (Z.of_nat (length rest) - p_body p <=? 0) eqn:E4; try reflexivity; nlia. }
      rewrite NX. left. split; [reflexivity|]. rewrite R0, app_nil_r in RS.
      split; [rewrite <- RS; constructor; exact B2|]. cbn [length].
      split; [rewrite needed_last; nlia|nlia].
  Qed.

  Lemma read_good rid seq final part ch rest rcap : send <= rcap -> good_chunk sign enc dec s r send rid seq final part ch ->
    read_chunk rcap (ch ++ rest) = Some (ch, rest).
  Proof.
    intros RC (_ & _ & L & U & L24 & _). unfold read_chunk. rewrite app_length.
    destruct (Z.of_nat (length ch + length rest) <? 8) eqn:E0; [lia|].
    assert (X : le_dec (firstn 4 (skipn 4 (ch ++ rest))) = Z.of_nat (length ch)).
    { unfold u32_at in U. rewrite <- U at 1. f_equal. rewrite skipn_app.
      replace (4 - length ch)%nat with O by lia. change (skipn 0 rest) with rest. rewrite firstn_app.
      replace (4 - length (skipn 4 ch))%nat with O by (rewrite skipn_length; lia).
      change (firstn 0 rest) with (@nil byte). apply app_nil_r. }
    rewrite X. destruct (rcap <? Z.of_nat (length ch)) eqn:E1; [lia|].
    destruct (Z.of_nat (length ch) <? 8) eqn:E2; [lia|].
    destruct (Z.of_nat (length ch + length rest) <? Z.of_nat (length ch)) eqn:E3; [lia|].
    rewrite Nat2Z.id, firstn_app_exact, skipn_app_exact by reflexivity. reflexivity.
  Qed.

  (** The receiver recovers the body, provided its own limits allow it. *)
  Lemma recv_loop_spec rid rcap seq chs body rest : send <= rcap -> carries sign enc dec s r send rid seq chs body ->
    forall fuel k acc, (length chs <= fuel)%nat -> 0 <= k ->
    (chunk_limit r <= 0 \/ k + Z.of_nat (length chs) <= chunk_limit r) ->
    (c_max_size r <= 0 \/ Z.of_nat (length (acc ++ body)) <= c_max_size r) ->
    recv_loop sign dec fuel r rcap k acc (concat chs ++ rest) = Received rid (acc ++ body) rest.
  Proof.
    intros RC H. induction H as [seq part ch H|seq part ch chs body H HC IH]; intros fuel k acc F K CLim SLim.
    - destruct fuel as [|f]; [cbn in F; lia|]. cbn [recv_loop concat app length] in *.
      destruct ((0 <? chunk_limit r) && (chunk_limit r <? k + 1)) eqn:E0; [lia|].
      rewrite app_nil_r. rewrite (read_good rid _ true part ch rest rcap RC H). destruct H as (-> & _).
      destruct ((0 <? c_max_size r) && (c_max_size r <? Z.of_nat (length (acc ++ part)))) eqn:E1; [lia|]. reflexivity.
    - destruct fuel as [|f]; [cbn in F; lia|]. cbn [recv_loop concat length] in *.
      destruct ((0 <? chunk_limit r) && (chunk_limit r <? k + 1)) eqn:E0; [lia|].
      rewrite <- app_assoc. rewrite (read_good rid _ false part ch (concat chs ++ rest) rcap RC H). destruct H as (-> & _).
      rewrite app_assoc in SLim.
      destruct ((0 <? c_max_size r) && (c_max_size r <? Z.of_nat (length (acc ++ part)))) eqn:E1.
      { rewrite app_length in SLim. lia. }
      rewrite app_assoc. apply IH; try assumption; lia.
  Qed.

  (** A body over the size limit, or a chunk over the count limit, is never delivered. *)
  Lemma recv_limits fuel : forall k rcap acc st rid body rest, 0 <= k ->
    recv_loop sign dec fuel r rcap k acc st = Received rid body rest ->
    c_max_size r <= 0 \/ Z.of_nat (length body) <= c_max_size r.
  Proof.
    induction fuel as [|f IH]; intros k rcap acc st rid body rest K H; [discriminate|].
    cbn [recv_loop] in H. destruct ((0 <? chunk_limit r) && (chunk_limit r <? k + 1)) eqn:E0; [discriminate|].
    destruct (read_chunk rcap st) as [[b rest']|]; [|discriminate].
    destruct (open_chunk sign dec r b) as [final rid' part| | |]; try discriminate.
    destruct ((0 <? c_max_size r) && (c_max_size r <? Z.of_nat (length (acc ++ part)))) eqn:E1; [discriminate|].
    destruct final.
    - injection H as <- <- <-. lia.
    - apply (IH (k + 1)) in H; [exact H|lia].
  Qed.
End Loops.
