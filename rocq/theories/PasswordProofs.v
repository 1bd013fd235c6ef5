From Coq Require Import ZArith List Bool Lia Strings.Byte.
From Coq Require Import ZifyBool ZifyNat ZifyN.
From Verif Require Import Bytes BytesProofs CodecSpec Keys KeysProofs Password PasswordSpec.
Import ListNotations.
Open Scope Z_scope.
Ltac Zify.zify_post_hook ::= idtac.

Lemma read_into_length p s : length (fst (read_into p s)) = length p.
Proof. unfold read_into; cbn [fst]. rewrite app_length, firstn_length, skipn_length. lia. Qed.
Lemma read_into_more p s : (length p <= length s)%nat -> fst (read_into p s) = firstn (length p) s.
Proof. intros H. unfold read_into; cbn [fst]. rewrite skipn_all2 by exact H. apply app_nil_r. Qed.
Lemma read_into_prefix p s : (length s <= length p)%nat -> exists t, fst (read_into p s) = s ++ t.
Proof. intros H. unfold read_into; cbn [fst]. rewrite firstn_all2 by exact H. eauto. Qed.
Lemma read_into_split p s : exists t, fst (read_into p s) ++ snd (read_into p s) = s ++ t /\ (snd (read_into p s) = [] \/ t = []).
Proof.
  destruct (le_lt_dec (length s) (length p)) as [H|H].
  - destruct (read_into_prefix p s H) as (t & E). exists t. rewrite E. unfold read_into; cbn [snd].
    rewrite skipn_all2 by exact H. rewrite app_nil_r. auto.
  - exists []. rewrite read_into_more by lia. unfold read_into; cbn [snd]. rewrite firstn_skipn, app_nil_r. auto.
Qed.

Section S.
  Variable enc : wrap -> nat -> bytes -> bytes.
  Variable dec : wrap -> bytes -> option bytes.
  Variable size : Z.
  Hypothesis G : rsa_works enc dec size.

  Lemma dec_enc_loop w n : forall k r s p q k',
    Z.of_nat n = size - overhead w -> (0 < n)%nat -> 0 < size -> length p = n -> Z.of_nat (length q) = size ->
    (length s <= k)%nat -> (length (enc_loop enc w k r p s) <= k')%nat ->
    exists t, dec_loop dec w k' q (enc_loop enc w k r p s) = Some (s ++ t).
  Proof.
    induction k as [|k IH]; intros r s p q k' Hn Hp Hs Lp Lq Hk Hk'.
    - assert (s = []) by (destruct s; [reflexivity|cbn [length] in Hk; lia]). subst s. cbn [enc_loop].
      exists []. destruct k'; reflexivity.
    - destruct s as [|b s0]; [exists []; destruct k'; reflexivity|].
      remember (b :: s0) as s eqn:Es.
      assert (Es' : enc_loop enc w (S k) r p s = enc w r (fst (read_into p s)) ++ enc_loop enc w k (S r) (fst (read_into p s)) (snd (read_into p s)))
        by (subst s; reflexivity).
      rewrite Es' in *.
      set (p1 := fst (read_into p s)) in *. set (s1 := snd (read_into p s)) in *.
      assert (L1 : length p1 = n) by (unfold p1; rewrite read_into_length; exact Lp).
      assert (OR : overhead w = rsa_room w) by (destruct w; reflexivity).
      destruct (G w r p1 ltac:(lia)) as (GL & GD).
      assert (Ls1 : (length s1 <= k)%nat).
      { unfold s1, read_into; cbn [snd]. rewrite skipn_length. lia. }
      set (c1 := enc w r p1) in *. set (rest := enc_loop enc w k (S r) p1 s1) in *.
      rewrite app_length in Hk'.
      destruct k' as [|k']; [lia|].
      assert (Hne : c1 ++ rest <> []). { intros E. apply (f_equal (@length byte)) in E. rewrite app_length in E. cbn [length] in E. lia. }
      assert (Ed : dec_loop dec w (S k') q (c1 ++ rest) =
        match dec w (fst (read_into q (c1 ++ rest))) with
        | None => None
        | Some x => match dec_loop dec w k' (fst (read_into q (c1 ++ rest))) (snd (read_into q (c1 ++ rest))) with None => None | Some y => Some (x ++ y) end
        end).
      { destruct (c1 ++ rest) as [|b1 l1]; [congruence|]. cbn [dec_loop]. destruct (read_into q (b1 :: l1)) as [u v]. reflexivity. }
      rewrite Ed. clear Ed.
      assert (Eq : length q = length c1) by lia.
      assert (E1 : fst (read_into q (c1 ++ rest)) = c1).
      { rewrite read_into_more by (rewrite app_length; lia). rewrite Eq, firstn_app, Nat.sub_diag, firstn_all. cbn [firstn]. apply app_nil_r. }
      assert (E2 : snd (read_into q (c1 ++ rest)) = rest).
      { unfold read_into; cbn [snd]. rewrite Eq, skipn_app, skipn_all, Nat.sub_diag. reflexivity. }
      rewrite E1, E2, GD.
      destruct (IH (S r) s1 p1 c1 k' Hn Hp Hs L1 GL Ls1 ltac:(fold rest; lia)) as (t & Et).
      fold rest in Et. rewrite Et.
      destruct (read_into_split p s) as (t1 & Sp & D). fold p1 s1 in Sp, D.
      rewrite app_assoc. destruct D as [D|D].
      + rewrite D in Sp |- *. rewrite Sp. exists (t1 ++ t). now rewrite app_assoc.
      + subst t1. rewrite Sp, app_nil_r. eauto.
  Qed.

  Lemma dec_client pol r password nonce : pol <> PNone -> size_ok size ->
    exists t, let s := le_enc 4 (u32 (Z.of_nat (length password + length nonce))) ++ password ++ nonce in
    client_password enc pol size r password nonce = (wrap_of pol, snd (client_password enc pol size r password nonce)) /\
    dec_loop dec (wrap_of pol) (length (snd (client_password enc pol size r password nonce))) (repeat x00 (Z.to_nat size))
      (snd (client_password enc pol size r password nonce)) = Some (s ++ t).
  Proof.
    intros Hp [Z1 Z2].
    set (s := le_enc 4 (u32 (Z.of_nat (length password + length nonce))) ++ password ++ nonce).
    assert (Ec : client_password enc pol size r password nonce =
      (wrap_of pol, enc_loop enc (wrap_of pol) (length s) r (repeat x00 (Z.to_nat (size - overhead (wrap_of pol)))) s))
      by (destruct pol; try congruence; reflexivity).
    rewrite Ec. cbn [snd].
    assert (O : 0 <= overhead (wrap_of pol) <= 66) by (destruct pol; cbn; lia).
    destruct (dec_enc_loop (wrap_of pol) (Z.to_nat (size - overhead (wrap_of pol))) (length s) r s
      (repeat x00 (Z.to_nat (size - overhead (wrap_of pol)))) (repeat x00 (Z.to_nat size))
      (length (enc_loop enc (wrap_of pol) (length s) r (repeat x00 (Z.to_nat (size - overhead (wrap_of pol)))) s)))
      as (t & Et); try rewrite repeat_length; try lia.
    exists t. split; [reflexivity|exact Et].
  Qed.
End S.

Definition reads (n : Z) (plain : bytes) : Z := if Z.of_nat (length plain) <? 4 then 0 else le_dec (firstn 4 plain).

Lemma wrap_eqb_refl w : wrap_eqb w w = true. Proof. destruct w; reflexivity. Qed.
Lemma server_of enc dec size pol r password nonce : pol <> PNone -> rsa_works enc dec size -> size_ok size ->
  Z.of_nat (length password + length nonce) < 2 ^ 32 ->
  let '(alg, cipher) := client_password enc pol size r password nonce in
  exists t, server_password dec pol size alg cipher =
    let n := Z.of_nat (length password + length nonce) in
    if (n <? 32) || (96 <? n) then PwRejected
    else PwGot (fst (read_into (repeat x00 (Z.to_nat (n - 32))) (password ++ nonce ++ t))).
Proof.
  intros Hp G S L. destruct (dec_client enc dec size G pol r password nonce Hp S) as (t & Ec & Ed).
  rewrite Ec. destruct (client_password enc pol size r password nonce) as [alg cipher]. cbn [snd] in *.
  exists t.
  assert (Es : server_password dec pol size (wrap_of pol) cipher =
    if negb (wrap_eqb (wrap_of pol) (wrap_of pol)) then PwInvalid
    else match dec_loop dec (wrap_of pol) (length cipher) (repeat x00 (Z.to_nat size)) cipher with
         | None => PwEnds
         | Some plain =>
             let n := if Z.of_nat (length plain) <? 4 then 0 else le_dec (firstn 4 plain) in
             if (n <? 32) || (96 <? n) then PwRejected
             else PwGot (fst (read_into (repeat x00 (Z.to_nat (n - 32))) (skipn 4 plain)))
         end) by (destruct pol; try congruence; reflexivity).
  rewrite Es, wrap_eqb_refl. cbn [negb]. rewrite Ed. clear Es Ed Ec.
  set (n := Z.of_nat (length password + length nonce)) in *.
  cbv zeta.
  assert (E4 : firstn 4 ((le_enc 4 (u32 n) ++ password ++ nonce) ++ t) = le_enc 4 (u32 n)).
  { rewrite <- app_assoc. rewrite <- (le_enc_length 4 (u32 n)) at 1. rewrite firstn_app, Nat.sub_diag, firstn_all. apply app_nil_r. }
  assert (E5 : skipn 4 ((le_enc 4 (u32 n) ++ password ++ nonce) ++ t) = password ++ nonce ++ t).
  { rewrite <- !app_assoc. rewrite <- (le_enc_length 4 (u32 n)) at 1. rewrite skipn_app, Nat.sub_diag, skipn_all. reflexivity. }
  rewrite E4, E5.
  assert (E6 : Z.of_nat (length ((le_enc 4 (u32 n) ++ password ++ nonce) ++ t)) <? 4 = false).
  { rewrite !app_length, le_enc_length. lia. }
  rewrite E6, le_dec_enc. change (256 ^ Z.of_nat 4) with (2 ^ 32). unfold u32.
  rewrite Z.mod_mod by lia. rewrite Z.mod_small by (subst n; lia). reflexivity.
Qed.

Lemma password_ok enc dec size pol r password nonce : rsa_works enc dec size -> size_ok size ->
  length nonce = 32%nat -> (pol <> PNone -> (length password <= 64)%nat) ->
  let '(alg, cipher) := client_password enc pol size r password nonce in
  server_password dec pol size alg cipher = PwGot password.
Proof.
  intros G S Ln Lp.
  assert (D : pol = PNone \/ pol <> PNone) by (destruct pol; ((left; reflexivity) || (right; discriminate))).
  destruct D as [->|D]; [reflexivity|]. specialize (Lp D).
  pose proof (server_of enc dec size pol r password nonce D G S ltac:(lia)) as H.
  destruct (client_password enc pol size r password nonce) as [alg cipher].
  destruct H as (t & H). rewrite H. clear H. cbv zeta.
  replace ((Z.of_nat (length password + length nonce) <? 32) || (96 <? Z.of_nat (length password + length nonce))) with false by lia.
  f_equal. rewrite read_into_more by (rewrite repeat_length, !app_length; unfold bytes in *; lia).
  rewrite repeat_length. replace (Z.to_nat (Z.of_nat (length password + length nonce) - 32)) with (length password) by lia.
  rewrite firstn_app, Nat.sub_diag, firstn_all. apply app_nil_r.
Qed.

Lemma password_long enc dec size pol r password nonce : pol <> PNone -> rsa_works enc dec size -> size_ok size ->
  length nonce = 32%nat -> (64 < length password)%nat -> Z.of_nat (length password) < 2 ^ 32 - 32 ->
  let '(alg, cipher) := client_password enc pol size r password nonce in
  server_password dec pol size alg cipher = PwRejected.
Proof.
  intros D G S Ln Lp Lm.
  pose proof (server_of enc dec size pol r password nonce D G S ltac:(lia)) as H.
  destruct (client_password enc pol size r password nonce) as [alg cipher].
  destruct H as (t & H). rewrite H. cbv zeta.
  replace ((Z.of_nat (length password + length nonce) <? 32) || (96 <? Z.of_nat (length password + length nonce))) with true by lia.
  reflexivity.
Qed.

(** the private exponent is shorter than the key: nothing decrypts *)
Lemma dec_short dec w size : rsa_strict dec size -> forall k q s, Z.of_nat (length q) <> size -> s <> [] -> (0 < k)%nat ->
  dec_loop dec w k q s = None.
Proof.
  intros St k q s Lq Ns Hk. destruct k; [lia|]. destruct s as [|b s0]; [congruence|].
  cbn [dec_loop]. destruct (read_into q (b :: s0)) as [p' s'] eqn:E.
  assert (L : length p' = length q) by (rewrite <- (read_into_length q (b :: s0)), E; reflexivity).
  rewrite St; [reflexivity|]. lia.
Qed.
Lemma password_short enc dec size dlen pol r password nonce : pol <> PNone -> rsa_works enc dec size -> rsa_strict dec size -> size_ok size ->
  0 <= dlen -> dlen <> size ->
  let '(alg, cipher) := client_password enc pol size r password nonce in
  server_password dec pol dlen alg cipher = PwEnds.
Proof.
  intros D G St S Hd Hne.
  destruct (dec_client enc dec size G pol r password nonce D S) as (t & Ec & Ed).
  rewrite Ec. destruct (client_password enc pol size r password nonce) as [alg cipher]. cbn [snd] in *.
  assert (Hc : cipher <> []).
  { intros ->. cbn in Ed. apply (f_equal (option_map (@length byte))) in Ed. cbn [option_map] in Ed. injection Ed as Ed.
    rewrite !app_length, le_enc_length in Ed. cbn [length] in Ed. lia. }
  assert (Hl : dec_loop dec (wrap_of pol) (length cipher) (repeat x00 (Z.to_nat dlen)) cipher = None).
  { apply (dec_short dec _ size St); [rewrite repeat_length; lia|exact Hc|]. destruct cipher; [congruence|cbn [length]; lia]. }
  destruct pol; try congruence; unfold server_password; cbn [wrap_of] in *; rewrite Hl; reflexivity.
Qed.

(** with a key whose modulus has [size] bytes the exponent may be any smaller number *)
Lemma exponent_short size d : 0 < size -> 0 < d < 2 ^ (8 * (size - 1)) -> exponent_bytes d < size.
Proof.
  intros Hs [H1 H2]. unfold exponent_bytes. destruct (d <=? 0) eqn:E; [lia|].
  assert (Z.log2 d < 8 * (size - 1)) by (apply Z.log2_lt_pow2; assumption).
  assert (Z.log2 d / 8 < size - 1) by (apply Z.div_lt_upper_bound; lia). lia.
Qed.

Lemma toy_rsa size : size_ok size -> rsa_works (toy_enc size) (toy_dec size) size /\ rsa_strict (toy_dec size) size.
Proof.
  intros [S1 S2]. split.
  - intros w r p L. assert (O : 0 <= rsa_room w <= 66) by (destruct w; cbn; lia).
    assert (LL : Z.of_nat (length (toy_enc size w r p)) = size) by (unfold toy_enc; rewrite app_length, repeat_length; unfold bytes in *; lia).
    split; [exact LL|]. unfold toy_dec. rewrite LL, Z.eqb_refl. f_equal. unfold toy_enc.
    rewrite skipn_app, repeat_length, Nat.sub_diag, skipn_all2 by (rewrite repeat_length; lia). reflexivity.
  - intros w c L. unfold toy_dec. destruct (Z.of_nat (length c) =? size) eqn:E; [lia|reflexivity].
Qed.

Lemma wrap_standard enc pol size r password nonce : fst (client_password enc pol size r password nonce) = standard_wrap pol.
Proof. destruct pol; reflexivity. Qed.
