(** Proofs about counters, key derivation and negotiation. *)
From Coq Require Import ZArith List Bool Lia Strings.Byte ZifyBool ZifyNat.
From Verif Require Import Bytes Prim PrimSpec CodecSpec BytesProofs PrimProofs Chunk ChunkSpec ChunkProofs Keys KeysSpec Tac.
Import ListNotations.
Open Scope Z_scope.

(* ------------------------------------------------------------------ *)
Lemma next_kth i : next_counter (kth i) = kth (S i).
Proof.
  unfold next_counter, kth. change (2 ^ 32 - 1) with 4294967295.
  rewrite Nat2Z.inj_succ, <- Z.add_1_r.
  pose proof (Z.mod_pos_bound (Z.of_nat i) 4294967295 ltac:(lia)) as B.
  pose proof (Z.div_mod (Z.of_nat i) 4294967295 ltac:(lia)) as D.
  destruct (Z.eqb_spec (Z.of_nat i mod 4294967295 + 1) 4294967295) as [E|E].
  - replace ((Z.of_nat i + 1) mod 4294967295) with 0; [reflexivity|].
    apply Z.mod_unique with (q := Z.of_nat i / 4294967295 + 1); lia.
  - replace ((Z.of_nat i + 1) mod 4294967295) with (Z.of_nat i mod 4294967295 + 1); [reflexivity|].
    apply Z.mod_unique with (q := Z.of_nat i / 4294967295); lia.
Qed.

Definition counter_inv (c : counter) : Prop :=
  map snd (ct_out c) = map kth (seq 0 (length (ct_out c))) /\
  ct_value c = match length (ct_out c) with O => 0 | S n => kth n end.

Lemma counter_step_inv c o : counter_inv c -> counter_inv (counter_step c o).
Proof.
  intros [I J]. destruct o as [t|t]; cbn [counter_step]; [split; assumption|].
  destruct (ct_pos c t) as [|old]; [split; assumption|].
  destruct (Z.eqb_spec (ct_value c) old) as [<-|]; [|split; assumption].
  assert (N : next_counter (ct_value c) = kth (length (ct_out c))).
  { rewrite J. destruct (length (ct_out c)); [reflexivity|]. apply next_kth. }
  split; cbn [ct_out ct_value]; rewrite ?map_app, app_length; cbn [length map snd].
  - rewrite Nat.add_1_r, seq_S, map_app, I, N. reflexivity.
  - rewrite Nat.add_1_r, N. reflexivity.
Qed.
Lemma counter_run_inv ops : counter_inv (counter_run 0 ops).
Proof.
  unfold counter_run. assert (G : forall c, counter_inv c -> counter_inv (fold_left counter_step ops c)).
  { induction ops as [|o ops IH]; intros c H; [exact H|]. apply IH, counter_step_inv, H. }
  apply G. split; reflexivity.
Qed.
Lemma counter_nth ops i : (i < length (ct_out (counter_run 0 ops)))%nat ->
  snd (nth i (ct_out (counter_run 0 ops)) (O, 0)) = kth i.
Proof.
  intros H. destruct (counter_run_inv ops) as [I _].
  rewrite <- (map_nth snd). rewrite I. change (snd (O, 0)) with 0.
  rewrite (nth_indep _ 0 (kth O)) by (rewrite map_length, seq_length; exact H).
  rewrite map_nth, seq_nth by exact H. reflexivity.
Qed.
Lemma kth_range i : 1 <= kth i < 2 ^ 32.
Proof.
  unfold kth. change (2 ^ 32 - 1) with 4294967295. change (2 ^ 32) with 4294967296.
  pose proof (Z.mod_pos_bound (Z.of_nat i) 4294967295 ltac:(lia)). lia.
Qed.
Lemma kth_neq i j : (i < j)%nat -> Z.of_nat j < Z.of_nat i + (2 ^ 32 - 1) -> kth i <> kth j.
Proof.
  unfold kth. change (2 ^ 32 - 1) with 4294967295. intros L B E.
  pose proof (Z.div_mod (Z.of_nat i) 4294967295 ltac:(lia)) as D1.
  pose proof (Z.div_mod (Z.of_nat j) 4294967295 ltac:(lia)) as D2.
  assert (Z.of_nat i mod 4294967295 = Z.of_nat j mod 4294967295) as M by lia.
  rewrite M in D1. clear E M.
  generalize dependent (Z.of_nat i / 4294967295). generalize dependent (Z.of_nat j / 4294967295).
  intros. nia.
Qed.
(** Two goroutines are never given the same id within 2^32-1 uses. *)
Lemma counter_distinct ops i j :
  (i < j < length (ct_out (counter_run 0 ops)))%nat -> Z.of_nat j < Z.of_nat i + (2 ^ 32 - 1) ->
  snd (nth i (ct_out (counter_run 0 ops)) (O, 0)) <> snd (nth j (ct_out (counter_run 0 ops)) (O, 0)).
Proof. intros [L1 L2] B. rewrite !counter_nth by lia. apply kth_neq; assumption. Qed.

(* ------------------------------------------------------------------ *)
Section Psha.
  Variable mac : bytes -> bytes.
  Variable size : Z.
  Hypothesis mac_len : forall m, Z.of_nat (length (mac m)) = size.
  Hypothesis size_pos : 0 < size.

  Lemma p_hash_S seed k : p_hash mac seed (S k) = p_hash mac seed k ++ mac (p_a mac seed (S k) ++ seed).
  Proof.
    unfold p_hash. rewrite seq_S, map_app, concat_app. cbn [map concat]. rewrite app_nil_r. reflexivity.
  Qed.
  Lemma p_hash_length seed k : Z.of_nat (length (p_hash mac seed k)) = size * Z.of_nat k.
  Proof.
    induction k; [cbn; lia|]. rewrite p_hash_S, app_length, Nat2Z.inj_add, IHk, mac_len. lia.
  Qed.
  Lemma p_hash_prefix seed k d : exists t, p_hash mac seed (k + d) = p_hash mac seed k ++ t.
  Proof.
    induction d as [|d [t IH]]; [exists []; rewrite Nat.add_0_r, app_nil_r; reflexivity|].
    rewrite Nat.add_succ_r, p_hash_S, IH, <- app_assoc. eexists. reflexivity.
  Qed.

  Lemma psha_loop_spec n seed k : forall i,
    0 <= n -> size * Z.of_nat (i + k) < n + size ->
    psha_loop mac size n k (Z.of_nat i) (p_a mac seed i) seed
      (firstn (Z.to_nat n) (p_hash mac seed i) ++ repeat x00 (Z.to_nat n - Z.to_nat (size * Z.of_nat i)))
    = firstn (Z.to_nat n) (p_hash mac seed (i + k)) ++ repeat x00 (Z.to_nat n - Z.to_nat (size * Z.of_nat (i + k))).
  Proof.
    induction k as [|k IH]; intros i N B; cbn [psha_loop]; [rewrite Nat.add_0_r; reflexivity|].
    replace (i + S k)%nat with (S i + k)%nat in * by lia.
    rewrite <- (IH (S i)) by assumption.
    replace (Z.of_nat i + 1) with (Z.of_nat (S i)) by lia.
    change (mac (p_a mac seed i)) with (p_a mac seed (S i)).
    f_equal.
    assert (Hm : size * Z.of_nat i < n) by nia.
    pose proof (p_hash_length seed i) as L1.
    assert (La : length (firstn (Z.to_nat n) (p_hash mac seed i)) = Z.to_nat (size * Z.of_nat i)).
    { rewrite firstn_length. lia. }
    assert (Lf : firstn (Z.to_nat n) (p_hash mac seed i) = p_hash mac seed i).
    { apply firstn_all2. lia. }
    rewrite Lf in *.
    unfold write_at. rewrite firstn_app, La, Nat.sub_diag, firstn_O, app_nil_r.
    rewrite firstn_all2 by lia.
    rewrite p_hash_S.
    assert (L2 : length (mac (p_a mac seed (S i) ++ seed)) = Z.to_nat size) by (specialize (mac_len (p_a mac seed (S i) ++ seed)); lia).
    assert (Sz : size * Z.of_nat (S i) = size * Z.of_nat i + size) by lia.
    set (B2 := mac (p_a mac seed (S i) ++ seed)) in *. clearbody B2.
    set (M := size * Z.of_nat i) in *.
    rewrite Sz. assert (M0 : 0 <= M) by (unfold M; nia). clearbody M.
    rewrite firstn_app, La. rewrite (firstn_all2 (n := Z.to_nat n) (p_hash mac seed i)) by lia.
    rewrite <- app_assoc. f_equal.
    rewrite skipn_app, La.
    rewrite (skipn_all2 (n := Z.to_nat M + _)) by lia. cbn [app].
    set (r := if size <? n - M then size else n - M).
    assert (Hr : r = Z.min size (n - M)) by (unfold r; destruct (size <? n - M) eqn:E; lia).
    clearbody r.
    replace (firstn (Z.to_nat n - Z.to_nat M) B2) with (firstn (Z.to_nat r) B2).
    2:{ destruct (Z.leb_spec (n - M) size).
        - f_equal. lia.
        - rewrite !firstn_all2 by lia. reflexivity. }
    f_equal.
    rewrite firstn_length, L2.
    replace (Z.to_nat M + Nat.min (Z.to_nat r) (Z.to_nat size) - Z.to_nat M)%nat with (Z.to_nat r) by lia.
    replace (Z.to_nat n - Z.to_nat M)%nat with (Z.to_nat r + (Z.to_nat n - Z.to_nat (M + size)))%nat by lia.
    rewrite repeat_app, skipn_app, repeat_length, Nat.sub_diag, skipn_all2 by (rewrite repeat_length; lia).
    reflexivity.
  Qed.
End Psha.

Lemma quot_up n size : 0 <= n -> 0 < size ->
  n <= size * Z.quot (n + size - 1) size < n + size.
Proof.
  intros N S. rewrite Z.quot_div_nonneg by lia.
  pose proof (Z.div_mod (n + size - 1) size ltac:(lia)). pose proof (Z.mod_pos_bound (n + size - 1) size S).
  generalize dependent ((n + size - 1) / size). intros. nia.
Qed.

Lemma skipn_plus {A} a b (l : list A) : skipn (a + b) l = skipn b (skipn a l).
Proof. revert l; induction a; intros [|x l]; cbn; auto. rewrite skipn_nil. reflexivity. Qed.

Section Derive.
  Variable hmac : hash -> bytes -> bytes -> bytes.
  Hypothesis G : good_hmac hmac.

  Lemma hash_pos h : 0 < hash_size h.
  Proof. destruct h; reflexivity. Qed.

  (** The derived bytes are the first [n] bytes of P_hash. *)
  Lemma psha_p_hash secret seed n p k :
    0 <= n <= hash_size (psha_hash p) * Z.of_nat k ->
    psha hmac secret seed n p = firstn (Z.to_nat n) (p_hash (hmac (psha_hash p) secret) seed k).
  Proof.
    intros [N K]. unfold psha. set (h := psha_hash p) in *. set (size := hash_size h) in *.
    assert (S : 0 < size) by apply hash_pos.
    pose proof (quot_up n size N S) as Q.
    set (q := Z.quot (n + size - 1) size) in *.
    assert (q0 : 0 <= q) by nia.
    assert (ML : forall m, Z.of_nat (length (hmac h secret m)) = size) by (intros; apply G).
    pose proof (psha_loop_spec (hmac h secret) size ML S n seed (Z.to_nat q) 0 N) as X.
    change (p_hash (hmac h secret) seed 0) with (@nil byte) in X.
    change (p_a (hmac h secret) seed 0) with seed in X.
    change (0 + Z.to_nat q)%nat with (Z.to_nat q) in X.
    rewrite firstn_nil in X. cbn [app] in X.
    change (Z.of_nat 0) with 0 in X. rewrite Z.mul_0_r, Nat.sub_0_r in X.
    rewrite X by (rewrite Z2Nat.id by lia; lia). clear X.
    rewrite Z2Nat.id by lia.
    replace (Z.to_nat n - Z.to_nat (size * q))%nat with O by lia. cbn [repeat]. rewrite app_nil_r.
    (* both are long enough *)
    assert (Hq : (Z.to_nat q <= k)%nat) by nia.
    destruct (p_hash_prefix (hmac h secret) seed (Z.to_nat q) (k - Z.to_nat q)) as [t E].
    replace (Z.to_nat q + (k - Z.to_nat q))%nat with k in E by lia.
    rewrite E, firstn_app.
    pose proof (p_hash_length (hmac h secret) size ML seed (Z.to_nat q)) as L.
    rewrite Z2Nat.id in L by lia.
    replace (Z.to_nat n - length (p_hash (hmac h secret) seed (Z.to_nat q)))%nat with O by lia.
    rewrite firstn_O, app_nil_r. reflexivity.
  Qed.

  Lemma psha_length secret seed n p : 0 <= n -> Z.of_nat (length (psha hmac secret seed n p)) = n.
  Proof.
    intros N. rewrite (psha_p_hash secret seed n p (Z.to_nat n)).
    - rewrite firstn_length.
      pose proof (p_hash_length (hmac (psha_hash p) secret) (hash_size (psha_hash p)) ltac:(intros; apply G) seed (Z.to_nat n)) as L.
      pose proof (hash_pos (psha_hash p)). nia.
    - pose proof (hash_pos (psha_hash p)). rewrite Z2Nat.id by lia. nia.
  Qed.

  Lemma psha_prefix secret seed n m p : 0 <= n <= m ->
    psha hmac secret seed n p = firstn (Z.to_nat n) (psha hmac secret seed m p).
  Proof.
    intros N. pose proof (hash_pos (psha_hash p)).
    rewrite (psha_p_hash secret seed n p (Z.to_nat m)), (psha_p_hash secret seed m p (Z.to_nat m)) by (rewrite Z2Nat.id by lia; nia).
    rewrite firstn_firstn. f_equal. lia.
  Qed.

  Lemma pol_sizes p : 0 <= sig_key (pol_of p) /\ 0 <= enc_key (pol_of p) /\ 0 <= blk_size (pol_of p).
  Proof. destruct p; cbn; lia. Qed.

  Lemma copied_exact n src : (Z.to_nat n <= length src)%nat -> copied n src = firstn (Z.to_nat n) src.
  Proof. intros H. unfold copied. replace (Z.to_nat n - length src)%nat with O by lia. apply app_nil_r. Qed.

  Lemma derive_split p secret seed :
    let k := derive hmac p secret seed in
    k_sign k ++ k_enc k ++ k_iv k = psha hmac secret seed (key_len (pol_of p)) p /\
    Z.of_nat (length (k_sign k)) = sig_key (pol_of p) /\
    Z.of_nat (length (k_enc k)) = enc_key (pol_of p) /\
    Z.of_nat (length (k_iv k)) = blk_size (pol_of p).
  Proof.
    cbv zeta. unfold derive, split_keys. destruct (pol_sizes p) as (A & B & C).
    pose proof (psha_length secret seed (key_len (pol_of p)) p ltac:(unfold key_len; lia)) as L.
    set (m := psha hmac secret seed (key_len (pol_of p)) p) in *. clearbody m. unfold key_len in L.
    set (a := sig_key (pol_of p)) in *. set (b := enc_key (pol_of p)) in *. set (c := blk_size (pol_of p)) in *.
    clearbody a b c.
    rewrite Nat.min_l by lia.
    assert (L1 : length (skipn (Z.to_nat a) m) = Z.to_nat (b + c)) by (rewrite skipn_length; lia).
    rewrite Nat.min_l by lia.
    assert (L2 : length (skipn (Z.to_nat a + Z.to_nat b) m) = Z.to_nat c) by (rewrite skipn_length; lia).
    cbn [k_sign k_enc k_iv]. rewrite !copied_exact by lia.
    split; [|rewrite !firstn_length; lia].
    rewrite (firstn_all2 (n := Z.to_nat c)) by lia.
    replace (skipn (Z.to_nat a + Z.to_nat b) m) with (skipn (Z.to_nat b) (skipn (Z.to_nat a) m))
      by (rewrite skipn_plus; reflexivity).
    rewrite firstn_skipn, firstn_skipn. reflexivity.
  Qed.
End Derive.

(* ------------------------------------------------------------------ *)
Lemma hello_fits cap c url : 32 + Z.of_nat (length url) <= cap -> hello_bytes cap c url = hello_layout c url.
Proof.
  intros H. assert (W : (length (write_string url) = 4 + length url)%nat).
  { unfold write_string. destruct url; [reflexivity|]. rewrite app_length. unfold write_int. rewrite le_enc_length. reflexivity. }
  unfold hello_bytes, hello_layout.
  puts ltac:(rewrite ?app_length, ?W, ?le_enc_length; cbn [length Nat.add]; unfold bytes in *; lia).
  rewrite <- !app_assoc. reflexivity.
Qed.
Lemma ack_fits cap s : 28 <= cap -> ack_bytes cap s = ack_layout s.
Proof.
  intros H. unfold ack_bytes, ack_layout.
  puts ltac:(rewrite ?app_length, ?le_enc_length; cbn [length Nat.add]; lia).
  rewrite <- !app_assoc. reflexivity.
Qed.
Lemma read_whole cap t n rest : 8 <= n < 2 ^ 32 -> n <= cap -> Z.of_nat (length rest) = n - 8 ->
  read_chunk cap (le_enc 4 t ++ le_enc 4 n ++ rest) = Some (le_enc 4 t ++ le_enc 4 n ++ rest, []).
Proof.
  intros N C L. unfold read_chunk.
  assert (LL : Z.of_nat (length (le_enc 4 t ++ le_enc 4 n ++ rest)) = n).
  { rewrite !app_length, !le_enc_length. unfold bytes in *. lia. }
  rewrite LL. destruct (Z.ltb_spec n 8) as [X|_]; [lia|].
  replace (firstn 4 (skipn 4 (le_enc 4 t ++ le_enc 4 n ++ rest))) with (le_enc 4 n).
  2:{ rewrite skipn_app_exact by (rewrite le_enc_length; reflexivity). rewrite firstn_app_exact by (rewrite le_enc_length; reflexivity). reflexivity. }
  rewrite le_dec_enc. change (256 ^ Z.of_nat 4) with (2 ^ 32). rewrite Z.mod_small by lia. cbv zeta.
  destruct (Z.ltb_spec cap n); [lia|]. destruct (Z.ltb_spec n 8); [lia|]. destruct (Z.ltb_spec n n); [lia|].
  rewrite firstn_all2 by (unfold bytes in *; lia). rewrite skipn_all2 by (unfold bytes in *; lia). reflexivity.
Qed.
Lemma read_hello_layout c url stale : ends_ok c -> len_ok url -> 32 + Z.of_nat (length url) < 2 ^ 32 ->
  read_hello (hello_layout c url ++ stale) =
  Ok (e_recv c, e_send c, e_max_res c, e_res_chunks c, url) stale.
Proof.
  intros (A & B & C & D & E & F) U L. unfold hello_layout, read_hello.
  assert (H : codes false read_hello (hello_layout c url) (e_recv c, e_send c, e_max_res c, e_res_chunks c, url)).
  { unfold hello_layout, read_hello.
    eapply codes_bind; [apply codes_u32; unfold in_u; cbn; lia|]. cbn beta. rewrite Z.eqb_refl. cbn [negb].
    eapply codes_bind; [apply codes_u32; unfold in_u; change (8 * 4) with 32; lia|]. cbn beta.
    destruct (Z.ltb_spec (32 + Z.of_nat (length url)) 28); [lia|].
    eapply codes_bind; [apply codes_u32; unfold in_u; cbn; lia|]. cbn beta. change (0 <? 0) with false. cbv iota.
    do 4 (eapply codes_bind; [apply codes_u32; assumption|]; cbn beta).
    eapply codes_bind_last; [apply codes_string; exact U|]. apply codes_ret. }
  exact (codes_rt H stale).
Qed.

Lemma handshake_ok ccap scap c s url stale1 stale2 :
  ends_ok c -> ends_ok s -> len_ok url ->
  32 + Z.of_nat (length url) <= ccap < 2 ^ 32 -> 32 + Z.of_nat (length url) <= scap ->
  handshake ccap scap c s url stale1 stale2 =
  Some (mkEnds (Z.min (e_recv c) (e_send s)) (Z.min (e_send c) (e_recv s)) (e_max_req s) (e_req_chunks s) (e_max_res c) (e_res_chunks c),
        mkEnds (Z.min (e_send c) (e_recv s)) (Z.min (e_recv c) (e_send s)) (e_max_req s) (e_req_chunks s) (e_max_res c) (e_res_chunks c)).
Proof.
  intros C S U [A1 A2] B. unfold handshake.
  rewrite hello_fits by lia.
  assert (W : (length (write_string url) = 4 + length url)%nat).
  { unfold write_string. destruct url; [reflexivity|]. rewrite app_length. unfold write_int. rewrite le_enc_length. reflexivity. }
  replace (read_chunk scap (hello_layout c url)) with (Some (hello_layout c url, @nil byte)).
  2:{ symmetry. unfold hello_layout. apply read_whole; [lia|lia|].
      rewrite !app_length, W, !le_enc_length. unfold bytes in *. lia. }
  unfold server_accept. rewrite read_hello_layout by (assumption || lia).
  rewrite ack_fits by lia.
  set (s' := mkEnds _ _ _ _ _ _).
  assert (S' : ends_ok s').
  { destruct C as (C1 & C2 & C3 & C4 & C5 & C6), S as (S1 & S2 & S3 & S4 & S5 & S6). unfold s', ends_ok. cbn.
    destruct (e_send c <? e_recv s), (e_recv c <? e_send s); repeat split; try assumption; unfold u32_ok in *; lia. }
  assert (Hr : e_recv s' = Z.min (e_send c) (e_recv s)) by (unfold s'; cbn; destruct (e_send c <? e_recv s) eqn:Q; lia).
  assert (Hs : e_send s' = Z.min (e_recv c) (e_send s)) by (unfold s'; cbn; destruct (e_recv c <? e_send s) eqn:Q; lia).
  replace (read_chunk ccap (ack_layout s')) with (Some (ack_layout s', @nil byte)).
  2:{ symmetry. unfold ack_layout. apply read_whole; [lia|lia|]. rewrite !app_length, !le_enc_length. reflexivity. }
  destruct S' as (S1 & S2 & S3 & S4 & S5 & S6).
  unfold client_accept.
  match goal with |- match (match ?r ?b with _ => _ end) with _ => _ end = _ =>
    assert (H : codes false r (ack_layout s') (mkEnds (e_send s') (e_recv s') (e_max_req s') (e_req_chunks s') (e_max_res c) (e_res_chunks c))) end.
  { unfold ack_layout.
    eapply codes_bind; [apply codes_u32; unfold in_u; cbn; lia|]. cbn beta. rewrite Z.eqb_refl. cbn [negb].
    eapply codes_bind; [apply codes_u32; unfold in_u; cbn; lia|]. cbn beta. change (28 <? 28) with false. cbv iota.
    eapply codes_bind; [apply codes_u32; unfold in_u; cbn; lia|]. cbn beta. change (0 <? 0) with false. cbv iota.
    do 3 (eapply codes_bind; [apply codes_u32; assumption|]; cbn beta).
    eapply codes_bind_last; [apply codes_u32; assumption|]. apply codes_ret. }
  rewrite (codes_rt H stale2). clear H. rewrite Hr, Hs. f_equal. f_equal. unfold s' in *. clearbody s'. 
  cbn in Hr, Hs. cbn [e_recv e_send e_max_req e_req_chunks]. rewrite Hr, Hs. reflexivity.
Qed.

(** Against an arbitrary Hello the server only ever shrinks its own buffers. *)
Lemma server_shrinks cap s buf s' ack : server_accept cap s buf = Some (s', ack) ->
  e_recv s' <= e_recv s /\ e_send s' <= e_send s /\ e_max_req s' = e_max_req s /\ e_req_chunks s' = e_req_chunks s.
Proof.
  unfold server_accept. destruct (read_hello buf) as [[[[[recv send] size] chunks] url] rest|rest| |]; try discriminate.
  intros Q. injection Q as <- <-. cbn.
  destruct (send <? e_recv s) eqn:X, (recv <? e_send s) eqn:Y; lia.
Qed.
