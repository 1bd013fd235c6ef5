(** Replay, unauthenticated OPN messages, crashes: lemmas about the server's channel. *)
From Coq Require Import ZArith List Bool Lia Strings.Byte ZifyBool ZifyNat.
From Verif Require Import Bytes Prim PrimSpec CodecSpec BytesProofs PrimProofs Chunk ChunkSpec ChunkProofs ChunkLemmas Asym AsymSpec AsymProofs AsymLemmas Keys KeysSpec KeysProofs ServerChannel ServerChannelSpec ServerChannelProofs Tac.
Import ListNotations.
Open Scope Z_scope.
Local Arguments token_of : simpl never.

Section Server.
  Variable hmac : hash -> bytes -> bytes -> bytes.
  Variable cbc_dec : bytes -> bytes -> bytes -> bytes.
  Variable rsa_dec : bytes -> option bytes.
  Variable rsa_verify : option bytes -> bytes -> bytes -> bool.
  Variable pol_uri : bytes -> option pname.
  Variable cert_key : option bytes -> rkey.
  Variable lsize : Z.
  Variable decode : bytes -> option request.
  Notation step := (srv_step hmac cbc_dec rsa_dec rsa_verify pol_uri cert_key lsize decode).
  Notation run := (srv_run hmac cbc_dec rsa_dec rsa_verify pol_uri cert_key lsize decode).
  Notation chunk := (srv_chunk hmac cbc_dec).
  Notation sopen := (srv_open rsa_dec rsa_verify pol_uri cert_key lsize).

  Lemma run_app l1 l2 : forall s, run s (l1 ++ l2) =
    (fst (run (fst (run s l1)) l2), snd (run s l1) ++ snd (run (fst (run s l1)) l2)).
  Proof.
    induction l1 as [|a l1 IH]; intros s; cbn [app srv_run]; [cbn [fst snd app]; destruct (run s l2); reflexivity|].
    destruct (step s a) as [s1 e1]. rewrite IH. destruct (run s1 l1) as [s2 e2]. cbn [fst snd].
    rewrite app_assoc. reflexivity.
  Qed.
  Lemma step_dead s a : v_life s <> Alive -> step s a = (s, []).
  Proof. destruct a. unfold srv_step. destruct (v_life s); [congruence|reflexivity..]. Qed.
  Lemma run_dead l s : v_life s <> Alive -> run s l = (s, []).
  Proof.
    intros D. induction l as [|a l IH]; [reflexivity|]. cbn [srv_run]. rewrite step_dead by exact D. rewrite IH. reflexivity.
  Qed.

  Lemma sym_test b : In (u32_at 0 b) [t_final; t_chunk; t_close] ->
    (u32_at 0 b =? t_final) || (u32_at 0 b =? t_chunk) || (u32_at 0 b =? t_close) = true.
  Proof.
    intros [E|[E|[E|[]]]]; rewrite <- E, Z.eqb_refl; rewrite ?orb_true_r; reflexivity.
  Qed.

  Lemma select_token_same s t s1 : select_token hmac s t = Some s1 -> v_token s1 = t /\ select_token hmac s1 t = Some s1.
  Proof.
    intros H. assert (T : v_token s1 = t).
    { apply select_cases in H as [[E ->]|(E & E2 & ->)]; [auto|]. cbn. auto. }
    split; [exact T|]. unfold select_token. rewrite T, Z.eqb_refl. reflexivity.
  Qed.
  Lemma select_keeps s t s1 : select_token hmac s t = Some s1 ->
    v_life s1 = v_life s /\ v_chan s1 = v_chan s /\ v_count s1 = v_count s /\ v_acc s1 = v_acc s /\
    v_max_chunks s1 = v_max_chunks s /\ v_max_size s1 = v_max_size s.
  Proof. intros H. apply select_cases in H as [[_ ->]|(_ & _ & ->)]; cbn; auto 10. Qed.

  Lemma chunk_same s b s1 : select_token hmac s (token_of b) = Some s1 -> chunk s1 b = chunk s b \/ (snd (chunk s b) = RxErr /\ snd (chunk s1 b) = RxErr).
  Proof.
    intros H. pose proof (select_token_same _ _ _ H) as [_ H2]. pose proof (select_keeps _ _ _ H) as (_ & C & _).
    unfold srv_chunk. cbv zeta. fold (token_of b). rewrite C, H, H2.
    destruct (negb _); [right; auto|]. destruct (_ <? 16); [right; auto|]. destruct (negb _); [right; auto|]. left. reflexivity.
  Qed.

  Lemma step_select s a t : symmetric a -> token_is t a -> v_life (fst (step s a)) = Alive ->
    exists s1, select_token hmac s t = Some s1 /\ step s1 a = step s a.
  Proof.
    destruct a as [b stale fresh]. cbn [symmetric token_is]. intros Y T L.
    unfold srv_step in L. destruct (v_life s) eqn:LS; [|cbn in L; congruence..].
    destruct ((0 <? wrap32 (v_max_chunks s)) && (wrap32 (v_max_chunks s) <? v_count s + 1)) eqn:LIM; [discriminate L|].
    cbv zeta in L. rewrite (sym_test b Y) in L.
    assert (SEL : exists s1, select_token hmac s t = Some s1).
    { unfold srv_chunk in L. cbv zeta in L. fold (token_of b) in L. rewrite T in L.
      destruct (negb _); [discriminate L|]. destruct (_ <? 16); [discriminate L|]. destruct (negb _); [discriminate L|].
      destruct (select_token hmac s t) as [s1|]; [eauto|discriminate L]. }
    destruct SEL as [s1 SEL]. exists s1. split; [exact SEL|].
    pose proof (select_keeps _ _ _ SEL) as (K1 & K2 & K3 & K4 & K5 & K6).
    unfold srv_step. rewrite K1, LS, K5, K3, LIM. cbv zeta. rewrite (sym_test b Y).
    rewrite <- T in SEL. destruct (chunk_same s b s1 SEL) as [E|[E1 E2]]; [rewrite E; reflexivity|].
    destruct (chunk s b) as [x r]. cbn in E1. subst r. discriminate L.
  Qed.

  (** with the token already in use a step only changes the message being read *)
  Lemma step_stay s1 k acc a t : symmetric a -> token_is t a -> v_token s1 = t ->
    v_life (fst (step (upd_acc s1 k acc) a)) = Alive ->
    (forall t' ln rn, ~ In (Issued t' ln rn) (snd (step (upd_acc s1 k acc) a))) ->
    exists k' acc', fst (step (upd_acc s1 k acc) a) = upd_acc s1 k' acc' /\
      snd (step (upd_acc s1 k acc) a) <> [] /\
      (forall pre body, snd (step (upd_acc s1 k acc) a) = pre ++ [Handed body ReqOther] -> k' = 0 /\ acc' = []).
  Proof.
    destruct a as [b stale fresh]. cbn [symmetric token_is]. intros Y T TK.
    unfold srv_step. set (s := upd_acc s1 k acc).
    destruct (v_life s) eqn:LS; [|cbn [fst]; congruence..].
    destruct (_ && _); [cbn; discriminate|]. cbv zeta. rewrite (sym_test b Y).
    assert (SEL : select_token hmac s (u32_at 12 b) = Some s).
    { unfold select_token, s. cbn [upd_acc v_token]. fold (token_of b). rewrite TK, T, Z.eqb_refl. reflexivity. }
    assert (CH : fst (chunk s b) = s).
    { unfold srv_chunk. cbv zeta. destruct (negb _); [reflexivity|]. destruct (_ <? 16); [reflexivity|]. destruct (negb _); [reflexivity|].
      rewrite SEL. destruct (_ && _); reflexivity. }
    destruct (chunk s b) as [s2 r]. cbn [fst] in CH. subst s2.
    destruct r as [final rid part| | |x]; try (cbn; discriminate).
    destruct (_ && _); [cbn; discriminate|].
    destruct final.
    - unfold srv_handle. destruct (decode _) as [r|]; [|cbn; discriminate].
      destruct r as [[]| |]; cbn [srv_renew fst snd upd_life v_life]; try discriminate.
      + intros _ N. exfalso. eapply N. right. right. left. reflexivity.
      + intros _ _. exists 0, []. split; [reflexivity|]. split; [discriminate|]. auto.
    - cbn [fst snd]. intros _ _. exists (v_count s + 1), (v_acc s ++ part). split; [reflexivity|]. split; [discriminate|].
      intros pre body Q. destruct pre as [|? [|? ?]]; discriminate Q.
  Qed.

  Lemma run_stay t s1 : v_token s1 = t -> forall l k acc, Forall symmetric l -> Forall (token_is t) l ->
    v_life (fst (run (upd_acc s1 k acc) l)) = Alive ->
    (forall t' ln rn, ~ In (Issued t' ln rn) (snd (run (upd_acc s1 k acc) l))) ->
    exists k' acc', fst (run (upd_acc s1 k acc) l) = upd_acc s1 k' acc'.
  Proof.
    intros TK. induction l as [|a l IH]; intros k acc FS FT L N; [exists k, acc; reflexivity|].
    inversion FS as [|? ? S1 S2]; inversion FT as [|? ? T1 T2]; subst. cbn [srv_run] in *.
    destruct (step (upd_acc s1 k acc) a) as [s2 e1] eqn:ST.
    destruct (run s2 l) as [s3 e2] eqn:RN. cbn [fst snd] in *.
    assert (L2 : v_life s2 = Alive).
    { destruct (v_life s2) eqn:Q; [reflexivity|..]; rewrite run_dead in RN by congruence; injection RN as <- <-; congruence. }
    assert (N1 : forall t' ln rn, ~ In (Issued t' ln rn) e1) by (intros t' ln rn H; apply (N t' ln rn), in_or_app; auto).
    destruct (step_stay s1 k acc a (v_token s1) S1 T1 eq_refl) as (k2 & acc2 & E & _).
    { rewrite ST. exact L2. } { rewrite ST. exact N1. }
    rewrite ST in E. cbn in E. subst s2.
    specialize (IH k2 acc2 S2 T2). rewrite RN in IH. cbn [fst snd] in IH.
    apply IH; [exact L|]. intros t' ln rn H. apply (N t' ln rn), in_or_app. auto.
  Qed.

  (** A message that was accepted is accepted again, and again. *)
  Lemma replay s l t s' pre body : idle s -> l <> [] -> Forall symmetric l -> Forall (token_is t) l ->
    run s l = (s', pre ++ [Handed body ReqOther]) -> v_life s' = Alive ->
    (forall e, In e pre -> part_of e <> None) ->
    run s' l = (s', pre ++ [Handed body ReqOther]) /\ idle s'.
  Proof.
    intros (I1 & I2 & I3) NE FS FT R L P.
    assert (NI : forall t' ln rn, ~ In (Issued t' ln rn) (pre ++ [Handed body ReqOther])).
    { intros t' ln rn H. apply in_app_or in H as [H|[H|[]]]; [apply P in H; apply H; reflexivity|discriminate]. }
    destruct l as [|a l0] eqn:EL; [congruence|].
    assert (A1 : v_life (fst (step s a)) = Alive).
    { cbn [srv_run] in R. destruct (step s a) as [s2 e1]. cbn [fst].
      destruct (v_life s2) eqn:Q; [reflexivity|..]; rewrite run_dead in R by congruence; injection R as <- _; congruence. }
    inversion FS as [|? ? S1 S2]; inversion FT as [|? ? T1 T2]; subst.
    destruct (step_select s a t S1 T1 A1) as (s1 & SEL & ST).
    assert (RR : run s1 (a :: l0) = run s (a :: l0)) by (cbn [srv_run]; rewrite ST; reflexivity).
    pose proof (select_keeps _ _ _ SEL) as (K1 & _ & K3 & K4 & _).
    pose proof (proj1 (select_token_same _ _ _ SEL)) as TK.
    assert (E1 : s1 = upd_acc s1 0 []) by (rewrite I2 in K3; rewrite I3 in K4; destruct s1; unfold upd_acc; cbn in *; congruence).
    (* last step *)
    destruct (exists_last (l := a :: l0)) as (l1 & z & EZ); [discriminate|].
    rewrite EZ in *. rewrite R in RR. rewrite run_app in RR.
    apply Forall_app in FS as [F1 F2]. apply Forall_app in FT as [G1 G2].
    pose proof (Forall_inv F2) as Fz. pose proof (Forall_inv G2) as Gz.
    assert (Lm : v_life (fst (run s1 l1)) = Alive).
    { destruct (v_life (fst (run s1 l1))) eqn:Q; [reflexivity|..]; rewrite (run_dead [z]) in RR by congruence; cbn in RR; injection RR as <- _; congruence. }
    destruct (run s1 l1) as [sm em] eqn:RM. cbn [fst snd] in *.
    cbn [srv_run] in RR. destruct (step sm z) as [sz ez] eqn:SZ. cbn [fst snd] in RR. rewrite app_nil_r in RR.
    injection RR as RS RE. subst sz.
    assert (NM : forall t' ln rn, ~ In (Issued t' ln rn) em) by (intros t' ln rn H; apply (NI t' ln rn); rewrite <- RE; apply in_or_app; auto).
    assert (NZ : forall t' ln rn, ~ In (Issued t' ln rn) ez) by (intros t' ln rn H; apply (NI t' ln rn); rewrite <- RE; apply in_or_app; auto).
    destruct (run_stay t s1 TK l1 0 [] F1 G1) as (k & acc & EM).
    { rewrite <- E1, RM. exact Lm. } { rewrite <- E1, RM. exact NM. }
    rewrite <- E1, RM in EM. cbn in EM. subst sm.
    destruct (step_stay s1 k acc z t Fz Gz TK) as (k' & acc' & ES & NEz & LZ).
    { rewrite SZ. exact L. } { rewrite SZ. exact NZ. }
    rewrite SZ in *. cbn [fst snd] in *.
    assert (HZ : exists pz, ez = pz ++ [Handed body ReqOther]).
    { destruct (exists_last NEz) as (pz & x & EX). exists pz. rewrite EX in RE. rewrite app_assoc in RE.
      apply app_inj_tail in RE as [_ ->]. exact EX. }
    destruct HZ as [pz HZ]. destruct (LZ pz body HZ) as [-> ->]. rewrite <- E1 in ES. subst s'.
    split; [|repeat split; congruence].
    rewrite run_app, RM. cbn [fst snd srv_run]. rewrite SZ. cbn [fst snd]. rewrite app_nil_r, RE. reflexivity.
  Qed.

  (* ---------------------------------------------------------------- *)
  (** OPN messages *)
  Lemma lim_one n : (0 <? n) && (n <? 0 + 1) = false.
  Proof. destruct (0 <? n) eqn:A, (n <? 0 + 1) eqn:B; cbn; lia. Qed.

  Lemma size_ok ms n : within ms n -> (0 <? ms) && (ms <? n) = false.
  Proof. intros [W|W]; destruct (0 <? ms) eqn:A, (ms <? n) eqn:B; cbn; lia. Qed.

  Lemma bare_recv uri body chan seq rid stale secure rsize verify : len_ok uri -> 0 <= chan < 2 ^ 32 -> 0 <= rid < 2 ^ 32 ->
    Z.of_nat (length (bare_open uri body chan seq rid)) < 2 ^ 32 -> secure uri = Some false ->
    u32_at 0 (bare_open uri body chan seq rid) = t_open /\
    recv_open rsa_dec verify secure rsize Server lsize (bare_open uri body chan seq rid) stale = AOpened uri None None rid body.
  Proof.
    intros U C R B S. set (b := bare_open uri body chan seq rid) in *.
    set (n := 8 + Z.of_nat (length (le_enc 4 chan ++ write_string uri ++ write_bytearray None ++ write_bytearray None ++ le_enc 4 seq ++ le_enc 4 rid ++ body))).
    assert (EB : b = (le_enc 4 t_open ++ le_enc 4 n ++ le_enc 4 chan ++ write_string uri ++ write_bytearray None ++ write_bytearray None) ++ le_enc 4 seq ++ le_enc 4 rid ++ body).
    { unfold b, bare_open. cbv zeta. fold n. rewrite <- !app_assoc. reflexivity. }
    assert (LN : Z.of_nat (length b) = n).
    { unfold b, bare_open, n. cbv zeta. rewrite (app_length (le_enc 4 t_open)), (app_length (le_enc 4 _)), !le_enc_length. unfold bytes in *. lia. }
    assert (NR : 0 <= n < 2 ^ 32) by (split; [unfold n; lia|rewrite <- LN; exact B]).
    assert (H : codes false (open_header Server)
      (le_enc 4 t_open ++ le_enc 4 n ++ le_enc 4 chan ++ write_string uri ++ write_bytearray None ++ write_bytearray None)
      (t_open, n, uri, None, None)).
    { unfold open_header.
      eapply codes_bind; [apply codes_u32; unfold in_u; cbn; lia|]. cbn beta.
      eapply codes_bind; [apply codes_u32; exact NR|]. cbn beta.
      eapply codes_bind; [apply codes_u32; exact C|]. cbn beta.
      eapply codes_bind; [apply codes_string; exact U|]. cbn beta.
      eapply codes_bind; [apply (codes_bytearray false None ltac:(discriminate))|]. cbn beta.
      eapply codes_bind_last; [apply (codes_bytearray false None ltac:(discriminate))|]. apply codes_ret. }
    split.
    { rewrite EB, <- !app_assoc. change (le_enc 4 t_open) with ([] ++ le_enc 4 t_open). rewrite <- app_assoc.
      rewrite (four [] _ 0 eq_refl). apply le4. cbn; lia. }
    pose proof (codes_rt (codes_u32 false t_open ltac:(unfold in_u; cbn; lia))) as R1. unfold reads_back in R1.
    pose proof (codes_rt (codes_u32 false n NR)) as R2. pose proof (codes_rt H) as R3. unfold reads_back in R2, R3.
    pose proof (R3 (le_enc 4 seq ++ le_enc 4 rid ++ body)) as H3. rewrite <- EB in H3.
    rewrite <- !app_assoc in EB.
    pose proof (R1 (le_enc 4 n ++ le_enc 4 chan ++ write_string uri ++ write_bytearray None ++ write_bytearray None ++ le_enc 4 seq ++ le_enc 4 rid ++ body)) as H1.
    unfold write_int in H1. rewrite <- EB in H1.
    unfold recv_open. rewrite H1, H3. clear H1 H3. unfold write_int in R2. rewrite R2.
    rewrite LN, Z.eqb_refl. cbn [negb]. rewrite Z.eqb_refl. cbn [negb]. cbv zeta. rewrite S.
    assert (L8 : Z.of_nat (length (le_enc 4 seq ++ le_enc 4 rid ++ body)) <? 8 = false).
    { rewrite !app_length, !le_enc_length. unfold bytes. lia. }
    rewrite L8. f_equal.
    rewrite (four _ _ 4 (le_enc_length 4 seq)). apply le4. exact R.
  Qed.

  Lemma open_not_sym b : u32_at 0 b = t_open -> (u32_at 0 b =? t_final) || (u32_at 0 b =? t_chunk) || (u32_at 0 b =? t_close) = false.
  Proof. intros ->. reflexivity. Qed.

  (** whatever request the unsigned message holds is handed over *)
  Lemma bare_step s uri body chan seq rid stale fresh r : idle s -> len_ok uri -> 0 <= chan < 2 ^ 32 -> 0 <= rid < 2 ^ 32 ->
    Z.of_nat (length (bare_open uri body chan seq rid)) < 2 ^ 32 -> pol_uri uri = Some PNone ->
    within (v_max_size s) (Z.of_nat (length body)) -> decode body = Some r ->
    step s (Arrive (bare_open uri body chan seq rid) stale fresh) =
    (let (s', ev) := srv_handle decode (upd_acc (upd_pol s PNone (v_cert s)) 1 body) body fresh in
     (s', OpenChunk (bare_open uri body chan seq rid) body :: ev)).
  Proof.
    intros (I1 & I2 & I3) U C R B P W D. unfold srv_step. rewrite I1, I2, lim_one. cbv zeta.
    destruct (bare_recv uri body chan seq rid stale
       (fun uri : bytes => match pol_uri uri with Some PNone => Some false | Some _ => Some true | None => None end)
       (fun c => cert_key (effective cert_key s c)) (fun c => rsa_verify (effective cert_key s c)) U C R B ltac:(cbv beta; rewrite P; reflexivity)) as [T RO].
    rewrite open_not_sym by exact T. unfold srv_open at 1. rewrite RO, P.
    cbn [upd_pol v_acc v_max_size]. rewrite I3. cbn [app]. rewrite size_ok by exact W. reflexivity.
  Qed.

  Lemma unsigned_open s uri body chan seq rid stale fresh : idle s -> len_ok uri -> 0 <= chan < 2 ^ 32 -> 0 <= rid < 2 ^ 32 ->
    Z.of_nat (length (bare_open uri body chan seq rid)) < 2 ^ 32 -> pol_uri uri = Some PNone ->
    within (v_max_size s) (Z.of_nat (length body)) -> decode body = Some ReqOther ->
    snd (step s (Arrive (bare_open uri body chan seq rid) stale fresh)) =
    [OpenChunk (bare_open uri body chan seq rid) body; Handed body ReqOther].
  Proof.
    intros I U C R B P W D. rewrite (bare_step s uri body chan seq rid stale fresh _ I U C R B P W D).
    unfold srv_handle. rewrite D. reflexivity.
  Qed.

  (** an unsigned renewal under policy None, then a chunk with the new token: the
      HMAC of policy None is nil *)
  Lemma unsigned_renew_crash s uri body chan seq rid stale fresh nonce b stale2 fresh2 :
    idle s -> len_ok uri -> 0 <= chan < 2 ^ 32 -> 0 <= rid < 2 ^ 32 ->
    Z.of_nat (length (bare_open uri body chan seq rid)) < 2 ^ 32 -> pol_uri uri = Some PNone ->
    within (v_max_size s) (Z.of_nat (length body)) -> decode body = Some (ReqOpen true nonce) -> v_mode s = MSign ->
    symmetric (Arrive b stale2 fresh2) -> u32_at 4 b = Z.of_nat (length b) -> 16 <= Z.of_nat (length b) ->
    u32_at 8 b = v_chan s -> token_of b = next_counter (v_last s) -> v_token s <> next_counter (v_last s) ->
    v_life (fst (run s [Arrive (bare_open uri body chan seq rid) stale fresh; Arrive b stale2 fresh2])) = Crashed.
  Proof.
    intros I U C R B P W D M SY L4 L16 L8 TK NT. cbn [srv_run].
    rewrite (bare_step s uri body chan seq rid stale fresh _ I U C R B P W D).
    unfold srv_handle. rewrite D. cbn [srv_renew].
    set (s2 := upd_pending _ _ _ _).
    assert (ST : fst (step s2 (Arrive b stale2 fresh2)) = fst (step s2 (Arrive b stale2 fresh2))) by reflexivity.
    destruct (step s2 (Arrive b stale2 fresh2)) as [s3 e3] eqn:E. cbn [fst].
    unfold srv_step in E. assert (LS : v_life s2 = Alive) by (destruct I as [I _]; exact I). rewrite LS in E.
    assert (CS : v_count s2 = 0) by reflexivity. rewrite CS, lim_one in E. cbv zeta in E.
    cbn [symmetric] in SY. rewrite (sym_test b SY) in E.
    unfold srv_chunk in E. cbv zeta in E. rewrite L4, Z.eqb_refl in E. cbn [negb] in E.
    destruct (Z.ltb_spec (Z.of_nat (length b)) 16); [lia|].
    assert (CH : v_chan s2 = v_chan s) by reflexivity. rewrite CH, L8, Z.eqb_refl in E. cbn [negb] in E.
    fold (token_of b) in E. rewrite TK in E. unfold select_token in E.
    assert (T2 : v_token s2 = v_token s) by reflexivity. rewrite T2 in E.
    destruct (Z.eqb_spec (v_token s) (next_counter (v_last s))); [contradiction|].
    assert (P2 : v_pending s2 = next_counter (v_last s)) by reflexivity. rewrite P2, Z.eqb_refl in E. cbn [negb] in E.
    assert (M2 : v_mode s2 = MSign) by exact M. rewrite M2 in E. cbn [encrypted andb secured upd_keys v_mode v_rkeys] in E. rewrite M2 in E. cbn in E.
    injection E as <- <-. reflexivity.
  Qed.

  (** right after Open the token in use is 0 and there are no keys *)
  Lemma token_zero_crash chan m p cert t ln rn mc ms b stale fresh : secured m = true ->
    symmetric (Arrive b stale fresh) -> u32_at 4 b = Z.of_nat (length b) -> 16 <= Z.of_nat (length b) ->
    u32_at 8 b = chan -> token_of b = 0 ->
    v_life (fst (step (opened chan m p cert t ln rn mc ms) (Arrive b stale fresh))) = Crashed.
  Proof.
    intros S SY L4 L16 L8 TK. unfold srv_step, opened. cbn [v_life v_count v_max_chunks]. rewrite lim_one. cbv zeta.
    cbn [symmetric] in SY. rewrite (sym_test b SY). unfold srv_chunk. cbv zeta. rewrite L4, Z.eqb_refl. cbn [negb].
    destruct (Z.ltb_spec (Z.of_nat (length b)) 16); [lia|]. cbn [v_chan]. rewrite L8, Z.eqb_refl. cbn [negb].
    fold (token_of b). rewrite TK. unfold select_token. cbn [v_token]. rewrite Z.eqb_refl. cbn [v_mode v_rkeys has_hmac negb].
    rewrite S. reflexivity.
  Qed.

  (** a message signed with whatever certificate it brings along *)
  Lemma own_certificate s (sign enc : bytes -> bytes) c pol cap send seq rid body fresh stale :
    idle s -> aconf_ok c -> good_rsa c sign enc rsa_dec rsa_verify (Some (a_cert c)) -> a_sec c = true ->
    pol_uri (a_uri c) = Some pol -> pol <> PNone -> cert_key (Some (a_cert c)) = RsaKey (a_sig c) -> lsize = a_cblk c ->
    send <= cap -> 0 <= send < 2 ^ 32 -> 0 <= rid < 2 ^ 32 -> body <> [] ->
    within (a_max_size c) (Z.of_nat (length body)) -> 0 <= a_max_size c -> open_fits c send (Z.of_nat (length body)) ->
    within (v_max_size s) (Z.of_nat (length body)) -> decode body = Some ReqOther ->
    exists ch, send_open sign enc c cap send seq rid body = AWrite ch /\
      snd (step s (Arrive ch stale fresh)) = [OpenChunk ch body; Handed body ReqOther].
  Proof.
    intros (I1 & I2 & I3) A G AS P PN CK LS SC S0 R BN W1 W2 F W3 D.
    assert (SC2 : seen Server (sent_cert c) = Some (a_cert c)) by (unfold sent_cert; rewrite AS; reflexivity).
    set (secure := fun uri : bytes => match pol_uri uri with Some PNone => Some false | Some _ => Some true | None => None end).
    assert (SE : secure (a_uri c) = Some (a_sec c)) by (unfold secure; rewrite P, AS; destruct pol; congruence).
    set (ver := fun c0 => rsa_verify (effective cert_key s c0)).
    set (rs := fun c0 => cert_key (effective cert_key s c0)).
    assert (EF : effective cert_key s (Some (a_cert c)) = Some (a_cert c)) by (unfold effective; rewrite CK; reflexivity).
    destruct (open_message sign enc rsa_dec ver secure rs Server c A) with (cap := cap) (send := send) (seq := seq) (rid := rid) (body := body) (stale := stale)
      as (ch & E1 & E2 & E3 & E4 & E5).
    { rewrite SC2. destruct G as [G1 G2]. split; [|exact G2]. intros m. unfold ver. rewrite EF. apply G1. }
    { exact SE. }
    { intros _. rewrite SC2. unfold rs. rewrite EF. exact CK. }
    all: try assumption.
    exists ch. split; [exact E1|].
    assert (T : u32_at 0 ch = t_open).
    { unfold recv_open in E5. unfold u32_at. cbn [skipn].
      destruct (read_uint 4 ch) as [t r4| | |] eqn:Q1; try discriminate E5. destruct (read_uint 4 r4) as [len r8| | |]; try discriminate E5.
      destruct (negb (_ =? len)); [discriminate E5|]. destruct (Z.eqb_spec t t_open) as [->|]; cbn [negb] in E5; [|discriminate E5].
      unfold read_uint, fmap, bind, read_full, ret in Q1. destruct (_ <? _); [discriminate Q1|].
      cbv beta iota in Q1. injection Q1 as Q1 _. exact Q1. }
    unfold srv_step. rewrite I1, I2, lim_one. cbv zeta. rewrite open_not_sym by exact T.
    unfold srv_open. fold secure. fold ver. fold rs. rewrite LS.
    replace (recv_open rsa_dec ver secure rs Server (a_cblk c) ch stale) with
      (AOpened (a_uri c) (seen Server (sent_cert c)) (seen Server (sent_thumb c)) rid body) by (symmetry; exact E5).
    rewrite P. destruct pol; try congruence; cbn [upd_pol v_acc v_max_size]; rewrite I3; cbn [app]; rewrite size_ok by exact W3;
      unfold srv_handle; rewrite D; reflexivity.
  Qed.
End Server.
