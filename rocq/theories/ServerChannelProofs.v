(** Proofs about the server's secure channel. *)
From Coq Require Import ZArith List Bool Lia Strings.Byte ZifyBool ZifyNat.
From Verif Require Import Bytes Prim PrimSpec CodecSpec BytesProofs PrimProofs Chunk ChunkSpec ChunkProofs ChunkLemmas Asym Keys KeysSpec ServerChannel ServerChannelSpec Tac.
Import ListNotations.
Open Scope Z_scope.

Local Arguments token_of : simpl never.
Lemma issued_app a b : issued (a ++ b) = issued a ++ issued b.
Proof. induction a as [|[]]; cbn; rewrite ?IHa; reflexivity. Qed.
Lemma newest_app a b : newest (a ++ b) = match newest b with Some t => Some t | None => newest a end.
Proof.
  unfold newest. rewrite issued_app, rev_app_distr. destruct (rev (issued b)) as [|[[t l] r] q]; reflexivity.
Qed.
Lemma in_use_app a b : in_use (a ++ b) = match in_use b with Some t => Some t | None => in_use a end.
Proof.
  induction a as [|[] a IH]; cbn [app in_use]; [destruct (in_use b); reflexivity|..]; rewrite ?IH; destruct (in_use b); reflexivity.
Qed.

(** every event of the trace is fine given what happened before it *)
Definition all_ok (ok : list event -> event -> Prop) (tr : list event) : Prop :=
  forall pre e post, tr = pre ++ e :: post -> ok pre e.
Lemma all_ok_snoc ok tr e : all_ok ok tr -> ok tr e -> all_ok ok (tr ++ [e]).
Proof.
  intros A B pre x post E. destruct post as [|y post _] using rev_ind.
  - apply app_inj_tail in E as [-> ->]. exact B.
  - change (pre ++ x :: post ++ [y]) with (pre ++ (x :: post) ++ [y]) in E. rewrite app_assoc in E.
    apply app_inj_tail in E as [-> _]. apply (A pre x post). reflexivity.
Qed.

Section Server.
  Variable hmac : hash -> bytes -> bytes -> bytes.
  Variable cbc_dec : bytes -> bytes -> bytes -> bytes.
  Variable rsa_dec : bytes -> option bytes.
  Variable rsa_verify : option bytes -> bytes -> bytes -> bool.
  Variable pol_uri : bytes -> option pname.
  Variable cert_key : option bytes -> rkey.
  Variable lsize : Z.
  Variable decode : bytes -> option request.
  Notation step := (srv_step hmac cbc_dec rsa_dec rsa_verify pol_uri cert_key lsize decode).
  Notation run := (srv_run hmac cbc_dec rsa_dec rsa_verify pol_uri cert_key lsize decode).
  Notation chunk := (srv_chunk hmac cbc_dec).
  Notation sopen := (srv_open rsa_dec rsa_verify pol_uri cert_key lsize).

  (* --- what a step can do --- *)
  Lemma select_cases s t s' : select_token hmac s t = Some s' ->
    (t = v_token s /\ s' = s) \/
    (t <> v_token s /\ t = v_pending s /\
     s' = upd_keys s (v_pending s)
            (if secured (v_mode s) then Some (v_pol s, derive hmac (v_pol s) (v_lnonce s) (v_rnonce s)) else v_rkeys s)
            (if secured (v_mode s) then Some (v_pol s, derive hmac (v_pol s) (v_rnonce s) (v_lnonce s)) else v_lkeys s)).
  Proof.
    unfold select_token. destruct (Z.eqb_spec (v_token s) t) as [E|E].
    - intros Q; injection Q as <-. left. auto.
    - destruct (Z.eqb_spec t (v_pending s)) as [E2|E2]; cbn [negb]; [|discriminate].
      destruct (_ && _); [discriminate|]. intros Q; injection Q as <-. right. auto.
  Qed.

  Lemma verified (sign dec : bytes -> bytes) c b f rid part :
    open_chunk sign dec c b = RxPart f rid part -> secured (c_mode c) = true ->
    exists text, (match c_mode c with MSignEnc => firstn 16 b ++ dec (skipn 16 b) | _ => b end) = text ++ sign text.
  Proof.
    intros O S.
    assert (X : forall b', open_body sign c b' = RxPart f rid part -> exists text, b' = text ++ sign text).
    { clear O. intros b'. unfold open_body. rewrite S. cbn [andb].
      destruct (_ <? 0) eqn:N; [discriminate|]. destruct (bytes_eqb _ _) eqn:Q; cbn [negb]; [|discriminate].
      intros _. apply bytes_eqb_eq in Q. eexists.
      set (n := Z.to_nat (Z.of_nat (length b') - c_sig c)) in *.
      rewrite <- (firstn_skipn n b') at 1. rewrite <- Q. reflexivity. }
    unfold open_chunk in O.
    repeat match type of O with (if ?x then _ else _) = _ => destruct x; [discriminate O|] end.
    apply X in O. destruct (c_mode c); cbn [encrypted] in O; exact O.
  Qed.

  (** a symmetric chunk that is accepted *)
  Lemma chunk_part s b s' f rid part : chunk s b = (s', RxPart f rid part) ->
    select_token hmac s (token_of b) = Some s' /\
    (secured (v_mode s') = true -> exists p k, v_rkeys s' = Some (p, k) /\ p <> PNone /\ signed_by hmac cbc_dec (v_mode s') p k b).
  Proof.
    unfold srv_chunk. cbv zeta. fold (token_of b).
    repeat match goal with |- (if ?x then _ else _) = _ -> _ => destruct x; [discriminate|] end.
    destruct (select_token hmac s (token_of b)) as [s1|] eqn:SE; [|discriminate].
    destruct (secured (v_mode s1) && negb (has_hmac (v_rkeys s1))) eqn:HH; [discriminate|].
    intros Q. injection Q as <- O. split; [reflexivity|]. intros S. rewrite S in HH. cbn [andb] in HH.
    destruct (v_rkeys s1) as [[p k]|] eqn:RK; [|discriminate HH].
    exists p, k. split; [reflexivity|]. split; [intros ->; discriminate HH|].
    apply verified in O; [|exact S]. unfold signed_by. cbn [conf_of c_mode] in O.
    destruct O as [text O]. exists text. unfold decrypt_with, verify_with in O. exact O.
  Qed.

  Lemma sopen_part s b stale s' r : sopen s b stale = (s', r) ->
    exists p c, s' = upd_pol s p c.
  Proof.
    unfold srv_open.
    destruct (recv_open _ _ _ _ _ _ _ _) as [uri cert th rid body| | |]; intros Q.
    - destruct (pol_uri uri) as [p|]; [|injection Q as <- <-; exists (v_pol s), (v_cert s); destruct s; reflexivity].
      destruct p; injection Q as <- <-; eexists; eexists; reflexivity.
    - injection Q as <- <-; exists (v_pol s), (v_cert s); destruct s; reflexivity.
    - injection Q as <- <-; exists (v_pol s), (v_cert s); destruct s; reflexivity.
    - injection Q as <- <-; exists (v_pol s), (v_cert s); destruct s; reflexivity.
  Qed.

  (* --- the invariant of the run --- *)
  Variable m : mode.
  Hypothesis sec : secured m = true.

  Definition ok (pre : list event) (e : event) : Prop :=
    match e with
    | Chunk b _ => authentic hmac cbc_dec m pre b
    | Handed body _ => exists evs, made_of pre evs body
    | _ => True
    end.
  Definition inv (tr : list event) (s : srv) : Prop :=
    all_ok ok tr /\
    (v_life s = Alive ->
     v_mode s = m /\ v_pending s <> 0 /\
     newest tr = Some (v_pending s) /\ In (v_pending s, v_lnonce s, v_rnonce s) (issued tr) /\
     (v_rkeys s = None -> v_token s = 0) /\
     (forall p k, v_rkeys s = Some (p, k) -> in_use tr = Some (v_token s) /\
        exists ln rn, In (v_token s, ln, rn) (issued tr) /\ k = derive hmac p ln rn) /\
     exists old e evs, tr = old ++ e :: evs /\ part_of e = None /\ carried evs (v_acc s) /\ (v_count s = 0 -> evs = []) /\ 0 <= v_count s /\
       0 <= v_last s < 2 ^ 32).

  Lemma carried_snoc evs body e p : carried evs body -> part_of e = Some p -> carried (evs ++ [e]) (body ++ p).
  Proof.
    induction 1 as [|e' p' evs body E C IH]; intros P; cbn [app].
    - rewrite <- (app_nil_r p). constructor; [exact P|constructor].
    - rewrite <- app_assoc. constructor; [exact E|apply IH, P].
  Qed.

  Lemma next_pos n : 0 <= n < 2 ^ 32 -> 0 < next_counter n < 2 ^ 32.
  Proof. unfold next_counter. destruct (n =? 4294967295) eqn:E; lia. Qed.

  (** accepting a chunk and adding its part *)
  Lemma inv_chunk tr s b s1 f rid part : inv tr s -> v_life s = Alive -> chunk s b = (s1, RxPart f rid part) ->
    inv (tr ++ [Chunk b part]) (upd_acc s1 (v_count s + 1) (v_acc s1 ++ part)).
  Proof.
    intros [A I] L C. destruct (I L) as (IM & IP & IN & II & IR & IK & old & e & evs & IT & IE & IC & I0 & I1 & IL).
    apply chunk_part in C as [SE SG].
    assert (M1 : v_mode s1 = m) by (apply select_cases in SE as [[_ ->]|(_ & _ & ->)]; exact IM).
    rewrite M1 in SG. specialize (SG sec) as (p & k & RK & PN & SB).
    assert (AU : authentic hmac cbc_dec m tr b /\ v_token s1 = token_of b /\
                 exists ln rn, In (token_of b, ln, rn) (issued tr) /\ k = derive hmac p ln rn).
    { unfold authentic. apply select_cases in SE as [[E ->]|(E & E2 & ->)].
      - destruct (IK p k RK) as (U & ln & rn & X & Y). rewrite <- E in *. repeat split.
        + left. exact U.
        + exists ln, rn, p. rewrite <- Y. auto.
        + exists ln, rn. auto.
      - cbn [upd_keys v_rkeys v_token] in *. rewrite IM, sec in RK. injection RK as <- <-. repeat split.
        + right. rewrite E2. exact IN.
        + exists (v_lnonce s), (v_rnonce s), (v_pol s). rewrite E2. auto.
        + symmetry. exact E2.
        + exists (v_lnonce s), (v_rnonce s). rewrite E2. auto. }
    destruct AU as (AU & TK & ln & rn & X & Y).
    assert (K1 : v_acc s1 = v_acc s /\ v_pending s1 = v_pending s /\ v_lnonce s1 = v_lnonce s /\ v_rnonce s1 = v_rnonce s /\ v_last s1 = v_last s)
      by (apply select_cases in SE as [[_ ->]|(_ & _ & ->)]; cbn; auto).
    destruct K1 as (K1 & K2 & K3 & K4 & K5).
    split; [apply all_ok_snoc; [exact A|exact AU]|].
    intros _. cbn [upd_acc v_mode v_pending v_lnonce v_rnonce v_rkeys v_token v_acc v_count v_last].
    rewrite M1, K1, K2, K3, K4, K5, RK, TK, newest_app, in_use_app, issued_app. cbn [issued app in_use newest rev]. 
    rewrite app_nil_r.
    split; [reflexivity|]. split; [exact IP|]. split; [exact IN|]. split; [exact II|].
    split; [discriminate|]. split.
    { intros p' k' Q. injection Q as <- <-. split; [reflexivity|]. exists ln, rn. auto. }
    exists old, e, (evs ++ [Chunk b part]). split; [rewrite IT, <- app_assoc; reflexivity|].
    split; [exact IE|]. split; [apply carried_snoc; [exact IC|reflexivity]|]. split; [lia|]. split; [lia|exact IL].
  Qed.

  Lemma inv_open tr s b stale s1 f rid part : inv tr s -> v_life s = Alive -> sopen s b stale = (s1, RxPart f rid part) ->
    inv (tr ++ [OpenChunk b part]) (upd_acc s1 (v_count s + 1) (v_acc s1 ++ part)).
  Proof.
    intros [A I] L C. destruct (I L) as (IM & IP & IN & II & IR & IK & old & e & evs & IT & IE & IC & I0 & I1 & IL).
    apply sopen_part in C as (p & c & ->).
    split; [apply all_ok_snoc; [exact A|exact Logic.I]|].
    intros _. cbn [upd_pol upd_acc v_mode v_pending v_lnonce v_rnonce v_rkeys v_token v_acc v_count v_last].
    rewrite newest_app, in_use_app, issued_app. cbn [issued app in_use newest rev]. rewrite app_nil_r.
    repeat (split; [assumption|]).
    exists old, e, (evs ++ [OpenChunk b part]). split; [rewrite IT, <- app_assoc; reflexivity|].
    split; [exact IE|]. split; [apply carried_snoc; [exact IC|reflexivity]|]. split; [lia|]. split; [lia|exact IL].
  Qed.

  Lemma inv_dead tr s x : all_ok ok tr -> x <> Alive -> inv tr (upd_life s x).
  Proof. intros A N. split; [exact A|]. cbn. intros Q. contradiction. Qed.

  Lemma inv_handle tr s fresh s2 evs : inv tr s -> v_life s = Alive -> v_count s <> 0 ->
    (exists tr' e, tr = tr' ++ [e] /\ part_of e <> None) ->
    srv_handle decode s (v_acc s) fresh = (s2, evs) -> inv (tr ++ evs) s2.
  Proof.
    intros [A I] L C0 (tr' & el & TE & PE). destruct (I L) as (IM & IP & IN & II & IR & IK & old & e & ev & IT & IE & IC & I0 & I1 & IL).
    unfold srv_handle. destruct (decode (v_acc s)) as [r|]; [|intros Q; injection Q as <- <-; rewrite app_nil_r; apply inv_dead; [exact A|discriminate]].
    assert (OKH : ok tr (Handed (v_acc s) r)).
    { cbn [ok]. exists ev. split; [|split; [exact IC|exists old, e; auto]].
      intros ->. rewrite IT in TE. apply app_inj_tail in TE as [_ <-]. contradiction. }
    assert (A1 : all_ok ok (tr ++ [Handed (v_acc s) r])) by (apply all_ok_snoc; assumption).
    destruct r as [renew nonce| |].
    - destruct renew.
      + cbn [srv_renew]. intros Q. injection Q as <- <-.
        match goal with |- inv (_ ++ [?h; ?x]) _ => change [h; x] with ([h] ++ [x]) end. rewrite app_assoc.
        split; [apply all_ok_snoc; [exact A1|exact Logic.I]|].
        intros _. cbn [upd_acc upd_pending v_mode v_pending v_lnonce v_rnonce v_rkeys v_token v_acc v_count v_last].
        rewrite !newest_app, !in_use_app, !issued_app. cbn [issued app in_use newest rev]. rewrite app_nil_r.
        pose proof (next_pos (v_last s) IL) as NP.
        split; [exact IM|]. split; [lia|]. split; [reflexivity|]. split; [apply in_or_app; right; left; reflexivity|].
        split; [exact IR|]. split.
        { intros p k RK. destruct (IK p k RK) as (U & ln & rn & X & Y). split; [exact U|]. exists ln, rn. split; [apply in_or_app; left; exact X|exact Y]. }
        eexists (tr ++ [_]), _, []. split; [reflexivity|]. split; [reflexivity|]. split; [constructor|]. split; [reflexivity|]. split; [lia|lia].
      + intros Q. injection Q as <- <-. apply inv_dead; [exact A1|discriminate].
    - intros Q. injection Q as <- <-. apply inv_dead; [exact A1|discriminate].
    - intros Q. injection Q as <- <-. split; [exact A1|].
      intros _. cbn [upd_acc v_mode v_pending v_lnonce v_rnonce v_rkeys v_token v_acc v_count v_last].
      rewrite !newest_app, !in_use_app, !issued_app. cbn [issued app in_use newest rev]. rewrite app_nil_r.
      repeat (split; [assumption|]).
      eexists tr, _, []. split; [reflexivity|]. split; [reflexivity|]. split; [constructor|]. split; [reflexivity|]. split; [lia|exact IL].
  Qed.

  Lemma chunk_life s b s1 r : chunk s b = (s1, r) -> v_life s1 = v_life s /\ v_acc s1 = v_acc s.
  Proof.
    unfold srv_chunk. cbv zeta.
    repeat match goal with |- (if ?x then _ else _) = _ -> _ => destruct x; [intros Q; injection Q as <- <-; auto|] end.
    destruct (select_token hmac s (u32_at 12 b)) as [s2|] eqn:SE; [|intros Q; injection Q as <- <-; auto].
    assert (v_life s2 = v_life s /\ v_acc s2 = v_acc s) by (apply select_cases in SE as [[_ ->]|(_ & _ & ->)]; cbn; auto).
    destruct (_ && _); intros Q; injection Q as <- <-; auto.
  Qed.
  Lemma sopen_life s b stale s1 r : sopen s b stale = (s1, r) -> v_life s1 = v_life s /\ v_acc s1 = v_acc s.
  Proof. intros Q. apply sopen_part in Q as (p & c & ->). auto. Qed.

  Lemma inv_step tr s a : inv tr s -> inv (tr ++ snd (step s a)) (fst (step s a)).
  Proof.
    intros I. destruct a as [b stale fresh]. unfold srv_step.
    destruct (v_life s) eqn:L; [|rewrite app_nil_r; exact I..].
    destruct (_ && _); [cbn; rewrite app_nil_r; apply inv_dead; [exact (proj1 I)|discriminate]|].
    cbv zeta. set (sym := _ || _ || _).
    destruct (if sym then chunk s b else sopen s b stale) as [s1 r] eqn:R.
    assert (LF : v_life s1 = Alive /\ v_acc s1 = v_acc s).
    { rewrite <- L. destruct sym; [eapply chunk_life|eapply sopen_life]; exact R. }
    destruct r as [final rid part| | |t]; try (cbn; rewrite app_nil_r; apply inv_dead; [exact (proj1 I)|discriminate]).
    set (ev := if sym then Chunk b part else OpenChunk b part).
    assert (I1 : inv (tr ++ [ev]) (upd_acc s1 (v_count s + 1) (v_acc s1 ++ part))).
    { unfold ev. destruct sym; [eapply inv_chunk|eapply inv_open]; eassumption. }
    destruct (_ && _); [cbn [fst snd]; apply inv_dead; [exact (proj1 I1)|discriminate]|].
    destruct final; [|exact I1].
    set (s2 := upd_acc s1 (v_count s + 1) (v_acc s1 ++ part)) in *.
    destruct (srv_handle decode s2 (v_acc s1 ++ part) fresh) as [s3 evs] eqn:H. cbn [fst snd].
    change (ev :: evs) with ([ev] ++ evs). rewrite app_assoc.
    destruct (proj2 I L) as (_ & _ & _ & _ & _ & _ & _ & _ & _ & _ & _ & _ & _ & C0 & _).
    eapply inv_handle; [exact I1|exact (proj1 LF)|unfold s2; cbn; lia| |exact H].
    exists tr, ev. split; [reflexivity|]. unfold ev. destruct sym; discriminate.
  Qed.

  Lemma inv_run l : forall tr s, inv tr s -> inv (tr ++ snd (run s l)) (fst (run s l)).
  Proof.
    induction l as [|a l IH]; intros tr s I; cbn [srv_run]; [cbn; rewrite app_nil_r; exact I|].
    pose proof (inv_step tr s a I) as I1. destruct (step s a) as [s1 e1]. cbn [fst snd] in I1.
    specialize (IH _ _ I1). destruct (run s1 l) as [s2 e2]. cbn [fst snd] in *. rewrite app_assoc. exact IH.
  Qed.

  Lemma inv_opened chan p cert t ln rn mc ms : 0 < t < 2 ^ 32 ->
    inv [Issued t ln rn] (opened chan m p cert t ln rn mc ms).
  Proof.
    intros T. split.
    - intros pre e post E. destruct pre as [|? [|? ?]]; [|discriminate E..]. injection E as <- <-. exact Logic.I.
    - intros _. cbn. split; [reflexivity|]. split; [lia|]. split; [reflexivity|]. split; [left; reflexivity|]. split; [reflexivity|].
      split; [discriminate|]. exists [], (Issued t ln rn), []. repeat split; try constructor; lia.
  Qed.

  Lemma run_ok chan p cert t ln rn mc ms l : 0 < t < 2 ^ 32 ->
    all_ok ok (Issued t ln rn :: snd (run (opened chan m p cert t ln rn mc ms) l)).
  Proof. intros T. exact (proj1 (inv_run l _ _ (inv_opened chan p cert t ln rn mc ms T))). Qed.
End Server.

(* ------------------------------------------------------------------ *)
(** A superseded token is refused: follows from the events alone. *)
Section Superseded.
  Variable hmac : hash -> bytes -> bytes -> bytes.
  Variable cbc_dec : bytes -> bytes -> bytes -> bytes.
  Variable m : mode.
  Variable t : Z.
  Notation okm := (ok hmac cbc_dec m).

  Lemma phase tr : all_ok okm tr -> forall l pre, tr = pre ++ l -> (forall ln rn, ~ In (Issued t ln rn) l) ->
    (in_use pre <> Some t /\ newest pre <> Some t) ->
    (in_use tr <> Some t /\ newest tr <> Some t) /\ forall b p, In (Chunk b p) l -> token_of b <> t.
  Proof.
    intros A l. induction l as [|e l IH]; intros pre E N [U W].
    { rewrite app_nil_r in E. subst. split; [auto|]. intros b p []. }
    assert (O : okm pre e) by (apply (A pre e l); exact E).
    assert (S : in_use (pre ++ [e]) <> Some t /\ newest (pre ++ [e]) <> Some t /\ forall b p, e = Chunk b p -> token_of b <> t).
    { rewrite in_use_app, newest_app. destruct e as [b p|b p|body r|t' ln rn]; cbn.
      - assert (token_of b <> t). { intros X. destruct O as [[O|O] _]; rewrite X in O; contradiction. }
        repeat split; [congruence|exact W|]. intros b' p' Q. injection Q as <- <-. assumption.
      - repeat split; auto. discriminate.
      - repeat split; auto. discriminate.
      - repeat split; auto; [|discriminate]. intros Q. injection Q as ->. apply (N ln rn). left. reflexivity. }
    destruct S as (S1 & S2 & S3).
    destruct (IH (pre ++ [e])) as [X Y].
    - rewrite <- app_assoc. exact E.
    - intros ln rn H. apply (N ln rn). right. exact H.
    - auto.
    - split; [exact X|]. intros b p [H|H]; [apply (S3 b p H)|apply (Y b p H)].
  Qed.

  (** from the use of [t] on: still in use, or gone *)
  Lemma phase1 tr : all_ok okm tr -> forall l pre, tr = pre ++ l -> (forall ln rn, ~ In (Issued t ln rn) l) ->
    in_use pre = Some t -> 
    (in_use tr = Some t /\ forall b p, In (Chunk b p) l -> token_of b = t) \/ (in_use tr <> Some t /\ newest tr <> Some t).
  Proof.
    intros A l. induction l as [|e l IH]; intros pre E N U.
    { rewrite app_nil_r in E. subst. left. split; [exact U|]. intros b p []. }
    assert (O : okm pre e) by (apply (A pre e l); exact E).
    assert (N' : forall ln rn, ~ In (Issued t ln rn) l) by (intros ln rn H; apply (N ln rn); right; exact H).
    assert (E' : tr = (pre ++ [e]) ++ l) by (rewrite <- app_assoc; exact E).
    assert (Same : in_use (pre ++ [e]) = Some t -> (forall b p, e = Chunk b p -> token_of b = t) ->
      (in_use tr = Some t /\ forall b p, In (Chunk b p) (e :: l) -> token_of b = t) \/ (in_use tr <> Some t /\ newest tr <> Some t)).
    { intros U' Q. destruct (IH _ E' N' U') as [[X Y]|X]; [left|right; exact X]. split; [exact X|].
      intros b p [H|H]; [apply (Q b p H)|apply (Y b p H)]. }
    destruct e as [b p|b p|body r|t' ln rn]; try (apply Same; [rewrite in_use_app; cbn; exact U|discriminate]).
    destruct (Z.eq_dec (token_of b) t) as [T|T].
    - apply Same; [rewrite in_use_app; cbn; congruence|]. intros b' p' Q. injection Q as <- <-. exact T.
    - right. destruct O as [[O|O] _]; [congruence|].
      eapply (fun H => proj1 (phase tr A l (pre ++ [Chunk b p]) E' N' H)).
      rewrite in_use_app, newest_app. cbn. split; [congruence|]. rewrite O. congruence.
  Qed.

  Lemma superseded pre b1 p1 mid1 b2 p2 mid2 b3 p3 post :
    all_ok okm (pre ++ Chunk b1 p1 :: mid1 ++ Chunk b2 p2 :: mid2 ++ Chunk b3 p3 :: post) ->
    token_of b1 = t -> token_of b2 <> t -> token_of b3 = t ->
    exists ln rn, In (Issued t ln rn) (mid1 ++ mid2).
  Proof.
    intros A T1 T2 T3.
    destruct (Exists_dec (fun e => match e with Issued t' _ _ => t' = t | _ => False end) (mid1 ++ mid2)) as [H|H].
    { intros [| | |t' ln rn]; [right; tauto..|destruct (Z.eq_dec t' t); auto]. }
    { apply Exists_exists in H as (e & I & Q). destruct e; try contradiction. subst. eauto. }
    exfalso. assert (N : forall ln rn, ~ In (Issued t ln rn) (mid1 ++ mid2)).
    { intros ln rn I. apply H, Exists_exists. exists (Issued t ln rn). auto. }
    set (tr2 := pre ++ Chunk b1 p1 :: mid1 ++ Chunk b2 p2 :: mid2).
    assert (A2 : all_ok okm tr2).
    { intros x e y E. apply (A x e (y ++ Chunk b3 p3 :: post)).
      unfold tr2 in E. transitivity (tr2 ++ Chunk b3 p3 :: post); [unfold tr2; repeat (rewrite <- app_assoc; cbn [app]); reflexivity|].
      unfold tr2. rewrite E. rewrite <- app_assoc. reflexivity. }
    assert (N2 : forall ln rn, ~ In (Issued t ln rn) (mid1 ++ Chunk b2 p2 :: mid2)).
    { intros ln rn I. apply (N ln rn). apply in_app_or in I as [I|[I|I]]; [apply in_or_app; auto|discriminate I|apply in_or_app; auto]. }
    destruct (phase1 tr2 A2 (mid1 ++ Chunk b2 p2 :: mid2) (pre ++ [Chunk b1 p1])) as [[_ X]|[X Y]].
    - unfold tr2. rewrite <- app_assoc. reflexivity.
    - exact N2.
    - rewrite in_use_app. cbn. congruence.
    - apply T2. apply (X b2 p2). apply in_or_app. right. left. reflexivity.
    - assert (O : okm tr2 (Chunk b3 p3)).
      { apply (A tr2 (Chunk b3 p3) post). unfold tr2. repeat (rewrite <- app_assoc; cbn [app]). reflexivity. }
      destruct O as [[O|O] _]; rewrite T3 in O; contradiction.
  Qed.
End Superseded.
