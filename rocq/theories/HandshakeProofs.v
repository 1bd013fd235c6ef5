From Coq Require Import ZArith List Bool String Lia Strings.Byte.
From Coq Require Import ZifyBool ZifyNat ZifyN.
From Verif Require Import Bytes BytesProofs Text Keys Password PasswordSpec PasswordProofs Session SessionSpec SessionProofs
  ClientSession ClientSessionSpec ClientSessionProofs.
Import ListNotations.
Open Scope Z_scope.
Ltac Zify.zify_post_hook ::= idtac.

(** * Used credentials *)
Section R.
  Variable max_sessions : Z.
  Variable local_cert : bytes.
  Variable nan_ms dlen : Z.
  Variable verify : Z -> pname -> bytes -> bytes -> bool.
  Variable dec : wrap -> bytes -> option bytes.
  Variable cert_key : bytes -> option Z.
  Variable cert_uris : bytes -> list bytes.
  Variable auth : identity -> bytes -> authres.
  Let step := sstep max_sessions local_cert nan_ms dlen verify dec cert_key cert_uris auth.

  Lemma activated_inv st ch tok sig ut usig nonce tok' id n : snd (step st (OActivate ch tok sig ut usig nonce)) = EvActivated tok' id n ->
    exists s, get nan_ms st tok = Some s /\ ch_discovery ch = false /\ claimed local_cert dlen verify dec cert_key ch (s_nonce s) ut usig = Claim id /\
      auth id (s_app s) = AAccepts /\ tok' = tok /\ n = nonce.
  Proof.
    unfold step. cbn [sstep]. destruct (ch_discovery ch); [discriminate|].
    destruct (get nan_ms st tok) as [s|] eqn:Eg; [|discriminate].
    destruct (signed verify (ch_key ch) (ch_policy ch) (local_cert ++ s_nonce s) sig); cbn [negb]; [|discriminate].
    destruct (claimed local_cert dlen verify dec cert_key ch (s_nonce s) ut usig) as [id'| | |] eqn:Ecl; try discriminate.
    destruct (auth id' (s_app s)) eqn:Ea; try discriminate. cbn [snd]. intros E. injection E as E1 E2 E3. subst. exists s. repeat split; assumption.
  Qed.
  Lemma activates_when st ch tok sig ut usig nonce s id : ch_discovery ch = false -> get nan_ms st tok = Some s ->
    signed verify (ch_key ch) (ch_policy ch) (local_cert ++ s_nonce s) sig = true ->
    claimed local_cert dlen verify dec cert_key ch (s_nonce s) ut usig = Claim id -> auth id (s_app s) = AAccepts ->
    snd (step st (OActivate ch tok sig ut usig nonce)) = EvActivated tok id nonce.
  Proof. intros H1 H2 H3 H4 H5. unfold step. cbn [sstep]. now rewrite H1, H2, H3, H4, H5. Qed.

  Let run := srun max_sessions local_cert nan_ms dlen verify dec cert_key cert_uris auth.
  Lemma get_run ops tok old cch app cert : Forall real_chan ops ->
    let st := fst (run ops) in let h := snd (run ops) in
    timed_out nan_ms (ss_now st) h tok = false -> last_nonce h tok = Some old -> creator h tok = Some (cch, app, cert) ->
    exists s, get nan_ms st tok = Some s /\ s_nonce s = old /\ s_app s = app.
  Proof.
    intros F st h T Ln Cr. pose proof (R_run max_sessions local_cert nan_ms dlen verify dec cert_key cert_uris auth ops F) as HR.
    fold run in HR. fold st h in HR. destruct (get nan_ms st tok) as [s|] eqn:G.
    - exists s. split; [reflexivity|].
      apply (get_about max_sessions nan_ms _ h) in G; [|exact HR]. destruct G as ((A1 & A2 & A3 & (cch' & cert' & A4) & A5 & A6 & A7) & _).
      split; congruence.
    - rewrite (get_spec max_sessions nan_ms st h tok HR), T in G.
      destruct HR as (_ & _ & H). specialize (H tok). rewrite G in H. congruence.
  Qed.

  (** An encrypted password is as good in one session as in another. *)
  Lemma password_replay ops1 ch1 tok1 sig1 usig1 n1 e pid name cipher alg id ops2 ch2 tok2 sig2 usig2 n2 old cch app cert :
    snd (step (fst (run ops1)) (OActivate ch1 tok1 sig1 (UUserName pid name cipher alg) usig1 n1)) = EvActivated e id n1 ->
    Forall real_chan ops2 -> let st := fst (run ops2) in let h := snd (run ops2) in
    ch_discovery ch2 = false -> ch_tokens ch2 = ch_tokens ch1 -> ch_ep_policy ch2 = ch_ep_policy ch1 ->
    timed_out nan_ms (ss_now st) h tok2 = false -> last_nonce h tok2 = Some old -> creator h tok2 = Some (cch, app, cert) ->
    (ch_policy ch2 <> PNone -> verify (ch_key ch2) (ch_policy ch2) (local_cert ++ old) sig2 = true) ->
    auth id app = AAccepts ->
    snd (step st (OActivate ch2 tok2 sig2 (UUserName pid name cipher alg) usig2 n2)) = EvActivated tok2 id n2.
  Proof.
    intros H F st h Hd Ht Hp T Ln Cr Hs Ha. apply activated_inv in H as (s1 & _ & _ & Hc & _).
    destruct (get_run ops2 tok2 old cch app cert F T Ln Cr) as (s2 & Hg & En & Ea). subst old app.
    apply (activates_when _ _ _ _ _ _ _ s2 id Hd Hg); [| |exact Ha].
    - unfold signed. destruct (ch_policy ch2) eqn:E; [reflexivity|..]; apply Hs; congruence.
    - rewrite <- Hc. unfold claimed, find_policy. now rewrite Ht, Hp.
  Qed.

  (** A certificate's signature is bound to the nonce. *)
  Lemma certificate_once ops ch tok sig pid cert usig nonce k old : Forall real_chan ops ->
    let st := fst (run ops) in let h := snd (run ops) in
    (forall t, In t (ch_tokens ch) -> tp_type t = TCertificate -> match tp_policy t with Some p => p | None => ch_policy ch end <> PNone) ->
    cert_key cert = Some k -> (forall p m, p <> PNone -> verify k p m usig = true -> m = local_cert ++ old) -> last_nonce h tok <> Some old ->
    forall e id n, snd (step st (OActivate ch tok sig (UX509 pid cert) usig nonce)) <> EvActivated e id n.
  Proof.
    intros F st h Hp Hk Hu Hn e id n H.
    apply (activated_spec max_sessions local_cert nan_ms dlen verify dec cert_key cert_uris auth ops) in H; [|exact F].
    destruct H as (_ & _ & _ & _ & o & cch & app & crt & Ho & _ & _ & (_ & t & Ht & _ & Hty & k' & Ek & Hv) & _).
    cbn in Hty. injection Hty as Hty. rewrite Hk in Ek. injection Ek as <-.
    pose proof (Hp t Ht (eq_sym Hty)) as Hpn. apply (Hu _ _ Hpn) in Hv; [|exact Hpn]. apply app_inv_head in Hv.
    apply Hn. unfold h, run. rewrite Ho. now f_equal.
  Qed.
End R.

(** * A client and a server that fit together *)
Section H.
  Variable max_sessions : Z.
  Variable local_cert : bytes.
  Variable nan_ms : Z.
  Variable pub : Z -> Z.
  Variable size : Z -> Z.
  Variable sign : Z -> scheme -> bytes -> option bytes.
  Variable verify : Z -> scheme -> bytes -> bytes -> bool.
  Variable enc : Z -> wrap -> nat -> bytes -> bytes.
  Variable dec : wrap -> bytes -> option bytes.
  Variable cert_key : bytes -> certkey.
  Variable cert_uris : bytes -> list bytes.
  Variable auth : identity -> bytes -> authres.
  Variable skey : Z.
  Let step := sstep max_sessions local_cert nan_ms (size (pub skey)) (server_verify verify) dec (server_cert_key cert_key) cert_uris auth.

  Hypothesis SW : signatures_work pub sign verify.
  Hypothesis EW : rsa_works (enc (pub skey)) dec (size (pub skey)).
  Hypothesis EZ : size_ok (size (pub skey)).

  Lemma protect_ok p r secret nonce :
    exists alg d, protect size enc (Some (pub skey)) p r secret nonce = Protected alg d /\
      (alg, d) = client_password (enc (pub skey)) p (size (pub skey)) r secret nonce.
  Proof.
    unfold protect. destruct EZ as [Z1 Z2].
    assert (0 <= overhead (wrap_of p) <= 66) by (destruct p; cbn; lia).
    destruct p; [exists WNone, secret; split; reflexivity|..];
      (destruct (_ <? 0) eqn:E1; [lia|]; destruct (_ =? 0) eqn:E2; [lia|];
       destruct (client_password _ _ _ _ _ _) as [alg d]; exists alg, d; auto).
  Qed.

  Lemma find_server ty l t : first_of ty l = Some t ->
    find (fun x => ttype_eqb (tp_type x) ty && bytes_eqb (tp_id x) (p_id t)) (map server_policy l) = Some (server_policy t).
  Proof.
    unfold first_of. induction l as [|x l IH]; cbn [find map]; [discriminate|].
    cbn [server_policy tp_type tp_id]. destruct (ttype_eqb (p_type x) ty) eqn:E.
    - intros [= ->]. cbn [andb]. now rewrite bytes_eqb_refl'.
    - cbn [andb]. exact IH.
  Qed.
  Lemma policy_server c t ch : c_policy c = standard_uri (ch_policy ch) ->
    match tp_policy (server_policy t) with Some p => p | None => ch_policy ch end = effective (token_uri c t).
  Proof.
    intros H. unfold token_uri. cbn [server_policy tp_policy]. destruct (p_uri t); [rewrite H, effective_standard|]; reflexivity.
  Qed.
  Lemma server_verify_scheme k p m g s : scheme_of p = Some s -> server_verify verify k p m g = verify k s m g.
  Proof. unfold server_verify. destruct p; cbn; intros [= <-]; reflexivity. Qed.
  Lemma app_uri c default : (exists u l, cert_uris (c_cert c) = u :: l /\ u <> []) ->
    match application_uri (cert_uris (c_cert c)) default with
    | [] => false | _ => existsb (fun u => bytes_eqb u (application_uri (cert_uris (c_cert c)) default)) (cert_uris (c_cert c)) end = true.
  Proof.
    intros (u & l & -> & Hn). cbn [application_uri]. destruct u as [|b u]; [congruence|]. cbn [existsb]. now rewrite bytes_eqb_refl'.
  Qed.

  Lemma slook_sput l k s : slook (sput l k s) k = Some s.
  Proof.
    unfold sput. assert (F : slook (sdel l k) k = None).
    { unfold sdel. induction l as [|[k' s'] l IH]; cbn [filter fst]; [reflexivity|]. destruct (bytes_eqb k' k) eqn:E; cbn [negb]; [exact IH|].
      cbn [slook]. now rewrite E. }
    induction (sdel l k) as [|[k' s'] l' IH]; cbn [app slook]; [now rewrite bytes_eqb_refl'|].
    cbn [slook] in F. destruct (bytes_eqb k' k); [discriminate|auto].
  Qed.

  Lemma handshake st c ch default rt cnonce r token nonce eps ms nonce' : fits cert_key pub local_cert skey cert_uris c ch -> room max_sessions st ->
    presentable cert_key pub c -> List.length cnonce = 32%nat -> List.length nonce = 32%nat -> (ms <= 10000)%N ->
    auth (identity_of_user (c_user c)) (application_uri (cert_uris (c_cert c)) default) = AAccepts ->
    let app := application_uri (cert_uris (c_cert c)) default in
    let create := step st (OCreate ch (Some rt) app (c_cert c) cnonce token nonce) in
    (exists t, snd create = EvCreated token nonce (Some t)) /\
    exists sig, server_signature sign skey (ch_policy ch) (c_cert c) cnonce = Some sig /\
    exists a, after_create cert_key size sign verify enc c cnonce r (mkCreated token nonce local_cert sig eps) = Sends a /\
    let act := step (fst (step (fst create) (OTick ms)))
      (OActivate ch (a_token a) (g_bytes (a_signature a)) (a_user a) (g_bytes (a_user_signature a)) nonce') in
    snd act = EvActivated token (identity_of_user (c_user c)) nonce' /\
    (ch_id ch <> 0 -> snd (step (fst act) (OService ch (a_token a))) = EvServed token).
  Proof.
    intros F R P Lc Ln Lms Ha app create.
    destruct F as [Fp [Fd Fe] Ft Fk [Fs Fsk] Fu]. destruct P as [(t0 & Ht0 & Hty0) Pu].
    set (p := ch_policy ch) in *.
    assert (Ecr : create = (mkSState (ss_now st) (sput (ss_table st) token (mkSession (clamp_timeout (Some rt)) (ss_now st) nonce 0 None app)),
                            EvCreated token nonce (clamp_timeout (Some rt)))).
    { unfold create, step. cbn [sstep]. rewrite Fd. fold p.
      assert (Hroom : (0 <? max_sessions) && (max_sessions <=? Z.of_nat (List.length (ss_table st))) = false) by (unfold room in R; lia).
      rewrite Hroom.
      destruct p eqn:Ep; [reflexivity|..]; (cbn [andb];
        assert (U := app_uri c default (Fu ltac:(congruence))); fold app in U;
        rewrite U; cbn [negb]; replace (Z.of_nat (List.length cnonce) <? nonceLength) with false by (unfold nonceLength; lia); reflexivity). }
    rewrite Ecr. cbn [fst snd].
    assert (Eclamp : exists t, clamp_timeout (Some rt) = Some t /\ 10000 <= t).
    { eexists. split; [reflexivity|]. unfold minSessionTimeout, maxSessionTimeout. cbv zeta.
      destruct (rt <? 10000) eqn:?; destruct (3600000 <? _) eqn:?; lia. }
    destruct Eclamp as (tmo & Etmo & Ltmo). rewrite Etmo. split; [eauto|].
    assert (Esig : exists sig, server_signature sign skey p (c_cert c) cnonce = Some sig /\
              forall s, scheme_of p = Some s -> verify (pub skey) s (c_cert c ++ cnonce) (g_bytes sig) = true).
    { unfold server_signature. destruct (scheme_of p) as [s|]; [|exists no_signature; split; [reflexivity|discriminate]].
      destruct (SW skey s (c_cert c ++ cnonce)) as (g & Eg & Ev). rewrite Eg. exists (mkSig (scheme_uri s) g). split; [reflexivity|]. intros s' [= <-]. exact Ev. }
    destruct Esig as (sig & Esig & Vsig). exists sig. split; [exact Esig|].
    assert (Erk : remote_key cert_key (c_server_cert c) = Some (Some (pub skey))) by (unfold remote_key; now rewrite Fs, Fsk).
    assert (Emine : exists mine, match scheme_of p with
        | None => Some no_signature
        | Some s => match sign (c_key c) s (c_server_cert c ++ nonce) with Some g => Some (mkSig (scheme_uri s) g) | None => None end
        end = Some mine /\ signed (server_verify verify) (ch_key ch) p (local_cert ++ nonce) (g_bytes mine) = true).
    { unfold signed. destruct (scheme_of p) as [s|] eqn:Es.
      - destruct (SW (c_key c) s (c_server_cert c ++ nonce)) as (g & Eg & Ev). rewrite Eg. exists (mkSig (scheme_uri s) g). split; [reflexivity|].
        cbn [g_bytes]. rewrite Fk, <- Fs. rewrite (server_verify_scheme _ _ _ _ s Es), Ev. destruct p; reflexivity.
      - exists no_signature. split; [reflexivity|]. destruct p; try discriminate Es. reflexivity. }
    destruct Emine as (mine & Emine & Vmine).
    assert (Ef : exists t, first_of (type_of_user (c_user c)) (c_tokens c) = Some t).
    { unfold first_of. destruct (find _ (c_tokens c)) as [t|] eqn:E; [eauto|]. exfalso. pose proof (find_none _ _ E t0 Ht0) as N. cbn in N.
      rewrite Hty0 in N. destruct (c_user c); discriminate N. }
    destruct Ef as (t & Ef).
    assert (PS := policy_server c t ch Fp). fold p in PS.
    assert (Epr : exists ut alg usig, present size sign enc c (Some (pub skey)) r nonce = Token ut alg usig /\
              claimed local_cert (size (pub skey)) (server_verify verify) dec (server_cert_key cert_key) ch nonce ut (g_bytes usig) = Claim (identity_of_user (c_user c))).
    { unfold present, claimed, find_policy. rewrite Ft. destruct (c_user c) as [|name password|cert k|data]; cbn [type_of_user identity_of_user] in *.
      - rewrite Ef. do 3 eexists. split; [reflexivity|]. cbn. now rewrite (find_server _ _ _ Ef).
      - rewrite Ef. destruct (protect_ok (effective (token_uri c t)) r password nonce) as (alg & d & E1 & E2). rewrite E1.
        do 3 eexists. split; [reflexivity|]. cbv beta iota. rewrite (find_server _ _ _ Ef). destruct Pu as [Pn Pl].
        destruct name as [|b name]; [congruence|]. rewrite Fe, PS.
        pose proof (password_ok (enc (pub skey)) dec (size (pub skey)) (effective (token_uri c t)) r password nonce EW EZ Ln (fun _ => Pl)) as W.
        rewrite <- E2 in W. now rewrite W.
      - rewrite Ef. destruct (scheme_of (effective (token_uri c t))) as [s|] eqn:Es.
        + destruct (SW k s (c_server_cert c ++ nonce)) as (g & Eg & Ev). rewrite Eg. do 3 eexists. split; [reflexivity|]. cbv beta iota.
          rewrite (find_server _ _ _ Ef). unfold server_cert_key. rewrite Pu. fold p. rewrite PS.
          unfold signed. cbn [g_bytes]. rewrite (server_verify_scheme _ _ _ _ s Es), <- Fs, Ev. destruct (effective (token_uri c t)); reflexivity.
        + do 3 eexists. split; [reflexivity|]. cbv beta iota. rewrite (find_server _ _ _ Ef). unfold server_cert_key. rewrite Pu. fold p. rewrite PS.
          unfold signed. destruct (effective (token_uri c t)); try discriminate Es. reflexivity.
      - destruct Pu. }
    destruct Epr as (ut & alg & usig & Epr & Ecl).
    exists (mkActivate token mine ut alg usig). split.
    { unfold after_create. rewrite Erk. cbn [r_cert r_nonce r_signature r_token]. rewrite Fs at 1. rewrite bytes_eqb_refl'. cbn [negb].
      rewrite Fp, effective_standard. fold p. rewrite Emine, Epr.
      destruct (scheme_of p) as [s|] eqn:Es; [rewrite (Vsig s eq_refl)|]; reflexivity. }
    cbn [a_token a_signature a_user a_user_signature].
    set (st2 := fst (step _ (OTick ms))).
    assert (Eg : get nan_ms st2 token = Some (mkSession (Some tmo) (ss_now st) nonce 0 None app)).
    { unfold get, st2, step. cbn [sstep fst ss_table ss_now]. rewrite slook_sput. unfold expired. cbn [s_timeout s_last].
      replace (tmo <? ss_now st + Z.of_N ms - ss_now st) with false by lia. reflexivity. }
    split.
    - apply (activates_when _ _ _ _ _ _ _ _ _ st2 ch token (g_bytes mine) ut (g_bytes usig) nonce' _ _ Fd Eg); assumption.
    - intros Hid. unfold step. cbn [sstep]. rewrite Fd, Eg. cbn [s_nonce]. fold p. rewrite Vmine. cbn [negb]. rewrite Ecl. cbn [s_app]. fold app in Ha. rewrite Ha.
      cbn [fst]. unfold get. cbn [ss_table ss_now]. rewrite slook_sput. unfold expired. cbn [s_timeout s_last s_chan].
      replace (tmo <? ss_now st2 - ss_now st2) with false by lia.
      cbn [s_chan]. replace (ch_id ch =? 0) with false by lia. rewrite Z.eqb_refl. reflexivity.
  Qed.

  (** Issued tokens are looked up among the certificate policies. *)
  Lemma issued_rejected st c cnonce r res a data ch nonce' s :
    after_create cert_key size sign verify enc c cnonce r res = Sends a -> c_user c = Issued data ->
    fits cert_key pub local_cert skey cert_uris c ch -> get nan_ms st (a_token a) = Some s -> s_nonce s = r_nonce res ->
    (forall t u, offered c TIssued t -> In u (c_tokens c) -> p_type u = TCertificate -> p_id u <> p_id t) ->
    snd (step st (OActivate ch (a_token a) (g_bytes (a_signature a)) (a_user a) (g_bytes (a_user_signature a)) nonce')) = EvFault FTokenInvalid.
  Proof.
    intros H Hu F Hg Hn Hd. pose proof (own_signature cert_key size sign verify enc _ _ _ _ _ _ H (fit_policy _ _ _ _ _ _ _ F)) as [_ Hsig].
    apply token_sent in H as (t & Hoff & Htok). rewrite Hu in Hoff, Htok. cbn [type_of_user] in Hoff. destruct Htok as (d & Htok & _).
    destruct F as [Fp [Fd Fe] Ft Fk [Fs Fsk] Fu]. unfold step. cbn [sstep]. rewrite Fd, Hg, Htok.
    assert (V : signed (server_verify verify) (ch_key ch) (ch_policy ch) (local_cert ++ s_nonce s) (g_bytes (a_signature a)) = true).
    { unfold signed. destruct (standard_signature (ch_policy ch)) as [[sch uri]|] eqn:Es; [|destruct (ch_policy ch); try discriminate Es; reflexivity].
      destruct Hsig as (g & Eg & Ea). rewrite Ea, Hn, <- Fs, Fk. cbn [g_bytes].
      destruct (SW (c_key c) sch (c_server_cert c ++ r_nonce res)) as (g' & Eg' & Ev). rewrite Eg in Eg'. injection Eg' as <-.
      unfold server_verify. rewrite Es, Ev. destruct (ch_policy ch); reflexivity. }
    rewrite V. cbn [negb claimed]. unfold find_policy. rewrite Ft.
    destruct (find _ (map server_policy (c_tokens c))) as [x|] eqn:E; [|reflexivity]. exfalso.
    apply find_some in E as [E1 E2]. apply in_map_iff in E1 as (u & <- & Hin). cbn in E2. apply andb_true_iff in E2 as [E2 E3].
    apply ttype_eqb_eq in E2. apply bytes_eqb_eq in E3. exact (Hd t u Hoff Hin E2 E3).
  Qed.
End H.
