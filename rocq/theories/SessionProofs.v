From Coq Require Import ZArith List Bool Lia Strings.Byte.
From Coq Require Import ZifyBool ZifyNat ZifyN.
From Verif Require Import Bytes BytesProofs Keys Password Session SessionSpec.
Import ListNotations.
Open Scope Z_scope.
Ltac Zify.zify_post_hook ::= idtac.

Lemma beqb_spec (a b : bytes) : reflect (a = b) (bytes_eqb a b).
Proof. apply iff_reflect. symmetry. apply bytes_eqb_eq. Qed.
Lemma beqb_refl a : bytes_eqb a a = true. Proof. now apply bytes_eqb_eq. Qed.

Lemma slook_del_same l k : slook (sdel l k) k = None.
Proof.
  induction l as [|[k' s] l IH]; [reflexivity|]. unfold sdel in *; cbn [filter fst].
  destruct (bytes_eqb k' k) eqn:E; cbn [negb]; [exact IH|]. cbn [slook]. rewrite E. exact IH.
Qed.
Lemma slook_del_other l k k' : k' <> k -> slook (sdel l k) k' = slook l k'.
Proof.
  intros N. induction l as [|[k0 s] l IH]; [reflexivity|]. unfold sdel in *; cbn [filter fst slook].
  destruct (beqb_spec k0 k) as [->|E]; cbn [negb].
  - destruct (beqb_spec k k') as [->|_]; [congruence|]. exact IH.
  - cbn [slook]. destruct (bytes_eqb k0 k'); [reflexivity|exact IH].
Qed.
Lemma slook_app l m k : slook (l ++ m) k = match slook l k with Some s => Some s | None => slook m k end.
Proof. induction l as [|[k' s] l IH]; [reflexivity|]. cbn [slook app]. destruct (bytes_eqb k' k); auto. Qed.
Lemma slook_put_same l k s : slook (sput l k s) k = Some s.
Proof. unfold sput. rewrite slook_app, slook_del_same. cbn [slook]. now rewrite beqb_refl. Qed.
Lemma slook_put_other l k k' s : k' <> k -> slook (sput l k s) k' = slook l k'.
Proof.
  intros N. unfold sput. rewrite slook_app, slook_del_other by exact N. cbn [slook].
  destruct (beqb_spec k k') as [->|_]; [congruence|]. destruct (slook l k'); reflexivity.
Qed.
Lemma sdel_length l k : (length (sdel l k) <= length l)%nat.
Proof. unfold sdel. induction l as [|e l IH]; [cbn; lia|]. cbn [filter]. destruct (negb _); cbn [length]; lia. Qed.
Lemma sdel_length_lt l k s : slook l k = Some s -> (length (sdel l k) < length l)%nat.
Proof.
  induction l as [|[k' s'] l IH]; [discriminate|]. cbn [slook]. unfold sdel; cbn [filter fst length].
  destruct (bytes_eqb k' k) eqn:E; cbn [negb].
  - intros _. pose proof (sdel_length l k). unfold sdel in *. lia.
  - intros H. specialize (IH H). unfold sdel in *. cbn [length]. lia.
Qed.

Section S.
  Variable max_sessions : Z.
  Variable local_cert : bytes.
  Variable nan_ms : Z.
  Variable dlen : Z.
  Variable verify : Z -> pname -> bytes -> bytes -> bool.
  Variable dec : wrap -> bytes -> option bytes.
  Variable cert_key : bytes -> option Z.
  Variable cert_uris : bytes -> list bytes.
  Variable auth : identity -> bytes -> authres.
  Notation step := (sstep max_sessions local_cert nan_ms dlen verify dec cert_key cert_uris auth).
  Notation step' := (sstep' max_sessions local_cert nan_ms dlen verify dec cert_key cert_uris auth).
  Notation run := (srun max_sessions local_cert nan_ms dlen verify dec cert_key cert_uris auth).
  Notation exp := (expired nan_ms).

  (** the keys: does the sweep drop duplicates?  There are none. *)
  Definition keys_ok (l : list (bytes * session)) : Prop := NoDup (map fst l).
  Lemma keys_del l k : keys_ok l -> keys_ok (sdel l k).
  Proof.
    unfold keys_ok, sdel. induction l as [|e l IH]; intros H; [exact H|]. cbn [filter map] in *.
    apply NoDup_cons_iff in H. destruct H as [H1 H2].
    destruct (negb _); [|auto]. cbn [map]. constructor; [|auto].
    intros Hin. apply H1. apply in_map_iff in Hin. destruct Hin as (x & E & Hx). apply filter_In in Hx.
    rewrite <- E. apply in_map. tauto.
  Qed.
  Lemma keys_put l k s : keys_ok l -> keys_ok (sput l k s).
  Proof.
    intros H. pose proof (keys_del l k H) as D. unfold keys_ok, sput in *. rewrite map_app. cbn [map fst].
    assert (Nk : ~ In k (map fst (sdel l k))).
    { intros Hin. apply in_map_iff in Hin. destruct Hin as (x & E & Hx). unfold sdel in Hx. apply filter_In in Hx.
      destruct Hx as [_ Hx]. rewrite E, beqb_refl in Hx. discriminate. }
    clear H. induction (map fst (sdel l k)) as [|a m IH]; cbn [app]; [constructor; [tauto|constructor]|].
    apply NoDup_cons_iff in D. destruct D as [D1 D2]. constructor.
    - rewrite in_app_iff. intros [?|[<-|[]]]; [tauto|]. apply Nk. now left.
    - apply IH; [exact D2|]. intros ?. apply Nk. now right.
  Qed.
  Lemma keys_filter f l : keys_ok l -> keys_ok (filter f l).
  Proof.
    unfold keys_ok. induction l as [|e l IH]; intros H; [exact H|]. cbn [filter map] in *.
    apply NoDup_cons_iff in H. destruct H as [H1 H2]. destruct (f e); [|auto]. cbn [map]. constructor; [|auto].
    intros Hin. apply H1. apply in_map_iff in Hin. destruct Hin as (x & E & Hx). apply filter_In in Hx.
    rewrite <- E. apply in_map. tauto.
  Qed.
  Lemma slook_none l k : ~ In k (map fst l) -> slook l k = None.
  Proof.
    induction l as [|[k' s] l IH]; intros H; [reflexivity|]. cbn [slook map fst] in *.
    destruct (beqb_spec k' k) as [->|_]; [exfalso; apply H; now left|]. apply IH. intros ?; apply H; now right.
  Qed.
  Lemma slook_filter f l k : keys_ok l ->
    slook (filter f l) k = match slook l k with Some s => if f (k, s) then Some s else None | None => None end.
  Proof.
    unfold keys_ok. induction l as [|[k' s] l IH]; intros H; [reflexivity|]. cbn [filter map fst slook] in *.
    apply NoDup_cons_iff in H. destruct H as [H1 H2]. specialize (IH H2).
    destruct (beqb_spec k' k) as [->|N].
    - destruct (f (k, s)) eqn:E; cbn [slook]; [now rewrite beqb_refl|]. rewrite IH, (slook_none l k H1). reflexivity.
    - destruct (f (k', s)); [cbn [slook]|exact IH]. destruct (beqb_spec k' k); [congruence|]. exact IH.
  Qed.

  Definition about (now : Z) (h : list entry) (tok : bytes) (s : session) : Prop :=
    granted h tok = Some (s_timeout s) /\ last_use h tok = s_last s /\ last_nonce h tok = Some (s_nonce s) /\
    (exists ch cert, creator h tok = Some (ch, s_app s, cert)) /\
    s_last s <= now /\
    (match s_timeout s with Some t => minSessionTimeout <= t <= maxSessionTimeout | None => True end) /\
    match activation h tok with
    | None => s_chan s = 0 /\ s_ident s = None
    | Some (ch, id) => s_chan s = ch_id ch /\ ch_id ch <> 0 /\ s_ident s = Some id
    end.
  Definition R (st : sstate) (h : list entry) : Prop :=
    keys_ok (ss_table st) /\
    (0 < max_sessions -> Z.of_nat (length (ss_table st)) <= max_sessions) /\
    forall tok, match slook (ss_table st) tok with
                | Some s => about (ss_now st) h tok s
                | None => timed_out nan_ms (ss_now st) h tok = true
                end.

  Definition quiet (e : entry) (tok : bytes) : Prop :=
    ends_session e tok = false /\ creates e tok = false /\ uses e tok = false /\ activates e tok = false.
  Lemma quiet_nonce e h tok : creates e tok = false -> activates e tok = false -> last_nonce (e :: h) tok = last_nonce h tok.
  Proof. unfold creates, activates. cbn [last_nonce]. destruct (en_ev e); intros A B; try reflexivity; rewrite ?A, ?B; reflexivity. Qed.
  Lemma quiet_about e h now tok s : quiet e tok -> about now h tok s -> about now (e :: h) tok s.
  Proof.
    intros (Q1 & Q2 & Q3 & Q4) A. unfold about in *. rewrite quiet_nonce by assumption.
    cbn [granted last_use creator activation]. rewrite Q1, Q2, Q3, Q4. cbn [orb]. exact A.
  Qed.
  Lemma quiet_out e h now tok : quiet e tok -> timed_out nan_ms now (e :: h) tok = timed_out nan_ms now h tok.
  Proof.
    intros (Q1 & Q2 & Q3 & Q4). unfold timed_out. cbn [granted last_use]. rewrite Q1, Q2, Q3. reflexivity.
  Qed.
  Lemma later_about h now now' tok s : now <= now' -> about now h tok s -> about now' h tok s.
  Proof. unfold about. intros L (A1 & A2 & A3 & A4 & A5 & A6). repeat split; try tauto; try lia. Qed.
  Lemma later_out h now now' tok : now <= now' -> timed_out nan_ms now h tok = true -> timed_out nan_ms now' h tok = true.
  Proof. unfold timed_out. destruct (granted h tok) as [[t|]|]; intros; try reflexivity; lia. Qed.

  Lemma other_quiet t o ev tok tok' :
    (forall x, op_token o = Some x -> x = tok) ->
    (match ev with EvCreated x _ _ | EvActivated x _ _ | EvClosed x => x = tok | _ => True end) ->
    tok' <> tok -> quiet (mkEntry t o ev) tok'.
  Proof.
    intros H1 H2 N. unfold quiet, ends_session, creates, uses, activates. cbn [en_op en_ev].
    assert (E : bytes_eqb tok tok' = false) by (destruct (beqb_spec tok tok'); congruence).
    destruct (op_token o) as [x|]; [pose proof (H1 x eq_refl); subst x|]; rewrite ?E; cbn [andb];
      destruct ev as [|x ? ?|x ? ?|x|x|[]| | |]; subst; rewrite ?E; repeat split; reflexivity.
  Qed.

  (** every step changes one token only *)
  Lemma R_others st h tok st' e : keys_ok (ss_table st) ->
    (forall tok', match slook (ss_table st) tok' with
                  | Some s => about (ss_now st) h tok' s
                  | None => timed_out nan_ms (ss_now st) h tok' = true end) ->
    ss_now st' = ss_now st ->
    (forall tok', tok' <> tok -> slook (ss_table st') tok' = slook (ss_table st) tok') ->
    (forall tok', tok' <> tok -> quiet e tok') ->
    match slook (ss_table st') tok with
    | Some s => about (ss_now st) (e :: h) tok s
    | None => timed_out nan_ms (ss_now st) (e :: h) tok = true
    end ->
    forall tok', match slook (ss_table st') tok' with
                 | Some s => about (ss_now st') (e :: h) tok' s
                 | None => timed_out nan_ms (ss_now st') (e :: h) tok' = true end.
  Proof.
    intros K H En Et Eq Hs tok'. rewrite En. destruct (beqb_spec tok' tok) as [->|N]; [exact Hs|].
    rewrite Et by exact N. specialize (H tok'). destruct (slook (ss_table st) tok').
    - apply quiet_about; auto.
    - rewrite quiet_out; auto.
  Qed.

  Lemma get_some st tok s : get nan_ms st tok = Some s -> slook (ss_table st) tok = Some s /\ exp (ss_now st) s = false.
  Proof. unfold get. destruct (slook (ss_table st) tok) as [s'|]; [|discriminate]. destruct (expired _ _ _) eqn:E; [discriminate|]. intros H; injection H as <-. auto. Qed.

  Lemma keys_touched st tok s : keys_ok (ss_table st) -> keys_ok (ss_table (touched st tok s)).
  Proof. apply keys_put. Qed.
  Lemma len_put l k s s' : slook l k = Some s -> (length (sput l k s') <= length l)%nat.
  Proof. intros H. apply sdel_length_lt in H. unfold sput. rewrite app_length. cbn [length]. lia. Qed.

  (** a request that went through the door and changed nothing but the time of last use *)
  Lemma R_touched st h tok s o ev : R st h -> real_chan o -> slook (ss_table st) tok = Some s ->
    op_token o = Some tok ->
    (match ev with EvFault FSessionIDInvalid | EvFault FSessionNotActivated | EvAborted | EvCreated _ _ _ | EvActivated _ _ _ | EvClosed _ => False | _ => True end) ->
    R (touched st tok s) (mkEntry (ss_now st) o ev :: h).
  Proof.
    intros (K & C & H) Hr Hs Ho Hev. unfold R. cbn [touched ss_table ss_now]. split; [apply keys_put; exact K|].
    split; [intros M; specialize (C M); pose proof (len_put _ _ _ (touch (ss_now st) s) Hs); lia|].
    apply (R_others st h tok (touched st tok s)); auto.
    - intros tok' N. apply slook_put_other. exact N.
    - intros tok' N. apply (other_quiet _ _ _ tok); [congruence| |exact N]. destruct ev as [| | | | |[]| | |]; auto; contradiction.
    - cbn [touched ss_table]. rewrite slook_put_same. specialize (H tok). rewrite Hs in H.
      destruct H as (A1 & A2 & A3 & A4 & A5 & A6 & A7).
      assert (Q1 : ends_session (mkEntry (ss_now st) o ev) tok = false) by (unfold ends_session; cbn [en_ev]; destruct ev as [| | | | |[]| | |]; auto; contradiction).
      assert (Q2 : creates (mkEntry (ss_now st) o ev) tok = false) by (unfold creates; cbn [en_ev]; destruct ev as [| | | | |[]| | |]; auto; contradiction).
      assert (Q4 : activates (mkEntry (ss_now st) o ev) tok = false) by (unfold activates; cbn [en_ev]; destruct ev as [| | | | |[]| | |]; auto; contradiction).
      assert (Q3 : uses (mkEntry (ss_now st) o ev) tok = true).
      { unfold uses; cbn [en_op en_ev]. rewrite Ho, beqb_refl. destruct ev as [| | | | |[]| | |]; auto; contradiction. }
      unfold about. rewrite quiet_nonce by assumption. cbn [granted last_use creator activation touch s_timeout s_last s_nonce s_app s_chan s_ident].
      rewrite Q1, Q2, Q3, Q4. cbn [orb en_time]. repeat split; auto; lia.
  Qed.
  (** a request turned away at the door *)
  Lemma R_same st h o ev : R st h -> (match ev with EvNone => op_token o = None | EvAborted | EvFault _ => True | _ => False end) ->
    (match ev with EvFault f => (op_token o = None \/ f = FSessionIDInvalid) /\ f <> FSessionNotActivated | _ => True end) ->
    R st (mkEntry (ss_now st) o ev :: h).
  Proof.
    intros (K & C & H) Hev Hf. repeat (split; [assumption|]). intros tok.
    assert (Q : quiet (mkEntry (ss_now st) o ev) tok).
    { unfold quiet, ends_session, creates, uses, activates; cbn [en_op en_ev].
      destruct ev as [| | | | |f| | |]; try contradiction.
      - rewrite Hev. repeat split; reflexivity.
      - destruct Hf as [[Hf| ->] Hf2].
        + rewrite Hf. destruct f; repeat split; reflexivity.
        + repeat split; try reflexivity. destruct (op_token o); [apply andb_false_r|reflexivity].
      - repeat split; try reflexivity. destruct (op_token o); [apply andb_false_r|reflexivity]. }
    specialize (H tok). destruct (slook (ss_table st) tok).
    - apply quiet_about; assumption.
    - rewrite quiet_out; assumption.
  Qed.
  (** the session is taken out of the table *)
  Lemma R_removed st h tok s o ev : R st h -> slook (ss_table st) tok = Some s -> op_token o = Some tok ->
    (ev = EvClosed tok \/ ev = EvFault FSessionNotActivated) ->
    R (mkSState (ss_now st) (sdel (ss_table st) tok)) (mkEntry (ss_now st) o ev :: h).
  Proof.
    intros (K & C & H) Hs Ho Hev. unfold R. cbn [ss_table ss_now]. split; [apply keys_del; exact K|].
    split; [intros M; specialize (C M); pose proof (sdel_length (ss_table st) tok); lia|].
    apply (R_others st h tok (mkSState (ss_now st) (sdel (ss_table st) tok))); auto.
    - intros tok' N. apply slook_del_other. exact N.
    - intros tok' N. apply (other_quiet _ _ _ tok); [congruence| |exact N]. destruct Hev as [->| ->]; auto.
    - cbn [ss_table]. rewrite slook_del_same. unfold timed_out. cbn [granted].
      replace (ends_session (mkEntry (ss_now st) o ev) tok) with true; [reflexivity|].
      unfold ends_session; cbn [en_ev en_op]. destruct Hev as [->| ->]; [|rewrite Ho]; now rewrite beqb_refl.
  Qed.

  Lemma clamp_ok t : match clamp_timeout t with Some x => minSessionTimeout <= x <= maxSessionTimeout | None => True end.
  Proof. destruct t as [t|]; [|exact I]. unfold clamp_timeout, minSessionTimeout, maxSessionTimeout. destruct (t <? 10000) eqn:A; destruct (3600000 <? _) eqn:B; lia. Qed.

  Lemma R_step st h o : R st h -> real_chan o -> let '(st', e) := step st o in R st' (mkEntry (ss_now st) o e :: h).
  Proof.
    intros HR Hr. pose proof HR as (K & C & H).
    destruct o as [ms|ch rt app cert cn token nonce|ch token sig ut usig nonce|ch token|ch token|]; cbn [sstep].
    - (* time passes *)
      assert (R st (mkEntry (ss_now st) (OTick ms) EvNone :: h)) as (K1 & C1 & H1) by (apply R_same; auto; reflexivity).
      split; [exact K|]. split; [exact C|]. intros tok. specialize (H1 tok). cbn [ss_table ss_now].
      destruct (slook (ss_table st) tok); [eapply later_about; [|exact H1]; lia|eapply later_out; [|exact H1]; lia].
    - destruct (ch_discovery ch); [apply R_same; auto|]. cbv zeta.
      destruct (_ && negb _); [apply R_same; auto; split; [now left|discriminate]|].
      destruct (_ && (_ <? _)); [apply R_same; auto; split; [now left|discriminate]|].
      destruct ((0 <? max_sessions) && _) eqn:M; [apply R_same; auto; split; [now left|discriminate]|].
      unfold R. cbn [ss_table ss_now]. split; [apply keys_put; exact K|].
      split; [intros M'; unfold sput; rewrite app_length; cbn [length]; pose proof (sdel_length (ss_table st) token); lia|].
      apply (R_others st h token (mkSState (ss_now st) (sput (ss_table st) token (mkSession (clamp_timeout rt) (ss_now st) nonce 0 None app)))); auto.
      + intros tok' N. apply slook_put_other. exact N.
      + intros tok' N. apply (other_quiet _ _ _ token); auto. discriminate.
      + cbn [ss_table]. rewrite slook_put_same. unfold about.
        cbn [granted last_use last_nonce creator activation creates ends_session uses activates en_ev en_op op_token s_timeout s_last s_nonce s_chan s_ident s_app].
        rewrite beqb_refl. cbn [orb en_time]. repeat split; auto; try lia; [eauto|apply clamp_ok].
    - destruct (ch_discovery ch); [apply R_same; auto|].
      destruct (get nan_ms st token) as [s|] eqn:G; [|apply R_same; auto; split; [now right|discriminate]].
      apply get_some in G. destruct G as [G1 G2].
      destruct (negb (signed _ _ _ _ _)); [apply R_touched; auto|].
      destruct (claimed _ _ _ _ _ _ _ _ _) as [id| |f|] eqn:Cl.
      2:{ apply R_touched; auto. } 3:{ apply R_touched; auto. }
      2:{ assert (f = FTokenInvalid \/ f = FTokenRejected) as [-> | ->]; [|apply R_touched; auto|apply R_touched; auto].
          revert Cl. unfold claimed. destruct ut.
          - destruct (find_policy _ _ _); [discriminate|]. intros E; injection E as <-; auto.
          - destruct (find_policy _ _ _); [|intros E; injection E as <-; auto]. destruct user; [intros E; injection E as <-; auto|].
            destruct (server_password _ _ _ _ _); try discriminate; intros E; injection E as <-; auto.
          - destruct (find_policy _ _ _); [|intros E; injection E as <-; auto]. destruct (cert_key _); [|intros E; injection E as <-; auto].
            destruct (signed _ _ _ _ _); [discriminate|]. intros E; injection E as <-; auto.
          - destruct (find_policy _ _ _); [discriminate|]. intros E; injection E as <-; auto.
          - discriminate. }
      destruct (auth id (s_app s)) as [|code|]; [|apply R_touched; auto|apply R_touched; auto].
      unfold R. cbn [ss_table ss_now]. split; [apply keys_put; exact K|].
      split; [intros M; specialize (C M); eapply Z.le_trans; [|exact C]; apply inj_le; eapply len_put; exact G1|].
      pose proof (H token) as Ht. rewrite G1 in Ht. destruct Ht as (A1 & A2 & A3 & A4 & A5 & A6 & A7).
      apply (R_others st h token (mkSState (ss_now st) (sput (ss_table st) token (mkSession (s_timeout s) (ss_now st) nonce (ch_id ch) (Some id) (s_app s))))); auto.
      + intros tok' N. apply slook_put_other. exact N.
      + intros tok' N. apply (other_quiet _ _ _ token); auto. cbn. congruence.
      + cbn [ss_table]. rewrite slook_put_same. unfold about.
        cbn [granted last_use last_nonce creator activation creates ends_session uses activates en_ev en_op op_token op_chan s_timeout s_last s_nonce s_chan s_ident s_app].
        rewrite beqb_refl. cbn [orb andb en_time]. repeat split; auto; lia.
    - destruct (ch_discovery ch); [apply R_same; auto|].
      destruct (get nan_ms st token) as [s|] eqn:G; [|apply R_same; auto; split; [now right|discriminate]].
      apply get_some in G. destruct G as [G1 G2].
      destruct (s_chan s =? 0); [eapply R_removed; eauto; reflexivity|].
      destruct (negb (s_chan s =? ch_id ch)); apply R_touched; auto.
    - destruct (ch_discovery ch); [apply R_same; auto|].
      destruct (get nan_ms st token) as [s|] eqn:G; [|apply R_same; auto; split; [now right|discriminate]].
      apply get_some in G. destruct G as [G1 G2].
      destruct (s_chan s =? 0); [eapply R_removed; eauto; reflexivity|].
      destruct (negb (s_chan s =? ch_id ch)); [apply R_touched; auto|eapply R_removed; eauto; reflexivity].
    - assert (R st (mkEntry (ss_now st) OSweep EvNone :: h)) as (K1 & C1 & H1) by (apply R_same; auto; reflexivity).
      split; [apply keys_filter; exact K|]. cbn [ss_table ss_now]. split.
      { intros M; specialize (C M). assert (length (filter (fun e : bytes * session => negb (exp (ss_now st) (snd e))) (ss_table st)) <= length (ss_table st))%nat; [|lia].
        clear. induction (ss_table st) as [|e l IH]; [cbn; lia|]. cbn [filter]. destruct (negb _); cbn [length]; lia. }
      intros tok. specialize (H1 tok). rewrite slook_filter by exact K. destruct (slook (ss_table st) tok) as [s|]; [|exact H1].
      cbn [snd]. destruct (exp (ss_now st) s) eqn:E; cbn [negb]; [|exact H1].
      destruct H1 as (A1 & A2 & _). unfold timed_out. rewrite A1, A2. exact E.
  Qed.

  Lemma R_init : R sstate_init [].
  Proof. split; [constructor|]. split; [cbn; lia|]. intros tok. reflexivity. Qed.
  Lemma R_run ops : Forall real_chan ops -> R (fst (run ops)) (snd (run ops)).
  Proof.
    unfold srun. intros H. assert (G : forall x, R (fst x) (snd x) -> R (fst (fold_left step' ops x)) (snd (fold_left step' ops x))).
    { induction H as [|o ops Ho _ IH]; intros [st h] HR; [exact HR|]. cbn [fold_left]. apply IH.
      pose proof (R_step st h o HR Ho) as S. unfold sstep'. destruct (step st o) as [st' e]. exact S. }
    apply G. apply R_init.
  Qed.

  (** * What the properties say *)
  Lemma get_spec st h tok : R st h -> get nan_ms st tok = (if timed_out nan_ms (ss_now st) h tok then None else slook (ss_table st) tok).
  Proof.
    intros (_ & _ & H). specialize (H tok). unfold get. destruct (slook (ss_table st) tok) as [s|].
    - destruct H as (A1 & A2 & _). unfold timed_out. rewrite A1, A2. unfold expired. destruct (s_timeout s); reflexivity.
    - now rewrite H.
  Qed.
  Lemma get_about st h tok s : R st h -> get nan_ms st tok = Some s -> about (ss_now st) h tok s /\ timed_out nan_ms (ss_now st) h tok = false.
  Proof.
    intros HR G. pose proof (get_spec st h tok HR) as E. rewrite G in E. destruct (timed_out _ _ _ _); [discriminate|].
    split; [|reflexivity]. destruct HR as (_ & _ & H). specialize (H tok). rewrite <- E in H. exact H.
  Qed.
  Lemma door_spec ops ch tok : Forall real_chan ops ->
    snd (step (fst (run ops)) (OService ch tok)) = door nan_ms (ss_now (fst (run ops))) (snd (run ops)) ch tok.
  Proof.
    intros F. pose proof (R_run ops F) as HR. destruct (run ops) as [st h]. cbn [fst snd] in *.
    cbn [sstep]. unfold door. destruct (ch_discovery ch); [reflexivity|].
    destruct (get nan_ms st tok) as [s|] eqn:G.
    - apply (get_about _ h) in G; [|exact HR]. destruct G as ((A1 & A2 & A3 & A4 & A5 & A6 & A7) & ->).
      destruct (activation h tok) as [[ch' id]|].
      + destruct A7 as (B1 & B2 & B3). rewrite B1. destruct (ch_id ch' =? 0) eqn:E0; [lia|].
        destruct (ch_id ch' =? ch_id ch); reflexivity.
      + destruct A7 as (B1 & B3). rewrite B1. reflexivity.
    - rewrite (get_spec st h tok HR) in G. destruct (timed_out _ _ _ _) eqn:T; [reflexivity|].
      destruct HR as (_ & _ & H). specialize (H tok). rewrite G in H. congruence.
  Qed.
  Lemma close_spec ops ch tok : Forall real_chan ops ->
    snd (step (fst (run ops)) (OClose ch tok)) =
    match door nan_ms (ss_now (fst (run ops))) (snd (run ops)) ch tok with EvServed t => EvClosed t | e => e end.
  Proof.
    intros F. rewrite <- door_spec by exact F. cbn [sstep]. destruct (ch_discovery ch); [reflexivity|].
    destruct (get nan_ms _ tok) as [s|]; [|reflexivity]. destruct (s_chan s =? 0); [reflexivity|].
    destruct (negb _); reflexivity.
  Qed.
  (** a request that is refused changes nothing but times of last use and sessions that were not activated *)
  Lemma refused_no_effect ops ch tok : Forall real_chan ops ->
    let st := fst (run ops) in
    match snd (step st (OService ch tok)) with
    | EvServed _ => True
    | _ => forall tok', tok' <> tok -> slook (ss_table (fst (step st (OService ch tok)))) tok' = slook (ss_table st) tok'
    end.
  Proof.
    intros _. cbn [sstep]. set (st := fst (run ops)). cbv zeta. destruct (ch_discovery ch); [cbn [fst snd]; intros; reflexivity|].
    destruct (get nan_ms st tok) as [s|]; [|cbn [fst snd]; intros; reflexivity]. destruct (s_chan s =? 0).
    - cbn [fst snd ss_table]. intros tok' N. now apply slook_del_other.
    - destruct (negb _); cbn [fst snd touched ss_table]; [|exact I]. intros tok' N. now apply slook_put_other.
  Qed.

  (** who gets activated *)
  Lemma find_policy_in ch ty pid t : find_policy ch ty pid = Some t -> In t (ch_tokens ch) /\ tp_id t = pid /\ tp_type t = ty.
  Proof.
    unfold find_policy. intros H. apply find_some in H. destruct H as [H1 H2]. apply andb_true_iff in H2. destruct H2 as [H2 H3].
    apply bytes_eqb_eq in H3. repeat split; auto. destruct (tp_type t), ty; try discriminate; reflexivity.
  Qed.
  Definition proof_of_user (ch : chan) (nonce : bytes) (ut : utoken) (usig : bytes) (id : identity) : Prop :=
    same_user ut id /\
    exists t, In t (ch_tokens ch) /\ token_policy_id ut = Some (tp_id t) /\
      match ut with
      | UIssued _ _ => tp_type t = TCertificate
      | _ => token_type ut = Some (tp_type t)
      end /\
      match ut, id with
      | UX509 _ cert, _ =>
          let p := match tp_policy t with Some p => p | None => ch_policy ch end in
          exists key, cert_key cert = Some key /\ (p <> PNone -> verify key p (local_cert ++ nonce) usig = true)
      | UUserName _ _ cipher alg, IUserName _ pw =>
          server_password dec (match tp_policy t with Some p => p | None => ch_ep_policy ch end) dlen alg cipher = PwGot pw
      | _, _ => True
      end.
  Lemma signed_true key p msg sig : signed verify key p msg sig = true -> p <> PNone -> verify key p msg sig = true.
  Proof. destruct p; cbn; intros; congruence || assumption. Qed.
  Lemma claimed_proof ch nonce ut usig id :
    claimed local_cert dlen verify dec cert_key ch nonce ut usig = Claim id -> proof_of_user ch nonce ut usig id.
  Proof.
    unfold claimed, proof_of_user. destruct ut as [pid|pid user pw alg|pid cert|pid data|].
    - destruct (find_policy ch TAnonymous pid) as [t|] eqn:F; [|discriminate]. intros E; injection E as <-.
      apply find_policy_in in F. destruct F as (F1 & F2 & F3). split; [exact I|]. exists t. cbn. rewrite F2, F3. repeat split; auto.
    - destruct (find_policy ch TUserName pid) as [t|] eqn:F; [|discriminate]. destruct user as [|b u]; [discriminate|].
      destruct (server_password _ _ _ _ _) as [p| | |] eqn:P; try discriminate. intros E; injection E as <-.
      apply find_policy_in in F. destruct F as (F1 & F2 & F3). split; [cbn; split; [reflexivity|discriminate]|]. exists t. cbn. rewrite F2, F3. repeat split; auto.
    - destruct (find_policy ch TCertificate pid) as [t|] eqn:F; [|discriminate]. destruct (cert_key cert) as [key|] eqn:Ck; [|discriminate].
      destruct (signed _ _ _ _ _) eqn:Sg; [|discriminate]. intros E; injection E as <-.
      apply find_policy_in in F. destruct F as (F1 & F2 & F3). split; [reflexivity|]. exists t. cbn. rewrite F2, F3.
      repeat split; auto. exists key. split; [congruence|]. apply signed_true. exact Sg.
    - destruct (find_policy ch TCertificate pid) as [t|] eqn:F; [|discriminate]. intros E; injection E as <-.
      apply find_policy_in in F. destruct F as (F1 & F2 & F3). split; [reflexivity|]. exists t. cbn. rewrite F2. auto.
    - discriminate.
  Qed.
  Lemma activated_spec ops ch tok sig ut usig nonce tok' id n : Forall real_chan ops ->
    let st := fst (run ops) in let h := snd (run ops) in
    snd (step st (OActivate ch tok sig ut usig nonce)) = EvActivated tok' id n ->
    tok' = tok /\ n = nonce /\ ch_discovery ch = false /\ timed_out nan_ms (ss_now st) h tok = false /\
    exists old cch app cert, last_nonce h tok = Some old /\ creator h tok = Some (cch, app, cert) /\
      (ch_policy ch <> PNone -> verify (ch_key ch) (ch_policy ch) (local_cert ++ old) sig = true) /\
      proof_of_user ch old ut usig id /\ auth id app = AAccepts.
  Proof.
    intros F. pose proof (R_run ops F) as HR. destruct (run ops) as [st h]. cbn [fst snd] in *. cbv zeta. cbn [sstep].
    destruct (ch_discovery ch); [discriminate|].
    destruct (get nan_ms st tok) as [s|] eqn:G; [|discriminate].
    apply (get_about _ h) in G; [|exact HR]. destruct G as ((A1 & A2 & A3 & (cch & cert & A4) & A5 & A6 & A7) & T).
    destruct (negb _) eqn:Sg; [discriminate|]. apply negb_false_iff in Sg.
    destruct (claimed _ _ _ _ _ _ _ _ _) as [id'| |f|] eqn:Cl; try discriminate.
    destruct (auth id' (s_app s)) eqn:Au; try discriminate. cbn [snd]. intros E. injection E as <- <- <-.
    repeat (split; [auto|]). exists (s_nonce s), cch, (s_app s), cert. repeat split; auto.
    - apply signed_true. exact Sg.
    - apply claimed_proof in Cl. apply Cl.
    - apply claimed_proof in Cl. apply Cl.
  Qed.
  (** and everybody who can do that is activated, whoever created the session *)
  Lemma activated_anyone ops ch tok sig pid nonce t old cch app cert : Forall real_chan ops ->
    let st := fst (run ops) in let h := snd (run ops) in
    ch_discovery ch = false -> timed_out nan_ms (ss_now st) h tok = false ->
    last_nonce h tok = Some old -> creator h tok = Some (cch, app, cert) ->
    signed verify (ch_key ch) (ch_policy ch) (local_cert ++ old) sig = true ->
    find_policy ch TAnonymous pid = Some t -> auth IAnonymous app = AAccepts ->
    snd (step st (OActivate ch tok sig (UAnonymous pid) [] nonce)) = EvActivated tok IAnonymous nonce.
  Proof.
    intros F. pose proof (R_run ops F) as HR. destruct (run ops) as [st h]. cbn [fst snd] in *. cbv zeta. cbn [sstep].
    intros D T Ln Cr Sg Fp Au. rewrite D.
    destruct (get nan_ms st tok) as [s|] eqn:G.
    - apply (get_about _ h) in G; [|exact HR]. destruct G as ((A1 & A2 & A3 & (cch' & cert' & A4) & A5 & A6 & A7) & _).
      rewrite A3 in Ln. injection Ln as <-. rewrite A4 in Cr. injection Cr as <- <- <-.
      rewrite Sg. cbn [negb claimed]. rewrite Fp. rewrite Au. reflexivity.
    - rewrite (get_spec st h tok HR), T in G. destruct HR as (_ & _ & H). specialize (H tok). rewrite G in H. congruence.
  Qed.

  (** numbers *)
  Lemma count_bound ops : Forall real_chan ops -> 0 < max_sessions -> Z.of_nat (length (ss_table (fst (run ops)))) <= max_sessions.
  Proof. intros F. apply (R_run ops F). Qed.
  Lemma granted_bounds ops tok t : Forall real_chan ops -> slook (ss_table (fst (run ops))) tok <> None ->
    granted (snd (run ops)) tok = Some (Some t) -> 10000 <= t <= 3600000.
  Proof.
    intros F. pose proof (R_run ops F) as (_ & _ & H). specialize (H tok). destruct (slook _ tok) as [s|]; [|congruence].
    intros _ G. destruct H as (A1 & _ & _ & _ & _ & A6 & _). rewrite A1 in G. injection G as G. rewrite G in A6. exact A6.
  Qed.
  Lemma created_bounds st ch rt app cert cn tok nonce tok' n t :
    snd (step st (OCreate ch rt app cert cn tok nonce)) = EvCreated tok' n (Some t) -> 10000 <= t <= 3600000.
  Proof.
    cbn [sstep]. destruct (ch_discovery ch); [discriminate|]. cbv zeta. destruct (_ && negb _); [discriminate|].
    destruct (_ && (_ <? _)); [discriminate|]. destruct ((0 <? _) && _); [discriminate|]. cbn [snd]. intros E. injection E as _ _ E.
    pose proof (clamp_ok rt) as K. rewrite E in K. exact K.
  Qed.
  (** a session left alone for longer than its timeout is gone for good *)
  Lemma run_app ops ops' : run (ops ++ ops') = fold_left step' ops' (run ops).
  Proof. unfold srun. apply fold_left_app. Qed.
  Lemma step_now st o : ss_now st <= ss_now (fst (step st o)).
  Proof.
    destruct o as [ms|ch rt app cert cn token nonce|ch token sig ut usig nonce|ch token|ch token|]; cbn [sstep]; cbn [fst ss_now]; try lia.
    - destruct (ch_discovery ch); [cbn; lia|]. cbv zeta. destruct (_ && negb _); [cbn; lia|]. destruct (_ && (_ <? _)); [cbn; lia|]. destruct (_ && _); cbn; lia.
    - destruct (ch_discovery ch); [cbn; lia|]. destruct (get _ _ _); [|cbn; lia]. destruct (negb _); [cbn; lia|].
      destruct (claimed _ _ _ _ _ _ _ _ _); try (cbn; lia). destruct (auth _ _); cbn; lia.
    - destruct (ch_discovery ch); [cbn; lia|]. destruct (get _ _ _); [|cbn; lia]. destruct (_ =? 0); [cbn; lia|]. destruct (negb _); cbn; lia.
    - destruct (ch_discovery ch); [cbn; lia|]. destruct (get _ _ _); [|cbn; lia]. destruct (_ =? 0); [cbn; lia|]. destruct (negb _); cbn; lia.
  Qed.
  Lemma out_step st h o tok : R st h -> real_chan o -> timed_out nan_ms (ss_now st) h tok = true ->
    let '(st', e) := step st o in
    creates (mkEntry (ss_now st) o e) tok = false -> timed_out nan_ms (ss_now st') (mkEntry (ss_now st) o e :: h) tok = true.
  Proof.
    intros HR Hr T. pose proof (step_now st o) as L. destruct (step st o) as [st' e] eqn:E. cbn [fst] in L. intros Hc.
    apply (later_out _ (ss_now st)); [exact L|]. unfold timed_out. cbn [granted last_use]. rewrite Hc.
    destruct (ends_session _ tok); [reflexivity|]. cbn [orb].
    assert (U : uses (mkEntry (ss_now st) o e) tok = false).
    { unfold uses; cbn [en_op en_ev]. destruct (op_token o) as [x|] eqn:Ox; [|reflexivity].
      destruct (beqb_spec x tok) as [->|_]; [|reflexivity]. cbn [andb].
      assert (G : get nan_ms st tok = None) by (rewrite (get_spec st h tok HR), T; reflexivity).
      destruct o; cbn [op_token] in Ox; try discriminate; injection Ox as ->; cbn [sstep] in E; rewrite G in E;
        destruct (ch_discovery ch); injection E as <- <-; reflexivity. }
    rewrite U. exact T.
  Qed.
  Lemma gone ops ops' tok : Forall real_chan (ops ++ ops') ->
    timed_out nan_ms (ss_now (fst (run ops))) (snd (run ops)) tok = true ->
    (forall o, In o ops' -> match o with OCreate _ _ _ _ _ t _ => t <> tok | _ => True end) ->
    timed_out nan_ms (ss_now (fst (run (ops ++ ops')))) (snd (run (ops ++ ops'))) tok = true.
  Proof.
    intros F. apply Forall_app in F. destruct F as [F F']. rewrite run_app.
    pose proof (R_run ops F) as HR. revert HR. generalize (run ops) as x. clear F.
    induction F' as [|o ops' Ho _ IH]; intros x HR T Hc; [exact T|].
    cbn [fold_left]. destruct x as [st h]. cbn [fst snd] in *.
    pose proof (R_step st h o HR Ho) as HR'. pose proof (out_step st h o tok HR Ho T) as HT.
    apply IH.
    - cbn [sstep']. destruct (step st o) as [st' e]. exact HR'.
    - specialize (Hc o (or_introl eq_refl)). cbn [sstep'].
      assert (Hcr : creates (mkEntry (ss_now st) o (snd (step st o))) tok = false).
      { destruct o as [ms|ch rt app cert cn token nonce|ch token sig ut usig nonce|ch token|ch token|]; cbn [sstep]; unfold creates; cbn [en_ev]; try reflexivity.
        - destruct (ch_discovery ch); [reflexivity|]. cbv zeta. destruct (_ && negb _); [reflexivity|]. destruct (_ && (_ <? _)); [reflexivity|].
          destruct (_ && _); [reflexivity|]. cbn [snd]. destruct (beqb_spec token tok); [congruence|reflexivity].
        - destruct (ch_discovery ch); [reflexivity|]. destruct (get _ _ _); [|reflexivity]. destruct (negb _); [reflexivity|].
          destruct (claimed _ _ _ _ _ _ _ _ _); try reflexivity. destruct (auth _ _); reflexivity.
        - destruct (ch_discovery ch); [reflexivity|]. destruct (get _ _ _); [|reflexivity]. destruct (_ =? 0); [reflexivity|]. destruct (negb _); reflexivity.
        - destruct (ch_discovery ch); [reflexivity|]. destruct (get _ _ _); [|reflexivity]. destruct (_ =? 0); [reflexivity|]. destruct (negb _); reflexivity. }
      destruct (step st o) as [st' e]. cbn [fst snd] in *. auto.
    - intros o' Hin. apply Hc. now right.
  Qed.
  Lemma turned_away ops o tok : Forall real_chan ops -> op_token o = Some tok ->
    timed_out nan_ms (ss_now (fst (run ops))) (snd (run ops)) tok = true ->
    snd (step (fst (run ops)) o) = EvFault FSessionIDInvalid \/ snd (step (fst (run ops)) o) = EvAborted.
  Proof.
    intros F Ho T. pose proof (get_spec _ _ tok (R_run ops F)) as G. rewrite T in G.
    destruct o; cbn [op_token] in Ho; try discriminate; injection Ho as ->; cbn [sstep]; rewrite G; destruct (ch_discovery ch); auto.
  Qed.
End S.
