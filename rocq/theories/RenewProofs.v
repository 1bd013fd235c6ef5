(** In an undisturbed schedule both ends stay in step. *)
From Coq Require Import ZArith List Bool Lia Strings.Byte.
From Verif Require Import Bytes BytesProofs Chunk Keys KeysProofs Renew RenewSpec.
Import ListNotations.
Open Scope Z_scope.

Lemma keyset_eqb_refl k : keyset_eqb k k = true.
Proof.
  unfold keyset_eqb. 
  assert (E : forall b, bytes_eqb b b = true) by (intros b; apply bytes_eqb_eq; reflexivity).
  rewrite !E. reflexivity.
Qed.
Lemma accepts_same k : accepts (Some k) k = true.
Proof. apply keyset_eqb_refl. Qed.

Lemma next_other n : next_counter n <> n.
Proof. unfold next_counter. destruct (n =? 4294967295) eqn:E; lia. Qed.
Lemma next_zero n : 0 <= n -> next_counter n <> 0 /\ 0 <= next_counter n.
Proof. unfold next_counter. destruct (n =? 4294967295) eqn:E; lia. Qed.

Section Calm.
  Variable kd : bytes -> bytes -> keyset.

  (** messages of the client to the server, in order: some under the server's present keys, then
      some under the client's present keys *)
  Inductive two (ot : Z) (ok : option keyset) (n : Z) (k : keyset) : list (Z * keyset) -> Prop :=
  | two_new l : Forall (fun x => x = (n, k)) l -> two ot ok n k l
  | two_old ko l : ok = Some ko -> two ot ok n k l -> two ot ok n k ((ot, ko) :: l).

  Lemma two_app ot ok n k l : two ot ok n k l -> two ot ok n k (l ++ [(n, k)]).
  Proof.
    induction 1 as [l F|ko l E H IH]; cbn [app].
    - apply two_new. apply Forall_app. auto.
    - eapply two_old; eassumption.
  Qed.
  Lemma two_all ot ok n k l : Forall (fun x => x = (n, k)) l -> ot = n -> ok = Some k -> two ot ok n k l.
  Proof. intros. now apply two_new. Qed.
  Lemma two_same n k l : two n (Some k) n k l -> Forall (fun x => x = (n, k)) l.
  Proof. intro T. remember (Some k) as ok. induction T; auto. constructor; auto. congruence. Qed.

  Definition cmsg (x : Z * keyset) : to_server := CMsg (fst x) (snd x).

  (** messages in the other stream, renewals responses left out *)
  Fixpoint smsgs (l : list to_client) : list (Z * keyset) :=
    match l with [] => [] | SMsg t k :: l' => (t, k) :: smsgs l' | SOpen _ _ _ :: l' => smsgs l' end.
  Fixpoint sopens (l : list to_client) : list (bytes * Z * bytes) :=
    match l with [] => [] | SMsg _ _ :: l' => sopens l' | SOpen a t b :: l' => (a, t, b) :: sopens l' end.
  Lemma smsgs_app a b : smsgs (a ++ b) = smsgs a ++ smsgs b.
  Proof. induction a as [|[]]; cbn; congruence. Qed.
  Lemma sopens_app a b : sopens (a ++ b) = sopens a ++ sopens b.
  Proof. induction a as [|[]]; cbn; congruence. Qed.

  Inductive stage (y : sys) : Prop :=
  | S0 l :
      n_out y = [] -> n_resp y ++ sopens (s2c y) = [] ->
      c2s y = map cmsg l -> two (w_tok y) (w_rk y) (n_tok y) (kd (n_rn y) (n_ln y)) l ->
      w_pend y = n_tok y -> w_last y = n_tok y -> w_ln y = n_rn y -> w_rn y = n_ln y ->
      (n_stok y = n_tok y -> w_tok y = n_tok y \/ In (n_tok y, kd (n_rn y) (n_ln y)) l) ->
      stage y
  | S1 nonce l l2 :
      n_out y = [nonce] -> n_resp y ++ sopens (s2c y) = [] ->
      c2s y = map cmsg l ++ COpen nonce :: map cmsg l2 -> two (w_tok y) (w_rk y) (n_tok y) (kd (n_rn y) (n_ln y)) l ->
      Forall (fun x => x = (n_tok y, kd (n_rn y) (n_ln y))) l2 ->
      w_pend y = n_tok y -> w_last y = n_tok y -> w_ln y = n_rn y -> w_rn y = n_ln y ->
      n_stok y = n_tok y ->
      (w_tok y = n_tok y \/ In (n_tok y, kd (n_rn y) (n_ln y)) l) ->
      stage y
  | S2 nonce t sn l :
      n_out y = [nonce] -> n_resp y ++ sopens (s2c y) = [(nonce, t, sn)] ->
      c2s y = map cmsg l -> Forall (fun x => x = (n_tok y, kd (n_rn y) (n_ln y))) l ->
      w_tok y = n_tok y -> n_stok y = n_tok y -> w_sw y = None ->
      w_pend y = t -> w_last y = t -> w_ln y = sn -> w_rn y = nonce -> t <> n_tok y -> 0 <= t -> t <> 0 ->
      stage y.

  Record inv (y : sys) : Prop := {
    iv_stage : stage y;
    iv_ok : broken y = false;
    iv_pos : 0 <= n_tok y /\ n_tok y <> 0;
    iv_hdr : n_hdr y = None \/ n_hdr y = Some (n_tok y);
    iv_lk : n_stok y = n_tok y -> n_lk y = Some (kd (n_rn y) (n_ln y));
    iv_rk : n_rtok y = n_tok y -> n_rk y = Some (kd (n_ln y) (n_rn y));
    iv_wrk : w_tok y = n_tok y -> w_rk y = Some (kd (n_rn y) (n_ln y));
    iv_wlk : w_tok y = n_tok y -> w_sw y = None -> w_lk y = Some (kd (n_ln y) (n_rn y));
    iv_sw : match w_sw y with
            | Some k => w_tok y = n_tok y /\ k = kd (n_rn y) (n_ln y) /\ w_pend y = n_tok y /\ w_ln y = n_rn y /\ w_rn y = n_ln y
            | None => True end;
    iv_two : two (n_rtok y) (n_rk y) (n_tok y) (kd (n_ln y) (n_rn y)) (smsgs (s2c y));
    iv_old : w_tok y = n_tok y \/
             (w_tok y = n_rtok y /\ w_lk y = n_rk y /\
              Forall (fun x => fst x = n_rtok y /\ n_rk y = Some (snd x)) (smsgs (s2c y)));
    iv_some : w_tok y <> 0 -> w_sw y = None -> w_lk y <> None
  }.

  Lemma two_olds ot ok n k l : Forall (fun x => fst x = ot /\ ok = Some (snd x)) l -> two ot ok n k l.
  Proof.
    induction 1 as [|[a b] l [E1 E2] F IH]; [apply two_new; constructor|].
    cbn in E1. subst a. eapply two_old; [exact E2|exact IH].
  Qed.

  Lemma start_inv t cn sn : 0 < t -> inv (renew_start t cn sn).
  Proof.
    intros Ht. unfold renew_start. constructor; cbn; try solve [auto | lia].
    - apply (S0 _ []); cbn; auto; try lia. apply two_new. constructor.
    - apply two_new. constructor.
  Qed.

  Ltac big := cbn [n_tok n_stok n_rtok n_ln n_rn n_lk n_rk n_hdr n_out n_resp w_tok w_pend w_last w_ln w_rn w_lk w_rk w_sw c2s s2c broken] in *.

  Lemma step_inv y o : inv y -> calm_op y o -> inv (renew_step kd y o).
  Proof.
    destruct y as [tok stok rtok ln rn lk rk hdr out resp wt wp wl wln wrn wlk wrk sw cs sc br].
    intros [ST OK [P0 P1] H LK RK WRK WLK SW TW OLD SOME] C.
    destruct o as [| |nonce|i|fresh| | |]; unfold renew_step; unfold calm_op in C; big.
    - (* CHeader *)
      destruct hdr as [h|].
      + constructor; big; auto.
      + constructor; big; auto. inversion ST; big; [eapply S0|eapply S1|eapply S2]; big; eauto.
    - (* CFinish *)
      destruct hdr as [h|]; [|constructor; big; auto].
      destruct H as [H|H]; [discriminate|]. injection H as H. subst h.
      set (lk' := if tok =? stok then lk else Some (kd rn ln)).
      assert (L : lk' = Some (kd rn ln)).
      { unfold lk'. destruct (tok =? stok) eqn:E; [apply LK; lia|reflexivity]. }
      clearbody lk'. rewrite L. 
      constructor; big; auto.
      inversion ST as [l A1 A2 A3 A4 A5 A6 A7 A8 A9|nn l l2 A1 A2 A3 A4 A5 A6 A7 A8 A9 A10 A11|nn t sn l A1 A2 A3 A4 A5 A6 A7 A8 A9 A10 A11 A12 A13 A14]; big.
      + apply (S0 _ (l ++ [(tok, kd rn ln)])); big; auto.
        * rewrite map_app, A3. reflexivity.
        * now apply two_app.
        * intros _. right. apply in_or_app. right. now left.
      + apply (S1 _ nn l (l2 ++ [(tok, kd rn ln)])); big; auto.
        * rewrite map_app, A3, <- app_assoc. reflexivity.
        * apply Forall_app. auto.
      + apply (S2 _ nn t sn (l ++ [(tok, kd rn ln)])); big; auto.
        * rewrite map_app, A3. reflexivity.
        * apply Forall_app. auto.
    - (* RenewStart *)
      destruct C as [-> C]. subst stok.
      destruct hdr as [h|]; [constructor; big; auto|].
      constructor; big; auto.
      inversion ST as [l A1 A2 A3 A4 A5 A6 A7 A8 A9|nn l l2 A1 A2 A3 A4 A5 A6 A7 A8 A9 A10 A11|nn t sn l A1 A2 A3 A4 A5 A6 A7 A8 A9 A10 A11 A12 A13 A14]; big; try discriminate.
      apply (S1 _ nonce l []); big; auto.
      rewrite A3. reflexivity.
    - (* RenewApply *)
      destruct C as [-> C]. subst rtok.
      destruct (nth_error resp i) as [[[nonce t] sn]|] eqn:E; [|constructor; big; auto].
      inversion ST as [l A1 A2 A3 A4 A5 A6 A7 A8 A9|nn l l2 A1 A2 A3 A4 A5 A6 A7 A8 A9 A10 A11|nn t' sn' l A1 A2 A3 A4 A5 A6 A7 A8 A9 A10 A11 A12 A13 A14]; big;
        try (apply app_eq_nil in A2; destruct A2 as [A2 _]; subst resp; destruct i; discriminate).
      destruct resp as [|r resp]; [destruct i; discriminate|].
      cbn [app] in A2. injection A2 as A2 A2'. apply app_eq_nil in A2'. destruct A2' as [-> A2'].
      destruct i as [|i]; [|destruct i; discriminate].
      cbn in E. injection E as Er. subst r. injection A2 as -> -> ->.
      subst.
      specialize (WRK eq_refl). specialize (WLK eq_refl eq_refl). specialize (RK eq_refl). subst wrk wlk rk.
      constructor; big; auto; try (intros; lia).
      + apply (S0 _ l); big; auto; try (intros; lia).
        * cbn. rewrite (proj2 (bytes_eqb_eq nn nn) eq_refl). reflexivity.
        * clear - A4. induction A4 as [|x l -> F IH]; [apply two_new; constructor|]. eapply two_old; [reflexivity|exact IH].
      + apply two_olds. apply two_same in TW. 
        eapply Forall_impl; [|exact TW]. intros x ->. auto.
      + right. split; [reflexivity|]. split; [reflexivity|]. apply two_same in TW. 
        eapply Forall_impl; [|exact TW]. intros x ->. auto.
    - (* SRecv *)
      destruct sw as [swk|]; [constructor; big; auto|].
      destruct cs as [|m cs]; [constructor; big; auto|].
      inversion ST as [l A1 A2 A3 A4 A5 A6 A7 A8 A9|nn l l2 A1 A2 A3 A4 A5 A6 A7 A8 A9 A10 A11|nn t sn l A1 A2 A3 A4 A5 A6 A7 A8 A9 A10 A11 A12 A13 A14]; big.
      + (* no renewal *)
        subst wp wl wln wrn. destruct l as [|[t k] l]; [discriminate|]. cbn [map] in A3. change (cmsg (t, k)) with (CMsg t k) in A3. injection A3 as -> ->.
        destruct (wt =? t) eqn:Et.
        * assert (t = wt) by lia. subst t.
          assert (R : wrk = Some k /\ two wt wrk tok (kd rn ln) l).
          { inversion A4 as [l' F|ko l' E1 E2]; subst.
            - inversion F as [|x l'' Ex F']; subst. injection Ex as -> ->. split; [auto|]. now apply two_new.
            - auto. }
          destruct R as [R1 R2]. assert (Ea : accepts wrk k = true) by (rewrite R1; apply accepts_same). rewrite Ea, OK.
          constructor; big; auto.
          apply (S0 _ l); big; auto.
          intros Es. destruct (A9 Es) as [|[I|I]]; auto. injection I as -> _. auto.
        * assert (E : (t, k) = (tok, kd rn ln) /\ Forall (fun x => x = (tok, kd rn ln)) l).
          { inversion A4 as [l' F|ko l' E1 E2]; subst; [inversion F; subst; auto|lia]. }
          destruct E as [E F]. injection E as -> ->.
          assert (Et' : (tok =? tok) = true) by lia. rewrite Et'. cbn [negb].
          constructor; big; auto.
          -- apply (S0 _ l); big; auto. now apply two_new.
          -- intros; discriminate.
          -- intros; discriminate.
      + (* a request to renew is on its way *)
        subst wp wl wln wrn stok. destruct l as [|[t k] l]; cbn [map app] in A3; [|change (cmsg (t, k)) with (CMsg t k) in A3]; injection A3 as -> ->.
        * (* now it is here *)
          destruct A11 as [A11|[]]. subst wt.
          constructor; big; auto.
          -- apply (S2 _ nn (next_counter tok) fresh l2); big; auto; try apply next_other; try (apply next_zero; lia).
             rewrite sopens_app, app_assoc, A2. reflexivity.
          -- rewrite smsgs_app. cbn. rewrite app_nil_r. exact TW.
        * destruct (wt =? t) eqn:Et.
          -- assert (t = wt) by lia. subst t.
            assert (R : wrk = Some k /\ two wt wrk tok (kd rn ln) l).
            { inversion A4 as [l' F|ko l' E1 E2]; subst.
              - inversion F as [|x l'' Ex F']; subst. injection Ex as -> ->. split; [auto|]. now apply two_new.
              - auto. }
            destruct R as [R1 R2]. assert (Ea : accepts wrk k = true) by (rewrite R1; apply accepts_same). rewrite Ea, OK.
            constructor; big; auto.
            apply (S1 _ nn l l2); big; auto.
            destruct A11 as [|[I|I]]; auto. injection I as -> _. auto.
          -- assert (E : (t, k) = (tok, kd rn ln) /\ Forall (fun x => x = (tok, kd rn ln)) l).
            { inversion A4 as [l' F|ko l' E1 E2]; subst; [inversion F; subst; auto|lia]. }
            destruct E as [E F]. injection E as -> ->.
            assert (Et' : (tok =? tok) = true) by lia. rewrite Et'. cbn [negb].
            constructor; big; auto.
            ++ apply (S1 _ nn l l2); big; auto. now apply two_new.
            ++ intros; discriminate.
            ++ intros; discriminate.
      + (* renewed *)
        destruct l as [|[t1 k] l]; [discriminate|]. cbn [map] in A3. change (cmsg (t1, k)) with (CMsg t1 k) in A3. injection A3 as -> ->.
        pose proof (Forall_inv A4) as Ex. pose proof (Forall_inv_tail A4) as F. injection Ex as -> ->.
        subst wt stok. assert (Et : (tok =? tok) = true) by lia. rewrite Et.
        assert (Ea : accepts wrk (kd rn ln) = true) by (rewrite (WRK eq_refl); apply accepts_same). rewrite Ea, OK.
        constructor; big; auto.
        apply (S2 _ nn t sn l); big; auto.
    - (* SSwitch *)
      destruct sw as [k|]; [|constructor; big; auto].
      destruct SW as (-> & -> & -> & -> & ->). assert (Ea : accepts wrk (kd rn ln) = true) by (rewrite (WRK eq_refl); apply accepts_same). rewrite Ea, OK.
      constructor; big; auto; try discriminate.
      inversion ST as [l A1 A2 A3 A4 A5 A6 A7 A8 A9|nn l l2 A1 A2 A3 A4 A5 A6 A7 A8 A9 A10 A11|nn t sn l A1 A2 A3 A4 A5 A6 A7 A8 A9 A10 A11 A12 A13 A14]; big; [eapply S0|eapply S1|discriminate]; big; eauto.
    - (* SSend *)
      destruct C as [-> C]. specialize (SOME C eq_refl).
      destruct wlk as [k|]; [clear SOME|congruence].
      constructor; big; auto; try discriminate.
      + inversion ST as [l A1 A2 A3 A4 A5 A6 A7 A8 A9|nn l l2 A1 A2 A3 A4 A5 A6 A7 A8 A9 A10 A11|nn t sn l A1 A2 A3 A4 A5 A6 A7 A8 A9 A10 A11 A12 A13 A14]; big; [eapply S0|eapply S1|eapply S2]; big; eauto;
        rewrite sopens_app; cbn [sopens]; rewrite app_nil_r; assumption.
      + rewrite smsgs_app. cbn [smsgs]. destruct OLD as [->|(-> & E & F)].
        * specialize (WLK eq_refl eq_refl). injection WLK as ->. now apply two_app.
        * apply two_olds. apply Forall_app. split; [exact F|]. constructor; [|constructor]. cbn. auto.
      + rewrite smsgs_app. cbn [smsgs]. destruct OLD as [->|(-> & E & F)]; [now left|].
        right. split; [reflexivity|]. split; [exact E|].
        apply Forall_app. split; [exact F|]. constructor; [|constructor]. cbn. auto.
    - (* CRecv *)
      destruct sc as [|m sc]; [constructor; big; auto|].
      destruct m as [t k|nonce t sn]; cbn [smsgs sopens] in *.
      + set (rk' := if t =? rtok then rk else Some (kd ln rn)).
        assert (R : rk' = Some k /\ (t = tok -> k = kd ln rn) /\ (t = rtok /\ rk' = rk \/ (t = tok /\ Forall (fun x => x = (tok, kd ln rn)) (smsgs sc))) ).
        { unfold rk'. inversion TW as [l' F|ko l' E1 E2]; subst.
          - pose proof (Forall_inv F) as Ex. pose proof (Forall_inv_tail F) as F'. injection Ex as -> ->.
            destruct (tok =? rtok) eqn:Et.
            + split; [apply RK; lia|]. split; [auto|]. left. split; [lia|reflexivity].
            + split; [reflexivity|]. split; [auto|]. right. auto.
          - rewrite Z.eqb_refl. split; [reflexivity|]. split; [|auto].
            intros ->. specialize (RK eq_refl). congruence. }
        destruct R as (R1 & R2 & R3). clearbody rk'. assert (Ea : accepts rk' k = true) by (rewrite R1; apply accepts_same). rewrite Ea, OK.
        constructor; big; auto.
        * inversion ST as [l A1 A2 A3 A4 A5 A6 A7 A8 A9|nn l l2 A1 A2 A3 A4 A5 A6 A7 A8 A9 A10 A11|nn t' sn l A1 A2 A3 A4 A5 A6 A7 A8 A9 A10 A11 A12 A13 A14]; big; [eapply S0|eapply S1|eapply S2]; big; eauto.
        * intros ->. rewrite R1, R2; auto.
        * destruct R3 as [[-> R3]|[-> R3]].
          -- subst rk'. inversion TW as [l' F|ko l' E1 E2]; subst.
             ++ apply two_new. now apply Forall_inv_tail in F.
             ++ auto.
          -- now apply two_new.
        * destruct OLD as [->|(-> & E & F)]; [now left|].
          pose proof (Forall_inv F) as [F1 F2]. cbn in F1, F2. subst t.
          right. destruct R3 as [[_ ->]|[-> R3]]; [|].
          -- split; [reflexivity|]. split; [exact E|]. now apply Forall_inv_tail in F.
          -- split; [reflexivity|]. split; [congruence|]. rewrite R1, <- F2. now apply Forall_inv_tail in F.
      + constructor; big; auto.
        inversion ST as [l A1 A2 A3 A4 A5 A6 A7 A8 A9|nn l l2 A1 A2 A3 A4 A5 A6 A7 A8 A9 A10 A11|nn t' sn' l A1 A2 A3 A4 A5 A6 A7 A8 A9 A10 A11 A12 A13 A14]; big;
          cbn [sopens] in A2; [eapply S0|eapply S1|eapply S2]; big; eauto;
          rewrite <- app_assoc; exact A2.
  Qed.

  Lemma calm_inv y ops z : inv y -> calm kd y ops z -> inv z.
  Proof. intros I C. revert I. induction C as [y|y o ops z G C IH]; intros I; auto. apply IH. now apply step_inv. Qed.

  Lemma calm_in_step t cn sn ops z : 0 < t -> calm kd (renew_start t cn sn) ops z ->
    broken z = false /\ (settled z -> n_stok z = n_tok z -> in_step z).
  Proof.
    intros Ht C. pose proof (calm_inv _ _ _ (start_inv _ cn sn Ht) C) as I.
    destruct I as [ST OK P H LK RK WRK WLK SW TW OLD SOME]. split; [exact OK|].
    intros (E1 & E2 & E3 & E4 & E5 & E6) ES.
    inversion ST as [l A1 A2 A3 A4 A5 A6 A7 A8 A9|nn l l2 A1 A2 A3 A4 A5 A6 A7 A8 A9 A10 A11|nn t' sn' l A1 A2 A3 A4 A5 A6 A7 A8 A9 A10 A11 A12 A13 A14]; try congruence.
    rewrite E1 in A3. destruct l; [|discriminate].
    destruct (A9 ES) as [W|[]].
    unfold in_step. rewrite (LK ES), (WRK W), (WLK W E6).
    repeat split; auto; congruence.
  Qed.
End Calm.
