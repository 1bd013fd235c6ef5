(** Proofs about certificates and endpoints (C69, C70, C82). *)
From Coq Require Import ZArith List Bool Lia ZifyBool Permutation String.
From Verif Require Import Bytes BytesProofs Text TextProofs Certificates Endpoints TrustSpec.
Import ListNotations.
Open Scope Z_scope.
Ltac Zify.zify_post_hook ::= idtac.

Lemma raw_eqb a b : bytes_eqb a b = true <-> a = b.
Proof. apply bytes_eqb_eq. Qed.

Lemma read_some {A} (files : list (option (list A))) l :
  read_files files = Some l -> (forall f, In f files -> f <> None) /\ forall x, In x l <-> exists m, In (Some m) files /\ In x m.
Proof.
  revert l. induction files as [|[m|] fs IH]; cbn; intros l E.
  - injection E as <-. split; [intros f []|]. intros x; split; [intros []|]. intros (m & [] & _).
  - destruct (read_files fs) as [r|] eqn:Er; [|discriminate]. injection E as <-.
    destruct (IH r eq_refl) as [H1 H2]. split.
    + intros f [<-|I]; [discriminate|auto].
    + intros x. rewrite in_app_iff, H2. split.
      * intros [Hx|(k & I & Hx)]; [exists m; auto|exists k; auto].
      * intros (k & [Hk|I] & Hx); [injection Hk as ->; auto|right; exists k; auto].
  - discriminate.
Qed.
Lemma read_none {A} (files : list (option (list A))) : read_files files = None -> In None files.
Proof.
  induction files as [|[m|] fs IH]; cbn; [discriminate| |auto].
  destruct (read_files fs); [discriminate|]. auto.
Qed.
Lemma usable_contents {A} (files : list (option (list A))) x : In x (usable files) <-> contents files x.
Proof.
  unfold usable, contents. destruct (read_files files) as [l|] eqn:E.
  - destruct (read_some _ _ E) as [H1 H2]. rewrite H2. intuition.
  - apply read_none in E. cbn. split; [intros []|]. intros [H _]. now destruct (H None E).
Qed.

Lemma usable_readable {A} (files : list (option (list A))) : usable files = readable files.
Proof.
  assert (H : read_files files = if forallb (fun f => match f with Some _ => true | None => false end) files
    then Some (flat_map (fun f => match f with Some l => l | None => [] end) files) else None).
  { induction files as [|[l|] fs IH]; cbn; [reflexivity| |reflexivity]. rewrite IH. now destruct (forallb _ fs). }
  unfold usable, readable. rewrite H. now destruct (forallb _ files).
Qed.
Lemma lists_spec st : usable (s_issuer_crls st) ++ usable (s_trusted_crls st) = revocation_lists st.
Proof. unfold revocation_lists. now rewrite !usable_readable. Qed.

Section Validate.
Variable verify : options -> cert -> verified.
Variable now : Z.

Lemma in_force_spec issuer l : in_force now issuer l = true <-> current now issuer l.
Proof. unfold in_force, current. rewrite andb_true_iff, Z.ltb_lt. tauto. Qed.
Lemma in_force_not issuer l : in_force now issuer l = false <-> ~ current now issuer l.
Proof. rewrite <- in_force_spec. destruct (in_force now issuer l); split; congruence. Qed.
Lemma find_split {A} (f : A -> bool) l x :
  find f l = Some x -> exists a b, l = a ++ x :: b /\ f x = true /\ forall y, In y a -> f y = false.
Proof.
  induction l as [|y l IH]; cbn; [discriminate|]. destruct (f y) eqn:E.
  - intros [= <-]. exists [], l. cbn. split; [reflexivity|]. split; [assumption|intros z []].
  - intros H. destruct (IH H) as (a & b & -> & H1 & H2). exists (y :: a), b. cbn. split; [reflexivity|split; [assumption|]].
    intros z [<-|Hz]; auto.
Qed.
Lemma find_first {A} (f : A -> bool) a x b : f x = true -> (forall y, In y a -> f y = false) -> find f (a ++ x :: b) = Some x.
Proof.
  intros H1 H2. induction a as [|y a IH]; cbn; [now rewrite H1|].
  rewrite (H2 y (or_introl eq_refl)). apply IH. intros z Hz. apply H2. now right.
Qed.
Lemma serial_in c l : existsb (Z.eqb (c_serial c)) (l_revoked l) = true <-> In (c_serial c) (l_revoked l).
Proof.
  rewrite existsb_exists. split; [intros (y & I & E); apply Z.eqb_eq in E; now subst|]. intros I. exists (c_serial c). now rewrite Z.eqb_refl.
Qed.

Lemma revocation_ok leaf c issuer crls sup :
  check_revocation now leaf c (Some issuer) crls sup = None <-> not_revoked now crls sup c issuer.
Proof.
  cbn. unfold not_revoked. destruct (find (in_force now issuer) crls) as [l|] eqn:F.
  - destruct (find_split _ _ _ F) as (a & b & -> & H1 & H2).
    destruct (existsb (Z.eqb (c_serial c)) (l_revoked l)) eqn:E.
    + apply serial_in in E. split; [discriminate|].
      intros [(a' & l' & b' & Eq & H3 & H4 & H5)|[H _]].
      * exfalso. assert (F' : find (in_force now issuer) (a' ++ l' :: b') = Some l').
        { apply find_first; [now apply in_force_spec|]. intros y I. apply in_force_not. auto. }
        rewrite <- Eq, F in F'. injection F' as ->. auto.
      * exfalso. apply (H l); [rewrite in_app_iff; cbn; auto|]. now apply in_force_spec.
    + split; [intros _|reflexivity]. left. exists a, l, b. split; [reflexivity|]. split; [now apply in_force_spec|].
      split; [intros x I; apply in_force_not; auto|]. intros I. apply serial_in in I. congruence.
  - assert (N : forall l, In l crls -> ~ current now issuer l).
    { intros l I. apply in_force_not. now apply (find_none _ _ F). }
    destruct sup.
    + split; [intros _; now right|reflexivity].
    + split; [discriminate|]. intros [(a & l & b & -> & H1 & _)|[_ H]]; [|discriminate].
      exfalso. apply (N l); [rewrite in_app_iff; cbn; auto|assumption].
Qed.

Lemma trusted_spec chain trusted :
  existsb (fun c2 => existsb (fun c3 => bytes_eqb (c_raw c2) (c_raw c3)) trusted) chain = true <->
  exists c t, In c chain /\ In t trusted /\ c_raw t = c_raw c.
Proof.
  rewrite existsb_exists. split.
  - intros (c & I & E). apply existsb_exists in E. destruct E as (t & It & E). apply raw_eqb in E. exists c, t. auto.
  - intros (c & t & I & It & E). exists c. split; [assumption|]. apply existsb_exists. exists t. split; [assumption|]. now apply raw_eqb.
Qed.
Lemma uses_spec l uses : existsb (fun u => existsb (Z.eqb u) uses) l = true <-> exists u, In u l /\ In u uses.
Proof.
  rewrite existsb_exists. split; intros (u & I & E); exists u; (split; [assumption|]).
  - apply existsb_exists in E. destruct E as (v & Iv & E). apply Z.eqb_eq in E. now subst.
  - apply existsb_exists. exists u. now rewrite Z.eqb_refl.
Qed.
Lemma sign_spec c : (Z.land (c_usage c) 32 =? 32) = true <-> may_certify c.
Proof.
  unfold may_certify. rewrite Z.eqb_eq. split.
  - intros H. assert (E : Z.testbit (Z.land (c_usage c) 32) 5 = true) by (rewrite H; reflexivity).
    rewrite Z.land_spec in E. apply andb_true_iff in E. tauto.
  - intros H. apply Z.bits_inj'. intros i Hi. rewrite Z.land_spec.
    change 32 with (2 ^ 5). rewrite Z.pow2_bits_eqb by lia. destruct (5 =? i) eqn:E.
    + apply Z.eqb_eq in E. subst. now rewrite H.
    + apply andb_false_r.
Qed.

(** ** One chain *)
Lemma member_ok chain trusted uses crls sup leaf c issuer :
  check_member now chain trusted uses crls sup leaf c issuer = None <->
  (c_self c = true -> c_self_ok c = true) /\ (exists c t, In c chain /\ In t trusted /\ c_raw t = c_raw c) /\
  (if leaf then exists u, In u (c_uses c) /\ In u uses else may_certify c) /\
  (forall i, issuer = Some i -> not_revoked now crls sup c i).
Proof.
  unfold check_member, self_signed. rewrite <- trusted_spec.
  destruct (c_self c && negb (c_self_ok c)) eqn:E1.
  { split; [discriminate|]. intros [H _]. apply andb_true_iff in E1. destruct E1 as [Ea Eb]. rewrite (H Ea) in Eb. discriminate. }
  destruct (existsb _ chain) eqn:E2; cbn [negb].
  2: { split; [discriminate|]. intros (_ & H & _). discriminate. }
  assert (H1 : c_self c = true -> c_self_ok c = true).
  { intros H. rewrite H in E1. now destruct (c_self_ok c). }
  destruct leaf; cbn [andb negb].
  - rewrite <- uses_spec. destruct (existsb _ (c_uses c)) eqn:E3; cbn [negb].
    2: { split; [discriminate|]. intros (_ & _ & H & _). discriminate. }
    destruct (check_revocation now true c issuer crls sup) eqn:R.
    + split; [discriminate|]. intros (_ & _ & _ & H). destruct issuer as [i|]; [|discriminate].
      assert (X : check_revocation now true c (Some i) crls sup = None) by (apply revocation_ok; auto). congruence.
    + split; [|reflexivity]. intros _. repeat split; auto. intros i ->. now apply revocation_ok in R.
  - rewrite <- sign_spec. destruct (Z.land (c_usage c) 32 =? 32) eqn:E3; cbn [negb].
    2: { split; [discriminate|]. intros (_ & _ & H & _). discriminate. }
    destruct (check_revocation now false c issuer crls sup) eqn:R.
    + split; [discriminate|]. intros (_ & _ & _ & H). destruct issuer as [i|]; [|discriminate].
      assert (X : check_revocation now false c (Some i) crls sup = None) by (apply revocation_ok; auto). congruence.
    + split; [|reflexivity]. intros _. repeat split; auto. intros i ->. now apply revocation_ok in R.
Qed.
Lemma members_ok chain trusted uses crls sup : forall l leaf,
  check_members now chain trusted uses crls sup leaf l = None <->
  (forall l1 c l2, l = l1 ++ c :: l2 ->
     check_member now chain trusted uses crls sup (match l1 with [] => leaf | _ => false end) c (hd_error l2) = None).
Proof.
  induction l as [|c l IH]; intros leaf; cbn [check_members].
  - split; [intros _ l1 c l2 H; now destruct l1|reflexivity].
  - destruct (check_member now chain trusted uses crls sup leaf c (hd_error l)) eqn:E.
    + split; [discriminate|]. intros H. specialize (H [] c l eq_refl). cbn in H. congruence.
    + rewrite IH. split; intros H l1 d l2 Eq.
      * destruct l1 as [|x l1]; cbn in Eq; [injection Eq as -> ->; assumption|]. injection Eq as -> ->.
        specialize (H l1 d l2 eq_refl). now destruct l1.
      * specialize (H (c :: l1) d l2). cbn in H. rewrite Eq in H. specialize (H eq_refl). now destruct l1.
Qed.
Lemma chain_exact trusted (P : cert -> Prop) uses crls sup chain :
  (forall t, In t trusted <-> P t) -> chain <> [] ->
  check_members now chain trusted uses crls sup true chain = None <-> chain_ok now P uses crls sup chain.
Proof.
  intros T NE. rewrite members_ok. unfold chain_ok. split.
  - intros H. assert (H' := fun l1 c l2 E => proj1 (member_ok _ _ _ _ _ _ _ _) (H l1 c l2 E)). clear H.
    destruct chain as [|leaf rest]; [easy|]. split; [|split; [|split]].
    + intros c I. apply in_split in I. destruct I as (l1 & l2 & E). now apply (H' l1 c l2 E).
    + destruct (H' [] leaf rest eq_refl) as (_ & (c & t & Ic & It & E) & _). exists c, t. rewrite <- T. auto.
    + exists leaf, rest. split; [reflexivity|]. split; [now apply (H' [] leaf rest eq_refl)|].
      intros c I. apply in_split in I. destruct I as (l1 & l2 & ->). now apply (H' (leaf :: l1) c l2 eq_refl).
    + intros l1 c issuer l2 E. now apply (H' l1 c (issuer :: l2) E).
  - intros (H1 & (c0 & t0 & Ic & It & E0) & (leaf & rest & -> & H3 & H4) & H5) l1 c l2 E. apply member_ok.
    split; [apply H1; rewrite E, in_app_iff; cbn; auto|]. split; [exists c0, t0; rewrite T; auto|]. split.
    + destruct l1 as [|x l1]; cbn in E; [now injection E as <- <-|]. injection E as <- ->. apply H4. rewrite in_app_iff. cbn. auto.
    + intros i Hi. destruct l2 as [|i' l2]; [discriminate|]. injection Hi as ->. now apply (H5 l1 c i l2).
Qed.
Lemma chains_exact trusted uses crls sup : forall l err, l <> [] ->
  check_chains now trusted uses crls sup err l = None <-> exists chain, In chain l /\ check_members now chain trusted uses crls sup true chain = None.
Proof.
  induction l as [|chain l IH]; intros err NE; [easy|]. cbn [check_chains].
  destruct (check_members now chain trusted uses crls sup true chain) as [st|] eqn:E.
  - destruct l as [|c2 l].
    + cbn. split; [discriminate|]. intros (ch & [<-|[]] & H). congruence.
    + rewrite IH by easy. split; intros (ch & I & H); exists ch; (split; [|assumption]); [now right|].
      destruct I as [<-|I]; [congruence|assumption].
  - split; [|reflexivity]. intros _. exists chain. split; [now left|assumption].
Qed.
Lemma chains_error trusted uses crls sup : forall l err st,
  check_chains now trusted uses crls sup err l = Some st ->
  err = Some st \/ exists chain, In chain l /\ check_members now chain trusted uses crls sup true chain = Some st.
Proof.
  induction l as [|chain l IH]; intros err st E; cbn in E; [now left|].
  destruct (check_members now chain trusted uses crls sup true chain) as [s|] eqn:F; [|discriminate].
  destruct (IH _ _ E) as [H|(ch & I & H)]; right.
  - injection H as ->. exists chain. split; [now left|assumption].
  - exists ch. split; [now right|assumption].
Qed.

(** ** Acceptance *)
Lemma options_asked c others uses host st n : asked c others uses host st n (options_for c others uses host st n).
Proof.
  unfold asked, options_for, split_roots, self_signed. cbn [o_roots o_inter o_uses o_host o_time fst snd].
  split; [|split; [|auto]]; intros x.
  - rewrite in_app_iff, filter_In, !in_app_iff, !usable_contents. split.
    + intros [[I E]|I]; [left; auto|right]. destruct (n_chain n); [|easy]. destruct I as [I|[]]. auto.
    + intros [[E I]|[E ->]]; [left; auto|right]. rewrite E. now left.
  - rewrite filter_In, !in_app_iff, !usable_contents. rewrite negb_true_iff. tauto.
Qed.
Lemma trusts_spec st n c t : In t (usable (s_trusted st) ++ (if n_chain n then [c] else [])) <-> trusts st n c t.
Proof.
  unfold trusts. rewrite in_app_iff, usable_contents. destruct (n_chain n); cbn; intuition.
Qed.
Lemma uses_of uses : (match uses with [] => [1] | _ => uses end) = if list_eq_dec Z.eq_dec uses [] then [1] else uses.
Proof. destruct uses; [reflexivity|]. now destruct (list_eq_dec Z.eq_dec (z :: uses) []). Qed.

Lemma validate_exact certs uses host st n :
  verify_contract verify -> uses <> [] ->
  validate verify now certs uses host st n = Accepted <->
  exists c others, certs = c :: others /\
    let o := options_for c others uses host st n in
    exists chains chain, verify o c = Chains chains /\ In chain chains /\
      chain_ok now (trusts st n c) uses (revocation_lists st) (n_revocation n) chain.
Proof.
  intros V NU. unfold validate. rewrite lists_spec. destruct certs as [|c others].
  { split; [discriminate|]. intros (c & o & E & _). discriminate. }
  assert (EU : match uses with [] => [1] | _ => uses end = uses) by now destruct uses.
  rewrite EU. cbn zeta.
  destruct (verify (options_for c others uses host st n) c) as [l| | | | | |] eqn:Ev.
  - destruct (V _ _ _ Ev) as [NE Hc].
    destruct (check_chains _ _ _ _ _ None l) eqn:Ec.
    + split; [discriminate|]. intros (c' & o' & E & chains & chain & Ev' & I & OK). injection E as <- <-.
      exfalso. rewrite Ev in Ev'. injection Ev' as <-.
      assert (X : check_chains now (usable (s_trusted st) ++ (if n_chain n then [c] else [])) uses
        (revocation_lists st) (n_revocation n) None l = None).
      { apply chains_exact; [assumption|]. exists chain. split; [assumption|].
        eapply (chain_exact _ (trusts st n c)); [apply trusts_spec| |exact OK]. destruct (Hc _ I) as [r ->]. discriminate. }
      congruence.
    + split; [|reflexivity]. intros _. apply chains_exact in Ec; [|assumption]. destruct Ec as (chain & I & E).
      exists c, others. split; [reflexivity|]. exists l, chain. split; [assumption|]. split; [assumption|].
      eapply chain_exact; [apply trusts_spec| |exact E]. destruct (Hc _ I) as [r ->]. discriminate.
  - split; [destruct (verify (mkOpt _ _ _ _ _) c); discriminate|]. intros (c' & o' & E & chains & chain & Ev' & _); injection E as <- <-; congruence.
  - split; [discriminate|]; intros (c' & o' & E & chains & chain & Ev' & _); injection E as <- <-; congruence.
  - split; [discriminate|]; intros (c' & o' & E & chains & chain & Ev' & _); injection E as <- <-; congruence.
  - split; [discriminate|]; intros (c' & o' & E & chains & chain & Ev' & _); injection E as <- <-; congruence.
  - split; [discriminate|]; intros (c' & o' & E & chains & chain & Ev' & _); injection E as <- <-; congruence.
  - split; [discriminate|]; intros (c' & o' & E & chains & chain & Ev' & _); injection E as <- <-; congruence.
Qed.

(** In terms of what is asked of crypto/x509 *)
Lemma validate_sound certs uses host st n :
  verify_contract verify -> uses <> [] -> validate verify now certs uses host st n = Accepted ->
  exists c others o chains chain, certs = c :: others /\ asked c others uses host st n o /\
    verify o c = Chains chains /\ In chain chains /\
    chain_ok now (trusts st n c) uses (revocation_lists st) (n_revocation n) chain.
Proof.
  intros V NU H. apply validate_exact in H; [|assumption|assumption]. destruct H as (c & others & -> & chains & chain & H).
  exists c, others, (options_for c others uses host st n), chains, chain. split; [reflexivity|]. split; [apply options_asked|assumption].
Qed.
(** If it only depends on which certificates are offered, and not on their order, then conversely *)
Lemma validate_complete c others uses host st n :
  verify_contract verify -> uses <> [] ->
  (forall o, asked c others uses host st n o -> exists chains chain, verify o c = Chains chains /\ In chain chains /\
     chain_ok now (trusts st n c) uses (revocation_lists st) (n_revocation n) chain) ->
  validate verify now (c :: others) uses host st n = Accepted.
Proof.
  intros V NU H. apply validate_exact; [assumption|assumption|]. exists c, others. split; [reflexivity|]. apply H, options_asked.
Qed.

(** ** Refusal *)
Lemma some_inj {A} (x y : A) : Some x = Some y -> x = y.
Proof. now intros [= H]. Qed.
Lemma member_defect st n uses crls c chain l1 x l2 code :
  chain = l1 ++ x :: l2 -> (exists rest, chain = c :: rest) ->
  check_member now chain (usable (s_trusted st) ++ (if n_chain n then [c] else [])) uses crls (n_revocation n)
    (match l1 with [] => true | _ => false end) x (hd_error l2) = Some code ->
  defect now st n uses crls c chain code.
Proof.
  intros E [rest Ec]. unfold check_member, self_signed, defect.
  destruct (c_self x && negb (c_self_ok x)) eqn:E1.
  { intros H. injection H as <-. left. split; [reflexivity|]. left. exists x. rewrite andb_true_iff, negb_true_iff in E1.
    split; [rewrite E, in_app_iff; cbn; auto|tauto]. }
  destruct (existsb _ chain) eqn:E2; cbn [negb].
  2: { intros H. injection H as <-. left. split; [reflexivity|]. right; left. intros y t Iy Tt Eq.
       apply trusts_spec in Tt. assert (X : exists c0 t0, In c0 chain /\ In t0 (usable (s_trusted st) ++ (if n_chain n then [c] else [])) /\ c_raw t0 = c_raw c0) by (exists y, t; auto).
       apply trusted_spec in X. congruence. }
  destruct l1 as [|y l1]; cbn [andb negb].
  - assert (x = c /\ l2 = rest) as [-> ->] by (rewrite Ec in E; injection E as <- <-; auto).
    destruct (existsb _ (c_uses c)) eqn:E3; cbn [negb].
    2: { intros H. injection H as <-. right; left. split; [reflexivity|]. intros u Iu Iu'.
         assert (X : exists u, In u (c_uses c) /\ In u uses) by (exists u; auto). apply uses_spec in X. congruence. }
    destruct rest as [|issuer rest]; cbn [hd_error check_revocation]; [discriminate|].
    destruct (find _ crls) as [l|] eqn:F.
    + destruct (find_split _ _ _ F) as (a & b & Eq & H1 & H2). destruct (existsb (Z.eqb _) (l_revoked l)) eqn:E4; [|discriminate].
      intros H. apply some_inj in H. vm_compute in H. subst code. left. split; [reflexivity|]. right; right. exists [], c, issuer, rest, l.
      split; [assumption|]. split; [rewrite Eq, in_app_iff; cbn; auto|]. split; [now apply in_force_spec|]. now apply serial_in.
    + destruct (n_revocation n) eqn:E5; [discriminate|]. intros H. apply some_inj in H. vm_compute in H. subst code. right; right; right; left.
      split; [reflexivity|]. split; [reflexivity|]. exists issuer, rest. split; [assumption|].
      intros l I. apply in_force_not. now apply (find_none _ _ F).
  - assert (y = c /\ rest = l1 ++ x :: l2) as [-> ->] by (rewrite Ec in E; injection E as <- <-; auto).
    destruct (Z.land (c_usage x) 32 =? 32) eqn:E3; cbn [negb].
    2: { intros H. injection H as <-. right; right; left. split; [reflexivity|]. exists x, (l1 ++ x :: l2).
         split; [assumption|]. split; [rewrite in_app_iff; cbn; auto|]. intros M. apply sign_spec in M. congruence. }
    destruct l2 as [|issuer l2]; cbn [hd_error check_revocation]; [discriminate|].
    destruct (find _ crls) as [l|] eqn:F.
    + destruct (find_split _ _ _ F) as (a & b & Eq & H1 & H2). destruct (existsb (Z.eqb _) (l_revoked l)) eqn:E4; [|discriminate].
      intros H. apply some_inj in H. vm_compute in H. subst code. left. split; [reflexivity|]. right; right. exists (c :: l1), x, issuer, l2, l.
      split; [assumption|]. split; [rewrite Eq, in_app_iff; cbn; auto|]. split; [now apply in_force_spec|]. now apply serial_in.
    + destruct (n_revocation n) eqn:E5; [discriminate|]. intros H. apply some_inj in H. vm_compute in H. subst code. right; right; right; right.
      split; [reflexivity|]. split; [reflexivity|]. exists (c :: l1), x, issuer, l2. split; [assumption|]. split; [discriminate|].
      intros l I. apply in_force_not. now apply (find_none _ _ F).
Qed.
Lemma members_error chain trusted uses crls sup code : forall l leaf,
  check_members now chain trusted uses crls sup leaf l = Some code ->
  exists l1 c l2, l = l1 ++ c :: l2 /\
     check_member now chain trusted uses crls sup (match l1 with [] => leaf | _ => false end) c (hd_error l2) = Some code.
Proof.
  induction l as [|c l IH]; intros leaf; cbn [check_members]; [discriminate|].
  destruct (check_member now chain trusted uses crls sup leaf c (hd_error l)) eqn:E.
  - intros [= ->]. exists [], c, l. auto.
  - intros H. destruct (IH _ H) as (l1 & d & l2 & -> & Hd). exists (c :: l1), d, l2. split; [reflexivity|]. now destruct l1.
Qed.
Lemma validate_refused c others uses host st n code :
  verify_contract verify -> uses <> [] -> validate verify now (c :: others) uses host st n = Refused code ->
  exists o, asked c others uses host st n o /\
    let late := mkOpt (o_roots o) (o_inter o) (o_uses o) (o_host o) (Some (c_from c)) in
    match verify o c with
    | Chains l => exists chain, In chain l /\ defect now st n uses (revocation_lists st) c chain code
    | BadExpired => ((exists l, verify late c = Chains l) /\ code = 0x80140000) \/ ((forall l, verify late c <> Chains l) /\ code = 0x80130000)
    | BadUsage => code = 0x80180000
    | BadHostname => code = 0x80160000
    | BadInvalid | BadAuthority => code = 0x80130000
    | BadOther => False
    end.
Proof.
  intros V NU H. exists (options_for c others uses host st n). split; [apply options_asked|]. cbn zeta.
  unfold validate in H. rewrite lists_spec in H. assert (EU : match uses with [] => [1] | _ => uses end = uses) by now destruct uses.
  rewrite EU in H. cbn zeta in H.
  destruct (verify (options_for c others uses host st n) c) as [l| | | | | |] eqn:Ev.
  - destruct (check_chains _ _ _ _ _ None l) eqn:Ec; [|discriminate]. injection H as <-.
    apply chains_error in Ec. destruct Ec as [Ec|(chain & I & E)]; [discriminate|]. exists chain. split; [assumption|].
    apply members_error in E. destruct E as (l1 & x & l2 & Eq & E).
    eapply member_defect; [exact Eq|apply (V _ _ _ Ev), I|exact E].
  - destruct (verify (mkOpt _ _ _ _ _) c) as [l| | | | | |] eqn:E2; injection H as <-;
      [left; split; [now exists l|reflexivity]|right; (split; [discriminate|reflexivity])..].
  - now injection H as <-.
  - now injection H as <-.
  - now injection H as <-.
  - now injection H as <-.
  - discriminate.
Qed.

(** ** Channels *)
Lemma server_gate_open st n mode sent :
  verify_contract verify -> mode = 2 \/ mode = 3 -> server_gate verify now st n mode sent = Passed ->
  exists c others o chains chain, sent = Some (Some (c :: others)) /\
    asked c others [2] [] st n o /\ verify o c = Chains chains /\ In chain chains /\
    chain_ok now (trusts st n c) [2] (revocation_lists st) (n_revocation n) chain.
Proof.
  intros V M H. unfold server_gate in H. assert (EM : secured_mode mode = true) by (destruct M as [-> | ->]; reflexivity). rewrite EM in H.
  destruct sent as [[certs|]|]; [|discriminate|discriminate].
  destruct (validate _ _ _ _ _ _ _) eqn:Ev in H; [|discriminate|discriminate].
  apply validate_sound in Ev; [|assumption|discriminate]. destruct Ev as (c & others & o & chains & chain & -> & A & R).
  exists c, others, o, chains, chain. split; [reflexivity|]. split; [|assumption].
  unfold asked in *. cbn [n_chain n_host n_time] in A. destruct A as (A1 & A2 & A3 & A4 & A5). split; [exact A1|]. split; [exact A2|]. split; [exact A3|]. split; [|exact A5].
  rewrite A4. now destruct (n_host n).
Qed.
Lemma client_gate_open st n mode host key sent :
  verify_contract verify -> (sent <> None \/ mode = 2 \/ mode = 3) -> client_gate verify now st n mode host key sent = Passed ->
  (mode = 2 \/ mode = 3 -> key = true) /\
  exists c others o chains chain, sent = Some (Some (c :: others)) /\
    asked c others [1] host st n o /\ verify o c = Chains chains /\ In chain chains /\
    chain_ok now (trusts st n c) [1] (revocation_lists st) (n_revocation n) chain.
Proof.
  intros V M H. unfold client_gate in H. destruct sent as [[[|c others]|]|]; [discriminate| |discriminate|].
  - destruct (negb (c_rsa c)); [discriminate|]. destruct (validate _ _ _ _ _ _ _) eqn:Ev in H; [|discriminate|discriminate].
    split.
    + intros Hm. assert (EM : secured_mode mode = true) by (destruct Hm as [-> | ->]; reflexivity). rewrite EM in H. now destruct key.
    + apply validate_sound in Ev; [|assumption|discriminate]. destruct Ev as (c' & others' & o & chains & chain & E & R).
      injection E as <- <-. exists c, others, o, chains, chain. auto.
  - assert (EM : secured_mode mode = true) by (destruct M as [M|[-> | ->]]; [easy|reflexivity|reflexivity]). rewrite EM in H. discriminate.
Qed.
End Validate.

(** * Endpoints *)
Lemma policies_supported p : existsb (bytes_eqb p) policies = true <-> supported p.
Proof.
  assert (E : policies = map policy_uri ["None"; "Basic128Rsa15"; "Basic256"; "Basic256Sha256"; "Aes128_Sha256_RsaOaep"; "Aes256_Sha256_RsaPss"]%string) by (vm_compute; reflexivity).
  unfold supported. rewrite <- E. rewrite existsb_exists. split.
  - intros (q & I & Eq). apply bytes_eqb_eq in Eq. now subst.
  - intros I. exists p. split; [assumption|]. now apply bytes_eqb_eq.
Qed.
Lemma nonempty_spec p : nonempty p = false <-> p = [].
Proof. destruct p; cbn; split; congruence. Qed.
Lemma selects_spec policy mode has_cert e :
  selects policy mode has_cert e = true <-> suits (wanted_policy policy has_cert) (wanted_mode policy mode has_cert) e.
Proof.
  unfold selects, suits. rewrite !andb_true_iff, !orb_true_iff, policies_supported, negb_true_iff, nonempty_spec, bytes_eqb_eq, !Z.eqb_eq. tauto.
Qed.
Lemma wanted policy mode has_cert :
  (policy <> [] \/ has_cert = true -> wanted_policy policy has_cert = policy /\ wanted_mode policy mode has_cert = mode) /\
  (policy = [] -> has_cert = false -> wanted_policy policy has_cert = policy_uri "None" /\ wanted_mode policy mode has_cert = 1).
Proof.
  unfold wanted_policy, wanted_mode. split.
  - intros [H|H]; [destruct policy; [easy|cbn; auto]|]. rewrite H. rewrite andb_false_r. auto.
  - intros -> ->. cbn. auto.
Qed.
Lemma find_best f : forall l e, descending l -> find f l = Some e -> In e l /\ f e = true /\ forall e', In e' l -> f e' = true -> e_level e' <= e_level e.
Proof.
  induction l as [|x l IH]; cbn; intros e HD F; [discriminate|]. destruct HD as [H D]. destruct (f x) eqn:E.
  - injection F as <-. split; [now left|]. split; [assumption|]. intros e' [<-|I] _; [lia|auto].
  - destruct (IH e D F) as (I & Fe & B). split; [now right|]. split; [assumption|]. intros e' [<-|I'] Fe'; [congruence|auto].
Qed.
Lemma select_spec policy mode has_cert eps sorted e :
  Permutation eps sorted -> descending sorted -> select_endpoint policy mode has_cert sorted = Some e ->
  In e eps /\ exists p m,
    (policy <> [] \/ has_cert = true -> p = policy /\ m = mode) /\
    (policy = [] -> has_cert = false -> p = policy_uri "None" /\ m = 1) /\
    suits p m e /\ forall e', In e' eps -> suits p m e' -> e_level e' <= e_level e.
Proof.
  intros P D F. apply find_best in F; [|assumption]. destruct F as (I & S & B). split; [now apply (Permutation_in e (Permutation_sym P))|].
  exists (wanted_policy policy has_cert), (wanted_mode policy mode has_cert). destruct (wanted policy mode has_cert) as [W1 W2].
  split; [assumption|]. split; [assumption|]. split; [now apply selects_spec|].
  intros e' I' S'. apply B; [now apply (Permutation_in e' P)|now apply selects_spec].
Qed.
Lemma select_none policy mode has_cert eps sorted :
  Permutation eps sorted ->
  select_endpoint policy mode has_cert sorted = None <->
  forall e p m, In e eps ->
    (policy <> [] \/ has_cert = true -> p = policy /\ m = mode) ->
    (policy = [] -> has_cert = false -> p = policy_uri "None" /\ m = 1) -> ~ suits p m e.
Proof.
  intros P. destruct (wanted policy mode has_cert) as [W1 W2]. split.
  - intros F e p m I H1 H2 S.
    assert (p = wanted_policy policy has_cert /\ m = wanted_mode policy mode has_cert) as [-> ->].
    { destruct has_cert.
      - destruct (H1 (or_intror eq_refl)) as [-> ->], (W1 (or_intror eq_refl)) as [-> ->]. auto.
      - destruct policy as [|b p0].
        + destruct (H2 eq_refl eq_refl) as [-> ->], (W2 eq_refl eq_refl) as [-> ->]. auto.
        + assert (NE : b :: p0 <> [] \/ false = true) by (left; discriminate). destruct (H1 NE) as [-> ->], (W1 NE) as [-> ->]. auto. }
    apply selects_spec in S. apply (Permutation_in e P) in I. rewrite (find_none _ _ F _ I) in S. discriminate.
  - intros H. destruct (select_endpoint policy mode has_cert sorted) as [e|] eqn:F; [|reflexivity]. exfalso.
    unfold select_endpoint in F. apply find_some in F. destruct F as [I S]. apply selects_spec in S.
    apply (H e (wanted_policy policy has_cert) (wanted_mode policy mode has_cert)); auto. now apply (Permutation_in e (Permutation_sym P)).
Qed.

(** ** The server *)
Lemma local_offered eps discovery policy mode token :
  may_activate (local_endpoint eps discovery policy mode) token = true ->
  exists e, fst (local_endpoint eps discovery policy mode) = e /\ In e eps /\ e_policy e = policy /\ e_mode e = mode /\ In token (e_tokens e).
Proof.
  unfold may_activate, local_endpoint.
  destruct (find (offers policy mode) eps) as [e|] eqn:F.
  - apply find_some in F. destruct F as [I O]. unfold offers in O. rewrite !andb_true_iff, !bytes_eqb_eq, Z.eqb_eq in O. destruct O as [[_ O1] O2].
    destruct (negb (nonempty (e_url e)) && bytes_eqb policy policy_none && (mode =? 1)); cbn; [discriminate|].
    intros H. exists e. repeat split; auto. apply existsb_exists in H. destruct H as (t & It & E). apply Z.eqb_eq in E. now subst.
  - destruct (_ && _ && _); cbn; discriminate.
Qed.
