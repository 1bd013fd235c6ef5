(** Proofs about the address space. *)
From Coq Require Import ZArith List Bool Lia.
From Coq Require Import ZifyBool ZifyNat.
From Verif Require Import Bytes IndexRange Roles Nodes NodeAccess AccessSpec SpaceSpec.
Import ListNotations.
Open Scope Z_scope.

(** * References *)
Lemma one_way_spec ty : one_way ty = false <-> two_way ty.
Proof. unfold one_way, two_way, has_type_definition, has_modelling_rule. lia. Qed.
Lemma one_way_true ty : one_way ty = true -> ~ two_way ty.
Proof. intros H. rewrite <- one_way_spec. congruence. Qed.
Lemma counterpart_spec id r tr : counterpart id r tr = true <-> tr = mkRef (rf_type r) (negb (rf_inverse r)) id.
Proof.
  unfold counterpart. destruct tr as [ty inv t], r as [ty' inv' t']. cbn [rf_type rf_inverse rf_target]. rewrite !andb_true_iff, !Z.eqb_eq, negb_true_iff. split.
  - intros [[-> H] ->]. destruct inv, inv'; try discriminate; reflexivity.
  - intros [= -> -> ->]. destruct inv'; auto.
Qed.
Lemma put_same sp id n : put sp id n id = Some n.
Proof. unfold put. now rewrite Z.eqb_refl. Qed.
Lemma put_other sp id n x : x <> id -> put sp id n x = sp x.
Proof. intros H. unfold put. now rewrite (proj2 (Z.eqb_neq _ _) H). Qed.
Lemma set_refs_refs n l : nd_refs (set_refs n l) = l.
Proof. reflexivity. Qed.
Lemma same_node_refl n : same_node n n.
Proof. repeat split. Qed.
Lemma same_node_trans a b c : same_node a b -> same_node b c -> same_node a c.
Proof. intros (A1 & A2 & A3 & A4) (B1 & B2 & B3 & B4). repeat split; congruence. Qed.
(** Nothing but references changes *)
Definition alike (sp sp' : space) : Prop := forall x, match sp x, sp' x with Some n, Some n' => same_node n n' | None, None => True | _, _ => False end.
Lemma alike_refl sp : alike sp sp.
Proof. intros x. destruct (sp x); [apply same_node_refl|exact I]. Qed.
Lemma alike_trans a b c : alike a b -> alike b c -> alike a c.
Proof. intros H1 H2 x. specialize (H1 x). specialize (H2 x). destruct (a x), (b x), (c x); try tauto. eapply same_node_trans; eassumption. Qed.
Lemma alike_present sp sp' x : alike sp sp' -> present sp' x <-> present sp x.
Proof. intros H. specialize (H x). unfold present. destruct (sp x), (sp' x); try tauto; split; intros; congruence. Qed.
Lemma alike_put sp id n l : sp id = Some n -> alike sp (put sp id (set_refs n l)).
Proof.
  intros E x. destruct (Z.eq_dec x id) as [->|N]; [rewrite put_same, E; repeat split|]. rewrite put_other by exact N. destruct (sp x); [apply same_node_refl|exact I].
Qed.
Lemma has_ref_put sp id n l a ty inv b : sp id = Some n -> has_ref (put sp id (set_refs n l)) a ty inv b <-> (a <> id /\ has_ref sp a ty inv b) \/ (a = id /\ In (mkRef ty inv b) l).
Proof.
  intros E. unfold has_ref. destruct (Z.eq_dec a id) as [->|N].
  - rewrite put_same. split.
    + intros (m & [= <-] & I). right. auto.
    + intros [[H _]|[_ I]]; [congruence|]. exists (set_refs n l). auto.
  - rewrite put_other by exact N. split; [intros H; left; auto|]. intros [[_ H]|[H _]]; [exact H|congruence].
Qed.

(** ** Adding *)
Lemma add_inverse_alike id sp r : alike sp (add_inverse id sp r).
Proof.
  unfold add_inverse. destruct (one_way _); [apply alike_refl|]. destruct (sp (rf_target r)) as [t|] eqn:E; [|apply alike_refl]. destruct (existsb _ _); [apply alike_refl|]. now apply alike_put.
Qed.
Lemma add_inverse_refs id sp r a ty inv b : has_ref (add_inverse id sp r) a ty inv b <->
  has_ref sp a ty inv b \/ (b = id /\ two_way ty /\ present sp a /\ r = mkRef ty (negb inv) a).
Proof.
  unfold add_inverse. destruct (one_way (rf_type r)) eqn:O.
  - apply one_way_true in O. split; [auto|]. intros [H|(_ & T & _ & ->)]; [exact H|]. now destruct O.
  - apply one_way_spec in O. destruct (sp (rf_target r)) as [t|] eqn:E.
    + destruct (existsb (counterpart id r) (nd_refs t)) eqn:X.
      * split; [auto|]. intros [H|(-> & T & P & ->)]; [exact H|]. apply existsb_exists in X. destruct X as (tr & I & C). apply counterpart_spec in C. cbn [rf_type rf_inverse rf_target] in *.
        rewrite negb_involutive in C. subst tr. exists t. auto.
      * rewrite (has_ref_put _ _ t) by exact E. split.
        -- intros [[N H]|[-> I]]; [now left|]. apply in_app_iff in I. destruct I as [I|[I|[]]]; [left; exists t; auto|]. injection I as <- <- <-. right. split; [reflexivity|]. split; [exact O|].
           split; [unfold present; congruence|]. rewrite negb_involutive. now destruct r.
        -- intros [H|(-> & T & P & ->)].
           ++ destruct (Z.eq_dec a (rf_target r)) as [->|N]; [|left; auto]. right. split; [reflexivity|]. destruct H as (m & Em & I). rewrite E in Em. injection Em as <-. apply in_app_iff. now left.
           ++ right. split; [reflexivity|]. cbn [rf_type rf_inverse rf_target]. rewrite negb_involutive. apply in_app_iff. right. now left.
    + split; [auto|]. intros [H|(-> & T & P & ->)]; [exact H|]. cbn [rf_target] in E. contradiction.
Qed.
Lemma add_inverses_alike id l sp : alike sp (fold_left (add_inverse id) l sp).
Proof. revert sp. induction l as [|r l IH]; intros sp; cbn [fold_left]; [apply alike_refl|]. eapply alike_trans; [apply add_inverse_alike|apply IH]. Qed.
Lemma add_inverses_refs id l sp a ty inv b : has_ref (fold_left (add_inverse id) l sp) a ty inv b <->
  has_ref sp a ty inv b \/ (b = id /\ two_way ty /\ present sp a /\ In (mkRef ty (negb inv) a) l).
Proof.
  revert sp. induction l as [|r l IH]; intros sp; cbn [fold_left].
  - split; [auto|]. intros [H|(_ & _ & _ & [])]. exact H.
  - rewrite IH, add_inverse_refs, (alike_present _ _ a (add_inverse_alike id sp r)). cbn [In]. split.
    + intros [[H|(B & T & P & R)]|(B & T & P & R)]; auto 6.
    + intros [H|(B & T & P & [R|R])]; auto 7.
Qed.
Lemma add_one_alike sp id : alike sp (add_one sp id).
Proof. unfold add_one. destruct (sp id); [apply add_inverses_alike|apply alike_refl]. Qed.
Lemma add_one_refs sp id a ty inv b : has_ref (add_one sp id) a ty inv b <->
  has_ref sp a ty inv b \/ (b = id /\ two_way ty /\ present sp a /\ has_ref sp id ty (negb inv) a).
Proof.
  unfold add_one. destruct (sp id) as [n|] eqn:E.
  - rewrite add_inverses_refs. split; (intros [H|(B & T & P & R)]; [now left|right; repeat split; auto; try apply T]).
    + exists n. auto.
    + destruct R as (m & Em & I). rewrite E in Em. now injection Em as <-.
  - split; [auto|]. intros [H|(_ & _ & _ & m & Em & _)]; [exact H|congruence].
Qed.
Lemma add_all_alike ids sp : alike sp (fold_left add_one ids sp).
Proof. revert sp. induction ids as [|id ids IH]; intros sp; cbn [fold_left]; [apply alike_refl|]. eapply alike_trans; [apply add_one_alike|apply IH]. Qed.
Lemma add_all_refs ids sp a ty inv b : has_ref (fold_left add_one ids sp) a ty inv b <->
  has_ref sp a ty inv b \/ (In b ids /\ two_way ty /\ present sp a /\ has_ref sp b ty (negb inv) a).
Proof.
  revert sp. induction ids as [|id ids IH]; intros sp; cbn [fold_left].
  - split; [auto|]. intros [H|([] & _)]. exact H.
  - rewrite IH, !add_one_refs, (alike_present _ _ a (add_one_alike sp id)), negb_involutive. cbn [In]. split.
    + intros [[H|(-> & T & P & R)]|(B & T & P & [R|(-> & _ & _ & R)])]; auto 7.
    + intros [H|([->|B] & T & P & R)]; [auto|left; right; auto|right; auto].
Qed.
Lemma insert_all_in l : forall sp id, ~ In id (map fst l) -> insert_all sp l id = sp id.
Proof.
  unfold insert_all. induction l as [|[i n] l IH]; intros sp id N; cbn [fold_left map In fst snd] in *; [reflexivity|]. rewrite IH by tauto. apply put_other. intros ->. tauto.
Qed.
Lemma insert_all_present l : forall sp id, In id (map fst l) -> exists n, insert_all sp l id = Some n /\ In (id, n) l.
Proof.
  unfold insert_all. induction l as [|[i n] l IH]; intros sp id H; cbn [fold_left map In fst snd] in *; [destruct H|]. destruct (in_dec Z.eq_dec id (map fst l)) as [I|I].
  - destruct (IH (put sp i n) id I) as (m & E & J). exists m. auto.
  - destruct H as [->|H]; [|contradiction]. exists n. split; [|now left]. change (insert_all (put sp id n) l id = Some n). rewrite insert_all_in by exact I. apply put_same.
Qed.
Lemma add_nodes_alike sp l : alike (insert_all sp l) (add_nodes sp l).
Proof. apply add_all_alike. Qed.
Lemma add_nodes_refs sp l a ty inv b : has_ref (add_nodes sp l) a ty inv b <->
  has_ref (insert_all sp l) a ty inv b \/ (In b (map fst l) /\ two_way ty /\ present (insert_all sp l) a /\ has_ref (insert_all sp l) b ty (negb inv) a).
Proof. apply add_all_refs. Qed.
Lemma has_ref_present sp a ty inv b : has_ref sp a ty inv b -> present sp a.
Proof. intros (n & E & _). unfold present. congruence. Qed.
(** When everything is bidirectional after adding *)
Theorem add_exact sp l : bidirectional (add_nodes sp l) <->
  forall a b ty inv, ~ In a (map fst l) -> two_way ty -> present (insert_all sp l) b -> has_ref (insert_all sp l) a ty inv b -> has_ref (insert_all sp l) b ty (negb inv) a.
Proof.
  unfold bidirectional. split.
  - intros H a b ty inv N T P R. specialize (H a b ty inv T). rewrite (alike_present _ _ b (add_nodes_alike sp l)) in H. specialize (H P). rewrite !add_nodes_refs in H.
    destruct (H (or_introl R)) as [K|(K & _)]; [exact K|contradiction].
  - intros H a b ty inv T P R. rewrite (alike_present _ _ b (add_nodes_alike sp l)) in P. rewrite add_nodes_refs in *. destruct R as [R|(B & _ & Pa & R)].
    + destruct (in_dec Z.eq_dec a (map fst l)) as [I|I]; [|left; now apply H]. right. rewrite negb_involutive. auto.
    + now left.
Qed.
(** The added nodes themselves are always seen from their targets *)
Theorem add_seen sp l a b ty inv : In a (map fst l) -> two_way ty -> has_ref (insert_all sp l) a ty inv b -> present (insert_all sp l) b -> has_ref (add_nodes sp l) b ty (negb inv) a.
Proof. intros I T R P. apply add_nodes_refs. right. rewrite negb_involutive. auto. Qed.
Definition sound (sp : space) : Prop := bidirectional sp /\ no_dangling sp.
Lemma insert_present sp l x : present (insert_all sp l) x <-> present sp x \/ In x (map fst l).
Proof.
  destruct (in_dec Z.eq_dec x (map fst l)) as [I|I].
  - destruct (insert_all_present l sp x I) as (n & E & _). unfold present. rewrite E. split; [auto|congruence].
  - unfold present. rewrite insert_all_in by exact I. tauto.
Qed.
Theorem add_sound sp l : sound sp -> complete_batch sp l -> sound (add_nodes sp l).
Proof.
  intros [B D] (N & F & C).
  assert (Fr : forall x, In x (map fst l) -> ~ present sp x) by (intros x I; apply in_map_iff in I; destruct I as ([i n] & <- & I); unfold present; cbn [fst]; rewrite (F i n I); auto).
  assert (D0 : forall a b ty inv, two_way ty -> has_ref (insert_all sp l) a ty inv b -> present (insert_all sp l) b).
  { intros a b ty inv T (n & E & I). apply insert_present. destruct (in_dec Z.eq_dec a (map fst l)) as [J|J].
    - destruct (insert_all_present l sp a J) as (m & Em & Jm). rewrite E in Em. injection Em as <-. exact (C a n ty inv b Jm T I).
    - rewrite insert_all_in in E by exact J. left. apply (D a b ty inv T). exists n. auto. }
  split.
  - apply add_exact. intros a b ty inv J T P (n & E & I). rewrite insert_all_in in E by exact J. assert (R : has_ref sp a ty inv b) by (exists n; auto).
    pose proof (D a b ty inv T R) as Pb. destruct (B a b ty inv T Pb R) as (m & Em & Im). exists m. split; [|exact Im]. rewrite insert_all_in; [exact Em|]. intros K. exact (Fr b K Pb).
  - intros a b ty inv T R. rewrite (alike_present _ _ b (add_nodes_alike sp l)). apply add_nodes_refs in R. destruct R as [R|(I & _ & P & R)]; [exact (D0 a b ty inv T R)|]. apply insert_present. now right.
Qed.

(** ** Deleting *)
Lemma drop_inverse_alike id sp r : alike sp (drop_inverse id sp r).
Proof. unfold drop_inverse. destruct (one_way _); [apply alike_refl|]. destruct (sp (rf_target r)) as [t|] eqn:E; [|apply alike_refl]. now apply alike_put. Qed.
Definition gone (id a : Z) (l : list reference) (tr : reference) : Prop := rf_target tr = id /\ two_way (rf_type tr) /\ In (mkRef (rf_type tr) (negb (rf_inverse tr)) a) l.
Lemma picks_filter {A} (f : A -> bool) (P : A -> Prop) l : (forall x, f x = true <-> P x) -> picks P l (filter f l).
Proof.
  intros H. induction l as [|x l IH]; cbn [filter]; [constructor|]. destruct (f x) eqn:F; [apply PicksTake; [now apply H|exact IH]|]. apply PicksSkip; [rewrite <- H; congruence|exact IH].
Qed.
Lemma picks_all {A} (P : A -> Prop) l : (forall x, P x) -> picks P l l.
Proof. intros H. induction l; constructor; auto. Qed.
Lemma picks_picks {A} (P Q R : A -> Prop) l m o : (forall x, R x <-> P x /\ Q x) -> picks P l m -> picks Q m o -> picks R l o.
Proof.
  intros E H. revert o. induction H as [|x l m Px H IH|x l m Px H IH]; intros o K.
  - inversion K. constructor.
  - inversion K; subst; [apply PicksTake|apply PicksSkip]; auto; rewrite E; tauto.
  - apply PicksSkip; auto. rewrite E. tauto.
Qed.
Lemma picks_ext {A} (P Q : A -> Prop) l m : (forall x, P x <-> Q x) -> picks P l m -> picks Q l m.
Proof. intros E H. induction H; constructor; auto; [now apply E|rewrite <- E; assumption]. Qed.
Lemma picks_in {A} (P : A -> Prop) l m x : picks P l m -> In x m <-> In x l /\ P x.
Proof.
  intros H. induction H as [|y l m Py H IH|y l m Py H IH]; cbn [In]; [tauto| |].
  - rewrite IH. intuition congruence.
  - rewrite IH. intuition congruence.
Qed.
Lemma drop_inverse_refs id sp r a n : sp a = Some n ->
  exists n', drop_inverse id sp r a = Some n' /\ same_node n n' /\ picks (fun tr => ~ gone id a [r] tr) (nd_refs n) (nd_refs n').
Proof.
  intros E. unfold drop_inverse.
  assert (Same : ~ (two_way (rf_type r) /\ rf_target r = a) -> exists n', sp a = Some n' /\ same_node n n' /\ picks (fun tr => ~ gone id a [r] tr) (nd_refs n) (nd_refs n')).
  { intros N. exists n. split; [exact E|]. split; [apply same_node_refl|]. apply picks_all. intros x (_ & T & [R|[]]). apply N. rewrite R. cbn. auto. }
  destruct (one_way (rf_type r)) eqn:O; [apply Same; intros [T _]; now apply one_way_true in O|]. apply one_way_spec in O.
  destruct (sp (rf_target r)) as [t|] eqn:Et; [|apply Same; intros [_ <-]; congruence].
  destruct (Z.eq_dec a (rf_target r)) as [Ea|N].
  - rewrite <- Ea. rewrite <- Ea in Et. rewrite put_same. rewrite E in Et. injection Et as <-. eexists. split; [reflexivity|]. split; [repeat split|]. cbn [set_refs nd_refs]. apply picks_filter. intros tr.
    rewrite negb_true_iff, <- not_true_iff_false, counterpart_spec. unfold gone. cbn [In]. split; intros H K; apply H.
    + destruct K as (K1 & K2 & [K3|[]]). rewrite K3. cbn. rewrite negb_involutive. destruct tr. cbn in *. now subst.
    + rewrite K. cbn. rewrite negb_involutive. split; [reflexivity|]. split; [exact O|]. left. rewrite Ea. now destruct r.
  - rewrite put_other by exact N. apply Same. intros [_ H]. congruence.
Qed.
Lemma drops_alike id l sp : alike sp (fold_left (drop_inverse id) l sp).
Proof. revert sp. induction l as [|r l IH]; intros sp; cbn [fold_left]; [apply alike_refl|]. eapply alike_trans; [apply drop_inverse_alike|apply IH]. Qed.
Lemma drops_refs id l sp a n : sp a = Some n ->
  exists n', fold_left (drop_inverse id) l sp a = Some n' /\ same_node n n' /\ picks (fun tr => ~ gone id a l tr) (nd_refs n) (nd_refs n').
Proof.
  revert sp n. induction l as [|r l IH]; intros sp n E; cbn [fold_left].
  - exists n. split; [exact E|]. split; [apply same_node_refl|]. apply picks_all. intros x (_ & _ & []).
  - destruct (drop_inverse_refs id sp r a n E) as (n1 & E1 & S1 & P1). destruct (IH _ n1 E1) as (n2 & E2 & S2 & P2). exists n2. split; [exact E2|]. split; [eapply same_node_trans; eassumption|].
    eapply picks_picks; [|exact P1|exact P2]. intros x. unfold gone. cbn [In]. tauto.
Qed.
(** What deleting a node does to the others *)
Theorem delete_effect sp id n0 : sp id = Some n0 -> delete_one sp id id = None /\
  forall a, a <> id -> match sp a with
  | None => delete_one sp id a = None
  | Some n => exists n', delete_one sp id a = Some n' /\ same_node n n' /\
      picks (fun r => ~ (rf_target r = id /\ two_way (rf_type r) /\ has_ref sp id (rf_type r) (negb (rf_inverse r)) a)) (nd_refs n) (nd_refs n')
  end.
Proof.
  intros E. unfold delete_one. rewrite E. unfold remove. split; [now rewrite Z.eqb_refl|]. intros a N. rewrite (proj2 (Z.eqb_neq _ _) N). destruct (sp a) as [n|] eqn:Ea.
  - destruct (drops_refs id (nd_refs n0) sp a n Ea) as (n' & E' & S' & P'). exists n'. split; [exact E'|]. split; [exact S'|]. eapply picks_ext; [|exact P']. intros x. unfold gone, has_ref. split; intros H K; apply H.
    + destruct K as (K1 & K2 & m & K3 & K4). rewrite E in K3. injection K3 as <-. auto.
    + destruct K as (K1 & K2 & K3). split; [exact K1|]. split; [exact K2|]. exists n0. auto.
  - pose proof (drops_alike id (nd_refs n0) sp a) as H. rewrite Ea in H. now destruct (fold_left (drop_inverse id) (nd_refs n0) sp a).
Qed.
Lemma delete_present sp id x : present (delete_one sp id) x <-> present sp x /\ x <> id.
Proof.
  destruct (sp id) as [n0|] eqn:E.
  - destruct (delete_effect sp id n0 E) as [G H]. destruct (Z.eq_dec x id) as [->|N]; [unfold present; rewrite G; tauto|]. specialize (H x N). unfold present. destruct (sp x) as [n|].
    + destruct H as (n' & -> & _). split; intros; try split; congruence.
    + rewrite H. tauto.
  - unfold delete_one. rewrite E. unfold present. split; [|tauto]. intros H. split; [exact H|]. intros ->. congruence.
Qed.
Lemma delete_refs sp id a ty inv b : has_ref (delete_one sp id) a ty inv b <->
  (has_ref sp a ty inv b /\ (present sp id -> a <> id /\ ~ (b = id /\ two_way ty /\ has_ref sp id ty (negb inv) a))).
Proof.
  destruct (sp id) as [n0|] eqn:E.
  - destruct (delete_effect sp id n0 E) as [G H]. assert (Pi : present sp id) by (unfold present; congruence). destruct (Z.eq_dec a id) as [->|N].
    + split; [intros (m & Em & _); congruence|]. intros [_ K]. now destruct (K Pi).
    + specialize (H a N). unfold has_ref at 1 2. destruct (sp a) as [n|].
      * destruct H as (n' & E' & _ & P'). rewrite E'. split.
        -- intros (m & [= <-] & I). apply (picks_in _ _ _ _ P') in I. destruct I as [I K]. split; [exists n; auto|]. intros _. split; [exact N|exact K].
        -- intros ((m & [= <-] & I) & K). exists n'. split; [reflexivity|]. apply (picks_in _ _ _ _ P'). split; [exact I|]. now apply K.
      * rewrite H. split; [intros (m & Em & _); discriminate|intros ((m & Em & _) & _); discriminate].
  - unfold delete_one. rewrite E. split; [|tauto]. intros H. split; [exact H|]. intros P. now destruct P.
Qed.
Theorem delete_sound sp id : sound sp -> sound (delete_one sp id).
Proof.
  intros [B D]. destruct (sp id) as [n0|] eqn:E; [|unfold delete_one; rewrite E; split; assumption].
  assert (Pi : present sp id) by (unfold present; congruence).
  assert (X : forall a ty inv b, two_way ty -> has_ref (delete_one sp id) a ty inv b -> has_ref sp a ty inv b /\ a <> id /\ b <> id).
  { intros a ty inv b T R. apply delete_refs in R. destruct R as [R K]. destruct (K Pi) as [K1 K2]. split; [exact R|]. split; [exact K1|]. intros ->. apply K2. split; [reflexivity|]. split; [exact T|]. now apply B. }
  split.
  - intros a b ty inv T P R. destruct (X _ _ _ _ T R) as (R' & Na & Nb). apply delete_present in P. destruct P as [P _]. apply delete_refs. split; [now apply B|]. intros _. split; [exact Nb|]. intros [-> _]. congruence.
  - intros a b ty inv T R. destruct (X _ _ _ _ T R) as (R' & Na & Nb). apply delete_present. split; [|exact Nb]. now apply (D a b ty inv).
Qed.
(** Deleting several nodes *)
Lemma delete_all_present l : forall sp x, present (fold_left delete_one l sp) x <-> present sp x /\ ~ In x l.
Proof. induction l as [|id l IH]; intros sp x; cbn [fold_left In]; [tauto|]. rewrite IH, delete_present. intuition. Qed.
Lemma delete_all_sound l : forall sp, sound sp -> sound (fold_left delete_one l sp).
Proof. induction l as [|id l IH]; intros sp H; cbn [fold_left]; [exact H|]. apply IH. now apply delete_sound. Qed.
Lemma delete_one_keeps sp id a ty inv b : a <> id -> b <> id -> has_ref (delete_one sp id) a ty inv b <-> has_ref sp a ty inv b.
Proof. intros A B. rewrite delete_refs. split; [tauto|]. intros H. split; [exact H|]. intros _. split; [exact A|]. intros [K _]. contradiction. Qed.
Lemma delete_all_keeps l : forall sp a ty inv b, ~ In a l -> ~ In b l -> has_ref (fold_left delete_one l sp) a ty inv b <-> has_ref sp a ty inv b.
Proof. induction l as [|id l IH]; intros sp a ty inv b A B; cbn [fold_left In] in *; [tauto|]. rewrite IH by tauto. apply delete_one_keeps; intros ->; tauto. Qed.
Lemma delete_one_same sp id a n : a <> id -> sp a = Some n -> exists n', delete_one sp id a = Some n' /\ same_node n n'.
Proof.
  intros N E. destruct (sp id) as [n0|] eqn:E0.
  - destruct (delete_effect sp id n0 E0) as [_ H]. specialize (H a N). rewrite E in H. destruct H as (n' & H1 & H2 & _). eauto.
  - unfold delete_one. rewrite E0. exists n. split; [exact E|apply same_node_refl].
Qed.
Lemma delete_all_same l : forall sp a n, ~ In a l -> sp a = Some n -> exists n', fold_left delete_one l sp a = Some n' /\ same_node n n'.
Proof.
  induction l as [|id l IH]; intros sp a n N E; cbn [fold_left In] in *; [exists n; split; [exact E|apply same_node_refl]|].
  destruct (delete_one_same sp id a n) as (n1 & E1 & S1); [intros ->; tauto|exact E|]. destruct (IH _ a n1 (fun H => N (or_intror H)) E1) as (n2 & E2 & S2). exists n2. split; [exact E2|]. eapply same_node_trans; eassumption.
Qed.

(** * Children *)
Section Children.
Variable sp : space.
Variable types : option (list Z).
Notation child := (child sp types).
Notation below := (below sp types).
Lemma type_test ty : match types with None => true | Some l => existsb (Z.eqb ty) l end = true <-> forall l, types = Some l -> In ty l.
Proof.
  destruct types as [l|]; [|split; [discriminate|reflexivity]]. rewrite existsb_exists. split.
  - intros (x & I & E). apply Z.eqb_eq in E. subst x. now intros l' [= <-].
  - intros H. exists ty. split; [now apply H|apply Z.eqb_refl].
Qed.
Lemma targets_spec a b : In b (targets sp types a) <-> child a b.
Proof.
  unfold targets, SpaceSpec.child, has_ref, next_of. destruct (sp a) as [n|].
  - rewrite in_flat_map. split.
    + intros (r & I & H). destruct (negb (rf_inverse r) && _) eqn:C; [|destruct H]. apply andb_true_iff in C. destruct C as [C1 C2]. rewrite type_test in C2. destruct (sp (rf_target r)) as [t|] eqn:T; [|destruct H].
      destruct H as [<-|[]]. exists (rf_type r). split; [|split; [exact C2|unfold present; congruence]]. exists n. split; [reflexivity|]. destruct r as [ty [] t']; [discriminate|exact I].
    + intros (ty & (m & [= <-] & I) & C & P). exists (mkRef ty false b). split; [exact I|]. cbn [rf_inverse rf_type rf_target negb andb]. rewrite (proj2 (type_test ty) C).
      unfold present in P. destruct (sp b); [now left|congruence].
  - split; [intros []|]. intros (ty & (m & Em & _) & _). discriminate.
Qed.
Lemma below_trans a b c : below a b -> below b c -> below a c.
Proof. intros H1 H2. induction H2 as [c H|c d H IH K]; [now apply BelowS with b|now apply BelowS with c]. Qed.
Lemma below_first a c : below a c <-> child a c \/ exists b, child a b /\ below b c.
Proof.
  split.
  - intros H. induction H as [c H|c d H IH K]; [now left|]. right. destruct IH as [IH|(b & B1 & B2)]; [exists c; split; [exact IH|now apply Below1]|]. exists b. split; [exact B1|]. now apply BelowS with c.
  - intros [H|(b & B1 & B2)]; [now apply Below1|]. apply below_trans with b; [now apply Below1|exact B2].
Qed.
(** The result, if there is one *)
Lemma children_result k : forall queue acc l, children_turns k sp types queue acc = Some l -> forall x, In x l <-> In x acc \/ exists q, In q queue /\ below q x.
Proof.
  induction k as [|k IH]; intros [|a queue] acc l H x; cbn [children_turns] in H; try discriminate; try (injection H as <-; split; [auto|intros [K|(q & [] & _)]; exact K]).
  rewrite (IH _ _ _ H). rewrite in_app_iff, targets_spec. split.
  - intros [[K|K]|(q & Q & B)]; [auto|right; exists a; split; [now left|now apply Below1]|].
    apply in_app_iff in Q. destruct Q as [Q|Q]; [right; exists q; split; [now right|exact B]|]. apply targets_spec in Q. right. exists a. split; [now left|]. apply below_first. right. eauto.
  - intros [K|(q & [<-|Q] & B)]; [auto| |right; exists q; split; [apply in_app_iff; now left|exact B]].
    apply below_first in B. destruct B as [B|(b & B1 & B2)]; [auto|]. right. exists b. split; [|exact B2]. apply in_app_iff. right. now apply targets_spec.
Qed.
Theorem children_exact k id l : get_children k sp types id = Some l -> forall x, In x l <-> below id x.
Proof.
  intros H x. unfold get_children in H. rewrite (children_result _ _ _ _ H). split; [intros [[]|(q & [<-|[]] & B)]; exact B|]. intros B. right. exists id. split; [now left|exact B].
Qed.
(** When there is one *)
Lemma children_acc k : forall queue acc l, children_turns k sp types queue acc = Some l -> forall x, In x queue -> finite_below sp types x.
Proof.
  induction k as [|k IH]; intros [|a queue] acc l H x I; cbn [children_turns] in H; try discriminate; try destruct I.
  - subst a. constructor. intros y Y. apply targets_spec in Y. apply (IH _ _ _ H). apply in_app_iff. now right.
  - apply (IH _ _ _ H). apply in_app_iff. now left.
Qed.
Inductive cost : Z -> nat -> Prop := Cost a cs : Forall2 cost (targets sp types a) cs -> cost a (S (list_sum cs)).
Lemma acc_cost a : finite_below sp types a -> exists c, cost a c.
Proof.
  intros H. induction H as [a _ IH]. assert (X : forall l, (forall b, In b l -> child a b) -> exists cs, Forall2 cost l cs).
  { induction l as [|b l IHl]; intros C; [exists []; constructor|]. destruct (IH b (C b (or_introl eq_refl))) as (c & Hc). destruct (IHl (fun x I => C x (or_intror I))) as (cs & Hcs). exists (c :: cs). now constructor. }
  destruct (X (targets sp types a)) as (cs & H); [intros b I; now apply targets_spec|]. exists (S (list_sum cs)). now constructor.
Qed.
Lemma cost_turns k : forall queue cs acc, Forall2 cost queue cs -> (list_sum cs <= k)%nat -> exists l, children_turns k sp types queue acc = Some l.
Proof.
  induction k as [|k IH]; intros queue cs acc F L; (destruct F as [|a c queue cs C F]; [destruct acc; eexists; reflexivity|]); inversion C as [a' ts Ft]; subst; change (list_sum (S (list_sum ts) :: cs)) with (S (list_sum ts) + list_sum cs)%nat in L; [lia|].
  cbn [children_turns]. apply (IH _ (cs ++ ts)); [now apply Forall2_app|]. rewrite list_sum_app. lia.
Qed.
Theorem children_terminates id : (exists k l, get_children k sp types id = Some l) <-> finite_below sp types id.
Proof.
  split.
  - intros (k & l & H). apply (children_acc _ _ _ _ H). now left.
  - intros H. destruct (acc_cost id H) as (c & C). exists c. unfold get_children. apply (cost_turns c [id] [c]); [repeat constructor; exact C|cbn; lia].
Qed.
Lemma no_loop a : finite_below sp types a -> ~ below a a.
Proof.
  intros H. induction H as [a _ IH]. intros B. destruct (proj1 (below_first a a) B) as [C|(b & C & D)]; [exact (IH a C B)|]. apply (IH b C). apply below_trans with a; [exact D|now apply Below1].
Qed.
Theorem children_cycle id x : (id = x \/ below id x) -> below x x -> forall k, get_children k sp types id = None.
Proof.
  intros R C k. destruct (get_children k sp types id) as [l|] eqn:E; [|reflexivity]. exfalso. assert (F : finite_below sp types id) by (apply children_terminates; eauto).
  apply (no_loop x); [|exact C]. destruct R as [<-|R]; [exact F|]. clear C E. induction R as [b H|b c H IH K].
  - destruct F as [F]. now apply F.
  - destruct IH as [IH]. now apply IH.
Qed.
(** Each node once, in trees *)
Lemma targets_once a : (forall b, (references_to sp types a b <= 1)%nat) -> NoDup (targets sp types a).
Proof.
  unfold references_to, targets. destruct (sp a) as [n|]; [|constructor]. unfold next_of. induction (nd_refs n) as [|r l IH]; intros H; cbn [flat_map]; [constructor|].
  assert (H' : forall b, (length (filter (forward_to types b) l) <= 1)%nat) by (intros b; specialize (H b); cbn [filter] in H; destruct (forward_to types b r); cbn [length] in H; lia).
  destruct (negb (rf_inverse r) && _) eqn:C; [|now apply IH]. destruct (sp (rf_target r)) as [t|]; [|now apply IH]. cbn [List.app]. constructor; [|now apply IH].
  intros I. apply in_flat_map in I. destruct I as (r' & I & J). destruct (negb (rf_inverse r') && _) eqn:C'; [|destruct J]. destruct (sp (rf_target r')) as [t'|]; [|destruct J]. destruct J as [J|[]].
  specialize (H (rf_target r)). cbn [filter] in H. assert (F : forward_to types (rf_target r) r = true) by (unfold forward_to; now rewrite C, Z.eqb_refl). rewrite F in H. cbn [length] in H.
  assert (F' : In r' (filter (forward_to types (rf_target r)) l)) by (apply filter_In; split; [exact I|]; unfold forward_to; rewrite C', J; now rewrite Z.eqb_refl).
  destruct (filter (forward_to types (rf_target r)) l); [destruct F'|cbn [length] in H; lia].
Qed.
Lemma nodup_app_intro {A} (l m : list A) : NoDup l -> NoDup m -> (forall x, In x l -> ~ In x m) -> NoDup (l ++ m).
Proof.
  intros L M D. induction L as [|x l N L IH]; cbn [List.app]; [exact M|]. constructor.
  - rewrite in_app_iff. intros [H|H]; [contradiction|]. now apply (D x (or_introl eq_refl)).
  - apply IH. intros y Y. apply D. now right.
Qed.
Lemma children_once k id : tree sp types -> forall done queue acc l, id :: acc = done ++ queue -> NoDup (id :: acc) -> (forall x, In x acc -> exists p, In p done /\ child p x) ->
  (forall x, In x (done ++ queue) -> x = id \/ below id x) -> ~ below id id ->
  children_turns k sp types queue acc = Some l -> NoDup l.
Proof.
  intros [T1 T2]. induction k as [|k IH]; intros done [|a queue] acc l E N P R L H; cbn [children_turns] in H; try discriminate; try (injection H as <-; now inversion N).
  assert (Ra : a = id \/ below id a) by (apply R, in_app_iff; right; now left).
  assert (Rt : forall x, child a x -> below id x) by (intros x C; destruct Ra as [->|Ra]; [now apply Below1|now apply BelowS with a]).
  assert (Na : ~ In a done) by (rewrite E in N; apply NoDup_remove_2 in N; rewrite in_app_iff in N; tauto).
  apply (IH (done ++ [a]) (queue ++ targets sp types a) (acc ++ targets sp types a) l); auto.
  - rewrite app_comm_cons, E, <- !app_assoc. reflexivity.
  - rewrite app_comm_cons. apply nodup_app_intro; [exact N|now apply targets_once|]. intros x [<-|I] J; apply targets_spec in J.
    + apply L. now apply Rt.
    + destruct (P x I) as (p & Pd & Pc). rewrite (T1 p a x Pc J) in Pd. contradiction.
  - intros x I. apply in_app_iff in I. destruct I as [I|I].
    + destruct (P x I) as (p & Pd & Pc). exists p. split; [apply in_app_iff; now left|exact Pc].
    + exists a. split; [apply in_app_iff; right; now left|now apply targets_spec].
  - intros x I. rewrite <- app_assoc in I. cbn [List.app] in I. rewrite app_comm_cons, app_assoc in I. apply in_app_iff in I. destruct I as [I|I]; [now apply R|]. right. apply Rt. now apply targets_spec.
Qed.
Theorem children_nodup k id l : tree sp types -> get_children k sp types id = Some l -> NoDup l.
Proof.
  intros T H. assert (F : finite_below sp types id) by (apply children_terminates; eauto). apply (children_once k id T [] [id] []) in H; auto.
  - repeat constructor. intros [].
  - intros x [].
  - intros x [<-|[]]. now left.
  - now apply no_loop.
Qed.
End Children.

(** GetSubTypes *)
Lemma sub_types_stuck sp id n : sp id = Some n -> (exists r, In r (nd_refs n) /\ rf_inverse r = false /\ rf_type r = 45) -> forall k queue acc, In id queue -> (forall x, In x queue -> x = id) -> sub_types_turns k sp queue acc = None.
Proof.
  intros E (r & I & R1 & R2). induction k as [|k IH]; intros [|a queue] acc J Q; try destruct J; cbn [sub_types_turns]; try reflexivity;
    (assert (a = id) as -> by (apply Q; now left); rewrite E; apply IH;
     [apply in_app_iff; right; apply in_map_iff; exists r; split; [reflexivity|]; apply filter_In; split; [exact I|]; rewrite R1, R2; reflexivity
     |intros x X; apply in_app_iff in X; destruct X as [X|X]; [apply Q; now right|]; apply in_map_iff in X; now destruct X as (? & <- & _)]).
Qed.
Theorem sub_types_forever sp id n : sp id = Some n -> (exists r, In r (nd_refs n) /\ rf_inverse r = false /\ rf_type r = 45) -> forall k, get_sub_types k sp id = None.
Proof. intros E R k. apply (sub_types_stuck sp id n E R); [now left|]. intros x [<-|[]]. reflexivity. Qed.
Theorem sub_types_nothing k sp id l : get_sub_types k sp id = Some l -> l = [].
Proof.
  unfold get_sub_types. destruct (sp id) as [n|] eqn:E.
  - destruct (filter (fun r => negb (rf_inverse r) && (rf_type r =? has_subtype)) (nd_refs n)) as [|r rs] eqn:F.
    + destruct k; cbn [sub_types_turns]; [discriminate|]. rewrite E, F. cbn [map List.app sub_types_turns]. destruct k; now intros [= <-].
    + intros H. assert (R : In r (filter (fun r => negb (rf_inverse r) && (rf_type r =? has_subtype)) (nd_refs n))) by (rewrite F; now left). apply filter_In in R. destruct R as [R1 R2].
      assert (X : get_sub_types k sp id = None); [|unfold get_sub_types in X; congruence]. apply (sub_types_forever sp id n E). exists r. split; [exact R1|]. apply andb_true_iff in R2. unfold has_subtype in R2. destruct (rf_inverse r); split; try reflexivity; destruct R2; try discriminate; lia.
  - destruct k; cbn [sub_types_turns]; [discriminate|]. rewrite E. cbn [List.app sub_types_turns]. destruct k; now intros [= <-].
Qed.

(** * Deleting with children *)
Definition kids : option (list Z) := Some [47; 46; 45; 49].
Theorem delete_node_present k sp id deep sp' : delete_node k sp id deep = Some sp' -> forall x, present sp' x <-> present sp x /\ x <> id /\ (deep = true -> ~ below sp kids id x).
Proof.
  unfold delete_node. destruct deep.
  - destruct (get_children k sp (Some child_types) id) as [l|] eqn:E; [|discriminate]. intros [= <-] x. rewrite delete_present, delete_all_present. rewrite (children_exact sp kids k id l E). intuition.
  - intros [= <-] x. rewrite delete_present. intuition discriminate.
Qed.
Theorem delete_node_sound k sp id deep sp' : delete_node k sp id deep = Some sp' -> sound sp -> sound sp'.
Proof.
  unfold delete_node. destruct deep.
  - destruct (get_children k sp (Some child_types) id) as [l|]; [|discriminate]. intros [= <-] S. now apply delete_sound, delete_all_sound.
  - intros [= <-] S. now apply delete_sound.
Qed.
Lemma delete_node_list k sp id deep sp' : delete_node k sp id deep = Some sp' -> exists l, sp' = fold_left delete_one l sp /\ forall x, present sp x -> In x l -> ~ present sp' x.
Proof.
  unfold delete_node. destruct deep.
  - destruct (get_children k sp (Some child_types) id) as [l|]; [|discriminate]. intros [= <-]. exists (l ++ [id]). split; [now rewrite fold_left_app|].
    intros x _ I. rewrite delete_present, delete_all_present. apply in_app_iff in I. destruct I as [I|[<-|[]]]; tauto.
  - intros [= <-]. exists [id]. split; [reflexivity|]. intros x _ [<-|[]]. rewrite delete_present. tauto.
Qed.
(** What is left is as it was. *)
Theorem delete_node_rest k sp id deep sp' : delete_node k sp id deep = Some sp' ->
  (forall a n, sp a = Some n -> present sp' a -> exists n', sp' a = Some n' /\ same_node n n') /\
  (forall a ty inv b, present sp' a -> present sp' b -> has_ref sp' a ty inv b <-> has_ref sp a ty inv b).
Proof.
  intros H. destruct (delete_node_list _ _ _ _ _ H) as (l & -> & G). split.
  - intros a n E P. apply delete_all_same; [|exact E]. intros I. apply (G a); auto. unfold present. congruence.
  - intros a ty inv b Pa Pb. apply delete_all_present in Pa. apply delete_all_present in Pb. apply delete_all_keeps; tauto.
Qed.
Theorem delete_by_id_spec protected sp id sp' st : delete_by_id protected sp id = (sp', st) ->
  (st = 0x80330000 /\ protected id = true /\ sp' = sp) \/ (st = 0x80340000 /\ protected id = false /\ sp id = None /\ sp' = sp) \/
  (st = 0 /\ protected id = false /\ present sp id /\ delete_node 0 sp id false = Some sp').
Proof.
  unfold delete_by_id, BadNodeIDInvalid, BadNodeIDUnknown, delete_node. destruct (protected id); [intros [= <- <-]; auto|]. destruct (sp id) eqn:E; intros [= <- <-]; [right; right|right; left; auto].
  repeat split; auto. unfold present. congruence.
Qed.
Lemma skip_protected protected l : forall sp, fold_left (fun s c => if protected c : bool then s else delete_one s c) l sp = fold_left delete_one (filter (fun c => negb (protected c)) l) sp.
Proof. induction l as [|c l IH]; intros sp; cbn [fold_left filter]; [reflexivity|]. destruct (protected c); cbn [negb]; [apply IH|]. cbn [fold_left]. apply IH. Qed.
Theorem delete_recursive_spec protected k sp id sp' count st : delete_recursive protected k sp id = Some (sp', count, st) ->
  (st = 0x80330000 /\ protected id = true /\ sp' = sp /\ count = 0) \/ (st = 0x80340000 /\ protected id = false /\ sp id = None /\ sp' = sp /\ count = 0) \/
  (st = 0 /\ protected id = false /\ present sp id /\ (sound sp -> sound sp') /\
   (forall x, present sp' x <-> present sp x /\ x <> id /\ ~ (below sp kids id x /\ protected x = false)) /\
   (tree sp kids -> (forall x, below sp kids id x -> protected x = false) -> exists l, NoDup l /\ Z.of_nat (length l) = count /\ forall x, In x l <-> present sp x /\ ~ present sp' x)).
Proof.
  unfold delete_recursive, BadNodeIDInvalid, BadNodeIDUnknown. destruct (protected id) eqn:P; [intros [= <- <- <-]; auto 6|]. destruct (sp id) as [n|] eqn:E; [|intros [= <- <- <-]; auto 7].
  destruct (get_children k sp (Some child_types) id) as [l|] eqn:G; [|discriminate]. intros [= <- <- <-]. right. right. split; [reflexivity|]. split; [reflexivity|]. split; [unfold present; congruence|].
  rewrite skip_protected. split; [intros S; now apply delete_sound, delete_all_sound|].
  assert (X : forall x, present (delete_one (fold_left delete_one (filter (fun c => negb (protected c)) l) sp) id) x <-> present sp x /\ x <> id /\ ~ (below sp kids id x /\ protected x = false)).
  { intros x. rewrite delete_present, delete_all_present, filter_In, (children_exact sp kids k id l G), negb_true_iff. tauto. }
  split; [exact X|]. intros T Np. exists (id :: l). assert (N := children_nodup sp kids k id l T G). assert (F : finite_below sp kids id) by (apply children_terminates; eauto).
  split; [constructor; [|exact N]; rewrite (children_exact sp kids k id l G); now apply no_loop|]. split; [cbn [length]; unfold zlen; lia|].
  intros x. rewrite X. cbn [In]. rewrite (children_exact sp kids k id l G). split.
  - intros [<-|B]; [split; [unfold present; congruence|tauto]|]. split; [|specialize (Np x B); tauto]. destruct B as [b (ty & _ & _ & Pb)|b c B (ty & _ & _ & Pc)]; assumption.
  - intros [Px H]. destruct (Z.eq_dec id x) as [Ex|Nx]; [now left|]. right. rewrite <- (children_exact sp kids k id l G). destruct (in_dec Z.eq_dec x l) as [I|I]; [exact I|].
    exfalso. apply H. split; [exact Px|]. split; [congruence|]. rewrite <- (children_exact sp kids k id l G). tauto.
Qed.

(** * Histories *)
Lemma change_sound sp c sp' : changes sp c sp' -> sound sp -> sound sp'.
Proof. intros [l C|id deep s turns H] S; [now apply add_sound|]. now apply delete_node_sound in H. Qed.
Lemma nothing_sound : sound nothing.
Proof. split; [intros a b ty inv T P (n & E & _)|intros a b ty inv T (n & E & _)]; discriminate. Qed.
Theorem history_sound l sp : history nothing l sp -> bidirectional sp /\ no_dangling sp.
Proof.
  intros H. assert (X : forall s, history s l sp -> sound s -> sound sp).
  { clear H. intros s H. induction H as [s|s c s1 l s2 C H IH]; intros S; [exact S|]. apply IH. now apply (change_sound s c). }
  apply (X nothing H nothing_sound).
Qed.
