(** Proofs about sampling. *)
From Coq Require Import ZArith List Bool Lia.
From Verif Require Import Float Sampling SamplingSpec.
Import ListNotations.
Open Scope Z_scope.

Lemma funit_pos : 0 < funit. Proof. unfold funit. apply Z.pow_pos_nonneg; lia. Qed.
Local Opaque funit.

Section Proofs.
Variable odd : f64 -> Z.
Variable min_rate : f64.
Variable revise : f64 -> f64.
Notation group := (group odd min_rate).
Notation duration := (duration odd).
Notation happens := (happens odd min_rate revise).
Notation all := (all odd min_rate revise).
Notation next := (next odd min_rate revise).
Notation get_group := (get_group odd min_rate).
Notation subscribe := (subscribe odd min_rate).
Notation unsubscribe := (unsubscribe odd min_rate).

(** * Durations *)
Lemma duration_fin z : 0 <= z < f_int 9000000000000 -> duration (FFin z) = z / funit * 1000000.
Proof.
  intros H. pose proof funit_pos as F. unfold Sampling.duration, millis. rewrite Z.quot_div_nonneg by lia.
  assert (B : 0 <= z / funit < 9000000000000).
  { split; [apply Z.div_pos; lia|]. apply Z.div_lt_upper_bound; [lia|]. unfold f_int in H. lia. }
  assert (E : (- 2 ^ 63 <=? z / funit) && (z / funit <? 2 ^ 63) = true).
  { apply andb_true_iff. split; [apply Z.leb_le|apply Z.ltb_lt]; lia. }
  cbv zeta. rewrite E. unfold wrap64. rewrite Z.mod_small; lia.
Qed.
Lemma group_positive x : good_rate min_rate -> 1000000 <= group x.
Proof.
  intros (m & E & B). pose proof funit_pos as F. unfold Sampling.group. rewrite E.
  assert (D : 1000000 <= duration (FFin m)).
  { rewrite duration_fin by (unfold f_int in *; lia). assert (1 <= m / funit) by (apply Z.div_le_lower_bound; unfold f_int in B; lia). lia. }
  destruct (Z.ltb_spec (duration x) (duration (FFin m))); lia.
Qed.
(** The group's interval is the item's in whole milliseconds *)
Lemma group_rate m z : min_rate = FFin m -> 0 <= m <= z -> z < f_int 9000000000000 ->
  group (FFin z) = z / funit * 1000000 /\ group (FFin z) * funit <= z * 1000000 < (group (FFin z) + 1000000) * funit.
Proof.
  intros E B U. pose proof funit_pos as F. unfold Sampling.group. rewrite E, !duration_fin by lia.
  assert (L : m / funit <= z / funit) by (apply Z.div_le_mono; lia).
  destruct (Z.ltb_spec (z / funit * 1000000) (m / funit * 1000000)); [lia|].
  split; [reflexivity|]. pose proof (Z.div_mod z funit ltac:(lia)). pose proof (Z.mod_pos_bound z funit F). nia.
Qed.

(** * Steps *)
Lemma get_group_same x s : let s' := get_group x s in
  sm_mode s' = sm_mode s /\ sm_interval s' = sm_interval s /\ sm_alive s' = sm_alive s /\ sm_groups s' = sm_groups s /\
  sm_samples s' = sm_samples s /\ sm_threads s' = sm_threads s.
Proof. unfold Sampling.get_group. destruct (existsb _ _); cbn; tauto. Qed.
Lemma get_group_crash x s : good_rate min_rate -> sm_crashed (get_group x s) = sm_crashed s.
Proof.
  intros G. unfold Sampling.get_group. destruct (existsb _ _); [reflexivity|]. cbn. pose proof (group_positive x G).
  unfold ticks. replace (0 <? group x) with true by (symmetry; apply Z.ltb_lt; lia). cbn. apply orb_false_r.
Qed.
Lemma get_group_all x s : NoDup (sm_all s) -> NoDup (sm_all (get_group x s)) /\ In (group x) (sm_all (get_group x s)) /\ incl (sm_all s) (sm_all (get_group x s)).
Proof.
  intros N. unfold Sampling.get_group. destruct (existsb _ _) eqn:E.
  - split; [exact N|]. split; [|apply incl_refl]. apply existsb_exists in E. destruct E as (g & I & Q). apply Z.eqb_eq in Q. subst. exact I.
  - cbn. split; [|split].
    + assert (Y : ~ In (group x) (sm_all s)).
      { intros I. assert (existsb (Z.eqb (group x)) (sm_all s) = true); [|congruence]. apply existsb_exists. exists (group x). split; [exact I|apply Z.eqb_refl]. }
      clear E. induction (sm_all s) as [|a r IH]; cbn; [constructor; [intros []|constructor]|]. inversion N; subst. cbn in Y. constructor; [|apply IH; tauto].
      rewrite in_app_iff. cbn. intros [I|[I|[]]]; [tauto|]. subst. tauto.
    + apply in_or_app. right. left. reflexivity.
    + apply incl_appl, incl_refl.
Qed.
Lemma in_subscribe x s : In (group x) (sm_groups (subscribe x s)) /\ incl (sm_groups s) (sm_groups (subscribe x s)).
Proof.
  unfold Sampling.subscribe. destruct (get_group_same x s) as (_ & _ & _ & A & _). destruct (existsb _ _) eqn:E.
  - apply existsb_exists in E. destruct E as (g & I & Q). apply Z.eqb_eq in Q. subst g. split; [exact I|]. rewrite A. apply incl_refl.
  - cbn. split; [apply in_or_app; right; left; reflexivity|]. rewrite A. apply incl_appl, incl_refl.
Qed.

(** * Calls at once, none of them a removal *)
(** The call will put the item into the group of its present interval, unless another one does so later *)
Definition owes (i : f64) (t : iop * pc) : Prop :=
  match snd t with P1 | P1r _ | P2 | P3 => True | P3r r => r = i | _ => False end.
Record sound (s : samp) : Prop := {
  so_alive : sm_alive s = true;
  so_crashed : sm_crashed s = false;
  so_ops : Forall (fun t => fst t <> Remove) (sm_threads s);
  so_kept : sm_mode s <> Disabled -> In (group (sm_interval s)) (sm_groups s) \/ Exists (owes (sm_interval s)) (sm_threads s) }.
Lemma split_nth {A} (l : list A) k x : nth_error l k = Some x -> l = firstn k l ++ [x] ++ skipn (S k) l.
Proof. revert k. induction l as [|a r IH]; intros [|k] H; try discriminate; cbn in *; [congruence|]. f_equal. exact (IH k H). Qed.
Lemma unsub_same x s : let s' := unsubscribe x s in
  sm_mode s' = sm_mode s /\ sm_interval s' = sm_interval s /\ sm_alive s' = sm_alive s /\ sm_threads s' = sm_threads s /\ sm_samples s' = sm_samples s.
Proof. destruct (get_group_same x s) as (A & B & C & D & E & F). unfold Sampling.unsubscribe. cbn. tauto. Qed.
Lemma sub_same x s : let s' := subscribe x s in
  sm_mode s' = sm_mode s /\ sm_interval s' = sm_interval s /\ sm_alive s' = sm_alive s /\ sm_threads s' = sm_threads s /\ sm_samples s' = sm_samples s.
Proof. destruct (get_group_same x s) as (A & B & C & D & E & F). unfold Sampling.subscribe. destruct (existsb _ _); cbn; tauto. Qed.
Lemma unsub_crash x s : good_rate min_rate -> sm_crashed (unsubscribe x s) = sm_crashed s.
Proof. intros G. unfold Sampling.unsubscribe. cbn. apply get_group_crash. exact G. Qed.
Lemma sub_crash x s : good_rate min_rate -> sm_crashed (subscribe x s) = sm_crashed s.
Proof. intros G. unfold Sampling.subscribe. destruct (existsb _ _); cbn; apply get_group_crash; exact G. Qed.

Lemma exists_mid {A} (P : A -> Prop) a x b : Exists P (a ++ [x] ++ b) <-> P x \/ Exists P (a ++ b).
Proof. rewrite !Exists_app. split; [intros [H|[H|H]]; auto; inversion H as [? ? Q|? ? Q]; subst; auto; inversion Q|intros [H|[H|H]]; auto]. Qed.
Lemma forall_mid {A} (P : A -> Prop) a x b : Forall P (a ++ [x] ++ b) <-> P x /\ Forall P (a ++ b).
Proof. rewrite !Forall_app. split; [intros (H & K & L); inversion K; auto|intros (H & K & L); repeat split; auto]. Qed.

Lemma sound_step s h : good_rate min_rate -> sound s -> h <> Call Remove -> sound (happens s h).
Proof.
  intros G [A C O K] N. unfold Sampling.happens. rewrite C. destruct h as [o|k|g].
  - constructor; cbn; [exact A|exact C|apply Forall_app; split; [exact O|constructor; [cbn; congruence|constructor]]|].
    intros M. destruct (K M) as [I|I]; [left; exact I|right; apply Exists_app; left; exact I].
  - destruct (nth_error (sm_threads s) k) as [[o p]|] eqn:E; [|constructor; assumption].
    apply split_nth in E. set (a := firstn k (sm_threads s)) in *. set (b := skipn (S k) (sm_threads s)) in *.
    rewrite E in O, K. apply forall_mid in O. destruct O as [OR O]. cbn in OR.
    assert (K' : sm_mode s <> Disabled -> In (group (sm_interval s)) (sm_groups s) \/ owes (sm_interval s) (o, p) \/ Exists (owes (sm_interval s)) (a ++ b)).
    { intros M. destruct (K M) as [I|I]; [left; exact I|]. right. apply exists_mid in I. exact I. }
    clear K E.
    assert (LEAVE : forall s', sm_alive s' = true -> sm_crashed s' = false ->
      (sm_mode s' <> Disabled -> In (group (sm_interval s')) (sm_groups s') \/ Exists (owes (sm_interval s')) (a ++ b)) -> sound (set_threads s' (a ++ [] ++ b))).
    { intros s' A' C' H'. constructor; cbn; assumption. }
    assert (STAY : forall s' p', sm_alive s' = true -> sm_crashed s' = false ->
      (sm_mode s' <> Disabled -> In (group (sm_interval s')) (sm_groups s') \/ owes (sm_interval s') (o, p') \/ Exists (owes (sm_interval s')) (a ++ b)) -> sound (set_threads s' (a ++ [(o, p')] ++ b))).
    { intros s' p' A' C' H'. constructor; cbn [set_threads sm_alive sm_crashed sm_threads sm_mode sm_interval sm_groups]; [assumption|assumption|apply forall_mid; auto|].
      intros M. destruct (H' M) as [I|I]; [left; exact I|right; apply exists_mid; exact I]. }
    assert (START : forall s', sm_alive s' = true -> sm_crashed s' = false ->
      sound (let '(s2, p2) := start s' in set_threads s2 (a ++ match p2 with Some p' => [(o, p')] | None => [] end ++ b))).
    { intros s' A' C'. unfold start. destruct (Z.eqb_spec (sm_mode s') Disabled) as [D|D].
      - apply LEAVE; auto. intros M. destruct (M D).
      - rewrite A'. cbn [negb]. apply STAY; [exact A'|exact C'|]. intros _. right. left. exact Logic.I. }
    destruct p as [| |r| | |r|]; cbn [Sampling.next].
    + assert (P : sound (set_threads s (a ++ [(o, P1)] ++ b))).
      { apply STAY; [exact A|exact C|]. intros M. right. left. exact Logic.I. }
      destruct o as [x|m|]; [exact P| |exact P]. destruct (sm_mode s =? m); [|exact P].
      apply LEAVE; auto. intros M. destruct (K' M) as [I|[[]|I]]; auto.
    + apply STAY; [exact A|exact C|]. intros M. right. left. exact Logic.I.
    + destruct (unsub_same r s) as (U1 & U2 & U3 & U4 & U5). apply STAY; [congruence|rewrite unsub_crash by exact G; exact C|].
      intros M. right. left. exact Logic.I.
    + destruct o as [x|m|]; [| |destruct (OR eq_refl)].
      * rewrite A. cbn [negb andb]. exact (START (set_interval (revise x) s) A C).
      * rewrite A. cbn [negb]. exact (START (set_mode m s) A C).
    + apply STAY; [exact A|exact C|]. intros M. right. left. reflexivity.
    + destruct (sub_same r s) as (U1 & U2 & U3 & U4 & U5). destruct (in_subscribe r s) as [J1 J2].
      apply STAY; [congruence|rewrite sub_crash by exact G; exact C|]. rewrite U1, U2. intros M.
      destruct (K' M) as [I|[I|I]]; [left; apply J2; exact I| |right; right; exact I]. cbn in I. left. rewrite <- I. exact J1.
    + apply LEAVE; auto. intros M. destruct (K' M) as [I|[[]|I]]; auto.
  - destruct (_ && _); constructor; assumption.
Qed.
Lemma sound_all l : forall s, good_rate min_rate -> sound s -> no_removal l -> sound (all s l).
Proof.
  induction l as [|h l IH]; intros s G S N; [exact S|]. cbn. apply IH; [exact G| |intros I; apply N; right; exact I].
  apply sound_step; [exact G|exact S|]. intros ->. apply N. left. reflexivity.
Qed.
Lemma sound_made gs m x : good_rate min_rate -> sound (made odd min_rate revise gs m x).
Proof.
  intros G. unfold made. destruct (Z.eqb_spec m Disabled) as [D|D].
  - constructor; cbn; [reflexivity|reflexivity|constructor|]. intros M. destruct (M D).
  - set (s := sampled _). destruct (sub_same (revise x) s) as (U1 & U2 & U3 & U4 & U5). destruct (in_subscribe (revise x) s) as [J1 J2].
    constructor; [rewrite U3; reflexivity|rewrite sub_crash by exact G; reflexivity|rewrite U4; constructor|].
    intros _. left. rewrite U2. exact J1.
Qed.
Lemma never_lost gs m x l : good_rate min_rate -> no_removal l ->
  let s := all (made odd min_rate revise gs m x) l in
  sm_crashed s = false /\ sm_alive s = true /\ (sm_threads s = [] -> sm_mode s <> Disabled -> In (group (sm_interval s)) (sm_groups s)).
Proof.
  intros G N s. destruct (sound_all l _ G (sound_made gs m x G) N) as [A C O K]. fold s in A, C, O, K. split; [exact C|]. split; [exact A|].
  intros T M. destruct (K M) as [I|I]; [exact I|]. rewrite T in I. inversion I.
Qed.

(** * Groups: one for each interval, for ever *)
Definition tidy (s : samp) : Prop := NoDup (sm_all s) /\ incl (sm_groups s) (sm_all s).
Lemma filter_incl' {A} f (l : list A) : incl (filter f l) l.
Proof. intros x H. apply filter_In in H. tauto. Qed.
Lemma next_all o p s : tidy s -> let s' := fst (next o p s) in tidy s' /\ incl (sm_all s) (sm_all s').
Proof.
  intros [N I]. assert (SAME : forall s', sm_all s' = sm_all s -> sm_groups s' = sm_groups s -> tidy s' /\ incl (sm_all s) (sm_all s')).
  { intros s' E F. unfold tidy. rewrite E, F. repeat split; auto. apply incl_refl. }
  assert (ST : forall s', sm_all s' = sm_all s -> sm_groups s' = sm_groups s -> tidy (fst (start s')) /\ incl (sm_all s) (sm_all (fst (start s')))).
  { intros s' E F. unfold start. destruct (_ =? _); [apply SAME; auto|]. destruct (negb _); apply SAME; auto. }
  destruct p as [| |r| | |r|]; cbn [Sampling.next]; try (apply SAME; reflexivity).
  - destruct o as [x|m|]; try (apply SAME; reflexivity). destruct (_ =? _); apply SAME; reflexivity.
  - destruct (get_group_all r s N) as (A & B & C). destruct (get_group_same r s) as (_ & _ & _ & D & _). unfold Sampling.unsubscribe. cbn.
    split; [|exact C]. split; [exact A|]. cbn. rewrite D. eapply incl_tran; [apply filter_incl'|]. eapply incl_tran; [exact I|exact C].
  - destruct o as [x|m|]; [| |apply SAME; reflexivity].
    + destruct (_ && _); [apply SAME; reflexivity|]. apply ST; reflexivity.
    + destruct (negb _); [apply SAME; reflexivity|]. apply ST; reflexivity.
  - destruct (get_group_all r s N) as (A & B & C). destruct (get_group_same r s) as (_ & _ & _ & D & _). unfold Sampling.subscribe. cbn.
    destruct (existsb _ _); cbn.
    + split; [|exact C]. split; [exact A|]. rewrite D. eapply incl_tran; [exact I|exact C].
    + split; [|exact C]. split; [exact A|]. cbn. rewrite D. apply incl_app; [eapply incl_tran; [exact I|exact C]|]. intros y [<-|[]]. exact B.
Qed.
Lemma tidy_step s h : tidy s -> tidy (happens s h) /\ incl (sm_all s) (sm_all (happens s h)).
Proof.
  intros T. unfold Sampling.happens. destruct (sm_crashed s); [split; [exact T|apply incl_refl]|]. destruct h as [o|k|g].
  - split; [exact T|apply incl_refl].
  - destruct (nth_error _ _) as [[o p]|]; [|split; [exact T|apply incl_refl]]. pose proof (next_all o p s T) as H. destruct (next o p s) as [s' p']. exact H.
  - destruct (_ && _); (split; [exact T|apply incl_refl]).
Qed.
Lemma tidy_all l : forall s, tidy s -> tidy (all s l) /\ incl (sm_all s) (sm_all (all s l)).
Proof.
  induction l as [|h l IH]; intros s T; [split; [exact T|apply incl_refl]|]. cbn. destruct (tidy_step s h T) as [A B].
  destruct (IH _ A) as [C D]. split; [exact C|]. eapply incl_tran; [exact B|exact D].
Qed.
Lemma tidy_made gs m x : NoDup gs -> tidy (made odd min_rate revise gs m x).
Proof.
  intros N. unfold made. destruct (m =? Disabled); [split; [exact N|intros y []]|]. set (s := sampled _).
  assert (T : tidy s) by (split; [exact N|intros y []]).
  pose proof (next_all Remove (P3r (revise x)) s T) as H. exact (proj1 H).
Qed.
Lemma groups_kept gs m x l more : NoDup gs ->
  let s := all (made odd min_rate revise gs m x) l in
  NoDup (sm_all s) /\ incl (sm_groups s) (sm_all s) /\ incl (sm_all s) (sm_all (all s more)).
Proof.
  intros N s. destruct (tidy_all l _ (tidy_made gs m x N)) as [[A B] _]. split; [exact A|]. split; [exact B|].
  apply tidy_all. split; [exact A|exact B].
Qed.

(** * One call after the other *)
Ltac flat := cbn [Sampling.next sm_interval sm_mode sm_alive sm_groups sm_all sm_samples sm_crashed sm_threads negb andb];
  unfold set_threads, sampled, removed, set_mode, set_interval;
  cbn [Sampling.next sm_interval sm_mode sm_alive sm_groups sm_all sm_samples sm_crashed sm_threads negb andb].
Notation whole_turn := (whole_turn odd min_rate revise).
Notation turns := (turns odd min_rate revise).
Notation made := (made odd min_rate revise).
Lemma get_shape r m i a gs al n th : good_rate min_rate ->
  exists al', get_group r (mkSamp m i a gs al n th false) = mkSamp m i a gs al' n th false.
Proof.
  intros G. pose proof (get_group_crash r (mkSamp m i a gs al n th false) G) as H. revert H. unfold Sampling.get_group. destruct (existsb _ _); intros H.
  - exists al. reflexivity.
  - cbn in *. rewrite H. eexists. reflexivity.
Qed.
Lemma unsub_shape r m i a gs al n th : good_rate min_rate ->
  exists al', unsubscribe r (mkSamp m i a gs al n th false) = mkSamp m i a (filter (fun g => negb (g =? group r)) gs) al' n th false.
Proof. intros G. destruct (get_shape r m i a gs al n th G) as (al' & E). unfold Sampling.unsubscribe. rewrite E. exists al'. reflexivity. Qed.
Lemma sub_shape r m i a al n th : good_rate min_rate ->
  exists al', subscribe r (mkSamp m i a [] al n th false) = mkSamp m i a [group r] al' n th false.
Proof. intros G. destruct (get_shape r m i a [] al n th G) as (al' & E). unfold Sampling.subscribe. rewrite E. exists al'. reflexivity. Qed.
Lemma go0 m i a gs al n o p :
  happens (mkSamp m i a gs al n [(o, p)] false) (Go 0) =
  (let '(s', p') := next o p (mkSamp m i a gs al n [(o, p)] false) in set_threads s' (match p' with Some p' => [(o, p')] | None => [] end)).
Proof. unfold Sampling.happens. cbn [sm_crashed nth_error sm_threads firstn skipn app]. destruct (next _ _ _) as [s' [p'|]]; reflexivity. Qed.
Lemma idle m i a gs al n : happens (mkSamp m i a gs al n [] false) (Go 0) = mkSamp m i a gs al n [] false.
Proof. reflexivity. Qed.
Definition member (m : Z) (i : f64) : list Z := if m =? Disabled then [] else [group i].
Lemma member_out m i : filter (fun g => negb (g =? group i)) (member m i) = [].
Proof. unfold member. destruct (m =? Disabled); [reflexivity|]. cbn. rewrite Z.eqb_refl. reflexivity. Qed.
Lemma stop_turn o m i al n : good_rate min_rate ->
  exists al', happens (happens (mkSamp m i true (member m i) al n [(o, P1)] false) (Go 0)) (Go 0) = mkSamp m i true [] al' n [(o, P2)] false.
Proof.
  intros G. rewrite go0. flat. rewrite go0. cbn [Sampling.next]. destruct (unsub_shape i m i true (member m i) al n [(o, P1r i)] G) as (al' & E).
  rewrite E, member_out. exists al'. reflexivity.
Qed.
Lemma start_turn o m i al n : good_rate min_rate ->
  exists al', happens (happens (happens (mkSamp m i true [] al n [(o, P3)] false) (Go 0)) (Go 0)) (Go 0) = mkSamp m i true [group i] al' n [] false.
Proof.
  intros G. rewrite go0. flat. rewrite go0. cbn [Sampling.next]. destruct (sub_shape i m i true al n [(o, P3r i)] G) as (al' & E).
  rewrite E. flat. rewrite go0. exists al'. reflexivity.
Qed.
Lemma modify_turn x m i al n : good_rate min_rate ->
  exists al' n', whole_turn (mkSamp m i true (member m i) al n [] false) (Do (Modify x)) = mkSamp m (revise x) true (member m (revise x)) al' n' [] false.
Proof.
  intros G. unfold SamplingSpec.whole_turn. cbn [Sampling.all repeat fold_left].
  change (happens (mkSamp m i true (member m i) al n [] false) (Call (Modify x))) with (mkSamp m i true (member m i) al n [(Modify x, P0)] false).
  rewrite go0. flat.
  destruct (stop_turn (Modify x) m i al n G) as (al1 & E). rewrite E, go0. flat.
  unfold start. flat. unfold member. destruct (m =? Disabled).
  - flat. rewrite !idle. eauto.
  - flat.
    destruct (start_turn (Modify x) m (revise x) al1 (n + 1) G) as (al2 & F). rewrite F. eauto.
Qed.
Lemma mode_turn k m i al n : good_rate min_rate ->
  exists al' n', whole_turn (mkSamp m i true (member m i) al n [] false) (Do (SetMode k)) = mkSamp k i true (member k i) al' n' [] false.
Proof.
  intros G. unfold SamplingSpec.whole_turn. cbn [Sampling.all repeat fold_left].
  change (happens (mkSamp m i true (member m i) al n [] false) (Call (SetMode k))) with (mkSamp m i true (member m i) al n [(SetMode k, P0)] false).
  rewrite go0. flat. destruct (Z.eqb_spec m k) as [<-|D].
  { flat. rewrite !idle. eauto. }
  flat.
  destruct (stop_turn (SetMode k) m i al n G) as (al1 & E). rewrite E, go0. flat.
  unfold start. flat. unfold member. destruct (k =? Disabled).
  - flat. rewrite !idle. eauto.
  - flat.
    destruct (start_turn (SetMode k) k i al1 (n + 1) G) as (al2 & F). rewrite F. eauto.
Qed.
Lemma remove_turn m i al n : good_rate min_rate ->
  exists al', whole_turn (mkSamp m i true (member m i) al n [] false) (Do Remove) = mkSamp m i false [] al' n [] false.
Proof.
  intros G. unfold SamplingSpec.whole_turn. cbn [Sampling.all repeat fold_left].
  change (happens (mkSamp m i true (member m i) al n [] false) (Call Remove)) with (mkSamp m i true (member m i) al n [(Remove, P0)] false).
  rewrite go0. flat.
  destruct (stop_turn Remove m i al n G) as (al1 & E). rewrite E, go0. flat.
  rewrite !idle. eauto.
Qed.
Lemma fire_turn g m i al n : whole_turn (mkSamp m i true (member m i) al n [] false) (Fire g) =
  mkSamp m i true (member m i) al (n + (if negb (m =? Disabled) && (g =? group i) then 1 else 0)) [] false.
Proof.
  unfold SamplingSpec.whole_turn, Sampling.happens, member. flat.
  destruct (m =? Disabled); cbn; [f_equal; lia|]. destruct (g =? group i); cbn; [reflexivity|f_equal; lia].
Qed.
Lemma fire_gone g m i al n : whole_turn (mkSamp m i false [] al n [] false) (Fire g) = mkSamp m i false [] al n [] false.
Proof. reflexivity. Qed.

Lemma live_turns l : forall m x al n, good_rate min_rate -> there l ->
  exists al' n', turns (mkSamp m (revise x) true (member m (revise x)) al n [] false) l =
    mkSamp (mode_after m l) (revise (asked_after x l)) true (member (mode_after m l) (revise (asked_after x l))) al' n' [] false.
Proof.
  induction l as [|t l IH]; intros m x al n G T; [exists al, n; reflexivity|].
  assert (T' : there l) by (intros H; apply T; right; exact H).
  cbn [SamplingSpec.turns fold_left mode_after asked_after]. destruct t as [[y|k|]|g].
  - destruct (modify_turn y m (revise x) al n G) as (al1 & n1 & E). rewrite E. exact (IH m y al1 n1 G T').
  - destruct (mode_turn k m (revise x) al n G) as (al1 & n1 & E). rewrite E. exact (IH k x al1 n1 G T').
  - destruct T. left. reflexivity.
  - rewrite fire_turn. exact (IH m x al _ G T').
Qed.
Lemma gone_turns l : forall m i al n, (forall o, ~ In (Do o) l) -> turns (mkSamp m i false [] al n [] false) l = mkSamp m i false [] al n [] false.
Proof.
  induction l as [|t l IH]; intros m i al n T; [reflexivity|]. destruct t as [o|g]; [destruct (T o); left; reflexivity|].
  cbn [SamplingSpec.turns fold_left]. rewrite fire_gone. apply IH. intros o H. apply (T o). right. exact H.
Qed.
Lemma made_shape gs m x : good_rate min_rate -> exists al n, made gs m x = mkSamp m (revise x) true (member m (revise x)) al n [] false.
Proof.
  intros G. unfold Sampling.made, member. destruct (m =? Disabled); [eauto|]. unfold sampled. flat.
  destruct (sub_shape (revise x) m (revise x) true gs (0 + 1) [] G) as (al & E). rewrite E. eauto.
Qed.
Lemma turn_dec (t : turn) : {t = Do Remove} + {t <> Do Remove}.
Proof. destruct t as [[y|k|]|g]; [right|right|left|right]; congruence. Qed.
Lemma first_removal l : In (Do Remove) l -> exists l1 l2, l = l1 ++ Do Remove :: l2 /\ there l1.
Proof.
  induction l as [|t l IH]; intros H; [destruct H|]. destruct (turn_dec t) as [->|D].
  - exists [], l. split; [reflexivity|]. intros [].
  - destruct H as [H|H]; [contradiction|]. destruct (IH H) as (l1 & l2 & E & T). exists (t :: l1), l2. split; [rewrite E; reflexivity|]. intros [Q|Q]; contradiction.
Qed.
Lemma fires_same l : (forall o, ~ In (Do o) l) -> forall m x, mode_after m l = m /\ asked_after x l = x.
Proof.
  induction l as [|t l IH]; intros T m x; [split; reflexivity|]. destruct t as [o|g]; [destruct (T o); left; reflexivity|].
  cbn. apply IH. intros o H. apply (T o). right. exact H.
Qed.
Lemma turns_app s a b : turns s (a ++ b) = turns (turns s a) b.
Proof. unfold SamplingSpec.turns. apply fold_left_app. Qed.

Lemma sequential gs m x l : good_rate min_rate -> proper l ->
  let s := turns (made gs m x) l in
  sm_crashed s = false /\ sm_threads s = [] /\ sm_mode s = mode_after m l /\ sm_interval s = revise (asked_after x l) /\
  (there l -> sm_alive s = true /\ sm_groups s = if mode_after m l =? Disabled then [] else [group (revise (asked_after x l))]) /\
  (~ there l -> sm_alive s = false /\ sm_groups s = []) /\
  forall g, sm_samples (turns (made gs m x) (l ++ [Fire g])) =
    sm_samples s + if sm_alive s && negb (mode_after m l =? Disabled) && (g =? group (revise (asked_after x l))) then 1 else 0.
Proof.
  intros G P s. destruct (made_shape gs m x G) as (al & n & E). subst s. setoid_rewrite turns_app. rewrite E.
  assert (DEC : In (Do Remove) l \/ there l).
  { clear. induction l as [|t l IH]; [right; intros []|]. destruct (turn_dec t) as [->|D]; [left; left; reflexivity|]. destruct IH as [I|I]; [left; right; exact I|right; intros [Q|Q]; contradiction]. }
  destruct DEC as [R|R].
  - destruct (first_removal l R) as (l1 & l2 & EQ & T). pose proof (P l1 l2 ) as Q. assert (F : forall o, ~ In (Do o) l2) by (intros o; apply (Q o EQ)).
    destruct (fires_same l2 F (mode_after m l1) (asked_after x l1)) as [M A].
    assert (ML : mode_after m l = mode_after m l1) by (rewrite EQ; unfold mode_after in *; rewrite fold_left_app; exact M).
    assert (AL : asked_after x l = asked_after x l1) by (rewrite EQ; unfold asked_after in *; rewrite fold_left_app; exact A).
    destruct (live_turns l1 m x al n G T) as (al1 & n1 & E1).
    destruct (remove_turn (mode_after m l1) (revise (asked_after x l1)) al1 n1 G) as (al2 & E2).
    assert (END : turns (mkSamp m (revise x) true (member m (revise x)) al n [] false) l = mkSamp (mode_after m l1) (revise (asked_after x l1)) false [] al2 n1 [] false).
    { rewrite EQ, turns_app, E1. change (Do Remove :: l2) with ([Do Remove] ++ l2). rewrite turns_app. cbn [SamplingSpec.turns fold_left]. rewrite E2. apply gone_turns. exact F. }
    rewrite END, ML, AL. flat.
    repeat match goal with |- _ /\ _ => split end; try reflexivity.
    + intros Y. destruct (Y R).
    + intros _. split; reflexivity.
    + intros g. cbn. lia.
  - destruct (live_turns l m x al n G R) as (al1 & n1 & E1). rewrite E1. flat.
    repeat match goal with |- _ /\ _ => split end; try reflexivity.
    + intros _. split; reflexivity.
    + intros Y. destruct (Y R).
    + intros g. cbn [SamplingSpec.turns fold_left]. rewrite fire_turn. reflexivity.
Qed.

(** * How many groups there can be *)
Definition ranged (lo hi : Z) (x : f64) : Prop := x = FNaN \/ exists z, x = FFin z /\ f_int lo <= z < f_int (hi + 1).
Record bounded (lo hi : Z) (s : samp) : Prop := {
  bo_interval : ranged lo hi (sm_interval s);
  bo_threads : Forall (fun t => match snd t with P1r r | P3r r => ranged lo hi r | _ => True end) (sm_threads s);
  bo_all : Forall (fun g => g = group FNaN \/ exists k, g = k * 1000000 /\ lo <= k <= hi) (sm_all s) }.
Section Bound.
Variables lo hi m : Z.
Hypothesis rate : min_rate = FFin m.
Hypothesis range : 0 <= m <= f_int lo /\ 0 <= lo /\ hi < 8999999999999.
Hypothesis revised : forall x, ranged lo hi (revise x).
Lemma ranged_group x : ranged lo hi x -> group x = group FNaN \/ exists k, group x = k * 1000000 /\ lo <= k <= hi.
Proof.
  intros [->|(z & -> & B)]; [left; reflexivity|right]. pose proof funit_pos as F. assert (U : z < f_int 9000000000000) by (unfold f_int in *; nia).
  destruct (group_rate m z rate ltac:(lia) U) as [E _]. exists (z / funit). split; [exact E|]. unfold f_int in B.
  split; [apply Z.div_le_lower_bound; lia|]. apply Z.lt_succ_r. apply Z.div_lt_upper_bound; lia.
Qed.
Lemma get_bounded x s : ranged lo hi x -> bounded lo hi s -> bounded lo hi (get_group x s).
Proof.
  intros R [A B C]. unfold Sampling.get_group. destruct (existsb _ _); constructor; auto. cbn. apply Forall_app. split; [exact C|]. constructor; [apply ranged_group; exact R|constructor].
Qed.
Lemma next_bounded o p s : match p with P1r r | P3r r => ranged lo hi r | _ => True end -> bounded lo hi s ->
  bounded lo hi (fst (next o p s)) /\ match snd (next o p s) with Some (P1r r) | Some (P3r r) => ranged lo hi r | _ => True end.
Proof.
  intros R B. assert (ST : forall s', bounded lo hi s' -> bounded lo hi (fst (start s')) /\ match snd (start s') with Some (P1r r) | Some (P3r r) => ranged lo hi r | _ => True end).
  { intros s' [X Y Z]. unfold start. destruct (_ =? _); [repeat split; assumption|]. destruct (negb _); repeat split; assumption. }
  assert (BI := bo_interval _ _ _ B).
  destruct p as [| |r| | |r|]; cbn [Sampling.next fst snd]; try (split; [exact B|exact Logic.I || exact BI]).
  - destruct o as [x|k|]; try (split; [exact B|exact Logic.I]). destruct (_ =? _); (split; [exact B|exact Logic.I]).
  - split; [|exact Logic.I]. destruct (get_bounded r s R B) as [X Y Z]. constructor; assumption.
  - destruct B as [X Y Z]. destruct o as [x|k|].
    + destruct (_ && _); [repeat split; assumption|]. apply ST. constructor; [apply revised|exact Y|exact Z].
    + destruct (negb _); [repeat split; assumption|]. apply ST. constructor; assumption.
    + repeat split; assumption.
  - split; [|exact Logic.I]. destruct (get_bounded r s R B) as [X Y Z]. unfold Sampling.subscribe. destruct (existsb _ _); constructor; assumption.
Qed.
Lemma bounded_step s h : bounded lo hi s -> bounded lo hi (happens s h).
Proof.
  intros B. unfold Sampling.happens. destruct (sm_crashed s); [exact B|]. destruct h as [o|k|g].
  - destruct B as [X Y Z]. constructor; [exact X| |exact Z]. cbn. apply Forall_app. split; [exact Y|]. constructor; [exact Logic.I|constructor].
  - destruct (nth_error _ _) as [[o p]|] eqn:E; [|exact B]. apply split_nth in E. pose proof (bo_threads _ _ _ B) as T. rewrite E in T. apply forall_mid in T. destruct T as [R T].
    destruct (next_bounded o p s R B) as [N Q]. destruct (next o p s) as [s' p']. destruct N as [X Y Z]. constructor; [exact X| |exact Z].
    cbn [set_threads sm_threads fst snd] in *. destruct p' as [p'|]; [|exact T]. apply forall_mid. split; [|exact T]. destruct p'; exact Q.
  - destruct (_ && _); [|exact B]. destruct B as [X Y Z]. constructor; assumption.
Qed.
Lemma bounded_all l : forall s, bounded lo hi s -> bounded lo hi (all s l).
Proof. induction l as [|h l IH]; intros s B; [exact B|]. cbn. apply IH, bounded_step, B. Qed.
Lemma bounded_made md x : bounded lo hi (made [] md x).
Proof.
  unfold Sampling.made. assert (B : bounded lo hi (mkSamp md (revise x) true [] [] 0 [] false)) by (constructor; [apply revised|constructor|constructor]).
  destruct (md =? Disabled); [exact B|]. exact (proj1 (next_bounded Remove (P3r (revise x)) (sampled _) (revised x) (let 'Build_bounded _ _ _ X Y Z := B in Build_bounded lo hi (sampled _) X Y Z))).
Qed.
Lemma few_groups md x l : Z.of_nat (length (sm_all (all (made [] md x) l))) <= Z.max 0 (hi - lo + 1) + 1.
Proof.
  destruct (bounded_all l _ (bounded_made md x)) as [_ _ C]. destruct (tidy_all l _ (tidy_made [] md x (NoDup_nil _))) as [[N _] _].
  set (g := sm_all _) in *. set (f := group FNaN :: map (fun k => (lo + Z.of_nat k) * 1000000) (seq 0 (Z.to_nat (hi - lo + 1)))).
  assert (L : incl g f).
  { intros y I. rewrite Forall_forall in C. destruct (C y I) as [->|(k & -> & B)]; [left; reflexivity|]. right. apply in_map_iff. exists (Z.to_nat (k - lo)). split; [rewrite Z2Nat.id by lia; f_equal; lia|].
    apply in_seq. lia. }
  pose proof (NoDup_incl_length N L) as Q. unfold f in Q. cbn [length] in Q. rewrite map_length, seq_length in Q. lia.
Qed.
End Bound.

(** * They pile up *)
Lemma turns_tidy l : forall s, tidy s -> tidy (turns s l) /\ incl (sm_all s) (sm_all (turns s l)).
Proof.
  induction l as [|t l IH]; intros s T; [split; [exact T|apply incl_refl]|]. cbn [SamplingSpec.turns fold_left].
  assert (H : tidy (whole_turn s t) /\ incl (sm_all s) (sm_all (whole_turn s t))) by (destruct t; [apply tidy_all|apply tidy_step]; exact T).
  destruct H as [A B]. destruct (IH _ A) as [C D]. split; [exact C|]. eapply incl_tran; [exact B|exact D].
Qed.
Lemma pile md x xs : good_rate min_rate -> md <> Disabled -> NoDup (map (fun y => group (revise y)) xs) ->
  let s := turns (made [] md x) (map (fun y => Do (Modify y)) xs ++ [Do Remove]) in
  sm_groups s = [] /\ (length xs <= length (sm_all s))%nat.
Proof.
  intros G M N s. set (l := map (fun y => Do (Modify y)) xs) in *.
  assert (TH : there l) by (unfold l; intros I; apply in_map_iff in I; destruct I as (y & E & _); discriminate).
  assert (NS : forall md' xs', mode_after md' (map (fun y => Do (Modify y)) xs') = md') by (intros md' xs'; induction xs' as [|y ys IH] in md' |- *; [reflexivity|apply IH]).
  destruct (made_shape [] md x G) as (al & n & E). destruct (tidy_made [] md x (NoDup_nil _)) as [T1 T2].
  split.
  - unfold s. rewrite turns_app, E. destruct (live_turns l md x al n G TH) as (al1 & n1 & E1). rewrite E1. cbn [SamplingSpec.turns fold_left].
    destruct (remove_turn (mode_after md l) (revise (asked_after x l)) al1 n1 G) as (al2 & E2). rewrite E2. reflexivity.
  - rewrite <- (map_length (fun y => group (revise y)) xs). apply NoDup_incl_length; [exact N|]. intros g I. apply in_map_iff in I. destruct I as (y & <- & I).
    apply in_split in I. destruct I as (a & b & EQ). unfold s, l. rewrite EQ. rewrite map_app. cbn [map]. rewrite <- app_assoc. cbn [app].
    change (Do (Modify y) :: map (fun y => Do (Modify y)) b ++ [Do Remove]) with ([Do (Modify y)] ++ (map (fun y => Do (Modify y)) b ++ [Do Remove])).
    rewrite app_assoc, turns_app. set (s1 := turns (made [] md x) (map (fun y => Do (Modify y)) a ++ [Do (Modify y)])).
    destruct (turns_tidy (map (fun y => Do (Modify y)) a ++ [Do (Modify y)]) _ (conj T1 T2)) as [T3 _]. fold s1 in T3.
    destruct (turns_tidy (map (fun y => Do (Modify y)) b ++ [Do Remove]) s1 T3) as [_ INC]. apply INC. apply (proj2 T3).
    unfold s1. rewrite E, turns_app. assert (TA : there (map (fun y => Do (Modify y)) a)) by (intros I; apply in_map_iff in I; destruct I as (z & Q & _); discriminate).
    destruct (live_turns _ md x al n G TA) as (al1 & n1 & E1). rewrite E1. cbn [SamplingSpec.turns fold_left].
    rewrite NS. destruct (modify_turn y md (revise (asked_after x (map (fun y0 : f64 => Do (Modify y0)) a))) al1 n1 G) as (al2 & n2 & E2). rewrite E2. cbn [sm_groups].
    unfold member. rewrite (proj2 (Z.eqb_neq md Disabled)) by exact M. left. reflexivity.
Qed.
End Proofs.
