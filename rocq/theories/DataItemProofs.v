(** Sampling and monitoring modes. *)
From Coq Require Import ZArith List Bool Lia.
From Coq Require Import ZifyBool ZifyNat.
From Verif Require Import Bytes Float MonQueue MonQueueProofs DataChange DataChangeSpec DataChangeProofs.
Import ListNotations.
Open Scope Z_scope.

(** * The stream *)
Definition frame (d d' : ditem) : Prop :=
  di_mode d' = di_mode d /\ di_filter d' = di_filter d /\ di_stamps d' = di_stamps d /\ di_ti d' = di_ti d /\
  di_trig d' = di_trig d /\ di_polled d' = di_polled d /\ di_due d' = di_due d.
Lemma frame_refl d : frame d d. Proof. unfold frame. tauto. Qed.
Lemma frame_trans a b c : frame a b -> frame b c -> frame a c.
Proof. unfold frame. intros (A1 & A2 & A3 & A4 & A5 & A6 & A7) (B1 & B2 & B3 & B4 & B5 & B6 & B7). repeat split; congruence. Qed.
Lemma consider_frame d v : frame d (consider d v) /\ di_pre (consider d v) = di_pre d /\ di_ts (consider d v) = di_ts d.
Proof. unfold consider. destruct (is_data_change _ _ _); cbn; unfold frame; cbn; tauto. Qed.
Lemma set_pre_frame d pre ts : frame d (set_pre d pre ts). Proof. unfold frame; cbn; tauto. Qed.
Definition puts (d : ditem) (out : list dval) : mqueue dval := fold_left mq_step (map MPut (map (with_timestamps (di_stamps d)) out)) (di_q d).
Notation ch f := (fun v p => is_data_change f v p = true).

(** the samples the loop looks at *)
Fixpoint taken (n : nat) (ts ti : Z) (pre : list dval) (v : dval) : list dval :=
  match n with
  | O => []
  | S n' => let '(v', rest) := peek ts pre v in v' :: taken n' (ts + ti) ti rest v'
  end.
Lemma intervals_spec n : forall d v, exists out, let d' := intervals n d v in
  reported (ch (di_filter d)) (di_prev d) (taken n (di_ts d) (di_ti d) (di_pre d) v) out (di_prev d') /\
  di_q d' = puts d out /\ frame d d' /\ di_ts d' = di_ts d + Z.of_nat n * di_ti d.
Proof.
  induction n as [|n IH]; intros d v; cbn [intervals taken].
  - exists []. split; [constructor|]. split; [reflexivity|]. split; [apply frame_refl|lia].
  - destruct (peek (di_ts d) (di_pre d) v) as [v' rest]. cbv zeta.
    set (d1 := set_pre d rest (di_ts d)). destruct (consider_frame d1 v') as (F1 & P1 & T1).
    set (d2 := consider d1 v') in *. set (d3 := set_pre d2 (di_pre d2) (di_ts d2 + di_ti d2)).
    destruct (IH d3 v') as (out & R & Q & F & T). cbv zeta in *.
    assert (FR : frame d d3) by (eapply frame_trans; [apply (set_pre_frame d rest (di_ts d))|eapply frame_trans; [exact F1|apply set_pre_frame]]).
    assert (E : di_ts d3 = di_ts d + di_ti d). { unfold d3. cbn [set_pre di_ts]. rewrite T1. destruct F1 as (_ & _ & _ & -> & _). reflexivity. }
    assert (EP : di_pre d3 = rest) by (unfold d3; cbn [set_pre di_pre]; rewrite P1; reflexivity).
    destruct FR as (G1 & G2 & G3 & G4 & G5 & G6 & G7). rewrite E, EP, G4, G2 in R.
    assert (D : is_data_change (di_filter d) v' (di_prev d) = true /\ di_prev d3 = v' /\ di_q d3 = mq_step (di_q d) (MPut (with_timestamps (di_stamps d) v')) \/
                is_data_change (di_filter d) v' (di_prev d) <> true /\ di_prev d3 = di_prev d /\ di_q d3 = di_q d).
    { unfold d3, d2, consider, d1. cbn [set_pre di_filter di_prev di_q]. destruct (is_data_change (di_filter d) v' (di_prev d)) eqn:C; cbn; [left|right]; auto. }
    unfold puts in Q. rewrite G3 in Q. destruct D as [(C & D1 & D2)|(C & D1 & D2)].
    + exists (v' :: out). rewrite D1 in R. split; [now apply rp_yes|]. split; [rewrite Q, D2; reflexivity|]. split; [eapply frame_trans; [|exact F]; unfold frame; tauto|]. rewrite T, E, G4. lia.
    + exists out. rewrite D1 in R. split; [now apply rp_no|]. split; [rewrite Q, D2; reflexivity|]. split; [eapply frame_trans; [|exact F]; unfold frame; tauto|]. rewrite T, E, G4. lia.
Qed.
Lemma fold_spec vs : forall d, exists out, let d' := fold_left consider vs d in
  reported (ch (di_filter d)) (di_prev d) vs out (di_prev d') /\ di_q d' = puts d out /\ frame d d' /\ di_pre d' = di_pre d.
Proof.
  induction vs as [|v vs IH]; intros d; cbn [fold_left].
  - exists []. split; [constructor|]. split; [reflexivity|]. split; [apply frame_refl|reflexivity].
  - destruct (consider_frame d v) as (F1 & P1 & _). destruct (IH (consider d v)) as (out & R & Q & F & P). cbv zeta in *.
    destruct F1 as (G1 & G2 & G3 & G4 & G5 & G6 & G7). rewrite G2 in R. unfold puts in Q. rewrite G3 in Q.
    assert (FR : frame d (fold_left consider vs (consider d v))) by (eapply frame_trans; [|exact F]; unfold frame; tauto).
    assert (D : is_data_change (di_filter d) v (di_prev d) = true /\ di_prev (consider d v) = v /\ di_q (consider d v) = mq_step (di_q d) (MPut (with_timestamps (di_stamps d) v)) \/
                is_data_change (di_filter d) v (di_prev d) <> true /\ di_prev (consider d v) = di_prev d /\ di_q (consider d v) = di_q d).
    { unfold consider. destruct (is_data_change (di_filter d) v (di_prev d)) eqn:C; cbn; [left|right]; auto. }
    destruct D as [(C & D1 & D2)|(C & D1 & D2)]; rewrite D1 in R; rewrite D2 in Q.
    + exists (v :: out). split; [now apply rp_yes|]. split; [exact Q|]. split; [exact FR|congruence].
    + exists out. split; [now apply rp_no|]. split; [exact Q|]. split; [exact FR|congruence].
Qed.

(** what the loop looks at are the samples of the intervals *)
Lemma peek_spec ts pre : forall v, in_time_order pre ->
  peek ts pre v = (last (filter (fun p => dv_server p <=? ts) pre) v, filter (fun p => negb (dv_server p <=? ts)) pre).
Proof.
  induction pre as [|p pre IH]; intros v O; [reflexivity|]. cbn [peek filter in_time_order] in *. destruct O as [O1 O2].
  destruct (Z.leb_spec (dv_server p) ts) as [L|L]; cbn [negb].
  - rewrite (IH p O2). f_equal. destruct (filter _ pre) as [|q l] eqn:E; [reflexivity|]. cbn [last].
    clear. revert q p. induction l as [|r l IH]; intros q p; [reflexivity|]. cbn [last] in *. apply IH.
  - assert (N : forall q, In q pre -> (dv_server q <=? ts) = false) by (intros q Hq; rewrite Forall_forall in O1; specialize (O1 q Hq); lia).
    assert (N1 : filter (fun p => dv_server p <=? ts) pre = []).
    { clear -N. induction pre as [|q pre IH]; [reflexivity|]. cbn [filter]. rewrite (N q (or_introl eq_refl)). apply IH. intros r Hr. apply N. now right. }
    assert (N2 : filter (fun p => negb (dv_server p <=? ts)) pre = pre).
    { clear -N. induction pre as [|q pre IH]; [reflexivity|]. cbn [filter]. rewrite (N q (or_introl eq_refl)). cbn [negb]. f_equal. apply IH. intros r Hr. apply N. now right. }
    rewrite N1, N2. reflexivity.
Qed.
Lemma order_filter g pre : in_time_order pre -> in_time_order (filter g pre).
Proof.
  induction pre as [|p pre IH]; [easy|]. cbn [in_time_order filter]. intros [O1 O2]. destruct (g p); [|now apply IH].
  cbn [in_time_order]. split; [|now apply IH]. rewrite Forall_forall in *. intros q Hq. apply filter_In in Hq. apply O1, Hq.
Qed.
Lemma last_app {X} (l1 l2 : list X) v : last (l1 ++ l2) v = last l2 (last l1 v).
Proof.
  revert v. induction l1 as [|x l1 IH]; intros v; [reflexivity|]. cbn [app].
  assert (L : forall (l : list X) y z, last (y :: l) z = last l y).
  { clear. induction l as [|w l IH]; intros y z; [reflexivity|]. cbn [last] in *. destruct l; [reflexivity|]. apply (IH y z). }
  rewrite !L. apply IH.
Qed.
Lemma split_order a b pre : a <= b -> in_time_order pre ->
  filter (fun p => dv_server p <=? b) pre = filter (fun p => dv_server p <=? a) pre ++ filter (fun p => dv_server p <=? b) (filter (fun p => negb (dv_server p <=? a)) pre).
Proof.
  intros AB. induction pre as [|p pre IH]; [reflexivity|]. intros [O1 O2]. cbn [filter]. specialize (IH O2).
  destruct (Z.leb_spec (dv_server p) a) as [L|L]; cbn [negb].
  - rewrite (proj2 (Z.leb_le (dv_server p) b)) by lia. cbn [app]. now rewrite IH.
  - assert (N1 : filter (fun p => dv_server p <=? a) pre = []).
    { clear -O1 L. induction pre as [|q pre IH]; [reflexivity|]. cbn [filter]. pose proof (Forall_inv O1). cbn in H. rewrite (proj2 (Z.leb_gt (dv_server q) a)) by lia. apply IH, (Forall_inv_tail O1). }
    rewrite N1 in *. cbn [app] in *. cbn [filter]. destruct (dv_server p <=? b); now rewrite IH.
Qed.
Lemma taken_spec n : forall ts ti pre v, 0 < ti -> in_time_order pre -> taken n ts ti pre v = interval_samples n ts ti pre v.
Proof.
  induction n as [|n IH]; intros ts ti pre v H O; [reflexivity|]. cbn [taken]. rewrite (peek_spec ts pre v O).
  rewrite IH by (assumption || now apply order_filter). unfold interval_samples. cbn [seq map]. f_equal; [f_equal|].
  - apply filter_ext. intros p. f_equal. lia.
  - rewrite <- seq_shift, map_map. apply map_ext_in. intros k _. rewrite <- last_app, <- (split_order ts) by (assumption || nia). f_equal. apply filter_ext. intros p. f_equal. nia.
Qed.
Lemma turns_spec ts ti tn k : 0 < ti -> (k < turns ts ti tn)%nat <-> ts + Z.of_nat k * ti <= tn.
Proof.
  intros H. unfold turns. destruct (Z.ltb_spec tn ts) as [L|L]; [split; intros; [lia|nia]|].
  pose proof (Z.div_mod (tn - ts) ti ltac:(lia)) as D. pose proof (Z.mod_pos_bound (tn - ts) ti H) as M. pose proof (Z.div_pos (tn - ts) ti ltac:(lia) H) as P.
  split; intros K; [nia|]. apply Nat2Z.inj_lt. rewrite Z2Nat.id by lia. enough (Z.of_nat k <= (tn - ts) / ti) by lia.
  apply Z.div_le_lower_bound; lia.
Qed.
Lemma reported_ext (R R' : dval -> dval -> Prop) (S : dval -> Prop) : (forall v p, S v -> S p -> R v p <-> R' v p) ->
  forall vs p out l, S p -> Forall S vs -> reported R p vs out l -> reported R' p vs out l.
Proof.
  intros E vs. induction vs as [|v vs IH]; intros p out l SP SV H; inversion H; subst.
  - constructor.
  - apply rp_yes; [now apply E; [apply (Forall_inv SV)| |]|]. apply IH; [apply (Forall_inv SV)|apply (Forall_inv_tail SV)|assumption].
  - apply rp_no; [rewrite <- E; [assumption|apply (Forall_inv SV)|assumption]|]. apply IH; [assumption|apply (Forall_inv_tail SV)|assumption].
Qed.
Lemma last_in {X} (l : list X) v : In (last l v) (v :: l).
Proof. destruct l as [|x l] using rev_ind; [now left|]. rewrite last_last. right. apply in_app_iff. right. now left. Qed.

Lemma samples_in n ts ti pre prev x : In x (interval_samples n ts ti pre prev) -> In x (prev :: pre).
Proof.
  unfold interval_samples. rewrite in_map_iff. intros (k & <- & _). destruct (last_in (filter (fun p => dv_server p <=? ts + Z.of_nat k * ti) pre) prev) as [H|H]; [now left|].
  right. apply filter_In in H. apply H.
Qed.
Section Stream.
  Variables (mem : Z -> Z -> nat -> list mval) (bytemem : Z -> Z -> nat -> list Z).
  Lemma stream_intervals trigger d tn v : 0 <= trigger <= 2 -> df_trigger (di_filter d) = trigger -> df_type (di_filter d) = 0 ->
    di_mode d <> m_disabled -> 0 < di_ti d -> in_time_order (di_pre d) -> Forall (tame mem bytemem) (di_prev d :: di_pre d) ->
    let d' := fst (available d tn false v) in
    exists n out, (forall k, (k < n)%nat <-> di_ts d + Z.of_nat k * di_ti d <= tn) /\
      reported (changed trigger) (di_prev d) (interval_samples n (di_ts d) (di_ti d) (di_pre d) (di_prev d)) out (di_prev d') /\
      mq_queue (di_q d') = queued (di_q d) (map (with_timestamps (di_stamps d)) out).
  Proof.
    intros R T D M TI O F. cbv zeta. unfold available. rewrite (proj2 (Z.eqb_neq _ _) M). cbn [andb fst]. unfold sampled. rewrite (proj2 (Z.ltb_lt _ _) TI).
    destruct (intervals_spec (turns (di_ts d) (di_ti d) tn) d (di_prev d)) as (out & RP & Q & _). cbv zeta in *.
    exists (turns (di_ts d) (di_ti d) tn), out. split; [intros k; now apply turns_spec|]. split; [|rewrite Q; reflexivity].
    rewrite taken_spec in RP by assumption.
    refine (reported_ext _ _ (tame mem bytemem) _ _ _ _ _ (Forall_inv F) _ RP).
    - intros w p (W1 & W2 & W3) (P1 & P2 & P3). now apply (filter_exact mem bytemem).
    - rewrite Forall_forall in *. intros x Hx. apply F, (samples_in _ _ _ _ _ _ Hx).
  Qed.
  Lemma stream_each trigger d tn v : 0 <= trigger <= 2 -> df_trigger (di_filter d) = trigger -> df_type (di_filter d) = 0 ->
    di_mode d <> m_disabled -> di_ti d <= 0 -> Forall (tame mem bytemem) (di_prev d :: di_pre d) ->
    let d' := fst (available d tn false v) in
    exists out, reported (changed trigger) (di_prev d) (di_pre d) out (di_prev d') /\ di_pre d' = [] /\
      mq_queue (di_q d') = queued (di_q d) (map (with_timestamps (di_stamps d)) out).
  Proof.
    intros R T D M TI F. cbv zeta. unfold available. rewrite (proj2 (Z.eqb_neq _ _) M). cbn [andb fst]. unfold sampled. rewrite (proj2 (Z.ltb_ge _ _) TI).
    unfold each. destruct (fold_spec (di_pre d) (set_pre d [] (di_ts d))) as (out & RP & Q & _ & P). cbv zeta in *.
    exists out. split; [|split; [rewrite P; reflexivity|rewrite Q; reflexivity]]. cbn [set_pre di_filter di_prev] in RP.
    refine (reported_ext _ _ (tame mem bytemem) _ _ _ _ _ (Forall_inv F) _ RP).
    - intros w p (W1 & W2 & W3) (P1 & P2 & P3). now apply (filter_exact mem bytemem).
    - exact (Forall_inv_tail F).
  Qed.
End Stream.

(** * Modes *)
Lemma sampled_frame d tn : frame d (sampled d tn).
Proof.
  unfold sampled. destruct (0 <? di_ti d).
  - destruct (intervals_spec (turns (di_ts d) (di_ti d) tn) d (di_prev d)) as (out & _ & _ & F & _). exact F.
  - unfold each. destruct (fold_spec (di_pre d) (set_pre d [] (di_ts d))) as (out & _ & _ & F & _). eapply frame_trans; [apply set_pre_frame|exact F].
Qed.
Lemma put_frame d v : frame d (put d v). Proof. unfold frame; cbn; tauto. Qed.
Lemma available_frame d tn r v : frame d (fst (available d tn r v)).
Proof.
  unfold available. destruct (di_mode d =? m_disabled); [apply set_pre_frame|]. cbn [fst]. destruct (_ && _ && _); [|apply sampled_frame].
  eapply frame_trans; [apply sampled_frame|apply put_frame].
Qed.
(** A disabled item has nothing queued and is not polled. *)
Definition calm (d : ditem) : Prop := di_mode d = m_disabled -> mq_queue (di_q d) = [] /\ di_polled d = false.
Lemma start_calm d now v : (di_mode d = m_disabled -> mq_queue (di_q d) = [] /\ di_polled d = false) -> calm (start d now v).
Proof. intros H. unfold start, calm. destruct (Z.eqb_spec (di_mode d) m_disabled) as [E|E]; cbn; [intros _; now apply H|congruence]. Qed.
Lemma calm_new mode f stamps ti oldest size now v : calm (di_new mode f stamps ti oldest size now v).
Proof. apply start_calm. cbn. auto. Qed.
Lemma trim_nil {A} oldest n : trim oldest n (@nil A) = []. Proof. destruct oldest; reflexivity. Qed.
Lemma calm_step d o : calm d -> calm (fst (di_step d o)).
Proof.
  intros C. destruct o; cbn [di_step].
  - exact C.
  - destruct (di_due d); exact C.
  - destruct (available d tn resend v) as [d' b] eqn:E. cbn [fst]. pose proof (available_frame d tn resend v) as F. rewrite E in F. cbn [fst] in F. intros H.
    destruct F as (F1 & _ & _ & _ & _ & F6 & _). rewrite F1 in H. destruct (C H) as [C1 C2]. split; [|congruence].
    unfold available in E. rewrite H in E. change (m_disabled =? m_disabled) with true in E. injection E as <- _. exact C1.
  - destruct (_ && _); [exact C|]. unfold di_take, take. cbn [fst]. intros H. cbn in *. destruct (C H) as [C1 C2]. rewrite C1. destruct max; auto.
  - exact C.
  - destruct (di_mode d =? m); [exact C|]. destruct (Z.eqb_spec m m_disabled) as [E|E]; cbn [fst]; apply start_calm; cbn; [auto|congruence].
  - apply start_calm. cbn. intros H. destruct (C H) as [C1 _]. split; [|reflexivity]. rewrite C1. apply trim_nil.
Qed.
Lemma run_snoc d ops o : di_run d (ops ++ [o]) = fst (di_step (di_run d ops) o).
Proof. unfold di_run. rewrite fold_left_app. reflexivity. Qed.
Lemma calm_run d ops : calm d -> calm (di_run d ops).
Proof. intros C. induction ops as [|o ops IH] using rev_ind; [exact C|]. rewrite run_snoc. apply calm_step, IH. Qed.
Lemma disabled_reports_nothing mode f stamps ti oldest size now v ops : let d := di_run (di_new mode f stamps ti oldest size now v) ops in
  di_mode d = m_disabled ->
  (forall max, snd (di_step d (DTake max)) = DReports []) /\ (forall tn resend w, snd (di_step d (DAvail tn resend w)) = DAvailable false).
Proof.
  cbv zeta. intros M. destruct (calm_run _ ops (calm_new mode f stamps ti oldest size now v) M) as [Q _]. set (d := di_run _ ops) in *. clearbody d. split.
  - intros max. cbn [di_step]. rewrite M. destruct (negb (m_disabled =? m_reporting) && negb (di_trig d)); [reflexivity|].
    unfold di_take, take. rewrite Q. destruct max; reflexivity.
  - intros tn resend w. cbn [di_step]. unfold available. rewrite M. reflexivity.
Qed.
Lemma step_disabled_pre d o : calm d -> di_mode d = m_disabled -> di_due d = O -> stays_disabled o ->
  let d' := fst (di_step d o) in di_mode d' = m_disabled /\ di_due d' = O /\ di_pre d' = di_pre d.
Proof.
  intros C M U S. destruct (C M) as [C1 C2]. destruct o; cbn [di_step stays_disabled] in *.
  - cbn. rewrite C2, U. auto.
  - rewrite U. cbn. auto.
  - unfold available. rewrite M. cbn. auto.
  - destruct (_ && _); cbn; auto.
  - cbn. auto.
  - subst m. rewrite M. cbn. auto.
  - unfold start. cbn [di_mode]. rewrite M. cbn. auto.
Qed.
Lemma disabled_takes_no_samples mode f stamps ti oldest size now v ops ops' : let d := di_run (di_new mode f stamps ti oldest size now v) ops in
  di_mode d = m_disabled -> di_due d = O -> Forall stays_disabled ops' -> di_pre (di_run d ops') = di_pre d.
Proof.
  cbv zeta. pose proof (calm_run _ ops (calm_new mode f stamps ti oldest size now v)) as C. set (d := di_run _ ops) in *. clearbody d. intros M U F.
  assert (G : di_mode (di_run d ops') = m_disabled /\ di_due (di_run d ops') = O /\ di_pre (di_run d ops') = di_pre d); [|apply G].
  induction ops' as [|o ops' IH] using rev_ind; [auto|]. apply Forall_app in F. destruct F as [F1 F2]. destruct (IH F1) as (I1 & I2 & I3). rewrite run_snoc.
  destruct (step_disabled_pre (di_run d ops') o (calm_run d ops' C) I1 I2 (Forall_inv F2)) as (S1 & S2 & S3). cbv zeta in *. rewrite S3. auto.
Qed.

(** * Triggering *)
Lemma start_trig d now v : di_trig (start d now v) = di_trig d. Proof. unfold start. destruct (_ =? _); reflexivity. Qed.
Lemma empty_pos {X} (l : list X) : (0 <? length l)%nat = negb (empty_list l). Proof. destruct l; reflexivity. Qed.
Lemma trig_spec ops : forall d, di_trig (di_run d ops) = triggered_since d ops (di_trig d).
Proof.
  induction ops as [|o ops IH]; intros d; [reflexivity|]. change (di_run d (o :: ops)) with (di_run (fst (di_step d o)) ops). rewrite IH. cbn [triggered_since]. f_equal.
  destruct o; cbn [di_step].
  - reflexivity.
  - destruct (di_due d); reflexivity.
  - destruct (available d tn resend v) as [d' b] eqn:E. pose proof (available_frame d tn resend v) as F. rewrite E in F. apply F.
  - destruct (negb (di_mode d =? m_reporting) && negb (di_trig d)) eqn:E.
    + cbn [fst]. destruct (di_trig d); [|reflexivity]. now rewrite andb_false_r in E.
    + unfold di_take, take. cbn [fst di_trig di_q mq_step mq_queue snd]. now rewrite empty_pos.
  - reflexivity.
  - destruct (di_mode d =? m); [reflexivity|]. destruct (m =? m_disabled); cbn [fst]; now rewrite start_trig.
  - cbn [fst]. now rewrite start_trig.
Qed.
Lemma sampling_triggered mode f stamps ti oldest size now v ops : let d0 := di_new mode f stamps ti oldest size now v in let d := di_run d0 ops in
  di_mode d <> m_reporting ->
  (forall max w out, snd (di_step d (DTake max)) = DReports (w :: out) -> triggered_since d0 ops false = true) /\
  (forall tn resend w, snd (di_step d (DAvail tn resend w)) = DAvailable true -> triggered_since d0 ops false = true).
Proof.
  cbv zeta. set (d0 := di_new _ _ _ _ _ _ _ _). assert (T0 : di_trig d0 = false) by (unfold d0, di_new; rewrite start_trig; reflexivity).
  rewrite <- T0, <- trig_spec. clearbody d0. set (d := di_run d0 ops). clearbody d. intros M. apply Z.eqb_neq in M. split.
  - intros max w out H. cbn [di_step] in H. rewrite M in H. cbn [negb andb] in H. destruct (di_trig d); [reflexivity|discriminate H].
  - intros tn resend w H. cbn [di_step] in H. destruct (available d tn resend w) as [d' b] eqn:E. cbn [snd] in H. injection H as ->.
    unfold available in E. destruct (di_mode d =? m_disabled); [discriminate|]. 
    destruct (sampled_frame d tn) as (F1 & _ & _ & _ & F5 & _). rewrite F1, M, andb_false_r in E. cbn [andb] in E. rewrite F1, M, F5 in E. injection E as _ E.
    destruct (di_trig d); [reflexivity|]. now rewrite andb_false_r in E.
Qed.

(** * The count *)
Lemma find_none l id : dc_find l id = None -> forall x, In x l -> fst x <> id.
Proof.
  unfold dc_find. destruct (find _ l) eqn:E; [discriminate|]. intros _ x Hx. apply (find_none _ _ E) in Hx. lia.
Qed.
Definition dis (l : list (Z * Z)) : Z := Z.of_nat (length (filter (fun x => snd x =? m_disabled) l)).
Definition b1 (b : bool) : Z := if b then 1 else 0.
Lemma dis_cons x l : dis (x :: l) = b1 (snd x =? m_disabled) + dis l.
Proof. unfold dis. cbn [filter]. destruct (snd x =? m_disabled); cbn [length b1]; lia. Qed.
Lemma map_other (id m : Z) (l : list (Z * Z)) : (forall x, In x l -> fst x <> id) -> map (fun x => if fst x =? id then (id, m) else x) l = l.
Proof.
  intros H. rewrite <- (map_id l) at 2. apply map_ext_in. intros x Hx. specialize (H x Hx). now rewrite (proj2 (Z.eqb_neq _ _) H).
Qed.
Lemma filter_other (id : Z) (l : list (Z * Z)) : (forall x, In x l -> fst x <> id) -> filter (fun x => negb (fst x =? id)) l = l.
Proof.
  induction l as [|x l IH]; intros H; [reflexivity|]. cbn [filter]. rewrite (proj2 (Z.eqb_neq _ _) (H x (or_introl eq_refl))). cbn [negb]. f_equal. apply IH. intros y Hy. apply H. now right.
Qed.
Lemma find_dis l id old : NoDup (map fst l) -> dc_find l id = Some old -> forall m,
  dis (map (fun x => if fst x =? id then (id, m) else x) l) = dis l - b1 (old =? m_disabled) + b1 (m =? m_disabled) /\
  dis (filter (fun x => negb (fst x =? id)) l) = dis l - b1 (old =? m_disabled).
Proof.
  intros ND F m. induction l as [|x l IH]; [discriminate|]. cbn [map] in ND. inversion ND as [|? ? N1 N2]; subst. unfold dc_find in *. cbn [find map filter] in *.
  destruct (Z.eqb_spec (fst x) id) as [E|E].
  - injection F as <-. cbn [negb]. assert (O : forall y, In y l -> fst y <> id) by (intros y Hy C; apply N1; rewrite E, <- C; now apply in_map).
    rewrite (map_other id m l O), (filter_other id l O), !dis_cons. cbn [snd]. lia.
  - destruct (IH N2 F) as [I1 I2]. cbn [negb]. rewrite !dis_cons, I1, I2. lia.
Qed.
Definition keyed (c : dcount) : Prop := NoDup (map fst (dc_items c)).
Lemma keyed_step c o : keyed c -> keyed (dc_step c o).
Proof.
  unfold keyed. intros K. destruct o as [id m|id m|id]; cbn [dc_step]; destruct (dc_find (dc_items c) id) as [old|] eqn:E; try exact K.
  - cbn. constructor; [|exact K]. intros H. apply in_map_iff in H. destruct H as (x & X & Hx). now apply (find_none _ _ E) in Hx.
  - destruct (old =? m); [exact K|]. cbn. rewrite map_map. erewrite map_ext; [exact K|]. intros x. cbn. destruct (Z.eqb_spec (fst x) id); cbn; congruence.
  - cbn. clear E. induction (dc_items c) as [|x l IH]; [constructor|]. cbn [map filter] in *. inversion K as [|? ? N1 N2]; subst. destruct (negb (fst x =? id)); [|now apply IH].
    cbn [map]. constructor; [|now apply IH]. intros H. apply N1. apply in_map_iff in H. destruct H as (y & Y & Hy). apply filter_In in Hy. apply in_map_iff. exists y. tauto.
Qed.
Lemma u32_add a k : u32 (a mod 2 ^ 32 + k) = (a + k) mod 2 ^ 32.
Proof. unfold u32. now rewrite Zplus_mod_idemp_l. Qed.
Lemma count_from ops : forall c a, keyed c -> dc_disabled c = (dis (dc_items c) - a) mod 2 ^ 32 ->
  let c' := fold_left dc_step ops c in dc_disabled c' = (dis (dc_items c') - (a + switches c ops)) mod 2 ^ 32.
Proof.
  induction ops as [|o ops IH]; intros c a K E; cbn [fold_left switches]; [now rewrite Z.add_0_r|].
  set (s := match o with CMode _ _ => _ | _ => 0 end).
  replace (a + (s + switches (dc_step c o) ops)) with (a + s + switches (dc_step c o) ops) by lia. apply IH; [now apply keyed_step|].
  subst s. destruct o as [id m|id m|id]; cbn [dc_step]; destruct (dc_find (dc_items c) id) as [old|] eqn:F.
  - rewrite E. f_equal. lia.
  - cbn [dc_items dc_disabled]. rewrite dis_cons. cbn [snd]. destruct (m =? m_disabled); cbn [b1]; rewrite E; [rewrite u32_add|]; f_equal; lia.
  - destruct (find_dis _ _ _ K F m) as [D _]. destruct (Z.eqb_spec old m) as [->|N]; [cbn [orb]; rewrite E; f_equal; lia|]. cbn [dc_items dc_disabled orb]. rewrite D.
    destruct (Z.eqb_spec m m_disabled) as [M|M].
    + rewrite (proj2 (Z.eqb_neq old m_disabled)) by congruence. cbn [b1 orb]. rewrite E, u32_add. f_equal. lia.
    + unfold Z.sub at 1. rewrite E, u32_add. destruct (old =? m_disabled); cbn [b1 orb]; f_equal; lia.
  - rewrite E. f_equal. lia.
  - destruct (find_dis _ _ _ K F 0) as [_ D]. cbn [dc_items dc_disabled]. rewrite D. destruct (old =? m_disabled); cbn [b1]; [unfold Z.sub at 1; rewrite E, u32_add|rewrite E]; f_equal; lia.
  - rewrite E. f_equal. lia.
Qed.
Lemma count_run ops : dc_disabled (dc_run ops) = (disabled_items (dc_run ops) - switches (mkDc [] 0) ops) mod 2 ^ 32.
Proof. apply (count_from ops (mkDc [] 0) 0); [constructor|reflexivity]. Qed.
Lemma no_switches ops : forall c, through_disabled c ops -> switches c ops = 0.
Proof.
  induction ops as [|o ops IH]; intros c H; [reflexivity|]. cbn [through_disabled switches] in *. destruct H as [H1 H2]. rewrite (IH _ H2). destruct o as [id m|id m|id]; try reflexivity.
  destruct (dc_find (dc_items c) id) as [old|]; [|reflexivity]. specialize (H1 old eq_refl). destruct ((old =? m) || (old =? m_disabled) || (m =? m_disabled)) eqn:E; [reflexivity|lia].
Qed.
Lemma count_exact ops : through_disabled (mkDc [] 0) ops -> disabled_items (dc_run ops) < 2 ^ 32 -> dc_disabled (dc_run ops) = disabled_items (dc_run ops).
Proof. intros H B. rewrite count_run, (no_switches ops _ H), Z.sub_0_r. apply Z.mod_small. unfold disabled_items in *. lia. Qed.
Theorem timestamps_asked which v : 0 <= which <= 3 ->
  let r := with_timestamps which v in
  dv_value r = dv_value v /\ dv_status r = dv_status v /\
  (dv_source r = if (which =? 0) || (which =? 2) then dv_source v else 0) /\
  (dv_server r = if (which =? 1) || (which =? 2) then dv_server v else 0).
Proof.
  intros H. assert (which = 0 \/ which = 1 \/ which = 2 \/ which = 3) as [->|[->|[->| ->]]] by lia; repeat split.
Qed.
