(** Proofs about items and the values of their variables. *)
From Coq Require Import ZArith List Bool Lia.
From Verif Require Import Float MonQueue DataChange DataChangeSpec DataChangeProofs Watch WatchSpec.
Import ListNotations.
Open Scope Z_scope.

(** * Lists *)
Lemma last_of_app {A} (l : list A) x : last_of (l ++ [x]) = Some x.
Proof. unfold last_of. rewrite rev_app_distr. reflexivity. Qed.
Lemma last_of_some {A} (l : list A) x : last_of l = Some x -> exists r, l = r ++ [x].
Proof. unfold last_of. destruct (rev l) as [|y r] eqn:E; [discriminate|]. intros H. inversion H; subst. exists (rev r). rewrite <- (rev_involutive l), E. reflexivity. Qed.
Lemma last_of_last {A} (l : list A) d : l <> [] -> last_of l = Some (last l d).
Proof. intros N. rewrite (app_removelast_last d N) at 1. apply last_of_app. Qed.

(** * The invariant of all histories *)
Definition size_ok (q : mqueue dval) : Prop := (1 <= mq_size q <= 1024)%nat /\ (length (mq_queue q) <= mq_size q)%nat.
(** What was reported or waits last is what the item compares with *)
Definition told (seen : list dval) (d : ditem) : Prop :=
  di_prev d = waiting_value \/ last_of (seen ++ mq_queue (di_q d)) = Some (with_timestamps (di_stamps d) (di_prev d)).
Lemma pop_front_last {A} n (q : list A) : exists a, q = a ++ pop_front n q /\ ((length (pop_front n q) <= n)%nat \/ pop_front n q = []).
Proof.
  induction q as [|x q IH]; [exists []; split; [reflexivity|right; reflexivity]|]. cbn [pop_front].
  destruct (Nat.ltb_spec n (length (x :: q))).
  - destruct IH as (a & E & H'). exists (x :: a). split; [cbn; congruence|exact H'].
  - exists []. split; [reflexivity|left; assumption].
Qed.
Lemma pop_front_le {A} n (q : list A) : (length (pop_front n q) <= n)%nat.
Proof. destruct (pop_front_last n q) as (a & _ & [H|H]); [exact H|rewrite H; cbn; lia]. Qed.
Lemma trim_le {A} b n (q : list A) : (length (trim b n q) <= n)%nat.
Proof. unfold trim, pop_back. destruct b; [apply pop_front_le|]. rewrite rev_length. apply pop_front_le. Qed.
Lemma pop_front_whole {A} n (q : list A) : (length q <= n)%nat -> pop_front n q = q.
Proof. destruct q as [|x q]; [reflexivity|]. intros L. cbn [pop_front]. destruct (Nat.ltb_spec n (length (x :: q))); [lia|reflexivity]. Qed.
Lemma pop_front_keeps {A} n (q : list A) x : (1 <= n)%nat -> exists r, pop_front n (q ++ [x]) = r ++ [x].
Proof.
  intros N. induction q as [|y q IH]; [exists []; apply pop_front_whole; cbn; lia|]. cbn [app pop_front].
  destruct (_ <? _)%nat; [exact IH|exists (y :: q); reflexivity].
Qed.
Lemma put_size q v : size_ok q -> size_ok (mq_step q (MPut v)).
Proof. intros [A B]. split; [exact A|]. cbn. unfold enqueue. rewrite app_length. cbn. pose proof (trim_le (mq_oldest q) (mq_size q - 1) (mq_queue q)). lia. Qed.

Section Step.
Variable seen : list dval.
Record kept (d0 d : ditem) : Prop := {
  k_mode : di_mode d = di_mode d0; k_filter : di_filter d = di_filter d0; k_stamps : di_stamps d = di_stamps d0;
  k_ti : di_ti d = di_ti d0; k_polled : di_polled d = di_polled d0; k_due : di_due d = di_due d0;
  k_told : told seen d0 -> told seen d; k_size : size_ok (di_q d0) -> size_ok (di_q d) }.
Lemma kept_refl d : kept d d. Proof. constructor; auto. Qed.
Lemma kept_trans a b c : kept a b -> kept b c -> kept a c.
Proof. intros [] []. constructor; try congruence; auto. Qed.
Lemma kept_pre d pre ts : kept d (set_pre d pre ts). Proof. constructor; auto. Qed.
Lemma kept_put d v : kept d (put d v).
Proof.
  constructor; try reflexivity; [|apply put_size]. intros _. right. cbn. unfold enqueue. rewrite app_assoc. apply last_of_app.
Qed.
Lemma kept_consider d v : kept d (consider d v).
Proof. unfold consider. destruct (is_data_change _ _ _); [apply kept_put|apply kept_refl]. Qed.
Lemma kept_intervals n : forall d v, kept d (intervals n d v).
Proof.
  induction n as [|n IH]; intros d v; [apply kept_refl|]. cbn [intervals]. destruct (peek _ _ _) as [v' rest].
  eapply kept_trans; [apply kept_pre|]. eapply kept_trans; [apply kept_consider|]. eapply kept_trans; [apply kept_pre|]. apply IH.
Qed.
Lemma kept_fold l : forall d, kept d (fold_left consider l d).
Proof. induction l as [|v l IH]; intros d; [apply kept_refl|]. cbn. eapply kept_trans; [apply kept_consider|apply IH]. Qed.
Lemma kept_sampled d tn : kept d (sampled d tn).
Proof. unfold sampled. destruct (0 <? di_ti d); [apply kept_intervals|]. unfold each. eapply kept_trans; [apply kept_pre|apply kept_fold]. Qed.
Lemma kept_available d tn resend v : kept d (fst (available d tn resend v)).
Proof.
  unfold available. destruct (di_mode d =? m_disabled); [apply kept_pre|]. cbn [fst]. eapply kept_trans; [apply (kept_sampled d tn)|].
  destruct (_ && _ && _); [apply kept_put|apply kept_refl].
Qed.
End Step.

(** ** Waiting values *)
Lemma last_cons {A} (t : list A) p v : last (p :: t) v = last t p.
Proof. revert p v. induction t as [|a t IH]; intros p v; [reflexivity|]. change (last (p :: a :: t) v) with (last (a :: t) v). rewrite !IH. reflexivity. Qed.
Lemma peek_split ts pre : forall v, exists taken, pre = taken ++ snd (peek ts pre v) /\ fst (peek ts pre v) = last taken v.
Proof.
  induction pre as [|p pre IH]; intros v; [exists []; split; reflexivity|]. cbn [peek]. destruct (dv_server p <=? ts).
  - destruct (IH p) as (t & E & L). exists (p :: t). split; [cbn; congruence|]. rewrite last_cons. exact L.
  - exists []. split; reflexivity.
Qed.
Lemma peek_all ts pre : forall v, Forall (fun p => dv_server p <= ts) pre -> snd (peek ts pre v) = [].
Proof.
  induction pre as [|p pre IH]; intros v F; [reflexivity|]. inversion F; subst. cbn [peek]. rewrite (proj2 (Z.leb_le _ _)) by assumption. apply IH. assumption.
Qed.
Lemma consider_pre d v : di_pre (consider d v) = di_pre d /\ di_ts (consider d v) = di_ts d /\ di_ti (consider d v) = di_ti d.
Proof. unfold consider. destruct (is_data_change _ _ _); repeat split. Qed.
Lemma intervals_ts n : forall d v, di_ts (intervals n d v) = di_ts d + Z.of_nat n * di_ti d.
Proof.
  induction n as [|n IH]; intros d v; [cbn; lia|]. cbn [intervals]. destruct (peek _ _ _) as [v' rest]. rewrite IH.
  destruct (consider_pre (set_pre d rest (di_ts d)) v') as (A & B & C). cbn [set_pre di_ts di_ti]. rewrite B, C. cbn [set_pre di_ts di_ti]. lia.
Qed.
Lemma intervals_sub (P : dval -> Prop) n : forall d v, Forall P (di_pre d) -> Forall P (di_pre (intervals n d v)).
Proof.
  induction n as [|n IH]; intros d v F; [exact F|]. cbn [intervals]. destruct (peek_split (di_ts d) (di_pre d) v) as (t & E & _).
  destruct (peek _ _ _) as [v' rest]. cbn [snd] in E. rewrite E in F. apply Forall_app in F. apply IH.
  destruct (consider_pre (set_pre d rest (di_ts d)) v') as (A & B & C). cbn [set_pre di_pre]. rewrite A. cbn. apply F.
Qed.
Lemma intervals_drain n : forall d v, Forall (fun p => dv_server p <= di_ts d + Z.of_nat n * di_ti d) (di_pre d) -> di_pre (intervals (S n) d v) = [].
Proof.
  induction n as [|n IH]; intros d v F.
  - cbn [intervals]. pose proof (peek_all (di_ts d) (di_pre d) v) as P. destruct (peek _ _ _) as [v' rest]. cbn [snd] in P.
    assert (R : rest = []) by (apply P; eapply Forall_impl; [|exact F]; cbn; intros; lia). subst rest.
    destruct (consider_pre (set_pre d [] (di_ts d)) v') as (A & B & C). cbn [set_pre di_pre]. exact A.
  - remember (S n) as m. cbn [intervals]. subst m. destruct (peek_split (di_ts d) (di_pre d) v) as (t & E & _).
    destruct (peek _ _ _) as [v' rest]. cbn [snd] in E. apply IH.
    destruct (consider_pre (set_pre d rest (di_ts d)) v') as (A & B & C). cbn [set_pre di_pre di_ts di_ti]. rewrite A, B, C. cbn [set_pre di_pre di_ts di_ti].
    rewrite E in F. apply Forall_app in F. destruct F as [_ F]. eapply Forall_impl; [|exact F]. intros a H. cbv beta in *. rewrite Nat2Z.inj_succ in H. lia.
Qed.

Lemma revised_is size : revised_size size = Z.min 1024 (Z.max 1 size).
Proof. unfold revised_size, maxQueueSize. destruct (Z.ltb_spec 1024 size); [change (1024 <? 1) with false; cbv iota; lia|]. destruct (Z.ltb_spec size 1); lia. Qed.
(** ** One step *)
(** Times: the next interval ends at most one interval after [M]; values wait with stamps up to [M] *)
Record inv (M : Z) (s : watch) : Prop := {
  i_told : told (wt_seen s) (wt_item s);
  i_size : size_ok (di_q (wt_item s));
  i_ts : di_ts (wt_item s) <= M + Z.max 0 (di_ti (wt_item s));
  i_pre : Forall (fun p => dv_server p <= M) (di_pre (wt_item s));
  i_cur : dv_server (wt_cur s) <= M;
  i_polled : di_mode (wt_item s) <> m_disabled -> di_polled (wt_item s) = true }.
Lemma turns_end ts ti tn : 0 < ti -> tn <? ts = false -> exists n, turns ts ti tn = S n /\ ts + Z.of_nat n * ti <= tn < ts + Z.of_nat (S n) * ti.
Proof.
  intros P H. apply Z.ltb_ge in H. unfold turns. rewrite (proj2 (Z.ltb_ge _ _)) by exact H.
  pose proof (Z.div_pos (tn - ts) ti ltac:(lia) P) as D. pose proof (Z.div_mod (tn - ts) ti ltac:(lia)) as E. pose proof (Z.mod_pos_bound (tn - ts) ti P) as B.
  exists (Z.to_nat ((tn - ts) / ti)). split; [rewrite Z2Nat.inj_add by lia; lia|]. rewrite Nat2Z.inj_succ, Z2Nat.id by exact D. nia.
Qed.
Lemma sampled_ts d tn M : di_ts d <= M + Z.max 0 (di_ti d) -> tn <= M -> di_ts (sampled d tn) <= M + Z.max 0 (di_ti d).
Proof.
  intros H T. unfold sampled. destruct (Z.ltb_spec 0 (di_ti d)) as [P|P].
  - rewrite intervals_ts. destruct (tn <? di_ts d) eqn:E.
    + unfold turns. rewrite E. cbn. lia.
    + destruct (turns_end (di_ts d) (di_ti d) tn P E) as (n & -> & B). rewrite Nat2Z.inj_succ in *. lia.
  - unfold each. enough (Q : forall l e, di_ts (fold_left consider l e) = di_ts e) by (rewrite Q; cbn; exact H).
    induction l as [|v l IH]; intros e; [reflexivity|]. cbn [fold_left]. rewrite IH. apply consider_pre.
Qed.
Lemma fold_pre l : forall e, di_pre (fold_left consider l e) = di_pre e.
Proof. induction l as [|v l IH]; intros e; [reflexivity|]. cbn [fold_left]. rewrite IH. apply consider_pre. Qed.
Lemma sampled_pre (P : dval -> Prop) d tn : Forall P (di_pre d) -> Forall P (di_pre (sampled d tn)).
Proof. intros F. unfold sampled. destruct (0 <? di_ti d); [apply intervals_sub; exact F|]. unfold each. rewrite fold_pre. constructor. Qed.
Lemma available_rest d tn resend v M : di_ts d <= M + Z.max 0 (di_ti d) -> tn <= M -> Forall (fun p => dv_server p <= M) (di_pre d) ->
  let d' := fst (available d tn resend v) in di_ts d' <= M + Z.max 0 (di_ti d') /\ Forall (fun p => dv_server p <= M) (di_pre d').
Proof.
  intros A B C. cbv zeta. rewrite (k_ti _ _ _ (kept_available [] d tn resend v)). unfold available. destruct (di_mode d =? m_disabled); cbn [fst].
  - cbn [set_pre di_ts di_pre]. split; [lia|exact C].
  - destruct (_ && _ && _); cbn [put di_ts di_pre]; (split; [apply sampled_ts; assumption|apply sampled_pre; exact C]).
Qed.
Lemma take_told seen d max : told seen d -> told (seen ++ firstn max (mq_queue (di_q d))) (fst (di_take d max)).
Proof.
  intros [H|H]; [left; exact H|right]. cbn. rewrite <- app_assoc, firstn_skipn. exact H.
Qed.
Lemma start_parts d now v : let e := DataChange.start d now v in
  di_mode e = di_mode d /\ di_filter e = di_filter d /\ di_stamps e = di_stamps d /\ di_ti e = di_ti d /\ di_prev e = di_prev d /\ di_q e = di_q d /\ di_ts e = now /\
  di_pre e = (if di_mode d =? m_disabled then di_pre d else di_pre d ++ [v]) /\ (di_mode d <> m_disabled -> di_polled e = true).
Proof.
  unfold DataChange.start. destruct (Z.eqb_spec (di_mode d) m_disabled); cbn; repeat match goal with |- _ /\ _ => split end; auto; intros; contradiction.
Qed.
Lemma resize_told oldest size (q : mqueue dval) : oldest = true \/ (length (mq_queue q) <= Z.to_nat (Z.min 1024 (Z.max 1 size)))%nat ->
  mq_queue (mq_step q (MResize oldest size)) = [] /\ mq_queue q = [] \/
  exists a b x, mq_queue (mq_step q (MResize oldest size)) = a ++ [x] /\ mq_queue q = b ++ [x].
Proof.
  intros H. pose proof (revised_is size) as R.
  cbn. rewrite R. set (n := Z.to_nat (Z.min 1024 (Z.max 1 size))) in *. assert (N : (1 <= n)%nat) by (unfold n; lia). clearbody n. unfold resize.
  destruct (mq_queue q) as [|y l] eqn:E using rev_ind; [left; split; [destruct oldest; reflexivity|reflexivity]|clear IHl]. right.
  destruct H as [->|H].
  - destruct (pop_front_keeps n l y N) as (r & Q). exists r, l, y. split; [exact Q|reflexivity].
  - assert (T : trim oldest n (l ++ [y]) = l ++ [y]).
    { unfold trim, pop_back. destruct oldest; [apply pop_front_whole; exact H|]. rewrite pop_front_whole by (rewrite rev_length; exact H). apply rev_involutive. }
    rewrite T. exists l, l, y. split; reflexivity.
Qed.
Lemma resize_size oldest size (q : mqueue dval) : size_ok (mq_step q (MResize oldest size)).
Proof.
  pose proof (revised_is size) as R.
  split; cbn; [lia|]. apply trim_le.
Qed.
Lemma inv_step M s o : inv M s -> by_time M o -> not_cut s o -> inv M (w_step s o).
Proof.
  intros [T S TS P C PO] B N. destruct s as [cur d seen]. cbn [wt_cur wt_item wt_seen] in *. destruct o as [v| | |tn resend|max| |m now|f ti oldest size now]; unfold w_step; cbn [item_op wt_cur wt_item wt_seen di_step].
  - constructor; auto.
  - rewrite app_nil_r. constructor; auto.
  - rewrite app_nil_r. destruct (di_due d); constructor; auto. cbn. apply Forall_app. split; [exact P|constructor; [exact C|constructor]].
  - pose proof (kept_available seen d tn resend cur) as [K1 K2 K3 K4 K5 K6 K7 K8]. pose proof (available_rest d tn resend cur M TS B P) as [R1 R2].
    destruct (available d tn resend cur) as [d' b]. cbn [fst] in *. rewrite app_nil_r. constructor; cbn [wt_cur wt_item wt_seen]; auto. rewrite K1, K5. exact PO.
  - destruct (negb _ && negb _); [rewrite app_nil_r; constructor; auto|].
    constructor; cbn [wt_cur wt_item wt_seen]; auto; [exact (take_told seen d max T)|]. cbn. split; [apply S|]. cbn. rewrite skipn_length. destruct S. lia.
  - rewrite app_nil_r. constructor; auto.
  - destruct (di_mode d =? m); [rewrite app_nil_r; constructor; auto|]. destruct (m =? m_disabled).
    + set (e := mkDi _ _ _ _ _ _ _ _ _ _ _). destruct (start_parts e now cur) as (E1 & E2 & E3 & E4 & E5 & E6 & E7 & E8 & E9). rewrite app_nil_r.
      constructor; cbn [wt_cur wt_item wt_seen]; [left; rewrite E5; reflexivity| | | | |].
      * rewrite E6. split; [apply S|]. cbn. lia.
      * rewrite E7, E4. cbn in B. lia.
      * rewrite E8. destruct (_ =? _); cbn [e di_pre]; [exact P|]. apply Forall_app. split; [exact P|constructor; [exact C|constructor]].
      * exact C.
      * rewrite E1. exact E9.
    + set (e := mkDi _ _ _ _ _ _ _ _ _ _ _). destruct (start_parts e now cur) as (E1 & E2 & E3 & E4 & E5 & E6 & E7 & E8 & E9). rewrite app_nil_r.
      constructor; cbn [wt_cur wt_item wt_seen]; [unfold told; rewrite E5, E6, E3; exact T| | | | |].
      * rewrite E6. exact S.
      * rewrite E7, E4. cbn in B. lia.
      * rewrite E8. destruct (_ =? _); cbn [e di_pre]; [exact P|]. apply Forall_app. split; [exact P|constructor; [exact C|constructor]].
      * exact C.
      * rewrite E1. exact E9.
  - set (e := mkDi _ _ _ _ _ _ _ _ _ _ _). destruct (start_parts e now cur) as (E1 & E2 & E3 & E4 & E5 & E6 & E7 & E8 & E9). rewrite app_nil_r.
    constructor; cbn [wt_cur wt_item wt_seen].
    + destruct T as [T|T]; [left; rewrite E5; exact T|right]. rewrite E5, E6, E3. cbn [e di_prev di_stamps di_q].
      destruct (resize_told oldest size (di_q d) N) as [[Q1 Q2]|(a & b & x & Q1 & Q2)].
      * rewrite Q1. rewrite Q2 in T. exact T.
      * rewrite Q1. rewrite Q2 in T. rewrite app_assoc in *. rewrite last_of_app in *. exact T.
    + rewrite E6. apply resize_size.
    + rewrite E7. cbn in B. lia.
    + rewrite E8. destruct (_ =? _); cbn [e di_pre]; [exact P|]. apply Forall_app. split; [exact P|constructor; [exact C|constructor]].
    + exact C.
    + rewrite E1. exact E9.
Qed.
Lemma inv_run M l : forall s, inv M s -> Forall (by_time M) l -> none_cut s l -> inv M (w_run s l).
Proof.
  induction l as [|o l IH]; intros s I B N; [exact I|]. inversion B; subst. destruct N as [N1 N2]. cbn. apply IH; [apply inv_step; assumption|assumption|exact N2].
Qed.
Lemma inv_new M cur mode f stamps ti oldest size now : dv_server cur <= M -> now <= M -> inv M (watch_new cur mode f stamps ti oldest size now).
Proof.
  intros C N. unfold watch_new, di_new. set (e := mkDi _ _ _ _ _ _ _ _ _ _ _). destruct (start_parts e now cur) as (E1 & E2 & E3 & E4 & E5 & E6 & E7 & E8 & E9).
  constructor; cbn [wt_cur wt_item wt_seen].
  - left. rewrite E5. reflexivity.
  - rewrite E6. cbn [e di_q]. split; cbn.
    + rewrite revised_is. lia.
    + lia.
  - rewrite E7. lia.
  - rewrite E8. destruct (_ =? _); cbn [e di_pre app]; constructor; [exact C|constructor].
  - exact C.
  - rewrite E1. exact E9.
Qed.

(** ** Where values come from *)
Section From.
Variable P : dval -> Prop.
Definition from (v : dval) : Prop := v = waiting_value \/ P v.
Record origin (d : ditem) : Prop := { o_pre : Forall P (di_pre d); o_prev : from (di_prev d) }.
Lemma origin_consider d v : origin d -> from v -> origin (consider d v).
Proof. intros [A B] V. unfold consider. destruct (is_data_change _ _ _); constructor; assumption. Qed.
Lemma peek_from ts pre : forall v, Forall P pre -> from v -> from (fst (peek ts pre v)) /\ Forall P (snd (peek ts pre v)).
Proof.
  induction pre as [|p pre IH]; intros v F V; [split; assumption|]. cbn [peek]. inversion F; subst. destruct (dv_server p <=? ts); [|split; assumption].
  apply IH; [assumption|right; assumption].
Qed.
Lemma origin_intervals n : forall d v, origin d -> from v -> origin (intervals n d v).
Proof.
  induction n as [|n IH]; intros d v O V; [exact O|]. cbn [intervals]. destruct (peek_from (di_ts d) (di_pre d) v (o_pre _ O) V) as [A B].
  destruct (peek _ _ _) as [v' rest]. cbn [fst snd] in *. apply IH; [|exact A].
  assert (E : origin (consider (set_pre d rest (di_ts d)) v')) by (apply origin_consider; [constructor; [exact B|apply O]|exact A]).
  constructor; apply E.
Qed.
Lemma origin_fold l : forall d, Forall P l -> origin d -> origin (fold_left consider l d).
Proof. induction l as [|v l IH]; intros d F O; [exact O|]. inversion F; subst. cbn. apply IH; [assumption|]. apply origin_consider; [exact O|right; assumption]. Qed.
Lemma origin_sampled d tn : origin d -> origin (sampled d tn).
Proof.
  intros O. unfold sampled. destruct (0 <? di_ti d); [apply origin_intervals; [exact O|apply O]|]. unfold each. apply origin_fold; [apply O|]. constructor; [constructor|apply O].
Qed.
Lemma origin_available d tn resend v : origin d -> P v -> origin (fst (available d tn resend v)).
Proof.
  intros O V. unfold available. destruct (_ =? _); [constructor; apply O|]. cbn [fst]. pose proof (origin_sampled d tn O) as [A B].
  destruct (_ && _ && _); constructor; try assumption. right. exact V.
Qed.
Lemma origin_start d now v : origin d -> P v -> origin (DataChange.start d now v).
Proof.
  intros [A B] V. destruct (start_parts d now v) as (E1 & E2 & E3 & E4 & E5 & E6 & E7 & E8 & E9). constructor.
  - rewrite E8. destruct (_ =? _); [exact A|]. apply Forall_app. split; [exact A|constructor; [exact V|constructor]].
  - rewrite E5. exact B.
Qed.
Definition writes_P (o : wop) : Prop := match o with WWrite v => P v | _ => True end.
Lemma origin_step s o : P (wt_cur s) -> origin (wt_item s) -> writes_P o -> P (wt_cur (w_step s o)) /\ origin (wt_item (w_step s o)).
Proof.
  intros C O W. destruct s as [cur d seen]. cbn [wt_cur wt_item wt_seen] in *. destruct o as [v| | |tn resend|max| |m now|f ti oldest size now]; unfold w_step; cbn [item_op wt_cur wt_item wt_seen di_step].
  - split; assumption.
  - split; [assumption|]. constructor; apply O.
  - split; [assumption|]. cbn. destruct (di_due d); [exact O|]. constructor; [|apply O]. cbn. apply Forall_app. split; [apply O|constructor; [exact C|constructor]].
  - pose proof (origin_available d tn resend cur O C) as A. destruct (available d tn resend cur). split; assumption.
  - split; [destruct (negb _ && negb _); exact C|]. destruct (negb _ && negb _); [exact O|]. constructor; apply O.
  - split; [assumption|]. constructor; apply O.
  - split; [destruct (di_mode d =? m); [exact C|destruct (m =? m_disabled); exact C]|]. destruct (di_mode d =? m); [exact O|]. destruct (m =? m_disabled).
    + apply origin_start; [|exact C]. constructor; [apply O|left; reflexivity].
    + apply origin_start; [|exact C]. constructor; apply O.
  - split; [exact C|]. apply origin_start; [|exact C]. constructor; apply O.
Qed.
Lemma origin_run l : forall s, P (wt_cur s) -> origin (wt_item s) -> Forall writes_P l -> P (wt_cur (w_run s l)) /\ origin (wt_item (w_run s l)).
Proof.
  induction l as [|o l IH]; intros s C O W; [split; assumption|]. inversion W; subst. cbn. destruct (origin_step s o C O ltac:(assumption)). apply IH; assumption.
Qed.
End From.

(** ** The item knows the value *)
Definition settled (cur : dval) (d : ditem) : Prop := di_prev d = cur \/ is_data_change (di_filter d) cur (di_prev d) = false.
Definition knows (cur : dval) (d : ditem) : Prop := last_of (di_pre d) = Some cur \/ di_pre d = [] /\ settled cur d.
Lemma consider_settles cur d : settled cur (consider d cur).
Proof. unfold settled, consider. destruct (is_data_change (di_filter d) cur (di_prev d)) eqn:E; [left; reflexivity|right; exact E]. Qed.
Lemma consider_prev d cur : settled cur d -> settled cur (consider d (di_prev d)).
Proof. intros H. unfold consider. destruct (is_data_change (di_filter d) (di_prev d) (di_prev d)); [exact H|exact H]. Qed.
Lemma consider_keeps_prev d : di_prev (consider d (di_prev d)) = di_prev d.
Proof. unfold consider. destruct (is_data_change _ _ _); reflexivity. Qed.
Definition carried (cur : dval) (d : ditem) (v : dval) : Prop := last_of (di_pre d) = Some cur \/ di_pre d = [] /\ settled cur d /\ (v = cur \/ v = di_prev d).
Lemma intervals_know cur n : forall d v, carried cur d v -> knows cur (intervals n d v).
Proof.
  induction n as [|n IH]; intros d v H.
  - destruct H as [H|(H1 & H2 & _)]; [left; exact H|right; split; assumption].
  - cbn [intervals]. destruct (peek_split (di_ts d) (di_pre d) v) as (t & E & L). destruct (peek _ _ _) as [v' rest]. cbn [fst snd] in *.
    apply IH. unfold carried. cbn [set_pre di_pre di_prev]. destruct (consider_pre (set_pre d rest (di_ts d)) v') as (A & _ & _). rewrite A. cbn [set_pre di_pre].
    destruct H as [H|(H1 & H2 & H3)].
    + destruct (last_of_some _ _ H) as (r & R). destruct rest as [|q rest0] using rev_ind.
      * right. split; [reflexivity|]. rewrite app_nil_r in E. assert (V : v' = cur) by (rewrite L, <- E, R; apply last_last). clear L. subst v'.
        split; [|left; reflexivity]. exact (consider_settles cur (set_pre d [] (di_ts d))).
      * left. rewrite R, app_assoc in E. apply app_inj_tail in E. destruct E as [_ ->]. apply last_of_app.
    + rewrite H1 in E. symmetry in E. apply app_eq_nil in E. destruct E as [-> ->]. cbn in L. subst v'. right. split; [reflexivity|].
      destruct H3 as [-> | ->].
      * split; [|left; reflexivity]. exact (consider_settles cur (set_pre d [] (di_ts d))).
      * split; [exact (consider_prev (set_pre d [] (di_ts d)) cur H2)|right]. symmetry. exact (consider_keeps_prev (set_pre d [] (di_ts d))).
Qed.
Lemma sampled_knows cur d tn : knows cur d -> knows cur (sampled d tn).
Proof.
  intros H. unfold sampled. destruct (0 <? di_ti d).
  - apply intervals_know. destruct H as [H|[H1 H2]]; [left; exact H|right]. repeat split; auto.
  - unfold each. right. rewrite fold_pre. split; [reflexivity|]. destruct H as [H|[H1 H2]].
    + destruct (last_of_some _ _ H) as (r & ->). rewrite fold_left_app. cbn [fold_left]. apply consider_settles.
    + rewrite H1. exact H2.
Qed.
Lemma available_knows cur d tn resend : knows cur d -> knows cur (fst (available d tn resend cur)).
Proof.
  intros H. unfold available. destruct (_ =? _); [exact H|]. cbn [fst]. pose proof (sampled_knows cur d tn H) as K. destruct (_ && _ && _); [|exact K].
  destruct K as [K|[K1 K2]]; [left; exact K|right]. split; [exact K1|left; reflexivity].
Qed.
Lemma quiet_step s o : quiet o -> knows (wt_cur s) (wt_item s) ->
  wt_cur (w_step s o) = wt_cur s /\ knows (wt_cur s) (wt_item (w_step s o)) /\ di_mode (wt_item (w_step s o)) = di_mode (wt_item s).
Proof.
  intros Q K. destruct s as [cur d seen]. cbn [wt_cur wt_item wt_seen] in *. destruct o as [v| | |tn resend|max| |m now|f ti oldest size now]; try contradiction; unfold w_step; cbn [item_op wt_cur wt_item wt_seen di_step].
  - repeat split. exact K.
  - repeat split; cbn; destruct (di_due d); try reflexivity; [exact K|]. left. apply last_of_app.
  - pose proof (available_knows cur d tn resend K) as A. pose proof (k_mode _ _ _ (kept_available [] d tn resend cur)) as B. destruct (available d tn resend cur). repeat split; assumption.
  - destruct (negb _ && negb _); repeat split; exact K.
  - repeat split. exact K.
Qed.
Lemma quiet_run l : forall s, Forall quiet l -> knows (wt_cur s) (wt_item s) ->
  wt_cur (w_run s l) = wt_cur s /\ knows (wt_cur s) (wt_item (w_run s l)) /\ di_mode (wt_item (w_run s l)) = di_mode (wt_item s).
Proof.
  induction l as [|o l IH]; intros s F K; [repeat split; exact K|]. inversion F; subst. destruct (quiet_step s o ltac:(assumption) K) as (A & B & C). cbn.
  destruct (IH (w_step s o) ltac:(assumption) ltac:(rewrite A; exact B)) as (D & E & G). rewrite A in *. unfold w_run in *. split; [exact D|]. split; [exact E|]. rewrite G. exact C.
Qed.
(** After an interval nothing waits *)
Lemma sampled_drained M d tn : Forall (fun p => dv_server p <= M) (di_pre d) -> di_ts d <= M + Z.max 0 (di_ti d) -> M + Z.max 0 (di_ti d) <= tn -> di_pre (sampled d tn) = [].
Proof.
  intros F T N. unfold sampled. destruct (Z.ltb_spec 0 (di_ti d)) as [Q|Q].
  - destruct (turns_end (di_ts d) (di_ti d) tn Q ltac:(apply Z.ltb_ge; lia)) as (n & -> & B). apply intervals_drain. eapply Forall_impl; [|exact F].
    intros a H. cbv beta in *. rewrite Nat2Z.inj_succ in B. lia.
  - unfold each. rewrite fold_pre. reflexivity.
Qed.
(** ** What the last calls set *)
Lemma set_step s o : wt_cur (w_step s o) = value_after (wt_cur s) [o] /\ di_mode (wt_item (w_step s o)) = mode_after (di_mode (wt_item s)) [o] /\
  di_filter (wt_item (w_step s o)) = filter_after (di_filter (wt_item s)) [o] /\ di_ti (wt_item (w_step s o)) = interval_after (di_ti (wt_item s)) [o] /\
  di_stamps (wt_item (w_step s o)) = di_stamps (wt_item s).
Proof.
  destruct s as [cur d seen]. destruct o as [v| | |tn resend|max| |m now|f ti oldest size now]; unfold w_step; cbn [item_op wt_cur wt_item wt_seen di_step].
  - repeat split.
  - repeat split.
  - destruct (di_due d); repeat split.
  - pose proof (kept_available seen d tn resend cur) as [K1 K2 K3 K4 K5 K6 K7 K8]. destruct (available d tn resend cur). cbn in *. repeat split; assumption.
  - destruct (negb _ && negb _); repeat split.
  - repeat split.
  - destruct (Z.eqb_spec (di_mode d) m) as [E|E]; [subst; repeat split|]. destruct (m =? m_disabled);
      match goal with |- context[DataChange.start ?e now cur] => destruct (start_parts e now cur) as (E1 & E2 & E3 & E4 & _) end; cbn [wt_cur wt_item]; rewrite E1, E2, E3, E4; repeat split.
  - match goal with |- context[DataChange.start ?e now cur] => destruct (start_parts e now cur) as (E1 & E2 & E3 & E4 & _) end; cbn [wt_cur wt_item]; rewrite E1, E2, E3, E4; repeat split.
Qed.
Lemma set_run l : forall s, wt_cur (w_run s l) = value_after (wt_cur s) l /\ di_mode (wt_item (w_run s l)) = mode_after (di_mode (wt_item s)) l /\
  di_filter (wt_item (w_run s l)) = filter_after (di_filter (wt_item s)) l /\ di_ti (wt_item (w_run s l)) = interval_after (di_ti (wt_item s)) l /\
  di_stamps (wt_item (w_run s l)) = di_stamps (wt_item s).
Proof.
  induction l as [|o l IH]; intros s; [repeat split|]. cbn [w_run fold_left]. change (fold_left w_step l (w_step s o)) with (w_run (w_step s o) l).
  destruct (IH (w_step s o)) as (A & B & C & D & E). destruct (set_step s o) as (A' & B' & C' & D' & E'). rewrite A, B, C, D, E, A', B', C', D', E'. repeat split.
Qed.

(** * A subscriber ends up with the current value *)
Lemma value_app l r v : value_after v (l ++ r) = value_after (value_after v l) r. Proof. unfold value_after. apply fold_left_app. Qed.
Lemma w_run_app l r s : w_run s (l ++ r) = w_run (w_run s l) r. Proof. unfold w_run. apply fold_left_app. Qed.
Lemma waiting_settled f v : not_waiting v -> v <> waiting_value /\ is_data_change f v waiting_value = true.
Proof.
  intros [A B]. split; [intros ->; apply A; reflexivity|].
  assert (E : (sel_status (dv_status v) =? sel_status (dv_status waiting_value)) = false).
  { apply Bool.not_true_is_false. intros H. apply A. apply status_same in H; [exact H|exact B|split; vm_compute; [discriminate|reflexivity]]. }
  unfold is_data_change. rewrite E. cbn. destruct (df_trigger f =? 0); [reflexivity|]. destruct (df_trigger f =? 1); [reflexivity|]. destruct (df_trigger f =? 2); reflexivity.
Qed.
Lemma written_P l : Forall (writes_P (fun v => In v (written l))) l.
Proof.
  assert (G : forall l' , incl (written l') (written l) -> Forall (writes_P (fun v => In v (written l))) l').
  { induction l' as [|o l' IH]; intros H; [constructor|]. constructor; [destruct o; cbn; trivial; apply H; left; reflexivity|].
    apply IH. intros x I. apply H. destruct o; try exact I. right. exact I. }
  apply G. apply incl_refl.
Qed.
Lemma quiet_cut l : forall s, Forall quiet l -> none_cut s l.
Proof. induction l as [|o l IH]; intros s F; [exact Logic.I|]. inversion F; subst. split; [destruct o; try contradiction; exact Logic.I|apply IH; assumption]. Qed.
Lemma cut_app l r s : none_cut s l -> none_cut (w_run s l) r -> none_cut s (l ++ r).
Proof. revert s. induction l as [|o l IH]; intros s A B; [exact B|]. destruct A as [A1 A2]. split; [exact A1|apply IH; assumption]. Qed.
Lemma quiet_filter l : Forall quiet l -> forall g, filter_after g l = g.
Proof. induction 1 as [|o l H _ IH]; intros g; [reflexivity|]. destruct o; try contradiction; exact (IH g). Qed.
Lemma quiet_interval l : Forall quiet l -> forall g, interval_after g l = g.
Proof. induction 1 as [|o l H _ IH]; intros g; [reflexivity|]. destruct o; try contradiction; exact (IH g). Qed.
Lemma quiet_writes P l : Forall quiet l -> Forall (writes_P P) l.
Proof. induction 1 as [|o l H _ IH]; constructor; [destruct o; try contradiction; exact Logic.I|exact IH]. Qed.
Lemma value_in l : forall c, In (value_after c l) (c :: written l).
Proof.
  induction l as [|o l IH]; intros c; [left; reflexivity|]. destruct o as [w| | | | | | |]; try exact (IH c). change (value_after c (WWrite w :: l)) with (value_after w l). right. exact (IH w).
Qed.
Section End_.
Variables (cur : dval) (mode : Z) (f : dfilter) (stamps ti : Z) (oldest : bool) (size now M : Z) (ops calm : list wop) (tn : Z) (resend : bool) (max : nat).
Let s0 := watch_new cur mode f stamps ti oldest size now.
Let v := value_after cur ops.
Hypothesis HC : dv_server cur <= M.
Hypothesis HN : now <= M.
Hypothesis HB : Forall (by_time M) (ops ++ calm).
Hypothesis HK : none_cut s0 ops.
Hypothesis HM : mode_after mode ops = 2.
Hypothesis HQ : Forall quiet calm.
Hypothesis HW : not_waiting v.
Hypothesis HT : M + Z.max 0 (interval_after ti ops) <= tn.
Hypothesis HX : (1024 <= max)%nat.
Lemma new_parts : wt_cur s0 = cur /\ di_mode (wt_item s0) = mode /\ di_filter (wt_item s0) = f /\ di_ti (wt_item s0) = ti /\ di_stamps (wt_item s0) = stamps.
Proof.
  unfold s0, watch_new, di_new. match goal with |- context[DataChange.start ?e ?n ?c] => destruct (start_parts e n c) as (E1 & E2 & E3 & E4 & _) end. cbn [wt_cur wt_item]. rewrite E1, E2, E3, E4. repeat split.
Qed.
Lemma ends_with_current : exists p, last_of (wt_seen (w_run s0 (ops ++ [WPollTick; WPoll] ++ calm ++ [WAvail tn resend; WTake max]))) = Some (with_timestamps stamps p) /\
  In p (cur :: written ops) /\ (p = v \/ is_data_change (filter_after f ops) v p = false).
Proof.
  destruct new_parts as (N1 & N2 & N3 & N4 & N5). apply Forall_app in HB. destruct HB as [B1 B2].
  destruct (set_run ops s0) as (A1 & A2 & A3 & A4 & A5). rewrite N1, N2, N3, N4, N5 in *. fold v in A1. rewrite HM in A2.
  pose proof (inv_run M ops s0 (inv_new M cur mode f stamps ti oldest size now HC HN) B1 HK) as I1.
  assert (O1 : In (wt_cur (w_run s0 ops)) (cur :: written ops) /\ origin (fun p => In p (cur :: written ops)) (wt_item (w_run s0 ops))).
  { apply (origin_run (fun p => In p (cur :: written ops))).
    - rewrite N1. apply in_eq.
    - apply (origin_start (fun p => In p (cur :: written ops))); [|left; reflexivity]. constructor; [constructor|left; reflexivity].
    - eapply Forall_impl; [|apply written_P]. intros o H. destruct o; try exact H. right. exact H. }
  destruct O1 as [_ O1]. rewrite !w_run_app. set (s1 := w_run s0 ops) in *.
  assert (P1 : di_polled (wt_item s1) = true) by (apply (i_polled _ _ I1); rewrite A2; discriminate).
  (* the poll *)
  set (s2 := w_run s1 [WPollTick; WPoll]).
  assert (I2 : inv M s2) by (apply inv_run; [exact I1|repeat constructor|repeat split]).
  destruct (set_run [WPollTick; WPoll] s1) as (C1 & C2 & C3 & C4 & C5). fold s2 in C1, C2, C3, C4, C5. cbn [value_after mode_after filter_after interval_after fold_left] in C1, C2, C3, C4. rewrite A1 in C1. rewrite A2 in C2. rewrite A3 in C3. rewrite A4 in C4. rewrite A5 in C5.
  assert (K2 : knows v (wt_item s2)).
  { left. unfold s2. destruct s1 as [c d seen] eqn:Es1. cbn [wt_item wt_cur] in *. unfold w_run. cbn [fold_left]. unfold w_step. cbn [item_op wt_cur wt_item wt_seen di_step]. rewrite P1. cbn [di_due].
    rewrite Nat.add_1_r. cbn [wt_item di_pre]. rewrite A1. apply last_of_app. }
  assert (O2 : origin (fun p => In p (cur :: written ops)) (wt_item s2)).
  { apply (origin_run (fun p => In p (cur :: written ops))); [rewrite A1; apply value_in|exact O1|repeat constructor]. }
  clearbody s2. clear s1 A1 A2 A3 A4 A5 I1 O1 P1.
  (* the calm *)
  destruct (quiet_run calm s2 HQ ltac:(rewrite C1; exact K2)) as (D1 & K3 & D2). rewrite C1 in *. rewrite C2 in D2.
  pose proof (inv_run M calm s2 I2 B2 (quiet_cut calm s2 HQ)) as I3.
  destruct (set_run calm s2) as (_ & _ & D3 & D4 & D5). rewrite C3 in D3. rewrite C4 in D4. rewrite C5 in D5.
  assert (Q1 : forall g, filter_after g calm = g) by (apply quiet_filter; exact HQ).
  assert (Q2 : forall g, interval_after g calm = g) by (apply quiet_interval; exact HQ).
  rewrite Q1 in D3. rewrite Q2 in D4.
  assert (O3 : origin (fun p => In p (cur :: written ops)) (wt_item (w_run s2 calm))).
  { apply (origin_run (fun p => In p (cur :: written ops))); [|exact O2|].
    - rewrite C1. apply value_in.
    - apply quiet_writes. exact HQ. }
  set (s3 := w_run s2 calm) in *. clearbody s3. clear s2 C1 C2 C3 C4 C5 K2 O2 I2.
  (* the last answer *)
  destruct s3 as [c d seen]. cbn [wt_cur wt_item wt_seen] in *. subst c.
  pose proof (available_knows v d tn resend K3) as K4. pose proof (origin_available (fun p => In p (cur :: written ops)) d tn resend v O3) as O4.
  pose proof (value_in ops cur : In v (cur :: written ops)) as VI.
  specialize (O4 VI). destruct (kept_available seen d tn resend v) as [G1 G2 G3 G4 G5 G6 G7 G8].
  specialize (G7 (i_told _ _ I3)). specialize (G8 (i_size _ _ I3)). cbn [wt_cur wt_item wt_seen] in *.
  assert (E4 : di_pre (fst (available d tn resend v)) = []).
  { unfold available. rewrite D2. cbn [Z.eqb m_disabled fst]. pose proof (sampled_drained M d tn (i_pre _ _ I3) (i_ts _ _ I3) ltac:(cbn [wt_item]; rewrite D4; exact HT)) as Z.
    destruct (_ && _ && _); exact Z. }
  unfold w_run. cbn [fold_left]. unfold w_step at 2. cbn [item_op wt_cur wt_item wt_seen di_step]. destruct (available d tn resend v) as [d' b]. cbn [fst] in *.
  rewrite app_nil_r. unfold w_step. cbn [item_op wt_cur wt_item wt_seen di_step]. rewrite G1, D2. cbn [Z.eqb Pos.eqb m_reporting negb andb].
  cbn [di_take take wt_seen]. rewrite firstn_all2 by (destruct G8; lia).
  exists (di_prev d'). unfold told in G7. rewrite G3, D5 in G7.
  assert (ST : di_prev d' = v \/ is_data_change (filter_after f ops) v (di_prev d') = false).
  { destruct K4 as [K4|[_ K4]]; [rewrite E4 in K4; discriminate|]. unfold settled in K4. rewrite G2, D3 in K4. exact K4. }
  destruct (waiting_settled (filter_after f ops) v HW) as [W1 W2].
  assert (NW : di_prev d' <> waiting_value).
  { intros E. rewrite E in ST. destruct ST as [ST|ST]; [exact (W1 (eq_sym ST))|congruence]. }
  destruct G7 as [G7|G7]; [contradiction|]. split; [exact G7|]. split; [|exact ST].
  destruct (o_prev _ _ O4) as [E|E]; [contradiction|exact E].
Qed.
End End_.

Theorem current_plain : forall mem bytemem cur mode f stamps ti oldest size now M ops calm tn resend max,
  let s0 := watch_new cur mode f stamps ti oldest size now in let v := value_after cur ops in let g := filter_after f ops in
  dv_server cur <= M -> now <= M -> Forall (by_time M) (ops ++ calm) -> none_cut s0 ops -> mode_after mode ops = 2 -> Forall quiet calm ->
  not_waiting v -> M + Z.max 0 (interval_after ti ops) <= tn -> (1024 <= max)%nat ->
  df_type g = 0 -> 0 <= df_trigger g <= 2 -> Forall (tame mem bytemem) (cur :: written ops) ->
  exists p, last_of (wt_seen (w_run s0 (ops ++ [WPollTick; WPoll] ++ calm ++ [WAvail tn resend; WTake max]))) = Some (with_timestamps stamps p) /\
    In p (cur :: written ops) /\ ~ changed (df_trigger g) v p.
Proof.
  intros mem bytemem cur mode f stamps ti oldest size now M ops calm tn resend max s0 v g HC HN HB HK HM HQ HW HT HX TY TR TA.
  destruct (ends_with_current cur mode f stamps ti oldest size now M ops calm tn resend max HC HN HB HK HM HQ HW HT HX) as (p & A & B & C).
  exists p. split; [exact A|]. split; [exact B|]. fold v g in C. rewrite Forall_forall in TA. destruct (TA p B) as (P1 & P2 & P3). destruct (TA v (value_in ops cur)) as (V1 & V2 & V3).
  destruct C as [->|C].
  - intros [H|[[_ H]|[_ H]]]; apply H; reflexivity.
  - intros H. apply (filter_exact mem bytemem (df_trigger g) g v p TR eq_refl TY V1 P1 V2 V3 P3) in H. congruence.
Qed.
Theorem current_deadband : forall cur mode f stamps ti oldest size now M ops calm tn resend max d,
  let s0 := watch_new cur mode f stamps ti oldest size now in let v := value_after cur ops in let g := filter_after f ops in
  dv_server cur <= M -> now <= M -> Forall (by_time M) (ops ++ calm) -> none_cut s0 ops -> mode_after mode ops = 2 -> Forall quiet calm ->
  not_waiting v -> M + Z.max 0 (interval_after ti ops) <= tn -> (1024 <= max)%nat ->
  df_type g = 1 -> df_trigger g = 1 \/ df_trigger g = 2 -> df_deadband g = FFin d -> double d -> 0 <= d ->
  Forall (fun u => status_code (dv_status u) /\ near (dv_value v) (dv_value u) /\ exact (dv_value v) (dv_value u)) (cur :: written ops) ->
  exists p x y, last_of (wt_seen (w_run s0 (ops ++ [WPollTick; WPoll] ++ calm ++ [WAvail tn resend; WTake max]))) = Some (with_timestamps stamps p) /\
    In p (cur :: written ops) /\ same_status (dv_status p) (dv_status v) /\ number (dv_value p) = Some y /\ number (dv_value v) = Some x /\ Z.abs (x - y) <= d.
Proof.
  intros cur mode f stamps ti oldest size now M ops calm tn resend max d s0 v g HC HN HB HK HM HQ HW HT HX TY TR DB DD D0 TA.
  destruct (ends_with_current cur mode f stamps ti oldest size now M ops calm tn resend max HC HN HB HK HM HQ HW HT HX) as (p & A & B & C).
  fold v g in C. rewrite Forall_forall in TA. destruct (TA p B) as (P1 & P2 & P3). destruct (TA v (value_in ops cur)) as (V1 & V2 & V3).
  assert (NX : exists x, number (dv_value v) = Some x) by (destruct (dv_value v) as [| | |t [| |]| | | |]; cbn in V2; try contradiction; eexists; reflexivity).
  assert (NY : exists y, number (dv_value p) = Some y).
  { destruct (dv_value v) as [| | |t [| |]| | | |]; cbn in P2; try contradiction; destruct (dv_value p) as [| | |t' [| |]| | | |]; try contradiction; eexists; reflexivity. }
  destruct NX as (x & NX). destruct NY as (y & NY). exists p, x, y. split; [exact A|]. split; [exact B|].
  destruct C as [->|C]; [rewrite NX in NY; inversion NY; subst; repeat split; try assumption; rewrite Z.sub_diag; exact D0|].
  assert (SS : same_status (dv_status v) (dv_status p) /\ (df_trigger g = 2 -> dv_source v = dv_source p)).
  { unfold is_data_change in C. split.
    - apply status_same; [exact V1|exact P1|]. destruct (sel_status (dv_status v) =? sel_status (dv_status p)); [reflexivity|]. destruct TR as [E|E]; rewrite E in C; discriminate C.
    - intros E. rewrite E in C. cbn [Z.eqb Pos.eqb] in C. destruct (Z.eqb_spec (dv_source v) (dv_source p)); [assumption|]. rewrite Bool.orb_true_r in C. discriminate C. }
  destruct SS as [S1 S2]. assert (BV : by_value g v p) by (repeat split; try apply V1; try apply P1; try exact S1; destruct TR as [E|E]; [left; exact E|right; split; [exact E|apply S2; exact E]]).
  split; [symmetry; exact S1|]. split; [exact NY|]. split; [exact NX|].
  apply Z.nlt_ge. intros L. apply (deadband_exact g v p x y d BV TY DB DD P2 P3 NX NY) in L. congruence.
Qed.

(** * Where it fails *)
(** The item believes it has told the value: it never tells it again. *)
Record believes (cur : dval) (l : list dval) (s : watch) : Prop := {
  b_cur : wt_cur s = cur; b_prev : di_prev (wt_item s) = cur; b_pre : Forall (eq cur) (di_pre (wt_item s));
  b_same : is_data_change (di_filter (wt_item s)) cur cur = false; b_all : wt_seen s ++ mq_queue (di_q (wt_item s)) = l }.
Lemma consider_same d : is_data_change (di_filter d) (di_prev d) (di_prev d) = false -> consider d (di_prev d) = d.
Proof. intros H. unfold consider. rewrite H. reflexivity. Qed.
Lemma intervals_same cur n : forall d v, di_prev d = cur -> v = cur -> Forall (eq cur) (di_pre d) -> is_data_change (di_filter d) cur cur = false ->
  di_prev (intervals n d v) = cur /\ di_filter (intervals n d v) = di_filter d /\ di_q (intervals n d v) = di_q d.
Proof.
  induction n as [|n IH]; intros d v A B C D; [repeat split; exact A|]. cbn [intervals]. destruct (peek_split (di_ts d) (di_pre d) v) as (t & E & L).
  destruct (peek _ _ _) as [v' rest]. cbn [fst snd] in *. rewrite E in C. apply Forall_app in C. destruct C as [C1 C2].
  assert (V : v' = cur). { rewrite L. clear - B C1. revert v B. induction t as [|p t IH]; intros v B; [exact B|]. inversion C1; subst. rewrite last_cons. apply IH; [assumption|reflexivity]. }
  clear L. subst v'. set (e := set_pre d rest (di_ts d)). assert (X : consider e cur = e) by (rewrite <- A; apply (consider_same e); cbn; rewrite A; exact D). rewrite X.
  destruct (IH (set_pre e (di_pre e) (di_ts e + di_ti e)) cur A eq_refl C2 D) as (F1 & F2 & F3). rewrite F1, F2, F3. repeat split.
Qed.
Lemma fold_same cur l : forall d, Forall (eq cur) l -> di_prev d = cur -> is_data_change (di_filter d) cur cur = false -> fold_left consider l d = d.
Proof.
  induction l as [|v l IH]; intros d F P D; [reflexivity|]. inversion F; subst v. cbn [fold_left]. rewrite <- P at 1. rewrite consider_same by (rewrite P; exact D). apply IH; assumption.
Qed.
Lemma sampled_same cur d tn : di_prev d = cur -> Forall (eq cur) (di_pre d) -> is_data_change (di_filter d) cur cur = false ->
  di_prev (sampled d tn) = cur /\ di_filter (sampled d tn) = di_filter d /\ di_q (sampled d tn) = di_q d.
Proof.
  intros A B C. unfold sampled. destruct (0 <? di_ti d); [apply intervals_same; assumption|]. unfold each. rewrite (fold_same cur) by assumption. repeat split. exact A.
Qed.
Lemma believes_step cur l s o : quiet o -> no_resend o -> believes cur l s -> believes cur l (w_step s o).
Proof.
  intros Q R [A B C D E]. destruct s as [c d seen]. cbn [wt_cur wt_item wt_seen] in *. subst c. destruct o as [v| | |tn resend|max| |m now|f ti oldest size now]; try contradiction; unfold w_step; cbn [item_op wt_cur wt_item wt_seen di_step].
  - rewrite app_nil_r. constructor; auto.
  - rewrite app_nil_r. destruct (di_due d); constructor; auto. cbn. apply Forall_app. split; [exact C|constructor; [reflexivity|constructor]].
  - destruct resend; [contradiction|]. unfold available. destruct (_ =? _); [rewrite app_nil_r; constructor; auto|]. cbn [andb]. destruct (sampled_same cur d tn B C D) as (F1 & F2 & F3).
    rewrite app_nil_r. constructor; cbn [wt_cur wt_item wt_seen]; auto; [apply sampled_pre; exact C|rewrite F2; exact D|rewrite F3; exact E].
  - destruct (negb _ && negb _); [rewrite app_nil_r; constructor; auto|]. constructor; cbn [wt_cur wt_item wt_seen]; auto. cbn. rewrite <- app_assoc, firstn_skipn. exact E.
  - rewrite app_nil_r. constructor; auto.
Qed.
Lemma believes_run cur l ops : forall s, Forall quiet ops -> Forall no_resend ops -> believes cur l s -> believes cur l (w_run s ops).
Proof. induction ops as [|o ops IH]; intros s Q R B; [exact B|]. inversion Q; inversion R; subst. cbn. apply IH; auto. apply believes_step; assumption. Qed.
Lemma cut_queue : forall calm, Forall quiet calm -> Forall no_resend calm ->
  let s := w_run (watch_new (an_int 1 0) 2 status_value 2 0 false 3 0) ([WAvail 1 false; WWrite (an_int 2 2); WPollTick; WPoll; WAvail 3 false; WModify status_value 0 false 1 4] ++ calm) in
  wt_cur s = an_int 2 2 /\ ~ In (an_int 2 2) (wt_seen s).
Proof.
  intros calm Q R. cbv zeta. rewrite w_run_app. set (s1 := w_run _ [_; _; _; _; _; _]).
  assert (B : believes (an_int 2 2) [an_int 1 0] s1) by (constructor; vm_compute; repeat constructor). clearbody s1.
  destruct (believes_run _ _ calm s1 Q R B) as [A1 _ _ _ A5]. split; [exact A1|]. intros H.
  assert (I1 : In (an_int 2 2) [an_int 1 0]) by (rewrite <- A5; apply in_or_app; left; exact H). destruct I1 as [I1|[]]. discriminate I1.
Qed.

(** A value stamped with a time to come keeps all later values waiting. *)
Record blocked (T : Z) (l : list dval) (s : watch) : Prop := {
  x_pre : exists p r, di_pre (wt_item s) = p :: r /\ T <= dv_server p; x_ti : 0 < di_ti (wt_item s);
  x_same : is_data_change (di_filter (wt_item s)) (di_prev (wt_item s)) (di_prev (wt_item s)) = false;
  x_all : wt_seen s ++ mq_queue (di_q (wt_item s)) = l }.
Lemma intervals_blocked T p r n : forall d, di_pre d = p :: r -> T <= dv_server p -> 0 < di_ti d -> di_ts d + Z.of_nat n * di_ti d < T + di_ti d ->
  is_data_change (di_filter d) (di_prev d) (di_prev d) = false -> intervals n d (di_prev d) = set_pre d (di_pre d) (di_ts d + Z.of_nat n * di_ti d).
Proof.
  induction n as [|n IH]; intros d P Q A B C.
  - cbn. rewrite Z.add_0_r. destruct d; reflexivity.
  - rewrite Nat2Z.inj_succ in *. cbn [intervals]. rewrite P. cbn [peek]. rewrite (proj2 (Z.leb_gt _ _)) by nia. rewrite <- P.
    set (e := set_pre d (di_pre d) (di_ts d)). change (di_prev d) with (di_prev e). rewrite (consider_same e) by exact C.
    change (di_prev e) with (di_prev (set_pre e (di_pre e) (di_ts e + di_ti e))). rewrite IH; [|exact P|exact Q|exact A|cbn; lia|exact C].
    replace (di_ts d + Z.succ (Z.of_nat n) * di_ti d) with (di_ts d + di_ti d + Z.of_nat n * di_ti d) by lia. reflexivity.
Qed.
Lemma blocked_step T l s o : no_change o -> no_resend o -> by_time (T - 1) o -> blocked T l s -> blocked T l (w_step s o).
Proof.
  intros N R B [(p & r & X1 & X2) A C E]. destruct s as [cur d seen]. cbn [wt_cur wt_item wt_seen] in *. destruct o as [v| | |tn resend|max| |m now|f ti oldest size now]; try contradiction; unfold w_step; cbn [item_op wt_cur wt_item wt_seen di_step].
  - constructor; auto. exists p, r. split; assumption.
  - rewrite app_nil_r. constructor; auto. exists p, r. split; assumption.
  - rewrite app_nil_r. destruct (di_due d); constructor; auto; [exists p, r; split; assumption|]. exists p, (r ++ [cur]). split; [cbn; rewrite X1; reflexivity|exact X2].
  - destruct resend; [contradiction|]. unfold available. destruct (_ =? _); [rewrite app_nil_r; constructor; auto; exists p, r; split; assumption|]. cbn [andb]. rewrite app_nil_r. cbn in B.
    assert (Y : exists t, sampled d tn = set_pre d (di_pre d) t).
    { unfold sampled. rewrite (proj2 (Z.ltb_lt _ _) A). destruct (tn <? di_ts d) eqn:F.
      - exists (di_ts d). unfold turns. rewrite F. destruct d; reflexivity.
      - destruct (turns_end (di_ts d) (di_ti d) tn A F) as (n & -> & G). eexists. apply (intervals_blocked T p r); auto. rewrite Nat2Z.inj_succ in *. lia. }
    destruct Y as (t & ->). constructor; auto. exists p, r. split; assumption.
  - destruct (negb _ && negb _); [rewrite app_nil_r; constructor; auto; exists p, r; split; assumption|]. constructor; auto; [exists p, r; split; assumption|]. cbn. rewrite <- app_assoc, firstn_skipn. exact E.
  - rewrite app_nil_r. constructor; auto. exists p, r. split; assumption.
Qed.
Lemma blocked_run T l ops : forall s, Forall no_change ops -> Forall no_resend ops -> Forall (by_time (T - 1)) ops -> blocked T l s -> blocked T l (w_run s ops).
Proof. induction ops as [|o ops IH]; intros s N R B X; [exact X|]. inversion N; inversion R; inversion B; subst. cbn. apply IH; auto. apply blocked_step; assumption. Qed.
Lemma future_stamp : forall T l, 10 <= T -> Forall no_change l -> Forall no_resend l -> Forall (by_time (T - 1)) l ->
  let s := w_run (watch_new (an_int 1 0) 2 status_value 2 5 true 3 0) ([WAvail 1 false; WTake 10; WWrite (an_int 2 T); WPollTick; WPoll] ++ l) in
  wt_seen s = [an_int 1 0].
Proof.
  intros T l HT N R B. cbv zeta. rewrite w_run_app. set (s1 := w_run _ [_; _; _; _; _]).
  assert (E : s1 = mkWatch (an_int 2 T) (mkDi 2 status_value 2 5 5 (an_int 1 0) [an_int 2 T] (mkMq 3 true []) false true 0) [an_int 1 0]) by reflexivity. clearbody s1.
  pose proof (blocked_run T [an_int 1 0] l s1 N R B) as X.
  destruct X as [X1 X2 X3 X4].
  { rewrite E. constructor; cbn; try reflexivity. eexists _, _. split; [reflexivity|]. cbn. lia. }
  assert (P : forall ops s a, wt_seen s = a -> exists b, wt_seen (w_run s ops) = a ++ b).
  { induction ops as [|o ops IH]; intros s a H; [exists []; rewrite app_nil_r; exact H|]. cbn.
    assert (Q : exists c, wt_seen (w_step s o) = a ++ c).
    { unfold w_step. destruct (item_op _ _) as [q|]; [|destruct o; exists []; rewrite app_nil_r; exact H]. destruct (di_step _ _) as [e v]. cbn. rewrite H. eexists. reflexivity. }
    destruct Q as (c & Q). destruct (IH _ _ Q) as (b & Eb). exists (c ++ b). unfold w_run in Eb. rewrite Eb. apply eq_sym, app_assoc. }
  destruct (P l s1 [an_int 1 0] ltac:(rewrite E; reflexivity)) as (b & Pb). rewrite Pb in X4. rewrite Pb. destruct b; [reflexivity|discriminate X4].
Qed.

(** * Order *)
Lemma stutter_refl {A} (l : list A) : stutter l l.
Proof. induction l; [constructor|]. apply st_take, st_skip. exact IHl. Qed.
Lemma stutter_trans {A} (a b c : list A) : stutter a b -> stutter b c -> stutter a c.
Proof.
  intros H. revert c. induction H as [h|x h l H IH|x h l H IH]; intros c K.
  - remember [] as e. revert Heqe. induction K; intros E; try discriminate; constructor.
  - remember (x :: l) as e. revert Heqe. induction K as [h'|y h' l' K IHK|y h' l' K IHK]; intros E; [constructor| |].
    + inversion E; subst. apply st_take. apply IHK. reflexivity.
    + inversion E; subst. apply IH. exact K.
  - apply st_skip. apply IH. exact K.
Qed.
Lemma stutter_app {A} (a a' b b' : list A) : stutter a a' -> stutter b b' -> stutter (a ++ b) (a' ++ b').
Proof.
  intros H K. induction H as [h|x h l H IH|x h l H IH].
  - induction h as [|x h IHh]; [exact K|apply st_skip; exact IHh].
  - apply st_take. exact IH.
  - apply st_skip. exact IH.
Qed.
Lemma stutter_drop {A} (a b : list A) : stutter (a ++ b) b. Proof. apply (stutter_app a [] b b); [constructor|apply stutter_refl]. Qed.
Lemma stutter_keep {A} (a b : list A) : stutter (a ++ b) a. Proof. rewrite <- (app_nil_r a) at 2. apply stutter_app; [apply stutter_refl|constructor]. Qed.
Lemma stutter_twice {A} (x : A) : stutter [x] [x; x]. Proof. apply st_take, st_take. constructor. Qed.
Lemma stutter_map {A B} (g : A -> B) a b : stutter a b -> stutter (map g a) (map g b).
Proof. induction 1; cbn; constructor; assumption. Qed.
Lemma pop_front_stutter {A} n (q : list A) : stutter q (pop_front n q).
Proof. destruct (pop_front_last n q) as (a & E & _). rewrite E at 1. apply stutter_drop. Qed.
Lemma pop_back_stutter {A} n (q : list A) : stutter q (pop_back n q).
Proof.
  unfold pop_back. destruct (pop_front_last n (rev q)) as (a & E & _). rewrite <- (rev_involutive q) at 1. rewrite E at 1. rewrite rev_app_distr. apply stutter_keep.
Qed.
Lemma trim_stutter {A} b n (q : list A) : stutter q (trim b n q).
Proof. destruct b; [apply pop_front_stutter|apply pop_back_stutter]. Qed.
Section Order.
Variable stamps : Z.
Let w := with_timestamps stamps.
(** What the item holds, first to last, [m] being the value told last, if any *)
Definition line (m : list dval) (d : ditem) : list dval := mq_queue (di_q d) ++ m ++ map w (di_pre d).
(** [m] is the value told last *)
Definition memo (m : list dval) (d : ditem) : Prop := di_prev d = waiting_value \/ m = [w (di_prev d)].
Lemma usual_waiting f : usual f -> is_data_change f waiting_value waiting_value = false.
Proof.
  intros [A B]. unfold is_data_change, value_change. rewrite Z.eqb_refl, Z.eqb_refl. cbn.
  assert (T : df_trigger f = 0 \/ df_trigger f = 1 \/ df_trigger f = 2) by lia. destruct T as [-> |[-> | ->]]; destruct B as [-> | ->]; reflexivity.
Qed.
(** Nothing new: the value told last, or one that does not differ from it *)
Definition stale (d : ditem) (v : dval) : Prop := v = di_prev d \/ is_data_change (di_filter d) v (di_prev d) = false.
Lemma consider_order d v m x : di_stamps d = stamps -> usual (di_filter d) -> memo m d -> stale d v \/ stutter x [w v] -> exists m', memo m' (consider d v) /\
  stutter (mq_queue (di_q d) ++ m ++ x) (mq_queue (di_q (consider d v)) ++ m') /\ stale (consider d v) v.
Proof.
  intros S U M V. unfold consider. destruct (is_data_change (di_filter d) v (di_prev d)) eqn:E.
  - exists [w v]. split; [right; reflexivity|]. split; [|left; reflexivity]. cbn [put di_q mq_step mq_queue]. unfold enqueue. rewrite S, <- app_assoc.
    apply stutter_app; [apply trim_stutter|]. change (stutter (m ++ x) [w v; w v]). destruct V as [[V|V]|V]; [|congruence|].
    + destruct M as [M|M]; [rewrite V, M in E; rewrite usual_waiting in E by exact U; discriminate E|]. rewrite M, V. eapply stutter_trans; [apply stutter_keep|apply stutter_twice].
    + eapply stutter_trans; [apply stutter_drop|]. eapply stutter_trans; [exact V|apply stutter_twice].
  - exists m. split; [exact M|]. split; [|right; exact E]. apply stutter_app; [apply stutter_refl|apply stutter_keep].
Qed.
Lemma stutter_last a v : a <> [] -> stutter (map w a) [w (last a v)].
Proof. intros N. rewrite (app_removelast_last v N) at 1. rewrite map_app. apply stutter_drop. Qed.
Lemma intervals_order n : forall d v m, di_stamps d = stamps -> usual (di_filter d) -> memo m d -> stale d v -> exists m', memo m' (intervals n d v) /\
  stutter (mq_queue (di_q d) ++ m ++ map w (di_pre d)) (mq_queue (di_q (intervals n d v)) ++ m' ++ map w (di_pre (intervals n d v))).
Proof.
  induction n as [|n IH]; intros d v m S U M C; [exists m; split; [exact M|apply stutter_refl]|]. cbn [intervals].
  destruct (peek_split (di_ts d) (di_pre d) v) as (t & E & L). destruct (peek _ _ _) as [v' rest]. cbn [fst snd] in *.
  set (e := set_pre d rest (di_ts d)).
  destruct (consider_order e v' m (map w t) S U M) as (m1 & M1 & T1 & C1).
  { destruct t as [|a t]; [left; rewrite L; exact C|right]. rewrite L. apply stutter_last. discriminate. }
  destruct (consider_pre e v') as (P & _ & _). pose proof (kept_consider [] e v') as K.
  destruct (IH (set_pre (consider e v') (di_pre (consider e v')) (di_ts (consider e v') + di_ti (consider e v'))) v' m1) as (m2 & M2 & T2).
  - cbn [set_pre di_stamps]. rewrite (k_stamps _ _ _ K). exact S.
  - cbn [set_pre di_filter]. rewrite (k_filter _ _ _ K). exact U.
  - exact M1.
  - exact C1.
  - exists m2. split; [exact M2|]. eapply stutter_trans; [|exact T2]. cbn [set_pre di_q di_pre]. rewrite P, E, map_app. cbn [e set_pre di_pre]. rewrite !app_assoc. apply stutter_app; [|apply stutter_refl].
    rewrite <- !app_assoc. exact T1.
Qed.
Lemma fold_order l : forall d m, di_stamps d = stamps -> usual (di_filter d) -> memo m d -> exists m', memo m' (fold_left consider l d) /\
  stutter (mq_queue (di_q d) ++ m ++ map w l) (mq_queue (di_q (fold_left consider l d)) ++ m').
Proof.
  induction l as [|v l IH]; intros d m S U M; [exists m; split; [exact M|]; rewrite app_nil_r; apply stutter_refl|]. cbn [fold_left map].
  destruct (consider_order d v m [w v] S U M (or_intror (stutter_refl _))) as (m1 & M1 & T1 & _). pose proof (kept_consider [] d v) as K.
  destruct (IH (consider d v) m1) as (m2 & M2 & T2); [rewrite (k_stamps _ _ _ K); exact S|rewrite (k_filter _ _ _ K); exact U|exact M1|].
  exists m2. split; [exact M2|]. eapply stutter_trans; [|exact T2]. change (w v :: map w l) with ([w v] ++ map w l). rewrite !app_assoc. apply stutter_app; [|apply stutter_refl]. rewrite <- app_assoc. exact T1.
Qed.
Lemma sampled_order d m tn : di_stamps d = stamps -> usual (di_filter d) -> memo m d -> exists m', memo m' (sampled d tn) /\
  stutter (mq_queue (di_q d) ++ m ++ map w (di_pre d)) (mq_queue (di_q (sampled d tn)) ++ m' ++ map w (di_pre (sampled d tn))).
Proof.
  intros S U M. unfold sampled. destruct (0 <? di_ti d); [apply intervals_order; try assumption; left; reflexivity|]. unfold each.
  destruct (fold_order (di_pre d) (set_pre d [] (di_ts d)) m S U M) as (m1 & M1 & T1). exists m1. split; [exact M1|]. rewrite fold_pre. cbn [set_pre di_pre map]. rewrite app_nil_r. exact T1.
Qed.
Record ordered (h : list dval) (s : watch) : Prop := {
  r_stamps : di_stamps (wt_item s) = stamps; r_usual : usual (di_filter (wt_item s));
  r_line : exists m, memo m (wt_item s) /\ stutter (map w h) (wt_seen s ++ (mq_queue (di_q (wt_item s)) ++ m ++ map w (di_pre (wt_item s))) ++ [w (wt_cur s)]) }.
Lemma start_order d now cur m : stutter ((mq_queue (di_q d) ++ m ++ map w (di_pre d)) ++ [w cur])
  ((mq_queue (di_q (DataChange.start d now cur)) ++ m ++ map w (di_pre (DataChange.start d now cur))) ++ [w cur]).
Proof.
  destruct (start_parts d now cur) as (E1 & E2 & E3 & E4 & E5 & E6 & E7 & E8 & E9). rewrite E6, E8. destruct (_ =? _); [apply stutter_refl|]. rewrite map_app, <- !app_assoc.
  do 3 (apply stutter_app; [apply stutter_refl|]). apply stutter_twice.
Qed.
Lemma ordered_step h s o : no_resend o -> usual_op o -> ordered h s -> ordered (h ++ written [o]) (w_step s o).
Proof.
  intros N UO [S U (m & M & T)]. destruct (set_step s o) as (_ & _ & F & _ & G).
  assert (S' : di_stamps (wt_item (w_step s o)) = stamps) by congruence.
  assert (U' : usual (di_filter (wt_item (w_step s o)))) by (rewrite F; destruct o; cbn; try exact U; exact UO). clear F G. constructor; [exact S'|exact U'|]. clear S' U'.
  destruct s as [cur d seen]. cbn [wt_cur wt_item wt_seen] in *. destruct o as [v| | |tn resend|max| |md now|f ti oldest size now]; unfold w_step; cbn [item_op wt_cur wt_item wt_seen di_step written]; rewrite ?(app_nil_r h).
  - exists m. split; [exact M|]. rewrite map_app. rewrite app_assoc. apply stutter_app; [|apply stutter_refl]. eapply stutter_trans; [exact T|]. rewrite app_assoc. apply stutter_keep.
  - exists m. split; [exact M|]. rewrite app_nil_r. exact T.
  - exists m. split; [destruct (di_due d); exact M|]. rewrite app_nil_r. eapply stutter_trans; [exact T|]. apply stutter_app; [apply stutter_refl|].
    destruct (di_due d); [apply stutter_refl|]. cbn [di_q di_pre]. rewrite map_app, <- !app_assoc. do 3 (apply stutter_app; [apply stutter_refl|]). apply stutter_twice.
  - destruct resend; [contradiction|]. unfold available. destruct (_ =? _); [exists m; split; [exact M|]; rewrite app_nil_r; exact T|]. cbn [andb].
    destruct (sampled_order d m tn S U M) as (m1 & M1 & T1). exists m1. split; [exact M1|]. rewrite app_nil_r. eapply stutter_trans; [exact T|]. apply stutter_app; [apply stutter_refl|].
    apply stutter_app; [exact T1|apply stutter_refl].
  - destruct (negb _ && negb _); [exists m; split; [exact M|]; rewrite app_nil_r; exact T|]. exists m. split; [exact M|]. cbn [di_take take wt_item wt_seen wt_cur di_q mq_step mq_queue fst snd di_pre]. 
    rewrite <- (firstn_skipn max (mq_queue (di_q d))) in T at 1. rewrite <- !app_assoc in *. exact T.
  - exists m. split; [exact M|]. rewrite app_nil_r. exact T.
  - destruct (di_mode d =? md); [exists m; split; [exact M|]; rewrite app_nil_r; exact T|]. destruct (md =? m_disabled).
    + match goal with |- context[DataChange.start ?e now cur] => set (e0 := e); destruct (start_parts e0 now cur) as (E1 & E2 & E3 & E4 & E5 & _); pose proof (start_order e0 now cur m) as O1 end.
      exists m. cbn [wt_item wt_seen wt_cur]. split; [left; rewrite E5; reflexivity|]. rewrite app_nil_r. eapply stutter_trans; [exact T|]. apply stutter_app; [apply stutter_refl|].
      eapply stutter_trans; [|exact O1]. apply stutter_app; [|apply stutter_refl]. cbn [e0 di_q mq_step mq_queue di_pre app]. apply stutter_drop.
    + match goal with |- context[DataChange.start ?e now cur] => set (e0 := e); destruct (start_parts e0 now cur) as (E1 & E2 & E3 & E4 & E5 & _); pose proof (start_order e0 now cur m) as O1 end.
      exists m. cbn [wt_item wt_seen wt_cur]. split; [unfold memo; rewrite E5; exact M|]. rewrite app_nil_r. eapply stutter_trans; [exact T|]. apply stutter_app; [apply stutter_refl|]. exact O1.
  - match goal with |- context[DataChange.start ?e now cur] => set (e0 := e); destruct (start_parts e0 now cur) as (E1 & E2 & E3 & E4 & E5 & _); pose proof (start_order e0 now cur m) as O1 end.
    exists m. cbn [wt_item wt_seen wt_cur]. split; [unfold memo; rewrite E5; exact M|]. rewrite app_nil_r. eapply stutter_trans; [exact T|]. apply stutter_app; [apply stutter_refl|].
    eapply stutter_trans; [|exact O1]. apply stutter_app; [|apply stutter_refl]. apply stutter_app; [|apply stutter_refl]. cbn [e0 di_q mq_step mq_queue]. apply trim_stutter.
Qed.
Lemma ordered_run l : forall h s, Forall no_resend l -> Forall usual_op l -> ordered h s -> ordered (h ++ written l) (w_run s l).
Proof.
  induction l as [|o l IH]; intros h s N U O; [rewrite app_nil_r; exact O|]. inversion N; inversion U; subst. cbn [w_run fold_left].
  replace (h ++ written (o :: l)) with ((h ++ written [o]) ++ written l) by (rewrite <- app_assoc; f_equal; destruct o; reflexivity). apply IH; auto. apply ordered_step; auto.
Qed.
End Order.
Theorem in_order : forall cur mode f stamps ti oldest size now ops, usual f -> Forall usual_op ops -> Forall no_resend ops ->
  stutter (map (with_timestamps stamps) (cur :: written ops)) (wt_seen (w_run (watch_new cur mode f stamps ti oldest size now) ops)).
Proof.
  intros cur mode f stamps ti oldest size now ops U UO N.
  assert (O : ordered stamps [cur] (watch_new cur mode f stamps ti oldest size now)).
  { unfold watch_new, di_new. match goal with |- context[DataChange.start ?e ?n ?c] => set (e0 := e); destruct (start_parts e0 n c) as (E1 & E2 & E3 & E4 & E5 & E6 & E7 & E8 & _) end.
    constructor; cbn [wt_item wt_seen wt_cur]; [exact E3|rewrite E2; exact U|]. exists []. split; [left; exact E5|]. rewrite E6, E8. cbn [e0 di_q mq_init mq_queue di_pre di_mode app]. destruct (_ =? _); cbn.
    - apply stutter_refl.
    - apply stutter_twice. }
  destruct (ordered_run stamps ops [cur] _ N UO O) as [_ _ (m & _ & T)]. eapply stutter_trans; [exact T|]. apply stutter_keep.
Qed.
(** When the subscription resends, the item tells the current value before one that waits. *)
Lemma resend_order : exists ops, Forall no_change ops /\ Forall (by_time 100) ops /\
  ~ stutter (map (with_timestamps 2) (an_int 1 0 :: written ops)) (wt_seen (w_run (watch_new (an_int 1 0) 2 status_value 2 50 true 3 0) ops)).
Proof.
  exists [WAvail 1 false; WTake 10; WWrite (an_int 2 20); WPollTick; WPoll; WWrite (an_int 3 30); WAvail 40 true; WTake 10; WAvail 60 false; WTake 10].
  split; [repeat constructor|]. split; [repeat constructor; cbn; lia|]. intros H.
  assert (E : wt_seen (w_run (watch_new (an_int 1 0) 2 status_value 2 50 true 3 0) [WAvail 1 false; WTake 10; WWrite (an_int 2 20); WPollTick; WPoll; WWrite (an_int 3 30); WAvail 40 true; WTake 10; WAvail 60 false; WTake 10])
    = [an_int 1 0; an_int 3 30; an_int 2 20]) by (vm_compute; reflexivity).
  rewrite E in H. apply (stutter_map (fun v => match dv_value v with MInt _ z => z | _ => 0 end)) in H. cbn in H. clear E.
  repeat match goal with H : stutter _ (_ :: _) |- _ => inversion H; subst; clear H; try discriminate end.
Qed.
