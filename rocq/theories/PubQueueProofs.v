From Coq Require Import ZArith List Bool Lia.
From Coq Require Import ZifyBool ZifyNat ZifyN.
From Verif Require Import PubQueue PubQueueSpec.
Import ListNotations.
Open Scope Z_scope.

Section A.
  Variable alive : preq -> bool.
  Notation step := (pq_step alive).
  Lemma pq_len s o : (length (pq_queue s) <= pubq_cap)%nat -> (length (pq_queue (step s o)) <= pubq_cap)%nat.
  Proof.
    destruct s as [q op a l]; cbn [pq_queue]. intros H. destruct o; cbn [pq_step pq_adder pq_queue pq_open pq_log].
    - destruct a; exact H.
    - destruct a; try exact H. destruct (_ && _) eqn:E; cbn [pq_queue]; [|exact H]. rewrite app_length; cbn [length]. lia.
    - destruct a; try exact H. destruct q as [|x q]; [exact H|]. cbn [length] in H. destruct (alive x); cbn [pq_queue]; lia.
    - destruct q as [|x q]; [exact H|]. cbn [length] in H. destruct (_ <? now); [destruct (alive x)|]; cbn [pq_queue]; lia.
    - cbn. lia.
  Qed.
  Lemma pq_bound ops : (length (pq_queue (pq_run alive ops)) <= 64)%nat.
  Proof.
    unfold pq_run. change 64%nat with pubq_cap. assert (H : (length (pq_queue pubq_init) <= pubq_cap)%nat) by (cbn; lia).
    revert H. generalize pubq_init. induction ops as [|o ops IH]; intros s H; [exact H|]. cbn [fold_left]. apply IH, pq_len, H.
  Qed.

  (** answers are the right ones *)
  Definition answer_ok (now : Z) (e : preq * panswer) : Prop :=
    match snd e with PubTimeout => pr_deadline (fst e) < now | Used => now <= pr_deadline (fst e) | TooManyPublishRequests => False end.
  Lemma take_answer s now : pq_log (step s (PTake now)) = pq_log s \/
    exists x q, pq_queue s = x :: q /\ pq_queue (step s (PTake now)) = q /\
      pq_log (step s (PTake now)) = pq_log s ++ [(x, if pr_deadline x <? now then PubTimeout else Used)].
  Proof.
    destruct s as [q op a l]. cbn [pq_step pq_queue pq_log]. destruct q as [|x q]; [now left|].
    destruct (_ <? now) eqn:E.
    - destruct (alive x); [right; exists x, q|left; reflexivity]. cbn. rewrite E. auto.
    - right; exists x, q. cbn. rewrite E. auto.
  Qed.
  Lemma add_full q op l r x q' : alive x = true -> op = true -> length q = 64%nat -> q = x :: q' ->
    fold_left step [PAdd r; PSelect; PDrop; PSelect] (mkPubq q op AIdle l) =
    mkPubq (q' ++ [r]) op AIdle (l ++ [(x, TooManyPublishRequests)]).
  Proof.
    intros Ha -> Hl ->. cbn [fold_left pq_step pq_adder pq_queue pq_open pq_log]. cbn [length] in Hl.
    replace (length (x :: q') <? pubq_cap)%nat with false by (cbn [length]; unfold pubq_cap; lia). cbn [andb].
    cbn [pq_step pq_adder pq_queue pq_open pq_log]. rewrite Ha. cbn [pq_step pq_adder pq_queue pq_open pq_log].
    replace (length q' <? pubq_cap)%nat with true by (unfold pubq_cap; lia). reflexivity.
  Qed.
  Lemma add_room q l r : (length q < 64)%nat ->
    fold_left step [PAdd r; PSelect] (mkPubq q true AIdle l) = mkPubq (q ++ [r]) true AIdle l.
  Proof.
    intros H. cbn [fold_left pq_step pq_adder pq_queue pq_open pq_log].
    replace (length q <? pubq_cap)%nat with true by (unfold pubq_cap; lia). reflexivity.
  Qed.
End A.

Definition all_alive : preq -> bool := fun _ => true.
Notation stepA := (pq_step all_alive).

Lemma conserve ops : Forall not_delete ops -> forall s, pq_open s = true ->
  map fst (pq_log s) ++ pq_queue s ++ held s ++ p_arrivals all_alive s ops =
  map fst (pq_log (fold_left stepA ops s)) ++ pq_queue (fold_left stepA ops s) ++ held (fold_left stepA ops s).
Proof.
  induction ops as [|o ops IH]; intros F s Ho; [cbn [p_arrivals fold_left]; rewrite app_nil_r; reflexivity|].
  cbn [fold_left]. rewrite <- IH; [|exact (Forall_inv_tail F)|].
  2:{ apply Forall_inv in F. destruct s as [q op a l]; cbn [pq_open] in *; subst op. destruct o; cbn [pq_step pq_adder pq_queue pq_open pq_log].
      - destruct a; reflexivity.
      - destruct a; try reflexivity. destruct (_ && _); reflexivity.
      - destruct a, q; reflexivity.
      - destruct q; [reflexivity|]. destruct (_ <? now); reflexivity.
      - destruct F. }
  destruct s as [q op a l]; cbn [pq_open] in *; subst op. unfold held. cbn [p_arrivals pq_adder].
  destruct o; cbn [pq_step pq_adder pq_queue pq_open pq_log].
  - destruct a; cbn [pq_queue pq_log pq_adder app]; reflexivity.
  - destruct a; try reflexivity. destruct (_ && _); cbn [pq_queue pq_log pq_adder app]; [rewrite <- !app_assoc; reflexivity|reflexivity].
  - destruct a; try reflexivity. destruct q as [|x q]; [reflexivity|]. cbn [all_alive pq_queue pq_log pq_adder app].
    rewrite map_app. cbn [map fst]. rewrite <- app_assoc. reflexivity.
  - destruct q as [|x q]; [reflexivity|]. destruct (_ <? now); cbn [all_alive pq_queue pq_log pq_adder app]; rewrite map_app; cbn [map fst]; rewrite <- app_assoc; reflexivity.
  - apply Forall_inv in F. destruct F.
Qed.
Lemma conserve_run ops : Forall not_delete ops ->
  p_arrivals all_alive pubq_init ops = map fst (pq_log (pq_run all_alive ops)) ++ pq_queue (pq_run all_alive ops) ++ held (pq_run all_alive ops).
Proof. intros F. unfold pq_run. rewrite <- (conserve ops F pubq_init eq_refl). reflexivity. Qed.

Lemma NoDup_app_l {A} (l m : list A) : NoDup (l ++ m) -> NoDup l.
Proof.
  induction l as [|a l IH]; intros H; [constructor|]. cbn [app] in H. apply NoDup_cons_iff in H. destruct H as [H1 H2].
  constructor; [|auto]. intros Hin. apply H1, in_app_iff. now left.
Qed.
Lemma once_run ops : Forall not_delete ops -> NoDup (p_arrivals all_alive pubq_init ops) ->
  NoDup (map fst (pq_log (pq_run all_alive ops)) ++ pq_queue (pq_run all_alive ops)).
Proof. intros F N. rewrite (conserve_run ops F), app_assoc in N. exact (NoDup_app_l _ _ N). Qed.

(** nobody can free the adder once the subscriptions have emptied the queue behind its back *)
Definition stuck (r : preq) (s : pubq) : Prop := pq_adder s = AFull r /\ pq_queue s = [].
Lemma stuck_step alive r s o : stuck r s -> stuck r (pq_step alive s o).
Proof.
  destruct s as [q op a l]. intros [H1 H2]. cbn in H1, H2. subst. destruct o; cbn; split; reflexivity.
Qed.
Lemma stuck_run alive r ops : forall s, stuck r s -> stuck r (fold_left (pq_step alive) ops s).
Proof. induction ops as [|o ops IH]; intros s H; [exact H|]. cbn [fold_left]. apply IH, stuck_step, H. Qed.

Definition pnum (i : nat) : preq := mkPreq i 1000.
Definition fill (n : nat) : list pop := flat_map (fun i => [PAdd (pnum i); PSelect]) (seq 0 n).
Lemma stuck_reached : stuck (pnum 64) (pq_run all_alive (fill 64 ++ [PAdd (pnum 64); PSelect] ++ repeat (PTake 0) 64)).
Proof. vm_compute. split; reflexivity. Qed.

(** after the session is deleted a request being added never gets anywhere, and the queued ones are never answered *)
Lemma deleted_log alive ops : forall s, pq_queue s = [] -> pq_open s = false ->
  let s' := fold_left (pq_step alive) ops s in pq_queue s' = [] /\ pq_log s' = pq_log s.
Proof.
  induction ops as [|o ops IH]; intros s H1 H2; cbv zeta; [cbn; auto|]. cbn [fold_left].
  assert (G : pq_queue (pq_step alive s o) = [] /\ pq_open (pq_step alive s o) = false /\ pq_log (pq_step alive s o) = pq_log s).
  { destruct s as [q op a l]. cbn in H1, H2. subst. destruct o; cbn; auto; destruct a; cbn; auto. }
  destruct G as (G1 & G2 & G3). destruct (IH _ G1 G2) as (I1 & I2). rewrite I1, I2. auto.
Qed.
Lemma deleted_never alive s x ops : In x (pq_queue s) -> ~ In x (map fst (pq_log s)) ->
  ~ In x (map fst (pq_log (fold_left (pq_step alive) (PDelete :: ops) s))).
Proof.
  intros _ N. cbn [fold_left]. destruct (deleted_log alive ops (pq_step alive s PDelete) eq_refl eq_refl) as (_ & E).
  rewrite E. exact N.
Qed.
(** a dead channel's request at the head takes the new one with it *)
Lemma dead_takes alive q l r x q' : alive x = false -> length q = 64%nat -> q = x :: q' ->
  let s := fold_left (pq_step alive) [PAdd r; PSelect; PDrop] (mkPubq q true AIdle l) in
  pq_adder s = AIdle /\ pq_queue s = q' /\ pq_log s = l.
Proof.
  intros Ha Hl ->. cbn [fold_left pq_step pq_adder pq_queue pq_open pq_log].
  replace (length (x :: q') <? pubq_cap)%nat with false by (unfold pubq_cap; lia). cbn [andb].
  cbn [pq_step pq_adder pq_queue pq_open pq_log]. rewrite Ha. auto.
Qed.
