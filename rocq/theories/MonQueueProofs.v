(** The queue of a monitored item: size, order, what is discarded. *)
From Coq Require Import ZArith List Bool Lia.
From Coq Require Import ZifyBool ZifyNat.
From Verif Require Import MonQueue.
Import ListNotations.
Open Scope nat_scope.

Section P.
  Variable A : Type.
  Implicit Types q : list A.
  Implicit Types m : mqueue A.
  Implicit Types ops : list (mqop A).
  Implicit Types vs : list A.

  Lemma pop_front_skipn limit q : pop_front limit q = skipn (length q - limit) q.
  Proof.
    induction q as [|x q IH]; [destruct limit; reflexivity|]. cbn [pop_front]. destruct (Nat.ltb_spec limit (length (x :: q))) as [L|L].
    - rewrite IH. cbn [length] in *. replace (S (length q) - limit) with (S (length q - limit)) by lia. reflexivity.
    - replace (length (x :: q) - limit) with 0 by lia. reflexivity.
  Qed.
  Lemma rev_skipn_rev n q : rev (skipn n (rev q)) = firstn (length q - n) q.
  Proof.
    destruct (Nat.le_gt_cases (length q) n) as [L|L].
    - rewrite skipn_all2 by (rewrite rev_length; lia). replace (length q - n) with 0 by lia. reflexivity.
    - rewrite <- (firstn_skipn (length q - n) q) at 1. rewrite rev_app_distr, skipn_app.
      rewrite (skipn_all2 (rev (skipn _ _))) by (rewrite rev_length, skipn_length; lia).
      rewrite rev_length, skipn_length. replace (n - (length q - (length q - n))) with 0 by lia. cbn [skipn app]. apply rev_involutive.
  Qed.
  Lemma pop_back_firstn limit q : pop_back limit q = firstn limit q.
  Proof.
    unfold pop_back. rewrite pop_front_skipn, rev_skipn_rev, rev_length.
    destruct (Nat.le_gt_cases limit (length q)); [f_equal; lia|]. rewrite !firstn_all2 by lia. reflexivity.
  Qed.
  Lemma trim_length oldest limit q : length (trim oldest limit q) = Nat.min limit (length q).
  Proof.
    unfold trim. destruct oldest; [rewrite pop_front_skipn, skipn_length; lia|rewrite pop_back_firstn; apply firstn_length].
  Qed.
  Lemma enqueue_length oldest size q v : 1 <= size -> length q <= size -> length (enqueue oldest size q v) = Nat.min size (S (length q)).
  Proof. intros. unfold enqueue. rewrite app_length, trim_length. cbn [length]. lia. Qed.
  Lemma revised_bounds n : (1 <= revised_size n <= 1024)%Z.
  Proof. unfold revised_size, maxQueueSize. cbv zeta. destruct (1024 <? n)%Z eqn:E1; destruct (_ <? 1)%Z eqn:E2; lia. Qed.
  Lemma revised_kept n : (1 <= n <= 1024)%Z -> revised_size n = n.
  Proof. intros H. unfold revised_size, maxQueueSize. cbv zeta. destruct (1024 <? n)%Z eqn:E1; destruct (_ <? 1)%Z eqn:E2; lia. Qed.

  Definition mq_ok (m : mqueue A) : Prop := 1 <= mq_size m <= 1024 /\ length (mq_queue m) <= mq_size m.
  Lemma mq_ok_step m o : mq_ok m -> mq_ok (mq_step m o).
  Proof.
    intros [S1 S2]. destruct o; unfold mq_ok; cbn [mq_step mq_size mq_queue].
    - split; [exact S1|]. rewrite enqueue_length by lia. lia.
    - split; [exact S1|]. unfold take. cbn [fst snd]. rewrite skipn_length. lia.
    - pose proof (revised_bounds size). split; [lia|]. unfold resize. rewrite trim_length. lia.
    - split; [exact S1|]. cbn [length]. lia.
  Qed.
  Lemma mq_ok_run oldest size ops : mq_ok (mq_run oldest size ops).
  Proof.
    unfold mq_run. rewrite <- (rev_involutive ops). induction (rev ops) as [|o l IH].
    - cbn [rev fold_left]. unfold mq_ok, mq_init. cbn [mq_size mq_queue length]. pose proof (revised_bounds size). lia.
    - cbn [rev]. rewrite fold_left_app. cbn [fold_left]. apply mq_ok_step, IH.
  Qed.
  Lemma size_bound oldest size ops :
    1 <= mq_size (mq_run oldest size ops) <= 1024 /\ length (mq_queue (mq_run oldest size ops)) <= mq_size (mq_run oldest size ops).
  Proof. apply mq_ok_run. Qed.

  (** * Discard oldest *)
  Lemma enqueue_oldest size q v : 1 <= size -> enqueue true size q v = skipn (S (length q) - size) q ++ [v].
  Proof. intros H. unfold enqueue, trim. rewrite pop_front_skipn. f_equal. f_equal. lia. Qed.
  (** * Discard newest *)
  Lemma enqueue_newest size q v : enqueue false size q v = firstn (size - 1) q ++ [v].
  Proof. unfold enqueue, trim. rewrite pop_back_firstn. reflexivity. Qed.
  Lemma enqueue_room oldest size q v : length q < size -> enqueue oldest size q v = q ++ [v].
  Proof.
    intros H. destruct oldest.
    - rewrite enqueue_oldest by lia. replace (S (length q) - size) with 0 by lia. reflexivity.
    - rewrite enqueue_newest, firstn_all2 by lia. reflexivity.
  Qed.

  (** Only values put in, without takes or resizes: the newest [size] ones in order. *)
  Lemma fill_oldest size vs : 1 <= size -> forall q, length q <= size ->
    fold_left (enqueue true size) vs q = skipn (length (q ++ vs) - size) (q ++ vs).
  Proof.
    intros H. induction vs as [|v vs IH]; intros q Hq; cbn [fold_left].
    - rewrite app_nil_r. replace (length q - size) with 0 by lia. reflexivity.
    - rewrite IH by (rewrite enqueue_length; lia). rewrite enqueue_oldest by exact H.
      destruct (Nat.lt_ge_cases (length q) size) as [L|L].
      + replace (S (length q) - size) with 0 by lia. cbn [skipn]. rewrite <- app_assoc. reflexivity.
      + replace (S (length q) - size) with 1 by lia. destruct q as [|x q]; [cbn [length] in L; lia|].
        cbn [skipn]. rewrite <- app_assoc. cbn [app length].
        rewrite !app_length in *. cbn [length app] in *. replace (S (length q + S (length vs)) - size) with (S (length q + S (length vs) - size)) by lia. reflexivity.
  Qed.
  Lemma newest_kept size vs : 1 <= size -> fold_left (enqueue true size) vs [] = skipn (length vs - size) vs.
  Proof. intros H. apply (fill_oldest size vs H []). cbn [length]. lia. Qed.
  Lemma fill_newest size vs : 1 <= size -> forall q v, length q <= size - 1 ->
    fold_left (enqueue false size) vs (q ++ [v]) =
    match rev vs with [] => q ++ [v] | w :: _ => firstn (size - 1) (q ++ v :: removelast vs) ++ [w] end.
  Proof.
    intros H. induction vs as [|w vs IH] using rev_ind; intros q v Hq; [reflexivity|].
    rewrite fold_left_app. cbn [fold_left]. rewrite IH by exact Hq. rewrite rev_app_distr. cbn [rev app]. rewrite removelast_last.
    destruct vs as [|w' vs' _] using rev_ind.
    - cbn [rev]. rewrite enqueue_newest. reflexivity.
    - rewrite rev_app_distr. cbn [rev app]. rewrite enqueue_newest, removelast_last. f_equal.
      destruct (Nat.le_gt_cases (size - 1) (length (q ++ v :: vs'))) as [L|L].
      + rewrite (firstn_app _ (firstn (size - 1) (q ++ v :: vs')) [w']). rewrite firstn_firstn, Nat.min_id. rewrite firstn_length.
        replace (size - 1 - Nat.min (size - 1) (length (q ++ v :: vs'))) with 0 by lia. cbn [firstn]. rewrite app_nil_r.
        replace (q ++ v :: vs' ++ [w']) with ((q ++ v :: vs') ++ [w']) by (rewrite <- app_assoc; reflexivity).
        rewrite (firstn_app _ (q ++ v :: vs') [w']). replace (size - 1 - length (q ++ v :: vs')) with 0 by lia. cbn [firstn]. rewrite app_nil_r. reflexivity.
      + rewrite (firstn_all2 (q ++ v :: vs')) by lia. f_equal. rewrite <- app_assoc. reflexivity.
  Qed.
  (** The oldest size-1 values and the newest one. *)
  Lemma oldest_kept size vs v : 1 <= size -> size <= length vs -> fold_left (enqueue false size) (vs ++ [v]) [] = firstn (size - 1) vs ++ [v].
  Proof.
    intros H L. destruct vs as [|x vs]; [cbn [length] in L; lia|]. cbn [app fold_left].
    assert (E : enqueue false size [] x = [] ++ [x]) by (apply enqueue_room; cbn [length]; lia). rewrite E.
    rewrite fill_newest by (cbn [length]; lia). rewrite rev_app_distr. cbn [rev app]. rewrite removelast_last. reflexivity.
  Qed.

  (** With discard-oldest the queue is always the end of what was put in. *)
  Definition mq_puts (ops : list (mqop A)) : list A := flat_map (fun o => match o with MPut v => [v] | _ => [] end) ops.
  Definition keeps_oldest (o : mqop A) : Prop := match o with MResize b _ => b = true | _ => True end.
  Lemma suffix_run size ops : Forall keeps_oldest ops ->
    mq_oldest (mq_run true size ops) = true /\ exists gone, mq_puts ops = gone ++ mq_queue (mq_run true size ops).
  Proof.
    unfold mq_run. induction ops as [|o ops IH] using rev_ind; intros F.
    - split; [reflexivity|]. exists []. reflexivity.
    - apply Forall_app in F. destruct F as [F1 F2]. destruct (IH F1) as (IO & gone & IE). apply Forall_inv in F2.
      rewrite fold_left_app. cbn [fold_left]. unfold mq_puts in *. rewrite flat_map_app. cbn [flat_map]. rewrite app_nil_r.
      assert (IS := mq_ok_run true size ops). unfold mq_run in IS. destruct IS as [IS _].
      set (m := fold_left mq_step ops (mq_init true size)) in *.
      destruct o as [v|mx|b n|]; cbn [mq_step mq_oldest mq_queue]; (split; [try assumption; exact F2|]).
      + rewrite IO, enqueue_oldest by lia. exists (gone ++ firstn (S (length (mq_queue m)) - mq_size m) (mq_queue m)).
        rewrite IE, <- !app_assoc. f_equal. rewrite app_assoc, firstn_skipn. reflexivity.
      + unfold take. cbn [fst snd]. exists (gone ++ firstn mx (mq_queue m)). rewrite IE, app_nil_r, <- app_assoc, firstn_skipn. reflexivity.
      + cbn in F2. subst b. unfold resize, trim. rewrite pop_front_skipn.
        exists (gone ++ firstn (length (mq_queue m) - Z.to_nat (revised_size n)) (mq_queue m)).
        rewrite IE, app_nil_r, <- app_assoc, firstn_skipn. reflexivity.
      + exists (gone ++ mq_queue m). rewrite IE, !app_nil_r. reflexivity.
  Qed.
  (** Nothing is discarded while there is room. *)
  Lemma room_kept m v : mq_ok m -> length (mq_queue m) < mq_size m -> mq_queue (mq_step m (MPut v)) = mq_queue m ++ [v].
  Proof. intros _ H. cbn [mq_step mq_queue]. apply enqueue_room, H. Qed.
  Lemma full_stays oldest size ops v : let m := mq_run oldest size ops in
    length (mq_queue m) = mq_size m -> length (mq_queue (mq_step m (MPut v))) = mq_size m.
  Proof. cbv zeta. intros H. pose proof (mq_ok_run oldest size ops) as [S1 S2]. cbn [mq_step mq_queue]. rewrite enqueue_length by lia. lia. Qed.
  (** Whatever is handed out or waits was put in, unchanged. *)
  Lemma enqueue_in oldest size q v x : In x (enqueue oldest size q v) -> In x q \/ x = v.
  Proof.
    unfold enqueue, trim. intros H. apply in_app_iff in H. destruct H as [H|[<-|[]]]; [|now right]. left.
    destruct oldest; [rewrite pop_front_skipn in H; rewrite <- (firstn_skipn (length q - (size - 1)) q); apply in_app_iff; now right|].
    rewrite pop_back_firstn in H. rewrite <- (firstn_skipn (size - 1) q). apply in_app_iff. now left.
  Qed.
  Lemma step_in m o x : In x (mq_queue (mq_step m o)) -> In x (mq_queue m) \/ o = MPut x.
  Proof.
    destruct o as [v|mx|b n|]; cbn [mq_step mq_queue]; intros H.
    - apply enqueue_in in H. destruct H as [H|H]; [now left|right; now subst].
    - unfold take in H. cbn [fst snd] in H. left. rewrite <- (firstn_skipn mx (mq_queue m)). apply in_app_iff. now right.
    - left. unfold resize, trim in H. destruct b; [rewrite pop_front_skipn in H|rewrite pop_back_firstn in H];
        [rewrite <- (firstn_skipn (length (mq_queue m) - Z.to_nat (revised_size n)) (mq_queue m))|rewrite <- (firstn_skipn (Z.to_nat (revised_size n)) (mq_queue m))];
        apply in_app_iff; tauto.
    - destruct H.
  Qed.
  Lemma out_in ops : forall m x, In x (mq_out m ops ++ mq_queue (fold_left mq_step ops m)) -> In x (mq_queue m) \/ In (MPut x) ops.
  Proof.
    induction ops as [|o ops IH]; intros m x H; [cbn [mq_out app fold_left] in H; now left|].
    cbn [mq_out fold_left] in H. rewrite <- app_assoc in H. apply in_app_iff in H. destruct H as [H|H].
    - left. destruct o; try destruct H. unfold take in H. cbn [fst] in H. rewrite <- (firstn_skipn max (mq_queue m)). apply in_app_iff. now left.
    - apply IH in H. destruct H as [H|H]; [|right; now right]. apply step_in in H. destruct H as [H| ->]; [now left|right; now left].
  Qed.
  Lemma unchanged oldest size ops x : In x (mq_out (mq_init oldest size) ops ++ mq_queue (mq_run oldest size ops)) -> In (MPut x) ops.
  Proof. intros H. apply out_in in H. destruct H as [[]|H]. exact H. Qed.
End P.
