(** Delivery of queued values: in order, at most once, nothing forgotten. *)
From Coq Require Import ZArith List Bool Lia.
From Coq Require Import ZifyBool ZifyNat.
From Verif Require Import Bytes MonQueue MonQueueProofs Subscription SubscriptionSpec SubscriptionProofs.
Import ListNotations.
Open Scope Z_scope.

Section P.
  Context {A : Type}.
  Implicit Types s : sub A.
  Implicit Types o : sbop A.
  Implicit Types ops : list (sbop A).
  Implicit Types log : list (sbev A).
  Implicit Types items : list (item A).
  Implicit Types i : item A.

  Definition wait_in items (id : Z) : list A := match find_item items id with Some i => it_queue i | None => [] end.
  Lemma find_id items id i : find_item items id = Some i -> it_id i = id.
  Proof. intros H. apply find_some in H. destruct H as [_ H]. now apply Z.eqb_eq in H. Qed.
  Lemma find_set items i id : find_item (set_item items i) id = if it_id i =? id then match find_item items id with Some _ => Some i | None => None end else find_item items id.
  Proof.
    unfold find_item, set_item. induction items as [|x items IH]; cbn [map find]; [destruct (it_id i =? id); reflexivity|].
    destruct (Z.eqb_spec (it_id x) (it_id i)) as [E|E].
    - rewrite E. destruct (Z.eqb_spec (it_id i) id); [reflexivity|exact IH].
    - destruct (Z.eqb_spec (it_id x) id) as [E2|E2]; [|exact IH]. destruct (Z.eqb_spec (it_id i) id); [congruence|reflexivity].
  Qed.
  Lemma set_ids items i : map it_id (set_item items i) = map it_id items.
  Proof. unfold set_item. rewrite map_map. apply map_ext. intros x. destruct (Z.eqb_spec (it_id x) (it_id i)); congruence. Qed.
  Lemma wait_set items i id : wait_in (set_item items i) id = if it_id i =? id then match find_item items id with Some _ => it_queue i | None => [] end else wait_in items id.
  Proof. unfold wait_in. rewrite find_set. destruct (it_id i =? id); [|reflexivity]. destruct (find_item items id); reflexivity. Qed.

  Lemma of_item_app id (a b : list (Z * A)) : of_item id (a ++ b) = of_item id a ++ of_item id b.
  Proof. unfold of_item. rewrite filter_app, map_app. reflexivity. Qed.
  Lemma of_item_tag id j (l : list A) : of_item id (map (fun v => (j, v)) l) = if j =? id then l else [].
  Proof.
    unfold of_item. induction l as [|v l IH]; cbn [map filter fst]; [destruct (j =? id); reflexivity|].
    destruct (j =? id); cbn [map snd]; [f_equal|]; exact IH.
  Qed.

  Lemma collect_spec ord : forall max items, let '(out, more, items') := collect ord max items in
    (length out <= max)%nat /\ (forall id, of_item id out ++ wait_in items' id = wait_in items id) /\
    (forall id, find_item items' id = None <-> find_item items id = None) /\
    (forall id i', find_item items' id = Some i' -> exists i, find_item items id = Some i /\ it_mode i' = it_mode i /\ (it_queue i' <> [] -> it_triggered i' = it_triggered i)).
  Proof.
    induction ord as [|id ord IH]; intros max items; cbn [collect].
    { split; [cbn [length]; lia|]. split; [reflexivity|]. split; [reflexivity|]. intros id i' H. exists i'. auto. }
    destruct (find_item items id) as [i|] eqn:F; [|apply IH]. destruct (negb (item_ready i)) eqn:R; [apply IH|].
    unfold take. set (i' := mkItem _ _ _ _). specialize (IH (max - length (firstn max (it_queue i)))%nat (set_item items i')).
    destruct (collect ord (max - length (firstn max (it_queue i))) (set_item items i')) as [[out' more'] items'].
    destruct IH as (I1 & I2 & I3 & I4). pose proof (find_id _ _ _ F) as ID.
    split; [rewrite app_length, map_length, firstn_length in *; lia|]. split; [|split].
    - intros j. rewrite of_item_app, <- app_assoc, I2, wait_set, of_item_tag. subst i'. cbn [it_id it_queue]. rewrite ID.
      destruct (Z.eqb_spec id j) as [E|E]; [|reflexivity]. subst j. unfold wait_in. rewrite F. apply firstn_skipn.
    - intros j. rewrite I3, find_set. subst i'. cbn [it_id]. rewrite ID. destruct (Z.eqb_spec id j) as [E|E]; [|reflexivity]. subst j. rewrite F. split; discriminate.
    - intros j x Hx. destruct (I4 _ _ Hx) as (y & Hy & M1 & M2). rewrite find_set in Hy. subst i'. cbn [it_id] in Hy. rewrite ID in Hy.
      destruct (Z.eqb_spec id j) as [E|E].
      + subst j. rewrite F in Hy. injection Hy as <-. exists i. split; [exact F|]. cbn [it_mode it_triggered] in M1, M2. split; [exact M1|].
        intros NE. rewrite (M2 NE). destruct (it_triggered i); [|reflexivity]. cbn [andb].
        specialize (I2 id). unfold wait_in in I2. rewrite Hx, find_set in I2. cbn [it_id it_queue] in I2. rewrite ID, Z.eqb_refl, F in I2.
        destruct (skipn max (it_queue i)) eqn:SK; [|reflexivity]. apply app_eq_nil in I2. destruct I2. congruence.
      + exists y. auto.
  Qed.
  Definition left_in items (id : Z) : Prop := exists i, find_item items id = Some i /\ item_ready i = true /\ it_queue i <> [].
  Lemma ready_same i i' : it_mode i' = it_mode i -> it_triggered i' = it_triggered i -> item_ready i' = item_ready i.
  Proof. unfold item_ready. intros -> ->. reflexivity. Qed.
  Lemma left_back ord max items id : left_in (snd (collect ord max items)) id -> left_in items id.
  Proof.
    pose proof (collect_spec ord max items) as C. destruct (collect ord max items) as [[out more] items']. cbn [snd]. destruct C as (_ & C2 & _ & C4).
    intros (i' & F & R & Q). destruct (C4 _ _ F) as (i & Fi & M & T). exists i. split; [exact Fi|]. split; [rewrite <- R; symmetry; apply ready_same; auto|].
    specialize (C2 id). unfold wait_in in C2. rewrite F, Fi in C2. intros E. rewrite E in C2. apply app_eq_nil in C2. tauto.
  Qed.
  (** With nothing left of the limit, queues stay. *)
  Lemma left_zero ord items id : left_in items id -> left_in (snd (collect ord 0 items)) id.
  Proof.
    pose proof (collect_spec ord 0 items) as C. destruct (collect ord 0 items) as [[out more] items']. cbn [snd]. destruct C as (C1 & C2 & C3 & C4).
    intros (i & F & R & Q). destruct (find_item items' id) as [i'|] eqn:F'.
    - destruct (C4 _ _ F') as (i0 & Fi & M & T). rewrite F in Fi. injection Fi as <-. exists i'. split; [exact F'|].
      assert (Q' : it_queue i' = it_queue i). { specialize (C2 id). unfold wait_in in C2. rewrite F, F' in C2. destruct out; [exact C2|cbn [length] in C1; lia]. }
      rewrite Q'. split; [|exact Q]. rewrite <- R. apply ready_same; [exact M|]. apply T. rewrite Q'. exact Q.
    - apply C3 in F'. congruence.
  Qed.
  Lemma more_spec ord : forall max items, let '(out, more, items') := collect ord max items in
    (more = true <-> exists id, In id ord /\ left_in items' id) /\ (more = true -> length out = max).
  Proof.
    induction ord as [|id ord IH]; intros max items; cbn [collect].
    { split; [|discriminate]. split; [discriminate|]. intros (id & [] & _). }
    destruct (find_item items id) as [i|] eqn:F.
    2:{ specialize (IH max items). pose proof (collect_spec ord max items) as C. destruct (collect ord max items) as [[out more] items']. destruct IH as [IH IHL]. split; [|exact IHL].
        rewrite IH. destruct C as (_ & _ & C3 & _). split; intros (j & Hj & L); exists j; split; auto; [now right|]. destruct Hj as [<-|Hj]; [|exact Hj].
        destruct L as (x & Fx & _). apply C3 in F. congruence. }
    destruct (negb (item_ready i)) eqn:R.
    { specialize (IH max items). pose proof (left_back ord max items) as LB. destruct (collect ord max items) as [[out more] items']. cbn [snd] in LB. destruct IH as [IH IHL]. split; [|exact IHL].
      rewrite IH. split; intros (j & Hj & L); exists j; split; auto; [now right|]. destruct Hj as [<-|Hj]; [|exact Hj].
      apply LB in L. destruct L as (x & Fx & Rx & _). rewrite F in Fx. injection Fx as <-. rewrite Rx in R. discriminate. }
    unfold take. set (i' := mkItem _ _ _ _). set (n := (max - length (firstn max (it_queue i)))%nat).
    specialize (IH n (set_item items i')). pose proof (left_back ord n (set_item items i')) as LB.
    assert (LZ : forall j, n = 0%nat -> left_in (set_item items i') j -> left_in (snd (collect ord n (set_item items i'))) j) by (intros j ->; apply left_zero).
    pose proof (collect_spec ord n (set_item items i')) as C.
    destruct (collect ord n (set_item items i')) as [[out' more'] items']. cbn [snd] in LB, LZ. destruct IH as [IH IHL]. pose proof (find_id _ _ _ F) as ID.
    assert (FI : find_item (set_item items i') id = Some i') by (rewrite find_set; subst i'; cbn [it_id]; rewrite ID, Z.eqb_refl, F; reflexivity).
    assert (NN : (0 <? length (skipn max (it_queue i)))%nat = true -> n = 0%nat /\ length (firstn max (it_queue i)) = max).
    { intros H. subst n. rewrite skipn_length in H. rewrite firstn_length. lia. }
    apply negb_false_iff in R.
    split.
    - rewrite orb_true_iff, IH. split.
      + intros [H|(j & Hj & L)]; [|exists j; split; [now right|exact L]]. exists id. split; [now left|]. apply LZ; [apply NN, H|]. exists i'. split; [exact FI|].
        subst i'. cbn [it_queue]. split; [|destruct (skipn max (it_queue i)); [discriminate|discriminate]]. unfold item_ready in *. cbn [it_mode it_triggered]. rewrite H. destruct (it_mode i); auto; rewrite R; reflexivity.
      + intros (j & [<-|Hj] & L); [|right; exists j; auto]. left. apply LB in L. destruct L as (x & Fx & _ & Qx). rewrite FI in Fx. injection Fx as <-.
        subst i'. cbn [it_queue] in Qx. destruct (skipn max (it_queue i)); [congruence|reflexivity].
    - rewrite orb_true_iff. rewrite app_length, map_length. destruct C as (C1 & _). intros [H|H]; [destruct (NN H); lia|]. rewrite (IHL H). subst n. rewrite firstn_length. lia.
  Qed.
  Lemma collect_some ord : forall max items id, (1 <= max)%nat -> In id ord -> left_in items id -> fst (fst (collect ord max items)) <> [].
  Proof.
    induction ord as [|j ord IH]; intros max items id M Hin L; [destruct Hin|]. cbn [collect].
    destruct (find_item items j) as [i|] eqn:F.
    2:{ apply (IH max items id M); [|exact L]. destruct Hin as [->|H]; [|exact H]. destruct L as (x & Fx & _). congruence. }
    destruct (negb (item_ready i)) eqn:R.
    { apply (IH max items id M); [|exact L]. destruct Hin as [->|H]; [|exact H]. destruct L as (x & Fx & Rx & _). rewrite F in Fx. injection Fx as <-. rewrite Rx in R. discriminate. }
    unfold take. set (i' := mkItem _ _ _ _). specialize (IH (max - length (firstn max (it_queue i)))%nat (set_item items i') id).
    destruct (collect ord (max - length (firstn max (it_queue i))) (set_item items i')) as [[out' more'] items']. cbn [fst] in *.
    pose proof (find_id _ _ _ F) as ID. destruct (it_queue i) as [|v q] eqn:Q.
    - rewrite firstn_nil in *. cbn [length map app] in *. assert (J : id <> j). { intros ->. destruct L as (x & Fx & _ & Qx). rewrite F in Fx. injection Fx as <-. congruence. }
      apply IH; [lia|destruct Hin; [congruence|assumption]|]. destruct L as (x & Fx & Rx). exists x. split; [|exact Rx]. rewrite find_set. subst i'. cbn [it_id]. rewrite ID.
      destruct (Z.eqb_spec j id); [congruence|exact Fx].
    - destruct max; [lia|]. cbn [firstn map app]. discriminate.
  Qed.

  (** * One step *)
  Lemma subseq_nil (b : list A) : subseq [] b.
  Proof. induction b; constructor; assumption. Qed.
  Lemma subseq_refl (b : list A) : subseq b b.
  Proof. induction b; constructor; assumption. Qed.
  Lemma subseq_app (a b c d : list A) : subseq a b -> subseq c d -> subseq (a ++ c) (b ++ d).
  Proof. intros H K. induction H; cbn [app]; [exact K|constructor; assumption|constructor; assumption]. Qed.
  Lemma subseq_trans (b : list A) : forall a c, subseq a b -> subseq b c -> subseq a c.
  Proof.
    intros a c H K. revert a H. induction K as [|x b c K IH|x b c K IH]; intros a H; [exact H| |constructor; auto].
    inversion H; subst; constructor; auto.
  Qed.
  Lemma subseq_firstn k (a : list A) : subseq (firstn k a) a.
  Proof. rewrite <- (firstn_skipn k a) at 2. rewrite <- (app_nil_r (firstn k a)) at 1. apply subseq_app; [apply subseq_refl|apply subseq_nil]. Qed.
  Lemma subseq_skipn k (a : list A) : subseq (skipn k a) a.
  Proof. rewrite <- (firstn_skipn k a) at 2. change (skipn k a) with ([] ++ skipn k a) at 1. apply subseq_app; [apply subseq_nil|apply subseq_refl]. Qed.
  Lemma subseq_trim oldest size (q : list A) : subseq (trim oldest size q) q.
  Proof. unfold trim. destruct oldest; [rewrite pop_front_skipn; apply subseq_skipn|rewrite pop_back_firstn; apply subseq_firstn]. Qed.
  Lemma subseq_enqueue oldest size (q : list A) v : subseq (enqueue oldest size q v) (q ++ [v]).
  Proof.
    unfold enqueue, trim. apply subseq_app; [|apply subseq_refl]. destruct oldest; [rewrite pop_front_skipn; apply subseq_skipn|rewrite pop_back_firstn; apply subseq_firstn].
  Qed.
  Definition handed (id : Z) (e : sbev A) : list A := flat_map (fun m => of_item id (snd m)) (built e).
  Lemma find_app items i id : find_item items (it_id i) = None -> wait_in (items ++ [i]) id = if it_id i =? id then it_queue i else wait_in items id.
  Proof.
    unfold wait_in, find_item. intros N. induction items as [|x items IH]; cbn [app find] in *.
    - destruct (it_id i =? id); reflexivity.
    - destruct (Z.eqb_spec (it_id x) (it_id i)) as [E|E]; [discriminate|]. destruct (Z.eqb_spec (it_id x) id) as [E2|E2]; [|exact (IH N)].
      destruct (Z.eqb_spec (it_id i) id); [congruence|reflexivity].
  Qed.
  Lemma find_del items j id : find_item (filter (fun i => negb (it_id i =? j)) items) id = if j =? id then None else find_item items id.
  Proof.
    unfold find_item. induction items as [|x items IH]; cbn [filter find]; [destruct (j =? id); reflexivity|].
    destruct (Z.eqb_spec (it_id x) j) as [E|E]; cbn [negb find].
    - rewrite IH. destruct (Z.eqb_spec j id); [reflexivity|]. destruct (Z.eqb_spec (it_id x) id); [congruence|reflexivity].
    - destruct (Z.eqb_spec (it_id x) id) as [E2|E2]; [|exact IH]. destruct (Z.eqb_spec j id); [congruence|reflexivity].
  Qed.
  Lemma send_data_wait s ord ok late id :
    handed id (snd (send_data s ord ok late)) ++ waiting id (fst (send_data s ord ok late)) = waiting id s.
  Proof.
    unfold send_data. pose proof (collect_spec ord (Z.to_nat (sb_max_notif s)) (sb_items s)) as C.
    destruct (collect ord (Z.to_nat (sb_max_notif s)) (sb_items s)) as [[out more] items']. destruct C as (_ & C2 & _). specialize (C2 id).
    unfold wait_in in C2. destruct ok; unfold handed, waiting; cbn; rewrite app_nil_r; exact C2.
  Qed.
  Definition calm (id : Z) s o : Prop :=
    match o with
    | SPut i _ size _ => i = id -> find_item (sb_items s) id <> None /\ (length (waiting id s) < size)%nat
    | SDelItem i => i <> id
    | SItemMode i MDisabled => i <> id
    | SResize i _ size => i = id -> (length (waiting id s) <= size)%nat
    | _ => True
    end /\ sb_alive (fst (sb_step s o)) = true.
  Lemma wait_step s o id :
    subseq (handed id (snd (sb_step s o)) ++ waiting id (fst (sb_step s o))) (waiting id s ++ queued id [o]) /\
    (calm id s o -> handed id (snd (sb_step s o)) ++ waiting id (fst (sb_step s o)) = waiting id s ++ queued id [o]).
  Proof.
    assert (EQ : forall a b : list A, a = b -> subseq a b /\ (calm id s o -> a = b)) by (intros a b ->; split; [apply subseq_refl|reflexivity]).
    assert (DEAD : forall a b : list A, a = [] -> sb_alive (fst (sb_step s o)) = false -> subseq a b /\ (calm id s o -> a = b)).
    { intros a b -> D. split; [apply subseq_nil|]. intros [_ H]. congruence. }
    destruct o; cbn [queued flat_map]; rewrite ?app_nil_r.
    - unfold sb_step in *. destruct (existsb item_available (sb_items s) && sb_enabled s).
      + destruct (negb (sb_alive s)); [apply EQ; reflexivity|]. destruct r; [|apply EQ, send_data_wait|apply EQ; reflexivity].
        unfold no_request in *. cbn [sb_max_life sb_life] in *. match goal with |- context [if ?c then _ else _] => destruct c end; [apply DEAD; reflexivity|apply EQ; reflexivity].
      + cbn zeta in *. match goal with |- context [if ?c then _ else (_, EvQuiet)] => destruct c end; [|apply EQ; reflexivity].
        destruct (negb (sb_alive s)); [apply EQ; reflexivity|]. destruct r; [|destruct ok; apply EQ; reflexivity|apply EQ; reflexivity].
        unfold no_request in *. cbn [sb_max_life sb_life] in *. match goal with |- context [if ?c then _ else _] => destruct c end; [apply DEAD; reflexivity|apply EQ; reflexivity].
    - unfold sb_step. destruct (negb (sb_late s)); [apply EQ; reflexivity|]. destruct (existsb item_available (sb_items s) && sb_enabled s); [apply EQ, send_data_wait|].
      match goal with |- context [if ?c then _ else (_, EvUnhandled)] => destruct c end; [|apply EQ; reflexivity]. destruct (sb_alive s); [destruct ok|]; apply EQ; reflexivity.
    - unfold sb_step. destruct (negb (sb_alive s)); [apply EQ; reflexivity|]. destruct (remove_first n (sb_retrans s)) as [[x r]|]; apply EQ; reflexivity.
    - unfold sb_step. destruct (negb (sb_alive s)); [apply EQ; reflexivity|]. destruct (remove_first n (sb_retrans s)) as [[x r]|]; [destruct ok|]; apply EQ; reflexivity.
    - apply EQ; reflexivity.
    - unfold sb_step. destruct (negb (sb_alive s)); apply EQ; reflexivity.
    - unfold sb_step. destruct (negb (sb_alive s)); [apply EQ; reflexivity|]. destruct (find_item (sb_items s) id0) eqn:F; [apply EQ; reflexivity|].
      apply EQ. cbn. unfold waiting. cbn [with_items touch_items sb_items]. pose proof (find_app (sb_items s) (mkItem id0 m false []) id F) as FA. unfold wait_in in FA. rewrite FA.
      cbn [it_id it_queue]. destruct (Z.eqb_spec id0 id); [subst; now rewrite F|reflexivity].
    - cbn. unfold waiting. cbn [with_items touch_items sb_items]. rewrite find_del. destruct (Z.eqb_spec id0 id) as [E|E]; [|apply EQ; reflexivity].
      split; [apply subseq_nil|]. intros [H _]. congruence.
    - cbn. unfold waiting. cbn [with_items touch_items sb_items]. destruct (find_item (sb_items s) id0) as [i|] eqn:F; [|apply EQ; reflexivity].
      rewrite find_set. cbn [it_id]. destruct (Z.eqb_spec id0 id) as [E|E]; [|apply EQ; reflexivity]. subst id0. rewrite F. cbn [it_queue].
      destruct m; [|apply EQ; reflexivity|apply EQ; reflexivity]. split; [apply subseq_nil|]. intros [H _]. congruence.
    - cbn. unfold waiting. cbn [with_items touch_items sb_items]. destruct (find_item (sb_items s) id0) as [i|] eqn:F; [|apply EQ; reflexivity].
      rewrite find_set. cbn [it_id]. destruct (Z.eqb_spec id0 id) as [E|E]; [|apply EQ; reflexivity]. subst id0. rewrite F. apply EQ; reflexivity.
    - cbn. unfold waiting, calm, waiting. cbn [with_items touch_items sb_items]. destruct (find_item (sb_items s) id0) as [i|] eqn:F.
      + rewrite find_set. cbn [it_id]. destruct (Z.eqb_spec id0 id) as [E|E]; [|rewrite app_nil_r; apply EQ; reflexivity]. subst id0. rewrite F. cbn [it_queue].
        split; [apply subseq_enqueue|]. intros [H _]. apply enqueue_room, H. reflexivity.
      + destruct (Z.eqb_spec id0 id) as [E|E]; [|rewrite app_nil_r; apply EQ; reflexivity]. subst id0. rewrite F. split; [apply subseq_nil|]. intros [H _]. destruct (H eq_refl) as [N _]. congruence.
    - cbn. unfold waiting, calm, waiting. cbn [with_items touch_items sb_items]. destruct (find_item (sb_items s) id0) as [i|] eqn:F; [|apply EQ; reflexivity].
      rewrite find_set. cbn [it_id]. destruct (Z.eqb_spec id0 id) as [E|E]; [|apply EQ; reflexivity]. subst id0. rewrite F. cbn [it_queue].
      split; [apply subseq_trim|]. intros [H _]. specialize (H eq_refl). unfold resize, trim. destruct oldest; [rewrite pop_front_skipn|rewrite pop_back_firstn; now apply firstn_all2].
      replace (length (it_queue i) - size)%nat with 0%nat by lia. reflexivity.
    - unfold sb_step in *. destruct (sb_alive s) eqn:AL; [apply DEAD; [reflexivity|]|apply EQ; reflexivity]. cbn. reflexivity.
  Qed.

  (** * Histories *)
  Lemma delivered_cons id e log : delivered id (e :: log) = delivered id log ++ handed id e.
  Proof. unfold delivered, handed. rewrite messages_cons, flat_map_app. reflexivity. Qed.
  Lemma sent_cons id e log : sent id (e :: log) = sent id log ++ match e with EvData m _ _ => of_item id (snd m) | _ => [] end.
  Proof. unfold sent. cbn [rev]. rewrite flat_map_app. cbn [flat_map]. rewrite app_nil_r. reflexivity. Qed.
  Lemma sent_delivered id log : subseq (sent id log) (delivered id log).
  Proof.
    induction log as [|e log IH]; [constructor|]. rewrite delivered_cons, sent_cons. apply subseq_app; [exact IH|].
    destruct e; cbn [handed built flat_map]; try apply subseq_nil. unfold handed. cbn. rewrite app_nil_r. apply subseq_refl.
  Qed.
  Lemma sent_all id log : all_sent log -> sent id log = delivered id log.
  Proof.
    induction log as [|e log IH]; intros H; [reflexivity|]. apply all_sent_cons in H. destruct H as [U H]. rewrite delivered_cons, sent_cons, IH by exact H. f_equal.
    destruct e; try reflexivity; [unfold handed; cbn; rewrite app_nil_r; reflexivity|discriminate].
  Qed.
  Lemma queued_snoc id ops o : queued id (ops ++ [o]) = queued id ops ++ queued id [o].
  Proof. unfold queued. apply flat_map_app. Qed.
  Lemma delivered_subseq id e n k l ops : let x := sb_run (sub_init e n k l) ops in subseq (delivered id (snd x) ++ waiting id (fst x)) (queued id ops).
  Proof.
    cbv zeta. induction ops as [|o ops IH] using rev_ind; [constructor|]. rewrite run_fst, run_snd, delivered_cons, queued_snoc, <- app_assoc.
    destruct (wait_step (fst (sb_run (sub_init e n k l) ops)) o id) as [W _].
    eapply subseq_trans; [apply subseq_app; [apply subseq_refl|exact W]|]. rewrite app_assoc. apply subseq_app; [exact IH|apply subseq_refl].
  Qed.
  Lemma sent_subseq id e n k l ops : let x := sb_run (sub_init e n k l) ops in subseq (sent id (snd x) ++ waiting id (fst x)) (queued id ops).
  Proof. cbv zeta. eapply subseq_trans; [|apply delivered_subseq]. apply subseq_app; [apply sent_delivered|apply subseq_refl]. Qed.
  Lemma undisturbed_run id ops : forall s, undisturbed id s ops ->
    delivered id (snd (sb_run s ops)) ++ waiting id (fst (sb_run s ops)) = waiting id s ++ queued id ops.
  Proof.
    induction ops as [|o ops IH]; intros s U; [cbn; now rewrite app_nil_r|]. cbn [undisturbed] in U. destruct U as (U1 & U2 & U3).
    rewrite run_cons. cbn [fst snd]. specialize (IH _ U3).
    assert (D : delivered id (snd (sb_run (fst (sb_step s o)) ops) ++ [snd (sb_step s o)]) = handed id (snd (sb_step s o)) ++ delivered id (snd (sb_run (fst (sb_step s o)) ops))).
    { unfold delivered, messages, handed. rewrite rev_app_distr. cbn [rev app flat_map]. rewrite flat_map_app. reflexivity. }
    rewrite D, <- app_assoc, IH, app_assoc. destruct (wait_step s o id) as [_ W]. rewrite W by (split; assumption).
    rewrite <- app_assoc. f_equal. unfold queued. cbn [flat_map]. rewrite app_nil_r. reflexivity.
  Qed.
  Lemma in_order id e n k l ops : let x := sb_run (sub_init e n k l) ops in
    undisturbed id (sub_init e n k l) ops -> all_sent (snd x) -> sent id (snd x) ++ waiting id (fst x) = queued id ops.
  Proof. cbv zeta. intros U S. rewrite sent_all by exact S. rewrite undisturbed_run by exact U. reflexivity. Qed.

  (** * The limit and the flag *)
  Lemma data_event s o m avail more : snd (sb_step s o) = EvData m avail more ->
    exists ord late, publishes o = Some ord /\ sb_step s o = send_data s ord true late.
  Proof.
    destruct o; unfold sb_step, send_keepalive, no_request.
    - intros H. exists ord, false. split; [reflexivity|]. revert H. destruct (existsb item_available (sb_items s) && sb_enabled s).
      + destruct (negb (sb_alive s)); [discriminate|]. destruct r; [|destruct ok; [reflexivity|]|discriminate].
        * match goal with |- context [if ?c then _ else _] => destruct c end; discriminate.
        * unfold send_data. destruct (collect ord _ _) as [[? ?] ?]. discriminate.
      + repeat match goal with |- context [if ?c then _ else _] => destruct c end; try discriminate; destruct r; try discriminate; repeat match goal with |- context [if ?c then _ else _] => destruct c end; discriminate.
    - intros H. exists ord, true. split; [reflexivity|]. revert H. destruct (negb (sb_late s)); [discriminate|]. destruct (existsb item_available (sb_items s) && sb_enabled s).
      + destruct ok; [reflexivity|]. unfold send_data. destruct (collect ord _ _) as [[? ?] ?]. discriminate.
      + repeat match goal with |- context [if ?c then _ else _] => destruct c end; discriminate.
    - repeat match goal with |- context [if ?c then _ else _] => destruct c end; try discriminate. destruct (remove_first n (sb_retrans s)) as [[? ?]|]; discriminate.
    - destruct (negb (sb_alive s)); try discriminate. destruct (remove_first n (sb_retrans s)) as [[? ?]|]; try destruct ok; discriminate.
    - discriminate.
    - destruct (negb (sb_alive s)); discriminate.
    - destruct (negb (sb_alive s)); discriminate.
    - discriminate.
    - discriminate.
    - discriminate.
    - discriminate.
    - discriminate.
    - destruct (sb_alive s); discriminate.
  Qed.
  Lemma left_waiting s : has_waiting s <-> exists id, left_in (sb_items s) id.
  Proof.
    split.
    - intros (id & i & F & R & Q). exists id, i. split; [exact F|]. split; [|exact Q]. unfold item_ready. destruct R as [->|T]; [reflexivity|]. rewrite T. destruct (it_mode i); reflexivity.
    - intros (id & i & F & R & Q). exists id, i. split; [exact F|]. split; [|exact Q]. unfold item_ready in R. destruct (it_mode i); auto.
  Qed.
  Lemma limit_exact s o m avail more ord : snd (sb_step s o) = EvData m avail more -> publishes o = Some ord -> covers ord s ->
    (length (snd m) <= Z.to_nat (sb_max_notif s))%nat /\ (more = true <-> has_waiting (fst (sb_step s o))) /\ (more = true -> length (snd m) = Z.to_nat (sb_max_notif s)).
  Proof.
    intros H P C. destruct (data_event _ _ _ _ _ H) as (ord' & late & P' & E). rewrite P in P'. injection P' as <-. rewrite E in H. rewrite E. clear E.
    unfold send_data in *. pose proof (collect_spec ord (Z.to_nat (sb_max_notif s)) (sb_items s)) as CS. pose proof (more_spec ord (Z.to_nat (sb_max_notif s)) (sb_items s)) as MS.
    destruct (collect ord (Z.to_nat (sb_max_notif s)) (sb_items s)) as [[out mo] items']. cbn [snd fst] in *. injection H as <- _ <-. cbn [snd].
    destruct CS as (C1 & _ & C3 & _). destruct MS as [M1 M2]. split; [exact C1|]. split; [|exact M2]. rewrite M1, left_waiting. cbn [sb_items]. split; intros (id & L); exists id.
    - apply L.
    - split; [|exact L]. apply C. intros N. apply C3 in N. destruct L as (i & F & _). congruence.
  Qed.
  Lemma progress s ord : sb_alive s = true -> sb_enabled s = true -> 1 <= sb_max_notif s -> covers ord s ->
    (exists id i, In i (sb_items s) /\ find_item (sb_items s) id = Some i /\ it_mode i <> MDisabled /\ (it_mode i = MReporting \/ it_triggered i = true) /\ it_queue i <> []) ->
    exists m avail more, snd (sb_step s (STick ord (Req true))) = EvData m avail more /\ snd m <> [].
  Proof.
    intros AL EN MX C (id & i & Hin & F & MD & R & Q). unfold sb_step.
    assert (RD : item_ready i = true) by (unfold item_ready; destruct R as [->|T]; [reflexivity|rewrite T; destruct (it_mode i); reflexivity]).
    assert (AV : existsb item_available (sb_items s) = true).
    { apply existsb_exists. exists i. split; [exact Hin|]. unfold item_available. rewrite RD. destruct (it_mode i); [congruence| |]; destruct (it_queue i); congruence. }
    rewrite AV, EN, AL. cbn [andb negb]. unfold send_data.
    assert (NE := collect_some ord (Z.to_nat (sb_max_notif s)) (sb_items s) id ltac:(lia)).
    destruct (collect ord (Z.to_nat (sb_max_notif s)) (sb_items s)) as [[out mo] items']. cbn [fst snd] in *.
    do 3 eexists. split; [reflexivity|]. cbn [snd]. apply NE; [apply C; congruence|]. exists i. auto.
  Qed.
End P.
