(** Proofs about a subscription's publishing. *)
From Coq Require Import ZArith List Bool Lia Sorting.Sorted.
From Coq Require Import ZifyBool ZifyNat.
From Verif Require Import Bytes MonQueue MonQueueProofs Subscription SubscriptionSpec.
Import ListNotations.
Open Scope Z_scope.

Section P.
  Context {A : Type}.
  Implicit Types s : sub A.
  Implicit Types o : sbop A.
  Implicit Types ops : list (sbop A).
  Implicit Types log : list (sbev A).
  Implicit Types items : list (item A).

  (** * Runs *)
  Lemma run_snoc s ops o : sb_run s (ops ++ [o]) = sb_step' (sb_run s ops) o.
  Proof. unfold sb_run. rewrite fold_left_app. reflexivity. Qed.
  Lemma step'_pair (x : sub A * list (sbev A)) o : sb_step' x o = (fst (sb_step (fst x) o), snd (sb_step (fst x) o) :: snd x).
  Proof. unfold sb_step'. destruct (sb_step (fst x) o). reflexivity. Qed.
  Lemma run_fst s ops o : fst (sb_run s (ops ++ [o])) = fst (sb_step (fst (sb_run s ops)) o).
  Proof. rewrite run_snoc, step'_pair. reflexivity. Qed.
  Lemma run_snd s ops o : snd (sb_run s (ops ++ [o])) = snd (sb_step (fst (sb_run s ops)) o) :: snd (sb_run s ops).
  Proof. rewrite run_snoc, step'_pair. reflexivity. Qed.
  Lemma run_app s a b : sb_run s (a ++ b) = (fst (sb_run (fst (sb_run s a)) b), snd (sb_run (fst (sb_run s a)) b) ++ snd (sb_run s a)).
  Proof.
    induction b as [|o b IH] using rev_ind.
    - rewrite app_nil_r. cbn. destruct (sb_run s a); reflexivity.
    - rewrite app_assoc, run_snoc, IH, step'_pair. cbn [fst snd]. rewrite run_fst, run_snd. reflexivity.
  Qed.
  Lemma run_cons s o ops : sb_run s (o :: ops) = (fst (sb_run (fst (sb_step s o)) ops), snd (sb_run (fst (sb_step s o)) ops) ++ [snd (sb_step s o)]).
  Proof. change (o :: ops) with ([o] ++ ops). rewrite run_app. change (sb_run s [o]) with (sb_step' (s, []) o). rewrite step'_pair. reflexivity. Qed.
  Lemma log_length s ops : length (snd (sb_run s ops)) = length ops.
  Proof. induction ops as [|o ops IH] using rev_ind; [reflexivity|]. rewrite run_snd, app_length. cbn [length]. lia. Qed.
  Lemma log_split s ops l1 e l2 : snd (sb_run s ops) = l1 ++ e :: l2 ->
    exists ops1 o ops2, ops = ops1 ++ o :: ops2 /\ l2 = snd (sb_run s ops1) /\ e = snd (sb_step (fst (sb_run s ops1)) o) /\
      l1 = snd (sb_run (fst (sb_run s (ops1 ++ [o]))) ops2).
  Proof.
    revert l1. induction ops as [|o ops IH] using rev_ind; intros l1 E; [destruct l1; discriminate|].
    rewrite run_snd in E. destruct l1 as [|e1 l1]; cbn [app] in E.
    - injection E as E1 E2. exists ops, o, []. subst. repeat split; reflexivity.
    - injection E as E1 E2. destruct (IH _ E2) as (ops1 & o' & ops2 & H1 & H2 & H3 & H4).
      exists ops1, o', (ops2 ++ [o]). subst. split; [rewrite <- app_assoc; reflexivity|]. split; [reflexivity|]. split; [reflexivity|].
      rewrite run_snd. f_equal. replace (ops1 ++ o' :: ops2) with ((ops1 ++ [o']) ++ ops2) by (rewrite <- app_assoc; reflexivity).
      rewrite run_app. reflexivity.
  Qed.

  Ltac cases :=
    repeat match goal with
           | |- context [match ?x with _ => _ end] => destruct x eqn:?
           | |- context [if ?x then _ else _] => destruct x eqn:?
           end.
  Ltac sc := unfold sb_step, send_data, send_keepalive, no_request; cases; cbn.

  (** * Sequence numbers *)
  Lemma number_step s o :
    (number_of (snd (sb_step s o)) = [] /\ sb_next (fst (sb_step s o)) = sb_next s) \/
    (number_of (snd (sb_step s o)) = [sb_next s] /\ sb_next (fst (sb_step s o)) = u32 (sb_next s + 1)).
  Proof. destruct o; sc; auto. Qed.
  Lemma numbers_cons e log : numbers (e :: log) = numbers log ++ number_of e.
  Proof. unfold numbers. cbn [rev]. rewrite flat_map_app. cbn [flat_map]. rewrite app_nil_r. reflexivity. Qed.
  Lemma u32_step k : u32 (u32 k + 1) = u32 (k + 1).
  Proof. unfold u32. apply Zplus_mod_idemp_l. Qed.
  Lemma count_up_S n : count_up (S n) = count_up n ++ [u32 (1 + Z.of_nat n)].
  Proof. unfold count_up. rewrite seq_S, map_app. reflexivity. Qed.
  Lemma count_length n : length (count_up n) = n.
  Proof. unfold count_up. rewrite map_length. apply seq_length. Qed.
  Lemma numbers_run e n k l ops : let x := sb_run (sub_init e n k l) ops in
    numbers (snd x) = count_up (length (numbers (snd x))) /\ sb_next (fst x) = u32 (1 + Z.of_nat (length (numbers (snd x)))).
  Proof.
    cbv zeta. induction ops as [|o ops [IH1 IH2]] using rev_ind; [split; reflexivity|].
    rewrite run_fst, run_snd, numbers_cons, app_length.
    destruct (number_step (fst (sb_run (sub_init e n k l) ops)) o) as [[-> ->]|[-> ->]].
    - cbn [length]. rewrite app_nil_r, Nat.add_0_r. split; assumption.
    - cbn [length]. rewrite IH2, u32_step. replace (length (numbers (snd (sb_run (sub_init e n k l) ops))) + 1)%nat with (S (length (numbers (snd (sb_run (sub_init e n k l) ops))))) by lia.
      rewrite count_up_S, <- IH1. split; [reflexivity|]. f_equal. lia.
  Qed.
  Lemma numbers_consecutive e n k l ops : numbers (snd (sb_run (sub_init e n k l) ops)) = count_up (length (numbers (snd (sb_run (sub_init e n k l) ops)))).
  Proof. apply numbers_run. Qed.
  Lemma keepalive_step s o n avail : snd (sb_step s o) = EvKeepAlive n avail -> n = sb_next s.
  Proof. destruct o; sc; intros E; inversion E; reflexivity. Qed.
  Lemma keepalive_next e n k l ops l1 x avail l2 : snd (sb_run (sub_init e n k l) ops) = l1 ++ EvKeepAlive x avail :: l2 ->
    x = u32 (1 + Z.of_nat (length (numbers l2))).
  Proof.
    intros E. destruct (log_split _ _ _ _ _ E) as (ops1 & o & ops2 & _ & -> & E3 & _). symmetry in E3. apply keepalive_step in E3.
    rewrite E3. apply numbers_run.
  Qed.

  (** * The retransmission queue *)
  Lemma remove_first_spec n (q : list (message A)) :
    match remove_first n q with
    | Some (m, r) => exists a b, q = a ++ m :: b /\ r = a ++ b /\ fst m = n /\ ~ In n (map fst a)
    | None => ~ In n (map fst q)
    end.
  Proof.
    induction q as [|m q IH]; cbn [remove_first]; [intros []|]. destruct (Z.eqb_spec (fst m) n) as [E|E].
    - exists [], q. repeat split; auto.
    - destruct (remove_first n q) as [[x r]|].
      + destruct IH as (a & b & -> & -> & H1 & H2). exists (m :: a), b. repeat split; auto. intros [H|H]; auto.
      + intros [H|H]; auto.
  Qed.
  Lemma trim_cases (q : list (message A)) : trim_retrans q = q \/ exists m, q = m :: trim_retrans q /\ (127 <= length (trim_retrans q))%nat.
  Proof.
    unfold trim_retrans, maxRetransmissionQueueLength. destruct (Nat.leb_spec 128 (length q)) as [L|L]; [|now left].
    right. destruct q as [|m q]; cbn [length tl] in *; [lia|]. exists m. split; [reflexivity|lia].
  Qed.
  (** What a step does to the queue. *)
  Inductive rstep (q : list (message A)) (e : sbev A) : list (message A) -> Prop :=
  | rs_same : built e = [] -> rstep q e q
  | rs_dead : built e = [] -> rstep q e []
  | rs_remove m a b : built e = [] -> q = a ++ m :: b -> ~ In (fst m) (map fst a) -> rstep q e (a ++ b)
  | rs_add m : built e = [m] -> rstep q e (trim_retrans q ++ [m]).
  Lemma retrans_step s o : rstep (sb_retrans s) (snd (sb_step s o)) (sb_retrans (fst (sb_step s o))).
  Proof.
    destruct o; try (sc; first [now apply rs_same|now apply rs_dead|now eapply rs_add]; fail).
    - unfold sb_step. destruct (negb (sb_alive s)); [now apply rs_same|]. pose proof (remove_first_spec n (sb_retrans s)) as R.
      destruct (remove_first n (sb_retrans s)) as [[m r]|]; [|now apply rs_same]. destruct R as (a & b & E & -> & F & N).
      cbn. eapply rs_remove; [reflexivity|exact E|]. now rewrite F.
    - unfold sb_step. destruct (negb (sb_alive s)); [now apply rs_same|]. pose proof (remove_first_spec n (sb_retrans s)) as R.
      destruct (remove_first n (sb_retrans s)) as [[m r]|]; [|now apply rs_same]. destruct ok; [|now apply rs_same]. destruct R as (a & b & E & -> & F & N).
      cbn. eapply rs_remove; [reflexivity|exact E|]. now rewrite F.
  Qed.
  Lemma messages_cons e log : messages (e :: log) = messages log ++ built e.
  Proof. unfold messages. cbn [rev]. rewrite flat_map_app. cbn [flat_map]. rewrite app_nil_r. reflexivity. Qed.
  Lemma trim_in (q : list (message A)) m : In m (trim_retrans q) -> In m q.
  Proof. unfold trim_retrans. destruct (_ <=? _)%nat; [|auto]. destruct q; cbn [tl]; [auto|]. intros. now right. Qed.
  Lemma only_built e n k l ops m : In m (sb_retrans (fst (sb_run (sub_init e n k l) ops))) -> In m (messages (snd (sb_run (sub_init e n k l) ops))).
  Proof.
    revert m. induction ops as [|o ops IH] using rev_ind; intros m H; [destruct H|].
    rewrite run_snd, messages_cons. rewrite run_fst in H. apply in_app_iff.
    destruct (retrans_step (fst (sb_run (sub_init e n k l) ops)) o) as [B|B|x a b B E N|x B].
    - left. apply IH, H.
    - destruct H.
    - left. apply IH. rewrite E. apply in_app_iff in H. apply in_app_iff. cbn [In]. tauto.
    - rewrite B. apply in_app_iff in H. destruct H as [H|H]; [left; apply IH, trim_in, H|now right].
  Qed.
  Lemma retrans_length e n k l ops : (length (sb_retrans (fst (sb_run (sub_init e n k l) ops))) <= 128)%nat.
  Proof.
    induction ops as [|o ops IH] using rev_ind; [cbn; lia|]. rewrite run_fst.
    destruct (retrans_step (fst (sb_run (sub_init e n k l) ops)) o) as [B|B|x a b B E N|x B]; [exact IH|cbn; lia| |].
    - rewrite E in IH. rewrite app_length in *. cbn [length] in IH. lia.
    - rewrite app_length. cbn [length]. unfold trim_retrans, maxRetransmissionQueueLength.
      destruct (Nat.leb_spec 128 (length (sb_retrans (fst (sb_run (sub_init e n k l) ops))))) as [L|L]; [|lia].
      destruct (sb_retrans (fst (sb_run (sub_init e n k l) ops))); cbn [tl length] in *; lia.
  Qed.
  Lemma alive_back s o : sb_alive (fst (sb_step s o)) = true -> sb_alive s = true.
  Proof. destruct (sb_alive s) eqn:E; [reflexivity|]. destruct o; sc; congruence. Qed.
  Lemma alive_back_run s ops : sb_alive (fst (sb_run s ops)) = true -> sb_alive s = true.
  Proof. induction ops as [|o ops IH] using rev_ind; [auto|]. rewrite run_fst. intros H. apply IH, (alive_back _ _ H). Qed.

  (** A message survives all steps that do not name it. *)
  Lemma remove_other n (q : list (message A)) a m b : n <> fst m -> q = a ++ m :: b ->
    match remove_first n q with
    | Some (_, r) => exists a' b', r = a' ++ m :: b' /\ (length b' <= length b)%nat
    | None => True
    end.
  Proof.
    intros N ->. pose proof (remove_first_spec n (a ++ m :: b)) as R. destruct (remove_first n (a ++ m :: b)) as [[x r]|]; [|exact I].
    destruct R as (c & d & E & -> & F & G).
    assert (X : x <> m) by congruence. revert a E G. clear - X. induction c as [|y c IH]; intros a E G.
    - cbn [app] in E. destruct a as [|z a]; cbn [app] in E; injection E as E1 E2; [congruence|]. subst. exists a, b. split; [reflexivity|lia].
    - destruct a as [|z a]; cbn [app] in E; injection E as E1 E2.
      + subst y. exists [], (c ++ d). split; [reflexivity|]. rewrite E2, !app_length. cbn [length]. lia.
      + subst z. destruct (IH a E2) as (a' & b' & E & L); [intros H; apply G; now right|]. exists (y :: a'), b'. cbn [app]. rewrite E. split; [reflexivity|exact L].
  Qed.
  Lemma survive_step s o a m b : sb_retrans s = a ++ m :: b -> sb_alive (fst (sb_step s o)) = true -> ~ names (fst m) o ->
    exists a' b', sb_retrans (fst (sb_step s o)) = a' ++ m :: b' /\ (length b' <= length b)%nat
    \/ built (snd (sb_step s o)) <> [] /\ sb_retrans (fst (sb_step s o)) = a' ++ m :: b' /\ (length b' <= S (length b))%nat
    \/ built (snd (sb_step s o)) <> [] /\ a = [] /\ (127 <= length b)%nat.
  Proof.
    intros E AL NN. assert (SAME : forall s', sb_retrans s' = sb_retrans s -> exists a' b', sb_retrans s' = a' ++ m :: b' /\ (length b' <= length b)%nat).
    { intros s' E'. exists a, b. split; [now rewrite E'|lia]. }
    assert (ADD : forall x, exists a' b', trim_retrans (sb_retrans s) ++ [x] = a' ++ m :: b' /\ (length b' <= S (length b))%nat \/ a = [] /\ (127 <= length b)%nat).
    { intros x. pose proof (trim_cases (sb_retrans s)) as TC. set (t := trim_retrans (sb_retrans s)) in *. clearbody t. destruct TC as [T|(y & T1 & T2)].
      - exists a, (b ++ [x]). left. rewrite T, E, <- app_assoc. split; [reflexivity|]. rewrite app_length. cbn [length]. lia.
      - rewrite E in T1. destruct a as [|z a]; cbn [app] in T1; injection T1 as T0 T1.
        + exists [], []. right. rewrite T1. split; [reflexivity|exact T2].
        + exists a, (b ++ [x]). left. rewrite <- T1, <- app_assoc. split; [reflexivity|]. rewrite app_length. cbn [length]. lia. }
    destruct o; cbn [names] in NN;
      try (revert AL; unfold sb_step, send_data, send_keepalive, no_request; cases; cbn; intros AL; try discriminate;
           first [ destruct (SAME s eq_refl) as (a' & b' & H); exists a', b'; left; exact H
                 | match goal with |- context [trim_retrans (sb_retrans s) ++ [?x]] => destruct (ADD x) as (a' & b' & [H|H]) end; exists a', b'; right; [left|right]; (split; [discriminate|exact H]) ]; fail).
    - unfold sb_step. destruct (negb (sb_alive s)); [destruct (SAME s eq_refl) as (a' & b' & H); exists a', b'; now left|].
      pose proof (remove_other n (sb_retrans s) a m b NN E) as R. destruct (remove_first n (sb_retrans s)) as [[x r]|]; cbn.
      + destruct R as (a' & b' & R1 & R2). exists a', b'. left. split; assumption.
      + destruct (SAME s eq_refl) as (a' & b' & H). exists a', b'. now left.
    - unfold sb_step. destruct (negb (sb_alive s)); [destruct (SAME s eq_refl) as (a' & b' & H); exists a', b'; now left|].
      pose proof (remove_other n (sb_retrans s) a m b NN E) as R. destruct (remove_first n (sb_retrans s)) as [[x r]|]; [destruct ok|]; cbn.
      + destruct R as (a' & b' & R1 & R2). exists a', b'. left. split; assumption.
      + destruct (SAME s eq_refl) as (a' & b' & H). exists a', b'. now left.
      + destruct (SAME s eq_refl) as (a' & b' & H). exists a', b'. now left.
  Qed.
  Lemma survive_run s ops : forall a m b, sb_retrans s = a ++ m :: b -> sb_alive (fst (sb_run s ops)) = true ->
    (forall o, In o ops -> ~ names (fst m) o) -> (length b + length (messages (snd (sb_run s ops))) <= 127)%nat ->
    exists a' b', sb_retrans (fst (sb_run s ops)) = a' ++ m :: b' /\ (length b' <= length b + length (messages (snd (sb_run s ops))))%nat.
  Proof.
    intros a m b E. induction ops as [|o ops IH] using rev_ind; intros AL NN LE.
    - exists a, b. split; [exact E|lia].
    - rewrite run_fst in *. rewrite run_snd, messages_cons, app_length in *.
      destruct IH as (a' & b' & I1 & I2); [exact (alive_back _ _ AL)|intros x Hx; apply NN, in_app_iff; now left|lia|].
      destruct (survive_step _ _ _ _ _ I1 AL) as (a2 & b2 & H); [apply NN, in_app_iff; right; now left|].
      destruct H as [[H1 H2]|[[H0 [H1 H2]]|[H0 [H1 H2]]]].
      + exists a2, b2. split; [exact H1|lia].
      + exists a2, b2. split; [exact H1|]. destruct (built (snd (sb_step (fst (sb_run s ops)) o))); [congruence|]. cbn [length]. lia.
      + destruct (built (snd (sb_step (fst (sb_run s ops)) o))); [congruence|]. cbn [length] in LE. lia.
  Qed.
  Lemma data_in s o m avail more : snd (sb_step s o) = EvData m avail more -> exists a, sb_retrans (fst (sb_step s o)) = a ++ [m].
  Proof. destruct o; sc; intros E; inversion E; subst; eexists; reflexivity. Qed.
  Lemma kept s o ops m avail more : snd (sb_step s o) = EvData m avail more ->
    let s1 := fst (sb_step s o) in
    sb_alive (fst (sb_run s1 ops)) = true -> (forall o', In o' ops -> ~ names (fst m) o') -> (length (messages (snd (sb_run s1 ops))) <= 127)%nat ->
    In m (sb_retrans (fst (sb_run s1 ops))).
  Proof.
    cbv zeta. intros E AL NN LE. destruct (data_in _ _ _ _ _ E) as (a & R).
    destruct (survive_run _ ops a m [] R AL NN) as (a' & b' & H & _); [cbn [length]; lia|]. rewrite H. apply in_app_iff. right. now left.
  Qed.

  (** Numbers in the queue ascend, as long as every response is written and the numbers do not wrap. *)
  Lemma all_sent_cons e log : all_sent (e :: log) -> is_unsent e = false /\ all_sent log.
  Proof. intros H. split; [apply H; now left|intros x Hx; apply H; now right]. Qed.
  Definition ascending (q : list Z) (n : Z) : Prop := StronglySorted Z.lt q /\ Forall (fun k => 1 <= k <= n) q.
  Lemma asc_app_inv a b n : ascending (a ++ b) n -> StronglySorted Z.lt a /\ StronglySorted Z.lt b /\ (forall x y, In x a -> In y b -> x < y).
  Proof.
    intros [H _]. induction a as [|x a IH]; cbn [app] in *; [repeat split; [constructor|exact H|intros ? ? []]|].
    inversion H; subst. destruct (IH H2) as (I1 & I2 & I3). rewrite Forall_forall in H3. repeat split; auto.
    - constructor; [exact I1|]. apply Forall_forall. intros y Hy. apply H3, in_app_iff. now left.
    - intros x' y [<-|Hx] Hy; [apply H3, in_app_iff; now right|now apply I3].
  Qed.
  Lemma sorted_app (a b : list Z) : StronglySorted Z.lt a -> StronglySorted Z.lt b -> (forall x y, In x a -> In y b -> x < y) -> StronglySorted Z.lt (a ++ b).
  Proof.
    induction a as [|x a IH]; cbn [app]; intros Ha Hb Hab; [exact Hb|]. inversion Ha; subst. constructor.
    - apply IH; auto. intros. apply Hab; [now right|assumption].
    - apply Forall_app. split; [assumption|]. apply Forall_forall. intros y Hy. apply Hab; [now left|exact Hy].
  Qed.
  Lemma asc_remove a m b n : ascending (map fst (a ++ m :: b)) n -> ascending (map fst (a ++ b : list (message A))) n.
  Proof.
    intros H. pose proof H as [_ F]. rewrite map_app in *. cbn [map] in *. destruct (asc_app_inv _ _ _ H) as (H1 & H2 & H3). inversion H2; subst. split.
    - apply sorted_app; auto. intros. apply H3; [assumption|now right].
    - apply Forall_app in F. destruct F as [F1 F2]. inversion F2; subst. apply Forall_app. now split.
  Qed.
  Lemma sorted_nodup (q : list Z) : StronglySorted Z.lt q -> NoDup q.
  Proof. induction 1 as [|x q H IH F]; constructor; [|exact IH]. intros Hx. rewrite Forall_forall in F. specialize (F _ Hx). lia. Qed.
  Lemma built_number s o : is_unsent (snd (sb_step s o)) = false ->
    forall m, built (snd (sb_step s o)) = [m] -> fst m = sb_next s /\ number_of (snd (sb_step s o)) = [sb_next s].
  Proof. destruct o; sc; intros U m' E; inversion E; subst; try discriminate; auto. Qed.
  Lemma asc_weaken q a b : a <= b -> ascending q a -> ascending q b.
  Proof. intros L [H F]. split; [exact H|]. eapply Forall_impl; [|exact F]. intros; cbn in *; lia. Qed.
  Lemma asc_run e n k l ops : let x := sb_run (sub_init e n k l) ops in
    all_sent (snd x) -> Z.of_nat (length (numbers (snd x))) < 2 ^ 32 -> ascending (map fst (sb_retrans (fst x))) (Z.of_nat (length (numbers (snd x)))).
  Proof.
    cbv zeta. induction ops as [|o ops IH] using rev_ind; intros SENT LT; [split; constructor|].
    pose proof (numbers_run e n k l ops) as [_ NX]. rewrite run_fst. rewrite run_snd in *. apply all_sent_cons in SENT. destruct SENT as [U SENT].
    rewrite numbers_cons, app_length in *. specialize (IH SENT).
    set (st := fst (sb_run (sub_init e n k l) ops)) in *. set (c := length (numbers (snd (sb_run (sub_init e n k l) ops)))) in *.
    assert (IH' := IH ltac:(lia)). clear IH.
    destruct (retrans_step st o) as [B|B|x a b B E N|x B].
    - eapply asc_weaken; [|exact IH']. lia.
    - split; constructor.
    - eapply asc_weaken; [|rewrite E in IH'; eapply asc_remove; exact IH']. lia.
    - destruct (built_number st o U x B) as [F NN]. rewrite NN in *. cbn [length] in *.
      assert (NX' : sb_next st = 1 + Z.of_nat c). { rewrite NX. unfold u32. apply Z.mod_small. lia. }
      rewrite map_app. cbn [map]. rewrite F, NX'.
      assert (T : ascending (map fst (trim_retrans (sb_retrans st))) (Z.of_nat c)).
      { destruct (trim_cases (sb_retrans st)) as [->|(y & T1 & _)]; [exact IH'|]. assert (IH2 := IH'). rewrite T1 in IH2. exact (asc_remove [] y (trim_retrans (sb_retrans st)) _ IH2). }
      destruct T as [T1 T2]. split.
      + apply sorted_app; [exact T1|repeat constructor|]. intros p q Hp [<-|[]]. rewrite Forall_forall in T2. specialize (T2 _ Hp). cbn in T2. lia.
      + apply Forall_app. split; [eapply Forall_impl; [|exact T2]; cbn; intros; lia|]. repeat constructor; lia.
  Qed.
  Lemma retrans_nodup e n k l ops : all_sent (snd (sb_run (sub_init e n k l) ops)) -> Z.of_nat (length (numbers (snd (sb_run (sub_init e n k l) ops)))) < 2 ^ 32 ->
    NoDup (map fst (sb_retrans (fst (sb_run (sub_init e n k l) ops)))).
  Proof. intros H1 H2. apply sorted_nodup. now apply asc_run. Qed.

  (** * Acknowledging and republishing *)
  Lemma ack_exact s n : sb_alive s = true ->
    (In n (map fst (sb_retrans s)) /\ snd (sb_step s (SAck n)) = EvAck true /\
      exists a m b, fst m = n /\ ~ In n (map fst a) /\ sb_retrans s = a ++ m :: b /\ sb_retrans (fst (sb_step s (SAck n))) = a ++ b) \/
    (~ In n (map fst (sb_retrans s)) /\ sb_step s (SAck n) = (s, EvAck false)).
  Proof.
    intros AL. unfold sb_step. rewrite AL. cbn [negb]. pose proof (remove_first_spec n (sb_retrans s)) as R.
    destruct (remove_first n (sb_retrans s)) as [[m r]|].
    - left. destruct R as (a & b & E & -> & F & N). split; [|split; [reflexivity|]].
      + rewrite E, map_app. apply in_app_iff. right. left. exact F.
      + exists a, m, b. cbn. auto.
    - right. split; [exact R|reflexivity].
  Qed.
  Lemma republish_exact s n : sb_alive s = true ->
    (exists m, In m (sb_retrans s) /\ fst m = n /\ snd (sb_step s (SRepublish n true)) = EvRepublished m) \/
    (~ In n (map fst (sb_retrans s)) /\ snd (sb_step s (SRepublish n true)) = EvNotAvailable).
  Proof.
    intros AL. unfold sb_step. rewrite AL. cbn [negb]. pose proof (remove_first_spec n (sb_retrans s)) as R.
    destruct (remove_first n (sb_retrans s)) as [[m r]|].
    - left. destruct R as (a & b & E & -> & F & N). exists m. split; [rewrite E; apply in_app_iff; right; now left|]. split; [exact F|reflexivity].
    - right. split; [exact R|reflexivity].
  Qed.
  Lemma advertised_step s o avail : advertised (snd (sb_step s o)) = Some avail -> avail = map fst (sb_retrans (fst (sb_step s o))).
  Proof. destruct o; sc; intros E; inversion E; reflexivity. Qed.
  Lemma republish_twice s n m : snd (sb_step s (SRepublish n true)) = EvRepublished m -> NoDup (map fst (sb_retrans s)) ->
    snd (sb_step (fst (sb_step s (SRepublish n true))) (SRepublish n true)) = EvNotAvailable.
  Proof.
    unfold sb_step at 1. destruct (sb_alive s) eqn:AL; cbn [negb]; [|discriminate]. pose proof (remove_first_spec n (sb_retrans s)) as R.
    destruct (remove_first n (sb_retrans s)) as [[x r]|] eqn:RF; [|discriminate]. intros _ ND. destruct R as (a & b & E & -> & F & N).
    unfold sb_step at 2. rewrite AL, RF. cbn [negb fst snd].
    unfold sb_step. cbn [with_retrans sb_alive sb_retrans]. rewrite AL. cbn [negb].
    pose proof (remove_first_spec n (a ++ b)) as R2. destruct (remove_first n (a ++ b)) as [[y r2]|]; [|reflexivity].
    exfalso. destruct R2 as (c & d & E2 & _ & F2 & _). rewrite E, map_app in ND. cbn [map] in ND. apply NoDup_remove_2 in ND. apply ND.
    rewrite <- map_app, E2, map_app. apply in_app_iff. right. left. congruence.
  Qed.

  (** * After deletion *)
  Definition corpse s : Prop := sb_alive s = false -> sb_items s = [] /\ sb_retrans s = [].
  Lemma corpse_step s o : corpse s -> corpse (fst (sb_step s o)).
  Proof.
    unfold corpse. destruct (sb_alive s) eqn:AL.
    - intros _. destruct o; unfold sb_step, send_data, send_keepalive, no_request; cases; cbn; rewrite ?AL; intros; try discriminate; auto; congruence.
    - intros H. destruct (H eq_refl) as [I1 I2]. intros _. destruct o; unfold sb_step, send_data, send_keepalive, no_request; rewrite ?I1, ?AL; cbn; cases; cbn in *; rewrite ?I1; auto.
  Qed.
  Lemma corpse_run s ops : corpse s -> corpse (fst (sb_run s ops)).
  Proof. intros C. induction ops as [|o ops IH] using rev_ind; [exact C|]. rewrite run_fst. apply corpse_step, IH. Qed.
  Lemma corpse_quiet s o : corpse s -> sb_alive s = false -> sends (snd (sb_step s o)) = false.
  Proof.
    intros C AL. destruct (C AL) as [I1 I2].
    destruct o; unfold sb_step, send_data, send_keepalive, no_request; rewrite ?I1, ?AL; cbn; cases; cbn; auto.
  Qed.
  Lemma corpse_init e n k l : corpse (sub_init e n k l).
  Proof. unfold corpse. discriminate. Qed.
  Lemma dead_quiet e n k l ops o : sb_alive (fst (sb_run (sub_init e n k l) ops)) = false ->
    sends (snd (sb_step (fst (sb_run (sub_init e n k l) ops)) o)) = false.
  Proof. apply corpse_quiet, corpse_run, corpse_init. Qed.
  Lemma dead_stays s o : sb_alive s = false -> sb_alive (fst (sb_step s o)) = false.
  Proof. intros H. destruct (sb_alive (fst (sb_step s o))) eqn:E; [|reflexivity]. apply alive_back in E. congruence. Qed.
End P.
