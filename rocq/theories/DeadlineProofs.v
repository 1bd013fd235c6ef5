(** Proofs about how long the server keeps a connection. *)
From Coq Require Import ZArith List Bool Lia.
From Coq Require Import ZifyBool.
From Verif Require Import Chunk Requests Deadline DeadlineSpec.
Import ListNotations.
Open Scope Z_scope.

Lemma revised_lifetime r : revised r = lifetime r.
Proof. unfold revised, lifetime, maxTokenLifetime, minTokenLifetime. destruct (3600000 <? r) eqn:A; [|destruct (r <? 300000) eqn:B]; cbn; lia. Qed.
Lemma lifetime_bounds r : 300000 <= lifetime r <= 3600000.
Proof. unfold lifetime. lia. Qed.
Lemma lifetime_asked r : 300000 <= r <= 3600000 -> lifetime r = r.
Proof. unfold lifetime. lia. Qed.

Lemma run_app s l1 l2 : run s (l1 ++ l2) = run (run s l1) l2.
Proof. unfold run. apply fold_left_app. Qed.
Lemma last_used_app u h1 h2 : last_used u (h1 ++ h2) = last_used (last_used u h1) h2.
Proof. revert u. induction h1 as [|o h1 IH]; intros u; [reflexivity|]. destruct o; cbn; apply IH. Qed.
Lemma dead_step s o : k_alive s = false -> step s o = s.
Proof. intros H. unfold step. rewrite H. reflexivity. Qed.
Lemma dead_run s l : k_alive s = false -> run s l = s.
Proof. intros H. unfold run. induction l as [|o l IH]; [reflexivity|]. cbn [fold_left]. rewrite dead_step by exact H. exact IH. Qed.
Lemma alive_before s l1 l2 : k_alive (run s (l1 ++ l2)) = true -> k_alive (run s l1) = true.
Proof. rewrite run_app. intros H. destruct (k_alive (run s l1)) eqn:A; [reflexivity|]. rewrite dead_run in H by exact A. congruence. Qed.

(** The state after a history during which the connection stayed *)
Definition agrees (start : Z) (h : list op) (s : conn) : Prop :=
  k_deadline s = limit start h /\ k_token s = used h /\ k_pending s = issued h /\ k_last s = issued h /\
  k_open s = (0 <? issued h) /\ (0 < issued h -> k_expiry s = nth (Z.to_nat (issued h - 1)) (ends h) 0) /\ 0 <= used h <= issued h.

Lemma counter_small n : 0 <= n < 2 ^ 32 - 1 -> next_counter n = n + 1.
Proof. intros H. unfold next_counter. replace (n =? 4294967295) with false by lia. lia. Qed.
Lemma issued_app h o : issued (h ++ [o]) = issued h + match o with Opens _ _ | Renews _ _ => 1 | _ => 0 end.
Proof. unfold issued, ends. rewrite flat_map_app, app_length. destruct o; cbn; lia. Qed.
Lemma ends_app h o : ends (h ++ [o]) = ends h ++ ends [o].
Proof. unfold ends. apply flat_map_app. Qed.

Lemma agrees_issue start h s t r o : agrees start h s -> issued h < 2 ^ 32 - 1 -> o = Opens t r \/ o = Renews t r ->
  agrees start (h ++ [o]) (issue s t r).
Proof.
  intros (D & T & P & L & O & E & U) Hn Ho. assert (N : issued (h ++ [o]) = issued h + 1) by (rewrite issued_app; destruct Ho as [-> | ->]; reflexivity).
  assert (Us : used (h ++ [o]) = used h) by (unfold used; rewrite last_used_app; destruct Ho as [-> | ->]; reflexivity).
  assert (Es : ends (h ++ [o]) = ends h ++ [t + lifetime r]) by (rewrite ends_app; destruct Ho as [-> | ->]; reflexivity).
  assert (I0 : 0 <= issued h) by (unfold issued; lia).
  assert (C : next_counter (k_last s) = issued h + 1) by (rewrite L; apply counter_small; lia).
  unfold agrees, issue. cbn [k_deadline k_token k_pending k_last k_open k_expiry]. rewrite N, Us, C, Es, revised_lifetime.
  split; [|split; [exact T|split; [reflexivity|split; [reflexivity|split; [lia|split; [|lia]]]]]].
  - rewrite D. unfold limit. rewrite Us, Es. destruct (used h =? 0) eqn:Z0; [reflexivity|].
    symmetry. apply app_nth1. unfold issued in U. lia.
  - intros _. rewrite app_nth2; unfold issued; [|lia].
    assert (K : (Z.to_nat (Z.of_nat (length (ends h)) + 1 - 1) - length (ends h))%nat = 0%nat) by lia. rewrite K. reflexivity.
Qed.

Lemma step_agrees start h s o : agrees start h s -> k_alive s = true -> issued h < 2 ^ 32 - 1 ->
  (k_alive (step s o) = true <-> time_of o < limit start h /\ fits h o) /\
  (k_alive (step s o) = true -> agrees start (h ++ [o]) (step s o)).
Proof.
  intros A Al Hn. pose proof A as (D & T & P & L & O & E & U). assert (I0 : 0 <= issued h) by (unfold issued; lia).
  unfold step. rewrite Al. cbn [negb]. rewrite D.
  destruct (limit start h <=? time_of o) eqn:F; [cbn [gone k_alive]; split; [split; [discriminate|lia]|discriminate]|].
  assert (F' : time_of o < limit start h) by lia. destruct o as [t r|t r|t n|t]; cbn [fits time_of] in *.
  - rewrite O. destruct (0 <? issued h) eqn:I; cbn [gone k_alive].
    + split; [split; [discriminate|lia]|discriminate].
    + split; [cbn; split; [lia|intros _; exact Al]|]. intros _. apply (agrees_issue _ _ _ _ _ _ A Hn). left; reflexivity.
  - rewrite O. destruct (0 <? issued h) eqn:I; cbn [gone k_alive].
    + split; [cbn; split; [lia|intros _; exact Al]|]. intros _. apply (agrees_issue _ _ _ _ _ _ A Hn). right; reflexivity.
    + split; [split; [discriminate|lia]|discriminate].
  - rewrite O. destruct (0 <? issued h) eqn:I; cbn [negb gone k_alive]; [|split; [split; [discriminate|lia]|discriminate]].
    rewrite T, P. assert (Es : ends (h ++ [Message t n]) = ends h) by (rewrite ends_app; apply app_nil_r).
    assert (N : issued (h ++ [Message t n]) = issued h) by (rewrite issued_app; lia).
    assert (Us : used (h ++ [Message t n]) = n) by (unfold used; rewrite last_used_app; reflexivity).
    destruct (used h =? n) eqn:Q1; [|destruct (issued h =? n) eqn:Q2].
    + split; [split; [lia|intros _; exact Al]|]. intros _. unfold agrees, limit. rewrite Us, N, Es, ?I. replace n with (used h) by lia.
      exact (conj D (conj T (conj P (conj L (conj O (conj E U)))))).
    + cbn [k_alive]. split; [split; [lia|reflexivity]|]. intros _. unfold agrees, limit. rewrite Us, N, Es. cbn [k_deadline k_token k_pending k_last k_open k_expiry].
      replace (n =? 0) with false by lia. replace n with (issued h) by lia.
      assert (0 < issued h) by lia. specialize (E H). split; [exact E|]. split; [reflexivity|]. split; [reflexivity|]. split; [exact L|]. split; [lia|]. split; [intros _; exact E|lia].
    + cbn [gone k_alive]. split; [split; [discriminate|lia]|discriminate].
  - split; [tauto|]. intros _. assert (Es : ends (h ++ [Writes t]) = ends h) by (rewrite ends_app; apply app_nil_r).
    assert (N : issued (h ++ [Writes t]) = issued h) by (rewrite issued_app; lia).
    assert (Us : used (h ++ [Writes t]) = used h) by (unfold used; rewrite last_used_app; reflexivity).
    unfold agrees, limit. rewrite Us, N, Es. exact A.
Qed.

Lemma start_agrees start : agrees start [] (connected start).
Proof. unfold agrees, connected, limit, used, issued. cbn. repeat split; try lia; reflexivity. Qed.
Lemma issued_mono h o : issued h <= issued (h ++ [o]).
Proof. rewrite issued_app. destruct o; lia. Qed.

Lemma run_agrees start h : issued h < 2 ^ 32 -> k_alive (run (connected start) h) = true -> agrees start h (run (connected start) h).
Proof.
  induction h as [|o h IH] using rev_ind; intros Hn Al; [apply start_agrees|].
  pose proof (alive_before _ _ _ Al) as Al'. rewrite run_app in *. cbn [run fold_left] in *. fold (run (connected start) h) in *.
  pose proof (issued_mono h o) as M. pose proof (issued_app h o) as Ia. specialize (IH ltac:(lia) Al').
  destruct (Z.eq_dec (issued h) (2 ^ 32 - 1)) as [Q|Q].
  - (* the last token before the numbers begin again *)
    destruct o as [t r|t r|t n|t]; try lia.
    + clear - IH Al Al' Q. pose proof IH as (D & T & P & L & O & E & U). unfold step in *. rewrite Al' in *. cbn [negb] in *.
      destruct (k_deadline (run (connected start) h) <=? time_of (Message t n)) eqn:F; [discriminate|].
      rewrite O in *. destruct (0 <? issued h) eqn:I; cbn [negb] in *; [|discriminate].
      rewrite T, P in *. assert (Es : ends (h ++ [Message t n]) = ends h) by (rewrite ends_app; apply app_nil_r).
      assert (N : issued (h ++ [Message t n]) = issued h) by (rewrite issued_app; lia).
      assert (Us : used (h ++ [Message t n]) = n) by (unfold used; rewrite last_used_app; reflexivity).
      destruct (used h =? n) eqn:Q1; [|destruct (issued h =? n) eqn:Q2; [|discriminate]].
      * unfold agrees, limit. rewrite Us, N, Es, ?I. replace n with (used h) by lia. exact (conj D (conj T (conj P (conj L (conj O (conj E U)))))).
      * unfold agrees, limit. rewrite Us, N, Es. cbn [k_deadline k_token k_pending k_last k_open k_expiry].
        replace (n =? 0) with false by lia. replace n with (issued h) by lia.
        assert (0 < issued h) by lia. specialize (E H). split; [exact E|]. split; [reflexivity|]. split; [reflexivity|]. split; [exact L|]. split; [lia|]. split; [intros _; exact E|lia].
    + unfold step in *. rewrite Al' in *. cbn [negb] in *. destruct (k_deadline (run (connected start) h) <=? time_of (Writes t)); [discriminate|].
      assert (Es : ends (h ++ [Writes t]) = ends h) by (rewrite ends_app; apply app_nil_r).
      assert (N : issued (h ++ [Writes t]) = issued h) by (rewrite issued_app; lia).
      assert (Us : used (h ++ [Writes t]) = used h) by (unfold used; rewrite last_used_app; reflexivity).
      unfold agrees, limit. rewrite Us, N, Es. exact IH.
  - assert (Hq : issued h < 2 ^ 32 - 1) by lia. exact (proj2 (step_agrees start h _ o IH Al' Hq) Al).
Qed.

Theorem exactly_until start h o : issued h < 2 ^ 32 - 1 -> k_alive (run (connected start) h) = true ->
  (k_alive (run (connected start) (h ++ [o])) = true <-> time_of o < limit start h /\ fits h o).
Proof.
  intros Hn Al. rewrite run_app. cbn [run fold_left]. fold (run (connected start) h).
  apply step_agrees; [apply run_agrees; [lia|exact Al]|exact Al|exact Hn].
Qed.

Theorem gone_for_good start h l : k_alive (run (connected start) h) = false -> k_alive (run (connected start) (h ++ l)) = false.
Proof. intros H. rewrite run_app, dead_run; exact H. Qed.

(** Without new tokens it ends within the hour *)
Lemma ends_bound T h : Forall (fun o => match o with Opens t _ | Renews t _ => t <= T | _ => True end) h -> Forall (fun e => e <= T + 3600000) (ends h).
Proof.
  induction 1 as [|o h Ho _ IH]; [constructor|]. unfold ends. cbn [flat_map]. apply Forall_app. split; [|exact IH].
  destruct o as [t r|t r| |]; try constructor; try constructor; pose proof (lifetime_bounds r); lia.
Qed.
Theorem within_the_hour start T h o : issued h < 2 ^ 32 - 1 -> k_alive (run (connected start) (h ++ [o])) = true ->
  Forall (fun o => match o with Opens t _ | Renews t _ => t <= T | _ => True end) h -> time_of o < Z.max (start + 20000) (T + 3600000).
Proof.
  intros Hn Al F. pose proof (alive_before _ _ _ Al) as Al'. apply (exactly_until _ _ _ Hn Al') in Al as [L _].
  pose proof (run_agrees start h ltac:(lia) Al') as (_ & _ & _ & _ & _ & _ & U).
  unfold limit in L. destruct (used h =? 0) eqn:Z0; [lia|]. pose proof (ends_bound T h F) as B. rewrite Forall_forall in B.
  assert (In (nth (Z.to_nat (used h - 1)) (ends h) 0) (ends h)) by (apply nth_In; unfold issued in U; lia).
  specialize (B _ H). lia.
Qed.
Theorem twenty_seconds start h o : k_alive (run (connected start) (h ++ [o])) = true -> issued h = 0 -> time_of o < start + 20000.
Proof.
  intros Al N. pose proof (alive_before _ _ _ Al) as Al'. apply exactly_until in Al as [L _]; [|lia|exact Al'].
  pose proof (run_agrees start h ltac:(lia) Al') as (_ & _ & _ & _ & _ & _ & U).
  unfold limit in L. replace (used h) with 0 in L by lia. exact L.
Qed.

(** * A client that renews in time *)
Lemma offset_bounds r : renew_offset (revised r) = lifetime r * 75 / 100.
Proof. rewrite revised_lifetime. pose proof (lifetime_bounds r). unfold renew_offset. rewrite Z.mod_small by lia. reflexivity. Qed.

Definition ready (s : conn) (token : Z) : Prop :=
  k_alive s = true /\ k_open s = true /\ k_token s = token /\ k_last s = token.
Lemma steady_alive gap d l : 0 <= gap -> 0 <= d -> gap + 4 * d < 75000 ->
  forall s token due last, ready s token -> last <= due -> due + gap + 3 * d < k_deadline s -> steady gap d last l ->
  k_alive (run s (traffic due token l)) = true.
Proof.
  intros Hg Hd Hs. induction l as [|c l IH]; intros s token due last (Al & Op & Tk & Ls) Hl Hdue St; [exact Al|].
  destruct St as (G & A & B & E & W & St). cbn [traffic]. destruct (c_at c <=? due) eqn:Q.
  - cbn [run fold_left]. fold (run (step (step s (Message (c_at c + c_go c) token)) (Writes (c_at c + c_go c + c_reply c))) (traffic due token l)).
    assert (S1 : step s (Message (c_at c + c_go c) token) = s).
    { unfold step. rewrite Al, Op, Tk, Z.eqb_refl. cbn [negb time_of]. replace (k_deadline s <=? c_at c + c_go c) with false by lia. reflexivity. }
    assert (S2 : step s (Writes (c_at c + c_go c + c_reply c)) = s).
    { unfold step. rewrite Al. cbn [negb time_of]. replace (k_deadline s <=? c_at c + c_go c + c_reply c) with false by lia. reflexivity. }
    rewrite S1, S2. apply (IH s token due (c_at c)); [exact (conj Al (conj Op (conj Tk Ls)))|lia|exact Hdue|exact St].
  - set (i := c_at c + c_go c) in *. set (v := i + c_back c) in *. set (u := v + c_again c) in *. set (t' := next_counter token) in *.
    set (D := i + revised (c_requested c)).
    assert (Ne : k_token s =? t' = false).
    { rewrite Tk. unfold t', next_counter. destruct (token =? 4294967295) eqn:Z1; lia. }
    set (s1 := mkConn (k_deadline s) token t' D t' true true).
    set (s2 := mkConn D t' t' D t' true true).
    assert (S1 : step s (Renews i (c_requested c)) = s1).
    { unfold step. rewrite Al, Op. cbn [negb time_of]. replace (k_deadline s <=? i) with false by (unfold i; lia). unfold issue. rewrite Ls, Tk, Al. reflexivity. }
    assert (S2 : step s1 (Message u t') = s2).
    { unfold step, s1. cbn [k_alive k_open k_token k_pending k_deadline negb time_of k_expiry k_last]. replace (k_deadline s <=? u) with false by (unfold u, v, i; lia).
      rewrite Tk in Ne. rewrite Ne, Z.eqb_refl. reflexivity. }
    pose proof (offset_bounds (c_requested c)) as Of. pose proof (lifetime_bounds (c_requested c)) as Lb. pose proof (revised_lifetime (c_requested c)) as Rv.
    assert (Of2 : 100 * renew_offset (revised (c_requested c)) <= 75 * lifetime (c_requested c) < 100 * renew_offset (revised (c_requested c)) + 100).
    { rewrite Of. pose proof (Z.div_mod (lifetime (c_requested c) * 75) 100 ltac:(lia)). pose proof (Z.mod_pos_bound (lifetime (c_requested c) * 75) 100 ltac:(lia)). lia. }
    assert (S3 : step s2 (Writes (u + c_reply c)) = s2).
    { unfold step, s2. cbn [k_alive k_deadline negb time_of]. replace (D <=? u + c_reply c) with false by (unfold D, u, v, i; lia). reflexivity. }
    cbn [run fold_left]. rewrite S1, S2, S3. fold (run s2 (traffic (v + renew_offset (revised (c_requested c))) t' l)).
    apply (IH s2 t' _ (c_at c)); [repeat split|unfold v, i; lia|unfold s2; cbn [k_deadline]; unfold D, v, i; lia|exact St].
Qed.

Theorem renewed_in_time gap d start opened back requested c l :
  0 <= gap -> 0 <= d -> gap + 4 * d < 75000 -> opened < start + 20000 -> 0 <= back <= d ->
  opened + back <= c_at c -> c_at c + c_go c < start + 20000 -> start <= opened -> steady gap d (opened + back) (c :: l) ->
  k_alive (run (connected start) (opening opened back requested (c :: l))) = true.
Proof.
  intros Hg Hd Hs Ho Hb Hc H20 Hst St. unfold opening.
  pose proof (offset_bounds requested) as Of. pose proof (lifetime_bounds requested) as Lb. pose proof (revised_lifetime requested) as Rv.
  assert (Of2 : 100 * renew_offset (revised requested) <= 75 * lifetime requested < 100 * renew_offset (revised requested) + 100).
  { rewrite Of. pose proof (Z.div_mod (lifetime requested * 75) 100 ltac:(lia)). pose proof (Z.mod_pos_bound (lifetime requested * 75) 100 ltac:(lia)). lia. }
  destruct St as (G & A & B & E & W & St). cbn [traffic].
  replace (c_at c <=? opened + back + renew_offset (revised requested)) with true by lia.
  change (next_counter 0) with 1. set (due := opened + back + renew_offset (revised requested)) in *. set (D := opened + revised requested).
  set (s1 := mkConn (start + 20000) 0 1 D 1 true true). set (s2 := mkConn D 1 1 D 1 true true).
  assert (S1 : step (connected start) (Opens opened requested) = s1).
  { unfold step, connected. cbn [k_alive k_open k_deadline negb time_of]. replace (start + 20000 <=? opened) with false by lia. reflexivity. }
  assert (S2 : step s1 (Message (c_at c + c_go c) 1) = s2).
  { unfold step, s1. cbn [k_alive k_open k_deadline k_token k_pending negb time_of]. replace (start + 20000 <=? c_at c + c_go c) with false by lia. reflexivity. }
  assert (S3 : step s2 (Writes (c_at c + c_go c + c_reply c)) = s2).
  { unfold step, s2. cbn [k_alive k_deadline negb time_of]. replace (D <=? c_at c + c_go c + c_reply c) with false by (unfold D; lia). reflexivity. }
  cbn [run fold_left]. rewrite S1, S2, S3. fold (run s2 (traffic due 1 l)).
  apply (steady_alive gap d l Hg Hd Hs s2 1 due (c_at c)); [repeat split|unfold due; lia|unfold s2; cbn [k_deadline]; unfold due, D; lia|exact St].
Qed.

(** A token granted for an hour that is of no use after 20 seconds *)
Theorem unused_token requested t n : 300000 <= lifetime requested /\
  (20000 <= t -> k_alive (run (connected 0) [Opens 10 requested; Message t n]) = false).
Proof.
  split; [apply lifetime_bounds|]. intros H. cbn [run fold_left]. unfold step at 2, connected. cbn [k_alive k_open k_deadline negb time_of].
  change (0 + 20000 <=? 10) with false. cbv iota. unfold step, issue. cbn [k_alive k_open k_deadline negb time_of].
  replace (0 + 20000 <=? t) with true by lia. reflexivity.
Qed.
