(** Proofs about the locks of clients. *)
From Coq Require Import ZArith String List Bool Lia Arith.
From Verif Require Import Flow Mutex HandlersAnalysis MutexSpec MutexProofs MutexOrder ClientLocks ClientLocksSpec.
Import ListNotations.
Open Scope string_scope.

(** the two orders of the locks *)
Definition level_send (c : cls) : nat :=
  match c with KReceiving => 0 | KChannel => 1 | KSending => 2 | _ => 3 end.
Definition level_close (c : cls) : nat :=
  match c with KReceiving => 0 | KSending => 1 | KChannel => 2 | _ => 3 end.

Definition sends_objects : list (cls * cls) := [(KSending, KChannel)].
Definition sends_locked : list (cls * cls) := [(KChannel, KSending)].

Lemma ok_send : forallb (g_root_ok level_send sends_objects client_waits) client_roots = true.
Proof. vm_compute. reflexivity. Qed.
Lemma ok_close : forallb (g_root_ok level_close sends_locked client_waits) client_roots = true.
Proof. vm_compute. reflexivity. Qed.

Lemma thread_table root ops : client_thread root ops -> table_thread client_roots ops.
Proof. intros [D P]. exists root. split; assumption. Qed.

Lemma released root ks m c : client_does root ks -> times (Lk m c) ks = times (Un m c) ks.
Proof. exact (g_all_released _ _ _ _ ok_send root ks m c). Qed.

Lemma no_stray root before after m c : client_does root (before ++ after)%list -> times (Un m c) before <= times (Lk m c) before.
Proof. exact (g_none_stray _ _ _ _ ok_send root before after m c). Qed.

Lemma client_order : exists level : cls -> nat, forall root ops, client_thread root ops ->
  forall c d, nests ops c d -> level c < level d \/ (c, d) = (KSending, KChannel).
Proof.
  exists level_send. intros root ops T c d N.
  destruct (g_order _ _ _ _ ok_send ops (thread_table _ _ T) c d N) as [L|[E|[]]]; auto.
Qed.

Lemma client_order_open : exists level : cls -> nat, forall root ops, client_thread root ops ->
  forall c d, nests ops c d -> level c < level d \/ (c, d) = (KChannel, KSending).
Proof.
  exists level_close. intros root ops T c d N.
  destruct (g_order _ _ _ _ ok_close ops (thread_table _ _ T) c d N) as [L|[E|[]]]; auto.
Qed.

Lemma in_order_send work : never_nested KSending KChannel work -> g_in_order client_roots sends_objects work.
Proof.
  intros H ops I. destruct (H _ I) as ((root & T) & N). split; [eapply thread_table; eauto|].
  intros c d X [[= <- <-]|[]]. exact (N X).
Qed.
Lemma in_order_close work : never_nested KChannel KSending work -> g_in_order client_roots sends_locked work.
Proof.
  intros H ops I. destruct (H _ I) as ((root & T) & N). split; [eapply thread_table; eauto|].
  intros c d X [[= <- <-]|[]]. exact (N X).
Qed.

Lemma plain_no_deadlock work : never_nested KSending KChannel work -> forall ts, reaches work ts -> ~ deadlock ts.
Proof. intros H. exact (g_no_deadlock _ _ _ _ ok_send work (in_order_send _ H)). Qed.
Lemma plain_completes work : never_nested KSending KChannel work -> forall ts, reaches work ts ->
  exists schedule ts', execute ts schedule = Some ts' /\ finished ts'.
Proof. intros H. exact (g_completes _ _ _ _ ok_send work (in_order_send _ H)). Qed.
Lemma open_no_deadlock work : never_nested KChannel KSending work -> forall ts, reaches work ts -> ~ deadlock ts.
Proof. intros H. exact (g_no_deadlock _ _ _ _ ok_close work (in_order_close _ H)). Qed.
Lemma open_completes work : never_nested KChannel KSending work -> forall ts, reaches work ts ->
  exists schedule ts', execute ts schedule = Some ts' /\ finished ts'.
Proof. intros H. exact (g_completes _ _ _ _ ok_close work (in_order_close _ H)). Qed.

(** *** Which functions take the locks in which order *)
Definition except (names : list string) : list (string * prog lop) :=
  filter (fun r => negb (existsb (String.eqb (fst r)) names)) client_roots.

Lemma except_thread names root ops : client_thread root ops -> ~ In root names -> table_thread (except names) ops.
Proof.
  intros [(p & t & x & I & R & E) P] N. exists root. split; [|exact P]. exists p, t, x. split; [|auto].
  apply filter_In. split; [exact I|]. cbn [fst]. apply negb_true_iff. apply not_true_iff_false. intros X.
  apply existsb_exists in X as (y & J & Q). apply String.eqb_eq in Q. subst y. exact (N J).
Qed.

Lemma ok_objects : forallb (g_root_ok level_send [] client_waits) (except ["Client.request"; "Dial"; "FindServers"]) = true.
Proof. vm_compute. reflexivity. Qed.
Lemma ok_locked : forallb (g_root_ok level_close [] client_waits) (except ["Client.Close"; "Dial"; "FindServers"]) = true.
Proof. vm_compute. reflexivity. Qed.

Lemma who_sends_objects root ops : client_thread root ops -> nests ops KSending KChannel ->
  In root ["Client.request"; "Dial"; "FindServers"].
Proof.
  intros T N. destruct (in_dec string_dec root ["Client.request"; "Dial"; "FindServers"]) as [I|I]; [exact I|exfalso].
  destruct (g_order _ _ _ _ ok_objects ops (except_thread _ _ _ T I) _ _ N) as [L|[]]. cbn in L. lia.
Qed.
Lemma who_sends_locked root ops : client_thread root ops -> nests ops KChannel KSending ->
  In root ["Client.Close"; "Dial"; "FindServers"].
Proof.
  intros T N. destruct (in_dec string_dec root ["Client.Close"; "Dial"; "FindServers"]) as [I|I]; [exact I|exfalso].
  destruct (g_order _ _ _ _ ok_locked ops (except_thread _ _ _ T I) _ _ N) as [L|[]]. cbn in L. lia.
Qed.

(** *** Waits *)
Lemma waits_listed root ops : client_thread root ops -> forall c w, waits_holding ops c w -> In (c, w) client_waits.
Proof. intros T. exact (g_waits _ _ _ _ ok_send ops (thread_table _ _ T)). Qed.

Definition short_waits : list (cls * string) := [(KSending, "network write"); (KReceiving, "network read")].
Lemma ok_waits : forallb (g_root_ok level_send sends_objects short_waits) (except ["Client.Close"; "Dial"; "FindServers"]) = true.
Proof. vm_compute. reflexivity. Qed.
Lemma who_waits_locked root ops : client_thread root ops -> forall w, waits_holding ops KChannel w ->
  In root ["Client.Close"; "Dial"; "FindServers"].
Proof.
  intros T w W. destruct (in_dec string_dec root ["Client.Close"; "Dial"; "FindServers"]) as [I|I]; [exact I|exfalso].
  pose proof (g_waits _ _ _ _ ok_waits ops (except_thread _ _ _ T I) _ _ W) as X. cbn in X. intuition discriminate.
Qed.

(** *** A deadlock of two threads stays, whatever other threads do *)
Definition blocked_on (l : lock) (t : thread) : Prop :=
  (exists m, In (OLk m l) (th_rest t)) /\ announces l t = false.

Lemma existsb_in {A} (f : A -> bool) x l : In x l -> f x = true -> existsb f l = true.
Proof. intros I E. apply existsb_exists. eauto. Qed.

Lemma blocked_stays ts l t t' : existsb (holds Ex l) ts = true -> advance ts t = Some t' -> blocked_on l t -> blocked_on l t'.
Proof.
  intros H A ((m & I) & N). apply existsb_exists in H as (b & Ib & Hb).
  unfold advance in A. unfold announces in N. unfold blocked_on. unfold announces at 1.
  destruct (th_rest t) as [|o r] eqn:R; [discriminate A|].
  assert (B : existsb (fun u => holds Ex l u || announces l u) ts = true)
    by (apply existsb_exists; exists b; rewrite Hb; auto).
  destruct o as [[] k|n k|w].
  - destruct (existsb (fun u => holds Ex k u || announces k u) ts) eqn:E; [discriminate A|]. injection A as <-. cbn [th_rest th_announced].
    split; [|destruct r as [|[[] ?| |] ?]; reflexivity].
    exists m. destruct I as [[= <- ->]|I]; [|exact I]. congruence.
  - destruct (th_announced t) eqn:An.
    + destruct (lock_eq_dec k l) as [->|NE]; [discriminate N|].
      destruct (existsb (holds Sh k) ts); [discriminate A|]. injection A as <-. cbn [th_rest th_announced].
      split; [|destruct r as [|[[] ?| |] ?]; reflexivity].
      exists m. destruct I as [[= <- ->]|I]; [congruence|exact I].
    + destruct (existsb (fun u => holds Ex k u || announces k u) ts) eqn:E; [discriminate A|]. injection A as <-. cbn [th_rest th_announced].
      split; [eauto|]. destruct (lock_eq_dec k l) as [->|NE]; [|reflexivity]. congruence.
  - destruct (holds n k t); [|discriminate A]. injection A as <-. cbn [th_rest th_announced].
    split; [|destruct r as [|[[] ?| |] ?]; reflexivity]. exists m. destruct I as [I|I]; [discriminate I|exact I].
  - injection A as <-. cbn [th_rest th_announced].
    split; [|destruct r as [|[[] ?| |] ?]; reflexivity]. exists m. destruct I as [I|I]; [discriminate I|exact I].
Qed.

(** two threads that want a lock the other one has *)
Definition locked_pair (l : lock) (a b : thread) : Prop :=
  (exists m k r, th_rest a = OLk m k :: r /\ th_announced a = false /\ holds Ex k b = true) /\
  (exists m k r, th_rest b = OLk m k :: r /\ th_announced b = false /\ holds Ex k a = true) /\
  holds Ex l b = true.

Lemma wants_held ts t b m k r : th_rest t = OLk m k :: r -> th_announced t = false -> In b ts -> holds Ex k b = true ->
  advance ts t = None.
Proof.
  intros R A I H. unfold advance. rewrite R, A.
  rewrite (existsb_in (fun u => holds Ex k u || announces k u) b ts I) by (rewrite H; reflexivity).
  destruct m; reflexivity.
Qed.

Lemma pair_step l a b rest i ts : locked_pair l a b -> step (a :: b :: rest) i = Some ts ->
  exists j rest', ts = a :: b :: rest' /\ i = S (S j) /\ exists t t', nth_error rest j = Some t /\
    advance (a :: b :: rest) t = Some t' /\ rest' = update rest j t'.
Proof.
  intros ((m1 & k1 & r1 & R1 & A1 & H1) & (m2 & k2 & r2 & R2 & A2 & H2) & _). unfold step.
  destruct i as [|[|j]]; cbn [nth_error].
  - rewrite (wants_held _ a b m1 k1 r1 R1 A1) by (cbn; auto). discriminate.
  - rewrite (wants_held _ b a m2 k2 r2 R2 A2) by (cbn; auto). discriminate.
  - destruct (nth_error rest j) as [t|] eqn:N; [|discriminate].
    destruct (advance _ t) as [t'|] eqn:E; [|discriminate]. intros [= <-]. exists j, (update rest j t'). repeat split; eauto.
Qed.

Lemma nth_update j : forall ts i (t' : thread), nth_error (update ts j t') i =
  if Nat.eqb i j then match nth_error ts i with Some _ => Some t' | None => None end else nth_error ts i.
Proof.
  induction j as [|j IH]; intros [|u r] [|i] t'; cbn; try reflexivity.
  - destruct (Nat.eqb i j); reflexivity.
  - apply IH.
Qed.

Lemma pair_stays l a b : locked_pair l a b -> forall later rest ts, execute (a :: b :: rest) later = Some ts ->
  exists rest', ts = a :: b :: rest' /\
    forall i t t', nth_error rest i = Some t -> blocked_on l t -> nth_error rest' i = Some t' -> blocked_on l t'.
Proof.
  intros P. induction later as [|i later IH]; cbn [execute]; intros rest ts E.
  - injection E as <-. exists rest. split; [reflexivity|]. intros i t t' N B N'. congruence.
  - destruct (step _ i) as [ts1|] eqn:S; [|discriminate E].
    destruct (pair_step _ _ _ _ _ _ P S) as (j & rest1 & -> & -> & t & t1 & N & A & ->).
    destruct (IH _ _ E) as (rest' & -> & K). exists rest'. split; [reflexivity|].
    intros i u u' Nu B Nu'. destruct (Nat.eqb i j) eqn:Q.
    + apply Nat.eqb_eq in Q. subst i. assert (u = t) by congruence. subst u.
      apply (K j t1); [|eapply blocked_stays; [|exact A|exact B]|exact Nu'].
      * rewrite nth_update, Nat.eqb_refl, N. reflexivity.
      * destruct P as (_ & _ & H). apply (existsb_in _ b); [right; left; reflexivity|exact H].
    + apply (K i u); [|exact B|exact Nu']. rewrite nth_update, Q. exact Nu.
Qed.

(** other threads that have not started do not matter to two threads *)
Lemma fresh_holds m l w : holds m l (fresh w) = false.
Proof. reflexivity. Qed.
Lemma fresh_announces l w : announces l (fresh w) = false.
Proof. unfold announces. cbn. destruct w as [|[[] k| |] r]; reflexivity. Qed.

Lemma existsb_fresh f a b others : (forall w, f (fresh w) = false) ->
  existsb f (a :: b :: map fresh others) = existsb f [a; b].
Proof.
  intros H. cbn [existsb]. f_equal. f_equal. induction others as [|w r IH]; [reflexivity|]. cbn. rewrite H. exact IH.
Qed.

Lemma advance_fresh a b others t : advance (a :: b :: map fresh others) t = advance [a; b] t.
Proof.
  unfold advance. destruct (th_rest t) as [|[[] k|n k|w] r]; try reflexivity.
  - rewrite existsb_fresh; [reflexivity|]. intros w. now rewrite fresh_holds, fresh_announces.
  - rewrite !existsb_fresh; [reflexivity| |].
    + intros w. now rewrite fresh_holds, fresh_announces.
    + intros w. apply fresh_holds.
Qed.

Lemma execute_two others schedule : forall a b a' b', execute [a; b] schedule = Some [a'; b'] ->
  execute (a :: b :: map fresh others) schedule = Some (a' :: b' :: map fresh others).
Proof.
  induction schedule as [|i s IH]; intros a b a' b' E; cbn [execute] in *.
  - injection E as <- <-. reflexivity.
  - unfold step in *. destruct i as [|[|i]]; cbn [nth_error] in *.
    + rewrite advance_fresh. destruct (advance [a; b] a); [|discriminate E]. cbn [update] in *. apply IH, E.
    + rewrite advance_fresh. destruct (advance [a; b] b); [|discriminate E]. cbn [update] in *. apply IH, E.
    + destruct i; discriminate E.
Qed.

Lemma pair_never_finishes r1 r2 l w1 w2 a b schedule : client_thread r1 w1 -> client_thread r2 w2 ->
  execute (map fresh [w1; w2]) schedule = Some [a; b] -> locked_pair l a b -> never_finish r1 r2 l.
Proof.
  intros T1 T2 E P. exists w1, w2. split; [exact T1|]. split; [exact T2|]. intros others.
  exists schedule, (a :: b :: map fresh others). split; [exact (execute_two others schedule _ _ _ _ E)|].
  intros later ts X. destruct (pair_stays l a b P _ _ _ X) as (rest & -> & K).
  exists a, b, rest. split; [reflexivity|].
  destruct P as ((m1 & k1 & q1 & R1 & _) & (m2 & k2 & q2 & R2 & _) & _).
  split; [congruence|]. split; [congruence|]. intros i ops m t N I Nt.
  assert (B : blocked_on l (fresh ops)).
  { split; [exists m; exact I|apply fresh_announces]. }
  destruct (K i (fresh ops) t) as [(n & J) _]; [|exact B|exact Nt|].
  - rewrite nth_error_map, N. reflexivity.
  - intros C. rewrite C in J. destruct J.
Qed.
