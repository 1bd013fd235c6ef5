(** The threads of a client access the fields that a lock protects only with this lock, and the worker's fields are
    accessed by no other thread. *)
From Coq Require Import ZArith String List Bool Lia Arith.
From Verif Require Import Flow Mutex Race HandlersAnalysis MutexSpec MutexProofs RaceSpec RaceProofs RaceGuard
  ClientLocks ClientLocksSpec ClientRace ClientRaceSpec.
Import ListNotations.
Open Scope string_scope.
Open Scope list_scope.

(** ** The table agrees with that of the locks *)
Lemma same_roots : map (fun r => (fst r, locks_only (snd r))) data_roots = client_roots.
Proof. vm_compute. reflexivity. Qed.

Fixpoint locks_of (ks : list aop) : list lop :=
  match ks with
  | [] => []
  | L o :: r => o :: locks_of r
  | _ :: r => locks_of r
  end.

Lemma aops_app : forall a b, aops_of (a ++ b) = aops_of a ++ aops_of b.
Proof. induction a as [|[o|c v] r IH]; cbn; intros b; auto. now rewrite IH. Qed.
Lemma locks_app : forall a b, locks_of (a ++ b) = locks_of a ++ locks_of b.
Proof. induction a as [|[o|v c f|v c f] r IH]; cbn; intros b; auto. now rewrite IH. Qed.
Lemma ops_app : forall a b, ops_of (a ++ b) = ops_of a ++ ops_of b.
Proof. induction a as [|[o|c v] r IH]; cbn; intros b; auto. now rewrite IH. Qed.

Lemma done_dec (p : prog lop) : p = Done \/ p <> Done.
Proof. destruct p; (left; reflexivity) || (right; discriminate). Qed.

Lemma only_if c a b k : (locks_only a = Done /\ locks_only b = Done /\ locks_only (If c a b k) = locks_only k) \/
  (~ (locks_only a = Done /\ locks_only b = Done) /\ locks_only (If c a b k) = If c (locks_only a) (locks_only b) (locks_only k)).
Proof.
  cbn [locks_only]. destruct (locks_only a); try (right; split; [intros [H _]; discriminate H|reflexivity]).
  destruct (locks_only b); try (right; split; [intros [_ H]; discriminate H|reflexivity]). left. auto.
Qed.
Lemma only_loop b k : (locks_only b = Done /\ locks_only (Loop b k) = locks_only k) \/
  (locks_only b <> Done /\ locks_only (Loop b k) = Loop (locks_only b) (locks_only k)).
Proof. cbn [locks_only]. destruct (locks_only b); (left; split; reflexivity) || (right; split; [discriminate|reflexivity]). Qed.
Lemma only_scope b k : (locks_only b = Done /\ locks_only (Scope b k) = locks_only k) \/
  (locks_only b <> Done /\ locks_only (Scope b k) = Scope (locks_only b) (locks_only k)).
Proof. cbn [locks_only]. destruct (locks_only b); (left; split; reflexivity) || (right; split; [discriminate|reflexivity]). Qed.

Lemma quiet_run p t x : run p t x -> locks_only p = Done -> x = Fall /\ locks_of (aops_of t) = [].
Proof.
  induction 1 as [|y|e k t x R IH|c v a b k t1 t2 x R1 IH1 R2 IH2|c v a b k t x R IH Nx|b k t x R IH
    |b k t1 t2 y x R1 IH1 Y R2 IH2|b k t1 t2 x R1 IH1 R2 IH2|b k t x R IH X|b k t1 t2 y x R1 IH1 Y R2 IH2|b k t x R IH X1 X2];
    intros Q; cbn [aops_of]; rewrite ?aops_app, ?locks_app.
  - auto.
  - discriminate Q.
  - destruct e as [o|v c f|v c f]; [discriminate Q| |]; exact (IH Q).
  - destruct (only_if c a b k) as [(A & B & E)|[_ E]]; rewrite E in Q; [|discriminate Q].
    destruct (IH1 ltac:(destruct v; assumption)) as [_ ->]. exact (IH2 Q).
  - destruct (only_if c a b k) as [(A & B & E)|[_ E]]; rewrite E in Q; [|discriminate Q].
    destruct (IH ltac:(destruct v; assumption)) as [F _]. contradiction.
  - destruct (only_loop b k) as [[A E]|[_ E]]; rewrite E in Q; [|discriminate Q]. exact (IH Q).
  - pose proof Q as Q'. destruct (only_loop b k) as [[A E]|[_ E]]; rewrite E in Q'; [|discriminate Q'].
    destruct (IH1 A) as [_ ->]. exact (IH2 Q).
  - destruct (only_loop b k) as [[A E]|[_ E]]; rewrite E in Q; [|discriminate Q]. destruct (IH1 A) as [F _]. discriminate F.
  - destruct (only_loop b k) as [[A E]|[_ E]]; rewrite E in Q; [|discriminate Q]. destruct (IH A) as [-> _]. intuition discriminate.
  - destruct (only_scope b k) as [[A E]|[_ E]]; rewrite E in Q; [|discriminate Q]. destruct (IH1 A) as [_ ->]. exact (IH2 Q).
  - destruct (only_scope b k) as [[A E]|[_ E]]; rewrite E in Q; [|discriminate Q]. destruct (IH A) as [F _]. contradiction.
Qed.

Lemma bare_run p t x : run p t x -> exists t', run (locks_only p) t' x /\ ops_of t' = locks_of (aops_of t).
Proof.
  induction 1 as [|y|e k t x R IH|c v a b k t1 t2 x R1 IH1 R2 IH2|c v a b k t x R IH Nx|b k t x R IH
    |b k t1 t2 y x R1 IH1 Y R2 IH2|b k t1 t2 x R1 IH1 R2 IH2|b k t x R IH X|b k t1 t2 y x R1 IH1 Y R2 IH2|b k t x R IH X1 X2];
    cbn [aops_of]; rewrite ?aops_app, ?locks_app.
  - exists []. split; [constructor|reflexivity].
  - exists []. split; [constructor|reflexivity].
  - destruct IH as (t' & R' & E'). destruct e as [o|v c f|v c f]; cbn [locks_only locks_of]; [|eauto|eauto].
    exists (Did o :: t'). split; [now constructor|]. cbn. now rewrite E'.
  - destruct IH1 as (u1 & S1 & E1), IH2 as (u2 & S2 & E2). destruct (only_if c a b k) as [(A & B & E)|[_ E]]; rewrite E.
    + exists u2. split; [exact S2|]. destruct (quiet_run _ _ _ R1 ltac:(destruct v; assumption)) as [_ ->]. exact E2.
    + exists (Cond c v :: u1 ++ u2). split; [apply run_if; [destruct v; exact S1|exact S2]|]. cbn. now rewrite ops_app, E1, E2.
  - destruct IH as (t' & R' & E'). destruct (only_if c a b k) as [(A & B & E)|[_ E]]; rewrite E.
    + destruct (quiet_run _ _ _ R ltac:(destruct v; assumption)) as [F _]. contradiction.
    + exists (Cond c v :: t'). split; [apply run_if_out; [destruct v; exact R'|exact Nx]|exact E'].
  - destruct IH as (t' & R' & E'). exists t'. split; [|exact E'].
    destruct (only_loop b k) as [[A E]|[_ E]]; rewrite E; [exact R'|now apply run_loop_end].
  - destruct IH1 as (u1 & S1 & E1), IH2 as (u2 & S2 & E2). destruct (only_loop b k) as [[A E]|[_ E]]; rewrite E in *.
    + exists u2. split; [exact S2|]. destruct (quiet_run _ _ _ R1 A) as [_ ->]. exact E2.
    + exists (u1 ++ u2). split; [eapply run_loop_turn; eauto|]. now rewrite ops_app, E1, E2.
  - destruct IH1 as (u1 & S1 & E1), IH2 as (u2 & S2 & E2). destruct (only_loop b k) as [[A E]|[_ E]]; rewrite E in *.
    + destruct (quiet_run _ _ _ R1 A) as [F _]. discriminate F.
    + exists (u1 ++ u2). split; [eapply run_loop_break; eauto|]. now rewrite ops_app, E1, E2.
  - destruct IH as (t' & R' & E'). destruct (only_loop b k) as [[A E]|[_ E]]; rewrite E in *.
    + destruct (quiet_run _ _ _ R A) as [-> _]. intuition discriminate.
    + exists t'. split; [now apply run_loop_out|exact E'].
  - destruct IH1 as (u1 & S1 & E1), IH2 as (u2 & S2 & E2). destruct (only_scope b k) as [[A E]|[_ E]]; rewrite E in *.
    + exists u2. split; [exact S2|]. destruct (quiet_run _ _ _ R1 A) as [_ ->]. exact E2.
    + exists (u1 ++ u2). split; [eapply run_scope; eauto|]. now rewrite ops_app, E1, E2.
  - destruct IH as (t' & R' & E'). destruct (only_scope b k) as [[A E]|[_ E]]; rewrite E in *.
    + destruct (quiet_run _ _ _ R A) as [F _]. contradiction.
    + exists t'. split; [now apply run_scope_out|exact E'].
Qed.

Lemma same_locks root ks : client_performs root ks -> client_does root (locks_in ks).
Proof.
  intros (p & t & x & I & R & <-). destruct (bare_run _ _ _ R) as (t' & R' & E').
  exists (locks_only p), t', x. split; [|split; [exact R'|]].
  - rewrite <- same_roots. apply in_map_iff. exists (root, p). auto.
  - rewrite E'. clear. induction (aops_of t) as [|[o|v c f|v c f] r IH]; cbn; auto. now rewrite IH.
Qed.

(** ** Protected fields *)
Lemma client_unique : forallb (fun p => forallb (fun f => ocls_eqb (t_guard_of client_guarded (fst (fst p)) f) (Some (snd (fst p)))) (snd p)) client_guarded = true.
Proof. vm_compute. reflexivity. Qed.

Lemma client_safe : forallb (t_root_safe client_guarded) data_roots = true.
Proof. vm_compute. reflexivity. Qed.

Lemma client_no_race work ts : clients_threads work -> comes_to work ts ->
  forall f g n, client_guard f g -> ~ race work ts (KChannel, n) f.
Proof.
  intros W C f g n G. apply (t_no_race data_roots client_guarded client_unique client_safe work ts W C (KChannel, n) f g).
  exact G.
Qed.

Lemma client_protects work ts : clients_threads work -> comes_to work ts ->
  forall i j ops ti tj m x n f g, i <> j -> nth_error ts i = Some ti -> In (m, (g, n)) (th_held ti) ->
  nth_error work j = Some ops -> nth_error ts j = Some tj -> next ops tj = Some x -> client_guard f g ->
  (m = Ex -> ~ accesses x (KChannel, n) f) /\ ~ writes x (KChannel, n) f.
Proof.
  intros W C i j ops ti tj m x n f g D Ni Hi Nw Nj N G.
  exact (t_protects data_roots client_guarded client_unique client_safe work ts W C i j ops ti tj m x (KChannel, n) f g D Ni Hi Nw Nj N G).
Qed.

(** ** The worker's fields *)
Definition is_field (f : string) (o : aop) : bool :=
  match o with L _ => false | Rd _ c g | Wr _ c g => cls_eqb c KChannel && String.eqb g f end.

Fixpoint uses (f : string) (p : prog aop) : bool :=
  match p with
  | Done | Exit _ => false
  | Do o k => is_field f o || uses f k
  | If _ a b k => uses f a || uses f b || uses f k
  | Loop b k | Scope b k => uses f b || uses f k
  end.

Lemma uses_run f p t x : run p t x -> uses f p = false -> forall o, In o (aops_of t) -> is_field f o = false.
Proof.
  induction 1 as [|y|e k t x R IH|c v a b k t1 t2 x R1 IH1 R2 IH2|c v a b k t x R IH Nx|b k t x R IH
    |b k t1 t2 y x R1 IH1 Y R2 IH2|b k t1 t2 x R1 IH1 R2 IH2|b k t x R IH X|b k t1 t2 y x R1 IH1 Y R2 IH2|b k t x R IH X1 X2];
    cbn [uses aops_of]; intros U o I; rewrite ?orb_false_iff in U.
  - destruct I.
  - destruct I.
  - destruct I as [<-|I]; [tauto|]. apply IH; tauto.
  - rewrite aops_app in I. apply in_app_or in I as [I|I]; [apply IH1; [destruct v; tauto|exact I]|apply IH2; tauto].
  - apply IH; [destruct v; tauto|exact I].
  - apply IH; tauto.
  - rewrite aops_app in I. apply in_app_or in I as [I|I]; [apply IH1; tauto|apply IH2; [|exact I]].
    cbn [uses]. apply orb_false_iff. tauto.
  - rewrite aops_app in I. apply in_app_or in I as [I|I]; [apply IH1; tauto|apply IH2; tauto].
  - apply IH; tauto.
  - rewrite aops_app in I. apply in_app_or in I as [I|I]; [apply IH1; tauto|apply IH2; tauto].
  - apply IH; tauto.
Qed.

Lemma only_worker_uses : forallb (fun r => String.eqb (fst r) "responseWorker" ||
  forallb (fun f => negb (uses f (snd r))) of_worker) data_roots = true.
Proof. vm_compute. reflexivity. Qed.

Lemma only_worker root ops f x n : client_data_thread root ops -> In f of_worker -> In x ops ->
  accesses x (KChannel, n) f -> root = "responseWorker".
Proof.
  intros ((p & t & e & I & R & E) & _) F X A. pose proof only_worker_uses as U. rewrite forallb_forall in U.
  specialize (U _ I). apply orb_true_iff in U as [U|U]; [now apply String.eqb_eq in U|].
  cbn [snd] in U. rewrite forallb_forall in U. specialize (U _ F). apply negb_true_iff in U.
  assert (Y : In (xkind x) (aops_of t)) by (rewrite E; now apply in_map).
  pose proof (uses_run f p t e R U _ Y) as N.
  destruct A as [[v ->]|[v ->]]; cbn in N; rewrite String.eqb_refl in N; discriminate N.
Qed.

Lemma next_in ops t x : next ops t = Some x -> In x ops.
Proof. unfold next. apply nth_error_In. Qed.

Lemma starts_nth starts work : threads_of_client starts work -> forall i ops, nth_error work i = Some ops ->
  exists root, nth_error starts i = Some root /\ client_data_thread root ops.
Proof.
  induction 1 as [|r o starts work P F IH]; intros [|i] ops; cbn; try discriminate; [|apply IH].
  intros [= <-]. eauto.
Qed.

Lemma worker_alone starts work ts : threads_of_client starts work -> one_worker starts -> comes_to work ts ->
  forall f n, In f of_worker -> ~ race work ts (KChannel, n) f.
Proof.
  intros T O _ f n F (i & j & oi & oj & ti & tj & a & b & D & Wi & _ & Na & Wj & _ & Nb & Wa & Ab).
  destruct (starts_nth _ _ T _ _ Wi) as (ri & Si & Ti). destruct (starts_nth _ _ T _ _ Wj) as (rj & Sj & Tj).
  rewrite (only_worker ri oi f a n Ti F (next_in _ _ _ Na) (or_introl Wa)) in Si.
  rewrite (only_worker rj oj f b n Tj F (next_in _ _ _ Nb) Ab) in Sj. exact (D (O i j Si Sj)).
Qed.
