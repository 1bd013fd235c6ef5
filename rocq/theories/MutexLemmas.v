(** Runs of the server's functions for given outcomes of the conditions, and the deadlocks they lead to. *)
From Coq Require Import ZArith String List Bool Lia Arith.
From Verif Require Import Flow Mutex MutexTable HandlersAnalysis MutexSpec MutexProofs.
Import ListNotations.

(** ** Runs for given choices: the outcomes of the conditions; whether a loop takes another turn. Without a choice: no. *)
Definition choose (cs : list bool) : bool * list bool :=
  match cs with [] => (false, []) | c :: r => (c, r) end.

Fixpoint drive {E : Type} (n : nat) (p : prog E) (cs : list bool) : option (list (event E) * exit * list bool) :=
  match n with
  | O => None
  | S n =>
      match p with
      | Done => Some ([], Fall, cs)
      | Exit x => Some ([], x, cs)
      | Do e k =>
          match drive n k cs with Some (t, x, cs) => Some (Did e :: t, x, cs) | None => None end
      | If c a b k =>
          let (v, cs) := choose cs in
          match drive n (if v then a else b) cs with
          | Some (t1, Fall, cs) =>
              match drive n k cs with Some (t2, x, cs) => Some (Cond c v :: t1 ++ t2, x, cs) | None => None end
          | Some (t1, x, cs) => Some (Cond c v :: t1, x, cs)
          | None => None
          end
      | Loop b k =>
          let (v, cs) := choose cs in
          if v then
            match drive n b cs with
            | Some (t1, (Fall | Continue), cs) =>
                match drive n (Loop b k) cs with Some (t2, x, cs) => Some (t1 ++ t2, x, cs) | None => None end
            | Some (t1, Break, cs) =>
                match drive n k cs with Some (t2, x, cs) => Some (t1 ++ t2, x, cs) | None => None end
            | Some (t1, x, cs) => Some (t1, x, cs)
            | None => None
            end
          else drive n k cs
      | Scope b k =>
          match drive n b cs with
          | Some (t1, (Fall | Leave), cs) =>
              match drive n k cs with Some (t2, x, cs) => Some (t1 ++ t2, x, cs) | None => None end
          | Some (t1, x, cs) => Some (t1, x, cs)
          | None => None
          end
      end
  end.

Lemma drive_run {Eff : Type} : forall n (p : prog Eff) cs t x cs', drive n p cs = Some (t, x, cs') -> run p t x.
Proof.
  induction n as [|n IH]; intros p cs t x cs' D; [discriminate D|].
  destruct p as [|e k|c a b k|b k|b k|y]; cbn [drive] in D.
  - injection D as <- <- <-. constructor.
  - destruct (drive n k cs) as [[[t0 x0] cs0]|] eqn:E; [|discriminate D]. injection D as <- <- <-.
    constructor. eauto.
  - destruct (choose cs) as [v cs1]. destruct (drive n _ cs1) as [[[t1 x1] cs2]|] eqn:E; [|discriminate D].
    destruct x1; try (injection D as <- <- <-; apply run_if_out; [eapply IH; exact E|discriminate]).
    destruct (drive n k cs2) as [[[t2 x2] cs3]|] eqn:E2; [|discriminate D]. injection D as <- <- <-.
    apply run_if; eapply IH; eassumption.
  - destruct (choose cs) as [v cs1]. destruct v.
    + destruct (drive n b cs1) as [[[t1 x1] cs2]|] eqn:E; [|discriminate D].
      destruct x1; try (injection D as <- <- <-; apply run_loop_out; [eapply IH; exact E|tauto]).
      * destruct (drive n (Loop b k) cs2) as [[[t2 x2] cs3]|] eqn:E2; [|discriminate D]. injection D as <- <- <-.
        eapply run_loop_turn; [eapply IH; exact E|tauto|eapply IH; exact E2].
      * destruct (drive n k cs2) as [[[t2 x2] cs3]|] eqn:E2; [|discriminate D]. injection D as <- <- <-.
        eapply run_loop_break; [eapply IH; exact E|eapply IH; exact E2].
      * destruct (drive n (Loop b k) cs2) as [[[t2 x2] cs3]|] eqn:E2; [|discriminate D]. injection D as <- <- <-.
        eapply run_loop_turn; [eapply IH; exact E|tauto|eapply IH; exact E2].
    + apply run_loop_end. eauto.
  - destruct (drive n b cs) as [[[t1 x1] cs2]|] eqn:E; [|discriminate D].
    destruct x1; try (injection D as <- <- <-; apply run_scope_out; [eapply IH; exact E|discriminate|discriminate]).
    + destruct (drive n k cs2) as [[[t2 x2] cs3]|] eqn:E2; [|discriminate D]. injection D as <- <- <-.
      eapply run_scope; [eapply IH; exact E|tauto|eapply IH; exact E2].
    + destruct (drive n k cs2) as [[[t2 x2] cs3]|] eqn:E2; [|discriminate D]. injection D as <- <- <-.
      eapply run_scope; [eapply IH; exact E|tauto|eapply IH; exact E2].
  - injection D as <- <- <-. constructor.
Qed.

(** every kind of lock stands for one lock *)
Definition the (o : lop) : op :=
  match o with Lk m c => OLk m (c, 0%Z) | Un m c => OUn m (c, 0%Z) | Wt w => OWt w end.

Definition work_of (root : string) (cs : list bool) : list op :=
  match find (fun r => String.eqb (fst r) root) roots with
  | Some (_, p) => match drive 2000 p cs with Some (t, _, _) => map the (ops_of t) | None => [] end
  | None => []
  end.

Definition driven (root : string) (cs : list bool) : bool :=
  match find (fun r => String.eqb (fst r) root) roots with
  | Some (_, p) => match drive 2000 p cs with Some _ => true | None => false end
  | None => false
  end.

Lemma kind_the ks : map kind (map the ks) = ks.
Proof. rewrite map_map. rewrite <- (map_id ks) at 2. apply map_ext. intros [m c|m c|w]; reflexivity. Qed.

Lemma remove1_in h x : forall l, In x (remove1 h l) -> In x l.
Proof.
  induction l as [|y r IH]; cbn [remove1]; [tauto|]. destruct (hold_eq_dec h y); cbn; intuition.
Qed.

Lemma paired_the ks : forall held, (forall n k, In (n, k) held -> snd k = 0%Z) -> paired held (map the ks).
Proof.
  induction ks as [|[m c|m c|w] ks IH]; intros held Z; cbn [map the paired]; [exact I| | |].
  - apply IH. intros n k [[= <- <-]|H]; [reflexivity|eauto].
  - split.
    + intros b a k -> E _. cbn [fst] in E. destruct k as [c' z]. cbn [fst] in E. subst c'.
      rewrite <- (Z m (c, z)) by (apply in_elt). reflexivity.
    + apply IH. intros n k H. apply remove1_in in H. eauto.
  - apply IH. exact Z.
Qed.

Lemma driven_thread root cs : driven root cs = true -> thread_of root (work_of root cs).
Proof.
  unfold driven, work_of. destruct (find _ roots) as [[r p]|] eqn:F; [|discriminate].
  destruct (drive 2000 p cs) as [[[t x] cs']|] eqn:D; [|discriminate]. intros _.
  apply find_some in F as [I E]. cbn [fst] in E. apply String.eqb_eq in E. subst r. split.
  - exists p, t, x. split; [exact I|]. split; [eapply drive_run; exact D|]. symmetry. apply kind_the.
  - apply paired_the. intros n k [].
Qed.

(** ** Schedules *)
(** thread i alone, up to the operation and the locks given *)
Definition op_eqb (a b : op) : bool :=
  match a, b with
  | OLk m l, OLk n k | OUn m l, OUn n k => if hold_eq_dec (m, l) (n, k) then true else false
  | OWt v, OWt w => String.eqb v w
  | _, _ => false
  end.

Definition is_at (held : list (mode * lock)) (o : op) (t : thread) : bool :=
  (if list_eq_dec hold_eq_dec (th_held t) held then true else false) &&
  match th_rest t with x :: _ => op_eqb x o | [] => false end.

Fixpoint alone (n : nat) (goal : thread -> bool) (i : nat) (ts : list thread) : list nat * list thread :=
  match n with
  | O => ([], ts)
  | S n =>
      match nth_error ts i with
      | None => ([], ts)
      | Some t =>
          if goal t then ([], ts) else
          match step ts i with
          | None => ([], ts)
          | Some ts' => let (s, e) := alone n goal i ts' in (i :: s, e)
          end
      end
  end.

Lemma alone_executes n goal i : forall ts, execute ts (fst (alone n goal i ts)) = Some (snd (alone n goal i ts)).
Proof.
  induction n as [|n IH]; intros ts; cbn [alone]; [reflexivity|].
  destruct (nth_error ts i) as [t|]; [|reflexivity]. destruct (goal t); [reflexivity|].
  destruct (step ts i) as [ts'|] eqn:E; [|reflexivity]. specialize (IH ts').
  destruct (alone n goal i ts') as [s e]. cbn [fst snd] in *. cbn [execute]. rewrite E. exact IH.
Qed.

(** one thread after the other goes to the place given for it, then each as far as it can *)
Fixpoint all_to (i : nat) (goals : list (thread -> bool)) (ts : list thread) : list thread :=
  match goals with
  | [] => ts
  | g :: r => all_to (S i) r (snd (alone 2000 g i ts))
  end.

Lemma all_to_executes : forall goals i ts, exists s, execute ts s = Some (all_to i goals ts).
Proof.
  induction goals as [|g r IH]; intros i ts; cbn [all_to]; [exists []; reflexivity|].
  destruct (IH (S i) (snd (alone 2000 g i ts))) as (s & E).
  exists (fst (alone 2000 g i ts) ++ s). eapply execute_app; [apply alone_executes|exact E].
Qed.

Definition outcome (work : list (list op)) (goals : list (thread -> bool)) : list thread :=
  all_to 0 (map (fun _ _ => false) work) (all_to 0 goals (map fresh work)).

Lemma outcome_reached work goals : reaches work (outcome work goals).
Proof.
  unfold reaches, outcome. destruct (all_to_executes goals 0 (map fresh work)) as (s & E).
  destruct (all_to_executes (map (fun _ _ => false) work) 0 (all_to 0 goals (map fresh work))) as (s2 & E2).
  exists (s ++ s2). eapply execute_app; eauto.
Qed.

Definition stuckb (ts : list thread) : bool :=
  forallb (fun t => match advance ts t with None => true | Some _ => false end) ts &&
  existsb (fun t => match th_rest t with [] => false | _ => true end) ts.

Lemma stuckb_deadlock ts : stuckb ts = true -> deadlock ts.
Proof.
  unfold stuckb. intros H. apply andb_true_iff in H as [A B]. split.
  - intros i. unfold step. destruct (nth_error ts i) as [t|] eqn:N; [|reflexivity].
    rewrite forallb_forall in A. specialize (A _ (nth_error_In _ _ N)). destruct (advance ts t); [discriminate A|reflexivity].
  - intros F. apply existsb_exists in B as (t & I & B). rewrite (F _ I) in B. discriminate B.
Qed.

Definition waiting (held : list (mode * lock)) (m : mode) (l : lock) (t : thread) : bool := is_at held (OLk m l) t.

Lemma waiting_spec held m l t : waiting held m l t = true -> holding t held /\ wants t m l.
Proof.
  unfold waiting, is_at, holding, wants. intros H. apply andb_true_iff in H as [A B].
  destruct (list_eq_dec hold_eq_dec (th_held t) held); [|discriminate A]. split; [assumption|].
  destruct (th_rest t) as [|[n k|n k|w] r]; try discriminate B. cbn [op_eqb] in B.
  destruct (hold_eq_dec (n, k) (m, l)) as [[= -> ->]|]; [eauto|discriminate B].
Qed.
Definition w_publish_manager : list bool := [true; false; true; false; false; true; false; false; false; false; true].
Definition w_sweep : list bool := [true; true; true].
Definition w_publish_item : list bool := [true; false; true; true; true].
Definition w_poll_subscription : list bool := [true; false; true; true; true; false; false; false; false; true; false; false; false; true; true; false; false; false; false; true; false; false; false; true; false; true].
Definition w_publish_resend : list bool := [true; false; true; true; true; false; false; true; true; false; false; false; false; true; false; false; false; true; true; false; false; false; false; true; false; false; false; true; false; true].
Definition w_poll_manager : list bool := [true; false; true; true; true; false; false; false; false; true; false; false; false; true; true; false; false; false; false; true; false; false; false; false; true].
Definition w_sweep_item : list bool := [true; true; true; true; false; true; true].
Definition w_event_item : list bool := [true].
Definition w_delete_item : list bool := [true].
Definition w_event_type : list bool := [true; true; false; false; true; true; true; true; true; true].
Definition w_add_node : list bool := [true; true; true; false; true; true; true; true; false; false; true].
Definition w_event_self : list bool := [true; false; true; true; true; false].
Definition w_event_data : list bool := [true; false; true; true; true; true].
Definition w_publish_event : list bool := [true; false; true; true; true; false; true; true; true; true; false].
Definition w_endpoints : list bool := [true; true].
Definition w_close : list bool := [].
Definition w_publish_write : list bool := [true; false; true; false; false; true; false; false; false; true; false; true; false; false; false; false; false; true; false; false; false; false; false; false; false; false; false; false; false; false].
Definition w_publish_state : list bool := [true; false; true; false; false; true; false; false; false; false; true].
Definition w_request : list bool := [false; false; false; false; false; false; false; false; false; true; false; false; false; true; false; false; true; false; false; false; false; false; false; true].

(** two threads, the first stopped at a place of its work until the other is stuck *)
Definition dead2 (r1 r2 : string) (c1 c2 : list bool) (g1 g2 : thread -> bool) : bool :=
  driven r1 c1 && driven r2 c2 &&
  let ts := outcome [work_of r1 c1; work_of r2 c2] [g1; g2] in
  stuckb ts && match ts with [a; b] => g1 a && g2 b | _ => false end.

Lemma dead2_deadlock r1 r2 c1 c2 h1 m1 l1 h2 m2 l2 :
  dead2 r1 r2 c1 c2 (waiting h1 m1 l1) (waiting h2 m2 l2) = true -> deadlock_of r1 r2 h1 m1 l1 h2 m2 l2.
Proof.
  unfold dead2. cbv zeta. intros H. apply andb_true_iff in H as [H X]. apply andb_true_iff in H as [D1 D2].
  apply andb_true_iff in X as [S G].
  pose proof (outcome_reached [work_of r1 c1; work_of r2 c2] [waiting h1 m1 l1; waiting h2 m2 l2]) as R.
  destruct (outcome _ _) as [|a [|b [|]]]; try discriminate G. apply andb_true_iff in G as [G1 G2].
  exists (work_of r1 c1), (work_of r2 c2), a, b. destruct (waiting_spec _ _ _ _ G1). destruct (waiting_spec _ _ _ _ G2).
  repeat split; try assumption; try (now apply driven_thread); now apply stuckb_deadlock.
Qed.

Definition dead1 (r : string) (c : list bool) (g : thread -> bool) : bool :=
  driven r c && let ts := outcome [work_of r c] [g] in stuckb ts && match ts with [a] => g a | _ => false end.

Lemma dead1_deadlock r c h m l : dead1 r c (waiting h m l) = true -> deadlock_alone r h m l.
Proof.
  unfold dead1. cbv zeta. intros H. apply andb_true_iff in H as [D X]. apply andb_true_iff in X as [S G].
  pose proof (outcome_reached [work_of r c] [waiting h m l]) as R.
  destruct (outcome _ _) as [|a [|]]; try discriminate G.
  exists (work_of r c), a. destruct (waiting_spec _ _ _ _ G).
  repeat split; try assumption; try (now apply driven_thread); now apply stuckb_deadlock.
Qed.

Lemma expiry_deadlock : deadlock_of "Subscription.startPublishing.go1" "NewSubscriptionManager.go1"
  [(Ex, sub)] Ex manager [(Ex, manager)] Sh sub.
Proof. apply (dead2_deadlock _ _ w_publish_manager w_sweep). vm_compute. reflexivity. Qed.
Lemma poll_deadlock : deadlock_of "Subscription.startPublishing.go1" "PollGroup.run"
  [(Ex, sub)] Ex item [(Ex, item)] Sh sub.
Proof. apply (dead2_deadlock _ _ w_publish_item w_poll_subscription). vm_compute. reflexivity. Qed.
Lemma resend_deadlock : deadlock_alone "Subscription.startPublishing.go1" [(Ex, item); (Ex, sub)] Sh sub.
Proof. apply (dead1_deadlock _ w_publish_resend). vm_compute. reflexivity. Qed.
Lemma sweep_deadlock : deadlock_of "PollGroup.run" "NewSubscriptionManager.go1"
  [(Ex, item)] Sh manager [(Ex, sub); (Ex, manager)] Ex item.
Proof. apply (dead2_deadlock _ _ w_poll_manager w_sweep_item). vm_compute. reflexivity. Qed.
Lemma event_deadlock : deadlock_of "ObjectNode.OnEvent" "EventMonitoredItem.Delete"
  [(Sh, object)] Ex event_item [(Ex, event_item)] Ex object.
Proof. apply (dead2_deadlock _ _ w_event_item w_delete_item). vm_compute. reflexivity. Qed.
Lemma event_type_deadlock : deadlock_of "ObjectNode.OnEvent" "NamespaceManager.AddNode"
  [(Ex, event_item); (Sh, object)] Sh names [(Ex, names)] Ex object.
Proof. apply (dead2_deadlock _ _ w_event_type w_add_node). vm_compute. reflexivity. Qed.
Lemma self_trigger_deadlock : deadlock_alone "ObjectNode.OnEvent" [(Ex, event_item); (Sh, object)] Ex event_item.
Proof. apply (dead1_deadlock _ w_event_self). vm_compute. reflexivity. Qed.
Lemma trigger_deadlock : deadlock_of "ObjectNode.OnEvent" "Subscription.startPublishing.go1"
  [(Ex, event_item); (Sh, object)] Ex item [(Ex, item); (Ex, sub)] Ex event_item.
Proof. apply (dead2_deadlock _ _ w_event_data w_publish_event). vm_compute. reflexivity. Qed.
Lemma endpoints_deadlock : deadlock_of "Server.Close" "Server.Endpoints" [] Ex server [(Sh, server)] Sh server.
Proof. apply (dead2_deadlock _ _ w_close w_endpoints). vm_compute. reflexivity. Qed.

(** ** A client that does not read *)
Definition held3 (r1 r2 r3 : string) (c1 c2 c3 : list bool) (g1 g2 g3 : thread -> bool) : bool :=
  driven r1 c1 && driven r2 c2 && driven r3 c3 &&
  let ts := all_to 1 [fun _ => false; fun _ => false]
    (all_to 0 [g1; g2; g3] (map fresh [work_of r1 c1; work_of r2 c2; work_of r3 c3])) in
  match ts with
  | [a; b; c] => g1 a && g2 b && g3 c &&
      match advance ts b, advance ts c with None, None => true | _, _ => false end
  | _ => false
  end.

Lemma is_at_spec held o t : is_at held o t = true -> holding t held /\ exists r, th_rest t = o :: r.
Proof.
  unfold is_at, holding. intros H. apply andb_true_iff in H as [A B].
  destruct (list_eq_dec hold_eq_dec (th_held t) held); [|discriminate A]. split; [assumption|].
  destruct (th_rest t) as [|x r]; [discriminate B|]. exists r. f_equal.
  destruct x as [m l|m l|w], o as [n k|n k|v]; cbn [op_eqb] in B; try discriminate B;
    try (destruct (hold_eq_dec (m, l) (n, k)) as [[= -> ->]|]; [reflexivity|discriminate B]).
  apply String.eqb_eq in B. congruence.
Qed.

Lemma held3_up r1 r2 r3 c1 c2 c3 h1 w h2 m2 l2 h3 m3 l3 :
  held3 r1 r2 r3 c1 c2 c3 (is_at h1 (OWt w)) (waiting h2 m2 l2) (waiting h3 m3 l3) = true ->
  held_up r1 r2 r3 h1 w h2 m2 l2 h3 m3 l3.
Proof.
  unfold held3. cbv zeta. intros H. apply andb_true_iff in H as [H X]. apply andb_true_iff in H as [H D3].
  apply andb_true_iff in H as [D1 D2].
  match type of X with context [all_to 1 ?g ?s] =>
    destruct (all_to_executes g 1 s) as (s2 & E2); destruct (all_to 1 g s) as [|a [|b [|c [|]]]] eqn:T; try discriminate X end.
  match type of E2 with execute (all_to 0 ?g ?s) _ = _ => destruct (all_to_executes g 0 s) as (s1 & E1) end.
  apply andb_true_iff in X as [X N]. apply andb_true_iff in X as [X G3]. apply andb_true_iff in X as [G1 G2].
  destruct (advance [a; b; c] b) eqn:Nb; [discriminate N|]. destruct (advance [a; b; c] c) eqn:Nc; [discriminate N|].
  exists (work_of r1 c1), (work_of r2 c2), (work_of r3 c3), a, b, c.
  destruct (is_at_spec _ _ _ G1) as [? [? ?]]. destruct (waiting_spec _ _ _ _ G2). destruct (waiting_spec _ _ _ _ G3).
  repeat split; try assumption; try (now apply driven_thread); try (eexists; eassumption).
  - exists (s1 ++ s2). eapply execute_app; [exact E1|exact E2].
  - intros [|[|[|i]]] Hi; [congruence| | |]; unfold step; cbn [nth_error].
    + now rewrite Nb.
    + now rewrite Nc.
    + now destruct i.
Qed.

Lemma slow_client : held_up "Subscription.startPublishing.go1" "NewSubscriptionManager.go1" "Server.handleConnection"
  [(Ex, sending); (Ex, sub)] "network write" [(Ex, manager)] Sh sub [] Sh manager.
Proof. apply (held3_up _ _ _ w_publish_write w_sweep w_request). vm_compute. reflexivity. Qed.
Lemma full_state_channel : held_up "Subscription.startPublishing.go1" "NewSubscriptionManager.go1" "Server.handleConnection"
  [(Ex, sub)] "channel s.session.stateChanges" [(Ex, manager)] Sh sub [] Sh manager.
Proof. apply (held3_up _ _ _ w_publish_state w_sweep w_request). vm_compute. reflexivity. Qed.

(** ** The hypotheses can be met *)
(** the pairs of locks nested in some work *)
Fixpoint pairs_of (held : list (mode * lock)) (ops : list op) : list (cls * cls) :=
  match ops with
  | [] => []
  | OLk m l :: r => map (fun h => (fst (snd h), fst l)) held ++ pairs_of ((m, l) :: held) r
  | OUn m l :: r => pairs_of (remove1 (m, l) held) r
  | OWt _ :: r => pairs_of held r
  end.

Lemma pairs_of_nest held ops c d : nest_in held ops c d -> In (c, d) (pairs_of held ops).
Proof.
  induction 1 as [held m l r h I| | |]; cbn [pairs_of]; try assumption; apply in_or_app.
  - left. apply in_map_iff. exists h. auto.
  - right. assumption.
Qed.

Definition in_orderb (r : string) (cs : list bool) : bool :=
  driven r cs && forallb (fun p => negb (existsb (fun q => cls_eqb (fst p) (fst q) && cls_eqb (snd p) (snd q)) out_of_order))
    (pairs_of [] (work_of r cs)).

Lemma in_orderb_spec rs : forallb (fun r => in_orderb (fst r) (snd r)) rs = true ->
  in_order (map (fun r => work_of (fst r) (snd r)) rs).
Proof.
  intros F ops I. apply in_map_iff in I as ([r cs] & <- & I). rewrite forallb_forall in F. specialize (F _ I).
  cbn [fst snd] in *. unfold in_orderb in F. apply andb_true_iff in F as [D F]. split.
  - exists r. now apply driven_thread.
  - intros c d (b & m & l & a & E & <- & n & k & H & <-) B. rewrite forallb_forall in F.
    assert (X : In (fst k, fst l) (pairs_of [] (work_of r cs))).
    { apply pairs_of_nest. rewrite E. eapply nests_nest_in, H. }
    specialize (F _ X). apply negb_true_iff in F.
    rewrite (proj2 (existsb_exists _ _)) in F; [discriminate F|]. exists (fst k, fst l). split; [exact B|].
    cbn [fst snd]. now rewrite !(proj2 (cls_eqb_eq _ _) eq_refl).
Qed.

(** Publishing with a keep alive message, the search for expired subscriptions with one found and deleted, sampling
    an item and an event that triggers nothing: together they always come to an end. *)
Definition four : list (string * list bool) :=
  [("Subscription.startPublishing.go1"%string, w_publish_write); ("NewSubscriptionManager.go1"%string, w_sweep_item);
   ("PollGroup.run"%string, [true; false; true; true; true]); ("EventMonitoredItem.OnEvent"%string, [])].

Example four_in_order : in_order (map (fun r => work_of (fst r) (snd r)) four) /\
  Nat.ltb 30 (length (concat (map (fun r => work_of (fst r) (snd r)) four))) = true.
Proof. split; [apply in_orderb_spec; vm_compute; reflexivity|vm_compute; reflexivity]. Qed.

(** publishing takes the lock of the subscription and that for sending *)
Example publish_takes : does "Subscription.startPublishing.go1" (map kind (work_of "Subscription.startPublishing.go1" w_publish_write)) /\
  times (Lk Ex KSubscription) (map kind (work_of "Subscription.startPublishing.go1" w_publish_write)) = 1 /\
  times (Lk Ex KSending) (map kind (work_of "Subscription.startPublishing.go1" w_publish_write)) = 1.
Proof. split; [apply driven_thread; vm_compute; reflexivity|split; vm_compute; reflexivity]. Qed.

(** It waits for the network with these two *)
Example publish_waits : exists ops, server_thread ops /\ waits_holding ops KSubscription "network write".
Proof.
  exists (work_of "Subscription.startPublishing.go1" w_publish_write). split.
  - eexists. apply driven_thread. vm_compute. reflexivity.
  - set (ops := work_of "Subscription.startPublishing.go1" w_publish_write).
    set (n := length (fst (alone 2000 (is_at [(Ex, sending); (Ex, sub)] (OWt "network write")) 0 [fresh ops]))).
    assert (H : exists k, nth_error ops k = Some (OWt "network write") /\ In (Ex, sub) (held_after [] (firstn k ops))).
    { destruct (find (fun k => match nth_error ops k with Some (OWt w) => String.eqb w "network write" | _ => false end)
        (seq 0 (length ops))) as [k|] eqn:F.
      - exists k. revert F. unfold ops. vm_compute. intros [= <-]. auto.
      - exfalso. revert F. unfold ops. vm_compute. discriminate. }
    destruct H as (k & N & I). exists (firstn k ops), (skipn (S k) ops). split.
    + apply nth_error_split in N as (l1 & l2 & E & <-). rewrite E.
      rewrite firstn_app, Nat.sub_diag, firstn_all, app_nil_r.
      change (S (length l1)) with (1 + length l1). rewrite Nat.add_comm. rewrite <- skipn_skipn || idtac.
      f_equal. f_equal. clear. induction l1 as [|x l IH]; cbn; [reflexivity|exact IH].
    + exists Ex, sub. auto.
Qed.
