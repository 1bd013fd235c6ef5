(** A finite-state analysis of handler runs: the states a monitor can be in when a run ends.
    Proof machinery for HandlersProofs.v, no part of the model. *)
From Coq Require Import ZArith List String Bool Lia.
From Verif Require Import Flow.
Import ListNotations.

Definition exit_eqb (a b : exit) : bool :=
  match a, b with
  | Fall, Fall | Break, Break | Continue, Continue | Leave, Leave | Return, Return | Fail, Fail => true
  | _, _ => false
  end.

Lemma exit_eqb_eq a b : exit_eqb a b = true <-> a = b.
Proof. destruct a, b; cbn; split; congruence. Qed.

Section Monitor.
Context {Eff : Type}.
Variable St : Type.
Variable eqS : St -> St -> bool.
Hypothesis eqS_eq : forall a b, eqS a b = true <-> a = b.
Variable step : St -> event Eff -> St.

Notation outs := (list (St * exit)).

Definition mem (s : St) (l : list St) : bool := existsb (eqS s) l.

Lemma mem_in s l : mem s l = true <-> In s l.
Proof.
  unfold mem. rewrite existsb_exists. split.
  - intros (x & I & E). apply eqS_eq in E. congruence.
  - intros I. exists s. split; [assumption|]. now apply eqS_eq.
Qed.

Fixpoint union (a b : list St) : list St :=
  match a with
  | [] => b
  | x :: r => if mem x b then union r b else union r (x :: b)
  end.

Lemma union_in x a : forall b, In x (union a b) <-> In x a \/ In x b.
Proof.
  induction a as [|y r IH]; cbn; intros b; [tauto|].
  destruct (mem y b) eqn:E; rewrite IH.
  - apply mem_in in E. split; [tauto|]. intros [[->|?]|?]; tauto.
  - cbn. tauto.
Qed.

Definition omem (o : St * exit) (l : outs) : bool := existsb (fun p => eqS (fst o) (fst p) && exit_eqb (snd o) (snd p)) l.

Lemma omem_in o l : omem o l = true <-> In o l.
Proof.
  unfold omem. rewrite existsb_exists. split.
  - intros ([s x] & I & E). apply andb_true_iff in E as [E1 E2].
    apply eqS_eq in E1. apply exit_eqb_eq in E2. destruct o; cbn in *. congruence.
  - intros I. exists o. split; [assumption|]. apply andb_true_iff. split; [now apply eqS_eq|now apply exit_eqb_eq].
Qed.

Fixpoint ounion (a b : outs) : outs :=
  match a with
  | [] => b
  | x :: r => if omem x b then ounion r b else ounion r (x :: b)
  end.

Lemma ounion_in x a : forall b, In x (ounion a b) <-> In x a \/ In x b.
Proof.
  induction a as [|y r IH]; cbn; intros b; [tauto|].
  destruct (omem y b) eqn:E; rewrite IH.
  - apply omem_in in E. split; [tauto|]. intros [[->|?]|?]; tauto.
  - cbn. tauto.
Qed.

(* run f on each element, union of the results *)
Fixpoint gather {A} (f : A -> option outs) (l : list A) : option outs :=
  match l with
  | [] => Some []
  | a :: r => match f a, gather f r with
              | Some o, Some p => Some (ounion o p)
              | _, _ => None
              end
  end.

Lemma gather_in {A} (f : A -> option outs) l o : gather f l = Some o ->
  forall y, In y o <-> exists a oa, In a l /\ f a = Some oa /\ In y oa.
Proof.
  revert o. induction l as [|a r IH]; cbn; intros o E y.
  - injection E as <-. split; [contradiction|]. intros (a & oa & [] & _).
  - destruct (f a) as [oa|] eqn:Ea; [|discriminate].
    destruct (gather f r) as [p|] eqn:Er; [|discriminate]. injection E as <-.
    rewrite ounion_in, (IH p eq_refl). split.
    + intros [I|(b & ob & Ib & Eb & Iy)]; [exists a, oa|exists b, ob]; auto.
    + intros (b & ob & [<-|Ib] & Eb & Iy); [left; congruence|right; exists b, ob; auto].
Qed.

Lemma gather_some {A} (f : A -> option outs) l o a : gather f l = Some o -> In a l -> exists oa, f a = Some oa.
Proof.
  revert o. induction l as [|b r IH]; cbn; intros o E I; [contradiction|].
  destruct (f b) as [ob|] eqn:Eb; [|discriminate].
  destruct (gather f r) as [p|] eqn:Er; [|discriminate].
  destruct I as [<-|I]; [eauto|]. exact (IH p eq_refl I).
Qed.

(* continue with k after the exits chosen by go *)
Definition andthen (go : exit -> bool) (k : St -> option outs) (o : outs) : option outs :=
  gather (fun p : St * exit => if go (snd p) then k (fst p) else Some [p]) o.

Definition turn (x : exit) : bool := match x with Fall | Continue => true | _ => false end.

Fixpoint closure (n : nat) (body : St -> option outs) (r : list St) : option (list St) :=
  match n with
  | O => None
  | S n' =>
      match gather body r with
      | None => None
      | Some o =>
          let next := map fst (filter (fun p => turn (snd p)) o) in
          if forallb (fun s => mem s r) next then Some r else closure n' body (union next r)
      end
  end.

Fixpoint analyze (p : prog Eff) (s : St) {struct p} : option outs :=
  match p with
  | Done => Some [(s, Fall)]
  | Exit x => Some [(s, x)]
  | Do e k => analyze k (step s (Did e))
  | If c a b k =>
      match analyze a (step s (Cond c true)), analyze b (step s (Cond c false)) with
      | Some oa, Some ob => andthen (exit_eqb Fall) (analyze k) (ounion oa ob)
      | _, _ => None
      end
  | Loop b k =>
      match closure 20 (analyze b) [s] with
      | None => None
      | Some r =>
          match gather (analyze k) r, gather (analyze b) r with
          | Some ok, Some ob =>
              match andthen (exit_eqb Break) (analyze k) (filter (fun p => negb (turn (snd p))) ob) with
              | Some o => Some (ounion ok o)
              | None => None
              end
          | _, _ => None
          end
      end
  | Scope b k =>
      match analyze b s with
      | Some ob => andthen (fun x => exit_eqb Fall x || exit_eqb Leave x) (analyze k) ob
      | None => None
      end
  end.

Notation after := (fold_left step).

Lemma andthen_in go k o l : andthen go k o = Some l ->
  forall y, In y l <-> (exists s x lk, In (s, x) o /\ go x = true /\ k s = Some lk /\ In y lk) \/
                       (In y o /\ go (snd y) = false).
Proof.
  intros E y. unfold andthen in E. rewrite (gather_in _ _ _ E y). split.
  - intros ([s x] & oa & I & Ea & Iy). cbn in Ea. destruct (go x) eqn:G.
    + left. exists s, x, oa. auto.
    + right. injection Ea as <-. destruct Iy as [<-|[]]. auto.
  - intros [(s & x & lk & I & G & Ek & Iy)|[I G]].
    + exists (s, x), lk. cbn. rewrite G. auto.
    + exists y, [y]. rewrite G. cbn. auto.
Qed.

Lemma andthen_some go k o l s x : andthen go k o = Some l -> In (s, x) o -> go x = true -> exists lk, k s = Some lk.
Proof.
  intros E I G. unfold andthen in E. destruct (gather_some _ _ _ _ E I) as (oa & Ea). cbn in Ea. rewrite G in Ea. eauto.
Qed.

Lemma closure_closed n body : forall r r', closure n body r = Some r' ->
  incl r r' /\ exists o, gather body r' = Some o /\
  (forall s x, In (s, x) o -> turn x = true -> In s r').
Proof.
  induction n as [|n IH]; cbn; intros r r' E; [discriminate|].
  destruct (gather body r) as [o|] eqn:G; [|discriminate].
  destruct (forallb _ _) eqn:F.
  - injection E as <-. split; [apply incl_refl|]. exists o. split; [assumption|].
    intros s x I T. rewrite forallb_forall in F. apply mem_in, F.
    apply in_map_iff. exists (s, x). split; [reflexivity|]. apply filter_In. auto.
  - destruct (IH _ _ E) as [J K]. split; [|assumption].
    intros s I. apply J, union_in. auto.
Qed.

Theorem analyze_sound : forall p s l, analyze p s = Some l ->
  forall t x, run p t x -> In (after t s, x) l.
Proof.
  induction p as [|e k IHk|c a IHa b IHb k IHk|b IHb k IHk|b IHb k IHk|y]; cbn [analyze]; intros s l E t x R.
  - injection E as <-. inversion R; subst. now left.
  - inversion R; subst. cbn. exact (IHk _ _ E _ _ H3).
  - destruct (analyze a _) as [oa|] eqn:Ea; [|discriminate].
    destruct (analyze b _) as [ob|] eqn:Eb; [|discriminate].
    assert (B : forall (v : bool) t1 x1, run (if v then a else b) t1 x1 ->
                In (after t1 (step s (Cond c v)), x1) (ounion oa ob)).
    { intros [|] t1 x1 R1; apply ounion_in; [left; exact (IHa _ _ Ea _ _ R1)|right; exact (IHb _ _ Eb _ _ R1)]. }
    inversion R; subst.
    + cbn [fold_left]. rewrite fold_left_app. apply (andthen_in _ _ _ _ E). left.
      match goal with H : run (if _ then _ else _) _ _ |- _ => pose proof (B _ _ _ H) as I1 end.
      destruct (andthen_some _ _ _ _ _ _ E I1 eq_refl) as (lk & Ek).
      exists (after t1 (step s (Cond c v))), Fall, lk. repeat split; auto; eapply IHk; eauto.
    + apply (andthen_in _ _ _ _ E). right. split; [cbn [fold_left]; apply B; assumption|].
      cbn. destruct x; try reflexivity. congruence.
  - destruct (closure 20 (analyze b) [s]) as [r|] eqn:C; [|discriminate].
    destruct (gather (analyze k) r) as [ok|] eqn:Gk; [|discriminate].
    destruct (gather (analyze b) r) as [ob|] eqn:Gb; [|discriminate].
    destruct (andthen _ _ _) as [o|] eqn:A; [|discriminate]. injection E as <-.
    destruct (closure_closed _ _ _ _ C) as [J (o' & Gb' & Cl)].
    rewrite Gb in Gb'. injection Gb' as <-.
    assert (Is : In s r) by (apply J; now left). clear J C.
    assert (Bd : forall s0, In s0 r -> forall t1 x1, run b t1 x1 -> In (after t1 s0, x1) ob).
    { intros s0 I0 t1 x1 R1. destruct (gather_some _ _ _ _ Gb I0) as (l1 & E1).
      apply (gather_in _ _ _ Gb). exists s0, l1. eauto. }
    assert (Kd : forall s0, In s0 r -> forall t1 x1, run k t1 x1 -> In (after t1 s0, x1) (ounion ok o)).
    { intros s0 I0 t1 x1 R1. destruct (gather_some _ _ _ _ Gk I0) as (l1 & E1).
      apply ounion_in. left. apply (gather_in _ _ _ Gk). exists s0, l1. eauto. }
    revert s Is. remember (Loop b k) as q eqn:Q. induction R; try discriminate; injection Q as -> ->; intros s Is.
    + apply Kd; assumption.
    + rewrite fold_left_app. apply IHR2; [reflexivity|].
      eapply Cl; [apply Bd; eassumption|]. destruct H as [->| ->]; reflexivity.
    + rewrite fold_left_app. apply ounion_in. right. apply (andthen_in _ _ _ _ A). left.
      assert (I1 : In (after t1 s, Break) (filter (fun p => negb (turn (snd p))) ob)).
      { apply filter_In. split; [apply Bd; assumption|reflexivity]. }
      destruct (andthen_some _ _ _ _ _ _ A I1 eq_refl) as (lk & Ek).
      exists (after t1 s), Break, lk. repeat split; auto; eapply IHk; eauto.
    + apply ounion_in. right. apply (andthen_in _ _ _ _ A). right. split.
      * apply filter_In. split; [apply Bd; assumption|]. destruct H as [->|[->| ->]]; reflexivity.
      * destruct H as [->|[->| ->]]; reflexivity.
  - destruct (analyze b s) as [ob|] eqn:Eb; [|discriminate].
    inversion R; subst.
    + rewrite fold_left_app. apply (andthen_in _ _ _ _ E). left.
      match goal with H : run b _ _ |- _ => pose proof (IHb _ _ Eb _ _ H) as I1 end.
      assert (G : (fun x => exit_eqb Fall x || exit_eqb Leave x) y = true)
        by (match goal with H : _ \/ _ |- _ => destruct H as [->| ->] end; reflexivity).
      destruct (andthen_some _ _ _ _ _ _ E I1 G) as (lk & Ek).
      exists (after t1 s), y, lk. repeat split; auto; eapply IHk; eauto.
    + apply (andthen_in _ _ _ _ E). right. split; [eapply IHb; eauto|].
      cbn. destruct x; try reflexivity; congruence.
  - injection E as <-. inversion R; subst. now left.
Qed.

(** Every outcome of the analysis is that of a run. *)
Inductive turns (b : prog Eff) : list (event Eff) -> Prop :=
| turns_none : turns b []
| turns_more : forall t1 t2 x, run b t1 x -> turn x = true -> turns b t2 -> turns b (t1 ++ t2).

Lemma turns_snoc b t1 t2 x : turns b t1 -> run b t2 x -> turn x = true -> turns b (t1 ++ t2).
Proof.
  intros T R X. induction T as [|u1 u2 y Ru Y T IH]; cbn.
  - rewrite <- (app_nil_r t2). econstructor; eauto. constructor.
  - rewrite <- app_assoc. econstructor; eauto.
Qed.

Lemma turns_run b k t1 t2 x : turns b t1 -> run (Loop b k) t2 x -> run (Loop b k) (t1 ++ t2) x.
Proof.
  intros T R. induction T as [|u1 u2 y Ru Y T IH]; cbn; [assumption|].
  rewrite <- app_assoc. eapply run_loop_turn; eauto. destruct y; try discriminate; auto.
Qed.

Theorem analyze_complete : forall p s l, analyze p s = Some l ->
  forall s' x, In (s', x) l -> exists t, run p t x /\ after t s = s'.
Proof.
  induction p as [|e k IHk|c a IHa b IHb k IHk|b IHb k IHk|b IHb k IHk|y]; cbn [analyze]; intros s l E s' x I.
  - injection E as <-. destruct I as [[= <- <-]|[]]. exists []. split; [constructor|reflexivity].
  - destruct (IHk _ _ E _ _ I) as (t & R & F). exists (Did e :: t). split; [now constructor|assumption].
  - destruct (analyze a _) as [oa|] eqn:Ea; [|discriminate].
    destruct (analyze b _) as [ob|] eqn:Eb; [|discriminate].
    assert (B : forall s1 x1, In (s1, x1) (ounion oa ob) -> exists (v : bool) t1, run (if v then a else b) t1 x1 /\
                after t1 (step s (Cond c v)) = s1).
    { intros s1 x1 I1. apply ounion_in in I1 as [I1|I1].
      - destruct (IHa _ _ Ea _ _ I1) as (t1 & R1 & F1). exists true, t1. auto.
      - destruct (IHb _ _ Eb _ _ I1) as (t1 & R1 & F1). exists false, t1. auto. }
    apply (andthen_in _ _ _ _ E) in I as [(s1 & x1 & lk & I1 & G & Ek & Iy)|[I1 G]].
    + apply exit_eqb_eq in G. subst x1. destruct (B _ _ I1) as (v & t1 & R1 & F1).
      destruct (IHk _ _ Ek _ _ Iy) as (t2 & R2 & F2).
      exists (Cond c v :: t1 ++ t2). split; [now apply run_if|]. cbn. now rewrite fold_left_app, F1.
    + destruct (B _ _ I1) as (v & t1 & R1 & F1). exists (Cond c v :: t1). split; [|assumption].
      apply run_if_out; [assumption|]. intros ->. discriminate.
  - destruct (closure 20 (analyze b) [s]) as [r|] eqn:C; [|discriminate].
    destruct (gather (analyze k) r) as [ok|] eqn:Gk; [|discriminate].
    destruct (gather (analyze b) r) as [ob|] eqn:Gb; [|discriminate].
    destruct (andthen _ _ _) as [o|] eqn:A; [|discriminate]. injection E as <-.
    assert (Rc : forall s0, In s0 r -> exists t0, turns b t0 /\ after t0 s = s0).
    { clear - C IHb eqS_eq. revert C.
      assert (G0 : forall s0, In s0 [s] -> exists t0, turns b t0 /\ after t0 s = s0).
      { intros s0 [<-|[]]. exists []. split; [constructor|reflexivity]. }
      revert G0. generalize [s] as q. generalize 20%nat as n.
      induction n as [|n IH]; cbn; intros q G0 C; [discriminate|].
      destruct (gather (analyze b) q) as [o|] eqn:G; [|discriminate].
      destruct (forallb _ _).
      - injection C as <-. exact G0.
      - refine (IH _ _ C). intros s0 I0. apply union_in in I0 as [I0|I0]; [|auto].
        apply in_map_iff in I0 as ([s1 x1] & <- & I1). apply filter_In in I1 as [I1 T1]. cbn in *.
        apply (proj1 (gather_in _ _ _ G _)) in I1 as (s2 & o2 & I2 & E2 & I3).
        destruct (G0 _ I2) as (t0 & T0 & F0). destruct (IHb _ _ E2 _ _ I3) as (t1 & R1 & F1).
        exists (t0 ++ t1). split; [eapply turns_snoc; eauto|]. now rewrite fold_left_app, F0. }
    assert (Bd : forall s1 x1, In (s1, x1) ob -> exists t0 t1, turns b t0 /\ run b t1 x1 /\ after t1 (after t0 s) = s1).
    { intros s1 x1 I1. apply (proj1 (gather_in _ _ _ Gb _)) in I1 as (s2 & o2 & I2 & E2 & I3).
      destruct (Rc _ I2) as (t0 & T0 & F0). destruct (IHb _ _ E2 _ _ I3) as (t1 & R1 & F1).
      exists t0, t1. subst. auto. }
    apply ounion_in in I as [I|I].
    + apply (proj1 (gather_in _ _ _ Gk _)) in I as (s2 & o2 & I2 & E2 & I3).
      destruct (Rc _ I2) as (t0 & T0 & F0). destruct (IHk _ _ E2 _ _ I3) as (t1 & R1 & F1).
      exists (t0 ++ t1). split; [apply turns_run; [assumption|now apply run_loop_end]|].
      now rewrite fold_left_app, F0.
    + apply (andthen_in _ _ _ _ A) in I as [(s1 & x1 & lk & I1 & G & Ek & Iy)|[I1 G]].
      * apply exit_eqb_eq in G. subst x1. apply filter_In in I1 as [I1 _].
        destruct (Bd _ _ I1) as (t0 & t1 & T0 & R1 & F1). destruct (IHk _ _ Ek _ _ Iy) as (t2 & R2 & F2).
        exists (t0 ++ t1 ++ t2). split; [apply turns_run; [assumption|now apply run_loop_break]|].
        now rewrite !fold_left_app, F1.
      * apply filter_In in I1 as [I1 T1]. destruct (Bd _ _ I1) as (t0 & t1 & T0 & R1 & F1).
        exists (t0 ++ t1). split; [|now rewrite fold_left_app].
        apply turns_run; [assumption|]. apply run_loop_out; [assumption|].
        cbn in *. destruct x; try discriminate; auto.
  - destruct (analyze b s) as [ob|] eqn:Eb; [|discriminate].
    apply (andthen_in _ _ _ _ E) in I as [(s1 & x1 & lk & I1 & G & Ek & Iy)|[I1 G]].
    + destruct (IHb _ _ Eb _ _ I1) as (t1 & R1 & F1). destruct (IHk _ _ Ek _ _ Iy) as (t2 & R2 & F2).
      exists (t1 ++ t2). split; [|now rewrite fold_left_app, F1].
      eapply run_scope; eauto. apply orb_true_iff in G as [G|G]; apply exit_eqb_eq in G; auto.
    + destruct (IHb _ _ Eb _ _ I1) as (t1 & R1 & F1). exists t1. split; [|assumption].
      cbn in G. apply run_scope_out; [assumption|intros ->; discriminate|intros ->; discriminate].
  - injection E as <-. destruct I as [[= <- <-]|[]]. exists []. split; [constructor|reflexivity].
Qed.

End Monitor.
