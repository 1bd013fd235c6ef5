From Coq Require Import List Bool Arith Lia.
From Verif Require Import Locks LocksSpec.
Import ListNotations.
Open Scope nat_scope.

Definition rank (l : lname) : nat :=
  match l with LManager => 0 | LSub _ => 1 | LItem _ => 2 | LNames => 3 | LNode _ => 4 | LLeaf _ => 5 end.
Lemma lname_eqb_eq a b : lname_eqb a b = true <-> a = b.
Proof.
  destruct a, b; cbn; split; intros H; try discriminate; try reflexivity;
    try (apply Nat.eqb_eq in H; subst; reflexivity); injection H as ->; apply Nat.eqb_refl.
Qed.
Lemma lname_eqb_refl a : lname_eqb a a = true.
Proof. apply lname_eqb_eq; reflexivity. Qed.

Fixpoint ordered (held : list (lname * bool)) (p : list lact) {struct p} : Prop :=
  match p with
  | [] => held = []
  | Acq l w :: p => (forall h, In h held -> rank (fst h) < rank l) /\ ordered ((l, w) :: held) p
  | Rel l :: p => ordered (release l held) p
  end.
Definition g_ok (g : goroutine) : Prop := ordered (g_held g) (g_rest g).

Lemma g_step_ok gs g g' : g_ok g -> g_step gs g = Some g' -> g_ok g'.
Proof.
  unfold g_ok, g_step. destruct (g_rest g) as [|[l w|l] p]; intros O E; [discriminate| |].
  - destruct O as [_ O]. destruct w.
    + destruct (existsb _ _); [discriminate|]. injection E as <-. exact O.
    + destruct (_ || _); [discriminate|]. injection E as <-. exact O.
  - injection E as <-. exact O.
Qed.
Lemma g_set_in i g gs x : In x (g_set i g gs) -> x = g \/ In x gs.
Proof.
  revert i; induction gs as [|y r IH]; intros i; cbn; [tauto|].
  destruct i; cbn; intros [H|H]; [left; auto|right; right; auto|right; left; auto|].
  destruct (IH _ H); [left|right; right]; auto.
Qed.
Lemma sched_ok gs i : Forall g_ok gs -> Forall g_ok (sched gs i).
Proof.
  intros F. unfold sched. destruct (nth_error gs i) as [g|] eqn:E; [|exact F].
  destruct (g_step gs g) as [g'|] eqn:Es; [|exact F].
  rewrite Forall_forall in *. intros x Hx. apply g_set_in in Hx. destruct Hx as [->|Hx]; [|auto].
  apply (g_step_ok gs g); [apply F; eapply nth_error_In; exact E|exact Es].
Qed.
Lemma fold_ok cs gs : Forall g_ok gs -> Forall g_ok (fold_left sched cs gs).
Proof. revert gs; induction cs; intros gs F; cbn; [exact F|]. apply IHcs, sched_ok, F. Qed.

Lemma holder gs l : existsb (holds l) gs = true -> exists g h, In g gs /\ In h (g_held g) /\ fst h = l.
Proof.
  intros H. apply existsb_exists in H. destruct H as (g & Hg & H). apply existsb_exists in H.
  destruct H as (h & Hh & E). apply lname_eqb_eq in E. exists g, h. auto.
Qed.
Lemma holds_w_holds l g : holds_w l g = true -> holds l g = true.
Proof.
  unfold holds_w, holds. intros H. apply existsb_exists in H. destruct H as (h & Hh & E).
  apply andb_true_iff in E. apply existsb_exists. exists h. tauto.
Qed.
Lemma existsb_mono {A} (f g : A -> bool) l :
  (forall x, f x = true -> g x = true) -> existsb f l = true -> existsb g l = true.
Proof. intros M H. apply existsb_exists in H. destruct H as (x & Hx & E). apply existsb_exists. exists x. auto. Qed.

Lemma some_step gs : Forall g_ok gs ->
  forall n g l w p, In g gs -> g_rest g = Acq l w :: p -> 5 - rank l <= n ->
  exists g1 g', In g1 gs /\ g_step gs g1 = Some g'.
Proof.
  intros F. rewrite Forall_forall in F.
  induction n as [n IH] using lt_wf_ind. intros g l w p Hg Er Hn.
  assert (K : existsb (holds l) gs = true -> exists g1 g', In g1 gs /\ g_step gs g1 = Some g').
  { intros H. destruct (holder _ _ H) as (g' & h & Hg' & Hh & El). specialize (F g' Hg'). unfold g_ok in F.
    destruct (g_rest g') as [|[l' w'|l'] p'] eqn:E'.
    - cbn in F. rewrite F in Hh. destruct Hh.
    - destruct F as [F _]. specialize (F h Hh). rewrite El in F.
      assert (rank l' <= 5) by (destruct l'; cbn; lia).
      apply (IH (5 - rank l')) with (g := g') (l := l') (w := w') (p := p'); auto; lia.
    - exists g', (mkG (release l' (g_held g')) p'). split; [exact Hg'|]. unfold g_step. rewrite E'. reflexivity. }
  destruct (existsb (holds l) gs) eqn:Eh; [auto|].
  assert (Ew : existsb (holds_w l) gs = false).
  { destruct (existsb (holds_w l) gs) eqn:E; [|reflexivity].
    rewrite (existsb_mono _ _ _ (holds_w_holds l) E) in Eh. discriminate. }
  destruct w.
  - exists g, (mkG ((l, true) :: g_held g) p). split; [exact Hg|]. unfold g_step. rewrite Er, Eh. reflexivity.
  - destruct (existsb (wants_w l) gs) eqn:Ewt.
    + apply existsb_exists in Ewt. destruct Ewt as (g2 & Hg2 & E2). unfold wants_w in E2.
      destruct (g_rest g2) as [|[l2 [|]|l2] p2] eqn:Er2; try discriminate. apply lname_eqb_eq in E2. subst l2.
      exists g2, (mkG ((l, true) :: g_held g2) p2). split; [exact Hg2|]. unfold g_step. rewrite Er2, Eh. reflexivity.
    + exists g, (mkG ((l, false) :: g_held g) p). split; [exact Hg|]. unfold g_step. rewrite Er, Ew, Ewt. reflexivity.
Qed.

Definition left_to_do (gs : list goroutine) : nat := fold_right (fun g n => List.length (g_rest g) + n) 0 gs.
Lemma g_step_less gs g g' : g_step gs g = Some g' -> S (List.length (g_rest g')) = List.length (g_rest g).
Proof.
  unfold g_step. destruct (g_rest g) as [|[l [|]|l] p]; intros E; [discriminate| | |].
  - destruct (existsb _ _); [discriminate|]. injection E as <-. reflexivity.
  - destruct (_ || _); [discriminate|]. injection E as <-. reflexivity.
  - injection E as <-. reflexivity.
Qed.
Lemma g_set_less i g g' gs : nth_error gs i = Some g -> S (List.length (g_rest g')) = List.length (g_rest g) ->
  S (left_to_do (g_set i g' gs)) = left_to_do gs.
Proof.
  unfold left_to_do. revert i; induction gs as [|y r IH]; intros i E L; destruct i; cbn [nth_error g_set fold_right] in *; try discriminate.
  - injection E as ->. lia.
  - specialize (IH _ E L). lia.
Qed.
Lemma unfinished gs : finished gs \/ exists g, In g gs /\ g_rest g <> [].
Proof.
  induction gs as [|g r IH]; [left; intros g []|].
  destruct (g_rest g) eqn:E.
  - destruct IH as [IH|(x & Hx & N)]; [left; intros x [<-|Hx]; auto|right; exists x; split; [right|]; auto].
  - right. exists g. rewrite E. split; [left; reflexivity|discriminate].
Qed.
Lemma runs_out gs : Forall g_ok gs -> exists more, finished (fold_left sched more gs).
Proof.
  remember (left_to_do gs) as n eqn:En. revert gs En.
  induction n as [n IH] using lt_wf_ind. intros gs En F.
  destruct (unfinished gs) as [D|(g & Hg & N)]; [exists []; exact D|].
  assert (X : exists g1 g', In g1 gs /\ g_step gs g1 = Some g').
  { destruct (g_rest g) as [|[l w|l] p] eqn:Er; [congruence| |].
    - apply (some_step gs F (5 - rank l) g l w p); auto.
    - exists g, (mkG (release l (g_held g)) p). split; [exact Hg|]. unfold g_step. rewrite Er. reflexivity. }
  destruct X as (g1 & g' & H1 & Es). apply In_nth_error in H1. destruct H1 as [i Ei].
  assert (Esc : sched gs i = g_set i g' gs) by (unfold sched; rewrite Ei, Es; reflexivity).
  assert (L := g_set_less i g1 g' gs Ei (g_step_less _ _ _ Es)).
  destruct (IH (left_to_do (sched gs i)) ltac:(rewrite Esc; lia) (sched gs i) eq_refl (sched_ok _ _ F)) as [more M].
  exists (i :: more). exact M.
Qed.

(** * The orderly tasks *)
(** [p] can be run in full above everything held of lower rank than [b]. *)
Definition above (b : nat) (p : list lact) : Prop :=
  forall held q, (forall h, In h held -> rank (fst h) < b) -> ordered held q -> ordered held (p ++ q).
Lemma above_nil b : above b [].
Proof. intros held q _ O. exact O. Qed.
Lemma above_app b p q : above b p -> above b q -> above b (p ++ q).
Proof. intros P Q held r H O. rewrite <- app_assoc. apply P; [exact H|]. apply Q; assumption. Qed.
Lemma above_during b l w p : b <= rank l -> above (S (rank l)) p -> above b (during l w p).
Proof.
  intros B P held q H O. unfold during. cbn. rewrite <- app_assoc. split.
  - intros h Hh. specialize (H h Hh). lia.
  - apply P; [|cbn; rewrite lname_eqb_refl; exact O].
    intros h [<-|Hh]; cbn; [lia|]. specialize (H h Hh). lia.
Qed.
Lemma above_brief b l w : b <= rank l -> above b (brief l w).
Proof. intros B. apply above_during; [exact B|apply above_nil]. Qed.
Lemma above_flat {A} b (f : A -> list lact) xs : (forall x, above b (f x)) -> above b (flat_map f xs).
Proof. intros H. induction xs; cbn; [apply above_nil|apply above_app; auto]. Qed.

Ltac above_tac :=
  repeat first [ apply above_app | apply above_nil | apply above_brief; cbn; lia
               | apply above_during; [cbn; lia|] | (apply above_flat; intros ?) ].
Lemma above_read b n : b <= 3 -> above b (p_read n).
Proof. intros B. unfold p_read. above_tac. Qed.
Lemma above_nodes b ns : b <= 3 -> above b (p_nodes ns).
Proof. intros B. unfold p_nodes. above_tac. Qed.
Lemma above_visit b v : b <= 2 -> above b (p_visit v).
Proof. intros B. destruct v; cbn [p_visit]; above_tac; apply above_read; cbn; lia. Qed.
Lemma above_visits b vs : b <= 2 -> above b (p_visits vs).
Proof. intros B. apply above_flat. intros v. apply above_visit, B. Qed.
Lemma above_task t : orderly t -> above 0 (p_task t).
Proof.
  destruct t; cbn [orderly p_task]; intros O; try contradiction; subst; above_tac;
    try (apply above_nodes; cbn; lia); try (apply above_visits; cbn; lia); try (apply above_visit; cbn; lia).
Qed.
Lemma start_ok ts : Forall orderly ts -> Forall g_ok (start (map p_task ts)).
Proof.
  intros F. induction F as [|t ts O F IH]; cbn; constructor; [|exact IH].
  unfold g_ok; cbn. rewrite <- (app_nil_r (p_task t)). apply (above_task t O); [intros h []|reflexivity].
Qed.
Lemma never_hangs ts cs : Forall orderly ts -> exists more, finished (tasks_run ts (cs ++ more)).
Proof.
  intros F. destruct (runs_out _ (fold_ok cs _ (start_ok ts F))) as [more M].
  exists more. unfold tasks_run, sched_run. rewrite fold_left_app. exact M.
Qed.

(** * Goroutines that wait for each other *)
Definition blocks (l : lname) (w : bool) (g : goroutine) : bool := if w then holds l g else holds_w l g.
Definition waits_for (g1 g2 : goroutine) : Prop := exists l w p, g_rest g1 = Acq l w :: p /\ blocks l w g2 = true.
Lemma waits_stuck gs g1 g2 : In g2 gs -> waits_for g1 g2 -> g_step gs g1 = None.
Proof.
  intros H (l & w & p & E & B). unfold g_step. rewrite E. destruct w; cbn in B.
  - replace (existsb (holds l) gs) with true; [reflexivity|]. symmetry. apply existsb_exists. exists g2. auto.
  - replace (existsb (holds_w l) gs) with true; [reflexivity|]. symmetry. apply existsb_exists. exists g2. auto.
Qed.
Lemma g_set_other i j g gs : i <> j -> nth_error (g_set j g gs) i = nth_error gs i.
Proof.
  revert i j; induction gs as [|y r IH]; intros i j N; [reflexivity|].
  destruct j, i; cbn; try reflexivity; try congruence. apply IH; lia.
Qed.
Lemma sched_keeps gs i k g : nth_error gs i = Some g -> g_step gs g = None -> nth_error (sched gs k) i = Some g.
Proof.
  intros E N. unfold sched. destruct (nth_error gs k) as [gk|] eqn:Ek; [|exact E].
  destruct (g_step gs gk) as [g'|] eqn:Es; [|exact E].
  destruct (Nat.eq_dec i k) as [<-|D]; [rewrite E in Ek; injection Ek as <-; congruence|].
  rewrite g_set_other; auto.
Qed.
Lemma stuck_pair more : forall gs i j g1 g2,
  nth_error gs i = Some g1 -> nth_error gs j = Some g2 -> waits_for g1 g2 -> waits_for g2 g1 ->
  nth_error (fold_left sched more gs) i = Some g1 /\ nth_error (fold_left sched more gs) j = Some g2.
Proof.
  induction more as [|k more IH]; intros gs i j g1 g2 E1 E2 W1 W2; cbn; [auto|].
  apply IH; [| |exact W1|exact W2].
  - apply sched_keeps; [exact E1|]. apply (waits_stuck gs g1 g2); [eapply nth_error_In; exact E2|exact W1].
  - apply sched_keeps; [exact E2|]. apply (waits_stuck gs g2 g1); [eapply nth_error_In; exact E1|exact W2].
Qed.
Lemma waits_pending g1 g2 : waits_for g1 g2 -> g_rest g1 <> [].
Proof. intros (l & w & p & E & _). rewrite E. discriminate. Qed.
Lemma stuck_then ts cs later more i j g1 g2 :
  nth_error (tasks_run ts cs) i = Some g1 -> nth_error (tasks_run ts cs) j = Some g2 ->
  waits_for g1 g2 -> waits_for g2 g1 ->
  nth_error (tasks_then ts cs later more) i = Some g1 /\ nth_error (tasks_then ts cs later more) j = Some g2.
Proof.
  intros E1 E2 W1 W2. apply stuck_pair; [| |exact W1|exact W2].
  - rewrite nth_error_app1; [exact E1|]. apply nth_error_Some. congruence.
  - rewrite nth_error_app1; [exact E2|]. apply nth_error_Some. congruence.
Qed.
(** A lock that is held in write mode by one goroutine is held by no other. *)
Definition exclusive (l : lname) (j : nat) (gs : list goroutine) : Prop :=
  forall k g, nth_error gs k = Some g -> holds l g = true -> k = j.
Lemma exclusive_keeps l j more : forall gs g2,
  nth_error gs j = Some g2 -> holds_w l g2 = true ->
  (forall m, nth_error (fold_left sched m gs) j = Some g2) -> exclusive l j gs ->
  exclusive l j (fold_left sched more gs).
Proof.
  induction more as [|i more IH]; intros gs g2 E2 H2 A X; cbn; [exact X|].
  apply (IH _ g2); [apply (A [i])|exact H2|intros m; apply (A (i :: m))|].
  intros k g Ek Hk. unfold sched in Ek. destruct (nth_error gs i) as [gi|] eqn:Ei; [|exact (X k g Ek Hk)].
  destruct (g_step gs gi) as [g'|] eqn:Es; [|exact (X k g Ek Hk)].
  destruct (Nat.eq_dec k i) as [->|D]; [|rewrite g_set_other in Ek by auto; exact (X k g Ek Hk)].
  assert (Eg : g = g').
  { clear - Ek Ei. revert i Ek Ei; induction gs as [|y r IHg]; intros i; destruct i; cbn; try discriminate.
    - intros E _. congruence.
    - apply IHg. }
  subst g'. apply (X i gi Ei). unfold g_step in Es.
  destruct (g_rest gi) as [|[l' w|l'] p]; [discriminate| |].
  - assert (Hh : existsb (holds l) gs = true).
    { apply existsb_exists. exists g2. split; [eapply nth_error_In; exact E2|apply holds_w_holds, H2]. }
    assert (Hw : existsb (holds_w l) gs = true).
    { apply existsb_exists. exists g2. split; [eapply nth_error_In; exact E2|exact H2]. }
    assert (Ne : lname_eqb l' l = false).
    { destruct (lname_eqb l' l) eqn:El; [|reflexivity]. apply lname_eqb_eq in El. subst l'.
      destruct w; [rewrite Hh in Es|rewrite Hw in Es]; discriminate. }
    destruct w.
    + destruct (existsb (holds l') gs); [discriminate|]. injection Es as <-. unfold holds in Hk. cbn in Hk. rewrite Ne in Hk. exact Hk.
    + destruct (_ || _); [discriminate|]. injection Es as <-. unfold holds in Hk. cbn in Hk. rewrite Ne in Hk. exact Hk.
  - injection Es as <-. unfold holds in *. cbn in Hk.
    apply existsb_exists in Hk. destruct Hk as (h & Hh & E). apply existsb_exists. exists h. split; [|exact E].
    clear - Hh. revert Hh. generalize (g_held gi) as hs. induction hs as [|x r IHr]; cbn; [tauto|].
    destruct (lname_eqb (fst x) l'); cbn; tauto.
Qed.

(** * The pairs *)
Ltac lk := cbn; rewrite ?Nat.eqb_refl; cbn; rewrite ?Nat.eqb_refl; cbn.
Lemma expire_sweep s ns vs' x rest later more :
  let gs := tasks_then [TExpire s [] ns vs'; TSweep ((s, x) :: rest)] [0; 1] later more in
  pending 0 gs /\ pending 1 gs /\ exclusive LManager 1 gs.
Proof.
  intros gs.
  set (g1 := mkG [(LSub s, true)] (tl (p_task (TExpire s [] ns vs')))).
  set (g2 := mkG [(LManager, true)] (tl (p_task (TSweep ((s, x) :: rest))))).
  assert (R : tasks_run [TExpire s [] ns vs'; TSweep ((s, x) :: rest)] [0; 1] = [g1; g2]) by reflexivity.
  assert (W1 : waits_for g1 g2) by (do 3 eexists; split; reflexivity).
  assert (W2 : waits_for g2 g1) by (do 3 eexists; split; [reflexivity|]; lk; reflexivity).
  assert (P : forall m, nth_error (tasks_then [TExpire s [] ns vs'; TSweep ((s, x) :: rest)] [0; 1] later m) 0 = Some g1 /\
                        nth_error (tasks_then [TExpire s [] ns vs'; TSweep ((s, x) :: rest)] [0; 1] later m) 1 = Some g2).
  { intros m. apply stuck_then; [rewrite R; reflexivity|rewrite R; reflexivity|exact W1|exact W2]. }
  destruct (P more) as [P1 P2]. split; [|split].
  - exists g1. split; [exact P1|exact (waits_pending _ _ W1)].
  - exists g2. split; [exact P2|exact (waits_pending _ _ W2)].
  - apply (exclusive_keeps LManager 1 more _ g2); [exact (proj2 (P []))|reflexivity|intros m; apply P|].
    rewrite R. intros k g Ek Hk. destruct k as [|[|k]]; cbn in Ek.
    + injection Ek as <-. discriminate Hk.
    + reflexivity.
    + exfalso. apply nth_error_In in Ek. unfold start in Ek. apply in_map_iff in Ek. destruct Ek as (p & <- & _). discriminate Hk.
Qed.
Lemma pair_pending ts cs later more i j g1 g2 :
  nth_error (tasks_run ts cs) i = Some g1 -> nth_error (tasks_run ts cs) j = Some g2 ->
  waits_for g1 g2 -> waits_for g2 g1 ->
  pending i (tasks_then ts cs later more) /\ pending j (tasks_then ts cs later more).
Proof.
  intros E1 E2 W1 W2. destruct (stuck_then ts cs later more i j g1 g2 E1 E2 W1 W2) as [P1 P2].
  split; [exists g1|exists g2]; (split; [assumption|]); eapply waits_pending; eassumption.
Qed.
Lemma self_trigger i linked later more : pending 0 (tasks_then [TEnqueue i (i :: linked)] [0] later more).
Proof.
  eapply (pair_pending _ _ _ _ 0 0); [reflexivity|reflexivity| |];
    (do 3 eexists; split; [reflexivity|]; lk; reflexivity).
Qed.
Lemma mutual_trigger i j li lj later more : i <> j ->
  let gs := tasks_then [TEnqueue i (j :: li); TEnqueue j (i :: lj)] [0; 1] later more in pending 0 gs /\ pending 1 gs.
Proof.
  intros D. assert (E : (i =? j) = false) by (apply Nat.eqb_neq; exact D).
  apply (pair_pending _ _ _ _ 0 1
    (mkG [(LItem i, true)] (tl (p_task (TEnqueue i (j :: li))))) (mkG [(LItem j, true)] (tl (p_task (TEnqueue j (i :: lj)))))).
  - cbn. unfold tasks_run, sched_run, sched, g_step, existsb, holds; cbn; rewrite E; reflexivity.
  - cbn. unfold tasks_run, sched_run, sched, g_step, existsb, holds; cbn; rewrite E; reflexivity.
  - do 3 eexists; split; [reflexivity|]; lk; reflexivity.
  - do 3 eexists; split; [reflexivity|]; lk; reflexivity.
Qed.
Lemma event_listen n i items later more :
  let gs := tasks_then [TEvent n (i :: items); TItem (VListen i n)] [0; 1] later more in pending 0 gs /\ pending 1 gs.
Proof.
  eapply (pair_pending _ _ _ _ 0 1); [reflexivity|reflexivity| |];
    (do 3 eexists; split; [reflexivity|]; lk; reflexivity).
Qed.
Lemma poll_diag i s w vs later more :
  let gs := tasks_then [TPollDiag i s; TSub s (VShort i w :: vs)] [0; 1; 0; 0; 0; 0] later more in pending 0 gs /\ pending 1 gs.
Proof.
  destruct w; (eapply (pair_pending _ _ _ _ 0 1); [reflexivity|reflexivity| |];
    (do 3 eexists; split; [reflexivity|]; lk; reflexivity)).
Qed.
Lemma resend_diag s i later more : pending 0 (tasks_then [TResendDiag s i] [0; 0; 0; 0; 0; 0] later more).
Proof.
  eapply (pair_pending _ _ _ _ 0 0); [reflexivity|reflexivity| |];
    (do 3 eexists; split; [reflexivity|]; lk; reflexivity).
Qed.
