(** The server's functions access the fields that a lock protects only with this lock held; so no two threads
    access them at the same time, one writing. *)
From Coq Require Import ZArith String List Bool Lia Arith.
From Verif Require Import Flow Mutex Race RaceTable HandlersAnalysis MutexSpec MutexProofs RaceSpec.
Import ListNotations.

(** ** Locks exclude each other *)
Definition claims (l : lock) (t : thread) : bool := holds Ex l t || announces l t.

Definition exclusive (ts : list thread) : Prop := forall i j ti tj l, i <> j ->
  nth_error ts i = Some ti -> nth_error ts j = Some tj ->
  (claims l ti = true -> claims l tj = false) /\ (holds Ex l ti = true -> holds Sh l tj = false).

Lemma holds_in m l t : holds m l t = true <-> In (m, l) (th_held t).
Proof. unfold holds. destruct (in_dec _ _ _); split; congruence || tauto. Qed.

Lemma remove1_in h x : forall l, In x (remove1 h l) -> In x l.
Proof. induction l as [|y r IH]; cbn [remove1]; [tauto|]. destruct (hold_eq_dec h y); cbn; intuition. Qed.

Lemma existsb_false {A} (f : A -> bool) l : existsb f l = false -> forall x, In x l -> f x = false.
Proof.
  intros E x I. destruct (f x) eqn:F; [|reflexivity].
  assert (existsb f l = true) by (apply existsb_exists; eauto). congruence.
Qed.

Lemma advance_claims ts t t' l : advance ts t = Some t' -> claims l t' = true ->
  claims l t = true \/ forall u, In u ts -> claims l u = false.
Proof.
  unfold advance, claims, announces. destruct t as [rest held an]. cbn [th_rest th_held th_announced].
  destruct rest as [|[[] k|m k|w] r]; [discriminate| | | |].
  - destruct (existsb _ ts) eqn:E; [discriminate|]. intros [= <-] C. apply orb_true_iff in C as [C|C].
    + left. apply orb_true_iff. left. apply holds_in in C. apply holds_in. cbn [th_held] in *. destruct C as [C|C]; [discriminate C|exact C].
    + cbn [th_rest th_announced] in C. destruct r as [|[[]| |] ?]; discriminate C.
  - destruct an.
    + destruct (existsb _ ts) eqn:E; [discriminate|]. intros [= <-] C. apply orb_true_iff in C as [C|C].
      * left. apply orb_true_iff. apply holds_in in C. cbn [th_held] in C. destruct C as [[= ->]|C].
        -- right. destruct (lock_eq_dec l l); [reflexivity|congruence].
        -- left. apply holds_in. exact C.
      * cbn [th_rest th_announced] in C. destruct r as [|[[]| |] ?]; discriminate C.
    + destruct (existsb _ ts) eqn:E; [discriminate|]. intros [= <-] C. apply orb_true_iff in C as [C|C].
      * left. apply orb_true_iff. left. exact C.
      * cbn [th_rest th_announced andb] in C. destruct (lock_eq_dec k l) as [->|]; [|discriminate C]. right. exact (existsb_false _ _ E).
  - destruct (holds m k _); [|discriminate]. intros [= <-] C. apply orb_true_iff in C as [C|C].
    + left. apply orb_true_iff. left. apply holds_in in C. apply holds_in. cbn [th_held] in *. eapply remove1_in; eauto.
    + cbn [th_rest th_announced] in C. destruct r as [|[[]| |] ?]; discriminate C.
  - intros [= <-] C. apply orb_true_iff in C as [C|C].
    + left. apply orb_true_iff. left. exact C.
    + cbn [th_rest th_announced] in C. destruct r as [|[[]| |] ?]; discriminate C.
Qed.

Lemma advance_ex ts t t' l : advance ts t = Some t' -> holds Ex l t' = true ->
  holds Ex l t = true \/ forall u, In u ts -> holds Sh l u = false.
Proof.
  unfold advance. destruct t as [rest held an]. cbn [th_rest th_held th_announced].
  destruct rest as [|[[] k|m k|w] r]; [discriminate| | | |]; rewrite !holds_in; cbn [th_held].
  - destruct (existsb _ ts) eqn:E; [discriminate|]. intros [= <-] C. cbn [th_held] in C. destruct C as [C|C]; [discriminate C|tauto].
  - destruct an; destruct (existsb _ ts) eqn:E; try discriminate; intros [= <-] C; cbn [th_held] in C.
    + destruct C as [[= ->]|C]; [|tauto]. right. exact (existsb_false _ _ E).
    + tauto.
  - destruct (holds m k _); [|discriminate]. intros [= <-] C. left. eapply remove1_in; eauto.
  - intros [= <-] C. tauto.
Qed.

Lemma advance_sh ts t t' l : advance ts t = Some t' -> holds Sh l t' = true ->
  holds Sh l t = true \/ forall u, In u ts -> claims l u = false.
Proof.
  unfold advance. destruct t as [rest held an]. cbn [th_rest th_held th_announced].
  destruct rest as [|[[] k|m k|w] r]; [discriminate| | | |]; rewrite !holds_in; cbn [th_held].
  - destruct (existsb _ ts) eqn:E; [discriminate|]. intros [= <-] C. cbn [th_held] in C.
    destruct C as [[= ->]|C]; [|tauto]. right. exact (existsb_false _ _ E).
  - destruct an; destruct (existsb _ ts) eqn:E; try discriminate; intros [= <-] C; cbn [th_held] in C.
    + destruct C as [C|C]; [discriminate C|tauto].
    + tauto.
  - destruct (holds m k _); [|discriminate]. intros [= <-] C. left. eapply remove1_in; eauto.
  - intros [= <-] C. tauto.
Qed.

Lemma update_nth ts : forall i j t, nth_error (update ts i t) j =
  if Nat.eqb i j then match nth_error ts j with Some _ => Some t | None => None end else nth_error ts j.
Proof.
  induction ts as [|x r IH]; intros [|i] [|j] t; cbn; auto; try (destruct (Nat.eqb _ _)); reflexivity.
Qed.

Lemma claims_of_ex l t : holds Ex l t = true -> claims l t = true.
Proof. unfold claims. intros ->. reflexivity. Qed.

Lemma step_exclusive ts k ts' : exclusive ts -> step ts k = Some ts' -> exclusive ts'.
Proof.
  unfold step. destruct (nth_error ts k) as [t|] eqn:Nk; [|discriminate].
  destruct (advance ts t) as [t'|] eqn:A; [|discriminate]. intros X [= <-] i j ti tj l D Ni Nj.
  rewrite update_nth in Ni, Nj.
  destruct (Nat.eqb_spec k i) as [Ei|Ei]; destruct (Nat.eqb_spec k j) as [Ej|Ej]; [congruence| | |].
  - subst i. rewrite Nk in Ni. injection Ni as <-. destruct (X k j t tj l D Nk Nj) as [X1 X2]. split; intros C.
    + destruct (advance_claims _ _ _ _ A C) as [C'|C']; [auto|]. eapply C', nth_error_In; eauto.
    + destruct (advance_ex _ _ _ _ A C) as [C'|C']; [auto|]. eapply C', nth_error_In; eauto.
  - subst j. rewrite Nk in Nj. injection Nj as <-. destruct (X i k ti t l D Ni Nk) as [X1 X2]. split; intros C.
    + destruct (claims l t') eqn:C2; [|reflexivity]. destruct (advance_claims _ _ _ _ A C2) as [C'|C'].
      * specialize (X1 C). congruence.
      * rewrite (C' ti) in C by (eapply nth_error_In; eauto). discriminate C.
    + destruct (holds Sh l t') eqn:C2; [|reflexivity]. destruct (advance_sh _ _ _ _ A C2) as [C'|C'].
      * specialize (X2 C). congruence.
      * apply claims_of_ex in C. rewrite (C' ti) in C by (eapply nth_error_In; eauto). discriminate C.
  - exact (X i j ti tj l D Ni Nj).
Qed.

Lemma exclusive_fresh work : exclusive (map fresh work).
Proof.
  intros i j ti tj l D Ni Nj. apply nth_error_In in Ni. apply in_map_iff in Ni as (ops & <- & _). split.
  - unfold claims, announces, fresh. cbn. destruct ops as [|[[]| |] ?]; intros C; discriminate C.
  - intros C. discriminate C.
Qed.

Lemma execute_exclusive schedule : forall ts ts', exclusive ts -> execute ts schedule = Some ts' -> exclusive ts'.
Proof.
  induction schedule as [|i r IH]; cbn; intros ts ts' X; [now intros [= <-]|].
  destruct (step ts i) as [ts1|] eqn:S1; [|discriminate]. intros H. eapply IH; [|exact H]. eapply step_exclusive; eauto.
Qed.

Lemma reaches_exclusive work ts : reaches work ts -> exclusive ts.
Proof. intros (s & H). eapply execute_exclusive; [apply exclusive_fresh|exact H]. Qed.

(** ** Where a thread is *)
Definition at_place (ops : list op) (t : thread) : Prop :=
  exists pre post, ops = pre ++ post /\ th_rest t = post /\ th_held t = held_after [] pre.

Lemma held_after_app a : forall b h, held_after h (a ++ b) = held_after (held_after h a) b.
Proof. induction a as [|[m l|m l|w] r IH]; cbn; intros b h; auto. Qed.

Lemma advance_place ops ts t t' : at_place ops t -> advance ts t = Some t' -> at_place ops t'.
Proof.
  intros (pre & post & -> & R & H). unfold advance. rewrite R. destruct post as [|o r]; [discriminate|].
  assert (G : forall an, at_place (pre ++ o :: r) (mkThread r (held_after (th_held t) [o]) an)).
  { intros an. exists (pre ++ [o]), r. cbn [th_rest th_held]. rewrite <- app_assoc, held_after_app, H. auto. }
  destruct o as [[] l|m l|w]; cbn [held_after] in G.
  - destruct (existsb _ ts); [discriminate|]. intros [= <-]. apply G.
  - destruct (th_announced t); destruct (existsb _ ts); try discriminate; intros [= <-]; [apply G|].
    exists pre, (OLk Ex l :: r). auto.
  - destruct (holds m l t); [|discriminate]. intros [= <-]. apply G.
  - intros [= <-]. apply G.
Qed.

Definition placed (work : list (list op)) (ts : list thread) : Prop := Forall2 at_place work ts.

Lemma update_placed work ts : placed work ts -> forall i t t', nth_error ts i = Some t ->
  (forall ops, at_place ops t -> at_place ops t') -> placed work (update ts i t').
Proof.
  induction 1 as [|ops u work ts P F IH]; intros [|i] t t' N G; cbn in *; try discriminate.
  - injection N as <-. constructor; auto. 
  - constructor; [assumption|]. eapply IH; eauto.
Qed.

Lemma execute_placed schedule : forall work ts ts', placed work ts -> execute ts schedule = Some ts' -> placed work ts'.
Proof.
  induction schedule as [|i r IH]; cbn; intros work ts ts' P; [now intros [= <-]|].
  destruct (step ts i) as [ts1|] eqn:S1; [|discriminate]. intros H. eapply IH; [|exact H].
  unfold step in S1. destruct (nth_error ts i) as [t|] eqn:N; [|discriminate S1].
  destruct (advance ts t) as [t'|] eqn:A; [|discriminate S1]. injection S1 as <-.
  eapply update_placed; eauto. intros ops O. eapply advance_place; eauto.
Qed.

Lemma placed_fresh work : placed work (map fresh work).
Proof. induction work as [|ops r IH]; cbn; constructor; [|exact IH]. exists [], ops. auto. Qed.

Lemma reaches_placed work ts : reaches work ts -> placed work ts.
Proof. intros (s & H). eapply execute_placed; [apply placed_fresh|exact H]. Qed.

Lemma placed_nth work ts : placed work ts -> forall i ops t, nth_error work i = Some ops -> nth_error ts i = Some t -> at_place ops t.
Proof.
  induction 1 as [|o u work ts P F IH]; intros [|i] ops t; cbn; try discriminate.
  - intros [= <-] [= <-]. exact P.
  - apply IH.
Qed.

(** the thread is before its next operation, with the locks held that it has taken until then *)
Lemma next_place ops t x : at_place (map bare ops) t -> next ops t = Some x ->
  exists pre post, ops = pre ++ x :: post /\ th_held t = held_after [] (map bare pre).
Proof.
  intros (pre & post & E & R & H) N. unfold next in N. rewrite R in N.
  apply nth_error_split in N as (a & b & -> & La). exists a, b. split; [reflexivity|]. rewrite H. f_equal.
  assert (Lp : length pre = length a).
  { pose proof (f_equal (@length op) E) as LE. rewrite map_length, !app_length in LE. cbn [length] in LE.
    rewrite app_length in La. cbn [length] in La. lia. }
  rewrite map_app in E. 
  assert (G : forall (u v p q : list op), length p = length u -> u ++ v = p ++ q -> p = u).
  { clear. induction u as [|x u IH]; intros v [|y p] q Hl He; cbn in *; try discriminate; [reflexivity|].
    injection He as -> He. injection Hl as Hl. f_equal. eapply IH; eauto. }
  eapply G; [|exact E]. now rewrite map_length.
Qed.

(** ** The accesses of the server's functions *)
Definition guard_of (c : cls) (f : string) : option cls :=
  match find (fun p => cls_eqb (fst (fst p)) c && existsb (String.eqb f) (snd p)) guarded with
  | Some (_, g, _) => Some g
  | None => None
  end.

Definition ocls_eqb (a b : option cls) : bool :=
  match a, b with Some x, Some y => cls_eqb x y | None, None => true | _, _ => false end.

Lemma guard_unique : forallb (fun p => forallb (fun f => ocls_eqb (guard_of (fst (fst p)) f) (Some (snd (fst p)))) (snd p)) guarded = true.
Proof. vm_compute. reflexivity. Qed.

Lemma guard_is c f g : guard c f g -> guard_of c f = Some g.
Proof.
  intros (fs & I1 & I2). pose proof guard_unique as U. rewrite forallb_forall in U. specialize (U _ I1).
  rewrite forallb_forall in U. specialize (U _ I2). cbn [fst snd] in U.
  destruct (guard_of c f) as [d|]; cbn [ocls_eqb] in U; [|discriminate U]. apply cls_eqb_eq in U. congruence.
Qed.

(** the mode of the lock of this kind that was taken last *)
Fixpoint last_mode (g : cls) (h : list (mode * cls)) : option mode :=
  match h with
  | [] => None
  | (m, c) :: r => if cls_eqb c g then Some m else last_mode g r
  end.

Definition allowed (w : bool) (via : list cls) (c : cls) (f : string) (h : list (mode * cls)) : bool :=
  match guard_of c f with
  | None => true
  | Some g => existsb (cls_eqb g) via &&
      match last_mode g h with Some Ex => true | Some Sh => negb w | None => false end
  end.

Definition astep (s : option (list (mode * cls))) (o : aop) : option (list (mode * cls)) :=
  match s with
  | None => None
  | Some h =>
      match o with
      | L (Lk m c) => Some ((m, c) :: h)
      | L (Un m c) => drop m c h
      | L (Wt _) => Some h
      | Rd via c f => if allowed false via c f h then Some h else None
      | Wr via c f => if allowed true via c f h then Some h else None
      end
  end.

Definition aestep (s : option (list (mode * cls))) (e : event aop) : option (list (mode * cls)) :=
  match e with Did o => astep s o | Cond _ _ => s end.

Lemma fold_aestep t : forall s, fold_left aestep t s = fold_left astep (aops_of t) s.
Proof. induction t as [|[o|c v] r IH]; cbn; intros s; auto. Qed.

Definition root_safe (r : string * prog aop) : bool :=
  match analyze _ st_eqb aestep (snd r) (Some []) with
  | Some l => forallb (fun o => st_eqb (fst o) (Some [])) l
  | None => false
  end.

Lemma roots_safe : forallb root_safe RaceTable.roots = true.
Proof. vm_compute. reflexivity. Qed.

Theorem performs_safe root ks : performs root ks -> fold_left astep ks (Some []) = Some [].
Proof.
  intros (p & t & x & I & R & <-). pose proof roots_safe as F. rewrite forallb_forall in F. specialize (F _ I).
  unfold root_safe in F. cbn [snd] in F.
  destruct (analyze _ st_eqb aestep p (Some [])) as [l|] eqn:A; [|discriminate F].
  rewrite forallb_forall in F. specialize (F _ (analyze_sound _ _ st_eqb_eq _ _ _ _ A _ _ R)). cbn [fst] in F.
  apply st_eqb_eq in F. now rewrite fold_aestep in F.
Qed.

Lemma astep_none ks : fold_left astep ks None = None.
Proof. induction ks; cbn; auto. Qed.

Lemma last_mode_split g : forall held m, last_mode g (kinds held) = Some m ->
  exists before k after, held = before ++ (m, k) :: after /\ fst k = g /\ forall h, In h before -> fst (snd h) <> g.
Proof.
  induction held as [|[n k] r IH]; cbn [kinds map last_mode fst snd]; intros m E; [discriminate E|].
  destruct (cls_eqb (fst k) g) eqn:C.
  - injection E as ->. apply cls_eqb_eq in C. exists [], k, r. repeat split; auto.
  - destruct (IH _ E) as (b & k' & a & -> & Ek & Nb). exists ((n, k) :: b), k', a. repeat split; auto.
    intros h [<-|I]; [|auto]. cbn. intros X. apply cls_eqb_eq in X. congruence.
Qed.

Lemma access_guarded : forall pre held post x s f g q, paired held (map bare (pre ++ x :: post)) ->
  located held (pre ++ x :: post) -> fold_left astep (map xkind (pre ++ x :: post)) (Some (kinds held)) = Some q ->
  accesses x s f -> guard (fst s) f g ->
  exists m, In (m, (g, snd s)) (held_after held (map bare pre)) /\ (writes x s f -> m = Ex).
Proof.
  induction pre as [|o r IH]; intros held post x s f g q P Lc S A G.
  - apply guard_is in G. cbn [app map fold_left held_after] in *.
    assert (K : forall w via, allowed w via (fst s) f (kinds held) = true -> of_structure held via s ->
                exists m, In (m, (g, snd s)) held /\ (w = true -> m = Ex)).
    { intros w via Al O. unfold allowed in Al. rewrite G in Al. apply andb_true_iff in Al as [V M].
      apply existsb_exists in V as (g' & V & E). apply cls_eqb_eq in E. subst g'.
      destruct (last_mode g (kinds held)) as [m|] eqn:LM; [|discriminate M].
      destruct (last_mode_split _ _ _ LM) as (b & k & a & E & Ek & Nb).
      pose proof (O g b m k a V E Ek Nb) as Sk. exists m. split.
      - assert (Hk : k = (g, snd s)) by (destruct k as [kc kn]; cbn in Ek, Sk; congruence).
        rewrite E, Hk. apply in_elt.
      - intros ->. destruct m; [discriminate M|reflexivity]. }
    destruct A as [[via ->]|[via ->]]; cbn [xkind astep located] in *; destruct Lc as [O _].
    + destruct (allowed true via (fst s) f (kinds held)) eqn:Al; [|rewrite astep_none in S; discriminate S].
      destruct (K _ _ Al O) as (m & I & E). exists m. auto.
    + destruct (allowed false via (fst s) f (kinds held)) eqn:Al; [|rewrite astep_none in S; discriminate S].
      destruct (K _ _ Al O) as (m & I & E). exists m. split; [exact I|]. intros [v W]. discriminate W.
  - cbn [app map fold_left] in *. destruct o as [[m l|m l|w]|via s' f'|via s' f']; cbn [bare xkind kind astep paired located held_after] in *.
    + eapply IH; eauto.
    + destruct (drop m (fst l) (kinds held)) as [q'|] eqn:D; [|rewrite astep_none in S; discriminate S].
      destruct P as [P1 P2]. destruct (drop_remove1 _ _ _ _ P1 D) as [_ ->]. eapply IH; eauto.
    + eapply IH; eauto.
    + destruct (allowed false via (fst s') f' (kinds held)); [|rewrite astep_none in S; discriminate S].
      destruct Lc as [_ Lc]. eapply IH; eauto.
    + destruct (allowed true via (fst s') f' (kinds held)); [|rewrite astep_none in S; discriminate S].
      destruct Lc as [_ Lc]. eapply IH; eauto.
Qed.

(** ** The theorems *)
Lemma thread_guarded work ts : (forall ops, In ops work -> data_thread ops) -> comes_to work ts ->
  forall i ops t x s f g, nth_error work i = Some ops -> nth_error ts i = Some t -> next ops t = Some x ->
  accesses x s f -> guard (fst s) f g ->
  exists m, holds m (g, snd s) t = true /\ (writes x s f -> m = Ex).
Proof.
  intros W C i ops t x s f g Nw Nt N A G.
  assert (P : at_place (map bare ops) t).
  { eapply placed_nth; [exact (reaches_placed _ _ C)| |exact Nt]. apply map_nth_error. exact Nw. }
  destruct (next_place _ _ _ P N) as (pre & post & -> & H).
  destruct (W _ (nth_error_In _ _ Nw)) as (root & Pf & Pd & Lc). apply performs_safe in Pf.
  destruct (access_guarded pre [] post x s f g [] Pd Lc Pf A G) as (m & I & E).
  exists m. split; [|exact E]. apply holds_in. rewrite H. exact I.
Qed.

Lemma lock_exclusion work ts : reaches work ts -> forall i j ti tj l m, i <> j ->
  nth_error ts i = Some ti -> nth_error ts j = Some tj -> In (Ex, l) (th_held ti) -> ~ In (m, l) (th_held tj).
Proof.
  intros R i j ti tj l m D Ni Nj I J. destruct (reaches_exclusive _ _ R i j ti tj l D Ni Nj) as [X1 X2].
  apply holds_in in I, J. destruct m.
  - rewrite (X2 I) in J. discriminate J.
  - apply claims_of_ex in I, J. rewrite (X1 I) in J. discriminate J.
Qed.

Lemma protects work ts : (forall ops, In ops work -> data_thread ops) -> comes_to work ts ->
  forall i j ops ti tj m x s f g, i <> j -> nth_error ts i = Some ti -> In (m, (g, snd s)) (th_held ti) ->
  nth_error work j = Some ops -> nth_error ts j = Some tj -> next ops tj = Some x -> guard (fst s) f g ->
  (m = Ex -> ~ accesses x s f) /\ ~ writes x s f.
Proof.
  intros W C i j ops ti tj m x s f g D Ni Hi Nw Nj N G. split.
  - intros -> A. destruct (thread_guarded _ _ W C j ops tj x s f g Nw Nj N A G) as (n & Hn & _).
    apply holds_in in Hn. exact (lock_exclusion _ _ C i j ti tj _ n D Ni Nj Hi Hn).
  - intros A. destruct (thread_guarded _ _ W C j ops tj x s f g Nw Nj N (or_introl A) G) as (n & Hn & En).
    rewrite (En A) in Hn. apply holds_in in Hn. apply (lock_exclusion _ _ C j i tj ti _ m (not_eq_sym D) Nj Ni Hn Hi).
Qed.

Lemma no_race work ts : (forall ops, In ops work -> data_thread ops) -> comes_to work ts ->
  forall s f g, guard (fst s) f g -> ~ race work ts s f.
Proof.
  intros W C s f g G (i & j & oi & oj & ti & tj & a & b & D & Wi & Ti & Na & Wj & Tj & Nb & Wa & Ab).
  destruct (thread_guarded _ _ W C i oi ti a s f g Wi Ti Na (or_introl Wa) G) as (m & Hm & Em).
  rewrite (Em Wa) in Hm. apply holds_in in Hm.
  destruct (protects _ _ W C i j oj ti tj Ex b s f g D Ti Hm Wj Tj Nb G) as [X _]. exact (X eq_refl Ab).
Qed.
