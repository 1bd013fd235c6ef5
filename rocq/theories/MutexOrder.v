(** Locks taken in an order, for any table of functions: what MutexProofs.v does for the server's table.
    Given are the functions, the level of every kind of lock, the exceptions from the order, and what may be
    waited for with a lock. *)
From Coq Require Import ZArith String List Bool Lia Arith.
From Verif Require Import Flow Mutex HandlersAnalysis MutexSpec MutexProofs.
Import ListNotations.

Section Table.
Variable table : list (string * prog lop).
Variable level : cls -> nat.
Variable exceptions : list (cls * cls).
Variable waits : list (cls * string).

Definition table_does (root : string) (ks : list lop) : Prop :=
  exists p t x, In (root, p) table /\ run p t x /\ ops_of t = ks.

Definition g_pair_ok (c d : cls) : bool :=
  (level c <? level d) || existsb (fun p => cls_eqb (fst p) c && cls_eqb (snd p) d) exceptions.

Definition g_wait_ok (c : cls) (w : string) : bool :=
  existsb (fun p => cls_eqb (fst p) c && String.eqb (snd p) w) waits.

Definition g_lstep (s : option (list (mode * cls))) (o : lop) : option (list (mode * cls)) :=
  match s with
  | None => None
  | Some h =>
      match o with
      | Lk m c => if forallb (fun x => g_pair_ok (snd x) c) h then Some ((m, c) :: h) else None
      | Un m c => drop m c h
      | Wt w => if forallb (fun x => g_wait_ok (snd x) w) h then Some h else None
      end
  end.

Definition g_estep (s : option (list (mode * cls))) (e : event lop) : option (list (mode * cls)) :=
  match e with Did o => g_lstep s o | Cond _ _ => s end.

Lemma g_fold_estep t : forall s, fold_left g_estep t s = fold_left g_lstep (ops_of t) s.
Proof. induction t as [|[o|c v] r IH]; cbn; intros s; auto. Qed.

Definition g_root_ok (r : string * prog lop) : bool :=
  match analyze _ st_eqb g_estep (snd r) (Some []) with
  | Some l => forallb (fun o => st_eqb (fst o) (Some [])) l
  | None => false
  end.

Lemma g_lstep_none ks : fold_left g_lstep ks None = None.
Proof. induction ks; cbn; auto. Qed.

Lemma g_counts m c : forall ks h q, fold_left g_lstep ks (Some h) = Some q ->
  cnt m c h + times (Lk m c) ks = cnt m c q + times (Un m c) ks.
Proof.
  induction ks as [|k ks IH]; intros h q; cbn [fold_left].
  - intros [= <-]. reflexivity.
  - rewrite !times_cons. destruct k as [n d|n d|w]; cbn [g_lstep].
    + destruct (forallb _ h); [|rewrite g_lstep_none; discriminate]. intros E. specialize (IH _ _ E).
      unfold cnt in IH at 1. cbn [filter fst snd] in IH. fold (cnt m c h) in IH.
      destruct (lop_eq_dec (Un n d) (Lk m c)); [discriminate|]. destruct (lop_eq_dec (Lk n d) (Un m c)); [discriminate|].
      destruct (lop_eq_dec (Lk n d) (Lk m c)) as [[= -> ->]|N].
      * rewrite (proj2 (mode_eqb_eq m m) eq_refl), (proj2 (cls_eqb_eq c c) eq_refl) in IH. cbn [andb length] in IH.
        unfold cnt in *. lia.
      * destruct (mode_eqb m n && cls_eqb c d) eqn:X; [|unfold cnt in *; lia].
        apply andb_true_iff in X as [X1 X2]. apply mode_eqb_eq in X1. apply cls_eqb_eq in X2. congruence.
    + destruct (drop n d h) as [h'|] eqn:D; [|rewrite g_lstep_none; discriminate]. intros E. specialize (IH _ _ E).
      pose proof (cnt_drop m c _ _ _ _ D) as C. destruct (lop_eq_dec (Un n d) (Lk m c)); [discriminate|].
      destruct (lop_eq_dec (Un n d) (Un m c)) as [[= -> ->]|N].
      * rewrite (proj2 (mode_eqb_eq m m) eq_refl), (proj2 (cls_eqb_eq c c) eq_refl) in C. cbn [andb] in C. lia.
      * destruct (mode_eqb m n && cls_eqb c d) eqn:X; [|lia].
        apply andb_true_iff in X as [X1 X2]. apply mode_eqb_eq in X1. apply cls_eqb_eq in X2. congruence.
    + destruct (forallb _ h); [|rewrite g_lstep_none; discriminate]. intros E. specialize (IH _ _ E).
      destruct (lop_eq_dec (Wt w) (Lk m c)); [discriminate|]. destruct (lop_eq_dec (Wt w) (Un m c)); [discriminate|]. lia.
Qed.

Lemma g_pair_ok_cases c d : g_pair_ok c d = true -> level c < level d \/ In (c, d) exceptions.
Proof.
  unfold g_pair_ok. intros H. apply orb_true_iff in H as [H|H].
  - left. now apply Nat.ltb_lt.
  - right. apply existsb_exists in H as ([a b] & I & E). cbn in E. apply andb_true_iff in E as [E1 E2].
    apply cls_eqb_eq in E1. apply cls_eqb_eq in E2. congruence.
Qed.

Lemma g_safe_nest : forall ops held s, paired held ops -> fold_left g_lstep (map kind ops) (Some (kinds held)) = Some s ->
  forall c d, nest_in held ops c d -> level c < level d \/ In (c, d) exceptions.
Proof.
  induction ops as [|o r IH]; intros held s P S c d N; [inversion N|].
  destruct o as [m l|m l|w]; cbn [map kind fold_left g_lstep] in S.
  - destruct (forallb _ _) eqn:F; [|rewrite g_lstep_none in S; discriminate S].
    inversion N; subst.
    + apply g_pair_ok_cases. rewrite forallb_forall in F. apply (F (fst h, fst (snd h))).
      apply in_map_iff. exists h. auto.
    + cbn in P. eapply IH; [exact P|exact S|assumption].
  - destruct (drop m (fst l) (kinds held)) as [q|] eqn:D; [|rewrite g_lstep_none in S; discriminate S].
    cbn in P. destruct P as [P1 P2]. destruct (drop_remove1 _ _ _ _ P1 D) as [_ ->].
    inversion N; subst. eapply IH; [exact P2|exact S|assumption].
  - destruct (forallb _ _); [|rewrite g_lstep_none in S; discriminate S].
    inversion N; subst. eapply IH; [exact P|exact S|assumption].
Qed.

Lemma g_safe_ordered : forall ops held, paired held ops -> fold_left g_lstep (map kind ops) (Some (kinds held)) = Some [] ->
  (forall c d, nest_in held ops c d -> ~ In (c, d) exceptions) -> ordered level held ops.
Proof.
  induction ops as [|o r IH]; intros held P S N.
  - cbn in S. destruct held; [reflexivity|discriminate S].
  - destruct o as [m l|m l|w]; cbn [map kind fold_left g_lstep ordered] in *.
    + destruct (forallb _ _) eqn:F; [|rewrite g_lstep_none in S; discriminate S]. split.
      * intros h I. rewrite forallb_forall in F. specialize (F (fst h, fst (snd h))).
        destruct (g_pair_ok_cases _ _ (F ltac:(apply in_map_iff; exists h; auto))) as [L|B]; [exact L|].
        exfalso. exact (N _ _ (nest_here held m l r h I) B).
      * apply IH; [exact P|exact S|]. intros c d X. apply N. now constructor.
    + destruct (drop m (fst l) (kinds held)) as [q|] eqn:D; [|rewrite g_lstep_none in S; discriminate S].
      destruct P as [P1 P2]. destruct (drop_remove1 _ _ _ _ P1 D) as [I ->].
      split; [exact I|]. apply IH; [exact P2|exact S|]. intros c d X. apply N. now constructor.
    + destruct (forallb _ _); [|rewrite g_lstep_none in S; discriminate S].
      apply IH; [exact P|exact S|]. intros c d X. apply N. now constructor.
Qed.

Lemma g_safe_waits : forall before held after s w, paired held (before ++ OWt w :: after) ->
  fold_left g_lstep (map kind (before ++ OWt w :: after)) (Some (kinds held)) = Some s ->
  forall n k, In (n, k) (held_after held before) -> In (fst k, w) waits.
Proof.
  induction before as [|o r IH]; intros held after s w P S n k I.
  - cbn [app map kind fold_left g_lstep held_after] in *.
    destruct (forallb _ _) eqn:F; [|rewrite g_lstep_none in S; discriminate S].
    rewrite forallb_forall in F. specialize (F (n, fst k) ltac:(apply in_map_iff; exists (n, k); auto)).
    cbn [snd] in F. unfold g_wait_ok in F. apply existsb_exists in F as ([a b] & J & E). cbn in E.
    apply andb_true_iff in E as [E1 E2]. apply cls_eqb_eq in E1. apply String.eqb_eq in E2. congruence.
  - destruct o as [m l|m l|w']; cbn [app map kind fold_left g_lstep held_after paired] in *.
    + destruct (forallb _ _); [|rewrite g_lstep_none in S; discriminate S]. eapply IH; [exact P|exact S|exact I].
    + destruct (drop m (fst l) (kinds held)) as [q|] eqn:D; [|rewrite g_lstep_none in S; discriminate S].
      destruct P as [P1 P2]. destruct (drop_remove1 _ _ _ _ P1 D) as [_ ->]. eapply IH; [exact P2|exact S|exact I].
    + destruct (forallb _ _); [|rewrite g_lstep_none in S; discriminate S]. eapply IH; [exact P|exact S|exact I].
Qed.

Hypothesis table_ok : forallb g_root_ok table = true.

Lemma g_does_safe root ks : table_does root ks -> fold_left g_lstep ks (Some []) = Some [].
Proof.
  intros (p & t & x & I & R & <-). pose proof table_ok as F. rewrite forallb_forall in F. specialize (F _ I).
  unfold g_root_ok in F. cbn [snd] in F.
  destruct (analyze _ st_eqb g_estep p (Some [])) as [l|] eqn:A; [|discriminate F].
  rewrite forallb_forall in F. specialize (F _ (analyze_sound _ _ st_eqb_eq _ _ _ _ A _ _ R)). cbn [fst] in F.
  apply st_eqb_eq in F. now rewrite g_fold_estep in F.
Qed.

Lemma g_all_released root ks m c : table_does root ks -> times (Lk m c) ks = times (Un m c) ks.
Proof. intros D. pose proof (g_counts m c _ _ _ (g_does_safe _ _ D)). unfold cnt in *. cbn in *. lia. Qed.

Lemma g_none_stray root before after m c : table_does root (before ++ after) -> times (Un m c) before <= times (Lk m c) before.
Proof.
  intros D. pose proof (g_does_safe _ _ D) as S. rewrite fold_left_app in S.
  destruct (fold_left g_lstep before (Some [])) as [h|] eqn:E; [|rewrite g_lstep_none in S; discriminate S].
  pose proof (g_counts m c _ _ _ E). unfold cnt in *. cbn in *. lia.
Qed.

Definition table_thread (ops : list op) : Prop := exists root, table_does root (map kind ops) /\ paired [] ops.

Lemma g_order ops : table_thread ops -> forall c d, nests ops c d -> level c < level d \/ In (c, d) exceptions.
Proof.
  intros (root & D & P) c d (b & m & l & a & -> & <- & n & k & I & <-).
  eapply (g_safe_nest _ []); [exact P|exact (g_does_safe _ _ D)|]. eapply nests_nest_in, I.
Qed.

Lemma g_waits ops : table_thread ops -> forall c w, waits_holding ops c w -> In (c, w) waits.
Proof.
  intros (root & D & P) c w (b & a & -> & n & k & I & <-).
  eapply (g_safe_waits _ []); [exact P|exact (g_does_safe _ _ D)|exact I].
Qed.

Lemma g_good ops : table_thread ops -> (forall c d, nests ops c d -> ~ In (c, d) exceptions) -> good level (fresh ops).
Proof.
  intros (root & D & P) N. unfold good. cbn [fresh th_held th_rest].
  apply g_safe_ordered; [exact P|exact (g_does_safe _ _ D)|]. intros c d X. apply N. apply nest_in_nests in X. exact X.
Qed.

Definition g_in_order (work : list (list op)) : Prop :=
  forall ops, In ops work -> table_thread ops /\ forall c d, nests ops c d -> ~ In (c, d) exceptions.

Lemma g_reaches_good work ts : g_in_order work -> reaches work ts -> (forall t, In t ts -> good level t) /\ sane ts.
Proof.
  intros O (s & E). split.
  - eapply execute_good; [|exact E]. intros t I. apply in_map_iff in I as (ops & <- & I).
    destruct (O _ I). now apply g_good.
  - exact (proj2 (execute_sane _ _ _ (sane_fresh work) E)).
Qed.

Lemma g_no_deadlock work : g_in_order work -> forall ts, reaches work ts -> ~ deadlock ts.
Proof.
  intros O ts R [S N]. destruct (g_reaches_good _ _ O R) as [G _]. exact (N (good_progress _ _ G S)).
Qed.

Lemma g_completes work : g_in_order work -> forall ts, reaches work ts ->
  exists schedule ts', execute ts schedule = Some ts' /\ finished ts'.
Proof.
  intros O ts R. destruct (g_reaches_good _ _ O R) as [G H]. eapply good_completes; eauto.
Qed.
End Table.
