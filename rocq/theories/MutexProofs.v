(** Threads that take their locks in an order never deadlock; the server's functions take and release them so. *)
From Coq Require Import ZArith String List Bool Lia Arith.
From Verif Require Import Flow Mutex MutexTable HandlersAnalysis MutexSpec.
Import ListNotations.

(** ** Threads that take their locks in increasing order of rank *)
Section Order.
Variable rank : cls -> nat.

Fixpoint ordered (held : list (mode * lock)) (ops : list op) : Prop :=
  match ops with
  | [] => held = []
  | OLk m l :: r => (forall h, In h held -> rank (fst (snd h)) < rank (fst l)) /\ ordered ((m, l) :: held) r
  | OUn m l :: r => In (m, l) held /\ ordered (remove1 (m, l) held) r
  | OWt _ :: r => ordered held r
  end.

Definition good (t : thread) : Prop := ordered (th_held t) (th_rest t).

Lemma advance_good ts t t' : good t -> advance ts t = Some t' -> good t'.
Proof.
  unfold good, advance. destruct t as [rest held an]. cbn [th_rest th_held th_announced].
  destruct rest as [|[[] l|m l|w] r]; [discriminate| | | |]; cbn [ordered].
  - intros [A B]. destruct (existsb _ ts); [discriminate|]. intros [= <-]. exact B.
  - intros [A B]. destruct an; destruct (existsb _ ts); try discriminate; intros [= <-]; [exact B|exact (conj A B)].
  - intros [A B]. destruct (holds m l _); [|discriminate]. intros [= <-]. exact B.
  - intros A [= <-]. exact A.
Qed.

Lemma update_in ts : forall i t u, In u (update ts i t) -> u = t \/ In u ts.
Proof.
  induction ts as [|x r IH]; cbn; [tauto|]. intros [|i] t u; cbn.
  - intros [->|H]; auto.
  - intros [->|H]; auto. destruct (IH _ _ _ H); auto.
Qed.

Lemma step_good ts i ts' : (forall t, In t ts -> good t) -> step ts i = Some ts' -> forall t, In t ts' -> good t.
Proof.
  unfold step. intros G. destruct (nth_error ts i) as [u|] eqn:N; [|discriminate].
  destruct (advance ts u) as [u'|] eqn:A; [|discriminate]. intros [= <-] t I.
  apply update_in in I as [->|I]; [|auto]. eapply advance_good; eauto using nth_error_In.
Qed.

Lemma execute_good schedule : forall ts ts', (forall t, In t ts -> good t) -> execute ts schedule = Some ts' ->
  forall t, In t ts' -> good t.
Proof.
  induction schedule as [|i r IH]; cbn; intros ts ts' G.
  - now intros [= <-].
  - destruct (step ts i) as [ts1|] eqn:E; [|discriminate]. intros H. eapply IH; [|exact H]. eapply step_good; eauto.
Qed.

(** the rank of the lock a thread wants *)
Definition wanted (t : thread) : nat :=
  match th_rest t with OLk _ l :: _ => rank (fst l) | _ => 0 end.

Lemma holder_wants_more ts u m l : good u -> holds m l u = true -> advance ts u = None ->
  rank (fst l) < wanted u.
Proof.
  unfold good, holds, advance, wanted. destruct u as [rest held an]. cbn [th_rest th_held th_announced].
  destruct (in_dec hold_eq_dec (m, l) held) as [I|]; [|discriminate]. intros G _.
  destruct rest as [|[n k|n k|w] r]; cbn [ordered] in G.
  - subst. destruct I.
  - intros _. destruct G as [A _]. exact (A _ I).
  - destruct G as [A _]. unfold holds. cbn [th_held]. destruct (in_dec hold_eq_dec (n, k) held) as [|N]; [intros X; discriminate X|].
    destruct (N A).
  - intros X; discriminate X.
Qed.

Lemma blocked_wants ts t : good t -> th_rest t <> [] -> advance ts t = None ->
  exists m l r, th_rest t = OLk m l :: r /\
    ((exists u n, In u ts /\ holds n l u = true) \/
     (exists u, In u ts /\ announces l u = true)).
Proof.
  unfold good, advance. destruct t as [rest held an]. cbn [th_rest th_held th_announced].
  destruct rest as [|[[] l|m l|w] r]; cbn [ordered]; intros G N.
  - congruence.
  - destruct (existsb _ ts) eqn:E; [|discriminate]. intros _. exists Sh, l, r. split; [reflexivity|].
    apply existsb_exists in E as (u & I & E). apply orb_true_iff in E as [E|E]; [left|right]; eauto.
  - intros H. exists Ex, l, r. split; [reflexivity|]. destruct an.
    + destruct (existsb _ ts) eqn:E; [|discriminate].
      apply existsb_exists in E as (u & I & E). left; eauto.
    + destruct (existsb _ ts) eqn:E; [|discriminate].
      apply existsb_exists in E as (u & I & E). apply orb_true_iff in E as [E|E]; [left|right]; eauto.
  - destruct G as [A _]. unfold holds. cbn [th_held]. destruct (in_dec hold_eq_dec (m, l) held) as [|X]; [intros Y; discriminate Y|].
    destruct (X A).
  - intros X; discriminate X.
Qed.

Lemma announced_blocked ts u l : announces l u = true -> advance ts u = None ->
  exists v, In v ts /\ holds Sh l v = true.
Proof.
  unfold announces, advance. destruct u as [rest held an]. cbn [th_rest th_held th_announced].
  destruct rest as [|[[] k|m k|w] r]; try discriminate. intros A. apply andb_true_iff in A as [-> A].
  destruct (lock_eq_dec k l) as [->|]; [|discriminate].
  destruct (existsb _ ts) eqn:E; [|discriminate]. intros _. apply existsb_exists in E. exact E.
Qed.

Lemma max_wanted (ts : list thread) : ts <> [] -> exists t, In t ts /\ forall u, In u ts -> wanted u <= wanted t.
Proof.
  induction ts as [|x r IH]; [congruence|]. intros _. destruct r as [|y r'].
  - exists x. split; [now left|]. intros u [<-|[]]. lia.
  - destruct IH as (t & I & M); [discriminate|]. destruct (Nat.le_gt_cases (wanted x) (wanted t)) as [L|L].
    + exists t. split; [now right|]. intros u [<-|H]; [lia|auto].
    + exists x. split; [now left|]. intros u [<-|H]; [lia|]. specialize (M _ H). lia.
Qed.

Lemma stuck_none ts : stuck ts -> forall t, In t ts -> advance ts t = None.
Proof.
  intros S t I. apply In_nth_error in I as (i & N). specialize (S i). unfold step in S. rewrite N in S.
  destruct (advance ts t); [discriminate|reflexivity].
Qed.

Lemma good_progress ts : (forall t, In t ts -> good t) -> stuck ts -> finished ts.
Proof.
  intros G S t I. destruct (th_rest t) as [|o r] eqn:R; [reflexivity|exfalso].
  destruct (max_wanted (filter (fun u => match th_rest u with [] => false | _ => true end) ts)) as (b & Ib & M).
  { intros E. assert (X : In t []) by (rewrite <- E; apply filter_In; split; [assumption|now rewrite R]). destruct X. }
  apply filter_In in Ib as [Ib Nb].
  assert (Rb : th_rest b <> []) by (intros E; rewrite E in Nb; discriminate).
  assert (Mx : forall u, In u ts -> wanted u <= wanted b).
  { intros u Iu. destruct (th_rest u) as [|o' r'] eqn:Ru.
    - unfold wanted. rewrite Ru. apply Nat.le_0_l.
    - apply M, filter_In. rewrite Ru. auto. }
  destruct (blocked_wants ts b (G _ Ib) Rb (stuck_none _ S _ Ib)) as (m & l & rb & Eb & [(u & n & Iu & Hu)|(u & Iu & Au)]).
  - pose proof (holder_wants_more ts u n l (G _ Iu) Hu (stuck_none _ S _ Iu)). specialize (Mx _ Iu).
    unfold wanted in Mx at 2. rewrite Eb in Mx. lia.
  - destruct (announced_blocked _ _ _ Au (stuck_none _ S _ Iu)) as (v & Iv & Hv).
    pose proof (holder_wants_more ts v Sh l (G _ Iv) Hv (stuck_none _ S _ Iv)). specialize (Mx _ Iv).
    unfold wanted in Mx at 2. rewrite Eb in Mx. lia.
Qed.
End Order.

(** ** Every schedule ends *)
Definition todo1 (t : thread) : nat := 2 * length (th_rest t) - (if th_announced t then 1 else 0).
Definition todo (ts : list thread) : nat := fold_right (fun t n => todo1 t + n) 0 ts.

Lemma advance_less ts t t' : advance ts t = Some t' -> (th_announced t = true -> th_rest t <> []) -> todo1 t' < todo1 t.
Proof.
  unfold advance, todo1. destruct t as [rest held an]. cbn [th_rest th_held th_announced].
  destruct rest as [|[[] l|m l|w] r]; [discriminate| | | |].
  - destruct (existsb _ ts); [discriminate|]. intros [= <-] _. cbn. destruct an; lia.
  - destruct an; destruct (existsb _ ts); try discriminate; intros [= <-] _; cbn; lia.
  - destruct (holds m l _); [|discriminate]. intros [= <-] _. cbn. destruct an; lia.
  - intros [= <-] _. cbn. destruct an; lia.
Qed.

Lemma advance_rest ts t t' : advance ts t = Some t' -> th_announced t' = true -> th_rest t' <> [].
Proof.
  unfold advance. destruct t as [rest held an]. cbn [th_rest th_held th_announced].
  destruct rest as [|[[] l|m l|w] r]; [discriminate| | | |].
  - destruct (existsb _ ts); [discriminate|]. intros [= <-]. discriminate.
  - destruct an; destruct (existsb _ ts); try discriminate; intros [= <-]; cbn; discriminate.
  - destruct (holds m l _); [|discriminate]. intros [= <-]. discriminate.
  - intros [= <-]. discriminate.
Qed.

Lemma todo_update ts : forall i t t', nth_error ts i = Some t -> todo1 t' < todo1 t -> todo (update ts i t') < todo ts.
Proof.
  induction ts as [|x r IH]; intros [|i] t t' N L; cbn [nth_error update] in *; try discriminate; unfold todo in *; cbn [fold_right].
  - injection N as ->. lia.
  - specialize (IH _ _ _ N L). lia.
Qed.

Definition sane (ts : list thread) : Prop := forall t, In t ts -> th_announced t = true -> th_rest t <> [].

Lemma step_less ts i ts' : sane ts -> step ts i = Some ts' -> todo ts' < todo ts /\ sane ts'.
Proof.
  unfold step. intros H. destruct (nth_error ts i) as [t|] eqn:N; [|discriminate].
  destruct (advance ts t) as [t'|] eqn:A; [|discriminate]. intros [= <-]. split.
  - eapply todo_update; [exact N|]. eapply advance_less; [exact A|]. apply H. eauto using nth_error_In.
  - intros u I. apply update_in in I as [->|I]; [|auto]. eapply advance_rest; eauto.
Qed.

Lemma execute_sane schedule : forall ts ts', sane ts -> execute ts schedule = Some ts' ->
  todo ts' + length schedule <= todo ts /\ sane ts'.
Proof.
  induction schedule as [|i r IH]; cbn; intros ts ts' H.
  - intros [= <-]. split; [lia|assumption].
  - destruct (step ts i) as [ts1|] eqn:E; [|discriminate]. intros X.
    destruct (step_less _ _ _ H E) as [L H1]. destruct (IH _ _ H1 X). split; [lia|assumption].
Qed.

Lemma sane_fresh work : sane (map fresh work).
Proof. intros t I. apply in_map_iff in I as (w & <- & _). discriminate. Qed.

Lemma todo_fresh work : todo (map fresh work) = 2 * length (concat work).
Proof. induction work as [|w r IH]; [reflexivity|]. cbn [map concat]. rewrite app_length.
  change (todo (fresh w :: map fresh r)) with (todo1 (fresh w) + todo (map fresh r)). rewrite IH.
  unfold todo1. cbn [fresh th_rest th_announced]. lia. Qed.

Lemma can_step_dec ts : {i | step ts i <> None} + {stuck ts}.
Proof.
  assert (D : {i | i < length ts /\ step ts i <> None} + {forall i, i < length ts -> step ts i = None}).
  { generalize (length ts) as n. induction n as [|n [ (i & L & H)|H]].
    - right. intros i L. lia.
    - left. exists i. split; [lia|assumption].
    - destruct (step ts n) eqn:E.
      + left. exists n. split; [lia|congruence].
      + right. intros i L. destruct (Nat.eq_dec i n) as [->|]; [assumption|apply H; lia]. }
  destruct D as [(i & _ & H)|H]; [left; exists i; assumption|right].
  intros i. destruct (Nat.lt_ge_cases i (length ts)) as [L|L]; [auto|].
  unfold step. apply nth_error_None in L. now rewrite L.
Qed.

Lemma execute_app a : forall b ts ts1 ts2, execute ts a = Some ts1 -> execute ts1 b = Some ts2 -> execute ts (a ++ b) = Some ts2.
Proof.
  induction a as [|i r IH]; cbn; intros b ts ts1 ts2 A B; [congruence|].
  destruct (step ts i); [|discriminate]. eauto.
Qed.

Lemma good_completes rank : forall n ts, todo ts <= n -> sane ts -> (forall t, In t ts -> good rank t) ->
  exists schedule ts', execute ts schedule = Some ts' /\ finished ts'.
Proof.
  induction n as [|n IH]; intros ts L H G; destruct (can_step_dec ts) as [(i & X)|X].
  - destruct (step ts i) as [ts1|] eqn:E; [|congruence]. destruct (step_less _ _ _ H E). lia.
  - exists [], ts. split; [reflexivity|]. eapply good_progress; eauto.
  - destruct (step ts i) as [ts1|] eqn:E; [|congruence]. destruct (step_less _ _ _ H E) as [L1 H1].
    destruct (IH ts1) as (s & ts' & E1 & F); [lia|assumption|eapply step_good; eauto|].
    exists (i :: s), ts'. cbn. rewrite E. auto.
  - exists [], ts. split; [reflexivity|]. eapply good_progress; eauto.
Qed.

(** ** The operations of the server's functions *)
Definition mode_eqb (a b : mode) : bool := match a, b with Sh, Sh | Ex, Ex => true | _, _ => false end.
Definition cls_code (c : cls) : nat :=
  match c with
  | KServer => 0 | KSessionManager => 1 | KSession => 2 | KSubscriptionManager => 3 | KSubscription => 4
  | KDataItem => 5 | KEventItem => 6 | KNamespaceManager => 7 | KScheduler => 8 | KPollGroup => 9
  | KChannel => 10 | KSending => 11 | KReceiving => 12 | KDataTypeNode => 13 | KMethodNode => 14
  | KObjectNode => 15 | KObjectTypeNode => 16 | KReferenceTypeNode => 17 | KVariableNode => 18
  | KVariableTypeNode => 19 | KViewNode => 20 | KToken => 21
  end.
Definition cls_eqb (a b : cls) : bool := Nat.eqb (cls_code a) (cls_code b).

Lemma mode_eqb_eq a b : mode_eqb a b = true <-> a = b.
Proof. destruct a, b; cbn; split; congruence. Qed.
Lemma cls_eqb_eq a b : cls_eqb a b = true <-> a = b.
Proof.
  unfold cls_eqb. rewrite Nat.eqb_eq. split; [|congruence].
  destruct a, b; cbn; intros H; (reflexivity || discriminate H).
Qed.

Fixpoint held_eqb (a b : list (mode * cls)) : bool :=
  match a, b with
  | [], [] => true
  | (m, c) :: r, (n, d) :: q => mode_eqb m n && cls_eqb c d && held_eqb r q
  | _, _ => false
  end.
Lemma held_eqb_eq a : forall b, held_eqb a b = true <-> a = b.
Proof.
  induction a as [|[m c] r IH]; intros [|[n d] q]; cbn; try (split; congruence).
  rewrite !andb_true_iff, mode_eqb_eq, cls_eqb_eq, IH. split; [intros [[-> ->] ->]|intros [= -> -> ->]]; auto.
Qed.

Fixpoint drop (m : mode) (c : cls) (l : list (mode * cls)) : option (list (mode * cls)) :=
  match l with
  | [] => None
  | (n, d) :: r => if mode_eqb m n && cls_eqb c d then Some r
                   else match drop m c r with Some q => Some ((n, d) :: q) | None => None end
  end.

(** the order of the locks *)
Definition rank (c : cls) : nat :=
  match c with
  | KSessionManager | KSubscriptionManager | KChannel => 0
  | KSubscription | KReceiving => 1
  | KDataItem | KSending => 2
  | KEventItem => 3
  | KServer => 4
  | KNamespaceManager => 5
  | KObjectNode => 6
  | _ => 7
  end.

Definition pair_ok (c d : cls) : bool :=
  (rank c <? rank d) || existsb (fun p => cls_eqb (fst p) c && cls_eqb (snd p) d) out_of_order.

Definition wait_ok (c : cls) (w : string) : bool :=
  existsb (fun p => cls_eqb (fst p) c && String.eqb (snd p) w) waits_with_lock.

Definition lstep (s : option (list (mode * cls))) (o : lop) : option (list (mode * cls)) :=
  match s with
  | None => None
  | Some h =>
      match o with
      | Lk m c => if forallb (fun x => pair_ok (snd x) c) h then Some ((m, c) :: h) else None
      | Un m c => drop m c h
      | Wt w => if forallb (fun x => wait_ok (snd x) w) h then Some h else None
      end
  end.

Definition estep (s : option (list (mode * cls))) (e : event lop) : option (list (mode * cls)) :=
  match e with Did o => lstep s o | Cond _ _ => s end.

Definition st_eqb (a b : option (list (mode * cls))) : bool :=
  match a, b with None, None => true | Some x, Some y => held_eqb x y | _, _ => false end.
Lemma st_eqb_eq a b : st_eqb a b = true <-> a = b.
Proof.
  destruct a, b; cbn; try (split; congruence). rewrite held_eqb_eq. split; congruence.
Qed.

Lemma fold_estep t : forall s, fold_left estep t s = fold_left lstep (ops_of t) s.
Proof. induction t as [|[o|c v] r IH]; cbn; intros s; auto. Qed.

Definition root_ok (r : string * prog lop) : bool :=
  match analyze _ st_eqb estep (snd r) (Some []) with
  | Some l => forallb (fun o => st_eqb (fst o) (Some [])) l
  | None => false
  end.

Lemma roots_ok : forallb root_ok roots = true.
Proof. vm_compute. reflexivity. Qed.

Theorem does_safe root ks : does root ks -> fold_left lstep ks (Some []) = Some [].
Proof.
  intros (p & t & x & I & R & <-). pose proof roots_ok as F. rewrite forallb_forall in F. specialize (F _ I).
  unfold root_ok in F. cbn [snd] in F.
  destruct (analyze _ st_eqb estep p (Some [])) as [l|] eqn:A; [|discriminate F].
  rewrite forallb_forall in F. specialize (F _ (analyze_sound _ _ st_eqb_eq _ _ _ _ A _ _ R)). cbn [fst] in F.
  apply st_eqb_eq in F. now rewrite fold_estep in F.
Qed.

Lemma lstep_none ks : fold_left lstep ks None = None.
Proof. induction ks; cbn; auto. Qed.

(** *** How often locks are taken and released *)
Definition cnt (m : mode) (c : cls) (h : list (mode * cls)) : nat :=
  length (filter (fun x => mode_eqb m (fst x) && cls_eqb c (snd x)) h).

Lemma cnt_drop m c : forall h q n d, drop n d h = Some q ->
  cnt m c h = cnt m c q + (if mode_eqb m n && cls_eqb c d then 1 else 0).
Proof.
  induction h as [|[a b] r IH]; cbn [drop]; intros q n d E; [discriminate|].
  destruct (mode_eqb n a && cls_eqb d b) eqn:X.
  - injection E as <-. apply andb_true_iff in X as [X1 X2]. apply mode_eqb_eq in X1. apply cls_eqb_eq in X2. subst.
    unfold cnt. cbn [filter fst snd]. destruct (_ && _); cbn [length]; lia.
  - destruct (drop n d r) as [q'|] eqn:D; [|discriminate]. injection E as <-. specialize (IH _ _ _ D).
    unfold cnt in *. cbn [filter fst snd]. destruct (mode_eqb m a && cls_eqb c b); cbn [length]; lia.
Qed.

Lemma times_cons o k ks : times o (k :: ks) = (if lop_eq_dec k o then 1 else 0) + times o ks.
Proof. unfold times. cbn. destruct (lop_eq_dec k o); lia. Qed.

Lemma counts m c : forall ks h q, fold_left lstep ks (Some h) = Some q ->
  cnt m c h + times (Lk m c) ks = cnt m c q + times (Un m c) ks.
Proof.
  induction ks as [|k ks IH]; intros h q; cbn [fold_left].
  - intros [= <-]. reflexivity.
  - rewrite !times_cons. destruct k as [n d|n d|w]; cbn [lstep].
    + destruct (forallb _ h); [|rewrite lstep_none; discriminate]. intros E. specialize (IH _ _ E).
      unfold cnt in IH at 1. cbn [filter fst snd] in IH. fold (cnt m c h) in IH.
      destruct (lop_eq_dec (Un n d) (Lk m c)); [discriminate|]. destruct (lop_eq_dec (Lk n d) (Un m c)); [discriminate|].
      destruct (lop_eq_dec (Lk n d) (Lk m c)) as [[= -> ->]|N].
      * rewrite (proj2 (mode_eqb_eq m m) eq_refl), (proj2 (cls_eqb_eq c c) eq_refl) in IH. cbn [andb length] in IH.
        unfold cnt in *. lia.
      * destruct (mode_eqb m n && cls_eqb c d) eqn:X; [|unfold cnt in *; lia].
        apply andb_true_iff in X as [X1 X2]. apply mode_eqb_eq in X1. apply cls_eqb_eq in X2. congruence.
    + destruct (drop n d h) as [h'|] eqn:D; [|rewrite lstep_none; discriminate]. intros E. specialize (IH _ _ E).
      pose proof (cnt_drop m c _ _ _ _ D) as C. destruct (lop_eq_dec (Un n d) (Lk m c)); [discriminate|].
      destruct (lop_eq_dec (Un n d) (Un m c)) as [[= -> ->]|N].
      * rewrite (proj2 (mode_eqb_eq m m) eq_refl), (proj2 (cls_eqb_eq c c) eq_refl) in C. cbn [andb] in C. lia.
      * destruct (mode_eqb m n && cls_eqb c d) eqn:X; [|lia].
        apply andb_true_iff in X as [X1 X2]. apply mode_eqb_eq in X1. apply cls_eqb_eq in X2. congruence.
    + destruct (forallb _ h); [|rewrite lstep_none; discriminate]. intros E. specialize (IH _ _ E).
      destruct (lop_eq_dec (Wt w) (Lk m c)); [discriminate|]. destruct (lop_eq_dec (Wt w) (Un m c)); [discriminate|]. lia.
Qed.

Lemma all_released root ks m c : does root ks -> times (Lk m c) ks = times (Un m c) ks.
Proof. intros D. pose proof (counts m c _ _ _ (does_safe _ _ D)). unfold cnt in *. cbn in *. lia. Qed.

Lemma none_stray root before after m c : does root (before ++ after) -> times (Un m c) before <= times (Lk m c) before.
Proof.
  intros D. pose proof (does_safe _ _ D) as S. rewrite fold_left_app in S.
  destruct (fold_left lstep before (Some [])) as [h|] eqn:E; [|rewrite lstep_none in S; discriminate S].
  pose proof (counts m c _ _ _ E). unfold cnt in *. cbn in *. lia.
Qed.

(** *** From kinds of locks to locks *)
Definition kinds (held : list (mode * lock)) : list (mode * cls) := map (fun h => (fst h, fst (snd h))) held.

Lemma drop_remove1 m l : forall held q,
  (forall before after k, held = before ++ (m, k) :: after -> fst k = fst l ->
     (forall j, In (m, j) before -> fst j <> fst l) -> k = l) ->
  drop m (fst l) (kinds held) = Some q -> In (m, l) held /\ q = kinds (remove1 (m, l) held).
Proof.
  induction held as [|[n k] r IH]; cbn [kinds map drop fst snd]; intros q P E; [discriminate|].
  destruct (mode_eqb m n && cls_eqb (fst l) (fst k)) eqn:X.
  - injection E as <-. apply andb_true_iff in X as [X1 X2]. apply mode_eqb_eq in X1. apply cls_eqb_eq in X2. subst n.
    assert (k = l) by (apply (P [] r k eq_refl); [congruence|intros j []]). subst k.
    split; [now left|]. cbn [remove1]. destruct (hold_eq_dec (m, l) (m, l)); [reflexivity|congruence].
  - destruct (drop m (fst l) (map _ r)) as [q'|] eqn:D; [|discriminate]. injection E as <-.
    assert (NE : (m, l) <> (n, k)).
    { intros [= -> ->]. rewrite (proj2 (mode_eqb_eq n n) eq_refl), (proj2 (cls_eqb_eq _ _) eq_refl) in X. discriminate X. }
    destruct (IH q') as [I Eq].
    + intros before after k' E Ek B. apply (P ((n, k) :: before) after k'); [cbn; congruence|assumption|].
      intros j [[= -> ->]|J]; [|auto]. intros C.
      rewrite (proj2 (mode_eqb_eq m m) eq_refl) in X. cbn [andb] in X. symmetry in C. apply cls_eqb_eq in C. congruence.
    + exact D.
    + split; [now right|]. cbn [remove1]. destruct (hold_eq_dec (m, l) (n, k)); [congruence|]. cbn [map fst snd]. now rewrite Eq.
Qed.

(** a safe run of a thread: locks in order unless they are out of order pairs *)
Inductive nest_in (held : list (mode * lock)) : list op -> cls -> cls -> Prop :=
| nest_here : forall m l r h, In h held -> nest_in held (OLk m l :: r) (fst (snd h)) (fst l)
| nest_lk : forall m l r c d, nest_in ((m, l) :: held) r c d -> nest_in held (OLk m l :: r) c d
| nest_un : forall m l r c d, nest_in (remove1 (m, l) held) r c d -> nest_in held (OUn m l :: r) c d
| nest_wt : forall w r c d, nest_in held r c d -> nest_in held (OWt w :: r) c d.

Lemma nest_in_nests held ops c d : nest_in held ops c d ->
  exists before m l after, ops = before ++ OLk m l :: after /\ fst l = d /\
    exists n k, In (n, k) (held_after held before) /\ fst k = c.
Proof.
  induction 1 as [held m l r [n k] I|held m l r c d N IH|held m l r c d N IH|held w r c d N IH].
  - exists [], m, l, r. repeat split; eauto.
  - destruct IH as (b & m' & l' & a & -> & E & X). exists (OLk m l :: b), m', l', a. auto.
  - destruct IH as (b & m' & l' & a & -> & E & X). exists (OUn m l :: b), m', l', a. auto.
  - destruct IH as (b & m' & l' & a & -> & E & X). exists (OWt w :: b), m', l', a. auto.
Qed.

Lemma nests_nest_in : forall before held m l after n k, In (n, k) (held_after held before) ->
  nest_in held (before ++ OLk m l :: after) (fst k) (fst l).
Proof.
  induction before as [|o before IH]; cbn; intros held m l after n k I.
  - exact (nest_here held m l after (n, k) I).
  - destruct o; constructor; eapply IH; eauto.
Qed.

Lemma pair_ok_cases c d : pair_ok c d = true -> rank c < rank d \/ In (c, d) out_of_order.
Proof.
  unfold pair_ok. intros H. apply orb_true_iff in H as [H|H].
  - left. now apply Nat.ltb_lt.
  - right. apply existsb_exists in H as ([a b] & I & E). cbn in E. apply andb_true_iff in E as [E1 E2].
    apply cls_eqb_eq in E1. apply cls_eqb_eq in E2. congruence.
Qed.

Lemma safe_nest : forall ops held s, paired held ops -> fold_left lstep (map kind ops) (Some (kinds held)) = Some s ->
  forall c d, nest_in held ops c d -> rank c < rank d \/ In (c, d) out_of_order.
Proof.
  induction ops as [|o r IH]; intros held s P S c d N; [inversion N|].
  destruct o as [m l|m l|w]; cbn [map kind fold_left lstep] in S.
  - destruct (forallb _ _) eqn:F; [|rewrite lstep_none in S; discriminate S].
    inversion N; subst.
    + apply pair_ok_cases. rewrite forallb_forall in F. apply (F (fst h, fst (snd h))).
      apply in_map_iff. exists h. auto.
    + cbn in P. eapply IH; [exact P|exact S|assumption].
  - destruct (drop m (fst l) (kinds held)) as [q|] eqn:D; [|rewrite lstep_none in S; discriminate S].
    cbn in P. destruct P as [P1 P2]. destruct (drop_remove1 _ _ _ _ P1 D) as [_ ->].
    inversion N; subst. eapply IH; [exact P2|exact S|assumption].
  - destruct (forallb _ _); [|rewrite lstep_none in S; discriminate S].
    inversion N; subst. eapply IH; [exact P|exact S|assumption].
Qed.

Lemma safe_ordered : forall ops held, paired held ops -> fold_left lstep (map kind ops) (Some (kinds held)) = Some [] ->
  (forall c d, nest_in held ops c d -> ~ In (c, d) out_of_order) -> ordered rank held ops.
Proof.
  induction ops as [|o r IH]; intros held P S N.
  - cbn in S. destruct held; [reflexivity|discriminate S].
  - destruct o as [m l|m l|w]; cbn [map kind fold_left lstep ordered] in *.
    + destruct (forallb _ _) eqn:F; [|rewrite lstep_none in S; discriminate S]. split.
      * intros h I. rewrite forallb_forall in F. specialize (F (fst h, fst (snd h))).
        destruct (pair_ok_cases _ _ (F ltac:(apply in_map_iff; exists h; auto))) as [L|B]; [exact L|].
        exfalso. exact (N _ _ (nest_here held m l r h I) B).
      * apply IH; [exact P|exact S|]. intros c d X. apply N. now constructor.
    + destruct (drop m (fst l) (kinds held)) as [q|] eqn:D; [|rewrite lstep_none in S; discriminate S].
      destruct P as [P1 P2]. destruct (drop_remove1 _ _ _ _ P1 D) as [I ->].
      split; [exact I|]. apply IH; [exact P2|exact S|]. intros c d X. apply N. now constructor.
    + destruct (forallb _ _); [|rewrite lstep_none in S; discriminate S].
      apply IH; [exact P|exact S|]. intros c d X. apply N. now constructor.
Qed.

Lemma safe_waits : forall before held after s w, paired held (before ++ OWt w :: after) ->
  fold_left lstep (map kind (before ++ OWt w :: after)) (Some (kinds held)) = Some s ->
  forall n k, In (n, k) (held_after held before) -> In (fst k, w) waits_with_lock.
Proof.
  induction before as [|o r IH]; intros held after s w P S n k I.
  - cbn [app map kind fold_left lstep held_after] in *.
    destruct (forallb _ _) eqn:F; [|rewrite lstep_none in S; discriminate S].
    rewrite forallb_forall in F. specialize (F (n, fst k) ltac:(apply in_map_iff; exists (n, k); auto)).
    cbn [snd] in F. unfold wait_ok in F. apply existsb_exists in F as ([a b] & J & E). cbn in E.
    apply andb_true_iff in E as [E1 E2]. apply cls_eqb_eq in E1. apply String.eqb_eq in E2. congruence.
  - destruct o as [m l|m l|w']; cbn [app map kind fold_left lstep held_after paired] in *.
    + destruct (forallb _ _); [|rewrite lstep_none in S; discriminate S]. eapply IH; [exact P|exact S|exact I].
    + destruct (drop m (fst l) (kinds held)) as [q|] eqn:D; [|rewrite lstep_none in S; discriminate S].
      destruct P as [P1 P2]. destruct (drop_remove1 _ _ _ _ P1 D) as [_ ->]. eapply IH; [exact P2|exact S|exact I].
    + destruct (forallb _ _); [|rewrite lstep_none in S; discriminate S]. eapply IH; [exact P|exact S|exact I].
Qed.

(** ** The server *)
Lemma server_order : exists level : cls -> nat, forall ops, server_thread ops ->
  forall c d, nests ops c d -> level c < level d \/ In (c, d) out_of_order.
Proof.
  exists rank. intros ops (root & D & P) c d (b & m & l & a & -> & <- & n & k & I & <-).
  eapply (safe_nest _ []); [exact P|exact (does_safe _ _ D)|]. eapply nests_nest_in, I.
Qed.

Lemma server_good ops : server_thread ops -> (forall c d, nests ops c d -> ~ In (c, d) out_of_order) -> good rank (fresh ops).
Proof.
  intros (root & D & P) N. unfold good. cbn [fresh th_held th_rest].
  apply safe_ordered; [exact P|exact (does_safe _ _ D)|]. intros c d X. apply N. apply nest_in_nests in X. exact X.
Qed.

Lemma reaches_good work ts : in_order work -> reaches work ts -> (forall t, In t ts -> good rank t) /\ sane ts.
Proof.
  intros O (s & E). split.
  - eapply execute_good; [|exact E]. intros t I. apply in_map_iff in I as (ops & <- & I).
    destruct (O _ I). now apply server_good.
  - exact (proj2 (execute_sane _ _ _ (sane_fresh work) E)).
Qed.

Lemma no_deadlock work : in_order work -> forall ts, reaches work ts -> ~ deadlock ts.
Proof.
  intros O ts R [S N]. destruct (reaches_good _ _ O R) as [G _]. exact (N (good_progress _ _ G S)).
Qed.

Lemma completes work : in_order work -> forall ts, reaches work ts ->
  exists schedule ts', execute ts schedule = Some ts' /\ finished ts'.
Proof.
  intros O ts R. destruct (reaches_good _ _ O R) as [G H]. eapply good_completes; eauto.
Qed.

Lemma bounded work schedule ts : execute (map fresh work) schedule = Some ts -> length schedule <= 2 * length (concat work).
Proof. intros E. destruct (execute_sane _ _ _ (sane_fresh work) E). rewrite todo_fresh in *. lia. Qed.

Lemma server_waits ops : server_thread ops -> forall c w, waits_holding ops c w -> In (c, w) waits_with_lock.
Proof.
  intros (root & D & P) c w (b & a & -> & n & k & I & <-).
  eapply (safe_waits _ []); [exact P|exact (does_safe _ _ D)|exact I].
Qed.

Lemma server_waits_global ops : server_thread ops -> forall c w, waits_holding ops c w ->
  ~ In c [KServer; KSessionManager; KSession; KSubscriptionManager; KNamespaceManager; KScheduler; KPollGroup; KEventItem; KObjectNode].
Proof.
  intros T c w H. apply (server_waits ops T) in H. cbn [In waits_with_lock] in *.
  repeat (destruct H as [H|H]; [injection H as <- <-; intuition discriminate|]). destruct H.
Qed.
