(** Accesses with locks held, for any table of functions: what RaceProofs.v does for the server's table.
    Given are the functions and the fields that a lock protects. *)
From Coq Require Import ZArith String List Bool Lia Arith.
From Verif Require Import Flow Mutex Race HandlersAnalysis MutexSpec MutexProofs RaceSpec RaceProofs.
Import ListNotations.

Section Table.
Variable table : list (string * prog aop).
Variable protected : list (cls * cls * list string).

Definition t_performs (root : string) (ks : list aop) : Prop :=
  exists p t x, In (root, p) table /\ run p t x /\ aops_of t = ks.
Definition t_thread (root : string) (ops : list xop) : Prop :=
  t_performs root (map xkind ops) /\ paired [] (map bare ops) /\ located [] ops.
Definition t_data_thread (ops : list xop) : Prop := exists root, t_thread root ops.
Definition t_guard (c : cls) (f : string) (g : cls) : Prop := exists fs, In (c, g, fs) protected /\ In f fs.

Definition t_guard_of (c : cls) (f : string) : option cls :=
  match find (fun p => cls_eqb (fst (fst p)) c && existsb (String.eqb f) (snd p)) protected with
  | Some (_, g, _) => Some g
  | None => None
  end.

Hypothesis t_guard_unique : forallb (fun p => forallb (fun f => ocls_eqb (t_guard_of (fst (fst p)) f) (Some (snd (fst p)))) (snd p)) protected = true.

Lemma t_guard_is c f g : t_guard c f g -> t_guard_of c f = Some g.
Proof.
  intros (fs & I1 & I2). pose proof t_guard_unique as U. rewrite forallb_forall in U. specialize (U _ I1).
  rewrite forallb_forall in U. specialize (U _ I2). cbn [fst snd] in U.
  destruct (t_guard_of c f) as [d|]; cbn [ocls_eqb] in U; [|discriminate U]. apply cls_eqb_eq in U. congruence.
Qed.

Definition t_allowed (w : bool) (via : list cls) (c : cls) (f : string) (h : list (mode * cls)) : bool :=
  match t_guard_of c f with
  | None => true
  | Some g => existsb (cls_eqb g) via &&
      match last_mode g h with Some Ex => true | Some Sh => negb w | None => false end
  end.

Definition t_astep (s : option (list (mode * cls))) (o : aop) : option (list (mode * cls)) :=
  match s with
  | None => None
  | Some h =>
      match o with
      | L (Lk m c) => Some ((m, c) :: h)
      | L (Un m c) => drop m c h
      | L (Wt _) => Some h
      | Rd via c f => if t_allowed false via c f h then Some h else None
      | Wr via c f => if t_allowed true via c f h then Some h else None
      end
  end.

Definition t_aestep (s : option (list (mode * cls))) (e : event aop) : option (list (mode * cls)) :=
  match e with Did o => t_astep s o | Cond _ _ => s end.

Lemma t_fold_aestep t : forall s, fold_left t_aestep t s = fold_left t_astep (aops_of t) s.
Proof. induction t as [|[o|c v] r IH]; cbn; intros s; auto. Qed.

Definition t_root_safe (r : string * prog aop) : bool :=
  match analyze _ st_eqb t_aestep (snd r) (Some []) with
  | Some l => forallb (fun o => st_eqb (fst o) (Some [])) l
  | None => false
  end.

Hypothesis t_roots_safe : forallb t_root_safe table = true.

Theorem t_performs_safe root ks : t_performs root ks -> fold_left t_astep ks (Some []) = Some [].
Proof.
  intros (p & t & x & I & R & <-). pose proof t_roots_safe as F. rewrite forallb_forall in F. specialize (F _ I).
  unfold t_root_safe in F. cbn [snd] in F.
  destruct (analyze _ st_eqb t_aestep p (Some [])) as [l|] eqn:A; [|discriminate F].
  rewrite forallb_forall in F. specialize (F _ (analyze_sound _ _ st_eqb_eq _ _ _ _ A _ _ R)). cbn [fst] in F.
  apply st_eqb_eq in F. now rewrite t_fold_aestep in F.
Qed.

Lemma t_astep_none ks : fold_left t_astep ks None = None.
Proof. induction ks; cbn; auto. Qed.

Lemma t_access_guarded : forall pre held post x s f g q, paired held (map bare (pre ++ x :: post)) ->
  located held (pre ++ x :: post) -> fold_left t_astep (map xkind (pre ++ x :: post)) (Some (kinds held)) = Some q ->
  accesses x s f -> t_guard (fst s) f g ->
  exists m, In (m, (g, snd s)) (held_after held (map bare pre)) /\ (writes x s f -> m = Ex).
Proof.
  induction pre as [|o r IH]; intros held post x s f g q P Lc S A G.
  - apply t_guard_is in G. cbn [app map fold_left held_after] in *.
    assert (K : forall w via, t_allowed w via (fst s) f (kinds held) = true -> of_structure held via s ->
                exists m, In (m, (g, snd s)) held /\ (w = true -> m = Ex)).
    { intros w via Al O. unfold t_allowed in Al. rewrite G in Al. apply andb_true_iff in Al as [V M].
      apply existsb_exists in V as (g' & V & E). apply cls_eqb_eq in E. subst g'.
      destruct (last_mode g (kinds held)) as [m|] eqn:LM; [|discriminate M].
      destruct (last_mode_split _ _ _ LM) as (b & k & a & E & Ek & Nb).
      pose proof (O g b m k a V E Ek Nb) as Sk. exists m. split.
      - assert (Hk : k = (g, snd s)) by (destruct k as [kc kn]; cbn in Ek, Sk; congruence).
        rewrite E, Hk. apply in_elt.
      - intros ->. destruct m; [discriminate M|reflexivity]. }
    destruct A as [[via ->]|[via ->]]; cbn [xkind t_astep located] in *; destruct Lc as [O _].
    + destruct (t_allowed true via (fst s) f (kinds held)) eqn:Al; [|rewrite t_astep_none in S; discriminate S].
      destruct (K _ _ Al O) as (m & I & E). exists m. auto.
    + destruct (t_allowed false via (fst s) f (kinds held)) eqn:Al; [|rewrite t_astep_none in S; discriminate S].
      destruct (K _ _ Al O) as (m & I & E). exists m. split; [exact I|]. intros [v W]. discriminate W.
  - cbn [app map fold_left] in *. destruct o as [[m l|m l|w]|via s' f'|via s' f']; cbn [bare xkind kind t_astep paired located held_after] in *.
    + eapply IH; eauto.
    + destruct (drop m (fst l) (kinds held)) as [q'|] eqn:D; [|rewrite t_astep_none in S; discriminate S].
      destruct P as [P1 P2]. destruct (drop_remove1 _ _ _ _ P1 D) as [_ ->]. eapply IH; eauto.
    + eapply IH; eauto.
    + destruct (t_allowed false via (fst s') f' (kinds held)); [|rewrite t_astep_none in S; discriminate S].
      destruct Lc as [_ Lc]. eapply IH; eauto.
    + destruct (t_allowed true via (fst s') f' (kinds held)); [|rewrite t_astep_none in S; discriminate S].
      destruct Lc as [_ Lc]. eapply IH; eauto.
Qed.

(** ** The theorems *)
Lemma t_thread_guarded work ts : (forall ops, In ops work -> t_data_thread ops) -> comes_to work ts ->
  forall i ops t x s f g, nth_error work i = Some ops -> nth_error ts i = Some t -> next ops t = Some x ->
  accesses x s f -> t_guard (fst s) f g ->
  exists m, holds m (g, snd s) t = true /\ (writes x s f -> m = Ex).
Proof.
  intros W C i ops t x s f g Nw Nt N A G.
  assert (P : at_place (map bare ops) t).
  { eapply placed_nth; [exact (reaches_placed _ _ C)| |exact Nt]. apply map_nth_error. exact Nw. }
  destruct (next_place _ _ _ P N) as (pre & post & -> & H).
  destruct (W _ (nth_error_In _ _ Nw)) as (root & Pf & Pd & Lc). apply t_performs_safe in Pf.
  destruct (t_access_guarded pre [] post x s f g [] Pd Lc Pf A G) as (m & I & E).
  exists m. split; [|exact E]. apply holds_in. rewrite H. exact I.
Qed.

Lemma t_protects work ts : (forall ops, In ops work -> t_data_thread ops) -> comes_to work ts ->
  forall i j ops ti tj m x s f g, i <> j -> nth_error ts i = Some ti -> In (m, (g, snd s)) (th_held ti) ->
  nth_error work j = Some ops -> nth_error ts j = Some tj -> next ops tj = Some x -> t_guard (fst s) f g ->
  (m = Ex -> ~ accesses x s f) /\ ~ writes x s f.
Proof.
  intros W C i j ops ti tj m x s f g D Ni Hi Nw Nj N G. split.
  - intros -> A. destruct (t_thread_guarded _ _ W C j ops tj x s f g Nw Nj N A G) as (n & Hn & _).
    apply holds_in in Hn. exact (lock_exclusion _ _ C i j ti tj _ n D Ni Nj Hi Hn).
  - intros A. destruct (t_thread_guarded _ _ W C j ops tj x s f g Nw Nj N (or_introl A) G) as (n & Hn & En).
    rewrite (En A) in Hn. apply holds_in in Hn. apply (lock_exclusion _ _ C j i tj ti _ m (not_eq_sym D) Nj Ni Hn Hi).
Qed.

Lemma t_no_race work ts : (forall ops, In ops work -> t_data_thread ops) -> comes_to work ts ->
  forall s f g, t_guard (fst s) f g -> ~ race work ts s f.
Proof.
  intros W C s f g G (i & j & oi & oj & ti & tj & a & b & D & Wi & Ti & Na & Wj & Tj & Nb & Wa & Ab).
  destruct (t_thread_guarded _ _ W C i oi ti a s f g Wi Ti Na (or_introl Wa) G) as (m & Hm & Em).
  rewrite (Em Wa) in Hm. apply holds_in in Hm.
  destruct (t_protects _ _ W C i j oj ti tj Ex b s f g D Ti Hm Wj Tj Nb G) as [X _]. exact (X eq_refl Ab).
Qed.
End Table.
