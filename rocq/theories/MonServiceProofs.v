(** Proofs about the monitored item services. *)
From Coq Require Import ZArith List Bool Lia Permutation ZifyBool Strings.Byte.
From Verif Require Import Bytes Text Float IndexRange IndexRangeSpec IndexRangeProofs Roles RolesSpec RolesProofs Nodes NodeAccess AccessSpec AccessProofs MonQueue MonService MonServiceSpec.
Import ListNotations.
Open Scope Z_scope.
Ltac Zify.zify_post_hook ::= idtac.

Lemma numeric_spec t : numeric t = true <-> 2 <= t <= 11.
Proof. unfold numeric. lia. Qed.
Lemma class_attribute_spec k a : attribute_valid k a = true <-> class_attribute k a.
Proof.
  unfold attribute_valid, class_attribute, has_attribute. rewrite !orb_true_iff.
  destruct k as [|v|e h| | | |d|]; (split; [intros H|intros [H|[H [d' E]]]; [|try discriminate E]]); try (right; left; exact I); try lia.
  - destruct (a =? 23) eqn:E; [right; split; [lia|now exists d]|left; lia].
Qed.
(** The ranges a text splits into *)
Lemma dims_witness range : range <> [] -> unsigned_text range -> forallb valid_dim (split x2c range) = true ->
  exists ds, ds <> [] /\ spells_all range ds /\ Forall bounded ds.
Proof.
  intros N U V.
  assert (W : with_commas (split x2c range) = range).
  { clear. induction range as [|c s IH]; [reflexivity|]. cbn [split]. destruct (Byte.eqb c x2c) eqn:E.
    - apply Byte.byte_dec_bl in E. subst c. cbn [with_commas]. destruct (split x2c s) eqn:Sp; [destruct s as [|c1 s1]; cbn [split] in Sp; [discriminate|]; destruct (Byte.eqb c1 x2c); [discriminate|]; now destruct (split x2c s1)|].
      rewrite <- IH. reflexivity.
    - destruct (split x2c s) as [|w r] eqn:Sp; [destruct s as [|c1 s1]; cbn [split] in Sp; [discriminate|]; destruct (Byte.eqb c1 x2c); [discriminate|]; now destruct (split x2c s1)|].
      cbn [with_commas] in *. destruct r; [now rewrite IH|]. rewrite <- IH. reflexivity. }
  assert (X : forall l, (forall s, In s l -> unsigned_text s) -> forallb valid_dim l = true -> exists ds, Forall2 spells l ds /\ Forall bounded ds).
  { induction l as [|s l IH]; intros Ul Vl; [exists []; now split|]. cbn [forallb] in Vl. apply andb_true_iff in Vl. destruct Vl as [V1 V2].
    destruct IH as (ds & F & B); [intros s' I; apply Ul; now right|exact V2|]. unfold valid_dim in V1. destruct (parse_pair s) as [[lo hi]|] eqn:P; [|discriminate].
    destruct (pair_only s lo hi (Ul s (or_introl eq_refl)) P) as (d & Hd & Bd & _). exists (d :: ds). split; constructor; assumption. }
  destruct (X (split x2c range)) as (ds & F & B); [|exact V|].
  - assert (In_split : forall s b, In s (split x2c range) -> In b s -> In b range).
    { clear. intros s b I Ib. revert s I Ib. induction range as [|c r IH]; intros s I Ib; cbn [split] in I; [destruct I as [<-|[]]; exact Ib|].
      destruct (Byte.eqb c x2c); [destruct I as [<-|I]; [destruct Ib|right; now apply (IH s)]|]. destruct (split x2c r) as [|w q]; [destruct I as [<-|[]]; destruct Ib as [->|[]]; now left|].
      destruct I as [<-|I]; [destruct Ib as [->|Ib]; [now left|right; apply (IH w); [now left|exact Ib]]|right; apply (IH s); [now right|exact Ib]]. }
    intros s I. destruct U as [U1 U2]. split; intros I'; [apply U1|apply U2]; now apply (In_split s).
  - exists ds. split; [|split; [|exact B]].
    + intros ->. inversion F as [E|]. revert E. clear - N. destruct range as [|c r]; [congruence|]. cbn [split]. destruct (Byte.eqb c x2c); [discriminate|]. now destruct (split x2c r).
    + exists (split x2c range). now split.
Qed.
Lemma range_fits_spec s dest rank : unsigned_text s -> validate_range s dest rank = 0 <-> range_fits s dest rank.
Proof.
  intros U. unfold range_fits. destruct s as [|c s]; [split; [now left|reflexivity]|].
  assert (X : (exists ds, ds <> [] /\ spells_all (c :: s) ds /\ Forall bounded ds) \/ (forall ds, ds <> [] -> Forall bounded ds -> ~ spells_all (c :: s) ds) ) .
  { destruct (Z.eq_dec (validate_range (c :: s) dest rank) BadIndexRangeInvalid) as [E|E].
    - right. intros ds N B W. destruct (validate_spelled (c :: s) ds dest rank N W B) as [[V _]|[V _]]; rewrite V in E; discriminate.
    - left. unfold validate_range in E. destruct (forallb valid_dim (split x2c (c :: s))) eqn:V; [|now elim E].
      apply (dims_witness (c :: s)); [discriminate|exact U|exact V]. }
  destruct X as [(ds & N & W & B)|M].
  - destruct (validate_spelled (c :: s) ds dest rank N W B) as [[V A]|[V A]]; rewrite V; split; intros H.
    + right. exists ds. auto.
    + reflexivity.
    + discriminate.
    + destruct H as [H|(ds' & N' & W' & B' & A')]; [discriminate|].
      destruct (validate_spelled (c :: s) ds' dest rank N' W' B') as [[V' _]|[_ A'']]; [rewrite V in V'; discriminate|contradiction].
  - rewrite (validate_malformed (c :: s) dest rank) by (try discriminate; assumption). split; [discriminate|].
    intros [H|(ds & N & W & B & _)]; [discriminate|]. now elim (M ds N B).
Qed.

(** * Lists of links *)
Lemma last_to_front_perm l : Permutation (last_to_front l) l.
Proof.
  unfold last_to_front. rewrite <- (rev_involutive l) at 2. destruct (rev l) as [|x r]; [constructor|]. cbn [rev]. apply Permutation_cons_append.
Qed.
Lemma remove_link_none id l : remove_link id l = None <-> ~ In id l.
Proof.
  induction l as [|x l IH]; cbn [remove_link]; [split; [intros _ []|reflexivity]|]. destruct (x =? id) eqn:E.
  - split; [discriminate|]. intros H. elim H. left. lia.
  - destruct (remove_link id l) as [r|]; split; try discriminate.
    + intros H. exfalso. assert (K : ~ In id l) by (intros I; apply H; now right). apply IH in K. discriminate.
    + intros _ [H|H]; [lia|]. now apply IH.
    + reflexivity.
Qed.
Lemma remove_link_some id l : forall r, remove_link id l = Some r -> Permutation l (id :: r).
Proof.
  induction l as [|x l IH]; cbn [remove_link]; [discriminate|]. intros r. destruct (x =? id) eqn:E.
  - intros [= <-]. replace x with id by lia. constructor. symmetry. apply last_to_front_perm.
  - destruct (remove_link id l) as [r'|]; [|discriminate]. intros [= <-]. rewrite (IH r' eq_refl). apply perm_swap.
Qed.

(** * Lists of items *)
Lemma forall2_imp {U V} (P Q : U -> V -> Prop) l m : (forall a b, P a b -> Q a b) -> Forall2 P l m -> Forall2 Q l m.
Proof. intros H F. induction F; constructor; auto. Qed.
Lemma find_in id l i : find_item id l = Some i -> In i l /\ it_id i = id.
Proof. intros H. apply find_some in H. destruct H as [H1 H2]. apply Z.eqb_eq in H2. now split. Qed.
Lemma find_none id l : find_item id l = None <-> ~ In id (map it_id l).
Proof.
  unfold find_item. split.
  - intros H I. apply in_map_iff in I. destruct I as (i & E & I). apply (find_none _ _ H) in I. lia.
  - induction l as [|i l IH]; intros H; [reflexivity|]. cbn [find map] in *. destruct (it_id i =? id) eqn:E; [elim H; left; lia|]. apply IH. intros I. apply H. now right.
Qed.
Lemma find_nodup l i : NoDup (map it_id l) -> In i l -> find_item (it_id i) l = Some i.
Proof.
  induction l as [|j l IH]; intros N I; [destruct I|]. cbn [map] in N. inversion N as [|x y N1 N2]; subst. unfold find_item in *. cbn [find]. destruct I as [->|I].
  - now rewrite Z.eqb_refl.
  - destruct (it_id j =? it_id i) eqn:E; [|now apply IH]. elim N1. apply Z.eqb_eq in E. rewrite E. now apply in_map.
Qed.
Lemma update_ids x l : map it_id (update x l) = map it_id l.
Proof. unfold update. rewrite map_map. apply map_ext_in. intros i _. destruct (it_id i =? it_id x) eqn:E; lia. Qed.
Lemma update_in x l j : In j (update x l) -> (j = x /\ In (it_id x) (map it_id l)) \/ (In j l /\ it_id j <> it_id x).
Proof.
  unfold update. intros I. apply in_map_iff in I. destruct I as (i & E & I). destruct (it_id i =? it_id x) eqn:F.
  - left. split; [now subst|]. apply Z.eqb_eq in F. rewrite <- F. now apply in_map.
  - right. subst j. split; [exact I|lia].
Qed.
Lemma update_find x l id : find_item id (update x l) = if id =? it_id x then match find_item id l with Some _ => Some x | None => None end else find_item id l.
Proof.
  induction l as [|i l IH]; [now destruct (id =? it_id x)|]. unfold find_item, update in *. cbn [map find].
  destruct (it_id i =? it_id x) eqn:E.
  - destruct (it_id x =? id) eqn:F.
    + replace (id =? it_id x) with true by lia. replace (it_id i =? id) with true by lia. reflexivity.
    + rewrite IH. replace (id =? it_id x) with false by lia. replace (it_id i =? id) with false by lia. reflexivity.
  - destruct (it_id i =? id) eqn:F; [|exact IH]. replace (id =? it_id x) with false by lia. reflexivity.
Qed.
Lemma filter_find id d l : find_item id (List.filter (fun i => negb (it_id i =? d)) l) = if id =? d then None else find_item id l.
Proof.
  induction l as [|i l IH]; [now destruct (id =? d)|]. unfold find_item in *. cbn [List.filter find].
  destruct (it_id i =? d) eqn:E; cbn [negb].
  - rewrite IH. destruct (id =? d) eqn:F; [reflexivity|]. replace (it_id i =? id) with false by lia. reflexivity.
  - cbn [find]. destruct (it_id i =? id) eqn:G; [replace (id =? d) with false by lia; reflexivity|exact IH].
Qed.
Lemma nodup_filter (f : item -> bool) l : NoDup (map it_id l) -> NoDup (map it_id (List.filter f l)).
Proof.
  induction l as [|i l IH]; intros N; [constructor|]. cbn [map List.filter] in *. inversion N as [|x y N1 N2]; subst. destruct (f i); [|now apply IH].
  cbn [map]. constructor; [|now apply IH]. intros I. apply N1. apply in_map_iff in I. destruct I as (j & E & I). apply filter_In in I. rewrite <- E. apply in_map. apply I.
Qed.

Section Proofs.
  Variable default : list perm.
  Variable vt : Z -> Z.
  Variable node_min : node -> f64.
  Variable min_rate : f64.
  Variable max_calls : Z.
  Variable publishing : f64.
  Variable where_clause : Z -> Z -> bool.
  Variable fields : Z -> Z -> list Z.
  Notation admit_item := (admit_item default vt).
  Notation create_one := (create_one default vt node_min min_rate publishing).
  Notation modify_one := (modify_one vt node_min min_rate publishing).
  Notation step := (mo_step default vt node_min min_rate max_calls publishing where_clause fields).
  Notation run := (mo_run default vt node_min min_rate max_calls publishing where_clause fields).
  Notation revise := (revise_interval node_min min_rate publishing).

  (** * Creation *)
  Definition refused (m : made) : option Z := match m with Refused st => Some st | _ => None end.
  Lemma receive_may roles n : is_permitted (node_permissions default roles n) pm_receive_events = true <-> user_may default roles n p_receive_events.
  Proof. apply (permitted_may default roles n 11). lia. Qed.
  Lemma admit_spec roles sp q : unsigned_text (rq_range (cq_item q)) -> refused (admit_item roles sp q) = None <-> monitorable default vt roles sp q.
  Proof.
    intros U. unfold admit_item, monitorable. destruct (sp (rq_node (cq_item q))) as [n|]; [|split; [discriminate|intros (n & E & _); discriminate]].
    set (a := rq_attr (cq_item q)). destruct (attribute_valid (nd_kind n) a) eqn:V; cbn [negb].
    2:{ split; [discriminate|]. intros (n' & [= <-] & H). exfalso. assert (C : class_attribute (nd_kind n) a).
        { destruct H as [(E & v & K & _)|[(E & K & _)|(_ & _ & C & _)]]; [| |exact C]; fold a in E; rewrite K, E; left; unfold has_attribute; lia. }
        apply class_attribute_spec in C. congruence. }
    apply class_attribute_spec in V. destruct (a =? 13) eqn:E13; [|destruct (a =? 12) eqn:E12].
    - apply Z.eqb_eq in E13. destruct (nd_kind n) as [|v| | | | | |] eqn:K; try (split; [discriminate|]; intros (n' & [= <-] & [(_ & v' & K' & _)|[(E' & _)|(E' & _)]]); [congruence|lia|lia]).
      change al_read with (2 ^ 0). rewrite access_bit, level_bit by lia.
      assert (G : (exists n', Some n = Some n' /\
        ((a = 13 /\ exists v', nd_kind n' = KVariable v' /\ readable v' /\ user_may default roles n' p_read /\ range_fits (rq_range (cq_item q)) (vt (va_type v')) (va_rank v') /\ change_filter (pr_filter (cq_params q)) (vt (va_type v'))) \/
         (a = 12 /\ nd_kind n' = KObject /\ Z.testbit (event_notifier n') 0 = true /\ user_may default roles n' p_receive_events /\ exists f, pr_filter (cq_params q) = FEvent f) \/
         (a <> 13 /\ a <> 12 /\ class_attribute (nd_kind n') a /\ user_may default roles n' p_browse /\ pr_filter (cq_params q) = FNone))) <->
        readable v /\ user_may default roles n p_read /\ range_fits (rq_range (cq_item q)) (vt (va_type v)) (va_rank v) /\ change_filter (pr_filter (cq_params q)) (vt (va_type v))).
      { split.
        - intros (n' & [= <-] & [(_ & v' & K' & H)|[(E' & _)|(E' & _)]]); [|lia|lia]. rewrite K in K'. injection K' as <-. exact H.
        - intros H. exists n. split; [reflexivity|]. left. split; [exact E13|]. exists v. now split. }
      fold a. rewrite G. clear G. unfold readable. destruct (Z.testbit (va_access v) 0) eqn:A; cbn [negb]; [|split; [discriminate|intros (H & _); discriminate]].
      destruct (Z.testbit (user_access _ _ _ _) 0) eqn:B; cbn [negb].
      2:{ split; [discriminate|]. intros (_ & H & _). rewrite (proj2 (read_bit default v roles n) (conj A H)) in B. discriminate. }
      apply read_bit in B. destruct B as [_ B]. rewrite <- (range_fits_spec (rq_range (cq_item q)) (vt (va_type v)) (va_rank v) U).
      destruct (validate_range (rq_range (cq_item q)) (vt (va_type v)) (va_rank v) =? 0) eqn:R; cbn [negb].
      2:{ split; [discriminate|]. intros (_ & _ & H & _). lia. }
      apply Z.eqb_eq in R. unfold change_filter. destruct (pr_filter (cq_params q)) as [|tr db x|f|].
      + split; [intros _; repeat split; auto|reflexivity].
      + destruct (negb (db =? 0) && negb (numeric (vt (va_type v)))) eqn:F.
        * split; [discriminate|]. intros (_ & _ & _ & [H|(t' & d' & x' & [= <- <- <-] & H)]); [discriminate|]. rewrite andb_true_iff, !negb_true_iff in F. destruct F as [F1 F2].
          destruct H as [H|H]; [lia|]. apply numeric_spec in H. congruence.
        * split; [intros _|reflexivity]. split; [reflexivity|]. split; [exact B|]. split; [exact R|]. right. exists tr, db, x. split; [reflexivity|].
          destruct (db =? 0) eqn:D; [left; lia|]. right. apply numeric_spec. cbn [negb andb] in F. now apply negb_false_iff in F.
      + split; [discriminate|]. intros (_ & _ & _ & [H|(? & ? & ? & H & _)]); discriminate.
      + split; [discriminate|]. intros (_ & _ & _ & [H|(? & ? & ? & H & _)]); discriminate.
    - apply Z.eqb_eq in E12. fold a. destruct (nd_kind n) eqn:K; try (split; [discriminate|]; intros (n' & [= <-] & [(E' & _)|[(_ & K' & _)|(_ & E' & _)]]); [lia|congruence|lia]).
      change (Z.land (event_notifier n) 1 =? 0) with (Z.land (event_notifier n) (2 ^ 0) =? 0). rewrite <- (negb_involutive (Z.land _ _ =? 0)), land_bit by lia.
      assert (G : (exists n', Some n = Some n' /\
        ((a = 13 /\ exists v', nd_kind n' = KVariable v' /\ readable v' /\ user_may default roles n' p_read /\ range_fits (rq_range (cq_item q)) (vt (va_type v')) (va_rank v') /\ change_filter (pr_filter (cq_params q)) (vt (va_type v'))) \/
         (a = 12 /\ nd_kind n' = KObject /\ Z.testbit (event_notifier n') 0 = true /\ user_may default roles n' p_receive_events /\ exists f, pr_filter (cq_params q) = FEvent f) \/
         (a <> 13 /\ a <> 12 /\ class_attribute (nd_kind n') a /\ user_may default roles n' p_browse /\ pr_filter (cq_params q) = FNone))) <->
        Z.testbit (event_notifier n) 0 = true /\ user_may default roles n p_receive_events /\ exists f, pr_filter (cq_params q) = FEvent f).
      { split.
        - intros (n' & [= <-] & [(E' & _)|[(_ & _ & H)|(_ & E' & _)]]); [lia|exact H|lia].
        - intros H. exists n. split; [reflexivity|]. right. left. split; [exact E12|]. now split. }
      rewrite G. clear G. destruct (Z.testbit (event_notifier n) 0); cbn [negb]; [|split; [discriminate|intros (H & _); discriminate]].
      rewrite <- receive_may. destruct (is_permitted _ _); cbn [negb]; [|split; [discriminate|intros (_ & H & _); discriminate]].
      destruct (pr_filter (cq_params q)); split; try discriminate; try (intros (_ & _ & f & H); discriminate); try reflexivity. intros _. eauto.
    - fold a. assert (G : (exists n', Some n = Some n' /\
        ((a = 13 /\ exists v', nd_kind n' = KVariable v' /\ readable v' /\ user_may default roles n' p_read /\ range_fits (rq_range (cq_item q)) (vt (va_type v')) (va_rank v') /\ change_filter (pr_filter (cq_params q)) (vt (va_type v'))) \/
         (a = 12 /\ nd_kind n' = KObject /\ Z.testbit (event_notifier n') 0 = true /\ user_may default roles n' p_receive_events /\ exists f, pr_filter (cq_params q) = FEvent f) \/
         (a <> 13 /\ a <> 12 /\ class_attribute (nd_kind n') a /\ user_may default roles n' p_browse /\ pr_filter (cq_params q) = FNone))) <->
        user_may default roles n p_browse /\ pr_filter (cq_params q) = FNone).
      { split.
        - intros (n' & [= <-] & [(E' & _)|[(E' & _)|(_ & _ & _ & H)]]); [lia|lia|exact H].
        - intros H. exists n. split; [reflexivity|]. right. right. split; [lia|]. split; [lia|]. now split. }
      rewrite G. clear G. rewrite <- browsable_may. unfold browsable. destruct (is_permitted _ _); cbn [negb]; [|split; [discriminate|intros (H & _); discriminate]].
      destruct (pr_filter (cq_params q)); split; try discriminate; try (intros (_ & H); discriminate); try reflexivity. auto.
  Qed.
  Lemma refused_bad roles sp q st : refused (admit_item roles sp q) = Some st -> st <> 0.
  Proof.
    unfold admit_item. repeat (match goal with |- context [match ?x with _ => _ end] => destruct x eqn:? end; try discriminate);
      cbn [refused]; intros [= <-]; try discriminate. match goal with H : negb _ = true |- _ => rewrite negb_true_iff in H; lia end.
  Qed.

  (** * Repeated entries *)
  Lemma each_cons {Q R} (f : mon -> Q -> mon * R) s q l : each f s (q :: l) =
    (fst (each f (fst (f s q)) l), snd (f s q) :: snd (each f (fst (f s q)) l)).
  Proof. cbn [each]. destruct (f s q) as [s' r]. cbn [fst snd]. now destruct (each f s' l). Qed.
  Lemma each_length {Q R} (f : mon -> Q -> mon * R) l : forall s, length (snd (each f s l)) = length l.
  Proof. induction l as [|q l IH]; intros s; [reflexivity|]. rewrite each_cons. cbn [snd length]. now rewrite IH. Qed.
  Lemma each_inv {Q R} (f : mon -> Q -> mon * R) (P : mon -> Prop) : (forall s q, P s -> P (fst (f s q))) -> forall l s, P s -> P (fst (each f s l)).
  Proof. intros H l. induction l as [|q l IH]; intros s I; [exact I|]. rewrite each_cons. cbn [fst]. auto. Qed.

  (** Only the items change *)
  Definition framed (s s' : mon) : Prop := mo_last s' = mo_last s /\ mo_owner s' = mo_owner s /\ mo_space s' = mo_space s.
  Lemma each_framed {Q R} (f : mon -> Q -> mon * R) : (forall s q, framed s (fst (f s q))) -> forall l s, framed s (fst (each f s l)).
  Proof.
    intros H l. induction l as [|q l IH]; intros s; [repeat split|]. rewrite each_cons. cbn [fst]. destruct (H s q) as (A1 & A2 & A3), (IH (fst (f s q))) as (B1 & B2 & B3). repeat split; congruence.
  Qed.
  Ltac frame := intros; repeat split; repeat (match goal with |- context [match ?x with _ => _ end] => destruct x end); reflexivity.
  Lemma modify_framed s q : framed s (fst (modify_one s q)). Proof. unfold MonService.modify_one. frame. Qed.
  Lemma mode_framed m s q : framed s (fst (mode_one m s q)). Proof. unfold mode_one. frame. Qed.
  Lemma delete_framed s q : framed s (fst (delete_one s q)). Proof. unfold delete_one. frame. Qed.
  Lemma link_framed t s q : framed s (fst (link_one t s q)). Proof. unfold link_one. frame. Qed.
  Lemma unlink_framed t s q : framed s (fst (unlink_one t s q)). Proof. unfold unlink_one. frame. Qed.
  Lemma create_same roles stamps s q : mo_owner (fst (create_one roles stamps s q)) = mo_owner s /\ mo_space (fst (create_one roles stamps s q)) = mo_space s.
  Proof. unfold MonService.create_one. destruct (admit_item _ _ _); split; reflexivity. Qed.

  (** * IDs *)
  Definition wf (s : mon) : Prop := 0 <= mo_last s < 2 ^ 32 /\ NoDup (map it_id (mo_items s)) /\ Forall (fun i => 0 < it_id i <= mo_last s) (mo_items s).
  Lemma wf_fresh s : wf s -> find_item (mo_last s + 1) (mo_items s) = None.
  Proof. intros (_ & _ & F). apply find_none. intros I. apply in_map_iff in I. destruct I as (i & E & I). rewrite Forall_forall in F. specialize (F i I). lia. Qed.
  Lemma wf_ids s s' : wf s -> framed s s' -> map it_id (mo_items s') = map it_id (mo_items s) -> wf s'.
  Proof.
    intros (B & N & F) (E & _) M. unfold wf. rewrite E, M. split; [exact B|]. split; [exact N|]. rewrite Forall_forall in *. intros i I.
    assert (J : In (it_id i) (map it_id (mo_items s))) by (rewrite <- M; now apply in_map). apply in_map_iff in J. destruct J as (j & Ej & J). rewrite <- Ej. now apply F.
  Qed.

  (** One created item *)
  Definition created (stamps : Z) (q : create_req) (m : made) (id : Z) : option item :=
    match m with Refused _ => None | MakeData n => Some (data_item node_min min_rate publishing id stamps n q) | MakeEvent _ => Some (event_item id q) end.
  Lemma create_cases roles stamps s q : wf s -> mo_last s + 1 < 2 ^ 32 ->
    match created stamps q (admit_item roles (mo_space s) q) (mo_last s + 1) with
    | None => fst (create_one roles stamps s q) = s
    | Some i => fst (create_one roles stamps s q) = mkMon (mo_last s + 1) (mo_items s ++ [i]) (mo_owner s) (mo_space s)
    end.
  Proof.
    intros W L. unfold MonService.create_one, created. assert (E : u32 (mo_last s + 1) = mo_last s + 1) by (unfold u32; apply Z.mod_small; destruct W as [W _]; lia).
    rewrite E. destruct (admit_item _ _ _) eqn:A; [reflexivity| |]; cbn [fst]; unfold append_item, data_item, event_item; cbn [it_id]; now rewrite (wf_fresh s W).
  Qed.
  Lemma create_result roles stamps s q : wf s -> mo_last s + 1 < 2 ^ 32 ->
    match created stamps q (admit_item roles (mo_space s) q) (mo_last s + 1) with
    | None => rs_status (snd (create_one roles stamps s q)) <> 0
    | Some i => snd (create_one roles stamps s q) = mkResult 0 (it_id i) (it_interval i) (it_size i)
    end.
  Proof.
    intros W L. unfold MonService.create_one, created. assert (E : u32 (mo_last s + 1) = mo_last s + 1) by (unfold u32; apply Z.mod_small; destruct W as [W _]; lia).
    rewrite E. destruct (admit_item _ _ _) eqn:A; try reflexivity. cbn [snd]. apply (refused_bad roles (mo_space s) q). now rewrite A.
  Qed.
  Lemma create_status roles stamps s q : rs_status (snd (create_one roles stamps s q)) = 0 <-> refused (admit_item roles (mo_space s) q) = None.
  Proof.
    unfold MonService.create_one. destruct (admit_item roles (mo_space s) q) as [st|n|n] eqn:A; cbn [snd refused rs_status refusal]; [|now split|now split].
    split; [intros ->|discriminate]. elim (refused_bad roles (mo_space s) q 0); [now rewrite A|reflexivity].
  Qed.
  Lemma created_id stamps q m id i : created stamps q m id = Some i -> it_id i = id.
  Proof. destruct m; [discriminate| |]; intros [= <-]; reflexivity. Qed.
  Lemma create_wf roles stamps s q : wf s -> mo_last s + 1 < 2 ^ 32 -> wf (fst (create_one roles stamps s q)) /\ mo_last s <= mo_last (fst (create_one roles stamps s q)) <= mo_last s + 1.
  Proof.
    intros W L. pose proof (create_cases roles stamps s q W L) as C. destruct (created _ _ _ _) as [i|] eqn:E; rewrite C; [|split; [exact W|lia]]. apply created_id in E. cbn [mo_last]. split; [|lia].
    destruct W as (B & N & F). unfold wf. cbn [mo_last mo_items]. split; [lia|]. split.
    - rewrite map_app. cbn [map]. apply Permutation_NoDup with (l := it_id i :: map it_id (mo_items s)); [apply Permutation_cons_append|]. constructor; [|exact N].
      intros I. apply in_map_iff in I. destruct I as (j & Ej & I). rewrite Forall_forall in F. specialize (F j I). lia.
    - apply Forall_app. split; [|constructor; [lia|constructor]]. eapply Forall_impl; [|exact F]. cbv beta. intros a ?. lia.
  Qed.
  Ltac inner := repeat (match goal with |- context [match ?x with _ => _ end] => lazymatch x with context [match _ with _ => _ end] => fail | _ => destruct x end end).
  Lemma admit_event roles sp q : match admit_item roles sp q with Refused _ => True | MakeData _ => (rq_attr (cq_item q) =? 12) = false | MakeEvent _ => (rq_attr (cq_item q) =? 12) = true end.
  Proof.
    unfold MonService.admit_item. cbv zeta. destruct (sp _) as [n|]; [|exact I]. destruct (negb (attribute_valid _ _)); [exact I|]. destruct (rq_attr _ =? 13) eqn:E13.
    - apply Z.eqb_eq in E13. rewrite E13. inner; exact I || reflexivity.
    - destruct (rq_attr _ =? 12) eqn:E12; inner; exact I || reflexivity.
  Qed.
  Lemma admit_filter roles sp q : match admit_item roles sp q with Refused _ => True | MakeData _ => pr_filter (cq_params q) = FNone \/ (exists a b c, pr_filter (cq_params q) = FData a b c) | MakeEvent _ => exists c, pr_filter (cq_params q) = FEvent c end.
  Proof.
    unfold MonService.admit_item. inner; try exact I; eauto.
  Qed.
  Lemma created_describes roles sp stamps q id i : created stamps q (admit_item roles sp q) id = Some i ->
    describes q (mkResult 0 (it_id i) (it_interval i) (it_size i)) i.
  Proof.
    pose proof (admit_event roles sp q) as V. pose proof (admit_filter roles sp q) as F. destruct (admit_item roles sp q) as [st|n|n]; [discriminate| |]; cbn [created]; intros [= <-];
      unfold describes, data_item, event_item; cbn; repeat split; try (symmetry; exact V); intros Z; unfold data_filter, event_filter.
    - destruct F as [F|(a & b & c & F)]; [contradiction|]. now rewrite F.
    - destruct F as (c & F). now rewrite F.
  Qed.

  Definition succeeded (qr : create_req * result) : bool := rs_status (snd qr) =? 0.
  Lemma each_created roles stamps l : forall s, wf s -> mo_last s + zlen l < 2 ^ 32 ->
    let s' := fst (each (create_one roles stamps) s l) in
    let rs := snd (each (create_one roles stamps) s l) in
    wf s' /\ mo_last s <= mo_last s' <= mo_last s + zlen l /\ mo_owner s' = mo_owner s /\ mo_space s' = mo_space s /\
    Forall2 (fun q r => rs_status r = 0 <-> refused (admit_item roles (mo_space s) q) = None) l rs /\
    exists new, mo_items s' = mo_items s ++ new /\ Forall2 (fun qr i => describes (fst qr) (snd qr) i /\ it_stamps i = (if it_event i then 0 else stamps) /\ mo_last s < it_id i) (List.filter succeeded (combine l rs)) new.
  Proof.
    induction l as [|q l IH]; intros s W L; cbv zeta.
    - cbn. split; [exact W|]. split; [lia|]. split; [reflexivity|]. split; [reflexivity|]. split; [constructor|]. exists []. split; [symmetry; apply app_nil_r|constructor].
    - rewrite each_cons. cbn [fst snd combine List.filter]. unfold zlen in L. rewrite length_cons_Z in L || (cbn [length] in L; rewrite Nat2Z.inj_succ in L). fold (zlen l) in L. assert (P : 0 <= zlen l) by (unfold zlen; lia).
      destruct (create_wf roles stamps s q W) as [W' B]; [lia|]. destruct (create_same roles stamps s q) as [O' S'].
      pose proof (create_cases roles stamps s q W ltac:(lia)) as C. pose proof (create_result roles stamps s q W ltac:(lia)) as D. pose proof (create_status roles stamps s q) as E.
      set (s1 := fst (create_one roles stamps s q)) in *. set (r := snd (create_one roles stamps s q)) in *.
      destruct (IH s1 W' ltac:(lia)) as (W2 & B2 & O2 & S2 & F2 & new & N2 & D2). replace (zlen (q :: l)) with (zlen l + 1) by (unfold zlen; cbn [length]; lia).
      split; [exact W2|]. split; [lia|]. split; [congruence|]. split; [congruence|]. split; [constructor; [exact E|]; rewrite <- S'; exact F2|].
      destruct (created _ _ _ _) as [i|] eqn:A.
      + exists (i :: new). split; [rewrite N2, C; cbn [mo_items]; now rewrite <- app_assoc|]. unfold succeeded at 1. cbn [snd]. rewrite D. cbn [rs_status]. change (0 =? 0) with true. cbv iota. constructor.
        * cbn [fst snd]. split; [exact (created_describes roles (mo_space s) stamps q (mo_last s + 1) i A)|]. split.
          -- destruct (admit_item roles (mo_space s) q); [discriminate| |]; injection A as <-; reflexivity.
          -- rewrite (created_id _ _ _ _ _ A). lia.
        * eapply forall2_imp; [|exact D2]. cbv beta. intros a b (H1 & H2 & H3). split; [exact H1|]. split; [exact H2|lia].
      + exists new. split; [now rewrite N2, C|]. unfold succeeded at 1. cbn [snd]. destruct (rs_status r =? 0) eqn:G; [apply Z.eqb_eq in G; contradiction|].
        eapply forall2_imp; [|exact D2]. cbv beta. intros a b (H1 & H2 & H3). split; [exact H1|]. split; [exact H2|lia].
  Qed.

  (** * Histories *)
  Lemma modify_ids s q : map it_id (mo_items (fst (modify_one s q))) = map it_id (mo_items s).
  Proof.
    unfold MonService.modify_one. destruct (find_item _ _) as [i|] eqn:E; [|reflexivity]. destruct (mo_space s _) as [n|]; [|reflexivity].
    destruct (_ =? 13); [|destruct (_ =? 12)]; destruct (pr_filter _); try reflexivity; try (cbn [fst mo_items with_items]; apply update_ids). destruct (_ && _); [reflexivity|]. apply update_ids.
  Qed.
  Lemma mode_ids m s id : map it_id (mo_items (fst (mode_one m s id))) = map it_id (mo_items s).
  Proof. unfold mode_one. destruct (find_item _ _); [|reflexivity]. apply update_ids. Qed.
  Lemma link_ids t s id : map it_id (mo_items (fst (link_one t s id))) = map it_id (mo_items s).
  Proof. unfold link_one. destruct (find_item t _); [|reflexivity]. destruct (find_item id _); [|reflexivity]. apply update_ids. Qed.
  Lemma unlink_ids t s id : map it_id (mo_items (fst (unlink_one t s id))) = map it_id (mo_items s).
  Proof. unfold unlink_one. destruct (find_item t _); [|reflexivity]. destruct (find_item id _); [|reflexivity]. destruct (remove_link _ _); [|reflexivity]. apply update_ids. Qed.
  Lemma delete_wf s id : wf s -> wf (fst (delete_one s id)).
  Proof.
    unfold delete_one. destruct (find_item _ _); [|auto]. intros (B & N & F). split; [exact B|]. split; [now apply nodup_filter|]. cbn [fst with_items mo_items mo_last].
    rewrite Forall_forall in *. intros x I. apply filter_In in I. now apply F.
  Qed.
  Lemma each_wf {Q R} (f : mon -> Q -> mon * R) : (forall s q, framed s (fst (f s q))) -> (forall s q, map it_id (mo_items (fst (f s q))) = map it_id (mo_items s)) -> forall l s, wf s -> wf (fst (each f s l)).
  Proof. intros H1 H2. apply each_inv. intros s q W. exact (wf_ids s _ W (H1 s q) (H2 s q)). Qed.
  Lemma step_wf s o : wf s -> mo_last s + asked o < 2 ^ 32 -> wf (fst (step s o)) /\ mo_last s <= mo_last (fst (step s o)) <= mo_last s + asked o.
  Proof.
    intros W L. destruct o as [roles stamps l|stamps l|m ids|ids|t add rem|roles|id n|id|id e|id|id]; cbn [mo_step asked] in *.
    - assert (P : 0 <= zlen l) by (unfold zlen; lia). destruct (bad_stamps stamps); [split; [exact W|cbn [fst]; lia]|]. destruct (bad_count _ _); [split; [exact W|cbn [fst]; lia]|].
      pose proof (each_created roles stamps l s W L) as (W' & B & _). destruct (each _ s l) as [s' rs]. cbn [fst] in *. now split.
    - destruct (bad_stamps stamps); [split; [exact W|cbn [fst]; lia]|]. destruct (bad_count _ _); [split; [exact W|cbn [fst]; lia]|].
      pose proof (each_wf _ modify_framed modify_ids l s W) as W'. pose proof (each_framed _ modify_framed l s) as (E & _). destruct (each _ s l) as [s' rs]. cbn [fst] in *. split; [exact W'|lia].
    - destruct (bad_count _ _); [split; [exact W|cbn [fst]; lia]|].
      pose proof (each_wf _ (mode_framed m) (mode_ids m) ids s W) as W'. pose proof (each_framed _ (mode_framed m) ids s) as (E & _). destruct (each _ s ids) as [s' rs]. cbn [fst] in *. split; [exact W'|lia].
    - destruct (bad_count _ _); [split; [exact W|cbn [fst]; lia]|].
      pose proof (each_inv delete_one wf delete_wf ids s W) as W'. pose proof (each_framed _ delete_framed ids s) as (E & _). destruct (each _ s ids) as [s' rs]. cbn [fst] in *. split; [exact W'|lia].
    - destruct (_ && _); [split; [exact W|cbn [fst]; lia]|]. destruct (find_item t _); [|split; [exact W|cbn [fst]; lia]].
      pose proof (each_wf _ (unlink_framed t) (unlink_ids t) rem s W) as W1. pose proof (each_framed _ (unlink_framed t) rem s) as (E1 & _). destruct (each _ s rem) as [s1 r1]. cbn [fst] in *.
      pose proof (each_wf _ (link_framed t) (link_ids t) add s1 W1) as W2. pose proof (each_framed _ (link_framed t) add s1) as (E2 & _). destruct (each _ s1 add) as [s2 r2]. cbn [fst] in *. split; [exact W2|lia].
    - split; [exact W|cbn; lia].
    - split; [exact W|cbn; lia].
    - destruct (find_item id _) as [i|]; [destruct (_ || _)|]; (split; [exact W|cbn; lia]).
    - split; [exact W|cbn; lia].
    - destruct (find_item id _) as [t|]; [|split; [exact W|cbn; lia]]. cbn [fst]. split; [|cbn; lia]. apply (wf_ids s); [exact W|repeat split|]. cbn [mo_items with_items].
      rewrite map_map. apply map_ext. intros i. now destruct (existsb _ _).
    - destruct (find_item id _) as [t|]; [|split; [exact W|cbn; lia]]. cbn [fst]. split; [|cbn; lia]. apply (wf_ids s); [exact W|repeat split|]. apply update_ids.
  Qed.
  Lemma run_cons s o ops : run s (o :: ops) = (fst (run (fst (step s o)) ops), snd (step s o) :: snd (run (fst (step s o)) ops)).
  Proof. cbn [mo_run]. destruct (step s o) as [s' a]. cbn [fst snd]. now destruct (run s' ops). Qed.
  Lemma asked_nonneg o : 0 <= asked o. Proof. destruct o; cbn; unfold zlen; lia. Qed.
  Lemma all_asked_nonneg ops : 0 <= all_asked ops. Proof. induction ops as [|o ops IH]; cbn [all_asked]; [lia|]. pose proof (asked_nonneg o). lia. Qed.
  Lemma run_wf ops : forall s, wf s -> mo_last s + all_asked ops < 2 ^ 32 -> wf (fst (run s ops)) /\ mo_last s <= mo_last (fst (run s ops)) <= mo_last s + all_asked ops.
  Proof.
    induction ops as [|o ops IH]; intros s W L; [cbn; split; [exact W|lia]|]. cbn [all_asked] in L. pose proof (all_asked_nonneg ops). destruct (step_wf s o W) as [W1 B1]; [lia|].
    rewrite run_cons. cbn [fst all_asked]. destruct (IH _ W1) as [W2 B2]; [lia|]. split; [exact W2|lia].
  Qed.
  Lemma init_wf last owner sp : 0 <= last < 2 ^ 32 -> wf (mo_init last owner sp).
  Proof. intros B. split; [exact B|]. split; constructor. Qed.

  (** * C88 *)
  Theorem creation_exact last owner sp ops roles stamps l s' rs : 0 <= last -> last + all_asked ops + zlen l < 2 ^ 32 -> Forall (fun q => unsigned_text (rq_range (cq_item q))) l ->
    let s := fst (run (mo_init last owner sp) ops) in
    step s (OCreate roles stamps l) = (s', Created rs) ->
    Forall2 (fun q r => rs_status r = 0 <-> monitorable default vt roles (mo_space s) q) l rs /\ NoDup (map it_id (mo_items s')) /\
    exists new, mo_items s' = mo_items s ++ new /\
      Forall2 (fun qr i => describes (fst qr) (snd qr) i /\ it_stamps i = (if it_event i then 0 else stamps)) (List.filter (fun qr => rs_status (snd qr) =? 0) (combine l rs)) new.
  Proof.
    intros L0 L U s H. pose proof (all_asked_nonneg ops). assert (P : 0 <= zlen l) by (unfold zlen; lia). destruct (run_wf ops (mo_init last owner sp)) as [W B]; [apply init_wf; lia|cbn; lia|]. fold s in W, B. cbn [mo_last mo_init] in B.
    cbn [mo_step] in H. destruct (bad_stamps stamps); [discriminate|]. destruct (bad_count _ _); [discriminate|]. pose proof (each_created roles stamps l s W ltac:(lia)) as (W' & _ & _ & _ & F & new & N & D).
    destruct (each _ s l) as [s1 rs1]. cbn [fst snd] in *. injection H as <- <-. split; [|split].
    - clear - F U. induction F as [|q r l' rs' Hq F IH]; [constructor|]. inversion U as [|? ? U1 U2]; subst. constructor; [|now apply IH]. rewrite Hq. now apply admit_spec.
    - apply W'.
    - exists new. split; [exact N|]. eapply forall2_imp; [|exact D]. cbv beta. tauto.
  Qed.

  (** What is sampled is what the Read service would show the subscription's present user. *)
  Theorem sampled_as_read s id s' st : step s (OSample id) = (s', Sampled (Shown st)) ->
    exists i n, In i (mo_items s) /\ it_id i = id /\ it_mode i <> 0 /\ read_value default (Session (mo_owner s)) (mo_space s) (it_item i) = Shown st /\
      mo_space s (rq_node (it_item i)) = Some n /\ user_may default (mo_owner s) n p_browse /\
      (rq_attr (it_item i) = 13 -> exists v, nd_kind n = KVariable v /\ readable v /\ user_may default (mo_owner s) n p_read).
  Proof.
    cbn [mo_step]. destruct (find_item id _) as [i|] eqn:F; [|discriminate]. destruct (it_event i || (it_mode i =? 0)) eqn:M; [discriminate|].
    destruct (read_value default (Session (mo_owner s)) (mo_space s) (it_item i)) as [w|w] eqn:H; [|discriminate]. intros [= <- <-]. apply find_in in F. destruct F as [F1 F2]. apply orb_false_iff in M. destruct (read_allowed default _ _ _ _ H) as (roles & n & [= <-] & S1 & B & V & _).
    exists i, n. split; [exact F1|]. split; [exact F2|]. split; [lia|]. split; [exact H|]. auto.
  Qed.
  Theorem events_exact s id e s' l : step s (OEvent id e) = (s', Events l) -> s' = s /\ forall k fs, In (k, fs) l <->
    exists i c, In i (mo_items s) /\ it_id i = k /\ it_event i = true /\ it_mode i <> 0 /\ rq_node (it_item i) = id /\ it_filter i = FEvent c /\ where_clause c e = true /\ fs = fields c e.
  Proof.
    cbn [mo_step]. intros [= <- <-]. split; [reflexivity|]. intros k fs. rewrite in_flat_map. split.
    - intros (i & I & H). destruct (it_event i) eqn:E; [|destruct H]. destruct (it_mode i =? 0) eqn:M; [destruct H|]. destruct (rq_node (it_item i) =? id) eqn:N; [|destruct H]. cbn [andb negb] in H.
      destruct (it_filter i) as [| |c|] eqn:F; try destruct H. destruct (where_clause c e) eqn:W; [|destruct H]. destruct H as [[= <- <-]|[]]. exists i, c. repeat split; auto; lia.
    - intros (i & c & I & K & E & M & N & F & W & S). exists i. split; [exact I|]. rewrite E, F, W. replace (it_mode i =? 0) with false by lia. replace (rq_node (it_item i) =? id) with true by lia. cbn [andb negb].
      left. now subst.
  Qed.

  (** Where the items of the next state come from *)
  Definition from_item (i j : item) : Prop := it_id j = it_id i /\ it_item j = it_item i /\ it_event j = it_event i.
  Definition from (s s' : mon) : Prop := forall j, In j (mo_items s') -> exists i, In i (mo_items s) /\ from_item i j.
  Lemma from_refl s : from s s. Proof. intros j I. exists j. repeat split. exact I. Qed.
  Lemma from_trans a b c : from a b -> from b c -> from a c.
  Proof. intros H1 H2 j I. destruct (H2 j I) as (i & Ii & A1 & A2 & A3). destruct (H1 i Ii) as (k & Ik & B1 & B2 & B3). exists k. split; [exact Ik|]. repeat split; congruence. Qed.
  Lemma each_from {Q R} (f : mon -> Q -> mon * R) : (forall s q, from s (fst (f s q))) -> forall l s, from s (fst (each f s l)).
  Proof. intros H l. induction l as [|q l IH]; intros s; [apply from_refl|]. rewrite each_cons. cbn [fst]. eapply from_trans; [apply H|apply IH]. Qed.
  Lemma update_from s i x : In i (mo_items s) -> from_item i x -> from s (with_items s (update x (mo_items s))).
  Proof. intros I F j J. cbn [with_items mo_items] in J. apply update_in in J. destruct J as [[-> _]|[J _]]; [exists i; auto|exists j; repeat split; exact J]. Qed.
  Lemma modify_from s q : from s (fst (modify_one s q)).
  Proof.
    unfold MonService.modify_one. destruct (find_item _ _) as [i|] eqn:E; [|apply from_refl]. apply find_in in E. destruct E as [E _]. destruct (mo_space s _) as [n|]; [|apply from_refl].
    destruct (_ =? 13); [|destruct (_ =? 12)]; destruct (pr_filter _); try apply from_refl; try (apply (update_from s i); [exact E|repeat split]). destruct (_ && _); [apply from_refl|]. apply (update_from s i); [exact E|repeat split].
  Qed.
  Lemma mode_from m s id : from s (fst (mode_one m s id)).
  Proof. unfold mode_one. destruct (find_item _ _) as [i|] eqn:E; [|apply from_refl]. apply find_in in E. apply (update_from s i); [apply E|repeat split]. Qed.
  Lemma delete_from s id : from s (fst (delete_one s id)).
  Proof. unfold delete_one. destruct (find_item _ _) as [i|]; [|apply from_refl]. intros j I. cbn in I. apply filter_In in I. exists j. repeat split. apply I. Qed.
  Lemma link_from t s id : from s (fst (link_one t s id)).
  Proof. unfold link_one. destruct (find_item t _) as [i|] eqn:E; [|apply from_refl]. destruct (find_item id _); [|apply from_refl]. apply find_in in E. apply (update_from s i); [apply E|repeat split]. Qed.
  Lemma unlink_from t s id : from s (fst (unlink_one t s id)).
  Proof.
    unfold unlink_one. destruct (find_item t _) as [i|] eqn:E; [|apply from_refl]. destruct (find_item id _); [|apply from_refl]. destruct (remove_link _ _); [|apply from_refl].
    apply find_in in E. apply (update_from s i); [apply E|repeat split].
  Qed.
  Lemma step_from s o : (forall roles stamps l, o <> OCreate roles stamps l) -> from s (fst (step s o)).
  Proof.
    intros H. destruct o as [roles stamps l|stamps l|m ids|ids|t add rem|roles|id n|id|id e|id|id]; cbn [mo_step]; try (apply from_refl); try (intros j J; exists j; repeat split; exact J).
    - now elim (H roles stamps l).
    - destruct (bad_stamps _); [apply from_refl|]. destruct (bad_count _ _); [apply from_refl|]. pose proof (each_from _ modify_from l s). now destruct (each _ s l).
    - destruct (bad_count _ _); [apply from_refl|]. pose proof (each_from _ (mode_from m) ids s). now destruct (each _ s ids).
    - destruct (bad_count _ _); [apply from_refl|]. pose proof (each_from _ delete_from ids s). now destruct (each _ s ids).
    - destruct (_ && _); [apply from_refl|]. destruct (find_item t _); [|apply from_refl]. pose proof (each_from _ (unlink_from t) rem s) as F1. destruct (each _ s rem) as [s1 r1]. cbn [fst] in F1.
      pose proof (each_from _ (link_from t) add s1) as F2. destruct (each _ s1 add) as [s2 r2]. cbn [fst] in *. eapply from_trans; eassumption.
    - destruct (find_item id _) as [i|]; [destruct (_ || _)|]; apply from_refl.
    - destruct (find_item id _) as [t|]; [|apply from_refl]. intros j J. cbn in J. apply in_map_iff in J. destruct J as (i & <- & I). exists i. split; [exact I|]. destruct (existsb _ _); repeat split.
    - destruct (find_item id _) as [t|] eqn:E; [|apply from_refl]. apply find_in in E. apply (update_from s t); [apply E|repeat split].
  Qed.
  Lemma create_from roles stamps s q j : In j (mo_items (fst (create_one roles stamps s q))) -> In j (mo_items s) \/ created stamps q (admit_item roles (mo_space s) q) (u32 (mo_last s + 1)) = Some j.
  Proof.
    unfold MonService.create_one, created. destruct (admit_item _ _ _); [auto| |]; cbn [fst mo_items]; unfold append_item; (destruct (find_item _ _); [auto|]); intros I; apply in_app_iff in I; destruct I as [I|[I|[]]]; auto; right; now subst.
  Qed.

  (** Events go to a user who may receive them, as long as nobody else creates items in the
      subscription and neither the user nor the nodes change. *)
  Definition permitted_events (roles : option (list Z)) (s : mon) : Prop :=
    mo_owner s = roles /\ Forall (fun i => it_event i = true -> exists n, mo_space s (rq_node (it_item i)) = Some n /\ user_may default roles n p_receive_events) (mo_items s).
  Lemma created_may roles stamps sp q id i : created stamps q (admit_item roles sp q) id = Some i -> it_event i = true ->
    exists n, sp (rq_node (it_item i)) = Some n /\ user_may default roles n p_receive_events.
  Proof.
    unfold MonService.admit_item. cbv zeta. destruct (sp (rq_node (cq_item q))) as [n|] eqn:S; [|discriminate]. destruct (negb (attribute_valid _ _)); [discriminate|]. destruct (rq_attr _ =? 13).
    { destruct (nd_kind n); try discriminate. destruct (_ =? 0); [discriminate|]. destruct (_ =? 0); [discriminate|]. destruct (negb _); [discriminate|]. destruct (pr_filter _); try discriminate; [|destruct (_ && _); [discriminate|]]; intros [= <-]; discriminate. }
    destruct (rq_attr _ =? 12).
    - destruct (nd_kind n); try discriminate. destruct (_ =? 0); [discriminate|]. destruct (is_permitted _ _) eqn:P; [|discriminate]. destruct (pr_filter _); try discriminate. intros [= <-] _. exists n. split; [exact S|]. now apply receive_may.
    - destruct (is_permitted _ _); [|discriminate]. destruct (pr_filter _); try discriminate. intros [= <-]. discriminate.
  Qed.
  Lemma permitted_step roles s o : calm roles o -> permitted_events roles s -> permitted_events roles (fst (step s o)).
  Proof.
    intros C [O F]. assert (K : (forall r st l, o <> OCreate r st l) -> permitted_events roles (fst (step s o))).
    { intros NC. pose proof (step_from s o NC) as D. assert (SP : mo_owner (fst (step s o)) = mo_owner s /\ mo_space (fst (step s o)) = mo_space s).
      { destruct o as [r st l|st l|m ids|ids|t add rem|r|id n|id|id e|id|id]; cbn [mo_step calm] in *; try contradiction.
        - now elim (NC r st l).
        - destruct (bad_stamps _); [auto|]. destruct (bad_count _ _); [auto|]. pose proof (each_framed _ modify_framed l s) as (_ & H). now destruct (each _ s l).
        - destruct (bad_count _ _); [auto|]. pose proof (each_framed _ (mode_framed m) ids s) as (_ & H). now destruct (each _ s ids).
        - destruct (bad_count _ _); [auto|]. pose proof (each_framed _ delete_framed ids s) as (_ & H). now destruct (each _ s ids).
        - destruct (_ && _); [auto|]. destruct (find_item t _); [|auto]. pose proof (each_framed _ (unlink_framed t) rem s) as (_ & H1). destruct (each _ s rem) as [s1 r1]. cbn [fst] in H1.
          pose proof (each_framed _ (link_framed t) add s1) as (_ & H2). destruct (each _ s1 add) as [s2 r2]. cbn [fst] in *. destruct H1, H2. split; congruence.
        - destruct (find_item id _) as [i|]; [destruct (_ || _)|]; auto.
        - auto.
        - destruct (find_item id _); auto.
        - destruct (find_item id _); auto. }
      destruct SP as [SO SS]. split; [congruence|]. rewrite Forall_forall in *. intros j J E. destruct (D j J) as (i & I & _ & A & B). rewrite SS, A. apply (F i I). congruence. }
    destruct o as [r st l|st l|m ids|ids|t add rem|r|id n|id|id e|id|id]; try (apply K; discriminate). clear K. cbn [calm] in C. subst r.
    cbn [mo_step]. destruct (bad_stamps _); [now split|]. destruct (bad_count _ _); [now split|].
    assert (G : permitted_events roles (fst (each (create_one roles st) s l))).
    { apply each_inv; [|now split]. clear O F s. intros s q [O F]. destruct (create_same roles st s q) as [SO SS]. split; [congruence|]. rewrite Forall_forall in *. intros j J E. rewrite SS. apply create_from in J. destruct J as [J|J]; [now apply F|]. exact (created_may _ _ _ _ _ _ J E). }
    now destruct (each _ s l).
  Qed.
  Lemma permitted_run roles ops : forall s, Forall (calm roles) ops -> permitted_events roles s -> permitted_events roles (fst (run s ops)).
  Proof. induction ops as [|o ops IH]; intros s C P; [exact P|]. inversion C as [|? ? C1 C2]; subst. rewrite run_cons. cbn [fst]. apply IH; [exact C2|]. now apply permitted_step. Qed.
  Theorem events_permitted last roles sp ops id e s' l k fs : Forall (calm roles) ops ->
    step (fst (run (mo_init last roles sp) ops)) (OEvent id e) = (s', Events l) -> In (k, fs) l -> exists n, mo_space s' id = Some n /\ user_may default roles n p_receive_events.
  Proof.
    intros C H I. destruct (events_exact _ _ _ _ _ H) as [-> X]. apply X in I. destruct I as (i & c & I & _ & E & _ & N & _). destruct (permitted_run roles ops (mo_init last roles sp) C) as [_ F]; [split; [reflexivity|constructor]|].
    rewrite Forall_forall in F. rewrite <- N. exact (F i I E).
  Qed.

  (** * C89 *)
  Theorem interval_nearest m p k attr n x : min_rate = FFin m -> 0 <= m -> publishing = FFin p -> x <> FNaN ->
    (attr = 13 -> (exists v, nd_kind n = KVariable v) /\ node_min n = FFin k) -> (attr <> 13 -> k = 0) -> revise attr n x = nearest_interval m p k x.
  Proof.
    intros Em Pm Ep NN V NV. unfold revise_interval, nearest_interval, maxSamplingInterval. rewrite Em, Ep. change at_value with 13.
    assert (T : forall y, (if attr =? 13 then match nd_kind n with KVariable _ => if f_lt (FFin y) (node_min n) then node_min n else FFin y | _ => FFin y end else FFin y) = FFin (if attr =? 13 then Z.max k y else y)).
    { intros y. destruct (attr =? 13) eqn:A; [|reflexivity]. apply Z.eqb_eq in A. destruct (V A) as [(v & ->) ->]. cbn [f_lt]. destruct (y <? k) eqn:E; f_equal; lia. }
    assert (K : forall y, 0 <= y -> (if attr =? 13 then Z.max k y else y) = Z.max k y). { intros y Y. destruct (attr =? 13) eqn:A; [reflexivity|]. rewrite (NV ltac:(lia)). lia. }
    assert (P6 : 0 <= f_int 60000) by (unfold f_int; apply Z.mul_nonneg_nonneg; [lia|apply Z.lt_le_incl; reflexivity]).
    assert (Q : forall z, (let x := if f_lt (FFin z) (FFin m) then FFin m else FFin z in let x := if f_lt (FFin (f_int 60000)) x then FFin (f_int 60000) else x in
      if attr =? 13 then match nd_kind n with KVariable _ => if f_lt x (node_min n) then node_min n else x | _ => x end else x) = FFin (Z.max k (Z.min (f_int 60000) (Z.max m z)))).
    { intros z. cbv zeta. generalize dependent (f_int 60000). intros M P6. assert (FL : forall a b, f_lt (FFin a) (FFin b) = (a <? b)) by reflexivity. rewrite FL. destruct (z <? m) eqn:E1; rewrite FL.
      - destruct (M <? m) eqn:E2; rewrite T, K by lia; do 2 f_equal; lia.
      - destruct (M <? z) eqn:E2; rewrite T, K by lia; do 2 f_equal; lia. }
    destruct x as [|b|z]; [contradiction| |].
    - destruct b.
      + change (f_lt (FInf true) (FFin 0)) with true. cbv iota. apply Q.
      + change (f_lt (FInf false) (FFin 0)) with false. cbv iota zeta. change (f_lt (FInf false) (FFin m)) with false. cbv iota. change (f_lt (FFin (f_int 60000)) (FInf false)) with true. cbv iota. rewrite T, K by exact P6. do 2 f_equal. lia.
    - change (f_lt (FFin z) (FFin 0)) with (z <? 0). destruct (z <? 0); apply Q.
  Qed.
  Theorem interval_nan attr n : revise attr n FNaN = FNaN.
  Proof.
    unfold revise_interval. cbn [f_lt]. assert (E : f_lt maxSamplingInterval FNaN = false) by reflexivity. rewrite E. destruct (attr =? at_value); [|reflexivity]. now destruct (nd_kind n).
  Qed.
  Lemma size_nearest n : revised_size n = nearest_size n.
  Proof. unfold revised_size, nearest_size, maxQueueSize. destruct (1024 <? n) eqn:E; [cbn; lia|]. destruct (n <? 1) eqn:E2; lia. Qed.

  (** What one successful entry of ModifyMonitoredItems does *)
  Definition modified (i : item) (n : node) (p : params) (r : result) (j : item) : Prop :=
    same_identity i j /\ takes p r j /\ rs_size r = (if rq_attr (it_item i) =? 12 then 1024 else nearest_size (pr_size p)) /\
    rs_interval r = (if rq_attr (it_item i) =? 12 then FFin 0 else revise (rq_attr (it_item i)) n (pr_interval p)).
  Lemma modify_cases s id p i n : find_item id (mo_items s) = Some i -> mo_space s (rq_node (it_item i)) = Some n ->
    (suits (rq_attr (it_item i)) (number vt n) (pr_filter p) /\ rs_status (snd (modify_one s (id, p))) = 0 /\
       exists j, mo_items (fst (modify_one s (id, p))) = update j (mo_items s) /\ modified i n p (snd (modify_one s (id, p))) j) \/
    (~ suits (rq_attr (it_item i)) (number vt n) (pr_filter p) /\ rs_status (snd (modify_one s (id, p))) = 0x80450000 /\ fst (modify_one s (id, p)) = s).
  Proof.
    intros F N. unfold MonService.modify_one, modified. cbn [fst snd]. rewrite F, N. rewrite <- size_nearest. destruct (rq_attr (it_item i) =? 13) eqn:E13; [|destruct (rq_attr (it_item i) =? 12) eqn:E12].
    - apply Z.eqb_eq in E13. rewrite E13. change (13 =? 12) with false. cbv iota. destruct (pr_filter p) as [|tr db x|c|] eqn:G.
      + left. split; [now left|]. split; [reflexivity|]. eexists. split; [reflexivity|]. repeat split; cbn; congruence.
      + assert (NS : (match nd_kind n with KVariable v => numeric (vt (va_type v)) | _ => false end) = true <-> number vt n).
        { unfold number. destruct (nd_kind n) as [|v| | | | | |]; try (split; [discriminate|intros (v' & H & _); discriminate]). rewrite numeric_spec. split; [eauto|]. now intros (v' & [= <-] & H). }
        destruct (negb (db =? 0) && negb (match nd_kind n with KVariable v => numeric (vt (va_type v)) | _ => false end)) eqn:Q.
        * right. split; [|split; reflexivity]. rewrite andb_true_iff, !negb_true_iff in Q. intros [H|[(_ & t' & d' & x' & [= <- <- <-] & H)|(H & _)]]; [discriminate| |lia]. destruct H as [H|H]; [lia|]. apply NS in H. destruct Q; congruence.
        * left. split.
          { right. left. split; [reflexivity|]. exists tr, db, x. split; [reflexivity|]. destruct (db =? 0) eqn:D; [left; lia|]. right. apply NS. cbn in Q. now apply negb_false_iff in Q. }
          split; [reflexivity|]. eexists. split; [reflexivity|]. repeat split; cbn; try congruence. 
      + right. split; [|split; reflexivity]. intros [H|[(_ & t' & d' & x' & H & _)|(H & _)]]; [discriminate|discriminate|lia].
      + right. split; [|split; reflexivity]. intros [H|[(_ & t' & d' & x' & H & _)|(H & _)]]; [discriminate|discriminate|lia].
    - apply Z.eqb_eq in E12. rewrite E12. destruct (pr_filter p) as [|tr db x|c|] eqn:G.
      + left. split; [now left|]. split; [reflexivity|]. eexists. split; [reflexivity|]. repeat split; cbn; congruence.
      + right. split; [|split; reflexivity]. intros [H|[(H & _)|(_ & c & H)]]; [discriminate|lia|discriminate].
      + left. split; [right; right; split; [reflexivity|eauto]|]. split; [reflexivity|]. eexists. split; [reflexivity|]. repeat split; cbn; congruence.
      + right. split; [|split; reflexivity]. intros [H|[(H & _)|(_ & c & H)]]; [discriminate|lia|discriminate].
    - destruct (pr_filter p) as [|tr db x|c|] eqn:G;
        try (right; split; [|split; reflexivity]; intros [H|[(H & _)|(H & _)]]; [discriminate|lia|lia]).
      left. split; [now left|]. split; [reflexivity|]. eexists. split; [reflexivity|]. repeat split; cbn; congruence.
  Qed.
  Lemma modify_missing s id p : find_item id (mo_items s) = None -> modify_one s (id, p) = (s, refusal BadMonitoredItemIDInvalid).
  Proof. intros F. unfold MonService.modify_one. cbn [fst]. now rewrite F. Qed.

  Lemma modify_others s q i : In i (mo_items s) -> it_id i <> fst q -> In i (mo_items (fst (modify_one s q))).
  Proof.
    intros I N. destruct q as [id p]. cbn [fst] in N. unfold MonService.modify_one. cbn [fst snd]. destruct (find_item id _) as [x|] eqn:F; [|exact I]. apply find_in in F. destruct F as [_ F].
    assert (U : forall y, it_id y = id -> In i (update y (mo_items s))).
    { intros y Y. unfold update. apply in_map_iff. exists i. split; [|exact I]. destruct (it_id i =? it_id y) eqn:E; [lia|reflexivity]. }
    destruct (mo_space s _) as [n|]; [|exact I].
    destruct (_ =? 13); [|destruct (_ =? 12)]; destruct (pr_filter _); try exact I; try (apply U; exact F). destruct (_ && _); [exact I|]. apply U. exact F.
  Qed.
  Lemma modify_back s q i : In i (mo_items (fst (modify_one s q))) -> it_id i <> fst q -> In i (mo_items s).
  Proof.
    intros I N. destruct q as [id p]. cbn [fst] in N. unfold MonService.modify_one in I. cbn [fst snd] in I. destruct (find_item id _) as [x|] eqn:F; [|exact I]. apply find_in in F. destruct F as [_ F].
    assert (U : forall y, it_id y = id -> In i (update y (mo_items s)) -> In i (mo_items s)).
    { intros y Y J. apply update_in in J. destruct J as [[-> _]|[J _]]; [congruence|exact J]. }
    destruct (mo_space s _) as [n|]; [|exact I].
    destruct (_ =? 13); [|destruct (_ =? 12)]; destruct (pr_filter _); try exact I; try (eapply U; [|exact I]; exact F). destruct (_ && _); [exact I|]. eapply U; [|exact I]. exact F.
  Qed.
  (** What an entry of ModifyMonitoredItems does to the item it names, in [s] and after *)
  Definition effect (s s' : mon) (q : Z * params) (r : result) : Prop :=
    (~ In (fst q) (map it_id (mo_items s)) -> rs_status r = 0x80420000) /\
    forall i n, In i (mo_items s) -> it_id i = fst q -> mo_space s (rq_node (it_item i)) = Some n ->
      (suits (rq_attr (it_item i)) (number vt n) (pr_filter (snd q)) /\ rs_status r = 0 /\ exists j, In j (mo_items s') /\ modified i n (snd q) r j) \/
      (~ suits (rq_attr (it_item i)) (number vt n) (pr_filter (snd q)) /\ rs_status r = 0x80450000 /\ In i (mo_items s')).
  Lemma each_modified l : forall s, wf s -> NoDup (map fst l) ->
    let s' := fst (each modify_one s l) in
    (forall i, In i (mo_items s) -> ~ In (it_id i) (map fst l) -> In i (mo_items s')) /\ Forall2 (effect s s') l (snd (each modify_one s l)).
  Proof.
    induction l as [|q l IH]; intros s W N; cbv zeta; [split; [auto|constructor]|]. rewrite each_cons. cbn [fst snd map] in *. inversion N as [|x y N1 N2]; subst.
    pose proof (wf_ids s _ W (modify_framed s q) (modify_ids s q)) as W1. destruct (modify_framed s q) as (_ & _ & SP). destruct (IH _ W1 N2) as [K E]. set (s1 := fst (modify_one s q)) in *. split.
    { intros i I J. cbn [In] in J. apply K; [|tauto]. apply modify_others; [exact I|]. intros H. apply J. now left. }
    constructor.
    - split.
      + intros M. destruct q as [id p]. cbn [fst] in *. rewrite (modify_missing s id p); [reflexivity|]. now apply find_none.
      + intros i n I J S. destruct q as [id p]. cbn [fst snd] in *. assert (F : find_item id (mo_items s) = Some i) by (rewrite <- J; apply find_nodup; [apply W|exact I]).
        destruct (modify_cases s id p i n F S) as [(A & B & j & U & M)|(A & B & U)].
        * left. split; [exact A|]. split; [exact B|]. exists j. split; [|exact M]. assert (E1 : it_id j = it_id i) by apply M. apply K.
          -- unfold s1. rewrite U. unfold update. apply in_map_iff. exists i. split; [|exact I]. now rewrite E1, Z.eqb_refl.
          -- congruence.
        * right. split; [exact A|]. split; [exact B|]. apply K; [unfold s1; now rewrite U|congruence].
    - assert (NQ : forall q', In q' l -> fst q' <> fst q) by (intros q' I H; apply N1; rewrite <- H; now apply in_map).
      clear IH N N1 N2 K. remember (snd (each modify_one s1 l)) as rs eqn:Ers. clear Ers. set (s2 := fst (each modify_one s1 l)) in *. clearbody s2.
      induction E as [|q' r' l' rs' Hq E IHE]; [constructor|]. constructor; [|apply IHE; intros q2 I2; apply NQ; now right]. specialize (NQ q' (or_introl eq_refl)). destruct Hq as [H1 H2]. split.
      + intros M. apply H1. unfold s1. now rewrite modify_ids.
      + intros i n I J S. apply (H2 i n); [|exact J|now rewrite SP]. apply modify_others; [exact I|]. congruence.
  Qed.
  Theorem modification last owner sp ops stamps l s' rs : 0 <= last -> last + all_asked ops < 2 ^ 32 -> NoDup (map fst l) ->
    let s := fst (run (mo_init last owner sp) ops) in
    step s (OModify stamps l) = (s', Modified rs) ->
    map it_id (mo_items s') = map it_id (mo_items s) /\ (forall i, In i (mo_items s) -> ~ In (it_id i) (map fst l) -> In i (mo_items s')) /\ Forall2 (effect s s') l rs.
  Proof.
    intros L0 L N s H. pose proof (all_asked_nonneg ops). destruct (run_wf ops (mo_init last owner sp)) as [W _]; [apply init_wf; lia|cbn; lia|]. fold s in W.
    cbn [mo_step] in H. destruct (bad_stamps stamps); [discriminate|]. destruct (bad_count _ _); [discriminate|]. pose proof (each_modified l s W N) as (A & B).
    assert (C : map it_id (mo_items (fst (each modify_one s l))) = map it_id (mo_items s)).
    { apply (each_inv modify_one (fun x => map it_id (mo_items x) = map it_id (mo_items s))); [|reflexivity]. intros x q X. now rewrite modify_ids. }
    destruct (each _ s l) as [s1 rs1]. cbn [fst snd] in *. injection H as <- <-. auto.
  Qed.

  (** Modes *)
  Lemma mode_items m s id : wf s -> Forall2 (fun i j => if it_id i =? id then other_mode m i j else j = i) (mo_items s) (mo_items (fst (mode_one m s id))).
  Proof.
    intros (_ & N & _). unfold mode_one. destruct (find_item id _) as [x|] eqn:F.
    - apply find_in in F. destruct F as [F1 F2]. cbn [fst with_items mo_items]. unfold update. assert (G : forall i, In i (mo_items s) -> it_id i = id -> i = x).
      { intros i I E. pose proof (find_nodup _ i N I) as A. pose proof (find_nodup _ x N F1) as B. rewrite E in A. rewrite F2 in B. congruence. }
      revert G. generalize (mo_items s). clear N F1. intros l G. induction l as [|i l IH]; [constructor|]. cbn [map]. constructor; [|apply IH; intros k K; apply G; now right].
      cbn [it_id set_mode]. rewrite F2. destruct (it_id i =? id) eqn:E; [|reflexivity]. rewrite (G i (or_introl eq_refl)) by lia. reflexivity.
    - cbn [fst]. assert (G : forall i, In i (mo_items s) -> it_id i <> id).
      { intros i I E. apply find_none in F. apply F. rewrite <- E. now apply in_map. }
      revert G. generalize (mo_items s). clear N F. intros l G. induction l as [|i l IH]; [constructor|]. constructor; [|apply IH; intros k K; apply G; now right].
      destruct (it_id i =? id) eqn:E; [|reflexivity]. elim (G i (or_introl eq_refl)). lia.
  Qed.
  Lemma each_mode m ids : forall s, wf s -> Forall2 (fun i j => (In (it_id i) ids -> other_mode m i j) /\ (~ In (it_id i) ids -> j = i)) (mo_items s) (mo_items (fst (each (mode_one m) s ids))).
  Proof.
    induction ids as [|id ids IH]; intros s W.
    - cbn [each fst]. clear W. induction (mo_items s); constructor; [split; [intros []|reflexivity]|assumption].
    - rewrite each_cons. cbn [fst]. pose proof (mode_items m s id W) as A. pose proof (IH _ (wf_ids s _ W (mode_framed m s id) (mode_ids m s id))) as B.
      revert B. generalize (mo_items (fst (each (mode_one m) (fst (mode_one m s id)) ids))). revert A. generalize (mo_items (fst (mode_one m s id))). generalize (mo_items s). clear IH W.
      intros l l1 A. induction A as [|i j l l1 Hij A IHA]; intros l2 B; inversion B as [|x k y l3 Hjk B']; subst; constructor; [|now apply IHA].
      destruct Hjk as [H1 H2]. destruct (it_id i =? id) eqn:E.
      + unfold other_mode in Hij. assert (Ej : it_id j = it_id i) by (now rewrite Hij). split; [intros _|intros H; elim H; left; lia].
        destruct (in_dec Z.eq_dec (it_id j) ids) as [D|D]; [|now rewrite (H2 D)]. rewrite (H1 D). unfold other_mode. now rewrite Hij.
      + subst j. split; [intros [H|H]; [lia|auto]|]. intros H. apply H2. intros K. apply H. now right.
  Qed.
  Lemma each_mode_status m ids : forall s, Forall2 (fun id st => (st = 0 <-> In id (map it_id (mo_items s))) /\ (st = 0 \/ st = 0x80420000)) ids (snd (each (mode_one m) s ids)).
  Proof.
    induction ids as [|id ids IH]; intros s; [constructor|]. rewrite each_cons. cbn [snd]. constructor.
    - unfold mode_one. destruct (find_item id _) as [i|] eqn:F; cbn [snd]; (split; [|auto]).
      + apply find_in in F. split; [intros _; rewrite <- (proj2 F); now apply in_map|reflexivity].
      + apply find_none in F. split; [discriminate|contradiction].
    - eapply forall2_imp; [|apply IH]. cbv beta. intros a b. now rewrite mode_ids.
  Qed.
  Theorem modes last owner sp ops m ids s' rs : 0 <= last -> last + all_asked ops < 2 ^ 32 ->
    let s := fst (run (mo_init last owner sp) ops) in
    step s (OMode m ids) = (s', Statuses rs) ->
    Forall2 (fun id st => (st = 0 <-> In id (map it_id (mo_items s))) /\ (st = 0 \/ st = 0x80420000)) ids rs /\
    Forall2 (fun i j => (In (it_id i) ids -> other_mode m i j) /\ (~ In (it_id i) ids -> j = i)) (mo_items s) (mo_items s').
  Proof.
    intros L0 L s H. pose proof (all_asked_nonneg ops). destruct (run_wf ops (mo_init last owner sp)) as [W _]; [apply init_wf; lia|cbn; lia|]. fold s in W.
    cbn [mo_step] in H. destruct (bad_count _ _); [discriminate|]. pose proof (each_mode m ids s W) as A. pose proof (each_mode_status m ids s) as B.
    destruct (each _ s ids) as [s1 rs1]. cbn [fst snd] in *. injection H as <- <-. auto.
  Qed.

  (** Deletion *)
  Lemma filter_filter {U} (f g : U -> bool) l : List.filter f (List.filter g l) = List.filter (fun x => g x && f x) l.
  Proof. induction l as [|x l IH]; [reflexivity|]. cbn [List.filter]. destruct (g x); cbn [List.filter andb]; [destruct (f x); now rewrite IH|exact IH]. Qed.
  Lemma filter_all {U} (f : U -> bool) l : (forall x, In x l -> f x = true) -> List.filter f l = l.
  Proof. induction l as [|x l IH]; intros H; [reflexivity|]. cbn [List.filter]. rewrite (H x (or_introl eq_refl)), IH; [reflexivity|]. intros y Y. apply H. now right. Qed.
  Lemma delete_items s id : mo_items (fst (delete_one s id)) = List.filter (fun i => negb (it_id i =? id)) (mo_items s).
  Proof.
    unfold delete_one. destruct (find_item id _) eqn:F; [reflexivity|]. symmetry. apply filter_all. intros x I. apply find_none in F. destruct (it_id x =? id) eqn:E; [|reflexivity]. elim F. apply Z.eqb_eq in E. rewrite <- E. now apply in_map.
  Qed.
  Lemma each_delete ids : forall s, mo_items (fst (each delete_one s ids)) = List.filter (fun i => negb (existsb (Z.eqb (it_id i)) ids)) (mo_items s).
  Proof.
    induction ids as [|id ids IH]; intros s; [cbn [each fst]; symmetry; now apply filter_all|]. rewrite each_cons. cbn [fst]. rewrite IH, delete_items, filter_filter. apply filter_ext. intros i. cbn [existsb].
    now rewrite negb_orb.
  Qed.
  Lemma each_delete_status ids : forall s, NoDup ids -> Forall2 (fun id st => (st = 0 <-> In id (map it_id (mo_items s))) /\ (st = 0 \/ st = 0x80420000)) ids (snd (each delete_one s ids)).
  Proof.
    induction ids as [|id ids IH]; intros s N; [constructor|]. inversion N as [|? ? N1 N2]; subst. rewrite each_cons. cbn [snd]. constructor.
    - unfold delete_one. destruct (find_item id _) as [i|] eqn:F; cbn [snd]; (split; [|auto]).
      + apply find_in in F. split; [intros _; rewrite <- (proj2 F); now apply in_map|reflexivity].
      + apply find_none in F. split; [discriminate|contradiction].
    - assert (G : forall x, In x ids -> (In x (map it_id (mo_items (fst (delete_one s id)))) <-> In x (map it_id (mo_items s)))).
      { intros x X. rewrite delete_items, !in_map_iff. split; intros (i & E & I).
        - apply filter_In in I. exists i. tauto.
        - exists i. split; [exact E|]. apply filter_In. split; [exact I|]. destruct (it_id i =? id) eqn:D; [|reflexivity]. elim N1. replace id with x by lia. exact X. }
      pose proof (IH (fst (delete_one s id)) N2) as F. clear IH N N1 N2. induction F as [|x st l rs Hx F IHF]; [constructor|]. constructor; [|apply IHF; intros y Y; apply G; now right].
      now rewrite <- (G x (or_introl eq_refl)).
  Qed.
  Theorem deletion s ids s' rs : step s (ODelete ids) = (s', Statuses rs) ->
    (forall i, In i (mo_items s') <-> In i (mo_items s) /\ ~ In (it_id i) ids) /\
    (NoDup ids -> Forall2 (fun id st => (st = 0 <-> In id (map it_id (mo_items s))) /\ (st = 0 \/ st = 0x80420000)) ids rs).
  Proof.
    cbn [mo_step]. destruct (bad_count _ _); [discriminate|]. pose proof (each_delete ids s) as A. pose proof (each_delete_status ids s) as B. destruct (each _ s ids) as [s1 rs1]. cbn [fst snd] in *. intros [= <- <-].
    split; [|exact B]. intros i. rewrite A, filter_In. rewrite negb_true_iff, <- not_true_iff_false, existsb_exists. split; intros [H1 H2]; (split; [exact H1|]).
    - intros H. apply H2. exists (it_id i). split; [exact H|apply Z.eqb_refl].
    - intros (x & X & E). apply H2. apply Z.eqb_eq in E. now rewrite E.
  Qed.

  (** Queue sizes *)
  Definition sized (i : item) : Prop := 1 <= it_size i <= 1024 /\ it_event i = (rq_attr (it_item i) =? 12) /\ (it_event i = true -> it_size i = 1024 /\ it_interval i = FFin 0).
  Definition all_sized (s : mon) : Prop := Forall sized (mo_items s).
  Lemma update_sized s x : all_sized s -> sized x -> all_sized (with_items s (update x (mo_items s))).
  Proof. intros A X. unfold all_sized in *. rewrite Forall_forall in *. intros j J. cbn in J. apply update_in in J. destruct J as [[-> _]|[J _]]; auto. Qed.
  Lemma nearest_bounds n : 1 <= nearest_size n <= 1024. Proof. unfold nearest_size. lia. Qed.
  Lemma modify_sized s q : all_sized s -> all_sized (fst (modify_one s q)).
  Proof.
    intros A. unfold MonService.modify_one. destruct (find_item _ _) as [i|] eqn:F; [|exact A]. apply find_in in F. destruct F as [F _]. assert (B : sized i) by (unfold all_sized in A; rewrite Forall_forall in A; auto). destruct B as (_ & B & _).
    destruct (mo_space s _) as [n|]; [|exact A]. pose proof (nearest_bounds (pr_size (snd q))) as SZ.
    destruct (_ =? 13) eqn:E13; [|destruct (_ =? 12) eqn:E12]; destruct (pr_filter _); try exact A;
      try (apply update_sized; [exact A|]; unfold sized; cbn [it_size it_event it_item it_interval]; rewrite ?size_nearest; rewrite B, ?E12; repeat split; try exact (proj1 SZ); try exact (proj2 SZ); try discriminate; lia).
    destruct (_ && _); [exact A|]. apply update_sized; [exact A|]; unfold sized; cbn [it_size it_event it_item it_interval]; rewrite ?size_nearest; rewrite B, ?E12; repeat split; try exact (proj1 SZ); try exact (proj2 SZ); try discriminate; lia.
  Qed.
  Lemma mode_sized m s id : all_sized s -> all_sized (fst (mode_one m s id)).
  Proof. intros A. unfold mode_one. destruct (find_item _ _) as [i|] eqn:F; [|exact A]. apply find_in in F. apply update_sized; [exact A|]. unfold all_sized in A. rewrite Forall_forall in A. apply (A i). apply F. Qed.
  Lemma delete_sized s id : all_sized s -> all_sized (fst (delete_one s id)).
  Proof. intros A. unfold all_sized in *. rewrite delete_items. rewrite Forall_forall in *. intros j J. apply filter_In in J. apply A. apply J. Qed.
  Lemma link_sized t s id : all_sized s -> all_sized (fst (link_one t s id)).
  Proof. intros A. unfold link_one. destruct (find_item t _) as [i|] eqn:F; [|exact A]. destruct (find_item id _); [|exact A]. apply find_in in F. apply update_sized; [exact A|]. unfold all_sized in A. rewrite Forall_forall in A. apply (A i). apply F. Qed.
  Lemma unlink_sized t s id : all_sized s -> all_sized (fst (unlink_one t s id)).
  Proof.
    intros A. unfold unlink_one. destruct (find_item t _) as [i|] eqn:F; [|exact A]. destruct (find_item id _); [|exact A]. destruct (remove_link _ _); [|exact A]. apply find_in in F. apply update_sized; [exact A|]. unfold all_sized in A. rewrite Forall_forall in A. apply (A i). apply F.
  Qed.
  Lemma create_sized roles stamps s q : all_sized s -> all_sized (fst (create_one roles stamps s q)).
  Proof.
    intros A. unfold all_sized in *. rewrite Forall_forall in *. intros j J. apply create_from in J. destruct J as [J|J]; [now apply A|]. pose proof (admit_event roles (mo_space s) q) as V.
    destruct (admit_item roles (mo_space s) q) as [st|n|n]; [discriminate| |]; injection J as <-; unfold sized, data_item, event_item; cbn [it_size it_event it_item it_interval]; rewrite ?size_nearest; pose proof (nearest_bounds (pr_size (cq_params q))); repeat split; try lia; auto; try discriminate.
  Qed.
  Lemma step_sized s o : all_sized s -> all_sized (fst (step s o)).
  Proof.
    intros A. destruct o as [roles stamps l|stamps l|m ids|ids|t add rem|roles|id n|id|id e|id|id]; cbn [mo_step]; try exact A.
    - destruct (bad_stamps _); [exact A|]. destruct (bad_count _ _); [exact A|]. pose proof (each_inv _ all_sized (create_sized roles stamps) l s A). now destruct (each _ s l).
    - destruct (bad_stamps _); [exact A|]. destruct (bad_count _ _); [exact A|]. pose proof (each_inv _ all_sized modify_sized l s A). now destruct (each _ s l).
    - destruct (bad_count _ _); [exact A|]. pose proof (each_inv _ all_sized (mode_sized m) ids s A). now destruct (each _ s ids).
    - destruct (bad_count _ _); [exact A|]. pose proof (each_inv _ all_sized delete_sized ids s A). now destruct (each _ s ids).
    - destruct (_ && _); [exact A|]. destruct (find_item t _); [|exact A]. pose proof (each_inv _ all_sized (unlink_sized t) rem s A) as A1. destruct (each _ s rem) as [s1 r1]. cbn [fst] in A1.
      pose proof (each_inv _ all_sized (link_sized t) add s1 A1). now destruct (each _ s1 add).
    - destruct (find_item id _) as [i|]; [destruct (_ || _)|]; exact A.
    - destruct (find_item id _) as [t|]; [|exact A]. unfold all_sized in *. cbn. rewrite Forall_forall in *. intros j J. apply in_map_iff in J. destruct J as (i & <- & I). specialize (A i I). now destruct (existsb _ _).
    - destruct (find_item id _) as [i|] eqn:F; [|exact A]. apply find_in in F. apply update_sized; [exact A|]. unfold all_sized in A. rewrite Forall_forall in A. apply (A i). apply F.
  Qed.
  Lemma run_sized ops : forall s, all_sized s -> all_sized (fst (run s ops)).
  Proof. induction ops as [|o ops IH]; intros s A; [exact A|]. rewrite run_cons. cbn [fst]. apply IH. now apply step_sized. Qed.
  Theorem sizes last owner sp ops i : In i (mo_items (fst (run (mo_init last owner sp) ops))) -> 1 <= it_size i <= 1024 /\ (rq_attr (it_item i) = 12 -> it_size i = 1024).
  Proof.
    intros I. assert (A : all_sized (fst (run (mo_init last owner sp) ops))) by (apply run_sized; constructor). unfold all_sized in A. rewrite Forall_forall in A. destruct (A i I) as (B & E & F). split; [exact B|]. intros H. apply F. rewrite E, H. reflexivity.
  Qed.

  (** * C90 *)
  Definition agrees (L : links) (s : mon) : Prop :=
    forall t j, In t (mo_items s) -> In j (mo_items s) -> (In (it_id j) (it_links t) <-> L (it_id t) (it_id j) = true).
  Definition linked (L : links) (s : mon) : Prop :=
    wf s /\ (forall t, In t (mo_items s) -> NoDup (it_links t) /\ Forall (fun j => j <= mo_last s) (it_links t)) /\
    (forall x y, L x y = true -> x <= mo_last s /\ y <= mo_last s) /\ agrees L s.
  Lemma linked_update L L' s x l' : linked L s -> In x (mo_items s) -> NoDup l' -> Forall (fun j => j <= mo_last s) l' ->
    (forall a b, L' a b = true -> a <= mo_last s /\ b <= mo_last s) -> (forall a b, a <> it_id x -> L' a b = L a b) ->
    (forall j, In j (mo_items s) -> (In (it_id j) l' <-> L' (it_id x) (it_id j) = true)) -> linked L' (with_items s (update (set_links x l') (mo_items s))).
  Proof.
    intros (W & D & B & A) I ND F B' O R. assert (J : forall j, In j (update (set_links x l') (mo_items s)) -> exists i, In i (mo_items s) /\ it_id j = it_id i /\ ((it_id i = it_id x /\ it_links j = l') \/ (it_id i <> it_id x /\ j = i))).
    { intros j Hj. apply update_in in Hj. cbn [it_id set_links] in Hj. destruct Hj as [[-> _]|[Hj N]]; [exists x; auto|exists j; auto]. }
    split; [apply (wf_ids s); [exact W|repeat split|apply update_ids]|]. cbn [with_items mo_items mo_last]. split; [|split; [exact B'|]].
    - intros t Ht. destruct (J t Ht) as (i & Hi & _ & [[_ ->]|[_ ->]]); [now split|now apply D].
    - intros t j Ht Hj. destruct (J t Ht) as (t0 & Ht0 & Et & K). destruct (J j Hj) as (j0 & Hj0 & Ej & _). rewrite Et, Ej. destruct K as [[E ->]|[E ->]].
      + rewrite E. now apply R.
      + rewrite O by exact E. now apply A.
  Qed.
  Lemma find_live s id x : wf s -> find_item id (mo_items s) = Some x -> In x (mo_items s) /\ it_id x = id /\ id <= mo_last s.
  Proof. intros (_ & _ & F) H. apply find_in in H. destruct H as [H1 H2]. rewrite Forall_forall in F. specialize (F x H1). split; [exact H1|]. split; [exact H2|]. lia. Qed.
  Lemma set_link_same L t j b : set_link L t j b t j = b.
  Proof. unfold set_link. now rewrite !Z.eqb_refl. Qed.
  Lemma set_link_row L t j b a c : a <> t -> set_link L t j b a c = L a c.
  Proof. intros H. unfold set_link. now replace (a =? t) with false by lia. Qed.
  Lemma set_link_other L t j b c : c <> j -> set_link L t j b t c = L t c.
  Proof. intros H. unfold set_link. replace (c =? j) with false by lia. now rewrite andb_false_r. Qed.
  Lemma link_linked L t s id : linked L s -> (snd (link_one t s id) = 0 -> L t id = false) ->
    linked (if snd (link_one t s id) =? 0 then set_link L t id true else L) (fst (link_one t s id)).
  Proof.
    intros K. unfold link_one. destruct (find_item t _) as [x|] eqn:F; [|intros _; exact K]. destruct (find_item id _) as [y|] eqn:G; [|intros _; exact K]. cbn [fst snd]. intros N. specialize (N eq_refl). change (0 =? 0) with true. cbv iota.
    pose proof K as (W & D & B & A). destruct (find_live s t x W F) as (Ix & Ex & Lx). destruct (find_live s id y W G) as (Iy & Ey & Ly). destruct (D x Ix) as [D1 D2].
    assert (NI : ~ In id (it_links x)). { rewrite <- Ey. intros H. apply (A x y Ix Iy) in H. congruence. }
    apply (linked_update L); auto.
    - apply Permutation_NoDup with (l := id :: it_links x); [apply Permutation_cons_append|]. now constructor.
    - apply Forall_app. split; [exact D2|]. constructor; [exact Ly|constructor].
    - intros a b. unfold set_link. destruct ((a =? t) && (b =? id)) eqn:E; [|apply B]. intros _. lia.
    - intros a b H. apply set_link_row. congruence.
    - intros j Ij. rewrite in_app_iff, Ex. destruct (Z.eq_dec (it_id j) id) as [E|E].
      + rewrite E, set_link_same. split; [reflexivity|]. intros _. right. now left.
      + rewrite set_link_other by exact E. rewrite <- Ex, <- (A x j Ix Ij). split; [intros [H|[H|[]]]; [exact H|congruence]|auto].
  Qed.
  Lemma unlink_linked L t s id : linked L s ->
    linked (if snd (unlink_one t s id) =? 0 then set_link L t id false else L) (fst (unlink_one t s id)).
  Proof.
    intros K. unfold unlink_one. destruct (find_item t _) as [x|] eqn:F; [|exact K]. destruct (find_item id _) as [y|] eqn:G; [|exact K]. destruct (remove_link id (it_links x)) as [l'|] eqn:R; [|exact K]. cbn [fst snd]. change (0 =? 0) with true. cbv iota.
    pose proof K as (W & D & B & A). destruct (find_live s t x W F) as (Ix & Ex & Lx). destruct (find_live s id y W G) as (Iy & Ey & Ly). destruct (D x Ix) as [D1 D2]. apply remove_link_some in R.
    pose proof (Permutation_NoDup R D1) as ND. inversion ND as [|? ? ND1 ND2]; subst.
    apply (linked_update L); auto.
    - rewrite Forall_forall in *. intros j J. apply D2. rewrite R. now right.
    - intros a b. unfold set_link. destruct (_ && _) eqn:E; [discriminate|apply B].
    - intros a b H. apply set_link_row. congruence.
    - intros j Ij. destruct (Z.eq_dec (it_id j) (it_id y)) as [E|E].
      + rewrite E, set_link_same. split; [contradiction|discriminate].
      + rewrite set_link_other by exact E. rewrite <- (A x j Ix Ij). split; intros H; [rewrite R; now right|]. rewrite R in H. destruct H as [H|H]; [congruence|exact H].
  Qed.
  Lemma each_unlink_linked t ids : forall L s, linked L s -> linked (told_links false t ids (snd (each (unlink_one t) s ids)) L) (fst (each (unlink_one t) s ids)).
  Proof. induction ids as [|id ids IH]; intros L s K; [exact K|]. rewrite each_cons. cbn [fst snd told_links]. apply IH. now apply unlink_linked. Qed.
  Lemma each_link_linked t ids : forall L s, linked L s -> adds_new t ids (snd (each (link_one t) s ids)) L -> linked (told_links true t ids (snd (each (link_one t) s ids)) L) (fst (each (link_one t) s ids)).
  Proof. induction ids as [|id ids IH]; intros L s K N; [exact K|]. rewrite each_cons in *. cbn [fst snd told_links adds_new] in *. destruct N as [N1 N2]. apply IH; [now apply link_linked|exact N2]. Qed.
  (** Steps that keep IDs and links *)
  Lemma linked_same L s s' : linked L s -> framed s s' -> (forall j, In j (mo_items s') -> exists i, In i (mo_items s) /\ it_id j = it_id i /\ it_links j = it_links i) -> wf s' -> linked L s'.
  Proof.
    intros (W & D & B & A) (E & _) J W'. split; [exact W'|]. rewrite E. split; [|split; [exact B|]].
    - intros t T. destruct (J t T) as (i & I & _ & ->). now apply D.
    - intros t j T Ij. destruct (J t T) as (t0 & T0 & E1 & E2). destruct (J j Ij) as (j0 & J0 & F1 & _). rewrite E1, E2, F1. now apply A.
  Qed.
  Definition keeps (s s' : mon) : Prop := forall j, In j (mo_items s') -> exists i, In i (mo_items s) /\ it_id j = it_id i /\ it_links j = it_links i.
  Lemma keeps_refl s : keeps s s. Proof. intros j I. exists j. auto. Qed.
  Lemma keeps_trans a b c : keeps a b -> keeps b c -> keeps a c.
  Proof. intros H1 H2 j I. destruct (H2 j I) as (i & Ii & A1 & A2). destruct (H1 i Ii) as (k & Ik & B1 & B2). exists k. split; [exact Ik|]. split; congruence. Qed.
  Lemma each_keeps {Q R} (f : mon -> Q -> mon * R) : (forall s q, keeps s (fst (f s q))) -> forall l s, keeps s (fst (each f s l)).
  Proof. intros H l. induction l as [|q l IH]; intros s; [apply keeps_refl|]. rewrite each_cons. cbn [fst]. eapply keeps_trans; [apply H|apply IH]. Qed.
  Lemma update_keeps s i x : In i (mo_items s) -> it_id x = it_id i -> it_links x = it_links i -> keeps s (with_items s (update x (mo_items s))).
  Proof. intros I F G j J. cbn [with_items mo_items] in J. apply update_in in J. destruct J as [[-> _]|[J _]]; [exists i; auto|exists j; auto]. Qed.
  Lemma modify_keeps s q : keeps s (fst (modify_one s q)).
  Proof.
    unfold MonService.modify_one. destruct (find_item _ _) as [i|] eqn:E; [|apply keeps_refl]. apply find_in in E. destruct E as [E _]. destruct (mo_space s _) as [n|]; [|apply keeps_refl].
    destruct (_ =? 13); [|destruct (_ =? 12)]; destruct (pr_filter _); try apply keeps_refl; try (apply (update_keeps s i); [exact E|reflexivity|reflexivity]). destruct (_ && _); [apply keeps_refl|]. apply (update_keeps s i); [exact E|reflexivity|reflexivity].
  Qed.
  Lemma mode_keeps m s id : keeps s (fst (mode_one m s id)).
  Proof. unfold mode_one. destruct (find_item _ _) as [i|] eqn:E; [|apply keeps_refl]. apply find_in in E. apply (update_keeps s i); [apply E|reflexivity|reflexivity]. Qed.
  Lemma forget_spec ids : forall L x y, forget ids L x y = (if in_dec Z.eq_dec x ids then false else if in_dec Z.eq_dec y ids then false else L x y).
  Proof.
    induction ids as [|d ids IH]; intros L x y; [reflexivity|]. cbn [forget]. rewrite IH.
    destruct (in_dec Z.eq_dec x ids) as [H|H], (in_dec Z.eq_dec x (d :: ids)) as [G|G]; try reflexivity; try (elim G; now right).
    - destruct G as [G|G]; [|contradiction]. subst d. rewrite Z.eqb_refl. cbn [orb]. now destruct (in_dec _ _ _).
    - replace (x =? d) with false by (symmetry; apply Z.eqb_neq; intros ->; apply G; now left). cbn [orb].
      destruct (in_dec Z.eq_dec y ids) as [H'|H'], (in_dec Z.eq_dec y (d :: ids)) as [G'|G']; try reflexivity; try (elim G'; now right).
      + destruct G' as [G'|G']; [|contradiction]. subst d. now rewrite Z.eqb_refl.
      + replace (y =? d) with false by (symmetry; apply Z.eqb_neq; intros ->; apply G'; now left). reflexivity.
  Qed.
  Lemma delete_linked L s ids : linked L s -> linked (forget ids L) (fst (each delete_one s ids)).
  Proof.
    intros (W & D & B & A). pose proof (each_inv delete_one wf delete_wf ids s W) as W'. pose proof (each_framed _ delete_framed ids s) as (E & _).
    assert (J : forall i, In i (mo_items (fst (each delete_one s ids))) -> In i (mo_items s) /\ ~ In (it_id i) ids).
    { intros i. rewrite each_delete, filter_In, negb_true_iff, <- not_true_iff_false, existsb_exists. intros [H1 H2]. split; [exact H1|]. intros H. apply H2. exists (it_id i). split; [exact H|apply Z.eqb_refl]. }
    split; [exact W'|]. rewrite E. split; [|split].
    - intros t T. apply D. now apply J.
    - intros x y H. apply B. rewrite forget_spec in H. destruct (in_dec _ _ _); [discriminate|]. destruct (in_dec _ _ _); [discriminate|exact H].
    - intros t j T Ij. destruct (J t T) as [T1 T2], (J j Ij) as [J1 J2]. rewrite forget_spec. destruct (in_dec _ (it_id t) _); [contradiction|]. destruct (in_dec _ (it_id j) _); [contradiction|]. now apply A.
  Qed.
  Lemma create_linked L roles stamps s q : linked L s -> mo_last s + 1 < 2 ^ 32 -> linked L (fst (create_one roles stamps s q)).
  Proof.
    intros (W & D & B & A) LT. pose proof (create_wf roles stamps s q W LT) as [W' LB]. pose proof (create_cases roles stamps s q W LT) as C. destruct (created _ _ _ _) as [i|] eqn:E; [|rewrite C; now split].
    assert (EL : it_links i = []) by (destruct (admit_item roles (mo_space s) q); [discriminate| |]; injection E as <-; reflexivity). apply created_id in E. rewrite C in *. cbn [mo_last mo_items] in *.
    assert (K : forall x, In x (mo_items s) -> it_id x <= mo_last s) by (destruct W as (_ & _ & F); rewrite Forall_forall in F; intros x X; specialize (F x X); lia).
    split; [exact W'|]. cbn [mo_last mo_items]. split; [|split].
    - intros t T. apply in_app_iff in T. destruct T as [T|[<-|[]]].
      + destruct (D t T) as [D1 D2]. split; [exact D1|]. eapply Forall_impl; [|exact D2]. cbv beta. intros; lia.
      + rewrite EL. split; constructor.
    - intros x y H. specialize (B x y H). lia.
    - intros t j T J. apply in_app_iff in T. apply in_app_iff in J. destruct T as [T|[<-|[]]].
      + destruct J as [J|[<-|[]]]; [now apply A|]. split; intros H; exfalso.
        * destruct (D t T) as [_ D2]. rewrite Forall_forall in D2. specialize (D2 _ H). lia.
        * apply B in H. lia.
      + rewrite EL. split; [intros []|]. intros H. apply B in H. lia.
  Qed.
  Lemma each_create_linked L roles stamps l : forall s, linked L s -> mo_last s + zlen l < 2 ^ 32 -> linked L (fst (each (create_one roles stamps) s l)).
  Proof.
    induction l as [|q l IH]; intros s K LT; [exact K|]. rewrite each_cons. cbn [fst]. replace (zlen (q :: l)) with (zlen l + 1) in LT by (unfold zlen; cbn [length]; lia). assert (P : 0 <= zlen l) by (unfold zlen; lia).
    apply IH; [apply create_linked; [exact K|lia]|]. pose proof (create_wf roles stamps s q (proj1 K) ltac:(lia)) as [_ LB]. lia.
  Qed.
  Lemma told_other L o a : (forall t add rem, o <> OTriggering t add rem) -> (forall ids, o <> ODelete ids) -> told L o a = L.
  Proof. intros H1 H2. destruct o; try reflexivity; [now elim (H2 ids)|now elim (H1 trigger add remove)]. Qed.
  Lemma step_linked L s o : linked L s -> mo_last s + asked o < 2 ^ 32 -> news L o (snd (step s o)) -> linked (told L o (snd (step s o))) (fst (step s o)).
  Proof.
    intros K LT N. pose proof K as (W & _). pose proof (step_wf s o W LT) as [W' _]. destruct o as [roles stamps l|stamps l|m ids|ids|t add rem|roles|id n|id|id e|id|id]; try (rewrite told_other by discriminate); cbn [mo_step asked] in *; try exact K.
    - destruct (bad_stamps _); [exact K|]. destruct (bad_count _ _); [exact K|]. pose proof (each_create_linked L roles stamps l s K LT). now destruct (each _ s l).
    - destruct (bad_stamps _); [exact K|]. destruct (bad_count _ _); [exact K|]. pose proof (each_keeps _ modify_keeps l s) as H1. pose proof (each_framed _ modify_framed l s) as H2. destruct (each _ s l) as [s' r]. cbn [fst] in *. exact (linked_same L s s' K H2 H1 W').
    - destruct (bad_count _ _); [exact K|]. pose proof (each_keeps _ (mode_keeps m) ids s) as H1. pose proof (each_framed _ (mode_framed m) ids s) as H2. destruct (each _ s ids) as [s' r]. cbn [fst] in *. exact (linked_same L s s' K H2 H1 W').
    - destruct (bad_count _ _); [exact K|]. pose proof (delete_linked L s ids K) as H. destruct (each _ s ids) as [s' r]. cbn [fst snd told] in *. exact H.
    - destruct (_ && _); [exact K|]. destruct (find_item t _); [|exact K]. pose proof (each_unlink_linked t rem L s K) as K1. destruct (each _ s rem) as [s1 r1]. cbn [fst snd] in K1.
      pose proof (each_link_linked t add _ s1 K1) as K2. destruct (each _ s1 add) as [s2 r2]. cbn [fst snd told news] in *. now apply K2.
    - destruct (find_item id _) as [i|]; [destruct (_ || _)|]; exact K.
    - destruct (find_item id _) as [t|]; [|exact K]. apply (linked_same L s); [exact K|repeat split| |exact W']. intros j J. cbn in J. apply in_map_iff in J. destruct J as (i & <- & I). exists i. split; [exact I|]. destruct (existsb _ _); auto.
    - destruct (find_item id _) as [t|] eqn:F; [|exact K]. apply find_in in F. apply (linked_same L s); [exact K|repeat split| |exact W']. apply (update_keeps s t); [apply F|reflexivity|reflexivity].
  Qed.
  Lemma run_linked ops : forall L s, linked L s -> mo_last s + all_asked ops < 2 ^ 32 -> all_news L ops (snd (run s ops)) -> linked (all_told L ops (snd (run s ops))) (fst (run s ops)).
  Proof.
    induction ops as [|o ops IH]; intros L s K LT N; [exact K|]. rewrite run_cons in *. cbn [fst snd all_told all_news all_asked] in *. destruct N as [N1 N2]. pose proof (all_asked_nonneg ops). apply IH; [apply step_linked; [exact K|lia|exact N1]| |exact N2].
    pose proof (step_wf s o (proj1 K) ltac:(lia)) as [_ B]. lia.
  Qed.
  Theorem links_exact last owner sp ops t j : 0 <= last -> last + all_asked ops < 2 ^ 32 ->
    let s := fst (run (mo_init last owner sp) ops) in
    let answers := snd (run (mo_init last owner sp) ops) in
    all_news no_links ops answers -> In t (mo_items s) -> In j (mo_items s) ->
    (In (it_id j) (it_links t) <-> all_told no_links ops answers (it_id t) (it_id j) = true).
  Proof.
    intros L0 LT s answers N T J. pose proof (all_asked_nonneg ops). assert (K : linked no_links (mo_init last owner sp)).
    { split; [apply init_wf; lia|]. split; [intros x []|]. split; [discriminate|]. intros x y []. }
    destruct (run_linked ops no_links _ K LT N) as (_ & _ & _ & A). now apply A.
  Qed.
  (** A new value of an item triggers the items linked to it and no others. *)
  Theorem triggers last owner sp ops t : 0 <= last -> last + all_asked ops < 2 ^ 32 ->
    let s := fst (run (mo_init last owner sp) ops) in
    let answers := snd (run (mo_init last owner sp) ops) in
    all_news no_links ops answers -> In t (map it_id (mo_items s)) ->
    Forall2 (fun i j => triggered_as (it_triggered i || all_told no_links ops answers t (it_id i)) i j) (mo_items s) (mo_items (fst (step s (OQueued t)))).
  Proof.
    intros L0 LT s answers N T. pose proof (all_asked_nonneg ops). destruct (run_wf ops (mo_init last owner sp)) as [W _]; [apply init_wf; lia|cbn; lia|]. fold s in W. cbn [mo_step]. destruct (find_item t (mo_items s)) as [x|] eqn:F.
    2:{ apply find_none in F. contradiction. }
    apply find_in in F. destruct F as [F1 F2]. cbn [fst with_items mo_items]. assert (G : forall i, In i (mo_items s) -> existsb (Z.eqb (it_id i)) (it_links x) = all_told no_links ops answers t (it_id i)).
    { intros i I. rewrite <- F2. pose proof (links_exact last owner sp ops x i L0 LT N F1 I) as E. fold answers in E. destruct (all_told no_links ops answers (it_id x) (it_id i)).
      - apply existsb_exists. exists (it_id i). split; [now apply E|apply Z.eqb_refl].
      - apply not_true_iff_false. intros H1. apply existsb_exists in H1. destruct H1 as (y & Y & H1). apply Z.eqb_eq in H1. subst y. apply E in Y. discriminate. }
    revert G. generalize (mo_items s). generalize (all_told no_links ops answers t). intros b l G. induction l as [|i l IH]; [constructor|]. cbn [map]. constructor; [|apply IH; intros k I; apply G; now right].
    rewrite (G i (or_introl eq_refl)). unfold triggered_as. destruct (b (it_id i)); [now rewrite orb_true_r|]. rewrite orb_false_r. now destruct i.
  Qed.

  (** * Revised parameters in the answers *)
  Lemma create_revised m p lm roles stamps s q n : min_rate = FFin m -> 0 <= m -> publishing = FFin p -> (forall n, node_min n = FFin (lm n)) ->
    rs_status (snd (create_one roles stamps s q)) = 0 -> mo_space s (rq_node (cq_item q)) = Some n ->
    revised m p lm (rq_attr (cq_item q)) n (cq_params q) (snd (create_one roles stamps s q)).
  Proof.
    intros Em Pm Ep En G N. apply create_status in G. pose proof (admit_event roles (mo_space s) q) as V.
    assert (KN : match admit_item roles (mo_space s) q with MakeData n' => n' = n /\ (rq_attr (cq_item q) = 13 -> exists v, nd_kind n = KVariable v) | _ => True end).
    { unfold MonService.admit_item. rewrite N. cbv zeta. destruct (negb (attribute_valid _ _)); [exact I|]. destruct (rq_attr _ =? 13) eqn:E13.
      - destruct (nd_kind n) as [|v| | | | | |] eqn:K; try exact I. destruct (_ =? 0); [exact I|]. destruct (_ =? 0); [exact I|]. destruct (negb _); [exact I|]. destruct (pr_filter _); try exact I; [|destruct (_ && _); [exact I|]]; (split; [reflexivity|]; intros _; eauto).
      - destruct (rq_attr _ =? 12); [destruct (nd_kind n); try exact I; destruct (_ =? 0); try exact I; destruct (negb _); try exact I; now destruct (pr_filter _)|]. destruct (negb _); [exact I|]. destruct (pr_filter _); try exact I. split; [reflexivity|]. intros H. lia. }
    unfold revised, MonService.create_one. destruct (admit_item roles (mo_space s) q) as [st|n'|n']; [discriminate| |]; rewrite V; cbn [snd rs_size rs_interval data_item event_item it_size it_interval].
    - destruct KN as [-> KV]. split; [apply size_nearest|]. intros X. apply (interval_nearest m p); auto; unfold least.
      + intros E. rewrite E. change (13 =? 13) with true. split; [auto|apply En].
      + intros E. replace (rq_attr (cq_item q) =? 13) with false by lia. reflexivity.
    - now split.
  Qed.
  Theorem created_revised m p lm roles stamps s l s' rs : min_rate = FFin m -> 0 <= m -> publishing = FFin p -> (forall n, node_min n = FFin (lm n)) ->
    step s (OCreate roles stamps l) = (s', Created rs) ->
    Forall2 (fun q r => forall n, rs_status r = 0 -> mo_space s (rq_node (cq_item q)) = Some n -> revised m p lm (rq_attr (cq_item q)) n (cq_params q) r) l rs.
  Proof.
    intros Em Pm Ep En H. cbn [mo_step] in H. destruct (bad_stamps _); [discriminate|]. destruct (bad_count _ _); [discriminate|].
    assert (G : forall l s0, mo_space s0 = mo_space s -> Forall2 (fun q r => forall n, rs_status r = 0 -> mo_space s (rq_node (cq_item q)) = Some n -> revised m p lm (rq_attr (cq_item q)) n (cq_params q) r) l (snd (each (create_one roles stamps) s0 l))).
    { clear H s' rs l. induction l as [|q l IH]; intros s0 S0; [constructor|]. rewrite each_cons. cbn [snd]. constructor.
      - intros n G N. rewrite <- S0 in N. now apply create_revised.
      - apply IH. destruct (create_same roles stamps s0 q) as [_ ->]. exact S0. }
    specialize (G l s eq_refl). destruct (each _ s l) as [s1 r1]. cbn [snd] in G. injection H as <- <-. exact G.
  Qed.
  Theorem modification_revised m p lm last owner sp ops stamps l s' rs : min_rate = FFin m -> 0 <= m -> publishing = FFin p -> (forall n, node_min n = FFin (lm n)) ->
    0 <= last -> last + all_asked ops < 2 ^ 32 -> NoDup (map fst l) ->
    let s := fst (run (mo_init last owner sp) ops) in
    step s (OModify stamps l) = (s', Modified rs) ->
    map it_id (mo_items s') = map it_id (mo_items s) /\ (forall i, In i (mo_items s) -> ~ In (it_id i) (map fst l) -> In i (mo_items s')) /\ Forall2 (modify_effect vt m p lm s s') l rs.
  Proof.
    intros Em Pm Ep En L0 L N s H. destruct (modification last owner sp ops stamps l s' rs L0 L N H) as (A & B & C). split; [exact A|]. split; [exact B|]. fold s in C. eapply forall2_imp; [|exact C]. clear C.
    intros q r [E1 E2]. split; [exact E1|]. intros i n I J S V. destruct (E2 i n I J S) as [(X & Y & j & Ij & M1 & M2 & M3 & M4)|X]; [|now right]. left. split; [exact X|]. split; [exact Y|]. split.
    - split; [exact M3|]. intros NN. rewrite M4. destruct (rq_attr (it_item i) =? 12) eqn:E12; [reflexivity|]. apply (interval_nearest m p); auto; unfold least.
      + intros E. rewrite E. change (13 =? 13) with true. split; [auto|apply En].
      + intros E. replace (rq_attr (it_item i) =? 13) with false by lia. reflexivity.
    - exists j. auto.
  Qed.
  Theorem faults_change_nothing s o s' st : step s o = (s', Fault st) -> s' = s.
  Proof.
    destruct o as [roles stamps l|stamps l|m ids|ids|t add rem|roles|id n|id|id e|id|id]; cbn [mo_step]; try discriminate;
      repeat (match goal with |- context [match ?x with _ => _ end] => destruct x end); try discriminate; intros [= <- _]; reflexivity.
  Qed.
  Theorem too_many s o k : entries o = Some k -> k = 0 \/ max_calls < k -> exists st, step s o = (s, Fault st).
  Proof.
    destruct o as [roles stamps l|stamps l|m ids|ids|t add rem|roles|id n|id|id e|id|id]; cbn [entries mo_step]; intros [= <-] H; unfold bad_count.
    1,2: destruct (bad_stamps _); [eauto|]; destruct (zlen l =? 0) eqn:E; [eauto|]; destruct (max_calls <? zlen l) eqn:F; [eauto|lia].
    all: destruct (zlen ids =? 0) eqn:E; [eauto|]; destruct (max_calls <? zlen ids) eqn:F; [eauto|lia].
  Qed.

  (** * What goes wrong *)
  Theorem events_blind s roles id e : snd (step (fst (step s (OUser roles))) (OEvent id e)) = snd (step s (OEvent id e)).
  Proof. reflexivity. Qed.
  Theorem hidden_answer roles stamps s q n : mo_space s (rq_node (cq_item q)) = Some n -> rq_range (cq_item q) = [] -> rs_status (snd (create_one roles stamps s q)) <> 0x80340000.
  Proof.
    intros N R. unfold MonService.create_one. assert (A : forall st, admit_item roles (mo_space s) q = Refused st -> st <> 0x80340000).
    { intros st. unfold MonService.admit_item. rewrite N, R. cbv zeta. change (validate_range []) with (fun _ _ : Z => 0). cbv beta. change (negb (0 =? 0)) with false. cbv iota.
      destruct (negb (attribute_valid _ _)); [intros [= <-]; discriminate|]. destruct (rq_attr _ =? 13); [|destruct (rq_attr _ =? 12)].
      - destruct (nd_kind n); try (intros [= <-]; discriminate). destruct (_ =? 0); [intros [= <-]; discriminate|]. destruct (_ =? 0); [intros [= <-]; discriminate|]. destruct (pr_filter _); try (intros [= <-]; discriminate). destruct (_ && _); (intros [= <-]; discriminate).
      - destruct (nd_kind n); try (intros [= <-]; discriminate). destruct (_ =? 0); [intros [= <-]; discriminate|]. destruct (negb _); [intros [= <-]; discriminate|]. destruct (pr_filter _); try (intros [= <-]; discriminate).
      - destruct (negb _); [intros [= <-]; discriminate|]. destruct (pr_filter _); try (intros [= <-]; discriminate). }
    destruct (admit_item roles (mo_space s) q) as [st|n'|n']; [now apply A|discriminate|discriminate].
  Qed.
  Lemma missing_answer roles stamps s q : mo_space s (rq_node (cq_item q)) = None -> rs_status (snd (create_one roles stamps s q)) = 0x80340000.
  Proof. intros N. unfold MonService.create_one, MonService.admit_item. now rewrite N. Qed.
  Theorem any_mode s m id i : find_item id (mo_items s) = Some i -> 1 <= max_calls -> exists s', step s (OMode m [id]) = (s', Statuses [0]) /\ exists j, find_item id (mo_items s') = Some j /\ it_mode j = m.
  Proof.
    intros F M. cbn [mo_step]. unfold bad_count. change (zlen [id]) with 1. change (1 =? 0) with false. cbv iota. replace (max_calls <? 1) with false by lia. cbn [each]. unfold mode_one. rewrite F. eexists. split; [reflexivity|].
    cbn [with_items mo_items]. rewrite update_find. cbn [it_id set_mode]. assert (E := find_in _ _ _ F). destruct E as [_ E]. replace (id =? it_id i) with true by lia. rewrite F. eexists. split; reflexivity.
  Qed.
  Theorem stamps_ignored s a b l : 0 <= a <= 3 -> 0 <= b <= 3 -> step s (OModify a l) = step s (OModify b l).
  Proof. intros A B. cbn [mo_step]. unfold bad_stamps. replace ((a <? 0) || (3 <? a)) with false by lia. replace ((b <? 0) || (3 <? b)) with false by lia. reflexivity. Qed.
  Theorem any_trigger_and_deadband sp roles n v node ranges trigger deadband value mode h iv sz old : sp node = Some n -> nd_kind n = KVariable v -> readable v -> user_may default roles n p_read ->
    2 <= vt (va_type v) <= 11 -> ranges = [] -> monitorable default vt roles sp (mkCreate (mkRead node 13 ranges []) mode (mkParams h iv (FData trigger deadband value) sz old)).
  Proof.
    intros N K R U T ->. exists n. split; [exact N|]. left. split; [reflexivity|]. exists v. split; [exact K|]. split; [exact R|]. split; [exact U|]. split; [now left|]. right. exists trigger, deadband, value. split; [reflexivity|now right].
  Qed.
  Theorem triggering_unlimited s t add rem : snd (step s (OTriggering t add rem)) <> Fault 0x80100000.
  Proof.
    cbn [mo_step]. destruct (_ && _); [discriminate|]. destruct (find_item t _); [|discriminate]. destruct (each _ s rem) as [s1 r1]. destruct (each _ s1 add). discriminate.
  Qed.
  Theorem self_link s t i : find_item t (mo_items s) = Some i -> snd (step s (OTriggering t [t] [])) = Linked [0] [].
  Proof. intros F. cbn [mo_step]. change ((zlen (@nil Z) =? 0) && (zlen [t] =? 0)) with false. cbv iota. rewrite F. cbn [each]. unfold link_one. rewrite F. reflexivity. Qed.
End Proofs.
