(** Proofs about type hierarchies, namespaces, browse paths and events. *)
From Coq Require Import ZArith List Bool Lia Relations.
From Coq Require Import ZifyBool ZifyNat.
From Verif Require Import Bytes BytesProofs Text IndexRange Roles Nodes NodeAccess AccessSpec TypeProofs Translate Namespaces SpaceSpec SpaceProofs.
Import ListNotations.
Ltac Zify.zify_post_hook ::= idtac.
Open Scope Z_scope.

(** * Types *)
Lemma steps_app {A} (R : A -> A -> Prop) j k a b c : steps R j a b -> steps R k b c -> steps R (j + k) a c.
Proof. intros H. induction H as [a|j a x b S H IH]; intros K; [exact K|]. cbn [Nat.add]. eapply StepsS; eauto. Qed.
Lemma steps_plus {A} (R T : A -> A -> Prop) k a b : (forall x y, R x y -> T x y) -> (1 <= k)%nat -> steps R k a b -> clos_trans_1n A T a b.
Proof.
  intros E L H. induction H as [a|k a x b S H IH]; [lia|]. destruct k; [inversion H; subst; constructor; auto|]. eapply Relation_Operators.t1n_trans; [apply E; exact S|]. apply IH. lia.
Qed.
Theorem subtype_sound sp a b : is_subtype sp a b = true -> clos_trans_1n Z (some_super sp) a b.
Proof. intros H. apply is_subtype_spec in H. destruct H as (k & K & H). apply (steps_plus (first_super sp) (some_super sp) k); [apply first_is_some|lia|exact H]. Qed.
Lemma some_first sp a b : some_super sp a b -> exists c, first_super sp a c.
Proof.
  intros (n & r & E & I & R1 & R2 & R3). destruct (super_type sp a) as [c|] eqn:S; [exists c; now apply super_type_spec|]. exfalso. unfold super_type in S. rewrite E in S.
  destruct (find is_super (nd_refs n)) eqn:F; [discriminate|]. pose proof (find_none _ _ F r I) as G. assert (is_super r = true) by (apply is_super_spec; auto). congruence.
Qed.
Definition single (sp : space) : Prop := forall a b c, some_super sp a b -> some_super sp a c -> b = c.
Lemma single_first sp a b : single sp -> some_super sp a b -> first_super sp a b.
Proof. intros U H. destruct (some_first sp a b H) as (c & C). now rewrite (U a b c H (first_is_some _ _ _ C)). Qed.
Theorem subtype_complete sp a b k : single sp -> (1 <= k <= 101)%nat -> steps (some_super sp) k a b -> is_subtype sp a b = true.
Proof.
  intros U K H. apply is_subtype_spec. exists k. split; [exact K|]. clear K. induction H as [a|k a x b S H IH]; [constructor|]. apply StepsS with x; [now apply single_first|exact IH].
Qed.
Theorem subtype_transitive sp a b c : (forall k x, steps (first_super sp) k a x -> (k <= 101)%nat) -> is_subtype sp a b = true -> is_subtype sp b c = true -> is_subtype sp a c = true.
Proof.
  intros L H1 H2. apply is_subtype_spec in H1. apply is_subtype_spec in H2. apply is_subtype_spec. destruct H1 as (j & J & H1), H2 as (k & K & H2). pose proof (steps_app _ _ _ _ _ _ H1 H2) as H. exists (j + k)%nat. split; [|exact H]. specialize (L _ _ H). lia.
Qed.
Theorem subtype_limit sp a b : (forall k, (1 <= k <= 101)%nat -> ~ steps (first_super sp) k a b) -> is_subtype sp a b = false.
Proof. intros H. destruct (is_subtype sp a b) eqn:E; [|reflexivity]. apply is_subtype_spec in E. destruct E as (k & K & E). now destruct (H k K). Qed.
(** ** Built-in types *)
Lemma builtin_spec t v : builtin t = Some v <-> (1 <= t <= 25 /\ v = t) \/ (t = 29 /\ v = 6).
Proof.
  unfold builtin. destruct ((1 <=? t) && (t <=? 25)) eqn:A; [split; [intros [= <-]; left; lia|intros [[_ ->]|[-> _]]; [reflexivity|discriminate]]|].
  destruct (t =? 29) eqn:B; split; try discriminate.
  - intros [= <-]. right. lia.
  - intros [[H _]|[_ ->]]; [lia|reflexivity].
  - intros [[H _]|[H _]]; lia.
Qed.
Lemma builtin_none t : builtin t = None <-> ~ 1 <= t <= 25 /\ t <> 29.
Proof. unfold builtin. destruct ((1 <=? t) && (t <=? 25)) eqn:A; [split; [discriminate|lia]|]. destruct (t =? 29) eqn:B; split; try discriminate; try lia. reflexivity. Qed.
Lemma variant_sound sp k : forall t v, find_variant k sp (Some t) = Some v -> built_in sp t v.
Proof.
  induction k as [|k IH]; intros t v H; cbn [find_variant] in H; [discriminate|]. destruct (builtin t) as [w|] eqn:B.
  - injection H as ->. apply builtin_spec in B. destruct B as [[B ->]|[-> ->]]; [now apply BuiltInItself|constructor].
  - apply builtin_none in B. destruct B as [B1 B2]. destruct (super_type sp t) as [u|] eqn:S.
    + apply BuiltInDerived with u; auto. now apply super_type_spec.
    + destruct k; cbn [find_variant] in H; [discriminate|]. injection H as <-. apply BuiltInNone; auto. intros u U. apply super_type_spec in U. congruence.
Qed.
Lemma variant_complete sp t v : built_in sp t v -> exists k, find_variant k sp (Some t) = Some v.
Proof.
  intros H. induction H as [t T| |t u v T1 T2 F H (k & IH)|t T1 T2 F].
  - exists 1%nat. cbn [find_variant]. now rewrite (proj2 (builtin_spec t t)) by auto.
  - exists 1%nat. reflexivity.
  - exists (S k). cbn [find_variant]. rewrite (proj2 (builtin_none t)) by auto. apply super_type_spec in F. now rewrite F.
  - exists 2%nat. cbn [find_variant]. rewrite (proj2 (builtin_none t)) by auto. destruct (super_type sp t) as [u|] eqn:E; [|reflexivity]. apply super_type_spec in E. now destruct (F u).
Qed.
Theorem variant_exact sp t v : (exists k, find_variant k sp (Some t) = Some v) <-> built_in sp t v.
Proof. split; [intros (k & H); eapply variant_sound; exact H|apply variant_complete]. Qed.
Lemma variant_more sp k : forall t v, find_variant k sp t = Some v -> forall j, (k <= j)%nat -> find_variant j sp t = Some v.
Proof.
  induction k as [|k IH]; intros t v H j L; cbn [find_variant] in H; [discriminate|]. destruct j as [|j]; [lia|]. cbn [find_variant]. destruct t as [t|]; [|exact H]. destruct (builtin t); [exact H|]. apply (IH _ _ H). lia.
Qed.
Theorem built_in_unique sp t v w : built_in sp t v -> built_in sp t w -> v = w.
Proof. intros H1 H2. apply variant_complete in H1. apply variant_complete in H2. destruct H1 as (j & H1), H2 as (k & H2). pose proof (variant_more sp j _ _ H1 (j + k)%nat ltac:(lia)) as K1. pose proof (variant_more sp k _ _ H2 (j + k)%nat ltac:(lia)) as K2. congruence. Qed.
(** On a cycle *)
Theorem variant_cycle sp (C : Z -> Prop) : (forall t, C t -> (~ 1 <= t <= 25) /\ t <> 29 /\ exists u, first_super sp t u /\ C u) -> forall t, C t -> forall k, find_variant k sp (Some t) = None.
Proof.
  intros H t Ct k. revert t Ct. induction k as [|k IH]; intros t Ct; cbn [find_variant]; [reflexivity|]. destruct (H t Ct) as (H1 & H2 & u & F & Cu). rewrite (proj2 (builtin_none t)) by auto. apply super_type_spec in F. rewrite F. now apply IH.
Qed.
(** The table of answers *)
Definition right_cache (cache : Z -> option Z) (sp : space) : Prop := forall t v, cache t = Some v -> built_in sp t v.
Theorem cached_right k cache sp t v cache' : right_cache cache sp -> cached_variant k cache sp t = Some (v, cache') -> built_in sp t v /\ right_cache cache' sp.
Proof.
  unfold cached_variant, right_cache. intros R. destruct (cache t) as [w|] eqn:E; [intros [= <- <-]; auto|]. destruct (find_variant k sp (Some t)) as [w|] eqn:F; [|discriminate]. intros [= <- <-]. apply variant_sound in F. split; [exact F|].
  intros x u. destruct (x =? t) eqn:X; [|apply R]. intros [= <-]. apply Z.eqb_eq in X. now subst x.
Qed.
Theorem cached_stale k cache sp t v : cache t = Some v -> forall sp', cached_variant k cache sp' t = Some (v, cache) /\ cached_variant k cache sp t = Some (v, cache).
Proof. intros E sp'. unfold cached_variant. rewrite E. auto. Qed.

(** * Namespaces *)
Lemma index_from_spec uri l : forall i j, index_from i uri l = Some j -> i <= j /\ nth_error l (Z.to_nat (j - i)) = Some uri.
Proof.
  induction l as [|x l IH]; intros i j H; cbn [index_from] in H; [discriminate|]. destruct (bytes_eqb x uri) eqn:E.
  - injection H as <-. apply bytes_eqb_eq in E. subst x. split; [lia|]. now replace (i - i) with 0 by lia.
  - apply IH in H. destruct H as [H1 H2]. split; [lia|]. replace (Z.to_nat (j - i)) with (S (Z.to_nat (j - (i + 1)))) by lia. exact H2.
Qed.
Lemma index_from_none uri l : forall i, index_from i uri l = None <-> ~ In uri l.
Proof.
  induction l as [|x l IH]; intros i; cbn [index_from In]; [tauto|]. destruct (bytes_eqb x uri) eqn:E.
  - apply bytes_eqb_eq in E. subst x. split; [discriminate|tauto].
  - rewrite IH. assert (x <> uri) by (intros ->; rewrite (proj2 (bytes_eqb_eq uri uri) eq_refl) in E; discriminate). tauto.
Qed.
Theorem add_uri_table table uri t' i : add_uri table uri = (t', i) ->
  (In uri table /\ t' = table) \/ (~ In uri table /\ t' = table ++ [uri]).
Proof.
  unfold add_uri. destruct (index_from 0 uri table) as [j|] eqn:E; intros [= <- <-].
  - left. apply index_from_spec in E. destruct E as [_ E]. split; [eapply nth_error_In; exact E|reflexivity].
  - right. apply index_from_none in E. auto.
Qed.
Theorem add_uri_index table uri t' i : add_uri table uri = (t', i) -> zlen t' <= 65536 -> index_of t' i uri.
Proof.
  unfold add_uri, index_of, uint16, zlen. destruct (index_from 0 uri table) as [j|] eqn:E; intros [= <- <-] L.
  - apply index_from_spec in E. destruct E as [E1 E2]. rewrite Z.sub_0_r in E2. assert (j < Z.of_nat (length table)) by (assert (H := proj1 (nth_error_Some table (Z.to_nat j))); rewrite E2 in H; specialize (H ltac:(discriminate)); lia).
    rewrite Z.mod_small by lia. auto.
  - rewrite app_length in L. cbn [length] in L. rewrite Z.mod_small by lia. split; [lia|]. rewrite Nat2Z.id, nth_error_app2 by lia. now rewrite Nat.sub_diag.
Qed.
Theorem add_uri_keeps table uri t' i j u : add_uri table uri = (t', i) -> index_of table j u -> index_of t' j u.
Proof.
  intros H [J I]. split; [exact J|]. apply add_uri_table in H. destruct H as [[_ ->]|[_ ->]]; [exact I|]. rewrite nth_error_app1; [exact I|]. apply nth_error_Some. congruence.
Qed.
Theorem add_uri_unique table uri t' i : add_uri table uri = (t', i) -> NoDup table -> NoDup t'.
Proof.
  intros H N. apply add_uri_table in H. destruct H as [[_ ->]|[F ->]]; [exact N|]. apply nodup_app_intro; [exact N|repeat constructor; intros []|]. intros x X [<-|[]]. contradiction.
Qed.
Theorem add_uri_again table uri t' i : add_uri table uri = (t', i) -> zlen t' <= 65536 -> NoDup table -> add_uri t' uri = (t', i).
Proof.
  intros H L N. destruct (add_uri t' uri) as [t'' i'] eqn:E. assert (In uri t') by (destruct (add_uri_index _ _ _ _ H L) as [_ K]; eapply nth_error_In; exact K).
  destruct (add_uri_table _ _ _ _ E) as [[_ ->]|[F _]]; [|contradiction]. f_equal. pose proof (add_uri_index _ _ _ _ H L) as [A1 A2]. pose proof (add_uri_index _ _ _ _ E L) as [B1 B2].
  pose proof (add_uri_unique _ _ _ _ H N) as D. rewrite NoDup_nth_error in D. assert (Z.to_nat i' = Z.to_nat i) by (apply D; [apply nth_error_Some; congruence|congruence]). lia.
Qed.
(** Many additions *)
Definition add_uris (table : list bytes) (l : list bytes) : list bytes := fold_left (fun t u => fst (add_uri t u)) l table.
Theorem add_uris_stable l : forall table, (NoDup table -> NoDup (add_uris table l)) /\ (forall j u, index_of table j u -> index_of (add_uris table l) j u) /\ (forall u, In u (add_uris table l) <-> In u table \/ In u l).
Proof.
  unfold add_uris. induction l as [|x l IH]; intros table; cbn [fold_left In]; [tauto|]. destruct (add_uri table x) as [t' i] eqn:E. cbn [fst]. destruct (IH t') as (H1 & H2 & H3). split; [|split].
  - intros N. apply H1. eapply add_uri_unique; eassumption.
  - intros j u I. apply H2. eapply add_uri_keeps; eassumption.
  - intros u. rewrite H3. destruct (add_uri_table _ _ _ _ E) as [[I ->]|[I ->]]; [intuition congruence|]. rewrite in_app_iff. cbn [In]. tauto.
Qed.
Theorem new_table_unique app : NoDup (new_table app) <-> app <> standard_namespace.
Proof.
  unfold new_table, ua_uri, standard_namespace. split.
  - intros H ->. inversion H as [|x l N _]. apply N. now left.
  - intros H. repeat constructor; [|intros []]. intros [E|[]]. contradiction.
Qed.
Theorem add_uri_wraps table uri : zlen table = 65536 -> ~ In uri table -> add_uri table uri = (table ++ [uri], 0).
Proof. intros L N. unfold add_uri. rewrite (proj2 (index_from_none uri table 0) N). now rewrite L. Qed.

(** * Browse paths *)
Lemma matching_spec sp e r : matching sp e r = true <-> on_path sp e r.
Proof.
  unfold matching, on_path. rewrite !andb_true_iff, eqb_true_iff. split.
  - intros [[H1 H2] H3]. split; [exact H1|]. split.
    + destruct (el_type e) as [t|]; [|exact I]. apply orb_true_iff in H2. destruct H2 as [H2|H2]; [left; lia|]. apply andb_true_iff in H2. destruct H2 as [H2 H4]. apply is_subtype_spec in H4. auto.
    + destruct (sp (rf_target r)) as [n|]; [|discriminate]. exists n. split; [reflexivity|lia].
  - intros (H1 & H2 & n & H3 & H4). split; [split; [exact H1|]|rewrite H3; lia]. destruct (el_type e) as [t|]; [|reflexivity]. apply orb_true_iff. destruct H2 as [H2|[H2 H5]]; [left; lia|right]. apply is_subtype_spec in H5. now rewrite H2, H5.
Qed.
Lemma target_spec sp a e l : target sp a e = inl l <-> l <> [] /\ exists n rs, sp a = Some n /\ picks (on_path sp e) (nd_refs n) rs /\ l = map rf_target rs.
Proof.
  unfold target. destruct (sp a) as [n|]; [|split; [discriminate|intros (_ & m & _ & E & _); discriminate]].
  assert (P : picks (on_path sp e) (nd_refs n) (filter (matching sp e) (nd_refs n))) by (apply picks_filter; apply matching_spec). split.
  - destruct (map rf_target _) eqn:M; [discriminate|]. intros [= <-]. split; [discriminate|]. eauto.
  - intros (N & m & rs & [= <-] & K & ->). assert (rs = filter (matching sp e) (nd_refs n)) as ->; [|destruct (map rf_target _); [contradiction|reflexivity]].
    clear N. revert P. generalize (filter (matching sp e) (nd_refs n)). induction K as [|x l o X K IH|x l o X K IH]; intros f P; inversion P; subst; try contradiction; try reflexivity; [f_equal|]; now apply IH.
Qed.
Lemma target_in sp a e l b : target sp a e = inl l -> In b l <-> leads sp a e b.
Proof.
  intros H. apply target_spec in H. destruct H as (_ & n & rs & E & P & ->). rewrite in_map_iff. unfold leads. split.
  - intros (r & <- & I). apply (picks_in _ _ _ _ P) in I. destruct I. exists n, r. auto.
  - intros (m & r & Em & I & O & <-). rewrite E in Em. injection Em as <-. exists r. split; [reflexivity|]. apply (picks_in _ _ _ _ P). auto.
Qed.
Lemma target_bad sp a e st : target sp a e = inr st -> (forall b, ~ leads sp a e b) /\ ((sp a = None /\ st = 0x80340000) \/ (sp a <> None /\ st = 0x806F0000)).
Proof.
  unfold target, BadNodeIDUnknown, BadNoMatch. intros H. split.
  - intros b (n & r & E & I & O & _). rewrite E in H. destruct (filter (matching sp e) (nd_refs n)) as [|x l] eqn:F; [|discriminate]. assert (K : In r (filter (matching sp e) (nd_refs n))) by (apply filter_In; split; [exact I|now apply matching_spec]). rewrite F in K. destruct K.
  - destruct (sp a) as [n|]; [right|left; now injection H as <-]. split; [discriminate|]. destruct (map rf_target _); [now injection H as <-|discriminate].
Qed.
(** What [follow] returns *)
Inductive found (sp : space) : Z -> list element -> list (Z * Z) -> Prop :=
| FoundLast a e l : target sp a e = inl l -> found sp a [e] (map (fun t => (t, 4294967295)) l)
| FoundMore a e els c l out : els <> [] -> target sp a e = inl (c :: l) -> found sp c els out -> found sp a (e :: els) out.
Lemma follow_found sp els : forall a out, follow sp a els = inl out -> found sp a els out.
Proof.
  induction els as [|e els IH]; intros a out H; cbn [follow] in H; [discriminate|]. destruct (target sp a e) as [l|st] eqn:T; [|discriminate]. destruct els as [|e' els].
  - injection H as <-. now constructor.
  - assert (N := proj1 (proj1 (target_spec _ _ _ _) T)). destruct l as [|c l]; [contradiction|]. cbn [hd] in H.
    assert (In c (c :: l)) as I by now left. apply (target_in _ _ _ _ _ T) in I. destruct I as (n & r & _ & _ & (_ & _ & m & Em & _) & <-). rewrite Em in H. eapply FoundMore; [discriminate|exact T|]. now apply IH.
Qed.
Lemma found_sound sp a els out : found sp a els out -> forall b i, In (b, i) out -> reached sp a els b /\ i = 4294967295.
Proof.
  intros H. induction H as [a e l T|a e els c l out N T H IH]; intros b i I.
  - apply in_map_iff in I. destruct I as (t & [= <- <-] & I). split; [|reflexivity]. constructor. now apply (target_in _ _ _ _ _ T).
  - destruct (IH b i I) as [R ->]. split; [|reflexivity]. apply ReachedMore with c; auto. apply (target_in _ _ _ _ _ T). now left.
Qed.
Lemma reached_not_nil sp a els b : reached sp a els b -> els <> [].
Proof. intros [x e y|x e c l y]; discriminate. Qed.
Lemma found_complete sp a els out : found sp a els out -> unambiguous sp a els -> forall b, reached sp a els b -> In (b, 4294967295) out.
Proof.
  intros H. induction H as [a e l T|a e els c l out N T H IH]; intros U b R.
  - inversion R as [x e' y L|x e' c' els' y N' L R']; subst; [|contradiction]. apply in_map_iff. exists b. split; [reflexivity|]. now apply (target_in _ _ _ _ _ T).
  - inversion R as [x e' y L|x e' c' els' y N' L R']; subst; [contradiction|]. inversion U as [|x e' els' U1 U2]; subst; [contradiction|].
    assert (Lc : leads sp a e c) by (apply (target_in _ _ _ _ _ T); now left). rewrite (U1 c' c L Lc) in R'. apply IH; auto.
Qed.
Lemma follow_bad sp els : els <> [] -> forall a st, follow sp a els = inr st -> (sp a = None /\ st = 0x80340000) \/ (sp a <> None /\ st = 0x806F0000 /\ (unambiguous sp a els -> forall b, ~ reached sp a els b)).
Proof.
  induction els as [|e els IH]; intros N a st H; [contradiction|]. cbn [follow] in H. destruct (target sp a e) as [l|st'] eqn:T.
  - destruct els as [|e' els]; [discriminate|]. assert (Nl := proj1 (proj1 (target_spec _ _ _ _) T)). destruct l as [|c l]; [contradiction|]. cbn [hd] in H.
    assert (Lc : leads sp a e c) by (apply (target_in _ _ _ _ _ T); now left). assert (Lc' := Lc). destruct Lc' as (n & r & En & _ & (_ & _ & m & Em & _) & Er). rewrite Er in Em. clear Er. rewrite Em in H.
    destruct (IH ltac:(discriminate) c st H) as [[E _]|(_ & -> & K)]; [congruence|]. right. split; [congruence|]. split; [reflexivity|]. intros U b R. inversion U as [|x e2 els2 U1 U2]; subst. inversion R as [|x e3 c' els3 y N' L R']; subst.
    rewrite (U1 c' c L Lc) in R'. exact (K (U2 c Lc) b R').
  - injection H as ->. destruct (target_bad _ _ _ _ T) as [K [K'|[K1 K2]]]; [now left|]. right. split; [exact K1|]. split; [exact K2|]. intros _ b R. inversion R as [x e' y L|x e' c els' y N' L R']; subst; eapply K; exact L.
Qed.
Lemma found_not_nil sp a els out : found sp a els out -> out <> [].
Proof. intros H. induction H as [a e l T|a e els c l out N T H IH]; [|exact IH]. apply target_spec in T. destruct T as [T _]. destruct l; [contradiction|discriminate]. Qed.
Theorem translate_sound unnamed sp a els st out : translate unnamed sp a els = (st, out) -> forall b i, In (b, i) out -> st = 0 /\ reached sp a els b /\ i = 4294967295.
Proof.
  unfold translate. destruct els as [|e els]; [intros [= <- <-] b i []|]. destruct (existsb _ _); [intros [= <- <-] b i []|]. destruct (follow sp a (e :: els)) as [[|x l]|st'] eqn:F; intros [= <- <-] b i I; try destruct I; (split; [reflexivity|]; apply follow_found in F; apply (found_sound _ _ _ _ F); cbn; auto).
Qed.
Theorem translate_complete unnamed sp a els st out : translate unnamed sp a els = (st, out) -> unambiguous sp a els -> (forall e, In e els -> unnamed (el_name e) = false) ->
  forall b, (exists i, In (b, i) out) <-> reached sp a els b.
Proof.
  intros H U Nm b. split; [intros (i & I); now destruct (translate_sound _ _ _ _ _ _ H b i I) as (_ & R & _)|]. intros R. exists 4294967295. unfold translate in H. destruct els as [|e els]; [now destruct (reached_not_nil _ _ _ _ R)|].
  replace (existsb (fun e0 => unnamed (el_name e0)) (e :: els)) with false in H by (symmetry; apply not_true_is_false; intros X; apply existsb_exists in X; destruct X as (e0 & I0 & X); rewrite (Nm e0 I0) in X; discriminate).
  destruct (follow sp a (e :: els)) as [l|st'] eqn:F.
  - pose proof (found_complete _ _ _ _ (follow_found _ _ _ _ F) U b R) as I. destruct l as [|x l]; [destruct I|]. injection H as <- <-. exact I.
  - exfalso. destruct (follow_bad sp (e :: els) ltac:(discriminate) a st' F) as [[E _]|(_ & _ & K)]; [|exact (K U b R)]. inversion R as [x e' y L|x e' c els' y N' L R']; subst; destruct L as (n & _ & En & _); congruence.
Qed.
Theorem translate_status unnamed sp a els st out : translate unnamed sp a els = (st, out) ->
  (els = [] /\ st = 0x800F0000 /\ out = []) \/
  (els <> [] /\ (exists e, In e els /\ unnamed (el_name e) = true) /\ st = 0x80600000 /\ out = []) \/
  (els <> [] /\ (forall e, In e els -> unnamed (el_name e) = false) /\
   ((sp a = None /\ st = 0x80340000 /\ out = []) \/ (sp a <> None /\ st = 0x806F0000 /\ out = [] /\ (unambiguous sp a els -> forall b, ~ reached sp a els b)) \/ (sp a <> None /\ st = 0 /\ out <> []))).
Proof.
  unfold translate, BadNothingToDo, BadBrowseNameInvalid, BadNoMatch. destruct els as [|e els]; [intros [= <- <-]; auto|]. destruct (existsb _ _) eqn:X.
  - intros [= <- <-]. right. left. split; [discriminate|]. apply existsb_exists in X. auto.
  - intros H. right. right. split; [discriminate|]. split; [intros e0 I0; destruct (unnamed (el_name e0)) eqn:Y; [|reflexivity]; rewrite <- X; symmetry; apply existsb_exists; eauto|].
    destruct (follow sp a (e :: els)) as [[|x l]|st'] eqn:F; injection H as <- <-.
    + exfalso. apply follow_found in F. now apply found_not_nil in F.
    + right. right. split; [|split; [reflexivity|discriminate]]. cbn [follow] in F. unfold target in F. destruct (sp a); congruence.
    + destruct (follow_bad sp (e :: els) ltac:(discriminate) a st' F) as [[E ->]|(E & -> & K)]; [left; auto|right; left; auto].
Qed.

(** * Events *)
Lemma notifier_spec n b : notifier_of n = Some b <-> first_notifier n b.
Proof.
  unfold notifier_of. split.
  - destruct (find _ _) as [r|] eqn:F; [|discriminate]. intros [= <-]. apply find_first in F. destruct F as (l1 & l2 & F1 & F2 & F3). unfold has_notifier in *. apply andb_true_iff in F2. econstructor; [exact F1| | | |]; try tauto; try lia.
    intros x I [X1 X2]. specialize (F3 x I). cbv beta in F3. rewrite X1, X2 in F3. discriminate.
  - intros [l1 l2 r L I T G N]. rewrite (proj2 (find_first _ (nd_refs n) r)); [now rewrite G|]. exists l1, l2. split; [exact L|]. unfold has_notifier. split; [now rewrite I, T|].
    intros y Y. destruct (rf_inverse y) eqn:Y1; [|reflexivity]. cbn [andb]. apply Z.eqb_neq. intros Y2. now apply (N y Y).
Qed.
Lemma notifier_none n : notifier_of n = None -> forall b, ~ first_notifier n b.
Proof. intros E b H. apply notifier_spec in H. congruence. Qed.
Lemma event_sound k sp : forall a n l st, on_event k sp a n = Some (l, st) -> raised sp a n l st.
Proof.
  induction k as [|k IH]; intros a n l st H; cbn [on_event] in H; [discriminate|]. unfold server_id, BadNodeIDUnknown in H. destruct (a =? 2253) eqn:A; [apply Z.eqb_eq in A; subst a; injection H as <- <-; constructor|]. apply Z.eqb_neq in A.
  destruct (notifier_of n) as [t|] eqn:N; [|injection H as <- <-; apply RaisedTop; [exact A|now apply notifier_none]]. apply notifier_spec in N.
  destruct (sp t) as [m|] eqn:T; [|injection H as <- <-; apply (RaisedLost sp a n t); auto; intros m [E _]; congruence].
  destruct (nd_kind m) eqn:K; try (injection H as <- <-; apply (RaisedLost sp a n t); auto; intros m' [E E']; congruence).
  destruct (on_event k sp t m) as [[l' st']|] eqn:O; [|discriminate]. injection H as <- <-. apply (RaisedUp sp a n t m); auto. now split.
Qed.
Lemma event_complete sp a n l st : raised sp a n l st -> exists k, on_event k sp a n = Some (l, st).
Proof.
  intros H. induction H as [n|a n A N|a n b A N O|a n b m l st A N [O1 O2] H (k & IH)].
  - exists 1%nat. reflexivity.
  - exists 1%nat. cbn [on_event]. unfold server_id. rewrite (proj2 (Z.eqb_neq _ _) A). destruct (notifier_of n) as [b|] eqn:E; [apply notifier_spec in E; now destruct (N b)|reflexivity].
  - exists 1%nat. cbn [on_event]. unfold server_id. rewrite (proj2 (Z.eqb_neq _ _) A). apply notifier_spec in N. rewrite N. destruct (sp b) as [m|] eqn:E; [|reflexivity]. destruct (nd_kind m) eqn:K; try reflexivity. now destruct (O m).
  - exists (S k). cbn [on_event]. unfold server_id. rewrite (proj2 (Z.eqb_neq _ _) A). apply notifier_spec in N. rewrite N, O1, O2, IH. reflexivity.
Qed.
Theorem event_exact sp a n l st : (exists k, on_event k sp a n = Some (l, st)) <-> raised sp a n l st.
Proof. split; [intros (k & H); eapply event_sound; exact H|apply event_complete]. Qed.
Lemma first_notifier_ref sp a n b : sp a = Some n -> first_notifier n b -> has_ref sp a 48 true b.
Proof. intros E [l1 l2 r L I T G N]. exists n. split; [exact E|]. rewrite L. apply in_or_app. right. left. destruct r. cbn in *. now subst. Qed.
(** Nobody else hears of it *)
Theorem event_only k sp a n l st : object sp a n -> on_event k sp a n = Some (l, st) -> forall x, In x l -> notified sp a x.
Proof.
  intros O H. apply event_sound in H.
  assert (X : forall b m l st, raised sp b m l st -> object sp b m -> notified sp a b -> forall x, In x l -> notified sp a x).
  { clear. intros b m l st H. induction H as [n|b n A N|b n c A N Lo|b n c m l st A N O' H IH]; intros O Nb x I.
    - destruct I as [<-|[]]; exact Nb.
    - destruct I as [<-|[]]; exact Nb.
    - destruct I as [<-|[]]; exact Nb.
    - destruct I as [<-|I]; [exact Nb|]. apply (IH O'); [|exact I]. apply NotifiedUp with b; auto. split; [|exists m; exact O']. destruct O as [O _]. eapply first_notifier_ref; eassumption. }
  apply (X a n l st H O). constructor.
Qed.
(** Everybody does if there is one way *)
Theorem event_all k sp a n l : object sp a n -> on_event k sp a n = Some (l, 0) ->
  (forall x b c, has_ref sp x 48 true b -> has_ref sp x 48 true c -> b = c) -> forall x, notified sp a x -> In x l.
Proof.
  intros O H U. apply event_sound in H.
  assert (X : forall l st, raised sp a n l st -> st = 0 -> object sp a n -> In a l /\ forall b c, In b l -> b <> 2253 -> notifies sp b c -> In c l).
  { intros l' st R. clear H O. induction R as [m|b m A N|b m c A N Lo|b m c m' l' st A N O' R IH]; intros S0 O; subst; try discriminate.
    - split; [now left|]. intros b c [<-|[]] Nb _. congruence.
    - split; [now left|]. intros b' c [<-|[]] _ [(m' & Em & I) _]. exfalso. destruct O as [O _]. rewrite O in Em. injection Em as <-. destruct (notifier_of m) as [t|] eqn:E; [apply notifier_spec in E; exact (N t E)|].
      unfold notifier_of in E. destruct (find _ (nd_refs m)) eqn:F; [discriminate|]. pose proof (find_none _ _ F _ I) as G. discriminate G.
    - destruct (IH eq_refl O') as [I1 I2]. split; [now left|]. intros b' x [<-|I] Nb X; [|right; now apply (I2 b')]. right. destruct X as [X _]. assert (x = c) as -> by (apply (U b); [exact X|]; destruct O as [O _]; eapply first_notifier_ref; eassumption). exact I1. }
  destruct (X l 0 H eq_refl O) as [I1 I2]. intros x Nx. induction Nx as [|b c Nb IH Nn C]; [exact I1|]. now apply (I2 b).
Qed.
(** On a cycle it is raised forever *)
Theorem event_cycle sp (C : Z -> Prop) : (forall a, C a -> a <> 2253 /\ exists n b, object sp a n /\ first_notifier n b /\ C b) -> forall a n, C a -> object sp a n -> forall k, on_event k sp a n = None.
Proof.
  intros H a n Ca O k. revert a n Ca O. induction k as [|k IH]; intros a n Ca O; cbn [on_event]; [reflexivity|]. destruct (H a Ca) as (A & n' & b & [O1 O2] & F & Cb). destruct O as [E1 E2]. assert (n' = n) as -> by congruence.
  unfold server_id. rewrite (proj2 (Z.eqb_neq _ _) A). apply notifier_spec in F. rewrite F. destruct (H b Cb) as (_ & m & _ & [M1 M2] & _). rewrite M1, M2, (IH b m Cb); [reflexivity|now split].
Qed.
