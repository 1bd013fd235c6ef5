(** Examples and counterexamples beside the theorems of SpaceProperties.v. *)
From Coq Require Import ZArith List Bool Lia Relations Strings.Byte.
From Verif Require Import Bytes Text IndexRange Roles RolesSpec Nodes NodeAccess AccessSpec TypeProofs AccessProofs Translate Namespaces SpaceSpec SpaceProofs PathProofs.
Import ListNotations.
Open Scope Z_scope.

Definition s_node (name : Z) (k : kind) (refs : list reference) : node := mkNode k None refs name (fun a => GScalar 7 a).
Ltac cases := repeat match goal with H : _ \/ _ |- _ => destruct H as [H|H] | H : False |- _ => destruct H | H : (_, _) = (_, _) |- _ => injection H as <- <- | H : mkRef _ _ _ = mkRef _ _ _ |- _ => injection H as <- <- <- end.
(** * Adding and deleting *)
(** A type (1), an object (2) with a component (3) that has one itself (4) *)
Definition s_batch : list (Z * node) :=
  [(1, s_node 1 KObjectType []); (2, s_node 2 KObject [mkRef 47 false 3; mkRef 40 false 1]); (3, s_node 3 KObject [mkRef 47 false 4]); (4, s_node 4 KObject [])].
Definition s_space : space := add_nodes nothing s_batch.
Lemma s_complete : complete_batch nothing s_batch.
Proof.
  split; [|split].
  - cbn. repeat constructor; cbn; intuition discriminate.
  - reflexivity.
  - intros id n ty inv b I T J. right. cbn in I. cases; cbn in J; cases; cbn; auto.
Qed.
Example s_refs : option_map nd_refs (s_space 3) = Some [mkRef 47 false 4; mkRef 47 true 2] /\ option_map nd_refs (s_space 4) = Some [mkRef 47 true 3].
Proof. split; reflexivity. Qed.
Example s_history : exists sp, history nothing [Add s_batch; Delete 3 true] sp /\ present sp 2 /\ ~ present sp 3 /\ ~ present sp 4 /\ option_map nd_refs (sp 2) = Some [mkRef 40 false 1].
Proof.
  eexists. split; [|split; [|split; [|split]]].
  - eapply HistoryCons; [constructor; apply s_complete|]. eapply HistoryCons; [|constructor]. apply (ChangeDelete _ 3 true _ 5). unfold s_batch. reflexivity.
  - vm_compute. discriminate.
  - vm_compute. intuition.
  - vm_compute. intuition.
  - vm_compute. reflexivity.
Qed.
Example s_exact : forall a b ty inv, ~ In a (map fst s_batch) -> two_way ty -> present (insert_all nothing s_batch) b -> has_ref (insert_all nothing s_batch) a ty inv b -> has_ref (insert_all nothing s_batch) b ty (negb inv) a.
Proof. intros a b ty inv N T P R. exfalso. apply has_ref_present in R. apply insert_present in R. destruct R as [R|R]; [now apply R|contradiction]. Qed.
(** The target comes later: the reference stays one-way. *)
Theorem late_target : exists l1 l2, NoDup (map fst (l1 ++ l2)) /\ ~ bidirectional (add_nodes (add_nodes nothing l1) l2) /\ bidirectional (add_nodes nothing (l1 ++ l2)).
Proof.
  exists [(2, s_node 2 KObject [mkRef 47 false 3])], [(3, s_node 3 KObject [])]. split; [cbn; repeat constructor; cbn; intuition discriminate|]. split.
  - intros B. assert (H : has_ref (add_nodes (add_nodes nothing [(2, s_node 2 KObject [mkRef 47 false 3])]) [(3, s_node 3 KObject [])]) 3 47 true 2).
    { apply (B 2 3 47 false); [split; discriminate|vm_compute; discriminate|]. exists (s_node 2 KObject [mkRef 47 false 3]). split; [reflexivity|now left]. }
    destruct H as (n & E & I). vm_compute in E. injection E as <-. destruct I.
  - apply add_exact. intros a b ty inv N T P R. exfalso. apply has_ref_present in R. apply insert_present in R. destruct R as [R|R]; [now apply R|contradiction].
Qed.
(** Adding a node again loses what others had added to it. *)
Theorem added_again : exists l id n, bidirectional (add_nodes nothing l) /\ In (id, n) l /\ ~ bidirectional (add_nodes (add_nodes nothing l) [(id, n)]).
Proof.
  exists s_batch, 4, (s_node 4 KObject []). split; [apply add_exact; exact s_exact|]. split; [cbn; auto|]. intros B.
  assert (H : has_ref (add_nodes (add_nodes nothing s_batch) [(4, s_node 4 KObject [])]) 4 47 true 3).
  { apply (B 3 4 47 false); [split; discriminate|vm_compute; discriminate|]. exists (s_node 3 KObject [mkRef 47 false 4; mkRef 47 true 2]). split; [reflexivity|now left]. }
  destruct H as (n & E & I). vm_compute in E. injection E as <-. destruct I.
Qed.
(** The type of an object is deleted. *)
Theorem type_dangles : exists l sp, history nothing l sp /\ has_ref sp 2 40 false 1 /\ ~ present sp 1 /\
  forall default roles n q, sp 2 = Some n -> user_may default roles n p_browse -> bq_node q = 2 -> bq_direction q = 0 -> bq_type q = None -> browse default roles sp q = BrowseBad 0x80340000.
Proof.
  exists [Add s_batch; Delete 1 false], (delete_one (add_nodes nothing s_batch) 1). split; [|split; [|split]].
  - eapply HistoryCons; [constructor; apply s_complete|]. eapply HistoryCons; [|constructor]. now apply (ChangeDelete _ 1 false _ 0).
  - exists (s_node 2 KObject [mkRef 47 false 3; mkRef 40 false 1]). split; [reflexivity|]. right. now left.
  - vm_compute. intuition.
  - intros default roles n q E M Q1 Q2 Q3. apply (browse_dangling default roles _ q n (mkRef 40 false 1)).
    + lia.
    + now rewrite Q1.
    + exact M.
    + congruence.
    + vm_compute in E. injection E as <-. right. now left.
    + split; [right; left; auto|]. now rewrite Q3.
    + reflexivity.
Qed.
(** Two ways to the same node: counted twice *)
Definition s_diamond : list (Z * node) :=
  [(1, s_node 1 KObject [mkRef 47 false 2; mkRef 47 false 3]); (2, s_node 2 KObject [mkRef 47 false 4]); (3, s_node 3 KObject [mkRef 47 false 4]); (4, s_node 4 KObject [])].
Lemma diamond_complete : complete_batch nothing s_diamond.
Proof.
  split; [|split].
  - cbn. repeat constructor; cbn; intuition discriminate.
  - reflexivity.
  - intros id n ty inv b I T J. right. cbn in I. cases; cbn in J; cases; cbn; auto.
Qed.
Theorem count_wrong : exists l sp sp', complete_batch nothing l /\ sp = add_nodes nothing l /\ (length l = 4)%nat /\ (forall protected, (forall x, protected x = false) -> delete_recursive protected 10 sp 1 = Some (sp', 5, 0)) /\ forall x, ~ present sp' x.
Proof.
  exists s_diamond, (add_nodes nothing s_diamond). eexists. split; [apply diamond_complete|]. split; [reflexivity|]. split; [reflexivity|]. split.
  - intros protected H. unfold delete_recursive. rewrite !H. change (add_nodes nothing s_diamond 1) with (Some (s_node 1 KObject [mkRef 47 false 2; mkRef 47 false 3])). cbv iota.
    change (get_children 10 (add_nodes nothing s_diamond) (Some child_types) 1) with (Some [2; 3; 4; 4]). cbv iota. rewrite skip_protected. cbn [filter]. rewrite !H. cbn [negb]. reflexivity.
  - intros x P. apply delete_present in P. destruct P as [P N]. apply delete_all_present in P. destruct P as [P Q]. apply (alike_present _ _ x (add_nodes_alike nothing s_diamond)) in P. apply insert_present in P. destruct P as [P|P]; [now apply P|]. cbn in *. intuition.
Qed.
Example s_children : get_children 10 s_space None 2 = Some [3; 1; 4] /\ get_children 10 s_space kids 2 = Some [3; 4].
Proof. split; reflexivity. Qed.
Example s_recursive : forall protected, (forall x, protected x = false) -> exists sp, delete_recursive protected 10 s_space 2 = Some (sp, 3, 0).
Proof. intros protected H. unfold delete_recursive. rewrite !H. eexists. reflexivity. Qed.
Example s_by_id : forall protected, protected 3 = false -> exists sp, delete_by_id protected s_space 3 = (sp, 0).
Proof. intros protected H. unfold delete_by_id. rewrite H. eexists. reflexivity. Qed.
Ltac refs H := match type of H with has_ref ?sp ?a _ _ _ =>
  apply add_nodes_refs in H; destruct H as [(?n & ?E & ?I)|(?B & ?T & ?P & (?n & ?E & ?I))] end.
Lemma s_child a b : child s_space kids a b <-> (a = 2 /\ b = 3) \/ (a = 3 /\ b = 4).
Proof.
  rewrite <- targets_spec. unfold targets. destruct (s_space a) as [n|] eqn:E.
  - assert (In a [1; 2; 3; 4]) as I.
    { assert (P : present s_space a) by (unfold present; congruence). apply (alike_present _ _ a (add_nodes_alike nothing s_batch)) in P. apply insert_present in P. destruct P as [P|P]; [now destruct P|exact P]. }
    cbn in I. destruct I as [<-|[<-|[<-|[<-|[]]]]]; vm_compute in E; injection E as <-; cbn; intuition lia.
  - split; [intros []|]. intros [[-> ->]|[-> ->]]; vm_compute in E; discriminate.
Qed.
Example s_tree : tree s_space kids.
Proof.
  split.
  - intros a a' b H1 H2. apply s_child in H1. apply s_child in H2. lia.
  - intros a b. unfold references_to. destruct (s_space a) as [n|] eqn:E; [|lia].
    assert (In a [1; 2; 3; 4]) as I.
    { assert (P : present s_space a) by (unfold present; congruence). apply (alike_present _ _ a (add_nodes_alike nothing s_batch)) in P. apply insert_present in P. destruct P as [P|P]; [now destruct P|exact P]. }
    cbn in I. destruct I as [<-|[<-|[<-|[<-|[]]]]]; vm_compute in E; injection E as <-; unfold forward_to; cbn [filter nd_refs rf_inverse rf_type rf_target kids negb andb existsb Z.eqb Pos.eqb orb]; repeat (destruct (_ =? b) || destruct (Pos.eqb _ _)); cbn; try lia; destruct b as [|p|p]; cbn; try lia; destruct (Pos.eqb _ p); cbn; lia.
Qed.

(** * Children *)
Definition s_loop : list (Z * node) := [(1, s_node 1 KObject [mkRef 47 false 2]); (2, s_node 2 KObject [mkRef 47 false 1])].
Theorem loop_forever : exists l, complete_batch nothing l /\ forall k, get_children k (add_nodes nothing l) kids 1 = None /\ delete_node k (add_nodes nothing l) 1 true = None.
Proof.
  exists s_loop. split.
  - split; [|split].
    + cbn. repeat constructor; cbn; intuition discriminate.
    + reflexivity.
    + intros id n ty inv b I T J. right. cbn in I. cases; cbn in J; cases; cbn; auto.
  - intros k. assert (E : get_children k (add_nodes nothing s_loop) kids 1 = None).
    { assert (C12 : child (add_nodes nothing s_loop) kids 1 2) by (apply targets_spec; vm_compute; auto). assert (C21 : child (add_nodes nothing s_loop) kids 2 1) by (apply targets_spec; vm_compute; auto).
      apply (children_cycle _ _ 1 1); [now left|]. apply BelowS with 2; [now apply Below1|exact C21]. }
    split; [exact E|]. unfold delete_node. change (Some child_types) with kids. now rewrite E.
Qed.
Theorem twice : exists l, complete_batch nothing l /\ get_children 10 (add_nodes nothing l) kids 1 = Some [2; 3; 4; 4].
Proof. exists s_diamond. split; [apply diamond_complete|]. reflexivity. Qed.
Example s_sub_types : get_sub_types 5 s_space 2 = Some [] /\ exists n, add_nodes nothing [(22, s_node 1 (KDataType None) [mkRef 45 false 3])] 22 = Some n /\ exists r, In r (nd_refs n) /\ rf_inverse r = false /\ rf_type r = 45.
Proof. split; [reflexivity|]. eexists. split; [reflexivity|]. eexists. split; [now left|]. auto. Qed.

(** * Types *)
(** References only to the number below *)
Definition s_chain : space := fun id => if (100 <? id) && (id <=? 300) then Some (s_node id KObjectType [mkRef 45 true (id - 1)]) else None.
Lemma chain_first a b : first_super s_chain a b <-> 100 < a <= 300 /\ b = a - 1.
Proof.
  rewrite <- super_type_spec. unfold super_type, s_chain. destruct ((100 <? a) && (a <=? 300)) eqn:E; cbn [nd_refs s_node find is_super rf_inverse rf_type rf_target andb].
  - change (45 =? has_subtype) with true. cbv iota. split; [intros [= <-]; lia|intros [_ ->]; reflexivity].
  - split; [discriminate|lia].
Qed.
Lemma chain_steps k : forall a b, steps (first_super s_chain) k a b -> b = a - Z.of_nat k.
Proof. induction k as [|k IH]; intros a b H; inversion H as [|k' x y z R H']; subst; [lia|]. apply chain_first in R. apply IH in H'. lia. Qed.
Lemma chain_down k : forall a, 100 <= a - Z.of_nat k -> a <= 300 -> steps (first_super s_chain) k a (a - Z.of_nat k).
Proof.
  induction k as [|k IH]; intros a L U; [replace (a - Z.of_nat 0) with a by lia; constructor|]. apply StepsS with (a - 1); [apply chain_first; lia|]. replace (a - Z.of_nat (S k)) with (a - 1 - Z.of_nat k) by lia. apply IH; lia.
Qed.
Example chain_sub : is_subtype s_chain 150 100 = true /\ is_subtype s_chain 201 100 = true.
Proof. split; apply is_subtype_spec; [exists 50%nat|exists 101%nat]; (split; [lia|]); [apply (chain_down 50 150)|apply (chain_down 101 201)]; lia. Qed.
Lemma chain_single : single s_chain.
Proof.
  intros a b c (n & r & E & I & _ & _ & R) (m & r' & E' & I' & _ & _ & R'). unfold s_chain in *. destruct (_ && _); [|discriminate]. injection E as <-. injection E' as <-. destruct I as [<-|[]], I' as [<-|[]]. congruence.
Qed.
Lemma chain_depth k x : steps (first_super s_chain) k 201 x -> (k <= 101)%nat.
Proof.
  intros H. assert (G : forall k a y, steps (first_super s_chain) k a y -> 100 <= a -> 100 <= y).
  { intros j. induction j as [|j IH]; intros a y K L; inversion K as [|k' u v w R K']; subst; [exact L|]. apply chain_first in R. apply (IH _ _ K'). lia. }
  pose proof (chain_steps _ _ _ H). specialize (G _ _ _ H). lia.
Qed.
(** 102 levels *)
Theorem too_deep : exists sp a b, single sp /\ steps (some_super sp) 102 a b /\ is_subtype sp a b = false.
Proof.
  exists s_chain, 202, 100. split; [apply chain_single|]. split.
  - assert (H := chain_down 102 202 ltac:(lia) ltac:(lia)). change (202 - Z.of_nat 102) with 100 in H. revert H. generalize 202, 100, 102%nat. intros a b k H. induction H; [constructor|]. eapply StepsS; [apply first_is_some; eassumption|assumption].
  - apply subtype_limit. intros k K H. apply chain_steps in H. lia.
Qed.
Theorem not_transitive : exists sp a b c, is_subtype sp a b = true /\ is_subtype sp b c = true /\ is_subtype sp a c = false.
Proof.
  exists s_chain, 250, 200, 140. split; [|split].
  - apply is_subtype_spec. exists 50%nat. split; [lia|]. apply (chain_down 50 250); lia.
  - apply is_subtype_spec. exists 60%nat. split; [lia|]. apply (chain_down 60 200); lia.
  - apply subtype_limit. intros k K H. apply chain_steps in H. lia.
Qed.
(** Two supertypes *)
Definition s_two : space := fun id => if id =? 3 then Some (s_node 3 KObjectType [mkRef 45 true 1; mkRef 45 true 2]) else None.
Theorem second_super : exists sp a b, some_super sp a b /\ is_subtype sp a b = false.
Proof. exists s_two, 3, 2. split; [|reflexivity]. exists (s_node 3 KObjectType [mkRef 45 true 1; mkRef 45 true 2]), (mkRef 45 true 2). repeat split. right. now left. Qed.
(** * Built-in types *)
Definition s_types : space := fun id => if id =? 3001 then Some (s_node 1 (KDataType None) [mkRef 45 true 3000]) else if id =? 3000 then Some (s_node 1 (KDataType None) [mkRef 45 true 22]) else None.
Example s_built_in : built_in s_types 3001 22 /\ find_variant 3 s_types (Some 3001) = Some 22.
Proof. split; [|reflexivity]. apply variant_exact. exists 3%nat. reflexivity. Qed.
Definition s_circle : space := fun id => if id =? 3000 then Some (s_node 1 (KDataType None) [mkRef 45 true 3001]) else if id =? 3001 then Some (s_node 1 (KDataType None) [mkRef 45 true 3000]) else None.
Theorem circle_forever : exists sp t, forall k, find_variant k sp (Some t) = None.
Proof.
  exists s_circle, 3000. apply (variant_cycle s_circle (fun t => t = 3000 \/ t = 3001)); [|now left]. intros t [-> | ->]; (split; [lia|]; split; [lia|]).
  - exists 3001. split; [apply super_type_spec; reflexivity|auto].
  - exists 3000. split; [apply super_type_spec; reflexivity|auto].
Qed.
Theorem stale_answer : exists sp l v cache w, cached_variant 2 (fun _ => None) sp 3001 = Some (v, cache) /\ complete_batch sp l /\
  built_in (add_nodes sp l) 3001 w /\ forall k, cached_variant k cache (add_nodes sp l) 3001 = Some (v, cache) /\ v <> w.
Proof.
  exists (fun id => if id =? 22 then Some (s_node 1 (KDataType None) []) else None), [(3001, s_node 2 (KDataType None) [mkRef 45 true 22])], 0. eexists. exists 22. split; [reflexivity|]. split; [|split].
  - split; [repeat constructor; intros []|]. split; [intros id n [E|[]]; injection E as <- <-; reflexivity|]. intros id n ty inv b [E|[]] T J. injection E as <- <-. destruct J as [J|[]]. injection J as <- <- <-. left. vm_compute. discriminate.
  - apply variant_exact. exists 2%nat. reflexivity.
  - intros k. split; [reflexivity|discriminate].
Qed.
Example s_cache : right_cache (fun _ => None) s_types /\ exists c, cached_variant 3 (fun _ => None) s_types 3001 = Some (22, c).
Proof. split; [intros t v E; discriminate|]. eexists. reflexivity. Qed.

(** * Namespaces *)
Example s_table : add_uri (new_table [x61]) [x62] = (new_table [x61] ++ [[x62]], 2) /\ add_uri (new_table [x61]) [x61] = (new_table [x61], 1).
Proof. split; reflexivity. Qed.
Example s_table_ok : index_of (new_table [x61]) 1 [x61] /\ NoDup (new_table [x61]) /\ zlen (new_table [x61] ++ [[x62]]) <= 65536.
Proof. split; [split; [lia|reflexivity]|]. split; [apply new_table_unique; discriminate|]. vm_compute. discriminate. Qed.
Theorem wrong_index : exists table uri t' i, NoDup table /\ add_uri table uri = (t', i) /\ ~ index_of t' i uri.
Proof.
  set (table := map (fun n => repeat x61 n) (seq 0 (Z.to_nat 65536))).
  assert (L : zlen table = 65536) by (unfold zlen, table; rewrite map_length, seq_length; lia).
  assert (F : ~ In [x62] table) by (unfold table; rewrite in_map_iff; intros (n & E & _); destruct n; discriminate).
  exists table, [x62], (table ++ [[x62]]), 0. split; [|split; [now apply add_uri_wraps|]].
  - unfold table. apply FinFun.Injective_map_NoDup; [|apply seq_NoDup]. intros a b E. assert (length (repeat x61 a) = length (repeat x61 b)) by now rewrite E. now rewrite !repeat_length in *.
  - intros [_ E]. apply F. destruct table as [|x l]; [discriminate|]. cbn in E. injection E as ->. now left.
Qed.
Theorem twice_the_same : ~ NoDup (new_table standard_namespace).
Proof. rewrite new_table_unique. congruence. Qed.

(** * Browse paths *)
Definition e_comp (name : Z) : element := mkElem (Some 47) false false name.
Definition no_name (n : Z) : bool := n =? 0.
Example s_translate : translate no_name s_space 2 [e_comp 3; e_comp 4] = (0, [(4, 4294967295)]).
Proof. reflexivity. Qed.
Lemma s_leads3 c : leads s_space 2 (e_comp 3) c -> c = 3.
Proof. intros H. apply (target_in s_space 2 (e_comp 3) [3]) in H; [|reflexivity]. destruct H as [<-|[]]. reflexivity. Qed.
Example s_unambiguous : unambiguous s_space 2 [e_comp 3; e_comp 4] /\ reached s_space 2 [e_comp 3; e_comp 4] 4.
Proof.
  split.
  - apply UnamMore; [intros c c' H H'; apply s_leads3 in H; apply s_leads3 in H'; congruence|]. intros c _. constructor.
  - apply (translate_sound no_name s_space 2 [e_comp 3; e_comp 4] 0 [(4, 4294967295)] eq_refl 4 4294967295). now left.
Qed.
(** Two components with the same name; only the second has the next one. *)
Definition s_names : space := fun id =>
  if id =? 1 then Some (s_node 1 KObject [mkRef 47 false 2; mkRef 47 false 3])
  else if id =? 2 then Some (s_node 7 KObject []) else if id =? 3 then Some (s_node 7 KObject [mkRef 47 false 4]) else if id =? 4 then Some (s_node 8 KObject []) else None.
Theorem second_branch : exists sp a els b, reached sp a els b /\ translate no_name sp a els = (0x806F0000, []).
Proof.
  exists s_names, 1, [e_comp 7; e_comp 8], 4. split; [|reflexivity]. apply ReachedMore with 3; [discriminate| |apply ReachedLast].
  - apply (target_in s_names 1 (e_comp 7) [2; 3]); [reflexivity|]. right. now left.
  - apply (target_in s_names 3 (e_comp 8) [4]); [reflexivity|]. now left.
Qed.
(** The user may not browse the node; the path to it is translated. *)
Definition s_hidden : space := fun id =>
  if id =? 1 then Some (s_node 1 KObject [mkRef 47 false 2]) else if id =? 2 then Some (mkNode KObject (Some []) [] 7 (fun a => GScalar 7 a)) else None.
Theorem hidden_found : exists sp a b els n, sp b = Some n /\ (forall default roles, ~ user_may default roles n p_browse) /\ translate no_name sp a els = (0, [(b, 4294967295)]).
Proof.
  exists s_hidden, 1, 2, [e_comp 7], (mkNode KObject (Some []) [] 7 (fun a => GScalar 7 a)). split; [reflexivity|]. split; [|reflexivity].
  intros default roles H. unfold user_may, may in H. cbn [nd_perms] in H. firstorder.
Qed.

(** * Events *)
Definition s_notifiers : space := fun id =>
  if id =? 2253 then Some (s_node 1 KObject []) else if id =? 1 then Some (s_node 2 KObject [mkRef 48 true 2253])
  else if id =? 2 then Some (s_node 3 KObject [mkRef 48 true 1; mkRef 48 true 3]) else if id =? 3 then Some (s_node 4 KObject [])
  else if id =? 4 then Some (s_node 5 KObject [mkRef 48 true 1]) else None.
Example s_event : object s_notifiers 4 (s_node 5 KObject [mkRef 48 true 1]) /\ on_event 3 s_notifiers 4 (s_node 5 KObject [mkRef 48 true 1]) = Some ([4; 1; 2253], 0).
Proof. split; [split; reflexivity|reflexivity]. Qed.
Definition s_one_way : space := fun id =>
  if id =? 2253 then Some (s_node 1 KObject []) else if id =? 1 then Some (s_node 2 KObject [mkRef 48 true 2253]) else None.
Example s_one_notifier : (forall x b c, has_ref s_one_way x 48 true b -> has_ref s_one_way x 48 true c -> b = c) /\ on_event 2 s_one_way 1 (s_node 2 KObject [mkRef 48 true 2253]) = Some ([1; 2253], 0).
Proof.
  split; [|reflexivity]. intros x b c (n & E & I) (m & E' & I'). unfold s_one_way in *. destruct (x =? 2253); [injection E as <-; destruct I|]. destruct (x =? 1); [|discriminate]. injection E as <-. injection E' as <-. destruct I as [I|[]]; destruct I' as [I'|[]]. congruence.
Qed.
Theorem second_notifier : exists sp a n l b, object sp a n /\ on_event 4 sp a n = Some (l, 0) /\ notified sp a b /\ ~ In b l.
Proof.
  exists s_notifiers, 2, (s_node 3 KObject [mkRef 48 true 1; mkRef 48 true 3]), [2; 1; 2253], 3. split; [split; reflexivity|]. split; [reflexivity|]. split; [|cbn; intuition discriminate].
  apply NotifiedUp with 2; [constructor|discriminate|]. split; [exists (s_node 3 KObject [mkRef 48 true 1; mkRef 48 true 3]); split; [reflexivity|right; now left]|]. exists (s_node 4 KObject []). split; reflexivity.
Qed.
Definition s_ring : space := fun id => if id =? 1 then Some (s_node 1 KObject [mkRef 48 true 2]) else if id =? 2 then Some (s_node 2 KObject [mkRef 48 true 1]) else None.
Theorem ring_forever : exists sp a n, object sp a n /\ forall k, on_event k sp a n = None.
Proof.
  exists s_ring, 1, (s_node 1 KObject [mkRef 48 true 2]). split; [split; reflexivity|]. apply (event_cycle s_ring (fun a => a = 1 \/ a = 2)); [|now left|split; reflexivity].
  intros a [-> | ->]; (split; [discriminate|]).
  - exists (s_node 1 KObject [mkRef 48 true 2]), 2. split; [split; reflexivity|]. split; [apply notifier_spec; reflexivity|auto].
  - exists (s_node 2 KObject [mkRef 48 true 1]), 1. split; [split; reflexivity|]. split; [apply notifier_spec; reflexivity|auto].
Qed.
