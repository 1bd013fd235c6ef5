(** C63 to C68, C80, C81: the address space. *)
From Coq Require Import ZArith List Bool Relations.
From Verif Require Import Bytes IndexRange Roles Nodes NodeAccess AccessSpec TypeProofs Translate Namespaces SpaceSpec SpaceProofs PathProofs SpaceLemmas.
Import ListNotations.
Open Scope Z_scope.

(** * C63: references stay bidirectional *)
(** [history nothing l sp]: [sp] arises from [l], batches of new nodes that refer to each other and to
    what is there, and deletions.  Of the references of type HasTypeDefinition and HasModellingRule
    nothing is said. *)
Theorem c63_history_partial : forall l sp, history nothing l sp -> bidirectional sp /\ no_dangling sp.
Proof. exact history_sound. Qed.
Print Assumptions c63_history_partial.
(** Whatever is added to whatever address space: the references of the new nodes are seen from their targets, *)
Theorem c63_new_nodes : forall sp l a b ty inverse, In a (map fst l) -> two_way ty -> has_ref (insert_all sp l) a ty inverse b -> present (insert_all sp l) b ->
  has_ref (add_nodes sp l) b ty (negb inverse) a.
Proof. exact add_seen. Qed.
Print Assumptions c63_new_nodes.
(** and nothing is one-way but old references to nodes that come or are replaced now. *)
Theorem c63_exact : forall sp l, bidirectional (add_nodes sp l) <->
  forall a b ty inverse, ~ In a (map fst l) -> two_way ty -> present (insert_all sp l) b -> has_ref (insert_all sp l) a ty inverse b -> has_ref (insert_all sp l) b ty (negb inverse) a.
Proof. exact add_exact. Qed.
Print Assumptions c63_exact.
(** All references after adding *)
Theorem c63_references : forall sp l a ty inverse b, has_ref (add_nodes sp l) a ty inverse b <->
  has_ref (insert_all sp l) a ty inverse b \/
  (In b (map fst l) /\ two_way ty /\ present (insert_all sp l) a /\ has_ref (insert_all sp l) b ty (negb inverse) a).
Proof. exact add_nodes_refs. Qed.
Print Assumptions c63_references.
Theorem c63_target_later_refuted : exists l1 l2, NoDup (map fst (l1 ++ l2)) /\ ~ bidirectional (add_nodes (add_nodes nothing l1) l2) /\ bidirectional (add_nodes nothing (l1 ++ l2)).
Proof. exact late_target. Qed.
Print Assumptions c63_target_later_refuted.
Theorem c63_added_again_refuted : exists l id n, bidirectional (add_nodes nothing l) /\ In (id, n) l /\ ~ bidirectional (add_nodes (add_nodes nothing l) [(id, n)]).
Proof. exact added_again. Qed.
Print Assumptions c63_added_again_refuted.

(** * C64: deleting nodes leaves no dangling references *)
(** Gone is the node, and with children what is below it; nothing else. *)
Theorem c64_gone : forall turns sp id deep sp', delete_node turns sp id deep = Some sp' ->
  forall x, present sp' x <-> present sp x /\ x <> id /\ (deep = true -> ~ below sp (Some [47; 46; 45; 49]) id x).
Proof. exact delete_node_present. Qed.
Print Assumptions c64_gone.
Theorem c64_others_unchanged : forall turns sp id deep sp', delete_node turns sp id deep = Some sp' ->
  (forall a n, sp a = Some n -> present sp' a -> exists n', sp' a = Some n' /\ same_node n n') /\
  (forall a ty inverse b, present sp' a -> present sp' b -> has_ref sp' a ty inverse b <-> has_ref sp a ty inverse b).
Proof. exact delete_node_rest. Qed.
Print Assumptions c64_others_unchanged.
(** The references left, in their order: those are missing that the deleted node had in the other direction. *)
Theorem c64_references : forall sp id n0, sp id = Some n0 -> delete_one sp id id = None /\
  forall a, a <> id -> match sp a with
  | None => delete_one sp id a = None
  | Some n => exists n', delete_one sp id a = Some n' /\ same_node n n' /\
      picks (fun r => ~ (rf_target r = id /\ two_way (rf_type r) /\ has_ref sp id (rf_type r) (negb (rf_inverse r)) a)) (nd_refs n) (nd_refs n')
  end.
Proof. exact delete_effect. Qed.
Print Assumptions c64_references.
Theorem c64_no_dangling_partial : forall turns sp id deep sp', delete_node turns sp id deep = Some sp' -> bidirectional sp /\ no_dangling sp -> bidirectional sp' /\ no_dangling (sp').
Proof. exact delete_node_sound. Qed.
Print Assumptions c64_no_dangling_partial.
(** The type of an object may be deleted; then the object cannot be browsed any more. *)
Theorem c64_type_refuted : exists l sp, history nothing l sp /\ has_ref sp 2 40 false 1 /\ ~ present sp 1 /\
  forall default roles n q, sp 2 = Some n -> user_may default roles n p_browse -> bq_node q = 2 -> bq_direction q = 0 -> bq_type q = None -> browse default roles sp q = BrowseBad 0x80340000.
Proof. exact type_dangles. Qed.
Print Assumptions c64_type_refuted.
(** DeleteNodeByID *)
Theorem c64_by_id : forall protected sp id sp' st, delete_by_id protected sp id = (sp', st) ->
  (st = 0x80330000 /\ protected id = true /\ sp' = sp) \/ (st = 0x80340000 /\ protected id = false /\ sp id = None /\ sp' = sp) \/
  (st = 0 /\ protected id = false /\ present sp id /\ delete_node 0 sp id false = Some sp').
Proof. exact delete_by_id_spec. Qed.
Print Assumptions c64_by_id.
(** DeleteNodeByIDRecursive; the number is right if what is below the node is a tree without protected nodes. *)
Theorem c64_recursive_partial : forall protected turns sp id sp' count st, delete_recursive protected turns sp id = Some (sp', count, st) ->
  (st = 0x80330000 /\ protected id = true /\ sp' = sp /\ count = 0) \/ (st = 0x80340000 /\ protected id = false /\ sp id = None /\ sp' = sp /\ count = 0) \/
  (st = 0 /\ protected id = false /\ present sp id /\ (bidirectional sp /\ no_dangling sp -> bidirectional sp' /\ no_dangling sp') /\
   (forall x, present sp' x <-> present sp x /\ x <> id /\ ~ (below sp (Some [47; 46; 45; 49]) id x /\ protected x = false)) /\
   (tree sp (Some [47; 46; 45; 49]) -> (forall x, below sp (Some [47; 46; 45; 49]) id x -> protected x = false) ->
    exists l, NoDup l /\ Z.of_nat (length l) = count /\ forall x, In x l <-> present sp x /\ ~ present sp' x)).
Proof. exact delete_recursive_spec. Qed.
Print Assumptions c64_recursive_partial.
Theorem c64_count_refuted : exists l sp sp', complete_batch nothing l /\ sp = add_nodes nothing l /\ (length l = 4)%nat /\
  (forall protected, (forall x, protected x = false) -> delete_recursive protected 10 sp 1 = Some (sp', 5, 0)) /\ forall x, ~ present sp' x.
Proof. exact count_wrong. Qed.
Print Assumptions c64_count_refuted.

(** * C65: subtype queries follow the type hierarchy *)
(** [derived sp a b]: at most 101 times from a type to the first of its supertypes *)
Theorem c65_exact : forall sp a b, is_subtype sp a b = true <-> derived sp a b.
Proof. exact is_subtype_spec. Qed.
Print Assumptions c65_exact.
Theorem c65_sound : forall sp a b, is_subtype sp a b = true -> clos_trans_1n Z (some_super sp) a b.
Proof. exact subtype_sound. Qed.
Print Assumptions c65_sound.
Theorem c65_complete_partial : forall sp a b k, (forall x y z, some_super sp x y -> some_super sp x z -> y = z) -> (1 <= k <= 101)%nat -> steps (some_super sp) k a b -> is_subtype sp a b = true.
Proof. exact subtype_complete. Qed.
Print Assumptions c65_complete_partial.
Theorem c65_transitive_partial : forall sp a b c, (forall k x, steps (first_super sp) k a x -> (k <= 101)%nat) -> is_subtype sp a b = true -> is_subtype sp b c = true -> is_subtype sp a c = true.
Proof. exact subtype_transitive. Qed.
Print Assumptions c65_transitive_partial.
Theorem c65_second_supertype_refuted : exists sp a b, some_super sp a b /\ is_subtype sp a b = false.
Proof. exact second_super. Qed.
Print Assumptions c65_second_supertype_refuted.
Theorem c65_depth_refuted : exists sp a b, (forall x y z, some_super sp x y -> some_super sp x z -> y = z) /\ steps (some_super sp) 102 a b /\ is_subtype sp a b = false.
Proof. exact too_deep. Qed.
Print Assumptions c65_depth_refuted.
Theorem c65_transitive_refuted : exists sp a b c, is_subtype sp a b = true /\ is_subtype sp b c = true /\ is_subtype sp a c = false.
Proof. exact not_transitive. Qed.
Print Assumptions c65_transitive_refuted.

(** * C66: the namespace table is stable *)
Theorem c66_table : forall table uri t' i, add_uri table uri = (t', i) -> (In uri table /\ t' = table) \/ (~ In uri table /\ t' = table ++ [uri]).
Proof. exact add_uri_table. Qed.
Print Assumptions c66_table.
Theorem c66_index : forall table uri t' i, add_uri table uri = (t', i) -> zlen t' <= 65536 -> index_of t' i uri.
Proof. exact add_uri_index. Qed.
Print Assumptions c66_index.
Theorem c66_again : forall table uri t' i, add_uri table uri = (t', i) -> zlen t' <= 65536 -> NoDup table -> add_uri t' uri = (t', i).
Proof. exact add_uri_again. Qed.
Print Assumptions c66_again.
(** Many additions *)
Theorem c66_stable : forall l table, (NoDup table -> NoDup (fold_left (fun t u => fst (add_uri t u)) l table)) /\
  (forall j u, index_of table j u -> index_of (fold_left (fun t u => fst (add_uri t u)) l table) j u) /\
  (forall u, In u (fold_left (fun t u => fst (add_uri t u)) l table) <-> In u table \/ In u l).
Proof. exact add_uris_stable. Qed.
Print Assumptions c66_stable.
Theorem c66_first_table : forall application, NoDup (new_table application) <-> application <> standard_namespace.
Proof. exact new_table_unique. Qed.
Print Assumptions c66_first_table.
(** With more than 65536 entries *)
Theorem c66_index_refuted : exists table uri t' i, NoDup table /\ add_uri table uri = (t', i) /\ ~ index_of t' i uri.
Proof. exact wrong_index. Qed.
Print Assumptions c66_index_refuted.
Theorem c66_duplicate_refuted : ~ NoDup (new_table standard_namespace).
Proof. exact twice_the_same. Qed.
Print Assumptions c66_duplicate_refuted.

(** * C67: enumerating children terminates *)
(** It does exactly if no infinite path goes down from the node. *)
Theorem c67_terminates_partial : forall sp types id, (exists turns l, get_children turns sp types id = Some l) <-> finite_below sp types id.
Proof. exact children_terminates. Qed.
Print Assumptions c67_terminates_partial.
Theorem c67_complete : forall sp types turns id l, get_children turns sp types id = Some l -> forall x, In x l <-> below sp types id x.
Proof. exact children_exact. Qed.
Print Assumptions c67_complete.
Theorem c67_once_partial : forall sp types turns id l, tree sp types -> get_children turns sp types id = Some l -> NoDup l.
Proof. exact children_nodup. Qed.
Print Assumptions c67_once_partial.
Theorem c67_cycle_refuted : forall sp types id x, id = x \/ below sp types id x -> below sp types x x -> forall turns, get_children turns sp types id = None.
Proof. exact children_cycle. Qed.
Print Assumptions c67_cycle_refuted.
(** Such address spaces can be made; deleting the node with its children does not return either. *)
Theorem c67_loop_refuted : exists l, complete_batch nothing l /\
  forall turns, get_children turns (add_nodes nothing l) (Some [47; 46; 45; 49]) 1 = None /\ delete_node turns (add_nodes nothing l) 1 true = None.
Proof. exact loop_forever. Qed.
Print Assumptions c67_loop_refuted.
Theorem c67_twice_refuted : exists l, complete_batch nothing l /\ get_children 10 (add_nodes nothing l) (Some [47; 46; 45; 49]) 1 = Some [2; 3; 4; 4].
Proof. exact twice. Qed.
Print Assumptions c67_twice_refuted.
(** GetSubTypes never returns a type with subtypes, *)
Theorem c67_sub_types_refuted : forall sp id n, sp id = Some n -> (exists r, In r (nd_refs n) /\ rf_inverse r = false /\ rf_type r = 45) -> forall turns, get_sub_types turns sp id = None.
Proof. exact sub_types_forever. Qed.
Print Assumptions c67_sub_types_refuted.
(** or anything. *)
Theorem c67_sub_types_nothing_refuted : forall turns sp id l, get_sub_types turns sp id = Some l -> l = [].
Proof. exact sub_types_nothing. Qed.
Print Assumptions c67_sub_types_nothing_refuted.

(** * C68: TranslateBrowsePaths finds exactly the targets of the path *)
Theorem c68_sound : forall unnamed sp a els st out, translate unnamed sp a els = (st, out) -> forall b i, In (b, i) out -> st = 0 /\ reached sp a els b /\ i = 4294967295.
Proof. exact translate_sound. Qed.
Print Assumptions c68_sound.
Theorem c68_complete_partial : forall unnamed sp a els st out, translate unnamed sp a els = (st, out) -> unambiguous sp a els -> (forall e, In e els -> unnamed (el_name e) = false) ->
  forall b, (exists i, In (b, i) out) <-> reached sp a els b.
Proof. exact translate_complete. Qed.
Print Assumptions c68_complete_partial.
Theorem c68_status : forall unnamed sp a els st out, translate unnamed sp a els = (st, out) ->
  (els = [] /\ st = 0x800F0000 /\ out = []) \/
  (els <> [] /\ (exists e, In e els /\ unnamed (el_name e) = true) /\ st = 0x80600000 /\ out = []) \/
  (els <> [] /\ (forall e, In e els -> unnamed (el_name e) = false) /\
   ((sp a = None /\ st = 0x80340000 /\ out = []) \/
    (sp a <> None /\ st = 0x806F0000 /\ out = [] /\ (unambiguous sp a els -> forall b, ~ reached sp a els b)) \/
    (sp a <> None /\ st = 0 /\ out <> []))).
Proof. exact translate_status. Qed.
Print Assumptions c68_status.
(** Only the first of several ways is followed. *)
Theorem c68_second_way_refuted : exists sp a els b, reached sp a els b /\ translate (fun n => n =? 0) sp a els = (0x806F0000, []).
Proof. exact second_branch. Qed.
Print Assumptions c68_second_way_refuted.
(** Nodes that nobody may browse are found. *)
Theorem c68_hidden_refuted : exists sp a b els n, sp b = Some n /\ (forall default roles, ~ user_may default roles n p_browse) /\ translate (fun n => n =? 0) sp a els = (0, [(b, 4294967295)]).
Proof. exact hidden_found. Qed.
Print Assumptions c68_hidden_refuted.

(** * C80: an event reaches the notifiers of its source *)
(** [raised]: the way from notifier to notifier to the Server *)
Theorem c80_exact : forall sp a n l st, (exists turns, on_event turns sp a n = Some (l, st)) <-> raised sp a n l st.
Proof. exact event_exact. Qed.
Print Assumptions c80_exact.
Theorem c80_only_notifiers : forall turns sp a n l st, object sp a n -> on_event turns sp a n = Some (l, st) -> forall x, In x l -> notified sp a x.
Proof. exact event_only. Qed.
Print Assumptions c80_only_notifiers.
Theorem c80_all_partial : forall turns sp a n l, object sp a n -> on_event turns sp a n = Some (l, 0) ->
  (forall x b c, has_ref sp x 48 true b -> has_ref sp x 48 true c -> b = c) -> forall x, notified sp a x -> In x l.
Proof. exact event_all. Qed.
Print Assumptions c80_all_partial.
Theorem c80_second_notifier_refuted : exists sp a n l b, object sp a n /\ on_event 4 sp a n = Some (l, 0) /\ notified sp a b /\ ~ In b l.
Proof. exact second_notifier. Qed.
Print Assumptions c80_second_notifier_refuted.
Theorem c80_cycle_refuted : exists sp a n, object sp a n /\ forall turns, on_event turns sp a n = None.
Proof. exact ring_forever. Qed.
Print Assumptions c80_cycle_refuted.

(** * C81: the built-in type of a data type *)
Theorem c81_exact : forall sp t v, (exists turns, find_variant turns sp (Some t) = Some v) <-> built_in sp t v.
Proof. exact variant_exact. Qed.
Print Assumptions c81_exact.
Theorem c81_unique : forall sp t v w, built_in sp t v -> built_in sp t w -> v = w.
Proof. exact built_in_unique. Qed.
Print Assumptions c81_unique.
(** While the types stay as they are, the table of earlier answers is right. *)
Theorem c81_cached_partial : forall turns cache sp t v cache', (forall x w, cache x = Some w -> built_in sp x w) -> cached_variant turns cache sp t = Some (v, cache') ->
  built_in sp t v /\ forall x w, cache' x = Some w -> built_in sp x w.
Proof. exact cached_right. Qed.
Print Assumptions c81_cached_partial.
(** When a type is added later the earlier answer is kept. *)
Theorem c81_stale_refuted : exists sp l v cache w, cached_variant 2 (fun _ => None) sp 3001 = Some (v, cache) /\ complete_batch sp l /\
  built_in (add_nodes sp l) 3001 w /\ forall turns, cached_variant turns cache (add_nodes sp l) 3001 = Some (v, cache) /\ v <> w.
Proof. exact stale_answer. Qed.
Print Assumptions c81_stale_refuted.
(** Types that are derived from each other: the search does not end. *)
Theorem c81_cycle_refuted : exists sp t, forall turns, find_variant turns sp (Some t) = None.
Proof. exact circle_forever. Qed.
Print Assumptions c81_cycle_refuted.
