(** Proofs about the type registry. *)
From Coq Require Import ZArith List Bool Lia Strings.Byte.
From Verif Require Import Bytes BytesProofs Prim PrimProofs Registry.
Import ListNotations.
Open Scope Z_scope.

Lemma nodeid_eqb_eq a b : nodeid_eqb a b = true <-> a = b.
Proof.
  destruct a as [|n i|n i|n i|n i], b as [|m j|m j|m j|m j]; cbn [nodeid_eqb];
    try (split; [discriminate|congruence]); [tauto|..]; rewrite andb_true_iff, Z.eqb_eq;
    rewrite ?Z.eqb_eq, ?bytes_eqb_eq, ?guid_eqb_eq; (split; [intros [-> ->]; reflexivity|intros H; injection H; auto]).
Qed.
Lemma exp_eqb_eq a b : exp_eqb a b = true <-> a = b.
Proof.
  destruct a as [s u n], b as [s' u' n']. unfold exp_eqb. cbn [e_server e_uri e_node].
  rewrite !andb_true_iff, Z.eqb_eq, bytes_eqb_eq, nodeid_eqb_eq.
  split; [intros [[-> ->] ->]; reflexivity|intros H; injection H; auto].
Qed.
Lemma exp_eqb_refl a : exp_eqb a a = true.
Proof. apply exp_eqb_eq. reflexivity. Qed.

Lemma lookup_delete k k' m :
  lookup exp_eqb k (@delete _ Z exp_eqb k' m) = if exp_eqb k' k then None else lookup exp_eqb k m.
Proof.
  unfold delete. induction m as [|[a v] m IH]; cbn [filter lookup fst]; [now destruct (exp_eqb k' k)|].
  destruct (exp_eqb k' a) eqn:E1; cbn [negb].
  - rewrite IH. destruct (exp_eqb k' k) eqn:E2; [reflexivity|].
    apply exp_eqb_eq in E1 as ->. destruct (exp_eqb k a) eqn:E3; [|reflexivity].
    apply exp_eqb_eq in E3 as ->. rewrite exp_eqb_refl in E2. discriminate.
  - cbn [lookup]. rewrite IH. destruct (exp_eqb k a) eqn:E3; [|reflexivity].
    apply exp_eqb_eq in E3 as ->. rewrite E1. reflexivity.
Qed.

Definition bijective (r : registry) : Prop := forall t id, find_type r id = Some t <-> find_id r t = Some id.

Lemma bij_empty : bijective empty_registry.
Proof. intros t id. split; discriminate. Qed.

(** What one registration does, in terms of the two lookups only. *)
Lemma register_spec r t id : bijective r ->
  let '(r', ok) := register r t id in
  bijective r' /\
  (ok = true <-> (find_type r id = None /\ find_id r t = None) \/ find_type r id = Some t) /\
  (ok = false -> (forall x, find_type r' x = find_type r x) /\ (forall x, find_id r' x = find_id r x)) /\
  (ok = true -> find_type r' id = Some t /\ find_id r' t = Some id /\
     (forall x, x <> id -> find_type r' x = find_type r x) /\
     (forall x, x <> t -> find_id r' x = find_id r x)).
Proof.
  intros B. unfold register, reg_first. destruct (find_type r id) as [t'|] eqn:F.
  - destruct (Z.eqb_spec t' t) as [->|N].
    + (* already registered *)
      unfold reg_second. assert (FI : find_id r t = Some id) by (apply B; exact F). rewrite FI, exp_eqb_refl.
      repeat split; auto; try discriminate; apply B.
    + repeat split; auto; try discriminate; try apply B.
      intros [[X _]|X]; congruence.
  - unfold reg_second. unfold find_id at 1. cbn [r_ids r_types]. fold (find_id r t).
    destruct (find_id r t) as [id'|] eqn:G.
    + destruct (exp_eqb id' id) eqn:E.
      { apply exp_eqb_eq in E as ->. apply B in G. congruence. }
      unfold reg_undo. cbn [r_types r_ids].
      assert (S : forall x, find_type {| r_types := delete exp_eqb id (store id t (r_types r)); r_ids := r_ids r |} x = find_type r x).
      { intros x. unfold find_type. cbn [r_types]. rewrite lookup_delete. unfold store. cbn [lookup].
        destruct (exp_eqb id x) eqn:E2.
        - apply exp_eqb_eq in E2 as <-. symmetry. exact F.
        - destruct (exp_eqb x id) eqn:E3; [|reflexivity]. apply exp_eqb_eq in E3 as ->.
          rewrite exp_eqb_refl in E2. discriminate. }
      split.
      { intros t0 id0. rewrite S. unfold find_id. cbn [r_ids]. apply B. }
      split; [|split; [|discriminate]].
      * split; [discriminate|]. intros [[_ X]|X]; congruence.
      * intros _. split; [exact S|reflexivity].
    + assert (FT : forall x, find_type {| r_types := store id t (r_types r); r_ids := store t id (r_ids r) |} x
                  = if exp_eqb x id then Some t else find_type r x) by reflexivity.
      assert (FI : forall x, find_id {| r_types := store id t (r_types r); r_ids := store t id (r_ids r) |} x
                  = if x =? t then Some id else find_id r x) by reflexivity.
      split.
      { intros t0 id0. rewrite FT, FI. destruct (exp_eqb id0 id) eqn:E1, (Z.eqb_spec t0 t) as [E2|E2].
        - apply exp_eqb_eq in E1 as ->. subst t0. split; reflexivity.
        - apply exp_eqb_eq in E1 as ->. split; [intros X; congruence|]. intros X. apply B in X. congruence.
        - subst t0. split; [intros X; apply B in X; congruence|]. intros X. injection X as ->.
          rewrite exp_eqb_refl in E1. discriminate.
        - apply B. }
      split; [split; auto|]. split; [discriminate|]. intros _.
      rewrite FT, FI, exp_eqb_refl, Z.eqb_refl. split; [reflexivity|]. split; [reflexivity|]. split.
      * intros x X. rewrite FT. destruct (exp_eqb x id) eqn:E; [|reflexivity]. apply exp_eqb_eq in E. contradiction.
      * intros x X. rewrite FI. destruct (Z.eqb_spec x t); [contradiction|reflexivity].
Qed.

Lemma run_bijective l : bijective (reg_run l).
Proof.
  unfold reg_run. assert (G : forall r, bijective r ->
    bijective (fold_left (fun r p => fst (register r (fst p) (snd p))) l r)).
  { induction l as [|p l IH]; intros r B; [exact B|]. cbn [fold_left]. apply IH.
    pose proof (register_spec r (fst p) (snd p) B) as S. destruct (register r (fst p) (snd p)) as [r' ok]. apply S. }
  apply G. exact bij_empty.
Qed.
