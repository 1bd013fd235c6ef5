(** The server's own nodes are a tree *)
From Coq Require Import ZArith List Bool String Lia.
From Verif Require Import Bytes Prim Value Text Messages OwnData OwnTable OwnSpace OwnSpec OwnProofs OwnDiagProofs OwnTreeSpec.
Import ListNotations.
Open Scope Z_scope.

Lemma descend_leads ns path : forall p i, descend ns p path = Some i -> leads ns p path i.
Proof.
  induction path as [|x path IH]; intros p i D; cbn [descend] in D; [injection D as <-; constructor|].
  destruct (find _ ns) as [n|] eqn:F; [|discriminate]. apply find_some in F. destruct F as [I F]. apply andb_prop in F. destruct F as [F1 F2].
  apply String.eqb_eq in F2. subst x. apply leads_down; [exact I|now apply Z.eqb_eq|]. now apply IH.
Qed.
Definition place (n : node) : Z * string := (d_parent (n_decl n), d_name (n_decl n)).
Lemma leads_descend ns : NoDup (map place ns) -> forall p path i, leads ns p path i -> descend ns p path = Some i.
Proof.
  intros U p path i H. induction H as [p|p n rest i I P H IH]; [reflexivity|]. cbn [descend].
  destruct (find _ ns) as [m|] eqn:F.
  - apply find_some in F. destruct F as [J F]. apply andb_prop in F. destruct F as [F1 F2]. apply Z.eqb_eq in F1. apply String.eqb_eq in F2.
    assert (m = n); [|now subst m].
    assert (E : place m = place n) by (unfold place; congruence). clear -U I J E. induction ns as [|x ns IH]; [destruct I|]. cbn [map] in U. inversion U as [|? ? N U']; subst.
    destruct I as [->|I], J as [->|J]; [reflexivity| | |now apply IH].
    + exfalso. apply N. rewrite <- E. now apply in_map.
    + exfalso. apply N. rewrite E. now apply in_map.
  - apply (find_none _ _ F) in I. cbv beta in I. rewrite P, Z.eqb_refl, String.eqb_refl in I. discriminate.
Qed.
Fixpoint no_twice {A} (eqb : A -> A -> bool) (l : list A) : bool := match l with [] => true | x :: r => negb (existsb (eqb x) r) && no_twice eqb r end.
Lemma distinct_nodup {A} (eqb : A -> A -> bool) (R : forall x y, eqb x y = true <-> x = y) l : no_twice eqb l = true -> NoDup l.
Proof.
  induction l as [|x l IH]; [constructor|]. cbn [no_twice]. intros H. apply andb_prop in H. destruct H as [H1 H2]. constructor; [|now apply IH].
  intros I. apply negb_true_iff in H1. assert (existsb (eqb x) l = true) by (apply existsb_exists; exists x; split; [exact I|now apply R]). congruence.
Qed.
Definition place_eqb (a b : Z * string) : bool := (fst a =? fst b) && String.eqb (snd a) (snd b).
Lemma place_eqb_eq a b : place_eqb a b = true <-> a = b.
Proof.
  destruct a as [a1 a2], b as [b1 b2]. unfold place_eqb. cbn [fst snd]. rewrite andb_true_iff, Z.eqb_eq, String.eqb_eq. split; [intros [-> ->]; reflexivity|]. intros E. now injection E.
Qed.
(** The path of a node, from its parents *)
Fixpoint up (fuel : nat) (ns : list node) (n : node) (rest : list string) : list string :=
  match fuel with
  | O => rest
  | S f => match find_node (d_parent (n_decl n)) ns with Some m => up f ns m (d_name (n_decl n) :: rest) | None => d_name (n_decl n) :: rest end
  end.
Definition rooted (ns : list node) : bool :=
  forallb (fun n => match descend ns 0 (up 10 ns n []) with Some i => i =? d_id (n_decl n) | None => false end) ns.
Lemma nodes_tree w c l : no_twice Z.eqb (map n_id (nodes_of w c l)) = true /\ no_twice place_eqb (map place (nodes_of w c l)) = true /\ rooted (nodes_of w c l) = true.
Proof. split; [|split]; vm_compute; reflexivity. Qed.

Lemma tree w s c l es : w_caps w = Some c -> cap_OperationLimits c = Some l -> new_server w = Some s ->
  let ns := sv_nodes (run_server s es) in
  NoDup (map (fun n => d_id (n_decl n)) ns) /\ NoDup (map (fun n => (d_parent (n_decl n), d_name (n_decl n))) ns) /\
  forall n, In n ns -> exists path, leads ns 0 path (d_id (n_decl n)).
Proof.
  intros C L N. cbv zeta. destruct (running w s c l es C L N) as (w' & _ & B & _ & _). rewrite B. destruct (nodes_tree w' c l) as (T1 & T2 & T3).
  split; [exact (distinct_nodup Z.eqb Z.eqb_eq _ T1)|]. split; [exact (distinct_nodup place_eqb place_eqb_eq _ T2)|].
  intros n I. unfold rooted in T3. rewrite forallb_forall in T3. specialize (T3 n I). destruct (descend _ 0 _) as [i|] eqn:D; [|discriminate].
  apply Z.eqb_eq in T3. subst i. eexists. exact (descend_leads _ _ _ _ D).
Qed.
Lemma paths w s c l es p i : w_caps w = Some c -> cap_OperationLimits c = Some l -> new_server w = Some s ->
  descend (sv_nodes (run_server s es)) 0 p = Some i <-> leads (sv_nodes (run_server s es)) 0 p i.
Proof.
  intros C L N. split; [apply descend_leads|]. apply leads_descend. exact (proj1 (proj2 (tree w s c l es C L N))).
Qed.
(** Removing a node with its children leaves none of its children's children behind. *)
Lemma below_all f : forall ns i n path, leads ns i path (d_id (n_decl n)) -> path <> [] -> (List.length path <= f)%nat -> In (d_id (n_decl n)) (below f i ns).
Proof.
  induction f as [|f IH]; intros ns i n path H NE LE; [destruct path; [congruence|cbn in LE; lia]|].
  inversion H as [|p m rest j I P H']; subst; [congruence|]. cbn [below]. apply in_flat_map. exists m. split; [exact I|]. rewrite Z.eqb_refl.
  destruct rest as [|x rest].
  - inversion H' as [|]; subst. left. reflexivity.
  - right. apply (IH ns (n_id m) n (x :: rest)); [exact H'|discriminate|cbn in *; lia].
Qed.
Lemma delete_all ns i n path : leads ns i path (d_id (n_decl n)) -> (List.length path <= 4)%nat -> ~ In (d_id (n_decl n)) (map n_id (delete true i ns)).
Proof.
  intros H LE I. apply in_map_iff in I. destruct I as (m & E & I). unfold delete in I. apply filter_In in I. destruct I as [_ I]. apply negb_true_iff in I.
  assert (G : existsb (Z.eqb (n_id m)) (i :: below 4 i ns) = true); [|congruence].
  apply existsb_exists. exists (n_id m). split; [|apply Z.eqb_refl]. rewrite E. destruct path as [|x path].
  - inversion H; subst. now left.
  - right. apply (below_all 4 ns i n (x :: path)); [exact H|discriminate|exact LE].
Qed.
Example delete_example : let ns := loaded in leads ns 0 ["Server"; "ServerStatus"; "BuildInfo"; "ProductName"]%string 2261.
Proof. cbv zeta. apply descend_leads. vm_compute. reflexivity. Qed.

(** * A new session *)
Lemma new_told id name timeout description uri endpoint certificate max now identity roles q :
  In q (new_facts id name timeout description uri endpoint max now) ->
  tells session_details (new_session id name timeout description uri endpoint certificate max now identity) roles q.
Proof.
  intros I. apply session_facts_told. set (s := new_session _ _ _ _ _ _ _ _ _ _).
  replace (session_facts s) with (new_facts id name timeout description uri endpoint max now); [exact I|]. vm_compute. reflexivity.
Qed.
