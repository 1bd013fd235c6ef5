(** Proofs about namespace translation (the functions are in Value.v). *)
From Coq Require Import ZArith List Bool Lia Strings.Byte.
From Coq Require Import ZifyBool ZifyNat ZifyN.
From Verif Require Import Bytes CodecSpec BytesProofs Prim Value.
Import ListNotations.
Open Scope Z_scope.
Ltac Zify.zify_post_hook ::= Z.div_mod_to_equations.

Lemma index_of_nth u l k i : NoDup l -> nth_error l k = Some u -> index_of u l i = Some (i + Z.of_nat k).
Proof.
  revert k i. induction l as [|x l IH]; intros k i ND H; [destruct k; discriminate|].
  inversion ND as [|? ? NI ND']; subst. cbn [index_of]. destruct k as [|k]; cbn in H.
  - injection H as ->. assert (bytes_eqb u u = true) as -> by (apply bytes_eqb_eq; reflexivity). f_equal. lia.
  - destruct (bytes_eqb x u) eqn:E.
    + apply bytes_eqb_eq in E as ->. exfalso. apply NI. eapply nth_error_In. exact H.
    + rewrite (IH k (i + 1) ND' H). f_equal. lia.
Qed.

Lemma index_of_none u l i : ~ In u l -> index_of u l i = None.
Proof.
  revert i. induction l as [|x l IH]; cbn [index_of In]; intros i H; [reflexivity|].
  destruct (bytes_eqb x u) eqn:E; [apply bytes_eqb_eq in E; tauto|]. apply IH. tauto.
Qed.
Lemma index_of_some u l i j : index_of u l i = Some j -> i <= j < i + Z.of_nat (length l) /\ nth_error l (Z.to_nat (j - i)) = Some u.
Proof.
  revert i. induction l as [|x l IH]; cbn [index_of length]; intros i H; [discriminate|].
  destruct (bytes_eqb x u) eqn:E.
  - injection H as <-. apply bytes_eqb_eq in E as ->. replace (Z.to_nat (i - i)) with O by lia. split; [lia|reflexivity].
  - apply IH in H as [A B]. split; [lia|]. replace (Z.to_nat (j - i)) with (S (Z.to_nat (j - (i + 1)))) by lia. exact B.
Qed.

Lemma with_ns_back n k : ns_of n = k -> with_ns (with_ns n 0) k = n.
Proof. intros <-. destruct n; reflexivity. Qed.

Lemma nodeid_roundtrip n (uris : list bytes) : NoDup uris -> ~ In [] (tl uris) -> in_u 2 (ns_of n) ->
  to_nodeid (to_expanded n uris) uris = n.
Proof.
  intros ND NE H. unfold in_u in H. cbn in H. unfold to_expanded. cbv zeta.
  destruct ((0 <? ns_of n) && (ns_of n <? u16 (Z.of_nat (length uris)))) eqn:C; [|reflexivity].
  unfold u16 in C. change (2 ^ 16) with 65536 in C.
  assert (L : (Z.to_nat (ns_of n) < length uris)%nat) by lia.
  unfold to_nodeid. cbn [e_uri e_node].
  destruct (nth_error uris (Z.to_nat (ns_of n))) as [u|] eqn:E.
  2:{ apply nth_error_None in E. lia. }
  pose proof (nth_error_nth _ _ ([] : bytes) E) as EN. rewrite EN.
  destruct u as [|c u].
  - exfalso. apply NE. destruct uris as [|x uris]; [cbn in L; lia|].
    replace (Z.to_nat (ns_of n)) with (S (Z.to_nat (ns_of n - 1))) in E by lia.
    cbn in E |- *. eapply nth_error_In. exact E.
  - rewrite (index_of_nth _ _ _ 0 ND E). unfold u16. change (2 ^ 16) with 65536.
    rewrite Z.mod_small by lia. rewrite Z2Nat.id by lia. apply with_ns_back. lia.
Qed.

Lemma unknown_uri e uris : e_uri e <> [] -> ~ In (e_uri e) uris -> to_nodeid e uris = NNull.
Proof.
  intros H N. unfold to_nodeid. destruct (e_uri e) as [|c u] eqn:E; [congruence|].
  rewrite index_of_none by exact N. reflexivity.
Qed.

Lemma known_uri e uris : e_uri e <> [] -> In (e_uri e) uris -> Z.of_nat (length uris) <= 65536 ->
  e_node e <> NNull ->
  exists i, to_nodeid e uris = with_ns (e_node e) i /\ 0 <= i < 65536 /\
            nth_error uris (Z.to_nat i) = Some (e_uri e).
Proof.
  intros H I L _. unfold to_nodeid. destruct (e_uri e) as [|c u] eqn:E; [congruence|].
  destruct (index_of (c :: u) uris 0) as [i|] eqn:X.
  - apply index_of_some in X as [A B]. exists i. unfold u16. change (2 ^ 16) with 65536.
    rewrite Z.mod_small by lia. split; [reflexivity|]. split; [lia|]. rewrite Z.sub_0_r in B. exact B.
  - exfalso. revert X I. generalize 0. clear. generalize (c :: u). intros w.
    induction uris as [|x l IH]; cbn [index_of In]; intros i H I; [tauto|].
    destruct (bytes_eqb x w) eqn:E; [discriminate|]. destruct I as [->|I].
    + assert (bytes_eqb w w = true) by (apply bytes_eqb_eq; reflexivity). congruence.
    + exact (IH _ H I).
Qed.

Lemma exp_roundtrip (e : expnodeid) (uris : list bytes) : NoDup uris -> Z.of_nat (length uris) < 65536 ->
  e_server e = 0 -> e_uri e <> [] -> In (e_uri e) (tl uris) -> e_node e <> NNull -> ns_of (e_node e) = 0 ->
  to_expanded (to_nodeid e uris) uris = e.
Proof.
  intros ND L S U I N0 Z0. destruct e as [svr u n]. cbn [e_server e_uri e_node] in *. subst svr.
  destruct uris as [|x uris]; [destruct I|]. cbn [tl] in I.
  apply In_nth_error in I as (k & K).
  assert (K' : nth_error (x :: uris) (S k) = Some u) by exact K.
  assert (B : (S k < length (x :: uris))%nat) by (apply nth_error_Some; congruence).
  unfold to_nodeid. cbn [e_uri e_node]. destruct u as [|c u]; [congruence|].
  rewrite (index_of_nth _ _ _ 0 ND K'). rewrite Z.add_0_l.
  unfold u16. change (2 ^ 16) with 65536. rewrite Z.mod_small by lia.
  unfold to_expanded. cbv zeta.
  assert (NS : ns_of (with_ns n (Z.of_nat (S k))) = Z.of_nat (S k)) by (destruct n; [congruence|reflexivity..]).
  rewrite NS. destruct ((0 <? Z.of_nat (S k)) && (Z.of_nat (S k) <? u16 (Z.of_nat (length (x :: uris))))) eqn:C.
  - rewrite Nat2Z.id. rewrite (nth_error_nth _ _ ([] : bytes) K'). f_equal. destruct n; cbn in Z0 |- *; congruence.
  - unfold u16 in C. change (2 ^ 16) with 65536 in C. lia.
Qed.
