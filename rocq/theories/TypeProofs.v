(** Proofs about type hierarchies. *)
From Coq Require Import ZArith List Bool Lia.
From Coq Require Import ZifyBool ZifyNat.
From Verif Require Import Bytes IndexRange Roles Nodes NodeAccess AccessSpec.
Import ListNotations.
Open Scope Z_scope.

Lemma find_first {A} (f : A -> bool) l x : find f l = Some x <-> exists l1 l2, l = l1 ++ x :: l2 /\ f x = true /\ forall y, In y l1 -> f y = false.
Proof.
  split.
  - induction l as [|a l IH]; cbn [find]; [discriminate|]. destruct (f a) eqn:F.
    + intros [= ->]. exists [], l. split; [reflexivity|]. split; [exact F|]. intros y [].
    + intros H. destruct (IH H) as (l1 & l2 & -> & H1 & H2). exists (a :: l1), l2. split; [reflexivity|]. split; [exact H1|]. intros y [<-|I]; auto.
  - intros (l1 & l2 & -> & H1 & H2). induction l1 as [|a l1 IH]; cbn [find List.app]; [now rewrite H1|]. rewrite (H2 a (or_introl eq_refl)). apply IH. intros y I. apply H2. now right.
Qed.
Lemma is_super_spec r : is_super r = true <-> rf_inverse r = true /\ rf_type r = 45.
Proof. unfold is_super, has_subtype. lia. Qed.
Lemma super_type_spec sp a b : super_type sp a = Some b <-> first_super sp a b.
Proof.
  unfold super_type. split.
  - destruct (sp a) as [n|] eqn:E; [|discriminate]. destruct (find is_super (nd_refs n)) as [r|] eqn:F; [|discriminate]. intros [= <-].
    apply find_first in F. destruct F as (l1 & l2 & F1 & F2 & F3). apply is_super_spec in F2. econstructor; eauto; try tauto. intros x I H. apply is_super_spec in H. rewrite (F3 x I) in H. discriminate.
  - intros [n l1 l2 r E L I T G N]. rewrite E. rewrite (proj2 (find_first is_super (nd_refs n) r)); [now rewrite G|]. exists l1, l2. split; [exact L|]. split; [now apply is_super_spec|].
    intros y Y. destruct (is_super y) eqn:Z; [|reflexivity]. apply is_super_spec in Z. now destruct (N y Y).
Qed.
Lemma first_super_unique sp a b c : first_super sp a b -> first_super sp a c -> b = c.
Proof. intros H1 H2. apply super_type_spec in H1. apply super_type_spec in H2. congruence. Qed.
Lemma first_is_some sp a b : first_super sp a b -> some_super sp a b.
Proof. intros [n l1 l2 r E L I T G N]. exists n, r. rewrite L. repeat split; auto. apply in_or_app. right. now left. Qed.
Lemma subtype_turns_spec k sp a b : subtype_turns k sp a b = true <-> exists j, (1 <= j <= k)%nat /\ steps (first_super sp) j a b.
Proof.
  revert a. induction k as [|k IH]; intros a; cbn [subtype_turns]; [split; [discriminate|intros (j & J & _); lia]|].
  destruct (super_type sp a) as [t|] eqn:E.
  - pose proof (proj1 (super_type_spec _ _ _) E) as F. destruct (b =? t) eqn:B.
    + apply Z.eqb_eq in B. subst t. split; [intros _|reflexivity]. exists 1%nat. split; [lia|]. eapply StepsS; [exact F|constructor].
    + rewrite IH. apply Z.eqb_neq in B. split.
      * intros (j & J & H). exists (S j). split; [lia|]. eapply StepsS; eassumption.
      * intros (j & J & H). inversion H as [|j' x y z R H']; subst; [lia|]. assert (y = t) by (eapply first_super_unique; eassumption). subst y. exists j'. split; [|exact H'].
        destruct j'; [inversion H'; subst; contradiction|lia].
  - split; [discriminate|]. intros (j & J & H). inversion H as [|j' x y z R H']; subst; [lia|]. apply super_type_spec in R. congruence.
Qed.
Theorem is_subtype_spec sp a b : is_subtype sp a b = true <-> derived sp a b.
Proof. apply subtype_turns_spec. Qed.
