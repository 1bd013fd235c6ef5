(** Proofs about the life of the server. *)
From Coq Require Import ZArith List Bool String Lia.
From Verif Require Import Bytes Text OwnData OwnSpace OwnSpec.
Import ListNotations.
Open Scope string_scope.
Open Scope Z_scope.

(** What is known of the call of Close that counts down *)
Definition counting (f : life) (k : Z) : Prop :=
  f_state f = 4 /\ f_closers f = [k] /\ 0 <= k <= 4 /\
  ((k = 4 /\ f_seconds f = 0) \/ (k = 3 /\ f_seconds f = 0 /\ f_reason f = lit "Closing") \/ (k < 3 /\ f_seconds f = k + 1 /\ f_reason f = lit "Closing")).
Record live_inv (f : life) (n : nat) : Prop := {
  li_before : f_state f = 7 \/ f_state f = 0 -> f_closers f = [] /\ f_closed f = false /\ f_seconds f = 0 /\ n = 0%nat;
  li_after : f_state f = 7 \/ f_state f = 0 \/ f_state f = 4;
  li_closers : f_closers f = [] \/ exists k, counting f k;
  li_end : f_state f = 4 -> f_closers f = [] -> f_closed f = true /\ f_seconds f = 0;
  li_count : Z.of_nat n = Z.of_nat (List.length (f_closers f)) + f_panics f + (if f_closed f then 1 else 0);
  li_panics : 0 <= f_panics f;
  li_open : f_open f = true -> f_closed f = false /\ f_state f <> 7 }.

Lemma closes_snoc acts a : closes (acts ++ [a]) = (closes acts + (match a with Close => 1 | _ => 0 end))%nat.
Proof. unfold closes. rewrite filter_app, app_length. destruct a; reflexivity. Qed.
Lemma live_snoc acts a : live_all (acts ++ [a]) = fst (live (live_all acts) a).
Proof. unfold live_all. now rewrite fold_left_app. Qed.

Ltac fields := cbn [f_state f_seconds f_reason f_closed f_open f_closers f_panics] in *.
Lemma inv_init : live_inv life_init 0.
Proof. constructor; cbn; try tauto; try lia; try discriminate. Qed.
Lemma inv_step f n a : live_inv f n -> live_inv (fst (live f a)) (n + (match a with Close => 1 | _ => 0 end)).
Proof.
  intros [B A C E N P O]. destruct f as [st sec re cl op cs pa]. fields. destruct a as [url port| |k]; cbn [live fst].
  - (* Listen *) unfold Unknown. destruct (st =? 7) eqn:U; cbn [negb]; fields.
    + rewrite U. cbn [negb]. apply Z.eqb_eq in U. subst st. destruct B as (B1 & B2 & B3 & B4); [auto|]. subst cs cl sec.
      rewrite Nat.add_0_r. unfold Running.
      destruct url, port; cbn [negb fst]; constructor; fields; try tauto; try lia; try discriminate; auto;
        try (intros _; split; [reflexivity|discriminate]); try (intros X; destruct (O X); tauto).
    + rewrite U. cbn [negb fst]. rewrite Nat.add_0_r. constructor; fields; assumption.
  - (* Close *) fields. unfold Running. destruct (st =? 0) eqn:U; cbn [fst].
    + apply Z.eqb_eq in U. subst st. destruct B as (B1 & B2 & B3 & B4); [auto|]. subst cs cl sec.
      constructor; fields; unfold Shutdown.
      * intros [X|X]; discriminate.
      * auto.
      * right. exists 4. unfold counting. fields. cbn. repeat split; try lia.
      * intros _ X. discriminate.
      * cbn [List.length app] in *. lia.
      * lia.
      * intros X. destruct (O X). split; [reflexivity|discriminate].
    + unfold close_channel. fields. apply Z.eqb_neq in U. destruct cl; fields; constructor; fields; unfold Shutdown.
      * intros [X|X]; discriminate.
      * auto.
      * destruct C as [C|(k & C)]; [left; exact C|right; exists k]. unfold counting in *. fields. tauto.
      * intros _ X. destruct A as [A|[A|A]]; [destruct B as (B1 & B2 & B3 & B4); [auto|discriminate]|contradiction|]. exact (E A X).
      * lia.
      * lia.
      * intros X. destruct (O X). discriminate.
      * intros [X|X]; discriminate.
      * auto.
      * destruct C as [C|(k & C)]; [left; exact C|right; exists k]. unfold counting in *. fields. tauto.
      * intros _ X. split; [reflexivity|]. destruct A as [A|[A|A]]; [apply B; auto|contradiction|]. apply (E A X).
      * lia.
      * lia.
      * discriminate.
  - (* Proceed *) rewrite Nat.add_0_r. fields. destruct (nth_error cs k) as [m|] eqn:K; cbn [fst]; [|constructor; fields; assumption].
    destruct C as [->|(j & C)]; [destruct k; discriminate|].
    destruct C as (C1 & C2 & C3 & C4). fields. subst st cs. destruct k as [|k]; [|destruct k; discriminate].
    cbn [nth_error] in K. injection K as <-. cbn [firstn skipn app].
    destruct (j =? 4) eqn:J4; cbn [fst].
    + apply Z.eqb_eq in J4. subst j. constructor; fields; try tauto; try (cbn [List.length] in *; lia); try discriminate.
      right. exists 3. unfold counting. fields. repeat split; try lia. right. left. destruct C4 as [C4|[C4|C4]]; [|lia|lia]. repeat split; lia.
    + apply Z.eqb_neq in J4. destruct (j =? 0) eqn:J0; cbn [fst].
      * apply Z.eqb_eq in J0. subst j. unfold close_channel. fields.
        destruct cl; fields; constructor; fields; try tauto; try (cbn [List.length] in *; lia); try discriminate.
      * apply Z.eqb_neq in J0. constructor; fields; try tauto; try (cbn [List.length] in *; lia); try discriminate.
        right. exists (j - 1). unfold counting. fields. repeat split; try lia. right. right. destruct C4 as [C4|[C4|C4]]; [lia| |]; repeat split; try lia; tauto.
Qed.
Lemma inv_all acts : live_inv (live_all acts) (closes acts).
Proof.
  induction acts as [|a acts IH] using rev_ind; [exact inv_init|].
  rewrite live_snoc, closes_snoc. now apply inv_step.
Qed.

Lemma stage_step f n a : live_inv f n -> stage (f_state f) <= stage (f_state (fst (live f a))).
Proof.
  intros [B A C E N P O]. destruct f as [st sec re cl op cs pa]. fields. destruct a as [url port| |k]; cbn [live fst]; fields.
  - unfold Unknown. destruct (st =? 7) eqn:U; cbn [negb fst]; fields; [|lia].
    apply Z.eqb_eq in U. subst st. unfold Running. destruct url, port; cbn; lia.
  - unfold Running, Shutdown, close_channel. destruct (st =? 0), cl; fields; destruct A as [->|[->| ->]]; cbn; lia.
  - destruct (nth_error cs k) as [m|]; cbn [fst]; [|fields; lia]. unfold close_channel. destruct (m =? 4), (m =? 0), cl; cbn [fst]; fields; lia.
Qed.
Lemma stages acts more : 0 <= stage (f_state (live_all acts)) /\ stage (f_state (live_all acts)) <= stage (f_state (live_all (acts ++ more))).
Proof.
  split.
  - destruct (li_after _ _ (inv_all acts)) as [->|[->| ->]]; cbn; lia.
  - induction more as [|a more IH] using rev_ind; [rewrite app_nil_r; lia|].
    rewrite app_assoc, live_snoc. eapply Z.le_trans; [exact IH|]. eapply stage_step. apply inv_all.
Qed.
(** Listening succeeds at most once *)
Lemma listen_started f url port : snd (live f (Listen url port)) <> BadInternalError -> f_state f = 7.
Proof. cbn [live]. unfold Unknown. destruct (f_state f =? 7) eqn:U; cbn [negb snd]; [intros _; now apply Z.eqb_eq|congruence]. Qed.
Lemma never_unknown f a n : live_inv f n -> f_state f <> 7 -> f_state (fst (live f a)) <> 7.
Proof.
  intros I H. pose proof (stage_step f n a I) as S1. destruct (li_after _ _ I) as [X|[X|X]]; [contradiction| |];
    rewrite X in S1; intros Y; rewrite Y in S1; cbn in S1; lia.
Qed.
Lemma started acts : (exists url port, In (Listen url port) acts) \/ In Close acts -> f_state (live_all acts) <> 7.
Proof.
  induction acts as [|a acts IH] using rev_ind; [intros [(u & p & [])|[]]|].
  intros H. rewrite live_snoc. assert (D : f_state (live_all acts) = 7 \/ f_state (live_all acts) <> 7) by lia.
  destruct D as [D|D]; [|eapply never_unknown; [apply inv_all|exact D]].
  assert (L : (exists url port, a = Listen url port) \/ a = Close).
  { destruct H as [(u & p & H)|H]; apply in_app_iff in H as [H|[->|[]]].
    - exfalso. apply IH; [left; exists u, p; exact H|exact D].
    - left. exists u, p. reflexivity.
    - exfalso. apply IH; [right; exact H|exact D].
    - right. reflexivity. }
  destruct L as [(u & p & ->)| ->]; cbn [live].
  - unfold Unknown. rewrite D. cbn [Z.eqb Pos.eqb negb]. destruct u, p; cbn; discriminate.
  - rewrite D. cbn [Running Z.eqb]. unfold close_channel. fields. destruct (f_closed (live_all acts)); cbn; discriminate.
Qed.
Lemma listen_again acts url port : (exists u p, In (Listen u p) acts) \/ In Close acts ->
  live (live_all acts) (Listen url port) = (live_all acts, BadInternalError).
Proof.
  intros H. apply started in H. cbn [live]. unfold Unknown. replace (f_state (live_all acts) =? 7) with false by (symmetry; now apply Z.eqb_neq).
  reflexivity.
Qed.

(** * Closing *)
Lemma panic_count acts : f_closers (live_all acts) = [] -> (0 < closes acts)%nat ->
  f_panics (live_all acts) = Z.of_nat (closes acts) - 1 /\ f_closed (live_all acts) = true.
Proof.
  intros C N. pose proof (inv_all acts) as [B A _ E K P O]. rewrite C in K. cbn [List.length] in K.
  assert (F : f_closed (live_all acts) = true).
  { destruct A as [A|[A|A]]; [destruct B as (_ & _ & _ & B); [auto|lia]..|]. apply (E A C). }
  split; [|exact F]. rewrite F in K. lia.
Qed.
Lemma one_close acts : (closes acts <= 1)%nat -> f_panics (live_all acts) = 0.
Proof.
  intros N. pose proof (inv_all acts) as [B A C E K P O].
  destruct (f_closers (live_all acts)) as [|x l] eqn:X.
  - cbn [List.length] in K. destruct (f_closed (live_all acts)) eqn:F; [lia|].
    destruct A as [A|[A|A]]; [destruct B as (_ & _ & _ & B); [auto|lia]..|]. destruct (E A eq_refl). congruence.
  - cbn [List.length] in K. destruct (f_closed (live_all acts)); lia.
Qed.
Lemma one_countdown acts : (List.length (f_closers (live_all acts)) <= 1)%nat.
Proof. destruct (li_closers _ _ (inv_all acts)) as [->|(k & _ & -> & _)]; cbn; lia. Qed.
(** The call of Close that counts down ends after five steps *)
Lemma finish acts : (0 < closes acts)%nat -> let f := live_all (acts ++ five) in
  f_closed f = true /\ f_open f = false /\ f_closers f = [] /\ f_state f = 4 /\ f_seconds f = 0.
Proof.
  intros N. cbv zeta. pose proof (inv_all acts) as I.
  assert (H : f_closers (live_all (acts ++ five)) = []).
  { unfold five. unfold live_all. rewrite fold_left_app. fold (live_all acts). set (f := live_all acts) in *.
    destruct (li_closers _ _ I) as [C|(k & C1 & C2 & C3 & C4)].
    - clearbody f. destruct f as [st sec re cl op cs pa]. fields. subst cs. reflexivity.
    - clearbody f. destruct f as [st sec re cl op cs pa]. fields. subst st cs.
      assert (K : k = 0 \/ k = 1 \/ k = 2 \/ k = 3 \/ k = 4) by lia.
      destruct cl; destruct K as [->|[->|[->|[->| ->]]]]; reflexivity. }
  pose proof (inv_all (acts ++ five)) as [B A _ E K P O]. rewrite H in K.
  assert (M : closes (acts ++ five) = closes acts) by (unfold closes; rewrite filter_app, app_length; cbn; lia).
  assert (S4 : f_state (live_all (acts ++ five)) = 4).
  { destruct A as [A|[A|A]]; [destruct B as (_ & _ & _ & B); [auto|lia]..|]. exact A. }
  destruct (E S4 H) as [E1 E2]. split; [exact E1|]. split; [|auto].
  destruct (f_open (live_all (acts ++ five))); [|reflexivity]. destruct (O eq_refl). congruence.
Qed.
Lemma countdown acts k : f_closers (live_all acts) = [k] -> f_state (live_all acts) = 4 /\ 0 <= f_seconds (live_all acts) <= 3 /\
  (0 < f_seconds (live_all acts) -> f_reason (live_all acts) = lit "Closing").
Proof.
  intros H. destruct (li_closers _ _ (inv_all acts)) as [C|(j & C1 & C2 & C3 & C4)]; [congruence|].
  rewrite H in C2. injection C2 as <-. split; [exact C1|]. destruct C4 as [(C4 & C5)|[(C4 & C5 & C6)|(C4 & C5 & C6)]]; rewrite C5; (split; [lia|]); intros X; try lia; exact C6.
Qed.
Lemma serving acts : f_open (live_all acts) = true -> f_closed (live_all acts) = false /\ f_state (live_all acts) <> 7.
Proof. apply (li_open _ _ (inv_all acts)). Qed.

(** * What is wrong *)
(** A server that failed to listen says it runs and can never listen *)
Lemma failed_listen acts url port : f_state (live_all acts) = 7 -> url && port = false ->
  let f := live_all (acts ++ [Listen url port]) in
  f_state f = 0 /\ f_open f = false /\ forall u p, live f (Listen u p) = (f, BadInternalError).
Proof.
  intros H B. cbv zeta. split; [|split].
  - rewrite live_snoc. cbn [live]. unfold Unknown. rewrite H. cbn [Z.eqb Pos.eqb negb]. destruct url, port; try discriminate; reflexivity.
  - rewrite live_snoc. cbn [live]. unfold Unknown. rewrite H. cbn [Z.eqb Pos.eqb negb].
    assert (O : f_open (live_all acts) = false) by (destruct (f_open (live_all acts)) eqn:X; [destruct (serving acts X); contradiction|reflexivity]).
    destruct url, port; try discriminate; cbn [negb fst]; fields; exact O.
  - intros u p. apply listen_again. left. exists url, port. apply in_app_iff. right. now left.
Qed.
Lemma close_at_once : let f := live_all [Listen true true; Close; Proceed 0; Proceed 0; Close] in
  f_closed f = true /\ f_seconds f = 3 /\ f_panics f = 0 /\ f_panics (live_all [Listen true true; Close; Proceed 0; Proceed 0; Close; Proceed 0; Proceed 0; Proceed 0]) = 1.
Proof. vm_compute. auto. Qed.
Lemma countdown_all acts : (List.length (f_closers (live_all acts)) <= 1)%nat /\ forall k, f_closers (live_all acts) = [k] ->
  f_state (live_all acts) = 4 /\ 0 <= f_seconds (live_all acts) <= 3 /\ (0 < f_seconds (live_all acts) -> f_reason (live_all acts) = lit "Closing").
Proof. split; [apply one_countdown|]. intros k H. exact (countdown acts k H). Qed.
