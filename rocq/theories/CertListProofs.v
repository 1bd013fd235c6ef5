(** Proofs about sets of certificates. *)
From Coq Require Import ZArith List Bool Lia.
From Verif Require Import Bytes BytesProofs CertList CertListSpec.
Ltac Zify.zify_post_hook ::= idtac.
Import ListNotations.
Open Scope nat_scope.

(** ** Positions *)
Fixpoint positions (n : nat) (P : bytes -> bool) (l : list bytes) : list nat :=
  match l with [] => [] | c :: r => (if P c then [n] else []) ++ positions (S n) P r end.
Lemma positions_snoc P c : forall l n, positions n P (l ++ [c]) = positions n P l ++ (if P c then [n + length l] else []).
Proof.
  induction l as [|x r IH]; intros n; cbn [positions app length].
  - rewrite Nat.add_0_r, app_nil_r. reflexivity.
  - rewrite IH, <- app_assoc. f_equal. f_equal. destruct (P c); [|reflexivity]. f_equal. lia.
Qed.
Lemma nth_middle (pre r : list bytes) c : nth_error (pre ++ c :: r) (length pre) = Some c.
Proof. rewrite nth_error_app2 by lia. now rewrite Nat.sub_diag. Qed.
Lemma at_all_positions P : forall l pre, at_all (pre ++ l) (positions (length pre) P l) = Gives (filter P l).
Proof.
  induction l as [|c r IH]; intros pre; cbn [positions filter]; [reflexivity|].
  specialize (IH (pre ++ [c])). rewrite app_length, Nat.add_1_r, <- app_assoc in IH. cbn in IH.
  destruct (P c); cbn [app at_all]; [|exact IH]. rewrite nth_middle, IH. reflexivity.
Qed.
Lemma any_equal_positions P x : forall l pre, any_equal (pre ++ l) (positions (length pre) P l) x = Gives (existsb (fun c => P c && bytes_eqb c x) l).
Proof.
  induction l as [|c r IH]; intros pre; cbn [positions existsb]; [reflexivity|].
  specialize (IH (pre ++ [c])). rewrite app_length, Nat.add_1_r, <- app_assoc in IH. cbn in IH.
  destruct (P c); cbn [app any_equal andb orb]; [|exact IH]. rewrite nth_middle. destruct (bytes_eqb c x); [reflexivity|exact IH].
Qed.

Lemma bytes_eqb_sym a b : bytes_eqb a b = bytes_eqb b a.
Proof.
  destruct (bytes_eqb a b) eqn:E, (bytes_eqb b a) eqn:F; try reflexivity.
  - apply bytes_eqb_eq in E. subst. rewrite (proj2 (bytes_eqb_eq b b) eq_refl) in F. discriminate F.
  - apply bytes_eqb_eq in F. subst. rewrite (proj2 (bytes_eqb_eq a a) eq_refl) in E. discriminate E.
Qed.

(** ** firsts *)
Lemma remove_filter x (l : list bytes) : remove bytes_dec x l = filter (fun y => negb (bytes_eqb x y)) l.
Proof.
  induction l as [|y r IH]; [reflexivity|]. cbn [remove filter]. destruct (bytes_dec x y) as [->|D].
  - rewrite (proj2 (bytes_eqb_eq y y) eq_refl). exact IH.
  - destruct (bytes_eqb x y) eqn:E; [apply bytes_eqb_eq in E; contradiction|]. cbn. now rewrite IH.
Qed.
Lemma in_firsts x : forall l, In x (firsts l) <-> In x l.
Proof.
  induction l as [|y r IH]; cbn [firsts]; [reflexivity|]. cbn [In]. split.
  - intros [->|I]; [now left|]. apply in_remove in I as [I _]. right. now apply IH.
  - intros [->|I]; [now left|]. destruct (bytes_dec y x) as [->|D]; [now left|]. right. apply in_in_remove; [congruence|now apply IH].
Qed.
Lemma nodup_remove x : forall l, NoDup l -> NoDup (remove bytes_dec x l).
Proof. intros l N. rewrite remove_filter. now apply NoDup_filter. Qed.
Lemma nodup_firsts : forall l, NoDup (firsts l).
Proof.
  induction l as [|x r IH]; cbn [firsts]; constructor; [apply remove_In|now apply nodup_remove].
Qed.
Lemma firsts_snoc x : forall l, firsts (l ++ [x]) = if in_dec bytes_dec x l then firsts l else firsts l ++ [x].
Proof.
  induction l as [|y r IH]; [reflexivity|]. cbn [app firsts]. rewrite IH.
  destruct (in_dec bytes_dec x r) as [I|I], (in_dec bytes_dec x (y :: r)) as [J|J].
  - reflexivity.
  - exfalso. apply J. now right.
  - destruct J as [->|J]; [|contradiction]. rewrite remove_app. cbn [remove]. destruct (bytes_dec x x); [|congruence]. now rewrite app_nil_r.
  - rewrite remove_app. cbn [remove]. destruct (bytes_dec y x) as [->|D]; [exfalso; apply J; now left|]. reflexivity.
Qed.

Section X509.
Variable x : fields.
Variable parses : bytes -> bool.
Variable decode : bytes -> option (block * bytes).

Definition named_ (k c : bytes) : bool := bytes_eqb k (subject x c).
Definition keyed_ (k c : bytes) : bool := match subject_key x c with [] => false | _ :: _ => bytes_eqb k (subject_key x c) end.
Definition good (s : clist) : Prop :=
  exists f g, by_key s = Some f /\ by_name s = Some g /\
    (forall k, f k = positions 0 (keyed_ k) (certs s)) /\ forall k, g k = positions 0 (named_ k) (certs s).

Lemma good_new : good new_list.
Proof. exists (fun _ => []), (fun _ => []). repeat split. Qed.

Lemma contains_good s c : good s -> contains x (Some s) c = Gives (if in_dec bytes_dec c (certs s) then true else false).
Proof.
  intros (f & g & _ & G & _ & Hg). unfold contains. rewrite G. cbn [entries]. rewrite Hg.
  pose proof (any_equal_positions (named_ (subject x c)) c (certs s) []) as A. cbn in A. rewrite A. f_equal.
  destruct (in_dec bytes_dec c (certs s)) as [I|I].
  - apply existsb_exists. exists c. split; [exact I|]. unfold named_. now rewrite !(proj2 (bytes_eqb_eq _ _) eq_refl).
  - destruct (existsb _ _) eqn:E; [|reflexivity]. apply existsb_exists in E as (y & J & E). apply andb_true_iff in E as [_ E].
    apply bytes_eqb_eq in E. subst y. contradiction.
Qed.

Lemma add_good s c : good s -> exists s', add_cert x (Some s) (Some c) = Gives s' /\ good s' /\
  certs s' = if in_dec bytes_dec c (certs s) then certs s else certs s ++ [c].
Proof.
  intros I. unfold add_cert. rewrite (contains_good s c I).
  destruct (in_dec bytes_dec c (certs s)) as [J|J]; [exists s; auto|].
  destruct I as (f & g & F & G & Hf & Hg). rewrite F, G. cbn [append_to].
  destruct (subject_key x c) as [|a r] eqn:K.
  - eexists. split; [reflexivity|]. split; [|reflexivity]. eexists _, _. split; [reflexivity|]. split; [reflexivity|]. cbn [certs]. split.
    + intros k. rewrite positions_snoc, Hf. replace (keyed_ k c) with false by (unfold keyed_; now rewrite K). now rewrite app_nil_r.
    + intros k. rewrite positions_snoc, Hg. change (named_ k c) with (bytes_eqb k (subject x c)). cbn [Nat.add].
      destruct (bytes_eqb k (subject x c)); [reflexivity|now rewrite app_nil_r].
  - eexists. split; [reflexivity|]. split; [|reflexivity]. eexists _, _. split; [reflexivity|]. split; [reflexivity|]. cbn [certs]. split.
    + intros k. rewrite positions_snoc, Hf. replace (keyed_ k c) with (bytes_eqb k (a :: r)) by (unfold keyed_; now rewrite K). cbn [Nat.add].
      destruct (bytes_eqb k (a :: r)); [reflexivity|now rewrite app_nil_r].
    + intros k. rewrite positions_snoc, Hg. change (named_ k c) with (bytes_eqb k (subject x c)). cbn [Nat.add].
      destruct (bytes_eqb k (subject x c)); [reflexivity|now rewrite app_nil_r].
Qed.

(** what is in the list after [all] were added *)
Definition holds (s : clist) (all : list bytes) : Prop := good s /\ certs s = firsts all.
Lemma add_holds s all c : holds s all -> exists s', add_cert x (Some s) (Some c) = Gives s' /\ holds s' (all ++ [c]).
Proof.
  intros [G C]. destruct (add_good s c G) as (s' & A & G' & C'). exists s'. split; [exact A|]. split; [exact G'|].
  rewrite C', C, firsts_snoc. destruct (in_dec bytes_dec c (firsts all)) as [I|I], (in_dec bytes_dec c all) as [J|J]; try reflexivity.
  - exfalso. exact (J (proj1 (in_firsts c all) I)).
  - exfalso. exact (I (proj2 (in_firsts c all) J)).
Qed.

Lemma usable_iff b : usable parses b <->
  negb (b_certificate b) || negb (Nat.eqb (b_headers b) 0) = false /\ negb (parses (b_bytes b)) = false.
Proof.
  unfold usable. rewrite orb_false_iff, !negb_false_iff, Nat.eqb_eq. tauto.
Qed.

Lemma pem_holds : forall cs text, pem parses decode text cs -> shrinks decode -> forall fuel s all ok, length text <= fuel -> holds s all ->
  exists s', append_pem x parses decode fuel s text ok =
    Some (Gives (s', ok || match cs with [] => false | _ :: _ => true end)) /\ holds s' (all ++ cs).
Proof using x parses decode.
  intros cs text P Sh. induction P as [|text D|text b rest cs N D U P IH|text b rest cs N D U P IH]; intros fuel s all ok L H.
  - exists s. rewrite app_nil_r, orb_false_r. destruct fuel; auto.
  - exists s. rewrite app_nil_r, orb_false_r. split; [|exact H]. destruct text as [|y t]; [destruct fuel; reflexivity|].
    destruct fuel; [cbn in L; lia|]. cbn [append_pem]. now rewrite D.
  - destruct text as [|y t]; [congruence|]. destruct fuel as [|fuel]; [cbn in L; lia|]. cbn [append_pem]. rewrite D.
    pose proof (Sh _ _ _ D) as Lr.
    destruct (negb (b_certificate b) || negb (Nat.eqb (b_headers b) 0)) eqn:E1; [apply IH; [lia|exact H]|].
    destruct (negb (parses (b_bytes b))) eqn:E2; [apply IH; [lia|exact H]|]. exfalso. apply U. now apply usable_iff.
  - destruct text as [|y t]; [congruence|]. destruct fuel as [|fuel]; [cbn in L; lia|]. cbn [append_pem]. rewrite D.
    pose proof (Sh _ _ _ D) as Lr. apply usable_iff in U as [-> ->].
    destruct (add_holds s all (b_bytes b) H) as (s1 & A & H1). rewrite A.
    destruct (IH fuel s1 (all ++ [b_bytes b]) true) as (s' & A' & H'); [lia|exact H1|].
    exists s'. rewrite A'. rewrite <- app_assoc in H'. split; [|exact H']. now rewrite orb_true_r.
Qed.

Lemma run_holds : shrinks decode -> forall ops lists, Forall2 (gives_certs parses decode) ops lists -> forall s all, holds s all ->
  exists s', run x parses decode s ops = Some (Gives s') /\ holds s' (all ++ concat lists).
Proof using x parses decode.
  intros Sh ops lists F. induction F as [|o cs ops lists G F IH]; intros s all H; cbn [run concat].
  - exists s. now rewrite app_nil_r.
  - assert (X : exists s1, step x parses decode s o = Some (Gives s1) /\ holds s1 (all ++ cs)).
    { destruct G as [c|text cs P]; cbn [step].
      - destruct (add_holds s all c H) as (s1 & A & H1). exists s1. now rewrite A.
      - destruct (pem_holds cs text P Sh (length text) s all false (le_n _) H) as (s1 & A & H1). exists s1. now rewrite A. }
    destruct X as (s1 & -> & H1). destruct (IH s1 (all ++ cs) H1) as (s' & R & H'). exists s'. now rewrite app_assoc.
Qed.

Lemma parents_good s c : good s -> find_parents x (Some s) c =
  Gives (filter (fun p => match authority_key x c with
                          | [] => bytes_eqb (subject x p) (issuer x c)
                          | _ :: _ => bytes_eqb (subject_key x p) (authority_key x c)
                          end) (certs s)).
Proof.
  intros (f & g & F & G & Hf & Hg). unfold find_parents. destruct (authority_key x c) as [|a r] eqn:K.
  - rewrite G. cbn [entries]. rewrite Hg. pose proof (at_all_positions (named_ (issuer x c)) (certs s) []) as A. cbn in A. rewrite A.
    f_equal. apply filter_ext. intros p. apply bytes_eqb_sym.
  - rewrite F. cbn [entries]. rewrite Hf. pose proof (at_all_positions (keyed_ (a :: r)) (certs s) []) as A. cbn in A. rewrite A.
    f_equal. apply filter_ext. intros p. unfold keyed_. destruct (subject_key x p); [reflexivity|apply bytes_eqb_sym].
Qed.
End X509.

Lemma pem_total parses decode : shrinks decode -> forall text, exists cs, pem parses decode text cs.
Proof.
  intros Sh text. remember (length text) as n eqn:E. assert (L : length text <= n) by lia. clear E.
  revert text L. induction n as [|n IH]; intros text L.
  - destruct text; [|cbn in L; lia]. exists []. constructor.
  - destruct text as [|x t]; [exists []; constructor|]. destruct (decode (x :: t)) as [[b rest]|] eqn:D; [|exists []; now constructor].
    pose proof (Sh _ _ _ D) as Lr. destruct (IH rest) as (cs & P); [cbn in *; lia|].
    destruct (negb (b_certificate b) || negb (Nat.eqb (b_headers b) 0)) eqn:E1.
    { exists cs. eapply pem_other; eauto; [discriminate|]. rewrite usable_iff. rewrite E1. now intros [X _]. }
    destruct (negb (parses (b_bytes b))) eqn:E2.
    { exists cs. eapply pem_other; eauto; [discriminate|]. rewrite usable_iff. rewrite E2. now intros [_ X]. }
    exists (b_bytes b :: cs). eapply pem_cert; eauto; [discriminate|]. now apply usable_iff.
Qed.
