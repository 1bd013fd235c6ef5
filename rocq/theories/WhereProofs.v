(** The where clause. *)
From Coq Require Import ZArith List Bool Lia.
From Coq Require Import ZifyBool ZifyNat.
From Verif Require Import WhereClause WhereSpec.
Import ListNotations.
Open Scope Z_scope.

Scheme tree_mut := Induction for filter_tree Sort Prop with term_mut := Induction for term Sort Prop.
Combined Scheme tree_term_ind from tree_mut, term_mut.

Lemma go_eq_spec a b : comparable a -> comparable b -> go_eq a b = Some (if wval_eq_dec a b then true else false).
Proof.
  intros A B. destruct a, b; cbn [comparable go_eq] in *; try contradiction;
    try (match goal with |- context [wval_eq_dec ?x ?y] => destruct (wval_eq_dec x y) as [E|E]; [discriminate E|reflexivity] end).
  - destruct (wval_eq_dec WNil WNil); congruence.
  - match goal with |- context [wval_eq_dec ?x ?y] => destruct (wval_eq_dec x y) as [E|E] end; [injection E as ->; now rewrite eqb_reflx|]. f_equal. apply eqb_false_iff. congruence.
  - match goal with |- context [wval_eq_dec ?x ?y] => destruct (wval_eq_dec x y) as [E|E] end; [injection E as ->; now rewrite Z.eqb_refl|]. f_equal. apply Z.eqb_neq. congruence.
  - match goal with |- context [wval_eq_dec ?x ?y] => destruct (wval_eq_dec x y) as [E|E] end; [injection E as -> ->; now rewrite !Z.eqb_refl|]. f_equal.
    destruct (Z.eqb_spec t t0), (Z.eqb_spec c c0); cbn; congruence.
Qed.

Section P.
  Variable attr : Z -> wval.
  Variable event_type : wval.
  Variable subtype : Z -> Z -> bool.
  Notation wc := (where_clause attr event_type subtype).
  Notation holds := (holds attr event_type subtype).
  Notation denotes := (denotes attr event_type subtype).
  Notation scalar := (scalar attr).
  Notation scalar_term := (scalar_term attr).

  Lemma denotes_comparable x : scalar_term x -> comparable (denotes x).
  Proof. destruct x; cbn; auto. Qed.
  Lemma tree_spec :
    (forall t pre post n, scalar t -> (tree_depth t <= n)%nat ->
       wc n (pre ++ elements (length pre) t ++ post) (length pre) = WOut (WBool (holds t))) /\
    (forall x pre post n, scalar_term x -> (term_depth x <= n)%nat ->
       operand_value attr (wc n (pre ++ term_elements (length pre) x ++ post)) (term_operand (length pre) x) = Some (WOut (denotes x))).
  Proof.
    apply tree_term_ind.
    - intros a IHa b IHb pre post n [Sa Sb] D. cbn [tree_depth] in D. destruct n as [|n]; [lia|].
      set (ea := term_elements (S (length pre)) a). set (eb := term_elements (S (length pre) + length ea) b).
      set (h := mkEl op_equals [term_operand (S (length pre)) a; term_operand (S (length pre) + length ea) b]).
      assert (E : elements (length pre) (TEquals a b) = h :: ea ++ eb) by reflexivity. rewrite E.
      assert (A : operand_value attr (wc n (pre ++ (h :: ea ++ eb) ++ post)) (term_operand (S (length pre)) a) = Some (WOut (denotes a))).
      { specialize (IHa (pre ++ [h]) (eb ++ post) n Sa ltac:(lia)). rewrite app_length in IHa. cbn [length] in IHa. rewrite Nat.add_1_r in IHa. rewrite <- IHa. fold ea. do 2 f_equal. cbn [app]. rewrite <- !app_assoc. reflexivity. }
      assert (B : operand_value attr (wc n (pre ++ (h :: ea ++ eb) ++ post)) (term_operand (S (length pre) + length ea) b) = Some (WOut (denotes b))).
      { specialize (IHb (pre ++ [h] ++ ea) post n Sb ltac:(lia)).
        replace (length (pre ++ [h] ++ ea)) with (S (length pre) + length ea)%nat in IHb by (rewrite !app_length; cbn; lia). rewrite <- IHb. fold eb. do 2 f_equal. cbn [app]. rewrite <- !app_assoc. reflexivity. }
      cbn [where_clause]. rewrite nth_error_app2 by lia. rewrite Nat.sub_diag. cbn [app nth_error]. change (el_op h =? op_equals) with true. cbv iota.
      change (el_operands h) with [term_operand (S (length pre)) a; term_operand (S (length pre) + length ea) b]. cbv iota.
      cbn [app] in A, B. rewrite A, B. rewrite go_eq_spec by now apply denotes_comparable. reflexivity.
    - intros ty pre post n _ D. cbn [tree_depth] in D. destruct n as [|n]; [lia|]. cbn [where_clause elements]. rewrite nth_error_app2 by lia. rewrite Nat.sub_diag. cbn. destruct event_type; reflexivity.
    - intros op os pre post n U D. cbn [tree_depth] in D. destruct n as [|n]; [lia|]. cbn [where_clause elements]. rewrite nth_error_app2 by lia. rewrite Nat.sub_diag. cbn [app nth_error el_op].
      cbn [WhereSpec.scalar] in U. unfold supported in U. destruct (Z.eqb_spec op op_equals); [tauto|]. destruct (Z.eqb_spec op op_oftype); [tauto|]. reflexivity.
    - reflexivity.
    - reflexivity.
    - intros t IH pre post n S D. cbn [term_elements term_operand operand_value denotes WhereSpec.denotes]. f_equal. now apply IH.
  Qed.
  Lemma tree_selects t : scalar t -> forall n, (tree_depth t <= n)%nat -> selects attr event_type subtype n (elements 0 t) = Some (holds t).
  Proof.
    intros S n D. unfold selects. pose proof (proj1 tree_spec t [] [] n S D) as E. cbn [app length] in E. rewrite app_nil_r in E. now rewrite E.
  Qed.

  (** * Any list of elements *)
  Definition returns (r : wres) : Prop := r <> WDeep.
  Lemma ranked_returns els rank : ranked els rank -> forall n i, (rank i < n)%nat -> wc n els i <> WDeep.
  Proof.
    intros R n. induction n as [|n IH]; intros i H; [lia|]. cbn [where_clause]. destruct (nth_error els i) as [e|] eqn:E; [|discriminate].
    specialize (R i e). destruct (el_op e =? op_equals).
    - destruct (el_operands e) as [|o1 os] eqn:O; [discriminate|].
      assert (V : forall o, In o (el_operands e) -> operand_value attr (wc n els) o <> Some WDeep).
      { intros o Ho. destruct o as [v|a|j|]; cbn; try discriminate. intros C. injection C as C. apply (IH j); [|exact C]. rewrite O in Ho. specialize (R j E Ho). lia. }
      pose proof (V o1) as V1. rewrite O in V1. specialize (V1 (or_introl eq_refl)).
      destruct (operand_value attr (wc n els) o1) as [[a| |]|]; try discriminate; [|congruence].
      destruct os as [|o2 os]; [discriminate|]. pose proof (V o2) as V2. rewrite O in V2. specialize (V2 (or_intror (or_introl eq_refl))).
      destruct (operand_value attr (wc n els) o2) as [[b| |]|]; try discriminate; [|congruence]. destruct (go_eq a b); discriminate.
    - destruct (el_op e =? op_oftype); [|discriminate]. destruct (el_operands e) as [|[[| |c| |]| | |] os]; try discriminate. destruct event_type; discriminate.
  Qed.
  (** Forward references: one level for each element that is still to come, and one for the
      answer past the end. *)
  Lemma forward_returns els : forward els -> forall n, (length els < n)%nat -> wc n els 0 <> WDeep.
  Proof.
    intros F n H. apply (ranked_returns els (fun i => length els - i)%nat); [|lia].
    intros i e j E J. pose proof (F i e j E J). assert (i < length els)%nat by (apply nth_error_Some; congruence). lia.
  Qed.
  Lemma circular_diverges els loop : circular els loop -> forall n i, loop i -> wc n els i = WDeep.
  Proof.
    intros C n. induction n as [|n IH]; intros i L; [reflexivity|]. destruct (C i L) as (j & os & E & J). cbn [where_clause]. rewrite E. cbn. now rewrite (IH j J).
  Qed.
  Lemma unsupported_root els e : nth_error els 0 = Some e -> ~ supported (el_op e) -> forall n, selects attr event_type subtype (S n) els = Some false.
  Proof.
    intros E U n. unfold selects. cbn [where_clause]. rewrite E. unfold supported in U.
    destruct (Z.eqb_spec (el_op e) op_equals); [tauto|]. destruct (Z.eqb_spec (el_op e) op_oftype); [tauto|]. reflexivity.
  Qed.
  Lemma missing_operand els op os n : nth_error els 0 = Some (mkEl op os) ->
    (os = [] /\ supported op \/ op = op_equals /\ exists v, os = [OLit v]) -> wc (S n) els 0 = WPanic.
  Proof.
    intros E H. cbn [where_clause]. rewrite E. cbn [el_op el_operands]. destruct H as [[-> [-> | ->]]|[-> (v & ->)]]; reflexivity.
  Qed.
  Lemma list_compared els t n : nth_error els 0 = Some (mkEl op_equals [OLit (WList t); OLit (WList t)]) -> wc (S n) els 0 = WPanic.
  Proof. intros E. cbn [where_clause]. rewrite E. cbn [el_op el_operands]. rewrite Z.eqb_refl. cbn [operand_value go_eq]. now rewrite Z.eqb_refl. Qed.
  Lemma nested_unsupported op os n : ~ supported op ->
    selects attr event_type subtype (S (S n)) [mkEl op_equals [OElem 1; OLit (WBool false)]; mkEl op os] = Some true.
  Proof.
    intros U. unfold supported in U. unfold selects. cbn. change (op_equals =? op_equals) with true. cbv iota. cbn.
    destruct (Z.eqb_spec op op_equals); [tauto|]. destruct (Z.eqb_spec op op_oftype); [tauto|]. reflexivity.
  Qed.
  Lemma empty_selects n : selects attr event_type subtype (S n) [] = Some true. Proof. reflexivity. Qed.
  (** More depth does not change a value. *)
  Lemma depth_more els : forall n i v, wc n els i = WOut v -> wc (S n) els i = WOut v.
  Proof.
    induction n as [|n IH]; intros i v H; [discriminate|]. change (wc (S (S n)) els i) with
      (match nth_error els i with
        | None => WOut (WBool true)
        | Some e =>
            if el_op e =? op_equals then
              match el_operands e with
              | [] => WPanic
              | o1 :: os =>
                  match operand_value attr (wc (S n) els) o1 with
                  | None => WOut (WBool false)
                  | Some (WOut a) =>
                      match os with
                      | [] => WPanic
                      | o2 :: _ =>
                          match operand_value attr (wc (S n) els) o2 with
                          | None => WOut (WBool false)
                          | Some (WOut b) => match go_eq a b with Some r => WOut (WBool r) | None => WPanic end
                          | Some r => r
                          end
                      end
                  | Some r => r
                  end
              end
            else if el_op e =? op_oftype then
              match el_operands e with
              | [] => WPanic
              | OLit (WNode b) :: _ =>
                  match event_type with
                  | WNode c => WOut (WBool ((c =? b) || subtype c b))
                  | _ => WOut (WBool false)
                  end
              | _ => WOut (WBool false)
              end
            else WOut (WBool false)
        end).
    assert (V : forall o x, operand_value attr (wc n els) o = Some (WOut x) -> operand_value attr (wc (S n) els) o = Some (WOut x)).
    { intros o x Ho. destruct o as [w|a|j|]; try exact Ho. cbn [operand_value] in *. injection Ho as Ho. f_equal. now apply IH. }
    assert (V0 : forall o, operand_value attr (wc n els) o = None -> operand_value attr (wc (S n) els) o = None) by (intros [w|a|j|]; easy).
    cbn [where_clause] in H. fold wc in *. destruct (nth_error els i) as [e|]; [|exact H]. destruct (el_op e =? op_equals); [|exact H].
    destruct (el_operands e) as [|o1 os]; [exact H|].
    destruct (operand_value attr (wc n els) o1) as [[a| |]|] eqn:E1; try discriminate; [|rewrite (V0 _ E1); exact H]. rewrite (V _ _ E1).
    destruct os as [|o2 os]; [exact H|].
    destruct (operand_value attr (wc n els) o2) as [[b| |]|] eqn:E2; try discriminate; [|rewrite (V0 _ E2); exact H]. rewrite (V _ _ E2). exact H.
  Qed.
End P.
