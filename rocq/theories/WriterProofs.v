(** Proofs about the fixed-size writer. *)
From Coq Require Import ZArith List Bool Lia Strings.Byte.
From Verif Require Import Bytes Writer.
Import ListNotations.
Open Scope nat_scope.

Lemma copy_at_length buf off p : off <= length buf -> length (fst (copy_at buf off p)) = length buf.
Proof.
  intros H. unfold copy_at. cbn [fst]. rewrite !app_length, !firstn_length, skipn_length. lia.
Qed.

Definition w_ok (w : writer) : Prop := w_i w <= length (w_buf w).

Lemma write_spec w p : w_ok w ->
  let '(w', r) := w_write w p in
  let n := Nat.min (length (w_buf w) - w_i w) (length p) in
  w_ok w' /\ length (w_buf w') = length (w_buf w) /\ w_i w' = w_i w + n /\
  w_bytes w' = w_bytes w ++ firstn n p /\
  skipn (w_i w') (w_buf w') = skipn (w_i w') (w_buf w).
Proof.
  intros H. unfold w_ok in *. unfold w_write.
  destruct (Nat.leb (length (w_buf w)) (w_i w)) eqn:C.
  - apply Nat.leb_le in C. replace (length (w_buf w) - w_i w) with 0 by lia. cbn [Nat.min].
    rewrite Nat.add_0_r. cbn [firstn]. rewrite app_nil_r. auto 10.
  - apply Nat.leb_gt in C. unfold copy_at. cbn [w_buf w_i].
    set (n := Nat.min (length (w_buf w) - w_i w) (length p)).
    assert (L1 : length (firstn (w_i w) (w_buf w)) = w_i w) by (rewrite firstn_length; lia).
    assert (L2 : length (firstn n p) = n) by (rewrite firstn_length; lia).
    assert (LT : length (firstn (w_i w) (w_buf w) ++ firstn n p ++ skipn (w_i w + n) (w_buf w)) = length (w_buf w)).
    { rewrite !app_length, L1, L2, skipn_length. lia. }
    split; [rewrite LT; lia|]. split; [exact LT|]. split; [reflexivity|]. split.
    + unfold w_bytes. cbn [w_buf w_i]. rewrite app_assoc, firstn_app, firstn_all2 by (rewrite app_length; lia).
      rewrite app_length, L1, L2, Nat.sub_diag. cbn [firstn]. now rewrite app_nil_r.
    + rewrite app_assoc, skipn_app. rewrite skipn_all2 by (rewrite app_length; lia).
      rewrite app_length, L1, L2, Nat.sub_diag. reflexivity.
Qed.

Lemma write_result w p : w_ok w ->
  let n := Nat.min (length (w_buf w) - w_i w) (length p) in
  snd (w_write w p) =
    if Nat.ltb n (length p) || (Nat.eqb (length p) 0 && Nat.eqb (w_i w) (length (w_buf w)))
    then WShort n else WOk n.
Proof.
  intros H n. unfold w_ok in H. unfold w_write.
  destruct (Nat.leb (length (w_buf w)) (w_i w)) eqn:C.
  - apply Nat.leb_le in C. subst n. replace (length (w_buf w) - w_i w) with 0 by lia. cbn [Nat.min snd].
    destruct p as [|x p]; cbn [length Nat.ltb Nat.leb Nat.eqb orb andb]; [|reflexivity].
    replace (w_i w) with (length (w_buf w)) by lia. rewrite Nat.eqb_refl. reflexivity.
  - apply Nat.leb_gt in C. unfold copy_at. cbn [snd]. fold n.
    assert (E : Nat.eqb (w_i w) (length (w_buf w)) = false) by (apply Nat.eqb_neq; lia).
    rewrite E, andb_false_r, orb_false_r. reflexivity.
Qed.

Lemma write_at_spec w p off : w_ok w ->
  let '(w', r) := w_write_at w p off in
  w_ok w' /\ length (w_buf w') = length (w_buf w) /\ w_i w' = w_i w /\
  (r <> WPanic -> forall k, (Z.of_nat k < off \/ Z.of_nat k >= off + Z.of_nat (length p))%Z ->
     nth_error (w_buf w') k = nth_error (w_buf w) k) /\
  (r = WPanic <-> (off < 0)%Z).
Proof.
  intros H. unfold w_ok in *. unfold w_write_at.
  destruct (Z.leb_spec (Z.of_nat (w_i w)) off) as [C|C].
  - repeat split; auto; try discriminate; lia.
  - destruct (Z.ltb_spec off 0) as [D|D].
    + repeat split; auto; congruence.
    + unfold copy_at. cbn [w_buf w_i]. set (o := Z.to_nat off).
      set (n := Nat.min (length (w_buf w) - o) (length p)).
      assert (L1 : length (firstn o (w_buf w)) = o) by (rewrite firstn_length; lia).
      assert (L2 : length (firstn n p) = n) by (rewrite firstn_length; lia).
      assert (LT : length (firstn o (w_buf w) ++ firstn n p ++ skipn (o + n) (w_buf w)) = length (w_buf w)).
      { rewrite !app_length, L1, L2, skipn_length. lia. }
      split; [rewrite LT; lia|]. split; [exact LT|]. split; [reflexivity|]. split.
      * intros _ k K. destruct (Nat.lt_ge_cases k o) as [Hk|Hk].
        -- rewrite nth_error_app1 by lia.
           rewrite <- (firstn_skipn o (w_buf w)) at 2. rewrite nth_error_app1 by lia. reflexivity.
        -- rewrite nth_error_app2 by lia. rewrite nth_error_app2 by lia. rewrite L1, L2.
           rewrite <- (firstn_skipn (o + n) (w_buf w)) at 2.
           destruct (Nat.lt_ge_cases (length (w_buf w)) (o + n)) as [Hb|Hb]; [lia|].
           assert (L3 : length (firstn (o + n) (w_buf w)) = o + n) by (rewrite firstn_length; lia).
           rewrite nth_error_app2 by lia. rewrite L3. f_equal. lia.
      * destruct (Nat.ltb n (length p)); split; try discriminate; lia.
Qed.

Lemma step_ok w o : w_ok w -> let w' := fst (w_step w o) in
  w_ok w' /\ length (w_buf w') = length (w_buf w) /\ w_i w <= w_i w'.
Proof.
  intros H. destruct o as [p|p off]; cbn [w_step].
  - pose proof (write_spec w p H) as S. destruct (w_write w p) as [w' r]. cbn [fst].
    destruct S as (S1 & S2 & S3 & _). repeat split; auto. lia.
  - pose proof (write_at_spec w p off H) as S. destruct (w_write_at w p off) as [w' r]. cbn [fst].
    destruct S as (S1 & S2 & S3 & _). repeat split; auto. lia.
Qed.

Lemma run_ok ops w : w_ok w -> w_ok (w_run w ops) /\ length (w_buf (w_run w ops)) = length (w_buf w).
Proof.
  revert w. induction ops as [|o ops IH]; intros w H; [split; [exact H|reflexivity]|].
  unfold w_run in *. cbn [fold_left]. pose proof (step_ok w o H) as (A & B & _).
  destruct (IH _ A) as [C D]. split; [exact C|]. congruence.
Qed.

Lemma skipn_plus {A} (l : list A) a b : skipn (a + b) l = skipn b (skipn a l).
Proof. revert l. induction a as [|a IH]; intros l; [reflexivity|]. destruct l; [now destruct b|]. apply IH. Qed.

Lemma run_writes buf ps :
  w_bytes (w_run (new_writer buf) (map Write ps)) = firstn (length buf) (concat ps) /\
  skipn (length (concat ps)) (w_buf (w_run (new_writer buf) (map Write ps))) = skipn (length (concat ps)) buf.
Proof.
  assert (G : forall ps w done, w_ok w -> w_bytes w = firstn (length (w_buf w)) done ->
     w_i w = Nat.min (length (w_buf w)) (length done) ->
     w_bytes (w_run w (map Write ps)) = firstn (length (w_buf w)) (done ++ concat ps) /\
     skipn (length (done ++ concat ps)) (w_buf (w_run w (map Write ps)))
       = skipn (length (done ++ concat ps)) (w_buf w)).
  { clear. induction ps as [|p ps IH]; intros w done H HB HI.
    - cbn [map concat]. rewrite app_nil_r. split; [exact HB|reflexivity].
    - unfold w_run in *. cbn [map concat fold_left w_step].
      pose proof (write_spec w p H) as S. destruct (w_write w p) as [w' r]. cbn [fst] in *.
      destruct S as (S1 & S2 & S3 & S4 & S5).
      set (n := Nat.min (length (w_buf w) - w_i w) (length p)) in *.
      assert (EB : firstn (length (w_buf w)) done ++ firstn n p = firstn (length (w_buf w)) (done ++ p)).
      { rewrite firstn_app. f_equal. unfold n. rewrite HI.
        destruct (Nat.le_gt_cases (length p) (length (w_buf w) - length done)) as [L|L].
        - rewrite !firstn_all2; [reflexivity|lia|lia].
        - f_equal. lia. }
      destruct (IH w' (done ++ p) S1) as [G1 G2].
      + rewrite S4, S2, HB. exact EB.
      + rewrite S2, S3, app_length. unfold n. lia.
      + rewrite S2 in G1. rewrite <- app_assoc in G1, G2. split; [exact G1|]. rewrite G2.
        destruct (Nat.le_gt_cases (w_i w') (length (done ++ p ++ concat ps))) as [L|L].
        * set (m := length (done ++ p ++ concat ps)) in *.
          replace m with (w_i w' + (m - w_i w')) by lia.
          rewrite !skipn_plus, S5. reflexivity.
        * rewrite !app_length in L. unfold n in S3. lia. }
  destruct (G ps (new_writer buf) []) as [G1 G2].
  - unfold w_ok. cbn. lia.
  - cbn. now destruct (length buf).
  - cbn. lia.
  - split; assumption.
Qed.
