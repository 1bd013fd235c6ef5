(** Data change filters: which samples are reported. *)
From Coq Require Import ZArith List Bool Lia.
From Coq Require Import ZifyBool ZifyNat.
From Verif Require Import Bytes Float FloatProofs MonQueue MonQueueProofs DataChange DataChangeSpec.
Import ListNotations.
Open Scope Z_scope.

(** * Values *)
Section Ind.
  Variable P : mval -> Prop.
  Hypothesis (H1 : P MNil) (H2 : forall t z, P (MInt t z)) (H3 : forall t z, P (MUint t z)) (H4 : forall t f, P (MFlt t f)).
  Hypothesis (H5 : forall t n p els, Forall P els -> P (MSlice t n p els)) (H6 : forall t n p bs, P (MByteSlice t n p bs)).
  Hypothesis (H7 : forall t els, Forall P els -> P (MArray t els)) (H8 : forall t c, P (MOther t c)).
  Fixpoint mval_all (v : mval) : P v :=
    let go := fix go l : Forall P l := match l with [] => Forall_nil P | x :: r => Forall_cons x (mval_all x) (go r) end in
    match v with
    | MNil => H1 | MInt t z => H2 t z | MUint t z => H3 t z | MFlt t f => H4 t f
    | MSlice t n p els => H5 t n p els (go els) | MByteSlice t n p bs => H6 t n p bs
    | MArray t els => H7 t els (go els) | MOther t c => H8 t c
    end.
End Ind.
Lemma f_same_eq a b : a <> FNaN -> f_same a b = true <-> a = b.
Proof.
  intros N. destruct a as [|s|x], b as [|r|y]; cbn; try (split; [discriminate|now intros]); try congruence.
  - rewrite eqb_true_iff. split; congruence.
  - rewrite Z.eqb_eq. split; congruence.
Qed.
Lemma all2_eqb l : forall l', all2 Z.eqb l l' = true <-> l = l'.
Proof.
  induction l as [|x l IH]; intros [|y l']; cbn; try (split; [discriminate|now intros]); [tauto|].
  rewrite andb_true_iff, Z.eqb_eq, IH. split; [intros [-> ->]; reflexivity|]. now injection 1.
Qed.
Section Deep.
  Variables (mem : Z -> Z -> nat -> list mval) (bytemem : Z -> Z -> nat -> list Z).
  Notation stored := (stored mem bytemem).
  Lemma deep_equal_spec a : forall b, plain a -> stored a -> stored b -> deep_equal a b = true <-> content a = content b.
  Proof.
    induction a as [|t z|t z|t f|t n p els IH|t n p bs|t els IH|t c] using mval_all; intros b PL SA SB.
    - destruct b; cbn; try (split; [discriminate|now intros]). tauto.
    - destruct b; cbn; try (split; [discriminate|now intros]). rewrite andb_true_iff, !Z.eqb_eq. split; [intros [-> ->]; reflexivity|now injection 1].
    - destruct b; cbn; try (split; [discriminate|now intros]). rewrite andb_true_iff, !Z.eqb_eq. split; [intros [-> ->]; reflexivity|now injection 1].
    - destruct b; cbn; try (split; [discriminate|now intros]). rewrite andb_true_iff, Z.eqb_eq, f_same_eq by exact PL. split; [intros [-> ->]; reflexivity|now injection 1].
    - destruct b as [| | | |t' n' p' els'| | |]; cbn [deep_equal content]; try (split; [discriminate|now intros]).
      cbn [DataChangeSpec.stored plain] in *. destruct SA as [A1 A2], SB as [B1 B2].
      assert (A : forall l', fold_right (fun x P => stored x /\ P) True l' -> all2 deep_equal els l' = true <-> map content els = map content l').
      { clear A1 B1 B2 els'. induction els as [|x els IHe]; intros [|y l'] S'; cbn; try (split; [discriminate|now intros]); [tauto|].
        cbn [fold_right] in *. destruct PL as [PL1 PL2], A2 as [A2 A3], S' as [S1 S2].
        rewrite andb_true_iff, (Forall_inv IH y PL1 A2 S1), (IHe (Forall_inv_tail IH) PL2 A3 l' S2). split; [intros [-> ->]; reflexivity|now injection 1]. }
      rewrite !andb_true_iff, orb_true_iff, !Z.eqb_eq, eqb_true_iff, Nat.eqb_eq, (A els' B2). split.
      + intros [[[-> ->] L] [-> |E]]; [|now rewrite E]. rewrite A1, B1, L. reflexivity.
      + injection 1 as -> -> E. split; [|now right]. split; [auto|]. rewrite <- (map_length content els), E. apply map_length.
    - destruct b as [| | | | |t' n' p' bs'| |]; cbn [deep_equal content]; try (split; [discriminate|now intros]).
      cbn [DataChangeSpec.stored] in *. rewrite !andb_true_iff, orb_true_iff, !Z.eqb_eq, eqb_true_iff, Nat.eqb_eq, all2_eqb. split.
      + intros [[[-> ->] L] [-> | ->]]; [|reflexivity]. rewrite SA, SB, L. reflexivity.
      + injection 1 as -> -> ->. auto.
    - destruct b as [| | | | | |t' els'|]; cbn [deep_equal content]; try (split; [discriminate|now intros]).
      cbn [DataChangeSpec.stored plain] in *.
      assert (A : forall l', fold_right (fun x P => stored x /\ P) True l' -> all2 deep_equal els l' = true <-> map content els = map content l').
      { clear SB els'. induction els as [|x els IHe]; intros [|y l'] S'; cbn; try (split; [discriminate|now intros]); [tauto|].
        cbn [fold_right] in *. destruct PL as [PL1 PL2], SA as [A2 A3], S' as [S1 S2].
        rewrite andb_true_iff, (Forall_inv IH y PL1 A2 S1), (IHe (Forall_inv_tail IH) PL2 A3 l' S2). split; [intros [-> ->]; reflexivity|now injection 1]. }
      rewrite andb_true_iff, Z.eqb_eq, (A els' SB). split; [intros [-> ->]; reflexivity|now injection 1].
    - destruct b; cbn; try (split; [discriminate|now intros]). rewrite andb_true_iff, !Z.eqb_eq. split; [intros [-> ->]; reflexivity|now injection 1].
  Qed.
End Deep.

Lemma sel_status_eq s : status_code s -> sel_status s = s / 2 ^ 12 * 2 ^ 12.
Proof.
  intros H. unfold sel_status. change 0xFFFFF000 with (Z.ldiff (Z.ones 32) (Z.ones 12)).
  assert (E : Z.land s (Z.ldiff (Z.ones 32) (Z.ones 12)) = Z.ldiff (Z.land s (Z.ones 32)) (Z.ones 12)).
  { apply Z.bits_inj'. intros n Hn. rewrite !Z.land_spec, !Z.ldiff_spec, Z.land_spec. now rewrite andb_assoc. }
  rewrite E, Z.land_ones, Z.mod_small by (unfold status_code in H; lia). rewrite Z.ldiff_ones_r by lia.
  rewrite Z.shiftl_mul_pow2, Z.shiftr_div_pow2 by lia. reflexivity.
Qed.
Lemma status_same a b : status_code a -> status_code b -> (sel_status a =? sel_status b) = true <-> same_status a b.
Proof. intros A B. rewrite !sel_status_eq by assumption. unfold same_status. rewrite Z.eqb_eq. lia. Qed.

Lemma filter_exact mem bytemem trigger f cur prev : 0 <= trigger <= 2 -> df_trigger f = trigger -> df_type f = 0 ->
  status_code (dv_status cur) -> status_code (dv_status prev) -> plain (dv_value cur) ->
  stored mem bytemem (dv_value cur) -> stored mem bytemem (dv_value prev) ->
  is_data_change f cur prev = true <-> changed trigger cur prev.
Proof.
  intros R T D S1 S2 PL M1 M2. pose proof (status_same _ _ S1 S2) as SS. pose proof (deep_equal_spec mem bytemem _ (dv_value prev) PL M1 M2) as DE.
  unfold is_data_change, value_change, changed. rewrite T, D. cbv zeta. change (0 =? 0) with true. cbv iota.
  set (s := sel_status (dv_status cur) =? sel_status (dv_status prev)) in *. set (e := deep_equal _ _) in *. clearbody s e.
  rewrite <- SS, <- DE.
  assert (C : trigger = 0 \/ trigger = 1 \/ trigger = 2) by lia. destruct C as [-> |[-> | ->]]; cbn [Z.eqb Pos.eqb].
  - destruct s; cbn [negb]; intuition (congruence || lia).
  - destruct s, e; cbn [negb orb]; intuition (congruence || lia).
  - destruct (Z.eqb_spec (dv_source cur) (dv_source prev)); destruct s, e; cbn [negb orb]; intuition (congruence || lia).
Qed.

(** * Absolute deadband *)
Lemma i64_small a b : signed64 (a - b) -> i64_sub a b = a - b.
Proof. unfold signed64, i64_sub. intros H. rewrite Z.mod_small by lia. lia. Qed.
Lemma u64_small a b : unsigned64 (a - b) -> u64_sub a b = a - b.
Proof. unfold unsigned64, u64_sub. intros H. rewrite Z.mod_small by lia. lia. Qed.
Opaque funit round_q.
(** |x| <= d, computed on what has been rounded *)
Lemma pack_le (neg : bool) r d : 0 <= r -> d < f_max -> f_le (f_abs (f_pack neg r)) (FFin d) = (r <=? d).
Proof.
  intros R D. unfold f_pack. destruct (Z.leb_spec f_max r) as [L|L].
  - cbn [f_abs f_le]. symmetry. apply Z.leb_gt. lia.
  - cbn [f_abs f_le]. f_equal. destruct neg; lia.
Qed.
Lemma round_within n d : 0 <= n -> 0 <= d -> representable d -> n <= d -> round_q n 1 <= d.
Proof. intros. apply round_le; lia || assumption. Qed.
Lemma round_same n : 0 <= n -> representable n -> round_q n 1 = n.
Proof. intros. rewrite <- (round_exact n 1) at 2 by (assumption || lia). f_equal. lia. Qed.
Lemma rep_abs n : representable n -> representable (Z.abs n).
Proof.
  intros (m & e & He & Hm & ->). exists (Z.abs m), e. split; [exact He|]. split; [lia|].
  rewrite Z.abs_mul. f_equal. apply Z.abs_eq. apply Z.pow_nonneg. lia.
Qed.
Lemma f_int_sub a b : f_int a - f_int b = f_int (a - b). Proof. unfold f_int. lia. Qed.
Lemma f_max_eq : f_max = 2 ^ 2098. Proof. reflexivity. Qed.
(** the comparison the code makes, for each kind of number *)
Lemma near_computes cur prev x y d : near cur prev -> number cur = Some x -> number prev = Some y -> d < f_max ->
  equal_deadband cur prev (FFin d) = (round_q (Z.abs (x - y)) 1 <=? d).
Proof.
  intros N X Y D. destruct cur as [|t a|t a|t [|s|a]| | | |], prev as [|t' b|t' b|t' [|s'|b]| | | |]; cbn [near] in N; try destruct N;
    cbn [number] in X, Y; injection X as <-; injection Y as <-; subst; cbn [equal_deadband]; rewrite Z.eqb_refl; cbn [andb].
  - rewrite i64_small by assumption. unfold f_of_Z. rewrite f_int_sub. apply pack_le; [|exact D]. apply round_nonneg; lia.
  - rewrite u64_small by assumption. unfold f_of_Z. rewrite f_int_sub. apply pack_le; [|exact D]. apply round_nonneg; lia.
  - cbn [f_sub]. apply pack_le; [|exact D]. apply round_nonneg; lia.
Qed.
Lemma exact_rep cur prev x y : near cur prev -> exact cur prev -> number cur = Some x -> number prev = Some y -> representable (x - y).
Proof.
  intros N E X Y. destruct cur as [|t a|t a|t [|s|a]| | | |], prev as [|t' b|t' b|t' [|s'|b]| | | |]; cbn [near exact] in N, E; try destruct N;
    cbn [number] in X, Y; injection X as <-; injection Y as <-.
  - rewrite f_int_sub. apply rep_int, E.
  - rewrite f_int_sub. apply rep_int, E.
  - exact E.
Qed.
Lemma by_value_change f cur prev : by_value f cur prev -> is_data_change f cur prev = value_change f cur prev.
Proof.
  intros (T & S & S1 & S2). apply (status_same _ _ S1 S2) in S. unfold is_data_change. rewrite S. cbv zeta.
  destruct T as [-> |[-> ->]]; cbn [Z.eqb Pos.eqb negb orb]; [reflexivity|]. now rewrite Z.eqb_refl.
Qed.
Lemma deadband_exact f cur prev x y d : by_value f cur prev -> df_type f = 1 -> df_deadband f = FFin d -> double d ->
  near (dv_value cur) (dv_value prev) -> exact (dv_value cur) (dv_value prev) ->
  number (dv_value cur) = Some x -> number (dv_value prev) = Some y ->
  is_data_change f cur prev = true <-> d < Z.abs (x - y).
Proof.
  intros B T D [_ DB] N E X Y. rewrite (by_value_change _ _ _ B). unfold value_change. rewrite T, D. cbn [Z.eqb Pos.eqb].
  rewrite (near_computes _ _ x y d N X Y) by (rewrite f_max_eq; lia).
  rewrite round_same by (try lia; apply rep_abs, (exact_rep _ _ _ _ N E X Y)). rewrite negb_true_iff, Z.leb_gt. tauto.
Qed.
Lemma deadband_within f cur prev x y d : by_value f cur prev -> df_type f = 1 -> df_deadband f = FFin d -> double d ->
  near (dv_value cur) (dv_value prev) -> number (dv_value cur) = Some x -> number (dv_value prev) = Some y ->
  Z.abs (x - y) <= d -> is_data_change f cur prev = false.
Proof.
  intros B T D [R DB] N X Y L. rewrite (by_value_change _ _ _ B). unfold value_change. rewrite T, D. cbn [Z.eqb Pos.eqb].
  rewrite (near_computes _ _ x y d N X Y) by (rewrite f_max_eq; lia). rewrite negb_false_iff, Z.leb_le.
  apply round_within; try assumption; lia.
Qed.
(** A decrease of an unsigned value wraps round. *)
Lemma unsigned_falls f cur prev t a b d : by_value f cur prev -> df_type f = 1 -> df_deadband f = FFin d -> d < f_int (2 ^ 63) ->
  dv_value cur = MUint t a -> dv_value prev = MUint t b -> 0 <= a -> a < b <= a + 2 ^ 63 -> is_data_change f cur prev = true.
Proof.
  intros B T D L V1 V2 A AB. rewrite (by_value_change _ _ _ B). unfold value_change. rewrite T, D, V1, V2. cbn [Z.eqb Pos.eqb equal_deadband]. rewrite Z.eqb_refl. cbn [andb].
  assert (W : 2 ^ 63 <= u64_sub a b < 2 ^ 64).
  { unfold u64_sub. replace (a - b) with (2 ^ 64 - (b - a) + (-1) * 2 ^ 64) by lia. rewrite Z.mod_add, Z.mod_small by lia. lia. }
  unfold f_of_Z. pose proof funit_pos as FU.
  assert (M : f_int (2 ^ 63) <= round_q (Z.abs (f_int (u64_sub a b))) 1).
  { apply round_ge; try lia; [unfold f_int; lia|apply (rep_pow (2 ^ 10) (1074 + 53)); lia|]. unfold f_int. nia. }
  assert (F : f_int (2 ^ 63) < f_max) by (vm_compute; reflexivity).
  assert (F0 : 0 <= f_int (2 ^ 63)) by (unfold f_int; lia).
  set (r := round_q _ 1) in *. clearbody r. rewrite pack_le by lia. rewrite negb_true_iff, Z.leb_gt. lia.
Qed.
Lemma percent_always f cur prev : 1 <= df_trigger f <= 2 -> 2 <= df_type f -> is_data_change f cur prev = true.
Proof.
  intros T D. unfold is_data_change, value_change. cbv zeta. rewrite (proj2 (Z.eqb_neq (df_type f) 0)), (proj2 (Z.eqb_neq (df_type f) 1)) by lia.
  assert (C : df_trigger f = 1 \/ df_trigger f = 2) by lia. destruct C as [-> | ->]; cbn [Z.eqb Pos.eqb]; now rewrite !orb_true_r.
Qed.
Lemma elements_always f cur prev t els t' els' n p n' p' : by_value f cur prev -> df_type f = 1 -> els <> [] -> p <> p' ->
  (dv_value cur = MSlice t n p els /\ dv_value prev = MSlice t' n' p' els' \/ dv_value cur = MArray t els /\ dv_value prev = MArray t' els') ->
  is_data_change f cur prev = true.
Proof.
  intros B T E P V. rewrite (by_value_change _ _ _ B). unfold value_change. rewrite T. cbn [Z.eqb Pos.eqb].
  destruct els as [|x els]; [congruence|]. destruct V as [[-> ->]|[-> ->]]; cbn [equal_deadband empty_list]; rewrite negb_true_iff.
  - rewrite (proj2 (Z.eqb_neq p p') P). cbn [orb]. now rewrite andb_false_r.
  - now rewrite andb_false_r.
Qed.
