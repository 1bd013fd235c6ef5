(** Rounding: monotone, exact on what is representable, close to the argument. *)
From Coq Require Import ZArith Bool Lia.
From Verif Require Import Float.
Open Scope Z_scope.

(** What a float64 can be: at most 53 significant bits. *)
Definition representable (z : Z) : Prop := exists m e, 0 <= e /\ Z.abs m <= 2 ^ 53 /\ z = m * 2 ^ e.

Lemma funit_pos : 0 < funit. Proof. reflexivity. Qed.
Opaque funit.

Lemma nearest_bounds a b : 0 < b -> a / b <= nearest a b <= a / b + 1.
Proof.
  intros H. unfold nearest. destruct (2 * _ <? _); [lia|]. destruct (_ <? 2 * _); [lia|]. destruct (Z.even _); lia.
Qed.
Lemma nearest_half a b : 0 < b -> 2 * a - b <= 2 * (nearest a b * b) <= 2 * a + b.
Proof.
  intros H. unfold nearest. pose proof (Z.div_mod a b ltac:(lia)). pose proof (Z.mod_pos_bound a b H).
  set (q := a / b) in *. set (r := a mod b) in *. clearbody q r.
  destruct (Z.ltb_spec (2 * r) b); [nia|]. destruct (Z.ltb_spec b (2 * r)); [nia|]. destruct (Z.even q); nia.
Qed.
Lemma nearest_exact q b : 0 < b -> nearest (q * b) b = q.
Proof.
  intros H. unfold nearest. rewrite Z.div_mul, Z.mod_mul by lia. destruct (Z.ltb_spec (2 * 0) b); [reflexivity|lia].
Qed.
Lemma div_mono2 a1 b1 a2 b2 : 0 < b1 -> 0 < b2 -> a1 * b2 <= a2 * b1 -> a1 / b1 <= a2 / b2.
Proof.
  intros H1 H2 L. apply Z.div_le_lower_bound; [exact H2|]. pose proof (Z.mul_div_le a1 b1 H1) as M.
  apply Z.mul_le_mono_pos_r with b1; [exact H1|]. apply Z.le_trans with (a1 * b2); [|exact L].
  set (q := a1 / b1) in *. clearbody q. nia.
Qed.
Lemma nearest_mono a1 b1 a2 b2 : 0 < b1 -> 0 < b2 -> a1 * b2 <= a2 * b1 -> nearest a1 b1 <= nearest a2 b2.
Proof.
  intros H1 H2 L. unfold nearest. pose proof (div_mono2 a1 b1 a2 b2 H1 H2 L) as Q.
  pose proof (Z.div_mod a1 b1 ltac:(lia)). pose proof (Z.mod_pos_bound a1 b1 H1).
  pose proof (Z.div_mod a2 b2 ltac:(lia)). pose proof (Z.mod_pos_bound a2 b2 H2).
  set (q1 := a1 / b1) in *. set (r1 := a1 mod b1) in *. set (q2 := a2 / b2) in *. set (r2 := a2 mod b2) in *.
  clearbody q1 r1 q2 r2. subst a1 a2.
  assert (C : q1 < q2 \/ q1 = q2) by lia. destruct C as [C|C].
  - destruct (2 * r1 <? b1), (b1 <? 2 * r1), (Z.even q1), (2 * r2 <? b2), (b2 <? 2 * r2), (Z.even q2); lia.
  - subst q2. assert (R : r1 * b2 <= r2 * b1) by nia.
    destruct (Z.ltb_spec (2 * r1) b1), (Z.ltb_spec b1 (2 * r1)), (Z.ltb_spec (2 * r2) b2), (Z.ltb_spec b2 (2 * r2)), (Z.even q1); try lia; nia.
Qed.

(** the exponent used for a quotient *)
Definition expo (q : Z) : Z := Z.max 0 (Z.log2 q - 52).
Lemma expo_nonneg q : 0 <= expo q. Proof. unfold expo. lia. Qed.
Lemma expo_mono p q : p <= q -> expo p <= expo q.
Proof. intros H. unfold expo. pose proof (Z.log2_le_mono p q H). lia. Qed.
Lemma expo_upper q : q < 2 ^ (53 + expo q).
Proof.
  unfold expo. destruct (Z.le_gt_cases q 0).
  - pose proof (Z.pow_pos_nonneg 2 (53 + Z.max 0 (Z.log2 q - 52)) ltac:(lia) ltac:(lia)). lia.
  - pose proof (Z.log2_spec q ltac:(lia)). apply Z.lt_le_trans with (2 ^ Z.succ (Z.log2 q)); [lia|].
    apply Z.pow_le_mono_r; lia.
Qed.
Lemma expo_lower q : 0 < expo q -> 2 ^ (52 + expo q) <= q.
Proof.
  unfold expo. intros H. assert (0 < q) by (destruct (Z.le_gt_cases q 0); [rewrite Z.log2_nonpos in H; lia|lia]).
  pose proof (Z.log2_spec q ltac:(lia)). replace (52 + _) with (Z.log2 q) by lia. lia.
Qed.
Lemma round_q_expo n d : round_q n d = nearest n (d * 2 ^ expo (n / d)) * 2 ^ expo (n / d).
Proof. reflexivity. Qed.
Opaque round_q.
Lemma pow_pos e : 0 <= e -> 0 < 2 ^ e. Proof. intros. apply Z.pow_pos_nonneg; lia. Qed.

Lemma round_upper n d : 0 <= n -> 0 < d -> round_q n d <= 2 ^ (53 + expo (n / d)).
Proof.
  intros Hn Hd. rewrite round_q_expo. pose proof (expo_nonneg (n / d)) as E. pose proof (pow_pos _ E) as P.
  rewrite Z.pow_add_r by lia. apply Z.mul_le_mono_nonneg_r; [lia|].
  pose proof (nearest_bounds n (d * 2 ^ expo (n / d)) ltac:(lia)) as [_ B].
  assert (n / (d * 2 ^ expo (n / d)) < 2 ^ 53); [|lia].
  rewrite <- Z.div_div by lia. apply Z.div_lt_upper_bound; [lia|]. rewrite Z.mul_comm, <- Z.pow_add_r by lia.
  apply expo_upper.
Qed.
Lemma round_lower n d : 0 <= n -> 0 < d -> 0 < expo (n / d) -> 2 ^ (52 + expo (n / d)) <= round_q n d.
Proof.
  intros Hn Hd E. rewrite round_q_expo. pose proof (pow_pos (expo (n / d)) ltac:(lia)) as P.
  rewrite Z.pow_add_r by lia. apply Z.mul_le_mono_nonneg_r; [lia|].
  pose proof (nearest_bounds n (d * 2 ^ expo (n / d)) ltac:(lia)) as [B _].
  assert (2 ^ 52 <= n / (d * 2 ^ expo (n / d))); [|lia].
  rewrite <- Z.div_div by lia. apply Z.div_le_lower_bound; [lia|]. rewrite Z.mul_comm, <- Z.pow_add_r by lia.
  apply expo_lower, E.
Qed.
Lemma round_mono n1 d1 n2 d2 : 0 <= n1 -> 0 < d1 -> 0 <= n2 -> 0 < d2 -> n1 * d2 <= n2 * d1 -> round_q n1 d1 <= round_q n2 d2.
Proof.
  intros N1 D1 N2 D2 L.
  assert (Q : n1 / d1 <= n2 / d2) by (apply div_mono2; assumption).
  pose proof (expo_mono _ _ Q) as EM. pose proof (expo_nonneg (n1 / d1)) as E0.
  assert (C : expo (n1 / d1) = expo (n2 / d2) \/ expo (n1 / d1) < expo (n2 / d2)) by lia. destruct C as [C|C].
  - rewrite !round_q_expo, <- C. pose proof (pow_pos _ E0) as P.
    apply Z.mul_le_mono_nonneg_r; [lia|]. apply nearest_mono; nia.
  - apply Z.le_trans with (2 ^ (53 + expo (n1 / d1))); [apply round_upper; assumption|].
    apply Z.le_trans with (2 ^ (52 + expo (n2 / d2))); [apply Z.pow_le_mono_r; lia|]. apply round_lower; lia.
Qed.
Lemma expo_divides z : representable z -> 0 <= z -> exists q, z = q * 2 ^ expo z.
Proof.
  intros (m & e & He & Hm & ->) Hz. unfold expo.
  destruct (Z.eq_dec m 0) as [->|M0]; [exists 0; reflexivity|].
  pose proof (pow_pos e He) as P. assert (0 < m) by nia. rewrite Z.log2_mul_pow2 by lia.
  destruct (Z.eq_dec m (2 ^ 53)) as [->|M].
  - rewrite Z.log2_pow2 by lia. rewrite Z.max_r by lia. exists (2 ^ 52). rewrite <- !Z.pow_add_r by lia. f_equal. lia.
  - assert (Z.log2 m < 53) by (apply Z.log2_lt_pow2; lia). pose proof (Z.log2_nonneg m).
    set (k := Z.max 0 (Z.log2 m + e - 52)). assert (0 <= k <= e) by (unfold k; lia).
    exists (m * 2 ^ (e - k)). rewrite <- Z.mul_assoc, <- Z.pow_add_r by lia. f_equal. f_equal. lia.
Qed.
Lemma round_exact z d : representable z -> 0 <= z -> 0 < d -> round_q (z * d) d = z.
Proof.
  intros R Hz Hd. rewrite round_q_expo, Z.div_mul by lia. destruct (expo_divides z R Hz) as (q & E).
  pose proof (pow_pos (expo z) (expo_nonneg z)) as P.
  replace (z * d) with (q * (d * 2 ^ expo z)) by (rewrite E at 2; ring). rewrite nearest_exact by lia. symmetry. exact E.
Qed.
Lemma rep_int n : Z.abs n <= 2 ^ 53 -> representable (f_int n).
Proof. intros H. exists n, 1074. split; [lia|]. split; [exact H|]. reflexivity. Qed.
Lemma rep_pow n e : Z.abs n <= 2 ^ 53 -> 0 <= e -> representable (n * 2 ^ e).
Proof. intros H He. exists n, e. auto. Qed.
Lemma round_nonneg n d : 0 <= n -> 0 < d -> 0 <= round_q n d.
Proof.
  intros Hn Hd. rewrite round_q_expo. pose proof (pow_pos _ (expo_nonneg (n / d))) as P.
  pose proof (nearest_bounds n (d * 2 ^ expo (n / d)) ltac:(lia)) as [B _].
  pose proof (Z.div_pos n (d * 2 ^ expo (n / d)) Hn ltac:(lia)). nia.
Qed.
(** comparison with a representable bound is exact *)
Lemma round_le n d z : 0 <= n -> 0 < d -> 0 <= z -> representable z -> n <= z * d -> round_q n d <= z.
Proof. intros. rewrite <- (round_exact z d) by assumption. apply round_mono; nia. Qed.
Lemma round_ge n d z : 0 <= n -> 0 < d -> 0 <= z -> representable z -> z * d <= n -> z <= round_q n d.
Proof. intros. rewrite <- (round_exact z d) at 1 by assumption. apply round_mono; nia. Qed.
(** what is rounded is itself representable *)
Lemma round_rep n d : 0 <= n -> 0 < d -> representable (round_q n d).
Proof.
  intros Hn Hd. pose proof (round_nonneg n d Hn Hd). pose proof (round_upper n d Hn Hd) as U. rewrite round_q_expo in *.
  pose proof (expo_nonneg (n / d)) as E. pose proof (pow_pos _ E) as P.
  exists (nearest n (d * 2 ^ expo (n / d))), (expo (n / d)). split; [exact E|]. split; [|reflexivity].
  rewrite Z.pow_add_r in U by lia. apply Z.mul_le_mono_pos_r in U; [|lia]. nia.
Qed.
