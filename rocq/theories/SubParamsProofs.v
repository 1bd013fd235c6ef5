(** Bounds of the revised parameters. *)
From Coq Require Import ZArith Bool Lia ZifyBool.
From Verif Require Import Float FloatProofs SubParams.
Open Scope Z_scope.

Notation u := funit.
Opaque funit round_q.
Lemma f_int_lt a b : a < b -> f_int a < f_int b.
Proof. unfold f_int. pose proof funit_pos. nia. Qed.
Lemma f_int_nonneg a : 0 <= a -> 0 <= f_int a.
Proof. unfold f_int. pose proof funit_pos. nia. Qed.
Ltac pos := repeat lazymatch goal with
  | |- 0 <= f_int _ => apply f_int_nonneg
  | |- 0 <= _ * _ => apply Z.mul_nonneg_nonneg
  | |- _ => lia
  end.
Lemma swap c z : f_int c * z = c * z * u.
Proof. unfold f_int. ring. Qed.
Lemma big_unit : f_int (2 ^ 60) < f_max.
Proof. vm_compute. reflexivity. Qed.

Lemma of_Z_small c : 0 <= c < 2 ^ 53 -> f_of_Z c = FFin (f_int c).
Proof.
  intros H. unfold f_of_Z, f_pack. assert (P : 0 <= f_int c) by (unfold f_int; pose proof funit_pos; nia).
  rewrite Z.abs_eq by exact P.
  assert (R : round_q (f_int c) 1 = f_int c).
  { rewrite <- (Z.mul_1_r (f_int c)) at 1. apply round_exact; [apply rep_int; lia|exact P|lia]. }
  rewrite R.
  pose proof big_unit as B. pose proof (f_int_lt c (2 ^ 60) ltac:(lia)) as L. unfold f_neg.
  destruct (Z.leb_spec f_max (f_int c)); [lia|]. destruct (Z.ltb_spec c 0); [lia|reflexivity].
Qed.
Definition prod (c z : Z) : Z := round_q (f_int c * z) u.
Lemma mul_small c z : 0 <= c < 2 ^ 40 -> 0 <= z <= f_int 65536 -> f_mul (f_of_Z c) (FFin z) = FFin (prod c z).
Proof.
  intros Hc Hz. rewrite of_Z_small by lia. unfold f_mul. pose proof funit_pos as U.
  assert (P : 0 <= f_int c) by (unfold f_int; nia). rewrite !Z.abs_eq by lia.
  unfold f_pack, f_neg. fold (prod c z).
  assert (B : prod c z <= f_int (2 ^ 56)).
  { apply round_le; [nia|exact U|unfold f_int; nia|apply (rep_pow 1 (56 + 1074)); lia|unfold f_int in *; nia]. }
  pose proof big_unit. pose proof (f_int_lt (2 ^ 56) (2 ^ 60) ltac:(lia)).
  destruct (Z.leb_spec f_max (prod c z)); [lia|].
  destruct (Z.ltb_spec (f_int c) 0); [lia|]. destruct (Z.ltb_spec z 0); [lia|]. reflexivity.
Qed.
Lemma prod_le c z m : 0 <= c -> 0 <= z -> 0 <= m <= 2 ^ 53 -> c * z <= f_int m -> prod c z <= f_int m.
Proof.
  intros. pose proof funit_pos. apply round_le; [pos|assumption|pos|apply rep_int; lia|].
  rewrite swap. apply Z.mul_le_mono_nonneg_r; [lia|assumption].
Qed.
Lemma prod_ge c z m : 0 <= c -> 0 <= z -> 0 <= m <= 2 ^ 53 -> f_int m <= c * z -> f_int m <= prod c z.
Proof.
  intros. pose proof funit_pos. apply round_ge; [pos|assumption|pos|apply rep_int; lia|].
  rewrite (swap c z). apply Z.mul_le_mono_nonneg_r; [lia|assumption].
Qed.
Lemma prod_mono c c' z : 0 <= c <= c' -> 0 <= z -> prod c z <= prod c' z.
Proof. intros. pose proof funit_pos. apply round_mono; try assumption; try (pos; fail). rewrite !swap.
  apply Z.mul_le_mono_nonneg_r; [lia|]. apply Z.mul_le_mono_nonneg_r; [lia|]. apply Z.mul_le_mono_nonneg_r; lia. Qed.

Section Interval.
  Variable z : Z.
  Hypothesis Hz : f_int 125 <= z <= f_int 60000.

  Lemma z_pos : 0 < z.
  Proof. pose proof funit_pos. unfold f_int in Hz. nia. Qed.
  Lemma mul_z c : 0 <= c < 2 ^ 40 -> f_mul (f_of_Z c) (FFin z) = FFin (prod c z).
  Proof. intros Hc. apply mul_small; [exact Hc|]. pose proof z_pos. pose proof (f_int_lt 60000 65536). lia. Qed.

  Definition quot (m : Z) : Z := round_q (f_int m * u) z.
  Lemma quot_range m : 60000 <= m <= 3600000 \/ m = 10000 /\ z < f_int 10000 -> f_int 1 <= quot m <= f_int 28800.
  Proof.
    intros Hm. pose proof funit_pos. pose proof z_pos. split.
    - apply round_ge; [unfold f_int; nia|assumption|unfold f_int; nia|apply rep_int; lia|unfold f_int in *; nia].
    - apply round_le; [unfold f_int; nia|assumption|unfold f_int; nia|apply rep_int; lia|unfold f_int in *; nia].
  Qed.
  Lemma div_small m : 60000 <= m <= 3600000 \/ m = 10000 /\ z < f_int 10000 ->
    f_u32 (f_div (FFin (f_int m)) (FFin z)) = quot m / u.
  Proof.
    intros Hm. pose proof (quot_range m Hm) as Q. pose proof z_pos as ZP. pose proof funit_pos as U.
    assert (P : 0 <= f_int m) by (unfold f_int; nia).
    unfold f_div. destruct (Z.eqb_spec z 0); [lia|]. rewrite !Z.abs_eq by lia. fold (quot m). unfold f_pack, f_neg.
    pose proof big_unit. pose proof (f_int_lt 28800 (2 ^ 60) ltac:(lia)). pose proof (f_int_lt 28800 (2 ^ 32) ltac:(lia)).
    destruct (Z.leb_spec f_max (quot m)); [lia|]. destruct (Z.ltb_spec (f_int m) 0); [lia|]. destruct (Z.ltb_spec z 0); [lia|].
    cbn [xorb f_u32]. assert (0 <= quot m) by (unfold f_int in *; lia).
    destruct (Z.leb_spec 0 (quot m)); [|lia]. destruct (Z.ltb_spec (quot m) (f_int (2 ^ 32))); [|lia]. reflexivity.
  Qed.
  (** the truncated quotient: not below the true one, less than a millisecond above *)
  Lemma quot_lower m : 0 <= m <= 2 ^ 40 -> f_int m / z <= quot m / u.
  Proof.
    intros Hm. pose proof funit_pos as U. pose proof z_pos as ZP. apply Z.div_le_lower_bound; [exact U|].
    assert (K : 0 <= f_int m / z) by (apply Z.div_pos; unfold f_int; nia).
    assert (KM : z * (f_int m / z) <= f_int m) by (apply Z.mul_div_le; exact ZP).
    assert (KB : f_int m / z <= 2 ^ 53).
    { apply Z.div_le_upper_bound; [exact ZP|]. unfold f_int in *. nia. }
    set (k := f_int m / z) in *. clearbody k. rewrite Z.mul_comm. fold (f_int k).
    apply round_ge; [unfold f_int; nia|exact ZP|unfold f_int; nia|apply rep_int; lia|]. unfold f_int in *. nia.
  Qed.
  Lemma quot_upper m : 60000 <= m <= 3600000 \/ m = 10000 /\ z < f_int 10000 -> (quot m / u) * z < f_int (m + 1).
  Proof.
    intros Hm. pose proof (quot_range m Hm) as Q. pose proof funit_pos as U. pose proof z_pos as ZP.
    assert (T : u * (quot m / u) <= quot m) by (apply Z.mul_div_le; exact U).
    assert (TB : 1 <= quot m / u <= 28800).
    { split; [apply Z.div_le_lower_bound; unfold f_int in *; lia|]. apply Z.div_le_upper_bound; unfold f_int in *; nia. }
    set (t := quot m / u) in *. clearbody t.
    destruct (Z.lt_ge_cases (t * z) (f_int (m + 1))) as [L|L]; [exact L|exfalso].
    assert (R : quot m <= (t * 2 ^ 20 - 1) * 2 ^ 1054).
    { apply round_le; [unfold f_int; nia|exact ZP| |apply rep_pow; lia|].
      - apply Z.mul_nonneg_nonneg; [lia|]. apply Z.pow_nonneg. lia.
      - assert (E : u = 2 ^ 20 * 2 ^ 1054) by (rewrite <- Z.pow_add_r by lia; reflexivity).
        assert (V : 0 < 2 ^ 1054) by (apply Z.pow_pos_nonneg; lia).
        revert E V. generalize (2 ^ 1054). intros v E V. unfold f_int in *. rewrite E in *. clear Q T E U ZP. 
        assert (A : m * (2 ^ 20 * v) <= t * z - 2 ^ 20 * v) by nia.
        assert (B : z <= 2 ^ 20 * (2 ^ 20 * v)) by nia.
        apply Z.le_trans with ((t * z - 2 ^ 20 * v) * (2 ^ 20 * v)); [apply Z.mul_le_mono_nonneg_r; nia|].
        nia. }
    assert (E : u = 2 ^ 20 * 2 ^ 1054) by (rewrite <- Z.pow_add_r by lia; reflexivity).
    assert (V : 0 < 2 ^ 1054) by (apply Z.pow_pos_nonneg; lia).
    revert E V R. generalize (2 ^ 1054). intros v E V R. rewrite E in T. nia.
  Qed.

  Lemma count_bounds m : 60000 <= m <= 3600000 \/ m = 10000 /\ z < f_int 10000 ->
    let c := count_of (FFin (f_int m)) (FFin z) in 1 <= c <= 28801 /\ f_int m <= c * z < f_int (m + 1) + z.
  Proof.
    intros Hm. cbv zeta. unfold count_of. rewrite (div_small m Hm).
    pose proof (quot_range m Hm) as Q. pose proof funit_pos as U. pose proof z_pos as ZP.
    assert (TB : 1 <= quot m / u <= 28800).
    { split; [apply Z.div_le_lower_bound; unfold f_int in *; lia|]. apply Z.div_le_upper_bound; unfold f_int in *; nia. }
    pose proof (quot_lower m ltac:(lia)) as L. pose proof (quot_upper m Hm) as B.
    set (t := quot m / u) in *. clearbody t. unfold maxUint32. destruct (Z.ltb_spec t (2 ^ 32 - 1)); [|lia].
    cbn [f_mod_nonzero]. pose proof (Z.div_mod (f_int m) z ltac:(lia)) as DM. pose proof (Z.mod_pos_bound (f_int m) z ZP) as MB.
    set (k := f_int m / z) in *. set (r := f_int m mod z) in *. clearbody k r.
    assert (f_int (m + 1) = f_int m + u) by (unfold f_int; ring).
    destruct (Z.eqb_spec r 0) as [R|R]; cbn [negb].
    - split; [lia|]. nia.
    - split; [lia|]. nia.
  Qed.

  Lemma lt_fin a b : f_lt (FFin a) (FFin b) = (a <? b). Proof. reflexivity. Qed.
  (** * Keep-alive count *)
  Lemma keepalive_bounds c : 0 <= c < 2 ^ 32 -> let k := set_keepalive (FFin z) c in 1 <= k <= 28801 /\ k * z < f_int 60001 + z.
  Proof.
    intros Hc. cbv zeta. unfold set_keepalive, maxLifetime, maxPublishingInterval. pose proof z_pos as ZP. pose proof funit_pos as U.
    set (c1 := if c =? 0 then 3 else c). assert (C1 : 1 <= c1 < 2 ^ 32) by (unfold c1; destruct (Z.eqb_spec c 0); lia). clearbody c1.
    destruct (count_bounds 60000 ltac:(lia)) as [K1 K2]. destruct (count_bounds 3600000 ltac:(lia)) as [L1 L2].
    rewrite (mul_z c1) by lia. rewrite lt_fin. destruct (Z.ltb_spec (f_int 3600000) (prod c1 z)) as [G|G].
    - rewrite mul_z by lia. rewrite lt_fin. set (d := count_of (FFin (f_int 3600000)) (FFin z)) in *. clearbody d.
      assert (f_int 60000 < prod d z).
      { apply Z.lt_le_trans with (f_int 3600000); [apply f_int_lt; lia|]. apply prod_ge; lia. }
      destruct (Z.ltb_spec (f_int 60000) (prod d z)); [|lia]. split; [lia|]. change 60001 with (60000 + 1). lia.
    - rewrite lt_fin. destruct (Z.ltb_spec (f_int 60000) (prod c1 z)) as [H|H].
      + split; [lia|]. change 60001 with (60000 + 1). lia.
      + assert (B : c1 * z < f_int 60001).
        { destruct (Z.lt_ge_cases (c1 * z) (f_int 60001)) as [X|X]; [exact X|exfalso].
          pose proof (prod_ge c1 z 60001 ltac:(lia) ltac:(lia) ltac:(lia) X). pose proof (f_int_lt 60000 60001). lia. }
        split; [|lia]. unfold f_int in *. nia.
  Qed.
  Lemma keepalive_kept c : 1 <= c < 2 ^ 32 -> c * z <= f_int 60000 -> set_keepalive (FFin z) c = c.
  Proof.
    intros Hc L. unfold set_keepalive, maxLifetime, maxPublishingInterval. pose proof z_pos as ZP.
    destruct (Z.eqb_spec c 0); [lia|]. rewrite mul_z by lia. rewrite lt_fin.
    pose proof (prod_le c z 60000 ltac:(lia) ltac:(lia) ltac:(lia) L). pose proof (f_int_lt 60000 3600000).
    destruct (Z.ltb_spec (f_int 3600000) (prod c z)); [lia|]. rewrite lt_fin. destruct (Z.ltb_spec (f_int 60000) (prod c z)); [lia|reflexivity].
  Qed.

  (** * Lifetime count *)
  Lemma lifetime_bounds k c : 1 <= k <= 28801 -> k * z < f_int 60001 + z -> 0 <= c < 2 ^ 32 ->
    let l := set_lifetime (FFin z) k c in
    3 * k <= l < 2 ^ 32 /\ f_int 9999 < l * z < f_int 3600001 + z.
  Proof.
    intros Hk KZ Hc. cbv zeta. unfold set_lifetime, maxLifetime, minLifetime, maxUint32. pose proof z_pos as ZP. pose proof funit_pos as U.
    destruct (count_bounds 3600000 ltac:(lia)) as [L1 L2].
    set (c1 := if f_lt _ (f_mul (f_of_Z c) _) then _ else c).
    assert (C1 : 0 <= c1 < 2 ^ 32 /\ c1 * z < f_int 3600001 + z).
    { unfold c1. rewrite mul_z by lia. rewrite lt_fin. destruct (Z.ltb_spec (f_int 3600000) (prod c z)) as [G|G].
      - change 3600001 with (3600000 + 1). lia.
      - split; [exact Hc|]. destruct (Z.lt_ge_cases (c * z) (f_int 3600001)) as [X|X]; [lia|exfalso].
        pose proof (prod_ge c z 3600001 ltac:(lia) ltac:(lia) ltac:(lia) X). pose proof (f_int_lt 3600000 3600001). lia. }
    clearbody c1. destruct C1 as [C1 CZ].
    change ((2 ^ 32 - 1) / 3) with 1431655765. destruct (Z.ltb_spec k 1431655765); [|lia]. cbv zeta.
    set (c2 := if c1 <? k * 3 then k * 3 else c1).
    assert (C2 : 3 * k <= c2 < 2 ^ 32 /\ c2 * z < f_int 3600001 + z).
    { unfold c2. destruct (Z.ltb_spec c1 (k * 3)); [|lia]. split; [lia|]. unfold f_int in *. nia. }
    clearbody c2. destruct C2 as [C2 C2Z]. rewrite mul_z by lia. rewrite !lt_fin.
    destruct (Z.ltb_spec z (f_int 10000)) as [Z1|Z1]; cbn [andb].
    - destruct (Z.ltb_spec (prod c2 z) (f_int 10000)) as [G|G].
      + destruct (count_bounds 10000 ltac:(right; lia)) as [M1 M2]. set (d := count_of (FFin (f_int 10000)) (FFin z)) in *. clearbody d.
        assert (c2 < d).
        { destruct (Z.lt_ge_cases c2 d) as [X|X]; [exact X|exfalso]. pose proof (prod_mono d c2 z ltac:(lia) ltac:(lia)).
          pose proof (prod_ge d z 10000 ltac:(lia) ltac:(lia) ltac:(lia) ltac:(lia)). lia. }
        split; [lia|]. pose proof (f_int_lt 9999 10000). pose proof (f_int_lt (10000 + 1) 3600001). lia.
      + split; [lia|]. split; [|lia]. destruct (Z.lt_ge_cases (f_int 9999) (c2 * z)) as [X|X]; [exact X|exfalso].
        pose proof (prod_le c2 z 9999 ltac:(lia) ltac:(lia) ltac:(lia) X). pose proof (f_int_lt 9999 10000). lia.
    - split; [lia|]. split; [|lia]. pose proof (f_int_lt 9999 10000). nia.
  Qed.
  Lemma lifetime_kept k c : 1 <= k -> 3 * k <= c < 2 ^ 32 -> f_int 10000 <= c * z <= f_int 3600000 -> set_lifetime (FFin z) k c = c.
  Proof.
    intros Hk Hc L. unfold set_lifetime, maxLifetime, minLifetime, maxUint32. pose proof z_pos as ZP.
    rewrite mul_z by lia. rewrite lt_fin.
    pose proof (prod_le c z 3600000 ltac:(lia) ltac:(lia) ltac:(lia) ltac:(lia)). pose proof (prod_ge c z 10000 ltac:(lia) ltac:(lia) ltac:(lia) ltac:(lia)).
    destruct (Z.ltb_spec (f_int 3600000) (prod c z)); [lia|].
    assert (k < 1431655765) by (unfold f_int in *; pose proof funit_pos; nia).
    change ((2 ^ 32 - 1) / 3) with 1431655765. destruct (Z.ltb_spec k 1431655765); [|lia]. cbv zeta.
    destruct (Z.ltb_spec c (k * 3)); [lia|]. rewrite mul_z by lia. rewrite !lt_fin.
    destruct (Z.ltb_spec (prod c z) (f_int 10000)); [lia|]. rewrite andb_false_r. reflexivity.
  Qed.
End Interval.

Lemma interval_bounds p : exists z, set_interval p = FFin z /\ f_int 125 <= z <= f_int 60000.
Proof.
  pose proof (f_int_lt 125 60000 ltac:(lia)). unfold set_interval, minPublishingInterval, maxPublishingInterval.
  destruct p as [|s|z]; cbn [f_isnan].
  - rewrite !lt_fin. rewrite Z.ltb_irrefl. destruct (Z.ltb_spec (f_int 60000) (f_int 125)); [lia|]. exists (f_int 125). split; [reflexivity|lia].
  - destruct s; cbn [f_lt negb]; [exists (f_int 125)|exists (f_int 60000)]; (split; [|lia]).
    + destruct (Z.ltb_spec (f_int 60000) (f_int 125)); [lia|reflexivity].
    + reflexivity.
  - rewrite lt_fin. destruct (Z.ltb_spec z (f_int 125)); rewrite lt_fin.
    + destruct (Z.ltb_spec (f_int 60000) (f_int 125)); [lia|]. exists (f_int 125). split; [reflexivity|lia].
    + destruct (Z.ltb_spec (f_int 60000) z); [exists (f_int 60000)|exists z]; (split; [reflexivity|lia]).
Qed.
Lemma interval_kept z : f_int 125 <= z <= f_int 60000 -> set_interval (FFin z) = FFin z.
Proof.
  intros H. unfold set_interval, minPublishingInterval, maxPublishingInterval. cbn [f_isnan]. rewrite lt_fin.
  destruct (Z.ltb_spec z (f_int 125)); [lia|]. rewrite lt_fin. destruct (Z.ltb_spec (f_int 60000) z); [lia|reflexivity].
Qed.
