(** Proofs about status codes. *)
From Coq Require Import ZArith List Bool Lia String.
From Coq Require Import ZifyBool.
From Verif Require Import Status StatusTable StatusSpec.
Import ListNotations.
Open Scope Z_scope.

(** [c / 2^30] is the two-bit severity field. *)
Lemma land_severity c : 0 <= c < 2 ^ 32 -> Z.land c severity_mask = c / 2 ^ 30 * 2 ^ 30.
Proof.
  intros H. unfold severity_mask. change 0xC0000000 with (3 * 2 ^ 30).
  rewrite <- Z.shiftl_mul_pow2, <- Z.shiftl_mul_pow2, <- Z.shiftr_div_pow2 by lia.
  apply Z.bits_inj'. intros n Hn. rewrite Z.land_spec.
  destruct (Z.ltb_spec n 30) as [L|L].
  - rewrite !Z.shiftl_spec_low by lia. apply andb_false_r.
  - rewrite !Z.shiftl_spec by lia. rewrite Z.shiftr_spec by lia. replace (n - 30 + 30) with n by lia.
    destruct (Z.ltb_spec n 32) as [L2|L2].
    + assert (n = 30 \/ n = 31) as [-> | ->] by lia; cbn; apply andb_true_r.
    + assert (Z.testbit c n = false) as ->; [|reflexivity].
      destruct (Z.eq_dec c 0) as [->|Nz]; [apply Z.bits_0|].
      apply Z.bits_above_log2; [lia|]. apply Z.log2_lt_pow2; [lia|].
      apply Z.lt_le_trans with (2 ^ 32); [lia|]. apply Z.pow_le_mono_r; lia.
Qed.

Lemma severity_cases c : 0 <= c < 2 ^ 32 ->
  is_good c = (c / 2 ^ 30 =? 0) /\ is_uncertain c = (c / 2 ^ 30 =? 1) /\ is_bad c = (c / 2 ^ 30 =? 2).
Proof.
  intros H. unfold is_good, is_uncertain, is_bad. rewrite land_severity by exact H.
  unfold severity_good, severity_uncertain, severity_bad.
  change 0x40000000 with (1 * 2 ^ 30). change 0x80000000 with (2 * 2 ^ 30).
  set (q := c / 2 ^ 30). change (2 ^ 30) with 1073741824. lia.
Qed.

Lemma div_lor_low c b k m : 0 <= m <= k -> 0 <= b < 2 ^ m -> Z.lor c b / 2 ^ k = c / 2 ^ k.
Proof.
  intros Hm Hb. rewrite <- !Z.shiftr_div_pow2 by lia. rewrite Z.shiftr_lor.
  assert (Z.shiftr b k = 0) as ->; [|apply Z.lor_0_r].
  rewrite Z.shiftr_div_pow2 by lia. apply Z.div_small. split; [lia|].
  apply Z.lt_le_trans with (2 ^ m); [lia|]. apply Z.pow_le_mono_r; lia.
Qed.

Lemma lor_range c b : 0 <= c < 2 ^ 32 -> 0 <= b < 2 ^ 16 -> 0 <= Z.lor c b < 2 ^ 32.
Proof.
  intros Hc Hb. assert (0 <= Z.lor c b) by (apply Z.lor_nonneg; lia). split; [assumption|].
  assert (E : Z.lor c b / 2 ^ 32 = 0).
  { rewrite (div_lor_low c b 32 16) by lia. apply Z.div_small. exact Hc. }
  change (2 ^ 32) with 4294967296 in *. apply Z.div_small_iff in E; lia.
Qed.

Lemma overflow_set c : is_overflow (Z.lor c (Z.lor info_type_data_value overflow_bit)) =
                       negb (Z.testbit c 11).
Proof.
  unfold is_overflow, info_type_data_value, overflow_bit, info_type_mask.
  change (Z.lor 0x400 0x80) with 0x480. change 0xC00 with (Z.lor (2 ^ 11) (2 ^ 10)).
  rewrite !Z.land_lor_distr_l.
  replace (Z.land 0x480 0x80) with 0x80 by reflexivity.
  replace (Z.land 0x480 (Z.lor (2 ^ 11) (2 ^ 10))) with 0x400 by reflexivity.
  assert (A : Z.lor (Z.land c 0x80) 0x80 = 0x80).
  { rewrite Z.lor_comm. apply Z.bits_inj'. intros n Hn. rewrite Z.lor_spec, Z.land_spec. destruct (Z.testbit 0x80 n), (Z.testbit c n); reflexivity. }
  rewrite A, Z.eqb_refl, andb_true_r.
  destruct (Z.testbit c 11) eqn:T; cbn [negb].
  - apply Z.eqb_neq. intros E. apply (f_equal (fun z => Z.testbit z 11)) in E.
    rewrite Z.lor_spec, Z.land_spec, T in E. cbn in E. discriminate.
  - apply Z.eqb_eq. apply Z.bits_inj'. intros n Hn. rewrite Z.lor_spec, Z.land_spec.
    destruct (Z.eq_dec n 11) as [->|N11]; [rewrite T; reflexivity|].
    destruct (Z.eq_dec n 10) as [->|N10]; [cbn; apply orb_true_r|].
    assert (Z.testbit (Z.lor (2 ^ 11) (2 ^ 10)) n = false) as ->.
    { rewrite Z.lor_spec, !Z.pow2_bits_eqb by lia. lia. }
    rewrite andb_false_r. reflexivity.
Qed.

(** ** The table of constants *)
Definition entry_ok (p : string * Z) : bool :=
  let '(name, c) := p in
  (c mod 2 ^ 16 =? 0) && (0 <=? c) && (c <? 2 ^ 32) &&
  (if String.prefix "Good" name then is_good c
   else if String.prefix "Uncertain" name then is_uncertain c
   else if String.prefix "Bad" name then is_bad c else false).
Lemma table_ok : forallb entry_ok status_table = true.
Proof. vm_compute. reflexivity. Qed.

Fixpoint distinct (l : list Z) : bool :=
  match l with [] => true | x :: r => negb (existsb (Z.eqb x) r) && distinct r end.
Lemma distinct_NoDup l : distinct l = true -> NoDup l.
Proof.
  induction l as [|x l IH]; cbn [distinct]; intros H; [constructor|].
  apply andb_true_iff in H as [H1 H2]. constructor; [|apply IH, H2].
  intros I. apply negb_true_iff in H1. assert (existsb (Z.eqb x) l = true) as E.
  { apply existsb_exists. exists x. split; [exact I|apply Z.eqb_refl]. } congruence.
Qed.
Lemma codes_distinct : NoDup (map snd status_table).
Proof. apply distinct_NoDup. vm_compute. reflexivity. Qed.

(** ** The flag tests, bit by bit *)
Lemma land_pow2 c n : 0 <= n -> (Z.land c (2 ^ n) =? 2 ^ n) = Z.testbit c n.
Proof.
  intros H. destruct (Z.testbit c n) eqn:T.
  - apply Z.eqb_eq. apply Z.bits_inj'. intros m Hm. rewrite Z.land_spec, Z.pow2_bits_eqb by lia.
    destruct (Z.eqb_spec n m) as [<-|N]; [rewrite T; reflexivity|apply andb_false_r].
  - apply Z.eqb_neq. intros E. apply (f_equal (fun z => Z.testbit z n)) in E.
    rewrite Z.land_spec, Z.pow2_bits_eqb, Z.eqb_refl, T in E by lia. discriminate.
Qed.
Lemma flag_tests c :
  is_structure_changed c = Z.testbit c 15 /\ is_semantics_changed c = Z.testbit c 14 /\
  is_overflow c = (negb (Z.testbit c 11) && Z.testbit c 10 && Z.testbit c 7).
Proof.
  unfold is_structure_changed, is_semantics_changed, is_overflow.
  split; [apply (land_pow2 c 15); lia|]. split; [apply (land_pow2 c 14); lia|].
  change overflow_bit with (2 ^ 7). rewrite land_pow2 by lia. f_equal.
  unfold info_type_mask, info_type_data_value.
  destruct (Z.testbit c 11) eqn:A; cbn [negb andb].
  - apply Z.eqb_neq. intros E. apply (f_equal (fun z => Z.testbit z 11)) in E.
    rewrite Z.land_spec, A in E. cbn in E. discriminate.
  - destruct (Z.testbit c 10) eqn:B.
    + apply Z.eqb_eq. change 0xC00 with (Z.lor (2 ^ 11) (2 ^ 10)). change 0x400 with (2 ^ 10).
      apply Z.bits_inj'. intros m Hm. rewrite Z.land_spec, Z.lor_spec, !Z.pow2_bits_eqb by lia.
      destruct (Z.eqb_spec 11 m) as [<-|N]; [rewrite A; reflexivity|].
      destruct (Z.eqb_spec 10 m) as [<-|N2]; [rewrite B; reflexivity|apply andb_false_r].
    + apply Z.eqb_neq. intros E. apply (f_equal (fun z => Z.testbit z 10)) in E.
      rewrite Z.land_spec, B in E. cbn in E. discriminate.
Qed.

Lemma masks_standard : mask_bits = standard_masks /\ limit_bits = standard_limit /\
  [("SeverityMask"%string, severity_mask); ("StructureChanged"%string, structure_changed); ("SemanticsChanged"%string, semantics_changed);
   ("InfoTypeMask"%string, info_type_mask); ("InfoTypeDataValue"%string, info_type_data_value); ("LimitBitsMask"%string, limit_bits_mask);
   ("Overflow"%string, overflow_bit); ("HistorianBitsMask"%string, historian_bits_mask)] =
  filter (fun p => negb (String.eqb (fst p) "SubCodeMask" || String.eqb (fst p) "InfoBitsMask")) standard_masks.
Proof. split; [vm_compute; reflexivity|]. split; vm_compute; reflexivity. Qed.
Lemma historian_wrong :
  In ("HistorianBitsInterpolated"%string, 0x10) historian_bits /\ In ("HistorianBitsInterpolated"%string, 0x2) standard_historian /\
  In ("HistorianBitsPartial"%string, 0x100) historian_bits /\ In ("HistorianBitsPartial"%string, 0x4) standard_historian.
Proof.
  split; [right; left; reflexivity|]. split; [right; left; reflexivity|].
  split; right; right; left; reflexivity.
Qed.
