From Coq Require Import ZArith List Bool Lia Strings.Byte.
From Coq Require Import ZifyBool ZifyNat ZifyN.
From Verif Require Import Bytes CodecSpec.
Import ListNotations.
Open Scope Z_scope.
Ltac Zify.zify_post_hook ::= Z.div_mod_to_equations.

Lemma Z_of_byte_range b : 0 <= Z_of_byte b < 256.
Proof.
  unfold Z_of_byte. pose proof (Byte.to_N_bounded b). lia.
Qed.

Lemma Z_of_byte_of_Z z : Z_of_byte (byte_of_Z z) = z mod 256.
Proof.
  unfold byte_of_Z, Z_of_byte.
  destruct (Byte.of_N (Z.to_N (z mod 256))) as [b|] eqn:E.
  - apply Byte.to_of_N in E. rewrite E. rewrite Z2N.id; [reflexivity|].
    apply Z.mod_pos_bound. lia.
  - apply Byte.of_N_None_iff in E. pose proof (Z.mod_pos_bound z 256 ltac:(lia)). lia.
Qed.

Lemma byte_of_Z_of_byte b : byte_of_Z (Z_of_byte b) = b.
Proof.
  unfold byte_of_Z. pose proof (Z_of_byte_range b).
  rewrite Z.mod_small by lia. unfold Z_of_byte. rewrite N2Z.id, Byte.of_to_N. reflexivity.
Qed.

Lemma Z_of_byte_inj a b : Z_of_byte a = Z_of_byte b -> a = b.
Proof. intros H. rewrite <- (byte_of_Z_of_byte a), <- (byte_of_Z_of_byte b), H. reflexivity. Qed.

Lemma le_enc_length k z : length (le_enc k z) = k.
Proof. revert z; induction k as [|k IH]; intros z; cbn [le_enc length]; [|rewrite IH]; reflexivity. Qed.

Lemma pow256_S k : 256 ^ Z.of_nat (S k) = 256 * 256 ^ Z.of_nat k.
Proof. rewrite Nat2Z.inj_succ, Z.pow_succ_r by lia. reflexivity. Qed.

Lemma pow8 k : 2 ^ (8 * Z.of_nat k) = 256 ^ Z.of_nat k.
Proof. rewrite Z.pow_mul_r by lia. reflexivity. Qed.

Lemma le_dec_enc k z : le_dec (le_enc k z) = z mod 256 ^ Z.of_nat k.
Proof.
  revert z; induction k as [|k IH]; intros z.
  - cbn. now rewrite Z.mod_1_r.
  - cbn [le_enc le_dec]. rewrite IH, Z_of_byte_of_Z, pow256_S.
    assert (0 < 256 ^ Z.of_nat k) by (apply Z.pow_pos_nonneg; lia).
    rewrite Z.rem_mul_r by lia. reflexivity.
Qed.

Lemma le_dec_range l : 0 <= le_dec l < 256 ^ Z.of_nat (length l).
Proof.
  induction l as [|b l IH]; [cbn; lia|].
  cbn [le_dec length]. rewrite pow256_S. pose proof (Z_of_byte_range b). lia.
Qed.

Lemma le_enc_dec l : le_enc (length l) (le_dec l) = l.
Proof.
  induction l as [|b l IH]; [reflexivity|].
  cbn [length le_enc le_dec].
  pose proof (Z_of_byte_range b).
  f_equal.
  - rewrite <- (byte_of_Z_of_byte b) at 2. unfold byte_of_Z. f_equal. f_equal.
    replace ((Z_of_byte b + 256 * le_dec l) mod 256) with (Z_of_byte b mod 256); [reflexivity|].
    rewrite Z.mul_comm, Z_mod_plus_full. reflexivity.
  - replace ((Z_of_byte b + 256 * le_dec l) / 256) with (le_dec l); [exact IH|]. lia.
Qed.

Lemma to_signed_mod k z : (0 < k)%nat -> in_s (Z.of_nat k) z ->
  to_signed k (z mod 256 ^ Z.of_nat k) = z.
Proof.
  intros Hk. unfold in_s, to_signed. rewrite <- pow8.
  assert (E : 2 ^ (8 * Z.of_nat k) = 2 * 2 ^ (8 * Z.of_nat k - 1)).
  { rewrite <- Z.pow_succ_r by lia. f_equal. lia. }
  assert (0 < 2 ^ (8 * Z.of_nat k - 1)) by (apply Z.pow_pos_nonneg; lia).
  intros [H1 H2]. rewrite E.
  set (h := 2 ^ (8 * Z.of_nat k - 1)) in *.
  destruct (Z_lt_le_dec z 0).
  - replace (z mod (2 * h)) with (z + 2 * h).
    2:{ rewrite <- (Z_mod_plus_full z 1 (2 * h)). rewrite Z.mul_1_l.
        symmetry. apply Z.mod_small. lia. }
    destruct (z + 2 * h <? h) eqn:C; lia.
  - rewrite Z.mod_small by lia. destruct (z <? h) eqn:C; lia.
Qed.

Lemma bytes_eqb_eq a b : bytes_eqb a b = true <-> a = b.
Proof.
  revert b; induction a as [|x a IH]; intros [|y b]; cbn; split; intros H; try discriminate; try reflexivity.
  - apply andb_prop in H as [H1 H2]. apply Byte.byte_dec_bl in H1. apply IH in H2. now subst.
  - injection H as -> ->. rewrite (Byte.byte_dec_lb eq_refl). now apply IH.
Qed.

(** * The compositional codec relation used by all codec proofs. *)
Record codes {A} (strict : bool) (r : reader A) (e : bytes) (a : A) : Prop := {
  codes_rt : reads_back r e a;
  codes_tr : strict = true -> refuses_truncated r e
}.
Arguments codes_rt {A strict r e a}.
Arguments codes_tr {A strict r e a}.

Lemma codes_weaken {A} (r : reader A) e a s : codes true r e a -> codes s r e a.
Proof. intros [H1 H2]. split; [exact H1| intros _; exact (H2 eq_refl)]. Qed.

Lemma proper_prefix_app p e1 e2 : proper_prefix p (e1 ++ e2) ->
  proper_prefix p e1 \/ exists p2, p = e1 ++ p2 /\ proper_prefix p2 e2.
Proof.
  revert p; induction e1 as [|x e1 IH]; intros p (q & Hq & E).
  - right. exists p. split; [reflexivity|]. exists q. split; [exact Hq|exact E].
  - destruct p as [|y p].
    + left. exists (x :: e1). split; [discriminate|reflexivity].
    + cbn in E. injection E as <- E.
      destruct (IH p) as [H|(p2 & -> & H)].
      { exists q. split; [exact Hq|exact E]. }
      * left. destruct H as (q' & Hq' & ->). exists q'. split; [exact Hq'|reflexivity].
      * right. exists p2. split; [reflexivity|exact H].
Qed.

Lemma codes_ret {A} s (a : A) : codes s (ret a) [] a.
Proof.
  split; [intros rest; reflexivity|].
  intros _ p (q & Hq & E). destruct p; destruct q; cbn in E; congruence.
Qed.

Lemma codes_bind {A B} s (r : reader A) (k : A -> reader B) e1 e2 a b :
  codes s r e1 a -> codes s (k a) e2 b -> codes s (bind r k) (e1 ++ e2) b.
Proof.
  intros [R1 T1] [R2 T2]. split.
  - intros rest. unfold bind. rewrite <- app_assoc, R1. apply R2.
  - intros Hs p Hp. apply proper_prefix_app in Hp as [Hp|(p2 & -> & Hp)].
    + destruct (T1 Hs p Hp) as [rest E]. exists rest. unfold bind. now rewrite E.
    + destruct (T2 Hs p2 Hp) as [rest E]. exists rest. unfold bind. rewrite R1. exact E.
Qed.

(** [k a] reads nothing more. *)
Lemma codes_bind_last {A B} s (r : reader A) (k : A -> reader B) e a b :
  codes s r e a -> codes s (k a) [] b -> codes s (bind r k) e b.
Proof. intros H1 H2. rewrite <- (app_nil_r e). eapply codes_bind; eassumption. Qed.

(** [r] reads nothing. *)
Lemma codes_bind_first {A B} s (r : reader A) (k : A -> reader B) e a b :
  codes s r [] a -> codes s (k a) e b -> codes s (bind r k) e b.
Proof. intros H1 H2. change e with ([] ++ e). eapply codes_bind; eassumption. Qed.

Lemma codes_fmap {A B} s (r : reader A) (f : A -> B) e a :
  codes s r e a -> codes s (fmap f r) e (f a).
Proof. intros H. eapply codes_bind_last; [exact H|apply codes_ret]. Qed.

Lemma codes_read_full s e n : Z.of_nat (length e) = n -> codes s (read_full n) e e.
Proof.
  intros <-. split.
  - intros rest. unfold read_full. rewrite app_length.
    destruct (_ <? _) eqn:C; [lia|]. rewrite Nat2Z.id.
    rewrite firstn_app, Nat.sub_diag, firstn_all, firstn_O, app_nil_r.
    rewrite skipn_app, Nat.sub_diag, skipn_all, skipn_O. reflexivity.
  - intros _ p (q & Hq & E). exists []. unfold read_full. subst e. rewrite app_length.
    destruct (_ <? _) eqn:C; [reflexivity|].
    destruct q; [congruence|]. cbn [length] in C. lia.
Qed.

Lemma codes_read_n {A} s (r : reader A) (es : list bytes) (l : list A) :
  Forall2 (fun e a => codes s r e a) es l ->
  codes s (read_n (length l) r) (concat es) l.
Proof.
  induction 1 as [|e a es l H HF IH]; cbn [length read_n concat].
  - apply codes_ret.
  - eapply codes_bind; [exact H|]. cbn beta. apply (codes_fmap s _ (cons a)). exact IH.
Qed.

Lemma codes_ext {A} s (r r' : reader A) e a : (forall x, r x = r' x) -> codes s r e a -> codes s r' e a.
Proof.
  intros E [R T]. split.
  - intros rest. rewrite <- E. apply R.
  - intros Hs p Hp. destruct (T Hs p Hp) as [x Hx]. exists x. now rewrite <- E.
Qed.

(** Reading back determines the value: equal or prefix-related encodings. *)
Lemma reads_back_inj {A} (r : reader A) e1 e2 a1 a2 t :
  reads_back r e1 a1 -> reads_back r e2 a2 -> e2 = e1 ++ t -> a1 = a2 /\ t = [].
Proof.
  intros H1 H2 ->. specialize (H1 t). specialize (H2 []). rewrite app_nil_r in H2.
  rewrite H1 in H2. injection H2 as -> ->. split; reflexivity.
Qed.

(** * Panic freedom *)
Lemma np_ret {A} (a : A) : never_panics (ret a).
Proof. intros s; discriminate. Qed.
Lemma np_fail {A} : never_panics (@fail A).
Proof. intros s; discriminate. Qed.
Lemma np_bind {A B} (r : reader A) (k : A -> reader B) :
  never_panics r -> (forall a, never_panics (k a)) -> never_panics (bind r k).
Proof.
  intros Hr Hk s. unfold bind. destruct (r s) as [a rest|rest| |] eqn:E; try discriminate.
  - apply Hk.
  - exfalso. now apply (Hr s).
Qed.
Lemma np_fmap {A B} (f : A -> B) (r : reader A) : never_panics r -> never_panics (fmap f r).
Proof. intros H. apply np_bind; [exact H|intros a; apply np_ret]. Qed.
Lemma np_read_full n : never_panics (read_full n).
Proof. intros s. unfold read_full. destruct (_ <? _); discriminate. Qed.
Lemma np_read_n {A} n (r : reader A) : never_panics r -> never_panics (read_n n r).
Proof.
  intros H. induction n as [|n IH]; cbn [read_n]; [apply np_ret|].
  apply np_bind; [exact H|]. intros a. apply np_fmap. exact IH.
Qed.
