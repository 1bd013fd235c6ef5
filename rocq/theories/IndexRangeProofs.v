(** Proofs about index ranges. *)
From Coq Require Import ZArith List Bool Lia Strings.Byte.
From Coq Require Import ZifyBool ZifyNat.
From Verif Require Import Bytes BytesProofs Text TextProofs IndexRange IndexRangeSpec.
Import ListNotations.
Open Scope Z_scope.
Ltac Zify.zify_post_hook ::= idtac.

(** * Characters *)
Lemma Zb z : 0 <= z < 256 -> Z_of_byte (byte_of_Z z) = z.
Proof. intros H. rewrite Z_of_byte_of_Z. apply Z.mod_small, H. Qed.
Lemma put_rune_utf8 c : character c -> put_rune c = utf8 c.
Proof.
  intros [H|H]; unfold put_rune, utf8; change (64 ^ 0) with 1; change (64 ^ 1) with 64; change (64 ^ 2) with 4096; change (64 ^ 3) with 262144; rewrite Z.div_1_r.
  - replace (0 <=? c) with true by lia. cbn [andb]. destruct (c <=? 0x7F) eqn:E1; [replace (c <? 0x80) with true by lia; reflexivity|].
    replace (c <? 0x80) with false by lia. replace (0x80 <=? c) with true by lia. cbn [andb].
    destruct (c <=? 0x7FF) eqn:E2; [replace (c <? 0x800) with true by lia; reflexivity|]. replace (c <? 0x800) with false by lia.
    replace (0x800 <=? c) with true by lia. replace (c <=? 0xD7FF) with true by lia. replace (c <? 0x10000) with true by lia. reflexivity.
  - replace (0 <=? c) with true by lia. replace (c <=? 0x7F) with false by lia. replace (0x80 <=? c) with true by lia. replace (c <=? 0x7FF) with false by lia.
    replace (c <? 0x80) with false by lia. replace (c <? 0x800) with false by lia. cbn [andb].
    replace (0x800 <=? c) with true by lia. replace (c <=? 0xD7FF) with false by lia. replace (0xE000 <=? c) with true by lia. cbn [andb orb].
    destruct (c <=? 0xFFFF) eqn:E3; [replace (c <? 0x10000) with true by lia; reflexivity|]. replace (c <? 0x10000) with false by lia.
    replace (0x10000 <=? c) with true by lia. replace (c <=? 0x10FFFF) with true by lia. reflexivity.
Qed.
Lemma parts2 c : 0 <= c -> c = c / 64 * 64 + c mod 64 /\ 0 <= c mod 64 < 64.
Proof. intros H. split; [rewrite Z.mul_comm; apply Z.div_mod|apply Z.mod_pos_bound]; lia. Qed.
Lemma runes_cons b0 s1 : runes (b0 :: s1) =
      if in_span 0 0x7F b0 then Z_of_byte b0 :: runes s1
      else if in_span 0xC2 0xDF b0 then
        match s1 with
        | b1 :: s2 => if cont b1 then ((Z_of_byte b0 - 0xC0) * 64 + low6 b1) :: runes s2 else rune_error :: runes s1
        | _ => rune_error :: runes s1
        end
      else if in_span 0xE0 0xEF b0 then
        match s1 with
        | b1 :: b2 :: s3 =>
            if in_span (if Z_of_byte b0 =? 0xE0 then 0xA0 else 0x80) (if Z_of_byte b0 =? 0xED then 0x9F else 0xBF) b1 && cont b2
            then ((Z_of_byte b0 - 0xE0) * 4096 + low6 b1 * 64 + low6 b2) :: runes s3
            else rune_error :: runes s1
        | _ => rune_error :: runes s1
        end
      else if in_span 0xF0 0xF4 b0 then
        match s1 with
        | b1 :: b2 :: b3 :: s4 =>
            if in_span (if Z_of_byte b0 =? 0xF0 then 0x90 else 0x80) (if Z_of_byte b0 =? 0xF4 then 0x8F else 0xBF) b1 && cont b2 && cont b3
            then ((Z_of_byte b0 - 0xF0) * 262144 + low6 b1 * 4096 + low6 b2 * 64 + low6 b3) :: runes s4
            else rune_error :: runes s1
        | _ => rune_error :: runes s1
        end
      else rune_error :: runes s1.
Proof. reflexivity. Qed.
Lemma dec1 b0 s : Z_of_byte b0 < 128 -> runes (b0 :: s) = Z_of_byte b0 :: runes s.
Proof. intros E. assert (R := Z_of_byte_range b0). rewrite runes_cons. unfold in_span. now replace (0 <=? Z_of_byte b0) with true by lia; replace (Z_of_byte b0 <=? 0x7F) with true by lia. Qed.
Ltac yes t := replace t with true by lia; cbn [andb].
Ltac no t := replace t with false by lia; cbn [andb].
Lemma dec2 b0 b1 s q r0 : Z_of_byte b0 = 192 + q -> Z_of_byte b1 = 128 + r0 -> 2 <= q < 32 -> 0 <= r0 < 64 ->
  runes (b0 :: b1 :: s) = (q * 64 + r0) :: runes s.
Proof.
  intros E0 E1 Q R. rewrite runes_cons. unfold cont, in_span, low6. rewrite E0, E1.
  yes (0 <=? 192 + q). no (192 + q <=? 0x7F). yes (0xC2 <=? 192 + q). yes (192 + q <=? 0xDF). yes (0x80 <=? 128 + r0). yes (128 + r0 <=? 0xBF). f_equal. lia.
Qed.
Lemma dec3 b0 b1 b2 s q r1 r0 : Z_of_byte b0 = 224 + q -> Z_of_byte b1 = 128 + r1 -> Z_of_byte b2 = 128 + r0 -> 0 <= q < 16 -> 0 <= r1 < 64 -> 0 <= r0 < 64 ->
  (q = 0 -> 32 <= r1) -> (q = 13 -> r1 < 32) -> runes (b0 :: b1 :: b2 :: s) = (q * 4096 + r1 * 64 + r0) :: runes s.
Proof.
  intros E0 E1 E2 Q R1 R0 H1 H2. rewrite runes_cons. unfold cont, in_span, low6. rewrite E0, E1, E2.
  yes (0 <=? 224 + q). no (224 + q <=? 0x7F). yes (0xC2 <=? 224 + q). no (224 + q <=? 0xDF). yes (0xE0 <=? 224 + q). yes (224 + q <=? 0xEF).
  yes (0x80 <=? 128 + r0). yes (128 + r0 <=? 0xBF).
  replace ((if 224 + q =? 0xE0 then 0xA0 else 0x80) <=? 128 + r1) with true by (destruct (224 + q =? 0xE0) eqn:E; lia).
  replace (128 + r1 <=? (if 224 + q =? 0xED then 0x9F else 0xBF)) with true by (destruct (224 + q =? 0xED) eqn:E; lia). cbn [andb]. f_equal. lia.
Qed.
Lemma dec4 b0 b1 b2 b3 s q r2 r1 r0 : Z_of_byte b0 = 240 + q -> Z_of_byte b1 = 128 + r2 -> Z_of_byte b2 = 128 + r1 -> Z_of_byte b3 = 128 + r0 ->
  0 <= q < 5 -> 0 <= r2 < 64 -> 0 <= r1 < 64 -> 0 <= r0 < 64 ->
  (q = 0 -> 16 <= r2) -> (q = 4 -> r2 < 16) -> runes (b0 :: b1 :: b2 :: b3 :: s) = (q * 262144 + r2 * 4096 + r1 * 64 + r0) :: runes s.
Proof.
  intros E0 E1 E2 E3 Q R2 R1 R0 H1 H2. rewrite runes_cons. unfold cont, in_span, low6. rewrite E0, E1, E2, E3.
  yes (0 <=? 240 + q). no (240 + q <=? 0x7F). yes (0xC2 <=? 240 + q). no (240 + q <=? 0xDF). yes (0xE0 <=? 240 + q). no (240 + q <=? 0xEF). yes (0xF0 <=? 240 + q). yes (240 + q <=? 0xF4).
  yes (0x80 <=? 128 + r0). yes (128 + r0 <=? 0xBF). yes (0x80 <=? 128 + r1). yes (128 + r1 <=? 0xBF).
  replace ((if 240 + q =? 0xF0 then 0x90 else 0x80) <=? 128 + r2) with true by (destruct (240 + q =? 0xF0) eqn:E; lia).
  replace (128 + r2 <=? (if 240 + q =? 0xF4 then 0x8F else 0xBF)) with true by (destruct (240 + q =? 0xF4) eqn:E; lia). cbn [andb]. f_equal. lia.
Qed.
Lemma runes_utf8 c s : character c -> runes (utf8 c ++ s) = c :: runes s.
Proof.
  intros H. assert (H0 : 0 <= c <= 0x10FFFF) by (destruct H; lia).
  unfold utf8. change (64 ^ 0) with 1; change (64 ^ 1) with 64; change (64 ^ 2) with 4096; change (64 ^ 3) with 262144. rewrite Z.div_1_r.
  assert (D4 : c / 4096 = c / 64 / 64) by (rewrite Z.div_div by lia; reflexivity).
  assert (D8 : c / 262144 = c / 64 / 64 / 64) by (rewrite !Z.div_div by lia; reflexivity).
  rewrite D4, D8.
  destruct (parts2 c ltac:(lia)) as [P0 M0]. set (q0 := c / 64) in *. set (r0 := c mod 64) in *.
  assert (Q0 : 0 <= q0) by (apply Z.div_pos; lia).
  destruct (parts2 q0 Q0) as [P1 M1]. set (q1 := q0 / 64) in *. set (r1 := q0 mod 64) in *.
  assert (Q1 : 0 <= q1) by (apply Z.div_pos; lia).
  destruct (parts2 q1 Q1) as [P2 M2]. set (q2 := q1 / 64) in *. set (r2 := q1 mod 64) in *.
  assert (Q2 : 0 <= q2) by (apply Z.div_pos; lia). clearbody q0 r0 q1 r1 q2 r2. clear D4 D8.
  destruct (c <? 0x80) eqn:E1.
  { cbn [app]. rewrite dec1; rewrite Zb; solve [reflexivity|lia]. }
  destruct (c <? 0x800) eqn:E2.
  { cbn [app]. rewrite (dec2 _ _ s q0 r0); [f_equal; lia|apply Zb; lia|apply Zb; lia|lia|lia]. }
  destruct (c <? 0x10000) eqn:E3.
  { cbn [app]. rewrite (dec3 _ _ _ s q1 r1 r0); [f_equal; lia|apply Zb; lia|apply Zb; lia|apply Zb; lia|lia|lia|lia|lia|destruct H; lia]. }
  cbn [app]. rewrite (dec4 _ _ _ _ s q2 r2 r1 r0); [f_equal; lia|apply Zb; lia|apply Zb; lia|apply Zb; lia|apply Zb; lia|lia|lia|lia|lia|lia|lia].
Qed.
Lemma runes_text cs : Forall character cs -> runes (flat_map utf8 cs) = cs.
Proof. induction 1 as [|c cs Hc _ IH]; [reflexivity|]. cbn [flat_map]. now rewrite runes_utf8, IH. Qed.
Lemma put_runes_text cs : Forall character cs -> put_runes cs = flat_map utf8 cs.
Proof. unfold put_runes. induction 1 as [|c cs Hc _ IH]; [reflexivity|]. cbn [flat_map]. now rewrite put_rune_utf8, IH. Qed.
Lemma runes_of s cs : is_text s cs -> runes s = cs.
Proof. intros [H ->]. now apply runes_text. Qed.

(** * Numbers *)
Lemma digit_val_spec b d : digit_val b = Some d <-> 48 <= Z_of_byte b <= 57 /\ d = Z_of_byte b - 48.
Proof. unfold digit_val. cbv zeta. destruct ((0 <=? Z_of_byte b - 48) && (Z_of_byte b - 48 <=? 9)) eqn:E; split; intros H; try discriminate; [injection H as <-; lia|destruct H as [_ ->]; reflexivity|lia]. Qed.
Lemma digits_grow s : forall acc n, 0 <= acc -> digits_from acc s n -> acc <= n.
Proof. induction s as [|b s IH]; intros acc n H; cbn [digits_from]; [lia|]. intros [D R]. apply IH in R; lia. Qed.
Lemma parse_digits_spec max s : forall acc n, 0 <= acc <= max -> parse_digits max acc s = NumOk n <-> digits_from acc s n /\ n <= max.
Proof.
  induction s as [|b s IH]; intros acc n H; cbn [parse_digits digits_from].
  - split; [intros [= ->]; lia|intros [-> _]; reflexivity].
  - destruct (digit_val b) as [d|] eqn:D.
    + apply digit_val_spec in D. destruct D as [D ->]. destruct (max <? acc * 10 + (Z_of_byte b - 48)) eqn:M.
      * split; [discriminate|]. intros [[_ R] L]. apply digits_grow in R; lia.
      * rewrite IH by lia. tauto.
    + split; [discriminate|]. intros [[R _] _]. assert (E : digit_val b = Some (Z_of_byte b - 48)) by (apply digit_val_spec; split; [exact R|reflexivity]). congruence.
Qed.
Lemma numeral_pos s n : numeral s n -> 0 <= n.
Proof. intros [_ H]. apply digits_grow in H; lia. Qed.
Lemma parse_uint_spec bits s n : 0 <= bits -> parse_uint bits s = NumOk n <-> numeral s n /\ n < 2 ^ bits.
Proof.
  intros B. unfold parse_uint, numeral. destruct s as [|b s]; [split; [discriminate|intros [[H _] _]; congruence]|].
  assert (P := Z.pow_pos_nonneg 2 bits ltac:(lia) B). rewrite parse_digits_spec by lia.
  split; intros [H L]; (split; [|lia]); [split; [discriminate|exact H]|apply H].
Qed.
Lemma parse_int_plain s n : ~ In x2b s -> ~ In x2d s -> parse_int 32 s = Some n <-> numeral s n /\ n < 2 ^ 31.
Proof.
  intros Np Nm. unfold parse_int. set (x := match s with [] => _ | _ => _ end). assert (E : x = (false, s)).
  { subst x. destruct s as [|c r]; [reflexivity|]. cbn [In] in *. rewrite !byte_eqb_neq by (intros ->; tauto). reflexivity. }
  rewrite E. clear x E. change (32 - 1) with 31.
  assert (U : forall m k, numeral s m -> m < 2 ^ 32 -> numeral s k -> k < 2 ^ 32 -> m = k).
  { intros m k Nm' Lm Nk Lk. assert (A := proj2 (parse_uint_spec 32 s m ltac:(lia)) (conj Nm' Lm)).
    assert (B := proj2 (parse_uint_spec 32 s k ltac:(lia)) (conj Nk Lk)). congruence. }
  assert (T : 2 ^ 31 < 2 ^ 32) by reflexivity.
  destruct (parse_uint 32 s) as [m| |] eqn:P.
  - apply (parse_uint_spec 32 s m ltac:(lia)) in P. destruct P as [N L].
    destruct (m <? 2 ^ 31) eqn:M.
    + apply Z.ltb_lt in M. split; [intros [= <-]; split; [exact N|exact M]|]. intros [N' L']. f_equal. apply (U m n N L N'). lia.
    + apply Z.ltb_ge in M. split; [discriminate|]. intros [N' L']. exfalso. assert (m = n) by (apply (U m n N L N'); lia). lia.
  - split; [discriminate|]. intros [N L]. assert (B := proj2 (parse_uint_spec 32 s n ltac:(lia)) (conj N (Z.lt_trans _ _ _ L T))). congruence.
  - split; [discriminate|]. intros [N L]. assert (B := proj2 (parse_uint_spec 32 s n ltac:(lia)) (conj N (Z.lt_trans _ _ _ L T))). congruence.
Qed.
Lemma digits_chars s : forall acc n, digits_from acc s n -> forall c, In c s -> 48 <= Z_of_byte c <= 57.
Proof. induction s as [|b s IH]; intros acc n; cbn [digits_from In]; [tauto|]. intros [D R] c [<-|I]; [exact D|]. now apply (IH _ _ R). Qed.
Lemma numeral_no s n c : numeral s n -> Z_of_byte c < 48 \/ 57 < Z_of_byte c -> ~ In c s.
Proof. intros [_ H] B I. apply (digits_chars _ _ _ H) in I. lia. Qed.
Lemma parse_numeral s n : numeral s n -> n < 2 ^ 31 -> parse_int 32 s = Some n.
Proof.
  intros N L. apply parse_int_plain; [| |split; assumption]; apply (numeral_no s n _ N); left; reflexivity.
Qed.

(** * Bounds *)
Lemma cut_none c s : ~ In c s -> cut c s = None.
Proof. induction s as [|x s IH]; cbn [cut In]; intros H; [reflexivity|]. rewrite byte_eqb_neq by (intros ->; tauto). rewrite IH by tauto. reflexivity. Qed.
Lemma cut_some c s a b : cut c s = Some (a, b) -> s = a ++ c :: b /\ ~ In c a.
Proof.
  revert a b. induction s as [|x s IH]; intros a b; cbn [cut]; [discriminate|]. destruct (Byte.eqb x c) eqn:E.
  - apply Byte.byte_dec_bl in E. subst x. intros [= <- <-]. split; [reflexivity|intros []].
  - destruct (cut c s) as [[a' b']|] eqn:C; [|discriminate]. intros [= <- <-]. destruct (IH _ _ eq_refl) as [-> N]. split; [reflexivity|].
    intros [->|I]; [now rewrite byte_eqb_refl in E|tauto].
Qed.
Lemma spells_first s d : spells s d -> 0 <= first_of d <= last_of d /\ s <> [].
Proof.
  destruct d as [a|a b]; cbn [spells first_of last_of].
  - intros N. split; [|apply N]. apply numeral_pos in N. lia.
  - intros (L & s1 & s2 & -> & N & _). apply numeral_pos in N. split; [lia|]. now destruct s1.
Qed.
Lemma numeral_fun s m n : numeral s m -> numeral s n -> m = n.
Proof.
  intros [_ A] [_ B]. revert A B. generalize 0. induction s as [|b s IH]; intros acc; cbn [digits_from]; [congruence|]. intros [_ A] [_ B]. now apply (IH _ A B).
Qed.
Lemma parse_large s n : numeral s n -> 2 ^ 31 <= n -> parse_int 32 s = None.
Proof.
  intros N L. destruct (parse_int 32 s) as [m|] eqn:P; [|reflexivity]. exfalso.
  apply parse_int_plain in P; [|apply (numeral_no s n _ N); left; reflexivity|apply (numeral_no s n _ N); left; reflexivity].
  destruct P as [N' L']. rewrite (numeral_fun s m n N' N) in L'. lia.
Qed.
Lemma pair_spelled s d : spells s d -> parse_pair s =
  if last_of d <? 2 ^ 31 then Some (first_of d, match d with One _ => -1 | Span _ b => b end) else None.
Proof.
  intros H. destruct (spells_first s d H) as [F _]. unfold parse_pair. destruct d as [a|a b]; cbn [spells first_of last_of] in *.
  - rewrite (cut_none x3a s) by (apply (numeral_no s a _ H); right; reflexivity). destruct (a <? 2 ^ 31) eqn:E.
    + apply Z.ltb_lt in E. rewrite (parse_numeral s a H E). now replace (a <? 0) with false by lia.
    + apply Z.ltb_ge in E. now rewrite (parse_large s a H E).
  - destruct H as (La & s1 & s2 & -> & N1 & N2). rewrite cut_app by (apply (numeral_no s1 a _ N1); right; reflexivity).
    destruct (b <? 2 ^ 31) eqn:E.
    + apply Z.ltb_lt in E. rewrite (parse_numeral s1 a N1), (parse_numeral s2 b N2) by lia. replace (b <? 0) with false by lia. replace (b <=? a) with false by lia. now replace (a <? 0) with false by lia.
    + apply Z.ltb_ge in E. rewrite (parse_large s2 b N2 E). now destruct (parse_int 32 s1).
Qed.
Lemma pair_sound s lo hi : parse_pair s = Some (lo, hi) -> 0 <= lo /\ (hi = -1 \/ lo < hi).
Proof.
  unfold parse_pair. destruct (cut x3a s) as [[a b]|].
  - destruct (parse_int 32 a) as [x|]; [|discriminate]. destruct (parse_int 32 b) as [y|]; [|discriminate]. destruct ((y <? 0) || (y <=? x)) eqn:E; [discriminate|].
    destruct (x <? 0) eqn:E1; [discriminate|]. intros [= <- <-]. lia.
  - destruct (parse_int 32 s) as [x|]; [|discriminate]. destruct (x <? 0) eqn:E1; [discriminate|]. intros [= <- <-]. lia.
Qed.
(** The converse, for texts without sign characters. *)
Lemma pair_only s lo hi : unsigned_text s -> parse_pair s = Some (lo, hi) -> exists d, spells s d /\ bounded d /\ first_of d = lo.
Proof.
  intros [Np Nm]. unfold parse_pair, bounded. destruct (cut x3a s) as [[a b]|] eqn:C.
  - apply cut_some in C. destruct C as [-> Na]. assert (I : forall c, In c a \/ In c b -> In c (a ++ x3a :: b)) by (intros c [H|H]; apply in_app_iff; [now left|right; now right]).
    destruct (parse_int 32 a) as [x|] eqn:Pa; [|discriminate]. destruct (parse_int 32 b) as [y|] eqn:Pb; [|discriminate].
    apply parse_int_plain in Pa; [|intros X; apply Np, I; now left|intros X; apply Nm, I; now left]. apply parse_int_plain in Pb; [|intros X; apply Np, I; now right|intros X; apply Nm, I; now right].
    destruct ((y <? 0) || (y <=? x)) eqn:E; [discriminate|]. destruct (x <? 0) eqn:E1; [discriminate|]. intros [= <- <-].
    exists (Span x y). cbn [spells first_of last_of]. repeat split; [lia|exists a, b; tauto|tauto].
  - destruct (parse_int 32 s) as [x|] eqn:Pa; [|discriminate]. apply parse_int_plain in Pa; [|assumption|assumption].
    destruct (x <? 0) eqn:E1; [discriminate|]. intros [= <- <-]. exists (One x). cbn [spells first_of last_of]. tauto.
Qed.

Theorem bounds_spelled s d len : spells s d -> bounded d -> 0 < len ->
  parse_bounds s len = if first_of d <? len then BOk (first_of d) (Z.min (last_of d + 1) len) else BBad BadIndexRangeNoData.
Proof.
  intros H B L. unfold parse_bounds, bounded in *. replace (len =? 0) with false by lia. rewrite (pair_spelled s d H).
  destruct (spells_first s d H) as [F Ne]. destruct s as [|c0 s0]; [congruence|]. replace (last_of d <? 2 ^ 31) with true by (symmetry; apply Z.ltb_lt, B). clear B H.
  destruct (first_of d <? len) eqn:E; [|now replace (len <=? first_of d) with true by lia]. replace (len <=? first_of d) with false by lia.
  destruct d as [a|a b]; cbn [first_of last_of] in *.
  - replace (len <=? -1) with false by lia. cbn [Z.eqb Pos.eqb]. f_equal. lia.
  - destruct (len <=? b) eqn:E2; [replace (len - 1 =? -1) with false by lia|replace (b =? -1) with false by lia]; f_equal; lia.
Qed.
Theorem bounds_within s len i j : 0 <= len -> parse_bounds s len = BOk i j -> 0 <= i < j /\ j <= len.
Proof.
  intros L. unfold parse_bounds. destruct (len =? 0) eqn:E0; [discriminate|]. destruct s as [|c0 s0]; [intros [= <- <-]; lia|].
  destruct (parse_pair (c0 :: s0)) as [[lo hi]|] eqn:P; [|discriminate]. apply pair_sound in P. destruct (len <=? lo) eqn:E2; [discriminate|]. intros [= <- <-].
  destruct (len <=? hi) eqn:E3.
  - destruct (len - 1 =? -1) eqn:E4; lia.
  - destruct (hi =? -1) eqn:E4; lia.
Qed.
(** A text that is no range is refused as invalid. *)
Theorem bounds_malformed s len : 0 < len -> unsigned_text s -> s <> [] -> (forall d, ~ spells s d) -> parse_bounds s len = BBad BadIndexRangeInvalid.
Proof.
  intros L U Ne H. unfold parse_bounds. replace (len =? 0) with false by lia. destruct s as [|c0 s0]; [congruence|].
  destruct (parse_pair (c0 :: s0)) as [[lo hi]|] eqn:P; [|reflexivity]. apply (pair_only _ _ _ U) in P. destruct P as (d & D & _). now apply H in D.
Qed.
Theorem bounds_large s d len : spells s d -> 2 ^ 31 <= last_of d -> 0 < len -> parse_bounds s len = BBad BadIndexRangeInvalid.
Proof.
  intros H B L. unfold parse_bounds. replace (len =? 0) with false by lia. destruct (spells_first s d H) as [_ Ne]. destruct s as [|c0 s0]; [congruence|].
  rewrite (pair_spelled _ d H). now replace (last_of d <? 2 ^ 31) with false by (symmetry; apply Z.ltb_ge, B).
Qed.

(** * Selection *)
Lemma nth_firstn_lt {A} (l : list A) n k : (k < n)%nat -> nth_error (firstn n l) k = nth_error l k.
Proof. revert l k. induction n as [|n IH]; intros l k H; [lia|]. destruct l as [|x l]; [reflexivity|]. destruct k as [|k]; [reflexivity|]. cbn. apply IH. lia. Qed.
Lemma nth_skipn {A} (l : list A) n k : nth_error (skipn n l) k = nth_error l (n + k).
Proof. revert l. induction n as [|n IH]; intros l; [reflexivity|]. destruct l as [|x l]; [cbn; now destruct k|]. apply IH. Qed.
Lemma nth_slice {A} (l : list A) i n k : nth_error (firstn n (skipn i l)) k = if (k <? n)%nat then nth_error l (i + k) else None.
Proof.
  destruct (k <? n)%nat eqn:E.
  - rewrite nth_firstn_lt by lia. apply nth_skipn.
  - apply nth_error_None. rewrite firstn_length. lia.
Qed.
Lemma slice_selected {A} (d : dimension) (l : list A) : 0 <= first_of d <= last_of d -> first_of d < zlen l ->
  selected d l (slice (first_of d) (Z.min (last_of d + 1) (zlen l)) l).
Proof.
  intros F L k. unfold slice, zlen in *. rewrite nth_slice.
  destruct (first_of d + Z.of_nat k <=? last_of d) eqn:E.
  - destruct (k <? Z.to_nat (Z.min (last_of d + 1) (Z.of_nat (length l)) - first_of d))%nat eqn:E2; [reflexivity|]. symmetry. apply nth_error_None. lia.
  - now replace (k <? _)%nat with false by lia.
Qed.
Lemma nth_error_ext {A} (l l' : list A) : (forall k, nth_error l k = nth_error l' k) -> l = l'.
Proof.
  revert l'. induction l as [|x l IH]; intros l' H.
  - destruct l' as [|y l']; [reflexivity|]. specialize (H O). discriminate.
  - destruct l' as [|y l']; [specialize (H O); discriminate|]. assert (H0 := H O). injection H0 as ->. f_equal. apply IH. intros k. apply (H (S k)).
Qed.
Lemma selected_fun {A} d (l r r' : list A) : selected d l r -> selected d l r' -> r = r'.
Proof. intros H H'. apply nth_error_ext. intros k. now rewrite H, H'. Qed.
Lemma paste_replaced {A} (d : dimension) (l v : list A) : 0 <= first_of d <= last_of d -> first_of d < zlen l -> zlen v = Z.min (last_of d + 1) (zlen l) - first_of d ->
  replaced d l v (paste (first_of d) (Z.min (last_of d + 1) (zlen l)) v l).
Proof.
  intros F L V. set (j := Z.min (last_of d + 1) (zlen l)) in *. unfold zlen, paste in *.
  assert (Len : length (firstn (Z.to_nat (first_of d)) l ++ v ++ skipn (Z.to_nat j) l) = length l).
  { rewrite !app_length, firstn_length, skipn_length. lia. }
  split; [exact Len|]. split.
  - intros k. destruct (first_of d + Z.of_nat k <=? last_of d) eqn:E.
    + rewrite nth_error_app2 by (rewrite firstn_length; lia). rewrite firstn_length. replace (Z.to_nat (first_of d) + k - Nat.min (Z.to_nat (first_of d)) (length l))%nat with k by lia.
      destruct (Nat.lt_ge_cases k (length v)) as [K|K]; [now rewrite nth_error_app1 by lia|]. rewrite nth_error_app2 by lia. transitivity (@None A); [apply nth_error_None; lia|symmetry].
      apply nth_error_None. rewrite skipn_length. lia.
    + apply nth_error_None. lia.
  - intros k [K|K].
    + rewrite nth_error_app1 by (rewrite firstn_length; lia). apply nth_firstn_lt. lia.
    + rewrite nth_error_app2 by (rewrite firstn_length; lia). rewrite firstn_length. rewrite nth_error_app2 by lia. rewrite nth_skipn. f_equal. lia.
Qed.
Lemma slice_paste {A} (i j : Z) (l v : list A) : 0 <= i <= j -> j <= zlen l -> zlen v = j - i -> slice i j (paste i j v l) = v.
Proof.
  intros I J V. unfold slice, paste, zlen in *. rewrite skipn_app, firstn_length, (skipn_all2 (firstn _ l)) by (rewrite firstn_length; lia).
  replace (Z.to_nat i - Nat.min (Z.to_nat i) (length l))%nat with O by lia. cbn [app skipn]. rewrite firstn_app. replace (Z.to_nat (j - i) - length v)%nat with O by lia.
  cbn [firstn]. rewrite app_nil_r. apply firstn_all2. lia.
Qed.
Lemma paste_length {A} (i j : Z) (l v : list A) : 0 <= i <= j -> j <= zlen l -> zlen v = j - i -> zlen (paste i j v l) = zlen l.
Proof. intros I J V. unfold paste, zlen in *. rewrite !app_length, firstn_length, skipn_length. lia. Qed.

(** * Ranges with commas *)
Lemma split_none c s : ~ In c s -> split c s = [s].
Proof. induction s as [|x s IH]; cbn [split In]; intros H; [reflexivity|]. rewrite byte_eqb_neq by (intros ->; tauto). rewrite IH by tauto. reflexivity. Qed.
Lemma split_cons c a b : ~ In c a -> split c (a ++ c :: b) = a :: split c b.
Proof.
  induction a as [|x a IH]; cbn [split app In]; intros H; [now rewrite byte_eqb_refl|]. rewrite byte_eqb_neq by (intros ->; tauto). now rewrite IH by tauto.
Qed.
Lemma spells_no_comma s d : spells s d -> ~ In x2c s.
Proof.
  destruct d as [a|a b]; cbn [spells].
  - intros N. apply (numeral_no s a _ N). left. reflexivity.
  - intros (_ & s1 & s2 & -> & N1 & N2) I. apply in_app_iff in I. destruct I as [I|[I|I]]; [|discriminate|].
    + revert I. apply (numeral_no s1 a _ N1). left. reflexivity.
    + revert I. apply (numeral_no s2 b _ N2). left. reflexivity.
Qed.
Lemma spells_one range d : spells_all range [d] -> spells range d.
Proof. intros (l & F & ->). inversion F as [|s d' l' ds' Hs Hl]; subst. inversion Hl; subst. exact Hs. Qed.
Lemma spells_two range d1 d2 : spells_all range [d1; d2] -> exists s1 s2, spells s1 d1 /\ spells s2 d2 /\ range = s1 ++ x2c :: s2.
Proof. intros (l & F & ->). inversion F as [|s d' l' ds' Hs Hl]; subst. inversion Hl as [|s' d'' l'' ds'' Hs' Hl']; subst. inversion Hl'; subst. now exists s, s'. Qed.

(** * Reading *)
Lemma sub_range_spec {A} s d (l : list A) : spells s d -> bounded d ->
  if first_of d <? zlen l then exists r, selected d l r /\ sub_range s l = inl r else sub_range s l = inr BadIndexRangeNoData.
Proof.
  intros H B. destruct (spells_first s d H) as [F _]. unfold sub_range. destruct (Z.eq_dec (zlen l) 0) as [E|E].
  - rewrite E. replace (first_of d <? 0) with false by lia. reflexivity.
  - rewrite (bounds_spelled s d (zlen l) H B) by (unfold zlen in *; lia). destruct (first_of d <? zlen l) eqn:L; [|reflexivity].
    exists (slice (first_of d) (Z.min (last_of d + 1) (zlen l)) l). split; [|reflexivity]. apply slice_selected; lia.
Qed.
Lemma nonempty_range {A} range d (x y : A) : spells range d -> match range with [] => x | _ => y end = y.
Proof. intros H. destruct (spells_first range d H) as [_ N]. now destruct range. Qed.
Ltac open_range H :=
  match type of H with spells ?r ?d =>
    unfold read_range; rewrite (nonempty_range r d _ _ H); rewrite (split_none x2c r) by apply (spells_no_comma r d H);
    change (1 <=? zlen (@nil bytes)) with false; change (2 <=? zlen (@nil bytes)) with false; cbv iota
  end.
Theorem read_array t els range d : spells_all range [d] -> bounded d -> reads_as (GArr t) d els (read_range (GArr t els) range).
Proof.
  intros H B. apply spells_one in H. open_range H. unfold reads_as. fold (zlen els). assert (S := sub_range_spec range d els H B).
  destruct (first_of d <? zlen els); [destruct S as (r & Sr & ->); exists r; now split|now rewrite S].
Qed.
Theorem read_blob s range d : spells_all range [d] -> bounded d -> reads_as GBlob d s (read_range (GBlob s) range).
Proof.
  intros H B. apply spells_one in H. open_range H. unfold reads_as. fold (zlen s). assert (S := sub_range_spec range d s H B).
  destruct (first_of d <? zlen s); [destruct S as (r & Sr & ->); exists r; now split|now rewrite S].
Qed.
Lemma selected_forall {A} (P : A -> Prop) d l r : selected d l r -> Forall P l -> Forall P r.
Proof.
  intros H F. apply Forall_forall. intros x I. apply In_nth_error in I. destruct I as [k K]. rewrite H in K. destruct (_ <=? _) in K; [|discriminate].
  apply nth_error_In in K. rewrite Forall_forall in F. now apply F.
Qed.
Theorem read_text cs range d : Forall character cs -> spells_all range [d] -> bounded d -> reads_as (fun r => GText (text_of r)) d cs (read_range (GText (text_of cs)) range).
Proof.
  intros C H B. apply spells_one in H. open_range H. unfold reads_as, text_range, text_of. rewrite (runes_text cs C). fold (zlen cs). assert (S := sub_range_spec range d cs H B).
  destruct (first_of d <? zlen cs); [destruct S as (r & Sr & ->); exists r; split; [exact Sr|]|now rewrite S].
  cbn [lift]. rewrite put_runes_text; [reflexivity|]. now apply (selected_forall _ d cs r Sr).
Qed.
Theorem read_texts l range d : spells_all range [d] -> bounded d -> reads_as GTexts d l (read_range (GTexts l) range).
Proof.
  intros H B. apply spells_one in H. open_range H. unfold reads_as. fold (zlen l). assert (S := sub_range_spec range d l H B).
  destruct (first_of d <? zlen l); [destruct S as (r & Sr & ->); exists r; now split|now rewrite S].
Qed.
Theorem read_blobs l range d : spells_all range [d] -> bounded d -> reads_as GBlobs d l (read_range (GBlobs l) range).
Proof.
  intros H B. apply spells_one in H. open_range H. unfold reads_as. fold (zlen l). assert (S := sub_range_spec range d l H B).
  destruct (first_of d <? zlen l); [destruct S as (r & Sr & ->); exists r; now split|now rewrite S].
Qed.
(** Two dimensions.  [P] are the elements whose text form is [f]. *)
Lemma each_spec {A} (f : list A -> bytes) (g : bytes -> bytes + Z) (d : dimension) (r : list (list A)) (P : list A -> Prop) : Forall P r ->
  (forall x, P x -> if first_of d <? zlen x then exists y, selected d x y /\ g (f x) = inl (f y) else g (f x) = inr BadIndexRangeNoData) ->
  (Forall (fun x => first_of d < zlen x) r /\ exists r', Forall2 (selected d) r r' /\ each_range g (map f r) = inl (map f r')) \/
  (Exists (fun x => zlen x <= first_of d) r /\ each_range g (map f r) = inr BadIndexRangeNoData).
Proof.
  intros F H. induction F as [|x r Px _ IH]; [left; split; [constructor|]; exists []; split; [constructor|reflexivity]|].
  cbn [map each_range]. specialize (H x Px). destruct (first_of d <? zlen x) eqn:E.
  - destruct H as (y & Sy & ->). destruct IH as [(A1 & r' & A2 & ->)|[A1 ->]].
    + left. split; [constructor; [lia|exact A1]|]. exists (y :: r'). split; [now constructor|reflexivity].
    + right. split; [now apply Exists_cons_tl|reflexivity].
  - rewrite H. right. split; [apply Exists_cons_hd; lia|reflexivity].
Qed.
Lemma selected_map {A B} (f : A -> B) d l r : selected d l r -> selected d (map f l) (map f r).
Proof. intros H k. rewrite !nth_error_map, H. destruct (_ <=? _); reflexivity. Qed.
Lemma split_two s1 s2 d1 d2 : spells s1 d1 -> spells s2 d2 -> split x2c (s1 ++ x2c :: s2) = [s1; s2].
Proof. intros H1 H2. rewrite split_cons by apply (spells_no_comma s1 d1 H1). now rewrite (split_none x2c s2) by apply (spells_no_comma s2 d2 H2). Qed.
Lemma nonempty_two {A} (s1 s2 : bytes) (x y : A) : match s1 ++ x2c :: s2 with [] => x | _ => y end = y.
Proof. now destruct s1. Qed.
Theorem read_blobs2 l range d1 d2 : spells_all range [d1; d2] -> bounded d1 -> bounded d2 ->
  reads_inside GBlobs (fun x => x) d1 d2 l (read_range (GBlobs l) range).
Proof.
  intros H B1 B2. apply spells_two in H. destruct H as (s1 & s2 & H1 & H2 & ->). unfold read_range. rewrite nonempty_two, (split_two s1 s2 d1 d2 H1 H2).
  change (2 <=? zlen [s2]) with false. cbv iota. unfold reads_inside. assert (S := sub_range_spec (A := list byte) s1 d1 l H1 B1).
  change (@sub_range bytes s1 l) with (@sub_range (list byte) s1 l). fold (@zlen (list byte) l).
  destruct (first_of d1 <? @zlen (list byte) l); [|rewrite S; reflexivity]. destruct S as (r & Sr & E0). rewrite E0. clear E0. exists r. split; [exact Sr|]. cbn [inner].
  destruct (each_spec (fun x : bytes => x) (sub_range s2) d2 r (fun _ => True)) as [(A1 & r' & A2 & E)|[A1 E]].
  - clear. induction r; constructor; trivial.
  - intros x _. apply (sub_range_spec s2 d2 x H2 B2).
  - left. split; [exact A1|]. exists r'. split; [exact A2|]. rewrite map_id in E. now rewrite E.
  - right. split; [exact A1|]. rewrite map_id in E. now rewrite E.
Qed.
Theorem read_texts2 ll range d1 d2 : all_characters ll -> spells_all range [d1; d2] -> bounded d1 -> bounded d2 ->
  reads_inside GTexts text_of d1 d2 ll (read_range (GTexts (map text_of ll)) range).
Proof.
  intros C H B1 B2. apply spells_two in H. destruct H as (s1 & s2 & H1 & H2 & ->). unfold read_range. rewrite nonempty_two, (split_two s1 s2 d1 d2 H1 H2).
  change (2 <=? zlen [s2]) with false. cbv iota. unfold reads_inside. assert (S := sub_range_spec s1 d1 (map text_of ll) H1 B1). assert (S' := sub_range_spec s1 d1 ll H1 B1).
  unfold zlen in S at 1. rewrite map_length in S. fold (zlen ll) in *.
  destruct (first_of d1 <? zlen ll); [|now rewrite S]. destruct S as (r0 & Sr0 & ->). destruct S' as (r & Sr & _). exists r. split; [exact Sr|].
  assert (r0 = map text_of r) by (apply (selected_fun d1 (map text_of ll)); [exact Sr0|now apply selected_map]). subst r0. cbn [inner].
  destruct (each_spec text_of (text_range s2) d2 r (Forall character)) as [(A1 & r' & A2 & E)|[A1 E]].
  - apply (selected_forall _ d1 ll r Sr C).
  - intros x Cx. assert (S := sub_range_spec s2 d2 x H2 B2). unfold text_range, text_of. rewrite (runes_text x Cx). destruct (first_of d2 <? zlen x); [|now rewrite S].
    destruct S as (y & Sy & ->). exists y. split; [exact Sy|]. rewrite put_runes_text; [reflexivity|]. now apply (selected_forall _ d2 x y Sy).
  - left. split; [exact A1|]. exists r'. split; [exact A2|]. now rewrite E.
  - right. split; [exact A1|]. now rewrite E.
Qed.

(** * Refusals *)
Theorem read_malformed v range : 0 < element_count v -> range <> [] -> ~ In x2c range -> unsigned_text range -> (forall d, ~ spells range d) ->
  read_range v range = RBad BadIndexRangeInvalid.
Proof.
  intros E N C U M. unfold read_range. rewrite (split_none x2c range C). change (1 <=? zlen (@nil bytes)) with false. change (2 <=? zlen (@nil bytes)) with false.
  assert (X : forall A (l : list A), 0 < zlen l -> sub_range range l = inr BadIndexRangeInvalid) by (intros A l L; unfold sub_range; now rewrite (bounds_malformed range (zlen l) L U N M)).
  destruct range as [|c0 r0]; [congruence|]. set (range := c0 :: r0) in *. clearbody range.
  destruct v as [|t c|s|s|t l|l|l|t c|c]; cbn [element_count] in E; try lia; unfold text_range; now rewrite X.
Qed.
Theorem read_large v range d : 0 < element_count v -> spells range d -> 2 ^ 31 <= last_of d -> read_range v range = RBad BadIndexRangeInvalid.
Proof.
  intros E H B. open_range H. assert (X : forall A (l : list A), 0 < zlen l -> sub_range range l = inr BadIndexRangeInvalid) by (intros A l L; unfold sub_range; now rewrite (bounds_large range d (zlen l) H B L)).
  destruct v as [|t c|s|s|t l|l|l|t c|c]; cbn [element_count] in E; try lia; unfold text_range; now rewrite X.
Qed.
Theorem read_empty v range : element_count v = 0 -> range <> [] -> read_range v range = RBad BadIndexRangeNoData.
Proof.
  intros E N. unfold read_range. destruct range as [|c0 r0]; [congruence|]. set (range := c0 :: r0) in *. clearbody range. clear N.
  destruct (split x2c range) as [|r rs] eqn:Sp.
  { exfalso. revert Sp. clear. destruct range as [|x s]; cbn [split]; [discriminate|]. destruct (Byte.eqb x x2c); [discriminate|]. now destruct (split x2c s). }
  assert (X : forall A (l : list A), zlen l = 0 -> sub_range r l = inr BadIndexRangeNoData) by (intros A l L; unfold sub_range, parse_bounds; now rewrite L).
  destruct v as [|t c|s|s|t l|l|l|t c|c]; cbn [element_count] in E; unfold text_range; try reflexivity; try destruct (1 <=? zlen rs); try destruct (2 <=? zlen rs); try reflexivity; now rewrite X.
Qed.
(** Wrong number of dimensions. *)
Theorem read_dimensions v range : (match v with GText _ | GBlob _ | GArr _ _ => 1 | GTexts _ | GBlobs _ => 2 | _ => 0 end < zlen (split x2c range))%Z -> range <> [] ->
  read_range v range = RBad BadIndexRangeNoData.
Proof.
  intros L N. unfold read_range. destruct range as [|c0 r0]; [congruence|]. set (range := c0 :: r0) in *. clearbody range.
  destruct (split x2c range) as [|r rs]; [destruct v; cbn in L; lia|]. assert (Z : zlen (r :: rs) = 1 + zlen rs) by (unfold zlen; cbn [length]; lia). rewrite Z in L.
  destruct v; try reflexivity; try (now replace (1 <=? zlen rs) with true by lia); now replace (2 <=? zlen rs) with true by lia.
Qed.

(** * Writing *)
Lemma paste_range_spec {A} (mk : list A -> gval) s d (l v : list A) : spells s d -> bounded d -> writes_as mk d l v (paste_range mk s l (Some v)).
Proof.
  intros H B. destruct (spells_first s d H) as [F _]. unfold paste_range, writes_as, count_of. fold (zlen l) (zlen v). destruct (Z.eq_dec (zlen l) 0) as [E|E].
  - rewrite E. now replace (first_of d <? 0) with false by lia.
  - rewrite (bounds_spelled s d (zlen l) H B) by (unfold zlen in *; lia). destruct (first_of d <? zlen l) eqn:L; [|reflexivity]. cbn [andb].
    rewrite (Z.eqb_sym (zlen v)). destruct (Z.min (last_of d + 1) (zlen l) - first_of d =? zlen v) eqn:V; [|reflexivity].
    exists (paste (first_of d) (Z.min (last_of d + 1) (zlen l)) v l). split; [|reflexivity]. apply paste_replaced; lia.
Qed.
Ltac open_write H :=
  match type of H with spells ?r ?d =>
    unfold write_range; rewrite (nonempty_range r d _ _ H); rewrite (split_none x2c r) by apply (spells_no_comma r d H);
    change (1 <=? zlen (@nil bytes)) with false; change (2 <=? zlen (@nil bytes)) with false; cbv iota
  end.
Theorem write_array t els w range d : spells_all range [d] -> bounded d -> writes_as (GArr t) d els w (write_range (GArr t els) (GArr t w) range).
Proof. intros H B. apply spells_one in H. open_write H. rewrite Z.eqb_refl. now apply paste_range_spec. Qed.
Theorem write_blob s w range d : spells_all range [d] -> bounded d -> writes_as GBlob d s w (write_range (GBlob s) (GBlob w) range).
Proof. intros H B. apply spells_one in H. open_write H. now apply paste_range_spec. Qed.
Theorem write_texts l w range d : spells_all range [d] -> bounded d -> writes_as GTexts d l w (write_range (GTexts l) (GTexts w) range).
Proof. intros H B. apply spells_one in H. open_write H. now apply paste_range_spec. Qed.
Theorem write_blobs l w range d : spells_all range [d] -> bounded d -> writes_as GBlobs d l w (write_range (GBlobs l) (GBlobs w) range).
Proof. intros H B. apply spells_one in H. open_write H. now apply paste_range_spec. Qed.
Lemma in_firstn {A} n (l : list A) x : In x (firstn n l) -> In x l.
Proof. intros H. rewrite <- (firstn_skipn n l). apply in_app_iff. now left. Qed.
Lemma in_skipn {A} n (l : list A) x : In x (skipn n l) -> In x l.
Proof. intros H. rewrite <- (firstn_skipn n l). apply in_app_iff. now right. Qed.
Lemma paste_forall {A} (P : A -> Prop) i j (v l : list A) : Forall P v -> Forall P l -> Forall P (paste i j v l).
Proof.
  intros V L. rewrite Forall_forall in *. unfold paste. intros x I. apply in_app_iff in I. destruct I as [I|I]; [now apply L, (in_firstn _ _ _ I)|].
  apply in_app_iff in I. destruct I as [I|I]; [now apply V|now apply L, (in_skipn _ _ _ I)].
Qed.
Theorem write_text cs ws range d : Forall character cs -> Forall character ws -> spells_all range [d] -> bounded d ->
  writes_as (fun r => GText (text_of r)) d cs ws (write_range (GText (text_of cs)) (GText (text_of ws)) range).
Proof.
  intros C W H B. apply spells_one in H. open_write H. unfold text_of. rewrite (runes_text cs C), (runes_text ws W). assert (S := paste_range_spec (fun r => GText (put_runes r)) range d cs ws H B).
  unfold writes_as in *. destruct (_ && _); [|exact S]. destruct S as (r & R & ->). exists r. split; [exact R|]. rewrite put_runes_text; [reflexivity|].
  destruct R as (L1 & S1 & O1). apply Forall_forall. intros x I. apply In_nth_error in I. destruct I as [k K]. rewrite Forall_forall in C, W.
  destruct (spells_first range d H) as [F _].
  destruct (Z_lt_le_dec (Z.of_nat k) (first_of d)) as [K1|K1]; [rewrite O1 in K by lia; now apply C, (nth_error_In _ k)|].
  destruct (Z_lt_le_dec (last_of d) (Z.of_nat k)) as [K2|K2]; [rewrite O1 in K by lia; now apply C, (nth_error_In _ k)|].
  apply W. apply (nth_error_In _ (k - Z.to_nat (first_of d))). rewrite S1. replace (_ <=? _) with true by lia. rewrite <- K. f_equal. lia.
Qed.
(** Reading the range back. *)
Lemma paste_back {A} (mk : list A -> gval) r (l w : list A) out : paste_range mk r l (Some w) = WrVal out ->
  exists l', out = mk l' /\ sub_range r l' = inl w /\ forall P : A -> Prop, Forall P l -> Forall P w -> Forall P l'.
Proof.
  unfold paste_range, sub_range. destruct (parse_bounds r (zlen l)) as [i j|] eqn:B; [|discriminate]. destruct (j - i =? zlen w) eqn:E; [|discriminate]. intros [= <-].
  assert (W := bounds_within r (zlen l) i j ltac:(unfold zlen; lia) B). exists (paste i j w l). split; [reflexivity|]. split.
  - rewrite paste_length by lia. rewrite B, slice_paste by lia. reflexivity.
  - intros P L V. now apply paste_forall.
Qed.
Theorem read_back src v range out : ~ In x2c range -> well_encoded src -> well_encoded v -> write_range src v range = WrVal out -> read_range out range = RVal v.
Proof.
  intros C Es Ev. unfold write_range, read_range. rewrite (split_none x2c range C). change (1 <=? zlen (@nil bytes)) with false. change (2 <=? zlen (@nil bytes)) with false.
  destruct range as [|c0 r0]; [intros [= <-]; reflexivity|]. set (range := c0 :: r0) in *. clearbody range. cbv iota.
  destruct src as [|t c|s|s|t l|l|l|t c|c]; try discriminate.
  - destruct v as [| |w| | | | | |]; try (unfold paste_range; destruct (parse_bounds _ _); discriminate). intros H. cbn [well_encoded] in *. destruct Es as (cs & C1 & ->), Ev as (ws & C2 & ->).
    rewrite (runes_text cs C1), (runes_text ws C2) in H. apply paste_back in H. destruct H as (l' & -> & R & P). unfold text_range.
    rewrite put_runes_text by now apply P. rewrite runes_text by now apply P. rewrite R. cbn [lift]. now rewrite put_runes_text.
  - destruct v as [| | |w| | | | |]; try (unfold paste_range; destruct (parse_bounds _ _); discriminate). intros H. apply paste_back in H. destruct H as (l' & -> & R & _). now rewrite R.
  - destruct v as [| | | |t' w| | | |]; try (unfold paste_range; destruct (parse_bounds _ _); discriminate). destruct (t =? t') eqn:T; [|unfold paste_range; destruct (parse_bounds _ _); discriminate].
    apply Z.eqb_eq in T. subst t'. intros H. apply paste_back in H. destruct H as (l' & -> & R & _). now rewrite R.
  - destruct v as [| | | | |w| | |]; try (unfold paste_range; destruct (parse_bounds _ _); discriminate). intros H. apply paste_back in H. destruct H as (l' & -> & R & _). now rewrite R.
  - destruct v as [| | | | | |w| |]; try (unfold paste_range; destruct (parse_bounds _ _); discriminate). intros H. apply paste_back in H. destruct H as (l' & -> & R & _). now rewrite R.
Qed.
(** The second dimension is ignored. *)
Theorem second_ignored l w r1 r2 : ~ In x2c r1 -> ~ In x2c r2 -> r1 <> [] ->
  write_range (GTexts l) (GTexts w) (r1 ++ x2c :: r2) = write_range (GTexts l) (GTexts w) r1 /\
  write_range (GBlobs l) (GBlobs w) (r1 ++ x2c :: r2) = write_range (GBlobs l) (GBlobs w) r1.
Proof.
  intros C1 C2 N. unfold write_range. rewrite !nonempty_two. rewrite split_cons, (split_none x2c r2), (split_none x2c r1) by assumption.
  change (2 <=? zlen [r2]) with false. change (2 <=? zlen (@nil bytes)) with false. cbv iota. destruct r1; [congruence|]. now split.
Qed.

(** * Crashes *)
Theorem same_kind_safe src v range : same_kind src v -> write_range src v range <> WrCrash.
Proof.
  intros K. unfold write_range. destruct range as [|c0 r0]; [discriminate|]. destruct (split x2c (c0 :: r0)) as [|r rs]; [discriminate|].
  assert (X : forall A (mk : list A -> gval) l w, paste_range mk r l (Some w) <> WrCrash) by (intros A mk l w; unfold paste_range; destruct (parse_bounds _ _); [destruct (_ =? _)|]; discriminate).
  destruct src as [| |s|s|t l|l|l| |], v as [| |w|w|t' w|w|w| |]; cbn [same_kind] in K; try contradiction; try (destruct (1 <=? zlen rs); [discriminate|apply X]); try (destruct (2 <=? zlen rs); [discriminate|apply X]).
  subst t'. rewrite Z.eqb_refl. destruct (1 <=? zlen rs); [discriminate|apply X].
Qed.
Theorem other_kind_crashes src v range d : spells_all range [d] -> bounded d -> first_of d < element_count src -> ~ same_kind src v -> write_range src v range = WrCrash.
Proof.
  intros H B L K. apply spells_one in H. open_write H. destruct (spells_first range d H) as [F _].
  assert (X : forall A (mk : list A -> gval) l, first_of d < zlen l -> paste_range mk range l None = WrCrash).
  { intros A mk l Ll. unfold paste_range. rewrite (bounds_spelled range d (zlen l) H B) by lia. now replace (first_of d <? zlen l) with true by lia. }
  destruct src as [| |s|s|t l|l|l| |]; cbn [element_count] in L; try lia; destruct v as [| |w|w|t' w|w|w| |]; cbn [same_kind] in K; try tauto; try (now apply X).
  destruct (t =? t') eqn:T; [apply Z.eqb_eq in T; tauto|now apply X].
Qed.

(** * Validation *)
Lemma split_all l ds : Forall2 spells l ds -> ds <> [] -> split x2c (with_commas l) = l.
Proof.
  intros F. induction F as [|s d l ds H F IH]; intros N; [congruence|]. destruct l as [|s' l]; cbn [with_commas].
  - apply split_none, (spells_no_comma s d H).
  - change (match l with [] => s' | _ :: _ => s' ++ x2c :: with_commas l end) with (with_commas (s' :: l)). rewrite split_cons by apply (spells_no_comma s d H).
    f_equal. apply IH. inversion F; subst. discriminate.
Qed.
Lemma with_commas_nonempty l ds : Forall2 spells l ds -> ds <> [] -> with_commas l <> [].
Proof.
  intros F N. destruct F as [|s d l ds H F]; [congruence|]. destruct (spells_first s d H) as [_ Hs]. destruct l; cbn [with_commas]; [exact Hs|]. destruct s; [congruence|discriminate].
Qed.
Lemma valid_dim_spelled s d : spells s d -> bounded d -> valid_dim s = true.
Proof. intros H B. unfold valid_dim. rewrite (pair_spelled s d H). unfold bounded in B. apply Z.ltb_lt in B. now rewrite B. Qed.
Theorem validate_spelled range ds dest rank : ds <> [] -> spells_all range ds -> Forall bounded ds ->
  (validate_range range dest rank = 0 /\ admits ((dest =? 12) || (dest =? 15)) rank (Z.of_nat (length ds))) \/
  (validate_range range dest rank = BadIndexRangeNoData /\ ~ admits ((dest =? 12) || (dest =? 15)) rank (Z.of_nat (length ds))).
Proof.
  intros N (l & F & ->) B. assert (Sp := split_all l ds F N). assert (Ne := with_commas_nonempty l ds F N). unfold validate_range. rewrite Sp.
  destruct (with_commas l) as [|c0 r0]; [congruence|]. assert (V : forallb valid_dim l = true).
  { clear - F B. induction F as [|s d l ds H F IH]; [reflexivity|]. inversion B; subst. cbn [forallb]. rewrite (valid_dim_spelled s d) by assumption. now apply IH. }
  rewrite V. cbn [negb]. assert (L : zlen l = Z.of_nat (length ds)) by (unfold zlen; f_equal; clear - F; induction F; cbn [length]; congruence). rewrite L. generalize (Z.of_nat (length ds)). clear. intros n.
  unfold admits. set (tx := (dest =? 12) || (dest =? 15)). clearbody tx.
  destruct (rank =? -3) eqn:E3; [|destruct (rank =? -2) eqn:E2; [|destruct (rank =? -1) eqn:E1; [|destruct (rank =? 0) eqn:E0]]].
  - destruct tx; destruct (n - 1 =? 0) eqn:D0; destruct (n - 1 =? 1) eqn:D1; cbn [orb andb]; lia.
  - lia.
  - destruct tx; destruct (n =? 1) eqn:D0; cbn [orb andb]; lia.
  - lia.
  - destruct tx; destruct (n - rank =? 0) eqn:D0; destruct (n - rank =? 1) eqn:D1; cbn [orb andb]; lia.
Qed.
Theorem validate_malformed range dest rank : range <> [] -> unsigned_text range -> (forall ds, ds <> [] -> Forall bounded ds -> ~ spells_all range ds) ->
  validate_range range dest rank = BadIndexRangeInvalid.
Proof.
  intros N U M. unfold validate_range. destruct (forallb valid_dim (split x2c range)) eqn:V; [|destruct range; [congruence|reflexivity]]. exfalso.
  assert (W : with_commas (split x2c range) = range).
  { clear. induction range as [|c s IH]; [reflexivity|]. cbn [split]. destruct (Byte.eqb c x2c) eqn:E.
    - apply Byte.byte_dec_bl in E. subst c. cbn [with_commas]. destruct (split x2c s) eqn:Sp; [destruct s as [|c1 s1]; cbn [split] in Sp; [discriminate|]; destruct (Byte.eqb c1 x2c); [discriminate|]; now destruct (split x2c s1)|].
      rewrite <- IH. reflexivity.
    - destruct (split x2c s) as [|w r] eqn:Sp; [destruct s as [|c1 s1]; cbn [split] in Sp; [discriminate|]; destruct (Byte.eqb c1 x2c); [discriminate|]; now destruct (split x2c s1)|].
      cbn [with_commas] in *. destruct r; [now rewrite IH|]. rewrite <- IH. reflexivity. }
  assert (X : forall l, (forall s, In s l -> unsigned_text s) -> forallb valid_dim l = true -> exists ds, Forall2 spells l ds /\ Forall bounded ds).
  { induction l as [|s l IH]; intros Ul Vl; [exists []; now split|]. cbn [forallb] in Vl. apply andb_true_iff in Vl. destruct Vl as [V1 V2].
    destruct IH as (ds & F & B); [intros s' I; apply Ul; now right|exact V2|]. unfold valid_dim in V1. destruct (parse_pair s) as [[lo hi]|] eqn:P; [|discriminate].
    destruct (pair_only s lo hi (Ul s (or_introl eq_refl)) P) as (d & Hd & Bd & _). exists (d :: ds). split; constructor; assumption. }
  destruct (X (split x2c range)) as (ds & F & B); [|exact V|].
  - assert (In_split : forall s b, In s (split x2c range) -> In b s -> In b range).
    { clear. intros s b I Ib. revert s I Ib. induction range as [|c r IH]; intros s I Ib; cbn [split] in I; [destruct I as [<-|[]]; exact Ib|].
      destruct (Byte.eqb c x2c); [destruct I as [<-|I]; [destruct Ib|right; now apply (IH s)]|]. destruct (split x2c r) as [|w q]; [destruct I as [<-|[]]; destruct Ib as [->|[]]; now left|].
      destruct I as [<-|I]; [destruct Ib as [->|Ib]; [now left|right; apply (IH w); [now left|exact Ib]]|right; apply (IH s); [now right|exact Ib]]. }
    intros s I. destruct U as [U1 U2]. split; intros I'; [apply U1|apply U2]; now apply (In_split s).
  - apply (M ds); [|exact B|].
    + intros ->. inversion F as [E|]. revert E. clear - N. destruct range as [|c r]; [congruence|]. cbn [split]. destruct (Byte.eqb c x2c); [discriminate|]. now destruct (split x2c r).
    + exists (split x2c range). now split.
Qed.
