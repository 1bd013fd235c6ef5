(** Failures of the code, and instances of the theorems about index ranges. *)
From Coq Require Import ZArith List Bool Lia Strings.Byte.
From Coq Require Import ZifyBool ZifyNat.
From Verif Require Import Bytes BytesProofs Text TextProofs IndexRange IndexRangeSpec IndexRangeProofs.
Import ListNotations.
Open Scope Z_scope.
Ltac Zify.zify_post_hook ::= idtac.

Lemma no_digit_no_spelling c s d : ~ (48 <= Z_of_byte c <= 57) -> ~ spells (c :: s) d.
Proof.
  intros Nc. destruct d as [a|a b]; cbn [spells].
  - intros [_ D]. cbn [digits_from] in D. tauto.
  - intros (_ & s1 & s2 & E & [N1 D1] & _). destruct s1 as [|x s1]; [congruence|]. injection E as <- _. cbn [digits_from] in D1. tauto.
Qed.
Lemma no_digit_no_spellings c s ds : ds <> [] -> ~ (48 <= Z_of_byte c <= 57) -> ~ spells_all (c :: s) ds.
Proof.
  intros N Nc (l & F & E). destruct F as [|s1 d l ds H F]; [congruence|]. destruct (spells_first s1 d H) as [_ Ne]. destruct s1 as [|x s1]; [congruence|].
  apply (no_digit_no_spelling x s1 d); [|exact H]. destruct l; cbn [with_commas app] in E; now injection E as <- _.
Qed.
Lemma trailing_comma s ds : ~ spells_all (s ++ [x2c]) ds.
Proof.
  intros (l & F & E). revert s E. induction F as [|s1 d l ds H F IH]; intros s E; [cbn [with_commas] in E; now destruct s|].
  destruct l as [|s2 l].
  - cbn [with_commas] in E. apply (spells_no_comma s1 d H). rewrite <- E. apply in_app_iff. right. now left.
  - cbn [with_commas] in E. change (match l with [] => s2 | _ :: _ => s2 ++ x2c :: with_commas l end) with (with_commas (s2 :: l)) in E.
    assert (Ne : with_commas (s2 :: l) <> []) by (apply (with_commas_nonempty _ ds F); inversion F; discriminate).
    destruct (exists_last Ne) as (w & c & W). rewrite W in E. assert (E' : s ++ [x2c] = (s1 ++ x2c :: w) ++ [c]) by (rewrite <- app_assoc; exact E).
    apply app_inj_tail in E'. destruct E' as [_ <-]. apply (IH w). now rewrite W.
Qed.

Lemma empty_array : exists range, range <> [] /\ (forall ds, ~ spells_all range ds) /\ forall t, read_range (GArr t []) range = RBad BadIndexRangeNoData.
Proof.
  exists [x78]. split; [discriminate|]. split; [|reflexivity]. intros ds. destruct ds as [|d ds].
  - intros (l & F & E). inversion F; subst. discriminate.
  - apply no_digit_no_spellings; [discriminate|]. intros [H H']; vm_compute in H, H'; congruence.
Qed.
Lemma signs : exists range, (forall ds, ~ spells_all range ds) /\ read_range (GArr 6 [10; 20; 30]) range = RVal (GArr 6 [20]).
Proof.
  exists [x2b; x31]. split; [|reflexivity]. intros ds. destruct ds as [|d ds].
  - intros (l & F & E). inversion F; subst. discriminate.
  - apply no_digit_no_spellings; [discriminate|]. intros [H H']; vm_compute in H, H'; congruence.
Qed.
Lemma trailing : exists range, (forall ds, ~ spells_all range ds) /\ read_range (GTexts [[x61]; [x62; x63]]) range = RVal (GTexts [[x62; x63]]).
Proof. exists [x31; x2c]. split; [intros ds; apply (trailing_comma [x31])|reflexivity]. Qed.
Lemma bad_utf8 : read_range (GText [xff; x61; x62]) [x30; x3a; x31] = RVal (GText [xef; xbf; xbd; x61]).
Proof. reflexivity. Qed.
Lemma bad_utf8_write : exists old v range new, ~ In x2c range /\ write_range (GText old) (GText v) range = WrVal (GText new) /\
  spells range (One 1) /\ hd_error old = Some xff /\ hd_error new = Some xef /\ length new <> length old.
Proof. exists [xff; x61], [x62], [x31], [xef; xbf; xbd; x62]. repeat split; try reflexivity; try discriminate; try (vm_compute; congruence). cbn. intros [H|[]]. discriminate. Qed.
(** Two dimensions: the second is lost, the strings are replaced as a whole. *)
Lemma two_dimensions : exists old v new, spells_all [x31; x2c; x30] [One 1; One 0] /\
  write_range (GTexts old) (GTexts v) [x31; x2c; x30] = WrVal (GTexts new) /\ read_range (GTexts new) [x31; x2c; x30] = RBad BadIndexRangeNoData /\
  old = [[x61; x62]; [x63; x64]] /\ new = [[x61; x62]; []].
Proof.
  exists [[x61; x62]; [x63; x64]], [[]], [[x61; x62]; []]. split; [|repeat split]. exists [[x31]; [x30]]. split; [|reflexivity].
  repeat constructor; try discriminate; vm_compute; congruence.
Qed.

(** * Instances *)
Lemma spell_13 : spells_all [x31; x3a; x33] [Span 1 3].
Proof. exists [[x31; x3a; x33]]. split; [|reflexivity]. constructor; [|constructor]. split; [lia|]. exists [x31], [x33]. repeat split; try discriminate; vm_compute; congruence. Qed.
Lemma spell_two : spells_all [x30; x2c; x31; x3a; x33] [One 0; Span 1 3].
Proof.
  exists [[x30]; [x31; x3a; x33]]. split; [|reflexivity]. constructor; [repeat split; try discriminate; vm_compute; congruence|]. constructor; [|constructor]. split; [lia|].
  exists [x31], [x33]. repeat split; try discriminate; vm_compute; congruence.
Qed.
Example ex_read : read_range (GArr 6 [10; 20; 30]) [x31; x3a; x33] = RVal (GArr 6 [20; 30]) /\ read_range (GArr 6 [10]) [x31; x3a; x33] = RBad BadIndexRangeNoData /\
  read_range (GText (text_of [97; 0xE9; 0x20AC; 0x1F600; 98])) [x31; x3a; x33] = RVal (GText (text_of [0xE9; 0x20AC; 0x1F600])) /\
  read_range (GTexts [text_of [97; 0xE9; 0x20AC]; [x61]]) [x30; x2c; x31; x3a; x33] = RVal (GTexts [text_of [0xE9; 0x20AC]]) /\
  read_range (GBlobs [[x61]; [x61; x62]]) [x30; x2c; x31; x3a; x33] = RBad BadIndexRangeNoData.
Proof. repeat split. Qed.
Example ex_read_bad : read_range (GBlob [x61; x62]) [x33; x3a; x31] = RBad BadIndexRangeInvalid /\ read_range (GBlob [x61; x62]) [x31; x3a] = RBad BadIndexRangeInvalid.
Proof. repeat split. Qed.
Example ex_write : write_range (GArr 6 [10; 20; 30; 40; 50]) (GArr 6 [1; 2; 3]) [x31; x3a; x33] = WrVal (GArr 6 [10; 1; 2; 3; 50]) /\
  write_range (GArr 6 [10; 20; 30]) (GArr 6 [1; 2; 3]) [x31; x3a; x33] = WrBad BadIndexRangeNoData /\
  write_range (GText [x61; x62; x63; x64]) (GText (text_of [0xE9; 0x20AC; 97])) [x31; x3a; x33] = WrVal (GText (text_of [97; 0xE9; 0x20AC; 97])).
Proof. repeat split. Qed.
Example ex_crash : write_range (GArr 6 [10; 20; 30]) GNil [x31; x3a; x33] = WrCrash /\ write_range (GText [x61; x62]) (GScalar 6 1) [x31; x3a; x33] = WrCrash.
Proof. repeat split. Qed.
Example ex_validate : validate_range [x31; x3a; x33] 6 1 = 0 /\ validate_range [x31; x3a; x33] 6 (-1) = BadIndexRangeNoData /\ validate_range [x31; x3a; x33] 12 (-1) = 0 /\
  validate_range [x30; x2c; x31; x3a; x33] 12 1 = 0 /\ validate_range [x30; x2c; x31; x3a; x33] 6 1 = BadIndexRangeNoData /\ validate_range [x33; x3a; x33] 6 1 = BadIndexRangeInvalid.
Proof. repeat split. Qed.
