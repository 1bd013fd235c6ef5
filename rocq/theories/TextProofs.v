(** Proofs about the text forms. *)
From Coq Require Import ZArith List Bool Lia String Strings.Byte.
From Coq Require Import ZifyBool ZifyNat ZifyN.
From Verif Require Import Bytes CodecSpec BytesProofs Prim PrimSpec Text TextSpec.
Import ListNotations.
Open Scope Z_scope.
Ltac Zify.zify_post_hook ::= Z.div_mod_to_equations.

(** ** strings *)
Lemma byte_eqb_refl b : Byte.eqb b b = true.
Proof. apply Byte.byte_dec_lb. reflexivity. Qed.
Lemma byte_eqb_neq a b : a <> b -> Byte.eqb a b = false.
Proof. intros H. destruct (Byte.eqb a b) eqn:E; [|reflexivity]. apply Byte.byte_dec_bl in E. contradiction. Qed.

Lemma strip_prefix_app p s : strip_prefix p (p ++ s) = Some s.
Proof. induction p as [|x p IH]; cbn [strip_prefix app]; [reflexivity|]. now rewrite byte_eqb_refl. Qed.

Lemma cut_app c a b : ~ In c a -> cut c (a ++ c :: b) = Some (a, b).
Proof.
  induction a as [|x a IH]; cbn [cut app In]; intros H; [now rewrite byte_eqb_refl|].
  rewrite byte_eqb_neq by (intros ->; tauto). rewrite IH by tauto. reflexivity.
Qed.

(** ** decimal numbers *)
Lemma digit_val_char d : 0 <= d <= 9 -> digit_val (digit_char d) = Some d.
Proof.
  intros H. unfold digit_val, digit_char. rewrite Z_of_byte_of_Z, Z.mod_small by lia.
  destruct (_ && _) eqn:C; [f_equal; lia|lia].
Qed.

Lemma parse_digits_app max s t acc v : parse_digits max acc s = NumOk v ->
  parse_digits max acc (s ++ t) = parse_digits max v t.
Proof.
  revert acc. induction s as [|b s IH]; cbn [parse_digits app]; intros acc H; [now injection H as ->|].
  destruct (digit_val b) as [d|]; [|discriminate]. destruct (max <? acc * 10 + d); [discriminate|].
  now apply IH.
Qed.

Lemma parse_dec_digits fuel z max : 0 <= z <= max -> z < 10 ^ Z.of_nat fuel -> (0 < fuel)%nat ->
  parse_digits max 0 (dec_digits fuel z) = NumOk z.
Proof.
  revert z. induction fuel as [|f IH]; intros z Hz Hf H0; [lia|]. cbn [dec_digits].
  destruct (z <? 10) eqn:C.
  - cbn [parse_digits]. rewrite digit_val_char by lia. replace (0 * 10 + z) with z by lia.
    destruct (max <? z) eqn:C2; [lia|reflexivity].
  - assert (Hf' : z / 10 < 10 ^ Z.of_nat f).
    { replace (Z.of_nat (S f)) with (Z.of_nat f + 1) in Hf by lia.
      rewrite Z.pow_add_r in Hf by lia. change (10 ^ 1) with 10 in Hf. lia. }
    destruct f as [|f]; [change (10 ^ Z.of_nat 0) with 1 in Hf'; lia|].
    rewrite (parse_digits_app _ _ _ _ (z / 10)) by (apply IH; lia).
    cbn [parse_digits]. rewrite digit_val_char by lia.
    replace (z / 10 * 10 + z mod 10) with z by lia. destruct (max <? z) eqn:C2; [lia|reflexivity].
Qed.

Lemma dec_digits_nonempty f z : dec_digits (S f) z <> [].
Proof.
  cbn [dec_digits]. destruct (z <? 10); [discriminate|]. intros H.
  apply app_eq_nil in H as [_ H]. discriminate.
Qed.

Lemma parse_print_dec bits z : 0 <= z < 2 ^ bits -> 0 <= bits <= 64 -> parse_uint bits (print_dec z) = NumOk z.
Proof.
  intros H B. unfold parse_uint, print_dec.
  destruct (dec_digits 20 z) as [|c r] eqn:E; [exfalso; revert E; apply dec_digits_nonempty|].
  rewrite <- E. apply parse_dec_digits; [lia| |lia].
  assert (2 ^ bits <= 2 ^ 64) by (apply Z.pow_le_mono_r; lia).
  change (10 ^ Z.of_nat 20) with 100000000000000000000. change (2 ^ 64) with 18446744073709551616 in *. lia.
Qed.

Lemma digit_char_range d : 0 <= d <= 9 -> 48 <= Z_of_byte (digit_char d) <= 57.
Proof. intros H. unfold digit_char. rewrite Z_of_byte_of_Z, Z.mod_small; lia. Qed.

Lemma dec_digits_chars f z c : 0 <= z -> In c (dec_digits f z) -> 48 <= Z_of_byte c <= 57.
Proof.
  revert z. induction f as [|f IH]; cbn [dec_digits]; intros z Hz H; [destruct H|].
  destruct (z <? 10) eqn:C.
  - destruct H as [<-|[]]. apply digit_char_range. lia.
  - apply in_app_iff in H as [H|[<-|[]]]; [apply (IH (z / 10)); [lia|exact H]|].
    apply digit_char_range. lia.
Qed.
Lemma print_dec_no z c : 0 <= z -> ~ (48 <= Z_of_byte c <= 57) -> ~ In c (print_dec z).
Proof. intros Hz Hc H. apply Hc. exact (dec_digits_chars 20 z c Hz H). Qed.

(** ** guid *)
Lemma hex_val_char d : 0 <= d < 16 -> hex_val (hex_char d) = Some d.
Proof.
  intros H. assert (D : d = 0 \/ d = 1 \/ d = 2 \/ d = 3 \/ d = 4 \/ d = 5 \/ d = 6 \/ d = 7 \/ d = 8 \/
    d = 9 \/ d = 10 \/ d = 11 \/ d = 12 \/ d = 13 \/ d = 14 \/ d = 15) by lia.
  repeat (destruct D as [->|D]; [reflexivity|]). subst d. reflexivity.
Qed.
Lemma unhex2_hex2 b : unhex2 (hex_char (Z_of_byte b / 16)) (hex_char (Z_of_byte b mod 16)) = Some b.
Proof.
  pose proof (Z_of_byte_range b). unfold unhex2. rewrite !hex_val_char by lia. f_equal.
  rewrite <- (byte_of_Z_of_byte b) at 3. f_equal. lia.
Qed.

Lemma unhex_all_hex2 b r : unhex_all (hex2 b ++ r) = match unhex_all r with Some l => Some (b :: l) | None => None end.
Proof. unfold hex2. cbn [app unhex_all]. rewrite unhex2_hex2. reflexivity. Qed.

Lemma print_guid_length g : List.length (print_guid g) = 36%nat.
Proof. destruct g. reflexivity. Qed.

Lemma parse_print_guid g : parse_guid (print_guid g) = Some g.
Proof.
  unfold parse_guid. rewrite print_guid_length. cbn [Nat.eqb].
  destruct g as [b0 b1 b2 b3 b4 b5 b6 b7 b8 b9 b10 b11 b12 b13 b14 b15]. unfold parse_guid36.
  set (s := print_guid _).
  change (nth 8 s x00) with x2d. change (nth 13 s x00) with x2d. change (nth 18 s x00) with x2d.
  change (nth 23 s x00) with x2d. change (Byte.eqb x2d x2d) with true. cbn [andb].
  match goal with |- context [unhex_all ?t] =>
    change t with (hex2 b0 ++ hex2 b1 ++ hex2 b2 ++ hex2 b3 ++ hex2 b4 ++ hex2 b5 ++ hex2 b6 ++ hex2 b7
      ++ hex2 b8 ++ hex2 b9 ++ hex2 b10 ++ hex2 b11 ++ hex2 b12 ++ hex2 b13 ++ hex2 b14 ++ hex2 b15 ++ []) end.
  rewrite !unhex_all_hex2. reflexivity.
Qed.

(** A Guid's text in letters of either case *)
Lemma hex_val_case a b : same_letter a b -> hex_val b = hex_val a.
Proof.
  pose proof (Z_of_byte_range a). intros [->|[[A B]|[A B]]]; [reflexivity| |]; unfold hex_val; rewrite B;
  repeat match goal with |- context [?x <=? ?y] => destruct (Z.leb_spec x y) end; cbn [andb]; try reflexivity; try lia; f_equal; lia.
Qed.
Lemma dash_case a b : same_letter a b -> Byte.eqb b x2d = Byte.eqb a x2d.
Proof.
  intros [->|C]; [reflexivity|].
  assert (A : Byte.eqb a x2d = false). { destruct (Byte.eqb a x2d) eqn:E; [|reflexivity]. apply byte_dec_bl in E. subst a. change (Z_of_byte x2d) with 45 in C. lia. }
  rewrite A. destruct (Byte.eqb b x2d) eqn:E; [|reflexivity]. apply byte_dec_bl in E. subst b. change (Z_of_byte x2d) with 45 in C. lia.
Qed.
Lemma case_firstn n s t : same_but_case s t -> same_but_case (firstn n s) (firstn n t).
Proof.
  intros H. revert n. induction H as [|a b s t Hab H IH]; intros n; destruct n; cbn; try apply Forall2_nil.
  apply Forall2_cons; [exact Hab|apply IH].
Qed.
Lemma case_skipn n s t : same_but_case s t -> same_but_case (skipn n s) (skipn n t).
Proof.
  intros H. revert n. induction H as [|a b s t Hab H IH]; intros n; destruct n; cbn; try apply Forall2_nil.
  - apply Forall2_cons; assumption.
  - apply IH.
Qed.
Lemma case_nth n s t : same_but_case s t -> same_letter (nth n s x00) (nth n t x00).
Proof. intros H. revert n. induction H; intros [|n]; cbn; auto; try (left; reflexivity). Qed.
Lemma case_unhex s : forall t, same_but_case s t -> unhex_all t = unhex_all s.
Proof.
  assert (K : forall n s, (List.length s <= n)%nat -> forall t, same_but_case s t -> unhex_all t = unhex_all s).
  { induction n as [|n IH]; intros r L t H.
    - destruct r; [|cbn in L; lia]. inversion H. reflexivity.
    - destruct H as [|a b r t Hab H]; [reflexivity|]. destruct H as [|a' b' r t Hab' H]; [reflexivity|].
      cbn [unhex_all]. unfold unhex2. rewrite (hex_val_case _ _ Hab), (hex_val_case _ _ Hab'), (IH r); [reflexivity|cbn in L; lia|exact H]. }
  exact (K (List.length s) s (le_n _)).
Qed.
Lemma parse36_case s t : same_but_case s t -> parse_guid36 t = parse_guid36 s.
Proof.
  intros H. unfold parse_guid36. rewrite !(dash_case _ _ (case_nth _ _ _ H)).
  erewrite case_unhex; [reflexivity|]. repeat (apply Forall2_app; [|]); apply case_firstn; try apply case_skipn; exact H.
Qed.
Lemma case_length s t : same_but_case s t -> List.length t = List.length s.
Proof. induction 1; cbn; congruence. Qed.
Lemma parse36_guid g : parse_guid36 (print_guid g) = Some g.
Proof. pose proof (parse_print_guid g) as H. unfold parse_guid in H. rewrite print_guid_length in H. exact H. Qed.
Theorem guid_case g t : same_but_case (print_guid g) t -> parse_guid t = Some g.
Proof.
  intros H. unfold parse_guid. rewrite (case_length _ _ H), print_guid_length. cbn [Nat.eqb]. rewrite (parse36_case _ _ H). apply parse36_guid.
Qed.
Lemma lower_case a b : same_letter a b -> lower_ascii a = a -> lower_ascii b = a.
Proof.
  intros H L. rewrite <- L. clear L. pose proof (Z_of_byte_range a). pose proof (Z_of_byte_range b). unfold lower_ascii. destruct H as [->|[[A B]|[A B]]]; [reflexivity| |].
  - replace ((65 <=? Z_of_byte b) && (Z_of_byte b <=? 90)) with true by lia. replace ((65 <=? Z_of_byte a) && (Z_of_byte a <=? 90)) with false by lia.
    rewrite <- (byte_of_Z_of_byte a). f_equal. lia.
  - replace ((65 <=? Z_of_byte b) && (Z_of_byte b <=? 90)) with false by lia. replace ((65 <=? Z_of_byte a) && (Z_of_byte a <=? 90)) with true by lia.
    rewrite <- (byte_of_Z_of_byte b). f_equal. lia.
Qed.
Lemma lower_all s t : same_but_case s t -> map lower_ascii s = s -> map lower_ascii t = s.
Proof. induction 1; intros L; [reflexivity|]. cbn in *. injection L as L1 L2. rewrite (lower_case _ _ H L1), IHForall2 by exact L2. reflexivity. Qed.
Theorem guid_urn g p t : same_but_case (lit "urn:uuid:") p -> same_but_case (print_guid g) t -> parse_guid (p ++ t) = Some g.
Proof.
  intros P H. pose proof (case_length _ _ P) as Lp. change (List.length (lit "urn:uuid:")) with 9%nat in Lp.
  unfold parse_guid. rewrite app_length, (case_length _ _ H), print_guid_length, Lp. cbn [Nat.add Nat.eqb].
  rewrite <- Lp, firstn_app, Nat.sub_diag, firstn_O, app_nil_r, firstn_all, skipn_app, Nat.sub_diag, skipn_all.
  rewrite (lower_all _ _ P eq_refl). cbn [app skipn]. change (strip_prefix (lit "urn:uuid:") (lit "urn:uuid:")) with (Some (@nil byte)). cbv iota.
  rewrite (parse36_case _ _ H). apply parse36_guid.
Qed.
Theorem guid_braces g a b t : same_but_case (print_guid g) t -> parse_guid (a :: t ++ [b]) = Some g.
Proof.
  intros H. pose proof (case_length _ _ H) as L. rewrite print_guid_length in L.
  unfold parse_guid. cbn [List.length skipn]. rewrite app_length, L. cbn [Nat.add List.length Nat.eqb].
  rewrite <- L, firstn_app, Nat.sub_diag, firstn_O, app_nil_r, firstn_all, (parse36_case _ _ H). apply parse36_guid.
Qed.
Lemma hex_no_dash b : filter (fun c => negb (Byte.eqb c x2d)) (hex2 b) = hex2 b.
Proof. destruct b; reflexivity. Qed.
Theorem guid_bare g : parse_guid (filter (fun c => negb (Byte.eqb c x2d)) (print_guid g)) = Some g.
Proof.
  destruct g as [b0 b1 b2 b3 b4 b5 b6 b7 b8 b9 b10 b11 b12 b13 b14 b15]. unfold print_guid.
  repeat (rewrite filter_app; rewrite ?hex_no_dash). change (filter (fun c => negb (Byte.eqb c x2d)) (lit "-")) with (@nil byte). cbn [app].
  unfold parse_guid. rewrite <- (app_nil_r (hex2 b15)).
  change (List.length _) with 32%nat. cbn [Nat.eqb]. rewrite !unhex_all_hex2. reflexivity.
Qed.
Lemma hex_digits d : 0 <= d < 16 -> hex_char d = nth (Z.to_nat d) (lit "0123456789abcdef") x00.
Proof.
  intros H. assert (D : d = 0 \/ d = 1 \/ d = 2 \/ d = 3 \/ d = 4 \/ d = 5 \/ d = 6 \/ d = 7 \/ d = 8 \/
    d = 9 \/ d = 10 \/ d = 11 \/ d = 12 \/ d = 13 \/ d = 14 \/ d = 15) by lia.
  repeat (destruct D as [->|D]; [reflexivity|]). subst d. reflexivity.
Qed.

(** Nothing else is read *)
Lemma hex_val_inv a v : hex_val a = Some v -> 0 <= v < 16 /\ same_letter (hex_char v) a.
Proof.
  destruct a; intros H; vm_compute in H; try discriminate H; injection H as <-; (split; [lia|]); unfold same_letter; cbn; solve [left; reflexivity|right; lia].
Qed.
Lemma unhex2_inv a b x r s : unhex2 a b = Some x -> same_but_case r s -> same_but_case (hex2 x ++ r) (a :: b :: s).
Proof.
  unfold unhex2. destruct (hex_val a) as [v|] eqn:A; [|discriminate]. destruct (hex_val b) as [w|] eqn:B; [|discriminate].
  intros H R. injection H as <-. apply hex_val_inv in A as [Rv A]. apply hex_val_inv in B as [Rw B].
  unfold hex2. assert (Z1 : Z_of_byte (byte_of_Z (v * 16 + w)) = v * 16 + w) by (rewrite Z_of_byte_of_Z; apply Z.mod_small; lia). rewrite Z1.
  assert (Q1 : (v * 16 + w) / 16 = v) by (symmetry; apply (Z.div_unique _ 16 v w); lia).
  assert (Q2 : (v * 16 + w) mod 16 = w) by (symmetry; apply (Z.mod_unique _ 16 v w); lia).
  rewrite Q1, Q2. cbn [app]. apply Forall2_cons; [exact A|]. apply Forall2_cons; [exact B|exact R].
Qed.
Lemma unhex2_end a b x : unhex2 a b = Some x -> same_but_case (hex2 x) [a; b].
Proof. intros H. rewrite <- (app_nil_r (hex2 x)). exact (unhex2_inv a b x [] [] H (Forall2_nil _)). Qed.
Lemma unhex_all_cons a b r l : unhex_all (a :: b :: r) = Some l -> exists x l', l = x :: l' /\ unhex2 a b = Some x /\ unhex_all r = Some l'.
Proof. cbn [unhex_all]. destruct (unhex2 a b) as [x|]; [|discriminate]. destruct (unhex_all r) as [l'|]; [|discriminate]. intros H. injection H as <-. exists x, l'. auto. Qed.
Theorem guid_only g t : List.length t = 36%nat -> parse_guid t = Some g -> same_but_case (print_guid g) t.
Proof.
  intros L H. unfold parse_guid in H. rewrite L in H. cbn [Nat.eqb] in H. unfold parse_guid36 in H.
  do 36 (destruct t as [|? t]; [discriminate L|]). destruct t; [|discriminate L]. clear L. cbn [nth firstn skipn app] in H.
  repeat match type of H with context [Byte.eqb ?x x2d] => destruct (Byte.eqb x x2d) eqn:?; [|discriminate H] end.
  repeat match goal with E : Byte.eqb _ x2d = true |- _ => apply byte_dec_bl in E; subst end. cbn [andb] in H.
  match type of H with context [unhex_all ?q] => destruct (unhex_all q) as [l|] eqn:U; [|discriminate H] end.
  do 16 (apply unhex_all_cons in U; let x := fresh "x" in let E := fresh "E" in destruct U as (x & ? & -> & E & U)).
  cbn [unhex_all] in U. injection U as <-. cbn [guid_of] in H. injection H as <-. unfold print_guid.
  repeat first [apply unhex2_end; assumption | apply unhex2_inv; [assumption|] | (apply Forall2_cons; [left; reflexivity|])].
Qed.

(** ** base64 *)
Definition b64_ok (d : Z) : bool :=
  match b64_val (b64_char d) with Some e => e =? d | None => false end
  && negb (Byte.eqb (b64_char d) pad_char) && not_newline (b64_char d).
Lemma b64_sweep : forallb b64_ok (map Z.of_nat (seq 0 64)) = true.
Proof. vm_compute. reflexivity. Qed.
Lemma b64_char_ok d : 0 <= d < 64 ->
  b64_val (b64_char d) = Some d /\ Byte.eqb (b64_char d) pad_char = false /\ not_newline (b64_char d) = true.
Proof.
  intros H. pose proof b64_sweep as S. rewrite forallb_forall in S. specialize (S d).
  assert (I : In d (map Z.of_nat (seq 0 64))).
  { apply in_map_iff. exists (Z.to_nat d). split; [lia|]. apply in_seq. lia. }
  specialize (S I). unfold b64_ok in S. destruct (b64_val (b64_char d)) as [e|]; [|discriminate].
  destruct (Byte.eqb (b64_char d) pad_char), (not_newline (b64_char d)); cbn in S; try lia.
  repeat split. f_equal. lia.
Qed.

Lemma list3_ind {A} (P : list A -> Prop) : P [] -> (forall a, P [a]) -> (forall a b, P [a; b]) ->
  (forall a b c r, P r -> P (a :: b :: c :: r)) -> forall l, P l.
Proof.
  intros H0 H1 H2 H3. fix IH 1. intros [|a [|b [|c r]]]; [exact H0|exact (H1 a)|exact (H2 a b)|].
  apply H3. apply IH.
Qed.

Lemma b64_enc_clean s : filter not_newline (b64_enc s) = b64_enc s.
Proof.
  assert (P : not_newline pad_char = true) by reflexivity.
  induction s as [|a|a b|a b c r IH] using list3_ind; [reflexivity|..]; cbn [b64_enc filter];
    try pose proof (Z_of_byte_range a); try pose proof (Z_of_byte_range b); try pose proof (Z_of_byte_range c).
  all: repeat match goal with |- context [not_newline (b64_char ?d)] =>
    rewrite (proj2 (proj2 (b64_char_ok d ltac:(lia)))) end.
  all: rewrite ?P, ?IH; reflexivity.
Qed.

Lemma byte_of_Z_eq b z : z mod 256 = Z_of_byte b -> byte_of_Z z = b.
Proof. intros H. apply Z_of_byte_inj. now rewrite Z_of_byte_of_Z. Qed.

Lemma b64_dec_enc s : b64_dec (b64_enc s) = Some s.
Proof.
  unfold b64_dec. rewrite b64_enc_clean.
  induction s as [|a|a b|a b c r IH] using list3_ind; [reflexivity|..]; cbn [b64_enc b64_groups];
    try pose proof (Z_of_byte_range a); try pose proof (Z_of_byte_range b); try pose proof (Z_of_byte_range c).
  all: repeat match goal with
    | |- context [b64_val (b64_char ?d)] => rewrite (proj1 (b64_char_ok d ltac:(lia)))
    | |- context [Byte.eqb (b64_char ?d) pad_char] => rewrite (proj1 (proj2 (b64_char_ok d ltac:(lia))))
    end.
  all: rewrite ?byte_eqb_refl.
  - f_equal. f_equal. apply byte_of_Z_eq. lia.
  - f_equal. f_equal; [|f_equal]; apply byte_of_Z_eq; lia.
  - rewrite IH. f_equal. f_equal; [|f_equal; [|f_equal]]; apply byte_of_Z_eq; lia.
Qed.

(** ** NodeId *)
Lemma parse_print_ident ns n : in_u 2 ns -> ns = match n with NNull => 0 | NNum k _ | NStr k _ | NGuid k _ | NOpq k _ => k end ->
  text_nodeid n ->
  parse_ident ns (match n with
                  | NNull => lit "i=0" | NNum _ id => lit "i=" ++ print_dec id | NStr _ s => lit "s=" ++ s
                  | NGuid _ g => lit "g=" ++ print_guid g | NOpq _ s => lit "b=" ++ b64_enc s end) = null_numeric n.
Proof.
  intros _ -> T. destruct n as [|k id|k s|k g|k s]; unfold parse_ident; cbn [null_numeric].
  - vm_compute. reflexivity.
  - rewrite strip_prefix_app. destruct T as [Tk Ti]. unfold in_u in Ti.
    rewrite (parse_print_dec 32) by (cbn in Ti; lia).
    rewrite (andb_comm (id =? 0)). reflexivity.
  - cbn. reflexivity.
  - change (strip_prefix (lit "i=") (lit "g=" ++ print_guid g)) with (@None bytes).
    change (strip_prefix (lit "s=") (lit "g=" ++ print_guid g)) with (@None bytes).
    rewrite strip_prefix_app, parse_print_guid. reflexivity.
  - change (strip_prefix (lit "i=") (lit "b=" ++ b64_enc s)) with (@None bytes).
    change (strip_prefix (lit "s=") (lit "b=" ++ b64_enc s)) with (@None bytes).
    change (strip_prefix (lit "g=") (lit "b=" ++ b64_enc s)) with (@None bytes).
    rewrite strip_prefix_app, b64_dec_enc. reflexivity.
Qed.

Lemma parse_print_nodeid n : text_nodeid n -> parse_nodeid (print_nodeid n) = null_numeric n.
Proof.
  intros T.
  assert (H : exists ns body, in_u 2 ns /\ print_nodeid n = print_ns ns ++ body /\
     parse_ident ns body = null_numeric n /\ strip_prefix (lit "ns=") body = None).
  { destruct n as [|k id|k s|k g|k s]; cbn [print_nodeid];
      [exists 0, (lit "i=0")|exists k, (lit "i=" ++ print_dec id)|exists k, (lit "s=" ++ s)|
       exists k, (lit "g=" ++ print_guid g)|exists k, (lit "b=" ++ b64_enc s)];
      (split; [try (unfold in_u; cbn; lia); cbn in T; tauto|]); (split; [reflexivity|]); (split; [|reflexivity]).
    - reflexivity.
    - apply (parse_print_ident k (NNum k id)); [apply T|reflexivity|exact T].
    - apply (parse_print_ident k (NStr k s)); [apply T|reflexivity|exact T].
    - apply (parse_print_ident k (NGuid k g)); [apply T|reflexivity|exact T].
    - apply (parse_print_ident k (NOpq k s)); [apply T|reflexivity|exact T]. }
  destruct H as (ns & body & Hns & -> & HP & HN). unfold in_u in Hns. cbn in Hns.
  unfold parse_nodeid, print_ns. destruct (ns =? 0) eqn:C.
  - cbn [app]. rewrite HN. replace 0 with ns by lia. exact HP.
  - rewrite <- !app_assoc, strip_prefix_app. change (lit ";") with [x3b]. cbn [app].
    rewrite cut_app by (apply print_dec_no; [lia|cbn; lia]).
    rewrite (parse_print_dec 16) by (cbn; lia). exact HP.
Qed.

Lemma print_nodeid_not_svr n : strip_prefix (lit "svr=") (print_nodeid n) = None.
Proof. destruct n as [|k id|k s|k g|k s]; [reflexivity|..]; unfold print_nodeid, print_ns; destruct (k =? 0); reflexivity. Qed.
Lemma print_nodeid_not_nsu n : strip_prefix (lit "nsu=") (print_nodeid n) = None.
Proof. destruct n as [|k id|k s|k g|k s]; [reflexivity|..]; unfold print_nodeid, print_ns; destruct (k =? 0); reflexivity. Qed.

Lemma parse_print_exp_rest svr uri n : text_nodeid n -> ~ In semicolon uri ->
  parse_exp_rest svr ((if is_empty uri then [] else lit "nsu=" ++ uri ++ lit ";") ++ print_nodeid n)
  = mkExp svr uri (null_numeric n).
Proof.
  intros T U. unfold parse_exp_rest. destruct uri as [|u uri]; cbn [is_empty].
  - cbn [app]. rewrite print_nodeid_not_nsu, parse_print_nodeid by exact T. reflexivity.
  - rewrite <- !app_assoc, strip_prefix_app. change (lit ";") with [x3b]. cbn [app].
    change (u :: uri ++ x3b :: print_nodeid n) with ((u :: uri) ++ x3b :: print_nodeid n).
    rewrite cut_app by exact U. rewrite parse_print_nodeid by exact T. reflexivity.
Qed.

Lemma parse_print_exp e : text_exp e -> ~ In semicolon (e_uri e) ->
  parse_exp (print_exp e) = mkExp (e_server e) (e_uri e) (null_numeric (e_node e)).
Proof.
  destruct e as [svr uri n]. intros [Ts T] U. cbn [e_server e_uri e_node] in *. unfold in_u in Ts. cbn in Ts.
  unfold parse_exp, print_exp. cbn [e_server e_uri e_node]. destruct (0 <? svr) eqn:C.
  - rewrite <- !app_assoc, strip_prefix_app. change (lit ";") with [x3b] at 1. cbn [app].
    rewrite cut_app by (apply print_dec_no; [lia|cbn; lia]).
    rewrite (parse_print_dec 32) by (cbn; lia). apply parse_print_exp_rest; assumption.
  - replace svr with 0 by lia. cbn [app].
    assert (N : strip_prefix (lit "svr=")
      ((if is_empty uri then [] else lit "nsu=" ++ uri ++ lit ";") ++ print_nodeid n) = None).
    { destruct uri as [|u uri]; cbn [is_empty]; [apply print_nodeid_not_svr|reflexivity]. }
    rewrite N. apply parse_print_exp_rest; assumption.
Qed.

(** ** QualifiedName and paths *)
Lemma parse_print_qname q : text_qname q -> parse_qname (print_qname q) = q.
Proof.
  destruct q as [ns name]. unfold text_qname, in_u, parse_qname, print_qname. cbn [q_ns q_name]. intros H. change (2 ^ (8 * 2)) with 65536 in H.
  change (lit ":") with [x3a]. cbn [app]. rewrite cut_app by (apply print_dec_no; [lia|cbn; lia]).
  rewrite (parse_print_dec 16) by (cbn; lia). reflexivity.
Qed.

Lemma split_none c s : ~ In c s -> split c s = [s].
Proof.
  induction s as [|x s IH]; cbn [split In]; intros H; [reflexivity|].
  rewrite byte_eqb_neq by (intros ->; tauto). rewrite IH by tauto. reflexivity.
Qed.
Lemma split_app c a b : ~ In c a -> split c (a ++ c :: b) = a :: split c b.
Proof.
  induction a as [|x a IH]; cbn [split app In]; intros H; [now rewrite byte_eqb_refl|].
  rewrite byte_eqb_neq by (intros ->; tauto). rewrite IH by tauto. reflexivity.
Qed.

Lemma print_qname_no_slash q : text_qname q -> ~ In slash (q_name q) -> ~ In slash (print_qname q).
Proof.
  intros T H. unfold print_qname. rewrite !in_app_iff. intros [I|[I|I]]; [|cbn in I; intuition discriminate|tauto].
  revert I. apply print_dec_no; [unfold text_qname, in_u in T; lia|cbn; lia].
Qed.
Lemma print_qname_nonempty q : print_qname q <> [].
Proof. unfold print_qname. intros H. apply app_eq_nil in H as [_ H]. discriminate. Qed.

Lemma parse_print_path l : (forall q, In q l -> text_qname q /\ ~ In slash (q_name q)) ->
  parse_path (print_path l) = l.
Proof.
  destruct l as [|q0 l0]; [reflexivity|]. intros H. unfold parse_path.
  assert (N : print_path (q0 :: l0) <> []).
  { cbn [print_path]. destruct l0; [apply print_qname_nonempty|]. intros C. apply app_eq_nil in C as [C _].
    revert C. apply print_qname_nonempty. }
  destruct (print_path (q0 :: l0)) as [|c r] eqn:P; [congruence|]. rewrite <- P. clear N P c r.
  revert q0 H. induction l0 as [|q1 l IH]; intros q0 H.
  - cbn [print_path]. destruct (H q0) as [T S]; [now left|].
    rewrite split_none by (apply print_qname_no_slash; assumption).
    cbn [map]. now rewrite parse_print_qname.
  - change (print_path (q0 :: q1 :: l)) with (print_qname q0 ++ lit "/" ++ print_path (q1 :: l)).
    change (lit "/") with [x2f]. cbn [app]. destruct (H q0) as [T S]; [now left|].
    rewrite split_app by (apply print_qname_no_slash; assumption).
    cbn [map]. rewrite parse_print_qname by exact T. f_equal. apply IH. intros q I. apply H. now right.
Qed.

(** ** What parsing can yield *)
Lemma parse_digits_range max s acc z : 0 <= acc <= max -> parse_digits max acc s = NumOk z -> 0 <= z <= max.
Proof.
  revert acc. induction s as [|b s IH]; cbn [parse_digits]; intros acc H E; [injection E as <-; exact H|].
  unfold digit_val in E. destruct (_ && _) eqn:C; [|discriminate].
  destruct (max <? acc * 10 + (Z_of_byte b - 48)) eqn:D; [discriminate|].
  apply (IH _) in E; [exact E|lia].
Qed.
Lemma parse_uint_range bits s z : 0 <= bits -> parse_uint bits s = NumOk z -> 0 <= z < 2 ^ bits.
Proof.
  intros B H. unfold parse_uint in H. destruct s as [|c s]; [discriminate|].
  assert (0 < 2 ^ bits) by (apply Z.pow_pos_nonneg; lia).
  apply parse_digits_range in H; lia.
Qed.
Lemma parse_ident_legal ns s : in_u 2 ns -> text_nodeid (parse_ident ns s).
Proof.
  intros H. unfold parse_ident.
  destruct (strip_prefix (lit "i=") s) as [t|].
  { destruct (parse_uint 32 t) eqn:P; try exact I. destruct (_ && _); [exact I|].
    split; [exact H|]. apply parse_uint_range in P; [|lia]. unfold in_u. cbn. cbn in P. lia. }
  destruct (strip_prefix (lit "s=") s) as [t|]; [exact H|].
  destruct (strip_prefix (lit "g=") s) as [t|]; [destruct (parse_guid t); [exact H|exact I]|].
  destruct (strip_prefix (lit "b=") s) as [t|]; [destruct (b64_dec t); [exact H|exact I]|exact I].
Qed.
Lemma parse_nodeid_legal s : text_nodeid (parse_nodeid s).
Proof.
  unfold parse_nodeid. destruct (strip_prefix (lit "ns=") s) as [t|].
  - destruct (cut x3b t) as [[num r]|]; [|exact I]. destruct (parse_uint 16 num) eqn:P; try exact I.
    apply parse_ident_legal. apply parse_uint_range in P; [|lia]. unfold in_u. cbn. cbn in P. lia.
  - apply parse_ident_legal. unfold in_u. cbn. lia.
Qed.
Lemma parse_nodeid_normal s : null_numeric (parse_nodeid s) = parse_nodeid s.
Proof.
  assert (G : forall ns t, null_numeric (parse_ident ns t) = parse_ident ns t).
  { intros ns t. unfold parse_ident.
    destruct (strip_prefix (lit "i=") t) as [u|].
    { destruct (parse_uint 32 u); try reflexivity. destruct ((z =? 0) && (ns =? 0)) eqn:C; [reflexivity|].
      cbn [null_numeric]. rewrite andb_comm, C. reflexivity. }
    destruct (strip_prefix (lit "s=") t); [reflexivity|].
    destruct (strip_prefix (lit "g=") t) as [u|]; [destruct (parse_guid u); reflexivity|].
    destruct (strip_prefix (lit "b=") t) as [u|]; [destruct (b64_dec u); reflexivity|reflexivity]. }
  unfold parse_nodeid. destruct (strip_prefix (lit "ns=") s) as [t|]; [|apply G].
  destruct (cut x3b t) as [[num r]|]; [|reflexivity]. destruct (parse_uint 16 num); try reflexivity. apply G.
Qed.
(** Printing what was parsed and parsing again changes nothing. *)
Lemma parse_print_parse s : parse_nodeid (print_nodeid (parse_nodeid s)) = parse_nodeid s.
Proof. rewrite parse_print_nodeid by apply parse_nodeid_legal. apply parse_nodeid_normal. Qed.
