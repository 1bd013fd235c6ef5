(** Statements of BasicsProperties.v that need a few steps from the lemmas of the areas. *)
From Coq Require Import ZArith List Bool Lia String Strings.Byte.
From Verif Require Import Bytes CodecSpec Prim PrimSpec Value Text TextSpec TextProofs Registry RegistryProofs Writer WriterProofs
  Status StatusTable StatusProofs.
Import ListNotations.
Open Scope list_scope.
Open Scope Z_scope.

Lemma one_write : forall buf ops p, let w := w_run (new_writer buf) ops in
  let room := (List.length (w_buf w) - w_i w)%nat in
  w_bytes (fst (w_write w p)) = w_bytes w ++ firstn room p /\
  (p <> [] -> snd (w_write w p) =
     if Nat.ltb room (List.length p) then WShort room else WOk (List.length p)).
Proof.
  intros buf ops p w room. assert (K : w_ok w) by (apply run_ok; unfold w_ok; cbn; apply Nat.le_0_l).
  pose proof (write_spec w p K) as SP. pose proof (write_result w p K) as R.
  destruct (w_write w p) as [w' r]. cbn [fst snd] in *. destruct SP as (_ & _ & _ & SP & _). fold room in SP, R.
  split.
  - rewrite SP. f_equal. destruct (Nat.le_gt_cases (List.length p) room) as [L|L].
    + rewrite Nat.min_r by exact L. rewrite firstn_all, firstn_all2 by exact L. reflexivity.
    + rewrite Nat.min_l by lia. reflexivity.
  - intros NP. rewrite R. destruct p as [|c p]; [congruence|]. cbn [List.length Nat.eqb andb]. rewrite orb_false_r.
    destruct (Nat.ltb_spec room (S (List.length p))) as [L|L].
    + rewrite Nat.min_l by lia. destruct (Nat.ltb_spec room (S (List.length p))); [reflexivity|lia].
    + rewrite Nat.min_r by lia. rewrite Nat.ltb_irrefl. reflexivity.
Qed.

Lemma write_at_run : forall buf ops p off, let w := w_run (new_writer buf) ops in
  let '(w', r) := w_write_at w p off in
  List.length (w_buf w') = List.length buf /\ w_i w' = w_i w /\
  (r <> WPanic -> forall k, Z.of_nat k < off \/ Z.of_nat k >= off + Z.of_nat (List.length p) ->
     nth_error (w_buf w') k = nth_error (w_buf w) k) /\
  (r = WPanic <-> off < 0).
Proof.
  intros buf ops p off w. destruct (run_ok ops (new_writer buf)) as [K L]; [unfold w_ok; cbn; apply Nat.le_0_l|].
  pose proof (write_at_spec w p off K) as S. destruct (w_write_at w p off) as [w' r].
  destruct S as (_ & S2 & S3 & S4 & S5). split; [rewrite S2; exact L|]. auto.
Qed.

Lemma run_in_bounds : forall buf ops, let w := w_run (new_writer buf) ops in
  (w_i w <= List.length (w_buf w))%nat /\ List.length (w_buf w) = List.length buf.
Proof. intros buf ops. apply run_ok. unfold w_ok. cbn. apply Nat.le_0_l. Qed.

Lemma severity_exclusive : forall c, 0 <= c < 2 ^ 32 ->
  List.length (filter (fun b => b) [is_good c; is_uncertain c; is_bad c; c / 2 ^ 30 =? 3]) = 1%nat.
Proof.
  intros c H. destruct (severity_cases c H) as (-> & -> & ->).
  assert (0 <= c / 2 ^ 30 < 4) by (split; [apply Z.div_pos; lia|apply Z.div_lt_upper_bound; lia]).
  assert (c / 2 ^ 30 = 0 \/ c / 2 ^ 30 = 1 \/ c / 2 ^ 30 = 2 \/ c / 2 ^ 30 = 3) as [E|[E|[E|E]]] by lia; rewrite E; reflexivity.
Qed.

Lemma info_bits_keep : forall c bits, 0 <= c < 2 ^ 32 -> 0 <= bits < 2 ^ 16 ->
  let c' := set_bits c bits in
  0 <= c' < 2 ^ 32 /\ c' / 2 ^ 16 = c / 2 ^ 16 /\
  is_good c' = is_good c /\ is_uncertain c' = is_uncertain c /\ is_bad c' = is_bad c.
Proof.
  intros c bits Hc Hb c'. assert (R : 0 <= c' < 2 ^ 32) by exact (lor_range c bits Hc Hb).
  destruct (severity_cases c Hc) as (-> & -> & ->). destruct (severity_cases c' R) as (-> & -> & ->).
  assert (E : c' / 2 ^ 30 = c / 2 ^ 30) by (apply (div_lor_low c bits 30 16); lia). rewrite E.
  split; [exact R|]. split; [apply (div_lor_low c bits 16 16); lia|]. auto.
Qed.

Lemma names_match : forall name c, In (name, c) status_table ->
  c mod 2 ^ 16 = 0 /\ 0 <= c < 2 ^ 32 /\
  (if String.prefix "Good" name then is_good c
   else if String.prefix "Uncertain" name then is_uncertain c
   else if String.prefix "Bad" name then is_bad c else false) = true.
Proof.
  intros name c H. pose proof table_ok as T. rewrite forallb_forall in T. specialize (T _ H).
  unfold entry_ok in T. rewrite !andb_true_iff in T. destruct T as [[[T1 T2] T3] T4].
  apply Z.eqb_eq in T1. apply Z.leb_le in T2. apply Z.ltb_lt in T3. auto.
Qed.

Lemma registration_spec : forall l t id, let r := reg_run l in let '(r', ok) := register r t id in
  (ok = true <-> (find_type r id = None /\ find_id r t = None) \/ find_type r id = Some t) /\
  (ok = false -> (forall x, find_type r' x = find_type r x) /\ (forall x, find_id r' x = find_id r x)) /\
  (ok = true -> find_type r' id = Some t /\ find_id r' t = Some id /\
     (forall x, x <> id -> find_type r' x = find_type r x) /\
     (forall x, x <> t -> find_id r' x = find_id r x)).
Proof.
  intros l t id r. pose proof (register_spec r t id (run_bijective l)) as H.
  destruct (register r t id) as [r' ok]. exact (proj2 H).
Qed.

Lemma nodeid_syntax : forall ns id, 0 < ns < 2 ^ 16 -> 0 <= id < 2 ^ 32 ->
  print_nodeid (NNum ns id) = lit "ns=" ++ print_dec ns ++ lit ";i=" ++ print_dec id /\
  parse_nodeid (lit "ns=" ++ print_dec ns ++ lit ";i=" ++ print_dec id) = NNum ns id.
Proof.
  intros ns id Hn Hi.
  assert (E : print_nodeid (NNum ns id) = lit "ns=" ++ print_dec ns ++ lit ";i=" ++ print_dec id).
  { cbn [print_nodeid]. unfold print_ns. destruct (ns =? 0) eqn:C; [lia|]. rewrite <- !app_assoc. reflexivity. }
  split; [exact E|]. rewrite <- E. rewrite parse_print_nodeid.
  - cbn [null_numeric]. destruct (ns =? 0) eqn:C; [lia|]. reflexivity.
  - unfold text_nodeid, in_u. cbn. cbn in Hn, Hi. lia.
Qed.

Lemma write_at_data : forall buf ops p off, let w := w_run (new_writer buf) ops in
  0 <= off -> let o := Z.to_nat off in
  w_write_at w p off =
    if Nat.ltb o (w_i w)
    then (mkW (firstn o (w_buf w) ++ firstn (List.length buf - o) p ++ skipn (o + List.length p) (w_buf w)) (w_i w),
          if Nat.ltb (List.length buf) (o + List.length p) then WShort (List.length buf - o) else WOk (List.length p))
    else (w, WShort 0).
Proof.
  intros buf ops p off w Ho o. destruct (run_ok ops (new_writer buf)) as [K L]; [unfold w_ok; cbn; apply Nat.le_0_l|].
  fold w in K, L. unfold w_ok in K. cbn [new_writer w_buf] in L. unfold w_write_at.
  destruct (Nat.ltb_spec o (w_i w)) as [C|C].
  - destruct (Z.leb_spec (Z.of_nat (w_i w)) off) as [D|D]; [lia|]. destruct (Z.ltb_spec off 0) as [D'|D']; [lia|].
    unfold copy_at. fold o. rewrite L. rewrite L in K.
    destruct (Nat.ltb_spec (List.length buf) (o + List.length p)) as [E|E].
    + rewrite Nat.min_l by lia. destruct (Nat.ltb_spec (List.length buf - o) (List.length p)); [|lia].
      rewrite !skipn_all2 by lia. reflexivity.
    + rewrite Nat.min_r by lia. rewrite Nat.ltb_irrefl. rewrite (firstn_all2 p) by lia. rewrite (firstn_all2 p) by lia. reflexivity.
  - destruct (Z.leb_spec (Z.of_nat (w_i w)) off) as [D|D]; [reflexivity|lia].
Qed.

Lemma alphabet : forall d, 0 <= d < 64 -> b64_char d =
  nth (Z.to_nat d) (lit "ABCDEFGHIJKLMNOPQRSTUVWXYZabcdefghijklmnopqrstuvwxyz0123456789+/") x00.
Proof.
  assert (G : forallb (fun k => Byte.eqb (b64_char (Z.of_nat k))
    (nth k (lit "ABCDEFGHIJKLMNOPQRSTUVWXYZabcdefghijklmnopqrstuvwxyz0123456789+/") x00)) (seq 0 64) = true)
    by (vm_compute; reflexivity).
  intros d H. rewrite forallb_forall in G. specialize (G (Z.to_nat d)).
  rewrite Z2Nat.id in G by lia. apply Byte.byte_dec_bl, G. apply in_seq. lia.
Qed.

Lemma cut_skip (c : byte) a b : ~ has_byte c a -> cut c (a ++ c :: b) = Some (a, b).
Proof.
  unfold has_byte. induction a as [|x a IH]; cbn [app cut]; intros H.
  - rewrite (Byte.byte_dec_lb (eq_refl c)). reflexivity.
  - destruct (Byte.eqb x c) eqn:E; [apply Byte.byte_dec_bl in E; subst; cbn in H; tauto|].
    rewrite IH; [reflexivity|]. cbn in H. tauto.
Qed.
Lemma cut_none (c : byte) a : ~ has_byte c a -> cut c a = None.
Proof.
  unfold has_byte. induction a as [|x a IH]; cbn [cut]; intros H; [reflexivity|].
  destruct (Byte.eqb x c) eqn:E; [apply Byte.byte_dec_bl in E; subst; cbn in H; tauto|].
  rewrite IH; [reflexivity|]. cbn in H. tauto.
Qed.
Lemma no_digits_syntax max acc a : (exists c, In c a /\ digit_val c = None) ->
  0 <= acc -> (acc + 1) * 10 ^ Z.of_nat (List.length a) <= max + 1 -> parse_digits max acc a = NumSyntax.
Proof.
  revert acc. induction a as [|x a IH]; intros acc (c & I & N) P H; [destruct I|].
  cbn [parse_digits]. destruct (digit_val x) as [d|] eqn:D; [|reflexivity].
  assert (0 <= d <= 9) by (unfold digit_val in D; destruct (_ && _) eqn:C; [injection D as <-; lia|discriminate]).
  cbn [List.length] in H. rewrite Nat2Z.inj_succ, Z.pow_succ_r in H by lia.
  assert (1 <= 10 ^ Z.of_nat (List.length a)) by (apply Z.lt_pred_le, Z.pow_pos_nonneg; lia).
  destruct (max <? acc * 10 + d) eqn:M; [nia|].
  apply IH; [|lia|nia]. destruct I as [<-|I]; [congruence|]. exists c. auto.
Qed.
Lemma plain_name : forall a b, ~ has_byte colon a -> (List.length a <= 4)%nat ->
  (a = [] \/ exists c, In c a /\ digit_val c = None) ->
  parse_qname (a ++ colon :: b) = mkQ 0 (a ++ colon :: b).
Proof.
  intros a b H L D. unfold parse_qname. change x3a with colon. rewrite cut_skip by exact H.
  assert (P : parse_uint 16 a = NumSyntax); [|rewrite P; reflexivity].
  destruct a as [|x a]; [reflexivity|]. destruct D as [D|D]; [discriminate|].
  unfold parse_uint. apply no_digits_syntax; [exact D|lia|].
  assert (10 ^ Z.of_nat (List.length (x :: a)) <= 10 ^ 4) by (apply Z.pow_le_mono_r; lia). lia.
Qed.
Lemma no_colon_name : forall s, ~ has_byte colon s -> parse_qname s = mkQ 0 s.
Proof. intros s H. unfold parse_qname. change x3a with colon. rewrite cut_none by exact H. reflexivity. Qed.

(** Guids *)
Lemma guid_forms g t : same_but_case (print_guid g) t ->
  parse_guid (lit "{" ++ t ++ lit "}") = Some g /\
  (forall p, same_but_case (lit "urn:uuid:") p -> parse_guid (p ++ t) = Some g) /\
  parse_guid (filter (fun c => negb (Byte.eqb c x2d)) (print_guid g)) = Some g.
Proof.
  intros H. split; [exact (guid_braces g _ _ t H)|split; [intros p P; exact (guid_urn g p t P H)|exact (guid_bare g)]].
Qed.
Definition guid1 : guid := Guid x01 x23 x45 x67 x89 xab xcd xef x01 x23 x45 x67 x89 xab xcd xef.
Example guid_case_ex : print_guid guid1 = lit "01234567-89ab-cdef-0123-456789abcdef" /\
  same_but_case (print_guid guid1) (lit "01234567-89AB-cDeF-0123-456789ABCDEF") /\
  parse_nodeid (lit "ns=2;g=01234567-89AB-cDeF-0123-456789ABCDEF") = NGuid 2 guid1 /\
  parse_guid (lit "URN:uuid:01234567-89ab-cdef-0123-456789abcdef") = Some guid1 /\
  parse_guid (lit "01234567-89ag-cdef-0123-456789abcdef") = None.
Proof.
  split; [reflexivity|]. split; [|split; [reflexivity|split; reflexivity]].
  unfold same_but_case. cbn. repeat (apply Forall2_cons; [unfold same_letter; cbn; lia || (left; reflexivity)|]). apply Forall2_nil.
Qed.

(** Base64 is read from its own letters, padding and line breaks only *)
Definition base64_letters : bytes := lit "ABCDEFGHIJKLMNOPQRSTUVWXYZabcdefghijklmnopqrstuvwxyz0123456789+/=".
Lemma b64_val_letter c z : b64_val c = Some z -> In c base64_letters.
Proof. unfold base64_letters. destruct c; intros H; vm_compute in H; try discriminate H; clear H; cbn; tauto. Qed.
Lemma pad_letter c : Byte.eqb c pad_char = true -> In c base64_letters.
Proof. intros H. apply byte_dec_bl in H. subst c. unfold base64_letters. cbn. tauto. Qed.
Lemma groups_letters n : forall s l, (List.length s <= n)%nat -> b64_groups s = Some l -> Forall (fun c => In c base64_letters) s.
Proof.
  induction n as [|n IH]; intros s l L H.
  - destruct s; [constructor|cbn in L; lia].
  - destruct s as [|a [|b [|c [|d r]]]]; try discriminate H; [constructor|]. cbn [b64_groups] in H.
    destruct (b64_val a) as [x|] eqn:A; [|discriminate]. destruct (b64_val b) as [y|] eqn:B; [|discriminate].
    apply Forall_cons; [exact (b64_val_letter _ _ A)|]. apply Forall_cons; [exact (b64_val_letter _ _ B)|].
    destruct (Byte.eqb d pad_char) eqn:D.
    + destruct r; [|discriminate]. destruct (Byte.eqb c pad_char) eqn:C.
      * apply Forall_cons; [exact (pad_letter _ C)|]. apply Forall_cons; [exact (pad_letter _ D)|]. constructor.
      * destruct (b64_val c) as [z|] eqn:C2; [|discriminate]. apply Forall_cons; [exact (b64_val_letter _ _ C2)|]. apply Forall_cons; [exact (pad_letter _ D)|]. constructor.
    + destruct (b64_val c) as [z|] eqn:C2; [|discriminate]. destruct (b64_val d) as [w|] eqn:D2; [|discriminate].
      apply Forall_cons; [exact (b64_val_letter _ _ C2)|]. apply Forall_cons; [exact (b64_val_letter _ _ D2)|].
      destruct (b64_groups r) as [l'|] eqn:R; [|discriminate]. exact (IH r l' ltac:(cbn in L; lia) R).
Qed.
Lemma base64_only t s c : b64_dec t = Some s -> In c t -> In c base64_letters \/ c = x0a \/ c = x0d.
Proof.
  unfold b64_dec. intros H I. pose proof (groups_letters _ _ _ (le_n _) H) as F. rewrite Forall_forall in F.
  destruct (not_newline c) eqn:N.
  - left. apply F. apply filter_In. split; assumption.
  - right. unfold not_newline in N. destruct (Byte.eqb c x0a) eqn:E1; [left; apply byte_dec_bl; exact E1|].
    destruct (Byte.eqb c x0d) eqn:E2; [right; apply byte_dec_bl; exact E2|discriminate].
Qed.
Example base64_only_ex : b64_dec (lit "Zm9v" ++ [x0a] ++ lit "YmE=") = Some (lit "fooba") /\ b64_dec (lit "Zm 9v") = None.
Proof. split; reflexivity. Qed.
