(** Loading a node set: structures and lists of variants *)
From Coq Require Import ZArith String List Bool Lia Strings.Byte.
From Verif Require Import Bytes BytesProofs CodecSpec Prim PrimSpec Value Text TextSpec TextProofs IndexRange Namespaces NodeSet NodeSetSpec NodeSetProofs NodeSetLemmas.
Import ListNotations.
Open Scope Z_scope.
Ltac Zify.zify_post_hook ::= idtac.

(** * Spaces *)
Lemma drop_blanks a s : Forall blank a -> drop_space (a ++ s) = drop_space s.
Proof.
  induction 1 as [|b a B F IH]; [reflexivity|]. cbn [app drop_space]. replace (space_char b) with true; [exact IH|].
  unfold blank in B. cbn in B. repeat (destruct B as [<-|B]; [reflexivity|]). destruct B.
Qed.
Lemma trim_blanks a s b : Forall blank a -> Forall blank b -> no_outer_space s -> trim_space (a ++ s ++ b) = s.
Proof.
  intros A B N. pose proof (trim_id s N) as T. unfold trim_space in *. rewrite (drop_blanks a _ A). destruct s as [|c s].
  - cbn [app]. rewrite <- (app_nil_r b), (drop_blanks b [] B). reflexivity.
  - assert (C : drop_space ((c :: s) ++ b) = (c :: s) ++ b).
    { cbn [app drop_space]. destruct (space_char c) eqn:E; [|reflexivity]. exfalso. apply (proj1 N c s eq_refl). unfold space_char in E. apply existsb_exists in E.
      destruct E as (y & I & E). apply Byte.byte_dec_bl in E. subst y. exact I. }
    assert (D : drop_space (c :: s) = c :: s).
    { cbn [drop_space]. destruct (space_char c) eqn:E; [|reflexivity]. cbn [app drop_space] in C. rewrite E in C. exfalso. apply (proj1 N c s eq_refl).
      unfold space_char in E. apply existsb_exists in E. destruct E as (y & I & E). apply Byte.byte_dec_bl in E. subst y. exact I. }
    rewrite C, rev_app_distr, drop_blanks by (now apply Forall_rev). rewrite D in T. exact T.
Qed.
Example trim_example : Forall blank [x20; x0a] /\ no_outer_space (lit "a b"%string).
Proof.
  split; [apply Forall_cons; [now left|]; apply Forall_cons; [right; right; now left|apply Forall_nil]|].
  split; intros b r E B; [injection E as <- _|apply (f_equal (@rev _)) in E; rewrite rev_app_distr in E; injection E as <- _];
    unfold blank in B; cbn in B; repeat (destruct B as [B|B]; [discriminate B|]); exact B.
Qed.

Section Lib.
Variables (pf : Z -> bytes -> Z) (pt : bytes -> option time) (xt : bytes -> bytes * bytes) (xq : bytes -> Z * bytes) (en : nodeid -> bool).
Notation ld := (load pf pt xt xq en).

Lemma label_read t x : written_label t x -> plain_text x = t.
Proof. intros [A B]. unfold plain_text. rewrite A, B. now destruct t. Qed.
Lemma range_read table e lo hi : xe_range e = Some (lo, hi) -> exists x t r d a i h,
  ld table (mkSet [] [] [a_variable (lit "i=70000"%string) (lit "i=884"%string) [] (with_ext e) []]) = Fine (table, [x]) /\
  in_kind x = IVariable (VScalar KExt (VExt 884 [VB BDouble lo; VB BDouble hi])) t r d a i h.
Proof.
  intros E. unfold load. cbn [ns_uris ns_aliases ns_nodes map_uris to_nodes]. unfold to_node.
  change (to_kind pf pt xt xq en [] [] (a_variable (lit "i=70000"%string) (lit "i=884"%string) [] (with_ext e) []))
    with (Some match range_value e with Fine w => Fine (IVariable w (NNum 0 884) (-1) [] 1 0 false) | Panic => Panic end).
  unfold range_value. rewrite E. eexists _, _, _, _, _, _, _. split; reflexivity.
Qed.
Lemma unit_read table e u : written_unit u e -> exists x t r d a i h,
  ld table (mkSet [] [] [a_variable (lit "i=70000"%string) (lit "i=887"%string) [] (with_ext e) []]) = Fine (table, [x]) /\
  in_kind x = IVariable (VScalar KExt (VExt 887 [VB BString (fu_uri u); VB BInt32 (fu_id u); VB BLText (fu_display u); VB BLText (fu_description u)])) t r d a i h.
Proof.
  intros (y & E & E1 & E2 & E3 & E4). unfold load. cbn [ns_uris ns_aliases ns_nodes map_uris to_nodes]. unfold to_node.
  change (to_kind pf pt xt xq en [] [] (a_variable (lit "i=70000"%string) (lit "i=887"%string) [] (with_ext e) []))
    with (Some match unit_value e with Fine w => Fine (IVariable w (NNum 0 887) (-1) [] 1 0 false) | Panic => Panic end).
  unfold unit_value. rewrite E, E1, E2, (label_read _ _ E3), (label_read _ _ E4). eexists _, _, _, _, _, _, _. split; reflexivity.
Qed.
Lemma enums_all ns es : Forall2 written_enum ns es -> all_fine (map enum_value es) = Fine (map enum_meant ns).
Proof.
  induction 1 as [|n e ns es (y & E & E1 & E2 & E3) F IH]; [reflexivity|]. cbn [map all_fine]. unfold enum_value at 1.
  rewrite E, E1, (label_read _ _ E2), (label_read _ _ E3), IH. reflexivity.
Qed.
Lemma enums_read table ns es : Forall2 written_enum ns es -> exists x t r d a i h,
  ld table (mkSet [] [] [a_variable (lit "i=70000"%string) (lit "i=7594"%string) (lit "1"%string) (with_exts es) []]) = Fine (table, [x]) /\
  in_kind x = IVariable (VArr KExt (map enum_meant ns)) t r d a i h.
Proof.
  intros F. unfold load. cbn [ns_uris ns_aliases ns_nodes map_uris to_nodes]. unfold to_node.
  change (to_kind pf pt xt xq en [] [] (a_variable (lit "i=70000"%string) (lit "i=7594"%string) (lit "1"%string) (with_exts es) []))
    with (Some match ext_list enum_value (Some es) with Fine w => Fine (IVariable w (NNum 0 7594) 1 [0] 1 0 false) | Panic => Panic end).
  unfold ext_list. rewrite (enums_all _ _ F). eexists _, _, _, _, _, _, _. split; reflexivity.
Qed.
Lemma arguments_all uris table al m args es : right_map uris table m -> nth_error table 0 = Some opc_ua ->
  Forall (argument_ok uris) args -> Forall2 (written_argument al) args es ->
  exists vs, all_fine (map (argument_value al m) es) = Fine vs /\ Forall2 (same_argument uris table) args vs.
Proof.
  intros R Z K F. induction F as [|a e args es W F IH]; [exists []; split; [reflexivity|constructor]|].
  inversion K as [|? ? (K1 & K2 & K3 & K4) K']; subst. destruct (IH K') as (vs & E & S0). destruct W as (y & W0 & W1 & W2 & W3 & W4 & W5).
  cbn [map all_fine]. unfold argument_value at 1. rewrite W0, W1, W4, (label_read _ _ W5), E, (rank_loaded _ _ K3 W3), (dims_loaded _ _ K4).
  eexists. split; [reflexivity|]. constructor; [|exact S0]. eexists. split; [destruct (fa_dims a); reflexivity|].
  now apply id_loaded with (al := al).
Qed.
Lemma arguments_read table uris al args es : Forall (argument_ok uris) args -> Forall2 (written_argument al) args es ->
  ~ In (lit "i=296"%string) (map fst al) -> nth_error table 0 = Some opc_ua -> zlen table + zlen uris <= 65536 ->
  exists table' x vs t r d a i h,
    ld table (mkSet uris al [a_variable (lit "i=70000"%string) (lit "i=296"%string) (lit "1"%string) (with_exts es) []]) = Fine (table', [x]) /\
    in_kind x = IVariable (VArr KExt vs) t r d a i h /\ Forall2 (same_argument uris table') args vs.
Proof.
  intros K F A T L. destruct (map_uris_right table uris T L) as (more & m & E & R).
  destruct (arguments_all uris (table ++ more) al m args es R (nth_app_some _ _ _ _ T) K F) as (vs & E' & S0).
  unfold load. cbn [ns_uris ns_aliases ns_nodes]. rewrite E. cbn [to_nodes]. unfold to_node.
  assert (RS : resolve al (lit "i=296"%string) = lit "i=296"%string).
  { apply (resolve_written al _ (NNum 0 296)); [left; split; [reflexivity|exact A]|apply plain_check; reflexivity]. }
  assert (KD : exists t, to_kind pf pt xt xq en al m (a_variable (lit "i=70000"%string) (lit "i=296"%string) (lit "1"%string) (with_exts es) []) =
    Some (Fine (IVariable (VArr KExt vs) t 1 [0] 1 0 false))).
  { eexists. unfold to_kind.
    assert (V : to_value pf pt xt xq en al m (with_exts es) (lit "i=296"%string) 1 = Fine (VArr KExt vs)).
    { unfold to_value. rewrite RS. change (list_value pf pt xt xq al m (lit "i=296"%string) (with_exts es)) with (ext_list (argument_value al m) (Some es)).
      change (1 =? -1) with false. change (1 =? 1) with true. cbv iota zeta. unfold ext_list. now rewrite E'. }
    cbn [un_value un_type un_rank un_tag a_variable]. change (to_int32 (lit "1"%string) (-1)) with 1. rewrite V. reflexivity. }
  destruct KD as (t & ->). eexists _, _, vs, _, _, _, _, _, _. split; [reflexivity|]. split; [reflexivity|exact S0].
Qed.

(** * Lists of variants *)
Lemma digits_no_space s : s <> [] -> (forall b, In b s -> 48 <= Z_of_byte b <= 57 \/ b = x2d) -> no_outer_space s.
Proof.
  intros N H. assert (G : forall b, In b s -> ~ blank b).
  { intros b I B. destruct (H b I) as [C| ->]; unfold blank in B; cbn in B; repeat destruct B as [B|B]; try discriminate B; try exact B; subst b; cbn in C; lia. }
  split; intros b r E; apply G; rewrite E; [now left|apply in_or_app; right; now left].
Qed.
Lemma print_dec_chars z b : 0 <= z -> In b (print_dec z) -> 48 <= Z_of_byte b <= 57.
Proof. intros H I. now apply (dec_digits_chars 20 z). Qed.
Lemma print_int_space z : no_outer_space (print_int z).
Proof.
  unfold print_int. destruct (z <? 0) eqn:E.
  - apply digits_no_space; [discriminate|]. intros b [<-|I]; [now right|]. left. apply (print_dec_chars (- z)); [lia|exact I].
  - apply digits_no_space; [destruct (print_dec_cons z) as (c & r & ->); discriminate|]. intros b I. left. apply (print_dec_chars z); [lia|exact I].
Qed.
Lemma uint_or_dec bits n : 0 <= bits <= 64 -> 0 <= n < 2 ^ 64 -> uint_or bits (print_dec n) = Z.min n (2 ^ bits - 1).
Proof.
  intros B N. unfold uint_or. destruct (Z_lt_dec n (2 ^ bits)) as [L|L].
  - rewrite parse_print_dec by lia. lia.
  - pose proof (parse_print_dec 64 n N ltac:(lia)) as P. unfold parse_uint in *. destruct (print_dec n) as [|c r] eqn:E; [discriminate|].
    assert (0 < 2 ^ bits) by (apply Z.pow_pos_nonneg; lia).
    assert (P' : parse_digits (2 ^ 64) 0 (c :: r) = NumOk n).
    { clear -P. revert P. generalize (c :: r). intros l. generalize 0. induction l as [|x l IH]; intros acc P; cbn [parse_digits] in *; [exact P|].
      destruct (digit_val x) as [dd|]; [|discriminate]. destruct (2 ^ 64 - 1 <? acc * 10 + dd) eqn:C; [discriminate|].
      replace (2 ^ 64 <? acc * 10 + dd) with false by lia. now apply IH. }
    destruct (parse_digits_big pf pt xt xq (2 ^ bits - 1) _ _ _ P') as (q & Q & ->); [lia|lia|lia|]. rewrite Q. lia.
Qed.
Lemma uint_or_neg bits n : uint_or bits (lit "-" ++ n) = 0.
Proof. reflexivity. Qed.
Lemma unsigned_read bits z : 0 <= bits <= 64 -> -2 ^ 64 < z < 2 ^ 64 -> uint_or bits (print_int z) = Z.max 0 (Z.min (2 ^ bits - 1) z).
Proof.
  intros B Z0. unfold print_int. assert (0 < 2 ^ bits) by (apply Z.pow_pos_nonneg; lia). destruct (z <? 0) eqn:E; [rewrite uint_or_neg; lia|]. rewrite uint_or_dec by lia. lia.
Qed.
Lemma signed_read bits z : 1 <= bits <= 64 -> -2 ^ 64 < z < 2 ^ 64 -> int_or bits (print_int z) = Z.max (- 2 ^ (bits - 1)) (Z.min (2 ^ (bits - 1) - 1) z).
Proof.
  intros B Z0. unfold print_int. assert (P : 2 ^ bits = 2 * 2 ^ (bits - 1)) by (rewrite <- Z.pow_succ_r by lia; f_equal; lia).
  assert (0 < 2 ^ (bits - 1)) by (apply Z.pow_pos_nonneg; lia). destruct (z <? 0) eqn:E.
  - change (lit "-" ++ print_dec (- z)) with (x2d :: print_dec (- z)). unfold int_or. change (Byte.eqb x2d x2d) with true. cbv iota. rewrite uint_or_dec by lia. lia.
  - destruct (print_dec_cons z) as (c & r & D). pose proof (print_dec_chars z c ltac:(lia)) as C. rewrite D in C. specialize (C (or_introl eq_refl)).
    unfold int_or. rewrite D. rewrite !byte_eqb_neq by (intros ->; cbn in C; lia). rewrite <- D, uint_or_dec by lia. lia.
Qed.
Lemma whole_read name mk lo hi z : In (name, mk, (lo, hi)) wholes -> -2 ^ 64 < z < 2 ^ 64 ->
  variant_item pf pt xt xq (lit name) (print_int z) = mk (Z.max lo (Z.min hi z)).
Proof.
  intros I Z0. cbn [wholes In] in I.
  repeat (destruct I as [I|I]; [injection I as <- <- <- <-; unfold variant_item; rewrite (trim_id _ (print_int_space z));
    repeat (match goal with |- context [bytes_eqb (lit ?a) (lit ?b)] => let r := eval vm_compute in (bytes_eqb (lit a) (lit b)) in change (bytes_eqb (lit a) (lit b)) with r end);
    cbv iota zeta; rewrite ?unsigned_read, ?signed_read by lia; reflexivity|]).
  destruct I.
Qed.
Ltac names := repeat (match goal with |- context [bytes_eqb (lit ?a) (lit ?b)] => let r := eval vm_compute in (bytes_eqb (lit a) (lit b)) in change (bytes_eqb (lit a) (lit b)) with r end); cbv iota zeta.
Lemma others_read s : no_outer_space s ->
  (forall b, parse_bool s = Some b -> variant_item pf pt xt xq (lit "Boolean") s = VScalar (KB BBool) (VB BBool b)) /\
  variant_item pf pt xt xq (lit "Float") s = VScalar (KB BFloat) (VB BFloat (pf 32 s)) /\
  variant_item pf pt xt xq (lit "Double") s = VScalar (KB BDouble) (VB BDouble (pf 64 s)) /\
  variant_item pf pt xt xq (lit "String") s = VScalar (KB BString) (VB BString s) /\
  (forall x, pt s = Some x -> variant_item pf pt xt xq (lit "DateTime") s = VScalar (KB BTime) (VB BTime x)) /\
  (forall g, parse_guid s = Some g -> variant_item pf pt xt xq (lit "Guid") s = VScalar (KB BGuid) (VB BGuid g)) /\
  variant_item pf pt xt xq (lit "LocalizedText") s = VScalar (KB BLText) (VB BLText (mkLT (fst (xt s)) (snd (xt s)))) /\
  variant_item pf pt xt xq (lit "QualifiedName") s = VScalar (KB BQName) (VB BQName (mkQ (fst (xq s)) (snd (xq s)))).
Proof.
  intros N. unfold variant_item. rewrite (trim_id _ N). names. repeat split; try (intros y E; rewrite E); reflexivity.
Qed.
(** The names of these three elements in the standard *)
Lemma names_lost s : Forall (fun name => variant_item pf pt xt xq (lit name) s = VNil) ["XmlElement"; "NodeId"; "ExpandedNodeId"]%string.
Proof. repeat (apply Forall_cons; [reflexivity|]). apply Forall_nil. Qed.
(** A list with one text that is no Guid *)
Lemma guids_lost table v l s : uv_list v XGuid = Some l -> In s l -> parse_guid s = None -> exists x t r d a i h,
  ld table (mkSet [] [] [a_variable (lit "i=70000"%string) (lit "i=14"%string) (lit "1"%string) v []]) = Fine (table, [x]) /\
  in_kind x = IVariable VNil t r d a i h.
Proof.
  intros V I P. unfold load. cbn [ns_uris ns_aliases ns_nodes map_uris to_nodes]. unfold to_node.
  change (to_kind pf pt xt xq en [] [] (a_variable (lit "i=70000"%string) (lit "i=14"%string) (lit "1"%string) v []))
    with (Some match (match uv_list v XGuid with Some l => Fine (to_list XGuid l) | None => Fine VNil end) with Fine w => Fine (IVariable w (NNum 0 14) 1 [0] 1 0 false) | Panic => Panic end).
  rewrite V. assert (C : conv_all XGuid l = None).
  { clear V. induction l as [|y l IH]; [destruct I|]. cbn [conv_all]. change (list_conv XGuid y) with (parse_guid y). destruct I as [->|I]; [now rewrite P|].
    rewrite (IH I). now destruct (parse_guid y). }
  unfold to_list. rewrite C. eexists _, _, _, _, _, _, _. split; reflexivity.
Qed.
End Lib.
Example unit_example : written_unit (mkFUnit (lit "u"%string) 5 (mkLT (lit "bar"%string) (lit "en"%string)) (mkLT [] []))
  (mkXExt None (Some (mkXUnit (lit "u"%string) 5 (mkTE (lit "bar"%string) (lit "en"%string) (lit "<Locale>en</Locale><Text>bar</Text>"%string)) (mkTE [] [] []))) None None).
Proof. eexists. repeat split; reflexivity. Qed.
Example argument_example : let a := mkFArg (lit "x"%string) (NNum 1 7) 2 [3; 4] (mkLT (lit "what"%string) (lit "en"%string)) in
  argument_ok [lit "urn:a"%string] a /\
  written_argument [] a (mkXExt (Some (mkXArg (lit "x"%string) (lit "ns=1;i=7"%string) (lit "2"%string) (lit "3,4"%string) (mkTE (lit "what"%string) (lit "en"%string) []))) None None None).
Proof.
  split.
  - split; [idok|]. split; [pl|]. cbn [fa_rank fa_dims]. split; [cbn; lia|]. apply Forall_cons; [cbn; lia|]. apply Forall_cons; [cbn; lia|]. apply Forall_nil.
  - eexists. split; [reflexivity|]. split; [reflexivity|]. split; [direct|]. split; [left; reflexivity|]. split; [reflexivity|split; reflexivity].
Qed.
Example enum_example : written_enum (mkFEnum 3 (mkLT (lit "On"%string) []) (mkLT [] []))
  (mkXExt None None None (Some (mkXEnum 3 (mkTE (lit "On"%string) [] []) (mkTE [] [] [])))).
Proof. eexists. repeat split; reflexivity. Qed.
Example whole_example : In ("SByte"%string, (fun z => VScalar (KB BSByte) (VB BSByte z)), (-128, 127)) wholes.
Proof. cbn. tauto. Qed.
Example guids_example : parse_guid (lit "no guid"%string) = None.
Proof. reflexivity. Qed.
Example others_example : no_outer_space (lit "-5"%string) /\ parse_bool (lit "true"%string) = Some true.
Proof. split; [apply (print_int_space (fun _ _ => 0) (fun _ => None) (fun s => (s, s)) (fun s => (0, s)) (-5))|reflexivity]. Qed.
