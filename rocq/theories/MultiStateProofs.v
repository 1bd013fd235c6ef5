(** Proofs about multi-state variables. *)
From Coq Require Import ZArith List Bool Lia.
From Verif Require Import Bytes Prim Value Nodes DataPath MultiState MultiStateSpec.
Import ListNotations.
Open Scope Z_scope.

Lemma to_int64_id z : - 2 ^ 63 <= z < 2 ^ 63 -> to_int64 z = z.
Proof. intros H. unfold to_int64. rewrite Z.mod_small by lia. lia. Qed.
Lemma to_int64_wrap z : 2 ^ 63 <= z < 2 ^ 64 -> to_int64 z = z - 2 ^ 64.
Proof.
  intros H. unfold to_int64. replace (z + 2 ^ 63) with ((z - 2 ^ 63) + 1 * 2 ^ 64) by lia.
  rewrite Z.mod_add by lia. rewrite Z.mod_small by lia. lia.
Qed.

Lemma int_value_int wild v z : holds_int v z -> int_value wild v = Some (to_int64 z).
Proof. intros H. inversion H; reflexivity. Qed.

Lemma int_value_none wild v : no_number v -> int_value wild v = None.
Proof.
  destruct v as [| | | | | | |k v| | | | | | | | ]; try reflexivity.
  destruct k as [t| | | |]; try reflexivity. destruct t; cbn; intros H; contradiction || reflexivity.
Qed.

Lemma entries_table et tb : entries_of et (enum_values et tb) = Some (map (fun x => mkEntry (fst (fst x)) (snd (fst x))) tb).
Proof.
  cbn [entries_of enum_values]. induction tb as [|[[z n] d] r IH]; [reflexivity|].
  cbn [map to_entries enum_value to_entry fst snd]. rewrite Z.eqb_refl. now rewrite IH.
Qed.

Lemma find_listed tb z name : named tb z name ->
  find (fun e => e_value e =? z) (map (fun x => mkEntry (fst (fst x)) (snd (fst x))) tb) = Some (mkEntry z name).
Proof.
  intros (b & d & a & -> & N). induction b as [|[[y n] e] r IH]; cbn [map app find fst snd e_value].
  - now rewrite Z.eqb_refl.
  - destruct (Z.eqb_spec y z) as [->|_]; [exfalso; exact (N z n e (or_introl eq_refl) eq_refl)|].
    apply IH. intros x m f I. apply (N x m f). now right.
Qed.

Lemma find_unlisted tb z : unlisted tb z ->
  find (fun e => e_value e =? z) (map (fun x => mkEntry (fst (fst x)) (snd (fst x))) tb) = None.
Proof.
  intros N. induction tb as [|[[y n] e] r IH]; cbn [map find fst snd e_value]; [reflexivity|].
  destruct (Z.eqb_spec y z) as [->|_]; [exfalso; exact (N z n e (or_introl eq_refl) eq_refl)|].
  apply IH. intros x m f I. apply (N x m f). now right.
Qed.

Section Oracle.
Variable et : Z.
Variable wild : Z -> Z.

Lemma write_found s d t tb z name : s_enum s = enum_values et tb -> int_value wild (d_value d) = Some z -> named tb z name ->
  write_state et wild s d t = (mkStates d (text_value name t) (s_enum s), Answered 0).
Proof.
  intros E I N. unfold write_state. cbn [advance]. rewrite I, E, entries_table, (find_listed _ _ _ N).
  cbn [advance s_value s_text s_enum e_name]. now rewrite E.
Qed.
Lemma write_other s d t : (int_value wild (d_value d) = None \/
    exists tb z, s_enum s = enum_values et tb /\ int_value wild (d_value d) = Some z /\ unlisted tb z) ->
  write_state et wild s d t = (mkStates d (s_text s) (s_enum s), Answered 0).
Proof.
  intros [I|(tb & z & E & I & N)]; unfold write_state; cbn [advance]; rewrite I; [reflexivity|].
  rewrite E, entries_table, (find_unlisted _ _ N). cbn [advance]. now rewrite E.
Qed.

Lemma write_listed s d t tb z name : s_enum s = enum_values et tb -> holds_int (d_value d) z -> - 2 ^ 63 <= z < 2 ^ 63 ->
  named tb z name -> write_state et wild s d t = (mkStates d (text_value name t) (s_enum s), Answered 0).
Proof.
  intros E H R N. eapply write_found; eauto. rewrite (int_value_int _ _ _ H). now rewrite to_int64_id.
Qed.
Lemma write_unlisted s d t tb z : s_enum s = enum_values et tb -> holds_int (d_value d) z -> - 2 ^ 63 <= z < 2 ^ 63 ->
  unlisted tb z -> write_state et wild s d t = (mkStates d (s_text s) (s_enum s), Answered 0).
Proof.
  intros E H R N. apply write_other. right. exists tb, z. repeat split; auto.
  rewrite (int_value_int _ _ _ H). now rewrite to_int64_id.
Qed.
Lemma write_no_number s d t : no_number (d_value d) -> write_state et wild s d t = (mkStates d (s_text s) (s_enum s), Answered 0).
Proof. intros N. apply write_other. left. now apply int_value_none. Qed.

Lemma listed_dec tb z : (exists name, named tb z name) \/ unlisted tb z.
Proof.
  induction tb as [|[[y n] d] r IH]; [right; intros y n d []|].
  destruct (Z.eq_dec y z) as [->|D].
  - left. exists n, [], d, r. split; [reflexivity|intros ? ? ? []].
  - destruct IH as [(m & b & e & a & -> & N)|U].
    + left. exists m, ((y, n, d) :: b), e, a. split; [reflexivity|]. intros y' n' d' [[= -> _ _]|I]; [exact D|eauto].
    + right. intros y' n' d' [[= -> _ _]|I]; [exact D|exact (U _ _ _ I)].
Qed.
Lemma write_answered s d t tb : s_enum s = enum_values et tb ->
  exists s', write_state et wild s d t = (s', Answered 0) /\ s_value s' = d /\ s_enum s' = s_enum s.
Proof.
  intros E. destruct (int_value wild (d_value d)) as [z|] eqn:I.
  - destruct (listed_dec tb z) as [(n & N)|U].
    + rewrite (write_found _ _ _ _ _ _ E I N). eauto.
    + rewrite write_other by eauto 8. eauto.
  - rewrite write_other by auto. eauto.
Qed.

Lemma writes_agree tb : forall l x s, s_enum s = enum_values et tb -> Forall (listed_write tb) (l ++ [x]) ->
  exists s', write_states et wild s (l ++ [x]) = Some s' /\ s_value s' = fst x /\ s_enum s' = s_enum s /\ agree tb s'.
Proof.
  induction l as [|[d t] r IH]; intros x s E F; cbn [app] in *.
  - inversion F as [|? ? (z & n & H & R & N) _]; subst. destruct x as [d t]. cbn [write_states fst] in *.
    rewrite (write_listed _ _ t _ _ _ E H R N). eexists. split; [reflexivity|]. cbn. repeat split. exists z, n. auto.
  - inversion F as [|? ? (z & n & H & R & N) F']; subst. cbn [write_states fst] in *.
    rewrite (write_listed _ _ t _ _ _ E H R N).
    destruct (IH x (mkStates d (text_value n t) (s_enum s)) E F') as (s' & W & V & En & A). exists s'. auto.
Qed.

Lemma write_wraps s d t tb z name : s_enum s = enum_values et tb -> holds_int (d_value d) z -> 2 ^ 63 <= z < 2 ^ 64 ->
  named tb (z - 2 ^ 64) name -> write_state et wild s d t = (mkStates d (text_value name t) (s_enum s), Answered 0).
Proof. intros E H R N. eapply write_found; eauto. rewrite (int_value_int _ _ _ H). now rewrite to_int64_wrap. Qed.

Lemma truncate_half : truncate wild 52 11 0x4004000000000000 = 2.
Proof. vm_compute. reflexivity. Qed.
Lemma write_fraction s d t tb name : s_enum s = enum_values et tb ->
  d_value d = VScalar (KB BDouble) (VB BDouble 0x4004000000000000) -> named tb 2 name ->
  write_state et wild s d t = (mkStates d (text_value name t) (s_enum s), Answered 0).
Proof. intros E H N. eapply write_found; eauto. rewrite H. cbn [int_value]. now rewrite truncate_half. Qed.

Lemma truncate_normal m e sg ex frac z : 0 <= m -> 0 < e -> normal_float m e sg ex frac -> cut_off m e sg ex frac z ->
  - 2 ^ 63 <= z < 2 ^ 63 -> truncate wild m e (float_bits m e sg ex frac) = z.
Proof.
  intros Hm He (S & X & F) (a & Z1 & A) R. unfold float_bits.
  assert (P1 : 0 < 2 ^ m) by (apply Z.pow_pos_nonneg; lia). assert (P2 : 0 < 2 ^ e) by (apply Z.pow_pos_nonneg; lia).
  set (b := sg * 2 ^ (m + e) + ex * 2 ^ m + frac). unfold truncate.
  assert (D : b / 2 ^ m = sg * 2 ^ e + ex).
  { unfold b. rewrite Z.pow_add_r by lia. replace (sg * (2 ^ m * 2 ^ e) + ex * 2 ^ m + frac) with (frac + (sg * 2 ^ e + ex) * 2 ^ m) by ring.
    rewrite Z.div_add by lia. rewrite Z.div_small by lia. lia. }
  assert (E1 : Z.shiftr b (m + e) = sg).
  { rewrite Z.shiftr_div_pow2, Z.pow_add_r, <- Z.div_div, D by lia. rewrite Z.add_comm, Z.div_add by lia. rewrite Z.div_small by lia. lia. }
  assert (E2 : Z.shiftr b m mod 2 ^ e = ex).
  { rewrite Z.shiftr_div_pow2, D by lia. rewrite Z.add_comm, Z.mod_add by lia. apply Z.mod_small. lia. }
  assert (E3 : b mod 2 ^ m = frac).
  { unfold b. rewrite Z.pow_add_r by lia. replace (sg * (2 ^ m * 2 ^ e) + ex * 2 ^ m + frac) with (frac + (sg * 2 ^ e + ex) * 2 ^ m) by ring.
    rewrite Z.mod_add by lia. apply Z.mod_small. lia. }
  rewrite E1, E2, E3. replace (Z.max ex 1) with ex by lia.
  destruct (Z.eqb_spec ex 0) as [?|_]; [lia|]. destruct (Z.eqb_spec ex (2 ^ e - 1)) as [?|_]; [lia|].
  cbv zeta in A |- *. set (p := ex - (2 ^ (e - 1) - 1) - m) in *.
  replace (if 0 <=? p then (2 ^ m + frac) * 2 ^ p else (2 ^ m + frac) / 2 ^ (- p)) with a.
  - rewrite <- Z1. replace ((- 2 ^ 63 <=? z) && (z <? 2 ^ 63)) with true; [reflexivity|]. symmetry. apply andb_true_iff. split; [apply Z.leb_le|apply Z.ltb_lt]; lia.
  - destruct (Z.leb_spec 0 p); [exact A|].
    assert (0 < 2 ^ (- p)) by (apply Z.pow_pos_nonneg; lia).
    apply Z.div_unique with (2 ^ m + frac - a * 2 ^ (- p)); lia.
Qed.
Lemma write_float s d t tb z name : s_enum s = enum_values et tb -> holds_float (d_value d) z -> - 2 ^ 63 <= z < 2 ^ 63 ->
  named tb z name -> write_state et wild s d t = (mkStates d (text_value name t) (s_enum s), Answered 0).
Proof.
  intros E H R N. eapply write_found; eauto.
  inversion H as [sg ex frac z' NF C Q|sg ex frac z' NF C Q]; subst z'; cbn [int_value];
    rewrite (truncate_normal _ _ _ _ _ z) by (auto; lia); reflexivity.
Qed.

Lemma panics s d t z : holds_int (d_value d) z -> entries_of et (s_enum s) = None -> snd (write_state et wild s d t) = Panicked.
Proof. intros H E. unfold write_state. cbn [advance]. rewrite (int_value_int _ _ _ H), E. reflexivity. Qed.
Lemma panics_null s d t z : holds_int (d_value d) z -> s_enum s = VNil -> snd (write_state et wild s d t) = Panicked.
Proof. intros H E. eapply panics; [exact H|]. now rewrite E. Qed.
Lemma panics_element s d t z l : holds_int (d_value d) z -> s_enum s = VArr KExt l -> In VExtNil l -> snd (write_state et wild s d t) = Panicked.
Proof.
  intros H E I. eapply panics; [exact H|]. rewrite E. cbn [entries_of]. clear E. induction l as [|v r IH]; [destruct I|].
  cbn [to_entries]. destruct I as [->|I]; [reflexivity|]. rewrite IH by exact I. now destruct (to_entry et v).
Qed.

(** ** Two writes at the same time *)
Lemma two_writes s tb d1 d2 z1 z2 n1 n2 t : s_enum s = enum_values et tb ->
  holds_int (d_value d1) z1 -> - 2 ^ 63 <= z1 < 2 ^ 63 -> named tb z1 n1 ->
  holds_int (d_value d2) z2 -> - 2 ^ 63 <= z2 < 2 ^ 63 -> named tb z2 n2 ->
  interleave et wild s [Asked d1; Asked d2] [(0%nat, t); (0%nat, t); (0%nat, t); (1%nat, t); (1%nat, t); (1%nat, t); (1%nat, t); (0%nat, t)] =
    (mkStates d1 (text_value n2 t) (s_enum s), [Answered 0; Answered 0]).
Proof.
  intros E H1 R1 N1 H2 R2 N2.
  assert (I1 : int_value wild (d_value d1) = Some z1) by (rewrite (int_value_int _ _ _ H1), to_int64_id; auto).
  assert (I2 : int_value wild (d_value d2) = Some z2) by (rewrite (int_value_int _ _ _ H2), to_int64_id; auto).
  cbn [interleave nth_error advance]. rewrite I1, E, entries_table, (find_listed _ _ _ N1).
  cbn [interleave nth_error replace_nth advance s_enum s_value s_text e_name]. rewrite I2, ?E, entries_table, (find_listed _ _ _ N2).
  reflexivity.
Qed.
End Oracle.

(** ** Finding *)
Lemma find_variable_iff sp id : find_variable sp id = Some id <-> is_variable_in sp id.
Proof.
  unfold find_variable, find_kind, is_variable_in. split.
  - destruct (sp id) as [n|]; [|discriminate]. destruct (nd_kind n) eqn:K; try discriminate. intros _. eauto.
  - intros (n & v & -> & ->). reflexivity.
Qed.
Lemma find_kind_same is sp id i : find_kind is sp id = Some i -> i = id.
Proof. unfold find_kind. destruct (sp id) as [n|]; [|discriminate]. destruct (is _); [|discriminate]. now intros [= <-]. Qed.
Lemma find_object_iff sp id : find_object sp id = Some id <-> is_object_in sp id.
Proof.
  unfold find_object, find_kind, is_object_in. split.
  - destruct (sp id) as [n|]; [|discriminate]. destruct (nd_kind n) eqn:K; try discriminate. intros _. eauto.
  - intros (n & -> & ->). reflexivity.
Qed.
Lemma find_method_iff sp id : find_method sp id = Some id <-> is_method_in sp id.
Proof.
  unfold find_method, find_kind, is_method_in. split.
  - destruct (sp id) as [n|]; [|discriminate]. destruct (nd_kind n) eqn:K; try discriminate. intros _. eauto.
  - intros (n & e & h & -> & ->). reflexivity.
Qed.

Lemma find_named_iff sp type name id : forall refs, find_named sp type name refs = Some id <->
  exists before after, refs = before ++ mkRef type false id :: after /\ (exists n, sp id = Some n /\ nd_name n = name) /\
    forall i n, In (mkRef type false i) before -> sp i = Some n -> nd_name n <> name.
Proof.
  induction refs as [|[ty inv tg] r IH]; cbn [find_named rf_inverse rf_type rf_target].
  - split; [discriminate|]. intros (b & a & E & _). destruct b; discriminate E.
  - destruct (negb inv && (ty =? type)) eqn:C.
    + apply andb_true_iff in C as [C1 C2]. apply negb_true_iff in C1. apply Z.eqb_eq in C2. subst inv ty.
      destruct (sp tg) as [n|] eqn:S; [destruct (Z.eqb_spec (nd_name n) name) as [En|Nn]|].
      * split.
        -- intros [= ->]. exists [], r. split; [reflexivity|]. split; [eauto|]. intros i m [].
        -- intros (b & a & E & _ & F). destruct b as [|x b]; cbn in E.
           ++ injection E as -> _. reflexivity.
           ++ injection E as <- _. exfalso. exact (F tg n (or_introl eq_refl) S En).
      * rewrite IH. split; intros (b & a & E & X & F).
        -- exists (mkRef type false tg :: b), a. split; [now rewrite E|]. split; [exact X|].
           intros i m [[= <-]|I] Si; [congruence|eauto].
        -- destruct b as [|x b]; cbn in E.
           ++ injection E as -> _. destruct X as (m & Sm & Nm). congruence.
           ++ injection E as <- E. exists b, a. split; [exact E|]. split; [exact X|]. intros i m I. apply F. now right.
      * rewrite IH. split; intros (b & a & E & X & F).
        -- exists (mkRef type false tg :: b), a. split; [now rewrite E|]. split; [exact X|].
           intros i m [[= <-]|I] Si; [congruence|eauto].
        -- destruct b as [|x b]; cbn in E.
           ++ injection E as -> _. destruct X as (m & Sm & Nm). congruence.
           ++ injection E as <- E. exists b, a. split; [exact E|]. split; [exact X|]. intros i m I. apply F. now right.
    + rewrite IH. split; intros (b & a & E & X & F).
      * exists (mkRef ty inv tg :: b), a. split; [now rewrite E|]. split; [exact X|].
        intros i m [[= -> -> ->]|I] Si; [|eauto]. cbn in C. rewrite Z.eqb_refl in C. discriminate C.
      * destruct b as [|x b]; cbn in E.
        -- injection E as -> -> _ _. cbn in C. rewrite Z.eqb_refl in C. discriminate C.
        -- injection E as <- E. exists b, a. split; [exact E|]. split; [exact X|]. intros i m I. apply F. now right.
Qed.

Lemma find_component_iff sp start name id : find_component sp start name = Some id <-> first_target sp start 47 name id.
Proof. apply find_named_iff. Qed.
Lemma find_property_iff sp start name id : find_property sp start name = Some id <-> has_property_named sp start name id.
Proof.
  unfold find_property, has_property_named. split.
  - destruct (find_named _ _ _ _) as [i|] eqn:F; [|discriminate]. intros V. pose proof (find_kind_same _ _ _ _ V). subst i.
    split; [now apply find_named_iff in F|now apply find_variable_iff].
  - intros [T V]. apply (find_named_iff sp has_property name id) in T. rewrite T. now apply find_variable_iff.
Qed.

Lemma behavior_iff sp start en tn e t : set_behavior sp start en tn = inl (e, t) <->
  has_property_named sp start en e /\ has_property_named sp start tn t.
Proof.
  rewrite <- !find_property_iff. unfold set_behavior.
  destruct (find_property sp start en) as [a|]; [|split; [discriminate|intros [H _]; discriminate H]].
  destruct (find_property sp start tn) as [b|]; [|split; [discriminate|intros [_ H]; discriminate H]].
  split; [intros [= -> ->]; auto|intros [[= ->] [= ->]]; reflexivity].
Qed.
Lemma behavior_fails sp start en tn st : set_behavior sp start en tn = inr st -> st = 0x80340000 /\
  ~ exists e t, has_property_named sp start en e /\ has_property_named sp start tn t.
Proof.
  intros H. split.
  - unfold set_behavior in H. destruct (find_property sp start en); [destruct (find_property sp start tn)|]; try discriminate H; injection H as <-; reflexivity.
  - intros (e & t & X). apply behavior_iff in X. congruence.
Qed.

Lemma any_iff l f : any l f = true <-> exists x, In x l /\ f x = true.
Proof.
  induction l as [|y r IH]; cbn [any]; [split; [discriminate|intros (x & [] & _)]|].
  destruct (f y) eqn:F; [split; [intros _; exists y; split; [now left|exact F]|reflexivity]|].
  rewrite IH. split; intros (x & I & E); exists x; (split; [|exact E]); [now right|]. destruct I as [->|I]; [congruence|exact I].
Qed.
Lemma contains_iff l x : contains l x = true <-> In x l.
Proof.
  induction l as [|y r IH]; cbn [contains]; [split; [discriminate|intros []]|].
  destruct (Z.eqb_spec y x) as [->|D]; [split; [now left|reflexivity]|]. rewrite IH. split; [now right|]. now intros [E|I].
Qed.
