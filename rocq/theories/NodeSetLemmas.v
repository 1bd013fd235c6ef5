(** Loading a node set: what fails, and cases that meet the hypotheses *)
From Coq Require Import ZArith String List Bool Lia Strings.Byte.
From Verif Require Import Bytes BytesProofs CodecSpec Prim PrimSpec Value Text TextSpec TextProofs IndexRange Namespaces NodeSet NodeSetSpec NodeSetProofs.
Import ListNotations.
Open Scope Z_scope.
Ltac Zify.zify_post_hook ::= idtac.

Section Lib.
Variables (pf : Z -> bytes -> Z) (pt : bytes -> option time) (xt : bytes -> bytes * bytes) (xq : bytes -> Z * bytes) (en : nodeid -> bool).
Notation ld := (load pf pt xt xq en).

(** * Indices *)
Lemma map_uris_above snapshot uris : forall table i m table' m' k, 0 <= i -> i + zlen uris < 65536 -> i + zlen uris < k ->
  map_uris snapshot table i uris m = (table', m') -> ns_lookup m' k = ns_lookup m k.
Proof.
  unfold zlen. induction uris as [|u uris IH]; intros table i m table' m' k I0 I1 K E; cbn [map_uris] in E.
  - now injection E as <- <-.
  - cbn [length] in *. destruct (match index_from 0 u snapshot with Some k => (table, uint16 k) | None => add_uri table u end) as [t j].
    apply (IH _ _ _ _ _ k) in E; try lia. rewrite E. cbn [ns_lookup]. unfold uint16. rewrite Z.mod_small by lia. now replace (i + 1 =? k) with false by lia.
Qed.
Lemma with_ns_id n : with_ns (ns_of n) n = n.
Proof. now destruct n. Qed.
Lemma undeclared table uris n : n <> NNull -> text_nodeid n -> zlen uris < ns_of n ->
  exists table' x, ld table (mkSet uris [] [an_object (print_nodeid n) [] []]) = Fine (table', [x]) /\ in_id x = n.
Proof.
  intros NN T L. pose proof (ns_range n T). unfold load. cbn [ns_uris ns_aliases ns_nodes]. destruct (map_uris table table 0 uris []) as [table' m] eqn:E.
  assert (M : ns_lookup m (ns_of n) = None) by (apply (map_uris_above _ _ _ _ _ _ _ (ns_of n)) in E; [exact E|lia|lia|lia]).
  eexists table', _. split; [reflexivity|]. cbn [in_id an_object un_id]. rewrite (to_node_id_print [] m _ n NN T) by reflexivity.
  unfold map_ns. rewrite M. destruct (ns_of n =? 0) eqn:Z0; [unfold zlen in L; lia|]. apply with_ns_id.
Qed.
Lemma bad_index table : exists x, ld table (mkSet [] [] [an_object (lit "ns=65536;i=85"%string) [] []]) = Fine (table, [x]) /\ in_id x = NNum 0 85.
Proof. eexists. split; reflexivity. Qed.

Definition standard_table : list bytes := [opc_ua; lit "urn:app"%string].
Lemma written_plain_id n : written_id [] (print_nodeid n) n.
Proof. left. split; [reflexivity|intros []]. Qed.
Lemma written_x : written_name (mkQ 0 (lit "x"%string)) (lit "0:x"%string).
Proof. left. reflexivity. Qed.
Lemma object_written id refs xs t l : Forall2 (written_ref []) refs xs -> written_node [] (f_object id refs (mkLT t l)) (an_object (print_nodeid id) xs t).
Proof.
  intros R. split; [apply written_plain_id|]. split; [apply written_x|]. split; [reflexivity|]. split; [reflexivity|]. split; [exact R|]. split; reflexivity.
Qed.
Lemma zero_ok uris : index_ok uris 0.
Proof. exists opc_ua. left. auto. Qed.
Lemma num_ok uris x : 0 <= x < 2 ^ 32 -> id_ok uris (NNum 0 x).
Proof. intros H. split; [discriminate|]. split; [|apply zero_ok]. cbn. unfold in_u. cbn in *. lia. Qed.
Lemma x_ok uris : name_ok uris (mkQ 0 (lit "x"%string)).
Proof. split; [|apply zero_ok]. unfold text_qname, in_u. cbn. lia. Qed.

(** * Direction, escapes, labels *)
Definition dir_file : file := mkFile [] [f_object (NNum 0 70000) [mkFRef (NNum 0 35) false (NNum 0 85)] (mkLT [] [])].
Definition dir_set : uanodeset :=
  mkSet [] [] [an_object (lit "i=70000"%string) [mkXRef (lit "i=35"%string) (lit "0"%string) (lit "i=85"%string)] []].
Lemma plain_check s : existsb (Byte.eqb x26) s || existsb (Byte.eqb x3c) s || existsb (Byte.eqb x3e) s = false -> plain s.
Proof.
  intros H. apply orb_false_elim in H. destruct H as [H C]. apply orb_false_elim in H. destruct H as [A B].
  assert (G : forall c, existsb (Byte.eqb c) s = false -> ~ In c s).
  { intros c E I. assert (existsb (Byte.eqb c) s = true) by (apply existsb_exists; exists c; split; [exact I|apply byte_eqb_refl]). congruence. }
  split; [now apply G|]. split; now apply G.
Qed.
Lemma direction : written dir_file dir_set /\ file_ok dir_file /\ file_kept dir_file /\ alias_kept dir_set /\ ~ as_written (ld standard_table dir_set) dir_file.
Proof.
  split; [split; [reflexivity|]|].
  { constructor; [|constructor]. apply (object_written (NNum 0 70000)). constructor; [|constructor]. split; [left; split; [reflexivity|intros []]|].
    split; [right; right; split; [reflexivity|right; reflexivity]|]. exists (lit "i=85"%string). split; [left; split; [reflexivity|intros []]|reflexivity]. }
  split; [constructor; [|constructor]; split; [apply num_ok; lia|]; split; [apply x_ok|]; split; [constructor; [split; apply num_ok; cbn; lia|constructor]|exact I]|].
  split.
  { constructor; [|constructor]. split; [apply plain_check; reflexivity|]. split; [split; [apply plain_check; reflexivity|reflexivity]|]. split; [split; [apply plain_check; reflexivity|reflexivity]|].
    split; [|exact I]. constructor; [|constructor]. split; apply plain_check; reflexivity. }
  split; [intros a []|]. intros (t & l & E & F). vm_compute in E. injection E as <- <-.
  inversion F as [|? ? ? ? (_ & _ & _ & _ & R & _) _]; subst. inversion R as [|? ? ? ? (_ & D & _) _]; subst. discriminate D.
Qed.
Definition esc_file : file := mkFile [lit "urn:n"%string]
  [f_object (NStr 1 (lit "A&B"%string)) [] (mkLT [] []); f_object (NStr 1 (lit "C"%string)) [mkFRef (NNum 0 35) true (NStr 1 (lit "A&B"%string))] (mkLT [] [])].
Definition esc_set : uanodeset :=
  mkSet [lit "urn:n"%string] [] [an_object (lit "ns=1;s=A&B"%string) [] [];
    an_object (lit "ns=1;s=C"%string) [mkXRef (lit "i=35"%string) [] (lit "ns=1;s=A&amp;B"%string)] []].
Lemma one_ok uris u s : nth_error uris 0 = Some u -> id_ok uris (NStr 1 s).
Proof. intros H. split; [discriminate|]. split; [cbn; unfold in_u; cbn; lia|]. exists u. right. split; [cbn; lia|exact H]. Qed.
Lemma escaped : written esc_file esc_set /\ file_ok esc_file /\ ~ as_written (ld standard_table esc_set) esc_file.
Proof.
  split; [split; [reflexivity|]|].
  { constructor; [apply (object_written (NStr 1 (lit "A&B"%string))); constructor|]. constructor; [|constructor].
    apply (object_written (NStr 1 (lit "C"%string))). constructor; [|constructor]. split; [left; split; [reflexivity|intros []]|].
    split; [left; auto|]. exists (lit "ns=1;s=A&B"%string). split; [left; split; [reflexivity|intros []]|reflexivity]. }
  split.
  { constructor; [|constructor; [|constructor]]; (split; [eapply one_ok; reflexivity|]); (split; [apply x_ok|]); (split; [|exact I]); constructor; [|constructor].
    split; [apply num_ok; cbn; lia|eapply one_ok; reflexivity]. }
  intros (t & l & E & F). vm_compute in E. injection E as <- <-.
  inversion F as [|? ? ? ? _ F']; subst. inversion F' as [|? ? ? ? (_ & _ & _ & _ & R & _) _]; subst. inversion R as [|? ? ? ? (_ & _ & _ & _ & D) _]; subst.
  destruct D as [D _]. discriminate D.
Qed.
Lemma label_locale text locale : locale <> [] -> let f := mkFile [] [f_object (NNum 0 70000) [] (mkLT text locale)] in
  let s := mkSet [] [] [an_object (lit "i=70000"%string) [] text] in written f s /\ file_ok f /\ ~ as_written (ld standard_table s) f.
Proof.
  intros L f s. split; [split; [reflexivity|]; constructor; [|constructor]; apply (object_written (NNum 0 70000)); constructor|].
  split; [constructor; [|constructor]; split; [apply num_ok; lia|]; split; [apply x_ok|]; split; [constructor|exact I]|].
  intros (t & l & E & F). subst s f. cbn in E. injection E as <- <-. inversion F as [|? ? ? ? (_ & _ & D & _) _]; subst. cbn in D. injection D as _ D. congruence.
Qed.
(** * Access level *)
Lemma parse_digits_big max : forall s acc v, parse_digits (2 ^ 64) acc s = NumOk v -> max < v -> acc <= max -> 0 <= max -> exists r, parse_digits max acc s = r /\ r = NumRange.
Proof.
  induction s as [|b s IH]; intros acc v H V A M; cbn [parse_digits] in *.
  - injection H as <-. lia.
  - destruct (digit_val b) as [d|]; [|discriminate]. destruct (2 ^ 64 <? acc * 10 + d); [discriminate|]. destruct (max <? acc * 10 + d) eqn:E; [eauto|].
    apply (IH _ v); try assumption. lia.
Qed.
Lemma access_ex a : 256 <= a < 2 ^ 32 -> let f := mkFile [] [f_variable (NNum 0 70000) (NNum 0 12) FNone a] in
  let s := mkSet [] [] [a_variable (lit "i=70000"%string) (lit "i=12"%string) [] no_value (print_dec a)] in
  written f s /\ file_ok f /\ exists x v t r d i h, ld standard_table s = Fine (standard_table, [x]) /\ in_kind x = IVariable v t r d 1 i h.
Proof.
  intros B f s. split; [split; [reflexivity|]; constructor; [|constructor]|].
  { split; [apply (written_plain_id (NNum 0 70000))|]. split; [apply written_x|]. split; [reflexivity|]. split; [reflexivity|]. split; [constructor|].
    split; [reflexivity|]. split; [|split; [now left|split; reflexivity]]. split; [apply (written_plain_id (NNum 0 12))|]. split; [right; auto|]. split; [reflexivity|]. repeat split. }
  split.
  { constructor; [|constructor]. split; [apply num_ok; lia|]. split; [apply x_ok|]. split; [constructor|]. split; [|cbn in *; lia]. split; [apply num_ok; cbn; lia|]. split; [cbn; lia|constructor]. }
  assert (P : to_uint8 (print_dec a) 1 = 1).
  { unfold to_uint8, parse_uint. destruct (print_dec_cons a) as (c & r & E). rewrite E, <- E.
    destruct (parse_digits_big 255 (print_dec a) 0 a) as (q & Q & ->); try lia.
    - unfold print_dec. apply parse_dec_digits; [|change (Z.of_nat 20) with 20|]; lia.
    - change (2 ^ 8 - 1) with 255. now rewrite Q. }
  eexists _, _, _, _, _, _, _. split; [reflexivity|]. cbn [in_kind a_variable un_access]. rewrite P. reflexivity.
Qed.
(** * Values *)
Lemma bytestring b : let f := mkFile [] [f_variable (NNum 0 70000) (NNum 0 15) (FOne BByteString b) 1] in
  let s := mkSet [] [] [a_variable (lit "i=70000"%string) (lit "i=15"%string) [] (only XByteString (b64_enc b)) []] in
  written f s /\ file_ok f /\ exists x t r d a i h, ld standard_table s = Fine (standard_table, [x]) /\
    in_kind x = IVariable (VScalar (KB BByteString) (VB BByteString (b64_enc b))) t r d a i h.
Proof.
  intros f s. split; [split; [reflexivity|]; constructor; [|constructor]|].
  { split; [apply (written_plain_id (NNum 0 70000))|]. split; [apply written_x|]. split; [reflexivity|]. split; [reflexivity|]. split; [constructor|].
    split; [reflexivity|]. split; [|split; [right; auto|split; reflexivity]]. split; [apply (written_plain_id (NNum 0 15))|]. split; [right; auto|]. split; [reflexivity|].
    split; [reflexivity|]. intros k K. destruct k; try reflexivity. exfalso. apply K. reflexivity. }
  split.
  { constructor; [|constructor]. split; [apply num_ok; lia|]. split; [apply x_ok|]. split; [constructor|]. split; [|cbn in *; lia]. split; [apply num_ok; cbn; lia|]. split; [cbn; lia|constructor]. }
  eexists _, _, _, _, _, _, _. split; reflexivity.
Qed.
Lemma value_index u table : nth_error table 1 <> Some u -> zlen table = 2 ->
  exists table' x j t r d a i h,
    ld table (mkSet [u] [] [a_variable (lit "ns=1;i=5"%string) (lit "i=17"%string) [] (only XNodeId (lit "ns=1;i=5"%string)) []]) = Fine (table', [x]) /\
    in_id x = NNum j 5 /\ server_uri table' j u /\
    in_kind x = IVariable (VScalar (KB BNodeId) (VB BNodeId (NNum 1 5))) t r d a i h /\ ~ server_uri table' 1 u.
Proof.
  intros N L. destruct table as [|a [|b [|c table]]]; unfold zlen in L; cbn [length] in L; try lia. cbn in N. clear L.
  unfold load. cbn [ns_uris ns_aliases ns_nodes map_uris index_from].
  assert (B : bytes_eqb b u = false) by (destruct (bytes_eqb b u) eqn:E; [|reflexivity]; apply bytes_eqb_eq in E; congruence). rewrite B.
  destruct (bytes_eqb a u) eqn:A.
  - apply bytes_eqb_eq in A. eexists _, _, _, _, _, _, _, _, _. split; [reflexivity|]. cbn [in_id in_kind]. split; [reflexivity|]. split; [split; [reflexivity|cbn; congruence]|].
    split; [reflexivity|]. intros [_ S0]. change (Some b = Some u) in S0. apply N. exact S0.
  - unfold add_uri. cbn [index_from]. rewrite A, B. eexists _, _, _, _, _, _, _, _, _. split; [reflexivity|]. cbn [in_id in_kind]. split; [reflexivity|]. split; [split; [cbn; lia|reflexivity]|].
    split; [reflexivity|]. intros [_ S0]. change (Some b = Some u) in S0. apply N. exact S0.
Qed.
(** UtcTime and LocaleId *)
Lemma subtypes v : en (NNum 0 294) = false -> en (NNum 0 295) = false -> exists x y a i h,
  ld standard_table (mkSet [] [] [a_variable (lit "i=70000"%string) (lit "i=294"%string) [] (only XDateTime v) [];
    a_variable (lit "i=70001"%string) (lit "i=295"%string) [] (only XString (lit "en"%string)) []]) = Fine (standard_table, [x; y]) /\
  in_kind x = IVariable VNil (NNum 0 294) (-1) [] a i h /\ in_kind y = IVariable VNil (NNum 0 295) (-1) [] a i h.
Proof.
  intros E1 E2. eexists _, _, _, _, _. split; [|split].
  - unfold load. cbn [ns_uris ns_aliases ns_nodes map_uris to_nodes]. unfold to_node at 1.
    change (to_kind pf pt xt xq en [] [] (a_variable (lit "i=70000"%string) (lit "i=294"%string) [] (only XDateTime v) []))
      with (Some match (if en (NNum 0 294) then Fine VNil else Fine VNil) with Fine w => Fine (IVariable w (NNum 0 294) (-1) [] 1 0 false) | Panic => Panic end).
    rewrite E1. unfold to_node.
    change (to_kind pf pt xt xq en [] [] (a_variable (lit "i=70001"%string) (lit "i=295"%string) [] (only XString (lit "en"%string)) []))
      with (Some match (if en (NNum 0 295) then Fine VNil else Fine VNil) with Fine w => Fine (IVariable w (NNum 0 295) (-1) [] 1 0 false) | Panic => Panic end).
    rewrite E2. reflexivity.
  - reflexivity.
  - reflexivity.
Qed.
Lemma int32_zero : let f := mkFile [] [f_variable (NNum 0 70000) (NNum 0 6) FNone 1] in
  let s := mkSet [] [] [a_variable (lit "i=70000"%string) (lit "i=6"%string) [] no_value []] in
  written f s /\ file_ok f /\ exists x t r d a i h, ld standard_table s = Fine (standard_table, [x]) /\ in_kind x = IVariable (VScalar (KB BInt32) (VB BInt32 0)) t r d a i h.
Proof.
  intros f s. split; [split; [reflexivity|]; constructor; [|constructor]|].
  { split; [apply (written_plain_id (NNum 0 70000))|]. split; [apply written_x|]. split; [reflexivity|]. split; [reflexivity|]. split; [constructor|].
    split; [reflexivity|]. split; [|split; [right; auto|split; reflexivity]]. split; [apply (written_plain_id (NNum 0 6))|]. split; [right; auto|]. split; [reflexivity|]. repeat split. }
  split.
  { constructor; [|constructor]. split; [apply num_ok; lia|]. split; [apply x_ok|]. split; [constructor|]. split; [|cbn in *; lia]. split; [apply num_ok; cbn; lia|]. split; [cbn; lia|constructor]. }
  eexists _, _, _, _, _, _, _. split; reflexivity.
Qed.
Lemma variants contents : exists x t r d a i h,
  ld standard_table (mkSet [] [] [a_variable (lit "i=70000"%string) (lit "i=24"%string) (lit "1"%string)
    (mkUV (fun _ => None) (fun _ => None) None None (Some (map (fun c => (lit "Variant"%string, c)) contents))) []]) = Fine (standard_table, [x]) /\
  in_kind x = IVariable (VArr KVar (repeat VNil (length contents))) t r d a i h.
Proof.
  eexists _, _, _, _, _, _, _. split; [reflexivity|]. cbn [in_kind]. f_equal. f_equal. induction contents as [|c l IH]; [reflexivity|]. cbn [map length repeat]. now rewrite IH.
Qed.
(** Without the attribute DataType, whose default is BaseDataType *)
Lemma no_type uv : en NNull = false -> exists x a i h,
  ld standard_table (mkSet [] [] [a_variable (lit "i=70000"%string) [] [] uv []]) = Fine (standard_table, [x]) /\ in_kind x = IVariable VNil NNull (-1) [] a i h.
Proof.
  intros E. eexists _, _, _, _. split.
  - unfold load. cbn [ns_uris ns_aliases ns_nodes map_uris to_nodes]. unfold to_node.
    change (to_kind pf pt xt xq en [] [] (a_variable (lit "i=70000"%string) [] [] uv []))
      with (Some match (if en NNull then match uv_one uv XInt32 with Some n => Fine (one BInt32 n) | None => Fine VNil end else Fine VNil) with Fine w => Fine (IVariable w NNull (-1) [] 1 0 false) | Panic => Panic end).
    rewrite E. reflexivity.
  - reflexivity.
Qed.
(** * Panics *)
Lemma unknown_element table uris al before tag id after :
  ~ In tag (map lit ["UAObject"; "UAVariable"; "UAMethod"; "UAObjectType"; "UAVariableType"; "UAReferenceType"; "UADataType"; "UAView"]%string) ->
  ld table (mkSet uris al (before ++ an_element tag id :: after)) = Panic.
Proof.
  intros N. unfold load. cbn [ns_uris ns_aliases ns_nodes]. destruct (map_uris table table 0 uris []) as [t m].
  assert (P : to_nodes pf pt xt xq en al m (before ++ an_element tag id :: after) = Panic).
  { induction before as [|n before IH]; cbn [app to_nodes].
    - unfold to_node, to_kind. cbn [un_tag an_element].
      assert (G : forall s, In (lit s) (map lit ["UAObject"; "UAVariable"; "UAMethod"; "UAObjectType"; "UAVariableType"; "UAReferenceType"; "UADataType"; "UAView"]%string) -> bytes_eqb tag (lit s) = false).
      { intros s I. destruct (bytes_eqb tag (lit s)) eqn:E; [|reflexivity]. apply bytes_eqb_eq in E. subst tag. contradiction. }
      rewrite !G by (apply in_map; cbn; tauto). cbv iota zeta. reflexivity.
    - rewrite IH. destruct (to_node pf pt xt xq en al m n) as [[?|]|]; reflexivity. }
  now rewrite P.
Qed.
Lemma range_panic table e : xe_range e = None ->
  ld table (mkSet [] [] [a_variable (lit "i=70000"%string) (lit "i=884"%string) [] (mkUV (fun _ => None) (fun _ => None) (Some e) None None) []]) = Panic.
Proof.
  intros E. unfold load. cbn [ns_uris ns_aliases ns_nodes map_uris to_nodes]. unfold to_node.
  change (to_kind pf pt xt xq en [] [] (a_variable (lit "i=70000"%string) (lit "i=884"%string) [] (mkUV (fun _ => None) (fun _ => None) (Some e) None None) []))
    with (Some match range_value e with Fine w => Fine (IVariable w (NNum 0 884) (-1) [] 1 0 false) | Panic => Panic end).
  unfold range_value. rewrite E. reflexivity.
Qed.
End Lib.

(** * A file that meets the hypotheses of the theorem: a namespace that the server has at another index, an alias,
    references in both directions, values *)
Definition demo_file : file := mkFile [lit "urn:a"%string; lit "urn:app"%string]
  [mkFNode (NStr 1 (lit "Pump"%string)) (mkQ 1 (lit "Pump"%string)) (mkLT (lit "Pump"%string) []) (mkLT [] [])
     [mkFRef (NNum 0 40) true (NNum 0 58); mkFRef (NNum 0 35) false (NNum 0 85); mkFRef (NNum 0 46) true (NNum 2 7)] (FObject 1);
   mkFNode (NNum 2 7) (mkQ 0 (lit "Speed"%string)) (mkLT (lit "Speed"%string) []) (mkLT [] []) []
     (FVariable (mkFData (NNum 0 6) 1 [3] (FMany BInt32 [1; 2; 3])) 3 (Z.of_nat 0) true)].
Definition demo_set : uanodeset := mkSet [lit "urn:a"%string; lit "urn:app"%string] [(lit "Organizes"%string, lit "i=35"%string)]
  [mkUN (lit "UAObject"%string) (label (lit "Pump"%string)) (label [])
     [mkXRef (lit "i=40"%string) (lit "true"%string) (lit "i=58"%string); mkXRef (lit "Organizes"%string) (lit "false"%string) (lit "i=85"%string);
      mkXRef (lit "i=46"%string) [] (lit "ns=2;i=7"%string)]
     (lit "ns=1;s=Pump"%string) (lit "1:Pump"%string) false [] [] [] [] false 1 no_value [] 0 false [] false;
   mkUN (lit "UAVariable"%string) (label (lit "Speed"%string)) (label []) [] (lit "ns=2;i=7"%string) (lit "Speed"%string) false
     (lit "i=6"%string) (lit "1"%string) (lit "3"%string) [] false 0
     (mkUV (fun _ => None) (fun k => match k return option (list (xrep k)) with XInt32 => Some [1; 2; 3] | _ => None end) None None None)
     (lit "3"%string) 0 true [] false].
Ltac not_alias := let H := fresh in intros H; cbn in H; repeat (destruct H as [H|H]; [discriminate H|]); destruct H.
Ltac direct := left; split; [reflexivity|not_alias].
Ltac idok := split; [discriminate|]; split; [cbn; unfold in_u; cbn; lia|first [apply zero_ok|eexists; right; split; [reflexivity|reflexivity]]].
Ltac pl := apply plain_check; reflexivity.
Example demo : written demo_file demo_set /\ file_ok demo_file /\ file_kept demo_file /\ direction_kept demo_set /\ alias_kept demo_set /\
  nth_error standard_table 0 = Some opc_ua /\ zlen standard_table + zlen (f_uris demo_file) <= 65536.
Proof.
  split; [split; [reflexivity|]|].
  { constructor; [|constructor; [|constructor]].
    - split; [direct|]. split; [left; reflexivity|]. split; [reflexivity|]. split; [reflexivity|]. split; [|split; reflexivity].
      constructor; [|constructor; [|constructor; [|constructor]]].
      + split; [direct|]. split; [right; left; auto|]. exists (lit "i=58"%string). split; [direct|reflexivity].
      + split; [right; split; [left; reflexivity|]|].
        * intros x [X|[]]. now injection X as <-.
        * split; [right; right; auto|]. exists (lit "i=85"%string). split; [direct|reflexivity].
      + split; [direct|]. split; [left; auto|]. exists (lit "ns=2;i=7"%string). split; [direct|reflexivity].
    - split; [direct|]. split; [right; split; [reflexivity|split; [reflexivity|not_alias]]|]. split; [reflexivity|]. split; [reflexivity|]. split; [constructor|].
      split; [reflexivity|]. split; [|split; [left; reflexivity|split; reflexivity]]. split; [direct|]. split; [left; reflexivity|]. split; reflexivity. }
  split.
  { constructor; [|constructor; [|constructor]].
    - split; [idok|]. split; [split; [unfold text_qname, in_u; cbn; lia|eexists; right; split; [reflexivity|reflexivity]]|]. split; [|exact I].
      constructor; [|constructor; [|constructor; [|constructor]]]; split; idok.
    - split; [idok|]. split; [split; [unfold text_qname, in_u; cbn; lia|apply zero_ok]|]. split; [constructor|]. split; [|cbn; lia]. split; [idok|]. split; [cbn; lia|].
      constructor; [cbn; lia|constructor]. }
  split.
  { constructor; [|constructor; [|constructor]].
    - split; [pl|]. split; [split; [pl|reflexivity]|]. split; [split; [pl|reflexivity]|]. split; [|exact I]. repeat (constructor; [split; pl|]). constructor.
    - split; [pl|]. split; [split; [pl|reflexivity]|]. split; [split; [pl|reflexivity]|]. split; [constructor|]. split; [|split; [cbn; lia|pl]].
      split; [reflexivity|]. split; [discriminate|]. split; [repeat (constructor; [exact I|]); constructor|]. left. reflexivity. }
  split.
  { intros n r N R. destruct N as [<-|[<-|[]]]; [|destruct R]. destruct R as [<-|[<-|[<-|[]]]]; cbn; discriminate. }
  split; [intros a [<-|[]]; pl|]. split; [reflexivity|]. cbn. lia.
Qed.

(** The texts of booleans *)
Lemma among s l : existsb (bytes_eqb s) l = true <-> In s l.
Proof.
  rewrite existsb_exists. split.
  - intros (x & I & E). apply bytes_eqb_eq in E. subst x. exact I.
  - intros I. exists s. split; [exact I|]. apply bytes_eqb_eq. reflexivity.
Qed.
Lemma bool_texts s b : parse_bool s = Some b <->
  In s (map lit (if b then ["1"; "t"; "T"; "TRUE"; "true"; "True"] else ["0"; "f"; "F"; "FALSE"; "false"; "False"]))%string.
Proof.
  unfold parse_bool. set (T := existsb _ [lit "1"%string; _; _; _; _; _]). set (F := existsb _ [lit "0"%string; _; _; _; _; _]).
  assert (HT : T = true <-> In s (map lit ["1"; "t"; "T"; "TRUE"; "true"; "True"])%string) by apply among.
  assert (HF : F = true <-> In s (map lit ["0"; "f"; "F"; "FALSE"; "false"; "False"])%string) by apply among.
  assert (D : T = true -> F = true -> False).
  { intros A B. apply HT in A. apply HF in B. cbn in A, B.
    repeat (destruct A as [A|A]; [subst s; repeat (destruct B as [B|B]; [discriminate B|]); exact B|]). exact A. }
  destruct T eqn:ET; [|destruct F eqn:EF]; destruct b; split; intros H; try reflexivity; try discriminate H.
  - apply HT. reflexivity.
  - exfalso. apply D; [reflexivity|]. apply HF. exact H.
  - exfalso. apply HT in H. discriminate H.
  - apply HF. reflexivity.
  - apply HT in H. discriminate H.
  - apply HF in H. discriminate H.
Qed.
Example bool_texts_ex : parse_bool (lit "true"%string) = Some true /\ parse_bool (lit "0"%string) = Some false /\ parse_bool (lit "yes"%string) = None.
Proof. repeat split. Qed.
