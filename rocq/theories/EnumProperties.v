(** C116. Enumerations have the values of the standard, their values and the status codes the right names and texts. *)
From Coq Require Import ZArith List String.
From Verif Require Import StatusTable EnumTable Enums EnumSpec EnumLemmas.
Import ListNotations.
Open Scope Z_scope.
Open Scope string_scope.

(** The constants of each enumeration are those of the standard, but for two sets of attributes *)
Theorem c116_values_partial : forall t k, In (t, k) standard_enums -> exists cs, In (t, cs) enum_constants /\
  (forall n v, ~ incomplete t n -> (In ((t ++ n)%string, v) cs <-> In (n, v) (values k))) /\
  (forall c v, In (c, v) cs -> exists n w, c = (t ++ n)%string /\ In (n, w) (values k)).
Proof. exact values_declared. Qed.
Print Assumptions c116_values_partial.

(** No other type is declared, none twice, and each has the method String *)
Theorem c116_types : map fst enum_constants = map fst standard_enums /\ map fst enum_cases = map fst standard_enums /\
  NoDup (map fst standard_enums).
Proof. exact no_more_types. Qed.
Print Assumptions c116_types.

(** The sets of the attributes of variables lack ValueRank, that of Variable also Value *)
Theorem c116_attributes_refuted : exists cs k v w,
  In ("NodeAttributesMask", cs) enum_constants /\ In ("NodeAttributesMask", k) standard_enums /\
  In ("NodeAttributesMaskVariable", v) cs /\ In ("NodeAttributesMaskVariableType", w) cs /\
  In ("ValueRank", 2 ^ 19)%Z (values k) /\ In ("Value", 2 ^ 21)%Z (values k) /\
  Z.testbit v 19 = false /\ Z.testbit v 21 = false /\ Z.testbit w 19 = false.
Proof. exact mask_incomplete. Qed.
Print Assumptions c116_attributes_refuted.

(** String of a declared value is the name of its constant without that of the type *)
Theorem c116_names : forall t cs n v, In (t, cs) enum_constants -> In ((t ++ n)%string, v) cs -> enum_string t v = Some n.
Proof. exact names. Qed.
Print Assumptions c116_names.

(** Of any other number it is empty *)
Theorem c116_unknown : forall t cs v, In (t, cs) enum_constants -> (forall c, ~ In (c, v) cs) -> enum_string t v = Some "".
Proof. exact unknown. Qed.
Print Assumptions c116_unknown.

(** A name stands for one value *)
Theorem c116_injective : forall t cs v w n, In (t, cs) enum_constants ->
  enum_string t v = Some n -> enum_string t w = Some n -> n <> "" -> v = w.
Proof. exact injective. Qed.
Print Assumptions c116_injective.

(** Sets of two flags have no name, in any of the types of flags that has no names for sets *)
Theorem c116_sets_refuted : forall t empty bits i j,
  In (t, Flags empty bits []) standard_enums -> (i < List.length bits)%nat -> (j < List.length bits)%nat -> i <> j ->
  enum_string t (2 ^ Z.of_nat i + 2 ^ Z.of_nat j) = Some "".
Proof. exact pairs. Qed.
Print Assumptions c116_sets_refuted.

(** Each declared status code has a text of its own case *)
Theorem c116_texts : forall name c, In (name, c) status_table ->
  exists text, In (name, text) status_texts /\ status_error c = text /\ text <> status_default.
Proof. exact texts. Qed.
Print Assumptions c116_texts.

(** All others are unknown *)
Theorem c116_no_text : forall c, (forall name, ~ In (name, c) status_table) -> status_error c = status_default.
Proof. exact no_text. Qed.
Print Assumptions c116_no_text.

(** So is every code with flag or info bits, whatever its severity and subcode *)
Theorem c116_info_refuted : forall c, Z.land c 0xFFFF <> 0 -> status_error c = status_default.
Proof. exact info. Qed.
Print Assumptions c116_info_refuted.

(** The text does not tell the good and the bad code for no data apart, *)
Theorem c116_same_text_refuted : exists good bad, In ("GoodNoData", good) status_table /\ In ("BadNoData", bad) status_table /\
  good <> bad /\ status_error good = status_error bad.
Proof. exact same_text. Qed.
Print Assumptions c116_same_text_refuted.

(** but all codes outside two pairs *)
Theorem c116_distinct_partial : forall a c b d, In (a, c) status_table -> In (b, d) status_table ->
  status_error c = status_error d -> c = d \/ shared a b \/ shared b a.
Proof. exact sharing. Qed.
Print Assumptions c116_distinct_partial.
