(** C113. Variables of type MultiStateValueDiscreteType show the text of their value. *)
From Coq Require Import ZArith List Bool.
From Verif Require Import Bytes Prim Value Nodes DataPath MultiState MultiStateSpec MultiStateProofs MultiStateLemmas.
Import ListNotations.
Open Scope Z_scope.

(** After the write of a listed value the variable has exactly what was written, and ValueAsText its name *)
Theorem c113_listed_partial : forall enum_type wild s d t tb z name,
  s_enum s = enum_values enum_type tb -> holds_int (d_value d) z -> - 2 ^ 63 <= z < 2 ^ 63 -> named tb z name ->
  write_state enum_type wild s d t = (mkStates d (text_value name t) (s_enum s), Answered 0).
Proof. exact write_listed. Qed.
Print Assumptions c113_listed_partial.

(** Any history of such writes ends with the last value and its name *)
Theorem c113_history_partial : forall enum_type wild tb l x s,
  s_enum s = enum_values enum_type tb -> Forall (listed_write tb) (l ++ [x]) ->
  exists s', write_states enum_type wild s (l ++ [x]) = Some s' /\ s_value s' = fst x /\ s_enum s' = s_enum s /\ agree tb s'.
Proof. exact writes_agree. Qed.
Print Assumptions c113_history_partial.

(** With a proper table every write, of anything, is answered Good and stored *)
Theorem c113_answered : forall enum_type wild s d t tb, s_enum s = enum_values enum_type tb ->
  exists s', write_state enum_type wild s d t = (s', Answered 0) /\ s_value s' = d /\ s_enum s' = s_enum s.
Proof. exact write_answered. Qed.
Print Assumptions c113_answered.

(** Values outside the table are not refused: they are stored, the text stays that of the value before *)
Theorem c113_unlisted_refuted : forall enum_type wild s d t tb z,
  s_enum s = enum_values enum_type tb -> holds_int (d_value d) z -> - 2 ^ 63 <= z < 2 ^ 63 -> unlisted tb z ->
  write_state enum_type wild s d t = (mkStates d (s_text s) (s_enum s), Answered 0) /\ ~ agree tb (mkStates d (s_text s) (s_enum s)).
Proof. exact unlisted_stays. Qed.
Print Assumptions c113_unlisted_refuted.

(** So are null, strings and all else that is no number *)
Theorem c113_no_number_refuted : forall enum_type wild s d t tb, no_number (d_value d) ->
  write_state enum_type wild s d t = (mkStates d (s_text s) (s_enum s), Answered 0) /\ ~ agree tb (mkStates d (s_text s) (s_enum s)).
Proof. exact no_number_stays. Qed.
Print Assumptions c113_no_number_refuted.

(** A UInt64 of 2^63 or more takes the name of a negative value *)
Theorem c113_wrap_refuted : forall enum_type wild s d t tb z name,
  s_enum s = enum_values enum_type tb -> holds_int (d_value d) z -> 2 ^ 63 <= z < 2 ^ 64 -> named tb (z - 2 ^ 64) name ->
  write_state enum_type wild s d t = (mkStates d (text_value name t) (s_enum s), Answered 0).
Proof. exact wraps_wrong. Qed.
Print Assumptions c113_wrap_refuted.

(** The Double 2.5 takes the name of 2 *)
Theorem c113_fraction_refuted : forall enum_type wild s d t tb name,
  s_enum s = enum_values enum_type tb -> d_value d = VScalar (KB BDouble) (VB BDouble 0x4004000000000000) -> named tb 2 name ->
  write_state enum_type wild s d t = (mkStates d (text_value name t) (s_enum s), Answered 0).
Proof. exact write_fraction. Qed.
Print Assumptions c113_fraction_refuted.

(** Every normal Float and Double, of either sign, takes the name of the integer left without its fraction *)
Theorem c113_floats : forall enum_type wild s d t tb z name,
  s_enum s = enum_values enum_type tb -> holds_float (d_value d) z -> - 2 ^ 63 <= z < 2 ^ 63 -> named tb z name ->
  write_state enum_type wild s d t = (mkStates d (text_value name t) (s_enum s), Answered 0).
Proof. exact write_float. Qed.
Print Assumptions c113_floats.

(** The index range is ignored, whatever it is *)
Theorem c113_range_refuted : forall enum_type wild s d range t tb z name,
  s_enum s = enum_values enum_type tb -> holds_int (d_value d) z -> - 2 ^ 63 <= z < 2 ^ 63 -> named tb z name ->
  write_request enum_type wild s (mkReq d range) t = (mkStates d (text_value name t) (s_enum s), Answered 0).
Proof. exact range_ignored. Qed.
Print Assumptions c113_range_refuted.

(** Any integer ends the process while EnumValues has no value, or if one of its elements is null *)
Theorem c113_panic_null_refuted : forall enum_type wild s d t z,
  holds_int (d_value d) z -> s_enum s = VNil -> snd (write_state enum_type wild s d t) = Panicked.
Proof. exact panics_null. Qed.
Print Assumptions c113_panic_null_refuted.

Theorem c113_panic_element_refuted : forall enum_type wild s d t z l,
  holds_int (d_value d) z -> s_enum s = VArr KExt l -> In VExtNil l -> snd (write_state enum_type wild s d t) = Panicked.
Proof. exact panics_element. Qed.
Print Assumptions c113_panic_element_refuted.

(** Two writes at the same time, both answered Good, can leave the value of one with the text of the other *)
Theorem c113_concurrent_refuted : forall enum_type wild s tb d1 d2 z1 z2 n1 n2,
  s_enum s = enum_values enum_type tb ->
  holds_int (d_value d1) z1 -> - 2 ^ 63 <= z1 < 2 ^ 63 -> named tb z1 n1 ->
  holds_int (d_value d2) z2 -> - 2 ^ 63 <= z2 < 2 ^ 63 -> named tb z2 n2 -> n1 <> n2 ->
  exists schedule s', interleave enum_type wild s [Asked d1; Asked d2] schedule = (s', [Answered 0; Answered 0]) /\
    s_value s' = d1 /\ d_value (s_text s') = VScalar (KB BLText) (VB BLText n2) /\ ~ agree tb s'.
Proof. exact mixed. Qed.
Print Assumptions c113_concurrent_refuted.

(** The handler can be installed exactly if the node has both properties *)
Theorem c113_behavior : forall sp start enum_name text_name e t, set_behavior sp start enum_name text_name = inl (e, t) <->
  has_property_named sp start enum_name e /\ has_property_named sp start text_name t.
Proof. exact behavior_iff. Qed.
Print Assumptions c113_behavior.

Theorem c113_behavior_fails : forall sp start enum_name text_name status, set_behavior sp start enum_name text_name = inr status ->
  status = 0x80340000 /\ ~ exists e t, has_property_named sp start enum_name e /\ has_property_named sp start text_name t.
Proof. exact behavior_fails. Qed.
Print Assumptions c113_behavior_fails.

(** FindProperty and FindComponent give the first forward reference with the name *)
Theorem c113_find_property : forall sp start name id, find_property sp start name = Some id <-> has_property_named sp start name id.
Proof. exact find_property_iff. Qed.
Print Assumptions c113_find_property.

Theorem c113_find_component : forall sp start name id, find_component sp start name = Some id <-> first_target sp start 47 name id.
Proof. exact find_component_iff. Qed.
Print Assumptions c113_find_component.

(** A property that is no variable hides the ones behind it *)
Theorem c113_hidden_refuted : forall sp start name id, first_target sp start 46 name id -> ~ is_variable_in sp id ->
  find_property sp start name = None.
Proof. exact property_hidden. Qed.
Print Assumptions c113_hidden_refuted.

Theorem c113_find_object : forall sp id, find_object sp id = Some id <-> is_object_in sp id.
Proof. exact find_object_iff. Qed.
Print Assumptions c113_find_object.
Theorem c113_find_variable : forall sp id, find_variable sp id = Some id <-> is_variable_in sp id.
Proof. exact find_variable_iff. Qed.
Print Assumptions c113_find_variable.
Theorem c113_find_method : forall sp id, find_method sp id = Some id <-> is_method_in sp id.
Proof. exact find_method_iff. Qed.
Print Assumptions c113_find_method.

Theorem c113_any : forall l f, any l f = true <-> exists x, In x l /\ f x = true.
Proof. exact any_iff. Qed.
Print Assumptions c113_any.
Theorem c113_contains : forall l x, contains l x = true <-> In x l.
Proof. exact contains_iff. Qed.
Print Assumptions c113_contains.
