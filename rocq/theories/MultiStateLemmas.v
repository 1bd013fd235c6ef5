(** Statements of C113 in the form of its theorems, with examples. *)
From Coq Require Import ZArith List Bool Lia.
From Verif Require Import Bytes Prim Value IndexRange Nodes DataPath MultiState MultiStateSpec MultiStateProofs.
Import ListNotations.
Open Scope Z_scope.

Lemma named_fun tb z n m : named tb z n -> named tb z m -> n = m.
Proof.
  intros (b & d & a & -> & N) (b' & d' & a' & E & N'). revert b' E N'. induction b as [|[[y k] e] r IH]; intros [|[[y' k'] e'] r'] E N'; cbn in E.
  - now injection E.
  - injection E as <- _ _ _. exfalso. exact (N' z k' e' (or_introl eq_refl) eq_refl).
  - injection E as -> _ _ _. exfalso. exact (N z k e (or_introl eq_refl) eq_refl).
  - injection E as <- <- <- E. apply (IH (fun x m f I => N x m f (or_intror I)) r' E (fun x m f I => N' x m f (or_intror I))).
Qed.
Definition as_int (v : val) : option Z :=
  match v with
  | VScalar (KB BByte) (VB BByte z) | VScalar (KB BUInt16) (VB BUInt16 z) | VScalar (KB BUInt32) (VB BUInt32 z)
  | VScalar (KB BUInt64) (VB BUInt64 z) | VScalar (KB BSByte) (VB BSByte z) | VScalar (KB BInt16) (VB BInt16 z)
  | VScalar (KB BInt32) (VB BInt32 z) | VScalar (KB BInt64) (VB BInt64 z) => Some z
  | _ => None
  end.
Definition as_text (v : val) : option ltext := match v with VScalar (KB BLText) (VB BLText n) => Some n | _ => None end.
Lemma as_int_ok v z : holds_int v z -> as_int v = Some z.
Proof. intros H. destruct H; reflexivity. Qed.
Lemma holds_fun v z y : holds_int v z -> holds_int v y -> z = y.
Proof. intros H G. pose proof (as_int_ok _ _ H) as A. rewrite (as_int_ok _ _ G) in A. now injection A. Qed.
Lemma named_listed tb z n : named tb z n -> ~ unlisted tb z.
Proof. intros (b & d & a & -> & _) U. apply (U z n d); [|reflexivity]. apply in_or_app. right. now left. Qed.

Lemma unlisted_stays et wild s d t tb z : s_enum s = enum_values et tb -> holds_int (d_value d) z -> - 2 ^ 63 <= z < 2 ^ 63 -> unlisted tb z ->
  write_state et wild s d t = (mkStates d (s_text s) (s_enum s), Answered 0) /\ ~ agree tb (mkStates d (s_text s) (s_enum s)).
Proof.
  intros E H R U. split; [eapply write_unlisted; eauto|]. intros (y & n & G & N & _). cbn in G.
  rewrite <- (holds_fun _ _ _ H G) in N. exact (named_listed _ _ _ N U).
Qed.
Lemma no_number_no_int v z : no_number v -> ~ holds_int v z.
Proof. intros N H. destruct H; exact N. Qed.
Lemma no_number_stays et wild s d t tb : no_number (d_value d) ->
  write_state et wild s d t = (mkStates d (s_text s) (s_enum s), Answered 0) /\ ~ agree tb (mkStates d (s_text s) (s_enum s)).
Proof. intros N. split; [now apply write_no_number|]. intros (y & n & G & _). exact (no_number_no_int _ _ N G). Qed.
Lemma wraps_wrong et wild s d t tb z name : s_enum s = enum_values et tb -> holds_int (d_value d) z -> 2 ^ 63 <= z < 2 ^ 64 ->
  named tb (z - 2 ^ 64) name ->
  write_state et wild s d t = (mkStates d (text_value name t) (s_enum s), Answered 0).
Proof. apply write_wraps. Qed.

Lemma range_ignored et wild s d range t tb z name : s_enum s = enum_values et tb -> holds_int (d_value d) z ->
  - 2 ^ 63 <= z < 2 ^ 63 -> named tb z name ->
  write_request et wild s (mkReq d range) t = (mkStates d (text_value name t) (s_enum s), Answered 0).
Proof. apply write_listed. Qed.

Lemma mixed et wild s tb d1 d2 z1 z2 n1 n2 : s_enum s = enum_values et tb ->
  holds_int (d_value d1) z1 -> - 2 ^ 63 <= z1 < 2 ^ 63 -> named tb z1 n1 ->
  holds_int (d_value d2) z2 -> - 2 ^ 63 <= z2 < 2 ^ 63 -> named tb z2 n2 -> n1 <> n2 ->
  exists schedule s', interleave et wild s [Asked d1; Asked d2] schedule = (s', [Answered 0; Answered 0]) /\
    s_value s' = d1 /\ d_value (s_text s') = VScalar (KB BLText) (VB BLText n2) /\ ~ agree tb s'.
Proof.
  intros E H1 R1 N1 H2 R2 N2 D. eexists _, _. split; [exact (two_writes et wild s tb d1 d2 z1 z2 n1 n2 no_time E H1 R1 N1 H2 R2 N2)|].
  split; [reflexivity|]. split; [reflexivity|]. intros (y & n & G & N & T). cbn in G, T. apply (f_equal as_text) in T. cbn in T. injection T as <-.
  rewrite <- (holds_fun _ _ _ H1 G) in N. exact (D (named_fun _ _ _ _ N1 N)).
Qed.

(** not a variable: the first property of this name decides *)
Lemma property_hidden sp start name id : first_target sp start 46 name id -> ~ is_variable_in sp id -> find_property sp start name = None.
Proof.
  intros T V. destruct (find_property sp start name) as [i|] eqn:F; [|reflexivity]. exfalso. apply find_property_iff in F as [T' V'].
  apply (find_named_iff sp 46 name id (nd_refs start)) in T. apply (find_named_iff sp 46 name i (nd_refs start)) in T'.
  rewrite T in T'. injection T' as <-. exact (V V').
Qed.

(** ** Examples *)
Definition lt (z : Z) : ltext := mkLT [byte_of_Z z] [].
Definition ex_table : table := [(0, lt 79, lt 1); (1, lt 80, lt 1); (-1, lt 81, lt 1); (2, lt 82, lt 1)].
Definition dv (v : val) : dval := mkDV v 0 (mkTime 5 0) 0 (mkTime 5 0) 0.
Definition i32 (z : Z) : val := VScalar (KB BInt32) (VB BInt32 z).
Definition u64 (z : Z) : val := VScalar (KB BUInt64) (VB BUInt64 z).
Definition ex_states : states := mkStates (dv (i32 0)) (text_value (lt 79) (mkTime 3 0)) (enum_values 9 ex_table).

Example ex_named : named ex_table (-1) (lt 81).
Proof. exists [(0, lt 79, lt 1); (1, lt 80, lt 1)], (lt 1), [(2, lt 82, lt 1)]. split; [reflexivity|]. intros y n d [[= <- _ _]|[[= <- _ _]|[]]]; discriminate. Qed.
Example ex_named_one : named ex_table 1 (lt 80).
Proof. exists [(0, lt 79, lt 1)], (lt 1), [(-1, lt 81, lt 1); (2, lt 82, lt 1)]. split; [reflexivity|]. intros y n d [[= <- _ _]|[]]; discriminate. Qed.
Example ex_listed : listed_write ex_table (dv (i32 (-1)), mkTime 8 0).
Proof. exists (-1), (lt 81). split; [constructor; lia|]. split; [lia|exact ex_named]. Qed.
Example ex_history : write_states 9 (fun _ => 0) ex_states [(dv (i32 1), mkTime 7 0); (dv (i32 (-1)), mkTime 8 0)] =
  Some (mkStates (dv (i32 (-1))) (text_value (lt 81) (mkTime 8 0)) (enum_values 9 ex_table)).
Proof. vm_compute. reflexivity. Qed.
Example ex_unlisted : unlisted ex_table 7.
Proof. intros y n d [[= <- _ _]|[[= <- _ _]|[[= <- _ _]|[[= <- _ _]|[]]]]]; discriminate. Qed.
Example ex_unlisted_write : write_state 9 (fun _ => 0) ex_states (dv (i32 7)) (mkTime 8 0) =
  (mkStates (dv (i32 7)) (text_value (lt 79) (mkTime 3 0)) (enum_values 9 ex_table), Answered 0).
Proof. vm_compute. reflexivity. Qed.
Example ex_null : no_number VNil /\ no_number (VScalar (KB BString) (VB BString [])).
Proof. split; exact Logic.I. Qed.
Example ex_wrap : holds_int (u64 (2 ^ 64 - 1)) (2 ^ 64 - 1) /\ named ex_table (2 ^ 64 - 1 - 2 ^ 64) (lt 81).
Proof. split; [constructor; lia|exact ex_named]. Qed.

Definition ex_var : kind := KVariable (mkVar (mkSt GNil 0) 0 (-1) 3 false false None None).
Definition ex_start : node := mkNode ex_var None [mkRef 46 true 14; mkRef 46 false 99; mkRef 46 false 11; mkRef 46 false 12; mkRef 46 false 13; mkRef 46 false 14] 100 (fun _ => GNil).
Definition ex_space : space := fun i =>
  if i =? 11 then Some (mkNode ex_var None [] 101 (fun _ => GNil))
  else if i =? 12 then Some (mkNode ex_var None [] 102 (fun _ => GNil))
  else if i =? 13 then Some (mkNode KObject None [] 103 (fun _ => GNil))
  else if i =? 14 then Some (mkNode ex_var None [] 103 (fun _ => GNil))
  else None.
Example ex_behavior : set_behavior ex_space ex_start 101 102 = inl (11, 12) /\ has_property_named ex_space ex_start 101 11.
Proof. split; [vm_compute; reflexivity|]. apply find_property_iff. vm_compute. reflexivity. Qed.
Example ex_hidden : first_target ex_space ex_start 46 103 13 /\ ~ is_variable_in ex_space 13 /\ find_property ex_space ex_start 103 = None.
Proof.
  split; [apply (find_named_iff ex_space 46 103 13 (nd_refs ex_start)); vm_compute; reflexivity|].
  split; [intros (n & v & [= <-] & K); discriminate K|vm_compute; reflexivity].
Qed.
(** the Double -1.5 and the Float -1.5: the name of -1 *)
Example ex_minus_float : float_bits 52 11 1 1023 (2 ^ 51) = 0xBFF8000000000000 /\ float_bits 23 8 1 127 (2 ^ 22) = 0xBFC00000 /\
  holds_float (VScalar (KB BDouble) (VB BDouble 0xBFF8000000000000)) (-1) /\ holds_float (VScalar (KB BFloat) (VB BFloat 0xBFC00000)) (-1).
Proof.
  repeat split; try reflexivity.
  - apply (hf_double 1 1023 (2 ^ 51) (-1)); [unfold normal_float; lia|]. exists 1. split; [reflexivity|]. cbn. lia.
  - apply (hf_float 1 127 (2 ^ 22) (-1)); [unfold normal_float; lia|]. exists 1. split; [reflexivity|]. cbn. lia.
Qed.
