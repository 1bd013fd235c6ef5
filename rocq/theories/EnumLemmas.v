(** The lemmas behind EnumProperties.v, and examples. *)
From Coq Require Import ZArith List String Bool Lia.
From Verif Require Import StatusTable EnumTable Enums EnumSpec.
Import ListNotations.
Open Scope Z_scope.
Open Scope string_scope.
Open Scope list_scope.

Definition pair_eqb (a b : string * Z) : bool := String.eqb (fst a) (fst b) && (snd a =? snd b)%Z.
Lemma pair_eqb_eq a b : pair_eqb a b = true <-> a = b.
Proof.
  destruct a as [n v], b as [m w]. unfold pair_eqb. cbn [fst snd]. rewrite andb_true_iff, String.eqb_eq, Z.eqb_eq.
  split; [intros [-> ->]; reflexivity|intros [= -> ->]; auto].
Qed.
Definition has (l : list (string * Z)) (x : string * Z) : bool := existsb (pair_eqb x) l.
Lemma has_In l x : has l x = true <-> In x l.
Proof.
  unfold has. rewrite existsb_exists. split.
  - intros (y & I & Q). apply pair_eqb_eq in Q. now subst.
  - intros I. exists x. split; [exact I|]. now apply pair_eqb_eq.
Qed.
Definition incompleteb (type name : string) : bool :=
  String.eqb type "NodeAttributesMask" && (String.eqb name "Variable" || String.eqb name "VariableType").
Lemma incompleteb_ok t n : incompleteb t n = true -> incomplete t n.
Proof. unfold incompleteb, incomplete. now rewrite andb_true_iff, orb_true_iff, !String.eqb_eq. Qed.

(** ** Values *)
Definition one_value (t : string) (cs vs : list (string * Z)) : bool :=
  forallb (fun x => incompleteb t (fst x) || has cs ((t ++ fst x)%string, snd x)) vs &&
  forallb (fun c => existsb (fun x => String.eqb (fst c) (t ++ fst x)%string && (incompleteb t (fst x) || (snd c =? snd x)%Z)) vs) cs.
Definition types_check : bool :=
  forallb (fun e => existsb (fun c => String.eqb (fst c) (fst e) && one_value (fst e) (snd c) (values (snd e))) enum_constants) standard_enums.
Lemma types_check_ok : types_check = true. Proof. vm_compute. reflexivity. Qed.

Lemma append_inj t a b : (t ++ a = t ++ b)%string -> a = b.
Proof. induction t as [|x t IH]; cbn; [auto|]. intros [= H]. auto. Qed.

Lemma values_declared t k : In (t, k) standard_enums -> exists cs, In (t, cs) enum_constants /\
  (forall n v, ~ incomplete t n -> (In ((t ++ n)%string, v) cs <-> In (n, v) (values k))) /\
  (forall c v, In (c, v) cs -> exists n w, c = (t ++ n)%string /\ In (n, w) (values k)).
Proof.
  intros H. pose proof (proj1 (forallb_forall _ _) types_check_ok _ H) as C. cbn [fst snd] in C.
  apply existsb_exists in C. destruct C as ([t' cs] & I & Q). cbn [fst snd] in Q. apply andb_true_iff in Q. destruct Q as [Q C].
  apply String.eqb_eq in Q. subst t'. exists cs. split; [exact I|]. unfold one_value in C. apply andb_true_iff in C. destruct C as [A B].
  pose proof (proj1 (forallb_forall _ _) A) as A'. pose proof (proj1 (forallb_forall _ _) B) as B'. cbv beta in A', B'. split.
  - intros n v N. split; intros J.
    + specialize (B' _ J). apply existsb_exists in B'. destruct B' as ([m w] & M & Q). cbn [fst snd] in Q.
      apply andb_true_iff in Q. destruct Q as [Q R]. apply String.eqb_eq in Q. apply append_inj in Q. subst m.
      apply orb_true_iff in R. destruct R as [R|R]; [apply incompleteb_ok in R; contradiction|]. apply Z.eqb_eq in R. now subst.
    + specialize (A' _ J). cbn [fst snd] in A'. apply orb_true_iff in A'. destruct A' as [R|R]; [apply incompleteb_ok in R; contradiction|].
      now apply has_In in R.
  - intros c v J. specialize (B' _ J). apply existsb_exists in B'. destruct B' as ([m w] & M & Q). cbn [fst snd] in Q.
    apply andb_true_iff in Q. destruct Q as [Q _]. apply String.eqb_eq in Q. exists m, w. auto.
Qed.
Lemma no_more_types : map fst enum_constants = map fst standard_enums /\ map fst enum_cases = map fst standard_enums /\ NoDup (map fst standard_enums).
Proof.
  split; [vm_compute; reflexivity|]. split; [vm_compute; reflexivity|].
  assert (H : forall l : list string, (fix nd l := match l with [] => true | x :: r => negb (existsb (String.eqb x) r) && nd r end) l = true -> NoDup l).
  { induction l as [|x r IH]; intros Q; constructor; apply andb_true_iff in Q; destruct Q as [A B]; [|apply IH; exact B].
    intros I. apply negb_true_iff in A. rewrite <- not_true_iff_false in A. apply A. apply existsb_exists. exists x. split; [exact I|apply String.eqb_refl]. }
  apply H. vm_compute. reflexivity.
Qed.

Lemma mask_incomplete : exists cs k v w,
  In ("NodeAttributesMask", cs) enum_constants /\ In ("NodeAttributesMask", k) standard_enums /\
  In ("NodeAttributesMaskVariable", v) cs /\ In ("NodeAttributesMaskVariableType", w) cs /\
  In ("ValueRank", 2 ^ 19)%Z (values k) /\ In ("Value", 2 ^ 21)%Z (values k) /\
  Z.testbit v 19 = false /\ Z.testbit v 21 = false /\ Z.testbit w 19 = false.
Proof.
  destruct (find (fun e => String.eqb (fst e) "NodeAttributesMask") enum_constants) as [[t cs]|] eqn:F; [|vm_compute in F; discriminate].
  destruct (find (fun e => String.eqb (fst e) "NodeAttributesMask") standard_enums) as [[t' k]|] eqn:G; [|vm_compute in G; discriminate].
  pose proof (find_some _ _ F) as [I Q]. pose proof (find_some _ _ G) as [J R]. cbn [fst] in Q, R. apply String.eqb_eq in Q, R. subst t t'.
  assert (CS : cs = snd (nth 29 enum_constants ("", []))) by (clear -F; vm_compute in F |- *; congruence).
  assert (K : k = snd (nth 29 standard_enums ("", Counted 0 []))) by (clear -G; vm_compute in G |- *; congruence).
  exists cs, k, 26571383%Z, 28600438%Z. split; [exact I|]. split; [exact J|]. subst cs k.
  repeat split; try (apply has_In; vm_compute; reflexivity); vm_compute; reflexivity.
Qed.

(** ** Names *)
Definition cases_of (t : string) : list (Z * string) := match find (fun e => String.eqb (fst e) t) enum_cases with Some (_, l) => l | None => [] end.
Definition is_name (o : option string) (n : string) : bool := match o with Some m => String.eqb m n | None => false end.
(** each constant has its name, each case its constant *)
Definition names_check : bool :=
  forallb (fun e => forallb (fun c => existsb (fun x => (fst x =? snd c)%Z && String.eqb (fst e ++ snd x)%string (fst c) && is_name (enum_string (fst e) (snd c)) (snd x) && negb (String.eqb (snd x) "")) (cases_of (fst e))) (snd e) &&
                    forallb (fun x => has (snd e) ((fst e ++ snd x)%string, fst x)) (cases_of (fst e)) &&
                    existsb (fun y => String.eqb (fst y) (fst e)) enum_cases) enum_constants.
Lemma names_check_ok : names_check = true. Proof. vm_compute. reflexivity. Qed.
Lemma names_facts t cs : In (t, cs) enum_constants ->
  (forall c v, In (c, v) cs -> exists n, c = (t ++ n)%string /\ n <> "" /\ enum_string t v = Some n) /\
  (forall v n, enum_string t v = Some n -> n <> "" -> In ((t ++ n)%string, v) cs) /\ enum_string t 0 <> None.
Proof.
  intros H. pose proof (proj1 (forallb_forall _ _) names_check_ok _ H) as C. cbn [fst snd] in C. rewrite !andb_true_iff in C.
  destruct C as [[A B] D]. pose proof (proj1 (forallb_forall _ _) A) as A'. pose proof (proj1 (forallb_forall _ _) B) as B'. cbv beta in A', B'.
  split; [|split].
  - intros c v I. specialize (A' _ I). apply existsb_exists in A'. destruct A' as ([w n] & J & Q). cbn [fst snd] in Q. rewrite !andb_true_iff in Q.
    destruct Q as [[[Q1 Q2] Q3] Q4]. apply Z.eqb_eq in Q1. apply String.eqb_eq in Q2. subst w c. exists n. split; [reflexivity|]. split.
    + intros ->. discriminate.
    + unfold is_name in Q3. destruct (enum_string t v); [|discriminate]. apply String.eqb_eq in Q3. now subst.
  - intros v n E N. unfold enum_string in E. destruct (find (fun e => String.eqb (fst e) t) enum_cases) as [[t' l]|] eqn:F; [|discriminate].
    destruct (find (fun c => (fst c =? v)%Z) l) as [[w m]|] eqn:G; [|injection E as <-; contradiction]. injection E as <-.
    apply find_some in G. destruct G as [I Q]. cbn [fst] in Q. apply Z.eqb_eq in Q. subst w.
    assert (J : In (v, m) (cases_of t)) by (unfold cases_of; rewrite F; exact I). specialize (B' _ J). cbn [fst snd] in B'. now apply has_In in B'.
  - unfold enum_string. destruct (find (fun e => String.eqb (fst e) t) enum_cases) as [[t' l]|] eqn:F.
    + destruct (find _ l) as [[w m]|]; discriminate.
    + exfalso. apply existsb_exists in D. destruct D as (y & I & Q). pose proof (find_none _ _ F _ I) as Z0. cbv beta in Z0. congruence.
Qed.

Lemma names t cs n v : In (t, cs) enum_constants -> In ((t ++ n)%string, v) cs -> enum_string t v = Some n.
Proof.
  intros H I. destruct (names_facts _ _ H) as (A & _). destruct (A _ _ I) as (m & Q & _ & E). apply append_inj in Q. now subst.
Qed.
Lemma total t cs v : In (t, cs) enum_constants -> exists n, enum_string t v = Some n.
Proof.
  intros H. destruct (names_facts _ _ H) as (_ & _ & D). unfold enum_string in *.
  destruct (find (fun e => String.eqb (fst e) t) enum_cases) as [[t' l]|]; [|contradiction].
  destruct (find (fun c => (fst c =? v)%Z) l) as [[w m]|]; eauto.
Qed.
Lemma unknown t cs v : In (t, cs) enum_constants -> (forall c, ~ In (c, v) cs) -> enum_string t v = Some "".
Proof.
  intros H N. destruct (total t cs v H) as [n E]. destruct (names_facts _ _ H) as (_ & B & _).
  destruct (String.eqb_spec n "") as [->|Q]; [exact E|]. exfalso. exact (N _ (B _ _ E Q)).
Qed.
Definition once : bool :=
  forallb (fun e => forallb (fun a => forallb (fun b => negb (String.eqb (fst a) (fst b)) || (snd a =? snd b)%Z) (snd e)) (snd e)) enum_constants.
Lemma once_ok : once = true. Proof. vm_compute. reflexivity. Qed.
Lemma injective t cs v w n : In (t, cs) enum_constants -> enum_string t v = Some n -> enum_string t w = Some n -> n <> "" -> v = w.
Proof.
  intros H E F N. destruct (names_facts _ _ H) as (_ & B & _). pose proof (B _ _ E N) as I. pose proof (B _ _ F N) as J.
  pose proof (proj1 (forallb_forall _ _) once_ok _ H) as C. cbn [snd] in C.
  pose proof (proj1 (forallb_forall _ _) C _ I) as D. cbv beta in D. pose proof (proj1 (forallb_forall _ _) D _ J) as K. cbn [fst snd] in K.
  rewrite String.eqb_refl in K. cbn in K. now apply Z.eqb_eq in K.
Qed.

(** ** Sets *)
Definition pairs_check : bool :=
  forallb (fun e => match snd e with
    | Flags _ bits [] => forallb (fun i => forallb (fun j => Nat.eqb i j || is_name (enum_string (fst e) (2 ^ Z.of_nat i + 2 ^ Z.of_nat j)%Z) "") (seq 0 (List.length bits))) (seq 0 (List.length bits))
    | _ => true end) standard_enums.
Lemma pairs_check_ok : pairs_check = true. Proof. vm_compute. reflexivity. Qed.
Lemma pairs t empty bits i j : In (t, Flags empty bits []) standard_enums -> (i < List.length bits)%nat -> (j < List.length bits)%nat -> i <> j ->
  enum_string t (2 ^ Z.of_nat i + 2 ^ Z.of_nat j) = Some "".
Proof.
  intros H I J N. pose proof (proj1 (forallb_forall _ _) pairs_check_ok _ H) as C. cbn [fst snd] in C.
  pose proof (proj1 (forallb_forall _ _) C i (proj2 (in_seq (List.length bits) 0 i) (conj (Nat.le_0_l _) I))) as D. cbv beta in D.
  pose proof (proj1 (forallb_forall _ _) D j (proj2 (in_seq (List.length bits) 0 j) (conj (Nat.le_0_l _) J))) as E. cbv beta in E.
  apply orb_true_iff in E. destruct E as [E|E]; [apply Nat.eqb_eq in E; contradiction|].
  unfold is_name in E. destruct (enum_string t _) as [m|]; [|discriminate]. apply String.eqb_eq in E. now subst.
Qed.

(** ** Texts of status codes *)
(** the same with the constants looked up once *)
Definition resolved : list (Z * string) :=
  flat_map (fun x => match constant (fst x) with Some k => [(k, snd x)] | None => [] end) status_texts.
Definition error_in (l : list (Z * string)) (c : Z) : string :=
  match find (fun x => (fst x =? c)%Z) l with Some (_, text) => text | None => status_default end.
Lemma error_resolved c : status_error c = error_in resolved c.
Proof.
  unfold status_error, error_in, resolved. induction status_texts as [|[m text] r IH]; [reflexivity|]. cbn [find flat_map].
  unfold is_case at 1. cbn [fst snd]. destruct (constant m) as [k|]; cbn [app find fst]; [|exact IH].
  destruct (k =? c)%Z; [reflexivity|exact IH].
Qed.
Definition texts_check : bool :=
  let l := resolved in
  forallb (fun e => existsb (fun x => String.eqb (fst x) (fst e) && String.eqb (error_in l (snd e)) (snd x) && negb (String.eqb (snd x) status_default)) status_texts) status_table.
Lemma texts_check_ok : texts_check = true. Proof. vm_compute. reflexivity. Qed.
Lemma texts name c : In (name, c) status_table -> exists text, In (name, text) status_texts /\ status_error c = text /\ text <> status_default.
Proof.
  intros H. pose proof texts_check_ok as C0. unfold texts_check in C0. cbv zeta in C0. pose proof (proj1 (forallb_forall _ _) C0 _ H) as C. clear C0. cbn [fst snd] in C. apply existsb_exists in C.
  destruct C as ([m text] & I & Q). cbn [fst snd] in Q. rewrite !andb_true_iff in Q. destruct Q as [[Q1 Q2] Q3].
  apply String.eqb_eq in Q1, Q2. subst m. exists text. rewrite error_resolved. split; [exact I|]. split; [exact Q2|]. intros E. rewrite E in Q3.
  rewrite String.eqb_refl in Q3. discriminate.
Qed.
Lemma no_text c : (forall name, ~ In (name, c) status_table) -> status_error c = status_default.
Proof.
  intros N. unfold status_error. destruct (find (is_case c) status_texts) as [[m text]|] eqn:F; [|reflexivity]. exfalso.
  apply find_some in F. destruct F as [_ Q]. unfold is_case, constant in Q. cbn [fst] in Q.
  destruct (find (fun e => String.eqb (fst e) m) status_table) as [[m' k]|] eqn:G; [|discriminate]. apply Z.eqb_eq in Q. subst k.
  apply find_some in G. destruct G as [I _]. exact (N _ I).
Qed.
Lemma no_info name c : In (name, c) status_table -> Z.land c 0xFFFF = 0%Z.
Proof.
  intros H. assert (C : forallb (fun e => (Z.land (snd e) 0xFFFF =? 0)%Z) status_table = true) by (vm_compute; reflexivity).
  pose proof (proj1 (forallb_forall _ _) C _ H) as D. now apply Z.eqb_eq in D.
Qed.
Lemma info c : Z.land c 0xFFFF <> 0%Z -> status_error c = status_default.
Proof. intros N. apply no_text. intros name I. apply N. exact (no_info _ _ I). Qed.

Definition sharedb (a b : string) : bool :=
  (String.eqb a "BadNoData" && String.eqb b "GoodNoData") || (String.eqb a "GoodEntryReplaced" && String.eqb b "GoodMoreData").
Lemma sharedb_ok a b : sharedb a b = true -> shared a b.
Proof. unfold sharedb, shared. rewrite orb_true_iff, !andb_true_iff, !String.eqb_eq. tauto. Qed.
Definition text_pairs : list (string * Z * string) := let l := resolved in map (fun e => (e, error_in l (snd e))) status_table.
Lemma sharing a c b d : In (a, c) status_table -> In (b, d) status_table -> status_error c = status_error d -> c = d \/ shared a b \/ shared b a.
Proof.
  rewrite !error_resolved. intros H K E.
  assert (C : (let l := text_pairs in forallb (fun x => forallb (fun y => negb (String.eqb (snd x) (snd y)) || (snd (fst x) =? snd (fst y))%Z
     || sharedb (fst (fst x)) (fst (fst y)) || sharedb (fst (fst y)) (fst (fst x))) l) l) = true) by (vm_compute; reflexivity).
  cbv zeta in C.
  assert (P : In ((a, c), error_in resolved c) text_pairs) by (apply (in_map (fun e => (e, error_in resolved (snd e))) status_table (a, c)); exact H).
  assert (Q : In ((b, d), error_in resolved d) text_pairs) by (apply (in_map (fun e => (e, error_in resolved (snd e))) status_table (b, d)); exact K).
  pose proof (proj1 (forallb_forall _ _) C _ P) as D. cbv beta in D. pose proof (proj1 (forallb_forall _ _) D _ Q) as F. cbn [fst snd] in F.
  rewrite E, String.eqb_refl in F. cbn [negb orb] in F. rewrite !orb_true_iff in F. destruct F as [[F|F]|F].
  - left. now apply Z.eqb_eq.
  - right. left. now apply sharedb_ok.
  - right. right. now apply sharedb_ok.
Qed.
Lemma same_text : exists good bad, In ("GoodNoData", good) status_table /\ In ("BadNoData", bad) status_table /\
  good <> bad /\ status_error good = status_error bad.
Proof. exists 0x00A50000%Z, 0x809B0000%Z. split; [apply has_In; vm_compute; reflexivity|]. split; [apply has_In; vm_compute; reflexivity|]. split; [discriminate|]. rewrite !error_resolved. vm_compute. reflexivity. Qed.

(** ** Examples *)
Example ex_state : enum_string "ServerState" 4 = Some "Shutdown". Proof. vm_compute. reflexivity. Qed.
Example ex_read_write : enum_string "AccessLevelType" 3 = Some "". Proof. vm_compute. reflexivity. Qed.
Example ex_flags : In ("AccessLevelType", Flags ["None"] access []) standard_enums. Proof. do 20 right. left. reflexivity. Qed.
Example ex_unknown : forall cs, In ("MonitoringMode", cs) enum_constants -> enum_string "MonitoringMode" 3 = Some "".
Proof. intros. vm_compute. reflexivity. Qed.
Example ex_good_overflow : status_error 0x480 = status_default /\ status_error 0 = "The operation completed successfully.".
Proof. rewrite !error_resolved. split; vm_compute; reflexivity. Qed.
