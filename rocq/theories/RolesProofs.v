(** Proofs about roles and permissions. *)
From Coq Require Import ZArith List Bool Lia.
From Coq Require Import ZifyBool.
From Verif Require Import Bytes BytesProofs Text TextProofs Roles RolesSpec.
Import ListNotations.
Open Scope Z_scope.
Ltac Zify.zify_post_hook ::= idtac.

Lemma beq a b : bytes_eqb a b = true <-> a = b.
Proof. apply bytes_eqb_eq. Qed.
Lemma listed_spec exclude x l : listed exclude x l = true <-> admitted exclude l x.
Proof.
  unfold admitted. induction l as [|y l IH]; cbn [listed In]; [destruct exclude; intuition discriminate|].
  destruct (bytes_eqb y x) eqn:E.
  - apply beq in E. subst y. destruct exclude; cbn [negb]; intuition discriminate.
  - assert (y <> x) by (intros ->; rewrite (proj2 (beq x x) eq_refl) in E; discriminate). rewrite IH. destruct exclude; tauto.
Qed.

Section P.
Variable thumbprint : bytes -> bytes.
Lemma rule_roles_spec id role l rs : rule_roles thumbprint id role l = Some rs ->
  (forall r, In r rs -> r = role) /\ (In role rs <-> Exists (fits_criterion thumbprint id) l).
Proof.
  revert rs. induction l as [|c l IH]; cbn [rule_roles]; intros rs H.
  - injection H as <-. split; [intros r []|]. split; [intros []|intros E; inversion E].
  - destruct (rule_roles thumbprint id role l) as [rs'|]; [|destruct id; discriminate]. destruct (IH rs' eq_refl) as [I1 I2].
    assert (X : exists b : bool, rs = (if b then role :: rs' else rs') /\ (b = true <-> fits_criterion thumbprint id c)).
    { destruct id as [|name|cert| |]; cbn [fits_criterion]; try discriminate; injection H as <-; eexists; (split; [reflexivity|]);
        unfold ct_anonymous, ct_authenticated, ct_user_name, ct_thumbprint; rewrite ?orb_true_iff, ?andb_true_iff, ?Z.eqb_eq, ?beq; tauto. }
    destruct X as (b & -> & B). split.
    + intros r. destruct b; [intros [<-|I]; [reflexivity|now apply I1]|apply I1].
    + rewrite Exists_cons, <- B, <- I2. destruct b; cbn [In]; intuition discriminate.
Qed.
Lemma rule_roles_error id role l : rule_roles thumbprint id role l = None -> id = IdOther.
Proof.
  induction l as [|c l IH]; cbn [rule_roles]; [discriminate|]. destruct (rule_roles thumbprint id role l) as [rs|]; [destruct id; try discriminate; reflexivity|]. intros _. now apply IH.
Qed.
Lemma all_roles_sound rules id app ep rs r : all_roles thumbprint rules id app ep = Some rs -> In r rs -> granted thumbprint rules id app ep r.
Proof.
  revert rs. induction rules as [|u rules IH]; cbn [all_roles]; intros rs H I; [injection H as <-; destruct I|].
  destruct (listed (ru_apps_exclude u) app (ru_apps u)) eqn:A; cbn [negb] in H; [|injection H as <-; destruct I].
  destruct (listed (ru_eps_exclude u) ep (ru_eps u)) eqn:E; cbn [negb] in H; [|injection H as <-; destruct I].
  destruct (rule_roles thumbprint id (ru_role u) (ru_identities u)) as [l|] eqn:R; [|discriminate]. destruct (all_roles thumbprint rules id app ep) as [l'|]; [|discriminate]. injection H as <-.
  apply in_app_iff in I. destruct I as [I|I].
  - destruct (rule_roles_spec _ _ _ _ R) as [R1 R2]. assert (r = ru_role u) by now apply R1. subst r. exists u. split; [now left|]. split; [reflexivity|]. split; [now apply listed_spec|]. split; [now apply listed_spec|]. tauto.
  - destruct (IH l' eq_refl I) as (w & W1 & W2). exists w. split; [now right|exact W2].
Qed.
Lemma all_roles_complete rules id app ep : id <> IdOther -> (forall u, In u rules -> open_to u app ep) ->
  exists rs, all_roles thumbprint rules id app ep = Some rs /\ forall r, granted thumbprint rules id app ep r -> In r rs.
Proof.
  intros N. induction rules as [|u rules IH]; cbn [all_roles]; intros O.
  - exists []. split; [reflexivity|]. intros r (w & [] & _).
  - destruct (O u (or_introl eq_refl)) as [O1 O2]. rewrite (proj2 (listed_spec _ _ _) O1), (proj2 (listed_spec _ _ _) O2). cbn [negb].
    destruct (rule_roles thumbprint id (ru_role u) (ru_identities u)) as [l|] eqn:R; [|now apply rule_roles_error in R].
    destruct IH as (rs & -> & C); [intros w W; apply O; now right|]. exists (l ++ rs). split; [reflexivity|]. intros r (w & [<-|W1] & W2 & W3); apply in_app_iff.
    + left. destruct (rule_roles_spec _ _ _ _ R) as [_ R2]. subst r. apply R2. exact (proj2 (proj2 W3)).
    + right. apply C. exists w. tauto.
Qed.
(** Every role returned is granted by a matching rule. *)
Theorem roles_sound rules id app ep rs r : get_roles thumbprint rules id app ep = Some rs -> In r rs -> granted thumbprint rules id app ep r.
Proof.
  unfold get_roles. destruct (all_roles thumbprint rules id app ep) as [[|x l]|] eqn:E; try discriminate. intros [= <-]. now apply all_roles_sound.
Qed.
Theorem roles_exact rules id app ep : (forall u, In u rules -> open_to u app ep) ->
  match get_roles thumbprint rules id app ep with
  | Some rs => rs <> [] /\ forall r, In r rs <-> granted thumbprint rules id app ep r
  | None => forall r, ~ granted thumbprint rules id app ep r
  end.
Proof.
  intros O. destruct (get_roles thumbprint rules id app ep) as [rs|] eqn:G.
  - assert (Nid : id <> IdOther).
    { intros ->. destruct rs as [|r rs]; [unfold get_roles in G; destruct (all_roles _ _ _ _ _) as [[|]|]; discriminate|].
      destruct (roles_sound _ _ _ _ _ r G (or_introl eq_refl)) as (w & _ & _ & _ & _ & X). apply Exists_exists in X. destruct X as (c & _ & []). }
    split; [unfold get_roles in G; destruct (all_roles _ _ _ _ _) as [[|]|]; try discriminate; now injection G as <-|].
    intros r. split; [intros I; now apply (roles_sound _ _ _ _ rs)|]. destruct (all_roles_complete rules id app ep Nid O) as (l & A & C). intros Gr. unfold get_roles in G. rewrite A in G.
    destruct l; [discriminate|]. injection G as <-. now apply C.
  - intros r Gr. destruct (match id with IdOther => true | _ => false end) eqn:K.
    + destruct Gr as (w & _ & _ & _ & _ & X). apply Exists_exists in X. destruct X as (c & _ & F). destruct id; try discriminate. exact F.
    + destruct (all_roles_complete rules id app ep ltac:(destruct id; discriminate) O) as (l & A & C). unfold get_roles in G. rewrite A in G. destruct l; [now destruct (C r)|discriminate].
Qed.
(** A user no rule matches is denied. *)
Theorem roles_denied rules id app ep : (forall r, ~ granted thumbprint rules id app ep r) -> get_roles thumbprint rules id app ep = None.
Proof.
  intros N. destruct (get_roles thumbprint rules id app ep) as [rs|] eqn:G; [|reflexivity]. destruct rs as [|r rs].
  - unfold get_roles in G. destruct (all_roles _ _ _ _ _) as [[|]|]; discriminate.
  - destruct (N r). now apply (roles_sound _ _ _ _ (r :: rs)); [|left].
Qed.
(** A rule that is not open to the application or endpoint ends the search. *)
Theorem roles_stop rules1 u rules2 id app ep : ~ open_to u app ep ->
  get_roles thumbprint (rules1 ++ u :: rules2) id app ep = get_roles thumbprint (rules1 ++ [u]) id app ep.
Proof.
  intros N. unfold get_roles. enough (E : all_roles thumbprint (rules1 ++ u :: rules2) id app ep = all_roles thumbprint (rules1 ++ [u]) id app ep) by now rewrite E.
  induction rules1 as [|w rules1 IH]; cbn [List.app all_roles].
  - destruct (listed (ru_apps_exclude u) app (ru_apps u)) eqn:A; [|reflexivity]. destruct (listed (ru_eps_exclude u) ep (ru_eps u)) eqn:E; [|reflexivity].
    apply listed_spec in A. apply listed_spec in E. now destruct N.
  - now rewrite IH.
Qed.
(** The server asks without application and endpoint. *)
Theorem include_never rules id app ep rs r : (forall u, In u rules -> ru_role u = r -> (ru_apps_exclude u = false /\ ~ In [] (ru_apps u)) \/ (ru_eps_exclude u = false /\ ~ In [] (ru_eps u))) ->
  session_roles thumbprint rules id app ep = Some rs -> ~ In r rs.
Proof.
  intros H G I. destruct (roles_sound _ _ _ _ _ r G I) as (u & U1 & U2 & M1 & M2 & _). destruct (H u U1 U2) as [[A B]|[A B]]; unfold admitted in *; rewrite A in *; tauto.
Qed.
End P.

(** * Permissions *)
Lemma land_bit p k : 0 <= k -> negb (Z.land p (2 ^ k) =? 0) = Z.testbit p k.
Proof.
  intros K. assert (E : Z.land p (2 ^ k) = if Z.testbit p k then 2 ^ k else 0).
  { apply Z.bits_inj'. intros n Hn. rewrite Z.land_spec, Z.pow2_bits_eqb by lia. destruct (k =? n) eqn:E.
    - apply Z.eqb_eq in E. subst n. destruct (Z.testbit p k); cbn [andb]; [rewrite Z.pow2_bits_eqb, Z.eqb_refl by lia; reflexivity|now rewrite Z.bits_0].
    - rewrite andb_false_r. destruct (Z.testbit p k); [rewrite Z.pow2_bits_eqb by lia; now rewrite E|now rewrite Z.bits_0]. }
  rewrite E. assert (0 < 2 ^ k) by (apply Z.pow_pos_nonneg; lia). destruct (Z.testbit p k); lia.
Qed.
Lemma user_permissions_in roles own default p : In p (user_permissions roles own default) <-> In p (permissions own default) /\ In (fst p) (roles_of roles).
Proof.
  unfold user_permissions. destruct roles as [rs|]; cbn [roles_of]; [|cbn; tauto]. rewrite in_flat_map. split.
  - intros (r & R & I). apply filter_In in I. unfold grants in I. rewrite Z.eqb_eq in I. destruct I as [I <-]. tauto.
  - intros [I R]. exists (fst p). split; [exact R|]. apply filter_In. split; [exact I|]. unfold grants. apply Z.eqb_refl.
Qed.
Lemma permitted_spec roles own default k : 0 <= k -> is_permitted (user_permissions roles own default) (2 ^ k) = true <-> may (roles_of roles) (permissions own default) k.
Proof.
  intros K. unfold is_permitted, may. rewrite existsb_exists. split.
  - intros ([role bits] & I & B). apply user_permissions_in in I. cbn [fst snd] in *. rewrite land_bit in B by exact K. exists role, bits. tauto.
  - intros (role & bits & R & I & B). exists (role, bits). split; [now apply user_permissions_in|]. cbn [snd]. now rewrite land_bit.
Qed.
Lemma may_more roles roles' perms k : incl roles roles' -> may roles perms k -> may roles' perms k.
Proof. intros H (role & bits & R & P). exists role, bits. split; [now apply H|exact P]. Qed.

(** Bits of the user access level. *)
Theorem access_bits access roles own default k : 0 <= k ->
  Z.testbit (user_access access roles own default) k = true <->
  Z.testbit access k = true /\ roles <> None /\
  (k = 0 -> may (roles_of roles) (permissions own default) 5) /\ (k = 1 -> may (roles_of roles) (permissions own default) 6) /\
  (k = 2 -> may (roles_of roles) (permissions own default) 7).
Proof.
  intros K. unfold user_access. destruct roles as [rs|]; [|rewrite Z.bits_0; intuition congruence].
  assert (A : forall b m j x, Z.testbit (if b : bool then x else Z.ldiff x m) k = Z.testbit x k && (b || negb (k =? j)) \/ m <> 2 ^ j \/ j < 0).
  { intros b m j x. destruct (Z.eq_dec m (2 ^ j)) as [->|N]; [|tauto]. destruct (Z_lt_le_dec j 0) as [J|J]; [tauto|]. left. destruct b; [now rewrite andb_true_r|].
    rewrite Z.ldiff_spec, Z.pow2_bits_eqb by lia. cbn [orb]. now rewrite (Z.eqb_sym j k). }
  set (up := user_permissions (Some rs) own default).
  destruct (A (is_permitted up pm_read) al_read 0 access) as [A1|[X|X]]; [|unfold al_read in X; cbn in X; lia|lia].
  set (a1 := if is_permitted up pm_read then access else Z.ldiff access al_read) in *.
  destruct (A (is_permitted up pm_write) al_write 1 a1) as [A2|[X|X]]; [|unfold al_write in X; cbn in X; lia|lia].
  set (a2 := if is_permitted up pm_write then a1 else Z.ldiff a1 al_write) in *.
  destruct (A (is_permitted up pm_read_history) al_history_read 2 a2) as [A3|[X|X]]; [|unfold al_history_read in X; cbn in X; lia|lia].
  rewrite A3, A2, A1. rewrite <- !(permitted_spec (Some rs) own default) by lia. fold up. change (2 ^ 5) with pm_read. change (2 ^ 6) with pm_write. change (2 ^ 7) with pm_read_history.
  rewrite !andb_true_iff, !orb_true_iff, !negb_true_iff, !Z.eqb_neq. clear.
  destruct (Z.eq_dec k 0), (Z.eq_dec k 1), (Z.eq_dec k 2); intuition (try lia; try congruence).
Qed.
Theorem access_below access roles own default k : 0 <= k -> Z.testbit (user_access access roles own default) k = true -> Z.testbit access k = true.
Proof. intros K H. now apply access_bits in H. Qed.
Theorem access_more access rs rs' own default k : 0 <= k -> incl rs rs' -> Z.testbit (user_access access (Some rs) own default) k = true ->
  Z.testbit (user_access access (Some rs') own default) k = true.
Proof.
  intros K I H. apply access_bits in H; [|exact K]. apply access_bits; [exact K|]. destruct H as (H1 & _ & H2 & H3 & H4). split; [exact H1|]. split; [discriminate|]. cbn [roles_of] in *.
  repeat split; intros E; apply (may_more rs); auto.
Qed.
Theorem permissions_exact roles own default p : In p (user_permissions roles own default) <-> In p (permissions own default) /\ In (fst p) (roles_of roles).
Proof. apply user_permissions_in. Qed.
Theorem executable_spec ex roles own default : user_executable ex roles own default = true <-> ex = true /\ may (roles_of roles) (permissions own default) 12.
Proof. unfold user_executable. rewrite andb_true_iff. change pm_call with (2 ^ 12). rewrite permitted_spec by lia. tauto. Qed.

(** * The default configuration *)
Theorem default_anonymous thumbprint app ep : session_roles thumbprint default_rules IdAnonymous app ep = Some [15644].
Proof. reflexivity. Qed.
Theorem default_authenticated thumbprint id app ep : id <> IdAnonymous -> id <> IdOther -> session_roles thumbprint default_rules id app ep = Some [15656; 15668; 15680].
Proof. destruct id; intros A B; try contradiction; reflexivity. Qed.
Lemma default_may role k : may [role] default_permissions k <-> exists bits, In (role, bits) default_permissions /\ Z.testbit bits k = true.
Proof.
  split.
  - intros (r & b & [<-|[]] & H). eauto.
  - intros (b & H). exists role, b. split; [now left|exact H].
Qed.
Theorem default_anonymous_may k : may [15644] default_permissions k <-> In k [0; 5; 7; 11].
Proof.
  rewrite default_may. split.
  - intros (b & I & T). repeat (destruct I as [I|I]; [try discriminate I; injection I as I; subst b|]); [|destruct I].
    assert (0 <= k < 12) as K.
    { destruct (Z.lt_ge_cases k 0) as [N|N]; [rewrite Z.testbit_neg_r in T by lia; discriminate|]. split; [exact N|]. destruct (Z.lt_ge_cases k 12) as [M|M]; [exact M|].
      rewrite Z.bits_above_log2 in T; [discriminate|cbv; discriminate|]. change (Z.log2 _) with 11. lia. }
    assert (k = 0 \/ k = 1 \/ k = 2 \/ k = 3 \/ k = 4 \/ k = 5 \/ k = 6 \/ k = 7 \/ k = 8 \/ k = 9 \/ k = 10 \/ k = 11) as O by lia.
    repeat (destruct O as [->|O]; [first [discriminate T|cbn; tauto]|]). subst k. cbn. tauto.
  - intros [<-|[<-|[<-|[<-|[]]]]]; eexists; (split; [left; reflexivity|reflexivity]).
Qed.
Theorem default_authenticated_may k : may [15656; 15668; 15680] default_permissions k <-> In k [0; 5; 6; 7; 11; 12].
Proof.
  split.
  - intros (r & b & R & I & T).
    assert (0 <= k < 13 /\ (b = 2209 \/ b = 6369)) as [K B].
    { assert (b = 2209 \/ b = 6369) as B by (cbn in R, I; destruct R as [<-|[<-|[<-|[]]]]; repeat (destruct I as [I|I]; [try discriminate I; injection I as I; subst b; cbn; auto|]); destruct I).
      split; [|exact B]. destruct (Z.lt_ge_cases k 0) as [N|N]; [rewrite Z.testbit_neg_r in T by lia; discriminate|]. split; [exact N|]. destruct (Z.lt_ge_cases k 13) as [M|M]; [exact M|].
      rewrite Z.bits_above_log2 in T; [discriminate|lia|]. destruct B as [-> | ->]; [change (Z.log2 2209) with 11|change (Z.log2 6369) with 12]; lia. }
    assert (k = 0 \/ k = 1 \/ k = 2 \/ k = 3 \/ k = 4 \/ k = 5 \/ k = 6 \/ k = 7 \/ k = 8 \/ k = 9 \/ k = 10 \/ k = 11 \/ k = 12) as O by lia.
    destruct B as [-> | ->]; repeat (destruct O as [->|O]; [first [discriminate T|cbn; tauto]|]); subst k; first [discriminate T|cbn; tauto].
  - intros H. exists 15680, 6369. split; [cbn; tauto|]. split; [right; right; right; left; reflexivity|]. repeat destruct H as [<-|H]; try reflexivity. destruct H.
Qed.
