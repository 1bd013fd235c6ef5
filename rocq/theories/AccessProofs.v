(** Proofs about the services on nodes. *)
From Coq Require Import ZArith List Bool Lia Permutation.
From Coq Require Import ZifyBool ZifyNat.
From Verif Require Import Bytes BytesProofs Text IndexRange IndexRangeSpec IndexRangeProofs Roles RolesSpec RolesProofs Nodes NodeAccess AccessSpec TypeProofs.
Import ListNotations.
Open Scope Z_scope.
Ltac Zify.zify_post_hook ::= idtac.

(** * Type and rank *)
Section Types.
Variable lim : limits.
Lemma scalar_rank_spec rank : scalar_rank rank = true <-> fits_rank rank 0.
Proof. unfold scalar_rank, fits_rank. lia. Qed.
Lemma array_rank_spec rank : array_rank rank = true <-> fits_rank rank 1.
Proof. unfold array_rank, fits_rank. lia. Qed.
Lemma check_spec a b c : check a b c = 0 <-> a = false /\ b = true /\ c = true.
Proof. unfold check. destruct a, b, c; cbn [negb]; intuition (try congruence; try discriminate). Qed.
Lemma fits_known v t n dest rank : type_and_dims v = Some (t, n) -> fits dest rank v <-> (dest = t \/ dest = 24) /\ fits_rank rank n.
Proof.
  intros E. unfold fits. rewrite E. split.
  - intros (t' & n' & [= <- <-] & H). exact H.
  - intros H. exists t, n. tauto.
Qed.
Theorem check_plain dest rank v : plain v -> check_value lim dest rank v = 0 <-> fits dest rank v /\ within lim v.
Proof.
  intros P. destruct v as [|t c|s|s|t l|l|l|? ?|?]; cbn [plain] in P; try contradiction; cbn [check_value within].
  - assert (E : (if (t =? 22) || (t =? 23) || (t =? 25) then check false ((dest =? 22) || (dest =? 24)) (scalar_rank rank) else check false ((dest =? t) || (dest =? 24)) (scalar_rank rank))
                = check false ((dest =? t) || (dest =? 24)) (scalar_rank rank)).
    { destruct (t =? 22) eqn:T; cbn [orb]; [apply Z.eqb_eq in T; now subst t|]. rewrite (proj2 (Z.eqb_neq t 23)) by tauto. rewrite (proj2 (Z.eqb_neq t 25)) by tauto. reflexivity. }
    rewrite E, check_spec, scalar_rank_spec, (fits_known (GScalar t c) t 0) by reflexivity. rewrite orb_true_iff, !Z.eqb_eq. tauto.
  - rewrite check_spec, scalar_rank_spec, (fits_known (GText s) 12 0) by reflexivity. rewrite orb_true_iff, !Z.eqb_eq. unfold zlen. rewrite Z.ltb_ge. tauto.
  - rewrite check_spec, scalar_rank_spec, (fits_known (GBlob s) 15 0) by reflexivity. rewrite orb_true_iff, !Z.eqb_eq. unfold zlen. rewrite Z.ltb_ge. tauto.
  - rewrite (proj2 (Z.eqb_neq t 25)) by exact P. rewrite check_spec, array_rank_spec, (fits_known (GArr t l) t 1) by reflexivity. rewrite orb_true_iff, !Z.eqb_eq. unfold zlen. rewrite Z.ltb_ge. tauto.
  - rewrite check_spec, array_rank_spec, (fits_known (GTexts l) 12 1) by reflexivity. rewrite orb_true_iff, !Z.eqb_eq. unfold zlen. rewrite Z.ltb_ge. tauto.
  - rewrite check_spec, array_rank_spec, (fits_known (GBlobs l) 15 1) by reflexivity. rewrite orb_true_iff, !Z.eqb_eq. unfold zlen. rewrite Z.ltb_ge. tauto.
Qed.
(** Scalar DataValues *)
Theorem data_value_types dest rank c : (check_value lim dest rank (GScalar 23 c) = 0 <-> (dest = 22 \/ dest = 24) /\ fits_rank rank 0).
Proof. cbn [check_value Z.eqb Pos.eqb orb]. rewrite check_spec, scalar_rank_spec, orb_true_iff, !Z.eqb_eq. tauto. Qed.
End Types.

(** * Permissions *)
Section S.
Variable default : list perm.
Lemma permitted_may roles n k : 0 <= k -> is_permitted (node_permissions default roles n) (2 ^ k) = true <-> user_may default roles n k.
Proof. intros K. unfold node_permissions, user_may. rewrite permitted_spec by exact K. reflexivity. Qed.
Lemma browsable_may roles n : browsable default roles n = true <-> user_may default roles n p_browse.
Proof. apply (permitted_may roles n 0). lia. Qed.
Lemma not_browsable roles n : browsable default roles n = false <-> ~ user_may default roles n p_browse.
Proof. rewrite <- browsable_may. destruct (browsable default roles n); intuition congruence. Qed.
Lemma access_bit v roles n k : 0 <= k -> (Z.land (user_access (va_access v) roles (nd_perms n) default) (2 ^ k) =? 0) = negb (Z.testbit (user_access (va_access v) roles (nd_perms n) default) k).
Proof. intros K. rewrite <- land_bit by exact K. now rewrite negb_involutive. Qed.
Lemma level_bit v k : 0 <= k -> (Z.land (va_access v) (2 ^ k) =? 0) = negb (Z.testbit (va_access v) k).
Proof. intros K. rewrite <- land_bit by exact K. now rewrite negb_involutive. Qed.
Lemma may_some roles perms k : may (roles_of roles) perms k -> roles <> None.
Proof. intros (r & b & I & _) ->. destruct I. Qed.
Lemma read_bit v roles n : Z.testbit (user_access (va_access v) roles (nd_perms n) default) 0 = true <-> readable v /\ user_may default roles n p_read.
Proof.
  rewrite access_bits by lia. unfold readable, user_may, p_read. split.
  - intros (A & _ & B & _). split; [exact A|]. now apply B.
  - intros [A B]. split; [exact A|]. split; [now apply may_some in B|]. split; [intros _; exact B|]. split; intros; lia.
Qed.
Lemma write_bit v roles n : Z.testbit (user_access (va_access v) roles (nd_perms n) default) 1 = true <-> writable v /\ user_may default roles n p_write.
Proof.
  rewrite access_bits by lia. unfold writable, user_may, p_write. split.
  - intros (A & _ & _ & B & _). split; [exact A|]. now apply B.
  - intros [A B]. split; [exact A|]. split; [now apply may_some in B|]. split; [intros; lia|]. split; [intros _; exact B|intros; lia].
Qed.

(** * Read *)
Ltac kinds n H := destruct (nd_kind n); try discriminate H.
Theorem read_allowed who sp q s : read_value default who sp q = Shown s ->
  exists roles n, who = Session roles /\ sp (rq_node q) = Some n /\ user_may default roles n p_browse /\
    (rq_attr q = 13 -> exists v, nd_kind n = KVariable v /\ readable v /\ user_may default roles n p_read) /\
    (rq_attr q = 24 -> user_may default roles n p_read_role_permissions).
Proof.
  unfold read_value. destruct who as [|roles]; [discriminate|]. destruct (negb _); [discriminate|]. destruct (_ && _); [discriminate|]. destruct (sp (rq_node q)) as [n|]; [|discriminate].
  destruct (browsable default roles n) eqn:B; [|discriminate]. cbn [negb]. intros H. exists roles, n. split; [reflexivity|]. split; [reflexivity|]. split; [now apply browsable_may|]. split.
  - intros E. rewrite E in H. change (13 =? 13) with true in H. cbv iota in H. destruct (nd_kind n) as [|v| | | | | |]; try discriminate. exists v. split; [reflexivity|].
    change al_read with (2 ^ 0) in H. rewrite access_bit, level_bit in H by lia. destruct (Z.testbit (va_access v) 0) eqn:A; [|discriminate]. cbn [negb] in H.
    destruct (Z.testbit (user_access _ _ _ _) 0) eqn:U; [|discriminate]. now apply read_bit in U.
  - intros E. rewrite E in H. cbn [Z.eqb Pos.eqb orb] in H. destruct (is_permitted (node_permissions default roles n) pm_read_role_permissions) eqn:P; [|discriminate].
    apply (permitted_may roles n 1); [lia|exact P].
Qed.
Theorem read_hidden roles sp id n q : sp id = Some n -> ~ user_may default roles n p_browse ->
  read_value default (Session roles) sp q = read_value default (Session roles) (remove sp id) q.
Proof.
  intros E N. apply not_browsable in N. unfold read_value, remove. destruct (rq_node q =? id) eqn:I; [|reflexivity]. apply Z.eqb_eq in I. rewrite I, E, N. reflexivity.
Qed.
Theorem read_permitted roles sp q n v : rq_attr q = 13 -> rq_encoding q = [] -> sp (rq_node q) = Some n -> nd_kind n = KVariable v -> va_reader v = None ->
  user_may default roles n p_browse -> readable v -> user_may default roles n p_read ->
  read_value default (Session roles) sp q =
    match read_range (st_value (va_value v)) (rq_range q) with RVal x => Shown (mkSt x (st_status (va_value v))) | RBad st => Hidden st end.
Proof.
  intros A E Sn K R B L P. unfold read_value. rewrite A, E, Sn, K, R. cbn [negb]. rewrite (proj2 (browsable_may roles n) B). change (13 =? at_value) with true. rewrite andb_false_r. cbn [negb].
  change (13 =? 13) with true. cbv iota. change al_read with (2 ^ 0). rewrite access_bit, level_bit by lia. rewrite L. rewrite (proj2 (read_bit v roles n) (conj L P)). reflexivity.
Qed.
Theorem read_attributes roles sp q n : rq_attr q <> 13 -> rq_attr q <> 24 -> rq_encoding q = [] -> rq_range q = [] -> sp (rq_node q) = Some n -> user_may default roles n p_browse ->
  (exists s, read_value default (Session roles) sp q = Shown s) <-> has_attribute (nd_kind n) (rq_attr q).
Proof.
  intros A A' E R Sn B. unfold read_value. rewrite E, R, Sn. cbn [negb andb]. rewrite (proj2 (browsable_may roles n) B). cbn [negb]. set (a := rq_attr q) in *. clearbody a.
  rewrite (proj2 (Z.eqb_neq a 13) A), (proj2 (Z.eqb_neq a 24) A'). unfold has_attribute, good.
  repeat match goal with |- context [if ?b then _ else _] => destruct b eqn:? end;
    destruct (nd_kind n) as [|v|e h| | | |[d|]|]; (split; [intros [s H]; try discriminate H|intros H; try (eexists; reflexivity); exfalso]); try lia; intuition (try congruence; try lia).
Qed.
Theorem read_role_permissions roles sp q n : rq_attr q = 24 -> rq_encoding q = [] -> rq_range q = [] -> sp (rq_node q) = Some n -> user_may default roles n p_browse ->
  (exists s, read_value default (Session roles) sp q = Shown s) <-> user_may default roles n p_read_role_permissions.
Proof.
  intros A E R Sn B. unfold read_value. rewrite A, E, R, Sn. cbn [negb andb]. rewrite (proj2 (browsable_may roles n) B). cbn [negb Z.eqb Pos.eqb orb].
  rewrite <- (permitted_may roles n 1) by lia. change (2 ^ 1) with pm_read_role_permissions. destruct (is_permitted _ _); split; intros H; try discriminate; try destruct H; try discriminate; eauto.
  unfold good. eauto.
Qed.

(** * Write *)
Lemma paste_bad A (c : list A -> gval) r src v st : paste_range c r src v = WrBad st -> st <> 0.
Proof.
  unfold paste_range. destruct (parse_bounds r _) as [i j|st'] eqn:E.
  - destruct v as [v|]; [|discriminate]. destruct (_ =? _); [discriminate|]. intros E'. injection E' as E'. subst st. discriminate.
  - intros E'. injection E' as E'. subst st'. unfold parse_bounds in E. destruct (_ =? 0); [injection E as E; subst st; discriminate|]. destruct r; [discriminate|].
    destruct (parse_pair _) as [[lo hi]|]; [|injection E as E; subst st; discriminate]. destruct (_ <=? lo); [injection E as E; subst st; discriminate|discriminate].
Qed.
Lemma write_range_bad src v range st : write_range src v range = WrBad st -> st <> 0.
Proof.
  unfold write_range. destruct range; [discriminate|]. destruct (split _ _) as [|r rs]; [discriminate|].
  destruct src; try (intros E; injection E as E; subst st; discriminate); (destruct (_ <=? _); [intros E; injection E as E; subst st; discriminate|apply paste_bad]).
Qed.
Variable vt : Z -> Z.
Variable lim : limits.
Notation write_value := (write_value default vt lim).
(** All that a write can come to *)
Inductive write_case (who : caller) (sp : space) (q : write_req) : written * space -> Prop :=
| CaseNo st : st <> 0 -> write_case who sp q (Done st, sp)
| CaseCrash n v x : allowed default who sp q -> wq_attr q = 13 -> sp (wq_node q) = Some n -> nd_kind n = KVariable v ->
    x = convert (vt (va_type v)) (va_rank v) (st_value (wq_value q)) -> check_value lim (vt (va_type v)) (va_rank v) x = 0 ->
    va_writer v = None -> write_range (st_value (va_value v)) x (wq_range q) = WrCrash -> write_case who sp q (Crashed, sp)
| CaseStore n v x s : allowed default who sp q -> wq_attr q = 13 -> sp (wq_node q) = Some n -> nd_kind n = KVariable v ->
    x = convert (vt (va_type v)) (va_rank v) (st_value (wq_value q)) -> check_value lim (vt (va_type v)) (va_rank v) x = 0 ->
    match va_writer v with
    | Some f => f (mkSt x (st_status (wq_value q))) (wq_range q) = (s, 0)
    | None => exists r, write_range (st_value (va_value v)) x (wq_range q) = WrVal r /\ s = mkSt r (st_status (wq_value q))
    end -> write_case who sp q (store sp (wq_node q) n v s)
| CaseHist n v c : allowed default who sp q -> wq_attr q = 20 -> sp (wq_node q) = Some n -> nd_kind n = KVariable v -> st_value (wq_value q) = GScalar 1 c ->
    write_case who sp q (Done 0, put sp (wq_node q) (set_kind n (KVariable (set_historizing v (negb (c =? 0)))))).
Lemma write_cases who sp q : write_case who sp q (write_value who sp q).
Proof.
  unfold NodeAccess.write_value. destruct who as [|roles]; [now apply CaseNo|]. destruct (sp (wq_node q)) as [n|] eqn:Sn; [|now apply CaseNo].
  destruct (browsable default roles n) eqn:B; cbn [negb]; [|now apply CaseNo]. apply browsable_may in B. destruct (wq_attr q =? at_value) eqn:A.
  - apply Z.eqb_eq in A. unfold at_value in A. destruct (nd_kind n) as [|v| | | | | |] eqn:K; try (now apply CaseNo).
    change al_write with (2 ^ 1). rewrite access_bit, level_bit by lia. destruct (Z.testbit (va_access v) 1) eqn:L; cbn [negb]; [|now apply CaseNo].
    destruct (Z.testbit (user_access _ _ _ _) 1) eqn:U; cbn [negb]; [|now apply CaseNo]. apply write_bit in U.
    assert (Al : allowed default (Session roles) sp q) by (exists roles, n, v; repeat split; try tauto).
    set (x := convert _ _ _). destruct (check_value lim _ _ x =? 0) eqn:C; cbn [negb]; [apply Z.eqb_eq in C|apply CaseNo; now apply Z.eqb_neq].
    destruct (va_writer v) as [f|] eqn:W.
    + destruct (f _ _) as [s st] eqn:F. destruct (st =? 0) eqn:E; [|apply CaseNo; now apply Z.eqb_neq]. apply Z.eqb_eq in E. subst st. apply (CaseStore _ _ _ n v x s); auto. now rewrite W.
    + destruct (write_range _ x _) as [r|st|] eqn:R.
      * apply (CaseStore _ _ _ n v x); auto. rewrite W. now exists r.
      * apply CaseNo. exact (write_range_bad _ _ _ _ R).
      * now apply (CaseCrash _ _ _ n v x).
  - destruct (wq_attr q =? at_historizing) eqn:A'; [|now apply CaseNo]. apply Z.eqb_eq in A'. unfold at_historizing in A'.
    destruct (nd_kind n) as [|v| | | | | |] eqn:K; try (now apply CaseNo). destruct (is_permitted _ pm_write_historizing) eqn:P; cbn [negb]; [|now apply CaseNo].
    apply (permitted_may roles n 4) in P; [|lia].
    assert (Al : allowed default (Session roles) sp q) by (exists roles, n, v; repeat split; try tauto).
    destruct (st_value (wq_value q)) as [|t c| | | | | | |] eqn:V; try (now apply CaseNo).
    destruct t as [|[p|p|]|p]; try (now apply CaseNo). now apply CaseHist.
Qed.
Theorem write_allowed who sp q r sp' : write_value who sp q = (r, sp') -> r = Done 0 \/ r = Crashed \/ sp' <> sp -> allowed default who sp q.
Proof.
  intros E. pose proof (write_cases who sp q) as C. rewrite E in C. intros O. inversion C; subst; auto. destruct O as [O|[O|O]]; congruence.
Qed.
Theorem write_refused who sp q st sp' : write_value who sp q = (Done st, sp') -> st <> 0 -> sp' = sp.
Proof.
  intros E N. pose proof (write_cases who sp q) as C. rewrite E in C. inversion C; subst; auto; [|congruence].
  match goal with H : store _ _ _ _ _ = _ |- _ => unfold store in H; destruct (_ && _); congruence end.
Qed.
Theorem write_frame who sp q r sp' : write_value who sp q = (r, sp') ->
  (forall x, x <> wq_node q -> sp' x = sp x) /\
  (sp' = sp \/ exists n n', sp (wq_node q) = Some n /\ sp' (wq_node q) = Some n' /\ same_but (wq_attr q) n n').
Proof.
  intros E. pose proof (write_cases who sp q) as C. rewrite E in C.
  assert (P : forall n k x, x <> wq_node q -> put sp (wq_node q) (set_kind n k) x = sp x) by (intros n k x X; unfold put; now rewrite (proj2 (Z.eqb_neq _ _) X)).
  inversion C as [st N|n v x Al A Sn K X Ch W R|n v x s Al A Sn K X Ch W Eq|n v c Al A Sn K V]; subst; auto.
  - assert (sp' = put sp (wq_node q) (set_kind n (KVariable (set_value v s)))) as -> by (unfold store in Eq; destruct (_ && _); congruence).
    split; [apply P|]. right. exists n, (set_kind n (KVariable (set_value v s))). split; [exact Sn|]. split; [unfold put; now rewrite Z.eqb_refl|].
    repeat split. exists v, (set_value v s). repeat split; auto. intros E'. rewrite E' in A. discriminate.
  - split; [apply P|]. right. eexists n, _. split; [exact Sn|]. split; [unfold put; now rewrite Z.eqb_refl|].
    repeat split. eexists v, _. split; [exact K|]. split; [reflexivity|]. repeat split. intros E'. rewrite E' in A. discriminate.
Qed.
Theorem write_hidden roles sp id n q : sp id = Some n -> ~ user_may default roles n p_browse -> wq_node q = id ->
  write_value (Session roles) sp q = (Done 0x80340000, sp) /\ write_value (Session roles) (remove sp id) q = (Done 0x80340000, remove sp id).
Proof.
  intros E N I. apply not_browsable in N. unfold NodeAccess.write_value, remove. rewrite I, Z.eqb_refl, E, N. split; reflexivity.
Qed.

Lemma convert_bytes dest rank v : same_bytes v (convert dest rank v).
Proof.
  unfold convert, same_bytes. destruct ((dest =? 3) && (rank =? 1)) eqn:A; destruct ((dest =? 15) && (rank =? -1)) eqn:B; try lia; destruct v as [| | | |t l| | | |]; auto.
  - right. left. eauto.
  - destruct t as [|[[]| |]|]; auto. right. right. eauto.
Qed.
Lemma convert_plain dest rank v : plain v -> plain (convert dest rank v).
Proof.
  intros P. destruct (convert_bytes dest rank v) as [<-|[(s & -> & ->)|(l & -> & ->)]]; [exact P|cbn; lia|exact I].
Qed.
Theorem write_typed who sp q sp' : write_value who sp q = (Done 0, sp') -> wq_attr q = 13 -> plain (st_value (wq_value q)) ->
  exists n v x, sp (wq_node q) = Some n /\ nd_kind n = KVariable v /\ same_bytes (st_value (wq_value q)) x /\ fits (vt (va_type v)) (va_rank v) x /\ within lim x.
Proof.
  intros E A P. pose proof (write_cases who sp q) as C. rewrite E in C.
  inversion C as [st N|n v x Al A' Sn K X Ch W R|n v x s Al A' Sn K X Ch W Eq|n v c Al A' Sn K V]; subst; try congruence.
  eexists n, v, _. split; [exact Sn|]. split; [exact K|]. split; [apply convert_bytes|]. apply check_plain; [now apply convert_plain|exact Ch].
Qed.
Theorem write_stores who sp q sp' n v : write_value who sp q = (Done 0, sp') -> wq_attr q = 13 -> sp (wq_node q) = Some n -> nd_kind n = KVariable v -> va_writer v = None ->
  exists x r n' v', same_bytes (st_value (wq_value q)) x /\ write_range (st_value (va_value v)) x (wq_range q) = WrVal r /\
    sp' (wq_node q) = Some n' /\ nd_kind n' = KVariable v' /\ va_value v' = mkSt r (st_status (wq_value q)).
Proof.
  intros E A Sn K W. pose proof (write_cases who sp q) as C. rewrite E in C.
  inversion C as [st N|n0 v0 x Al A' Sn0 K0 X Ch W0 R|n0 v0 x s Al A' Sn0 K0 X Ch W0 Eq|n0 v0 c Al A' Sn0 K0 V]; subst; try congruence.
  rewrite Sn in Sn0. injection Sn0 as <-. rewrite K in K0. injection K0 as <-. rewrite W in W0. destruct W0 as (r & R & ->).
  exists (convert (vt (va_type v)) (va_rank v) (st_value (wq_value q))), r, (set_kind n (KVariable (set_value v (mkSt r (st_status (wq_value q)))))), (set_value v (mkSt r (st_status (wq_value q)))).
  split; [apply convert_bytes|]. split; [exact R|]. split; [|split; reflexivity].
  unfold store in Eq. destruct (_ && _); [discriminate|]. injection Eq as <-. unfold put. now rewrite Z.eqb_refl.
Qed.
(** The check passed: what the rest of a write is *)
Lemma write_passes roles sp q n v : wq_attr q = 13 -> sp (wq_node q) = Some n -> nd_kind n = KVariable v -> user_may default roles n p_browse -> writable v -> user_may default roles n p_write ->
  va_writer v = None ->
  write_value (Session roles) sp q =
    let x := convert (vt (va_type v)) (va_rank v) (st_value (wq_value q)) in
    let status := check_value lim (vt (va_type v)) (va_rank v) x in
    if negb (status =? 0) then (Done status, sp)
    else match write_range (st_value (va_value v)) x (wq_range q) with
         | WrVal r => store sp (wq_node q) n v (mkSt r (st_status (wq_value q)))
         | WrBad status => (Done status, sp)
         | WrCrash => (Crashed, sp)
         end.
Proof.
  intros A Sn K B L P W. unfold NodeAccess.write_value. rewrite Sn, A, K, W. rewrite (proj2 (browsable_may roles n) B). change (13 =? at_value) with true. cbn [negb]. cbv iota.
  change al_write with (2 ^ 1). rewrite access_bit, level_bit by lia. rewrite L. rewrite (proj2 (write_bit v roles n) (conj L P)). reflexivity.
Qed.
Lemma fits_convert dest rank v : fits dest rank v -> convert dest rank v = v.
Proof.
  intros (t & k & E & D & R). unfold convert. destruct ((dest =? 3) && (rank =? 1)) eqn:A; destruct ((dest =? 15) && (rank =? -1)) eqn:B; try lia; destruct v as [| | | |t' l| | | |]; auto.
  - injection E as <- <-. lia.
  - destruct t' as [|[[]| |]|]; auto. injection E as <- <-. lia.
Qed.
Theorem write_permitted roles sp q n v : wq_attr q = 13 -> sp (wq_node q) = Some n -> nd_kind n = KVariable v -> user_may default roles n p_browse -> writable v -> user_may default roles n p_write ->
  va_writer v = None -> va_historizing v = false -> wq_range q = [] -> plain (st_value (wq_value q)) ->
  fits (vt (va_type v)) (va_rank v) (st_value (wq_value q)) -> within lim (st_value (wq_value q)) ->
  exists sp' n' v', write_value (Session roles) sp q = (Done 0, sp') /\ sp' (wq_node q) = Some n' /\ nd_kind n' = KVariable v' /\ va_value v' = wq_value q.
Proof.
  intros A Sn K B L P W H R Pl F Wi. rewrite (write_passes roles sp q n v) by assumption. cbv zeta. rewrite fits_convert by exact F.
  rewrite (proj2 (check_plain lim _ _ _ Pl) (conj F Wi)). cbn [negb Z.eqb]. rewrite R. cbn [write_range]. unfold store. rewrite H. cbn [andb].
  eexists _, _, _. split; [reflexivity|]. split; [unfold put; now rewrite Z.eqb_refl|]. split; [reflexivity|]. cbn. now destruct (wq_value q).
Qed.
(** A ByteString for a Byte array and the other way round *)
Theorem write_bytes_as_array roles sp q n v s : wq_attr q = 13 -> sp (wq_node q) = Some n -> nd_kind n = KVariable v -> user_may default roles n p_browse -> writable v -> user_may default roles n p_write ->
  va_writer v = None -> va_historizing v = false -> wq_range q = [] ->
  vt (va_type v) = 3 -> va_rank v = 1 -> st_value (wq_value q) = GBlob s -> Z.of_nat (length s) <= lm_array lim ->
  exists sp' n' v', write_value (Session roles) sp q = (Done 0, sp') /\ sp' (wq_node q) = Some n' /\ nd_kind n' = KVariable v' /\ va_value v' = mkSt (GArr 3 (map Z_of_byte s)) (st_status (wq_value q)).
Proof.
  intros A Sn K B L P W H R T Rk V Wi. rewrite (write_passes roles sp q n v) by assumption. cbv zeta. rewrite T, Rk, V, R. cbn [convert Z.eqb Pos.eqb andb check_value orb negb].
  unfold zlen. rewrite map_length, (proj2 (Z.ltb_ge _ _)) by exact Wi. cbn [check negb array_rank Z.eqb Pos.eqb orb write_range]. unfold store. rewrite H. cbn [andb].
  eexists _, _, _. split; [reflexivity|]. split; [unfold put; now rewrite Z.eqb_refl|]. split; reflexivity.
Qed.
Theorem write_array_as_bytes roles sp q n v l : wq_attr q = 13 -> sp (wq_node q) = Some n -> nd_kind n = KVariable v -> user_may default roles n p_browse -> writable v -> user_may default roles n p_write ->
  va_writer v = None -> va_historizing v = false -> wq_range q = [] ->
  vt (va_type v) = 15 -> va_rank v = -1 -> st_value (wq_value q) = GArr 3 l -> Z.of_nat (length l) <= lm_blob lim ->
  exists sp' n' v', write_value (Session roles) sp q = (Done 0, sp') /\ sp' (wq_node q) = Some n' /\ nd_kind n' = KVariable v' /\ va_value v' = mkSt (GBlob (map byte_of_Z l)) (st_status (wq_value q)).
Proof.
  intros A Sn K B L P W H R T Rk V Wi. rewrite (write_passes roles sp q n v) by assumption. cbv zeta. rewrite T, Rk, V, R. cbn [convert Z.eqb Pos.eqb andb check_value orb negb].
  unfold zlen. rewrite map_length, (proj2 (Z.ltb_ge _ _)) by exact Wi. cbn [check negb scalar_rank Z.eqb Pos.eqb orb write_range]. unfold store. rewrite H. cbn [andb].
  eexists _, _, _. split; [reflexivity|]. split; [unfold put; now rewrite Z.eqb_refl|]. split; reflexivity.
Qed.
Theorem write_historizing roles sp q n v c : wq_attr q = 20 -> sp (wq_node q) = Some n -> nd_kind n = KVariable v -> user_may default roles n p_browse -> user_may default roles n p_write_historizing ->
  st_value (wq_value q) = GScalar 1 c ->
  exists sp' n' v', write_value (Session roles) sp q = (Done 0, sp') /\ sp' (wq_node q) = Some n' /\ nd_kind n' = KVariable v' /\ va_historizing v' = negb (c =? 0).
Proof.
  intros A Sn K B P V. unfold NodeAccess.write_value. rewrite Sn, A, K, V. rewrite (proj2 (browsable_may roles n) B). change (20 =? at_value) with false. change (20 =? at_historizing) with true. cbn [negb]. cbv iota.
  change pm_write_historizing with (2 ^ 4). rewrite (proj2 (permitted_may roles n 4 ltac:(lia)) P). cbn [negb].
  eexists _, _, _. split; [reflexivity|]. split; [unfold put; now rewrite Z.eqb_refl|]. split; reflexivity.
Qed.

(** ** Where the check is too weak *)
Section Weak.
Variables (roles : option (list Z)) (sp : space) (n : node) (v : vardata) (id : Z).
Hypothesis Sn : sp id = Some n.
Hypothesis K : nd_kind n = KVariable v.
Hypothesis B : user_may default roles n p_browse.
Hypothesis L : writable v.
Hypothesis P : user_may default roles n p_write.
Hypothesis W : va_writer v = None.
Lemma passes x status : check_value lim (vt (va_type v)) (va_rank v) x = 0 -> convert (vt (va_type v)) (va_rank v) x = x -> va_historizing v = false ->
  write_value (Session roles) sp (mkWrite id 13 [] (mkSt x status)) = (Done 0, put sp id (set_kind n (KVariable (set_value v (mkSt x status))))).
Proof.
  intros C E H. rewrite (write_passes roles sp _ n v) by (try reflexivity; assumption). cbn [wq_value st_value wq_range st_status wq_node]. cbv zeta. rewrite E, C. cbn [negb Z.eqb write_range]. unfold store. now rewrite H.
Qed.
Theorem writes_null status : va_historizing v = false ->
  write_value (Session roles) sp (mkWrite id 13 [] (mkSt GNil status)) = (Done 0, put sp id (set_kind n (KVariable (set_value v (mkSt GNil status))))).
Proof. apply passes; [reflexivity|]. unfold convert. destruct (_ && _), (_ && _); reflexivity. Qed.
Theorem writes_matrix t els status : va_historizing v = false -> va_rank v <> -1 ->
  write_value (Session roles) sp (mkWrite id 13 [] (mkSt (GMatrix t els) status)) = (Done 0, put sp id (set_kind n (KVariable (set_value v (mkSt (GMatrix t els) status))))).
Proof.
  intros H R. apply passes; [|unfold convert; destruct (_ && _), (_ && _); reflexivity|exact H]. cbn [check_value]. apply check_spec. repeat split. apply Z.eqb_neq in R. now rewrite R.
Qed.
Theorem null_crashes range d status : spells_all range [d] -> bounded d -> first_of d < element_count (st_value (va_value v)) ->
  fst (write_value (Session roles) sp (mkWrite id 13 range (mkSt GNil status))) = Crashed.
Proof.
  intros S1 S2 S3. rewrite (write_passes roles sp _ n v) by (try reflexivity; assumption). cbn [wq_value st_value wq_range st_status wq_node]. cbv zeta.
  assert (convert (vt (va_type v)) (va_rank v) GNil = GNil) as -> by (unfold convert; destruct (_ && _), (_ && _); reflexivity). cbn [check_value negb Z.eqb].
  rewrite (other_kind_crashes _ GNil _ d); auto. destruct (st_value (va_value v)); cbn; tauto.
Qed.
Theorem historizing_crashes x status : va_historizing v = true -> va_historian v = false -> plain x -> fits (vt (va_type v)) (va_rank v) x -> within lim x ->
  fst (write_value (Session roles) sp (mkWrite id 13 [] (mkSt x status))) = Crashed.
Proof.
  intros H H' Pl F Wi. rewrite (write_passes roles sp _ n v) by (try reflexivity; assumption). cbn [wq_value st_value wq_range st_status wq_node]. cbv zeta.
  rewrite fits_convert by exact F. rewrite (proj2 (check_plain lim _ _ _ Pl) (conj F Wi)). cbn [negb Z.eqb write_range]. unfold store. now rewrite H, H'.
Qed.
End Weak.
(** When a write crashes *)
Theorem crash_causes who sp q sp' n v : write_value who sp q = (Crashed, sp') -> sp (wq_node q) = Some n -> nd_kind n = KVariable v ->
  (va_historizing v = true /\ va_historian v = false) \/
  (va_writer v = None /\ wq_range q <> [] /\ exists x, same_bytes (st_value (wq_value q)) x /\ ~ same_kind (st_value (va_value v)) x).
Proof.
  intros E Sn K. pose proof (write_cases who sp q) as C. rewrite E in C.
  inversion C as [st N|n0 v0 x Al A' Sn0 K0 X Ch W0 R|n0 v0 x s Al A' Sn0 K0 X Ch W0 Eq|n0 v0 c Al A' Sn0 K0 V]; subst; rewrite Sn in Sn0; injection Sn0 as <-; rewrite K in K0; injection K0 as <-.
  - right. split; [exact W0|]. split; [intros Z; rewrite Z in R; discriminate|]. eexists. split; [apply convert_bytes|]. intros S1. exact (same_kind_safe _ _ _ S1 R).
  - left. unfold store in Eq. destruct (va_historizing v), (va_historian v); try discriminate. tauto.
Qed.

End S.

(** * Browse *)
Section B.
Variable default : list perm.
Lemma right_direction_spec d r : 0 <= d <= 2 -> right_direction d r = true <-> d = 2 \/ (d = 0 /\ rf_inverse r = false) \/ (d = 1 /\ rf_inverse r = true).
Proof. intros D. unfold right_direction. destruct (rf_inverse r), (Z.eqb_spec d 1), (Z.eqb_spec d 2); cbn; split; intros; try reflexivity; try discriminate; try lia; intuition (try congruence; lia). Qed.
Lemma follows_spec sp q r : 0 <= bq_direction q <= 2 -> right_direction (bq_direction q) r && right_type sp q r = true <-> follows q sp r.
Proof.
  intros D. unfold follows, right_type. rewrite andb_true_iff, right_direction_spec by exact D. destruct (bq_type q) as [t|]; [|tauto].
  rewrite orb_true_iff, andb_true_iff, Z.eqb_eq, is_subtype_spec. intuition.
Qed.
Lemma class_bits k : class_of k = 2 ^ class_bit k.
Proof. destruct k; reflexivity. Qed.
Lemma class_bit_pos k : 0 <= class_bit k.
Proof. destruct k; cbn; lia. Qed.
Lemma masked_spec mask k : 0 <= k -> masked mask (2 ^ k) = Z.testbit mask k.
Proof. intros K. unfold masked. now apply land_bit. Qed.
Lemma class_test classes k : (classes =? 0) || masked classes (class_of k) = true <-> classes = 0 \/ Z.testbit classes (class_bit k) = true.
Proof. rewrite class_bits, masked_spec by apply class_bit_pos. rewrite orb_true_iff, Z.eqb_eq. tauto. Qed.
Lemma describe_spec sp mask r t : sp (rf_target r) = Some t -> describes sp mask r (describe mask r t).
Proof.
  intros E. exists t. split; [exact E|]. split; [reflexivity|]. unfold describe. cbn [ds_type ds_forward ds_class ds_name ds_display ds_definition].
  replace (masked mask 1) with (Z.testbit mask 0) by (symmetry; apply (masked_spec mask 0); lia). replace (masked mask 2) with (Z.testbit mask 1) by (symmetry; apply (masked_spec mask 1); lia). replace (masked mask 4) with (Z.testbit mask 2) by (symmetry; apply (masked_spec mask 2); lia). replace (masked mask 8) with (Z.testbit mask 3) by (symmetry; apply (masked_spec mask 3); lia). replace (masked mask 16) with (Z.testbit mask 4) by (symmetry; apply (masked_spec mask 4); lia). replace (masked mask 32) with (Z.testbit mask 5) by (symmetry; apply (masked_spec mask 5); lia).
  split; [reflexivity|]. split; [destruct (Z.testbit mask 1); reflexivity|]. split; [rewrite class_bits; reflexivity|]. split; [reflexivity|]. split; [reflexivity|].
  split.
  - intros id. destruct (Z.testbit mask 5); cbn [andb]; [|discriminate]. destruct (nd_kind t); try discriminate;
    (destruct (find _ (nd_refs t)) as [x|] eqn:F; [|discriminate]; intros [= <-]; apply find_some in F; destruct F as [F1 F2]; apply Z.eqb_eq in F2; split; [reflexivity|]; split; [cbn; lia|]; exists x; auto).
  - intros -> C (x & X1 & X2). cbn [andb].
    destruct (find (fun x => rf_type x =? has_type_definition) (nd_refs t)) as [y|] eqn:F; [|apply (find_none _ _ F) in X1; apply Z.eqb_neq in X1; contradiction].
    destruct (nd_kind t); cbn in C; try lia; discriminate.
Qed.
Lemma browse_refs_spec roles sp q l : 0 <= bq_direction q <= 2 ->
  match browse_refs default roles sp q l with
  | Refs ds => exists out, picks (wanted default roles sp q) l out /\ Forall2 (describes sp (bq_mask q)) out ds
  | BrowseBad st => st = 0x80340000 /\ exists r, In r l /\ follows q sp r /\ sp (rf_target r) = None
  end.
Proof.
  intros D. induction l as [|r l IH]; cbn [browse_refs]; [exists []; split; constructor|].
  assert (Skip : ~ wanted default roles sp q r -> match browse_refs default roles sp q l with
    | Refs ds => exists out, picks (wanted default roles sp q) (r :: l) out /\ Forall2 (describes sp (bq_mask q)) out ds
    | BrowseBad st => st = 0x80340000 /\ exists r', In r' (r :: l) /\ follows q sp r' /\ sp (rf_target r') = None
    end).
  { intros N. destruct (browse_refs default roles sp q l) as [ds|st].
    - destruct IH as (out & P & F). exists out. split; [now apply PicksSkip|exact F].
    - destruct IH as (E & x & I & H). split; [exact E|]. exists x. split; [now right|exact H]. }
  rewrite <- negb_andb. destruct (right_direction (bq_direction q) r && right_type sp q r) eqn:Fo; cbn [negb].
  - apply follows_spec in Fo; [|exact D]. destruct (sp (rf_target r)) as [t|] eqn:T.
    + rewrite <- negb_andb. destruct (browsable default roles t && _) eqn:W; cbn [negb].
      * apply andb_true_iff in W. destruct W as [W1 W2]. apply browsable_may in W1. apply class_test in W2.
        assert (Wa : wanted default roles sp q r) by (split; [exact Fo|]; exists t; auto).
        destruct (browse_refs default roles sp q l) as [ds|st].
        -- destruct IH as (out & P & F). exists (r :: out). split; [now apply PicksTake|]. constructor; [now apply describe_spec|exact F].
        -- destruct IH as (E & x & I & H). split; [exact E|]. exists x. split; [now right|exact H].
      * apply Skip. intros (_ & t' & T' & B & C). rewrite T in T'. injection T' as <-. apply browsable_may in B. apply class_test in C. rewrite B, C in W. discriminate.
    + split; [reflexivity|]. exists r. split; [now left|auto].
  - apply Skip. intros [F _]. apply follows_spec in F; [|exact D]. congruence.
Qed.
(** Every outcome of a browse *)
Theorem browse_outcome roles sp q :
  match browse default roles sp q with
  | Refs ds => exists n out, 0 <= bq_direction q <= 2 /\ sp (bq_node q) = Some n /\ user_may default roles n p_browse /\
      (forall t, bq_type q = Some t -> exists tn, sp t = Some tn /\ nd_kind tn = KReferenceType) /\
      picks (wanted default roles sp q) (nd_refs n) out /\ Forall2 (describes sp (bq_mask q)) out ds
  | BrowseBad st =>
      (st = 0x804D0000 /\ ~ 0 <= bq_direction q <= 2) \/
      (st = 0x80340000 /\ forall n, sp (bq_node q) = Some n -> ~ user_may default roles n p_browse) \/
      (st = 0x804C0000 /\ exists t, bq_type q = Some t /\ forall tn, sp t = Some tn -> nd_kind tn <> KReferenceType) \/
      (st = 0x80340000 /\ exists n r, sp (bq_node q) = Some n /\ In r (nd_refs n) /\ follows q sp r /\ sp (rf_target r) = None)
  end.
Proof.
  unfold browse. destruct ((bq_direction q <? 0) || (2 <? bq_direction q)) eqn:D; [left; split; [reflexivity|lia]|]. assert (D' : 0 <= bq_direction q <= 2) by lia.
  destruct (sp (bq_node q)) as [n|] eqn:Sn; [|right; left; split; [reflexivity|discriminate]].
  destruct (browsable default roles n) eqn:B; cbn [negb]; [apply browsable_may in B|right; left; split; [reflexivity|]; intros n' [= <-]; now apply not_browsable].
  assert (X : (forall t, bq_type q = Some t -> exists tn, sp t = Some tn /\ nd_kind tn = KReferenceType) ->
    match browse_refs default roles sp q (nd_refs n) with
  | Refs ds => exists n0 out, 0 <= bq_direction q <= 2 /\ Some n = Some n0 /\ user_may default roles n0 p_browse /\
      (forall t, bq_type q = Some t -> exists tn, sp t = Some tn /\ nd_kind tn = KReferenceType) /\
      picks (wanted default roles sp q) (nd_refs n0) out /\ Forall2 (describes sp (bq_mask q)) out ds
  | BrowseBad st =>
      (st = 0x804D0000 /\ ~ 0 <= bq_direction q <= 2) \/
      (st = 0x80340000 /\ forall n0, Some n = Some n0 -> ~ user_may default roles n0 p_browse) \/
      (st = 0x804C0000 /\ exists t, bq_type q = Some t /\ forall tn, sp t = Some tn -> nd_kind tn <> KReferenceType) \/
      (st = 0x80340000 /\ exists n0 r, Some n = Some n0 /\ In r (nd_refs n0) /\ follows q sp r /\ sp (rf_target r) = None)
  end).
  { intros T. pose proof (browse_refs_spec roles sp q (nd_refs n) D') as R. destruct (browse_refs default roles sp q (nd_refs n)) as [ds|st].
    - destruct R as (out & R1 & R2). exists n, out. auto 10.
    - destruct R as (E & r & R1 & R2). right. right. right. split; [exact E|]. exists n, r. tauto. }
  destruct (bq_type q) as [t|] eqn:T; [|apply X; discriminate]. destruct (sp t) as [tn|] eqn:Tn.
  - destruct (nd_kind tn) eqn:K; cbn [class_of Z.eqb Pos.eqb]; try (right; right; left; split; [reflexivity|]; exists t; split; [reflexivity|]; intros tn' E; rewrite Tn in E; injection E as <-; congruence).
    apply X. intros t' [= <-]. exists tn. auto.
  - right. right. left. split; [reflexivity|]. exists t. split; [reflexivity|]. intros tn E. congruence.
Qed.
Theorem browse_complete roles sp q n : 0 <= bq_direction q <= 2 -> sp (bq_node q) = Some n -> user_may default roles n p_browse ->
  (forall t, bq_type q = Some t -> exists tn, sp t = Some tn /\ nd_kind tn = KReferenceType) ->
  (forall r, In r (nd_refs n) -> follows q sp r -> sp (rf_target r) <> None) ->
  exists out ds, browse default roles sp q = Refs ds /\ picks (wanted default roles sp q) (nd_refs n) out /\ Forall2 (describes sp (bq_mask q)) out ds.
Proof.
  intros D Sn B T Z. pose proof (browse_outcome roles sp q) as O. destruct (browse default roles sp q) as [ds|st].
  - destruct O as (n' & out & _ & Sn' & _ & _ & P & F). rewrite Sn in Sn'. injection Sn' as <-. exists out, ds. auto.
  - exfalso. destruct O as [[_ O]|[[_ O]|[[_ O]|[_ O]]]].
    + auto.
    + exact (O n Sn B).
    + destruct O as (t & Et & O). destruct (T t Et) as (tn & E1 & E2). exact (O tn E1 E2).
    + destruct O as (n' & r & Sn' & I & F & N). rewrite Sn in Sn'. injection Sn' as <-. exact (Z r I F N).
Qed.
Theorem browse_dangling roles sp q n r : 0 <= bq_direction q <= 2 -> sp (bq_node q) = Some n -> user_may default roles n p_browse ->
  (forall t, bq_type q = Some t -> exists tn, sp t = Some tn /\ nd_kind tn = KReferenceType) ->
  In r (nd_refs n) -> follows q sp r -> sp (rf_target r) = None -> browse default roles sp q = BrowseBad 0x80340000.
Proof.
  intros D Sn B T I F N. unfold browse. rewrite Sn. replace ((bq_direction q <? 0) || (2 <? bq_direction q)) with false by lia. rewrite (proj2 (browsable_may default roles n) B). cbn [negb].
  assert (X : browse_refs default roles sp q (nd_refs n) = BrowseBad 0x80340000).
  { clear Sn B T. apply (follows_spec _ _ _ D) in F. revert I. generalize (nd_refs n). intros l. induction l as [|x l IH]; intros I; [destruct I|]. cbn [browse_refs]. rewrite <- negb_andb.
    destruct I as [<-|I].
    - rewrite F, N. reflexivity.
    - rewrite (IH I). destruct (negb (_ && _)); [reflexivity|]. destruct (sp (rf_target x)); [|reflexivity]. destruct (_ || _); reflexivity. }
  destruct (bq_type q) as [t|]; [|exact X]. destruct (T t eq_refl) as (tn & E1 & E2). rewrite E1, E2. exact X.
Qed.

(** * Call *)
Theorem call_spec roles sp object method h : call default roles sp object method = Run h <->
  exists n1 n2, sp object = Some n1 /\ (nd_kind n1 = KObject \/ nd_kind n1 = KObjectType) /\ user_may default roles n1 p_browse /\
    sp method = Some n2 /\ nd_kind n2 = KMethod true (Some h) /\ user_may default roles n2 p_browse /\ user_may default roles n2 p_call.
Proof.
  unfold call. split.
  - destruct (sp object) as [n1|]; [|discriminate]. destruct (browsable default roles n1) eqn:B1; [|discriminate]. cbn [negb].
    assert (X : forall n2, sp method = Some n2 -> negb (browsable default roles n2) = false -> forall ex h', nd_kind n2 = KMethod ex h' -> user_executable ex roles (nd_perms n2) default = true -> h' = Some h ->
      nd_kind n2 = KMethod true (Some h) /\ user_may default roles n2 p_browse /\ user_may default roles n2 p_call).
    { intros n2 _ B ex h' K U ->. apply executable_spec in U. destruct U as [-> U]. split; [exact K|]. split; [apply browsable_may; now destruct (browsable default roles n2)|exact U]. }
    intros H. exists n1.
    assert (H' : (nd_kind n1 = KObject \/ nd_kind n1 = KObjectType) /\ exists n2, sp method = Some n2 /\ nd_kind n2 = KMethod true (Some h) /\ user_may default roles n2 p_browse /\ user_may default roles n2 p_call).
    { destruct (nd_kind n1); try discriminate; (split; [tauto|]); (destruct (sp method) as [n2|] eqn:S2; [|discriminate]); (destruct (negb (browsable default roles n2)) eqn:B2; [discriminate|]);
        destruct (nd_kind n2) as [| |ex h'| | | | |] eqn:K2; try discriminate; (destruct (user_executable ex roles (nd_perms n2) default) eqn:U; [|discriminate]); cbn [negb] in H;
        (destruct h' as [c|]; [|discriminate]); injection H as <-; exists n2; split; [reflexivity| |reflexivity|]; apply (X n2 eq_refl B2 ex (Some c)); auto. }
    destruct H' as (K1 & n2 & S2 & R). exists n2. split; [reflexivity|]. split; [exact K1|]. split; [now apply browsable_may|]. tauto.
  - intros (n1 & n2 & S1 & K1 & B1 & S2 & K2 & B2 & C). rewrite S1, S2, K2, (proj2 (browsable_may default roles n1) B1), (proj2 (browsable_may default roles n2) B2). cbn [negb].
    rewrite (proj2 (executable_spec true roles (nd_perms n2) default)) by (split; [reflexivity|exact C]). cbn [negb]. destruct K1 as [-> | ->]; reflexivity.
Qed.
Theorem call_anywhere roles sp object object' method h n : call default roles sp object method = Run h ->
  sp object' = Some n -> nd_kind n = KObject -> user_may default roles n p_browse -> call default roles sp object' method = Run h.
Proof.
  intros C S' K B. apply call_spec in C. apply call_spec. destruct C as (n1 & n2 & C). exists n, n2. tauto.
Qed.
End B.

(** * Two writes at the same time *)
Theorem update_lost w1 w2 old out1 out2 : write_range old (fst w1) (snd w1) = WrVal out1 -> write_range old (fst w2) (snd w2) = WrVal out2 ->
  ws_value (wr_run w1 w2 old [Fetch true; Fetch false; Store true; Store false]) = out2.
Proof. intros E1 E2. unfold wr_run, wr_step. cbn [fold_left ws_value ws_first ws_second]. now rewrite E1, E2. Qed.

(** * Workers *)
Lemma set_at_length A i (x : A) l : length (set_at i x l) = length l.
Proof. revert i. induction l as [|y l IH]; intros [|i]; cbn; auto. Qed.
Lemma set_at_nth A i (x : A) l j : nth_error (set_at i x l) j = if Nat.eqb i j then (if Nat.ltb j (length l) then Some x else None) else nth_error l j.
Proof.
  revert i j. induction l as [|y l IH]; intros [|i] [|j]; cbn [set_at nth_error length Nat.eqb]; try reflexivity.
  - destruct (Nat.eqb i j); reflexivity.
  - rewrite IH. reflexivity.
Qed.
Lemma batch_step A (work : nat -> A) order l j : (forall i, In i order -> (i < length l)%nat) ->
  nth_error (fold_left (fun rs i => set_at i (work i) rs) order l) j = if existsb (Nat.eqb j) order then Some (work j) else nth_error l j.
Proof.
  revert l. induction order as [|i order IH]; intros l B; cbn [fold_left existsb]; [reflexivity|].
  rewrite IH by (intros k K; rewrite set_at_length; apply B; now right). rewrite set_at_nth. destruct (existsb (Nat.eqb j) order); [now rewrite orb_true_r|]. rewrite orb_false_r, (Nat.eqb_sym j i).
  destruct (Nat.eqb i j) eqn:E; [|reflexivity]. apply Nat.eqb_eq in E. subst j. now rewrite (proj2 (Nat.ltb_lt _ _) (B i (or_introl eq_refl))).
Qed.
Theorem batch_order A (none : A) work n order : Permutation order (seq 0 n) -> batch none work n order = map work (seq 0 n).
Proof.
  intros P. assert (X : forall j, nth_error (batch none work n order) j = nth_error (map work (seq 0 n)) j).
  { intros j. unfold batch. rewrite batch_step.
    - destruct (Nat.lt_ge_cases j n) as [L|L].
      + assert (existsb (Nat.eqb j) order = true) as ->. { apply existsb_exists. exists j. split; [|apply Nat.eqb_refl]. apply (Permutation_in _ (Permutation_sym P)), in_seq. lia. }
        rewrite (map_nth_error work j (seq 0 n) (d := j)); [reflexivity|]. rewrite (nth_error_nth' _ 0%nat) by (rewrite seq_length; exact L). now rewrite seq_nth.
      + destruct (existsb (Nat.eqb j) order) eqn:E.
        * apply existsb_exists in E. destruct E as (k & K & E). apply Nat.eqb_eq in E. subst k. apply (Permutation_in _ P), in_seq in K. lia.
        * rewrite (proj2 (nth_error_None _ _)) by (rewrite repeat_length; lia). symmetry. apply nth_error_None. rewrite map_length, seq_length. lia.
    - intros i I. rewrite repeat_length. apply (Permutation_in _ P), in_seq in I. lia. }
  revert X. generalize (batch none work n order), (map work (seq 0 n)). intros a. induction a as [|x a IH]; intros [|y b] X; [reflexivity|specialize (X 0%nat); discriminate|specialize (X 0%nat); discriminate|].
  f_equal; [specialize (X 0%nat); now injection X|]. apply IH. intros j. exact (X (S j)).
Qed.

(** * Anonymous users of the default configuration *)
Lemma anonymous_no n k : user_may default_permissions (Some [15644]) n k -> ~ In k [0; 5; 7; 11] -> exists l, nd_perms n = Some l.
Proof. unfold user_may. destruct (nd_perms n) as [l|]; [eauto|]. cbn [roles_of]. rewrite default_anonymous_may. contradiction. Qed.
Theorem anonymous_writes thumbprint app ep vt lim sp q r sp' :
  write_value default_permissions vt lim (Session (session_roles thumbprint default_rules IdAnonymous app ep)) sp q = (r, sp') ->
  sp' <> sp -> exists n l, sp (wq_node q) = Some n /\ nd_perms n = Some l.
Proof.
  intros E N. apply write_allowed in E; [|auto]. rewrite default_anonymous in E. destruct E as (roles & n & v & R & Sn & _ & _ & H). injection R as <-. exists n.
  enough (exists l, nd_perms n = Some l) as (l & L) by eauto. destruct H as [(_ & _ & H)|(_ & H)]; apply anonymous_no in H; auto; unfold p_write, p_write_historizing; cbn; lia.
Qed.
Theorem anonymous_calls thumbprint app ep sp object method h :
  call default_permissions (session_roles thumbprint default_rules IdAnonymous app ep) sp object method = Run h -> exists n l, sp method = Some n /\ nd_perms n = Some l.
Proof.
  intros C. apply call_spec in C. rewrite default_anonymous in C. destruct C as (n1 & n2 & _ & _ & _ & S2 & _ & _ & H). exists n2.
  enough (exists l, nd_perms n2 = Some l) as (l & L) by eauto. apply anonymous_no in H; auto. unfold p_call. cbn. lia.
Qed.
