(** Proofs about the subscriptions of a server. *)
From Coq Require Import ZArith List Bool Lia.
From Coq Require Import ZifyBool ZifyNat.
From Verif Require Import Bytes MonQueue Subscription SubscriptionSpec SubscriptionProofs SubServer SubServerSpec.
Import ListNotations.
Open Scope Z_scope.


Section P.
  Context {A : Type}.
  Variable max_subs : Z.
  Notation step := (sv_step (A := A) max_subs).
  Notation run := (sv_run (A := A) max_subs).
  Implicit Types st : sserver A.
  Implicit Types l : list (entry A).

  Lemma svrun_snoc ops o : run (ops ++ [o]) = (fst (step (fst (run ops)) o), snd (step (fst (run ops)) o) :: snd (run ops)).
  Proof. unfold sv_run. rewrite fold_left_app. cbn [fold_left]. unfold sv_step' at 1. destruct (step _ o). reflexivity. Qed.

  (** * Lists of entries *)
  Lemma lookup_nth id l k e : lookup id l = Some (k, e) -> nth_error l k = Some e /\ en_listed e = true /\ en_id e = id.
  Proof.
    revert k. induction l as [|x l IH]; intros k; cbn [lookup]; [discriminate|].
    destruct (en_listed x && (en_id x =? id)) eqn:C.
    - intros H. injection H as <- <-. apply andb_true_iff in C. split; [reflexivity|]. split; [apply C|lia].
    - destruct (lookup id l) as [[j y]|]; [|discriminate]. intros H. injection H as <- <-. exact (IH _ eq_refl).
  Qed.
  Lemma lookup_none id l : lookup id l = None <-> forall e, In e l -> en_listed e = true -> en_id e <> id.
  Proof.
    induction l as [|x l IH]; cbn [lookup]; [split; [intros _ e []|reflexivity]|].
    destruct (en_listed x && (en_id x =? id)) eqn:C.
    - split; [discriminate|]. intros H. exfalso. apply andb_true_iff in C. apply (H x); [now left|apply C|lia].
    - destruct (lookup id l) as [[j y]|] eqn:L.
      + split; [discriminate|]. intros H. exfalso. apply lookup_nth in L. destruct L as (L1 & L2 & L3). apply (H y); [right; now apply nth_error_In in L1|exact L2|exact L3].
      + split; [|reflexivity]. intros _ e [<-|He] HL; [destruct (Z.eqb_spec (en_id x) id); [rewrite HL in C; discriminate|assumption]|]. now apply IH.
  Qed.
  Lemma put_nth k x l j : nth_error (put_at k x l) j = if (j =? k)%nat then (match nth_error l j with Some _ => Some x | None => None end) else nth_error l j.
  Proof.
    revert k j. induction l as [|e l IH]; intros k j; cbn [put_at]; [destruct j, (_ =? k)%nat; reflexivity|].
    destruct k as [|k], j as [|j]; cbn [nth_error Nat.eqb]; try reflexivity. apply IH.
  Qed.
  Lemma put_ids k x l e : nth_error l k = Some e -> en_id x = en_id e -> map en_id (put_at k x l) = map en_id l.
  Proof.
    revert k. induction l as [|y l IH]; intros k N E; [destruct k; discriminate|]. destruct k as [|k]; cbn [put_at map nth_error] in *.
    - injection N as <-. now rewrite E.
    - f_equal. now apply IH.
  Qed.
  Lemma put_count k x l e : nth_error l k = Some e -> (en_listed x = true -> en_listed e = true) -> listed_count (put_at k x l) <= listed_count l.
  Proof.
    unfold listed_count. revert k. induction l as [|y l IH]; intros k N E; [destruct k; discriminate|]. destruct k as [|k]; cbn [put_at filter nth_error] in *.
    - injection N as ->. destruct (en_listed x) eqn:X; [rewrite E by reflexivity; cbn [length]; lia|]. destruct (en_listed e); cbn [length]; lia.
    - specialize (IH k N E). destruct (en_listed y); cbn [length]; lia.
  Qed.
  Lemma map_count (f : entry A -> entry A) l : (forall e, en_listed (f e) = true -> en_listed e = true) -> listed_count (map f l) <= listed_count l.
  Proof.
    intros H. unfold listed_count. induction l as [|y l IH]; cbn [map filter]; [lia|]. destruct (en_listed (f y)) eqn:F; [rewrite (H _ F); cbn [length]; lia|].
    destruct (en_listed y); cbn [length]; lia.
  Qed.
  Lemma put_in k x l y : In y (put_at k x l) -> y = x \/ In y l.
  Proof.
    revert k. induction l as [|e l IH]; intros k; cbn [put_at]; [intros []|]. destruct k as [|k]; intros [H|H]; auto; [right; now right|right; now left|].
    destruct (IH k H) as [E|E]; [now left|right; now right].
  Qed.

  (** * The limit *)
  Lemma drop_unlisted (c : entry A -> bool) e : en_listed (if en_listed e && c e then drop e else e) = true -> en_listed e = true.
  Proof. destruct (en_listed e) eqn:E; [reflexivity|]. cbn. congruence. Qed.
  Lemma count_step st o : 0 < max_subs -> listed_count (sv_all st) <= max_subs -> listed_count (sv_all (fst (step st o))) <= max_subs.
  Proof.
    intros M C. destruct o; cbn [sv_step].
    - replace (0 <? max_subs) with true by lia. cbn [andb]. destruct (Z.leb_spec max_subs (listed_count (sv_all st))); cbn [fst sv_all]; [exact C|].
      set (f := fun e : entry A => _). assert (F : listed_count (map f (sv_all st)) <= listed_count (sv_all st)).
      { apply map_count. intros e. subst f. cbn beta. destruct (en_id e =? _); [discriminate|auto]. }
      unfold listed_count in *. rewrite filter_app, app_length. cbn [filter en_listed length]. lia.
    - destruct (lookup id (sv_all st)) as [[k e]|] eqn:L; [|exact C]. destruct (guarded r && negb (en_owner e =? session)); [exact C|].
      destruct (sb_step (en_sub e) (request_op r)) as [s' ev]. cbn [fst sv_all]. apply lookup_nth in L. destruct L as (L1 & L2 & L3).
      etransitivity; [eapply put_count; [exact L1|auto]|exact C].
    - destruct (nth_error (sv_all st) k) as [e|] eqn:N; [|exact C]. destruct (internal o); [|exact C]. destruct (sb_step (en_sub e) o) as [s' ev]. cbn [fst sv_all].
      etransitivity; [eapply put_count; [exact N|]|exact C]. cbn [en_listed]. destruct ev; auto; discriminate.
    - cbn [fst sv_all]. etransitivity; [apply map_count|exact C]. intros e. apply (drop_unlisted (fun e => sb_max_life (en_sub e) <=? sb_life (en_sub e))).
    - cbn [fst sv_all]. etransitivity; [apply map_count|exact C]. intros e. apply (drop_unlisted (fun e => en_owner e =? session)).
  Qed.
  Lemma count_bound ops : 0 < max_subs -> listed_count (sv_all (fst (run ops))) <= max_subs.
  Proof.
    intros M. induction ops as [|o ops IH] using rev_ind; [cbn; lia|]. rewrite svrun_snoc. cbn [fst]. now apply count_step.
  Qed.

  (** * Identifiers *)
  Lemma creates_snoc (ops : list (svop A)) o : creates (ops ++ [o]) = (creates ops + creates [o])%nat.
  Proof. unfold creates. rewrite filter_app, app_length. reflexivity. Qed.
  Lemma created_cons (e : svev A) log : created (e :: log) = created log ++ created [e].
  Proof. unfold created. cbn [rev]. rewrite flat_map_app. cbn [app]. reflexivity. Qed.
  Definition numbered (n : nat) (st : sserver A) (log : list (svev A)) : Prop :=
    sv_last st = Z.of_nat n /\ NoDup (created log) /\ Forall (fun i => 1 <= i <= Z.of_nat n) (created log) /\ map en_id (sv_all st) = created log /\
    forall e, In e (sv_all st) -> corpse (en_sub e) /\ (en_listed e = false -> sb_alive (en_sub e) = false).
  Lemma step_request st o : creates [o] = 0%nat -> sv_last (fst (step st o)) = sv_last st /\ map en_id (sv_all (fst (step st o))) = map en_id (sv_all st) /\ created [snd (step st o)] = [].
  Proof.
    destruct o; intros C; [discriminate| | | |]; cbn [sv_step].
    - destruct (lookup id (sv_all st)) as [[k e]|] eqn:L; [|cbn; auto]. destruct (guarded r && negb (en_owner e =? session)); [cbn; auto|].
      destruct (sb_step (en_sub e) (request_op r)) as [s' ev]. cbn [fst sv_last sv_all snd]. apply lookup_nth in L. destruct L as (L1 & _). split; [reflexivity|]. split; [eapply put_ids; [exact L1|reflexivity]|reflexivity].
    - destruct (nth_error (sv_all st) k) as [e|] eqn:N; [|cbn; auto]. destruct (internal o); [|cbn; auto]. destruct (sb_step (en_sub e) o) as [s' ev]. cbn [fst sv_last sv_all snd]. split; [reflexivity|]. split; [eapply put_ids; [exact N|reflexivity]|reflexivity].
    - cbn [fst sv_last sv_all snd]. split; [reflexivity|]. split; [|reflexivity]. rewrite map_map. apply map_ext. intros e. destruct (_ && _); reflexivity.
    - cbn [fst sv_last sv_all snd]. split; [reflexivity|]. split; [|reflexivity]. rewrite map_map. apply map_ext. intros e. destruct (_ && _); reflexivity.
  Qed.
  Lemma dead_corpse (s : sub A) : corpse (dead s) /\ sb_alive (dead s) = false.
  Proof. split; [intros _; split; reflexivity|reflexivity]. Qed.
  Lemma delete_dead (s : sub A) : sb_alive (fst (sb_step s SDelete)) = false.
  Proof. cbn [sb_step]. destruct (sb_alive s) eqn:E; [reflexivity|exact E]. Qed.
  Lemma change_dead (s : sub A) o n : snd (sb_step s o) = EvStatusChange n -> sb_alive (fst (sb_step s o)) = false.
  Proof.
    destruct o; unfold sb_step, send_data, send_keepalive, no_request;
      repeat match goal with
           | |- context [match ?x with _ => _ end] => destruct x eqn:?
           | |- context [if ?x then _ else _] => destruct x eqn:?
           end; cbn; intros E; try discriminate; reflexivity.
  Qed.
  Lemma entries_step st o : creates [o] = 0%nat ->
    (forall e, In e (sv_all st) -> corpse (en_sub e) /\ (en_listed e = false -> sb_alive (en_sub e) = false)) ->
    forall e, In e (sv_all (fst (step st o))) -> corpse (en_sub e) /\ (en_listed e = false -> sb_alive (en_sub e) = false).
  Proof.
    intros C H. destruct o; [discriminate| | | |]; cbn [sv_step].
    - destruct (lookup id (sv_all st)) as [[k e]|] eqn:L; [|exact H]. destruct (guarded r && negb (en_owner e =? session)); [exact H|].
      apply lookup_nth in L. destruct L as (L1 & L2 & _). apply nth_error_In in L1. destruct (H _ L1) as [H1 H2].
      pose proof (corpse_step (en_sub e) (request_op r) H1) as C1. pose proof (delete_dead (en_sub e)) as D.
      destruct (sb_step (en_sub e) (request_op r)) as [s' ev] eqn:S. cbn [fst sv_all] in *. intros x Hx. apply put_in in Hx. destruct Hx as [->|Hx]; [|now apply H].
      cbn [en_sub en_listed]. split; [exact C1|]. intros N. destruct r; try congruence. cbn [request_op] in S. rewrite S in D. exact D.
    - destruct (nth_error (sv_all st) k) as [e|] eqn:N; [|exact H]. destruct (internal o); [|exact H]. apply nth_error_In in N. destruct (H _ N) as [H1 H2].
      pose proof (corpse_step (en_sub e) o H1) as C1. pose proof (change_dead (en_sub e) o) as D. pose proof (dead_stays (en_sub e) o) as DS.
      destruct (sb_step (en_sub e) o) as [s' ev]. cbn [fst snd sv_all] in *. intros x Hx. apply put_in in Hx. destruct Hx as [->|Hx]; [|now apply H].
      cbn [en_sub en_listed]. split; [exact C1|]. intros NL. destruct ev; try (apply DS, H2, NL). eapply D. reflexivity.
    - cbn [fst sv_all]. intros x Hx. apply in_map_iff in Hx. destruct Hx as (e & <- & He). destruct (_ && _); [|now apply H]. destruct (dead_corpse (en_sub e)). cbn. auto.
    - cbn [fst sv_all]. intros x Hx. apply in_map_iff in Hx. destruct Hx as (e & <- & He). destruct (_ && _); [|now apply H]. destruct (dead_corpse (en_sub e)). cbn. auto.
  Qed.
  Lemma numbered_run ops : Z.of_nat (creates ops) < 2 ^ 32 -> numbered (creates ops) (fst (run ops)) (snd (run ops)).
  Proof.
    induction ops as [|o ops IH] using rev_ind; intros B.
    - split; [reflexivity|]. split; [constructor|]. split; [constructor|]. split; [reflexivity|]. intros e [].
    - rewrite creates_snoc in *. specialize (IH ltac:(lia)). destruct IH as (I1 & I2 & I3 & I4 & I5). rewrite svrun_snoc. cbn [fst snd].
      set (st := fst (run ops)) in *. set (log := snd (run ops)) in *.
      destruct (creates [o]) as [|c] eqn:C.
      + destruct (step_request st o C) as (S1 & S2 & S3). unfold numbered. rewrite S1, S2, created_cons, S3, app_nil_r, Nat.add_0_r. repeat (split; [assumption|]). now apply entries_step.
      + destruct o; try discriminate. unfold creates in C. cbn in C. injection C as <-. cbn [sv_step]. rewrite I1.
        assert (U : u32 (Z.of_nat (creates ops) + 1) = Z.of_nat (creates ops) + 1) by (unfold u32; apply Z.mod_small; lia). rewrite U.
        assert (W : Forall (fun i => 1 <= i <= Z.of_nat (creates ops + 1)) (created log)) by (eapply Forall_impl; [|exact I3]; cbn; intros; lia).
        destruct ((0 <? max_subs) && (max_subs <=? listed_count (sv_all st))); unfold numbered; cbn [fst snd sv_last sv_all]; rewrite created_cons.
        * unfold created at 2 4 6. cbn. rewrite app_nil_r. split; [lia|]. split; [exact I2|]. split; [exact W|]. split; [exact I4|exact I5].
        * unfold created at 2 4 6. cbn [rev app flat_map].
          assert (M : map (fun e : entry A => if en_id e =? Z.of_nat (creates ops) + 1 then unlist e else e) (sv_all st) = sv_all st).
          { rewrite <- (map_id (sv_all st)) at 2. apply map_ext_in. intros e He. assert (K : In (en_id e) (created log)) by (rewrite <- I4; now apply in_map).
            rewrite Forall_forall in I3. specialize (I3 _ K). cbn in I3. destruct (Z.eqb_spec (en_id e) (Z.of_nat (creates ops) + 1)); [lia|reflexivity]. }
          rewrite M, map_app. cbn [map en_id]. rewrite I4. split; [lia|]. split; [|split; [|split; [reflexivity|]]].
          -- rewrite <- (rev_involutive (created log ++ _)). apply NoDup_rev. rewrite rev_app_distr. cbn [rev app]. constructor; [|now apply NoDup_rev].
             intros K. apply in_rev in K. rewrite Forall_forall in I3. specialize (I3 _ K). cbn in I3. lia.
          -- apply Forall_app. split; [exact W|]. repeat constructor; lia.
          -- intros e He. apply in_app_iff in He. destruct He as [He|[<-|[]]]; [now apply I5|]. cbn [en_sub en_listed]. split; [apply corpse_init|discriminate].
  Qed.
  Lemma ids_unique ops : Z.of_nat (creates ops) < 2 ^ 32 -> NoDup (created (snd (run ops))).
  Proof. intros H. apply (numbered_run ops H). Qed.

  (** * After deletion *)
  Lemma unlisted_step st o k e : nth_error (sv_all st) k = Some e -> en_listed e = false ->
    exists e', nth_error (sv_all (fst (step st o))) k = Some e' /\ en_listed e' = false.
  Proof.
    intros N L. destruct o; cbn [sv_step].
    - destruct (_ && _); cbn [fst sv_all]; [eauto|]. rewrite nth_error_app1 by (rewrite map_length; apply nth_error_Some; congruence).
      rewrite nth_error_map, N. cbn. eexists. split; [reflexivity|]. destruct (_ =? _); [reflexivity|exact L].
    - destruct (lookup id (sv_all st)) as [[j x]|] eqn:LK; [|eauto]. destruct (guarded r && negb (en_owner x =? session)); [eauto|].
      destruct (sb_step (en_sub x) (request_op r)) as [s' ev]. cbn [fst sv_all]. rewrite put_nth. destruct (Nat.eqb_spec k j) as [E|E]; [|eauto].
      subst j. apply lookup_nth in LK. destruct LK as (L1 & L2 & _). congruence.
    - destruct (nth_error (sv_all st) k0) as [x|] eqn:NX; [|eauto]. destruct (internal o); [|eauto]. destruct (sb_step (en_sub x) o) as [s' ev]. cbn [fst sv_all]. rewrite put_nth.
      destruct (Nat.eqb_spec k k0) as [E|E]; [|eauto]. subst k0. rewrite N. rewrite N in NX. injection NX as <-. eexists. split; [reflexivity|]. cbn. destruct ev; auto.
    - cbn [fst sv_all]. rewrite nth_error_map, N. cbn. rewrite L. cbn. eauto.
    - cbn [fst sv_all]. rewrite nth_error_map, N. cbn. rewrite L. cbn. eauto.
  Qed.
  Lemma svrun_app ops1 ops2 : fst (run (ops1 ++ ops2)) = fold_left (fun s o => fst (step s o)) ops2 (fst (run ops1)).
  Proof.
    induction ops2 as [|o ops2 IH] using rev_ind; [rewrite app_nil_r; reflexivity|]. rewrite app_assoc, svrun_snoc, fold_left_app. cbn [fst fold_left]. now rewrite IH.
  Qed.
  Lemma unlisted_stays ops2 : forall st k e, nth_error (sv_all st) k = Some e -> en_listed e = false ->
    exists e', nth_error (sv_all (fold_left (fun s o => fst (step s o)) ops2 st)) k = Some e' /\ en_listed e' = false.
  Proof.
    induction ops2 as [|o ops2 IH]; intros st k e N L; [eauto|]. cbn [fold_left]. destruct (unlisted_step st o k e N L) as (e' & N' & L'). eapply IH; eassumption.
  Qed.
  Lemma event_source st o k ev : snd (step st o) = VEv k ev -> exists e so, nth_error (sv_all st) k = Some e /\ ev = snd (sb_step (en_sub e) so).
  Proof.
    destruct o; cbn [sv_step].
    - destruct (_ && _); discriminate.
    - destruct (lookup id (sv_all st)) as [[j x]|] eqn:LK; [|discriminate]. destruct (guarded r && negb (en_owner x =? session)); [discriminate|].
      destruct (sb_step (en_sub x) (request_op r)) as [s' ev'] eqn:S. cbn [snd]. intros H. injection H as <- <-. exists x, (request_op r). rewrite S. split; [apply (lookup_nth _ _ _ _ LK)|reflexivity].
    - destruct (nth_error (sv_all st) k0) as [x|] eqn:NX; [|discriminate]. destruct (internal o); [|discriminate]. destruct (sb_step (en_sub x) o) as [s' ev'] eqn:S. cbn [snd]. intros H. injection H as <- <-. exists x, o. rewrite S. auto.
    - discriminate.
    - discriminate.
  Qed.
  Lemma deleted_quiet ops1 ops2 k e o ev : Z.of_nat (creates (ops1 ++ ops2)) < 2 ^ 32 ->
    nth_error (sv_all (fst (run ops1))) k = Some e -> en_listed e = false ->
    snd (step (fst (run (ops1 ++ ops2))) o) = VEv k ev -> sends ev = false.
  Proof.
    intros B N L H. destruct (event_source _ _ _ _ H) as (x & so & NX & ->).
    destruct (unlisted_stays ops2 _ _ _ N L) as (y & NY & LY). rewrite <- svrun_app in NY. rewrite NX in NY. injection NY as <-.
    destruct (numbered_run (ops1 ++ ops2) B) as (_ & _ & _ & _ & I5). destruct (I5 x (nth_error_In _ _ NX)) as [C1 C2]. apply corpse_quiet; auto.
  Qed.
  Lemma deleted_gone ops session id k ev : Z.of_nat (creates ops) < 2 ^ 32 -> snd (step (fst (run ops)) (VReq session id RDelete)) = VEv k ev ->
    lookup id (sv_all (fst (step (fst (run ops)) (VReq session id RDelete)))) = None.
  Proof.
    intros B H. destruct (numbered_run ops B) as (_ & ND & _ & I4 & _). set (st := fst (run ops)) in *. cbn [sv_step] in *. destruct (lookup id (sv_all st)) as [[j x]|] eqn:LK; [|discriminate].
    destruct (guarded RDelete && negb (en_owner x =? session)); [discriminate|]. destruct (sb_step (en_sub x) (request_op RDelete)) as [s' ev']. cbn [fst snd sv_all] in *.
    destruct (lookup_nth _ _ _ _ LK) as (L1 & L2 & L3). apply lookup_none. intros y Hy LY E. apply In_nth_error in Hy. destruct Hy as (i & Hy). rewrite put_nth in Hy.
    destruct (Nat.eqb_spec i j) as [EI|EI]; [rewrite EI, L1 in Hy; injection Hy as <-; discriminate|].
    apply EI. rewrite <- I4 in ND. apply (proj1 (NoDup_nth_error _) ND); [rewrite map_length; apply nth_error_Some; congruence|]. rewrite !nth_error_map, Hy, L1. cbn. congruence.
  Qed.
  Lemma expired_gone st k o n : snd (step st (VRun k o)) = VEv k (EvStatusChange n) -> exists e, nth_error (sv_all (fst (step st (VRun k o)))) k = Some e /\ en_listed e = false.
  Proof.
    cbn [sv_step]. destruct (nth_error (sv_all st) k) as [x|] eqn:NX; [|discriminate]. destruct (internal o); [|discriminate]. destruct (sb_step (en_sub x) o) as [s' ev']. cbn [snd fst sv_all]. intros H. injection H as ->.
    rewrite put_nth, Nat.eqb_refl, NX. eexists. split; reflexivity.
  Qed.

  (** * Ownership *)
  Lemma guarded_foreign st session id r k e : guarded r = true -> nth_error (sv_all st) k = Some e -> en_owner e <> session ->
    nth_error (sv_all (fst (step st (VReq session id r)))) k = Some e.
  Proof.
    intros G N O. cbn [sv_step]. destruct (lookup id (sv_all st)) as [[j x]|] eqn:LK; [|exact N]. rewrite G. cbn [andb]. destruct (Z.eqb_spec (en_owner x) session) as [E|E]; [|exact N]. cbn [negb].
    destruct (sb_step (en_sub x) (request_op r)) as [s' ev']. cbn [fst sv_all]. rewrite put_nth. destruct (Nat.eqb_spec k j) as [EJ|EJ]; [|exact N]. subst j. apply lookup_nth in LK. destruct LK as (L1 & _). congruence.
  Qed.
  Lemma named_only st session id r k e : nth_error (sv_all st) k = Some e -> en_id e <> id \/ en_listed e = false ->
    nth_error (sv_all (fst (step st (VReq session id r)))) k = Some e.
  Proof.
    intros N O. cbn [sv_step]. destruct (lookup id (sv_all st)) as [[j x]|] eqn:LK; [|exact N]. destruct (_ && _); [exact N|].
    destruct (sb_step (en_sub x) (request_op r)) as [s' ev']. cbn [fst sv_all]. rewrite put_nth. destruct (Nat.eqb_spec k j) as [EJ|EJ]; [|exact N]. subst j. apply lookup_nth in LK. destruct LK as (L1 & L2 & L3).
    destruct O; congruence.
  Qed.
  Lemma own_served ops k e r : Z.of_nat (creates ops) < 2 ^ 32 -> nth_error (sv_all (fst (run ops))) k = Some e -> en_listed e = true ->
    snd (step (fst (run ops)) (VReq (en_owner e) (en_id e) r)) = VEv k (snd (sb_step (en_sub e) (request_op r))).
  Proof.
    intros B N L. destruct (numbered_run ops B) as (_ & ND & _ & I4 & _). set (st := fst (run ops)) in *. cbn [sv_step]. destruct (lookup (en_id e) (sv_all st)) as [[j x]|] eqn:LK.
    - destruct (lookup_nth _ _ _ _ LK) as (L1 & L2 & L3).
      assert (J : j = k). { rewrite <- I4 in ND. apply (proj1 (NoDup_nth_error _) ND); [rewrite map_length; apply nth_error_Some; congruence|]. rewrite !nth_error_map, L1, N. cbn. congruence. }
      subst j. rewrite N in L1. injection L1 as <-. rewrite Z.eqb_refl, andb_false_r. destruct (sb_step (en_sub e) (request_op r)) as [s' ev']. reflexivity.
    - exfalso. rewrite lookup_none in LK. apply (LK e (nth_error_In _ _ N) L). reflexivity.
  Qed.
  Lemma unguarded_any st s1 s2 id r : guarded r = false -> step st (VReq s1 id r) = step st (VReq s2 id r).
  Proof. intros G. cbn [sv_step]. destruct (lookup id (sv_all st)) as [[j x]|]; [|reflexivity]. rewrite G. reflexivity. Qed.

  (** * Every subscription of the server is a run of the subscription machine *)
  Definition reachable (s : sub A) : Prop := exists e n k f ops, s = fst (sb_run (sub_init e n k f) ops).
  Lemma reachable_step s o : reachable s -> reachable (fst (sb_step s o)).
  Proof. intros (e & n & k & l & ops & ->). exists e, n, k, l, (ops ++ [o]). now rewrite run_fst. Qed.
  Lemma reachable_dead s : reachable s -> sb_alive s = true -> reachable (dead s).
  Proof. intros H A1. apply (reachable_step _ SDelete) in H. cbn [sb_step] in H. rewrite A1 in H. exact H. Qed.
  Lemma alive_step (s : sub A) o : sb_alive s = true -> o <> SDelete -> (forall n, snd (sb_step s o) <> EvStatusChange n) -> sb_alive (fst (sb_step s o)) = true.
  Proof.
    intros AL. destruct o; unfold sb_step, send_data, send_keepalive, no_request;
      repeat match goal with
           | |- context [match ?x with _ => _ end] => destruct x eqn:?
           | |- context [if ?x then _ else _] => destruct x eqn:?
           end; cbn; intros ND E; try assumption; try congruence; exfalso; eapply E; reflexivity.
  Qed.
  Lemma entries_ok ops e : In e (sv_all (fst (run ops))) -> reachable (en_sub e) /\ (en_listed e = true -> sb_alive (en_sub e) = true).
  Proof.
    revert e. induction ops as [|o ops IH] using rev_ind; [intros e []|]. rewrite svrun_snoc. cbn [fst]. set (st := fst (run ops)) in *. destruct o; cbn [sv_step].
    - destruct (_ && _); cbn [fst sv_all]; [exact IH|]. intros e He. apply in_app_iff in He. destruct He as [He|[<-|[]]].
      + apply in_map_iff in He. destruct He as (x & <- & Hx). destruct (_ =? _); [|now apply IH]. cbn. split; [now apply IH|discriminate].
      + cbn. split; [|reflexivity]. exists enabled, notif, keep, life, []. reflexivity.
    - destruct (lookup id (sv_all st)) as [[k x]|] eqn:L; [|exact IH]. destruct (guarded r && negb (en_owner x =? session)); [exact IH|].
      apply lookup_nth in L. destruct L as (L1 & L2 & _). apply nth_error_In in L1. destruct (IH _ L1) as [H1 H2].
      pose proof (reachable_step _ (request_op r) H1) as R1. pose proof (alive_step (en_sub x) (request_op r) (H2 L2)) as AS.
      assert (NS : forall n, snd (sb_step (en_sub x) (request_op r)) <> EvStatusChange n).
      { intros n. clear. destruct r; cbn [request_op sb_step]; repeat match goal with |- context [match ?x with _ => _ end] => destruct x end; discriminate. }
      destruct (sb_step (en_sub x) (request_op r)) as [s' ev]. cbn [fst snd sv_all] in *. intros e He. apply put_in in He. destruct He as [->|He]; [|now apply IH].
      cbn [en_sub en_listed]. split; [exact R1|]. intros N. destruct r; try discriminate; (apply AS; [discriminate|exact NS]).
    - destruct (nth_error (sv_all st) k) as [x|] eqn:N; [|exact IH]. destruct (internal o) eqn:IN; [|exact IH]. apply nth_error_In in N. destruct (IH _ N) as [H1 H2].
      pose proof (reachable_step _ o H1) as R1. pose proof (fun H => alive_step (en_sub x) o (H2 H)) as AS.
      destruct (sb_step (en_sub x) o) as [s' ev]. cbn [fst snd sv_all] in *. intros e He. apply put_in in He. destruct He as [->|He]; [|now apply IH].
      cbn [en_sub en_listed]. split; [exact R1|]. intros L. apply AS; [destruct ev; congruence|destruct o; discriminate|]. intros n E. rewrite E in L. discriminate.
    - cbn [fst sv_all]. intros e He. apply in_map_iff in He. destruct He as (x & <- & Hx). destruct (IH _ Hx) as [H1 H2]. destruct (en_listed x && _) eqn:C; [|auto]. apply andb_true_iff in C. destruct C as [C _].
      cbn. split; [now apply reachable_dead; auto|discriminate].
    - cbn [fst sv_all]. intros e He. apply in_map_iff in He. destruct He as (x & <- & Hx). destruct (IH _ Hx) as [H1 H2]. destruct (en_listed x && _) eqn:C; [|auto]. apply andb_true_iff in C. destruct C as [C _].
      cbn. split; [now apply reachable_dead; auto|discriminate].
  Qed.
End P.
