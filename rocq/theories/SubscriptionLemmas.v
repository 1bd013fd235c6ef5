(** Example runs and counterexamples about subscriptions. *)
From Coq Require Import ZArith List Bool Lia.
From Coq Require Import ZifyBool ZifyNat ZifyN.
From Verif Require Import Bytes Float FloatProofs SubParams SubParamsProofs MonQueue Subscription SubscriptionSpec SubscriptionProofs
  SubDeliveryProofs SubLifeProofs SubServer SubServerSpec SubServerProofs.
Import ListNotations.
Open Scope Z_scope.

(** * Parameters *)
Lemma params_bounded p k l : 0 <= k < 2 ^ 32 -> 0 <= l < 2 ^ 32 ->
  exists z, set_interval p = FFin z /\ f_int 125 <= z <= f_int 60000 /\
    let k' := set_keepalive (FFin z) k in let l' := set_lifetime (FFin z) k' l in
    1 <= k' /\ k' * z < f_int 60001 + z /\ 3 * k' <= l' < 2 ^ 32 /\ f_int 9999 < l' * z < f_int 3600001 + z.
Proof.
  intros K L. destruct (interval_bounds p) as (z & E & B). exists z. split; [exact E|]. split; [exact B|].
  assert (H := keepalive_bounds z B k K). assert (H2 := lifetime_bounds z B (set_keepalive (FFin z) k) l).
  cbv zeta in H, H2. specialize (H2 (proj1 H) (proj2 H) L). cbv zeta. tauto.
Qed.
Lemma params_kept z k l : f_int 125 <= z <= f_int 60000 -> 1 <= k < 2 ^ 32 -> k * z <= f_int 60000 ->
  3 * k <= l < 2 ^ 32 -> f_int 10000 <= l * z <= f_int 3600000 ->
  set_interval (FFin z) = FFin z /\ set_keepalive (FFin z) k = k /\ set_lifetime (FFin z) k l = l.
Proof.
  intros B K KB L LB. split; [exact (interval_kept z B)|]. split; [exact (keepalive_kept z B k K KB)|].
  exact (lifetime_kept z B k l (proj1 K) L LB).
Qed.
Lemma period_witness :
  set_interval (FFin (f_int 7000)) = FFin (f_int 7000) /\
  set_keepalive (FFin (f_int 7000)) 100 = 9 /\ set_lifetime (FFin (f_int 7000)) 9 1000 = 515.
Proof. vm_compute. auto. Qed.

(** * Publishing *)
Definition one_item (s : sub Z) : Prop :=
  sb_items s = [mkItem 1 MReporting false []] /\ sb_alive s = true /\ sb_enabled s = true /\ sb_max_notif s = 10.
Lemma one_round s : one_item s ->
  one_item (fst (sb_run s [SPut 1 true 10 7; STick [1] (Req true)])) /\
  exists m avail more, snd (sb_run s [SPut 1 true 10 7; STick [1] (Req true)]) = [EvData m avail more; EvQuiet].
Proof.
  destruct s as [items next q keep life late pubs en mn mk ml al]. unfold one_item. cbn. intros (-> & -> & -> & ->). cbn.
  split; [auto|]. do 3 eexists. reflexivity.
Qed.
Definition rounds (n : nat) : list (sbop Z) := concat (repeat [SPut 1 true 10 7; STick [1] (Req true)] n).
Lemma rounds_run n : forall s, one_item s -> length (numbers (snd (sb_run s (rounds n)))) = n /\ all_sent (snd (sb_run s (rounds n))).
Proof.
  induction n as [|n IH]; intros s H; [split; [reflexivity|intros e []]|].
  destruct (one_round s H) as (H1 & m & avail & more & E). destruct (IH _ H1) as (L & S1).
  unfold rounds. cbn [repeat concat]. rewrite run_app. cbn [snd]. rewrite E. fold (rounds n). split.
  - unfold numbers in *. rewrite rev_app_distr, flat_map_app, app_length. cbn [rev app flat_map number_of length]. lia.
  - intros e He. apply in_app_iff in He. destruct He as [He|[<-|[<-|[]]]]; [exact (S1 e He)|reflexivity|reflexivity].
Qed.
Lemma one_item_start : one_item (fst (sb_run (sub_init true 10 3 9) [SAddItem 1 MReporting])).
Proof. unfold one_item. cbn. auto. Qed.
Lemma wraps : exists ops : list (sbop Z), let log := snd (sb_run (sub_init true 10 3 9) ops) in
  all_sent log /\ In 0 (numbers log).
Proof.
  destruct (Z_of_nat_complete (2 ^ 32) ltac:(discriminate)) as [n Hn]. symmetry in Hn.
  exists ([SAddItem 1 MReporting] ++ rounds n). cbv zeta.
  assert (C := numbers_consecutive true 10 3 9 ([SAddItem 1 MReporting] ++ rounds n)).
  destruct (rounds_run n _ one_item_start) as (L & S1).
  assert (E : snd (sb_run (sub_init true 10 3 9) ([SAddItem 1 MReporting] ++ rounds n)) =
              snd (sb_run (fst (sb_run (sub_init true 10 3 9) [SAddItem 1 MReporting])) (rounds n)) ++ [EvQuiet]) by (rewrite run_app; reflexivity).
  split.
  - rewrite E. intros e He. apply in_app_iff in He. destruct He as [He|[<-|[]]]; [exact (S1 e He)|reflexivity].
  - rewrite C. assert (N : length (numbers (snd (sb_run (sub_init true 10 3 9) ([SAddItem 1 MReporting] ++ rounds n)))) = n).
    { rewrite E. unfold numbers in *. rewrite rev_app_distr. exact L. }
    rewrite N. unfold count_up. apply in_map_iff. exists (n - 1)%nat. split; [|apply in_seq; lia].
    replace (1 + Z.of_nat (n - 1)) with (2 ^ 32) by lia. reflexivity.
Qed.

(** A response that cannot be written leaves its message in the queue and its number in use. *)
Definition lost_ops : list (sbop Z) :=
  [SAddItem 1 MReporting; SPut 1 true 10 10; STick [1] (Req false); SPut 1 true 10 20; STick [1] (Req true)].
Lemma lost_run : let x := sb_run (sub_init true 10 3 9) lost_ops in
  map fst (sb_retrans (fst x)) = [1; 1] /\ numbers (snd x) = [1] /\ undisturbed 1 (sub_init true 10 3 9) lost_ops /\
  queued 1 lost_ops = [10; 20] /\ received 1 (snd x) = [20] /\ waiting 1 (fst x) = [].
Proof. vm_compute. repeat split; solve [discriminate | vm_compute; lia | exact I | reflexivity | (intros _; discriminate)]. Qed.

Definition good_ops : list (sbop Z) :=
  [SAddItem 1 MReporting; SAddItem 2 MReporting; SPut 1 true 10 10; SPut 1 true 10 11; SPut 2 true 10 20; SPut 1 true 10 12;
   STick [2; 1] (Req true); SAck 1; STick [1; 2] (Req true); STick [1; 2] (Req true); SRepublish 2 true].
Lemma good_run : let x := sb_run (sub_init true 2 3 9) good_ops in
  all_sent (snd x) /\ undisturbed 1 (sub_init true 2 3 9) good_ops /\
  rev (snd x) = [EvQuiet; EvQuiet; EvQuiet; EvQuiet; EvQuiet; EvQuiet;
    EvData (1, [(2, 20); (1, 10)]) [1] true; EvAck true; EvData (2, [(1, 11); (1, 12)]) [2] false; EvQuiet; EvRepublished (2, [(1, 11); (1, 12)])].
Proof.
  cbv zeta.
  assert (E : rev (snd (sb_run (sub_init true 2 3 9) good_ops)) = [EvQuiet; EvQuiet; EvQuiet; EvQuiet; EvQuiet; EvQuiet;
    EvData (1, [(2, 20); (1, 10)]) [1] true; EvAck true; EvData (2, [(1, 11); (1, 12)]) [2] false; EvQuiet; EvRepublished (2, [(1, 11); (1, 12)])])
    by (vm_compute; reflexivity).
  split; [|split; [|exact E]].
  - revert E. generalize (snd (sb_run (sub_init true 2 3 9) good_ops)). intros log E e He. apply in_rev in He. rewrite E in He. repeat (destruct He as [<-|He]; [reflexivity|]). destruct He.
  - clear E. vm_compute. repeat split; solve [discriminate | lia | exact I | reflexivity | (intros _; discriminate)].
Qed.
Lemma find_in {A} (items : list (item A)) id : find_item items id <> None -> In id (map it_id items).
Proof.
  intros H. destruct (find_item items id) as [i|] eqn:E; [|congruence]. apply find_some in E.
  replace id with (it_id i) by lia. apply in_map, E.
Qed.
Lemma kept_run : let s := fst (sb_run (sub_init true 2 3 9) (firstn 6 good_ops)) in
  snd (sb_step s (STick [2; 1] (Req true))) = EvData (1, [(2, 20); (1, 10)]) [1] true /\ covers [2; 1] s /\ has_waiting s /\
  sb_alive s = true.
Proof.
  cbv zeta. split; [vm_compute; reflexivity|]. split; [|split; [|vm_compute; reflexivity]].
  - intros id H. apply find_in in H. replace (map it_id _) with [1; 2] in H by (vm_compute; reflexivity). destruct H as [<-|[<-|[]]]; cbn; auto.
  - exists 1. eexists. split; [reflexivity|]. split; [left; reflexivity|discriminate].
Qed.
Lemma avail_exact {A} (s : sub A) o avail n : advertised (snd (sb_step s o)) = Some avail ->
  sb_alive (fst (sb_step s o)) = true ->
  (In n avail <-> exists m, fst m = n /\ snd (sb_step (fst (sb_step s o)) (SRepublish n true)) = EvRepublished m).
Proof.
  intros E Al. rewrite (advertised_step s o avail E). destruct (republish_exact _ n Al) as [(m & Hm & F & R)|(N & R)].
  - split; intros _; [exists m; auto|]. rewrite <- F. apply in_map, Hm.
  - split; [intros H; destruct (N H)|]. intros (m & _ & R'). rewrite R in R'. discriminate.
Qed.
(** A message is given out once more and is gone, without any acknowledgement. *)
Lemma republish_once : exists ops : list (sbop Z),
  let s := fst (sb_run (sub_init true 10 3 9) ops) in
  exists m, snd (sb_step s (SRepublish 1 true)) = EvRepublished m /\
    snd (sb_step (fst (sb_step s (SRepublish 1 true))) (SRepublish 1 true)) = EvNotAvailable.
Proof. exists [SAddItem 1 MReporting; SPut 1 true 10 10; STick [1] (Req true)]. vm_compute. eexists. split; reflexivity. Qed.

(** * Lifetime *)
Lemma late_expiry (k l : Z) : 2 <= k -> 1 <= l -> k + l < 2 ^ 32 ->
  exists ops1 ops2 : list (sbop Z), Forall served ops1 /\ Forall starved ops2 /\ Z.of_nat (ticks ops2) = l /\
    sb_alive (fst (sb_run (sub_init true 10 k l) (ops1 ++ ops2))) = true.
Proof.
  intros K L B. exists [STick [] (Req true)], (repeat (STick [] NoReq) (Z.to_nat l)).
  split; [repeat constructor|]. split; [apply starved_repeat|]. rewrite ticks_repeat. split; [lia|].
  rewrite (idle_life true 10 k l (Z.to_nat l)) by lia. lia.
Qed.
Lemma life_run : let s := sub_init (A := Z) true 10 3 9 in
  Forall served [STick [] (Req true); SAddItem (A := Z) 1 MReporting] /\
  sb_alive (fst (sb_run s ([STick [] (Req true)] ++ repeat (STick [] NoReq) 10))) = true /\
  sb_alive (fst (sb_run s ([STick [] (Req true)] ++ repeat (STick [] NoReq) 11))) = false.
Proof. split; [repeat constructor|]. vm_compute. auto. Qed.

(** * The server *)
Lemma protected_guarded r : protected r -> guarded r = true.
Proof. destruct r; cbn; tauto. Qed.
Lemma exposed_unguarded r : exposed r -> guarded r = false.
Proof. destruct r; cbn; tauto. Qed.
Lemma protected_kept {A} max_subs (st : sserver A) session id r k e : protected r ->
  nth_error (sv_all st) k = Some e -> en_owner e <> session ->
  nth_error (sv_all (fst (sv_step max_subs st (VReq session id r)))) k = Some e.
Proof. intros P. apply guarded_foreign, protected_guarded, P. Qed.
Lemma exposed_any {A} max_subs (st : sserver A) s1 s2 id r : exposed r ->
  sv_step max_subs st (VReq s1 id r) = sv_step max_subs st (VReq s2 id r).
Proof. intros P. apply unguarded_any, exposed_unguarded, P. Qed.
(** Session 2 takes the item and the message of session 1's subscription. *)
Definition foreign_ops : list (svop Z) :=
  [VCreate 1 true 10 3 9; VReq 1 1 (RAddItem 5 MReporting); VRun 0 (SPut 5 true 10 77); VRun 0 (STick [5] (Req true))].
Lemma foreign_run :
  snd (sv_step 10 (fst (sv_run 10 foreign_ops)) (VReq 2 1 (RRepublish 1 true))) = VEv 0 (EvRepublished (1, [(5, 77)])) /\
  snd (sv_step 10 (fst (sv_run 10 foreign_ops)) (VReq 2 1 (RAck 1))) = VEv 0 (EvAck true) /\
  option_map (fun e => length (sb_items (en_sub e)))
    (nth_error (sv_all (fst (sv_step 10 (fst (sv_run 10 foreign_ops)) (VReq 2 1 (RDelItem 5))))) 0) = Some 0%nat /\
  snd (sv_step 10 (fst (sv_run 10 foreign_ops)) (VReq 2 1 RDelete)) = VInvalid /\
  option_map en_owner (nth_error (sv_all (fst (sv_run 10 foreign_ops))) 0) = Some 1.
Proof. vm_compute. auto. Qed.
Lemma server_run :
  let x := sv_run 2 (A := Z) [VCreate 1 true 10 3 9; VCreate 2 true 10 3 9; VCreate 1 true 10 3 9; VReq 1 1 RDelete; VCreate 1 true 10 3 9] in
  created (snd x) = [1; 2; 4] /\ listed_count (sv_all (fst x)) = 2 /\ lookup 1 (sv_all (fst x)) = None.
Proof. vm_compute. auto. Qed.

(** * Deletion and the rest *)
Lemma request_no_panic {A} max_subs (ops : list (svop A)) session id r k :
  snd (sv_step max_subs (fst (sv_run max_subs ops)) (VReq session id r)) <> VEv k EvPanics.
Proof.
  intros H. cbn [sv_step] in H. destruct (lookup id (sv_all (fst (sv_run max_subs ops)))) as [[j e]|] eqn:E; [|discriminate].
  destruct (guarded r && _); [discriminate|].
  assert (X : In e (sv_all (fst (sv_run max_subs ops))) /\ en_listed e = true).
  { clear H. revert j E. generalize (sv_all (fst (sv_run max_subs ops))). intros xs. induction xs as [|x xs IH]; intros j; cbn; [discriminate|].
    destruct (en_listed x) eqn:El; cbn [andb].
    - destruct (en_id x =? id); [intros [= <- <-]; auto|]. destruct (lookup id xs) as [[j' y]|]; [|discriminate].
      intros [= <- <-]. destruct (IH _ eq_refl). auto.
    - destruct (lookup id xs) as [[j' y]|]; [|discriminate]. intros [= <- <-]. destruct (IH _ eq_refl). auto. }
  destruct (entries_ok max_subs ops e (proj1 X)) as [_ Al]. specialize (Al (proj2 X)).
  destruct (sb_step (en_sub e) (request_op r)) as [s' ev] eqn:Es. cbn [snd] in H. injection H as _ ->.
  destruct r; cbn [request_op sb_step] in Es; rewrite ?Al in Es; cbn [negb] in Es; try discriminate;
    try (destruct (remove_first _ _) as [[? ?]|]; [destruct ok|]; discriminate);
    try (destruct (remove_first _ _) as [[? ?]|]; discriminate).
Qed.
(** The subscription expires while a Publish request that found it is on its way to it. *)
Definition late_ops : list (svop Z) :=
  [VCreate 1 true 10 1 3; VRun 0 (STick [] NoReq); VRun 0 (STick [] NoReq); VRun 0 (STick [] NoReq)].
Lemma late_panics :
  snd (sv_step 10 (fst (sv_run 10 late_ops)) (VRun 0 (SLate [] true))) = VEv 0 EvPanics.
Proof. vm_compute. reflexivity. Qed.
(** Any operation on a deleted subscription reached through a pointer obtained before. *)
Lemma dead_panics (s : sub Z) n ok a b c id m : sb_alive s = false ->
  snd (sb_step s (SAck n)) = EvPanics /\ snd (sb_step s (SRepublish n ok)) = EvPanics /\
  snd (sb_step s (SModify a b c)) = EvPanics /\ snd (sb_step s (SAddItem id m)) = EvPanics /\ snd (sb_step s SDelete) = EvPanics.
Proof. intros H. cbn [sb_step]. rewrite H. auto. Qed.

(** Creations that are refused use up identifiers: with 2^32 - 2 of them the numbers begin again. *)
Lemma refused_run {A} max (all : list (entry A)) session en notif keep life n : forall last log, 0 < max -> max <= listed_count all -> 0 <= last < 2 ^ 32 ->
  fold_left (sv_step' max) (repeat (VCreate session en notif keep life) n) (mkSServer last all, log) =
  (mkSServer (u32 (last + Z.of_nat n)) all, repeat VTooMany n ++ log).
Proof.
  induction n as [|n IH]; intros last log M F L; cbn [repeat fold_left].
  - rewrite Z.add_0_r. unfold u32. rewrite Z.mod_small by lia. reflexivity.
  - unfold sv_step' at 2. cbn [fst snd sv_step sv_all sv_last].
    replace ((0 <? max) && (max <=? listed_count all)) with true by (symmetry; apply andb_true_intro; lia).
    rewrite IH by (try assumption; unfold u32; apply Z.mod_pos_bound; lia). f_equal.
    + f_equal. unfold u32. rewrite Zplus_mod_idemp_l. f_equal. lia.
    + change (VTooMany :: log) with ([@VTooMany A] ++ log). rewrite app_assoc. f_equal. clear. induction n as [|n IH]; [reflexivity|]. cbn [repeat app]. f_equal. exact IH.
Qed.
Lemma created_refused {A} n (a b : list (svev A)) : created (a ++ repeat VTooMany n ++ b) = created (a ++ b).
Proof.
  unfold created. rewrite !rev_app_distr, !flat_map_app, <- app_assoc. f_equal.
  replace (flat_map _ (rev (repeat VTooMany n))) with (@nil Z); [reflexivity|]. symmetry.
  assert (R : forall n, rev (repeat (@VTooMany A) n) = repeat VTooMany n).
  { intro m. induction m as [|m IH]; [reflexivity|]. cbn [repeat rev]. rewrite IH. clear. induction m as [|m IH]; [reflexivity|]. cbn [repeat app]. f_equal. exact IH. }
  rewrite R. clear. induction n as [|n IH]; [reflexivity|exact IH].
Qed.
Lemma run_log {A} max (ops : list (svop A)) : forall st log,
  fold_left (sv_step' max) ops (st, log) = (fst (fold_left (sv_step' max) ops (st, [])), snd (fold_left (sv_step' max) ops (st, [])) ++ log).
Proof.
  induction ops as [|o ops IH]; intros st log; [reflexivity|]. cbn [fold_left]. unfold sv_step' at 2 4 6. cbn [fst snd].
  destruct (sv_step max st o) as [s' e]. rewrite IH, (IH s' [e]). cbn [fst snd]. rewrite <- app_assoc. reflexivity.
Qed.
Definition used_up : list (svop Z) :=
  [VCreate 1 true 10 3 9; VCreate 2 true 10 3 9] ++ repeat (VCreate 2 true 10 3 9) (Z.to_nat (2 ^ 32 - 2))
  ++ [VReq 2 2 RDelete; VCreate 2 true 10 3 9; VCreate 2 true 10 3 9].
Lemma begins_again : exists ops : list (svop Z), let x := sv_run 2 ops in
  created (snd x) = [1; 2; 1; 2] /\
  length (filter (fun e => sb_alive (en_sub e)) (sv_all (fst x))) = 3%nat /\
  (forall r, protected r -> snd (sv_step 2 (fst x) (VReq 1 1 r)) = VInvalid) /\
  (exists e, nth_error (sv_all (fst (sv_step 2 (fst x) (VClose 1)))) 0 = Some e /\ en_owner e = 1 /\ sb_alive (en_sub e) = true).
Proof.
  exists used_up. unfold used_up, sv_run. rewrite !fold_left_app.
  set (n := Z.to_nat (2 ^ 32 - 2)). assert (N : Z.of_nat n = 2 ^ 32 - 2) by (unfold n; lia). clearbody n.
  match goal with |- context [fold_left (sv_step' 2) [VCreate 1 ?a ?b ?c ?d; ?y] ?i] =>
    let v := eval vm_compute in (fold_left (sv_step' 2) [VCreate 1 a b c d; y] i) in change (fold_left (sv_step' 2) [VCreate 1 a b c d; y] i) with v end.
  rewrite refused_run; [|reflexivity|vm_compute; discriminate|lia].
  rewrite N. change (u32 (2 + (2 ^ 32 - 2))) with 0. rewrite run_log. cbn [fst snd]. rewrite created_refused.
  split; [vm_compute; reflexivity|]. split; [vm_compute; reflexivity|]. split; [|eexists; vm_compute; split; [reflexivity|split; reflexivity]].
  intros r P. cbn [sv_step]. match goal with |- context [lookup 1 ?l] => let v := eval vm_compute in (lookup 1 l) in change (lookup 1 l) with v end.
  destruct r; cbn in P |- *; (reflexivity || contradiction).
Qed.
