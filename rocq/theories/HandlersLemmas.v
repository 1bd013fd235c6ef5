(** Runs of the handlers that exist, and cases that meet the hypotheses of the theorems of
    HandlersProperties.v. *)
From Coq Require Import ZArith List String Bool Lia.
From Verif Require Import Handlers HandlerTable HandlersAnalysis HandlersSpec HandlersProofs HandlersCountProofs.
Import ListNotations.
Open Scope Z_scope.

(** A run exists when the analysis says so *)
Definition found (ps : list (event -> bool)) (service : string) (v : list nat) (x : exit) : bool :=
  match find (fun r => String.eqb (fst r) service) handlers with
  | Some r => match analyze (list nat) nats_eqb (vstep ps) (snd r) (caps ps []) with
              | Some l => existsb (fun o => nats_eqb (fst o) v && exit_eqb (snd o) x) l
              | None => false
              end
  | None => false
  end.

Lemma found_run ps service v x : found ps service v x = true -> exists t, handles service t x /\ caps ps t = v.
Proof.
  unfold found. destruct (find _ handlers) as [[s p]|] eqn:F; [|discriminate].
  apply find_some in F as [IN E]. cbn [fst] in E. apply String.eqb_eq in E. subst s. cbn [snd].
  destruct (analyze _ _ _ p _) as [l|] eqn:A; [|discriminate]. intros X.
  apply existsb_exists in X as ([v' x'] & I & E). cbn [fst snd] in E. apply andb_true_iff in E as [E1 E2].
  apply nats_eqb_eq in E1. apply exit_eqb_eq in E2. subst.
  destruct (analyze_complete _ _ nats_eqb_eq _ _ _ _ A _ _ I) as (t & R & F).
  exists t. split; [exists p; auto|]. now rewrite fold_caps in F.
Qed.

Definition act (a : string) (e : event) : bool := match e with Did (Act b) => String.eqb b a | _ => false end.
Definition cond (c : string) (v : bool) (e : event) : bool :=
  match e with Cond d w => String.eqb d c && Bool.eqb v w | _ => false end.

Lemma count_one_in q t : Nat.min 2 (count_if q t) = 1%nat -> exists e, In e t /\ q e = true.
Proof.
  intros H. assert (X : existsb q t = true) by (rewrite exists_count, H; reflexivity).
  apply existsb_exists in X. exact X.
Qed.

(** ** Requests that are never answered *)
Lemma silent_runs service : In service silent_services ->
  exists t, handles service t Fail /\ count_if is_answer t = 0%nat.
Proof.
  intros I. assert (F : found [is_answer] service [0%nat] Fail = true)
    by (repeat (destruct I as [<-|I]; [vm_compute; reflexivity|]); destruct I).
  destruct (found_run _ _ _ _ F) as (t & H & K). clear F. exists t. split; [exact H|].
  cbn [caps map] in K. apply (f_equal (fun l => List.hd O l)) in K. cbn [List.hd] in K. lia.
Qed.

(** A password that cannot be decrypted, on a session that exists *)
Lemma silent_activation : exists t, handles "ActivateSession" t Fail /\ count_if is_answer t = 0%nat /\
  In (Did (Act "srv.SessionManager().Get")) t /\ In (Cond "!ok" false) t /\
  In (Cond "case ua.UserNameIdentityToken" true) t.
Proof.
  pose (ps := [is_answer; act "srv.SessionManager().Get"; cond "!ok" false; cond "case ua.UserNameIdentityToken" true]).
  assert (F : found ps "ActivateSession" [0%nat; 1%nat; 1%nat; 1%nat] Fail = true) by (vm_compute; reflexivity).
  destruct (found_run _ _ _ _ F) as (t & H & K). clear F. exists t. split; [exact H|]. unfold ps in K. cbn [caps map] in K.
  pose proof (f_equal (fun l => nth 0 l 9%nat) K) as K0. pose proof (f_equal (fun l => nth 1 l 9%nat) K) as K1.
  pose proof (f_equal (fun l => nth 2 l 9%nat) K) as K2. pose proof (f_equal (fun l => nth 3 l 9%nat) K) as K3.
  clear K. cbn [nth] in K0, K1, K2, K3. split; [lia|].
  apply count_one_in in K1 as ([[]|] & I1 & E1); cbn in E1; try discriminate. apply String.eqb_eq in E1. subst.
  apply count_one_in in K2 as ([|] & I2 & E2); cbn in E2; try discriminate.
  apply andb_true_iff in E2 as [E2 E2']. apply String.eqb_eq in E2. destruct holds; [discriminate|]. subst.
  apply count_one_in in K3 as ([|] & I3 & E3); cbn in E3; try discriminate.
  apply andb_true_iff in E3 as [E3 E3']. apply String.eqb_eq in E3. destruct holds; [|discriminate]. subst. auto.
Qed.

Lemma fault_after_acknowledge : exists t, handles "Publish" t Return /\
  In (Did (Send true "ServiceFault" "BadNoSubscription")) t /\ In (Did (Act "sub.acknowledge")) t.
Proof.
  assert (F : found [is_fault_with "BadNoSubscription"; act "sub.acknowledge"] "Publish" [1%nat; 1%nat] Return = true)
    by (vm_compute; reflexivity).
  destruct (found_run _ _ _ _ F) as (t & H & K). clear F. exists t. split; [exact H|]. cbn [caps map] in K.
  pose proof (f_equal (fun l => nth 0 l 9%nat) K) as K0. pose proof (f_equal (fun l => nth 1 l 9%nat) K) as K1.
  clear K. cbn [nth] in K0, K1. split.
  - apply count_one_in in K0 as (e & I & E). destruct e as [[]|]; cbn in E; try discriminate. destruct own; [|discriminate].
    apply andb_true_iff in E as [E1 E2]. apply String.eqb_eq in E1, E2. now subst.
  - apply count_one_in in K1 as ([[]|] & I & E); cbn in E; try discriminate. apply String.eqb_eq in E. now subst.
Qed.

(** ** Requests that are not counted *)
Lemma history_read_answered : exists h, valid h /\ hd_service h = "HistoryRead"%string /\ hd_sid h = 7 /\
  reached h = true /\ faulted h = false /\ hd_exit h = Return /\
  existsb (fun e => match e with Did (Send true m _) => String.eqb m "HistoryReadResponse" | _ => false end) (hd_trace h) = true.
Proof.
  pose (r := fun e => match e with Did (Send true m _) => String.eqb m "HistoryReadResponse" | _ => false end).
  assert (F : found [is_abort; is_fault_with "BadSessionIDInvalid"; is_fault; r] "HistoryRead" [0%nat; 0%nat; 0%nat; 1%nat] Return = true)
    by (vm_compute; reflexivity).
  destruct (found_run _ _ _ _ F) as (t & H & K). clear F. exists (mkHandled "HistoryRead" 7 t Return).
  unfold valid, reached, faulted. cbn [hd_service hd_sid hd_trace hd_exit].
  cbn [caps map] in K. rewrite !exists_count. fold r.
  pose proof (f_equal (fun l => nth 0 l 9%nat) K) as K0. pose proof (f_equal (fun l => nth 1 l 9%nat) K) as K1.
  pose proof (f_equal (fun l => nth 2 l 9%nat) K) as K2. pose proof (f_equal (fun l => nth 3 l 9%nat) K) as K3.
  clear K. cbn [nth] in K0, K1, K2, K3. rewrite K0, K1, K2, K3. repeat split; auto.
Qed.

Lemma skipped_exist service code :
  In (service, code) [("Publish", "BadNoSubscription"); ("Republish", "BadMessageNotAvailable"); ("UnregisterNodes", "BadSessionNotActivated")]%string ->
  exists t, handles service t Return /\ In (Did (Send true "ServiceFault" code)) t.
Proof.
  intros I. assert (F : found [is_fault_with code] service [1%nat] Return = true).
  { repeat (destruct I as [E|I]; [injection E as <- <-; vm_compute; reflexivity|]). destruct I. }
  destruct (found_run _ _ _ _ F) as (t & H & K). clear F. exists t. split; [exact H|]. cbn [caps map] in K.
  apply (f_equal (fun l => List.hd O l)) in K. cbn [List.hd] in K.
  apply count_one_in in K as (e & X & E). destruct e as [[]|]; cbn in E; try discriminate. destruct own; [|discriminate].
  apply andb_true_iff in E as [E1 E2]. apply String.eqb_eq in E1, E2. now subst.
Qed.

Lemma history_read_refuted : (forall hs sid, Forall valid hs ->
    read_field diagnostics_fields (count_all hs) sid "HistoryReadCount" = Some (0, 0)) /\
  (exists hs, Forall valid hs /\ number (of_service "HistoryRead" 7) hs = 1 /\
     read_field diagnostics_fields (count_all hs) 7 "TotalRequestCount" = Some (0, 0)).
Proof.
  split; [exact history_read_never|].
  destruct history_read_answered as (h & V & S & I & R & F & X & _). exists [h].
  assert (FV : Forall valid [h]) by (constructor; [exact V|constructor]).
  split; [exact FV|]. split.
  - unfold number, of_service. cbn [filter]. rewrite S, I. reflexivity.
  - rewrite (total_counts _ _ FV). unfold number, of_session, queued_faults. cbn [filter map list_sum fold_right].
    rewrite S, I. cbn [andb]. change (existsb (String.eqb "HistoryRead") counted_services) with false. cbn [andb].
    cbn [List.length]. assert (Q : count_if is_queued_fault (hd_trace h) = 0%nat).
    { unfold valid in V. rewrite S in V. assert (C : vcheck [is_queued_fault]
        (fun s v _ => negb (String.eqb s "HistoryRead") || nats_eqb v [0%nat]) = true) by (vm_compute; reflexivity).
      pose proof (vcheck_sound _ _ C _ _ _ V) as K. clear C. cbn [String.eqb] in K.
      change (String.eqb "HistoryRead" "HistoryRead") with true in K. cbn [negb orb] in K. apply nats_eqb_eq in K.
      cbn [caps map] in K. apply (f_equal (fun l => List.hd O l)) in K. cbn [List.hd] in K. lia. }
    rewrite Q. destruct (7 =? 7); reflexivity.
Qed.

Lemma rejected_refuted service code :
  In (service, code) [("Publish", "BadNoSubscription"); ("Republish", "BadMessageNotAvailable"); ("UnregisterNodes", "BadSessionNotActivated")]%string ->
  exists h, valid h /\ hd_service h = service /\ In (Did (Send true "ServiceFault" code)) (hd_trace h) /\
    rejected h = true /\ dg_summary (count_all [h]) "summary.RejectedRequestsCount"%string = 0.
Proof.
  intros I. destruct (skipped_exist _ _ I) as (t & H & F). exists (mkHandled service 1 t Return).
  assert (V : valid (mkHandled service 1 t Return)) by exact H.
  cbn [hd_service hd_trace]. split; [exact V|]. split; [reflexivity|]. split; [exact F|]. split.
  - unfold rejected, faulted. cbn [hd_trace]. apply orb_true_iff. left. apply existsb_exists. eexists. split; [exact F|]. reflexivity.
  - destruct (in_range_all [mkHandled service 1 t Return]) as [_ R]. rewrite <- R.
    change (count_all [mkHandled service 1 t Return]) with (count_request diag_init (mkHandled service 1 t Return)).
    rewrite (skipped_faults _ _ code V); [reflexivity| |exact F].
    unfold skipped. apply existsb_exists. exists (service, code). split; [exact I|]. cbn [fst snd hd_service].
    now rewrite !String.eqb_refl.
Qed.

(** ** Cases that meet the hypotheses *)

(** A read that is answered *)
Example ex_run_read : exists t, handles "Read" t Return /\ existsb is_fault t = false /\ count_if is_answer t = 1%nat.
Proof.
  assert (F : found [is_fault; is_answer] "Read" [0%nat; 1%nat] Return = true) by (vm_compute; reflexivity).
  destruct (found_run _ _ _ _ F) as (t & H & K). clear F. exists t. cbn [caps map] in K. rewrite exists_count.
  pose proof (f_equal (fun l => nth 0 l 9%nat) K) as K0. pose proof (f_equal (fun l => nth 1 l 9%nat) K) as K1.
  cbn [nth] in K0, K1. rewrite K0. repeat split; auto. lia.
Qed.

(** Every service has runs that end in Return *)
Example ex_all_run : forall service p, In (service, p) handlers -> exists t, handles service t Return.
Proof.
  intros service p I.
  assert (F : forallb (fun r => found [is_answer] (fst r) [1%nat] Return) handlers = true) by (vm_compute; reflexivity).
  rewrite forallb_forall in F. specialize (F _ I). cbn [fst] in F.
  destruct (found_run _ _ _ _ F) as (t & H & _). eauto.
Qed.

(** A history with two sessions: counted, faulted and refused requests *)
Example ex_history : exists hs, Forall valid hs /\ Forall (fun h => not_counted h = false) hs /\
  number (fun h => of_service "Read" 1 h && reached h) hs = 1 /\ number rejected hs = 1 /\
  number (of_service "Write" 2) hs = 1.
Proof.
  assert (F : found [is_abort; is_fault_with "BadSessionIDInvalid"; is_fault] "Read" [0%nat; 0%nat; 0%nat] Return = true)
    by (vm_compute; reflexivity).
  assert (G : found [is_fault; is_abort] "Write" [1%nat; 0%nat] Return = true) by (vm_compute; reflexivity).
  destruct (found_run _ _ _ _ F) as (t & H & K). clear F. destruct (found_run _ _ _ _ G) as (u & H' & K'). clear G.
  exists [mkHandled "Read" 1 t Return; mkHandled "Write" 2 u Return]. cbn [caps map] in K, K'.
  pose proof (f_equal (fun l => nth 0 l 9%nat) K) as K0. pose proof (f_equal (fun l => nth 1 l 9%nat) K) as K1.
  pose proof (f_equal (fun l => nth 2 l 9%nat) K) as K2. pose proof (f_equal (fun l => nth 0 l 9%nat) K') as L0.
  pose proof (f_equal (fun l => nth 1 l 9%nat) K') as L1. clear K K'. cbn [nth] in K0, K1, K2, L0, L1.
  assert (E0 : existsb is_abort t = false) by now rewrite exists_count, K0.
  assert (E1 : existsb (is_fault_with "BadSessionIDInvalid") t = false) by now rewrite exists_count, K1.
  assert (E2 : existsb is_fault t = false) by now rewrite exists_count, K2.
  assert (E3 : existsb is_fault u = true) by now rewrite exists_count, L0.
  assert (E4 : existsb is_abort u = false) by now rewrite exists_count, L1.
  split; [repeat constructor; assumption|]. split; [repeat constructor; reflexivity|].
  unfold number, of_service, reached, rejected, faulted.
  cbn [filter hd_service hd_sid hd_trace]. rewrite E0, E1, E2, E3, E4. repeat split; reflexivity.
Qed.

Lemma all_offered service : In service offered_services ->
  exists t code, handles service t Return /\ In (Did (Send true (service ++ "Response") code)) t.
Proof.
  intros I.
  assert (F : forallb (fun s => found [fun e => match e with Did (Send true m _) => String.eqb m (s ++ "Response") | _ => false end] s [1%nat] Return) offered_services = true)
    by (vm_compute; reflexivity).
  rewrite forallb_forall in F. specialize (F _ I).
  destruct (found_run _ _ _ _ F) as (t & H & K). clear F. cbn [caps map] in K.
  apply (f_equal (fun l => List.hd O l)) in K. cbn [List.hd] in K.
  apply count_one_in in K as (e & X & E). destruct e as [[]|]; try discriminate. destruct own; [|discriminate].
  apply String.eqb_eq in E. subst. exists t, code. auto.
Qed.

Lemma handled_offered service t x : handles service t x -> In service offered_services.
Proof.
  intros (p & I & _). assert (F : forallb (fun r => isin (fst r) offered_services) handlers = true) by (vm_compute; reflexivity).
  rewrite forallb_forall in F. specialize (F _ I). now apply isin_in in F.
Qed.
