(** Lemmas behind HandlersProperties.v: the counters. *)
From Coq Require Import ZArith List String Bool Lia.
From Verif Require Import Handlers HandlerTable HandlersAnalysis HandlersSpec HandlersProofs.
Import ListNotations.
Open Scope Z_scope.

Definition inc (c : string) (e : event) : bool :=
  match e with Did (Inc d) => String.eqb d c | _ => false end.

Lemma wrap_add a b : wrap32 (wrap32 a + b) = wrap32 (a + b).
Proof. unfold wrap32. now rewrite Zplus_mod_idemp_l. Qed.

Lemma wrap_wrap a : wrap32 (wrap32 a) = wrap32 a.
Proof. unfold wrap32. apply Z.mod_mod. lia. Qed.

(** ** A counter is the number of its increments *)
Lemma count_events_session sid c t : is_summary c = false -> forall d i,
  wrap32 (dg_session (fold_left (count_event sid) t d) i c) =
  wrap32 (dg_session d i c + if i =? sid then Z.of_nat (count_if (inc c) t) else 0).
Proof.
  intros S. induction t as [|e t IH]; intros d i.
  - cbn [fold_left count_if filter List.length]. f_equal. destruct (i =? sid); cbn; lia.
  - cbn [fold_left]. rewrite IH. clear IH.
    assert (N : count_if (inc c) (e :: t) = ((if inc c e then 1 else 0) + count_if (inc c) t)%nat)
      by (unfold count_if; cbn [filter]; destruct (inc c e); reflexivity).
    rewrite N. clear N. set (n := count_if (inc c) t). clearbody n.
    assert (K : wrap32 (dg_session (count_event sid d e) i c)
                = wrap32 (dg_session d i c + if i =? sid then if inc c e then 1 else 0 else 0)).
    { destruct e as [e|? ?]; [|cbn [count_event inc]; f_equal; destruct (i =? sid); lia].
      destruct e as [x| | | |]; try (cbn [count_event inc]; f_equal; destruct (i =? sid); lia).
      cbn [count_event inc]. destruct (is_summary x) eqn:X.
      - cbn [dg_session]. destruct (String.eqb x c) eqn:E; [apply String.eqb_eq in E; congruence|].
        f_equal. destruct (i =? sid); lia.
      - cbn [dg_session]. destruct (i =? sid); [|f_equal; lia].
        unfold bump. destruct (String.eqb x c); [apply wrap_wrap|f_equal; lia]. }
    rewrite <- wrap_add, K, wrap_add. f_equal. destruct (i =? sid); destruct (inc c e); lia.
Qed.

Lemma count_events_summary sid c t : is_summary c = true -> forall d,
  wrap32 (dg_summary (fold_left (count_event sid) t d) c) =
  wrap32 (dg_summary d c + Z.of_nat (count_if (inc c) t)).
Proof.
  intros S. induction t as [|e t IH]; intros d.
  - cbn [fold_left count_if filter List.length]. f_equal. lia.
  - cbn [fold_left]. rewrite IH. clear IH.
    assert (N : count_if (inc c) (e :: t) = ((if inc c e then 1 else 0) + count_if (inc c) t)%nat)
      by (unfold count_if; cbn [filter]; destruct (inc c e); reflexivity).
    rewrite N. clear N. set (n := count_if (inc c) t). clearbody n.
    assert (K : wrap32 (dg_summary (count_event sid d e) c)
                = wrap32 (dg_summary d c + if inc c e then 1 else 0)).
    { destruct e as [e|? ?]; [|cbn [count_event inc]; f_equal; lia].
      destruct e as [x| | | |]; try (cbn [count_event inc]; f_equal; lia).
      cbn [count_event inc]. destruct (is_summary x) eqn:X.
      - cbn [dg_summary]. unfold bump. destruct (String.eqb x c); [apply wrap_wrap|f_equal; lia].
      - cbn [dg_summary]. destruct (String.eqb x c) eqn:E; [apply String.eqb_eq in E; congruence|]. f_equal; lia. }
    rewrite <- wrap_add, K, wrap_add. f_equal. destruct (inc c e); lia.
Qed.

Definition sum_if (f : handled -> bool) (c : string) (hs : list handled) : nat :=
  list_sum (map (fun h => if f h then count_if (inc c) (hd_trace h) else 0%nat) hs).

Definition in_range (d : diag) : Prop :=
  (forall i c, wrap32 (dg_session d i c) = dg_session d i c) /\ (forall c, wrap32 (dg_summary d c) = dg_summary d c).

Lemma in_range_event sid d e : in_range d -> in_range (count_event sid d e).
Proof.
  intros [A B]. destruct e as [[]|]; try (split; assumption). cbn [count_event].
  destruct (is_summary counter); split; cbn [dg_session dg_summary]; try assumption; intros.
  - unfold bump. destruct (String.eqb counter c); [apply wrap_wrap|apply B].
  - destruct (i =? sid); [|apply A]. unfold bump. destruct (String.eqb counter c); [apply wrap_wrap|apply A].
Qed.

Lemma in_range_all hs : in_range (count_all hs).
Proof.
  unfold count_all. assert (in_range diag_init) as H by (split; reflexivity).
  revert H. generalize diag_init. induction hs as [|h hs IH]; intros d H; [exact H|].
  cbn [fold_left]. apply IH. unfold count_request. generalize (hd_trace h). intros t. clear - H.
  revert d H. induction t as [|e t IH]; intros d H; [exact H|]. cbn [fold_left]. apply IH. now apply in_range_event.
Qed.

Lemma session_counter hs sid c : is_summary c = false ->
  dg_session (count_all hs) sid c = wrap32 (Z.of_nat (sum_if (fun h => hd_sid h =? sid) c hs)).
Proof.
  intros S. destruct (in_range_all hs) as [A _]. rewrite <- A. clear A.
  unfold count_all. assert (K : forall d, wrap32 (dg_session (fold_left count_request hs d) sid c) =
    wrap32 (dg_session d sid c + Z.of_nat (sum_if (fun h => hd_sid h =? sid) c hs))).
  { induction hs as [|h hs IH]; intros d.
    - cbn. now rewrite Z.add_0_r.
    - cbn [fold_left]. rewrite IH, <- wrap_add. unfold count_request at 1. rewrite (count_events_session _ _ _ S), wrap_add.
      f_equal. unfold sum_if. cbn [map list_sum fold_right]. rewrite (Z.eqb_sym sid).
      change (fold_right Nat.add 0%nat) with list_sum. destruct (hd_sid h =? sid); lia. }
  rewrite K. reflexivity.
Qed.

Lemma summary_counter hs c : is_summary c = true ->
  dg_summary (count_all hs) c = wrap32 (Z.of_nat (sum_if (fun _ => true) c hs)).
Proof.
  intros S. destruct (in_range_all hs) as [_ A]. rewrite <- A. clear A.
  unfold count_all. assert (K : forall d, wrap32 (dg_summary (fold_left count_request hs d) c) =
    wrap32 (dg_summary d c + Z.of_nat (sum_if (fun _ => true) c hs))).
  { induction hs as [|h hs IH]; intros d.
    - cbn. now rewrite Z.add_0_r.
    - cbn [fold_left]. rewrite IH, <- wrap_add. unfold count_request at 1. rewrite (count_events_summary _ _ _ S), wrap_add.
      f_equal. unfold sum_if. cbn [map list_sum fold_right].
      change (fold_right Nat.add 0%nat) with list_sum. lia. }
  rewrite K. reflexivity.
Qed.

Lemma sum_number (f : handled -> bool) c (g : handled -> bool) hs :
  (forall h, In h hs -> (if f h then count_if (inc c) (hd_trace h) else 0%nat) = if g h then 1%nat else 0%nat) ->
  Z.of_nat (sum_if f c hs) = number g hs.
Proof.
  unfold sum_if, number. induction hs as [|h hs IH]; intros H; [reflexivity|].
  cbn [map list_sum fold_right filter]. change (fold_right Nat.add 0%nat) with list_sum.
  rewrite (H h) by (left; reflexivity). rewrite Nat2Z.inj_add, IH by (intros; apply H; now right).
  destruct (g h); cbn [List.length]; lia.
Qed.

(** The same with an extra amount *)
Lemma sum_number_extra (f : handled -> bool) c (g : handled -> bool) (extra : handled -> nat) hs :
  (forall h, In h hs -> (if f h then count_if (inc c) (hd_trace h) else 0%nat) = ((if g h then 1 else 0) + extra h)%nat) ->
  Z.of_nat (sum_if f c hs) = number g hs + Z.of_nat (list_sum (map extra hs)).
Proof.
  unfold sum_if, number. induction hs as [|h hs IH]; intros H; [reflexivity|].
  cbn [map list_sum fold_right filter]. change (fold_right Nat.add 0%nat) with list_sum.
  rewrite (H h) by (left; reflexivity). rewrite !Nat2Z.inj_add, IH by (intros; apply H; now right).
  destruct (g h); cbn [List.length]; lia.
Qed.

(** ** The increments of each handler *)
Definition preds (total : string) : list (event -> bool) :=
  [is_abort; is_fault_with "BadSessionIDInvalid"; is_fault; inc total].

Definition got (n : nat) : bool := negb (n =? 0)%nat.
Definition as_count (b : bool) : nat := if b then 1%nat else 0%nat.

Definition ok_total (svcs : list string) (s : string) (v : list nat) (x : exit) : bool :=
  match v with
  | [a; i; f; n] => (n =? as_count (isin s svcs && negb (got a) && negb (got i)))%nat
  | _ => false
  end.

Definition ok_errors (svcs : list string) (s : string) (v : list nat) (x : exit) : bool :=
  match v with
  | [a; i; f; n] => (n =? as_count (isin s svcs && negb (got a) && negb (got i) && got f))%nat
  | _ => false
  end.

Lemma exact_cap n b : (Nat.min 2 n =? as_count b)%nat = true -> n = as_count b.
Proof. intros H. apply Nat.eqb_eq in H. unfold as_count in *; destruct b; lia. Qed.

Lemma got_exists q t : got (Nat.min 2 (count_if q t)) = existsb q t.
Proof. unfold got. now rewrite exists_count. Qed.

Lemma total_incs svcs total : vcheck (preds total) (ok_total svcs) = true ->
  forall h, valid h -> count_if (inc total) (hd_trace h) = as_count (isin (hd_service h) svcs && reached h).
Proof.
  intros C h V. pose proof (vcheck_sound _ _ C _ _ _ V) as K. clear C. cbn [caps preds map ok_total] in K.
  apply exact_cap in K. rewrite K. unfold reached. rewrite !got_exists, !andb_assoc. reflexivity.
Qed.

Lemma error_incs svcs errors : vcheck (preds errors) (ok_errors svcs) = true ->
  forall h, valid h -> count_if (inc errors) (hd_trace h) = as_count (isin (hd_service h) svcs && reached h && faulted h).
Proof.
  intros C h V. pose proof (vcheck_sound _ _ C _ _ _ V) as K. clear C. cbn [caps preds map ok_errors] in K.
  apply exact_cap in K. rewrite K. unfold reached, faulted. rewrite !got_exists, !andb_assoc. reflexivity.
Qed.

(** The counters that queued faults also move *)
Definition dstate : Type := Z * list nat.
Definition d_eqb (a b : dstate) : bool := (fst a =? fst b) && nats_eqb (snd a) (snd b).
Lemma d_eqb_eq a b : d_eqb a b = true <-> a = b.
Proof.
  destruct a, b. unfold d_eqb. cbn [fst snd]. rewrite andb_true_iff, Z.eqb_eq, nats_eqb_eq.
  split; [intros [-> ->]; reflexivity|]. intros [= -> ->]; auto.
Qed.

Definition dpreds : list (event -> bool) := [is_abort; is_fault_with "BadSessionIDInvalid"; is_fault].
Definition dstep (c : string) (s : dstate) (e : event) : dstate :=
  (fst s + (if inc c e then 1 else 0) - (if is_queued_fault e then 1 else 0), vstep dpreds (snd s) e).

Lemma dfold c t : forall z v, fold_left (dstep c) t (z, v) =
  (z + Z.of_nat (count_if (inc c) t) - Z.of_nat (count_if is_queued_fault t), fold_left (vstep dpreds) t v).
Proof.
  induction t as [|e t IH]; intros z v; cbn [fold_left].
  - unfold count_if. cbn. f_equal. lia.
  - unfold dstep at 2. cbn [fst snd]. rewrite IH. f_equal. unfold count_if. cbn [filter].
    destruct (inc c e), (is_queued_fault e); cbn [List.length]; lia.
Qed.

Definition ok_diff (svcs : list string) (s : string) (st : dstate) (x : exit) : bool :=
  match snd st with
  | [a; i; f] => fst st =? Z.of_nat (as_count (isin s svcs && negb (got a) && negb (got i) && got f))
  | _ => false
  end.

Lemma diff_incs svcs c : check dstate d_eqb (dstep c) (0, caps dpreds []) (ok_diff svcs) = true ->
  forall h, valid h -> count_if (inc c) (hd_trace h) =
    (as_count (isin (hd_service h) svcs && reached h && faulted h) + count_if is_queued_fault (hd_trace h))%nat.
Proof.
  intros C h V. pose proof (check_sound _ _ d_eqb_eq _ _ _ C _ _ _ V) as K. clear C.
  rewrite dfold, fold_caps in K. unfold ok_diff in K. cbn [snd fst caps dpreds map] in K.
  apply Z.eqb_eq in K. rewrite !got_exists in K. unfold reached, faulted. rewrite !andb_assoc. lia.
Qed.

Definition total_of (svc : string) : option (string * string) :=
  match find (fun r => String.eqb (fst r) (svc ++ "Count")) diagnostics_fields with Some (_, p) => Some p | None => None end.

Definition ok_service (svc : string) : bool :=
  match total_of svc with
  | Some (total, errors) =>
      negb (is_summary total) && negb (is_summary errors) &&
      vcheck (preds total) (ok_total [svc]) &&
      (if String.eqb svc "Publish" then check dstate d_eqb (dstep errors) (0, caps dpreds []) (ok_diff [svc])
       else vcheck (preds errors) (ok_errors [svc]))
  | None => false
  end.

Lemma ok_services : forallb ok_service counted_services = true.
Proof. vm_compute. reflexivity. Qed.

Lemma isin_single s svc : isin s [svc] = String.eqb s svc.
Proof. unfold isin. cbn [existsb]. apply orb_false_r. Qed.

Lemma service_counts hs sid svc : Forall valid hs -> In svc counted_services ->
  read_field diagnostics_fields (count_all hs) sid (svc ++ "Count") =
  Some (wrap32 (number (fun h => of_service svc sid h && reached h) hs),
        wrap32 (number (fun h => of_service svc sid h && reached h && faulted h) hs +
                if String.eqb svc "Publish" then queued_faults sid hs else 0)).
Proof.
  intros V I. rewrite Forall_forall in V. pose proof ok_services as C. rewrite forallb_forall in C. specialize (C _ I).
  unfold ok_service, total_of in C. unfold read_field.
  destruct (find _ diagnostics_fields) as [[? [total errors]]|]; [|discriminate C].
  apply andb_true_iff in C as [C CE]. apply andb_true_iff in C as [C CT]. apply andb_true_iff in C as [ST SE].
  apply negb_true_iff in ST, SE. rewrite !session_counter by assumption. f_equal. f_equal.
  - f_equal. apply sum_number. intros h IN. rewrite (total_incs _ _ CT h (V _ IN)), isin_single.
    unfold of_service. destruct (String.eqb (hd_service h) svc), (hd_sid h =? sid), (reached h); reflexivity.
  - destruct (String.eqb svc "Publish") eqn:P.
    + f_equal. rewrite (sum_number_extra _ _ (fun h => of_service svc sid h && reached h && faulted h)
        (fun h => if hd_sid h =? sid then count_if is_queued_fault (hd_trace h) else 0%nat)); [reflexivity|].
      intros h IN. rewrite (diff_incs _ _ CE h (V _ IN)), isin_single. unfold of_service.
      destruct (String.eqb (hd_service h) svc), (hd_sid h =? sid), (reached h), (faulted h); cbn; lia.
    + rewrite Z.add_0_r. f_equal. apply sum_number. intros h IN. rewrite (error_incs _ _ CE h (V _ IN)), isin_single.
      unfold of_service. destruct (String.eqb (hd_service h) svc), (hd_sid h =? sid), (reached h), (faulted h); reflexivity.
Qed.

Lemma total_counts hs sid : Forall valid hs ->
  read_field diagnostics_fields (count_all hs) sid "TotalRequestCount" =
  Some (wrap32 (number (fun h => of_session sid h && reached h) hs),
        wrap32 (number (fun h => of_session sid h && reached h && faulted h) hs + queued_faults sid hs)).
Proof.
  intros V. rewrite Forall_forall in V.
  assert (CT : vcheck (preds "requestCount") (ok_total counted_services) = true) by (vm_compute; reflexivity).
  assert (CE : check dstate d_eqb (dstep "errorCount") (0, caps dpreds []) (ok_diff counted_services) = true)
    by (vm_compute; reflexivity).
  change (read_field diagnostics_fields (count_all hs) sid "TotalRequestCount")
    with (Some (dg_session (count_all hs) sid "requestCount"%string, dg_session (count_all hs) sid "errorCount"%string)).
  rewrite !session_counter by reflexivity. f_equal. f_equal; f_equal.
  - apply sum_number. intros h IN. rewrite (total_incs _ _ CT h (V _ IN)).
    unfold of_session. fold (isin (hd_service h) counted_services).
    destruct (isin (hd_service h) counted_services), (hd_sid h =? sid), (reached h); reflexivity.
  - rewrite (sum_number_extra _ _ (fun h => of_session sid h && reached h && faulted h)
        (fun h => if hd_sid h =? sid then count_if is_queued_fault (hd_trace h) else 0%nat)); [reflexivity|].
    intros h IN. rewrite (diff_incs _ _ CE h (V _ IN)). unfold of_session. fold (isin (hd_service h) counted_services).
    destruct (isin (hd_service h) counted_services), (hd_sid h =? sid), (reached h), (faulted h); cbn; lia.
Qed.

(** A counter no handler moves *)
Lemma still_counter c hs sid : is_summary c = false -> vcheck [inc c] (fun _ v _ => nats_eqb v [0%nat]) = true ->
  Forall valid hs -> dg_session (count_all hs) sid c = 0.
Proof.
  intros S C V. rewrite Forall_forall in V. rewrite session_counter by assumption.
  rewrite (sum_number _ _ (fun _ => false)).
  - unfold number. assert (E : filter (fun _ : handled => false) hs = []) by (clear; induction hs; auto). now rewrite E.
  - intros h IN. pose proof (vcheck_sound _ _ C _ _ _ (V _ IN)) as K. cbn [caps map] in K. clear C.
    apply nats_eqb_eq in K. apply (f_equal (fun l => List.hd O l)) in K. cbn [List.hd] in K. apply (proj1 (cap0 _)) in K. rewrite K.
    destruct (hd_sid h =? sid); reflexivity.
Qed.

Lemma history_read_never hs sid : Forall valid hs ->
  read_field diagnostics_fields (count_all hs) sid "HistoryReadCount" = Some (0, 0).
Proof.
  intros V. change (read_field diagnostics_fields (count_all hs) sid "HistoryReadCount")
    with (Some (dg_session (count_all hs) sid "historyReadCount"%string, dg_session (count_all hs) sid "historyReadErrorCount"%string)).
  rewrite !still_counter; [reflexivity|..]; try assumption; vm_compute; reflexivity.
Qed.

Lemma unauthorized_never hs sid : Forall valid hs ->
  dg_session (count_all hs) sid "unauthorizedRequestCount"%string = 0.
Proof. intros V. apply still_counter; try assumption; vm_compute; reflexivity. Qed.

(** ** The counters of the server *)
Definition spreds (c : string) : list (event -> bool) :=
  [is_abort; is_fault; is_fault_with "BadNoSubscription"; is_fault_with "BadMessageNotAvailable";
   is_fault_with "BadSessionNotActivated"; is_fault_with "BadIdentityTokenRejected";
   is_fault_with "BadTooManySessions"; is_fault_with "BadSessionIDInvalid"; inc c].

Definition uncounted (s : string) (a f ns ma na tr : nat) : bool :=
  String.eqb s "Publish" && got ns || String.eqb s "Republish" && got ma ||
  String.eqb s "UnregisterNodes" && got na || String.eqb s "ActivateSession" && got tr.

Definition opens (s : string) : bool := String.eqb s "CreateSession" || String.eqb s "ActivateSession".

Definition ok_summary (want : string -> nat -> nat -> nat -> nat -> bool) (s : string) (v : list nat) (x : exit) : bool :=
  match v with
  | [a; f; ns; ma; na; tr; tm; si; n] =>
      uncounted s a f ns ma na tr || (n =? as_count (want s a f tm si))%nat
  | _ => false
  end.

Lemma summary_incs c want (g : handled -> bool) :
  is_summary c = true -> vcheck (spreds c) (ok_summary want) = true ->
  (forall h, g h = want (hd_service h) (Nat.min 2 (count_if is_abort (hd_trace h))) (Nat.min 2 (count_if is_fault (hd_trace h)))
     (Nat.min 2 (count_if (is_fault_with "BadTooManySessions") (hd_trace h)))
     (Nat.min 2 (count_if (is_fault_with "BadSessionIDInvalid") (hd_trace h)))) ->
  forall hs, Forall valid hs -> Forall (fun h => not_counted h = false) hs ->
  dg_summary (count_all hs) c = wrap32 (number g hs).
Proof.
  intros S C G hs V U. rewrite Forall_forall in V, U. rewrite summary_counter by assumption. f_equal.
  apply sum_number. intros h IN. pose proof (vcheck_sound _ _ C _ _ _ (V _ IN)) as K. clear C.
  cbn [caps spreds map ok_summary] in K. unfold uncounted in K. rewrite !got_exists in K.
  specialize (U _ IN). unfold not_counted in U. cbv zeta in U. rewrite U in K. cbn [orb] in K.
  apply exact_cap in K. rewrite K, <- G. reflexivity.
Qed.

Lemma rejected_requests hs : Forall valid hs -> Forall (fun h => not_counted h = false) hs ->
  dg_summary (count_all hs) "summary.RejectedRequestsCount"%string = wrap32 (number rejected hs).
Proof.
  apply (summary_incs _ (fun _ a f _ _ => got f || got a)); [reflexivity|vm_compute; reflexivity|].
  intros h. unfold rejected, faulted. now rewrite !got_exists.
Qed.

Lemma rejected_sessions hs : Forall valid hs -> Forall (fun h => not_counted h = false) hs ->
  dg_summary (count_all hs) "summary.RejectedSessionCount"%string = wrap32 (number (fun h => opens_session h && rejected h) hs).
Proof.
  apply (summary_incs _ (fun s a f _ _ => opens s && (got f || got a))); [reflexivity|vm_compute; reflexivity|].
  intros h. unfold rejected, faulted. now rewrite !got_exists.
Qed.

Lemma security_rejected_requests hs : Forall valid hs -> Forall (fun h => not_counted h = false) hs ->
  dg_summary (count_all hs) "summary.SecurityRejectedRequestsCount"%string = wrap32 (number rejected_for_security hs).
Proof.
  apply (summary_incs _ (fun s a f tm si => got a || opens s && got f && negb (got tm) && negb (got si))); [reflexivity|vm_compute; reflexivity|].
  intros h. unfold rejected_for_security, faulted. now rewrite !got_exists.
Qed.

Lemma security_rejected_sessions hs : Forall valid hs -> Forall (fun h => not_counted h = false) hs ->
  dg_summary (count_all hs) "summary.SecurityRejectedSessionCount"%string = wrap32 (number (fun h => opens_session h && rejected_for_security h) hs).
Proof.
  apply (summary_incs _ (fun s a f tm si => opens s && (got a || opens s && got f && negb (got tm) && negb (got si)))); [reflexivity|vm_compute; reflexivity|].
  intros h. unfold rejected_for_security, faulted. now rewrite !got_exists.
Qed.

(** Faults that are not counted *)
Definition skipped (s c : string) : bool :=
  existsb (fun r => String.eqb s (fst r) && String.eqb c (snd r))
    [("Publish", "BadNoSubscription"); ("Republish", "BadMessageNotAvailable"); ("UnregisterNodes", "BadSessionNotActivated")]%string.

Lemma skipped_faults d h c : valid h -> skipped (hd_service h) c = true -> In (Did (Send true "ServiceFault" c)) (hd_trace h) ->
  wrap32 (dg_summary (count_request d h) "summary.RejectedRequestsCount"%string) = wrap32 (dg_summary d "summary.RejectedRequestsCount"%string).
Proof.
  intros V SK I. unfold count_request. rewrite count_events_summary by reflexivity.
  assert (C : forallb (fun r => vcheck [is_fault_with (snd r); inc "summary.RejectedRequestsCount"]
     (fun s v _ => match v with [f; n] => negb (String.eqb s (fst r) && got f) || (n =? 0)%nat | _ => false end))
     [("Publish", "BadNoSubscription"); ("Republish", "BadMessageNotAvailable"); ("UnregisterNodes", "BadSessionNotActivated")]%string = true)
    by (vm_compute; reflexivity).
  rewrite forallb_forall in C. unfold skipped in SK. apply existsb_exists in SK as (r & IN & E).
  specialize (C _ IN). pose proof (vcheck_sound _ _ C _ _ _ V) as K. clear C. cbn [caps map] in K.
  apply andb_true_iff in E as [E1 E2]. apply String.eqb_eq in E2. subst c. rewrite E1, got_exists in K.
  assert (X : existsb (is_fault_with (snd r)) (hd_trace h) = true).
  { apply existsb_exists. eexists. split; [exact I|]. cbn. apply String.eqb_refl. }
  rewrite X in K. cbn [andb negb orb] in K. apply Nat.eqb_eq, (proj1 (cap0 _)) in K. rewrite K. f_equal. lia.
Qed.

(** ** The variables show the same counters *)
Lemma variables_standard : map fst diagnostics_variables = standard_variables.
Proof. reflexivity. Qed.

Lemma variables_same d sid svc : In svc counted_services ->
  read_field diagnostics_variables d sid (variable_name svc) = read_field diagnostics_fields d sid (svc ++ "Count").
Proof. intros I. repeat (destruct I as [<-|I]; [reflexivity|]). destruct I. Qed.

Lemma variables_total d sid :
  read_field diagnostics_variables d sid "TotalRequestCount" = read_field diagnostics_fields d sid "TotalRequestCount".
Proof. reflexivity. Qed.
