(** Proofs about the limits of the number of operations. *)
From Coq Require Import ZArith List Bool String Lia.
From Verif Require Import OwnData OwnSpec OwnTable Handlers HandlerTable HandlersAnalysis HandlersSpec HandlersProofs LimitSpec.
Import ListNotations.
Open Scope string_scope.
Open Scope Z_scope.

Definition check_text (x : string) : string := "l > int(srv.serverCapabilities.OperationLimits." ++ x ++ ")".
Definition of_number (e : event) : bool :=
  match e with
  | Cond c _ => String.eqb c "l == 0" || existsb (fun x => String.eqb c (check_text x)) operation_limits
  | _ => false
  end.
Definition of_interest (e : event) : bool :=
  of_number e || match e with Did (Send true _ _) | Did (Act _) => true | _ => false end.
Definition has (l : list event) (e : event) : bool := existsb (event_eqb e) l.
Definition counts_done (x : string) (l : list event) : bool := has l (Cond "l == 0" false) && has l (Cond (check_text x) false).
Definition ok_event (s x : string) (l : list event) (e : event) : bool :=
  match e with
  | Did (Act a) => is_lookup a || String.eqb a "srv.SessionManager().Delete" || counts_done x l
  | Did (Send true m c) =>
      if String.eqb m "ServiceFault" then
        if String.eqb c "BadTooManyOperations" then has l (Cond "l == 0" false) && has l (Cond (check_text x) true)
        else if String.eqb c "BadNothingToDo" then has l (Cond "l == 0" true)
        else isin c other_reasons || counts_done x l
      else counts_done x l
  | _ => true
  end.
Definition ok_limits (s : string) (l : list event) (_ : exit) : bool :=
  match find (fun r => String.eqb s (fst r)) limited with
  | Some (_, (_, x)) => forallb (ok_event s x l) l
  | None => true
  end.
Lemma limits_checked : check (list event) events_eqb (collect of_interest) [] ok_limits = true.
Proof. vm_compute. reflexivity. Qed.

Lemma limited_find s a x : In (s, (a, x)) limited -> find (fun r => String.eqb s (fst r)) limited = Some (s, (a, x)).
Proof. cbn [limited In]. intros H. repeat (destruct H as [H|H]; [injection H as <- <- <-; reflexivity|]). destruct H. Qed.

Lemma has_in t e : has (fold_left (collect of_interest) t []) e = true -> In e t.
Proof.
  unfold has. intros H. apply existsb_exists in H as (y & I & E). apply event_eqb_eq in E. subst y.
  apply collect_in in I as [[]|[I _]]. exact I.
Qed.
Lemma event_ok s a x t ex e : handles s t ex -> In (s, (a, x)) limited -> In e t -> of_interest e = true ->
  ok_event s x (fold_left (collect of_interest) t []) e = true.
Proof.
  intros H I T Q. pose proof (check_sound _ _ events_eqb_eq _ _ _ limits_checked _ _ _ H) as K.
  unfold ok_limits in K. rewrite (limited_find _ _ _ I) in K. rewrite forallb_forall in K.
  apply K. apply collect_in. right. auto.
Qed.

Lemma outcome_zero l n : outcome l n "l == 0" = Some (n =? 0).
Proof. reflexivity. Qed.
Lemma outcome_limit s a x l n : In (s, (a, x)) limited -> outcome l n (check_text x) = Some (l x <? n).
Proof. cbn [limited In]. intros H. repeat (destruct H as [H|H]; [injection H as <- <- <-; reflexivity|]). destruct H. Qed.
Lemma done_bounds s a x l n t : In (s, (a, x)) limited -> run_with l n t -> counts_done x (fold_left (collect of_interest) t []) = true -> n <> 0 /\ n <= l x.
Proof.
  intros I R D. unfold counts_done in D. apply andb_true_iff in D as [D1 D2].
  pose proof (R _ _ _ (has_in _ _ D1) (outcome_zero l n)) as Z0. pose proof (R _ _ _ (has_in _ _ D2) (outcome_limit _ _ _ l n I)) as Z1.
  symmetry in Z0, Z1. apply Z.eqb_neq in Z0. apply Z.ltb_ge in Z1. auto.
Qed.

Lemma refused_number s a x l n t ex : In (s, (a, x)) limited -> handles s t ex -> run_with l n t -> n = 0 \/ l x < n ->
  ~ responds s t /\ does_nothing t.
Proof.
  intros I H R B. split.
  - intros (c & F). pose proof (event_ok s a x t ex _ H I F eq_refl) as K. cbn [ok_event] in K.
    assert (N : String.eqb (s ++ "Response") "ServiceFault" = false).
    { cbn [limited In] in I. repeat (destruct I as [I|I]; [injection I as <- <- <-; reflexivity|]). destruct I. }
    rewrite N in K. destruct (done_bounds s a x l n t I R K). lia.
  - intros c F. pose proof (event_ok s a x t ex _ H I F eq_refl) as K. cbn [ok_event] in K.
    apply orb_true_iff in K as [K|K].
    + apply orb_true_iff in K as [K|K]; [now left|]. right. now apply String.eqb_eq.
    + destruct (done_bounds s a x l n t I R K). lia.
Qed.
Lemma refusal_code s a x l n t ex c : In (s, (a, x)) limited -> handles s t ex -> run_with l n t -> faults c t ->
  (c = "BadTooManyOperations" -> n <> 0 /\ l x < n) /\ (c = "BadNothingToDo" -> n = 0) /\
  (n = 0 -> c = "BadNothingToDo" \/ In c other_reasons) /\ (n <> 0 -> l x < n -> c = "BadTooManyOperations" \/ In c other_reasons).
Proof.
  intros I H R F. pose proof (event_ok s a x t ex _ H I F eq_refl) as K. cbn [ok_event] in K. rewrite String.eqb_refl in K.
  destruct (String.eqb c "BadTooManyOperations") eqn:C1.
  - apply String.eqb_eq in C1. subst c. apply andb_true_iff in K as [K1 K2].
    pose proof (R _ _ _ (has_in _ _ K1) (outcome_zero l n)) as Z0. pose proof (R _ _ _ (has_in _ _ K2) (outcome_limit _ _ _ l n I)) as Z1.
    symmetry in Z0, Z1. apply Z.eqb_neq in Z0. apply Z.ltb_lt in Z1.
    split; [auto|]. split; [discriminate|]. split; [lia|auto].
  - apply String.eqb_neq in C1. split; [congruence|]. destruct (String.eqb c "BadNothingToDo") eqn:C2.
    + apply String.eqb_eq in C2. subst c. pose proof (R _ _ _ (has_in _ _ K) (outcome_zero l n)) as Z0. symmetry in Z0. apply Z.eqb_eq in Z0.
      split; [auto|]. split; [auto|]. intros X. contradiction.
    + apply String.eqb_neq in C2. split; [congruence|]. apply orb_true_iff in K as [K|K].
      * apply isin_in in K. auto.
      * destruct (done_bounds s a x l n t I R K). split; [lia|lia].
Qed.

(** * Runs *)
(** The run in which the conditions have the outcomes f and no loop is entered *)
Fixpoint follow (f : string -> bool) (p : prog) : list event * exit :=
  match p with
  | Done => ([], Fall)
  | Exit x => ([], x)
  | Do e k => (Did e :: fst (follow f k), snd (follow f k))
  | If c a b k =>
      let r := if f c then follow f a else follow f b in
      match snd r with
      | Fall => (Cond c (f c) :: fst r ++ fst (follow f k), snd (follow f k))%list
      | x => (Cond c (f c) :: fst r, x)
      end
  | Loop b k => follow f k
  | Scope b k =>
      match snd (follow f b) with
      | Fall | Leave => (fst (follow f b) ++ fst (follow f k), snd (follow f k))%list
      | x => (fst (follow f b), x)
      end
  end.
Lemma follow_run f p : run p (fst (follow f p)) (snd (follow f p)).
Proof.
  induction p as [| e k IH | c a IHa b IHb k IHk | b IHb k IHk | b IHb k IHk | x]; cbn [follow].
  - constructor.
  - cbn [fst snd]. now constructor.
  - set (r := if f c then follow f a else follow f b).
    assert (R : run (if f c then a else b) (fst r) (snd r)) by (unfold r; destruct (f c); assumption).
    destruct (snd r) eqn:X; cbn [fst snd]; [now apply run_if|..]; apply run_if_out; auto; discriminate.
  - now apply run_loop_end.
  - destruct (snd (follow f b)) eqn:X; cbn [fst snd];
      first [eapply run_scope; [exact IHb|auto|exact IHk]|apply run_scope_out; [assumption|discriminate|discriminate]].
  - constructor.
Qed.
Lemma follow_cond f p c v : In (Cond c v) (fst (follow f p)) -> v = f c.
Proof.
  induction p as [| e k IH | d a IHa b IHb k IHk | b IHb k IHk | b IHb k IHk | x]; cbn [follow].
  - intros [].
  - cbn [fst In]. intros [H|H]; [discriminate|auto].
  - set (r := if f d then follow f a else follow f b).
    assert (R : In (Cond c v) (fst r) -> v = f c) by (unfold r; destruct (f d); assumption).
    destruct (snd r); cbn [fst snd In]; rewrite ?in_app_iff; intros [H|H]; try (injection H as <- <-; reflexivity); tauto.
  - exact IHk.
  - destruct (snd (follow f b)); cbn [fst]; rewrite ?in_app_iff; tauto.
  - intros [].
Qed.
Definition handler (s : string) : prog := match find (fun r => String.eqb s (fst r)) handlers with Some (_, p) => p | None => Done end.
Definition listed (s : string) : bool := existsb (fun r => String.eqb s (fst r)) handlers.
Lemma handler_in s : listed s = true -> In (s, handler s) handlers.
Proof.
  unfold listed, handler. generalize handlers. intros l H. destruct (find (fun r => String.eqb s (fst r)) l) as [[k p]|] eqn:F.
  - apply find_some in F as [I E]. cbn [fst] in E. apply String.eqb_eq in E. subst k. exact I.
  - apply existsb_exists in H as (r & I & E). pose proof (find_none _ _ F _ I) as N. cbv beta in N. congruence.
Qed.
Definition only_checks (x : string) (t : list event) : bool :=
  forallb (fun e => match e with Cond c _ => negb (of_number e) || String.eqb c "l == 0" || String.eqb c (check_text x) | _ => true end) t.
Lemma outcome_none l n c v : of_number (Cond c v) = false -> outcome l n c = None.
Proof.
  unfold of_number, outcome. intros H. apply orb_false_iff in H as [-> H].
  destruct (find _ operation_limits) as [x|] eqn:F; [|reflexivity]. apply find_some in F as [F G].
  assert (T : existsb (fun x => String.eqb c (check_text x)) operation_limits = true) by (apply existsb_exists; exists x; auto).
  congruence.
Qed.
Lemma follow_with s a x l n f p : In (s, (a, x)) limited -> only_checks x (fst (follow f p)) = true ->
  f "l == 0" = (n =? 0) -> f (check_text x) = (l x <? n) -> run_with l n (fst (follow f p)).
Proof.
  intros I C F0 F1 c b m T O. rewrite (follow_cond f p c b T). unfold only_checks in C. rewrite forallb_forall in C.
  specialize (C _ T). cbv beta iota in C. apply orb_true_iff in C as [C|C].
  - apply orb_true_iff in C as [C|C].
    + apply negb_true_iff in C. rewrite (outcome_none l n c b C) in O. discriminate.
    + apply String.eqb_eq in C. subst c. rewrite outcome_zero in O. congruence.
  - apply String.eqb_eq in C. subst c. rewrite (outcome_limit s a x l n I) in O. congruence.
Qed.
Definition yes (d c : string) : bool := String.eqb c d.
Definition is_return (x : exit) : bool := match x with Return => true | _ => false end.
Definition shows_run (s x d : string) (e : event -> bool) : bool :=
  existsb (fun r => String.eqb s (fst r)) handlers && is_return (snd (follow (yes d) (handler s))) &&
  only_checks x (fst (follow (yes d) (handler s))) && existsb e (fst (follow (yes d) (handler s))).
Lemma run_shown s a x d l n e : In (s, (a, x)) limited -> shows_run s x d e = true -> yes d "l == 0" = (n =? 0) -> yes d (check_text x) = (l x <? n) ->
  exists t b, handles s t Return /\ run_with l n t /\ In b t /\ e b = true.
Proof.
  intros I K Z0 Z1. unfold shows_run in K. apply andb_true_iff in K as [K K4]. apply andb_true_iff in K as [K K3]. apply andb_true_iff in K as [K1 K2].
  apply existsb_exists in K4 as (b & B1 & B2). exists (fst (follow (yes d) (handler s))), b.
  split; [|split; [eapply follow_with; eassumption|auto]].
  exists (handler s). split.
  - apply existsb_exists in K1 as ((s', p) & H1 & H2). cbn [fst] in H2.
    unfold handler. destruct (find _ handlers) as [[s2 p2]|] eqn:F.
    + apply find_some in F as [F G]. cbn [fst] in G. apply String.eqb_eq in G. subst s2. exact F.
    + pose proof (find_none _ _ F _ H1) as Q. cbn [fst] in Q. congruence.
  - pose proof (follow_run (yes d) (handler s)) as R. destruct (snd (follow (yes d) (handler s))); try discriminate. exact R.
Qed.
Definition is_response (s : string) (e : event) : bool := match e with Did (Send true m _) => String.eqb m (s ++ "Response") | _ => false end.
Definition chosen (s : string) : string := if String.eqb s "HistoryRead" then "case ua.ReadRawModifiedDetails" else "".
Lemma answers_shown : forallb (fun r => shows_run (fst r) (snd (snd r)) (chosen (fst r)) (is_response (fst r)) && negb (yes (chosen (fst r)) "l == 0") && negb (yes (chosen (fst r)) (check_text (snd (snd r))))) limited = true.
Proof. vm_compute. reflexivity. Qed.
(** A request within the limit can be answered; too long a request, and one with nothing to do, are refused for that reason *)
Lemma answers s a x l n : In (s, (a, x)) limited -> 0 < n <= l x -> exists t, handles s t Return /\ run_with l n t /\ responds s t.
Proof.
  intros I B. pose proof answers_shown as A. rewrite forallb_forall in A. specialize (A _ I). cbn [fst snd] in A.
  apply andb_true_iff in A as [A A3]. apply andb_true_iff in A as [A1 A2]. apply negb_true_iff in A2, A3.
  destruct (run_shown s a x (chosen s) l n _ I A1) as (t & b & H & R & J & Q).
  - rewrite A2. symmetry. apply Z.eqb_neq. lia.
  - rewrite A3. symmetry. apply Z.ltb_ge. lia.
  - exists t. split; [exact H|]. split; [exact R|].
    destruct b as [[]|]; cbn [is_response] in Q; try discriminate. destruct own; [|discriminate]. apply String.eqb_eq in Q. subst message.
    eexists. exact J.
Qed.
Lemma too_many_shown : forallb (fun r => shows_run (fst r) (snd (snd r)) (check_text (snd (snd r))) (is_fault_with "BadTooManyOperations")) limited = true.
Proof. vm_compute. reflexivity. Qed.
Lemma nothing_shown : forallb (fun r => shows_run (fst r) (snd (snd r)) "l == 0" (is_fault_with "BadNothingToDo")) limited = true.
Proof. vm_compute. reflexivity. Qed.
Lemma fault_with c b t : is_fault_with c b = true -> In b t -> faults c t.
Proof.
  destruct b as [[]|]; cbn [is_fault_with]; try discriminate. destruct own; [|discriminate].
  intros Q. apply andb_true_iff in Q as [Q1 Q2]. apply String.eqb_eq in Q1, Q2. subst. auto.
Qed.
Lemma too_many s a x l n : In (s, (a, x)) limited -> 0 < n -> l x < n -> exists t, handles s t Return /\ run_with l n t /\ faults "BadTooManyOperations" t.
Proof.
  intros I P B. pose proof too_many_shown as A. rewrite forallb_forall in A. specialize (A _ I). cbn [fst snd] in A.
  destruct (run_shown s a x (check_text x) l n _ I A) as (t & b & H & R & J & Q).
  - replace (n =? 0) with false by (symmetry; apply Z.eqb_neq; lia). reflexivity.
  - unfold yes. rewrite String.eqb_refl. symmetry. apply Z.ltb_lt. exact B.
  - exists t. split; [exact H|]. split; [exact R|]. eapply fault_with; eassumption.
Qed.
Lemma nothing s a x l : In (s, (a, x)) limited -> 0 <= l x -> exists t, handles s t Return /\ run_with l 0 t /\ faults "BadNothingToDo" t.
Proof.
  intros I B. pose proof nothing_shown as A. rewrite forallb_forall in A. specialize (A _ I). cbn [fst snd] in A.
  destruct (run_shown s a x "l == 0" l 0 _ I A) as (t & b & H & R & J & Q).
  - reflexivity.
  - replace (l x <? 0) with false by (symmetry; apply Z.ltb_ge; lia). reflexivity.
  - exists t. split; [exact H|]. split; [exact R|]. eapply fault_with; eassumption.
Qed.

(** * What is wrong *)
Lemma limited_array s a x : In (s, (a, x)) limited -> In (s, a) counted.
Proof. cbn [limited In]. intros H. repeat (destruct H as [H|H]; [injection H as <- <- <-; vm_compute; tauto|]). destruct H. Qed.
Lemma limited_shown s a x w c l : In (s, (a, x)) limited -> In (limit_path x, UInt32 (l x)) (facts w c l).
Proof.
  intros H. unfold facts. rewrite !in_app_iff. right. left. apply (in_map (fun x => (limit_path x, UInt32 (l x)))).
  cbn [limited In] in H. repeat (destruct H as [H|H]; [injection H as <- <- <-; vm_compute; tauto|]). destruct H.
Qed.
(** A limit of zero: no limit in the standard *)
Lemma zero_refuses s a x l n t ex : In (s, (a, x)) limited -> l x = 0 -> 0 <= n -> handles s t ex -> run_with l n t -> ~ responds s t.
Proof. intros I Z0 P H R. apply (refused_number s a x l n t ex I H R). lia. Qed.
(** Events are counted with the limit for data *)
Lemma events_by_data l n : 0 < n <= l "MaxNodesPerHistoryReadData" ->
  exists t, handles "HistoryRead" t Return /\ run_with l n t /\ In (Did (Act "h.ReadEvent")) t /\ responds "HistoryRead" t.
Proof.
  intros B. assert (I : In ("HistoryRead", ("NodesToRead", "MaxNodesPerHistoryReadData")) limited) by (vm_compute; tauto).
  set (p := follow (yes "case ua.ReadEventDetails") (handler "HistoryRead")). exists (fst p). split; [|split; [|split]].
  - exists (handler "HistoryRead"). split; [apply handler_in; vm_compute; reflexivity|]. pose proof (follow_run (yes "case ua.ReadEventDetails") (handler "HistoryRead")) as R. fold p in R.
    replace (snd p) with Return in R by (vm_compute; reflexivity). exact R.
  - eapply follow_with; [exact I|vm_compute; reflexivity|..].
    + replace (n =? 0) with false by (symmetry; apply Z.eqb_neq; lia). reflexivity.
    + replace (l _ <? n) with false by (symmetry; apply Z.ltb_ge; lia). reflexivity.
  - vm_compute. tauto.
  - exists "?". vm_compute. tauto.
Qed.
Lemma events_code l n t ex : l "MaxNodesPerHistoryReadData" < n -> l "MaxNodesPerHistoryReadEvents" >= n -> handles "HistoryRead" t ex -> run_with l n t -> ~ responds "HistoryRead" t.
Proof.
  intros A B H R. apply (refused_number "HistoryRead" "NodesToRead" "MaxNodesPerHistoryReadData" l n t ex); auto. vm_compute. tauto.
Qed.
(** The services that ignore the number *)
Definition no_number (l : list event) : bool := match l with [] => true | _ => false end.
Lemma unlimited_checked : check (list event) events_eqb (collect of_number) [] (fun s l _ => negb (isin s unlimited) || no_number l) = true.
Proof. vm_compute. reflexivity. Qed.
Lemma unlimited_any s t ex l n : In s unlimited -> handles s t ex -> run_with l n t.
Proof.
  intros I H c b m T O. pose proof (check_sound _ _ events_eqb_eq _ _ _ unlimited_checked _ _ _ H) as K. cbv beta in K.
  apply isin_in in I. rewrite I in K. cbn [negb orb] in K. destruct (of_number (Cond c b)) eqn:N.
  - assert (J : In (Cond c b) (fold_left (collect of_number) t [])) by (apply collect_in; right; auto).
    destruct (fold_left (collect of_number) t []); [destruct J|discriminate].
  - rewrite (outcome_none l n c b N) in O. discriminate.
Qed.
Lemma unlimited_responds s l n : In s unlimited -> exists t, handles s t Return /\ run_with l n t /\ responds s t.
Proof.
  intros I. exists (fst (follow (yes "") (handler s))).
  assert (H : handles s (fst (follow (yes "") (handler s))) Return).
  { exists (handler s). split.
    - apply handler_in. cbn [unlimited In] in I. repeat (destruct I as [<-|I]; [vm_compute; reflexivity|]). destruct I.
    - pose proof (follow_run (yes "") (handler s)) as R.
      assert (X : snd (follow (yes "") (handler s)) = Return).
      { cbn [unlimited In] in I. repeat (destruct I as [<-|I]; [vm_compute; reflexivity|]). destruct I. }
      rewrite X in R. exact R. }
  split; [exact H|]. split; [eapply unlimited_any; eassumption|].
  exists "". cbn [unlimited In] in I. repeat (destruct I as [<-|I]; [vm_compute; tauto|]). destruct I.
Qed.
