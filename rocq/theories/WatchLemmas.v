(** Statements about subscribers and values: examples that meet their hypotheses. *)
From Coq Require Import ZArith List Bool Lia.
From Verif Require Import Float MonQueue DataChange DataChangeSpec DataChangeProofs Watch WatchSpec WatchProofs.
Import ListNotations.
Open Scope Z_scope.

(** An item that is switched off and on, modified and polled while the variable changes *)
Definition a_history : list wop :=
  [WAvail 10 false; WTake 5; WWrite (an_int 7 20); WPollTick; WPoll; WAvail 60 false; WMode 0 70; WWrite (an_int 8 80); WMode 2 90;
   WModify status_value 30 true 2 95; WWrite (an_int 9 97)].
Definition an_answer : list wop := [WPoll; WAvail 98 false; WTake 1].
Example ex_current :
  let s0 := watch_new (an_int 1 0) 2 status_value 2 50 false 4 0 in
  let s := w_run s0 (a_history ++ [WPollTick; WPoll] ++ an_answer ++ [WAvail 140 false; WTake 1024]) in
  Forall (by_time 100) (a_history ++ an_answer) /\ none_cut s0 a_history /\ mode_after 2 a_history = 2 /\ Forall quiet an_answer /\
  not_waiting (value_after (an_int 1 0) a_history) /\ 100 + Z.max 0 (interval_after 50 a_history) <= 140 /\
  wt_seen s = [an_int 1 0; an_int 8 80; an_int 9 97].
Proof.
  cbv zeta. split; [repeat constructor; cbn; lia|]. split; [unfold a_history; repeat (split; [first [exact Logic.I|left; reflexivity]|]); exact Logic.I|]. split; [reflexivity|]. split; [repeat constructor|].
  split; [split; [unfold same_status; vm_compute; discriminate|split; vm_compute; [discriminate|reflexivity]]|]. split; [vm_compute; discriminate|]. vm_compute. reflexivity.
Qed.
Example ex_tame : Forall (tame (fun _ _ _ => []) (fun _ _ _ => [])) (an_int 1 0 :: written a_history).
Proof. repeat constructor; cbn; try lia. Qed.
(** A deadband of 2 on numbers 1, 2 and 3: the last one reported is the first *)
Definition a_band : dfilter := mkDf 1 1 (FFin (2 * funit)).
Definition small_steps : list wop := [WAvail 10 false; WTake 5; WWrite (an_int 2 20); WPollTick; WPoll; WWrite (an_int 3 30)].
Example ex_deadband :
  let s := w_run (watch_new (an_int 1 0) 2 a_band 2 50 true 4 0) (small_steps ++ [WPollTick; WPoll] ++ [] ++ [WAvail 90 false; WTake 1024]) in
  wt_seen s = [an_int 1 0] /\ value_after (an_int 1 0) small_steps = an_int 3 30.
Proof. split; [vm_compute; reflexivity|reflexivity]. Qed.
Example ex_near : Forall (fun u => status_code (dv_status u) /\ near (dv_value (an_int 3 30)) (dv_value u) /\ exact (dv_value (an_int 3 30)) (dv_value u)) (an_int 1 0 :: written small_steps).
Proof.
  assert (G : forall z t, 0 <= z <= 100 -> status_code (dv_status (an_int z t)) /\ near (dv_value (an_int 3 30)) (dv_value (an_int z t)) /\ exact (dv_value (an_int 3 30)) (dv_value (an_int z t))).
  { intros z t H. cbn [an_int dv_status dv_value near exact]. unfold status_code, signed64. change (2 ^ 32) with 4294967296. change (2 ^ 63) with 9223372036854775808. change (2 ^ 53) with 9007199254740992. repeat split; lia. }
  cbn [written small_steps]. repeat apply Forall_cons; try apply Forall_nil; apply G; lia.
Qed.
Example ex_usual : usual status_value /\ Forall usual_op a_history /\ Forall no_resend a_history.
Proof. split; [unfold usual; cbn; lia|]. split; repeat constructor; cbn; lia. Qed.
Example ex_order : wt_seen (w_run (watch_new (an_int 1 0) 2 status_value 2 0 false 4 0)
  [WPollTick; WPoll; WWrite (an_int 2 1); WPollTick; WPoll; WWrite (an_int 1 2); WPollTick; WPoll; WWrite (an_int 3 3); WAvail 5 false; WTake 2; WTake 9]) = [an_int 1 0; an_int 2 1; an_int 1 2].
Proof. vm_compute. reflexivity. Qed.
(** The calls after which a cut queue never tells the current value, and a value from the future *)
Example ex_cut : Forall quiet [WPollTick; WPoll; WAvail 200 false; WTake 9] /\ Forall no_resend [WPollTick; WPoll; WAvail 200 false; WTake 9].
Proof. split; repeat constructor. Qed.
Example ex_future : let l := [WAvail 20 false; WTake 9; WWrite (an_int 5 30); WPollTick; WPoll; WAvail 90 false; WTake 9] in
  Forall no_change l /\ Forall no_resend l /\ Forall (by_time (100 - 1)) l /\ wt_seen (w_run (watch_new (an_int 1 0) 2 status_value 2 5 true 3 0) ([WAvail 1 false; WTake 10; WWrite (an_int 2 100); WPollTick; WPoll] ++ l ++ [WAvail 110 false; WTake 9])) = [an_int 1 0; an_int 5 30].
Proof. cbv zeta. split; [repeat constructor|]. split; [repeat constructor|]. split; [repeat constructor; cbn; lia|]. vm_compute. reflexivity. Qed.
