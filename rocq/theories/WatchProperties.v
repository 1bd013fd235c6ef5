(** Subscribers and the values of variables. *)
From Coq Require Import ZArith List Bool.
From Verif Require Import Float MonQueue DataChange DataChangeSpec Watch WatchSpec WatchProofs WatchLemmas.
Import ListNotations.
Open Scope Z_scope.

(** When nobody writes any more, one poll and one answer an interval later the last value the subscriber has is not
    different from the variable's, in the sense of the filter.  (Not when a queue that discards the newest is cut.) *)
Theorem c106_ends_with_the_current_value_partial : forall mem bytemem cur mode f stamps ti oldest size now M ops calm tn resend max,
  let s0 := watch_new cur mode f stamps ti oldest size now in let v := value_after cur ops in let g := filter_after f ops in
  dv_server cur <= M -> now <= M -> Forall (by_time M) (ops ++ calm) -> none_cut s0 ops -> mode_after mode ops = 2 -> Forall quiet calm ->
  not_waiting v -> M + Z.max 0 (interval_after ti ops) <= tn -> (1024 <= max)%nat ->
  df_type g = 0 -> 0 <= df_trigger g <= 2 -> Forall (tame mem bytemem) (cur :: written ops) ->
  exists p, last_of (wt_seen (w_run s0 (ops ++ [WPollTick; WPoll] ++ calm ++ [WAvail tn resend; WTake max]))) = Some (with_timestamps stamps p) /\
    In p (cur :: written ops) /\ ~ changed (df_trigger g) v p.
Proof. exact current_plain. Qed.
Print Assumptions c106_ends_with_the_current_value_partial.

(** With an absolute deadband the last value the subscriber has lies within it. *)
Theorem c106_ends_within_the_deadband_partial : forall cur mode f stamps ti oldest size now M ops calm tn resend max d,
  let s0 := watch_new cur mode f stamps ti oldest size now in let v := value_after cur ops in let g := filter_after f ops in
  dv_server cur <= M -> now <= M -> Forall (by_time M) (ops ++ calm) -> none_cut s0 ops -> mode_after mode ops = 2 -> Forall quiet calm ->
  not_waiting v -> M + Z.max 0 (interval_after ti ops) <= tn -> (1024 <= max)%nat ->
  df_type g = 1 -> df_trigger g = 1 \/ df_trigger g = 2 -> df_deadband g = FFin d -> double d -> 0 <= d ->
  Forall (fun u => status_code (dv_status u) /\ near (dv_value v) (dv_value u) /\ exact (dv_value v) (dv_value u)) (cur :: written ops) ->
  exists p x y, last_of (wt_seen (w_run s0 (ops ++ [WPollTick; WPoll] ++ calm ++ [WAvail tn resend; WTake max]))) = Some (with_timestamps stamps p) /\
    In p (cur :: written ops) /\ same_status (dv_status p) (dv_status v) /\ number (dv_value p) = Some y /\ number (dv_value v) = Some x /\ Z.abs (x - y) <= d.
Proof. exact current_deadband. Qed.
Print Assumptions c106_ends_within_the_deadband_partial.

(** What a subscriber gets are values the variable had, in the order it had them. *)
Theorem c106_values_come_in_order_partial : forall cur mode f stamps ti oldest size now ops, usual f -> Forall usual_op ops -> Forall no_resend ops ->
  stutter (map (with_timestamps stamps) (cur :: written ops)) (wt_seen (w_run (watch_new cur mode f stamps ti oldest size now) ops)).
Proof. exact in_order. Qed.
Print Assumptions c106_values_come_in_order_partial.

(** Resending tells the current value before an older one that waits. *)
Theorem c106_resend_order_refuted : exists ops, Forall no_change ops /\ Forall (by_time 100) ops /\
  ~ stutter (map (with_timestamps 2) (an_int 1 0 :: written ops)) (wt_seen (w_run (watch_new (an_int 1 0) 2 status_value 2 50 true 3 0) ops)).
Proof. exact resend_order. Qed.
Print Assumptions c106_resend_order_refuted.

(** When Modify cuts a queue that discards the newest values, the subscriber is never told the current value. *)
Theorem c106_cut_queue_refuted : forall calm, Forall quiet calm -> Forall no_resend calm ->
  let s := w_run (watch_new (an_int 1 0) 2 status_value 2 0 false 3 0) ([WAvail 1 false; WWrite (an_int 2 2); WPollTick; WPoll; WAvail 3 false; WModify status_value 0 false 1 4] ++ calm) in
  wt_cur s = an_int 2 2 /\ ~ In (an_int 2 2) (wt_seen s).
Proof. exact cut_queue. Qed.
Print Assumptions c106_cut_queue_refuted.

(** A value stamped with the time [T] keeps all later values from the subscriber until [T]. *)
Theorem c106_future_stamp_refuted : forall T l, 10 <= T -> Forall no_change l -> Forall no_resend l -> Forall (by_time (T - 1)) l ->
  let s := w_run (watch_new (an_int 1 0) 2 status_value 2 5 true 3 0) ([WAvail 1 false; WTake 10; WWrite (an_int 2 T); WPollTick; WPoll] ++ l) in
  wt_seen s = [an_int 1 0].
Proof. exact future_stamp. Qed.
Print Assumptions c106_future_stamp_refuted.
