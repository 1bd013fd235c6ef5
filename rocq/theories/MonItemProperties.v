(** C48-C52: monitored items.  Property theorems only. *)
From Coq Require Import ZArith List Bool.
From Verif Require Import Bytes Float FloatProofs MonQueue MonQueueProofs DataChange DataChangeSpec DataChangeProofs DataItemProofs
  WhereClause WhereSpec WhereProofs MonItemLemmas.
Import ListNotations.
Open Scope Z_scope.

(** * C48 *)
Theorem c48_size : forall A oldest size (ops : list (mqop A)), let q := mq_run oldest size ops in
  (1 <= mq_size q <= 1024)%nat /\ (length (mq_queue q) <= mq_size q)%nat.
Proof. exact size_bound. Qed.
Print Assumptions c48_size.
Theorem c48_revised : forall n, 1 <= revised_size n <= 1024 /\ (1 <= n <= 1024 -> revised_size n = n).
Proof. exact (fun n => conj (revised_bounds n) (revised_kept n)). Qed.
Print Assumptions c48_revised.
(** Values put in one after the other. *)
Theorem c48_newest : forall A size (vs : list A), (1 <= size)%nat -> fold_left (enqueue true size) vs [] = skipn (length vs - size) vs.
Proof. exact newest_kept. Qed.
Print Assumptions c48_newest.
Theorem c48_oldest_and_last : forall A size (vs : list A) v, (1 <= size)%nat -> (size <= length vs)%nat ->
  fold_left (enqueue false size) (vs ++ [v]) [] = firstn (size - 1) vs ++ [v].
Proof. exact oldest_kept. Qed.
Print Assumptions c48_oldest_and_last.
(** Any history of values, resizes and publishes with discard-oldest: the newest values in order. *)
Theorem c48_newest_history : forall A size (ops : list (mqop A)), Forall (keeps_oldest A) ops ->
  exists gone, mq_puts A ops = gone ++ mq_queue (mq_run true size ops).
Proof. exact (fun A size ops H => proj2 (suffix_run A size ops H)). Qed.
Print Assumptions c48_newest_history.
(** Each value, whatever the history: nothing is discarded while there is room, and otherwise the
    queue stays full. *)
Theorem c48_room : forall A oldest size (ops : list (mqop A)) v, let q := mq_run oldest size ops in
  (length (mq_queue q) < mq_size q)%nat -> mq_queue (mq_step q (MPut v)) = mq_queue q ++ [v].
Proof. exact (fun A oldest size ops v => room_kept A (mq_run oldest size ops) v (mq_ok_run A oldest size ops)). Qed.
Print Assumptions c48_room.
Theorem c48_full : forall A oldest size (ops : list (mqop A)) v, let q := mq_run oldest size ops in
  length (mq_queue q) = mq_size q ->
  mq_queue (mq_step q (MPut v)) = (if mq_oldest q then tl (mq_queue q) else removelast (mq_queue q)) ++ [v].
Proof. exact @full_put. Qed.
Print Assumptions c48_full.
Theorem c48_resize : forall A (q : mqueue A) oldest n, let q' := mq_step q (MResize oldest n) in
  mq_size q' = Z.to_nat (revised_size n) /\
  mq_queue q' = if oldest then skipn (length (mq_queue q) - mq_size q') (mq_queue q) else firstn (mq_size q') (mq_queue q).
Proof. exact @resize_keeps. Qed.
Print Assumptions c48_resize.
Example c48_ex : mq_queue (mq_run true 3 (map MPut [1; 2; 3; 4; 5])) = [3; 4; 5] /\
  mq_queue (mq_run false 3 (map MPut [1; 2; 3; 4; 5])) = [1; 2; 5] /\ revised_size 0 = 1 /\ revised_size 5000 = 1024.
Proof. vm_compute. repeat split. Qed.

(** * C49 *)
(** The bit is never set: what is delivered is what was put in. *)
Theorem c49_never_refuted : forall oldest size (ops : list (mqop dval)) x, (forall v, In (MPut v) ops -> ~ marked v) ->
  In x (mq_out (mq_init oldest size) ops) -> ~ marked x.
Proof. exact never_marked. Qed.
Print Assumptions c49_never_refuted.
(** Values get lost, and nothing that is delivered says so. *)
Theorem c49_lost_refuted : forall oldest size (vs : list dval), 2 <= size <= 1024 -> size < Z.of_nat (length vs) -> (forall v, In v vs -> ~ marked v) ->
  let out := mq_out (mq_init oldest size) (map MPut vs ++ [MTake (length vs)]) in
  (length out < length vs)%nat /\ forall x, In x out -> ~ marked x.
Proof. exact overflow_unsignalled. Qed.
Print Assumptions c49_lost_refuted.
Example c49_ex : mq_out (mq_init true 2) (map MPut (map (fun z => at_time z 0) [1; 2; 3]) ++ [MTake 3]) = [at_time 2 0; at_time 3 0] /\
  ~ marked (at_time 2 0) /\ marked (mkDv (MInt 6 2) 0x480 0 0).
Proof. vm_compute. repeat split. discriminate. Qed.

(** * C50 *)
(** No deadband: exactly the samples whose selected fields differ.  Missing: NaN. *)
Theorem c50_fields_partial : forall mem bytemem trigger f cur prev, 0 <= trigger <= 2 -> df_trigger f = trigger -> df_type f = 0 ->
  status_code (dv_status cur) -> status_code (dv_status prev) -> plain (dv_value cur) ->
  stored mem bytemem (dv_value cur) -> stored mem bytemem (dv_value prev) ->
  is_data_change f cur prev = true <-> changed trigger cur prev.
Proof. exact filter_exact. Qed.
Print Assumptions c50_fields_partial.
(** Absolute deadband.  Missing: a decrease of an unsigned number, differences that are no 64-bit
    number of the type or no float64. *)
Theorem c50_deadband_partial : forall f cur prev x y d, by_value f cur prev -> df_type f = 1 -> df_deadband f = FFin d -> double d ->
  near (dv_value cur) (dv_value prev) -> exact (dv_value cur) (dv_value prev) ->
  number (dv_value cur) = Some x -> number (dv_value prev) = Some y ->
  is_data_change f cur prev = true <-> d < Z.abs (x - y).
Proof. exact deadband_exact. Qed.
Print Assumptions c50_deadband_partial.
Theorem c50_within : forall f cur prev x y d, by_value f cur prev -> df_type f = 1 -> df_deadband f = FFin d -> double d ->
  near (dv_value cur) (dv_value prev) -> number (dv_value cur) = Some x -> number (dv_value prev) = Some y ->
  Z.abs (x - y) <= d -> is_data_change f cur prev = false.
Proof. exact deadband_within. Qed.
Print Assumptions c50_within.
(** The stream: of the values waiting, one for each sampling interval is looked at, and exactly
    those that differ from the last one reported are queued, in order. *)
Theorem c50_intervals_partial : forall mem bytemem trigger d tn v, 0 <= trigger <= 2 -> df_trigger (di_filter d) = trigger -> df_type (di_filter d) = 0 ->
  di_mode d <> m_disabled -> 0 < di_ti d -> in_time_order (di_pre d) -> Forall (tame mem bytemem) (di_prev d :: di_pre d) ->
  let d' := fst (available d tn false v) in
  exists n out, (forall k, (k < n)%nat <-> di_ts d + Z.of_nat k * di_ti d <= tn) /\
    reported (changed trigger) (di_prev d) (interval_samples n (di_ts d) (di_ti d) (di_pre d) (di_prev d)) out (di_prev d') /\
    mq_queue (di_q d') = queued (di_q d) (map (with_timestamps (di_stamps d)) out).
Proof. exact stream_intervals. Qed.
Print Assumptions c50_intervals_partial.
Theorem c50_each_partial : forall mem bytemem trigger d tn v, 0 <= trigger <= 2 -> df_trigger (di_filter d) = trigger -> df_type (di_filter d) = 0 ->
  di_mode d <> m_disabled -> di_ti d <= 0 -> Forall (tame mem bytemem) (di_prev d :: di_pre d) ->
  let d' := fst (available d tn false v) in
  exists out, reported (changed trigger) (di_prev d) (di_pre d) out (di_prev d') /\ di_pre d' = [] /\
    mq_queue (di_q d') = queued (di_q d) (map (with_timestamps (di_stamps d)) out).
Proof. exact stream_each. Qed.
Print Assumptions c50_each_partial.
(** Both put [with_timestamps] of the reported values in the queue: the same value and status, with
    the source timestamp exactly when source (0) or both (2) were asked for, and the server timestamp
    exactly when server (1) or both were. *)
Theorem c50_timestamps : forall which v, 0 <= which <= 3 ->
  let r := with_timestamps which v in
  dv_value r = dv_value v /\ dv_status r = dv_status v /\
  (dv_source r = if (which =? 0) || (which =? 2) then dv_source v else 0) /\
  (dv_server r = if (which =? 1) || (which =? 2) then dv_server v else 0).
Proof. exact timestamps_asked. Qed.
Print Assumptions c50_timestamps.
(** A decrease of an unsigned number is reported however small it is. *)
Theorem c50_unsigned_refuted : forall f cur prev t a b d, by_value f cur prev -> df_type f = 1 -> df_deadband f = FFin d -> d < f_int (2 ^ 63) ->
  dv_value cur = MUint t a -> dv_value prev = MUint t b -> 0 <= a -> a < b <= a + 2 ^ 63 -> is_data_change f cur prev = true.
Proof. exact unsigned_falls. Qed.
Print Assumptions c50_unsigned_refuted.
(** The difference of the largest and the smallest int64 is taken for -1. *)
Theorem c50_signed_refuted : is_data_change (abs_filter 1) (good (MInt 0 (2 ^ 63 - 1))) (good (MInt 0 (- 2 ^ 63))) = false.
Proof. exact signed_wraps. Qed.
Print Assumptions c50_signed_refuted.
Theorem c50_rounding_refuted : exists cur prev, signed64 cur /\ signed64 prev /\ signed64 (cur - prev) /\ 2 ^ 53 < Z.abs (cur - prev) /\
  is_data_change (abs_filter (2 ^ 53)) (good (MInt 0 cur)) (good (MInt 0 prev)) = false.
Proof. exact rounding_hides. Qed.
Print Assumptions c50_rounding_refuted.
(** A percent deadband reports every sample. *)
Theorem c50_percent_refuted : forall f cur prev, 1 <= df_trigger f <= 2 -> 2 <= df_type f -> is_data_change f cur prev = true.
Proof. exact percent_always. Qed.
Print Assumptions c50_percent_refuted.
(** So does an absolute deadband on an array that has been copied. *)
Theorem c50_array_refuted : forall t els p p', els <> [] -> p <> p' ->
  is_data_change (abs_filter 1) (good (MSlice t false p els)) (good (MSlice t false p' els)) = true.
Proof. exact constant_slice_reported. Qed.
Print Assumptions c50_array_refuted.
Theorem c50_nan_refuted : forall v, dv_value v = MFlt 0 FNaN -> is_data_change sv_filter v v = true.
Proof. exact nan_reported. Qed.
Print Assumptions c50_nan_refuted.
Example c50_ex : let f := abs_filter 5 in
  is_data_change f (good (MInt 6 (-3))) (good (MInt 6 2)) = false /\ is_data_change f (good (MInt 6 (-4))) (good (MInt 6 2)) = true /\
  is_data_change f (good (MUint 7 9)) (good (MUint 7 4)) = false /\ is_data_change f (good (MUint 7 10)) (good (MUint 7 4)) = true /\
  is_data_change f (good (MFlt 11 (FFin (f_int 9)))) (good (MFlt 11 (FFin (f_int 4)))) = false /\
  is_data_change f (good (MFlt 11 (FFin (f_int 10)))) (good (MFlt 11 (FFin (f_int 4)))) = true /\
  is_data_change f (good (MUint 7 4)) (good (MUint 7 5)) = true.
Proof. exact ex_exact. Qed.
Example c50_stream_ex :
  interval_samples 3 0 10 (di_pre ex_item) (di_prev ex_item) = [at_time 1 0; at_time 1 8; at_time 7 14] /\
  mq_queue (di_q (fst (available ex_item 25 false waiting_value))) = [at_time 7 14] /\
  di_pre (fst (available ex_item 25 false waiting_value)) = [at_time 7 27].
Proof. exact ex_intervals. Qed.
Example c50_stream_hyps : Forall (tame (fun _ _ _ => []) (fun _ _ _ => [])) (di_prev ex_item :: di_pre ex_item) /\ in_time_order (di_pre ex_item).
Proof. exact ex_tame. Qed.

(** * C51 *)
Theorem c51_disabled_reports_nothing : forall mode f stamps ti oldest size now v ops,
  let d := di_run (di_new mode f stamps ti oldest size now v) ops in di_mode d = m_disabled ->
  (forall max, snd (di_step d (DTake max)) = DReports []) /\ (forall tn resend w, snd (di_step d (DAvail tn resend w)) = DAvailable false).
Proof. exact disabled_reports_nothing. Qed.
Print Assumptions c51_disabled_reports_nothing.
(** Missing: a poll under way when the item is disabled. *)
Theorem c51_disabled_samples_nothing_partial : forall mode f stamps ti oldest size now v ops ops',
  let d := di_run (di_new mode f stamps ti oldest size now v) ops in
  di_mode d = m_disabled -> di_due d = O -> Forall stays_disabled ops' -> di_pre (di_run d ops') = di_pre d.
Proof. exact disabled_takes_no_samples. Qed.
Print Assumptions c51_disabled_samples_nothing_partial.
Theorem c51_sampling : forall mode f stamps ti oldest size now v ops,
  let d0 := di_new mode f stamps ti oldest size now v in let d := di_run d0 ops in di_mode d <> m_reporting ->
  (forall max w out, snd (di_step d (DTake max)) = DReports (w :: out) -> triggered_since d0 ops false = true) /\
  (forall tn resend w, snd (di_step d (DAvail tn resend w)) = DAvailable true -> triggered_since d0 ops false = true).
Proof. exact sampling_triggered. Qed.
Print Assumptions c51_sampling.
(** Missing: changes between Sampling and Reporting. *)
Theorem c51_count_partial : forall ops, through_disabled (mkDc [] 0) ops -> disabled_items (dc_run ops) < 2 ^ 32 ->
  dc_disabled (dc_run ops) = disabled_items (dc_run ops).
Proof. exact count_exact. Qed.
Print Assumptions c51_count_partial.
(** Each of them takes one off the count. *)
Theorem c51_count_refuted : forall ops, dc_disabled (dc_run ops) = (disabled_items (dc_run ops) - switches (mkDc [] 0) ops) mod 2 ^ 32.
Proof. exact count_run. Qed.
Print Assumptions c51_count_refuted.
Theorem c51_underflow_refuted : dc_disabled (dc_run [CAdd 1 2; CMode 1 1]) = 2 ^ 32 - 1 /\ disabled_items (dc_run [CAdd 1 2; CMode 1 1]) = 0.
Proof. exact count_wrong. Qed.
Print Assumptions c51_underflow_refuted.
(** A poll that had begun samples the disabled item. *)
Theorem c51_late_poll_refuted : let d0 := di_new m_reporting sv_filter 2 10 true 10 0 (at_time 1 100) in
  di_mode (di_run d0 (firstn 3 late_poll)) = m_disabled /\
  di_pre (di_run d0 (firstn 2 late_poll)) = [at_time 1 100] /\ di_pre (di_run d0 (firstn 3 late_poll)) = [at_time 1 100; at_time 42 6].
Proof. exact late_poll_run. Qed.
Print Assumptions c51_late_poll_refuted.
(** A value sampled before the item was disabled is reported when it is enabled again. *)
Theorem c51_stale_refuted : let d0 := di_new m_reporting sv_filter 2 10 true 10 0 (at_time 1 1) in
  snd (di_step (di_run d0 (firstn 5 stale_ops)) (DTake 9)) = DReports [at_time 42 6].
Proof. exact stale_run. Qed.
Print Assumptions c51_stale_refuted.
Example c51_ex : let d0 := di_new 1 sv_filter 2 10 true 10 0 (at_time 1 1) in
  let d := di_run d0 [DAvail 20 false waiting_value] in
  snd (di_step d (DTake 9)) = DReports [] /\ snd (di_step (fst (di_step d DTrigger)) (DTake 9)) = DReports [at_time 1 1].
Proof. exact ex_sampling. Qed.
Example c51_count_ex : through_disabled (mkDc [] 0) [CAdd 1 2; CAdd 2 0; CMode 1 0; CMode 2 1; CDel 2] /\
  dc_disabled (dc_run [CAdd 1 2; CAdd 2 0; CMode 1 0; CMode 2 1; CDel 2]) = 1.
Proof. exact ex_count. Qed.

(** * C52 *)
(** Every tree of supported operators over comparable values, in the form in which clients send
    it.  Missing: lists as operands, elements in other orders, unsupported operators inside. *)
Theorem c52_selects_partial : forall attr event_type subtype t, scalar attr t -> forall n, (tree_depth t <= n)%nat ->
  selects attr event_type subtype n (elements 0 t) = Some (holds attr event_type subtype t).
Proof. exact tree_selects. Qed.
Print Assumptions c52_selects_partial.
(** Evaluation returns for every list of elements without circular references. *)
Theorem c52_returns_partial : forall attr event_type subtype els rank, ranked els rank ->
  forall n i, (rank i < n)%nat -> where_clause attr event_type subtype n els i <> WDeep.
Proof. exact ranked_returns. Qed.
Print Assumptions c52_returns_partial.
Theorem c52_forward : forall attr event_type subtype els, forward els ->
  forall n, (length els < n)%nat -> where_clause attr event_type subtype n els 0 <> WDeep.
Proof. exact forward_returns. Qed.
Print Assumptions c52_forward.
Theorem c52_depth : forall attr event_type subtype els n i v,
  where_clause attr event_type subtype n els i = WOut v -> where_clause attr event_type subtype (S n) els i = WOut v.
Proof. exact depth_more. Qed.
Print Assumptions c52_depth.
Theorem c52_empty : forall attr event_type subtype n, selects attr event_type subtype (S n) [] = Some true.
Proof. exact empty_selects. Qed.
Print Assumptions c52_empty.
Theorem c52_unsupported : forall attr event_type subtype els e, nth_error els 0 = Some e -> ~ supported (el_op e) ->
  forall n, selects attr event_type subtype (S n) els = Some false.
Proof. exact unsupported_root. Qed.
Print Assumptions c52_unsupported.
(** Circular references: no depth is enough. *)
Theorem c52_circular_refuted : forall attr event_type subtype els loop, circular els loop ->
  forall n i, loop i -> where_clause attr event_type subtype n els i = WDeep.
Proof. exact circular_diverges. Qed.
Print Assumptions c52_circular_refuted.
Theorem c52_operands_refuted : forall attr event_type subtype els op os n, nth_error els 0 = Some (mkEl op os) ->
  (os = [] /\ supported op \/ op = op_equals /\ exists v, os = [OLit v]) -> where_clause attr event_type subtype (S n) els 0 = WPanic.
Proof. exact missing_operand. Qed.
Print Assumptions c52_operands_refuted.
Theorem c52_lists_refuted : forall attr event_type subtype els t n, nth_error els 0 = Some (mkEl op_equals [OLit (WList t); OLit (WList t)]) ->
  where_clause attr event_type subtype (S n) els 0 = WPanic.
Proof. exact list_compared. Qed.
Print Assumptions c52_lists_refuted.
(** An unsupported operator inside a comparison with false selects every event. *)
Theorem c52_nested_refuted : forall attr event_type subtype op os n, ~ supported op ->
  selects attr event_type subtype (S (S n)) [mkEl op_equals [OElem 1; OLit (WBool false)]; mkEl op os] = Some true.
Proof. exact nested_unsupported. Qed.
Print Assumptions c52_nested_refuted.
Example c52_ex : let attr a := if a =? 3 then WVal 12 7 else WNil in
  scalar attr ex_tree /\ selects attr (WNode 2041) (fun _ _ => false) 9 (elements 0 ex_tree) = Some true /\
  selects attr (WNode 1) (fun _ _ => false) 9 (elements 0 ex_tree) = Some false.
Proof. exact ex_selects. Qed.
Example c52_elements_ex : elements 0 ex_tree =
  [mkEl 0 [OElem 1; OElem 2]; mkEl 14 [OLit (WNode 2041)]; mkEl 0 [OAttr 3; OLit (WVal 12 7)]].
Proof. exact ex_elements. Qed.
Example c52_circular_ex : circular [mkEl op_equals [OElem 0; OLit WNil]] (fun i => i = O) /\
  circular [mkEl op_equals [OElem 1; OLit WNil]; mkEl op_equals [OElem 0; OLit WNil]] (fun i => i = O \/ i = 1%nat).
Proof. exact ex_circular. Qed.
