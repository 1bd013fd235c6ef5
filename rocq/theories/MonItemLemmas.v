(** Queue overflow and witnesses. *)
From Coq Require Import ZArith List Bool Lia.
From Coq Require Import ZifyBool ZifyNat.
From Verif Require Import Bytes Float FloatProofs MonQueue MonQueueProofs DataChange DataChangeSpec DataChangeProofs DataItemProofs WhereClause WhereSpec WhereProofs.
Import ListNotations.
Open Scope Z_scope.

Lemma full_put {A} oldest size (ops : list (mqop A)) v : let q := mq_run oldest size ops in
  length (mq_queue q) = mq_size q ->
  mq_queue (mq_step q (MPut v)) = (if mq_oldest q then tl (mq_queue q) else removelast (mq_queue q)) ++ [v].
Proof.
  cbv zeta. pose proof (size_bound A oldest size ops) as [[S1 _] _]. set (q := mq_run oldest size ops) in *. clearbody q. intros L. cbn [mq_step mq_queue].
  destruct (mq_oldest q).
  - rewrite enqueue_oldest by lia. f_equal. rewrite L. replace (S (mq_size q) - mq_size q)%nat with 1%nat by lia. destruct (mq_queue q); reflexivity.
  - rewrite enqueue_newest. f_equal. rewrite removelast_firstn_len. f_equal. lia.
Qed.
Lemma resize_keeps {A} (q : mqueue A) oldest n : let q' := mq_step q (MResize oldest n) in
  mq_size q' = Z.to_nat (revised_size n) /\
  mq_queue q' = if oldest then skipn (length (mq_queue q) - mq_size q') (mq_queue q) else firstn (mq_size q') (mq_queue q).
Proof.
  cbn [mq_step mq_size mq_queue]. split; [reflexivity|]. unfold resize, trim. destruct oldest; [apply pop_front_skipn|apply pop_back_firstn].
Qed.
Lemma never_marked oldest size (ops : list (mqop dval)) x : (forall v, In (MPut v) ops -> ~ marked v) ->
  In x (mq_out (mq_init oldest size) ops) -> ~ marked x.
Proof. intros H I. apply H, (unchanged dval oldest size). apply in_app_iff. now left. Qed.
Lemma out_app {A} (ops : list (mqop A)) : forall q ops', mq_out q (ops ++ ops') = mq_out q ops ++ mq_out (fold_left mq_step ops q) ops'.
Proof. induction ops as [|o ops IH]; intros q ops'; [reflexivity|]. cbn [app mq_out fold_left]. now rewrite IH, app_assoc. Qed.
Lemma out_puts {A} (vs : list A) : forall q, mq_out q (map MPut vs) = [].
Proof. induction vs as [|v vs IH]; intros q; [reflexivity|]. cbn. apply IH. Qed.
Lemma fill_length {A} oldest size (vs : list A) : forall q, (1 <= mq_size q)%nat -> (length (mq_queue q) <= mq_size q)%nat -> size = mq_size q -> oldest = mq_oldest q ->
  let q' := fold_left mq_step (map MPut vs) q in length (mq_queue q') = Nat.min size (length (mq_queue q) + length vs) /\ mq_size q' = size.
Proof.
  induction vs as [|v vs IH]; intros q S1 S2 E1 E2; cbn [map fold_left length].
  - split; [lia|congruence].
  - assert (L : length (mq_queue (mq_step q (MPut v))) = Nat.min (mq_size q) (S (length (mq_queue q)))) by (cbn [mq_step mq_queue]; apply enqueue_length; assumption).
    specialize (IH (mq_step q (MPut v)) S1). rewrite L in IH. destruct (IH ltac:(cbn; lia) E1 E2) as [I1 I2]. cbv zeta in *. split; [rewrite I1; lia|exact I2].
Qed.
(** Values are lost, and nothing that is delivered says so. *)
Lemma overflow_unsignalled oldest size (vs : list dval) : 2 <= size <= 1024 -> size < Z.of_nat (length vs) -> (forall v, In v vs -> ~ marked v) ->
  let out := mq_out (mq_init oldest size) (map MPut vs ++ [MTake (length vs)]) in
  (length out < length vs)%nat /\ forall x, In x out -> ~ marked x.
Proof.
  intros S L M. cbv zeta. split.
  - rewrite out_app, out_puts. cbn [app mq_out]. rewrite app_nil_r. unfold take. cbn [fst].
    destruct (fill_length oldest (Z.to_nat (revised_size size)) vs (mq_init oldest size)) as [F _].
    + cbn. rewrite revised_kept by lia. lia.
    + cbn. lia.
    + reflexivity.
    + reflexivity.
    + rewrite firstn_length, F. cbn [mq_init mq_queue length]. rewrite revised_kept by lia. lia.
  - intros x. apply never_marked. intros v H. apply in_app_iff in H. destruct H as [H|[H|[]]]; [|discriminate]. apply in_map_iff in H. destruct H as (w & W & Hw). injection W as ->. now apply M.
Qed.

(** * Filters *)
Definition sv_filter : dfilter := mkDf 1 0 FNaN.
Definition abs_filter (d : Z) : dfilter := mkDf 1 1 (FFin (f_int d)).
Definition good (v : mval) : dval := mkDv v 0 0 0.
Lemma nan_reported v : dv_value v = MFlt 0 FNaN -> is_data_change sv_filter v v = true.
Proof. intros E. unfold is_data_change, value_change. cbn. rewrite E. apply orb_true_r. Qed.
Lemma signed_wraps : is_data_change (abs_filter 1) (good (MInt 0 (2 ^ 63 - 1))) (good (MInt 0 (- 2 ^ 63))) = false.
Proof. vm_compute. reflexivity. Qed.
Lemma rounding_hides : exists cur prev, signed64 cur /\ signed64 prev /\ signed64 (cur - prev) /\ 2 ^ 53 < Z.abs (cur - prev) /\
  is_data_change (abs_filter (2 ^ 53)) (good (MInt 0 cur)) (good (MInt 0 prev)) = false.
Proof. exists (2 ^ 53 + 1), 0. unfold signed64. repeat split; try lia. Qed.
Lemma constant_slice_reported t els p p' : els <> [] -> p <> p' ->
  is_data_change (abs_filter 1) (good (MSlice t false p els)) (good (MSlice t false p' els)) = true.
Proof.
  intros E P. apply (elements_always (abs_filter 1) _ _ t els t els false p false p'); try assumption; try reflexivity.
  - repeat split; cbn; try lia; now left.
  - left. auto.
Qed.
Lemma ex_exact : let f := abs_filter 5 in
  is_data_change f (good (MInt 6 (-3))) (good (MInt 6 2)) = false /\ is_data_change f (good (MInt 6 (-4))) (good (MInt 6 2)) = true /\
  is_data_change f (good (MUint 7 9)) (good (MUint 7 4)) = false /\ is_data_change f (good (MUint 7 10)) (good (MUint 7 4)) = true /\
  is_data_change f (good (MFlt 11 (FFin (f_int 9)))) (good (MFlt 11 (FFin (f_int 4)))) = false /\
  is_data_change f (good (MFlt 11 (FFin (f_int 10)))) (good (MFlt 11 (FFin (f_int 4)))) = true /\
  is_data_change f (good (MUint 7 4)) (good (MUint 7 5)) = true.
Proof. vm_compute. repeat split. Qed.
Definition at_time (z t : Z) : dval := mkDv (MInt 6 z) 0 0 t.
(** an item sampled every 10: values read at 2, 8, 14 and 27 *)
Definition ex_item : ditem :=
  mkDi m_reporting sv_filter 2 10 0 (at_time 1 0) [at_time 5 2; at_time 1 8; at_time 7 14; at_time 7 27] (mq_init true 10) false true 0.
Lemma ex_intervals :
  interval_samples 3 0 10 (di_pre ex_item) (di_prev ex_item) = [at_time 1 0; at_time 1 8; at_time 7 14] /\
  mq_queue (di_q (fst (available ex_item 25 false waiting_value))) = [at_time 7 14] /\
  di_pre (fst (available ex_item 25 false waiting_value)) = [at_time 7 27].
Proof. vm_compute. repeat split. Qed.
Lemma ex_tame : Forall (tame (fun _ _ _ => []) (fun _ _ _ => [])) (di_prev ex_item :: di_pre ex_item) /\ in_time_order (di_pre ex_item).
Proof. split; [repeat constructor; cbn; lia|]. cbn. repeat split; repeat constructor; cbn; lia. Qed.

(** * Modes *)
Definition late_poll : list diop :=
  [DPollTick; DMode m_disabled 5 waiting_value; DPoll (at_time 42 6); DMode m_reporting 20 (at_time 43 21); DAvail 20 false waiting_value].
Lemma late_poll_run : let d0 := di_new m_reporting sv_filter 2 10 true 10 0 (at_time 1 100) in
  di_mode (di_run d0 (firstn 3 late_poll)) = m_disabled /\
  di_pre (di_run d0 (firstn 2 late_poll)) = [at_time 1 100] /\ di_pre (di_run d0 (firstn 3 late_poll)) = [at_time 1 100; at_time 42 6].
Proof. vm_compute. repeat split. Qed.
Definition stale_ops : list diop :=
  [DPollTick; DPoll (at_time 42 6); DMode m_disabled 7 waiting_value; DMode m_reporting 20 (at_time 43 21); DAvail 20 false waiting_value; DTake 9].
Lemma stale_run : let d0 := di_new m_reporting sv_filter 2 10 true 10 0 (at_time 1 1) in
  snd (di_step (di_run d0 (firstn 5 stale_ops)) (DTake 9)) = DReports [at_time 42 6].
Proof. vm_compute. reflexivity. Qed.
Lemma ex_sampling : let d0 := di_new 1 sv_filter 2 10 true 10 0 (at_time 1 1) in
  let d := di_run d0 [DAvail 20 false waiting_value] in
  snd (di_step d (DTake 9)) = DReports [] /\ snd (di_step (fst (di_step d DTrigger)) (DTake 9)) = DReports [at_time 1 1].
Proof. vm_compute. repeat split. Qed.
Lemma count_wrong : dc_disabled (dc_run [CAdd 1 2; CMode 1 1]) = 2 ^ 32 - 1 /\ disabled_items (dc_run [CAdd 1 2; CMode 1 1]) = 0.
Proof. vm_compute. split; reflexivity. Qed.
Lemma ex_count : through_disabled (mkDc [] 0) [CAdd 1 2; CAdd 2 0; CMode 1 0; CMode 2 1; CDel 2] /\
  dc_disabled (dc_run [CAdd 1 2; CAdd 2 0; CMode 1 0; CMode 2 1; CDel 2]) = 1.
Proof.
  split; [|vm_compute; reflexivity]. cbn [through_disabled]. repeat split; intros old H; vm_compute in H; injection H as <-; auto.
Qed.

(** * Where clause *)
Definition ex_tree : filter_tree := TEquals (TNested (TOfType 2041)) (TNested (TEquals (TAttribute 3) (TValue (WVal 12 7)))).
Lemma ex_elements : elements 0 ex_tree =
  [mkEl 0 [OElem 1; OElem 2]; mkEl 14 [OLit (WNode 2041)]; mkEl 0 [OAttr 3; OLit (WVal 12 7)]].
Proof. reflexivity. Qed.
Lemma ex_selects : let attr a := if a =? 3 then WVal 12 7 else WNil in
  scalar attr ex_tree /\ selects attr (WNode 2041) (fun _ _ => false) 9 (elements 0 ex_tree) = Some true /\
  selects attr (WNode 1) (fun _ _ => false) 9 (elements 0 ex_tree) = Some false.
Proof. cbv zeta. split; [cbn; auto|]. vm_compute. split; reflexivity. Qed.
Lemma ex_circular : circular [mkEl op_equals [OElem 0; OLit WNil]] (fun i => i = O) /\
  circular [mkEl op_equals [OElem 1; OLit WNil]; mkEl op_equals [OElem 0; OLit WNil]] (fun i => i = O \/ i = 1%nat).
Proof. split; intros i L; [subst; exists O, [OLit WNil]; auto|]. destruct L as [-> | ->]; [exists 1%nat, [OLit WNil]|exists O, [OLit WNil]]; auto. Qed.
