(** C105: an item is sampled at its interval, exactly while it is there and not disabled. *)
From Coq Require Import ZArith List Bool.
From Verif Require Import Float Nodes MonService Sampling SamplingSpec SamplingProofs SamplingLemmas.
Import ListNotations.
Open Scope Z_scope.

(** Calls one after the other: the mode and interval set last count, and the item is in the one group for that
    interval, or in none when it is disabled or removed; a tick samples it exactly when it is in the group *)
Theorem c105_one_call_after_the_other : forall odd min_rate revise gs m x l, good_rate min_rate -> proper l ->
  let s := turns odd min_rate revise (made odd min_rate revise gs m x) l in
  sm_crashed s = false /\ sm_threads s = [] /\ sm_mode s = mode_after m l /\ sm_interval s = revise (asked_after x l) /\
  (there l -> sm_alive s = true /\ sm_groups s = if mode_after m l =? Disabled then [] else [group odd min_rate (revise (asked_after x l))]) /\
  (~ there l -> sm_alive s = false /\ sm_groups s = []) /\
  forall g, sm_samples (turns odd min_rate revise (made odd min_rate revise gs m x) (l ++ [Fire g])) =
    sm_samples s + if sm_alive s && negb (mode_after m l =? Disabled) && (g =? group odd min_rate (revise (asked_after x l))) then 1 else 0.
Proof. exact sequential. Qed.
Print Assumptions c105_one_call_after_the_other.

(** Any number of Modify and SetMonitoringMode calls at once, in any order of their steps, without a removal: no crash,
    and when all have returned an item that is not disabled is in the group for its interval.  Missing: that it is in
    no other one, which is false *)
Theorem c105_never_lost_partial : forall odd min_rate revise gs m x l, good_rate min_rate -> no_removal l ->
  let s := all odd min_rate revise (made odd min_rate revise gs m x) l in
  sm_crashed s = false /\ sm_alive s = true /\
  (sm_threads s = [] -> sm_mode s <> Disabled -> In (group odd min_rate (sm_interval s)) (sm_groups s)).
Proof. exact never_lost. Qed.
Print Assumptions c105_never_lost_partial.

(** The group's interval, in nanoseconds, is the item's in whole milliseconds *)
Theorem c105_rate : forall odd min_rate m z, min_rate = FFin m -> 0 <= m <= z -> z < f_int 9000000000000 ->
  group odd min_rate (FFin z) = z / funit * 1000000 /\
  group odd min_rate (FFin z) * funit <= z * 1000000 < (group odd min_rate (FFin z) + 1000000) * funit.
Proof. exact group_rate. Qed.
Print Assumptions c105_rate.

(** Every interval, even NaN or infinite, gives a group whose ticker works *)
Theorem c105_every_interval_ticks : forall odd min_rate x, good_rate min_rate -> ticks (group odd min_rate x) = true.
Proof. exact intervals_positive. Qed.
Print Assumptions c105_every_interval_ticks.

(** One group for each interval, whatever calls there are and however they interleave *)
Theorem c105_one_group_for_each_interval : forall odd min_rate revise gs m x l more, NoDup gs ->
  let s := all odd min_rate revise (made odd min_rate revise gs m x) l in
  NoDup (sm_all s) /\ incl (sm_groups s) (sm_all s) /\ incl (sm_all s) (sm_all (all odd min_rate revise s more)).
Proof. exact groups_kept. Qed.
Print Assumptions c105_one_group_for_each_interval.

(** So there are at most as many groups, and goroutines, as there are milliseconds from the least interval to one minute
    (and one for NaN) *)
Theorem c105_number_of_groups : forall odd node_min publishing lo attr n md x l, 1 <= lo <= 60000 ->
  (forall k, node_min k = FNaN \/ exists z, node_min k = FFin z /\ z <= f_int 60000) ->
  let revise := revise_interval node_min (ms lo) publishing attr n in
  Z.of_nat (length (sm_all (all odd (ms lo) revise (made odd (ms lo) revise [] md x) l))) <= 60002 - lo.
Proof. exact group_count. Qed.
Print Assumptions c105_number_of_groups.

(** They are never given up *)
Theorem c105_groups_kept_without_items_refuted : forall k, Z.of_nat k <= 59900 -> exists l,
  let s := turns odd0 (ms 100) same (made odd0 (ms 100) same [] 2 (ms 100)) l in
  proper l /\ ~ there l /\ sm_groups s = [] /\ (k <= length (sm_all s))%nat.
Proof. exact groups_pile_up. Qed.
Print Assumptions c105_groups_kept_without_items_refuted.

(** A call that is under way when the item is removed ends the process *)
Theorem c105_set_mode_and_removal_refuted :
  exists l, sm_crashed (all odd0 (ms 100) same (made odd0 (ms 100) same [] 2 (ms 100)) l) = true /\
  l = [Call (SetMode 1); Go 0; Go 0; Call Remove; Go 1; Go 1; Go 1; Go 1; Go 0; Go 0].
Proof. exact removed_meanwhile. Qed.
Print Assumptions c105_set_mode_and_removal_refuted.
Theorem c105_modify_and_removal_refuted :
  exists l, sm_crashed (all odd0 (ms 100) same (made odd0 (ms 100) same [] 2 (ms 100)) l) = true /\
  l = Call (Modify (ms 250)) :: Call Remove :: repeat (Go 1) 4 ++ repeat (Go 0) 4.
Proof. exact removed_before_modify. Qed.
Print Assumptions c105_modify_and_removal_refuted.

(** Two Modify at once leave the item in two groups, in one of them even after its removal *)
Theorem c105_two_groups_refuted : exists l, let s := all odd0 (ms 100) same (made odd0 (ms 100) same [] 2 (ms 100)) l in
  sm_threads s = [] /\ sm_crashed s = false /\ sm_groups s = [250000000; 500000000] /\ sm_interval s = ms 500 /\
  let s' := all odd0 (ms 100) same s (Call Remove :: repeat (Go 0) 4) in
  sm_threads s' = [] /\ sm_alive s' = false /\ sm_groups s' = [250000000].
Proof. exact two_groups. Qed.
Print Assumptions c105_two_groups_refuted.

(** A disabled item is sampled for ever *)
Theorem c105_disabled_sampled_refuted : exists l, let s := all odd0 (ms 100) same (made odd0 (ms 100) same [] 2 (ms 100)) l in
  sm_threads s = [] /\ sm_crashed s = false /\ sm_mode s = Disabled /\
  forall n, sm_samples (all odd0 (ms 100) same s (repeat (Tick 250000000) n)) = sm_samples s + Z.of_nat n.
Proof. exact disabled_sampled. Qed.
Print Assumptions c105_disabled_sampled_refuted.

(** A least sampling interval of half a millisecond: the first item with that interval ends the process *)
Theorem c105_half_millisecond_refuted : exists min_rate, min_rate = FFin (funit / 2) /\ forall odd gs m,
  m <> 0 -> ~ In 0 gs -> sm_crashed (made odd min_rate same gs m min_rate) = true.
Proof. exact half_millisecond. Qed.
Print Assumptions c105_half_millisecond_refuted.

(** The interval the client is told may be longer than the one that is used *)
Theorem c105_fraction_refuted : exists x, f_lt (ms 100) x = true /\ f_lt x (ms 101) = true /\ group odd0 (ms 100) x = 100000000.
Proof. exact fraction_dropped. Qed.
Print Assumptions c105_fraction_refuted.
