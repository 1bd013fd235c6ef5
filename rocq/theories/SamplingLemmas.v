(** Statements about sampling: examples that meet their hypotheses, and what goes wrong. *)
From Coq Require Import ZArith List Bool Lia.
From Verif Require Import Float Nodes MonService Sampling SamplingSpec SamplingProofs.
Import ListNotations.
Open Scope Z_scope.

Definition ms (n : Z) : f64 := FFin (f_int n).
Definition odd0 : f64 -> Z := fun _ => 0.
Definition same : f64 -> f64 := fun x => x.
Lemma good_100 : good_rate (ms 100).
Proof. exists (f_int 100). split; [reflexivity|]. unfold f_int, funit. lia. Qed.

(** * Examples *)
Example ex_turns : proper [Do (Modify (ms 250)); Fire 250000000; Do (SetMode 0); Fire 250000000; Do Remove; Fire 250000000].
Proof.
  intros l1 l2 o E. assert (N : forall n, nth_error l1 n = None \/ nth_error [Do (Modify (ms 250)); Fire 250000000; Do (SetMode 0); Fire 250000000; Do Remove; Fire 250000000] n = nth_error l1 n).
  { intros n. rewrite E. destruct (nth_error l1 n) eqn:F; [right|left; reflexivity]. rewrite nth_error_app1; [exact F|]. apply nth_error_Some. congruence. }
  destruct l1 as [|a1 [|a2 [|a3 [|a4 [|a5 [|a6 l1]]]]]]; cbn in E; inversion E; subst; cbn; try (intros [H|H]; [discriminate|contradiction]).
  destruct l1; discriminate.
Qed.
Example ex_sequential :
  let s := turns odd0 (ms 100) same (made odd0 (ms 100) same [] 2 (ms 100)) [Do (Modify (ms 250)); Fire 250000000; Fire 100000000; Do (SetMode 0); Fire 250000000] in
  (sm_groups s, sm_samples s, sm_all s, sm_crashed s) = ([], 3, [100000000; 250000000], false).
Proof. vm_compute. reflexivity. Qed.
Example ex_at_once :
  let s := all odd0 (ms 100) same (made odd0 (ms 100) same [] 2 (ms 100))
             ([Call (Modify (ms 250)); Call (SetMode 1); Go 1; Go 0; Go 0; Go 0; Go 1; Go 0; Go 1; Go 0] ++ repeat (Go 0) 20) in
  (sm_threads s, sm_mode s, sm_groups s) = ([], 1, [250000000]).
Proof. vm_compute. reflexivity. Qed.

(** * Every interval gives a ticker *)
Lemma intervals_positive odd min_rate x : good_rate min_rate -> ticks (group odd min_rate x) = true.
Proof. intros G. pose proof (group_positive odd min_rate x G). unfold ticks. apply Z.ltb_lt. lia. Qed.

(** * What goes wrong *)
(** A least sampling interval of half a millisecond: the first item with the interval 0.5 ends the process *)
Lemma half_millisecond : exists min_rate, min_rate = FFin (funit / 2) /\ forall odd gs m,
  m <> 0 -> ~ In 0 gs -> sm_crashed (made odd min_rate same gs m min_rate) = true.
Proof.
  exists (FFin (funit / 2)). split; [reflexivity|]. intros odd gs m M N. unfold made. rewrite (proj2 (Z.eqb_neq m Disabled)) by exact M.
  assert (E : group odd (FFin (funit / 2)) (FFin (funit / 2)) = 0) by (vm_compute; reflexivity).
  unfold subscribe, get_group, same. rewrite E. cbn [sampled sm_all].
  destruct (existsb (Z.eqb 0) gs) eqn:X.
  { apply existsb_exists in X. destruct X as (g & I & Q). apply Z.eqb_eq in Q. subst g. contradiction. }
  cbn. destruct (existsb (Z.eqb 0) _); reflexivity.
Qed.
(** SetMonitoringMode is under way, the item is removed, and SetMonitoringMode goes on *)
Lemma removed_meanwhile : exists l, sm_crashed (all odd0 (ms 100) same (made odd0 (ms 100) same [] 2 (ms 100)) l) = true /\
  l = [Call (SetMode 1); Go 0; Go 0; Call Remove; Go 1; Go 1; Go 1; Go 1; Go 0; Go 0].
Proof. eexists. split; [|reflexivity]. vm_compute. reflexivity. Qed.
Lemma removed_before_modify : exists l, sm_crashed (all odd0 (ms 100) same (made odd0 (ms 100) same [] 2 (ms 100)) l) = true /\
  l = Call (Modify (ms 250)) :: Call Remove :: repeat (Go 1) 4 ++ repeat (Go 0) 4.
Proof. eexists. split; [|reflexivity]. vm_compute. reflexivity. Qed.
(** Two Modify at once: the item is in two groups, and still in one when it has been removed *)
Lemma two_groups : exists l, let s := all odd0 (ms 100) same (made odd0 (ms 100) same [] 2 (ms 100)) l in
  sm_threads s = [] /\ sm_crashed s = false /\ sm_groups s = [250000000; 500000000] /\ sm_interval s = ms 500 /\
  let s' := all odd0 (ms 100) same s (Call Remove :: repeat (Go 0) 4) in
  sm_threads s' = [] /\ sm_alive s' = false /\ sm_groups s' = [250000000].
Proof.
  exists ([Call (Modify (ms 250)); Call (Modify (ms 500))] ++ repeat (Go 0) 3 ++ repeat (Go 1) 3 ++ repeat (Go 0) 8).
  vm_compute. repeat split.
Qed.
(** SetMonitoringMode(Disabled) while Modify is under way: the item is disabled, and sampled at every tick for ever *)
Lemma disabled_sampled : exists l, let s := all odd0 (ms 100) same (made odd0 (ms 100) same [] 2 (ms 100)) l in
  sm_threads s = [] /\ sm_crashed s = false /\ sm_mode s = Disabled /\
  forall n, sm_samples (all odd0 (ms 100) same s (repeat (Tick 250000000) n)) = sm_samples s + Z.of_nat n.
Proof.
  exists ([Call (Modify (ms 250)); Call (SetMode 0)] ++ repeat (Go 0) 5 ++ repeat (Go 1) 4 ++ repeat (Go 0) 2).
  set (s := all _ _ _ _ _). cbv zeta.
  assert (T0 : s = mkSamp 0 (ms 250) true [250000000] [100000000; 250000000] 2 [] false) by (vm_compute; reflexivity).
  clearbody s. subst s. split; [reflexivity|]. split; [reflexivity|]. split; [reflexivity|].
  assert (T : forall k c, sm_samples (all odd0 (ms 100) same (mkSamp 0 (ms 250) true [250000000] [100000000; 250000000] c [] false) (repeat (Tick 250000000) k)) = c + Z.of_nat k).
  { induction k as [|k IH]; intros c; [cbn; lia|]. rewrite Nat2Z.inj_succ. cbn [repeat]. unfold all in *. cbn [fold_left].
    change (happens odd0 (ms 100) same (mkSamp 0 (ms 250) true [250000000] [100000000; 250000000] c [] false) (Tick 250000000))
      with (mkSamp 0 (ms 250) true [250000000] [100000000; 250000000] (c + 1) [] false). rewrite IH. lia. }
  intros n. rewrite T. reflexivity.
Qed.
(** The fraction of a millisecond is dropped: the item is sampled more often than the client is told *)
Lemma fraction_dropped : exists x, f_lt (ms 100) x = true /\ f_lt x (ms 101) = true /\ group odd0 (ms 100) x = 100000000.
Proof. exists (FFin (f_int 100 + funit / 10 * 9)). vm_compute. repeat split. Qed.
(** * How many groups there are *)
Lemma revised_ranged node_min publishing lo attr n x : 1 <= lo <= 60000 ->
  (forall k, node_min k = FNaN \/ exists z, node_min k = FFin z /\ z <= f_int 60000) ->
  ranged lo 60000 (revise_interval node_min (ms lo) publishing attr n x).
Proof.
  intros L N. pose proof funit_pos as F. unfold revise_interval, maxSamplingInterval, ms.
  set (y := if f_lt x (FFin 0) then publishing else x). clearbody y.
  set (y1 := if f_lt y (FFin (f_int lo)) then FFin (f_int lo) else y).
  assert (A : y1 = FNaN \/ y1 = FInf false \/ exists z, y1 = FFin z /\ f_int lo <= z).
  { unfold y1. destruct y as [|[]|z]; cbn [f_lt negb]; [left; reflexivity|right; right; eexists; split; [reflexivity|lia]|right; left; reflexivity|].
    right. right. destruct (Z.ltb_spec z (f_int lo)); eexists; (split; [reflexivity|lia]). }
  clearbody y1. set (y2 := if f_lt (FFin (f_int 60000)) y1 then FFin (f_int 60000) else y1).
  assert (B : ranged lo 60000 y2).
  { unfold y2. destruct A as [->|[->|(z & -> & A)]]; cbn [f_lt negb].
    - left. reflexivity.
    - right. eexists. split; [reflexivity|]. unfold f_int. nia.
    - right. destruct (Z.ltb_spec (f_int 60000) z); eexists; (split; [reflexivity|]); unfold f_int in *; nia. }
  clearbody y2. destruct (attr =? _); [|exact B]. destruct (nd_kind n); try exact B.
  destruct (f_lt y2 (node_min n)) eqn:E; [|exact B].
  destruct (N n) as [Q|(z & Q & Z)]; rewrite Q in *; [left; reflexivity|].
  destruct B as [->|(w & -> & B)]; cbn [f_lt] in E; [discriminate|]. apply Z.ltb_lt in E. right. exists z. split; [reflexivity|]. unfold f_int in *. nia.
Qed.
Lemma group_count odd node_min publishing lo attr n md x l : 1 <= lo <= 60000 ->
  (forall k, node_min k = FNaN \/ exists z, node_min k = FFin z /\ z <= f_int 60000) ->
  let revise := revise_interval node_min (ms lo) publishing attr n in
  Z.of_nat (length (sm_all (all odd (ms lo) revise (made odd (ms lo) revise [] md x) l))) <= 60002 - lo.
Proof.
  intros L N revise. pose proof funit_pos as F.
  pose proof (few_groups odd (ms lo) revise lo 60000 (f_int lo) eq_refl) as H.
  assert (R : 0 <= f_int lo <= f_int lo /\ 0 <= lo /\ 60000 < 8999999999999) by (unfold f_int; nia).
  specialize (H R (fun y => revised_ranged node_min publishing lo attr n y L N) md x l). lia.
Qed.
(** A group is kept, with its goroutine, when nobody is in it any more: as many as there are intervals *)
Lemma nodup_map_inj {A B} (f : A -> B) (l : list A) : (forall a b, In a l -> In b l -> f a = f b -> a = b) -> NoDup l -> NoDup (map f l).
Proof.
  induction l as [|a r IH]; intros J N; [constructor|]. inversion N as [|? ? X Y]; subst. cbn. constructor.
  - intros I. apply in_map_iff in I. destruct I as (b & E & I). apply X. rewrite (J a b); [exact I|left; reflexivity|right; exact I|symmetry; exact E].
  - apply IH; [|exact Y]. intros b c Ib Ic. apply J; right; assumption.
Qed.
Lemma groups_pile_up k : Z.of_nat k <= 59900 -> exists l,
  let s := turns odd0 (ms 100) same (made odd0 (ms 100) same [] 2 (ms 100)) l in
  proper l /\ ~ there l /\ sm_groups s = [] /\ (k <= length (sm_all s))%nat.
Proof.
  intros K. set (xs := map (fun i => ms (100 + Z.of_nat i)) (seq 0 k)).
  assert (GR : forall i, In i (seq 0 k) -> group odd0 (ms 100) (ms (100 + Z.of_nat i)) = (100 + Z.of_nat i) * 1000000).
  { intros i I. apply in_seq in I. pose proof funit_pos as F.
    destruct (group_rate odd0 (ms 100) (f_int 100) (f_int (100 + Z.of_nat i)) eq_refl) as [E _]; [unfold f_int; nia|unfold f_int; nia|].
    unfold ms at 2. rewrite E. unfold f_int. rewrite Z.div_mul by lia. reflexivity. }
  assert (N : NoDup (map (fun y => group odd0 (ms 100) (same y)) xs)).
  { unfold xs. rewrite map_map. unfold same. apply nodup_map_inj; [|apply seq_NoDup]. intros a b A B E. rewrite (GR a A), (GR b B) in E. lia. }
  exists (map (fun y => Do (Modify y)) xs ++ [Do Remove]). cbv zeta.
  destruct (pile odd0 (ms 100) same 2 (ms 100) xs good_100 ltac:(discriminate) N) as [P Q].
  split.
  { intros l1 l2 o E. destruct l2 as [|t l2] using rev_ind; [intros []|]. exfalso. rewrite app_comm_cons, app_assoc in E. apply app_inj_tail in E. destruct E as [E _].
    assert (I : In (Do Remove) (map (fun y => Do (Modify y)) xs)) by (rewrite E; apply in_or_app; right; left; reflexivity).
    apply in_map_iff in I. destruct I as (y & D & _). discriminate. }
  split; [intros T; apply T; apply in_or_app; right; left; reflexivity|].
  split; [exact P|]. unfold xs in Q at 1. rewrite map_length, seq_length in Q. exact Q.
Qed.
