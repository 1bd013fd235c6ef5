(** Sampling of a data item: the scheduler's poll groups, and the calls that put the item into them and take it
    out, step by step, for callers on several goroutines.

    Source: /repo/server/scheduler.go 8-95 (Scheduler, PollGroup), /repo/server/datachange_monitored_item.go 44-69
    (NewDataChangeMonitoredItem), 128-139 (Modify), 142-172 (Delete, SetMonitoringMode), 207-263 (setSamplingInterval,
    startMonitoring, stopMonitoring), 266-273 (Poll).

    The callers are handlers of requests on different connections (a handler finds the item with FindItem, which
    releases the subscription, and then calls Modify or SetMonitoringMode) and the goroutine that deletes expired
    subscriptions (subscription_manager.go 97-117).

    Simplifications: one item; a section of code between Lock and Unlock of the item is one step, for nothing in it
    waits; queue, filter and handles are left out (MonQueue.v, DataChange.v). *)
From Coq Require Import ZArith List Bool.
From Verif Require Import Float.
Import ListNotations.
Open Scope Z_scope.

(** * Durations *)
(** int64 arithmetic *)
Definition wrap64 (z : Z) : Z := (z + 2 ^ 63) mod 2 ^ 64 - 2 ^ 63.

Section Sampling.
(** int64 of a float64 that is NaN or out of range: implementation specific *)
Variable odd : f64 -> Z.
(** ServerCapabilities.MinSupportedSampleRate *)
Variable min_rate : f64.
(** setSamplingInterval 207-235, in MonService.v; a negative interval needs the subscription (211, 226) *)
Variable revise : f64 -> f64.

(** time.Duration(x), before the multiplication; the fraction is dropped *)
Definition millis (x : f64) : Z :=
  match x with FFin z => let q := Z.quot z funit in if (- 2 ^ 63 <=? q) && (q <? 2 ^ 63) then q else odd x | _ => odd x end.
(** time.Duration(x) * time.Millisecond: scheduler.go 19, datachange_monitored_item.go 236, 255, 261 *)
Definition duration (x : f64) : Z := wrap64 (millis x * 1000000).
(** GetPollGroup 24-36: the interval of the group *)
Definition group (x : f64) : Z := if duration x <? duration min_rate then duration min_rate else duration x.
(** time.NewTicker (57) panics unless the interval is positive *)
Definition ticks (g : Z) : bool := 0 <? g.

(** * The item and its callers *)
Inductive iop : Type := Modify (x : f64) | SetMode (m : Z) | Remove.
(** Where a caller is: before the first Lock; after the Unlock of stopMonitoring (260); about to take the item from the
    group for the interval r; before the Lock of stopMonitoring (262); after the Unlock of startMonitoring (254); about
    to put it into the group for r; before the Lock of startMonitoring (256) *)
Inductive pc : Type := P0 | P1 | P1r (r : f64) | P2 | P3 | P3r (r : f64) | P4.
(** [sm_alive]: mi.sub and mi.node are not nil.  [sm_groups]: the groups the item is in.  [sm_all]: the groups there
    are.  [sm_samples]: how many values were sampled.  [sm_crashed]: a goroutine panicked, which ends the process. *)
Record samp : Type := mkSamp {
  sm_mode : Z; sm_interval : f64; sm_alive : bool; sm_groups : list Z; sm_all : list Z; sm_samples : Z;
  sm_threads : list (iop * pc); sm_crashed : bool }.
Definition Disabled : Z := 0.

Definition set_threads (s : samp) (l : list (iop * pc)) : samp :=
  mkSamp (sm_mode s) (sm_interval s) (sm_alive s) (sm_groups s) (sm_all s) (sm_samples s) l (sm_crashed s).
Definition crash (s : samp) : samp :=
  mkSamp (sm_mode s) (sm_interval s) (sm_alive s) (sm_groups s) (sm_all s) (sm_samples s) (sm_threads s) true.
(** GetPollGroup 30-35: a group is made when there is none for the interval; its goroutine panics when the ticker does *)
Definition get_group (x : f64) (s : samp) : samp :=
  if existsb (Z.eqb (group x)) (sm_all s) then s
  else mkSamp (sm_mode s) (sm_interval s) (sm_alive s) (sm_groups s) (sm_all s ++ [group x]) (sm_samples s) (sm_threads s)
              (sm_crashed s || negb (ticks (group x))).
(** Subscribe 85-89, Unsubscribe 91-95: the members are a map *)
Definition subscribe (x : f64) (s : samp) : samp :=
  let s := get_group x s in
  if existsb (Z.eqb (group x)) (sm_groups s) then s
  else mkSamp (sm_mode s) (sm_interval s) (sm_alive s) (sm_groups s ++ [group x]) (sm_all s) (sm_samples s) (sm_threads s) (sm_crashed s).
Definition unsubscribe (x : f64) (s : samp) : samp :=
  let s := get_group x s in
  mkSamp (sm_mode s) (sm_interval s) (sm_alive s) (filter (fun g => negb (g =? group x)) (sm_groups s)) (sm_all s) (sm_samples s) (sm_threads s) (sm_crashed s).
Definition sampled (s : samp) : samp :=
  mkSamp (sm_mode s) (sm_interval s) (sm_alive s) (sm_groups s) (sm_all s) (sm_samples s + 1) (sm_threads s) (sm_crashed s).

(** What a caller does next, and where it is then; [None]: it has returned *)
Definition set_mode (m : Z) (s : samp) : samp :=
  mkSamp m (sm_interval s) (sm_alive s) (sm_groups s) (sm_all s) (sm_samples s) (sm_threads s) (sm_crashed s).
Definition set_interval (x : f64) (s : samp) : samp :=
  mkSamp (sm_mode s) x (sm_alive s) (sm_groups s) (sm_all s) (sm_samples s) (sm_threads s) (sm_crashed s).
Definition removed (s : samp) : samp :=
  mkSamp (sm_mode s) (sm_interval s) false (sm_groups s) (sm_all s) (sm_samples s) (sm_threads s) (sm_crashed s).
(** startMonitoring 247-254: mi.sub.session is read *)
Definition start (s : samp) : samp * option pc :=
  if sm_mode s =? Disabled then (s, None)
  else if negb (sm_alive s) then (crash s, None)
  else (sampled s, Some P3).
Definition next (o : iop) (p : pc) (s : samp) : samp * option pc :=
  match p with
  | P0 => match o with
          | SetMode m => if sm_mode s =? m then (s, None) else (s, Some P1)     (* 158-160 *)
          | _ => (s, Some P1)
          end
  | P1 => (s, Some (P1r (sm_interval s)))
  | P1r r => (unsubscribe r s, Some P2)
  | P2 => match o with
          | Modify x => if negb (sm_alive s) && f_lt x (FFin 0) then (crash s, None) else start (set_interval (revise x) s)
          | SetMode m => if negb (sm_alive s) then (crash s, None) else start (set_mode m s)      (* 166, 168: mi.sub *)
          | Remove => (removed s, None)
          end
  | P3 => (s, Some (P3r (sm_interval s)))
  | P3r r => (subscribe r s, Some P4)
  | P4 => (s, None)
  end.

(** * Everything together *)
Inductive happening : Type :=
| Call (o : iop)          (* a goroutine begins a call *)
| Go (k : nat)            (* the k-th call under way goes on *)
| Tick (g : Z).           (* the ticker of a group fires: Poll of its members, 69-80; a deleted item is not read, 268 *)
Definition happens (s : samp) (h : happening) : samp :=
  if sm_crashed s then s else
  match h with
  | Call o => set_threads s (sm_threads s ++ [(o, P0)])
  | Go k =>
      match nth_error (sm_threads s) k with
      | None => s
      | Some (o, p) =>
          let '(s', p') := next o p s in
          set_threads s' (firstn k (sm_threads s) ++ (match p' with Some p' => [(o, p')] | None => [] end) ++ skipn (S k) (sm_threads s))
      end
  | Tick g => if existsb (Z.eqb g) (sm_groups s) && sm_alive s then sampled s else s
  end.
Definition all (s : samp) (l : list happening) : samp := fold_left happens l s.
(** NewDataChangeMonitoredItem 44-69: nobody else has the item yet *)
Definition made (groups : list Z) (m : Z) (x : f64) : samp :=
  let s := mkSamp m (revise x) true [] groups 0 [] false in
  if m =? Disabled then s else subscribe (revise x) (sampled s).
End Sampling.
