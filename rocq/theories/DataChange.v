(** Data change monitored items: filter, sampling and monitoring mode.

    Sources: /repo/server/datachange_monitored_item.go (Modify 128, SetMonitoringMode 155,
    setFilter 239, startMonitoring 247, stopMonitoring 259, Poll 266, enqueue 300, notifications
    336, notificationsAvailable 355-411, isDataChange 413-447, equalDeadbandAbsolute 449-494,
    withTimestamps 497), /repo/server/scheduler.go (PollGroup 38-110),
    /repo/server/subscription.go (AppendItem 134-147, DeleteItem 149-162, 333 and 523: the test
    before notifications is called), /repo/ua/enums.generated.go 1377-1379, 1401-1403, 1425-1427.

    The item's lock makes each operation one step.  Not modelled here: the triggering links and
    the session's permissions (a read is an argument of the operation), picoseconds, and the
    operations on a deleted item. *)
From Coq Require Import ZArith List Bool.
From Verif Require Import Bytes Float MonQueue.
Import ListNotations.
Open Scope Z_scope.

(** A Go value in a ua.Variant as package reflect sees it.  [t] is its dynamic type.  [ptr] is the
    address of a slice's first element. *)
Inductive mval : Type :=
| MNil
| MInt (t z : Z)                                 (* the signed kinds *)
| MUint (t z : Z)                                (* the unsigned kinds *)
| MFlt (t : Z) (f : f64)                         (* float32 and float64 *)
| MSlice (t : Z) (nil : bool) (ptr : Z) (els : list mval)
| MByteSlice (t : Z) (nil : bool) (ptr : Z) (bs : list Z)   (* the element kind is Uint8 *)
| MArray (t : Z) (els : list mval)               (* Guid is [16]byte *)
| MOther (t c : Z).                              (* bool, string and struct kinds, [c] its content *)

Definition f_same (a b : f64) : bool :=          (* == of two floats *)
  match a, b with
  | FFin x, FFin y => x =? y
  | FInf s, FInf r => Bool.eqb s r
  | _, _ => false
  end.
Section All2.
  Context {X : Type} (f : X -> X -> bool).
  Fixpoint all2 (l1 l2 : list X) {struct l1} : bool :=
    match l1, l2 with
    | [], [] => true
    | x :: l1', y :: l2' => f x y && all2 l1' l2'
    | _, _ => false
    end.
End All2.
(** reflect.DeepEqual (Go standard library): slices are equal when both are nil or neither, they
    have the same length and the same address or equal elements.  A struct that contains a NaN
    is not represented. *)
Fixpoint deep_equal (a b : mval) {struct a} : bool :=
  match a, b with
  | MNil, MNil => true
  | MInt t z, MInt t' z' => (t =? t') && (z =? z')
  | MUint t z, MUint t' z' => (t =? t') && (z =? z')
  | MFlt t f, MFlt t' f' => (t =? t') && f_same f f'
  | MSlice t n p els, MSlice t' n' p' els' =>
      (t =? t') && Bool.eqb n n' && (length els =? length els')%nat && ((p =? p') || all2 deep_equal els els')
  | MByteSlice t n p bs, MByteSlice t' n' p' bs' =>
      (t =? t') && Bool.eqb n n' && (length bs =? length bs')%nat && ((p =? p') || all2 Z.eqb bs bs')
  | MArray t els, MArray t' els' => (t =? t') && all2 deep_equal els els'
  | MOther t c, MOther t' c' => (t =? t') && (c =? c')
  | _, _ => false
  end.

(** int64 subtraction *)
Definition i64_sub (a b : Z) : Z := (a - b + 2 ^ 63) mod 2 ^ 64 - 2 ^ 63.
(** uint64 subtraction *)
Definition u64_sub (a b : Z) : Z := (a - b) mod 2 ^ 64.
Definition empty_list {X} (l : list X) : bool := match l with [] => true | _ => false end.

(** equalDeadbandAbsolute 449-494.  The recursive calls at 461 and 481 pass a reflect.Value, a
    struct, for which the function returns false, so a sequence with elements is equal only at
    473 and 478. *)
Definition equal_deadband (cur prev : mval) (d : f64) : bool :=
  match cur, prev with
  | MNil, MNil => true
  | MArray t els, MArray t' els' => (t =? t') && empty_list els
  | MSlice t n p els, MSlice t' n' p' els' =>
      (t =? t') && Bool.eqb n n' && (length els =? length els')%nat && ((p =? p') || empty_list els)
  | MByteSlice t n p bs, MByteSlice t' n' p' bs' =>
      (t =? t') && Bool.eqb n n' && (length bs =? length bs')%nat && ((p =? p') || all2 Z.eqb bs bs')
  | MInt t z, MInt t' z' => (t =? t') && f_le (f_abs (f_of_Z (i64_sub z z'))) d
  | MUint t z, MUint t' z' => (t =? t') && f_le (f_abs (f_of_Z (u64_sub z z'))) d
  | MFlt t f, MFlt t' f' => (t =? t') && f_le (f_abs (f_sub f f')) d
  | _, _ => false
  end.

(** ua.DataValue without picoseconds; times are nanoseconds. *)
Record dval := mkDv { dv_value : mval; dv_status : Z; dv_source : Z; dv_server : Z }.
(** ua.DataChangeFilter *)
Record dfilter := mkDf { df_trigger : Z; df_type : Z; df_deadband : f64 }.
Definition sel_status (s : Z) : Z := Z.land s 0xFFFFF000.
(** isDataChange 413-447 *)
Definition value_change (f : dfilter) (cur prev : dval) : bool :=
  if df_type f =? 0 then negb (deep_equal (dv_value cur) (dv_value prev))
  else if df_type f =? 1 then negb (equal_deadband (dv_value cur) (dv_value prev) (df_deadband f))
  else true.
Definition is_data_change (f : dfilter) (cur prev : dval) : bool :=
  let status := negb (sel_status (dv_status cur) =? sel_status (dv_status prev)) in
  if df_trigger f =? 0 then status
  else if df_trigger f =? 1 then status || value_change f cur prev
  else if df_trigger f =? 2 then status || negb (dv_source cur =? dv_source prev) || value_change f cur prev
  else true.

(** withTimestamps 497-508; the zero time is 0 *)
Definition with_timestamps (which : Z) (v : dval) : dval :=
  if which =? 0 then mkDv (dv_value v) (dv_status v) (dv_source v) 0
  else if which =? 1 then mkDv (dv_value v) (dv_status v) 0 (dv_server v)
  else if which =? 3 then mkDv (dv_value v) (dv_status v) 0 0
  else v.

(** The fields of DataChangeMonitoredItem 19-42.  [di_polled]: the item is in its poll group;
    [di_due]: polls of it that a poll group has begun and that have not run yet (scheduler.go
    69-80 copies the listeners and releases the lock before it polls them). *)
Record ditem := mkDi {
  di_mode : Z; di_filter : dfilter; di_stamps : Z; di_ti : Z; di_ts : Z;
  di_prev : dval; di_pre : list dval; di_q : mqueue dval; di_trig : bool;
  di_polled : bool; di_due : nat }.
Definition m_disabled : Z := 0.
Definition m_reporting : Z := 2.
Definition BadWaitingForInitialData : Z := 0x80320000.
Definition waiting_value : dval := mkDv MNil BadWaitingForInitialData 0 0.

(** startMonitoring 247-257; [now] is the time and [v] what the read gives *)
Definition start (d : ditem) (now : Z) (v : dval) : ditem :=
  if di_mode d =? m_disabled
  then mkDi (di_mode d) (di_filter d) (di_stamps d) (di_ti d) now (di_prev d) (di_pre d) (di_q d) (di_trig d) (di_polled d) (di_due d)
  else mkDi (di_mode d) (di_filter d) (di_stamps d) (di_ti d) now (di_prev d) (di_pre d ++ [v]) (di_q d) (di_trig d) true (di_due d).
(** NewDataChangeMonitoredItem 44-69 *)
Definition di_new (mode : Z) (f : dfilter) (stamps ti : Z) (oldest : bool) (size now : Z) (v : dval) : ditem :=
  start (mkDi mode f stamps ti now waiting_value [] (mq_init oldest size) false false 0) now v.

Definition put (d : ditem) (v : dval) : ditem :=      (* enqueue, previousQueuedValue *)
  mkDi (di_mode d) (di_filter d) (di_stamps d) (di_ti d) (di_ts d) v (di_pre d)
    (mq_step (di_q d) (MPut (with_timestamps (di_stamps d) v))) (di_trig d) (di_polled d) (di_due d).
(** 388-391, 397-400 *)
Definition consider (d : ditem) (v : dval) : ditem := if is_data_change (di_filter d) v (di_prev d) then put d v else d.
Definition set_pre (d : ditem) (pre : list dval) (ts : Z) : ditem :=
  mkDi (di_mode d) (di_filter d) (di_stamps d) (di_ti d) ts (di_prev d) pre (di_q d) (di_trig d) (di_polled d) (di_due d).
(** 372-384: the last waiting value not later than [ts], and what stays *)
Fixpoint peek (ts : Z) (pre : list dval) (v : dval) : dval * list dval :=
  match pre with
  | [] => (v, [])
  | p :: pre' => if dv_server p <=? ts then peek ts pre' p else (v, pre)
  end.
(** 370-392, [n] turns of the loop *)
Fixpoint intervals (n : nat) (d : ditem) (v : dval) : ditem :=
  match n with
  | O => d
  | S n' =>
      let '(v', rest) := peek (di_ts d) (di_pre d) v in
      let d' := consider (set_pre d rest (di_ts d)) v' in
      intervals n' (set_pre d' (di_pre d') (di_ts d' + di_ti d')) v'
  end.
(** how often !ts.After(tn) holds *)
Definition turns (ts ti tn : Z) : nat := if tn <? ts then O else Z.to_nat ((tn - ts) / ti + 1).
(** 395-401 *)
Definition each (d : ditem) : ditem := fold_left consider (di_pre d) (set_pre d [] (di_ts d)).
Definition sampled (d : ditem) (tn : Z) : ditem :=
  if 0 <? di_ti d then intervals (turns (di_ts d) (di_ti d) tn) d (di_prev d) else each d.
(** notificationsAvailable 355-411; [v] is what the read at 405 gives *)
Definition available (d : ditem) (tn : Z) (resend : bool) (v : dval) : ditem * bool :=
  if di_mode d =? m_disabled then (set_pre d (di_pre d) tn, false)
  else
    let d1 := sampled d tn in
    let d2 := if resend && (di_mode d1 =? m_reporting) && empty_list (mq_queue (di_q d1)) then put d1 v else d1 in
    (d2, negb (empty_list (mq_queue (di_q d2))) && ((di_mode d2 =? m_reporting) || di_trig d2)).
(** notifications 336-353 *)
Definition di_take (d : ditem) (max : nat) : ditem * list dval :=
  let '(out, rest, more) := take max (mq_queue (di_q d)) in
  (mkDi (di_mode d) (di_filter d) (di_stamps d) (di_ti d) (di_ts d) (di_prev d) (di_pre d)
     (mq_step (di_q d) (MTake max)) (di_trig d && more) (di_polled d) (di_due d), out).

Inductive diop : Type :=
| DPollTick                                          (* the poll group's ticker fires *)
| DPoll (v : dval)                                   (* a poll runs *)
| DAvail (tn : Z) (resend : bool) (v : dval)
| DTake (max : nat)                                  (* publish and handleLatePublishRequest reach the item *)
| DTrigger                                           (* SetTriggered(true) *)
| DMode (m now : Z) (v : dval)
| DModify (f : dfilter) (ti : Z) (oldest : bool) (size now : Z) (v : dval).
Inductive diev : Type := DNone | DAvailable (b : bool) | DReports (vs : list dval).

Definition di_step (d : ditem) (o : diop) : ditem * diev :=
  match o with
  | DPollTick =>
      (mkDi (di_mode d) (di_filter d) (di_stamps d) (di_ti d) (di_ts d) (di_prev d) (di_pre d) (di_q d) (di_trig d)
         (di_polled d) (di_due d + if di_polled d then 1 else 0), DNone)
  | DPoll v =>
      (match di_due d with
       | O => d
       | S n => mkDi (di_mode d) (di_filter d) (di_stamps d) (di_ti d) (di_ts d) (di_prev d) (di_pre d ++ [v]) (di_q d)
                  (di_trig d) (di_polled d) n
       end, DNone)
  | DAvail tn resend v => let '(d', b) := available d tn resend v in (d', DAvailable b)
  | DTake max =>
      if negb (di_mode d =? m_reporting) && negb (di_trig d) then (d, DReports [])
      else let '(d', out) := di_take d max in (d', DReports out)
  | DTrigger =>
      (mkDi (di_mode d) (di_filter d) (di_stamps d) (di_ti d) (di_ts d) (di_prev d) (di_pre d) (di_q d) true (di_polled d) (di_due d), DNone)
  | DMode m now v =>
      if di_mode d =? m then (d, DNone)
      else if m =? m_disabled
      then (start (mkDi m (di_filter d) (di_stamps d) (di_ti d) (di_ts d) waiting_value (di_pre d)
                     (mq_step (di_q d) MClear) (di_trig d) false (di_due d)) now v, DNone)
      else (start (mkDi m (di_filter d) (di_stamps d) (di_ti d) (di_ts d) (di_prev d) (di_pre d) (di_q d) (di_trig d) false (di_due d)) now v, DNone)
  | DModify f ti oldest size now v =>
      (start (mkDi (di_mode d) f (di_stamps d) ti (di_ts d) (di_prev d) (di_pre d)
                (mq_step (di_q d) (MResize oldest size)) (di_trig d) false (di_due d)) now v, DNone)
  end.
Definition di_run (d : ditem) (ops : list diop) : ditem := fold_left (fun d o => fst (di_step d o)) ops d.

(** * The subscription's count of disabled items

    A number of items with their modes, and disabledMonitoredItemCount, a uint32:
    datachange_monitored_item.go 163-169, event_monitored_item.go 145-153, subscription.go
    141-143, 157-159. *)
Record dcount := mkDc { dc_items : list (Z * Z); dc_disabled : Z }.
Inductive dcop : Type := CAdd (id mode : Z) | CMode (id mode : Z) | CDel (id : Z).
Definition dc_find (l : list (Z * Z)) (id : Z) : option Z :=
  match find (fun x => fst x =? id) l with Some x => Some (snd x) | None => None end.
Definition dc_step (c : dcount) (o : dcop) : dcount :=
  match o with
  | CAdd id m =>
      match dc_find (dc_items c) id with
      | Some _ => c
      | None => mkDc ((id, m) :: dc_items c) (if m =? m_disabled then u32 (dc_disabled c + 1) else dc_disabled c)
      end
  | CMode id m =>
      match dc_find (dc_items c) id with
      | None => c
      | Some old =>
          if old =? m then c
          else mkDc (map (fun x => if fst x =? id then (id, m) else x) (dc_items c))
                 (if m =? m_disabled then u32 (dc_disabled c + 1) else u32 (dc_disabled c - 1))
      end
  | CDel id =>
      match dc_find (dc_items c) id with
      | None => c
      | Some old => mkDc (filter (fun x => negb (fst x =? id)) (dc_items c))
                      (if old =? m_disabled then u32 (dc_disabled c - 1) else dc_disabled c)
      end
  end.
Definition dc_run (ops : list dcop) : dcount := fold_left dc_step ops (mkDc [] 0).
