(** A variable, a monitored item on it, and what the item has handed to its subscription.

    Source: /repo/server/datachange_monitored_item.go (all of it, in DataChange.v and MonQueue.v);
    /repo/server/server_service_set.go 6063-6098 (readValue: the DataValue the variable holds), 5569-6038 (writeValue),
    /repo/server/variable_node.go 130-137 (SetValue).

    Simplifications: the calls on the item are atomic (for their interleavings see Sampling.v); the item reads the whole
    value, and the user may read it (C88); a value given by a handler of the application is a write just before. *)
From Coq Require Import ZArith List Bool.
From Verif Require Import Float MonQueue DataChange.
Import ListNotations.
Open Scope Z_scope.

Record watch : Type := mkWatch { wt_cur : dval; wt_item : ditem; wt_seen : list dval }.
Inductive wop : Type :=
| WWrite (v : dval)                    (* the variable gets a value: writeValue, or the application's SetValue *)
| WPollTick                            (* the ticker of the item's poll group fires *)
| WPoll                                (* a poll begun by it runs *)
| WAvail (tn : Z) (resend : bool)      (* the subscription asks what there is: notificationsAvailable *)
| WTake (max : nat)                    (* it takes at most so many for a publish response: notifications *)
| WTrigger
| WMode (m now : Z)                    (* SetMonitoringMode *)
| WModify (f : dfilter) (ti : Z) (oldest : bool) (size now : Z).      (* Modify, with the revised interval *)

(** readValue gives the value the variable holds: datachange_monitored_item.go 252, 269, 405 *)
Definition item_op (cur : dval) (o : wop) : option diop :=
  match o with
  | WWrite _ => None
  | WPollTick => Some DPollTick
  | WPoll => Some (DPoll cur)
  | WAvail tn resend => Some (DAvail tn resend cur)
  | WTake max => Some (DTake max)
  | WTrigger => Some DTrigger
  | WMode m now => Some (DMode m now cur)
  | WModify f ti oldest size now => Some (DModify f ti oldest size now cur)
  end.
Definition w_step (s : watch) (o : wop) : watch :=
  match item_op (wt_cur s) o with
  | None => match o with WWrite v => mkWatch v (wt_item s) (wt_seen s) | _ => s end
  | Some p =>
      let '(d, e) := di_step (wt_item s) p in
      mkWatch (wt_cur s) d (wt_seen s ++ match e with DReports l => l | _ => [] end)
  end.
Definition w_run (s : watch) (l : list wop) : watch := fold_left w_step l s.
(** CreateMonitoredItems *)
Definition watch_new (cur : dval) (mode : Z) (f : dfilter) (stamps ti : Z) (oldest : bool) (size now : Z) : watch :=
  mkWatch cur (di_new mode f stamps ti oldest size now cur) [].
