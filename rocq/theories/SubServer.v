(** The subscriptions of a server and the sessions that own them.

    Sources: /repo/server/subscription_manager.go (Get 42, Add 52, Delete 67, GetBySession 85,
    checkForExpiredSubscriptions 97), /repo/server/subscription.go (subscriptionID 24,
    NewSubscription 67, IsExpired 87), /repo/server/server_service_set.go
    (handleCreateSubscription 4852-4873, handleModifySubscription 4968, handleSetPublishingMode
    5082, handleDeleteSubscriptions 5204-5215, handlePublish 5336-5346, handleRepublish 5499,
    handleCreateMonitoredItems 3762, handleModifyMonitoredItems 4048, handleSetMonitoringMode
    4276, handleDeleteMonitoredItems 4624, handleCloseSession 932-939).  SetTriggering 4441 looks
    the subscription up like SetMonitoringMode; its links are not part of the model.  The
    publishing goroutine, late publish requests and monitored items hold a pointer to their
    subscription, so they reach it whether or not it is still in the manager's map; that is
    [VRun] with a position.  Removing a subscription from the map and deleting it are one step. *)
From Coq Require Import ZArith List Bool.
From Verif Require Import Bytes MonQueue Subscription.
Import ListNotations.
Open Scope Z_scope.

(** What a client may ask of a subscription. *)
Inductive sreq : Type :=
| RModify (notif keep life : Z)
| RMode (enabled : bool)
| RDelete
| RModifyItem (id : Z) (oldest : bool) (size : nat)
| RAddItem (id : Z) (m : mmode)
| RItemMode (id : Z) (m : mmode)
| RDelItem (id : Z)
| RAck (n : Z)
| RRepublish (n : Z) (ok : bool).

(** The handlers that compare sub.sessionId with session.sessionId: 4969, 5085, 5207, 4049. *)
Definition guarded (r : sreq) : bool :=
  match r with RModify _ _ _ | RMode _ | RDelete | RModifyItem _ _ _ => true | _ => false end.

Section SubServer.
  Variable A : Type.
  Variable max_subs : Z.                  (* maxSubscriptionCount; 0: no limit *)

  Definition request_op (r : sreq) : sbop A :=
    match r with
    | RModify n k l => SModify n k l
    | RMode b => SMode b
    | RDelete => SDelete
    | RModifyItem id o n => SResize id o n
    | RAddItem id m => SAddItem id m
    | RItemMode id m => SItemMode id m
    | RDelItem id => SDelItem id
    | RAck n => SAck n
    | RRepublish n ok => SRepublish n ok
    end.
  (** What happens to a subscription by itself. *)
  Definition internal (o : sbop A) : bool :=
    match o with STick _ _ | SLate _ _ | STrigger _ | SPut _ _ _ _ => true | _ => false end.

  Record entry := mkEntry { en_id : Z; en_owner : Z; en_listed : bool; en_sub : sub A }.
  Record sserver := mkSServer { sv_last : Z; sv_all : list entry }.
  Definition sv_init : sserver := mkSServer 0 [].

  Inductive svop : Type :=
  | VCreate (session : Z) (enabled : bool) (notif keep life : Z)
  | VReq (session id : Z) (r : sreq)
  | VRun (k : nat) (o : sbop A)
  | VSweep
  | VClose (session : Z).
  Inductive svev : Type :=
  | VCreated (id : Z)
  | VTooMany
  | VInvalid                              (* BadSubscriptionIDInvalid *)
  | VEv (k : nat) (e : sbev A)
  | VNothing.

  Definition listed_count (l : list entry) : Z := Z.of_nat (length (filter en_listed l)).
  (** Manager.Get: the entry with this key *)
  Fixpoint lookup (id : Z) (l : list entry) : option (nat * entry) :=
    match l with
    | [] => None
    | e :: r => if en_listed e && (en_id e =? id) then Some (O, e)
                else match lookup id r with Some (k, x) => Some (S k, x) | None => None end
    end.
  Fixpoint put_at (k : nat) (x : entry) (l : list entry) {struct l} : list entry :=
    match l, k with
    | [], _ => []
    | _ :: r, O => x :: r
    | e :: r, S k => e :: put_at k x r
    end.
  (** delete(m.subscriptionsByID, id); s.Delete() *)
  Definition drop (e : entry) : entry := mkEntry (en_id e) (en_owner e) false (dead (en_sub e)).
  Definition unlist (e : entry) : entry := mkEntry (en_id e) (en_owner e) false (en_sub e).

  Definition sv_step (st : sserver) (o : svop) : sserver * svev :=
    match o with
    | VCreate session enabled notif keep life =>
        let id := u32 (sv_last st + 1) in              (* atomic.AddUint32, also when refused *)
        if (0 <? max_subs) && (max_subs <=? listed_count (sv_all st)) then (mkSServer id (sv_all st), VTooMany)
        else
          (* the map holds one subscription per id *)
          (mkSServer id (map (fun e => if en_id e =? id then unlist e else e) (sv_all st)
                         ++ [mkEntry id session true (sub_init enabled notif keep life)]), VCreated id)
    | VReq session id r =>
        match lookup id (sv_all st) with
        | None => (st, VInvalid)
        | Some (k, e) =>
            if guarded r && negb (en_owner e =? session) then (st, VInvalid)
            else
              let '(s', ev) := sb_step (en_sub e) (request_op r) in
              (mkSServer (sv_last st)
                 (put_at k (mkEntry (en_id e) (en_owner e) (match r with RDelete => false | _ => en_listed e end) s') (sv_all st)),
               VEv k ev)
        end
    | VRun k o =>
        match nth_error (sv_all st) k with
        | None => (st, VNothing)
        | Some e =>
            if internal o
            then
              let '(s', ev) := sb_step (en_sub e) o in
              (mkSServer (sv_last st)
                 (put_at k (mkEntry (en_id e) (en_owner e) (match ev with EvStatusChange _ => false | _ => en_listed e end) s') (sv_all st)),
               VEv k ev)
            else (st, VNothing)
        end
    | VSweep =>
        (mkSServer (sv_last st)
           (map (fun e => if en_listed e && (sb_max_life (en_sub e) <=? sb_life (en_sub e)) then drop e else e) (sv_all st)), VNothing)
    | VClose session =>
        (mkSServer (sv_last st)
           (map (fun e => if en_listed e && (en_owner e =? session) then drop e else e) (sv_all st)), VNothing)
    end.
  Definition sv_step' (x : sserver * list svev) (o : svop) : sserver * list svev :=
    let '(s', e) := sv_step (fst x) o in (s', e :: snd x).
  (** The state and the log, the latest event first. *)
  Definition sv_run (ops : list svop) : sserver * list svev := fold_left sv_step' ops (sv_init, []).
End SubServer.
Arguments en_id {A}. Arguments en_owner {A}. Arguments en_listed {A}. Arguments en_sub {A}. Arguments mkEntry {A}.
Arguments mkSServer {A}. Arguments sv_last {A}. Arguments sv_all {A}. Arguments sv_init {A}.
Arguments VCreate {A}. Arguments VReq {A}. Arguments VRun {A}. Arguments VSweep {A}. Arguments VClose {A}.
Arguments VCreated {A}. Arguments VTooMany {A}. Arguments VInvalid {A}. Arguments VEv {A}. Arguments VNothing {A}.
Arguments listed_count {A}. Arguments lookup {A}. Arguments put_at {A}. Arguments drop {A}. Arguments unlist {A}.
Arguments internal {A}. Arguments request_op {A}. Arguments sv_step {A}. Arguments sv_step' {A}. Arguments sv_run {A}.
