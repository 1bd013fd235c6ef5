(** The monitored item services and the items of one subscription.

    Source: /repo/server/server_service_set.go (handleCreateMonitoredItems 3690-3973,
    handleModifyMonitoredItems 3976-4200, handleSetMonitoringMode 4204-4365, handleSetTriggering
    4369-4550, handleDeleteMonitoredItems 4552-4711), /repo/server/datachange_monitored_item.go,
    /repo/server/event_monitored_item.go, /repo/server/subscription.go (FindItem 127, AppendItem
    134, DeleteItem 149), /repo/server/object_node.go (OnEvent 117-123).  The checks of the session and the
    channel of a request are in Session.v, the lookup of the subscription in SubServer.v, queues
    and change filters in MonQueue.v and DataChange.v.  Requests of one subscription are handled
    one after the other here; Locks.v has the locks. *)
From Coq Require Import ZArith List Bool Strings.Byte.
From Verif Require Import Bytes Float IndexRange Roles Nodes NodeAccess MonQueue.
Import ListNotations.
Open Scope Z_scope.

(** ua/status_code.generated.go *)
Definition BadNothingToDo : Z := 0x800F0000.
Definition BadTooManyOperations : Z := 0x80100000.
Definition BadTimestampsToReturnInvalid : Z := 0x802B0000.
Definition BadMonitoredItemIDInvalid : Z := 0x80420000.
Definition BadFilterNotAllowed : Z := 0x80450000.

(** IsAttributeIDValid: data_type_node.go 122, method_node.go 146, object_node.go 142,
    object_type_node.go 115, reference_type_node.go 127, variable_node.go 232,
    variable_type_node.go 139, view_node.go 118 *)
Definition attribute_valid (k : kind) (a : Z) : bool :=
  ((1 <=? a) && (a <=? 5)) || (a =? 24) || (a =? 25) ||
  match k with
  | KObject => a =? 12
  | KVariable _ => (13 <=? a) && (a <=? 20)
  | KMethod _ _ => (a =? 21) || (a =? 22)
  | KObjectType => a =? 8
  | KVariableType => (a =? 8) || ((14 <=? a) && (a <=? 16))
  | KReferenceType => (8 <=? a) && (a <=? 10)
  | KDataType _ => (a =? 8) || (a =? 23)
  | KView => (a =? 11) || (a =? 12)
  end.

(** MonitoringParameters.Filter: none, a DataChangeFilter, an EventFilter (a name for its clauses,
    WhereClause.v), anything else *)
Inductive filter : Type := FNone | FData (trigger deadband : Z) (value : f64) | FEvent (clauses : Z) | FOther.
(** MonitoringParameters *)
Record params : Type := mkParams { pr_handle : Z; pr_interval : f64; pr_filter : filter; pr_size : Z; pr_oldest : bool }.
(** MonitoredItemCreateRequest *)
Record create_req : Type := mkCreate { cq_item : read_req; cq_mode : Z; cq_params : params }.
(** MonitoredItem: ID, ItemToMonitor, which of the two types it is, and the fields the services
    change.  [it_links]: the IDs of triggeredItems. *)
Record item : Type := mkMItem {
  it_id : Z; it_item : read_req; it_event : bool; it_mode : Z; it_handle : Z; it_interval : f64; it_size : Z;
  it_oldest : bool; it_filter : filter; it_stamps : Z; it_links : list Z; it_triggered : bool }.

(** monitored_item.go 12-13 *)
Definition maxSamplingInterval : f64 := FFin (f_int 60000).

Section MonService.
  Variable default : list perm.          (* RolePermissions of the server *)
  Variable vt : Z -> Z.                  (* FindVariantType, Nodes.find_variant *)
  Variable node_min : node -> f64.       (* MinimumSamplingInterval of a variable *)
  Variable min_rate : f64.               (* ServerCapabilities.MinSupportedSampleRate *)
  Variable max_calls : Z.                (* OperationLimits.MaxMonitoredItemsPerCall *)
  Variable publishing : f64.             (* publishingInterval of the subscription *)
  Variable where_clause : Z -> Z -> bool.   (* an event passes a filter: WhereClause.v *)
  Variable fields : Z -> Z -> list Z.       (* selectFields, event_monitored_item.go 273-280 *)

  (** ObjectNode.EventNotifier *)
  Definition event_notifier (n : node) : Z := match nd_attr n 12 with GScalar _ c => c | _ => 0 end.
  (** server_service_set.go 3889-3900, 4149-4160 *)
  Definition numeric (t : Z) : bool := (2 <=? t) && (t <=? 11).

  (** setSamplingInterval, datachange_monitored_item.go 207-237 *)
  Definition revise_interval (attr : Z) (n : node) (x : f64) : f64 :=
    let x := if f_lt x (FFin 0) then publishing else x in
    let x := if f_lt x min_rate then min_rate else x in
    let x := if f_lt maxSamplingInterval x then maxSamplingInterval else x in
    if attr =? at_value then
      match nd_kind n with KVariable _ => if f_lt x (node_min n) then node_min n else x | _ => x end
    else x.
  (** setFilter, datachange_monitored_item.go 239-245, event_monitored_item.go 176-182; the empty
      EventFilter has the name 0 *)
  Definition data_filter (f : filter) : filter := match f with FData _ _ _ => f | _ => FData 1 0 (FFin 0) end.
  Definition event_filter (f : filter) : filter := match f with FEvent _ => f | _ => FEvent 0 end.

  (** One entry of CreateMonitoredItems: a refusal, or an item of one of the two types
      (server_service_set.go 3850-3960). *)
  Inductive made : Type := Refused (status : Z) | MakeData (n : node) | MakeEvent (n : node).
  Definition admit_item (roles : option (list Z)) (sp : space) (q : create_req) : made :=
    match sp (rq_node (cq_item q)) with
    | None => Refused BadNodeIDUnknown
    | Some n =>
        let a := rq_attr (cq_item q) in
        if negb (attribute_valid (nd_kind n) a) then Refused BadAttributeIDInvalid
        else if a =? 13 then
          match nd_kind n with
          | KVariable v =>
              if Z.land (va_access v) al_read =? 0 then Refused BadNotReadable
              else if Z.land (user_access (va_access v) roles (nd_perms n) default) al_read =? 0 then Refused BadUserAccessDenied
              else
                let status := validate_range (rq_range (cq_item q)) (vt (va_type v)) (va_rank v) in
                if negb (status =? 0) then Refused status
                else match pr_filter (cq_params q) with
                | FNone => MakeData n
                | FData _ deadband _ => if negb (deadband =? 0) && negb (numeric (vt (va_type v))) then Refused BadFilterNotAllowed else MakeData n
                | _ => Refused BadFilterNotAllowed
                end
          | _ => Refused BadAttributeIDInvalid
          end
        else if a =? 12 then
          match nd_kind n with
          | KObject =>
              if Z.land (event_notifier n) 1 =? 0 then Refused BadNotReadable
              else if negb (is_permitted (node_permissions default roles n) pm_receive_events) then Refused BadUserAccessDenied
              else match pr_filter (cq_params q) with FEvent _ => MakeEvent n | _ => Refused BadFilterNotAllowed end
          | _ => Refused BadAttributeIDInvalid
          end
        else if negb (is_permitted (node_permissions default roles n) pm_browse) then Refused BadAttributeIDInvalid
        else match pr_filter (cq_params q) with FNone => MakeData n | _ => Refused BadFilterNotAllowed end
    end.
  (** NewDataChangeMonitoredItem 44-69, NewEventMonitoredItem 35-55 *)
  Definition data_item (id stamps : Z) (n : node) (q : create_req) : item :=
    mkMItem id (cq_item q) false (cq_mode q) (pr_handle (cq_params q)) (revise_interval (rq_attr (cq_item q)) n (pr_interval (cq_params q)))
      (revised_size (pr_size (cq_params q))) (pr_oldest (cq_params q)) (data_filter (pr_filter (cq_params q))) stamps [] false.
  Definition event_item (id : Z) (q : create_req) : item :=
    mkMItem id (cq_item q) true (cq_mode q) (pr_handle (cq_params q)) (FFin 0)
      maxQueueSize (pr_oldest (cq_params q)) (event_filter (pr_filter (cq_params q))) 0 [] false.

  (** * The items of a subscription *)
  (** monitoredItemID (of the whole server), Subscription.items, the roles of the user of the
      subscription's session, the address space *)
  Record mon : Type := mkMon { mo_last : Z; mo_items : list item; mo_owner : option (list Z); mo_space : space }.
  Definition with_items (s : mon) (l : list item) : mon := mkMon (mo_last s) l (mo_owner s) (mo_space s).
  Definition find_item (id : Z) (l : list item) : option item := find (fun i => it_id i =? id) l.
  Definition update (x : item) (l : list item) : list item := map (fun i => if it_id i =? it_id x then x else i) l.
  (** AppendItem; its result is not looked at (3902, 3931, 3949) *)
  Definition append_item (x : item) (l : list item) : list item :=
    match find_item (it_id x) l with Some _ => l | None => l ++ [x] end.
  (** MonitoredItemCreateResult *)
  Record result : Type := mkResult { rs_status : Z; rs_id : Z; rs_interval : f64; rs_size : Z }.
  Definition refusal (status : Z) : result := mkResult status 0 (FFin 0) 0.
  Definition create_one (roles : option (list Z)) (stamps : Z) (s : mon) (q : create_req) : mon * result :=
    let id := u32 (mo_last s + 1) in
    let add x := (mkMon id (append_item x (mo_items s)) (mo_owner s) (mo_space s), mkResult 0 (it_id x) (it_interval x) (it_size x)) in
    match admit_item roles (mo_space s) q with
    | Refused status => (s, refusal status)
    | MakeData n => add (data_item id stamps n q)
    | MakeEvent n => add (event_item id q)
    end.
  Fixpoint each {Q R} (f : mon -> Q -> mon * R) (s : mon) (l : list Q) : mon * list R :=
    match l with
    | [] => (s, [])
    | q :: l' => let '(s', r) := f s q in let '(s'', rs) := each f s' l' in (s'', r :: rs)
    end.

  (** One entry of ModifyMonitoredItems (4136-4186) with Modify (datachange_monitored_item.go
      128-139, event_monitored_item.go 115-126) *)
  Definition modify_one (s : mon) (q : Z * params) : mon * result :=
    match find_item (fst q) (mo_items s) with
    | None => (s, refusal BadMonitoredItemIDInvalid)
    | Some i =>
        let p := snd q in
        let a := rq_attr (it_item i) in
        let n := mo_space s (rq_node (it_item i)) in
        let data n := mkMItem (it_id i) (it_item i) (it_event i) (it_mode i) (pr_handle p) (revise_interval a n (pr_interval p))
                        (revised_size (pr_size p)) (pr_oldest p) (data_filter (pr_filter p)) (it_stamps i) (it_links i) (it_triggered i) in
        let event := mkMItem (it_id i) (it_item i) (it_event i) (it_mode i) (pr_handle p) (FFin 0)
                        maxQueueSize (pr_oldest p) (event_filter (pr_filter p)) (it_stamps i) (it_links i) (it_triggered i) in
        let done x := (with_items s (update x (mo_items s)), mkResult 0 0 (it_interval x) (it_size x)) in
        match n with
        | None => (s, refusal BadNodeIDUnknown)          (* not reached: nodes are not deleted here *)
        | Some n =>
            if a =? 13 then
              match pr_filter p with
              | FNone => done (data n)
              | FData _ deadband _ =>
                  if negb (deadband =? 0) && negb (match nd_kind n with KVariable v => numeric (vt (va_type v)) | _ => false end)
                  then (s, refusal BadFilterNotAllowed) else done (data n)
              | _ => (s, refusal BadFilterNotAllowed)
              end
            else if a =? 12 then
              match pr_filter p with FNone | FEvent _ => done event | _ => (s, refusal BadFilterNotAllowed) end
            else match pr_filter p with FNone => done (data n) | _ => (s, refusal BadFilterNotAllowed) end
        end
    end.
  (** One entry of SetMonitoringMode (4343-4350), SetMonitoringMode of the item (155-171, 140-155) *)
  Definition set_mode (i : item) (mode : Z) : item :=
    mkMItem (it_id i) (it_item i) (it_event i) mode (it_handle i) (it_interval i) (it_size i) (it_oldest i) (it_filter i) (it_stamps i) (it_links i) (it_triggered i).
  Definition mode_one (mode : Z) (s : mon) (id : Z) : mon * Z :=
    match find_item id (mo_items s) with
    | None => (s, BadMonitoredItemIDInvalid)
    | Some i => (with_items s (update (set_mode i mode) (mo_items s)), 0)
    end.
  (** One entry of DeleteMonitoredItems (4690-4696) *)
  Definition delete_one (s : mon) (id : Z) : mon * Z :=
    match find_item id (mo_items s) with
    | None => (s, BadMonitoredItemIDInvalid)
    | Some _ => (with_items s (List.filter (fun i => negb (it_id i =? id)) (mo_items s)), 0)
    end.
  Definition set_links (i : item) (l : list Z) : item :=
    mkMItem (it_id i) (it_item i) (it_event i) (it_mode i) (it_handle i) (it_interval i) (it_size i) (it_oldest i) (it_filter i) (it_stamps i) l (it_triggered i).
  Definition set_triggered (i : item) (b : bool) : item :=
    mkMItem (it_id i) (it_item i) (it_event i) (it_mode i) (it_handle i) (it_interval i) (it_size i) (it_oldest i) (it_filter i) (it_stamps i) (it_links i) b.
  (** RemoveTriggeredItem (284-298): the first link to the item goes, the last takes its place *)
  Definition last_to_front (l : list Z) : list Z := match rev l with [] => [] | x :: r => x :: rev r end.
  Fixpoint remove_link (id : Z) (l : list Z) : option (list Z) :=
    match l with
    | [] => None
    | x :: l' => if x =? id then Some (last_to_front l') else match remove_link id l' with Some r => Some (x :: r) | None => None end
    end.
  (** 4507-4518 *)
  Definition unlink_one (trigger : Z) (s : mon) (id : Z) : mon * Z :=
    match find_item trigger (mo_items s), find_item id (mo_items s) with
    | Some t, Some _ =>
        match remove_link id (it_links t) with
        | Some l => (with_items s (update (set_links t l) (mo_items s)), 0)
        | None => (s, BadMonitoredItemIDInvalid)
        end
    | _, _ => (s, BadMonitoredItemIDInvalid)
    end.
  (** 4521-4532, AddTriggeredItem 276-281 *)
  Definition link_one (trigger : Z) (s : mon) (id : Z) : mon * Z :=
    match find_item trigger (mo_items s), find_item id (mo_items s) with
    | Some t, Some _ => (with_items s (update (set_links t (it_links t ++ [id])) (mo_items s)), 0)
    | _, _ => (s, BadMonitoredItemIDInvalid)
    end.

  (** * What happens to a subscription *)
  Inductive mop : Type :=
  | OCreate (roles : option (list Z)) (stamps : Z) (l : list create_req)     (* by a session whose user has these roles *)
  | OModify (stamps : Z) (l : list (Z * params))
  | OMode (mode : Z) (ids : list Z)
  | ODelete (ids : list Z)
  | OTriggering (trigger : Z) (add remove : list Z)
  | OUser (roles : option (list Z))        (* ActivateSession of the subscription's session with another user *)
  | ONode (id : Z) (n : node)              (* a node is added or changes *)
  | OSample (id : Z)                       (* Poll 266-272, startMonitoring 247-257 *)
  | OEvent (id e : Z)                      (* ObjectNode.OnEvent: event [e] at object [id] *)
  | OQueued (id : Z)                       (* enqueue: the linked items are triggered (327-332, 205-210) *)
  | OReported (id : Z).                    (* notifications emptied the queue (349-352, 310-313) *)
  Inductive answer : Type :=
  | Fault (status : Z)
  | Created (l : list result)
  | Modified (l : list result)
  | Statuses (l : list Z)
  | Linked (added removed : list Z)
  | Sampled (v : shown)
  | Events (l : list (Z * list Z))         (* items and the fields queued for them *)
  | Quiet.
  (** The checks of 3786, 3806 and 3827 and their likes *)
  Definition bad_stamps (stamps : Z) : bool := (stamps <? 0) || (3 <? stamps).
  Definition bad_count {A} (l : list A) : option Z :=
    if zlen l =? 0 then Some BadNothingToDo else if max_calls <? zlen l then Some BadTooManyOperations else None.

  Definition mo_step (s : mon) (o : mop) : mon * answer :=
    match o with
    | OCreate roles stamps l =>
        if bad_stamps stamps then (s, Fault BadTimestampsToReturnInvalid)
        else match bad_count l with
        | Some st => (s, Fault st)
        | None => let '(s', rs) := each (create_one roles stamps) s l in (s', Created rs)
        end
    | OModify stamps l =>
        if bad_stamps stamps then (s, Fault BadTimestampsToReturnInvalid)
        else match bad_count l with
        | Some st => (s, Fault st)
        | None => let '(s', rs) := each modify_one s l in (s', Modified rs)
        end
    | OMode mode ids =>
        match bad_count ids with
        | Some st => (s, Fault st)
        | None => let '(s', rs) := each (mode_one mode) s ids in (s', Statuses rs)
        end
    | ODelete ids =>
        match bad_count ids with
        | Some st => (s, Fault st)
        | None => let '(s', rs) := each delete_one s ids in (s', Statuses rs)
        end
    | OTriggering trigger add remove =>
        if (zlen remove =? 0) && (zlen add =? 0) then (s, Fault BadNothingToDo)
        else match find_item trigger (mo_items s) with
        | None => (s, Fault BadMonitoredItemIDInvalid)
        | Some _ =>
            let '(s1, removed) := each (unlink_one trigger) s remove in
            let '(s2, added) := each (link_one trigger) s1 add in (s2, Linked added removed)
        end
    | OUser roles => (mkMon (mo_last s) (mo_items s) roles (mo_space s), Quiet)
    | ONode id n => (mkMon (mo_last s) (mo_items s) (mo_owner s) (put (mo_space s) id n), Quiet)
    | OSample id =>
        match find_item id (mo_items s) with
        | Some i => if it_event i || (it_mode i =? 0) then (s, Quiet) else (s, Sampled (read_value default (Session (mo_owner s)) (mo_space s) (it_item i)))
        | None => (s, Quiet)
        end
    | OEvent id e =>
        (s, Events (flat_map (fun i =>
              if it_event i && negb (it_mode i =? 0) && (rq_node (it_item i) =? id)
              then match it_filter i with FEvent f => if where_clause f e then [(it_id i, fields f e)] else [] | _ => [] end
              else []) (mo_items s)))
    | OQueued id =>
        match find_item id (mo_items s) with
        | Some t => (with_items s (map (fun i => if existsb (Z.eqb (it_id i)) (it_links t) then set_triggered i true else i) (mo_items s)), Quiet)
        | None => (s, Quiet)
        end
    | OReported id =>
        match find_item id (mo_items s) with
        | Some i => (with_items s (update (set_triggered i false) (mo_items s)), Quiet)
        | None => (s, Quiet)
        end
    end.
  (** A subscription without items; [last]: the last ID given to an item of the server *)
  Definition mo_init (last : Z) (owner : option (list Z)) (sp : space) : mon := mkMon last [] owner sp.
  Fixpoint mo_run (s : mon) (ops : list mop) : mon * list answer :=
    match ops with
    | [] => (s, [])
    | o :: ops' => let '(s', a) := mo_step s o in let '(s'', l) := mo_run s' ops' in (s'', a :: l)
    end.
End MonService.
