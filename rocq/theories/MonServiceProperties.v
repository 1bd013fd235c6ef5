(** C88 to C90: the monitored item services. *)
From Coq Require Import ZArith List Bool Strings.Byte.
From Verif Require Import Bytes Float IndexRange IndexRangeSpec Roles RolesSpec RolesProofs Nodes NodeAccess AccessSpec AccessLemmas MonQueue DataChange DataChangeSpec MonItemLemmas.
From Verif Require Import MonService MonServiceSpec MonServiceProofs MonServiceLemmas.
Import ListNotations.
Open Scope Z_scope.
(** * C88: a monitored item shows only what its user may read *)
(** CreateMonitoredItems creates exactly the items the user may have, and they are what the answers say.  Missing: IDs wrap after 2^32 items. *)
Theorem c88_created_partial : forall default vt node_min min_rate max_calls publishing where_clause fields last owner sp ops roles stamps l s' rs,
  0 <= last -> last + all_asked ops + zlen l < 2 ^ 32 -> Forall (fun q => unsigned_text (rq_range (cq_item q))) l ->
  let s := fst (mo_run default vt node_min min_rate max_calls publishing where_clause fields (mo_init last owner sp) ops) in
  mo_step default vt node_min min_rate max_calls publishing where_clause fields s (OCreate roles stamps l) = (s', Created rs) ->
  Forall2 (fun q r => rs_status r = 0 <-> monitorable default vt roles (mo_space s) q) l rs /\ NoDup (map it_id (mo_items s')) /\
  exists new, mo_items s' = mo_items s ++ new /\
    Forall2 (fun qr i => describes (fst qr) (snd qr) i /\ it_stamps i = (if it_event i then 0 else stamps)) (List.filter (fun qr => rs_status (snd qr) =? 0) (combine l rs)) new.
Proof. exact creation_exact. Qed.
Print Assumptions c88_created_partial.
(** A sampled value is one that Read would show the present user of the subscription. *)
Theorem c88_sampled : forall default vt node_min min_rate max_calls publishing where_clause fields s id s' st, mo_step default vt node_min min_rate max_calls publishing where_clause fields s (OSample id) = (s', Sampled (Shown st)) ->
  exists i n, In i (mo_items s) /\ it_id i = id /\ it_mode i <> 0 /\ read_value default (Session (mo_owner s)) (mo_space s) (it_item i) = Shown st /\
    mo_space s (rq_node (it_item i)) = Some n /\ user_may default (mo_owner s) n p_browse /\
    (rq_attr (it_item i) = 13 -> exists v, nd_kind n = KVariable v /\ readable v /\ user_may default (mo_owner s) n p_read).
Proof. exact sampled_as_read. Qed.
Print Assumptions c88_sampled.
(** An event reaches exactly the enabled items of its object whose filter it passes. *)
Theorem c88_events : forall default vt node_min min_rate max_calls publishing where_clause fields s id e s' l, mo_step default vt node_min min_rate max_calls publishing where_clause fields s (OEvent id e) = (s', Events l) -> s' = s /\ forall k fs, In (k, fs) l <->
  exists i c, In i (mo_items s) /\ it_id i = k /\ it_event i = true /\ it_mode i <> 0 /\ rq_node (it_item i) = id /\ it_filter i = FEvent c /\ where_clause c e = true /\ fs = fields c e.
Proof. exact events_exact. Qed.
Print Assumptions c88_events.
(** Missing: histories in which the user, the nodes or the sessions that create items change. *)
Theorem c88_events_partial : forall default vt node_min min_rate max_calls publishing where_clause fields last roles sp ops id e s' l k fs, Forall (calm roles) ops ->
  mo_step default vt node_min min_rate max_calls publishing where_clause fields (fst (mo_run default vt node_min min_rate max_calls publishing where_clause fields (mo_init last roles sp) ops)) (OEvent id e) = (s', Events l) -> In (k, fs) l ->
  exists n, mo_space s' id = Some n /\ user_may default roles n p_receive_events.
Proof. exact events_permitted. Qed.
Print Assumptions c88_events_partial.
(** After the session has been activated by another user the events of the first one's items keep coming. *)
Theorem c88_user_change_refuted : exists ops roles l, let s := fst (y_run (mo_init 0 x_roles y_space) ops) in
  mo_owner s = roles /\ mo_space s 1 = Some y_object /\ ~ user_may default_permissions roles y_object p_receive_events /\ y_step s (OEvent 1 77) = (s, Events l) /\ l <> [].
Proof. exact y_after. Qed.
Print Assumptions c88_user_change_refuted.
(** Who receives the events plays no role at all. *)
Theorem c88_user_blind_refuted : forall default vt node_min min_rate max_calls publishing where_clause fields s roles id e,
  snd (mo_step default vt node_min min_rate max_calls publishing where_clause fields (fst (mo_step default vt node_min min_rate max_calls publishing where_clause fields s (OUser roles))) (OEvent id e)) = snd (mo_step default vt node_min min_rate max_calls publishing where_clause fields s (OEvent id e)).
Proof. exact events_blind. Qed.
Print Assumptions c88_user_blind_refuted.
(** The user of another session may create the item in the subscription of one who may not have it. *)
Theorem c88_foreign_refuted : exists l, let s := fst (y_run (mo_init 0 (Some []) y_space) [OCreate x_roles 2 [y_events]]) in
  mo_owner s = Some [] /\ mo_space s 1 = Some y_object /\ ~ user_may default_permissions (Some []) y_object p_receive_events /\ y_step s (OEvent 1 77) = (s, Events l) /\ l <> [].
Proof. exact y_foreign. Qed.
Print Assumptions c88_foreign_refuted.
(** The answer tells a node the user may not see from one that does not exist. *)
Theorem c88_hidden_refuted : forall default vt node_min min_rate publishing roles stamps s q n, mo_space s (rq_node (cq_item q)) = Some n -> rq_range (cq_item q) = [] ->
  rs_status (snd (create_one default vt node_min min_rate publishing roles stamps s q)) <> 0x80340000.
Proof. exact hidden_answer. Qed.
Print Assumptions c88_hidden_refuted.
Theorem c88_missing_node : forall default vt node_min min_rate publishing roles stamps s q, mo_space s (rq_node (cq_item q)) = None ->
  rs_status (snd (create_one default vt node_min min_rate publishing roles stamps s q)) = 0x80340000.
Proof. exact missing_answer. Qed.
Print Assumptions c88_missing_node.
(** An item for the definition of a data type that has none is created. *)
Theorem c88_definition_refuted : y_space 3 = Some (plain_node (KDataType None) []) /\ ~ has_attribute (KDataType None) 23 /\
  snd (y_step (mo_init 0 x_roles y_space) (OCreate x_roles 2 [mkCreate (mkRead 3 23 [] []) 2 (mkParams 1 (FFin 0) FNone 1 true)])) = Created [mkResult 0 1 (FFin (f_int 100)) 1].
Proof. exact y_definition. Qed.
Print Assumptions c88_definition_refuted.
Example c88_ex : snd (y_run (mo_init 0 x_roles y_space) y_ops) =
  [Created [mkResult 0 1 (FFin (f_int 100)) 5; mkResult 0x801F0000 0 (FFin 0) 0; mkResult 0 2 (FFin 0) 1024; mkResult 0 3 (FFin (f_int 1000)) 1024];
   Linked [0; 0] []; Modified [mkResult 0 0 (FFin (f_int 60000)) 1]; Statuses [0; 0x80420000]; Quiet; Linked [] [0]; Statuses [0; 0x80420000]] /\
  all_asked y_ops = 4 /\ all_news no_links y_ops (snd (y_run (mo_init 0 x_roles y_space) y_ops)) /\ Forall (calm x_roles) y_ops.
Proof. exact y_answers. Qed.
Example c88_ex_left : map (fun i => (it_id i, it_mode i, it_links i, it_triggered i)) (mo_items (fst (y_run (mo_init 0 x_roles y_space) y_ops))) = [(1, 2, [3], false); (2, 1, [], true)].
Proof. exact y_left. Qed.
Example c88_ex_delivers : snd (y_step (fst (y_run (mo_init 0 x_roles y_space) y_ops)) (OEvent 1 77)) = Events [(2, [4; 77])] /\
  snd (y_step (fst (y_run (mo_init 0 x_roles y_space) y_ops)) (OSample 1)) = Sampled (Shown (mkSt (GArr 6 [20]) 0)).
Proof. exact y_delivers. Qed.
(** * C89: monitored items have the parameters the answers give *)
(** The revised interval is the nearest allowed one, the size within 1 to 1024.  Missing: an interval that is not a number. *)
Theorem c89_created_partial : forall default vt node_min min_rate max_calls publishing where_clause fields m p k roles stamps s l s' rs, min_rate = FFin m -> 0 <= m -> publishing = FFin p -> (forall n, node_min n = FFin (k n)) ->
  mo_step default vt node_min min_rate max_calls publishing where_clause fields s (OCreate roles stamps l) = (s', Created rs) ->
  Forall2 (fun q r => forall n, rs_status r = 0 -> mo_space s (rq_node (cq_item q)) = Some n -> revised m p k (rq_attr (cq_item q)) n (cq_params q) r) l rs.
Proof. exact created_revised. Qed.
Print Assumptions c89_created_partial.
(** A modification changes the items it names, as its answers say, and no others; a refused one changes nothing. *)
Theorem c89_modified_partial : forall default vt node_min min_rate max_calls publishing where_clause fields m p k last owner sp ops stamps l s' rs, min_rate = FFin m -> 0 <= m -> publishing = FFin p -> (forall n, node_min n = FFin (k n)) ->
  0 <= last -> last + all_asked ops < 2 ^ 32 -> NoDup (map fst l) ->
  let s := fst (mo_run default vt node_min min_rate max_calls publishing where_clause fields (mo_init last owner sp) ops) in
  mo_step default vt node_min min_rate max_calls publishing where_clause fields s (OModify stamps l) = (s', Modified rs) ->
  map it_id (mo_items s') = map it_id (mo_items s) /\ (forall i, In i (mo_items s) -> ~ In (it_id i) (map fst l) -> In i (mo_items s')) /\ Forall2 (modify_effect vt m p k s s') l rs.
Proof. exact modification_revised. Qed.
Print Assumptions c89_modified_partial.
(** Every item has room for 1 to 1024 values, at any time. *)
Theorem c89_sizes : forall default vt node_min min_rate max_calls publishing where_clause fields last owner sp ops i, In i (mo_items (fst (mo_run default vt node_min min_rate max_calls publishing where_clause fields (mo_init last owner sp) ops))) ->
  1 <= it_size i <= 1024 /\ (rq_attr (it_item i) = 12 -> it_size i = 1024).
Proof. exact sizes. Qed.
Print Assumptions c89_sizes.
(** SetMonitoringMode sets the mode of the items it names. *)
Theorem c89_modes : forall default vt node_min min_rate max_calls publishing where_clause fields last owner sp ops m ids s' rs, 0 <= last -> last + all_asked ops < 2 ^ 32 ->
  let s := fst (mo_run default vt node_min min_rate max_calls publishing where_clause fields (mo_init last owner sp) ops) in
  mo_step default vt node_min min_rate max_calls publishing where_clause fields s (OMode m ids) = (s', Statuses rs) ->
  Forall2 (fun id st => (st = 0 <-> In id (map it_id (mo_items s))) /\ (st = 0 \/ st = 0x80420000)) ids rs /\
  Forall2 (fun i j => (In (it_id i) ids -> other_mode m i j) /\ (~ In (it_id i) ids -> j = i)) (mo_items s) (mo_items s').
Proof. exact modes. Qed.
Print Assumptions c89_modes.
(** DeleteMonitoredItems deletes the items it names. *)
Theorem c89_deleted : forall default vt node_min min_rate max_calls publishing where_clause fields s ids s' rs, mo_step default vt node_min min_rate max_calls publishing where_clause fields s (ODelete ids) = (s', Statuses rs) ->
  (forall i, In i (mo_items s') <-> In i (mo_items s) /\ ~ In (it_id i) ids) /\
  (NoDup ids -> Forall2 (fun id st => (st = 0 <-> In id (map it_id (mo_items s))) /\ (st = 0 \/ st = 0x80420000)) ids rs).
Proof. exact deletion. Qed.
Print Assumptions c89_deleted.
(** A request that is refused as a whole changes nothing, and one with no entries or too many is refused. *)
Theorem c89_faults : forall default vt node_min min_rate max_calls publishing where_clause fields s o s' st, mo_step default vt node_min min_rate max_calls publishing where_clause fields s o = (s', Fault st) -> s' = s.
Proof. exact faults_change_nothing. Qed.
Print Assumptions c89_faults.
Theorem c89_limits : forall default vt node_min min_rate max_calls publishing where_clause fields s o k, entries o = Some k -> k = 0 \/ max_calls < k -> exists st, mo_step default vt node_min min_rate max_calls publishing where_clause fields s o = (s, Fault st).
Proof. exact too_many. Qed.
Print Assumptions c89_limits.
(** A NaN goes through all the checks. *)
Theorem c89_nan_refuted : forall node_min min_rate publishing attr n, revise_interval node_min min_rate publishing attr n FNaN = FNaN.
Proof. exact interval_nan. Qed.
Print Assumptions c89_nan_refuted.
(** Any number is taken for a monitoring mode. *)
Theorem c89_mode_refuted : forall default vt node_min min_rate max_calls publishing where_clause fields s m id i, find_item id (mo_items s) = Some i -> 1 <= max_calls ->
  exists s', mo_step default vt node_min min_rate max_calls publishing where_clause fields s (OMode m [id]) = (s', Statuses [0]) /\ exists j, find_item id (mo_items s') = Some j /\ it_mode j = m.
Proof. exact any_mode. Qed.
Print Assumptions c89_mode_refuted.
(** The timestamps a modification asks for are not looked at. *)
Theorem c89_stamps_refuted : forall default vt node_min min_rate max_calls publishing where_clause fields s a b l, 0 <= a <= 3 -> 0 <= b <= 3 ->
  mo_step default vt node_min min_rate max_calls publishing where_clause fields s (OModify a l) = mo_step default vt node_min min_rate max_calls publishing where_clause fields s (OModify b l).
Proof. exact stamps_ignored. Qed.
Print Assumptions c89_stamps_refuted.
(** Any trigger and any deadband type are accepted on a number. *)
Theorem c89_filter_refuted : forall default vt sp roles n v node ranges trigger deadband value mode h iv sz old, sp node = Some n -> nd_kind n = KVariable v -> readable v -> user_may default roles n p_read ->
  2 <= vt (va_type v) <= 11 -> ranges = [] -> monitorable default vt roles sp (mkCreate (mkRead node 13 ranges []) mode (mkParams h iv (FData trigger deadband value) sz old)).
Proof. exact any_trigger_and_deadband. Qed.
Print Assumptions c89_filter_refuted.
(** * C90: SetTriggering links exactly the items it names *)
(** Missing: links that are added twice; IDs wrap after 2^32 items. *)
Theorem c90_links_partial : forall default vt node_min min_rate max_calls publishing where_clause fields last owner sp ops t j, 0 <= last -> last + all_asked ops < 2 ^ 32 ->
  let s := fst (mo_run default vt node_min min_rate max_calls publishing where_clause fields (mo_init last owner sp) ops) in
  let answers := snd (mo_run default vt node_min min_rate max_calls publishing where_clause fields (mo_init last owner sp) ops) in
  all_news no_links ops answers -> In t (mo_items s) -> In j (mo_items s) ->
  (In (it_id j) (it_links t) <-> all_told no_links ops answers (it_id t) (it_id j) = true).
Proof. exact links_exact. Qed.
Print Assumptions c90_links_partial.
(** A new value of an item triggers the items linked to it and no others. *)
Theorem c90_triggers_partial : forall default vt node_min min_rate max_calls publishing where_clause fields last owner sp ops t, 0 <= last -> last + all_asked ops < 2 ^ 32 ->
  let s := fst (mo_run default vt node_min min_rate max_calls publishing where_clause fields (mo_init last owner sp) ops) in
  let answers := snd (mo_run default vt node_min min_rate max_calls publishing where_clause fields (mo_init last owner sp) ops) in
  all_news no_links ops answers -> In t (map it_id (mo_items s)) ->
  Forall2 (fun i j => triggered_as (it_triggered i || all_told no_links ops answers t (it_id i)) i j) (mo_items s)
    (mo_items (fst (mo_step default vt node_min min_rate max_calls publishing where_clause fields s (OQueued t)))).
Proof. exact triggers. Qed.
Print Assumptions c90_triggers_partial.
(** A link added twice is still there after it has been removed. *)
Theorem c90_twice_refuted : let ops := [OCreate x_roles 2 [y_value; y_name]; OTriggering 1 [2; 2] []; OTriggering 1 [] [2]] in
  let s := fst (y_run (mo_init 0 x_roles y_space) ops) in
  snd (y_run (mo_init 0 x_roles y_space) ops) = [Created [mkResult 0 1 (FFin (f_int 100)) 5; mkResult 0 2 (FFin (f_int 1000)) 1024]; Linked [0; 0] []; Linked [] [0]] /\
  all_told no_links ops (snd (y_run (mo_init 0 x_roles y_space) ops)) 1 2 = false /\ map it_links (mo_items s) = [[2]; []] /\
  map it_triggered (mo_items (fst (y_step s (OQueued 1)))) = [false; true].
Proof. exact y_twice. Qed.
Print Assumptions c90_twice_refuted.
(** An item may be linked to itself (c75_self_trigger_refuted: its next value then blocks for ever). *)
Theorem c90_self_refuted : forall default vt node_min min_rate max_calls publishing where_clause fields s t i, find_item t (mo_items s) = Some i ->
  snd (mo_step default vt node_min min_rate max_calls publishing where_clause fields s (OTriggering t [t] [])) = Linked [0] [].
Proof. exact self_link. Qed.
Print Assumptions c90_self_refuted.
(** The limit on the number of operations is not applied. *)
Theorem c90_limit_refuted : forall default vt node_min min_rate max_calls publishing where_clause fields s t add remove,
  snd (mo_step default vt node_min min_rate max_calls publishing where_clause fields s (OTriggering t add remove)) <> Fault 0x80100000.
Proof. exact triggering_unlimited. Qed.
Print Assumptions c90_limit_refuted.
(** A trigger that finds nothing to report releases what is sampled later. *)
Theorem c90_stale_refuted : let d0 := di_new 1 sv_filter 2 10 true 10 0 (at_time 1 1) in
  let d := di_run d0 [DAvail 20 false waiting_value; DTrigger; DTake 9; DTrigger] in
  snd (di_step d (DTake 9)) = DReports [] /\
  snd (di_step (di_run d [DPollTick; DPoll (at_time 5 30)]) (DAvail 40 false waiting_value)) = DAvailable true.
Proof. exact y_stale. Qed.
Print Assumptions c90_stale_refuted.
