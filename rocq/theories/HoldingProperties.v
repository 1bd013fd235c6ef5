(** C122: how much a client can make the server keep for one subscription. *)
From Coq Require Import ZArith List Bool.
From Verif Require Import Bytes Float IndexRange IndexRangeSpec Roles Nodes NodeAccess AccessSpec.
From Verif Require Import MonQueue DataChange MonService MonServiceSpec HoldingLemmas.
Import ListNotations.
Open Scope Z_scope.

(** Each monitored item keeps at most 1024 values, whatever queue size its requests ask for. *)
Theorem c122_queues : forall default vt node_min min_rate max_calls publishing where_clause fields last owner sp ops i,
  In i (mo_items (fst (mo_run default vt node_min min_rate max_calls publishing where_clause fields (mo_init last owner sp) ops))) ->
  1 <= it_size i <= 1024.
Proof. exact queues. Qed.
Print Assumptions c122_queues.
(** There are no more items than were asked for. *)
Theorem c122_asked : forall default vt node_min min_rate max_calls publishing where_clause fields last owner sp ops,
  Z.of_nat (length (mo_items (fst (mo_run default vt node_min min_rate max_calls publishing where_clause fields (mo_init last owner sp) ops))))
    <= all_asked ops.
Proof. exact no_more_than_asked. Qed.
Print Assumptions c122_asked.
(** REFUTED: that the number of items of a subscription is limited.  A client may have any item it can have once any
    number of times. *)
Theorem c122_items_refuted : forall default vt node_min min_rate max_calls publishing where_clause fields last owner sp roles stamps q n,
  0 <= last -> last + Z.of_nat n < 2 ^ 32 - 1 -> 0 <= stamps <= 3 -> 1 <= max_calls ->
  monitorable default vt roles sp q -> unsigned_text (rq_range (cq_item q)) ->
  let '(s, answers) := mo_run default vt node_min min_rate max_calls publishing where_clause fields
                         (mo_init last owner sp) (repeat (OCreate roles stamps [q]) n) in
  Forall (fun a => exists r, a = Created [r] /\ rs_status r = 0) answers /\ length (mo_items s) = n.
Proof. exact unlimited_items. Qed.
Print Assumptions c122_items_refuted.
(** REFUTED: that two items bound what SetTriggering keeps.  The same link is stored again each time. *)
Theorem c122_links_refuted : forall default vt node_min min_rate max_calls publishing where_clause fields s t x i n,
  find_item t (mo_items s) = Some i -> In x (map it_id (mo_items s)) ->
  let '(s', answers) := mo_run default vt node_min min_rate max_calls publishing where_clause fields s (repeat (OTriggering t [x] []) n) in
  Forall (fun a => a = Linked [0] []) answers /\ map it_id (mo_items s') = map it_id (mo_items s) /\
  exists i', find_item t (mo_items s') = Some i' /\ it_links i' = it_links i ++ repeat x n.
Proof. exact unlimited_links. Qed.
Print Assumptions c122_links_refuted.
(** REFUTED: that the queue size bounds what an item keeps.  Each ModifyMonitoredItems reads the value once more and puts it
    with those that wait for the next publishing cycle; these are not counted. *)
Theorem c122_waiting_refuted : forall mode f stamps ti oldest now v n, mode <> 0 ->
  let d := di_run (di_new mode f stamps ti oldest 1 now v) (repeat (DModify f ti oldest 1 now v) n) in
  mq_size (di_q d) = 1%nat /\ di_pre d = repeat v (S n).
Proof. exact waiting. Qed.
Print Assumptions c122_waiting_refuted.
