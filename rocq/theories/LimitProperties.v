(** Properties of the operation limits. *)
From Coq Require Import ZArith List Bool String.
From Verif Require Import Bytes Prim Value OwnData OwnTable OwnSpace OwnSpec.
From Verif Require Import Handlers HandlerTable HandlersSpec LimitSpec LimitProofs LimitLemmas.
Import ListNotations.
Open Scope string_scope.
Open Scope Z_scope.

(** * C101: the operation limits which a client reads are those the server keeps *)

(** For each of the thirteen services: the client reads a number k at the browse path of the limit, whatever happened before; a request with no operations or more than k is not carried out and not answered with a response; one with 1 to k is never refused for the number of its operations. *)
Theorem c101_told_and_kept : forall range w s c l es service array x, plain_range range -> w_caps w = Some c -> cap_OperationLimits c = Some l -> new_server w = Some s ->
  In (service, (array, x)) limited ->
  let s' := run_server s es in
  exists i k, descend (sv_nodes s') 0 (limit_path x) = Some i /\
    read_response range (sv_world s') (sv_nodes s') [(i, [])] = Some [(VScalar (KB BUInt32) (VB BUInt32 k), 0)] /\
    forall n t ex, handles service t ex -> run_with l n t ->
      (n = 0 \/ k < n -> ~ responds service t /\ does_nothing t) /\
      (0 < n <= k -> ~ faults "BadTooManyOperations" t /\ ~ faults "BadNothingToDo" t).
Proof. exact told_and_kept. Qed.
Print Assumptions c101_told_and_kept.

(** The array which is counted is the array of operations of the request. *)
Theorem c101_counted : forall s a x, In (s, (a, x)) limited -> In (s, a) counted.
Proof. exact limited_array. Qed.
Print Assumptions c101_counted.

(** The fault says why: BadTooManyOperations exactly for too many, BadNothingToDo exactly for none, unless something else is wrong with the request. *)
Theorem c101_codes : forall s a x l n t ex c, In (s, (a, x)) limited -> handles s t ex -> run_with l n t -> faults c t ->
  (c = "BadTooManyOperations" -> n <> 0 /\ l x < n) /\ (c = "BadNothingToDo" -> n = 0) /\
  (n = 0 -> c = "BadNothingToDo" \/ In c other_reasons) /\ (n <> 0 -> l x < n -> c = "BadTooManyOperations" \/ In c other_reasons).
Proof. exact refusal_code. Qed.
Print Assumptions c101_codes.

(** And these runs exist: a request within the limit can be answered, one beyond it and an empty one get their fault. *)
Theorem c101_reachable : forall s a x l n, In (s, (a, x)) limited ->
  (0 < n <= l x -> exists t, handles s t Return /\ run_with l n t /\ responds s t) /\
  (0 < n -> l x < n -> exists t, handles s t Return /\ run_with l n t /\ faults "BadTooManyOperations" t) /\
  (0 <= l x -> exists t, handles s t Return /\ run_with l 0 t /\ faults "BadNothingToDo" t).
Proof. exact (fun s a x l n I => conj (answers s a x l n I) (conj (too_many s a x l n I) (nothing s a x l I))). Qed.
Print Assumptions c101_reachable.

(** In the standard the limit 0 means that there is none; here it refuses every request. *)
Theorem c101_zero_refuted : forall s a x l n t ex, In (s, (a, x)) limited -> l x = 0 -> 0 <= n -> handles s t ex -> run_with l n t -> ~ responds s t.
Proof. exact zero_refuses. Qed.
Print Assumptions c101_zero_refuted.

(** HistoryRead of events is limited by MaxNodesPerHistoryReadData: beyond that limit it is refused although MaxNodesPerHistoryReadEvents allows it, within it it is carried out whatever MaxNodesPerHistoryReadEvents says. *)
Theorem c101_events_refuted : (forall l n t ex, l "MaxNodesPerHistoryReadData" < n -> l "MaxNodesPerHistoryReadEvents" >= n -> handles "HistoryRead" t ex -> run_with l n t -> ~ responds "HistoryRead" t) /\
  (forall l n, 0 < n <= l "MaxNodesPerHistoryReadData" ->
   exists t, handles "HistoryRead" t Return /\ run_with l n t /\ In (Did (Act "h.ReadEvent")) t /\ responds "HistoryRead" t).
Proof. exact (conj events_code events_by_data). Qed.
Print Assumptions c101_events_refuted.

(** SetTriggering and SetPublishingMode know no limit: for all limits and numbers of operations there is a run that answers. *)
Theorem c101_unlimited_refuted : forall s l n, In s unlimited -> exists t, handles s t Return /\ run_with l n t /\ responds s t.
Proof. exact unlimited_responds. Qed.
Print Assumptions c101_unlimited_refuted.

