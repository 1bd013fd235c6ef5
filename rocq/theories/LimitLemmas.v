(** What a client reads of the limits and what the handlers do, together; and an example. *)
From Coq Require Import ZArith List Bool String Lia.
From Verif Require Import Bytes Prim Value OwnData OwnSpace OwnSpec OwnProofs OwnWireProofs.
From Verif Require Import Handlers HandlerTable HandlersSpec LimitSpec LimitProofs.
Import ListNotations.
Open Scope string_scope.
Open Scope Z_scope.

Lemma told_and_kept range w s c l es service array x : plain_range range -> w_caps w = Some c -> cap_OperationLimits c = Some l -> new_server w = Some s ->
  In (service, (array, x)) limited ->
  let s' := run_server s es in
  exists i k, descend (sv_nodes s') 0 (limit_path x) = Some i /\
    read_response range (sv_world s') (sv_nodes s') [(i, [])] = Some [(VScalar (KB BUInt32) (VB BUInt32 k), 0)] /\
    forall n t ex, handles service t ex -> run_with l n t ->
      (n = 0 \/ k < n -> ~ responds service t /\ does_nothing t) /\
      (0 < n <= k -> ~ faults "BadTooManyOperations" t /\ ~ faults "BadNothingToDo" t).
Proof.
  intros P C L N I s'. destruct (facts_any range w s c l es (limit_path x, UInt32 (l x)) P C L N) as (i & v & D & R & V).
  { apply (limited_shown service array). exact I. }
  cbn [snd shows UInt32] in V. subst v. exists i, (l x). split; [exact D|]. split; [exact R|].
  intros n t ex H W. split; [exact (refused_number service array x l n t ex I H W)|].
  intros B. split; intros F; destruct (refusal_code service array x l n t ex _ I H W F) as (A1 & A2 & _).
  - specialize (A1 eq_refl). lia.
  - specialize (A2 eq_refl). lia.
Qed.

(** A server with room for two nodes in a Read: a Read of two has a run that answers, one of three a run that refuses *)
Definition two : limits := fun _ => 2.
Example c101_ex : In ("Read", ("NodesToRead", "MaxNodesPerRead")) limited /\
  (exists t, handles "Read" t Return /\ run_with two 2 t /\ responds "Read" t) /\
  (exists t, handles "Read" t Return /\ run_with two 3 t /\ faults "BadTooManyOperations" t) /\
  (exists t, handles "Read" t Return /\ run_with two 0 t /\ faults "BadNothingToDo" t).
Proof.
  assert (I : In ("Read", ("NodesToRead", "MaxNodesPerRead")) limited) by (left; reflexivity).
  split; [exact I|]. split; [|split].
  - apply (answers _ _ _ two 2 I). unfold two. lia.
  - apply (too_many _ _ _ two 3 I); unfold two; lia.
  - apply (nothing _ _ _ two I). unfold two. lia.
Qed.
Example c101_events_ex : (exists t, handles "HistoryRead" t Return /\ run_with two 2 t /\ In (Did (Act "h.ReadEvent")) t /\ responds "HistoryRead" t).
Proof. apply events_by_data. unfold two. lia. Qed.
