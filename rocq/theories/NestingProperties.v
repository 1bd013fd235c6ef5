(** C119: how deep the decoder calls itself. *)
From Coq Require Import ZArith String List Bool Strings.Byte.
From Verif Require Import Bytes Prim Value Registry StructTable MessageTable Messages Nesting NestingSpec NestingProofs NestingLemmas.
Import ListNotations.
Open Scope Z_scope.

(** [depth] is what the decoder needs: with less room it runs out, with as much or more it gives its result; and it never
    needs more than one call for each byte, and one. *)
Theorem c119_depth : forall E t s, (depth E t s <= S (length s))%nat /\
  (forall m, (m < depth E t s)%nat -> dec E m t s = Fuel) /\
  (forall m, (depth E t s <= m)%nat -> dec E m t s = decode E t s).
Proof. exact depth_exact. Qed.
Print Assumptions c119_depth.

(** Types without Variant, DataValue, DiagnosticInfo and ExtensionObject take one call, whatever is read. *)
Theorem c119_static : forall E t s, flat t = true -> depth E t s = 1%nat.
Proof. exact flat_depth. Qed.
Print Assumptions c119_static.

(** A message is received with room for m calls as without limit, if m is above its length or the room is enough. *)
Theorem c119_messages : forall uris m s,
  ((length s < m)%nat \/ receive_within m server_reads uris s <> Fuel -> receive_within m server_reads uris s = server_receive uris s) /\
  ((length s < m)%nat \/ receive_within m client_reads uris s <> Fuel -> receive_within m client_reads uris s = client_receive uris s).
Proof. exact messages_ok. Qed.
Print Assumptions c119_messages.

(** There is no limit: a Variant of n + 1 bytes is accepted and takes n + 1 calls, one for each byte, *)
Theorem c119_variants_refuted : forall E n, length (boxes n) = S n /\ decode E TVar (boxes n) = Ok VNil [] /\ depth E TVar (boxes n) = S n.
Proof. exact variants_deep. Qed.
Print Assumptions c119_variants_refuted.

(** among them one of 101 bytes above the levels of the standard; *)
Theorem c119_limit_refuted : forall E, exists s, decode E TVar s = Ok VNil [] /\ (standard_levels < depth E TVar s)%nat /\ length s = 101%nat.
Proof. exact limit_passed. Qed.
Print Assumptions c119_limit_refuted.

(** a DataValue of 2 n + 1 bytes is accepted and takes as many. *)
Theorem c119_values_refuted : forall E n, length (chain n) = (2 * n + 1)%nat /\ decode E TDV (chain n) = Ok (chained n) [] /\ depth E TDV (chain n) = S (2 * n).
Proof. exact values_deep. Qed.
Print Assumptions c119_values_refuted.

(** The header of every request that the server reads can be made to take any number of calls, before the request itself
    is looked at, *)
Theorem c119_requests_refuted : forall uris id name n rest limit, In (id, name) server_reads -> (limit <= S n)%nat ->
  receive_within limit server_reads uris (write_nodeid (NNum 0 id) ++ boxed_header n ++ rest) = Fuel.
Proof. exact requests_deep. Qed.
Print Assumptions c119_requests_refuted.

(** and so can that of every response that the client reads. *)
Theorem c119_responses_refuted : forall uris id name n rest limit, In (id, name) client_reads -> (limit <= S n)%nat ->
  receive_within limit client_reads uris (write_nodeid (NNum 0 id) ++ boxed_answer n ++ rest) = Fuel.
Proof. exact responses_deep. Qed.
Print Assumptions c119_responses_refuted.

(** For every limit there is a GetEndpoints request, read without a session, that is accepted and takes more calls, *)
Theorem c119_accepted_refuted : forall uris limit, exists s l,
  length s = (58 + limit)%nat /\ server_receive uris s = Ok ("GetEndpointsRequest"%string, l) [] /\ receive_within limit server_reads uris s = Fuel.
Proof. exact accepted_deep. Qed.
Print Assumptions c119_accepted_refuted.

(** and a ServiceFault for the client. *)
Theorem c119_answered_refuted : forall uris limit, exists s l,
  length s = (41 + limit)%nat /\ client_receive uris s = Ok ("ServiceFault"%string, l) [] /\ receive_within limit client_reads uris s = Fuel.
Proof. exact answered_deep. Qed.
Print Assumptions c119_answered_refuted.
