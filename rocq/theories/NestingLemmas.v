(** The statements of C119 and cases that meet their hypotheses. *)
From Coq Require Import ZArith String List Bool Lia Strings.Byte.
From Verif Require Import Bytes Prim Value Registry StructTable MessageTable Messages BytesProofs ValueProofs Nesting NestingSpec NestingProofs.
Import ListNotations.
Open Scope Z_scope.

Lemma depth_exact : forall E t s, (depth E t s <= S (length s))%nat /\
  (forall m, (m < depth E t s)%nat -> dec E m t s = Fuel) /\
  (forall m, (depth E t s <= m)%nat -> dec E m t s = decode E t s).
Proof.
  intros E t s. destruct (depth_ok E t s) as (A & B & C). split; [exact B|]. split; [exact C|].
  intros m M. destruct (dec_mono E _ m t M s) as [F|F]; [exfalso; apply (decode_no_fuel E t s); congruence|congruence].
Qed.
(** a string in a DataValue in a Variant takes three calls *)
Example depth_case : depth (std_env []) TVar ([x17; x01; x0c] ++ le_enc 4 2 ++ [x61; x62]) = 3%nat.
Proof. vm_compute. reflexivity. Qed.

(** the parameters of most requests are of such types, the header is not *)
Example static_case : flat (TStruct f_CreateSubscriptionRequest) = false /\
  match f_CreateSubscriptionRequest with _ :: l => forallb flat l | [] => false end = true.
Proof. split; reflexivity. Qed.

Lemma messages_ok : forall uris m s,
  ((length s < m)%nat \/ receive_within m server_reads uris s <> Fuel -> receive_within m server_reads uris s = server_receive uris s) /\
  ((length s < m)%nat \/ receive_within m client_reads uris s <> Fuel -> receive_within m client_reads uris s = client_receive uris s).
Proof. intros. split; intros [H|H]; first [apply within_enough, H|apply within_same, H]. Qed.
Example messages_case : exists l, receive_within 2 server_reads [] (write_nodeid (NNum 0 428) ++ boxed_header 0 ++ le_enc 4 (-1) ++ le_enc 4 0 ++ le_enc 4 0) = Ok ("GetEndpointsRequest"%string, l) [].
Proof. eexists. vm_compute. reflexivity. Qed.

Lemma variants_deep : forall E n, length (boxes n) = S n /\ decode E TVar (boxes n) = Ok VNil [] /\ depth E TVar (boxes n) = S n.
Proof. intros. split; [unfold boxes; rewrite app_length, repeat_length; cbn [length]; lia|]. apply boxes_depth. Qed.
Lemma values_deep : forall E n, length (chain n) = (2 * n + 1)%nat /\ decode E TDV (chain n) = Ok (chained n) [] /\ depth E TDV (chain n) = S (2 * n).
Proof. intros. split; [apply chain_length|]. apply chain_depth. Qed.
Lemma limit_passed : forall E, exists s, decode E TVar s = Ok VNil [] /\ (standard_levels < depth E TVar s)%nat /\ length s = 101%nat.
Proof. intro E. exists (boxes 100). destruct (boxes_depth E 100) as (A & B). split; [exact A|]. rewrite B. split; [unfold standard_levels; lia|reflexivity]. Qed.

Lemma requests_deep : forall uris id name n rest limit, In (id, name) server_reads -> (limit <= S n)%nat ->
  receive_within limit server_reads uris (write_nodeid (NNum 0 id) ++ boxed_header n ++ rest) = Fuel.
Proof. intros. eapply deep_request; eassumption. Qed.
Lemma responses_deep : forall uris id name n rest limit, In (id, name) client_reads -> (limit <= S n)%nat ->
  receive_within limit client_reads uris (write_nodeid (NNum 0 id) ++ boxed_answer n ++ rest) = Fuel.
Proof. intros. eapply deep_response; eassumption. Qed.
Example requests_case : In (446, "OpenSecureChannelRequest"%string) server_reads /\ In (461, "CreateSessionRequest"%string) server_reads.
Proof. split; cbn; tauto. Qed.
Example responses_case : In (397, "ServiceFault"%string) client_reads.
Proof. cbn; tauto. Qed.

Lemma accepted_deep : forall uris limit, exists s l,
  length s = (58 + limit)%nat /\ server_receive uris s = Ok ("GetEndpointsRequest"%string, l) [] /\ receive_within limit server_reads uris s = Fuel.
Proof.
  intros uris limit. destruct (endpoints_accepted uris limit) as (l & A).
  exists (write_nodeid (NNum 0 428) ++ boxed_header limit ++ le_enc 4 (-1) ++ le_enc 4 0 ++ le_enc 4 0), l.
  split; [unfold boxed_header, boxes; rewrite !app_length, repeat_length; vm_compute (length (write_nodeid _)); rewrite ?le_enc_length; cbn [length]; lia|]. split; [exact A|].
  apply (deep_request uris 428 "GetEndpointsRequest"); [cbn; tauto|lia].
Qed.
Lemma answered_deep : forall uris limit, exists s l,
  length s = (41 + limit)%nat /\ client_receive uris s = Ok ("ServiceFault"%string, l) [] /\ receive_within limit client_reads uris s = Fuel.
Proof.
  intros uris limit. destruct (fault_accepted uris limit) as (l & A).
  exists (write_nodeid (NNum 0 397) ++ boxed_answer limit ++ []), l.
  split; [unfold boxed_answer, boxes; rewrite !app_length, repeat_length; vm_compute (length (write_nodeid _)); rewrite ?le_enc_length; cbn [length]; lia|]. split; [exact A|].
  apply (deep_response uris 397 "ServiceFault"); [cbn; tauto|lia].
Qed.
