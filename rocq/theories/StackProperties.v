(** Properties of clients and server together. *)
From Coq Require Import ZArith List Bool Strings.Byte.
From Verif Require Import Bytes Prim PrimSpec Value ValueSpec Chunk Messages IndexRange Roles Nodes NodeAccess AccessSpec DataPath DataPathSpec DataPathLemmas Stack StackSpec StackProofs StackLemmas StackNumProofs.
Import ListNotations.
Open Scope Z_scope.

(** * C99: what one client writes another client reads *)

(** For all clients, channels with any security, schedules of the network, the server's workers and the callers, and values that can be sent: what the callers of the clients see is linearizable. Every answer a caller gets, after encoding, chunking, transport and decoding in both directions, is the right answer of one register per variable, up to the precision of the encoding (norm: times of 100 ns, one null NodeId). Missing: writes with index ranges (C98), and values which the encoding does not carry, refuted below. *)
Theorem c99_linearizable_partial : forall default vt lim max_read max_write nodes range_read range_write app_read app_write other_read other_write init links uris session_of l s,
  ok_server init range_read range_write app_read app_write other_read other_write -> (forall c, ok_link (links c)) ->
  Forall ok_event l -> happens links uris session_of (step default vt lim max_read max_write nodes range_read range_write app_read app_write other_read other_write) (begin_system init) l = Some s -> no_ranges (y_seen s) ->
  exists e, explains default nodes vt lim range_read (fun x => norm_dval (init x)) (map arriving (y_seen s)) e.
Proof. exact (fun default vt lim max_read max_write nodes range_read range_write app_read app_write other_read other_write init links uris session_of l s OS OL =>
  stack_linearizable default vt lim max_read max_write nodes range_read range_write app_read app_write other_read other_write init OS links uris session_of OL l s). Qed.
Print Assumptions c99_linearizable_partial.

(** Without mention of the order: a caller of any client who reads after a write of any other client was answered Good gets that value and status, if the other writes of the variable were answered before that write or sent after the read. *)
Theorem c99_last_value : forall default vt lim max_read max_write nodes range_read range_write app_read app_write other_read other_write init links uris session_of l s,
  ok_server init range_read range_write app_read app_write other_read other_write -> (forall c, ok_link (links c)) ->
  Forall ok_event l -> happens links uris session_of (step default vt lim max_read max_write nodes range_read range_write app_read app_write other_read other_write) (begin_system init) l = Some s -> no_ranges (y_seen s) ->
  let h := map arriving (y_seen s) in
  forall r1 i q1 x r2 j who age st ops y n v d,
  asked h r1 i q1 (WR x) -> w_attr x = 13 -> register nodes (w_node x) n v -> answered h r1 i (AStatus 0) ->
  asked h r2 j (Read who age st ops) (RD y) -> r_node y = w_node x -> r_attr y = 13 -> r_encoding y = [] -> r_range y = [] -> may_read default who n v ->
  before h r1 r2 ->
  (forall r k q z, asked h r k q (WR z) -> w_node z = w_node x -> w_attr z = 13 -> (r = r1 /\ k = i) \/ before h r r1 \/ before h r2 r) ->
  answered h r2 j (AValue d) ->
  holds vt v (d_value (w_value x)) (d_value d) /\ d_status d = d_status (w_value x).
Proof. exact (fun default vt lim max_read max_write nodes range_read range_write app_read app_write other_read other_write init links uris session_of l s OS OL =>
  stack_last_value default vt lim max_read max_write nodes range_read range_write app_read app_write other_read other_write init OS links uris session_of OL l s). Qed.
Print Assumptions c99_last_value.

(** A caller gets an answer only after the call, to that call, at most once, and one that fits: a fault of the standard for that request, or one result for every operation. *)
Theorem c99_answers : forall default vt lim max_read max_write nodes range_read range_write app_read app_write other_read other_write init links uris session_of l s,
  ok_server init range_read range_write app_read app_write other_read other_write -> (forall c, ok_link (links c)) ->
  Forall ok_event l -> happens links uris session_of (step default vt lim max_read max_write nodes range_read range_write app_read app_write other_read other_write) (begin_system init) l = Some s ->
  forall H1 k a t H2, y_seen s = H1 ++ Got k a t :: H2 ->
  (exists q t', In (Sent k q t') H1 /\ fits_request max_read max_write q a) /\ (forall a' t', ~ In (Got k a' t') (H1 ++ H2)).
Proof. exact (fun default vt lim max_read max_write nodes range_read range_write app_read app_write other_read other_write init links uris session_of l s OS OL =>
  stack_answers default vt lim max_read max_write nodes range_read range_write app_read app_write other_read other_write init OS links uris session_of OL l s). Qed.
Print Assumptions c99_answers.

(** No request is lost: in every state that can be reached, if the server is up, it gets a request that was sent once it has read the channel often enough, and unchanged up to the precision of the encoding. *)
Theorem c99_arrives : forall default vt lim max_read max_write nodes range_read range_write app_read app_write other_read other_write init links uris session_of l s k q t now,
  ok_server init range_read range_write app_read app_write other_read other_write -> (forall c, ok_link (links c)) ->
  Forall ok_event l -> happens links uris session_of (step default vt lim max_read max_write nodes range_read range_write app_read app_write other_read other_write) (begin_system init) l = Some s -> w_down (fst (y_server s)) = false -> ok_time now -> In (Sent k q t) (y_seen s) ->
  exists c n s' t', happens links uris session_of (step default vt lim max_read max_write nodes range_read range_write app_read app_write other_read other_write) s (repeat (Takes c now) n) = Some s' /\ In (Sent k (norm_request q) t') (snd (y_server s')).
Proof. exact (fun default vt lim max_read max_write nodes range_read range_write app_read app_write other_read other_write init links uris session_of l s k q t now OS OL =>
  stack_arrives default vt lim max_read max_write nodes range_read range_write app_read app_write other_read other_write init OS links uris session_of OL l s k q t now). Qed.
Print Assumptions c99_arrives.

(** No answer is lost: in every state that can be reached, the caller gets an answer which the server has sent once the client has read the channel often enough, and unchanged up to the precision of the encoding. *)
Theorem c99_delivered : forall default vt lim max_read max_write nodes range_read range_write app_read app_write other_read other_write init links uris session_of l s k a t now,
  ok_server init range_read range_write app_read app_write other_read other_write -> (forall c, ok_link (links c)) ->
  Forall ok_event l -> happens links uris session_of (step default vt lim max_read max_write nodes range_read range_write app_read app_write other_read other_write) (begin_system init) l = Some s -> In (Got k a t) (snd (y_server s)) ->
  exists c n s' t', happens links uris session_of (step default vt lim max_read max_write nodes range_read range_write app_read app_write other_read other_write) s (repeat (Returns c now) n) = Some s' /\ In (Got k (norm_response a) t') (y_seen s').
Proof. exact (fun default vt lim max_read max_write nodes range_read range_write app_read app_write other_read other_write init links uris session_of l s k a t now OS OL =>
  stack_delivered default vt lim max_read max_write nodes range_read range_write app_read app_write other_read other_write init OS links uris session_of OL l s k a t now). Qed.
Print Assumptions c99_delivered.

(** Sequence numbers: what each side has written on a channel so far, of which the other side took the beginning, is a sequence of messages in chunks numbered one by one from the first (C23, C26). *)
Theorem c99_numbered : forall default vt lim max_read max_write nodes range_read range_write app_read app_write other_read other_write init,
  ok_server init range_read range_write app_read app_write other_read other_write ->
  forall links uris session_of, (forall c, ok_link (links c)) ->
  forall l s c, Forall ok_event l -> happens links uris session_of (step default vt lim max_read max_write nodes range_read range_write app_read app_write other_read other_write) (begin_system init) l = Some s ->
  let i := y_lines s c in
  exists taken returned, sent_stream (l_up (links c)) 0 (taken ++ i_up i) (i_upseq i) /\ sent_stream (l_down (links c)) 0 (returned ++ i_down i) (i_downseq i) /\
    ((forall t, ~ In (Takes c t) l) -> taken = []) /\ ((forall t, ~ In (Returns c t) l) -> returned = []).
Proof. exact stack_numbers. Qed.
Print Assumptions c99_numbered.

(** A client writes the ExpandedNodeID with the URI urn:a and the identifier 0 to a variable of that type, and the server answers Good; the answer to another client that reads the variable makes that client panic. *)
Theorem c99_reader_crash_refuted : exists s rid body rest,
  e_happens (one_nodes 18) (begin_system z_init) (firstn 10 (round bad_exp)) = Some s /\
  y_seen s = [ Sent 1 (Write z_who [mkW z_id 13 [] (mkDV bad_exp 0 no_time 0 no_time 0)]) (at_s 10); Got 1 (Statuses [0]) (at_s 17); Sent 2 (get 3) (at_s 18) ] /\
  take_message (l_down (e_links 2)) (i_down (y_lines s 2)) = Some (rid, body, rest) /\ client_receive [] body = Panic.
Proof. exact reader_crashes. Qed.
Print Assumptions c99_reader_crash_refuted.

(** A client writes the null NodeId to a variable of type NodeId, and the server answers Good; another client reads the null Variant, which has no type. *)
Theorem c99_null_refuted : exists s,
  e_happens (one_nodes 17) (begin_system z_init) (round (VScalar (KB BNodeId) (VB BNodeId (NNum 0 0)))) = Some s /\
  y_seen s = [ Sent 1 (Write z_who [mkW z_id 13 [] (mkDV (VScalar (KB BNodeId) (VB BNodeId (NNum 0 0))) 0 no_time 0 no_time 0)]) (at_s 10); Got 1 (Statuses [0]) (at_s 17);
               Sent 2 (get 3) (at_s 18); Got 2 (Values [mkDV VNil 0 no_time 0 no_time 0]) (at_s 25) ].
Proof. exact null_changes. Qed.
Print Assumptions c99_null_refuted.

