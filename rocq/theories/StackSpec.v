(** What clients may expect of the whole way from client to server and back: the same as of the services
    themselves (DataPathSpec.v), up to what the encoding does to values (ValueSpec.v). *)
From Coq Require Import ZArith List Bool Strings.Byte.
From Verif Require Import Bytes CodecSpec Prim PrimSpec Value ValueSpec Chunk ChunkSpec Messages IndexRange Roles Nodes NodeAccess AccessSpec DataPath DataPathSpec Stack.
Import ListNotations.
Open Scope Z_scope.

(** * What the encoding does to values: times are cut to 100 ns, null identifiers are one (ValueSpec.v) *)
Definition norm_dval (d : dval) : dval :=
  mkDV (norm (d_value d)) (d_status d) (norm_stamp (d_src d)) (d_srcp d) (norm_stamp (d_srv d)) (d_srvp d).
Definition norm_rop (q : rop) : rop := mkR (norm_nodeid (r_node q)) (r_attr q) (r_range q) (r_encoding q).
Definition norm_wop (q : wop) : wop := mkW (norm_nodeid (w_node q)) (w_attr q) (w_range q) (norm_dval (w_value q)).
Definition norm_request (q : request) : request :=
  match q with Read who a s l => Read who a s (map norm_rop l) | Write who l => Write who (map norm_wop l) end.
Definition norm_response (a : response) : response :=
  match a with Fault st => Fault st | Values l => Values (map norm_dval l) | Statuses l => Statuses l end.
(** The history with the requests as they arrive *)
Definition arriving (o : obs) : obs := match o with Sent r q t => Sent r (norm_request q) t | Got r a t => Got r a t end.

(** * Values that can be sent *)
Definition ok_time (t : time) : Prop := wf_time t /\ time_in_int64_ticks t.
(** With the structures of the standard in it, and for at least the second time: an ExpandedNodeID with
    a URI and the identifier 0 is sent only once (C05) *)
Definition ok_value (v : val) : Prop := wf (std_env []) false TVar v /\ wf (std_env []) false TVar (norm v).
Definition ok_dval (d : dval) : Prop :=
  wf (std_env []) false TVar (d_value d) /\ in_u 4 (d_status d) /\ ok_time (d_src d) /\ in_u 2 (d_srcp d) /\ ok_time (d_srv d) /\ in_u 2 (d_srvp d).
Definition ok_rop (q : rop) : Prop := wf_nodeid (r_node q) /\ in_u 4 (r_attr q) /\ len_ok (r_range q) /\ len_ok (r_encoding q).
Definition ok_wop (q : wop) : Prop :=
  wf_nodeid (w_node q) /\ in_u 4 (w_attr q) /\ len_ok (w_range q) /\ ok_dval (w_value q) /\ ok_value (d_value (w_value q)).
Definition ok_question (q : question) : Prop :=
  match q with
  | QRead age stamps ops => in_u 8 age /\ in_s 4 stamps /\ len_ok ops /\ Forall ok_rop ops
  | QWrite ops => len_ok ops /\ Forall ok_wop ops
  end.
Definition ok_event (e : happening) : Prop :=
  match e with
  | Calls _ _ q t => ok_question q /\ ok_time t
  | Takes _ t | Answers _ t | Returns _ t => ok_time t
  | Works _ _ t1 t2 => ok_time t1 /\ ok_time t2
  end.

(** * Channels *)
(** Keys, sizes and limits of the two ends fit together (negotiated, C21-C25) *)
Definition ok_pipe (p : pipe) : Prop :=
  linked (pi_sign p) (pi_enc p) (pi_dec p) (pi_from p) (pi_to p) (pi_cap p) (pi_send p) /\ pi_send p <= pi_rcap p /\
  (forall n, ChunkSpec.within (c_max_size (pi_from p)) n -> ChunkSpec.within (c_max_size (pi_to p)) n) /\
  (forall n, ChunkSpec.within (c_max_chunks (pi_from p)) n -> ChunkSpec.within (chunk_limit (pi_to p)) n).
Definition ok_link (l : link) : Prop :=
  wf_nodeid (l_token l) /\ norm_nodeid (l_token l) = l_token l /\ ok_pipe (l_up l) /\ ok_pipe (l_down l).

(** * Servers *)
(** The values at the beginning and what handlers return can be sent; values have no picoseconds and no
    more than the precision of the protocol *)
Record ok_server (init : nodeid -> dval) (range_read : val -> bytes -> ranged) (range_write : val -> val -> bytes -> ranged)
  (app_read : nodeid -> bytes -> dval) (app_write : wop -> dval * Z) (other_read : caller -> rop -> time -> dval) (other_write : caller -> wop -> Z) : Prop := {
  os_init : forall x, ok_dval (init x) /\ norm (d_value (init x)) = d_value (init x);
  os_plain : no_picoseconds init;
  os_range_read : forall v r, wf (std_env []) false TVar v -> match range_read v r with
     | RangeVal x => wf (std_env []) false TVar x /\ (norm v = v -> norm x = x) | RangeBad st => in_u 4 st | RangePanic => True end;
  os_range_write : forall v w r, wf (std_env []) false TVar v -> wf (std_env []) false TVar w -> match range_write v w r with
     | RangeVal x => wf (std_env []) false TVar x | RangeBad st => in_u 4 st | RangePanic => True end;
  os_app_read : forall x r, ok_dval (app_read x r);
  os_app_write : forall q, ok_dval (fst (app_write q)) /\ in_u 4 (snd (app_write q));
  os_other_read : forall who q t, ok_time t -> ok_dval (other_read who q t);
  os_other_write : forall who q, in_u 4 (other_write who q) }.

(** * Histories without index ranges in writes *)
Definition no_ranges (h : list obs) : Prop :=
  forall r who ops t w, In (Sent r (Write who ops) t) h -> In w ops -> w_range w = [].

(** * The bytes on the way
    Messages one after the other, in chunks as in ChunkSpec.v, whose sequence numbers follow [q] one by one up to [q']. *)
Inductive sent_stream (p : pipe) : Z -> bytes -> Z -> Prop :=
| stream_nil q : sent_stream p q [] q
| stream_message q rid body chs rest q' :
    ChunkSpec.carries (pi_sign p) (pi_enc p) (pi_dec p) (pi_from p) (pi_to p) (pi_send p) rid q chs body ->
    sent_stream p (Nat.iter (List.length chs) Chunk.next_counter q) rest q' -> sent_stream p q (List.concat chs ++ rest) q'.
