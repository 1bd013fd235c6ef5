(** Properties of the Read and Write services with clients at the same time. *)
From Coq Require Import ZArith List Bool Strings.Byte.
From Verif Require Import Bytes Prim Value IndexRange Roles Nodes NodeAccess AccessSpec DataPath DataPathSpec DataPathProofs DataPathLemmas.
Import ListNotations.
Open Scope Z_scope.

(** * C98: a variable is a register *)

(** For every run of the server, with any number of clients and workers, in which all writes are of whole values: the operations of the clients can be put in one order, which is that of time where they did not overlap, such that every answer is the right one when they are done one after the other: a reader who may read the variable gets exactly the value, status and timestamps of the last write that was answered Good, with the timestamps asked for; other readers get none; a write is answered Good if and only if the user may write and the value fits. Every write has the time of a moment between its request and its answer, if the clock does not run backwards. Missing: writes with an index range, refuted below. *)
Theorem c98_linearizable_partial : forall default vt lim max_read max_write nodes range_read range_write app_read app_write other_read other_write init evs w h,
  no_picoseconds init -> run default vt lim max_read max_write nodes range_read range_write app_read app_write other_read other_write (start init) evs = Some (w, h) -> whole_writes h ->
  (exists l, explains default nodes vt lim range_read init h l) /\
  (clock_ok evs -> exists l, explains default nodes vt lim range_read init h l /\ timely nodes h l).
Proof. exact linearizable_both. Qed.
Print Assumptions c98_linearizable_partial.

(** Without mention of the order: a reader whose request was sent after a write was answered Good gets that value if every other write of the variable was answered before that write was sent, or sent after the reader had the answer. *)
Theorem c98_last_value : forall default vt lim max_read max_write nodes range_read range_write app_read app_write other_read other_write init evs w h,
  no_picoseconds init -> run default vt lim max_read max_write nodes range_read range_write app_read app_write other_read other_write (start init) evs = Some (w, h) -> whole_writes h ->
  forall r1 i q1 x r2 j who age st ops y n v d,
  asked h r1 i q1 (WR x) -> w_attr x = 13 -> register nodes (w_node x) n v -> answered h r1 i (AStatus 0) ->
  asked h r2 j (Read who age st ops) (RD y) -> r_node y = w_node x -> r_attr y = 13 -> r_encoding y = [] -> r_range y = [] -> may_read default who n v ->
  before h r1 r2 ->
  (forall r k q z, asked h r k q (WR z) -> w_node z = w_node x -> w_attr z = 13 -> (r = r1 /\ k = i) \/ before h r r1 \/ before h r2 r) ->
  answered h r2 j (AValue d) ->
  holds vt v (d_value (w_value x)) (d_value d) /\ d_status d = d_status (w_value x).
Proof. exact last_value. Qed.
Print Assumptions c98_last_value.

(** A request is refused as a whole exactly for the reasons of the standard; otherwise it gets one result for every operation. *)
Theorem c98_requests : forall default vt lim max_read max_write nodes range_read range_write app_read app_write other_read other_write init evs w h r q t a t',
  run default vt lim max_read max_write nodes range_read range_write app_read app_write other_read other_write (start init) evs = Some (w, h) -> bits_ok q -> In (Sent r q t) h -> In (Got r a t') h ->
  fits_request max_read max_write q a.
Proof. exact answers_fit. Qed.
Print Assumptions c98_requests.

(** Two clients write elements 0 and 1 of [1; 2; 3] with index ranges; both writes are answered Good before a third client reads, who finds the old element 0. *)
Theorem c98_range_refuted : exists w h,
  z_run (start z_init) lost_events = Some (w, h) /\
  h = [ Sent 1 (set_to [x30] [7] no_time no_time) (at_s 10); Sent 2 (set_to [x31] [8] no_time no_time) (at_s 11);
        Got 1 (Statuses [0]) (at_s 16); Got 2 (Statuses [0]) (at_s 17);
        Sent 3 (get 3) (at_s 18); Got 3 (Values [mkDV (ints [1; 8; 3]) 0 no_time 0 no_time 0]) (at_s 20) ].
Proof. exact lost_range. Qed.
Print Assumptions c98_range_refuted.

(** Timestamps that a client writes are dropped, and the write is answered Good (Part 4, 5.10.4: a server that cannot write the timestamps answers Bad_WriteNotSupported). *)
Theorem c98_client_stamps_refuted : forall src srv, exists w h,
  z_run (start z_init) [ Invoke 1 (set_to [] [7] src srv) (at_s 10); Run 1 0 (at_s 11) (at_s 12); Run 1 0 (at_s 13) (at_s 13); Respond 1 (at_s 14);
                         Invoke 2 (get 2) (at_s 15); Run 2 0 (at_s 16) (at_s 16); Respond 2 (at_s 17) ] = Some (w, h) /\
  h = [ Sent 1 (set_to [] [7] src srv) (at_s 10); Got 1 (Statuses [0]) (at_s 14); Sent 2 (get 2) (at_s 15);
        Got 2 (Values [mkDV (ints [7]) 0 (at_s 11) 0 (at_s 12) 0]) (at_s 17) ].
Proof. exact client_stamps. Qed.
Print Assumptions c98_client_stamps_refuted.

(** A reader can see the source timestamp of a variable go backwards, although the clock does not: the time is taken before the value is stored. *)
Theorem c98_stamp_order_refuted : exists evs w h,
  clock_ok evs /\ z_run (start z_init) evs = Some (w, h) /\
  h = [ Sent 1 (set_to [] [7] no_time no_time) (at_s 10); Sent 2 (set_to [] [8] no_time no_time) (at_s 11);
        Got 2 (Statuses [0]) (at_s 15); Sent 3 (get 0) (at_s 16); Got 3 (Values [mkDV (ints [8]) 0 (at_s 13) 0 no_time 0]) (at_s 18);
        Got 1 (Statuses [0]) (at_s 20); Sent 4 (get 0) (at_s 21); Got 4 (Values [mkDV (ints [7]) 0 (at_s 12) 0 no_time 0]) (at_s 23) ].
Proof. exact stamps_back. Qed.
Print Assumptions c98_stamp_order_refuted.

(** A reader who asks for the source or the server timestamp only does not get its picoseconds. *)
Theorem c98_picoseconds_refuted : forall st, st = 0 \/ st = 1 ->
  exists w h d, z_run (start pico_init) [ Invoke 1 (get st) (at_s 10); Run 1 0 (at_s 11) (at_s 11); Respond 1 (at_s 12) ] = Some (w, h) /\
  h = [ Sent 1 (get st) (at_s 10); Got 1 (Values [d]) (at_s 12) ] /\ d <> with_stamps st (pico_init z_id) /\
  d_srcp d = 0 /\ d_srvp d = 0.
Proof. exact picos_lost. Qed.
Print Assumptions c98_picoseconds_refuted.

(** A value that has been checked is stored, of that variable only, except that the process ends exactly when the variable is historized and has no historian. *)
Theorem c98_stored : forall default vt lim nodes range_read range_write app_read app_write other_read other_write who data op d done t1 t2 q, op = WR q ->
  let r := work default vt lim nodes range_read range_write app_read app_write other_read other_write who data (mkTask op (Some d) done) t1 t2 in
  (r = Died <-> exists n v, nodes (w_node q) = Some n /\ nd_kind n = KVariable v /\ va_historizing v = true /\ va_historian v = false) /\
  (r = Died \/ exists data', r = Worked data' (mkTask op None (Some (AStatus 0))) /\ data' (w_node q) = d /\ forall x, x <> w_node q -> data' x = data x).
Proof. exact stored. Qed.
Print Assumptions c98_stored.
