(** Examples and counterexamples beside the theorems of DataPathProperties.v. *)
From Coq Require Import ZArith List Bool Lia Strings.Byte.
From Verif Require Import Bytes Prim Value Registry RegistryProofs IndexRange Roles RolesSpec RolesProofs Nodes NodeAccess AccessSpec AccessLemmas DataPath DataPathSpec DataPathProofs.
Import ListNotations.
Open Scope Z_scope.

(** * A server with one variable, an array of Int32 *)
Definition z_id : nodeid := NNum 1 1.
Definition z_var : vardata := mkVar (mkSt GNil 0) 6 1 3 false false None None.
Definition z_node : node := plain_node (KVariable z_var) [].
Definition z_nodes (x : nodeid) : option node := if nodeid_eqb x z_id then Some z_node else None.
Definition ints (l : list Z) : val := VArr (KB BInt32) (map (VB BInt32) l).
Definition ints_of (v : val) : list Z :=
  match v with VArr (KB BInt32) l => map (fun e => match e with VB BInt32 z => z | _ => 0 end) l | _ => [] end.
(** readRange and writeRange of IndexRange.v on arrays of Int32 *)
Definition z_read (v : val) (r : bytes) : ranged :=
  match read_range (GArr 6 (ints_of v)) r with RVal (GArr _ l) => RangeVal (ints l) | RVal _ => RangePanic | RBad st => RangeBad st end.
Definition z_write (old v : val) (r : bytes) : ranged :=
  match write_range (GArr 6 (ints_of old)) (GArr 6 (ints_of v)) r with
  | WrVal (GArr _ l) => RangeVal (ints l) | WrVal _ => RangePanic | WrBad st => RangeBad st | WrCrash => RangePanic end.
Definition none : dval := mkDV VNil 0 no_time 0 no_time 0.
Definition z_run := run default_permissions (fun t => t) x_limits 10 10 z_nodes z_read z_write (fun _ _ => none) (fun _ => (none, 0)) (fun _ _ _ => none) (fun _ _ => 0).
Definition at_s (s : Z) : time := mkTime s 0.
Definition z_init (x : nodeid) : dval := mkDV (ints [1; 2; 3]) 0 (at_s 1) 0 (at_s 1) 0.
Definition z_who : caller := Session x_roles.
Definition get (stamps : Z) : request := Read z_who 0 stamps [mkR z_id 13 [] []].
Definition set_to (range : bytes) (l : list Z) (src srv : time) : request := Write z_who [mkW z_id 13 range (mkDV (ints l) 0 src 0 srv 0)].
Lemma z_register : register z_nodes z_id z_node z_var.
Proof. now repeat split. Qed.
Lemma z_may_read : may_read default_permissions z_who z_node z_var.
Proof. exists x_roles. split; [reflexivity|]. repeat split; try reflexivity; apply x_may; try reflexivity; cbn; tauto. Qed.
Lemma z_may_write : may_write default_permissions z_who z_node z_var.
Proof. exists x_roles. split; [reflexivity|]. repeat split; try reflexivity; apply x_may; try reflexivity; cbn; tauto. Qed.

(** Two clients write at the same time, a third reads in between and afterwards *)
Definition z_events : list event :=
  [ Invoke 1 (set_to [] [7; 7] no_time no_time) (at_s 10); Invoke 2 (set_to [] [8] no_time no_time) (at_s 11);
    Run 1 0 (at_s 12) (at_s 12); Invoke 3 (get 2) (at_s 13); Run 2 0 (at_s 14) (at_s 15); Run 1 0 (at_s 16) (at_s 16);
    Run 3 0 (at_s 17) (at_s 17); Run 2 0 (at_s 18) (at_s 18); Respond 3 (at_s 19); Respond 1 (at_s 20); Respond 2 (at_s 21);
    Invoke 4 (get 0) (at_s 22); Run 4 0 (at_s 23) (at_s 23); Respond 4 (at_s 24) ].
Definition z_history : list obs :=
  [ Sent 1 (set_to [] [7; 7] no_time no_time) (at_s 10); Sent 2 (set_to [] [8] no_time no_time) (at_s 11); Sent 3 (get 2) (at_s 13);
    Got 3 (Values [mkDV (ints [7; 7]) 0 (at_s 12) 0 (at_s 12) 0]) (at_s 19); Got 1 (Statuses [0]) (at_s 20); Got 2 (Statuses [0]) (at_s 21);
    Sent 4 (get 0) (at_s 22); Got 4 (Values [mkDV (ints [8]) 0 (at_s 14) 0 no_time 0]) (at_s 24) ].
Example z_runs : option_map snd (z_run (start z_init) z_events) = Some z_history.
Proof. vm_compute. reflexivity. Qed.
Example z_hypotheses : whole_writes z_history /\ no_picoseconds z_init /\ clock_ok z_events.
Proof.
  split; [|split].
  - intros r who ops t w I J. unfold z_history in I. cbn [In] in I.
    repeat (destruct I as [I|I]; [try discriminate I|]); try contradiction; unfold set_to in I; injection I as <- <- <- <-; destruct J as [<-|[]]; (split; [reflexivity|exact Logic.I]).
  - intros x. now split.
  - exists (at_s 0). cbn. unfold not_after, nanos. cbn. repeat split; lia.
Qed.

(** * Index ranges *)
(** Two clients write different elements; both writes succeed, then a third client reads *)
Definition lost_events : list event :=
  [ Invoke 1 (set_to [x30] [7] no_time no_time) (at_s 10); Invoke 2 (set_to [x31] [8] no_time no_time) (at_s 11);
    Run 1 0 (at_s 12) (at_s 12); Run 2 0 (at_s 13) (at_s 13); Run 1 0 (at_s 14) (at_s 14); Run 2 0 (at_s 15) (at_s 15);
    Respond 1 (at_s 16); Respond 2 (at_s 17); Invoke 3 (get 3) (at_s 18); Run 3 0 (at_s 19) (at_s 19); Respond 3 (at_s 20) ].
Theorem lost_range : exists w h,
  z_run (start z_init) lost_events = Some (w, h) /\
  h = [ Sent 1 (set_to [x30] [7] no_time no_time) (at_s 10); Sent 2 (set_to [x31] [8] no_time no_time) (at_s 11);
        Got 1 (Statuses [0]) (at_s 16); Got 2 (Statuses [0]) (at_s 17);
        Sent 3 (get 3) (at_s 18); Got 3 (Values [mkDV (ints [1; 8; 3]) 0 no_time 0 no_time 0]) (at_s 20) ].
Proof. eexists. eexists. split; [vm_compute; reflexivity|reflexivity]. Qed.

(** * Timestamps of the client *)
Theorem client_stamps src srv : exists w h,
  z_run (start z_init) [ Invoke 1 (set_to [] [7] src srv) (at_s 10); Run 1 0 (at_s 11) (at_s 12); Run 1 0 (at_s 13) (at_s 13); Respond 1 (at_s 14);
                         Invoke 2 (get 2) (at_s 15); Run 2 0 (at_s 16) (at_s 16); Respond 2 (at_s 17) ] = Some (w, h) /\
  h = [ Sent 1 (set_to [] [7] src srv) (at_s 10); Got 1 (Statuses [0]) (at_s 14); Sent 2 (get 2) (at_s 15);
        Got 2 (Values [mkDV (ints [7]) 0 (at_s 11) 0 (at_s 12) 0]) (at_s 17) ].
Proof. eexists. eexists. split; [vm_compute; reflexivity|reflexivity]. Qed.

(** * Order of the timestamps *)
Theorem stamps_back : exists evs w h,
  clock_ok evs /\ z_run (start z_init) evs = Some (w, h) /\
  h = [ Sent 1 (set_to [] [7] no_time no_time) (at_s 10); Sent 2 (set_to [] [8] no_time no_time) (at_s 11);
        Got 2 (Statuses [0]) (at_s 15); Sent 3 (get 0) (at_s 16); Got 3 (Values [mkDV (ints [8]) 0 (at_s 13) 0 no_time 0]) (at_s 18);
        Got 1 (Statuses [0]) (at_s 20); Sent 4 (get 0) (at_s 21); Got 4 (Values [mkDV (ints [7]) 0 (at_s 12) 0 no_time 0]) (at_s 23) ].
Proof.
  exists [ Invoke 1 (set_to [] [7] no_time no_time) (at_s 10); Invoke 2 (set_to [] [8] no_time no_time) (at_s 11);
           Run 1 0 (at_s 12) (at_s 12); Run 2 0 (at_s 13) (at_s 13); Run 2 0 (at_s 14) (at_s 14); Respond 2 (at_s 15);
           Invoke 3 (get 0) (at_s 16); Run 3 0 (at_s 17) (at_s 17); Respond 3 (at_s 18); Run 1 0 (at_s 19) (at_s 19); Respond 1 (at_s 20);
           Invoke 4 (get 0) (at_s 21); Run 4 0 (at_s 22) (at_s 22); Respond 4 (at_s 23) ].
  eexists. eexists. split; [exists (at_s 0); cbn; unfold not_after, nanos; cbn; repeat split; lia|].
  split; [vm_compute; reflexivity|reflexivity].
Qed.

(** * Picoseconds *)
Definition pico_init (x : nodeid) : dval := mkDV (ints [1]) 0 (at_s 1) 25 (at_s 2) 50.
Theorem picos_lost st : st = 0 \/ st = 1 -> exists w h d, z_run (start pico_init) [ Invoke 1 (get st) (at_s 10); Run 1 0 (at_s 11) (at_s 11); Respond 1 (at_s 12) ] = Some (w, h) /\
  h = [ Sent 1 (get st) (at_s 10); Got 1 (Values [d]) (at_s 12) ] /\ d <> with_stamps st (pico_init z_id) /\
  d_srcp d = 0 /\ d_srvp d = 0.
Proof.
  intros [-> | ->]; eexists; eexists; eexists; (split; [vm_compute; reflexivity|]); (split; [reflexivity|]); (split; [intros E; vm_compute in E; discriminate E|split; reflexivity]).
Qed.
Example picos_kept : option_map snd (z_run (start pico_init) [ Invoke 1 (get 2) (at_s 10); Run 1 0 (at_s 11) (at_s 11); Respond 1 (at_s 12) ]) =
  Some [ Sent 1 (get 2) (at_s 10); Got 1 (Values [pico_init z_id]) (at_s 12) ].
Proof. vm_compute. reflexivity. Qed.

(** * Refused requests *)
Example z_faults :
  option_map snd (z_run (start z_init)
    [ Invoke 1 (Read z_who 0xBFF0000000000000 0 []) (at_s 1); Respond 1 (at_s 2); Invoke 2 (Read z_who 0x8000000000000000 4 []) (at_s 3); Respond 2 (at_s 4);
      Invoke 3 (Read z_who 0 3 []) (at_s 5); Respond 3 (at_s 6); Invoke 4 (Read z_who 0x7FF8000000000000 3 (repeat (mkR z_id 13 [] []) 11)) (at_s 7); Respond 4 (at_s 8) ]) =
  Some [ Sent 1 (Read z_who 0xBFF0000000000000 0 []) (at_s 1); Got 1 (Fault 0x80700000) (at_s 2); Sent 2 (Read z_who 0x8000000000000000 4 []) (at_s 3); Got 2 (Fault 0x802B0000) (at_s 4);
         Sent 3 (Read z_who 0 3 []) (at_s 5); Got 3 (Fault 0x800F0000) (at_s 6); Sent 4 (Read z_who 0x7FF8000000000000 3 (repeat (mkR z_id 13 [] []) 11)) (at_s 7); Got 4 (Fault 0x80100000) (at_s 8) ].
Proof. vm_compute. reflexivity. Qed.
(** The hypotheses of the theorem about the last value: the write of [8] in the history above is not
    alone, that of request 1 in this one is *)
Example z_last : option_map snd (z_run (start z_init)
    [ Invoke 1 (set_to [] [7] no_time no_time) (at_s 10); Run 1 0 (at_s 11) (at_s 12); Run 1 0 (at_s 13) (at_s 13); Respond 1 (at_s 14);
      Invoke 2 (get 3) (at_s 15); Run 2 0 (at_s 16) (at_s 16); Respond 2 (at_s 17) ]) =
  Some [ Sent 1 (set_to [] [7] no_time no_time) (at_s 10); Got 1 (Statuses [0]) (at_s 14); Sent 2 (get 3) (at_s 15);
         Got 2 (Values [mkDV (ints [7]) 0 no_time 0 no_time 0]) (at_s 17) ].
Proof. vm_compute. reflexivity. Qed.

Lemma linearizable_both default vt lim max_read max_write nodes range_read range_write app_read app_write other_read other_write init evs w h :
  no_picoseconds init -> run default vt lim max_read max_write nodes range_read range_write app_read app_write other_read other_write (start init) evs = Some (w, h) -> whole_writes h ->
  (exists l, explains default nodes vt lim range_read init h l) /\ (clock_ok evs -> exists l, explains default nodes vt lim range_read init h l /\ timely nodes h l).
Proof.
  intros NP E W. split; [exact (linearizable _ _ _ _ _ _ _ _ _ _ _ _ _ evs w h NP E W)|]. intros C. exact (linearizable_timely _ _ _ _ _ _ _ _ _ _ _ _ _ evs w h NP E W C).
Qed.

(** * Storing a value that has been checked *)
Lemma stored default vt lim nodes range_read range_write app_read app_write other_read other_write who data op d done t1 t2 q : op = WR q ->
  let r := work default vt lim nodes range_read range_write app_read app_write other_read other_write who data (mkTask op (Some d) done) t1 t2 in
  (r = Died <-> exists n v, nodes (w_node q) = Some n /\ nd_kind n = KVariable v /\ va_historizing v = true /\ va_historian v = false) /\
  (r = Died \/ exists data', r = Worked data' (mkTask op None (Some (AStatus 0))) /\ data' (w_node q) = d /\ forall x, x <> w_node q -> data' x = data x).
Proof.
  intros ->. cbv zeta. unfold work. cbn [k_op k_ready]. unfold bad_history. split.
  - split.
    + destruct (nodes (w_node q)) as [n|] eqn:N; [|discriminate]. destruct (nd_kind n) eqn:K; try discriminate.
      destruct (va_historizing _ && negb (va_historian _)) eqn:H; [|discriminate]. intros _. apply andb_prop in H. destruct H as [H1 H2]. apply negb_true_iff in H2.
      eexists _, _. split; [reflexivity|]. split; [exact K|]. now split.
    + intros (n & v & N & K & H1 & H2). rewrite N, K, H1, H2. reflexivity.
  - destruct (match nodes (w_node q) with Some n => _ | None => false end); [now left|right]. eexists. split; [reflexivity|]. unfold upd_data. split.
    + now rewrite (proj2 (nodeid_eqb_eq _ _) eq_refl).
    + intros x X. destruct (nodeid_eqb x (w_node q)) eqn:E; [|reflexivity]. apply nodeid_eqb_eq in E. congruence.
Qed.
