(** Examples and counterexamples beside the theorems of StackProperties.v. *)
From Coq Require Import ZArith List Bool Lia String Strings.Byte.
From Verif Require Import Bytes CodecSpec BytesProofs Prim PrimSpec PrimProofs Value ValueSpec ValueProofs Registry Chunk ChunkSpec ChunkLemmas Messages IndexRange Roles Nodes NodeAccess AccessSpec AccessLemmas
  DataPath DataPathSpec DataPathProofs DataPathLemmas Stack StackSpec StackProofs.
Import ListNotations.
Open Scope Z_scope.
Ltac Zify.zify_post_hook ::= idtac.

(** * Two clients with signed and encrypted channels, and the server of DataPathLemmas.v *)
Definition e_pipe (from to : side) : pipe :=
  mkPipe (ex_conf from MSignEnc 0 0) (ex_conf to MSignEnc 0 0) (ex_sign 32) ex_enc ex_enc 8192 8192 8192.
Definition e_token (c : Z) : nodeid := NNum 1 (100 + c).
Definition e_links (c : Z) : link := mkLink (if c =? 1 then NNum 1 101 else NNum 1 102) [] (e_pipe Client Server) (e_pipe Server Client).
Definition e_session (c : Z) (tok : nodeid) : caller := if nodeid_eqb tok (l_token (e_links c)) then z_who else NoSession.
Definition e_range (v : val) (r : bytes) : ranged := RangeBad 0x80370000.
Definition e_step (nodes : nodeid -> option node) := step default_permissions (fun t => t) x_limits 10 10 nodes e_range (fun v _ r => e_range v r) (fun _ _ => none) (fun _ => (none, 0)) (fun _ _ _ => none) (fun _ _ => 0).
Definition e_happens (nodes : nodeid -> option node) := happens e_links [] e_session (e_step nodes).
Definition ask (stamps : Z) : question := QRead 0 stamps [mkR z_id 13 [] []].
Definition put (v : val) : question := QWrite [mkW z_id 13 [] (mkDV v 0 no_time 0 no_time 0)].
Definition e_events : list happening :=
  [ Calls 1 1 (put (ints [7; 7])) (at_s 10); Calls 2 2 (put (ints [8])) (at_s 11); Takes 2 (at_s 12); Takes 1 (at_s 13);
    Works 2 0 (at_s 14) (mkTime 14 123); Works 1 0 (at_s 15) (at_s 15); Works 1 0 (at_s 15) (at_s 15); Answers 1 (at_s 16); Returns 1 (at_s 17);
    Calls 3 1 (ask 2) (at_s 18); Takes 1 (at_s 19); Works 2 0 (at_s 20) (at_s 20); Works 3 0 (at_s 21) (at_s 21); Answers 3 (at_s 22); Answers 2 (at_s 23); Returns 2 (at_s 24); Returns 1 (at_s 25) ].
Definition one_var (ty : Z) : vardata := mkVar (mkSt GNil 0) ty (-1) 3 false false None None.
Definition one_nodes (ty : Z) (x : nodeid) : option node := if nodeid_eqb x z_id then Some (plain_node (KVariable (one_var ty)) []) else None.
Definition round (v : val) : list happening :=
  [ Calls 1 1 (put v) (at_s 10); Takes 1 (at_s 13); Works 1 0 (at_s 15) (at_s 15); Works 1 0 (at_s 15) (at_s 15); Answers 1 (at_s 16); Returns 1 (at_s 17);
    Calls 2 2 (ask 3) (at_s 18); Takes 2 (at_s 19); Works 2 0 (at_s 21) (at_s 21); Answers 2 (at_s 22); Returns 2 (at_s 25) ].
Definition e_out : list obs :=
  [ Sent 1 (Write z_who [mkW z_id 13 [] (mkDV (ints [7; 7]) 0 no_time 0 no_time 0)]) (at_s 10); Sent 2 (Write z_who [mkW z_id 13 [] (mkDV (ints [8]) 0 no_time 0 no_time 0)]) (at_s 11);
    Got 1 (Statuses [0]) (at_s 17); Sent 3 (get 2) (at_s 18); Got 2 (Statuses [0]) (at_s 24);
    Got 3 (Values [mkDV (ints [8]) 0 (at_s 14) 0 (mkTime 14 100) 0]) (at_s 25) ].
Example e_runs : option_map y_seen (e_happens z_nodes (begin_system z_init) e_events) = Some e_out.
Proof. vm_compute. reflexivity. Qed.

(** The hypotheses of the theorems hold *)
Lemma e_link c : ok_link (e_links c).
Proof.
  assert (forall a b, a <> b -> ok_pipe (e_pipe a b)) as P.
  { intros a b Nab. split; [|split; [cbn; lia|split; intros n H; [left; reflexivity|left; destruct b; reflexivity]]].
    unfold e_pipe, linked. cbn [pi_from pi_to pi_sign pi_enc pi_dec pi_cap pi_send].
    repeat split; try (cbn; lia); try (cbn; discriminate); try exact Nab.
    - apply rev_involutive.
    - apply rev_length. }
  unfold e_links. split; [destruct (c =? 1); cbn; unfold in_u; cbn; lia|]. split; [destruct (c =? 1); reflexivity|]. split; apply P; discriminate.
Qed.
Lemma ok_at s : -2000 <= s <= 2000 -> ok_time (at_s s).
Proof. intros H. split; [split; cbn; unfold in_s; cbn; lia|unfold time_in_int64_ticks; cbn; lia]. Qed.
Lemma ok_ints l : len_ok l -> Forall (in_s 4) l -> ok_value (ints l).
Proof.
  intros L F.
  assert (norm (ints l) = ints l) as Nm by (unfold ints; cbn [norm]; f_equal; rewrite map_map; apply map_ext; reflexivity).
  assert (wf (std_env []) false TVar (ints l)) as W.
  { unfold ints. cbn [wf]. split; [reflexivity|]. split; [discriminate|]. split; [now apply len_ok_map|]. apply wall_map. eapply Forall_impl; [|exact F]. intros z H. cbn [wf bwf ty_of_kind]. now split. }
  unfold ok_value. rewrite Nm. now split.
Qed.
Lemma e_server : ok_server z_init e_range (fun v _ r => e_range v r) (fun _ _ => none) (fun _ => (none, 0)) (fun _ _ _ => none) (fun _ _ => 0).
Proof.
  assert (ok_dval none) as N by (unfold ok_dval, none; cbn [d_value d_status d_src d_srcp d_srv d_srvp wf]; split; [reflexivity|]; split; [unfold in_u; cbn; lia|]; split; [exact ok_no_time|]; split; [exact ok_zero|]; split; [exact ok_no_time|exact ok_zero]).
  split; try (intros; exact N).
  - intros x. split; [|reflexivity]. destruct (ok_ints [1; 2; 3]) as [W _]; [unfold len_ok; cbn; lia|repeat constructor; unfold in_s; cbn; lia|].
    split; [exact W|]. cbn [z_init d_value d_status d_src d_srcp d_srv d_srvp]. split; [unfold in_u; cbn; lia|]. split; [apply ok_at; lia|]. split; [exact ok_zero|]. split; [apply ok_at; lia|exact ok_zero].
  - intros x. now split.
  - intros v r _. unfold e_range, in_u. cbn. lia.
  - intros v w r _ _. unfold e_range, in_u. cbn. lia.
  - intros q. split; [exact N|]. cbn. unfold in_u. cbn. lia.
  - intros who q. unfold in_u. cbn. lia.
Qed.
Lemma put_ok l : len_ok l -> Forall (in_s 4) l -> ok_question (put (ints l)).
Proof.
  intros L F. pose proof (ok_ints l L F) as V. unfold put. cbn [ok_question]. split; [unfold len_ok; cbn; lia|]. constructor; [|constructor].
  split; [cbn; unfold in_u; cbn; lia|]. split; [cbn; unfold in_u; cbn; lia|]. split; [apply len_ok_nil|]. split; [|exact V]. split; [exact (proj1 V)|]. cbn [w_value d_status d_src d_srcp d_srv d_srvp]. split; [unfold in_u; cbn; lia|].
  split; [exact ok_no_time|]. split; [exact ok_zero|]. split; [exact ok_no_time|exact ok_zero].
Qed.
Lemma ask_ok st : in_s 4 st -> ok_question (ask st).
Proof.
  intros H. unfold ask. cbn [ok_question]. split; [unfold in_u; cbn; lia|]. split; [exact H|]. split; [unfold len_ok; cbn; lia|]. constructor; [|constructor]. split; [cbn; unfold in_u; cbn; lia|]. split; [cbn; unfold in_u; cbn; lia|]. split; apply len_ok_nil.
Qed.
Example e_hypotheses : Forall ok_event e_events /\ no_ranges e_out.
Proof.
  split.
  - assert (ok_time (mkTime 14 123)) as T by (split; [split; cbn; unfold in_s; cbn; lia|unfold time_in_int64_ticks; cbn; lia]).
    unfold e_events. repeat (apply Forall_cons; [cbn [ok_event];
      repeat first [apply put_ok; [unfold len_ok; cbn; lia|repeat constructor; unfold in_s; cbn; lia]|apply ask_ok; unfold in_s; cbn; lia|exact T|apply ok_at; lia|match goal with |- _ /\ _ => apply conj end]|]).
    apply Forall_nil.
  - intros r who ops t w I J. unfold e_out in I. cbn [In] in I. repeat (destruct I as [I|I]; [try discriminate I|]); try contradiction; unfold get in I; try discriminate I; injection I as _ _ <- _; destruct J as [<-|[]]; reflexivity.
Qed.

(** * A value that no client can read *)
(** "urn:a" and the identifier 0 *)
Definition bad_exp : val := VScalar (KB BExp) (VB BExp (mkExp 0 [x75; x72; x6e; x3a; x61] (NNum 0 0))).
Theorem reader_crashes : exists s rid body rest,
  e_happens (one_nodes 18) (begin_system z_init) (firstn 10 (round bad_exp)) = Some s /\
  y_seen s = [ Sent 1 (Write z_who [mkW z_id 13 [] (mkDV bad_exp 0 no_time 0 no_time 0)]) (at_s 10); Got 1 (Statuses [0]) (at_s 17); Sent 2 (get 3) (at_s 18) ] /\
  take_message (l_down (e_links 2)) (i_down (y_lines s 2)) = Some (rid, body, rest) /\ client_receive [] body = Panic.
Proof. eexists. eexists. eexists. eexists. split; [vm_compute; reflexivity|]. split; [vm_compute; reflexivity|]. split; [vm_compute; reflexivity|vm_compute; reflexivity]. Qed.
(** * A value that changes its type *)
Theorem null_changes : exists s,
  e_happens (one_nodes 17) (begin_system z_init) (round (VScalar (KB BNodeId) (VB BNodeId (NNum 0 0)))) = Some s /\
  y_seen s = [ Sent 1 (Write z_who [mkW z_id 13 [] (mkDV (VScalar (KB BNodeId) (VB BNodeId (NNum 0 0))) 0 no_time 0 no_time 0)]) (at_s 10); Got 1 (Statuses [0]) (at_s 17);
               Sent 2 (get 3) (at_s 18); Got 2 (Values [mkDV VNil 0 no_time 0 no_time 0]) (at_s 25) ].
Proof. eexists. split; [vm_compute; reflexivity|vm_compute; reflexivity]. Qed.
Example e_explained : exists l, explains default_permissions z_nodes (fun t => t) x_limits e_range (fun x => norm_dval (z_init x)) (map arriving e_out) l.
Proof.
  pose proof e_runs as E. destruct e_hypotheses as [F N]. revert E. unfold e_happens, e_step. match goal with |- option_map y_seen ?x = _ -> _ => destruct x as [s|] eqn:H end; cbn [option_map]; [|discriminate]. intros E. injection E as E.
  rewrite <- E in N |- *. exact (stack_linearizable default_permissions (fun t => t) x_limits 10 10 z_nodes e_range _ _ _ _ _ z_init e_server e_links [] e_session e_link e_events s F H N).
Qed.
