(** Examples and counterexamples beside the theorems of MonServiceProperties.v. *)
From Coq Require Import ZArith List Bool Lia Strings.Byte.
From Verif Require Import Bytes Float IndexRange IndexRangeSpec Roles RolesSpec RolesProofs Nodes NodeAccess AccessSpec AccessProofs AccessLemmas MonQueue MonService MonServiceSpec MonServiceProofs.
From Verif Require Import DataChange DataChangeSpec MonItemLemmas.
Import ListNotations.
Open Scope Z_scope.

(** * A subscription *)
Definition y_object : node := mkNode KObject None [] 7 (fun a => GScalar 3 1).
Definition y_space : space := fun id => if id =? 1 then Some y_object else if id =? 3 then Some (plain_node (KDataType None) []) else x_space id.
Definition y_step := mo_step default_permissions (fun t => t) (fun _ => FFin 0) (FFin (f_int 100)) 10 (FFin (f_int 1000)) (fun _ _ => true) (fun f e => [f; e]).
Definition y_run := mo_run default_permissions (fun t => t) (fun _ => FFin 0) (FFin (f_int 100)) 10 (FFin (f_int 1000)) (fun _ _ => true) (fun f e => [f; e]).
Definition y_value : create_req := mkCreate (mkRead 1002 13 [x31] []) 2 (mkParams 50 (FFin (f_int 10)) (FData 1 0 (FFin 0)) 5 true).
Definition y_events : create_req := mkCreate (mkRead 1 12 [] []) 2 (mkParams 51 (FFin 0) (FEvent 4) 0 true).
Definition y_name : create_req := mkCreate (mkRead 1002 4 [] []) 2 (mkParams 52 (FFin (- f_int 1)) FNone 9999 false).
Definition y_secret : create_req := mkCreate (mkRead 1004 13 [] []) 2 (mkParams 53 (FFin 0) FNone 1 true).
Definition y_ops : list mop := [OCreate x_roles 2 [y_value; y_secret; y_events; y_name]; OTriggering 1 [2; 3] []; OModify 2 [(3, mkParams 60 (FFin (f_int 70000)) FNone 0 true)];
  OMode 1 [2; 9]; OQueued 1; OTriggering 1 [] [2]; ODelete [3; 3]].
Lemma y_answers : snd (y_run (mo_init 0 x_roles y_space) y_ops) =
  [Created [mkResult 0 1 (FFin (f_int 100)) 5; mkResult 0x801F0000 0 (FFin 0) 0; mkResult 0 2 (FFin 0) 1024; mkResult 0 3 (FFin (f_int 1000)) 1024];
   Linked [0; 0] []; Modified [mkResult 0 0 (FFin (f_int 60000)) 1]; Statuses [0; 0x80420000]; Quiet; Linked [] [0]; Statuses [0; 0x80420000]] /\
  all_asked y_ops = 4 /\ all_news no_links y_ops (snd (y_run (mo_init 0 x_roles y_space) y_ops)) /\ Forall (calm x_roles) y_ops.
Proof. split; [vm_compute; reflexivity|]. split; [reflexivity|]. split; [vm_compute; repeat split; auto|repeat constructor]. Qed.
Lemma y_left : map (fun i => (it_id i, it_mode i, it_links i, it_triggered i)) (mo_items (fst (y_run (mo_init 0 x_roles y_space) y_ops))) = [(1, 2, [3], false); (2, 1, [], true)].
Proof. vm_compute. reflexivity. Qed.
Lemma y_delivers : snd (y_step (fst (y_run (mo_init 0 x_roles y_space) y_ops)) (OEvent 1 77)) = Events [(2, [4; 77])] /\
  snd (y_step (fst (y_run (mo_init 0 x_roles y_space) y_ops)) (OSample 1)) = Sampled (Shown (mkSt (GArr 6 [20]) 0)).
Proof. split; vm_compute; reflexivity. Qed.

(** * Counterexamples *)
Lemma y_nobody : ~ user_may default_permissions (Some []) y_object p_receive_events.
Proof. intros (r & b & I & _). destruct I. Qed.
Lemma y_after : exists ops roles l, let s := fst (y_run (mo_init 0 x_roles y_space) ops) in
  mo_owner s = roles /\ mo_space s 1 = Some y_object /\ ~ user_may default_permissions roles y_object p_receive_events /\ y_step s (OEvent 1 77) = (s, Events l) /\ l <> [].
Proof. exists [OCreate x_roles 2 [y_events]; OUser (Some [])], (Some []), [(1, [4; 77])]. cbv zeta. split; [reflexivity|]. split; [reflexivity|]. split; [exact y_nobody|]. split; [vm_compute; reflexivity|discriminate]. Qed.
Lemma y_foreign : exists l, let s := fst (y_run (mo_init 0 (Some []) y_space) [OCreate x_roles 2 [y_events]]) in
  mo_owner s = Some [] /\ mo_space s 1 = Some y_object /\ ~ user_may default_permissions (Some []) y_object p_receive_events /\ y_step s (OEvent 1 77) = (s, Events l) /\ l <> [].
Proof. exists [(1, [4; 77])]. cbv zeta. split; [reflexivity|]. split; [reflexivity|]. split; [exact y_nobody|]. split; [vm_compute; reflexivity|discriminate]. Qed.
(** A data type without definition *)
Lemma y_definition : y_space 3 = Some (plain_node (KDataType None) []) /\ ~ has_attribute (KDataType None) 23 /\
  snd (y_step (mo_init 0 x_roles y_space) (OCreate x_roles 2 [mkCreate (mkRead 3 23 [] []) 2 (mkParams 1 (FFin 0) FNone 1 true)])) = Created [mkResult 0 1 (FFin (f_int 100)) 1].
Proof. split; [reflexivity|]. split; [unfold has_attribute; intros [H|[H|[H|[H|[_ H]]]]]; try lia; now apply H|]. vm_compute. reflexivity. Qed.
(** A link added twice is still there after it has been removed. *)
Lemma y_twice : let ops := [OCreate x_roles 2 [y_value; y_name]; OTriggering 1 [2; 2] []; OTriggering 1 [] [2]] in
  let s := fst (y_run (mo_init 0 x_roles y_space) ops) in
  snd (y_run (mo_init 0 x_roles y_space) ops) = [Created [mkResult 0 1 (FFin (f_int 100)) 5; mkResult 0 2 (FFin (f_int 1000)) 1024]; Linked [0; 0] []; Linked [] [0]] /\
  all_told no_links ops (snd (y_run (mo_init 0 x_roles y_space) ops)) 1 2 = false /\ map it_links (mo_items s) = [[2]; []] /\
  map it_triggered (mo_items (fst (y_step s (OQueued 1)))) = [false; true].
Proof. vm_compute. repeat split. Qed.
(** A trigger that finds nothing to report releases what is sampled later. *)
Lemma y_stale : let d0 := di_new 1 sv_filter 2 10 true 10 0 (at_time 1 1) in
  let d := di_run d0 [DAvail 20 false waiting_value; DTrigger; DTake 9; DTrigger] in
  snd (di_step d (DTake 9)) = DReports [] /\ 
  snd (di_step (di_run d [DPollTick; DPoll (at_time 5 30)]) (DAvail 40 false waiting_value)) = DAvailable true.
Proof. vm_compute. repeat split. Qed.
