(** Examples and counterexamples beside the theorems of AccessProperties.v. *)
From Coq Require Import ZArith List Bool Lia Permutation Strings.Byte.
From Verif Require Import Bytes IndexRange IndexRangeSpec Roles RolesSpec RolesProofs Nodes NodeAccess AccessSpec TypeProofs AccessProofs.
Import ListNotations.
Open Scope Z_scope.

(** * Roles *)
Definition no_print (b : bytes) : bytes := b.
(** Operators from the endpoint "a"; everybody is an observer *)
Definition r_operator : rule := mkRule 15680 [mkCrit 6 []] true [] false [[x61]].
Definition r_observer : rule := mkRule 15668 [mkCrit 6 []] true [] true [].
Example rules_open : open_to r_operator [] [x61] /\ open_to r_observer [] [x61] /\ get_roles no_print [r_operator; r_observer] (IdUserName [x62]) [] [x61] = Some [15680; 15668].
Proof. split; [split; [intros []|now left]|]. split; [split; intros []|reflexivity]. Qed.
Example rules_deny : (forall r, ~ granted no_print [r_operator; r_observer] IdAnonymous [] [x61] r) /\ get_roles no_print [r_operator; r_observer] IdAnonymous [] [x61] = None.
Proof.
  split; [|reflexivity]. intros r (u & [<-|[<-|[]]] & _ & _ & _ & E); inversion E as [c l F|c l F]; subst; try discriminate F; inversion F.
Qed.
(** The order of the rules *)
Theorem rules_order : exists u1 u2 id app ep role, granted no_print [u1; u2] id app ep role /\
  get_roles no_print [u1; u2] id app ep = None /\ get_roles no_print [u2; u1] id app ep = Some [role].
Proof.
  exists r_operator, r_observer, (IdUserName [x62]), [], [x63], 15668. split; [|split; reflexivity].
  exists r_observer. split; [right; now left|]. split; [reflexivity|]. split; [intros []|]. split; [intros []|]. constructor. now left.
Qed.
(** The endpoint of the session is not looked at *)
Theorem endpoint_unseen : exists u id app ep, (forall role, granted no_print [u] id app ep role <-> role = 15680) /\ session_roles no_print [u] id app ep = None.
Proof.
  exists r_operator, (IdUserName [x62]), [], [x61]. split; [|reflexivity]. intros role. split.
  - intros (u & [<-|[]] & <- & _). reflexivity.
  - intros ->. exists r_operator. split; [now left|]. split; [reflexivity|]. split; [intros []|]. split; [now left|]. constructor. now left.
Qed.
Definition r_not_from_a : rule := mkRule 15680 [mkCrit 6 []] true [] true [[x61]].
Theorem exclusion_unseen : exists u id app ep, (forall role, ~ granted no_print [u] id app ep role) /\ session_roles no_print [u] id app ep = Some [15680].
Proof.
  exists r_not_from_a, (IdUserName [x62]), [], [x61]. split; [|reflexivity]. intros role (u & [<-|[]] & _ & _ & N & _). apply N. now left.
Qed.

(** * An address space *)
Definition plain_node (k : kind) (refs : list reference) : node := mkNode k None refs 7 (fun a => GScalar 7 a).
Definition x_var : vardata := mkVar (mkSt (GArr 6 [10; 20; 30]) 0) 6 1 3 false false None None.
Definition x_hist : vardata := mkVar (mkSt (GArr 6 [10; 20; 30]) 0) 6 1 3 true false None None.
Definition x_space : space := fun id =>
  if id =? 1001 then Some (plain_node KObject [mkRef 47 false 1002; mkRef 47 false 1003; mkRef 46 false 1004; mkRef 35 true 85; mkRef 40 false 58])
  else if id =? 1002 then Some (plain_node (KVariable x_var) [mkRef 47 true 1001; mkRef 40 false 63])
  else if id =? 1003 then Some (plain_node (KMethod true (Some 5)) [mkRef 47 true 1001])
  else if id =? 1004 then Some (mkNode (KVariable x_var) (Some [(15704, 1)]) [] 8 (fun a => GScalar 7 a))
  else if id =? 1005 then Some (plain_node (KVariable x_hist) [])
  else if id =? 1006 then Some (plain_node KObject [mkRef 47 false 9999; mkRef 47 false 1002])
  else if id =? 44 then Some (plain_node KReferenceType [])
  else if id =? 47 then Some (plain_node KReferenceType [mkRef 45 true 44])
  else if id =? 46 then Some (plain_node KReferenceType [mkRef 45 true 44])
  else None.
Definition x_roles : option (list Z) := Some [15656; 15668; 15680].
Definition x_limits : limits := mkLimits 100 100 100.
Lemma x_may n k : nd_perms n = None -> In k [0; 5; 6; 7; 11; 12] -> user_may default_permissions x_roles n k.
Proof. intros P I. unfold user_may. rewrite P. now apply default_authenticated_may. Qed.

(** * Read *)
Example read_shown : read_value default_permissions (Session x_roles) x_space (mkRead 1002 13 [x31] []) = Shown (mkSt (GArr 6 [20]) 0).
Proof. vm_compute. reflexivity. Qed.
Example read_unseen : ~ user_may default_permissions x_roles (mkNode (KVariable x_var) (Some [(15704, 1)]) [] 8 (fun a => GScalar 7 a)) p_browse /\
  read_value default_permissions (Session x_roles) x_space (mkRead 1004 13 [] []) = Hidden 0x80340000.
Proof.
  split; [|vm_compute; reflexivity]. intros (r & b & I & J & _). cbn in I, J. destruct J as [J|[]]. injection J as <- <-. lia.
Qed.

(** * Write *)
Definition x_write := write_value default_permissions (fun t => t) x_limits.
Example write_done : fst (x_write (Session x_roles) x_space (mkWrite 1002 13 [] (mkSt (GArr 6 [1; 2]) 0))) = Done 0.
Proof. vm_compute. reflexivity. Qed.
Example write_fits : plain (GArr 6 [1; 2]) /\ fits 6 1 (GArr 6 [1; 2]) /\ within x_limits (GArr 6 [1; 2]) /\ writable x_var.
Proof.
  split; [cbn; lia|]. split; [exists 6, 1; split; [reflexivity|]; split; [now left|unfold fits_rank; lia]|]. split; [cbn; lia|reflexivity].
Qed.
Example write_denied : fst (x_write (Session (Some [15644])) x_space (mkWrite 1002 13 [] (mkSt (GArr 6 [1; 2]) 0))) = Done 0x801F0000.
Proof. vm_compute. reflexivity. Qed.
Example write_mismatch : fst (x_write (Session x_roles) x_space (mkWrite 1002 13 [] (mkSt (GText [x61]) 0))) = Done 0x80740000.
Proof. vm_compute. reflexivity. Qed.
Definition x_server := [(16036, 0x10F1)].
Example historizing_done : fst (write_value x_server (fun t => t) x_limits (Session (Some [16036])) x_space (mkWrite 1002 20 [] (mkSt (GScalar 1 1) 0))) = Done 0.
Proof. vm_compute. reflexivity. Qed.
Lemma spells_zero : spells_all [x30] [One 0].
Proof. exists [[x30]]. split; [|reflexivity]. constructor; [|constructor]. split; [discriminate|]. cbn. lia. Qed.
Example null_crash : fst (x_write (Session x_roles) x_space (mkWrite 1002 13 [x30] (mkSt GNil 0))) = Crashed.
Proof. vm_compute. reflexivity. Qed.
(** Two writes: historizing, then a value *)
Theorem crash_in_two : exists sp id n v roles default vt lim w1 w2 sp1, sp id = Some n /\ nd_kind n = KVariable v /\ va_historizing v = false /\
  wq_node w1 = id /\ wq_node w2 = id /\ wq_range w2 = [] /\ plain (st_value (wq_value w2)) /\ fits (vt (va_type v)) (va_rank v) (st_value (wq_value w2)) /\
  write_value default vt lim (Session roles) sp w1 = (Done 0, sp1) /\ fst (write_value default vt lim (Session roles) sp1 w2) = Crashed.
Proof.
  exists x_space, 1002, (plain_node (KVariable x_var) [mkRef 47 true 1001; mkRef 40 false 63]), x_var, (Some [16036]), x_server, (fun t => t), x_limits.
  exists (mkWrite 1002 20 [] (mkSt (GScalar 1 1) 0)), (mkWrite 1002 13 [] (mkSt (GArr 6 [1; 2]) 0)).
  exists (snd (write_value x_server (fun t => t) x_limits (Session (Some [16036])) x_space (mkWrite 1002 20 [] (mkSt (GScalar 1 1) 0)))).
  do 6 (split; [reflexivity|]). split; [cbn; lia|]. split; [apply write_fits|]. split; [|vm_compute; reflexivity].
  rewrite <- historizing_done. apply surjective_pairing.
Qed.
(** Abstract types: Number (26) *)
Definition number_space : space := fun id => if id =? 26 then Some (plain_node (KDataType None) [mkRef 45 true 24]) else None.
Theorem abstract_any : exists sp, derived sp 26 24 /\ find_variant 2 sp (Some 26) = Some 24 /\
  forall lim s, Z.of_nat (length s) <= lm_string lim -> check_value lim 24 (-1) (GText s) = 0.
Proof.
  exists number_space. split.
  - exists 1%nat. split; [lia|]. eapply StepsS; [|constructor]. apply super_type_spec. reflexivity.
  - split; [reflexivity|]. intros lim s L. apply check_plain; [exact I|]. split; [|exact L]. exists 12, 0. split; [reflexivity|]. split; [now right|]. unfold fits_rank. lia.
Qed.
(** A null value in an Int32 variable *)
Theorem null_anywhere : forall default vt lim roles sp n v id status, sp id = Some n -> nd_kind n = KVariable v -> user_may default roles n p_browse -> writable v ->
  user_may default roles n p_write -> va_writer v = None -> va_historizing v = false ->
  exists sp' n' v', write_value default vt lim (Session roles) sp (mkWrite id 13 [] (mkSt GNil status)) = (Done 0, sp') /\
    sp' id = Some n' /\ nd_kind n' = KVariable v' /\ va_value v' = mkSt GNil status.
Proof.
  intros default vt lim roles sp n v id status Sn K B L P W H. eexists _, _, _. split; [apply (writes_null default vt lim roles sp n v id); assumption|]. split; [unfold put; now rewrite Z.eqb_refl|]. split; reflexivity.
Qed.
Theorem matrix_anywhere : forall default vt lim roles sp n v id t els status, sp id = Some n -> nd_kind n = KVariable v -> user_may default roles n p_browse -> writable v ->
  user_may default roles n p_write -> va_writer v = None -> va_historizing v = false -> va_rank v <> -1 ->
  exists sp' n' v', write_value default vt lim (Session roles) sp (mkWrite id 13 [] (mkSt (GMatrix t els) status)) = (Done 0, sp') /\
    sp' id = Some n' /\ nd_kind n' = KVariable v' /\ va_value v' = mkSt (GMatrix t els) status.
Proof.
  intros default vt lim roles sp n v id t els status Sn K B L P W H R. eexists _, _, _. split; [apply (writes_matrix default vt lim roles sp n v id); assumption|]. split; [unfold put; now rewrite Z.eqb_refl|]. split; reflexivity.
Qed.
(** Two writes into one array, to different positions *)
Example lost_example :
  ws_value (wr_run (GArr 6 [1], [x30]) (GArr 6 [2], [x31]) (GArr 6 [10; 20; 30]) [Fetch true; Fetch false; Store true; Store false]) = GArr 6 [10; 2; 30] /\
  ws_value (wr_run (GArr 6 [1], [x30]) (GArr 6 [2], [x31]) (GArr 6 [10; 20; 30]) [Fetch true; Store true; Fetch false; Store false]) = GArr 6 [1; 2; 30].
Proof. split; vm_compute; reflexivity. Qed.
Theorem lost_update : exists old w1 w2 schedule out, snd w1 <> snd w2 /\ wr_run w1 w2 old schedule = mkWriters out None None /\
  (exists both, write_range old (fst w1) (snd w1) = WrVal both /\ exists b, write_range both (fst w2) (snd w2) = WrVal b /\ b <> out) /\
  (forall both, write_range old (fst w2) (snd w2) = WrVal both -> both = out).
Proof.
  exists (GArr 6 [10; 20; 30]), (GArr 6 [1], [x30]), (GArr 6 [2], [x31]), [Fetch true; Fetch false; Store true; Store false], (GArr 6 [10; 2; 30]).
  split; [discriminate|]. split; [vm_compute; reflexivity|]. split.
  - exists (GArr 6 [1; 20; 30]). split; [vm_compute; reflexivity|]. exists (GArr 6 [1; 2; 30]). split; [vm_compute; reflexivity|discriminate].
  - intros both E. vm_compute in E. now injection E as <-.
Qed.

(** * Browse *)
Definition x_browse := mkBrowse 1001 0 (Some 44) true 0 63.
Example browse_example : browse default_permissions x_roles x_space x_browse =
  Refs [mkDesc (Some 47) true 1002 2 (Some 7) (Some (GScalar 7 4)) (Some 63); mkDesc (Some 47) true 1003 4 (Some 7) (Some (GScalar 7 4)) None].
Proof. vm_compute. reflexivity. Qed.
Example browse_follows : follows x_browse x_space (mkRef 47 false 1002) /\ derived x_space 47 44.
Proof.
  assert (D : derived x_space 47 44) by (apply is_subtype_spec; vm_compute; reflexivity). split; [|exact D].
  split; [right; left; split; reflexivity|]. right. split; [reflexivity|exact D].
Qed.
Example browse_bad : browse default_permissions x_roles x_space (mkBrowse 1006 0 None true 0 63) = BrowseBad 0x80340000.
Proof. vm_compute. reflexivity. Qed.

(** * Call *)
Example call_example : call default_permissions x_roles x_space 1001 1003 = Run 5 /\ call default_permissions (Some [15644]) x_space 1001 1003 = CallBad 0x801F0000.
Proof. split; vm_compute; reflexivity. Qed.
(** an object without the method *)
Theorem call_stranger : exists default roles sp object method h n, sp object = Some n /\ (forall r, In r (nd_refs n) -> rf_target r <> method) /\
  call default roles sp object method = Run h.
Proof.
  exists default_permissions, x_roles, x_space, 1006, 1003, 5, (plain_node KObject [mkRef 47 false 9999; mkRef 47 false 1002]). split; [reflexivity|]. split; [|vm_compute; reflexivity].
  intros r [<-|[<-|[]]]; discriminate.
Qed.

(** * History *)
Theorem history_unprotected : forall (result : Type) (historian : list Z -> result) who sp nodes, history_read historian who sp nodes = historian nodes.
Proof. reflexivity. Qed.
Theorem history_witness : exists (sp : space) n roles default, sp 1004 = Some n /\ ~ user_may default roles n p_read_history /\
  history_read (fun l : list Z => l) (Session roles) sp [1004] = [1004].
Proof.
  exists x_space, (mkNode (KVariable x_var) (Some [(15704, 1)]) [] 8 (fun a => GScalar 7 a)), x_roles, default_permissions. split; [reflexivity|]. split; [|reflexivity].
  intros (r & b & I & J & _). cbn in I, J. destruct J as [J|[]]. injection J as <- <-. lia.
Qed.
(** * Workers *)
Example batch_example : Permutation [2; 0; 1]%nat (seq 0 3) /\ batch 0 (fun i => Z.of_nat i * 10) 3 [2; 0; 1]%nat = [0; 10; 20].
Proof. split; [|vm_compute; reflexivity]. cbn [seq]. apply perm_trans with [0; 2; 1]%nat; [apply perm_swap|apply perm_skip, perm_swap]. Qed.
