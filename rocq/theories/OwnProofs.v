(** Proofs about the server's own variables. *)
From Coq Require Import ZArith List Bool String Lia.
From Verif Require Import Bytes CodecSpec Prim PrimSpec Value ValueSpec Text StructTable Messages OwnData OwnTable OwnSpace OwnSpec.
Import ListNotations.
Open Scope string_scope.
Open Scope Z_scope.

(** * The nodes that are made *)
Definition with_caps (w : world) (c : capabilities) (l : limits) : world :=
  mkWorld (Some (mkCaps (cap_LocaleIDArray c) (cap_MaxStringLength c) (cap_MaxArrayLength c) (cap_MaxByteStringLength c)
                   (cap_MaxBrowseContinuationPoints c) (cap_MaxHistoryContinuationPoints c) (cap_MaxQueryContinuationPoints c)
                   (cap_MinSupportedSampleRate c) (cap_ServerProfileArray c) (Some l)))
          (w_build w) (w_start w) (w_diagnostics w) (w_historian w) (w_servers w) (w_now w) (w_state w) (w_seconds w) (w_reason w)
          (w_namespaces w) (w_summary w) (w_subs w).
Lemma with_caps_eq w c l : w_caps w = Some c -> cap_OperationLimits c = Some l -> w = with_caps w c l.
Proof. destruct w, c. cbn. intros -> ->. reflexivity. Qed.

Definition the_nodes (w : world) : list node := match made w with Some ns => ns | None => [] end.
Definition nodes_of (w : world) (c : capabilities) (l : limits) : list node :=
  Eval vm_compute in the_nodes (with_caps w c l).
Lemma made_is w c l : made (with_caps w c l) = Some (nodes_of w c l).
Proof. vm_compute. reflexivity. Qed.

(** New needs the capabilities and the limits *)
Lemma made_stuck w : w_caps w = None \/ (exists c, w_caps w = Some c /\ cap_OperationLimits c = None) -> made w = None.
Proof.
  destruct w as [oc b st di hi sv nw sta sec re na su sb]. cbn [w_caps]. intros [->|(c & -> & E)].
  - vm_compute. reflexivity.
  - destruct c as [a1 a2 a3 a4 a5 a6 a7 a8 a9 a10]. cbn [cap_OperationLimits] in E. subst a10. vm_compute. reflexivity.
Qed.
Lemma new_ok w : (exists s, new_server w = Some s) <-> exists c l, w_caps w = Some c /\ cap_OperationLimits c = Some l.
Proof.
  unfold new_server. split.
  - intros (s & H). destruct (w_caps w) as [c|] eqn:C.
    + destruct (cap_OperationLimits c) as [l|] eqn:L; [exists c, l; auto|].
      rewrite (made_stuck w) in H by (right; exists c; auto). discriminate.
    + rewrite (made_stuck w) in H by auto. discriminate.
  - intros (c & l & C & L). rewrite (with_caps_eq w c l C L), made_is. cbn. eexists. reflexivity.
Qed.
Lemma new_is w s c l : w_caps w = Some c -> cap_OperationLimits c = Some l -> new_server w = Some s -> s = mkServer w (nodes_of w c l).
Proof.
  intros C L. unfold new_server. rewrite (with_caps_eq w c l C L) at 1 2. rewrite made_is. cbn [option_map].
  intros [= <-]. now rewrite <- (with_caps_eq w c l C L).
Qed.

(** * No client changes them *)
Definition refuses (n : node) : bool := negb (is_variable n) || (Z.land (n_access n) 2 =? 0).
Lemma all_refuse w c l : forallb refuses (nodes_of w c l) = true.
Proof. vm_compute. reflexivity. Qed.
Lemma write_refused ns i g : forallb refuses ns = true -> fst (write_value ns i g) = ns /\ snd (write_value ns i g) <> 0.
Proof.
  intros A. unfold write_value. destruct (find_node i ns) as [n|] eqn:F; [|split; [reflexivity|discriminate]].
  apply find_some in F as [F _]. rewrite forallb_forall in A. specialize (A n F). unfold refuses in A.
  destruct (is_variable n); [|split; [reflexivity|discriminate]]. cbn [negb orb] in A. rewrite A. split; [reflexivity|discriminate].
Qed.

(** * The server as it runs *)
Definition config_same (w w' : world) : Prop :=
  w_caps w' = w_caps w /\ w_build w' = w_build w /\ w_start w' = w_start w /\ w_diagnostics w' = w_diagnostics w /\
  w_historian w' = w_historian w /\ w_servers w' = w_servers w.
Lemma run_inv es : forall s, forallb refuses (sv_nodes s) = true ->
  sv_nodes (run_server s es) = sv_nodes s /\ config_same (sv_world s) (sv_world (run_server s es)).
Proof.
  induction es as [|e es IH]; intros s A.
  - split; [reflexivity|repeat split].
  - cbn [run_server fold_left]. change (fold_left step es (step s e)) with (run_server (step s e) es).
    assert (N : sv_nodes (step s e) = sv_nodes s /\ config_same (sv_world s) (sv_world (step s e))).
    { destruct e as [m|i g]; cbn [step sv_nodes sv_world].
      - split; [reflexivity|repeat split].
      - split; [apply write_refused, A|repeat split]. }
    destruct N as [N K]. destruct (IH (step s e)) as [N' K']; [now rewrite N|].
    split; [now rewrite N', N|]. unfold config_same in *. intuition congruence.
Qed.

(** The nodes do not depend on what changes *)
Lemma nodes_same w w' c l : config_same w w' -> nodes_of w c l = nodes_of w' c l.
Proof.
  destruct w as [oc b st di hi sv nw sta sec re na su sb], w' as [oc' b' st' di' hi' sv' nw' sta' sec' re' na' su' sb'].
  unfold config_same. cbn [w_caps w_build w_start w_diagnostics w_historian w_servers].
  intros (-> & -> & -> & -> & -> & ->). vm_compute. reflexivity.
Qed.
Lemma running w s c l es : w_caps w = Some c -> cap_OperationLimits c = Some l -> new_server w = Some s ->
  exists w', sv_world (run_server s es) = with_caps w' c l /\ sv_nodes (run_server s es) = nodes_of w' c l /\ config_same w (with_caps w' c l) /\
             sv_world (run_server s es) = w'.
Proof.
  intros C L N. rewrite (new_is w s c l C L N).
  destruct (run_inv es (mkServer w (nodes_of w c l))) as [A B]; [apply all_refuse|]. cbn [sv_nodes sv_world] in A, B.
  set (s' := run_server _ es) in *. exists (sv_world s').
  assert (E : sv_world s' = with_caps (sv_world s') c l).
  { apply with_caps_eq; [|exact L]. destruct B as (B & _). now rewrite B. }
  repeat split; try (rewrite <- E; apply B).
  - exact E.
  - rewrite A. now apply nodes_same.
Qed.

(** * Reading without an index range *)
Lemma read_plain range w ns i : plain_range range -> read_value range w ns i [] = read_value whole w ns i [].
Proof.
  intros P. unfold read_value. destruct (find_node i ns) as [n|]; [|reflexivity].
  destruct (is_variable n); [|reflexivity]. destruct (Z.land (n_access n) 1 =? 0); [reflexivity|].
  destruct (n_handler n); [reflexivity|]. apply P.
Qed.
Lemma response_plain range w ns i : plain_range range -> read_response range w ns [(i, [])] = read_response whole w ns [(i, [])].
Proof. intros P. unfold read_response. cbn [map fst snd]. now rewrite read_plain. Qed.

(** * The facts *)
Definition told (w : world) (ns : list node) (q : list string * shown) : Prop :=
  exists i v, descend ns 0 (fst q) = Some i /\ read_response whole w ns [(i, [])] = Some [(v, 0)] /\ shows v (snd q).
Ltac shown := first [reflexivity
  | (match goal with o : option (list bytes) |- _ => destruct o; reflexivity end)
  | (eexists; split; [|reflexivity]; split; [vm_compute; discriminate|eexists; eexists; vm_compute; reflexivity])].
Lemma facts_told w c l : Forall (told (with_caps w c l) (nodes_of w c l)) (facts (with_caps w c l) c l).
Proof.
  destruct w as [oc b st di hi sv nw sta sec re na su sb], c as [a1 a2 a3 a4 a5 a6 a7 a8 a9 a10].
  destruct di.
  all: unfold facts; cbn [map app operation_limits summary_counters].
  all: repeat (apply Forall_cons; [eexists; eexists; split; [vm_compute; reflexivity|split; [vm_compute; reflexivity|]]; cbn [snd]; shown|]).
  all: apply Forall_nil.
Qed.

(** * Data types *)
Definition is_exception (d : decl) : Prop := d_name d = "MaxReturnDataValues" \/ d_name d = "MaxReturnEventValues".
Definition typed (w : world) (ns : list node) (n : node) : Prop :=
  is_variable n = true -> is_exception (n_decl n) \/
  forall v st, read_response whole w ns [(n_id n, [])] = Some [(v, st)] -> fits (d_type (n_decl n)) (d_rank (n_decl n)) v.

Ltac fit_element := split; [first [right; vm_compute; reflexivity|left; vm_compute; reflexivity]
  |intros E; first [vm_compute in E; discriminate E
     |eexists; eexists; split; [reflexivity|split; [vm_compute; discriminate|eexists; eexists; vm_compute; reflexivity]]]].
Ltac fit_list x := induction x as [|e x IH]; [apply Forall_nil|apply Forall_cons; [fit_element|exact IH]].
Ltac fit := first
  [ exact Logic.I
  | (split; [reflexivity|fit_element])
  | (split; [reflexivity|first [right; vm_compute; reflexivity|left; vm_compute; reflexivity]])
  | (split; [reflexivity|split; [first [right; vm_compute; reflexivity|left; vm_compute; reflexivity]|
       match goal with x : list _ |- _ => solve [fit_list x] end]]) ].
Ltac type_node := intros V; first [discriminate V|left; left; reflexivity|left; right; reflexivity|right; clear V; intros v sta0 H; cbn [d_type d_rank n_decl]; vm_compute in H; first [discriminate H
  | injection H as <- <-; fit
  | match goal with o : option (list bytes) |- _ => destruct o as [l0|]; cbv beta iota in H; injection H as <- <-; fit end]].
Lemma all_typed w c l : Forall (typed (with_caps w c l) (nodes_of w c l)) (nodes_of w c l).
Proof.
  destruct w as [oc b st di hi sv nw sta sec re na su sb], c as [a1 a2 a3 a4 a5 a6 a7 a8 a9 a10].
  destruct di.
  all: match goal with |- Forall ?P ?l => let l' := eval vm_compute in l in change (Forall P l') end.
  all: set (P := typed _ _).
  all: repeat (apply Forall_cons; [subst P; type_node|]).
  all: apply Forall_nil.
Qed.
