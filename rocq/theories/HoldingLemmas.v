(** How much a client can make the server keep for one subscription: proofs and examples. *)
From Coq Require Import ZArith List Bool Lia Strings.Byte.
From Coq Require Import ZifyBool.
From Verif Require Import Bytes Float IndexRange IndexRangeSpec Roles RolesSpec Nodes NodeAccess AccessSpec AccessLemmas MonQueue MonQueueProofs DataChange DataChangeSpec MonItemLemmas.
From Verif Require Import MonService MonServiceSpec MonServiceProofs MonServiceLemmas.
Import ListNotations.
Open Scope Z_scope.

Section Holding.
  Variable default : list perm.
  Variable vt : Z -> Z.
  Variable node_min : node -> f64.
  Variable min_rate : f64.
  Variable max_calls : Z.
  Variable publishing : f64.
  Variable where_clause : Z -> Z -> bool.
  Variable fields : Z -> Z -> list Z.
  Notation step := (mo_step default vt node_min min_rate max_calls publishing where_clause fields).
  Notation run := (mo_run default vt node_min min_rate max_calls publishing where_clause fields).
  Notation create1 := (create_one default vt node_min min_rate publishing).
  Notation modify1 := (modify_one vt node_min min_rate publishing).

  Lemma run_one s o ops : fst (run s (o :: ops)) = fst (run (fst (step s o)) ops).
  Proof. cbn [mo_run]. destruct (step s o) as [s' a]. destruct (run s' ops) as [s'' l] eqn:R. cbn [fst]. rewrite R. reflexivity. Qed.

  (** * The queues *)
  Definition small (i : item) : Prop := 1 <= it_size i <= 1024.
  Definition all_small (s : mon) : Prop := Forall small (mo_items s).
  Lemma revised_small n : 1 <= revised_size n <= 1024.
  Proof. apply revised_bounds. Qed.
  Lemma find_small id s i : all_small s -> find_item id (mo_items s) = Some i -> small i.
  Proof. intros A F. apply find_some in F as [I _]. unfold all_small in A. rewrite Forall_forall in A. exact (A i I). Qed.
  Lemma update_small x s : small x -> all_small s -> all_small (with_items s (update x (mo_items s))).
  Proof.
    intros X A. unfold all_small, update in *. cbn [mo_items with_items]. rewrite Forall_forall in *. intros i I.
    apply in_map_iff in I as (j & E & J). destruct (it_id j =? it_id x); subst i; [exact X|exact (A j J)].
  Qed.
  Lemma each_small {Q R} (f : mon -> Q -> mon * R) : (forall s q, all_small s -> all_small (fst (f s q))) ->
    forall l s, all_small s -> all_small (fst (each f s l)).
  Proof.
    intros F. induction l as [|q l IH]; intros s A; [exact A|]. cbn [each]. specialize (F s q A). destruct (f s q) as [s' r]. cbn [fst] in F.
    specialize (IH s' F). destruct (each f s' l) as [s'' rs]. exact IH.
  Qed.
  Lemma create_small roles stamps s q : all_small s -> all_small (fst (create1 roles stamps s q)).
  Proof.
    intros A. assert (K : forall x, small x -> all_small (mkMon (u32 (mo_last s + 1)) (append_item x (mo_items s)) (mo_owner s) (mo_space s))).
    { intros x X. unfold all_small, append_item. cbn [mo_items]. destruct (find_item (it_id x) (mo_items s)); [exact A|]. apply Forall_app. split; [exact A|]. apply Forall_cons; [exact X|apply Forall_nil]. }
    unfold create_one. destruct (admit_item default vt roles (mo_space s) q); cbn [fst]; [exact A|apply K|apply K]; unfold small.
    - cbn [data_item it_size]. apply revised_small.
    - cbn [event_item it_size]. unfold maxQueueSize. lia.
  Qed.
  Lemma modify_small s q : all_small s -> all_small (fst (modify1 s q)).
  Proof.
    intros A. unfold modify_one. destruct (find_item (fst q) (mo_items s)) as [i|] eqn:F; [|exact A].
    destruct (mo_space s (rq_node (it_item i))) as [n|]; [|exact A].
    repeat match goal with
    | |- context [if ?c then _ else _] => destruct c
    | |- context [match pr_filter (snd q) with _ => _ end] => destruct (pr_filter (snd q))
    end; cbn [fst]; try exact A; apply update_small; try exact A; unfold small; cbn [it_size]; try apply revised_small; unfold maxQueueSize; lia.
  Qed.
  Lemma mode_small m s id : all_small s -> all_small (fst (mode_one m s id)).
  Proof.
    intros A. unfold mode_one. destruct (find_item id (mo_items s)) as [i|] eqn:F; [|exact A]. cbn [fst]. apply update_small; [|exact A]. exact (find_small _ _ _ A F).
  Qed.
  Lemma delete_small s id : all_small s -> all_small (fst (delete_one s id)).
  Proof.
    intros A. unfold delete_one. destruct (find_item id (mo_items s)) as [y|]; [|exact A]. cbn [fst]. unfold all_small in *. cbn [mo_items with_items].
    rewrite Forall_forall in *. intros i I. apply filter_In in I as [I _]. exact (A i I).
  Qed.
  Lemma unlink_small t s id : all_small s -> all_small (fst (unlink_one t s id)).
  Proof.
    intros A. unfold unlink_one. destruct (find_item t (mo_items s)) as [i|] eqn:F; [|exact A]. destruct (find_item id (mo_items s)); [|exact A].
    destruct (remove_link id (it_links i)); [|exact A]. cbn [fst]. apply update_small; [|exact A]. exact (find_small _ _ _ A F).
  Qed.
  Lemma link_small t s id : all_small s -> all_small (fst (link_one t s id)).
  Proof.
    intros A. unfold link_one. destruct (find_item t (mo_items s)) as [i|] eqn:F; [|exact A]. destruct (find_item id (mo_items s)); [|exact A].
    cbn [fst]. apply update_small; [|exact A]. exact (find_small _ _ _ A F).
  Qed.
  Lemma fst_let {A B C} (x : A * B) (g : B -> C) : fst (let '(a, b) := x in (a, g b)) = fst x.
  Proof. destruct x. reflexivity. Qed.
  Lemma step_small s o : all_small s -> all_small (fst (step s o)).
  Proof.
    intros A. destruct o as [roles st l|st l|m ids|ids|t add rm|r|id n|id|id e|id|id]; cbn [mo_step].
    - destruct (bad_stamps st); [exact A|]. destruct (bad_count max_calls l); [exact A|]. rewrite fst_let. apply each_small; [|exact A]. intros; now apply create_small.
    - destruct (bad_stamps st); [exact A|]. destruct (bad_count max_calls l); [exact A|]. rewrite fst_let. apply each_small; [|exact A]. intros; now apply modify_small.
    - destruct (bad_count max_calls ids); [exact A|]. rewrite fst_let. apply each_small; [|exact A]. intros; now apply mode_small.
    - destruct (bad_count max_calls ids); [exact A|]. rewrite fst_let. apply each_small; [|exact A]. intros; now apply delete_small.
    - destruct ((zlen rm =? 0) && (zlen add =? 0)); [exact A|]. destruct (find_item t (mo_items s)); [|exact A].
      pose proof (each_small (unlink_one t) (unlink_small t) rm s A) as A1. destruct (each (unlink_one t) s rm) as [s1 x1]. cbn [fst] in A1.
      pose proof (each_small (link_one t) (link_small t) add s1 A1) as A2. destruct (each (link_one t) s1 add) as [s2 x2]. exact A2.
    - exact A.
    - exact A.
    - destruct (find_item id (mo_items s)) as [i|]; [|exact A]. destruct (it_event i || (it_mode i =? 0)); exact A.
    - exact A.
    - destruct (find_item id (mo_items s)) as [t|]; [|exact A]. cbn [fst]. unfold all_small in *. cbn [mo_items with_items]. rewrite Forall_forall in *.
      intros i I. apply in_map_iff in I as (j & E & J). specialize (A j J). destruct (existsb (Z.eqb (it_id j)) (it_links t)); subst i; exact A.
    - destruct (find_item id (mo_items s)) as [i|] eqn:F; [|exact A]. cbn [fst]. apply update_small; [|exact A]. exact (find_small _ _ _ A F).
  Qed.
  Theorem queues last owner sp ops i : In i (mo_items (fst (run (mo_init last owner sp) ops))) -> 1 <= it_size i <= 1024.
  Proof.
    assert (K : forall ops s, all_small s -> all_small (fst (run s ops))).
    { induction ops0 as [|o r IH]; intros s A; [exact A|]. rewrite run_one. apply IH. apply step_small. exact A. }
    intros I. specialize (K ops (mo_init last owner sp) (Forall_nil _)). unfold all_small in K. rewrite Forall_forall in K. exact (K i I).
  Qed.

  (** * The items *)
  Lemma create_again roles stamps s q : 0 <= stamps <= 3 -> 1 <= max_calls -> monitorable default vt roles (mo_space s) q -> unsigned_text (rq_range (cq_item q)) ->
    wf s -> mo_last s + 1 < 2 ^ 32 ->
    let '(s', a) := step s (OCreate roles stamps [q]) in
    (exists r, a = Created [r] /\ rs_status r = 0) /\ length (mo_items s') = S (length (mo_items s)) /\ wf s' /\ mo_space s' = mo_space s /\ mo_last s' <= mo_last s + 1.
  Proof.
    intros St Mc M U W L. cbn [mo_step]. unfold bad_stamps, bad_count. replace ((stamps <? 0) || (3 <? stamps)) with false by lia.
    change (zlen [q]) with 1. change (1 =? 0) with false. cbv iota. replace (max_calls <? 1) with false by lia. cbv iota. cbn [each].
    pose proof (create_cases default vt node_min min_rate max_calls publishing where_clause fields roles stamps s q W L) as C.
    pose proof (create_status default vt node_min min_rate max_calls publishing where_clause fields roles stamps s q) as T.
    pose proof (create_wf default vt node_min min_rate max_calls publishing where_clause fields roles stamps s q W L) as [W' B].
    pose proof (create_same default vt node_min min_rate publishing roles stamps s q) as [_ Sp].
    pose proof (proj2 (admit_spec default vt node_min max_calls where_clause fields roles (mo_space s) q U) M) as A.
    destruct (create1 roles stamps s q) as [s' r]. cbn [fst snd] in *. split; [exists r; split; [reflexivity|apply T; exact A]|].
    split; [|split; [exact W'|split; [exact Sp|lia]]].
    unfold created in C. destruct (admit_item default vt roles (mo_space s) q); [discriminate A| |]; rewrite C; cbn [mo_items]; rewrite app_length; cbn [length]; lia.
  Qed.
  Definition good_creation (a : answer) : Prop := exists r, a = Created [r] /\ rs_status r = 0.
  Theorem unlimited_items last owner sp roles stamps q n : 0 <= last -> last + Z.of_nat n < 2 ^ 32 - 1 -> 0 <= stamps <= 3 -> 1 <= max_calls ->
    monitorable default vt roles sp q -> unsigned_text (rq_range (cq_item q)) ->
    let '(s, answers) := run (mo_init last owner sp) (repeat (OCreate roles stamps [q]) n) in
    Forall good_creation answers /\ length (mo_items s) = n.
  Proof.
    intros L0 L St Mc M U.
    assert (K : forall n s, wf s -> mo_space s = sp -> mo_last s + Z.of_nat n < 2 ^ 32 - 1 ->
      let '(s', answers) := run s (repeat (OCreate roles stamps [q]) n) in Forall good_creation answers /\ length (mo_items s') = (n + length (mo_items s))%nat).
    { clear L. induction n0 as [|k IH]; intros s W Sp L; [split; [apply Forall_nil|reflexivity]|]. cbn [repeat mo_run].
      assert (M' : monitorable default vt roles (mo_space s) q) by (rewrite Sp; exact M).
      pose proof (create_again roles stamps s q St Mc M' U W ltac:(lia)) as C. destruct (step s (OCreate roles stamps [q])) as [s1 a].
      destruct C as (G & N & W1 & Sp1 & L1). specialize (IH s1 W1 ltac:(congruence) ltac:(lia)).
      destruct (run s1 (repeat (OCreate roles stamps [q]) k)) as [s2 l]. destruct IH as [F N2]. split; [apply Forall_cons; [exact G|exact F]|lia]. }
    specialize (K n (mo_init last owner sp) (init_wf last owner sp ltac:(lia)) eq_refl ltac:(cbn; lia)).
    destruct (run (mo_init last owner sp) (repeat (OCreate roles stamps [q]) n)) as [s l]. destruct K as [F N]. split; [exact F|cbn in N; lia].
  Qed.

  (** There are no more than were asked for *)
  Notation count s := (length (mo_items s)).
  Lemma each_count {Q R} (f : mon -> Q -> mon * R) k : (forall s q, (count (fst (f s q)) <= count s + k)%nat) ->
    forall l s, (count (fst (each f s l)) <= count s + k * length l)%nat.
  Proof.
    intros F. induction l as [|q l IH]; intros s; [cbn; lia|]. cbn [each length]. specialize (F s q). destruct (f s q) as [s' r]. cbn [fst] in F.
    specialize (IH s'). destruct (each f s' l) as [s'' rs]. cbn [fst] in *. nia.
  Qed.
  Lemma each_same {Q R} (f : mon -> Q -> mon * R) : (forall s q, (count (fst (f s q)) <= count s)%nat) -> forall l s, (count (fst (each f s l)) <= count s)%nat.
  Proof.
    intros F l s. assert (F' : forall s q, (count (fst (f s q)) <= count s + 0)%nat) by (intros s0 q0; specialize (F s0 q0); lia).
    pose proof (each_count f 0 F' l s). lia.
  Qed.
  Lemma update_count x s : count (with_items s (update x (mo_items s))) = count s.
  Proof. cbn [mo_items with_items]. unfold update. apply map_length. Qed.
  Lemma create_count roles stamps s q : (count (fst (create1 roles stamps s q)) <= count s + 1)%nat.
  Proof.
    assert (K : forall x, (length (append_item x (mo_items s)) <= count s + 1)%nat).
    { intros x. unfold append_item. destruct (find_item (it_id x) (mo_items s)); [lia|]. rewrite app_length. cbn. lia. }
    unfold create_one. destruct (admit_item default vt roles (mo_space s) q); cbn [fst mo_items]; [lia|apply K|apply K].
  Qed.
  Lemma modify_count s q : (count (fst (modify1 s q)) <= count s)%nat.
  Proof.
    unfold modify_one. destruct (find_item (fst q) (mo_items s)) as [i|] eqn:F; [|cbn; lia].
    destruct (mo_space s (rq_node (it_item i))) as [n|]; [|cbn; lia].
    repeat match goal with
    | |- context [if ?c then _ else _] => destruct c
    | |- context [match pr_filter (snd q) with _ => _ end] => destruct (pr_filter (snd q))
    end; cbn [fst]; rewrite ?update_count; lia.
  Qed.
  Lemma mode_count m s id : (count (fst (mode_one m s id)) <= count s)%nat.
  Proof. unfold mode_one. destruct (find_item id (mo_items s)); cbn [fst]; rewrite ?update_count; lia. Qed.
  Lemma delete_count s id : (count (fst (delete_one s id)) <= count s)%nat.
  Proof.
    unfold delete_one. destruct (find_item id (mo_items s)); cbn [fst]; [|lia]. cbn [mo_items with_items].
    induction (mo_items s) as [|x l IH]; [cbn; lia|]. cbn [List.filter]. destruct (negb (it_id x =? id)); cbn [length]; lia.
  Qed.
  Lemma unlink_count t s id : (count (fst (unlink_one t s id)) <= count s)%nat.
  Proof.
    unfold unlink_one. destruct (find_item t (mo_items s)) as [i|]; [|cbn; lia]. destruct (find_item id (mo_items s)); [|cbn; lia].
    destruct (remove_link id (it_links i)); cbn [fst]; rewrite ?update_count; lia.
  Qed.
  Lemma link_count t s id : (count (fst (link_one t s id)) <= count s)%nat.
  Proof.
    unfold link_one. destruct (find_item t (mo_items s)) as [i|]; [|cbn; lia]. destruct (find_item id (mo_items s)); [|cbn; lia].
    cbn [fst]; rewrite ?update_count; lia.
  Qed.
  Lemma step_count s o : Z.of_nat (count (fst (step s o))) <= Z.of_nat (count s) + asked o.
  Proof.
    assert (An : 0 <= asked o) by (destruct o; cbn [asked]; unfold zlen; lia).
    destruct o as [roles st l|st l|m ids|ids|t add rm|r|id n|id|id e|id|id]; cbn [mo_step].
    - destruct (bad_stamps st); [cbn [fst]; lia|]. destruct (bad_count max_calls l); [cbn [fst]; lia|]. rewrite fst_let.
      pose proof (each_count (create1 roles st) 1 (create_count roles st) l s). cbn [asked]. unfold zlen. lia.
    - destruct (bad_stamps st); [cbn [fst]; lia|]. destruct (bad_count max_calls l); [cbn [fst]; lia|]. rewrite fst_let.
      pose proof (each_same modify1 modify_count l s). lia.
    - destruct (bad_count max_calls ids); [cbn [fst]; lia|]. rewrite fst_let. pose proof (each_same (mode_one m) (mode_count m) ids s). lia.
    - destruct (bad_count max_calls ids); [cbn [fst]; lia|]. rewrite fst_let. pose proof (each_same delete_one delete_count ids s). lia.
    - destruct ((zlen rm =? 0) && (zlen add =? 0)); [cbn [fst]; lia|]. destruct (find_item t (mo_items s)); [|cbn [fst]; lia].
      pose proof (each_same (unlink_one t) (unlink_count t) rm s) as A1. destruct (each (unlink_one t) s rm) as [s1 x1]. cbn [fst] in A1.
      pose proof (each_same (link_one t) (link_count t) add s1) as A2. destruct (each (link_one t) s1 add) as [s2 x2]. cbn [fst] in *. lia.
    - cbn [fst mo_items]. lia.
    - cbn [fst mo_items]. lia.
    - destruct (find_item id (mo_items s)) as [i|]; [destruct (it_event i || (it_mode i =? 0))|]; cbn [fst]; lia.
    - cbn [fst]. lia.
    - destruct (find_item id (mo_items s)) as [t|]; cbn [fst mo_items with_items]; rewrite ?map_length; lia.
    - destruct (find_item id (mo_items s)) as [i|]; cbn [fst]; rewrite ?update_count; lia.
  Qed.
  Theorem no_more_than_asked last owner sp ops : Z.of_nat (length (mo_items (fst (run (mo_init last owner sp) ops)))) <= all_asked ops.
  Proof.
    assert (K : forall ops s, Z.of_nat (length (mo_items (fst (run s ops)))) <= Z.of_nat (length (mo_items s)) + all_asked ops).
    { induction ops0 as [|o r IH]; intros s; [cbn; lia|]. rewrite run_one. cbn [all_asked]. specialize (IH (fst (step s o))). pose proof (step_count s o). lia. }
    specialize (K ops (mo_init last owner sp)). cbn [mo_init mo_items length] in K. lia.
  Qed.

  (** * The links *)
  Lemma update_ids x l : map it_id (update x l) = map it_id l.
  Proof.
    unfold update. rewrite map_map. apply map_ext. intros i. destruct (it_id i =? it_id x) eqn:E; [lia|reflexivity].
  Qed.
  Lemma found_id id l : (exists i, find_item id l = Some i) <-> In id (map it_id l).
  Proof.
    unfold find_item. split.
    - intros [i F]. apply find_some in F as [I E]. apply in_map_iff. exists i. split; [lia|exact I].
    - intros I. apply in_map_iff in I as (i & E & I). destruct (find (fun i => it_id i =? id) l) as [j|] eqn:F; [exists j; reflexivity|].
      pose proof (List.find_none _ _ F i I) as N. cbv beta in N. lia.
  Qed.
  Lemma find_updated x l : In (it_id x) (map it_id l) -> find_item (it_id x) (update x l) = Some x.
  Proof.
    induction l as [|i l IH]; intros I; [destruct I|]. unfold find_item, update. cbn [map find]. destruct (it_id i =? it_id x) eqn:E.
    - rewrite Z.eqb_refl. reflexivity.
    - rewrite E. apply IH. destruct I as [I|I]; [lia|exact I].
  Qed.
  Lemma link_again s t x i : find_item t (mo_items s) = Some i -> In x (map it_id (mo_items s)) ->
    let '(s', a) := step s (OTriggering t [x] []) in
    a = Linked [0] [] /\ map it_id (mo_items s') = map it_id (mo_items s) /\ exists i', find_item t (mo_items s') = Some i' /\ it_links i' = it_links i ++ [x].
  Proof.
    intros F I. cbn [mo_step]. change ((zlen (@nil Z) =? 0) && (zlen [x] =? 0)) with false. cbv iota. rewrite F. cbn [each]. unfold link_one. rewrite F.
    apply found_id in I as [y Y]. rewrite Y. split; [reflexivity|]. cbn [mo_items with_items]. split; [apply update_ids|].
    exists (set_links i (it_links i ++ [x])). split; [|reflexivity].
    assert (T : t = it_id (set_links i (it_links i ++ [x]))) by (unfold find_item in F; apply find_some in F as [_ F]; cbn; lia).
    rewrite T at 1. apply find_updated. rewrite <- T. apply found_id. exists i. exact F.
  Qed.
  Theorem unlimited_links s t x i n : find_item t (mo_items s) = Some i -> In x (map it_id (mo_items s)) ->
    let '(s', answers) := run s (repeat (OTriggering t [x] []) n) in
    Forall (fun a => a = Linked [0] []) answers /\ map it_id (mo_items s') = map it_id (mo_items s) /\
    exists i', find_item t (mo_items s') = Some i' /\ it_links i' = it_links i ++ repeat x n.
  Proof.
    revert s i. induction n as [|n IH]; intros s i F I.
    - cbn [repeat mo_run]. split; [apply Forall_nil|split; [reflexivity|]]. exists i. split; [exact F|rewrite app_nil_r; reflexivity].
    - cbn [repeat mo_run]. pose proof (link_again s t x i F I) as C. destruct (step s (OTriggering t [x] [])) as [s1 a]. destruct C as (A & Ids & i1 & F1 & L1).
      rewrite <- Ids in I. specialize (IH s1 i1 F1 I). destruct (run s1 (repeat (OTriggering t [x] []) n)) as [s2 l]. destruct IH as (Fa & Ids2 & i2 & F2 & L2).
      split; [apply Forall_cons; assumption|]. split; [congruence|]. exists i2. split; [exact F2|]. rewrite L2, L1, <- app_assoc. reflexivity.
  Qed.
End Holding.

(** 25 requests for the same item, and 7 links of the second to the first *)
Example items_ex : monitorable default_permissions (fun t => t) x_roles y_space y_events /\ unsigned_text (rq_range (cq_item y_events)) /\
  length (mo_items (fst (y_run (mo_init 0 x_roles y_space) (repeat (OCreate x_roles 2 [y_events]) 25)))) = 25%nat.
Proof.
  assert (U : unsigned_text (rq_range (cq_item y_events))) by (split; intros H; exact H).
  split; [|split; [exact U|vm_compute; reflexivity]].
  apply (proj1 (admit_spec default_permissions (fun t => t) (fun _ => FFin 0) 10 (fun _ _ => true) (fun f e => [f; e]) x_roles y_space y_events U)). vm_compute. reflexivity.
Qed.
Example links_ex : let s := fst (y_run (mo_init 0 x_roles y_space) [OCreate x_roles 2 [y_events; y_value]]) in
  map it_id (mo_items s) = [1; 2] /\ map it_links (mo_items (fst (y_run s (repeat (OTriggering 1 [2] []) 7)))) = [repeat 2 7; []].
Proof. split; vm_compute; reflexivity. Qed.
Example queues_ex : map it_size (mo_items (fst (y_run (mo_init 0 x_roles y_space) [OCreate x_roles 2 [y_events; y_value]]))) = [1024; 5].
Proof. vm_compute. reflexivity. Qed.

(** * The values that wait for the next publishing cycle *)
Theorem waiting mode f stamps ti oldest now v n : mode <> 0 ->
  let d := di_run (di_new mode f stamps ti oldest 1 now v) (repeat (DModify f ti oldest 1 now v) n) in
  mq_size (di_q d) = 1%nat /\ di_pre d = repeat v (S n).
Proof.
  intros M. assert (Md : (mode =? m_disabled) = false) by (unfold m_disabled; lia).
  assert (K : forall n d, di_mode d = mode -> mq_size (di_q d) = 1%nat ->
    let d' := di_run d (repeat (DModify f ti oldest 1 now v) n) in mq_size (di_q d') = 1%nat /\ di_pre d' = di_pre d ++ repeat v n).
  { induction n0 as [|k IH]; intros d D Q; cbv zeta.
    - split; [exact Q|]. cbn. rewrite app_nil_r. reflexivity.
    - cbn [repeat]. unfold di_run. cbn [fold_left]. fold (di_run (fst (di_step d (DModify f ti oldest 1 now v))) (repeat (DModify f ti oldest 1 now v) k)).
      set (d1 := fst (di_step d (DModify f ti oldest 1 now v))).
      assert (M1 : di_mode d1 = mode) by (unfold d1; cbn [di_step fst]; unfold start; cbn [di_mode]; rewrite D, Md; reflexivity).
      assert (Q1 : mq_size (di_q d1) = 1%nat) by (unfold d1; cbn [di_step fst]; unfold start; cbn [di_mode]; rewrite D, Md; reflexivity).
      assert (P1 : di_pre d1 = di_pre d ++ [v]) by (unfold d1; cbn [di_step fst]; unfold start; cbn [di_mode]; rewrite D, Md; reflexivity).
      destruct (IH d1 M1 Q1) as [H1 H2]. split; [exact H1|]. rewrite H2, P1, <- app_assoc. reflexivity. }
  assert (D0 : di_mode (di_new mode f stamps ti oldest 1 now v) = mode) by (unfold di_new, start; cbn [di_mode]; rewrite Md; reflexivity).
  assert (Q0 : mq_size (di_q (di_new mode f stamps ti oldest 1 now v)) = 1%nat) by (unfold di_new, start; cbn [di_mode]; rewrite Md; reflexivity).
  assert (P0 : di_pre (di_new mode f stamps ti oldest 1 now v) = [v]) by (unfold di_new, start; cbn [di_mode]; rewrite Md; reflexivity).
  specialize (K n _ D0 Q0). cbv zeta in K |- *. rewrite P0 in K. exact K.
Qed.
