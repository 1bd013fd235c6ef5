(** Proofs about subscriptions and their client together. *)
From Coq Require Import ZArith List Bool Lia String Strings.Byte.
From Verif Require Import Bytes CodecSpec BytesProofs Prim PrimSpec PrimProofs Value ValueSpec ValueProofs Registry Chunk ChunkSpec StructTable
  Messages MessageProofs MessageSpec StructSpec MessageLemmas IndexRange NodeAccess DataPath MonQueue Subscription SubscriptionSpec SubscriptionProofs SubDeliveryProofs
  Stack StackSpec StackProofs Notify NotifySpec.
Import ListNotations.
Open Scope Z_scope.
Ltac Zify.zify_post_hook ::= idtac.

(** * Types of notification data *)
Local Opaque std_registry struct_table find_type.
Lemma type_registered name k f u : In (name, k, f) struct_table -> supported (TStruct f) = true ->
  registered (std_env u) (type_no k) /\ v_fields (std_env u) (type_no k) = f.
Proof.
  intros H Sf. destruct (table_registered name k f u H) as (t & A & B & R & T).
  assert (E : type_no k = t). { unfold type_no. cbn [v_type_of_id std_env] in T. rewrite T. reflexivity. }
  rewrite E. split; [|exact B]. split; [rewrite B; exact Sf|]. exists (std_id k). split; [exact A|].
  rewrite to_nodeid_std, (norm_std k) by lia. split; [|exact T]. cbn. unfold in_u. cbn. lia.
Qed.
Ltac table := apply entry_In; [vm_compute; reflexivity|exact names_distinct].
Lemma data_registered u : registered (std_env u) data_type /\ v_fields (std_env u) data_type = f_DataChangeNotification.
Proof. apply (type_registered "DataChangeNotification"); [table|reflexivity]. Qed.
Lemma event_registered u : registered (std_env u) event_type /\ v_fields (std_env u) event_type = f_EventNotificationList.
Proof. apply (type_registered "EventNotificationList"); [table|reflexivity]. Qed.
Lemma status_registered u : registered (std_env u) status_type /\ v_fields (std_env u) status_type = f_StatusChangeNotification.
Proof. apply (type_registered "StatusChangeNotification"); [table|reflexivity]. Qed.
Lemma types_differ : (event_type =? data_type) = false /\ (status_type =? data_type) = false /\ (status_type =? event_type) = false.
Proof. vm_compute. auto. Qed.
Local Opaque std_env data_type event_type status_type.

(** * Messages *)
Lemma wf_fields u fs : Forall (wf (std_env []) false TVar) fs -> wall (wf (std_env u) false TVar) fs.
Proof. induction 1 as [|v fs H _ IH]; [exact Logic.I|]. split; [now apply (wf_uris [])|exact IH]. Qed.
Section Handle.
Variable handle : Z -> Z.
Hypothesis HU : forall id, in_u 4 (handle id).

Lemma mins_length c : (List.length (mins handle c) <= List.length c)%nat.
Proof. induction c as [|[id [d|fs]] c IH]; cbn [mins List.length]; lia. Qed.
Lemma efls_length c : (List.length (efls handle c) <= List.length c)%nat.
Proof. induction c as [|[id [d|fs]] c IH]; cbn [efls List.length]; lia. Qed.
Lemma wf_mins u c : Forall (fun x => ok_note (snd x)) c -> wall (wf (std_env u) false (TStruct f_MonitoredItemNotification)) (mins handle c).
Proof.
  induction 1 as [|[id [d|fs]] c H _ IH]; cbn [mins]; [exact Logic.I| |exact IH]. split; [|exact IH].
  cbn [wf wzip f_MonitoredItemNotification bwf]. split; [split; [reflexivity|apply HU]|]. split; [|exact Logic.I]. now apply wf_dv.
Qed.
Lemma wf_efls u c : Forall (fun x => ok_note (snd x)) c -> wall (wf (std_env u) false (TStruct f_EventFieldList)) (efls handle c).
Proof.
  induction 1 as [|[id [d|fs]] c H _ IH]; cbn [efls]; [exact Logic.I|exact IH|]. split; [|exact IH].
  cbn [wf wzip f_EventFieldList bwf]. split; [split; [reflexivity|apply HU]|]. split; [|exact Logic.I]. destruct H as [L F]. cbn [snd] in L, F. split; [exact L|]. now apply wf_fields.
Qed.
Lemma wf_data u c : ok_content c -> wall (wf (std_env u) false TExt) (notification_data handle c) /\ len_ok (notification_data handle c).
Proof.
  intros [L F]. unfold notification_data. pose proof (wf_mins u c F) as M. pose proof (wf_efls u c F) as E. pose proof (mins_length c) as LM. pose proof (efls_length c) as LE. unfold len_ok in L.
  destruct (data_registered u) as [DR DF]. destruct (event_registered u) as [ER EF].
  assert (WM : forall l, mins handle c = l -> wf (std_env u) false TExt (VExt data_type [VSlice l; VSlice []])).
  { intros l <-. cbn [wf]. split; [reflexivity|]. split; [exact DR|]. rewrite DF. unfold f_DataChangeNotification. cbn [wzip wf]. split; [split; [unfold len_ok; lia|exact M]|]. split; [|exact Logic.I]. split; [apply len_ok_nil|exact Logic.I]. }
  assert (WE : forall l, efls handle c = l -> wf (std_env u) false TExt (VExt event_type [VSlice l])).
  { intros l <-. cbn [wf]. split; [reflexivity|]. split; [exact ER|]. rewrite EF. unfold f_EventNotificationList. cbn [wzip wf]. split; [|exact Logic.I]. split; [unfold len_ok; lia|exact E]. }
  clear M E. destruct (mins handle c) as [|m ms]; destruct (efls handle c) as [|x xs]; cbn [app wall]; (split; [|unfold len_ok; cbn [List.length]; lia]).
  - exact Logic.I.
  - exact (conj (WE _ eq_refl) Logic.I).
  - exact (conj (WM _ eq_refl) Logic.I).
  - exact (conj (WM _ eq_refl) (conj (WE _ eq_refl) Logic.I)).
Qed.
Lemma mins_back c : all_of val_min (map norm (mins handle c)) = Some (data_notes handle c).
Proof.
  induction c as [|[id [d|fs]] c IH]; cbn [mins map all_of]; [reflexivity| |exact IH]. rewrite IH. reflexivity.
Qed.
Lemma efls_back c : all_of val_efl (map norm (efls handle c)) = Some (event_notes handle c).
Proof.
  induction c as [|[id [d|fs]] c IH]; cbn [efls map all_of]; [reflexivity|exact IH|]. rewrite IH. reflexivity.
Qed.
Lemma notes_back c : notes_of (map norm (notification_data handle c)) = Some (data_notes handle c, event_notes handle c, []).
Proof.
  unfold notification_data. pose proof (mins_back c) as M. pose proof (efls_back c) as E. destruct types_differ as (T1 & _ & _).
  destruct (mins handle c) as [|m ms]; destruct (efls handle c) as [|x xs].
  - cbn in M, E. injection M as <-. injection E as <-. reflexivity.
  - cbn [map all_of] in M. injection M as <-. cbn [app map norm notes_of]. rewrite T1, Z.eqb_refl. cbn [map] in E. rewrite E, app_nil_r. reflexivity.
  - cbn [map all_of] in E. injection E as <-. cbn [app map norm notes_of]. rewrite Z.eqb_refl. cbn [map] in M. rewrite M, app_nil_r. reflexivity.
  - cbn [app map norm notes_of]. rewrite T1, !Z.eqb_refl. cbn [map] in M, E. rewrite M, E, !app_nil_r. reflexivity.
Qed.
End Handle.
Lemma wf_status u : wall (wf (std_env u) false TExt) status_data.
Proof.
  destruct (status_registered u) as [R F]. unfold status_data. split; [|exact Logic.I]. cbn [wf]. split; [reflexivity|]. split; [exact R|]. rewrite F. unfold f_StatusChangeNotification. cbn [wzip wf bwf].
  split; [split; [reflexivity|unfold in_u; cbn; lia]|]. split; [split; reflexivity|exact Logic.I].
Qed.

Lemma status_back : notes_of (map norm status_data) = Some ([], [], [2148139008]).
Proof. destruct types_differ as (_ & T2 & T3). unfold status_data. cbn [map norm notes_of bnorm]. rewrite T2, T3, Z.eqb_refl. reflexivity. Qed.

Lemma wf_message u n t data : in_u 4 n -> ok_time t -> wall (wf (std_env u) false TExt) data -> len_ok data ->
  wf (std_env u) false (TStruct f_NotificationMessage) (message_val n t data).
Proof.
  intros A [B1 B2] C D. unfold f_NotificationMessage, message_val. cbn [wf wzip bwf]. split; [now split|]. split; [split; [reflexivity|exact (conj B1 B2)]|]. split; [|exact Logic.I]. now split.
Qed.
Lemma wf_numbers u l : ok_numbers l -> wf (std_env u) false (TSlice (TB BUInt32)) (VSlice (map (VB BUInt32) l)).
Proof. intros [L F]. cbn [wf]. split; [now apply len_ok_map|]. apply wall_map. eapply Forall_impl; [|exact F]. intros x H. cbn [wf bwf]. now split. Qed.
Lemma wf_publish u k p avail more msg : in_u 4 k -> ok_slip p -> ok_numbers avail -> wf (std_env u) false (TStruct f_NotificationMessage) msg ->
  wzip (wf (std_env u) false) f_PublishResponse (publish_vals k p avail more msg).
Proof.
  intros K (R & H & N & T & L & F) A M. unfold f_PublishResponse, publish_vals. cbn [wzip].
  split; [apply (wf_response_header u); [exact N|exact H|apply in_u4; lia]|]. split; [cbn [wf bwf]; now split|]. split; [now apply wf_numbers|]. split; [cbn [wf bwf]; now split|]. split; [exact M|].
  split; [apply wf_numbers; now split|]. split; [|exact Logic.I]. cbn [wf]. split; [apply len_ok_nil|exact Logic.I].
Qed.
Lemma numbers_back l : all_of val_status (map norm (map (VB BUInt32) l)) = Some l.
Proof. rewrite map_map, (all_of_map _ _ (fun x => x)); [now rewrite map_id|reflexivity]. Qed.
Lemma publish_back k p avail more n t data ds es ss : notes_of (map norm data) = Some (ds, es, ss) ->
  told_of "PublishResponse" (map norm (publish_vals k p avail more (message_val n t data))) =
  Some (Published (sl_handle p) k avail more (mkNotice n (norm_time t) ds es ss) (sl_results p)).
Proof.
  intros E. unfold publish_vals, message_val, response_header. cbn [map norm bnorm]. unfold told_of. change (negb (0 =? 0)) with false. cbv iota. change (String.eqb "PublishResponse" "PublishResponse") with true. cbv iota.
  rewrite !numbers_back. unfold notice_of. rewrite E. reflexivity.
Qed.

Definition sends_it (e : sbev note) : bool :=
  match e with EvData _ _ _ | EvKeepAlive _ _ | EvStatusChange _ | EvRepublished _ => true | _ => false end.
Lemma publish_carries : MessageSpec.carries server_send client_receive "PublishResponse" 829 f_PublishResponse.
Proof. apply (responses "Publish" 826 [RequestHeader; Many SubscriptionAcknowledgement]); [|discriminate]. unfold standard_services. repeat first [left; reflexivity|right]. Qed.
Lemma republish_carries : MessageSpec.carries server_send client_receive "RepublishResponse" 835 f_RepublishResponse.
Proof. apply (responses "Republish" 832 [RequestHeader; UInt32'; UInt32']); [|discriminate]. unfold standard_services. repeat first [left; reflexivity|right]. Qed.

Lemma message_arrives (handle : Z -> Z) u1 u2 k p e : (forall id, in_u 4 (handle id)) -> in_u 4 k -> ok_slip p -> NotifySpec.ok_event e -> sends_it e = true ->
  exists name vals body a, outgoing handle k p e = Some (name, vals) /\ server_send u1 name vals = Some body /\ body <> [] /\
    client_receive u2 body = Ok (name, map norm vals) [] /\ told_of name (map norm vals) = Some a /\ due handle k p e = Some a.
Proof.
  intros HU K P O S. pose proof P as (_ & Ph & Pn & Pt & _).
  assert (exists name vals id f a, outgoing handle k p e = Some (name, vals) /\ MessageSpec.carries server_send client_receive name id f /\ wzip (wf (std_env u2) false) f vals /\
    told_of name (map norm vals) = Some a /\ due handle k p e = Some a) as (name & vals & id & f & a & A & C & W & T & D).
  { destruct e as [|m avail more|n avail|m| |n| |b|m| |]; try discriminate.
    - destruct m as [n c]. cbn [fst snd] in O. destruct O as (O1 & O2 & O3). destruct (wf_data handle HU u2 _ O2) as [W1 W2].
      do 5 eexists. split; [reflexivity|]. split; [exact publish_carries|]. split; [apply wf_publish; auto; now apply wf_message|]. split; [apply publish_back, notes_back|]. reflexivity.
    - destruct O as (O1 & O3).
      do 5 eexists. split; [reflexivity|]. split; [exact publish_carries|]. split; [apply wf_publish; auto; apply wf_message; auto; [exact Logic.I|apply len_ok_nil]|]. split; [apply publish_back; reflexivity|reflexivity].
    - do 5 eexists. split; [reflexivity|]. split; [exact publish_carries|].
      split; [apply wf_publish; auto; [split; [apply len_ok_nil|constructor]|]; apply wf_message; auto; [apply wf_status|unfold len_ok; cbn; lia]|]. split; [apply publish_back, status_back|reflexivity].
    - destruct m as [n c]. cbn [fst snd] in O. destruct O as (O1 & O2). destruct (wf_data handle HU u2 _ O2) as [W1 W2].
      do 5 eexists. split; [reflexivity|]. split; [exact republish_carries|]. split.
      { unfold f_RepublishResponse. cbn [wzip]. split; [apply (wf_response_header u2); [exact Pn|exact Ph|apply in_u4; lia]|]. split; [|exact Logic.I]. now apply wf_message. }
      split; [|reflexivity]. unfold message_val, response_header. cbn [map norm bnorm]. unfold told_of. change (negb (0 =? 0)) with false. cbv iota.
      change (String.eqb "RepublishResponse" "PublishResponse") with false. change (String.eqb "RepublishResponse" "RepublishResponse") with true. cbv iota. unfold notice_of. rewrite notes_back. reflexivity. }
  destruct (C u1 u2 _ W) as (b & _ & E & R). exists name, vals, (write_nodeid (NNum 0 id) ++ b), a. split; [exact A|]. split; [exact E|]. split; [apply write_nodeid_nonempty|].
  split; [|now split]. specialize (R []). now rewrite app_nil_r in R.
Qed.

(** * What a subscription does can be sent *)
Ltac cases := repeat match goal with
  | |- context [match ?x with _ => _ end] => destruct x eqn:?
  | |- context [if ?x then _ else _] => destruct x eqn:?
  end.
Lemma built_step (s : sub note) o m : In m (built (snd (sb_step s o))) -> fst m = sb_next s /\ (List.length (snd m) <= Z.to_nat (sb_max_notif s))%nat.
Proof.
  assert (D : forall ord ok late, In m (built (snd (send_data s ord ok late))) -> fst m = sb_next s /\ (List.length (snd m) <= Z.to_nat (sb_max_notif s))%nat).
  { intros ord ok late. unfold send_data. pose proof (collect_spec ord (Z.to_nat (sb_max_notif s)) (sb_items s)) as C.
    destruct (collect ord (Z.to_nat (sb_max_notif s)) (sb_items s)) as [[out mo] items']. destruct C as (C & _). destruct ok; cbn [snd built]; intros [<-|[]]; split; auto. }
  destruct o; try (unfold sb_step, send_keepalive, no_request; cases; cbn [snd built]; intros []; fail).
  - unfold sb_step. destruct (existsb item_available (sb_items s) && sb_enabled s).
    + destruct (negb (sb_alive s)); [intros []|]. destruct r; [|apply D|intros []]. unfold no_request; cases; intros [].
    + unfold send_keepalive, no_request; cases; cbn [snd built]; intros [].
  - unfold sb_step. destruct (negb (sb_late s)); [intros []|]. destruct (existsb item_available (sb_items s) && sb_enabled s); [apply D|].
    unfold send_keepalive; cases; cbn [snd built]; intros [].
Qed.
Lemma max_step (s : sub note) o : NotifySpec.ok_op o -> sb_max_notif s < 2 ^ 31 -> sb_max_notif (fst (sb_step s o)) < 2 ^ 31.
Proof. destruct o; cbn [NotifySpec.ok_op]; intros O M; unfold sb_step, send_data, send_keepalive, no_request; cases; cbn [fst sb_max_notif dead with_items touch_items with_retrans]; first [exact M|exact O]. Qed.
Lemma status_step (s : sub note) o n : snd (sb_step s o) = EvStatusChange n -> n = sb_next s.
Proof. destruct (number_step s o) as [[E _]|[E _]]; intros H; rewrite H in E; [discriminate|]. injection E as ->. reflexivity. Qed.
Lemma republished_step (s : sub note) o m : snd (sb_step s o) = EvRepublished m -> In m (sb_retrans s).
Proof.
  destruct o; try (unfold sb_step, send_data, send_keepalive, no_request; cases; discriminate).
  unfold sb_step. destruct (negb (sb_alive s)); [discriminate|]. pose proof (remove_first_spec n (sb_retrans s)) as R. destruct (remove_first n (sb_retrans s)) as [[x r]|]; [|discriminate].
  destruct R as (a & b & E & _). destruct ok; [|discriminate]. cbn [snd]. intros H. injection H as <-. rewrite E. apply in_app_iff. right. now left.
Qed.
Lemma in_subseq {A} (x : A) a b : subseq a b -> In x a -> In x b.
Proof. induction 1 as [|y a b _ IH|y a b _ IH]; intros H; [exact H| |right; auto]. destruct H as [<-|H]; [now left|right; auto]. Qed.
Lemma queued_ok id (ops : list (sbop note)) v : Forall NotifySpec.ok_op ops -> In v (queued id ops) -> ok_note v.
Proof.
  intros F H. apply in_flat_map in H. destruct H as (o & Io & H). apply (proj1 (Forall_forall _ _) F) in Io. destruct o; try destruct H. cbn in H.
  destruct (_ =? id); [|destruct H]. destruct H as [<-|[]]. exact Io.
Qed.
Lemma u32_in z : in_u 4 (u32 z).
Proof. unfold u32, in_u. apply Z.mod_pos_bound. reflexivity. Qed.

Section Sub.
Variable e0 : bool.
Variable n0 k0 l0 : Z.
Hypothesis N0 : n0 < 2 ^ 31.
Notation run ops := (sb_run (A := note) (sub_init e0 n0 k0 l0) ops).
Lemma next_in ops : in_u 4 (sb_next (fst (run ops))).
Proof. destruct (numbers_run (A := note) e0 n0 k0 l0 ops) as [_ E]. rewrite E. apply u32_in. Qed.
Lemma max_run ops : Forall NotifySpec.ok_op ops -> sb_max_notif (fst (run ops)) < 2 ^ 31.
Proof.
  induction ops as [|o ops IH] using rev_ind; intros F; [exact N0|]. apply Forall_app in F. destruct F as [F1 F2]. inversion F2; subst.
  rewrite run_fst. apply max_step; [assumption|]. now apply IH.
Qed.
Lemma messages_ok ops m : Forall NotifySpec.ok_op ops -> In m (messages (snd (run ops))) -> in_u 4 (fst m) /\ ok_content (snd m).
Proof.
  intros F H. assert (in_u 4 (fst m) /\ len_ok (snd m)) as [A B].
  { revert F H. induction ops as [|o ops IH] using rev_ind; intros F H; [destruct H|]. apply Forall_app in F. destruct F as [F1 F2].
    rewrite run_snd, messages_cons in H. apply in_app_iff in H. destruct H as [H|H]; [now apply IH|]. apply built_step in H. destruct H as [E L].
    rewrite E. split; [apply next_in|]. pose proof (max_run ops F1). unfold len_ok. lia. }
  split; [exact A|]. split; [exact B|]. apply Forall_forall. intros [id v] I. cbn [snd]. apply (queued_ok id ops); [exact F|].
  pose proof (delivered_subseq (A := note) id e0 n0 k0 l0 ops) as S. cbv zeta in S. apply (in_subseq _ _ _ S). apply in_app_iff. left.
  unfold delivered. apply in_flat_map. exists m. split; [exact H|]. unfold of_item. apply (in_map snd _ (id, v)). apply filter_In. split; [exact I|]. apply Z.eqb_refl.
Qed.
Lemma avail_ok ops : Forall NotifySpec.ok_op ops -> ok_numbers (map fst (sb_retrans (fst (run ops)))).
Proof.
  intros F. split.
  - apply len_ok_map. pose proof (retrans_length (A := note) e0 n0 k0 l0 ops) as L. unfold len_ok. change (2 ^ 31) with 2147483648. unfold message in *. lia.
  - apply Forall_map. apply Forall_forall. intros m I. apply only_built in I. now apply (messages_ok ops).
Qed.
Lemma step_ok ops o : Forall NotifySpec.ok_op ops -> NotifySpec.ok_op o -> NotifySpec.ok_event (snd (sb_step (fst (run ops)) o)).
Proof.
  intros F O. assert (F' : Forall NotifySpec.ok_op (ops ++ [o])) by (apply Forall_app; split; [exact F|now constructor]).
  pose proof (avail_ok (ops ++ [o]) F') as AO. rewrite run_fst in AO.
  pose proof (advertised_step (fst (run ops)) o) as AS. destruct (snd (sb_step (fst (run ops)) o)) as [|m avail more|n avail|m| |n| |b|m| |] eqn:E; cbn [NotifySpec.ok_event]; try exact Logic.I.
  - specialize (AS avail eq_refl). rewrite <- AS in AO. destruct (messages_ok (ops ++ [o]) m F') as [X Y]; [|now split; [|split]].
    rewrite run_snd, messages_cons, E. apply in_app_iff. right. now left.
  - specialize (AS avail eq_refl). rewrite <- AS in AO. split; [|exact AO]. apply keepalive_step in E. rewrite E. apply next_in.
  - apply status_step in E. rewrite E. apply next_in.
  - apply republished_step in E. apply only_built in E. now apply (messages_ok ops).
Qed.
End Sub.

(** * The system *)
Section Net.
Variable handle : Z -> Z -> Z.
Variable uris far : list bytes.
Variable line : pipe.
Variable conf : Z -> terms.
Hypothesis HU : forall k id, in_u 4 (handle k id).
Hypothesis OP : ok_pipe line.
Hypothesis OT : forall k, ok_terms (conf k).
Notation next := (next handle uris far line).
Notation happens := (happens handle uris far line).
Notation write := (write handle uris line).
Notation hist := (history conf).

Definition understood (m : Z * bytes) (x : Z * told) : Prop :=
  fst m = fst x /\ exists name vals, client_receive far (snd m) = Ok (name, vals) [] /\ told_of name vals = Some (snd x).
Definition on_wire (s : net) (pending : list (Z * told)) : Prop :=
  exists ms, carried line (n_wire s) ms /\ Forall2 understood ms pending /\ map (arrival handle) (n_log s) = map some_told (n_told s ++ pending).
Record inv (l : list happening) (s : net) : Prop := {
  in_subs : forall k, n_subs s k = fst (hist k l);
  in_log : forall k, filter at_once (log_of k (n_log s)) = filter at_once (rev (snd (hist k l)));
  in_changes : forall k, flat_map status_of (log_of k (n_log s)) ++ changes_of k (n_changes s) = flat_map status_of (rev (snd (hist k l)));
  in_ok : Forall (fun x => in_u 4 (fst (fst x)) /\ in_u 4 (snd (fst x)) /\ ok_time (snd x)) (n_changes s);
  in_wire : exists pending, on_wire s pending }.

Lemma log_of_snoc k log j p e : log_of k (log ++ [(j, p, e)]) = log_of k log ++ (if j =? k then [e] else []).
Proof. unfold log_of. rewrite filter_app, map_app. cbn [filter fst]. destruct (j =? k); reflexivity. Qed.
Lemma quiet_event e : sends_it e = false -> at_once e = false /\ status_of e = [].
Proof. destruct e; try discriminate; auto. Qed.
Lemma quiet_write s k p e : sends_it e = false -> write s k p e = Some s.
Proof. unfold Notify.write. destruct e; try discriminate; reflexivity. Qed.

Lemma write_ok s k p e pending : in_u 4 k -> ok_slip p -> NotifySpec.ok_event e -> sends_it e = true -> on_wire s pending ->
  match write s k p e with
  | Some s' => n_subs s' = n_subs s /\ n_changes s' = n_changes s /\ n_log s' = n_log s ++ [(k, p, e)] /\ n_told s' = n_told s /\ exists q, on_wire s' q
  | None => exists body, transmit line (n_seq s) (sl_rid p) body = None
  end.
Proof.
  intros K P E S (ms & C & F & M). destruct (message_arrives (handle k) uris far k p e (HU k) K P E S) as (name & vals & body & a & O & Sd & Nb & Rc & To & Du).
  unfold Notify.write. rewrite O, Sd. destruct (transmit line (n_seq s) (sl_rid p) body) as [[bs seq]|] eqn:Tr; [|exists body; exact Tr].
  cbn [n_subs n_changes n_log n_told]. split; [reflexivity|]. split; [reflexivity|]. split; [reflexivity|]. split; [reflexivity|]. exists (pending ++ [(sl_rid p, a)]), (ms ++ [(sl_rid p, body)]). cbn [n_wire n_log n_told].
  assert (R : 0 <= sl_rid p < 2 ^ 32) by apply P.
  split; [apply carried_snoc; [exact C|]; exact (transmit_take _ _ _ _ _ _ OP R Nb Tr)|]. split.
  - apply Forall2_app; [exact F|]. constructor; [|constructor]. split; [reflexivity|]. exists name, (map norm vals). now split.
  - rewrite map_app, M, app_assoc, (map_app some_told (n_told s ++ pending)). cbn [map arrival]. unfold some_told at 3. cbn [fst snd]. now rewrite Du.
Qed.

Lemma hist_other k l x : ops_of k [x] = [] -> hist k (l ++ [x]) = hist k l.
Proof. intros E. unfold history, ops_of in *. rewrite flat_map_app, E, app_nil_r. reflexivity. Qed.
Lemma hist_op k l o p : hist k (l ++ [Does k o p]) = (fst (sb_step (fst (hist k l)) o), snd (sb_step (fst (hist k l)) o) :: snd (hist k l)).
Proof. unfold history, ops_of. rewrite flat_map_app. cbn [flat_map]. rewrite Z.eqb_refl. cbn [app]. rewrite run_snoc, step'_pair. reflexivity. Qed.
Lemma ops_ok k l : Forall ok_happening l -> Forall NotifySpec.ok_op (ops_of k l).
Proof.
  induction 1 as [|x l H _ IH]; [constructor|]. unfold ops_of. cbn [flat_map]. apply Forall_app. split; [|exact IH]. destruct x as [j o p|p|]; try constructor. destruct (j =? k); constructor; [apply H|constructor].
Qed.

Lemma take_empty : take_message line [] = None.
Proof. reflexivity. Qed.

(** One step: what is refused is refused for the stated reasons. *)
Notation stops := (stops line).
Lemma inv_step l s x : Forall ok_happening l -> ok_happening x -> inv l s ->
  match next s x with Some s' => inv (l ++ [x]) s' | None => stops s x end.
Proof.
  intros FL OX [I1 I2 I3 I4 [pend I5]]. destruct x as [k o p|p|]; cbn [Notify.next].
  - destruct OX as (OK & OO & OS). unfold do_op. pose proof (step_ok (te_enabled (conf k)) (te_notif (conf k)) (te_keep (conf k)) (te_life (conf k)) (OT k) (ops_of k l) o (ops_ok k l FL) OO) as EO. fold (hist k l) in EO.
    pose proof (hist_op k l o p) as HO. rewrite I1. destruct (sb_step (fst (hist k l)) o) as [sb e] eqn:ST. cbn [fst snd] in EO, HO.
    assert (HN : forall j, j <> k -> hist j (l ++ [Does k o p]) = hist j l).
    { intros j N. apply hist_other. cbn. destruct (Z.eqb_spec k j); [congruence|reflexivity]. }
    assert (US : forall j, upd_sub (n_subs s) k sb j = fst (hist j (l ++ [Does k o p]))).
    { intros j. unfold upd_sub. destruct (Z.eqb_spec j k) as [->|N]; [now rewrite HO|rewrite HN by exact N; apply I1]. }
    set (s1 := mkNet (upd_sub (n_subs s) k sb) (n_changes s) (n_wire s) (n_seq s) (n_log s) (n_told s)).
    assert (W1 : on_wire s1 pend) by exact I5.
    assert (G : at_once e = true -> match write s1 k p e with Some s' => inv (l ++ [Does k o p]) s' | None => stops s (Does k o p) end).
    { intros AT. assert (SE : sends_it e = true) by (destruct e; try discriminate AT; reflexivity). assert (SO : status_of e = []) by (destruct e; try discriminate AT; reflexivity).
      pose proof (write_ok s1 k p e pend OK OS EO SE W1) as W. destruct (write s1 k p e) as [s'|]; [|right; exact W].
      destruct W as (E1 & E2 & E3 & E4 & E5). constructor.
      - intros j. rewrite E1. apply US.
      - intros j. rewrite E3, log_of_snoc, filter_app. unfold s1 at 1. cbn [n_log]. rewrite I2. destruct (Z.eqb_spec k j) as [<-|N].
        + rewrite HO. cbn [snd rev]. rewrite filter_app. reflexivity.
        + rewrite HN by congruence. cbn [filter]. apply app_nil_r.
      - intros j. rewrite E2, E3, log_of_snoc, flat_map_app. unfold s1 at 1 2. cbn [n_changes n_log]. destruct (Z.eqb_spec k j) as [<-|N].
        + rewrite HO. cbn [snd rev]. rewrite flat_map_app. cbn [flat_map]. rewrite SO, !app_nil_r. apply I3.
        + rewrite HN by congruence. cbn [flat_map]. rewrite app_nil_r. apply I3.
      - rewrite E2. exact I4.
      - exact E5. }
    destruct (sends_it e) eqn:SE.
    + destruct e as [|m avail more|n avail|m| |n| |b|m| |]; try discriminate SE; try (exact (G eq_refl)). clear G.
      destruct (64 <=? List.length (n_changes s))%nat eqn:FU; [cbv iota; unfold NotifySpec.stops; left; now apply Nat.leb_le|]. constructor; cbn [n_subs n_changes n_log].
      * exact US.
      * intros j. rewrite I2. destruct (Z.eqb_spec j k) as [->|N]; [rewrite HO; cbn [snd rev]; rewrite filter_app; cbn [filter at_once]; now rewrite app_nil_r|now rewrite HN].
      * intros j. unfold changes_of. rewrite filter_app, map_app, app_assoc. fold (changes_of j (n_changes s)). rewrite I3. cbn [filter fst].
        destruct (Z.eqb_spec k j) as [<-|N]; [rewrite HO; cbn [snd rev]; rewrite flat_map_app; reflexivity|rewrite HN by congruence; apply app_nil_r].
      * apply Forall_app. split; [exact I4|]. constructor; [|constructor]. cbn [fst snd]. split; [exact OK|]. split; [exact EO|apply OS].
      * exists pend. exact I5.
    + assert (match e with EvStatusChange n => if (64 <=? List.length (n_changes s))%nat then None else Some (mkNet (n_subs s1) (n_changes s ++ [(k, n, sl_time p)]) (n_wire s) (n_seq s) (n_log s) (n_told s)) | _ => write s1 k p e end = Some s1) as ->.
      { rewrite quiet_write by exact SE. destruct e; try discriminate SE; reflexivity. }
      destruct (quiet_event _ SE) as [Q1 Q2]. constructor; cbn [n_subs n_changes n_log s1].
      * exact US.
      * intros j. rewrite I2. destruct (Z.eqb_spec j k) as [->|N]; [rewrite HO; cbn [snd rev]; rewrite filter_app; cbn [filter]; now rewrite Q1, app_nil_r|now rewrite HN].
      * intros j. rewrite I3. destruct (Z.eqb_spec j k) as [->|N]; [rewrite HO; cbn [snd rev]; rewrite flat_map_app; cbn [flat_map]; now rewrite Q2, !app_nil_r|now rewrite HN].
      * exact I4.
      * exists pend. exact I5.
  - assert (HN : forall j, hist j (l ++ [Asks p]) = hist j l) by (intros j; now apply hist_other).
    unfold ask. destruct (n_changes s) as [|[[k n] t] r] eqn:CH; [cbv iota; unfold NotifySpec.stops; left; exact CH|]. inversion I4 as [|? ? [O1 [O2 O3]] I4']; subst. cbn [fst snd] in O1, O2, O3.
    set (s1 := mkNet (n_subs s) r (n_wire s) (n_seq s) (n_log s) (n_told s)). set (p' := mkSlip _ _ _ _ _).
    assert (W1 : on_wire s1 pend) by exact I5. cbn [ok_happening] in OX.
    assert (OS : ok_slip p'). { destruct OX as (X1 & X2 & X3 & X4 & X5). exact (conj X1 (conj X2 (conj X3 (conj O3 X5)))). }
    pose proof (write_ok s1 k p' (EvStatusChange n) pend O1 OS O2 eq_refl W1) as W. destruct (write s1 k p' _) as [s'|]; [|right; exact W].
    destruct W as (E1 & E2 & E3 & E4 & E5). constructor.
    + intros j. rewrite E1, HN. apply I1.
    + intros j. rewrite E3, log_of_snoc, filter_app, HN. cbn [n_log s1]. rewrite I2. destruct (k =? j); apply app_nil_r.
    + intros j. rewrite E2, E3, log_of_snoc, flat_map_app, HN, <- I3. cbn [n_changes n_log s1]. rewrite <- app_assoc. f_equal. unfold changes_of. cbn [filter fst].
      destruct (k =? j); reflexivity.
    + rewrite E2. exact I4'.
    + exact E5.
  - assert (HN : forall j, hist j (l ++ [Takes]) = hist j l) by (intros j; now apply hist_other).
    unfold take_told. destruct I5 as (ms & C & F & M). destruct F as [|[rid body] [rid' a] ms pend U F].
    + rewrite (carried_none _ _ C). cbn [NotifySpec.stops]. inversion C. reflexivity.
    + destruct (carried_take _ _ _ _ _ C) as (rest & Tk & C'). rewrite Tk. destruct U as (EQ & name & vals & Rc & To). cbn [fst snd] in EQ, Rc, To. subst rid'. rewrite Rc, To.
      constructor; cbn [n_subs n_changes n_log]; try (intros j; rewrite HN); auto.
      exists pend, ms. cbn [n_wire n_log n_told]. split; [exact C'|]. split; [exact F|]. rewrite <- app_assoc. exact M.
Qed.
Lemma inv_begin : inv [] (begin_net conf).
Proof.
  constructor; try (intros k; reflexivity); [constructor|]. exists []. exists []. split; [constructor|]. split; [constructor|reflexivity].
Qed.
Lemma happens_snoc l : forall s x, happens s (l ++ [x]) = match happens s l with Some s' => next s' x | None => None end.
Proof. induction l as [|y l IH]; intros s x; cbn [app Notify.happens]; [destruct (next s x); reflexivity|]. destruct (next s y); [apply IH|reflexivity]. Qed.
Lemma inv_run l s : Forall ok_happening l -> happens (begin_net conf) l = Some s -> inv l s.
Proof.
  revert s. induction l as [|x l IH] using rev_ind; intros s F H; [injection H as <-; exact inv_begin|].
  apply Forall_app in F. destruct F as [F1 F2]. inversion F2; subst. rewrite happens_snoc in H. destruct (happens (begin_net conf) l) as [s0|] eqn:E; [|discriminate].
  pose proof (inv_step l s0 x F1 ltac:(assumption) (IH s0 F1 eq_refl)) as S. rewrite H in S. exact S.
Qed.
End Net.
