(** Runs of the server's functions for given outcomes of the conditions, and the races they lead to. *)
From Coq Require Import ZArith String List Bool Lia Arith.
From Verif Require Import Flow Mutex Race RaceTable HandlersAnalysis MutexSpec MutexProofs MutexLemmas RaceSpec RaceProofs.
Import ListNotations.

(** every kind of structure stands for one *)
Definition xthe (o : aop) : xop :=
  match o with
  | L o => XL (the o)
  | Rd v c f => XRd v (c, 0%Z) f
  | Wr v c f => XWr v (c, 0%Z) f
  end.

Definition xwork (root : string) (cs : list bool) : list xop :=
  match find (fun r => String.eqb (fst r) root) RaceTable.roots with
  | Some (_, p) => match drive 2000 p cs with Some (t, _, _) => map xthe (aops_of t) | None => [] end
  | None => []
  end.

Definition xdriven (root : string) (cs : list bool) : bool :=
  match find (fun r => String.eqb (fst r) root) RaceTable.roots with
  | Some (_, p) => match drive 2000 p cs with Some _ => true | None => false end
  | None => false
  end.

Lemma xkind_xthe ks : map xkind (map xthe ks) = ks.
Proof.
  rewrite map_map. rewrite <- (map_id ks) at 2. apply map_ext. intros [[m c|m c|w]|v c f|v c f]; reflexivity.
Qed.

Lemma bare_xthe ks : exists ls, map bare (map xthe ks) = map the ls.
Proof.
  induction ks as [|k ks (ls & E)]; [now exists []|]. cbn [map]. rewrite E.
  destruct k as [o|v c f|v c f]; cbn [xthe bare]; [exists (o :: ls)|exists (Wt "access" :: ls)|exists (Wt "access" :: ls)]; reflexivity.
Qed.

Lemma located_xthe ks : forall held, (forall n k, In (n, k) held -> snd k = 0%Z) -> located held (map xthe ks).
Proof.
  induction ks as [|[o|v c f|v c f] ks IH]; intros held Z; cbn [map xthe located]; [exact I| | |].
  - apply IH. intros n k H. destruct o as [m c|m c|w]; cbn in H.
    + destruct H as [[= <- <-]|H]; [reflexivity|eauto].
    + apply RaceProofs.remove1_in in H. eauto.
    + eauto.
  - split; [|auto]. intros d b m k a _ E _ _. cbn. apply (Z m k). rewrite E. apply in_elt.
  - split; [|auto]. intros d b m k a _ E _ _. cbn. apply (Z m k). rewrite E. apply in_elt.
Qed.

Lemma xdriven_thread root cs : xdriven root cs = true -> thread_with_data root (xwork root cs).
Proof.
  unfold xdriven, xwork. destruct (find _ RaceTable.roots) as [[r p]|] eqn:F; [|discriminate].
  destruct (drive 2000 p cs) as [[[t x] cs']|] eqn:D; [|discriminate]. intros _.
  apply find_some in F as [I1 E]. cbn [fst] in E. apply String.eqb_eq in E. subst r. split; [|split].
  - exists p, t, x. split; [exact I1|]. split; [eapply drive_run; exact D|]. symmetry. apply xkind_xthe.
  - destruct (bare_xthe (aops_of t)) as (ls & ->). apply paired_the. intros n k [].
  - apply located_xthe. intros n k [].
Qed.

(** ** Two threads, each alone for some steps *)
Definition state_of (w1 w2 : list xop) (schedule : list nat) : option (thread * thread) :=
  match execute (map fresh [map bare w1; map bare w2]) schedule with
  | Some [a; b] => Some (a, b)
  | _ => None
  end.

Definition wr_at (c : cls) (f : string) (w : list xop) (t : thread) : bool :=
  match next w t with
  | Some (XWr _ s f') => (if lock_eq_dec s (c, 0%Z) then true else false) && String.eqb f' f
  | _ => false
  end.

Definition acc_at (c : cls) (f : string) (w : list xop) (t : thread) : bool :=
  match next w t with
  | Some (XWr _ s f' | XRd _ s f') => (if lock_eq_dec s (c, 0%Z) then true else false) && String.eqb f' f
  | _ => false
  end.

Definition heldb (h : list (mode * lock)) (t : thread) : bool := if list_eq_dec hold_eq_dec (th_held t) h then true else false.

Lemma wr_at_writes c f w t : wr_at c f w t = true -> exists x, next w t = Some x /\ writes x (c, 0%Z) f.
Proof.
  unfold wr_at. destruct (next w t) as [[o|v s f'|v s f']|]; try discriminate.
  destruct (lock_eq_dec s (c, 0%Z)) as [->|]; [|discriminate]. cbn. intros E. apply String.eqb_eq in E. subst f'.
  eexists. split; [reflexivity|]. now exists v.
Qed.

Lemma acc_at_accesses c f w t : acc_at c f w t = true -> exists x, next w t = Some x /\ accesses x (c, 0%Z) f.
Proof.
  unfold acc_at. destruct (next w t) as [[o|v s f'|v s f']|]; try discriminate;
  (destruct (lock_eq_dec s (c, 0%Z)) as [->|]; [|discriminate]; cbn; intros E; apply String.eqb_eq in E; subst f';
   eexists; split; [reflexivity|]); [right|left]; now exists v.
Qed.

Lemma holdb_holding h t : heldb h t = true -> holding t h.
Proof. unfold heldb, holding. destruct (list_eq_dec _ _ _); [auto|discriminate]. Qed.

Definition found (r1 r2 : string) (c : cls) (f : string) (h1 h2 : list (mode * lock)) (c1 c2 : list bool) (schedule : list nat) : bool :=
  xdriven r1 c1 && xdriven r2 c2 &&
  match state_of (xwork r1 c1) (xwork r2 c2) schedule with
  | Some (a, b) => wr_at c f (xwork r1 c1) a && acc_at c f (xwork r2 c2) b && heldb h1 a && heldb h2 b
  | None => false
  end.

Lemma state_of_comes w1 w2 schedule a b : state_of w1 w2 schedule = Some (a, b) -> comes_to [w1; w2] [a; b].
Proof.
  unfold state_of. destruct (execute _ schedule) as [[|x [|y [|]]]|] eqn:X; try discriminate. intros [= <- <-].
  exists schedule. exact X.
Qed.

Lemma found_race r1 r2 c f h1 h2 c1 c2 schedule : found r1 r2 c f h1 h2 c1 c2 schedule = true -> race_of r1 r2 c f h1 h2.
Proof.
  unfold found. rewrite !andb_true_iff. intros [[D1 D2] S].
  destruct (state_of _ _ schedule) as [[a b]|] eqn:St; [|discriminate S].
  rewrite !andb_true_iff in S. destruct S as [[[W A] H1] H2].
  exists (xwork r1 c1), (xwork r2 c2), a, b. repeat split; try (now apply xdriven_thread); auto using holdb_holding.
  - eapply state_of_comes; eauto.
  - destruct (wr_at_writes _ _ _ _ W) as (x & Nx & Wx). destruct (acc_at_accesses _ _ _ _ A) as (y & Ny & Ay).
    exists 0%nat, 1%nat, (xwork r1 c1), (xwork r2 c2), a, b, x, y. cbn [nth_error]. repeat split; auto.
Qed.

Definition both (r1 r2 : string) (c : cls) (f : string) (c1 c2 : list bool) (schedule : list nat) : bool :=
  xdriven r1 c1 && xdriven r2 c2 &&
  match state_of (xwork r1 c1) (xwork r2 c2) schedule with
  | Some (a, b) => wr_at c f (xwork r1 c1) a && wr_at c f (xwork r2 c2) b
  | None => false
  end.

Lemma both_lost r1 r2 c f c1 c2 schedule : both r1 r2 c f c1 c2 schedule = true -> lost_update r1 r2 c f.
Proof.
  unfold both. rewrite !andb_true_iff. intros [[D1 D2] S].
  destruct (state_of _ _ schedule) as [[a b]|] eqn:St; [|discriminate S].
  rewrite !andb_true_iff in S. destruct S as [W A].
  destruct (wr_at_writes _ _ _ _ W) as (x & Nx & vx & ->). destruct (wr_at_writes _ _ _ _ A) as (y & Ny & vy & ->).
  exists (xwork r1 c1), (xwork r2 c2), a, b, vx, vy. repeat split; try (now apply xdriven_thread); auto.
  eapply state_of_comes; eauto.
Qed.

(** ** The races *)
Lemma race_subs_by_id : (race_of "Server.handleConnection" "Server.handleRead.task1" KSubscriptionManager "subscriptionsByID"
  [(Ex, (KSubscriptionManager, 0%Z))] [])%string.
Proof.
  apply (found_race _ _ _ _ _ _
    [true;true;false;true;true;true;false;false;false;false;false;false;false;false;false;true;false;false;true;false;false;false;false]
    [false;false;false;false;true;true;false;true;true;false;true;false;true;false;false;false;false;false;true;false]
    (repeat 0 25 ++ repeat 1 10)%nat).
  vm_compute. reflexivity.
Qed.

Lemma race_nodes : (race_of "NamespaceManager.AddNodes" "NamespaceManager.GetChildren" KNamespaceManager "nodes"
  [(Ex, (KNamespaceManager, 0%Z))] [])%string.
Proof.
  apply (found_race _ _ _ _ _ _
    [true]
    [true;false;true;true;true]
    (repeat 0 2 ++ repeat 1 3)%nat).
  vm_compute. reflexivity.
Qed.

Lemma race_retransmission : (race_of "Server.handleConnection" "Subscription.startPublishing.go1" KSubscription "retransmissionQueue"
  [] [(Ex, (KSubscription, 0%Z))])%string.
Proof.
  apply (found_race _ _ _ _ _ _
    [true;true;false;true;true;true;false;false;true;false;false;true;false;false;false;false;true;true;true;true;false;true;false]
    [true;false;true;false;false;true;false;false;false;true]
    (repeat 0 33 ++ repeat 1 6)%nat).
  vm_compute. reflexivity.
Qed.

Lemma race_items : (race_of "Server.handleConnection" "Server.handleRead.task1" KSubscription "items"
  [(Ex, (KSubscription, 0%Z))] [])%string.
Proof.
  apply (found_race _ _ _ _ _ _
    [true;true;false;true;true;true;false;false;false;false;false;false;false;false;false;false;false;false;true;false;false;true;false;false;false;false;true;true;false;true]
    [false;false;false;false;true;true;false;true;true;false;true;false;true;false;false;false;false;false;false;true;false;true]
    (repeat 0 33 ++ repeat 1 13)%nat).
  vm_compute. reflexivity.
Qed.

Lemma race_session : (race_of "NewSubscriptionManager.go1" "PollGroup.run" KSubscription "session"
  [(Ex, (KSubscription, 0%Z)); (Ex, (KSubscriptionManager, 0%Z))] [(Ex, (KDataItem, 0%Z))])%string.
Proof.
  apply (found_race _ _ _ _ _ _
    [true;true;true;true;false;false;false]
    [true;false;true;false;true;true]
    (repeat 0 15 ++ repeat 1 8)%nat).
  vm_compute. reflexivity.
Qed.

Lemma race_disabled : (lost_update "Server.handleConnection" "Server.handleConnection" KSubscription "disabledMonitoredItemCount")%string.
Proof.
  apply (both_lost _ _ _ _
    [true;true;false;true;true;true;false;false;false;false;false;false;false;false;false;false;false;false;false;false;false;true;false;false;true;false;false;false;false;false;false;true;true;true;false;true;false]
    [true;true;false;true;true;true;false;false;false;false;false;false;false;false;false;false;false;false;false;false;false;true;false;false;true;false;false;false;false;false;false;true;true;false;false;false;false]
    (repeat 0 50 ++ repeat 1 36)%nat).
  vm_compute. reflexivity.
Qed.

Lemma race_overflow : (lost_update "Subscription.startPublishing.go1" "NamespaceManager.OnEvent" KSubscription "monitoringQueueOverflowCount")%string.
Proof.
  apply (both_lost _ _ _ _
    [true;false;true;true;true;false;false;true;true;true;false;true]
    [false;true;false;true;false;true]
    (repeat 0 21 ++ repeat 1 12)%nat).
  vm_compute. reflexivity.
Qed.

Lemma race_request_count : (lost_update "Server.handleConnection" "Server.handleConnection" KSession "requestCount")%string.
Proof.
  apply (both_lost _ _ _ _
    [true;true;false;true;true;true;false;true;false;false;true;false]
    [true;true;false;true;true;true;false;true;false;false;true;false]
    (repeat 0 14 ++ repeat 1 14)%nat).
  vm_compute. reflexivity.
Qed.

Lemma race_identity : (race_of "Server.handleConnection" "Server.handleRead.task1" KSession "userIdentity"
  [(Ex, (KSession, 0%Z)); (Ex, (KSessionManager, 0%Z))] [])%string.
Proof.
  apply (found_race _ _ _ _ _ _
    [true;true;false;true;true;true;false;true;false;false;true;false;true;false]
    [false;false;false;false]
    (repeat 0 26 ++ repeat 1 5)%nat).
  vm_compute. reflexivity.
Qed.

Lemma race_locales : (race_of "Server.handleConnection" "Server.handleRead.task1" KSession "localeIds"
  [] [])%string.
Proof.
  apply (found_race _ _ _ _ _ _
    [true;true;false;true;true;true;false;false;false;false;false;false;false;false;false;false;false;false;false;false;false;false;false;false;false;true;false;false;true;false;true;false;true;false;true;false;false]
    [false;false;false;false;true;true;false;true;true;false;true;false;true;false;false;false;false;false;false;false;true]
    (repeat 0 43 ++ repeat 1 10)%nat).
  vm_compute. reflexivity.
Qed.

Lemma race_endpoints : (race_of "Server.Endpoints" "Server.Endpoints" KServer "endpoints"
  [(Sh, (KServer, 0%Z))] [(Sh, (KServer, 0%Z))])%string.
Proof.
  apply (found_race _ _ _ _ _ _
    [true;false;false;false]
    [true;false;false;false]
    (repeat 0 2 ++ repeat 1 2)%nat).
  vm_compute. reflexivity.
Qed.

Lemma race_state : (race_of "Server.Close" "Server.handleRead.task1" KServer "state"
  [(Ex, (KServer, 0%Z))] [])%string.
Proof.
  apply (found_race _ _ _ _ _ _
    [false]
    [false;false;false;false;true;true;false;true;true;false;true;false;true;false;false;true]
    (repeat 1 10 ++ repeat 0 3)%nat).
  vm_compute. reflexivity.
Qed.

Lemma race_summary : (lost_update "Server.handleConnection" "Server.handleConnection" KServer "serverDiagnosticsSummary")%string.
Proof.
  apply (both_lost _ _ _ _
    [true;true;false;true;true;true;false;true;true]
    [true;true;false;true;true;true;false;true;true]
    (repeat 0 6 ++ repeat 1 6)%nat).
  vm_compute. reflexivity.
Qed.

Lemma race_sampling : (race_of "Server.handleConnection" "Server.handleConnection" KDataItem "samplingInterval"
  [(Ex, (KDataItem, 0%Z))] [])%string.
Proof.
  apply (found_race _ _ _ _ _ _
    [true;true;false;true;true;true;false;false;false;false;false;false;false;false;false;false;false;false;false;false;true;false;false;true;false;false;false;false;false;false;false;true;true;false;false;false;true;true;false;false;false]
    [true;true;false;true;true;true;false;false;false;false;false;false;false;false;false;false;false;false;false;false;false;true;false;false;true;false;false;false;false;false;false;true;true;true;false]
    (repeat 1 35 ++ repeat 0 54)%nat).
  vm_compute. reflexivity.
Qed.

Lemma race_method_handler : (race_of "MethodNode.SetCallMethodHandler" "Server.handleCall.task1" KMethodNode "callMethodHandler"
  [(Ex, (KMethodNode, 0%Z))] [])%string.
Proof.
  apply (found_race _ _ _ _ _ _
    []
    [false;true;true;false;true;false;true;true;false;true;true;false]
    (repeat 0 2 ++ repeat 1 19)%nat).
  vm_compute. reflexivity.
Qed.

Lemma race_read_handler : (race_of "VariableNode.SetReadValueHandler" "Server.handleRead.task1" KVariableNode "readValueHandler"
  [(Ex, (KVariableNode, 0%Z))] [])%string.
Proof.
  apply (found_race _ _ _ _ _ _
    []
    [false;false;false;false;true;true;false;true;true;false;true;false]
    (repeat 0 2 ++ repeat 1 9)%nat).
  vm_compute. reflexivity.
Qed.

Lemma race_token : (race_of "Server.handleConnection" "Subscription.startPublishing.go1" KChannel "tokenID"
  [(Ex, (KReceiving, 0%Z))] [(Ex, (KSending, 0%Z)); (Ex, (KSubscription, 0%Z))])%string.
Proof.
  apply (found_race _ _ _ _ _ _
    [true;true;false;true;true;false;true;false;false;false;false;false;false;true;false;false;false;false;false;true;false]
    [true;false;true;false;true;false;true;true;true;false;true;false;false;false;false;false;true;false;false;false;false]
    (repeat 0 6 ++ repeat 1 8)%nat).
  vm_compute. reflexivity.
Qed.

Lemma race_cancel : (race_of "Server.handleConnection" "NewSubscriptionManager.go1" KSubscription "cancelPublishing"
  [] [(Sh, (KSubscriptionManager, 0%Z))])%string.
Proof.
  apply (found_race _ _ _ _ _ _
    [true;true;false;true;true;true;false;false;false;false;false;false;false;false;false;true;false;false;true;false;false;false;true;false]
    [true;false;true;true]
    (repeat 0 26 ++ repeat 1 4)%nat).
  vm_compute. reflexivity.
Qed.

(** ** Every protected field is written by some thread *)
Definition writers : list (cls * string * string * list bool) :=
  [(KDataItem, "clientHandle", "DataChangeMonitoredItem.Modify", [true]);
   (KDataItem, "dataChangeFilter", "DataChangeMonitoredItem.Modify", [true;false;false;false]);
   (KDataItem, "discardOldest", "DataChangeMonitoredItem.Modify", [true]);
   (KDataItem, "monitoringMode", "DataChangeMonitoredItem.SetMonitoringMode", [false;true]);
   (KDataItem, "prequeue", "DataChangeMonitoredItem.Delete", [true]);
   (KDataItem, "previousQueuedValue", "DataChangeMonitoredItem.Delete", [true]);
   (KDataItem, "queue", "DataChangeMonitoredItem.Delete", [true]);
   (KDataItem, "queueSize", "DataChangeMonitoredItem.Modify", [true]);
   (KDataItem, "sub", "DataChangeMonitoredItem.Delete", [true]);
   (KDataItem, "ti", "DataChangeMonitoredItem.Modify", [true;false;false;false]);
   (KDataItem, "triggered", "DataChangeMonitoredItem.SetTriggered", []);
   (KDataItem, "triggeredItems", "DataChangeMonitoredItem.AddTriggeredItem", []);
   (KDataItem, "ts", "DataChangeMonitoredItem.SetMonitoringMode", [false;true;false]);
   (KDataTypeNode, "references", "DataTypeNode.SetReferences", []);
   (KEventItem, "clientHandle", "EventMonitoredItem.Modify", [false]);
   (KEventItem, "discardOldest", "EventMonitoredItem.Modify", [false]);
   (KEventItem, "eventFilter", "EventMonitoredItem.Modify", [false;false]);
   (KEventItem, "monitoringMode", "EventMonitoredItem.SetMonitoringMode", [false;false]);
   (KEventItem, "queue", "EventMonitoredItem.Delete", [false]);
   (KEventItem, "queueSize", "EventMonitoredItem.Modify", [false]);
   (KEventItem, "samplingInterval", "EventMonitoredItem.Modify", [false;false]);
   (KEventItem, "sub", "EventMonitoredItem.Delete", [false]);
   (KEventItem, "triggered", "EventMonitoredItem.SetTriggered", []);
   (KEventItem, "triggeredItems", "EventMonitoredItem.AddTriggeredItem", []);
   (KMethodNode, "references", "MethodNode.SetReferences", []);
   (KNamespaceManager, "namespaces", "NamespaceManager.Add", [false]);
   (KNamespaceManager, "variantTypeMap", "NamespaceManager.FindVariantType", [true;true]);
   (KObjectNode, "references", "ObjectNode.SetReferences", []);
   (KObjectNode, "subs", "ObjectNode.AddEventListener", []);
   (KObjectTypeNode, "references", "ObjectTypeNode.SetReferences", []);
   (KPollGroup, "subs", "PollGroup.Subscribe", []);
   (KReferenceTypeNode, "references", "ReferenceTypeNode.SetReferences", []);
   (KScheduler, "tickers", "Scheduler.GetPollGroup", [false]);
   (KSession, "browseCPs", "SessionManager.Delete", [false;false]);
   (KSession, "channelId", "Session.SetSecureChannelId", []);
   (KSession, "clientCertificate", "SessionManager.Delete", [false]);
   (KSession, "historyCPs", "SessionManager.Delete", [false;false;false]);
   (KSession, "securityMode", "Session.SetSecurityMode", []);
   (KSession, "securityPolicyURI", "Session.SetSecurityPolicyURI", []);
   (KSessionManager, "sessionsByToken", "SessionManager.Delete", []);
   (KSubscription, "isLate", "Subscription.startPublishing.go1", [true;false;true;false;true;false;false;false;false]);
   (KSubscription, "moreNotifications", "Subscription.startPublishing.go1", [true;false;true;false;true;false;false;false;true;false;false;false;true;false;true;false]);
   (KSubscription, "resend", "Subscription.startPublishing.go1", [true;false;true;false]);
   (KVariableNode, "historizing", "VariableNode.SetHistorizing", []);
   (KVariableNode, "references", "VariableNode.SetReferences", []);
   (KVariableNode, "value", "VariableNode.SetValue", []);
   (KVariableTypeNode, "references", "VariableTypeNode.SetReferences", []);
   (KViewNode, "references", "ViewNode.SetReferences", []);
   (KChannel, "localEncryptingKey", "Server.handleConnection", [true;true;false;true;true;false;true;false;false;false;false;false;false;true;false;false;false;false;false;true;false;false;true]);
   (KChannel, "localInitializationVector", "Server.handleConnection", [true;true;false;true;true;false;true;false;false;false;false;false;false;true;false;false;false;false;false;true;false;false;true]);
   (KChannel, "localSigningKey", "Server.handleConnection", [true;true;false;true;true;false;true;false;false;false;false;false;false;true;false;false;false;false;false;true;false;false;true]);
   (KChannel, "remoteEncryptingKey", "Server.handleConnection", [true;true;false;true;true;false;true;false;false;false;false;false;false;true;false;false;false;false;false;true;false;true]);
   (KChannel, "remoteInitializationVector", "Server.handleConnection", [true;true;false;true;true;false;true;false;false;false;false;false;false;true;false;false;false;false;false;true;false;true]);
   (KChannel, "remoteSigningKey", "Server.handleConnection", [true;true;false;true;true;false;true;false;false;false;false;false;false;true;false;false;false;false;false;true;false;true]);
   (KChannel, "symDecryptingBlockCipher", "Server.handleConnection", [true;true;false;true;true;false;true;false;false;false;false;false;false;true;false;false;false;false;false;true;false;true;true;true]);
   (KChannel, "symEncryptingBlockCipher", "Server.handleConnection", [true;true;false;true;true;false;true;false;false;false;false;false;false;true;false;false;false;false;false;true;false;false;true;true;true]);
   (KChannel, "symSignHMAC", "serverSecureChannel.Write", [false;true;false;false;false;false;false;true;false;false;false;false;false;false;false;false;false;false;true]);
   (KChannel, "symVerifyHMAC", "Server.handleConnection", [true;true;false;true;true;false;true;false;false;false;false;false;false;true;false;false;false;false;false;false;false;true])]%string.

Definition writes_it (c : cls) (f : string) (ops : list xop) : bool :=
  existsb (fun x => match x with XWr _ s f' => cls_eqb (fst s) c && String.eqb f' f | _ => false end) ops.

Definition writer_ok (w : cls * string * string * list bool) : bool :=
  match w with (c, f, r, cs) => xdriven r cs && writes_it c f (xwork r cs) end.

Definition has_writer (c : cls) (f : string) : bool :=
  existsb (fun w => match w with (c', f', _, _) => cls_eqb c' c && String.eqb f' f end) writers.

Lemma writers_ok : forallb writer_ok writers = true.
Proof. vm_compute. reflexivity. Qed.

Lemma guarded_have_writers : forallb (fun p => forallb (has_writer (fst (fst p))) (snd p)) guarded = true.
Proof. vm_compute. reflexivity. Qed.

Lemma all_written c f g : guard c f g -> written c f.
Proof.
  intros (fs & I1 & I2). pose proof guarded_have_writers as H. rewrite forallb_forall in H. specialize (H _ I1).
  rewrite forallb_forall in H. specialize (H _ I2). cbn [fst] in H.
  apply existsb_exists in H as ([[[c' f'] r] cs] & I3 & E). apply andb_true_iff in E as [E1 E2].
  apply cls_eqb_eq in E1. apply String.eqb_eq in E2. subst c' f'.
  pose proof writers_ok as W. rewrite forallb_forall in W. specialize (W _ I3). unfold writer_ok in W.
  apply andb_true_iff in W as [W1 W2]. apply existsb_exists in W2 as (x & Ix & Ex).
  destruct x as [o|v s f'|v s f']; try discriminate Ex. apply andb_true_iff in Ex as [X1 X2].
  apply cls_eqb_eq in X1. apply String.eqb_eq in X2. subst f'.
  exists (xwork r cs), v, s. repeat split; [|exact Ix|exact X1]. exists r. now apply xdriven_thread.
Qed.

(** ** Cases that meet the hypotheses of the theorems *)
(** Two threads set the value of the same variable: the first is about to write it with the lock held, the second
    waits for the lock. *)
Definition setter : list xop := xwork "VariableNode.SetValue" [].

Example setters_meet_hypotheses : exists a b, (forall ops, In ops [setter; setter] -> data_thread ops) /\
  comes_to [setter; setter] [a; b] /\ next setter a = Some (XWr [KVariableNode] (KVariableNode, 0%Z) "value") /\
  guard KVariableNode "value" KVariableNode /\ In (Ex, (KVariableNode, 0%Z)) (th_held a) /\
  next setter b = Some (XL (OLk Ex (KVariableNode, 0%Z))) /\ step [a; b] 1 = None.
Proof.
  assert (D : data_thread setter) by (exists "VariableNode.SetValue"%string; apply xdriven_thread; vm_compute; reflexivity).
  destruct (state_of setter setter (repeat 0 2)%nat) as [[a b]|] eqn:St; [|vm_compute in St; discriminate St].
  exists a, b. split; [intros ops [<-|[<-|[]]]; exact D|]. split; [eapply state_of_comes; exact St|].
  vm_compute in St. injection St as <- <-. repeat split; try (vm_compute; reflexivity).
  - exists ["historizing"; "references"; "value"]%string. split; [|right; right; left; reflexivity].
    unfold guarded. repeat (try (left; reflexivity); right).
  - left. reflexivity.
Qed.
