(** The lemmas behind NotifyProperties.v, and examples. *)
From Coq Require Import ZArith List Bool Lia String Strings.Byte.
From Verif Require Import Bytes CodecSpec BytesProofs Prim PrimSpec Value ValueSpec Registry Chunk ChunkSpec ChunkLemmas
  Messages IndexRange NodeAccess DataPath MonQueue Subscription SubscriptionSpec SubscriptionProofs SubDeliveryProofs
  Roles Nodes AccessLemmas DataPathLemmas Stack StackSpec StackProofs StackLemmas StackNumProofs Notify NotifySpec NotifyProofs.
Import ListNotations.
Open Scope Z_scope.
Ltac Zify.zify_post_hook ::= idtac.

Section Net.
Variable handle : Z -> Z -> Z.
Variable uris far : list bytes.
Variable line : pipe.
Variable conf : Z -> terms.
Hypothesis HU : forall k id, in_u 4 (handle k id).
Hypothesis OP : ok_pipe line.
Hypothesis OT : forall k, ok_terms (conf k).
Notation next := (next handle uris far line).
Notation happens := (happens handle uris far line).
Notation hist := (history conf).

Lemma drain pending : forall s, on_wire handle far line s pending ->
  exists s', happens s (repeat Takes (List.length pending)) = Some s' /\ n_told s' = n_told s ++ pending /\ n_wire s' = [] /\ n_subs s' = n_subs s /\ n_log s' = n_log s.
Proof.
  induction pending as [|[rid a] pending IH]; intros s (ms & C & F & M).
  - inversion F; subst. exists s. split; [reflexivity|]. rewrite app_nil_r. split; [reflexivity|]. split; [|now split]. inversion C. reflexivity.
  - inversion F as [|[r body] ? ms' ? U F']; subst. destruct (carried_take _ _ _ _ _ C) as (rest & Tk & C'). destruct U as (EQ & name & vals & Rc & To). cbn [fst snd] in EQ, Rc, To. subst r.
    cbn [List.length repeat Notify.happens Notify.next]. unfold take_told. rewrite Tk, Rc, To.
    set (s1 := mkNet _ _ _ _ _ _). destruct (IH s1) as (s' & H1 & H2 & H3 & H4 & H5).
    { exists ms'. split; [exact C'|]. split; [exact F'|]. unfold s1. cbn [n_log n_told]. rewrite <- app_assoc. exact M. }
    exists s'. split; [exact H1|]. unfold s1 in H2, H4, H5. cbn [n_told n_subs n_log] in *. rewrite <- app_assoc in H2. auto.
Qed.
Lemma stream l s : Forall ok_happening l -> happens (begin_net conf) l = Some s ->
  exists rest, map (arrival handle) (n_log s) = map some_told (n_told s ++ rest) /\
    exists s', happens s (repeat Takes (List.length rest)) = Some s' /\ n_told s' = n_told s ++ rest /\ n_wire s' = [] /\ n_subs s' = n_subs s.
Proof.
  intros F H. destruct (in_wire _ _ _ _ _ _ (inv_run handle uris far line conf HU OP OT l s F H)) as (rest & W). exists rest. destruct (drain rest s W) as (s' & A & B & C & D & _).
  split; [destruct W as (ms & _ & _ & M); exact M|]. exists s'. auto.
Qed.
Lemma written l s k : Forall ok_happening l -> happens (begin_net conf) l = Some s ->
  n_subs s k = fst (hist k l) /\
  filter at_once (log_of k (n_log s)) = filter at_once (rev (snd (hist k l))) /\
  flat_map status_of (log_of k (n_log s)) ++ changes_of k (n_changes s) = flat_map status_of (rev (snd (hist k l))).
Proof. intros F H. destruct (inv_run handle uris far line conf HU OP OT l s F H) as [A B C _ _]. auto. Qed.
Lemma only_refused l s x : Forall ok_happening l -> ok_happening x -> happens (begin_net conf) l = Some s -> next s x = None -> stops line s x.
Proof. intros F O H N. pose proof (inv_step handle uris far line conf HU OP OT l s x F O (inv_run handle uris far line conf HU OP OT l s F H)) as S. now rewrite N in S. Qed.

(** ** Values of an item *)
Lemma data_in_app a b : data_in (a ++ b) = data_in a ++ data_in b. Proof. apply flat_map_app. Qed.
Lemma events_in_app a b : events_in (a ++ b) = events_in a ++ events_in b. Proof. apply flat_map_app. Qed.
Section Item.
Variable k id : Z.
Hypothesis OH : own_handle handle k id.
Lemma pick_data c : map snd (filter (fun y => fst y =? handle k id) (data_notes (handle k) c)) = data_in (of_item id c).
Proof.
  induction c as [|[j [d|fs]] c IH]; [reflexivity| |]; unfold data_notes, of_item in *; cbn [flat_map filter fst snd app].
  - destruct (Z.eqb_spec (handle k j) (handle k id)) as [E|E].
    + rewrite (OH j E), Z.eqb_refl. cbn [map snd]. unfold data_in. cbn [flat_map app]. f_equal. exact IH.
    + destruct (Z.eqb_spec j id) as [->|N]; [congruence|exact IH].
  - destruct (j =? id); [|exact IH]. cbn [map snd]. exact IH.
Qed.
Lemma pick_events c : map snd (filter (fun y => fst y =? handle k id) (event_notes (handle k) c)) = events_in (of_item id c).
Proof.
  induction c as [|[j [d|fs]] c IH]; [reflexivity| |]; unfold event_notes, of_item in *; cbn [flat_map filter fst snd app].
  - destruct (j =? id); [|exact IH]. cbn [map snd]. exact IH.
  - destruct (Z.eqb_spec (handle k j) (handle k id)) as [E|E].
    + rewrite (OH j E), Z.eqb_refl. cbn [map snd]. unfold events_in. cbn [flat_map app]. f_equal. exact IH.
    + destruct (Z.eqb_spec j id) as [->|N]; [congruence|exact IH].
Qed.
Definition handed_over (e : sbev note) : list note := match e with EvData m _ _ => of_item id (snd m) | _ => [] end.
Lemma told_data log : forall ts, map (arrival handle) log = map some_told ts -> data_told k (handle k id) ts = data_in (flat_map handed_over (log_of k log)).
Proof.
  induction log as [|[[j p] e] log IH]; intros [|[r a] ts] E; try discriminate; [reflexivity|]. injection E as _ ED ET. specialize (IH ts ET).
  assert (L : log_of k ((j, p, e) :: log) = (if j =? k then [e] else []) ++ log_of k log). { unfold log_of. cbn [filter fst]. destruct (j =? k); reflexivity. }
  rewrite L, flat_map_app, data_in_app, <- IH. unfold data_told. cbn [flat_map snd]. f_equal.
  destruct e as [|[n c] avail more|n avail|m| |n| |b|[n c]| |]; try discriminate ED; injection ED as <-; destruct (Z.eqb_spec j k) as [->|N]; try reflexivity; cbn [no_data flat_map handed_over snd]; rewrite ?app_nil_r; try reflexivity.
  apply pick_data.
Qed.
Lemma told_events log : forall ts, map (arrival handle) log = map some_told ts -> events_told k (handle k id) ts = events_in (flat_map handed_over (log_of k log)).
Proof.
  induction log as [|[[j p] e] log IH]; intros [|[r a] ts] E; try discriminate; [reflexivity|]. injection E as _ ED ET. specialize (IH ts ET).
  assert (L : log_of k ((j, p, e) :: log) = (if j =? k then [e] else []) ++ log_of k log). { unfold log_of. cbn [filter fst]. destruct (j =? k); reflexivity. }
  rewrite L, flat_map_app, events_in_app, <- IH. unfold events_told. cbn [flat_map snd]. f_equal.
  destruct e as [|[n c] avail more|n avail|m| |n| |b|[n c]| |]; try discriminate ED; injection ED as <-; destruct (Z.eqb_spec j k) as [->|N]; try reflexivity; cbn [no_events flat_map handed_over snd]; rewrite ?app_nil_r; try reflexivity.
  apply pick_events.
Qed.
Lemma at_once_handed l : flat_map handed_over (filter at_once l) = flat_map handed_over l.
Proof. induction l as [|e l IH]; [reflexivity|]. cbn [filter]. destruct e; cbn [at_once flat_map handed_over]; rewrite IH; reflexivity. Qed.
Lemma log_sent l s : Forall ok_happening l -> happens (begin_net conf) l = Some s -> flat_map handed_over (log_of k (n_log s)) = sent id (snd (hist k l)).
Proof. intros F H. destruct (written l s k F H) as (_ & E & _). rewrite <- at_once_handed, E, at_once_handed. reflexivity. Qed.

Lemma all_told l s : Forall ok_happening l -> happens (begin_net conf) l = Some s -> exists rest,
  data_told k (handle k id) (n_told s) ++ data_told k (handle k id) rest = data_in (sent id (snd (hist k l))) /\
  events_told k (handle k id) (n_told s) ++ events_told k (handle k id) rest = events_in (sent id (snd (hist k l))) /\ (n_wire s = [] -> rest = []).
Proof.
  intros F H. destruct (in_wire _ _ _ _ _ _ (inv_run handle uris far line conf HU OP OT l s F H)) as (rest & ms & C & U & M). exists rest. rewrite <- (log_sent l s F H).
  split; [|split].
  - unfold data_told. rewrite <- flat_map_app. exact (told_data _ _ M).
  - unfold events_told. rewrite <- flat_map_app. exact (told_events _ _ M).
  - intros E. rewrite E in C. destruct U as [|[rid body] x ms' rest' U1 U2]; [reflexivity|]. destruct (carried_take _ _ _ _ _ C) as (w & Tk & _). rewrite take_empty in Tk. discriminate.
Qed.
Lemma exactly l s : Forall ok_happening l -> happens (begin_net conf) l = Some s -> n_wire s = [] ->
  undisturbed id (n_subs (begin_net conf) k) (ops_of k l) -> all_sent (snd (hist k l)) ->
  data_told k (handle k id) (n_told s) ++ data_in (waiting id (n_subs s k)) = data_in (queued id (ops_of k l)) /\
  events_told k (handle k id) (n_told s) ++ events_in (waiting id (n_subs s k)) = events_in (queued id (ops_of k l)).
Proof.
  intros F H W U A. destruct (all_told l s F H) as (rest & D & E & R). rewrite (R W) in D, E. cbn [data_told events_told flat_map] in D, E. rewrite app_nil_r in D, E. rewrite D, E.
  destruct (written l s k F H) as (S & _). rewrite S, <- data_in_app, <- events_in_app. unfold history in *.
  rewrite (in_order id _ _ _ _ (ops_of k l) U A). now split.
Qed.
Lemma data_in_sub a b : subseq a b -> subseq (data_in a) (data_in b).
Proof. induction 1 as [|x a b _ IH|x a b _ IH]; [constructor| |]; destruct x; cbn; try constructor; exact IH. Qed.
Lemma events_in_sub a b : subseq a b -> subseq (events_in a) (events_in b).
Proof. induction 1 as [|x a b _ IH|x a b _ IH]; [constructor| |]; destruct x; cbn; try constructor; exact IH. Qed.
Lemma sub_prefix {A} (a b c : list A) : subseq (a ++ c) ((a ++ b) ++ c).
Proof. rewrite <- app_assoc. apply subseq_app; [apply subseq_refl|]. change c with ([] ++ c) at 1. apply subseq_app; [apply subseq_nil|apply subseq_refl]. Qed.
Lemma no_more l s : Forall ok_happening l -> happens (begin_net conf) l = Some s ->
  subseq (data_told k (handle k id) (n_told s) ++ data_in (waiting id (n_subs s k))) (data_in (queued id (ops_of k l))) /\
  subseq (events_told k (handle k id) (n_told s) ++ events_in (waiting id (n_subs s k))) (events_in (queued id (ops_of k l))).
Proof.
  intros F H. destruct (all_told l s F H) as (rest & D & E & _). destruct (written l s k F H) as (S & _).
  pose proof (sent_subseq (A := note) id (te_enabled (conf k)) (te_notif (conf k)) (te_keep (conf k)) (te_life (conf k)) (ops_of k l)) as Q. cbv zeta in Q. fold (hist k l) in Q. rewrite S.
  split.
  - eapply subseq_trans; [apply (sub_prefix _ (data_told k (handle k id) rest))|]. rewrite D, <- data_in_app. now apply data_in_sub.
  - eapply subseq_trans; [apply (sub_prefix _ (events_told k (handle k id) rest))|]. rewrite E, <- events_in_app. now apply events_in_sub.
Qed.
End Item.
End Net.

(** ** Messages sent again *)
Section Again.
Variable handle : Z -> Z -> Z.
Variable uris far : list bytes.
Variable line : pipe.
Variable conf : Z -> terms.
Hypothesis HU : forall k id, in_u 4 (handle k id).
Hypothesis OP : ok_pipe line.
Hypothesis OT : forall k, ok_terms (conf k).
Lemma again_built e n k l (ops : list (sbop note)) m : In (EvRepublished m) (snd (sb_run (sub_init e n k l) ops)) -> In m (messages (snd (sb_run (sub_init e n k l) ops))).
Proof.
  induction ops as [|o ops IH] using rev_ind; [intros []|]. rewrite run_snd, messages_cons. intros [E|H]; apply in_app_iff; left; [|auto].
  apply republished_step in E. now apply only_built.
Qed.
Lemma again l s r h n : Forall ok_happening l -> happens handle uris far line (begin_net conf) l = Some s -> In (r, Republished h n) (n_told s) ->
  exists k m, In m (messages (snd (history conf k l))) /\ no_number n = fst m /\ no_data n = data_notes (handle k) (snd m) /\ no_events n = event_notes (handle k) (snd m) /\ no_status n = [].
Proof.
  intros F H I. destruct (stream handle uris far line conf HU OP OT l s F H) as (rest & M & _).
  assert (J : In (some_told (r, Republished h n)) (map (arrival handle) (n_log s))) by (rewrite M; apply in_map, in_app_iff; now left).
  apply in_map_iff in J. destruct J as ([[k p] e] & E & Il). unfold some_told in E. cbn [arrival fst snd] in E. injection E as _ E.
  destruct e as [|[? ?] ? ?|? ?|?| |?| |?|[x c]| |]; try discriminate E. injection E as _ <-. exists k, (x, c).
  split; [|cbn [fst snd no_number no_data no_events no_status]; repeat split].
  destruct (written handle uris far line conf HU OP OT l s k F H) as (_ & E & _). apply again_built.
  assert (J : In (EvRepublished (x, c)) (filter at_once (log_of k (n_log s)))).
  { apply filter_In. split; [|reflexivity]. unfold log_of. apply (in_map snd _ (k, p, EvRepublished (x, c))). apply filter_In. split; [exact Il|]. apply Z.eqb_refl. }
  rewrite E in J. apply filter_In in J. destruct J as [J _]. now apply in_rev.
Qed.
End Again.

(** ** Sequence numbers *)
Section Numbers.
Variable handle : Z -> Z -> Z.
Variable uris far : list bytes.
Variable line : pipe.
Variable conf : Z -> terms.
Hypothesis HU : forall k id, in_u 4 (handle k id).
Hypothesis OP : ok_pipe line.
Hypothesis OT : forall k, ok_terms (conf k).
Lemma write_stream s k p e s' : in_u 4 (sl_rid p) -> write handle uris line s k p e = Some s' -> forall taken,
  sent_stream line 0 (taken ++ n_wire s) (n_seq s) -> sent_stream line 0 (taken ++ n_wire s') (n_seq s').
Proof.
  intros OS W taken N. unfold write in W. destruct (outgoing _ _ _ _) as [[name vals]|]; [|now injection W as <-].
  destruct (server_send uris name vals) as [body|] eqn:Sd; [|discriminate]. destruct (transmit line (n_seq s) (sl_rid p) body) as [[bs seq]|] eqn:Tr; [|discriminate].
  injection W as <-. cbn [n_wire n_seq]. unfold transmit in Tr. destruct (send_message _ _ _ _ _ _ _ _ _) as [chs st] eqn:M. destruct st; try discriminate. injection Tr as <- <-.
  rewrite app_assoc. eapply stream_snoc; [exact N|]. destruct OP as (L & _). exact (sent_carries _ _ _ _ _ _ _ L _ _ _ _ _ OS (le_n _) (sent_some _ _ _ _ _ Sd) M).
Qed.
Lemma happens_app l1 : forall s l2, happens handle uris far line s (l1 ++ l2) = match happens handle uris far line s l1 with Some s' => happens handle uris far line s' l2 | None => None end.
Proof. induction l1 as [|x l1 IH]; intros s l2; [reflexivity|]. cbn [app Notify.happens]. destruct (Notify.next _ _ _ _ s x) as [s'|]; [apply IH|reflexivity]. Qed.
Lemma numbers l : forall s, Forall ok_happening l -> happens handle uris far line (begin_net conf) l = Some s ->
  exists taken, sent_stream line 0 (taken ++ n_wire s) (n_seq s) /\ (~ In Takes l -> taken = []).
Proof.
  induction l as [|x l IH] using rev_ind; intros s F H.
  - injection H as <-. exists []. split; [constructor|reflexivity].
  - apply Forall_app in F. destruct F as [F FX]. inversion FX as [|? ? OX _]; subst. rewrite happens_app in H. destruct (happens handle uris far line (begin_net conf) l) as [s1|] eqn:H1; [|discriminate].
    destruct (IH s1 F eq_refl) as (taken & N & E). cbn [Notify.happens] in H. destruct (next handle uris far line s1 x) as [s2|] eqn:X; [|discriminate]. injection H as <-.
    assert (E' : ~ In Takes (l ++ [x]) -> taken = []) by (intros J; apply E; intros K; apply J, in_app_iff; now left).
    destruct x as [k o p|p|]; cbn [Notify.next] in X.
    + exists taken. split; [|exact E']. destruct OX as (_ & _ & OS & _). unfold do_op in X. destruct (sb_step (n_subs s1 k) o) as [sb e].
      set (s0 := mkNet _ _ _ _ _ _) in X.
      assert (G : write handle uris line s0 k p e = Some s2 -> sent_stream line 0 (taken ++ n_wire s2) (n_seq s2)) by (intros W; exact (write_stream s0 k p e s2 OS W taken N)).
      destruct e; cbv beta iota in X; try (match type of X with write _ _ _ _ _ _ _ = _ => exact (G X) end). destruct (64 <=? List.length (n_changes s1))%nat; [discriminate|]. injection X as <-. exact N.
    + exists taken. split; [|exact E']. unfold ask in X. destruct (n_changes s1) as [|[[k n] t] r]; [discriminate|].
      match type of X with write _ _ _ ?a ?b ?c ?d = _ => pose proof (write_stream a b c d s2 (proj1 OX) X taken) as Q end. apply Q. exact N.
    + unfold take_told in X. destruct (in_wire _ _ _ _ _ _ (inv_run handle uris far line conf HU OP OT l s1 F H1)) as (pend & ms & C & _ & _).
      destruct ms as [|[r b] ms]; [rewrite (carried_none _ _ C) in X; discriminate|]. inversion C as [|bs r' b' st ms' T C' E1 E2]; subst. rewrite <- E1 in X. rewrite T in X.
      destruct (client_receive far b) as [[name vals]| | |]; try discriminate. destruct (told_of name vals) as [a|]; [|discriminate]. injection X as <-. cbn [n_wire n_seq].
      exists (taken ++ bs). rewrite <- E1 in N. rewrite <- app_assoc. split; [exact N|]. intros J. destruct J. apply in_app_iff. right. now left.
Qed.
End Numbers.

(** ** No gaps *)
Definition pubno (e : sbev note) : list Z := match e with EvData m _ _ => [fst m] | EvKeepAlive n _ => [n] | _ => [] end.
Lemma told_numbers handle k log : forall ts, map (arrival handle) log = map some_told ts -> numbers_told k ts = flat_map pubno (log_of k log).
Proof.
  induction log as [|[[j p] e] log IH]; intros [|[r a] ts] E; try discriminate; [reflexivity|]. injection E as _ ED ET. specialize (IH ts ET).
  assert (L : log_of k ((j, p, e) :: log) = (if j =? k then [e] else []) ++ log_of k log). { unfold log_of. cbn [filter fst]. destruct (j =? k); reflexivity. }
  rewrite L, flat_map_app, <- IH. unfold numbers_told. cbn [flat_map snd]. f_equal.
  destruct e as [|[n c] avail more|n avail|m| |n| |b|[n c]| |]; try discriminate ED; injection ED as <-; destruct (j =? k); reflexivity.
Qed.
Lemma at_once_numbers l : flat_map pubno (filter at_once l) = flat_map pubno l.
Proof. induction l as [|e l IH]; [reflexivity|]. cbn [filter]. destruct e; cbn [at_once flat_map pubno]; rewrite IH; reflexivity. Qed.
Lemma status_dead (s : sub note) o n : snd (sb_step s o) = EvStatusChange n -> sb_alive (fst (sb_step s o)) = false.
Proof.
  destruct o; unfold sb_step, send_data, send_keepalive, no_request;
    repeat (match goal with |- context [match ?x with _ => _ end] => destruct x eqn:? | |- context [if ?x then _ else _] => destruct x eqn:? end); cbn; try discriminate; auto.
Qed.
(** The next number [n] of the subscription after the numbers [l] *)
Definition ready (l : list Z) (n : Z) : Prop := gapless (l ++ [n]).
Lemma follow_app x a b : follow x (a ++ b) <-> follow x a /\ follow (last (x :: a) 0) b.
Proof.
  revert x. induction a as [|y a IH]; intros x; [cbn; tauto|]. cbn [app follow]. rewrite IH. change (last (x :: y :: a) 0) with (last (y :: a) 0). tauto.
Qed.
Lemma ready_prefix l n : ready l n -> gapless l.
Proof. unfold ready. destruct l as [|x l]; [intros; exact Logic.I|]. cbn [app gapless]. intros [E F]. split; [exact E|]. now apply follow_app in F. Qed.
Lemma ready_again l n : ready l n -> ready (l ++ [n]) n /\ ready (l ++ [n]) (u32 (n + 1)).
Proof.
  unfold ready. destruct l as [|x l]; cbn [app gapless].
  - intros [-> _]. repeat split; cbn; auto.
  - intros [E F]. repeat split; try exact E; (apply follow_app; split; [exact F|]); change (x :: l ++ [n]) with ((x :: l) ++ [n]); rewrite last_last; cbn [follow]; auto.
Qed.
Lemma gapless_prefix a b : gapless (a ++ b) -> gapless a.
Proof. destruct a as [|x a]; [intros; exact Logic.I|]. cbn [app gapless]. intros [E F]. split; [exact E|]. now apply follow_app in F. Qed.
Lemma history_gapless e n k l (ops : list (sbop note)) : let x := sb_run (sub_init e n k l) ops in
  gapless (flat_map pubno (rev (snd x))) /\ (sb_alive (fst x) = true -> ready (flat_map pubno (rev (snd x))) (sb_next (fst x))).
Proof.
  cbv zeta. induction ops as [|o ops [IH1 IH2]] using rev_ind; [split; [exact Logic.I|intros _; repeat split]|].
  rewrite run_fst, run_snd. cbn [rev]. rewrite flat_map_app. cbn [flat_map]. rewrite app_nil_r. set (x := sb_run (sub_init e n k l) ops) in *.
  destruct (sb_alive (fst x)) eqn:A.
  - specialize (IH2 eq_refl). destruct (ready_again _ _ IH2) as [R1 R2]. pose proof (number_step (fst x) o) as NS. pose proof (keepalive_step (fst x) o) as KS. pose proof (status_dead (fst x) o) as SD.
    destruct (snd (sb_step (fst x) o)) as [|m avail more|y avail|m| |y| |b|m| |]; cbn [pubno number_of] in *; rewrite ?app_nil_r;
      try (destruct NS as [[_ NS]|[NS _]]; [|discriminate NS]; rewrite NS; split; [exact IH1|intros _; exact IH2]).
    + destruct NS as [[NS _]|[NS1 NS2]]; [discriminate|]. injection NS1 as ->. rewrite NS2. split; [exact (ready_prefix _ _ R1)|intros _; exact R2].
    + destruct NS as [[_ NS]|[NS _]]; [|discriminate]. rewrite NS. rewrite (KS y avail eq_refl). split; [exact (ready_prefix _ _ R1)|intros _; exact R1].
    + split; [exact IH1|]. rewrite (SD y eq_refl). discriminate.
  - pose proof (dead_quiet e n k l ops o A) as Q. fold x in Q. split.
    + destruct (snd (sb_step (fst x) o)); try discriminate Q; cbn [pubno]; rewrite ?app_nil_r; exact IH1.
    + intros B. apply alive_back in B. congruence.
Qed.

Lemma no_gaps handle uris far line conf : (forall k id, in_u 4 (handle k id)) -> ok_pipe line -> (forall k, ok_terms (conf k)) ->
  forall l s k, Forall ok_happening l -> happens handle uris far line (begin_net conf) l = Some s -> gapless (numbers_told k (n_told s)).
Proof.
  intros HU OP OT l s k F H. destruct (stream handle uris far line conf HU OP OT l s F H) as (rest & M & _). apply (told_numbers handle k) in M.
  destruct (written handle uris far line conf HU OP OT l s k F H) as (_ & E & _).
  rewrite <- at_once_numbers, E, at_once_numbers in M. unfold numbers_told in M. rewrite flat_map_app in M. fold (numbers_told k (n_told s)) in M.
  pose proof (proj1 (history_gapless (te_enabled (conf k)) (te_notif (conf k)) (te_keep (conf k)) (te_life (conf k)) (ops_of k l))) as G. unfold history in M. rewrite <- M in G. exact (gapless_prefix _ _ G).
Qed.

(** * Examples *)
Definition u_int (z : Z) : dval := mkDV (VScalar (KB BInt32) (VB BInt32 z)) 0 no_time 0 no_time 0.
Definition u_handle (k id : Z) : Z := if id =? 1 then 8 else if id =? 2 then 9 else 10.
Definition u_conf (k : Z) : terms := mkTerms true 10 3 2.
Definition u_slip (n : Z) (results : list Z) : slip := mkSlip n (n + 100) (mkTime 20 123) (mkTime 10 255) results.
Definition u_events : list happening :=
  [ Does 1 (SAddItem 1 MReporting) (u_slip 1 []); Does 1 (SAddItem 2 MReporting) (u_slip 1 []);
    Does 1 (SPut 1 true 5 (NData (u_int 41))) (u_slip 1 []); Does 1 (SPut 2 true 5 (NEvent [VNil])) (u_slip 1 []); Does 1 (SPut 1 true 5 (NData (u_int 42))) (u_slip 1 []);
    Does 1 (STick [2; 1] (Req true)) (u_slip 5 [0]); Does 2 (STick [] (Req true)) (u_slip 6 []); Takes;
    Does 2 (STick [] NoReq) (u_slip 0 []); Does 1 (SRepublish 1 true) (u_slip 7 []) ; Does 2 (STick [] NoReq) (u_slip 0 []); Does 2 (STick [] NoReq) (u_slip 0 []); Does 2 (STick [] NoReq) (u_slip 0 []);
    Does 2 (STick [] NoReq) (u_slip 0 []); Takes; Takes; Asks (u_slip 8 [2155872256]); Takes ].
Definition u_time : time := mkTime 10 200.
Definition u_told : list (Z * told) :=
  [ (5, Published 105 1 [1] false (mkNotice 1 u_time [(8, u_int 41); (8, u_int 42)] [(9, [VNil])] []) [0]);
    (6, Published 106 2 [] false (mkNotice 1 u_time [] [] []) []);
    (7, Republished 107 (mkNotice 1 u_time [(8, u_int 41); (8, u_int 42)] [(9, [VNil])] []));
    (8, Published 108 2 [] false (mkNotice 1 u_time [] [] [2148139008]) [2155872256]) ].
Definition u_happens := happens u_handle [] [] (e_pipe Server Client).
Example u_runs : option_map n_told (u_happens (begin_net u_conf) u_events) = Some u_told /\ option_map n_wire (u_happens (begin_net u_conf) u_events) = Some [].
Proof. vm_compute. split; reflexivity. Qed.

(** ** The hypotheses hold *)
Lemma u_line : ok_pipe (e_pipe Server Client).
Proof. exact (proj2 (proj2 (proj2 (e_link 1)))). Qed.
Lemma u_handles k id : in_u 4 (u_handle k id).
Proof. unfold u_handle, in_u. destruct (id =? 1), (id =? 2); cbn; lia. Qed.
Lemma u_own k : own_handle u_handle k 1 /\ own_handle u_handle k 2.
Proof.
  split; intros id' E; unfold u_handle in E; cbn in E; destruct (Z.eqb_spec id' 1), (Z.eqb_spec id' 2); subst; try reflexivity; discriminate.
Qed.
Lemma u_terms k : ok_terms (u_conf k). Proof. reflexivity. Qed.
Lemma u_ok_int z : in_s 4 z -> ok_note (NData (u_int z)).
Proof.
  intros H. cbn [ok_note]. unfold ok_dval, u_int. cbn [d_value d_status d_src d_srcp d_srv d_srvp wf ty_of_kind bwf].
  split; [split; [reflexivity|]; split; [exact Logic.I|]; split; [reflexivity|exact H]|]. split; [unfold in_u; cbn; lia|]. split; [exact ok_no_time|]. split; [exact ok_zero|]. split; [exact ok_no_time|exact ok_zero].
Qed.
Lemma u_ok_slip n results : 0 <= n < 2 ^ 31 -> ok_numbers results -> ok_slip (u_slip n results).
Proof.
  intros N [R1 R2]. unfold ok_slip, u_slip. cbn [sl_rid sl_handle sl_now sl_time sl_results].
  split; [unfold in_u; cbn; lia|]. split; [unfold in_u; cbn; lia|].
  split; [split; [split; cbn; unfold in_s; cbn; lia|unfold time_in_int64_ticks; cbn; lia]|]. split; [split; [split; cbn; unfold in_s; cbn; lia|unfold time_in_int64_ticks; cbn; lia]|]. now split.
Qed.
Example u_hypotheses : Forall ok_happening u_events /\ (own_handle u_handle 1 1 /\ own_handle u_handle 1 2) /\
  undisturbed 1 (n_subs (begin_net u_conf) 1) (ops_of 1 u_events) /\ all_sent (snd (history u_conf 1 u_events)) /\
  data_in (queued 1 (ops_of 1 u_events)) = [u_int 41; u_int 42] /\ events_in (queued 2 (ops_of 1 u_events)) = [[VNil]].
Proof.
  assert (S : forall n, 0 <= n < 2 ^ 31 -> ok_slip (u_slip n [])) by (intros n H; apply u_ok_slip; [exact H|split; [apply len_ok_nil|constructor]]).
  assert (K : forall k, 0 <= k < 10 -> in_u 4 k) by (intros k H; unfold in_u; cbn; lia).
  assert (S' : forall n r, 0 <= n < 2 ^ 31 -> in_u 4 r -> ok_slip (u_slip n [r])) by (intros n r H R; apply u_ok_slip; [exact H|split; [unfold len_ok; cbn; lia|now constructor]]).
  split.
  { unfold u_events. repeat (apply Forall_cons || apply Forall_nil); cbn [ok_happening NotifySpec.ok_op]; try exact Logic.I;
      try (split; [apply K; lia|split; [first [exact Logic.I|apply u_ok_int; unfold in_s; cbn; lia|cbn [ok_note]; split; [unfold len_ok; cbn; lia|repeat constructor]]|first [apply S; lia|apply S'; [lia|unfold in_u; cbn; lia]]]]).
    apply S'; [lia|unfold in_u; cbn; lia]. }
  split; [exact (u_own 1)|].
  split; [vm_compute; repeat split; try discriminate; try lia|].
  split; [|split; reflexivity].
  vm_compute. intros e H. repeat (destruct H as [<-|H]; [reflexivity|]). destruct H.
Qed.

(** * A value that cannot be sent keeps others from being sent *)
Definition diag_value : val := VScalar KDiag (VDiag (Diag None None None None None None None)).
(** The request WriteRequest[(ns=1;i=1, Value, "", DataValue(DiagnosticInfo()))] as another client encodes it *)
Definition diag_request : bytes :=
  write_nodeid (NNum 0 673) ++ match enc (std_env []) (TStruct [TB BNodeId; TB BTime; TB BUInt32; TB BUInt32; TB BString; TB BUInt32; TExt]) (request_header (NNum 1 101) (at_s 10) 1) with Some b => b | None => [] end ++
  write_int 4 1 ++ write_nodeid z_id ++ write_int 4 13 ++ write_string [] ++ write_int 1 1 ++ write_int 1 25 ++ write_int 1 0.
Definition diag_write : wop := mkW z_id 13 [] (mkDV diag_value 0 no_time 0 no_time 0).
Theorem hostage :
  (exists vals, server_receive [] diag_request = Ok ("WriteRequest"%string, vals) [] /\ question_of "WriteRequest" vals = Some (NNum 1 101, 1, QWrite [diag_write])) /\
  prepare default_permissions (fun t => t) x_limits (one_nodes 24) (fun v _ r => e_range v r) (fun _ => (none, 0)) (fun _ _ => 0) z_who z_init diag_write (at_s 11) (at_s 11) =
    Ready (mkDV diag_value 0 (at_s 11) 0 (at_s 11) 0) /\
  (forall uris, server_send uris "PublishResponse" (publish_vals 1 (u_slip 5 []) [] false (message_val 1 (sl_time (u_slip 5 []))
     (notification_data (u_handle 1) [(1, NData (u_int 41)); (2, NData (mkDV diag_value 0 (at_s 11) 0 (at_s 11) 0))]))) = None) /\
  let l := [ Does 1 (SAddItem 1 MReporting) (u_slip 1 []); Does 1 (SAddItem 2 MReporting) (u_slip 1 []);
             Does 1 (SPut 1 true 5 (NData (u_int 41))) (u_slip 1 []); Does 1 (SPut 2 true 5 (NData (mkDV diag_value 0 (at_s 11) 0 (at_s 11) 0))) (u_slip 1 []);
             Does 1 (STick [1; 2] (Req false)) (u_slip 5 []) ] in
  exists s, u_happens (begin_net u_conf) l = Some s /\ queued 1 (ops_of 1 l) = [NData (u_int 41)] /\ n_told s = [] /\ n_wire s = [] /\ waiting 1 (n_subs s 1) = [].
Proof.
  split; [eexists; split; vm_compute; reflexivity|]. split; [vm_compute; reflexivity|]. split.
  - intros uris. vm_compute. reflexivity.
  - eexists. vm_compute. repeat split.
Qed.

(** * One message *)
Lemma message_due (handle : Z -> Z) u1 u2 k p e : (forall id, in_u 4 (handle id)) -> in_u 4 k -> ok_slip p -> NotifySpec.ok_event e -> due handle k p e <> None ->
  exists name vals body a, outgoing handle k p e = Some (name, vals) /\ server_send u1 name vals = Some body /\ body <> [] /\
    client_receive u2 body = Ok (name, map norm vals) [] /\ told_of name (map norm vals) = Some a /\ due handle k p e = Some a.
Proof.
  intros H K P E D. apply message_arrives; auto. destruct e as [|[? ?] ? ?|? ?|?| |?| |?|[? ?]| |]; try reflexivity; now destruct D.
Qed.
Example u_message : let e := EvData (7, [(1, NData (u_int 41)); (2, NEvent [VNil])]) [6; 7] true in
  due (u_handle 1) 1 (u_slip 5 []) e <> None /\ NotifySpec.ok_event e.
Proof.
  split; [discriminate|]. cbn [NotifySpec.ok_event fst snd]. split; [unfold in_u; cbn; lia|]. split; split; try (unfold len_ok; cbn; lia).
  - apply Forall_cons; [apply u_ok_int; unfold in_s; cbn; lia|]. apply Forall_cons; [|apply Forall_nil]. cbn [ok_note snd]. split; [unfold len_ok; cbn; lia|]. apply Forall_cons; [split; reflexivity || exact Logic.I|apply Forall_nil].
  - repeat constructor; unfold in_u; cbn; lia.
Qed.

(** ** What was lost leaves no gap *)
Theorem unnoticed :
  let l := [ Does 1 (SAddItem 1 MReporting) (u_slip 1 []); Does 1 (SAddItem 2 MReporting) (u_slip 1 []);
             Does 1 (SPut 1 true 5 (NData (u_int 41))) (u_slip 1 []); Does 1 (SPut 2 true 5 (NData (mkDV diag_value 0 (at_s 11) 0 (at_s 11) 0))) (u_slip 1 []);
             Does 1 (STick [1; 2] (Req false)) (u_slip 5 []);
             Does 1 (SPut 1 true 5 (NData (u_int 42))) (u_slip 1 []); Does 1 (STick [1; 2] (Req true)) (u_slip 6 []); Takes;
             Does 1 (SPut 1 true 5 (NData (u_int 43))) (u_slip 1 []); Does 1 (STick [1; 2] (Req true)) (u_slip 7 []); Takes ] in
  exists s, u_happens (begin_net u_conf) l = Some s /\ queued 1 (ops_of 1 l) = [NData (u_int 41); NData (u_int 42); NData (u_int 43)] /\
    numbers_told 1 (n_told s) = [1; 2] /\ data_told 1 (u_handle 1 1) (n_told s) = data_in [NData (u_int 42); NData (u_int 43)] /\ n_wire s = [] /\ waiting 1 (n_subs s 1) = [].
Proof. eexists. vm_compute. repeat split. Qed.
