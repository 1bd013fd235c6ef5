(** Proofs about GetMonitoredItems and ResendData. *)
From Coq Require Import ZArith List Bool Lia.
From Verif Require Import Bytes CodecSpec Prim PrimSpec Value ValueSpec CodecProperties Messages MonQueue DataChange DataItemProofs OwnData OwnSpec OwnMethod OwnMethodSpec.
Import ListNotations.
Open Scope Z_scope.

Lemma as_uint32_is a z : as_uint32 a = Some z -> a = VScalar (KB BUInt32) (VB BUInt32 z).
Proof.
  destruct a as [| | | | | | |k x| | | | | | | |]; try discriminate. destruct k as [t| | | |]; try discriminate. destruct t; try discriminate.
  destruct x as [t v| | | | | | | | | | | | | | |]; try discriminate. destruct t; try discriminate. cbn. intros H. injection H as ->. reflexivity.
Qed.
Lemma find_own subs s : distinct subs -> In s subs -> find (fun x => ms_id x =? ms_id s) subs = Some s.
Proof.
  induction subs as [|a r IH]; intros D I; [destruct I|]. cbn. unfold distinct in D. cbn in D. inversion D as [|? ? N D']; subst.
  destruct I as [->|I]; [rewrite Z.eqb_refl; reflexivity|].
  destruct (Z.eqb_spec (ms_id a) (ms_id s)) as [E|_]; [|exact (IH D' I)].
  destruct N. rewrite E. apply in_map. exact I.
Qed.
Lemma own_is caller s : own caller s = true <-> exists c, caller = Some c /\ ms_session s = Some c.
Proof.
  unfold own. destruct caller as [c|]; destruct (ms_session s) as [o|]; split; try discriminate; try (intros (x & A & B); discriminate).
  - intros E. apply Z.eqb_eq in E. subst. eauto.
  - intros (x & A & B). injection A as ->. injection B as ->. apply Z.eqb_refl.
Qed.
Lemma called_own m subs caller args s : distinct subs -> names_own subs caller args s ->
  call m subs caller args =
  match m with
  | GetMonitoredItems => (subs, mkResult 0 [] [uint32s (map fst (ms_items s)); uint32s (map snd (ms_items s))])
  | ResendData => (map (fun x => if ms_id x =? ms_id s then mkMsub (ms_id x) (ms_session x) (ms_items x) true else x) subs, mkResult 0 [] [])
  end.
Proof. intros D (-> & I & O). apply own_is in O. cbn [call as_uint32]. rewrite (find_own subs s D I), O. reflexivity. Qed.
Lemma called_good m subs caller args : rs_status (snd (call m subs caller args)) = 0 -> exists s, names_own subs caller args s.
Proof.
  unfold call. destruct args as [|a [|b r]]; try discriminate. destruct (as_uint32 a) as [z|] eqn:A; [|discriminate].
  destruct (find _ subs) as [s|] eqn:F; [|discriminate]. destruct (own caller s) eqn:O; [|discriminate]. intros _.
  apply find_some in F. destruct F as [I E]. apply Z.eqb_eq in E. exists s. split; [|split; [exact I|apply own_is; exact O]].
  rewrite E. f_equal. apply as_uint32_is. exact A.
Qed.
Lemma good_iff m subs caller args : distinct subs -> rs_status (snd (call m subs caller args)) = 0 <-> exists s, names_own subs caller args s.
Proof. intros D. split; [apply called_good|]. intros (s & H). rewrite (called_own m subs caller args s D H). destruct m; reflexivity. Qed.

Lemma combine_split {A B} (l : list (A * B)) : combine (map fst l) (map snd l) = l.
Proof. induction l as [|[a b] r IH]; [reflexivity|]. cbn. rewrite IH. reflexivity. Qed.
Lemma items_told subs caller args s : distinct subs -> names_own subs caller args s ->
  exists servers clients, snd (call GetMonitoredItems subs caller args) =
    mkResult 0 [] [VArr (KB BUInt32) (map (VB BUInt32) servers); VArr (KB BUInt32) (map (VB BUInt32) clients)] /\
  length servers = length (ms_items s) /\ length clients = length (ms_items s) /\ combine servers clients = ms_items s.
Proof.
  intros D H. rewrite (called_own _ _ _ _ _ D H). exists (map fst (ms_items s)), (map snd (ms_items s)).
  rewrite !map_length. repeat split. apply combine_split.
Qed.
Lemma unchanged m subs caller args : m = GetMonitoredItems \/ rs_status (snd (call m subs caller args)) <> 0 -> fst (call m subs caller args) = subs.
Proof.
  unfold call. destruct args as [|a [|b r]]; try reflexivity. destruct (as_uint32 a); [|reflexivity]. destruct (find _ subs) as [s|]; [|reflexivity].
  destruct (own caller s); [|reflexivity]. destruct m; [reflexivity|]. intros [H|H]; [discriminate|]. destruct H. reflexivity.
Qed.
Lemma asked_again subs caller args s : distinct subs -> names_own subs caller args s ->
  let subs' := fst (call ResendData subs caller args) in
  Forall2 (fun a b => ms_id b = ms_id a /\ ms_session b = ms_session a /\ ms_items b = ms_items a /\
                      (ms_id a = ms_id s -> ms_resend b = true) /\ (ms_id a <> ms_id s -> b = a)) subs subs'.
Proof.
  intros D H. rewrite (called_own _ _ _ _ _ D H). cbv beta iota zeta. cbn [fst]. clear D H. induction subs as [|a r IH]; constructor; [|exact IH].
  destruct (Z.eqb_spec (ms_id a) (ms_id s)) as [E|N]; cbn; repeat split; intros; congruence.
Qed.
Lemma refusals m subs caller args : distinct subs ->
  (args = [] -> rs_status (snd (call m subs caller args)) = 0x80760000) /\
  ((1 < length args)%nat -> rs_status (snd (call m subs caller args)) = 0x80E50000) /\
  (forall a, args = [a] -> (forall z, a <> VScalar (KB BUInt32) (VB BUInt32 z)) -> snd (call m subs caller args) = mkResult 0x80AB0000 [0x80740000] []) /\
  (forall z, args = [VScalar (KB BUInt32) (VB BUInt32 z)] -> ~ In z (map ms_id subs) -> rs_status (snd (call m subs caller args)) = 0x80280000) /\
  (forall s, args = [VScalar (KB BUInt32) (VB BUInt32 (ms_id s))] -> In s subs -> caller = None \/ ms_session s <> caller -> rs_status (snd (call m subs caller args)) = 0x801F0000).
Proof.
  intros D. repeat split.
  - intros ->. reflexivity.
  - destruct args as [|a [|b r]]; cbn [length]; try lia. reflexivity.
  - intros a -> N. cbn [call]. destruct (as_uint32 a) as [z|] eqn:A; [|reflexivity]. apply as_uint32_is in A. destruct (N z A).
  - intros z -> N. cbn [call as_uint32]. destruct (find _ subs) as [s|] eqn:F; [|reflexivity]. apply find_some in F. destruct F as [I E].
    apply Z.eqb_eq in E. destruct N. rewrite <- E. apply in_map. exact I.
  - intros s -> I N. cbn [call as_uint32]. rewrite (find_own subs s D I). destruct (own caller s) eqn:O; [|reflexivity].
    apply own_is in O. destruct O as (c & -> & E). destruct N as [N|N]; [discriminate|]. destruct (N E).
Qed.
Lemma find_alike a b z : alike a b ->
  match find (fun s => ms_id s =? z) a, find (fun s => ms_id s =? z) b with
  | Some s, Some t => ms_session s = ms_session t
  | None, None => True
  | _, _ => False
  end.
Proof.
  revert b. induction a as [|x a IH]; intros [|y b] H; try discriminate; [exact Logic.I|]. injection H as E O R. cbn. rewrite E.
  destruct (ms_id y =? z); [exact O|]. exact (IH b R).
Qed.
Lemma secret m a b caller args : alike a b -> rs_status (snd (call m a caller args)) <> 0 -> snd (call m b caller args) = snd (call m a caller args).
Proof.
  intros L. unfold call. destruct args as [|v [|w r]]; try reflexivity. destruct (as_uint32 v) as [z|]; [|reflexivity].
  pose proof (find_alike a b z L) as F. destruct (find _ a) as [s|]; destruct (find _ b) as [t|]; try contradiction; try reflexivity.
  unfold own. rewrite F. destruct caller as [c|]; [|reflexivity]. destruct (ms_session t) as [o|]; [|reflexivity].
  destruct (c =? o); [|reflexivity]. destruct m; intros N; destruct N; reflexivity.
Qed.
Lemma handles_typed l : fits 7 1 (VArr (KB BUInt32) (map (VB BUInt32) l)).
Proof.
  cbn. split; [reflexivity|]. split; [right; reflexivity|]. apply Forall_forall. intros v _. split; [right; reflexivity|]. discriminate.
Qed.

(** * What the flag does when the subscription publishes next *)
Lemma resent d tn v : di_mode d = m_reporting ->
  snd (available d tn true v) = true /\
  (snd (available d tn false v) = false -> mq_queue (di_q (fst (available d tn true v))) = [with_timestamps (di_stamps d) v]).
Proof.
  intros M. unfold available. rewrite M. change (m_reporting =? m_disabled) with false. cbv iota. cbn [fst snd andb].
  pose proof (sampled_frame d tn) as F. destruct (sampled d tn) as [mode f st ti ts prev pre q tr po du] eqn:E.
  destruct F as (A & B & C & F). cbn in A, B, C |- *. rewrite A, M. change (m_reporting =? m_reporting) with true. cbn [andb orb].
  destruct (mq_queue q) as [|x r] eqn:Q; cbn.
  - unfold enqueue. rewrite Q. rewrite C. unfold trim. destruct (mq_oldest q), (mq_size q - 1)%nat; cbn; split; reflexivity.
  - split; [rewrite Q; reflexivity|discriminate].
Qed.
Lemma not_resent d tn v : di_mode d <> m_reporting -> available d tn true v = available d tn false v.
Proof.
  intros M. unfold available. destruct (di_mode d =? m_disabled); [reflexivity|].
  pose proof (sampled_frame d tn) as F. destruct F as (A & F). rewrite A. destruct (Z.eqb_spec (di_mode d) m_reporting); [contradiction|]. reflexivity.
Qed.
