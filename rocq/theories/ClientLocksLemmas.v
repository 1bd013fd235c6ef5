(** Runs of a client's functions, the deadlock they lead to, and examples. *)
From Coq Require Import ZArith String List Bool Lia Arith.
From Verif Require Import Flow Mutex MutexSpec MutexProofs MutexLemmas ClientLocks ClientLocksSpec ClientLocksProofs.
Import ListNotations.
Open Scope string_scope.

Definition client_run (root : string) (cs : list bool) : option (list op) :=
  match find (fun r => String.eqb (fst r) root) client_roots with
  | Some (_, p) => match drive 500 p cs with Some (t, _, _) => Some (map the (ops_of t)) | None => None end
  | None => None
  end.

Lemma run_thread root cs w : client_run root cs = Some w -> client_thread root w.
Proof.
  unfold client_run. destruct (find _ client_roots) as [[r p]|] eqn:F; [|discriminate].
  destruct (drive 500 p cs) as [[[t x] cs']|] eqn:D; [|discriminate]. intros [= <-].
  apply find_some in F as [I E]. cbn [fst] in E. apply String.eqb_eq in E. subst r. split.
  - exists p, t, x. split; [exact I|]. split; [eapply drive_run; exact D|]. symmetry. apply kind_the.
  - apply paired_the. intros n k [].
Qed.

Definition ops_of_run (root : string) (cs : list bool) : list op :=
  match client_run root cs with Some w => w | None => [] end.

(** a request with an extension object, in one chunk *)
Definition w_call : list op := Eval vm_compute in ops_of_run "Client.request" [false; false; true; false; false; true].
(** Close, each message in one chunk; and when the token is renewed for the second message *)
Definition w_shut : list op := Eval vm_compute in ops_of_run "Client.Close" [false; false; false; true; false; false; false; false; false; false; false; false; false; true].
Definition w_shut_renewal : list op := Eval vm_compute in ops_of_run "Client.Close" [false; false; false; true; false; false; false; false; false; false; true; false; true; false; true; false; false; false; false; false; false; false; true].
(** Dial up to the opened channel, without a session *)
Definition w_dial : list op := Eval vm_compute in ops_of_run "Dial" [false; false; false; false; false; true; false; false; false; false; false; true].
(** the worker receives a message of one chunk with an extension object; a chunk without a token *)
Definition w_worker : list op := Eval vm_compute in ops_of_run "responseWorker" [true; true; false; true; false; false; true].
Definition w_worker_open : list op := Eval vm_compute in ops_of_run "responseWorker" [true; true; false; false; false; false; true].
Definition w_abort : list op := Eval vm_compute in ops_of_run "Client.Abort" [].

Lemma call_thread : client_thread "Client.request" w_call.
Proof. apply (run_thread _ [false; false; true; false; false; true]). vm_compute. reflexivity. Qed.
Lemma shut_thread : client_thread "Client.Close" w_shut.
Proof. apply (run_thread _ [false; false; false; true; false; false; false; false; false; false; false; false; false; true]). vm_compute. reflexivity. Qed.
Lemma shut_renewal_thread : client_thread "Client.Close" w_shut_renewal.
Proof. apply (run_thread _ [false; false; false; true; false; false; false; false; false; false; true; false; true; false; true; false; false; false; false; false; false; false; true]). vm_compute. reflexivity. Qed.
Lemma dial_thread : client_thread "Dial" w_dial.
Proof. apply (run_thread _ [false; false; false; false; false; true; false; false; false; false; false; true]). vm_compute. reflexivity. Qed.
Lemma worker_thread : client_thread "responseWorker" w_worker.
Proof. apply (run_thread _ [true; true; false; true; false; false; true]). vm_compute. reflexivity. Qed.
Lemma worker_open_thread : client_thread "responseWorker" w_worker_open.
Proof. apply (run_thread _ [true; true; false; false; false; false; true]). vm_compute. reflexivity. Qed.
Lemma abort_thread : client_thread "Client.Abort" w_abort.
Proof. apply (run_thread _ []). vm_compute. reflexivity. Qed.

(** Close has closed the session and taken the channel's lock; the request is being encoded. *)
Definition deadlock_schedule : list nat := repeat 1 11 ++ repeat 0 3.
Definition stuck_call : thread := mkThread (skipn 2 w_call) [(Ex, sender)] false.
Definition stuck_shut : thread := mkThread (skipn 9 w_shut) [(Ex, channel)] false.

Lemma deadlock_executes : execute (map fresh [w_call; w_shut]) deadlock_schedule = Some [stuck_call; stuck_shut].
Proof. vm_compute. reflexivity. Qed.

Lemma close_deadlock : client_deadlock "Client.request" "Client.Close" [(Ex, sender)] Sh channel [(Ex, channel)] Ex sender.
Proof.
  exists w_call, w_shut, stuck_call, stuck_shut. split; [exact call_thread|]. split; [exact shut_thread|].
  split; [exists deadlock_schedule; exact deadlock_executes|]. split; [apply stuckb_deadlock; vm_compute; reflexivity|].
  split; [reflexivity|]. split; [eexists; reflexivity|]. split; [reflexivity|]. eexists; reflexivity.
Qed.

Lemma close_for_ever : never_finish "Client.request" "Client.Close" channel.
Proof.
  apply (pair_never_finishes _ _ _ w_call w_shut stuck_call stuck_shut deadlock_schedule call_thread shut_thread deadlock_executes).
  split; [|split; [|reflexivity]].
  - exists Sh, channel, (skipn 3 w_call). repeat split; reflexivity.
  - exists Ex, sender, (skipn 10 w_shut). repeat split; reflexivity.
Qed.

(** Abort and IsClosing have to take the channel's lock. *)
Lemma locked_does root ks : root = "Client.Abort" \/ root = "Client.IsClosing" -> client_does root ks ->
  ks = [Lk Ex KChannel; Un Ex KChannel].
Proof.
  intros H (p & t & x & I & R & <-). assert (p = p_locked).
  { destruct H as [-> | ->]; cbn in I;
      repeat (destruct I as [E|I]; [apply (f_equal fst) in E as E1; cbn in E1; try discriminate E1; injection E; congruence|]);
      destruct I. }
  subst p. unfold p_locked in R. inversion R; subst. inversion H4; subst. inversion H5; subst. reflexivity.
Qed.

Lemma map_kind_locked ops : map kind ops = [Lk Ex KChannel; Un Ex KChannel] -> exists k, In (OLk Ex (KChannel, k)) ops.
Proof.
  destruct ops as [|[m [c k]|m l|w] r]; cbn; try discriminate. intros [= -> -> _]. exists k. now left.
Qed.

Lemma abort_needs_lock root ops : root = "Client.Abort" \/ root = "Client.IsClosing" -> client_thread root ops ->
  exists k, In (OLk Ex (KChannel, k)) ops.
Proof. intros H [D _]. apply map_kind_locked. exact (locked_does _ _ H D). Qed.

(** Dial waits for the answer that the worker is decoding *)
Lemma dial_holds_up : holds_up "Dial" "responseWorker" [(Ex, channel)] "response" [(Ex, receiver)] Sh channel.
Proof.
  exists w_dial, w_worker_open.
  pose (n := mkThread (skipn 8 w_dial) [(Ex, channel)] false).
  pose (w := mkThread (skipn 2 w_worker_open) [(Ex, receiver)] false).
  exists n, w. split; [exact dial_thread|]. split; [exact worker_open_thread|].
  split; [exists (repeat 0 10 ++ repeat 1 3)%list; vm_compute; reflexivity|].
  split; [split; [reflexivity|eexists; reflexivity]|]. split; [split; [reflexivity|eexists; reflexivity]|]. vm_compute. reflexivity.
Qed.

(** so does a Close that renews the token *)
Lemma shut_holds_up : holds_up "Client.Close" "responseWorker" [(Ex, channel)] "response" [(Ex, receiver)] Sh channel.
Proof.
  exists w_shut_renewal, w_worker.
  pose (n := mkThread (skipn 13 w_shut_renewal) [(Ex, channel)] false).
  pose (w := mkThread (skipn 4 w_worker) [(Ex, receiver)] false).
  exists n, w. split; [exact shut_renewal_thread|]. split; [exact worker_thread|].
  split; [exists (repeat 0 16 ++ repeat 1 5)%list; vm_compute; reflexivity|].
  split; [split; [reflexivity|eexists; reflexivity]|]. split; [split; [reflexivity|eexists; reflexivity]|]. vm_compute. reflexivity.
Qed.

(** ** The hypotheses can be met *)
Definition w_plain : list op := Eval vm_compute in ops_of_run "Client.request" [false; false; false; false; true].
Lemma plain_thread : client_thread "Client.request" w_plain.
Proof. apply (run_thread _ [false; false; false; false; true]). vm_compute. reflexivity. Qed.

(** which pairs of kinds nest, by computation *)
Fixpoint nestings (held : list (mode * lock)) (ops : list op) : list (cls * cls) :=
  match ops with
  | [] => []
  | OLk m l :: r => map (fun h => (fst (snd h), fst l)) held ++ nestings ((m, l) :: held) r
  | OUn m l :: r => nestings (remove1 (m, l) held) r
  | OWt _ :: r => nestings held r
  end.
Lemma nestings_all ops : forall held c d, nest_in held ops c d -> In (c, d) (nestings held ops).
Proof.
  induction ops as [|o r IH]; intros held c d N; inversion N; subst; cbn [nestings]; auto.
  - apply in_or_app. left. apply in_map_iff. exists h. auto.
  - apply in_or_app. right. auto.
Qed.
Lemma not_nested ops c d : ~ In (c, d) (nestings [] ops) -> ~ nests ops c d.
Proof.
  intros N (b & m & l & a & -> & <- & n & k & I & <-). apply N. apply nestings_all. eapply nests_nest_in. exact I.
Qed.

(** a request without extension objects, Close, Abort and the worker together *)
Example ex_plain : never_nested KSending KChannel [w_plain; w_shut; w_shut_renewal; w_dial; w_worker; w_abort].
Proof.
  assert (F : Forall (fun ops => (exists root, client_thread root ops) /\ ~ nests ops KSending KChannel)
                [w_plain; w_shut; w_shut_renewal; w_dial; w_worker; w_abort]).
  { pose proof plain_thread. pose proof shut_thread. pose proof shut_renewal_thread. pose proof dial_thread.
    pose proof worker_thread. pose proof abort_thread.
    repeat apply Forall_cons; try apply Forall_nil;
      (split; [eexists; eassumption|apply not_nested; vm_compute; intuition discriminate]). }
  rewrite Forall_forall in F. exact F.
Qed.
(** requests with extension objects, the worker and Abort together *)
Example ex_open : never_nested KChannel KSending [w_call; w_call; w_plain; w_worker; w_abort].
Proof.
  assert (F : Forall (fun ops => (exists root, client_thread root ops) /\ ~ nests ops KChannel KSending)
                [w_call; w_call; w_plain; w_worker; w_abort]).
  { pose proof plain_thread. pose proof call_thread. pose proof worker_thread. pose proof abort_thread.
    repeat apply Forall_cons; try apply Forall_nil;
      (split; [eexists; eassumption|apply not_nested; vm_compute; intuition discriminate]). }
  rewrite Forall_forall in F. exact F.
Qed.
Example ex_nests : nests w_call KSending KChannel /\ nests w_shut KChannel KSending.
Proof.
  split.
  - exists (firstn 2 w_call), Sh, channel, (skipn 3 w_call). repeat split. exists Ex, sender. repeat split. now left.
  - exists (firstn 9 w_shut), Ex, sender, (skipn 10 w_shut). repeat split. exists Ex, channel. repeat split. now left.
Qed.
Example ex_waits : waits_holding w_shut KChannel "response".
Proof. exists (firstn 14 w_shut), (skipn 15 w_shut). repeat split. exists Ex, channel. repeat split. now left. Qed.
Example ex_does : client_does "Client.Close" (map kind w_shut).
Proof. exact (proj1 shut_thread). Qed.
