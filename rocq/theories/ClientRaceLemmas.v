(** Runs of a client's functions for given outcomes of the conditions, the races they lead to, and examples. *)
From Coq Require Import ZArith String List Bool Lia Arith.
From Verif Require Import Flow Mutex Race HandlersAnalysis MutexSpec MutexProofs MutexLemmas RaceSpec RaceProofs RaceLemmas
  ClientLocksSpec ClientRace ClientRaceSpec ClientRaceProofs.
Import ListNotations.
Open Scope string_scope.
Open Scope list_scope.

Definition crun (root : string) (cs : list bool) : option (list xop) :=
  match find (fun r => String.eqb (fst r) root) data_roots with
  | Some (_, p) => match drive 500 p cs with Some (t, _, _) => Some (map xthe (aops_of t)) | None => None end
  | None => None
  end.

Lemma crun_thread root cs w : crun root cs = Some w -> client_data_thread root w.
Proof.
  unfold crun. destruct (find _ data_roots) as [[r p]|] eqn:F; [|discriminate].
  destruct (drive 500 p cs) as [[[t x] cs']|] eqn:D; [|discriminate]. intros [= <-].
  apply find_some in F as [I E]. cbn [fst] in E. apply String.eqb_eq in E. subst r. split; [|split].
  - exists p, t, x. split; [exact I|]. split; [eapply drive_run; exact D|]. symmetry. apply xkind_xthe.
  - destruct (bare_xthe (aops_of t)) as (ls & ->). apply paired_the. intros n k [].
  - apply located_xthe. intros n k [].
Qed.

Definition cwork (root : string) (cs : list bool) : list xop := match crun root cs with Some w => w | None => [] end.

(** a request that renews the token, in one chunk; one that does not *)
Definition cs_renew : list bool := [true; false; true; false; true; false; false; false; false; false; false; false; false; true; false; true; true; true; true; true; false; false; false; false].
Definition cs_plain : list bool := [false; false; false; false; true; false; false; true; true; false; false; false; false].
(** Dial up to the opened channel *)
Definition cs_dial : list bool := [false; false; false; false; false; true; false; false; false; false; false; true; true].
(** Dial that finds namespaces and servers *)
Definition cs_dial_all : list bool :=
  [false; false; false; false; false; true; false; false; false; false; false; false] ++
  [false; false; false; false; false; false] ++ [false] ++ [false; false; false; false; false; false; false] ++
  [false; false; false; false; false; false] ++ [true; true; false].
(** the worker receives a message of one chunk with new keys; it ends *)
Definition cs_worker : list bool := [true; true; false; true; true; true; true; true; true; false; false; false; false; true; true; false].
Definition cs_ends : list bool := [true; true; true; true].

Definition w_renew : list xop := Eval vm_compute in cwork "Client.request" cs_renew.
Definition w_plain : list xop := Eval vm_compute in cwork "Client.request" cs_plain.
Definition w_dial : list xop := Eval vm_compute in cwork "Dial" cs_dial.
Definition w_dial_all : list xop := Eval vm_compute in cwork "Dial" cs_dial_all.
Definition w_worker : list xop := Eval vm_compute in cwork "responseWorker" cs_worker.
Definition w_ends : list xop := Eval vm_compute in cwork "responseWorker" cs_ends.
Definition w_abort : list xop := Eval vm_compute in cwork "Client.Abort" [].

Lemma renew_thread : client_data_thread "Client.request" w_renew.
Proof. apply (crun_thread _ cs_renew). vm_compute. reflexivity. Qed.
Lemma plain_thread : client_data_thread "Client.request" w_plain.
Proof. apply (crun_thread _ cs_plain). vm_compute. reflexivity. Qed.
Lemma dial_thread : client_data_thread "Dial" w_dial.
Proof. apply (crun_thread _ cs_dial). vm_compute. reflexivity. Qed.
Lemma dial_all_thread : client_data_thread "Dial" w_dial_all.
Proof. apply (crun_thread _ cs_dial_all). vm_compute. reflexivity. Qed.
Lemma worker_thread : client_data_thread "responseWorker" w_worker.
Proof. apply (crun_thread _ cs_worker). vm_compute. reflexivity. Qed.
Lemma ends_thread : client_data_thread "responseWorker" w_ends.
Proof. apply (crun_thread _ cs_ends). vm_compute. reflexivity. Qed.
Lemma abort_thread : client_data_thread "Client.Abort" w_abort.
Proof. apply (crun_thread _ []). vm_compute. reflexivity. Qed.

(** ** The races *)
Definition cfound (w1 w2 : list xop) (f : string) (h1 h2 : list (mode * lock)) (schedule : list nat) : bool :=
  match state_of w1 w2 schedule with
  | Some (a, b) => wr_at KChannel f w1 a && acc_at KChannel f w2 b && heldb h1 a && heldb h2 b
  | None => false
  end.

Lemma cfound_race r1 r2 w1 w2 f h1 h2 schedule : client_data_thread r1 w1 -> client_data_thread r2 w2 ->
  cfound w1 w2 f h1 h2 schedule = true -> client_race r1 r2 f h1 h2.
Proof.
  unfold cfound. intros D1 D2 S. destruct (state_of _ _ schedule) as [[a b]|] eqn:St; [|discriminate S].
  rewrite !andb_true_iff in S. destruct S as [[[W A] H1] H2].
  destruct (wr_at_writes _ _ _ _ W) as (x & Nx & Wx). destruct (acc_at_accesses _ _ _ _ A) as (y & Ny & Ay).
  exists w1, w2, a, b. split; [exact D1|]. split; [exact D2|]. split; [eapply state_of_comes; eauto|].
  split; [|split; [now apply holdb_holding|split; [now apply holdb_holding|]]].
  - exists 0%nat, 1%nat, w1, w2, a, b, x, y. cbn [nth_error]. repeat split; auto.
  - destruct Wx as [v ->]. now exists v.
Qed.

Lemma race_token_id : client_race "Client.request" "Client.request" "tokenID" [(Ex, (KToken, 0%Z))] [(Ex, (KSending, 0%Z))].
Proof. apply (cfound_race _ _ w_renew w_plain _ _ _ (repeat 0 15 ++ repeat 1 5)%nat renew_thread plain_thread). vm_compute. reflexivity. Qed.

Lemma race_renewal : client_race "Client.request" "Client.request" "tokenRenewalTime" [(Ex, (KToken, 0%Z))] [].
Proof. apply (cfound_race _ _ w_renew w_plain _ _ _ (repeat 0 14 ++ repeat 1 1)%nat renew_thread plain_thread). vm_compute. reflexivity. Qed.

Lemma race_channel_id : client_race "Dial" "responseWorker" "channelID" [(Ex, (KToken, 0%Z)); (Ex, (KChannel, 0%Z))] [(Ex, (KReceiving, 0%Z))].
Proof. apply (cfound_race _ _ w_dial w_worker _ _ _ (repeat 0 16 ++ repeat 1 3)%nat dial_thread worker_thread). vm_compute. reflexivity. Qed.

Lemma race_closing : client_race "Client.Abort" "responseWorker" "closing" [(Ex, (KChannel, 0%Z))] [].
Proof. apply (cfound_race _ _ w_abort w_ends _ _ _ (repeat 0 2 ++ repeat 1 4)%nat abort_thread ends_thread). vm_compute. reflexivity. Qed.

Lemma both_renew : both_decide "Client.request" "Client.request" "tokenRenewalTime".
Proof.
  destruct (state_of w_renew w_renew (repeat 0 3 ++ repeat 1 3)%nat) as [[a b]|] eqn:St; [|vm_compute in St; discriminate St].
  exists w_renew, w_renew, a, b, ours, ours, ours, ours. split; [exact renew_thread|]. split; [exact renew_thread|].
  split; [eapply state_of_comes; exact St|]. vm_compute in St. injection St as <- <-.
  repeat split; try (vm_compute; reflexivity); right; left; reflexivity.
Qed.

(** ** Every protected field, and every field of the worker, is written by some thread *)
Definition cwriters : list (string * list xop) :=
  [("Client.request", w_renew); ("Dial", w_dial_all); ("responseWorker", w_worker); ("responseWorker", w_ends)].

Lemma cwriters_threads : Forall (fun w => client_data_thread (fst w) (snd w)) cwriters.
Proof.
  repeat apply Forall_cons; try apply Forall_nil; cbn [fst snd].
  - exact renew_thread.
  - exact dial_all_thread.
  - exact worker_thread.
  - exact ends_thread.
Qed.

Lemma cwriters_write : forallb (fun f => existsb (fun w => writes_it KChannel f (snd w)) cwriters)
  (flat_map snd client_guarded ++ of_worker) = true.
Proof. vm_compute. reflexivity. Qed.

Lemma all_fields_written f : (exists g, client_guard f g) \/ In f of_worker -> client_written f.
Proof.
  intros H. pose proof cwriters_write as C. rewrite forallb_forall in C.
  assert (I : In f (flat_map snd client_guarded ++ of_worker)).
  { apply in_or_app. destruct H as [(g & fs & I1 & I2)|H]; [|now right]. left. apply in_flat_map. now exists (KChannel, g, fs). }
  specialize (C _ I). apply existsb_exists in C as ([r w] & J & E). cbn [snd] in E.
  pose proof cwriters_threads as T. rewrite Forall_forall in T. specialize (T _ J). cbn [fst snd] in T.
  unfold writes_it in E. apply existsb_exists in E as (x & Ix & Ex). destruct x as [o|v [c n] f'|v [c n] f']; try discriminate Ex.
  cbn [fst] in Ex. apply andb_true_iff in Ex as [X1 X2]. apply cls_eqb_eq in X1. apply String.eqb_eq in X2. subst c f'.
  exists r, w, v, n. auto.
Qed.

(** ** The hypotheses can be met *)
(** Two requests, a Dial, the worker and Abort: the first request is about to write the key for signing, the second
    has to wait for the lock. *)
Definition starts : list string := ["Client.request"; "Client.request"; "Dial"; "responseWorker"; "Client.Abort"].
Definition together : list (list xop) := [w_renew; w_plain; w_dial_all; w_worker; w_abort].
Example together_threads : threads_of_client starts together /\ one_worker starts /\ clients_threads together.
Proof.
  assert (T : threads_of_client starts together).
  { repeat apply Forall2_cons; try apply Forall2_nil.
    - exact renew_thread.
    - exact plain_thread.
    - exact dial_all_thread.
    - exact worker_thread.
    - exact abort_thread. }
  split; [exact T|]. split.
  - intros i j Hi Hj.
    assert (G : forall k, nth_error starts k = Some "responseWorker" -> k = 3%nat).
    { intros [|[|[|[|[|[|k]]]]]] H; cbn in H; try discriminate H; reflexivity. }
    now rewrite (G _ Hi), (G _ Hj).
  - intros ops I. revert I. generalize together T. generalize starts. clear.
    intros s w F. induction F as [|r o s w P F IH]; cbn; [tauto|]. intros [<-|I]; eauto.
Qed.
Example together_runs : exists ts t, comes_to together ts /\ nth_error ts 0 = Some t /\
  next w_renew t = Some (XWr ours (KChannel, 0%Z) "localSigningKey") /\ client_guard "localSigningKey" KSending /\
  In (Ex, (KSending, 0%Z)) (th_held t) /\ step ts 1 = None.
Proof.
  destruct (execute (map fresh (map (map bare) together)) (repeat 0 33 ++ repeat 1 2)%nat) as [ts|] eqn:E; [|vm_compute in E; discriminate E].
  destruct ts as [|t r] eqn:Ets; [vm_compute in E; discriminate E|]. exists (t :: r), t.
  split; [exists (repeat 0 33 ++ repeat 1 2)%nat; exact E|]. split; [reflexivity|].
  vm_compute in E. injection E as <- <-. split; [vm_compute; reflexivity|]. split.
  - exists ["sendingTokenID"; "localSigningKey"; "localEncryptingKey"; "localInitializationVector"; "symSignHMAC"; "symEncryptingBlockCipher"].
    split; [right; right; left; reflexivity|right; left; reflexivity].
  - split; [right; left; reflexivity|vm_compute; reflexivity].
Qed.
Example ex_locks : client_performs "Client.Abort" (map xkind w_abort) /\ locks_in (map xkind w_abort) = [Lk Ex KChannel; Un Ex KChannel].
Proof. split; [exact (proj1 abort_thread)|reflexivity]. Qed.
