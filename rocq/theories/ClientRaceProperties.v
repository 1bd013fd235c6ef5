(** Accesses of a client's goroutines to the data of its channel. *)
From Coq Require Import ZArith String List Bool.
From Verif Require Import Flow Mutex Race MutexSpec RaceSpec ClientLocksSpec ClientRace ClientRaceSpec ClientRaceProofs ClientRaceLemmas.
Import ListNotations.
Open Scope string_scope.

(** * C112: goroutines of a client do not access data while another writes it *)

(** For the fields of [client_guarded]: no schedule of any number of calls, with the worker, comes to a race. Missing:
    the ids of the channel and the token, the time of the renewal, and whether the channel is closing (refuted below). *)
Theorem c112_no_race_partial : forall work ts, clients_threads work -> comes_to work ts ->
  forall f g n, client_guard f g -> ~ race work ts (KChannel, n) f.
Proof. exact client_no_race. Qed.
Print Assumptions c112_no_race_partial.

(** While a thread has the lock, no other thread writes these fields, nor reads them if it has the lock for writing. *)
Theorem c112_protects_partial : forall work ts, clients_threads work -> comes_to work ts ->
  forall i j ops ti tj m x n f g, i <> j -> nth_error ts i = Some ti -> In (m, (g, n)) (th_held ti) ->
  nth_error work j = Some ops -> nth_error ts j = Some tj -> next ops tj = Some x -> client_guard f g ->
  (m = Ex -> ~ accesses x (KChannel, n) f) /\ ~ writes x (KChannel, n) f.
Proof. exact client_protects. Qed.
Print Assumptions c112_protects_partial.

(** The map of the pending responses and the final status belong to the worker: no other thread accesses them. *)
Theorem c112_worker_only : forall root ops f x n, client_data_thread root ops -> In f of_worker -> In x ops ->
  accesses x (KChannel, n) f -> root = "responseWorker".
Proof. exact only_worker. Qed.
Print Assumptions c112_worker_only.

(** So there is no race on them, as a channel has one worker. *)
Theorem c112_worker_alone : forall starts work ts, threads_of_client starts work -> one_worker starts -> comes_to work ts ->
  forall f n, In f of_worker -> ~ race work ts (KChannel, n) f.
Proof. exact worker_alone. Qed.
Print Assumptions c112_worker_alone.

(** Each of these fields is written by some thread after the worker was started. *)
Theorem c112_written : forall f, (exists g, client_guard f g) \/ In f of_worker -> client_written f.
Proof. exact all_fields_written. Qed.
Print Assumptions c112_written.

(** The threads take the locks as in C109. *)
Theorem c112_same_locks : forall root ks, client_performs root ks -> client_does root (locks_in ks).
Proof. exact same_locks. Qed.
Print Assumptions c112_same_locks.

(** A request writes the id of the token into its header while another request, which renews the token, changes it. *)
Theorem c112_token_refuted :
  client_race "Client.request" "Client.request" "tokenID" [(Ex, (KToken, 0%Z))] [(Ex, (KSending, 0%Z))].
Proof. exact race_token_id. Qed.
Print Assumptions c112_token_refuted.

(** A request reads the time of the next renewal while another changes it. Two requests can both find that it has
    come, before either puts it off: both renew the token. *)
Theorem c112_renewal_refuted :
  client_race "Client.request" "Client.request" "tokenRenewalTime" [(Ex, (KToken, 0%Z))] [] /\
  both_decide "Client.request" "Client.request" "tokenRenewalTime".
Proof. exact (conj race_renewal both_renew). Qed.
Print Assumptions c112_renewal_refuted.

(** The worker compares the id of the channel in a message with the channel's while Dial sets it. *)
Theorem c112_channel_refuted :
  client_race "Dial" "responseWorker" "channelID" [(Ex, (KToken, 0%Z)); (Ex, (KChannel, 0%Z))] [(Ex, (KReceiving, 0%Z))].
Proof. exact race_channel_id. Qed.
Print Assumptions c112_channel_refuted.

(** The worker, whose connection was closed, reads whether the channel is closing while Abort sets it. *)
Theorem c112_closing_refuted : client_race "Client.Abort" "responseWorker" "closing" [(Ex, (KChannel, 0%Z))] [].
Proof. exact race_closing. Qed.
Print Assumptions c112_closing_refuted.
