(** What a client takes and gives back. *)
From Coq Require Import List Bool Arith.
From Verif Require Import ClientLife ClientLifeSpec ClientLifeProofs ClientLifeLemmas.
Import ListNotations.

(** Unless a discovery connected but did not get its channel open, or the last step of a Close failed: the connections
    open are those of the clients in use. *)
Theorem c107_connections_partial : forall ops i, Forall proper ops ->
  connected (fst (run ops empty)) i <-> In i (in_use (snd (run ops empty))).
Proof. exact exact_connections. Qed.
Print Assumptions c107_connections_partial.

(** Then also, when time has passed, only clients in use have a goroutine that reads. *)
Theorem c107_goroutines_partial : forall ops i, Forall proper ops -> settled (fst (run ops empty)) ->
  reads (fst (run ops empty)) i -> In i (in_use (snd (run ops empty))).
Proof. exact readers. Qed.
Print Assumptions c107_goroutines_partial.

(** A client in use keeps its connection, whatever else is called. *)
Theorem c107_clients_stay_connected : forall ops i, In i (in_use (snd (run ops empty))) -> connected (fst (run ops empty)) i.
Proof. exact used_connected. Qed.
Print Assumptions c107_clients_stay_connected.

(** Abort gives the connection back. *)
Theorem c107_abort_frees : forall ops i, let w := fst (run ops empty) in In i (in_use (snd (run ops empty))) ->
  ~ connected (fst (step (AbortClient i) w)) i /\ snd (step (AbortClient i) w) = ROk.
Proof. exact abort_frees. Qed.
Print Assumptions c107_abort_frees.

(** A Dial that fails leaves no connection, unless its discovery connected but did not get its channel open. *)
Theorem c107_failed_dial_partial : forall l w i, ~ half_open (df_open (lf_discover l)) -> snd (step (Dial l) w) = RErr ->
  connected (fst (step (Dial l) w)) i -> connected w i.
Proof. exact failed_dial. Qed.
Print Assumptions c107_failed_dial_partial.

(** In that case the connection stays open whatever is called later, *)
Theorem c107_discovery_leaks_refuted : forall d w ops, half_open (df_open d) ->
  snd (step (Discover d) w) = RErr /\ connected (fst (run ops (fst (step (Discover d) w)))) (length (w_chans w)).
Proof. exact leak. Qed.
Print Assumptions c107_discovery_leaks_refuted.

(** and n such discoveries leave n connections. *)
Theorem c107_leaks_add_up_refuted : forall n d w, half_open (df_open d) -> forall i, length (w_chans w) <= i < length (w_chans w) + n ->
  connected (fst (run (repeat (Discover d) n) w)) i.
Proof. exact leaks. Qed.
Print Assumptions c107_leaks_add_up_refuted.

(** A Close that cannot close the session leaves the connection open. *)
Theorem c107_close_session_refuted : forall ops i p, In i (in_use (snd (run ops empty))) ->
  snd (step (CloseClient i false p) (fst (run ops empty))) = RErr /\ connected (fst (step (CloseClient i false p) (fst (run ops empty)))) i.
Proof. exact close_session_fails. Qed.
Print Assumptions c107_close_session_refuted.

(** A Close whose last step fails leaves it open and returns no error. *)
Theorem c107_close_without_error_refuted : forall ops i p, p <> PResponse -> In i (in_use (snd (run ops empty))) ->
  snd (step (CloseClient i true p) (fst (run ops empty))) = ROk /\ connected (fst (step (CloseClient i true p) (fst (run ops empty)))) i.
Proof. exact close_lies. Qed.
Print Assumptions c107_close_without_error_refuted.

(** A discovery the server answered has no result when the end of the connection is seen before the answer to Close. *)
Theorem c107_answer_lost_refuted : forall w, snd (step (Discover (mkDf FOpened true PGone)) w) = RErr.
Proof. exact answer_lost. Qed.
Print Assumptions c107_answer_lost_refuted.

(** Abort and Close mark the client, so that its goroutine can tell the end from a failure. *)
Theorem c107_marks_closing : forall ops i p, let w := fst (run ops empty) in In i (in_use (snd (run ops empty))) ->
  says_closing (fst (step (AbortClient i) w)) i /\ says_closing (fst (step (CloseClient i true p) w)) i.
Proof. exact abort_says. Qed.
Print Assumptions c107_marks_closing.
