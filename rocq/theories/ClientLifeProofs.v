(** Proofs about clients' connections. *)
From Coq Require Import List Bool Arith Lia.
From Verif Require Import ClientLife ClientLifeSpec.
Import ListNotations.

(** * Lists *)
Lemma set_nth_length {A} (x : A) l : forall i, length (set_nth i x l) = length l.
Proof. induction l as [|a l IH]; intros [|i]; cbn; auto. Qed.
Lemma set_nth_same {A} (x : A) l : forall i, i < length l -> nth_error (set_nth i x l) i = Some x.
Proof. induction l as [|a l IH]; intros [|i] H; cbn in *; try lia; [reflexivity|]. apply IH. lia. Qed.
Lemma set_nth_other {A} (x : A) l : forall i j, i <> j -> nth_error (set_nth i x l) j = nth_error l j.
Proof. induction l as [|a l IH]; intros [|i] [|j] H; cbn; try reflexivity; try congruence. apply IH. congruence. Qed.
Lemma set_nth_error {A} (x : A) l i j : nth_error (set_nth i x l) j = if Nat.eq_dec i j then match nth_error l j with Some _ => Some x | None => None end else nth_error l j.
Proof.
  destruct (Nat.eq_dec i j) as [<-|N]; [|apply set_nth_other; exact N]. destruct (nth_error l i) eqn:E.
  - apply set_nth_same. apply nth_error_Some. congruence.
  - apply nth_error_None. rewrite set_nth_length. apply nth_error_None. exact E.
Qed.
Lemma nth_error_snoc {A} (l : list A) x j : nth_error (l ++ [x]) j = if Nat.eq_dec j (length l) then Some x else nth_error l j.
Proof.
  destruct (Nat.eq_dec j (length l)) as [->|N]; [rewrite nth_error_app2, Nat.sub_diag by lia; reflexivity|].
  destruct (Nat.lt_ge_cases j (length l)) as [L|L]; [apply nth_error_app1; exact L|].
  rewrite (proj2 (nth_error_None _ _)) by (rewrite app_length; cbn; lia). symmetry. apply nth_error_None. exact L.
Qed.

(** * Steps *)
(** Channels that are nobody's stay as they are (but for the end of their workers) *)
Lemma discover_shut d : ~ half_open (df_open d) -> c_conn (fst (discover d)) <> Open.
Proof. unfold discover, half_open. destruct d as [f a p]. cbn [df_open df_answer df_close]. intros H. destruct f, a, p; cbn; try discriminate; exfalso; apply H; split; discriminate. Qed.
Lemma discover_half d : half_open (df_open d) -> c_conn (fst (discover d)) = Open /\ snd (discover d) = false.
Proof. unfold discover, half_open. destruct d as [f a p]. cbn [df_open df_answer df_close]. intros [H K]. destruct f; cbn; try (split; reflexivity); congruence. Qed.
Lemma abort_shut ch : c_conn (abort_chan ch) <> Open.
Proof. destruct ch as [[| |] k b]; discriminate. Qed.

(** The invariant: clients in use have numbers of channels of their own, open; under proper fates nothing else is open *)
Definition inv (w : world) (u : list nat) : Prop :=
  forall i, In i u -> exists ch, nth_error (w_chans w) i = Some (ch, true) /\ c_conn ch = Open.
Definition tight (w : world) (u : list nat) : Prop :=
  forall i ch b, nth_error (w_chans w) i = Some (ch, b) -> c_conn ch = Open -> In i u.
Lemma inv_snoc w u x : inv w u -> inv (mkWorld (w_chans w ++ [x])) u.
Proof. intros V i I. destruct (V i I) as (ch & N & C). exists ch. split; [|exact C]. cbn. rewrite nth_error_app1; [exact N|]. apply nth_error_Some. congruence. Qed.
Lemma in_remove_neq i j u : In i (remove Nat.eq_dec j u) <-> In i u /\ i <> j.
Proof. split; [apply in_remove|intros [A B]; apply in_in_remove; auto]. Qed.
Lemma tight_snoc w u ch b : tight w u -> c_conn ch <> Open -> tight (mkWorld (w_chans w ++ [(ch, b)])) u.
Proof.
  intros V C i ch' b' N O. cbn in N. rewrite nth_error_snoc in N. destruct (Nat.eq_dec _ _); [inversion N; subst; contradiction|]. eapply V; eauto.
Qed.
Lemma inv_step o w u : inv w u -> inv (fst (step o w)) (used1 u (o, snd (step o w))).
Proof.
  intros V. destruct o as [d|l|i s p|i|i]; cbn [step].
  - destruct (discover d) as [ch ok]. cbn [fst snd used1]. apply inv_snoc. exact V.
  - destruct (discover (lf_discover l)) as [d ok]. destruct (ok && lf_select l); [|cbn; apply inv_snoc; exact V].
    destruct (open_chan (lf_open l)) as [ch opened] eqn:E. destruct (opened && request_chan (lf_session l) ch) eqn:R; cbn [fst snd used1].
    + intros i [<-|I]; [|exact (inv_snoc (add d false w) u (ch, true) (inv_snoc w u _ V) i I)].
      exists ch. split; [unfold add at 1; cbn [w_chans]; rewrite nth_error_snoc; destruct (Nat.eq_dec _ _); congruence|].
      apply andb_true_iff in R as [_ R]. apply andb_true_iff in R as [R _]. destruct (c_conn ch); try discriminate. reflexivity.
    + exact (inv_snoc (add d false w) u _ (inv_snoc w u _ V)).
  - unfold client. destruct (nth_error (w_chans w) i) as [[ch b]|] eqn:N; [|exact V]. destruct b; [|exact V].
    destruct (request_chan s ch) eqn:R; [|exact V]. cbn [fst snd used1]. intros j J. apply in_remove_neq in J as [J D]. destruct (V j J) as (c & M & C). exists c. split; [|exact C].
    cbn. rewrite set_nth_other by congruence. exact M.
  - unfold client. destruct (nth_error (w_chans w) i) as [[ch [|]]|] eqn:N; cbn [fst snd used1]; intros j J; apply in_remove_neq in J as [J D]; destruct (V j J) as (c & M & C); exists c; (split; [|exact C]); cbn; [|exact M|exact M].
    rewrite set_nth_other by congruence. exact M.
  - destruct (nth_error (w_chans w) i) as [[ch b]|] eqn:N; cbn [fst snd used1]; [|exact V]. intros j J. destruct (V j J) as (c & M & C). cbn. rewrite set_nth_error.
    destruct (Nat.eq_dec i j) as [<-|D]; [|exists c; auto]. rewrite M. rewrite N in M. inversion M; subst. eexists. split; [reflexivity|]. exact C.
Qed.
Lemma tight_step o w u : proper o -> inv w u -> tight w u -> tight (fst (step o w)) (used1 u (o, snd (step o w))).
Proof.
  intros [P Q] V T. destruct o as [d|l|i s p|i|i]; cbn [step].
  - pose proof (discover_shut d P) as D. destruct (discover d) as [ch ok]. cbn [fst snd used1]. apply tight_snoc; auto.
  - pose proof (discover_shut (lf_discover l) P) as D. destruct (discover (lf_discover l)) as [d ok]. destruct (ok && lf_select l); [|cbn; apply tight_snoc; auto].
    destruct (open_chan (lf_open l)) as [ch opened] eqn:E. destruct (opened && request_chan (lf_session l) ch) eqn:R; cbn [fst snd used1].
    + intros i c b N O. unfold add at 1 in N. cbn [w_chans] in N. rewrite nth_error_snoc in N. destruct (Nat.eq_dec _ _) as [->|D']; [left; reflexivity|right].
      exact (tight_snoc w u d false T D i c b N O).
    + apply (tight_snoc (add d false w)); [apply tight_snoc; auto|apply abort_shut].
  - unfold client. destruct (nth_error (w_chans w) i) as [[ch b]|] eqn:N; [|exact T]. destruct b; [|exact T].
    destruct (request_chan s ch) eqn:R; [|exact T]. cbn [fst snd used1]. intros j c b M O. apply in_remove_neq. cbn in M. rewrite set_nth_error in M.
    destruct (Nat.eq_dec i j) as [<-|D]; [|split; [eapply T; eauto|congruence]]. exfalso. rewrite N in M. inversion M; subst. clear M.
    apply andb_true_iff in R as [R _]. unfold close_chan in O. rewrite R in O. destruct p; try (apply Q; discriminate).
  - unfold client. destruct (nth_error (w_chans w) i) as [[ch [|]]|] eqn:N; cbn [fst snd used1]; intros j c b M O; apply in_remove_neq.
    + cbn in M. rewrite set_nth_error in M. destruct (Nat.eq_dec i j) as [<-|D]; [|split; [eapply T; eauto|congruence]]. rewrite N in M. inversion M; subst. exfalso. eapply abort_shut; eauto.
    + split; [eapply T; eauto|]. intros ->. pose proof (T _ _ _ M O) as I. destruct (V _ I) as (c' & M' & _). congruence.
    + split; [eapply T; eauto|]. congruence.
  - destruct (nth_error (w_chans w) i) as [[ch b]|] eqn:N; cbn [fst snd used1]; [|exact T]. intros j c b' M O. cbn in M. rewrite set_nth_error in M.
    destruct (Nat.eq_dec i j) as [<-|D]; [|eapply T; eauto]. rewrite N in M. inversion M; subst. eapply T; [exact N|exact O].
Qed.
Lemma run_inv ops : forall w u, inv w u -> inv (fst (run ops w)) (fold_left used1 (snd (run ops w)) u).
Proof.
  induction ops as [|o ops IH]; intros w u V; [exact V|]. cbn [run]. pose proof (inv_step o w u V) as V1. destruct (step o w) as [w1 x]. specialize (IH w1 _ V1). destruct (run ops w1) as [w2 t]. exact IH.
Qed.
Lemma run_tight ops : forall w u, Forall proper ops -> inv w u -> tight w u -> tight (fst (run ops w)) (fold_left used1 (snd (run ops w)) u).
Proof.
  induction ops as [|o ops IH]; intros w u P V T; [exact T|]. inversion P as [|? ? P1 P2]; subst. cbn [run]. pose proof (inv_step o w u V) as V1. pose proof (tight_step o w u P1 V T) as T1.
  destruct (step o w) as [w1 x]. specialize (IH w1 _ P2 V1 T1). destruct (run ops w1) as [w2 t]. exact IH.
Qed.
Lemma inv_empty : inv empty [].
Proof. intros i []. Qed.
Lemma tight_empty : tight empty [].
Proof. intros [|i] ch b N; discriminate. Qed.
(** A client in use keeps its connection; nothing else keeps one *)
Lemma used_connected ops i : In i (in_use (snd (run ops empty))) -> connected (fst (run ops empty)) i.
Proof. intros I. destruct (run_inv ops empty [] inv_empty i I) as (ch & N & C). exists ch, true. auto. Qed.
Lemma connected_used ops i : Forall proper ops -> connected (fst (run ops empty)) i -> In i (in_use (snd (run ops empty))).
Proof. intros P (ch & b & N & C). exact (run_tight ops empty [] P inv_empty tight_empty i ch b N C). Qed.
Lemma exact_connections ops i : Forall proper ops -> connected (fst (run ops empty)) i <-> In i (in_use (snd (run ops empty))).
Proof. intros P. split; [apply connected_used; exact P|apply used_connected]. Qed.

(** ** Workers *)
Lemma readers ops i : Forall proper ops -> settled (fst (run ops empty)) -> reads (fst (run ops empty)) i -> In i (in_use (snd (run ops empty))).
Proof.
  intros P S (ch & b & N & R). apply exact_connections; [exact P|]. exists ch, b. split; [exact N|].
  destruct (c_conn ch) eqn:C; try reflexivity; exfalso; (eapply S; [exact N| |exact R]); congruence.
Qed.

(** ** Abort *)
Lemma abort_frees ops i : let w := fst (run ops empty) in In i (in_use (snd (run ops empty))) -> ~ connected (fst (step (AbortClient i) w)) i /\ snd (step (AbortClient i) w) = ROk.
Proof.
  cbv zeta. intros I. destruct (run_inv ops empty [] inv_empty i I) as (ch & N & C). cbn [step]. unfold client. rewrite N. cbn [fst snd]. split; [|reflexivity].
  intros (c & b & M & O). cbn in M. rewrite set_nth_error in M. destruct (Nat.eq_dec i i); [|congruence]. rewrite N in M. inversion M; subst. eapply abort_shut; eauto.
Qed.
(** ** A Dial that fails leaves nothing, once its discovery got its channel open (or no connection) *)
Lemma failed_dial l w i : ~ half_open (df_open (lf_discover l)) -> snd (step (Dial l) w) = RErr -> connected (fst (step (Dial l) w)) i -> connected w i.
Proof.
  intros H. cbn [step]. pose proof (discover_shut _ H) as D. destruct (discover (lf_discover l)) as [d ok]. cbn [fst] in D.
  assert (G : forall ch b w', c_conn ch <> Open -> connected (add ch b w') i -> connected w' i).
  { intros ch b w' C (c & b' & N & O). cbn in N. rewrite nth_error_snoc in N. destruct (Nat.eq_dec _ _); [inversion N; subst; contradiction|]. exists c, b'. auto. }
  destruct (ok && lf_select l); [|intros _; apply G; exact D].
  destruct (open_chan (lf_open l)) as [ch opened]. destruct (opened && request_chan (lf_session l) ch); [discriminate|].
  intros _ K. apply (G d false w D), (G (abort_chan ch) false (add d false w) (abort_shut ch)). exact K.
Qed.

(** * What goes wrong *)
Lemma stays o w i ch : nth_error (w_chans w) i = Some (ch, false) -> exists ch', nth_error (w_chans (fst (step o w))) i = Some (ch', false) /\ c_conn ch' = c_conn ch.
Proof.
  intros N. assert (S : forall x, nth_error (w_chans w ++ [x]) i = Some (ch, false)) by (intros x; rewrite nth_error_app1; [exact N|apply nth_error_Some; congruence]).
  destruct o as [d|l|j s p|j|j]; cbn [step].
  - destruct (discover d) as [c ok]. exists ch. cbn. auto.
  - destruct (discover (lf_discover l)) as [d ok]. destruct (ok && lf_select l); [|exists ch; cbn; auto].
    destruct (open_chan (lf_open l)) as [c opened]. assert (S2 : forall x, nth_error ((w_chans w ++ [(d, false)]) ++ [x]) i = Some (ch, false)) by (intros x; rewrite nth_error_app1; [apply S|apply nth_error_Some; rewrite S; discriminate]).
    destruct (opened && request_chan (lf_session l) c); exists ch; cbn; auto.
  - unfold client. destruct (nth_error (w_chans w) j) as [[c [|]]|] eqn:M; try (exists ch; auto; fail). destruct (request_chan s c); [|exists ch; auto]. exists ch. cbn. rewrite set_nth_other by congruence. auto.
  - unfold client. destruct (nth_error (w_chans w) j) as [[c [|]]|] eqn:M; try (exists ch; auto; fail). exists ch. cbn. rewrite set_nth_other by congruence. auto.
  - destruct (nth_error (w_chans w) j) as [[c b]|] eqn:M; [|exists ch; auto]. cbn. rewrite set_nth_error. destruct (Nat.eq_dec j i) as [->|D]; [|exists ch; auto]. rewrite N in *. inversion M; subst. eexists. split; reflexivity.
Qed.
Lemma stays_run ops : forall w i ch, nth_error (w_chans w) i = Some (ch, false) -> exists ch', nth_error (w_chans (fst (run ops w))) i = Some (ch', false) /\ c_conn ch' = c_conn ch.
Proof.
  induction ops as [|o ops IH]; intros w i ch N; [exists ch; auto|]. cbn [run]. destruct (stays o w i ch N) as (c & N1 & C1). destruct (step o w) as [w1 x].
  destruct (IH w1 i c N1) as (c2 & N2 & C2). destruct (run ops w1) as [w2 t]. exists c2. split; [exact N2|congruence].
Qed.
(** A discovery that connects but does not get its channel open keeps the connection, whatever is called later *)
Lemma leak d w ops : half_open (df_open d) -> snd (step (Discover d) w) = RErr /\ connected (fst (run ops (fst (step (Discover d) w)))) (length (w_chans w)).
Proof.
  intros H. destruct (discover_half d H) as [D E]. cbn [step]. destruct (discover d) as [ch ok]. cbn [fst snd] in *. subst ok. split; [reflexivity|].
  destruct (stays_run ops (add ch false w) (length (w_chans w)) ch) as (c & N & C); [cbn; rewrite nth_error_snoc; destruct (Nat.eq_dec _ _); congruence|]. exists c, false. split; [exact N|congruence].
Qed.
Lemma leaks n : forall d w, half_open (df_open d) -> forall i, length (w_chans w) <= i < length (w_chans w) + n -> connected (fst (run (repeat (Discover d) n) w)) i.
Proof.
  induction n as [|n IH]; intros d w H i R; [lia|]. cbn [repeat run]. destruct (leak d w (repeat (Discover d) n) H) as [_ L]. pose proof (IH d (fst (step (Discover d) w)) H i) as G.
  assert (E : length (w_chans (fst (step (Discover d) w))) = S (length (w_chans w))) by (cbn [step]; destruct (discover d); cbn; rewrite app_length; cbn; lia).
  destruct (step (Discover d) w) as [w1 x]. cbn [fst] in *. destruct (run (repeat (Discover d) n) w1) as [w2 t]. cbn [fst] in *.
  destruct (Nat.eq_dec i (length (w_chans w))) as [->|N]; [exact L|]. apply G. lia.
Qed.
(** Close returns an error and leaves the connection, because the session could not be closed *)
Lemma close_session_fails ops i p : In i (in_use (snd (run ops empty))) ->
  snd (step (CloseClient i false p) (fst (run ops empty))) = RErr /\ connected (fst (step (CloseClient i false p) (fst (run ops empty)))) i.
Proof.
  intros I. destruct (run_inv ops empty [] inv_empty i I) as (ch & N & C). cbn [step]. unfold client. rewrite N. unfold request_chan. rewrite andb_false_r. cbn [fst snd].
  split; [reflexivity|]. exists ch, true. auto.
Qed.
(** Close returns no error and leaves the connection *)
Lemma close_lies ops i p : p <> PResponse -> In i (in_use (snd (run ops empty))) ->
  snd (step (CloseClient i true p) (fst (run ops empty))) = ROk /\ connected (fst (step (CloseClient i true p) (fst (run ops empty)))) i.
Proof.
  intros P I. destruct (run_inv ops empty [] inv_empty i I) as (ch & N & C). cbn [step]. unfold client. rewrite N. unfold request_chan. rewrite C. cbn [is_open andb fst snd].
  split; [reflexivity|]. unfold close_chan. rewrite C. cbn [is_open]. exists (mkChan Open (match p with PGone => Ended | _ => c_worker ch end) true), true. split; [|reflexivity].
  cbn. rewrite set_nth_error. destruct (Nat.eq_dec i i); [|congruence]. rewrite N. destruct p; try congruence; reflexivity.
Qed.
(** The server answered the discovery, but the end of its connection is seen first: no result *)
Lemma answer_lost w : snd (step (Discover (mkDf FOpened true PGone)) w) = RErr.
Proof. reflexivity. Qed.
(** ** IsClosing *)
Lemma abort_says ops i p : let w := fst (run ops empty) in In i (in_use (snd (run ops empty))) ->
  says_closing (fst (step (AbortClient i) w)) i /\ says_closing (fst (step (CloseClient i true p) w)) i.
Proof.
  cbv zeta. intros I. destruct (run_inv ops empty [] inv_empty i I) as (ch & N & C). cbn [step]. unfold client, request_chan, close_chan. rewrite N. cbn [fst snd]. rewrite C. cbn [is_open andb].
  split; [|destruct p]; (eexists _, _; split; [cbn; rewrite set_nth_error; destruct (Nat.eq_dec i i); [|congruence]; rewrite N; reflexivity|reflexivity]).
Qed.
