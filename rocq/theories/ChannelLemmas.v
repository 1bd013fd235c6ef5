(** Concrete cases for the theorems about secure channels. *)
From Coq Require Import ZArith List Bool Lia Strings.Byte ZifyBool ZifyNat.
From Verif Require Import Bytes Prim PrimSpec CodecSpec BytesProofs Chunk ChunkSpec Asym AsymSpec Keys KeysSpec KeysProofs ServerChannel ServerChannelSpec
  ServerChannelProofs Renew RenewSpec RenewProofs Requests RequestsSpec RequestsProofs.
Import ListNotations.
Open Scope Z_scope.

(** A toy HMAC of the right lengths, and toy oracles. *)
Definition toy_hmac (h : hash) (k m : bytes) : bytes :=
  firstn (Z.to_nat (hash_size h)) (m ++ k ++ repeat x00 (Z.to_nat (hash_size h))).
Lemma toy_good : good_hmac toy_hmac.
Proof.
  intros h k m. unfold toy_hmac. rewrite firstn_length, !app_length, repeat_length.
  destruct h; cbn [hash_size]; lia.
Qed.
Definition toy_dec (k v c : bytes) : bytes := c.
Definition toy_rsa (c : bytes) : option bytes := None.
Definition toy_verify (c : option bytes) (m s : bytes) : bool := false.
Definition toy_pol (u : bytes) : option pname := match u with [x4e] => Some PNone | [x53] => Some PBasic256Sha256 | _ => None end.
Definition toy_cert (c : option bytes) : rkey := NoKey.
Definition toy_decode (b : bytes) : option request :=
  match b with x52 :: n => Some (ReqOpen true n) | x43 :: _ => Some ReqClose | x41 :: _ => Some ReqOther | _ => None end.
Notation toy_step := (srv_step toy_hmac toy_dec toy_rsa toy_verify toy_pol toy_cert 256 toy_decode).
Notation toy_run := (srv_run toy_hmac toy_dec toy_rsa toy_verify toy_pol toy_cert 256 toy_decode).
Definition toy_opened : srv := opened 7 MSign PBasic256Sha256 None 1 [x01] [x02] 0 0.
(** a signed chunk under the token and the nonces *)
Definition toy_chunk (t : Z) (ln rn : bytes) (seq : Z) (body : bytes) : bytes :=
  let text := le_enc 4 t_final ++ le_enc 4 (24 + Z.of_nat (length body) + 32) ++ le_enc 4 7 ++ le_enc 4 t ++
              le_enc 4 seq ++ le_enc 4 9 ++ body in
  text ++ toy_hmac Sha256 (k_sign (derive toy_hmac PBasic256Sha256 ln rn)) text.
Definition arrive (b : bytes) : arrival := Arrive b [] [x03].

Lemma toy_accepts :
  snd (toy_run toy_opened [arrive (toy_chunk 1 [x01] [x02] 5 [x41]); arrive (bare_open [x4e] [x52; x09] 7 6 6)]) =
  [Chunk (toy_chunk 1 [x01] [x02] 5 [x41]) [x41]; Handed [x41] ReqOther;
   OpenChunk (bare_open [x4e] [x52; x09] 7 6 6) [x52; x09]; Handed [x52; x09] (ReqOpen true [x09]); Issued 2 [x03] [x09]].
Proof. vm_compute. reflexivity. Qed.

(** the same chunk, sequence number 5, three times *)
Lemma toy_replay :
  snd (toy_run toy_opened (repeat (arrive (toy_chunk 1 [x01] [x02] 5 [x41])) 3)) =
  concat (repeat [Chunk (toy_chunk 1 [x01] [x02] 5 [x41]) [x41]; Handed [x41] ReqOther] 3).
Proof. vm_compute. reflexivity. Qed.
Lemma replayed : exists hmac cbc_dec rsa_dec rsa_verify pol_uri cert_key lsize decode chan p t ln rn b part,
  good_hmac hmac /\ 
  snd (srv_run hmac cbc_dec rsa_dec rsa_verify pol_uri cert_key lsize decode (opened chan MSign p None t ln rn 0 0) [Arrive b [] []; Arrive b [] []]) =
  [Chunk b part; Handed part ReqOther; Chunk b part; Handed part ReqOther].
Proof.
  exists toy_hmac, toy_dec, toy_rsa, toy_verify, toy_pol, toy_cert, 256, toy_decode, 7, PBasic256Sha256, 1, [x01], [x02],
    (toy_chunk 1 [x01] [x02] 5 [x41]), [x41].
  split; [apply toy_good|]. vm_compute. reflexivity.
Qed.

(** Renewal used, then the old token again: refused. *)
Lemma toy_supersede :
  let open2 := Arrive (toy_chunk 1 [x01] [x02] 6 [x52; x09]) [] [x03] in
  snd (toy_run toy_opened [arrive (toy_chunk 1 [x01] [x02] 5 [x41]); open2;
                           arrive (toy_chunk 1 [x01] [x02] 7 [x41]); arrive (toy_chunk 2 [x03] [x09] 8 [x41])]) =
  [Chunk (toy_chunk 1 [x01] [x02] 5 [x41]) [x41]; Handed [x41] ReqOther;
   Chunk (toy_chunk 1 [x01] [x02] 6 [x52; x09]) [x52; x09]; Handed [x52; x09] (ReqOpen true [x09]); Issued 2 [x03] [x09];
   Chunk (toy_chunk 1 [x01] [x02] 7 [x41]) [x41]; Handed [x41] ReqOther;
   Chunk (toy_chunk 2 [x03] [x09] 8 [x41]) [x41]; Handed [x41] ReqOther] /\
  v_life (fst (toy_run toy_opened [arrive (toy_chunk 1 [x01] [x02] 5 [x41]); open2;
                           arrive (toy_chunk 1 [x01] [x02] 7 [x41]); arrive (toy_chunk 2 [x03] [x09] 8 [x41]);
                           arrive (toy_chunk 1 [x01] [x02] 9 [x41])])) = Closed.
Proof. vm_compute. split; reflexivity. Qed.

(* ------------------------------------------------------------------ *)
(** Renewals *)
Definition toy_kd : bytes -> bytes -> keyset := derive toy_hmac PBasic256Sha256.
Notation ren := (fold_left (renew_step toy_kd)).
Definition toy_start : sys := renew_start 1 [x01] [x02].

(** two renewals with traffic in flight *)
Definition toy_calm_ops : list rop :=
  [CHeader; CFinish; SRecv []; SSwitch; SSend; CRecv; CHeader; CFinish; RenewStart [x11]; CHeader; CFinish;
   SRecv []; SSend; SRecv [x12]; SSend; SRecv []; CRecv; CRecv; CRecv; CHeader; CFinish; RenewApply 0; SRecv [];
   SSend; CHeader; CFinish; SRecv []; SSwitch; SSend; CRecv; CRecv;
   RenewStart [x21]; SRecv [x22]; CRecv; RenewApply 0; CHeader; CFinish; SRecv []; SSwitch].
Lemma toy_calm : calm toy_kd toy_start toy_calm_ops (ren toy_calm_ops toy_start) /\
  settled (ren toy_calm_ops toy_start) /\ n_stok (ren toy_calm_ops toy_start) = n_tok (ren toy_calm_ops toy_start) /\
  n_tok (ren toy_calm_ops toy_start) = 3.
Proof.
  split.
  - unfold toy_calm_ops.
    repeat (eapply calm_cons; [vm_compute; try split; try reflexivity; try discriminate; try exact I|]).
    vm_compute. apply calm_nil.
  - vm_compute. repeat split; reflexivity.
Qed.

(** The guards are needed: each of these schedules breaks the channel. *)
Definition race_server : list rop :=      (* a response is sent in the middle of the server's switch *)
  [CHeader; CFinish; SRecv []; SSwitch; SSend; CRecv; RenewStart [x11]; SRecv [x12]; CRecv; RenewApply 0; CHeader; CFinish;
   SRecv []; SSend; SSwitch; CRecv].
Definition race_client : list rop :=      (* the renewal is stored while a chunk is half written *)
  [CHeader; CFinish; SRecv []; SSwitch; SSend; CRecv; RenewStart [x11]; SRecv [x12]; CRecv; CHeader; RenewApply 0; CFinish; SRecv []].
Definition early_renewal : list rop :=    (* renewed before anything came in under the first token *)
  [CHeader; CFinish; SRecv []; SSwitch; RenewStart [x11]; SRecv [x12]; SSend; CRecv; RenewApply 0; CRecv].
Definition two_renewals : list rop :=     (* two renewals at once: the first token is overwritten before it is used *)
  [CHeader; CFinish; SRecv []; SSwitch; SSend; CRecv; RenewStart [x11]; RenewStart [x21]; SRecv [x12]; CRecv; RenewApply 0;
   SRecv [x22]; CHeader; CFinish; SRecv []].
Definition unused_renewal : list rop :=   (* renewed again before the new token is used; a request goes out meanwhile *)
  [CHeader; CFinish; SRecv []; SSwitch; SSend; CRecv; RenewStart [x11]; SRecv [x12]; CRecv; RenewApply 0;
   RenewStart [x21]; SRecv [x22]; CHeader; CFinish; SRecv []].
Lemma toy_races : Forall (fun ops => broken (ren ops toy_start) = true)
  [race_server; race_client; early_renewal; two_renewals; unused_renewal].
Proof. repeat constructor. Qed.
Lemma races : exists hmac p t cn sn, good_hmac hmac /\ 0 < t /\
  Forall (fun ops => broken (fold_left (renew_step (derive hmac p)) ops (renew_start t cn sn)) = true)
    [race_server; race_client; early_renewal; two_renewals; unused_renewal].
Proof.
  exists toy_hmac, PBasic256Sha256, 1, [x01], [x02]. split; [apply toy_good|]. split; [lia|]. apply toy_races.
Qed.

(* ------------------------------------------------------------------ *)
(** Hello and Acknowledge *)
Lemma trusts_ack : exists c buf c', client_accept c buf = Some c' /\ e_recv c < e_recv c' /\ e_send c < e_send c'.
Proof.
  exists (mkEnds 8192 8192 0 0 0 0), (ack_layout (mkEnds 4294967295 4294967295 0 0 0 0)), (mkEnds 4294967295 4294967295 0 0 0 0).
  vm_compute. auto.
Qed.

(* ------------------------------------------------------------------ *)
(** Requests *)
Definition toy_q : list qop :=
  [QStart; QStart; QRegister 1; QSent 1 true; QRegister 0; QResponse 2 [x41]; QSent 0 true; QResponse 9 [x42]; QTake 1; QTimeout 0; QResponse 1 [x43]].
Lemma toy_requests : map cr_state (q_callers (q_run 0 toy_q)) = [Done TimedOut; Done (Got (FromServer 0 2 [x41]))] /\
  map cr_handle (q_callers (q_run 0 toy_q)) = [1; 2].
Proof. vm_compute. split; reflexivity. Qed.
Definition jam : list qop :=
  concat (map (fun i => [QStart; QRegister i; QSent i true]) (seq 0 32)) ++ [QStart; QClose].
Lemma jammed : exists ops i, forall ops', exists h b,
  nth_error (q_callers (q_run 0 (ops ++ ops'))) i = Some (mkCaller h Entering b).
Proof.
  exists jam, 32%nat. intros ops'. unfold q_run. rewrite fold_left_app.
  assert (S : stuck 32 (fold_left q_step jam (reqs0 0))).
  { split; [vm_compute; reflexivity|]. split; [vm_compute; reflexivity|]. exists 33, None. vm_compute. reflexivity. }
  pose proof (stuck_run 32 ops' _ S) as (_ & _ & h & b & N). eauto.
Qed.
(** without closing, when no response ever comes *)
Lemma no_response_step q o i h b : List.length (q_chan q) = chan_cap -> nth_error (q_callers q) i = Some (mkCaller h Entering b) ->
  (forall h' b', o <> QResponse h' b') ->
  List.length (q_chan (q_step q o)) = chan_cap /\ nth_error (q_callers (q_step q o)) i = Some (mkCaller h Entering b).
Proof.
  intros L N NR.
  assert (SET : forall j d st bf, nth_error (q_callers q) j = Some d -> cr_state d <> Entering ->
     nth_error (set_nth j (mkCaller (cr_handle d) st bf) (q_callers q)) i = Some (mkCaller h Entering b)).
  { intros j d st bf H1 H2. rewrite set_nth_neq; [exact N|]. intros ->. rewrite N in H1. injection H1 as <-. apply H2. reflexivity. }
  destruct o as [|j|j ok|j|j|j|j|h' b'|]; cbn [q_step].
  - split; [exact L|]. cbn. rewrite nth_error_app1 by now apply nth_lt in N. exact N.
  - destruct (nth_error (q_callers q) j) as [[h' [] b']|] eqn:E; auto. rewrite L. cbn. auto.
  - destruct (nth_error (q_callers q) j) as [[h' [] b']|] eqn:E; auto. split; [exact L|]. apply (SET j _ _ _ E). discriminate.
  - destruct (nth_error (q_callers q) j) as [[h' [] b']|] eqn:E; auto. split; [exact L|]. apply (SET j _ _ _ E). discriminate.
  - destruct (nth_error (q_callers q) j) as [[h' [] [b'|]]|] eqn:E; auto. split; [exact L|]. apply (SET j _ _ _ E). discriminate.
  - destruct (nth_error (q_callers q) j) as [[h' [] b']|] eqn:E; auto. split; [exact L|]. apply (SET j _ _ _ E). discriminate.
  - destruct (nth_error (q_callers q) j) as [[h' [] b']|] eqn:E; auto. destruct (q_closed q); auto. split; [exact L|]. apply (SET j _ _ _ E). discriminate.
  - now elim (NR h' b').
  - auto.
Qed.
Lemma silent_server : exists ops i, closeb ops = false /\ forall ops', Forall (fun o => forall h b, o <> QResponse h b) ops' -> exists h b,
  nth_error (q_callers (q_run 0 (ops ++ ops'))) i = Some (mkCaller h Entering b).
Proof.
  exists (concat (map (fun i => [QStart; QRegister i; QSent i true; QTimeout i]) (seq 0 32)) ++ [QStart]), 32%nat.
  split; [vm_compute; reflexivity|]. intros ops' F. unfold q_run. rewrite fold_left_app.
  set (q := fold_left q_step _ (reqs0 0)).
  assert (L : List.length (q_chan q) = chan_cap) by (vm_compute; reflexivity).
  assert (N : nth_error (q_callers q) 32 = Some (mkCaller 33 Entering None)) by (vm_compute; reflexivity).
  clearbody q. exists 33, None. revert q L N. induction F as [|o ops' NR F IH]; intros q L N; [exact N|].
  cbn [fold_left]. destruct (no_response_step q o 32 33 None L N NR). auto.
Qed.

(** An idle client, and one whose renewal failed. *)
Lemma idle_expires : exists tm l, tm = token_received 0 300000 /\ ~ on_time tm l /\ 
  forall x, In x l -> snd x = 300000.
Proof.
  exists (token_received 0 300000), [(225000, 300000); (300001, 300000)]. split; [reflexivity|].
  split; [vm_compute; intros [_ [C _]]; discriminate|]. intros x [<-|[<-|[]]]; reflexivity.
Qed.
Lemma postponed : exists lifetime now, let tm := token_received 0 lifetime in
  tm_due tm < now < tm_end tm /\ tm_end (request_at tm now None) <= tm_due (request_at tm now None).
Proof. exists 100000, 75001. vm_compute. repeat split; discriminate. Qed.
Lemma overdue : exists due now, now - due = 600000 /\ renewals 11 due now = Some 10%nat.
Proof. exists 225000, 825000. split; [reflexivity|]. vm_compute. reflexivity. Qed.

(* ------------------------------------------------------------------ *)
(** Forms used by the properties *)
Lemma counter_range ops i : (i < length (ct_out (counter_run 0 ops)))%nat ->
  1 <= snd (nth i (ct_out (counter_run 0 ops)) (O, 0)) < 2 ^ 32.
Proof. intros H. rewrite counter_nth by exact H. apply kth_range. Qed.
Lemma negotiation ccap scap c s url stale1 stale2 :
  ends_ok c -> ends_ok s -> len_ok url ->
  32 + Z.of_nat (length url) <= ccap < 2 ^ 32 -> 32 + Z.of_nat (length url) <= scap ->
  exists c' s', handshake ccap scap c s url stale1 stale2 = Some (c', s') /\
    e_send c' <= e_recv s' /\ e_send s' <= e_recv c' /\
    e_recv c' <= e_recv c /\ e_send c' <= e_send c /\ e_recv s' <= e_recv s /\ e_send s' <= e_send s /\
    e_max_req c' = e_max_req s /\ e_req_chunks c' = e_req_chunks s /\
    e_max_res s' = e_max_res c /\ e_res_chunks s' = e_res_chunks c.
Proof.
  intros. rewrite handshake_ok by assumption. do 2 eexists. split; [reflexivity|]. cbn. repeat split; lia.
Qed.
Lemma in_step_derive hmac p t cn sn ops z : 0 < t -> calm (derive hmac p) (renew_start t cn sn) ops z ->
  broken z = false /\ (settled z -> n_stok z = n_tok z -> in_step z).
Proof. apply calm_in_step. Qed.
Lemma superseded_run hmac cbc_dec rsa_dec rsa_verify pol_uri cert_key lsize decode m : secured m = true ->
  forall chan p cert t ln rn mc ms l, 0 < t < 2 ^ 32 ->
  forall pre b1 p1 mid1 b2 p2 mid2 b3 p3 post,
  Issued t ln rn :: snd (srv_run hmac cbc_dec rsa_dec rsa_verify pol_uri cert_key lsize decode (opened chan m p cert t ln rn mc ms) l) =
    pre ++ Chunk b1 p1 :: mid1 ++ Chunk b2 p2 :: mid2 ++ Chunk b3 p3 :: post ->
  token_of b2 <> token_of b1 -> token_of b3 = token_of b1 ->
  exists ln' rn', In (Issued (token_of b1) ln' rn') (mid1 ++ mid2).
Proof.
  intros S chan p cert t ln rn mc ms l T pre b1 p1 mid1 b2 p2 mid2 b3 p3 post E N2 N3.
  pose proof (run_ok hmac cbc_dec rsa_dec rsa_verify pol_uri cert_key lsize decode m S chan p cert t ln rn mc ms l T) as A.
  rewrite E in A. eapply (superseded hmac cbc_dec m (token_of b1)); eauto.
Qed.
Lemma not_closed ops : ~ In QClose ops <-> closeb ops = false.
Proof.
  unfold closeb. split.
  - intros H. destruct (existsb _ ops) eqn:E; [|reflexivity]. apply existsb_exists in E as (x & I & X).
    destruct x; try discriminate. contradiction.
  - intros H I. assert (X : existsb (fun o => match o with QClose => true | _ => false end) ops = true) by (apply existsb_exists; exists QClose; auto).
    congruence.
Qed.
Lemma delivered_open ops i c b : Z.of_nat (started ops) <= 2 ^ 32 - 1 -> ~ In QClose ops ->
  nth_error (q_callers (q_run 0 ops)) i = Some c -> outstanding c ->
  q_callers (q_run 0 (ops ++ [QResponse (cr_handle c) b])) =
    set_nth i (mkCaller (cr_handle c) (cr_state c) (Some (FromServer (length (arrivals ops)) (cr_handle c) b))) (q_callers (q_run 0 ops)).
Proof. intros L H. apply not_closed in H. now apply delivered. Qed.
Lemma silent : exists ops i, ~ In QClose ops /\
  forall ops', Forall (fun o => forall h b, o <> QResponse h b) ops' -> exists h b,
  nth_error (q_callers (q_run 0 (ops ++ ops'))) i = Some (mkCaller h Entering b).
Proof. destruct silent_server as (ops & i & C & H). exists ops, i. split; [now apply not_closed|exact H]. Qed.

(** Algorithms and key lengths of the policies, OPC UA part 7. *)
Lemma policy_hash p : psha_hash p = standard_hash p.
Proof. destruct p; reflexivity. Qed.
Lemma policy_lengths p : p <> PNone -> standard_lengths p = Some (sig_key (pol_of p), enc_key (pol_of p), blk_size (pol_of p)).
Proof. destruct p; intros H; [congruence|..]; reflexivity. Qed.

(** * Keys that fit *)
Lemma accepts_iff mine k : accepts mine k = true <-> mine = Some k.
Proof.
  unfold accepts, keyset_eqb. destruct mine as [[a b c]|]; [|split; discriminate]. destruct k as [a' b' c']. cbn [k_sign k_enc k_iv].
  rewrite !andb_true_iff, !bytes_eqb_eq. split; [intros [[-> ->] ->]; reflexivity|intros E; injection E as -> -> ->; auto].
Qed.
