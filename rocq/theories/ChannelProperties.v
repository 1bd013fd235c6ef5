(** C26-C32, C71, C73, C74: secure channels.  Property theorems only. *)
From Coq Require Import ZArith List Bool Lia Strings.Byte.
From Verif Require Import Bytes Prim PrimSpec CodecSpec BytesProofs Chunk ChunkSpec ChunkProofs Asym AsymSpec Keys KeysSpec KeysProofs
  ServerChannel ServerChannelSpec ServerChannelProofs ServerChannelLemmas Renew RenewSpec RenewProofs
  Requests RequestsSpec RequestsProofs ChannelLemmas.
Import ListNotations.
Open Scope Z_scope.

(** * C26 *)
(** Whatever the interleaving of loads and swaps, the ids handed out are 1, 2, ..., 2^32-1, 1, ... in this order. *)
Theorem c26_consecutive : forall ops i, (i < length (ct_out (counter_run 0 ops)))%nat ->
  snd (nth i (ct_out (counter_run 0 ops)) (O, 0)) = Z.of_nat i mod (2 ^ 32 - 1) + 1.
Proof. exact counter_nth. Qed.
Print Assumptions c26_consecutive.
Theorem c26_never_zero : forall ops i, (i < length (ct_out (counter_run 0 ops)))%nat ->
  1 <= snd (nth i (ct_out (counter_run 0 ops)) (O, 0)) < 2 ^ 32.
Proof. exact counter_range. Qed.
Print Assumptions c26_never_zero.
Theorem c26_no_repeat : forall ops i j,
  (i < j < length (ct_out (counter_run 0 ops)))%nat -> Z.of_nat j < Z.of_nat i + (2 ^ 32 - 1) ->
  snd (nth i (ct_out (counter_run 0 ops)) (O, 0)) <> snd (nth j (ct_out (counter_run 0 ops)) (O, 0)).
Proof. exact counter_distinct. Qed.
Print Assumptions c26_no_repeat.
Example c26_ex : ct_out (counter_run 0 [CLoad 0; CLoad 1; CCas 1; CCas 0; CLoad 0; CCas 0]) = [(1%nat, 1); (0%nat, 2)].
Proof. reflexivity. Qed.
Example c26_wrap : next_counter 4294967294 = 4294967295 /\ next_counter 4294967295 = 1.
Proof. split; reflexivity. Qed.

(** * C31 *)
Theorem c31_is_p_hash : forall hmac, good_hmac hmac -> forall secret seed n p k,
  0 <= n <= hash_size (psha_hash p) * Z.of_nat k ->
  psha hmac secret seed n p = firstn (Z.to_nat n) (p_hash (hmac (psha_hash p) secret) seed k).
Proof. exact psha_p_hash. Qed.
Print Assumptions c31_is_p_hash.
Theorem c31_length : forall hmac, good_hmac hmac -> forall secret seed n p, 0 <= n ->
  Z.of_nat (length (psha hmac secret seed n p)) = n.
Proof. exact psha_length. Qed.
Print Assumptions c31_length.
Theorem c31_prefix : forall hmac, good_hmac hmac -> forall secret seed n m p, 0 <= n <= m ->
  psha hmac secret seed n p = firstn (Z.to_nat n) (psha hmac secret seed m p).
Proof. exact psha_prefix. Qed.
Print Assumptions c31_prefix.
Theorem c31_split : forall hmac, good_hmac hmac -> forall p secret seed,
  let k := derive hmac p secret seed in
  k_sign k ++ k_enc k ++ k_iv k = psha hmac secret seed (key_len (pol_of p)) p /\
  Z.of_nat (length (k_sign k)) = sig_key (pol_of p) /\
  Z.of_nat (length (k_enc k)) = enc_key (pol_of p) /\
  Z.of_nat (length (k_iv k)) = blk_size (pol_of p).
Proof. exact derive_split. Qed.
Print Assumptions c31_split.
Theorem c31_hash : forall p, psha_hash p = standard_hash p.
Proof. exact policy_hash. Qed.
Print Assumptions c31_hash.
Theorem c31_key_lengths : forall p, p <> PNone ->
  standard_lengths p = Some (sig_key (pol_of p), enc_key (pol_of p), blk_size (pol_of p)).
Proof. exact policy_lengths. Qed.
Print Assumptions c31_key_lengths.
Example c31_ex : good_hmac toy_hmac /\ length (psha toy_hmac [x01] [x02; x03] 80 PBasic256Sha256) = 80%nat /\
  map (fun p => key_len (pol_of p)) [PNone; PBasic128Rsa15; PBasic256; PBasic256Sha256; PAes128; PAes256] = [1; 48; 72; 80; 64; 80].
Proof. split; [apply toy_good|]. vm_compute. split; reflexivity. Qed.

(** * C29 *)
Theorem c29_negotiation : forall ccap scap c s url stale1 stale2,
  ends_ok c -> ends_ok s -> len_ok url ->
  32 + Z.of_nat (length url) <= ccap < 2 ^ 32 -> 32 + Z.of_nat (length url) <= scap ->
  exists c' s', handshake ccap scap c s url stale1 stale2 = Some (c', s') /\
    e_send c' <= e_recv s' /\ e_send s' <= e_recv c' /\
    e_recv c' <= e_recv c /\ e_send c' <= e_send c /\ e_recv s' <= e_recv s /\ e_send s' <= e_send s /\
    (* the limits on messages and chunks are those of the receiver *)
    e_max_req c' = e_max_req s /\ e_req_chunks c' = e_req_chunks s /\
    e_max_res s' = e_max_res c /\ e_res_chunks s' = e_res_chunks c.
Proof. exact negotiation. Qed.
Print Assumptions c29_negotiation.
(** No more is given away than needed: a direction uses the smaller of the two sizes. *)
Theorem c29_smaller_of_both : forall ccap scap c s url stale1 stale2,
  ends_ok c -> ends_ok s -> len_ok url ->
  32 + Z.of_nat (length url) <= ccap < 2 ^ 32 -> 32 + Z.of_nat (length url) <= scap ->
  handshake ccap scap c s url stale1 stale2 =
  Some (mkEnds (Z.min (e_recv c) (e_send s)) (Z.min (e_send c) (e_recv s)) (e_max_req s) (e_req_chunks s) (e_max_res c) (e_res_chunks c),
        mkEnds (Z.min (e_send c) (e_recv s)) (Z.min (e_recv c) (e_send s)) (e_max_req s) (e_req_chunks s) (e_max_res c) (e_res_chunks c)).
Proof. exact handshake_ok. Qed.
Print Assumptions c29_smaller_of_both.
Theorem c29_hello_layout : forall cap c url, 32 + Z.of_nat (length url) <= cap -> hello_bytes cap c url = hello_layout c url.
Proof. exact hello_fits. Qed.
Print Assumptions c29_hello_layout.
Theorem c29_ack_layout : forall cap s, 28 <= cap -> ack_bytes cap s = ack_layout s.
Proof. exact ack_fits. Qed.
Print Assumptions c29_ack_layout.
(** The server never exceeds what it was configured with, whatever the Hello says. *)
Theorem c29_any_hello : forall cap s buf s' ack, server_accept cap s buf = Some (s', ack) ->
  e_recv s' <= e_recv s /\ e_send s' <= e_send s /\ e_max_req s' = e_max_req s /\ e_req_chunks s' = e_req_chunks s.
Proof. exact server_shrinks. Qed.
Print Assumptions c29_any_hello.
(** The client takes over sizes larger than it asked for. *)
Theorem c29_client_trusts_ack_refuted : exists c buf c', client_accept c buf = Some c' /\ e_recv c < e_recv c' /\ e_send c < e_send c'.
Proof. exact trusts_ack. Qed.
Print Assumptions c29_client_trusts_ack_refuted.
Example c29_ex : let c := mkEnds 65536 16384 0 0 9 9 in let s := mkEnds 8192 32768 5 5 0 0 in
  ends_ok c /\ ends_ok s /\
  handshake 65536 65536 c s [x61] [x00] [] = Some (mkEnds 32768 8192 5 5 9 9, mkEnds 8192 32768 5 5 9 9).
Proof. unfold ends_ok, u32_ok. cbn. repeat split; try lia. Qed.

(** * C27 *)
(** Symmetric messages: every accepted chunk is authentic, and every request that is
    handed over consists of accepted chunks.  Missing: OPN messages, refuted below. *)
Theorem c27_symmetric_chunks_partial :
  forall hmac cbc_dec rsa_dec rsa_verify pol_uri cert_key lsize decode m, secured m = true ->
  forall chan p cert t ln rn mc ms l, 0 < t < 2 ^ 32 ->
  forall pre e post,
  Issued t ln rn :: snd (srv_run hmac cbc_dec rsa_dec rsa_verify pol_uri cert_key lsize decode (opened chan m p cert t ln rn mc ms) l) = pre ++ e :: post ->
  match e with
  | Chunk b _ => authentic hmac cbc_dec m pre b
  | Handed body _ => exists evs, made_of pre evs body
  | _ => True
  end.
Proof. exact run_ok. Qed.
Print Assumptions c27_symmetric_chunks_partial.
Example c27_ex :
  snd (toy_run toy_opened [arrive (toy_chunk 1 [x01] [x02] 5 [x41]); arrive (bare_open [x4e] [x52; x09] 7 6 6)]) =
  [Chunk (toy_chunk 1 [x01] [x02] 5 [x41]) [x41]; Handed [x41] ReqOther;
   OpenChunk (bare_open [x4e] [x52; x09] 7 6 6) [x52; x09]; Handed [x52; x09] (ReqOpen true [x09]); Issued 2 [x03] [x09]].
Proof. exact toy_accepts. Qed.
(** Any request in an OPN message that names policy None is handed over, made without any key. *)
Theorem c27_unsigned_request_refuted :
  forall hmac cbc_dec rsa_dec rsa_verify pol_uri cert_key lsize decode s uri body chan seq rid stale fresh,
  idle s -> len_ok uri -> 0 <= chan < 2 ^ 32 -> 0 <= rid < 2 ^ 32 ->
  Z.of_nat (length (bare_open uri body chan seq rid)) < 2 ^ 32 -> pol_uri uri = Some PNone ->
  within (v_max_size s) (Z.of_nat (length body)) -> decode body = Some ReqOther ->
  snd (srv_step hmac cbc_dec rsa_dec rsa_verify pol_uri cert_key lsize decode s (Arrive (bare_open uri body chan seq rid) stale fresh)) =
  [OpenChunk (bare_open uri body chan seq rid) body; Handed body ReqOther].
Proof. exact unsigned_open. Qed.
Print Assumptions c27_unsigned_request_refuted.
Example c27_unsigned_ex : v_mode toy_opened = MSign /\
  snd (toy_step toy_opened (arrive (bare_open [x4e] [x41] 0 0 1))) = [OpenChunk (bare_open [x4e] [x41] 0 0 1) [x41]; Handed [x41] ReqOther].
Proof. split; [reflexivity|]. vm_compute. reflexivity. Qed.
(** ... or one that is signed with any certificate it brings along. *)
Theorem c27_own_certificate_refuted :
  forall hmac cbc_dec rsa_dec rsa_verify pol_uri cert_key lsize decode s (sign enc : bytes -> bytes) c pol cap send seq rid body fresh stale,
  idle s -> aconf_ok c -> good_rsa c sign enc rsa_dec rsa_verify (Some (a_cert c)) -> a_sec c = true ->
  pol_uri (a_uri c) = Some pol -> pol <> PNone -> cert_key (Some (a_cert c)) = RsaKey (a_sig c) -> lsize = a_cblk c ->
  send <= cap -> 0 <= send < 2 ^ 32 -> 0 <= rid < 2 ^ 32 -> body <> [] ->
  within (a_max_size c) (Z.of_nat (length body)) -> 0 <= a_max_size c -> open_fits c send (Z.of_nat (length body)) ->
  within (v_max_size s) (Z.of_nat (length body)) -> decode body = Some ReqOther ->
  exists ch, send_open sign enc c cap send seq rid body = AWrite ch /\
    snd (srv_step hmac cbc_dec rsa_dec rsa_verify pol_uri cert_key lsize decode s (Arrive ch stale fresh)) = [OpenChunk ch body; Handed body ReqOther].
Proof. exact own_certificate. Qed.
Print Assumptions c27_own_certificate_refuted.

(** * C28 *)
(** Every message of chunks that was accepted once is accepted and handed over again. *)
Theorem c28_every_message_refuted :
  forall hmac cbc_dec rsa_dec rsa_verify pol_uri cert_key lsize decode s l t s' pre body,
  idle s -> l <> [] -> Forall symmetric l -> Forall (token_is t) l ->
  srv_run hmac cbc_dec rsa_dec rsa_verify pol_uri cert_key lsize decode s l = (s', pre ++ [Handed body ReqOther]) -> v_life s' = Alive ->
  (forall e, In e pre -> part_of e <> None) ->
  srv_run hmac cbc_dec rsa_dec rsa_verify pol_uri cert_key lsize decode s' l = (s', pre ++ [Handed body ReqOther]) /\ idle s'.
Proof. exact replay. Qed.
Print Assumptions c28_every_message_refuted.
Theorem c28_replay_refuted : exists hmac cbc_dec rsa_dec rsa_verify pol_uri cert_key lsize decode chan p t ln rn b part,
  good_hmac hmac /\
  snd (srv_run hmac cbc_dec rsa_dec rsa_verify pol_uri cert_key lsize decode (opened chan MSign p None t ln rn 0 0) [Arrive b [] []; Arrive b [] []]) =
  [Chunk b part; Handed part ReqOther; Chunk b part; Handed part ReqOther].
Proof. exact replayed. Qed.
Print Assumptions c28_replay_refuted.

(** * C30 *)
(** A message is taken exactly when the receiver has the keys it was secured with. *)
Theorem c30_fits : forall mine k, accepts mine k = true <-> mine = Some k.
Proof. exact accepts_iff. Qed.
Print Assumptions c30_fits.
(** As long as the schedule is undisturbed, no genuine message is refused and, whenever
    nothing is under way, both ends use the same token and keys.  Missing: disturbed
    schedules, refuted below. *)
Theorem c30_in_step_partial : forall hmac p t cn sn ops z, 0 < t ->
  calm (derive hmac p) (renew_start t cn sn) ops z ->
  broken z = false /\ (settled z -> n_stok z = n_tok z -> in_step z).
Proof. exact in_step_derive. Qed.
Print Assumptions c30_in_step_partial.
Example c30_ex : calm toy_kd toy_start toy_calm_ops (fold_left (renew_step toy_kd) toy_calm_ops toy_start) /\
  settled (fold_left (renew_step toy_kd) toy_calm_ops toy_start) /\
  n_stok (fold_left (renew_step toy_kd) toy_calm_ops toy_start) = n_tok (fold_left (renew_step toy_kd) toy_calm_ops toy_start) /\
  n_tok (fold_left (renew_step toy_kd) toy_calm_ops toy_start) = 3.
Proof. exact toy_calm. Qed.
(** Each of five schedules breaks the channel. *)
Theorem c30_disturbed_refuted : exists hmac p t cn sn, good_hmac hmac /\ 0 < t /\
  Forall (fun ops => broken (fold_left (renew_step (derive hmac p)) ops (renew_start t cn sn)) = true)
    [race_server; race_client; early_renewal; two_renewals; unused_renewal].
Proof. exact races. Qed.
Print Assumptions c30_disturbed_refuted.
(** A token that was used, and after which another one was used, is accepted again only if it was issued again. *)
Theorem c30_superseded :
  forall hmac cbc_dec rsa_dec rsa_verify pol_uri cert_key lsize decode m, secured m = true ->
  forall chan p cert t ln rn mc ms l, 0 < t < 2 ^ 32 ->
  forall pre b1 p1 mid1 b2 p2 mid2 b3 p3 post,
  Issued t ln rn :: snd (srv_run hmac cbc_dec rsa_dec rsa_verify pol_uri cert_key lsize decode (opened chan m p cert t ln rn mc ms) l) =
    pre ++ Chunk b1 p1 :: mid1 ++ Chunk b2 p2 :: mid2 ++ Chunk b3 p3 :: post ->
  token_of b2 <> token_of b1 -> token_of b3 = token_of b1 ->
  exists ln' rn', In (Issued (token_of b1) ln' rn') (mid1 ++ mid2).
Proof. exact superseded_run. Qed.
Print Assumptions c30_superseded.
Example c30_superseded_ex :
  let open2 := Arrive (toy_chunk 1 [x01] [x02] 6 [x52; x09]) [] [x03] in
  snd (toy_run toy_opened [arrive (toy_chunk 1 [x01] [x02] 5 [x41]); open2;
                           arrive (toy_chunk 1 [x01] [x02] 7 [x41]); arrive (toy_chunk 2 [x03] [x09] 8 [x41])]) =
  [Chunk (toy_chunk 1 [x01] [x02] 5 [x41]) [x41]; Handed [x41] ReqOther;
   Chunk (toy_chunk 1 [x01] [x02] 6 [x52; x09]) [x52; x09]; Handed [x52; x09] (ReqOpen true [x09]); Issued 2 [x03] [x09];
   Chunk (toy_chunk 1 [x01] [x02] 7 [x41]) [x41]; Handed [x41] ReqOther;
   Chunk (toy_chunk 2 [x03] [x09] 8 [x41]) [x41]; Handed [x41] ReqOther] /\
  v_life (fst (toy_run toy_opened [arrive (toy_chunk 1 [x01] [x02] 5 [x41]); open2;
                           arrive (toy_chunk 1 [x01] [x02] 7 [x41]); arrive (toy_chunk 2 [x03] [x09] 8 [x41]);
                           arrive (toy_chunk 1 [x01] [x02] 9 [x41])])) = Closed.
Proof. exact toy_supersede. Qed.

(** * C32 *)
(** A call that returns a response of the server returns one with the handle it drew. *)
Theorem c32_right_caller : forall ops i c n h b, nth_error (q_callers (q_run 0 ops)) i = Some c ->
  cr_state c = Done (Got (FromServer n h b)) ->
  nth_error (arrivals ops) n = Some (h, b) /\ h = cr_handle c /\ cr_handle c = Z.of_nat i mod (2 ^ 32 - 1) + 1.
Proof. exact right_caller. Qed.
Print Assumptions c32_right_caller.
Theorem c32_at_most_once : forall ops i j c d n h b h' b',
  nth_error (q_callers (q_run 0 ops)) i = Some c -> nth_error (q_callers (q_run 0 ops)) j = Some d ->
  cr_state c = Done (Got (FromServer n h b)) -> cr_state d = Done (Got (FromServer n h' b')) -> i = j.
Proof. exact one_caller. Qed.
Print Assumptions c32_at_most_once.
(** The response to a call under way reaches it and nobody else. *)
Theorem c32_delivered : forall ops i c b, Z.of_nat (started ops) <= 2 ^ 32 - 1 -> ~ In QClose ops ->
  nth_error (q_callers (q_run 0 ops)) i = Some c -> outstanding c ->
  q_callers (q_run 0 (ops ++ [QResponse (cr_handle c) b])) =
    set_nth i (mkCaller (cr_handle c) (cr_state c) (Some (FromServer (length (arrivals ops)) (cr_handle c) b))) (q_callers (q_run 0 ops)).
Proof. exact delivered_open. Qed.
Print Assumptions c32_delivered.
(** A response for a handle nobody is waiting on changes no call. *)
Theorem c32_unknown_dropped : forall ops h b,
  (forall i c, nth_error (q_callers (q_run 0 ops)) i = Some c -> cr_handle c = h -> cr_state c = Entering \/ exists o, cr_state c = Done o) ->
  forall i c, nth_error (q_callers (q_run 0 ops)) i = Some c ->
  exists c', nth_error (q_callers (q_run 0 (ops ++ [QResponse h b]))) i = Some c' /\
             cr_state c' = cr_state c /\ cr_handle c' = cr_handle c /\ (cr_handle c <> h -> c' = c).
Proof. exact unknown. Qed.
Print Assumptions c32_unknown_dropped.
(** A call that has returned, for instance by timeout, keeps its result. *)
Theorem c32_returned_is_final : forall q ops i c, nth_error (q_callers q) i = Some c -> (exists r, cr_state c = Done r) ->
  exists c', nth_error (q_callers (fold_left q_step ops q)) i = Some c' /\ cr_state c' = cr_state c /\ cr_handle c' = cr_handle c.
Proof. exact done_run. Qed.
Print Assumptions c32_returned_is_final.
Example c32_ex : map cr_state (q_callers (q_run 0 toy_q)) = [Done TimedOut; Done (Got (FromServer 0 2 [x41]))] /\
  map cr_handle (q_callers (q_run 0 toy_q)) = [1; 2].
Proof. exact toy_requests. Qed.

(** * C74 *)
(** A call that has been registered can return at its timeout.  Missing: registration itself, refuted below. *)
Theorem c74_registered_returns_partial : forall q i c, nth_error (q_callers q) i = Some c -> cr_state c = Sending \/ cr_state c = Waiting ->
  exists c', nth_error (q_callers (fold_left q_step [QSent i true; QTimeout i] q)) i = Some c' /\ cr_state c' = Done TimedOut.
Proof. exact can_return. Qed.
Print Assumptions c74_registered_returns_partial.
(** After 32 calls that were not answered and the end of the connection, the next call never returns. *)
Theorem c74_call_hangs_refuted : exists ops i, forall ops', exists h b,
  nth_error (q_callers (q_run 0 (ops ++ ops'))) i = Some (mkCaller h Entering b).
Proof. exact jammed. Qed.
Print Assumptions c74_call_hangs_refuted.
(** The same with an open connection to a server that does not answer, although all other calls have timed out. *)
Theorem c74_silent_server_refuted : exists ops i, ~ In QClose ops /\
  forall ops', Forall (fun o => forall h b, o <> QResponse h b) ops' -> exists h b,
  nth_error (q_callers (q_run 0 (ops ++ ops'))) i = Some (mkCaller h Entering b).
Proof. exact silent. Qed.
Print Assumptions c74_silent_server_refuted.

(** * C71 *)
Theorem c71_due_before_end : forall lifetime, 0 < lifetime < 2 ^ 32 -> 0 <= renew_offset lifetime < lifetime.
Proof. exact renew_before. Qed.
Print Assumptions c71_due_before_end.
Theorem c71_three_quarters : forall lifetime, 0 <= lifetime <= 3600000 -> renew_offset lifetime = lifetime * 75 / 100.
Proof. exact renew_exact. Qed.
Print Assumptions c71_three_quarters.
(** A client that makes requests often enough, and whose renewals succeed, always renews before the end.
    Missing: clients that are idle or whose renewal fails, refuted below. *)
Theorem c71_busy_client_partial : forall gap l now lifetime, 0 <= gap -> 4 * gap < lifetime < 2 ^ 32 -> busy gap now l ->
  on_time (token_received now lifetime) l.
Proof. exact opened_on_time. Qed.
Print Assumptions c71_busy_client_partial.
Example c71_ex : busy 60000 0 [(50000, 300000); (110000, 300000); (170000, 300000); (230000, 300000); (290000, 300000)].
Proof. cbn [busy]. repeat split; lia. Qed.
Theorem c71_idle_client_refuted : exists tm l, tm = token_received 0 300000 /\ ~ on_time tm l /\ forall x, In x l -> snd x = 300000.
Proof. exact idle_expires. Qed.
Print Assumptions c71_idle_client_refuted.
Theorem c71_failed_renewal_refuted : exists lifetime now, let tm := token_received 0 lifetime in
  tm_due tm < now < tm_end tm /\ tm_end (request_at tm now None) <= tm_due (request_at tm now None).
Proof. exact postponed. Qed.
Print Assumptions c71_failed_renewal_refuted.
(** The number of renewals for one request is the number of minutes it is overdue, rounded up. *)
Theorem c71_renewals_per_request : forall n due now,
  60000 * (Z.of_nat n - 1) < now - due <= 60000 * Z.of_nat n \/ n = O /\ now <= due ->
  renewals (S n) due now = Some n.
Proof. exact renewals_count. Qed.
Print Assumptions c71_renewals_per_request.

(** * C73 *)
(** Before the first request a single unsigned chunk with token 0 stops the server. *)
Theorem c73_token_zero_refuted :
  forall hmac cbc_dec rsa_dec rsa_verify pol_uri cert_key lsize decode chan m p cert t ln rn mc ms b stale fresh,
  secured m = true ->
  symmetric (Arrive b stale fresh) -> u32_at 4 b = Z.of_nat (length b) -> 16 <= Z.of_nat (length b) ->
  u32_at 8 b = chan -> token_of b = 0 ->
  v_life (fst (srv_step hmac cbc_dec rsa_dec rsa_verify pol_uri cert_key lsize decode (opened chan m p cert t ln rn mc ms) (Arrive b stale fresh))) = Crashed.
Proof. exact token_zero_crash. Qed.
Print Assumptions c73_token_zero_refuted.
Example c73_token_zero_ex : v_life (fst (toy_step toy_opened (arrive (le_enc 4 t_final ++ le_enc 4 16 ++ le_enc 4 7 ++ le_enc 4 0)))) = Crashed.
Proof. vm_compute. reflexivity. Qed.
(** An unsigned renewal under policy None, then any chunk with the new token. *)
Theorem c73_unsigned_renewal_refuted :
  forall hmac cbc_dec rsa_dec rsa_verify pol_uri cert_key lsize decode s uri body chan seq rid stale fresh nonce b stale2 fresh2,
  idle s -> len_ok uri -> 0 <= chan < 2 ^ 32 -> 0 <= rid < 2 ^ 32 ->
  Z.of_nat (length (bare_open uri body chan seq rid)) < 2 ^ 32 -> pol_uri uri = Some PNone ->
  within (v_max_size s) (Z.of_nat (length body)) -> decode body = Some (ReqOpen true nonce) -> v_mode s = MSign ->
  symmetric (Arrive b stale2 fresh2) -> u32_at 4 b = Z.of_nat (length b) -> 16 <= Z.of_nat (length b) ->
  u32_at 8 b = v_chan s -> token_of b = next_counter (v_last s) -> v_token s <> next_counter (v_last s) ->
  v_life (fst (srv_run hmac cbc_dec rsa_dec rsa_verify pol_uri cert_key lsize decode s [Arrive (bare_open uri body chan seq rid) stale fresh; Arrive b stale2 fresh2])) = Crashed.
Proof. exact unsigned_renew_crash. Qed.
Print Assumptions c73_unsigned_renewal_refuted.
Example c73_unsigned_renewal_ex : v_life (fst (toy_run toy_opened
  [arrive (bare_open [x4e] [x52; x09] 7 6 6); arrive (le_enc 4 t_final ++ le_enc 4 16 ++ le_enc 4 7 ++ le_enc 4 2)])) = Crashed.
Proof. vm_compute. reflexivity. Qed.
