(** C22-C25 and C73: message chunks.  Property theorems only. *)
From Coq Require Import ZArith List Bool Lia Strings.Byte.
From Verif Require Import Bytes CodecSpec Prim Chunk ChunkSpec ChunkProofs ChunkLemmas Asym AsymSpec AsymProofs AsymLemmas.
Import ListNotations.
Open Scope Z_scope.

(** * C22 *)
Theorem c22_chunks_fit : forall sign enc dec s r cap send, linked sign enc dec s r cap send ->
  forall rid seq body fuel chs st, 0 <= rid < 2 ^ 32 -> (length body <= fuel)%nat ->
  send_message sign enc fuel s cap send rid seq body = (chs, st) ->
  st <> StillSending /\
  forall ch, In ch chs ->
    Z.of_nat (length ch) <= send /\ u32_at 4 ch = Z.of_nat (length ch) /\
    (c_mode s = MSignEnc -> (Z.of_nat (length ch) - 16) mod c_block s = 0) /\
    exists final part, part <> [] /\ open_chunk sign dec r ch = RxPart final rid part.
Proof. exact chunks_fit. Qed.
Print Assumptions c22_chunks_fit.
(** The planned body size is the largest that fits. *)
Theorem c22_largest_body : forall m sig block send n, 1 <= block -> 16 <= send ->
  (fits m sig block send n <-> n <= max_body m sig block send).
Proof. exact max_body_spec. Qed.
Print Assumptions c22_largest_body.
(** The buffer sizes the specification allows (8192 bytes or more) are enough for every policy and mode. *)
Theorem c22_standard_buffer : forall p m send, In p policies -> (m = MNone -> p = pol_none) -> 8192 <= send ->
  one_chunk_fits m (sig_size p) (blk_size p) send.
Proof. exact policies_fit. Qed.
Print Assumptions c22_standard_buffer.
Example c22_ex : linked (ex_sign 32) ex_enc ex_enc (ex_conf Client MSignEnc 0 0) (ex_conf Server MSignEnc 0 0) 65536 8192.
Proof. apply (ex_linked MSignEnc); lia. Qed.
Example c22_sizes : map (fun n => plan_chunk MSignEnc 32 16 8192 n) [1; 23; 8134; 8135; 8136] =
  [mkPlan 1 6 1 64; mkPlan 23 0 1 80; mkPlan 8134 1 1 8192; mkPlan 8135 0 1 8192; mkPlan 8135 0 1 8192].
Proof. reflexivity. Qed.
(** The size a client asks for is not checked: with 24 bytes the server sends empty chunks forever. *)
Theorem c22_small_buffer_refuted : exists c send body, conf_ok c /\ 0 < send /\
  forall fuel, exists chs,
    send_message (fun _ => []) (fun x => x) fuel c 65536 send 1 0 body = (chs, StillSending) /\ length chs = fuel.
Proof. exact small_buffer. Qed.
Print Assumptions c22_small_buffer_refuted.

(** * C23 *)
Theorem c23_reassembly : forall sign enc dec s r cap send, linked sign enc dec s r cap send ->
  forall rid seq body fuel rfuel rcap chs rest, 0 <= rid < 2 ^ 32 -> (length body <= fuel)%nat -> body <> [] ->
  send_message sign enc fuel s cap send rid seq body = (chs, Sent) ->
  send <= rcap -> within (chunk_limit r) (Z.of_nat (length chs)) -> within (c_max_size r) (Z.of_nat (length body)) ->
  (length chs <= rfuel)%nat ->
  recv_message sign dec rfuel r rcap (concat chs ++ rest) = Received rid body rest.
Proof. exact roundtrip. Qed.
Print Assumptions c23_reassembly.
(** The chunks themselves: layout, sequence numbers, final marker. *)
Theorem c23_chunk_sequence : forall sign enc dec s r cap send, linked sign enc dec s r cap send ->
  forall rid seq body fuel chs, 0 <= rid < 2 ^ 32 -> (length body <= fuel)%nat -> body <> [] ->
  send_message sign enc fuel s cap send rid seq body = (chs, Sent) ->
  carries sign enc dec s r send rid seq chs body.
Proof. exact sent_carries. Qed.
Print Assumptions c23_chunk_sequence.
(** A whole conversation: any list of messages arrives as sent, in order. *)
Theorem c23_conversation : forall sign enc dec s r cap send, linked sign enc dec s r cap send ->
  forall fuel rcap, send <= rcap -> forall ms seq rest,
  Forall (fun m => 0 <= fst m < 2 ^ 32 /\ snd m <> [] /\ (length (snd m) <= fuel)%nat /\
     let n := Z.of_nat (length (snd m)) in
     let k := chunks_needed (max_body (c_mode s) (c_sig s) (c_block s) send) n in
     within (c_max_size s) n /\ within (c_max_chunks s) k /\
     within (c_max_size r) n /\ within (chunk_limit r) k) ms ->
  recv_all sign dec (length ms) fuel r rcap (concat (send_all sign enc fuel s cap send seq ms) ++ rest) = (ms, rest).
Proof. exact stream. Qed.
Print Assumptions c23_conversation.
Example c23_ex :
  let s := ex_conf Client MSignEnc 0 0 in let r := ex_conf Server MSignEnc 0 0 in
  let body := repeat x41 100 in
  let '(chs, st) := send_message (ex_sign 32) ex_enc 100 s 128 112 5 0 body in
  st = Sent /\ map (@length byte) chs = [112; 112]%nat /\
  recv_message (ex_sign 32) ex_enc 9 r 128 (concat chs ++ [x01; x02]) = Received 5 body [x01; x02].
Proof. vm_compute. repeat split; reflexivity. Qed.

(** * C24 *)
Theorem c24_open_message : forall sign enc dec verify secure rsize sd c,
  aconf_ok c -> good_rsa c sign enc dec verify (seen sd (sent_cert c)) ->
  secure (a_uri c) = Some (a_sec c) -> (a_sec c = true -> rsize (seen sd (sent_cert c)) = RsaKey (a_sig c)) ->
  forall cap send, send <= cap -> 0 <= send < 2 ^ 32 ->
  forall seq rid body stale, 0 <= rid < 2 ^ 32 -> body <> [] ->
  within (a_max_size c) (Z.of_nat (length body)) -> 0 <= a_max_size c -> open_fits c send (Z.of_nat (length body)) ->
  exists ch, send_open sign enc c cap send seq rid body = AWrite ch /\
    Z.of_nat (length ch) <= send /\ u32_at 4 ch = Z.of_nat (length ch) /\
    open_layout sign enc c (next_counter seq) rid body ch /\
    recv_open dec verify secure rsize sd (a_cblk c) ch stale =
      AOpened (a_uri c) (seen sd (sent_cert c)) (seen sd (sent_thumb c)) rid body.
Proof. exact open_message. Qed.
Print Assumptions c24_open_message.
(** A body that does not fit is refused and nothing is written. *)
Theorem c24_too_large_refused : forall sign enc c, aconf_ok c -> forall cap send seq rid body,
  body <> [] -> ~ open_fits c send (Z.of_nat (length body)) ->
  send_open sign enc c cap send seq rid body = AErr.
Proof. exact open_refused. Qed.
Print Assumptions c24_too_large_refused.
(** 8192 bytes are enough for keys of 1024 to 4096 bits, certificates of up to 2000 bytes and bodies of up to 400 bytes
    (an OpenSecureChannel body with a 32 byte nonce is less than 200 bytes). *)
Theorem c24_standard_buffer : forall c send n, 8192 <= send -> length (a_thumb c) = 20%nat ->
  (length (a_uri c) <= 64)%nat -> (length (a_cert c) <= 2000)%nat ->
  128 <= a_cblk c <= 512 -> 128 <= a_sig c <= 512 -> 11 <= a_rsapad c <= 66 -> 0 <= n <= 400 ->
  open_fits c send n.
Proof. exact open_fits_standard. Qed.
Print Assumptions c24_standard_buffer.
Example c24_ex : let c := ex_aconf in
  aconf_ok c /\ good_rsa c (ex_rsa_sign 128) ex_rsa_enc ex_rsa_dec (fun _ _ _ => true) (seen Server (sent_cert c)) /\
  open_fits c 8192 150 /\
  match send_open (ex_rsa_sign 128) ex_rsa_enc c 8192 8192 0 1 (repeat x41 150) with
  | AWrite ch => length ch = 1312%nat /\
      recv_open ex_rsa_dec (fun _ _ _ => true) (fun _ => Some true) (fun _ => RsaKey 128) Server 256 ch [] =
        AOpened (a_uri c) (Some (a_cert c)) (Some (a_thumb c)) 1 (repeat x41 150)
  | _ => False
  end.
Proof. exact ex_aconf_good. Qed.

(** * C25 *)
Theorem c25_sender_limits : forall sign enc dec s r cap send, linked sign enc dec s r cap send ->
  forall rid seq body fuel chs st, 0 <= rid < 2 ^ 32 -> (length body <= fuel)%nat -> body <> [] ->
  send_message sign enc fuel s cap send rid seq body = (chs, st) ->
  within (c_max_chunks s) (Z.of_nat (length chs)) /\
  (~ within (c_max_size s) (Z.of_nat (length body)) -> chs = [] /\ st = Refused) /\
  (~ within (c_max_chunks s) (chunks_needed (max_body (c_mode s) (c_sig s) (c_block s) send) (Z.of_nat (length body))) ->
     st = Refused /\ Forall (fun ch => exists part, open_chunk sign dec r ch = RxPart false rid part) chs).
Proof. exact sender_limits. Qed.
Print Assumptions c25_sender_limits.
(** A message is sent exactly when it is within both limits. *)
Theorem c25_sent_iff_within : forall sign enc dec s r cap send, linked sign enc dec s r cap send ->
  forall rid seq body fuel, 0 <= rid < 2 ^ 32 -> (length body <= fuel)%nat -> body <> [] ->
  (snd (send_message sign enc fuel s cap send rid seq body) = Sent <->
   within (c_max_size s) (Z.of_nat (length body)) /\
   within (c_max_chunks s) (chunks_needed (max_body (c_mode s) (c_sig s) (c_block s) send) (Z.of_nat (length body)))).
Proof. exact sent_iff. Qed.
Print Assumptions c25_sent_iff_within.
(** Whatever bytes arrive: what is handed on came from chunks that passed every check and kept both limits. *)
Theorem c25_receiver_limits : forall sign dec r fuel cap st rid body rest,
  0 <= c_max_size r -> 0 <= c_max_chunks r < 2 ^ 31 ->
  recv_message sign dec fuel r cap st = Received rid body rest ->
  exists chs, st = concat chs ++ rest /\ opens sign dec r rid chs body /\
    within (c_max_chunks r) (Z.of_nat (length chs)) /\ within (c_max_size r) (Z.of_nat (length body)).
Proof. exact receiver_limits. Qed.
Print Assumptions c25_receiver_limits.
Example c25_ex : within 0 77 /\ within 5 5 /\ ~ within 5 6 /\
  (let s := ex_conf Client MNone 2 0 in
   snd (send_message (ex_sign 0) ex_enc 200 s 64 64 1 0 (repeat x41 80)) = Sent /\
   snd (send_message (ex_sign 0) ex_enc 200 s 64 64 1 0 (repeat x41 81)) = Refused).
Proof. unfold within. vm_compute. repeat split; try intuition discriminate; auto. Qed.
(** A message refused half way leaves its first chunks on the wire; the next, legal message is lost with it. *)
Theorem c25_half_sent_message_refuted : exists s r body1 body2,
  linked (ex_sign 0) ex_enc ex_enc s r 8192 8192 /\
  let '(chs1, st1) := send_message (ex_sign 0) ex_enc (Z.to_nat 40000) s 8192 8192 1 0 body1 in
  let '(chs2, st2) := send_message (ex_sign 0) ex_enc (Z.to_nat 40000) s 8192 8192 2 2 body2 in
  st1 = Refused /\ st2 = Sent /\
  recv_message (ex_sign 0) ex_enc 9 r 8192 (concat chs2) = Received 2 body2 [] /\
  recv_message (ex_sign 0) ex_enc 9 r 8192 (concat (chs1 ++ chs2)) = RecvErr.
Proof. exact half_sent. Qed.
Print Assumptions c25_half_sent_message_refuted.

(** A server limit of 2^31 chunks or more is no limit. *)
Theorem c25_server_limit_wraps_refuted : exists r, c_side r = Server /\ c_max_chunks r = 2 ^ 31 /\
  forall sign enc dec s send seq rid chs body rest rcap fuel, send <= rcap ->
    carries sign enc dec s r send rid seq chs body -> (length chs <= fuel)%nat ->
    recv_message sign dec fuel r rcap (concat chs ++ rest) = Received rid body rest.
Proof. exact limit_wraps. Qed.
Print Assumptions c25_server_limit_wraps_refuted.

(** * C73 *)
(** Without security no input makes the receiver panic.  Missing: the secured modes, refuted below. *)
Theorem c73_unsecured_receiver_partial : forall sign dec r fuel k cap acc st, c_mode r = MNone -> c_sig r = 0 ->
  recv_loop sign dec fuel r cap k acc st <> RecvPanic.
Proof. exact recv_none_no_panic. Qed.
Print Assumptions c73_unsecured_receiver_partial.
Theorem c73_unsecured_open_partial : forall dec verify secure rsize sd lsize b stale,
  (forall uri, secure uri <> Some true) -> recv_open dec verify secure rsize sd lsize b stale <> APanics.
Proof. exact recv_open_none_no_panic. Qed.
Print Assumptions c73_unsecured_open_partial.
(** With signatures, every message which is shorter than a signature and names the
    channel and a token stops the receiver, whatever the keys. *)
Theorem c73_short_chunk_refuted : forall sign dec, exists r ch,
  c_side r = Server /\ c_mode r = MSign /\ c_sig r = 32 /\ length ch = 16%nat /\
  recv_message sign dec 1 r 8192 ch = RecvPanic.
Proof. exact short_chunk. Qed.
Print Assumptions c73_short_chunk_refuted.
(** The first message of a connection: a certificate with a key that is not RSA, or a
    padding size larger than the message, stops the server before any trust check. *)
Theorem c73_certificate_key_refuted : forall dec verify secure rsize lsize stale,
  (forall uri, secure uri = Some true) -> (forall cert, rsize cert = OtherKey) ->
  exists b, recv_open dec verify secure rsize Server lsize b stale = APanics.
Proof. exact other_key_panics. Qed.
Print Assumptions c73_certificate_key_refuted.
Theorem c73_open_padding_refuted : exists c body,
  good_rsa c (ex_rsa_sign 128) ex_rsa_enc ex_rsa_dec (fun _ _ s => bytes_eqb s (ex_rsa_sign 128 [])) (seen Server (sent_cert c)) /\
  exists b, recv_open ex_rsa_dec (fun _ _ s => bytes_eqb s (ex_rsa_sign 128 [])) (fun _ => Some true) (fun _ => RsaKey 128) Server 256 b body = APanics.
Proof. exact open_padding_panics. Qed.
Print Assumptions c73_open_padding_refuted.
(** C73, integrity: with security on, every chunk of a delivered message carries a valid signature. *)
Theorem c73_delivered_is_signed : forall sign dec r fuel cap st rid body rest,
  secured (c_mode r) = true -> 0 <= c_sig r -> 0 <= c_max_size r -> 0 <= c_max_chunks r < 2 ^ 31 ->
  recv_message sign dec fuel r cap st = Received rid body rest ->
  exists chs, st = concat chs ++ rest /\ Forall (signed sign dec r) chs.
Proof. exact delivered_signed. Qed.
Print Assumptions c73_delivered_is_signed.
