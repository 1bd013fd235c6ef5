(** Symmetric message chunks: planning, sending, receiving.

    Sources: /repo/client/client_secure_channel.go (sendServiceRequest 911,
    readResponse 1367, Read 1863), /repo/server/server_secure_channel.go
    (sendServiceResponse 617, readRequest 1036, read 1588), /repo/ua/security_policy.go,
    /repo/ua/message_types.go.  The client and server loops are the same text up
    to names; differences are marked with [side].

    Simplifications: the keys stay the same during one message (token changes are
    in Channel.v); the writes to the socket succeed; the bytes left on the socket
    are a list. *)
From Coq Require Import ZArith List Bool Strings.Byte.
From Verif Require Import Bytes.
Import ListNotations.
Open Scope Z_scope.

(** ua/security_policy.go: RSAPaddingSize, SymSignatureSize, SymSignatureKeySize,
    SymEncryptionBlockSize, SymEncryptionKeySize, NonceSize of each policy *)
Record policy := mkPol { rsa_pad : Z; sig_size : Z; sig_key : Z; blk_size : Z; enc_key : Z; nonce_size : Z }.
Definition pol_none := mkPol 0 0 0 1 0 0.
Definition pol_basic128rsa15 := mkPol 11 20 16 16 16 16.
Definition pol_basic256 := mkPol 42 20 24 16 32 32.
Definition pol_basic256sha256 := mkPol 42 32 32 16 32 32.
Definition pol_aes128 := mkPol 42 32 32 16 16 32.
Definition pol_aes256 := mkPol 66 32 32 16 32 32.
Definition policies : list policy :=
  [pol_none; pol_basic128rsa15; pol_basic256; pol_basic256sha256; pol_aes128; pol_aes256].

(** ua.MessageSecurityMode; MessageSecurityModeInvalid takes the branch of None *)
Inductive mode : Type := MNone | MSign | MSignEnc.
Definition secured (m : mode) : bool := match m with MNone => false | _ => true end.
Definition encrypted (m : mode) : bool := match m with MSignEnc => true | _ => false end.

Inductive side : Type := Client | Server.

(** ua/message_types.go:6-15 *)
Definition tag (a b c d : Z) : Z := a + b * 256 + c * 65536 + d * 16777216.
Definition t_final : Z := tag 77 83 71 70.   (* MSGF *)
Definition t_chunk : Z := tag 77 83 71 67.   (* MSGC *)
Definition t_close : Z := tag 67 76 79 70.   (* CLOF *)

(** client:1204 server:39 sequenceHeaderSize; plainHeaderSize of symmetric chunks *)
Definition seq_hdr : Z := 8.
Definition plain_hdr : Z := 16.

(** client:1228-1232 server:925-929 paddingHeaderSize *)
Definition pad_hdr (block : Z) : Z := if 256 <? block then 2 else 1.

Record plan := mkPlan { p_body : Z; p_pad : Z; p_padhdr : Z; p_chunk : Z }.
(** client:1225-1257 server:921-954: sizes of the next chunk when [count] body
    bytes are left.  Go's / and % truncate towards zero. *)
Definition max_body (m : mode) (sig block send : Z) : Z :=
  match m with
  | MSignEnc => Z.quot (send - plain_hdr) block * block - seq_hdr - pad_hdr block - sig
  | _ => send - plain_hdr - seq_hdr - 0 - sig
  end.
Definition plan_chunk (m : mode) (sig block send count : Z) : plan :=
  let mb := max_body m sig block send in
  match m with
  | MSignEnc =>
      let hdr := pad_hdr block in
      let body := if count <? mb then count else mb in
      let pad := if count <? mb
                 then Z.rem (block - Z.rem (seq_hdr + body + hdr + sig) block) block else 0 in
      mkPlan body pad hdr (plain_hdr + seq_hdr + body + pad + hdr + sig)
  | _ =>
      let body := if count <? mb then count else mb in
      mkPlan body 0 0 (plain_hdr + seq_hdr + body + 0 + 0 + sig)
  end.

(** client:1822-1849 server:1507: the next sequence number, skipping zero *)
Definition next_counter (n : Z) : Z := (if n =? 4294967295 then 0 else n) + 1.

(** What is fixed while one message is sent or received *)
Record conf := mkConf {
  c_side : side;
  c_mode : mode;
  c_sig : Z;             (* SymSignatureSize of the policy *)
  c_block : Z;           (* SymEncryptionBlockSize of the policy *)
  c_chan : Z;
  c_token : Z;
  c_max_chunks : Z;      (* maxRequestChunkCount or maxResponseChunkCount, 0 = no limit *)
  c_max_size : Z         (* maxRequestMessageSize or maxResponseMessageSize *)
}.

Section Crypto.
  (** HMAC under the signing key; CBC under the encryption key and vector *)
  Variable sign : bytes -> bytes.
  Variable enc dec : bytes -> bytes.

  (** ua/bytes_writer.go Write on a buffer of [cap] bytes: what does not fit is dropped *)
  Definition put (cap : Z) (s p : bytes) : bytes := s ++ firstn (Z.to_nat cap - length s) p.

  (** client:1304-1316 server:986-998 padding: size byte, padding, optional high byte *)
  Definition padding_bytes (m : mode) (pad hdr : Z) : bytes :=
    if encrypted m
    then byte_of_Z pad :: repeat (byte_of_Z pad) (Z.to_nat pad)
         ++ (if hdr =? 2 then [byte_of_Z (pad / 256)] else [])
    else [].

  (** One chunk as it stands in the send buffer of [cap] bytes; None is an error
      return (BadEncodingError, a short write).
      client:1259-1339 server:956-1021 *)
  Definition build_chunk (c : conf) (cap : Z) (seq rid : Z) (p : plan) (final : bool) (part : bytes) : option bytes :=
    let s1 := put cap (put cap (put cap (put cap []
                (le_enc 4 (if final then t_final else t_chunk)))
                (le_enc 4 (p_chunk p))) (le_enc 4 (c_chan c))) (le_enc 4 (c_token c)) in
    if match c_side c with Server => negb (Z.of_nat (length s1) =? plain_hdr) | Client => false end then None else
    let s2 := put cap (put cap s1 (le_enc 4 seq)) (le_enc 4 rid) in
    let s3 := put cap s2 part in
    if negb (Nat.eqb (length s3) (length s2 + length part)) then None   (* io.CopyN reports the short write *)
    else
    let s4 := put cap s3 (padding_bytes (c_mode c) (p_pad p) (p_padhdr p)) in
    let s5 := if secured (c_mode c) then put cap s4 (sign s4) else s4 in
    if match c_side c with Server => secured (c_mode c) && negb (Nat.eqb (length s5) (length s4 + length (sign s4)))
       | Client => encrypted (c_mode c) && negb (Z.rem (Z.of_nat (length s5) - plain_hdr) (c_block c) =? 0) end then None
    else
    Some (if encrypted (c_mode c)
          then firstn 16 s5 ++ enc (skipn 16 s5)
          else s5).

  Inductive send_status : Type := Sent | Refused | StillSending.
  (** The loop "for bodyCount > 0".  [k] chunks have been counted so far, [count]
      is bodyCount (it is not the length of [rest] once a planned size was
      negative), [rest] is what bodyStream still holds.  StillSending: the given
      number of iterations was not enough.
      client:1216-1345 server:910-1029 *)
  Fixpoint send_loop (fuel : nat) (c : conf) (cap send : Z) (rid : Z) (k seq count : Z) (rest : bytes)
    : list bytes * send_status :=
    if count <=? 0 then ([], Sent)
    else match fuel with
    | O => ([], StillSending)
    | S f =>
        let k' := k + 1 in
        if (0 <? c_max_chunks c) && (c_max_chunks c <? k') then ([], Refused) else
        let p := plan_chunk (c_mode c) (c_sig c) (c_block c) send count in
        let final := negb (p_body p <? count) in
        let part := firstn (Z.to_nat (p_body p)) rest in
        let seq' := next_counter seq in
        if Z.of_nat (length part) <? p_body p then ([], Refused) (* CopyN: EOF *)
        else match build_chunk c cap seq' rid p final part with
             | None => ([], Refused)
             | Some chunk =>
                 let (more, st) := send_loop f c cap send rid k' seq' (count - p_body p)
                                             (skipn (Z.to_nat (p_body p)) rest) in
                 (chunk :: more, st)
             end
    end.
  (** client:1212-1214 server:906-908: the size limit, then the loop *)
  Definition send_message (fuel : nat) (c : conf) (cap send rid seq : Z) (body : bytes) : list bytes * send_status :=
    if (0 <? c_max_size c) && (c_max_size c <? Z.of_nat (length body)) then ([], Refused)
    else send_loop fuel c cap send rid 0 seq (Z.of_nat (length body)) body.

  (* ---------------------------------------------------------------- *)
  (** * Receiving *)

  (** client:1863 server:1588 Read: takes one chunk off the stream.  The result
      holds the bytes of the chunk; None is an error or a closed connection. *)
  Definition read_chunk (cap : Z) (s : bytes) : option (bytes * bytes) :=
    if Z.of_nat (length s) <? 8 then None
    else
      let n := le_dec (firstn 4 (skipn 4 s)) in
      if cap <? n then None
      else if n <? 8 then Some (firstn 8 s, skipn 8 s)
      else if Z.of_nat (length s) <? n then None
      else Some (firstn (Z.to_nat n) s, skipn (Z.to_nat n) s).

  Definition u32_at (k : nat) (s : bytes) : Z := le_dec (firstn 4 (skipn k s)).

  Inductive rx : Type :=
  | RxPart (final : bool) (rid : Z) (part : bytes)
  | RxErr
  | RxPanic
  | RxOther (t : Z).       (* not a symmetric chunk: handled by other cases of the switch *)

  (** One chunk, from the decrypted bytes to its body.
      client:1471-1511 server:1176-1212 *)
  Definition open_body (c : conf) (b : bytes) : rx :=
    let count := Z.of_nat (length b) in
    let sig_start := count - c_sig c in
    (* verify: receiveBuffer[:sigStart] with a negative bound panics *)
    if secured (c_mode c) && (sig_start <? 0) then RxPanic
    else if secured (c_mode c) && negb (bytes_eqb (sign (firstn (Z.to_nat sig_start) b)) (skipn (Z.to_nat sig_start) b)) then RxErr
    else if count <? 24 then RxErr                 (* sequence header *)
    else
      let t := u32_at 0 b in
      let rid := u32_at 20 b in
      let hdr := if encrypted (c_mode c) then pad_hdr (c_block c) else 0 in
      let start := count - c_sig c - hdr in
      if encrypted (c_mode c) && (start <? 0) then RxPanic
      else
        let pad := if encrypted (c_mode c) then le_dec (firstn (Z.to_nat hdr) (skipn (Z.to_nat start) b)) else 0 in
        let size := count - plain_hdr - seq_hdr - pad - hdr - c_sig c in
        if size <? 0 then RxPanic                 (* receiveBuffer[m:n] with n < m *)
        else RxPart (match c_side c with Client => t =? t_final | Server => negb (t =? t_chunk) end) rid
                    (firstn (Z.to_nat size) (skipn 24 b)).

  (** client:1396-1511 server:1059-1212 with the token check left out (Channel.v):
      message type, length, channel, decryption *)
  Definition open_chunk (c : conf) (b : bytes) : rx :=
    let count := Z.of_nat (length b) in
    let t := u32_at 0 b in
    if negb (count =? u32_at 4 b) then RxErr
    else if negb ((t =? t_final) || (t =? t_chunk)
                  || match c_side c with Server => t =? t_close | Client => false end) then RxOther t
    else if count <? 12 then RxErr
    else if negb (u32_at 8 b =? c_chan c) then RxErr
    else if count <? 16 then RxErr
    else if encrypted (c_mode c) && negb (Z.rem (count - plain_hdr) (c_block c) =? 0) then RxErr
    else open_body c (if encrypted (c_mode c) then firstn 16 b ++ dec (skipn 16 b) else b).

  Inductive recv_result : Type :=
  | Received (rid : Z) (body : bytes) (rest : bytes)
  | RecvErr
  | RecvPanic
  | RecvOther
  | Waiting.          (* the model's budget ran out *)
  (** client:1390 int(maxResponseChunkCount), server:1053 int32(maxRequestChunkCount) *)
  Definition chunk_limit (c : conf) : Z := match c_side c with Client => c_max_chunks c | Server => wrap32 (c_max_chunks c) end.
  (** The loop "for !isFinal".  client:1387-1629 server:1051-1341 *)
  Fixpoint recv_loop (fuel : nat) (c : conf) (cap : Z) (k : Z) (acc s : bytes) : recv_result :=
    match fuel with
    | O => Waiting
    | S f =>
        let k' := k + 1 in
        if (0 <? chunk_limit c) && (chunk_limit c <? k') then RecvErr
        else match read_chunk cap s with
             | None => RecvErr
             | Some (b, rest) =>
                 match open_chunk c b with
                 | RxErr => RecvErr
                 | RxPanic => RecvPanic
                 | RxOther _ => RecvOther
                 | RxPart final rid part =>
                     let acc' := acc ++ part in
                     if (0 <? c_max_size c) && (c_max_size c <? Z.of_nat (length acc')) then RecvErr
                     else if final then Received rid acc' rest
                     else recv_loop f c cap k' acc' rest
                 end
             end
    end.
  Definition recv_message (fuel : nat) (c : conf) (cap : Z) (s : bytes) : recv_result :=
    recv_loop fuel c cap 0 [] s.
End Crypto.
