(** OpenSecureChannel messages: asymmetric chunks.

    Sources: /repo/client/client_secure_channel.go (sendOpenSecureChannelRequest
    549-741, readResponse case OPN 1514-1603), /repo/server/server_secure_channel.go
    (sendOpenSecureChannelResponse 420-614, readRequest case OPN 1214-1341).  The two
    senders are the same text up to names, and so are the two receivers except where
    [side] appears.

    Simplifications: RSA signing and encryption never return an error (the oracles
    are total functions); a failing decryption is a None of the oracle.  The error
    codes are not distinguished. *)
From Coq Require Import ZArith List Bool Strings.Byte.
From Verif Require Import Bytes Prim Chunk.
Import ListNotations.
Open Scope Z_scope.

(** ua/message_types.go:12 OPNF *)
Definition t_open : Z := tag 79 80 78 70.

(** The sender's view.  [a_sec]: mode is Sign or SignAndEncrypt. *)
Record aconf := mkAConf {
  a_sec : bool;
  a_uri : bytes;           (* securityPolicyURI *)
  a_cert : bytes;          (* localCertificate *)
  a_thumb : bytes;         (* SHA-1 of the remote certificate, 20 bytes *)
  a_sig : Z;               (* localPrivateKey.Size() *)
  a_cblk : Z;              (* remotePublicKey.Size() *)
  a_rsapad : Z;            (* RSAPaddingSize of the policy *)
  a_chan : Z;
  a_max_chunks : Z;
  a_max_size : Z
}.

Definition pblk (c : aconf) : Z := a_cblk c - a_rsapad c.

Record aplan := mkAPlan { ap_hdr : Z; ap_body : Z; ap_pad : Z; ap_padhdr : Z; ap_chunk : Z }.
(** client:584-629 server:460-505 *)
Definition plan_open (c : aconf) (send count : Z) : aplan :=
  if a_sec c then
    let hdr := 16 + Z.of_nat (length (a_uri c)) + 28 + Z.of_nat (length (a_cert c)) in
    let padhdr := if 256 <? a_cblk c then 2 else 1 in
    let mb := Z.quot (send - hdr) (a_cblk c) * pblk c - seq_hdr - padhdr - a_sig c in
    let body := if count <? mb then count else mb in
    let pad := if count <? mb then Z.rem (pblk c - Z.rem (seq_hdr + body + padhdr + a_sig c) (pblk c)) (pblk c) else 0 in
    mkAPlan hdr body pad padhdr (hdr + Z.quot (seq_hdr + body + pad + padhdr + a_sig c) (pblk c) * a_cblk c)
  else
    let hdr := 16 + Z.of_nat (length (a_uri c)) + 8 in
    let mb := send - hdr - seq_hdr in
    let body := if count <? mb then count else mb in
    mkAPlan hdr body 0 0 (hdr + seq_hdr + body).

Inductive asent : Type :=
| AWrite (ch : bytes)       (* one chunk was written to the transport *)
| ANothing                  (* an empty body: the loop is not entered *)
| AErr
| APanic.

Section Rsa.
  Variable sign : bytes -> bytes.             (* RSASign with the local private key *)
  Variable enc : bytes -> bytes.              (* RSAEncrypt with the remote public key *)

  (** client:709-722 server:576-590: the encryption loop.  [prev] is the content of the
      block buffer, which a short last block only overwrites in part.  None:
      BadEncodingError. *)
  Fixpoint enc_blocks (fuel : nat) (cblk plain : Z) (prev rest : bytes) : option bytes :=
    match rest with
    | [] => Some []
    | _ => match fuel with
           | O => None
           | S f =>
               let n := Z.to_nat plain in
               let block := firstn n rest ++ skipn (length (firstn n rest)) prev in
               let ct := enc block in
               if Z.of_nat (length ct) =? cblk
               then match enc_blocks f cblk plain block (skipn n rest) with
                    | Some more => Some (ct ++ more)
                    | None => None
                    end
               else None
           end
    end.

  (** client:570-741 server:446-614, with a send buffer of [cap] bytes and an
      encryption buffer of [cap] bytes.  A body that does not fit in one chunk is
      refused before anything is written, so the loop runs once. *)
  Definition send_open (c : aconf) (cap send seq rid : Z) (body : bytes) : asent :=
    let count := Z.of_nat (length body) in
    if (0 <? a_max_size c) && (a_max_size c <? count) then AErr
    else if count <=? 0 then ANothing
    else
      let p := plan_open c send count in
      let s1 := put cap (put cap (put cap [] (le_enc 4 t_open)) (le_enc 4 (ap_chunk p))) (le_enc 4 (a_chan c)) in
      let s2 := put cap s1 (write_string (a_uri c)) in
      let s3 := put cap s2 (write_bytearray (if a_sec c then Some (a_cert c) else None)) in
      let s4 := put cap s3 (write_bytearray (if a_sec c then Some (a_thumb c) else None)) in
      if negb (Z.of_nat (length s4) =? ap_hdr p) then AErr else
      let s5 := put cap (put cap s4 (le_enc 4 (next_counter seq))) (le_enc 4 rid) in
      let part := firstn (Z.to_nat (ap_body p)) body in
      let s6 := put cap s5 part in
      if negb (Nat.eqb (length s6) (length s5 + length part)) || (Z.of_nat (length part) <? ap_body p) then AErr else
      let s7 := if a_sec c
                then put cap s6 (byte_of_Z (ap_pad p) :: repeat (byte_of_Z (ap_pad p)) (Z.to_nat (ap_pad p))
                                 ++ (if ap_padhdr p =? 2 then [byte_of_Z (ap_pad p / 256)] else []))
                else s6 in
      if 0 <? count - ap_body p then AErr else
      if a_sec c then
        let sg := sign s7 in
        if negb (Z.of_nat (length sg) =? a_sig c) then AErr else
        let s8 := put cap s7 sg in
        if negb (Nat.eqb (length s8) (length s7 + length sg)) then AErr else
        match enc_blocks (length s8) (a_cblk c) (pblk c) (repeat x00 (Z.to_nat (pblk c))) (skipn (Z.to_nat (ap_hdr p)) s8) with
        | None => AErr
        | Some ct =>
            let out := firstn (Z.to_nat (ap_hdr p)) s8 ++ ct in
            if negb (Z.of_nat (length out) =? ap_chunk p) then AErr
            else if cap <? ap_chunk p then APanic          (* encryptionBuffer[:chunkSize] *)
            else AWrite out
        end
      else
        if negb (Z.of_nat (length s7) =? ap_chunk p) then AErr else AWrite s7.
End Rsa.

(* ------------------------------------------------------------------ *)
(** * Receiving *)

Inductive aopened : Type :=
| AOpened (uri : bytes) (cert thumb : option bytes) (rid : Z) (body : bytes)
| ARejected
| APanics
| AOther.                  (* not an OPN message *)

(** client:1514-1533 server:1214-1228 the header; the client reads the two byte
    strings with ReadByteString and ignores all fields *)
Definition open_header (sd : side) : reader (Z * Z * bytes * option bytes * option bytes) :=
  bind (read_uint 4) (fun t =>
  bind (read_uint 4) (fun len =>
  bind (read_uint 4) (fun _ =>
  bind read_string (fun uri =>
  bind (match sd with Server => read_bytearray | Client => fmap Some read_bytestring end) (fun cert =>
  bind (match sd with Server => read_bytearray | Client => fmap Some read_bytestring end) (fun thumb =>
  ret (t, len, uri, cert, thumb))))))).

(** What x509.ParseCertificates finds in the remote certificate *)
Inductive rkey : Type :=
| NoKey                     (* nothing parsed and no earlier key *)
| RsaKey (size : Z)         (* remotePublicKey.Size() *)
| OtherKey.                 (* the key of the first certificate is not RSA *)

Section Recv.
  Variable dec : bytes -> option bytes.              (* RSADecrypt with the local private key *)
  Variable verify : option bytes -> bytes -> bytes -> bool. (* RSAVerify with the key of the certificate *)
  (** Server: is the policy secure (false for None), None for an unknown policy; Client: the channel's mode *)
  Variable secure : bytes -> option bool.
  (** server:1257-1263; the client's remote key is fixed *)
  Variable rsize : option bytes -> rkey.

  (** client:1540-1550 server:1269-1280: one private key operation per block of the
      buffer.  [ii] is the number of message bytes still to be decrypted, [buf] the
      receive buffer from there on (it goes on behind the message). *)
  Fixpoint dec_blocks (fuel : nat) (cblk ii : Z) (buf : bytes) : option bytes :=
    if ii <=? 0 then Some []
    else match fuel with
         | O => None
         | S f => match dec (firstn (Z.to_nat cblk) buf) with
                  | None => None
                  | Some p => match dec_blocks f cblk (ii - cblk) (skipn (Z.to_nat cblk) buf) with
                              | Some more => Some (p ++ more)
                              | None => None
                              end
                  end
         end.

  (** One OPN message [b] in a receive buffer whose older content behind it is [stale].
      [lsize] is localPrivateKey.Size().  client:1514-1603 server:1214-1341 *)
  Definition recv_open (sd : side) (lsize : Z) (b stale : bytes) : aopened :=
    let count := Z.of_nat (length b) in
    match read_uint 4 b with
    | Ok t r4 => match read_uint 4 r4 with
      | Ok len _ =>
        if negb (count =? len) then ARejected
        else if negb (t =? t_open) then AOther
        else match open_header sd b with
        | Ok (_, _, uri, cert, thumb) rest =>
          let hdr := (length b - length rest)%nat in
          match secure uri with
          | None => ARejected
          | Some false =>
              if Z.of_nat (length rest) <? 8 then ARejected
              else AOpened uri cert thumb (u32_at 4 rest) (skipn 8 rest)
          | Some true =>
              if match sd, cert with Server, None => true | _, _ => false end then ARejected
              else match rsize cert with
              | NoKey => ARejected
              | OtherKey => APanics         (* crts[0].PublicKey.( *rsa.PublicKey), server:1258 *)
              | RsaKey rs =>
                match dec_blocks (length b) lsize (Z.of_nat (length rest)) (rest ++ stale) with
                | None => ARejected
                | Some text =>
                    let msg := firstn hdr b ++ text in
                    let n := Z.of_nat (length msg) in
                    let sig_start := n - rs in
                    if sig_start <? 0 then APanics
                    else if negb (verify cert (firstn (Z.to_nat sig_start) msg) (skipn (Z.to_nat sig_start) msg)) then ARejected
                    else if Z.of_nat (length rest) <? 8 then ARejected
                    else
                      (* decrypted in place: what the plain text does not cover is still there *)
                      let buf := msg ++ skipn (length msg) (b ++ stale) in
                      let padhdr := if 256 <? lsize then 2 else 1 in
                      let start := n - rs - padhdr in
                      if start <? 0 then APanics
                      else
                        let pad := le_dec (firstn (Z.to_nat padhdr) (skipn (Z.to_nat start) buf)) in
                        let size := n - Z.of_nat hdr - seq_hdr - pad - padhdr - rs in
                        if size <? 0 then APanics
                        else AOpened uri cert thumb (u32_at (hdr + 4) buf)
                                     (firstn (Z.to_nat size) (skipn (hdr + 8) buf))
                end
              end
          end
        | _ => ARejected
        end
      | _ => ARejected end
    | _ => ARejected end.
End Recv.
