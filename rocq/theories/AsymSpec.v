(** What the theorems about OpenSecureChannel messages talk about. *)
From Coq Require Import ZArith List Bool Strings.Byte.
From Verif Require Import Bytes Prim CodecSpec Chunk ChunkSpec Asym.
Import ListNotations.
Open Scope Z_scope.

(** The message on the wire (OPC UA part 6, 6.7.2). *)
Definition open_head (c : aconf) (size : Z) : bytes :=
  le_enc 4 t_open ++ le_enc 4 size ++ le_enc 4 (a_chan c) ++ write_string (a_uri c) ++
  (if a_sec c then write_bytearray (Some (a_cert c)) ++ write_bytearray (Some (a_thumb c))
   else write_bytearray None ++ write_bytearray None).

(** [text] cut into blocks of exactly [n] bytes *)
Definition cut (n : Z) (blocks : list bytes) (text : bytes) : Prop :=
  concat blocks = text /\ Forall (fun b => Z.of_nat (length b) = n) blocks.

Definition open_layout (sign enc : bytes -> bytes) (c : aconf) (seq rid : Z) (body ch : bytes) : Prop :=
  let head := open_head c (Z.of_nat (length ch)) in
  let seqh := le_enc 4 seq ++ le_enc 4 rid in
  if a_sec c then
    exists pad blocks, 0 <= pad < pblk c /\
      let plain := seqh ++ body ++ padding (a_cblk c) pad in
      cut (pblk c) blocks (plain ++ sign (head ++ plain)) /\
      ch = head ++ concat (map enc blocks)
  else ch = head ++ seqh ++ body.

(** The body fits in one message of at most [send] bytes: header, and the whole
    number of RSA blocks that sequence header, body, padding size and signature need. *)
Definition open_fits (c : aconf) (send n : Z) : Prop :=
  let hdr := Z.of_nat (length (open_head c 0)) in
  if a_sec c
  then hdr + (8 + n + (if 256 <? a_cblk c then 2 else 1) + a_sig c + pblk c - 1) / pblk c * a_cblk c <= send
  else hdr + 8 + n <= send.

Definition aconf_ok (c : aconf) : Prop :=
  len_ok (a_uri c) /\ len_ok (a_cert c) /\ length (a_thumb c) = 20%nat /\
  0 <= a_chan c < 2 ^ 32 /\ 1 <= a_sig c /\ 0 < a_rsapad c /\ 1 <= pblk c /\ a_cblk c <= 65536.

(** The RSA operations of the two ends: signatures of the sender's key size that the
    receiver accepts, blocks of the receiver's key size that the receiver decrypts. *)
Definition good_rsa (c : aconf) (sign enc : bytes -> bytes) (dec : bytes -> option bytes)
                    (verify : option bytes -> bytes -> bytes -> bool) (cert : option bytes) : Prop :=
  (forall m, Z.of_nat (length (sign m)) = a_sig c /\ verify cert m (sign m) = true) /\
  (forall x, Z.of_nat (length x) = pblk c -> Z.of_nat (length (enc x)) = a_cblk c /\ dec (enc x) = Some x).

(** The certificate fields of the message *)
Definition sent_cert (c : aconf) : option bytes := if a_sec c then Some (a_cert c) else None.
Definition sent_thumb (c : aconf) : option bytes := if a_sec c then Some (a_thumb c) else None.
(** What the receiver finds in the two certificate fields *)
Definition seen (sd : side) (o : option bytes) : option bytes :=
  match sd, o with Client, None => Some [] | _, _ => o end.
