(** What the chunk theorems talk about. *)
From Coq Require Import ZArith List Bool Strings.Byte.
From Verif Require Import Bytes Chunk.
Import ListNotations.
Open Scope Z_scope.

(** Smallest multiple of [b] that is at least [n]. *)
Definition round_up (b n : Z) : Z := (n + b - 1) / b * b.

(** A buffer of [send] bytes has room for the header, the sequence header, one body
    byte, the signature and, when encrypting, the padding up to a whole number of blocks. *)
Definition one_chunk_fits (m : mode) (sig block send : Z) : Prop :=
  match m with
  | MSignEnc => 16 + round_up block (8 + 1 + pad_hdr block + sig) <= send
  | _ => 16 + 8 + 1 + sig <= send
  end.

(** The largest body a chunk can carry: the biggest [n] for which header, body,
    padding and signature fit in [send] bytes. *)
Definition fits (m : mode) (sig block send n : Z) : Prop :=
  match m with
  | MSignEnc => 16 + round_up block (8 + n + pad_hdr block + sig) <= send
  | _ => 16 + 8 + n + sig <= send
  end.

(** The two ends of one channel under the same token. *)
Definition peers (s r : conf) : Prop :=
  c_mode s = c_mode r /\ c_sig s = c_sig r /\ c_block s = c_block r /\ c_chan s = c_chan r /\ c_side s <> c_side r.

(** A legal configuration: mode None goes with a policy without signature. *)
Definition conf_ok (c : conf) : Prop :=
  0 <= c_sig c <= 1000 /\ 1 <= c_block c <= 65536 /\ 0 <= c_chan c < 2 ^ 32 /\ 0 <= c_token c < 2 ^ 32 /\
  0 <= c_max_chunks c /\ 0 <= c_max_size c /\ (c_mode c = MNone -> c_sig c = 0).

(** The ciphers of the two ends fit together. *)
Definition good_crypto (sig block : Z) (sign enc dec : bytes -> bytes) : Prop :=
  (forall m, Z.of_nat (length (sign m)) = sig) /\
  (forall x, Z.of_nat (length x) mod block = 0 -> dec (enc x) = x /\ length (enc x) = length x).

(** A chunk on the wire (OPC UA part 6, 6.7.2): message header with type, chunk size,
    channel and token; sequence header; part of the body; padding; signature over all
    of it; everything after the message header encrypted. *)
Definition header (final : bool) (size chan token : Z) : bytes :=
  le_enc 4 (if final then t_final else t_chunk) ++ le_enc 4 size ++ le_enc 4 chan ++ le_enc 4 token.
Definition padding (block pad : Z) : bytes :=
  [byte_of_Z pad] ++ repeat (byte_of_Z pad) (Z.to_nat pad) ++ (if 256 <? block then [byte_of_Z (pad / 256)] else []).
Definition wire_chunk (sign enc : bytes -> bytes) (c : conf) (final : bool) (size seq rid : Z) (part : bytes) (pad : Z) : bytes :=
  let head := header final size (c_chan c) (c_token c) in
  let seqh := le_enc 4 seq ++ le_enc 4 rid in
  match c_mode c with
  | MNone => head ++ seqh ++ part
  | MSign => head ++ seqh ++ part ++ sign (head ++ seqh ++ part)
  | MSignEnc =>
      let plain := seqh ++ part ++ padding (c_block c) pad in
      head ++ enc (plain ++ sign (head ++ plain))
  end.

(** A chunk of sender [s] which the receiver [r] opens as the part [part] of message
    [rid], which announces its own length, fits the buffer and consists of whole blocks. *)
Definition good_chunk (sign enc dec : bytes -> bytes) (s r : conf) (send rid seq : Z) (final : bool) (part ch : bytes) : Prop :=
  open_chunk sign dec r ch = RxPart final rid part /\ part <> [] /\
  Z.of_nat (length ch) <= send /\ u32_at 4 ch = Z.of_nat (length ch) /\ 24 < Z.of_nat (length ch) /\
  (c_mode r = MSignEnc -> (Z.of_nat (length ch) - 16) mod c_block r = 0) /\
  exists pad, 0 <= pad < c_block s /\ ch = wire_chunk sign enc s final (Z.of_nat (length ch)) seq rid part pad.

(** A sequence of chunks carrying [body]: all but the last are marked "more
    follows", the last is marked final; sequence numbers follow [seq] one by one. *)
Inductive carries (sign enc dec : bytes -> bytes) (s r : conf) (send rid : Z) : Z -> list bytes -> bytes -> Prop :=
| carries_last seq part ch : good_chunk sign enc dec s r send rid (next_counter seq) true part ch ->
    carries sign enc dec s r send rid seq [ch] part
| carries_more seq part ch chs body : good_chunk sign enc dec s r send rid (next_counter seq) false part ch ->
    carries sign enc dec s r send rid (next_counter seq) chs body ->
    carries sign enc dec s r send rid seq (ch :: chs) (part ++ body).

(** The beginning of such a sequence: only chunks marked "more follows". *)
Inductive begins (sign enc dec : bytes -> bytes) (s r : conf) (send rid : Z) : Z -> list bytes -> bytes -> Prop :=
| begins_none seq : begins sign enc dec s r send rid seq [] []
| begins_more seq part ch chs body : good_chunk sign enc dec s r send rid (next_counter seq) false part ch ->
    begins sign enc dec s r send rid (next_counter seq) chs body ->
    begins sign enc dec s r send rid seq (ch :: chs) (part ++ body).

(** Number of chunks a body of [n] bytes needs when each carries at most [mb]. *)
Definition chunks_needed (mb n : Z) : Z := (n + mb - 1) / mb.

(** Everything the theorems about one sender and one receiver assume: the two ends
    agree, the sender's configuration is legal, the ciphers fit together, and the
    negotiated size [send] is at most the sender's buffer [cap] and holds a chunk. *)
Definition linked (sign enc dec : bytes -> bytes) (s r : conf) (cap send : Z) : Prop :=
  peers s r /\ conf_ok s /\ good_crypto (c_sig s) (c_block s) sign enc dec /\
  send <= cap /\ 0 <= send < 2 ^ 32 /\ one_chunk_fits (c_mode s) (c_sig s) (c_block s) send.

(** 0 means no limit. *)
Definition within (limit n : Z) : Prop := limit = 0 \/ n <= limit.

(** A chunk sequence which the receiver [r] opens one by one to [body]: every chunk
    announces its own length, passes all checks of the receiver, and only the last
    one ends the message. *)
Inductive opens (sign dec : bytes -> bytes) (r : conf) (rid : Z) : list bytes -> bytes -> Prop :=
| opens_last part ch : u32_at 4 ch = Z.of_nat (length ch) -> open_chunk sign dec r ch = RxPart true rid part ->
    opens sign dec r rid [ch] part
| opens_more rid' part ch chs body : u32_at 4 ch = Z.of_nat (length ch) -> open_chunk sign dec r ch = RxPart false rid' part ->
    opens sign dec r rid chs body -> opens sign dec r rid (ch :: chs) (part ++ body).

(** The signature check on what a chunk holds after decryption. *)
Definition signed (sign dec : bytes -> bytes) (r : conf) (ch : bytes) : Prop :=
  let plain := if encrypted (c_mode r) then firstn 16 ch ++ dec (skipn 16 ch) else ch in
  exists text, plain = text ++ sign text /\ Z.of_nat (length (sign text)) = c_sig r.

(** A queue of messages, sent one after the other with running sequence numbers. *)
Fixpoint send_all (sign enc : bytes -> bytes) (fuel : nat) (c : conf) (cap send seq : Z) (ms : list (Z * bytes)) : list bytes :=
  match ms with
  | [] => []
  | (rid, body) :: ms' =>
      let chs := fst (send_message sign enc fuel c cap send rid seq body) in
      chs ++ send_all sign enc fuel c cap send (Nat.iter (length chs) next_counter seq) ms'
  end.
Fixpoint recv_all (sign dec : bytes -> bytes) (n fuel : nat) (c : conf) (cap : Z) (st : bytes) : list (Z * bytes) * bytes :=
  match n with
  | O => ([], st)
  | S n' => match recv_message sign dec fuel c cap st with
            | Received rid body rest => let (l, rest') := recv_all sign dec n' fuel c cap rest in ((rid, body) :: l, rest')
            | _ => ([], st)
            end
  end.
