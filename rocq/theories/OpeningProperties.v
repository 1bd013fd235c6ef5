(** C117: the first messages of a connection, whatever the peer sends and however the bytes arrive. *)
From Coq Require Import ZArith List Bool Strings.Byte.
From Verif Require Import Bytes Prim CodecSpec PrimSpec Keys KeysSpec Framing FramingSpec Opening OpeningSpec OpeningProofs OpeningLemmas.
Import ListNotations.
Open Scope Z_scope.

(** A well-formed Hello is answered with the Acknowledge message that names the smaller of the two sizes of each
    direction; what follows it is read as the first chunk, byte for byte. *)
Theorem c117_accepted : forall max max_size chunks c url f t ps e,
  32 + Z.of_nat (length url) <= max < 2 ^ 32 -> ends_ok c -> len_ok url ->
  whole (Z.min (e_send c) max) f -> cut (hello_layout c url ++ f ++ t) ps ->
  exists r, server_begin max max_size chunks (mkConn ps e) =
              FirstChunk (agreed max max_size chunks c) url f r [ack_layout (agreed max max_size chunks c)] /\ unread r = t.
Proof. exact accepted_ok. Qed.
Print Assumptions c117_accepted.

(** No bytes of a peer end the server: false. Every well-formed Hello whose SendBufferSize is below 8 does, before any
    authentication, whatever follows it. *)
Theorem c117_small_refuted : forall max max_size chunks c url t ps e,
  32 + Z.of_nat (length url) <= max < 2 ^ 32 -> ends_ok c -> len_ok url -> e_send c < 8 -> cut (hello_layout c url ++ t) ps ->
  server_begin max max_size chunks (mkConn ps e) = Crashes [ack_layout (agreed max max_size chunks c)].
Proof. exact small_ok. Qed.
Print Assumptions c117_small_refuted.

(** Nothing else does: the server goes on after every first message but a Hello that gives less than 8 at byte 16. *)
Theorem c117_no_crash_partial : forall max max_size chunks stream ps e sent, 32 <= max < 2 ^ 32 -> cut stream ps ->
  server_begin max max_size chunks (mkConn ps e) = Crashes sent ->
  exists b t, stream = b ++ t /\ whole max b /\ says_hello b /\ 28 <= Z.of_nat (length b) /\ number_at 16 b < 8.
Proof. exact crash_only. Qed.
Print Assumptions c117_no_crash_partial.

(** All that can happen: the server waits, or answers with one Error message (BadDecodingError), or with one Acknowledge
    message, and one Error message (BadSecureChannelClosed) after it if what follows is no chunk that fits. *)
Theorem c117_answers : forall max max_size chunks stream ps e, 32 <= max < 2 ^ 32 -> cut stream ps ->
  let o := server_begin max max_size chunks (mkConn ps e) in
  (o = Waits [] /\ e = None) \/ o = Refuses [error_layout 2147942400] \/
  exists b t s, stream = b ++ t /\ whole max b /\ says_hello b /\ 28 <= Z.of_nat (length b) /\
    e_recv s = Z.min (number_at 16 b) max /\ e_send s <= max /\
    (o = Waits [ack_layout s] \/ o = Refuses [ack_layout s; error_layout 2156265472] \/
     (e_recv s < 8 /\ o = Crashes [ack_layout s]) \/
     exists url f r, o = FirstChunk s url f r [ack_layout s] /\ f ++ unread r = t /\ 8 <= Z.of_nat (length f) <= e_recv s).
Proof. exact begin_cases. Qed.
Print Assumptions c117_answers.

(** A first message that is not a Hello, or a Hello of less than 28 bytes, is refused with one Error message. *)
Theorem c117_refused : forall max max_size chunks b t ps e, 32 <= max < 2 ^ 32 -> whole max b -> cut (b ++ t) ps ->
  ~ says_hello b \/ Z.of_nat (length b) < 28 ->
  server_begin max max_size chunks (mkConn ps e) = Refuses [error_layout 2147942400].
Proof. exact refused_ok. Qed.
Print Assumptions c117_refused.

(** So is one that says it is longer than the buffer. *)
Theorem c117_oversize : forall max max_size chunks stream ps e, 32 <= max < 2 ^ 32 -> cut stream ps ->
  (8 <= length stream)%nat -> max < length_field stream ->
  server_begin max max_size chunks (mkConn ps e) = Refuses [error_layout 2147942400].
Proof. exact oversize_first. Qed.
Print Assumptions c117_oversize.

(** For one that does not come whole the server waits; when the connection ends or the deadline is over, it refuses. *)
Theorem c117_unfinished : forall max max_size chunks stream ps e, 32 <= max < 2 ^ 32 -> cut stream ps ->
  (length stream < 8)%nat \/ Z.of_nat (length stream) < length_field stream <= max ->
  server_begin max max_size chunks (mkConn ps e) =
  match e with None => Waits [] | Some _ => Refuses [error_layout 2147942400] end.
Proof. exact unfinished_first. Qed.
Print Assumptions c117_unfinished.

(** The fields of a Hello are within the message: false. A URL that says it is longer than what came is completed with
    zeros. *)
Theorem c117_beyond_refuted : forall max max_size chunks c n given t ps e,
  ends_ok c -> Z.of_nat (length given) <= n -> n < 2 ^ 31 -> 32 + n <= max < 2 ^ 32 -> 8 <= e_send c ->
  cut (hello_short c n given ++ t) ps -> whole (Z.min (e_send c) max) t ->
  exists r, server_begin max max_size chunks (mkConn ps e) =
    FirstChunk (agreed max max_size chunks c) (given ++ repeat x00 (Z.to_nat n - length given)) t r [ack_layout (agreed max max_size chunks c)].
Proof. exact beyond_ok. Qed.
Print Assumptions c117_beyond_refuted.

(** A size below 8 in the options is refused: false. Every connection ends the server, whatever the peer sends. *)
Theorem c117_config_refuted : forall max max_size chunks c, max < 8 -> server_begin max max_size chunks c = Crashes [].
Proof. exact config_ok. Qed.
Print Assumptions c117_config_refuted.

(** And the client that has such an option. *)
Theorem c117_client_config_refuted : forall cap own url left c, cap < 8 -> client_begin cap own url left c = Dies.
Proof. exact client_config_ok. Qed.
Print Assumptions c117_client_config_refuted.

(** The client returns the status code of the Error message that the server answers with. *)
Theorem c117_told : forall cap own url left code t ps e, 16 <= cap -> u32_ok code -> cut (error_layout code ++ t) ps ->
  client_begin cap own url left (mkConn ps e) = Fails code.
Proof. exact told_ok. Qed.
Print Assumptions c117_told.

(** Both together: the client of a server that refuses the first message learns BadDecodingError. *)
Theorem c117_passed_on : forall max max_size chunks cap own url left b t ps e qs, 32 <= max < 2 ^ 32 -> 16 <= cap -> whole max b -> cut (b ++ t) ps ->
  ~ says_hello b \/ Z.of_nat (length b) < 28 ->
  exists sent, server_begin max max_size chunks (mkConn ps e) = Refuses sent /\
    (cut (concat sent) qs -> forall e', client_begin cap own url left (mkConn qs e') = Fails 2147942400).
Proof. exact passed_on. Qed.
Print Assumptions c117_passed_on.

(** The client never uses sizes above the ones it named: false. It takes every Acknowledge as it is, so the sizes are
    those of the server, even when they are above its own buffer of [cap] bytes. *)
Theorem c117_enlarged_refuted : forall cap own url left s t ps e, 28 <= cap -> ends_ok s -> cut (ack_layout s ++ t) ps ->
  exists r, client_begin cap own url left (mkConn ps e) =
    Greeted (mkEnds (e_send s) (e_recv s) (e_max_req s) (e_req_chunks s) (e_max_res own) (e_res_chunks own)) r /\ unread r = t.
Proof. exact greeted_ok. Qed.
Print Assumptions c117_enlarged_refuted.

(** The client refuses every other answer. *)
Theorem c117_client_other : forall cap own url left b t ps e, whole cap b -> cut (b ++ t) ps ->
  firstn 4 b <> [x41; x43; x4b; x46] -> firstn 4 b <> [x45; x52; x52; x46] ->
  client_begin cap own url left (mkConn ps e) = Fails 2147942400.
Proof. exact client_other. Qed.
Print Assumptions c117_client_other.

(** A call that opens a connection ends: false. With a server that accepts the connection and does not answer whole, and
    does not end the connection, the client waits for ever: it has set no deadline and does not look at the context. *)
Theorem c117_silent_refuted : forall cap own url left stream ps e, 8 <= cap -> cut stream ps ->
  (length stream < 8)%nat \/ Z.of_nat (length stream) < length_field stream <= cap ->
  client_begin cap own url left (mkConn ps e) = match e with None => Hangs | Some code => Fails code end.
Proof. exact client_unfinished. Qed.
Print Assumptions c117_silent_refuted.
