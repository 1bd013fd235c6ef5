(** C111: How the network cuts the bytes does not matter. *)
From Coq Require Import ZArith List Bool Strings.Byte.
From Verif Require Import Bytes Chunk ChunkSpec Framing FramingSpec FramingProofs FramingLemmas.
Import ListNotations.
Open Scope Z_scope.

(** Two ways to cut the same bytes give the same chunks and end in the same way. *)
Theorem c111_pieces : forall stream ps1 ps2 e cap fuel, cut stream ps1 -> cut stream ps2 ->
  fst (read_all fuel cap (mkConn ps1 e)) = fst (read_all fuel cap (mkConn ps2 e)) /\
  match snd (read_all fuel cap (mkConn ps1 e)), snd (read_all fuel cap (mkConn ps2 e)) with
  | Some a, Some b => alike a b
  | None, None => True
  | _, _ => False
  end.
Proof. exact independent_ok. Qed.
Print Assumptions c111_pieces.

(** The chunks that were sent are the chunks that are read. *)
Theorem c111_exact : forall cap frames ps e, 8 <= cap -> Forall (whole cap) frames -> cut (concat frames) ps ->
  forall fuel, read_all (length frames + S fuel) cap (mkConn ps e) = (frames, Some (ends e [])).
Proof. exact exact_ok. Qed.
Print Assumptions c111_exact.

(** A chunk that is cut off is never taken for one: the error of the connection is returned, or more bytes awaited. *)
Theorem c111_truncated : forall cap frames f k ps e, Forall (whole cap) frames -> whole cap f -> (k < length f)%nat ->
  cut (concat frames ++ firstn k f) ps ->
  forall fuel, read_all (length frames + S fuel) cap (mkConn ps e) = (frames, Some (ends e (firstn k f))).
Proof. exact truncated_ok. Qed.
Print Assumptions c111_truncated.

(** A chunk that says it is larger than the buffer is refused as soon as its header is there. *)
Theorem c111_oversize : forall cap frames big ps e, 8 <= cap -> Forall (whole cap) frames -> (8 <= length big)%nat -> cap < length_field big ->
  cut (concat frames ++ big) ps ->
  forall fuel, exists r, read_all (length frames + S fuel) cap (mkConn ps e) = (frames, Some (TooBig r)) /\
    unread r = skipn 8 big /\ ending r = e.
Proof. exact oversize_ok. Qed.
Print Assumptions c111_oversize.

(** Whatever comes: a chunk is the next bytes, none lost, and fits the buffer. *)
Theorem c111_conserved : forall cap ps e b r, 8 <= cap -> Forall (fun p => p <> []) ps -> read cap (mkConn ps e) = Framing.Chunk b r ->
  concat ps = b ++ unread r /\ 8 <= Z.of_nat (length b) <= cap /\ ending r = e.
Proof. exact conserved_lemma. Qed.
Print Assumptions c111_conserved.

(** Threads that write chunks to one connection do not damage each other's. *)
Theorem c111_writers : forall cap ls l ps e, 8 <= cap -> Forall (Forall (whole cap)) ls -> interleaved ls l -> cut (concat l) ps ->
  read_all (length l + 1) cap (mkConn ps e) = (l, Some (ends e [])).
Proof. exact writers_ok. Qed.
Print Assumptions c111_writers.

(** Messages of any length, in chunks, in pieces: the messages that were sent are received. *)
Theorem c111_messages : forall sign enc dec s r cap send, linked sign enc dec s r cap send ->
  forall fuel rcap, send <= rcap -> 8 <= rcap -> forall ms seq rest,
  Forall (fun m => 0 <= fst m < 2 ^ 32 /\ snd m <> [] /\ (length (snd m) <= fuel)%nat /\
     let n := Z.of_nat (length (snd m)) in
     let k := chunks_needed (max_body (c_mode s) (c_sig s) (c_block s) send) n in
     within (c_max_size s) n /\ within (c_max_chunks s) k /\
     within (c_max_size r) n /\ within (chunk_limit r) k) ms ->
  forall ps e, cut (concat (send_all sign enc fuel s cap send seq ms) ++ rest) ps ->
  exists c, recv_messages sign dec (length ms) fuel r rcap (mkConn ps e) = (ms, c) /\ unread c = rest.
Proof. exact messages_ok. Qed.
Print Assumptions c111_messages.

(** Reading from pieces is the reading of C23 and C29, which know nothing of pieces. *)
Theorem c111_agrees : forall cap ps e, 8 <= cap -> Forall (fun p => p <> []) ps ->
  match read_chunk cap (concat ps) with
  | Some (b, rest) => exists r, read cap (mkConn ps e) = Framing.Chunk b r /\ unread r = rest
  | None => match read cap (mkConn ps e) with Framing.Chunk _ _ | Panics => False | _ => True end
  end.
Proof. exact agrees_ok. Qed.
Print Assumptions c111_agrees.

(** Of a message that is cut off nothing is delivered: its receiver waits as long as the connection is open, then fails. *)
Theorem c111_cut_off : forall sign dec fuel c cap k acc f n ps e, whole cap f -> (n < length f)%nat -> cut (firstn n f) ps ->
  within (chunk_limit c) (k + 1) ->
  recv_on sign dec (S fuel) c cap k acc (mkConn ps e) = match e with Some _ => Error | None => StillWaiting end.
Proof. exact cut_off_waits. Qed.
Print Assumptions c111_cut_off.
