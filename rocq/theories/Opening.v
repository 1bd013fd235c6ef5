(** The first messages of a connection, on both ends, up to the first chunk that the server reads for the secure channel.

    Sources: /repo/server/server_secure_channel.go (newServerSecureChannel 102-124, Open 184-276, Abort 394-416,
    readRequest 1051-1057, read 1589-1620), /repo/server/server.go (handleConnection 384-395), /repo/client/
    client_secure_channel.go (Open 302-386). A panic in Open is not recovered: there is no call of recover in the
    repository, and handleConnection runs in a goroutine of its own, so it ends the process.

    Not modelled: the memory that make asks for (the URL's length and the negotiated sizes decide it) and a write that
    fails. The server sets a deadline of 20 seconds (server:118, 190): when it expires, that is the error in [ending]. The
    client sets none, and its Open looks at the context only after the answer (client:453). *)
From Coq Require Import ZArith List Bool Strings.Byte.
From Verif Require Import Bytes Prim Chunk Keys Framing.
Import ListNotations.
Open Scope Z_scope.

(** /repo/ua/message_types.go 9 *)
Definition t_error : Z := tag 69 82 82 70.
(** /repo/ua/status_code.generated.go 21, 329, 335 *)
Definition bad_decoding : Z := 2147942400.
Definition bad_channel_closed : Z := 2156265472.
Definition bad_version : Z := 2159935488.

(** server:184-276 with handleConnection's reaction (server.go:388-395): what was sent, in order, and how it goes on. *)
Inductive opening : Type :=
| Crashes (sent : list bytes)                                          (* a panic: the process ends *)
| Refuses (sent : list bytes)                                          (* the connection is closed *)
| Waits (sent : list bytes)
| FirstChunk (s : ends) (url b : bytes) (rest : conn) (sent : list bytes).   (* readRequest goes on with the bytes b *)

(** server:394-416 Abort(reason, ""), in a buffer of [max] bytes *)
Definition error_bytes (max reason : Z) : bytes :=
  put max (put max (put max (put max [] (le_enc 4 t_error)) (le_enc 4 16)) (le_enc 4 reason)) (write_string []).
Definition refuse (max : Z) (sent : list bytes) (reason : Z) : opening := Refuses (sent ++ [error_bytes max reason]).

(** server:188-268 on the buffer after the read: [inr] is the status code that Open returns. The order of the cases is
    that of the code: a version that cannot be read is BadProtocolVersionUnsupported (215), all else that cannot be
    read is BadDecodingError. *)
Definition answer_hello (max : Z) (s : ends) (buf : bytes) : (ends * bytes * bytes) + Z :=
  match bind (read_uint 4) (fun t => bind (read_uint 4) (fun len => ret (t, len))) buf with
  | Ok (t, len) rest =>
      if negb (t =? t_hello) then inr bad_decoding
      else if len <? 28 then inr bad_decoding
      else match read_uint 4 rest with
           | Ok _ _ =>
               match read_hello buf with
               | Ok (_, _, _, _, url) _ =>
                   match server_accept max s buf with
                   | Some (s', ack) => inl (s', ack, url)
                   | None => inr bad_decoding
                   end
               | _ => inr bad_decoding
               end
           | _ => inr bad_version
           end
  | _ => inr bad_decoding
  end.

(** server:184-276 Open to the first chunk of readRequest (1054). [max]: srv.maxBufferSize, the size of the buffer and of
    both sizes at first (107-108); [max_size], [chunks]: srv.maxMessageSize and srv.maxChunkCount. The buffer is new
    (110), so it holds zeros behind the message. *)
Definition server_begin (max max_size chunks : Z) (c : conn) : opening :=
  match read max c with
  | Panics => Crashes []
  | Blocked _ => Waits []
  | TooBig _ => refuse max [] bad_decoding
  | Broken _ _ => refuse max [] bad_decoding
  | Chunk b rest =>
      let buf := b ++ repeat x00 (Z.to_nat max - length b) in
      match answer_hello max (mkEnds max max max_size chunks 0 0) buf with
      | inr code => refuse max [] code
      | inl (s, ack, url) =>
          match read (e_recv s) rest with
          | Panics => Crashes [ack]
          | Blocked _ => Waits [ack]
          | TooBig _ => refuse max [ack] bad_channel_closed
          | Broken _ _ => refuse max [ack] bad_channel_closed
          | Chunk [] _ => refuse max [ack] bad_channel_closed
          | Chunk b' rest' => FirstChunk s url b' rest' [ack]
          end
      end
  end.

(** client:302-386 Open from the Hello to the answer: it goes on with the limits, or returns an error. *)
Inductive greeted : Type :=
| Greeted (c : ends) (rest : conn)
| Fails (code : Z)
| Hangs
| Dies.

(** client:368-380 an Error message *)
Definition read_error : reader Z :=
  bind (read_uint 4) (fun _ => bind (read_uint 4) (fun len => if len <? 16 then fail else
  bind (read_uint 4) (fun code => bind read_string (fun _ => ret code)))).

(** client:333-386. Versions are never below 0 (350). *)
Definition take_answer (own : ends) (buf : bytes) : ends + Z :=
  match read_uint 4 buf with
  | Ok t _ =>
      if t =? t_ack then match client_accept own buf with Some c => inl c | None => inr bad_decoding end
      else if t =? t_error then match read_error buf with Ok code _ => inr code | _ => inr bad_decoding end
      else inr bad_decoding
  | _ => inr bad_decoding
  end.

(** client:308-386. The answer is read over the Hello, in the same buffer of [cap] bytes; [left]: what the buffer held
    before (it comes from a pool). *)
Definition client_begin (cap : Z) (own : ends) (url left : bytes) (c : conn) : greeted :=
  let hello := hello_bytes cap own url in
  let buf := hello ++ skipn (length hello) left in
  match read cap c with
  | Panics => Dies
  | Blocked _ => Hangs
  | TooBig _ => Fails bad_decoding
  | Broken _ e => Fails e
  | Chunk b rest =>
      match take_answer own (b ++ skipn (length b) buf) with
      | inl c' => Greeted c' rest
      | inr code => Fails code
      end
  end.
