(** Reading chunks from a connection that hands over the bytes in pieces.

    Source: /repo/client/client_secure_channel.go 1867-1898 Read, /repo/server/server_secure_channel.go 1589-1620 read
    (the same text), and the loops that call them (Chunk.v). A connection holds the pieces in which the bytes arrive;
    one call of conn.Read gives no more than one piece. *)
From Coq Require Import ZArith List Bool Strings.Byte.
From Verif Require Import Bytes Chunk.
Import ListNotations.
Open Scope Z_scope.

(** What follows the pieces: an error (the end of the stream is one, io.EOF), or nothing so far *)
Record conn := mkConn { pieces : list bytes; ending : option Z }.

(** "for num < count": client:1876-1882, 1889-1895, server:1598-1604, 1611-1617. conn.Read gives as many bytes of the
    piece as there is room for; the rest of the piece stays. *)
Inductive filled : Type :=
| Full (b : bytes) (rest : list bytes)
| Short (b : bytes)                          (* no more pieces *)
| Nothing (b : bytes) (rest : list bytes).   (* conn.Read gave no bytes and no error *)

Definition put_before (b : bytes) (f : filled) : filled :=
  match f with
  | Full c rest => Full (b ++ c) rest
  | Short c => Short (b ++ c)
  | Nothing c rest => Nothing (b ++ c) rest
  end.

Fixpoint fill (need : nat) (ps : list bytes) : filled :=
  match need with
  | O => Full [] ps
  | S _ =>
      match ps with
      | [] => Short []
      | p :: r =>
          match p with
          | [] => Nothing [] r
          | _ :: _ =>
              if (length p <=? need)%nat then put_before p (fill (need - length p) r)
              else Full (firstn need p) (skipn need p :: r)
          end
      end
  end.

(** What a call of Read comes to. *)
Inductive got : Type :=
| Chunk (b : bytes) (rest : conn)     (* the bytes, no error *)
| TooBig (rest : conn)                (* BadDecodingError after the first 8 bytes *)
| Broken (b : bytes) (e : Z)          (* the error of the connection; b: the bytes until then *)
| Blocked (b : bytes)                 (* it waits for more bytes *)
| Panics.                             (* the buffer is shorter than 8 bytes *)

(** client:1867-1898, server:1589-1620. [cap]: the size of the buffer p. int is 64 bits wide. *)
Definition read (cap : Z) (c : conn) : got :=
  let unfinished b := match ending c with Some e => Broken b e | None => Blocked b end in
  if cap <? 8 then Panics
  else
    match fill 8 (pieces c) with
    | Short b => unfinished b
    | Nothing b rest => Chunk b (mkConn rest (ending c))
    | Full h rest =>
        let count := le_dec (firstn 4 (skipn 4 h)) in
        if cap <? count then TooBig (mkConn rest (ending c))
        else
          match fill (Z.to_nat count - 8) rest with
          | Short b => unfinished (h ++ b)
          | Nothing b rest' => Chunk (h ++ b) (mkConn rest' (ending c))
          | Full b rest' => Chunk (h ++ b) (mkConn rest' (ending c))
          end
    end.

(** Calls of Read in turn, until one does not give a chunk: client:1387-1396, server:1051-1054 *)
Fixpoint read_all (fuel : nat) (cap : Z) (c : conn) : list bytes * option got :=
  match fuel with
  | O => ([], None)
  | S f =>
      match read cap c with
      | Chunk b rest => let (l, e) := read_all f cap rest in (b :: l, e)
      | r => ([], Some r)
      end
  end.

Section Crypto.
  Variable sign dec : bytes -> bytes.

  (** The loop "for !isFinal" (Chunk.v recv_loop) on a connection. client:1387-1629, server:1051-1341 *)
  Inductive received : Type :=
  | Message (rid : Z) (body : bytes) (rest : conn)
  | Error
  | Panic
  | OtherChunk
  | StillWaiting
  | OutOfFuel.

  Fixpoint recv_on (fuel : nat) (c : conf) (cap : Z) (k : Z) (acc : bytes) (s : conn) : received :=
    match fuel with
    | O => OutOfFuel
    | S f =>
        let k' := k + 1 in
        if (0 <? chunk_limit c) && (chunk_limit c <? k') then Error
        else match read cap s with
             | TooBig _ => Error
             | Broken _ _ => Error
             | Blocked _ => StillWaiting
             | Panics => Panic
             | Chunk b rest =>
                 match open_chunk sign dec c b with
                 | RxErr => Error
                 | RxPanic => Panic
                 | RxOther _ => OtherChunk
                 | RxPart final rid part =>
                     let acc' := acc ++ part in
                     if (0 <? c_max_size c) && (c_max_size c <? Z.of_nat (length acc')) then Error
                     else if final then Message rid acc' rest
                     else recv_on f c cap k' acc' rest
                 end
             end
    end.

  (** one message after the other: client:1350-1365 responseWorker, /repo/server/server.go 417-418 *)
  Fixpoint recv_messages (n fuel : nat) (c : conf) (cap : Z) (s : conn) : list (Z * bytes) * conn :=
    match n with
    | O => ([], s)
    | S n' => match recv_on fuel c cap 0 [] s with
              | Message rid body rest => let (l, rest') := recv_messages n' fuel c cap rest in ((rid, body) :: l, rest')
              | _ => ([], s)
              end
    end.
End Crypto.
