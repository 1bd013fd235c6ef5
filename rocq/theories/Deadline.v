(** How long the server keeps a connection.

    Source: /repo/server/server_secure_channel.go (newServerSecureChannel 102-121, Open 183-379,
    readRequest 1084-1098, handleOpenSecureChannel 1469-1511, the constants 41-43) and, for the client
    that renews its tokens, /repo/client/client_secure_channel.go (Open 463, sendRequest 506-511,
    renewToken 1762-1788).
    Left out: whether a chunk is authentic (readRequest looks at its token before, 1090; C27), everything
    else that ends a connection (C73), and the keys that go with a token (C30).  Times are in milliseconds
    of one clock. *)
From Coq Require Import ZArith List Bool.
From Verif Require Import Keys Requests Chunk.
Import ListNotations.
Open Scope Z_scope.

(** 41-43 *)
Definition minTokenLifetime : Z := 300000.
Definition maxTokenLifetime : Z := 3600000.
(** 348-354, 1482-1488 *)
Definition revised (requested : Z) : Z :=
  let l := if maxTokenLifetime <? requested then maxTokenLifetime else requested in
  if l <? minTokenLifetime then minTokenLifetime else l.

(** The deadline of the connection, tokenID, pendingTokenID, pendingTokenExpiration, lastTokenID, whether
    Open has returned, whether the connection is still there *)
Record conn : Type := mkConn {
  k_deadline : Z; k_token : Z; k_pending : Z; k_expiry : Z; k_last : Z; k_open : bool; k_alive : bool }.
(** 102-121 and 190: SetDeadline holds for reading and for writing *)
Definition connected (now : Z) : conn := mkConn (now + 20000) 0 0 0 0 false true.

(** What the server does on the connection at time [t]: it reads the first request and answers it with
    a token; a renewal; it reads a chunk with this token in its header; it writes. *)
Inductive op : Type :=
| Opens (t requested : Z)
| Renews (t requested : Z)
| Message (t token : Z)
| Writes (t : Z).
Definition time_of (o : op) : Z := match o with Opens t _ | Renews t _ | Message t _ | Writes t => t end.

Definition gone (s : conn) : conn :=
  mkConn (k_deadline s) (k_token s) (k_pending s) (k_expiry s) (k_last s) (k_open s) false.
(** 347-355, 1481-1489 *)
Definition issue (s : conn) (t requested : Z) : conn :=
  let id := next_counter (k_last s) in
  mkConn (k_deadline s) (k_token s) id (t + revised requested) id true (k_alive s).
(** An error of the connection or an unexpected message ends it: 273-280, 1055-1057, 1090-1098 *)
Definition step (s : conn) (o : op) : conn :=
  if negb (k_alive s) then s
  else if k_deadline s <=? time_of o then gone s
  else match o with
       | Opens t requested => if k_open s then gone s else issue s t requested
       | Renews t requested => if k_open s then issue s t requested else gone s
       | Message t token =>
           if negb (k_open s) then gone s
           else if k_token s =? token then s
           else if k_pending s =? token
                then mkConn (k_expiry s) token (k_pending s) (k_expiry s) (k_last s) true true
                else gone s
       | Writes _ => s
       end.
Definition run (s : conn) (l : list op) : conn := fold_left step l s.

(** The client: a request made at [c_at]; it and what it causes are on the way for the times [c_go], [c_back],
    [c_again], and the server writes its response [c_reply] after it has read it. *)
Record call : Type := mkCall { c_at : Z; c_requested : Z; c_go : Z; c_back : Z; c_again : Z; c_reply : Z }.
(** client 506-511, 1762-1788: a request after the time to renew is sent when the renewal has been answered.  Only for
    requests at most a minute late: later ones renew more than once (C71). *)
Fixpoint traffic (due token : Z) (l : list call) : list op :=
  match l with
  | [] => []
  | c :: r =>
      if c_at c <=? due
      then Message (c_at c + c_go c) token :: Writes (c_at c + c_go c + c_reply c) :: traffic due token r
      else let issued := c_at c + c_go c in
           let received := issued + c_back c in
           let used := received + c_again c in
           let token' := next_counter token in
           Renews issued (c_requested c) :: Message used token' :: Writes (used + c_reply c) ::
           traffic (received + renew_offset (revised (c_requested c))) token' r
  end.
(** client Open 463: the first token *)
Definition opening (opened back requested : Z) (l : list call) : list op :=
  Opens opened requested :: traffic (opened + back + renew_offset (revised requested)) (next_counter 0) l.
