(** The connections and goroutines a client takes and gives back.

    Source: /repo/client/client_secure_channel.go (Request 237-267, Open 270-470, Close 473-485, Abort 488-496,
    sendRequest 506-546, responseWorker 1350-1365), /repo/client/client_service_set.go (FindServers 33-79,
    GetEndpoints 83-129), /repo/client/client.go (Dial 29-152, Close 748-758, Abort 761-764).

    What the other side and the clock do is given with each call (a fate); contents of messages are not modelled.
    Calls of one client are in turn.  Sending to a connection this side has shut fails, so such fates are overruled. *)
From Coq Require Import List Bool Arith.
Import ListNotations.

(** ch.conn: nil, open or after conn.Close *)
Inductive conn : Type := NoConn | Open | Shut.
(** the goroutine responseWorker, 442, 1350-1365 *)
Inductive worker : Type := NotStarted | Reading | Ended.
Record chan : Type := mkChan { c_conn : conn; c_worker : worker; c_closing : bool }.
Definition new_chan : chan := mkChan NoConn NotStarted false.

(** What becomes of Open, by the line it leaves at *)
Inductive fate : Type :=
| FEarly          (* 274-304: the URL, the certificate or the connection *)
| FHello          (* 319-431: writing Hello, reading the answer, an answer that is not an acknowledgement, policy, keys *)
| FRequest        (* 451-454: the answer to OpenSecureChannel is bad, or none comes in time *)
| FHangUp         (* 451-454: the connection ends before the answer, so does responseWorker *)
| FVersion        (* 456-458 *)
| FOpened.
Definition open_chan (f : fate) : chan * bool :=
  match f with
  | FEarly => (new_chan, false)
  | FHello => (mkChan Open NotStarted false, false)
  | FRequest => (mkChan Open Reading false, false)
  | FHangUp => (mkChan Open Ended false, false)
  | FVersion => (mkChan Open Reading false, false)
  | FOpened => (mkChan Open Reading false, true)
  end.
Definition is_open (c : conn) : bool := match c with Open => true | _ => false end.
Definition shut (c : conn) : conn := match c with Open => Shut | x => x end.
(** Abort 488-496 *)
Definition abort_chan (ch : chan) : chan := mkChan (shut (c_conn ch)) (c_worker ch) true.
(** Close 473-485.  The response is in the operation's channel already when the select of 254-266 is reached
    (534-538); the select takes any branch that is ready.  [PCancelled]: ctx has ended; [PGone]: ch.closed is closed,
    which takes the end of the worker. *)
Inductive pick : Type := PSendFails | PResponse | PCancelled | PGone.
Definition close_chan (p : pick) (ch : chan) : chan * bool :=
  let bad := mkChan (c_conn ch) (match p with PGone => Ended | _ => c_worker ch end) true in
  if is_open (c_conn ch)
  then match p with PResponse => (mkChan Shut (c_worker ch) true, true) | _ => (bad, false) end
  else (mkChan (c_conn ch) (c_worker ch) true, false).
(** A request on a channel: [ok] if the answer is good *)
Definition request_chan (ok : bool) (ch : chan) : bool := is_open (c_conn ch) && ok.
(** The worker of a channel ends: its connection was shut or lost *)
Definition worker_ends (ch : chan) : chan := mkChan (c_conn ch) (match c_worker ch with Reading => Ended | x => x end) (c_closing ch).

(** FindServers 33-79 and GetEndpoints 83-129: the channel at the end, and whether there is a result *)
Record dfate : Type := mkDf { df_open : fate; df_answer : bool; df_close : pick }.
Definition discover (d : dfate) : chan * bool :=
  let (ch, ok) := open_chan (df_open d) in
  if ok
  then if request_chan (df_answer d) ch
       then let (ch', closed) := close_chan (df_close d) ch in
            if closed then (ch', true) else (abort_chan ch', false)
       else (abort_chan ch, false)
  else (ch, false).

(** Dial 29-152: [lf_select] an endpoint suits, [lf_session] the session is created and activated and the tables read *)
Record lfate : Type := mkLf { lf_discover : dfate; lf_select : bool; lf_open : fate; lf_session : bool }.
Inductive op : Type :=
| Discover (d : dfate)
| Dial (l : lfate)
| CloseClient (i : nat) (session : bool) (p : pick)  (* whether CloseSession succeeds *)
| AbortClient (i : nat)
| WorkerEnds (i : nat).
(** All channels ever made, and whether it belongs to a client Dial returned *)
Record world : Type := mkWorld { w_chans : list (chan * bool) }.
Definition empty : world := mkWorld [].
(** What a call returns: a client (by the number of its channel), or whether there was no error *)
Inductive ret : Type := RClient (i : nat) | ROk | RErr.
Fixpoint set_nth {A} (i : nat) (x : A) (l : list A) : list A :=
  match l, i with [], _ => [] | _ :: r, 0 => x :: r | a :: r, S k => a :: set_nth k x r end.
Definition client (i : nat) (w : world) : option chan :=
  match nth_error (w_chans w) i with Some (ch, true) => Some ch | _ => None end.
Definition put (i : nat) (ch : chan) (w : world) : world := mkWorld (set_nth i (ch, true) (w_chans w)).
Definition add (ch : chan) (mine : bool) (w : world) : world := mkWorld (w_chans w ++ [(ch, mine)]).
Definition of_bool (b : bool) : ret := if b then ROk else RErr.
Definition step (o : op) (w : world) : world * ret :=
  match o with
  | Discover d => let (ch, ok) := discover d in (add ch false w, of_bool ok)
  | Dial l =>
      let (d, ok) := discover (lf_discover l) in
      let w1 := add d false w in
      if ok && lf_select l
      then let (ch, opened) := open_chan (lf_open l) in
           if opened && request_chan (lf_session l) ch then (add ch true w1, RClient (length (w_chans w1)))
           else (add (abort_chan ch) false w1, RErr)
      else (w1, RErr)
  | CloseClient i session p =>
      match client i w with
      | None => (w, RErr)
      | Some ch => if request_chan session ch then (put i (fst (close_chan p ch)) w, ROk) else (w, RErr)
      end
  | AbortClient i => match client i w with None => (w, RErr) | Some ch => (put i (abort_chan ch) w, ROk) end
  | WorkerEnds i => match nth_error (w_chans w) i with Some (ch, b) => (mkWorld (set_nth i (worker_ends ch, b) (w_chans w)), ROk) | None => (w, RErr) end
  end.
(** A history: the world after it, and what each call returned *)
Fixpoint run (l : list op) (w : world) : world * list (op * ret) :=
  match l with
  | [] => (w, [])
  | o :: r => let (w1, x) := step o w in let (w2, t) := run r w1 in (w2, (o, x) :: t)
  end.
