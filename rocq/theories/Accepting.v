(** Accepting connections: the loop of the server that takes them.

    Source: /repo/server/server.go 286-322 (ListenAndServe), 354-381 (serve). *)
From Coq Require Import ZArith List Bool.
From Verif Require Import Bytes.
Import ListNotations.
Open Scope Z_scope.

(** What ln.Accept gives (357): a connection, or an error, which is a net.Error with Timeout() or not. Of Go's
    library: the errors of a process without free file descriptors (EMFILE, ENFILE) or memory are not. *)
Inductive accepted : Type := Conn (c : Z) | Failed (timeout : bool).
(** One turn of the loop, with the answer of srv.State() != ua.ServerStateRunning (359), which another thread sets *)
Record turn : Type := mkTurn { t_result : accepted; t_running : bool }.
(** 379: go srv.handleConnection; 371: time.Sleep, in milliseconds *)
Inductive deed : Type := Handle (c : Z) | Sleep (ms : Z).
(** Whether the loop waits for the next connection or has returned *)
Inductive ending : Type := Waiting | Returned (code : Z).
Definition halted : Z := 0x800E0000.        (* BadServerHalted *)
Definition internal : Z := 0x80820000.      (* BadTCPInternalError *)

(** 363-370: the delay after a time-out *)
Definition next_delay (delay : Z) : Z :=
  let d := if delay =? 0 then 5 else delay * 2 in if 1000 <? d then 1000 else d.
(** serve 354-381. The wait group and the threads of the connections are left out: nothing here looks at them. *)
Fixpoint serve (delay : Z) (ts : list turn) : list deed * ending :=
  match ts with
  | [] => ([], Waiting)
  | t :: r =>
      match t_result t with
      | Conn c => let '(a, e) := serve 0 r in (Handle c :: a, e)
      | Failed timeout =>
          if negb (t_running t) then ([], Returned halted)
          else if timeout then let d := next_delay delay in let '(a, e) := serve d r in (Sleep d :: a, e)
          else ([], Returned internal)
      end
  end.
(** ListenAndServe 286-322 on a server that is in a state (Unknown 7, Running 0, Shutdown 4): the new state and the
    answer, when the URL can be parsed and the port is free. serve starts with no delay (355). The wait for the
    connections (316) and the workers (319) before it returns is left out. *)
Definition listen_and_serve (state : Z) (ts : list turn) : Z * list deed * ending :=
  if negb (state =? 7) then (state, [], Returned 0x80020000)       (* BadInternalError *)
  else let '(a, e) := serve 0 ts in (0, a, e).
