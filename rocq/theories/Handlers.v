(** The control flow of the service handlers and the request counters.
    The handlers themselves are in HandlerTable.v. *)
From Coq Require Import ZArith List String Bool.
From Verif Require Export Flow.
Import ListNotations.
Open Scope Z_scope.

(** /repo/server/server_service_set.go: what a handler does that others can see.
    [Inc]: a counter of the session ("readCount") or of the server ("summary.…") grows by one.
    [Send own m c]: a message m with service result c is written; own: to the channel and with
    the request id of the request handled. [Abort]: the channel is aborted.
    [Queue]: /repo/server/session.go 292-314 addPublishRequest keeps the request for a later answer.
    [Act]: one of the calls that change the server, use its data or look up the session. *)
Inductive eff : Type :=
| Inc (counter : string)
| Send (own : bool) (message code : string)
| Abort (code : string)
| Queue
| Act (call : string).

(** The blocks of the handlers (Flow.v). A goroutine or worker pool task ([Scope]) is run where it is started. *)
Notation prog := (prog eff).

(** What happens in a run of a handler: effects, and the checks with their outcome (Flow.v). *)
Notation event := (event eff).

(** /repo/server/session.go 55-113 and /repo/ua ServerDiagnosticsSummaryDataType: counters are uint32.
    The increments are not atomic in the code: two channels that use one session at the same time may
    lose one. They are atomic here. *)
Definition wrap32 (n : Z) : Z := n mod 4294967296.

Definition counters : Type := string -> Z.

Definition bump (c : string) (m : counters) : counters :=
  fun d => if String.eqb c d then wrap32 (m d + 1) else m d.

Definition is_summary (c : string) : bool := String.prefix "summary." c.

(** The counters of the server and of each session, by a number that stands for the session. *)
Record diag := mkDiag { dg_summary : counters; dg_session : Z -> counters }.

(** /repo/server/server.go 119 and /repo/server/session.go: all counters start at zero *)
Definition diag_init : diag := mkDiag (fun _ => 0) (fun _ _ => 0).

(** One event of the handling of a request that carries the token of session sid *)
Definition count_event (sid : Z) (d : diag) (e : event) : diag :=
  match e with
  | Did (Inc c) =>
      if is_summary c then mkDiag (bump c (dg_summary d)) (dg_session d)
      else mkDiag (dg_summary d)
             (fun i => if i =? sid then bump c (dg_session d i) else dg_session d i)
  | _ => d
  end.

(** A request: the service, the session its token names, and what its handler did *)
Record handled := mkHandled { hd_service : string; hd_sid : Z; hd_trace : list event; hd_exit : exit }.

Definition count_request (d : diag) (h : handled) : diag :=
  fold_left (count_event (hd_sid h)) (hd_trace h) d.

Definition count_all (hs : list handled) : diag := fold_left count_request hs diag_init.

(** /repo/server/session_manager.go 153-197 and the variables below it: a field of the session
    diagnostics is the pair of counters the table names *)
Definition read_field (fields : list (string * (string * string))) (d : diag) (sid : Z) (f : string)
  : option (Z * Z) :=
  match find (fun r => String.eqb (fst r) f) fields with
  | Some (_, (total, errors)) => Some (dg_session d sid total, dg_session d sid errors)
  | None => None
  end.
