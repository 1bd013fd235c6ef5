(** Blocks of Go statements and their runs, for any kind of effect.
    The blocks are in HandlerTable.v and MutexTable.v. *)
From Coq Require Import List String Bool.
Import ListNotations.

(** How a block is left. [Fall]: at its end; [Return]: return nil; [Fail]: return err, after which
    /repo/server/server.go 414-427 requestWorker closes the connection; [Leave]: the end of a
    function literal or of an inlined call. *)
Inductive exit : Type := Fall | Break | Continue | Leave | Return | Fail.

Section Effects.
(** the effects of interest: /repo/server, see Handlers.v and Mutex.v *)
Variable E : Type.

(** Blocks of Go statements (/repo/server). The statements without an effect of interest are left out. *)
Inductive prog : Type :=
| Done
| Do (e : E) (k : prog)
| If (c : string) (a b k : prog)
| Loop (b k : prog)
| Scope (b k : prog)
| Exit (x : exit).

(** What happens in a run of /repo/server code: effects, and the checks with their outcome. *)
Inductive event : Type :=
| Did (e : E)
| Cond (c : string) (holds : bool).

(** The runs of a block of /repo/server. The conditions may have any outcome and the loops any number of turns. *)
Inductive run : prog -> list event -> exit -> Prop :=
| run_done : run Done [] Fall
| run_exit : forall x, run (Exit x) [] x
| run_do : forall e k t x, run k t x -> run (Do e k) (Did e :: t) x
| run_if : forall c (v : bool) a b k t1 t2 x,
    run (if v then a else b) t1 Fall -> run k t2 x -> run (If c a b k) (Cond c v :: t1 ++ t2) x
| run_if_out : forall c (v : bool) a b k t x,
    run (if v then a else b) t x -> x <> Fall -> run (If c a b k) (Cond c v :: t) x
| run_loop_end : forall b k t x, run k t x -> run (Loop b k) t x
| run_loop_turn : forall b k t1 t2 y x,
    run b t1 y -> y = Fall \/ y = Continue -> run (Loop b k) t2 x -> run (Loop b k) (t1 ++ t2) x
| run_loop_break : forall b k t1 t2 x,
    run b t1 Break -> run k t2 x -> run (Loop b k) (t1 ++ t2) x
| run_loop_out : forall b k t x,
    run b t x -> x = Leave \/ x = Return \/ x = Fail -> run (Loop b k) t x
| run_scope : forall b k t1 t2 y x,
    run b t1 y -> y = Fall \/ y = Leave -> run k t2 x -> run (Scope b k) (t1 ++ t2) x
| run_scope_out : forall b k t x,
    run b t x -> x <> Fall -> x <> Leave -> run (Scope b k) t x.

End Effects.

Arguments Done {E}.
Arguments Do {E}.
Arguments If {E}.
Arguments Loop {E}.
Arguments Scope {E}.
Arguments Exit {E}.
Arguments Did {E}.
Arguments Cond {E}.
Arguments run {E}.
