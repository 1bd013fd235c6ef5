(** What is asked of accepting connections *)
From Coq Require Import ZArith List Bool.
From Verif Require Import Accepting.
Import ListNotations.
Open Scope Z_scope.

(** A connection comes, or none does in time and the server has not been closed. *)
Definition goes_on (t : turn) : Prop := (exists c, t_result t = Conn c) \/ (t_result t = Failed true /\ t_running t = true).
(** The connections that came, and those that are handled *)
Definition came (ts : list turn) : list Z := flat_map (fun t => match t_result t with Conn c => [c] | _ => [] end) ts.
Definition handled (l : list deed) : list Z := flat_map (fun d => match d with Handle c => [c] | _ => [] end) l.
(** The pause after the (k+1)-th time-out in a row: 5 milliseconds, twice as long each time, at most a second *)
Definition pause (k : nat) : Z := Z.min (5 * 2 ^ Z.of_nat k) 1000.
Definition no_connection : turn := mkTurn (Failed true) true.
