(** The queue of Publish requests of a session.

    Sources: /repo/server/session.go (NewSession 79: capacity 64; delete; addPublishRequest
    290-312; removePublishRequest 314-345).  Requests are added by the goroutine that serves the
    session's channel, one at a time; they are taken by the goroutines of the subscriptions.  Each
    operation on the Go channel is one step. *)
From Coq Require Import ZArith List Bool.
Import ListNotations.
Open Scope Z_scope.

(** [pr_deadline]: Timestamp plus TimeoutHint *)
Record preq := mkPreq { pr_id : nat; pr_deadline : Z }.
Inductive panswer : Type := TooManyPublishRequests | PubTimeout | Used.
(** Where the goroutine that adds is: about to select, or in the default branch waiting for
    "<-s.publishRequests". *)
Inductive apos : Type := AIdle | ATry (r : preq) | AFull (r : preq).
Record pubq := mkPubq {
  pq_queue : list preq; pq_open : bool;     (* the channel is nil once the session is deleted *)
  pq_adder : apos;
  pq_log : list (preq * panswer)            (* answered or handed to a subscription, oldest first *)
}.
Definition pubq_cap : nat := 64.
Definition pubq_init : pubq := mkPubq [] true AIdle [].
Inductive pop : Type :=
| PAdd (r : preq)       (* a Publish request arrives; the adder must be idle *)
| PSelect               (* the adder's select *)
| PDrop                 (* the adder receives in its default branch *)
| PTake (now : Z)       (* a subscription's select in removePublishRequest *)
| PDelete.              (* the session is deleted *)

Section PubQueue.
  (** writing to the channel the request came on succeeds *)
  Variable alive : preq -> bool.

  Definition pq_step (s : pubq) (o : pop) : pubq :=
    match o with
    | PAdd r => match pq_adder s with
                | AIdle => mkPubq (pq_queue s) (pq_open s) (ATry r) (pq_log s)
                | _ => s
                end
    | PSelect =>
        match pq_adder s with
        | ATry r =>
            if pq_open s && (length (pq_queue s) <? pubq_cap)%nat
            then mkPubq (pq_queue s ++ [r]) (pq_open s) AIdle (pq_log s)
            else mkPubq (pq_queue s) (pq_open s) (AFull r) (pq_log s)
        | _ => s
        end
    | PDrop =>
        match pq_adder s, pq_queue s with
        | AFull r, x :: q =>
            if alive x then mkPubq q (pq_open s) (ATry r) (pq_log s ++ [(x, TooManyPublishRequests)])
            else mkPubq q (pq_open s) AIdle (pq_log s)     (* 307: the error ends the handler *)
        | _, _ => s                                        (* blocked *)
        end
    | PTake now =>
        match pq_queue s with
        | [] => s
        | x :: q =>
            if pr_deadline x <? now
            then if alive x then mkPubq q (pq_open s) (pq_adder s) (pq_log s ++ [(x, PubTimeout)])
                 else mkPubq q (pq_open s) (pq_adder s) (pq_log s)
            else mkPubq q (pq_open s) (pq_adder s) (pq_log s ++ [(x, Used)])
        end
    | PDelete => mkPubq [] false (pq_adder s) (pq_log s)
    end.
  Definition pq_run (ops : list pop) : pubq := fold_left pq_step ops pubq_init.
End PubQueue.
