(** What the theorems about Publish requests talk about. *)
From Coq Require Import ZArith List Bool.
From Verif Require Import PubQueue.
Import ListNotations.
Open Scope Z_scope.

(** The requests that arrived: each PAdd made while the previous one was not still being added. *)
Fixpoint p_arrivals (alive : preq -> bool) (s : pubq) (ops : list pop) : list preq :=
  match ops with
  | [] => []
  | o :: ops' =>
      match o, pq_adder s with
      | PAdd r, AIdle => r :: p_arrivals alive (pq_step alive s o) ops'
      | _, _ => p_arrivals alive (pq_step alive s o) ops'
      end
  end.
Definition held (s : pubq) : list preq := match pq_adder s with AIdle => [] | ATry r | AFull r => [r] end.
Definition not_delete (o : pop) : Prop := match o with PDelete => False | _ => True end.
