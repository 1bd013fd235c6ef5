(** The queue of a monitored item.

    Sources: /repo/server/datachange_monitored_item.go (setQueueSize 173-205, enqueue 300-334,
    notifications 336-353), /repo/server/event_monitored_item.go (setQueueSize 157-170, enqueue
    184-211, notifications 297-314; the same without status codes and always with size 1024),
    /repo/server/monitored_item.go:12. *)
From Coq Require Import ZArith List Bool.
Import ListNotations.
Open Scope Z_scope.

Definition maxQueueSize : Z := 1024.
(** datachange_monitored_item.go:174-180 *)
Definition revised_size (n : Z) : Z :=
  let n := if maxQueueSize <? n then maxQueueSize else n in
  if n <? 1 then 1 else n.

Section MonQueue.
  Variable A : Type.

  (** for queue.Len() > limit { queue.PopFront() } *)
  Fixpoint pop_front (limit : nat) (q : list A) : list A :=
    match q with
    | [] => []
    | _ :: q' => if (limit <? length q)%nat then pop_front limit q' else q
    end.
  (** for queue.Len() > limit { queue.PopBack() } *)
  Definition pop_back (limit : nat) (q : list A) : list A := rev (pop_front limit (rev q)).
  Definition trim (oldest : bool) (limit : nat) (q : list A) : list A :=
    if oldest then pop_front limit q else pop_back limit q.

  (** setQueueSize 183-204, [size] already revised.  The overflow bit at 192 and 202 is set in a
      copy of the value, which is dropped. *)
  Definition resize (oldest : bool) (size : nat) (q : list A) : list A := trim oldest size q.
  (** enqueue 302-326.  The loops run while Len >= size; size is at least 1.  The overflow bit at
      311 and 323 is set in a copy of the value, which is dropped. *)
  Definition enqueue (oldest : bool) (size : nat) (q : list A) (v : A) : list A := trim oldest (size - 1) q ++ [v].
  (** sub.monitoringQueueOverflowCount: 312, 324 *)
  Definition overflowed (size : nat) (q : list A) : bool := (size <=? length q)%nat && (1 <? size)%nat.
  (** notifications 336: up to [max] from the front, what stays, and whether something stays *)
  Definition take (max : nat) (q : list A) : list A * list A * bool :=
    (firstn max q, skipn max q, (0 <? length (skipn max q))%nat).

  Record mqueue := mkMq { mq_size : nat; mq_oldest : bool; mq_queue : list A }.
  Inductive mqop : Type := MPut (v : A) | MTake (max : nat) | MResize (oldest : bool) (size : Z) | MClear.
  Definition mq_step (q : mqueue) (o : mqop) : mqueue :=
    match o with
    | MPut v => mkMq (mq_size q) (mq_oldest q) (enqueue (mq_oldest q) (mq_size q) (mq_queue q) v)
    | MTake max => mkMq (mq_size q) (mq_oldest q) (snd (fst (take max (mq_queue q))))
    | MResize oldest size =>
        let size := Z.to_nat (revised_size size) in
        mkMq size oldest (resize oldest size (mq_queue q))
    | MClear => mkMq (mq_size q) (mq_oldest q) []
    end.
  (** NewDataChangeMonitoredItem 44-69 *)
  Definition mq_init (oldest : bool) (size : Z) : mqueue := mkMq (Z.to_nat (revised_size size)) oldest [].
  Definition mq_run (oldest : bool) (size : Z) (ops : list mqop) : mqueue := fold_left mq_step ops (mq_init oldest size).
  (** What has been handed out, in order. *)
  Fixpoint mq_out (q : mqueue) (ops : list mqop) : list A :=
    match ops with
    | [] => []
    | o :: ops' => (match o with MTake max => fst (fst (take max (mq_queue q))) | _ => [] end) ++ mq_out (mq_step q o) ops'
    end.
End MonQueue.
Arguments pop_front {A}. Arguments pop_back {A}. Arguments trim {A}. Arguments resize {A}. Arguments enqueue {A}.
Arguments overflowed {A}. Arguments take {A}. Arguments mkMq {A}. Arguments mq_size {A}. Arguments mq_oldest {A}. Arguments mq_queue {A}.
Arguments MPut {A}. Arguments MTake {A}. Arguments MResize {A}. Arguments MClear {A}.
Arguments mq_step {A}. Arguments mq_init {A}. Arguments mq_run {A}. Arguments mq_out {A}.
