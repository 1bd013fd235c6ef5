(** What the theorems about subscriptions talk about: histories of operations and events. *)
From Coq Require Import ZArith List Bool.
From Verif Require Import Bytes MonQueue Subscription.
Import ListNotations.
Open Scope Z_scope.

Section Spec.
  Context {A : Type}.

  (** Sequence numbers of the notification messages sent, in order; the log has the latest first. *)
  Definition number_of (e : sbev A) : list Z :=
    match e with EvData m _ _ => [fst m] | EvStatusChange n => [n] | _ => [] end.
  Definition numbers (log : list (sbev A)) : list Z := flat_map number_of (rev log).
  (** 1, 2, 3, ... as 32-bit numbers *)
  Definition count_up (n : nat) : list Z := map (fun k => u32 (1 + Z.of_nat k)) (seq 0 n).
  Definition is_unsent (e : sbev A) : bool := match e with EvUnsent _ => true | _ => false end.
  (** Every response could be written. *)
  Definition all_sent (log : list (sbev A)) : Prop := forall e, In e log -> is_unsent e = false.

  (** Messages put together, sent or not. *)
  Definition built (e : sbev A) : list (message A) :=
    match e with EvData m _ _ => [m] | EvUnsent m => [m] | _ => [] end.
  Definition messages (log : list (sbev A)) : list (message A) := flat_map built (rev log).
  (** Operations that take the message numbered [n] out of the queue. *)
  Definition names (n : Z) (o : sbop A) : Prop :=
    match o with SAck k => k = n | SRepublish k _ => k = n | _ => False end.

  (** The values of item [id] handed to messages, and those queued for it. *)
  Definition of_item (id : Z) (c : list (Z * A)) : list A := map snd (filter (fun p => fst p =? id) c).
  Definition delivered (id : Z) (log : list (sbev A)) : list A := flat_map (fun m => of_item id (snd m)) (messages log).
  (** The values of item [id] in the messages that were written to the client. *)
  Definition sent (id : Z) (log : list (sbev A)) : list A :=
    flat_map (fun e => match e with EvData m _ _ => of_item id (snd m) | _ => [] end) (rev log).
  (** The same with republished messages. *)
  Definition received (id : Z) (log : list (sbev A)) : list A :=
    flat_map (fun e => match e with EvData m _ _ => of_item id (snd m) | EvRepublished m => of_item id (snd m) | _ => [] end) (rev log).
  Definition queued (id : Z) (ops : list (sbop A)) : list A :=
    flat_map (fun o => match o with SPut i _ _ v => if i =? id then [v] else [] | _ => [] end) ops.
  Definition waiting (id : Z) (s : sub A) : list A :=
    match find_item (sb_items s) id with Some i => it_queue i | None => [] end.
  (** [a] is what remains of [b] when some elements are left out. *)
  Inductive subseq : list A -> list A -> Prop :=
  | sub_nil : subseq [] []
  | sub_keep x a b : subseq a b -> subseq (x :: a) (x :: b)
  | sub_skip x a b : subseq a b -> subseq a (x :: b).
  (** Publishing looks at every item; Go's iteration over the map does. *)
  Definition covers (ord : list Z) (s : sub A) : Prop := forall id, find_item (sb_items s) id <> None -> In id ord.
  (** Values wait in an item that reports, or that was triggered. *)
  Definition has_waiting (s : sub A) : Prop :=
    exists id i, find_item (sb_items s) id = Some i /\ (it_mode i = MReporting \/ it_triggered i = true) /\ it_queue i <> [].
  (** Nothing is taken from item [id] other than by publishing, and its queue never overflows. *)
  Fixpoint undisturbed (id : Z) (s : sub A) (ops : list (sbop A)) : Prop :=
    match ops with
    | [] => True
    | o :: r =>
        match o with
        | SPut i _ size _ => i = id -> find_item (sb_items s) id <> None /\ (length (waiting id s) < size)%nat
        | SDelItem i => i <> id
        | SItemMode i MDisabled => i <> id
        | SResize i _ size => i = id -> (length (waiting id s) <= size)%nat
        | _ => True
        end /\ sb_alive (fst (sb_step s o)) = true /\ undisturbed id (fst (sb_step s o)) r
    end.

  Definition ticks (ops : list (sbop A)) : nat :=
    length (filter (fun o => match o with STick _ _ => true | _ => false end) ops).
  (** The client keeps requests queued and they are answered. *)
  Definition served (o : sbop A) : Prop := match o with STick _ r => r = Req true | SDelete => False | _ => True end.
  (** No Publish request arrives and nothing else keeps the subscription alive. *)
  Definition starved (o : sbop A) : Prop :=
    match o with
    | STick _ r => r = NoReq
    | SLate _ _ | SRepublish _ _ | SMode _ | SModify _ _ _ | SAddItem _ _ | SDelItem _ | SItemMode _ _ | SResize _ _ _ | SDelete => False
    | _ => True
    end.
  (** Revised counts are 32-bit numbers and at least one. *)
  Definition proper (o : sbop A) : Prop := match o with SModify _ k l => 1 <= k < 2 ^ 32 /\ 1 <= l < 2 ^ 32 | _ => True end.
  Definition not_modify (o : sbop A) : Prop := match o with SModify _ _ _ => False | _ => True end.
  Definition is_message (e : sbev A) : bool := match e with EvData _ _ _ | EvKeepAlive _ _ => true | _ => false end.
  (** The numbers a publish response lists as available. *)
  Definition advertised (e : sbev A) : option (list Z) := match e with EvData _ avail _ | EvKeepAlive _ avail => Some avail | _ => None end.
  (** Something is written to the client. *)
  Definition sends (e : sbev A) : bool := match e with EvData _ _ _ | EvKeepAlive _ _ | EvUnsent _ | EvUnsentOther | EvStatusChange _ | EvRepublished _ => true | _ => false end.
  (** The order in which a publishing operation visits the items. *)
  Definition publishes (o : sbop A) : option (list Z) := match o with STick ord _ | SLate ord _ => Some ord | _ => None end.
End Spec.
