(** What the caller of a client may expect of subscriptions, up to what the encoding does to values (ValueSpec.v). *)
From Coq Require Import ZArith List Bool Strings.Byte.
From Verif Require Import Bytes CodecSpec Prim PrimSpec Value ValueSpec Chunk ChunkSpec Messages DataPath Subscription SubscriptionSpec Stack StackSpec Notify.
Import ListNotations.
Open Scope Z_scope.

(** * What the caller is told of an event *)
Definition data_notes (handle : Z -> Z) (c : list (Z * note)) : list (Z * dval) :=
  flat_map (fun x => match snd x with NData d => [(handle (fst x), norm_dval d)] | NEvent _ => [] end) c.
Definition event_notes (handle : Z -> Z) (c : list (Z * note)) : list (Z * list val) :=
  flat_map (fun x => match snd x with NData _ => [] | NEvent fs => [(handle (fst x), map norm fs)] end) c.
(** The handle and the results are those of the request, the number and the contents those of the message;
    2148139008 is BadTimeout. *)
Definition due (handle : Z -> Z) (k : Z) (p : slip) (e : sbev note) : option told :=
  let t := norm_time (sl_time p) in
  match e with
  | EvData (n, c) avail more =>
      Some (Published (sl_handle p) k avail more (mkNotice n t (data_notes handle c) (event_notes handle c) []) (sl_results p))
  | EvKeepAlive n avail => Some (Published (sl_handle p) k avail false (mkNotice n t [] [] []) (sl_results p))
  | EvStatusChange n => Some (Published (sl_handle p) k [] false (mkNotice n t [] [] [2148139008]) (sl_results p))
  | EvRepublished (n, c) => Some (Republished (sl_handle p) (mkNotice n t (data_notes handle c) (event_notes handle c) []))
  | _ => None
  end.
(** With the request it answers *)
Definition arrival (handle : Z -> Z -> Z) (x : Z * slip * sbev note) : Z * option told :=
  let '(k, p, e) := x in (sl_rid p, due (handle k) k p e).
Definition some_told (x : Z * told) : Z * option told := (fst x, Some (snd x)).

(** * What can be sent *)
Definition ok_note (n : note) : Prop :=
  match n with NData d => ok_dval d | NEvent fs => len_ok fs /\ Forall (wf (std_env []) false TVar) fs end.
Definition ok_content (c : list (Z * note)) : Prop := len_ok c /\ Forall (fun x => ok_note (snd x)) c.
Definition ok_slip (p : slip) : Prop :=
  in_u 4 (sl_rid p) /\ in_u 4 (sl_handle p) /\ ok_time (sl_now p) /\ ok_time (sl_time p) /\ len_ok (sl_results p) /\ Forall (in_u 4) (sl_results p).
Definition ok_numbers (l : list Z) : Prop := len_ok l /\ Forall (in_u 4) l.
Definition ok_event (e : sbev note) : Prop :=
  match e with
  | EvData m avail _ => in_u 4 (fst m) /\ ok_content (snd m) /\ ok_numbers avail
  | EvKeepAlive n avail => in_u 4 n /\ ok_numbers avail
  | EvStatusChange n => in_u 4 n
  | EvRepublished m => in_u 4 (fst m) /\ ok_content (snd m)
  | _ => True
  end.
(** Fewer than 2^31 notifications in a message *)
Definition ok_op (o : sbop note) : Prop :=
  match o with SPut _ _ _ v => ok_note v | SModify notif _ _ => notif < 2 ^ 31 | _ => True end.
Definition ok_happening (x : happening) : Prop :=
  match x with Does k o p => in_u 4 k /\ ok_op o /\ ok_slip p | Asks p => ok_slip p | Takes => True end.
Definition ok_terms (t : terms) : Prop := te_notif t < 2 ^ 31.

(** * Histories *)
(** The operations of subscription [k], and what it did *)
Definition ops_of (k : Z) (l : list happening) : list (sbop note) :=
  flat_map (fun x => match x with Does j o _ => if j =? k then [o] else [] | _ => [] end) l.
Definition history (conf : Z -> terms) (k : Z) (l : list happening) : sub note * list (sbev note) :=
  sb_run (sub_init (te_enabled (conf k)) (te_notif (conf k)) (te_keep (conf k)) (te_life (conf k))) (ops_of k l).
Definition log_of (k : Z) (log : list (Z * slip * sbev note)) : list (sbev note) :=
  map snd (filter (fun x => fst (fst x) =? k) log).
(** Events written at once, and those that wait for a Publish request *)
Definition at_once (e : sbev note) : bool := match e with EvData _ _ _ | EvKeepAlive _ _ | EvRepublished _ => true | _ => false end.
Definition status_of (e : sbev note) : list Z := match e with EvStatusChange n => [n] | _ => [] end.
Definition changes_of (k : Z) (l : list (Z * Z * time)) : list Z := map (fun x => snd (fst x)) (filter (fun x => fst (fst x) =? k) l).

(** What the caller was told of the item with handle [h] of subscription [k], without what was sent again *)
Definition data_told (k h : Z) (l : list (Z * told)) : list dval :=
  flat_map (fun x => match snd x with
    | Published _ j _ _ n _ => if j =? k then map snd (filter (fun y => fst y =? h) (no_data n)) else []
    | Republished _ _ => [] end) l.
Definition events_told (k h : Z) (l : list (Z * told)) : list (list val) :=
  flat_map (fun x => match snd x with
    | Published _ j _ _ n _ => if j =? k then map snd (filter (fun y => fst y =? h) (no_events n)) else []
    | Republished _ _ => [] end) l.
Definition data_in (l : list note) : list dval := flat_map (fun n => match n with NData d => [norm_dval d] | NEvent _ => [] end) l.
Definition events_in (l : list note) : list (list val) := flat_map (fun n => match n with NData _ => [] | NEvent fs => [map norm fs] end) l.
(** No other item of the subscription has this item's handle. *)
Definition own_handle (handle : Z -> Z -> Z) (k id : Z) : Prop := forall id', handle k id' = handle k id -> id' = id.

(** * Why something cannot happen: too many status changes wait, there is none, nothing is on the way, or the
    channel refuses the message because of its size (C25) *)
Definition stops (line : pipe) (s : net) (x : happening) : Prop :=
  match x with
  | Does _ _ p => (64 <= List.length (n_changes s))%nat \/ exists body, transmit line (n_seq s) (sl_rid p) body = None
  | Asks p => n_changes s = [] \/ exists body, transmit line (n_seq s) (sl_rid p) body = None
  | Takes => n_wire s = []
  end.

(** * Sequence numbers told of subscription [k], without changes of status *)
Definition numbers_told (k : Z) (l : list (Z * told)) : list Z :=
  flat_map (fun x => match snd x with
    | Published _ j _ _ n _ => if (j =? k) && match no_status n with [] => true | _ => false end then [no_number n] else []
    | Republished _ _ => [] end) l.
(** Each number is the one before it (after a keep-alive) or the next. *)
Fixpoint follow (x : Z) (l : list Z) : Prop := match l with [] => True | y :: r => (y = x \/ y = u32 (x + 1)) /\ follow y r end.
Definition gapless (l : list Z) : Prop := match l with [] => True | x :: r => x = 1 /\ follow x r end.
