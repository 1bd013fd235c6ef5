(** A subscription's publishing.

    Sources: /repo/server/subscription.go (SetPublishingMode 165, Modify 172, acknowledge 268,
    publish 305-502, handleLatePublishRequest 505-649, Delete 94, deleteImpl 100, AppendItem 136,
    DeleteItem 151), /repo/server/server_service_set.go (handlePublish 5334-5346, handleRepublish
    5513-5550).  The subscription's lock makes each operation one step; handleRepublish, which
    walks the queue without the lock, is one step too.  The order in which Go walks the map of
    items is arbitrary and an argument.  Data change and event notifications of a message are one
    list. *)
From Coq Require Import ZArith List Bool.
From Verif Require Import Bytes MonQueue.
Import ListNotations.
Open Scope Z_scope.

Definition maxRetransmissionQueueLength : nat := 128.
Inductive mmode : Type := MDisabled | MSampling | MReporting.

Section Subscription.
  Variable A : Type.                     (* a data value or an event's fields *)

  Record item := mkItem { it_id : Z; it_mode : mmode; it_triggered : bool; it_queue : list A }.
  (** A notification message: its sequence number and what it notifies of which item. *)
  Definition message : Type := (Z * list (Z * A))%type.

  Record sub := mkSub {
    sb_items : list item; sb_next : Z; sb_retrans : list message;
    sb_keep : Z; sb_life : Z; sb_late : bool; sb_pubs : Z; sb_enabled : bool;
    sb_max_notif : Z; sb_max_keep : Z; sb_max_life : Z;
    sb_alive : bool                     (* false: deleted; session, items and queue are nil *)
  }.
  Definition sub_init (enabled : bool) (notif keep life : Z) : sub :=
    mkSub [] 1 [] 0 0 false 0 enabled notif keep life true.

  Definition item_ready (i : item) : bool :=
    match it_mode i with MReporting => true | _ => it_triggered i end.
  (** notificationsAvailable of both kinds of items, after the samples have been queued *)
  Definition item_available (i : item) : bool :=
    match it_mode i with MDisabled => false | _ => match it_queue i with [] => false | _ => item_ready i end end.
  Definition find_item (items : list item) (id : Z) : option item := find (fun i => it_id i =? id) items.
  Definition set_item (items : list item) (i : item) : list item :=
    map (fun j => if it_id j =? it_id i then i else j) items.

  (** The loop 332-364: items in the order [ord], at most [max] notifications.  Returns the
      notifications, whether some item has more, and the items. *)
  Fixpoint collect (ord : list Z) (max : nat) (items : list item) : list (Z * A) * bool * list item :=
    match ord with
    | [] => ([], false, items)
    | id :: ord' =>
        match find_item items id with
        | None => collect ord' max items
        | Some i =>
            if negb (item_ready i) then collect ord' max items
            else
              let '(out, rest, more) := take max (it_queue i) in
              let i' := mkItem (it_id i) (it_mode i) (it_triggered i && more) rest in
              let '(out', more', items') := collect ord' (max - length out) (set_item items i') in
              (map (fun v => (id, v)) out ++ out', more || more', items')
        end
    end.

  (** A Publish request from the session's queue: none, one whose response is or is not written,
      or removePublishRequest reports an error. *)
  Inductive preply : Type := NoReq | Req (ok : bool) | ReqErr.
  Inductive sbop : Type :=
  | STick (ord : list Z) (r : preply)
  | SLate (ord : list Z) (ok : bool)      (* a Publish request arrives; handleLatePublishRequest *)
  | SAck (n : Z)
  | SRepublish (n : Z) (ok : bool)
  | SMode (enabled : bool)
  | SModify (notif keep life : Z)
  | SAddItem (id : Z) (m : mmode)
  | SDelItem (id : Z)
  | SItemMode (id : Z) (m : mmode)
  | STrigger (id : Z)                     (* SetTriggered(true) *)
  | SPut (id : Z) (oldest : bool) (size : nat) (v : A)
  | SResize (id : Z) (oldest : bool) (size : nat)   (* ModifyMonitoredItems *)
  | SDelete.
  Inductive sbev : Type :=
  | EvQuiet                               (* nothing to report *)
  | EvData (m : message) (avail : list Z) (more : bool)
  | EvKeepAlive (n : Z) (avail : list Z)
  | EvUnsent (m : message)                (* the response with this message could not be written *)
  | EvUnsentOther                         (* a keep-alive or a republished message could not be written *)
  | EvStatusChange (n : Z)                (* BadTimeout; the subscription is deleted *)
  | EvUnhandled                           (* handleLatePublishRequest returns false *)
  | EvAck (found : bool)
  | EvRepublished (m : message)
  | EvNotAvailable
  | EvPanics.

  Definition dead (s : sub) : sub :=
    mkSub [] (sb_next s) [] (sb_keep s) (sb_life s) (sb_late s) (sb_pubs s) (sb_enabled s)
      (sb_max_notif s) (sb_max_keep s) (sb_max_life s) false.
  (** 376-380: at most one element leaves, because Remove clears the links Next follows *)
  Definition trim_retrans (q : list message) : list message :=
    if (maxRetransmissionQueueLength <=? length q)%nat then tl q else q.

  (** 327-404 and 534-605 *)
  Definition send_data (s : sub) (ord : list Z) (ok late : bool) : sub * sbev :=
    let '(content, more, items) := collect ord (Z.to_nat (sb_max_notif s)) (sb_items s) in
    let m := (sb_next s, content) in
    let q := trim_retrans (sb_retrans s) ++ [m] in
    if ok
    then (mkSub items (u32 (sb_next s + 1)) q 0 0 (if late then more && sb_late s else false) (u32 (sb_pubs s + 1))
            (sb_enabled s) (sb_max_notif s) (sb_max_keep s) (sb_max_life s) (sb_alive s),
          EvData m (map fst q) more)
    else (mkSub items (sb_next s) q (sb_keep s) (sb_life s) (sb_late s) (sb_pubs s)
            (sb_enabled s) (sb_max_notif s) (sb_max_keep s) (sb_max_life s) (sb_alive s),
          EvUnsent m).
  (** 444-481 and 608-645 *)
  Definition send_keepalive (s : sub) (ok : bool) : sub * sbev :=
    if ok
    then (mkSub (sb_items s) (sb_next s) (sb_retrans s) 0 0 false (u32 (sb_pubs s + 1))
            (sb_enabled s) (sb_max_notif s) (sb_max_keep s) (sb_max_life s) (sb_alive s),
          EvKeepAlive (sb_next s) (map fst (sb_retrans s)))
    else (s, EvUnsentOther).
  (** 415-428 and 482-495; the two tests differ *)
  Definition no_request (s : sub) (exact : bool) : sub * sbev :=
    let life := u32 (sb_life s + 1) in
    let s' := mkSub (sb_items s) (sb_next s) (sb_retrans s) (sb_keep s) life true (sb_pubs s)
                (sb_enabled s) (sb_max_notif s) (sb_max_keep s) (sb_max_life s) (sb_alive s) in
    if (if exact then life =? sb_max_life s else sb_max_life s <=? life)
    then (dead (mkSub (sb_items s) (u32 (sb_next s + 1)) (sb_retrans s) (sb_keep s) life true (sb_pubs s)
                  (sb_enabled s) (sb_max_notif s) (sb_max_keep s) (sb_max_life s) (sb_alive s)),
          EvStatusChange (sb_next s))
    else (s', EvQuiet).

  Definition with_items (s : sub) (items : list item) : sub :=
    mkSub items (sb_next s) (sb_retrans s) (sb_keep s) (sb_life s) (sb_late s) (sb_pubs s)
      (sb_enabled s) (sb_max_notif s) (sb_max_keep s) (sb_max_life s) (sb_alive s).
  (** lifetimeCount = 0 as well: server_service_set.go 3782, 4069, 4296, 4644 *)
  Definition touch_items (s : sub) (items : list item) : sub :=
    mkSub items (sb_next s) (sb_retrans s) (sb_keep s) 0 (sb_late s) (sb_pubs s)
      (sb_enabled s) (sb_max_notif s) (sb_max_keep s) (sb_max_life s) (sb_alive s).
  Definition with_retrans (s : sub) (q : list message) (life : Z) : sub :=
    mkSub (sb_items s) (sb_next s) q (sb_keep s) life (sb_late s) (sb_pubs s)
      (sb_enabled s) (sb_max_notif s) (sb_max_keep s) (sb_max_life s) (sb_alive s).
  (** the first message with this number leaves the queue: 272-278 *)
  Fixpoint remove_first (n : Z) (q : list message) : option (message * list message) :=
    match q with
    | [] => None
    | m :: q' => if fst m =? n then Some (m, q')
                 else match remove_first n q' with Some (x, r) => Some (x, m :: r) | None => None end
    end.

  Definition sb_step (s : sub) (o : sbop) : sub * sbev :=
    match o with
    | STick ord r =>
        if existsb item_available (sb_items s) && sb_enabled s
        then if negb (sb_alive s) then (s, EvQuiet)
             else match r with
                  | ReqErr => (s, EvQuiet)
                  | Req ok => send_data s ord ok false
                  | NoReq => no_request s false
                  end
        else
          let s1 := mkSub (sb_items s) (sb_next s) (sb_retrans s) (u32 (sb_keep s + 1)) (sb_life s) (sb_late s) (sb_pubs s)
                      (sb_enabled s) (sb_max_notif s) (sb_max_keep s) (sb_max_life s) (sb_alive s) in
          if (sb_max_keep s1 <=? sb_keep s1) || (sb_pubs s1 =? 0)
          then if negb (sb_alive s) then (s1, EvQuiet)
               else match r with
                    | ReqErr => (s1, EvQuiet)
                    | Req ok => send_keepalive s1 ok
                    | NoReq => no_request s1 true
                    end
          else (s1, EvQuiet)
    | SLate ord ok =>
        if negb (sb_late s) then (s, EvUnhandled)
        else if existsb item_available (sb_items s) && sb_enabled s then send_data s ord ok true
        else if (sb_max_keep s <=? sb_keep s) || (sb_pubs s =? 0)
             then if sb_alive s then send_keepalive s ok else (s, EvPanics)   (* 611: Front of a nil list *)
             else (s, EvUnhandled)
    | SAck n =>
        if negb (sb_alive s) then (s, EvPanics)
        else match remove_first n (sb_retrans s) with
             | Some (_, q) => (with_retrans s q (sb_life s), EvAck true)
             | None => (s, EvAck false)
             end
    | SRepublish n ok =>
        if negb (sb_alive s) then (s, EvPanics)
        else match remove_first n (sb_retrans s) with
             | Some (m, q) => if ok then (with_retrans s q 0, EvRepublished m) else (with_retrans s (sb_retrans s) 0, EvUnsentOther)
             | None => (with_retrans s (sb_retrans s) 0, EvNotAvailable)
             end
    | SMode b =>
        (mkSub (sb_items s) (sb_next s) (sb_retrans s) (sb_keep s) 0 (sb_late s) (sb_pubs s) b
           (sb_max_notif s) (sb_max_keep s) (sb_max_life s) (sb_alive s), EvQuiet)
    | SModify notif keep life =>
        (* stopPublishing closes a closed channel when the subscription has been deleted *)
        if negb (sb_alive s) then (s, EvPanics)
        else (mkSub (sb_items s) (sb_next s) (sb_retrans s) (sb_keep s) 0 (sb_late s) (sb_pubs s) (sb_enabled s)
                notif keep life (sb_alive s), EvQuiet)
    | SAddItem id m =>
        if negb (sb_alive s) then (s, EvPanics)        (* assignment to a nil map *)
        else (touch_items s (match find_item (sb_items s) id with
                            | Some _ => sb_items s
                            | None => sb_items s ++ [mkItem id m false []]
                            end), EvQuiet)
    | SDelItem id => (touch_items s (filter (fun i => negb (it_id i =? id)) (sb_items s)), EvQuiet)
    | SItemMode id m =>
        (touch_items s (match find_item (sb_items s) id with
                       | None => sb_items s
                       | Some i => set_item (sb_items s)
                                     (mkItem id m (it_triggered i) (match m with MDisabled => [] | _ => it_queue i end))
                       end), EvQuiet)
    | STrigger id =>
        (with_items s (match find_item (sb_items s) id with
                       | None => sb_items s
                       | Some i => set_item (sb_items s) (mkItem id (it_mode i) true (it_queue i))
                       end), EvQuiet)
    | SPut id oldest size v =>
        (with_items s (match find_item (sb_items s) id with
                       | None => sb_items s
                       | Some i => set_item (sb_items s) (mkItem id (it_mode i) (it_triggered i) (enqueue oldest size (it_queue i) v))
                       end), EvQuiet)
    | SResize id oldest size =>
        (touch_items s (match find_item (sb_items s) id with
                       | None => sb_items s
                       | Some i => set_item (sb_items s) (mkItem id (it_mode i) (it_triggered i) (resize oldest size (it_queue i)))
                       end), EvQuiet)
    | SDelete => if sb_alive s then (dead s, EvQuiet) else (s, EvPanics)   (* close of a closed channel *)
    end.
  (** The run with its log, the latest first. *)
  Definition sb_step' (x : sub * list sbev) (o : sbop) : sub * list sbev :=
    let '(s', e) := sb_step (fst x) o in (s', e :: snd x).
  Definition sb_run (s : sub) (ops : list sbop) : sub * list sbev := fold_left sb_step' ops (s, []).
End Subscription.
Arguments mkItem {A}. Arguments it_id {A}. Arguments it_mode {A}. Arguments it_triggered {A}. Arguments it_queue {A}.
Arguments mkSub {A}. Arguments sb_items {A}. Arguments sb_next {A}. Arguments sb_retrans {A}. Arguments sb_keep {A}. Arguments sb_life {A}.
Arguments sb_late {A}. Arguments sb_pubs {A}. Arguments sb_enabled {A}. Arguments sb_max_notif {A}. Arguments sb_max_keep {A}.
Arguments sb_max_life {A}. Arguments sb_alive {A}. Arguments sub_init {A}. Arguments item_ready {A}. Arguments item_available {A}.
Arguments find_item {A}. Arguments set_item {A}. Arguments collect {A}.
Arguments STick {A}. Arguments SLate {A}. Arguments SAck {A}. Arguments SRepublish {A}. Arguments SMode {A}. Arguments SModify {A}.
Arguments SAddItem {A}. Arguments SDelItem {A}. Arguments SItemMode {A}. Arguments STrigger {A}. Arguments SPut {A}. Arguments SResize {A}. Arguments SDelete {A}.
Arguments EvQuiet {A}. Arguments EvData {A}. Arguments EvKeepAlive {A}. Arguments EvUnsent {A}. Arguments EvUnsentOther {A}.
Arguments EvStatusChange {A}. Arguments EvUnhandled {A}. Arguments EvAck {A}. Arguments EvRepublished {A}. Arguments EvNotAvailable {A}. Arguments EvPanics {A}.
Arguments dead {A}. Arguments trim_retrans {A}. Arguments send_data {A}. Arguments send_keepalive {A}. Arguments no_request {A}.
Arguments with_items {A}. Arguments touch_items {A}. Arguments with_retrans {A}. Arguments remove_first {A}. Arguments sb_step {A}. Arguments sb_step' {A}. Arguments sb_run {A}.
