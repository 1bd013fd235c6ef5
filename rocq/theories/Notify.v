(** Subscriptions and their client together: what monitored items queue is published, put into messages,
    cut into chunks, sent, put together and decoded by the client, which hands it to its caller.

    Source: /repo/server/subscription.go (publish 305-500, handleLatePublishRequest 502-649),
    /repo/server/server_service_set.go (handlePublish 5349-5382, handleRepublish 5513-5550),
    /repo/ua/structs.generated.go (2074-2165).  The parts are those of Subscription.v (publishing),
    Messages.v (codec) and Chunk.v with Stack.v (chunks).

    Simplifications: one session, whose subscriptions exist from the beginning, on one channel; the
    handles of items do not change; what the client asks for (Publish requests, acknowledgements) is not
    followed on its way to the server: it appears as operations of Subscription.v, with the request id and
    handle it came with; a response that cannot be written leaves nothing on the wire; the time in a
    message sent again is an argument; other responses on the same channel are left out. *)
From Coq Require Import ZArith List Bool String Strings.Byte.
From Verif Require Import Bytes Prim Value Registry Messages IndexRange NodeAccess DataPath Subscription Stack.
Import ListNotations.
Open Scope Z_scope.

(** What an item queues: a data value (DataChangeMonitoredItem) or the fields of an event (EventMonitoredItem) *)
Inductive note : Type := NData (d : dval) | NEvent (fields : list val).

(** * What the server writes *)
(** The type registered for an encoding id *)
Definition type_no (k : Z) : Z := match find_type std_registry (std_id k) with Some t => t | None => -1 end.
Definition data_type : Z := type_no 811.            (* DataChangeNotification *)
Definition event_type : Z := type_no 916.           (* EventNotificationList *)
Definition status_type : Z := type_no 820.          (* StatusChangeNotification *)

(** subscription.go 341-362: mins and efls *)
Fixpoint mins (handle : Z -> Z) (c : list (Z * note)) : list val :=
  match c with
  | [] => []
  | (id, NData d) :: r => VStruct [VB BUInt32 (handle id); dv_val d] :: mins handle r
  | _ :: r => mins handle r
  end.
Fixpoint efls (handle : Z -> Z) (c : list (Z * note)) : list val :=
  match c with
  | [] => []
  | (id, NEvent fs) :: r => VStruct [VB BUInt32 (handle id); VSlice fs] :: efls handle r
  | _ :: r => efls handle r
  end.
(** 365-371 *)
Definition notification_data (handle : Z -> Z) (c : list (Z * note)) : list val :=
  match mins handle c with [] => [] | l => [VExt data_type [VSlice l; VSlice []]] end ++
  match efls handle c with [] => [] | l => [VExt event_type [VSlice l]] end.
(** 420-424, 486-490: StatusChangeNotification{Status: BadTimeout} *)
Definition status_data : list val := [VExt status_type [VB BUInt32 2148139008; VDiag (Diag None None None None None None None)]].

(** What belongs to the request that is answered, and the times *)
Record slip : Type := mkSlip { sl_rid : Z; sl_handle : Z; sl_now : time; sl_time : time; sl_results : list Z }.

(** 372-376, 455-459 *)
Definition message_val (n : Z) (t : time) (data : list val) : val := VStruct [VB BUInt32 n; VB BTime t; VSlice data].
(** 389-401, 451-463, handlePublish 5365-5378 *)
Definition publish_vals (k : Z) (p : slip) (avail : list Z) (more : bool) (msg : val) : list val :=
  [response_header (sl_now p) (sl_handle p) 0; VB BUInt32 k; VSlice (map (VB BUInt32) avail); VB BBool more; msg;
   VSlice (map (VB BUInt32) (sl_results p)); VSlice []].
(** The response written for an event of subscription [k] *)
Definition outgoing (handle : Z -> Z) (k : Z) (p : slip) (e : sbev note) : option (string * list val) :=
  match e with
  | EvData m avail more =>
      Some ("PublishResponse"%string, publish_vals k p avail more (message_val (fst m) (sl_time p) (notification_data handle (snd m))))
  | EvKeepAlive n avail => Some ("PublishResponse"%string, publish_vals k p avail false (message_val n (sl_time p) []))
  | EvStatusChange n => Some ("PublishResponse"%string, publish_vals k p [] false (message_val n (sl_time p) status_data))
  | EvRepublished m =>
      Some ("RepublishResponse"%string,
            [response_header (sl_now p) (sl_handle p) 0; message_val (fst m) (sl_time p) (notification_data handle (snd m))])
  | _ => None
  end.

(** * What the client's caller gets *)
(** ua.NotificationMessage: number, time, data changes and events with the handles of their items, statuses *)
Record notice : Type := mkNotice {
  no_number : Z; no_when : time; no_data : list (Z * dval); no_events : list (Z * list val); no_status : list Z }.
(** The handle in the header with the response *)
Inductive told : Type :=
| Published (handle sub : Z) (avail : list Z) (more : bool) (n : notice) (results : list Z)
| Republished (handle : Z) (n : notice).

Definition val_min (v : val) : option (Z * dval) :=
  match v with VStruct [VB BUInt32 h; d] => match val_dv d with Some d => Some (h, d) | None => None end | _ => None end.
Definition val_efl (v : val) : option (Z * list val) :=
  match v with VStruct [VB BUInt32 h; VSlice l] => Some (h, l) | _ => None end.
(** A caller goes through NotificationData with a type switch. *)
Fixpoint notes_of (l : list val) : option (list (Z * dval) * list (Z * list val) * list Z) :=
  match l with
  | [] => Some ([], [], [])
  | VExt tid fields :: r =>
      match notes_of r with
      | None => None
      | Some (ds, es, ss) =>
          if tid =? data_type then
            match fields with VSlice x :: _ => match all_of val_min x with Some d => Some (d ++ ds, es, ss) | None => None end | _ => None end
          else if tid =? event_type then
            match fields with [VSlice x] => match all_of val_efl x with Some e => Some (ds, e ++ es, ss) | None => None end | _ => None end
          else if tid =? status_type then
            match fields with VB BUInt32 st :: _ => Some (ds, es, st :: ss) | _ => None end
          else Some (ds, es, ss)
      end
  | _ => None
  end.
Definition notice_of (v : val) : option notice :=
  match v with
  | VStruct [VB BUInt32 n; VB BTime t; VSlice l] =>
      match notes_of l with Some (ds, es, ss) => Some (mkNotice n t ds es ss) | None => None end
  | _ => None
  end.
Definition told_of (name : string) (vals : list val) : option told :=
  match vals with
  | VStruct (_ :: VB BUInt32 h :: VB BUInt32 st :: _) :: fields =>
      if negb (st =? 0) then None
      else if String.eqb name "PublishResponse" then
        match fields with
        | [VB BUInt32 k; VSlice av; VB BBool more; msg; VSlice rs; _] =>
            match all_of val_status av, notice_of msg, all_of val_status rs with
            | Some av, Some n, Some rs => Some (Published h k av more n rs)
            | _, _, _ => None
            end
        | _ => None
        end
      else if String.eqb name "RepublishResponse" then
        match fields with [msg] => match notice_of msg with Some n => Some (Republished h n) | None => None end | _ => None end
      else None
  | _ => None
  end.

(** * The whole system *)
(** The subscriptions by id; the status changes that wait for a Publish request (session.go:39: number and
    time of the message); the bytes on the way; the sequence number of the channel; what was written, oldest
    first; what the client's caller got, oldest first, with the request it answers. *)
Record net : Type := mkNet {
  n_subs : Z -> sub note; n_changes : list (Z * Z * time); n_wire : bytes; n_seq : Z;
  n_log : list (Z * slip * sbev note); n_told : list (Z * told) }.
Definition upd_sub (f : Z -> sub note) (k : Z) (s : sub note) : Z -> sub note := fun x => if x =? k then s else f x.

(** An operation of subscription [k]; a Publish request that finds a status change; the client takes the
    next response. *)
Inductive happening : Type := Does (k : Z) (o : sbop note) (p : slip) | Asks (p : slip) | Takes.

Section Notify.
Variable handle : Z -> Z -> Z.                      (* the client's handle of an item of a subscription *)
Variable uris : list bytes.                         (* the server's namespace table *)
Variable far_uris : list bytes.                     (* the client's *)
Variable line : pipe.

(** ch.Write *)
Definition write (s : net) (k : Z) (p : slip) (e : sbev note) : option net :=
  match outgoing (handle k) k p e with
  | None => Some s
  | Some (name, vals) =>
      match server_send uris name vals with
      | None => None
      | Some body =>
          match transmit line (n_seq s) (sl_rid p) body with
          | None => None
          | Some (bs, seq) => Some (mkNet (n_subs s) (n_changes s) (n_wire s ++ bs) seq (n_log s ++ [(k, p, e)]) (n_told s))
          end
      end
  end.
(** subscription.go 425, 491: a status change goes to the session's channel, which has 64 places *)
Definition do_op (s : net) (k : Z) (o : sbop note) (p : slip) : option net :=
  let '(sb, e) := sb_step (n_subs s k) o in
  let s' := mkNet (upd_sub (n_subs s) k sb) (n_changes s) (n_wire s) (n_seq s) (n_log s) (n_told s) in
  match e with
  | EvStatusChange n =>
      if (64 <=? List.length (n_changes s))%nat then None
      else Some (mkNet (n_subs s') (n_changes s ++ [(k, n, sl_time p)]) (n_wire s) (n_seq s) (n_log s) (n_told s))
  | _ => write s' k p e
  end.
(** server_service_set.go 5350-5382 *)
Definition ask (s : net) (p : slip) : option net :=
  match n_changes s with
  | [] => None
  | (k, n, t) :: r =>
      write (mkNet (n_subs s) r (n_wire s) (n_seq s) (n_log s) (n_told s)) k
        (mkSlip (sl_rid p) (sl_handle p) (sl_now p) t (sl_results p)) (EvStatusChange n)
  end.
(** client_secure_channel.go 1350-1365, 1734-1747 *)
Definition take_told (s : net) : option net :=
  match take_message line (n_wire s) with
  | None => None
  | Some (rid, body, rest) =>
      match client_receive far_uris body with
      | Ok (name, vals) _ =>
          match told_of name vals with
          | None => None
          | Some a => Some (mkNet (n_subs s) (n_changes s) rest (n_seq s) (n_log s) (n_told s ++ [(rid, a)]))
          end
      | _ => None
      end
  end.
Definition next (s : net) (x : happening) : option net :=
  match x with Does k o p => do_op s k o p | Asks p => ask s p | Takes => take_told s end.
Fixpoint happens (s : net) (l : list happening) : option net :=
  match l with [] => Some s | x :: r => match next s x with Some s' => happens s' r | None => None end end.
(** Subscriptions with their publishing mode, limit of notifications, keep-alive and lifetime counts *)
Record terms : Type := mkTerms { te_enabled : bool; te_notif : Z; te_keep : Z; te_life : Z }.
Definition begin_net (conf : Z -> terms) : net :=
  mkNet (fun k => sub_init (te_enabled (conf k)) (te_notif (conf k)) (te_keep (conf k)) (te_life (conf k))) [] [] 0 [] [].
End Notify.
