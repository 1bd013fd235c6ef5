(** Clients and server together, for the Read and Write services: what a caller of the client passes is
    encoded, cut into chunks, signed and encrypted; the server puts it together, decodes it, does it on
    its workers and sends the answer back the same way; the client hands it to the caller.

    Source: /repo/client/client_secure_channel.go (Request 236-269, sendServiceRequest 911-1347,
    readResponse 1367-1731, handleResponse 1734-1747, getNextRequestHandle 1822-1834),
    /repo/server/server_secure_channel.go (sendServiceResponse 617-1032, readRequest 1036-1500),
    /repo/server/server_service_set.go (handleRead 2057-2240, handleWrite 2242-2387).
    The parts are those of Messages.v (codec), Chunk.v (chunks) and DataPath.v (services).

    Simplifications: other services, timeouts and the renewal of tokens are left out (Requests.v,
    Renew.v); a message that is refused because of its size stops the model; the fields of the request
    header which the caller may set are left as they are by default; the namespace of a data encoding is
    0; sessions do not change while the model runs. *)
From Coq Require Import ZArith List Bool String Strings.Byte.
From Verif Require Import Bytes Prim Value Registry Chunk Messages IndexRange Roles Nodes NodeAccess DataPath.
Import ListNotations.
Open Scope Z_scope.

(** * The two directions of a channel *)
(** The ends, the ciphers, the sizes of the buffers and the largest chunk *)
Record pipe : Type := mkPipe {
  pi_from : conf; pi_to : conf;
  pi_sign : bytes -> bytes; pi_enc : bytes -> bytes; pi_dec : bytes -> bytes;
  pi_cap : Z; pi_send : Z; pi_rcap : Z }.
Definition transmit (p : pipe) (seq rid : Z) (body : bytes) : option (bytes * Z) :=
  match send_message (pi_sign p) (pi_enc p) (List.length body) (pi_from p) (pi_cap p) (pi_send p) rid seq body with
  | (chs, Chunk.Sent) => Some (List.concat chs, Nat.iter (List.length chs) next_counter seq)
  | _ => None
  end.
Definition take_message (p : pipe) (st : bytes) : option (Z * bytes * bytes) :=
  match recv_message (pi_sign p) (pi_dec p) (List.length st) (pi_to p) (pi_rcap p) st with
  | Received rid body rest => Some (rid, body, rest)
  | _ => None
  end.
(** A channel: the authentication token of the client's session, its namespace table, the directions *)
Record link : Type := mkLink { l_token : nodeid; l_uris : list bytes; l_up : pipe; l_down : pipe }.

(** * Requests *)
(** ua.ReadRequest and ua.WriteRequest as the caller fills them in *)
Inductive question : Type := QRead (max_age stamps : Z) (ops : list rop) | QWrite (ops : list wop).
Definition as_request (who : caller) (q : question) : request :=
  match q with QRead a s l => Read who a s l | QWrite l => Write who l end.

Definition dv_val (d : dval) : val := VDV (d_value d) (d_status d) (d_src d) (d_srcp d) (d_srv d) (d_srvp d).
(** ua/structs.generated.go ReadValueID, WriteValue *)
Definition rop_val (q : rop) : val :=
  VStruct [VB BNodeId (r_node q); VB BUInt32 (r_attr q); VB BString (r_range q); VB BQName (mkQ 0 (r_encoding q))].
Definition wop_val (q : wop) : val :=
  VStruct [VB BNodeId (w_node q); VB BUInt32 (w_attr q); VB BString (w_range q); dv_val (w_value q)].
(** client 237-244: RequestHeader{AuthenticationToken, Timestamp, RequestHandle, 0, "", TimeoutHint, nil} *)
Definition request_header (token : nodeid) (t : time) (handle : Z) : val :=
  VStruct [VB BNodeId token; VB BTime t; VB BUInt32 handle; VB BUInt32 0; VB BString []; VB BUInt32 15000; VExtNil].
Definition question_name (q : question) : string :=
  match q with QRead _ _ _ => "ReadRequest"%string | QWrite _ => "WriteRequest"%string end.
Definition question_vals (token : nodeid) (t : time) (handle : Z) (q : question) : list val :=
  request_header token t handle ::
  match q with
  | QRead age stamps ops => [VB BDouble age; VB BInt32 stamps; VSlice (map rop_val ops)]
  | QWrite ops => [VSlice (map wop_val ops)]
  end.

(** What the server reads in the structures it decoded.  The types make sure that there is no other case. *)
Fixpoint all_of {A} (f : val -> option A) (l : list val) : option (list A) :=
  match l with
  | [] => Some []
  | v :: r => match f v, all_of f r with Some x, Some xs => Some (x :: xs) | _, _ => None end
  end.
Definition val_dv (v : val) : option dval := match v with VDV x st t1 p1 t2 p2 => Some (mkDV x st t1 p1 t2 p2) | _ => None end.
Definition val_rop (v : val) : option rop :=
  match v with VStruct [VB BNodeId n; VB BUInt32 a; VB BString s; VB BQName e] => Some (mkR n a s (q_name e)) | _ => None end.
Definition val_wop (v : val) : option wop :=
  match v with
  | VStruct [VB BNodeId n; VB BUInt32 a; VB BString s; d] => match val_dv d with Some d => Some (mkW n a s d) | None => None end
  | _ => None
  end.
Definition val_header (v : val) : option (nodeid * Z) :=
  match v with VStruct (VB BNodeId tok :: _ :: VB BUInt32 h :: _) => Some (tok, h) | _ => None end.
(** server_secure_channel.go 1361: the request with its token and its handle *)
Definition question_of (name : string) (vals : list val) : option (nodeid * Z * question) :=
  match vals with
  | hd :: fields =>
      match val_header hd with
      | None => None
      | Some (tok, h) =>
          if String.eqb name "ReadRequest" then
            match fields with
            | [VB BDouble age; VB BInt32 stamps; VSlice l] => match all_of val_rop l with Some ops => Some (tok, h, QRead age stamps ops) | None => None end
            | _ => None
            end
          else if String.eqb name "WriteRequest" then
            match fields with
            | [VSlice l] => match all_of val_wop l with Some ops => Some (tok, h, QWrite ops) | None => None end
            | _ => None
            end
          else None
      end
  | [] => None
  end.

(** * Responses *)
(** ResponseHeader{Timestamp: time.Now(), RequestHandle: req.RequestHandle, ServiceResult} *)
Definition response_header (t : time) (handle status : Z) : val :=
  VStruct [VB BTime t; VB BUInt32 handle; VB BUInt32 status; VDiag (Diag None None None None None None None); VSlice []; VExtNil].
(** server_service_set.go 2195-2236, 2343-2383 *)
Definition response_name (a : response) : string :=
  match a with Fault _ => "ServiceFault" | Values _ => "ReadResponse" | Statuses _ => "WriteResponse" end%string.
Definition response_vals (t : time) (handle : Z) (a : response) : list val :=
  match a with
  | Fault st => [response_header t handle st]
  | Values l => [response_header t handle 0; VSlice (map dv_val l); VSlice []]
  | Statuses l => [response_header t handle 0; VSlice (map (VB BUInt32) l); VSlice []]
  end.
Definition val_status (v : val) : option Z := match v with VB BUInt32 z => Some z | _ => None end.
(** client 1736 and 255-259: the handle, and what the caller gets *)
Definition response_of (name : string) (vals : list val) : option (Z * response) :=
  match vals with
  | VStruct (_ :: VB BUInt32 h :: VB BUInt32 st :: _) :: fields =>
      if negb (st =? 0) then Some (h, Fault st)
      else if String.eqb name "ReadResponse" then
        match fields with
        | VSlice l :: _ => match all_of val_dv l with Some r => Some (h, Values r) | None => None end
        | _ => None
        end
      else if String.eqb name "WriteResponse" then
        match fields with
        | VSlice l :: _ => match all_of val_status l with Some r => Some (h, Statuses r) | None => None end
        | _ => None
        end
      else None                              (* the type assertion of the client's method panics *)
  | _ => None
  end.

(** * The whole system *)
(** One channel: the bytes on the way in both directions, the sequence numbers, the last handle, the
    calls that wait for their answer by handle.  [i_names] only names the requests on the way, oldest
    first, as the history does. *)
Record line : Type := mkLine {
  i_up : bytes; i_down : bytes; i_upseq : Z; i_downseq : Z; i_handle : Z; i_pending : list (Z * Z); i_names : list Z }.
(** [y_open]: the requests in the hands of the server, with channel, request id and handle;
    [y_seen]: what the callers see *)
Record system : Type := mkSystem {
  y_server : world * list obs; y_open : list (Z * (Z * Z * Z)); y_lines : Z -> line; y_seen : list obs }.
Definition upd_line (f : Z -> line) (c : Z) (i : line) : Z -> line := fun x => if x =? c then i else f x.
Fixpoint lookup {A} (k : Z) (l : list (Z * A)) : option A :=
  match l with [] => None | (x, a) :: r => if x =? k then Some a else lookup k r end.
Definition without {A} (k : Z) (l : list (Z * A)) : list (Z * A) := filter (fun p => negb (fst p =? k)) l.

(** Call [k] on channel [c]; the server takes the next request of channel [c]; a worker does a part of
    operation [i] of request [k]; the server answers request [k]; the client of [c] takes the next answer. *)
Inductive happening : Type :=
| Calls (k c : Z) (q : question) (t : time)
| Takes (c : Z) (t : time)
| Works (k : Z) (i : nat) (t1 t2 : time)
| Answers (k : Z) (t : time)
| Returns (c : Z) (t : time).

Definition names (k : Z) (o : obs) : bool := match o with Sent r _ _ | Got r _ _ => r =? k end.

Section Stack.
Variable links : Z -> link.
Variable uris : list bytes.                         (* the server's namespace table *)
Variable session_of : Z -> nodeid -> caller.        (* SessionManager.Get and the check of the channel *)
(** The server, a machine of DataPath.v *)
Variable serve : world * list obs -> event -> option (world * list obs).

(** client 236-269 *)
Definition place (s : system) (k c : Z) (q : question) (t : time) : option system :=
  let l := links c in let i := y_lines s c in
  if existsb (names k) (y_seen s) then None else      (* calls have different names *)
  let h := next_counter (i_handle i) in
  if existsb (fun p => fst p =? h) (i_pending i) then None else    (* 2^32 calls wait: not considered *)
  match client_send (l_uris l) (question_name q) (question_vals (l_token l) t h q) with
  | None => None
  | Some body =>
      match transmit (l_up l) (i_upseq i) h body with       (* 1296: the request id is the handle *)
      | None => None
      | Some (bs, seq) =>
          Some (mkSystem (y_server s) (y_open s)
            (upd_line (y_lines s) c (mkLine (i_up i ++ bs) (i_down i) seq (i_downseq i) h ((h, k) :: i_pending i) (i_names i ++ [k])))
            (y_seen s ++ [Sent k (as_request (session_of c (l_token l)) q) t]))
      end
  end.
(** server_secure_channel.go 1036-1500, server.go 430, server_service_set.go 2066, 2251 *)
Definition accept (s : system) (c : Z) (t : time) : option system :=
  let l := links c in let i := y_lines s c in
  match i_names i, take_message (l_up l) (i_up i) with
  | k :: ks, Some (rid, body, rest) =>
      match server_receive uris body with
      | Ok (name, vals) _ =>
          match question_of name vals with
          | None => None
          | Some (tok, h, q) =>
              match serve (y_server s) (Invoke k (as_request (session_of c tok) q) t) with
              | None => None
              | Some srv => Some (mkSystem srv ((k, (c, rid, h)) :: y_open s)
                  (upd_line (y_lines s) c (mkLine rest (i_down i) (i_upseq i) (i_downseq i) (i_handle i) (i_pending i) ks)) (y_seen s))
              end
          end
      | _ => None
      end
  | _, _ => None
  end.
(** ch.Write(response, requestid) *)
Definition answer_call (s : system) (k : Z) (t : time) : option system :=
  match lookup k (y_open s), w_calls (fst (y_server s)) k with
  | Some (c, rid, h), Some cl =>
      let l := links c in let i := y_lines s c in
      match respond cl, serve (y_server s) (Respond k t) with
      | Some a, Some srv =>
          match server_send uris (response_name a) (response_vals t h a) with
          | None => None
          | Some body =>
              match transmit (l_down l) (i_downseq i) rid body with
              | None => None
              | Some (bs, seq) => Some (mkSystem srv (without k (y_open s))
                  (upd_line (y_lines s) c (mkLine (i_up i) (i_down i ++ bs) (i_upseq i) seq (i_handle i) (i_pending i) (i_names i))) (y_seen s))
              end
          end
      | _, _ => None
      end
  | _, _ => None
  end.
(** client 1350-1365, 1734-1747 *)
Definition return_answer (s : system) (c : Z) (t : time) : option system :=
  let l := links c in let i := y_lines s c in
  match take_message (l_down l) (i_down i) with
  | None => None
  | Some (rid, body, rest) =>
      match client_receive (l_uris l) body with
      | Ok (name, vals) _ =>
          match response_of name vals with
          | None => None
          | Some (h, a) =>
              match lookup h (i_pending i) with
              | None => None                     (* BadUnknownResponse *)
              | Some k => Some (mkSystem (y_server s) (y_open s)
                  (upd_line (y_lines s) c (mkLine (i_up i) rest (i_upseq i) (i_downseq i) (i_handle i) (without h (i_pending i)) (i_names i)))
                  (y_seen s ++ [Got k a t]))
              end
          end
      | _ => None
      end
  end.
Definition next (s : system) (e : happening) : option system :=
  match e with
  | Calls k c q t => place s k c q t
  | Takes c t => accept s c t
  | Works k i t1 t2 =>
      match serve (y_server s) (Run k i t1 t2) with Some srv => Some (mkSystem srv (y_open s) (y_lines s) (y_seen s)) | None => None end
  | Answers k t => answer_call s k t
  | Returns c t => return_answer s c t
  end.
Definition no_line : line := mkLine [] [] 0 0 0 [] [].
Definition begin_system (data : nodeid -> dval) : system := mkSystem (start data) [] (fun _ => no_line) [].
Fixpoint happens (s : system) (l : list happening) : option system :=
  match l with [] => Some s | e :: r => match next s e with Some s' => happens s' r | None => None end end.
End Stack.
