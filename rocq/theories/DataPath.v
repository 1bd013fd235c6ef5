(** The Read and Write services as a whole: requests of any number of clients at the same time, the
    operations of a request spread over the workers of the pool, values with status and timestamps.

    Source: /repo/server/server_service_set.go (handleRead 2057-2240, handleWrite 2242-2387, readRange 2638,
    writeRange 2972, selectTimestamps 3473-3493, writeValue 5569-6060, readValue 6063-6092),
    /repo/server/variable_node.go 122-137.
    The checks of session and channel (2058-2126, 2243-2311) are in Session.v and Handlers.v: the
    caller of a request is given.  Values are the Variants of Value.v. *)
From Coq Require Import ZArith List Bool Strings.Byte.
From Verif Require Import Bytes Prim Value Registry IndexRange Roles Nodes NodeAccess.
Import ListNotations.
Open Scope Z_scope.

(** ua/data_value.go 10-21 *)
Record dval : Type := mkDV { d_value : val; d_status : Z; d_src : time; d_srcp : Z; d_srv : time; d_srvp : Z }.
(** time.Time{} *)
Definition no_time : time := mkTime (-62135596800) 0.
(** NewDataValue(nil, status, time.Time{}, 0, time.Now(), 0) *)
Definition refused (status : Z) (now : time) : dval := mkDV VNil status no_time 0 now 0.

(** ReadValueID and WriteValue (ua/structs.generated.go 1556-1562, 1690-1696); of the data encoding only
    the name is looked at *)
Record rop : Type := mkR { r_node : nodeid; r_attr : Z; r_range : bytes; r_encoding : bytes }.
Record wop : Type := mkW { w_node : nodeid; w_attr : Z; w_range : bytes; w_value : dval }.
Inductive op : Type := RD (q : rop) | WR (q : wop).
Inductive answer : Type := AValue (d : dval) | AStatus (status : Z).

(** What the checks of writeValue look at in a value: kind and lengths *)
Definition shape (v : val) : gval :=
  match v with
  | VNil => GNil
  | VScalar (KB BString) (VB BString s) => GText s
  | VScalar (KB BByteString) (VB BByteString s) => GBlob s
  | VScalar k _ => GScalar (tag_of k) 0
  | VArrNil (KB BString) => GTexts []
  | VArrNil (KB BByteString) => GBlobs []
  | VArrNil k => GArr (tag_of k) []
  | VArr (KB BString) l => GTexts (map (fun _ => []) l)
  | VArr (KB BByteString) l => GBlobs (map (fun _ => []) l)
  | VArr k l => GArr (tag_of k) (map (fun _ => 0) l)
  | VMat2 k _ | VMat3 k _ => GMatrix (tag_of k) 0
  | _ => GOther 0
  end.
(** 5597-5608: a ByteString is []byte and the other way round.  The conversion of a nil slice is nil or
    the empty string, which is one value here. *)
Definition byte_of_val (v : val) : byte := match v with VB BByte z => byte_of_Z z | _ => x00 end.
Definition to_stored (dest rank : Z) (v : val) : val :=
  let v := if (dest =? 3) && (rank =? 1)
           then match v with VScalar (KB BByteString) (VB BByteString s) => VArr (KB BByte) (map (fun b => VB BByte (Z_of_byte b)) s) | _ => v end
           else v in
  if (dest =? 15) && (rank =? -1)
  then match v with
       | VArr (KB BByte) l => VScalar (KB BByteString) (VB BByteString (map byte_of_val l))
       | VArrNil (KB BByte) => VScalar (KB BByteString) (VB BByteString [])
       | _ => v
       end
  else v.

(** selectTimestamps 3473-3493; ua.TimestampsToReturn is 0 Source, 1 Server, 2 Both, 3 Neither *)
Definition select_stamps (stamps : Z) (d : dval) : dval :=
  if stamps =? 0 then mkDV (d_value d) (d_status d) (d_src d) 0 no_time 0
  else if stamps =? 1 then mkDV (d_value d) (d_status d) no_time 0 (d_srv d) 0
  else if stamps =? 3 then mkDV (d_value d) (d_status d) no_time 0 no_time 0
  else d.

(** The results of readRange and writeRange with an index range (IndexRange.v) *)
Inductive ranged : Type := RangeVal (v : val) | RangeBad (status : Z) | RangePanic.

Inductive request : Type :=
| Read (who : caller) (max_age : Z) (stamps : Z) (ops : list rop)      (* MaxAge: the bits of a double *)
| Write (who : caller) (ops : list wop).
Definition sender (q : request) : caller := match q with Read w _ _ _ => w | Write w _ => w end.
Definition ops_of (q : request) : list op := match q with Read _ _ _ l => map RD l | Write _ l => map WR l end.
Inductive response : Type := Fault (status : Z) | Values (l : list dval) | Statuses (l : list Z).

(** The double with these bits is less than 0.0: the sign is set, and it is neither -0.0 nor NaN *)
Definition below_zero (bits : Z) : bool := (0x8000000000000000 <? bits) && (bits <=? 0xFFF0000000000000).

(** An operation of a request on a worker: not begun, with the new value worked out but not yet
    stored, or finished *)
Record task : Type := mkTask { k_op : op; k_ready : option dval; k_answer : option answer }.
Record call : Type := mkCall { c_request : request; c_fault : option Z; c_tasks : list task; c_done : bool }.
(** The server: the values of the variables, the requests it got, and whether it panicked *)
Record world : Type := mkWorld { w_data : nodeid -> dval; w_calls : Z -> option call; w_down : bool }.

(** What happens, with the time it happens.  [Run]: a worker does the next part of operation [i] of
    request [r]; [t1] and [t2] are the two readings of the clock in it (2974). *)
Inductive event : Type := Invoke (r : Z) (q : request) (t : time) | Run (r : Z) (i : nat) (t1 t2 : time) | Respond (r : Z) (t : time).
(** What the clients see of it *)
Inductive obs : Type := Sent (r : Z) (q : request) (t : time) | Got (r : Z) (a : response) (t : time).

Definition upd_data (f : nodeid -> dval) (x : nodeid) (d : dval) : nodeid -> dval := fun y => if nodeid_eqb y x then d else f y.
Definition upd_call (f : Z -> option call) (r : Z) (c : call) : Z -> option call := fun y => if y =? r then Some c else f y.

Section DataPath.
Variable default : list perm.                 (* RolePermissions of the server *)
Variable vt : Z -> Z.                         (* FindVariantType *)
Variable lim : limits.
Variable max_read max_write : Z.              (* OperationLimits.MaxNodesPerRead, MaxNodesPerWrite *)
(** The nodes.  Of a variable only the settings are used: the values are in the world. *)
Variable nodes : nodeid -> option node.
(** readRange and writeRange with an index range *)
Variable range_read : val -> bytes -> ranged.
Variable range_write : val -> val -> bytes -> ranged.
(** Handlers of the user of the library, and the other attributes *)
Variable app_read : nodeid -> bytes -> dval.
Variable app_write : wop -> dval * Z.
Variable other_read : caller -> rop -> time -> dval.
Variable other_write : caller -> wop -> Z.

(** readRange 2638-2971: without an index range the DataValue as it is, otherwise without picoseconds *)
Definition read_stored (s : dval) (range : bytes) : dval :=
  match range with
  | [] => s
  | _ => match range_read (d_value s) range with
         | RangeVal v => mkDV v (d_status s) (d_src s) 0 (d_srv s) 0
         | RangeBad st => mkDV VNil st (d_src s) 0 (d_srv s) 0
         | RangePanic => s                   (* readRange does not panic (C62) *)
         end
  end.
(** readValue 6063-6092 *)
Definition read_data (who : caller) (data : nodeid -> dval) (q : rop) (now : time) : dval :=
  match who with
  | NoSession => refused BadUserAccessDenied now
  | Session roles =>
      if negb (match r_encoding q with [] => true | _ => false end) then refused BadDataEncodingInvalid now
      else if negb (match r_range q with [] => true | _ => false end) && negb (r_attr q =? at_value) then refused BadIndexRangeNoData now
      else match nodes (r_node q) with
      | None => refused BadNodeIDUnknown now
      | Some n =>
          if negb (browsable default roles n) then refused BadNodeIDUnknown now
          else if r_attr q =? at_value then
            match nd_kind n with
            | KVariable v =>
                if Z.land (va_access v) al_read =? 0 then refused BadNotReadable now
                else if Z.land (user_access (va_access v) roles (nd_perms n) default) al_read =? 0 then refused BadUserAccessDenied now
                else match va_reader v with
                | Some _ => app_read (r_node q) (r_range q)
                | None => read_stored (data (r_node q)) (r_range q)
                end
            | _ => refused BadAttributeIDInvalid now
            end
          else other_read who q now
      end
  end.

(** writeRange 2972-2975, and 2976-3440 with an index range: the DataValue to be stored has the status
    of the request and the time of the server *)
Inductive prepared : Type := Ready (d : dval) | NotReady (status : Z) | Panics.
Definition prepare_range (old : dval) (v : val) (status : Z) (range : bytes) (t1 t2 : time) : prepared :=
  match range with
  | [] => Ready (mkDV v status t1 0 t2 0)
  | _ => match range_write (d_value old) v range with
         | RangeVal r => Ready (mkDV r status t1 0 t2 0)
         | RangeBad st => NotReady st
         | RangePanic => Panics
         end
  end.
(** writeValue 5569-6037 up to the call of SetValue *)
Definition prepare (who : caller) (data : nodeid -> dval) (q : wop) (t1 t2 : time) : prepared :=
  match who with
  | NoSession => NotReady BadUserAccessDenied
  | Session roles =>
      match nodes (w_node q) with
      | None => NotReady BadNodeIDUnknown
      | Some n =>
          if negb (browsable default roles n) then NotReady BadNodeIDUnknown
          else if w_attr q =? at_value then
            match nd_kind n with
            | KVariable v =>
                if Z.land (va_access v) al_write =? 0 then NotReady BadNotWritable
                else if Z.land (user_access (va_access v) roles (nd_perms n) default) al_write =? 0 then NotReady BadUserAccessDenied
                else
                  let dest := vt (va_type v) in
                  let x := to_stored dest (va_rank v) (d_value (w_value q)) in
                  let status := check_value lim dest (va_rank v) (shape x) in
                  if negb (status =? 0) then NotReady status
                  else match va_writer v with
                  | Some _ => let (r, status) := app_write q in if status =? 0 then Ready r else NotReady status
                  | None => prepare_range (data (w_node q)) x (d_status (w_value q)) (w_range q) t1 t2
                  end
            | _ => NotReady BadAttributeIDInvalid
            end
          else NotReady (other_write who q)
      end
  end.
(** SetValue (variable_node.go 130-137) panics for a variable that is historized without historian *)
Definition bad_history (x : nodeid) : bool :=
  match nodes x with Some n => match nd_kind n with KVariable v => va_historizing v && negb (va_historian v) | _ => false end | None => false end.

(** One step of a worker *)
Inductive worked : Type := Worked (data : nodeid -> dval) (k : task) | Died.
Definition work (who : caller) (data : nodeid -> dval) (k : task) (t1 t2 : time) : worked :=
  match k_op k, k_ready k with
  | RD q, _ => Worked data (mkTask (k_op k) None (Some (AValue (read_data who data q t1))))
  | WR q, None =>
      match prepare who data q t1 t2 with
      | Ready d => Worked data (mkTask (k_op k) (Some d) None)
      | NotReady st => Worked data (mkTask (k_op k) None (Some (AStatus st)))
      | Panics => Died
      end
  | WR q, Some d =>
      if bad_history (w_node q) then Died
      else Worked (upd_data data (w_node q) d) (mkTask (k_op k) None (Some (AStatus 0)))
  end.

Definition BadMaxAgeInvalid : Z := 0x80700000.      (* ua/status_code.generated.go *)
Definition BadTimestampsToReturnInvalid : Z := 0x802B0000.
Definition BadNothingToDo : Z := 0x800F0000.
Definition BadTooManyOperations : Z := 0x80100000.
(** 2128-2207, 2313-2354 *)
Definition fault_of (q : request) : option Z :=
  match q with
  | Read _ max_age stamps ops =>
      if below_zero max_age then Some BadMaxAgeInvalid
      else if (stamps <? 0) || (3 <? stamps) then Some BadTimestampsToReturnInvalid
      else if zlen ops =? 0 then Some BadNothingToDo
      else if max_read <? zlen ops then Some BadTooManyOperations
      else None
  | Write _ ops =>
      if zlen ops =? 0 then Some BadNothingToDo
      else if max_write <? zlen ops then Some BadTooManyOperations
      else None
  end.
Definition begin_call (q : request) : call :=
  match fault_of q with
  | Some st => mkCall q (Some st) [] false
  | None => mkCall q None (map (fun o => mkTask o None None) (ops_of q)) false
  end.
(** 2223-2236, 2372-2383: when every operation has its result *)
Fixpoint answers (l : list task) : option (list answer) :=
  match l with
  | [] => Some []
  | k :: r => match k_answer k, answers r with Some a, Some l' => Some (a :: l') | _, _ => None end
  end.
Definition values_of (l : list answer) : list dval := flat_map (fun a => match a with AValue d => [d] | AStatus _ => [] end) l.
Definition statuses_of (l : list answer) : list Z := flat_map (fun a => match a with AStatus s => [s] | AValue _ => [] end) l.
Definition respond (c : call) : option response :=
  match c_fault c with
  | Some st => Some (Fault st)
  | None =>
      match answers (c_tasks c) with
      | None => None
      | Some l => Some (match c_request c with
                        | Read _ _ stamps _ => Values (map (select_stamps stamps) (values_of l))
                        | Write _ _ => Statuses (statuses_of l)
                        end)
      end
  end.

(** One event; [None]: it cannot happen now.  Requests have different numbers. *)
Definition step (s : world * list obs) (e : event) : option (world * list obs) :=
  let '(w, h) := s in
  if w_down w then None else
  match e with
  | Invoke r q t =>
      match w_calls w r with
      | Some _ => None
      | None => Some (mkWorld (w_data w) (upd_call (w_calls w) r (begin_call q)) false, h ++ [Sent r q t])
      end
  | Run r i t1 t2 =>
      match w_calls w r with
      | None => None
      | Some c =>
          match nth_error (c_tasks c) i with
          | None => None
          | Some k =>
              match k_answer k with
              | Some _ => None
              | None =>
                  match work (sender (c_request c)) (w_data w) k t1 t2 with
                  | Worked data k' => Some (mkWorld data (upd_call (w_calls w) r (mkCall (c_request c) (c_fault c) (set_at i k' (c_tasks c)) (c_done c))) false, h)
                  | Died => Some (mkWorld (w_data w) (w_calls w) true, h)
                  end
              end
          end
      end
  | Respond r t =>
      match w_calls w r with
      | None => None
      | Some c =>
          if c_done c then None
          else match respond c with
               | None => None
               | Some a => Some (mkWorld (w_data w) (upd_call (w_calls w) r (mkCall (c_request c) (c_fault c) (c_tasks c) true)) false, h ++ [Got r a t])
               end
      end
  end.
Definition start (data : nodeid -> dval) : world * list obs := (mkWorld data (fun _ => None) false, []).
Fixpoint run (s : world * list obs) (l : list event) : option (world * list obs) :=
  match l with
  | [] => Some s
  | e :: r => match step s e with Some s' => run s' r | None => None end
  end.
End DataPath.
