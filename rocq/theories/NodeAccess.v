(** The services Read, Write, Browse, Call and HistoryRead on nodes.

    Source: /repo/server/server_service_set.go (readValue 6063-6251, writeValue 5569-6060,
    handleBrowse 1208-1310, handleCall 3617-3672, handleHistoryRead 2391-2635).
    The checks of the request as a whole (session, number of operations) are in Session.v. *)
From Coq Require Import ZArith List Bool Strings.Byte.
From Verif Require Import Bytes IndexRange Roles Nodes.
Import ListNotations.
Open Scope Z_scope.

Definition BadUserAccessDenied : Z := 0x801F0000.      (* ua/status_code.generated.go 79-289 *)
Definition BadAttributeIDInvalid : Z := 0x80350000.
Definition BadDataEncodingInvalid : Z := 0x80380000.
Definition BadNotReadable : Z := 0x803A0000.
Definition BadNotWritable : Z := 0x803B0000.
Definition BadOutOfRange : Z := 0x803C0000.
Definition BadNotImplemented : Z := 0x80400000.
Definition BadReferenceTypeIDInvalid : Z := 0x804C0000.
Definition BadBrowseDirectionInvalid : Z := 0x804D0000.
Definition BadNodeClassInvalid : Z := 0x805F0000.
Definition BadTypeMismatch : Z := 0x80740000.
Definition BadMethodInvalid : Z := 0x80750000.
(** ua/attributeids.go 7-33 *)
Definition at_value : Z := 13.
Definition at_historizing : Z := 20.
Definition at_role_permissions : Z := 24.

(** The session of a request: none, or one whose user has these roles (None: GetRoles failed) *)
Inductive caller : Type := NoSession | Session (roles : option (list Z)).

Section Access.
Variable default : list perm.          (* RolePermissions of the server *)

Definition node_permissions (roles : option (list Z)) (n : node) : list perm := user_permissions roles (nd_perms n) default.
Definition browsable (roles : option (list Z)) (n : node) : bool := is_permitted (node_permissions roles n) pm_browse.

(** * Read *)
(** ReadValueID *)
Record read_req : Type := mkRead { rq_node : Z; rq_attr : Z; rq_range : bytes; rq_encoding : bytes }.
(** A value, or nil with a status code *)
Inductive shown : Type := Shown (s : stored) | Hidden (status : Z).
Definition good (v : gval) : shown := Shown (mkSt v 0).
Definition perms_code (l : list perm) : gval := GArr 22 (flat_map (fun p => [fst p; snd p]) l).    (* an array of structures *)
Definition bool_code (b : bool) : gval := GScalar 1 (if b then 1 else 0).
Definition read_value (who : caller) (sp : space) (q : read_req) : shown :=
  match who with
  | NoSession => Hidden BadUserAccessDenied
  | Session roles =>
      if negb (match rq_encoding q with [] => true | _ => false end) then Hidden BadDataEncodingInvalid
      else if negb (match rq_range q with [] => true | _ => false end) && negb (rq_attr q =? at_value) then Hidden BadIndexRangeNoData
      else match sp (rq_node q) with
      | None => Hidden BadNodeIDUnknown
      | Some n =>
          if negb (browsable roles n) then Hidden BadNodeIDUnknown
          else
            let a := rq_attr q in
            let static := good (nd_attr n a) in
            let no := Hidden BadAttributeIDInvalid in
            if a =? 13 then
              match nd_kind n with
              | KVariable v =>
                  if Z.land (va_access v) al_read =? 0 then Hidden BadNotReadable
                  else if Z.land (user_access (va_access v) roles (nd_perms n) default) al_read =? 0 then Hidden BadUserAccessDenied
                  else match va_reader v with
                  | Some f => Shown (f (rq_range q))
                  | None =>
                      match read_range (st_value (va_value v)) (rq_range q) with
                      | RVal x => Shown (mkSt x (st_status (va_value v)))
                      | RBad st => Hidden st
                      end
                  end
              | _ => no
              end
            else if (a =? 1) || (a =? 2) || (a =? 3) || (a =? 4) || (a =? 5) then static
            else if a =? 8 then match nd_kind n with KDataType _ | KObjectType | KReferenceType | KVariableType => static | _ => no end
            else if (a =? 9) || (a =? 10) then match nd_kind n with KReferenceType => static | _ => no end
            else if a =? 11 then match nd_kind n with KView => static | _ => no end
            else if a =? 12 then match nd_kind n with KObject | KView => static | _ => no end
            else if (a =? 14) || (a =? 15) || (a =? 16) then match nd_kind n with KVariable _ | KVariableType => static | _ => no end
            else if a =? 17 then match nd_kind n with KVariable v => good (GScalar 3 (va_access v)) | _ => no end
            else if a =? 18 then match nd_kind n with KVariable v => good (GScalar 3 (user_access (va_access v) roles (nd_perms n) default)) | _ => no end
            else if a =? 19 then match nd_kind n with KVariable _ => static | _ => no end
            else if a =? 20 then match nd_kind n with KVariable v => good (bool_code (va_historizing v)) | _ => no end
            else if a =? 21 then match nd_kind n with KMethod ex _ => good (bool_code ex) | _ => no end
            else if a =? 22 then match nd_kind n with KMethod ex _ => good (bool_code (user_executable ex roles (nd_perms n) default)) | _ => no end
            else if a =? 23 then match nd_kind n with KDataType (Some d) => good d | _ => no end
            else if a =? 24 then
              if is_permitted (node_permissions roles n) pm_read_role_permissions
              then good (perms_code (match nd_perms n with Some l => l | None => [] end)) else no
            else if a =? 25 then good (perms_code (node_permissions roles n))
            else no
      end
  end.

(** * Write *)
(** The variable [vt] gives the built-in type of a data type: FindVariantType, Nodes.find_variant;
    [limits]: MaxStringLength, MaxByteStringLength, MaxArrayLength of the server. *)
Variable vt : Z -> Z.
Record limits : Type := mkLimits { lm_string : Z; lm_blob : Z; lm_array : Z }.
Variable lim : limits.
Definition scalar_rank (rank : Z) : bool := (rank =? -1) || (rank =? -3) || (rank =? -2).
Definition array_rank (rank : Z) : bool := (rank =? 1) || (rank =? 0) || (rank =? -3) || (rank =? -2).
Definition check (too_long type_ok rank_ok : bool) : Z :=
  if too_long then BadOutOfRange else if negb type_ok then BadTypeMismatch else if negb rank_ok then BadTypeMismatch else 0.
(** 5609-6021.  Scalars of types 22 (ExtensionObject), 23 (DataValue) and 25 (DiagnosticInfo) are Go
    structures (6006-6013); arrays of type 25 and slices of slices are slices without a case of their
    own (6014-6018). *)
Definition check_value (dest rank : Z) (v : gval) : Z :=
  let of t := (dest =? t) || (dest =? 24) in
  match v with
  | GNil => 0
  | GText s => check (lm_string lim <? zlen s) (of 12) (scalar_rank rank)
  | GBlob s => check (lm_blob lim <? zlen s) (of 15) (scalar_rank rank)
  | GScalar t _ => if (t =? 22) || (t =? 23) || (t =? 25) then check false (of 22) (scalar_rank rank) else check false (of t) (scalar_rank rank)
  | GArr t els => if t =? 25 then check false true (negb (rank =? -1)) else check (lm_array lim <? zlen els) (of t) (array_rank rank)
  | GTexts l => check (lm_array lim <? zlen l) (of 12) (array_rank rank)
  | GBlobs l => check (lm_array lim <? zlen l) (of 15) (array_rank rank)
  | GMatrix _ _ => check false true (negb (rank =? -1))
  | GOther _ => BadTypeMismatch
  end.
(** 5597-5608: ByteString for Byte[] and the other way round *)
Definition convert (dest rank : Z) (v : gval) : gval :=
  let v := if (dest =? 3) && (rank =? 1) then match v with GBlob s => GArr 3 (map Z_of_byte s) | _ => v end else v in
  if (dest =? 15) && (rank =? -1) then match v with GArr 3 els => GBlob (map byte_of_Z els) | _ => v end else v.
(** WriteValue *)
Record write_req : Type := mkWrite { wq_node : Z; wq_attr : Z; wq_range : bytes; wq_value : stored }.
(** [Crashed]: a panic, which ends the process *)
Inductive written : Type := Done (status : Z) | Crashed.
Definition set_value (v : vardata) (s : stored) : vardata :=
  mkVar s (va_type v) (va_rank v) (va_access v) (va_historizing v) (va_historian v) (va_reader v) (va_writer v).
Definition set_historizing (v : vardata) (h : bool) : vardata :=
  mkVar (va_value v) (va_type v) (va_rank v) (va_access v) h (va_historian v) (va_reader v) (va_writer v).
(** SetValue (variable_node.go 130-137): the call on a nil historian panics *)
Definition store (sp : space) (id : Z) (n : node) (v : vardata) (s : stored) : written * space :=
  let sp' := put sp id (set_kind n (KVariable (set_value v s))) in
  if va_historizing v && negb (va_historian v) then (Crashed, sp') else (Done 0, sp').
Definition write_value (who : caller) (sp : space) (q : write_req) : written * space :=
  match who with
  | NoSession => (Done BadUserAccessDenied, sp)
  | Session roles =>
      match sp (wq_node q) with
      | None => (Done BadNodeIDUnknown, sp)
      | Some n =>
          if negb (browsable roles n) then (Done BadNodeIDUnknown, sp)
          else if wq_attr q =? at_value then
            match nd_kind n with
            | KVariable v =>
                if Z.land (va_access v) al_write =? 0 then (Done BadNotWritable, sp)
                else if Z.land (user_access (va_access v) roles (nd_perms n) default) al_write =? 0 then (Done BadUserAccessDenied, sp)
                else
                  let dest := vt (va_type v) in
                  let x := convert dest (va_rank v) (st_value (wq_value q)) in
                  let status := check_value dest (va_rank v) x in
                  if negb (status =? 0) then (Done status, sp)
                  else match va_writer v with
                  | Some f =>
                      let '(r, status) := f (mkSt x (st_status (wq_value q))) (wq_range q) in
                      if status =? 0 then store sp (wq_node q) n v r else (Done status, sp)
                  | None =>
                      match write_range (st_value (va_value v)) x (wq_range q) with
                      | WrVal r => store sp (wq_node q) n v (mkSt r (st_status (wq_value q)))
                      | WrBad status => (Done status, sp)
                      | WrCrash => (Crashed, sp)
                      end
                  end
            | _ => (Done BadAttributeIDInvalid, sp)
            end
          else if wq_attr q =? at_historizing then
            match nd_kind n with
            | KVariable v =>
                if negb (is_permitted (node_permissions roles n) pm_write_historizing) then (Done BadUserAccessDenied, sp)
                else match st_value (wq_value q) with
                | GScalar 1 c => (Done 0, put sp (wq_node q) (set_kind n (KVariable (set_historizing v (negb (c =? 0))))))
                | _ => (Done BadTypeMismatch, sp)
                end
            | _ => (Done BadAttributeIDInvalid, sp)
            end
          else (Done BadAttributeIDInvalid, sp)
      end
  end.

(** ** Writes at the same time *)
(** 6032-6036 for two workers (handleWrite 2359-2371: the entries of one request, or of two
    requests): the value is fetched and the new value computed, and stored later; in between the other
    worker may run. *)
Inductive wstep : Type := Fetch (first : bool) | Store (first : bool).
Record writers : Type := mkWriters { ws_value : gval; ws_first : option gval; ws_second : option gval }.
Definition wr_step (w1 w2 : gval * bytes) (s : writers) (e : wstep) : writers :=
  let fetch (w : gval * bytes) := match write_range (ws_value s) (fst w) (snd w) with WrVal r => Some r | _ => None end in
  match e with
  | Fetch true => mkWriters (ws_value s) (fetch w1) (ws_second s)
  | Fetch false => mkWriters (ws_value s) (ws_first s) (fetch w2)
  | Store true => match ws_first s with Some r => mkWriters r None (ws_second s) | None => s end
  | Store false => match ws_second s with Some r => mkWriters r (ws_first s) None | None => s end
  end.
Definition wr_run (w1 w2 : gval * bytes) (old : gval) (l : list wstep) : writers := fold_left (wr_step w1 w2) l (mkWriters old None None).

(** * Browse *)
(** BrowseDescription; the reference type is None if null *)
Record browse_req : Type := mkBrowse { bq_node : Z; bq_direction : Z; bq_type : option Z; bq_subtypes : bool; bq_classes : Z; bq_mask : Z }.
(** ReferenceDescription; None where the result mask leaves a field out *)
Record described : Type := mkDesc { ds_type : option Z; ds_forward : bool; ds_target : Z; ds_class : Z; ds_name : option Z; ds_display : option gval; ds_definition : option Z }.
Inductive browsed : Type := Refs (l : list described) | BrowseBad (status : Z).
(** 1230-1231, 1250 *)
Definition right_direction (direction : Z) (r : reference) : bool := (direction =? 2) || Bool.eqb (rf_inverse r) (direction =? 1).
(** 1232, 1253 *)
Definition right_type (sp : space) (q : browse_req) (r : reference) : bool :=
  match bq_type q with
  | None => true
  | Some t => (t =? rf_type r) || (bq_subtypes q && is_subtype sp (rf_type r) t)
  end.
Definition masked (mask bit : Z) : bool := negb (Z.land mask bit =? 0).
(** 1269-1309 *)
Definition describe (mask : Z) (r : reference) (t : node) : described :=
  mkDesc (if masked mask 1 then Some (rf_type r) else None)
         (if masked mask 2 then negb (rf_inverse r) else false)
         (rf_target r)
         (if masked mask 4 then class_of (nd_kind t) else 0)
         (if masked mask 8 then Some (nd_name t) else None)
         (if masked mask 16 then Some (nd_attr t 4) else None)
         (if masked mask 32 && match nd_kind t with KObject | KVariable _ => true | _ => false end
          then match find (fun x => rf_type x =? has_type_definition) (nd_refs t) with Some x => Some (rf_target x) | None => None end
          else None).
(** 1249-1310 *)
Fixpoint browse_refs (roles : option (list Z)) (sp : space) (q : browse_req) (l : list reference) : browsed :=
  match l with
  | [] => Refs []
  | r :: l' =>
      if negb (right_direction (bq_direction q) r) || negb (right_type sp q r) then browse_refs roles sp q l'
      else match sp (rf_target r) with
      | None => BrowseBad BadNodeIDUnknown
      | Some t =>
          if negb (browsable roles t) || negb ((bq_classes q =? 0) || masked (bq_classes q) (class_of (nd_kind t))) then browse_refs roles sp q l'
          else match browse_refs roles sp q l' with
          | Refs ds => Refs (describe (bq_mask q) r t :: ds)
          | bad => bad
          end
      end
  end.
(** 1208-1310, up to the continuation point (ContPoint.v) *)
Definition browse (roles : option (list Z)) (sp : space) (q : browse_req) : browsed :=
  if (bq_direction q <? 0) || (2 <? bq_direction q) then BrowseBad BadBrowseDirectionInvalid
  else match sp (bq_node q) with
  | None => BrowseBad BadNodeIDUnknown
  | Some n =>
      if negb (browsable roles n) then BrowseBad BadNodeIDUnknown
      else match bq_type q with
      | None => browse_refs roles sp q (nd_refs n)
      | Some t =>
          match sp t with
          | None => BrowseBad BadReferenceTypeIDInvalid
          | Some tn => if class_of (nd_kind tn) =? 32 then browse_refs roles sp q (nd_refs n) else BrowseBad BadReferenceTypeIDInvalid
          end
      end
  end.

(** * Call *)
(** What happens: the handler of the method is run, or a status code is returned *)
Inductive called : Type := Run (handler : Z) | CallBad (status : Z).
(** 3618-3671 *)
Definition call (roles : option (list Z)) (sp : space) (object method : Z) : called :=
  match sp object with
  | None => CallBad BadNodeIDUnknown
  | Some n1 =>
      if negb (browsable roles n1) then CallBad BadNodeIDUnknown
      else match nd_kind n1 with
      | KObject | KObjectType =>
          match sp method with
          | None => CallBad BadMethodInvalid
          | Some n2 =>
              if negb (browsable roles n2) then CallBad BadMethodInvalid
              else match nd_kind n2 with
              | KMethod ex h =>
                  if negb (user_executable ex roles (nd_perms n2) default) then CallBad BadUserAccessDenied
                  else match h with Some c => Run c | None => CallBad BadNotImplemented end
              | _ => CallBad BadAttributeIDInvalid
              end
          end
      | _ => CallBad BadNodeClassInvalid
      end
  end.

(** * HistoryRead *)
(** 2525-2634: the nodes of the request are given to the historian as they are; the user, the address
    space and the permissions are not looked at. *)
Definition history_read {result : Type} (historian : list Z -> result) (who : caller) (sp : space) (nodes : list Z) : result := historian nodes.
End Access.

(** * Workers *)
(** The loops of handleRead 2217-2222, handleWrite, handleBrowse, handleBrowseNext,
    handleTranslateBrowsePaths and handleCall: operation [i] of a request is done by some worker of the
    pool and its result stored at position [i]; [order]: the order in which the workers finish. *)
Fixpoint set_at {A} (i : nat) (x : A) (l : list A) : list A :=
  match l, i with
  | [], _ => []
  | _ :: l', O => x :: l'
  | y :: l', S k => y :: set_at k x l'
  end.
Definition batch {A} (none : A) (work : nat -> A) (n : nat) (order : list nat) : list A :=
  fold_left (fun rs i => set_at i (work i) rs) order (repeat none n).
