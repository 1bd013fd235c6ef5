(** The server's own nodes: how they are made when the server is made, read and written by clients; the
    diagnostics objects of sessions and subscriptions; the life of the server.

    Source: /repo/server/server.go 506-959 (initializeNamespace), 280-341 (ListenAndServe, Close);
    /repo/server/server_service_set.go 5569-6098 (writeValue, readValue), 2209-2237 (handleRead);
    /repo/server/namespace_manager.go 402-450 (DeleteNodes), 748-767 (the variables of a node set). *)
From Coq Require Import ZArith List Bool String.
From Verif Require Import Bytes Prim Value Text Messages OwnData OwnTable.
Import ListNotations.
Open Scope Z_scope.

(** * The nodes *)
(** variable_node.go 10-36: the fields used here *)
Record node : Type := mkNode { n_decl : decl; n_access : Z; n_value : goany; n_handler : option expression }.

(** namespace_manager.go 748-767, 1376-1379: a variable without a value in the file holds nil with status Good.
    The values written in the file are left out: only the arguments of methods have one. *)
Definition loaded : list node := map (fun d => mkNode d (d_access d) g_nil None) server_tree.

Definition n_id (n : node) : Z := d_id (n_decl n).
(** namespace_manager.go 73-88 FindNode *)
Definition find_node (i : Z) (ns : list node) : option node := find (fun n => n_id n =? i) ns.
(** namespace_manager.go 91-99 FindVariable *)
Definition is_variable (n : node) : bool := match d_class (n_decl n) with CVariable => true | _ => false end.
Definition update (i : Z) (f : node -> node) (ns : list node) : list node :=
  map (fun n => if n_id n =? i then f n else n) ns.

(** namespace_manager.go 575-601 GetChildren: the nodes below a node; the fuel is the number of nodes *)
Fixpoint below (fuel : nat) (i : Z) (ns : list node) : list Z :=
  match fuel with
  | O => []
  | S f => flat_map (fun n => if d_parent (n_decl n) =? i then n_id n :: below f (n_id n) ns else []) ns
  end.
(** namespace_manager.go 402-450 DeleteNode *)
Definition delete (children : bool) (i : Z) (ns : list node) : list node :=
  let gone := i :: (if children then below 4 i ns else []) in
  filter (fun n => negb (existsb (Z.eqb (n_id n)) gone)) ns.

(** server.go 511-858: one statement.  [None]: a panic. *)
Definition apply_action (w : world) (ns : option (list node)) (p : Z * action) : option (list node) :=
  match ns with
  | None => None
  | Some ns =>
      match find_node (fst p) ns with
      | None => Some ns                                   (* FindVariable, FindNode: not ok *)
      | Some n =>
          match snd p with
          | Delete c => Some (delete c (fst p) ns)
          | a => if is_variable n then
                   match a with
                   | SetValue e => match e w with
                                   | Some g => Some (update (fst p) (fun n => mkNode (n_decl n) (n_access n) g (n_handler n)) ns)
                                   | None => None
                                   end
                   | SetHandler e => Some (update (fst p) (fun n => mkNode (n_decl n) (n_access n) (n_value n) (Some e)) ns)
                   | SetAccess l => Some (update (fst p) (fun n => mkNode (n_decl n) l (n_value n) (n_handler n)) ns)
                   | Delete _ => Some ns
                   end
                 else Some ns
          end
      end
  end.
(** server.go 506 initializeNamespace, called by New (server.go 146): [None] when New panics *)
Definition made (w : world) : option (list node) := fold_left (apply_action w) boot (Some loaded).

(** * Clients *)
Definition BadNodeIDUnknown : Z := 0x80340000.
Definition BadNotReadable : Z := 0x803A0000.
Definition BadNotWritable : Z := 0x803B0000.
Definition BadAttributeIDInvalid : Z := 0x80350000.
Definition BadUserAccessDenied : Z := 0x801F0000.
Definition BadSecurityModeInsufficient : Z := 0x80E60000.

(** The value and the status of a DataValue *)
Definition reading : Type := goany * Z.

(** server_service_set.go 6063-6098 readValue, attribute Value, for a session with the permissions to browse and
    read, without a data encoding.  [range]: readRange (2638) of a value and an index range.
    A handler gets the index range and does not use it. *)
Section Read.
Variable range : goany -> bytes -> reading.
Definition read_value (w : world) (ns : list node) (i : Z) (r : bytes) : reading :=
  match find_node i ns with
  | None => (g_nil, BadNodeIDUnknown)
  | Some n =>
      if is_variable n then
        if Z.land (n_access n) 1 =? 0 then (g_nil, BadNotReadable) else
        match n_handler n with
        | Some h => match h w with Some g => (g, 0) | None => (g_nil, 0) end     (* no handler dereferences nil *)
        | None => range (n_value n) r
        end
      else (g_nil, BadAttributeIDInvalid)
  end.
End Read.
(** server_service_set.go 2638-2641: no index range *)
Definition whole (g : goany) (r : bytes) : reading := (g, 0).

(** server_service_set.go 2209-2237 and server.go 414-427: when one of the values cannot be written the
    response cannot, and the connection is closed.  [None]: no answer. *)
Fixpoint all_written (l : list reading) : option (list (val * Z)) :=
  match l with
  | [] => Some []
  | (g, s) :: r => match variant_of g, all_written r with Some v, Some vs => Some ((v, s) :: vs) | _, _ => None end
  end.
Definition read_response (range : goany -> bytes -> reading) (w : world) (ns : list node) (ids : list (Z * bytes)) : option (list (val * Z)) :=
  all_written (map (fun p => read_value range w ns (fst p) (snd p)) ids).

(** server_service_set.go 5569-5593 and 6025-6038 writeValue, attribute Value: a variable whose access level lacks
    CurrentWrite is BadNotWritable; otherwise the value is stored (the checks of types are in DataPath.v). *)
Definition write_value (ns : list node) (i : Z) (g : goany) : list node * Z :=
  match find_node i ns with
  | None => (ns, BadNodeIDUnknown)
  | Some n =>
      if is_variable n then
        if Z.land (n_access n) 2 =? 0 then (ns, BadNotWritable)
        else (update i (fun n => mkNode (n_decl n) (n_access n) g (n_handler n)) ns, 0)
      else (ns, BadAttributeIDInvalid)
  end.

(** * The server from its making on *)
Record server : Type := mkServer { sv_world : world; sv_nodes : list node }.
Definition new_server (w : world) : option server := option_map (mkServer w) (made w).

(** What changes while the server runs.  The configuration does not: no method of Server sets it. *)
Record moment : Type := mkMoment {
  m_now : time; m_state : Z; m_seconds : Z; m_reason : ltext; m_namespaces : list bytes; m_summary : string -> Z; m_subs : list subscription }.
Definition at_moment (w : world) (m : moment) : world :=
  mkWorld (w_caps w) (w_build w) (w_start w) (w_diagnostics w) (w_historian w) (w_servers w)
          (m_now m) (m_state m) (m_seconds m) (m_reason m) (m_namespaces m) (m_summary m) (m_subs m).
Inductive event : Type :=
| Later (m : moment)                       (* time passes; the server and its sessions do what they do *)
| Written (id : Z) (value : goany).        (* a client writes the value of a node *)
Definition step (s : server) (e : event) : server :=
  match e with
  | Later m => mkServer (at_moment (sv_world s) m) (sv_nodes s)
  | Written i g => mkServer (sv_world s) (fst (write_value (sv_nodes s) i g))
  end.
Definition run_server (s : server) (es : list event) : server := fold_left step es s.

(** Translating a browse path: the node below the first one with the names, level by level *)
Fixpoint descend (ns : list node) (parent : Z) (path : list string) : option Z :=
  match path with
  | [] => Some parent
  | p :: r => match find (fun n => (d_parent (n_decl n) =? parent) && String.eqb (d_name (n_decl n)) p) ns with
              | Some n => descend ns (n_id n) r
              | None => None
              end
  end.

(** * Diagnostics objects *)
(** session_manager.go 1256-1279 and the eight variables below it: who may read.
    [roles]: server.go 344 GetRoles for the identity of a session, as whether AuthenticatedUser is among them; [None]: an error *)
Section Diagnostics.
Variable roles : Z -> option bool.
Definition SignAndEncrypt : Z := 3.
Definition admitted (r : session) : option Z :=
  match roles (se_identity r) with
  | Some true => if se_securityMode r =? SignAndEncrypt then None else Some BadSecurityModeInsufficient
  | _ => Some BadUserAccessDenied
  end.
(** session_manager.go 146-1703, subscription_manager.go 158-939: session r reads a variable of the object of s *)
Definition read_diagnostic {A} (d : diagnostic A) (s : A) (r : session) : reading :=
  if v_guarded d then
    match admitted r with
    | Some status => (g_nil, status)
    | None => (v_value d s r, 0)
    end
  else (v_value d s r, 0).
End Diagnostics.
Definition component {A} (l : list (diagnostic A)) (name : string) : option (diagnostic A) :=
  find (fun d => String.eqb (v_name d) name) l.

(** session.go 119-143 NewSession: what a new session says of itself.  The certificate of the client is
    among the parameters and is not stored. *)
Definition new_session (id : nodeid) (name : bytes) (timeout : Z) (description : list val) (uri endpoint certificate : bytes) (max : Z) (now : time) (identity : Z) : session :=
  mkSession id name description uri endpoint (Some [lit "en-US"]) timeout now now [] 0
            (fun f => if String.eqb f "maxResponseMessageSize" then max else 0)
            [] (Some []) [] 1 (lit "http://opcfoundation.org/UA/SecurityPolicy#None") [] identity.

(** * The life of the server *)
(** ua/enums: ServerState *)
Definition Running : Z := 0.
Definition Shutdown : Z := 4.
Definition Unknown : Z := 7.
Definition BadInternalError : Z := 0x80020000.
Definition BadTCPEndpointURLInvalid : Z := 0x80830000.
Definition BadResourceUnavailable : Z := 0x80040000.

(** server.go 280-341.  [f_closers]: the calls of Close which count down, each with what it does next: 4 stands for
    setting the reason, 3, 2, 1 for setting the seconds, 0 for the end.  [f_closed]: srv.closing is closed.
    [f_open]: a listener is open.  [f_panics]: how many calls of Close panicked. *)
Record life : Type := mkLife {
  f_state : Z; f_seconds : Z; f_reason : bytes; f_closed : bool; f_open : bool; f_closers : list Z; f_panics : Z }.
(** server.go 112-124 New: state Unknown *)
Definition life_init : life := mkLife Unknown 0 [] false false [] 0.
Inductive act : Type :=
| Listen (url_ok port_ok : bool)           (* ListenAndServe is called; the endpoint URL parses, the port is free *)
| Close                                    (* Close is called *)
| Proceed (k : nat).                       (* the k-th call of Close goes on *)

(** close(srv.closing): the second time panics; the listener is closed by the goroutine that waits (305-308) *)
Definition close_channel (f : life) : life :=
  if f_closed f then mkLife (f_state f) (f_seconds f) (f_reason f) true (f_open f) (f_closers f) (f_panics f + 1)
  else mkLife (f_state f) (f_seconds f) (f_reason f) true false (f_closers f) (f_panics f).
Definition live (f : life) (a : act) : life * Z :=
  match a with
  | Listen url port =>
      if negb (f_state f =? Unknown) then (f, BadInternalError) else
      let f := mkLife Running (f_seconds f) (f_reason f) (f_closed f) (f_open f) (f_closers f) (f_panics f) in
      if negb url then (f, BadTCPEndpointURLInvalid) else
      if negb port then (f, BadResourceUnavailable) else
      (mkLife (f_state f) (f_seconds f) (f_reason f) (f_closed f) true (f_closers f) (f_panics f), 0)
  | Close =>
      if f_state f =? Running then (mkLife Shutdown (f_seconds f) (f_reason f) (f_closed f) (f_open f) (f_closers f ++ [4])%list (f_panics f), 0)
      else (close_channel (mkLife Shutdown (f_seconds f) (f_reason f) (f_closed f) (f_open f) (f_closers f) (f_panics f)), 0)
  | Proceed k =>
      match nth_error (f_closers f) k with
      | None => (f, 0)
      | Some n =>
          let rest l := (firstn k (f_closers f) ++ l ++ skipn (S k) (f_closers f))%list in
          if n =? 4 then (mkLife (f_state f) (f_seconds f) (lit "Closing") (f_closed f) (f_open f) (rest [3]) (f_panics f), 0)
          else if n =? 0 then (close_channel (mkLife (f_state f) 0 (f_reason f) (f_closed f) (f_open f) (rest []) (f_panics f)), 0)
          else (mkLife (f_state f) n (f_reason f) (f_closed f) (f_open f) (rest [n - 1]) (f_panics f), 0)
      end
  end.
Definition live_all (acts : list act) : life := fold_left (fun f a => fst (live f a)) acts life_init.
