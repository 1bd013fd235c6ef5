(** C53 to C59, C61, C62, C77 to C79: who may read, write, browse and call what. *)
From Coq Require Import ZArith List Bool Permutation Strings.Byte.
From Verif Require Import Bytes IndexRange IndexRangeSpec Roles RolesSpec RolesProofs Nodes NodeAccess AccessSpec TypeProofs AccessProofs AccessLemmas.
Import ListNotations.
Open Scope Z_scope.
(** * C53: Read never reveals what the user may not see *)
(** [user_may default roles n k]: some of the roles has permission [k] on the node [n]. *)
Theorem c53_only_permitted : forall default who sp q s, read_value default who sp q = Shown s ->
  exists roles n, who = Session roles /\ sp (rq_node q) = Some n /\ user_may default roles n p_browse /\
    (rq_attr q = 13 -> exists v, nd_kind n = KVariable v /\ readable v /\ user_may default roles n p_read) /\
    (rq_attr q = 24 -> user_may default roles n p_read_role_permissions).
Proof. exact read_allowed. Qed.
Print Assumptions c53_only_permitted.
(** A hidden node is as good as none, for every request. *)
Theorem c53_hidden_is_missing : forall default roles sp id n q, sp id = Some n -> ~ user_may default roles n p_browse ->
  read_value default (Session roles) sp q = read_value default (Session roles) (remove sp id) q.
Proof. exact read_hidden. Qed.
Print Assumptions c53_hidden_is_missing.
(** The values that may be read are. *)
Theorem c53_permitted : forall default roles sp q n v, rq_attr q = 13 -> rq_encoding q = [] -> sp (rq_node q) = Some n -> nd_kind n = KVariable v -> va_reader v = None ->
  user_may default roles n p_browse -> readable v -> user_may default roles n p_read ->
  read_value default (Session roles) sp q =
    match read_range (st_value (va_value v)) (rq_range q) with RVal x => Shown (mkSt x (st_status (va_value v))) | RBad st => Hidden st end.
Proof. exact read_permitted. Qed.
Print Assumptions c53_permitted.
(** The other attributes are those of the node class. *)
Theorem c53_attributes : forall default roles sp q n, rq_attr q <> 13 -> rq_attr q <> 24 -> rq_encoding q = [] -> rq_range q = [] -> sp (rq_node q) = Some n -> user_may default roles n p_browse ->
  (exists s, read_value default (Session roles) sp q = Shown s) <-> has_attribute (nd_kind n) (rq_attr q).
Proof. exact read_attributes. Qed.
Print Assumptions c53_attributes.
Theorem c53_role_permissions : forall default roles sp q n, rq_attr q = 24 -> rq_encoding q = [] -> rq_range q = [] -> sp (rq_node q) = Some n -> user_may default roles n p_browse ->
  (exists s, read_value default (Session roles) sp q = Shown s) <-> user_may default roles n p_read_role_permissions.
Proof. exact read_role_permissions. Qed.
Print Assumptions c53_role_permissions.

(** * C54: Write changes only what the user may change *)
(** Success, a crash or a change need permission. *)
Theorem c54_only_permitted : forall default vt lim who sp q r sp', write_value default vt lim who sp q = (r, sp') -> r = Done 0 \/ r = Crashed \/ sp' <> sp -> allowed default who sp q.
Proof. exact write_allowed. Qed.
Print Assumptions c54_only_permitted.
Theorem c54_refused_unchanged : forall default vt lim who sp q st sp', write_value default vt lim who sp q = (Done st, sp') -> st <> 0 -> sp' = sp.
Proof. exact write_refused. Qed.
Print Assumptions c54_refused_unchanged.
(** No other node, and of this one only the attribute. *)
Theorem c54_nothing_else : forall default vt lim who sp q r sp', write_value default vt lim who sp q = (r, sp') ->
  (forall x, x <> wq_node q -> sp' x = sp x) /\
  (sp' = sp \/ exists n n', sp (wq_node q) = Some n /\ sp' (wq_node q) = Some n' /\ same_but (wq_attr q) n n').
Proof. exact write_frame. Qed.
Print Assumptions c54_nothing_else.
Theorem c54_hidden_is_missing : forall default vt lim roles sp id n q, sp id = Some n -> ~ user_may default roles n p_browse -> wq_node q = id ->
  write_value default vt lim (Session roles) sp q = (Done 0x80340000, sp) /\
  write_value default vt lim (Session roles) (remove sp id) q = (Done 0x80340000, remove sp id).
Proof. exact write_hidden. Qed.
Print Assumptions c54_hidden_is_missing.
(** Type and rank, for values other than null, matrices, DataValues and DiagnosticInfos. *)
Theorem c54_type_partial : forall default vt lim who sp q sp', write_value default vt lim who sp q = (Done 0, sp') -> wq_attr q = 13 -> plain (st_value (wq_value q)) ->
  exists n v x, sp (wq_node q) = Some n /\ nd_kind n = KVariable v /\ same_bytes (st_value (wq_value q)) x /\ fits (vt (va_type v)) (va_rank v) x /\ within lim x.
Proof. exact write_typed. Qed.
Print Assumptions c54_type_partial.
(** What is stored. *)
Theorem c54_stored : forall default vt lim who sp q sp' n v, write_value default vt lim who sp q = (Done 0, sp') -> wq_attr q = 13 -> sp (wq_node q) = Some n -> nd_kind n = KVariable v -> va_writer v = None ->
  exists x r n' v', same_bytes (st_value (wq_value q)) x /\ write_range (st_value (va_value v)) x (wq_range q) = WrVal r /\
    sp' (wq_node q) = Some n' /\ nd_kind n' = KVariable v' /\ va_value v' = mkSt r (st_status (wq_value q)).
Proof. exact write_stores. Qed.
Print Assumptions c54_stored.
(** What may be written is. *)
Theorem c54_permitted : forall default vt lim roles sp q n v, wq_attr q = 13 -> sp (wq_node q) = Some n -> nd_kind n = KVariable v -> user_may default roles n p_browse -> writable v -> user_may default roles n p_write ->
  va_writer v = None -> va_historizing v = false -> wq_range q = [] -> plain (st_value (wq_value q)) ->
  fits (vt (va_type v)) (va_rank v) (st_value (wq_value q)) -> within lim (st_value (wq_value q)) ->
  exists sp' n' v', write_value default vt lim (Session roles) sp q = (Done 0, sp') /\ sp' (wq_node q) = Some n' /\ nd_kind n' = KVariable v' /\ va_value v' = wq_value q.
Proof. exact write_permitted. Qed.
Print Assumptions c54_permitted.
Theorem c54_bytes_as_array : forall default vt lim roles sp q n v s, wq_attr q = 13 -> sp (wq_node q) = Some n -> nd_kind n = KVariable v -> user_may default roles n p_browse -> writable v -> user_may default roles n p_write ->
  va_writer v = None -> va_historizing v = false -> wq_range q = [] ->
  vt (va_type v) = 3 -> va_rank v = 1 -> st_value (wq_value q) = GBlob s -> Z.of_nat (length s) <= lm_array lim ->
  exists sp' n' v', write_value default vt lim (Session roles) sp q = (Done 0, sp') /\ sp' (wq_node q) = Some n' /\ nd_kind n' = KVariable v' /\ va_value v' = mkSt (GArr 3 (map Z_of_byte s)) (st_status (wq_value q)).
Proof. exact write_bytes_as_array. Qed.
Print Assumptions c54_bytes_as_array.
Theorem c54_array_as_bytes : forall default vt lim roles sp q n v l, wq_attr q = 13 -> sp (wq_node q) = Some n -> nd_kind n = KVariable v -> user_may default roles n p_browse -> writable v -> user_may default roles n p_write ->
  va_writer v = None -> va_historizing v = false -> wq_range q = [] ->
  vt (va_type v) = 15 -> va_rank v = -1 -> st_value (wq_value q) = GArr 3 l -> Z.of_nat (length l) <= lm_blob lim ->
  exists sp' n' v', write_value default vt lim (Session roles) sp q = (Done 0, sp') /\ sp' (wq_node q) = Some n' /\ nd_kind n' = KVariable v' /\ va_value v' = mkSt (GBlob (map byte_of_Z l)) (st_status (wq_value q)).
Proof. exact write_array_as_bytes. Qed.
Print Assumptions c54_array_as_bytes.
Theorem c54_historizing : forall default vt lim roles sp q n v c, wq_attr q = 20 -> sp (wq_node q) = Some n -> nd_kind n = KVariable v -> user_may default roles n p_browse -> user_may default roles n p_write_historizing ->
  st_value (wq_value q) = GScalar 1 c ->
  exists sp' n' v', write_value default vt lim (Session roles) sp q = (Done 0, sp') /\ sp' (wq_node q) = Some n' /\ nd_kind n' = KVariable v' /\ va_historizing v' = negb (c =? 0).
Proof. exact write_historizing. Qed.
Print Assumptions c54_historizing.
(** Null goes into any variable, a matrix into any that is not a scalar, whatever their types; a
    DataValue into ExtensionObjects but not into DataValues; a String into a Number. *)
Theorem c54_null_refuted : forall default vt lim roles sp n v id status, sp id = Some n -> nd_kind n = KVariable v -> user_may default roles n p_browse -> writable v ->
  user_may default roles n p_write -> va_writer v = None -> va_historizing v = false ->
  exists sp' n' v', write_value default vt lim (Session roles) sp (mkWrite id 13 [] (mkSt GNil status)) = (Done 0, sp') /\
    sp' id = Some n' /\ nd_kind n' = KVariable v' /\ va_value v' = mkSt GNil status.
Proof. exact null_anywhere. Qed.
Print Assumptions c54_null_refuted.
Theorem c54_matrix_refuted : forall default vt lim roles sp n v id t els status, sp id = Some n -> nd_kind n = KVariable v -> user_may default roles n p_browse -> writable v ->
  user_may default roles n p_write -> va_writer v = None -> va_historizing v = false -> va_rank v <> -1 ->
  exists sp' n' v', write_value default vt lim (Session roles) sp (mkWrite id 13 [] (mkSt (GMatrix t els) status)) = (Done 0, sp') /\
    sp' id = Some n' /\ nd_kind n' = KVariable v' /\ va_value v' = mkSt (GMatrix t els) status.
Proof. exact matrix_anywhere. Qed.
Print Assumptions c54_matrix_refuted.
Theorem c54_data_value_refuted : forall lim dest rank c, check_value lim dest rank (GScalar 23 c) = 0 <-> (dest = 22 \/ dest = 24) /\ fits_rank rank 0.
Proof. exact data_value_types. Qed.
Print Assumptions c54_data_value_refuted.
Theorem c54_abstract_refuted : exists sp, derived sp 26 24 /\ find_variant 2 sp (Some 26) = Some 24 /\
  forall lim s, Z.of_nat (length s) <= lm_string lim -> check_value lim 24 (-1) (GText s) = 0.
Proof. exact abstract_any. Qed.
Print Assumptions c54_abstract_refuted.

(** * C55: Browse shows only permitted references *)
(** [picks P l out]: [out] are the elements of [l] with [P], in order. *)
Theorem c55_exact_partial : forall default roles sp q,
  match browse default roles sp q with
  | Refs ds => exists n out, 0 <= bq_direction q <= 2 /\ sp (bq_node q) = Some n /\ user_may default roles n p_browse /\
      (forall t, bq_type q = Some t -> exists tn, sp t = Some tn /\ nd_kind tn = KReferenceType) /\
      picks (wanted default roles sp q) (nd_refs n) out /\ Forall2 (describes sp (bq_mask q)) out ds
  | BrowseBad st =>
      (st = 0x804D0000 /\ ~ 0 <= bq_direction q <= 2) \/
      (st = 0x80340000 /\ forall n, sp (bq_node q) = Some n -> ~ user_may default roles n p_browse) \/
      (st = 0x804C0000 /\ exists t, bq_type q = Some t /\ forall tn, sp t = Some tn -> nd_kind tn <> KReferenceType) \/
      (st = 0x80340000 /\ exists n r, sp (bq_node q) = Some n /\ In r (nd_refs n) /\ follows q sp r /\ sp (rf_target r) = None)
  end.
Proof. exact browse_outcome. Qed.
Print Assumptions c55_exact_partial.
Theorem c55_complete_partial : forall default roles sp q n, 0 <= bq_direction q <= 2 -> sp (bq_node q) = Some n -> user_may default roles n p_browse ->
  (forall t, bq_type q = Some t -> exists tn, sp t = Some tn /\ nd_kind tn = KReferenceType) ->
  (forall r, In r (nd_refs n) -> follows q sp r -> sp (rf_target r) <> None) ->
  exists out ds, browse default roles sp q = Refs ds /\ picks (wanted default roles sp q) (nd_refs n) out /\ Forall2 (describes sp (bq_mask q)) out ds.
Proof. exact browse_complete. Qed.
Print Assumptions c55_complete_partial.
(** One reference to a node that is gone, and nothing is shown. *)
Theorem c55_dangling_refuted : forall default roles sp q n r, 0 <= bq_direction q <= 2 -> sp (bq_node q) = Some n -> user_may default roles n p_browse ->
  (forall t, bq_type q = Some t -> exists tn, sp t = Some tn /\ nd_kind tn = KReferenceType) ->
  In r (nd_refs n) -> follows q sp r -> sp (rf_target r) = None -> browse default roles sp q = BrowseBad 0x80340000.
Proof. exact browse_dangling. Qed.
Print Assumptions c55_dangling_refuted.

(** * C56: methods run only with Call permission *)
Theorem c56_exact : forall default roles sp object method h, call default roles sp object method = Run h <->
  exists n1 n2, sp object = Some n1 /\ (nd_kind n1 = KObject \/ nd_kind n1 = KObjectType) /\ user_may default roles n1 p_browse /\
    sp method = Some n2 /\ nd_kind n2 = KMethod true (Some h) /\ user_may default roles n2 p_browse /\ user_may default roles n2 p_call.
Proof. exact call_spec. Qed.
Print Assumptions c56_exact.

(** * C77: methods are called on their objects *)
Theorem c77_any_object_refuted : forall default roles sp object object' method h n, call default roles sp object method = Run h ->
  sp object' = Some n -> nd_kind n = KObject -> user_may default roles n p_browse -> call default roles sp object' method = Run h.
Proof. exact call_anywhere. Qed.
Print Assumptions c77_any_object_refuted.
Theorem c77_stranger_refuted : exists default roles sp object method h n, sp object = Some n /\ (forall r, In r (nd_refs n) -> rf_target r <> method) /\
  call default roles sp object method = Run h.
Proof. exact call_stranger. Qed.
Print Assumptions c77_stranger_refuted.

(** * C57: history is protected like values *)
Theorem c57_unprotected_refuted : forall (result : Type) (historian : list Z -> result) who sp nodes, history_read historian who sp nodes = historian nodes.
Proof. exact history_unprotected. Qed.
Print Assumptions c57_unprotected_refuted.
Theorem c57_witness_refuted : exists (sp : space) n roles default, sp 1004 = Some n /\ ~ user_may default roles n p_read_history /\
  history_read (fun l : list Z => l) (Session roles) sp [1004] = [1004].
Proof. exact history_witness. Qed.
Print Assumptions c57_witness_refuted.

(** * C58: roles are granted exactly by the matching rules *)
(** Never too many roles; all of them if no rule excludes the application or the endpoint. *)
Theorem c58_sound : forall thumbprint rules id app ep rs r, get_roles thumbprint rules id app ep = Some rs -> In r rs -> granted thumbprint rules id app ep r.
Proof. exact roles_sound. Qed.
Print Assumptions c58_sound.
Theorem c58_denied : forall thumbprint rules id app ep, (forall r, ~ granted thumbprint rules id app ep r) -> get_roles thumbprint rules id app ep = None.
Proof. exact roles_denied. Qed.
Print Assumptions c58_denied.
Theorem c58_exact_partial : forall thumbprint rules id app ep, (forall u, In u rules -> open_to u app ep) ->
  match get_roles thumbprint rules id app ep with
  | Some rs => rs <> [] /\ forall r, In r rs <-> granted thumbprint rules id app ep r
  | None => forall r, ~ granted thumbprint rules id app ep r
  end.
Proof. exact roles_exact. Qed.
Print Assumptions c58_exact_partial.
(** A rule that is not for this application or endpoint hides all the rules after it. *)
Theorem c58_stop_refuted : forall thumbprint rules1 u rules2 id app ep, ~ open_to u app ep ->
  get_roles thumbprint (rules1 ++ u :: rules2) id app ep = get_roles thumbprint (rules1 ++ [u]) id app ep.
Proof. exact roles_stop. Qed.
Print Assumptions c58_stop_refuted.
Theorem c58_order_refuted : exists u1 u2 id app ep role, granted (fun b => b) [u1; u2] id app ep role /\
  get_roles (fun b => b) [u1; u2] id app ep = None /\ get_roles (fun b => b) [u2; u1] id app ep = Some [role].
Proof. exact rules_order. Qed.
Print Assumptions c58_order_refuted.
(** The server asks without application and endpoint: including rules never apply, excluding ones
    always. *)
Theorem c58_include_refuted : forall thumbprint rules id app ep rs r, (forall u, In u rules -> ru_role u = r -> (ru_apps_exclude u = false /\ ~ In [] (ru_apps u)) \/ (ru_eps_exclude u = false /\ ~ In [] (ru_eps u))) ->
  session_roles thumbprint rules id app ep = Some rs -> ~ In r rs.
Proof. exact include_never. Qed.
Print Assumptions c58_include_refuted.
Theorem c58_endpoint_refuted : exists u id app ep, (forall role, granted (fun b => b) [u] id app ep role <-> role = 15680) /\ session_roles (fun b => b) [u] id app ep = None.
Proof. exact endpoint_unseen. Qed.
Print Assumptions c58_endpoint_refuted.
Theorem c58_exclude_refuted : exists u id app ep, (forall role, ~ granted (fun b => b) [u] id app ep role) /\ session_roles (fun b => b) [u] id app ep = Some [15680].
Proof. exact exclusion_unseen. Qed.
Print Assumptions c58_exclude_refuted.

(** * C59: effective access never exceeds the node's access level *)
Theorem c59_bits : forall access roles own default k, 0 <= k ->
  Z.testbit (user_access access roles own default) k = true <->
  Z.testbit access k = true /\ roles <> None /\
  (k = 0 -> may (roles_of roles) (match own with Some l => l | None => default end) 5) /\
  (k = 1 -> may (roles_of roles) (match own with Some l => l | None => default end) 6) /\
  (k = 2 -> may (roles_of roles) (match own with Some l => l | None => default end) 7).
Proof. exact access_bits. Qed.
Print Assumptions c59_bits.
Theorem c59_below : forall access roles own default k, 0 <= k -> Z.testbit (user_access access roles own default) k = true -> Z.testbit access k = true.
Proof. exact access_below. Qed.
Print Assumptions c59_below.
Theorem c59_more_roles : forall access rs rs' own default k, 0 <= k -> incl rs rs' -> Z.testbit (user_access access (Some rs) own default) k = true ->
  Z.testbit (user_access access (Some rs') own default) k = true.
Proof. exact access_more. Qed.
Print Assumptions c59_more_roles.
Theorem c59_permissions : forall roles own default p, In p (user_permissions roles own default) <-> In p (match own with Some l => l | None => default end) /\ In (fst p) (roles_of roles).
Proof. exact permissions_exact. Qed.
Print Assumptions c59_permissions.
Theorem c59_permitted : forall roles own default k, 0 <= k -> is_permitted (user_permissions roles own default) (2 ^ k) = true <-> may (roles_of roles) (match own with Some l => l | None => default end) k.
Proof. exact permitted_spec. Qed.
Print Assumptions c59_permitted.
Theorem c59_executable : forall ex roles own default, user_executable ex roles own default = true <-> ex = true /\ may (roles_of roles) (match own with Some l => l | None => default end) 12.
Proof. exact executable_spec. Qed.
Print Assumptions c59_executable.

(** * C78: the default configuration *)
(** Anonymous users have the role Anonymous (15644) and may browse (0), read (5), read history (7) and
    receive events (11). *)
Theorem c78_anonymous_role : forall thumbprint app ep, session_roles thumbprint default_rules IdAnonymous app ep = Some [15644].
Proof. exact default_anonymous. Qed.
Print Assumptions c78_anonymous_role.
Theorem c78_anonymous_permissions : forall k, may [15644] default_permissions k <-> In k [0; 5; 7; 11].
Proof. exact default_anonymous_may. Qed.
Print Assumptions c78_anonymous_permissions.
(** Every other user is also operator and may write (6) and call (12). *)
Theorem c78_authenticated_roles : forall thumbprint id app ep, id <> IdAnonymous -> id <> IdOther -> session_roles thumbprint default_rules id app ep = Some [15656; 15668; 15680].
Proof. exact default_authenticated. Qed.
Print Assumptions c78_authenticated_roles.
Theorem c78_authenticated_permissions : forall k, may [15656; 15668; 15680] default_permissions k <-> In k [0; 5; 6; 7; 11; 12].
Proof. exact default_authenticated_may. Qed.
Print Assumptions c78_authenticated_permissions.
(** Together: what an anonymous user changes or runs has permissions of its own. *)
Theorem c78_anonymous_writes : forall thumbprint app ep vt lim sp q r sp', write_value default_permissions vt lim (Session (session_roles thumbprint default_rules IdAnonymous app ep)) sp q = (r, sp') ->
  sp' <> sp -> exists n l, sp (wq_node q) = Some n /\ nd_perms n = Some l.
Proof. exact anonymous_writes. Qed.
Print Assumptions c78_anonymous_writes.
Theorem c78_anonymous_calls : forall thumbprint app ep sp object method h, call default_permissions (session_roles thumbprint default_rules IdAnonymous app ep) sp object method = Run h ->
  exists n l, sp method = Some n /\ nd_perms n = Some l.
Proof. exact anonymous_calls. Qed.
Print Assumptions c78_anonymous_calls.

(** * C61: index range writes touch only the range *)
(** Two writes to different positions at the same time: each computes its array from the old one, the
    second to be stored undoes the first. *)
Theorem c61_lost_update_refuted : forall w1 w2 old out1 out2, write_range old (fst w1) (snd w1) = WrVal out1 -> write_range old (fst w2) (snd w2) = WrVal out2 ->
  ws_value (wr_run w1 w2 old [Fetch true; Fetch false; Store true; Store false]) = out2.
Proof. exact update_lost. Qed.
Print Assumptions c61_lost_update_refuted.
Theorem c61_lost_witness_refuted : exists old w1 w2 schedule out, snd w1 <> snd w2 /\ wr_run w1 w2 old schedule = mkWriters out None None /\
  (exists both, write_range old (fst w1) (snd w1) = WrVal both /\ exists b, write_range both (fst w2) (snd w2) = WrVal b /\ b <> out) /\
  (forall both, write_range old (fst w2) (snd w2) = WrVal both -> both = out).
Proof. exact lost_update. Qed.
Print Assumptions c61_lost_witness_refuted.

(** * C62: a write request cannot crash the server *)
(** It can in two ways only: *)
Theorem c62_causes_partial : forall default vt lim who sp q sp' n v, write_value default vt lim who sp q = (Crashed, sp') -> sp (wq_node q) = Some n -> nd_kind n = KVariable v ->
  (va_historizing v = true /\ va_historian v = false) \/
  (va_writer v = None /\ wq_range q <> [] /\ exists x, same_bytes (st_value (wq_value q)) x /\ ~ same_kind (st_value (va_value v)) x).
Proof. exact crash_causes. Qed.
Print Assumptions c62_causes_partial.
(** Whoever may write a variable can stop the server: null with a range inside the value. *)
Theorem c62_null_refuted : forall default vt lim roles sp n v id, sp id = Some n -> nd_kind n = KVariable v -> user_may default roles n p_browse -> writable v -> user_may default roles n p_write -> va_writer v = None ->
  forall range d status, spells_all range [d] -> bounded d -> first_of d < element_count (st_value (va_value v)) ->
  fst (write_value default vt lim (Session roles) sp (mkWrite id 13 range (mkSt GNil status))) = Crashed.
Proof. exact null_crashes. Qed.
Print Assumptions c62_null_refuted.
(** Or, a historizing variable without historian: *)
Theorem c62_historizing_refuted : forall default vt lim roles sp n v id, sp id = Some n -> nd_kind n = KVariable v -> user_may default roles n p_browse -> writable v -> user_may default roles n p_write -> va_writer v = None ->
  forall x status, va_historizing v = true -> va_historian v = false -> plain x -> fits (vt (va_type v)) (va_rank v) x -> within lim x ->
  fst (write_value default vt lim (Session roles) sp (mkWrite id 13 [] (mkSt x status))) = Crashed.
Proof. exact historizing_crashes. Qed.
Print Assumptions c62_historizing_refuted.
Theorem c62_two_writes_refuted : exists sp id n v roles default vt lim w1 w2 sp1, sp id = Some n /\ nd_kind n = KVariable v /\ va_historizing v = false /\
  wq_node w1 = id /\ wq_node w2 = id /\ wq_range w2 = [] /\ plain (st_value (wq_value w2)) /\ fits (vt (va_type v)) (va_rank v) (st_value (wq_value w2)) /\
  write_value default vt lim (Session roles) sp w1 = (Done 0, sp1) /\ fst (write_value default vt lim (Session roles) sp1 w2) = Crashed.
Proof. exact crash_in_two. Qed.
Print Assumptions c62_two_writes_refuted.

(** * C79: results are in the order of the operations *)
Theorem c79_order : forall A (none : A) work n order, Permutation order (seq 0 n) -> batch none work n order = map work (seq 0 n).
Proof. exact batch_order. Qed.
Print Assumptions c79_order.
