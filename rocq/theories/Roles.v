(** Roles and permissions.

    Source: /repo/server/roles_provider.go, UserRolePermissions of the eight node types (the same in
    all: /repo/server/variable_node.go 88-106, method_node.go 76-94), UserAccessLevel
    (variable_node.go 160-196) and UserExecutable (method_node.go 116-136).

    A NodeID is represented by a number; the numeric NodeIDs of namespace 0 by their identifier. *)
From Coq Require Import ZArith List Bool Strings.Byte.
From Verif Require Import Bytes Text.
Import ListNotations.
Open Scope Z_scope.

(** The user identity of a session (ua.AnonymousIdentity, UserNameIdentity, X509Identity,
    IssuedIdentity); [IdOther]: any other Go value, nil among them *)
Inductive identity : Type :=
| IdAnonymous
| IdUserName (name : bytes)
| IdX509 (certificate : bytes)
| IdIssued
| IdOther.
(** ua.IdentityMappingRuleType; enums.generated.go 96-101 *)
Record criterion : Type := mkCrit { cr_type : Z; cr_text : bytes }.
Definition ct_user_name : Z := 1.
Definition ct_thumbprint : Z := 2.
Definition ct_anonymous : Z := 5.
Definition ct_authenticated : Z := 6.
(** IdentityMappingRule 27-39; of an endpoint only its URL is looked at *)
Record rule : Type := mkRule {
  ru_role : Z;
  ru_identities : list criterion;
  ru_apps_exclude : bool;
  ru_apps : list bytes;
  ru_eps_exclude : bool;
  ru_eps : list bytes
}.

Section Provider.
(** fmt.Sprintf("%x", sha1.Sum(certificate)), 190 *)
Variable thumbprint : bytes -> bytes.

(** 146-152, 156-162: the list is searched for [x] *)
Fixpoint listed (exclude : bool) (x : bytes) (l : list bytes) : bool :=
  match l with
  | [] => exclude
  | y :: l' => if bytes_eqb y x then negb exclude else listed exclude x l'
  end.
(** The loop 166-206 over the identities of a rule; None is the error of the default case *)
Fixpoint rule_roles (id : identity) (role : Z) (l : list criterion) : option (list Z) :=
  match l with
  | [] => Some []
  | c :: l' =>
      let one (b : bool) := match rule_roles id role l' with
                            | Some rs => Some (if b then role :: rs else rs)
                            | None => None
                            end in
      match id with
      | IdAnonymous => one (cr_type c =? ct_anonymous)
      | IdUserName name => one ((cr_type c =? ct_authenticated) || ((cr_type c =? ct_user_name) && bytes_eqb (cr_text c) name))
      | IdX509 cert => one ((cr_type c =? ct_authenticated) || ((cr_type c =? ct_thumbprint) && bytes_eqb (cr_text c) (thumbprint cert)))
      | IdIssued => one (cr_type c =? ct_authenticated)
      | IdOther => None
      end
  end.
(** The loop 145-207; the breaks at 154 and 164 leave it *)
Fixpoint all_roles (rules : list rule) (id : identity) (app ep : bytes) : option (list Z) :=
  match rules with
  | [] => Some []
  | r :: rest =>
      if negb (listed (ru_apps_exclude r) app (ru_apps r)) then Some []
      else if negb (listed (ru_eps_exclude r) ep (ru_eps r)) then Some []
      else
        match rule_roles id (ru_role r) (ru_identities r) with
        | None => None
        | Some rs => match all_roles rest id app ep with Some rs' => Some (rs ++ rs') | None => None end
        end
  end.
(** GetRoles 143-212; None is BadUserAccessDenied *)
Definition get_roles (rules : list rule) (id : identity) (app ep : bytes) : option (list Z) :=
  match all_roles rules id app ep with
  | Some [] => None
  | r => r
  end.
(** How the server asks for the roles of a session: variable_node.go 90 and 162, method_node.go 78
    and 120, object_node.go 79 and so on: without application and endpoint *)
Definition session_roles (rules : list rule) (id : identity) (app ep : bytes) : option (list Z) := get_roles rules id [] [].
End Provider.

(** * Permissions *)
(** ua.RolePermissionType: role and permission bits (enums.generated.go 600-617) *)
Definition perm : Type := (Z * Z)%type.
Definition pm_browse : Z := 1.
Definition pm_read_role_permissions : Z := 2.
Definition pm_write_historizing : Z := 16.
Definition pm_read : Z := 32.
Definition pm_write : Z := 64.
Definition pm_read_history : Z := 128.
Definition pm_call : Z := 4096.

(** [roles]: the result of GetRoles; [own]: RolePermissions of the node, None if nil; [default]:
    RolePermissions of the server *)
Definition permissions (own : option (list perm)) (default : list perm) : list perm :=
  match own with Some l => l | None => default end.
Definition grants (role : Z) (p : perm) : bool := fst p =? role.
(** UserRolePermissions.  Variable nodes list the permissions by role (variable_node.go 98-104),
    method nodes the roles by permission (method_node.go 86-92); the order does not matter to any user
    of the list, the model has the former. *)
Definition user_permissions (roles : option (list Z)) (own : option (list perm)) (default : list perm) : list perm :=
  match roles with
  | None => []
  | Some rs => flat_map (fun r => filter (grants r) (permissions own default)) rs
  end.
(** IsUserPermitted 121-128 *)
Definition is_permitted (l : list perm) (bit : Z) : bool := existsb (fun p => negb (Z.land (snd p) bit =? 0)) l.
(** access_levels.go 8-10 *)
Definition al_read : Z := 1.
Definition al_write : Z := 2.
Definition al_history_read : Z := 4.
(** UserAccessLevel.  The flags of 170-185 are those of [is_permitted]. *)
Definition user_access (access : Z) (roles : option (list Z)) (own : option (list perm)) (default : list perm) : Z :=
  match roles with
  | None => 0
  | Some _ =>
      let up := user_permissions roles own default in
      let a := if is_permitted up pm_read then access else Z.ldiff access al_read in
      let a := if is_permitted up pm_write then a else Z.ldiff a al_write in
      if is_permitted up pm_read_history then a else Z.ldiff a al_history_read
  end.
(** UserExecutable *)
Definition user_executable (executable : bool) (roles : option (list Z)) (own : option (list perm)) (default : list perm) : bool :=
  executable && is_permitted (user_permissions roles own default) pm_call.

(** * The configuration of a server without options (server.go 120-121) *)
Definition ro_anonymous : Z := 15644.        (* ua/nodeids.generated.go 6488-6560, 6880 *)
Definition ro_authenticated : Z := 15656.
Definition ro_observer : Z := 15668.
Definition ro_operator : Z := 15680.
Definition ro_supervisor : Z := 15692.
Definition ro_security_admin : Z := 15704.
Definition ro_configure_admin : Z := 15716.
Definition ro_engineer : Z := 16036.
Definition pm_write_attribute : Z := 4.
Definition pm_write_role_permissions : Z := 8.
Definition pm_receive_events : Z := 2048.
Definition any_of (l : list Z) : Z := fold_left Z.lor l 0.
(** DefaultRolePermissions 43-52 *)
Definition default_permissions : list perm :=
  let watch := [pm_browse; pm_read; pm_read_history; pm_receive_events] in
  let operate := [pm_browse; pm_read; pm_write; pm_read_history; pm_receive_events; pm_call] in
  [ (ro_anonymous, any_of watch);
    (ro_authenticated, any_of watch);
    (ro_observer, any_of watch);
    (ro_operator, any_of operate);
    (ro_engineer, any_of (operate ++ [pm_write_historizing]));
    (ro_supervisor, any_of operate);
    (ro_configure_admin, any_of [pm_browse; pm_read; pm_write_attribute]);
    (ro_security_admin, any_of [pm_browse; pm_read_role_permissions; pm_write_role_permissions]) ].
(** DefaultIdentityMappingRules 54-115 *)
Definition default_rules : list rule :=
  let to role ids := mkRule role ids true [] true [] in
  [ to ro_anonymous [mkCrit ct_anonymous []];
    to ro_authenticated [mkCrit ct_authenticated []];
    to ro_observer [mkCrit ct_authenticated []];
    to ro_operator [mkCrit ct_authenticated []];
    to ro_engineer []; to ro_supervisor []; to ro_configure_admin []; to ro_security_admin [] ].
