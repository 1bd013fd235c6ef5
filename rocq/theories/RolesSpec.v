(** What roles and permissions mean (Part 18, 4.4; Part 3, 5.2.9, 5.6.2 and 8.55): independent of
    the functions of the model. *)
From Coq Require Import ZArith List Bool.
From Verif Require Import Bytes Roles.
Import ListNotations.
Open Scope Z_scope.

(** * Who gets a role *)
(** An exclude list admits what it does not list, an include list what it lists. *)
Definition admitted (exclude : bool) (l : list bytes) (x : bytes) : Prop := if exclude then ~ In x l else In x l.
Definition fits_criterion (thumbprint : bytes -> bytes) (id : identity) (c : criterion) : Prop :=
  match id with
  | IdAnonymous => cr_type c = 5
  | IdUserName name => cr_type c = 6 \/ (cr_type c = 1 /\ cr_text c = name)
  | IdX509 cert => cr_type c = 6 \/ (cr_type c = 2 /\ cr_text c = thumbprint cert)
  | IdIssued => cr_type c = 6
  | IdOther => False
  end.
Definition rule_matches (thumbprint : bytes -> bytes) (r : rule) (id : identity) (app ep : bytes) : Prop :=
  admitted (ru_apps_exclude r) (ru_apps r) app /\ admitted (ru_eps_exclude r) (ru_eps r) ep /\
  Exists (fits_criterion thumbprint id) (ru_identities r).
Definition granted (thumbprint : bytes -> bytes) (rules : list rule) (id : identity) (app ep : bytes) (role : Z) : Prop :=
  exists r, In r rules /\ ru_role r = role /\ rule_matches thumbprint r id app ep.
Definition open_to (r : rule) (app ep : bytes) : Prop := admitted (ru_apps_exclude r) (ru_apps r) app /\ admitted (ru_eps_exclude r) (ru_eps r) ep.

(** * What a role may do *)
(** Permission number [k] (0 Browse, 1 ReadRolePermissions, 4 WriteHistorizing, 5 Read, 6 Write,
    7 ReadHistory, 12 Call) *)
Definition may (roles : list Z) (perms : list perm) (k : Z) : Prop :=
  exists role bits, In role roles /\ In (role, bits) perms /\ Z.testbit bits k = true.
Definition roles_of (r : option (list Z)) : list Z := match r with Some l => l | None => [] end.
