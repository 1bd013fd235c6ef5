(** What the services on nodes must do (Part 4, 5.8, 5.10 and 5.11; Part 3, 5 and 8.55). *)
From Coq Require Import ZArith List Bool.
From Verif Require Import Bytes IndexRange Roles RolesSpec Nodes NodeAccess.
Import ListNotations.
Open Scope Z_scope.

(** * Permissions *)
(** The user with these roles has permission number [k] on the node; a node without permissions of its
    own has those of the server. *)
Definition user_may (default : list perm) (roles : option (list Z)) (n : node) (k : Z) : Prop :=
  may (roles_of roles) (match nd_perms n with Some l => l | None => default end) k.
Definition p_browse : Z := 0.
Definition p_read_role_permissions : Z := 1.
Definition p_write_historizing : Z := 4.
Definition p_read : Z := 5.
Definition p_write : Z := 6.
Definition p_read_history : Z := 7.
Definition p_call : Z := 12.
(** Access level bits *)
Definition readable (v : vardata) : Prop := Z.testbit (va_access v) 0 = true.
Definition writable (v : vardata) : Prop := Z.testbit (va_access v) 1 = true.

(** * Attributes of the node classes (Part 3, tables 4 to 15) that the server has *)
Definition has_attribute (k : kind) (a : Z) : Prop :=
  1 <= a <= 5 \/ a = 24 \/ a = 25 \/
  match k with
  | KObject => a = 12
  | KVariable _ => 13 <= a <= 20
  | KMethod _ _ => a = 21 \/ a = 22
  | KObjectType => a = 8
  | KVariableType => a = 8 \/ 14 <= a <= 16
  | KReferenceType => 8 <= a <= 10
  | KDataType d => a = 8 \/ (a = 23 /\ d <> None)
  | KView => a = 11 \/ a = 12
  end.

(** * Values *)
(** Built-in type and number of dimensions of a value, where it has one *)
Definition type_and_dims (v : gval) : option (Z * Z) :=
  match v with
  | GScalar t _ => Some (t, 0)
  | GText _ => Some (12, 0)
  | GBlob _ => Some (15, 0)
  | GArr t _ => Some (t, 1)
  | GTexts _ => Some (12, 1)
  | GBlobs _ => Some (15, 1)
  | _ => None
  end.
(** A value with [n] dimensions fits a value rank (Part 3, 5.6.2): -2 any, -3 scalar or one
    dimension, -1 scalar, 0 one or more dimensions, otherwise the number of dimensions. *)
Definition fits_rank (rank n : Z) : Prop :=
  rank = -2 \/ (rank = -3 /\ n <= 1) \/ (rank = -1 /\ n = 0) \/ (rank = 0 /\ 1 <= n) \/ (1 <= rank /\ n = rank).
(** 24 is BaseDataType, which every value has *)
Definition fits (dest rank : Z) (v : gval) : Prop :=
  exists t n, type_and_dims v = Some (t, n) /\ (dest = t \/ dest = 24) /\ fits_rank rank n.
(** Values for which the check of the code is the right one: no null, matrix, DataValue or
    DiagnosticInfo *)
Definition plain (v : gval) : Prop :=
  match v with
  | GScalar t _ => t <> 23 /\ t <> 25
  | GArr t _ => t <> 25
  | GText _ | GBlob _ | GTexts _ | GBlobs _ => True
  | _ => False
  end.
(** A ByteString may be written to a Byte array and the other way round. *)
Definition same_bytes (v w : gval) : Prop :=
  v = w \/ (exists s, v = GBlob s /\ w = GArr 3 (map Z_of_byte s)) \/ (exists l, v = GArr 3 l /\ w = GBlob (map byte_of_Z l)).
Definition within (lim : limits) (v : gval) : Prop :=
  match v with
  | GText s => Z.of_nat (length s) <= lm_string lim
  | GBlob s => Z.of_nat (length s) <= lm_blob lim
  | GArr _ l => Z.of_nat (length l) <= lm_array lim
  | GTexts l | GBlobs l => Z.of_nat (length l) <= lm_array lim
  | _ => True
  end.

(** * Types *)
(** [b] is the supertype of [a]: the first in its references *)
Inductive first_super (sp : space) (a b : Z) : Prop :=
| FirstSuper n l1 l2 r : sp a = Some n -> nd_refs n = l1 ++ r :: l2 -> rf_inverse r = true -> rf_type r = 45 -> rf_target r = b ->
    (forall x, In x l1 -> ~ (rf_inverse x = true /\ rf_type x = 45)) -> first_super sp a b.
(** some supertype *)
Definition some_super (sp : space) (a b : Z) : Prop :=
  exists n r, sp a = Some n /\ In r (nd_refs n) /\ rf_inverse r = true /\ rf_type r = 45 /\ rf_target r = b.
Inductive steps {A} (R : A -> A -> Prop) : nat -> A -> A -> Prop :=
| Steps0 a : steps R O a a
| StepsS k a b c : R a b -> steps R k b c -> steps R (S k) a c.
Definition derived (sp : space) (a b : Z) : Prop := exists k, (1 <= k <= 101)%nat /\ steps (first_super sp) k a b.

(** * Browse *)
(** [out] are the elements of [l] with [P], in their order *)
Inductive picks {A} (P : A -> Prop) : list A -> list A -> Prop :=
| PicksNil : picks P [] []
| PicksTake x l out : P x -> picks P l out -> picks P (x :: l) (x :: out)
| PicksSkip x l out : ~ P x -> picks P l out -> picks P (x :: l) out.
Definition follows (q : browse_req) (sp : space) (r : reference) : Prop :=
  (bq_direction q = 2 \/ (bq_direction q = 0 /\ rf_inverse r = false) \/ (bq_direction q = 1 /\ rf_inverse r = true)) /\
  match bq_type q with
  | None => True
  | Some t => rf_type r = t \/ (bq_subtypes q = true /\ derived sp (rf_type r) t)
  end.
Definition class_bit (k : kind) : Z :=
  match k with
  | KObject => 0 | KVariable _ => 1 | KMethod _ _ => 2 | KObjectType => 3
  | KVariableType => 4 | KReferenceType => 5 | KDataType _ => 6 | KView => 7
  end.
Definition wanted (default : list perm) (roles : option (list Z)) (sp : space) (q : browse_req) (r : reference) : Prop :=
  follows q sp r /\
  exists t, sp (rf_target r) = Some t /\ user_may default roles t p_browse /\
    (bq_classes q = 0 \/ Z.testbit (bq_classes q) (class_bit (nd_kind t)) = true).
(** the description has the fields of the mask *)
Definition describes (sp : space) (mask : Z) (r : reference) (d : described) : Prop :=
  exists t, sp (rf_target r) = Some t /\ ds_target d = rf_target r /\
    ds_type d = (if Z.testbit mask 0 then Some (rf_type r) else None) /\
    ds_forward d = (Z.testbit mask 1 && negb (rf_inverse r)) /\
    ds_class d = (if Z.testbit mask 2 then 2 ^ class_bit (nd_kind t) else 0) /\
    ds_name d = (if Z.testbit mask 3 then Some (nd_name t) else None) /\
    ds_display d = (if Z.testbit mask 4 then Some (nd_attr t 4) else None) /\
    (forall id, ds_definition d = Some id ->
      Z.testbit mask 5 = true /\ class_bit (nd_kind t) <= 1 /\ exists x, In x (nd_refs t) /\ rf_type x = 40 /\ rf_target x = id) /\
    (Z.testbit mask 5 = true -> class_bit (nd_kind t) <= 1 -> (exists x, In x (nd_refs t) /\ rf_type x = 40) -> ds_definition d <> None).

(** * Write *)
Definition allowed (default : list perm) (who : caller) (sp : space) (q : write_req) : Prop :=
  exists roles n v, who = Session roles /\ sp (wq_node q) = Some n /\ nd_kind n = KVariable v /\ user_may default roles n p_browse /\
    ((wq_attr q = 13 /\ writable v /\ user_may default roles n p_write) \/ (wq_attr q = 20 /\ user_may default roles n p_write_historizing)).
(** What may differ between a node before and after a write *)
Definition same_but (attr : Z) (n n' : node) : Prop :=
  nd_perms n' = nd_perms n /\ nd_refs n' = nd_refs n /\ nd_name n' = nd_name n /\ nd_attr n' = nd_attr n /\
  exists v v', nd_kind n = KVariable v /\ nd_kind n' = KVariable v' /\ va_type v' = va_type v /\ va_rank v' = va_rank v /\ va_access v' = va_access v /\
    va_historian v' = va_historian v /\ va_reader v' = va_reader v /\ va_writer v' = va_writer v /\
    (attr = 13 -> va_historizing v' = va_historizing v) /\ (attr = 20 -> va_value v' = va_value v).
