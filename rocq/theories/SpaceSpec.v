(** What the address space must satisfy (Part 3, 4.3 to 4.5; Part 4, 5.8.4). *)
From Coq Require Import String ZArith List Bool.
From Verif Require Import Bytes IndexRange Roles Nodes AccessSpec Translate.
Import ListNotations.
Open Scope Z_scope.

(** * References *)
Definition present (sp : space) (id : Z) : Prop := sp id <> None.
Definition has_ref (sp : space) (a ty : Z) (inverse : bool) (b : Z) : Prop := exists n, sp a = Some n /\ In (mkRef ty inverse b) (nd_refs n).
(** HasTypeDefinition and HasModellingRule may be one-way. *)
Definition two_way (ty : Z) : Prop := ty <> 40 /\ ty <> 37.
(** Every reference between two nodes is visible from both ends. *)
Definition bidirectional (sp : space) : Prop := forall a b ty inverse, two_way ty -> present sp b -> has_ref sp a ty inverse b -> has_ref sp b ty (negb inverse) a.
(** No reference leads to a missing node. *)
Definition no_dangling (sp : space) : Prop := forall a b ty inverse, two_way ty -> has_ref sp a ty inverse b -> present sp b.
(** The two nodes differ at most in their references. *)
Definition same_node (n n' : node) : Prop := nd_kind n' = nd_kind n /\ nd_perms n' = nd_perms n /\ nd_name n' = nd_name n /\ nd_attr n' = nd_attr n.

(** * Histories *)
Inductive change : Type := Add (l : list (Z * node)) | Delete (id : Z) (with_children : bool).
(** A batch of new nodes that refer to each other and to what is there *)
Definition complete_batch (sp : space) (l : list (Z * node)) : Prop :=
  NoDup (map fst l) /\ (forall id n, In (id, n) l -> sp id = None) /\
  forall id n ty inverse b, In (id, n) l -> two_way ty -> In (mkRef ty inverse b) (nd_refs n) -> present sp b \/ In b (map fst l).
(** One step; an operation that does not return has no result *)
Inductive changes (sp : space) : change -> space -> Prop :=
| ChangeAdd l : complete_batch sp l -> changes sp (Add l) (add_nodes sp l)
| ChangeDelete id deep sp' turns : delete_node turns sp id deep = Some sp' -> changes sp (Delete id deep) sp'.
Inductive history : space -> list change -> space -> Prop :=
| HistoryNil sp : history sp [] sp
| HistoryCons sp c sp1 l sp2 : changes sp c sp1 -> history sp1 l sp2 -> history sp (c :: l) sp2.
Definition nothing : space := fun _ => None.

(** * Children *)
Definition child (sp : space) (types : option (list Z)) (a b : Z) : Prop :=
  exists ty, has_ref sp a ty false b /\ (forall l, types = Some l -> In ty l) /\ present sp b.
Inductive below (sp : space) (types : option (list Z)) (a : Z) : Z -> Prop :=
| Below1 b : child sp types a b -> below sp types a b
| BelowS b c : below sp types a b -> child sp types b c -> below sp types a c.
(** No infinite path starts at the node *)
Definition finite_below (sp : space) (types : option (list Z)) (a : Z) : Prop := Acc (fun y x => child sp types x y) a.
(** One reference to each node, at most *)
Definition forward_to (types : option (list Z)) (b : Z) (r : reference) : bool :=
  negb (rf_inverse r) && match types with None => true | Some l => existsb (Z.eqb (rf_type r)) l end && (rf_target r =? b).
Definition references_to (sp : space) (types : option (list Z)) (a b : Z) : nat :=
  match sp a with Some n => List.length (filter (forward_to types b) (nd_refs n)) | None => O end.
Definition tree (sp : space) (types : option (list Z)) : Prop :=
  (forall a a' b, child sp types a b -> child sp types a' b -> a = a') /\ (forall a b, (references_to sp types a b <= 1)%nat).

(** * Namespaces *)
Definition standard_namespace : bytes := String.list_byte_of_string "http://opcfoundation.org/UA/"%string.
Definition index_of (table : list bytes) (i : Z) (uri : bytes) : Prop := 0 <= i /\ nth_error table (Z.to_nat i) = Some uri.

(** * Browse paths *)
(** The reference [r] of some node matches the path element. *)
Definition on_path (sp : space) (e : element) (r : reference) : Prop :=
  rf_inverse r = el_inverse e /\
  match el_type e with None => True | Some t => rf_type r = t \/ (el_subtypes e = true /\ derived sp (rf_type r) t) end /\
  exists n, sp (rf_target r) = Some n /\ nd_name n = el_name e.
Definition leads (sp : space) (a : Z) (e : element) (b : Z) : Prop := exists n r, sp a = Some n /\ In r (nd_refs n) /\ on_path sp e r /\ rf_target r = b.
(** [b] is a target of the path from [a]. *)
Inductive reached (sp : space) : Z -> list element -> Z -> Prop :=
| ReachedLast a e b : leads sp a e b -> reached sp a [e] b
| ReachedMore a e c els b : els <> [] -> leads sp a e c -> reached sp c els b -> reached sp a (e :: els) b.
(** Never a choice before the last element *)
Inductive unambiguous (sp : space) : Z -> list element -> Prop :=
| UnamLast a e : unambiguous sp a [e]
| UnamMore a e els : (forall c c', leads sp a e c -> leads sp a e c' -> c = c') -> (forall c, leads sp a e c -> unambiguous sp c els) -> unambiguous sp a (e :: els).

(** * Built-in types *)
(** The built-in type a type is derived from (Part 3, 8; Part 6, 5.1.2): the built-in types are
    numbered from 1 to 25, Enumeration (29) is transmitted as Int32 (6), 0 is none. *)
Inductive built_in (sp : space) : Z -> Z -> Prop :=
| BuiltInItself t : 1 <= t <= 25 -> built_in sp t t
| BuiltInEnum : built_in sp 29 6
| BuiltInDerived t u v : ~ 1 <= t <= 25 -> t <> 29 -> first_super sp t u -> built_in sp u v -> built_in sp t v
| BuiltInNone t : ~ 1 <= t <= 25 -> t <> 29 -> (forall u, ~ first_super sp t u) -> built_in sp t 0.

(** * Events *)
(** The first notifier of a node *)
Inductive first_notifier (n : node) (b : Z) : Prop :=
| FirstNotifier l1 l2 r : nd_refs n = l1 ++ r :: l2 -> rf_inverse r = true -> rf_type r = 48 -> rf_target r = b ->
    (forall x, In x l1 -> ~ (rf_inverse x = true /\ rf_type x = 48)) -> first_notifier n b.
Definition object (sp : space) (b : Z) (n : node) : Prop := sp b = Some n /\ nd_kind n = KObject.
(** The nodes that raise the event, starting with [a] (which is an object), and the status *)
Inductive raised (sp : space) : Z -> node -> list Z -> Z -> Prop :=
| RaisedServer n : raised sp 2253 n [2253] 0
| RaisedTop a n : a <> 2253 -> (forall b, ~ first_notifier n b) -> raised sp a n [a] 0
| RaisedLost a n b : a <> 2253 -> first_notifier n b -> (forall m, ~ object sp b m) -> raised sp a n [a] 0x80340000
| RaisedUp a n b m l st : a <> 2253 -> first_notifier n b -> object sp b m -> raised sp b m l st -> raised sp a n (a :: l) st.
(** [b] is a notifier of [a]: events of [a] are also events of [b] (Part 3, 7.16). *)
Definition notifies (sp : space) (a b : Z) : Prop := has_ref sp a 48 true b /\ exists m, object sp b m.
Inductive notified (sp : space) (a : Z) : Z -> Prop :=
| NotifiedSelf : notified sp a a
| NotifiedUp b c : notified sp a b -> b <> 2253 -> notifies sp b c -> notified sp a c.
