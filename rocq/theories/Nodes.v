(** Nodes and the address space.

    Source: /repo/server/namespace_manager.go (73-78, 147-284, 348-598) and the
    node types of /repo/server.  A NodeID is represented by a number; the numeric NodeIDs of
    namespace 0 by their identifier.  Targets of references are NodeIDs (ua.ToNodeID belongs to the
    namespace table). *)
From Coq Require Import ZArith List Bool.
From Verif Require Import Bytes IndexRange Roles.
Import ListNotations.
Open Scope Z_scope.

(** ua.Reference *)
Record reference : Type := mkRef { rf_type : Z; rf_inverse : bool; rf_target : Z }.
(** ua.DataValue without timestamps *)
Record stored : Type := mkSt { st_value : gval; st_status : Z }.
(** VariableNode (variable_node.go 10-31).  [va_historian]: the historian is not nil.  The handlers
    are code of the user of the library. *)
Record vardata : Type := mkVar {
  va_value : stored;
  va_type : Z;
  va_rank : Z;
  va_access : Z;
  va_historizing : bool;
  va_historian : bool;
  va_reader : option (bytes -> stored);                    (* readValueHandler, given the index range *)
  va_writer : option (stored -> bytes -> stored * Z)       (* writeValueHandler, given value and index range *)
}.
(** The eight node types; [handler] of a method is a name for callMethodHandler. *)
Inductive kind : Type :=
| KObject | KVariable (v : vardata) | KMethod (executable : bool) (handler : option Z) | KObjectType
| KVariableType | KReferenceType | KDataType (definition : option gval) | KView.
(** enums.generated.go 559-566 *)
Definition class_of (k : kind) : Z :=
  match k with
  | KObject => 1 | KVariable _ => 2 | KMethod _ _ => 4 | KObjectType => 8
  | KVariableType => 16 | KReferenceType => 32 | KDataType _ => 64 | KView => 128
  end.
(** [nd_attr]: the attributes without special rules, by number *)
Record node : Type := mkNode { nd_kind : kind; nd_perms : option (list perm); nd_refs : list reference; nd_name : Z; nd_attr : Z -> gval }.
Definition set_refs (n : node) (l : list reference) : node := mkNode (nd_kind n) (nd_perms n) l (nd_name n) (nd_attr n).
Definition set_kind (n : node) (k : kind) : node := mkNode k (nd_perms n) (nd_refs n) (nd_name n) (nd_attr n).

(** NamespaceManager.nodes *)
Definition space : Type := Z -> option node.
Definition put (sp : space) (id : Z) (n : node) : space := fun x => if x =? id then Some n else sp x.
Definition remove (sp : space) (id : Z) : space := fun x => if x =? id then None else sp x.

Definition has_modelling_rule : Z := 37.     (* ua/nodeids.generated.go 45-55 *)
Definition has_type_definition : Z := 40.
Definition has_subtype : Z := 45.
Definition has_property : Z := 46.
Definition has_component : Z := 47.
Definition has_notifier : Z := 48.
Definition has_ordered_component : Z := 49.

(** * Types *)
(** FindSuperType 171-180: the first *)
Definition is_super (r : reference) : bool := rf_inverse r && (rf_type r =? has_subtype).
Definition super_type (sp : space) (id : Z) : option Z :=
  match sp id with
  | None => None
  | Some n => match find is_super (nd_refs n) with Some r => Some (rf_target r) | None => None end
  end.
(** IsSubtype 147-168; [turns] is what is left of the 101 turns of the loop *)
Fixpoint subtype_turns (turns : nat) (sp : space) (id super : Z) : bool :=
  match turns with
  | O => false
  | S k => match super_type sp id with
           | None => false
           | Some t => if super =? t then true else subtype_turns k sp t super
           end
  end.
Definition is_subtype (sp : space) (sub super : Z) : bool := subtype_turns 101 sp sub super.
(** The switch 193-275: the built-in types are their own NodeIDs, Enumeration is Int32 *)
Definition builtin (t : Z) : option Z :=
  if (1 <=? t) && (t <=? 25) then Some t else if t =? 29 then Some 6 else None.
(** FindVariantType 183-283 without the table of earlier answers; None: still searching *)
Fixpoint find_variant (turns : nat) (sp : space) (t : option Z) : option Z :=
  match turns with
  | O => None
  | S k => match t with
           | None => Some 0
           | Some t => match builtin t with Some vt => Some vt | None => find_variant k sp (super_type sp t) end
           end
  end.

(** * Adding nodes *)
Definition one_way (ty : Z) : bool := (ty =? has_type_definition) || (ty =? has_modelling_rule).
(** 356-378: the reference [r] of the node [id]; a missing target is only logged *)
Definition counterpart (id : Z) (r tr : reference) : bool :=
  (rf_type tr =? rf_type r) && negb (Bool.eqb (rf_inverse tr) (rf_inverse r)) && (rf_target tr =? id).
Definition add_inverse (id : Z) (sp : space) (r : reference) : space :=
  if one_way (rf_type r) then sp
  else match sp (rf_target r) with
       | None => sp
       | Some t =>
           if existsb (counterpart id r) (nd_refs t) then sp
           else put sp (rf_target r) (set_refs t (nd_refs t ++ [mkRef (rf_type r) (negb (rf_inverse r)) id]))
       end.
(** 353-380: the references are those the node has when its turn comes.  The model takes them from the
    address space, the code from the node it was given: the same unless one call has two nodes with one
    NodeID. *)
Definition add_one (sp : space) (id : Z) : space :=
  match sp id with None => sp | Some n => fold_left (add_inverse id) (nd_refs n) sp end.
(** addNodes 348-382 *)
Definition insert_all (sp : space) (l : list (Z * node)) : space := fold_left (fun s p => put s (fst p) (snd p)) l sp.
Definition add_nodes (sp : space) (l : list (Z * node)) : space := fold_left add_one (map fst l) (insert_all sp l).

(** * Deleting nodes *)
(** 422-440 *)
Definition drop_inverse (id : Z) (sp : space) (r : reference) : space :=
  if one_way (rf_type r) then sp
  else match sp (rf_target r) with
       | None => sp
       | Some t => put sp (rf_target r) (set_refs t (filter (fun tr => negb (counterpart id r tr)) (nd_refs t)))
       end.
(** deleteNodeandInverseReferences 419-444.  A node that is no longer in the address space (it was
    listed twice) has no counterparts left: nothing happens. *)
Definition delete_one (sp : space) (id : Z) : space :=
  match sp id with None => sp | Some n => remove (fold_left (drop_inverse id) (nd_refs n) sp) id end.

(** * Children *)
Definition child_types : list Z := [has_component; has_property; has_subtype; has_ordered_component].    (* 22 *)
(** The targets a node adds to the queue, 588-595; [types] None is nil *)
Definition next_of (sp : space) (types : option (list Z)) (n : node) : list Z :=
  flat_map (fun r =>
    if negb (rf_inverse r) && match types with None => true | Some l => existsb (Z.eqb (rf_type r)) l end
    then match sp (rf_target r) with Some _ => [rf_target r] | None => [] end
    else []) (nd_refs n).
Definition targets (sp : space) (types : option (list Z)) (id : Z) : list Z := match sp id with Some n => next_of sp types n | None => [] end.
(** GetChildren 575-598; the Visited flags are never set.  None: still running after [turns] turns *)
Fixpoint children_turns (turns : nat) (sp : space) (types : option (list Z)) (queue acc : list Z) : option (list Z) :=
  match queue with
  | [] => Some acc
  | id :: queue' =>
      match turns with
      | O => None
      | S k => let ts := targets sp types id in children_turns k sp types (queue' ++ ts) (acc ++ ts)
      end
  end.
Definition get_children (turns : nat) (sp : space) (types : option (list Z)) (id : Z) : option (list Z) := children_turns turns sp types [id] [].
(** GetSubTypes 558-572: puts the node itself in the queue *)
Fixpoint sub_types_turns (turns : nat) (sp : space) (queue acc : list Z) : option (list Z) :=
  match queue with
  | [] => Some acc
  | id :: queue' =>
      match turns with
      | O => None
      | S k => let ts := match sp id with
                         | Some n => map (fun _ => id) (filter (fun r => negb (rf_inverse r) && (rf_type r =? has_subtype)) (nd_refs n))
                         | None => []
                         end in
               sub_types_turns k sp (queue' ++ ts) (acc ++ ts)
      end
  end.
Definition get_sub_types (turns : nat) (sp : space) (id : Z) : option (list Z) := sub_types_turns turns sp [id] [].

(** * Deleting by NodeID *)
Definition BadNodeIDInvalid : Z := 0x80330000.
Definition BadNodeIDUnknown : Z := 0x80340000.
Section Delete.
(** isProtectedNode 454-492: the nodes of namespace 0 *)
Variable protected : Z -> bool.
(** DeleteNodeByID 497-514 *)
Definition delete_by_id (sp : space) (id : Z) : space * Z :=
  if protected id then (sp, BadNodeIDInvalid)
  else match sp id with None => (sp, BadNodeIDUnknown) | Some _ => (delete_one sp id, 0) end.
(** DeleteNodeByIDRecursive 519-555: the new address space, the number returned and the status;
    None: still looking for the children, with the lock held *)
Definition delete_recursive (turns : nat) (sp : space) (id : Z) : option (space * Z * Z) :=
  if protected id then Some (sp, 0, BadNodeIDInvalid)
  else match sp id with
       | None => Some (sp, 0, BadNodeIDUnknown)
       | Some _ =>
           match get_children turns sp (Some child_types) id with
           | None => None
           | Some l => Some (delete_one (fold_left (fun s c => if protected c then s else delete_one s c) l sp) id, zlen l + 1, 0)
           end
       end.
End Delete.
(** DeleteNode(node, deleteChildren) 402-417, 448-450 *)
Definition delete_node (turns : nat) (sp : space) (id : Z) (with_children : bool) : option space :=
  if with_children then
    match get_children turns sp (Some child_types) id with
    | None => None
    | Some l => Some (delete_one (fold_left delete_one l sp) id)
    end
  else Some (delete_one sp id).
