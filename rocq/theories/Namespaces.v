(** The namespace table (/repo/server/namespace_manager.go 35-70), the table of built-in types
    (183-283) and the way events take (601-621). *)
From Coq Require Import ZArith List Bool String.
From Verif Require Import Bytes Text IndexRange Roles Nodes.
Import ListNotations.
Open Scope Z_scope.

(** NewNamespaceManager 35-42 *)
Definition ua_uri : bytes := lit "http://opcfoundation.org/UA/"%string.
Definition new_table (application : bytes) : list bytes := [ua_uri; application].
(** Add 46-57: the index of the first entry that is equal *)
Fixpoint index_from (i : Z) (uri : bytes) (l : list bytes) : option Z :=
  match l with
  | [] => None
  | x :: l' => if bytes_eqb x uri then Some i else index_from (i + 1) uri l'
  end.
Definition uint16 (n : Z) : Z := n mod 65536.
Definition add_uri (table : list bytes) (uri : bytes) : list bytes * Z :=
  match index_from 0 uri table with
  | Some i => (table, uint16 i)
  | None => (table ++ [uri], uint16 (zlen table))
  end.

(** * Built-in types *)
(** FindVariantType 183-283 with the table variantTypeMap, which nothing else changes.  None: still
    searching *)
Definition cached_variant (turns : nat) (cache : Z -> option Z) (sp : space) (t : Z) : option (Z * (Z -> option Z)) :=
  match cache t with
  | Some vt => Some (vt, cache)
  | None => match find_variant turns sp (Some t) with
            | Some vt => Some (vt, fun x => if x =? t then Some vt else cache x)
            | None => None
            end
  end.

(** * Events *)
(** OnEvent 601-621: the objects whose OnEvent is called, one after the other; [status] of the
    result.  None: still on the way after [turns] turns.  The node [id] is an object. *)
Definition server_id : Z := 2253.          (* ua/nodeids.generated.go *)
Definition notifier_of (n : node) : option Z :=
  match find (fun r => rf_inverse r && (rf_type r =? has_notifier)) (nd_refs n) with Some r => Some (rf_target r) | None => None end.
Fixpoint on_event (turns : nat) (sp : space) (id : Z) (n : node) : option (list Z * Z) :=
  match turns with
  | O => None
  | S k =>
      if id =? server_id then Some ([id], 0)
      else match notifier_of n with
      | None => Some ([id], 0)
      | Some t =>
          match sp t with
          | Some m => match nd_kind m with
                      | KObject => match on_event k sp t m with Some (l, st) => Some (id :: l, st) | None => None end
                      | _ => Some ([id], BadNodeIDUnknown)
                      end
          | None => Some ([id], BadNodeIDUnknown)
          end
      end
  end.
