(** The TranslateBrowsePathsToNodeIds service.

    Source: /repo/server/server_service_set.go 1650-1706, 1981-2055.  The QualifiedNames are numbers
    (as in Nodes.v).  The checks of the session and of the number of paths are in Services.v. *)
From Coq Require Import ZArith List Bool.
From Verif Require Import Bytes IndexRange Roles Nodes.
Import ListNotations.
Open Scope Z_scope.

(** ua.RelativePathElement; the type may be nil *)
Record element : Type := mkElem { el_type : option Z; el_inverse : bool; el_subtypes : bool; el_name : Z }.
Definition BadNothingToDo : Z := 0x800F0000.
Definition BadNoMatch : Z := 0x806F0000.
Definition BadBrowseNameInvalid : Z := 0x80600000.

(** target 2022-2055 *)
Definition matching (sp : space) (e : element) (r : reference) : bool :=
  Bool.eqb (rf_inverse r) (el_inverse e) &&
  match el_type e with
  | None => true
  | Some t => (rf_type r =? t) || (el_subtypes e && is_subtype sp (rf_type r) t)
  end &&
  match sp (rf_target r) with Some n => el_name e =? nd_name n | None => false end.
Definition target (sp : space) (id : Z) (e : element) : list Z + Z :=
  match sp id with
  | None => inr BadNodeIDUnknown
  | Some n => match map rf_target (filter (matching sp e) (nd_refs n)) with
              | [] => inr BadNoMatch
              | l => inl l
              end
  end.
(** follow 1981-2019: targets with the RemainingPathIndex.  [target] never gives an empty list. *)
Definition max_uint32 : Z := 4294967295.
Fixpoint follow (sp : space) (id : Z) (els : list element) : list (Z * Z) + Z :=
  match els with
  | [] => inr BadNothingToDo
  | e :: els' =>
      match target sp id e with
      | inr st => inr st
      | inl l =>
          match els' with
          | [] => inl (map (fun t => (t, max_uint32)) l)
          | _ :: _ =>
              let next := hd 0 l in
              match sp next with
              | Some _ => follow sp next els'
              | None => inl [(next, zlen els')]
              end
          end
      end
  end.
(** The result for one path, 1658-1702 *)
Section Translate.
(** Name == "" *)
Variable unnamed : Z -> bool.
Definition translate (sp : space) (start : Z) (els : list element) : Z * list (Z * Z) :=
  match els with
  | [] => (BadNothingToDo, [])
  | _ =>
      if existsb (fun e => unnamed (el_name e)) els then (BadBrowseNameInvalid, [])
      else match follow sp start els with
           | inr st => (st, [])
           | inl [] => (BadNoMatch, [])
           | inl l => (0, l)
           end
  end.
End Translate.
