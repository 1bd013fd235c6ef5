(** Variables of type MultiStateValueDiscreteType: the handler that the library installs for writes.

    Source: /repo/server/namespace_manager.go 80-134 (FindObject, FindVariable, FindProperty, FindComponent),
    137-145 (FindMethod), 291-346 (SetMultiStateValueDiscreteTypeBehavior, toEnumValues), 624-641 (Any, Contains);
    /repo/server/server_service_set.go 6025-6030 (the write that calls the handler). Values are the Variants of
    Value.v, nodes those of Nodes.v, where a browse name is a number. *)
From Coq Require Import ZArith List Bool.
From Verif Require Import Bytes Prim Value Nodes DataPath.
Import ListNotations.
Open Scope Z_scope.

(** * Finding nodes *)
Definition is_object (k : kind) : bool := match k with KObject => true | _ => false end.
Definition is_variable (k : kind) : bool := match k with KVariable _ => true | _ => false end.
Definition is_method (k : kind) : bool := match k with KMethod _ _ => true | _ => false end.
(** the type assertion of FindObject 81-88, FindVariable 91-98 and FindMethod 137-144 *)
Definition find_kind (is : kind -> bool) (sp : space) (id : Z) : option Z :=
  match sp id with
  | Some n => if is (nd_kind n) then Some id else None
  | None => None
  end.
Definition find_object := find_kind is_object.
Definition find_variable := find_kind is_variable.
Definition find_method := find_kind is_method.
(** 104-114, 122-131: the first target that exists and has the name *)
Fixpoint find_named (sp : space) (type name : Z) (refs : list reference) : option Z :=
  match refs with
  | [] => None
  | r :: rest =>
      if negb (rf_inverse r) && (rf_type r =? type)
      then match sp (rf_target r) with
           | Some n => if nd_name n =? name then Some (rf_target r) else find_named sp type name rest
           | None => find_named sp type name rest
           end
      else find_named sp type name rest
  end.
(** FindProperty 101-116: 109 returns, also if this target is no variable *)
Definition find_property (sp : space) (start : node) (name : Z) : option Z :=
  match find_named sp has_property name (nd_refs start) with Some id => find_variable sp id | None => None end.
(** FindComponent 119-134 *)
Definition find_component (sp : space) (start : node) (name : Z) : option Z :=
  find_named sp has_component name (nd_refs start).
(** Any 624-631 and Contains 634-641 *)
Fixpoint any (nodes : list Z) (f : Z -> bool) : bool :=
  match nodes with [] => false | n :: r => if f n then true else any r f end.
Fixpoint contains (nodes : list Z) (node : Z) : bool :=
  match nodes with [] => false | n :: r => if n =? node then true else contains r node end.

(** 291-299: what the handler will use. [names]: the browse names 0:EnumValues and 0:ValueAsText *)
Definition set_behavior (sp : space) (start : node) (enum_values value_as_text : Z) : (Z * Z) + Z :=
  match find_property sp start enum_values with
  | None => inr BadNodeIDUnknown
  | Some e =>
      match find_property sp start value_as_text with
      | None => inr BadNodeIDUnknown
      | Some t => inl (e, t)
      end
  end.

(** * Writing *)
(** What the three variables hold *)
Record states : Type := mkStates { s_value : dval; s_text : dval; s_enum : val }.
(** One of the entries: Value and DisplayName of ua.EnumValueType (ua/structs.generated.go 614-618) *)
Record entry : Type := mkEntry { e_value : Z; e_name : ltext }.

Section Handler.
(** the number that stands for the reflect.Type of ua.EnumValueType; int64(f) of a float that is not a number or
    out of range, which depends on the machine *)
Variable enum_type : Z.
Variable wild : Z -> Z.

(** int64(f) for the bits of a float with m bits of mantissa and e bits of exponent: towards zero *)
Definition truncate (m e : Z) (bits : Z) : Z :=
  let sign := Z.shiftr bits (m + e) in
  let ex := Z.shiftr bits m mod 2 ^ e in
  let frac := bits mod 2 ^ m in
  let mant := if ex =? 0 then frac else 2 ^ m + frac in
  let shift := Z.max ex 1 - (2 ^ (e - 1) - 1) - m in
  let abs := if 0 <=? shift then mant * 2 ^ shift else mant / 2 ^ (- shift) in
  let z := if sign =? 0 then abs else - abs in
  if ex =? 2 ^ e - 1 then wild bits
  else if (- 2 ^ 63 <=? z) && (z <? 2 ^ 63) then z else wild bits.
(** int64(v) of an integer *)
Definition to_int64 (z : Z) : Z := (z + 2 ^ 63) mod 2 ^ 64 - 2 ^ 63.

(** 301-325; the second argument of the pairs is of the same type in every value that a decoder makes *)
Definition int_value (v : val) : option Z :=
  match v with
  | VScalar (KB BByte) (VB BByte z) | VScalar (KB BUInt16) (VB BUInt16 z) | VScalar (KB BUInt32) (VB BUInt32 z)
  | VScalar (KB BUInt64) (VB BUInt64 z) | VScalar (KB BSByte) (VB BSByte z) | VScalar (KB BInt16) (VB BInt16 z)
  | VScalar (KB BInt32) (VB BInt32 z) | VScalar (KB BInt64) (VB BInt64 z) => Some (to_int64 z)
  | VScalar (KB BFloat) (VB BFloat bits) => Some (truncate 23 8 bits)
  | VScalar (KB BDouble) (VB BDouble bits) => Some (truncate 52 11 bits)
  | _ => None
  end.

(** 340-346: a panic (None) if an element is not an EnumValueType *)
Definition to_entry (v : val) : option entry :=
  match v with
  | VExt tid [VB BInt64 z; VB BLText name; VB BLText _] => if tid =? enum_type then Some (mkEntry z name) else None
  | _ => None
  end.
Fixpoint to_entries (l : list val) : option (list entry) :=
  match l with
  | [] => Some []
  | v :: r =>
      match to_entry v, to_entries r with
      | Some e, Some es => Some (e :: es)
      | _, _ => None
      end
  end.
(** 327: a panic (None) if EnumValues holds anything but a slice of ExtensionObject *)
Definition entries_of (v : val) : option (list entry) :=
  match v with
  | VArr KExt l => to_entries l
  | VArrNil KExt => Some []
  | _ => None
  end.

(** A write on its way, with the value of the request: not begun; the entry found; the value set; the text set and
    the handler returned; answered; the process ended by a panic *)
Inductive writing : Type :=
| Asked (d : dval)
| Matched (d : dval) (name : ltext)
| Placed (d : dval) (name : ltext)
| Handled (d : dval)
| Answered (status : Z)
| Panicked.

(** One step, at time t. 300-337 the handler, then 6026-6030 of server_service_set.go: ua.Good is 0. The index range of
    the request is not looked at. *)
Definition advance (s : states) (w : writing) (t : time) : states * writing :=
  match w with
  | Asked d =>
      match int_value (d_value d) with
      | None => (s, Handled d)
      | Some z =>
          match entries_of (s_enum s) with
          | None => (s, Panicked)
          | Some es =>
              match find (fun e => e_value e =? z) es with
              | Some e => (s, Matched d (e_name e))
              | None => (s, Handled d)
              end
          end
      end
  | Matched d name => (mkStates (mkDV (d_value d) (d_status d) t 0 t 0) (s_text s) (s_enum s), Placed d name)
  | Placed d name => (mkStates (s_value s) (mkDV (VScalar (KB BLText) (VB BLText name)) 0 t 0 t 0) (s_enum s), Handled d)
  | Handled d => (mkStates d (s_text s) (s_enum s), Answered 0)
  | Answered status => (s, w)
  | Panicked => (s, w)
  end.

(** A write alone, at one time *)
Definition write_state (s : states) (d : dval) (t : time) : states * writing :=
  let (s1, w1) := advance s (Asked d) t in
  let (s2, w2) := advance s1 w1 t in
  let (s3, w3) := advance s2 w2 t in
  advance s3 w3 t.

(** A request: the value and the index range (ua.WriteValue). 6025-6030 of server_service_set.go return what the handler
    gave before the range is parsed *)
Record wreq : Type := mkReq { q_value : dval; q_range : bytes }.
Definition write_request (s : states) (q : wreq) (t : time) : states * writing := write_state s (q_value q) t.

(** Writes one after the other; None after a panic *)
Fixpoint write_states (s : states) (l : list (dval * time)) : option states :=
  match l with
  | [] => Some s
  | (d, t) :: r =>
      match write_state s d t with
      | (s1, Answered _) => write_states s1 r
      | _ => None
      end
  end.

(** Writes at the same time: each element of the schedule is a step of the write with that number *)
Fixpoint replace_nth {A} (l : list A) (i : nat) (x : A) : list A :=
  match l, i with
  | [], _ => []
  | _ :: r, O => x :: r
  | y :: r, S i => y :: replace_nth r i x
  end.
Fixpoint interleave (s : states) (ws : list writing) (schedule : list (nat * time)) : states * list writing :=
  match schedule with
  | [] => (s, ws)
  | (i, t) :: r =>
      match nth_error ws i with
      | Some w => let (s1, w1) := advance s w t in interleave s1 (replace_nth ws i w1) r
      | None => interleave s ws r
      end
  end.
End Handler.
