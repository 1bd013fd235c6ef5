(** The where clause of an event filter.

    Sources: /repo/server/event_monitored_item.go (OnEvent 213-219, whereClause 225-271),
    /repo/ua/enums.generated.go 1224-1241, /repo/server/namespace_manager.go IsSubtype 157 (an
    argument here).  GetAttribute of the event (/repo/ua/base_event.go 42-63 and user types) is an
    argument. *)
From Coq Require Import ZArith List Bool.
Import ListNotations.
Open Scope Z_scope.

(** A Go value in an interface.  [WNode]: a value of a type that implements ua.NodeID; [WVal]:
    any other comparable type [t] with content [c] (floats are not NaN); [WList]: a type that ==
    does not compare, such as a slice. *)
Inductive wval : Type := WNil | WBool (b : bool) | WNode (id : Z) | WVal (t c : Z) | WList (t : Z).
(** a == b of two interfaces: panics (None) when the dynamic types are identical and not comparable *)
Definition go_eq (a b : wval) : option bool :=
  match a, b with
  | WNil, WNil => Some true
  | WBool x, WBool y => Some (Bool.eqb x y)
  | WNode x, WNode y => Some (x =? y)
  | WVal t c, WVal t' c' => Some ((t =? t') && (c =? c'))
  | WList t, WList t' => if t =? t' then None else Some false
  | _, _ => Some false
  end.

Inductive operand : Type :=
| OLit (v : wval) | OAttr (a : Z) | OElem (i : nat)   (* LiteralOperand, SimpleAttributeOperand, ElementOperand *)
| OOther.                                             (* AttributeOperand, or an extension object of another type *)
Definition op_equals : Z := 0.
Definition op_oftype : Z := 14.
Record element := mkEl { el_op : Z; el_operands : list operand }.

Section Where.
  Variable attr : Z -> wval.                (* evt.GetAttribute *)
  Variable event_type : wval.               (* evt.GetAttribute(attributeOperandEventType) *)
  Variable subtype : Z -> Z -> bool.        (* namespaceManager.IsSubtype *)

  (** [WDeep]: the recursion needs more than the given depth. *)
  Inductive wres : Type := WOut (v : wval) | WPanic | WDeep.
  (** The switches 234-243 and 244-253; None is "return false". *)
  Definition operand_value (rec : nat -> wres) (o : operand) : option wres :=
    match o with
    | OLit v => Some (WOut v)
    | OAttr a => Some (WOut (attr a))
    | OElem i => Some (rec i)
    | OOther => None
    end.
  Fixpoint where_clause (depth : nat) (els : list element) (idx : nat) {struct depth} : wres :=
    match depth with
    | O => WDeep
    | S depth' =>
        match nth_error els idx with
        | None => WOut (WBool true)
        | Some e =>
            if el_op e =? op_equals then
              match el_operands e with
              | [] => WPanic                                   (* FilterOperands[0] *)
              | o1 :: os =>
                  match operand_value (where_clause depth' els) o1 with
                  | None => WOut (WBool false)
                  | Some (WOut a) =>
                      match os with
                      | [] => WPanic                           (* FilterOperands[1] *)
                      | o2 :: _ =>
                          match operand_value (where_clause depth' els) o2 with
                          | None => WOut (WBool false)
                          | Some (WOut b) => match go_eq a b with Some r => WOut (WBool r) | None => WPanic end
                          | Some r => r
                          end
                      end
                  | Some r => r
                  end
              end
            else if el_op e =? op_oftype then
              match el_operands e with
              | [] => WPanic
              | OLit (WNode b) :: _ =>
                  match event_type with
                  | WNode c => WOut (WBool ((c =? b) || subtype c b))
                  | _ => WOut (WBool false)
                  end
              | _ => WOut (WBool false)
              end
            else WOut (WBool false)
        end
    end.
  (** OnEvent 215: Some true when the event is queued; None when the evaluation does not return
      a value within the depth. *)
  Definition selects (depth : nat) (els : list element) : option bool :=
    match where_clause depth els 0 with
    | WOut (WBool b) => Some b
    | WOut _ => Some false
    | _ => None
    end.
End Where.
