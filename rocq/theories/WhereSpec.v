(** Event filters as trees. *)
From Coq Require Import ZArith List Bool.
From Verif Require Import WhereClause.
Import ListNotations.
Open Scope Z_scope.

(** A filter of the supported operators, and the others without what they mean. *)
Inductive filter_tree : Type :=
| TEquals (a b : term)
| TOfType (ty : Z)
| TUnsupported (op : Z) (operands : list operand)
with term : Type := TValue (v : wval) | TAttribute (a : Z) | TNested (t : filter_tree).

Definition supported (op : Z) : Prop := op = op_equals \/ op = op_oftype.
Definition comparable (v : wval) : Prop := match v with WList _ => False | _ => True end.

Section Meaning.
  Variable attr : Z -> wval.
  Variable event_type : wval.
  Variable subtype : Z -> Z -> bool.
  Definition wval_eq_dec (a b : wval) : {a = b} + {a <> b}.
  Proof. decide equality; (apply Z.eq_dec || apply Bool.bool_dec). Defined.
  (** What a filter says of an event. *)
  Fixpoint holds (t : filter_tree) : bool :=
    match t with
    | TEquals a b => if wval_eq_dec (denotes a) (denotes b) then true else false
    | TOfType ty => match event_type with WNode c => (c =? ty) || subtype c ty | _ => false end
    | TUnsupported _ _ => false
    end
  with denotes (x : term) : wval :=
    match x with
    | TValue v => v
    | TAttribute a => attr a
    | TNested t => WBool (holds t)
    end.
  (** No operand is a list. *)
  Fixpoint scalar (t : filter_tree) : Prop :=
    match t with
    | TEquals a b => scalar_term a /\ scalar_term b
    | TUnsupported op _ => ~ supported op
    | _ => True
    end
  with scalar_term (x : term) : Prop :=
    match x with
    | TValue v => comparable v
    | TAttribute a => comparable (attr a)
    | TNested t => scalar t
    end.
End Meaning.

Definition term_operand (base : nat) (x : term) : operand :=
  match x with TValue v => OLit v | TAttribute a => OAttr a | TNested _ => OElem base end.
(** A tree as the list of elements a client sends: the element of a node, then those of its
    first and of its second operand, the node itself at position [base]. *)
Fixpoint elements (base : nat) (t : filter_tree) : list element :=
  match t with
  | TEquals a b =>
      let ea := term_elements (S base) a in
      let eb := term_elements (S base + length ea) b in
      mkEl op_equals [term_operand (S base) a; term_operand (S base + length ea) b] :: ea ++ eb
  | TOfType ty => [mkEl op_oftype [OLit (WNode ty)]]
  | TUnsupported op os => [mkEl op os]
  end
with term_elements (base : nat) (x : term) : list element :=
  match x with TNested t => elements base t | _ => [] end.
Fixpoint tree_depth (t : filter_tree) : nat :=
  match t with
  | TEquals a b => S (Nat.max (term_depth a) (term_depth b))
  | _ => 1
  end
with term_depth (x : term) : nat := match x with TNested t => tree_depth t | _ => 0 end.

(** Every element refers to elements of a smaller rank only. *)
Definition ranked (els : list element) (rank : nat -> nat) : Prop :=
  forall i e j, nth_error els i = Some e -> In (OElem j) (el_operands e) -> (rank j < rank i)%nat.
(** Part 4, 7.7.4.2: references go to later elements. *)
Definition forward (els : list element) : Prop :=
  forall i e j, nth_error els i = Some e -> In (OElem j) (el_operands e) -> (i < j)%nat.
(** A set of elements each of which compares the value of another one of the set first. *)
Definition circular (els : list element) (loop : nat -> Prop) : Prop :=
  forall i, loop i -> exists j os, nth_error els i = Some (mkEl op_equals (OElem j :: os)) /\ loop j.
