(** The registry of encodable types.  Source: /repo/ua/binary_registry.go.

    A reflect.Type is a number.  The two sync.Maps are association lists; each of
    their operations is atomic. *)
From Coq Require Import ZArith List Bool Strings.Byte.
From Verif Require Import Bytes Prim.
Import ListNotations.
Open Scope Z_scope.

(** Go's == on NodeID interfaces and ExpandedNodeID structs *)
Definition nodeid_eqb (a b : nodeid) : bool :=
  match a, b with
  | NNull, NNull => true
  | NNum n i, NNum m j => (n =? m) && (i =? j)
  | NStr n i, NStr m j => (n =? m) && bytes_eqb i j
  | NGuid n i, NGuid m j => (n =? m) && guid_eqb i j
  | NOpq n i, NOpq m j => (n =? m) && bytes_eqb i j
  | _, _ => false
  end.
Definition exp_eqb (a b : expnodeid) : bool :=
  (e_server a =? e_server b) && bytes_eqb (e_uri a) (e_uri b) && nodeid_eqb (e_node a) (e_node b).

Section Map.
  Context {K V : Type} (eqb : K -> K -> bool).
  Fixpoint lookup (k : K) (m : list (K * V)) : option V :=
    match m with [] => None | (k', v) :: r => if eqb k k' then Some v else lookup k r end.
  Definition store (k : K) (v : V) (m : list (K * V)) : list (K * V) := (k, v) :: m.
  Definition delete (k : K) (m : list (K * V)) : list (K * V) := filter (fun p => negb (eqb k (fst p))) m.
End Map.

(** binary_registry.go:11 binaryEncodingTypes, binaryEncodingIDs *)
Record registry := mkReg { r_types : list (expnodeid * Z); r_ids : list (Z * expnodeid) }.
Definition empty_registry : registry := mkReg [] [].

(** binary_registry.go:31 FindBinaryEncodingIDForType, 41 FindTypeForBinaryEncodingID *)
Definition find_id (r : registry) (t : Z) : option expnodeid := lookup Z.eqb t (r_ids r).
Definition find_type (r : registry) (id : expnodeid) : option Z := lookup exp_eqb id (r_types r).

(** binary_registry.go:18-20 first half: LoadOrStore(id, typ); false is the panic *)
Definition reg_first (r : registry) (t : Z) (id : expnodeid) : registry * bool :=
  match find_type r id with
  | Some t' => (r, t' =? t)
  | None => (mkReg (store id t (r_types r)) (r_ids r), true)
  end.
(** binary_registry.go:22 second half: LoadOrStore(typ, id) *)
Definition reg_second (r : registry) (t : Z) (id : expnodeid) : registry * bool :=
  match find_id r t with
  | Some id' => (r, exp_eqb id' id)
  | None => (mkReg (r_types r) (store t id (r_ids r)), true)
  end.
(** binary_registry.go:23 Delete(id) before the second panic *)
Definition reg_undo (r : registry) (id : expnodeid) : registry :=
  mkReg (delete exp_eqb id (r_types r)) (r_ids r).

(** binary_registry.go:16 RegisterBinaryEncodingID, called by one goroutine at a
    time (package initialisation).  [false] is a panic (refused). *)
Definition register (r : registry) (t : Z) (id : expnodeid) : registry * bool :=
  match reg_first r t id with
  | (r1, false) => (r1, false)
  | (r1, true) => match reg_second r1 t id with
                  | (r2, true) => (r2, true)
                  | (r2, false) => (reg_undo r2 id, false)
                  end
  end.
Definition reg_run (l : list (Z * expnodeid)) : registry :=
  fold_left (fun r p => fst (register r (fst p) (snd p))) l empty_registry.

(** Concurrent callers: each is between two atomic map operations. *)
Inductive pc : Type := AtFirst | AtSecond | AtUndo | Registered | Refused.
Record caller := mkC { c_type : Z; c_id : expnodeid; c_pc : pc }.
Definition caller_step (r : registry) (c : caller) : registry * caller :=
  let go p := mkC (c_type c) (c_id c) p in
  match c_pc c with
  | AtFirst => let (r', ok) := reg_first r (c_type c) (c_id c) in (r', go (if ok then AtSecond else Refused))
  | AtSecond => let (r', ok) := reg_second r (c_type c) (c_id c) in (r', go (if ok then Registered else AtUndo))
  | AtUndo => (reg_undo r (c_id c), go Refused)
  | _ => (r, c)
  end.
(** a schedule names the caller that moves next *)
Definition sched_step (s : registry * list caller) (k : nat) : registry * list caller :=
  match nth_error (snd s) k with
  | None => s
  | Some c => let (r, c') := caller_step (fst s) c in (r, firstn k (snd s) ++ c' :: skipn (S k) (snd s))
  end.
