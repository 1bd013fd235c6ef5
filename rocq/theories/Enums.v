(** Names of enumeration values and texts of status codes. *)
From Coq Require Import ZArith List String.
From Verif Require Import StatusTable EnumTable.
Import ListNotations.
Open Scope Z_scope.
Open Scope string_scope.

(** The methods String of /repo/ua/enums.generated.go (the first of type NodeIDType, lines 21-38): a switch over the value,
    by default the empty string. None: there is no such type. *)
Definition enum_string (type : string) (v : Z) : option string :=
  match find (fun e => String.eqb (fst e) type) enum_cases with
  | None => None
  | Some (_, cases) =>
      match find (fun c => (fst c =? v)%Z) cases with
      | Some (_, name) => Some name
      | None => Some ""
      end
  end.

(** StatusCode.Error (/repo/ua/status_code.generated.go 499-994): the cases are constants, looked up by name *)
Definition constant (name : string) : option Z :=
  match find (fun e => String.eqb (fst e) name) status_table with Some (_, c) => Some c | None => None end.
Definition is_case (c : Z) (case : string * string) : bool :=
  match constant (fst case) with Some k => (k =? c)%Z | None => false end.
Definition status_error (c : Z) : string :=
  match find (is_case c) status_texts with
  | Some (_, text) => text
  | None => status_default
  end.
