(** How deep the decoder calls itself.

    Source: /repo/ua/binary_decoder.go 769-865 (ReadExtensionObject, ReadDataValue), 866-2084 (ReadVariant), 2087
    (ReadDiagnosticInfo), 37-226 (Decode and the decoders it builds). [Value.dec] has a budget for calls inside calls:
    each Variant, DataValue, DiagnosticInfo or ExtensionObject inside another takes one; the fields of a structure and
    the elements of a slice do not. In Go each of these calls is on the stack of the goroutine until the inner one
    returns; how many bytes of stack a call takes is not modelled. *)
From Coq Require Import ZArith String List Bool Strings.Byte.
From Verif Require Import Bytes Prim Value Registry StructTable MessageTable Messages.
Import ListNotations.
Open Scope Z_scope.

Definition exhausted {A} (r : res A) : bool := match r with Fuel => true | _ => false end.

(** decoder:37 Decode: the number of calls inside one another while [s] is read *)
Fixpoint least (f : nat -> bool) (n k : nat) : nat :=
  match n with
  | O => k
  | S n' => if f k then k else least f n' (S k)
  end.
Definition depth (E : env) (t : ty) (s : bytes) : nat :=
  least (fun m => negb (exhausted (dec E m t s))) (S (length s)) 0.

(** server_secure_channel.go 1361-1460, client_secure_channel.go 1623-1725: Messages.receive with room for [m] calls *)
Definition receive_within (m : nat) (table : list (Z * string)) (uris : list bytes) : reader (string * list val) :=
  let* n := read_nodeid in
  match find (fun p => nodeid_eqb n (NNum 0 (fst p))) table with
  | None => fail
  | Some (_, name) =>
      match fields_of_name name with
      | None => fail
      | Some f => let* v := dec (std_env uris) m (TStruct f) in
                  match v with VStruct l => ret (name, l) | _ => fail end
      end
  end.
