(** Messages of the services between client and server: which structure is written under which
    identifier, and which structure an identifier is read as.

    Source: /repo/ua/binary_registry.go, /repo/ua/structs.generated.go 2489-2773 (registrations),
    /repo/client/client_secure_channel.go, /repo/client/client_service_set.go, /repo/server/server_secure_channel.go,
    /repo/server/server.go.  Only the message body is modelled here; chunks, signatures and encryption are in
    Chunk.v and SecureChannel.v. *)
From Coq Require Import ZArith List String Bool.
From Verif Require Import Bytes Prim Value Registry StructTable MessageTable.
Import ListNotations.
Open Scope Z_scope.

(** structs.generated.go 2489 init: the registrations in the order of the text; the type number is the position *)
Fixpoint numbered {A} (i : Z) (l : list A) : list (Z * A) :=
  match l with [] => [] | x :: r => (i, x) :: numbered (i + 1) r end.
Definition std_id (id : Z) : expnodeid := mkExp 0 [] (NNum 0 id).
Definition registrations : list (Z * expnodeid) :=
  map (fun p => (fst p, std_id (snd (fst (snd p))))) (numbered 0 struct_table).
Definition std_registry : registry := reg_run registrations.
(** one registration after the other; [false] when one of them panics (binary_registry.go 19, 24) *)
Definition all_registered (l : list (Z * expnodeid)) : bool :=
  snd (fold_left (fun a p => let (r, ok) := register (fst a) (fst p) (snd p) in (r, snd a && ok)) l (empty_registry, true)).

Definition fields_of_type (t : Z) : list ty :=
  match nth_error struct_table (Z.to_nat t) with Some (_, _, f) => f | None => [] end.
Definition fields_of_name (n : string) : option (list ty) :=
  match find (fun e => String.eqb (fst (fst e)) n) struct_table with Some (_, _, f) => Some f | None => None end.

(** The context of a codec of this library before the program registers types of its own. *)
Definition std_env (uris : list bytes) : env :=
  mkEnv uris (find_id std_registry) (find_type std_registry) fields_of_type.

(** client_secure_channel.go 506, 911-1202 and server_secure_channel.go 418, 619-900: the identifier, then the
    structure; a structure without a case is BadEncodingError. *)
Definition send (table : list (string * Z)) (uris : list bytes) (name : string) (vals : list val) : option bytes :=
  match find (fun p => String.eqb (fst p) name) table, fields_of_name name with
  | Some (_, id), Some f => oapp (Some (write_nodeid (NNum 0 id))) (encode (std_env uris) (TStruct f) (VStruct vals))
  | _, _ => None
  end.
Definition client_send := send client_sends.
Definition server_send := send server_sends.

(** server_secure_channel.go 1361-1460 and client_secure_channel.go 1623-1725: the identifier is compared with ==;
    an identifier without a case is BadDecodingError, which ends the channel. *)
Definition receive (table : list (Z * string)) (uris : list bytes) : reader (string * list val) :=
  let* n := read_nodeid in
  match find (fun p => nodeid_eqb n (NNum 0 (fst p))) table with
  | None => fail
  | Some (_, name) =>
      match fields_of_name name with
      | None => fail                        (* unreachable: every structure of the tables is declared *)
      | Some f => let* v := decode (std_env uris) (TStruct f) in
                  match v with VStruct l => ret (name, l) | _ => fail end
      end
  end.
Definition server_receive := receive server_reads.
Definition client_receive := receive client_reads.

(** server.go 430 handleRequest: the structures the handler may answer with, or the fault of the default case *)
Inductive reaction : Type := Answers (l : list string) | Fault (status : Z).
Definition bad_service_unsupported : Z := 0x800B0000.
Definition handle_request (name : string) : reaction :=
  match find (fun p => String.eqb (fst p) name) server_handles with
  | Some (_, l) => Answers l
  | None => Fault bad_service_unsupported
  end.

(** client_secure_channel.go 254-259 and client_service_set.go: what a method does with the answer
    to its request, a structure and the service result of its header *)
Inductive returned : Type := Response | Error (status : Z) | Crash.
Definition finish (expected got : string) (service_result : Z) : returned :=
  if service_result =? 0 then if String.eqb got expected then Response else Crash else Error service_result.
