(** C83, C84: messages of the services; more about C14 and C19. *)
From Coq Require Import ZArith List String.
From Verif Require Import Bytes CodecSpec Prim PrimSpec Value ValueSpec Registry StructTable MessageTable Messages StructSpec MessageSpec MessageLemmas.
Import ListNotations.
Open Scope Z_scope.

(** The request of every service is declared with the standard's fields in the standard's order and registered under the standard's identifier; so is its response. *)
Theorem c83_layouts :
  forall n qi qf ri rf,
  In (n, (qi, qf), (ri, rf)) standard_services ->
  In (n ++ "Request", qi, qf)%string struct_table /\ In (n ++ "Response", ri, rf)%string struct_table.
Proof. exact layouts. Qed.
Print Assumptions c83_layouts.

(** So are ServiceFault and the parameters carried in ExtensionObjects. *)
Theorem c83_parameter_layouts :
  forall id f,
  In (id, f) (standard_fault :: standard_parameters) -> exists name, In (name, id, f) struct_table.
Proof. exact param_layouts. Qed.
Print Assumptions c83_parameter_layouts.

(** What a client sends as a request arrives as that request, with the same values, whatever the namespace tables of both sides. *)
Theorem c83_requests :
  forall n qi qf ri rf,
  In (n, (qi, qf), (ri, rf)) standard_services -> carries client_send server_receive (n ++ "Request") qi qf.
Proof. exact requests. Qed.
Print Assumptions c83_requests.

(** What the server sends as a response arrives as that response (closing a channel is not answered). *)
Theorem c83_responses :
  forall n qi qf ri rf,
  In (n, (qi, qf), (ri, rf)) standard_services -> n <> "CloseSecureChannel"%string ->
  carries server_send client_receive (n ++ "Response") ri rf.
Proof. exact responses. Qed.
Print Assumptions c83_responses.

(** A fault arrives as a fault. *)
Theorem c83_fault :
  carries server_send client_receive "ServiceFault" (fst standard_fault) (snd standard_fault).
Proof. exact fault. Qed.
Print Assumptions c83_fault.

(** A message under any other identifier, such as that of a request in another namespace, is refused before its body is read. *)
Theorem c83_others_refused :
  forall u n rest, wf_nodeid n ->
  (forall s qi qf r, In (s, (qi, qf), r) standard_services -> norm_nodeid n <> NNum 0 qi) ->
  exists left, server_receive u (write_nodeid n ++ rest) = Err left.
Proof. exact others_refused. Qed.
Print Assumptions c83_others_refused.

(** The registrations made when the program starts do not panic: no structure and no identifier is registered twice. *)
Theorem c19_start :
  all_registered registrations = true /\
  NoDup (map (fun e => fst (fst e)) struct_table) /\ NoDup (map (fun e => snd (fst e)) struct_table).
Proof. exact (conj no_panic_at_start (conj names_distinct ids_distinct)). Qed.
Print Assumptions c19_start.

(** Each structure of the protocol is then found under its identifier, and the identifier under the structure. *)
Theorem c19_standard_types :
  forall name k f, In (name, k, f) struct_table -> exists t,
  find_id std_registry t = Some (std_id k) /\ find_type std_registry (std_id k) = Some t /\ fields_of_type t = f.
Proof. exact table_bijection. Qed.
Print Assumptions c19_standard_types.

(** Every structure the library declares, except ten with a Guid inside, travels in an ExtensionObject with the standard's framing. *)
Theorem c83_structures_partial :
  forall name k f uris vals,
  In (name, k, f) struct_table -> ~ In name without_encoder -> wzip (wf (std_env uris) false) f vals -> exists t body,
    find_id std_registry t = Some (std_id k) /\
    encode (std_env uris) (TStruct f) (VStruct vals) = Some body /\
    encode (std_env uris) TExt (VExt t vals) = Some (write_nodeid (NNum 0 k) ++ write_int 1 1 ++ write_int 4 (Z.of_nat (List.length body)) ++ body) /\
    reads_back (decode (std_env uris) TExt) (write_nodeid (NNum 0 k) ++ write_int 1 1 ++ write_int 4 (Z.of_nat (List.length body)) ++ body)
      (VExt t (map norm vals)).
Proof. exact every_other_structure. Qed.
Print Assumptions c83_structures_partial.

(** The ten cannot be sent at all. *)
Theorem c83_guid_structures_refuted :
  forall name, In name without_encoder -> exists k f, In (name, k, f) struct_table /\
  forall uris vals, encode (std_env uris) (TStruct f) (VStruct vals) = None.
Proof. exact guid_structures_refused. Qed.
Print Assumptions c83_guid_structures_refuted.

(** Under the identifier of every request there is a message that crashes the server, OpenSecureChannel included, and under that of every response one that crashes the client. *)
Theorem c14_messages_refuted :
  forall u n qi qf ri rf, In (n, (qi, qf), (ri, rf)) standard_services ->
  exists q r, server_receive u (write_nodeid (NNum 0 qi) ++ q) = Panic /\ client_receive u (write_nodeid (NNum 0 ri) ++ r) = Panic.
Proof. exact crashes. Qed.
Print Assumptions c14_messages_refuted.

(** The server answers each request with the response of that service or a fault; a service it does not offer with BadServiceUnsupported. *)
Theorem c84_answers :
  forall n q r, In (n, q, r) standard_services ->
  (In n not_offered /\ handle_request (n ++ "Request") = Fault 0x800B0000) \/
  (~ In n not_offered /\ exists l, handle_request (n ++ "Request") = Answers l /\
     (forall x, In x l -> x = (n ++ "Response")%string \/ x = "ServiceFault"%string) /\
     (n = "CloseSecureChannel"%string \/ In (n ++ "Response")%string l)).
Proof. exact handled. Qed.
Print Assumptions c84_answers.

(** Each method of the client then returns the response of its service, or the service result of the answer as error. *)
Theorem c84_client_partial :
  forall q r got sr, In (q, r) client_methods ->
  match handle_request q with
  | Answers l => In got l /\ (got = "ServiceFault"%string -> sr <> 0)
  | Fault st => got = "ServiceFault"%string /\ sr = st
  end ->
  finish r got sr = (if sr =? 0 then Response else Error sr) /\ (sr = 0 -> got = r).
Proof. exact method_result. Qed.
Print Assumptions c84_client_partial.

(** But a server that answers with any other structure and the service result Good crashes the client. *)
Theorem c84_other_answer_refuted :
  forall q r got, In (q, r) client_methods -> got <> r -> finish r got 0 = Crash.
Proof. exact other_answer_crashes. Qed.
Print Assumptions c84_other_answer_refuted.
