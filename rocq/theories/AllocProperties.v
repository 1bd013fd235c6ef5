(** C118: the memory asked for while a message is read. *)
From Coq Require Import ZArith String List Bool Strings.Byte.
From Verif Require Import Bytes Prim Value StructTable MessageTable Messages Keys Alloc AllocSpec AllocProofs AllocLemmas.
Import ListNotations.
Open Scope Z_scope.

(** The decoder that counts gives the same results as the decoder of C01 and C14, *)
Theorem c118_same : forall E t s, snd (a_decode E t s) = decode E t s.
Proof. exact same_ok. Qed.
Print Assumptions c118_same.

(** and so do the receivers of messages and of the Hello. *)
Theorem c118_same_messages : forall uris s, snd (a_receive server_reads uris s) = server_receive uris s /\
  snd (a_receive client_reads uris s) = client_receive uris s /\ snd (a_hello s) = read_hello s.
Proof. exact same_messages_ok. Qed.
Print Assumptions c118_same_messages.

(** A value that is accepted asks for at most K bytes for each byte it takes, where K bounds the size of the elements of
    the slices of all types; values with arrays of several dimensions or with an unreadable value inside are left out. *)
Theorem c118_accepted_partial : forall K E t s v rest,
  88 <= K -> (forall tid, fits K (TStruct (v_fields E tid)) = true) -> fits K t = true ->
  decode E t s = Ok v rest -> tame v = true ->
  asked E t s <= K * (Z.of_nat (length s) - Z.of_nat (length rest)).
Proof. exact accepted_bound. Qed.
Print Assumptions c118_accepted_partial.

(** For the messages of the protocol K is 384: requests, *)
Theorem c118_requests_partial : forall uris s name l rest, server_receive uris s = Ok (name, l) rest -> forallb tame l = true ->
  server_asked uris s <= 384 * (Z.of_nat (length s) - Z.of_nat (length rest)).
Proof. exact server_ok. Qed.
Print Assumptions c118_requests_partial.

(** and responses. *)
Theorem c118_responses_partial : forall uris s name l rest, client_receive uris s = Ok (name, l) rest -> forallb tame l = true ->
  client_asked uris s <= 384 * (Z.of_nat (length s) - Z.of_nat (length rest)).
Proof. exact client_ok. Qed.
Print Assumptions c118_responses_partial.

(** Messages that are refused ask for any amount: seven bytes, before the service is known, for two gigabytes, *)
Theorem c118_unknown_refuted : forall uris, length long_id = 7%nat /\
  server_asked uris long_id = 2147483647 /\ server_receive uris long_id = Err [] /\
  client_asked uris long_id = 2147483647 /\ client_receive uris long_id = Err [].
Proof. exact unknown_ok. Qed.
Print Assumptions c118_unknown_refuted.

(** the same seven bytes after the identifier of any request, *)
Theorem c118_request_refuted : forall uris id name, In (id, name) server_reads ->
  let s := write_nodeid (NNum 0 id) ++ long_id in
  server_asked uris s = 2147483647 /\ server_receive uris s = Err [].
Proof. exact request_ok. Qed.
Print Assumptions c118_request_refuted.

(** the four bytes of the length of a slice for that number of elements, *)
Theorem c118_slice_refuted : forall E t n, supported t = true -> solid t = true -> 0 < n < 2147483648 ->
  asked E (TSlice t) (four n) = n * go_size t /\ decode E (TSlice t) (four n) = Err [].
Proof. exact slice_ok. Qed.
Print Assumptions c118_slice_refuted.

(** an array of any type in a Variant, in five bytes, the same, *)
Theorem c118_array_refuted : forall E k tag n, kind_of_tag tag = Some k -> 0 < tag < 32 -> 0 < n < 2147483648 ->
  asked E TVar (le_enc 1 (tag + 128) ++ four n) = n * go_size (ty_of_kind k) /\ decode E TVar (le_enc 1 (tag + 128) ++ four n) = Err [].
Proof. exact array_ok. Qed.
Print Assumptions c118_array_refuted.

(** and a string or byte string what its length says, whatever follows. *)
Theorem c118_text_refuted : forall E t n rest, t = TB BString \/ t = TB BByteString \/ t = TB BXml \/ t = TBytes -> 0 <= n < 2147483648 ->
  asked E t (four n ++ rest) = n.
Proof. exact text_ok. Qed.
Print Assumptions c118_text_refuted.

(** a GetEndpoints request of 41 bytes, which needs no session, for 34 gigabytes, *)
Theorem c118_discovery_refuted : forall uris, length discovery = 41%nat /\
  server_asked uris discovery = 34359738352 /\ server_receive uris discovery = Err [].
Proof. exact discovery_ok. Qed.
Print Assumptions c118_discovery_refuted.

(** and a Hello of 32 bytes, which needs nothing, for two, whatever the buffer holds behind it. *)
Theorem c118_hello_refuted : forall recv send size chunks stale,
  0 <= recv < 2 ^ 32 -> 0 <= send < 2 ^ 32 -> 0 <= size < 2 ^ 32 -> 0 <= chunks < 2 ^ 32 -> Z.of_nat (length stale) < 2147483647 ->
  let s := [x48; x45; x4c; x46] ++ four 32 ++ four 0 ++ four recv ++ four send ++ four size ++ four chunks ++ longest_bytes ++ stale in
  hello_asked s = 2147483647 /\ read_hello s = Err [].
Proof. exact hello_ok. Qed.
Print Assumptions c118_hello_refuted.

(** Accepted values that are left out above do too: a DataValue of six bytes whose value cannot be read, *)
Theorem c118_value_refuted : forall E, let s := [x01; x0c] ++ longest_bytes in
  decode E TDV s = Ok (VDV VNil 2148597760 zero_time 0 zero_time 0) [] /\ asked E TDV s = 2147483647.
Proof. exact value_ok. Qed.
Print Assumptions c118_value_refuted.

(** a matrix of n empty rows in 17 bytes, *)
Theorem c118_rows_refuted : forall E n, 0 <= n < 2 ^ 31 -> let s := [xc1] ++ four 0 ++ four 2 ++ four n ++ four 0 in
  decode E TVar s = Ok (VMat2 (KB BBool) (repeat [] (Z.to_nat n))) [] /\ asked E TVar s = 8 + 24 * n.
Proof. exact rows_ok. Qed.
Print Assumptions c118_rows_refuted.

(** and n planes of m empty rows in 21. *)
Theorem c118_planes_refuted : forall E n m, 0 <= n < 2 ^ 31 -> 0 <= m < 2 ^ 31 ->
  let s := [xc1] ++ four 0 ++ four 3 ++ four n ++ four m ++ four 0 in
  decode E TVar s = Ok (VMat3 (KB BBool) (repeat (repeat [] (Z.to_nat m)) (Z.to_nat n))) [] /\
  asked E TVar s = 12 + 24 * n + 24 * n * m.
Proof. exact planes_ok. Qed.
Print Assumptions c118_planes_refuted.
