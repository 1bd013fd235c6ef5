(** The statements of C118 and cases that meet their hypotheses. *)
From Coq Require Import ZArith String List Bool Lia Strings.Byte.
From Verif Require Import Bytes Prim Value StructTable MessageTable Messages Registry Keys Alloc AllocSpec AllocProofs.
Import ListNotations.
Open Scope Z_scope.

Lemma same_ok : forall E t s, snd (a_decode E t s) = decode E t s.
Proof. intros. apply same_decode. Qed.
Lemma same_messages_ok : forall uris s, snd (a_receive server_reads uris s) = server_receive uris s /\
  snd (a_receive client_reads uris s) = client_receive uris s /\ snd (a_hello s) = read_hello s.
Proof. intros. split; [apply same_receive|]. split; [apply same_receive|apply same_hello]. Qed.

Lemma server_ok : forall uris s name l rest, server_receive uris s = Ok (name, l) rest -> forallb tame l = true ->
  server_asked uris s <= 384 * (Z.of_nat (length s) - Z.of_nat (length rest)).
Proof. intros uris s name l rest. apply message_bound. Qed.
Lemma client_ok : forall uris s name l rest, client_receive uris s = Ok (name, l) rest -> forallb tame l = true ->
  client_asked uris s <= 384 * (Z.of_nat (length s) - Z.of_nat (length rest)).
Proof. intros uris s name l rest. apply message_bound. Qed.

(** a GetEndpoints request with two locales is accepted: it asks for 16 bytes for each locale and for the letters *)
Definition ask_endpoints : bytes :=
  write_nodeid (NNum 0 428) ++ [x00; x00] ++ le_enc 8 0 ++ four 1 ++ four 0 ++ four (-1) ++ four 1000 ++ [x00; x00; x00]
  ++ four (-1) ++ four 2 ++ (four 2 ++ [x65; x6e]) ++ (four 2 ++ [x64; x65]) ++ four 0.
Example server_case : exists l, server_receive [] ask_endpoints = Ok ("GetEndpointsRequest"%string, l) [] /\
  forallb tame l = true /\ server_asked [] ask_endpoints = 36.
Proof. eexists. split; [vm_compute; reflexivity|]. split; vm_compute; reflexivity. Qed.
(** a response with a string in a data value *)
Definition read_answer : bytes :=
  write_nodeid (NNum 0 634) ++ le_enc 8 0 ++ four 1 ++ four 0 ++ [x00] ++ four (-1) ++ [x00; x00; x00]
  ++ four 1 ++ ([x01; x0c] ++ four 3 ++ [x61; x62; x63]) ++ four (-1).
Example client_case : exists l, client_receive [] read_answer = Ok ("ReadResponse"%string, l) [] /\
  forallb tame l = true /\ client_asked [] read_answer = 91.
Proof. eexists. split; [vm_compute; reflexivity|]. split; vm_compute; reflexivity. Qed.
(** types of an application: a slice of pairs of a name and a value *)
Example fits_case : fits 88 (TSlice (TStruct [TB BString; TVar; TSlice (TB BTime)])) = true /\ go_size (TStruct [TB BString; TVar; TSlice (TB BTime)]) = 56.
Proof. split; reflexivity. Qed.
(** sizes that Go gives to some structures *)
Example sizes : map (fun l => go_size (TStruct l)) [f_ReadValueID; f_WriteValue; f_MonitoredItemCreateRequest; f_SignatureData] = [64; 128; 112; 32].
Proof. reflexivity. Qed.

Lemma unknown_ok : forall uris, length long_id = 7%nat /\
  server_asked uris long_id = 2147483647 /\ server_receive uris long_id = Err [] /\
  client_asked uris long_id = 2147483647 /\ client_receive uris long_id = Err [].
Proof.
  intro uris. unfold server_asked, client_asked, server_receive, client_receive.
  rewrite <- !(same_receive _ uris long_id), !unknown_asks. repeat split.
Qed.
Lemma request_ok : forall uris id name, In (id, name) server_reads ->
  let s := write_nodeid (NNum 0 id) ++ long_id in
  server_asked uris s = 2147483647 /\ server_receive uris s = Err [].
Proof.
  intros uris id name I s. unfold server_asked, server_receive. rewrite <- (same_receive _ uris s). unfold s.
  rewrite (request_asks uris id name I). split; reflexivity.
Qed.
Example request_case : In (446, "OpenSecureChannelRequest"%string) server_reads /\ length (write_nodeid (NNum 0 446) ++ long_id) = 11%nat.
Proof. split; [vm_compute; tauto|reflexivity]. Qed.
Lemma slice_ok : forall E t n, supported t = true -> solid t = true -> 0 < n < 2147483648 ->
  asked E (TSlice t) (four n) = n * go_size t /\ decode E (TSlice t) (four n) = Err [].
Proof. intros E t n S N B. unfold asked. rewrite <- (same_decode E (TSlice t) (four n)), slice_any by (assumption || lia). split; reflexivity. Qed.
Lemma array_ok : forall E k tag n, kind_of_tag tag = Some k -> 0 < tag < 32 -> 0 < n < 2147483648 ->
  asked E TVar (le_enc 1 (tag + 128) ++ four n) = n * go_size (ty_of_kind k) /\ decode E TVar (le_enc 1 (tag + 128) ++ four n) = Err [].
Proof. intros E k tag n T G B. unfold asked. rewrite <- (same_decode E TVar), (array_any E k) by (assumption || lia). split; reflexivity. Qed.
Example array_case : kind_of_tag 23 = Some KDV /\ go_size (ty_of_kind KDV) = 88.
Proof. split; reflexivity. Qed.
Lemma text_ok : forall E t n rest, t = TB BString \/ t = TB BByteString \/ t = TB BXml \/ t = TBytes -> 0 <= n < 2147483648 ->
  asked E t (four n ++ rest) = n.
Proof. intros. apply text_any; assumption. Qed.
Example slice_case : supported (TStruct f_AddNodesItem) = true /\ solid (TStruct f_AddNodesItem) = true /\ go_size (TStruct f_AddNodesItem) = 184.
Proof. repeat split. Qed.
Lemma discovery_ok : forall uris, length discovery = 41%nat /\
  server_asked uris discovery = 34359738352 /\ server_receive uris discovery = Err [].
Proof.
  intro uris. unfold server_asked, server_receive. rewrite <- (same_receive _ uris discovery), discovery_asks. repeat split.
Qed.
Lemma value_ok : forall E, let s := [x01; x0c] ++ longest_bytes in
  decode E TDV s = Ok (VDV VNil 2148597760 zero_time 0 zero_time 0) [] /\ asked E TDV s = 2147483647.
Proof. intros E s. unfold asked. rewrite <- (same_decode E TDV s). unfold s. rewrite value_asks. split; reflexivity. Qed.
Lemma rows_ok : forall E n, 0 <= n < 2 ^ 31 -> let s := [xc1] ++ four 0 ++ four 2 ++ four n ++ four 0 in
  decode E TVar s = Ok (VMat2 (KB BBool) (repeat [] (Z.to_nat n))) [] /\ asked E TVar s = 8 + 24 * n.
Proof.
  intros E n N s. unfold asked. rewrite <- (same_decode E TVar s). unfold s. rewrite rows_ask by exact N. split; [reflexivity|]. cbn [fst]. lia.
Qed.
Lemma planes_ok : forall E n m, 0 <= n < 2 ^ 31 -> 0 <= m < 2 ^ 31 ->
  let s := [xc1] ++ four 0 ++ four 3 ++ four n ++ four m ++ four 0 in
  decode E TVar s = Ok (VMat3 (KB BBool) (repeat (repeat [] (Z.to_nat m)) (Z.to_nat n))) [] /\
  asked E TVar s = 12 + 24 * n + 24 * n * m.
Proof.
  intros E n m N M s. unfold asked. rewrite <- (same_decode E TVar s). unfold s. rewrite planes_ask by assumption.
  split; [reflexivity|]. cbn [fst]. lia.
Qed.
Lemma hello_ok : forall recv send size chunks stale,
  0 <= recv < 2 ^ 32 -> 0 <= send < 2 ^ 32 -> 0 <= size < 2 ^ 32 -> 0 <= chunks < 2 ^ 32 -> Z.of_nat (length stale) < 2147483647 ->
  let s := [x48; x45; x4c; x46] ++ four 32 ++ four 0 ++ four recv ++ four send ++ four size ++ four chunks ++ longest_bytes ++ stale in
  hello_asked s = 2147483647 /\ read_hello s = Err [].
Proof.
  intros recv send size chunks stale A B C D S s. unfold hello_asked. rewrite <- (same_hello s). unfold s.
  rewrite hello_asks by assumption. split; reflexivity.
Qed.
Example hello_case : hello_asked ([x48; x45; x4c; x46] ++ four 32 ++ four 0 ++ four 65535 ++ four 65535 ++ four 0 ++ four 0 ++ longest_bytes ++ [x00; x00]) = 2147483647.
Proof. vm_compute. reflexivity. Qed.
