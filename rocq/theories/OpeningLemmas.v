(** Concrete cases for the theorems of OpeningProperties.v. *)
From Coq Require Import ZArith List Bool Lia Strings.Byte.
From Verif Require Import Bytes Prim CodecSpec PrimSpec Chunk Keys KeysSpec Framing FramingSpec Opening OpeningSpec OpeningProofs.
Import ListNotations.
Open Scope Z_scope.

Definition ex_client (send : Z) : Keys.ends := mkEnds 65536 send 0 0 16777216 64.
Definition ex_url : bytes := [x6f; x70; x63; x2e; x74; x63; x70; x3a; x2f; x2f; x68; x3a; x31].
Definition ex_open : bytes := le_enc 4 1179537487 ++ le_enc 4 12 ++ [x01; x02; x03; x04].

Lemma ex_ends : forall send, 0 <= send < 2 ^ 32 -> ends_ok (ex_client send).
Proof. intros send H. unfold ends_ok, u32_ok. cbn. lia. Qed.
Lemma ex_len : len_ok ex_url.
Proof. unfold len_ok. cbn. lia. Qed.
Lemma ex_open_whole : whole 8192 ex_open.
Proof. unfold whole. vm_compute. repeat split; discriminate. Qed.
Lemma cut_one : forall b : bytes, b <> [] -> cut b [b].
Proof. intros b H. split; [cbn; apply app_nil_r|repeat constructor; exact H]. Qed.

(** An ordinary client, in two pieces. *)
Example ex_accepted : exists r, server_begin 65536 16777216 64
    (mkConn [firstn 10 (hello_layout (ex_client 8192) ex_url); skipn 10 (hello_layout (ex_client 8192) ex_url) ++ ex_open] None) =
  FirstChunk (mkEnds 8192 65536 16777216 64 16777216 64) ex_url ex_open r
    [ack_layout (mkEnds 8192 65536 16777216 64 16777216 64)].
Proof.
  destruct (accepted_ok 65536 16777216 64 (ex_client 8192) ex_url ex_open [] [firstn 10 (hello_layout (ex_client 8192) ex_url); skipn 10 (hello_layout (ex_client 8192) ex_url) ++ ex_open] None) as (r & R & _).
  - cbn. lia.
  - apply ex_ends. lia.
  - exact ex_len.
  - exact ex_open_whole.
  - split; [vm_compute; reflexivity|repeat constructor; discriminate].
  - exists r. exact R.
Qed.

(** One that can send 7 bytes: 45 bytes end the server. *)
Example ex_small : server_begin 65536 16777216 64 (mkConn [hello_layout (ex_client 7) ex_url] None) =
  Crashes [ack_layout (mkEnds 7 65536 16777216 64 16777216 64)].
Proof.
  apply (small_ok 65536 16777216 64 (ex_client 7) ex_url []); [cbn; lia|apply ex_ends; lia|exact ex_len|cbn; lia|].
  rewrite app_nil_r. apply cut_one. discriminate.
Qed.

(** "GET / HTTP" and the like: the second four bytes are far above the size of the buffer. *)
Definition ex_http : bytes := [x47; x45; x54; x20; x2f; x20; x48; x54; x54; x50].
Example ex_oversize : server_begin 65536 0 0 (mkConn [ex_http] None) = Refuses [error_layout 2147942400].
Proof.
  apply (oversize_first 65536 0 0 ex_http); [lia|apply cut_one; discriminate|cbn; lia|vm_compute; reflexivity].
Qed.
(** An OPN chunk as the first message; a Hello of 20 bytes. *)
Example ex_refused : server_begin 65536 0 0 (mkConn [ex_open] None) = Refuses [error_layout 2147942400].
Proof.
  apply (refused_ok 65536 0 0 ex_open []); [lia| |rewrite app_nil_r; apply cut_one; discriminate|left; vm_compute; discriminate].
  destruct ex_open_whole as ((A & B) & C). split; [lia|exact C].
Qed.
(** Four bytes and then the end of the stream. *)
Example ex_unfinished : server_begin 65536 0 0 (mkConn [[x48; x45; x4c; x46]] (Some 1)) = Refuses [error_layout 2147942400] /\
  server_begin 65536 0 0 (mkConn [[x48; x45; x4c; x46]] None) = Waits [].
Proof.
  split; [apply (unfinished_first 65536 0 0 [x48; x45; x4c; x46] _ (Some 1))|apply (unfinished_first 65536 0 0 [x48; x45; x4c; x46] _ None)];
    try lia; try (apply cut_one; discriminate); left; cbn; lia.
Qed.

(** A URL of 20 bytes of which 2 come. *)
Example ex_beyond : exists r, server_begin 65536 0 0 (mkConn [hello_short (ex_client 8192) 20 [x61; x62]; ex_open] None) =
  FirstChunk (mkEnds 8192 65536 0 0 16777216 64) ([x61; x62] ++ repeat x00 18) ex_open r [ack_layout (mkEnds 8192 65536 0 0 16777216 64)].
Proof.
  apply (beyond_ok 65536 0 0 (ex_client 8192) 20 [x61; x62] ex_open); try (cbn; lia).
  - apply ex_ends. lia.
  - split; [cbn [concat]; rewrite app_nil_r; reflexivity|repeat constructor; discriminate].
  - exact ex_open_whole.
Qed.

(** The client: it is told the code, takes an Ack, refuses others, waits for a silent server. *)
Example ex_told : client_begin 65536 (ex_client 65536) ex_url [] (mkConn [error_layout 2147942400] None) = Fails 2147942400.
Proof.
  apply (told_ok 65536 (ex_client 65536) ex_url [] 2147942400 []); [lia|unfold u32_ok; lia|]. rewrite app_nil_r. apply cut_one. discriminate.
Qed.
(** The server names 4 GB for both sizes. *)
Example ex_enlarged : exists r, client_begin 65536 (ex_client 65536) ex_url [] (mkConn [ack_layout (mkEnds 4294967295 4294967295 0 0 0 0)] None) =
  Greeted (mkEnds 4294967295 4294967295 0 0 16777216 64) r.
Proof.
  destruct (greeted_ok 65536 (ex_client 65536) ex_url [] (mkEnds 4294967295 4294967295 0 0 0 0) [] [ack_layout (mkEnds 4294967295 4294967295 0 0 0 0)] None) as (r & R & _).
  - lia.
  - unfold ends_ok, u32_ok. cbn. lia.
  - rewrite app_nil_r. apply cut_one. discriminate.
  - exists r. exact R.
Qed.
Example ex_client_other : client_begin 65536 (ex_client 65536) ex_url [] (mkConn [ex_open] None) = Fails 2147942400.
Proof.
  apply (client_other 65536 (ex_client 65536) ex_url [] ex_open []);
    [|rewrite app_nil_r; apply cut_one; discriminate|vm_compute; discriminate|vm_compute; discriminate].
  destruct ex_open_whole as ((A & B) & C). split; [lia|exact C].
Qed.
Example ex_silent : client_begin 65536 (ex_client 65536) ex_url [] (mkConn [] None) = Hangs.
Proof. apply (client_unfinished 65536 (ex_client 65536) ex_url [] [] [] None); [lia|split; [reflexivity|constructor]|left; cbn; lia]. Qed.

(** The refusal of the server reaches the client. *)
Lemma passed_on : forall max max_size chunks cap own url left b t ps e qs, 32 <= max < 2 ^ 32 -> 16 <= cap -> whole max b -> cut (b ++ t) ps ->
  ~ says_hello b \/ Z.of_nat (length b) < 28 ->
  exists sent, server_begin max max_size chunks (mkConn ps e) = Refuses sent /\
    (cut (concat sent) qs -> forall e', client_begin cap own url left (mkConn qs e') = Fails 2147942400).
Proof.
  intros max max_size chunks cap own url left b t ps e qs M C W K H. eexists. split; [exact (refused_ok max max_size chunks b t ps e M W K H)|].
  cbn [concat]. intros Q e'. apply (told_ok cap own url left 2147942400 [] qs e' C); [unfold u32_ok; lia|exact Q].
Qed.
