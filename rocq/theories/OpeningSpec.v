(** The first messages of a connection as OPC UA part 6, 7.1.2 gives them; Hello and Acknowledge are in KeysSpec. *)
From Coq Require Import ZArith List Bool Strings.Byte.
From Verif Require Import Bytes Prim Keys KeysSpec.
Import ListNotations.
Open Scope Z_scope.

(** The Error message without a reason: "ERRF", 16 bytes, the status code, a null string. *)
Definition error_layout (code : Z) : bytes := le_enc 4 1179800133 ++ le_enc 4 16 ++ le_enc 4 code ++ le_enc 4 4294967295.

(** The Hello message starts with these four bytes, "HELF". *)
Definition says_hello (b : bytes) : Prop := firstn 4 b = [x48; x45; x4c; x46].

(** The number in the bytes k to k+3, little-endian. *)
Definition number_at (k : nat) (b : bytes) : Z :=
  let at_ j := Z.of_N (Byte.to_N (nth (k + j) b x00)) in
  at_ 0%nat + 256 * at_ 1%nat + 65536 * at_ 2%nat + 16777216 * at_ 3%nat.

(** What the peers agree on: of each two sizes the smaller one, the limits for requests from the server, those for
    responses from the client. *)
Definition agreed (max max_size chunks : Z) (c : ends) : ends :=
  mkEnds (Z.min (e_send c) max) (Z.min (e_recv c) max) max_size chunks (e_max_res c) (e_res_chunks c).

(** A Hello message that says more of its URL than it brings: [n] bytes, of which [given] come. *)
Definition hello_short (c : ends) (n : Z) (given : bytes) : bytes :=
  le_enc 4 1179403592 ++ le_enc 4 (32 + Z.of_nat (length given)) ++ le_enc 4 0 ++
  le_enc 4 (e_recv c) ++ le_enc 4 (e_send c) ++ le_enc 4 (e_max_res c) ++ le_enc 4 (e_res_chunks c) ++ le_enc 4 n ++ given.
