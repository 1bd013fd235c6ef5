(** What the theorems about counters, key derivation and negotiation talk about. *)
From Coq Require Import ZArith List Bool Strings.Byte.
From Verif Require Import Bytes Prim Keys.
Import ListNotations.
Open Scope Z_scope.

(** The ids handed out by a counter that starts at zero: 1, 2, ..., 2^32-1, 1, 2, ... *)
Definition kth (i : nat) : Z := Z.of_nat i mod (2 ^ 32 - 1) + 1.

(** P_hash of RFC 5246, section 5:
      P_hash(secret, seed) = HMAC(secret, A(1) + seed) + HMAC(secret, A(2) + seed) + ...
      A(0) = seed, A(i) = HMAC(secret, A(i-1))
    [p_hash mac seed k] is its first [k] terms. *)
Fixpoint p_a (mac : bytes -> bytes) (seed : bytes) (i : nat) : bytes :=
  match i with O => seed | S i' => mac (p_a mac seed i') end.
Definition p_hash (mac : bytes -> bytes) (seed : bytes) (k : nat) : bytes :=
  concat (map (fun i => mac (p_a mac seed i ++ seed)) (seq 1 k)).

(** HMAC has the length of its hash: 20 bytes for SHA-1, 32 for SHA-256. *)
Definition good_hmac (hmac : hash -> bytes -> bytes -> bytes) : Prop :=
  forall h k m, Z.of_nat (length (hmac h k m)) = match h with Sha1 => 20 | Sha256 => 32 end.

(** The hash of the policies' key derivation, OPC UA part 7: P_SHA1 for the two oldest, P_SHA256
    for the others. *)
Definition standard_hash (p : pname) : hash :=
  match p with
  | PBasic128Rsa15 => Sha1 | PBasic256 => Sha1
  | PBasic256Sha256 => Sha256 | PAes128 => Sha256 | PAes256 => Sha256
  | PNone => Sha256
  end.
(** Lengths of signing key, encryption key and initialization vector, same source. *)
Definition standard_lengths (p : pname) : option (Z * Z * Z) :=
  match p with
  | PNone => None
  | PBasic128Rsa15 => Some (16, 16, 16)
  | PBasic256 => Some (24, 32, 16)
  | PBasic256Sha256 => Some (32, 32, 16)
  | PAes128 => Some (32, 16, 16)
  | PAes256 => Some (32, 32, 16)
  end.

Definition u32_ok (n : Z) : Prop := 0 <= n < 2 ^ 32.
Definition ends_ok (e : ends) : Prop :=
  u32_ok (e_recv e) /\ u32_ok (e_send e) /\ u32_ok (e_max_req e) /\ u32_ok (e_req_chunks e) /\
  u32_ok (e_max_res e) /\ u32_ok (e_res_chunks e).

(** The Hello and Acknowledge messages of OPC UA part 6, 7.1.2.3 and 7.1.2.4: type and
    length; version; receive buffer, send buffer, largest message, number of chunks of
    the party that sends it; the Hello ends with the endpoint. *)
Definition hello_layout (c : ends) (url : bytes) : bytes :=
  le_enc 4 1179403592 ++ le_enc 4 (32 + Z.of_nat (length url)) ++ le_enc 4 0 ++
  le_enc 4 (e_recv c) ++ le_enc 4 (e_send c) ++ le_enc 4 (e_max_res c) ++ le_enc 4 (e_res_chunks c) ++ write_string url.
Definition ack_layout (s : ends) : bytes :=
  le_enc 4 1179337537 ++ le_enc 4 28 ++ le_enc 4 0 ++
  le_enc 4 (e_recv s) ++ le_enc 4 (e_send s) ++ le_enc 4 (e_max_req s) ++ le_enc 4 (e_req_chunks s).
