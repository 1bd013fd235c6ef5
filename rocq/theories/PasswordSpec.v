(** What the theorems about passwords talk about. *)
From Coq Require Import ZArith List Bool Strings.Byte.
From Verif Require Import Bytes Keys Password.
Import ListNotations.
Open Scope Z_scope.

(** Bytes the padding takes: PKCS1 v1.5 eleven, OAEP two hashes and two bytes (RFC 8017). *)
Definition rsa_room (w : wrap) : Z :=
  match w with WRsaV15 => 11 | WRsaOaep => 2 * 20 + 2 | WRsaOaepSha256 => 2 * 32 + 2 | _ => 0 end.
(** The key wrap algorithm of each policy, OPC UA part 7. *)
Definition standard_wrap (p : pname) : wrap :=
  match p with
  | PNone => WNone
  | PBasic128Rsa15 => WRsaV15
  | PBasic256 | PBasic256Sha256 => WRsaOaep
  | PAes128 => WRsaOaep
  | PAes256 => WRsaOaepSha256
  end.
(** A working RSA pair with a key of [size] bytes: what was encrypted is recovered, an encrypted
    block has the size of the key, and nothing that has another size decrypts. *)
Definition rsa_works (enc : wrap -> nat -> bytes -> bytes) (dec : wrap -> bytes -> option bytes) (size : Z) : Prop :=
  forall w r p, Z.of_nat (length p) = size - rsa_room w ->
    Z.of_nat (length (enc w r p)) = size /\ dec w (enc w r p) = Some p.
Definition rsa_strict (dec : wrap -> bytes -> option bytes) (size : Z) : Prop :=
  forall w c, Z.of_nat (length c) <> size -> dec w c = None.

(** A key large enough for every algorithm. *)
Definition size_ok (size : Z) : Prop := 66 < size < 2 ^ 31.
(** len(D.Bytes()) for a private exponent [d] *)
Definition exponent_bytes (d : Z) : Z := if d <=? 0 then 0 else Z.log2 d / 8 + 1.

(** RSA as repetition: pads with the number of the algorithm; for examples. *)
Definition toy_enc (size : Z) (w : wrap) (r : nat) (p : bytes) : bytes :=
  repeat (byte_of_Z (rsa_room w)) (Z.to_nat (rsa_room w)) ++ p.
Definition toy_dec (size : Z) (w : wrap) (c : bytes) : option bytes :=
  if Z.of_nat (length c) =? size then Some (skipn (Z.to_nat (rsa_room w)) c) else None.
