(** How the client encrypts a user name password and how the server decrypts it.

    Sources: /repo/client/client.go (open 555-681),
    /repo/server/server_service_set.go (handleActivateSession 556-752).
    RSA is a pair of functions; the parts the code computes are modelled. *)
From Coq Require Import ZArith List Bool Strings.Byte.
From Verif Require Import Bytes Keys.
Import ListNotations.
Open Scope Z_scope.

(** Key wrap algorithms: ua.RsaV15KeyWrap, ua.RsaOaepKeyWrap, ua.RsaOaepSha256KeyWrap, "" and any
    other URI. *)
Inductive wrap : Type := WNone | WRsaV15 | WRsaOaep | WRsaOaepSha256 | WOther.
Definition wrap_eqb (a b : wrap) : bool :=
  match a, b with
  | WNone, WNone | WRsaV15, WRsaV15 | WRsaOaep, WRsaOaep | WRsaOaepSha256, WRsaOaepSha256 | WOther, WOther => true
  | _, _ => false
  end.

(** buf.Read(p) on a partition buffer holding [s]: fills p with what there is; the rest of p
    keeps its old bytes.  Returns the new p and what stays in the buffer. *)
Definition read_into (p s : bytes) : bytes * bytes :=
  (firstn (length p) s ++ skipn (length s) p, skipn (length p) s).

(** client.go:578,611,644 how many bytes fewer than the key a block has *)
Definition overhead (w : wrap) : Z :=
  match w with WRsaV15 => 11 | WRsaOaep => 42 | WRsaOaepSha256 => 66 | _ => 0 end.
(** client.go:574-672 server:559-741 the algorithm the policy asks for *)
Definition wrap_of (p : pname) : wrap :=
  match p with
  | PBasic128Rsa15 => WRsaV15
  | PBasic256 | PBasic256Sha256 | PAes128 => WRsaOaep
  | PAes256 => WRsaOaepSha256
  | PNone => WNone
  end.

(** What the server makes of the encrypted password. *)
Inductive pwres : Type :=
| PwGot (password : bytes)
| PwRejected            (* BadIdentityTokenRejected *)
| PwInvalid             (* BadIdentityTokenInvalid *)
| PwEnds.               (* the handler returns the error: the connection is closed *)

Section Password.
  (** RSA with the algorithm's padding.  The client's encryption takes fresh randomness, [r]. *)
  Variable enc : wrap -> nat -> bytes -> bytes.
  Variable dec : wrap -> bytes -> option bytes.

  (** client.go:585-593, 618-626, 651-659: [k] blocks at most, [p] the reused block *)
  Fixpoint enc_loop (w : wrap) (k : nat) (r : nat) (p s : bytes) : bytes :=
    match k with
    | O => []
    | S k' =>
        match s with
        | [] => []
        | _ => let '(p', s') := read_into p s in enc w r p' ++ enc_loop w k' (S r) p' s'
        end
    end.
  (** client.go:567-681.  [size] is publickey.Size(); make panics when the block would be
      negative (keys that small fail the channel).  A block of zero bytes never empties the
      buffer; the real loop would not end, the model's budget does. *)
  Definition client_password (pol : pname) (size : Z) (r : nat) (password nonce : bytes) : wrap * bytes :=
    match pol with
    | PNone => (WNone, password)
    | _ =>
        let w := wrap_of pol in
        let s := le_enc 4 (u32 (Z.of_nat (length password + length nonce))) ++ password ++ nonce in
        (w, enc_loop w (length s) r (repeat x00 (Z.to_nat (size - overhead w))) s)
    end.

  (** server:592-600, 651-659, 710-718 *)
  Fixpoint dec_loop (w : wrap) (k : nat) (p s : bytes) : option bytes :=
    match k with
    | O => Some []
    | S k' =>
        match s with
        | [] => Some []
        | _ =>
            let '(p', s') := read_into p s in
            match dec w p' with
            | None => None
            | Some x => match dec_loop w k' p' s' with None => None | Some y => Some (x ++ y) end
            end
        end
    end.
  (** server:559-741.  [dlen] is len(srv.localPrivateKey.D.Bytes()), the number of bytes of the
      private exponent without leading zeros.  binary.Read of fewer than four bytes leaves 0. *)
  Definition server_password (pol : pname) (dlen : Z) (alg : wrap) (cipher : bytes) : pwres :=
    match pol with
    | PNone => PwGot cipher
    | _ =>
        let w := wrap_of pol in
        if negb (wrap_eqb alg w) then PwInvalid
        else match dec_loop w (length cipher) (repeat x00 (Z.to_nat dlen)) cipher with
             | None => PwEnds
             | Some plain =>
                 let n := if Z.of_nat (length plain) <? 4 then 0 else le_dec (firstn 4 plain) in
                 if (n <? 32) || (96 <? n) then PwRejected
                 else PwGot (fst (read_into (repeat x00 (Z.to_nat (n - 32))) (skipn 4 plain)))
             end
    end.
End Password.
