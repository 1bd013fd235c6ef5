(** Client, server and the two streams between them across token renewals.

    Sources: /repo/client/client_secure_channel.go (Open 460-468, sendServiceRequest
    1266-1292, readResponse 1428-1454, renewToken 1762-1787, sendRequest 506-514),
    /repo/server/server_secure_channel.go (sendServiceResponse 960-1000, readRequest
    1084-1149, handleOpenSecureChannel 1469-1500).

    Simplifications: a message stands for one of its chunks and carries the token id and
    the keys it was secured with; a receiver accepts it when it holds exactly these keys
    (that equal keys are enough is C23; that they are needed is the strength of HMAC).
    OpenSecureChannel messages are secured with the certificates and always arrive. *)
From Coq Require Import ZArith List Bool Strings.Byte.
From Verif Require Import Bytes Chunk Keys.
Import ListNotations.
Open Scope Z_scope.

Inductive to_server : Type := CMsg (t : Z) (k : keyset) | COpen (nonce : bytes).
(** a response to a renewal names the request by its nonce *)
Inductive to_client : Type := SMsg (t : Z) (k : keyset) | SOpen (nonce : bytes) (t : Z) (snonce : bytes).

Record sys := mkSys {
  (* client *)
  n_tok : Z; n_stok : Z; n_rtok : Z;       (* tokenID, sendingTokenID, receivingTokenID *)
  n_ln : bytes; n_rn : bytes;              (* localNonce, remoteNonce *)
  n_lk : option keyset; n_rk : option keyset;
  n_hdr : option Z;                        (* a chunk whose header is written but whose keys are not chosen yet *)
  n_out : list bytes;                      (* nonces of the renewals in progress *)
  n_resp : list (bytes * Z * bytes);       (* responses received, not yet applied *)
  (* server *)
  w_tok : Z; w_pend : Z; w_last : Z;
  w_ln : bytes; w_rn : bytes;
  w_lk : option keyset; w_rk : option keyset;
  w_sw : option keyset;                    (* between the two halves of a token switch: the keys of the message read *)
  (* streams, and whether a genuine message was refused *)
  c2s : list to_server; s2c : list to_client;
  broken : bool
}.

Inductive rop : Type :=
| CHeader                    (* client: encoder.WriteUInt32(ch.tokenID) *)
| CFinish                    (* client: "detect new TokenId", sign, write *)
| RenewStart (nonce : bytes) (* client: OpenSecureChannelRequest is sent *)
| RenewApply (i : nat)       (* client: the goroutine that got the i-th response stores it *)
| SRecv (fresh : bytes)      (* server: reads the next message; [fresh] is the next random nonce *)
| SSwitch                    (* server: second half of a token switch *)
| SSend                      (* server: any goroutine sends a response *)
| CRecv.                     (* client: reads the next message *)

Definition keyset_eqb (a b : keyset) : bool :=
  bytes_eqb (k_sign a) (k_sign b) && bytes_eqb (k_enc a) (k_enc b) && bytes_eqb (k_iv a) (k_iv b).
Definition accepts (mine : option keyset) (k : keyset) : bool :=
  match mine with Some m => keyset_eqb m k | None => false end.
Fixpoint remove_nonce (n : bytes) (l : list bytes) : list bytes :=
  match l with [] => [] | x :: l' => if bytes_eqb x n then l' else x :: remove_nonce n l' end.
Fixpoint remove_at {A} (i : nat) (l : list A) : list A :=
  match i, l with _, [] => [] | O, _ :: l' => l' | S i', x :: l' => x :: remove_at i' l' end.

Section Renew.
  (** calculatePSHA and the split into keys: secret, seed *)
  Variable kd : bytes -> bytes -> keyset.

  Definition renew_step (y : sys) (o : rop) : sys :=
    let '(mkSys tok stok rtok ln rn lk rk hdr out resp wt wp wl wln wrn wlk wrk sw cs sc br) := y in
    match o with
    | CHeader =>                                            (* client:1270, under sendingSemaphore *)
        match hdr with
        | Some _ => y
        | None => mkSys tok stok rtok ln rn lk rk (Some tok) out resp wt wp wl wln wrn wlk wrk sw cs sc br
        end
    | CFinish =>                                            (* client:1273-1340 *)
        match hdr with
        | None => y
        | Some h =>
            let lk' := if tok =? stok then lk else Some (kd rn ln) in
            match lk' with
            | None => mkSys tok tok rtok ln rn lk rk None out resp wt wp wl wln wrn wlk wrk sw cs sc true
            | Some k => mkSys tok tok rtok ln rn lk' rk None out resp wt wp wl wln wrn wlk wrk sw (cs ++ [CMsg h k]) sc br
            end
        end
    | RenewStart nonce =>                                   (* client:1763-1770, under sendingSemaphore *)
        match hdr with
        | Some _ => y
        | None => mkSys tok stok rtok ln rn lk rk hdr (out ++ [nonce]) resp wt wp wl wln wrn wlk wrk sw (cs ++ [COpen nonce]) sc br
        end
    | RenewApply i =>                                       (* client:1779-1785 *)
        match nth_error resp i with
        | None => y
        | Some (nonce, t, sn) =>
            mkSys t stok rtok nonce sn lk rk hdr (remove_nonce nonce out) (remove_at i resp) wt wp wl wln wrn wlk wrk sw cs sc br
        end
    | SRecv fresh =>
        match sw, cs with
        | Some _, _ | _, [] => y
        | None, COpen nonce :: cs' =>                       (* server:1474-1500 *)
            let t := next_counter wl in
            mkSys tok stok rtok ln rn lk rk hdr out resp wt t t fresh nonce wlk wrk None cs' (sc ++ [SOpen nonce t fresh]) br
        | None, CMsg t k :: cs' =>
            if wt =? t then                                 (* server:1092 *)
              mkSys tok stok rtok ln rn lk rk hdr out resp wt wp wl wln wrn wlk wrk None cs' sc (br || negb (accepts wrk k))
            else if negb (t =? wp) then                     (* server:1093 *)
              mkSys tok stok rtok ln rn lk rk hdr out resp wt wp wl wln wrn wlk wrk None cs' sc true
            else                                            (* server:1096-1120 *)
              mkSys tok stok rtok ln rn lk rk hdr out resp wp wp wl wln wrn wlk (Some (kd wln wrn)) (Some k) cs' sc br
        end
    | SSwitch =>                                            (* server:1122-1146, then the verification *)
        match sw with
        | None => y
        | Some k => mkSys tok stok rtok ln rn lk rk hdr out resp wt wp wl wln wrn (Some (kd wrn wln)) wrk None cs sc (br || negb (accepts wrk k))
        end
    | SSend =>                                              (* server:960-1000 *)
        match wlk with
        | None => mkSys tok stok rtok ln rn lk rk hdr out resp wt wp wl wln wrn wlk wrk sw cs sc true
        | Some k => mkSys tok stok rtok ln rn lk rk hdr out resp wt wp wl wln wrn wlk wrk sw cs (sc ++ [SMsg wt k]) br
        end
    | CRecv =>
        match sc with
        | [] => y
        | SOpen nonce t sn :: sc' =>
            mkSys tok stok rtok ln rn lk rk hdr out (resp ++ [(nonce, t, sn)]) wt wp wl wln wrn wlk wrk sw cs sc' br
        | SMsg t k :: sc' =>                                (* client:1434-1454 *)
            let rk' := if t =? rtok then rk else Some (kd ln rn) in
            mkSys tok stok t ln rn lk rk' hdr out resp wt wp wl wln wrn wlk wrk sw cs sc' (br || negb (accepts rk' k))
        end
    end.

  (** after Open on both sides.  client:436-468 server:313-385 *)
  Definition renew_start (t : Z) (cn sn : bytes) : sys :=
    mkSys t 0 0 cn sn None None None [] [] 0 t t sn cn None None None [] [] false.
End Renew.
