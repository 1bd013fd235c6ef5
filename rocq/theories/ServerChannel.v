(** The server end of an established secure channel as a machine over received chunks.

    Sources: /repo/server/server_secure_channel.go (Open 266-385, readRequest
    1036-1463, handleOpenSecureChannel 1469-1511, handleCloseSecureChannel),
    /repo/server/server.go (requestWorker 416, handleRequest 432).

    Simplifications: chunks come from the stream one by one (Chunk.v has the reading of
    chunk lengths); the decoder of the request is an oracle; a service request other
    than OpenSecureChannel and CloseSecureChannel only shows as "handed over"; error
    codes are not distinguished: after any error the connection is closed. *)
From Coq Require Import ZArith List Bool Strings.Byte.
From Verif Require Import Bytes Prim Chunk Asym Keys.
Import ListNotations.
Open Scope Z_scope.

(** The decoded request.  server:1344-1462 *)
Inductive request : Type :=
| ReqOpen (renew : bool) (nonce : bytes)
| ReqClose
| ReqOther.

Inductive life : Type := Alive | Closed | Crashed.

(** What an observer of the server sees, in order. *)
Inductive event : Type :=
| Chunk (b part : bytes)                    (* a symmetric chunk was accepted; its part of the body *)
| OpenChunk (b part : bytes)                (* an OPN message was accepted *)
| Handed (body : bytes) (r : request)       (* a request was passed to handleRequest *)
| Issued (token : Z) (lnonce rnonce : bytes). (* an OpenSecureChannelResponse with this token and nonces *)

Record srv := mkSrv {
  v_life : life;
  v_chan : Z;
  v_mode : mode;                        (* securityMode: set once by Open *)
  v_pol : pname;                        (* securityPolicyURI: set by every OPN message *)
  v_cert : option bytes;                (* the last certificate whose key became remotePublicKey *)
  v_token : Z; v_pending : Z; v_last : Z; (* tokenID, pendingTokenID, lastTokenID *)
  v_lnonce : bytes; v_rnonce : bytes;
  v_rkeys : option (pname * keyset);    (* verifying, decrypting; None: nil *)
  v_lkeys : option (pname * keyset);    (* signing, encrypting *)
  v_max_chunks : Z; v_max_size : Z;
  v_count : Z; v_acc : bytes            (* chunkCount and bodyStream of the message being read *)
}.
Definition upd_life s x := mkSrv x (v_chan s) (v_mode s) (v_pol s) (v_cert s) (v_token s) (v_pending s) (v_last s)
  (v_lnonce s) (v_rnonce s) (v_rkeys s) (v_lkeys s) (v_max_chunks s) (v_max_size s) (v_count s) (v_acc s).
Definition upd_acc s n a := mkSrv (v_life s) (v_chan s) (v_mode s) (v_pol s) (v_cert s) (v_token s) (v_pending s) (v_last s)
  (v_lnonce s) (v_rnonce s) (v_rkeys s) (v_lkeys s) (v_max_chunks s) (v_max_size s) n a.
Definition upd_keys s t rk lk := mkSrv (v_life s) (v_chan s) (v_mode s) (v_pol s) (v_cert s) t (v_pending s) (v_last s)
  (v_lnonce s) (v_rnonce s) rk lk (v_max_chunks s) (v_max_size s) (v_count s) (v_acc s).
Definition upd_pol s p c := mkSrv (v_life s) (v_chan s) (v_mode s) p c (v_token s) (v_pending s) (v_last s)
  (v_lnonce s) (v_rnonce s) (v_rkeys s) (v_lkeys s) (v_max_chunks s) (v_max_size s) (v_count s) (v_acc s).
Definition upd_pending s t ln rn := mkSrv (v_life s) (v_chan s) (v_mode s) (v_pol s) (v_cert s) (v_token s) t t
  ln rn (v_rkeys s) (v_lkeys s) (v_max_chunks s) (v_max_size s) (v_count s) (v_acc s).

Section Server.
  Variable hmac : hash -> bytes -> bytes -> bytes.
  Variable cbc_dec : bytes -> bytes -> bytes -> bytes.       (* key, vector, text *)
  Variable rsa_dec : bytes -> option bytes.
  Variable rsa_verify : option bytes -> bytes -> bytes -> bool.
  Variable pol_uri : bytes -> option pname.                  (* the policy of a URI *)
  Variable cert_key : option bytes -> rkey.                  (* x509.ParseCertificates and PublicKey *)
  Variable lsize : Z.                                        (* localPrivateKey.Size() *)
  Variable decode : bytes -> option request.

  (** SymHMACFactory: hmac.New(sha1.New) for the first two policies, nil for None.
      ua/security_policy.go *)
  Definition sym_hash (p : pname) : hash := match p with PBasic128Rsa15 | PBasic256 => Sha1 | _ => Sha256 end.
  Definition has_hmac (k : option (pname * keyset)) : bool :=
    match k with None | Some (PNone, _) => false | _ => true end.

  (** server:1091-1149 "detect new token".  None: BadSecureChannelTokenUnknown, or
      BadDecodingError from aes.NewCipher with an empty key. *)
  Definition select_token (s : srv) (t : Z) : option srv :=
    if v_token s =? t then Some s
    else if negb (t =? v_pending s) then None
    else if encrypted (v_mode s) && match v_pol s with PNone => true | _ => false end then None
    else
      let rk := if secured (v_mode s) then Some (v_pol s, derive hmac (v_pol s) (v_lnonce s) (v_rnonce s)) else v_rkeys s in
      let lk := if secured (v_mode s) then Some (v_pol s, derive hmac (v_pol s) (v_rnonce s) (v_lnonce s)) else v_lkeys s in
      Some (upd_keys s (v_pending s) rk lk).

  Definition conf_of (s : srv) : conf :=
    mkConf Server (v_mode s) (sig_size (pol_of (v_pol s))) (blk_size (pol_of (v_pol s))) (v_chan s) (v_token s)
           (v_max_chunks s) (v_max_size s).
  Definition verify_with (k : option (pname * keyset)) (m : bytes) : bytes :=
    match k with Some (p, k) => hmac (sym_hash p) (k_sign k) m | None => [] end.
  Definition decrypt_with (k : option (pname * keyset)) (c : bytes) : bytes :=
    match k with Some (_, k) => cbc_dec (k_enc k) (k_iv k) c | None => [] end.

  (** server:1074-1212 one symmetric chunk *)
  Definition srv_chunk (s : srv) (b : bytes) : srv * rx :=
    let count := Z.of_nat (length b) in
    if negb (count =? u32_at 4 b) then (s, RxErr)
    else if count <? 16 then (s, RxErr)
    else if negb (u32_at 8 b =? v_chan s) then (s, RxErr)
    else match select_token s (u32_at 12 b) with
    | None => (s, RxErr)
    | Some s' =>
        (* a nil symDecryptingBlockCipher or symVerifyHMAC *)
        if secured (v_mode s') && negb (has_hmac (v_rkeys s')) then (s', RxPanic)
        else (s', open_chunk (verify_with (v_rkeys s')) (decrypt_with (v_rkeys s')) (conf_of s') b)
    end.

  (** server:1214-1341 one OPN message; [stale] is what the buffer holds behind it *)
  Definition effective (s : srv) (c : option bytes) : option bytes := match cert_key c with NoKey => v_cert s | _ => c end.
  Definition srv_open (s : srv) (b stale : bytes) : srv * rx :=
    match recv_open rsa_dec (fun c => rsa_verify (effective s c))
            (fun uri => match pol_uri uri with Some PNone => Some false | Some _ => Some true | None => None end)
            (fun c => cert_key (effective s c)) Server lsize b stale with
    | AOpened uri cert _ rid body =>
        match pol_uri uri with
        | None => (s, RxErr)
        | Some PNone => (upd_pol s PNone (v_cert s), RxPart true rid body)
        | Some p => (upd_pol s p (effective s cert), RxPart true rid body)
        end
    | APanics => (s, RxPanic)
    | _ => (s, RxErr)
    end.

  (** server:1469-1500 handleOpenSecureChannel; [fresh] is the new random nonce *)
  Definition srv_renew (s : srv) (nonce fresh : bytes) : srv * list event :=
    let ln := if secured (v_mode s) then fresh else [] in
    let t := next_counter (v_last s) in
    (upd_pending s t ln nonce, [Issued t ln nonce]).

  (** server.go:416-480: the request is handed over.  handleCloseSecureChannel returns the
      error value Good, which ends the worker. *)
  Definition srv_handle (s : srv) (body fresh : bytes) : srv * list event :=
    match decode body with
    | None => (upd_life s Closed, [])
    | Some r =>
        let s := upd_acc s 0 [] in
        match r with
        | ReqOther => (s, [Handed body r])
        | ReqClose => (upd_life s Closed, [Handed body r])
        | ReqOpen false _ => (upd_life s Closed, [Handed body r])
        | ReqOpen true nonce => let (s', ev) := srv_renew s nonce fresh in (s', Handed body r :: ev)
        end
    end.

  Inductive arrival : Type := Arrive (b stale fresh : bytes).

  (** One iteration of the loop of readRequest, and the handling of the request that
      it completes.  server:1051-1341 *)
  Definition srv_step (s : srv) (a : arrival) : srv * list event :=
    let '(Arrive b stale fresh) := a in
    match v_life s with
    | Closed | Crashed => (s, [])
    | Alive =>
        let k := v_count s + 1 in
        let lim := wrap32 (v_max_chunks s) in
        if (0 <? lim) && (lim <? k) then (upd_life s Closed, [])
        else
          let t := u32_at 0 b in
          let sym := (t =? t_final) || (t =? t_chunk) || (t =? t_close) in
          let (s1, r) := if sym then srv_chunk s b else srv_open s b stale in
          match r with
          | RxErr | RxOther _ => (upd_life s1 Closed, [])
          | RxPanic => (upd_life s1 Crashed, [])
          | RxPart final _ part =>
              let acc := v_acc s1 ++ part in
              let ev := if sym then Chunk b part else OpenChunk b part in
              if (0 <? v_max_size s1) && (v_max_size s1 <? Z.of_nat (length acc)) then (upd_life s1 Closed, [ev])
              else if final then
                let (s2, evs) := srv_handle (upd_acc s1 k acc) acc fresh in (s2, ev :: evs)
              else (upd_acc s1 k acc, [ev])
          end
    end.
  Fixpoint srv_run (s : srv) (l : list arrival) : srv * list event :=
    match l with
    | [] => (s, [])
    | a :: l' => let (s1, e1) := srv_step s a in let (s2, e2) := srv_run s1 l' in (s2, e1 ++ e2)
    end.

  (** server:272-385: the state after Open has answered the first OpenSecureChannelRequest *)
  Definition opened (chan : Z) (m : mode) (p : pname) (cert : option bytes) (t : Z) (ln rn : bytes) (mc ms : Z) : srv :=
    mkSrv Alive chan m p cert 0 t t ln rn None None mc ms 0 [].
End Server.
