(** The server's session table: CreateSession, ActivateSession, CloseSession, the check that
    every other service makes first, and expiry.

    Sources: /repo/server/session_manager.go, /repo/server/session.go,
    /repo/server/server_service_set.go (handleCreateSession 92-277, handleActivateSession
    280-864, handleCloseSession 867-963, the opening lines of the other 21 handlers, which are the
    same text).  A request is handled in one step; two handlers that run at the same time for the
    same session on different channels are not interleaved. *)
From Coq Require Import ZArith List Bool Strings.Byte.
From Verif Require Import Bytes Keys Password.
Import ListNotations.
Open Scope Z_scope.

(** ua.UserTokenType *)
Inductive ttype : Type := TAnonymous | TUserName | TCertificate | TIssued.
Definition ttype_eqb (a b : ttype) : bool :=
  match a, b with
  | TAnonymous, TAnonymous | TUserName, TUserName | TCertificate, TCertificate | TIssued, TIssued => true
  | _, _ => false
  end.
(** ua.UserTokenPolicy; no policy URI is [None] *)
Record tokpol := mkTokpol { tp_id : bytes; tp_type : ttype; tp_policy : option pname }.

(** What a handler sees of the secure channel.  The endpoint's policy URI may differ from the
    channel's when no endpoint matched. *)
Record chan := mkChan {
  ch_id : Z; ch_discovery : bool; ch_policy : pname; ch_key : Z;
  ch_tokens : list tokpol; ch_ep_policy : pname
}.

(** The user identity token of an ActivateSession request. *)
Inductive utoken : Type :=
| UAnonymous (pid : bytes)
| UUserName (pid user password : bytes) (alg : wrap)
| UX509 (pid cert : bytes)
| UIssued (pid data : bytes)
| UOther.                        (* nil or any other type *)
Inductive identity : Type :=
| IAnonymous | IUserName (user password : bytes) | IX509 (cert : bytes) | IIssued (data : bytes).
(** What an authenticator answers.  A missing authenticator is ARejects BadIdentityTokenRejected;
    an error that is not a status code makes the type assertion at 826 panic. *)
Inductive authres : Type := AAccepts | ARejects (code : Z) | AOtherError.

(** server/session.go:17-75, the fields used here; [None] as timeout is NaN *)
Record session := mkSession {
  s_timeout : option Z; s_last : Z; s_nonce : bytes; s_chan : Z; s_ident : option identity; s_app : bytes
}.
Record sstate := mkSState { ss_now : Z; ss_table : list (bytes * session) }.
Definition sstate_init : sstate := mkSState 0 [].

Inductive fault : Type :=
| FSessionIDInvalid | FSessionNotActivated | FSecureChannelIDInvalid | FCertificateURIInvalid | FNonceInvalid
| FTooManySessions | FApplicationSignatureInvalid | FTokenInvalid | FTokenRejected | FAuth (code : Z).

Inductive sop : Type :=
| OTick (ms : N)
| OCreate (ch : chan) (req_timeout : option Z) (app cert cnonce : bytes) (token nonce : bytes)
    (* token and nonce are the random bytes the server draws *)
| OActivate (ch : chan) (token sig : bytes) (ut : utoken) (usig : bytes) (nonce : bytes)
| OService (ch : chan) (token : bytes)
| OClose (ch : chan) (token : bytes)
| OSweep.

Inductive sev : Type :=
| EvNone
| EvCreated (token nonce : bytes) (timeout : option Z)
| EvActivated (token : bytes) (id : identity) (nonce : bytes)
| EvServed (token : bytes)
| EvClosed (token : bytes)
| EvFault (f : fault)
| EvAborted                 (* ch.Abort: the channel is closed *)
| EvEnds                    (* the handler returns an error: the connection is closed *)
| EvPanic.

Fixpoint slook (l : list (bytes * session)) (k : bytes) : option session :=
  match l with [] => None | (k', s) :: l' => if bytes_eqb k' k then Some s else slook l' k end.
Definition sdel (l : list (bytes * session)) (k : bytes) : list (bytes * session) :=
  filter (fun e => negb (bytes_eqb (fst e) k)) l.
(** m[k] = s *)
Definition sput (l : list (bytes * session)) (k : bytes) (s : session) : list (bytes * session) := sdel l k ++ [(k, s)].

(** server.go:34-37 *)
Definition nonceLength : Z := 32.
Definition minSessionTimeout : Z := 10000.
Definition maxSessionTimeout : Z := 3600000.
(** server_service_set.go:217-223; comparisons with NaN are false *)
Definition clamp_timeout (t : option Z) : option Z :=
  match t with
  | None => None
  | Some t => let t := if t <? minSessionTimeout then minSessionTimeout else t in
              Some (if maxSessionTimeout <? t then maxSessionTimeout else t)
  end.

Section Session.
  Variable max_sessions : Z.
  Variable local_cert : bytes.
  Variable nan_ms : Z.               (* int64(NaN): depends on the processor *)
  Variable dlen : Z.                 (* len(localPrivateKey.D.Bytes()) *)
  Variable verify : Z -> pname -> bytes -> bytes -> bool.   (* key, policy, message, signature *)
  Variable dec : wrap -> bytes -> option bytes.             (* RSA decryption with the server's key *)
  Variable cert_key : bytes -> option Z.                    (* first certificate parses and has an RSA key *)
  Variable cert_uris : bytes -> list bytes.                 (* URIs of the first certificate, [] if none parses *)
  Variable auth : identity -> bytes -> authres.             (* identity, application URI *)

  (** server/session.go:149 IsExpired; [now] and [s_last] in milliseconds *)
  Definition expired (now : Z) (s : session) : bool :=
    (match s_timeout s with Some t => t | None => nan_ms end) <? now - s_last s.
  (** session_manager.go:40 Get *)
  Definition get (st : sstate) (token : bytes) : option session :=
    match slook (ss_table st) token with
    | Some s => if expired (ss_now st) s then None else Some s
    | None => None
    end.
  Definition touch (now : Z) (s : session) : session :=
    mkSession (s_timeout s) now (s_nonce s) (s_chan s) (s_ident s) (s_app s).
  Definition touched (st : sstate) (token : bytes) (s : session) : sstate :=
    mkSState (ss_now st) (sput (ss_table st) token (touch (ss_now st) s)).

  (** 313-337: nothing is checked under policy None *)
  Definition signed (key : Z) (p : pname) (msg sig : bytes) : bool :=
    match p with PNone => true | _ => verify key p msg sig end.
  Definition find_policy (ch : chan) (ty : ttype) (pid : bytes) : option tokpol :=
    find (fun t => ttype_eqb (tp_type t) ty && bytes_eqb (tp_id t) pid) (ch_tokens ch).

  (** 358-782: the identity claimed, or the fault.  [None]: no case of the switch applies. *)
  Inductive claim : Type := Claim (id : identity) | NoClaim | Bad (f : fault) | Ends.
  Definition claimed (ch : chan) (nonce : bytes) (ut : utoken) (usig : bytes) : claim :=
    match ut with
    | UIssued pid data =>
        (* 364: the policy looked for has token type Certificate *)
        match find_policy ch TCertificate pid with
        | None => Bad FTokenInvalid
        | Some _ => Claim (IIssued data)
        end
    | UX509 pid cert =>
        match find_policy ch TCertificate pid with
        | None => Bad FTokenInvalid
        | Some t =>
            match cert_key cert with
            | None => Bad FTokenInvalid
            | Some key =>
                if signed key (match tp_policy t with Some p => p | None => ch_policy ch end) (local_cert ++ nonce) usig
                then Claim (IX509 cert) else Bad FTokenRejected
            end
        end
    | UUserName pid user password alg =>
        match find_policy ch TUserName pid with
        | None => Bad FTokenInvalid
        | Some t =>
            if match user with [] => true | _ => false end then Bad FTokenInvalid
            else match server_password dec (match tp_policy t with Some p => p | None => ch_ep_policy ch end) dlen alg password with
                 | PwGot pw => Claim (IUserName user pw)
                 | PwRejected => Bad FTokenRejected
                 | PwInvalid => Bad FTokenInvalid
                 | PwEnds => Ends
                 end
        end
    | UAnonymous pid =>
        match find_policy ch TAnonymous pid with
        | None => Bad FTokenInvalid
        | Some _ => Claim IAnonymous
        end
    | UOther => NoClaim
    end.

  Definition sstep (st : sstate) (o : sop) : sstate * sev :=
    match o with
    | OTick ms => (mkSState (ss_now st + Z.of_N ms) (ss_table st), EvNone)
    (* session_manager.go:84 checkForExpiredSessions *)
    | OSweep => (mkSState (ss_now st) (filter (fun e => negb (expired (ss_now st) (snd e))) (ss_table st)), EvNone)
    | OCreate ch req_timeout app cert cnonce token nonce =>
        if ch_discovery ch then (st, EvAborted)
        else
          let secured := match ch_policy ch with PNone => false | _ => true end in
          if secured && negb (match app with [] => false | _ => existsb (fun u => bytes_eqb u app) (cert_uris cert) end)
          then (st, EvFault FCertificateURIInvalid)
          else if secured && (Z.of_nat (length cnonce) <? nonceLength) then (st, EvFault FNonceInvalid)
          else
            let t := clamp_timeout req_timeout in
            let s := mkSession t (ss_now st) nonce 0 None app in
            if (0 <? max_sessions) && (max_sessions <=? Z.of_nat (length (ss_table st)))
            then (st, EvFault FTooManySessions)
            else (mkSState (ss_now st) (sput (ss_table st) token s), EvCreated token nonce t)
    | OActivate ch token sig ut usig nonce =>
        if ch_discovery ch then (st, EvAborted)
        else match get st token with
        | None => (st, EvFault FSessionIDInvalid)
        | Some s =>
            let st1 := touched st token s in
            if negb (signed (ch_key ch) (ch_policy ch) (local_cert ++ s_nonce s) sig)
            then (st1, EvFault FApplicationSignatureInvalid)
            else match claimed ch (s_nonce s) ut usig with
            | Bad f => (st1, EvFault f)
            | Ends => (st1, EvEnds)
            | NoClaim => (st1, EvFault FTokenRejected)
            | Claim id =>
                match auth id (s_app s) with
                | ARejects code => (st1, EvFault (FAuth code))
                | AOtherError => (st1, EvPanic)
                | AAccepts =>
                    (mkSState (ss_now st) (sput (ss_table st) token
                       (mkSession (s_timeout s) (ss_now st) nonce (ch_id ch) (Some id) (s_app s))),
                     EvActivated token id nonce)
                end
            end
        end
    | OService ch token =>
        if ch_discovery ch then (st, EvAborted)
        else match get st token with
        | None => (st, EvFault FSessionIDInvalid)
        | Some s =>
            if s_chan s =? 0 then (mkSState (ss_now st) (sdel (ss_table st) token), EvFault FSessionNotActivated)
            else if negb (s_chan s =? ch_id ch) then (touched st token s, EvFault FSecureChannelIDInvalid)
            else (touched st token s, EvServed token)
        end
    | OClose ch token =>
        if ch_discovery ch then (st, EvAborted)
        else match get st token with
        | None => (st, EvFault FSessionIDInvalid)
        | Some s =>
            if s_chan s =? 0 then (mkSState (ss_now st) (sdel (ss_table st) token), EvFault FSessionNotActivated)
            else if negb (s_chan s =? ch_id ch) then (touched st token s, EvFault FSecureChannelIDInvalid)
            else (mkSState (ss_now st) (sdel (ss_table st) token), EvClosed token)
        end
    end.

  (** The history of a run: what was asked, when and with what outcome; the latest first. *)
  Record entry := mkEntry { en_time : Z; en_op : sop; en_ev : sev }.
  Definition sstep' (x : sstate * list entry) (o : sop) : sstate * list entry :=
    let '(st, h) := x in
    let '(st', e) := sstep st o in (st', mkEntry (ss_now st) o e :: h).
  Definition srun (ops : list sop) : sstate * list entry := fold_left sstep' ops (sstate_init, []).
End Session.
