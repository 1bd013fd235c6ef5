(** How the client opens its session: what it checks of the server's answer to CreateSession, what it
    sends with ActivateSession, and the tables it reads afterwards.  Also how the server signs its
    answer to CreateSession.

    Sources: /repo/client/client.go (Dial 109-118, open 232-739), /repo/client/client_secure_channel.go
    (newClientSecureChannel 188-192), /repo/server/server_service_set.go (handleCreateSession 161-208). *)
From Coq Require Import ZArith List Bool String.
From Verif Require Import Bytes Text Keys Password Session.
Import ListNotations.
Open Scope Z_scope.

(** ua/security_policy.go 17-22: the policies by their URIs; [None] is any other text *)
Definition uri_policy (uri : bytes) : option pname :=
  if bytes_eqb uri (lit "http://opcfoundation.org/UA/SecurityPolicy#None"%string) then Some PNone
  else if bytes_eqb uri (lit "http://opcfoundation.org/UA/SecurityPolicy#Basic128Rsa15"%string) then Some PBasic128Rsa15
  else if bytes_eqb uri (lit "http://opcfoundation.org/UA/SecurityPolicy#Basic256"%string) then Some PBasic256
  else if bytes_eqb uri (lit "http://opcfoundation.org/UA/SecurityPolicy#Basic256Sha256"%string) then Some PBasic256Sha256
  else if bytes_eqb uri (lit "http://opcfoundation.org/UA/SecurityPolicy#Aes128_Sha256_RsaOaep"%string) then Some PAes128
  else if bytes_eqb uri (lit "http://opcfoundation.org/UA/SecurityPolicy#Aes256_Sha256_RsaPss"%string) then Some PAes256
  else None.
(** The switches have no case for None or for other texts: both take the default. *)
Definition effective (uri : bytes) : pname := match uri_policy uri with Some p => p | None => PNone end.

(** What the switches do with a hash: SignPKCS1v15 or SignPSS with SHA1 or SHA256. *)
Inductive scheme : Type := Pkcs1Sha1 | Pkcs1Sha256 | PssSha256.
(** client.go 269-300, 304-350, 493-546; server_service_set.go 163-207; [None]: the default *)
Definition scheme_of (p : pname) : option scheme :=
  match p with
  | PNone => None
  | PBasic128Rsa15 | PBasic256 => Some Pkcs1Sha1
  | PBasic256Sha256 | PAes128 => Some Pkcs1Sha256
  | PAes256 => Some PssSha256
  end.
(** ua/rsa_uris.go 7-9 *)
Definition scheme_uri (s : scheme) : bytes :=
  match s with
  | Pkcs1Sha1 => lit "http://www.w3.org/2000/09/xmldsig#rsa-sha1"%string
  | Pkcs1Sha256 => lit "http://www.w3.org/2001/04/xmldsig-more#rsa-sha256"%string
  | PssSha256 => lit "http://opcfoundation.org/UA/security/rsa-pss-sha2-256"%string
  end.
(** ua.SignatureData *)
Record signature := mkSig { g_alg : bytes; g_bytes : bytes }.
Definition no_signature : signature := mkSig [] [].

(** What x509.ParseCertificates makes of a byte string: nothing usable, a first certificate whose key is
    not RSA, or one with an RSA key. *)
Inductive certkey : Type := NoCert | OtherKey | RSAKey (k : Z).

(** ua.UserTokenPolicy.  Token types other than the four match no search. *)
Record token_policy := mkTP { p_id : bytes; p_type : ttype; p_uri : bytes }.
(** ch.userIdentity: anything but the three listed types counts as anonymous. *)
Inductive user : Type := Anyone | Named (name password : bytes) | Holder (cert : bytes) (key : Z) | Issued (data : bytes).
(** The client, once an endpoint is selected.  [c_key] is the private key. *)
Record client := mkClient {
  c_policy : bytes; c_server_cert : bytes; c_tokens : list token_policy; c_cert : bytes; c_key : Z; c_user : user
}.
(** The parts of ua.CreateSessionResponse the client could look at; [r_endpoints] stands for ServerEndpoints. *)
Record created := mkCreated {
  r_token : bytes; r_nonce : bytes; r_cert : bytes; r_signature : signature; r_endpoints : list bytes
}.
(** ua.ActivateSessionRequest *)
Record activate := mkActivate { a_token : bytes; a_signature : signature; a_user : utoken; a_alg : wrap; a_user_signature : signature }.

(** [Fails]: the error returned.  [SignError]: the error of rsa.Sign.  [Hangs]: the encryption loop does
    not end. *)
Inductive opened : Type := Sends (a : activate) | Fails (code : Z) | SignError | Panics | Hangs.

Definition BadCertificateInvalid : Z := 0x80120000.
Definition BadApplicationSignatureInvalid : Z := 0x80580000.
Definition BadIdentityTokenRejected : Z := 0x80210000.

(** Dial 109-118: the application URI of the description sent *)
Definition application_uri (uris : list bytes) (default : bytes) : bytes := match uris with u :: _ => u | [] => default end.

Section ClientSession.
  Variable cert_key : bytes -> certkey.
  Variable size : Z -> Z.                                         (* publickey.Size() *)
  Variable sign : Z -> scheme -> bytes -> option bytes.           (* private key *)
  Variable verify : Z -> scheme -> bytes -> bytes -> bool.        (* public key, message, signature *)
  Variable enc : Z -> wrap -> nat -> bytes -> bytes.              (* public key *)

  (** handleCreateSession 161-207; [None]: the handler returns the error of rsa.Sign *)
  Definition server_signature (key : Z) (p : pname) (client_cert client_nonce : bytes) : option signature :=
    match scheme_of p with
    | None => Some no_signature
    | Some s => match sign key s (client_cert ++ client_nonce) with Some g => Some (mkSig (scheme_uri s) g) | None => None end
    end.

  (** newClientSecureChannel 188-192: remotePublicKey, [None] is nil; line 190 asserts the key's type *)
  Definition remote_key (cert : bytes) : option (option Z) :=
    match cert_key cert with NoCert => Some None | RSAKey k => Some (Some k) | OtherKey => None end.

  Definition first_of (ty : ttype) (l : list token_policy) : option token_policy := find (fun t => ttype_eqb (p_type t) ty) l.
  (** secPolicyURI: 365-368, 487-490, 568-571 *)
  Definition token_uri (c : client) (t : token_policy) : bytes := match p_uri t with [] => c_policy c | u => u end.

  (** 370-472 and 573-680: the secret as it is sent.  make panics if the block has negative size; with
      blocks of no bytes plainBuf never becomes empty. *)
  Inductive protected : Type := Protected (alg : wrap) (data : bytes) | NoKey | BadSize | Endless.
  Definition protect (key : option Z) (p : pname) (r : nat) (secret nonce : bytes) : protected :=
    match p with
    | PNone => Protected WNone secret
    | _ =>
        match key with
        | None => NoKey
        | Some k =>
            let n := size k - overhead (wrap_of p) in
            if n <? 0 then BadSize else if n =? 0 then Endless
            else let '(alg, data) := client_password (enc k) p (size k) r secret nonce in Protected alg data
        end
    end.

  (** open 352-697: the user identity token.  [r]: the randomness used. *)
  Inductive presented : Type := Token (ut : utoken) (alg : wrap) (sig : signature) | Not (o : opened).
  Definition present (c : client) (key : option Z) (r : nat) (nonce : bytes) : presented :=
    match c_user c with
    | Issued data =>
        match first_of TIssued (c_tokens c) with
        | None => Not (Fails BadIdentityTokenRejected)
        | Some t =>
            match protect key (effective (token_uri c t)) r data nonce with
            | Protected alg d => Token (UIssued (p_id t) d) alg no_signature
            | NoKey => Not (Fails BadIdentityTokenRejected)
            | BadSize => Not Panics
            | Endless => Not Hangs
            end
        end
    | Holder cert k =>
        match first_of TCertificate (c_tokens c) with
        | None => Not (Fails BadIdentityTokenRejected)
        | Some t =>
            match scheme_of (effective (token_uri c t)) with
            | None => Token (UX509 (p_id t) cert) WNone no_signature
            | Some s => match sign k s (c_server_cert c ++ nonce) with
                        | Some g => Token (UX509 (p_id t) cert) WNone (mkSig (scheme_uri s) g)
                        | None => Not SignError
                        end
            end
        end
    | Named name password =>
        match first_of TUserName (c_tokens c) with
        | None => Not (Fails BadIdentityTokenRejected)
        | Some t =>
            match protect key (effective (token_uri c t)) r password nonce with
            | Protected alg d => Token (UUserName (p_id t) name d alg) alg no_signature
            | NoKey => Not (Fails BadIdentityTokenRejected)
            | BadSize => Not Panics
            | Endless => Not Hangs
            end
        end
    | Anyone =>
        match first_of TAnonymous (c_tokens c) with
        | None => Not (Fails BadIdentityTokenRejected)
        | Some t => Token (UAnonymous (p_id t)) WNone no_signature
        end
    end.

  (** open 257-709, from the answer to CreateSession to the ActivateSession request; the call of
      createSession has succeeded.  [cnonce]: the nonce the client drew.  rsa.Verify dereferences the
      key. *)
  Definition after_create (c : client) (cnonce : bytes) (r : nat) (res : created) : opened :=
    match remote_key (c_server_cert c) with
    | None => Panics
    | Some key =>
        if negb (bytes_eqb (c_server_cert c) (r_cert res)) then Fails BadCertificateInvalid
        else
          let checked :=
            match scheme_of (effective (c_policy c)) with
            | None => None
            | Some s =>
                match key with
                | None => Some Panics
                | Some k => if verify k s (c_cert c ++ cnonce) (g_bytes (r_signature res)) then None
                            else Some (Fails BadApplicationSignatureInvalid)
                end
            end in
          match checked with
          | Some o => o
          | None =>
              let mine :=
                match scheme_of (effective (c_policy c)) with
                | None => Some no_signature
                | Some s => match sign (c_key c) s (c_server_cert c ++ r_nonce res) with
                            | Some g => Some (mkSig (scheme_uri s) g)
                            | None => None
                            end
                end in
              match mine with
              | None => SignError
              | Some sig =>
                  match present c key r (r_nonce res) with
                  | Not o => o
                  | Token ut alg usig => Sends (mkActivate (r_token res) sig ut alg usig)
                  end
              end
          end
    end.
End ClientSession.

(** open 717-738: the namespace and server tables from the results of the Read; a value is [None] if it
    is not a list of strings.  A table that was not read stays as it was. *)
Inductive tables : Type := Tables (namespaces servers : option (list bytes)) | TablesPanic.
Definition is_good (status : Z) : bool := Z.land status 0xC0000000 =? 0.
Definition read_tables (results : list (Z * option (list bytes))) : tables :=
  match results with
  | [(s0, v0); (s1, v1)] =>
      match is_good s0, v0 with
      | true, None => TablesPanic
      | g0, _ =>
          match is_good s1, v1 with
          | true, None => TablesPanic
          | g1, _ => Tables (if g0 then v0 else None) (if g1 then v1 else None)
          end
      end
  | _ => Tables None None
  end.
