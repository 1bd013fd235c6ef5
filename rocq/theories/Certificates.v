(** Checking certificates.

    Source: /repo/ua/certificate_helpers.go, with its callers in /repo/server/server_secure_channel.go
    (Open 282-342) and /repo/client/client_secure_channel.go (189-191, 279-300, 425-434).

    crypto/x509 is not part of the repository: [verify] is the method Verify of a certificate, an oracle; the
    other facts about a certificate (self-signed, signature of itself right) and about a revocation
    list (whose signature it carries) are fields.  Writing the rejected certificate to a file is left
    out. *)
From Coq Require Import ZArith List Bool.
From Verif Require Import Bytes.
Import ListNotations.
Open Scope Z_scope.

(** x509.Certificate: Raw; RawIssuer = RawSubject (isSelfSigned 328-330); CheckSignature with the own
    key succeeds; ExtKeyUsage; KeyUsage; SerialNumber; NotBefore; PublicKey is an RSA key *)
Record cert : Type := mkCert {
  c_raw : bytes; c_self : bool; c_self_ok : bool; c_uses : list Z; c_usage : Z; c_serial : Z; c_from : Z; c_rsa : bool }.
(** x509.RevocationList: NextUpdate, CheckSignatureFrom succeeds, RevokedCertificates *)
Record crl : Type := mkCrl { l_next : Z; l_signed : cert -> bool; l_revoked : list Z }.
Definition self_signed (c : cert) : bool := c_self c.

(** readCertificates 233-277, readRevocationLists 281-325: the contents of the files, None: cannot be
    read (a directory that cannot be listed: one such file).  After any error nothing is used 43, 53,
    57, 68. *)
Fixpoint read_files {A} (files : list (option (list A))) : option (list A) :=
  match files with
  | [] => Some []
  | None :: _ => None
  | Some l :: fs => match read_files fs with Some m => Some (l ++ m) | None => None end
  end.
Definition usable {A} (files : list (option (list A))) : list A := match read_files files with Some l => l | None => [] end.
(** The four paths *)
Record store : Type := mkStore {
  s_trusted : list (option (list cert)); s_trusted_crls : list (option (list crl));
  s_issuers : list (option (list cert)); s_issuer_crls : list (option (list crl)) }.
(** The four suppress parameters *)
Record leniency : Type := mkLen { n_host : bool; n_time : bool; n_chain : bool; n_revocation : bool }.

(** x509.VerifyOptions; the time is None if it is the current one *)
Record options : Type := mkOpt { o_roots : list cert; o_inter : list cert; o_uses : list Z; o_host : bytes; o_time : option Z }.
Inductive verified : Type :=
| Chains (l : list (list cert))
| BadExpired | BadUsage | BadInvalid          (* CertificateInvalidError: Expired, IncompatibleUsage, others *)
| BadHostname | BadAuthority | BadOther.
Inductive verdict : Type := Accepted | Refused (status : Z) | RefusedOther.

(* ua/status_code.generated.go 49-77 *)
Definition BadCertificateInvalid : Z := 0x80120000.
Definition BadSecurityChecksFailed : Z := 0x80130000.
Definition BadCertificateTimeInvalid : Z := 0x80140000.
Definition BadCertificateHostNameInvalid : Z := 0x80160000.
Definition BadCertificateUseNotAllowed : Z := 0x80180000.
Definition BadCertificateIssuerUseNotAllowed : Z := 0x80190000.
Definition BadCertificateRevocationUnknown : Z := 0x801B0000.
Definition BadCertificateIssuerRevocationUnknown : Z := 0x801C0000.
Definition BadCertificateRevoked : Z := 0x801D0000.
Definition BadCertificateIssuerRevoked : Z := 0x801E0000.

Section Validate.
Variable verify : options -> cert -> verified.
Variable now : Z.

(** checkRevocation 333-364; [issuer] None: the last of the chain 334 *)
Definition in_force (issuer : cert) (l : crl) : bool := (now <? l_next l) && l_signed l issuer.
Definition check_revocation (leaf : bool) (c : cert) (issuer : option cert) (crls : list crl) (suppress : bool) : option Z :=
  match issuer with
  | None => None
  | Some issuer =>
      match find (in_force issuer) crls with
      | Some l =>
          if existsb (Z.eqb (c_serial c)) (l_revoked l) then Some (if leaf then BadCertificateRevoked else BadCertificateIssuerRevoked)
          else None
      | None => if suppress then None else Some (if leaf then BadCertificateRevocationUnknown else BadCertificateIssuerRevocationUnknown)
      end
  end.
(** One member of the chain 123-207; None: no error *)
Definition check_member (chain trusted : list cert) (uses : list Z) (crls : list crl) (suppress leaf : bool) (c : cert) (issuer : option cert) : option Z :=
  if self_signed c && negb (c_self_ok c) then Some BadSecurityChecksFailed
  else if negb (existsb (fun c2 => existsb (fun c3 => bytes_eqb (c_raw c2) (c_raw c3)) trusted) chain) then Some BadSecurityChecksFailed
  else if leaf && negb (existsb (fun u => existsb (Z.eqb u) uses) (c_uses c)) then Some BadCertificateUseNotAllowed
  else if negb leaf && negb (Z.land (c_usage c) 32 =? 32) then Some BadCertificateIssuerUseNotAllowed
  else match check_revocation leaf c issuer crls suppress with
       | Some st => Some (if (st =? BadCertificateRevoked) || (st =? BadCertificateIssuerRevoked) then BadSecurityChecksFailed else st)
       | None => None
       end.
(** The loop 123-207 *)
Fixpoint check_members (chain trusted : list cert) (uses : list Z) (crls : list crl) (suppress leaf : bool) (l : list cert) : option Z :=
  match l with
  | [] => None
  | c :: l' =>
      match check_member chain trusted uses crls suppress leaf c (hd_error l') with
      | Some st => Some st
      | None => check_members chain trusted uses crls suppress false l'
      end
  end.
(** The loop 121-213; [err] is the variable of that name; no chain is empty *)
Fixpoint check_chains (trusted : list cert) (uses : list Z) (crls : list crl) (suppress : bool) (err : option Z) (l : list (list cert)) : option Z :=
  match l with
  | [] => err
  | chain :: l' =>
      match check_members chain trusted uses crls suppress true chain with
      | None => None
      | Some st => check_chains trusted uses crls suppress (Some st) l'
      end
  end.
(** 30-93 *)
Definition split_roots (l : list cert) : list cert * list cert := (filter self_signed l, filter (fun c => negb (self_signed c)) l).
Definition options_for (c : cert) (others : list cert) (uses : list Z) (host : bytes) (st : store) (n : leniency) : options :=
  let pool := others ++ usable (s_issuers st) ++ usable (s_trusted st) in
  mkOpt (fst (split_roots pool) ++ (if n_chain n then [c] else [])) (snd (split_roots pool)) uses
        (if n_host n then [] else host) (if n_time n then Some (c_from c) else None).
(** ValidateCertificate 19-229 *)
Definition validate (certs : list cert) (uses : list Z) (host : bytes) (st : store) (n : leniency) : verdict :=
  match certs with
  | [] => Refused BadCertificateInvalid
  | c :: others =>
      let uses := match uses with [] => [1] | _ => uses end in
      let o := options_for c others uses host st n in
      let trusted := usable (s_trusted st) ++ (if n_chain n then [c] else []) in
      let crls := usable (s_issuer_crls st) ++ usable (s_trusted_crls st) in
      match verify o c with
      | Chains l => match check_chains trusted uses crls (n_revocation n) None l with None => Accepted | Some st => Refused st end
      | BadExpired =>
          match verify (mkOpt (o_roots o) (o_inter o) (o_uses o) (o_host o) (Some (c_from c))) c with
          | Chains _ => Refused BadCertificateTimeInvalid
          | _ => Refused BadSecurityChecksFailed
          end
      | BadUsage => Refused BadCertificateUseNotAllowed
      | BadInvalid => Refused BadSecurityChecksFailed
      | BadHostname => Refused BadCertificateHostNameInvalid
      | BadAuthority => Refused BadSecurityChecksFailed
      | BadOther => RefusedOther
      end
  end.

(** * The channels *)
Definition client_auth : Z := 2.      (* x509.ExtKeyUsageClientAuth *)
Definition server_auth : Z := 1.      (* x509.ExtKeyUsageServerAuth *)
Inductive gate : Type := Passed | Stopped (v : verdict) | Panics.
Definition secured_mode (m : Z) : bool := (m =? 3) || (m =? 2).
(** Server Open 313-342: [sent] None: no certificate, Some None: cannot be parsed.  An error of
    ParseCertificates or no certificate is BadSecurityChecksFailed. *)
Definition server_gate (st : store) (n : leniency) (mode : Z) (sent : option (option (list cert))) : gate :=
  if secured_mode mode then
    match sent with
    | None | Some None => Stopped (Refused BadSecurityChecksFailed)
    | Some (Some certs) =>
        match validate certs [client_auth] [] st (mkLen false (n_time n) (n_chain n) (n_revocation n)) with
        | Accepted => match certs with c :: _ => if c_rsa c then Passed else Panics | [] => Panics end
        | v => Stopped v
        end
    end
  else Passed.
(** The client: newClientSecureChannel 189-191, Open 279-300 and 425-434.  [sent] is the certificate of
    the selected endpoint, None if it is empty; [key]: there is a private key *)
Definition client_gate (st : store) (n : leniency) (mode : Z) (host : bytes) (key : bool) (sent : option (option (list cert))) : gate :=
  match sent with
  | Some (Some (c :: others)) =>
      if negb (c_rsa c) then Panics
      else match validate (c :: others) [server_auth] host st n with
           | Accepted => if secured_mode mode && negb key then Stopped (Refused BadSecurityChecksFailed) else Passed
           | v => Stopped v
           end
  | Some _ => Stopped (Refused BadSecurityChecksFailed)
  | None => if secured_mode mode then Stopped (Refused BadSecurityChecksFailed) else Passed
  end.
End Validate.
