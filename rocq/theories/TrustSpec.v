(** What C69, C70 and C82 speak of: acceptable certificate chains and suitable endpoints. *)
From Coq Require Import ZArith List String.
From Verif Require Import Bytes Text Certificates Endpoints.
Import ListNotations.
Open Scope Z_scope.

(** * Certificates *)
(** The certificates or lists of a directory whose files can all be read *)
Definition contents {A} (files : list (option (list A))) (x : A) : Prop :=
  (forall f, In f files -> f <> None) /\ exists l, In (Some l) files /\ In x l.
(** All of them in order *)
Definition readable {A} (files : list (option (list A))) : list A :=
  if forallb (fun f => match f with Some _ => true | None => false end) files
  then flat_map (fun f => match f with Some l => l | None => [] end) files
  else [].
(** The revocation lists: those of the issuers, then those of the trust list *)
Definition revocation_lists (st : store) : list crl := readable (s_issuer_crls st) ++ readable (s_trusted_crls st).
(** A list which is still in force and signed by the issuer *)
Definition current (now : Z) (issuer : cert) (l : crl) : Prop := now < l_next l /\ l_signed l issuer = true.
(** The serial number is absent from the first list in force, or there is none and that is allowed *)
Definition not_revoked (now : Z) (crls : list crl) (lenient : bool) (c issuer : cert) : Prop :=
  (exists before l after, crls = before ++ l :: after /\ current now issuer l /\
     (forall x, In x before -> ~ current now issuer x) /\ ~ In (c_serial c) (l_revoked l)) \/
  ((forall l, In l crls -> ~ current now issuer l) /\ lenient = true).
Definition may_certify (c : cert) : Prop := Z.testbit (c_usage c) 5 = true.       (* keyCertSign *)
Definition chain_ok (now : Z) (trusted : cert -> Prop) (uses : list Z) (crls : list crl) (lenient : bool) (chain : list cert) : Prop :=
  (forall c, In c chain -> c_self c = true -> c_self_ok c = true) /\
  (exists c t, In c chain /\ trusted t /\ c_raw t = c_raw c) /\
  (exists leaf rest, chain = leaf :: rest /\ (exists u, In u (c_uses leaf) /\ In u uses) /\ forall c, In c rest -> may_certify c) /\
  (forall l1 c issuer l2, chain = l1 ++ c :: issuer :: l2 -> not_revoked now crls lenient c issuer).
(** What crypto/x509 promises about its result *)
Definition verify_contract (verify : options -> cert -> verified) : Prop :=
  forall o c l, verify o c = Chains l -> l <> [] /\ forall chain, In chain l -> exists rest, chain = c :: rest.
(** The chain is built from the certificates sent and those of the two directories, for the given use and
    host, at the given time. *)
Definition asked (c : cert) (others : list cert) (uses : list Z) (host : bytes) (st : store) (n : leniency) (o : options) : Prop :=
  (forall x, In x (o_roots o) <->
     (c_self x = true /\ (In x others \/ contents (s_issuers st) x \/ contents (s_trusted st) x)) \/ (n_chain n = true /\ x = c)) /\
  (forall x, In x (o_inter o) <-> c_self x = false /\ (In x others \/ contents (s_issuers st) x \/ contents (s_trusted st) x)) /\
  o_uses o = uses /\
  o_host o = (if n_host n then [] else host) /\
  o_time o = (if n_time n then Some (c_from c) else None).
(** The trust list; the certificate itself counts when an incomplete chain is tolerated *)
Definition trusts (st : store) (n : leniency) (c t : cert) : Prop := contents (s_trusted st) t \/ (n_chain n = true /\ t = c).

(** Why a certificate is refused *)
Definition defect (now : Z) (st : store) (n : leniency) (uses : list Z) (crls : list crl) (c : cert) (chain : list cert) (code : Z) : Prop :=
  (code = 0x80130000 /\
     ((exists x, In x chain /\ c_self x = true /\ c_self_ok x = false) \/
      (forall x t, In x chain -> trusts st n c t -> c_raw t <> c_raw x) \/
      (exists l1 x issuer l2 l, chain = l1 ++ x :: issuer :: l2 /\ In l crls /\ current now issuer l /\ In (c_serial x) (l_revoked l)))) \/
  (code = 0x80180000 /\ forall u, In u (c_uses c) -> ~ In u uses) \/
  (code = 0x80190000 /\ exists x rest, chain = c :: rest /\ In x rest /\ ~ may_certify x) \/
  (code = 0x801B0000 /\ n_revocation n = false /\
     exists issuer rest, chain = c :: issuer :: rest /\ forall l, In l crls -> ~ current now issuer l) \/
  (code = 0x801C0000 /\ n_revocation n = false /\
     exists l1 x issuer l2, chain = l1 ++ x :: issuer :: l2 /\ l1 <> [] /\ forall l, In l crls -> ~ current now issuer l).

(** * Endpoints *)
Definition policy_uri (s : string) : bytes := lit (append "http://opcfoundation.org/UA/SecurityPolicy#" s).
Definition supported (p : bytes) : Prop :=
  In p (map policy_uri ["None"; "Basic128Rsa15"; "Basic256"; "Basic256Sha256"; "Aes128_Sha256_RsaOaep"; "Aes256_Sha256_RsaPss"]%string).
(** The endpoint has the policy and mode asked for; "" is any policy, 0 is any mode. *)
Definition suits (policy : bytes) (mode : Z) (e : endpoint) : Prop :=
  supported (e_policy e) /\ (policy = [] \/ e_policy e = policy) /\ (mode = 0 \/ e_mode e = mode).
(** A list ordered by descending level, as sort.Slice leaves it: the same endpoints, equal ones in any order *)
Fixpoint descending (l : list endpoint) : Prop :=
  match l with
  | [] => True
  | e :: l' => (forall e', In e' l' -> e_level e' <= e_level e) /\ descending l'
  end.
