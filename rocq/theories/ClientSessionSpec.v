(** What the theorems about opening a session talk about: the standard's policies, what a sealed secret
    is, and when a client and a server fit together. *)
From Coq Require Import ZArith List Bool Strings.String.
From Verif Require Import Bytes Text Keys Password PasswordSpec Session ClientSession.
Import ListNotations.
Open Scope Z_scope.

(** OPC UA part 7: the names of the policies and the signature algorithm of each. *)
Definition standard_uri (p : pname) : bytes :=
  lit ("http://opcfoundation.org/UA/SecurityPolicy#" ++
    match p with
    | PNone => "None" | PBasic128Rsa15 => "Basic128Rsa15" | PBasic256 => "Basic256"
    | PBasic256Sha256 => "Basic256Sha256" | PAes128 => "Aes128_Sha256_RsaOaep" | PAes256 => "Aes256_Sha256_RsaPss"
    end)%string.
Definition standard_signature (p : pname) : option (scheme * bytes) :=
  match p with
  | PNone => None
  | PBasic128Rsa15 => Some (Pkcs1Sha1, lit "http://www.w3.org/2000/09/xmldsig#rsa-sha1"%string)
  | PBasic256 => Some (Pkcs1Sha1, lit "http://www.w3.org/2000/09/xmldsig#rsa-sha1"%string)
  | PBasic256Sha256 => Some (Pkcs1Sha256, lit "http://www.w3.org/2001/04/xmldsig-more#rsa-sha256"%string)
  | PAes128 => Some (Pkcs1Sha256, lit "http://www.w3.org/2001/04/xmldsig-more#rsa-sha256"%string)
  | PAes256 => Some (PssSha256, lit "http://opcfoundation.org/UA/security/rsa-pss-sha2-256"%string)
  end.

(** The policy of a token: its own, or that of the channel if it names none. *)
Definition policy_of_token (c : client) (t : token_policy) (p : pname) : Prop :=
  p_uri t = standard_uri p \/ p_uri t = [] /\ c_policy c = standard_uri p.
(** A token policy of this type the endpoint lists, and the first such. *)
Definition offered (c : client) (ty : ttype) (t : token_policy) : Prop :=
  exists l1 l2, c_tokens c = l1 ++ t :: l2 /\ p_type t = ty /\ forall u, In u l1 -> p_type u <> ty.

(** The secret was sent as the standard asks (part 4, 7.36.2.2): length, secret and server nonce, cut into blocks,
    each encrypted with the server's key and randomness of its own. *)
Definition sealed (enc : wrap -> nat -> bytes -> bytes) (size : Z) (w : wrap) (secret nonce data : bytes) : Prop :=
  exists (parts : list (nat * bytes)) (pad : bytes),
    data = List.concat (map (fun x => enc w (fst x) (snd x)) parts) /\ NoDup (map fst parts) /\
    (forall x, In x parts -> Z.of_nat (List.length (snd x)) = size - rsa_room w) /\
    List.concat (map snd parts) = le_enc 4 (u32 (Z.of_nat (List.length secret + List.length nonce))) ++ secret ++ nonce ++ pad.

(** The kind of token that goes with a user. *)
Definition type_of_user (u : user) : ttype :=
  match u with Anyone => TAnonymous | Named _ _ => TUserName | Holder _ _ => TCertificate | Issued _ => TIssued end.
Definition identity_of_user (u : user) : identity :=
  match u with Anyone => IAnonymous | Named n p => IUserName n p | Holder c _ => IX509 c | Issued d => IIssued d end.

(** * A client and a server that fit together *)
(** The server's token policies are those the client was told; texts that name no policy count as None. *)
Definition server_policy (t : token_policy) : tokpol :=
  mkTokpol (p_id t) (p_type t) (match p_uri t with [] => None | u => Some (effective u) end).
(** What the server verifies with under each policy. *)
Definition server_verify (verify : Z -> scheme -> bytes -> bytes -> bool) (k : Z) (p : pname) (m g : bytes) : bool :=
  match standard_signature p with Some (s, _) => verify k s m g | None => true end.
Definition server_cert_key (cert_key : bytes -> certkey) (cert : bytes) : option Z :=
  match cert_key cert with RSAKey k => Some k | _ => None end.
(** Signatures made with a private key verify with its public key. *)
Definition signatures_work (pub : Z -> Z) (sign : Z -> scheme -> bytes -> option bytes) (verify : Z -> scheme -> bytes -> bytes -> bool) : Prop :=
  forall k s m, exists g, sign k s m = Some g /\ verify (pub k) s m g = true.
(** The user can be presented: a token policy for its kind, and the limits of C33 for passwords. *)
Definition presentable (cert_key : bytes -> certkey) (pub : Z -> Z) (c : client) : Prop :=
  (exists t, In t (c_tokens c) /\ p_type t = type_of_user (c_user c)) /\
  match c_user c with
  | Anyone => True
  | Named n p => n <> [] /\ (List.length p <= 64)%nat
  | Holder cert k => cert_key cert = RSAKey (pub k)
  | Issued _ => False
  end.
Record fits (cert_key : bytes -> certkey) (pub : Z -> Z) (local_cert : bytes) (skey : Z) (cert_uris : bytes -> list bytes)
  (c : client) (ch : chan) : Prop := mkFits {
  fit_policy : c_policy c = standard_uri (ch_policy ch);
  fit_endpoint : ch_discovery ch = false /\ ch_ep_policy ch = ch_policy ch;
  fit_tokens : ch_tokens ch = map server_policy (c_tokens c);
  fit_client_key : ch_key ch = pub (c_key c);
  fit_server : c_server_cert c = local_cert /\ cert_key local_cert = RSAKey (pub skey);
  fit_uri : ch_policy ch <> PNone -> exists u l, cert_uris (c_cert c) = u :: l /\ u <> []
}.
(** There is room for one more session. *)
Definition room (max : Z) (st : sstate) : Prop := max <= 0 \/ Z.of_nat (List.length (ss_table st)) < max.
