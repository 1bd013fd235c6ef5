(** Endpoints: the choice of the client and the channel of the server.

    Source: /repo/client/client.go (Dial 63-102), /repo/server/server_secure_channel.go (Open 281-311),
    /repo/server/server_service_set.go (the token policies of the endpoint: 360-376, 391-406, 510-524,
    754-768). *)
From Coq Require Import ZArith List Bool String.
From Verif Require Import Bytes Text.
Import ListNotations.
Open Scope Z_scope.

(** ua.EndpointDescription; [e_tokens]: the types of UserIdentityTokens *)
Record endpoint : Type := mkEnd { e_url : bytes; e_profile : bytes; e_policy : bytes; e_mode : Z; e_level : Z; e_tokens : list Z }.
(* ua/security_policy.go 17-23 *)
Definition policy_none : bytes := lit "http://opcfoundation.org/UA/SecurityPolicy#None"%string.
Definition policies : list bytes := [policy_none;
  lit "http://opcfoundation.org/UA/SecurityPolicy#Basic128Rsa15"%string; lit "http://opcfoundation.org/UA/SecurityPolicy#Basic256"%string;
  lit "http://opcfoundation.org/UA/SecurityPolicy#Basic256Sha256"%string; lit "http://opcfoundation.org/UA/SecurityPolicy#Aes128_Sha256_RsaOaep"%string;
  lit "http://opcfoundation.org/UA/SecurityPolicy#Aes256_Sha256_RsaPss"%string].
Definition nonempty (b : bytes) : bool := match b with [] => false | _ => true end.

(** Dial 69-97.  [sorted] is the list after sort.Slice. *)
Definition wanted_policy (policy : bytes) (has_cert : bool) : bytes := if negb (nonempty policy) && negb has_cert then policy_none else policy.
Definition wanted_mode (policy : bytes) (mode : Z) (has_cert : bool) : Z := if negb (nonempty policy) && negb has_cert then 1 else mode.
Definition selects (policy : bytes) (mode : Z) (has_cert : bool) (e : endpoint) : bool :=
  existsb (bytes_eqb (e_policy e)) policies &&
  ((negb (nonempty (wanted_policy policy has_cert)) || bytes_eqb (e_policy e) (wanted_policy policy has_cert)) &&
   ((wanted_mode policy mode has_cert =? 0) || (e_mode e =? wanted_mode policy mode has_cert))).
Definition select_endpoint (policy : bytes) (mode : Z) (has_cert : bool) (sorted : list endpoint) : option endpoint :=
  find (selects policy mode has_cert) sorted.

(** * The server *)
Definition tcp_profile : bytes := lit "http://opcfoundation.org/UA-Profile/Transport/uatcp-uasc-uabinary"%string.
Definition no_endpoint : endpoint := mkEnd [] [] [] 0 0 [].
Definition offers (policy : bytes) (mode : Z) (e : endpoint) : bool :=
  bytes_eqb (e_profile e) tcp_profile && bytes_eqb (e_policy e) policy && (e_mode e =? mode).
(** 288-311: localEndpoint and discoveryOnly; [discovery] is the first discovery URL *)
Definition local_endpoint (eps : list endpoint) (discovery policy : bytes) (mode : Z) : endpoint * bool :=
  let e := match find (offers policy mode) eps with Some e => e | None => no_endpoint end in
  if negb (nonempty (e_url e)) && bytes_eqb policy policy_none && (mode =? 1)
  then (mkEnd discovery tcp_profile policy_none 1 0 [0], true)
  else (e, false).
(** A session can be activated with a token of this type: there is such a token policy, and the channel
    is not for discovery only. *)
Definition may_activate (ch : endpoint * bool) (token : Z) : bool := negb (snd ch) && existsb (Z.eqb token) (e_tokens (fst ch)).
