(** Discovery: the endpoints a server offers, what it answers to FindServers and GetEndpoints, and what clients make of it.

    Source: /repo/server/server.go (Endpoints 175-182, buildEndpointDescriptions 961-1074),
    /repo/server/server_service_set.go (findServers 28-55, getEndpoints 58-89), /repo/client/client.go (Dial 53-102),
    /repo/server/server_secure_channel.go (Open 288-311), /repo/ua/enums.generated.go 895-908.

    Not modelled: the application description, the server's certificate and LocaleIDs in the answers; the list is built
    once (Endpoints 178-180), so it is a constant here. *)
From Coq Require Import ZArith List Bool String.
From Verif Require Import Bytes Text Endpoints.
Import ListNotations.
Open Scope Z_scope.

(** ua.UserTokenPolicy and ua.EndpointDescription *)
Record tpol : Type := mkTp { tp_id : bytes; tp_type : Z; tp_policy : bytes }.
Record desc : Type := mkDesc { d_url : bytes; d_profile : bytes; d_policy : bytes; d_mode : Z; d_level : Z; d_tokens : list tpol }.
(** The fields of Server: allowSecurityPolicyNone, whether there is an anonymousIdentityAuthenticator, a
    userNameIdentityAuthenticator and an x509IdentityAuthenticator, endpointURL *)
Record scfg : Type := mkScfg { sc_none : bool; sc_anon : bool; sc_user : bool; sc_cert : bool; sc_url : bytes }.
(* UserTokenType.String *)
Definition type_name (t : Z) : bytes :=
  if t =? 0 then lit "Anonymous"%string else if t =? 1 then lit "UserName"%string else if t =? 2 then lit "Certificate"%string
  else if t =? 3 then lit "IssuedToken"%string else [].
(* fmt.Sprintf("%s_%d", type, len(eds)) *)
Definition policy_id (t n : Z) : bytes := type_name t ++ lit "_"%string ++ print_dec n.
(** 964-985, 1006-1027, 1040-1061: [uri] protects user names and certificates *)
Definition tokens (c : scfg) (n : Z) (uri : bytes) : list tpol :=
  (if sc_anon c then [mkTp (policy_id 0 n) 0 policy_none] else []) ++
  (if sc_user c then [mkTp (policy_id 1 n) 1 uri] else []) ++
  (if sc_cert c then [mkTp (policy_id 2 n) 2 uri] else []).
(* 998-1004 *)
Definition secured : list bytes := tl policies.
Definition basic256sha256 : bytes := nth 3 policies [].
Definition byte_of (n : Z) : Z := n mod 256.
(** 1005-1038 with mode 2, 1039-1072 with mode 3 *)
Definition append_endpoint (c : scfg) (mode : Z) (eds : list desc) (uri : bytes) : list desc :=
  let n := Z.of_nat (List.length eds) in
  eds ++ [mkDesc (sc_url c) tcp_profile uri mode (byte_of n) (tokens c n uri)].
Definition build (c : scfg) : list desc :=
  let eds := if sc_none c then [mkDesc (sc_url c) tcp_profile policy_none 1 (byte_of 0) (tokens c 0 basic256sha256)] else [] in
  fold_left (append_endpoint c 3) secured (fold_left (append_endpoint c 2) secured eds).

(** getEndpoints 58-76 *)
Definition with_url (url : bytes) (e : desc) : desc := mkDesc url (d_profile e) (d_policy e) (d_mode e) (d_level e) (d_tokens e).
Fixpoint get_endpoints (eps : list desc) (url : bytes) (profiles : list bytes) : list desc :=
  match eps with
  | [] => []
  | e :: r =>
      (match profiles with
       | [] => [with_url url e]
       | _ => if existsb (bytes_eqb (d_profile e)) profiles then [with_url url e] else []
       end) ++ get_endpoints r url profiles
  end.
(** findServers 28-41: the server knows itself only *)
Definition find_servers (self : bytes) (uris : list bytes) : list bytes :=
  match uris with [] => [self] | _ => if existsb (bytes_eqb self) uris then [self] else [] end.

(** Dial 69-97 (the test is [selects]); [sorted] is the answer after sort.Slice *)
Definition forget (e : desc) : endpoint := mkEnd (d_url e) (d_profile e) (d_policy e) (d_mode e) (d_level e) (map tp_type (d_tokens e)).
Definition dial_choice (policy : bytes) (mode : Z) (has_cert : bool) (sorted : list desc) : option desc :=
  find (fun e => selects policy mode has_cert (forget e)) sorted.
(** The server's endpoint of a channel, Open 288-311: None when the channel is for discovery only, or no endpoint's *)
Definition channel_endpoint (eps : list desc) (policy : bytes) (mode : Z) : option desc :=
  match find (fun e => offers policy mode (forget e)) eps with
  | Some e => if negb (nonempty (d_url e)) && bytes_eqb policy policy_none && (mode =? 1) then None else Some e
  | None => None
  end.
