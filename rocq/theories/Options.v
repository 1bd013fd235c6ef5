(** The options of Dial (/repo/client/option.go) and of New (/repo/server/option.go): what they set, and what is
    later done with it. A configuration gives a value for every field that an option can set. The values are not
    looked at, so texts, bytes, keys, authenticators and so on are what they are. *)
From Coq Require Import ZArith String List Bool.
Import ListNotations.
Open Scope string_scope.
Open Scope Z_scope.

(** The values. A private key, an authenticator, a provider, a structure: a number that stands for it; None: nil. *)
Inductive setting : Type :=
| VText (s : string)
| VNum (n : Z)
| VFlag (b : bool)
| VBytes (b : list Z)
| VRef (r : option Z)
| VAnonymous
| VUserName (user password : string)
| VX509 (certificate : list Z) (key : option Z)
| VIssued (token : list Z).

(** An option returns normally or with an error, or panics. *)
Inductive result (A : Type) : Type := Set_to (a : A) | Failed | Panicked.
Arguments Set_to {A}. Arguments Failed {A}. Arguments Panicked {A}.

(** tls.LoadX509KeyPair: the blocks of the certificate and the private key, an RSA key or one of another kind *)
Inductive private_key : Type := RSA (k : Z) | OtherKey.
Definition loader : Type := string -> string -> option (list (list Z) * private_key).

(** ** The client *)
(** /repo/client/client.go 155-184 Client: the fields that options set *)
Inductive cfield : Type :=
| CPolicy | CMode | CIdentity | CAppName | CSessionName | CSessionTimeout | CCertificate | CKey
| CTrustedCerts | CTrustedCRLs | CIssuerCerts | CIssuerCRLs | CRejected
| CSkipHost | CSkipExpired | CSkipChain | CSkipRevocation
| CTimeoutHint | CDiagnosticsHint | CTokenLifetime | CConnectTimeout | CTrace | CBufferSize | CMessageSize | CChunkCount.

Definition cfield_eq_dec (a b : cfield) : {a = b} + {a <> b}.
Proof. decide equality. Defined.

(** /repo/client/option.go 17-237: the options *)
Inductive client_option : Type :=
| WithSecurityPolicyURI (uri : string) (mode : Z)
| WithUserNameIdentity (user password : string)
| WithX509Identity (certificate : list Z) (key : option Z)
| WithX509IdentityFile (cert key : string)
| WithX509IdentityPaths (cert key : string)
| WithIssuedIdentity (token : list Z)
| WithApplicationName (name : string)
| WithSessionName (name : string)
| WithSessionTimeout (milliseconds : Z)
| WithClientCertificate (certificate : list Z) (key : option Z)
| WithClientCertificateFile (cert key : string)
| WithClientCertificatePaths (cert key : string)
| WithTrustedCertificatesFile (path : string)
| WithTrustedCertificatesPaths (certs crls : string)
| WithIssuerCertificatesPaths (certs crls : string)
| WithRejectedCertificatesPath (path : string)
| WithInsecureSkipVerify
| WithTimeoutHint (milliseconds : Z)
| WithDiagnosticsHint (hint : Z)
| WithTokenLifetime (milliseconds : Z)
| WithConnectTimeout (milliseconds : Z)
| WithTrace
| WithTransportLimits (buffer message chunks : Z).

(** /repo/client/option.go 44-53, 57-66: the key is asserted to be an RSA key *)
Definition load_identity (load : loader) (cert key : string) : result (list (cfield * setting)) :=
  match load cert key with
  | None => Failed
  | Some (blocks, RSA k) => Set_to [(CIdentity, VX509 (concat blocks) (Some k))]
  | Some (_, OtherKey) => Panicked
  end.

(** /repo/client/option.go 112-122, 126-136: another kind of key gives a nil key *)
Definition load_certificate (load : loader) (cert key : string) : result (list (cfield * setting)) :=
  match load cert key with
  | None => Failed
  | Some (blocks, k) =>
      Set_to [(CCertificate, VBytes (concat blocks)); (CKey, VRef (match k with RSA k => Some k | OtherKey => None end))]
  end.

(** /repo/client/option.go 17-237: what the options assign, in this order *)
Definition client_sets (load : loader) (o : client_option) : result (list (cfield * setting)) :=
  match o with
  | WithSecurityPolicyURI uri mode => Set_to [(CPolicy, VText uri); (CMode, VNum mode)]                (* 17-23 *)
  | WithUserNameIdentity user password => Set_to [(CIdentity, VUserName user password)]                (* 26-31 *)
  | WithX509Identity certificate key => Set_to [(CIdentity, VX509 certificate key)]                    (* 34-39 *)
  | WithX509IdentityFile cert key => load_identity load cert key                                       (* 44-53 *)
  | WithX509IdentityPaths cert key => load_identity load cert key                                      (* 57-66 *)
  | WithIssuedIdentity token => Set_to [(CIdentity, VIssued token)]                                    (* 69-74 *)
  | WithApplicationName name => Set_to [(CAppName, VText name)]                                        (* 77-82 *)
  | WithSessionName name => Set_to [(CSessionName, VText name)]                                        (* 85-90 *)
  | WithSessionTimeout t => Set_to [(CSessionTimeout, VNum t)]                                         (* 93-98 *)
  | WithClientCertificate certificate key => Set_to [(CCertificate, VBytes certificate); (CKey, VRef key)]  (* 101-107 *)
  | WithClientCertificateFile cert key => load_certificate load cert key                               (* 112-122 *)
  | WithClientCertificatePaths cert key => load_certificate load cert key                              (* 126-136 *)
  | WithTrustedCertificatesFile path => Set_to [(CTrustedCerts, VText path)]                           (* 141-146 *)
  | WithTrustedCertificatesPaths certs crls => Set_to [(CTrustedCerts, VText certs); (CTrustedCRLs, VText crls)]  (* 150-156 *)
  | WithIssuerCertificatesPaths certs crls => Set_to [(CIssuerCerts, VText certs); (CIssuerCRLs, VText crls)]     (* 161-167 *)
  | WithRejectedCertificatesPath path => Set_to [(CRejected, VText path)]                              (* 171-176 *)
  | WithInsecureSkipVerify =>                                                                          (* 179-187 *)
      Set_to [(CSkipHost, VFlag true); (CSkipExpired, VFlag true); (CSkipChain, VFlag true); (CSkipRevocation, VFlag true)]
  | WithTimeoutHint t => Set_to [(CTimeoutHint, VNum t)]                                               (* 190-195 *)
  | WithDiagnosticsHint h => Set_to [(CDiagnosticsHint, VNum h)]                                       (* 198-203 *)
  | WithTokenLifetime t => Set_to [(CTokenLifetime, VNum t)]                                           (* 206-211 *)
  | WithConnectTimeout t => Set_to [(CConnectTimeout, VNum t)]                                         (* 214-219 *)
  | WithTrace => Set_to [(CTrace, VFlag true)]                                                         (* 222-227 *)
  | WithTransportLimits b m c => Set_to [(CBufferSize, VNum b); (CMessageSize, VNum m); (CChunkCount, VNum c)]  (* 230-237 *)
  end.

(** /repo/client/client.go 29-44 Dial: the configuration before the options, client_secure_channel.go 36-52; the
    fields that are not listed there have Go's zero value *)
Definition client_default (f : cfield) : setting :=
  match f with
  | CPolicy => VText "" | CMode => VNum 0 | CIdentity => VAnonymous
  | CAppName => VText "application" | CSessionName => VText "" | CSessionTimeout => VNum 120000
  | CCertificate => VBytes [] | CKey => VRef None
  | CTrustedCerts | CTrustedCRLs | CIssuerCerts | CIssuerCRLs | CRejected => VText ""
  | CSkipHost | CSkipExpired | CSkipChain | CSkipRevocation => VFlag false
  | CTimeoutHint => VNum 15000 | CDiagnosticsHint => VNum 0 | CTokenLifetime => VNum 3600000
  | CConnectTimeout => VNum 15000 | CTrace => VFlag false
  | CBufferSize => VNum 65536 | CMessageSize => VNum 67108864 | CChunkCount => VNum 4096
  end.

(** What a client does that its user can see or the server gets. *)
Inductive client_effect : Type :=
| EDiscoveryConnect | EDiscoveryBuffers | EDiscoveryTrace   (* GetEndpoints in Dial: the time limit of the connection,
                                             the buffers in Hello, whether the messages are logged *)
| EConnect                                (* the time limit of the connection of the session *)
| EHelloReceive | EHelloSend | EHelloMessage | EHelloChunks   (* the limits in Hello *)
| ERequestTimeout                         (* the timeout of a request that has none *)
| ERequestDiagnostics                     (* the diagnostics of a request that asks for none *)
| ETokenLifetime                          (* the lifetime asked for in OpenSecureChannel *)
| ETrustedCerts | ETrustedCRLs | EIssuerCerts | EIssuerCRLs | ERejected   (* arguments of ValidateCertificate *)
| ESkipHost | ESkipExpired | ESkipChain | ESkipRevocation                 (* the same *)
| ECertificate | EKey                     (* the client's certificate and key *)
| EPolicy | EMode                         (* what an endpoint has to have *)
| EAppName | ESessionName | ESessionTimeout | EMaxResponse   (* in CreateSession *)
| EIdentity                               (* in ActivateSession *)
| ETrace.                                 (* whether messages are logged *)

(** What the configuration does:
    /repo/client/client.go 48-58 (GetEndpoints with the values of client_service_set.go 81-112), 70-75, 103-108,
    118-143, 243-251, 258ff; client_secure_channel.go 131-188 newClientSecureChannel, 242-244 Request, 284-297 and
    303 Open, 312-319 Hello, 451 and 1768 RequestedLifetime, 518 and 1725 trace *)
Definition client_does (c : cfield -> setting) (e : client_effect) : setting :=
  match e with
  | EDiscoveryConnect => VNum 15000 | EDiscoveryBuffers => VNum 65536 | EDiscoveryTrace => VFlag false
  | EConnect => c CConnectTimeout
  | EHelloReceive | EHelloSend => c CBufferSize
  | EHelloMessage => c CMessageSize
  | EHelloChunks => c CChunkCount
  | ERequestTimeout => VNum 15000
  | ERequestDiagnostics => VNum 0
  | ETokenLifetime => c CTokenLifetime
  | ETrustedCerts => c CTrustedCerts | ETrustedCRLs => c CTrustedCRLs
  | EIssuerCerts => c CIssuerCerts | EIssuerCRLs => c CIssuerCRLs | ERejected => c CRejected
  | ESkipHost => c CSkipHost | ESkipExpired => c CSkipExpired | ESkipChain => c CSkipChain | ESkipRevocation => c CSkipRevocation
  | ECertificate => c CCertificate | EKey => c CKey
  | EPolicy => c CPolicy | EMode => c CMode
  | EAppName => c CAppName | ESessionName => c CSessionName | ESessionTimeout => c CSessionTimeout
  | EMaxResponse => VNum 67108864
  | EIdentity => c CIdentity
  | ETrace => c CTrace
  end.

(** ** The server *)
(** /repo/server/server.go 43-91 Server: the fields that options set *)
Inductive sfield : Type :=
| SMaxSessions | SMaxSubscriptions | SCapabilities | SBuildInfo
| STrustedCerts | STrustedCRLs | SIssuerCerts | SIssuerCRLs | SRejected
| SSkipExpired | SSkipChain | SSkipRevocation | SBufferSize | SMessageSize | SChunkCount
| SWorkers | SDiagnostics | STrace | SAllowNone | SAnonymous | SUserName | SX509 | SRoles | SPermissions | SHistorian.

Definition sfield_eq_dec (a b : sfield) : {a = b} + {a <> b}.
Proof. decide equality. Defined.

(** /repo/server/option.go 11-218: the options *)
Inductive server_option : Type :=
| WithMaxSessionCount (n : Z)
| WithMaxSubscriptionCount (n : Z)
| WithServerCapabilities (c : option Z)
| WithBuildInfo (b : option Z)
| WithTrustedPaths (certs crls : string)
| WithIssuerPaths (certs crls : string)
| WithRejectedPath (path : string)
| WithSkipVerify
| WithLimits (buffer message chunks : Z)
| WithMaxWorkerThreads (n : Z)
| WithServerDiagnostics (b : bool)
| WithServerTrace
| WithAnonymousIdentity (b : bool)
| WithSecurityPolicyNone (b : bool)
| WithAnonymousIdentityAuthenticator (a : option Z)
| WithAuthenticateAnonymousIdentityFunc (f : Z)
| WithUserNameIdentityAuthenticator (a : option Z)
| WithAuthenticateUserNameIdentityFunc (f : Z)
| WithX509IdentityAuthenticator (a : option Z)
| WithAuthenticateX509IdentityFunc (f : Z)
| WithRolesProvider (p : option Z)
| WithGetRolesFunc (f : Z)
| WithRolePermissions (p : option Z)
| WithHistorian (h : option Z).

(** /repo/server/option.go 120-122: the function that accepts every anonymous user *)
Definition accept_all : Z := -1.

(** /repo/server/option.go 11-218: what the options assign. None of them fails. The functions are not nil. *)
Definition server_sets (o : server_option) : list (sfield * setting) :=
  match o with
  | WithMaxSessionCount n => [(SMaxSessions, VNum n)]                                                 (* 11-16 *)
  | WithMaxSubscriptionCount n => [(SMaxSubscriptions, VNum n)]                                       (* 19-24 *)
  | WithServerCapabilities c => [(SCapabilities, VRef c)]                                             (* 27-32 *)
  | WithBuildInfo b => [(SBuildInfo, VRef b)]                                                         (* 35-40 *)
  | WithTrustedPaths certs crls => [(STrustedCerts, VText certs); (STrustedCRLs, VText crls)]         (* 44-50 *)
  | WithIssuerPaths certs crls => [(SIssuerCerts, VText certs); (SIssuerCRLs, VText crls)]            (* 55-61 *)
  | WithRejectedPath path => [(SRejected, VText path)]                                                (* 65-70 *)
  | WithSkipVerify => [(SSkipExpired, VFlag true); (SSkipChain, VFlag true); (SSkipRevocation, VFlag true)]  (* 73-80 *)
  | WithLimits b m c => [(SBufferSize, VNum b); (SMessageSize, VNum m); (SChunkCount, VNum c)]        (* 83-90 *)
  | WithMaxWorkerThreads n => [(SWorkers, VNum n)]                                                    (* 93-98 *)
  | WithServerDiagnostics b => [(SDiagnostics, VFlag b)]                                              (* 101-106 *)
  | WithServerTrace => [(STrace, VFlag true)]                                                         (* 109-114 *)
  | WithAnonymousIdentity b => [(SAnonymous, VRef (if b then Some accept_all else None))]             (* 117-128 *)
  | WithSecurityPolicyNone b => [(SAllowNone, VFlag b)]                                               (* 131-136 *)
  | WithAnonymousIdentityAuthenticator a => [(SAnonymous, VRef a)]                                    (* 140-145 *)
  | WithAuthenticateAnonymousIdentityFunc f => [(SAnonymous, VRef (Some f))]                         (* 149-154 *)
  | WithUserNameIdentityAuthenticator a => [(SUserName, VRef a)]                                      (* 157-162 *)
  | WithAuthenticateUserNameIdentityFunc f => [(SUserName, VRef (Some f))]                           (* 165-170 *)
  | WithX509IdentityAuthenticator a => [(SX509, VRef a)]                                              (* 173-178 *)
  | WithAuthenticateX509IdentityFunc f => [(SX509, VRef (Some f))]                                   (* 181-186 *)
  | WithRolesProvider p => [(SRoles, VRef p)]                                                         (* 189-194 *)
  | WithGetRolesFunc f => [(SRoles, VRef (Some f))]                                                  (* 197-202 *)
  | WithRolePermissions p => [(SPermissions, VRef p)]                                                 (* 205-210 *)
  | WithHistorian h => [(SHistorian, VRef h)]                                                         (* 213-218 *)
  end.

(** The defaults of the server that are structures: numbers that stand for ua.NewServerCapabilities(), ua.BuildInfo{},
    DefaultRolesProvider and DefaultRolePermissions (/repo/server/server.go 105-106, 120-121) *)
Definition default_capabilities : Z := -10.
Definition default_build_info : Z := -11.
Definition default_roles : Z := -12.
Definition default_permissions : Z := -13.

(** /repo/server/server.go 98-123 New: the configuration before the options, 31-35 and server_secure_channel.go 30-38 *)
Definition server_default (f : sfield) : setting :=
  match f with
  | SMaxSessions | SMaxSubscriptions => VNum 0
  | SCapabilities => VRef (Some default_capabilities) | SBuildInfo => VRef (Some default_build_info)
  | STrustedCerts | STrustedCRLs | SIssuerCerts | SIssuerCRLs | SRejected => VText ""
  | SSkipExpired | SSkipChain | SSkipRevocation => VFlag false
  | SBufferSize => VNum 65536 | SMessageSize => VNum 67108864 | SChunkCount => VNum 4096
  | SWorkers => VNum 4 | SDiagnostics => VFlag true | STrace => VFlag false | SAllowNone => VFlag false
  | SAnonymous | SUserName | SX509 => VRef None
  | SRoles => VRef (Some default_roles) | SPermissions => VRef (Some default_permissions)
  | SHistorian => VRef None
  end.

(** What a server does that its user or its clients can see *)
Inductive server_effect : Type :=
| FMaxSessions | FMaxSubscriptions        (* the limits of CreateSession and CreateSubscription *)
| FCapabilities | FBuildInfo              (* what the nodes of the server say *)
| FTrustedCerts | FTrustedCRLs | FIssuerCerts | FIssuerCRLs | FRejected   (* arguments of ValidateCertificate *)
| FSkipExpired | FSkipChain | FSkipRevocation                             (* the same *)
| FAckReceive | FAckSend                  (* the largest buffers a server agrees to *)
| FAckMessage | FAckChunks                (* the limits in Acknowledge *)
| FMaxRequest                             (* in CreateSession's answer *)
| FWorkers                                (* the threads that handle requests *)
| FDiagnostics | FTrace
| FAllowNone                              (* whether endpoints without security are offered *)
| FAnonymous | FUserName | FX509          (* who decides about the user; nil: no such users, no such policies *)
| FRoles | FPermissions | FHistorian.

(** What the configuration does: /repo/server/server.go 132, 351, 387, 556-650, 741, 963-1055; session_manager.go 22;
    subscription_manager.go 23; server_secure_channel.go 102-121, 323-336, 243-262; server_service_set.go 269, 789-815,
    2525; the nodes' UserRolePermissions, such as variable_node.go 96 *)
Definition server_does (c : sfield -> setting) (e : server_effect) : setting :=
  match e with
  | FMaxSessions => c SMaxSessions | FMaxSubscriptions => c SMaxSubscriptions
  | FCapabilities => c SCapabilities | FBuildInfo => c SBuildInfo
  | FTrustedCerts => c STrustedCerts | FTrustedCRLs => c STrustedCRLs
  | FIssuerCerts => c SIssuerCerts | FIssuerCRLs => c SIssuerCRLs | FRejected => c SRejected
  | FSkipExpired => c SSkipExpired | FSkipChain => c SSkipChain | FSkipRevocation => c SSkipRevocation
  | FAckReceive | FAckSend => c SBufferSize
  | FAckMessage => c SMessageSize | FAckChunks => c SChunkCount | FMaxRequest => c SMessageSize
  | FWorkers => c SWorkers | FDiagnostics => c SDiagnostics | FTrace => c STrace | FAllowNone => c SAllowNone
  | FAnonymous => c SAnonymous | FUserName => c SUserName | FX509 => c SX509
  | FRoles => c SRoles | FPermissions => c SPermissions | FHistorian => c SHistorian
  end.

(** ** Applying options *)
Section Apply.
(** a kind of configuration: /repo/client/client.go 28-51 Dial, /repo/server/server.go 97-130 New *)
Variable field option : Type.
Variable eq_dec : forall a b : field, {a = b} + {a <> b}.
Variable sets : option -> result (list (field * setting)).

(** an assignment, and several in turn: /repo/client/option.go, /repo/server/option.go *)
Definition assign (c : field -> setting) (a : field * setting) : field -> setting :=
  fun f => if eq_dec f (fst a) then snd a else c f.
Definition assign_all (c : field -> setting) (l : list (field * setting)) : field -> setting := fold_left assign l c.

(** /repo/client/client.go 46-51, /repo/server/server.go 125-130: each option in turn, until one fails *)
Fixpoint apply (c : field -> setting) (opts : list option) : result (field -> setting) :=
  match opts with
  | [] => Set_to c
  | o :: r =>
      match sets o with
      | Set_to l => apply (assign_all c l) r
      | Failed => Failed
      | Panicked => Panicked
      end
  end.
End Apply.

(** /repo/client/client.go 28-51 *)
Definition dial (load : loader) (opts : list client_option) : result (cfield -> setting) :=
  apply cfield client_option cfield_eq_dec (client_sets load) client_default opts.

(** /repo/server/server.go 97-130 *)
Definition new (opts : list server_option) : result (sfield -> setting) :=
  apply sfield server_option sfield_eq_dec (fun o => Set_to (server_sets o)) server_default opts.
