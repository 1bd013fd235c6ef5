(** What the comments of the options say they do. Nothing here depends on which fields the code has for it. *)
From Coq Require Import ZArith String List Bool.
From Verif Require Import Options.
Import ListNotations.
Open Scope string_scope.
Open Scope Z_scope.

(** ** The client: the comments in client/option.go *)
(** What an option is about. *)
Definition about (o : client_option) : list client_effect :=
  match o with
  | WithSecurityPolicyURI _ _ => [EPolicy; EMode]
  | WithUserNameIdentity _ _ | WithX509Identity _ _ | WithX509IdentityFile _ _ | WithX509IdentityPaths _ _
  | WithIssuedIdentity _ => [EIdentity]
  | WithApplicationName _ => [EAppName]
  | WithSessionName _ => [ESessionName]
  | WithSessionTimeout _ => [ESessionTimeout]
  | WithClientCertificate _ _ | WithClientCertificateFile _ _ | WithClientCertificatePaths _ _ => [ECertificate; EKey]
  | WithTrustedCertificatesFile _ => [ETrustedCerts]
  | WithTrustedCertificatesPaths _ _ => [ETrustedCerts; ETrustedCRLs]
  | WithIssuerCertificatesPaths _ _ => [EIssuerCerts; EIssuerCRLs]
  | WithRejectedCertificatesPath _ => [ERejected]
  | WithInsecureSkipVerify => [ESkipHost; ESkipExpired; ESkipChain; ESkipRevocation]
  | WithTimeoutHint _ => [ERequestTimeout]
  | WithDiagnosticsHint _ => [ERequestDiagnostics]
  | WithTokenLifetime _ => [ETokenLifetime]
  | WithConnectTimeout _ => [EConnect; EDiscoveryConnect]
  | WithTrace => [ETrace; EDiscoveryTrace]
  | WithTransportLimits _ _ _ => [EHelloReceive; EHelloSend; EHelloMessage; EHelloChunks; EMaxResponse; EDiscoveryBuffers]
  end.

(** The files of an option hold a certificate and an RSA key. *)
Definition readable (load : loader) (o : client_option) : Prop :=
  match o with
  | WithX509IdentityFile c k | WithX509IdentityPaths c k
  | WithClientCertificateFile c k | WithClientCertificatePaths c k => exists blocks key, load c k = Some (blocks, RSA key)
  | _ => True
  end.

(** Its files cannot be read. *)
Definition unreadable (load : loader) (o : client_option) : Prop :=
  match o with
  | WithX509IdentityFile c k | WithX509IdentityPaths c k
  | WithClientCertificateFile c k | WithClientCertificatePaths c k => load c k = None
  | _ => False
  end.

(** Its files hold a key of another kind. *)
Definition other_key (load : loader) (o : client_option) (blocks : list (list Z)) : Prop :=
  match o with
  | WithX509IdentityFile c k | WithX509IdentityPaths c k
  | WithClientCertificateFile c k | WithClientCertificatePaths c k => load c k = Some (blocks, OtherKey)
  | _ => False
  end.

(** What it says will be so. *)
Definition says (load : loader) (o : client_option) (e : client_effect) (v : setting) : Prop :=
  match o, e with
  | WithSecurityPolicyURI uri _, EPolicy => v = VText uri
  | WithSecurityPolicyURI _ mode, EMode => v = VNum mode
  | WithUserNameIdentity user password, EIdentity => v = VUserName user password
  | WithX509Identity certificate key, EIdentity => v = VX509 certificate key
  | WithX509IdentityFile c k, EIdentity | WithX509IdentityPaths c k, EIdentity =>
      exists blocks key, load c k = Some (blocks, RSA key) /\ v = VX509 (concat blocks) (Some key)
  | WithIssuedIdentity token, EIdentity => v = VIssued token
  | WithApplicationName name, EAppName => v = VText name
  | WithSessionName name, ESessionName => v = VText name
  | WithSessionTimeout t, ESessionTimeout => v = VNum t
  | WithClientCertificate certificate _, ECertificate => v = VBytes certificate
  | WithClientCertificate _ key, EKey => v = VRef key
  | WithClientCertificateFile c k, ECertificate | WithClientCertificatePaths c k, ECertificate =>
      exists blocks key, load c k = Some (blocks, RSA key) /\ v = VBytes (concat blocks)
  | WithClientCertificateFile c k, EKey | WithClientCertificatePaths c k, EKey =>
      exists blocks key, load c k = Some (blocks, RSA key) /\ v = VRef (Some key)
  | WithTrustedCertificatesFile path, ETrustedCerts => v = VText path
  | WithTrustedCertificatesPaths certs _, ETrustedCerts => v = VText certs
  | WithTrustedCertificatesPaths _ crls, ETrustedCRLs => v = VText crls
  | WithIssuerCertificatesPaths certs _, EIssuerCerts => v = VText certs
  | WithIssuerCertificatesPaths _ crls, EIssuerCRLs => v = VText crls
  | WithRejectedCertificatesPath path, ERejected => v = VText path
  | WithInsecureSkipVerify, (ESkipHost | ESkipExpired | ESkipChain | ESkipRevocation) => v = VFlag true
  | WithTimeoutHint t, ERequestTimeout => v = VNum t
  | WithDiagnosticsHint h, ERequestDiagnostics => v = VNum h
  | WithTokenLifetime t, ETokenLifetime => v = VNum t
  | WithConnectTimeout t, (EConnect | EDiscoveryConnect) => v = VNum t
  | WithTrace, (ETrace | EDiscoveryTrace) => v = VFlag true
  | WithTransportLimits buffer _ _, (EHelloReceive | EHelloSend | EDiscoveryBuffers) => v = VNum buffer
  | WithTransportLimits _ message _, (EHelloMessage | EMaxResponse) => v = VNum message
  | WithTransportLimits _ _ chunks, EHelloChunks => v = VNum chunks
  | _, _ => False
  end.

(** The defaults the comments give, and for the rest that there is nothing: no paths, no certificate, nothing skipped.
    The comment about the application's name says "package name", which is not a value. *)
Definition documented_default (e : client_effect) (v : setting) : Prop :=
  match e with
  | EPolicy => v = VText ""
  | EMode => v = VNum 0
  | EIdentity => v = VAnonymous
  | EAppName => True
  | ESessionName => v = VText ""
  | ESessionTimeout => v = VNum (2 * 60 * 1000)
  | ECertificate => v = VBytes []
  | EKey => v = VRef None
  | ETrustedCerts | ETrustedCRLs | EIssuerCerts | EIssuerCRLs | ERejected => v = VText ""
  | ESkipHost | ESkipExpired | ESkipChain | ESkipRevocation | ETrace | EDiscoveryTrace => v = VFlag false
  | ERequestTimeout => v = VNum 1500
  | ERequestDiagnostics => v = VNum 0
  | ETokenLifetime => v = VNum (60 * 60 * 1000)
  | EConnect | EDiscoveryConnect => v = VNum 5000
  | EHelloReceive | EHelloSend | EDiscoveryBuffers => v = VNum (64 * 1024)
  | EHelloMessage | EMaxResponse => v = VNum (64 * 1024 * 1024)
  | EHelloChunks => v = VNum 4096
  end.

(** What no option changes, although some are about it. *)
Definition fixed : list client_effect :=
  [ERequestTimeout; ERequestDiagnostics; EMaxResponse; EDiscoveryConnect; EDiscoveryBuffers; EDiscoveryTrace].

(** The defaults that are not what the comments say. *)
Definition other_default : list client_effect := [ERequestTimeout; EConnect; EDiscoveryConnect].

(** Two options are about different things. *)
Definition different (a b : client_option) : Prop := forall e, In e (about a) -> ~ In e (about b).

(** ** The server: the comments in server/option.go *)
Definition server_about (o : server_option) : list server_effect :=
  match o with
  | WithMaxSessionCount _ => [FMaxSessions]
  | WithMaxSubscriptionCount _ => [FMaxSubscriptions]
  | WithServerCapabilities _ => [FCapabilities]
  | WithBuildInfo _ => [FBuildInfo]
  | WithTrustedPaths _ _ => [FTrustedCerts; FTrustedCRLs]
  | WithIssuerPaths _ _ => [FIssuerCerts; FIssuerCRLs]
  | WithRejectedPath _ => [FRejected]
  | WithSkipVerify => [FSkipExpired; FSkipChain; FSkipRevocation]
  | WithLimits _ _ _ => [FAckReceive; FAckSend; FAckMessage; FAckChunks; FMaxRequest]
  | WithMaxWorkerThreads _ => [FWorkers]
  | WithServerDiagnostics _ => [FDiagnostics]
  | WithServerTrace => [FTrace]
  | WithAnonymousIdentity _ | WithAnonymousIdentityAuthenticator _ | WithAuthenticateAnonymousIdentityFunc _ => [FAnonymous]
  | WithSecurityPolicyNone _ => [FAllowNone]
  | WithUserNameIdentityAuthenticator _ | WithAuthenticateUserNameIdentityFunc _ => [FUserName]
  | WithX509IdentityAuthenticator _ | WithAuthenticateX509IdentityFunc _ => [FX509]
  | WithRolesProvider _ | WithGetRolesFunc _ => [FRoles]
  | WithRolePermissions _ => [FPermissions]
  | WithHistorian _ => [FHistorian]
  end.

Definition server_says (o : server_option) (e : server_effect) (v : setting) : Prop :=
  match o, e with
  | WithMaxSessionCount n, FMaxSessions => v = VNum n
  | WithMaxSubscriptionCount n, FMaxSubscriptions => v = VNum n
  | WithServerCapabilities c, FCapabilities => v = VRef c
  | WithBuildInfo b, FBuildInfo => v = VRef b
  | WithTrustedPaths certs _, FTrustedCerts => v = VText certs
  | WithTrustedPaths _ crls, FTrustedCRLs => v = VText crls
  | WithIssuerPaths certs _, FIssuerCerts => v = VText certs
  | WithIssuerPaths _ crls, FIssuerCRLs => v = VText crls
  | WithRejectedPath path, FRejected => v = VText path
  | WithSkipVerify, (FSkipExpired | FSkipChain | FSkipRevocation) => v = VFlag true
  | WithLimits buffer _ _, (FAckReceive | FAckSend) => v = VNum buffer
  | WithLimits _ message _, (FAckMessage | FMaxRequest) => v = VNum message
  | WithLimits _ _ chunks, FAckChunks => v = VNum chunks
  | WithMaxWorkerThreads n, FWorkers => v = VNum n
  | WithServerDiagnostics b, FDiagnostics => v = VFlag b
  | WithServerTrace, FTrace => v = VFlag true
  | WithAnonymousIdentity true, FAnonymous => v = VRef (Some accept_all)
  | WithAnonymousIdentity false, FAnonymous => v = VRef None
  | WithAnonymousIdentityAuthenticator a, FAnonymous => v = VRef a
  | WithAuthenticateAnonymousIdentityFunc f, FAnonymous => v = VRef (Some f)
  | WithSecurityPolicyNone b, FAllowNone => v = VFlag b
  | WithUserNameIdentityAuthenticator a, FUserName => v = VRef a
  | WithAuthenticateUserNameIdentityFunc f, FUserName => v = VRef (Some f)
  | WithX509IdentityAuthenticator a, FX509 => v = VRef a
  | WithAuthenticateX509IdentityFunc f, FX509 => v = VRef (Some f)
  | WithRolesProvider p, FRoles => v = VRef p
  | WithGetRolesFunc f, FRoles => v = VRef (Some f)
  | WithRolePermissions p, FPermissions => v = VRef p
  | WithHistorian h, FHistorian => v = VRef h
  | _, _ => False
  end.

(** no limit (0), 64Kb, 64Mb, 4096, 4 threads; nothing is skipped, no identity is accepted, no security is not offered *)
Definition server_documented_default (e : server_effect) (v : setting) : Prop :=
  match e with
  | FMaxSessions | FMaxSubscriptions => v = VNum 0
  | FCapabilities => v = VRef (Some default_capabilities)
  | FBuildInfo => v = VRef (Some default_build_info)
  | FTrustedCerts | FTrustedCRLs | FIssuerCerts | FIssuerCRLs | FRejected => v = VText ""
  | FSkipExpired | FSkipChain | FSkipRevocation | FTrace | FAllowNone => v = VFlag false
  | FAckReceive | FAckSend => v = VNum (64 * 1024)
  | FAckMessage | FMaxRequest => v = VNum (64 * 1024 * 1024)
  | FAckChunks => v = VNum 4096
  | FWorkers => v = VNum 4
  | FDiagnostics => v = VFlag true
  | FAnonymous | FUserName | FX509 | FHistorian => v = VRef None
  | FRoles => v = VRef (Some default_roles)
  | FPermissions => v = VRef (Some default_permissions)
  end.

Definition server_different (a b : server_option) : Prop := forall e, In e (server_about a) -> ~ In e (server_about b).
