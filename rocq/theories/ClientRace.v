(** The data of a client's channel and the functions that access it, with the locks of ClientLocks.v.
    In the language of Flow.v and Race.v: an assignment, a change of a map or of a byte slice that the field holds,
    and a use of a hash, is a write; any other use is a read.
    Left out: what Open writes before it starts the worker (/repo/client/client_secure_channel.go 303-444); the
    fields never written afterwards (conn, securityPolicy, the options); requestHandle and sequenceNumber, which are
    only accessed atomically; authenticationToken and maxRequestMessageSize, which only Dial writes, before its
    caller has the client, and the worker does not read. *)
From Coq Require Import List String.
From Verif Require Import Flow Mutex Race.
Import ListNotations.
Open Scope string_scope.

(** A thread works on one channel: whatever lock of these kinds it has is a lock of this channel
    (/repo/client/client_secure_channel.go 60-129). *)
Definition ours : list cls := [KChannel; KToken; KSending; KReceiving].
Definition rd (f : string) (k : prog aop) : prog aop := Do (Rd ours KChannel f) k.
Definition wr (f : string) (k : prog aop) : prog aop := Do (Wr ours KChannel f) k.
Definition lk (m : mode) (c : cls) (k : prog aop) : prog aop := Do (L (Lk m c)) k.
Definition un (m : mode) (c : cls) (k : prog aop) : prog aop := Do (L (Un m c)) k.
Definition wt (w : string) (k : prog aop) : prog aop := Do (L (Wt w)) k.

(** /repo/client/client_secure_channel.go 209-213 NamespaceURIs *)
Definition d_namespaces : prog aop := lk Sh KChannel (rd "namespaceURIs" (un Sh KChannel Done)).

(** for every extension object, as in ClientLocks.v *)
Definition d_objects : prog aop := Loop d_namespaces Done.

(** /repo/client/client_secure_channel.go 828-853, 1267-1292: the ids of the channel and the token are written to the
    header; then, if the token is new, the keys are derived *)
Definition d_keys_sending : prog aop :=
  rd "channelID" (
  rd "tokenID" (
  lk Sh KToken (
  rd "tokenID" (rd "sendingTokenID" (
  If "ch.tokenID != ch.sendingTokenID" (
    rd "tokenID" (wr "sendingTokenID" (
    If "Sign or SignAndEncrypt" (
      rd "remoteNonce" (rd "localNonce" (
      rd "localSigningKey" (rd "localEncryptingKey" (rd "localInitializationVector" (
      wr "localSigningKey" (wr "localEncryptingKey" (wr "localInitializationVector" (
      rd "localSigningKey" (wr "symSignHMAC" (
      If "SignAndEncrypt" (rd "localEncryptingKey" (wr "symEncryptingBlockCipher" Done)) Done Done))))))))))) Done Done))) Done (
  un Sh KToken Done)))))).

(** /repo/client/client_secure_channel.go 881-899, 1320-1338: the chunk is signed and encrypted *)
Definition d_sign : prog aop :=
  If "Sign or SignAndEncrypt" (wr "symSignHMAC" Done) Done (
  If "SignAndEncrypt" (rd "symEncryptingBlockCipher" (rd "localInitializationVector" Done)) Done Done).

(** /repo/client/client_secure_channel.go 549-741 sendOpenSecureChannelRequest *)
Definition d_send_open : prog aop :=
  If "err != nil" (Exit Leave) Done (
  Loop (rd "channelID" (If "err != nil" (Exit Leave) Done (wt "network write" (If "err != nil" (Exit Leave) Done Done)))) Done).

(** /repo/client/client_secure_channel.go 744-908 sendCloseSecureChannelRequest *)
Definition d_send_close : prog aop :=
  If "err != nil" (Exit Leave) Done (
  Loop (Scope d_keys_sending (Scope d_sign (If "err != nil" (Exit Leave) Done (wt "network write" (If "err != nil" (Exit Leave) Done Done))))) Done).

(** /repo/client/client_secure_channel.go 911-1347 sendServiceRequest *)
Definition d_send_chunks : prog aop :=
  If "err != nil" (Exit Leave) Done (
  Loop (If "err != nil" (Exit Leave) Done (
        Scope d_keys_sending (Scope d_sign (If "err != nil" (Exit Leave) Done (wt "network write" (If "err != nil" (Exit Leave) Done Done)))))) Done).
Definition d_send_service : prog aop := Scope d_objects d_send_chunks.

(** /repo/client/client_secure_channel.go 513-545 and 249-265 *)
Definition d_exchange (send : prog aop) : prog aop :=
  lk Ex KSending (
  Scope send (
  un Ex KSending (
  If "err != nil" (Exit Leave) Done (
  wt "response" Done)))).

(** /repo/client/client_secure_channel.go 1779-1785: the new token *)
Definition d_new_token : prog aop :=
  lk Ex KToken (
  wr "tokenRenewalTime" (wr "tokenID" (wr "localNonce" (wr "remoteNonce" (
  un Ex KToken Done))))).

(** /repo/client/client_secure_channel.go 507-511 and 1762-1787 renewToken, as in ClientLocks.v: every renewal is
    decided by the time of the renewal *)
Definition d_renewals : prog aop :=
  rd "tokenRenewalTime" (
  Loop (rd "tokenRenewalTime" (wr "tokenRenewalTime" (wt "channel ch.pendingResponseCh" (rd "tokenRenewalTime" Done)))) (
  Loop (Scope (d_exchange d_send_open) (
        If "err != nil" Done d_new_token Done)) Done)).

(** /repo/client/client_secure_channel.go 237-267 Request *)
Definition d_request (send : prog aop) : prog aop :=
  wt "channel ch.pendingResponseCh" (Scope d_renewals (Scope (d_exchange send) Done)).

(** /repo/client/client_secure_channel.go 270-470 Open *)
Definition d_open : prog aop :=
  lk Ex KChannel (
  Scope (
    If "err != nil" (Exit Leave) Done (
    wt "network connect" (
    If "err != nil" (Exit Leave) Done (
    wt "network write" (
    If "err != nil" (Exit Leave) Done (
    wt "network read" (
    If "err != nil" (Exit Leave) Done (
    wt "channel ch.pendingResponseCh" (
    rd "tokenRenewalTime" (
    Scope (d_exchange d_send_open) (
    If "err != nil" (Exit Leave) Done (
    lk Ex KToken (
    wr "tokenRenewalTime" (wr "channelID" (wr "tokenID" (wr "localNonce" (wr "remoteNonce" (
    un Ex KToken Done)))))))))))))))))) (
  un Ex KChannel Done)).

(** /repo/client/client_secure_channel.go 473-485 Close *)
Definition d_close : prog aop :=
  lk Ex KChannel (
  wr "closing" (
  Scope (d_request d_send_close) (
  un Ex KChannel Done))).

(** /repo/client/client_secure_channel.go 488-496 Abort; 499-503 IsClosing; 202-206 SetAuthenticationToken; 216-220
    SetNamespaceURIs; 230-234 SetServerURIs *)
Definition d_abort : prog aop := lk Ex KChannel (wr "closing" (un Ex KChannel Done)).
Definition d_is_closing : prog aop := lk Ex KChannel (rd "closing" (un Ex KChannel Done)).
Definition d_set_authentication : prog aop := lk Ex KChannel (un Ex KChannel Done).
Definition d_set_namespaces : prog aop := lk Ex KChannel (wr "namespaceURIs" (un Ex KChannel Done)).
Definition d_set_servers : prog aop := lk Ex KChannel (wr "serverURIs" (un Ex KChannel Done)).

(** /repo/client/client_secure_channel.go 1435-1454: the keys of the token of the chunk *)
Definition d_keys_receiving : prog aop :=
  lk Sh KToken (
  rd "receivingTokenID" (
  If "tokenID != ch.receivingTokenID" (
    wr "receivingTokenID" (
    If "Sign or SignAndEncrypt" (
      rd "localNonce" (rd "remoteNonce" (
      rd "remoteSigningKey" (rd "remoteEncryptingKey" (rd "remoteInitializationVector" (
      wr "remoteSigningKey" (wr "remoteEncryptingKey" (wr "remoteInitializationVector" (
      rd "remoteSigningKey" (wr "symVerifyHMAC" (
      If "SignAndEncrypt" (rd "remoteEncryptingKey" (wr "symDecryptingBlockCipher" Done)) Done Done))))))))))) Done Done)) Done (
  un Sh KToken Done))).

(** /repo/client/client_secure_channel.go 1457-1476: the chunk is decrypted and verified *)
Definition d_verify : prog aop :=
  If "SignAndEncrypt" (rd "symDecryptingBlockCipher" (rd "remoteInitializationVector" Done)) Done (
  If "Sign or SignAndEncrypt" (wr "symVerifyHMAC" Done) Done Done).

(** /repo/client/client_secure_channel.go 1734-1758 handleResponse and mapPendingResponses *)
Definition d_handle : prog aop :=
  Loop (wr "pendingResponses" Done) (
  rd "pendingResponses" (
  If "ok" (wr "pendingResponses" Done) Done Done)).

(** /repo/client/client_secure_channel.go 1350-1364 responseWorker, with 1368-1731 readResponse; a chunk of a message
    has the ids of the channel and the token *)
Definition d_worker : prog aop :=
  Loop (
    lk Ex KReceiving (
    Scope (
      Loop (wt "network read" (
            If "err != nil" (Exit Leave) Done (
            If "messageType == MSG" (rd "channelID" d_keys_receiving) Done (
            Scope d_verify (
            If "err != nil" (Exit Leave) Done Done))))) d_objects) (
    un Ex KReceiving (
    If "status != ua.Good" (rd "closing" (wr "statusCode" (Exit Leave))) d_handle Done)))) Done.

(** /repo/client/client.go 234-746 open, 144-151 Dial *)
Definition d_dial : prog aop :=
  Scope (
    Scope d_open (
    If "err != nil" (Exit Leave) Done (
    Scope (d_request d_send_chunks) (
    If "err != nil" (Exit Leave) Done (
    Scope d_set_authentication (
    If "err != nil" (Exit Leave) Done (
    Scope (d_request d_send_service) (
    If "err != nil" (Exit Leave) Done (
    Scope (d_request d_send_chunks) (
    If "err != nil" (Exit Leave) Done (
    If "IsGood" d_set_namespaces Done (
    If "IsGood" d_set_servers Done Done)))))))))))) (
  If "err != nil" d_abort Done Done).

(** /repo/client/client_service_set.go 31-78 and 81-128 FindServers and GetEndpoints *)
Definition d_discover : prog aop :=
  Scope d_open (
  If "err != nil" (Exit Leave) Done (
  Scope (d_request d_send_service) (
  If "err != nil" (Scope d_abort (Exit Leave)) Done (
  Scope d_close (
  If "err != nil" d_abort Done Done))))).

(** /repo/client/client.go 749-759 Close *)
Definition d_client_close : prog aop :=
  Scope (d_request d_send_chunks) (
  If "err != nil" (Exit Leave) Done (
  Scope d_close Done)).

(** The goroutines of a client, and what its user can call (/repo/client/client.go and client_service_set.go) *)
Definition data_roots : list (string * prog aop) :=
  [("Client.request", d_request d_send_service);
   ("Dial", d_dial);
   ("FindServers", d_discover);
   ("Client.Close", d_client_close);
   ("Client.Abort", d_abort);
   ("Client.IsClosing", d_is_closing);
   ("responseWorker", d_worker)].

(** What such a function does with locks and waits, without its accesses: ClientLocks.v *)
Fixpoint locks_only (p : prog aop) : prog lop :=
  match p with
  | Done => Done
  | Do (L o) k => Do o (locks_only k)
  | Do _ k => locks_only k
  | If c a b k =>
      match locks_only a, locks_only b with
      | Done, Done => locks_only k
      | a', b' => If c a' b' (locks_only k)
      end
  | Loop b k => match locks_only b with Done => locks_only k | b' => Loop b' (locks_only k) end
  | Scope b k => match locks_only b with Done => locks_only k | b' => Scope b' (locks_only k) end
  | Exit x => Exit x
  end.
