(** The locks of a client's channel and the functions that take them, in the language of Flow.v and Mutex.v.
    The conditions may have any outcome and the loops any number of turns, so a caller may go on as if its call
    had failed although it did not. A call is the [Scope] of what is called; a deferred unlock is at the end of
    the function. *)
From Coq Require Import List String.
From Verif Require Import Flow Mutex.
Import ListNotations.
Open Scope string_scope.

(** /repo/client/client_secure_channel.go 209-213 NamespaceURIs *)
Definition p_namespaces : prog lop := Do (Lk Sh KChannel) (Do (Un Sh KChannel) Done).

(** /repo/ua/binary_encoder.go 767-786 WriteExtensionObject and binary_decoder.go 769-782 ReadExtensionObject ask
    the channel for its namespaces, for every extension object that is not nil, and for every one with a binary
    body. A message can have any number of them. *)
Definition p_objects : prog lop := Loop p_namespaces Done.

(** /repo/client/client_secure_channel.go 834-853, 1273-1292, 1435-1454: the keys of the token are derived *)
Definition p_keys : prog lop := Do (Lk Sh KToken) (Do (Un Sh KToken) Done).

(** /repo/client/client_secure_channel.go 549-741 sendOpenSecureChannelRequest: without a token. The requests that
    the library itself makes have no extension objects, apart from the identity token. *)
Definition p_send_open : prog lop :=
  If "err != nil" (Exit Leave) Done (
  Loop (If "err != nil" (Exit Leave) Done (Do (Wt "network write") (If "err != nil" (Exit Leave) Done Done))) Done).

(** /repo/client/client_secure_channel.go 744-908 sendCloseSecureChannelRequest *)
Definition p_send_close : prog lop :=
  If "err != nil" (Exit Leave) Done (
  Loop (Scope p_keys (If "err != nil" (Exit Leave) Done (Do (Wt "network write") (If "err != nil" (Exit Leave) Done Done)))) Done).

(** /repo/client/client_secure_channel.go 911-1347 sendServiceRequest, for a request that may have extension
    objects, and for one that has none *)
Definition p_send_chunks : prog lop :=
  If "err != nil" (Exit Leave) Done (
  Loop (If "err != nil" (Exit Leave) Done (
        Scope p_keys (If "err != nil" (Exit Leave) Done (Do (Wt "network write") (If "err != nil" (Exit Leave) Done Done))))) Done).
Definition p_send_service : prog lop := Scope p_objects p_send_chunks.

(** /repo/client/client_secure_channel.go 513-545 the rest of sendRequest, with [send] for the kind of request, and
    249-265 the rest of Request: the answer is awaited, up to the time of the request *)
Definition p_exchange (send : prog lop) : prog lop :=
  Do (Lk Ex KSending) (
  Scope send (
  Do (Un Ex KSending) (
  If "err != nil" (Exit Leave) Done (
  Do (Wt "response") Done)))).

(** /repo/client/client_secure_channel.go 507-511 and 1762-1787 renewToken: the token is renewed before a request is
    sent. The request of the renewal is such a request itself, so renewals can be within renewals: any number of
    requests is queued, then they are sent, the innermost first. *)
Definition p_renewals : prog lop :=
  Loop (Do (Wt "channel ch.pendingResponseCh") Done) (
  Loop (Scope (p_exchange p_send_open) (
        If "err != nil" Done (Do (Lk Ex KToken) (Do (Un Ex KToken) Done)) Done)) Done).

(** /repo/client/client_secure_channel.go 237-267 Request *)
Definition p_request (send : prog lop) : prog lop :=
  Do (Wt "channel ch.pendingResponseCh") (Scope p_renewals (Scope (p_exchange send) Done)).

(** /repo/client/client_secure_channel.go 270-470 Open; there is no token to renew *)
Definition p_open : prog lop :=
  Do (Lk Ex KChannel) (
  Scope (
    If "err != nil" (Exit Leave) Done (
    Do (Wt "network connect") (
    If "err != nil" (Exit Leave) Done (
    Do (Wt "network write") (
    If "err != nil" (Exit Leave) Done (
    Do (Wt "network read") (
    If "err != nil" (Exit Leave) Done (
    Do (Wt "channel ch.pendingResponseCh") (
    Scope (p_exchange p_send_open) (
    If "err != nil" (Exit Leave) Done (
    Do (Lk Ex KToken) (
    Do (Un Ex KToken) Done)))))))))))) (
  Do (Un Ex KChannel) Done)).

(** /repo/client/client_secure_channel.go 473-485 Close *)
Definition p_close : prog lop :=
  Do (Lk Ex KChannel) (
  Scope (p_request p_send_close) (
  Do (Un Ex KChannel) Done)).

(** /repo/client/client_secure_channel.go 488-496 Abort; 202-206 SetAuthenticationToken, 216-220 SetNamespaceURIs,
    230-234 SetServerURIs; 499-503 IsClosing: the lock is taken and released *)
Definition p_locked : prog lop := Do (Lk Ex KChannel) (Do (Un Ex KChannel) Done).

(** /repo/client/client_secure_channel.go 1350-1364 responseWorker, with 1368-1731 readResponse: the chunks of a
    message, then its decoding *)
Definition p_worker : prog lop :=
  Loop (
    Do (Lk Ex KReceiving) (
    Scope (
      Loop (Do (Wt "network read") (
            If "err != nil" (Exit Leave) Done (
            If "messageType == MSG" p_keys Done (
            If "err != nil" (Exit Leave) Done Done)))) p_objects) (
    Do (Un Ex KReceiving) (
    If "status != ua.Good" (Exit Leave) Done Done)))) Done.

(** /repo/client/client.go 234-746 open: the channel, the session, its activation with an identity token, and a
    read of the namespaces and servers; 144-151: a Dial that fails aborts *)
Definition p_dial : prog lop :=
  Scope (
    Scope p_open (
    If "err != nil" (Exit Leave) Done (
    Scope (p_request p_send_chunks) (
    If "err != nil" (Exit Leave) Done (
    Scope p_locked (
    If "err != nil" (Exit Leave) Done (
    Scope (p_request p_send_service) (
    If "err != nil" (Exit Leave) Done (
    Scope (p_request p_send_chunks) (
    If "err != nil" (Exit Leave) Done (
    If "IsGood" p_locked Done (
    If "IsGood" p_locked Done Done)))))))))))) (
  If "err != nil" p_locked Done Done).

(** /repo/client/client_service_set.go 31-78 and 81-128 FindServers and GetEndpoints *)
Definition p_discover : prog lop :=
  Scope p_open (
  If "err != nil" (Exit Leave) Done (
  Scope (p_request p_send_service) (
  If "err != nil" (Scope p_locked (Exit Leave)) Done (
  Scope p_close (
  If "err != nil" p_locked Done Done))))).

(** /repo/client/client.go 749-759 Close *)
Definition p_client_close : prog lop :=
  Scope (p_request p_send_chunks) (
  If "err != nil" (Exit Leave) Done (
  Scope p_close Done)).

(** The goroutines of a client, and what its user can call: every service (/repo/client/client.go and
    client_service_set.go) is one request. *)
Definition client_roots : list (string * prog lop) :=
  [("Client.request", p_request p_send_service);
   ("Dial", p_dial);
   ("FindServers", p_discover);
   ("Client.Close", p_client_close);
   ("Client.Abort", p_locked);
   ("Client.IsClosing", p_locked);
   ("responseWorker", p_worker)].
