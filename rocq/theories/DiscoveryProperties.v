(** Discovery. *)
From Coq Require Import String ZArith List Bool Permutation.
From Verif Require Import Bytes Endpoints Discovery DiscoverySpec DiscoveryProofs DiscoveryLemmas.
Import ListNotations.
Open Scope Z_scope.

(** GetEndpoints tells exactly the endpoints with a profile asked for, in order and unchanged but for the URL. *)
Theorem c108_get_endpoints_exact : forall eps url profiles, answered profiles url eps (get_endpoints eps url profiles).
Proof. exact get_answered. Qed.
Print Assumptions c108_get_endpoints_exact.

(** FindServers tells the server once, if it is asked for or nobody in particular is. *)
Theorem c108_find_servers_exact : forall self uris x,
  (In x (find_servers self uris) <-> x = self /\ (uris = [] \/ In self uris)) /\ (List.length (find_servers self uris) <= 1)%nat.
Proof. exact find_servers_spec. Qed.
Print Assumptions c108_find_servers_exact.

(** Whatever the order of equal levels, a client of a server of this library gets the policy and mode of the table
    [choice] or is refused, and the server uses for its channel the very endpoint the client chose. *)
Theorem c108_client_and_server_agree : forall c url policy mode cert sorted,
  sc_url c <> [] -> Permutation (get_endpoints (build c) url [tcp_profile]) sorted -> by_level sorted ->
  match dial_choice policy mode cert sorted with
  | None => choice (sc_none c) policy mode cert = None
  | Some e => choice (sc_none c) policy mode cert = Some (d_policy e, d_mode e) /\ d_url e = url /\
      exists s, In s (build c) /\ told_as url s e /\ channel_endpoint (build c) (d_policy e) (d_mode e) = Some s
  end.
Proof. exact dial_choice_spec. Qed.
Print Assumptions c108_client_and_server_agree.

(** Every endpoint offers the types of identity the server can check, and no others. *)
Theorem c108_identities_exact : forall c e t, In e (build c) -> In t (map tp_type (d_tokens e)) <-> checks c t = true.
Proof. exact build_types. Qed.
Print Assumptions c108_identities_exact.

(** No two identity policies of a server have the same name. *)
Theorem c108_policy_ids_unique : forall c, NoDup (flat_map (fun e => map tp_id (d_tokens e)) (build c)).
Proof. exact build_ids. Qed.
Print Assumptions c108_policy_ids_unique.

(** User names and certificates are asked for under one of the five policies that protect them, on every endpoint. *)
Theorem c108_secrets_protected : forall c e t, In e (build c) -> In t (d_tokens e) -> tp_type t <> 0 -> In (tp_policy t) five.
Proof. exact build_secret. Qed.
Print Assumptions c108_secrets_protected.

(** Those without an identity are told the policy None: they have nothing to encrypt. *)
Theorem c108_anonymous_plain : forall c e t, In e (build c) -> In t (d_tokens e) -> tp_type t = 0 -> tp_policy t = uri "None"%string.
Proof. exact build_anonymous. Qed.
Print Assumptions c108_anonymous_plain.

(** The address told is whatever the client asked with, the server's own or not. *)
Theorem c108_foreign_address_refuted : forall c url, url <> sc_url c ->
  exists e, In e (get_endpoints (build c) url []) /\ ~ own_address c (d_url e).
Proof. exact foreign_address. Qed.
Print Assumptions c108_foreign_address_refuted.
