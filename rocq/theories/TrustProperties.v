(** C69, C70, C82: certificates and endpoints. *)
From Coq Require Import ZArith List Permutation String.
From Verif Require Import Bytes Text Certificates Endpoints TrustSpec TrustProofs TrustLemmas.
Import ListNotations.
Open Scope Z_scope.

(** An accepted certificate is first of a chain crypto/x509 built from the certificates sent and stored, and the chain passes all checks. *)
Theorem c69_accepted :
  forall verify now certs uses host st n,
  verify_contract verify -> uses <> [] -> validate verify now certs uses host st n = Accepted ->
  exists c others o chains chain, certs = c :: others /\ asked c others uses host st n o /\
    verify o c = Chains chains /\ In chain chains /\
    chain_ok now (trusts st n c) uses (revocation_lists st) (n_revocation n) chain.
Proof. exact validate_sound. Qed.
Print Assumptions c69_accepted.

(** Unless incomplete chains are tolerated, the chain has a member of the trust list. *)
Theorem c69_trusted :
  forall verify now certs uses host st n,
  verify_contract verify -> uses <> [] -> n_chain n = false -> validate verify now certs uses host st n = Accepted ->
  exists o chains chain c, verify o (hd c certs) = Chains chains /\ In chain chains /\ In c chain /\
    exists t, contents (s_trusted st) t /\ c_raw t = c_raw c.
Proof. exact accepted_trusted. Qed.
Print Assumptions c69_trusted.

(** Conversely a certificate with such a chain is accepted. *)
Theorem c69_complete :
  forall verify now c others uses host st n,
  verify_contract verify -> uses <> [] ->
  (forall o, asked c others uses host st n o -> exists chains chain, verify o c = Chains chains /\ In chain chains /\
     chain_ok now (trusts st n c) uses (revocation_lists st) (n_revocation n) chain) ->
  validate verify now (c :: others) uses host st n = Accepted.
Proof. exact validate_complete. Qed.
Print Assumptions c69_complete.

(** The status tells why a certificate was refused. *)
Theorem c69_status :
  forall verify now c others uses host st n code,
  verify_contract verify -> uses <> [] -> validate verify now (c :: others) uses host st n = Refused code ->
  exists o, asked c others uses host st n o /\
    let late := mkOpt (o_roots o) (o_inter o) (o_uses o) (o_host o) (Some (c_from c)) in
    match verify o c with
    | Chains l => exists chain, In chain l /\ defect now st n uses (revocation_lists st) c chain code
    | BadExpired => ((exists l, verify late c = Chains l) /\ code = 0x80140000) \/ ((forall l, verify late c <> Chains l) /\ code = 0x80130000)
    | BadUsage => code = 0x80180000
    | BadHostname => code = 0x80160000
    | BadInvalid | BadAuthority => code = 0x80130000
    | BadOther => False
    end.
Proof. exact validate_refused. Qed.
Print Assumptions c69_status.

(** No certificate at all is refused. *)
Theorem c69_none :
  forall verify now uses host st n, validate verify now [] uses host st n = Refused 0x80120000.
Proof. exact validate_empty. Qed.
Print Assumptions c69_none.

(** A server opens a channel with mode Sign or SignAndEncrypt only for a client certificate that passes, for client authentication. *)
Theorem c69_server :
  forall verify now st n mode sent,
  verify_contract verify -> mode = 2 \/ mode = 3 -> server_gate verify now st n mode sent = Passed ->
  exists c others o chains chain, sent = Some (Some (c :: others)) /\
    asked c others [2] [] st n o /\ verify o c = Chains chains /\ In chain chains /\
    chain_ok now (trusts st n c) [2] (revocation_lists st) (n_revocation n) chain.
Proof. exact server_gate_open. Qed.
Print Assumptions c69_server.

(** A client opens a channel only if the certificate of the server passes, for server authentication and the host name; with mode None it may be absent. *)
Theorem c69_client :
  forall verify now st n mode host key sent,
  verify_contract verify -> (sent <> None \/ mode = 2 \/ mode = 3) -> client_gate verify now st n mode host key sent = Passed ->
  (mode = 2 \/ mode = 3 -> key = true) /\
  exists c others o chains chain, sent = Some (Some (c :: others)) /\
    asked c others [1] host st n o /\ verify o c = Chains chains /\ In chain chains /\
    chain_ok now (trusts st n c) [1] (revocation_lists st) (n_revocation n) chain.
Proof. exact client_gate_open. Qed.
Print Assumptions c69_client.

(** A certificate on the second of two lists in force is accepted. *)
Theorem c69_later_list_refuted :
  exists verify now c issuer st l o,
    verify_contract verify /\ asked c [] [2] [] st strict o /\ verify o c = Chains [[c; issuer]] /\
    In l (revocation_lists st) /\ current now issuer l /\ In (c_serial c) (l_revoked l) /\
    validate verify now [c] [2] [] st strict = Accepted.
Proof. exact later_list_ignored. Qed.
Print Assumptions c69_later_list_refuted.

(** A file that cannot be read makes the server forget the revocation lists; a revoked certificate passes if an unknown state is tolerated. *)
Theorem c69_unreadable_refuted :
  exists verify now c issuer st l o,
    let n := mkLen false false false true in
    verify_contract verify /\ asked c [] [2] [] st n o /\ verify o c = Chains [[c; issuer]] /\
    In (Some [l]) (s_trusted_crls st) /\ current now issuer l /\ In (c_serial c) (l_revoked l) /\
    (forall l', In (Some l') (s_trusted_crls st ++ s_issuer_crls st) -> l' = [l]) /\
    validate verify now [c] [2] [] st n = Accepted.
Proof. exact unreadable_hides. Qed.
Print Assumptions c69_unreadable_refuted.

(** A trusted certificate with a key other than RSA stops the server. *)
Theorem c69_server_panic_refuted :
  exists verify st, verify_contract verify /\ validate verify 50 [curve] [2] [] st strict = Accepted /\
    server_gate verify 50 st strict 3 (Some (Some [curve])) = Panics.
Proof. exact other_key_panics. Qed.
Print Assumptions c69_server_panic_refuted.

(** Any server with a certificate whose key is not RSA stops the client, trusted or not. *)
Theorem c69_client_panic_refuted :
  forall verify now st n mode host key c others,
  c_rsa c = false -> client_gate verify now st n mode host key (Some (Some (c :: others))) = Panics.
Proof. exact client_other_key. Qed.
Print Assumptions c69_client_panic_refuted.

(** The selected endpoint is one of the server's, has a supported policy and what was asked for (policy None and mode None if nothing was and there is no certificate), and no other such endpoint has a higher level. *)
Theorem c70_best :
  forall policy mode has_cert eps sorted e,
  Permutation eps sorted -> descending sorted -> select_endpoint policy mode has_cert sorted = Some e ->
  In e eps /\ exists p m,
    (policy <> [] \/ has_cert = true -> p = policy /\ m = mode) /\
    (policy = [] -> has_cert = false -> p = policy_uri "None" /\ m = 1) /\
    suits p m e /\ forall e', In e' eps -> suits p m e' -> e_level e' <= e_level e.
Proof. exact select_spec. Qed.
Print Assumptions c70_best.

(** None is selected only if there is none. *)
Theorem c70_rejected :
  forall policy mode has_cert eps sorted,
  Permutation eps sorted ->
  select_endpoint policy mode has_cert sorted = None <->
  forall e p m, In e eps ->
    (policy <> [] \/ has_cert = true -> p = policy /\ m = mode) ->
    (policy = [] -> has_cert = false -> p = policy_uri "None" /\ m = 1) -> ~ suits p m e.
Proof. exact select_none. Qed.
Print Assumptions c70_rejected.

(** Without a certificate and a policy, SignAndEncrypt is quietly replaced by None. *)
Theorem c70_mode_refuted :
  (exists sorted e, descending sorted /\ select_endpoint [] 3 false sorted = Some e /\ e_mode e <> 3) /\
  forall sorted e, select_endpoint [] 3 false sorted = Some e -> e_mode e = 1 /\ e_policy e = policy_uri "None".
Proof. exact (conj mode_refuted mode_dropped). Qed.
Print Assumptions c70_mode_refuted.

(** A policy asked for by name is selected without a certificate too. *)
Theorem c70_certificate_refuted :
  exists policy sorted e, descending sorted /\ select_endpoint policy 0 false sorted = Some e /\ e_policy e <> policy_uri "None".
Proof. exact certificate_refuted. Qed.
Print Assumptions c70_certificate_refuted.

(** The level is the server's word: an endpoint without security can be the best. *)
Theorem c70_level_refuted :
  exists sorted e e', descending sorted /\ In e' sorted /\ e_mode e' = 3 /\ suits [] 0 e' /\
  select_endpoint [] 0 true sorted = Some e /\ e_mode e = 1.
Proof. exact level_believed. Qed.
Print Assumptions c70_level_refuted.

(** A session can only be activated on a channel whose policy and mode an endpoint of the server has, with a kind of token that endpoint has; if the mode is Sign or SignAndEncrypt the client certificate has passed. *)
Theorem c82_session :
  forall verify now st n eps discovery policy mode sent token,
  verify_contract verify ->
  server_gate verify now st n mode sent = Passed ->
  may_activate (local_endpoint eps discovery policy mode) token = true ->
  exists e, In e eps /\ e_policy e = policy /\ e_mode e = mode /\ In token (e_tokens e) /\
    (mode = 2 \/ mode = 3 ->
       exists c others o chains chain, sent = Some (Some (c :: others)) /\
         asked c others [2] [] st n o /\ verify o c = Chains chains /\ In chain chains /\
         chain_ok now (trusts st n c) [2] (revocation_lists st) (n_revocation n) chain).
Proof. exact session_security. Qed.
Print Assumptions c82_session.

(** No endpoint has the policy and mode of the channel: no session. *)
Theorem c82_not_offered :
  forall eps discovery policy mode token,
  (forall e, In e eps -> e_policy e = policy -> e_mode e <> mode) -> may_activate (local_endpoint eps discovery policy mode) token = false.
Proof. exact not_offered. Qed.
Print Assumptions c82_not_offered.

