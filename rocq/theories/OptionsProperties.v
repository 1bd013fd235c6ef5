(** C110: A setting has the effect it is documented to have. *)
From Coq Require Import ZArith String List Bool Permutation.
From Verif Require Import Options OptionsSpec OptionsProofs OptionsLemmas.
Import ListNotations.
Open Scope Z_scope.

(** Whatever options come before, and whatever come after that are about other things: what the option says is so.
    Missing: the six things that no option changes. *)
Theorem c110_client_effect_partial : forall load before o after c e v,
  dial load (before ++ o :: after) = Set_to c -> says load o e v -> (forall o', In o' after -> ~ In e (about o')) ->
  ~ In e fixed -> client_does c e = v.
Proof. exact client_effect_ok. Qed.
Print Assumptions c110_client_effect_partial.

(** What no option is about is as documented. Missing: three defaults that are not what the comments say. *)
Theorem c110_client_default_partial : forall load opts c e,
  dial load opts = Set_to c -> (forall o, In o opts -> ~ In e (about o)) -> ~ In e other_default -> documented_default e (client_does c e).
Proof. exact client_default_ok. Qed.
Print Assumptions c110_client_default_partial.

(** Options about different things can be given in any order. *)
Theorem c110_client_order : forall load l1 l2 c, Permutation l1 l2 -> ForallOrdPairs different l1 -> dial load l1 = Set_to c ->
  exists d, dial load l2 = Set_to d /\ (forall e, client_does c e = client_does d e).
Proof. exact client_order_ok. Qed.
Print Assumptions c110_client_order.

(** Options whose files can be read do not fail. *)
Theorem c110_client_succeeds : forall load opts, (forall o, In o opts -> readable load o) -> exists c, dial load opts = Set_to c.
Proof. exact client_succeeds_ok. Qed.
Print Assumptions c110_client_succeeds.

(** An option whose files cannot be read fails, whatever comes after it. *)
Theorem c110_client_fails : forall load before o after, (forall o', In o' before -> readable load o') -> unreadable load o ->
  dial load (before ++ o :: after) = Failed.
Proof. exact client_fails_ok. Qed.
Print Assumptions c110_client_fails.

(** Six things that options are about do not depend on the options: the timeout and the diagnostics of requests, the
    largest response in CreateSession, and three things about the discovery in Dial. *)
Theorem c110_fixed_refuted : forall load opts c, dial load opts = Set_to c ->
  client_does c ERequestTimeout = VNum 15000 /\ client_does c ERequestDiagnostics = VNum 0 /\
  client_does c EMaxResponse = VNum (64 * 1024 * 1024) /\ client_does c EDiscoveryConnect = VNum 15000 /\
  client_does c EDiscoveryBuffers = VNum (64 * 1024) /\ client_does c EDiscoveryTrace = VFlag false.
Proof. exact fixed_values_lemma. Qed.
Print Assumptions c110_fixed_refuted.

(** For each of them there is an option that says something that does not become so. *)
Theorem c110_says_refuted : forall e, In e fixed -> exists o, In e (about o) /\ exists load v, says load o e v /\
  forall c, dial load [o] = Set_to c -> client_does c e <> v.
Proof. exact fixed_about_lemma. Qed.
Print Assumptions c110_says_refuted.

(** Without options the timeouts of requests and connections are 15 seconds, not 1500 and 5000 milliseconds. *)
Theorem c110_default_refuted : forall load, exists c, dial load [] = Set_to c /\
  (forall e, In e other_default -> client_does c e = VNum 15000 /\ ~ documented_default e (client_does c e)).
Proof. exact default_refuted_lemma. Qed.
Print Assumptions c110_default_refuted.

(** A key that is not an RSA key: as a user's identity it makes Dial panic, as the client's key it is dropped without
    an error. *)
Theorem c110_other_key_refuted : forall load before o blocks after, (forall o', In o' before -> readable load o') -> other_key load o blocks ->
  (In EIdentity (about o) -> dial load (before ++ o :: after) = Panicked) /\
  (In EKey (about o) -> (forall o', In o' after -> readable load o') -> (forall o', In o' after -> ~ In ECertificate (about o')) ->
   exists c, dial load (before ++ o :: after) = Set_to c /\
             client_does c ECertificate = VBytes (concat blocks) /\ client_does c EKey = VRef None).
Proof. exact key_refuted_lemma. Qed.
Print Assumptions c110_other_key_refuted.

(** The server: every option does what it says, *)
Theorem c110_server_effect : forall before o after c e v,
  new (before ++ o :: after) = Set_to c -> server_says o e v -> (forall o', In o' after -> ~ In e (server_about o')) ->
  server_does c e = v.
Proof. exact server_effect_ok. Qed.
Print Assumptions c110_server_effect.

(** what no option is about is as documented, *)
Theorem c110_server_default : forall opts c e, new opts = Set_to c -> (forall o, In o opts -> ~ In e (server_about o)) ->
  server_documented_default e (server_does c e).
Proof. exact server_default_ok. Qed.
Print Assumptions c110_server_default.

(** the order of options about different things does not matter, *)
Theorem c110_server_order : forall l1 l2 c, Permutation l1 l2 -> ForallOrdPairs server_different l1 -> new l1 = Set_to c ->
  exists d, new l2 = Set_to d /\ (forall e, server_does c e = server_does d e).
Proof. exact server_order_ok. Qed.
Print Assumptions c110_server_order.

(** and no option fails. *)
Theorem c110_server_succeeds : forall opts, exists c, new opts = Set_to c.
Proof. exact server_succeeds_ok. Qed.
Print Assumptions c110_server_succeeds.
