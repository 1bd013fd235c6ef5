(** Opening a session: what the client checks and sends (C85), used credentials (C86), and the client
    and the server together (C87). *)
From Coq Require Import ZArith List Bool Strings.Byte.
From Verif Require Import Bytes Keys Password PasswordSpec Session SessionSpec ClientSession ClientSessionSpec
  ClientSessionProofs HandshakeProofs HandshakeLemmas.
Import ListNotations.
Open Scope Z_scope.

(** C85. The ActivateSession request goes out only after the server has shown the certificate of the endpoint and, unless the policy is None, has signed this client's certificate and nonce with that certificate's key. *)
Theorem c85_server_proved : forall cert_key size sign verify enc c cnonce r res a,
  after_create cert_key size sign verify enc c cnonce r res = Sends a ->
  r_cert res = c_server_cert c /\
  forall p s u, c_policy c = standard_uri p -> standard_signature p = Some (s, u) ->
    exists k, cert_key (c_server_cert c) = RSAKey k /\ verify k s (c_cert c ++ cnonce) (g_bytes (r_signature res)) = true.
Proof. exact server_proved. Qed.
Print Assumptions c85_server_proved.
(** What the caller of Dial sees otherwise. *)
Theorem c85_wrong_certificate : forall cert_key size sign verify enc c cnonce r res, cert_key (c_server_cert c) <> OtherKey -> r_cert res <> c_server_cert c ->
  after_create cert_key size sign verify enc c cnonce r res = Fails 0x80120000.
Proof. exact wrong_certificate. Qed.
Print Assumptions c85_wrong_certificate.
Theorem c85_wrong_signature : forall cert_key size sign verify enc c cnonce r res p s u k, c_policy c = standard_uri p -> standard_signature p = Some (s, u) ->
  cert_key (c_server_cert c) = RSAKey k -> r_cert res = c_server_cert c ->
  verify k s (c_cert c ++ cnonce) (g_bytes (r_signature res)) = false ->
  after_create cert_key size sign verify enc c cnonce r res = Fails 0x80580000.
Proof. exact wrong_signature. Qed.
Print Assumptions c85_wrong_signature.
(** The client signs the server's certificate and nonce with the algorithm of the policy. *)
Theorem c85_own_signature : forall cert_key size sign verify enc c cnonce r res a p,
  after_create cert_key size sign verify enc c cnonce r res = Sends a -> c_policy c = standard_uri p ->
  a_token a = r_token res /\
  match standard_signature p with
  | None => a_signature a = mkSig [] []
  | Some (s, uri) => exists g, sign (c_key c) s (c_server_cert c ++ r_nonce res) = Some g /\ a_signature a = mkSig uri g
  end.
Proof. exact own_signature. Qed.
Print Assumptions c85_own_signature.
(** The token is of the user's kind and of the first policy offered for it; a certificate's signature covers the server's nonce; a password or issued token is encrypted, with the server's nonce, for the key of the server's certificate.  Missing: policies the client does not know, see below. *)
Theorem c85_token_partial : forall cert_key size sign verify enc c cnonce r res a,
  after_create cert_key size sign verify enc c cnonce r res = Sends a ->
  exists t, offered c (type_of_user (c_user c)) t /\
    match c_user c with
    | Anyone => a_user a = UAnonymous (p_id t)
    | Holder cert k => a_user a = UX509 (p_id t) cert /\
        forall p, policy_of_token c t p ->
          match standard_signature p with
          | None => a_user_signature a = mkSig [] []
          | Some (s, uri) => exists g, sign k s (c_server_cert c ++ r_nonce res) = Some g /\ a_user_signature a = mkSig uri g
          end
    | Named name password => exists d, a_user a = UUserName (p_id t) name d (a_alg a) /\
        forall p, policy_of_token c t p -> p <> PNone ->
          exists k, cert_key (c_server_cert c) = RSAKey k /\ a_alg a = standard_wrap p /\
            sealed (enc k) (size k) (standard_wrap p) password (r_nonce res) d
    | Issued data => exists d, a_user a = UIssued (p_id t) d /\
        forall p, policy_of_token c t p -> p <> PNone ->
          exists k, cert_key (c_server_cert c) = RSAKey k /\ a_alg a = standard_wrap p /\
            sealed (enc k) (size k) (standard_wrap p) data (r_nonce res) d
    end.
Proof. exact token_sent. Qed.
Print Assumptions c85_token_partial.
(** A token policy with a security policy the client does not know: the password is sent as it is. *)
Theorem c85_unknown_policy_refuted : forall cert_key size sign verify enc c cnonce r res a t name password,
  after_create cert_key size sign verify enc c cnonce r res = Sends a ->
  c_user c = Named name password -> offered c TUserName t -> p_uri t <> [] -> (forall p, p_uri t <> standard_uri p) ->
  a_user a = UUserName (p_id t) name password WNone.
Proof. exact unknown_policy_plain. Qed.
Print Assumptions c85_unknown_policy_refuted.
(** The endpoints the server lists in its answer are not compared with those of discovery, which came over an unsecured channel. *)
Theorem c85_endpoints_refuted : forall cert_key size sign verify enc c cnonce r res eps,
  after_create cert_key size sign verify enc c cnonce r (mkCreated (r_token res) (r_nonce res) (r_cert res) (r_signature res) eps) =
  after_create cert_key size sign verify enc c cnonce r res.
Proof. exact endpoints_ignored. Qed.
Print Assumptions c85_endpoints_refuted.
(** A server nonce of any length is accepted, an empty one included, under every policy; so is any name of the signature algorithm. *)
Theorem c85_nonce_refuted : forall cert_key size sign verify enc c cnonce r nonce p k t tok gb alg eps,
  c_policy c = standard_uri p -> cert_key (c_server_cert c) = RSAKey k ->
  (forall k s m, exists g, sign k s m = Some g) -> c_user c = Anyone -> offered c TAnonymous t ->
  (forall s u, standard_signature p = Some (s, u) -> verify k s (c_cert c ++ cnonce) gb = true) ->
  exists a, after_create cert_key size sign verify enc c cnonce r (mkCreated tok nonce (c_server_cert c) (mkSig alg gb) eps) = Sends a.
Proof. exact any_nonce. Qed.
Print Assumptions c85_nonce_refuted.
(** A certificate from discovery whose key is not RSA crashes the client. *)
Theorem c85_key_type_refuted : forall cert_key size sign verify enc c cnonce r res, cert_key (c_server_cert c) = OtherKey ->
  after_create cert_key size sign verify enc c cnonce r res = Panics.
Proof. exact other_key_panics. Qed.
Print Assumptions c85_key_type_refuted.
(** So does a namespace array that is not a list of strings. *)
Theorem c85_tables_refuted : forall s1 v1 s, is_good s = true -> read_tables [(s, None); (s1, v1)] = TablesPanic.
Proof. exact tables_panic. Qed.
Print Assumptions c85_tables_refuted.
Theorem c85_tables : forall s0 v0 s1 v1 a b, read_tables [(s0, v0); (s1, v1)] = Tables a b <->
  a = (if Z.land s0 0xC0000000 =? 0 then v0 else None) /\ b = (if Z.land s1 0xC0000000 =? 0 then v1 else None) /\
  ~ (Z.land s0 0xC0000000 = 0 /\ v0 = None) /\ ~ (Z.land s1 0xC0000000 = 0 /\ v1 = None).
Proof. exact tables_read. Qed.
Print Assumptions c85_tables.
Example c85_ex : forall p u, In u [Anyone; Named [x6a] [x70; x77]; Holder [x55] 3; Issued [x74]] ->
  exists a, x_open (x_client p u) x_cnonce 0 (x_created p) = Sends a.
Proof. exact x_sends. Qed.
Example c85_ex_impostor : x_open (x_client PBasic256Sha256 Anyone) x_cnonce 0
  (mkCreated [x99] x_nonce [x53] (mkSig [] (byte_of_Z 2 :: x02 :: [x43] ++ x_cnonce)) []) = Fails 0x80580000.
Proof. exact x_impostor. Qed.
Example c85_ex_unknown : match x_open x_odd x_cnonce 0 (x_created PBasic256Sha256) with Sends a => a_user a = UUserName [x31] [x6a] [x70; x77] WNone | _ => False end.
Proof. exact x_odd_sends. Qed.

(** C86. A signature made for one nonce of the server activates nothing once the nonce has changed.  Missing: policy None (C35) and passwords, see below. *)
Theorem c86_certificate_partial : forall max local_cert nan_ms dlen verify dec cert_key cert_uris auth ops ch tok sig pid cert usig nonce k old, Forall real_chan ops ->
  let st := fst (srun max local_cert nan_ms dlen verify dec cert_key cert_uris auth ops) in
  let h := snd (srun max local_cert nan_ms dlen verify dec cert_key cert_uris auth ops) in
  (forall t, In t (ch_tokens ch) -> tp_type t = TCertificate -> match tp_policy t with Some p => p | None => ch_policy ch end <> PNone) ->
  cert_key cert = Some k -> (forall p m, p <> PNone -> verify k p m usig = true -> m = local_cert ++ old) -> last_nonce h tok <> Some old ->
  forall e id n, snd (sstep max local_cert nan_ms dlen verify dec cert_key cert_uris auth st (OActivate ch tok sig (UX509 pid cert) usig nonce)) <> EvActivated e id n.
Proof. exact certificate_once. Qed.
Print Assumptions c86_certificate_partial.
(** An encrypted password that was accepted once is accepted in any other session of any other client: the nonce inside is not looked at.  Over a channel with policy None no signature is needed. *)
Theorem c86_password_refuted : forall max local_cert nan_ms dlen verify dec cert_key cert_uris auth
    ops1 ch1 tok1 sig1 usig1 n1 e pid name cipher alg id ops2 ch2 tok2 sig2 usig2 n2 old cch app cert,
  let run := srun max local_cert nan_ms dlen verify dec cert_key cert_uris auth in
  let step := sstep max local_cert nan_ms dlen verify dec cert_key cert_uris auth in
  snd (step (fst (run ops1)) (OActivate ch1 tok1 sig1 (UUserName pid name cipher alg) usig1 n1)) = EvActivated e id n1 ->
  Forall real_chan ops2 -> let st := fst (run ops2) in let h := snd (run ops2) in
  ch_discovery ch2 = false -> ch_tokens ch2 = ch_tokens ch1 -> ch_ep_policy ch2 = ch_ep_policy ch1 ->
  timed_out nan_ms (ss_now st) h tok2 = false -> last_nonce h tok2 = Some old -> creator h tok2 = Some (cch, app, cert) ->
  (ch_policy ch2 <> PNone -> verify (ch_key ch2) (ch_policy ch2) (local_cert ++ old) sig2 = true) ->
  auth id app = AAccepts ->
  snd (step st (OActivate ch2 tok2 sig2 (UUserName pid name cipher alg) usig2 n2)) = EvActivated tok2 id n2.
Proof. exact password_replay. Qed.
Print Assumptions c86_password_refuted.
Example c86_ex : x_run [OCreate (x_chan PNone) (Some 60000) [x75] [x43] x_cnonce [x99] x_nonce;
    OActivate (x_chan PNone) [x99] [] x_captured [] (repeat x0c 32);
    OCreate x_thief (Some 60000) [x78] [] [] [x98] (repeat x0d 32);
    OActivate x_thief [x98] [] x_captured [] (repeat x0e 32); OService x_thief [x98]] =
  [EvCreated [x99] x_nonce (Some 60000); EvActivated [x99] (IUserName [x6a] [x70; x77]) (repeat x0c 32);
   EvCreated [x98] (repeat x0d 32) (Some 60000); EvActivated [x98] (IUserName [x6a] [x70; x77]) (repeat x0e 32); EvServed [x98]].
Proof. exact x_replay. Qed.

(** C87. A client and a server that fit together: the session is created, the client accepts the answer, its request activates the session with its user, and the next service is served.  Missing: issued tokens and passwords of more than 64 bytes (C33), see below. *)
Theorem c87_handshake_partial : forall max local_cert nan_ms pub size sign verify enc dec cert_key cert_uris auth skey,
  signatures_work pub sign verify -> rsa_works (enc (pub skey)) dec (size (pub skey)) -> size_ok (size (pub skey)) ->
  forall st c ch default rt cnonce r token nonce eps ms nonce',
  fits cert_key pub local_cert skey cert_uris c ch -> room max st -> presentable cert_key pub c ->
  length cnonce = 32%nat -> length nonce = 32%nat -> (ms <= 10000)%N ->
  auth (identity_of_user (c_user c)) (application_uri (cert_uris (c_cert c)) default) = AAccepts ->
  let step := sstep max local_cert nan_ms (size (pub skey)) (server_verify verify) dec (server_cert_key cert_key) cert_uris auth in
  let app := application_uri (cert_uris (c_cert c)) default in
  let create := step st (OCreate ch (Some rt) app (c_cert c) cnonce token nonce) in
  (exists t, snd create = EvCreated token nonce (Some t)) /\
  exists sig, server_signature sign skey (ch_policy ch) (c_cert c) cnonce = Some sig /\
  exists a, after_create cert_key size sign verify enc c cnonce r (mkCreated token nonce local_cert sig eps) = Sends a /\
  let act := step (fst (step (fst create) (OTick ms)))
    (OActivate ch (a_token a) (g_bytes (a_signature a)) (a_user a) (g_bytes (a_user_signature a)) nonce') in
  snd act = EvActivated token (identity_of_user (c_user c)) nonce' /\
  (ch_id ch <> 0 -> snd (step (fst act) (OService ch (a_token a))) = EvServed token).
Proof. exact handshake. Qed.
Print Assumptions c87_handshake_partial.
(** The server looks for issued tokens among the certificate policies: the client's token is refused. *)
Theorem c87_issued_refuted : forall max local_cert nan_ms pub size sign verify enc dec cert_key cert_uris auth skey,
  signatures_work pub sign verify ->
  forall st c cnonce r res a data ch nonce' s,
  after_create cert_key size sign verify enc c cnonce r res = Sends a -> c_user c = Issued data ->
  fits cert_key pub local_cert skey cert_uris c ch -> get nan_ms st (a_token a) = Some s -> s_nonce s = r_nonce res ->
  (forall t u, offered c TIssued t -> In u (c_tokens c) -> p_type u = TCertificate -> p_id u <> p_id t) ->
  snd (sstep max local_cert nan_ms (size (pub skey)) (server_verify verify) dec (server_cert_key cert_key) cert_uris auth st
    (OActivate ch (a_token a) (g_bytes (a_signature a)) (a_user a) (g_bytes (a_user_signature a)) nonce')) = EvFault FTokenInvalid.
Proof. exact issued_rejected. Qed.
Print Assumptions c87_issued_refuted.
Example c87_ex : signatures_work x_pub x_sign x_verify /\ rsa_works (x_enc 101) (toy_dec 256) 256 /\
  (forall p u, fits x_cert_key x_pub [x53] 1 x_cert_uris (x_client p u) (x_chan p)) /\
  (forall p, presentable x_cert_key x_pub (x_client p (Named [x6a] [x70; x77]))).
Proof. exact (conj x_signatures (conj x_rsa (conj x_fits (fun p => proj1 (x_presentable p))))). Qed.
