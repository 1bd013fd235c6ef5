(** Concrete cases for the theorems about opening sessions. *)
From Coq Require Import ZArith List Bool Strings.String Lia Strings.Byte.
From Verif Require Import Bytes BytesProofs Text Keys Password PasswordSpec PasswordProofs Session SessionSpec SessionProofs SessionLemmas
  ClientSession ClientSessionSpec ClientSessionProofs HandshakeProofs.
Import ListNotations.
Open Scope Z_scope.

(** Keys are numbers, the public key is the private one plus 100; a signature names key and scheme. *)
Definition x_pub (k : Z) : Z := k + 100.
Definition x_tag (s : scheme) : byte := match s with Pkcs1Sha1 => x01 | Pkcs1Sha256 => x02 | PssSha256 => x03 end.
Definition x_sign (k : Z) (s : scheme) (m : bytes) : option bytes := Some (byte_of_Z k :: x_tag s :: m).
Definition x_verify (k : Z) (s : scheme) (m g : bytes) : bool := bytes_eqb g (byte_of_Z (k - 100) :: x_tag s :: m).
Definition x_cert_key (c : bytes) : certkey :=
  match c with [x53] => RSAKey 101 | [x43] => RSAKey 102 | [x55] => RSAKey 103 | [x45] => OtherKey | _ => NoCert end.
Definition x_cert_uris (c : bytes) : list bytes := match c with [x43] => [[x75]; [x76]] | _ => [] end.
Definition x_enc (k : Z) := toy_enc 256.
Definition x_auth (id : identity) (app : bytes) : authres := AAccepts.

Definition x_tokens : list token_policy := [mkTP [x30] TAnonymous []; mkTP [x31] TUserName (standard_uri PAes256); mkTP [x32] TCertificate []; mkTP [x33] TIssued []].
Definition x_client (p : pname) (u : user) : client := mkClient (standard_uri p) [x53] x_tokens [x43] 2 u.
Definition x_chan (p : pname) : chan := mkChan 7 false p 102 (map server_policy x_tokens) p.
Definition x_nonce : bytes := repeat x0a 32.
Definition x_cnonce : bytes := repeat x0b 32.
Definition x_open := after_create x_cert_key (fun _ => 256) x_sign x_verify x_enc.
Definition x_created (p : pname) : created :=
  match server_signature x_sign 1 p [x43] x_cnonce with Some g => mkCreated [x99] x_nonce [x53] g [] | None => mkCreated [] [] [] no_signature [] end.

Lemma x_signatures : signatures_work x_pub x_sign x_verify.
Proof. intros k s m. eexists. split; [reflexivity|]. unfold x_verify, x_pub. replace (k + 100 - 100) with k by lia. apply bytes_eqb_refl'. Qed.
Lemma x_rsa : rsa_works (x_enc 101) (toy_dec 256) 256. Proof. exact (proj1 (proj2 ex_password)). Qed.
Lemma x_fits p u : fits x_cert_key x_pub [x53] 1 x_cert_uris (x_client p u) (x_chan p).
Proof. constructor; try reflexivity; auto. intros _. exists [x75], [[x76]]. split; [reflexivity|discriminate]. Qed.
Lemma x_presentable p : presentable x_cert_key x_pub (x_client p (Named [x6a] [x70; x77])) /\
  presentable x_cert_key x_pub (x_client p (Holder [x55] 3)) /\ presentable x_cert_key x_pub (x_client p Anyone).
Proof.
  repeat split; try discriminate; try (cbn; lia).
  - exists (mkTP [x31] TUserName (standard_uri PAes256)). split; [right; left; reflexivity|reflexivity].
  - exists (mkTP [x32] TCertificate []). split; [right; right; left; reflexivity|reflexivity].
  - exists (mkTP [x30] TAnonymous []). split; [left; reflexivity|reflexivity].
Qed.
(** The client sends its request for every policy and user. *)
Lemma x_sends : forall p u, In u [Anyone; Named [x6a] [x70; x77]; Holder [x55] 3; Issued [x74]] ->
  exists a, x_open (x_client p u) x_cnonce 0 (x_created p) = Sends a.
Proof. intros p u [<-|[<-|[<-|[<-|[]]]]]; destruct p; vm_compute; eauto. Qed.
Lemma x_impostor : x_open (x_client PBasic256Sha256 Anyone) x_cnonce 0 (mkCreated [x99] x_nonce [x53] (mkSig [] (byte_of_Z 2 :: x02 :: [x43] ++ x_cnonce)) []) = Fails 0x80580000.
Proof. vm_compute. reflexivity. Qed.
(** A policy the client does not know. *)
Definition x_odd : client := mkClient (standard_uri PBasic256Sha256) [x53]
  [mkTP [x31] TUserName (lit "http://opcfoundation.org/UA/SecurityPolicy#Aes512"%string)] [x43] 2 (Named [x6a] [x70; x77]).
Lemma x_odd_sends : match x_open x_odd x_cnonce 0 (x_created PBasic256Sha256) with Sends a => a_user a = UUserName [x31] [x6a] [x70; x77] WNone | _ => False end.
Proof. vm_compute. reflexivity. Qed.
Lemma x_odd_offered : offered x_odd TUserName (mkTP [x31] TUserName (lit "http://opcfoundation.org/UA/SecurityPolicy#Aes512"%string)).
Proof. exists [], []. repeat split. intros u []. Qed.
Lemma x_odd_unknown : forall p, lit "http://opcfoundation.org/UA/SecurityPolicy#Aes512"%string <> standard_uri p.
Proof. intros p H. destruct p; vm_compute in H; discriminate H. Qed.

(** * The same encrypted password twice *)
Definition x_step := sstep 10 [x53] 0 256 (server_verify x_verify) (toy_dec 256) (server_cert_key x_cert_key) x_cert_uris x_auth.
Definition x_run (l : list sop) : list sev := map en_ev (rev (snd (srun 10 [x53] 0 256 (server_verify x_verify) (toy_dec 256) (server_cert_key x_cert_key) x_cert_uris x_auth l))).
(** What travels over a channel without security, from a client whose token policy asks for encryption. *)
Definition x_captured : utoken := match x_open (x_client PNone (Named [x6a] [x70; x77])) x_cnonce 0 (x_created PNone) with Sends a => a_user a | _ => UOther end.
Definition x_thief : chan := mkChan 8 false PNone 0 (map server_policy x_tokens) PNone.
Lemma x_replay : x_run [OCreate (x_chan PNone) (Some 60000) [x75] [x43] x_cnonce [x99] x_nonce;
    OActivate (x_chan PNone) [x99] [] x_captured [] (repeat x0c 32);
    OCreate x_thief (Some 60000) [x78] [] [] [x98] (repeat x0d 32);
    OActivate x_thief [x98] [] x_captured [] (repeat x0e 32); OService x_thief [x98]] =
  [EvCreated [x99] x_nonce (Some 60000); EvActivated [x99] (IUserName [x6a] [x70; x77]) (repeat x0c 32);
   EvCreated [x98] (repeat x0d 32) (Some 60000); EvActivated [x98] (IUserName [x6a] [x70; x77]) (repeat x0e 32); EvServed [x98]].
Proof. vm_compute. reflexivity. Qed.
(** The nonces differ, and the captured token was made for the first. *)
Definition x_srun := srun 10 [x53] 0 256 (server_verify x_verify) (toy_dec 256) (server_cert_key x_cert_key) x_cert_uris x_auth.
Lemma x_replay_hyps :
  let ops1 := [OCreate (x_chan PNone) (Some 60000) [x75] [x43] x_cnonce [x99] x_nonce] in
  let ops2 := [OCreate x_thief (Some 60000) [x78] [] [] [x98] (repeat x0d 32)] in
  snd (x_step (fst (x_srun ops1)) (OActivate (x_chan PNone) [x99] [] x_captured [] (repeat x0c 32))) = EvActivated [x99] (IUserName [x6a] [x70; x77]) (repeat x0c 32) /\
  timed_out 0 0 (snd (x_srun ops2)) [x98] = false /\ last_nonce (snd (x_srun ops2)) [x98] = Some (repeat x0d 32) /\
  creator (snd (x_srun ops2)) [x98] = Some (x_thief, [x78], []).
Proof. repeat split; vm_compute; reflexivity. Qed.
(** A certificate token bound to its nonce. *)
Lemma x_once : exists g, x_sign 3 Pkcs1Sha256 ([x53] ++ x_nonce) = Some g /\
  forall p m, server_verify x_verify 103 p m g = true -> p <> PNone -> m = [x53] ++ x_nonce.
Proof.
  eexists. split; [reflexivity|]. intros p m H Hp. unfold server_verify, x_verify in H.
  destruct p; cbn [standard_signature] in H; try congruence; apply bytes_eqb_eq in H; injection H; congruence.
Qed.

(** * The handshake with an issued token *)
Lemma x_issued : match x_open (x_client PBasic256Sha256 (Issued [x74])) x_cnonce 0 (x_created PBasic256Sha256) with
  | Sends a => x_run [OCreate (x_chan PBasic256Sha256) (Some 60000) [x75] [x43] x_cnonce [x99] x_nonce;
                      OActivate (x_chan PBasic256Sha256) [x99] (g_bytes (a_signature a)) (a_user a) (g_bytes (a_user_signature a)) (repeat x0c 32)] =
               [EvCreated [x99] x_nonce (Some 60000); EvFault FTokenInvalid]
  | _ => False
  end.
Proof. vm_compute. reflexivity. Qed.
Lemma x_handshake : match x_open (x_client PBasic256Sha256 (Named [x6a] [x70; x77])) x_cnonce 0 (x_created PBasic256Sha256) with
  | Sends a => x_run [OCreate (x_chan PBasic256Sha256) (Some 60000) [x75] [x43] x_cnonce [x99] x_nonce;
                      OActivate (x_chan PBasic256Sha256) [x99] (g_bytes (a_signature a)) (a_user a) (g_bytes (a_user_signature a)) (repeat x0c 32);
                      OService (x_chan PBasic256Sha256) [x99]] =
               [EvCreated [x99] x_nonce (Some 60000); EvActivated [x99] (IUserName [x6a] [x70; x77]) (repeat x0c 32); EvServed [x99]]
  | _ => False
  end.
Proof. vm_compute. reflexivity. Qed.
