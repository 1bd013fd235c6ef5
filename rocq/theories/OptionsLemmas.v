(** Examples of options, and the statements of the properties in the form they are proved. *)
From Coq Require Import ZArith String List Bool Permutation.
From Verif Require Import Options OptionsSpec OptionsProofs.
Import ListNotations.
Open Scope Z_scope.

(** files with RSA keys, with another key, and no files *)
Definition some_files : loader := fun cert _ =>
  if (cert =? "rsa.crt")%string then Some ([[48; 1]; [48; 2]], RSA 7)
  else if (cert =? "ec.crt")%string then Some ([[48; 3]], OtherKey)
  else None.

Definition some_options : list client_option :=
  [WithTimeoutHint 2000; WithSessionName "a"; WithClientCertificatePaths "rsa.crt" "rsa.key"; WithInsecureSkipVerify;
   WithTransportLimits 8192 100000 16; WithConnectTimeout 300; WithDiagnosticsHint 31; WithTrace; WithSessionName "b";
   WithTrustedCertificatesPaths "t" "r"; WithTrustedCertificatesFile "f"].

(** the last name is used, the later option leaves the revocation lists, the timeouts of requests do not change *)
Example some_options_do :
  match dial some_files some_options with
  | Set_to c => map (client_does c) [ESessionName; ECertificate; EKey; ETrustedCerts; ETrustedCRLs; EConnect; EDiscoveryConnect;
                                     ERequestTimeout; ERequestDiagnostics; EHelloMessage; EMaxResponse; ETokenLifetime]
                = [VText "b"; VBytes [48; 1; 48; 2]; VRef (Some 7); VText "f"; VText "r"; VNum 300; VNum 15000;
                   VNum 15000; VNum 0; VNum 100000; VNum 67108864; VNum 3600000]
  | _ => False
  end.
Proof. reflexivity. Qed.

Example some_options_readable : Forall (readable some_files) some_options.
Proof. repeat constructor. exists [[48; 1]; [48; 2]], 7. reflexivity. Qed.

Example some_fail : dial some_files [WithTrace; WithX509IdentityPaths "none" "k"; WithX509IdentityPaths "ec.crt" "k"] = Failed.
Proof. reflexivity. Qed.
Example some_panic : dial some_files [WithTrace; WithX509IdentityPaths "ec.crt" "k"; WithX509IdentityPaths "none" "k"] = Panicked.
Proof. reflexivity. Qed.
Example some_other_key :
  match dial some_files [WithClientCertificatePaths "ec.crt" "k"] with
  | Set_to c => client_does c ECertificate = VBytes [48; 3] /\ client_does c EKey = VRef None
  | _ => False
  end.
Proof. split; reflexivity. Qed.

(** options about different things, in another order *)
Definition some_different : list client_option :=
  [WithTrace; WithSessionName "a"; WithClientCertificatePaths "rsa.crt" "rsa.key"; WithTransportLimits 8192 100000 16].

Example some_are_different : ForallOrdPairs different some_different.
Proof.
  unfold some_different.
  repeat (constructor; [repeat (constructor; [intros e H K; cbn in H, K; intuition (subst; discriminate)|]); constructor|]). constructor.
Qed.

Definition some_server_options : list server_option :=
  [WithAnonymousIdentity true; WithSecurityPolicyNone true; WithLimits 8192 100000 16; WithMaxSessionCount 3;
   WithAnonymousIdentity false; WithAuthenticateUserNameIdentityFunc 5; WithServerDiagnostics false].

Example some_server_options_do :
  match new some_server_options with
  | Set_to c => map (server_does c) [FAnonymous; FUserName; FX509; FAllowNone; FMaxSessions; FMaxSubscriptions; FMaxRequest; FAckChunks; FWorkers; FDiagnostics]
                = [VRef None; VRef (Some 5); VRef None; VFlag true; VNum 3; VNum 0; VNum 100000; VNum 16; VNum 4; VFlag false]
  | _ => False
  end.
Proof. reflexivity. Qed.

Example some_server_different : ForallOrdPairs server_different [WithSkipVerify; WithMaxSessionCount 3; WithLimits 1 2 3].
Proof.
  repeat (constructor; [repeat (constructor; [intros e H K; cbn in H, K; intuition (subst; discriminate)|]); constructor|]). constructor.
Qed.

(** ** The forms of the properties *)
Lemma fixed_values_lemma : forall load opts c, dial load opts = Set_to c ->
  client_does c ERequestTimeout = VNum 15000 /\ client_does c ERequestDiagnostics = VNum 0 /\
  client_does c EMaxResponse = VNum (64 * 1024 * 1024) /\ client_does c EDiscoveryConnect = VNum 15000 /\
  client_does c EDiscoveryBuffers = VNum (64 * 1024) /\ client_does c EDiscoveryTrace = VFlag false.
Proof. intros. repeat split; reflexivity. Qed.

Lemma fixed_about_lemma : forall e, In e fixed -> exists o, In e (about o) /\ exists load v, says load o e v /\
  forall c, dial load [o] = Set_to c -> client_does c e <> v.
Proof.
  intros e I. unfold fixed in I. cbn in I.
  destruct I as [<-|[<-|[<-|[<-|[<-|[<-|[]]]]]]].
  - exists (WithTimeoutHint 2000). split; [cbn; tauto|]. exists some_files, (VNum 2000). split; [reflexivity|]. discriminate.
  - exists (WithDiagnosticsHint 31). split; [cbn; tauto|]. exists some_files, (VNum 31). split; [reflexivity|]. discriminate.
  - exists (WithTransportLimits 8192 100000 16). split; [cbn; tauto|]. exists some_files, (VNum 100000). split; [reflexivity|]. discriminate.
  - exists (WithConnectTimeout 300). split; [cbn; tauto|]. exists some_files, (VNum 300). split; [reflexivity|]. discriminate.
  - exists (WithTransportLimits 8192 100000 16). split; [cbn; tauto|]. exists some_files, (VNum 8192). split; [reflexivity|]. discriminate.
  - exists WithTrace. split; [cbn; tauto|]. exists some_files, (VFlag true). split; [reflexivity|]. discriminate.
Qed.

Lemma default_refuted_lemma : forall load, exists c, dial load [] = Set_to c /\
  (forall e, In e other_default -> client_does c e = VNum 15000 /\ ~ documented_default e (client_does c e)).
Proof.
  intros load. eexists. split; [reflexivity|]. intros e I. unfold other_default in I. cbn in I.
  destruct I as [<-|[<-|[<-|[]]]]; (split; [reflexivity|discriminate]).
Qed.

Lemma key_refuted_lemma : forall load before o blocks after, (forall o', In o' before -> readable load o') -> other_key load o blocks ->
  (In EIdentity (about o) -> dial load (before ++ o :: after) = Panicked) /\
  (In EKey (about o) -> (forall o', In o' after -> readable load o') -> (forall o', In o' after -> ~ In ECertificate (about o')) ->
   exists c, dial load (before ++ o :: after) = Set_to c /\
             client_does c ECertificate = VBytes (concat blocks) /\ client_does c EKey = VRef None).
Proof.
  intros load before o blocks after B K. split.
  - intros I. destruct o; cbn in K; try contradiction; cbn in I.
    + exact (identity_panics load before _ _ blocks after _ B (or_introl eq_refl) K).
    + exact (identity_panics load before _ _ blocks after _ B (or_intror eq_refl) K).
    + intuition discriminate.
    + intuition discriminate.
  - intros I A D.
    assert (O : exists cert key, (o = WithClientCertificateFile cert key \/ o = WithClientCertificatePaths cert key) /\ load cert key = Some (blocks, OtherKey)).
    { destruct o; cbn in K; try contradiction; cbn in I; try (intuition discriminate); exists cert, key; (split; [tauto|exact K]). }
    destruct O as (cert & key & O & L).
    assert (S : exists c, dial load (before ++ o :: after) = Set_to c).
    { unfold dial. apply apply_ok. intros o' J. apply in_app_or in J. destruct J as [J|[<-|J]].
      - apply readable_sets, B, J.
      - destruct O as [-> | ->]; cbn; unfold load_certificate; rewrite L; eexists; reflexivity.
      - apply readable_sets, A, J. }
    destruct S as (c & S). exists c. split; [exact S|]. exact (certificate_no_key _ _ _ _ _ _ _ _ O L S D).
Qed.
