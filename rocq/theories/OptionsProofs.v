(** Proofs about options. *)
From Coq Require Import ZArith String List Bool Permutation Lia.
From Verif Require Import Options OptionsSpec.
Import ListNotations.
Open Scope Z_scope.

(** ** Assignments *)
Section Generic.
Variable field option : Type.
Variable eq_dec : forall a b : field, {a = b} + {a <> b}.
Variable sets : option -> result (list (field * setting)).

Notation assign_all := (assign_all field eq_dec).
Notation apply := (apply field option eq_dec sets).

(** the last value that a list gives a field *)
Fixpoint last_of (l : list (field * setting)) (f : field) : Datatypes.option setting :=
  match l with
  | [] => None
  | a :: r => match last_of r f with
              | Some v => Some v
              | None => if eq_dec f (fst a) then Some (snd a) else None
              end
  end.

Lemma assign_all_at : forall l c f,
  assign_all c l f = match last_of l f with Some v => v | None => c f end.
Proof.
  induction l as [|a l IH]; intros c f; cbn [last_of]; [reflexivity|].
  change (assign_all c (a :: l)) with (assign_all (assign field eq_dec c a) l).
  rewrite IH. destruct (last_of l f); [reflexivity|]. unfold assign. destruct (eq_dec f (fst a)); reflexivity.
Qed.

Lemma apply_app : forall a b c, apply c (a ++ b) = match apply c a with Set_to d => apply d b | Failed => Failed | Panicked => Panicked end.
Proof.
  induction a as [|o a IH]; intros b c; [reflexivity|]. cbn [app Options.apply].
  destruct (sets o); [apply IH|reflexivity|reflexivity].
Qed.

(** fields that none of the options sets stay *)
Definition touches (o : option) (f : field) : Prop := exists l v, sets o = Set_to l /\ In (f, v) l.

Lemma last_of_in : forall l f v, last_of l f = Some v -> In (f, v) l.
Proof.
  induction l as [|a l IH]; intros f v; cbn [last_of]; [discriminate|].
  destruct (last_of l f) as [w|] eqn:E.
  - intros [= <-]. right. apply IH, E.
  - destruct (eq_dec f (fst a)) as [->|]; [|discriminate]. intros [= <-]. left. destruct a; reflexivity.
Qed.

Lemma last_of_none : forall l f, (forall v, ~ In (f, v) l) -> last_of l f = None.
Proof. intros l f H. destruct (last_of l f) as [v|] eqn:E; [|reflexivity]. exfalso. exact (H v (last_of_in _ _ _ E)). Qed.

Lemma apply_stays : forall opts c d f, apply c opts = Set_to d -> (forall o, In o opts -> ~ touches o f) -> d f = c f.
Proof.
  induction opts as [|o r IH]; intros c d f; cbn [Options.apply].
  - intros [= ->]. reflexivity.
  - destruct (sets o) as [l| |] eqn:E; [|discriminate|discriminate]. intros A T.
    rewrite (IH _ _ _ A (fun o' I => T o' (or_intror I))), assign_all_at, last_of_none; [reflexivity|].
    intros v I. apply (T o (or_introl eq_refl)). exists l, v. split; assumption.
Qed.

(** the last option that sets a field gives its value *)
Lemma apply_last : forall before o after c d f l v,
  apply c (before ++ o :: after) = Set_to d -> sets o = Set_to l -> last_of l f = Some v ->
  (forall o', In o' after -> ~ touches o' f) -> d f = v.
Proof.
  intros before o after c d f l v A S L T. rewrite apply_app in A.
  destruct (apply c before) as [b| |]; [|discriminate|discriminate]. cbn [Options.apply] in A. rewrite S in A.
  rewrite (apply_stays _ _ _ _ A T), assign_all_at, L. reflexivity.
Qed.

(** options that set different fields commute *)
Definition apart (a b : option) : Prop := forall f, touches a f -> ~ touches b f.

Lemma apart_sym : forall a b, apart a b -> apart b a.
Proof. intros a b H f T U. exact (H f U T). Qed.

Lemma apply_ext : forall opts c d, (forall f, c f = d f) ->
  match apply c opts, apply d opts with
  | Set_to x, Set_to y => forall f, x f = y f
  | Failed, Failed | Panicked, Panicked => True
  | _, _ => False
  end.
Proof.
  induction opts as [|o r IH]; intros c d H; cbn [Options.apply]; [exact H|].
  destruct (sets o) as [l| |]; [|exact Logic.I|exact Logic.I]. apply IH. intros f. rewrite !assign_all_at, H. reflexivity.
Qed.

Lemma apply_permuted : forall l1 l2, Permutation l1 l2 -> ForallOrdPairs apart l1 ->
  forall c d, (forall f, c f = d f) -> forall x, apply c l1 = Set_to x ->
  exists y, apply d l2 = Set_to y /\ (forall f, x f = y f).
Proof.
  intros l1 l2 P. induction P as [|o l1 l2 P IH|a b l|l1 l2 l3 P IH Q IH2]; intros F c d H x A.
  - exists d. cbn in A. injection A as <-. split; [reflexivity|exact H].
  - cbn [Options.apply] in A |- *. destruct (sets o) as [l| |]; [|discriminate|discriminate].
    inversion F; subst. apply (IH H3 _ (assign_all d l)) in A; [exact A|].
    intros f. rewrite !assign_all_at, H. reflexivity.
  - cbn [Options.apply] in A |- *. destruct (sets a) as [m| |] eqn:Ea; [|destruct (sets b); discriminate|destruct (sets b); discriminate].
    destruct (sets b) as [n| |] eqn:Eb; [|discriminate|discriminate].
    assert (D : apart b a). { inversion F as [|? ? Fb]; subst. inversion Fb; subst. assumption. }
    assert (S : forall f, assign_all (assign_all c n) m f = assign_all (assign_all d m) n f).
    { intros f. rewrite !assign_all_at, H. destruct (last_of m f) as [v|] eqn:Em; destruct (last_of n f) as [w|] eqn:En; try reflexivity.
      exfalso. apply (D f); [exists n, w|exists m, v]; (split; [assumption|apply last_of_in; assumption]). }
    pose proof (apply_ext l _ _ S) as K. rewrite A in K.
    destruct (apply (assign_all (assign_all d m) n) l) as [y| |]; [|contradiction|contradiction]. exists y. split; [reflexivity|exact K].
  - destruct (IH F c d H x A) as (y & B & E).
    assert (F2 : ForallOrdPairs apart l2).
    { clear - F P. induction P as [|o l1 l2 P IH|a b l|l1 l2 l3 P IH Q IH2]; [exact F| | |tauto].
      - inversion F; subst. constructor; [|tauto]. rewrite Forall_forall in *. intros z I. apply H1. revert I. apply Permutation_in, Permutation_sym, P.
      - inversion F as [|? ? Fb Fl]; subst. inversion Fl as [|? ? Fa Fl2]; subst. inversion Fb; subst.
        constructor; [constructor; [apply apart_sym; assumption|assumption]|constructor; assumption]. }
    destruct (IH2 F2 d d (fun _ => eq_refl) y B) as (z & C & G). exists z. split; [exact C|]. intros f. rewrite E. apply G.
Qed.

Lemma apply_ok : forall opts c, (forall o, In o opts -> exists l, sets o = Set_to l) <-> (exists d, apply c opts = Set_to d).
Proof.
  induction opts as [|o r IH]; intros c; cbn [Options.apply].
  - split; [intros _; exists c; reflexivity|intros _ o []].
  - destruct (sets o) as [l| |] eqn:E.
    + rewrite <- IH. split; [intros H o' I; apply H; right; exact I|].
      intros H o' [<-|I]; [exists l; exact E|apply H, I].
    + split; [intros H; destruct (H o (or_introl eq_refl)) as (l & K); congruence|intros (d & [=])].
    + split; [intros H; destruct (H o (or_introl eq_refl)) as (l & K); congruence|intros (d & [=])].
Qed.
End Generic.

(** ** The client *)
Notation c_touches load := (touches cfield client_option (client_sets load)).
Notation c_apart load := (apart cfield client_option (client_sets load)).

(** where an effect comes from *)
Definition source (e : client_effect) : option cfield :=
  match e with
  | EConnect => Some CConnectTimeout
  | EHelloReceive | EHelloSend => Some CBufferSize
  | EHelloMessage => Some CMessageSize | EHelloChunks => Some CChunkCount
  | ETokenLifetime => Some CTokenLifetime
  | ETrustedCerts => Some CTrustedCerts | ETrustedCRLs => Some CTrustedCRLs
  | EIssuerCerts => Some CIssuerCerts | EIssuerCRLs => Some CIssuerCRLs | ERejected => Some CRejected
  | ESkipHost => Some CSkipHost | ESkipExpired => Some CSkipExpired | ESkipChain => Some CSkipChain | ESkipRevocation => Some CSkipRevocation
  | ECertificate => Some CCertificate | EKey => Some CKey | EPolicy => Some CPolicy | EMode => Some CMode
  | EAppName => Some CAppName | ESessionName => Some CSessionName | ESessionTimeout => Some CSessionTimeout
  | EIdentity => Some CIdentity | ETrace => Some CTrace
  | _ => None
  end.

Lemma source_does : forall c e f, source e = Some f -> client_does c e = c f.
Proof. intros c e f. destruct e; cbn; intros H; try discriminate H; injection H as <-; reflexivity. Qed.

Lemma source_fixed : forall e, source e = None <-> In e fixed.
Proof. intros e. unfold fixed. destruct e; cbn; split; intros H; try discriminate H; try reflexivity; intuition (try discriminate). Qed.

Lemma touches_about : forall load o e f, source e = Some f -> c_touches load o f -> In e (about o).
Proof.
  intros load o e f S (l & v & E & I).
  destruct o; cbn in E; unfold load_identity, load_certificate in E;
    try (destruct (load cert key) as [[bl [k|]]|]; try discriminate E);
    injection E as <-; cbn in I;
    repeat (destruct I as [I|I]; [injection I as <- <-; destruct e; cbn in S; try discriminate S; cbn; tauto|]); destruct I.
Qed.

Lemma says_last : forall load o e v f, source e = Some f -> says load o e v ->
  exists l, client_sets load o = Set_to l /\ last_of cfield cfield_eq_dec l f = Some v.
Proof.
  intros load o e v f S H.
  destruct o, e; cbn in S; try discriminate S; cbn in H; try contradiction; injection S as <-;
    try (subst v; eexists; split; [reflexivity|reflexivity]);
    destruct H as (bl & k & E & ->); cbn; unfold load_identity, load_certificate; rewrite E; eexists; split; reflexivity.
Qed.

Lemma client_effect_ok : forall load before o after c e v,
  dial load (before ++ o :: after) = Set_to c -> says load o e v -> (forall o', In o' after -> ~ In e (about o')) ->
  ~ In e fixed -> client_does c e = v.
Proof.
  intros load before o after c e v D Sa A F.
  destruct (source e) as [f|] eqn:S; [|exfalso; apply F, source_fixed, S].
  rewrite (source_does _ _ _ S). destruct (says_last _ _ _ _ _ S Sa) as (l & E & L).
  apply (apply_last _ _ _ _ _ _ _ _ _ _ _ _ D E L). intros o' I T. exact (A o' I (touches_about _ _ _ _ S T)).
Qed.

Lemma client_default_ok : forall load opts c e,
  dial load opts = Set_to c -> (forall o, In o opts -> ~ In e (about o)) -> ~ In e other_default -> documented_default e (client_does c e).
Proof.
  intros load opts c e D A O.
  destruct (source e) as [f|] eqn:S.
  - rewrite (source_does _ _ _ S), (apply_stays _ _ _ _ _ _ _ _ D (fun o I T => A o I (touches_about _ _ _ _ S T))).
    unfold other_default in O. destruct e; cbn in S; try discriminate S; injection S as <-; cbn in O |- *; try reflexivity; try tauto.
  - unfold other_default in O. destruct e; cbn in S; try discriminate S; cbn in O |- *; try reflexivity; exfalso; tauto.
Qed.

Lemma client_fixed : forall c e, In e fixed -> client_does c e =
  match e with ERequestTimeout | EDiscoveryConnect => VNum 15000 | ERequestDiagnostics => VNum 0 | EMaxResponse => VNum 67108864
             | EDiscoveryBuffers => VNum 65536 | _ => VFlag false end.
Proof. intros c e I. unfold fixed in I. cbn in I. intuition subst; reflexivity. Qed.

Lemma different_apart : forall load a b, different a b -> c_apart load a b.
Proof.
  intros load a b H f Ta Tb.
  assert (S : exists e, source e = Some f \/ (f = CTimeoutHint /\ e = ERequestTimeout) \/ (f = CDiagnosticsHint /\ e = ERequestDiagnostics)).
  { destruct f; first [ exists EPolicy; left; reflexivity | exists EMode; left; reflexivity | exists EIdentity; left; reflexivity
    | exists EAppName; left; reflexivity | exists ESessionName; left; reflexivity | exists ESessionTimeout; left; reflexivity
    | exists ECertificate; left; reflexivity | exists EKey; left; reflexivity | exists ETrustedCerts; left; reflexivity
    | exists ETrustedCRLs; left; reflexivity | exists EIssuerCerts; left; reflexivity | exists EIssuerCRLs; left; reflexivity
    | exists ERejected; left; reflexivity | exists ESkipHost; left; reflexivity | exists ESkipExpired; left; reflexivity
    | exists ESkipChain; left; reflexivity | exists ESkipRevocation; left; reflexivity | exists ETokenLifetime; left; reflexivity
    | exists EConnect; left; reflexivity | exists ETrace; left; reflexivity | exists EHelloReceive; left; reflexivity
    | exists EHelloMessage; left; reflexivity | exists EHelloChunks; left; reflexivity
    | exists ERequestTimeout; right; left; split; reflexivity | exists ERequestDiagnostics; right; right; split; reflexivity ]. }
  destruct S as (e & [S|[[-> ->]|[-> ->]]]).
  - exact (H e (touches_about _ _ _ _ S Ta) (touches_about _ _ _ _ S Tb)).
  - assert (K : forall o, c_touches load o CTimeoutHint -> In ERequestTimeout (about o)).
    { intros o (l & v & E & I). destruct o; cbn in E; unfold load_identity, load_certificate in E;
        try (destruct (load cert key) as [[bl [k|]]|]; try discriminate E);
        injection E as <-; cbn in I; repeat (destruct I as [I|I]; [try discriminate I; cbn; tauto|]); destruct I. }
    exact (H _ (K a Ta) (K b Tb)).
  - assert (K : forall o, c_touches load o CDiagnosticsHint -> In ERequestDiagnostics (about o)).
    { intros o (l & v & E & I). destruct o; cbn in E; unfold load_identity, load_certificate in E;
        try (destruct (load cert key) as [[bl [k|]]|]; try discriminate E);
        injection E as <-; cbn in I; repeat (destruct I as [I|I]; [try discriminate I; cbn; tauto|]); destruct I. }
    exact (H _ (K a Ta) (K b Tb)).
Qed.

Lemma ordpairs_impl : forall (A : Type) (P Q : A -> A -> Prop) l, (forall a b, P a b -> Q a b) -> ForallOrdPairs P l -> ForallOrdPairs Q l.
Proof.
  intros A P Q l H F. induction F as [|a l Fa F IH]; constructor; [|exact IH].
  rewrite Forall_forall in *. intros x I. apply H, Fa, I.
Qed.

Lemma client_does_ext : forall c d, (forall f, c f = d f) -> forall e, client_does c e = client_does d e.
Proof. intros c d H e. destruct e; cbn; try apply H; reflexivity. Qed.

Lemma client_order_ok : forall load l1 l2 c, Permutation l1 l2 -> ForallOrdPairs different l1 -> dial load l1 = Set_to c ->
  exists d, dial load l2 = Set_to d /\ (forall e, client_does c e = client_does d e).
Proof.
  intros load l1 l2 c P F D.
  destruct (apply_permuted _ _ cfield_eq_dec (client_sets load) _ _ P (ordpairs_impl _ _ _ _ (different_apart load) F)
              client_default client_default (fun _ => eq_refl) c D) as (d & E & K).
  exists d. split; [exact E|]. apply client_does_ext, K.
Qed.

Lemma readable_sets : forall load o, readable load o -> exists l, client_sets load o = Set_to l.
Proof.
  intros load o R. destruct o; cbn in R |- *; try (eexists; reflexivity);
    destruct R as (bl & k & E); unfold load_identity, load_certificate; rewrite E; eexists; reflexivity.
Qed.

Lemma client_succeeds_ok : forall load opts, (forall o, In o opts -> readable load o) -> exists c, dial load opts = Set_to c.
Proof. intros load opts H. unfold dial. apply apply_ok. intros o I. apply readable_sets, H, I. Qed.

Lemma client_fails_ok : forall load before o after, (forall o', In o' before -> readable load o') -> unreadable load o ->
  dial load (before ++ o :: after) = Failed.
Proof.
  intros load before o after H U. unfold dial. rewrite apply_app.
  destruct (client_succeeds_ok load before H) as (c & D). unfold dial in D. rewrite D. cbn [apply].
  destruct o; cbn in U; try contradiction; cbn; unfold load_identity, load_certificate; rewrite U; reflexivity.
Qed.

Lemma identity_panics : forall load before cert key bl after o, (forall o', In o' before -> readable load o') ->
  o = WithX509IdentityFile cert key \/ o = WithX509IdentityPaths cert key -> load cert key = Some (bl, OtherKey) ->
  dial load (before ++ o :: after) = Panicked.
Proof.
  intros load before cert key bl after o H O L. unfold dial. rewrite apply_app.
  destruct (client_succeeds_ok load before H) as (c & D). unfold dial in D. rewrite D. cbn [apply].
  destruct O as [-> | ->]; cbn; unfold load_identity; rewrite L; reflexivity.
Qed.

Lemma certificate_no_key : forall load before cert key bl after o c,
  o = WithClientCertificateFile cert key \/ o = WithClientCertificatePaths cert key -> load cert key = Some (bl, OtherKey) ->
  dial load (before ++ o :: after) = Set_to c -> (forall o', In o' after -> ~ In ECertificate (about o')) ->
  client_does c ECertificate = VBytes (concat bl) /\ client_does c EKey = VRef None.
Proof.
  intros load before cert key bl after o c O L D A.
  assert (E : client_sets load o = Set_to [(CCertificate, VBytes (concat bl)); (CKey, VRef None)]).
  { destruct O as [-> | ->]; cbn; unfold load_certificate; rewrite L; reflexivity. }
  assert (A2 : forall o', In o' after -> ~ In EKey (about o')).
  { intros o' I K. apply (A o' I). destruct o'; cbn in K |- *; intuition discriminate. }
  split; cbn [client_does].
  - apply (apply_last _ _ cfield_eq_dec _ _ _ _ _ _ CCertificate _ (VBytes (concat bl)) D E eq_refl). intros o' I T. exact (A o' I (touches_about load o' ECertificate CCertificate eq_refl T)).
  - apply (apply_last _ _ cfield_eq_dec _ _ _ _ _ _ CKey _ (VRef None) D E eq_refl). intros o' I T. exact (A2 o' I (touches_about load o' EKey CKey eq_refl T)).
Qed.

(** ** The server *)
Notation s_sets := (fun o => Set_to (server_sets o)).
Notation s_touches := (touches sfield server_option s_sets).

Definition server_source (e : server_effect) : sfield :=
  match e with
  | FMaxSessions => SMaxSessions | FMaxSubscriptions => SMaxSubscriptions
  | FCapabilities => SCapabilities | FBuildInfo => SBuildInfo
  | FTrustedCerts => STrustedCerts | FTrustedCRLs => STrustedCRLs
  | FIssuerCerts => SIssuerCerts | FIssuerCRLs => SIssuerCRLs | FRejected => SRejected
  | FSkipExpired => SSkipExpired | FSkipChain => SSkipChain | FSkipRevocation => SSkipRevocation
  | FAckReceive | FAckSend => SBufferSize
  | FAckMessage => SMessageSize | FAckChunks => SChunkCount | FMaxRequest => SMessageSize
  | FWorkers => SWorkers | FDiagnostics => SDiagnostics | FTrace => STrace | FAllowNone => SAllowNone
  | FAnonymous => SAnonymous | FUserName => SUserName | FX509 => SX509
  | FRoles => SRoles | FPermissions => SPermissions | FHistorian => SHistorian
  end.

Lemma server_source_does : forall c e, server_does c e = c (server_source e).
Proof. intros c e. destruct e; reflexivity. Qed.

Lemma server_touches_about : forall o e, s_touches o (server_source e) -> In e (server_about o).
Proof.
  intros o e (l & v & E & I). destruct o; cbn in E; injection E as <-; cbn in I;
    repeat (destruct I as [I|I]; [destruct e; cbn in I; try discriminate I; cbn; tauto|]); destruct I.
Qed.

Lemma server_says_last : forall o e v, server_says o e v -> last_of sfield sfield_eq_dec (server_sets o) (server_source e) = Some v.
Proof.
  intros o e v H. destruct o, e; cbn in H; try contradiction; try (destruct b); try contradiction; subst v; reflexivity.
Qed.

Lemma server_effect_ok : forall before o after c e v,
  new (before ++ o :: after) = Set_to c -> server_says o e v -> (forall o', In o' after -> ~ In e (server_about o')) ->
  server_does c e = v.
Proof.
  intros before o after c e v D S A. rewrite server_source_does.
  apply (apply_last _ _ sfield_eq_dec s_sets _ _ _ _ _ _ _ _ D eq_refl (server_says_last _ _ _ S)).
  intros o' I T. exact (A o' I (server_touches_about _ _ T)).
Qed.

Lemma server_default_ok : forall opts c e, new opts = Set_to c -> (forall o, In o opts -> ~ In e (server_about o)) ->
  server_documented_default e (server_does c e).
Proof.
  intros opts c e D A. rewrite server_source_does, (apply_stays _ _ _ _ _ _ _ _ D (fun o I T => A o I (server_touches_about _ _ T))).
  destruct e; reflexivity.
Qed.

Lemma server_succeeds_ok : forall opts, exists c, new opts = Set_to c.
Proof. intros opts. unfold new. apply apply_ok. intros o I. eexists. reflexivity. Qed.

Lemma server_field_source : forall f, exists e, server_source e = f.
Proof.
  intros f. destruct f; first [ exists FMaxSessions; reflexivity | exists FMaxSubscriptions; reflexivity | exists FCapabilities; reflexivity
  | exists FBuildInfo; reflexivity | exists FTrustedCerts; reflexivity | exists FTrustedCRLs; reflexivity | exists FIssuerCerts; reflexivity
  | exists FIssuerCRLs; reflexivity | exists FRejected; reflexivity | exists FSkipExpired; reflexivity | exists FSkipChain; reflexivity
  | exists FSkipRevocation; reflexivity | exists FAckReceive; reflexivity | exists FAckMessage; reflexivity | exists FAckChunks; reflexivity
  | exists FWorkers; reflexivity | exists FDiagnostics; reflexivity | exists FTrace; reflexivity | exists FAllowNone; reflexivity
  | exists FAnonymous; reflexivity | exists FUserName; reflexivity | exists FX509; reflexivity | exists FRoles; reflexivity
  | exists FPermissions; reflexivity | exists FHistorian; reflexivity ].
Qed.

Lemma server_different_apart : forall a b, server_different a b -> apart sfield server_option s_sets a b.
Proof.
  intros a b H f Ta Tb. destruct (server_field_source f) as (e & <-).
  exact (H e (server_touches_about _ _ Ta) (server_touches_about _ _ Tb)).
Qed.

Lemma server_order_ok : forall l1 l2 c, Permutation l1 l2 -> ForallOrdPairs server_different l1 -> new l1 = Set_to c ->
  exists d, new l2 = Set_to d /\ (forall e, server_does c e = server_does d e).
Proof.
  intros l1 l2 c P F D.
  destruct (apply_permuted _ _ sfield_eq_dec s_sets _ _ P (ordpairs_impl _ _ _ _ server_different_apart F)
              server_default server_default (fun _ => eq_refl) c D) as (d & E & K).
  exists d. split; [exact E|]. intros e. rewrite !server_source_does. apply K.
Qed.
