(** Proofs about the diagnostics objects and the life of the server. *)
From Coq Require Import ZArith List Bool String Lia.
From Verif Require Import Bytes CodecSpec Prim PrimSpec Value ValueSpec Text StructTable Messages OwnData OwnTable OwnSpace OwnSpec OwnProofs.
Import ListNotations.
Open Scope string_scope.
Open Scope Z_scope.

Ltac shown_here := first [reflexivity | match goal with o : option (list bytes) |- _ => destruct o; reflexivity end
  | (eexists; split; [|reflexivity]; split; [vm_compute; discriminate|eexists; eexists; vm_compute; reflexivity])].
Lemma session_tells roles s : Forall (tells session_details s roles) (session_facts s).
Proof.
  destruct s as [s1 s2 s3 s4 s5 s6 s7 s8 s9 s10 s11 s12 s13 s14 s15 s16 s17 s18 s19].
  unfold session_facts. cbn [map app counted_names].
  repeat (apply Forall_cons; [intros r; eexists; eexists; split; [vm_compute; reflexivity|split; [vm_compute; reflexivity|]]; cbn [snd]; shown_here|]).
  apply Forall_nil.
Qed.
Lemma guarded {A} (d : diagnostic A) s roles r : v_guarded d = true ->
  (roles (se_identity r) = Some true -> se_securityMode r = 3 -> read_diagnostic roles d s r = (v_value d s r, 0)) /\
  (roles (se_identity r) <> Some true -> read_diagnostic roles d s r = (g_nil, 0x801F0000)) /\
  (roles (se_identity r) = Some true -> se_securityMode r <> 3 -> read_diagnostic roles d s r = (g_nil, 0x80E60000)).
Proof.
  intros G. unfold read_diagnostic, admitted. rewrite G. destruct (roles (se_identity r)) as [[]|].
  - split; [intros _ ->; reflexivity|]. split; [congruence|]. intros _ M. apply Z.eqb_neq in M. unfold SignAndEncrypt. now rewrite M.
  - split; [discriminate|]. split; [reflexivity|discriminate].
  - split; [discriminate|]. split; [reflexivity|discriminate].
Qed.
Lemma security_tells s : Forall (tells_admitted security_details s) (security_facts s).
Proof.
  destruct s as [s1 s2 s3 s4 s5 s6 s7 s8 s9 s10 s11 s12 s13 s14 s15 s16 s17 s18 s19].
  unfold security_facts.
  repeat (apply Forall_cons; [eexists; split; [vm_compute; reflexivity|]; intros roles r;
    match goal with |- context [read_diagnostic roles ?d ?s r] => destruct (guarded d s roles r eq_refl) as (A & B & C) end;
    split; [intros X Y; eexists; split; [rewrite (A X Y); reflexivity|]; cbn [snd]; shown_here|split; [exact B|exact C]]|]).
  apply Forall_nil.
Qed.
(** Every variable of the security diagnostics, and the structure, is for the admitted only *)
Lemma security_guarded d : In d security_details \/ component session_object "SessionSecurityDiagnostics" = Some d -> v_guarded d = true.
Proof.
  intros [I|C].
  - assert (F : forallb v_guarded security_details = true) by (vm_compute; reflexivity). rewrite forallb_forall in F. auto.
  - vm_compute in C. injection C as <-. reflexivity.
Qed.
Lemma subscription_tells roles s : Forall (tells subscription_details s roles) (subscription_facts s).
Proof.
  destruct s as [s1 s2 s3 s4 s5 s6]. unfold subscription_facts.
  repeat (apply Forall_cons; [intros r; eexists; eexists; split; [vm_compute; reflexivity|split; [vm_compute; reflexivity|]]; cbn [snd]; shown_here|]).
  apply Forall_nil.
Qed.

(** * Structures *)
Ltac agree_fields := repeat (apply Forall2_cons; [eexists; split; [vm_compute; reflexivity|first [reflexivity|
   match goal with o : option (list bytes) |- _ => destruct o; reflexivity end]]|]); apply Forall2_nil.
Lemma session_agrees s r : exists d fields, component session_object "SessionDiagnostics" = Some d /\ v_guarded d = false /\
  (exists v, v_value d s r = GoVal v /\ shows v (Structure "SessionDiagnosticsDataType" fields)) /\ agree session_details (names_of type_session) s r fields.
Proof.
  destruct s as [s1 s2 s3 s4 s5 s6 s7 s8 s9 s10 s11 s12 s13 s14 s15 s16 s17 s18 s19].
  eexists. eexists. split; [vm_compute; reflexivity|]. split; [reflexivity|]. split.
  - eexists. split; [vm_compute; reflexivity|]. shown_here.
  - unfold agree. match goal with |- Forall2 _ ?l _ => let l' := eval vm_compute in l in change l with l' end. agree_fields.
Qed.
Lemma security_agrees s r : exists d fields, component session_object "SessionSecurityDiagnostics" = Some d /\
  (exists v, v_value d s r = GoVal v /\ shows v (Structure "SessionSecurityDiagnosticsDataType" fields)) /\ agree security_details (map v_name security_details) s r fields.
Proof.
  destruct s as [s1 s2 s3 s4 s5 s6 s7 s8 s9 s10 s11 s12 s13 s14 s15 s16 s17 s18 s19].
  eexists. eexists. split; [vm_compute; reflexivity|]. split.
  - eexists. split; [vm_compute; reflexivity|]. shown_here.
  - unfold agree. match goal with |- Forall2 _ ?l _ => let l' := eval vm_compute in l in change l with l' end. agree_fields.
Qed.
Lemma subscription_agrees s r : exists d, nth_error subscription_variable 0 = Some d /\
  (exists v, v_value d s r = GoVal v /\ shows v (Structure "SubscriptionDiagnosticsDataType" (subscription_shown s))) /\
  agree subscription_details (map v_name subscription_details) s r (subscription_shown s).
Proof.
  destruct s as [s1 s2 s3 s4 s5 s6].
  eexists. split; [vm_compute; reflexivity|]. split.
  - eexists. split; [vm_compute; reflexivity|]. shown_here.
  - unfold agree. match goal with |- Forall2 _ ?l _ => let l' := eval vm_compute in l in change l with l' end. agree_fields.
Qed.

(** * Types *)
Ltac type_field := eexists; split; [vm_compute; reflexivity|]; split; [reflexivity|]; intros [] r; eexists; split; [vm_compute; reflexivity|]; cbn [fst snd];
  first [fit | match goal with o : option (list bytes) |- _ => destruct o as [l0|]; cbv beta iota; fit end].
Lemma session_typed : Forall (has_type session_details) type_session.
Proof.
  unfold type_session.
  repeat (apply Forall_cons; [type_field|]). apply Forall_nil.
Qed.
Lemma security_typed : Forall (fun p => fst (fst p) = "SecurityPolicyUri" \/ has_type security_details p) type_security.
Proof.
  unfold type_security.
  repeat (apply Forall_cons; [first [left; reflexivity|right; type_field]|]). apply Forall_nil.
Qed.
Lemma subscription_typed : Forall (fun p => fst (fst p) = "EventQueueOverflowCount" \/ has_type subscription_details p) type_subscription.
Proof.
  unfold type_subscription.
  repeat (apply Forall_cons; [first [left; reflexivity|right; type_field]|]). apply Forall_nil.
Qed.

(** * What is wrong *)
Lemma mode_of_reader roles s r d : component security_details "SecurityMode" = Some d -> roles (se_identity r) = Some true -> se_securityMode r = 3 ->
  read_diagnostic roles d s r = (GoVal (VScalar (KB BInt32) (VB BInt32 3)), 0).
Proof.
  intros C. vm_compute in C. injection C as <-. intros A M.
  match goal with |- read_diagnostic roles ?d s r = _ => destruct (guarded d s roles r eq_refl) as (X & _ & _) end.
  rewrite (X A M). transitivity (g_int32 (se_securityMode r), 0); [reflexivity|]. rewrite M. reflexivity.
Qed.
Lemma certificate_of_reader roles s r d : component security_details "ClientCertificate" = Some d -> roles (se_identity r) = Some true -> se_securityMode r = 3 ->
  read_diagnostic roles d s r = (GoVal (VScalar (KB BByteString) (VB BByteString (se_clientCertificate r))), 0).
Proof.
  intros C. vm_compute in C. injection C as <-. intros A M.
  match goal with |- read_diagnostic roles ?d s r = _ => destruct (guarded d s roles r eq_refl) as (X & _ & _) end.
  rewrite (X A M). reflexivity.
Qed.
Lemma certificate_lost id name timeout description uri endpoint certificate max now identity :
  se_clientCertificate (new_session id name timeout description uri endpoint certificate max now identity) = [].
Proof. reflexivity. Qed.
Lemma names_wrong : component security_details "SecurityPolicyUri" = None /\ component subscription_details "EventQueueOverflowCount" = None /\
  In "SecurityPolicyUri" (names_of type_security) /\ In "EventQueueOverflowCount" (names_of type_subscription).
Proof. vm_compute. tauto. Qed.
Definition type_differs (n : string) : bool :=
  match component session_details n with
  | Some d => (v_type d =? 24) && existsb (fun p => String.eqb n (fst (fst p)) && (built_in 8 (snd (fst p)) =? 22)) type_session
  | None => false
  end.
Lemma types_wrong n : In n structured -> exists d t k, component session_details n = Some d /\ v_type d = 24 /\ In (n, t, k) type_session /\ built_in 8 t = 22.
Proof.
  intros I. assert (F : forallb type_differs structured = true) by (vm_compute; reflexivity).
  rewrite forallb_forall in F. specialize (F n I). unfold type_differs in F.
  destruct (component session_details n) as [d|]; [|discriminate]. apply andb_true_iff in F as [F1 F2].
  apply existsb_exists in F2 as (((m & t) & k) & J & E). cbn [fst snd] in E. apply andb_true_iff in E as [E1 E2].
  apply String.eqb_eq in E1. apply Z.eqb_eq in F1, E2. subst m. exists d, t, k. auto.
Qed.
Lemma array_empty s r : exists d, component session_object "SubscriptionDiagnosticsArray" = Some d /\ v_value d s r = GoVal (VArr KExt []).
Proof. eexists. split; vm_compute; reflexivity. Qed.
Lemma zero_always n s r : In n uncounted -> exists d, component subscription_details n = Some d /\ v_value d s r = GoVal (VScalar (KB BUInt32) (VB BUInt32 0)).
Proof.
  cbn [uncounted In]. intros I. repeat (destruct I as [<-|I]; [eexists; split; vm_compute; reflexivity|]). destruct I.
Qed.
Lemma session_facts_told roles s q : In q (session_facts s) -> tells session_details s roles q.
Proof. intros H. exact (proj1 (Forall_forall _ _) (session_tells roles s) q H). Qed.
Lemma security_facts_told s q : In q (security_facts s) -> tells_admitted security_details s q.
Proof. intros H. exact (proj1 (Forall_forall _ _) (security_tells s) q H). Qed.
Lemma subscription_facts_told roles s q : In q (subscription_facts s) -> tells subscription_details s roles q.
Proof. intros H. exact (proj1 (Forall_forall _ _) (subscription_tells roles s) q H). Qed.
Lemma of_reader roles s r d e : component security_details "SecurityMode" = Some d -> component security_details "ClientCertificate" = Some e ->
  roles (se_identity r) = Some true -> se_securityMode r = 3 ->
  read_diagnostic roles d s r = (GoVal (VScalar (KB BInt32) (VB BInt32 3)), 0) /\
  read_diagnostic roles e s r = (GoVal (VScalar (KB BByteString) (VB BByteString (se_clientCertificate r))), 0).
Proof. intros D E R M. split; [exact (mode_of_reader roles s r d D R M)|exact (certificate_of_reader roles s r e E R M)]. Qed.
