(** Examples: a server, its diagnostics, its life and its methods. *)
From Coq Require Import ZArith List Bool String Lia.
From Verif Require Import Bytes CodecSpec Prim PrimSpec Value ValueSpec Text Messages OwnData OwnTable OwnSpace OwnSpec OwnProofs OwnWireProofs OwnDiagProofs LifeProofs.
From Verif Require Import OwnMethod OwnMethodSpec OwnMethodProofs.
Import ListNotations.
Open Scope string_scope.
Open Scope Z_scope.

(** * A server with capabilities, two namespaces and a subscription *)
Definition e_time : time := mkTime 1700000000 5.
Definition e_limits : limits := fun _ => 100.
Definition e_caps : capabilities := mkCaps (Some [lit "en-US"]) 4096 100 4096 10 0 0 0 (Some [lit "profile"]) (Some e_limits).
Definition e_build : build := mkBuild (lit "urn:p") (lit "maker") (lit "product") (lit "1.0") (lit "7") e_time.
Definition e_sub : subscription := mkSub (NNum 1 5) 3 4652007308841189376 true (fun _ => 9) 2.
Definition e_world : world :=
  mkWorld (Some e_caps) e_build e_time true false [lit "urn:server"] e_time 0 0 (mkLT [] []) [lit "http://opcfoundation.org/UA/"; lit "urn:app"] (fun _ => 1) [e_sub].
Ltac small := unfold ok_time, wf_time, time_in_int64_ticks, ok_strings, ok_strings_of, len_ok, in_u, in_s, wf_ltext; cbn;
  repeat match goal with |- _ /\ _ => split | |- Forall _ _ => constructor end; cbn; try lia.
Example c100_ex : ok_world e_world /\ (exists s, new_server e_world = Some s) /\ plain_range whole /\
  In (["Server"; "NamespaceArray"], Strs [lit "http://opcfoundation.org/UA/"; lit "urn:app"]) (facts e_world e_caps e_limits).
Proof.
  split; [|split; [|split]].
  - unfold ok_world. split; [intros c H; injection H as <-|].
    + unfold ok_caps. repeat match goal with |- _ /\ _ => split end; small.
      all: try (intros l H x; injection H as <-; unfold e_limits; small). all: try (split; lia). all: small.
    + unfold ok_build, ok_moment, ok_sub. repeat match goal with |- _ /\ _ => split | |- forall _, _ => intro end; small; unfold ok_sub; small; intros; small.
  - apply new_ok. exists e_caps, e_limits. split; reflexivity.
  - intros g. reflexivity.
  - right. left. reflexivity.
Qed.
(** A server without limits *)
Example c100_nil_ex : new_server (mkWorld (Some (mkCaps None 0 0 0 0 0 0 0 None None)) e_build e_time false false [] e_time 0 0 (mkLT [] []) [] (fun _ => 0) []) = None.
Proof. vm_compute. reflexivity. Qed.

(** * A session, and one that may read about it *)
Definition e_session : session :=
  mkSession (NNum 1 5) (lit "s") [] (lit "urn:server") (lit "opc.tcp://a") (Some [lit "en-US"]) 0 e_time e_time [e_sub] 3
            (fun f => if String.eqb f "readCount" then 7 else 0) (lit "ann") (Some [lit "ann"]) (lit "UserName") 1 (lit "#None") (lit "cert") 1.
Definition e_admin : session :=
  mkSession (NNum 1 6) (lit "r") [] [] [] None 0 e_time e_time [] 0 (fun _ => 0) (lit "bob") None [] 3 (lit "#Basic256Sha256") (lit "other") 2.
Definition e_roles (i : Z) : option bool := if i =? 2 then Some true else Some false.
Example c102_ex : e_roles (se_identity e_admin) = Some true /\ se_securityMode e_admin = 3 /\ e_roles (se_identity e_session) <> Some true /\
  In ("ReadCount", Structure "ServiceCounterDataType" [VB BUInt32 7; VB BUInt32 0]) (session_facts e_session) /\
  In ("ClientUserIdOfSession", Str (lit "ann")) (security_facts e_session) /\ In ("NextSequenceNumber", UInt32 9) (subscription_facts e_sub).
Proof.
  split; [reflexivity|]. split; [reflexivity|]. split; [discriminate|]. split; [|split].
  - unfold session_facts. apply in_or_app. right. left. reflexivity.
  - right. left. reflexivity.
  - unfold subscription_facts. cbv zeta. do 23 right. left. reflexivity.
Qed.
(** The described session has the mode None (1) and the certificate "cert"; what is read is the reader's *)
Definition says {A} (l : list (diagnostic A)) (n : string) (s : A) (r : session) (v : val) : Prop :=
  exists d, component l n = Some d /\ read_diagnostic e_roles d s r = (GoVal v, 0).
Lemma of_reader_ex : se_securityMode e_session = 1 /\ says security_details "SecurityMode" e_session e_admin (VScalar (KB BInt32) (VB BInt32 3)) /\
  says security_details "ClientCertificate" e_session e_admin (VScalar (KB BByteString) (VB BByteString (lit "other"))).
Proof. split; [reflexivity|]. split; eexists; (split; [vm_compute; reflexivity|vm_compute; reflexivity]). Qed.

(** * A life *)
Example c103_ex : let f := live_all (Listen true true :: Close :: five) in
  closes (Listen true true :: Close :: five) = 1%nat /\ f_closed f = true /\ f_open f = false /\ f_panics f = 0 /\ f_state f = 4 /\
  f_open (live_all [Listen true true]) = true /\ f_closers (live_all [Listen true true; Close]) = [4].
Proof. vm_compute. tauto. Qed.

(** * Two sessions with a subscription each *)
Definition e_subs : list msub := [mkMsub 1 (Some 10) [(1, 100); (2, 200)] false; mkMsub 2 (Some 20) [(3, 300)] false].
Example c104_ex : distinct e_subs /\ names_own e_subs (Some 10) [VScalar (KB BUInt32) (VB BUInt32 1)] (mkMsub 1 (Some 10) [(1, 100); (2, 200)] false) /\
  snd (call GetMonitoredItems e_subs (Some 10) [VScalar (KB BUInt32) (VB BUInt32 1)]) =
    mkResult 0 [] [VArr (KB BUInt32) [VB BUInt32 1; VB BUInt32 2]; VArr (KB BUInt32) [VB BUInt32 100; VB BUInt32 200]] /\
  snd (call GetMonitoredItems e_subs (Some 20) [VScalar (KB BUInt32) (VB BUInt32 1)]) = mkResult 0x801F0000 [] [] /\
  fst (call ResendData e_subs (Some 20) [VScalar (KB BUInt32) (VB BUInt32 2)]) = [mkMsub 1 (Some 10) [(1, 100); (2, 200)] false; mkMsub 2 (Some 20) [(3, 300)] true].
Proof.
  split; [|split; [|vm_compute; tauto]].
  - unfold distinct. cbn. repeat constructor; cbn; intuition discriminate.
  - split; [reflexivity|]. split; [left; reflexivity|]. exists 10. split; reflexivity.
Qed.
(** Writes after a moment *)
Example ex_writes : Forall is_write [Written 2258 g_nil; Written 5 g_nil] /\ In 12750 removed_ids.
Proof. split; [repeat constructor|]. cbn. auto 10. Qed.
