(** Examples and counterexamples for C69, C70, C82. *)
From Coq Require Import ZArith List Bool Lia ZifyBool Permutation String Strings.Byte.
From Verif Require Import Bytes BytesProofs Text TextProofs Certificates Endpoints TrustSpec TrustProofs.
Import ListNotations.
Open Scope Z_scope.
Ltac Zify.zify_post_hook ::= idtac.

(** A root authority and two certificates it issued *)
Definition ca : cert := mkCert [x30; x01] true true [] 96 1 0 true.
Definition alice : cert := mkCert [x30; x02] false false [1; 2] 1 7 10 true.
Definition curve : cert := mkCert [x30; x03] false false [1; 2] 1 8 10 false.
Definition by_ca (c : cert) : bool := bytes_eqb (c_raw c) (c_raw ca).
Definition list_a : crl := mkCrl 100 by_ca [5].
Definition list_b : crl := mkCrl 100 by_ca [7].
(** A verification which finds the authority among the roots, and accepts roots *)
Definition simple_verify (o : options) (c : cert) : verified :=
  if existsb by_ca (o_roots o) then Chains [[c; ca]]
  else if existsb (fun r => bytes_eqb (c_raw r) (c_raw c)) (o_roots o) then Chains [[c]]
  else BadAuthority.
Lemma simple_contract : verify_contract simple_verify.
Proof.
  intros o c l. unfold simple_verify. destruct (existsb by_ca _).
  - intros [= <-]. split; [discriminate|]. intros ch [<-|[]]. now exists [ca].
  - destruct (existsb _ _); [|discriminate]. intros [= <-]. split; [discriminate|]. intros ch [<-|[]]. now exists [].
Qed.
Definition strict : leniency := mkLen false false false false.
Definition shop : store := mkStore [Some [ca]] [Some [list_a]] [] [].
Example accepted_some : validate simple_verify 50 [alice] [2] [] shop strict = Accepted.
Proof. reflexivity. Qed.
Example refused_revoked : validate simple_verify 50 [alice] [2] [] (mkStore [Some [ca]] [Some [list_b]] [] []) strict = Refused 0x80130000.
Proof. reflexivity. Qed.
Example refused_unknown : validate simple_verify 100 [alice] [2] [] shop strict = Refused 0x801B0000.
Proof. reflexivity. Qed.
Example refused_untrusted : validate simple_verify 50 [alice; ca] [2] [] (mkStore [] [Some [list_a]] [] []) strict = Refused 0x80130000.
Proof. reflexivity. Qed.
Example refused_use : validate simple_verify 50 [alice] [3] [] shop strict = Refused 0x80180000.
Proof. reflexivity. Qed.
Example server_passes : server_gate simple_verify 50 shop strict 3 (Some (Some [alice])) = Passed.
Proof. reflexivity. Qed.
Example client_passes : client_gate simple_verify 50 shop strict 2 [x61] true (Some (Some [alice])) = Passed.
Proof. reflexivity. Qed.

Lemma validate_empty verify now uses host st n : validate verify now [] uses host st n = Refused 0x80120000.
Proof. reflexivity. Qed.
Lemma accepted_trusted verify now certs uses host st n :
  verify_contract verify -> uses <> [] -> n_chain n = false -> validate verify now certs uses host st n = Accepted ->
  exists o chains chain c, verify o (hd c certs) = Chains chains /\ In chain chains /\ In c chain /\
    exists t, contents (s_trusted st) t /\ c_raw t = c_raw c.
Proof.
  intros V NU NC H. apply validate_sound in H; [|assumption|assumption].
  destruct H as (c & others & o & chains & chain & -> & _ & Ev & I & OK). destruct OK as (_ & (x & t & Ix & Tt & E) & _).
  exists o, chains, chain, x. split; [exact Ev|]. split; [assumption|]. split; [assumption|]. exists t. split; [|assumption].
  destruct Tt as [Tt|[Hn _]]; [assumption|congruence].
Qed.

(** The second of two lists in force is not looked at. *)
Lemma later_list_ignored :
  exists verify now c issuer st l o,
    verify_contract verify /\ asked c [] [2] [] st strict o /\ verify o c = Chains [[c; issuer]] /\
    In l (revocation_lists st) /\ current now issuer l /\ In (c_serial c) (l_revoked l) /\
    validate verify now [c] [2] [] st strict = Accepted.
Proof.
  exists simple_verify, 50, alice, ca, (mkStore [Some [ca]] [Some [list_a]; Some [list_b]] [] []), list_b,
    (options_for alice [] [2] [] (mkStore [Some [ca]] [Some [list_a]; Some [list_b]] [] []) strict).
  split; [apply simple_contract|]. split; [apply options_asked|]. split; [reflexivity|].
  split; [cbn; auto|]. split; [split; reflexivity|]. split; [now left|reflexivity].
Qed.
(** One file that cannot be read hides the others. *)
Lemma unreadable_hides :
  exists verify now c issuer st l o,
    let n := mkLen false false false true in
    verify_contract verify /\ asked c [] [2] [] st n o /\ verify o c = Chains [[c; issuer]] /\
    In (Some [l]) (s_trusted_crls st) /\ current now issuer l /\ In (c_serial c) (l_revoked l) /\
    (forall l', In (Some l') (s_trusted_crls st ++ s_issuer_crls st) -> l' = [l]) /\
    validate verify now [c] [2] [] st n = Accepted.
Proof.
  exists simple_verify, 50, alice, ca, (mkStore [Some [ca]] [Some [list_b]; None] [] []), list_b,
    (options_for alice [] [2] [] (mkStore [Some [ca]] [Some [list_b]; None] [] []) (mkLen false false false true)).
  cbn zeta. split; [apply simple_contract|]. split; [apply options_asked|]. split; [reflexivity|]. split; [now left|].
  split; [split; reflexivity|]. split; [now left|]. split; [|reflexivity].
  intros l' [H|[H|[]]]; [now injection H as <-|discriminate].
Qed.
(** A trusted certificate whose key is not RSA stops the program. *)
Lemma other_key_panics :
  exists verify st, verify_contract verify /\ validate verify 50 [curve] [2] [] st strict = Accepted /\
    server_gate verify 50 st strict 3 (Some (Some [curve])) = Panics.
Proof. exists simple_verify, shop. split; [apply simple_contract|]. split; reflexivity. Qed.
(** The client need not even look at the trust list. *)
Lemma client_other_key verify now st n mode host key c others :
  c_rsa c = false -> client_gate verify now st n mode host key (Some (Some (c :: others))) = Panics.
Proof. intros H. cbn. now rewrite H. Qed.

(** * Endpoints *)
Definition ep (p : string) (mode level : Z) : endpoint := mkEnd [x75] tcp_profile (policy_uri p) mode level [0; 1].
Definition offer : list endpoint := [ep "None" 1 0; ep "Basic256Sha256" 3 20; ep "Basic256Sha256" 2 10].
Definition offer_sorted : list endpoint := [ep "Basic256Sha256" 3 20; ep "Basic256Sha256" 2 10; ep "None" 1 0].
Example offer_order : Permutation offer offer_sorted /\ descending offer_sorted.
Proof.
  split.
  - unfold offer, offer_sorted. apply Permutation_sym. etransitivity; [apply perm_skip, perm_swap|apply perm_swap].
  - cbn. repeat split; intros e'; repeat (intros [<-|H]; [cbn; lia|revert H]); intros [].
Qed.
Example selects_best : select_endpoint [] 0 true offer_sorted = Some (ep "Basic256Sha256" 3 20).
Proof. vm_compute. reflexivity. Qed.
Example selects_without : select_endpoint [] 0 false offer_sorted = Some (ep "None" 1 0).
Proof. vm_compute. reflexivity. Qed.
Example selects_nothing : select_endpoint (policy_uri "Basic256") 0 true offer_sorted = None.
Proof. vm_compute. reflexivity. Qed.

(** The mode asked for is dropped when there is no certificate. *)
Lemma mode_dropped sorted e :
  select_endpoint [] 3 false sorted = Some e -> e_mode e = 1 /\ e_policy e = policy_uri "None".
Proof.
  intros F. unfold select_endpoint in F. apply find_some in F. destruct F as [_ S]. apply selects_spec in S.
  destruct S as (_ & [H|H] & [H'|H']); try discriminate. split; [exact H'|exact H].
Qed.
Lemma mode_refuted : exists sorted e, descending sorted /\ select_endpoint [] 3 false sorted = Some e /\ e_mode e <> 3.
Proof. exists offer_sorted, (ep "None" 1 0). split; [apply offer_order|]. split; [vm_compute; reflexivity|discriminate]. Qed.
Lemma certificate_refuted : exists policy sorted e, descending sorted /\ select_endpoint policy 0 false sorted = Some e /\ e_policy e <> policy_uri "None".
Proof.
  exists (policy_uri "Basic256Sha256"), offer_sorted, (ep "Basic256Sha256" 3 20). split; [apply offer_order|].
  split; [vm_compute; reflexivity|vm_compute; congruence].
Qed.
(** The level is what the server says: a server can have the client give up security. *)
Lemma level_believed : exists sorted e e', descending sorted /\ In e' sorted /\ e_mode e' = 3 /\ suits [] 0 e' /\
  select_endpoint [] 0 true sorted = Some e /\ e_mode e = 1.
Proof.
  exists [ep "None" 1 200; ep "Basic256Sha256" 3 20], (ep "None" 1 200), (ep "Basic256Sha256" 3 20).
  split; [cbn; repeat split; intros e' H; repeat (destruct H as [<-|H]; [cbn; lia|]); destruct H|].
  split; [cbn; auto|]. split; [reflexivity|]. split; [|split; [vm_compute; reflexivity|reflexivity]].
  split; [|split; left; reflexivity]. unfold supported. cbn. auto 10.
Qed.

(** * The server *)
Example activates_some : may_activate (local_endpoint offer [x75] (policy_uri "Basic256Sha256") 3) 1 = true.
Proof. vm_compute. reflexivity. Qed.
Lemma session_security verify now st n eps discovery policy mode sent token :
  verify_contract verify ->
  server_gate verify now st n mode sent = Passed ->
  may_activate (local_endpoint eps discovery policy mode) token = true ->
  exists e, In e eps /\ e_policy e = policy /\ e_mode e = mode /\ In token (e_tokens e) /\
    (mode = 2 \/ mode = 3 ->
       exists c others o chains chain, sent = Some (Some (c :: others)) /\
         asked c others [2] [] st n o /\ verify o c = Chains chains /\ In chain chains /\
         chain_ok now (trusts st n c) [2] (revocation_lists st) (n_revocation n) chain).
Proof.
  intros V G A. apply local_offered in A. destruct A as (e & _ & I & P & M & T). exists e.
  split; [assumption|]. split; [assumption|]. split; [assumption|]. split; [assumption|]. intros H. now apply server_gate_open in G.
Qed.
Example session_security_some :
  server_gate simple_verify 50 shop strict 3 (Some (Some [alice])) = Passed /\
  may_activate (local_endpoint offer [x75] (policy_uri "Basic256Sha256") 3) 1 = true.
Proof. split; [reflexivity|vm_compute; reflexivity]. Qed.
(** Which combinations of policy and mode get no session: those no endpoint has. *)
Lemma not_offered eps discovery policy mode token :
  (forall e, In e eps -> e_policy e = policy -> e_mode e <> mode) -> may_activate (local_endpoint eps discovery policy mode) token = false.
Proof.
  intros H. destruct (may_activate (local_endpoint eps discovery policy mode) token) eqn:E; [|reflexivity].
  apply local_offered in E. destruct E as (e & _ & I & P & M & _). now destruct (H e I P M).
Qed.
