(** Statements about discovery: examples that meet their hypotheses. *)
From Coq Require Import ZArith List Bool String Permutation.
From Verif Require Import Bytes Text Endpoints Discovery DiscoverySpec DiscoveryProofs.
Import ListNotations.
Open Scope Z_scope.

Definition a_server : scfg := mkScfg true true true false (lit "opc.tcp://plant:46010"%string).
Definition an_alias : bytes := lit "opc.tcp://10.0.0.7:46010"%string.
(** Eleven endpoints; asked for two profiles, one of which the server has, it tells all of them *)
Example ex_answer : List.length (get_endpoints (build a_server) an_alias [lit "x"%string; tcp_profile]) = 11%nat /\
  get_endpoints (build a_server) an_alias [lit "x"%string] = [].
Proof. split; vm_compute; reflexivity. Qed.
Example ex_some : exists e, In e (build a_server) /\ asked [tcp_profile] e /\ ~ asked [lit "x"%string] e.
Proof.
  eexists. split; [rewrite build_rows; left; reflexivity|]. split; [right; left; reflexivity|]. intros [H|[H|[]]]; discriminate.
Qed.
Example ex_find : find_servers (lit "urn:a"%string) [lit "urn:b"%string; lit "urn:a"%string] = [lit "urn:a"%string] /\ find_servers (lit "urn:a"%string) [lit "urn:b"%string] = [].
Proof. split; vm_compute; reflexivity. Qed.
(** The answer, sorted *)
Example ex_sorted : let s := rev (map (with_url an_alias) (build a_server)) in
  sc_url a_server <> [] /\ Permutation (get_endpoints (build a_server) an_alias [tcp_profile]) s /\ by_level s /\
  option_map d_policy (dial_choice [] 0 true s) = Some (uri "Aes256_Sha256_RsaPss"%string) /\
  option_map d_mode (dial_choice [] 0 false s) = Some 1 /\ option_map d_mode (dial_choice (uri "Basic256"%string) 2 true s) = Some 2.
Proof.
  cbv zeta. split; [discriminate|]. split; [rewrite (get_all _ _ (build_tcp _)); apply Permutation_rev|]. split.
  - assert (G : forall l, strict l -> by_level l).
    { induction l as [|e l IH]; intros H; [exact Logic.I|]. destruct H as [H1 H2]. split; [|auto]. intros x I. apply Z.lt_le_incl, H1, I. }
    apply G, build_strict.
  - split; [|split]; vm_compute; reflexivity.
Qed.
Example ex_choice_none : choice false [] 0 false = None /\ choice true (lit "http://x"%string) 0 true = None /\ choice false (uri "Basic256Sha256"%string) 0 true = Some (uri "Basic256Sha256"%string, 3).
Proof. repeat split; vm_compute; reflexivity. Qed.
Example ex_ids : map (fun e => map tp_id (d_tokens e)) (firstn 2 (build a_server)) =
  [[lit "Anonymous_0"%string; lit "UserName_0"%string]; [lit "Anonymous_1"%string; lit "UserName_1"%string]].
Proof. vm_compute. reflexivity. Qed.
Example ex_foreign : an_alias <> sc_url a_server.
Proof. vm_compute. discriminate. Qed.
