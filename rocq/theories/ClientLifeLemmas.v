(** Statements about clients' connections: examples that meet their hypotheses. *)
From Coq Require Import List Bool Arith.
From Verif Require Import ClientLife ClientLifeSpec ClientLifeProofs.
Import ListNotations.

Definition good_discovery : dfate := mkDf FOpened true PResponse.
Definition good_dial : lfate := mkLf good_discovery true FOpened true.
(** Two clients, a dial that fails, one client closed, one closed in vain and then aborted, a third *)
Definition a_day : list op :=
  [Dial good_dial; Discover good_discovery; Dial good_dial; Dial (mkLf good_discovery true FRequest true); CloseClient 1 true PResponse;
   CloseClient 4 false PResponse; AbortClient 4; Dial good_dial; WorkerEnds 0; WorkerEnds 1; WorkerEnds 2; WorkerEnds 3; WorkerEnds 4; WorkerEnds 5; WorkerEnds 6; WorkerEnds 7].
Example ex_day : Forall proper a_day /\ in_use (snd (run a_day empty)) = [8] /\ settled (fst (run a_day empty)) /\ reads (fst (run a_day empty)) 8.
Proof.
  split; [unfold a_day; repeat apply Forall_cons; try apply Forall_nil; (split; [intros K; cbn in K; try contradiction; destruct K as [A B]; cbn in A, B; congruence|intros K; cbn in K; try contradiction; congruence])|].
  split; [vm_compute; reflexivity|]. split.
  - intros i ch b N C. assert (E : forallb (fun x => negb (is_open (c_conn (fst x))) && match c_worker (fst x) with Reading => false | _ => true end || is_open (c_conn (fst x))) (w_chans (fst (run a_day empty))) = true) by (vm_compute; reflexivity).
    rewrite forallb_forall in E. specialize (E _ (nth_error_In _ _ N)). cbn [fst] in E. intros R. rewrite R in E. destruct (c_conn ch); try discriminate. congruence.
  - exists (mkChan Open Reading false), true. split; vm_compute; reflexivity.
Qed.
Example ex_failed : snd (step (Dial (mkLf good_discovery true FVersion true)) empty) = RErr /\ ~ half_open (df_open good_discovery).
Proof. split; [reflexivity|]. intros [A B]. apply B. reflexivity. Qed.
Example ex_half : half_open FHello /\ half_open FRequest /\ half_open FHangUp /\ half_open FVersion.
Proof. repeat split; discriminate. Qed.
Example ex_used : In 1 (in_use (snd (run [Dial good_dial] empty))).
Proof. left. reflexivity. Qed.
