(** Keep-alive and lifetime counters. *)
From Coq Require Import ZArith List Bool Lia.
From Coq Require Import ZifyBool ZifyNat.
From Verif Require Import Bytes MonQueue Subscription SubscriptionSpec SubscriptionProofs.
Import ListNotations.
Open Scope Z_scope.

Section P.
  Context {A : Type}.
  Implicit Types s : sub A.
  Implicit Types o : sbop A.
  Implicit Types ops : list (sbop A).
  Implicit Types log : list (sbev A).

  Lemma u32_small k : 0 <= k < 2 ^ 32 -> u32 k = k.
  Proof. intros. unfold u32. now apply Z.mod_small. Qed.
  Lemma ticks_snoc ops o : ticks (ops ++ [o]) = (ticks ops + ticks [o])%nat.
  Proof. unfold ticks. rewrite filter_app, app_length. reflexivity. Qed.

  (** What the other operations leave alone. *)
  Definition plain o : Prop := match o with SAck _ | STrigger _ | SPut _ _ _ _ => True | _ => False end.
  Definition touching o : Prop := match o with SAddItem _ _ | SDelItem _ | SItemMode _ _ | SResize _ _ _ => True | _ => False end.
  Lemma plain_step s o : plain o -> let s' := fst (sb_step s o) in
    sb_keep s' = sb_keep s /\ sb_life s' = sb_life s /\ sb_max_keep s' = sb_max_keep s /\ sb_max_life s' = sb_max_life s /\ sb_alive s' = sb_alive s /\
    is_message (snd (sb_step s o)) = false /\ (forall n, snd (sb_step s o) <> EvStatusChange n).
  Proof.
    destruct o; intros P; try destruct P; cbn [sb_step].
    - destruct (negb (sb_alive s)); [cbn; repeat split; try reflexivity; discriminate|]. destruct (remove_first n (sb_retrans s)) as [[x r]|]; cbn; repeat split; try reflexivity; discriminate.
    - cbn; repeat split; try reflexivity; discriminate.
    - cbn; repeat split; try reflexivity; discriminate.
  Qed.
  Lemma touching_step s o : touching o -> let s' := fst (sb_step s o) in
    sb_keep s' = sb_keep s /\ (sb_alive s = true -> sb_life s' = 0) /\ sb_max_keep s' = sb_max_keep s /\ sb_max_life s' = sb_max_life s /\ sb_alive s' = sb_alive s /\
    is_message (snd (sb_step s o)) = false /\ (forall n, snd (sb_step s o) <> EvStatusChange n).
  Proof.
    destruct o; intros P; try destruct P; cbn [sb_step].
    - destruct (sb_alive s) eqn:E; cbn; repeat split; try reflexivity; try assumption; discriminate.
    - cbn; repeat split; try reflexivity; discriminate.
    - cbn; repeat split; try reflexivity; discriminate.
    - cbn; repeat split; try reflexivity; discriminate.
  Qed.
  Lemma send_data_counts s ord ok late : let x := send_data s ord ok late in
    sb_max_keep (fst x) = sb_max_keep s /\ sb_max_life (fst x) = sb_max_life s /\ sb_alive (fst x) = sb_alive s /\
    (if ok then sb_keep (fst x) = 0 /\ sb_life (fst x) = 0 /\ is_message (snd x) = true else sb_keep (fst x) = sb_keep s /\ sb_life (fst x) = sb_life s) /\
    (forall n, snd x <> EvStatusChange n).
  Proof.
    cbv zeta. unfold send_data. destruct (collect ord _ _) as [[out more] items]. destruct ok; cbn; repeat split; discriminate.
  Qed.

  (** * A client that keeps requests queued *)
  Definition fine s : Prop := sb_alive s = true /\ sb_life s = 0 /\ 0 <= sb_keep s <= 2 ^ 32 - 2 /\ 1 <= sb_max_keep s < 2 ^ 32.
  Lemma fine_step s o : fine s -> served o -> proper o -> fine (fst (sb_step s o)) /\ (forall n, snd (sb_step s o) <> EvStatusChange n).
  Proof.
    intros (F1 & F2 & F3 & F4) SV PR.
    destruct o; try (match goal with |- context [sb_step s ?o] => destruct (plain_step s o I) as (P1 & P2 & P3 & P4 & P5 & P6 & P7) end; split; [unfold fine; rewrite P1, P2, P3, P5; auto|exact P7]; fail);
      try (match goal with |- context [sb_step s ?o] => destruct (touching_step s o I) as (P1 & P2 & P3 & P4 & P5 & P6 & P7) end; split; [unfold fine; rewrite P1, (P2 F1), P3, P5; auto|exact P7]; fail).
    - cbn [served] in SV. subst r. cbn [sb_step]. destruct (existsb item_available (sb_items s) && sb_enabled s).
      + rewrite F1. cbn [negb]. destruct (send_data_counts s ord true false) as (D1 & D2 & D3 & (D4 & D5 & _) & D6). split; [|exact D6]. unfold fine. rewrite D1, D3, D4, D5. lia.
      + cbn [sb_max_keep sb_keep sb_pubs]. destruct ((sb_max_keep s <=? u32 (sb_keep s + 1)) || (sb_pubs s =? 0)) eqn:C.
        * rewrite F1. cbn [negb]. split; [|cbn; discriminate]. unfold fine, send_keepalive. cbn. lia.
        * split; [|cbn; discriminate]. unfold fine. cbn. rewrite u32_small in * by lia. apply orb_false_iff in C. destruct C as [C _]. lia.
    - cbn [sb_step]. destruct (negb (sb_late s)); [split; [unfold fine; cbn; auto|cbn; discriminate]|].
      destruct (existsb item_available (sb_items s) && sb_enabled s).
      + destruct (send_data_counts s ord ok true) as (D1 & D2 & D3 & D4 & D6). split; [|exact D6]. unfold fine. rewrite D1, D3. destruct ok.
        * destruct D4 as (-> & -> & _). lia.
        * destruct D4 as (-> & ->). lia.
      + destruct ((sb_max_keep s <=? sb_keep s) || (sb_pubs s =? 0)); [|split; [unfold fine; cbn; auto|cbn; discriminate]]. rewrite F1. unfold send_keepalive. destruct ok; (split; [unfold fine; cbn; lia|cbn; discriminate]).
    - cbn [sb_step]. rewrite F1. cbn [negb]. destruct (remove_first n (sb_retrans s)) as [[x r]|]; [destruct ok|]; (split; [unfold fine; cbn; auto|cbn; discriminate]).
    - cbn [sb_step]. split; [unfold fine; cbn; auto|cbn; discriminate].
    - cbn [sb_step]. rewrite F1. cbn [negb]. cbn [proper] in PR. split; [unfold fine; cbn; lia|cbn; discriminate].
    - destruct SV.
  Qed.
  Lemma fine_run s ops : fine s -> Forall served ops -> Forall proper ops -> fine (fst (sb_run s ops)) /\ (forall n, ~ In (EvStatusChange n) (snd (sb_run s ops))).
  Proof.
    intros F SV PR. induction ops as [|o ops IH] using rev_ind; [split; [exact F|intros n []]|].
    apply Forall_app in SV, PR. destruct SV as [SV1 SV2], PR as [PR1 PR2]. destruct (IH SV1 PR1) as [I1 I2].
    destruct (fine_step _ o I1 (Forall_inv SV2) (Forall_inv PR2)) as [H1 H2]. rewrite run_fst, run_snd. split; [exact H1|].
    intros n [H|H]; [now apply (H2 n)|now apply (I2 n)].
  Qed.
  Lemma fine_init e n k l : 1 <= k < 2 ^ 32 -> fine (sub_init e n k l).
  Proof. intros H. unfold fine. cbn. lia. Qed.
  Lemma never_expires e n k l ops : 1 <= k < 2 ^ 32 -> Forall served ops -> Forall proper ops ->
    sb_alive (fst (sb_run (sub_init e n k l) ops)) = true /\ forall x, ~ In (EvStatusChange x) (snd (sb_run (sub_init (A := A) e n k l) ops)).
  Proof. intros H SV PR. destruct (fine_run _ ops (fine_init e n k l H) SV PR) as [(F & _) N]. split; assumption. Qed.

  Lemma silent_step s o : fine s -> served o -> proper o -> not_modify o -> is_message (snd (sb_step s o)) = false ->
    sb_keep (fst (sb_step s o)) = sb_keep s + Z.of_nat (ticks [o]) /\ sb_max_keep (fst (sb_step s o)) = sb_max_keep s /\
    (ticks [o] = 0%nat \/ sb_keep (fst (sb_step s o)) < sb_max_keep s).
  Proof.
    intros (F1 & F2 & F3 & F4) SV PR NM.
    destruct o; try (match goal with |- context [sb_step s ?o] => destruct (plain_step s o I) as (P1 & P2 & P3 & P4 & P5 & P6 & P7) end; intros _; rewrite P1, P3; unfold ticks; cbn [filter length]; lia);
      try (match goal with |- context [sb_step s ?o] => destruct (touching_step s o I) as (P1 & P2 & P3 & P4 & P5 & P6 & P7) end; intros _; rewrite P1, P3; unfold ticks; cbn [filter length]; lia).
    - cbn [served] in SV. subst r. unfold ticks. cbn [filter length]. cbn [sb_step]. destruct (existsb item_available (sb_items s) && sb_enabled s).
      + rewrite F1. cbn [negb]. destruct (send_data_counts s ord true false) as (D1 & D2 & D3 & (D4 & D5 & D7) & D6). rewrite D7. discriminate.
      + cbn [sb_max_keep sb_keep sb_pubs]. destruct ((sb_max_keep s <=? u32 (sb_keep s + 1)) || (sb_pubs s =? 0)) eqn:C.
        * rewrite F1. cbn. discriminate.
        * intros _. cbn [fst sb_keep sb_max_keep]. rewrite u32_small in * by lia. apply orb_false_iff in C. destruct C as [C _]. lia.
    - unfold ticks. cbn [filter length]. cbn [sb_step]. destruct (negb (sb_late s)); [intros _; cbn; lia|].
      destruct (existsb item_available (sb_items s) && sb_enabled s).
      + destruct (send_data_counts s ord ok true) as (D1 & D2 & D3 & D4 & D6). rewrite D1. destruct ok.
        * destruct D4 as (_ & _ & ->). discriminate.
        * destruct D4 as (-> & _). lia.
      + destruct ((sb_max_keep s <=? sb_keep s) || (sb_pubs s =? 0)); [|intros _; cbn; lia]. rewrite F1. unfold send_keepalive. destruct ok; cbn; [discriminate|lia].
    - unfold ticks. cbn [filter length]. cbn [sb_step]. rewrite F1. cbn [negb]. destruct (remove_first n (sb_retrans s)) as [[x r]|]; [destruct ok|]; intros _; cbn; lia.
    - unfold ticks. cbn. lia.
    - destruct NM.
    - destruct SV.
  Qed.
  Lemma silent_run s ops : fine s -> Forall served ops -> Forall not_modify ops -> (forall e, In e (snd (sb_run s ops)) -> is_message e = false) ->
    fine (fst (sb_run s ops)) /\ sb_keep (fst (sb_run s ops)) = sb_keep s + Z.of_nat (ticks ops) /\ sb_max_keep (fst (sb_run s ops)) = sb_max_keep s /\
    (ticks ops = 0%nat \/ sb_keep (fst (sb_run s ops)) < sb_max_keep s).
  Proof.
    intros F SV NM. induction ops as [|o ops IH] using rev_ind; intros Q.
    - split; [exact F|]. cbn. lia.
    - apply Forall_app in SV, NM. destruct SV as [SV1 SV2], NM as [NM1 NM2]. apply Forall_inv in SV2, NM2. rewrite run_fst in *. rewrite run_snd in Q.
      destruct (IH SV1 NM1) as (I1 & I2 & I3 & I4); [intros e He; apply Q; now right|].
      assert (PR : proper o) by (destruct o; try exact I; destruct NM2).
      destruct (silent_step _ o I1 SV2 PR NM2) as (J1 & J2 & J3); [apply Q; now left|].
      split; [now apply fine_step|]. rewrite ticks_snoc. rewrite J1, J2, I2, I3 in *. lia.
  Qed.
  Lemma message_within e n k l ops1 ops2 : 1 <= k < 2 ^ 32 -> Forall served ops1 -> Forall proper ops1 -> Forall served ops2 -> Forall not_modify ops2 ->
    let s1 := fst (sb_run (sub_init (A := A) e n k l) ops1) in
    sb_max_keep s1 <= Z.of_nat (ticks ops2) -> exists x, In x (snd (sb_run s1 ops2)) /\ is_message x = true.
  Proof.
    cbv zeta. intros K SV1 PR1 SV2 NM2 T. destruct (fine_run _ ops1 (fine_init e n k l K) SV1 PR1) as [F _].
    set (s1 := fst (sb_run (sub_init e n k l) ops1)) in *.
    destruct (existsb is_message (snd (sb_run s1 ops2))) eqn:X; [apply existsb_exists in X; exact X|]. exfalso.
    assert (Q : forall e, In e (snd (sb_run s1 ops2)) -> is_message e = false).
    { intros y Hy. destruct (is_message y) eqn:Y; [|reflexivity]. assert (existsb is_message (snd (sb_run s1 ops2)) = true) by (apply existsb_exists; eauto). congruence. }
    destruct (silent_run s1 ops2 F SV2 NM2 Q) as (_ & R1 & R2 & R3). destruct F as (F1 & F2 & F3 & F4). lia.
  Qed.

  (** * A client that sends nothing *)
  Lemma starved_step s o : sb_alive s = true -> starved o -> 0 <= sb_life s < sb_max_life s -> sb_max_life s < 2 ^ 32 -> 0 <= sb_keep s -> sb_keep s + 1 < 2 ^ 32 ->
    let s' := fst (sb_step s o) in
    sb_max_keep s' = sb_max_keep s /\ sb_max_life s' = sb_max_life s /\
    (ticks [o] = 0%nat /\ sb_alive s' = true /\ sb_keep s' = sb_keep s /\ sb_life s' = sb_life s \/
     ticks [o] = 1%nat /\ sb_alive s' = true /\ sb_keep s' = sb_keep s + 1 /\ sb_life s' = sb_life s /\ sb_keep s + 1 < sb_max_keep s \/
     ticks [o] = 1%nat /\ sb_alive s' = true /\ sb_keep s <= sb_keep s' <= sb_keep s + 1 /\ sb_life s' = sb_life s + 1 /\ sb_life s + 1 < sb_max_life s \/
     ticks [o] = 1%nat /\ sb_alive s' = false /\ sb_life s + 1 = sb_max_life s).
  Proof.
    cbv zeta. intros AL ST L LM K KM.
    destruct o; try (match goal with |- context [sb_step s ?o] => destruct (plain_step s o I) as (P1 & P2 & P3 & P4 & P5 & P6 & P7) end; rewrite P1, P2, P3, P4, P5; unfold ticks; cbn [filter length]; tauto);
      try (destruct ST; fail).
    cbn [starved] in ST. subst r. unfold ticks. cbn [filter length]. cbn [sb_step]. destruct (existsb item_available (sb_items s) && sb_enabled s).
    - rewrite AL. cbn [negb]. unfold no_request. rewrite u32_small by lia. destruct (sb_max_life s <=? sb_life s + 1) eqn:E; cbn; lia.
    - cbn [sb_max_keep sb_keep sb_pubs]. rewrite (u32_small (sb_keep s + 1)) by lia. destruct ((sb_max_keep s <=? sb_keep s + 1) || (sb_pubs s =? 0)) eqn:C.
      + rewrite AL. cbn [negb]. unfold no_request. cbn [sb_life sb_max_life]. rewrite u32_small by lia. destruct (sb_life s + 1 =? sb_max_life s) eqn:E; cbn; lia.
      + cbn. apply orb_false_iff in C. lia.
  Qed.
  Lemma starved_run s ops : sb_alive s = true -> Forall starved ops -> 0 <= sb_life s < sb_max_life s -> 1 <= sb_max_keep s -> 0 <= sb_keep s < sb_max_keep s -> sb_max_keep s + sb_max_life s < 2 ^ 32 ->
    let s' := fst (sb_run s ops) in
    sb_max_keep s' = sb_max_keep s /\ sb_max_life s' = sb_max_life s /\
    (sb_alive s' = true /\ 0 <= sb_life s' < sb_max_life s /\ 0 <= sb_keep s' <= sb_max_keep s + sb_life s' /\ sb_life s' <= sb_life s + Z.of_nat (ticks ops) /\
      Z.min (sb_keep s) (sb_max_keep s - 1) + sb_life s + Z.of_nat (ticks ops) <= Z.min (sb_keep s') (sb_max_keep s - 1) + sb_life s' \/
     sb_alive s' = false /\ sb_max_life s <= sb_life s + Z.of_nat (ticks ops)).
  Proof.
    cbv zeta. intros AL ST L K1 K KM. induction ops as [|o ops IH] using rev_ind.
    - cbn. split; [reflexivity|]. split; [reflexivity|]. left. split; [exact AL|]. lia.
    - apply Forall_app in ST. destruct ST as [ST1 ST2]. apply Forall_inv in ST2. specialize (IH ST1). rewrite run_fst, ticks_snoc.
      set (t := fst (sb_run s ops)) in *. destruct IH as (I1 & I2 & I3). destruct I3 as [(J1 & J2 & J3 & J4 & J5)|[J1 J2]].
      + assert (STEP := starved_step t o J1 ST2 ltac:(lia) ltac:(lia) ltac:(lia) ltac:(lia)). cbv zeta in STEP. destruct STEP as (S1 & S2 & S3).
        rewrite S1, S2, I1, I2 in *. split; [reflexivity|]. split; [reflexivity|]. destruct S3 as [S3|[S3|[S3|S3]]]; [left|left|left|right]; (split; [tauto|]); lia.
      + assert (D : sb_alive (fst (sb_step t o)) = false) by (apply dead_stays; exact J1).
        split; [|split; [|right; split; [exact D|lia]]].
        * destruct o; try (match goal with |- context [sb_step t ?o] => destruct (plain_step t o I) as (P1 & P2 & P3 & P4 & P5 & P6 & P7) end; rewrite P3; exact I1); try (destruct ST2; fail).
          cbn [sb_step]. rewrite J1. cbn [negb]. repeat match goal with |- context [if ?c then _ else _] => destruct c end; cbn; exact I1.
        * destruct o; try (match goal with |- context [sb_step t ?o] => destruct (plain_step t o I) as (P1 & P2 & P3 & P4 & P5 & P6 & P7) end; rewrite P4; exact I2); try (destruct ST2; fail).
          cbn [sb_step]. rewrite J1. cbn [negb]. repeat match goal with |- context [if ?c then _ else _] => destruct c end; cbn; exact I2.
  Qed.
  (** Between served and unserved: what the counters are when requests stop. *)
  Definition tight s : Prop := fine s /\ 0 <= sb_keep s < sb_max_keep s.
  Lemma tight_step s o : tight s -> served o -> not_modify o -> tight (fst (sb_step s o)) /\ sb_max_keep (fst (sb_step s o)) = sb_max_keep s /\ sb_max_life (fst (sb_step s o)) = sb_max_life s.
  Proof.
    intros [F K] SV NM. assert (PR : proper o) by (destruct o; try exact I; destruct NM).
    destruct (fine_step s o F SV PR) as [F' _]. unfold tight. pose proof F as (F1 & F2 & F3 & F4).
    cut ((0 <= sb_keep (fst (sb_step s o)) < sb_max_keep s) /\ sb_max_keep (fst (sb_step s o)) = sb_max_keep s /\ sb_max_life (fst (sb_step s o)) = sb_max_life s).
    { intros (H1 & H2 & H3). split; [|split; assumption]. split; [exact F'|]. rewrite H2. exact H1. }
    clear F'. destruct o; try (match goal with |- context [sb_step s ?o] => destruct (plain_step s o I) as (P1 & P2 & P3 & P4 & P5 & P6 & P7) end; rewrite P1, P3, P4; auto; fail);
      try (match goal with |- context [sb_step s ?o] => destruct (touching_step s o I) as (P1 & P2 & P3 & P4 & P5 & P6 & P7) end; rewrite P1, P3, P4; auto; fail).
    - cbn [served] in SV. subst r. cbn [sb_step]. destruct (existsb item_available (sb_items s) && sb_enabled s).
      + rewrite F1. cbn [negb]. destruct (send_data_counts s ord true false) as (D1 & D2 & D3 & (D4 & D5 & D7) & D6). rewrite D1, D2, D4. lia.
      + cbn [sb_max_keep sb_keep sb_pubs]. destruct ((sb_max_keep s <=? u32 (sb_keep s + 1)) || (sb_pubs s =? 0)) eqn:C.
        * rewrite F1. cbn. lia.
        * cbn. rewrite u32_small in * by lia. apply orb_false_iff in C. lia.
    - cbn [sb_step]. destruct (negb (sb_late s)); [cbn; lia|]. destruct (existsb item_available (sb_items s) && sb_enabled s).
      + destruct (send_data_counts s ord ok true) as (D1 & D2 & D3 & D4 & D6). rewrite D1, D2. destruct ok; [destruct D4 as (-> & _); lia|destruct D4 as (-> & _); lia].
      + destruct ((sb_max_keep s <=? sb_keep s) || (sb_pubs s =? 0)); [|cbn; lia]. rewrite F1. unfold send_keepalive. destruct ok; cbn; lia.
    - cbn [sb_step]. rewrite F1. cbn [negb]. destruct (remove_first n (sb_retrans s)) as [[x r]|]; [destruct ok|]; cbn; lia.
    - cbn. lia.
    - destruct NM.
    - destruct SV.
  Qed.
  Lemma tight_run e n k l ops : 1 <= k < 2 ^ 32 -> Forall served ops -> Forall not_modify ops ->
    let s := fst (sb_run (sub_init (A := A) e n k l) ops) in tight s /\ sb_max_keep s = k /\ sb_max_life s = l.
  Proof.
    cbv zeta. intros K SV NM. induction ops as [|o ops IH] using rev_ind.
    - split; [split; [now apply fine_init|cbn; lia]|]. split; reflexivity.
    - apply Forall_app in SV, NM. destruct SV as [SV1 SV2], NM as [NM1 NM2]. destruct (IH SV1 NM1) as (I1 & I2 & I3). rewrite run_fst.
      destruct (tight_step _ o I1 (Forall_inv SV2) (Forall_inv NM2)) as (J1 & J2 & J3). split; [exact J1|]. rewrite J2, J3. split; assumption.
  Qed.
  Lemma expires_between e n k l ops1 ops2 : 1 <= k -> 1 <= l -> k + l < 2 ^ 32 -> Forall served ops1 -> Forall not_modify ops1 -> Forall starved ops2 ->
    let s2 := fst (sb_run (sub_init (A := A) e n k l) (ops1 ++ ops2)) in
    (Z.of_nat (ticks ops2) < l -> sb_alive s2 = true) /\ (k - 1 + l <= Z.of_nat (ticks ops2) -> sb_alive s2 = false).
  Proof.
    cbv zeta. intros K L KL SV NM ST. rewrite run_app. cbn [fst].
    destruct (tight_run e n k l ops1 ltac:(lia) SV NM) as ([(F1 & F2 & F3 & F4) T] & E1 & E2).
    set (s1 := fst (sb_run (sub_init e n k l) ops1)) in *.
    destruct (starved_run s1 ops2 F1 ST ltac:(lia) ltac:(lia) ltac:(lia) ltac:(lia)) as (_ & _ & [(J1 & J2 & J3 & J4 & J5)|[J1 J2]]).
    - split; [intros _; exact J1|]. intros H. exfalso. lia.
    - split; [intros H; lia|]. intros _. exact J1.
  Qed.
  (** An idle subscription lives longer than its lifetime count. *)
  Lemma idle_step s : sb_items s = [] -> sb_alive s = true -> sb_pubs s <> 0 -> 0 <= sb_keep s -> sb_keep s + 1 < sb_max_keep s < 2 ^ 32 ->
    let s' := fst (sb_step s (STick [] NoReq)) in
    sb_items s' = [] /\ sb_alive s' = true /\ sb_pubs s' <> 0 /\ sb_keep s' = sb_keep s + 1 /\ sb_life s' = sb_life s /\ sb_max_keep s' = sb_max_keep s /\ sb_max_life s' = sb_max_life s.
  Proof.
    cbv zeta. intros I1 AL P K KM. cbn [sb_step]. rewrite I1. cbn [existsb andb]. cbn [sb_max_keep sb_keep sb_pubs]. rewrite u32_small by lia.
    destruct ((sb_max_keep s <=? sb_keep s + 1) || (sb_pubs s =? 0)) eqn:C; [lia|]. cbn. repeat split; auto.
  Qed.
  Lemma idle_run s j : sb_items s = [] -> sb_alive s = true -> sb_pubs s <> 0 -> sb_keep s = 0 -> sb_max_keep s < 2 ^ 32 -> Z.of_nat j < sb_max_keep s ->
    let s' := fst (sb_run s (repeat (STick [] NoReq) j)) in
    sb_items s' = [] /\ sb_alive s' = true /\ sb_pubs s' <> 0 /\ sb_keep s' = Z.of_nat j /\ sb_life s' = sb_life s /\ sb_max_keep s' = sb_max_keep s /\ sb_max_life s' = sb_max_life s.
  Proof.
    cbv zeta. intros I1 AL P K KM. induction j as [|j IH]; intros J.
    - cbn. repeat split; auto.
    - destruct (IH ltac:(lia)) as (H1 & H2 & H3 & H4 & H5 & H6 & H7). replace (S j) with (j + 1)%nat by lia. rewrite repeat_app. cbn [repeat]. rewrite run_fst.
      destruct (idle_step _ H1 H2 H3 ltac:(lia) ltac:(lia)) as (G1 & G2 & G3 & G4 & G5 & G6 & G7). rewrite G4, G5, G6, G7, H4, H5, H6, H7. repeat split; auto. lia.
  Qed.
  Lemma starved_repeat j : Forall starved (repeat (STick (A := A) [] NoReq) j).
  Proof. apply Forall_forall. intros x Hx. apply repeat_spec in Hx. subst. reflexivity. Qed.
  Lemma ticks_repeat j : ticks (repeat (STick (A := A) [] NoReq) j) = j.
  Proof. induction j as [|j IH]; [reflexivity|]. cbn [repeat]. unfold ticks in *. cbn [filter length]. f_equal. exact IH. Qed.
  Lemma idle_life e n k l j : 1 <= k -> 1 <= l -> k + l < 2 ^ 32 ->
    sb_alive (fst (sb_run (sub_init (A := A) e n k l) ([STick [] (Req true)] ++ repeat (STick [] NoReq) j))) = (Z.of_nat j <? k - 1 + l).
  Proof.
    intros K L KL. destruct (Z.ltb_spec (Z.of_nat j) (k - 1 + l)) as [J|J].
    2:{ apply (expires_between e n k l); try assumption; try lia; [repeat constructor|repeat constructor|apply starved_repeat|rewrite ticks_repeat; lia]. }
    rewrite run_app. cbn [fst]. set (s1 := fst (sb_run (sub_init e n k l) [STick [] (Req true)])).
    assert (S1 : sb_items s1 = [] /\ sb_alive s1 = true /\ sb_pubs s1 <> 0 /\ sb_keep s1 = 0 /\ sb_life s1 = 0 /\ sb_max_keep s1 = k /\ sb_max_life s1 = l).
    { subst s1. unfold sb_run, sb_step'. cbn. rewrite orb_true_r. cbn. repeat split; auto; discriminate. }
    clearbody s1. destruct S1 as (A1 & A2 & A3 & A4 & A5 & A6 & A7).
    destruct (Nat.le_gt_cases j (Z.to_nat (k - 1))) as [C|C].
    - apply (idle_run s1 j); try assumption; lia.
    - assert (EJ : j = (Z.to_nat (k - 1) + (j - Z.to_nat (k - 1)))%nat) by lia. rewrite EJ, repeat_app, run_app. cbn [fst].
      destruct (idle_run s1 (Z.to_nat (k - 1)) A1 A2 A3 A4 ltac:(lia) ltac:(lia)) as (B1 & B2 & B3 & B4 & B5 & B6 & B7).
      set (s2 := fst (sb_run s1 (repeat (STick [] NoReq) (Z.to_nat (k - 1))))) in *.
      destruct (starved_run s2 (repeat (STick [] NoReq) (j - Z.to_nat (k - 1))) B2 (starved_repeat _) ltac:(lia) ltac:(lia) ltac:(lia) ltac:(lia)) as (_ & _ & [(J1 & _)|[J1 J2]]); [exact J1|].
      rewrite ticks_repeat in J2. lia.
  Qed.
End P.
