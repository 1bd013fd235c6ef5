(** Every message sent gives the subscription its whole lifetime again. *)
From Coq Require Import ZArith List Bool Lia.
From Coq Require Import ZifyBool ZifyNat.
From Verif Require Import Bytes MonQueue Subscription SubscriptionSpec SubscriptionProofs SubLifeProofs.
Import ListNotations.
Open Scope Z_scope.

Section P.
  Context {A : Type}.
  Implicit Types s : sub A.
  Implicit Types o : sbop A.
  Implicit Types ops : list (sbop A).

  Lemma message_resets s o : is_message (snd (sb_step s o)) = true ->
    sb_life (fst (sb_step s o)) = 0 /\ sb_max_life (fst (sb_step s o)) = sb_max_life s.
  Proof.
    assert (D : forall s ord ok late, is_message (snd (send_data s ord ok late)) = true -> sb_life (fst (send_data s ord ok late)) = 0 /\ sb_max_life (fst (send_data s ord ok late)) = sb_max_life s).
    { clear. intros s ord ok late H. destruct (send_data_counts s ord ok late) as (_ & D2 & _ & D4 & _). destruct ok; [now destruct D4 as (_ & -> & _)|].
      unfold send_data in H. destruct (collect ord _ _) as [[out more] items]. discriminate H. }
    destruct o; cbn [sb_step]; intros H.
    - destruct (existsb item_available (sb_items s) && sb_enabled s).
      + destruct (negb (sb_alive s)); [discriminate|]. destruct r; [|apply D, H|discriminate].
        unfold no_request in *. destruct (sb_max_life s <=? _); discriminate.
      + cbv zeta in *. match goal with |- context [if ?c then _ else _] => destruct c end; [|discriminate].
        destruct (negb (sb_alive s)); [discriminate|]. destruct r; [|destruct ok; [split; reflexivity|discriminate]|discriminate].
        unfold no_request in *. match goal with H : context [if (?a =? ?b) then _ else _] |- _ => destruct (a =? b) end; discriminate.
    - destruct (negb (sb_late s)); [discriminate|]. destruct (existsb item_available (sb_items s) && sb_enabled s); [apply D, H|].
      destruct (_ || _); [|discriminate]. destruct (sb_alive s); [|discriminate]. destruct ok; [split; reflexivity|discriminate].
    - destruct (negb (sb_alive s)); [discriminate|]. destruct (remove_first n (sb_retrans s)) as [[x r]|]; discriminate.
    - destruct (negb (sb_alive s)); [discriminate|]. destruct (remove_first n (sb_retrans s)) as [[x r]|]; [destruct ok|]; discriminate.
    - discriminate.
    - destruct (negb (sb_alive s)); discriminate.
    - destruct (negb (sb_alive s)); discriminate.
    - discriminate.
    - discriminate.
    - discriminate.
    - discriminate.
    - discriminate.
    - destruct (sb_alive s); discriminate.
  Qed.
  Lemma counted s o : not_modify o -> 0 <= sb_life s -> sb_life s + Z.of_nat (ticks [o]) < 2 ^ 32 ->
    sb_max_life (fst (sb_step s o)) = sb_max_life s /\
    0 <= sb_life (fst (sb_step s o)) <= sb_life s + Z.of_nat (ticks [o]) /\
    (sb_life s + Z.of_nat (ticks [o]) < sb_max_life s -> forall n, snd (sb_step s o) <> EvStatusChange n).
  Proof.
    intros NM L0 L. 
    assert (D : forall s ord ok late, 0 <= sb_life s -> sb_max_life (fst (send_data s ord ok late)) = sb_max_life s /\ 0 <= sb_life (fst (send_data s ord ok late)) <= sb_life s /\ forall n, snd (send_data s ord ok late) <> EvStatusChange n).
    { clear. intros s ord ok late H. destruct (send_data_counts s ord ok late) as (_ & D2 & _ & D4 & D5). split; [exact D2|]. split; [|exact D5]. destruct ok; [destruct D4 as (_ & -> & _)|destruct D4 as (_ & ->)]; lia. }
    assert (K : forall s ok, 0 <= sb_life s -> sb_max_life (fst (send_keepalive s ok)) = sb_max_life s /\ 0 <= sb_life (fst (send_keepalive s ok)) <= sb_life s /\ forall n, snd (send_keepalive s ok) <> EvStatusChange n).
    { clear. intros s ok H. unfold send_keepalive. destruct ok; cbn; repeat split; try lia; discriminate. }
    assert (N : forall s b, 0 <= sb_life s -> sb_life s + 1 < 2 ^ 32 -> sb_max_life (fst (no_request s b)) = sb_max_life s /\ 0 <= sb_life (fst (no_request s b)) <= sb_life s + 1 /\
                (sb_life s + 1 < sb_max_life s -> forall n, snd (no_request s b) <> EvStatusChange n)).
    { clear. intros s b H1 H2. unfold no_request. rewrite u32_small by lia. destruct (if b then _ else _) eqn:E; cbn [fst snd dead sb_life sb_max_life].
      - repeat split; try lia. intros M. destruct b; lia.
      - repeat split; try lia. discriminate. }
    destruct o; cbn [sb_step]; change (ticks [_]) with 0%nat || change (ticks [_]) with 1%nat in *.
    - destruct (existsb item_available (sb_items s) && sb_enabled s).
      + destruct (negb (sb_alive s)); [cbn; repeat split; try lia; discriminate|].
        destruct r; [apply N; lia|destruct (D s ord ok false L0) as (D1 & D2 & D3); repeat split; try assumption; try lia|cbn; repeat split; try lia; discriminate].
        intros _. exact D3.
      + cbv zeta. match goal with |- context [if ?c then _ else _] => destruct c end; [|cbn; repeat split; try lia; discriminate].
        destruct (negb (sb_alive s)); [cbn; repeat split; try lia; discriminate|].
        match goal with |- context [no_request ?x _] => set (s1 := x) end.
        assert (E1 : sb_life s1 = sb_life s) by reflexivity. assert (E2 : sb_max_life s1 = sb_max_life s) by reflexivity. clearbody s1. rewrite <- E1, <- E2 in *.
        destruct r; [apply N; lia|destruct (K s1 ok L0) as (D1 & D2 & D3); repeat split; try assumption; try lia|cbn; repeat split; try lia; discriminate].
        intros _. exact D3.
    - destruct (negb (sb_late s)); [cbn; repeat split; try lia; discriminate|]. destruct (existsb item_available (sb_items s) && sb_enabled s).
      { destruct (D s ord ok true L0) as (D1 & D2 & D3); repeat split; try assumption; try lia. intros _. exact D3. }
      destruct (_ || _); [|cbn; repeat split; try lia; discriminate]. destruct (sb_alive s); [|cbn; repeat split; try lia; discriminate].
      destruct (K s ok L0) as (D1 & D2 & D3); repeat split; try assumption; try lia. intros _. exact D3.
    - destruct (negb (sb_alive s)); [cbn; repeat split; try lia; discriminate|]. destruct (remove_first n (sb_retrans s)) as [[x r]|]; cbn; repeat split; try lia; discriminate.
    - destruct (negb (sb_alive s)); [cbn; repeat split; try lia; discriminate|]. destruct (remove_first n (sb_retrans s)) as [[x r]|]; [destruct ok|]; cbn; repeat split; try lia; discriminate.
    - cbn; repeat split; try lia; discriminate.
    - destruct NM.
    - destruct (negb (sb_alive s)); cbn; repeat split; try lia; discriminate.
    - cbn; repeat split; try lia; discriminate.
    - cbn; repeat split; try lia; discriminate.
    - cbn; repeat split; try lia; discriminate.
    - cbn; repeat split; try lia; discriminate.
    - cbn; repeat split; try lia; discriminate.
    - destruct (sb_alive s); cbn; repeat split; try lia; discriminate.
  Qed.
  Lemma counted_run s ops : Forall not_modify ops -> sb_life s = 0 -> Z.of_nat (ticks ops) < sb_max_life s -> sb_max_life s <= 2 ^ 32 ->
    (sb_max_life (fst (sb_run s ops)) = sb_max_life s /\ 0 <= sb_life (fst (sb_run s ops)) <= Z.of_nat (ticks ops)) /\
    forall n, ~ In (EvStatusChange n) (snd (sb_run s ops)).
  Proof.
    intros F L0 T M. induction ops as [|o ops IH] using rev_ind; [cbn; repeat split; try lia; intros n []|].
    apply Forall_app in F. destruct F as [F1 F2]. rewrite ticks_snoc in T. destruct (IH F1 ltac:(lia)) as ((I1 & I2) & I3). rewrite run_fst, run_snd, ticks_snoc.
    destruct (counted (fst (sb_run s ops)) o (Forall_inv F2) ltac:(lia) ltac:(lia)) as (C1 & C2 & C3).
    split; [rewrite C1; split; [exact I1|lia]|]. intros n [H|H]; [|now apply (I3 n)]. apply (C3 ltac:(lia) n H).
  Qed.
  Lemma renewed s o ops : is_message (snd (sb_step s o)) = true -> Forall not_modify ops ->
    Z.of_nat (ticks ops) < sb_max_life s -> sb_max_life s <= 2 ^ 32 ->
    forall n, ~ In (EvStatusChange n) (snd (sb_run (fst (sb_step s o)) ops)).
  Proof.
    intros H F T M. destruct (message_resets s o H) as [E1 E2]. rewrite <- E2 in T, M. apply (counted_run _ ops F E1 T M).
  Qed.
End P.
