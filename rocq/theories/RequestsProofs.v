(** Responses reach the caller that asked. *)
From Coq Require Import ZArith List Bool Lia Strings.Byte ZifyBool ZifyNat.
From Verif Require Import Bytes BytesProofs Chunk Keys KeysSpec KeysProofs Requests RequestsSpec.
Import ListNotations.
Open Scope Z_scope.

Lemma set_nth_length {A} (x : A) l : forall i, List.length (set_nth i x l) = List.length l.
Proof. induction l as [|y l IH]; intros [|i]; cbn; auto. Qed.
Lemma set_nth_eq {A} (x : A) l : forall i y, nth_error l i = Some y -> nth_error (set_nth i x l) i = Some x.
Proof. induction l as [|z l IH]; intros [|i] y; cbn; try discriminate; eauto. Qed.
Lemma set_nth_neq {A} (x : A) l : forall i j, i <> j -> nth_error (set_nth i x l) j = nth_error l j.
Proof. induction l as [|z l IH]; intros [|i] [|j] N; cbn; auto; try congruence. Qed.
Lemma set_nth_inv {A} (x y : A) l i j : nth_error (set_nth i x l) j = Some y ->
  (i = j /\ y = x /\ exists z, nth_error l i = Some z) \/ (i <> j /\ nth_error l j = Some y).
Proof.
  intros H. destruct (Nat.eq_dec i j) as [->|N].
  - left. destruct (nth_error l j) as [z|] eqn:E.
    + rewrite (set_nth_eq _ _ _ _ E) in H. split; [auto|]. split; [congruence|eauto].
    + apply nth_error_None in E. assert (L : nth_error (set_nth j x l) j <> None) by congruence.
      apply nth_error_Some in L. rewrite set_nth_length in L. lia.
  - right. rewrite set_nth_neq in H by exact N. auto.
Qed.

Definition closeb (ops : list qop) : bool := existsb (fun o => match o with QClose => true | _ => false end) ops.
Lemma arrivals_snoc ops o : arrivals (ops ++ [o]) =
  arrivals ops ++ (if closeb ops then [] else match o with QResponse h b => [(h, b)] | _ => [] end).
Proof.
  induction ops as [|p ops IH]; [destruct o; reflexivity|].
  destruct p; cbn [app arrivals closeb existsb orb]; rewrite ?IH; reflexivity.
Qed.
Lemma closeb_snoc ops o : closeb (ops ++ [o]) = closeb ops || match o with QClose => true | _ => false end.
Proof. unfold closeb. rewrite existsb_app. cbn. now rewrite orb_false_r. Qed.
Lemma started_snoc ops o : started (ops ++ [o]) = (started ops + match o with QStart => 1 | _ => 0 end)%nat.
Proof. induction ops as [|p ops IH]; [destruct o; reflexivity|]. destruct p; cbn [app started]; rewrite IH; lia. Qed.

Lemma look_in h m i : look h m = Some i -> In (h, i) m.
Proof.
  induction m as [|[k j] m IH]; cbn; [discriminate|].
  destruct (k =? h) eqn:E; [intros [= ->]; left; f_equal; lia|auto].
Qed.
Lemma drop_in h m x : In x (drop h m) -> In x m /\ fst x <> h.
Proof.
  induction m as [|[k j] m IH]; cbn; [tauto|].
  destruct (k =? h) eqn:E; cbn; [intros I; destruct (IH I); auto|].
  intros [<-|I]; [cbn; split; [auto|lia]|destruct (IH I); auto].
Qed.
Lemma look_drop h k m : h <> k -> look h (drop k m) = look h m.
Proof.
  intros N. induction m as [|[a j] m IH]; cbn; [reflexivity|].
  destruct (a =? k) eqn:E1; destruct (a =? h) eqn:E2; cbn; rewrite ?E2; auto; lia.
Qed.
Lemma look_drop_same h m : look h (drop h m) = None.
Proof. induction m as [|[a j] m IH]; cbn; [reflexivity|]. destruct (a =? h) eqn:E; cbn; rewrite ?E; auto. Qed.

Lemma map_pending_in l ch : forall m x, In x (map_pending l ch m) -> In x m \/ In (snd x) ch /\ fst x = handle_of l (snd x).
Proof.
  unfold map_pending. induction ch as [|i ch IH]; intros m x; cbn [fold_left]; [auto|].
  intros I. apply IH in I as [[<-|I]|[I E]]; cbn.
  - right. auto.
  - apply drop_in in I as [I _]. auto.
  - auto.
Qed.
Lemma map_pending_none l ch : forall m h,
  (forall j, In j ch -> handle_of l j <> h) -> look h (map_pending l ch m) = look h m.
Proof.
  unfold map_pending. induction ch as [|i ch IH]; intros m h N; cbn [fold_left]; [reflexivity|].
  rewrite IH by (intros j J; apply N; now right).
  unfold register. cbn [look]. pose proof (N i (or_introl eq_refl)).
  destruct (handle_of l i =? h) eqn:E; [lia|]. apply look_drop. lia.
Qed.
(** a caller whose handle is its own is found afterwards *)
Lemma map_pending_look l ch : forall m i,
  (forall j, In j ch -> handle_of l j = handle_of l i -> j = i) ->
  In i ch \/ look (handle_of l i) m = Some i -> look (handle_of l i) (map_pending l ch m) = Some i.
Proof.
  unfold map_pending. induction ch as [|j ch IH]; intros m i U; cbn [fold_left]; [intros [[]|]; auto|].
  intros H. apply IH; [intros k K; apply U; now right|].
  unfold register. cbn [look].
  destruct (handle_of l j =? handle_of l i) eqn:E.
  - right. f_equal. apply U; [now left|lia].
  - rewrite look_drop by lia. destruct H as [[->|H]|H]; auto. lia.
Qed.

Record J (ops : list qop) (q : reqs) : Prop := {
  j_len : List.length (q_callers q) = started ops;
  j_hnd : forall i c, nth_error (q_callers q) i = Some c -> cr_handle c = kth i;
  j_next : next_counter (q_handle q) = kth (started ops);
  j_seen : q_seen q = List.length (arrivals ops);
  j_closed : q_closed q = closeb ops;
  j_buf : forall i c n h b, nth_error (q_callers q) i = Some c -> cr_buf c = Some (FromServer n h b) ->
          nth_error (arrivals ops) n = Some (h, b) /\ h = cr_handle c;
  j_own : forall i c h, nth_error (q_callers q) i = Some c -> cr_buf c = Some (OwnClose h) -> h = cr_handle c;
  j_got : forall i c r, nth_error (q_callers q) i = Some c -> cr_state c = Done (Got r) -> cr_buf c = Some r;
  j_one : forall i j c d n h b h' b', nth_error (q_callers q) i = Some c -> nth_error (q_callers q) j = Some d ->
          cr_buf c = Some (FromServer n h b) -> cr_buf d = Some (FromServer n h' b') -> i = j;
  j_chan : forall i, In i (q_chan q) -> (i < started ops)%nat;
  j_map : forall x, In x (q_map q) -> (snd x < started ops)%nat /\ fst x = kth (snd x);
  j_out : Z.of_nat (started ops) <= 2 ^ 32 - 1 -> forall i c, nth_error (q_callers q) i = Some c -> outstanding c ->
          In i (q_chan q) \/ look (kth i) (q_map q) = Some i
}.

Lemma J_start : J [] (reqs0 0).
Proof.
  unfold reqs0. constructor; cbn; auto; try solve [intros; destruct i; discriminate | intros; contradiction].
Qed.

(** a caller keeps its handle and its answer, or gets an answer of its own *)
Lemma J_move ops q i c s b o : J ops q -> nth_error (q_callers q) i = Some c ->
  (match o with QStart | QResponse _ _ | QClose => False | _ => True end) ->
  (b = cr_buf c \/ cr_buf c = None /\ b = Some (OwnClose (cr_handle c))) ->
  (forall r, s = Done (Got r) -> b = Some r) ->
  (outstanding (mkCaller (cr_handle c) s b) -> outstanding c) ->
  J (ops ++ [o]) (with_callers q (set_nth i (mkCaller (cr_handle c) s b) (q_callers q))).
Proof.
  intros [A1 A2 A3 A4 A5 A6 A7 A8 A9 A10 A11 A12] N O B G OUT.
  assert (E1 : arrivals (ops ++ [o]) = arrivals ops).
  { rewrite arrivals_snoc. destruct (closeb ops); [apply app_nil_r|]. destruct o; try contradiction; apply app_nil_r. }
  assert (E2 : started (ops ++ [o]) = started ops) by (rewrite started_snoc; destruct o; try contradiction; lia).
  assert (E3 : closeb (ops ++ [o]) = closeb ops) by (rewrite closeb_snoc; destruct o; try contradiction; apply orb_false_r).
  constructor; cbn [with_callers q_handle q_callers q_chan q_map q_seen q_closed]; rewrite ?E1, ?E2, ?E3, ?set_nth_length; auto.
  - intros j d H. apply set_nth_inv in H as [(-> & -> & _)|[_ H]]; cbn; eauto.
  - intros j d n h b' H. apply set_nth_inv in H as [(-> & -> & _)|[_ H]]; cbn; [|eauto].
    intros ->. destruct B as [B|[_ B]]; [|discriminate]. symmetry in B. eauto.
  - intros j d h H. apply set_nth_inv in H as [(-> & -> & _)|[_ H]]; cbn; [|eauto].
    intros ->. destruct B as [B|[_ B]]; [symmetry in B; eauto|congruence].
  - intros j d r H. apply set_nth_inv in H as [(-> & -> & _)|[_ H]]; cbn; [|eauto]. intros E. now apply G.
  - assert (OLD : forall j d n h b', nth_error (set_nth i (mkCaller (cr_handle c) s b) (q_callers q)) j = Some d ->
        cr_buf d = Some (FromServer n h b') -> exists d', nth_error (q_callers q) j = Some d' /\ cr_buf d' = Some (FromServer n h b')).
    { intros j d n h b' H. apply set_nth_inv in H as [(-> & -> & _)|[_ H]]; cbn; [|eauto].
      intros ->. destruct B as [B|[_ B]]; [eauto|discriminate]. }
    intros j k d d2 n h b1 h2 b2 H1 H2 F1 F2.
    destruct (OLD _ _ _ _ _ H1 F1) as (x & X1 & X2). destruct (OLD _ _ _ _ _ H2 F2) as (y & Y1 & Y2). eauto.
  - intros L j d H. apply set_nth_inv in H as [(-> & -> & _)|[_ H]]; [|eauto]. intros U. eapply A12; eauto.
Qed.

Lemma J_same ops q o : J ops q -> (match o with QStart | QClose => False | QResponse _ _ => closeb ops = true | _ => True end) -> J (ops ++ [o]) q.
Proof.
  intros [A1 A2 A3 A4 A5 A6 A7 A8 A9 A10 A11 A12] O.
  assert (E1 : arrivals (ops ++ [o]) = arrivals ops).
  { rewrite arrivals_snoc. destruct (closeb ops); [apply app_nil_r|]. destruct o; try contradiction; try apply app_nil_r. discriminate. }
  assert (E2 : started (ops ++ [o]) = started ops) by (rewrite started_snoc; destruct o; try contradiction; lia).
  assert (E3 : closeb (ops ++ [o]) = closeb ops) by (rewrite closeb_snoc; destruct o; try contradiction; apply orb_false_r).
  constructor; rewrite ?E1, ?E2, ?E3; eauto.
Qed.

Lemma nth_lt {A} (l : list A) n x : nth_error l n = Some x -> (n < List.length l)%nat.
Proof. intros H. apply nth_error_Some. congruence. Qed.

Lemma handle_kth ops q i : J ops q -> (i < started ops)%nat -> handle_of (q_callers q) i = kth i.
Proof.
  intros I L. unfold handle_of. rewrite <- (j_len _ _ I) in L. apply nth_error_Some in L.
  destruct (nth_error (q_callers q) i) eqn:E; [|congruence]. eapply j_hnd; eassumption.
Qed.
Lemma kth_inj i j n : (i < n)%nat -> (j < n)%nat -> Z.of_nat n <= 2 ^ 32 - 1 -> kth i = kth j -> i = j.
Proof.
  intros A B C E. destruct (lt_eq_lt_dec i j) as [[L|L]|L]; [|exact L|]; exfalso.
  - apply (kth_neq i j); lia.
  - apply (kth_neq j i); lia.
Qed.

Lemma J_response ops q h body : J ops q -> closeb ops = false -> J (ops ++ [QResponse h body]) (handle_response q h body).
Proof.
  intros I NC. pose proof I as [A1 A2 A3 A4 A5 A6 A7 A8 A9 A10 A11 A12].
  set (m := map_pending (q_callers q) (q_chan q) (q_map q)).
  assert (M : forall x, In x m -> (snd x < started ops)%nat /\ fst x = kth (snd x)).
  { intros x X. apply map_pending_in in X as [X|[X E]]; [auto|]. 
    split; [auto|]. rewrite E. eapply handle_kth; eauto. }
  assert (E1 : arrivals (ops ++ [QResponse h body]) = arrivals ops ++ [(h, body)]) by (rewrite arrivals_snoc, NC; reflexivity).
  assert (E2 : started (ops ++ [QResponse h body]) = started ops) by (rewrite started_snoc; lia).
  assert (E3 : closeb (ops ++ [QResponse h body]) = closeb ops) by (rewrite closeb_snoc; apply orb_false_r).
  assert (OLD : forall n x, nth_error (arrivals ops) n = Some x -> nth_error (arrivals ops ++ [(h, body)]) n = Some x).
  { intros n x X. rewrite nth_error_app1; [exact X|]. now apply nth_lt in X. }
  assert (NEW : nth_error (arrivals ops ++ [(h, body)]) (q_seen q) = Some (h, body)).
  { rewrite A4, nth_error_app2, Nat.sub_diag by lia. reflexivity. }
  assert (OUT : Z.of_nat (started ops) <= 2 ^ 32 - 1 -> forall i c, nth_error (q_callers q) i = Some c -> outstanding c ->
                look (kth i) m = Some i).
  { intros L i c N U. assert (Li : (i < started ops)%nat) by (rewrite <- A1; now apply nth_lt in N).
    rewrite <- (handle_kth _ _ _ I Li). apply map_pending_look.
    - intros j J1 EJ. rewrite (handle_kth _ _ _ I Li), (handle_kth _ _ _ I (A10 j J1)) in EJ. eapply kth_inj; eauto.
    - rewrite (handle_kth _ _ _ I Li). eauto. }
  unfold handle_response. fold m. cbv zeta.
  destruct (look h m) as [i|] eqn:EL.
  - pose proof (look_in _ _ _ EL) as IL. apply M in IL as [Li Hi]. cbn in Li, Hi.
    rewrite <- A1 in Li. apply nth_error_Some in Li.
    destruct (nth_error (q_callers q) i) as [c|] eqn:EC; [clear Li|congruence].
    destruct (cr_buf c) as [r0|] eqn:EB.
    + constructor; cbn [q_handle q_callers q_chan q_map q_seen q_closed]; rewrite ?E1, ?E2, ?E3, ?app_length; auto; cbn [List.length]; try lia.
      * intros j d n h' b' H F. destruct (A6 _ _ _ _ _ H F). auto.
      * intros j [].
      * intros x X. apply drop_in in X as [X _]. auto.
      * intros L j d H U. right. pose proof (OUT L j d H U) as O.
        assert (kth j <> h).
        { intros E. rewrite E, EL in O. injection O as ->. rewrite EC in H. injection H as ->. destruct U as [_ U]. congruence. }
        rewrite look_drop by assumption. exact O.
    + set (c' := mkCaller (cr_handle c) (cr_state c) (Some (FromServer (q_seen q) h body))).
      constructor; cbn [q_handle q_callers q_chan q_map q_seen q_closed]; rewrite ?E1, ?E2, ?E3, ?app_length, ?set_nth_length; auto; cbn [List.length]; try lia.
      * intros j d H. apply set_nth_inv in H as [(-> & -> & _)|[_ H]]; cbn; eauto.
      * intros j d n h' b' H. apply set_nth_inv in H as [(-> & -> & _)|[_ H]]; cbn.
        -- intros [= <- <- <-]. split; [exact NEW|]. rewrite Hi. symmetry. eauto.
        -- intros F. destruct (A6 _ _ _ _ _ H F). auto.
      * intros j d h' H. apply set_nth_inv in H as [(-> & -> & _)|[_ H]]; cbn; [discriminate|eauto].
      * intros j d r H. apply set_nth_inv in H as [(-> & -> & _)|[_ H]]; cbn; [|eauto].
        intros ED. pose proof (A8 _ _ _ EC ED). congruence.
      * assert (FRESH : forall j d h' b', nth_error (q_callers q) j = Some d -> cr_buf d = Some (FromServer (q_seen q) h' b') -> False).
        { intros j d h' b' H F. destruct (A6 _ _ _ _ _ H F) as [X _]. apply nth_lt in X. lia. }
        intros j k d1 d2 n h1 b1 h2 b2 H1 H2 F1 F2.
        apply set_nth_inv in H1 as [(-> & -> & _)|[N1 H1]]; apply set_nth_inv in H2 as [(-> & -> & _)|[N2 H2]]; cbn in F1, F2; try congruence.
        -- injection F1 as <- <- <-. exfalso. eauto.
        -- injection F2 as <- <- <-. exfalso. eauto.
        -- eauto.
      * intros j [].
      * intros x X. apply drop_in in X as [X _]. auto.
      * intros L j d H U. right. apply set_nth_inv in H as [(-> & -> & _)|[NE H]].
        { destruct U as [_ U]. discriminate. }
        pose proof (OUT L j d H U) as O.
        assert (kth j <> h) by (intros E; rewrite E, EL in O; congruence).
        rewrite look_drop by assumption. exact O.
  - constructor; cbn [q_handle q_callers q_chan q_map q_seen q_closed]; rewrite ?E1, ?E2, ?E3, ?app_length; auto; cbn [List.length]; try lia.
    * intros j d n h' b' H F. destruct (A6 _ _ _ _ _ H F). auto.
    * intros j [].
    * intros L j d H U. right. eauto.
Qed.

Lemma J_step ops q o : J ops q -> J (ops ++ [o]) (q_step q o).
Proof.
  intros I. destruct o as [|i|i ok|i|i|i|i|h body|]; cbn [q_step].
  - (* QStart *)
    destruct I as [A1 A2 A3 A4 A5 A6 A7 A8 A9 A10 A11 A12].
    assert (E1 : arrivals (ops ++ [QStart]) = arrivals ops).
    { rewrite arrivals_snoc. destruct (closeb ops); apply app_nil_r. }
    assert (E2 : started (ops ++ [QStart]) = S (started ops)) by (rewrite started_snoc; lia).
    assert (E3 : closeb (ops ++ [QStart]) = closeb ops) by (rewrite closeb_snoc; apply orb_false_r).
    rewrite A3.
    assert (OLD : forall i c, nth_error (q_callers q ++ [mkCaller (kth (started ops)) Entering None]) i = Some c ->
              nth_error (q_callers q) i = Some c \/ i = started ops /\ c = mkCaller (kth (started ops)) Entering None).
    { intros i c H. destruct (Nat.lt_ge_cases i (List.length (q_callers q))) as [L|L].
      - rewrite nth_error_app1 in H by exact L. auto.
      - rewrite nth_error_app2 in H by exact L. destruct (i - List.length (q_callers q))%nat as [|x] eqn:EX.
        + cbn in H. injection H as <-. right. split; [lia|reflexivity].
        + destruct x; discriminate. }
    constructor; cbn [q_handle q_callers q_chan q_map q_seen q_closed]; rewrite ?E1, ?E2, ?E3, ?app_length; auto; cbn [List.length].
    + lia.
    + intros i c H. apply OLD in H as [H|[-> ->]]; cbn; eauto.
    + apply next_kth.
    + intros i c n h b H. apply OLD in H as [H|[-> ->]]; cbn; [eauto|discriminate].
    + intros i c h H. apply OLD in H as [H|[-> ->]]; cbn; [eauto|discriminate].
    + intros i c r H. apply OLD in H as [H|[-> ->]]; cbn; [eauto|discriminate].
    + intros i j c d n h b h' b' H1 H2. apply OLD in H1 as [H1|[-> ->]]; apply OLD in H2 as [H2|[-> ->]]; cbn; try discriminate. eauto.
    + intros i X. apply A10 in X. lia.
    + intros x X. apply A11 in X as [X1 X2]. split; [lia|auto].
    + intros L i c H U. apply OLD in H as [H|[-> ->]]; [apply (A12 ltac:(lia) _ _ H U)|]. destruct U as [[U|U] _]; discriminate.
  - (* QRegister *)
    destruct (nth_error (q_callers q) i) as [[h st b]|] eqn:E; [|now apply J_same].
    destruct st; try (now apply J_same).
    destruct (_ <? _)%nat eqn:EL; [|now apply J_same].
    destruct I as [A1 A2 A3 A4 A5 A6 A7 A8 A9 A10 A11 A12].
    assert (E1 : arrivals (ops ++ [QRegister i]) = arrivals ops).
    { rewrite arrivals_snoc. destruct (closeb ops); apply app_nil_r. }
    assert (E2 : started (ops ++ [QRegister i]) = started ops) by (rewrite started_snoc; lia).
    assert (E3 : closeb (ops ++ [QRegister i]) = closeb ops) by (rewrite closeb_snoc; apply orb_false_r).
    constructor; cbn [q_handle q_callers q_chan q_map q_seen q_closed]; rewrite ?E1, ?E2, ?E3, ?set_nth_length; auto.
    + intros j d H. apply set_nth_inv in H as [(<- & -> & _)|[_ H]]; cbn; [apply (A2 _ _ E)|eauto].
    + intros j d n h' b' H. apply set_nth_inv in H as [(<- & -> & _)|[_ H]]; cbn; [|eauto]. apply (A6 _ _ _ _ _ E).
    + intros j d h' H. apply set_nth_inv in H as [(<- & -> & _)|[_ H]]; cbn; [|eauto]. apply (A7 _ _ _ E).
    + intros j d r H. apply set_nth_inv in H as [(<- & -> & _)|[_ H]]; cbn; [discriminate|eauto].
    + assert (OLD : forall j d n h1 b', nth_error (set_nth i (mkCaller h Sending b) (q_callers q)) j = Some d ->
        cr_buf d = Some (FromServer n h1 b') -> exists d', nth_error (q_callers q) j = Some d' /\ cr_buf d' = Some (FromServer n h1 b')).
      { intros j d n h1 b' H. apply set_nth_inv in H as [(<- & -> & _)|[_ H]]; cbn; [|eauto]. intros F. exists (mkCaller h Entering b). auto. }
      intros j k d d2 n h1 b1 h2 b2 H1 H2 F1 F2.
      destruct (OLD _ _ _ _ _ H1 F1) as (x & X1 & X2). destruct (OLD _ _ _ _ _ H2 F2) as (y & Y1 & Y2). eauto.
    + intros j X. apply in_app_or in X as [X|[<-|[]]]; [auto|]. rewrite <- A1. now apply nth_lt in E.
    + intros L j d H U. apply set_nth_inv in H as [(<- & -> & _)|[_ H]].
      * left. apply in_or_app. right. now left.
      * destruct (A12 L _ _ H U); auto. left. apply in_or_app. auto.
  - (* QSent *)
    destruct (nth_error (q_callers q) i) as [[h st b]|] eqn:E; [|now apply J_same].
    destruct st; try (now apply J_same).
    apply (J_move ops q i _ _ _ _ I E); cbn; auto.
    + destruct ok; discriminate.
    + intros [U1 U2]. cbn in U1, U2. split; cbn; auto.
  - destruct (nth_error (q_callers q) i) as [[h st b]|] eqn:E; [|now apply J_same].
    destruct st; try (now apply J_same).
    apply (J_move ops q i _ _ _ _ I E); cbn; auto.
    + destruct b; auto.
    + discriminate.
    + intros [U1 U2]. cbn in U1, U2. destruct b; discriminate.
  - destruct (nth_error (q_callers q) i) as [[h st b]|] eqn:E; [|now apply J_same].
    destruct st; try (now apply J_same). destruct b as [r|]; [|now apply J_same].
    apply (J_move ops q i _ _ _ _ I E); cbn; auto.
    + intros r' [= ->]. reflexivity.
    + intros [U1 U2]. discriminate.
  - destruct (nth_error (q_callers q) i) as [[h st b]|] eqn:E; [|now apply J_same].
    destruct st; try (now apply J_same).
    apply (J_move ops q i _ _ _ _ I E); cbn; auto.
    + discriminate.
    + intros [[U|U] _]; discriminate.
  - destruct (nth_error (q_callers q) i) as [[h st b]|] eqn:E; [|now apply J_same].
    destruct st; try (now apply J_same). destruct (q_closed q); [|now apply J_same].
    apply (J_move ops q i _ _ _ _ I E); cbn; auto.
    + discriminate.
    + intros [[U|U] _]; discriminate.
  - destruct (q_closed q) eqn:E; rewrite (j_closed _ _ I) in E.
    + now apply J_same.
    + now apply J_response.
  - destruct I as [A1 A2 A3 A4 A5 A6 A7 A8 A9 A10 A11 A12].
    assert (E1 : arrivals (ops ++ [QClose]) = arrivals ops).
    { rewrite arrivals_snoc. destruct (closeb ops); apply app_nil_r. }
    assert (E2 : started (ops ++ [QClose]) = started ops) by (rewrite started_snoc; lia).
    assert (E3 : closeb (ops ++ [QClose]) = true) by (rewrite closeb_snoc; apply orb_true_r).
    constructor; cbn [q_handle q_callers q_chan q_map q_seen q_closed]; rewrite ?E1, ?E2, ?E3; auto.
Qed.

Lemma J_run ops : J ops (q_run 0 ops).
Proof.
  induction ops as [|o ops IH] using rev_ind; [apply J_start|].
  unfold q_run. rewrite fold_left_app. cbn [fold_left]. now apply J_step.
Qed.

(** The caller that returns a response of the server asked for it. *)
Lemma right_caller ops i c n h b : nth_error (q_callers (q_run 0 ops)) i = Some c ->
  cr_state c = Done (Got (FromServer n h b)) ->
  nth_error (arrivals ops) n = Some (h, b) /\ h = cr_handle c /\ cr_handle c = kth i.
Proof.
  intros N D. pose proof (J_run ops) as I. pose proof (j_got _ _ I _ _ _ N D) as B.
  destruct (j_buf _ _ I _ _ _ _ _ N B). split; [auto|]. split; [auto|]. eapply j_hnd; eauto.
Qed.
Lemma one_caller ops i j c d n h b h' b' :
  nth_error (q_callers (q_run 0 ops)) i = Some c -> nth_error (q_callers (q_run 0 ops)) j = Some d ->
  cr_state c = Done (Got (FromServer n h b)) -> cr_state d = Done (Got (FromServer n h' b')) -> i = j.
Proof.
  intros N1 N2 D1 D2. pose proof (J_run ops) as I.
  eapply (j_one _ _ I); eauto using j_got.
Qed.

Lemma delivered ops i c b : Z.of_nat (started ops) <= 2 ^ 32 - 1 -> closeb ops = false ->
  nth_error (q_callers (q_run 0 ops)) i = Some c -> outstanding c ->
  q_callers (q_run 0 (ops ++ [QResponse (cr_handle c) b])) =
    set_nth i (mkCaller (cr_handle c) (cr_state c) (Some (FromServer (List.length (arrivals ops)) (cr_handle c) b))) (q_callers (q_run 0 ops)).
Proof.
  intros L NC N U. pose proof (J_run ops) as I. unfold q_run. rewrite fold_left_app. fold (q_run 0 ops). cbn [fold_left q_step].
  rewrite (j_closed _ _ I), NC. unfold handle_response. cbv zeta.
  assert (Li : (i < started ops)%nat) by (rewrite <- (j_len _ _ I); now apply nth_lt in N).
  assert (X : look (cr_handle c) (map_pending (q_callers (q_run 0 ops)) (q_chan (q_run 0 ops)) (q_map (q_run 0 ops))) = Some i).
  { rewrite (j_hnd _ _ I _ _ N), <- (handle_kth _ _ _ I Li). apply map_pending_look.
    - intros j J1 EJ. rewrite (handle_kth _ _ _ I Li), (handle_kth _ _ _ I (j_chan _ _ I j J1)) in EJ. exact (kth_inj j i (started ops) (j_chan _ _ I j J1) Li L EJ).
    - rewrite (handle_kth _ _ _ I Li). eapply (j_out _ _ I); eauto. }
  rewrite X, N. destruct U as [_ U]. rewrite U. cbn [q_callers]. rewrite (j_seen _ _ I). reflexivity.
Qed.

(** A response nobody waits for changes no caller. *)
Lemma unknown ops h b :
  (forall i c, nth_error (q_callers (q_run 0 ops)) i = Some c -> cr_handle c = h -> cr_state c = Entering \/ exists o, cr_state c = Done o) ->
  forall i c, nth_error (q_callers (q_run 0 ops)) i = Some c ->
  exists c', nth_error (q_callers (q_run 0 (ops ++ [QResponse h b]))) i = Some c' /\
             cr_state c' = cr_state c /\ cr_handle c' = cr_handle c /\ (cr_handle c <> h -> c' = c).
Proof.
  intros U i c N. unfold q_run. rewrite fold_left_app. fold (q_run 0 ops). cbn [fold_left q_step].
  destruct (q_closed _); [eauto 6|]. unfold handle_response. cbv zeta.
  set (m := map_pending _ _ _). destruct (look h m) as [j|] eqn:EL; cbn [q_callers]; [|eauto 6].
  destruct (nth_error (q_callers (q_run 0 ops)) j) as [d|] eqn:ED; [|eauto 6].
  destruct (cr_buf d) eqn:EB; [eauto 6|].
  assert (Hd : cr_handle d = h).
  { pose proof (J_run ops) as I. pose proof (look_in _ _ _ EL) as IL.
    apply map_pending_in in IL as [IL|[IL E]].
    - apply (j_map _ _ I) in IL as [_ IL]. cbn in IL. rewrite IL. eapply j_hnd; eauto.
    - cbn in E. rewrite E. unfold handle_of. now rewrite ED. }
  destruct (Nat.eq_dec j i) as [->|NE].
  - rewrite (set_nth_eq _ _ _ _ ED). rewrite ED in N. injection N as ->. eexists. split; [reflexivity|]. cbn.
    split; [auto|]. split; [auto|]. intros X. congruence.
  - rewrite set_nth_neq by exact NE. exists c. auto.
Qed.

(** A call that has returned stays as it is. *)
Lemma done_step q o i c : nth_error (q_callers q) i = Some c -> (exists r, cr_state c = Done r) ->
  exists c', nth_error (q_callers (q_step q o)) i = Some c' /\ cr_state c' = cr_state c /\ cr_handle c' = cr_handle c.
Proof.
  intros N [r D].
  assert (SET : forall j d st bf, nth_error (q_callers q) j = Some d -> (forall r', cr_state d = Done r' -> st = Done r') ->
     exists c', nth_error (set_nth j (mkCaller (cr_handle d) st bf) (q_callers q)) i = Some c' /\ cr_state c' = cr_state c /\ cr_handle c' = cr_handle c).
  { intros j d st bf H1 H2. destruct (Nat.eq_dec j i) as [->|NE].
    - rewrite N in H1. injection H1 as <-. rewrite (set_nth_eq _ _ _ _ N). eexists. split; [reflexivity|]. cbn. split; [rewrite (H2 _ D); congruence|reflexivity].
    - rewrite set_nth_neq by exact NE. eauto. }
  destruct o as [|j|j ok|j|j|j|j|h b|]; cbn [q_step].
  - cbn. rewrite nth_error_app1 by now apply nth_lt in N. eauto.
  - destruct (nth_error (q_callers q) j) as [[h [] b]|] eqn:E; eauto. destruct (_ <? _)%nat; eauto.
    cbn. apply (SET j _ Sending b E). discriminate.
  - destruct (nth_error (q_callers q) j) as [[h [] b]|] eqn:E; eauto. cbn. apply (SET j _ _ b E). discriminate.
  - destruct (nth_error (q_callers q) j) as [[h [] b]|] eqn:E; eauto. cbn. apply (SET j _ _ _ E). discriminate.
  - destruct (nth_error (q_callers q) j) as [[h [] [b|]]|] eqn:E; eauto. cbn. apply (SET j _ _ _ E). discriminate.
  - destruct (nth_error (q_callers q) j) as [[h [] b]|] eqn:E; eauto. cbn. apply (SET j _ _ _ E). discriminate.
  - destruct (nth_error (q_callers q) j) as [[h [] b]|] eqn:E; eauto. destruct (q_closed q); eauto. cbn. apply (SET j _ _ _ E). discriminate.
  - destruct (q_closed q); eauto. unfold handle_response. cbv zeta. destruct (look _ _) as [j|]; eauto. cbn [q_callers].
    destruct (nth_error (q_callers q) j) as [d|] eqn:E; eauto. destruct (cr_buf d); eauto.
  - cbn. eauto.
Qed.
Lemma done_run q ops : forall i c, nth_error (q_callers q) i = Some c -> (exists r, cr_state c = Done r) ->
  exists c', nth_error (q_callers (fold_left q_step ops q)) i = Some c' /\ cr_state c' = cr_state c /\ cr_handle c' = cr_handle c.
Proof.
  revert q. induction ops as [|o ops IH]; intros q i c N D; cbn [fold_left]; [eauto|].
  destruct (done_step q o i c N D) as (c1 & N1 & S1 & H1).
  destruct (IH _ _ _ N1) as (c2 & N2 & S2 & H2); [rewrite S1; exact D|]. exists c2. split; [auto|]. split; congruence.
Qed.

(** A call can stay before the registration for ever. *)
Definition stuck (i : nat) (q : reqs) : Prop :=
  q_closed q = true /\ List.length (q_chan q) = chan_cap /\ exists h b, nth_error (q_callers q) i = Some (mkCaller h Entering b).
Lemma stuck_step i q o : stuck i q -> stuck i (q_step q o).
Proof.
  intros (C & L & h & b & N).
  assert (SET : forall j d st bf, nth_error (q_callers q) j = Some d -> cr_state d <> Entering ->
     stuck i (with_callers q (set_nth j (mkCaller (cr_handle d) st bf) (q_callers q)))).
  { intros j d st bf H1 H2. split; [auto|]. split; [auto|]. exists h, b. cbn. rewrite set_nth_neq; [exact N|].
    intros ->. rewrite N in H1. injection H1 as <-. apply H2. reflexivity. }
  assert (SAME : stuck i q) by (repeat split; eauto).
  destruct o as [|j|j ok|j|j|j|j|h' b'|]; cbn [q_step].
  - repeat split; cbn; auto. exists h, b. rewrite nth_error_app1 by now apply nth_lt in N. exact N.
  - destruct (nth_error (q_callers q) j) as [[h' [] b']|] eqn:E; auto. rewrite L. cbn. exact SAME.
  - destruct (nth_error (q_callers q) j) as [[h' [] b']|] eqn:E; auto. apply (SET j _ _ _ E). discriminate.
  - destruct (nth_error (q_callers q) j) as [[h' [] b']|] eqn:E; auto. apply (SET j _ _ _ E). discriminate.
  - destruct (nth_error (q_callers q) j) as [[h' [] [b'|]]|] eqn:E; auto. apply (SET j _ _ _ E). discriminate.
  - destruct (nth_error (q_callers q) j) as [[h' [] b']|] eqn:E; auto. apply (SET j _ _ _ E). discriminate.
  - destruct (nth_error (q_callers q) j) as [[h' [] b']|] eqn:E; auto. destruct (q_closed q); auto. apply (SET j _ _ _ E). discriminate.
  - rewrite C. exact SAME.
  - repeat split; cbn; eauto.
Qed.
Lemma stuck_run i ops : forall q, stuck i q -> stuck i (fold_left q_step ops q).
Proof. induction ops as [|o ops IH]; intros q S; cbn [fold_left]; auto using stuck_step. Qed.

(** Past the registration a call can always return. *)
Lemma can_return q i c : nth_error (q_callers q) i = Some c -> cr_state c = Sending \/ cr_state c = Waiting ->
  exists c', nth_error (q_callers (fold_left q_step [QSent i true; QTimeout i] q)) i = Some c' /\ cr_state c' = Done TimedOut.
Proof.
  destruct c as [h st b]. cbn [cr_state]. intros N [->| ->]; cbn [fold_left q_step]; rewrite N.
  - cbn [move with_callers q_callers]. rewrite (set_nth_eq _ _ _ _ N). cbn [cr_handle cr_buf move with_callers q_callers].
    eexists. split; [eapply set_nth_eq; eapply set_nth_eq; exact N|reflexivity].
  - rewrite N. cbn. eexists. split; [eapply set_nth_eq; exact N|reflexivity].
Qed.

(** Time to renew. *)
Lemma renew_before L : 0 < L < 2 ^ 32 -> 0 <= renew_offset L < L.
Proof.
  intros H. unfold renew_offset. pose proof (Z.mod_pos_bound (L * 75) 4294967296 ltac:(lia)) as B.
  pose proof (Z.mod_le (L * 75) 4294967296 ltac:(lia) ltac:(lia)) as M.
  split; [apply Z.div_pos; lia|]. apply Z.div_lt_upper_bound; lia.
Qed.
Lemma renew_exact L : 0 <= L <= 3600000 -> renew_offset L = L * 75 / 100.
Proof. intros H. unfold renew_offset. rewrite Z.mod_small by lia. reflexivity. Qed.

Lemma renewals_count n : forall due now, 60000 * (Z.of_nat n - 1) < now - due <= 60000 * Z.of_nat n \/ n = O /\ now <= due ->
  renewals (S n) due now = Some n.
Proof.
  induction n as [|n IH]; intros due now H.
  - cbn. destruct (now <=? due) eqn:E; [reflexivity|lia].
  - change (renewals (S (S n)) due now) with (if now <=? due then Some 0%nat else match renewals (S n) (due + 60000) now with Some k => Some (S k) | None => None end).
    destruct (now <=? due) eqn:E; [lia|]. rewrite IH; [reflexivity|].
    destruct n; [right|left]; lia.
Qed.

Lemma quarter L : 0 < L < 2 ^ 32 -> 4 * (L - renew_offset L) >= L.
Proof.
  intros H. unfold renew_offset. pose proof (Z.mod_le (L * 75) 4294967296 ltac:(lia) ltac:(lia)) as M.
  pose proof (Z.div_le_mono _ _ 100 ltac:(lia) M) as D.
  pose proof (Z.mul_div_le (L * 75) 100 ltac:(lia)). lia.
Qed.
Lemma busy_on_time gap l : 0 <= gap -> forall tm prev, prev <= tm_due tm -> tm_due tm + gap < tm_end tm -> busy gap prev l -> on_time tm l.
Proof.
  intros G. induction l as [|[now L] l IH]; intros tm prev P E B; cbn [busy on_time] in *; [exact I|].
  destruct B as (B1 & B2 & B3). split; [lia|].
  unfold request_at. destruct (now <=? tm_due tm) eqn:D.
  - apply (IH _ now); [lia|exact E|exact B3].
  - pose proof (quarter L ltac:(lia)). pose proof (renew_before L ltac:(lia)).
    apply (IH _ now); cbn [token_received tm_due tm_end]; [lia|lia|exact B3].
Qed.
Lemma opened_on_time gap l now0 L0 : 0 <= gap -> 4 * gap < L0 < 2 ^ 32 -> busy gap now0 l -> on_time (token_received now0 L0) l.
Proof.
  intros G HL B. pose proof (quarter L0 ltac:(lia)). pose proof (renew_before L0 ltac:(lia)).
  apply (busy_on_time gap l G _ now0); cbn [token_received tm_due tm_end]; [lia|lia|exact B].
Qed.
