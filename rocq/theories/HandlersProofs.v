(** Lemmas behind HandlersProperties.v: the finite-state analysis applied to the handler table. *)
From Coq Require Import ZArith List String Bool Lia.
From Verif Require Import Handlers HandlerTable HandlersAnalysis HandlersSpec.
Import ListNotations.
Open Scope Z_scope.

(** ** Any monitor over all handlers *)
Section Check.
Variable St : Type.
Variable eqS : St -> St -> bool.
Hypothesis eqS_eq : forall a b, eqS a b = true <-> a = b.
Variable step : St -> event -> St.
Variable s0 : St.
Variable ok : string -> St -> exit -> bool.

Definition check : bool :=
  forallb (fun r => match analyze St eqS step (snd r) s0 with
                    | Some l => forallb (fun o => ok (fst r) (fst o) (snd o)) l
                    | None => false
                    end) handlers.

Lemma check_sound : check = true -> forall service t x, handles service t x ->
  ok service (fold_left step t s0) x = true.
Proof.
  intros C service t x (p & IN & R). unfold check in C. rewrite forallb_forall in C.
  specialize (C _ IN). cbn [fst snd] in C.
  destruct (analyze St eqS step p s0) as [l|] eqn:A; [|discriminate].
  rewrite forallb_forall in C. specialize (C _ (analyze_sound _ _ eqS_eq _ _ _ _ A _ _ R)). exact C.
Qed.
End Check.

(** ** Counting up to two *)
Fixpoint nats_eqb (a b : list nat) : bool :=
  match a, b with
  | [], [] => true
  | x :: a, y :: b => Nat.eqb x y && nats_eqb a b
  | _, _ => false
  end.

Lemma nats_eqb_eq a : forall b, nats_eqb a b = true <-> a = b.
Proof.
  induction a as [|x a IH]; intros [|y b]; cbn; try (split; congruence).
  rewrite andb_true_iff, Nat.eqb_eq, IH. split; [intros [-> ->]; reflexivity|]. intros [= -> ->]. auto.
Qed.

Definition vstep (ps : list (event -> bool)) (v : list nat) (e : event) : list nat :=
  map (fun q : (event -> bool) * nat => if fst q e then Nat.min 2 (S (snd q)) else snd q) (combine ps v).

Definition caps (ps : list (event -> bool)) (t : list event) : list nat :=
  map (fun q : event -> bool => Nat.min 2 (count_if q t)) ps.

Lemma count_if_app q a b : count_if q (a ++ b) = (count_if q a + count_if q b)%nat.
Proof. unfold count_if. rewrite filter_app, app_length. reflexivity. Qed.

Lemma caps_snoc ps t e : vstep ps (caps ps t) e = caps ps (t ++ [e]).
Proof.
  unfold vstep, caps. induction ps as [|q ps IH]; [reflexivity|].
  cbn [map combine fst snd]. f_equal; [|exact IH].
  rewrite count_if_app. change (count_if q [e]) with (List.length (filter q [e])). cbn [filter]. destruct (q e); cbn [List.length]; lia.
Qed.

Lemma fold_caps ps t : fold_left (vstep ps) t (caps ps []) = caps ps t.
Proof.
  induction t as [|e t IH] using rev_ind; [reflexivity|].
  rewrite fold_left_app. cbn [fold_left]. rewrite IH. apply caps_snoc.
Qed.

Definition vcheck ps ok : bool := check (list nat) nats_eqb (vstep ps) (caps ps []) ok.

Lemma vcheck_sound ps ok : vcheck ps ok = true -> forall service t x, handles service t x ->
  ok service (caps ps t) x = true.
Proof.
  intros C service t x H. pose proof (check_sound _ _ nats_eqb_eq _ _ _ C _ _ _ H) as K.
  now rewrite fold_caps in K.
Qed.

Lemma cap0 n : Nat.min 2 n = 0%nat <-> n = 0%nat. Proof. lia. Qed.
Lemma cap1 n : Nat.min 2 n = 1%nat <-> n = 1%nat. Proof. lia. Qed.

Lemma exists_count q t : existsb q t = negb (Nat.min 2 (count_if q t) =? 0)%nat.
Proof.
  unfold count_if. induction t as [|e t IH]; [reflexivity|].
  cbn [existsb filter]. destruct (q e); [reflexivity|exact IH].
Qed.

Lemma count_in q t : (count_if q t = 0)%nat <-> forall e, In e t -> q e = false.
Proof.
  unfold count_if. induction t as [|e t IH]; cbn [filter]; [cbn; tauto|].
  destruct (q e) eqn:Q; cbn [List.length In].
  - split; [discriminate|]. intros H. rewrite (H e) in Q by auto. discriminate.
  - rewrite IH. split; [intros H e' [<-|I]; auto|]. intros H e' I. auto.
Qed.

(** ** One answer *)
Definition silent_services : list string := ["Publish"; "CreateSession"; "ActivateSession"]%string.
Definition isin (s : string) (l : list string) : bool := existsb (String.eqb s) l.

Lemma isin_in s l : isin s l = true <-> In s l.
Proof.
  unfold isin. rewrite existsb_exists. split; [intros (x & I & E); apply String.eqb_eq in E; congruence|].
  intros I. exists s. split; [assumption|apply String.eqb_refl].
Qed.

Definition ok_answer (s : string) (v : list nat) (x : exit) : bool :=
  match v, x with
  | [n], Return => (n =? 1)%nat
  | [n], Fail => (n =? 1)%nat || ((n =? 0)%nat && isin s silent_services)
  | _, _ => false
  end.

Lemma one_answer service t x : handles service t x ->
  (x = Return /\ count_if is_answer t = 1%nat) \/
  (x = Fail /\ count_if is_answer t = 1%nat) \/
  (x = Fail /\ count_if is_answer t = 0%nat /\ In service silent_services).
Proof.
  intros H. assert (C : vcheck [is_answer] ok_answer = true) by (vm_compute; reflexivity).
  pose proof (vcheck_sound _ _ C _ _ _ H) as K. clear C. cbn [caps map ok_answer] in K.
  destruct x; try discriminate.
  - apply Nat.eqb_eq in K. left. split; [reflexivity|lia].
  - apply orb_true_iff in K as [K|K].
    + apply Nat.eqb_eq in K. right; left. split; [reflexivity|lia].
    + apply andb_true_iff in K as [K L]. apply Nat.eqb_eq in K. apply isin_in in L.
      right; right. split; [reflexivity|]. split; [lia|assumption].
Qed.

(** ** The answer fits *)
Lemma fits service t x e : handles service t x -> In e t -> answer_fits service e = true.
Proof.
  intros H I.
  assert (C : forallb (fun r => match analyze (list nat) nats_eqb (vstep [fun e => negb (answer_fits (fst r) e)]) (snd r) [0%nat] with
            | Some l => forallb (fun o => nats_eqb (fst o) [0%nat]) l | None => false end) handlers = true)
    by (vm_compute; reflexivity).
  destruct H as (p & IN & R). rewrite forallb_forall in C. specialize (C _ IN). cbn [fst snd] in C.
  destruct (analyze _ _ _ p _) as [l|] eqn:A; [|discriminate C].
  rewrite forallb_forall in C. specialize (C _ (analyze_sound _ _ nats_eqb_eq _ _ _ _ A _ _ R)).
  cbn [fst] in C. apply nats_eqb_eq in C.
  change [0%nat] with (caps [fun e => negb (answer_fits service e)] []) in C.
  rewrite fold_caps in C. cbn [caps map] in C.
  assert (K : count_if (fun e => negb (answer_fits service e)) t = 0%nat) by (apply cap0; apply (f_equal (fun l => List.hd O l)) in C; exact C).
  rewrite count_in in K. clear C. rename K into C. specialize (C e I). now apply negb_false_iff in C.
Qed.

(** ** What comes with a fault *)
Definition event_eqb (a b : event) : bool :=
  match a, b with
  | Did (Inc x), Did (Inc y) => String.eqb x y
  | Did (Send o x y), Did (Send o' x' y') => Bool.eqb o o' && String.eqb x x' && String.eqb y y'
  | Did (Abort x), Did (Abort y) => String.eqb x y
  | Did Queue, Did Queue => true
  | Did (Act x), Did (Act y) => String.eqb x y
  | Cond c v, Cond c' v' => String.eqb c c' && Bool.eqb v v'
  | _, _ => false
  end.

Lemma event_eqb_eq a b : event_eqb a b = true <-> a = b.
Proof.
  destruct a as [[]|], b as [[]|]; cbn; try (split; congruence);
    rewrite ?andb_true_iff, ?String.eqb_eq, ?eqb_true_iff; intuition congruence.
Qed.

Fixpoint events_eqb (a b : list event) : bool :=
  match a, b with
  | [], [] => true
  | x :: a, y :: b => event_eqb x y && events_eqb a b
  | _, _ => false
  end.

Lemma events_eqb_eq a : forall b, events_eqb a b = true <-> a = b.
Proof.
  induction a as [|x a IH]; intros [|y b]; cbn; try (split; congruence).
  rewrite andb_true_iff, event_eqb_eq, IH. split; [intros [-> ->]; reflexivity|]. intros [= -> ->]. auto.
Qed.

(** The set of events of a kind in a run, in the order they first occur *)
Definition collect (q : event -> bool) (l : list event) (e : event) : list event :=
  if q e && negb (existsb (event_eqb e) l) then l ++ [e] else l.

Lemma collect_in q t : forall l e, In e (fold_left (collect q) t l) <-> In e l \/ (In e t /\ q e = true).
Proof.
  induction t as [|a t IH]; intros l e; cbn [fold_left In]; [tauto|].
  rewrite IH. unfold collect. destruct (q a) eqn:Q; cbn [andb].
  - destruct (existsb (event_eqb a) l) eqn:X; cbn [negb].
    + apply existsb_exists in X as (b & I & E). apply event_eqb_eq in E. subst b.
      split; [tauto|]. intros [?|[[<-|?] ?]]; tauto.
    + rewrite in_app_iff. cbn [In]. split; [|intros [?|[[<-|?] ?]]; tauto].
      intros [[?|[<-|[]]]|?]; tauto.
  - split; [tauto|]. intros [?|[[<-|?] ?]]; [tauto|congruence|tauto].
Qed.

Definition acts_faults (e : event) : bool :=
  match e with Did (Act _) => true | _ => is_fault e end.

Definition ok_faults (s : string) (l : list event) (x : exit) : bool :=
  forallb (fun f => match f with
    | Did (Send true m c) =>
        forallb (fun a => match a with
                          | Did (Act a) => goes_with_fault a c ||
                               (String.eqb s "Publish" && String.eqb a "sub.acknowledge" && String.eqb c "BadNoSubscription")
                          | _ => true end) l
    | _ => true
    end) l.

Lemma fault_alone service t x a c : handles service t x ->
  In (Did (Send true "ServiceFault" c)) t -> In (Did (Act a)) t ->
  goes_with_fault a c = true \/ (service = "Publish" /\ a = "sub.acknowledge" /\ c = "BadNoSubscription")%string.
Proof.
  intros H F A.
  assert (C : check (list event) events_eqb (collect acts_faults) [] ok_faults = true) by (vm_compute; reflexivity).
  pose proof (check_sound _ _ events_eqb_eq _ _ _ C _ _ _ H) as K. clear C.
  unfold ok_faults in K. rewrite forallb_forall in K.
  assert (F' : In (Did (Send true "ServiceFault" c)) (fold_left (collect acts_faults) t []))
    by (apply collect_in; right; split; [exact F|reflexivity]).
  assert (A' : In (Did (Act a)) (fold_left (collect acts_faults) t []))
    by (apply collect_in; right; split; [exact A|reflexivity]).
  specialize (K _ F'). cbn beta iota in K. rewrite forallb_forall in K. specialize (K _ A'). cbn beta iota in K.
  apply orb_true_iff in K as [K|K]; [left; exact K|right].
  apply andb_true_iff in K as [K K3]. apply andb_true_iff in K as [K1 K2].
  rewrite String.eqb_eq in K1, K2, K3. auto.
Qed.

(** ** The answer comes after the effects *)
Definition late_services : list string := ["Republish"; "DeleteSubscriptions"]%string.

Definition order_step (s : bool * bool) (e : event) : bool * bool :=
  (fst s || is_answer e, snd s || (fst s && did_something e)).

Definition bb_eqb (a b : bool * bool) : bool := Bool.eqb (fst a) (fst b) && Bool.eqb (snd a) (snd b).
Lemma bb_eqb_eq a b : bb_eqb a b = true <-> a = b.
Proof. destruct a as [[] []], b as [[] []]; cbn; split; congruence. Qed.

Lemma order_fst t : forall s, fst (fold_left order_step t s) = fst s || existsb is_answer t.
Proof.
  induction t as [|e t IH]; intros s; cbn [fold_left existsb]; [now rewrite orb_false_r|].
  rewrite IH. cbn [order_step fst]. now rewrite orb_assoc.
Qed.

Lemma order_snd t : forall s, snd (fold_left order_step t s) = false ->
  snd s = false /\ forall pre e post, t = pre ++ e :: post -> fst s || existsb is_answer pre = true -> did_something e = false.
Proof.
  induction t as [|a t IH]; intros s H.
  - split; [exact H|]. intros [|p0 l0] e post E; discriminate.
  - cbn [fold_left] in H. destruct (IH _ H) as [A B]. cbn [order_step fst snd] in A, B.
    apply orb_false_iff in A as [A A']. split; [exact A|].
    intros [|p pre] e post E; cbn [app] in E; injection E as E1 E2; subst.
    + cbn [existsb]. rewrite orb_false_r. intros F. rewrite F in A'. exact A'.
    + cbn [existsb]. intros F. apply (B pre e post eq_refl). now rewrite <- orb_assoc.
Qed.

Lemma answer_last service pre e post x : handles service (pre ++ e :: post) x ->
  existsb is_answer pre = true -> did_something e = true -> In service late_services.
Proof.
  intros H P D.
  assert (C : check (bool * bool) bb_eqb order_step (false, false)
                (fun s st _ => negb (snd st) || isin s late_services) = true) by (vm_compute; reflexivity).
  pose proof (check_sound _ _ bb_eqb_eq _ _ _ C _ _ _ H) as K. clear C. cbn beta in K.
  apply orb_true_iff in K as [K|K]; [|now apply isin_in].
  apply negb_true_iff in K. destruct (order_snd _ _ K) as [_ B].
  rewrite (B _ _ _ eq_refl P) in D. discriminate D.
Qed.

(** ** The checks come first *)
Definition gate_state : Type := list event * bool.
Definition gate_eqb (a b : gate_state) : bool := events_eqb (fst a) (fst b) && Bool.eqb (snd a) (snd b).
Lemma gate_eqb_eq a b : gate_eqb a b = true <-> a = b.
Proof.
  destruct a as [l b1], b as [m b2]. unfold gate_eqb. cbn [fst snd].
  rewrite andb_true_iff, events_eqb_eq, eqb_true_iff. split; [intros [-> ->]; reflexivity|]. intros [= -> ->]. auto.
Qed.

Definition gate_bad (l : list event) (e : event) : bool :=
  needs_checks e && negb (events_eqb l checks_passed || (is_delete_session e && events_eqb l not_activated)).

Definition gate_step (s : gate_state) (e : event) : gate_state :=
  (if is_check e && (List.length (fst s) <? 6)%nat then fst s ++ [e] else fst s, snd s || gate_bad (fst s) e).

Lemma firstn_snoc {A} n (l : list A) a : (List.length l < n)%nat -> firstn n (l ++ [a]) = l ++ [a].
Proof. intros L. apply firstn_all2. rewrite app_length. cbn. lia. Qed.

Lemma gate_fst t : fst (fold_left gate_step t ([], false)) = firstn 6 (filter is_check t).
Proof.
  induction t as [|e t IH] using rev_ind; [reflexivity|].
  rewrite fold_left_app, filter_app. cbn [fold_left gate_step fst]. rewrite IH. cbn [filter].
  destruct (is_check e); cbn [andb]; [|now rewrite app_nil_r].
  rewrite firstn_length. destruct (Nat.min 6 (List.length (filter is_check t)) <? 6)%nat eqn:L.
  - apply Nat.ltb_lt in L. rewrite (firstn_all2 (n := 6) (filter is_check t)) by lia.
    rewrite firstn_snoc by lia. reflexivity.
  - apply Nat.ltb_ge in L. rewrite firstn_app. replace (6 - List.length (filter is_check t))%nat with 0%nat by lia.
    cbn [firstn]. now rewrite app_nil_r.
Qed.

Lemma gate_sticky t : forall s, snd (fold_left gate_step t s) = false -> snd s = false.
Proof.
  induction t as [|e t IH]; intros s H; [exact H|]. cbn [fold_left] in H. apply IH in H.
  cbn [gate_step snd] in H. now apply orb_false_iff in H as [H _].
Qed.

Lemma gate_all pre e post : snd (fold_left gate_step (pre ++ e :: post) ([], false)) = false ->
  gate_bad (firstn 6 (filter is_check pre)) e = false.
Proof.
  rewrite fold_left_app. cbn [fold_left]. intros H. apply gate_sticky in H.
  cbn [gate_step snd] in H. apply orb_false_iff in H as [_ H]. now rewrite gate_fst in H.
Qed.

Lemma checks_first service pre e post x : handles service (pre ++ e :: post) x -> ~ In service open_services ->
  needs_checks e = true ->
  firstn 6 (filter is_check pre) = checks_passed \/
  (is_delete_session e = true /\ firstn 6 (filter is_check pre) = not_activated).
Proof.
  intros H O N.
  assert (C : check gate_state gate_eqb gate_step ([], false)
                (fun s st _ => isin s open_services || negb (snd st)) = true) by (vm_compute; reflexivity).
  pose proof (check_sound _ _ gate_eqb_eq _ _ _ C _ _ _ H) as K. clear C. cbn beta in K.
  apply orb_true_iff in K as [K|K]; [apply isin_in in K; contradiction|].
  apply negb_true_iff in K. apply gate_all in K. unfold gate_bad in K. rewrite N in K. cbn [andb] in K.
  apply negb_false_iff, orb_true_iff in K as [K|K].
  - left. now apply events_eqb_eq.
  - right. apply andb_true_iff in K as [K1 K2]. split; [exact K1|]. now apply events_eqb_eq.
Qed.
