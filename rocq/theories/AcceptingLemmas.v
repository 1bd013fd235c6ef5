(** Accepting connections: proofs, and cases that meet the hypotheses *)
From Coq Require Import ZArith List Bool Lia.
From Verif Require Import Accepting AcceptingSpec.
Import ListNotations.
Open Scope Z_scope.

Lemma serve_app a : Forall goes_on a -> forall d b, exists d' acts, (forall x, serve d (a ++ x) = (acts ++ fst (serve d' x), snd (serve d' x))) /\ handled acts = came a /\
  (a = [] -> d' = d) /\ (forall c s l, a = l ++ [mkTurn (Conn c) s] -> d' = 0) /\ serve d (a ++ b) = (acts ++ fst (serve d' b), snd (serve d' b)).
Proof.
  induction 1 as [|t a G F IH]; intros d b.
  - exists d, []. assert (E : forall x, serve d ([] ++ x) = ([] ++ fst (serve d x), snd (serve d x))) by (intros x; cbn [app]; now destruct (serve d x)).
    split; [exact E|]. split; [reflexivity|]. split; [reflexivity|]. split; [intros c s l H; destruct l; discriminate|apply E].
  - destruct t as [res run]. destruct G as [[c E]|[E R]]; cbn [t_result t_running] in *; subst.
    + destruct (IH 0 b) as (d' & acts & A & H & N & L & _). exists d', (Handle c :: acts).
      assert (E : forall x, serve d ((mkTurn (Conn c) run :: a) ++ x) = ((Handle c :: acts) ++ fst (serve d' x), snd (serve d' x))).
      { intros x. cbn [app serve t_result]. rewrite A. reflexivity. }
      split; [exact E|]. split; [cbn [handled flat_map came t_result app]; f_equal; exact H|]. split; [discriminate|]. split; [|apply E].
      intros c0 s l X. destruct l as [|y l]; [injection X as _ _ ->; now apply N|]. injection X as _ X. now apply (L c0 s l).
    + destruct (IH (next_delay d) b) as (d' & acts & A & H & N & L & _). exists d', (Sleep (next_delay d) :: acts).
      assert (E : forall x, serve d ((mkTurn (Failed true) true :: a) ++ x) = ((Sleep (next_delay d) :: acts) ++ fst (serve d' x), snd (serve d' x))).
      { intros x. cbn [app serve t_result t_running negb]. cbv zeta. rewrite A. reflexivity. }
      split; [exact E|]. split; [exact H|]. split; [discriminate|]. split; [|apply E].
      intros c0 s l X. destruct l as [|y l]; [discriminate|]. injection X as _ X. now apply (L c0 s l).
Qed.
Lemma served ts : Forall goes_on ts -> snd (serve 0 ts) = Waiting /\ handled (fst (serve 0 ts)) = came ts.
Proof.
  intros F. destruct (serve_app ts F 0 []) as (d & acts & _ & H & _ & _ & E). rewrite app_nil_r in E. rewrite E. cbn [serve fst snd]. rewrite app_nil_r. auto.
Qed.
Lemma closed a timeout r : Forall goes_on a ->
  snd (serve 0 (a ++ mkTurn (Failed timeout) false :: r)) = Returned halted /\ handled (fst (serve 0 (a ++ mkTurn (Failed timeout) false :: r))) = came a.
Proof.
  intros F. destruct (serve_app a F 0 (mkTurn (Failed timeout) false :: r)) as (d & acts & _ & H & _ & _ & E). rewrite E. cbn [serve t_result t_running negb fst snd]. rewrite app_nil_r. auto.
Qed.
Lemma only_then ts : snd (serve 0 ts) = Waiting -> Forall goes_on ts.
Proof.
  generalize 0. induction ts as [|[res run] ts IH]; intros d W; [constructor|]. cbn [serve t_result t_running] in W. destruct res as [c|timeout].
  - destruct (serve 0 ts) as [a e] eqn:E. constructor; [left; now exists c|]. apply (IH 0). rewrite E. exact W.
  - destruct run; [|discriminate]. destruct timeout; [|discriminate]. cbn [negb] in W. cbv zeta in W. destruct (serve (next_delay d) ts) as [a e] eqn:E.
    constructor; [right; now split|]. apply (IH (next_delay d)). rewrite E. exact W.
Qed.
Lemma pause_range k : 5 <= pause k <= 1000.
Proof. unfold pause. assert (1 <= 2 ^ Z.of_nat k) by (assert (0 < 2 ^ Z.of_nat k) by (apply Z.pow_pos_nonneg; lia); lia). lia. Qed.
Lemma pause_next k : next_delay (pause k) = pause (S k).
Proof.
  pose proof (pause_range k). unfold next_delay. replace (pause k =? 0) with false by lia. cbv zeta. unfold pause in *.
  replace (2 ^ Z.of_nat (S k)) with (2 * 2 ^ Z.of_nat k) by (rewrite Nat2Z.inj_succ, Z.pow_succ_r by lia; reflexivity).
  destruct (1000 <? Z.min (5 * 2 ^ Z.of_nat k) 1000 * 2) eqn:E; lia.
Qed.
Lemma pauses k : forall j, serve (pause j) (repeat no_connection k) = (map (fun i => Sleep (pause i)) (seq (S j) k), Waiting).
Proof.
  induction k as [|k IH]; intros j; [reflexivity|]. cbn [repeat serve no_connection t_result t_running negb]. cbv zeta. rewrite pause_next. fold no_connection. rewrite IH. reflexivity.
Qed.
Lemma pauses_new k : serve 0 (repeat no_connection k) = (map (fun i => Sleep (pause i)) (seq 0 k), Waiting).
Proof.
  destruct k as [|k]; [reflexivity|]. cbn [repeat serve no_connection t_result t_running negb]. cbv zeta. change (next_delay 0) with (pause 0). fold no_connection. rewrite pauses. reflexivity.
Qed.
Lemma backoff a c s k : Forall goes_on a ->
  serve 0 (a ++ mkTurn (Conn c) s :: repeat no_connection k) = (fst (serve 0 (a ++ [mkTurn (Conn c) s])) ++ map (fun i => Sleep (pause i)) (seq 0 k), Waiting).
Proof.
  intros F. assert (F' : Forall goes_on (a ++ [mkTurn (Conn c) s])) by (apply Forall_app; split; [exact F|]; apply Forall_cons; [left; now exists c|apply Forall_nil]).
  destruct (serve_app _ F' 0 []) as (d & acts & A & _ & _ & L & E). rewrite (L c s a eq_refl) in *. rewrite app_nil_r in E. rewrite E.
  specialize (A (repeat no_connection k)). rewrite <- app_assoc in A. cbn [app] in A. rewrite A, pauses_new. cbn [serve fst snd]. now rewrite app_nil_r.
Qed.
(** * What is wrong *)
Lemma gives_up a r : Forall goes_on a -> let ts := a ++ mkTurn (Failed false) true :: r in
  exists l, listen_and_serve 7 ts = (0, l, Returned internal) /\ handled l = came a /\ forall later, listen_and_serve 0 later = (0, [], Returned 0x80020000).
Proof.
  intros F. cbv zeta. destruct (serve_app a F 0 (mkTurn (Failed false) true :: r)) as (d & acts & _ & H & _ & _ & E). exists acts. unfold listen_and_serve at 1.
  rewrite E. cbn [serve t_result t_running negb fst snd Z.eqb Pos.eqb]. rewrite app_nil_r. split; [reflexivity|]. split; [exact H|reflexivity].
Qed.
Lemma no_limit cs : serve 0 (map (fun c => mkTurn (Conn c) true) cs) = (map Handle cs, Waiting).
Proof. induction cs as [|c cs IH]; [reflexivity|]. cbn [map serve t_result]. now rewrite IH. Qed.
Example going : Forall goes_on [mkTurn (Conn 1) true; no_connection; no_connection; mkTurn (Conn 2) true].
Proof. repeat (apply Forall_cons; [first [left; eexists; reflexivity|right; split; reflexivity]|]). apply Forall_nil. Qed.
Example going_on : serve 0 [mkTurn (Conn 1) true; no_connection; no_connection; mkTurn (Conn 2) true; no_connection; mkTurn (Failed true) false] =
  ([Handle 1; Sleep 5; Sleep 10; Handle 2; Sleep 5], Returned halted).
Proof. reflexivity. Qed.
