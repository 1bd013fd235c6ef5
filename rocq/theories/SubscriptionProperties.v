(** C41-C47, C75, C76: subscriptions.  Property theorems only. *)
From Coq Require Import ZArith List Bool.
From Verif Require Import Bytes Float SubParams MonQueue Subscription SubscriptionSpec SubscriptionProofs SubDeliveryProofs
  SubLifeProofs SubRenewProofs SubServer SubServerSpec SubServerProofs SubscriptionLemmas Locks LocksSpec LocksProofs.
Import ListNotations.
Open Scope Z_scope.

(** * C41 *)
(** [f_int n] is the number n.  Missing: the keep-alive period and the lifetime may exceed the
    maxima of 60 s and 1 h by less than one publishing interval and one millisecond. *)
Theorem c41_bounds_partial : forall p k l, 0 <= k < 2 ^ 32 -> 0 <= l < 2 ^ 32 ->
  exists z, set_interval p = FFin z /\ f_int 125 <= z <= f_int 60000 /\
    let k' := set_keepalive (FFin z) k in let l' := set_lifetime (FFin z) k' l in
    1 <= k' /\ k' * z < f_int 60001 + z /\ 3 * k' <= l' < 2 ^ 32 /\ f_int 9999 < l' * z < f_int 3600001 + z.
Proof. exact params_bounded. Qed.
Print Assumptions c41_bounds_partial.
Theorem c41_kept : forall z k l, f_int 125 <= z <= f_int 60000 -> 1 <= k < 2 ^ 32 -> k * z <= f_int 60000 ->
  3 * k <= l < 2 ^ 32 -> f_int 10000 <= l * z <= f_int 3600000 ->
  set_interval (FFin z) = FFin z /\ set_keepalive (FFin z) k = k /\ set_lifetime (FFin z) k l = l.
Proof. exact params_kept. Qed.
Print Assumptions c41_kept.
(** 9 * 7 s = 63 s and 515 * 7 s = 3605 s *)
Theorem c41_period_refuted :
  set_interval (FFin (f_int 7000)) = FFin (f_int 7000) /\
  set_keepalive (FFin (f_int 7000)) 100 = 9 /\ set_lifetime (FFin (f_int 7000)) 9 1000 = 515.
Proof. exact period_witness. Qed.
Print Assumptions c41_period_refuted.

(** * C42 *)
Theorem c42_consecutive : forall A enabled notif keep life (ops : list (sbop A)),
  let log := snd (sb_run (sub_init enabled notif keep life) ops) in numbers log = count_up (length (numbers log)).
Proof. exact (@numbers_consecutive). Qed.
Print Assumptions c42_consecutive.
(** A keep-alive carries the number of the next message. *)
Theorem c42_keepalive : forall A enabled notif keep life (ops : list (sbop A)) l1 x avail l2,
  snd (sb_run (sub_init enabled notif keep life) ops) = l1 ++ EvKeepAlive x avail :: l2 ->
  x = u32 (1 + Z.of_nat (length (numbers l2))).
Proof. exact (@keepalive_next). Qed.
Print Assumptions c42_keepalive.
(** Missing: histories in which a response could not be written, and four billion messages. *)
Theorem c42_distinct_partial : forall A enabled notif keep life (ops : list (sbop A)),
  let x := sb_run (sub_init enabled notif keep life) ops in
  all_sent (snd x) -> Z.of_nat (length (numbers (snd x))) < 2 ^ 32 -> NoDup (map fst (sb_retrans (fst x))).
Proof. exact (@retrans_nodup). Qed.
Print Assumptions c42_distinct_partial.
Theorem c42_zero_refuted : exists ops : list (sbop Z),
  let log := snd (sb_run (sub_init true 10 3 9) ops) in all_sent log /\ In 0 (numbers log).
Proof. exact wraps. Qed.
Print Assumptions c42_zero_refuted.
Theorem c42_duplicate_refuted : exists ops : list (sbop Z),
  map fst (sb_retrans (fst (sb_run (sub_init true 10 3 9) ops))) = [1; 1].
Proof. exists lost_ops. exact (proj1 lost_run). Qed.
Print Assumptions c42_duplicate_refuted.

(** * C43 *)
Theorem c43_kept : forall A (s : sub A) o ops m avail more, snd (sb_step s o) = EvData m avail more ->
  let s1 := fst (sb_step s o) in
  sb_alive (fst (sb_run s1 ops)) = true -> (forall o', In o' ops -> ~ names (fst m) o') ->
  (length (messages (snd (sb_run s1 ops))) <= 127)%nat -> In m (sb_retrans (fst (sb_run s1 ops))).
Proof. exact (@kept). Qed.
Print Assumptions c43_kept.
Theorem c43_only_built : forall A enabled notif keep life (ops : list (sbop A)) m,
  In m (sb_retrans (fst (sb_run (sub_init enabled notif keep life) ops))) ->
  In m (messages (snd (sb_run (sub_init enabled notif keep life) ops))).
Proof. exact (@only_built). Qed.
Print Assumptions c43_only_built.
Theorem c43_bounded : forall A enabled notif keep life (ops : list (sbop A)),
  (length (sb_retrans (fst (sb_run (sub_init enabled notif keep life) ops))) <= 128)%nat.
Proof. exact (@retrans_length). Qed.
Print Assumptions c43_bounded.
Theorem c43_acknowledge : forall A (s : sub A) n, sb_alive s = true ->
  In n (map fst (sb_retrans s)) /\ snd (sb_step s (SAck n)) = EvAck true /\
    (exists a m b, fst m = n /\ ~ In n (map fst a) /\ sb_retrans s = a ++ m :: b /\
       sb_retrans (fst (sb_step s (SAck n))) = a ++ b) \/
  ~ In n (map fst (sb_retrans s)) /\ sb_step s (SAck n) = (s, EvAck false).
Proof. exact (@ack_exact). Qed.
Print Assumptions c43_acknowledge.
Theorem c43_republish : forall A (s : sub A) n, sb_alive s = true ->
  (exists m, In m (sb_retrans s) /\ fst m = n /\ snd (sb_step s (SRepublish n true)) = EvRepublished m) \/
  ~ In n (map fst (sb_retrans s)) /\ snd (sb_step s (SRepublish n true)) = EvNotAvailable.
Proof. exact (@republish_exact). Qed.
Print Assumptions c43_republish.
Theorem c43_available : forall A (s : sub A) o avail n, advertised (snd (sb_step s o)) = Some avail ->
  sb_alive (fst (sb_step s o)) = true ->
  (In n avail <-> exists m, fst m = n /\ snd (sb_step (fst (sb_step s o)) (SRepublish n true)) = EvRepublished m).
Proof. exact (@avail_exact). Qed.
Print Assumptions c43_available.
(** Republishing takes the message out of the queue although nobody acknowledged it. *)
Theorem c43_republish_refuted : forall A (s : sub A) n m, snd (sb_step s (SRepublish n true)) = EvRepublished m ->
  NoDup (map fst (sb_retrans s)) -> snd (sb_step (fst (sb_step s (SRepublish n true))) (SRepublish n true)) = EvNotAvailable.
Proof. exact (@republish_twice). Qed.
Print Assumptions c43_republish_refuted.
Example c43_ex : let s := fst (sb_run (sub_init true 2 3 9) (firstn 6 good_ops)) in
  snd (sb_step s (STick [2; 1] (Req true))) = EvData (1, [(2, 20); (1, 10)]) [1] true /\ covers [2; 1] s /\ has_waiting s /\
  sb_alive s = true.
Proof. exact kept_run. Qed.
Example c43_ex_once : exists ops : list (sbop Z), let s := fst (sb_run (sub_init true 10 3 9) ops) in
  exists m, snd (sb_step s (SRepublish 1 true)) = EvRepublished m /\
    snd (sb_step (fst (sb_step s (SRepublish 1 true))) (SRepublish 1 true)) = EvNotAvailable.
Proof. exact republish_once. Qed.

(** * C44 *)
(** Nothing is delivered twice, out of order or unasked for. *)
Theorem c44_no_more : forall A id enabled notif keep life (ops : list (sbop A)),
  let x := sb_run (sub_init enabled notif keep life) ops in
  subseq (sent id (snd x) ++ waiting id (fst x)) (queued id ops).
Proof. exact (@sent_subseq). Qed.
Print Assumptions c44_no_more.
(** Missing: responses that cannot be written. *)
Theorem c44_exactly_partial : forall A id enabled notif keep life (ops : list (sbop A)),
  let x := sb_run (sub_init enabled notif keep life) ops in
  undisturbed id (sub_init enabled notif keep life) ops -> all_sent (snd x) ->
  sent id (snd x) ++ waiting id (fst x) = queued id ops.
Proof. exact (@in_order). Qed.
Print Assumptions c44_exactly_partial.
Theorem c44_limit : forall A (s : sub A) o m avail more ord,
  snd (sb_step s o) = EvData m avail more -> publishes o = Some ord -> covers ord s ->
  (length (snd m) <= Z.to_nat (sb_max_notif s))%nat /\
  (more = true <-> has_waiting (fst (sb_step s o))) /\
  (more = true -> length (snd m) = Z.to_nat (sb_max_notif s)).
Proof. exact (@limit_exact). Qed.
Print Assumptions c44_limit.
Theorem c44_progress : forall A (s : sub A) ord, sb_alive s = true -> sb_enabled s = true -> 1 <= sb_max_notif s -> covers ord s ->
  (exists id i, In i (sb_items s) /\ find_item (sb_items s) id = Some i /\ it_mode i <> MDisabled /\
     (it_mode i = MReporting \/ it_triggered i = true) /\ it_queue i <> []) ->
  exists m avail more, snd (sb_step s (STick ord (Req true))) = EvData m avail more /\ snd m <> [].
Proof. exact (@progress). Qed.
Print Assumptions c44_progress.
(** A response that cannot be written takes its notifications with it. *)
Theorem c44_lost_refuted : exists ops : list (sbop Z), let x := sb_run (sub_init true 10 3 9) ops in
  undisturbed 1 (sub_init true 10 3 9) ops /\ numbers (snd x) = [1] /\
  queued 1 ops = [10; 20] /\ received 1 (snd x) = [20] /\ waiting 1 (fst x) = [].
Proof. exists lost_ops. exact (let '(conj _ (conj b (conj c d))) := lost_run in conj c (conj b d)). Qed.
Print Assumptions c44_lost_refuted.
Example c44_ex : let x := sb_run (sub_init true 2 3 9) good_ops in
  all_sent (snd x) /\ undisturbed 1 (sub_init true 2 3 9) good_ops /\
  rev (snd x) = [EvQuiet; EvQuiet; EvQuiet; EvQuiet; EvQuiet; EvQuiet;
    EvData (1, [(2, 20); (1, 10)]) [1] true; EvAck true; EvData (2, [(1, 11); (1, 12)]) [2] false; EvQuiet; EvRepublished (2, [(1, 11); (1, 12)])].
Proof. exact good_run. Qed.

(** * C45 *)
Theorem c45_never_expires : forall A enabled notif keep life (ops : list (sbop A)), 1 <= keep < 2 ^ 32 ->
  Forall served ops -> Forall proper ops ->
  let x := sb_run (sub_init enabled notif keep life) ops in
  sb_alive (fst x) = true /\ (forall n, ~ In (EvStatusChange n) (snd x)).
Proof. exact (@never_expires). Qed.
Print Assumptions c45_never_expires.
Theorem c45_message_within : forall A enabled notif keep life (ops1 ops2 : list (sbop A)), 1 <= keep < 2 ^ 32 ->
  Forall served ops1 -> Forall proper ops1 -> Forall served ops2 -> Forall not_modify ops2 ->
  let s1 := fst (sb_run (sub_init enabled notif keep life) ops1) in
  sb_max_keep s1 <= Z.of_nat (ticks ops2) -> exists e, In e (snd (sb_run s1 ops2)) /\ is_message e = true.
Proof. exact (@message_within). Qed.
Print Assumptions c45_message_within.
(** Every message sent gives the subscription its whole lifetime again. *)
Theorem c45_renewed : forall A (s : sub A) o ops, is_message (snd (sb_step s o)) = true -> Forall not_modify ops ->
  Z.of_nat (ticks ops) < sb_max_life s -> sb_max_life s <= 2 ^ 32 ->
  forall n, ~ In (EvStatusChange n) (snd (sb_run (fst (sb_step s o)) ops)).
Proof. exact (@renewed). Qed.
Print Assumptions c45_renewed.
Example c45_renewed_ex : let s := fst (sb_run (sub_init (A := Z) true 10 1 5) (repeat (STick [] NoReq) 4)) in
  snd (sb_step s (STick [] (Req true))) = EvKeepAlive 1 [] /\
  snd (sb_run (fst (sb_step s (STick [] (Req true)))) (repeat (STick [] NoReq) 4)) = [EvQuiet; EvQuiet; EvQuiet; EvQuiet].
Proof. vm_compute. split; reflexivity. Qed.
(** Missing: the exact count. *)
Theorem c45_expires_partial : forall A enabled notif keep life (ops1 ops2 : list (sbop A)), 1 <= keep -> 1 <= life ->
  keep + life < 2 ^ 32 -> Forall served ops1 -> Forall not_modify ops1 -> Forall starved ops2 ->
  let s2 := fst (sb_run (sub_init enabled notif keep life) (ops1 ++ ops2)) in
  (Z.of_nat (ticks ops2) < life -> sb_alive s2 = true) /\
  (keep - 1 + life <= Z.of_nat (ticks ops2) -> sb_alive s2 = false).
Proof. exact (@expires_between). Qed.
Print Assumptions c45_expires_partial.
(** An idle subscription counts only after the keep-alive count has run out as well. *)
Theorem c45_count_refuted : forall keep life, 2 <= keep -> 1 <= life -> keep + life < 2 ^ 32 ->
  exists ops1 ops2 : list (sbop Z), Forall served ops1 /\ Forall starved ops2 /\ Z.of_nat (ticks ops2) = life /\
    sb_alive (fst (sb_run (sub_init true 10 keep life) (ops1 ++ ops2))) = true.
Proof. exact late_expiry. Qed.
Print Assumptions c45_count_refuted.
Example c45_ex : let s := sub_init (A := Z) true 10 3 9 in
  Forall served [STick [] (Req true); SAddItem (A := Z) 1 MReporting] /\
  sb_alive (fst (sb_run s ([STick [] (Req true)] ++ repeat (STick [] NoReq) 10))) = true /\
  sb_alive (fst (sb_run s ([STick [] (Req true)] ++ repeat (STick [] NoReq) 11))) = false.
Proof. exact life_run. Qed.

(** * C46 *)
(** Missing: the services of [exposed]. *)
Theorem c46_protected_partial : forall A max_subs (st : sserver A) session id r k e, protected r ->
  nth_error (sv_all st) k = Some e -> en_owner e <> session ->
  nth_error (sv_all (fst (sv_step max_subs st (VReq session id r)))) k = Some e.
Proof. exact (@protected_kept). Qed.
Print Assumptions c46_protected_partial.
Theorem c46_named_only : forall A max_subs (st : sserver A) session id r k e, nth_error (sv_all st) k = Some e ->
  en_id e <> id \/ en_listed e = false -> nth_error (sv_all (fst (sv_step max_subs st (VReq session id r)))) k = Some e.
Proof. exact (@named_only). Qed.
Print Assumptions c46_named_only.
Theorem c46_own_served : forall A max_subs (ops : list (svop A)) k e r, Z.of_nat (creates ops) < 2 ^ 32 ->
  nth_error (sv_all (fst (sv_run max_subs ops))) k = Some e -> en_listed e = true ->
  snd (sv_step max_subs (fst (sv_run max_subs ops)) (VReq (en_owner e) (en_id e) r)) =
  VEv k (snd (sb_step (en_sub e) (request_op r))).
Proof. exact (@own_served). Qed.
Print Assumptions c46_own_served.
(** These services do not ask whose subscription it is. *)
Theorem c46_exposed_refuted : forall A max_subs (st : sserver A) s1 s2 id r, exposed r ->
  sv_step max_subs st (VReq s1 id r) = sv_step max_subs st (VReq s2 id r).
Proof. exact (@exposed_any). Qed.
Print Assumptions c46_exposed_refuted.
Theorem c46_foreign_refuted :
  snd (sv_step 10 (fst (sv_run 10 foreign_ops)) (VReq 2 1 (RRepublish 1 true))) = VEv 0 (EvRepublished (1, [(5, 77)])) /\
  snd (sv_step 10 (fst (sv_run 10 foreign_ops)) (VReq 2 1 (RAck 1))) = VEv 0 (EvAck true) /\
  option_map (fun e => length (sb_items (en_sub e)))
    (nth_error (sv_all (fst (sv_step 10 (fst (sv_run 10 foreign_ops)) (VReq 2 1 (RDelItem 5))))) 0) = Some 0%nat /\
  snd (sv_step 10 (fst (sv_run 10 foreign_ops)) (VReq 2 1 RDelete)) = VInvalid /\
  option_map en_owner (nth_error (sv_all (fst (sv_run 10 foreign_ops))) 0) = Some 1.
Proof. exact foreign_run. Qed.
Print Assumptions c46_foreign_refuted.

(** * C47 *)
Theorem c47_count : forall A max_subs (ops : list (svop A)), 0 < max_subs ->
  listed_count (sv_all (fst (sv_run max_subs ops))) <= max_subs.
Proof. exact (@count_bound). Qed.
Print Assumptions c47_count.
(** Missing: four billion creations. *)
Theorem c47_ids_partial : forall A max_subs (ops : list (svop A)), Z.of_nat (creates ops) < 2 ^ 32 ->
  NoDup (created (snd (sv_run max_subs ops))).
Proof. exact (@ids_unique). Qed.
Print Assumptions c47_ids_partial.
Theorem c47_quiet_partial : forall A max_subs (ops1 ops2 : list (svop A)) k e o ev,
  Z.of_nat (creates (ops1 ++ ops2)) < 2 ^ 32 ->
  nth_error (sv_all (fst (sv_run max_subs ops1))) k = Some e -> en_listed e = false ->
  snd (sv_step max_subs (fst (sv_run max_subs (ops1 ++ ops2))) o) = VEv k ev -> sends ev = false.
Proof. exact (@deleted_quiet). Qed.
Print Assumptions c47_quiet_partial.
Theorem c47_deleted_partial : forall A max_subs (ops : list (svop A)) session id k ev, Z.of_nat (creates ops) < 2 ^ 32 ->
  snd (sv_step max_subs (fst (sv_run max_subs ops)) (VReq session id RDelete)) = VEv k ev ->
  lookup id (sv_all (fst (sv_step max_subs (fst (sv_run max_subs ops)) (VReq session id RDelete)))) = None.
Proof. exact (@deleted_gone). Qed.
Print Assumptions c47_deleted_partial.
(** With two subscriptions allowed, 2^32 - 2 refused creations, and the numbers begin again: session 1 has lost its
    subscription 1 to session 2, it runs on even after session 1 is closed, and three subscriptions are alive. *)
Theorem c47_wrap_refuted : exists ops : list (svop Z), let x := sv_run 2 ops in
  created (snd x) = [1; 2; 1; 2] /\
  length (filter (fun e => sb_alive (en_sub e)) (sv_all (fst x))) = 3%nat /\
  (forall r, protected r -> snd (sv_step 2 (fst x) (VReq 1 1 r)) = VInvalid) /\
  (exists e, nth_error (sv_all (fst (sv_step 2 (fst x) (VClose 1)))) 0 = Some e /\ en_owner e = 1 /\ sb_alive (en_sub e) = true).
Proof. exact begins_again. Qed.
Print Assumptions c47_wrap_refuted.
Theorem c47_expired : forall A max_subs (st : sserver A) k o n,
  snd (sv_step max_subs st (VRun k o)) = VEv k (EvStatusChange n) ->
  exists e, nth_error (sv_all (fst (sv_step max_subs st (VRun k o)))) k = Some e /\ en_listed e = false.
Proof. exact (@expired_gone). Qed.
Print Assumptions c47_expired.
Example c47_ex :
  let x := sv_run 2 (A := Z) [VCreate 1 true 10 3 9; VCreate 2 true 10 3 9; VCreate 1 true 10 3 9; VReq 1 1 RDelete; VCreate 1 true 10 3 9] in
  created (snd x) = [1; 2; 4] /\ listed_count (sv_all (fst x)) = 2 /\ lookup 1 (sv_all (fst x)) = None.
Proof. exact server_run. Qed.

(** * C75 *)
(** Missing: the tasks below.  Whatever happened so far, the rest can still run to its end. *)
Theorem c75_orderly_partial : forall ts cs, Forall orderly ts -> exists more, finished (tasks_run ts (cs ++ more)).
Proof. exact never_hangs. Qed.
Print Assumptions c75_orderly_partial.
(** A subscription that expires while the manager looks for expired ones: both wait for ever, and
    nobody else ever gets the manager's lock. *)
Theorem c75_expiry_refuted : forall s ns vs x rest later more,
  let gs := tasks_then [TExpire s [] ns vs; TSweep ((s, x) :: rest)] [0; 1]%nat later more in
  pending 0 gs /\ pending 1 gs /\ (forall k g, nth_error gs k = Some g -> holds LManager g = true -> k = 1%nat).
Proof. exact expire_sweep. Qed.
Print Assumptions c75_expiry_refuted.
Theorem c75_self_trigger_refuted : forall i linked later more, pending 0 (tasks_then [TEnqueue i (i :: linked)] [0]%nat later more).
Proof. exact self_trigger. Qed.
Print Assumptions c75_self_trigger_refuted.
Theorem c75_mutual_trigger_refuted : forall i j li lj later more, i <> j ->
  let gs := tasks_then [TEnqueue i (j :: li); TEnqueue j (i :: lj)] [0; 1]%nat later more in pending 0 gs /\ pending 1 gs.
Proof. exact mutual_trigger. Qed.
Print Assumptions c75_mutual_trigger_refuted.
Theorem c75_event_refuted : forall n i items later more,
  let gs := tasks_then [TEvent n (i :: items); TItem (VListen i n)] [0; 1]%nat later more in pending 0 gs /\ pending 1 gs.
Proof. exact event_listen. Qed.
Print Assumptions c75_event_refuted.
Theorem c75_diagnostics_refuted : forall i s w vs later more,
  let gs := tasks_then [TPollDiag i s; TSub s (VShort i w :: vs)] [0; 1; 0; 0; 0; 0]%nat later more in pending 0 gs /\ pending 1 gs.
Proof. exact poll_diag. Qed.
Print Assumptions c75_diagnostics_refuted.
Theorem c75_resend_refuted : forall s i later more, pending 0 (tasks_then [TResendDiag s i] [0; 0; 0; 0; 0; 0]%nat later more).
Proof. exact resend_diag. Qed.
Print Assumptions c75_resend_refuted.
Example c75_ex : Forall orderly [TLookup; TRegister [1; 2]; TService 1 [VRestart 1 2 3]; TSub 1 [VSample 1 2; VListen 2 3]; TSweep [(1, ([1], [VListen 2 3]))]]%nat.
Proof. repeat constructor. Qed.

(** * C76 *)
(** Missing: operations that found the subscription before it was deleted. *)
Theorem c76_requests_partial : forall A max_subs (ops : list (svop A)) session id r k,
  snd (sv_step max_subs (fst (sv_run max_subs ops)) (VReq session id r)) <> VEv k EvPanics.
Proof. exact (@request_no_panic). Qed.
Print Assumptions c76_requests_partial.
Theorem c76_late_refuted : snd (sv_step 10 (fst (sv_run 10 late_ops)) (VRun 0 (SLate [] true))) = VEv 0 EvPanics.
Proof. exact late_panics. Qed.
Print Assumptions c76_late_refuted.
Theorem c76_deleted_refuted : forall (s : sub Z) n ok a b c id m, sb_alive s = false ->
  snd (sb_step s (SAck n)) = EvPanics /\ snd (sb_step s (SRepublish n ok)) = EvPanics /\
  snd (sb_step s (SModify a b c)) = EvPanics /\ snd (sb_step s (SAddItem id m)) = EvPanics /\ snd (sb_step s SDelete) = EvPanics.
Proof. exact dead_panics. Qed.
Print Assumptions c76_deleted_refuted.
