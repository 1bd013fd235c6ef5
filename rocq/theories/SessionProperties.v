(** C33-C40: sessions.  Property theorems only. *)
From Coq Require Import ZArith List Bool Lia Strings.Byte.
From Verif Require Import Bytes BytesProofs Keys KeysSpec Password PasswordSpec PasswordProofs Session SessionSpec SessionProofs
  PubQueue PubQueueSpec PubQueueProofs ContPoint ContPointSpec ContPointProofs SessionLemmas.
Import ListNotations.
Open Scope Z_scope.

(** * C33 *)
(** Missing: longer passwords and keys whose private exponent is shorter than the key, see below. *)
Theorem c33_recovered_partial : forall enc dec size pol r password nonce, rsa_works enc dec size -> size_ok size ->
  length nonce = 32%nat -> (pol <> PNone -> (length password <= 64)%nat) ->
  let '(alg, cipher) := client_password enc pol size r password nonce in
  server_password dec pol size alg cipher = PwGot password.
Proof. exact password_ok. Qed.
Print Assumptions c33_recovered_partial.
Theorem c33_long_refuted : forall enc dec size pol r password nonce, pol <> PNone -> rsa_works enc dec size -> size_ok size ->
  length nonce = 32%nat -> (64 < length password)%nat -> Z.of_nat (length password) < 2 ^ 32 - 32 ->
  let '(alg, cipher) := client_password enc pol size r password nonce in
  server_password dec pol size alg cipher = PwRejected.
Proof. exact password_long. Qed.
Print Assumptions c33_long_refuted.
(** The server cuts the cipher text into blocks as long as its private exponent. *)
Theorem c33_short_exponent_refuted : forall enc dec size dlen pol r password nonce, pol <> PNone ->
  rsa_works enc dec size -> rsa_strict dec size -> size_ok size -> 0 <= dlen -> dlen <> size ->
  let '(alg, cipher) := client_password enc pol size r password nonce in
  server_password dec pol dlen alg cipher = PwEnds.
Proof. exact password_short. Qed.
Print Assumptions c33_short_exponent_refuted.
Theorem c33_algorithm : forall enc pol size r password nonce, fst (client_password enc pol size r password nonce) = standard_wrap pol.
Proof. exact wrap_standard. Qed.
Print Assumptions c33_algorithm.
Example c33_ex : size_ok 256 /\ rsa_works (toy_enc 256) (toy_dec 256) 256 /\ rsa_strict (toy_dec 256) 256 /\
  let '(alg, cipher) := client_password (toy_enc 256) PBasic256Sha256 256 0 (repeat x61 64) (repeat x62 32) in
  server_password (toy_dec 256) PBasic256Sha256 256 alg cipher = PwGot (repeat x61 64).
Proof. exact ex_password. Qed.
Example c33_ex_exponent : forall size, size_ok size -> exists d, 0 < d < 2 ^ (8 * size) /\ exponent_bytes d <> size.
Proof. exact short_exponent. Qed.

(** * C34 *)
(** The answer to a request follows from the history of requests and answers: see [door]. *)
Theorem c34_gate : forall max local_cert nan_ms dlen verify dec cert_key cert_uris auth ops ch tok, Forall real_chan ops ->
  let run := srun max local_cert nan_ms dlen verify dec cert_key cert_uris auth in
  snd (sstep max local_cert nan_ms dlen verify dec cert_key cert_uris auth (fst (run ops)) (OService ch tok)) =
  door nan_ms (ss_now (fst (run ops))) (snd (run ops)) ch tok.
Proof. exact door_spec. Qed.
Print Assumptions c34_gate.
Theorem c34_close : forall max local_cert nan_ms dlen verify dec cert_key cert_uris auth ops ch tok, Forall real_chan ops ->
  let run := srun max local_cert nan_ms dlen verify dec cert_key cert_uris auth in
  snd (sstep max local_cert nan_ms dlen verify dec cert_key cert_uris auth (fst (run ops)) (OClose ch tok)) =
  match door nan_ms (ss_now (fst (run ops))) (snd (run ops)) ch tok with EvServed t => EvClosed t | e => e end.
Proof. exact close_spec. Qed.
Print Assumptions c34_close.
Theorem c34_refused : forall max local_cert nan_ms dlen verify dec cert_key cert_uris auth ops ch tok, Forall real_chan ops ->
  let st := fst (srun max local_cert nan_ms dlen verify dec cert_key cert_uris auth ops) in
  let step := sstep max local_cert nan_ms dlen verify dec cert_key cert_uris auth in
  match snd (step st (OService ch tok)) with
  | EvServed _ => True
  | _ => forall tok', tok' <> tok -> slook (ss_table (fst (step st (OService ch tok)))) tok' = slook (ss_table st) tok'
  end.
Proof. exact refused_no_effect. Qed.
Print Assumptions c34_refused.
Example c34_ex : Forall real_chan ex_ops /\
  map en_ev (rev (snd (ex_run (ex_ops ++ [OService alice tok1; OService mallory tok1; OTick 60000; OService alice tok1; OTick 60001; OService alice tok1])))) =
  [EvCreated tok1 [x0b] (Some 60000); EvNone; EvActivated tok1 IAnonymous [x0c]; EvNone; EvServed tok1; EvFault FSecureChannelIDInvalid;
   EvNone; EvServed tok1; EvNone; EvFault FSessionIDInvalid].
Proof. exact ex_ok. Qed.

(** * C35 *)
(** Missing: proof of possession of a user certificate when the policy is None, and the policy of
    issued tokens; see below. *)
Theorem c35_activation_partial : forall max local_cert nan_ms dlen verify dec cert_key cert_uris auth ops ch tok sig ut usig nonce tok' id n,
  Forall real_chan ops ->
  let st := fst (srun max local_cert nan_ms dlen verify dec cert_key cert_uris auth ops) in
  let h := snd (srun max local_cert nan_ms dlen verify dec cert_key cert_uris auth ops) in
  snd (sstep max local_cert nan_ms dlen verify dec cert_key cert_uris auth st (OActivate ch tok sig ut usig nonce)) = EvActivated tok' id n ->
  tok' = tok /\ n = nonce /\ ch_discovery ch = false /\ timed_out nan_ms (ss_now st) h tok = false /\
  exists old cch app cert, last_nonce h tok = Some old /\ creator h tok = Some (cch, app, cert) /\
    (ch_policy ch <> PNone -> verify (ch_key ch) (ch_policy ch) (local_cert ++ old) sig = true) /\
    proof_of_user local_cert dlen verify dec cert_key ch old ut usig id /\ auth id app = AAccepts.
Proof. exact activated_spec. Qed.
Print Assumptions c35_activation_partial.
(** A session is created exactly when the channel is for more than discovery, on a channel with security the certificate names the
    application and the client's nonce has 32 bytes or more, and there is room; otherwise nothing changes. *)
Theorem c35_created : forall max local_cert nan_ms dlen verify dec cert_key cert_uris auth st ch rt app cert cn tok nonce,
  let r := sstep max local_cert nan_ms dlen verify dec cert_key cert_uris auth st (OCreate ch rt app cert cn tok nonce) in
  ((exists t, snd r = EvCreated tok nonce t) <->
    ch_discovery ch = false /\ (ch_policy ch <> PNone -> app <> [] /\ In app (cert_uris cert) /\ (32 <= length cn)%nat) /\
    (0 < max -> Z.of_nat (length (ss_table st)) < max)) /\
  ((exists t, snd r = EvCreated tok nonce t) \/ fst r = st).
Proof. exact created_iff. Qed.
Print Assumptions c35_created.
(** Under policy None a user certificate is accepted without any signature. *)
Theorem c35_x509_refuted : forall max local_cert nan_ms dlen verify dec cert_key cert_uris auth st ch tok pid cert usig nonce t s key,
  ch_discovery ch = false -> get nan_ms st tok = Some s -> ch_policy ch = PNone ->
  find_policy ch TCertificate pid = Some t -> (tp_policy t = None \/ tp_policy t = Some PNone) ->
  cert_key cert = Some key -> auth (IX509 cert) (s_app s) = AAccepts ->
  snd (sstep max local_cert nan_ms dlen verify dec cert_key cert_uris auth st (OActivate ch tok [] (UX509 pid cert) usig nonce)) =
  EvActivated tok (IX509 cert) nonce.
Proof. exact unproved_general. Qed.
Print Assumptions c35_x509_refuted.
(** An issued token is accepted on an endpoint that offers no issued token policy. *)
Theorem c35_issued_refuted :
  (forall t, In t (ch_tokens alice) -> tp_type t <> TIssued) /\
  map en_ev (rev (snd (ex_run [create_alice; OActivate alice tok1 [byte_of_Z 65] (UIssued [x02] [x55]) [] [x0c]]))) =
  [EvCreated tok1 [x0b] (Some 60000); EvActivated tok1 (IIssued [x55]) [x0c]].
Proof. exact issued_user. Qed.
Print Assumptions c35_issued_refuted.
Example c35_ex :
  map en_ev (rev (snd (ex_run [OCreate plain_chan (Some 60000) [] [] [] tok1 [x0b];
    OActivate plain_chan tok1 [] (UX509 [x02] [x55]) [] [x0c]; OService plain_chan tok1]))) =
  [EvCreated tok1 [x0b] (Some 60000); EvActivated tok1 (IX509 [x55]) [x0c]; EvServed tok1].
Proof. exact unproved_user. Qed.

(** * C36 *)
(** Whoever has a channel and the token activates the session, whatever channel and certificate it was created with. *)
Theorem c36_refuted : forall max local_cert nan_ms dlen verify dec cert_key cert_uris auth ops ch tok sig pid nonce t old cch app cert,
  Forall real_chan ops ->
  let st := fst (srun max local_cert nan_ms dlen verify dec cert_key cert_uris auth ops) in
  let h := snd (srun max local_cert nan_ms dlen verify dec cert_key cert_uris auth ops) in
  ch_discovery ch = false -> timed_out nan_ms (ss_now st) h tok = false ->
  last_nonce h tok = Some old -> creator h tok = Some (cch, app, cert) ->
  signed verify (ch_key ch) (ch_policy ch) (local_cert ++ old) sig = true ->
  find_policy ch TAnonymous pid = Some t -> auth IAnonymous app = AAccepts ->
  snd (sstep max local_cert nan_ms dlen verify dec cert_key cert_uris auth st (OActivate ch tok sig (UAnonymous pid) [] nonce)) = EvActivated tok IAnonymous nonce.
Proof. exact activated_anyone. Qed.
Print Assumptions c36_refuted.
Example c36_ex : ch_key alice <> ch_key mallory /\
  map en_ev (rev (snd (ex_run [create_alice; activate_mallory; OService mallory tok1; OService alice tok1]))) =
  [EvCreated tok1 [x0b] (Some 60000); EvActivated tok1 IAnonymous [x0d]; EvServed tok1; EvFault FSecureChannelIDInvalid].
Proof. split; [discriminate|exact hijack]. Qed.

(** * C37 *)
Theorem c37_count : forall max local_cert nan_ms dlen verify dec cert_key cert_uris auth ops, Forall real_chan ops -> 0 < max ->
  Z.of_nat (length (ss_table (fst (srun max local_cert nan_ms dlen verify dec cert_key cert_uris auth ops)))) <= max.
Proof. exact count_bound. Qed.
Print Assumptions c37_count.
(** Missing: NaN, see below. *)
Theorem c37_timeout_partial : forall max local_cert nan_ms dlen verify dec cert_key cert_uris auth st ch rt app cert cn tok nonce tok' n t,
  snd (sstep max local_cert nan_ms dlen verify dec cert_key cert_uris auth st (OCreate ch rt app cert cn tok nonce)) = EvCreated tok' n (Some t) ->
  10000 <= t <= 3600000.
Proof. exact created_bounds. Qed.
Print Assumptions c37_timeout_partial.
(** A session left unused for longer than the timeout it was granted is gone, and stays gone unless
    the same token is drawn again. *)
Theorem c37_gone : forall max local_cert nan_ms dlen verify dec cert_key cert_uris auth ops ops' tok, Forall real_chan (ops ++ ops') ->
  let run := srun max local_cert nan_ms dlen verify dec cert_key cert_uris auth in
  timed_out nan_ms (ss_now (fst (run ops))) (snd (run ops)) tok = true ->
  (forall o, In o ops' -> match o with OCreate _ _ _ _ _ t _ => t <> tok | _ => True end) ->
  timed_out nan_ms (ss_now (fst (run (ops ++ ops')))) (snd (run (ops ++ ops'))) tok = true.
Proof. exact gone. Qed.
Print Assumptions c37_gone.
Theorem c37_turned_away : forall max local_cert nan_ms dlen verify dec cert_key cert_uris auth ops o tok, Forall real_chan ops -> op_token o = Some tok ->
  let run := srun max local_cert nan_ms dlen verify dec cert_key cert_uris auth in
  timed_out nan_ms (ss_now (fst (run ops))) (snd (run ops)) tok = true ->
  snd (sstep max local_cert nan_ms dlen verify dec cert_key cert_uris auth (fst (run ops)) o) = EvFault FSessionIDInvalid \/
  snd (sstep max local_cert nan_ms dlen verify dec cert_key cert_uris auth (fst (run ops)) o) = EvAborted.
Proof. exact turned_away. Qed.
Print Assumptions c37_turned_away.
(** A requested timeout of NaN is granted as it is; where int64(NaN) is the least integer the session has expired when it is created. *)
Theorem c37_nan_refuted :
  map en_ev (rev (snd (ex_run [OCreate alice None [x41] [x41] (repeat x00 32) tok1 [x0b]; activate_alice]))) =
  [EvCreated tok1 [x0b] None; EvFault FSessionIDInvalid].
Proof. exact nan_timeout. Qed.
Print Assumptions c37_nan_refuted.
Example c37_ex : timed_out 0 (ss_now (fst (ex_run (ex_ops ++ [OTick 60001])))) (snd (ex_run (ex_ops ++ [OTick 60001]))) tok1 = true /\
  timed_out 0 (ss_now (fst (ex_run ex_ops))) (snd (ex_run ex_ops)) tok1 = false.
Proof. split; reflexivity. Qed.

(** * C38 *)
Theorem c38_capacity : forall alive ops, (length (pq_queue (pq_run alive ops)) <= 64)%nat.
Proof. exact pq_bound. Qed.
Print Assumptions c38_capacity.
(** Missing: deletion of the session, channels that are gone, and a race; see below. *)
(** The requests that arrived are, in this order, those answered, those queued and the one being added. *)
Theorem c38_in_order_once_partial : forall ops, Forall not_delete ops ->
  p_arrivals all_alive pubq_init ops = map fst (pq_log (pq_run all_alive ops)) ++ pq_queue (pq_run all_alive ops) ++ held (pq_run all_alive ops).
Proof. exact conserve_run. Qed.
Print Assumptions c38_in_order_once_partial.
Theorem c38_full : forall alive q op l r x q', alive x = true -> op = true -> length q = 64%nat -> q = x :: q' ->
  fold_left (pq_step alive) [PAdd r; PSelect; PDrop; PSelect] (mkPubq q op AIdle l) =
  mkPubq (q' ++ [r]) op AIdle (l ++ [(x, TooManyPublishRequests)]).
Proof. exact add_full. Qed.
Print Assumptions c38_full.
Theorem c38_room : forall alive q l r, (length q < 64)%nat ->
  fold_left (pq_step alive) [PAdd r; PSelect] (mkPubq q true AIdle l) = mkPubq (q ++ [r]) true AIdle l.
Proof. exact add_room. Qed.
Print Assumptions c38_room.
Theorem c38_expired : forall alive s now, pq_log (pq_step alive s (PTake now)) = pq_log s \/
  exists x q, pq_queue s = x :: q /\ pq_queue (pq_step alive s (PTake now)) = q /\
    pq_log (pq_step alive s (PTake now)) = pq_log s ++ [(x, if pr_deadline x <? now then PubTimeout else Used)].
Proof. exact take_answer. Qed.
Print Assumptions c38_expired.
(** Subscriptions empty the queue between the adder's two steps: the new request is never queued and never answered. *)
Theorem c38_stuck_refuted : exists r ops, In r (p_arrivals all_alive pubq_init ops) /\ Forall not_delete ops /\
  forall ops', ~ In r (map fst (pq_log (pq_run all_alive (ops ++ ops')))) /\ ~ In r (pq_queue (pq_run all_alive (ops ++ ops'))).
Proof. exact stuck_forever. Qed.
Print Assumptions c38_stuck_refuted.
Theorem c38_deleted_refuted : exists r ops, In r (p_arrivals all_alive pubq_init ops) /\
  forall ops', ~ In r (map fst (pq_log (pq_run all_alive (ops ++ ops')))).
Proof. exact deleted_lost. Qed.
Print Assumptions c38_deleted_refuted.
(** The oldest request came on a channel that is gone: the new request is dropped with it. *)
Theorem c38_dead_refuted : forall alive q l r x q', alive x = false -> length q = 64%nat -> q = x :: q' ->
  let s := fold_left (pq_step alive) [PAdd r; PSelect; PDrop] (mkPubq q true AIdle l) in
  pq_adder s = AIdle /\ pq_queue s = q' /\ pq_log s = l.
Proof. exact dead_takes. Qed.
Print Assumptions c38_dead_refuted.
Example c38_ex : map (fun e => (pr_id (fst e), snd e)) (pq_log (pq_run all_alive ([PAdd (mkPreq 1 10); PSelect; PAdd (mkPreq 2 30); PSelect; PTake 20; PTake 20]))) =
  [(1%nat, PubTimeout); (2%nat, Used)].
Proof. exact ex_pub. Qed.

(** * C39 *)
Theorem c39_all : forall ref maxp ops rds got cp p, Z.of_nat (length ops) < 2 ^ 32 -> chain (cs_log (c_run ref maxp ops)) rds got cp ->
  In (ENext cp (BRefs p None)) (cs_log (c_run ref maxp ops)) -> got ++ p = rds.
Proof. exact all_run. Qed.
Print Assumptions c39_all.
Theorem c39_single : forall ref maxp ops rds p, Z.of_nat (length ops) < 2 ^ 32 -> In (EBrowse rds (BRefs p None)) (cs_log (c_run ref maxp ops)) -> p = rds.
Proof. exact single_run. Qed.
Print Assumptions c39_single.
Theorem c39_prefix : forall ref maxp ops rds got cp, Z.of_nat (length ops) < 2 ^ 32 -> chain (cs_log (c_run ref maxp ops)) rds got cp ->
  unused (cs_log (c_run ref maxp ops)) cp -> exists rest, rds = got ++ rest.
Proof. exact prefix_run. Qed.
Print Assumptions c39_prefix.
Theorem c39_progress : forall ref maxp ops p cp, Z.of_nat (length ops) < 2 ^ 32 ->
  (exists rds, In (EBrowse rds (BRefs p (Some cp))) (cs_log (c_run ref maxp ops))) \/
  (exists c, In (ENext c (BRefs p (Some cp))) (cs_log (c_run ref maxp ops))) -> p <> [].
Proof. exact progress_run. Qed.
Print Assumptions c39_progress.
Theorem c39_once : forall ref maxp ops l1 l2 cp r r', Z.of_nat (length ops) < 2 ^ 32 ->
  cs_log (c_run ref maxp ops) = l1 ++ ENext cp r :: l2 -> ~ In (ENext cp r') (l1 ++ l2).
Proof. exact once_points. Qed.
Print Assumptions c39_once.
Theorem c39_served : forall ref maxp ops cp t, Z.of_nat (length ops) < 2 ^ 32 -> let s := c_run ref maxp ops in
  dst ref (cs_log s) cp -> unused (cs_log s) cp -> cs_work s = [] ->
  exists d m, work_find (cs_work (c_step ref maxp s (CTake t cp false))) t = Some (cp, d, m) /\
    forall rds got, chain (cs_log s) rds got cp -> got ++ d = rds.
Proof. exact served_points. Qed.
Print Assumptions c39_served.
Theorem c39_foreign : forall ref maxp (s : cstate ref) t cp, work_find (cs_work s) t = None -> (4 <= length cp)%nat ->
  (forall id x, In (id, x) (cp_tab (cs_points s)) -> code id <> firstn 4 cp) ->
  c_step ref maxp s (CTake t cp false) = mkCstate (cs_points s) (cs_work s) (EInvalid cp :: cs_log s) /\
  c_step ref maxp s (CTake t cp true) = mkCstate (cs_points s) (cs_work s) (EInvalid cp :: cs_log s).
Proof. exact foreign_points. Qed.
Print Assumptions c39_foreign.
Theorem c39_count : forall ref maxp ops, Z.of_nat (length ops) < 2 ^ 32 -> 0 < maxp -> Z.of_nat (length (cp_tab (cs_points (c_run ref maxp ops)))) <= maxp.
Proof. exact count_points. Qed.
Print Assumptions c39_count.
(** Another Browse takes the place freed by a BrowseNext before its own rest is stored: the rest is lost. *)
Theorem c39_lost_refuted : chain (cs_log (c_run nat 1 lost_ops)) [1; 2; 3]%nat [1]%nat (cp_of 1) /\
  In (ENext (cp_of 1) (BBad BNoContinuationPoints)) (cs_log (c_run nat 1 lost_ops)) /\
  forall r, In (ENext (cp_of 1) r) (cs_log (c_run nat 1 lost_ops)) -> r = BBad BNoContinuationPoints.
Proof. exact lost_pages. Qed.
Print Assumptions c39_lost_refuted.
(** A continuation point the server never gave out, five bytes long, is served. *)
Theorem c39_foreign_refuted : exists ops cp, (length cp = 5)%nat /\
  cs_log (c_run nat 1 (ops ++ [CTake 0 cp false; CPut 0])) = ENext (firstn 4 cp) (BRefs [2]%nat None) :: cs_log (c_run nat 1 ops).
Proof. exact long_point. Qed.
Print Assumptions c39_foreign_refuted.
Example c39_ex : cs_log (c_run nat 2 [CBrowse [1; 2; 3; 4; 5]%nat 2; CTake 0 (cp_of 1) false; CPut 0; CTake 0 (cp_of 2) false; CPut 0; CTake 0 (cp_of 1) false]) =
  [EInvalid (cp_of 1); ENext (cp_of 2) (BRefs [5]%nat None); ENext (cp_of 1) (BRefs [3; 4]%nat (Some (cp_of 2)));
   EBrowse [1; 2; 3; 4; 5]%nat (BRefs [1; 2]%nat (Some (cp_of 1)))].
Proof. exact ex_pages. Qed.

(** * C40 *)
Theorem c40_long_enough_partial : forall ref maxp ops,
  (forall t cp release, In (CTake t cp release) ops -> (length cp = 0 \/ 4 <= length cp)%nat) -> ~ In ECrash (cs_log (c_run ref maxp ops)).
Proof. exact no_crash. Qed.
Print Assumptions c40_long_enough_partial.
Theorem c40_short_refuted : forall ref maxp (s : cstate ref) t cp release, work_find (cs_work s) t = None -> (1 <= length cp <= 3)%nat ->
  cs_log (c_step ref maxp s (CTake t cp release)) = ECrash :: cs_log s.
Proof. exact short_points. Qed.
Print Assumptions c40_short_refuted.
Example c40_ex : cs_log (c_run nat 1 [CTake 0 [x01; x00; x00] false]) = [ECrash].
Proof. reflexivity. Qed.
