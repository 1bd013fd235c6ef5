(** Example runs and counterexamples about sessions. *)
From Coq Require Import ZArith List Bool Lia Strings.Byte.
From Coq Require Import ZifyBool ZifyNat ZifyN.
From Verif Require Import Bytes BytesProofs Keys KeysSpec Password PasswordSpec PasswordProofs Session SessionSpec SessionProofs
  PubQueue PubQueueSpec PubQueueProofs ContPoint ContPointSpec ContPointProofs.
Import ListNotations.
Open Scope Z_scope.

(** * Sessions *)
Definition ex_verify (key : Z) (p : pname) (msg sig : bytes) : bool := bytes_eqb sig [byte_of_Z key].
Definition ex_dec (w : wrap) (c : bytes) : option bytes := None.
Definition ex_key (c : bytes) : option Z := Some 7.
Definition ex_uris (c : bytes) : list bytes := [c].
Definition ex_auth (id : identity) (app : bytes) : authres := AAccepts.
Definition ex_run := srun 2 [xff] (- 2 ^ 63) 256 ex_verify ex_dec ex_key ex_uris ex_auth.
Definition ex_step := sstep 2 [xff] (- 2 ^ 63) 256 ex_verify ex_dec ex_key ex_uris ex_auth.
Definition ex_tokens : list tokpol := [mkTokpol [x01] TAnonymous None; mkTokpol [x02] TCertificate None].
(** Two clients with different keys; a channel without security. *)
Definition alice : chan := mkChan 1 false PBasic256Sha256 65 ex_tokens PBasic256Sha256.
Definition mallory : chan := mkChan 2 false PBasic256Sha256 77 ex_tokens PBasic256Sha256.
Definition plain_chan : chan := mkChan 3 false PNone 0 ex_tokens PNone.
Definition tok1 : bytes := [x0a].
Definition create_alice : sop := OCreate alice (Some 60000) [x41] [x41] (repeat x00 32) tok1 [x0b].
Definition activate_alice : sop := OActivate alice tok1 [byte_of_Z 65] (UAnonymous [x01]) [] [x0c].
Definition activate_mallory : sop := OActivate mallory tok1 [byte_of_Z 77] (UAnonymous [x01]) [] [x0d].
Definition ex_ops : list sop := [create_alice; OTick 5000; activate_alice; OTick 5000].

Lemma ex_ok : Forall real_chan ex_ops /\
  map en_ev (rev (snd (ex_run (ex_ops ++ [OService alice tok1; OService mallory tok1; OTick 60000; OService alice tok1; OTick 60001; OService alice tok1])))) =
  [EvCreated tok1 [x0b] (Some 60000); EvNone; EvActivated tok1 IAnonymous [x0c]; EvNone; EvServed tok1; EvFault FSecureChannelIDInvalid;
   EvNone; EvServed tok1; EvNone; EvFault FSessionIDInvalid].
Proof. split; [repeat constructor; discriminate|reflexivity]. Qed.
Lemma hijack :
  map en_ev (rev (snd (ex_run [create_alice; activate_mallory; OService mallory tok1; OService alice tok1]))) =
  [EvCreated tok1 [x0b] (Some 60000); EvActivated tok1 IAnonymous [x0d]; EvServed tok1; EvFault FSecureChannelIDInvalid].
Proof. reflexivity. Qed.
Lemma unproved_user :
  map en_ev (rev (snd (ex_run [OCreate plain_chan (Some 60000) [] [] [] tok1 [x0b];
    OActivate plain_chan tok1 [] (UX509 [x02] [x55]) [] [x0c]; OService plain_chan tok1]))) =
  [EvCreated tok1 [x0b] (Some 60000); EvActivated tok1 (IX509 [x55]) [x0c]; EvServed tok1].
Proof. reflexivity. Qed.
Lemma issued_user :
  (forall t, In t (ch_tokens alice) -> tp_type t <> TIssued) /\
  map en_ev (rev (snd (ex_run [create_alice; OActivate alice tok1 [byte_of_Z 65] (UIssued [x02] [x55]) [] [x0c]]))) =
  [EvCreated tok1 [x0b] (Some 60000); EvActivated tok1 (IIssued [x55]) [x0c]].
Proof. split; [|reflexivity]. intros t [<-|[<-|[]]]; discriminate. Qed.
Lemma nan_timeout :
  map en_ev (rev (snd (ex_run [OCreate alice None [x41] [x41] (repeat x00 32) tok1 [x0b]; activate_alice]))) =
  [EvCreated tok1 [x0b] None; EvFault FSessionIDInvalid].
Proof. reflexivity. Qed.
(** Without certificate policies nothing but the owner's proof opens an identity; general form. *)
Lemma unproved_general max local_cert nan_ms dlen verify dec cert_key cert_uris auth st ch tok pid cert usig nonce t s key :
  ch_discovery ch = false -> get nan_ms st tok = Some s -> ch_policy ch = PNone ->
  find_policy ch TCertificate pid = Some t -> (tp_policy t = None \/ tp_policy t = Some PNone) ->
  cert_key cert = Some key -> auth (IX509 cert) (s_app s) = AAccepts ->
  snd (sstep max local_cert nan_ms dlen verify dec cert_key cert_uris auth st (OActivate ch tok [] (UX509 pid cert) usig nonce)) =
  EvActivated tok (IX509 cert) nonce.
Proof.
  intros D G P F T K A. cbn [sstep]. rewrite D, G, P. cbn [signed negb claimed]. rewrite F, K, P.
  destruct T as [-> | ->]; cbn [signed]; rewrite A; reflexivity.
Qed.

(** * Passwords *)
Lemma ex_password : size_ok 256 /\ rsa_works (toy_enc 256) (toy_dec 256) 256 /\ rsa_strict (toy_dec 256) 256 /\
  let '(alg, cipher) := client_password (toy_enc 256) PBasic256Sha256 256 0 (repeat x61 64) (repeat x62 32) in
  server_password (toy_dec 256) PBasic256Sha256 256 alg cipher = PwGot (repeat x61 64).
Proof.
  assert (S : size_ok 256) by (split; reflexivity). destruct (toy_rsa 256 S) as [A B].
  split; [exact S|]. split; [exact A|]. split; [exact B|]. vm_compute. reflexivity.
Qed.
Lemma short_exponent size : size_ok size -> exists d, 0 < d < 2 ^ (8 * size) /\ exponent_bytes d <> size.
Proof.
  intros [S1 S2]. exists 1. split.
  - split; [lia|]. apply (Z.pow_gt_1 2); lia.
  - unfold exponent_bytes. cbn. lia.
Qed.

(** * Publish requests *)
Lemma ex_pub : map (fun e => (pr_id (fst e), snd e)) (pq_log (pq_run all_alive ([PAdd (mkPreq 1 10); PSelect; PAdd (mkPreq 2 30); PSelect; PTake 20; PTake 20]))) =
  [(1%nat, PubTimeout); (2%nat, Used)].
Proof. reflexivity. Qed.
Definition stuck_ops : list pop := fill 64 ++ [PAdd (pnum 64); PSelect] ++ repeat (PTake 0) 64.
Lemma stuck_log r ops' : forall s, stuck r s -> pq_log (fold_left (pq_step all_alive) ops' s) = pq_log s.
Proof.
  induction ops' as [|o ops' IH]; intros s S; [reflexivity|]. cbn [fold_left].
  rewrite IH by (apply stuck_step, S). destruct s as [q op a l]. destruct S as [S1 S2]. cbn in S1, S2. subst. destruct o; reflexivity.
Qed.
Lemma stuck_ops_log : map fst (pq_log (pq_run all_alive stuck_ops)) = map pnum (seq 0 64).
Proof. vm_compute. reflexivity. Qed.
Lemma stuck_ops_arrive : p_arrivals all_alive pubq_init stuck_ops = map pnum (seq 0 65).
Proof. vm_compute. reflexivity. Qed.
Lemma stuck_forever : exists r ops, In r (p_arrivals all_alive pubq_init ops) /\ Forall not_delete ops /\
  forall ops', ~ In r (map fst (pq_log (pq_run all_alive (ops ++ ops')))) /\ ~ In r (pq_queue (pq_run all_alive (ops ++ ops'))).
Proof.
  exists (pnum 64), stuck_ops. split; [|split].
  - rewrite stuck_ops_arrive. apply in_map, in_seq. lia.
  - apply Forall_forall. intros o Ho. apply in_app_iff in Ho. destruct Ho as [Ho|Ho].
    + unfold fill in Ho. apply in_flat_map in Ho. destruct Ho as (i & _ & [<-|[<-|[]]]); exact I.
    + destruct Ho as [<-|[<-|Ho]]; [exact I|exact I|]. apply repeat_spec in Ho. subst o. exact I.
  - intros ops'. assert (E : pq_run all_alive (stuck_ops ++ ops') = fold_left (pq_step all_alive) ops' (pq_run all_alive stuck_ops)) by apply fold_left_app.
    rewrite E. pose proof stuck_reached as S. fold stuck_ops in S. pose proof stuck_ops_log as L. revert S L.
    generalize (pq_run all_alive stuck_ops). intros s S L. rewrite (stuck_log (pnum 64) ops' s S), L.
    destruct (stuck_run all_alive (pnum 64) ops' s S) as [_ H2]. rewrite H2. split; [|tauto].
    intros Hin. apply in_map_iff in Hin. destruct Hin as (i & Ei & Hi). apply in_seq in Hi. injection Ei as Ei. lia.
Qed.
Lemma deleted_lost : exists r ops, In r (p_arrivals all_alive pubq_init ops) /\
  forall ops', ~ In r (map fst (pq_log (pq_run all_alive (ops ++ ops')))).
Proof.
  exists (pnum 1), [PAdd (pnum 1); PSelect; PDelete]. split; [now left|]. intros ops'.
  unfold pq_run. rewrite fold_left_app.
  destruct (deleted_log all_alive ops' (fold_left (pq_step all_alive) [PAdd (pnum 1); PSelect; PDelete] pubq_init) eq_refl eq_refl) as (_ & E).
  rewrite E. exact (fun x => x).
Qed.

(** * Continuation points *)
Definition cp_of (n : Z) : bytes := le_enc 4 n.
Definition lost_ops : list (bop nat) := [CBrowse [1; 2; 3]%nat 1; CTake 0 (cp_of 1) false; CBrowse [7; 8]%nat 1; CPut 0].
Lemma lost_pages : chain (cs_log (c_run nat 1 lost_ops)) [1; 2; 3]%nat [1]%nat (cp_of 1) /\
  In (ENext (cp_of 1) (BBad BNoContinuationPoints)) (cs_log (c_run nat 1 lost_ops)) /\
  forall r, In (ENext (cp_of 1) r) (cs_log (c_run nat 1 lost_ops)) -> r = BBad BNoContinuationPoints.
Proof.
  split; [apply chain_browse; vm_compute; tauto|]. split; [vm_compute; tauto|].
  intros r. vm_compute. intros [E|[E|[E|[]]]]; try discriminate. injection E as <-. reflexivity.
Qed.
Lemma long_point : exists ops cp, (length cp = 5)%nat /\
  cs_log (c_run nat 1 (ops ++ [CTake 0 cp false; CPut 0])) = ENext (firstn 4 cp) (BRefs [2]%nat None) :: cs_log (c_run nat 1 ops).
Proof. exists [CBrowse [1; 2]%nat 1], (cp_of 1 ++ [x00]). split; reflexivity. Qed.
Lemma ex_pages : cs_log (c_run nat 2 [CBrowse [1; 2; 3; 4; 5]%nat 2; CTake 0 (cp_of 1) false; CPut 0; CTake 0 (cp_of 2) false; CPut 0; CTake 0 (cp_of 1) false]) =
  [EInvalid (cp_of 1); ENext (cp_of 2) (BRefs [5]%nat None); ENext (cp_of 1) (BRefs [3; 4]%nat (Some (cp_of 2)));
   EBrowse [1; 2; 3; 4; 5]%nat (BRefs [1; 2]%nat (Some (cp_of 1)))].
Proof. reflexivity. Qed.

(** * Which sessions are created *)
Lemma created_iff max local_cert nan_ms dlen verify dec cert_key cert_uris auth st ch rt app cert cn tok nonce :
  let r := sstep max local_cert nan_ms dlen verify dec cert_key cert_uris auth st (OCreate ch rt app cert cn tok nonce) in
  ((exists t, snd r = EvCreated tok nonce t) <->
    ch_discovery ch = false /\ (ch_policy ch <> PNone -> app <> [] /\ In app (cert_uris cert) /\ (32 <= length cn)%nat) /\
    (0 < max -> Z.of_nat (length (ss_table st)) < max)) /\
  ((exists t, snd r = EvCreated tok nonce t) \/ fst r = st).
Proof.
  cbv zeta. cbn [sstep]. destruct (ch_discovery ch) eqn:D.
  { split; [|now right]. split; [intros (t & E); discriminate E|intros (E & _); discriminate E]. }
  cbv zeta. set (sec := match ch_policy ch with PNone => false | _ => true end).
  assert (SEC : sec = true <-> ch_policy ch <> PNone) by (unfold sec; destruct (ch_policy ch); split; congruence).
  set (uri := match app with [] => false | _ => existsb (fun u => bytes_eqb u app) (cert_uris cert) end).
  assert (URI : uri = true <-> app <> [] /\ In app (cert_uris cert)).
  { unfold uri. destruct app as [|b app]; [split; [discriminate|intros [[] _]; reflexivity]|]. rewrite existsb_exists. split.
    - intros (u & I & E). apply bytes_eqb_eq in E. subst u. split; [discriminate|exact I].
    - intros [_ I]. exists (b :: app). split; [exact I|now apply bytes_eqb_eq]. }
  clearbody sec uri. destruct (sec && negb uri) eqn:A.
  { apply andb_prop in A. destruct A as [A1 A2]. apply negb_true_iff in A2. split; [|now right]. split; [intros (t & E); discriminate E|].
    intros (_ & H & _). destruct (H (proj1 SEC A1)) as (H1 & H2 & _). rewrite (proj2 URI (conj H1 H2)) in A2. discriminate. }
  destruct (sec && (Z.of_nat (length cn) <? nonceLength)) eqn:B.
  { apply andb_prop in B. destruct B as [B1 B2]. apply Z.ltb_lt in B2. unfold nonceLength in B2. split; [|now right]. split; [intros (t & E); discriminate E|].
    intros (_ & H & _). destruct (H (proj1 SEC B1)) as (_ & _ & H2). lia. }
  destruct ((0 <? max) && (max <=? Z.of_nat (length (ss_table st)))) eqn:C.
  { split; [|now right]. split; [intros (t & E); discriminate E|]. intros (_ & _ & H). lia. }
  split; [|left; eexists; reflexivity]. split; [intros _|intros _; eexists; reflexivity]. split; [reflexivity|]. split.
  - intros P. apply SEC in P. rewrite P in A, B. cbn [andb] in A, B. apply negb_false_iff in A. apply URI in A. destruct A as [A1 A2].
    split; [exact A1|]. split; [exact A2|]. unfold nonceLength in B. lia.
  - lia.
Qed.
