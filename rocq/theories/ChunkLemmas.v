(** The chunk theorems in the form the properties need. *)
From Coq Require Import ZArith List Bool Lia Strings.Byte.
From Verif Require Import Bytes BytesProofs Tac Chunk ChunkSpec ChunkProofs.
Import ListNotations.
Open Scope Z_scope.

Section Link.
  Variable sign enc dec : bytes -> bytes.
  Variable s r : conf.
  Variable cap send : Z.
  Hypothesis L : linked sign enc dec s r cap send.
  Let mb := max_body (c_mode s) (c_sig s) (c_block s) send.

  Lemma mb_pos : 1 <= mb.
  Proof. destruct L as (_ & O & _ & _ & _ & F). unfold conf_ok in O. apply (fits_min (c_mode s) (c_sig s) (c_block s) send ltac:(lia) ltac:(lia) F). Qed.

  Lemma send_message_cases rid seq body fuel : 0 <= rid < 2 ^ 32 -> (length body <= fuel)%nat -> body <> [] ->
    let '(chs, st) := send_message sign enc fuel s cap send rid seq body in
    let n := Z.of_nat (length body) in
    (st = Sent /\ within (c_max_size s) n /\ within (c_max_chunks s) (chunks_needed mb n) /\
       carries sign enc dec s r send rid seq chs body /\ Z.of_nat (length chs) = chunks_needed mb n) \/
    (st = Refused /\ ~ within (c_max_size s) n /\ chs = []) \/
    (st = Refused /\ within (c_max_size s) n /\ ~ within (c_max_chunks s) (chunks_needed mb n) /\
       Z.of_nat (length chs) = c_max_chunks s /\
       exists sent left, begins sign enc dec s r send rid seq chs sent /\ body = sent ++ left /\ left <> []).
  Proof.
    intros R F NE. destruct L as (P & O & G & C & S & T).
    unfold send_message, within.
    assert (LS : 0 <= c_max_size s) by (destruct O; tauto).
    assert (LC : 0 <= c_max_chunks s) by (destruct O; tauto).
    destruct ((0 <? c_max_size s) && (c_max_size s <? Z.of_nat (length body))) eqn:E.
    { right. left. repeat split; lia. }
    pose proof (send_loop_spec sign enc dec s r P O G cap send C S T rid R fuel 0 seq body F NE ltac:(lia) ltac:(lia)) as H.
    destruct (send_loop sign enc fuel s cap send rid 0 seq (Z.of_nat (length body)) body) as [chs st].
    fold mb in H. destruct H as [(H1 & H2 & H3 & H4)|(H1 & H2 & H3 & H4 & H5)].
    - left. split; [exact H1|]. split; [lia|]. split; [lia|]. split; [exact H2|exact H3].
    - right. right. split; [exact H1|]. split; [lia|]. split; [lia|]. split; [lia|]. exact H5.
  Qed.

  Lemma carries_good rid seq chs body : carries sign enc dec s r send rid seq chs body ->
    forall ch, In ch chs -> exists q final part, good_chunk sign enc dec s r send rid q final part ch.
  Proof.
    induction 1 as [q part ch H|q part ch chs body H HC IH]; intros x [<-|I]; eauto; try destruct I.
  Qed.
  Lemma begins_good rid seq chs body : begins sign enc dec s r send rid seq chs body ->
    forall ch, In ch chs -> exists q final part, good_chunk sign enc dec s r send rid q final part ch.
  Proof.
    induction 1 as [q|q part ch chs body H HC IH]; intros x I; [destruct I|]. destruct I as [<-|I]; eauto.
  Qed.

  Lemma begins_open rid seq chs body : begins sign enc dec s r send rid seq chs body ->
    Forall (fun ch => exists part, open_chunk sign dec r ch = RxPart false rid part) chs.
  Proof.
    induction 1 as [q|q part ch chs body H HC IH]; constructor; [destruct H as (H & _); eauto|exact IH].
  Qed.

  Lemma chunks_fit rid seq body fuel chs st : 0 <= rid < 2 ^ 32 -> (length body <= fuel)%nat ->
    send_message sign enc fuel s cap send rid seq body = (chs, st) ->
    st <> StillSending /\
    forall ch, In ch chs ->
      Z.of_nat (length ch) <= send /\ u32_at 4 ch = Z.of_nat (length ch) /\
      (c_mode s = MSignEnc -> (Z.of_nat (length ch) - 16) mod c_block s = 0) /\
      exists final part, part <> [] /\ open_chunk sign dec r ch = RxPart final rid part.
  Proof.
    intros R F H. destruct body as [|b0 body0].
    { unfold send_message in H. destruct L as (_ & O & _). cbn [length] in H. change (Z.of_nat 0) with 0 in H.
      destruct ((0 <? c_max_size s) && (c_max_size s <? 0)).
      - injection H as <- <-. split; [discriminate|intros ch []].
      - destruct fuel; cbn in H; injection H as <- <-; (split; [discriminate|intros ch []]). }
    set (body := b0 :: body0) in *.
    pose proof (send_message_cases rid seq body fuel R F ltac:(discriminate)) as C. rewrite H in C. cbv zeta in C.
    assert (K : st <> StillSending /\ forall ch, In ch chs -> exists q final part, good_chunk sign enc dec s r send rid q final part ch).
    { destruct C as [(-> & _ & _ & C & _)|[(-> & _ & ->)|(-> & _ & _ & _ & x & y & C & _)]]; (split; [discriminate|]).
      - apply (carries_good _ _ _ _ C).
      - intros ch [].
      - apply (begins_good _ _ _ _ C). }
    destruct K as [K1 K2]. split; [exact K1|]. intros ch I.
    destruct (K2 ch I) as (q & final & part & G1 & G2 & G3 & G4 & _ & G6 & _).
    destruct L as ((P1 & _ & P3 & _) & _). rewrite P1, P3. repeat split; eauto.
  Qed.

  Lemma sent_iff rid seq body fuel : 0 <= rid < 2 ^ 32 -> (length body <= fuel)%nat -> body <> [] ->
    (snd (send_message sign enc fuel s cap send rid seq body) = Sent <->
     within (c_max_size s) (Z.of_nat (length body)) /\
     within (c_max_chunks s) (chunks_needed mb (Z.of_nat (length body)))).
  Proof.
    intros R F NE. pose proof (send_message_cases rid seq body fuel R F NE) as C.
    destruct (send_message sign enc fuel s cap send rid seq body) as [chs st]. cbv zeta in C. cbn [snd].
    destruct C as [(-> & A & B & _)|[(-> & A & _)|(-> & _ & A & _)]]; split; intros; try discriminate; tauto.
  Qed.

  Lemma sender_limits rid seq body fuel chs st : 0 <= rid < 2 ^ 32 -> (length body <= fuel)%nat -> body <> [] ->
    send_message sign enc fuel s cap send rid seq body = (chs, st) ->
    within (c_max_chunks s) (Z.of_nat (length chs)) /\
    (~ within (c_max_size s) (Z.of_nat (length body)) -> chs = [] /\ st = Refused) /\
    (~ within (c_max_chunks s) (chunks_needed mb (Z.of_nat (length body))) -> st = Refused /\
       Forall (fun ch => exists part, open_chunk sign dec r ch = RxPart false rid part) chs).
  Proof.
    intros R F NE H. pose proof (send_message_cases rid seq body fuel R F NE) as C. rewrite H in C. cbv zeta in C.
    destruct C as [(-> & A & B & D & E)|[(-> & A & ->)|(-> & A & B & D & x & y & E & _)]].
    - rewrite E. repeat split; tauto.
    - split; [unfold within; destruct L as (_ & O & _); destruct O as (_ & _ & _ & _ & O & _); cbn [length]; lia|]. repeat split. constructor.
    - split; [unfold within; lia|]. split; [tauto|]. intros _. split; [reflexivity|].
      eapply begins_open; exact E.
  Qed.

  Lemma roundtrip rid seq body fuel rfuel rcap chs rest : 0 <= rid < 2 ^ 32 -> (length body <= fuel)%nat -> body <> [] ->
    send_message sign enc fuel s cap send rid seq body = (chs, Sent) ->
    send <= rcap -> within (chunk_limit r) (Z.of_nat (length chs)) -> within (c_max_size r) (Z.of_nat (length body)) ->
    (length chs <= rfuel)%nat ->
    recv_message sign dec rfuel r rcap (concat chs ++ rest) = Received rid body rest.
  Proof.
    intros R F NE H RC W1 W2 RF. pose proof (send_message_cases rid seq body fuel R F NE) as C. rewrite H in C. cbv zeta in C.
    destruct C as [(_ & A & B & D & E)|[(X & _)|(X & _)]]; try discriminate.
    unfold recv_message. apply (recv_loop_spec sign enc dec s r send rid rcap seq chs body rest RC D rfuel 0 [] RF); [lia| |].
    - unfold within in W1. lia.
    - cbn [app]. unfold within in W2. lia.
  Qed.

  Lemma sent_carries rid seq body fuel chs : 0 <= rid < 2 ^ 32 -> (length body <= fuel)%nat -> body <> [] ->
    send_message sign enc fuel s cap send rid seq body = (chs, Sent) ->
    carries sign enc dec s r send rid seq chs body.
  Proof.
    intros R F NE H. pose proof (send_message_cases rid seq body fuel R F NE) as C. rewrite H in C. cbv zeta in C.
    destruct C as [(_ & A & B & D & E)|[(X & _)|(X & _)]]; try discriminate. exact D.
  Qed.

  Lemma needed_le n : 1 <= n -> chunks_needed mb n <= n.
  Proof.
    intros N. pose proof mb_pos. unfold chunks_needed. apply Z.lt_succ_r. apply Z.div_lt_upper_bound; [lia|]. nia.
  Qed.

  Lemma stream fuel rcap : send <= rcap -> forall ms seq rest,
    Forall (fun m => 0 <= fst m < 2 ^ 32 /\ snd m <> [] /\ (length (snd m) <= fuel)%nat /\
       let n := Z.of_nat (length (snd m)) in
       within (c_max_size s) n /\ within (c_max_chunks s) (chunks_needed mb n) /\
       within (c_max_size r) n /\ within (chunk_limit r) (chunks_needed mb n)) ms ->
    recv_all sign dec (length ms) fuel r rcap (concat (send_all sign enc fuel s cap send seq ms) ++ rest) = (ms, rest).
  Proof.
    intros RC. induction ms as [|[rid body] ms IH]; intros seq rest H; [reflexivity|].
    inversion H as [|x l H1 H2 EQ]; subst. cbn [fst snd] in H1. cbv zeta in H1.
    destruct H1 as (R & NE & F & A1 & A2 & A3 & A4). cbn [length recv_all send_all].
    pose proof (proj2 (sent_iff rid seq body fuel R F NE) (conj A1 A2)) as HS.
    destruct (send_message sign enc fuel s cap send rid seq body) as [chs st] eqn:E. cbn [snd] in HS. subst st. cbn [fst].
    pose proof (send_message_cases rid seq body fuel R F NE) as C. rewrite E in C. cbv zeta in C.
    destruct C as [(_ & _ & _ & _ & N)|[(X & _)|(X & _)]]; try discriminate.
    assert (1 <= Z.of_nat (length body)) by (destruct body; [congruence|cbn [length]; lia]).
    rewrite concat_app, <- app_assoc.
    rewrite (roundtrip rid seq body fuel fuel rcap chs _ R F NE E RC).
    - rewrite IH by exact H2. reflexivity.
    - rewrite N. exact A4.
    - exact A3.
    - pose proof (needed_le _ H0). lia.
  Qed.
End Link.

Lemma pair_some {A B} (a c : A) (b d : B) : Some (a, b) = Some (c, d) -> a = c /\ b = d.
Proof. intros H. injection H as -> ->. split; reflexivity. Qed.

(** * The receiver on arbitrary bytes *)
Section Receiver.
  Variable sign dec : bytes -> bytes.
  Variable r : conf.

  Lemma open_length ch final rid part : open_chunk sign dec r ch = RxPart final rid part -> u32_at 4 ch = Z.of_nat (length ch).
  Proof.
    unfold open_chunk. cbv zeta. destruct (Z.of_nat (length ch) =? u32_at 4 ch) eqn:E; [lia|]. discriminate.
  Qed.

  Lemma read_chunk_split cap st b rest : read_chunk cap st = Some (b, rest) -> st = b ++ rest.
  Proof.
    unfold read_chunk. cbv zeta. destruct (_ <? 8); [discriminate|]. destruct (cap <? _); [discriminate|].
    destruct (_ <? 8); [|destruct (_ <? _); [discriminate|]]; intros H; apply pair_some in H as [<- <-]; symmetry; apply firstn_skipn.
  Qed.
  Lemma read_chunk_cap cap st b rest : 8 <= cap -> read_chunk cap st = Some (b, rest) -> Z.of_nat (length b) <= cap.
  Proof.
    intros C. unfold read_chunk. cbv zeta. set (n := le_dec _).
    destruct (Z.of_nat (length st) <? 8) eqn:E; [discriminate|]. destruct (cap <? n) eqn:E0; [discriminate|].
    destruct (n <? 8) eqn:E1; [|destruct (Z.of_nat (length st) <? n) eqn:E2; [discriminate|]];
      intros H; apply pair_some in H as [<- <-]; rewrite firstn_length; lia.
  Qed.

  Lemma recv_sound fuel : forall k cap acc st rid body rest, 0 <= k ->
    recv_loop sign dec fuel r cap k acc st = Received rid body rest ->
    exists chs b, st = concat chs ++ rest /\ body = acc ++ b /\ opens sign dec r rid chs b /\
      (chunk_limit r <= 0 \/ k + Z.of_nat (length chs) <= chunk_limit r) /\
      (c_max_size r <= 0 \/ Z.of_nat (length body) <= c_max_size r).
  Proof.
    induction fuel as [|f IH]; intros k cap acc st rid body rest K H; [discriminate|].
    cbn [recv_loop] in H. destruct ((0 <? chunk_limit r) && (chunk_limit r <? k + 1)) eqn:E0; [discriminate|].
    destruct (read_chunk cap st) as [[b rest']|] eqn:ER; [|discriminate].
    destruct (open_chunk sign dec r b) as [final rid' part| | |] eqn:EO; try discriminate.
    destruct ((0 <? c_max_size r) && (c_max_size r <? Z.of_nat (length (acc ++ part)))) eqn:E1; [discriminate|].
    apply read_chunk_split in ER. subst st. destruct final.
    - injection H as <- <- <-. exists [b], part. cbn [concat length]. rewrite app_nil_r.
      repeat split; [constructor; [eapply open_length; eauto|exact EO]|lia|lia].
    - apply IH in H as (chs & b' & H1 & H2 & H3 & H4 & H5); [|lia].
      exists (b :: chs), (part ++ b'). cbn [concat length]. subst rest' body. rewrite <- !app_assoc.
      repeat split; [econstructor; [eapply open_length; eauto|eauto|exact H3]|lia|rewrite <- app_assoc in H5; exact H5].
  Qed.

  Lemma receiver_limits fuel cap st rid body rest : 0 <= c_max_size r -> 0 <= c_max_chunks r < 2 ^ 31 ->
    recv_message sign dec fuel r cap st = Received rid body rest ->
    exists chs, st = concat chs ++ rest /\ opens sign dec r rid chs body /\
      within (c_max_chunks r) (Z.of_nat (length chs)) /\ within (c_max_size r) (Z.of_nat (length body)).
  Proof.
    intros A B H. unfold recv_message in H. apply recv_sound in H as (chs & b & H1 & H2 & H3 & H4 & H5); [|lia].
    cbn [app] in H2. subst b. exists chs. repeat split; try assumption.
    - unfold within. assert (chunk_limit r = c_max_chunks r); [|lia].
      unfold chunk_limit. destruct (c_side r); [reflexivity|]. unfold wrap32. rewrite Z.mod_small by lia. lia.
    - unfold within. lia.
  Qed.

  Lemma open_signed ch final rid part : secured (c_mode r) = true -> 0 <= c_sig r ->
    open_chunk sign dec r ch = RxPart final rid part -> signed sign dec r ch.
  Proof.
    intros M S. unfold open_chunk. cbv zeta.
    destruct (negb _); [discriminate|]. destruct (negb _); [discriminate|]. destruct (_ <? 12); [discriminate|].
    destruct (negb _); [discriminate|]. destruct (_ <? 16); [discriminate|]. destruct (_ && _); [discriminate|].
    match goal with |- open_body sign r ?x = _ -> _ => set (pl := x) end.
    unfold open_body. cbv zeta. rewrite M. cbn [andb]. destruct (Z.of_nat (length pl) - c_sig r <? 0) eqn:E; [discriminate|].
    set (n := Z.to_nat (Z.of_nat (length pl) - c_sig r)).
    destruct (bytes_eqb (sign (firstn n pl)) (skipn n pl)) eqn:E1; cbn [negb]; [|discriminate]. intros _.
    apply bytes_eqb_eq in E1. unfold signed. cbv zeta. change (if encrypted (c_mode r) then firstn 16 ch ++ dec (skipn 16 ch) else ch) with pl. exists (firstn n pl). split.
    - rewrite E1. symmetry. apply firstn_skipn.
    - rewrite E1, skipn_length. unfold n. lia.
  Qed.

  Lemma opens_signed rid chs body : secured (c_mode r) = true -> 0 <= c_sig r ->
    opens sign dec r rid chs body -> Forall (signed sign dec r) chs.
  Proof.
    intros M S. induction 1; constructor; eauto using open_signed.
  Qed.

  (** Without signature no chunk makes the receiver panic. *)
  Lemma open_none_no_panic ch : c_mode r = MNone -> c_sig r = 0 -> open_chunk sign dec r ch <> RxPanic.
  Proof.
    intros M S. unfold open_chunk. cbv zeta. rewrite M. cbn [encrypted andb].
    destruct (negb _); [discriminate|]. destruct (negb _); [discriminate|]. destruct (_ <? 12); [discriminate|].
    destruct (negb _); [discriminate|]. destruct (_ <? 16); [discriminate|].
    unfold open_body. cbv zeta. rewrite M, S. cbn [secured encrypted andb].
    destruct (_ <? 24) eqn:E; [discriminate|]. unfold plain_hdr, seq_hdr. destruct (_ <? 0) eqn:E1; [lia|]. discriminate.
  Qed.
  Lemma recv_none_no_panic fuel : forall k cap acc st, c_mode r = MNone -> c_sig r = 0 ->
    recv_loop sign dec fuel r cap k acc st <> RecvPanic.
  Proof.
    induction fuel as [|f IH]; intros k cap acc st M S; [discriminate|]. cbn [recv_loop].
    destruct (_ && _); [discriminate|]. destruct (read_chunk cap st) as [[b rest]|]; [|discriminate].
    pose proof (open_none_no_panic b M S). destruct (open_chunk sign dec r b) as [final rid' part| | |]; try discriminate; [|congruence].
    destruct (_ && _); [discriminate|]. destruct final; [discriminate|]. apply IH; assumption.
  Qed.
End Receiver.

(** * Policies *)
Lemma policies_fit p m send : In p policies -> (m = MNone -> p = pol_none) -> 8192 <= send ->
  one_chunk_fits m (sig_size p) (blk_size p) send.
Proof.
  intros I N S. cbn [policies In] in I.
  destruct I as [<-|[<-|[<-|[<-|[<-|[<-|[]]]]]]]; destruct m; cbn; try lia.
Qed.

(** * Witnesses *)
Definition ex_sign (n : nat) (x : bytes) : bytes := repeat (byte_of_Z (Z.of_nat (length x))) n.
Definition ex_enc (x : bytes) : bytes := rev x.
Lemma ex_crypto n block : good_crypto (Z.of_nat n) block (ex_sign n) ex_enc ex_enc.
Proof.
  split.
  - intros m. unfold ex_sign. rewrite repeat_length. reflexivity.
  - intros x _. unfold ex_enc. split; [apply rev_involutive|apply rev_length].
Qed.
Definition ex_conf (sd : side) (m : mode) (chunks size : Z) : conf :=
  mkConf sd m (match m with MNone => 0 | _ => 32 end) (match m with MNone => 1 | _ => 16 end) 7 9 chunks size.
Lemma ex_linked m chunks size chunks' size' cap send : 0 <= chunks -> 0 <= size -> 8192 <= send <= cap -> send < 2 ^ 32 ->
  linked (ex_sign (match m with MNone => 0 | _ => 32 end)%nat) ex_enc ex_enc
         (ex_conf Client m chunks size) (ex_conf Server m chunks' size') cap send.
Proof.
  intros A B C D. unfold linked. repeat split; try (destruct m; cbn; lia); try (destruct m; cbn; discriminate).
  - destruct m; [reflexivity|discriminate|discriminate].
  - apply rev_involutive.
  - apply rev_length.
Qed.

(** a send buffer without room for a body byte: the sender never gets to the end *)
Lemma stuck_loop fuel : forall k seq, exists chs,
  send_loop (fun _ => []) (fun x => x) fuel (ex_conf Server MNone 0 0) 65536 24 1 k seq 1 [x00] = (chs, StillSending) /\
  length chs = fuel.
Proof.
  induction fuel as [|f IH]; intros k seq; [exists []; split; reflexivity|].
  destruct (IH (k + 1) (next_counter seq)) as (chs & IH1 & IH2).
  cbn [send_loop]. change (1 <=? 0) with false. cbn iota.
  change (c_max_chunks (ex_conf Server MNone 0 0)) with 0. change (0 <? 0) with false. cbn [andb].
  set (p := plan_chunk _ _ _ _ _).
  assert (HP : p = mkPlan 0 0 0 24) by reflexivity. rewrite HP. cbn [p_body]. change (Z.to_nat 0) with 0%nat.
  change (firstn 0 [x00]) with (@nil byte). change (skipn 0 [x00]) with [x00].
  change (Z.of_nat (length (@nil byte)) <? 0) with false. cbn iota. change (1 - 0) with 1. rewrite IH1.
  assert (HB : exists c, build_chunk (fun _ => []) (fun x => x) (ex_conf Server MNone 0 0) 65536 (next_counter seq) 1
     (mkPlan 0 0 0 24) (negb (0 <? 1)) [] = Some c).
  { unfold build_chunk. cbv zeta. cbn [c_side c_mode ex_conf secured encrypted andb padding_bytes p_chunk].
    puts ltac:(rewrite ?app_length, ?le_enc_length; cbn [length]; lia).
    rewrite !app_length, !le_enc_length. cbn [length]. eexists. reflexivity. }
  destruct HB as (c & ->). exists (c :: chs). split; [reflexivity|]. cbn [length]. lia.
Qed.
