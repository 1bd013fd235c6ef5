(** The asymmetric theorems in the form the properties need, and witnesses. *)
From Coq Require Import ZArith List Bool Lia Strings.Byte ZifyBool ZifyNat ZifyN.
From Verif Require Import Tac Bytes Prim CodecSpec BytesProofs PrimProofs Chunk ChunkSpec ChunkProofs ChunkLemmas Asym AsymSpec AsymProofs.
Import ListNotations.
Open Scope Z_scope.

Lemma open_fits_standard c send n : 8192 <= send -> length (a_thumb c) = 20%nat ->
  (length (a_uri c) <= 64)%nat -> (length (a_cert c) <= 2000)%nat ->
  128 <= a_cblk c <= 512 -> 128 <= a_sig c <= 512 -> 11 <= a_rsapad c <= 66 -> 0 <= n <= 400 ->
  open_fits c send n.
Proof.
  intros S T U C B G R N. unfold open_fits. rewrite head_length by exact T. unfold ahdr, pblk. destruct (a_sec c); [|lia].
  set (ph := if 256 <? a_cblk c then 2 else 1). assert (H : 1 <= ph <= 2) by (unfold ph; destruct (256 <? a_cblk c); lia).
  clearbody ph. set (cb := a_cblk c) in *. set (sg := a_sig c) in *. set (rp := a_rsapad c) in *. clearbody cb sg rp.
  set (x := 8 + n + ph + sg). assert (X : 0 <= x <= 922) by (unfold x; lia). clearbody x.
  pose proof (Z.div_mod (x + (cb - rp) - 1) (cb - rp) ltac:(lia)) as D.
  pose proof (Z.mod_pos_bound (x + (cb - rp) - 1) (cb - rp) ltac:(lia)) as M.
  set (q := (x + (cb - rp) - 1) / (cb - rp)) in *. clearbody q.
  set (md := (x + (cb - rp) - 1) mod (cb - rp)) in *. clearbody md.
  assert (q * (cb - rp) <= 922 + (cb - rp)) by nia.
  assert (q * cb <= 3000); [|lia].
  assert (q <= 15) by nia.
  assert (q * cb <= 922 + cb + q * rp - rp) by nia. nia.
Qed.

(** Toy ciphers with the right block sizes *)
Definition ex_rsa_sign (n : nat) (m : bytes) : bytes := repeat x7a n.
Definition ex_rsa_enc (x : bytes) : bytes := x ++ repeat x00 42.
Definition ex_rsa_dec (x : bytes) : option bytes := Some (firstn (length x - 42) x).
Definition ex_aconf : aconf :=
  mkAConf true (repeat x75 56) (repeat x63 700) (repeat x74 20) 128 256 42 7 0 0.
Lemma ex_rsa_good v cert : (forall m s, v cert m s = true) -> good_rsa ex_aconf (ex_rsa_sign 128) ex_rsa_enc ex_rsa_dec v cert.
Proof.
  intros V. split.
  - intros m. split; [unfold ex_rsa_sign; rewrite repeat_length; reflexivity|apply V].
  - intros x X. unfold ex_rsa_enc, ex_rsa_dec. rewrite app_length, repeat_length. split.
    + change (pblk ex_aconf) with 214 in X. change (a_cblk ex_aconf) with 256. lia.
    + rewrite firstn_app_exact by lia. reflexivity.
Qed.
Lemma ex_aconf_good : let c := ex_aconf in
  aconf_ok c /\ good_rsa c (ex_rsa_sign 128) ex_rsa_enc ex_rsa_dec (fun _ _ _ => true) (seen Server (sent_cert c)) /\
  open_fits c 8192 150 /\
  match send_open (ex_rsa_sign 128) ex_rsa_enc c 8192 8192 0 1 (repeat x41 150) with
  | AWrite ch => length ch = 1312%nat /\
      recv_open ex_rsa_dec (fun _ _ _ => true) (fun _ => Some true) (fun _ => RsaKey 128) Server 256 ch [] =
        AOpened (a_uri c) (Some (a_cert c)) (Some (a_thumb c)) 1 (repeat x41 150)
  | _ => False
  end.
Proof.
  cbv zeta. split; [|split; [apply ex_rsa_good; reflexivity|split]].
  - unfold aconf_ok, ex_aconf, len_ok, pblk. cbn [a_uri a_cert a_thumb a_chan a_sig a_rsapad a_cblk].
    rewrite !repeat_length. repeat split; lia.
  - apply open_fits_standard; unfold ex_aconf; cbn [a_uri a_cert a_thumb a_chan a_sig a_rsapad a_cblk]; rewrite ?repeat_length; lia.
  - vm_compute. split; reflexivity.
Qed.

Lemma recv_open_none_no_panic dec verify secure rsize sd lsize b stale :
  (forall uri, secure uri <> Some true) -> recv_open dec verify secure rsize sd lsize b stale <> APanics.
Proof.
  intros H. unfold recv_open. destruct (read_uint 4 b) as [t r4| | |]; try discriminate.
  destruct (read_uint 4 r4) as [len r8| | |]; try discriminate.
  destruct (negb _); [discriminate|]. destruct (negb _); [discriminate|].
  destruct (open_header sd b) as [[[[[t' l'] uri] cert] thumb] rest| | |]; try discriminate.
  pose proof (H uri). destruct (secure uri) as [[|]|]; [congruence| |discriminate].
  destruct (_ <? 8); discriminate.
Qed.

Lemma short_chunk sign dec : exists r ch,
  c_side r = Server /\ c_mode r = MSign /\ c_sig r = 32 /\ length ch = 16%nat /\
  recv_message sign dec 1 r 8192 ch = RecvPanic.
Proof.
  exists (ex_conf Server MSign 0 0), (le_enc 4 t_final ++ le_enc 4 16 ++ le_enc 4 7 ++ le_enc 4 9).
  repeat split.
Qed.

Lemma other_key_panics dec verify secure rsize lsize stale :
  (forall uri, secure uri = Some true) -> (forall cert, rsize cert = OtherKey) ->
  exists b, recv_open dec verify secure rsize Server lsize b stale = APanics.
Proof.
  intros S R. exists (le_enc 4 t_open ++ le_enc 4 24 ++ le_enc 4 7 ++ le_enc 4 (-1) ++ le_enc 4 0 ++ le_enc 4 0).
  unfold recv_open.
  set (b := le_enc 4 t_open ++ _).
  assert (A : read_uint 4 b = Ok t_open (skipn 4 b)) by reflexivity.
  assert (B : read_uint 4 (skipn 4 b) = Ok 24 (skipn 8 b)) by reflexivity. rewrite A, B.
  change (negb (Z.of_nat (length b) =? 24)) with false. cbn iota.
  change (negb (t_open =? t_open)) with false. cbn iota.
  assert (C : open_header Server b = Ok (t_open, 24, [], Some [], Some []) []) by reflexivity. rewrite C.
  rewrite S. cbn iota. rewrite R. reflexivity.
Qed.

Lemma open_padding_panics : exists c body,
  good_rsa c (ex_rsa_sign 128) ex_rsa_enc ex_rsa_dec (fun _ _ s => bytes_eqb s (ex_rsa_sign 128 [])) (seen Server (sent_cert c)) /\
  exists b, recv_open ex_rsa_dec (fun _ _ s => bytes_eqb s (ex_rsa_sign 128 [])) (fun _ => Some true) (fun _ => RsaKey 128) Server 256 b body = APanics.
Proof.
  exists ex_aconf, []. split.
  - destruct (ex_rsa_good (fun _ _ _ => true) (seen Server (sent_cert ex_aconf)) (fun _ _ => eq_refl)) as [A B]. split; [|exact B].
    intros m. split; [apply A|]. reflexivity.
  - exists (let head := open_head ex_aconf 1056 in head ++ ex_rsa_enc (repeat x00 85 ++ [xff] ++ repeat x7a 128)).
    vm_compute. reflexivity.
Qed.

Lemma small_buffer : exists c send body, conf_ok c /\ 0 < send /\
  forall fuel, exists chs,
    send_message (fun _ => []) (fun x => x) fuel c 65536 send 1 0 body = (chs, StillSending) /\ length chs = fuel.
Proof.
  exists (ex_conf Server MNone 0 0), 24, [x00]. split; [|split; [lia|]].
  - unfold conf_ok, ex_conf. cbn. repeat split; lia.
  - intros fuel. destruct (stuck_loop fuel 0 0) as (chs & A & B). exists chs. split; [|exact B].
    unfold send_message. change (c_max_size (ex_conf Server MNone 0 0)) with 0. cbn [Z.ltb Z.compare andb]. exact A.
Qed.

Lemma half_sent : exists s r body1 body2,
  linked (ex_sign 0) ex_enc ex_enc s r 8192 8192 /\
  let '(chs1, st1) := send_message (ex_sign 0) ex_enc (Z.to_nat 40000) s 8192 8192 1 0 body1 in
  let '(chs2, st2) := send_message (ex_sign 0) ex_enc (Z.to_nat 40000) s 8192 8192 2 2 body2 in
  st1 = Refused /\ st2 = Sent /\
  recv_message (ex_sign 0) ex_enc 9 r 8192 (concat chs2) = Received 2 body2 [] /\
  recv_message (ex_sign 0) ex_enc 9 r 8192 (concat (chs1 ++ chs2)) = RecvErr.
Proof.
  exists (ex_conf Client MNone 2 0), (ex_conf Server MNone 2 0), (repeat x41 (Z.to_nat 20000)), (repeat x42 30).
  split; [apply (ex_linked MNone); lia|]. vm_compute. repeat split; reflexivity.
Qed.

Lemma delivered_signed sign dec r fuel cap st rid body rest :
  secured (c_mode r) = true -> 0 <= c_sig r -> 0 <= c_max_size r -> 0 <= c_max_chunks r < 2 ^ 31 ->
  recv_message sign dec fuel r cap st = Received rid body rest ->
  exists chs, st = concat chs ++ rest /\ Forall (signed sign dec r) chs.
Proof.
  intros A B C D H. destruct (receiver_limits sign dec r fuel cap st rid body rest C D H) as (chs & H1 & H2 & _).
  exists chs. split; [exact H1|]. eapply opens_signed; eassumption.
Qed.

(** The server converts its chunk limit to int32: from 2^31 on there is no limit. *)
Lemma limit_wraps : exists r, c_side r = Server /\ c_max_chunks r = 2 ^ 31 /\
  forall sign enc dec s send seq rid chs body rest rcap fuel, send <= rcap ->
    carries sign enc dec s r send rid seq chs body -> (length chs <= fuel)%nat ->
    recv_message sign dec fuel r rcap (concat chs ++ rest) = Received rid body rest.
Proof.
  exists (ex_conf Server MSignEnc (2 ^ 31) 0). split; [reflexivity|]. split; [reflexivity|].
  intros sign enc dec s send seq rid chs body rest rcap fuel C H F. unfold recv_message.
  apply (recv_loop_spec sign enc dec s (ex_conf Server MSignEnc (2 ^ 31) 0) send rid rcap seq chs body rest C H fuel 0 [] F); [lia| |].
  - left. vm_compute. discriminate.
  - left. vm_compute. discriminate.
Qed.
