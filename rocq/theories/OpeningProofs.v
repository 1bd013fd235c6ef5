(** Proofs about the first messages of a connection. *)
From Coq Require Import ZArith List Bool Lia Strings.Byte.
From Verif Require Import Bytes BytesProofs Prim PrimSpec CodecSpec PrimProofs CodecLemmas Chunk ChunkSpec ChunkProofs Keys KeysSpec KeysProofs
  Framing FramingSpec FramingProofs Opening OpeningSpec.
Import ListNotations.
Open Scope Z_scope.
Ltac Zify.zify_post_hook ::= idtac.

Definition zeros (n : nat) : bytes := repeat x00 n.

Lemma bind_inv : forall A B (r : reader A) (k : A -> reader B) s b rest, bind r k s = Ok b rest ->
  exists a s', r s = Ok a s' /\ k a s' = Ok b rest.
Proof. intros A B r k s b rest H. unfold bind in H. destruct (r s) as [a s'|s'| |]; try discriminate. exists a, s'. split; [reflexivity|exact H]. Qed.

Lemma u32_inv : forall s v r, read_uint 4 s = Ok v r -> (4 <= length s)%nat /\ v = le_dec (firstn 4 s) /\ r = skipn 4 s.
Proof.
  intros s v r H. unfold read_uint, fmap in H. apply bind_inv in H. destruct H as (a & s' & H & K). unfold ret in K. injection K as <- <-.
  unfold read_full in H. change (Z.of_nat 4) with 4 in H. destruct (Z.of_nat (length s) <? 4) eqn:E; [discriminate|].
  apply Z.ltb_ge in E. injection H as <- <-. split; [lia|]. split; reflexivity.
Qed.
Lemma u32_ok_read : forall s, (4 <= length s)%nat -> read_uint 4 s = Ok (le_dec (firstn 4 s)) (skipn 4 s).
Proof.
  intros s L. unfold read_uint, fmap, bind, read_full, ret. change (Z.of_nat 4) with 4.
  destruct (Z.of_nat (length s) <? 4) eqn:E; [apply Z.ltb_lt in E; lia|]. reflexivity.
Qed.

Lemma number_is : forall k (b : bytes), (k + 4 <= length b)%nat -> number_at k b = le_dec (firstn 4 (skipn k b)).
Proof.
  intros k b L. unfold number_at.
  assert (N : forall j, nth (k + j) b x00 = nth j (skipn k b) x00).
  { clear L. revert b. induction k as [|k IH]; intros b j; [reflexivity|]. destruct b as [|x b]; [destruct j; reflexivity|]. cbn [Nat.add nth skipn]. apply IH. }
  rewrite !N. assert (L' : (4 <= length (skipn k b))%nat) by (rewrite skipn_length; lia).
  destruct (skipn k b) as [|b0 [|b1 [|b2 [|b3 l]]]]; cbn [length] in L'; try lia.
  cbn [nth List.firstn le_dec]. unfold Z_of_byte. lia.
Qed.
Lemma number_app : forall k (b t : bytes), (k + 4 <= length b)%nat -> number_at k (b ++ t) = number_at k b.
Proof. intros k b t L. unfold number_at. rewrite !app_nth1 by lia. reflexivity. Qed.

Lemma enc_dec4 : forall l : bytes, length l = 4%nat -> le_enc 4 (le_dec l) = l.
Proof.
  intros l L. pose proof (le_enc_dec l) as H. rewrite L in H. exact H.
Qed.
Lemma tag_is : forall l : bytes, (4 <= length l)%nat -> (le_dec (firstn 4 l) =? t_hello) = true <-> says_hello l.
Proof.
  intros l L. rewrite Z.eqb_eq. assert (L4 : length (firstn 4 l) = 4%nat) by (rewrite firstn_length; lia).
  unfold says_hello. split; intros H.
  - rewrite <- (enc_dec4 (firstn 4 l) L4), H. reflexivity.
  - rewrite H. reflexivity.
Qed.

Lemma fields_inv : forall buf recv send size chunks url rest, read_hello buf = Ok (recv, send, size, chunks, url) rest ->
  says_hello buf /\ 28 <= length_field buf /\ send = number_at 16 buf /\ (32 <= length buf)%nat.
Proof.
  intros buf recv send size chunks url rest H. unfold read_hello in H.
  apply bind_inv in H. destruct H as (t & s1 & H1 & H). apply u32_inv in H1. destruct H1 as (L1 & T & S1).
  destruct (t =? t_hello) eqn:E; cbn [negb] in H.
  2:{ apply bind_inv in H. destruct H as (? & ? & ? & H). discriminate. }
  apply bind_inv in H. destruct H as (len & s2 & H2 & H). apply u32_inv in H2. destruct H2 as (L2 & N & S2).
  destruct (len <? 28) eqn:E2; [discriminate|]. apply Z.ltb_ge in E2.
  apply bind_inv in H. destruct H as (ver & s3 & H3 & H). apply u32_inv in H3. destruct H3 as (L3 & _ & S3).
  destruct (ver <? 0); [discriminate|].
  apply bind_inv in H. destruct H as (rcv & s4 & H4 & H). apply u32_inv in H4. destruct H4 as (L4 & _ & S4).
  apply bind_inv in H. destruct H as (snd & s5 & H5 & H). apply u32_inv in H5. destruct H5 as (L5 & N5 & S5).
  apply bind_inv in H. destruct H as (sz & s6 & H6 & H). apply u32_inv in H6. destruct H6 as (L6 & _ & S6).
  apply bind_inv in H. destruct H as (ck & s7 & H7 & H). apply u32_inv in H7. destruct H7 as (L7 & _ & S7).
  apply bind_inv in H. destruct H as (u & s8 & H8 & H). unfold ret in H. injection H as Q1 Q2 Q3 Q4 Q5 Q6. rewrite Q2 in N5.
  assert (L8 : (4 <= length s7)%nat).
  { unfold read_string in H8. apply bind_inv in H8. destruct H8 as (n & q & H8 & _). unfold read_sint, fmap in H8.
    apply bind_inv in H8. destruct H8 as (a & q' & H8 & _). unfold read_full in H8. change (Z.of_nat 4) with 4 in H8.
    destruct (Z.of_nat (length s7) <? 4) eqn:E8; [discriminate|]. apply Z.ltb_ge in E8. lia. }
  subst s7 s6 s5 s4 s3 s2 s1. rewrite !skipn_skipn_add in *. cbn [Nat.add] in *.
  assert (LL : (32 <= length buf)%nat) by (rewrite skipn_length in L8; lia).
  split; [|split; [|split]].
  - apply tag_is; [lia|]. rewrite <- T. exact E.
  - rewrite (field_is buf) by lia. rewrite <- N. exact E2.
  - rewrite N5. symmetry. apply number_is. lia.
  - exact LL.
Qed.

Lemma accept_inv : forall max s buf s' ack, server_accept max s buf = Some (s', ack) ->
  exists recv send size chunks url rest, read_hello buf = Ok (recv, send, size, chunks, url) rest /\
    s' = mkEnds (Z.min send (e_recv s)) (Z.min recv (e_send s)) (e_max_req s) (e_req_chunks s) size chunks /\ ack = ack_bytes max s'.
Proof.
  intros max s buf s' ack H. unfold server_accept in H.
  destruct (read_hello buf) as [[[[[recv send] size] chunks] url] rest|rest| |]; try discriminate.
  exists recv, send, size, chunks, url, rest. injection H as H1 H2.
  replace (if send <? e_recv s then send else e_recv s) with (Z.min send (e_recv s)) in * by (destruct (Z.ltb_spec send (e_recv s)); lia).
  replace (if recv <? e_send s then recv else e_send s) with (Z.min recv (e_send s)) in * by (destruct (Z.ltb_spec recv (e_send s)); lia).
  subst s' ack. repeat split.
Qed.

Lemma answer_inv : forall max s buf s' ack url, answer_hello max s buf = inl (s', ack, url) ->
  says_hello buf /\ 28 <= length_field buf /\ (32 <= length buf)%nat /\ ack = ack_bytes max s' /\
  e_recv s' = Z.min (number_at 16 buf) (e_recv s) /\ e_send s' <= e_send s.
Proof.
  intros max s buf s' ack url H. unfold answer_hello in H.
  destruct (bind _ _ buf) as [[t len] rest|rest| |]; try discriminate.
  destruct (negb (t =? t_hello)); [discriminate|]. destruct (len <? 28); [discriminate|].
  destruct (read_uint 4 rest); try discriminate.
  destruct (read_hello buf) as [[[[[recv send] size] chunks] u] rest'|rest'| |] eqn:E; try discriminate.
  destruct (server_accept max s buf) as [[s1 ack1]|] eqn:A; [|discriminate]. injection H as -> -> ->.
  apply accept_inv in A. destruct A as (recv' & send' & size' & chunks' & u' & r' & E' & S & K).
  rewrite E in E'. injection E' as <- <- <- <- <- <-.
  apply fields_inv in E. destruct E as (E1 & E2 & E3 & E4). subst s' send. cbn. repeat (split; [assumption|]).
  split; [reflexivity|lia].
Qed.

(** a Hello that reads well is answered *)
Lemma answer_ok : forall max s buf recv send size chunks url rest, 28 <= max ->
  read_hello buf = Ok (recv, send, size, chunks, url) rest ->
  let s' := mkEnds (Z.min send (e_recv s)) (Z.min recv (e_send s)) (e_max_req s) (e_req_chunks s) size chunks in
  answer_hello max s buf = inl (s', ack_layout s', url).
Proof.
  intros max s buf recv send size chunks url rest M H s'. pose proof (fields_inv _ _ _ _ _ _ _ H) as (F1 & F2 & F3 & F4).
  unfold answer_hello. unfold bind at 1. rewrite (u32_ok_read buf) by lia. unfold bind at 1.
  rewrite (u32_ok_read (skipn 4 buf)) by (rewrite skipn_length; lia). unfold ret.
  replace (le_dec (firstn 4 buf) =? t_hello) with true by (symmetry; apply tag_is; [lia|exact F1]). cbn [negb].
  rewrite <- (field_is buf) by lia. destruct (length_field buf <? 28) eqn:E; [apply Z.ltb_lt in E; lia|].
  rewrite (u32_ok_read (skipn 4 (skipn 4 buf))) by (rewrite !skipn_length; lia). rewrite H.
  assert (A : server_accept max s buf = Some (s', ack_bytes max s')).
  { unfold server_accept. rewrite H.
    replace (if send <? e_recv s then send else e_recv s) with (Z.min send (e_recv s)) by (destruct (Z.ltb_spec send (e_recv s)); lia).
    replace (if recv <? e_send s then recv else e_send s) with (Z.min recv (e_send s)) by (destruct (Z.ltb_spec recv (e_send s)); lia).
    reflexivity. }
  rewrite A, ack_fits by exact M. reflexivity.
Qed.

(** all refusals of the first message have the same code *)
Lemma answer_refusal : forall max s buf code, (12 <= length buf)%nat -> answer_hello max s buf = inr code -> code = bad_decoding.
Proof.
  intros max s buf code L H. unfold answer_hello in H. unfold bind at 1 in H. rewrite (u32_ok_read buf) in H by lia. unfold bind at 1 in H.
  rewrite (u32_ok_read (skipn 4 buf)) in H by (rewrite skipn_length; lia). unfold ret in H.
  destruct (negb _); [congruence|]. destruct (_ <? 28); [congruence|].
  rewrite (u32_ok_read (skipn 4 (skipn 4 buf))) in H by (rewrite !skipn_length; lia).
  destruct (read_hello buf) as [[[[[recv send] size] chunks] u] rest'|rest'| |]; try congruence.
  destruct (server_accept max s buf) as [[s1 ack1]|]; congruence.
Qed.

Lemma answer_other : forall max s buf, (8 <= length buf)%nat -> ~ says_hello buf \/ length_field buf < 28 ->
  answer_hello max s buf = inr bad_decoding.
Proof.
  intros max s buf L H. unfold answer_hello. unfold bind at 1. rewrite (u32_ok_read buf) by lia. unfold bind at 1.
  rewrite (u32_ok_read (skipn 4 buf)) by (rewrite skipn_length; lia). unfold ret.
  destruct (le_dec (firstn 4 buf) =? t_hello) eqn:E; cbn [negb]; [|reflexivity].
  apply tag_is in E; [|lia]. rewrite <- (field_is buf) by lia. destruct (length_field buf <? 28) eqn:E2; [reflexivity|].
  apply Z.ltb_ge in E2. destruct H as [H|H]; [contradiction|lia].
Qed.

Lemma error_fits : forall max code, 16 <= max -> error_bytes max code = error_layout code.
Proof.
  intros max code H. unfold error_bytes, error_layout, write_string, write_int.
  change (le_enc 4 (-1)) with (le_enc 4 4294967295). change t_error with 1179800133.
  unfold put. rewrite !app_length, !firstn_length, !le_enc_length. cbn [length Nat.add].
  rewrite !firstn_all2 by (rewrite ?firstn_length, ?le_enc_length; lia). cbn [app]. rewrite <- !app_assoc. reflexivity.
Qed.

(* ------------------------------------------------------------------ *)
Lemma hello_length : forall c url, length (hello_layout c url) = (32 + length url)%nat.
Proof.
  intros c url. unfold hello_layout. rewrite !app_length, !le_enc_length.
  assert (W : (length (write_string url) = 4 + length url)%nat).
  { unfold write_string. destruct url; [reflexivity|]. rewrite app_length. unfold write_int. rewrite le_enc_length. reflexivity. }
  rewrite W. reflexivity.
Qed.
Lemma whole_head : forall cap t n (rest : bytes), 8 <= n < 2 ^ 32 -> n <= cap -> Z.of_nat (length rest) = n - 8 ->
  whole cap (le_enc 4 t ++ le_enc 4 n ++ rest).
Proof.
  intros cap t n rest N C L.
  assert (LL : Z.of_nat (length (le_enc 4 t ++ le_enc 4 n ++ rest)) = n).
  { rewrite !app_length, !le_enc_length. unfold bytes in *. lia. }
  split; [lia|]. rewrite LL, field_is by (unfold bytes in *; lia).
  replace (firstn 4 (skipn 4 (le_enc 4 t ++ le_enc 4 n ++ rest))) with (le_enc 4 n).
  2:{ rewrite skipn_app_exact by (rewrite le_enc_length; reflexivity). rewrite firstn_app_exact by (rewrite le_enc_length; reflexivity). reflexivity. }
  rewrite le_dec_enc. change (256 ^ Z.of_nat 4) with (2 ^ 32). apply Z.mod_small. lia.
Qed.
Lemma hello_whole : forall max c url, 32 + Z.of_nat (length url) <= max < 2 ^ 32 -> whole max (hello_layout c url).
Proof.
  intros max c url H. unfold hello_layout. apply whole_head; [lia|lia|].
  pose proof (hello_length c url) as L. unfold hello_layout in L. rewrite 2!app_length, 2!le_enc_length in L. unfold bytes in *. lia.
Qed.

(** the server with a first message that it can read whole *)
Lemma begin_front : forall max max_size chunks ps e b t, whole max b -> cut (b ++ t) ps ->
  exists r, concat r = t /\ solid r /\
  server_begin max max_size chunks (mkConn ps e) =
  match answer_hello max (mkEnds max max max_size chunks 0 0) (b ++ zeros (Z.to_nat max - length b)) with
  | inr code => refuse max [] code
  | inl (s, ack, url) =>
      match read (e_recv s) (mkConn r e) with
      | Panics => Crashes [ack]
      | Blocked _ => Waits [ack]
      | TooBig _ => refuse max [ack] bad_channel_closed
      | Broken _ _ => refuse max [ack] bad_channel_closed
      | Chunk [] _ => refuse max [ack] bad_channel_closed
      | Chunk b' rest' => FirstChunk s url b' rest' [ack]
      end
  end.
Proof.
  intros max max_size chunks ps e b t W (U & S).
  destruct (read_front max (mkConn ps e) b t W S U) as (r & R & K & Sr). exists r. split; [exact K|]. split; [exact Sr|].
  unfold server_begin. rewrite R. reflexivity.
Qed.

Lemma begin_hello : forall max max_size chunks ps e c url t,
  32 + Z.of_nat (length url) <= max < 2 ^ 32 -> ends_ok c -> len_ok url -> cut (hello_layout c url ++ t) ps ->
  exists r, concat r = t /\ solid r /\
  server_begin max max_size chunks (mkConn ps e) =
  match read (Z.min (e_send c) max) (mkConn r e) with
  | Panics => Crashes [ack_layout (agreed max max_size chunks c)]
  | Blocked _ => Waits [ack_layout (agreed max max_size chunks c)]
  | TooBig _ => refuse max [ack_layout (agreed max max_size chunks c)] bad_channel_closed
  | Broken _ _ => refuse max [ack_layout (agreed max max_size chunks c)] bad_channel_closed
  | Chunk [] _ => refuse max [ack_layout (agreed max max_size chunks c)] bad_channel_closed
  | Chunk b' rest' => FirstChunk (agreed max max_size chunks c) url b' rest' [ack_layout (agreed max max_size chunks c)]
  end.
Proof.
  intros max max_size chunks ps e c url t M C U K.
  destruct (begin_front max max_size chunks ps e _ t (hello_whole max c url M) K) as (r & R1 & R2 & R). exists r.
  split; [exact R1|]. split; [exact R2|]. rewrite R.
  rewrite (answer_ok max _ _ _ _ _ _ _ _ ltac:(lia) (read_hello_layout c url _ C U ltac:(lia))). reflexivity.
Qed.

Lemma accepted_ok : forall max max_size chunks c url f t ps e,
  32 + Z.of_nat (length url) <= max < 2 ^ 32 -> ends_ok c -> len_ok url ->
  whole (Z.min (e_send c) max) f -> cut (hello_layout c url ++ f ++ t) ps ->
  exists r, server_begin max max_size chunks (mkConn ps e) =
              FirstChunk (agreed max max_size chunks c) url f r [ack_layout (agreed max max_size chunks c)] /\ unread r = t.
Proof.
  intros max max_size chunks c url f t ps e M C U W K.
  destruct (begin_hello max max_size chunks ps e c url (f ++ t) M C U K) as (r & R1 & R2 & R). rewrite R.
  destruct (read_front (Z.min (e_send c) max) (mkConn r e) f t W R2 R1) as (q & Q & K' & _). rewrite Q.
  destruct f as [|x f]; [destruct W as ((W & _) & _); cbn in W; lia|]. exists (mkConn q e). split; [reflexivity|exact K'].
Qed.

Lemma small_ok : forall max max_size chunks c url t ps e,
  32 + Z.of_nat (length url) <= max < 2 ^ 32 -> ends_ok c -> len_ok url -> e_send c < 8 -> cut (hello_layout c url ++ t) ps ->
  server_begin max max_size chunks (mkConn ps e) = Crashes [ack_layout (agreed max max_size chunks c)].
Proof.
  intros max max_size chunks c url t ps e M C U S K.
  destruct (begin_hello max max_size chunks ps e c url t M C U K) as (r & _ & _ & R). rewrite R.
  unfold read. destruct (Z.ltb_spec (Z.min (e_send c) max) 8); [reflexivity|lia].
Qed.

(** every way to begin *)
Lemma begin_cases : forall max max_size chunks stream ps e, 32 <= max < 2 ^ 32 -> cut stream ps ->
  let o := server_begin max max_size chunks (mkConn ps e) in
  (o = Waits [] /\ e = None) \/ o = Refuses [error_layout 2147942400] \/
  exists b t s, stream = b ++ t /\ whole max b /\ says_hello b /\ 28 <= Z.of_nat (length b) /\
    e_recv s = Z.min (number_at 16 b) max /\ e_send s <= max /\
    (o = Waits [ack_layout s] \/ o = Refuses [ack_layout s; error_layout 2156265472] \/
     (e_recv s < 8 /\ o = Crashes [ack_layout s]) \/
     exists url f r, o = FirstChunk s url f r [ack_layout s] /\ f ++ unread r = t /\ 8 <= Z.of_nat (length f) <= e_recv s).
Proof.
  intros max max_size chunks stream ps e M (U & S) o.
  assert (RF : forall sent code, refuse max sent code = Refuses (sent ++ [error_layout code])).
  { intros. unfold refuse. rewrite error_fits by lia. reflexivity. }
  pose proof (read_spec max (mkConn ps e) ltac:(lia) S) as R. cbv zeta in R. unfold unread in R. cbn [pieces ending] in R. rewrite U in R.
  assert (UNF : forall b, read max (mkConn ps e) = match e with Some e0 => Broken b e0 | None => Blocked b end ->
                (o = Waits [] /\ e = None) \/ o = Refuses [error_layout 2147942400]).
  { intros b Rb. unfold o, server_begin. rewrite Rb. destruct e; [right; rewrite RF; reflexivity|left; split; reflexivity]. }
  destruct (length stream <? 8)%nat eqn:E1; [destruct (UNF _ R) as [X|X]; auto|]. apply Nat.ltb_ge in E1.
  destruct (max <? le_dec (firstn 4 (skipn 4 stream))) eqn:E2.
  { destruct R as (r & R & _). right. left. unfold o, server_begin. rewrite R, RF. reflexivity. }
  apply Z.ltb_ge in E2.
  destruct (length stream <? Z.to_nat (le_dec (firstn 4 (skipn 4 stream))))%nat eqn:E3; [destruct (UNF _ R) as [X|X]; auto|].
  apply Nat.ltb_ge in E3. destruct R as (r & R & K & Sr). rewrite <- (field_is stream E1) in *.
  set (n := Nat.max 8 (Z.to_nat (length_field stream))) in *.
  assert (Ln : (n <= length stream)%nat) by (unfold n; lia).
  set (b := firstn n stream) in *.
  assert (Lb : length b = n) by (unfold b; rewrite firstn_length; lia).
  assert (N8 : (8 <= n)%nat) by (unfold n; lia).
  assert (NM : (n <= Z.to_nat max)%nat) by (unfold n; lia).
  assert (SB : stream = b ++ skipn n stream) by (unfold b; symmetry; apply firstn_skipn).
  assert (FB : length_field (b ++ zeros (Z.to_nat max - length b)) = length_field stream).
  { transitivity (length_field (b ++ skipn n stream)); [|rewrite <- SB; reflexivity]. unfold length_field. rewrite !app_nth1 by lia. reflexivity. }
  unfold o, server_begin. rewrite R. cbv zeta. fold (zeros (Z.to_nat max - length b)).
  set (buf := b ++ zeros (Z.to_nat max - length b)) in *.
  assert (Lbuf : length buf = Z.to_nat max) by (unfold buf, zeros; rewrite app_length, repeat_length; lia).
  destruct (answer_hello max (mkEnds max max max_size chunks 0 0) buf) as [[[s ack] url]|code] eqn:A.
  2:{ right. left. apply answer_refusal in A; [|lia]. subst code. rewrite RF. reflexivity. }
  right. right. apply answer_inv in A. destruct A as (A1 & A2 & A3 & A4 & A5 & A6). cbn [e_recv e_send] in A5, A6.
  rewrite FB in A2. assert (N28 : Z.of_nat n = length_field stream) by (unfold n; lia).
  exists b, (skipn n stream), s. split; [exact SB|].
  assert (FBb : length_field b = length_field stream).
  { transitivity (length_field (b ++ skipn n stream)); [|rewrite <- SB; reflexivity]. unfold length_field. rewrite !app_nth1 by lia. reflexivity. }
  split; [split; [lia|rewrite FBb, Lb; lia]|].
  split. { unfold says_hello in *. unfold buf in A1. rewrite firstn_app in A1. replace (4 - length b)%nat with 0%nat in A1 by lia.
           cbn [List.firstn] in A1. rewrite app_nil_r in A1. exact A1. }
  split; [lia|].
  split. { rewrite A5. unfold buf. rewrite number_app by lia. reflexivity. }
  split; [exact A6|].
  rewrite (ack_fits max s) in A4 by lia. subst ack.
  destruct (Z.ltb_spec (e_recv s) 8) as [S8|S8].
  { right. right. left. split; [exact S8|]. unfold read. destruct (Z.ltb_spec (e_recv s) 8); [reflexivity|lia]. }
  pose proof (read_spec (e_recv s) (mkConn r e) S8 Sr) as R'. cbv zeta in R'. unfold unread in R'. cbn [pieces ending] in R'. rewrite K in R'.
  set (u := skipn n stream) in *.
  assert (UNF' : forall x, read (e_recv s) (mkConn r e) = match e with Some e0 => Broken x e0 | None => Blocked x end ->
     match read (e_recv s) (mkConn r e) with
     | Panics => Crashes [ack_layout s] | Blocked _ => Waits [ack_layout s]
     | TooBig _ => refuse max [ack_layout s] bad_channel_closed | Broken _ _ => refuse max [ack_layout s] bad_channel_closed
     | Chunk [] _ => refuse max [ack_layout s] bad_channel_closed | Chunk b' rest' => FirstChunk s url b' rest' [ack_layout s] end = Waits [ack_layout s] \/
     match read (e_recv s) (mkConn r e) with
     | Panics => Crashes [ack_layout s] | Blocked _ => Waits [ack_layout s]
     | TooBig _ => refuse max [ack_layout s] bad_channel_closed | Broken _ _ => refuse max [ack_layout s] bad_channel_closed
     | Chunk [] _ => refuse max [ack_layout s] bad_channel_closed | Chunk b' rest' => FirstChunk s url b' rest' [ack_layout s] end = Refuses [ack_layout s; error_layout 2156265472]).
  { intros x Rx. rewrite Rx. destruct e; [right; rewrite RF; reflexivity|left; reflexivity]. }
  destruct (length u <? 8)%nat eqn:F1; [destruct (UNF' _ R') as [X|X]; auto|]. apply Nat.ltb_ge in F1.
  destruct (e_recv s <? le_dec (firstn 4 (skipn 4 u))) eqn:F2.
  { destruct R' as (r' & R' & _). right. left. rewrite R', RF. reflexivity. }
  apply Z.ltb_ge in F2.
  destruct (length u <? Z.to_nat (le_dec (firstn 4 (skipn 4 u))))%nat eqn:F3; [destruct (UNF' _ R') as [X|X]; auto|].
  apply Nat.ltb_ge in F3. destruct R' as (r' & R' & K' & _). right. right. right. rewrite R'.
  set (m := Nat.max 8 (Z.to_nat (le_dec (firstn 4 (skipn 4 u))))) in *.
  assert (Lm : length (firstn m u) = m) by (rewrite firstn_length; unfold m; lia).
  exists url, (firstn m u), (mkConn r' e). split; [|split].
  - assert (M8 : (8 <= m)%nat) by (unfold m; lia). destruct (firstn m u) as [|x l] eqn:Q; [exfalso; clearbody m; cbn [length] in Lm; lia|reflexivity].
  - unfold unread. cbn [pieces]. rewrite K'. apply firstn_skipn.
  - rewrite Lm. unfold m. lia.
Qed.

Lemma refused_ok : forall max max_size chunks b t ps e, 32 <= max < 2 ^ 32 -> whole max b -> cut (b ++ t) ps ->
  ~ says_hello b \/ Z.of_nat (length b) < 28 ->
  server_begin max max_size chunks (mkConn ps e) = Refuses [error_layout 2147942400].
Proof.
  intros max max_size chunks b t ps e M W K H. destruct (begin_front max max_size chunks ps e b t W K) as (r & _ & _ & R). rewrite R.
  pose proof W as ((W1 & W2) & W3).
  assert (L : length (b ++ zeros (Z.to_nat max - length b)) = Z.to_nat max) by (unfold zeros; rewrite app_length, repeat_length; lia).
  rewrite answer_other.
  - unfold refuse. rewrite error_fits by lia. reflexivity.
  - lia.
  - destruct H as [H|H]; [left|right].
    + unfold says_hello in *. rewrite firstn_app. replace (4 - length b)%nat with 0%nat by lia. cbn [List.firstn]. rewrite app_nil_r. exact H.
    + unfold length_field in *. rewrite !app_nth1 by lia. lia.
Qed.

Lemma oversize_first : forall max max_size chunks stream ps e, 32 <= max < 2 ^ 32 -> cut stream ps ->
  (8 <= length stream)%nat -> max < length_field stream ->
  server_begin max max_size chunks (mkConn ps e) = Refuses [error_layout 2147942400].
Proof.
  intros max max_size chunks stream ps e M (U & S) L H.
  pose proof (read_spec max (mkConn ps e) ltac:(lia) S) as R. cbv zeta in R. unfold unread in R. cbn [pieces ending] in R. rewrite U in R.
  destruct (length stream <? 8)%nat eqn:E1; [apply Nat.ltb_lt in E1; lia|]. rewrite <- (field_is stream L) in R.
  destruct (max <? length_field stream) eqn:E2; [|apply Z.ltb_ge in E2; lia]. destruct R as (r & R & _).
  unfold server_begin. rewrite R. unfold refuse. rewrite error_fits by lia. reflexivity.
Qed.

Lemma unfinished_first : forall max max_size chunks stream ps e, 32 <= max < 2 ^ 32 -> cut stream ps ->
  (length stream < 8)%nat \/ Z.of_nat (length stream) < length_field stream <= max ->
  server_begin max max_size chunks (mkConn ps e) =
  match e with None => Waits [] | Some _ => Refuses [error_layout 2147942400] end.
Proof.
  intros max max_size chunks stream ps e M (U & S) H.
  pose proof (read_spec max (mkConn ps e) ltac:(lia) S) as R. cbv zeta in R. unfold unread in R. cbn [pieces ending] in R. rewrite U in R.
  assert (Q : read max (mkConn ps e) = match e with Some e0 => Broken stream e0 | None => Blocked stream end).
  { destruct (length stream <? 8)%nat eqn:E1; [exact R|]. apply Nat.ltb_ge in E1. destruct H as [H|H]; [lia|].
    rewrite <- (field_is stream E1) in R. destruct (max <? length_field stream) eqn:E2; [apply Z.ltb_lt in E2; lia|].
    destruct (length stream <? Z.to_nat (length_field stream))%nat eqn:E3; [exact R|apply Nat.ltb_ge in E3; lia]. }
  unfold server_begin. rewrite Q. destruct e; [|reflexivity]. unfold refuse. rewrite error_fits by lia. reflexivity.
Qed.

Lemma crash_only : forall max max_size chunks stream ps e sent, 32 <= max < 2 ^ 32 -> cut stream ps ->
  server_begin max max_size chunks (mkConn ps e) = Crashes sent ->
  exists b t, stream = b ++ t /\ whole max b /\ says_hello b /\ 28 <= Z.of_nat (length b) /\ number_at 16 b < 8.
Proof.
  intros max max_size chunks stream ps e sent M K H.
  destruct (begin_cases max max_size chunks stream ps e M K) as [(X & _)|[X|(b & t & s & A1 & A2 & A3 & A4 & A5 & A6 & A7)]];
    [rewrite X in H; discriminate|rewrite X in H; discriminate|].
  destruct A7 as [X|[X|[(X8 & _)|(u & f & r & X & _)]]]; try (rewrite X in H; discriminate).
  exists b, t. repeat (split; [assumption|]). lia.
Qed.

Lemma beyond_ok : forall max max_size chunks c n given t ps e,
  ends_ok c -> Z.of_nat (length given) <= n -> n < 2 ^ 31 -> 32 + n <= max < 2 ^ 32 -> 8 <= e_send c ->
  cut (hello_short c n given ++ t) ps -> whole (Z.min (e_send c) max) t ->
  exists r, server_begin max max_size chunks (mkConn ps e) =
    FirstChunk (agreed max max_size chunks c) (given ++ repeat x00 (Z.to_nat n - length given)) t r [ack_layout (agreed max max_size chunks c)].
Proof.
  intros max max_size chunks c n given t ps e C G N M S K W.
  assert (LH : length (hello_short c n given) = (32 + length given)%nat).
  { unfold hello_short. rewrite !app_length, !le_enc_length. reflexivity. }
  assert (WH : whole max (hello_short c n given)).
  { unfold hello_short. apply whole_head; [lia|lia|]. unfold hello_short in LH. rewrite 2!app_length, 2!le_enc_length in LH. unfold bytes in *. lia. }
  destruct (begin_front max max_size chunks ps e _ t WH K) as (r & R1 & R2 & R). rewrite R.
  set (pad := (Z.to_nat n - length given)%nat). set (all := given ++ repeat x00 pad).
  assert (Lall : Z.of_nat (length all) = n) by (unfold all, pad; rewrite app_length, repeat_length; lia).
  set (rest := zeros (Z.to_nat max - length (hello_short c n given) - pad)).
  assert (BUF : hello_short c n given ++ zeros (Z.to_nat max - length (hello_short c n given)) =
    (le_enc 4 1179403592 ++ le_enc 4 (32 + Z.of_nat (length given)) ++ le_enc 4 0 ++ le_enc 4 (e_recv c) ++ le_enc 4 (e_send c) ++
     le_enc 4 (e_max_res c) ++ le_enc 4 (e_res_chunks c) ++ le_enc 4 n ++ all) ++ rest).
  { unfold hello_short at 1, all, rest, zeros. rewrite <- !app_assoc. do 9 f_equal. rewrite <- repeat_app. f_equal. unfold pad. lia. }
  rewrite BUF.
  assert (RH : read_hello ((le_enc 4 1179403592 ++ le_enc 4 (32 + Z.of_nat (length given)) ++ le_enc 4 0 ++ le_enc 4 (e_recv c) ++ le_enc 4 (e_send c) ++
     le_enc 4 (e_max_res c) ++ le_enc 4 (e_res_chunks c) ++ le_enc 4 n ++ all) ++ rest) =
     Ok (e_recv c, e_send c, e_max_res c, e_res_chunks c, all) rest).
  { destruct C as (C1 & C2 & C3 & C4 & C5 & C6).
    match goal with |- read_hello (?l ++ _) = _ => assert (HC : codes false read_hello l (e_recv c, e_send c, e_max_res c, e_res_chunks c, all)) end.
    { unfold read_hello.
      eapply codes_bind; [apply codes_u32; unfold in_u; cbn; lia|]. cbn beta. change (negb (1179403592 =? t_hello)) with false. cbv iota.
      eapply codes_bind; [apply codes_u32; unfold in_u; change (8 * 4) with 32; lia|]. cbn beta.
      destruct (Z.ltb_spec (32 + Z.of_nat (length given)) 28); [lia|].
      eapply codes_bind; [apply codes_u32; unfold in_u; cbn; lia|]. cbn beta. change (0 <? 0) with false. cbv iota.
      do 4 (eapply codes_bind; [apply codes_u32; assumption|]; cbn beta).
      eapply codes_bind_last; [|apply codes_ret]. unfold read_string. rewrite <- Lall at 1.
      eapply codes_bind; [apply codes_len; unfold len_ok; rewrite Lall; lia|]. cbn beta.
      destruct (Z.ltb_spec (Z.of_nat (length all)) 0); [lia|]. apply codes_read_full. reflexivity. }
    exact (codes_rt HC rest). }
  rewrite (answer_ok max _ _ _ _ _ _ _ _ ltac:(lia) RH). cbn [e_recv].
  destruct (read_front (Z.min (e_send c) max) (mkConn r e) t [] W R2 ltac:(rewrite app_nil_r; exact R1)) as (q & Q & _). rewrite Q.
  destruct t as [|x t]; [destruct W as ((W & _) & _); cbn in W; lia|]. exists (mkConn q e). reflexivity.
Qed.

Lemma config_ok : forall max max_size chunks c, max < 8 -> server_begin max max_size chunks c = Crashes [].
Proof. intros max max_size chunks c M. unfold server_begin, read. destruct (Z.ltb_spec max 8); [reflexivity|lia]. Qed.
Lemma client_config_ok : forall cap own url left c, cap < 8 -> client_begin cap own url left c = Dies.
Proof. intros cap own url left c M. unfold client_begin, read. destruct (Z.ltb_spec cap 8); [reflexivity|lia]. Qed.

(* ------------------------------------------------------------------ *)
Lemma client_front : forall cap own url left ps e b t, whole cap b -> cut (b ++ t) ps ->
  exists r u, concat r = t /\ client_begin cap own url left (mkConn ps e) =
  match take_answer own (b ++ u) with inl c' => Greeted c' (mkConn r e) | inr code => Fails code end.
Proof.
  intros cap own url left ps e b t W (U & S). destruct (read_front cap (mkConn ps e) b t W S U) as (r & R & K & _).
  unfold client_begin. cbv zeta. rewrite R. eexists r, _. split; [exact K|reflexivity].
Qed.

Lemma u32_head : forall v (rest : bytes), u32_ok v -> read_uint 4 (le_enc 4 v ++ rest) = Ok v rest.
Proof. intros v rest V. exact (codes_rt (codes_u32 false v V) rest). Qed.

Lemma told_ok : forall cap own url left code t ps e, 16 <= cap -> u32_ok code -> cut (error_layout code ++ t) ps ->
  client_begin cap own url left (mkConn ps e) = Fails code.
Proof.
  intros cap own url left code t ps e C V K.
  assert (W : whole cap (error_layout code)).
  { unfold error_layout. apply whole_head; [lia|lia|]. rewrite !app_length, !le_enc_length. reflexivity. }
  destruct (client_front cap own url left ps e _ t W K) as (r & u & _ & R). rewrite R. unfold take_answer, error_layout.
  rewrite <- !app_assoc. rewrite u32_head by (unfold u32_ok; lia). change (1179800133 =? t_ack) with false.
  change (1179800133 =? t_error) with true. cbv iota.
  assert (HC : codes false read_error (error_layout code) code).
  { unfold read_error, error_layout. eapply codes_bind; [apply codes_u32; unfold in_u; cbn; lia|]. cbn beta.
    eapply codes_bind; [apply codes_u32; unfold in_u; cbn; lia|]. cbn beta. change (16 <? 16) with false. cbv iota.
    eapply codes_bind; [apply codes_u32; exact V|]. cbn beta. eapply codes_bind_last; [|apply codes_ret].
    change (le_enc 4 4294967295) with (write_string []). apply codes_string. unfold len_ok. cbn. lia. }
  pose proof (codes_rt HC u) as Q. unfold error_layout in Q. rewrite <- !app_assoc in Q. rewrite Q. reflexivity.
Qed.

Lemma greeted_ok : forall cap own url left s t ps e, 28 <= cap -> ends_ok s -> cut (ack_layout s ++ t) ps ->
  exists r, client_begin cap own url left (mkConn ps e) =
    Greeted (mkEnds (e_send s) (e_recv s) (e_max_req s) (e_req_chunks s) (e_max_res own) (e_res_chunks own)) r /\ unread r = t.
Proof.
  intros cap own url left s t ps e C (S1 & S2 & S3 & S4 & S5 & S6) K.
  assert (W : whole cap (ack_layout s)).
  { unfold ack_layout. apply whole_head; [lia|lia|]. rewrite !app_length, !le_enc_length. reflexivity. }
  destruct (client_front cap own url left ps e _ t W K) as (r & u & U & R). rewrite R. exists (mkConn r e). split; [|exact U].
  unfold take_answer. unfold ack_layout at 1. rewrite <- !app_assoc. rewrite u32_head by (unfold u32_ok; lia).
  change (1179337537 =? t_ack) with true. cbv iota. unfold client_accept.
  match goal with |- match (match (match ?r0 _ with _ => _ end) with _ => _ end) with _ => _ end = _ =>
    assert (H : codes false r0 (ack_layout s) (mkEnds (e_send s) (e_recv s) (e_max_req s) (e_req_chunks s) (e_max_res own) (e_res_chunks own))) end.
  { unfold ack_layout.
    eapply codes_bind; [apply codes_u32; unfold in_u; cbn; lia|]. cbn beta. change (negb (1179337537 =? t_ack)) with false. cbv iota.
    eapply codes_bind; [apply codes_u32; unfold in_u; cbn; lia|]. cbn beta. change (28 <? 28) with false. cbv iota.
    eapply codes_bind; [apply codes_u32; unfold in_u; cbn; lia|]. cbn beta. change (0 <? 0) with false. cbv iota.
    do 3 (eapply codes_bind; [apply codes_u32; assumption|]; cbn beta).
    eapply codes_bind_last; [apply codes_u32; assumption|]. apply codes_ret. }
  rewrite (codes_rt H u). reflexivity.
Qed.

Lemma answer_tags : forall b : bytes, (4 <= length b)%nat ->
  firstn 4 b <> [x41; x43; x4b; x46] -> firstn 4 b <> [x45; x52; x52; x46] ->
  (le_dec (firstn 4 b) =? t_ack) = false /\ (le_dec (firstn 4 b) =? t_error) = false.
Proof.
  intros b L A E. assert (L4 : length (firstn 4 b) = 4%nat) by (rewrite firstn_length; lia).
  split; apply Z.eqb_neq; intros H; [apply A|apply E]; rewrite <- (enc_dec4 (firstn 4 b) L4), H; reflexivity.
Qed.

Lemma client_other : forall cap own url left b t ps e, whole cap b -> cut (b ++ t) ps ->
  firstn 4 b <> [x41; x43; x4b; x46] -> firstn 4 b <> [x45; x52; x52; x46] ->
  client_begin cap own url left (mkConn ps e) = Fails 2147942400.
Proof.
  intros cap own url left b t ps e W K A E. destruct (client_front cap own url left ps e b t W K) as (r & u & _ & R). rewrite R.
  destruct W as ((W & _) & _). unfold take_answer. rewrite u32_ok_read by (rewrite app_length; lia).
  replace (firstn 4 (b ++ u)) with (firstn 4 b) by (rewrite firstn_app; replace (4 - length b)%nat with 0%nat by lia; cbn [List.firstn]; rewrite app_nil_r; reflexivity).
  destruct (answer_tags b ltac:(lia) A E) as (-> & ->). reflexivity.
Qed.

Lemma client_unfinished : forall cap own url left stream ps e, 8 <= cap -> cut stream ps ->
  (length stream < 8)%nat \/ Z.of_nat (length stream) < length_field stream <= cap ->
  client_begin cap own url left (mkConn ps e) = match e with None => Hangs | Some code => Fails code end.
Proof.
  intros cap own url left stream ps e M (U & S) H.
  pose proof (read_spec cap (mkConn ps e) M S) as R. cbv zeta in R. unfold unread in R. cbn [pieces ending] in R. rewrite U in R.
  assert (Q : read cap (mkConn ps e) = match e with Some e0 => Broken stream e0 | None => Blocked stream end).
  { destruct (length stream <? 8)%nat eqn:E1; [exact R|]. apply Nat.ltb_ge in E1. destruct H as [H|H]; [lia|].
    rewrite <- (field_is stream E1) in R. destruct (cap <? length_field stream) eqn:E2; [apply Z.ltb_lt in E2; lia|].
    destruct (length stream <? Z.to_nat (length_field stream))%nat eqn:E3; [exact R|apply Nat.ltb_ge in E3; lia]. }
  unfold client_begin. cbv zeta. rewrite Q. destruct e; reflexivity.
Qed.
