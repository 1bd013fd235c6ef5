(** Proofs about reading chunks from pieces. *)
From Coq Require Import ZArith List Bool Lia Strings.Byte.
From Verif Require Import Bytes BytesProofs Chunk ChunkSpec ChunkProofs ChunkLemmas Framing FramingSpec.
Import ListNotations.
Open Scope Z_scope.
Ltac Zify.zify_post_hook ::= idtac.

Definition solid (ps : list bytes) : Prop := Forall (fun p => p <> []) ps.

Lemma skipn_skipn_add : forall (A : Type) (l : list A) a b, skipn a (skipn b l) = skipn (b + a) l.
Proof. induction l as [|x l IH]; intros a b; [rewrite !skipn_nil; reflexivity|]. destruct b; [reflexivity|]. cbn. apply IH. Qed.

Lemma fill_full : forall ps need, solid ps -> (need <= length (concat ps))%nat ->
  exists rest, fill need ps = Full (firstn need (concat ps)) rest /\ concat rest = skipn need (concat ps) /\ solid rest.
Proof.
  induction ps as [|p ps IH]; intros need S L.
  - cbn in L. assert (need = 0)%nat by lia. subst. exists []. repeat split. constructor.
  - inversion S as [|? ? Np S']; subst. destruct need as [|n].
    + exists (p :: ps). repeat split; assumption.
    + cbn [concat] in L |- *. rewrite app_length in L. cbn [fill]. destruct p as [|x p]; [contradiction|].
      destruct (length (x :: p) <=? Datatypes.S n)%nat eqn:E.
      * apply Nat.leb_le in E. destruct (IH (Datatypes.S n - length (x :: p))%nat S') as (rest & F & C & R); [lia|].
        rewrite F. cbn [put_before]. exists rest. rewrite firstn_app, skipn_app, (firstn_all2 (x :: p)), (skipn_all2 (x :: p)) by exact E.
        repeat split; assumption.
      * apply Nat.leb_gt in E. exists (skipn (Datatypes.S n) (x :: p) :: ps).
        rewrite firstn_app, skipn_app. replace (Datatypes.S n - length (x :: p))%nat with 0%nat by lia.
        cbn [firstn skipn concat]. rewrite app_nil_r. repeat split. constructor; [|exact S'].
        intros K. apply (f_equal (@length _)) in K. rewrite skipn_length in K. cbn [length] in *. lia.
Qed.

Lemma fill_short : forall ps need, solid ps -> (length (concat ps) < need)%nat -> fill need ps = Short (concat ps).
Proof.
  induction ps as [|p ps IH]; intros need S L.
  - cbn in L. destruct need; [lia|reflexivity].
  - inversion S as [|? ? Np S']; subst. destruct need as [|n]; [lia|].
    cbn [concat] in L |- *. rewrite app_length in L. cbn [fill]. destruct p as [|x p]; [contradiction|].
    assert (E : (length (x :: p) <=? Datatypes.S n)%nat = true) by (apply Nat.leb_le; lia). rewrite E.
    rewrite IH by (assumption || lia). reflexivity.
Qed.

(** reading from pieces, and what it would be without them *)
Lemma read_spec : forall cap c, 8 <= cap -> solid (pieces c) ->
  let s := unread c in
  let count := le_dec (firstn 4 (skipn 4 s)) in
  let unfinished b := match ending c with Some e => Broken b e | None => Blocked b end in
  if (length s <? 8)%nat then read cap c = unfinished s
  else if cap <? count then exists r, read cap c = TooBig (mkConn r (ending c)) /\ concat r = skipn 8 s /\ solid r
  else if (length s <? Z.to_nat count)%nat then read cap c = unfinished s
  else exists r, read cap c = Chunk (firstn (Nat.max 8 (Z.to_nat count)) s) (mkConn r (ending c)) /\
                 concat r = skipn (Nat.max 8 (Z.to_nat count)) s /\ solid r.
Proof.
  intros cap [ps e] C S s count unfinished. unfold unread in s. cbn [pieces ending] in *. unfold read. cbn [pieces ending].
  destruct (cap <? 8) eqn:E8; [apply Z.ltb_lt in E8; lia|].
  destruct (length s <? 8)%nat eqn:E1.
  { apply Nat.ltb_lt in E1. rewrite (fill_short ps 8 S E1). reflexivity. }
  apply Nat.ltb_ge in E1. destruct (fill_full ps 8 S E1) as (r & F & Cr & Sr). fold s in F, Cr. rewrite F.
  assert (Hc : le_dec (firstn 4 (skipn 4 (firstn 8 s))) = count).
  { unfold count. f_equal. rewrite skipn_firstn_comm, firstn_firstn. f_equal. }
  cbv zeta. rewrite Hc. destruct (cap <? count) eqn:E2.
  { exists r. repeat split; assumption. }
  assert (Lr : length (concat r) = (length s - 8)%nat) by (rewrite Cr, skipn_length; reflexivity).
  destruct (length s <? Z.to_nat count)%nat eqn:E3.
  - apply Nat.ltb_lt in E3. rewrite (fill_short r _ Sr) by lia. rewrite Cr, firstn_skipn. reflexivity.
  - apply Nat.ltb_ge in E3. destruct (fill_full r (Z.to_nat count - 8) Sr) as (r' & F' & C' & S'); [lia|].
    rewrite F'. exists r'. split; [|split; [|exact S']].
    + f_equal. rewrite Cr. destruct (Nat.le_gt_cases (Z.to_nat count) 8) as [Q|Q].
      * rewrite Nat.max_l by exact Q. replace (Z.to_nat count - 8)%nat with 0%nat by lia. cbn [firstn]. apply app_nil_r.
      * rewrite Nat.max_r by lia. rewrite <- (firstn_skipn 8 (firstn (Z.to_nat count) s)).
        rewrite firstn_firstn, Nat.min_l by lia. f_equal. rewrite skipn_firstn_comm. reflexivity.
    + rewrite C', Cr. destruct (Nat.le_gt_cases (Z.to_nat count) 8) as [Q|Q].
      * rewrite Nat.max_l by exact Q. replace (Z.to_nat count - 8)%nat with 0%nat by lia. reflexivity.
      * rewrite Nat.max_r by lia. rewrite skipn_skipn_add. f_equal. lia.
Qed.

Lemma field_is : forall b : bytes, (8 <= length b)%nat -> length_field b = le_dec (firstn 4 (skipn 4 b)).
Proof.
  intros b L. do 8 (destruct b as [|? b]; [cbn in L; lia|]). unfold length_field. cbn [nth skipn List.firstn le_dec]. unfold Z_of_byte. lia.
Qed.

Lemma field_app : forall b t : bytes, (8 <= length b)%nat -> firstn 4 (skipn 4 (b ++ t)) = firstn 4 (skipn 4 b).
Proof. intros b t L. do 8 (destruct b as [|? b]; [cbn in L; lia|]). reflexivity. Qed.

(** a chunk at the front *)
Lemma read_front : forall cap c b t, whole cap b -> solid (pieces c) -> unread c = b ++ t ->
  exists r, read cap c = Chunk b (mkConn r (ending c)) /\ concat r = t /\ solid r.
Proof.
  intros cap c b t ((L1 & L2) & F) S U.
  assert (C8 : 8 <= cap) by lia. pose proof (read_spec cap c C8 S) as R. cbv zeta in R. rewrite U in R.
  assert (L8 : (8 <= length b)%nat) by lia.
  rewrite (field_app b t L8), <- (field_is b L8), F in R. rewrite app_length in R.
  destruct (length b + length t <? 8)%nat eqn:E1; [apply Nat.ltb_lt in E1; lia|].
  destruct (cap <? Z.of_nat (length b)) eqn:E2; [apply Z.ltb_lt in E2; lia|].
  rewrite Nat2Z.id in R. destruct (length b + length t <? length b)%nat eqn:E3; [apply Nat.ltb_lt in E3; lia|].
  rewrite Nat.max_r in R by exact L8. destruct R as (r & R & K & Sr). exists r.
  rewrite firstn_app, firstn_all, Nat.sub_diag in R. cbn [firstn] in R. rewrite app_nil_r in R.
  rewrite skipn_app, skipn_all, Nat.sub_diag in K. split; [exact R|]. split; [exact K|exact Sr].
Qed.

Lemma read_all_frames : forall cap frames c t f, Forall (whole cap) frames -> solid (pieces c) -> unread c = concat frames ++ t ->
  exists r, solid (pieces r) /\ unread r = t /\ ending r = ending c /\
    read_all (length frames + f) cap c = (let (l, e) := read_all f cap r in (frames ++ l, e)).
Proof.
  intros cap frames. induction frames as [|b frames IH]; intros c t f W S U.
  - exists c. repeat split; [exact S|exact U|]. cbn. destruct (read_all f cap c); reflexivity.
  - inversion W; subst. cbn [concat] in U. rewrite <- app_assoc in U.
    destruct (read_front cap c b (concat frames ++ t) H1 S U) as (r & R & K & Sr).
    destruct (IH (mkConn r (ending c)) t f H2 Sr K) as (q & Sq & Uq & Eq & A).
    exists q. split; [exact Sq|]. split; [exact Uq|]. split; [exact Eq|].
    cbn [length Nat.add read_all]. rewrite R, A. destruct (read_all f cap q). reflexivity.
Qed.

Lemma firstn_field : forall cap f k, whole cap f -> (k < length f)%nat -> (8 <= k)%nat ->
  le_dec (firstn 4 (skipn 4 (firstn k f))) = Z.of_nat (length f).
Proof.
  intros cap f k (_ & F) L K. rewrite <- field_is by (rewrite firstn_length; lia). rewrite <- F.
  rewrite <- (firstn_skipn k f) at 2. unfold length_field. rewrite !app_nth1 by (rewrite firstn_length; lia). reflexivity.
Qed.

(** the end of the bytes within a chunk *)
Lemma read_cut_off : forall cap c f k, whole cap f -> (k < length f)%nat -> solid (pieces c) -> unread c = firstn k f ->
  read cap c = ends (ending c) (firstn k f).
Proof.
  intros cap c f k W L S U. assert (C8 : 8 <= cap) by (destruct W; lia).
  pose proof (read_spec cap c C8 S) as R. cbv zeta in R. rewrite U in R. rewrite firstn_length, Nat.min_l in R by lia.
  destruct (k <? 8)%nat eqn:E1; [exact R|]. apply Nat.ltb_ge in E1.
  rewrite (firstn_field cap f k W L E1) in R. destruct W as ((_ & W) & _).
  destruct (cap <? Z.of_nat (length f)) eqn:E2; [apply Z.ltb_lt in E2; lia|]. rewrite Nat2Z.id in R.
  destruct (k <? length f)%nat eqn:E3; [exact R|apply Nat.ltb_ge in E3; lia].
Qed.

Lemma truncated_ok : forall cap frames f k ps e, Forall (whole cap) frames -> whole cap f -> (k < length f)%nat ->
  cut (concat frames ++ firstn k f) ps ->
  forall fuel, read_all (length frames + S fuel) cap (mkConn ps e) = (frames, Some (ends e (firstn k f))).
Proof.
  intros cap frames f k ps e W Wf L (U & S) fuel.
  destruct (read_all_frames cap frames (mkConn ps e) (firstn k f) (Datatypes.S fuel) W S U) as (r & Sr & Ur & Er & A).
  rewrite A. cbn [read_all]. rewrite (read_cut_off cap r f k Wf L Sr Ur), Er. cbn [ending].
  unfold ends. destruct e; rewrite app_nil_r; reflexivity.
Qed.

Lemma exact_ok : forall cap frames ps e, 8 <= cap -> Forall (whole cap) frames -> cut (concat frames) ps ->
  forall fuel, read_all (length frames + S fuel) cap (mkConn ps e) = (frames, Some (ends e [])).
Proof.
  intros cap frames ps e C W (U & S) fuel.
  destruct (read_all_frames cap frames (mkConn ps e) [] (Datatypes.S fuel) W S) as (r & Sr & Ur & Er & A).
  { unfold unread. cbn. rewrite app_nil_r. exact U. }
  rewrite A. cbn [read_all]. pose proof (read_spec cap r C Sr) as R. cbv zeta in R. rewrite Ur in R. cbn in R. rewrite R, Er.
  unfold ends. cbn [ending]. destruct e; rewrite app_nil_r; reflexivity.
Qed.

Lemma oversize_ok : forall cap frames big ps e, 8 <= cap -> Forall (whole cap) frames -> (8 <= length big)%nat -> cap < length_field big ->
  cut (concat frames ++ big) ps ->
  forall fuel, exists r, read_all (length frames + S fuel) cap (mkConn ps e) = (frames, Some (TooBig r)) /\
    unread r = skipn 8 big /\ ending r = e.
Proof.
  intros cap frames big ps e C W L B (U & S) fuel.
  destruct (read_all_frames cap frames (mkConn ps e) big (Datatypes.S fuel) W S U) as (q & Sq & Uq & Eq & A).
  pose proof (read_spec cap q C Sq) as R. cbv zeta in R. rewrite Uq in R. rewrite <- (field_is big L) in R.
  destruct (length big <? 8)%nat eqn:E1; [apply Nat.ltb_lt in E1; lia|].
  destruct (cap <? length_field big) eqn:E2; [|apply Z.ltb_ge in E2; lia].
  destruct R as (r & R & K & Sr). exists (mkConn r (ending q)). rewrite A. cbn [read_all]. rewrite R, app_nil_r.
  split; [reflexivity|]. split; [exact K|exact Eq].
Qed.

(** the pieces do not matter *)
Lemma read_alike : forall cap c1 c2, solid (pieces c1) -> solid (pieces c2) -> left_alike c1 c2 ->
  alike (read cap c1) (read cap c2) /\
  (forall b1 r1 b2 r2, read cap c1 = Chunk b1 r1 -> read cap c2 = Chunk b2 r2 -> solid (pieces r1) /\ solid (pieces r2)).
Proof.
  intros cap c1 c2 S1 S2 (U & E). destruct (Z.lt_ge_cases cap 8) as [C|C].
  - unfold read. assert (K : (cap <? 8) = true) by (apply Z.ltb_lt; exact C). rewrite K. split; [exact Logic.I|discriminate].
  - pose proof (read_spec cap c1 C S1) as R1. pose proof (read_spec cap c2 C S2) as R2. cbv zeta in R1, R2. rewrite <- U, <- E in R2.
    set (s := unread c1) in *. set (n := le_dec _) in *.
    destruct (length s <? 8)%nat.
    { rewrite R1, R2. destruct (ending c1); (split; [cbn; auto|discriminate]). }
    destruct (cap <? n).
    { destruct R1 as (r1 & -> & K1 & _). destruct R2 as (r2 & -> & K2 & _). split; [|discriminate]. split; cbn; [unfold unread; cbn; congruence|reflexivity]. }
    destruct (length s <? Z.to_nat n)%nat.
    { rewrite R1, R2. destruct (ending c1); (split; [cbn; auto|discriminate]). }
    destruct R1 as (r1 & -> & K1 & T1). destruct R2 as (r2 & -> & K2 & T2). split.
    + split; [reflexivity|]. split; cbn; [unfold unread; cbn; congruence|reflexivity].
    + intros b1 q1 b2 q2 [= _ <-] [= _ <-]. split; assumption.
Qed.

Lemma read_all_alike : forall fuel cap c1 c2, solid (pieces c1) -> solid (pieces c2) -> left_alike c1 c2 ->
  fst (read_all fuel cap c1) = fst (read_all fuel cap c2) /\
  match snd (read_all fuel cap c1), snd (read_all fuel cap c2) with
  | Some a, Some b => alike a b
  | None, None => True
  | _, _ => False
  end.
Proof.
  induction fuel as [|fuel IH]; intros cap c1 c2 S1 S2 A; [split; [reflexivity|exact Logic.I]|].
  cbn [read_all]. destruct (read_alike cap c1 c2 S1 S2 A) as (K & S).
  destruct (read cap c1) as [b1 r1|r1|b1 e1|b1|] eqn:E1; destruct (read cap c2) as [b2 r2|r2|b2 e2|b2|] eqn:E2; cbn in K; try contradiction;
    try (split; [reflexivity|exact K]).
  destruct K as (-> & K). destruct (S _ _ _ _ eq_refl eq_refl) as (T1 & T2). destruct (IH cap r1 r2 T1 T2 K) as (I1 & I2).
  destruct (read_all fuel cap r1) as [l1 g1]. destruct (read_all fuel cap r2) as [l2 g2]. cbn in *. split; [congruence|exact I2].
Qed.

Lemma independent_ok : forall stream ps1 ps2 e cap fuel, cut stream ps1 -> cut stream ps2 ->
  fst (read_all fuel cap (mkConn ps1 e)) = fst (read_all fuel cap (mkConn ps2 e)) /\
  match snd (read_all fuel cap (mkConn ps1 e)), snd (read_all fuel cap (mkConn ps2 e)) with
  | Some a, Some b => alike a b
  | None, None => True
  | _, _ => False
  end.
Proof.
  intros stream ps1 ps2 e cap fuel (U1 & S1) (U2 & S2). apply read_all_alike; [exact S1|exact S2|]. split; [unfold unread; cbn; congruence|reflexivity].
Qed.

(** nothing is lost, and nothing is written behind the buffer *)
Lemma conserved_ok : forall cap c b r, 8 <= cap -> solid (pieces c) -> read cap c = Chunk b r ->
  unread c = b ++ unread r /\ (8 <= length b)%nat /\ Z.of_nat (length b) <= cap /\ ending r = ending c /\ solid (pieces r).
Proof.
  intros cap c b r C S E. pose proof (read_spec cap c C S) as R. cbv zeta in R. rewrite E in R.
  set (s := unread c) in *. set (n := le_dec _) in *.
  destruct (length s <? 8)%nat eqn:E1; [destruct (ending c); discriminate R|]. apply Nat.ltb_ge in E1.
  destruct (cap <? n) eqn:E2; [destruct R as (q & [=] & _)|]. apply Z.ltb_ge in E2.
  destruct (length s <? Z.to_nat n)%nat eqn:E3; [destruct (ending c); discriminate R|]. apply Nat.ltb_ge in E3.
  destruct R as (q & R & K & T). set (m := Nat.max 8 (Z.to_nat n)) in *.
  assert (M : (8 <= m <= length s)%nat /\ Z.of_nat m <= cap) by (unfold m; clearbody s n; lia). clearbody m. injection R as -> ->. change (unread (mkConn q (ending c))) with (concat q). cbn [pieces ending]. rewrite K.
  split; [symmetry; apply firstn_skipn|]. rewrite firstn_length. clearbody s n. split; [lia|]. split; [lia|]. split; [reflexivity|exact T].
Qed.

(** ** The same as Chunk.v's read_chunk *)
Lemma read_is_chunk : forall cap c, 8 <= cap -> solid (pieces c) ->
  match read_chunk cap (unread c) with
  | Some (b, rest) => exists r, read cap c = Chunk b r /\ unread r = rest /\ ending r = ending c /\ solid (pieces r)
  | None => match read cap c with Chunk _ _ | Panics => False | _ => True end
  end.
Proof.
  intros cap c C S. pose proof (read_spec cap c C S) as R. cbv zeta in R. unfold read_chunk. cbv zeta.
  set (s := unread c) in *. set (n := le_dec _) in *.
  destruct (length s <? 8)%nat eqn:E1.
  { apply Nat.ltb_lt in E1. assert (K : (Z.of_nat (length s) <? 8) = true) by (apply Z.ltb_lt; lia). rewrite K, R. destruct (ending c); exact Logic.I. }
  apply Nat.ltb_ge in E1. assert (K : (Z.of_nat (length s) <? 8) = false) by (apply Z.ltb_ge; lia). rewrite K.
  destruct (cap <? n) eqn:E2. { destruct R as (r & -> & _). exact Logic.I. }
  destruct (n <? 8) eqn:E3.
  { apply Z.ltb_lt in E3. assert (Q : (length s <? Z.to_nat n)%nat = false) by (apply Nat.ltb_ge; lia). rewrite Q in R.
    rewrite Nat.max_l in R by lia. destruct R as (r & R & Kr & T). exists (mkConn r (ending c)). repeat split; [exact R|exact Kr|exact T]. }
  apply Z.ltb_ge in E3. destruct (length s <? Z.to_nat n)%nat eqn:E4.
  { apply Nat.ltb_lt in E4. assert (Q : (Z.of_nat (length s) <? n) = true) by (apply Z.ltb_lt; lia). rewrite Q, R. destruct (ending c); exact Logic.I. }
  apply Nat.ltb_ge in E4. assert (Q : (Z.of_nat (length s) <? n) = false) by (apply Z.ltb_ge; lia). rewrite Q.
  rewrite Nat.max_r in R by lia. destruct R as (r & R & Kr & T). exists (mkConn r (ending c)). repeat split; [exact R|exact Kr|exact T].
Qed.

(** ** Messages *)
Lemma recv_on_is : forall sign dec fuel c cap k acc s rid body rest, 8 <= cap -> solid (pieces s) ->
  recv_loop sign dec fuel c cap k acc (unread s) = Received rid body rest ->
  exists r, recv_on sign dec fuel c cap k acc s = Message rid body r /\ unread r = rest /\ ending r = ending s /\ solid (pieces r).
Proof.
  intros sign dec. induction fuel as [|fuel IH]; intros c cap k acc s rid body rest C S; cbn [recv_loop recv_on]; [discriminate|].
  destruct (_ && _); [discriminate|]. pose proof (read_is_chunk cap s C S) as R.
  destruct (read_chunk cap (unread s)) as [[b t]|]; [|discriminate]. destruct R as (r & -> & <- & Er & Sr).
  destruct (open_chunk sign dec c b) as [final rid' part| | |]; try discriminate.
  destruct (_ && _); [discriminate|]. destruct final.
  - intros [= <- <- <-]. exists r. repeat split; assumption.
  - intros K. destruct (IH _ _ _ _ _ _ _ _ C Sr K) as (q & A & B & D & E). exists q. repeat split; try assumption. congruence.
Qed.

Lemma recv_messages_is : forall sign dec n fuel c cap s, 8 <= cap -> solid (pieces s) ->
  forall l rest, recv_all sign dec n fuel c cap (unread s) = (l, rest) -> length l = n ->
  exists r, recv_messages sign dec n fuel c cap s = (l, r) /\ unread r = rest.
Proof.
  intros sign dec. induction n as [|n IH]; intros fuel c cap s C S l rest; cbn [recv_all recv_messages].
  - intros [= <- <-] _. exists s. split; reflexivity.
  - destruct (recv_message sign dec fuel c cap (unread s)) as [rid body t| | | |] eqn:E; try (intros [= <- <-]; discriminate).
    destruct (recv_on_is sign dec fuel c cap 0 [] s rid body t C S E) as (r & -> & U & _ & Sr).
    destruct (recv_all sign dec n fuel c cap t) as [l' t'] eqn:E2. intros [= <- <-] [= L].
    rewrite <- U in E2. destruct (IH fuel c cap r C Sr l' t' E2 L) as (q & -> & Uq). exists q. split; [reflexivity|exact Uq].
Qed.

Lemma messages_ok : forall sign enc dec s r cap send, linked sign enc dec s r cap send ->
  forall fuel rcap, send <= rcap -> 8 <= rcap -> forall ms seq rest,
  Forall (fun m => 0 <= fst m < 2 ^ 32 /\ snd m <> [] /\ (length (snd m) <= fuel)%nat /\
     let n := Z.of_nat (length (snd m)) in
     let k := chunks_needed (max_body (c_mode s) (c_sig s) (c_block s) send) n in
     within (c_max_size s) n /\ within (c_max_chunks s) k /\
     within (c_max_size r) n /\ within (chunk_limit r) k) ms ->
  forall ps e, cut (concat (send_all sign enc fuel s cap send seq ms) ++ rest) ps ->
  exists c, recv_messages sign dec (length ms) fuel r rcap (mkConn ps e) = (ms, c) /\ unread c = rest.
Proof.
  intros sign enc dec s r cap send L fuel rcap R C ms seq rest F ps e (U & S).
  pose proof (stream sign enc dec s r cap send L fuel rcap R ms seq rest F) as K. rewrite <- U in K.
  exact (recv_messages_is sign dec (length ms) fuel r rcap (mkConn ps e) C S ms rest K eq_refl).
Qed.

(** A message of which a chunk is cut off *)
Lemma cut_off_waits : forall sign dec fuel c cap k acc f n ps e, whole cap f -> (n < length f)%nat -> cut (firstn n f) ps ->
  within (chunk_limit c) (k + 1) ->
  recv_on sign dec (S fuel) c cap k acc (mkConn ps e) = match e with Some _ => Error | None => StillWaiting end.
Proof.
  intros sign dec fuel c cap k acc f n ps e W L [C S] Wk. cbn [recv_on].
  destruct ((0 <? chunk_limit c) && (chunk_limit c <? k + 1)) eqn:B.
  { apply andb_true_iff in B as [B1 B2]. apply Z.ltb_lt in B1, B2. unfold within in Wk. lia. }
  rewrite (read_cut_off cap (mkConn ps e) f n W L S C). cbn. now destruct e.
Qed.
