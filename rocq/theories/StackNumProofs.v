(** Sequence numbers of the channels of clients and server. *)
From Coq Require Import ZArith List Bool Lia String Strings.Byte.
From Verif Require Import Bytes CodecSpec BytesProofs Prim PrimSpec Value ValueSpec Registry Chunk ChunkSpec ChunkLemmas
  Messages IndexRange Roles Nodes NodeAccess DataPath DataPathSpec Stack StackSpec StackProofs.
Import ListNotations.
Open Scope Z_scope.
Ltac Zify.zify_post_hook ::= idtac.

Lemma stream_snoc p q st q' rid body chs : sent_stream p q st q' ->
  ChunkSpec.carries (pi_sign p) (pi_enc p) (pi_dec p) (pi_from p) (pi_to p) (pi_send p) rid q' chs body ->
  sent_stream p q (st ++ List.concat chs) (Nat.iter (List.length chs) next_counter q').
Proof.
  induction 1 as [q|q r b c rest q' C _ IH]; intros H.
  - cbn [app]. rewrite <- (app_nil_r (List.concat chs)). eapply stream_message; [exact H|constructor].
  - rewrite <- app_assoc. eapply stream_message; [exact C|]. now apply IH.
Qed.
Lemma sent_some table u name vals body : send table u name vals = Some body -> body <> [].
Proof.
  unfold send. destruct (find _ _) as [[n id]|]; [|discriminate]. destruct (fields_of_name name) as [f|]; [|discriminate].
  unfold oapp. destruct (encode _ _ _) as [b|]; [|discriminate]. intros E. injection E as <-. intros X. apply app_eq_nil in X. destruct X as [X _]. revert X.
  unfold write_nodeid. repeat (destruct (_ && _) || destruct (_ <=? _) || destruct (_ <? _) || destruct (_ =? _)); discriminate.
Qed.
Lemma transmit_stream p q st q' rid body bs seq : ok_pipe p -> 0 <= rid < 2 ^ 32 -> body <> [] -> sent_stream p q st q' -> transmit p q' rid body = Some (bs, seq) -> sent_stream p q (st ++ bs) seq.
Proof.
  intros (L & _) R N S T. unfold transmit in T. destruct (send_message _ _ _ _ _ _ _ _ _) as [chs st'] eqn:M. destruct st'; try discriminate. injection T as <- <-.
  eapply stream_snoc; [exact S|]. exact (sent_carries _ _ _ _ _ _ _ L _ _ _ _ _ R (le_n _) N M).
Qed.
Lemma carried_rest p st ms rid body rest : carried p st ms -> take_message p st = Some (rid, body, rest) -> exists bs, st = bs ++ rest.
Proof.
  intros C T. destruct C as [|bs r b st ms H C]; [rewrite (carried_none _ _ (carried_nil p)) in T; discriminate|]. rewrite H in T. injection T as _ _ <-. now exists bs.
Qed.
Section Numbers.
Variable default : list perm.
Variable vt : Z -> Z.
Variable lim : limits.
Variable max_read max_write : Z.
Variable nodes : nodeid -> option node.
Variable range_read : val -> bytes -> ranged.
Variable range_write : val -> val -> bytes -> ranged.
Variable app_read : nodeid -> bytes -> dval.
Variable app_write : wop -> dval * Z.
Variable other_read : caller -> rop -> time -> dval.
Variable other_write : caller -> wop -> Z.
Variable init : nodeid -> dval.
Hypothesis OS : ok_server init range_read range_write app_read app_write other_read other_write.
Variable links : Z -> link.
Variable uris : list bytes.
Variable session_of : Z -> nodeid -> caller.
Hypothesis OL : forall c, ok_link (links c).
Notation serve := (step default vt lim max_read max_write nodes range_read range_write app_read app_write other_read other_write).
Notation next := (next links uris session_of serve).
Notation happens := (happens links uris session_of serve).
Notation sys_inv := (sys_inv default vt lim max_read max_write nodes range_read range_write app_read app_write other_read other_write init links uris session_of).
Notation up c := (l_up (links c)).
Notation down c := (l_down (links c)).

Definition streams (s : system) (c : Z) (a b : bytes) : Prop :=
  sent_stream (up c) 0 (a ++ i_up (y_lines s c)) (i_upseq (y_lines s c)) /\ sent_stream (down c) 0 (b ++ i_down (y_lines s c)) (i_downseq (y_lines s c)).
Lemma streams_step s e s' c a b : sys_inv s -> ok_event e -> next s e = Some s' -> streams s c a b ->
  exists a' b', streams s' c a' b' /\ ((forall t, e <> Takes c t) -> a' = a) /\ ((forall t, e <> Returns c t) -> b' = b).
Proof.
  intros Iv O E [A B]. destruct (OL c) as (_ & _ & P1 & P2).
  destruct e as [k d q t|d t|k i t1 t2|k t|d t]; cbn [Stack.next] in E.
  - exists a, b. split; [|now split]. unfold place in E. destruct (existsb (names k) _); [discriminate|]. destruct (existsb _ _); [discriminate|].
    destruct (client_send _ _ _) as [body|] eqn:Sd; [|discriminate]. destruct (transmit _ _ _ _) as [[bs seq]|] eqn:Tr; [|discriminate]. injection E as <-.
    unfold streams. cbn [y_lines]. unfold upd_line. destruct (Z.eqb_spec c d) as [<-|N]; [|now split]. cbn [i_up i_upseq i_down i_downseq]. split; [|exact B]. rewrite app_assoc.
    destruct (si_chan _ _ _ _ _ _ _ _ _ _ _ _ _ _ _ _ _ Iv c) as (ups & ops & downs & CI).
    refine (transmit_stream _ _ _ _ _ _ _ _ P1 _ (sent_some _ _ _ _ _ Sd) A Tr). pose proof (ci_handle _ _ _ _ _ _ _ _ _ _ _ CI) as R. unfold next_counter. destruct (Z.eqb_spec (i_handle (y_lines s c)) 4294967295); lia.
  - unfold accept in E. destruct (i_names _) as [|k ks]; [discriminate|]. destruct (take_message _ _) as [[[rid body] rest]|] eqn:Tk; [|discriminate].
    destruct (server_receive uris body) as [[name vals]| | |]; try discriminate. destruct (question_of name vals) as [[[tok h] q]|]; [|discriminate]. destruct (serve _ _) as [srv|]; [|discriminate]. injection E as <-.
    unfold streams. cbn [y_lines]. unfold upd_line. destruct (Z.eqb_spec c d) as [<-|N]; [|exists a, b; split; [now split|split; auto]].
    destruct (si_chan _ _ _ _ _ _ _ _ _ _ _ _ _ _ _ _ _ Iv c) as (ups & ops & downs & CI).
    destruct (carried_rest _ _ _ _ _ _ (ci_up _ _ _ _ _ _ _ _ _ _ _ CI) Tk) as (bs & Eb). exists (a ++ bs), b. cbn [i_up i_upseq i_down i_downseq]. rewrite <- app_assoc, <- Eb. split; [now split|]. split; [intros X; now destruct (X t)|auto].
  - destruct (serve _ _) as [srv|]; [|discriminate]. injection E as <-. exists a, b. split; [now split|now split].
  - exists a, b. split; [|now split]. unfold answer_call in E. destruct (lookup k (y_open s)) as [[[d rid] h]|] eqn:Lk; [|discriminate]. destruct (w_calls _ _) as [cl|]; [|discriminate].
    destruct (respond cl) as [an|]; [|discriminate]. destruct (serve _ _) as [srv|]; [|discriminate]. destruct (server_send _ _ _) as [body|] eqn:Sd; [|discriminate].
    destruct (transmit _ _ _ _) as [[bs seq]|] eqn:Tr; [|discriminate]. injection E as <-.
    unfold streams. cbn [y_lines]. unfold upd_line. destruct (Z.eqb_spec c d) as [<-|N]; [|now split]. cbn [i_up i_upseq i_down i_downseq]. split; [exact A|]. rewrite app_assoc.
    destruct (si_chan _ _ _ _ _ _ _ _ _ _ _ _ _ _ _ _ _ Iv c) as (ups & ops & downs & CI).
    refine (transmit_stream _ _ _ _ _ _ _ _ P2 _ (sent_some _ _ _ _ _ Sd) B Tr). destruct (si_open _ _ _ _ _ _ _ _ _ _ _ _ _ _ _ _ _ Iv _ _ _ _ Lk) as [-> _].
    exact (ci_range _ _ _ _ _ _ _ _ _ _ _ CI k h (proj2 (ci_ops _ _ _ _ _ _ _ _ _ _ _ CI k h) Lk)).
  - unfold return_answer in E. destruct (take_message _ _) as [[[rid body] rest]|] eqn:Tk; [|discriminate].
    destruct (client_receive _ body) as [[name vals]| | |]; try discriminate. destruct (response_of name vals) as [[h an]|]; [|discriminate]. destruct (lookup h _) as [k|]; [|discriminate]. injection E as <-.
    unfold streams. cbn [y_lines]. unfold upd_line. destruct (Z.eqb_spec c d) as [<-|N]; [|exists a, b; split; [now split|split; auto]].
    destruct (si_chan _ _ _ _ _ _ _ _ _ _ _ _ _ _ _ _ _ Iv c) as (ups & ops & downs & CI).
    destruct (carried_rest _ _ _ _ _ _ (ci_down _ _ _ _ _ _ _ _ _ _ _ CI) Tk) as (bs & Eb). exists a, (b ++ bs). cbn [i_up i_upseq i_down i_downseq]. rewrite <- app_assoc, <- Eb. split; [now split|]. split; [auto|intros X; now destruct (X t)].
Qed.
Lemma streams_run l : forall s s' c a b, sys_inv s -> Forall ok_event l -> happens s l = Some s' -> streams s c a b ->
  exists a' b', streams s' c a' b' /\ ((forall t, ~ In (Takes c t) l) -> a' = a) /\ ((forall t, ~ In (Returns c t) l) -> b' = b).
Proof.
  induction l as [|e l IH]; intros s s' c a b Iv F E S; cbn [Stack.happens] in E; [injection E as <-; exists a, b; auto|]. inversion F as [|? ? Oe F']; subst.
  destruct (next s e) as [s1|] eqn:Es; [|discriminate]. destruct (streams_step s e s1 c a b Iv Oe Es S) as (a1 & b1 & S1 & X1 & Y1).
  assert (Iv1 : sys_inv s1) by exact (next_inv default vt lim max_read max_write nodes range_read range_write app_read app_write other_read other_write init OS links uris session_of OL s e s1 Iv Oe Es).
  destruct (IH s1 s' c a1 b1 Iv1 F' E S1) as (a2 & b2 & S2 & X2 & Y2). exists a2, b2. split; [exact S2|]. split; intros N.
  - rewrite X2, X1; [reflexivity| |]; intros t J; apply (N t); [left; exact J|right; exact J].
  - rewrite Y2, Y1; [reflexivity| |]; intros t J; apply (N t); [left; exact J|right; exact J].
Qed.
Theorem stack_numbers l s c : Forall ok_event l -> happens (begin_system init) l = Some s ->
  let i := y_lines s c in
  exists taken returned, sent_stream (up c) 0 (taken ++ i_up i) (i_upseq i) /\ sent_stream (down c) 0 (returned ++ i_down i) (i_downseq i) /\
    ((forall t, ~ In (Takes c t) l) -> taken = []) /\ ((forall t, ~ In (Returns c t) l) -> returned = []).
Proof.
  intros F E i. destruct (streams_run l (begin_system init) s c [] [] (sys_start default vt lim max_read max_write nodes range_read range_write app_read app_write other_read other_write init OS links uris session_of) F E) as (a & b & [S1 S2] & X & Y).
  - split; constructor.
  - now exists a, b.
Qed.
End Numbers.
