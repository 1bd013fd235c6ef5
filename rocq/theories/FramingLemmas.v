(** Examples for reading from pieces, and interleaved writers. *)
From Coq Require Import ZArith List Bool Lia Strings.Byte.
From Verif Require Import Bytes Chunk ChunkSpec ChunkLemmas Framing FramingSpec FramingProofs.
Import ListNotations.
Open Scope Z_scope.

Definition f1 : bytes := [x4d; x53; x47; x46; x0a; x00; x00; x00; x01; x02].
Definition f2 : bytes := [x4d; x53; x47; x46; x08; x00; x00; x00].
Definition big : bytes := [x4d; x53; x47; x46; x00; x00; x01; x00; x05].

Example f1_whole : whole 16 f1.
Proof. unfold whole. cbn. lia. Qed.
Example f2_whole : whole 16 f2.
Proof. unfold whole. cbn. lia. Qed.
Example big_field : length_field big = 65536.
Proof. reflexivity. Qed.

(** two chunks in pieces that are cut within the length and across the chunks *)
Definition some_pieces : list bytes := [[x4d]; [x53; x47; x46; x0a; x00]; [x00; x00; x01; x02; x4d]; [x53; x47; x46; x08; x00; x00; x00]].
Example some_cut : cut (concat [f1; f2]) some_pieces.
Proof. split; [reflexivity|]. unfold some_pieces. repeat constructor; discriminate. Qed.
Example some_read : read_all 3 16 (mkConn some_pieces (Some 1)) = ([f1; f2], Some (Broken [] 1)).
Proof. reflexivity. Qed.
Example some_big : read_all 3 16 (mkConn [f1; [x4d; x53]; [x47; x46; x00; x00; x01; x00; x05]] (Some 1)) = ([f1], Some (TooBig (mkConn [[x05]] (Some 1)))).
Proof. reflexivity. Qed.
Example some_truncated : read_all 3 16 (mkConn [f2; [x4d; x53]; [x47]] None) = ([f2], Some (Blocked [x4d; x53; x47])).
Proof. reflexivity. Qed.

(** Interleaved writers *)
Lemma interleaved_forall : forall (A : Type) (P : A -> Prop) ls l, interleaved ls l -> Forall (Forall P) ls -> Forall P l.
Proof.
  intros A P ls l I. induction I as [ls _|before x l after r I IH]; intros F; [constructor|].
  apply Forall_app in F. destruct F as (F1 & F2). inversion F2 as [|? ? Fx F3]; subst. inversion Fx; subst. constructor; [assumption|].
  apply IH, Forall_app. split; [assumption|]. constructor; assumption.
Qed.

Lemma writers_ok : forall cap ls l ps e, 8 <= cap -> Forall (Forall (whole cap)) ls -> interleaved ls l -> cut (concat l) ps ->
  read_all (length l + 1) cap (mkConn ps e) = (l, Some (ends e [])).
Proof.
  intros cap ls l ps e C F I K. exact (exact_ok cap l ps e C (interleaved_forall _ _ _ _ I F) K 0).
Qed.

Example some_interleaved : interleaved [[f1; f2]; []; [f2]] [f1; f2; f2].
Proof.
  apply (interleaved_cons [] f1 [f2] [[]; [f2]]). apply (interleaved_cons [[f2]; []] f2 [] []). apply (interleaved_cons [] f2 [] [[]; []]).
  constructor. repeat constructor.
Qed.

Lemma agrees_ok : forall cap ps e, 8 <= cap -> Forall (fun p => p <> []) ps ->
  match read_chunk cap (concat ps) with
  | Some (b, rest) => exists r, read cap (mkConn ps e) = Framing.Chunk b r /\ unread r = rest
  | None => match read cap (mkConn ps e) with Framing.Chunk _ _ | Panics => False | _ => True end
  end.
Proof.
  intros cap ps e C S. pose proof (read_is_chunk cap (mkConn ps e) C S) as R. change (unread (mkConn ps e)) with (concat ps) in R.
  destruct (read_chunk cap (concat ps)) as [[b rest]|]; [|exact R]. destruct R as (r & A & B & _). exists r. split; assumption.
Qed.

Lemma conserved_lemma : forall cap ps e b r, 8 <= cap -> Forall (fun p => p <> []) ps -> read cap (mkConn ps e) = Framing.Chunk b r ->
  concat ps = b ++ unread r /\ 8 <= Z.of_nat (length b) <= cap /\ ending r = e.
Proof.
  intros cap ps e b r C S E. destruct (conserved_ok cap (mkConn ps e) b r C S E) as (A & B & D & G & _). repeat split; [exact A|lia|exact D|exact G].
Qed.

Lemma messages_example :
  let s := ex_conf Client MSignEnc 0 0 in let r := ex_conf Server MSignEnc 0 0 in
  let sent := concat (send_all (ex_sign 32) ex_enc 100 s 128 112 0 [(5, repeat x41 100); (6, [x42])]) in
  let ps := map (fun b => [b]) sent in
  fst (recv_messages (ex_sign 32) ex_enc 2 9 r 128 (mkConn ps None)) = [(5, repeat x41 100); (6, [x42])].
Proof. vm_compute. reflexivity. Qed.
