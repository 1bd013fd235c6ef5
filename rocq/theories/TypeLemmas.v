(** The lemmas behind TypeProperties.v, and examples. *)
From Coq Require Import ZArith List String Bool Lia Strings.Byte.
From Verif Require Import Bytes CodecSpec BytesProofs Prim PrimSpec PrimProofs Value ValueSpec ValueProofs CodecLemmas
  Registry StructTable MessageTable Messages StructSpec MessageSpec MessageProofs MessageLemmas TypeSpec.
Import ListNotations.
Open Scope Z_scope.
Ltac Zify.zify_post_hook ::= idtac.
Local Opaque std_registry struct_table find_id find_type.

Definition same_entry (a b : string * Z * list ty) : bool :=
  String.eqb (fst (fst a)) (fst (fst b)) && (snd (fst a) =? snd (fst b)) && ty_eqb (TStruct (snd a)) (TStruct (snd b)).
Lemma same_entry_eq a b : same_entry a b = true -> a = b.
Proof.
  destruct a as [[n i] f], b as [[n' i'] f']. unfold same_entry. cbn [fst snd]. rewrite !andb_true_iff. intros [[A B] C].
  apply String.eqb_eq in A. apply Z.eqb_eq in B. apply fields_eqb_eq in C. subst. reflexivity.
Qed.
Definition listed (n : string) (l : list string) : bool := existsb (String.eqb n) l.
Lemma listed_In n l : listed n l = true <-> In n l.
Proof.
  unfold listed. rewrite existsb_exists. split.
  - intros (x & I & Q). apply String.eqb_eq in Q. now subst.
  - intros I. exists n. split; [exact I|apply String.eqb_refl].
Qed.

Lemma types name id f : In (name, id, f) standard_types -> ~ In name without_encoder -> In (name, id, f) struct_table.
Proof.
  intros H N.
  assert (C : forallb (fun e => listed (fst (fst e)) without_encoder || existsb (same_entry e) struct_table) standard_types = true)
    by (vm_compute; reflexivity).
  pose proof (proj1 (forallb_forall _ _) C _ H) as D. cbn [fst] in D. apply orb_true_iff in D. destruct D as [D|D].
  - apply listed_In in D. contradiction.
  - apply existsb_exists in D. destruct D as (e & I & Q). apply same_entry_eq in Q. now subst e.
Qed.

Lemma types_bytes name id f uris vals : In (name, id, f) standard_types -> ~ In name without_encoder ->
  wzip (wf (std_env uris) false) f vals -> exists t body,
    find_id std_registry t = Some (std_id id) /\
    encode (std_env uris) (TStruct f) (VStruct vals) = Some body /\
    encode (std_env uris) TExt (VExt t vals) = Some (write_nodeid (NNum 0 id) ++ write_int 1 1 ++ write_int 4 (Z.of_nat (List.length body)) ++ body) /\
    reads_back (decode (std_env uris) TExt) (write_nodeid (NNum 0 id) ++ write_int 1 1 ++ write_int 4 (Z.of_nat (List.length body)) ++ body)
      (VExt t (map norm vals)).
Proof. intros H N. apply every_other_structure with name; [apply types; assumption|exact N]. Qed.

(** ** Nothing else is declared *)
Lemma covered name id f : In (name, id, f) struct_table ->
  In name standard_names \/ In id standard_ids \/ In name not_compared.
Proof.
  intros H.
  assert (C : forallb (fun e => listed (fst (fst e)) standard_names || existsb (Z.eqb (snd (fst e))) standard_ids
                                || listed (fst (fst e)) not_compared) struct_table = true) by (vm_compute; reflexivity).
  pose proof (proj1 (forallb_forall _ _) C _ H) as D. cbn [fst snd] in D. rewrite !orb_true_iff, !listed_In in D.
  destruct D as [[D|D]|D]; auto. right. left. apply existsb_exists in D. destruct D as (x & I & Q). apply Z.eqb_eq in Q. now subst.
Qed.

(** ** The ten with a Guid: the library has the same fields but for the Guids, which it cannot encode, and the flags *)
Lemma as_declared name id f : In (name, id, f) (types_with (TB BInt32) TUnsupported) -> In (name, id, f) struct_table.
Proof.
  intros H.
  assert (C : forallb (fun e => existsb (same_entry e) struct_table) (types_with (TB BInt32) TUnsupported) = true)
    by (vm_compute; reflexivity).
  pose proof (proj1 (forallb_forall _ _) C _ H) as D. cbv beta in D.
  apply existsb_exists in D. destruct D as (e & I & Q). apply same_entry_eq in Q. now subst e.
Qed.

Lemma field_flags : exists f g,
  In ("FieldMetaData"%string, 14839, f) standard_types /\ In ("FieldMetaData"%string, 14839, g) struct_table /\
  nth_error f 2 = Some (TB BUInt16) /\ nth_error g 2 = Some (TB BInt32).
Proof.
  exists (FieldMetaData (TB BUInt16) (TB BGuid)), f_FieldMetaData.
  assert (A : existsb (same_entry ("FieldMetaData"%string, 14839, FieldMetaData (TB BUInt16) (TB BGuid))) standard_types = true) by (vm_compute; reflexivity).
  assert (B : existsb (same_entry ("FieldMetaData"%string, 14839, f_FieldMetaData)) struct_table = true) by (vm_compute; reflexivity).
  apply existsb_exists in A, B. destruct A as (e & I & Q), B as (e' & I' & Q'). apply same_entry_eq in Q, Q'. subst e e'.
  split; [exact I|]. split; [exact I'|]. split; reflexivity.
Qed.
Lemma flags_width E z : in_u 2 z -> exists a b,
  encode E (TB BUInt16) (VB BUInt16 z) = Some a /\ List.length a = 2%nat /\
  encode E (TB BInt32) (VB BInt32 z) = Some b /\ List.length b = 4%nat.
Proof.
  intros _. exists (write_int 2 z), (write_int 4 z). unfold write_int. rewrite !le_enc_length.
  repeat split.
Qed.

(** ** Sets of flags *)
Lemma le_enc_mod k z : le_enc k z = le_enc k (z mod 256 ^ Z.of_nat k).
Proof. rewrite <- le_dec_enc. pose proof (le_enc_dec (le_enc k z)) as H. rewrite le_enc_length in H. symmetry. exact H. Qed.
Lemma masks E z : 0 <= z < 2 ^ 32 ->
  encode E (TB BUInt32) (VB BUInt32 z) = encode E (TB BInt32) (VB BInt32 (if z <? 2 ^ 31 then z else z - 2 ^ 32)).
Proof.
  intros R. assert (H : write_int 4 z = write_int 4 (if z <? 2 ^ 31 then z else z - 2 ^ 32)).
  { destruct (z <? 2 ^ 31); [reflexivity|]. unfold write_int. rewrite (le_enc_mod 4 z), (le_enc_mod 4 (z - 2 ^ 32)). f_equal.
    change (256 ^ Z.of_nat 4) with (2 ^ 32). replace (z - 2 ^ 32) with (z + (-1) * 2 ^ 32) by lia. rewrite Z.mod_add by lia. reflexivity. }
  unfold encode. cbn [supported]. cbn [enc]. exact (f_equal Some H).
Qed.

(** ** Examples *)
Example ex_type : In ("Annotation"%string, 893, [Text'; Text'; Time']) standard_types /\ ~ In "Annotation"%string without_encoder.
Proof.
  split.
  - assert (A : existsb (same_entry ("Annotation"%string, 893, [Text'; Text'; Time'])) standard_types = true) by (vm_compute; reflexivity).
    apply existsb_exists in A. destruct A as (e & I & Q). apply same_entry_eq in Q. now subst e.
  - intros H. apply listed_In in H. vm_compute in H. discriminate.
Qed.
Definition ex_rule : list val := [VB BInt32 1; VB BString [x68; x69]].
Example ex_wf : In ("IdentityMappingRuleType"%string, 15736, [Enum'; Text']) standard_types /\
  wzip (wf (std_env []) false) [Enum'; Text'] ex_rule.
Proof.
  split.
  - assert (A : existsb (same_entry ("IdentityMappingRuleType"%string, 15736, [Enum'; Text'])) standard_types = true) by (vm_compute; reflexivity).
    apply existsb_exists in A. destruct A as (e & I & Q). apply same_entry_eq in Q. now subst e.
  - cbn [wf wzip wall bwf ex_rule Enum' Text']. unfold Enum', Text'. cbn [wf bwf].
    repeat match goal with |- _ /\ _ => split end; try exact Logic.I; try reflexivity; unfold in_u, in_s, len_ok; cbn; lia.
Qed.
Example ex_mask : encode (std_env []) (TB BUInt32) (VB BUInt32 0x80000001) = Some [x01; x00; x00; x80].
Proof. reflexivity. Qed.
