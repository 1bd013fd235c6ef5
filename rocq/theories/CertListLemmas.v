(** Statements of C114 in the form of its theorems, with examples. *)
From Coq Require Import ZArith List Bool Lia Strings.Byte.
From Verif Require Import Bytes BytesProofs CertList CertListSpec CertListProofs.
Ltac Zify.zify_post_hook ::= idtac.
Import ListNotations.
Open Scope nat_scope.

Section X509.
Variable x : fields.
Variable parses : bytes -> bool.
Variable decode : bytes -> option (block * bytes).
Notation runs := (run x parses decode new_list).

Lemma history ops lists : shrinks decode -> Forall2 (gives_certs parses decode) ops lists ->
  exists s, runs ops = Some (Gives s) /\ certs s = firsts (concat lists) /\ subjects x s = map (subject x) (firsts (concat lists)).
Proof.
  intros Sh F. destruct (run_holds x parses decode Sh ops lists F new_list []) as (s & R & G & C).
  { split; [apply good_new|reflexivity]. }
  exists s. unfold subjects. rewrite C. auto.
Qed.
Lemma reached ops lists s : shrinks decode -> Forall2 (gives_certs parses decode) ops lists -> runs ops = Some (Gives s) ->
  good x s /\ certs s = firsts (concat lists).
Proof.
  intros Sh F R. destruct (run_holds x parses decode Sh ops lists F new_list []) as (s' & R' & G & C).
  { split; [apply good_new|reflexivity]. }
  rewrite R in R'. injection R' as <-. auto.
Qed.

Lemma contains_reached ops lists s c : shrinks decode -> Forall2 (gives_certs parses decode) ops lists -> runs ops = Some (Gives s) ->
  (contains x (Some s) c = Gives true <-> In c (concat lists)) /\ (contains x (Some s) c = Gives false <-> ~ In c (concat lists)).
Proof.
  intros Sh F R. destruct (reached ops lists s Sh F R) as [G C]. rewrite (contains_good x s c G), C.
  destruct (in_dec bytes_dec c (firsts (concat lists))) as [I|I].
  - assert (J := proj1 (in_firsts c _) I). split; split; intros; auto; [discriminate|contradiction].
  - assert (J : ~ In c (concat lists)) by (intros J; exact (I (proj2 (in_firsts c _) J))).
    split; split; intros; auto; [discriminate|contradiction].
Qed.

Lemma by_name ops lists s c : shrinks decode -> Forall2 (gives_certs parses decode) ops lists -> runs ops = Some (Gives s) ->
  authority_key x c = [] -> exists ps, find_parents x (Some s) c = Gives ps /\ NoDup ps /\
    forall p, In p ps <-> In p (concat lists) /\ may_have_signed (subject x) (issuer x) (subject_key x) (authority_key x) p c.
Proof.
  intros Sh F R K. destruct (reached ops lists s Sh F R) as [G C]. rewrite (parents_good x s c G), K, C.
  eexists. split; [reflexivity|]. split; [apply NoDup_filter, nodup_firsts|].
  intros p. rewrite filter_In, in_firsts, bytes_eqb_eq. unfold may_have_signed. rewrite K. tauto.
Qed.
Lemma by_key_found ops lists s c : shrinks decode -> Forall2 (gives_certs parses decode) ops lists -> runs ops = Some (Gives s) ->
  authority_key x c <> [] -> exists ps, find_parents x (Some s) c = Gives ps /\ NoDup ps /\
    forall p, In p ps <-> In p (concat lists) /\ subject_key x p = authority_key x c.
Proof.
  intros Sh F R K. destruct (reached ops lists s Sh F R) as [G C]. rewrite (parents_good x s c G), C.
  eexists. split; [reflexivity|]. split; [apply NoDup_filter, nodup_firsts|].
  intros p. rewrite filter_In, in_firsts. destruct (authority_key x c); [congruence|]. now rewrite bytes_eqb_eq.
Qed.
Lemma by_key_complete ops lists s c p : shrinks decode -> Forall2 (gives_certs parses decode) ops lists -> runs ops = Some (Gives s) ->
  authority_key x c <> [] -> In p (concat lists) -> may_have_signed (subject x) (issuer x) (subject_key x) (authority_key x) p c -> subject_key x p <> [] ->
  exists ps, find_parents x (Some s) c = Gives ps /\ In p ps.
Proof.
  intros Sh F R K I (_ & [M|[M|M]]) N; try contradiction. destruct (by_key_found ops lists s c Sh F R K) as (ps & E & _ & X).
  exists ps. split; [exact E|]. apply X. auto.
Qed.
Lemma missed ops lists s c p : shrinks decode -> Forall2 (gives_certs parses decode) ops lists -> runs ops = Some (Gives s) ->
  authority_key x c <> [] -> In p (concat lists) -> subject x p = issuer x c -> subject_key x p = [] ->
  may_have_signed (subject x) (issuer x) (subject_key x) (authority_key x) p c /\
  exists ps, find_parents x (Some s) c = Gives ps /\ ~ In p ps.
Proof.
  intros Sh F R K I N E. split; [split; auto|]. destruct (by_key_found ops lists s c Sh F R K) as (ps & P & _ & X).
  exists ps. split; [exact P|]. intros J. apply X in J as [_ J]. congruence.
Qed.
Lemma other_name ops lists s c p : shrinks decode -> Forall2 (gives_certs parses decode) ops lists -> runs ops = Some (Gives s) ->
  authority_key x c <> [] -> In p (concat lists) -> subject_key x p = authority_key x c -> subject x p <> issuer x c ->
  ~ may_have_signed (subject x) (issuer x) (subject_key x) (authority_key x) p c /\
  exists ps, find_parents x (Some s) c = Gives ps /\ In p ps.
Proof.
  intros Sh F R K I N E. split; [intros [X _]; contradiction|]. destruct (by_key_found ops lists s c Sh F R K) as (ps & P & _ & X).
  exists ps. split; [exact P|]. apply X. auto.
Qed.

Lemma pem_says ops lists s text cs : shrinks decode -> Forall2 (gives_certs parses decode) ops lists -> runs ops = Some (Gives s) ->
  pem parses decode text cs -> exists s' ok, append_pem x parses decode (length text) s text false = Some (Gives (s', ok)) /\
    (ok = true <-> cs <> []) /\ certs s' = firsts (concat lists ++ cs).
Proof.
  intros Sh F R P. destruct (reached ops lists s Sh F R) as [G C].
  destruct (pem_holds x parses decode cs text P Sh (length text) s (concat lists) false (le_n _)) as (s' & A & _ & C'); [split; assumption|].
  exists s'. eexists. split; [exact A|]. split; [|exact C']. destruct cs; cbn; split; congruence.
Qed.

Lemma nil_list c : contains x None c = Gives false /\ find_parents x None c = Gives [] /\
  add_cert x None (Some c) = Panics.
Proof. repeat split. Qed.
Lemma nil_cert s : add_cert x s None = Panics.
Proof. reflexivity. Qed.
Lemma zero_value c : contains x (Some zero_list) c = Gives false /\ add_cert x (Some zero_list) (Some c) = Panics.
Proof. split; [reflexivity|]. unfold add_cert. cbn. now destruct (subject_key x c). Qed.
End X509.

Lemma firsts_ok l : NoDup (firsts l) /\ forall x, In x (firsts l) <-> In x l.
Proof. split; [apply nodup_firsts|]. intros x. apply in_firsts. Qed.

(** ** Examples: of four bytes the first is the subject, the second the issuer, the third and the fourth are the key ids,
    zero for none; a block is a length and its bytes *)
Definition part (k : nat) (c : bytes) : bytes := firstn 1 (skipn k c).
Definition key (k : nat) (c : bytes) : bytes := match part k c with [x00] => [] | p => p end.
Definition ex_decode (t : bytes) : option (block * bytes) :=
  match t with
  | x01 :: r => Some (mkBlock true 0 (firstn 4 r), skipn 4 r)
  | x02 :: r => Some (mkBlock false 0 (firstn 4 r), skipn 4 r)
  | _ => None
  end.
Example ex_shrinks : shrinks ex_decode.
Proof.
  intros t b rest H. destruct t as [|x r]; [discriminate|]. destruct x; try discriminate H; unfold ex_decode in H;
    (assert (E : skipn 4 r = rest) by congruence); rewrite <- E, skipn_length; cbn [length]; lia.
Qed.
Definition root : bytes := [x01; x01; x07; x00].
Definition old_root : bytes := [x01; x01; x00; x00].
Definition leaf : bytes := [x05; x01; x00; x07].
Definition fake : bytes := [x09; x09; x07; x00].
Definition ex_ops : list op := [Add root; AppendPem ([x01] ++ old_root ++ [x02] ++ leaf ++ [x01] ++ root); Add fake].
Example ex_gives : Forall2 (gives_certs (fun _ => true) ex_decode) ex_ops [[root]; [old_root; root]; [fake]].
Proof.
  repeat constructor. apply (pem_cert _ _ _ (mkBlock true 0 old_root) ([x02] ++ leaf ++ [x01] ++ root)); [discriminate|reflexivity|repeat split|].
  apply (pem_other _ _ _ (mkBlock false 0 leaf) ([x01] ++ root)); [discriminate|reflexivity|intros [X _]; discriminate X|].
  apply (pem_cert _ _ _ (mkBlock true 0 root) []); [discriminate|reflexivity|repeat split|]. constructor.
Qed.
Definition ex_fields : fields := mkFields (part 0) (part 1) (key 2) (key 3).
Example ex_run : match run ex_fields (fun _ => true) ex_decode new_list ex_ops with
  | Some (Gives s) => certs s = [root; old_root; fake] /\ find_parents ex_fields (Some s) leaf = Gives [root; fake] /\
      contains ex_fields (Some s) leaf = Gives false /\ contains ex_fields (Some s) old_root = Gives true
  | _ => False
  end.
Proof. vm_compute. repeat split. Qed.
Example ex_missed : key 3 leaf <> [] /\ part 0 old_root = part 1 leaf /\ key 2 old_root = [].
Proof. repeat split. discriminate. Qed.
Example ex_other : key 2 fake = key 3 leaf /\ part 0 fake <> part 1 leaf.
Proof. split; [reflexivity|discriminate]. Qed.
