(** Proofs about discovery. *)
From Coq Require Import ZArith List Bool String Lia Permutation.
From Verif Require Import Bytes BytesProofs Text Endpoints Discovery DiscoverySpec.
Import ListNotations.
Open Scope Z_scope.

(** * The answers *)
Lemma existsb_bytes b l : existsb (bytes_eqb b) l = true <-> In b l.
Proof.
  rewrite existsb_exists. split.
  - intros (x & I & E). apply bytes_eqb_eq in E. subst. exact I.
  - intros I. exists b. split; [exact I|]. apply bytes_eqb_eq. reflexivity.
Qed.
Lemma get_answered eps url profiles : answered profiles url eps (get_endpoints eps url profiles).
Proof.
  induction eps as [|e eps IH]; [constructor|]. cbn [get_endpoints]. destruct profiles as [|p ps].
  - apply an_yes; [left; reflexivity|repeat split|exact IH].
  - destruct (existsb (bytes_eqb (d_profile e)) (p :: ps)) eqn:E.
    + apply an_yes; [right; apply existsb_bytes; exact E|repeat split|exact IH].
    + apply an_no; [|exact IH]. intros [H|H]; [discriminate|]. apply existsb_bytes in H. congruence.
Qed.
Lemma find_servers_spec self uris x : (In x (find_servers self uris) <-> x = self /\ (uris = [] \/ In self uris)) /\ (List.length (find_servers self uris) <= 1)%nat.
Proof.
  unfold find_servers. destruct uris as [|u us].
  - split; [|cbn; lia]. cbn. intuition.
  - destruct (existsb (bytes_eqb self) (u :: us)) eqn:E; (split; [|cbn; lia]).
    + apply existsb_bytes in E. cbn [In] in *. intuition.
    + split; [intros []|]. intros (_ & [H|H]); [discriminate|]. apply existsb_bytes in H. congruence.
Qed.
Lemma get_all url : forall eps, Forall (fun e => d_profile e = tcp_profile) eps -> get_endpoints eps url [tcp_profile] = map (with_url url) eps.
Proof.
  induction 1 as [|e eps H _ IH]; [reflexivity|]. cbn [get_endpoints map]. rewrite H, IH. assert (E : existsb (bytes_eqb tcp_profile) [tcp_profile] = true) by (apply existsb_bytes; left; reflexivity).
  rewrite E. reflexivity.
Qed.

(** * Sorting *)
Fixpoint strict (l : list desc) : Prop := match l with [] => True | e :: r => (forall x, In x r -> d_level x < d_level e) /\ strict r end.
Lemma strict_unique a : forall b, strict a -> strict b -> Permutation a b -> a = b.
Proof.
  induction a as [|x a IH]; intros b A B P; [apply Permutation_nil in P; auto|]. destruct b as [|y b]; [apply Permutation_sym, Permutation_nil in P; discriminate|].
  destruct A as [A1 A2], B as [B1 B2]. assert (E : x = y).
  { assert (I : In x (y :: b)) by (eapply Permutation_in; [exact P|left; reflexivity]). assert (J : In y (x :: a)) by (eapply Permutation_in; [apply Permutation_sym; exact P|left; reflexivity]).
    destruct I as [I|I]; [auto|]. destruct J as [J|J]; [auto|]. pose proof (A1 _ J). pose proof (B1 _ I). lia. }
  subst y. f_equal. apply IH; auto. eapply Permutation_cons_inv. exact P.
Qed.
Lemma level_strict l : by_level l -> NoDup (map d_level l) -> strict l.
Proof.
  induction l as [|e l IH]; intros B N; [exact Logic.I|]. destruct B as [B1 B2]. inversion N as [|? ? N1 N2]; subst. split; [|auto].
  intros x I. pose proof (B1 x I). assert (d_level x <> d_level e) by (intros E; apply N1; rewrite <- E; apply in_map; exact I). lia.
Qed.
Lemma sorted_unique a s : strict a -> Permutation a s -> by_level s -> s = a.
Proof.
  intros A P B. symmetry. apply strict_unique; auto. apply level_strict; [exact B|]. eapply Permutation_NoDup; [apply Permutation_map; exact P|].
  clear - A. induction a as [|e a IH]; [constructor|]. destruct A as [A1 A2]. constructor; [|auto]. intros I. apply in_map_iff in I as (x & E & J). pose proof (A1 x J). lia.
Qed.
(** The list in full *)
Definition rows (none : bool) : list (bytes * Z * Z * bytes) :=
  let one (m : Z) (ub : bytes * Z) := (fst ub, m, snd ub, fst ub) in
  if none then (policy_none, 1, 0, basic256sha256) :: map (one 2) (combine secured [1; 2; 3; 4; 5]) ++ map (one 3) (combine secured [6; 7; 8; 9; 10])
  else map (one 2) (combine secured [0; 1; 2; 3; 4]) ++ map (one 3) (combine secured [5; 6; 7; 8; 9]).
Definition row_desc (c : scfg) (r : bytes * Z * Z * bytes) : desc :=
  let '(p, m, n, t) := r in mkDesc (sc_url c) tcp_profile p m n (tokens c n t).
Lemma build_rows c : build c = map (row_desc c) (rows (sc_none c)).
Proof.
  destruct c as [[|] a u x w]; cbv -[tokens lit policy_none tcp_profile sc_url]; reflexivity.
Qed.
Lemma build_tcp c : Forall (fun e => d_profile e = tcp_profile) (build c).
Proof. rewrite build_rows. apply Forall_map. apply Forall_forall. intros [[[p m] n] t] _. reflexivity. Qed.
Definition rlevel (r : bytes * Z * Z * bytes) : Z := let '(_, _, n, _) := r in n.
Fixpoint falling (l : list Z) : bool := match l with [] => true | a :: r => forallb (fun b => b <? a) r && falling r end.
Lemma falling_strict l : falling (map d_level l) = true -> strict l.
Proof.
  induction l as [|e l IH]; cbn [map falling strict]; [auto|]. intros H. apply andb_true_iff in H as [H1 H2]. split; [|auto].
  intros x I. rewrite forallb_forall in H1. apply Z.ltb_lt, H1, in_map, I.
Qed.
Lemma build_strict c url : strict (rev (map (with_url url) (build c))).
Proof.
  apply falling_strict. rewrite map_rev, build_rows, !map_map.
  rewrite (map_ext (fun r => d_level (with_url url (row_desc c r))) rlevel) by (intros [[[p m] n] t]; reflexivity).
  destruct (sc_none c); reflexivity.
Qed.
(** What the client sees after sorting *)
Lemma answer_sorted c url sorted : Permutation (get_endpoints (build c) url [tcp_profile]) sorted -> by_level sorted -> sorted = rev (map (with_url url) (build c)).
Proof.
  intros P B. rewrite (get_all url _ (build_tcp c)) in P. apply sorted_unique; [apply build_strict| |exact B]. eapply Permutation_trans; [apply Permutation_sym, Permutation_rev|exact P].
Qed.

(** * What Dial chooses *)
Definition sel (policy : bytes) (mode : Z) (cert : bool) (r : bytes * Z * Z * bytes) : bool :=
  let '(p, m, _, _) := r in
  existsb (bytes_eqb p) policies &&
  ((negb (nonempty (wanted_policy policy cert)) || bytes_eqb p (wanted_policy policy cert)) &&
   ((wanted_mode policy mode cert =? 0) || (m =? wanted_mode policy mode cert))).
Lemma find_map {A B} (g : A -> B) f l : find f (map g l) = option_map g (find (fun a => f (g a)) l).
Proof. induction l as [|a l IH]; [reflexivity|]. cbn. destruct (f (g a)); [reflexivity|exact IH]. Qed.
Lemma find_ext {A} (f g : A -> bool) l : (forall a, f a = g a) -> find f l = find g l.
Proof. intros H. induction l as [|a l IH]; [reflexivity|]. cbn. rewrite H, IH. reflexivity. Qed.
Lemma find_false {A} (f : A -> bool) l : (forall a, In a l -> f a = false) -> find f l = None.
Proof. induction l as [|a l IH]; intros H; [reflexivity|]. cbn. rewrite (H a) by (left; reflexivity). apply IH. intros; apply H; right; assumption. Qed.
Lemma dial_rows c url policy mode cert sorted : Permutation (get_endpoints (build c) url [tcp_profile]) sorted -> by_level sorted ->
  dial_choice policy mode cert sorted = option_map (fun r => with_url url (row_desc c r)) (find (sel policy mode cert) (rev (rows (sc_none c)))).
Proof.
  intros P B. rewrite (answer_sorted _ _ _ P B), build_rows, map_map, <- map_rev. unfold dial_choice. rewrite find_map.
  rewrite (find_ext _ (sel policy mode cert)); [reflexivity|]. intros [[[p m] n] t]. reflexivity.
Qed.
Definition pm (r : bytes * Z * Z * bytes) : bytes * Z := let '(p, m, _, _) := r in (p, m).
Lemma rows_range none r : In r (rev (rows none)) -> In (fst (pm r)) policies /\ 1 <= snd (pm r) <= 3.
Proof.
  intros H. rewrite <- in_rev in H. assert (F : forallb (fun r => existsb (bytes_eqb (fst (pm r))) policies && ((1 <=? snd (pm r)) && (snd (pm r) <=? 3))) (rows none) = true) by (destruct none; vm_compute; reflexivity).
  rewrite forallb_forall in F. specialize (F r H). apply andb_true_iff in F as [F1 F2]. split; [apply existsb_bytes; exact F1|lia].
Qed.
Lemma policies_five policy : In policy policies <-> policy = uri "None"%string \/ In policy five.
Proof. change policies with (uri "None"%string :: five). cbn [In]. intuition. Qed.
Lemma rows_choice none policy mode cert : option_map pm (find (sel policy mode cert) (rev (rows none))) = choice none policy mode cert.
Proof.
  assert (K : policy = [] \/ In policy policies \/ (policy <> [] /\ ~ In policy policies)).
  { destruct policy as [|z policy]; [auto|]. destruct (existsb (bytes_eqb (z :: policy)) policies) eqn:E; [right; left; apply existsb_bytes; exact E|right; right].
    split; [discriminate|]. intros I. apply existsb_bytes in I. congruence. }
  assert (M : mode = 0 \/ mode = 1 \/ mode = 2 \/ mode = 3 \/ (mode < 0 \/ 3 < mode)) by lia.
  assert (O : wanted_mode policy mode cert = mode -> mode < 0 \/ 3 < mode -> find (sel policy mode cert) (rev (rows none)) = None).
  { intros W Q. apply find_false. intros r I. apply rows_range in I as (_ & I). destruct r as [[[p m] n] t]. cbn [pm snd] in I. unfold sel. rewrite W.
    replace (mode =? 0) with false by lia. replace (m =? mode) with false by lia. rewrite !andb_false_r. reflexivity. }
  destruct K as [->|[K|[K1 K2]]].
  - destruct cert; [|destruct none; vm_compute; reflexivity]. destruct M as [->|[->|[->|[->|M]]]]; try (destruct none; vm_compute; reflexivity).
    rewrite (O eq_refl M). unfold choice, with_mode. replace (mode =? 1) with false by lia. replace (mode =? 0) with false by lia. replace (mode =? 3) with false by lia. replace (mode =? 2) with false by lia. reflexivity.
  - assert (W : wanted_mode policy mode cert = mode) by (repeat (destruct K as [<-|K]; [reflexivity|]); destruct K).
    destruct M as [->|[->|[->|[->|M]]]]; try solve [clear O W; repeat (destruct K as [<-|K]; [destruct none, cert; vm_compute; reflexivity|]); destruct K].
    rewrite (O W M). unfold choice, with_mode. replace (mode =? 1) with false by lia. replace (mode =? 0) with false by lia. replace (mode =? 3) with false by lia. replace (mode =? 2) with false by lia.
    cbn [orb]. rewrite andb_false_r. destruct policy; [|destruct (existsb _ five); reflexivity]. destruct cert; [reflexivity|]. repeat (destruct K as [K|K]; [discriminate|]). destruct K.
  - rewrite find_false.
    + unfold choice. destruct policy as [|z policy]; [congruence|]. destruct (existsb _ five) eqn:E.
      { apply existsb_bytes in E. exfalso. apply K2, policies_five. auto. }
      destruct (bytes_eqb (z :: policy) (uri "None"%string)) eqn:F; [|reflexivity]. apply bytes_eqb_eq in F. exfalso. apply K2, policies_five. auto.
    + intros r I. apply rows_range in I as (I & _). destruct r as [[[p m] n] t]. cbn [pm fst] in I. unfold sel, wanted_policy. destruct policy as [|z policy]; [congruence|]. cbn [nonempty negb andb orb].
      destruct (bytes_eqb p (z :: policy)) eqn:F; [apply bytes_eqb_eq in F; subst p; contradiction|]. rewrite andb_false_r. reflexivity.
Qed.
(** ** The server's endpoint for it *)
Lemma channel_rows c r : sc_url c <> [] -> In r (rows (sc_none c)) -> channel_endpoint (build c) (fst (pm r)) (snd (pm r)) = Some (row_desc c r).
Proof.
  intros U I. unfold channel_endpoint. rewrite build_rows, find_map.
  assert (E : find (fun a => offers (fst (pm r)) (snd (pm r)) (forget (row_desc c a))) (rows (sc_none c)) = Some r).
  { rewrite (find_ext _ (fun a => bytes_eqb tcp_profile tcp_profile && bytes_eqb (fst (pm a)) (fst (pm r)) && (snd (pm a) =? snd (pm r)))) by (intros [[[p m] n] t]; reflexivity).
    destruct (sc_none c); repeat (destruct I as [<-|I]; [vm_compute; reflexivity|]); destruct I. }
  rewrite E. cbn [option_map]. destruct r as [[[p m] n] t]. unfold row_desc. cbn [d_url]. destruct (sc_url c); [congruence|]. reflexivity.
Qed.
Lemma dial_choice_spec c url policy mode cert sorted : sc_url c <> [] -> Permutation (get_endpoints (build c) url [tcp_profile]) sorted -> by_level sorted ->
  match dial_choice policy mode cert sorted with
  | None => choice (sc_none c) policy mode cert = None
  | Some e => choice (sc_none c) policy mode cert = Some (d_policy e, d_mode e) /\ d_url e = url /\
      exists s, In s (build c) /\ told_as url s e /\ channel_endpoint (build c) (d_policy e) (d_mode e) = Some s
  end.
Proof.
  intros U P B. rewrite (dial_rows _ _ _ _ _ _ P B), <- rows_choice. destruct (find _ _) as [r|] eqn:F; [|reflexivity].
  apply find_some in F as (I & _). rewrite <- in_rev in I. cbn [option_map]. destruct r as [[[p m] n] t]. split; [reflexivity|]. split; [reflexivity|].
  exists (row_desc c (p, m, n, t)). split; [rewrite build_rows; apply in_map; exact I|]. split; [repeat split|]. exact (channel_rows c (p, m, n, t) U I).
Qed.

(** * Token policies *)
Lemma tokens_types c n u t : In t (map tp_type (tokens c n u)) <-> checks c t = true.
Proof.
  unfold tokens, checks. destruct (sc_anon c), (sc_user c), (sc_cert c); cbn; (split; [intros H; repeat (destruct H as [<-|H]; [reflexivity|]); destruct H|]);
    destruct (t =? 0) eqn:A; try (destruct (t =? 1) eqn:B); try (destruct (t =? 2) eqn:D); intros; try discriminate; lia.
Qed.
Lemma build_types c e t : In e (build c) -> In t (map tp_type (d_tokens e)) <-> checks c t = true.
Proof. rewrite build_rows. intros I. apply in_map_iff in I as ([[[p m] n] u] & <- & _). apply tokens_types. Qed.
Lemma build_ids c : NoDup (flat_map (fun e => map tp_id (d_tokens e)) (build c)).
Proof.
  assert (G : forall x a b d, NoDup (flat_map (fun r => map tp_id (tokens (mkScfg x a b d []) (rlevel r) [])) (rows x))).
  { assert (H : forall l : list bytes, (fix go (l : list bytes) := match l with [] => true | a :: r => negb (existsb (bytes_eqb a) r) && go r end) l = true -> NoDup l).
    { induction l as [|a l IH]; intros H; [constructor|]. apply andb_true_iff in H as [H1 H2]. constructor; [|auto]. intros I. apply existsb_bytes in I. rewrite I in H1. discriminate. }
    intros x a b d. apply H. destruct x, a, b, d; vm_compute; reflexivity. }
  rewrite build_rows. specialize (G (sc_none c) (sc_anon c) (sc_user c) (sc_cert c)). rewrite flat_map_concat_map in *. rewrite map_map.
  erewrite map_ext; [exact G|]. intros [[[p m] n] t]. unfold row_desc, rlevel, tokens. cbn [d_tokens sc_anon sc_user sc_cert]. destruct (sc_anon c), (sc_user c), (sc_cert c); reflexivity.
Qed.
(** Every token of a user name or certificate is sent under a policy that encrypts it or signs with it *)
Lemma build_secret c e t : In e (build c) -> In t (d_tokens e) -> tp_type t <> 0 -> In (tp_policy t) five.
Proof.
  rewrite build_rows. intros I. apply in_map_iff in I as ([[[p m] n] u] & <- & J). unfold row_desc. cbn [d_tokens].
  assert (U : In u five).
  { assert (F : forallb (fun r => existsb (bytes_eqb (let '(_, _, _, u) := r in u)) five) (rows (sc_none c)) = true) by (destruct (sc_none c); vm_compute; reflexivity).
    rewrite forallb_forall in F. specialize (F _ J). apply existsb_bytes in F. exact F. }
  unfold tokens. rewrite !in_app_iff. intros [K|[K|K]] T.
  - destruct (sc_anon c); [|destruct K]. destruct K as [<-|[]]. cbn in T. congruence.
  - destruct (sc_user c); [|destruct K]. destruct K as [<-|[]]. exact U.
  - destruct (sc_cert c); [|destruct K]. destruct K as [<-|[]]. exact U.
Qed.

(** Nothing is encrypted for those who are anonymous *)
Lemma build_anonymous c e t : In e (build c) -> In t (d_tokens e) -> tp_type t = 0 -> tp_policy t = uri "None"%string.
Proof.
  rewrite build_rows. intros I. apply in_map_iff in I as ([[[p m] n] u] & <- & J). unfold row_desc. cbn [d_tokens].
  unfold tokens. rewrite !in_app_iff. intros [K|[K|K]] T.
  - destruct (sc_anon c); [|destruct K]. destruct K as [<-|[]]. vm_compute. reflexivity.
  - destruct (sc_user c); [|destruct K]. destruct K as [<-|[]]. discriminate T.
  - destruct (sc_cert c); [|destruct K]. destruct K as [<-|[]]. discriminate T.
Qed.

(** * Whose address *)
Lemma any_address c url e : In e (get_endpoints (build c) url []) -> d_url e = url.
Proof.
  pose proof (get_answered (build c) url []) as A. induction A as [|e0 x r l _ T A IH|e0 r l _ A IH]; [intros []| |exact IH].
  intros [<-|I]; [exact (proj1 T)|exact (IH I)].
Qed.
Lemma any_address_nonempty c url : get_endpoints (build c) url [] <> [].
Proof.
  assert (G : forall eps, eps <> [] -> get_endpoints eps url [] <> []) by (intros [|e r] H; [congruence|discriminate]).
  apply G. rewrite build_rows. destruct (sc_none c); discriminate.
Qed.
Lemma foreign_address c url : url <> sc_url c ->
  exists e, In e (get_endpoints (build c) url []) /\ ~ own_address c (d_url e).
Proof.
  intros U. destruct (get_endpoints (build c) url []) as [|e r] eqn:E; [exfalso; exact (any_address_nonempty c url E)|].
  exists e. split; [left; reflexivity|]. rewrite (any_address c url e) by (rewrite E; left; reflexivity). exact U.
Qed.
