(** Loading a node set: proofs *)
From Coq Require Import ZArith String List Bool Lia Strings.Byte.
From Verif Require Import Bytes BytesProofs CodecSpec Prim PrimSpec Value Text TextSpec TextProofs IndexRange IndexRangeProofs Namespaces SpaceSpec PathProofs NodeSet NodeSetSpec.
Import ListNotations.
Open Scope Z_scope.
Ltac Zify.zify_post_hook ::= idtac.

(** * Namespaces *)
Lemma nth_app_some {A} (l m : list A) n x : nth_error l n = Some x -> nth_error (l ++ m) n = Some x.
Proof. intros H. rewrite nth_error_app1; [exact H|]. apply nth_error_Some. now rewrite H. Qed.
Lemma nth_lt {A} (l : list A) n x : nth_error l n = Some x -> (n < length l)%nat.
Proof. intros H. apply nth_error_Some. now rewrite H. Qed.

Lemma map_uris_ok snapshot uris : forall table i m extra, table = snapshot ++ extra -> 0 <= i -> i + Z.of_nat (length uris) < 65536 ->
  Z.of_nat (length table) + Z.of_nat (length uris) <= 65536 ->
  exists more m', map_uris snapshot table i uris m = (table ++ more, m') /\
    (forall k, 0 <= k <= i -> ns_lookup m' k = ns_lookup m k) /\
    (forall n u, nth_error uris n = Some u -> exists j, ns_lookup m' (i + 1 + Z.of_nat n) = Some j /\ server_uri (table ++ more) j u).
Proof.
  induction uris as [|u uris IH]; intros table i m extra T I0 I1 L; cbn [map_uris].
  - exists [], m. rewrite app_nil_r. split; [reflexivity|]. split; [reflexivity|]. intros [|n] u; discriminate.
  - cbn [length] in I1, L.
    assert (A : exists more0 j, (match index_from 0 u snapshot with Some k => (table, uint16 k) | None => add_uri table u end) = (table ++ more0, j) /\
              (length more0 <= 1)%nat /\ server_uri (table ++ more0) j u).
    { destruct (index_from 0 u snapshot) as [k|] eqn:E.
      - apply index_from_spec in E. destruct E as [E1 E2]. rewrite Z.sub_0_r in E2. exists [], (uint16 k). rewrite app_nil_r. split; [reflexivity|]. split; [cbn; lia|].
        pose proof (nth_lt _ _ _ E2) as B. rewrite T in L. rewrite app_length in L. unfold uint16. rewrite Z.mod_small by lia. split; [lia|]. rewrite T. now apply nth_app_some.
      - unfold add_uri. destruct (index_from 0 u table) as [k|] eqn:E'.
        + apply index_from_spec in E'. destruct E' as [E1 E2]. rewrite Z.sub_0_r in E2. exists [], (uint16 k). rewrite app_nil_r. split; [reflexivity|]. split; [cbn; lia|].
          pose proof (nth_lt _ _ _ E2) as B. unfold uint16. rewrite Z.mod_small by lia. split; [lia|exact E2].
        + exists [u], (uint16 (zlen table)). split; [reflexivity|]. split; [cbn; lia|]. unfold uint16, zlen. rewrite Z.mod_small by lia.
          split; [lia|]. rewrite Nat2Z.id. rewrite nth_error_app2 by lia. now rewrite Nat.sub_diag. }
    destruct A as (more0 & j & -> & L0 & S0). rewrite (Z.mod_small (i + 1)) || unfold uint16 at 1; try (rewrite (Z.mod_small (i + 1)) by lia).
    destruct (IH (table ++ more0) (i + 1) ((i + 1, j) :: m) (extra ++ more0)) as (more & m' & E & K & N); try lia.
    { rewrite T. now rewrite app_assoc. }
    { rewrite app_length. lia. }
    exists (more0 ++ more), m'. rewrite app_assoc. split; [exact E|]. split.
    + intros k Hk. rewrite K by lia. cbn [ns_lookup]. replace (i + 1 =? k) with false by lia. reflexivity.
    + intros [|n] v Hn; cbn [nth_error] in Hn.
      * injection Hn as <-. exists j. rewrite Z.add_0_r. rewrite K by lia. cbn [ns_lookup]. rewrite Z.eqb_refl. split; [reflexivity|].
        destruct S0 as [S1 S2]. split; [exact S1|]. now apply nth_app_some.
      * destruct (N n v Hn) as (j' & J1 & J2). exists j'. split; [|exact J2]. rewrite <- J1. f_equal. lia.
Qed.

Lemma map_uris_new snapshot uris : forall table i m table' m', (forall u, In u snapshot -> In u table) -> map_uris snapshot table i uris m = (table', m') ->
  exists more, table' = table ++ more /\ NoDup more /\ (forall u, In u more -> In u uris /\ ~ In u table) /\ (forall u, In u uris -> In u table').
Proof.
  induction uris as [|u uris IH]; intros table i m table' m' T E; cbn [map_uris] in E.
  - injection E as <- <-. exists []. rewrite app_nil_r. split; [reflexivity|]. split; [constructor|]. split; intros v [].
  - assert (A : exists j, (match index_from 0 u snapshot with Some k => (table, uint16 k) | None => add_uri table u end) = (table, j) /\ In u table \/
        (match index_from 0 u snapshot with Some k => (table, uint16 k) | None => add_uri table u end) = (table ++ [u], j) /\ ~ In u table).
    { destruct (index_from 0 u snapshot) as [k|] eqn:F.
      - apply index_from_spec in F. destruct F as [_ F]. apply nth_error_In in F. eauto.
      - unfold add_uri. destruct (index_from 0 u table) as [k|] eqn:F'; [|apply index_from_none in F'; eauto].
        apply index_from_spec in F'. destruct F' as [_ F']. apply nth_error_In in F'. eauto. }
    destruct A as (j & [[A N]|[A N]]); rewrite A in E.
    + apply IH in E; [|exact T]. destruct E as (more & E1 & E2 & E3 & E4). exists more. split; [exact E1|]. split; [exact E2|]. split.
      * intros v V. destruct (E3 v V). split; [now right|assumption].
      * intros v [<-|V]; [|now apply E4]. rewrite E1. apply in_or_app. now left.
    + apply IH in E; [|intros v V; apply in_or_app; left; now apply T]. destruct E as (more & E1 & E2 & E3 & E4). exists (u :: more).
      split; [rewrite E1, <- app_assoc; reflexivity|]. split.
      * constructor; [|exact E2]. intros V. apply (proj2 (E3 u V)). apply in_or_app. right. now left.
      * split.
        { intros v [<-|V]; [split; [now left|exact N]|]. destruct (E3 v V) as [E5 E6]. split; [now right|]. intros X. apply E6. apply in_or_app. now left. }
        { intros v [<-|V]; [|now apply E4]. rewrite E1. apply in_or_app. left. apply in_or_app. right. now left. }
Qed.
(** What the map does *)
Definition right_map (uris table : list bytes) (m : list (Z * Z)) : Prop :=
  forall i, index_ok uris i -> same_namespace uris table i (map_ns m i).
Lemma map_uris_right table uris : nth_error table 0 = Some opc_ua -> zlen table + zlen uris <= 65536 ->
  exists more m, map_uris table table 0 uris [] = (table ++ more, m) /\ right_map uris (table ++ more) m.
Proof.
  unfold zlen. intros T0 L. assert (length table <> 0)%nat by (destruct table; [discriminate|cbn; lia]).
  destruct (map_uris_ok table uris table 0 [] []) as (more & m & E & K & N); [now rewrite app_nil_r|apply Z.le_refl|lia|lia|].
  exists more, m. split; [exact E|]. intros i [u [[-> ->]|[Hi Hu]]].
  - unfold map_ns. rewrite K by lia. cbn [ns_lookup]. exists opc_ua. split; [left; auto|]. split; [lia|]. now apply nth_app_some.
  - destruct (N _ _ Hu) as (j & J1 & J2). exists u. split; [right; auto|]. unfold map_ns.
    replace (0 + 1 + Z.of_nat (Z.to_nat (i - 1))) with i in J1 by lia. now rewrite J1.
Qed.

(** * NodeIds *)
Lemma escape_plain s : plain s -> escape s = s.
Proof.
  unfold plain. induction s as [|b s IH]; [reflexivity|]. cbn [In]. intros (A & B & C). unfold escape in *. cbn [flat_map]. rewrite IH by tauto.
  destruct b; try reflexivity; exfalso; tauto.
Qed.
Lemma bytes_eqb_eq a b : bytes_eqb a b = true <-> a = b.
Proof.
  split.
  - revert b. induction a as [|x a IH]; intros [|y b]; cbn; try discriminate; [reflexivity|]. intros H. apply andb_prop in H. destruct H as [H1 H2].
    apply Byte.byte_dec_bl in H1. subst y. f_equal. now apply IH.
  - intros <-. induction a as [|x a IH]; [reflexivity|]. cbn. now rewrite byte_eqb_refl.
Qed.
Lemma alias_none al s : ~ In s (map fst al) -> alias_lookup al s = None.
Proof.
  induction al as [|[a t] al IH]; [reflexivity|]. cbn [map fst In alias_lookup]. intros H. rewrite IH by tauto.
  destruct (bytes_eqb a s) eqn:E; [|reflexivity]. apply bytes_eqb_eq in E. tauto.
Qed.
Lemma alias_some al s : In s (map fst al) -> exists x, alias_lookup al s = Some x /\ In (s, x) al.
Proof.
  induction al as [|[a t] al IH]; [intros []|]. cbn [map fst In alias_lookup]. intros H.
  destruct (alias_lookup al s) as [x|] eqn:E.
  - exists x. split; [reflexivity|]. right. destruct (in_dec (list_eq_dec byte_eq_dec) s (map fst al)) as [i|n].
    + destruct (IH i) as (y & Y1 & Y2). injection Y1 as ->. exact Y2.
    + apply alias_none in n. congruence.
  - destruct H as [->|H].
    + rewrite (proj2 (bytes_eqb_eq s s) eq_refl). eauto.
    + destruct (IH H) as (y & Y1 & _). discriminate.
Qed.
Lemma resolve_written al t n : written_id al t n -> plain (print_nodeid n) -> resolve al t = print_nodeid n.
Proof.
  unfold resolve. intros [[-> H]|[H1 H2]] P.
  - now rewrite alias_none.
  - destruct (alias_some al t H1) as (x & -> & I). rewrite (H2 x I). now apply escape_plain.
Qed.
Definition with_ns (k : Z) (n : nodeid) : nodeid :=
  match n with NNull => NNull | NNum _ x => NNum k x | NStr _ x => NStr k x | NGuid _ x => NGuid k x | NOpq _ x => NOpq k x end.
Lemma to_ident_print k n : n <> NNull -> text_nodeid n ->
  to_ident k (match n with
              | NNull => lit "i=0" | NNum _ id => lit "i=" ++ print_dec id | NStr _ s => lit "s=" ++ s
              | NGuid _ g => lit "g=" ++ print_guid g | NOpq _ s => lit "b=" ++ b64_enc s end) = with_ns k n.
Proof.
  intros NN T. destruct n as [|j id|j s|j g|j s]; unfold to_ident; cbn [with_ns].
  - congruence.
  - rewrite strip_prefix_app. destruct T as [Tk Ti]. unfold in_u in Ti. rewrite (parse_print_dec 32) by (cbn in Ti; lia). reflexivity.
  - cbn. reflexivity.
  - change (strip_prefix (lit "i=") (lit "g=" ++ print_guid g)) with (@None bytes).
    change (strip_prefix (lit "s=") (lit "g=" ++ print_guid g)) with (@None bytes).
    rewrite strip_prefix_app, parse_print_guid. reflexivity.
  - change (strip_prefix (lit "i=") (lit "b=" ++ b64_enc s)) with (@None bytes).
    change (strip_prefix (lit "s=") (lit "b=" ++ b64_enc s)) with (@None bytes).
    change (strip_prefix (lit "g=") (lit "b=" ++ b64_enc s)) with (@None bytes).
    rewrite strip_prefix_app, b64_dec_enc. reflexivity.
Qed.
Lemma ns_range n : text_nodeid n -> 0 <= ns_of n < 65536.
Proof. destruct n; cbn [text_nodeid ns_of]; unfold in_u; cbn; lia. Qed.
(** Without the alias table. 0 is mapped when it is written as no prefix at all, that is to 0. *)
Lemma to_node_id_print al m s n : n <> NNull -> text_nodeid n -> resolve al s = print_nodeid n ->
  to_node_id al m s = with_ns (if ns_of n =? 0 then 0 else map_ns m (ns_of n)) n.
Proof.
  intros NN T R. pose proof (ns_range n T) as B. unfold to_node_id. rewrite R. cbv zeta.
  assert (H : exists body, print_nodeid n = print_ns (ns_of n) ++ body /\ (forall k, to_ident k body = with_ns k n) /\ strip_prefix (lit "ns=") body = None).
  { destruct n as [|k id|k s0|k g|k s0]; [congruence|..]; cbn [print_nodeid ns_of];
      [exists (lit "i=" ++ print_dec id)|exists (lit "s=" ++ s0)|exists (lit "g=" ++ print_guid g)|exists (lit "b=" ++ b64_enc s0)];
      (split; [reflexivity|]); (split; [|reflexivity]); intros k0.
    - apply (to_ident_print k0 (NNum k id)); [discriminate|exact T].
    - apply (to_ident_print k0 (NStr k s0)); [discriminate|exact T].
    - apply (to_ident_print k0 (NGuid k g)); [discriminate|exact T].
    - apply (to_ident_print k0 (NOpq k s0)); [discriminate|exact T]. }
  destruct H as (body & -> & HP & HN). unfold print_ns. destruct (ns_of n =? 0) eqn:C.
  - cbn [app]. rewrite HN. apply HP.
  - rewrite <- !app_assoc, strip_prefix_app. change (lit ";") with [x3b]. cbn [app].
    rewrite cut_app by (apply print_dec_no; [lia|cbn; lia]). rewrite (parse_print_dec 16) by (cbn; lia). apply HP.
Qed.

Section Loaded.
Variables (uris table : list bytes) (al : list (bytes * bytes)) (m : list (Z * Z)).
Hypothesis right : right_map uris table m.
Hypothesis zero : nth_error table 0 = Some opc_ua.

Lemma with_ns_same n : id_ok uris n -> same_id uris table n (with_ns (if ns_of n =? 0 then 0 else map_ns m (ns_of n)) n).
Proof.
  intros (NN & T & IX).
  assert (S0 : same_namespace uris table (ns_of n) (if ns_of n =? 0 then 0 else map_ns m (ns_of n))).
  { destruct (ns_of n =? 0) eqn:E; [|exact (right _ IX)]. apply Z.eqb_eq in E. rewrite E. exists opc_ua. split; [left; auto|]. split; [lia|exact zero]. }
  destruct n; [congruence|..]; cbn [same_id with_ns ns_of] in *; auto.
Qed.
Lemma id_loaded s n : id_ok uris n -> plain (print_nodeid n) -> written_id al s n -> same_id uris table n (to_node_id al m s).
Proof.
  intros K P W. pose proof K as (NN & T & IX). rewrite (to_node_id_print al m s n NN T (resolve_written _ _ _ W P)). now apply with_ns_same.
Qed.
Hypothesis plain_alias : forall a, In a al -> plain (fst a).
Lemma target_plain t n : written_id al t n -> plain (print_nodeid n) -> plain t.
Proof.
  intros [[-> _]|[H _]] P; [exact P|]. apply in_map_iff in H. destruct H as (a & <- & H). now apply plain_alias.
Qed.
Lemma lit_neq (a b : string) : bytes_eqb (lit a) (lit b) = false -> lit a <> lit b.
Proof. intros H E. apply bytes_eqb_eq in E. congruence. Qed.
Lemma ref_loaded f x : ref_ok uris f -> plain (print_nodeid (fr_type f)) /\ plain (print_nodeid (fr_target f)) -> written_ref al f x ->
  xr_forward x <> lit "0"%string ->
  same_ref uris table f (mkIRef (to_node_id al m (xr_type x)) (bytes_eqb (xr_forward x) (lit "false"%string)) (mkExp 0 [] (to_node_id al m (xr_target x)))).
Proof.
  intros [K1 K2] [P1 P2] (W1 & W2 & t & W3 & E) Z. unfold same_ref. cbn [ir_type ir_inverse ir_target e_server e_uri e_node].
  split; [now apply id_loaded|]. split.
  - destruct W2 as [[-> ->]|[[-> [->| ->]]|[-> [->|Y]]]]; try reflexivity. exfalso. exact (Z Y).
  - split; [reflexivity|]. split; [reflexivity|]. apply id_loaded; try assumption. rewrite E, escape_plain; [exact W3|]. now apply (target_plain t (fr_target f)).
Qed.
Lemma refs_loaded fs xs : Forall (ref_ok uris) fs -> Forall (fun r => plain (print_nodeid (fr_type r)) /\ plain (print_nodeid (fr_target r))) fs ->
  Forall2 (written_ref al) fs xs -> (forall r, In r xs -> xr_forward r <> lit "0"%string) -> Forall2 (same_ref uris table) fs (to_refs al m xs).
Proof.
  intros K P W Z. induction W as [|f x fs xs W0 W IH]; [constructor|]. inversion K; subst. inversion P; subst. cbn [to_refs map]. constructor.
  - apply ref_loaded; try assumption. apply Z. now left.
  - apply IH; try assumption. intros r R. apply Z. now right.
Qed.
Lemma name_loaded q s : name_ok uris q -> written_name q s -> same_name uris table q (to_browse_name m s).
Proof.
  intros [T IX] W. unfold text_qname, in_u in T. change (2 ^ (8 * 2)) with 65536 in T. unfold to_browse_name. destruct W as [->|(Z0 & -> & C)].
  - unfold print_qname. change (lit ":") with [x3a]. cbn [app]. rewrite cut_app by (apply print_dec_no; [lia|cbn; lia]).
    rewrite (parse_print_dec 16) by (cbn; lia). split; [reflexivity|]. cbn. now apply right.
  - rewrite cut_none by exact C. split; [reflexivity|]. cbn. rewrite Z0. exists opc_ua. split; [left; auto|]. split; [lia|exact zero].
Qed.
End Loaded.
Lemma text_loaded t x : plain_label t -> written_text t x -> to_text x = t.
Proof. intros [P L] ->. destruct t as [a b]. cbn in *. subst b. unfold to_text. cbn. now rewrite escape_plain. Qed.

(** * Numbers *)
Lemma print_dec_cons z : exists c r, print_dec z = c :: r.
Proof. unfold print_dec. destruct (dec_digits 20 z) eqn:E; [exfalso; revert E; apply dec_digits_nonempty|eauto]. Qed.
Lemma rank_loaded r s : -2 ^ 31 <= r < 2 ^ 31 -> written_rank r s -> to_int32 s (-1) = r.
Proof.
  intros B [->|[-> ->]]; [|reflexivity]. unfold to_int32, print_int. destruct (r <? 0) eqn:E.
  - unfold parse_int. change (lit "-") with [x2d]. cbn [app]. change (Byte.eqb x2d x2b) with false. change (Byte.eqb x2d x2d) with true. cbv iota.
    rewrite (parse_print_dec 32) by (cbn in *; lia). replace (- r <=? 2 ^ (32 - 1)) with true by (cbn in *; lia). lia.
  - unfold parse_int. destruct (print_dec_cons r) as (c & t & P). rewrite P.
    assert (C : 48 <= Z_of_byte c <= 57) by (apply (dec_digits_chars 20 r); [lia|]; fold (print_dec r); rewrite P; now left).
    rewrite !byte_eqb_neq by (intros ->; cbn in C; lia). rewrite <- P. rewrite (parse_print_dec 32) by (cbn in *; lia). replace (r <? 2 ^ (32 - 1)) with true by (cbn in *; lia). reflexivity.
Qed.
Lemma access_loaded a s : 0 <= a < 256 -> written_access a s -> to_uint8 s 1 = a.
Proof. intros B [->|[-> ->]]; [|reflexivity]. unfold to_uint8. now rewrite (parse_print_dec 8) by (cbn; lia). Qed.
Lemma split_app' c a b : ~ In c a -> split c (a ++ c :: b) = a :: split c b.
Proof.
  induction a as [|x a IH]; cbn [split app In]; intros H; [now rewrite byte_eqb_refl|]. rewrite byte_eqb_neq by (intros ->; tauto). rewrite IH by tauto. reflexivity.
Qed.
Lemma dims_loaded l rank : Forall (fun n => 0 <= n < 2 ^ 32) l ->
  to_dims (join (map print_dec l)) rank = match l with [] => repeat 0 (Z.to_nat rank) | l => l end.
Proof.
  intros F. destruct l as [|a l].
  - cbn. destruct (0 <? rank) eqn:E; [reflexivity|]. replace (Z.to_nat rank) with 0%nat by lia. reflexivity.
  - assert (S0 : forall a l, Forall (fun n => 0 <= n < 2 ^ 32) (a :: l) ->
      map (fun s => match parse_uint 32 s with NumOk v => v | _ => 0 end) (split x2c (join (map print_dec (a :: l)))) = a :: l).
    { clear. intros a l. revert a. induction l as [|b l IH]; intros a F; inversion F as [|? ? B F']; subst.
      - cbn [map join]. rewrite split_none by (apply print_dec_no; [lia|cbn; lia]). cbn [map]. now rewrite (parse_print_dec 32) by lia.
      - change (join (map print_dec (a :: b :: l))) with (print_dec a ++ lit "," ++ join (map print_dec (b :: l))). change (lit ",") with [x2c].
        cbn [app]. rewrite split_app' by (apply print_dec_no; [lia|cbn; lia]). cbn [map]. rewrite (parse_print_dec 32) by lia. f_equal. now apply IH. }
    specialize (S0 a l F). unfold to_dims. destruct (join (map print_dec (a :: l))) as [|c r] eqn:E; [|exact S0].
    exfalso. destruct (print_dec_cons a) as (c & r & P). destruct l; cbn [map join] in E; rewrite P in E; discriminate.
Qed.
Lemma bool_loaded b s : written_bool true b s -> to_bool s true = b.
Proof. intros [[-> ->]|[[-> [->| ->]]|[-> [->| ->]]]]; reflexivity. Qed.

(** * Values *)
Lemma drop_space_id s : (forall b r, s = b :: r -> ~ blank b) -> drop_space s = s.
Proof.
  destruct s as [|b s]; [reflexivity|]. intros H. cbn [drop_space]. destruct (space_char b) eqn:E; [|reflexivity]. exfalso. apply (H b s eq_refl).
  unfold space_char in E. apply existsb_exists in E. destruct E as (x & I & X). apply Byte.byte_dec_bl in X. now subst x.
Qed.
Lemma trim_id s : no_outer_space s -> trim_space s = s.
Proof.
  intros [A B]. unfold trim_space. rewrite (drop_space_id s A). rewrite drop_space_id; [apply rev_involutive|].
  intros b r E. apply (B b (rev r)). rewrite <- (rev_involutive s), E. reflexivity.
Qed.
Lemma null_numeric_id n : n <> NNum 0 0 -> null_numeric n = n.
Proof.
  intros H. destruct n as [|k id|k s|k g|k s]; try reflexivity. cbn. destruct (k =? 0) eqn:A; [|reflexivity]. destruct (id =? 0) eqn:B; [|reflexivity].
  exfalso. apply H. f_equal; lia.
Qed.
Definition single (t : bty) (x : bval t) (o : option (bval (xty (el t)))) : val :=
  match o with Some y => one (xty (el t)) y | None => VNil end.
Lemma conv_kept t x : kept t x -> single t x (conv (el t) (spell t x)) = VScalar (KB t) (VB t x).
Proof.
  destruct t; cbn [kept]; intros K; try (destruct K; fail); try reflexivity; cbn [el conv spell single xty].
  - now rewrite parse_print_guid.
  - destruct K as (T & _ & NN & N0 & S0). rewrite trim_id by exact S0. rewrite parse_print_nodeid by exact T. rewrite null_numeric_id by exact N0.
    cbn. destruct x; [congruence|..]; reflexivity.
  - destruct K as [_ S0]. destruct x as [n s]. cbn [fst snd q_ns q_name] in *. now rewrite trim_id.
  - destruct K as [S0 S1]. destruct x as [s l]. cbn [fst snd lt_text lt_locale] in *. now rewrite !trim_id.
Qed.
Lemma pick_here v t x ks : uv_one v (el t) = Some (spell t x) -> kept t x -> pick v (el t :: ks) = VScalar (KB t) (VB t x).
Proof.
  intros H K. cbn [pick]. rewrite H. rewrite <- (conv_kept t x K). reflexivity.
Qed.
Lemma pick_in v t x ks : uv_one v (el t) = Some (spell t x) -> (forall k, k <> el t -> uv_one v k = None) -> kept t x -> In (el t) ks ->
  pick v ks = VScalar (KB t) (VB t x).
Proof.
  intros H N K. induction ks as [|k ks IH]; [intros []|]. intros I.
  assert (D : {k = el t} + {k <> el t}) by (decide equality). destruct D as [->|D].
  - now apply pick_here.
  - cbn [pick]. rewrite (N k D). apply IH. destruct I; [congruence|assumption].
Qed.
Lemma pick_none v ks : (forall k, uv_one v k = None) -> pick v ks = VNil.
Proof. intros N. induction ks as [|k ks IH]; [reflexivity|]. cbn [pick]. now rewrite N. Qed.
Lemma list_conv_kept t x : kept_element t x -> exists y, list_conv (el t) (spell t x) = Some y /\ VB (xty (el t)) y = VB t x.
Proof.
  destruct t; cbn [kept_element kept]; intros K; try (destruct K; fail); cbn [el list_conv conv spell xty]; eauto.
  - exists x. rewrite Z.mod_small by exact K. auto.
  - exists x. now rewrite parse_print_guid.
  - destruct K as [_ S0]. destruct x as [n s]. exists (mkQ n s). cbn [fst snd q_ns q_name] in *. rewrite trim_id; auto.
  - destruct K as [S0 S1]. destruct x as [s l]. exists (mkLT s l). cbn [fst snd lt_text lt_locale] in *. rewrite !trim_id; auto.
Qed.
Lemma conv_all_kept t l : Forall (kept_element t) l -> conv_all (el t) (map (spell t) l) = Some (map (VB t) l).
Proof.
  induction l as [|x l IH]; [reflexivity|]. intros F. inversion F as [|? ? K F']; subst. destruct (list_conv_kept t x K) as (y & Y1 & Y2).
  cbn [map conv_all]. rewrite Y1, (IH F'), Y2. reflexivity.
Qed.
Lemma el_type t x : kept_element t x -> xty (el t) = t.
Proof. destruct t; cbn; intros K; try reflexivity; destruct K. Qed.
Lemma to_list_kept t l : l <> [] -> Forall (kept_element t) l -> to_list (el t) (map (spell t) l) = VArr (KB t) (map (VB t) l).
Proof.
  intros NE F. unfold to_list. rewrite conv_all_kept by exact F. destruct l as [|x l]; [congruence|]. inversion F as [|? ? K F']; subst.
  cbn [map]. now rewrite (el_type t x K).
Qed.

Section Lib.
Variables (pf : Z -> bytes -> Z) (pt : bytes -> option time) (xt : bytes -> bytes * bytes) (xq : bytes -> Z * bytes) (en : nodeid -> bool).

Lemma none_loaded al m type s uv rank : parse_nodeid (resolve al type) = s -> s <> NNum 0 6 \/ rank <> -1 -> written_value FNone uv ->
  to_value pf pt xt xq en al m uv type rank = Fine VNil.
Proof.
  intros R S6 (W1 & W2 & W3 & W4 & W5). unfold to_value. cbv zeta. destruct (rank =? -1) eqn:E1.
  - unfold one_value. rewrite R. destruct S6 as [S6|S6]; [|lia].
    assert (G : forall id, match one_kinds id with
          | Some ks => Fine (pick uv ks)
          | None => if en (to_node_id al m (resolve al type)) then match uv_one uv XInt32 with Some n => Fine (one BInt32 n) | None => Fine VNil end else Fine VNil end
          = Fine VNil).
    { intros id. destruct (one_kinds id); [now rewrite pick_none|]. rewrite W1. now destruct (en _). }
    rewrite W3. destruct s as [|k id|k x|k x|k x]; try apply G. destruct k as [|k|k]; try apply G.
    assert (id <> 6) by congruence.
    destruct (Z.eq_dec id 884) as [->|]; [reflexivity|]. destruct (Z.eq_dec id 887) as [->|]; [reflexivity|].
    refine (eq_trans _ (G (NNum 0 id))). destruct id as [|p|p]; try reflexivity.
    repeat (destruct p as [p|p|]; try reflexivity); congruence.
  - destruct (rank =? 1); [|reflexivity]. unfold list_value. rewrite R, W4, W5. cbn [ext_list].
    assert (G : forall id, match list_kind id with Some k => match uv_list uv k with Some l => Fine (to_list k l) | None => Fine VNil end | None => Fine VNil end = Fine VNil).
    { intros id. destruct (list_kind id); [now rewrite W2|reflexivity]. }
    destruct s as [|k id|k x|k x|k x]; try apply G. destruct k as [|k|k]; try apply G.
    destruct (Z.eq_dec id 24) as [->|]; [reflexivity|]. destruct (Z.eq_dec id 296) as [->|]; [reflexivity|]. destruct (Z.eq_dec id 7594) as [->|]; [reflexivity|].
    refine (eq_trans _ (G (NNum 0 id))). destruct id as [|p|p]; try reflexivity.
    repeat (destruct p as [p|p|]; try reflexivity); congruence.
Qed.
Lemma value_loaded al m d s uv : text_nodeid (fd_type d) -> resolve al s = print_nodeid (fd_type d) -> value_kept d -> written_value (fd_value d) uv ->
  to_value pf pt xt xq en al m uv s (fd_rank d) = Fine (meant (fd_value d)).
Proof.
  intros T R K W. unfold value_kept in K. pose proof (parse_print_nodeid _ T) as P. rewrite <- R in P.
  destruct (fd_value d) as [|t x|t l]; cbn [meant].
  - apply (none_loaded _ _ _ _ _ _ P); [|exact W]. destruct K as [K|K]; [left|now right]. intros E. apply K.
    destruct (fd_type d) as [|k id|k y|k y|k y]; cbn [null_numeric] in E; try discriminate E. destruct ((k =? 0) && (id =? 0)); [discriminate|exact E].
  - destruct K as (-> & K & D). destruct W as [W1 W2]. unfold to_value. cbv zeta. change (-1 =? -1) with true. cbv iota. unfold one_value. rewrite P.
    destruct D as [D|[D|[-> D]]]; rewrite D; clear D.
    + destruct t; try (destruct K; fail); cbn [builtin_number]; cbn [null_numeric Z.eqb andb one_kinds];
        try (f_equal; match goal with x : bval ?t |- _ => apply (pick_here uv t x) end; assumption).
      cbn [el spell] in W1. now rewrite W1.
    + cbn [null_numeric Z.eqb andb one_kinds]. f_equal. apply (pick_in uv t x); try assumption. destruct t; cbn; try (destruct K; fail); tauto.
    + cbn [null_numeric Z.eqb andb one_kinds]. f_equal. now apply (pick_here uv BDouble x).
  - destruct K as (-> & NE & F & D). cbn [written_value] in W. unfold to_value. cbv zeta. change (1 =? -1) with false. change (1 =? 1) with true. cbv iota. unfold list_value. rewrite P.
    destruct l as [|x l]; [congruence|]. pose proof (Forall_inv F) as K0.
    destruct D as [D|[-> D]]; rewrite D; clear D.
    + assert (G : list_kind (NNum 0 (builtin_number t)) = Some (el t)) by (destruct t; cbn in K0; try reflexivity; destruct K0).
      assert (B : match null_numeric (NNum 0 (builtin_number t)) with
        | NNum 0 24 => False | NNum 0 296 => False | NNum 0 7594 => False | i => i = NNum 0 (builtin_number t) end) by (destruct t; reflexivity).
      transitivity (Fine (to_list (el t) (map (spell t) (x :: l)))).
      * destruct t; cbn [builtin_number null_numeric Z.eqb andb list_kind]; cbn [el] in W |- *; try (rewrite W; reflexivity); destruct K0.
      * f_equal. now apply to_list_kept.
    + cbn [null_numeric Z.eqb andb list_kind]. change (el BDouble) with XDouble in W. rewrite W. f_equal. now apply (to_list_kept BDouble).
Qed.

(** * Nodes *)
Section Nodes.
Variables (uris table : list bytes) (al : list (bytes * bytes)) (m : list (Z * Z)).
Hypothesis right : right_map uris table m.
Hypothesis zero : nth_error table 0 = Some opc_ua.
Hypothesis plain_alias : forall a, In a al -> plain (fst a).

Lemma data_loaded d n : data_ok uris d -> value_kept d -> plain (print_nodeid (fd_type d)) -> written_data al d n ->
  to_value pf pt xt xq en al m (un_value n) (un_type n) (to_int32 (un_rank n) (-1)) = Fine (meant (fd_value d)) /\
  same_data uris table d (meant (fd_value d)) (to_node_id al m (un_type n)) (to_int32 (un_rank n) (-1)) (to_dims (un_dims n) (to_int32 (un_rank n) (-1))).
Proof.
  intros (K1 & K2 & K3) V P (W1 & W2 & W3 & W4). rewrite (rank_loaded _ _ K2 W2). split.
  - apply value_loaded; try assumption; [apply K1|]. now apply resolve_written.
  - split; [reflexivity|]. split; [now apply id_loaded with (al := al)|]. split; [reflexivity|]. rewrite W3. rewrite (dims_loaded _ _ K3). now destruct (fd_dims d).
Qed.
Lemma kind_loaded f n : kind_ok uris f -> kind_kept f -> written_kind al f n ->
  exists k, to_kind pf pt xt xq en al m n = Some (Fine k) /\ same_kind uris table f k.
Proof.
  intros K V W. unfold to_kind. destruct f as [e|d a i h|b|a|d a|a s i|a|c e]; cbn [written_kind kind_ok kind_kept] in *; destruct W as [-> W];
    repeat (match goal with |- context [bytes_eqb (lit ?a) (lit ?b)] => let r := eval vm_compute in (bytes_eqb (lit a) (lit b)) in change (bytes_eqb (lit a) (lit b)) with r end);
    cbv iota zeta.
  - eexists. split; [reflexivity|]. exact W.
  - destruct W as (W1 & W2 & W3 & W4), K as [K1 K2], V as (V1 & V2 & V3). destruct (data_loaded d n K1 V1 V3 W1) as [-> D].
    eexists. split; [reflexivity|]. cbn [same_kind]. split; [exact D|]. rewrite (access_loaded a) by (assumption || lia). auto.
  - eexists. split; [reflexivity|]. cbn. now apply bool_loaded.
  - eexists. split; [reflexivity|]. exact W.
  - destruct W as (W1 & W2), V as (V1 & V3). destruct (data_loaded d n K V1 V3 W1) as [-> D].
    eexists. split; [reflexivity|]. cbn [same_kind]. auto.
  - destruct W as (W1 & W2 & W3). eexists. split; [reflexivity|]. cbn [same_kind]. split; [exact W1|]. split; [exact W2|]. destruct i as [x y]. cbn in *. now subst.
  - eexists. split; [reflexivity|]. exact W.
  - eexists. split; [reflexivity|]. exact W.
Qed.
Lemma node_loaded f n : node_ok uris f -> node_kept f -> written_node al f n -> (forall r, In r (un_refs n) -> xr_forward r <> lit "0"%string) ->
  exists x, to_node pf pt xt xq en al m n = Some (Fine x) /\ same_node uris table f x.
Proof.
  intros (K1 & K2 & K3 & K4) (V1 & V2 & V3 & V4 & V5) (W1 & W2 & W3 & W4 & W5 & W6) Z. destruct (kind_loaded _ _ K4 V5 W6) as (k & E & S0).
  unfold to_node. rewrite E. eexists. split; [reflexivity|]. unfold same_node. cbn [in_id in_name in_display in_description in_refs in_kind].
  split; [now apply id_loaded with (al := al)|]. split; [now apply name_loaded|]. split; [now apply text_loaded|]. split; [now apply text_loaded|].
  split; [now apply refs_loaded|exact S0].
Qed.
Lemma nodes_loaded fs ns : Forall (node_ok uris) fs -> Forall node_kept fs -> Forall2 (written_node al) fs ns ->
  (forall n r, In n ns -> In r (un_refs n) -> xr_forward r <> lit "0"%string) ->
  exists xs, to_nodes pf pt xt xq en al m ns = Fine xs /\ Forall2 (same_node uris table) fs xs.
Proof.
  intros K V W Z. induction W as [|f n fs ns W0 W IH]; [exists []; split; [reflexivity|constructor]|]. inversion K; subst. inversion V; subst.
  destruct (node_loaded f n) as (x & X1 & X2); try assumption. { intros r. apply Z. now left. }
  destruct IH as (xs & Y1 & Y2); try assumption. { intros n' r I. apply Z. now right. }
  exists (x :: xs). cbn [to_nodes]. rewrite X1, Y1. split; [reflexivity|]. now constructor.
Qed.
End Nodes.

Lemma loaded table f s : written f s -> file_ok f -> file_kept f -> direction_kept s -> alias_kept s ->
  nth_error table 0 = Some opc_ua -> zlen table + zlen (f_uris f) <= 65536 ->
  exists more l, load pf pt xt xq en table s = Fine (table ++ more, l) /\ Forall2 (same_node (f_uris f) (table ++ more)) (f_nodes f) l /\
    NoDup more /\ forall u, In u more <-> In u (f_uris f) /\ ~ In u table.
Proof.
  intros [W1 W2] K V Z A T L. destruct (map_uris_right table (f_uris f) T L) as (more & m & E & R).
  destruct (nodes_loaded (f_uris f) (table ++ more) (ns_aliases s) m R (nth_app_some _ _ _ _ T) A (f_nodes f) (ns_nodes s) K V W2 Z) as (l & E' & S0).
  exists more, l. unfold load. rewrite W1, E, E'. split; [reflexivity|]. split; [exact S0|].
  destruct (map_uris_new table (f_uris f) table 0 [] _ _ ltac:(auto) E) as (more' & E1 & E2 & E3 & E4). apply app_inv_head in E1. subst more'.
  split; [exact E2|]. intros u. split; [apply E3|]. intros [U1 U2]. apply E4 in U1. apply in_app_or in U1. tauto.
Qed.
End Lib.
