From Coq Require Import ZArith List Bool Lia Strings.Byte.
From Coq Require Import ZifyBool ZifyNat ZifyN.
From Verif Require Import Bytes BytesProofs ContPoint ContPointSpec.
Import ListNotations.
Open Scope Z_scope.
Ltac Zify.zify_post_hook ::= idtac.

Definition code (id : Z) : bytes := le_enc 4 id.
Lemma code_dec id : 0 <= id < 2 ^ 32 -> le_dec (code id) = id.
Proof. intros H. unfold code. rewrite le_dec_enc. change (256 ^ Z.of_nat 4) with (2 ^ 32). apply Z.mod_small, H. Qed.
Lemma code_inj a b : 0 <= a < 2 ^ 32 -> 0 <= b < 2 ^ 32 -> code a = code b -> a = b.
Proof. intros Ha Hb E. rewrite <- (code_dec a), <- (code_dec b), E by assumption. reflexivity. Qed.
Lemma dec_code (cp : bytes) : length cp = 4%nat -> code (le_dec cp) = cp.
Proof. intros H. unfold code. rewrite <- H. apply le_enc_dec. Qed.

Section S.
  Variable ref : Type.
  Variable maxp : Z.
  Notation step := (c_step ref maxp).
  Notation log_t := (list (cevent ref)).

  Definition src (log : log_t) (cp : bytes) : Prop := exists r, In (ENext cp r) log.
  Definition dst (log : log_t) (cp : bytes) : Prop :=
    (exists rds p, In (EBrowse rds (BRefs p (Some cp))) log) \/ exists c p, In (ENext c (BRefs p (Some cp))) log.
  Definition leads (log : log_t) (cp : bytes) (d : list ref) : Prop := forall rds got, chain log rds got cp -> got ++ d = rds.
  Definition srcs (log : log_t) : list bytes := flat_map (fun e => match e with ENext cp _ => [cp] | _ => [] end) log.
  Definition tcps (c : cpoints ref) : list bytes := map (fun e => code (fst e)) (cp_tab c).
  Definition wcps (w : list (nat * (bytes * list ref * Z))) : list bytes := map (fun e => fst (fst (snd e))) w.
  Definition known (last : Z) (cp : bytes) : Prop := exists id, 1 <= id <= last /\ cp = code id.

  Lemma src_srcs log cp : src log cp <-> In cp (srcs log).
  Proof.
    unfold src, srcs. rewrite in_flat_map. split.
    - intros (r & H). exists (ENext cp r). split; [exact H|now left].
    - intros (e & H & He). destruct e; try destruct He. destruct H0. subst. eauto. contradiction.
  Qed.
  Lemma chain_mono (log log' : log_t) rds got cp : (forall e, In e log -> In e log') -> chain log rds got cp -> chain log' rds got cp.
  Proof. intros H C. induction C; [apply chain_browse|eapply chain_next]; eauto. Qed.
  Lemma chain_dst (log : log_t) rds got cp : chain log rds got cp -> dst log cp.
  Proof. intros C; destruct C; [left|right]; eauto. Qed.

  (** an event that gives out no point adds no chain *)
  Lemma chain_silent (log : log_t) e rds got cp : (forall rds p cp, e <> EBrowse rds (BRefs p (Some cp))) -> (forall c p cp, e <> ENext c (BRefs p (Some cp))) ->
    chain (e :: log) rds got cp -> chain log rds got cp.
  Proof.
    intros H1 H2 C. induction C.
    - apply chain_browse. destruct H as [E|H]; [destruct (H1 _ _ _ E)|exact H].
    - eapply chain_next; [exact IHC|]. destruct H as [E|H]; [destruct (H2 _ _ _ E)|exact H].
  Qed.
  Lemma chain_browse_inv (log : log_t) rds0 p new rds got cp : ~ src log new ->
    chain (EBrowse rds0 (BRefs p (Some new)) :: log) rds got cp -> chain log rds got cp \/ (cp = new /\ rds = rds0 /\ got = p).
  Proof.
    intros Hs C. induction C as [p' cp' H|got cp p' cp' C IH H].
    - destruct H as [E|H]; [injection E as <- <- <-; auto|left; now apply chain_browse].
    - destruct H as [E|H]; [discriminate|]. destruct IH as [IH|(-> & _)]; [left; eapply chain_next; eauto|].
      destruct Hs. exists (BRefs p' (Some cp')). exact H.
  Qed.
  Lemma chain_next_inv (log : log_t) c p new rds got cp : ~ src log new -> c <> new ->
    chain (ENext c (BRefs p (Some new)) :: log) rds got cp ->
    chain log rds got cp \/ (cp = new /\ exists got', got = got' ++ p /\ chain log rds got' c).
  Proof.
    intros Hs Hn C. induction C as [p' cp' H|got cp p' cp' C IH H].
    - destruct H as [E|H]; [discriminate|left; now apply chain_browse].
    - destruct H as [E|H].
      + injection E as <- <- <-. destruct IH as [IH|(E & _)]; [right; split; [reflexivity|eauto]|congruence].
      + destruct IH as [IH|(-> & _)]; [left; eapply chain_next; eauto|]. destruct Hs. eexists. exact H.
  Qed.

  Record Inv (n : Z) (s : cstate ref) : Prop := mkInv {
    i_last : 0 <= cp_last (cs_points s) <= n;
    i_tab : forall id d m, In (id, (d, m)) (cp_tab (cs_points s)) -> 1 <= id <= cp_last (cs_points s) /\ 0 < m /\ leads (cs_log s) (code id) d;
    i_work : forall t cp d m, In (t, (cp, d, m)) (cs_work s) -> known (cp_last (cs_points s)) cp /\ 0 < m /\ leads (cs_log s) cp d;
    i_nodup : NoDup (srcs (cs_log s) ++ wcps (cs_work s) ++ tcps (cs_points s));
    i_srcs : forall cp, In cp (srcs (cs_log s)) -> known (cp_last (cs_points s)) cp;
    i_dst : forall cp, dst (cs_log s) cp -> known (cp_last (cs_points s)) cp /\ In cp (srcs (cs_log s) ++ wcps (cs_work s) ++ tcps (cs_points s));
    i_done : forall cp p, In (ENext cp (BRefs p None)) (cs_log s) -> leads (cs_log s) cp p;
    i_full : forall rds p, In (EBrowse rds (BRefs p None)) (cs_log s) -> p = rds;
    i_page : forall cp p, (exists rds, In (EBrowse rds (BRefs p (Some cp))) (cs_log s)) \/ (exists c, In (ENext c (BRefs p (Some cp))) (cs_log s)) -> p <> [];
    i_max : 0 < maxp -> Z.of_nat (length (cp_tab (cs_points s))) <= maxp;
    i_tids : NoDup (map fst (cs_work s))
  }.

  Lemma known_mono a b cp : a <= b -> known a cp -> known b cp.
  Proof. intros H (id & H1 & H2). exists id. split; [lia|exact H2]. Qed.
  Lemma known_new a cp : 0 <= a -> a + 1 < 2 ^ 32 -> known a cp -> cp <> code (a + 1).
  Proof. intros H0 H (id & H1 & ->) E. apply code_inj in E; lia. Qed.
  Lemma leads_silent (log : log_t) e cp d : (forall rds p cp, e <> EBrowse rds (BRefs p (Some cp))) -> (forall c p cp, e <> ENext c (BRefs p (Some cp))) ->
    leads log cp d -> leads (e :: log) cp d.
  Proof. intros H1 H2 L rds got C. apply L. eapply chain_silent; eauto. Qed.
  Lemma dst_silent (log : log_t) e cp : (forall rds p cp, e <> EBrowse rds (BRefs p (Some cp))) -> (forall c p cp, e <> ENext c (BRefs p (Some cp))) ->
    dst (e :: log) cp -> dst log cp.
  Proof.
    intros H1 H2 [(rds & p & [E|H])|(c & p & [E|H])]; [destruct (H1 _ _ _ E)|left; eauto|destruct (H2 _ _ _ E)|right; eauto].
  Qed.

  Lemma find_tab (l : list (Z * (list ref * Z))) id d m : cp_find l id = Some (d, m) -> In (id, (d, m)) l.
  Proof.
    unfold cp_find. destruct (find _ l) as [[k v]|] eqn:F; [|discriminate]. cbn. intros E. injection E as ->.
    apply find_some in F. destruct F as [F1 F2]. cbn in F2. apply Z.eqb_eq in F2. now subst k.
  Qed.
  Lemma drop_in (l : list (Z * (list ref * Z))) id e : In e (cp_drop l id) <-> In e l /\ fst e <> id.
  Proof. unfold cp_drop. rewrite filter_In. rewrite negb_true_iff, Z.eqb_neq. reflexivity. Qed.
  Lemma drop_fresh (l : list (Z * (list ref * Z))) id : (forall e, In e l -> fst e <> id) -> cp_drop l id = l.
  Proof.
    intros H. unfold cp_drop. induction l as [|e l IH]; [reflexivity|]. cbn [filter].
    replace (fst e =? id) with false by (symmetry; apply Z.eqb_neq, H; now left). cbn [negb]. rewrite IH; auto. intros; apply H; now right.
  Qed.
  Lemma NoDup_move {A} (l m : list A) a : NoDup (l ++ a :: m) <-> NoDup (a :: l ++ m).
  Proof.
    split.
    - intros H. pose proof (NoDup_remove_1 _ _ _ H). pose proof (NoDup_remove_2 _ _ _ H). constructor; assumption.
    - intros H. apply NoDup_cons_iff in H. destruct H as [H1 H2]. induction l as [|b l IH]; cbn [app] in *; [constructor; auto|].
      apply NoDup_cons_iff in H2. destruct H2 as [H2 H3]. constructor.
      + rewrite in_app_iff in *. cbn [In] in *. intros [?|[->|?]]; [tauto| |tauto]. apply H1. now left.
      + apply IH; [|exact H3]. intros ?. apply H1. now right.
  Qed.
  (** taking a point out of the table *)
  Lemma tab_split (l : list (Z * (list ref * Z))) id v : NoDup (map (fun e => code (fst e)) l) -> In (id, v) l -> exists a b,
    l = a ++ (id, v) :: b /\ (forall e, In e l -> 0 <= fst e < 2 ^ 32) -> cp_drop l id = a ++ b.
  Proof.
    intros N H. apply in_split in H. destruct H as (a & b & ->). exists a, b. intros (_ & Hr).
    unfold cp_drop. rewrite filter_app. cbn [filter fst]. rewrite Z.eqb_refl. cbn [negb].
    rewrite map_app in N. cbn [map fst] in N. apply NoDup_move in N. apply NoDup_cons_iff in N. destruct N as [N _].
    assert (G : forall m, (forall e, In e m -> ~ (fst e = id)) -> filter (fun e : Z * (list ref * Z) => negb (fst e =? id)) m = m).
    { intros m Hm. induction m as [|e m IH]; [reflexivity|]. cbn [filter].
      replace (fst e =? id) with false by (symmetry; apply Z.eqb_neq, Hm; now left). cbn [negb]. rewrite IH; auto. intros; apply Hm; now right. }
    rewrite !G; [reflexivity| |]; intros e He E; apply N; rewrite in_app_iff; [right|left]; rewrite <- E; apply (in_map (fun e => code (fst e)) _ _ He).
  Qed.

  Lemma work_in (l : list (nat * (bytes * list ref * Z))) t x : work_find l t = Some x -> In (t, x) l.
  Proof.
    unfold work_find. destruct (find _ l) as [[k v]|] eqn:F; [|discriminate]. cbn. intros E. injection E as ->.
    apply find_some in F. destruct F as [F1 F2]. cbn in F2. apply Nat.eqb_eq in F2. now subst k.
  Qed.
  Lemma work_none (l : list (nat * (bytes * list ref * Z))) t : work_find l t = None -> ~ In t (map fst l).
  Proof.
    unfold work_find. destruct (find _ l) as [[k v]|] eqn:F; [discriminate|]. intros _ H. apply in_map_iff in H. destruct H as (e & E & He).
    apply (find_none _ _ F) in He. cbn in He. rewrite E, Nat.eqb_refl in He. discriminate.
  Qed.
  Lemma work_split (l : list (nat * (bytes * list ref * Z))) t x : NoDup (map fst l) -> In (t, x) l -> exists a b,
    l = a ++ (t, x) :: b /\ filter (fun e => negb (Nat.eqb (fst e) t)) l = a ++ b.
  Proof.
    intros N H. apply in_split in H. destruct H as (a & b & ->). exists a, b. split; [reflexivity|].
    rewrite filter_app. cbn [filter fst]. rewrite Nat.eqb_refl. cbn [negb].
    rewrite map_app in N. cbn [map fst] in N. apply NoDup_move in N. apply NoDup_cons_iff in N. destruct N as [N _].
    assert (G : forall m, (forall e, In e m -> ~ (fst e = t)) -> filter (fun e : nat * (bytes * list ref * Z) => negb (Nat.eqb (fst e) t)) m = m).
    { intros m Hm. induction m as [|e m IH]; [reflexivity|]. cbn [filter].
      replace (Nat.eqb (fst e) t) with false by (symmetry; apply Nat.eqb_neq, Hm; now left). cbn [negb]. rewrite IH; auto. intros; apply Hm; now right. }
    rewrite !G; [reflexivity| |]; intros e He E; apply N; rewrite in_app_iff; [right|left]; rewrite <- E; apply (in_map fst _ _ He).
  Qed.

  (** the log grows by an event without a point, nothing else changes *)
  Definition plain (e : cevent ref) : Prop :=
    match e with EInvalid _ | ECrash | EBrowse _ (BBad _) | EBrowse _ BReleased => True | EBrowse rds (BRefs p None) => p = rds | _ => False end.
  Lemma inv_plain n s e : Inv n s -> plain e -> Inv (n + 1) (mkCstate (cs_points s) (cs_work s) (e :: cs_log s)).
  Proof.
    intros [] P.
    assert (H1 : forall rds p cp, e <> EBrowse rds (BRefs p (Some cp))) by (intros; intros ->; exact P).
    assert (H2 : forall c p cp, e <> ENext c (BRefs p (Some cp))) by (intros; intros ->; exact P).
    assert (H3 : srcs (e :: cs_log s) = srcs (cs_log s)) by (destruct e as [? []| | |]; try contradiction; reflexivity).
    constructor; cbn [cs_points cs_work cs_log]; rewrite ?H3; auto.
    - lia.
    - intros id d m Hin. destruct (i_tab0 id d m Hin) as (A & B & C). repeat split; try tauto; try lia. apply leads_silent; auto.
    - intros t cp d m Hin. destruct (i_work0 t cp d m Hin) as (A & B & C). repeat split; try tauto. apply leads_silent; auto.
    - intros cp Hd. apply i_dst0. eapply dst_silent; eauto.
    - intros cp p [->|Hin]; [contradiction|]. apply leads_silent; auto.
    - intros rds p [->|Hin]; [exact P|]. eauto.
    - intros cp p [(rds & [->|Hin])|(c & [->|Hin])]; try contradiction; eapply i_page0; eauto.
  Qed.

  (** a worker or a Browse answers with a page and a new point *)
  Lemma add_cases c d m : 0 <= cp_last c -> cp_last c + 1 < 2 ^ 32 -> (forall id x, In (id, x) (cp_tab c) -> 1 <= id <= cp_last c) ->
    (0 < maxp -> Z.of_nat (length (cp_tab c)) <= maxp) ->
    cp_add ref maxp c d m = (c, None) \/
    (cp_add ref maxp c d m = (mkCpoints (cp_last c + 1) ((cp_last c + 1, (d, m)) :: cp_tab c), Some (code (cp_last c + 1))) /\
     (0 < maxp -> Z.of_nat (length (cp_tab c)) < maxp)).
  Proof.
    intros H0 H1 H2 H3. unfold cp_add. destruct (_ && _) eqn:E; [now left|right]. cbv zeta.
    assert (Eu : u32 (cp_last c + 1) = cp_last c + 1) by (unfold u32; apply Z.mod_small; lia).
    rewrite Eu, drop_fresh; [split; [reflexivity|lia]|]. intros [id x] Hin. cbn. apply H2 in Hin. lia.
  Qed.
  Lemma new_not_in (s : cstate ref) n : Inv n s -> n + 1 < 2 ^ 32 ->
    ~ In (code (cp_last (cs_points s) + 1)) (srcs (cs_log s) ++ wcps (cs_work s) ++ tcps (cs_points s)).
  Proof.
    intros [] Hn. rewrite !in_app_iff. intros [H|[H|H]].
    - apply i_srcs0 in H. assert (N := known_new (cp_last (cs_points s)) _ ltac:(lia) ltac:(lia) H). now apply N.
    - unfold wcps in H. apply in_map_iff in H. destruct H as ((t & [[cp d] m]) & E & H). cbn in E. apply i_work0 in H. destruct H as (H & _).
      assert (N := known_new (cp_last (cs_points s)) _ ltac:(lia) ltac:(lia) H). now apply N.
    - unfold tcps in H. apply in_map_iff in H. destruct H as ((id & [d m]) & E & H). cbn in E. apply i_tab0 in H. destruct H as (H & _).
      apply code_inj in E; lia.
  Qed.
  Lemma inv_browse n s rds max : Inv n s -> n + 1 < 2 ^ 32 -> Inv (n + 1) (step s (CBrowse rds max)).
  Proof.
    intros I Hn. cbn [c_step]. unfold browse. destruct ((0 <? max) && _) eqn:E.
    2:{ apply inv_plain; [exact I|reflexivity]. }
    unfold page. pose proof I as [].
    destruct (add_cases (cs_points s) (skipn (Z.to_nat max) rds) max) as [A|[A Am]]; auto; try lia.
    { intros id [d m] Hin. now apply i_tab0 in Hin. }
    { rewrite A. apply inv_plain; [exact I|exact Logic.I]. }
    rewrite A. pose proof (new_not_in s n I Hn) as NN. set (new := code (cp_last (cs_points s) + 1)) in *.
    assert (Ns : ~ src (cs_log s) new) by (rewrite src_srcs; intros H; apply NN, in_app_iff; now left).
    set (e := EBrowse rds (BRefs (firstn (Z.to_nat max) rds) (Some new))).
    assert (Lold : forall cp d, known (cp_last (cs_points s)) cp -> leads (cs_log s) cp d -> leads (e :: cs_log s) cp d).
    { intros cp d K L rds' got C. apply chain_browse_inv in C; [|exact Ns]. destruct C as [C|(E' & _)]; [auto|].
      exfalso. assert (N := known_new (cp_last (cs_points s)) _ ltac:(lia) ltac:(lia) K); exact (N E'). }
    constructor; cbn [cs_points cs_work cs_log cp_last cp_tab].
    - lia.
    - intros id d m [H|H].
      + injection H as <- <- <-. split; [lia|]. split; [lia|]. intros rds' got C. apply chain_browse_inv in C; [|exact Ns].
        destruct C as [C|(_ & -> & ->)]; [|apply firstn_skipn]. exfalso. apply NN, i_dst0. eapply chain_dst; eauto.
      + destruct (i_tab0 id d m H) as (A1 & A2 & A3). repeat split; try lia. apply Lold; auto. exists id; auto.
    - intros t cp d m H. destruct (i_work0 t cp d m H) as (A1 & A2 & A3). repeat split; auto. eapply known_mono; [|exact A1]; lia.
    - change (srcs (e :: cs_log s)) with (srcs (cs_log s)). unfold tcps. cbn [cp_tab map fst].
      rewrite app_assoc. apply NoDup_move. rewrite <- app_assoc. constructor; assumption.
    - intros cp H. eapply known_mono; [|apply i_srcs0, H]; lia.
    - intros cp [(rds' & p & [H|H])|(c & p & [H|H])]; try discriminate.
      + injection H as <- <- <-. split; [exists (cp_last (cs_points s) + 1); split; [lia|reflexivity]|].
        rewrite !in_app_iff. right; right. now left.
      + destruct (i_dst0 cp) as (A1 & A2); [left; eauto|]. split; [eapply known_mono; [|exact A1]; lia|].
        rewrite !in_app_iff in *. unfold tcps. cbn [cp_tab map In]. tauto.
      + destruct (i_dst0 cp) as (A1 & A2); [right; eauto|]. split; [eapply known_mono; [|exact A1]; lia|].
        rewrite !in_app_iff in *. unfold tcps. cbn [cp_tab map In]. tauto.
    - intros cp p [H|H]; [discriminate|]. apply Lold; [|auto]. apply i_srcs0, src_srcs. eexists; eauto.
    - intros rds' p [H|H]; [discriminate|]. eauto.
    - intros cp p [(rds' & [H|H])|(c & [H|H])]; try discriminate.
      + injection H as <- <- _. intros Hz. apply (f_equal (@length ref)) in Hz. rewrite firstn_length in Hz. cbn [length] in Hz. lia.
      + eapply i_page0; eauto.
      + eapply i_page0; eauto.
    - cbn [length]. lia.
    - auto.
  Qed.

  (** a worker answers *)
  Lemma inv_answer n s t cp d m p a b : Inv n s -> cs_work s = a ++ (t, (cp, d, m)) :: b ->
    (match p with BRefs q None => q = d | BRefs _ (Some _) => False | _ => True end) ->
    Inv (n + 1) (mkCstate (cs_points s) (a ++ b) (ENext cp p :: cs_log s)).
  Proof.
    intros [] W P. set (e := ENext cp p).
    assert (H1 : forall rds p cp, e <> EBrowse rds (BRefs p (Some cp))) by discriminate.
    assert (H2 : forall c p cp, e <> ENext c (BRefs p (Some cp))) by (intros c q cp' Ee; injection Ee as _ ->; exact P).
    assert (Hin : In (t, (cp, d, m)) (cs_work s)) by (rewrite W; apply in_elt).
    destruct (i_work0 _ _ _ _ Hin) as (K & M & L).
    assert (Ew : wcps (cs_work s) = wcps a ++ cp :: wcps b) by (rewrite W; unfold wcps; rewrite map_app; reflexivity).
    rewrite Ew in i_nodup0.
    assert (N1 : NoDup (cp :: srcs (cs_log s) ++ wcps (a ++ b) ++ tcps (cs_points s))).
    { unfold wcps at 1. rewrite map_app. fold (wcps a) (wcps b). rewrite <- app_assoc in *. rewrite app_assoc in i_nodup0. cbn [app] in i_nodup0.
      apply NoDup_move in i_nodup0. rewrite <- !app_assoc in i_nodup0. exact i_nodup0. }
    constructor; cbn [cs_points cs_work cs_log]; auto.
    - lia.
    - intros id d' m' H. destruct (i_tab0 id d' m' H) as (A & B & C). repeat split; try tauto; try lia. apply leads_silent; auto.
    - intros t' cp' d' m' H. destruct (i_work0 t' cp' d' m') as (A & B & C).
      { rewrite W. rewrite in_app_iff in *. cbn [In]. tauto. }
      repeat split; try tauto. apply leads_silent; auto.
    - intros c [<-|H]; auto.
    - intros c Hd. apply dst_silent in Hd; auto. destruct (i_dst0 c Hd) as (A & B). split; [exact A|]. rewrite Ew in B.
      change (srcs (e :: cs_log s)) with (cp :: srcs (cs_log s)). unfold wcps at 1. rewrite map_app. fold (wcps a) (wcps b).
      rewrite !in_app_iff in *. cbn [In app] in *. tauto.
    - intros c q [H|H]; [|apply leads_silent; auto]. injection H as <- ->. subst q. apply leads_silent; auto.
    - intros rds q [H|H]; [discriminate|eauto].
    - intros c q [(rds & [H|H])|(c' & [H|H])]; try discriminate; [eapply i_page0; eauto| |eapply i_page0; eauto].
      injection H as _ ->. destruct P.
    - rewrite W, map_app in i_tids0. cbn [map fst] in i_tids0. apply NoDup_remove_1 in i_tids0. rewrite map_app. exact i_tids0.
  Qed.
  Lemma inv_answer_page n s t cp d m a b : Inv n s -> n + 1 < 2 ^ 32 -> cs_work s = a ++ (t, (cp, d, m)) :: b -> m < Z.of_nat (length d) ->
    (0 < maxp -> Z.of_nat (length (cp_tab (cs_points s))) < maxp) ->
    Inv (n + 1) (mkCstate (mkCpoints (cp_last (cs_points s) + 1) ((cp_last (cs_points s) + 1, (skipn (Z.to_nat m) d, m)) :: cp_tab (cs_points s)))
                          (a ++ b) (ENext cp (BRefs (firstn (Z.to_nat m) d) (Some (code (cp_last (cs_points s) + 1)))) :: cs_log s)).
  Proof.
    intros I Hn W Hm Am. pose proof (new_not_in s n I Hn) as NN. set (new := code (cp_last (cs_points s) + 1)) in *. destruct I.
    assert (Hin : In (t, (cp, d, m)) (cs_work s)) by (rewrite W; apply in_elt).
    destruct (i_work0 _ _ _ _ Hin) as (K & M & L).
    assert (Ns : ~ src (cs_log s) new) by (rewrite src_srcs; intros H; apply NN, in_app_iff; now left).
    assert (Ncp : cp <> new) by (apply (known_new (cp_last (cs_points s))); [lia|lia|exact K]).
    set (e := ENext cp (BRefs (firstn (Z.to_nat m) d) (Some new))).
    assert (Lold : forall c d, known (cp_last (cs_points s)) c -> leads (cs_log s) c d -> leads (e :: cs_log s) c d).
    { intros c d' Kc Lc rds' got C. apply chain_next_inv in C; [|exact Ns|exact Ncp]. destruct C as [C|(E' & _)]; [auto|].
      exfalso. assert (N := known_new (cp_last (cs_points s)) _ ltac:(lia) ltac:(lia) Kc); exact (N E'). }
    assert (Ew : wcps (cs_work s) = wcps a ++ cp :: wcps b) by (rewrite W; unfold wcps; rewrite map_app; reflexivity).
    assert (N1 : NoDup (cp :: srcs (cs_log s) ++ wcps (a ++ b) ++ tcps (cs_points s))).
    { rewrite Ew in i_nodup0. unfold wcps at 1. rewrite map_app. fold (wcps a) (wcps b). rewrite <- app_assoc in *. rewrite app_assoc in i_nodup0. cbn [app] in i_nodup0.
      apply NoDup_move in i_nodup0. rewrite <- !app_assoc in i_nodup0. exact i_nodup0. }
    assert (NN1 : ~ In new (cp :: srcs (cs_log s) ++ wcps (a ++ b) ++ tcps (cs_points s))).
    { intros [H|H]; [congruence|]. apply NN. rewrite Ew. unfold wcps in H at 1. rewrite map_app in H. fold (wcps a) (wcps b) in H.
      rewrite !in_app_iff in *. cbn [In]. tauto. }
    constructor; cbn [cs_points cs_work cs_log cp_last cp_tab].
    - lia.
    - intros id d' m' [H|H].
      + injection H as <- <- <-. split; [lia|]. split; [lia|]. intros rds' got C. apply chain_next_inv in C; [|exact Ns|exact Ncp].
        destruct C as [C|(_ & got' & -> & C)]; [exfalso; apply NN, i_dst0; eapply chain_dst; eauto|].
        rewrite <- app_assoc, firstn_skipn. auto.
      + destruct (i_tab0 id d' m' H) as (A1 & A2 & A3). repeat split; try lia. apply Lold; auto. exists id; auto.
    - intros t' cp' d' m' H. destruct (i_work0 t' cp' d' m') as (A1 & A2 & A3).
      { rewrite W. rewrite in_app_iff in *. cbn [In]. tauto. }
      repeat split; auto. eapply known_mono; [|exact A1]; lia.
    - change (srcs (e :: cs_log s)) with (cp :: srcs (cs_log s)). unfold tcps. cbn [cp_tab map fst].
      rewrite app_assoc. apply NoDup_move. rewrite <- app_assoc. constructor; assumption.
    - intros c [<-|H]; [eapply known_mono; [|exact K]; lia|]. eapply known_mono; [|apply i_srcs0, H]; lia.
    - assert (G : forall c, dst (cs_log s) c -> known (cp_last (cs_points s) + 1) c /\
        In c (srcs (e :: cs_log s) ++ wcps (a ++ b) ++ tcps (mkCpoints (cp_last (cs_points s) + 1) ((cp_last (cs_points s) + 1, (skipn (Z.to_nat m) d, m)) :: cp_tab (cs_points s))))).
      { intros c Hd. destruct (i_dst0 c Hd) as (A1 & A2). split; [eapply known_mono; [|exact A1]; lia|]. rewrite Ew in A2.
        change (srcs (e :: cs_log s)) with (cp :: srcs (cs_log s)). unfold wcps at 1. rewrite map_app. fold (wcps a) (wcps b).
        unfold tcps. cbn [cp_tab map fst]. rewrite !in_app_iff in *. cbn [In app] in *. tauto. }
      intros c [(rds' & p & [H|H])|(c' & p & [H|H])]; try discriminate.
      + apply G. left; eauto.
      + injection H as <- <- <-. split; [exists (cp_last (cs_points s) + 1); split; [lia|reflexivity]|].
        rewrite !in_app_iff. right; right. now left.
      + apply G. right; eauto.
    - intros c p [H|H]; [discriminate|]. apply Lold; [|auto]. apply i_srcs0, src_srcs. eexists; eauto.
    - intros rds' p [H|H]; [discriminate|]. eauto.
    - intros c p [(rds' & [H|H])|(c' & [H|H])]; try discriminate.
      + eapply i_page0; eauto.
      + injection H as <- <- _. intros Hz. apply (f_equal (@length ref)) in Hz. rewrite firstn_length in Hz. cbn [length] in Hz. lia.
      + eapply i_page0; eauto.
    - cbn [length]. lia.
    - rewrite W, map_app in i_tids0. cbn [map fst] in i_tids0. apply NoDup_remove_1 in i_tids0. rewrite map_app. exact i_tids0.
  Qed.

  (** a point leaves the table *)
  Lemma tab_range n s id x : Inv n s -> n < 2 ^ 32 -> In (id, x) (cp_tab (cs_points s)) -> 0 <= id < 2 ^ 32.
  Proof. intros [] Hn H. destruct x as [d m]. apply i_tab0 in H. lia. Qed.
  Lemma NoDup_app_r {A} (l m : list A) : NoDup (l ++ m) -> NoDup m.
  Proof. induction l as [|a l IH]; intros H; [exact H|]. cbn [app] in H. apply NoDup_cons_iff in H. tauto. Qed.
  Lemma remove_cases n s cp d m c : Inv n s -> n < 2 ^ 32 -> cp_remove (cs_points s) cp = (c, CFound d m) ->
    exists id a b, firstn 4 cp = code id /\ 1 <= id <= cp_last (cs_points s) /\ cp_tab (cs_points s) = a ++ (id, (d, m)) :: b /\
      c = mkCpoints (cp_last (cs_points s)) (a ++ b).
  Proof.
    intros I Hn. pose proof I as []. unfold cp_remove. destruct (_ <? 4) eqn:E; [discriminate|]. cbv zeta.
    destruct (cp_find _ _) as [[d' m']|] eqn:F; [|discriminate]. intros H. injection H as <- <- <-.
    apply find_tab in F. pose proof (i_tab0 _ _ _ F) as (A & _).
    assert (N : NoDup (map (fun e => code (fst e)) (cp_tab (cs_points s)))) by (do 2 apply NoDup_app_r in i_nodup0; exact i_nodup0).
    exists (le_dec (firstn 4 cp)). apply in_split in F as F'. destruct F' as (a & b & Et). exists a, b.
    assert (L4 : length (firstn 4 cp) = 4%nat) by (rewrite firstn_length; unfold bytes in *; lia).
    split; [symmetry; apply dec_code, L4|]. split; [exact A|]. split; [exact Et|]. f_equal.
    rewrite Et in N |- *. unfold cp_drop. rewrite filter_app. cbn [filter fst]. rewrite Z.eqb_refl. cbn [negb].
    rewrite map_app in N. cbn [map fst] in N. apply NoDup_move in N. apply NoDup_cons_iff in N. destruct N as [N _].
    assert (G : forall l, (forall e, In e l -> ~ (fst e = le_dec (firstn 4 cp))) -> filter (fun e : Z * (list ref * Z) => negb (fst e =? le_dec (firstn 4 cp))) l = l).
    { intros l Hl. induction l as [|e l IH]; [reflexivity|]. cbn [filter].
      replace (fst e =? le_dec (firstn 4 cp)) with false by (symmetry; apply Z.eqb_neq, Hl; now left). cbn [negb]. rewrite IH; auto. intros; apply Hl; now right. }
    rewrite !G; [reflexivity| |]; intros e He Ee; apply N; rewrite in_app_iff; [right|left]; rewrite <- Ee; apply (in_map (fun e => code (fst e)) _ _ He).
  Qed.
  Lemma inv_taken n s t id d m a b : Inv n s -> ~ In t (map fst (cs_work s)) -> 1 <= id <= cp_last (cs_points s) ->
    cp_tab (cs_points s) = a ++ (id, (d, m)) :: b ->
    Inv n (mkCstate (mkCpoints (cp_last (cs_points s)) (a ++ b)) ((t, (code id, d, m)) :: cs_work s) (cs_log s)).
  Proof.
    intros [] Ht Hid Et.
    assert (Hin : In (id, (d, m)) (cp_tab (cs_points s))) by (rewrite Et; apply in_elt).
    destruct (i_tab0 _ _ _ Hin) as (A1 & A2 & A3).
    assert (Etc : tcps (cs_points s) = map (fun e => code (fst e)) a ++ code id :: map (fun e => code (fst e)) b) by (unfold tcps; rewrite Et, map_app; reflexivity).
    constructor; cbn [cs_points cs_work cs_log cp_last cp_tab]; auto.
    - intros id' d' m' H. apply i_tab0. rewrite Et. rewrite in_app_iff in *. cbn [In]. tauto.
    - intros t' cp' d' m' [H|H]; [|eauto]. injection H as <- <- <- <-. repeat split; auto. exists id; auto.
    - rewrite Etc in i_nodup0. unfold tcps. cbn [cp_tab wcps map snd fst]. rewrite map_app. fold (wcps (cs_work s)).
      apply NoDup_move. rewrite !app_assoc in i_nodup0. apply NoDup_move in i_nodup0. rewrite <- !app_assoc in i_nodup0. exact i_nodup0.
    - intros cp H. destruct (i_dst0 cp H) as (B1 & B2). split; [exact B1|]. rewrite Etc in B2. unfold tcps. cbn [cp_tab wcps map snd fst]. rewrite map_app. fold (wcps (cs_work s)).
      rewrite !in_app_iff in *. cbn [In] in *. tauto.
    - intros Hm. specialize (i_max0 Hm). rewrite Et, app_length in i_max0. cbn [length] in i_max0. rewrite app_length. lia.
    - cbn [map fst]. constructor; assumption.
  Qed.
  Lemma inv_weaken n n' s : n <= n' -> Inv n s -> Inv n' s.
  Proof. intros H []. constructor; auto. lia. Qed.

  Lemma inv_step n s o : Inv n s -> n + 1 < 2 ^ 32 -> Inv (n + 1) (step s o).
  Proof.
    intros I Hn. destruct o as [rds max|t cp release|t]; [apply inv_browse; assumption| |].
    - cbn [c_step]. destruct (work_find (cs_work s) t) eqn:W; [apply (inv_weaken n); [lia|exact I]|]. apply work_none in W.
      destruct (match cp with [] => true | _ => false end); [apply (inv_weaken n); [lia|exact I]|].
      destruct (cp_remove (cs_points s) cp) as [c [| |d m]] eqn:Rm.
      + assert (c = cs_points s) as ->.
        { unfold cp_remove in Rm. destruct (_ <? 4); [injection Rm as ->; reflexivity|]. cbv zeta in Rm. destruct (cp_find _ _) as [[]|]; discriminate. }
        apply inv_plain; [exact I|exact Logic.I].
      + assert (c = cs_points s) as ->.
        { unfold cp_remove in Rm. destruct (_ <? 4); [discriminate|]. cbv zeta in Rm. destruct (cp_find _ _) as [[]|]; [discriminate|injection Rm as ->; reflexivity]. }
        apply inv_plain; [exact I|exact Logic.I].
      + apply (remove_cases n) in Rm; [|exact I|lia]. destruct Rm as (id & a & b & E4 & Hid & Et & ->). rewrite E4.
        pose proof (inv_taken n s t id d m a b I W Hid Et) as I'. destruct release; [|apply (inv_weaken n); [lia|exact I']].
        apply (inv_answer n _ t (code id) d m BReleased [] (cs_work s)) in I'; [|reflexivity|exact Logic.I]. exact I'.
    - cbn [c_step]. destruct (work_find (cs_work s) t) as [[[cp d] m]|] eqn:W; [|apply (inv_weaken n); [lia|exact I]].
      apply work_in in W. pose proof I as []. destruct (work_split _ _ _ i_tids0 W) as (a & b & Ea & Eb). rewrite Eb.
      destruct (m <? Z.of_nat (length d)) eqn:Em; [|eapply inv_answer; eauto; reflexivity].
      unfold page. destruct (add_cases (cs_points s) (skipn (Z.to_nat m) d) m) as [A|[A Am]]; auto; try lia.
      + intros id [d' m'] Hin. now apply i_tab0 in Hin.
      + rewrite A. eapply inv_answer; eauto.
      + rewrite A. eapply inv_answer_page; eauto. lia.
  Qed.
  Lemma inv_init : Inv 0 (c_init ref).
  Proof.
    constructor; cbn; try (intros; contradiction); try lia; try constructor.
    - destruct H as [(? & ? & [])|(? & ? & [])].
    - destruct H as [(? & ? & [])|(? & ? & [])].
    - intros cp p [(? & [])|(? & [])].
  Qed.
  Lemma inv_run ops : Z.of_nat (length ops) < 2 ^ 32 -> Inv (Z.of_nat (length ops)) (c_run ref maxp ops).
  Proof.
    unfold c_run. intros H. assert (G : forall ops s n, 0 <= n -> n + Z.of_nat (length ops) < 2 ^ 32 -> Inv n s -> Inv (n + Z.of_nat (length ops)) (fold_left step ops s)).
    { clear ops H. induction ops as [|o ops IH]; intros s n H0 H I; [cbn; rewrite Z.add_0_r; exact I|]. cbn [fold_left length] in *.
      replace (n + Z.of_nat (S (length ops))) with (n + 1 + Z.of_nat (length ops)) by lia. apply IH; try lia. apply inv_step; [exact I|lia]. }
    apply (G ops (c_init ref) 0); [lia|lia|apply inv_init].
  Qed.

  (** * what the properties say *)
  Lemma prefix_run ops rds got cp : Z.of_nat (length ops) < 2 ^ 32 -> chain (cs_log (c_run ref maxp ops)) rds got cp ->
    unused (cs_log (c_run ref maxp ops)) cp -> exists rest, rds = got ++ rest.
  Proof.
    intros H C U. pose proof (inv_run ops H) as []. destruct (i_dst0 cp (chain_dst _ _ _ _ C)) as (_ & In1).
    rewrite !in_app_iff in In1. destruct In1 as [In1|[In1|In1]].
    - apply src_srcs in In1. destruct In1 as (r & Hr). destruct (U r Hr).
    - unfold wcps in In1. apply in_map_iff in In1. destruct In1 as ((t & [[cp' d] m]) & E & Hin). cbn in E. subst cp'. apply i_work0 in Hin.
      exists d. symmetry. now apply Hin.
    - unfold tcps in In1. apply in_map_iff in In1. destruct In1 as ((id & [d m]) & E & Hin). cbn [fst snd] in E. subst cp. apply i_tab0 in Hin.
      exists d. symmetry. now apply Hin.
  Qed.
  Lemma all_run ops rds got cp p : Z.of_nat (length ops) < 2 ^ 32 -> chain (cs_log (c_run ref maxp ops)) rds got cp ->
    In (ENext cp (BRefs p None)) (cs_log (c_run ref maxp ops)) -> got ++ p = rds.
  Proof. intros H C U. pose proof (inv_run ops H) as []. eapply i_done0; eauto. Qed.
  Lemma single_run ops rds p : Z.of_nat (length ops) < 2 ^ 32 -> In (EBrowse rds (BRefs p None)) (cs_log (c_run ref maxp ops)) -> p = rds.
  Proof. intros H. pose proof (inv_run ops H) as []. apply i_full0. Qed.
  Lemma progress_run ops p cp : Z.of_nat (length ops) < 2 ^ 32 ->
    (exists rds, In (EBrowse rds (BRefs p (Some cp))) (cs_log (c_run ref maxp ops))) \/
    (exists c, In (ENext c (BRefs p (Some cp))) (cs_log (c_run ref maxp ops))) -> p <> [].
  Proof. intros H. pose proof (inv_run ops H) as []. apply i_page0. Qed.
  Lemma srcs_nodup ops : Z.of_nat (length ops) < 2 ^ 32 -> NoDup (srcs (cs_log (c_run ref maxp ops))).
  Proof.
    intros H. pose proof (inv_run ops H) as []. clear - i_nodup0. induction (srcs _) as [|x l IH]; [constructor|].
    cbn [app] in i_nodup0. apply NoDup_cons_iff in i_nodup0. destruct i_nodup0 as [H1 H2]. constructor; [|auto].
    intros ?. apply H1, in_app_iff. now left.
  Qed.
  Lemma once_points ops l1 l2 cp r r' : Z.of_nat (length ops) < 2 ^ 32 -> cs_log (c_run ref maxp ops) = l1 ++ ENext cp r :: l2 -> ~ In (ENext cp r') (l1 ++ l2).
  Proof.
    intros H E Hin. pose proof (srcs_nodup ops H) as N. rewrite E in N. unfold srcs in N. rewrite flat_map_app in N. cbn [flat_map app] in N.
    apply NoDup_remove_2 in N. apply N. rewrite <- flat_map_app. apply (src_srcs (l1 ++ l2)). eexists; eauto.
  Qed.
  Lemma count_points ops : Z.of_nat (length ops) < 2 ^ 32 -> 0 < maxp -> Z.of_nat (length (cp_tab (cs_points (c_run ref maxp ops)))) <= maxp.
  Proof. intros H. pose proof (inv_run ops H) as []. auto. Qed.
  (** a point that was given out, is not being worked on and was not sent back yet is served *)
  Lemma served_points ops cp t : Z.of_nat (length ops) < 2 ^ 32 -> let s := c_run ref maxp ops in
    dst (cs_log s) cp -> unused (cs_log s) cp -> cs_work s = [] ->
    exists d m, work_find (cs_work (step s (CTake t cp false))) t = Some (cp, d, m) /\
      forall rds got, chain (cs_log s) rds got cp -> got ++ d = rds.
  Proof.
    intros H s D U W. pose proof (inv_run ops H) as I. fold s in I. pose proof I as []. destruct (i_dst0 cp D) as (K & In1).
    rewrite W in In1. cbn [wcps map app] in In1. rewrite in_app_iff in In1. destruct In1 as [In1|In1].
    { apply src_srcs in In1. destruct In1 as (r & Hr). destruct (U r Hr). }
    unfold tcps in In1. apply in_map_iff in In1. destruct In1 as ((id & [d m]) & E & Hin). cbn [fst snd] in E. subst cp.
    pose proof (i_tab0 _ _ _ Hin) as (A1 & A2 & A3).
    assert (L : length (code id) = 4%nat) by (unfold code; apply le_enc_length).
    assert (F4 : firstn 4 (code id) = code id) by (rewrite <- L at 1; apply firstn_all).
    assert (Fi : cp_find (cp_tab (cs_points s)) id = Some (d, m)).
    { assert (N : NoDup (map (fun e => code (fst e)) (cp_tab (cs_points s)))) by (do 2 apply NoDup_app_r in i_nodup0; exact i_nodup0).
      unfold cp_find. clear - N Hin. induction (cp_tab (cs_points s)) as [|[k v] l IH]; [destruct Hin|]. cbn [find fst]. destruct (k =? id) eqn:E.
      - apply Z.eqb_eq in E. subst k. destruct Hin as [Hin|Hin]; [injection Hin as ->; reflexivity|].
        cbn [map fst] in N. apply NoDup_cons_iff in N. destruct N as [N _]. exfalso. apply N. apply (in_map (fun e : Z * (list ref * Z) => code (fst e)) _ _ Hin).
      - destruct Hin as [Hin|Hin]; [injection Hin as -> _; lia|]. cbn [map] in N. apply NoDup_cons_iff in N. apply IH; [exact Hin|apply N]. }
    exists d, m. split; [|exact A3].
    assert (Dc : le_dec (code id) = id) by (apply code_dec; lia).
    revert L F4 Dc. generalize (code id) as cc. intros cc L F4 Dc. destruct cc as [|b0 cc0]; [discriminate|]. remember (b0 :: cc0) as cc eqn:Ecc.
    cbn [c_step]. rewrite W. cbn [work_find find option_map].
    replace (match cc with [] => true | _ => false end) with false by (rewrite Ecc; reflexivity).
    unfold cp_remove. rewrite L, F4, Dc. change (Z.of_nat 4 <? 4) with false. cbv beta iota zeta. rewrite Fi.
    cbv beta iota. cbn [cs_work]. unfold work_find. cbn [find fst]. rewrite Nat.eqb_refl. reflexivity.
  Qed.
  (** unknown points are refused *)
  Lemma foreign_points (s : cstate ref) t cp : work_find (cs_work s) t = None -> (4 <= length cp)%nat ->
    (forall id x, In (id, x) (cp_tab (cs_points s)) -> code id <> firstn 4 cp) ->
    step s (CTake t cp false) = mkCstate (cs_points s) (cs_work s) (EInvalid cp :: cs_log s) /\
    step s (CTake t cp true) = mkCstate (cs_points s) (cs_work s) (EInvalid cp :: cs_log s).
  Proof.
    intros W L Hn. cbn [c_step]. rewrite W.
    replace (match cp with [] => true | _ => false end) with false by (destruct cp; [cbn in L; lia|reflexivity]).
    assert (E : cp_remove (cs_points s) cp = (cs_points s, CMissing)).
    { unfold cp_remove. replace (Z.of_nat (length cp) <? 4) with false by (unfold bytes in *; lia). cbv zeta.
      destruct (cp_find _ _) as [[d m]|] eqn:F; [|reflexivity]. exfalso. apply find_tab in F. apply Hn in F. apply F.
      apply dec_code. rewrite firstn_length. unfold bytes in *; lia. }
    rewrite E. split; reflexivity.
  Qed.
  (** a short point stops the server *)
  Lemma short_points (s : cstate ref) t cp release : work_find (cs_work s) t = None -> (1 <= length cp <= 3)%nat ->
    cs_log (step s (CTake t cp release)) = ECrash :: cs_log s.
  Proof.
    intros W L. cbn [c_step]. rewrite W. destruct cp as [|b cp]; [cbn in L; lia|].
    unfold cp_remove. replace (Z.of_nat (length (b :: cp)) <? 4) with true by (unfold bytes in *; lia). reflexivity.
  Qed.
  Lemma no_crash ops : (forall t cp release, In (CTake t cp release) ops -> (length cp = 0 \/ 4 <= length cp)%nat) -> ~ In ECrash (cs_log (c_run ref maxp ops)).
  Proof.
    unfold c_run. intros H. assert (G : forall s, ~ In ECrash (cs_log s) -> ~ In ECrash (cs_log (fold_left step ops s))); [|apply G; cbn; tauto].
    induction ops as [|o ops IH]; intros s Hs; [exact Hs|]. cbn [fold_left]. apply IH; [intros; eapply H; right; eauto|].
    destruct o as [rds max|t cp release|t]; cbn [c_step].
    - destruct (browse _ _ _ _ _). cbn. intros [E|E]; [discriminate|auto].
    - destruct (work_find _ _); [exact Hs|]. destruct cp as [|b cp]; [exact Hs|].
      assert (4 <= length (b :: cp))%nat by (destruct (H t (b :: cp) release (or_introl eq_refl)); [discriminate|assumption]).
      unfold cp_remove. replace (Z.of_nat (length (b :: cp)) <? 4) with false by (unfold bytes in *; lia). cbv zeta.
      destruct (cp_find _ _) as [[d m]|]; [destruct release|]; cbn; try tauto; intros [E|E]; try discriminate; auto.
    - destruct (work_find _ _) as [[[cp d] m]|]; [|exact Hs]. destruct (m <? _); [destruct (page _ _ _ _ _)|]; cbn; intros [E|E]; try discriminate; auto.
  Qed.
End S.
