From Coq Require Import ZArith List Bool Lia Strings.Byte.
From Coq Require Import ZifyBool ZifyNat ZifyN.
From Verif Require Import Bytes CodecSpec BytesProofs Prim PrimSpec PrimProofs Value ValueSpec.
Import ListNotations.
Open Scope Z_scope.
Ltac Zify.zify_post_hook ::= Z.div_mod_to_equations.

(** * Induction principles for the nested types *)
Section ValInd.
  Context (P : val -> Prop)
    (HB : forall t v, P (VB t v)) (HBytes : forall o, P (VBytes o))
    (HStruct : forall l, Forall P l -> P (VStruct l)) (HPtrNil : P VPtrNil)
    (HPtr : forall l, Forall P l -> P (VPtr l)) (HSlice : forall l, Forall P l -> P (VSlice l))
    (HNil : P VNil) (HScalar : forall k v, P v -> P (VScalar k v)) (HArrNil : forall k, P (VArrNil k))
    (HArr : forall k l, Forall P l -> P (VArr k l))
    (HMat2 : forall k m, Forall (Forall P) m -> P (VMat2 k m))
    (HMat3 : forall k m, Forall (Forall (Forall P)) m -> P (VMat3 k m))
    (HDV : forall v st t1 p1 t2 p2, P v -> P (VDV v st t1 p1 t2 p2))
    (HExtNil : P VExtNil) (HExt : forall tid l, Forall P l -> P (VExt tid l)) (HDiag : forall d, P (VDiag d)).
  Fixpoint val_ind' (v : val) : P v :=
    let fl := fix fl (l : list val) : Forall P l :=
      match l with [] => Forall_nil _ | x :: r => Forall_cons _ (val_ind' x) (fl r) end in
    let fl2 := fix fl2 (l : list (list val)) : Forall (Forall P) l :=
      match l with [] => Forall_nil _ | x :: r => Forall_cons _ (fl x) (fl2 r) end in
    let fl3 := fix fl3 (l : list (list (list val))) : Forall (Forall (Forall P)) l :=
      match l with [] => Forall_nil _ | x :: r => Forall_cons _ (fl2 x) (fl3 r) end in
    match v with
    | VB t x => HB t x | VBytes o => HBytes o | VStruct l => HStruct l (fl l)
    | VPtrNil => HPtrNil | VPtr l => HPtr l (fl l) | VSlice l => HSlice l (fl l)
    | VNil => HNil | VScalar k x => HScalar k x (val_ind' x) | VArrNil k => HArrNil k
    | VArr k l => HArr k l (fl l) | VMat2 k m => HMat2 k m (fl2 m) | VMat3 k m => HMat3 k m (fl3 m)
    | VDV x st t1 p1 t2 p2 => HDV x st t1 p1 t2 p2 (val_ind' x)
    | VExtNil => HExtNil | VExt tid l => HExt tid l (fl l) | VDiag d => HDiag d
    end.
End ValInd.

Section TyInd.
  Context (P : ty -> Prop)
    (HB : forall t, P (TB t)) (HBytes : P TBytes) (HVar : P TVar) (HDV : P TDV) (HDiag : P TDiag)
    (HExt : P TExt) (HStruct : forall l, Forall P l -> P (TStruct l))
    (HPtr : forall l, Forall P l -> P (TPtr l)) (HSlice : forall t, P t -> P (TSlice t))
    (HUn : P TUnsupported).
  Fixpoint ty_ind' (t : ty) : P t :=
    let fl := fix fl (l : list ty) : Forall P l :=
      match l with [] => Forall_nil _ | x :: r => Forall_cons _ (ty_ind' x) (fl r) end in
    match t with
    | TB t => HB t | TBytes => HBytes | TVar => HVar | TDV => HDV | TDiag => HDiag | TExt => HExt
    | TStruct l => HStruct l (fl l) | TPtr l => HPtr l (fl l) | TSlice t => HSlice t (ty_ind' t)
    | TUnsupported => HUn
    end.
End TyInd.

(** * Leaves *)
Lemma codes_leaf s t v : bwf t v -> codes s (bread t) (bwrite t v) (bnorm t v).
Proof.
  destruct t; cbn [bwf bread bwrite bnorm bval]; intros H.
  - apply codes_bool.
  - apply codes_sint; [lia|exact H].
  - apply codes_uint; exact H.
  - apply codes_sint; [lia|exact H].
  - apply codes_uint; exact H.
  - apply codes_sint; [lia|exact H].
  - apply codes_uint; exact H.
  - apply codes_sint; [lia|exact H].
  - apply codes_uint; exact H.
  - apply codes_uint; exact H.
  - apply codes_uint; exact H.
  - apply codes_string; exact H.
  - apply codes_time; apply H.
  - apply codes_guid.
  - apply codes_bytestring; exact H.
  - apply codes_string; exact H.
  - apply codes_nodeid; exact H.
  - apply codes_expnodeid; apply H.
  - apply codes_uint; exact H.
  - apply codes_qname; exact H.
  - apply codes_ltext; exact H.
Qed.

(** * Plain list helpers *)
Lemma Forall_concat {A} (P : A -> Prop) m : Forall (Forall P) m -> Forall P (concat m).
Proof. induction 1; cbn; [constructor|]. apply Forall_app. split; assumption. Qed.
Lemma wall_app {A} (P : A -> Prop) l1 l2 : wall P l1 -> wall P l2 -> wall P (l1 ++ l2).
Proof. induction l1 as [|x l1 IH]; cbn; [trivial|]. intros [H1 H2] H3. split; [exact H1|apply IH; assumption]. Qed.
Lemma wall_concat {A} (P : A -> Prop) m : wall (wall P) m -> wall P (concat m).
Proof. induction m as [|x m IH]; cbn; [trivial|]. intros [H1 H2]. apply wall_app; [exact H1|apply IH; exact H2]. Qed.
Lemma oapp_assoc a b c : oapp a (oapp b c) = oapp (oapp a b) c.
Proof. destruct a, b, c; cbn; try reflexivity. now rewrite app_assoc. Qed.
Lemma emap_app {A} (f : A -> option bytes) l1 l2 : emap f (l1 ++ l2) = oapp (emap f l1) (emap f l2).
Proof.
  induction l1 as [|x l1 IH]; cbn [emap app].
  - destruct (emap f l2); reflexivity.
  - rewrite IH. apply oapp_assoc.
Qed.
Lemma emap_concat {A} (f : A -> option bytes) m : emap (emap f) m = emap f (concat m).
Proof. induction m as [|x m IH]; cbn [emap concat]; [reflexivity|]. now rewrite IH, emap_app. Qed.
Lemma concat_map_map {A B} (f : A -> B) m : concat (map (map f) m) = map f (concat m).
Proof. symmetry. apply concat_map. Qed.

Lemma kind_of_tag_of k : kind_of_tag (tag_of k) = Some k.
Proof. destruct k as [t| | | |]; [destruct t|..]; reflexivity. Qed.
Lemma tag_range k : 0 < tag_of k < 64.
Proof. destruct k as [t| | | |]; [destruct t|..]; cbn; lia. Qed.
Lemma tag_lor k : (has (tag_of k) 128 = false /\ Z.land (tag_of k) 63 = tag_of k) /\
  (has (Z.lor (tag_of k) 128) 128 = true /\ has (Z.lor (tag_of k) 128) 64 = false
   /\ Z.land (Z.lor (tag_of k) 128) 63 = tag_of k /\ 0 <= Z.lor (tag_of k) 128 < 256) /\
  (has (Z.lor (tag_of k) 192) 128 = true /\ has (Z.lor (tag_of k) 192) 64 = true
   /\ Z.land (Z.lor (tag_of k) 192) 63 = tag_of k /\ 0 <= Z.lor (tag_of k) 192 < 256).
Proof. destruct k as [t| | | |]; [destruct t|..]; cbn; repeat split; lia. Qed.

Lemma dv_mask_bits (b1 b2 b4 b16 b8 b32 : bool) :
  let m := bit b1 1 + bit b2 2 + bit b4 4 + bit b16 16 + bit b8 8 + bit b32 32 in
  0 <= m < 256 /\ has m 1 = b1 /\ has m 2 = b2 /\ has m 4 = b4 /\ has m 16 = b16 /\ has m 8 = b8 /\ has m 32 = b32.
Proof. destruct b1, b2, b4, b16, b8, b32; cbn; repeat split; lia. Qed.

(** * Row splitting inverts flattening *)
Lemma take_row_app c r rest : length r = c ->
  take_row (Z.of_nat c) (r ++ rest) = Some (r, rest).
Proof.
  intros <-. unfold take_row. rewrite app_length.
  destruct ((Z.of_nat (length r) <? 0) || (Z.of_nat (length r + length rest) <? Z.of_nat (length r))) eqn:C; [lia|].
  rewrite Nat2Z.id, firstn_app, Nat.sub_diag, firstn_all, firstn_O, app_nil_r.
  rewrite skipn_app, Nat.sub_diag, skipn_all, skipn_O. reflexivity.
Qed.
Lemma take_rows_concat c m rest : Forall (fun r => length r = c) m ->
  take_rows (length m) (Z.of_nat c) (concat m ++ rest) = Some (m, rest).
Proof.
  induction 1 as [|r m Hr Hm IH]; cbn [length take_rows concat]; [reflexivity|].
  rewrite <- app_assoc, take_row_app by exact Hr. rewrite IH. reflexivity.
Qed.
Lemma take_planes_concat c1 c2 m rest :
  Forall (fun p => length p = c1 /\ Forall (fun r => length r = c2) p) m ->
  take_planes (length m) (Z.of_nat c1) (Z.of_nat c2) (concat (concat m) ++ rest) = Some (m, rest).
Proof.
  induction 1 as [|p m [Hp Hr] Hm IH]; cbn [length take_planes concat]; [reflexivity|].
  rewrite concat_app, <- app_assoc. unfold take_mat2.
  destruct (Z.of_nat c1 <? 0) eqn:C; [lia|]. rewrite Nat2Z.id. rewrite <- Hp.
  rewrite take_rows_concat by exact Hr. rewrite Hp, IH. reflexivity.
Qed.

(** * Main round trip / truncation lemma *)
Section Main.
Context (E : env) (s : bool).

Definition PV (v : val) : Prop := forall t, wf E s t v ->
  exists e, enc E t v = Some e /\
  exists N, forall n, (N <= n)%nat -> codes s (dty E (dec E n) t) e (norm v).

Lemma zip_main l : Forall PV l -> forall ts, wzip (wf E s) ts l ->
  exists e, ezip (enc E) ts l = Some e /\
  exists N, forall n, (N <= n)%nat -> codes s (dzip (dty E (dec E n)) ts) e (map norm l).
Proof.
  induction 1 as [|x l Hx Hl IH]; intros [|t ts] W; cbn in W; try contradiction.
  - exists []. split; [reflexivity|]. exists 0%nat. intros n _. apply codes_ret.
  - destruct W as [W1 W2]. destruct (Hx t W1) as (e1 & E1 & N1 & C1).
    destruct (IH ts W2) as (e2 & E2 & N2 & C2).
    exists (e1 ++ e2). split. { cbn [ezip]. rewrite E1, E2. reflexivity. }
    exists (Nat.max N1 N2). intros n Hn. cbn [dzip map].
    eapply codes_bind; [apply C1; lia|]. cbn beta. apply (codes_fmap s _ (cons (norm x))). apply C2. lia.
Qed.

Lemma map_main t l : Forall PV l -> wall (wf E s t) l ->
  exists es, emap (enc E t) l = Some (concat es) /\
  exists N, forall n, (N <= n)%nat ->
    Forall2 (fun e a => codes s (dty E (dec E n) t) e a) es (map norm l).
Proof.
  induction 1 as [|x l Hx Hl IH]; intros W; cbn in W.
  - exists []. split; [reflexivity|]. exists 0%nat. intros n _. constructor.
  - destruct W as [W1 W2]. destruct (Hx t W1) as (e1 & E1 & N1 & C1).
    destruct (IH W2) as (es & E2 & N2 & C2).
    exists (e1 :: es). split. { cbn [emap concat]. rewrite E1, E2. reflexivity. }
    exists (Nat.max N1 N2). intros n Hn. cbn [map]. constructor; [apply C1; lia|apply C2; lia].
Qed.

Lemma dec_S n t : supported t = true -> dec E (S n) t = dty E (dec E n) t.
Proof. intros H. cbn [dec]. now rewrite H. Qed.
Lemma supported_kind k : supported (ty_of_kind k) = true.
Proof. destruct k; reflexivity. Qed.

(** Reading one element through the dynamic decoder. *)
Lemma codes_elem k e a N :
  (forall n, (N <= n)%nat -> codes s (dty E (dec E n) (ty_of_kind k)) e a) ->
  forall n, (S N <= n)%nat -> codes s (read_elem (dec E n) k) e a.
Proof.
  intros H n Hn. destruct n as [|n]; [lia|].
  destruct k; cbn [read_elem ty_of_kind] in *; try (rewrite dec_S by reflexivity; apply H; lia).
  apply (H (S n)). lia.
Qed.

Lemma codes_array k l (es : list bytes) N : len_ok l ->
  (forall n, (N <= n)%nat -> Forall2 (fun e a => codes s (dty E (dec E n) (ty_of_kind k)) e a) es l) ->
  forall n, (S N <= n)%nat ->
  codes s (read_array (dec E n) k) (write_int 4 (Z.of_nat (length l)) ++ concat es) (Some l).
Proof.
  intros Hl H n Hn. unfold read_array. eapply codes_bind; [apply codes_len; exact Hl|]. cbn beta.
  destruct (Z.ltb_spec (Z.of_nat (length l)) 0); [lia|]. rewrite Nat2Z.id.
  apply codes_fmap. apply codes_read_n.
  assert (H' : forall i e a, nth_error es i = Some e -> nth_error l i = Some a ->
     codes s (read_elem (dec E n) k) e a).
  { intros i e a He Ha. apply (codes_elem k e a N); [|exact Hn].
    intros m Hm. specialize (H m Hm). clear - H He Ha.
    revert i He Ha. induction H as [|e0 a0 es l H0 _ IH]; intros [|i] He Ha; cbn in *; try discriminate.
    - injection He as <-. injection Ha as <-. exact H0.
    - eapply IH; eassumption. }
  assert (L : length es = length l).
  { specialize (H N (le_n _)). clear - H. induction H; cbn; [reflexivity|now f_equal]. }
  clear - H' L. revert l L H'. induction es as [|e es IH]; intros [|a l] L H'; try discriminate; constructor.
  - apply (H' 0%nat); reflexivity.
  - apply IH; [now injection L|]. intros i e0 a0 A B. apply (H' (S i)); assumption.
Qed.

Lemma codes_dims d : len_ok d -> Forall (in_s 4) d -> codes s read_dims (write_dims d) (Some d).
Proof.
  intros Hl Hd. unfold read_dims, write_dims. eapply codes_bind; [apply codes_len; exact Hl|]. cbn beta.
  destruct (Z.ltb_spec (Z.of_nat (length d)) 0); [lia|]. rewrite Nat2Z.id.
  apply codes_fmap. apply codes_read_n. clear - Hd.
  induction Hd as [|z d Hz Hd IH]; cbn [map]; constructor; [apply codes_i32; exact Hz|exact IH].
Qed.

Lemma len_in_s4 {A} (l : list A) : len_ok l -> in_s 4 (Z.of_nat (length l)).
Proof. unfold len_ok. intros H. apply in_s4. lia. Qed.

Lemma len_ok_map {A B} (f : A -> B) l : len_ok l -> len_ok (map f l).
Proof. unfold len_ok. now rewrite map_length. Qed.

Lemma codes_rwhen {A} (b : bool) (r : reader A) e a d :
  (b = true -> codes s r e a) -> (b = false -> d = a) ->
  codes s (rwhen b r d) (if b then e else []) a.
Proof. destruct b; cbn; intros H1 H2; [apply H1; reflexivity|rewrite H2 by reflexivity; apply codes_ret]. Qed.

Lemma scalar_norm_result k v : match k with KB _ => True | KExt => v <> VExtNil | _ => False end ->
  match k, v with
  | KB t, VB t' _ => t = t'
  | KB _, _ => False
  | _, VB _ _ => False
  | _, _ => True end ->
  scalar_result k v = norm_scalar k v.
Proof.
  destruct k as [t| | | |]; intros H1 H2; try contradiction.
  - destruct v; try contradiction. subst t0. destruct t; reflexivity.
  - destruct v; try reflexivity; try contradiction.
Qed.

Lemma norm_shape k v : wf E s (ty_of_kind k) v -> scalar_kind k = true ->
  match k, norm v with
  | KB t, VB t' _ => t = t'
  | KB _, _ => False
  | _, VB _ _ => False
  | _, _ => True end.
Proof.
  destruct k as [t| | | |]; cbn [scalar_kind]; try discriminate; intros H _;
    destruct v; cbn in H |- *; try (destruct H; congruence); try contradiction; try exact I; try discriminate.
Qed.

Lemma norm_ext v : wf E s TExt v -> v <> VExtNil -> norm v <> VExtNil.
Proof.
  destruct v; cbn; intros H1 H2; try (destruct H1; discriminate); try discriminate; try contradiction.
Qed.

Lemma dims2_shape m c : Forall (fun r => length r = c) m -> dims2 m =
  match m with [] => [0; 0] | _ => [Z.of_nat (length m); Z.of_nat c] end.
Proof. destruct 1 as [|r m H _]; cbn [dims2]; [reflexivity|]. now rewrite H. Qed.

Lemma dims3_shape m c1 c2 : (0 < c1)%nat \/ m = [] ->
  Forall (fun p => length p = c1 /\ Forall (fun r => length r = c2) p) m -> dims3 m =
  match m with [] => [0; 0; 0] | _ => [Z.of_nat (length m); Z.of_nat c1; Z.of_nat c2] end.
Proof.
  intros Hc. destruct 1 as [|p m [H1 H2] _]; cbn [dims3]; [reflexivity|].
  destruct Hc as [Hc|Hc]; [|discriminate].
  destruct p as [|r p]; [cbn in H1; lia|]. cbn [dims3]. rewrite <- H1. inversion H2; subst. reflexivity.
Qed.

Ltac wfd W := destruct W as (-> & W).
Ltac badt W := try (destruct W; fail); try contradiction.

Lemma catch_codes r e a : codes false r e a -> reads_back (catch_variant r) e (a, 0).
Proof. intros [R _] rest. unfold catch_variant. now rewrite R. Qed.

Lemma main v : PV v.
Proof.
  induction v as [b x|o|l IH| |l IH|l IH| |k x IH|k|k l IH|k m IH|k m IH|x st t1 p1 t2 p2 IH| |tid l IH|d]
    using val_ind'; intros t W; cbn [wf] in W.
  - (* leaf *) destruct W as [-> W]. exists (bwrite b x). split; [reflexivity|].
    exists 0%nat. intros n _. cbn [dty norm]. apply (codes_fmap s _ (VB b)). apply codes_leaf; exact W.
  - destruct W as [-> W]. exists (write_bytearray o). split; [reflexivity|].
    exists 0%nat. intros n _. cbn [dty norm]. apply (codes_fmap s _ VBytes). apply codes_bytearray.
    intros v ->. exact W.
  - destruct t as [| | | | | |ts| | |]; try contradiction.
    destruct (zip_main l IH ts W) as (e & E1 & N & C). exists e. split; [exact E1|].
    exists N. intros n Hn. cbn [dty norm]. apply (codes_fmap s _ VStruct). apply C; exact Hn.
  - contradiction.
  - destruct t as [| | | | | | |ts| |]; try contradiction.
    destruct (zip_main l IH ts W) as (e & E1 & N & C). exists e. split; [exact E1|].
    exists N. intros n Hn. cbn [dty norm]. apply (codes_fmap s _ VPtr). apply C; exact Hn.
  - destruct t as [| | | | | | | |t'|]; try contradiction. destruct W as [Hl W].
    destruct (map_main t' l IH W) as (es & E1 & N & C).
    exists (write_int 4 (Z.of_nat (length l)) ++ concat es). split.
    { cbn [enc]. rewrite E1. reflexivity. }
    exists N. intros n Hn. cbn [dty norm]. eapply codes_bind; [apply codes_len; exact Hl|]. cbn beta.
    destruct (Z.leb_spec (Z.of_nat (length l)) 0) as [C0|C0].
    + destruct l; [|cbn in C0; lia]. specialize (C n Hn). inversion C; subst. cbn. apply codes_ret.
    + apply (codes_fmap s _ VSlice). rewrite Nat2Z.id, <- (map_length norm). apply codes_read_n. apply C; exact Hn.
  - (* nil variant *) subst t. exists (write_int 1 0). split; [reflexivity|]. exists 0%nat. intros n _.
    cbn [dty norm]. unfold read_variant. eapply codes_bind_last; [apply codes_u8; lia|]. cbn. apply codes_ret.
  - (* scalar variant *) destruct W as (-> & Hk & W).
    assert (SK : scalar_kind k = true) by (destruct k; try contradiction; reflexivity).
    destruct (IH _ W) as (e & E1 & N & C).
    exists (write_int 1 (tag_of k) ++ e). split. { cbn [enc]. rewrite SK, E1. reflexivity. }
    exists (S N). intros n Hn. cbn [dty norm]. unfold read_variant.
    pose proof (tag_range k). destruct (tag_lor k) as ((L1 & L2) & _).
    eapply codes_bind; [apply codes_u8; lia|]. cbv beta zeta. rewrite L1, L2. cbn [negb].
    destruct (Z.eqb_spec (tag_of k) 0); [lia|]. rewrite kind_of_tag_of.
    rewrite <- scalar_norm_result.
    + apply (codes_fmap s _ (scalar_result k)). apply (codes_elem k e _ N C n Hn).
    + destruct k; trivial. apply norm_ext; assumption.
    + apply norm_shape; assumption.
  - (* nil array *) destruct W as (-> & Hk).
    assert (AK : array_kind k = true) by (destruct k; try reflexivity; congruence).
    exists (write_int 1 (Z.lor (tag_of k) 128) ++ write_int 4 (-1)). split. { cbn [enc]. rewrite AK. reflexivity. }
    exists 0%nat. intros n _. cbn [dty norm]. unfold read_variant.
    pose proof (tag_range k). destruct (tag_lor k) as (_ & (L1 & L2 & L3 & L4) & _).
    eapply codes_bind; [apply codes_u8; lia|]. cbv beta zeta. rewrite L1, L2, L3. cbn [negb].
    destruct (Z.eqb_spec (tag_of k) 0); [lia|]. rewrite kind_of_tag_of.
    eapply codes_bind_last with (a := None); [|apply codes_ret].
    unfold read_array. eapply codes_bind_last; [apply codes_m1|]. apply codes_ret.
  - (* array *) destruct W as (-> & Hk & Hl & W).
    assert (AK : array_kind k = true) by (destruct k; try reflexivity; congruence).
    destruct (map_main _ l IH W) as (es & E1 & N & C).
    exists (write_int 1 (Z.lor (tag_of k) 128) ++ (write_int 4 (Z.of_nat (length l)) ++ concat es)).
    split. { cbn [enc]. rewrite AK, E1. cbn. now rewrite <- app_assoc. }
    exists (S N). intros n Hn. cbn [dty norm]. unfold read_variant.
    pose proof (tag_range k). destruct (tag_lor k) as (_ & (L1 & L2 & L3 & L4) & _).
    eapply codes_bind; [apply codes_u8; lia|]. cbv beta zeta. rewrite L1, L2, L3. cbn [negb].
    destruct (Z.eqb_spec (tag_of k) 0); [lia|]. rewrite kind_of_tag_of.
    eapply codes_bind_last with (a := Some (map norm l)); [|apply codes_ret].
    rewrite <- (map_length norm l).
    apply (codes_array k (map norm l) es N); [apply len_ok_map; exact Hl|exact C|exact Hn].
  - (* 2D *) destruct W as (-> & Hk & (c & Hc) & Hm & Hl & W).
    assert (AK : array_kind k = true) by (destruct k; try reflexivity; congruence).
    destruct (map_main _ (concat m) (Forall_concat _ _ IH) (wall_concat _ _ W)) as (es & E1 & N & C).
    exists (write_int 1 (Z.lor (tag_of k) 192) ++
      ((write_int 4 (Z.of_nat (length (concat m))) ++ concat es) ++ write_dims (dims2 m))).
    split. { cbn [enc]. rewrite AK, emap_concat, E1. cbn. unfold count2. now rewrite <- !app_assoc. }
    exists (S N). intros n Hn. cbn [dty norm]. unfold read_variant.
    pose proof (tag_range k). destruct (tag_lor k) as (_ & _ & L1 & L2 & L3 & L4).
    eapply codes_bind; [apply codes_u8; lia|]. cbv beta zeta. rewrite L1, L2, L3. cbn [negb].
    destruct (Z.eqb_spec (tag_of k) 0); [lia|]. rewrite kind_of_tag_of.
    eapply codes_bind with (a := Some (map norm (concat m))).
    { rewrite <- (map_length norm (concat m)).
      apply (codes_array k (map norm (concat m)) es N); [apply len_ok_map; exact Hl|exact C|exact Hn]. }
    cbn beta. eapply codes_bind_last with (a := Some (dims2 m)).
    { rewrite (dims2_shape m c Hc). apply codes_dims; [destruct m; cbn; unfold len_ok; cbn; lia|].
      destruct m as [|r m]; repeat (apply Forall_cons || apply Forall_nil); try (apply in_s4; lia).
      - apply in_s4. unfold len_ok in Hm. lia.
      - apply in_s4. inversion Hc; subst. unfold len_ok in Hl. cbn [concat] in Hl. rewrite app_length in Hl. lia. }
    cbn [olist]. rewrite (dims2_shape m c Hc). destruct m as [|r m].
    + cbn. apply codes_ret.
    + unfold take_mat2. destruct (Z.ltb_spec (Z.of_nat (length (r :: m))) 0); [lia|]. rewrite Nat2Z.id.
      rewrite <- concat_map_map, <- (app_nil_r (concat _)), <- (map_length (map norm) (r :: m)).
      rewrite take_rows_concat. { apply codes_ret. }
      apply Forall_map. eapply Forall_impl; [|exact Hc]. cbn. intros q <-. apply map_length.
  - (* 3D *) destruct W as (-> & Hk & (c1 & c2 & Hc0 & Hc) & Hm & Hl1 & Hl & W).
    assert (Hc0' : (0 < c1)%nat \/ m = []) by tauto.
    assert (AK : array_kind k = true) by (destruct k; try reflexivity; congruence).
    assert (IH' : Forall PV (concat (concat m))).
    { apply Forall_concat, Forall_concat. exact IH. }
    destruct (map_main _ (concat (concat m)) IH' (wall_concat _ _ (wall_concat _ _ W))) as (es & E1 & N & C).
    exists (write_int 1 (Z.lor (tag_of k) 192) ++
      ((write_int 4 (Z.of_nat (length (concat (concat m)))) ++ concat es) ++ write_dims (dims3 m))).
    split. { cbn [enc]. rewrite AK, emap_concat, emap_concat, E1. cbn. unfold count3. now rewrite <- !app_assoc. }
    exists (S N). intros n Hn. cbn [dty norm]. unfold read_variant.
    pose proof (tag_range k). destruct (tag_lor k) as (_ & _ & L1 & L2 & L3 & L4).
    eapply codes_bind; [apply codes_u8; lia|]. cbv beta zeta. rewrite L1, L2, L3. cbn [negb].
    destruct (Z.eqb_spec (tag_of k) 0); [lia|]. rewrite kind_of_tag_of.
    eapply codes_bind with (a := Some (map norm (concat (concat m)))).
    { rewrite <- (map_length norm (concat (concat m))).
      apply (codes_array k (map norm (concat (concat m))) es N); [apply len_ok_map; exact Hl|exact C|exact Hn]. }
    cbn beta. eapply codes_bind_last with (a := Some (dims3 m)).
    { rewrite (dims3_shape m c1 c2 Hc0' Hc). apply codes_dims; [destruct m; cbn; unfold len_ok; cbn; lia|].
      destruct m as [|p m]; repeat (apply Forall_cons || apply Forall_nil); try (apply in_s4; lia).
      - apply in_s4. unfold len_ok in Hm. lia.
      - apply in_s4. inversion Hc as [|? ? [A B] ?]; subst. unfold len_ok in Hl1. cbn [concat] in Hl1. rewrite app_length in Hl1. lia.
      - apply in_s4. inversion Hc as [|? ? [A B] ?]; subst. unfold len_ok in Hl. cbn [concat] in Hl.
        destruct p as [|r p]; [cbn in *; destruct Hc0'; [lia|discriminate]|]. inversion B; subst.
        cbn [concat] in Hl. rewrite concat_app, app_length in Hl. cbn [concat] in Hl. rewrite app_length in Hl. lia. }
    cbn [olist]. rewrite (dims3_shape m c1 c2 Hc0' Hc). destruct m as [|p m].
    + cbn. apply codes_ret.
    + unfold take_mat3. destruct (Z.ltb_spec (Z.of_nat (length (p :: m))) 0); [lia|]. rewrite Nat2Z.id.
      assert (X : map norm (concat (concat (p :: m))) = concat (concat (map (map (map norm)) (p :: m)))).
      { rewrite !concat_map_map. reflexivity. }
      rewrite X, <- (app_nil_r (concat (concat _))), <- (map_length (map (map norm)) (p :: m)).
      rewrite take_planes_concat. { apply codes_ret. }
      apply Forall_map. eapply Forall_impl; [|exact Hc]. cbn beta. intros q [A B]. split; [rewrite map_length; exact A|].
      apply Forall_map. eapply Forall_impl; [|exact B]. cbn beta. intros r <-. apply map_length.
  - (* DataValue *) destruct W as (-> & Hs & W & Hst & Ht1 & Ht1' & Hp1 & Ht2 & Ht2' & Hp2).
    destruct (IH TVar W) as (e & E1 & N & C).
    set (e0 := if negb (is_vnil x) then e else []).
    exists (write_int 1 (dv_mask x st t1 p1 t2 p2) ++ (e0 ++ ((if negb (st =? 0) then write_int 4 st else [])
                  ++ (if negb (time_is_zero t1) then write_time t1 else [])
                  ++ (if negb (p1 =? 0) then write_int 2 p1 else [])
                  ++ (if negb (time_is_zero t2) then write_time t2 else [])
                  ++ (if negb (p2 =? 0) then write_int 2 p2 else [])))).
    split. { cbn [enc]. rewrite E1. unfold some_if, e0. destruct (negb (is_vnil x)); reflexivity. }
    exists (S N). intros n Hn. cbn [dty norm]. unfold read_dv, dv_mask.
    destruct (dv_mask_bits (negb (is_vnil x)) (negb (st =? 0)) (negb (time_is_zero t1)) (negb (p1 =? 0))
                (negb (time_is_zero t2)) (negb (p2 =? 0))) as (M & B1 & B2 & B4 & B16 & B8 & B32).
    eapply codes_bind; [apply codes_u8; exact M|]. cbn beta. rewrite B1, B2, B4, B16, B8, B32.
    clear M B1 B2 B4 B16 B8 B32.
    eapply codes_bind with (a := (norm x, 0)).
    { unfold e0. apply codes_rwhen.
      - intros Hx. destruct n as [|n]; [lia|]. rewrite dec_S by reflexivity.
        destruct s eqn:Es.
        + rewrite (Hs eq_refl) in Hx. discriminate.
        + split; [|discriminate]. apply catch_codes. apply C. lia.
      - destruct x; cbn; intros Hx; try discriminate. reflexivity. }
    cbn [fst snd Z.eqb]. rewrite andb_true_r.
    assert (Stamp : forall t, wf_time t -> time_in_int64_ticks t ->
      codes s (rwhen (negb (time_is_zero t)) read_time zero_time)
        (if negb (time_is_zero t) then write_time t else []) (norm_stamp t)).
    { intros t A B. unfold norm_stamp. fold (time_is_zero t). apply codes_rwhen.
      - destruct (time_is_zero t); [discriminate|]. intros _. apply codes_time; assumption.
      - destruct (time_is_zero t) eqn:Z0; [intros _|discriminate].
        unfold time_is_zero in Z0. destruct t as [a b]. cbn in Z0. unfold zero_time. f_equal; lia. }
    eapply codes_bind with (a := st).
    { apply codes_rwhen; [intros _; apply codes_u32; exact Hst|lia]. }
    eapply codes_bind; [apply Stamp; assumption|]. cbn beta.
    eapply codes_bind with (a := p1).
    { apply codes_rwhen; [intros _; apply codes_u16; exact Hp1|lia]. }
    eapply codes_bind; [apply Stamp; assumption|]. cbn beta.
    eapply codes_bind_last with (a := p2).
    { apply codes_rwhen; [intros _; apply codes_u16; exact Hp2|lia]. }
    apply codes_ret.
  - (* nil extension object *) subst t. exists (write_nodeid NNull ++ write_int 1 0). split; [reflexivity|].
    exists 0%nat. intros n _. cbn [dty norm]. unfold read_ext.
    eapply codes_bind; [apply (codes_nodeid s NNull I)|]. cbn beta.
    eapply codes_bind_last; [apply codes_u8; lia|]. cbn. apply codes_ret.
  - (* extension object *) destruct W as (-> & (Hsup & id & Hid & Hwf & Hty) & W).
    destruct (zip_main l IH _ W) as (e & E1 & N & C).
    exists (write_nodeid (to_nodeid id (v_uris E)) ++ write_int 1 1 ++ write_int 4 (Z.of_nat (length e)) ++ e).
    split. { cbn [enc]. rewrite Hid, Hsup, E1. reflexivity. }
    exists (S N). intros n Hn. cbn [dty norm]. unfold read_ext.
    eapply codes_bind; [apply (codes_nodeid s _ Hwf)|]. cbn beta.
    eapply codes_bind; [apply codes_u8; lia|]. cbn [Z.eqb Pos.eqb]. rewrite Hty.
    eapply codes_bind with (a := to_signed 4 (le_dec (write_int 4 (Z.of_nat (length e))))).
    { apply (codes_fmap s _ (fun l => to_signed 4 (le_dec l))). apply codes_read_full.
      unfold write_int. now rewrite le_enc_length. }
    cbn beta. eapply codes_bind_last with (a := VStruct (map norm l)); [|apply codes_ret].
    destruct n as [|n]; [lia|]. rewrite dec_S by exact Hsup. cbn [dty].
    apply (codes_fmap s _ VStruct). apply C. lia.
  - (* diagnostic info *) destruct W as (-> & ->). eexists. split; [reflexivity|].
    exists 0%nat. intros n _. cbn [dty norm]. unfold read_diag. cbn. rewrite app_nil_r.
    eapply codes_bind_last; [apply codes_u8; lia|]. cbn.
    repeat (eapply codes_bind_first; [apply codes_ret|]; cbn beta).
    apply codes_ret.
Qed.
End Main.

(** * The recursion budget *)
(** More budget never changes an answer. *)
Definition rle {A} (r r' : reader A) : Prop := forall x, r x = Fuel \/ r' x = r x.
Lemma rle_refl {A} (r : reader A) : rle r r.
Proof. intros x. now right. Qed.
Lemma rle_bind {A B} (r r' : reader A) (k k' : A -> reader B) :
  rle r r' -> (forall a, rle (k a) (k' a)) -> rle (bind r k) (bind r' k').
Proof.
  intros H1 H2 x. unfold bind. destruct (H1 x) as [->| ->]; [now left|].
  destruct (r x); try (now right). apply H2.
Qed.
Lemma rle_fmap {A B} (f : A -> B) r r' : rle r r' -> rle (fmap f r) (fmap f r').
Proof. intros H. apply rle_bind; [exact H|intros a; apply rle_refl]. Qed.
Lemma rle_read_n {A} n (r r' : reader A) : rle r r' -> rle (read_n n r) (read_n n r').
Proof.
  intros H. induction n as [|n IH]; cbn [read_n]; [apply rle_refl|].
  apply rle_bind; [exact H|]. intros a. apply rle_fmap. exact IH.
Qed.
Lemma rle_dzip f f' ts : Forall (fun t => rle (f t) (f' t)) ts -> rle (dzip f ts) (dzip f' ts).
Proof.
  induction 1 as [|t ts Ht Hts IH]; cbn [dzip]; [apply rle_refl|].
  apply rle_bind; [exact Ht|]. intros a. apply rle_fmap. exact IH.
Qed.
Lemma rle_catch r r' : rle r r' -> rle (catch_variant r) (catch_variant r').
Proof. intros H x. unfold catch_variant. destruct (H x) as [->| ->]; [now left|now right]. Qed.
Lemma rle_if {A} (b : bool) (r1 r1' r2 r2' : reader A) : rle r1 r1' -> rle r2 r2' ->
  rle (if b then r1 else r2) (if b then r1' else r2').
Proof. destruct b; trivial. Qed.

Section Fuel.
Context (E : env).

Lemma rle_elem rec rec' k : (forall t, rle (rec t) (rec' t)) -> rle (read_elem rec k) (read_elem rec' k).
Proof. intros H. destruct k; cbn [read_elem]; try apply H. apply rle_refl. Qed.
Lemma rle_array rec rec' k : (forall t, rle (rec t) (rec' t)) -> rle (read_array rec k) (read_array rec' k).
Proof.
  intros H. apply rle_bind; [apply rle_refl|]. intros n. apply rle_if; [apply rle_refl|].
  apply rle_fmap, rle_read_n, rle_elem, H.
Qed.

Lemma rle_dty rec rec' : (forall t, rle (rec t) (rec' t)) -> forall t, rle (dty E rec t) (dty E rec' t).
Proof.
  intros H t. induction t as [b| | | | | |l IH|l IH|t IH| ] using ty_ind'; cbn [dty]; try apply rle_refl.
  - unfold read_variant. apply rle_bind; [apply rle_refl|]. intros b. cbv zeta.
    apply rle_if; [|apply rle_if].
    + apply rle_if; [apply rle_refl|]. destruct (kind_of_tag _); [|apply rle_refl]. apply rle_fmap, rle_elem, H.
    + apply rle_if; [apply rle_refl|]. destruct (kind_of_tag _); [|apply rle_refl].
      apply rle_bind; [apply rle_array, H|intros o; apply rle_refl].
    + apply rle_if; [apply rle_refl|]. destruct (kind_of_tag _); [|apply rle_refl].
      apply rle_bind; [apply rle_array, H|intros o; apply rle_refl].
  - unfold read_dv. apply rle_bind; [apply rle_refl|]. intros b.
    apply rle_bind; [|intros a; apply rle_refl]. unfold rwhen. apply rle_if; [|apply rle_refl]. apply rle_catch, H.
  - unfold read_diag. do 7 (apply rle_bind; [apply rle_refl|]; intros ?).
    apply rle_bind; [|intros; apply rle_refl]. apply rle_if; [|apply rle_refl].
    apply rle_bind; [apply H|intros; apply rle_refl].
  - unfold read_ext. do 2 (apply rle_bind; [apply rle_refl|]; intros ?).
    apply rle_if; [apply rle_refl|]. apply rle_if; [|apply rle_refl].
    destruct (v_type_of_id E _); [|apply rle_refl].
    apply rle_bind; [apply rle_refl|intros ?]. apply rle_bind; [apply H|intros; apply rle_refl].
  - apply rle_fmap, rle_dzip. exact IH.
  - apply rle_fmap, rle_dzip. exact IH.
  - apply rle_bind; [apply rle_refl|]. intros n. apply rle_if; [apply rle_refl|]. apply rle_fmap, rle_read_n, IH.
Qed.

Lemma dec_mono n m t : (n <= m)%nat -> rle (dec E n t) (dec E m t).
Proof.
  revert m t; induction n as [|n IH]; intros m t Hm; [intros x; now left|].
  destruct m as [|m]; [lia|]. cbn [dec]. apply rle_if; [|apply rle_refl].
  apply rle_dty. intros t'. apply IH. lia.
Qed.

(** The budget [S (length s)] is enough. *)
Definition good {A} (n : nat) (r : reader A) : Prop := forall x, (length x <= n)%nat ->
  match r x with Ok _ y | Err y => (length y <= length x)%nat | Panic => True | Fuel => False end.
Definition eats {A} (r : reader A) : Prop := forall x,
  match r x with Ok _ y => (length y < length x)%nat | Err y => (length y <= length x)%nat
  | Panic => True | Fuel => False end.

Lemma good_le {A} n m (r : reader A) : (m <= n)%nat -> good n r -> good m r.
Proof. intros H G x Hx. apply G. lia. Qed.
Lemma good_ret {A} n (a : A) : good n (ret a).
Proof. intros x _. cbn. lia. Qed.
Lemma good_fail {A} n : good n (@fail A).
Proof. intros x _. cbn. lia. Qed.
Lemma good_panic {A} n : good n (@panic A).
Proof. intros x _. cbn. trivial. Qed.
Lemma good_bind {A B} n (r : reader A) (k : A -> reader B) :
  good n r -> (forall a, good n (k a)) -> good n (bind r k).
Proof.
  intros G K x Hx. specialize (G x Hx). unfold bind. destruct (r x) as [a y|y| |]; try exact G.
  specialize (K a y ltac:(lia)). destruct (k a y); lia || trivial.
Qed.
Lemma eats_good {A B} n (r : reader A) (k : A -> reader B) :
  eats r -> (forall a m, (m < n)%nat -> good m (k a)) -> good n (bind r k).
Proof.
  intros G K x Hx. specialize (G x). unfold bind. destruct (r x) as [a y|y| |]; try exact G.
  specialize (K a (length y) ltac:(lia) y ltac:(lia)). destruct (k a y); lia || trivial.
Qed.
Lemma good_fmap {A B} n (f : A -> B) r : good n r -> good n (fmap f r).
Proof. intros H. apply good_bind; [exact H|intros a; apply good_ret]. Qed.
Lemma good_if {A} n (b : bool) (r1 r2 : reader A) : good n r1 -> good n r2 -> good n (if b then r1 else r2).
Proof. destruct b; trivial. Qed.
Lemma good_read_full n k : good n (read_full k).
Proof.
  intros x _. unfold read_full. destruct (_ <? _); cbn [length]; [lia|]. rewrite skipn_length. lia.
Qed.
Lemma eats_read_full k : 0 < k -> eats (read_full k).
Proof.
  intros Hk x. unfold read_full. destruct (Z.ltb_spec (Z.of_nat (length x)) k); cbn [length]; [lia|].
  rewrite skipn_length. lia.
Qed.
Lemma eats_bind {A B} (r : reader A) (k : A -> reader B) : eats r -> (forall a n, good n (k a)) -> eats (bind r k).
Proof.
  intros G K x. specialize (G x). unfold bind. destruct (r x) as [a y|y| |]; try exact G.
  specialize (K a (length y) y ltac:(lia)). destruct (k a y); lia || trivial.
Qed.
Lemma good_read_n {A} n k (r : reader A) : good n r -> good n (read_n k r).
Proof.
  intros H. induction k as [|k IH]; cbn [read_n]; [apply good_ret|].
  apply good_bind; [exact H|]. intros a. apply good_fmap. exact IH.
Qed.
Lemma good_dzip n f ts : Forall (fun t => good n (f t)) ts -> good n (dzip f ts).
Proof.
  induction 1 as [|t ts Ht Hts IH]; cbn [dzip]; [apply good_ret|].
  apply good_bind; [exact Ht|]. intros a. apply good_fmap. exact IH.
Qed.
Lemma good_catch n r : good n r -> good n (catch_variant r).
Proof. intros H x Hx. specialize (H x Hx). unfold catch_variant. destruct (r x); trivial. Qed.

Lemma good_uint n k : good n (read_uint k). Proof. apply good_fmap, good_read_full. Qed.
Lemma good_sint n k : good n (read_sint k). Proof. apply good_fmap, good_read_full. Qed.
Lemma good_string n : good n read_string.
Proof. apply good_bind; [apply good_sint|]. intros z. apply good_if; [apply good_ret|apply good_read_full]. Qed.
Lemma good_bytestring n : good n read_bytestring.
Proof. apply good_bind; [apply good_sint|]. intros z. apply good_if; [apply good_ret|apply good_read_full]. Qed.
Lemma good_bytearray n : good n read_bytearray.
Proof. apply good_bind; [apply good_sint|]. intros z. apply good_if; [apply good_ret|apply good_fmap, good_read_full]. Qed.
Lemma good_time n : good n read_time. Proof. apply good_fmap, good_sint. Qed.
Lemma good_guid n : good n read_guid.
Proof.
  unfold read_guid. apply good_bind; [apply good_read_full|]. intros h. apply good_bind; [apply good_read_full|]. intros t.
  repeat match goal with |- good _ (match ?x with _ => _ end) => destruct x end; try apply good_ret; apply good_fail.
Qed.
Ltac gd := repeat first
  [ apply good_ret | apply good_fail | apply good_panic | apply good_uint | apply good_sint | apply good_string
  | apply good_bytestring | apply good_bytearray | apply good_guid | apply good_time | apply good_if
  | apply good_bind; [|intros ?] ].
Lemma eats_u1 : eats (read_uint 1).
Proof. apply eats_bind; [apply eats_read_full; cbn; lia|]. intros a n. apply good_ret. Qed.
Lemma eats_nodeid : eats read_nodeid.
Proof. apply eats_bind; [apply eats_u1|]. intros a n. gd. Qed.
Lemma good_eats {A} n (r : reader A) : eats r -> good n r.
Proof. intros H x _. specialize (H x). destruct (r x); lia || trivial. Qed.
Lemma good_expnodeid n : good n read_expnodeid.
Proof. unfold read_expnodeid. gd. Qed.
Lemma good_bread n t : good n (bread t).
Proof.
  destruct t; cbn [bread]; gd.
  all: apply good_read_full || apply good_eats, eats_nodeid || apply good_expnodeid.
Qed.

Lemma good_elem n rec k : (forall t, good n (rec t)) -> good n (read_elem rec k).
Proof. intros H. destruct k; cbn [read_elem]; try apply H. apply good_fmap, good_bread. Qed.
Lemma good_array n rec k : (forall t, good n (rec t)) -> good n (read_array rec k).
Proof.
  intros H. apply good_bind; [apply good_sint|]. intros z. apply good_if; [apply good_ret|].
  apply good_fmap, good_read_n, good_elem, H.
Qed.
Lemma good_dims n : good n read_dims.
Proof.
  apply good_bind; [apply good_sint|]. intros z. apply good_if; [apply good_ret|].
  apply good_fmap, good_read_n, good_sint.
Qed.

Lemma good_dty n rec : (forall m t, (m < n)%nat -> good m (rec t)) -> forall t, good n (dty E rec t).
Proof.
  intros H t. induction t as [b| | | | | |l IH|l IH|t IH| ] using ty_ind'; cbn [dty]; try apply good_fail.
  - apply good_fmap, good_bread.
  - apply good_fmap, good_bytearray.
  - unfold read_variant. apply eats_good; [apply eats_u1|]. intros b m Hm. cbv zeta.
    assert (Hr : forall t, good m (rec t)) by (intros t; apply H; exact Hm).
    apply good_if; [|apply good_if]; (apply good_if; [apply good_ret|]);
      (destruct (kind_of_tag _) as [k|]; [|apply good_fail]).
    + apply good_fmap, good_elem, Hr.
    + apply good_bind; [apply good_array, Hr|intros o; apply good_ret].
    + apply good_bind; [apply good_array, Hr|intros o]. apply good_bind; [apply good_dims|intros ds].
      repeat match goal with |- good _ (match ?x with _ => _ end) => destruct x end; gd.
  - unfold read_dv. apply eats_good; [apply eats_u1|]. intros b m Hm. unfold rwhen.
    apply good_bind; [|intros vs; gd]. apply good_if; [|apply good_ret]. apply good_catch, H, Hm.
  - unfold read_diag. apply eats_good; [apply eats_u1|]. intros b m Hm.
    do 6 (apply good_bind; [gd|intros ?]).
    apply good_bind; [|intros; gd]. apply good_if; [|gd]. apply good_bind; [apply H, Hm|intros; gd].
  - unfold read_ext. apply eats_good; [apply eats_nodeid|]. intros nid m Hm.
    apply good_bind; [apply good_uint|intros b]. apply good_if; [gd|]. apply good_if; [|unfold read_xml; gd].
    destruct (v_type_of_id E _); [|gd]. apply good_bind; [gd|intros ?].
    apply good_bind; [apply H, Hm|intros x]. destruct x; gd.
  - apply good_fmap, good_dzip. exact IH.
  - apply good_fmap, good_dzip. exact IH.
  - apply good_bind; [apply good_sint|]. intros z. apply good_if; [apply good_ret|]. apply good_fmap, good_read_n, IH.
Qed.

Lemma dec_good n : forall t, good n (dec E (S n) t).
Proof.
  induction n as [|n IH]; intros t; cbn [dec].
  - apply good_if; [|apply good_fail]. apply good_dty. intros m t' Hm. lia.
  - apply good_if; [|apply good_fail]. apply good_dty. intros m t' Hm.
    apply (good_le n); [lia|]. apply IH.
Qed.

Lemma decode_no_fuel t x : decode E t x <> Fuel.
Proof. unfold decode. pose proof (dec_good (length x) t x (le_n _)) as H. intros C. now rewrite C in H. Qed.

Lemma decode_eq_dec n t x : (length x < n)%nat -> dec E n t x = decode E t x.
Proof.
  intros H. destruct (dec_mono (S (length x)) n t H x) as [F|F]; [|exact F].
  exfalso. now apply (decode_no_fuel t x).
Qed.

(** * Packaged results for [encode] and [decode] *)
Lemma codes_decode s t e a N : (forall n, (N <= n)%nat -> codes s (dec E n t) e a) -> codes s (decode E t) e a.
Proof.
  intros H. split.
  - intros rest. rewrite <- (decode_eq_dec (N + S (length (e ++ rest)))%nat) by lia.
    apply (codes_rt (H (N + S (length (e ++ rest)))%nat ltac:(lia))).
  - intros Hs p Hp. rewrite <- (decode_eq_dec (N + S (length p))%nat) by lia.
    apply (codes_tr (H (N + S (length p))%nat ltac:(lia)) Hs p Hp).
Qed.

Lemma encode_decode s t v : supported t = true -> wf E s t v ->
  exists e, encode E t v = Some e /\ codes s (decode E t) e (norm v).
Proof.
  intros Hsup W. destruct (main E s v t W) as (e & E1 & N & C). exists e. split.
  - unfold encode. now rewrite Hsup.
  - apply (codes_decode s t e (norm v) (S N)). intros n Hn. destruct n as [|n]; [lia|].
    rewrite dec_S by exact Hsup. apply C. lia.
Qed.
End Fuel.

(** * Panic freedom for statically typed data *)
Fixpoint static (t : ty) : bool :=
  match t with
  | TVar | TDV | TDiag | TExt => false
  | TStruct l | TPtr l => forallb static l
  | TSlice t => static t
  | _ => true
  end.

Lemma np_bread t : never_panics (bread t).
Proof.
  destruct t; cbn [bread]; try apply np_uint; try apply np_sint.
  - apply np_bool.
  - apply np_string.
  - apply np_time.
  - apply np_guid.
  - apply np_bytestring.
  - apply np_string.
  - apply np_nodeid.
  - apply np_expnodeid.
  - apply np_qname.
  - apply np_ltext.
Qed.

Lemma np_dzip f ts : Forall (fun t => never_panics (f t)) ts -> never_panics (dzip f ts).
Proof.
  induction 1 as [|t ts Ht Hts IH]; cbn [dzip]; [apply np_ret|].
  apply np_bind; [exact Ht|]. intros a. apply np_fmap. exact IH.
Qed.

Lemma np_static E rec t : static t = true -> never_panics (dty E rec t).
Proof.
  induction t as [b| | | | | |l IH|l IH|t IH| ] using ty_ind'; cbn [static dty]; intros S0; try discriminate.
  - apply np_fmap, np_bread.
  - apply np_fmap, np_bytearray.
  - apply np_fmap, np_dzip. rewrite forallb_forall in S0. rewrite Forall_forall in *. intros t Ht. apply IH; [exact Ht|]. apply S0; exact Ht.
  - apply np_fmap, np_dzip. rewrite forallb_forall in S0. rewrite Forall_forall in *. intros t Ht. apply IH; [exact Ht|]. apply S0; exact Ht.
  - apply np_bind; [apply np_sint|]. intros z. destruct (z <=? 0); [apply np_ret|]. apply np_fmap, np_read_n, IH, S0.
Qed.

Lemma np_decode_static E t : static t = true -> never_panics (decode E t).
Proof.
  intros H x. unfold decode. cbn [dec]. destruct (supported t); [apply np_static; exact H|apply np_fail].
Qed.
