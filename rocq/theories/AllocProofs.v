(** Proofs about the memory a decoder asks for. *)
From Coq Require Import ZArith String List Bool Lia Strings.Byte.
From Verif Require Import Bytes Prim Value StructTable MessageTable Messages Registry Keys BytesProofs CodecSpec PrimProofs ValueProofs Alloc AllocSpec.
Import ListNotations.
Open Scope Z_scope.
Ltac Zify.zify_post_hook ::= idtac.

(* ------------------------------------------------------------------ *)
(** * The count leaves the result alone *)

Definition er {A} (r : areader A) (r' : reader A) : Prop := forall s, snd (r s) = r' s.

Lemma er_lift {A} (r : reader A) : er (alift r) r.
Proof. intro s. reflexivity. Qed.
Lemma er_ret {A} (a : A) : er (aret a) (ret a).
Proof. intro s. reflexivity. Qed.
Lemma er_bind {A B} (r : areader A) r' (k : A -> areader B) k' :
  er r r' -> (forall a, er (k a) (k' a)) -> er (abind r k) (bind r' k').
Proof.
  intros H K s. unfold abind, bind. specialize (H s). destruct (r s) as [n [a rest|rest| |]]; cbn [snd] in H; rewrite <- H; try reflexivity.
  specialize (K a rest). destruct (k a rest). exact K.
Qed.
Lemma er_ask {B} n (k : unit -> areader B) k' : er (k tt) k' -> er (abind (ask n) k) k'.
Proof. intros K s. unfold abind, ask. specialize (K s). destruct (k tt s). exact K. Qed.
Lemma er_fmap {A B} (f : A -> B) r r' : er r r' -> er (afmap f r) (fmap f r').
Proof. intro H. apply er_bind; [exact H|]. intro a. apply er_ret. Qed.
Lemma er_read_n {A} n (r : areader A) r' : er r r' -> er (aread_n n r) (read_n n r').
Proof.
  intro H. induction n as [|n IH]; [apply er_ret|]. apply er_bind; [exact H|]. intro a. apply er_fmap, IH.
Qed.

Ltac er_step :=
  match goal with
  | |- er (match ?x with _ => _ end) _ => destruct x
  | |- er (if ?b then _ else _) _ => destruct b
  | |- er (alift _) _ => apply er_lift
  | |- er (aret _) _ => apply er_ret
  | |- er (abind (ask _) _) _ => apply er_ask
  | |- er (abind _ _) _ => apply er_bind; [|intro]
  | |- er (afmap _ _) _ => apply er_fmap
  | |- er (aread_n _ _) _ => apply er_read_n
  end; cbv beta zeta.

Lemma er_string : er a_string read_string.
Proof. unfold a_string, read_string. repeat er_step. Qed.
Lemma er_bytestring : er a_bytestring read_bytestring.
Proof. unfold a_bytestring, read_bytestring. repeat er_step. Qed.
Lemma er_bytearray : er a_bytearray read_bytearray.
Proof. unfold a_bytearray, read_bytearray. repeat er_step. Qed.
Lemma er_nodeid : er a_nodeid read_nodeid.
Proof. unfold a_nodeid, read_nodeid. repeat (apply er_string || apply er_bytestring || er_step). Qed.
Lemma er_expnodeid : er a_expnodeid read_expnodeid.
Proof. unfold a_expnodeid, read_expnodeid. repeat (apply er_string || apply er_bytestring || er_step). Qed.
Lemma er_qname : er a_qname read_qname.
Proof. unfold a_qname, read_qname. repeat (apply er_string || er_step). Qed.
Lemma er_ltext : er a_ltext read_ltext.
Proof. unfold a_ltext, read_ltext. repeat (apply er_string || er_step). Qed.
Lemma er_bread t : er (a_bread t) (bread t).
Proof.
  destruct t; cbn [a_bread bread]; try apply er_lift;
    auto using er_string, er_bytestring, er_nodeid, er_expnodeid, er_qname, er_ltext.
Qed.
Lemma er_catch r r' : er r r' -> er (a_catch r) (catch_variant r').
Proof.
  intros H s. unfold a_catch, catch_variant. specialize (H s). destruct (r s) as [n [a rest|rest| |]]; cbn [snd] in *; rewrite <- H; reflexivity.
Qed.

Lemma bind_assoc {A B C} (r : reader A) (k : A -> reader B) (h : B -> reader C) s :
  bind (bind r k) h s = bind r (fun a => bind (k a) h) s.
Proof. unfold bind. destruct (r s); reflexivity. Qed.

Lemma bind_ext {A B} (r : reader A) (k k' : A -> reader B) s : (forall a x, k a x = k' a x) -> bind r k s = bind r k' s.
Proof. intro H. unfold bind. destruct (r s); auto. Qed.

Section Same.
Context (E : env) (rec : ty -> areader val) (rec' : ty -> reader val).
Hypothesis R : forall t, er (rec t) (rec' t).

Lemma er_dv : er (a_dv rec) (read_dv rec').
Proof.
  unfold a_dv, read_dv. apply er_bind; [apply er_lift|]. intro b. apply er_bind; [|intro; apply er_lift].
  unfold rwhen. destruct (has b 1); [apply er_catch, R|apply er_ret].
Qed.
Lemma er_diag : er (a_diag rec) (read_diag rec').
Proof.
  unfold a_diag, read_diag. apply er_bind; [apply er_lift|]. intro b. intro s.
  rewrite (er_bind _ _ _ (fun _ =>
      let* _ := (if has b 16 then let* _ := read_string in panic else ret tt) in
      let* _ := (if has b 32 then let* _ := read_status in panic else ret tt) in
      let* _ := (if has b 64 then let* _ := rec' TDiag in panic else ret tt) in
      ret (VDiag (Diag None None None None None None None))) (er_lift _)).
  - rewrite bind_assoc. apply bind_ext. intros _ s1. rewrite bind_assoc. apply bind_ext. intros _ s2.
    rewrite bind_assoc. apply bind_ext. intros _ s3. reflexivity.
  - intros []. apply er_bind; [destruct (has b 16); [apply er_bind; [apply er_string|intro; apply er_lift]|apply er_ret]|].
    intro. apply er_bind; [apply er_lift|]. intro.
    apply er_bind; [destruct (has b 64); [apply er_bind; [apply R|intro; apply er_lift]|apply er_ret]|]. intro. apply er_ret.
Qed.
Lemma er_ext : er (a_ext E rec) (read_ext E rec').
Proof.
  unfold a_ext, read_ext. repeat (apply er_string || apply er_bytearray || apply er_nodeid || apply R || er_step).
Qed.
Lemma er_elem k : er (a_elem rec k) (read_elem rec' k).
Proof. destruct k; cbn [a_elem read_elem]; try apply R. apply er_fmap, er_bread. Qed.
Lemma er_array k : er (a_array rec k) (read_array rec' k).
Proof. unfold a_array, read_array. repeat (apply er_elem || er_step). Qed.
Lemma er_dims : er a_dims read_dims.
Proof. unfold a_dims, read_dims. repeat er_step. Qed.
Lemma er_variant : er (a_variant rec) (read_variant rec').
Proof. unfold a_variant, read_variant. repeat (apply er_elem || apply er_array || apply er_dims || er_step). Qed.
Lemma er_azip f f' ts : Forall (fun t => er (f t) (f' t)) ts -> er (azip f ts) (dzip f' ts).
Proof. induction 1; cbn [azip dzip]; repeat (assumption || er_step). Qed.
End Same.

Lemma er_dty E rec rec' t : (forall t, er (rec t) (rec' t)) -> er (a_dty E rec t) (dty E rec' t).
Proof.
  intro R. induction t as [x| | | | | |l IH|l IH|t IH|] using ty_ind'; cbn [a_dty dty];
    auto using er_dv, er_diag, er_ext, er_variant, er_lift.
  - apply er_fmap, er_bread.
  - apply er_fmap, er_bytearray.
  - apply er_fmap, er_azip, IH.
  - apply er_fmap, er_azip, IH.
  - repeat (assumption || er_step).
Qed.
Lemma er_dec E n : forall t, er (a_dec E n t) (dec E n t).
Proof.
  induction n as [|n IH]; intro t; cbn [a_dec dec]; [intro; reflexivity|].
  destruct (supported t); [|apply er_lift]. apply er_dty, IH.
Qed.
Lemma same_decode E t : er (a_decode E t) (decode E t).
Proof. intro s. apply er_dec. Qed.
Lemma same_receive table uris : er (a_receive table uris) (receive table uris).
Proof. unfold a_receive, receive. repeat (apply er_nodeid || apply same_decode || er_step). Qed.
Lemma same_hello : er a_hello read_hello.
Proof.
  unfold a_hello, read_hello. intro s.
  rewrite (er_bind _ _ _ (fun h => let* url := read_string in ret (h, url)) (er_lift _)).
  - rewrite bind_assoc. apply bind_ext. intros t s1. destruct (negb _).
    + rewrite bind_assoc. reflexivity.
    + rewrite bind_assoc. apply bind_ext. intros len s2. destruct (len <? 28); [reflexivity|].
      rewrite bind_assoc. apply bind_ext. intros ver s3. destruct (ver <? 0); [reflexivity|].
      rewrite bind_assoc. apply bind_ext. intros recv s4. rewrite bind_assoc. apply bind_ext. intros send s5.
      rewrite bind_assoc. apply bind_ext. intros size s6. rewrite bind_assoc. apply bind_ext. intros chunks s7. reflexivity.
  - intro h. apply er_bind; [apply er_string|]. intro. apply er_ret.
Qed.

(* ------------------------------------------------------------------ *)
(** * What accepted messages ask for *)

Lemma abind_ok {A B} (r : areader A) (k : A -> areader B) s n b rest : abind r k s = (n, Ok b rest) ->
  exists n1 a mid n2, r s = (n1, Ok a mid) /\ k a mid = (n2, Ok b rest) /\ n = n1 + n2.
Proof.
  unfold abind. destruct (r s) as [n1 [a mid|x| |]]; try discriminate. destruct (k a mid) as [n2 y] eqn:K.
  intro H. injection H as H1 H2. exists n1, a, mid, n2. subst. auto.
Qed.
Lemma afmap_ok {A B} (f : A -> B) r s n b rest : afmap f r s = (n, Ok b rest) -> exists a, r s = (n, Ok a rest) /\ b = f a.
Proof.
  intro H. apply abind_ok in H as (n1 & a & mid & n2 & H & K & ->). injection K as <- <- <-. exists a. rewrite Z.add_0_r. auto.
Qed.

Definition len (s : bytes) : Z := Z.of_nat (length s).
Lemma full_ok n s a rest : read_full n s = Ok a rest -> 0 <= n -> len s = n + len rest.
Proof.
  unfold read_full, len. destruct (_ <? n) eqn:L; [discriminate|]. intros H N. injection H as <- <-. rewrite skipn_length.
  apply Z.ltb_ge in L. lia.
Qed.
Lemma fmap_ok {A B} (f : A -> B) r s b rest : fmap f r s = Ok b rest -> exists a, r s = Ok a rest /\ b = f a.
Proof. unfold fmap, bind. destruct (r s); try discriminate. intro H. injection H as <- <-. eauto. Qed.
Lemma uint_ok k s a rest : read_uint k s = Ok a rest -> len s = Z.of_nat k + len rest.
Proof. intro H. apply fmap_ok in H as (x & H & _). apply full_ok in H; lia. Qed.
Lemma sint_ok k s a rest : read_sint k s = Ok a rest -> len s = Z.of_nat k + len rest.
Proof. intro H. apply fmap_ok in H as (x & H & _). apply full_ok in H; lia. Qed.

Section Pay.
Context (K : Z).
Hypothesis K1 : 88 <= K.

(** [e] bytes are left over when every byte pays for [K] *)
Definition pay {A} (e : Z) (r : areader A) : Prop :=
  forall s n a rest, r s = (n, Ok a rest) -> n + K * e <= K * (len s - len rest).

Lemma pay_weaken {A} e e' (r : areader A) : e <= e' -> pay e' r -> pay e r.
Proof. intros L P s n a rest H. specialize (P _ _ _ _ H). nia. Qed.
Lemma pay_bind {A B} e1 e2 (r : areader A) (k : A -> areader B) : pay e1 r -> (forall a, pay e2 (k a)) -> pay (e1 + e2) (abind r k).
Proof.
  intros P Q s n b rest H. apply abind_ok in H as (n1 & a & mid & n2 & H1 & H2 & ->).
  specialize (P _ _ _ _ H1). specialize (Q _ _ _ _ _ H2). lia.
Qed.
Lemma pay_ret {A} (a : A) : pay 0 (aret a).
Proof. intros s n b rest H. injection H as <- _ <-. lia. Qed.
Lemma pay_fail {A} e : pay e (alift (A := A) fail).
Proof. intros s n b rest H. discriminate. Qed.
Lemma pay_lift {A} e (r : reader A) : (forall s a rest, r s = Ok a rest -> e <= len s - len rest) -> pay e (alift r).
Proof. intros P s n a rest H. injection H as <- H. specialize (P _ _ _ H). nia. Qed.
Lemma pay_uint k : pay (Z.of_nat k) (alift (read_uint k)).
Proof. apply pay_lift. intros s a rest H. apply uint_ok in H. lia. Qed.
Lemma pay_sint k : pay (Z.of_nat k) (alift (read_sint k)).
Proof. apply pay_lift. intros s a rest H. apply sint_ok in H. lia. Qed.
Lemma pay_fmap {A B} e (f : A -> B) r : pay e r -> pay e (afmap f r).
Proof. intros P s n b rest H. apply afmap_ok in H as (a & H & _). exact (P _ _ _ _ H). Qed.
Lemma pay_take n : 0 <= n -> pay 0 (abind (ask n) (fun _ => alift (read_full n))).
Proof.
  intros N s m a rest H. apply abind_ok in H as (n1 & u & mid & n2 & H1 & H2 & ->). injection H1 as <- _ <-.
  injection H2 as <- H2. apply full_ok in H2; [|exact N]. nia.
Qed.
Lemma pay_string : pay 1 a_string.
Proof.
  apply (pay_weaken 1 (4 + 0)); [lia|]. apply pay_bind; [apply (pay_sint 4)|]. intro n. destruct (n <? 0) eqn:N; [apply pay_ret|].
  apply pay_take. apply Z.ltb_ge in N. exact N.
Qed.
Lemma pay_bytestring : pay 1 a_bytestring.
Proof.
  apply (pay_weaken 1 (4 + 0)); [lia|]. apply pay_bind; [apply (pay_sint 4)|]. intro n. destruct (n <=? 0) eqn:N; [apply pay_ret|].
  apply pay_take. apply Z.leb_gt in N. lia.
Qed.
Lemma pay_bytearray : pay 1 a_bytearray.
Proof.
  apply (pay_weaken 1 (4 + 0)); [lia|]. apply pay_bind; [apply (pay_sint 4)|]. intro n. destruct (n <? 0) eqn:N; [apply pay_ret|].
  apply Z.ltb_ge in N. intros s m a rest H. apply abind_ok in H as (n1 & u & mid & n2 & H1 & H2 & ->). injection H1 as <- _ <-.
  apply afmap_ok in H2 as (b & H2 & _). injection H2 as <- H2. apply full_ok in H2; [|exact N]. nia.
Qed.
Lemma pay_0 {A} (r : areader A) : pay 1 r -> pay 0 r.
Proof. apply pay_weaken. lia. Qed.
Lemma pay_guid : pay 1 (alift read_guid).
Proof.
  apply pay_lift. intros s a rest. unfold read_guid, bind. destruct (read_full 8 s) as [h s1|x| |] eqn:H1; try discriminate.
  destruct (read_full 8 s1) as [t s2|x| |] eqn:H2; try discriminate. apply full_ok in H1; [|lia]. apply full_ok in H2; [|lia].
  intro H. assert (G : forall (x y : bytes), match x, y with
     | [c0; c1; c2; c3; c4; c5; c6; c7], [d0; d1; d2; d3; d4; d5; d6; d7] =>
        ret (Guid c3 c2 c1 c0 c5 c4 c7 c6 d0 d1 d2 d3 d4 d5 d6 d7) | _, _ => fail end s2 = Ok a rest -> rest = s2).
  { clear. intros x y. do 8 (destruct x as [|? x]; [discriminate|]). destruct x; [|discriminate].
    do 8 (destruct y as [|? y]; [discriminate|]). destruct y; [|discriminate]. intro H. injection H as _ <-. reflexivity. }
  apply G in H. subst. lia.
Qed.

Ltac pay_step :=
  match goal with
  | |- pay 0 (if ?b then _ else _) => destruct b
  | |- pay 0 (aret _) => apply pay_ret
  | |- pay 0 (alift fail) => apply pay_fail
  | |- pay 0 (alift (read_uint _)) => eapply pay_weaken; [|apply pay_uint]; lia
  | |- pay 0 (alift read_guid) => apply pay_0, pay_guid
  | |- pay 0 a_string => apply pay_0, pay_string
  | |- pay 0 a_bytestring => apply pay_0, pay_bytestring
  | |- pay 0 (abind _ _) => apply (pay_bind 0 0); [|intro]
  end; cbv beta zeta.
Lemma pay_nodeid : pay 1 a_nodeid.
Proof. apply (pay_bind 1 0); [apply (pay_uint 1)|]. intro b. repeat pay_step. Qed.
Lemma pay_expnodeid : pay 1 a_expnodeid.
Proof. apply (pay_bind 1 0); [apply (pay_uint 1)|]. intro b. cbv zeta. repeat pay_step. Qed.
Lemma pay_qname : pay 1 a_qname.
Proof.
  apply (pay_weaken 1 (2 + 0)); [lia|]. apply pay_bind; [apply (pay_uint 2)|]. intro b. repeat pay_step.
Qed.
Lemma pay_ltext : pay 1 a_ltext.
Proof. apply (pay_bind 1 0); [apply (pay_uint 1)|]. intro b. repeat pay_step. Qed.
Lemma pay_bread t : pay 1 (a_bread t).
Proof.
  destruct t; cbn [a_bread bread]; auto using pay_string, pay_bytestring, pay_nodeid, pay_expnodeid, pay_qname, pay_ltext;
    try (eapply pay_weaken; [|apply pay_uint || apply pay_sint]; lia).
  - apply pay_lift. intros s a rest H. apply fmap_ok in H as (x & H & _). apply full_ok in H; lia.
  - apply pay_lift. intros s a rest H. apply fmap_ok in H as (x & H & _). apply sint_ok in H. lia.
  - apply pay_guid.
Qed.

Definition shrinks {A} (r : reader A) : Prop := forall s a rest, r s = Ok a rest -> len rest <= len s.
Lemma shrinks_bind {A B} (r : reader A) (k : A -> reader B) : shrinks r -> (forall a, shrinks (k a)) -> shrinks (bind r k).
Proof.
  intros P Q s b rest. unfold bind. destruct (r s) as [a mid|x| |] eqn:H; try discriminate. intro H2.
  specialize (P _ _ _ H). specialize (Q _ _ _ _ H2). lia.
Qed.
Lemma shrinks_uint k : shrinks (read_uint k).
Proof. intros s a rest H. apply uint_ok in H. lia. Qed.
Lemma shrinks_sint k : shrinks (read_sint k).
Proof. intros s a rest H. apply sint_ok in H. lia. Qed.
Lemma shrinks_ret {A} (a : A) : shrinks (ret a).
Proof. intros s b rest H. injection H as _ <-. lia. Qed.
Lemma shrinks_panic {A} : shrinks (A := A) panic.
Proof. intros s b rest H. discriminate. Qed.
Lemma shrinks_fail {A} : shrinks (A := A) fail.
Proof. intros s b rest H. discriminate. Qed.
Lemma shrinks_time : shrinks read_time.
Proof. intros s a rest H. apply fmap_ok in H as (x & H & _). apply sint_ok in H. lia. Qed.
Ltac shrink_step :=
  match goal with
  | |- shrinks (if ?b then _ else _) => destruct b
  | |- shrinks (rwhen ?b _ _) => unfold rwhen; destruct b
  | |- shrinks (bind _ _) => apply shrinks_bind; [|intro]
  | |- shrinks (read_uint _) => apply shrinks_uint
  | |- shrinks read_status => apply shrinks_uint
  | |- shrinks (read_sint _) => apply shrinks_sint
  | |- shrinks read_time => apply shrinks_time
  | |- shrinks (ret _) => apply shrinks_ret
  | |- shrinks panic => apply shrinks_panic
  | |- shrinks fail => apply shrinks_fail
  end.
Lemma pay_shrinks {A} (r : reader A) : shrinks r -> pay 0 (alift r).
Proof. intro P. apply pay_lift. intros s a rest H. specialize (P _ _ _ H). lia. Qed.

(** the same for values, provided they are tame *)
Definition payv (e : Z) (r : areader val) : Prop :=
  forall s n v rest, r s = (n, Ok v rest) -> tame v = true -> n + K * e <= K * (len s - len rest).
Definition spare (t : ty) : Z := if solid t then 1 else 0.

Lemma pay_payv e r : pay e r -> payv e r.
Proof. intros P s n v rest H _. exact (P _ _ _ _ H). Qed.
Lemma payv_n e r : payv e r -> forall n s m l rest, aread_n n r s = (m, Ok l rest) -> forallb tame l = true ->
  m + K * e * Z.of_nat n <= K * (len s - len rest).
Proof.
  intros P n. induction n as [|n IH]; intros s m l rest H T.
  - injection H as <- _ <-. lia.
  - apply abind_ok in H as (n1 & a & mid & n2 & H1 & H2 & ->). apply afmap_ok in H2 as (l' & H2 & ->).
    cbn [forallb] in T. apply andb_prop in T as (T1 & T2). specialize (P _ _ _ _ H1 T1). specialize (IH _ _ _ _ H2 T2). nia.
Qed.

Section Values.
Context (E : env) (rec : ty -> areader val).
Hypothesis F : forall tid, fits K (TStruct (v_fields E tid)) = true.
Hypothesis R : forall t, fits K t = true -> payv (spare t) (rec t).

Lemma payv_elem k : payv 1 (a_elem rec k).
Proof.
  destruct k as [t| | | |]; cbn [a_elem].
  - apply pay_payv, pay_fmap, pay_bread.
  - apply (R TExt). reflexivity.
  - apply (R TDV). reflexivity.
  - apply (R TVar). reflexivity.
  - apply (R TDiag). reflexivity.
Qed.
Lemma kind_size k : 0 <= go_size (ty_of_kind k) <= 88.
Proof. destruct k as [[]| | | |]; cbn; lia. Qed.
Lemma pay_array k s m o rest : a_array rec k s = (m, Ok o rest) -> forallb tame (olist o) = true -> m <= K * (len s - len rest).
Proof.
  intros H T. apply abind_ok in H as (n1 & n & mid & n2 & H1 & H2 & ->). injection H1 as <- H1. apply sint_ok in H1.
  destruct (n <? 0) eqn:N.
  - injection H2 as <- _ <-. nia.
  - apply Z.ltb_ge in N. apply abind_ok in H2 as (m1 & u & mid2 & m2 & H2 & H3 & ->). injection H2 as <- _ <-.
    apply afmap_ok in H3 as (l & H3 & ->). cbn [olist] in T. pose proof (payv_n 1 _ (payv_elem k) _ _ _ _ _ H3 T) as P.
    pose proof (kind_size k). rewrite Z2Nat.id in P by exact N. nia.
Qed.
Lemma tame_scalar k v : tame (scalar_result k v) = true -> tame v = true.
Proof.
  destruct k as [t| | | |]; try (intro H; exact H).
  - destruct t; try (intro H; exact H). destruct v as [[]| | | | | | | | | | | | | | |]; intro H; try exact H; reflexivity.
  - destruct v; intro H; exact H.
Qed.
Lemma payv_variant : payv 1 (a_variant rec).
Proof.
  intros s n v rest H T. apply abind_ok in H as (n1 & b & mid & n2 & H1 & H2 & ->). injection H1 as <- H1. apply uint_ok in H1.
  cbv zeta in H2.
  assert (N : n2 <= K * (len mid - len rest)); [|nia].
  destruct (negb (has b 128)).
  - destruct (_ =? 0); [injection H2 as <- _ <-; nia|]. destruct (kind_of_tag _) as [k|]; [|discriminate].
    apply afmap_ok in H2 as (x & H2 & ->). apply tame_scalar in T. pose proof (payv_elem k _ _ _ _ H2 T). nia.
  - destruct (negb (has b 64)).
    + destruct (_ =? 0); [injection H2 as <- _ <-; nia|]. destruct (kind_of_tag _) as [k|]; [|discriminate].
      apply abind_ok in H2 as (m1 & o & mid2 & m2 & H2 & H3 & ->). injection H3 as <- <- <-.
      enough (m1 <= K * (len mid - len mid2)) by lia. eapply pay_array; [exact H2|]. destruct o; [exact T|reflexivity].
    + destruct (_ =? 0); [injection H2 as <- _ <-; nia|]. destruct (kind_of_tag _) as [k|]; [|discriminate]. exfalso.
      apply abind_ok in H2 as (m1 & o & mid2 & m2 & H2 & H3 & ->). apply abind_ok in H3 as (m3 & d & mid3 & m4 & H3 & H4 & ->).
      destruct (olist d) as [|d0 [|d1 [|d2 [|d3 r]]]]; try discriminate;
        apply abind_ok in H4 as (m5 & u & mid4 & m6 & H4 & H5 & ->); injection H5 as _ H5;
        [destruct (take_mat2 _ _ _) as [[m q]|]|destruct (take_mat3 _ _ _ _) as [[m q]|]]; try discriminate;
        injection H5 as <- _; discriminate T.
Qed.
Lemma payv_dv : payv 1 (a_dv rec).
Proof.
  intros s n v rest H T. apply abind_ok in H as (n1 & b & mid & n2 & H1 & H2 & ->). injection H1 as <- H1. apply uint_ok in H1.
  apply abind_ok in H2 as (m1 & [x st] & mid2 & m2 & H2 & H3 & ->).
  assert (D : exists st' t1 p1 t2 p2, v = VDV x st' t1 p1 t2 p2 /\ (st <> 0 -> st' = st)).
  { injection H3 as _ H3. cbn [fst snd] in H3. revert H3. unfold bind at 1. destruct (rwhen _ (read_uint 4) st mid2) as [st' r1|r1| |] eqn:R1; try discriminate.
    unfold bind at 1. destruct (rwhen _ read_time _ _) as [t1 r2|r2| |]; try discriminate.
    unfold bind at 1. destruct (rwhen _ (read_uint 2) _ _) as [p1 r3|r3| |]; try discriminate.
    unfold bind at 1. destruct (rwhen _ read_time _ _) as [t2 r4|r4| |]; try discriminate.
    unfold bind at 1. destruct (rwhen _ (read_uint 2) _ _) as [p2 r5|r5| |]; try discriminate.
    intro Q. injection Q as <- _. exists st', t1, p1, t2, p2. split; [reflexivity|]. intro N. apply Z.eqb_neq in N.
    unfold rwhen in R1. rewrite N, andb_false_r in R1. injection R1 as <- _. reflexivity. }
  destruct D as (st' & t1 & p1 & t2 & p2 & -> & D). cbn [tame] in T. apply andb_prop in T as (T1 & T2).
  assert (S2 : m2 <= K * (len mid2 - len rest)).
  { revert H3. match goal with |- alift ?r _ = _ -> _ => intro H3; pose proof (pay_shrinks r) as P end.
    specialize (P ltac:(repeat shrink_step)). specialize (P _ _ _ _ H3). lia. }
  assert (S1 : m1 <= K * (len mid - len mid2)).
  { destruct (has b 1).
    - unfold a_catch in H2. destruct (rec TVar mid) as [k [y r|r| |]] eqn:Q; try discriminate.
      + injection H2 as <- <- _ <-. pose proof (R TVar eq_refl _ _ _ _ Q T1) as P. unfold spare in P. cbn [solid] in P. nia.
      + injection H2 as _ <- <- _. rewrite (D ltac:(discriminate)) in T2. discriminate T2.
    - injection H2 as <- _ _ <-. lia. }
  nia.
Qed.
Lemma pay_panic {A} e : pay e (alift (A := A) panic).
Proof. intros s n b rest H. discriminate. Qed.
Lemma payv_diag : payv 1 (a_diag rec).
Proof.
  apply pay_payv. apply (pay_bind 1 0); [apply (pay_uint 1)|]. intro b.
  apply (pay_bind 0 0); [apply pay_shrinks; repeat shrink_step|]. intro.
  apply (pay_bind 0 0).
  { destruct (has b 16); [|apply pay_ret]. apply (pay_bind 0 0); [apply pay_0, pay_string|intro; apply pay_panic]. }
  intro. apply (pay_bind 0 0); [apply pay_shrinks; repeat shrink_step|]. intro. apply (pay_bind 0 0); [|intro; apply pay_ret].
  destruct (has b 64); [|apply pay_ret]. intros s n y rest H. apply abind_ok in H as (n1 & x & mid & n2 & _ & H & _). discriminate H.
Qed.
Lemma payv_ext : payv 1 (a_ext E rec).
Proof.
  intros s n v rest H T. apply abind_ok in H as (n1 & i & mid & n2 & H1 & H2 & ->). apply pay_nodeid in H1.
  apply abind_ok in H2 as (m1 & b & mid2 & m2 & H2 & H3 & ->). injection H2 as <- H2. apply uint_ok in H2.
  assert (N : m2 <= K * (len mid2 - len rest)); [|nia]. clear H1 H2.
  destruct (b =? 0); [injection H3 as <- _ <-; lia|]. destruct (b =? 1).
  - destruct (v_type_of_id E _) as [tid|].
    + apply abind_ok in H3 as (k1 & l & mid3 & k2 & H3 & H4 & ->). injection H3 as <- H3. apply sint_ok in H3.
      apply abind_ok in H4 as (k3 & x & mid4 & k4 & H4 & H5 & ->). destruct x; try discriminate H5. injection H5 as <- <- <-.
      pose proof (R _ (F tid) _ _ _ _ H4 T) as P. unfold spare in P. destruct (solid _); nia.
    + apply abind_ok in H3 as (k1 & l & mid3 & k2 & H3 & H4 & ->). injection H4 as <- _ <-. apply pay_bytearray in H3. nia.
  - destruct (b =? 2); [|discriminate H3].
    apply abind_ok in H3 as (k1 & l & mid3 & k2 & H3 & H4 & ->). injection H4 as <- _ <-. apply pay_string in H3. nia.
Qed.
Lemma payv_zip f ts : Forall (fun t => payv (spare t) (f t)) ts -> forall s n l rest, azip f ts s = (n, Ok l rest) ->
  forallb tame l = true -> n + K * (if existsb solid ts then 1 else 0) <= K * (len s - len rest).
Proof.
  induction 1 as [|t ts P _ IH]; cbn [azip existsb]; intros s n l rest H T.
  - injection H as <- _ <-. lia.
  - apply abind_ok in H as (n1 & x & mid & n2 & H1 & H2 & ->). apply afmap_ok in H2 as (l' & H2 & ->).
    cbn [forallb] in T. apply andb_prop in T as (T1 & T2). specialize (P _ _ _ _ H1 T1). specialize (IH _ _ _ _ H2 T2).
    unfold spare in P. destruct (solid t), (existsb solid ts); cbn [orb]; nia.
Qed.
Lemma payv_dty t : fits K t = true -> payv (spare t) (a_dty E rec t).
Proof.
  induction t as [x| | | | | |l IH|l IH|t IH|] using ty_ind'; cbn [a_dty fits]; intro W.
  - apply pay_payv, pay_fmap, pay_bread.
  - apply pay_payv, pay_fmap, pay_bytearray.
  - apply payv_variant.
  - apply payv_dv.
  - apply payv_diag.
  - apply payv_ext.
  - intros s n v rest H T. apply afmap_ok in H as (vs & H & ->). eapply payv_zip; [|exact H|exact T].
    rewrite Forall_forall in *. rewrite forallb_forall in W. auto.
  - intros s n v rest H T. apply afmap_ok in H as (vs & H & ->). eapply payv_zip; [|exact H|exact T].
    rewrite Forall_forall in *. rewrite forallb_forall in W. auto.
  - apply andb_prop in W as (W1 & W2). specialize (IH W2). apply Z.leb_le in W1.
    intros s m v rest H T. apply abind_ok in H as (n1 & n & mid & n2 & H1 & H2 & ->). injection H1 as <- H1. apply sint_ok in H1.
    unfold spare. cbn [solid]. destruct (n <=? 0) eqn:N.
    + injection H2 as <- _ <-. nia.
    + apply Z.leb_gt in N. apply abind_ok in H2 as (m1 & u & mid2 & m2 & H2 & H3 & ->). injection H2 as <- _ <-.
      apply afmap_ok in H3 as (l & H3 & ->). pose proof (payv_n _ _ IH _ _ _ _ _ H3 T) as P.
      rewrite Z2Nat.id in P by lia. unfold spare in P. destruct (solid t); nia.
  - intros s n v rest H. discriminate H.
Qed.
End Values.

Lemma payv_dec E : (forall tid, fits K (TStruct (v_fields E tid)) = true) ->
  forall n t, fits K t = true -> payv (spare t) (a_dec E n t).
Proof.
  intros F n. induction n as [|n IH]; intros t W; cbn [a_dec]; [intros s m v rest H; discriminate H|].
  destruct (supported t); [|intros s m v rest H; discriminate H]. apply payv_dty; assumption.
Qed.
End Pay.

Lemma accepted_bound K E t s v rest : 88 <= K -> (forall tid, fits K (TStruct (v_fields E tid)) = true) -> fits K t = true ->
  decode E t s = Ok v rest -> tame v = true ->
  asked E t s <= K * (Z.of_nat (length s) - Z.of_nat (length rest)).
Proof.
  intros K1 F W D T. unfold asked. rewrite <- (same_decode E t s) in D. unfold a_decode in *.
  destruct (a_dec E (S (length s)) t s) as [n r] eqn:H. cbn [fst snd] in *. subst r.
  pose proof (payv_dec K K1 E F _ t W _ _ _ _ H T) as P. unfold spare, len in P. destruct (solid t); nia.
Qed.

Lemma table_fits : forallb (fun p => fits 384 (TStruct (snd p))) struct_table = true.
Proof. vm_compute. reflexivity. Qed.
Lemma type_fits tid : fits 384 (TStruct (fields_of_type tid)) = true.
Proof.
  unfold fields_of_type. destruct (nth_error struct_table (Z.to_nat tid)) as [[[n i] f]|] eqn:H; [|reflexivity].
  apply nth_error_In in H. exact (proj1 (forallb_forall _ _) table_fits _ H).
Qed.
Lemma name_fits name f : fields_of_name name = Some f -> fits 384 (TStruct f) = true.
Proof.
  unfold fields_of_name. destruct (find _ struct_table) as [[[n i] g]|] eqn:H; [|discriminate]. intro Q. injection Q as <-.
  apply find_some in H as (H & _). exact (proj1 (forallb_forall _ _) table_fits _ H).
Qed.
Lemma message_bound table uris s name l rest : receive table uris s = Ok (name, l) rest -> forallb tame l = true ->
  fst (a_receive table uris s) <= 384 * (Z.of_nat (length s) - Z.of_nat (length rest)).
Proof.
  intros D T. rewrite <- (same_receive table uris s) in D. destruct (a_receive table uris s) as [n r] eqn:H. cbn [fst snd] in *. subst r.
  apply abind_ok in H as (n1 & i & mid & n2 & H1 & H2 & ->). apply (pay_nodeid 384 ltac:(lia)) in H1.
  destruct (find _ table) as [[id nm]|]; [|discriminate H2]. destruct (fields_of_name nm) as [f|] eqn:F; [|discriminate H2].
  apply abind_ok in H2 as (m1 & v & mid2 & m2 & H2 & H3 & ->). destruct v as [| |vs| | | | | | | | | | | | |]; try discriminate H3. injection H3 as <- _ Q <-. subst vs.
  pose proof (payv_dec 384 ltac:(lia) (std_env uris) type_fits _ _ (name_fits _ _ F) _ _ _ _ H2 T) as P.
  unfold spare, len in *. destruct (solid _); lia.
Qed.

(* ------------------------------------------------------------------ *)
(** * What refused messages ask for *)

Lemma abind_err {A B} (r : areader A) (k : A -> areader B) s n rest : r s = (n, Err rest) -> abind r k s = (n, Err rest).
Proof. intro H. unfold abind. rewrite H. reflexivity. Qed.
Lemma abind_go {A B} (r : areader A) (k : A -> areader B) s n a rest : r s = (n, Ok a rest) ->
  abind r k s = let (m, y) := k a rest in (n + m, y).
Proof. intro H. unfold abind. rewrite H. reflexivity. Qed.
Lemma long_id_asks : a_nodeid long_id = (longest, Err []).
Proof. vm_compute. reflexivity. Qed.

Lemma unknown_asks table uris : a_receive table uris long_id = (longest, Err []).
Proof. unfold a_receive. apply abind_err, long_id_asks. Qed.

Lemma header_asks E l rest : supported (TStruct (TStruct (TB BNodeId :: l) :: rest)) = true ->
  a_decode E (TStruct (TStruct (TB BNodeId :: l) :: rest)) long_id = (longest, Err []).
Proof.
  intro S. unfold a_decode. cbn [a_dec]. rewrite S. cbn [a_dty azip]. unfold afmap.
  do 5 apply abind_err. apply long_id_asks.
Qed.

Definition leads (t : Z * string) : bool :=
  match fields_of_name (snd t) with
  | Some (TStruct (TB BNodeId :: l) :: rest) => supported (TStruct (TStruct (TB BNodeId :: l) :: rest))
  | _ => false
  end.
Definition request_check (p : Z * string) : bool :=
  match a_nodeid (write_nodeid (NNum 0 (fst p)) ++ long_id) with
  | (0, Ok n r) => bytes_eqb r long_id &&
      match find (fun q => nodeid_eqb n (NNum 0 (fst q))) server_reads with Some q => leads q | None => false end
  | _ => false
  end.
Lemma request_checks : forallb request_check server_reads = true.
Proof. vm_compute. reflexivity. Qed.
Lemma request_asks uris id name : In (id, name) server_reads ->
  a_receive server_reads uris (write_nodeid (NNum 0 id) ++ long_id) = (longest, Err []).
Proof.
  intro I. pose proof (proj1 (forallb_forall _ _) request_checks _ I) as C. unfold request_check in C. cbn [fst] in C.
  unfold a_receive. unfold abind at 1. destruct (a_nodeid _) as [z [n r|r| |]]; try (destruct z; discriminate).
  destruct z as [|z|z]; try discriminate. apply andb_prop in C as (C1 & C2). apply bytes_eqb_eq in C1. subst r.
  destruct (find _ server_reads) as [[i nm]|]; [|discriminate]. unfold leads in C2. cbn [snd] in C2.
  destruct (fields_of_name nm) as [f|]; [|discriminate].
  destruct f as [|[| | | | | |[|[b| | | | | | | | |] l]| | |] rest]; try discriminate.
  destruct b; try discriminate. rewrite (abind_err _ _ _ _ _ (header_asks (std_env uris) l rest C2)). reflexivity.
Qed.

(** nothing is asked for on the empty stream *)
Lemma empty_read E rec t : supported t = true ->
  (solid t = true -> a_dty E rec t [] = (0, Err [])) /\ (solid t = false -> exists v, a_dty E rec t [] = (0, Ok v [])).
Proof.
  assert (ZP : forall f (G : list val -> val) l, Forall (fun t => supported t = true ->
      (solid t = true -> f t [] = (0, Err [])) /\ (solid t = false -> exists v, f t [] = (0, Ok v []))) l ->
    forallb supported l = true ->
    (existsb solid l = true -> afmap G (azip f l) [] = (0, Err [])) /\
    (existsb solid l = false -> exists v, afmap G (azip f l) [] = (0, Ok v []))).
  { intros f G l H. revert G. induction H as [|u l P _ IH]; intros G S; cbn [forallb existsb azip] in *.
    - split; [discriminate|]. intros _. exists (G []). reflexivity.
    - apply andb_prop in S as (S1 & S2). destruct (P S1) as (P1 & P2). destruct (solid u); cbn [orb].
      + split; [|discriminate]. intros _. apply abind_err, abind_err. apply P1. reflexivity.
      + destruct (P2 eq_refl) as (v & V). destruct (IH (fun l => G (v :: l)) S2) as (Q1 & Q2).
        assert (Q : afmap G (do* x := f u in afmap (cons x) (azip f l)) [] = afmap (fun l => G (v :: l)) (azip f l) []).
        { unfold afmap, abind. rewrite V. destruct (azip f l []) as [n [a r|r| |]]; cbn; rewrite ?Z.add_0_r; reflexivity. }
        rewrite Q. split; assumption. }
  induction t as [x| | | | | |l IH|l IH|t IH|] using ty_ind'; cbn [supported solid a_dty]; intro S;
    try (apply ZP; assumption); (split; [intros _|discriminate]); try reflexivity; try discriminate.
  destruct x; reflexivity.
Qed.
Lemma slice_step E rec t : supported t = true -> solid t = true ->
  a_dty E rec (TSlice t) longest_bytes = (longest * go_size t, Err []).
Proof.
  intros S N. cbn [a_dty].
  rewrite (abind_go _ _ _ 0 longest []) by reflexivity. change (longest <=? 0) with false. cbv iota.
  rewrite (abind_go _ _ _ (longest * go_size t) tt []) by reflexivity.
  destruct (Z.to_nat longest) as [|n] eqn:L; [apply (f_equal Z.of_nat) in L; rewrite Z2Nat.id in L by (unfold longest; lia); discriminate|].
  cbn [aread_n]. unfold afmap at 1. rewrite (abind_err _ _ _ 0 []) by (apply abind_err, empty_read; assumption).
  cbv iota beta. f_equal. lia.
Qed.
Lemma slice_asks E t : supported t = true -> solid t = true ->
  a_decode E (TSlice t) longest_bytes = (longest * go_size t, Err []).
Proof. intros S N. unfold a_decode. cbn [a_dec]. cbn [supported]. rewrite S. apply slice_step; assumption. Qed.

Lemma discovery_asks uris : a_receive server_reads uris discovery = (longest * 16, Err []).
Proof.
  unfold a_receive.
  rewrite (abind_go _ _ _ 0 (NNum 0 428) (skipn 4 discovery)) by (vm_compute; reflexivity).
  replace (find _ server_reads) with (Some (428, "GetEndpointsRequest"%string)) by (vm_compute; reflexivity).
  replace (fields_of_name "GetEndpointsRequest") with (Some f_GetEndpointsRequest) by (vm_compute; reflexivity).
  rewrite (abind_err _ _ _ (longest * 16) []); [reflexivity|].
  unfold a_decode. cbn [a_dec]. replace (supported _) with true by (vm_compute; reflexivity).
  unfold f_GetEndpointsRequest. cbn [a_dty azip]. unfold afmap at 1. apply abind_err.
  match goal with |- abind ?r _ ?s = _ =>
    let v := eval vm_compute in (r s) in
    match v with (_, Ok ?a ?rest) => rewrite (abind_go r _ s 0 a rest) by (vm_compute; reflexivity) end end.
  match goal with |- (let (m, y) := ?x in _) = _ => enough (Q : x = (longest * 16, Err [])) by (rewrite Q; reflexivity) end.
  unfold afmap at 1. apply abind_err.
  match goal with |- abind ?r _ ?s = _ =>
    let v := eval vm_compute in (r s) in
    match v with (_, Ok ?a ?rest) => rewrite (abind_go r _ s 0 a rest) by (vm_compute; reflexivity) end end.
  match goal with |- (let (m, y) := ?x in _) = _ => enough (Q : x = (longest * 16, Err [])) by (rewrite Q; reflexivity) end.
  unfold afmap at 1. do 2 apply abind_err. exact (slice_step (std_env uris) (a_dec (std_env uris) (length (skipn 4 discovery))) (TB BString) eq_refl eq_refl).
Qed.

Lemma value_asks E : a_decode E TDV ([x01; x0c] ++ longest_bytes) = (longest, Ok (VDV VNil 2148597760 zero_time 0 zero_time 0) []).
Proof. vm_compute. reflexivity. Qed.

Lemma sint_four z rest : - 2 ^ 31 <= z < 2 ^ 31 -> read_sint 4 (four z ++ rest) = Ok z rest.
Proof. intro H. exact (codes_rt (codes_sint false 4 z (Nat.lt_0_succ 3) H) rest). Qed.

Lemma take_empty_rows n : take_rows n 0 [] = Some (repeat [] n, []).
Proof. induction n as [|n IH]; [reflexivity|]. cbn [take_rows repeat]. unfold take_row. cbn. rewrite IH. reflexivity. Qed.
Lemma take_empty_planes n d : 0 <= d -> take_planes n d 0 [] = Some (repeat (repeat [] (Z.to_nat d)) n, []).
Proof.
  intro D. induction n as [|n IH]; [reflexivity|]. cbn [take_planes repeat]. unfold take_mat2.
  destruct (Z.ltb_spec d 0); [lia|]. rewrite take_empty_rows, IH. reflexivity.
Qed.
Lemma planes_cost n d : 0 <= d -> planes_asked n d 0 [] = Z.of_nat n * (d * 24).
Proof.
  intro D. induction n as [|n IH]; [reflexivity|]. cbn [planes_asked]. unfold take_mat2, mat2_asked, slice_size.
  destruct (Z.ltb_spec d 0); [lia|]. rewrite take_empty_rows, IH. lia.
Qed.
Lemma dims_step (l : list Z) : Forall (fun z => - 2 ^ 31 <= z < 2 ^ 31) l -> forall rest,
  aread_n (length l) (alift (read_sint 4)) (concat (map four l) ++ rest) = (0, Ok l rest).
Proof.
  induction 1 as [|z l H _ IH]; intro rest; [reflexivity|]. cbn [length aread_n map concat]. rewrite <- app_assoc.
  rewrite (abind_go _ _ _ 0 z (concat (map four l) ++ rest)) by (unfold alift; rewrite sint_four by exact H; reflexivity).
  unfold afmap. rewrite (abind_go _ _ _ 0 l rest) by apply IH. reflexivity.
Qed.
Lemma rows_ask E n : 0 <= n < 2 ^ 31 ->
  a_decode E TVar ([xc1] ++ four 0 ++ four 2 ++ four n ++ four 0) =
    (8 + n * 24, Ok (VMat2 (KB BBool) (repeat [] (Z.to_nat n))) []).
Proof.
  intro N. unfold a_decode. cbn [a_dec supported a_dty]. unfold a_variant.
  rewrite (abind_go _ _ _ 0 193 (four 0 ++ four 2 ++ four n ++ four 0)) by reflexivity. cbv zeta.
  change (negb (has 193 128)) with false. change (negb (has 193 64)) with false. change (Z.land 193 63 =? 0) with false.
  change (kind_of_tag (Z.land 193 63)) with (Some (KB BBool)). cbv iota.
  rewrite (abind_go _ _ _ 0 (Some []) (four 2 ++ four n ++ four 0)) by reflexivity.
  rewrite (abind_go _ _ _ 8 (Some [n; 0]) []).
  - cbn [olist]. rewrite (abind_go _ _ _ (n * 24) tt []) by (unfold ask, mat2_asked, slice_size; destruct (Z.ltb_spec n 0); [lia|reflexivity]).
    unfold alift, take_mat2. destruct (Z.ltb_spec n 0); [lia|]. rewrite take_empty_rows. cbv iota beta. f_equal. lia.
  - unfold a_dims. rewrite (abind_go _ _ _ 0 2 (four n ++ four 0)) by reflexivity. change (2 <? 0) with false. cbv iota.
    rewrite (abind_go _ _ _ 8 tt (four n ++ four 0)) by reflexivity. change (Z.to_nat 2) with 2%nat.
    pose proof (dims_step [n; 0] ltac:(repeat constructor; lia) []) as D. cbn [map concat length] in D. rewrite !app_nil_r in D.
    unfold afmap. rewrite (abind_go _ _ _ _ _ _ D). reflexivity.
Qed.
Lemma planes_ask E n m : 0 <= n < 2 ^ 31 -> 0 <= m < 2 ^ 31 ->
  a_decode E TVar ([xc1] ++ four 0 ++ four 3 ++ four n ++ four m ++ four 0) =
    (12 + (n * 24 + n * (m * 24)), Ok (VMat3 (KB BBool) (repeat (repeat [] (Z.to_nat m)) (Z.to_nat n))) []).
Proof.
  intros N M. unfold a_decode. cbn [a_dec supported a_dty]. unfold a_variant.
  rewrite (abind_go _ _ _ 0 193 (four 0 ++ four 3 ++ four n ++ four m ++ four 0)) by reflexivity. cbv zeta.
  change (negb (has 193 128)) with false. change (negb (has 193 64)) with false. change (Z.land 193 63 =? 0) with false.
  change (kind_of_tag (Z.land 193 63)) with (Some (KB BBool)). cbv iota.
  rewrite (abind_go _ _ _ 0 (Some []) (four 3 ++ four n ++ four m ++ four 0)) by reflexivity.
  rewrite (abind_go _ _ _ 12 (Some [n; m; 0]) []).
  - cbn [olist]. rewrite (abind_go _ _ _ (n * 24 + n * (m * 24)) tt []).
    2: { unfold ask, mat3_asked, slice_size. destruct (Z.ltb_spec n 0); [lia|]. rewrite planes_cost, Z2Nat.id by lia. reflexivity. }
    unfold alift, take_mat3. destruct (Z.ltb_spec n 0); [lia|]. rewrite take_empty_planes by lia. cbv iota beta. f_equal. lia.
  - unfold a_dims. rewrite (abind_go _ _ _ 0 3 (four n ++ four m ++ four 0)) by reflexivity. change (3 <? 0) with false. cbv iota.
    rewrite (abind_go _ _ _ 12 tt (four n ++ four m ++ four 0)) by reflexivity. change (Z.to_nat 3) with 3%nat.
    pose proof (dims_step [n; m; 0] ltac:(repeat constructor; lia) []) as D. cbn [map concat length] in D. rewrite !app_nil_r in D.
    unfold afmap. rewrite (abind_go _ _ _ _ _ _ D). reflexivity.
Qed.

Lemma uint_four z rest : 0 <= z < 2 ^ 32 -> read_uint 4 (four z ++ rest) = Ok z rest.
Proof. intro H. exact (codes_rt (codes_uint false 4 z H) rest). Qed.
Lemma hello_asks recv send size chunks stale :
  0 <= recv < 2 ^ 32 -> 0 <= send < 2 ^ 32 -> 0 <= size < 2 ^ 32 -> 0 <= chunks < 2 ^ 32 -> Z.of_nat (length stale) < longest ->
  a_hello ([x48; x45; x4c; x46] ++ four 32 ++ four 0 ++ four recv ++ four send ++ four size ++ four chunks ++ longest_bytes ++ stale)
    = (longest, Err []).
Proof.
  intros A B C D S. unfold a_hello. rewrite (abind_go _ _ _ 0 (recv, send, size, chunks) (longest_bytes ++ stale)).
  - rewrite (abind_err _ _ _ longest []); [reflexivity|]. unfold a_string.
    rewrite (abind_go _ _ _ 0 longest stale) by (unfold alift; f_equal; apply (sint_four longest); unfold longest; lia).
    change (longest <? 0) with false. cbv iota. rewrite (abind_go _ _ _ longest tt stale) by reflexivity.
    unfold alift, read_full. destruct (Z.ltb_spec (Z.of_nat (length stale)) longest); [|lia]. reflexivity.
  - unfold alift. f_equal. change [x48; x45; x4c; x46] with (four t_hello). unfold bind.
    rewrite uint_four by (vm_compute; split; [discriminate|reflexivity]). cbv beta. change (negb (t_hello =? t_hello)) with false.
    cbv beta iota. rewrite uint_four by lia. cbv beta. change (32 <? 28) with false. cbv beta iota. rewrite uint_four by lia.
    cbv beta. change (0 <? 0) with false. cbv beta iota. repeat (rewrite uint_four by assumption; cbv beta iota). reflexivity.
Qed.

(** exact amounts for every announced length *)
Lemma slice_any E t n : supported t = true -> solid t = true -> 0 < n < 2 ^ 31 -> a_decode E (TSlice t) (four n) = (n * go_size t, Err []).
Proof.
  intros SP SL N. unfold a_decode. cbn [a_dec]. cbn [supported]. rewrite SP. cbn [a_dty].
  rewrite (abind_go _ _ _ 0 n []) by (unfold alift; rewrite <- (app_nil_r (four n)), sint_four by lia; reflexivity).
  destruct (Z.leb_spec n 0); [lia|]. rewrite (abind_go _ _ _ (n * go_size t) tt []) by reflexivity.
  destruct (Z.to_nat n) as [|m] eqn:L; [lia|].
  cbn [aread_n]. unfold afmap at 1. rewrite (abind_err _ _ _ 0 []) by (apply abind_err, empty_read; assumption).
  cbv iota beta. f_equal. lia.
Qed.
Lemma array_any E k tag n : kind_of_tag tag = Some k -> 0 < tag < 32 -> 0 < n < 2 ^ 31 ->
  a_decode E TVar (le_enc 1 (tag + 128) ++ four n) = (n * go_size (ty_of_kind k), Err []).
Proof.
  intros T G N. unfold a_decode. cbn [a_dec]. cbn [supported a_dty]. unfold a_variant.
  rewrite (abind_go _ _ _ 0 (tag + 128) (four n)) by (unfold alift; rewrite (codes_rt (codes_uint false 1 (tag + 128) ltac:(unfold in_u; cbn; lia))); reflexivity).
  assert (L : Z.land (tag + 128) 63 = tag /\ has (tag + 128) 128 = true /\ has (tag + 128) 64 = false /\ (tag =? 0) = false).
  { assert (Q : exists m, (m < 32)%nat /\ tag = Z.of_nat m) by (exists (Z.to_nat tag); lia). destruct Q as (m & M & ->).
    do 32 (destruct m as [|m]; [try (exfalso; lia); vm_compute; repeat split; reflexivity|]). lia. }
  destruct L as (L1 & L2 & L3 & L4). rewrite L1, L2, L3, L4, T. cbv iota beta zeta delta [negb].
  assert (A : a_array (a_dec E (length (le_enc 1 (tag + 128) ++ four n))) k (four n) = (n * go_size (ty_of_kind k), Err [])).
  2: { rewrite (abind_err _ _ _ _ _ A). f_equal. }
  unfold a_array. rewrite (abind_go _ _ _ 0 n []) by (unfold alift; rewrite <- (app_nil_r (four n)), sint_four by lia; reflexivity).
  destruct (Z.ltb_spec n 0); [lia|]. rewrite (abind_go _ _ _ (n * go_size (ty_of_kind k)) tt []) by reflexivity.
  destruct (Z.to_nat n) as [|m] eqn:L; [lia|]. unfold afmap at 1. cbn [aread_n].
  assert (X : a_elem (a_dec E (length (le_enc 1 (tag + 128) ++ four n))) k [] = (0, Err [])).
  { rewrite app_length, le_enc_length. unfold four. rewrite le_enc_length. cbn [Nat.add]. destruct k as [b| | | |]; cbn [a_elem ty_of_kind a_dec supported].
    - exact (proj1 (empty_read E (a_dec E 0) (TB b) eq_refl) eq_refl).
    - exact (proj1 (empty_read E (a_dec E 4) TExt eq_refl) eq_refl).
    - exact (proj1 (empty_read E (a_dec E 4) TDV eq_refl) eq_refl).
    - exact (proj1 (empty_read E (a_dec E 4) TVar eq_refl) eq_refl).
    - exact (proj1 (empty_read E (a_dec E 4) TDiag eq_refl) eq_refl). }
  rewrite (abind_err _ _ _ 0 []) by (apply abind_err, X). cbv iota beta. f_equal. lia.
Qed.
Lemma fst_afmap {A B} (f : A -> B) r s : fst (afmap f r s) = fst (r s).
Proof. unfold afmap, abind, aret, alift. destruct (r s) as [n [a x|x| |]]; cbn; lia. Qed.
Lemma text_any E t n rest : t = TB BString \/ t = TB BByteString \/ t = TB BXml \/ t = TBytes -> 0 <= n < 2 ^ 31 ->
  fst (a_decode E t (four n ++ rest)) = n.
Proof.
  intros T N. unfold a_decode. cbn [a_dec].
  assert (X : forall {B} (k : Z -> areader B), fst (abind (alift (read_sint 4)) k (four n ++ rest)) = fst (k n rest)).
  { intros B k. rewrite (abind_go _ _ _ 0 n rest) by (unfold alift; rewrite sint_four by lia; reflexivity). destruct (k n rest). reflexivity. }
  assert (Y : forall {B} (k : areader B) s, fst (k s) = 0 -> fst (abind (ask n) (fun _ => k) s) = n).
  { intros B k s H. unfold abind, ask. cbn. destruct (k s). cbn in *. lia. }
  destruct T as [->|[->|[->| ->]]]; cbn [supported a_dty a_bread]; rewrite fst_afmap; unfold a_string, a_bytestring, a_bytearray; rewrite X.
  - destruct (Z.ltb_spec n 0); [lia|]. apply Y. reflexivity.
  - destruct (Z.leb_spec n 0); [replace n with 0 by lia; reflexivity|]. apply Y. reflexivity.
  - destruct (Z.ltb_spec n 0); [lia|]. apply Y. reflexivity.
  - destruct (Z.ltb_spec n 0); [lia|]. apply Y. rewrite fst_afmap. reflexivity.
Qed.
