From Coq Require Import ZArith List Bool String Lia Strings.Byte.
From Coq Require Import ZifyBool ZifyNat ZifyN.
From Verif Require Import Bytes BytesProofs Text Keys Password PasswordSpec PasswordProofs Session SessionSpec SessionProofs
  ClientSession ClientSessionSpec.
Import ListNotations.
Open Scope Z_scope.
Ltac Zify.zify_post_hook ::= idtac.

Lemma bytes_eqb_refl' b : bytes_eqb b b = true. Proof. apply bytes_eqb_eq. reflexivity. Qed.
Lemma uri_standard p : uri_policy (standard_uri p) = Some p. Proof. destruct p; vm_compute; reflexivity. Qed.
Lemma effective_standard p : effective (standard_uri p) = p. Proof. unfold effective. rewrite uri_standard. reflexivity. Qed.
Lemma uri_known u p : uri_policy u = Some p -> u = standard_uri p.
Proof.
  unfold uri_policy. intros H.
  repeat match type of H with (if bytes_eqb ?a ?b then _ else _) = _ => destruct (bytes_eqb a b) eqn:?E end;
    inversion H; subst p; apply bytes_eqb_eq in E || apply bytes_eqb_eq in E0 || idtac;
    repeat match goal with E : bytes_eqb _ _ = true |- _ => apply bytes_eqb_eq in E end; subst u; vm_compute; reflexivity.
Qed.
Lemma scheme_standard p : scheme_of p = option_map fst (standard_signature p). Proof. destruct p; reflexivity. Qed.
Lemma standard_uri_ne p : standard_uri p <> []. Proof. destruct p; vm_compute; congruence. Qed.
Lemma token_policy_uri c t p : policy_of_token c t p -> effective (token_uri c t) = p.
Proof.
  unfold token_uri. intros [H | [H1 H2]].
  - rewrite H. destruct (standard_uri p) eqn:E; [now apply standard_uri_ne in E|]. rewrite <- E. apply effective_standard.
  - rewrite H1, H2. apply effective_standard.
Qed.
Lemma find_first {A} f (l : list A) x : find f l = Some x -> exists l1 l2, l = l1 ++ x :: l2 /\ f x = true /\ forall y, In y l1 -> f y = false.
Proof.
  induction l as [|a l IH]; cbn [find]; [discriminate|]. destruct (f a) eqn:E.
  - intros [= <-]. exists [], l. split; [reflexivity|]. split; [exact E|]. intros y [].
  - intros H. destruct (IH H) as (l1 & l2 & H1 & H2 & H3). exists (a :: l1), l2. split; [cbn; now f_equal|]. split; [exact H2|].
    intros y [<-|Hy]; auto.
Qed.
Lemma ttype_eqb_eq a b : ttype_eqb a b = true <-> a = b. Proof. destruct a, b; cbn; split; congruence. Qed.
Lemma first_offered ty c t : first_of ty (c_tokens c) = Some t -> offered c ty t.
Proof.
  intros H. apply find_first in H as (l1 & l2 & H1 & H2 & H3). exists l1, l2. split; [exact H1|]. split; [now apply ttype_eqb_eq|].
  intros u Hu E. apply H3 in Hu. apply ttype_eqb_eq in E. congruence.
Qed.

Section S.
  Variable cert_key : bytes -> certkey.
  Variable size : Z -> Z.
  Variable sign : Z -> scheme -> bytes -> option bytes.
  Variable verify : Z -> scheme -> bytes -> bytes -> bool.
  Variable enc : Z -> wrap -> nat -> bytes -> bytes.
  Let open := after_create cert_key size sign verify enc.

  (** What it takes to get as far as the ActivateSession request. *)
  Lemma sends_inv c cnonce r res a : open c cnonce r res = Sends a ->
    r_cert res = c_server_cert c /\ a_token a = r_token res /\
    exists key, remote_key cert_key (c_server_cert c) = Some key /\
    present size sign enc c key r (r_nonce res) = Token (a_user a) (a_alg a) (a_user_signature a) /\
    match scheme_of (effective (c_policy c)) with
    | None => a_signature a = no_signature
    | Some s => exists k g, key = Some k /\ verify k s (c_cert c ++ cnonce) (g_bytes (r_signature res)) = true /\
        sign (c_key c) s (c_server_cert c ++ r_nonce res) = Some g /\ a_signature a = mkSig (scheme_uri s) g
    end.
  Proof.
    unfold open, after_create. destruct (remote_key cert_key (c_server_cert c)) as [key|] eqn:Ek; [|discriminate].
    destruct (bytes_eqb (c_server_cert c) (r_cert res)) eqn:Ec; cbn [negb]; [|discriminate]. apply bytes_eqb_eq in Ec.
    destruct (scheme_of (effective (c_policy c))) as [s|].
    - destruct key as [k|]; [|discriminate].
      destruct (verify k s (c_cert c ++ cnonce) (g_bytes (r_signature res))) eqn:Ev; [|discriminate].
      destruct (sign (c_key c) s (c_server_cert c ++ r_nonce res)) as [g|] eqn:Es; [|discriminate].
      destruct (present size sign enc c (Some k) r (r_nonce res)) as [ut alg usig|o] eqn:Ep.
      + intros [= <-]. cbn. split; [congruence|]. split; [reflexivity|]. exists (Some k). split; [reflexivity|]. split; [exact Ep|]. eauto 10.
      + intros ->. exfalso. revert Ep. unfold present. clear. repeat (match goal with |- context [match ?x with _ => _ end] => destruct x end); congruence.
    - destruct (present size sign enc c key r (r_nonce res)) as [ut alg usig|o] eqn:Ep.
      + intros [= <-]. cbn. split; [congruence|]. split; [reflexivity|]. exists key. auto.
      + intros ->. exfalso. revert Ep. unfold present. clear. repeat (match goal with |- context [match ?x with _ => _ end] => destruct x end); congruence.
  Qed.

  Lemma server_proved c cnonce r res a : open c cnonce r res = Sends a ->
    r_cert res = c_server_cert c /\
    forall p s u, c_policy c = standard_uri p -> standard_signature p = Some (s, u) ->
      exists k, cert_key (c_server_cert c) = RSAKey k /\ verify k s (c_cert c ++ cnonce) (g_bytes (r_signature res)) = true.
  Proof.
    intros H. apply sends_inv in H as (H1 & _ & key & Hk & _ & Hs). split; [exact H1|]. intros p s u Hp Hsp.
    rewrite Hp, effective_standard, scheme_standard, Hsp in Hs. cbn in Hs. destruct Hs as (k & g & -> & Hv & _).
    exists k. split; [|exact Hv]. revert Hk. unfold remote_key. destruct (cert_key (c_server_cert c)); congruence.
  Qed.
  Lemma wrong_certificate c cnonce r res : cert_key (c_server_cert c) <> OtherKey -> r_cert res <> c_server_cert c ->
    open c cnonce r res = Fails 0x80120000.
  Proof.
    intros Hk Hn. unfold open, after_create, remote_key. destruct (bytes_eqb (c_server_cert c) (r_cert res)) eqn:E; [apply bytes_eqb_eq in E; congruence|].
    cbn [negb]. destruct (cert_key (c_server_cert c)); [reflexivity|congruence|reflexivity].
  Qed.
  Lemma wrong_signature c cnonce r res p s u k : c_policy c = standard_uri p -> standard_signature p = Some (s, u) ->
    cert_key (c_server_cert c) = RSAKey k -> r_cert res = c_server_cert c ->
    verify k s (c_cert c ++ cnonce) (g_bytes (r_signature res)) = false -> open c cnonce r res = Fails 0x80580000.
  Proof.
    intros Hp Hs Hk Hc Hv. unfold open, after_create, remote_key. rewrite Hk, Hc, bytes_eqb_refl'. cbn [negb].
    rewrite Hp, effective_standard, scheme_standard, Hs. cbn [option_map fst]. now rewrite Hv.
  Qed.

  Lemma own_signature c cnonce r res a p : open c cnonce r res = Sends a -> c_policy c = standard_uri p ->
    a_token a = r_token res /\
    match standard_signature p with
    | None => a_signature a = mkSig [] []
    | Some (s, uri) => exists g, sign (c_key c) s (c_server_cert c ++ r_nonce res) = Some g /\ a_signature a = mkSig uri g
    end.
  Proof.
    intros H Hp. apply sends_inv in H as (_ & Ht & key & _ & _ & Hs). split; [exact Ht|].
    rewrite Hp, effective_standard in Hs.
    destruct p; cbn in Hs |- *; try exact Hs; destruct Hs as (k & g & _ & _ & Hg & Hgs); exists g; auto.
  Qed.

  Lemma enc_loop_sealed (e : wrap -> nat -> bytes -> bytes) w n : forall k r s p, List.length p = n -> (0 < n)%nat -> (List.length s <= k)%nat ->
    exists parts pad, enc_loop e w k r p s = List.concat (map (fun x => e w (fst x) (snd x)) parts) /\
      (forall x, In x parts -> (r <= fst x)%nat /\ List.length (snd x) = n) /\ NoDup (map fst parts) /\ List.concat (map snd parts) = s ++ pad.
  Proof.
    induction k as [|k IH]; intros r s p Lp Hn Hk.
    - exists [], []. destruct s; cbn in Hk |- *; [|lia]. split; [reflexivity|]. split; [intros x []|]. split; [constructor|reflexivity].
    - destruct s as [|b s0].
      { exists [], []. cbn. split; [reflexivity|]. split; [intros x []|]. split; [constructor|reflexivity]. }
      remember (b :: s0) as s eqn:Es.
      assert (Es' : enc_loop e w (S k) r p s = e w r (fst (read_into p s)) ++ enc_loop e w k (S r) (fst (read_into p s)) (snd (read_into p s)))
        by (subst s; reflexivity).
      rewrite Es'. set (p1 := fst (read_into p s)) in *. set (s1 := snd (read_into p s)) in *.
      assert (L1 : List.length p1 = n) by (unfold p1; now rewrite read_into_length).
      assert (Ls : (List.length s1 <= k)%nat) by (unfold s1, read_into; cbn [snd]; rewrite skipn_length; subst s; cbn [List.length] in *; lia).
      destruct (IH (S r) s1 p1 L1 Hn Ls) as (parts & pad & E1 & E2 & E3 & E4).
      destruct (read_into_split p s) as (t & Sp & D). fold p1 s1 in Sp, D.
      exists ((r, p1) :: parts).
      assert (X : exists pad', p1 ++ List.concat (map snd parts) = s ++ pad').
      { rewrite E4, app_assoc, Sp. destruct D as [D | ->]; [|exists pad; now rewrite app_nil_r].
        exists (t ++ pad). now rewrite app_assoc. }
      destruct X as (pad' & X). exists pad'.
      cbn [map List.concat fst snd]. split; [now rewrite E1|]. split.
      + intros x [<-|Hx]; [cbn; auto|]. destruct (E2 x Hx). split; [lia|assumption].
      + split; [|exact X]. constructor; [|exact E3]. intros Hx. apply in_map_iff in Hx as (x & Ex & Hx). destruct (E2 x Hx). lia.
  Qed.

  Lemma protect_sealed key p r secret nonce alg d : p <> PNone -> protect size enc key p r secret nonce = Protected alg d ->
    exists k, key = Some k /\ alg = standard_wrap p /\ sealed (enc k) (size k) (standard_wrap p) secret nonce d.
  Proof.
    intros Hp. unfold protect.
    assert (E : forall (x y : protected), match p with PNone => x | _ => y end = y) by (intros; destruct p; congruence).
    rewrite E. clear E. destruct key as [k|]; [|discriminate].
    destruct (size k - overhead (wrap_of p) <? 0) eqn:E1; [discriminate|].
    destruct (size k - overhead (wrap_of p) =? 0) eqn:E2; [discriminate|].
    set (s := le_enc 4 (u32 (Z.of_nat (List.length secret + List.length nonce))) ++ secret ++ nonce).
    assert (Ec : client_password (enc k) p (size k) r secret nonce =
      (wrap_of p, enc_loop (enc k) (wrap_of p) (List.length s) r (repeat x00 (Z.to_nat (size k - overhead (wrap_of p)))) s))
      by (destruct p; try congruence; reflexivity).
    rewrite Ec. intros [= <- <-]. exists k. split; [reflexivity|].
    assert (Ew : wrap_of p = standard_wrap p) by (destruct p; reflexivity).
    split; [exact Ew|]. rewrite <- Ew.
    destruct (enc_loop_sealed (enc k) (wrap_of p) (Z.to_nat (size k - overhead (wrap_of p))) (List.length s) r s
      (repeat x00 (Z.to_nat (size k - overhead (wrap_of p)))) (repeat_length _ _) ltac:(lia) ltac:(lia)) as (parts & pad & P1 & P2 & P3 & P4).
    exists parts, pad. split; [exact P1|]. split; [exact P3|]. split.
    - intros x Hx. destruct (P2 x Hx) as [_ ->]. replace (rsa_room (wrap_of p)) with (overhead (wrap_of p)) by (destruct p; reflexivity). lia.
    - rewrite P4. unfold s. now rewrite <- !app_assoc.
  Qed.

  (** The token. *)
  Lemma token_sent c cnonce r res a : open c cnonce r res = Sends a ->
    exists t, offered c (type_of_user (c_user c)) t /\
      match c_user c with
      | Anyone => a_user a = UAnonymous (p_id t)
      | Holder cert k => a_user a = UX509 (p_id t) cert /\
          forall p, policy_of_token c t p ->
            match standard_signature p with
            | None => a_user_signature a = mkSig [] []
            | Some (s, uri) => exists g, sign k s (c_server_cert c ++ r_nonce res) = Some g /\ a_user_signature a = mkSig uri g
            end
      | Named name password => exists d, a_user a = UUserName (p_id t) name d (a_alg a) /\
          forall p, policy_of_token c t p -> p <> PNone ->
            exists k, cert_key (c_server_cert c) = RSAKey k /\ a_alg a = standard_wrap p /\
              sealed (enc k) (size k) (standard_wrap p) password (r_nonce res) d
      | Issued data => exists d, a_user a = UIssued (p_id t) d /\
          forall p, policy_of_token c t p -> p <> PNone ->
            exists k, cert_key (c_server_cert c) = RSAKey k /\ a_alg a = standard_wrap p /\
              sealed (enc k) (size k) (standard_wrap p) data (r_nonce res) d
      end.
  Proof.
    intros H. apply sends_inv in H as (_ & _ & key & Hk & Hp & _).
    assert (K : forall k, key = Some k -> cert_key (c_server_cert c) = RSAKey k).
    { intros k ->. revert Hk. unfold remote_key. destruct (cert_key (c_server_cert c)); congruence. }
    revert Hp. unfold present. destruct (c_user c) as [|name password|cert k|data]; cbn [type_of_user].
    - destruct (first_of TAnonymous (c_tokens c)) as [t|] eqn:Et; [|discriminate]. intros [= H1 H2 H3]. exists t. split; [now apply first_offered|]. now symmetry.
    - destruct (first_of TUserName (c_tokens c)) as [t|] eqn:Et; [|discriminate].
      destruct (protect size enc key (effective (token_uri c t)) r password (r_nonce res)) as [alg d| | |] eqn:Epr; try discriminate.
      intros [= H1 H2 H3]. exists t. split; [now apply first_offered|]. exists d. split; [congruence|].
      intros p Hp Hn. rewrite (token_policy_uri _ _ _ Hp) in Epr. destruct (protect_sealed _ _ _ _ _ _ _ Hn Epr) as (k & E1 & E2 & E3).
      exists k. split; [auto|]. split; [congruence|exact E3].
    - destruct (first_of TCertificate (c_tokens c)) as [t|] eqn:Et; [|discriminate].
      destruct (scheme_of (effective (token_uri c t))) as [s|] eqn:Es.
      + destruct (sign k s (c_server_cert c ++ r_nonce res)) as [g|] eqn:Eg; [|discriminate]. intros [= H1 H2 H3].
        exists t. split; [now apply first_offered|]. split; [congruence|]. intros p Hp. rewrite (token_policy_uri _ _ _ Hp) in Es.
        destruct p; inversion Es; subst s; exists g; auto.
      + intros [= H1 H2 H3]. exists t. split; [now apply first_offered|]. split; [congruence|]. intros p Hp. rewrite (token_policy_uri _ _ _ Hp) in Es.
        destruct p; inversion Es. cbn. now symmetry.
    - destruct (first_of TIssued (c_tokens c)) as [t|] eqn:Et; [|discriminate].
      destruct (protect size enc key (effective (token_uri c t)) r data (r_nonce res)) as [alg d| | |] eqn:Epr; try discriminate.
      intros [= H1 H2 H3]. exists t. split; [now apply first_offered|]. exists d. split; [congruence|].
      intros p Hp Hn. rewrite (token_policy_uri _ _ _ Hp) in Epr. destruct (protect_sealed _ _ _ _ _ _ _ Hn Epr) as (k & E1 & E2 & E3).
      exists k. split; [auto|]. split; [congruence|exact E3].
  Qed.

  (** * Where the client is too trusting *)
  Lemma unknown_policy_plain c cnonce r res a t name password : open c cnonce r res = Sends a ->
    c_user c = Named name password -> offered c TUserName t -> p_uri t <> [] -> (forall p, p_uri t <> standard_uri p) ->
    a_user a = UUserName (p_id t) name password WNone.
  Proof.
    intros H Hu (l1 & l2 & Ht & Hty & Hb) Hne Hun. apply sends_inv in H as (_ & _ & key & Hk & Hp & _).
    revert Hp. unfold present. rewrite Hu.
    assert (Ef : first_of TUserName (c_tokens c) = Some t).
    { unfold first_of. rewrite Ht. clear -Hb Hty. induction l1 as [|x l1 IH]; cbn.
      - rewrite Hty. reflexivity.
      - destruct (ttype_eqb (p_type x) TUserName) eqn:E; [apply ttype_eqb_eq in E; exfalso; exact (Hb x (or_introl eq_refl) E)|].
        apply IH. intros u Hu. apply Hb. now right. }
    rewrite Ef.
    assert (Ee : effective (token_uri c t) = PNone).
    { unfold token_uri. destruct (p_uri t) eqn:E; [congruence|]. rewrite <- E in *. unfold effective.
      destruct (uri_policy (p_uri t)) as [p|] eqn:Eu; [|reflexivity]. apply uri_known in Eu. now apply Hun in Eu. }
    rewrite Ee. cbn. intros [= H1 H2 H3]. congruence.
  Qed.
  Lemma endpoints_ignored c cnonce r res eps :
    open c cnonce r (mkCreated (r_token res) (r_nonce res) (r_cert res) (r_signature res) eps) = open c cnonce r res.
  Proof. reflexivity. Qed.
  Lemma any_nonce c cnonce r nonce p k t tok gb alg eps : c_policy c = standard_uri p -> cert_key (c_server_cert c) = RSAKey k ->
    (forall k s m, exists g, sign k s m = Some g) -> c_user c = Anyone -> offered c TAnonymous t ->
    (forall s u, standard_signature p = Some (s, u) -> verify k s (c_cert c ++ cnonce) gb = true) ->
    exists a, open c cnonce r (mkCreated tok nonce (c_server_cert c) (mkSig alg gb) eps) = Sends a.
  Proof.
    intros Hp Hk Hs Hu Ht Hv. unfold open, after_create, remote_key. rewrite Hk. cbn [r_cert r_signature r_nonce g_bytes r_token]. rewrite bytes_eqb_refl'. cbn [negb].
    rewrite Hp, effective_standard.
    assert (Ep : exists ut alg usig, present size sign enc c (Some k) r nonce = Token ut alg usig).
    { unfold present. rewrite Hu. destruct Ht as (l1 & l2 & Ht & Hty & _).
      destruct (first_of TAnonymous (c_tokens c)) as [t'|] eqn:E; [eauto|]. exfalso.
      unfold first_of in E. pose proof (find_none _ _ E t) as F. rewrite Ht in F. cbn in F.
      assert (In t (l1 ++ t :: l2)) by (apply in_or_app; right; left; reflexivity). apply F in H. rewrite Hty in H. discriminate. }
    destruct Ep as (ut & al & us & Ep). rewrite Ep. rewrite scheme_standard.
    destruct (standard_signature p) as [[s u]|] eqn:Esp; cbn [option_map fst]; [|eauto].
    rewrite (Hv s u eq_refl). destruct (Hs (c_key c) s (c_server_cert c ++ nonce)) as (g & ->). eauto.
  Qed.
  Lemma other_key_panics c cnonce r res : cert_key (c_server_cert c) = OtherKey -> open c cnonce r res = Panics.
  Proof. intros H. unfold open, after_create, remote_key. now rewrite H. Qed.
End S.

Lemma tables_panic s1 v1 s : is_good s = true -> read_tables [(s, None); (s1, v1)] = TablesPanic.
Proof. intros H. unfold read_tables. now rewrite H. Qed.
Lemma tables_read s0 v0 s1 v1 a b : read_tables [(s0, v0); (s1, v1)] = Tables a b <->
  a = (if Z.land s0 0xC0000000 =? 0 then v0 else None) /\ b = (if Z.land s1 0xC0000000 =? 0 then v1 else None) /\
  ~ (Z.land s0 0xC0000000 = 0 /\ v0 = None) /\ ~ (Z.land s1 0xC0000000 = 0 /\ v1 = None).
Proof.
  unfold read_tables, is_good. destruct (Z.land s0 _ =? 0) eqn:E0, v0 as [v0|], (Z.land s1 _ =? 0) eqn:E1, v1 as [v1|];
    (split; [try discriminate; intros [= <- <-]; repeat split; try discriminate; intros [H1 H2]; (lia || discriminate)
            |intros (-> & -> & H0 & H1); try reflexivity; exfalso; (apply H0; split; [lia|reflexivity]) || (apply H1; split; [lia|reflexivity])]).
Qed.
