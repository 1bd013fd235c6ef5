From Coq Require Import ZArith List Bool Lia Strings.Byte.
From Coq Require Import ZifyBool ZifyNat ZifyN.
From Verif Require Import Bytes CodecSpec BytesProofs Prim PrimSpec.
Import ListNotations.
Open Scope Z_scope.
Ltac Zify.zify_post_hook ::= Z.div_mod_to_equations.

Global Opaque le_enc.

Lemma codes_fmap' {A B} s (r : reader A) (f : A -> B) e a b :
  codes s r e a -> f a = b -> codes s (fmap f r) e b.
Proof. intros H <-. apply codes_fmap; exact H. Qed.

Lemma codes_bool s b : codes s read_bool (write_bool b) b.
Proof.
  eapply codes_fmap'; [apply codes_read_full; reflexivity|]. destruct b; reflexivity.
Qed.

Lemma codes_uint s k z : in_u (Z.of_nat k) z -> codes s (read_uint k) (write_int k z) z.
Proof.
  intros H. eapply codes_fmap'.
  - apply codes_read_full. unfold write_int. now rewrite le_enc_length.
  - unfold write_int. rewrite le_dec_enc, <- pow8. apply Z.mod_small. exact H.
Qed.

Lemma codes_sint s k z : (0 < k)%nat -> in_s (Z.of_nat k) z -> codes s (read_sint k) (write_int k z) z.
Proof.
  intros Hk H. eapply codes_fmap'.
  - apply codes_read_full. unfold write_int. now rewrite le_enc_length.
  - unfold write_int. cbn beta. rewrite le_dec_enc. apply to_signed_mod; assumption.
Qed.

Lemma codes_u8 s z : 0 <= z < 256 -> codes s (read_uint 1) (write_int 1 z) z.
Proof. intros H. apply codes_uint. exact H. Qed.
Lemma codes_u16 s z : in_u 2 z -> codes s (read_uint 2) (write_int 2 z) z.
Proof. intros H. apply codes_uint. exact H. Qed.
Lemma codes_u32 s z : in_u 4 z -> codes s (read_uint 4) (write_int 4 z) z.
Proof. intros H. apply codes_uint. exact H. Qed.
Lemma codes_i32 s z : in_s 4 z -> codes s (read_sint 4) (write_int 4 z) z.
Proof. intros H. apply codes_sint; [lia|exact H]. Qed.

Lemma in_s4 z : - 2 ^ 31 <= z < 2 ^ 31 -> in_s 4 z.
Proof. intros H; exact H. Qed.

Lemma codes_len s {A} (l : list A) : len_ok l ->
  codes s (read_sint 4) (write_int 4 (Z.of_nat (length l))) (Z.of_nat (length l)).
Proof. intros H. apply codes_i32, in_s4. unfold len_ok in H. lia. Qed.

Lemma codes_m1 s : codes s (read_sint 4) (write_int 4 (-1)) (-1).
Proof. apply codes_i32, in_s4. lia. Qed.

Lemma codes_string s v : len_ok v -> codes s read_string (write_string v) v.
Proof.
  intros H. unfold read_string, write_string. destruct v as [|x v].
  - eapply codes_bind_last; [apply codes_m1|]. apply codes_ret.
  - eapply codes_bind; [apply codes_len; exact H|]. cbn beta.
    destruct (Z.ltb_spec (Z.of_nat (length (x :: v))) 0); [lia|].
    apply codes_read_full. reflexivity.
Qed.

Lemma codes_bytestring s v : len_ok v -> codes s read_bytestring (write_bytestring v) v.
Proof.
  intros H. unfold read_bytestring, write_bytestring, write_string. destruct v as [|x v].
  - eapply codes_bind_last; [apply codes_m1|]. apply codes_ret.
  - eapply codes_bind; [apply codes_len; exact H|]. cbn beta.
    destruct (Z.leb_spec (Z.of_nat (length (x :: v))) 0); [cbn [length] in *; lia|].
    apply codes_read_full. reflexivity.
Qed.

Lemma codes_bytearray s o : (forall v, o = Some v -> len_ok v) ->
  codes s read_bytearray (write_bytearray o) o.
Proof.
  intros H. unfold read_bytearray, write_bytearray. destruct o as [v|].
  - eapply codes_bind; [apply codes_len; apply H; reflexivity|]. cbn beta.
    destruct (Z.ltb_spec (Z.of_nat (length v)) 0); [lia|].
    apply codes_fmap. apply codes_read_full. reflexivity.
  - eapply codes_bind_last; [apply codes_m1|]. apply codes_ret.
Qed.

(** * DateTime *)
Lemma wrap64_small z : - 2 ^ 63 <= z < 2 ^ 63 -> wrap64 z = z.
Proof. intros H. unfold wrap64. rewrite Z.mod_small by lia. lia. Qed.

Lemma wrap64_range z : - 2 ^ 63 <= wrap64 z < 2 ^ 63.
Proof. unfold wrap64. pose proof (Z.mod_pos_bound (z + 2 ^ 63) (2 ^ 64) ltac:(lia)). lia. Qed.

Lemma ticks_of_range t : in_s 8 (ticks_of t).
Proof.
  unfold ticks_of, in_s. cbv zeta.
  match goal with |- context [wrap64 ?a <? 0] => pose proof (wrap64_range a) as R; set (x := wrap64 a) in * end.
  clearbody x. unfold max_ticks, max_int64.
  change (2 ^ (8 * 8 - 1)) with 9223372036854775808.
  change (2 ^ 63) with 9223372036854775808 in R.
  destruct (x <? 0) eqn:C1; [change (2650467743990000000 <=? 0) with false; lia|].
  destruct (2650467743990000000 <=? x) eqn:C2; lia.
Qed.

Lemma time_of_ticks_of t : wf_time t -> time_in_int64_ticks t ->
  time_of_ticks (ticks_of t) = norm_time t.
Proof.
  intros [_ Hn] Ht. unfold time_in_int64_ticks in Ht.
  unfold ticks_of. rewrite (wrap64_small (t_sec t + epoch_1601)) by (unfold epoch_1601; lia).
  rewrite (wrap64_small (_ * 10000000)) by (unfold epoch_1601; lia).
  rewrite wrap64_small by (unfold epoch_1601; lia).
  unfold time_of_ticks, norm_time, epoch_1601, sec_1601, sec_9999, max_ticks, max_int64.
  destruct t as [sec ns]; cbn [t_sec t_nsec] in *.
  destruct (Z.ltb_spec sec (-11644473600)).
  - destruct (Z.ltb_spec ((sec + 11644473600) * 10000000 + ns / 100) 0); [|lia].
    reflexivity.
  - destruct (Z.ltb_spec ((sec + 11644473600) * 10000000 + ns / 100) 0); [lia|].
    destruct (Z.leb_spec 253402300799 sec).
    + destruct (Z.leb_spec 2650467743990000000 ((sec + 11644473600) * 10000000 + ns / 100)); [|lia].
      reflexivity.
    + destruct (Z.leb_spec 2650467743990000000 ((sec + 11644473600) * 10000000 + ns / 100)); [lia|].
      set (x := (sec + 11644473600) * 10000000 + ns / 100) in *.
      destruct (Z.ltb_spec x 0); [lia|].
      destruct (Z.eqb_spec x 9223372036854775807); [lia|].
      f_equal; subst x.
      * rewrite Z.add_comm, Z_div_plus_full by lia. rewrite (Z.div_small (ns / 100)) by lia. lia.
      * rewrite Z.add_comm, Z_mod_plus_full. rewrite Z.mod_small by lia. reflexivity.
Qed.

Lemma codes_time s t : wf_time t -> time_in_int64_ticks t -> codes s read_time (write_time t) (norm_time t).
Proof.
  intros H1 H2. rewrite <- (time_of_ticks_of t H1 H2).
  apply codes_fmap. unfold write_time. apply codes_sint; [lia|]. apply ticks_of_range.
Qed.

(** * Guid *)
Lemma codes_guid s g : codes s read_guid (write_guid g) g.
Proof.
  destruct g as [b0 b1 b2 b3 b4 b5 b6 b7 b8 b9 b10 b11 b12 b13 b14 b15].
  unfold read_guid, write_guid.
  change [b3; b2; b1; b0; b5; b4; b7; b6; b8; b9; b10; b11; b12; b13; b14; b15]
    with ([b3; b2; b1; b0; b5; b4; b7; b6] ++ [b8; b9; b10; b11; b12; b13; b14; b15]).
  eapply codes_bind; [apply codes_read_full; reflexivity|]. cbn beta.
  eapply codes_bind_last; [apply codes_read_full; reflexivity|]. apply codes_ret.
Qed.

Lemma guid_eqb_eq a b : guid_eqb a b = true <-> a = b.
Proof.
  unfold guid_eqb. rewrite bytes_eqb_eq. split; [|intros ->; reflexivity].
  destruct a, b. cbn. intros H. injection H as -> -> -> -> -> -> -> -> -> -> -> -> -> -> -> ->. reflexivity.
Qed.

(** * NodeID *)
Ltac dcomp := match goal with
  | |- context [?a =? ?b] => destruct (Z.eqb_spec a b)
  | |- context [?a <=? ?b] => destruct (Z.leb_spec a b)
  | |- context [?a <? ?b] => destruct (Z.ltb_spec a b) end.

Lemma norm_nodeid_num ns id : norm_nodeid (NNum ns id) = if (ns =? 0) && (id =? 0) then NNull else NNum ns id.
Proof. destruct ns; destruct id; reflexivity. Qed.
Lemma norm_nodeid_str ns id : norm_nodeid (NStr ns id) = if (ns =? 0) && is_empty id then NNull else NStr ns id.
Proof. destruct ns; destruct id; reflexivity. Qed.
Lemma norm_nodeid_opq ns id : norm_nodeid (NOpq ns id) = if (ns =? 0) && is_empty id then NNull else NOpq ns id.
Proof. destruct ns; destruct id; reflexivity. Qed.
Lemma norm_nodeid_guid ns id : norm_nodeid (NGuid ns id) = if (ns =? 0) && guid_eqb id nil_guid then NNull else NGuid ns id.
Proof. destruct ns; reflexivity. Qed.

Lemma codes_nodeid s n : wf_nodeid n -> codes s read_nodeid (write_nodeid n) (norm_nodeid n).
Proof.
  intros H. unfold read_nodeid, write_nodeid. destruct n as [|ns id|ns id|ns id|ns id].
  - change (write_int 2 0) with (write_int 1 0 ++ write_int 1 0).
    eapply codes_bind; [apply codes_u8; lia|]. cbn [Z.eqb].
    eapply codes_bind_last; [apply codes_u8; lia|]. cbn. apply codes_ret.
  - destruct H as [Hns Hid]. rewrite norm_nodeid_num. unfold in_u in *. cbn in Hns, Hid.
    destruct ((id <=? 255) && (ns =? 0)) eqn:C1.
    + eapply codes_bind; [apply codes_u8; lia|]. cbn [Z.eqb].
      eapply codes_bind_last; [apply codes_u8; lia|]. cbn beta.
      assert (ns = 0) as -> by lia. cbn [Z.eqb andb]. destruct (id =? 0); apply codes_ret.
    + destruct ((id <=? 65535) && (ns <=? 255)) eqn:C2.
      * eapply codes_bind; [apply codes_u8; lia|]. cbn [Z.eqb Pos.eqb].
        eapply codes_bind; [apply codes_u8; lia|]. cbn beta.
        eapply codes_bind_last; [apply codes_u16; unfold in_u; cbn; lia|].
        destruct ((ns =? 0) && (id =? 0)) eqn:C3; [lia|]. apply codes_ret.
      * eapply codes_bind; [apply codes_u8; lia|]. cbn [Z.eqb Pos.eqb].
        eapply codes_bind; [apply codes_u16; unfold in_u; cbn; lia|]. cbn beta.
        eapply codes_bind_last; [apply codes_u32; unfold in_u; cbn; lia|].
        destruct ((ns =? 0) && (id =? 0)) eqn:C3; [lia|]. apply codes_ret.
  - destruct H as [Hns Hid]. rewrite norm_nodeid_str.
    eapply codes_bind; [apply codes_u8; lia|]. cbn [Z.eqb Pos.eqb].
    eapply codes_bind; [apply codes_u16; exact Hns|]. cbn beta.
    eapply codes_bind_last; [apply codes_string; exact Hid|].
    destruct ((ns =? 0) && is_empty id); apply codes_ret.
  - rename H into Hns. rewrite norm_nodeid_guid.
    eapply codes_bind; [apply codes_u8; lia|]. cbn [Z.eqb Pos.eqb].
    eapply codes_bind; [apply codes_u16; exact Hns|]. cbn beta.
    eapply codes_bind_last; [apply codes_guid|].
    destruct ((ns =? 0) && guid_eqb id nil_guid); apply codes_ret.
  - destruct H as [Hns Hid]. rewrite norm_nodeid_opq.
    eapply codes_bind; [apply codes_u8; lia|]. cbn [Z.eqb Pos.eqb].
    eapply codes_bind; [apply codes_u16; exact Hns|]. cbn beta.
    eapply codes_bind_last; [apply codes_bytestring; exact Hid|].
    destruct ((ns =? 0) && is_empty id); apply codes_ret.
Qed.

(** Shortest numeric form: 2, 4 or 7 bytes. *)
Lemma write_nodeid_num_length ns id : in_u 2 ns -> in_u 4 id ->
  length (write_nodeid (NNum ns id)) =
  if (ns =? 0) && (id <=? 255) then 2%nat
  else if (ns <=? 255) && (id <=? 65535) then 4%nat else 7%nat.
Proof.
  intros _ _. unfold write_nodeid, write_int.
  rewrite (andb_comm (ns =? 0)), (andb_comm (ns <=? 255)).
  destruct ((id <=? 255) && (ns =? 0)); [rewrite !app_length, !le_enc_length; reflexivity|].
  destruct ((id <=? 65535) && (ns <=? 255)); rewrite !app_length, !le_enc_length; reflexivity.
Qed.

(** * ExpandedNodeID *)
Lemma exp_node_part s k b : 0 <= k < 6 -> b = 0 \/ b = 64 \/ b = 128 \/ b = 192 ->
  codes s (read_uint 1) (write_int 1 (Z.lor k b)) (Z.lor k b) /\ Z.land (Z.lor k b) 15 = k /\
  Z.land (Z.lor k b) 128 = Z.land b 128 /\ Z.land (Z.lor k b) 64 = Z.land b 64.
Proof.
  intros Hk Hb.
  assert (K : k = 0 \/ k = 1 \/ k = 2 \/ k = 3 \/ k = 4 \/ k = 5) by lia.
  split; [apply codes_u8|];
  destruct K as [->|[->|[->|[->|[->| ->]]]]]; destruct Hb as [->|[->|[->| ->]]]; cbn; try lia; repeat split; reflexivity.
Qed.

Lemma null_num_num ns id : null_num (NNum ns id) = if (ns =? 0) && (id =? 0) then NNull else NNum ns id.
Proof. destruct ns; destruct id; reflexivity. Qed.

Lemma codes_expnodeid s e : wf_exp e ->
  (e_node e = NNull -> e_uri e = [] /\ e_server e = 0) ->
  codes s read_expnodeid (write_expnodeid e) (norm_exp e).
Proof.
  destruct e as [svr uri node]. intros (Hsvr & Huri & Hnode) Hnull.
  cbn [e_server e_uri e_node] in *.
  unfold read_expnodeid, write_expnodeid, norm_exp, exp_flags. cbn [e_server e_uri e_node].
  set (b := Z.lor (if 0 <? svr then 64 else 0) (if is_empty uri then 0 else 128)).
  assert (Hb : b = 0 \/ b = 64 \/ b = 128 \/ b = 192).
  { subst b. destruct (0 <? svr); destruct (is_empty uri); cbn; lia. }
  assert (Hbu : negb (Z.land b 128 =? 0) = negb (is_empty uri)).
  { subst b. destruct (0 <? svr); destruct (is_empty uri); reflexivity. }
  assert (Hbs : negb (Z.land b 64 =? 0) = (0 <? svr)).
  { subst b. destruct (0 <? svr); destruct (is_empty uri); reflexivity. }
  rewrite Hbu, Hbs.
  set (n' := match uri with [] => node | _ :: _ => set_ns0 node end).
  assert (Tail : forall m, codes s
     (let* uri0 := if negb (is_empty uri) then read_string else ret [] in
      let* svr0 := if 0 <? svr then read_uint 4 else ret 0 in ret (mkExp svr0 uri0 m))
     ((if negb (is_empty uri) then write_string uri else []) ++ (if 0 <? svr then write_int 4 svr else []))
     (mkExp svr uri m)).
  { intros m. eapply codes_bind with (a := uri).
    - destruct uri as [|c uri]; cbn [is_empty negb]; [apply codes_ret|]. apply codes_string; exact Huri.
    - eapply codes_bind_last with (a := svr); [|apply codes_ret].
      destruct (Z.ltb_spec 0 svr) as [C|C]; [apply codes_u32; exact Hsvr|].
      assert (svr = 0) as -> by (unfold in_u in Hsvr; lia). apply codes_ret. }
  (* the NodeID part, for a writer that emitted tag [k] and payload [pl] *)
  assert (Head : forall k pl (rd : reader nodeid) m, 0 <= k < 6 ->
     codes s rd pl m ->
     (forall kk, kk = k -> forall x, rd x =
       (if kk =? 0 then let* id := read_uint 1 in if id =? 0 then ret NNull else ret (NNum 0 id)
        else if kk =? 1 then let* ns := read_uint 1 in let* id := read_uint 2 in ret (NNum ns id)
        else if kk =? 2 then let* ns := read_uint 2 in let* id := read_uint 4 in ret (NNum ns id)
        else if kk =? 3 then let* ns := read_uint 2 in let* id := read_string in ret (NStr ns id)
        else if kk =? 4 then let* ns := read_uint 2 in let* id := read_guid in ret (NGuid ns id)
        else if kk =? 5 then let* ns := read_uint 2 in let* id := read_bytestring in ret (NOpq ns id)
        else fail) x) ->
     codes s read_expnodeid ((write_int 1 (Z.lor k b) ++ pl) ++
        (if negb (is_empty uri) then write_string uri else []) ++ (if 0 <? svr then write_int 4 svr else []))
        (mkExp svr uri m)).
  { intros k pl rd m Hk Hrd Hext. unfold read_expnodeid.
    destruct (exp_node_part s k b Hk Hb) as (P1 & P2 & P3 & P4).
    rewrite <- app_assoc. eapply codes_bind; [exact P1|]. cbv beta zeta.
    rewrite P2, P3, P4, Hbu, Hbs.
    eapply codes_bind; [|apply Tail].
    eapply codes_ext; [|exact Hrd]. intros x. apply (Hext k eq_refl). }
  destruct node as [|ns id|ns id|ns id|ns id].
  - destruct (Hnull eq_refl) as [-> ->]. subst n'.
    change (write_int 2 0) with (write_int 1 (Z.lor 0 b) ++ write_int 1 0).
    eapply (Head 0 _ (let* i := read_uint 1 in if i =? 0 then ret NNull else ret (NNum 0 i))); [lia| |].
    + eapply codes_bind_last; [apply codes_u8; lia|]. apply codes_ret.
    + intros kk -> x. reflexivity.
  - destruct Hnode as [Hns Hid].
    set (ns' := if negb (is_empty uri) then 0 else ns).
    assert (Hn' : n' = NNum ns' id) by (subst n' ns'; destruct uri; reflexivity).
    assert (Hns' : in_u 2 ns') by (subst ns'; destruct (negb (is_empty uri)); [unfold in_u; cbn; lia|exact Hns]).
    rewrite Hn', null_num_num. unfold in_u in *. cbn in Hns', Hid.
    destruct ((id <=? 255) && (ns' =? 0)) eqn:C1.
    + eapply (Head 0 _ (let* i := read_uint 1 in if i =? 0 then ret NNull else ret (NNum 0 i))); [lia| |].
      * eapply codes_bind_last; [apply codes_u8; lia|]. cbn beta.
        assert (ns' = 0) as -> by lia. cbn [Z.eqb andb]. destruct (id =? 0); apply codes_ret.
      * intros kk -> x. reflexivity.
    + assert (C3 : (ns' =? 0) && (id =? 0) = false) by lia. rewrite C3.
      destruct ((id <=? 65535) && (ns' <=? 255)) eqn:C2.
      * eapply (Head 1 _ (let* n := read_uint 1 in let* i := read_uint 2 in ret (NNum n i))); [lia| |].
        -- eapply codes_bind; [apply codes_u8; lia|]. cbn beta.
           eapply codes_bind_last; [apply codes_u16; unfold in_u; cbn; lia|]. apply codes_ret.
        -- intros kk -> x. reflexivity.
      * eapply (Head 2 _ (let* n := read_uint 2 in let* i := read_uint 4 in ret (NNum n i))); [lia| |].
        -- eapply codes_bind; [apply codes_u16; unfold in_u; cbn; lia|]. cbn beta.
           eapply codes_bind_last; [apply codes_u32; unfold in_u; cbn; lia|]. apply codes_ret.
        -- intros kk -> x. reflexivity.
  - destruct Hnode as [Hns Hid].
    set (ns' := if negb (is_empty uri) then 0 else ns).
    assert (Hn' : null_num n' = NStr ns' id) by (subst n' ns'; destruct uri; reflexivity).
    assert (Hns' : in_u 2 ns') by (subst ns'; destruct (negb (is_empty uri)); [unfold in_u; cbn; lia|exact Hns]).
    rewrite Hn'.
    eapply (Head 3 _ (let* n := read_uint 2 in let* i := read_string in ret (NStr n i))); [lia| |].
    + eapply codes_bind; [apply codes_u16; exact Hns'|]. cbn beta.
      eapply codes_bind_last; [apply codes_string; exact Hid|]. apply codes_ret.
    + intros kk -> x. reflexivity.
  - rename Hnode into Hns.
    set (ns' := if negb (is_empty uri) then 0 else ns).
    assert (Hn' : null_num n' = NGuid ns' id) by (subst n' ns'; destruct uri; reflexivity).
    assert (Hns' : in_u 2 ns') by (subst ns'; destruct (negb (is_empty uri)); [unfold in_u; cbn; lia|exact Hns]).
    rewrite Hn'.
    eapply (Head 4 _ (let* n := read_uint 2 in let* i := read_guid in ret (NGuid n i))); [lia| |].
    + eapply codes_bind; [apply codes_u16; exact Hns'|]. cbn beta.
      eapply codes_bind_last; [apply codes_guid|]. apply codes_ret.
    + intros kk -> x. reflexivity.
  - destruct Hnode as [Hns Hid].
    set (ns' := if negb (is_empty uri) then 0 else ns).
    assert (Hn' : null_num n' = NOpq ns' id) by (subst n' ns'; destruct uri; reflexivity).
    assert (Hns' : in_u 2 ns') by (subst ns'; destruct (negb (is_empty uri)); [unfold in_u; cbn; lia|exact Hns]).
    rewrite Hn'.
    eapply (Head 5 _ (let* n := read_uint 2 in let* i := read_bytestring in ret (NOpq n i))); [lia| |].
    + eapply codes_bind; [apply codes_u16; exact Hns'|]. cbn beta.
      eapply codes_bind_last; [apply codes_bytestring; exact Hid|]. apply codes_ret.
    + intros kk -> x. reflexivity.
Qed.

(** * QualifiedName, LocalizedText, StatusCode *)
Lemma codes_status s c : in_u 4 c -> codes s read_status (write_status c) c.
Proof. apply codes_u32. Qed.

Lemma codes_qname s q : wf_qname q -> codes s read_qname (write_qname q) q.
Proof.
  intros [H1 H2]. destruct q as [ns nm]. unfold read_qname, write_qname. cbn [q_ns q_name] in *.
  eapply codes_bind; [apply codes_u16; exact H1|]. cbn beta.
  eapply codes_bind_last; [apply codes_string; exact H2|]. apply codes_ret.
Qed.

Lemma codes_ltext s l : wf_ltext l -> codes s read_ltext (write_ltext l) l.
Proof.
  intros [H1 H2]. destruct l as [text loc]. unfold read_ltext, write_ltext, lt_mask. cbn [lt_text lt_locale] in *.
  set (b := Z.lor _ _).
  assert (Hb : 0 <= b < 256) by (subst b; destruct (is_empty loc); destruct (is_empty text); cbn; lia).
  assert (B1 : negb (Z.land b 1 =? 0) = negb (is_empty loc)).
  { subst b. destruct (is_empty loc); destruct (is_empty text); reflexivity. }
  assert (B2 : negb (Z.land b 2 =? 0) = negb (is_empty text)).
  { subst b. destruct (is_empty loc); destruct (is_empty text); reflexivity. }
  eapply codes_bind; [apply codes_u8; exact Hb|]. cbn beta. rewrite B1, B2.
  eapply codes_bind with (a := loc).
  { destruct loc; [apply codes_ret|]. cbn [is_empty negb]. apply codes_string; exact H2. }
  eapply codes_bind_last with (a := text); [|apply codes_ret].
  destruct text; [apply codes_ret|]. cbn [is_empty negb]. apply codes_string; exact H1.
Qed.

(** * None of these readers can panic. *)
Ltac np := repeat first
  [ apply np_ret | apply np_fail | apply np_read_full | apply np_fmap
  | apply np_bind; [|intros ?]
  | match goal with |- never_panics (if ?b then _ else _) => destruct b end ].

Lemma np_uint k : never_panics (read_uint k). Proof. unfold read_uint; np. Qed.
Lemma np_sint k : never_panics (read_sint k). Proof. unfold read_sint; np. Qed.
Lemma np_bool : never_panics read_bool. Proof. unfold read_bool; np. Qed.
Lemma np_string : never_panics read_string. Proof. unfold read_string; np; apply np_sint. Qed.
Lemma np_bytestring : never_panics read_bytestring. Proof. unfold read_bytestring; np; apply np_sint. Qed.
Lemma np_bytearray : never_panics read_bytearray. Proof. unfold read_bytearray; np; apply np_sint. Qed.
Lemma np_time : never_panics read_time. Proof. unfold read_time; np; apply np_sint. Qed.
Lemma np_guid : never_panics read_guid.
Proof.
  unfold read_guid. np.
  repeat match goal with |- never_panics (match ?x with _ => _ end) => destruct x end; np.
Qed.
Ltac np' := repeat first [ np; fail | apply np_uint | apply np_sint | apply np_string | apply np_bytestring | apply np_guid
  | apply np_ret | apply np_fail | apply np_bind; [|intros ?]
  | match goal with |- never_panics (if ?b then _ else _) => destruct b end ].
Lemma np_nodeid : never_panics read_nodeid. Proof. unfold read_nodeid; np'. Qed.
Lemma np_expnodeid : never_panics read_expnodeid. Proof. unfold read_expnodeid; np'. Qed.
Lemma np_qname : never_panics read_qname. Proof. unfold read_qname; np'. Qed.
Lemma np_ltext : never_panics read_ltext. Proof. unfold read_ltext; np'. Qed.
Lemma np_status : never_panics read_status. Proof. apply np_uint. Qed.
