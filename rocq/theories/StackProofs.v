(** Proofs about clients and server together. *)
From Coq Require Import ZArith List Bool Lia String Strings.Byte.
From Verif Require Import Bytes CodecSpec BytesProofs Prim PrimSpec PrimProofs Value ValueSpec ValueProofs Registry Chunk ChunkSpec ChunkLemmas
  Messages MessageProofs MessageSpec StructSpec MessageLemmas IndexRange Roles Nodes NodeAccess AccessSpec DataPath DataPathSpec DataPathProofs Stack StackSpec.
Import ListNotations.
Open Scope Z_scope.
Ltac Zify.zify_post_hook ::= idtac.

(** * Normal forms *)
Lemma norm_time_twice t : norm_time (norm_time t) = norm_time t.
Proof.
  unfold norm_time at 2 3. unfold sec_1601, sec_9999. destruct (t_sec t <? -11644473600) eqn:A; [reflexivity|]. destruct (253402300799 <=? t_sec t) eqn:B; [reflexivity|].
  unfold norm_time, sec_1601, sec_9999. cbn [t_sec t_nsec]. rewrite A, B. f_equal. rewrite Z.div_mul by lia. reflexivity.
Qed.
Lemma norm_stamp_twice t : norm_stamp (norm_stamp t) = norm_stamp t.
Proof.
  unfold norm_stamp at 2 3. destruct ((t_sec t =? -62135596800) && (t_nsec t =? 0)) eqn:A.
  - unfold norm_stamp. now rewrite A.
  - unfold norm_stamp. destruct ((t_sec (norm_time t) =? -62135596800) && (t_nsec (norm_time t) =? 0)); [reflexivity|]. apply norm_time_twice.
Qed.
Lemma norm_nodeid_twice n : norm_nodeid (norm_nodeid n) = norm_nodeid n.
Proof.
  destruct n as [|ns id|ns s|ns g|ns s]; try reflexivity.
  - rewrite norm_nodeid_num. destruct ((ns =? 0) && (id =? 0)) eqn:A; [reflexivity|]. now rewrite norm_nodeid_num, A.
  - rewrite norm_nodeid_str. destruct ((ns =? 0) && is_empty s) eqn:A; [reflexivity|]. now rewrite norm_nodeid_str, A.
  - rewrite norm_nodeid_guid. destruct ((ns =? 0) && guid_eqb g nil_guid) eqn:A; [reflexivity|]. now rewrite norm_nodeid_guid, A.
  - rewrite norm_nodeid_opq. destruct ((ns =? 0) && is_empty s) eqn:A; [reflexivity|]. now rewrite norm_nodeid_opq, A.
Qed.
Lemma norm_exp_twice e : norm_exp (norm_exp e) = norm_exp e.
Proof.
  destruct e as [sv uri n]. unfold norm_exp. cbn [e_server e_uri e_node]. f_equal. destruct uri as [|b uri].
  - destruct n as [|ns id| | |]; try reflexivity. rewrite null_num_num. destruct ((ns =? 0) && (id =? 0)) eqn:A; [reflexivity|]. now rewrite null_num_num, A.
  - destruct n as [|ns id| | |]; try reflexivity. cbn [set_ns0]. rewrite null_num_num. destruct ((0 =? 0) && (id =? 0)) eqn:A; [reflexivity|]. cbn [set_ns0]. now rewrite null_num_num, A.
Qed.
Lemma bnorm_twice t x : bnorm t (bnorm t x) = bnorm t x.
Proof. destruct t; cbn [bnorm]; try reflexivity; [apply norm_time_twice|apply norm_nodeid_twice|apply norm_exp_twice]. Qed.
Lemma map_twice {A} (f : A -> A) l : Forall (fun x => f (f x) = f x) l -> map f (map f l) = map f l.
Proof. induction 1 as [|x l H _ IH]; [reflexivity|]. cbn [map]. now rewrite H, IH. Qed.
Lemma norm_scalar_fixed k w : norm w = w -> norm (norm_scalar k w) = norm_scalar k w.
Proof.
  intros H. assert (norm_scalar k w = VNil \/ norm_scalar k w = VScalar k w) as [E|E].
  { destruct w as [tb b| | | | | | | | | | | | | | |]; try (now right). destruct tb; try (now right). destruct b; [now left|now right..]. }
  - now rewrite E.
  - rewrite E. cbn [norm]. now rewrite H.
Qed.
Lemma norm_twice v : norm (norm v) = norm v.
Proof.
  induction v as [t x|o|l IH| |l IH|l IH| |k v IH|k|k l IH|k m IH|k m IH|v st t1 p1 t2 p2 IH| |tid l IH|d] using val_ind'; cbn [norm]; try reflexivity.
  - now rewrite bnorm_twice.
  - now rewrite map_twice.
  - now rewrite map_twice.
  - now rewrite map_twice.
  - now apply norm_scalar_fixed.
  - now rewrite map_twice.
  - rewrite map_twice; [reflexivity|]. eapply Forall_impl; [|exact IH]. intros r. apply map_twice.
  - rewrite map_twice; [reflexivity|]. eapply Forall_impl; [|exact IH]. intros r H. apply map_twice. eapply Forall_impl; [|exact H]. intros x. apply map_twice.
  - now rewrite IH, !norm_stamp_twice.
  - now rewrite map_twice.
Qed.
Lemma norm_dval_twice d : norm_dval (norm_dval d) = norm_dval d.
Proof. unfold norm_dval. cbn [d_value d_status d_src d_srcp d_srv d_srvp]. now rewrite norm_twice, !norm_stamp_twice. Qed.

(** * The namespace tables do not matter for the structures of the standard *)
Lemma registered_uris u1 u2 t : registered (std_env u1) t -> registered (std_env u2) t.
Proof.
  unfold registered. cbn [std_env v_id_of_type v_type_of_id v_fields v_uris]. intros [Sp (id & F & W & T)]. split; [exact Sp|]. exists id. split; [exact F|].
  destruct (find_id_std _ _ F) as (k & E & R & T'). rewrite E in *. rewrite to_nodeid_std in *. rewrite norm_std by lia. split; [exact W|]. exact T'.
Qed.
Lemma wall_imp {A} (P Q : A -> Prop) l : Forall (fun x => P x -> Q x) l -> wall P l -> wall Q l.
Proof. induction 1 as [|x l H _ IH]; [easy|]. cbn [wall]. tauto. Qed.
Lemma wzip_imp (P Q : ty -> val -> Prop) l : Forall (fun x => forall t, P t x -> Q t x) l -> forall ts, wzip P ts l -> wzip Q ts l.
Proof. induction 1 as [|x l H _ IH]; intros [|t ts]; cbn [wzip]; try easy. intros [A B]. split; [now apply H|now apply IH]. Qed.
Lemma wf_env E1 E2 s : (forall t, registered E1 t -> registered E2 t) -> (forall t, v_fields E1 t = v_fields E2 t) -> forall v t, wf E1 s t v -> wf E2 s t v.
Proof.
  intros HR HF v.
  induction v as [t x|o|l IH| |l IH|l IH| |k v IH|k|k l IH|k m IH|k m IH|v st t1 p1 t2 p2 IH| |tid l IH|d] using val_ind'; intros ty; cbn [wf]; try tauto.
  - destruct ty; try tauto. now apply wzip_imp.
  - destruct ty; try tauto. now apply wzip_imp.
  - destruct ty; try tauto. intros [A B]. split; [exact A|]. revert B. apply wall_imp. eapply Forall_impl; [|exact IH]. intros x H. apply H.
  - intros (A & B & C). split; [exact A|]. split; [exact B|]. now apply IH.
  - intros (A & B & C & D). split; [exact A|]. split; [exact B|]. split; [exact C|]. revert D. apply wall_imp. eapply Forall_impl; [|exact IH]. intros x H. apply H.
  - intros (A & B & C & D & E & F). do 5 (split; [assumption|]). revert F. apply wall_imp. eapply Forall_impl; [|exact IH]. intros r H. apply wall_imp. eapply Forall_impl; [|exact H]. intros x G. apply G.
  - intros (A & B & C & D & E & F & G). do 6 (split; [assumption|]). revert G. apply wall_imp. eapply Forall_impl; [|exact IH]. intros r H. apply wall_imp. eapply Forall_impl; [|exact H]. intros x K. apply wall_imp. eapply Forall_impl; [|exact K]. intros y J. apply J.
  - intros (A & B & C & D). split; [exact A|]. split; [exact B|]. split; [now apply IH|exact D].
  - intros (A & B & C). split; [exact A|]. split; [now apply HR|]. rewrite <- HF. revert C. now apply wzip_imp.
Qed.
Lemma wf_uris u1 u2 s v t : wf (std_env u1) s t v -> wf (std_env u2) s t v.
Proof. apply wf_env; [intros x; apply registered_uris|intros x; reflexivity]. Qed.

(** * Messages *)
Local Opaque std_env.
Definition norm_question (q : question) : question :=
  match q with QRead a s l => QRead a s (map norm_rop l) | QWrite l => QWrite (map norm_wop l) end.
Lemma norm_as_request who q : as_request who (norm_question q) = norm_request (as_request who q).
Proof. now destruct q. Qed.
Lemma sender_norm q : sender (norm_request q) = sender q. Proof. now destruct q. Qed.

Lemma wf_dv u d : ok_dval d -> wf (std_env u) false TDV (dv_val d).
Proof.
  intros (A & B & [C1 C2] & D & [E1 E2] & F). unfold dv_val. cbn [wf]. split; [reflexivity|]. split; [discriminate|]. split; [now apply (wf_uris [])|]. exact (conj B (conj C1 (conj C2 (conj D (conj E1 (conj E2 F)))))).
Qed.
Lemma wall_map {A B} (P : B -> Prop) (f : A -> B) l : Forall (fun x => P (f x)) l -> wall P (map f l).
Proof. induction 1 as [|x l H _ IH]; [exact Logic.I|]. cbn [map wall]. now split. Qed.
Lemma in_u4 z : 0 <= z < 2 ^ 32 -> in_u 4 z. Proof. unfold in_u. intros H. exact H. Qed.
Lemma len_ok_nil {A} : @len_ok A []. Proof. unfold len_ok. cbn. lia. Qed.

Lemma wf_rop u q : ok_rop q -> wf (std_env u) false ReadValueId (rop_val q).
Proof.
  intros (A & B & C & D). unfold ReadValueId, rop_val, Of. cbn [wf wzip bwf]. split; [split; [reflexivity|exact A]|]. split; [split; [reflexivity|exact B]|]. split; [split; [reflexivity|exact C]|].
  split; [|exact Logic.I]. split; [reflexivity|]. split; [|exact D]. unfold in_u. cbn. lia.
Qed.
Lemma wf_wop u q : ok_wop q -> wf (std_env u) false WriteValue (wop_val q).
Proof.
  intros (A & B & C & D & _). unfold WriteValue, wop_val, Of. cbn [wf wzip bwf]. split; [split; [reflexivity|exact A]|]. split; [split; [reflexivity|exact B]|]. split; [split; [reflexivity|exact C]|].
  split; [|exact Logic.I]. now apply wf_dv.
Qed.
Lemma wf_request_header u tok t h : wf_nodeid tok -> ok_time t -> 0 <= h < 2 ^ 32 -> wf (std_env u) false RequestHeader (request_header tok t h).
Proof.
  intros A [B1 B2] C. unfold RequestHeader, request_header, Of. cbn [wf wzip bwf].
  split; [now split|]. split; [split; [reflexivity|exact (conj B1 B2)]|]. split; [split; [reflexivity|exact (in_u4 _ C)]|].
  split; [split; [reflexivity|apply in_u4; lia]|]. split; [split; [reflexivity|apply len_ok_nil]|]. split; [split; [reflexivity|apply in_u4; lia]|]. now split.
Qed.
Lemma wf_response_header u t h st : ok_time t -> 0 <= h < 2 ^ 32 -> in_u 4 st -> wf (std_env u) false ResponseHeader (response_header t h st).
Proof.
  intros [B1 B2] C D. unfold ResponseHeader, response_header, Of. cbn [wf wzip bwf].
  split; [split; [reflexivity|exact (conj B1 B2)]|]. split; [split; [reflexivity|exact (in_u4 _ C)]|]. split; [split; [reflexivity|exact D]|].
  split; [now split|]. split; [split; [apply len_ok_nil|exact Logic.I]|]. now split.
Qed.

Lemma all_of_map {A B} (f : val -> option B) (g : A -> val) (h : A -> B) l : (forall x, f (g x) = Some (h x)) -> all_of f (map g l) = Some (map h l).
Proof. intros H. induction l as [|x l IH]; [reflexivity|]. cbn [map all_of]. now rewrite H, IH. Qed.
Lemma val_rop_back q : val_rop (norm (rop_val q)) = Some (norm_rop q). Proof. reflexivity. Qed.
Lemma val_wop_back q : val_wop (norm (wop_val q)) = Some (norm_wop q). Proof. reflexivity. Qed.
Lemma val_dv_back d : val_dv (norm (dv_val d)) = Some (norm_dval d). Proof. reflexivity. Qed.

Lemma question_back tok t h q : question_of (question_name q) (map norm (question_vals tok t h q)) = Some (norm_nodeid tok, h, norm_question q).
Proof.
  destruct q as [age st l|l].
  - unfold question_name, question_vals. cbn [map norm bnorm]. unfold question_of. cbn [val_header request_header norm map bnorm]. change (String.eqb "ReadRequest" "ReadRequest") with true. cbv iota.
    rewrite map_map, (all_of_map _ _ norm_rop); [reflexivity|]. exact val_rop_back.
  - unfold question_name, question_vals. cbn [map norm bnorm]. unfold question_of. cbn [val_header request_header norm map bnorm]. change (String.eqb "WriteRequest" "ReadRequest") with false. change (String.eqb "WriteRequest" "WriteRequest") with true. cbv iota.
    rewrite map_map, (all_of_map _ _ norm_wop); [reflexivity|]. exact val_wop_back.
Qed.
Lemma write_nodeid_nonempty id b : write_nodeid (NNum 0 id) ++ b <> [].
Proof. unfold write_nodeid. repeat (destruct (_ && _)); cbn; try discriminate; unfold write_int; cbn [le_enc app]; discriminate. Qed.

Lemma request_arrives u1 u2 tok t h q : ok_question q -> wf_nodeid tok -> ok_time t -> 0 <= h < 2 ^ 32 ->
  exists body, client_send u1 (question_name q) (question_vals tok t h q) = Some body /\ body <> [] /\
    server_receive u2 body = Ok (question_name q, map norm (question_vals tok t h q)) [].
Proof.
  intros OQ OT Ot Oh.
  assert (exists id f, carries client_send server_receive (question_name q) id f /\ wzip (wf (std_env u2) false) f (question_vals tok t h q)) as (id & f & C & W).
  { destruct q as [age st l|l].
    - exists 631, [RequestHeader; Double'; Enum'; Many ReadValueId]. split.
      + apply (requests "Read" 631 _ 634 (StructSpec.answer [ResponseHeader; Many TDV])). unfold standard_services. repeat first [left; reflexivity|right].
      + destruct OQ as (A & B & L & F). unfold question_vals. cbn [wzip]. split; [now apply wf_request_header|]. cbn [wf bwf]. split; [now split|]. split; [now split|]. split; [|exact Logic.I].
        split; [now apply len_ok_map|]. apply wall_map. eapply Forall_impl; [|exact F]. intros x. apply wf_rop.
    - exists 673, [RequestHeader; Many WriteValue]. split.
      + apply (requests "Write" 673 _ 676 (StructSpec.answer [ResponseHeader; Many Status'])). unfold standard_services. repeat first [left; reflexivity|right].
      + destruct OQ as (L & F). unfold question_vals. cbn [wzip]. split; [now apply wf_request_header|]. cbn [wf bwf]. split; [|exact Logic.I].
        split; [now apply len_ok_map|]. apply wall_map. eapply Forall_impl; [|exact F]. intros x. apply wf_wop. }
  destruct (C u1 u2 _ W) as (b & _ & E & R). exists (write_nodeid (NNum 0 id) ++ b). split; [exact E|]. split; [apply write_nodeid_nonempty|].
  specialize (R []). now rewrite app_nil_r in R.
Qed.

(** Responses *)
Definition ok_response (a : response) : Prop :=
  match a with
  | Fault st => in_u 4 st /\ st <> 0
  | Values l => len_ok l /\ Forall ok_dval l
  | Statuses l => len_ok l /\ Forall (in_u 4) l
  end.
Lemma response_back t h a : (forall st, a = Fault st -> st <> 0) -> response_of (response_name a) (map norm (response_vals t h a)) = Some (h, norm_response a).
Proof.
  intros N. destruct a as [st|l|l]; unfold response_vals, response_name; cbn [map norm bnorm]; unfold response_of; cbn [response_header norm map bnorm].
  - destruct (Z.eqb_spec st 0) as [E|E]; [destruct (N st eq_refl E)|reflexivity].
  - change (String.eqb "ReadResponse" "ReadResponse") with true. change (negb (0 =? 0)) with false. cbv iota. rewrite map_map, (all_of_map _ _ norm_dval); [reflexivity|]. exact val_dv_back.
  - change (String.eqb "WriteResponse" "ReadResponse") with false. change (String.eqb "WriteResponse" "WriteResponse") with true. change (negb (0 =? 0)) with false. cbv iota.
    rewrite map_map, (all_of_map _ _ (fun x => x)); [now rewrite map_id|]. reflexivity.
Qed.
Lemma response_arrives u1 u2 t h a : ok_response a -> ok_time t -> 0 <= h < 2 ^ 32 ->
  exists body, server_send u1 (response_name a) (response_vals t h a) = Some body /\ body <> [] /\
    client_receive u2 body = Ok (response_name a, map norm (response_vals t h a)) [].
Proof.
  intros OA Ot Oh.
  assert (exists id f, carries server_send client_receive (response_name a) id f /\ wzip (wf (std_env u2) false) f (response_vals t h a)) as (id & f & C & W).
  { destruct a as [st|l|l].
    - exists (fst standard_fault), (snd standard_fault). split; [exact MessageLemmas.fault|]. destruct OA as [A _]. cbn [response_vals snd standard_fault wzip]. split; [now apply wf_response_header|exact Logic.I].
    - exists 634, (StructSpec.answer [ResponseHeader; Many TDV]). split.
      + apply (responses "Read" 631 [RequestHeader; Double'; Enum'; Many ReadValueId]); [|discriminate]. unfold standard_services. repeat first [left; reflexivity|right].
      + destruct OA as [L F]. unfold response_vals, StructSpec.answer. cbn [app wzip]. split; [apply wf_response_header; [exact Ot|exact Oh|apply in_u4; lia]|]. cbn [wf]. split.
        * split; [now apply len_ok_map|]. apply wall_map. eapply Forall_impl; [|exact F]. intros x. apply wf_dv.
        * split; [|exact Logic.I]. split; [apply len_ok_nil|exact Logic.I].
    - exists 676, (StructSpec.answer [ResponseHeader; Many Status']). split.
      + apply (responses "Write" 673 [RequestHeader; Many WriteValue]); [|discriminate]. unfold standard_services. repeat first [left; reflexivity|right].
      + destruct OA as [L F]. unfold response_vals, StructSpec.answer. cbn [app wzip]. split; [apply wf_response_header; [exact Ot|exact Oh|apply in_u4; lia]|]. cbn [wf]. split.
        * split; [now apply len_ok_map|]. apply wall_map. eapply Forall_impl; [|exact F]. intros x Hx. cbn [wf bwf]. now split.
        * split; [|exact Logic.I]. split; [apply len_ok_nil|exact Logic.I]. }
  destruct (C u1 u2 _ W) as (b & _ & E & R). exists (write_nodeid (NNum 0 id) ++ b). split; [exact E|]. split; [apply write_nodeid_nonempty|].
  specialize (R []). now rewrite app_nil_r in R.
Qed.

(** * Bytes on the way *)
Lemma length_concat_chunks (chs : list bytes) : Forall (fun c => c <> []) chs -> (List.length chs <= List.length (List.concat chs))%nat.
Proof. induction 1 as [|c chs N _ IH]; [cbn; lia|]. cbn [List.concat List.length]. rewrite app_length. destruct c; [congruence|]. cbn [List.length]. lia. Qed.
Lemma carries_chunks sign enc dec s r send rid seq chs body : ChunkSpec.carries sign enc dec s r send rid seq chs body -> Forall (fun c => c <> []) chs.
Proof.
  induction 1 as [q part ch H|q part ch chs body H HC IH]; constructor; try constructor; try exact IH;
    destruct H as (_ & _ & _ & _ & L & _); intros ->; cbn in L; lia.
Qed.
Lemma transmit_take p seq rid body bs seq' : ok_pipe p -> 0 <= rid < 2 ^ 32 -> body <> [] -> transmit p seq rid body = Some (bs, seq') ->
  forall rest, take_message p (bs ++ rest) = Some (rid, body, rest).
Proof.
  intros (L & C & S1 & S2) R N E rest. unfold transmit in E.
  destruct (send_message _ _ _ _ _ _ _ _ _) as [chs st] eqn:M. destruct st; try discriminate. injection E as <- _.
  pose proof (sent_iff _ _ _ _ _ _ _ L rid seq body (List.length body) R (le_n _) N) as SI. rewrite M in SI. cbn [snd] in SI. destruct (proj1 SI eq_refl) as [W1 _].
  destruct (sender_limits _ _ _ _ _ _ _ L rid seq body (List.length body) chs Chunk.Sent R (le_n _) N M) as [W2 _].
  unfold take_message. rewrite (roundtrip _ _ _ _ _ _ _ L rid seq body (List.length body) (List.length (List.concat chs ++ rest)) (pi_rcap p) chs rest R (le_n _) N M C (S2 _ W2) (S1 _ W1)); [reflexivity|].
  pose proof (length_concat_chunks chs (carries_chunks _ _ _ _ _ _ _ _ _ _ (sent_carries _ _ _ _ _ _ _ L rid seq body (List.length body) chs R (le_n _) N M))). rewrite app_length. lia.
Qed.
Inductive carried (p : pipe) : bytes -> list (Z * bytes) -> Prop :=
| carried_nil : carried p [] []
| carried_cons bs rid body st ms : (forall rest, take_message p (bs ++ rest) = Some (rid, body, rest)) -> carried p st ms -> carried p (bs ++ st) ((rid, body) :: ms).
Lemma carried_snoc p st ms bs rid body : carried p st ms -> (forall rest, take_message p (bs ++ rest) = Some (rid, body, rest)) -> carried p (st ++ bs) (ms ++ [(rid, body)]).
Proof.
  induction 1 as [|bs' rid' body' st ms T _ IH]; intros H.
  - cbn [app]. rewrite <- (app_nil_r bs). apply carried_cons; [exact H|constructor].
  - rewrite <- app_assoc. cbn [app]. apply carried_cons; [exact T|now apply IH].
Qed.
Lemma carried_take p st rid body ms : carried p st ((rid, body) :: ms) -> exists rest, take_message p st = Some (rid, body, rest) /\ carried p rest ms.
Proof. intros H. inversion H as [|bs r b st' ms' T C]; subst. exists st'. split; [apply T|exact C]. Qed.
Lemma carried_none p st : carried p st [] -> take_message p st = None.
Proof. intros H. inversion H. reflexivity. Qed.

Lemma ok_no_time : ok_time no_time.
Proof. split; [split; cbn; unfold in_s; cbn; lia|unfold time_in_int64_ticks; cbn; lia]. Qed.
Lemma ok_zero : in_u 2 0. Proof. unfold in_u. cbn. lia. Qed.

(** * The server: its values can be sent *)
Section S.
Variable default : list perm.
Variable vt : Z -> Z.
Variable lim : limits.
Variable max_read max_write : Z.
Variable nodes : nodeid -> option node.
Variable range_read : val -> bytes -> ranged.
Variable range_write : val -> val -> bytes -> ranged.
Variable app_read : nodeid -> bytes -> dval.
Variable app_write : wop -> dval * Z.
Variable other_read : caller -> rop -> time -> dval.
Variable other_write : caller -> wop -> Z.
Variable init : nodeid -> dval.
Hypothesis OS : ok_server init range_read range_write app_read app_write other_read other_write.
Notation serve := (step default vt lim max_read max_write nodes range_read range_write app_read app_write other_read other_write).
Notation serves := (run default vt lim max_read max_write nodes range_read range_write app_read app_write other_read other_write).
Notation read_data := (read_data default nodes range_read app_read other_read).
Notation prepare := (prepare default vt lim nodes range_write app_write other_write).
Notation work := (work default vt lim nodes range_read range_write app_read app_write other_read other_write).

Notation okv := (wf (std_env []) false TVar).
Definition ok_op (o : op) : Prop := match o with RD _ => True | WR q => ok_dval (w_value q) end.
Definition ok_answer (a : answer) : Prop := match a with AValue d => ok_dval d | AStatus st => in_u 4 st end.
Definition ok_task (k : task) : Prop :=
  ok_op (k_op k) /\ (forall d, k_ready k = Some d -> ok_dval d) /\ (forall a, k_answer k = Some a -> ok_answer a).
Definition ok_call (c : call) : Prop :=
  (forall st, c_fault c = Some st -> in_u 4 st /\ st <> 0) /\ len_ok (c_tasks c) /\ Forall ok_task (c_tasks c).
Definition ok_world (w : world) : Prop := (forall x, ok_dval (w_data w x)) /\ forall r c, w_calls w r = Some c -> ok_call c.

Lemma ok_refused st t : in_u 4 st -> ok_time t -> ok_dval (refused st t).
Proof. intros A B. unfold refused, ok_dval. cbn [d_value d_status d_src d_srcp d_srv d_srvp wf]. split; [reflexivity|]. split; [exact A|]. split; [exact ok_no_time|]. split; [exact ok_zero|]. split; [exact B|exact ok_zero]. Qed.
Ltac code := apply in_u4; vm_compute; split; congruence.

Lemma ok_read who data q t : (forall x, ok_dval (data x)) -> ok_time t -> ok_dval (read_data who data q t).
Proof.
  intros D T. unfold DataPath.read_data. destruct who as [|roles]; [apply ok_refused; [code|exact T]|].
  destruct (negb _); [apply ok_refused; [code|exact T]|]. destruct (negb _ && _); [apply ok_refused; [code|exact T]|].
  destruct (nodes (r_node q)) as [n|]; [|apply ok_refused; [code|exact T]]. destruct (negb (browsable default roles n)); [apply ok_refused; [code|exact T]|].
  destruct (r_attr q =? at_value); [|now apply (os_other_read _ _ _ _ _ _ _ OS)].
  destruct (nd_kind n); try (apply ok_refused; [code|exact T]).
  destruct (_ =? 0); [apply ok_refused; [code|exact T]|]. destruct (_ =? 0); [apply ok_refused; [code|exact T]|].
  destruct (va_reader v); [apply (os_app_read _ _ _ _ _ _ _ OS)|].
  unfold read_stored. destruct (r_range q) as [|b r]; [apply D|]. specialize (D (r_node q)). destruct D as (V & S & T1 & P1 & T2 & P2).
  pose proof (os_range_read _ _ _ _ _ _ _ OS (d_value (data (r_node q))) (b :: r) V) as R.
  destruct (range_read (d_value (data (r_node q))) (b :: r)) as [v'|st|].
  - exact (conj (proj1 R) (conj S (conj T1 (conj ok_zero (conj T2 ok_zero))))).
  - refine (conj _ (conj R (conj T1 (conj ok_zero (conj T2 ok_zero))))). reflexivity.
  - exact (conj V (conj S (conj T1 (conj P1 (conj T2 P2))))).
Qed.
Lemma ok_byte_array s : len_ok s -> okv (byte_array s).
Proof.
  intros L. unfold byte_array. cbn [wf]. split; [reflexivity|]. split; [discriminate|]. split; [now apply len_ok_map|]. apply wall_map. apply Forall_forall. intros b _. cbn [wf bwf ty_of_kind].
  split; [reflexivity|]. pose proof (Z_of_byte_range b). unfold in_u. cbn. lia.
Qed.
Lemma ok_byte_string s : len_ok s -> okv (byte_string s).
Proof. intros L. unfold byte_string. cbn [wf ty_of_kind bwf]. split; [reflexivity|]. split; [exact Logic.I|]. split; [reflexivity|exact L]. Qed.
Lemma ok_stored dest rank v : okv v -> okv (to_stored dest rank v).
Proof.
  intros V. unfold to_stored.
  set (v1 := if (dest =? 3) && (rank =? 1) then match v with VScalar (KB BByteString) (VB BByteString s) => VArr (KB BByte) (map (fun b => VB BByte (Z_of_byte b)) s) | _ => v end else v).
  assert (okv v1) as V1.
  { unfold v1. destruct (_ && _); [|exact V]. destruct v as [tb b|ob|lb| |lb|lb| |k y|k|k lb|k m|k m|y st t1 p1 t2 p2| |tid lb|db]; try exact V.
    destruct k as [[]| | | |]; try exact V. destruct y as [tb b|ob|lb| |lb|lb| |k y|k|k lb|k m|k m|y st t1 p1 t2 p2| |tid lb|db]; try exact V. destruct tb; try exact V.
    apply ok_byte_array. cbn [wf bwf ty_of_kind] in V. apply V. }
  clearbody v1. clear v V. destruct (_ && _); [|exact V1]. destruct v1 as [tb b|ob|lb| |lb|lb| |k y|k|k lb|k m|k m|y st t1 p1 t2 p2| |tid lb|db]; try exact V1.
  - destruct k as [[]| | | |]; try exact V1. apply (ok_byte_string []). apply len_ok_nil.
  - destruct k as [[]| | | |]; try exact V1. apply (ok_byte_string (map byte_of_val lb)). apply len_ok_map. cbn [wf] in V1. apply V1.
Qed.
Lemma check_code dest rank v : in_u 4 (check_value lim dest rank v).
Proof. unfold check_value, check. destruct v; repeat match goal with |- context[if ?b then _ else _] => destruct b end; code. Qed.
Lemma ok_prepare who data q t1 t2 : (forall x, ok_dval (data x)) -> ok_dval (w_value q) -> ok_time t1 -> ok_time t2 ->
  match prepare who data q t1 t2 with Ready d => ok_dval d | NotReady st => in_u 4 st | Panics => True end.
Proof.
  intros D V T1 T2. unfold DataPath.prepare. destruct who as [|roles]; [code|]. destruct (nodes (w_node q)) as [n|]; [|code]. destruct (negb (browsable default roles n)); [code|].
  destruct (w_attr q =? at_value); [|apply (os_other_write _ _ _ _ _ _ _ OS)]. destruct (nd_kind n); try code. destruct (_ =? 0); [code|]. destruct (_ =? 0); [code|].
  destruct (negb _); [apply check_code|]. destruct (va_writer v).
  - pose proof (os_app_write _ _ _ _ _ _ _ OS q) as [A B]. destruct (app_write q) as [r st]. cbn [fst snd] in A, B. destruct (st =? 0); assumption.
  - destruct V as (V & S & _). pose proof (ok_stored (vt (va_type v)) (va_rank v) _ V) as V'. unfold prepare_range. destruct (w_range q) as [|b r].
    + exact (conj V' (conj S (conj T1 (conj ok_zero (conj T2 ok_zero))))).
    + pose proof (os_range_write _ _ _ _ _ _ _ OS (d_value (data (w_node q))) _ (b :: r) (proj1 (D (w_node q))) V') as R. destruct (range_write _ _ _) as [x|st|]; [|exact R|exact Logic.I].
      exact (conj R (conj S (conj T1 (conj ok_zero (conj T2 ok_zero))))).
Qed.
Lemma ok_work who data k t1 t2 : (forall x, ok_dval (data x)) -> ok_task k -> ok_time t1 -> ok_time t2 ->
  match work who data k t1 t2 with Worked data' k' => (forall x, ok_dval (data' x)) /\ ok_task k' | Died => True end.
Proof.
  intros D (O & R & A) T1 T2. unfold DataPath.work. destruct (k_op k) as [q|q] eqn:E.
  - split; [exact D|]. split; [exact O|]. split; [discriminate|]. cbn [k_answer]. intros a Ea. injection Ea as <-. now apply ok_read.
  - destruct (k_ready k) as [d|] eqn:Er.
    + destruct (bad_history nodes (w_node q)); [exact Logic.I|]. split.
      * intros x. unfold upd_data. destruct (nodeid_eqb x (w_node q)); [now apply R|apply D].
      * split; [exact O|]. split; [discriminate|]. cbn [k_answer]. intros a Ea. injection Ea as <-. cbn [ok_answer]. apply in_u4. lia.
    + pose proof (ok_prepare who data q t1 t2 D O T1 T2) as P. destruct (prepare who data q t1 t2) as [d|st|]; [| |exact Logic.I].
      * split; [exact D|]. split; [exact O|]. split; [cbn [k_ready]; intros d' Ed; injection Ed as <-; exact P|discriminate].
      * split; [exact D|]. split; [exact O|]. split; [discriminate|]. cbn [k_answer]. intros a Ea. injection Ea as <-. exact P.
Qed.
Lemma set_at_Forall {A} (P : A -> Prop) i x l : Forall P l -> P x -> Forall P (set_at i x l).
Proof. intros F Px. revert i. induction F as [|y l Hy Hl IH]; intros [|i]; cbn [set_at]; try constructor; auto. Qed.
Lemma set_at_length {A} i (x : A) l : List.length (set_at i x l) = List.length l.
Proof. revert i. induction l as [|y l IH]; intros [|i]; cbn [set_at List.length]; auto. Qed.
Definition ok_times (e : event) : Prop := match e with Invoke _ _ t | Respond _ t => ok_time t | Run _ _ t1 t2 => ok_time t1 /\ ok_time t2 end.
Definition ok_invoke (e : event) : Prop := match e with Invoke _ q _ => len_ok (ops_of q) /\ Forall ok_op (ops_of q) | _ => True end.
Lemma ok_world_step s e s' : ok_world (fst s) -> ok_times e -> ok_invoke e -> serve s e = Some s' -> ok_world (fst s').
Proof.
  destruct s as [w h]. intros [D C] T I. unfold step. cbn [fst] in *. destruct (w_down w); [discriminate|]. destruct e as [r q t|r i t1 t2|r t].
  - destruct (w_calls w r); [discriminate|]. intros E. injection E as <-. split; [exact D|]. cbn [fst w_calls]. intros r' c. unfold upd_call. destruct (r' =? r); [|apply C]. intros Ec. injection Ec as <-.
    unfold begin_call. destruct (fault_of max_read max_write q) as [st|] eqn:F.
    + split; [cbn [c_fault]; intros st' Es; injection Es as <-|split; [apply len_ok_nil|constructor]].
      assert (st = BadMaxAgeInvalid \/ st = BadTimestampsToReturnInvalid \/ st = BadNothingToDo \/ st = BadTooManyOperations) as K.
      { unfold fault_of in F. destruct q as [who age stm ops|who ops]; repeat (match type of F with context[if ?b then _ else _] => destruct b end); try discriminate F; injection F as <-; tauto. }
      destruct K as [->|[->|[->| ->]]]; (split; [code|discriminate]).
    + split; [discriminate|]. cbn [c_tasks]. destruct I as [L O]. split; [now apply len_ok_map|]. apply Forall_map. eapply Forall_impl; [|exact O]. intros o Oo. split; [exact Oo|]. now split.
  - destruct (w_calls w r) as [c|] eqn:Ec; [|discriminate]. destruct (nth_error (c_tasks c) i) as [k|] eqn:Ek; [|discriminate]. destruct (k_answer k); [discriminate|].
    destruct (C r c Ec) as (F & L & A). destruct T as [T1 T2].
    pose proof (ok_work (sender (c_request c)) (w_data w) k t1 t2 D (proj1 (Forall_forall _ _) A k (nth_error_In _ _ Ek)) T1 T2) as K.
    destruct (work _ _ _ _ _) as [data k'|]; intros E; injection E as <-; [|now split]. destruct K as [D' K']. split; [exact D'|]. cbn [fst w_calls]. intros r' c'. unfold upd_call. destruct (r' =? r); [|apply C].
    intros E. injection E as <-. split; [exact F|]. cbn [c_tasks]. split; [unfold len_ok; rewrite set_at_length; exact L|]. now apply set_at_Forall.
  - destruct (w_calls w r) as [c|] eqn:Ec; [|discriminate]. destruct (c_done c); [discriminate|]. destruct (respond c) as [a|]; [|discriminate]. intros E. injection E as <-. split; [exact D|]. cbn [fst w_calls].
    intros r' c'. unfold upd_call. destruct (r' =? r); [|apply C]. intros E. injection E as <-. exact (C r c Ec).
Qed.
Lemma answers_all l la : answers l = Some la -> Forall ok_task l -> Forall ok_answer la /\ List.length la = List.length l.
Proof.
  revert la. induction l as [|k l IH]; cbn [answers]; intros la E F; [injection E as <-; now split|]. inversion F as [|? ? (_ & _ & K) F']; subst.
  destruct (k_answer k) as [a|]; [|discriminate]. destruct (answers l) as [l'|]; [|discriminate]. injection E as <-. destruct (IH l' eq_refl F') as [A B]. split; [constructor; [now apply K|exact A]|cbn [List.length]; now rewrite B].
Qed.
Lemma ok_time_norm t : ok_time t -> ok_time (norm_stamp t).
Proof.
  intros [[A1 A2] B]. unfold norm_stamp. destruct (_ && _); [split; [split|]; assumption|]. unfold norm_time, sec_1601, sec_9999, ok_time, wf_time, time_in_int64_ticks, in_s.
  destruct (t_sec t <? _) eqn:L; [cbn; lia|]. destruct (_ <=? t_sec t) eqn:G; [cbn; lia|]. cbn [t_sec t_nsec]. split; [split; [exact A1|]|exact B].
  pose proof (Z.mul_div_le (t_nsec t) 100 ltac:(lia)). pose proof (Z.div_pos (t_nsec t) 100 ltac:(lia) ltac:(lia)). lia.
Qed.
Lemma select_ok st d : ok_dval d -> ok_dval (select_stamps st d).
Proof.
  intros (V & S & T1 & P1 & T2 & P2). unfold select_stamps. repeat (destruct (_ =? _)); (repeat split; cbn [d_value d_status d_src d_srcp d_srv d_srvp]; try assumption; try apply ok_no_time; try apply ok_zero); try apply S; try apply T1; try apply T2; try apply P1; try apply P2; try apply ok_zero.
Qed.
Lemma respond_ok c a : ok_call c -> respond c = Some a -> ok_response a.
Proof.
  intros (F & L & T). unfold respond. destruct (c_fault c) as [st|] eqn:E; [intros H; injection H as <-; now apply F|]. destruct (answers (c_tasks c)) as [l|] eqn:A; [|discriminate].
  destruct (answers_all _ _ A T) as [G Ln]. intros H. injection H as <-.
  assert (forall {B} (f : answer -> list B), (forall x, (List.length (f x) <= 1)%nat) -> len_ok (flat_map f l)) as LL.
  { intros B f Hf. assert (List.length (flat_map f l) <= List.length l)%nat as Le.
    { clear -Hf. induction l as [|x l IH]; [cbn; lia|]. cbn [flat_map List.length]. rewrite app_length. specialize (Hf x). lia. }
    unfold len_ok in *. lia. }
  destruct (c_request c) as [who age st ops|who ops]; cbn [ok_response].
  - split; [apply len_ok_map; apply LL; intros []; cbn; lia|]. apply Forall_map. unfold values_of. apply Forall_forall. intros d Id. apply in_flat_map in Id. destruct Id as (x & Ix & Id). destruct x as [d'|s']; [|destruct Id]. destruct Id as [<-|[]].
    apply select_ok. exact (proj1 (Forall_forall _ _) G _ Ix).
  - split; [apply LL; intros []; cbn; lia|]. unfold statuses_of. apply Forall_forall. intros d Id. apply in_flat_map in Id. destruct Id as (x & Ix & Id). destruct x as [d'|s']; [destruct Id|]. destruct Id as [<-|[]].
    exact (proj1 (Forall_forall _ _) G _ Ix).
Qed.
Lemma ok_norm_dval d : ok_dval d -> ok_value (d_value d) -> ok_dval (norm_dval d).
Proof.
  intros (V & S & T1 & P1 & T2 & P2) [_ W]. exact (conj W (conj S (conj (ok_time_norm _ T1) (conj P1 (conj (ok_time_norm _ T2) P2))))).
Qed.
Lemma ok_question_invoke k who q t : ok_question q -> ok_invoke (Invoke k (as_request who (norm_question q)) t).
Proof.
  intros O. cbn [ok_invoke]. destruct q as [age st l|l]; cbn [as_request norm_question ops_of ok_question] in *.
  - destruct O as (_ & _ & L & F). split; [now do 2 apply len_ok_map|]. apply Forall_map, Forall_forall. intros x _. exact Logic.I.
  - destruct O as (L & F). split; [now do 2 apply len_ok_map|]. apply Forall_map, Forall_map. eapply Forall_impl; [|exact F]. intros x (_ & _ & _ & A & B). cbn [ok_op norm_wop w_value]. now apply ok_norm_dval.
Qed.

(** * What one step of the server does to its history *)
Lemma serves_snoc s l e : serves s (l ++ [e]) = match serves s l with Some s' => serve s' e | None => None end.
Proof. revert s. induction l as [|x l IH]; intros s; cbn [app run]; [now destruct (serve s e)|]. destruct (serve s x) as [s'|]; [apply IH|reflexivity]. Qed.
Lemma serve_invoke w h r q t s' : serve (w, h) (Invoke r q t) = Some s' -> snd s' = h ++ [Sent r q t] /\ w_calls w r = None /\ w_calls (fst s') r <> None /\ forall x, w_calls w x <> None -> w_calls (fst s') x <> None.
Proof.
  unfold step. destruct (w_down w); [discriminate|]. destruct (w_calls w r) eqn:E; [discriminate|]. intros H. injection H as <-. cbn [fst snd w_calls]. split; [reflexivity|]. split; [reflexivity|]. unfold upd_call. split.
  - rewrite Z.eqb_refl. discriminate.
  - intros x N. destruct (x =? r); [discriminate|exact N].
Qed.
Lemma serve_run w h r i t1 t2 s' : serve (w, h) (Run r i t1 t2) = Some s' -> snd s' = h /\ forall x, w_calls w x <> None -> w_calls (fst s') x <> None.
Proof.
  unfold step. destruct (w_down w); [discriminate|]. destruct (w_calls w r) as [c|] eqn:E; [|discriminate]. destruct (nth_error (c_tasks c) i) as [k|]; [|discriminate]. destruct (k_answer k); [discriminate|].
  destruct (work _ _ _ _ _); intros H; injection H as <-; cbn [fst snd w_calls]; (split; [reflexivity|]); [|easy]. intros x N. unfold upd_call. destruct (x =? r); [discriminate|exact N].
Qed.
Lemma serve_respond w h r t s' : serve (w, h) (Respond r t) = Some s' -> exists c a, w_calls w r = Some c /\ respond c = Some a /\ snd s' = h ++ [Got r a t] /\ forall x, w_calls w x <> None -> w_calls (fst s') x <> None.
Proof.
  unfold step. destruct (w_down w); [discriminate|]. destruct (w_calls w r) as [c|] eqn:E; [|discriminate]. destruct (c_done c); [discriminate|]. destruct (respond c) as [a|] eqn:R; [|discriminate]. intros H. injection H as <-. cbn [fst snd w_calls].
  exists c, a. split; [reflexivity|]. split; [exact R|]. split; [reflexivity|]. intros x N. unfold upd_call. destruct (x =? r); [discriminate|exact N].
Qed.

(** * The system *)
Variable links : Z -> link.
Variable uris : list bytes.
Variable session_of : Z -> nodeid -> caller.
Hypothesis OL : forall c, ok_link (links c).
Notation next := (next links uris session_of serve).
Notation happens := (happens links uris session_of serve).
Definition who (c : Z) : caller := session_of c (l_token (links c)).

Definition good_up (c : Z) (seen : list obs) (m : Z * Z * question * bytes) : Prop :=
  let '(k, h, q, body) := m in
  0 <= h < 2 ^ 32 /\ ok_question q /\
  (exists name vals left, server_receive uris body = Ok (name, vals) left /\ question_of name vals = Some (l_token (links c), h, norm_question q)) /\
  exists t, In (Sent k (as_request (who c) q) t) seen.
Definition good_down (c : Z) (hs : list obs) (m : Z * Z * response * bytes) : Prop :=
  let '(k, h, a, body) := m in
  (exists name vals left, client_receive (l_uris (links c)) body = Ok (name, vals) left /\ response_of name vals = Some (h, norm_response a)) /\
  exists t, In (Got k a t) hs.
Definition packet {A} (m : Z * Z * A * bytes) : Z * bytes := let '(k, h, q, body) := m in (h, body).
Definition label {A} (m : Z * Z * A * bytes) : Z * Z := let '(k, h, q, body) := m in (k, h).

Record chan_inv (c : Z) (i : line) (open : list (Z * (Z * Z * Z))) (seen hs : list obs)
  (ups : list (Z * Z * question * bytes)) (ops : list (Z * Z)) (downs : list (Z * Z * response * bytes)) : Prop := {
  ci_up : carried (l_up (links c)) (i_up i) (map packet ups);
  ci_down : carried (l_down (links c)) (i_down i) (map packet downs);
  ci_names : map (fun m => fst (label m)) ups = i_names i;
  ci_ups : Forall (good_up c seen) ups;
  ci_downs : Forall (good_down c hs) downs;
  ci_ops : forall k h, In (k, h) ops <-> lookup k open = Some (c, h, h);
  ci_range : forall k h, In (k, h) ops -> 0 <= h < 2 ^ 32;
  ci_once : NoDup (map snd (map label ups ++ ops ++ map label downs));
  ci_wait : forall k h, In (k, h) (map label ups ++ ops ++ map label downs) -> lookup h (i_pending i) = Some k;
  ci_handle : 0 <= i_handle i < 2 ^ 32;
  ci_all : forall k h, lookup h (i_pending i) = Some k -> In (k, h) (map label ups ++ ops ++ map label downs) }.

Record hist (H hs : list obs) : Prop := {
  hi_sent : forall k q t, In (Sent k q t) hs -> exists q0 t0, In (Sent k q0 t0) H /\ q = norm_request q0;
  hi_got : forall k a t, In (Got k a t) H -> exists a0 t0, In (Got k a0 t0) hs /\ a = norm_response a0;
  hi_order : forall H1 b q t H2 a r t', H = H1 ++ Sent b q t :: H2 -> In (Got a r t') H1 -> (exists q' t'', In (Sent b q' t'') hs) -> before hs a b;
  hi_once : forall k q t q' t', In (Sent k q t) H -> In (Sent k q' t') H -> q = q' /\ t = t';
  hi_ok : forall k q t, In (Sent k q t) H -> exists w qq, q = as_request w qq /\ ok_question qq }.

Record sys_inv (s : system) : Prop := {
  si_run : exists evs, serves (start init) evs = Some (y_server s);
  si_world : ok_world (fst (y_server s));
  si_chan : forall c, exists ups ops downs, chan_inv c (y_lines s c) (y_open s) (y_seen s) (snd (y_server s)) ups ops downs;
  si_open : forall k c rid h, lookup k (y_open s) = Some (c, rid, h) -> rid = h /\ w_calls (fst (y_server s)) k <> None;
  si_hist : hist (y_seen s) (snd (y_server s)) }.

Lemma before_app h h' a b : before h a b -> before (h ++ h') a b.
Proof.
  intros (h1 & h2 & h3 & res & t & q & t' & ->). exists h1, h2, (h3 ++ h'), res, t, q, t'. rewrite <- app_assoc. cbn [app]. f_equal. f_equal. rewrite <- app_assoc. reflexivity.
Qed.
Lemma chan_mono c i open open' seen seen' hs hs' ups ops downs : chan_inv c i open seen hs ups ops downs ->
  (forall o, In o seen -> In o seen') -> (forall o, In o hs -> In o hs') -> (forall k h, lookup k open' = Some (c, h, h) <-> lookup k open = Some (c, h, h)) ->
  chan_inv c i open' seen' hs' ups ops downs.
Proof.
  intros [A B C D E F G K L M Al] Is Ih Io. split; try assumption.
  - eapply Forall_impl; [|exact D]. intros [[[k h] q] body] (R & Q & P & t & J). split; [exact R|]. split; [exact Q|]. split; [exact P|]. exists t. now apply Is.
  - eapply Forall_impl; [|exact E]. intros [[[k h] q] body] (P & t & J). split; [exact P|]. exists t. now apply Ih.
  - intros k h. rewrite Io. apply F.
Qed.
Lemma chan_base c : chan_inv c no_line [] [] [] [] [] [].
Proof.
  split; cbn; try constructor; try easy; lia.
Qed.
Lemma sys_start : sys_inv (begin_system init).
Proof.
  split; cbn [begin_system y_server y_open y_lines y_seen start fst snd].
  - now exists [].
  - split; [intros x; apply (os_init _ _ _ _ _ _ _ OS)|discriminate].
  - intros c. exists [], [], []. apply chan_base.
  - discriminate.
  - split; try easy. intros [|] b q t H2 a r t' E; discriminate E.
Qed.
Lemma names_spec k H : existsb (names k) H = false -> (forall q t, ~ In (Sent k q t) H) /\ forall a t, ~ In (Got k a t) H.
Proof.
  intros E. split; intros x t I; (assert (existsb (names k) H = true) as F; [apply existsb_exists; eexists; split; [exact I|]; cbn [names]; apply Z.eqb_refl|congruence]).
Qed.
Lemma lookup_key {A} k (l : list (Z * A)) a : lookup k l = Some a -> existsb (fun p => fst p =? k) l = true.
Proof. induction l as [|[x b] l IH]; [discriminate|]. cbn [lookup existsb fst]. destruct (x =? k); [reflexivity|exact IH]. Qed.
Lemma lookup_without {A} k x (l : list (Z * A)) : lookup x (without k l) = if x =? k then None else lookup x l.
Proof.
  induction l as [|[y b] l IH]; cbn [without filter lookup fst]; [now destruct (x =? k)|]. unfold without in IH. destruct (Z.eqb_spec y k) as [->|N]; cbn [negb].
  - rewrite IH. destruct (Z.eqb_spec x k) as [->|N]; [reflexivity|]. destruct (Z.eqb_spec k x) as [->|]; [congruence|reflexivity].
  - cbn [lookup]. rewrite IH. destruct (Z.eqb_spec y x) as [->|N']; [|reflexivity]. destruct (Z.eqb_spec x k); [congruence|reflexivity].
Qed.
Lemma next_counter_range n : 0 <= n < 2 ^ 32 -> 0 <= next_counter n < 2 ^ 32.
Proof. unfold next_counter. intros H. destruct (Z.eqb_spec n 4294967295); lia. Qed.

Lemma place_inv s k c q t s' : sys_inv s -> ok_question q -> ok_time t -> place links session_of s k c q t = Some s' -> sys_inv s'.
Proof.
  intros [Ru Wo Ch Op Hi] OQ OT. unfold place. destruct (existsb (names k) (y_seen s)) eqn:Nk; [discriminate|]. apply names_spec in Nk. destruct Nk as [Nk _].
  set (h := next_counter (i_handle (y_lines s c))). destruct (existsb _ (i_pending (y_lines s c))) eqn:Nh; [discriminate|].
  destruct (Ch c) as (ups & ops & downs & CI). pose proof CI as [A B C D E F G K L M Al]. destruct (OL c) as (W1 & W2 & P1 & P2).
  assert (0 <= h < 2 ^ 32) as Rh by now apply next_counter_range.
  destruct (request_arrives (l_uris (links c)) uris (l_token (links c)) t h q OQ W1 OT Rh) as (body & Sd & Nb & Rc). rewrite Sd.
  destruct (transmit (l_up (links c)) (i_upseq (y_lines s c)) h body) as [[bs seq]|] eqn:Tr; [|discriminate]. intros Es. injection Es as <-.
  split; cbn [y_server y_open y_lines y_seen]; try assumption.
  - intros c'. unfold upd_line. destruct (Z.eqb_spec c' c) as [->|Nc].
    + exists (ups ++ [(k, h, q, body)]), ops, downs. split; cbn [i_up i_down i_upseq i_downseq i_handle i_pending i_names]; try assumption.
      * rewrite map_app. cbn [map packet]. apply carried_snoc; [exact A|]. exact (transmit_take _ _ _ _ _ _ P1 Rh Nb Tr).
      * rewrite map_app. cbn [map label fst]. now rewrite C.
      * apply Forall_app. split.
        -- eapply Forall_impl; [|exact D]. intros [[[k' h'] q'] b'] (X1 & X2 & X3 & t' & J). split; [exact X1|]. split; [exact X2|]. split; [exact X3|]. exists t'. apply in_or_app. now left.
        -- constructor; [|constructor]. split; [exact Rh|]. split; [exact OQ|]. split.
           ++ exists (question_name q), (map norm (question_vals (l_token (links c)) t h q)), []. split; [exact Rc|]. rewrite question_back. now rewrite W2.
           ++ exists t. apply in_or_app. right. now left.
      * rewrite (map_app label). cbn [map label]. rewrite <- app_assoc. cbn [app]. rewrite (map_app snd). cbn [map snd]. apply NoDup_Add with (a := h) (l := map snd (map label ups ++ ops ++ map label downs)).
        -- rewrite (map_app snd (map label ups)). apply Add_app.
        -- split; [exact K|]. intros I. apply in_map_iff in I. destruct I as ([k' h'] & Eh & I). cbn [snd] in Eh. rewrite Eh in I. pose proof (lookup_key _ _ _ (L _ _ I)) as X. congruence.
      * intros k' h' I. rewrite map_app in I. cbn [map label] in I. rewrite <- app_assoc in I. cbn [app] in I. apply in_app_or in I. cbn [In] in I.
        assert ((k', h') = (k, h) \/ In (k', h') (map label ups ++ ops ++ map label downs)) as [X|X].
        { destruct I as [I|[I|I]]; [right; apply in_or_app; now left|left; now symmetry|right; apply in_or_app; now right]. }
        -- injection X as -> ->. cbn [lookup]. now rewrite Z.eqb_refl.
        -- cbn [lookup]. pose proof (L _ _ X) as Y. destruct (Z.eqb_spec h h') as [Eh|_]; [|exact Y]. subst h'. apply lookup_key in Y. congruence.
      * intros k' h'. cbn [lookup]. destruct (Z.eqb_spec h h') as [<-|_]; intros X.
        -- injection X as <-. rewrite (map_app label). apply in_or_app. left. apply in_or_app. right. now left.
        -- apply Al in X. rewrite (map_app label), !in_app_iff. rewrite !in_app_iff in X. tauto.
    + destruct (Ch c') as (u' & o' & d' & X). exists u', o', d'. eapply chan_mono; [exact X| | |]; [|easy|easy]. intros o I. apply in_or_app. now left.
  - destruct Hi as [H1 H2 H3 H4 H5]. split.
    + intros k' q' t' I. destruct (H1 _ _ _ I) as (q0 & t0 & J & X). exists q0, t0. split; [apply in_or_app; now left|exact X].
    + intros k' a t' I. apply in_app_or in I. destruct I as [I|[I|[]]]; [|discriminate I]. exact (H2 _ _ _ I).
    + intros G1 b q' t' G2 a r t2 E' I J. destruct (List.exists_last (l := Sent b q' t' :: G2) ltac:(discriminate)) as (G3 & z & Ez). rewrite Ez in E'. rewrite app_assoc in E'. apply app_inj_tail in E'. destruct E' as [E1 E2].
      destruct G3 as [|y G3]; cbn [app] in Ez; injection Ez as Ey Ez.
      * rewrite <- E2 in Ey. injection Ey as Ek _ _. subst b. destruct J as (q'' & t'' & J). destruct (H1 _ _ _ J) as (q0 & t0 & J' & _). destruct (Nk _ _ J').
      * subst y. refine (H3 _ _ _ _ _ _ _ _ E1 I J).
    + intros k' q1 t1 q2 t2 I J. apply in_app_or in I, J. destruct I as [I|[I|[]]], J as [J|[J|[]]].
      * exact (H4 _ _ _ _ _ I J).
      * injection J as -> _ _. destruct (Nk _ _ I).
      * injection I as -> _ _. destruct (Nk _ _ J).
      * injection I as _ <- <-. injection J as _ <- <-. now split.
    + intros k' q1 t1 I. apply in_app_or in I. destruct I as [I|[I|[]]]; [exact (H5 _ _ _ I)|]. injection I as _ <- _. now exists (who c), q.
Qed.
Lemma hist_got H hs k a t : hist H hs -> hist H (hs ++ [Got k a t]).
Proof.
  intros [H1 H2 H3 H4 H5]. split; try assumption.
  - intros k' q' t' I. apply in_app_or in I. destruct I as [I|[I|[]]]; [exact (H1 _ _ _ I)|discriminate I].
  - intros k' a' t' I. destruct (H2 _ _ _ I) as (a0 & t0 & J & X). exists a0, t0. split; [apply in_or_app; now left|exact X].
  - intros G1 b q' t' G2 a' r t2 E I (q'' & t'' & J). apply before_app. apply in_app_or in J. destruct J as [J|[J|[]]]; [|discriminate J]. eapply H3; [exact E|exact I|now exists q'', t''].
Qed.
Lemma accept_inv s c t s' : sys_inv s -> ok_time t -> accept links uris session_of serve s c t = Some s' -> sys_inv s'.
Proof.
  intros [Ru Wo Ch Op Hi] OT. unfold accept. destruct (Ch c) as (ups & ops & downs & CI). pose proof CI as [A B C D E F G K L M Al].
  destruct ups as [|[[[k h] q] body] ups]; cbn [map label fst] in C; rewrite <- C; [discriminate|]. cbn [map packet] in A.
  destruct (carried_take _ _ _ _ _ A) as (rest & Tk & A'). rewrite Tk. inversion D as [|? ? D0 D']; subst. destruct D0 as (Rh & OQ & (name & vals & left & Rc & Qo) & t0 & Is). rewrite Rc, Qo. fold (who c).
  destruct (y_server s) as [w hs] eqn:Ey. cbn [fst snd] in *. destruct (serve (w, hs) _) as [srv|] eqn:Sv; [|discriminate]. intros Es. injection Es as <-.
  pose proof (ok_world_step (w, hs) (Invoke k (as_request (who c) (norm_question q)) t) _ Wo OT (ok_question_invoke k (who c) q t OQ) Sv) as Wo'. destruct (serve_invoke _ _ _ _ _ _ Sv) as (Hh & Fr & Nw & Mo).
  assert (lookup k (y_open s) = None) as Nk by (destruct (lookup k (y_open s)) as [[[c' rid'] h']|] eqn:X; [destruct (Op _ _ _ _ X); congruence|reflexivity]).
  split; cbn [y_server y_open y_lines y_seen].
  - destruct Ru as (evs & Ru). exists (evs ++ [Invoke k (as_request (who c) (norm_question q)) t]). now rewrite serves_snoc, Ru.
  - exact Wo'.
  - intros c'. unfold upd_line. destruct (Z.eqb_spec c' c) as [->|Nc].
    + exists ups, ((k, h) :: ops), downs. split; cbn [i_up i_down i_upseq i_downseq i_handle i_pending i_names]; try assumption; try reflexivity.
      * eapply Forall_impl; [|exact E]. intros [[[k' h'] a'] b'] (X & t' & J). split; [exact X|]. exists t'. rewrite Hh. apply in_or_app. now left.
      * intros k' h'. cbn [In lookup]. destruct (Z.eqb_spec k k') as [<-|N].
        -- split; [intros [X|X]; [now injection X as ->|apply F in X; congruence]|intros X; injection X as ->; now left].
        -- rewrite <- F. split; [intros [X|X]; [congruence|exact X]|now right].
      * intros k' h' [X|X]; [injection X as <- <-; exact Rh|exact (G _ _ X)].
      * cbn [map app snd label] in K. rewrite map_app. cbn [map app snd]. apply NoDup_Add with (a := h) (l := map snd (map label ups ++ ops ++ map label downs)); [rewrite (map_app snd); apply Add_app|].
        inversion K as [|? ? N1 N2]; subst. now split.
      * intros k' h' I. apply L. cbn [map app label]. apply in_app_or in I. cbn [In app] in I |- *. destruct I as [I|[I|I]]; [right; apply in_or_app; now left|now left|right; apply in_or_app; now right].
      * intros k' h' X. apply Al in X. cbn [map app label] in X. rewrite !in_app_iff. cbn [In] in X |- *. rewrite !in_app_iff in X. tauto.
    + destruct (Ch c') as (u' & o' & d' & X). exists u', o', d'. eapply chan_mono; [exact X| | |].
      * easy.
      * intros o I. rewrite Hh. apply in_or_app. now left.
      * intros k' h'. cbn [lookup]. destruct (Z.eqb_spec k k') as [<-|N]; [|reflexivity]. rewrite Nk. split; [congruence|discriminate].
  - intros k' c' rid' h'. cbn [lookup]. destruct (Z.eqb_spec k k') as [<-|N].
    + intros X. injection X as _ <- <-. now split.
    + intros X. destruct (Op _ _ _ _ X) as [-> Y]. split; [reflexivity|now apply Mo].
  - rewrite Hh. destruct Hi as [H1 H2 H3 H4 H5]. split; try assumption.
    + intros k' q' t' I. apply in_app_or in I. destruct I as [I|[I|[]]]; [exact (H1 _ _ _ I)|]. injection I as <- <- <-. exists (as_request (who c) q), t0. split; [exact Is|]. now rewrite norm_as_request.
    + intros k' a' t' I. destruct (H2 _ _ _ I) as (a0 & t1 & J & X). exists a0, t1. split; [apply in_or_app; now left|exact X].
    + intros G1 b q' t' G2 a' r t2 E' I (q'' & t'' & J). apply in_app_or in J. destruct J as [J|[J|[]]].
      * apply before_app. eapply H3; [exact E'|exact I|now exists q'', t''].
      * injection J as <- _ _. assert (In (Got a' r t2) (y_seen s)) as I' by (rewrite E'; apply in_or_app; now left). destruct (H2 _ _ _ I') as (a0 & t1 & J & _). apply in_split in J. destruct J as (g1 & g2 & ->).
        exists g1, g2, [], a0, t1, (as_request (who c) (norm_question q)), t. rewrite <- app_assoc. reflexivity.
Qed.
Lemma works_inv s k i t1 t2 s' : sys_inv s -> ok_time t1 -> ok_time t2 -> next s (Works k i t1 t2) = Some s' -> sys_inv s'.
Proof.
  intros [Ru Wo Ch Op Hi] O1 O2. cbn [Stack.next]. destruct (y_server s) as [w hs] eqn:Ey. cbn [fst snd] in *. destruct (serve (w, hs) _) as [srv|] eqn:Sv; [|discriminate]. intros Es. injection Es as <-.
  pose proof (ok_world_step (w, hs) (Run k i t1 t2) _ Wo (conj O1 O2) Logic.I Sv) as Wo'. destruct (serve_run _ _ _ _ _ _ _ Sv) as (Hh & Mo).
  split; cbn [y_server y_open y_lines y_seen]; rewrite ?Hh; try assumption.
  - destruct Ru as (evs & Ru). exists (evs ++ [Run k i t1 t2]). now rewrite serves_snoc, Ru.
  - intros k' c' rid' h' X. destruct (Op _ _ _ _ X) as [-> Y]. split; [reflexivity|now apply Mo].
Qed.
Lemma answer_inv s k t s' : sys_inv s -> ok_time t -> answer_call links uris serve s k t = Some s' -> sys_inv s'.
Proof.
  intros [Ru Wo Ch Op Hi] OT. unfold answer_call. destruct (lookup k (y_open s)) as [[[c rid] h]|] eqn:Lk; [|discriminate]. destruct (Op _ _ _ _ Lk) as [-> _].
  destruct (y_server s) as [w hs] eqn:Ey. cbn [fst snd] in *. destruct (w_calls w k) as [cl|] eqn:Ec; [|discriminate]. destruct (respond cl) as [a|] eqn:Ra; [|discriminate].
  destruct (serve (w, hs) _) as [srv|] eqn:Sv; [|discriminate]. pose proof (ok_world_step (w, hs) (Respond k t) _ Wo OT Logic.I Sv) as Wo'. destruct (serve_respond _ _ _ _ _ Sv) as (cl' & a' & Ec' & Ra' & Hh & Mo).
  assert (cl' = cl) as -> by congruence. assert (a' = a) as -> by congruence. clear Ec' Ra'.
  destruct (Ch c) as (ups & ops & downs & CI). pose proof CI as [A B C D E F G K L M Al]. destruct (OL c) as (W1 & W2 & P1 & P2). apply F in Lk. pose proof (G _ _ Lk) as Rh.
  pose proof (respond_ok _ _ (proj2 Wo _ _ Ec) Ra) as OA.
  destruct (response_arrives uris (l_uris (links c)) t h a OA OT Rh) as (body & Sd & Nb & Rc). rewrite Sd.
  destruct (transmit (l_down (links c)) (i_downseq (y_lines s c)) h body) as [[bs seq]|] eqn:Tr; [|discriminate]. intros Es. injection Es as <-.
  split; cbn [y_server y_open y_lines y_seen].
  - destruct Ru as (evs & Ru). exists (evs ++ [Respond k t]). now rewrite serves_snoc, Ru.
  - exact Wo'.
  - intros c'. unfold upd_line. destruct (Z.eqb_spec c' c) as [->|Nc].
    + apply in_split in Lk. destruct Lk as (o1 & o2 & ->). exists ups, (o1 ++ o2), (downs ++ [(k, h, a, body)]).
      assert (NoDup (h :: map snd (map label ups ++ (o1 ++ o2) ++ map label downs))) as K'.
      { apply NoDup_Add with (a := h) (l := map snd (map label ups ++ (o1 ++ o2) ++ map label downs)) in K; [constructor; apply K|].
        rewrite !map_app. cbn [map snd]. rewrite <- !app_assoc. cbn [app]. rewrite (app_assoc (map snd (map label ups))), (app_assoc (map snd (map label ups)) (map snd o1)). apply Add_app. }
      split; cbn [i_up i_down i_upseq i_downseq i_handle i_pending i_names]; try assumption.
      * rewrite map_app. cbn [map packet]. apply carried_snoc; [exact B|]. exact (transmit_take _ _ _ _ _ _ P2 Rh Nb Tr).
      * apply Forall_app. rewrite Hh. split.
        -- eapply Forall_impl; [|exact E]. intros [[[k' h'] a'] b'] (X & t' & J). split; [exact X|]. exists t'. apply in_or_app. now left.
        -- constructor; [|constructor]. split.
           ++ exists (response_name a), (map norm (response_vals t h a)), []. split; [exact Rc|]. apply response_back. intros st ->. apply OA.
           ++ exists t. apply in_or_app. right. now left.
      * intros k' h'. rewrite lookup_without. destruct (Z.eqb_spec k' k) as [->|N].
        -- split; [|discriminate]. intros X. assert (In (k, h') (o1 ++ (k, h) :: o2)) as Y by (apply in_app_or in X; apply in_or_app; cbn [In]; tauto). apply F in Y.
           assert (lookup k (y_open s) = Some (c, h, h)) as Z0 by (apply F; apply in_or_app; right; now left). rewrite Z0 in Y. injection Y as <-. inversion K' as [|? ? N1 N2]; subst. destruct N1. apply in_map_iff. exists (k, h). split; [reflexivity|]. apply in_or_app. right. apply in_or_app. now left.
        -- rewrite <- F. split; intros X; apply in_app_or in X; apply in_or_app; cbn [In] in *; [tauto|]. destruct X as [X|[X|X]]; [now left|congruence|now right].
      * intros k' h' X. apply (G k' h'). apply in_app_or in X. apply in_or_app. cbn [In]. tauto.
      * apply NoDup_Add with (a := h) (l := map snd (map label ups ++ (o1 ++ o2) ++ map label downs)).
        -- rewrite (map_app label downs). cbn [map label]. rewrite !app_assoc, (map_app snd _ [(k, h)]). cbn [map snd]. rewrite <- (app_nil_r (map snd (((map label ups ++ o1) ++ o2) ++ map label downs))) at 1. apply Add_app.
        -- inversion K' as [|? ? N1 N2]; subst. now split.
      * intros k' h' X. apply L. rewrite (map_app label downs) in X. cbn [map label] in X. rewrite !in_app_iff in X. rewrite !in_app_iff. cbn [In] in X |- *. tauto.
      * intros k' h' X. apply Al in X. rewrite (map_app label downs). cbn [map label]. rewrite !in_app_iff in X. rewrite !in_app_iff. cbn [In] in X |- *. tauto.
    + destruct (Ch c') as (u' & o' & d' & X). exists u', o', d'. eapply chan_mono; [exact X| | |].
      * easy.
      * intros o I. rewrite Hh. apply in_or_app. now left.
      * intros k' h'. rewrite lookup_without. destruct (Z.eqb_spec k' k) as [->|N]; [|reflexivity]. split; [discriminate|]. apply F in Lk. rewrite Lk. congruence.
  - intros k' c' rid' h'. rewrite lookup_without. destruct (k' =? k); [discriminate|]. intros X. destruct (Op _ _ _ _ X) as [-> Y]. split; [reflexivity|now apply Mo].
  - rewrite Hh. now apply hist_got.
Qed.
Lemma return_inv s c t s' : sys_inv s -> return_answer links s c t = Some s' -> sys_inv s'.
Proof.
  intros [Ru Wo Ch Op Hi]. unfold return_answer. destruct (Ch c) as (ups & ops & downs & CI). pose proof CI as [A B C D E F G K L M Al].
  destruct downs as [|[[[k h] a] body] downs]; [cbn [map] in B; rewrite (carried_none _ _ B); discriminate|]. cbn [map packet] in B.
  destruct (carried_take _ _ _ _ _ B) as (rest & Tk & B'). rewrite Tk. inversion E as [|? ? E0 E']; subst. destruct E0 as ((name & vals & left & Rc & Ro) & t0 & Is). rewrite Rc, Ro.
  assert (lookup h (i_pending (y_lines s c)) = Some k) as Lh by (apply L; rewrite !in_app_iff; right; right; now left). rewrite Lh. intros Es. injection Es as <-.
  assert (NoDup (h :: map snd (map label ups ++ ops ++ map label downs))) as K'.
  { apply NoDup_Add with (a := h) (l := map snd (map label ups ++ ops ++ map label downs)) in K; [constructor; apply K|]. cbn [map label]. rewrite !app_assoc, !(map_app snd (map label ups ++ ops)). cbn [map snd]. apply Add_app. }
  split; cbn [y_server y_open y_lines y_seen]; try assumption.
  - intros c'. unfold upd_line. destruct (Z.eqb_spec c' c) as [->|Nc].
    + exists ups, ops, downs. split; cbn [i_up i_down i_upseq i_downseq i_handle i_pending i_names]; try assumption.
      * eapply Forall_impl; [|exact D]. intros [[[k' h'] q'] b'] (X1 & X2 & X3 & t' & J). split; [exact X1|]. split; [exact X2|]. split; [exact X3|]. exists t'. apply in_or_app. now left.
      * now inversion K'.
      * intros k' h' I. rewrite lookup_without. destruct (Z.eqb_spec h' h) as [->|N].
        -- inversion K' as [|? ? N1 N2]; subst. destruct N1. apply in_map_iff. now exists (k', h).
        -- apply L. rewrite !in_app_iff in I |- *. cbn [map In]. tauto.
      * intros k' h'. rewrite lookup_without. destruct (Z.eqb_spec h' h) as [->|N]; [discriminate|]. intros X. apply Al in X. cbn [map label] in X. rewrite !in_app_iff in X |- *. cbn [In] in X. destruct X as [X|[X|[X|X]]]; [now left|right; now left|congruence|right; now right].
    + destruct (Ch c') as (u' & o' & d' & X). exists u', o', d'. eapply chan_mono; [exact X| | |]; [|easy|easy]. intros o I. apply in_or_app. now left.
  - destruct Hi as [H1 H2 H3 H4 H5]. split.
    + intros k' q' t' I. destruct (H1 _ _ _ I) as (q0 & t1 & J & X). exists q0, t1. split; [apply in_or_app; now left|exact X].
    + intros k' a' t' I. apply in_app_or in I. destruct I as [I|[I|[]]]; [exact (H2 _ _ _ I)|]. injection I as <- <- <-. now exists a, t0.
    + intros G1 b q' t' G2 a' r t2 E1 I J. destruct (List.exists_last (l := Sent b q' t' :: G2) ltac:(discriminate)) as (G3 & z & Ez). rewrite Ez in E1. rewrite app_assoc in E1. apply app_inj_tail in E1. destruct E1 as [E1 E2].
      destruct G3 as [|y G3]; cbn [app] in Ez; injection Ez as Ey Ez; [congruence|]. subst y. exact (H3 _ _ _ _ _ _ _ _ E1 I J).
    + intros k' q1 t1 q2 t2 I J. apply in_app_or in I, J. destruct I as [I|[I|[]]]; [|discriminate I]. destruct J as [J|[J|[]]]; [|discriminate J]. exact (H4 _ _ _ _ _ I J).
    + intros k' q1 t1 I. apply in_app_or in I. destruct I as [I|[I|[]]]; [exact (H5 _ _ _ I)|discriminate I].
Qed.
Lemma next_inv s e s' : sys_inv s -> ok_event e -> next s e = Some s' -> sys_inv s'.
Proof.
  destruct e as [k c q t|c t|k i t1 t2|k t|c t]; cbn [ok_event]; intros Iv O E.
  - destruct O as [O1 O2]. exact (place_inv _ _ _ _ _ _ Iv O1 O2 E).
  - exact (accept_inv _ _ _ _ Iv O E).
  - destruct O as [O1 O2]. exact (works_inv _ _ _ _ _ _ Iv O1 O2 E).
  - exact (answer_inv _ _ _ _ Iv O E).
  - exact (return_inv _ _ _ _ Iv E).
Qed.
Lemma happens_inv l s s' : sys_inv s -> Forall ok_event l -> happens s l = Some s' -> sys_inv s'.
Proof.
  revert s. induction l as [|e l IH]; intros s Iv F E; cbn [Stack.happens] in E; [now injection E as <-|]. inversion F as [|? ? Oe F']; subst. destruct (next s e) as [s1|] eqn:Es; [|discriminate].
  exact (IH s1 (next_inv _ _ _ Iv Oe Es) F' E).
Qed.
(** * What the server did, as the clients see it *)
Definition norm_answer (a : answer) : answer := match a with AValue d => AValue (norm_dval d) | AStatus st => AStatus st end.
Definition norm_effect (o : effect) : effect := mkEffect (o_req o) (o_index o) (o_request o) (o_op o) (norm_answer (o_answer o)) (norm_stamp (o_from o)) (norm_stamp (o_to o)).
Definition init' (x : nodeid) : dval := norm_dval (init x).
Lemma answer_zero a : norm_answer a = AStatus 0 <-> a = AStatus 0.
Proof. destruct a; cbn [norm_answer]; [split; discriminate|reflexivity]. Qed.
Lemma writes_norm o x : writes (norm_effect o) x <-> writes o x.
Proof.
  unfold writes, norm_effect. cbn [o_op o_answer]. split; intros (q & A & B & C & D); exists q; (split; [exact A|]); (split; [exact B|]); (split; [exact C|]); now apply answer_zero.
Qed.
Lemma norm_byte_array s : norm (byte_array s) = byte_array s.
Proof. unfold byte_array. cbn [norm]. f_equal. rewrite map_map. apply map_ext. intros b. reflexivity. Qed.
Lemma holds_norm v g k : holds vt v g k -> norm g = g -> norm k = k.
Proof.
  intros [(_ & _ & s & _ & ->)|[(_ & _ & s & _ & ->)|[(_ & _ & _ & ->)|(-> & _)]]] H; [apply norm_byte_array|reflexivity|reflexivity|exact H].
Qed.
Definition fine (o : effect) : Prop := forall q, o_op o = WR q -> norm (d_value (w_value q)) = d_value (w_value q) /\ okv (d_value (w_value q)).
Lemma okv_proper v : okv v -> proper v.
Proof.
  destruct v as [tb b|ob|lb| |lb|lb| |k y|k|k lb|k m|k m|y st t1 p1 t2 p2| |tid lb|db]; try (intros; exact Logic.I). destruct k as [[]| | | |]; try (intros; exact Logic.I).
  cbn [wf proper]. intros (_ & _ & _ & W). apply Forall_forall. intros x I. induction lb as [|y lb IH]; [destruct I|]. cbn [wall] in W. destruct W as [W1 W2]. destruct I as [<-|I]; [|now apply IH].
  destruct y as [tb b|ob|lx| |lx|lx| |k y|k|k lx|k m|k m|y st t1 p1 t2 p2| |tid lx|db]; cbn [wf ty_of_kind] in W1; try (exfalso; exact W1).
  all: try (destruct W1; discriminate). all: try discriminate W1.
  destruct W1 as [E B]. injection E as E. subst tb. exists b. split; [reflexivity|]. exact B.
Qed.
Lemma wrote_norm o x v d : fine o -> wrote vt o x v d -> wrote vt (norm_effect o) x v (norm_dval d) /\ norm (d_value d) = d_value d /\ okv (d_value d).
Proof.
  intros F (q & A & B & C & D & H & S & T1 & T2 & P1 & P2). destruct (F q A) as [N W]. pose proof (holds_norm _ _ _ H N) as Nk. split; [|split].
  - exists q. unfold norm_effect, norm_dval. cbn [o_op o_answer o_from o_to d_value d_status d_src d_srcp d_srv d_srvp]. rewrite Nk, T1, T2. split; [exact A|]. split; [exact B|]. split; [exact C|]. split; [now apply answer_zero|].
    split; [exact H|]. now repeat split.
  - exact Nk.
  - rewrite (holds_stored vt v _ _ (okv_proper _ W) H). now apply ok_stored.
Qed.
Lemma contents_norm x v l d : Forall fine l -> contents vt init x v l d -> contents vt init' x v (map norm_effect l) (norm_dval d) /\ norm (d_value d) = d_value d /\ okv (d_value d).
Proof.
  intros F C. destruct C as [U|l1 o l2 d E W U].
  - split; [|split; apply (os_init _ _ _ _ _ _ _ OS)]. apply (Untouched vt init' x v). intros o I. apply in_map_iff in I. destruct I as (o' & <- & I). rewrite writes_norm. now apply U.
  - subst l. apply Forall_app in F. destruct F as [_ F]. inversion F as [|? ? Fo _]; subst. destruct (wrote_norm _ _ _ _ Fo W) as (W' & N & O). split; [|now split].
    apply (Last vt init' x v _ (map norm_effect l1) (norm_effect o) (map norm_effect l2)); [apply map_app|exact W'|]. intros o' I. apply in_map_iff in I. destruct I as (o2 & <- & I). rewrite writes_norm. now apply U.
Qed.
Lemma with_stamps_norm st d : norm_dval (with_stamps st d) = with_stamps st (norm_dval d).
Proof. unfold norm_dval, with_stamps. cbn [d_value d_status d_src d_srcp d_srv d_srvp]. f_equal; destruct (_ || _); reflexivity. Qed.
Lemma legal_norm l o : Forall fine l -> legal default nodes vt lim range_read init l o -> legal default nodes vt lim range_read init' (map norm_effect l) (norm_effect o).
Proof.
  intros F. unfold legal, norm_effect. cbn [o_request o_op o_answer]. destruct (o_request o) as [who age st ops|who ops], (o_op o) as [q|q]; try easy.
  - intros L n v A E R. destruct (L n v A E R) as [L1 L2]. split.
    + intros M. destruct (L1 M) as (d & C & D1 & D2). destruct (contents_norm _ _ _ _ F C) as (C' & N & O). exists (norm_dval d). split; [exact C'|]. split.
      * intros Rq. rewrite (D1 Rq). cbn [norm_answer]. now rewrite with_stamps_norm.
      * intros Rq. destruct (D2 Rq) as (rs & -> & D3). exists (norm_dval rs). split; [reflexivity|]. unfold norm_dval. cbn [d_value d_status]. rewrite N.
        pose proof (os_range_read _ _ _ _ _ _ _ OS (d_value d) (r_range q) O) as X. destruct (range_read (d_value d) (r_range q)) as [y|s|]; [| |exact Logic.I]; destruct D3 as [-> ->].
        -- split; [now apply X|reflexivity].
        -- now split.
    + intros M. destruct (L2 M) as (rs & -> & V & B). exists (norm_dval rs). split; [reflexivity|]. unfold norm_dval. cbn [d_value d_status]. rewrite V. now split.
  - intros L n v A R. rewrite answer_zero. exact (L n v A R).
Qed.
Lemma sent_fine s r q t : sys_inv s -> In (Sent r q t) (snd (y_server s)) -> no_ranges (y_seen s) ->
  forall x, In (WR x) (ops_of q) -> norm (d_value (w_value x)) = d_value (w_value x) /\ okv (d_value (w_value x)) /\ w_range x = [].
Proof.
  intros [_ _ _ _ Hi] I NR x Ix. destruct (hi_sent _ _ Hi _ _ _ I) as (q0 & t0 & J & ->). destruct (hi_ok _ _ Hi _ _ _ J) as (w & qq & -> & O).
  destruct qq as [age st l|l]; cbn [as_request norm_request ops_of] in Ix; apply in_map_iff in Ix; destruct Ix as (y & E & Iy); [discriminate E|]. injection E as <-. apply in_map_iff in Iy. destruct Iy as (z & <- & Iz).
  destruct O as [_ O]. destruct (proj1 (Forall_forall _ _) O z Iz) as (_ & _ & _ & _ & _ & W). cbn [norm_wop w_value norm_dval d_value w_range]. split; [apply norm_twice|]. split; [exact W|].
  exact (NR _ _ _ _ _ J Iz).
Qed.
Lemma in_arriving_sent r q t H : In (Sent r q t) (map arriving H) <-> exists q0, In (Sent r q0 t) H /\ q = norm_request q0.
Proof.
  rewrite in_map_iff. split.
  - intros ([r' q' t'|r' a' t'] & E & I); cbn [arriving] in E; [|discriminate E]. injection E as <- <- <-. now exists q'.
  - intros (q0 & I & ->). exists (Sent r q0 t). now split.
Qed.
Lemma in_arriving_got r a t H : In (Got r a t) (map arriving H) <-> In (Got r a t) H.
Proof.
  rewrite in_map_iff. split.
  - intros ([r' q' t'|r' a' t'] & E & I); cbn [arriving] in E; [discriminate E|]. now injection E as <- <- <-.
  - intros I. exists (Got r a t). now split.
Qed.
Lemma before_arriving H a b : before (map arriving H) a b -> exists H1 q t H2 r t', H = H1 ++ Sent b q t :: H2 /\ In (Got a r t') H1.
Proof.
  intros (h1 & h2 & h3 & rs & t & q & t' & E). apply map_eq_app in E. destruct E as (g1 & g2 & -> & _ & E). apply map_eq_cons in E. destruct E as (x & g3 & -> & Ex & E). apply map_eq_app in E. destruct E as (g4 & g5 & -> & _ & E).
  apply map_eq_cons in E. destruct E as (y & g6 & -> & Ey & _). destruct x as [|ra aa ta]; [discriminate Ex|]. destruct y as [rb qb tb|]; [|discriminate Ey]. cbn [arriving] in Ex, Ey. injection Ex as -> _ _. injection Ey as -> _ _.
  exists (g1 ++ Got a aa ta :: g4), qb, tb, g6, aa, ta. split; [rewrite <- app_assoc; reflexivity|]. apply in_or_app. right. now left.
Qed.
Lemma inv_linearizable s : sys_inv s -> no_ranges (y_seen s) -> exists l, explains default nodes vt lim range_read init' (map arriving (y_seen s)) l.
Proof.
  intros Iv NR. pose proof Iv as [(evs & Ru) Wo Ch Op Hi]. destruct (y_server s) as [w hs] eqn:Ey. cbn [fst snd] in *.
  assert (whole_writes hs) as WW.
  { intros r who' ops t x I J. assert (In (Sent r (Write who' ops) t) (snd (y_server s))) as I' by now rewrite Ey. destruct (sent_fine s r _ t Iv I' NR x) as (_ & W & R); [cbn [ops_of]; now apply in_map|]. split; [exact R|now apply okv_proper]. }
  destruct (linearizable _ _ _ _ _ _ _ _ _ _ _ _ _ evs w hs (os_plain _ _ _ _ _ _ _ OS) Ru WW) as (l & [E1 E2 E3 E4 E5]).
  assert (forall o, In o l -> fine o) as Fl.
  { intros o I q Eq. destruct (E2 o I) as [(t & J) N]. assert (In (Sent (o_req o) (o_request o) t) (snd (y_server s))) as J' by now rewrite Ey. rewrite Eq in N. destruct (sent_fine s _ _ _ Iv J' NR q (nth_error_In _ _ N)) as (A & B & _). now split. }
  exists (map norm_effect l). split.
  - now rewrite map_map.
  - intros o I. apply in_map_iff in I. destruct I as (o' & <- & I). destruct (E2 o' I) as [(t & J) N]. destruct (hi_sent _ _ Hi _ _ _ J) as (q0 & t0 & K & Eq). split; [|exact N]. exists t0. cbn [norm_effect o_req o_request]. rewrite Eq. apply in_arriving_sent. now exists q0.
  - intros r i a An.
    assert (exists a0, answered hs r i a0 /\ a = norm_answer a0) as (a0 & A0 & ->).
    { destruct An as [(la & t & d & I & N & ->)|(la & t & d & I & N & ->)]; apply (proj1 (in_arriving_got _ _ _ _)) in I; destruct (hi_got _ _ Hi _ _ _ I) as (a0 & t0 & J & E); destruct a0 as [f|l0|l0]; try discriminate E; injection E as ->.
      - rewrite nth_error_map in N. destruct (nth_error l0 i) as [d0|] eqn:N0; [|discriminate N]. injection N as <-. exists (AValue d0). split; [|reflexivity]. left. now exists l0, t0, d0.
      - exists (AStatus d). split; [|reflexivity]. right. now exists l0, t0, d. }
    destruct (E3 _ _ _ A0) as (o & I & <- & <- & <-). exists (norm_effect o). split; [now apply in_map|]. now repeat split.
  - intros l1 a l2 b l3 E B. apply map_eq_app in E. destruct E as (m1 & m2 & E & _ & X). apply map_eq_cons in X. destruct X as (a' & m3 & -> & <- & X). apply map_eq_app in X. destruct X as (m4 & m5 & -> & _ & X). apply map_eq_cons in X. destruct X as (b' & m6 & -> & <- & _).
    destruct (before_arriving _ _ _ B) as (H1 & q & t & H2 & r & t' & EH & IG). cbn [norm_effect o_req] in *. apply (E4 _ _ _ _ _ E). apply (hi_order _ _ Hi _ _ _ _ _ _ _ _ EH IG).
    destruct (E2 a') as [(t2 & J) _]; [rewrite E; apply in_or_app; right; now left|]. now exists (o_request a'), t2.
  - intros l1 o l2 E. apply map_eq_app in E. destruct E as (m1 & m2 & E & <- & X). apply map_eq_cons in X. destruct X as (o' & m3 & -> & <- & _). apply legal_norm; [|exact (E5 _ _ _ E)].
    apply Forall_forall. intros x I. apply Fl. rewrite E. apply in_or_app. now left.
Qed.
Theorem stack_linearizable l s : Forall ok_event l -> happens (begin_system init) l = Some s -> no_ranges (y_seen s) ->
  exists e, explains default nodes vt lim range_read init' (map arriving (y_seen s)) e.
Proof. intros F E NR. apply inv_linearizable; [exact (happens_inv _ _ _ sys_start F E)|exact NR]. Qed.
Theorem stack_last_value l s : Forall ok_event l -> happens (begin_system init) l = Some s -> no_ranges (y_seen s) ->
  let h := map arriving (y_seen s) in
  forall r1 i q1 x r2 j who age st ops y n v d,
  asked h r1 i q1 (WR x) -> w_attr x = 13 -> register nodes (w_node x) n v -> answered h r1 i (AStatus 0) ->
  asked h r2 j (Read who age st ops) (RD y) -> r_node y = w_node x -> r_attr y = 13 -> r_encoding y = [] -> r_range y = [] -> may_read default who n v ->
  before h r1 r2 ->
  (forall r k q z, asked h r k q (WR z) -> w_node z = w_node x -> w_attr z = 13 -> (r = r1 /\ k = i) \/ before h r r1 \/ before h r2 r) ->
  answered h r2 j (AValue d) ->
  holds vt v (d_value (w_value x)) (d_value d) /\ d_status d = d_status (w_value x).
Proof.
  intros F E NR h. pose proof (happens_inv _ _ _ sys_start F E) as Iv. destruct (inv_linearizable s Iv NR) as (e & X). apply (explained_last _ _ _ _ _ _ _ _ X).
  intros r q t q' t' I1 I2. apply in_arriving_sent in I1, I2. destruct I1 as (q1 & I1 & ->), I2 as (q2 & I2 & ->). now destruct (hi_once _ _ (si_hist _ Iv) _ _ _ _ _ I1 I2) as [-> _].
Qed.

(** * Every request and every answer arrives, once *)
Record flow (s : system) : Prop := {
  fl_names : forall c k, In k (i_names (y_lines s c)) -> w_calls (fst (y_server s)) k = None;
  fl_one : forall c c' h h' k, lookup h (i_pending (y_lines s c)) = Some k -> lookup h' (i_pending (y_lines s c')) = Some k -> c = c' /\ h = h';
  fl_pend : forall c h k, lookup h (i_pending (y_lines s c)) = Some k -> (exists q t, In (Sent k q t) (y_seen s)) /\ forall a t, ~ In (Got k a t) (y_seen s);
  fl_wait : forall k q t, In (Sent k q t) (y_seen s) -> (exists a t', In (Got k a t') (y_seen s)) \/ exists c h, lookup h (i_pending (y_lines s c)) = Some k;
  fl_open : forall k x, lookup k (y_open s) = Some x -> forall a t, ~ In (Got k a t) (snd (y_server s));
  fl_got : forall H1 k a t H2, y_seen s = H1 ++ Got k a t :: H2 -> (exists q t', In (Sent k q t') H1) /\ forall a' t', ~ In (Got k a' t') H1 }.
Lemma flow_start : flow (begin_system init).
Proof. split; cbn [begin_system y_server y_open y_lines y_seen no_line i_names i_pending lookup start fst snd]; try easy. intros H1 k a t H2 E. destruct H1; discriminate E. Qed.
Lemma inv_base s : sys_inv s -> DataPathProofs.base max_read max_write (fst (y_server s)) (snd (y_server s)).
Proof.
  intros [(evs & Ru) _ _ _ _]. destruct (y_server s) as [w hs]. cbn [fst snd]. eapply base_run; [apply base_start|exact Ru].
Qed.
Lemma serve_frame s e s' : serve s e = Some s' -> forall x, match e with Invoke r _ _ => x <> r | _ => True end -> w_calls (fst s') x = None <-> w_calls (fst s) x = None.
Proof.
  destruct s as [w h]. unfold step. destruct (w_down w); [discriminate|]. destruct e as [r q t|r i t1 t2|r t].
  - destruct (w_calls w r); [discriminate|]. intros E x N. injection E as <-. cbn [fst w_calls]. unfold upd_call. destruct (Z.eqb_spec x r); [congruence|reflexivity].
  - destruct (w_calls w r) as [c|] eqn:Ec; [|discriminate]. destruct (nth_error (c_tasks c) i) as [k|]; [|discriminate]. destruct (k_answer k); [discriminate|].
    destruct (work _ _ _ _ _); intros E x _; injection E as <-; cbn [fst w_calls]; [|reflexivity]. unfold upd_call. destruct (Z.eqb_spec x r) as [->|]; [|reflexivity]. rewrite Ec. split; discriminate.
  - destruct (w_calls w r) as [c|] eqn:Ec; [|discriminate]. destruct (c_done c); [discriminate|]. destruct (respond c) as [a|]; [|discriminate]. intros E x _. injection E as <-. cbn [fst w_calls]. unfold upd_call. destruct (Z.eqb_spec x r) as [->|]; [|reflexivity]. rewrite Ec. split; discriminate.
Qed.
Lemma calls_sent s k : sys_inv s -> w_calls (fst (y_server s)) k <> None -> exists q t, In (Sent k q t) (y_seen s).
Proof.
  intros Iv N. destruct (w_calls (fst (y_server s)) k) as [c|] eqn:E; [|congruence]. destruct (DataPathProofs.b_sent _ _ _ _ (inv_base s Iv) _ _ E) as (t & I). destruct (hi_sent _ _ (si_hist _ Iv) _ _ _ I) as (q0 & t0 & J & _). now exists q0, t0.
Qed.
Lemma got_calls s k a t : sys_inv s -> In (Got k a t) (snd (y_server s)) -> w_calls (fst (y_server s)) k <> None.
Proof. intros Iv I. destruct (DataPathProofs.b_got _ _ _ _ (inv_base s Iv) _ _ _ I) as (c & E & _). congruence. Qed.
Lemma got_snoc_sent (H : list obs) x (P : list obs -> Z -> Prop) : (forall k a t, x <> Got k a t) -> (forall H1 k a t H2, H = H1 ++ Got k a t :: H2 -> P H1 k) -> forall H1 k a t H2, H ++ [x] = H1 ++ Got k a t :: H2 -> P H1 k.
Proof.
  intros N F H1 k a t H2 E. destruct (snoc_cases H2) as [->|(H3 & z & ->)].
  - apply app_inj_tail in E. destruct E as [_ E]. destruct (N k a t E).
  - rewrite app_comm_cons, app_assoc in E. apply app_inj_tail in E. destruct E as [E _]. exact (F _ _ _ _ _ E).
Qed.
Lemma flow_place s k c q t s' : sys_inv s -> flow s -> place links session_of s k c q t = Some s' -> flow s'.
Proof.
  intros Iv [F1 F2 F3 F4 F5 F6]. unfold place. destruct (existsb (names k) (y_seen s)) eqn:Nk; [discriminate|]. apply names_spec in Nk. destruct Nk as [Nk Nk'].
  set (h := next_counter (i_handle (y_lines s c))). destruct (existsb _ (i_pending (y_lines s c))) eqn:Nh; [discriminate|].
  destruct (client_send _ _ _) as [body|]; [|discriminate]. destruct (transmit _ _ _ _) as [[bs seq]|]; [|discriminate]. intros Es. injection Es as <-.
  split; cbn [y_server y_open y_lines y_seen]; try assumption.
  - intros c' k'. unfold upd_line. destruct (Z.eqb_spec c' c) as [->|Nc]; [|apply F1]. cbn [i_names]. intros I. apply in_app_or in I. destruct I as [I|[<-|[]]]; [exact (F1 _ _ I)|].
    destruct (w_calls (fst (y_server s)) k) eqn:X; [|reflexivity]. destruct (calls_sent s k Iv) as (q' & t' & J); [congruence|]. destruct (Nk _ _ J).
  - assert (forall c' h', lookup h' (i_pending (y_lines s c')) = Some k -> False) as No by (intros c' h' X; destruct (F3 _ _ _ X) as [(q' & t' & J) _]; exact (Nk _ _ J)).
    intros c1 c2 h1 h2 k'. unfold upd_line. destruct (Z.eqb_spec c1 c) as [->|N1], (Z.eqb_spec c2 c) as [->|N2]; cbn [i_pending lookup].
    + destruct (Z.eqb_spec h h1) as [<-|M1], (Z.eqb_spec h h2) as [<-|M2]; intros X Y; [now split| | |exact (F2 _ _ _ _ _ X Y)].
      * injection X as <-. destruct (No _ _ Y).
      * injection Y as <-. destruct (No _ _ X).
    + destruct (Z.eqb_spec h h1) as [<-|M1]; intros X Y; [injection X as <-; destruct (No _ _ Y)|exact (F2 _ _ _ _ _ X Y)].
    + destruct (Z.eqb_spec h h2) as [<-|M2]; intros X Y; [injection Y as <-; destruct (No _ _ X)|exact (F2 _ _ _ _ _ X Y)].
    + apply F2.
  - assert (forall c' h' k', lookup h' (i_pending (y_lines s c')) = Some k' -> (exists q' t', In (Sent k' q' t') (y_seen s ++ [Sent k (as_request (session_of c (l_token (links c))) q) t])) /\ forall a t', ~ In (Got k' a t') (y_seen s ++ [Sent k (as_request (session_of c (l_token (links c))) q) t])) as Old.
    { intros c' h' k' X. destruct (F3 _ _ _ X) as [(q' & t' & J) G]. split; [exists q', t'; apply in_or_app; now left|]. intros a t2 I. apply in_app_or in I. destruct I as [I|[I|[]]]; [exact (G _ _ I)|discriminate I]. }
    intros c' h' k'. unfold upd_line. destruct (Z.eqb_spec c' c) as [->|Nc]; [|apply Old]. cbn [i_pending lookup]. destruct (Z.eqb_spec h h') as [<-|M]; [|apply Old]. intros X. injection X as <-. split.
    + eexists. eexists. apply in_or_app. right. now left.
    + intros a t2 I. apply in_app_or in I. destruct I as [I|[I|[]]]; [exact (Nk' _ _ I)|discriminate I].
  - intros k' q' t' I. apply in_app_or in I. destruct I as [I|[I|[]]].
    + destruct (F4 _ _ _ I) as [(a & t2 & J)|(c' & h' & X)]; [left; exists a, t2; apply in_or_app; now left|]. right. exists c', h'. unfold upd_line. destruct (Z.eqb_spec c' c) as [->|Nc]; [|exact X]. cbn [i_pending lookup]. destruct (Z.eqb_spec h h') as [<-|M]; [|exact X]. apply lookup_key in X. congruence.
    + injection I as <- _ _. right. exists c, h. unfold upd_line. rewrite Z.eqb_refl. cbn [i_pending lookup]. now rewrite Z.eqb_refl.
  - apply (got_snoc_sent (y_seen s) _ (fun H1 k' => (exists q' t', In (Sent k' q' t') H1) /\ forall a' t', ~ In (Got k' a' t') H1)); [discriminate|exact F6].
Qed.
Lemma chan_keys c i open seen hs ups ops downs k h q body : chan_inv c i open seen hs ((k, h, q, body) :: ups) ops downs -> lookup h (i_pending i) = Some k /\
  forall k', In k' (map (fun m => fst (label m)) ups) -> exists h', h' <> h /\ lookup h' (i_pending i) = Some k'.
Proof.
  intros [A B C D E F G K L M Al]. split; [apply L; now left|]. intros k' I. apply in_map_iff in I. destruct I as ([[[k2 h2] q2] b2] & E2 & I). cbn [label fst] in E2. subst k2. exists h2. split.
  - intros ->. cbn [map label app snd] in K. inversion K as [|? ? N1 N2]; subst. destruct N1. apply in_map_iff. exists (k', h). split; [reflexivity|]. apply in_or_app. left. apply in_map_iff. now exists (k', h, q2, b2).
  - apply L. right. apply in_or_app. left. apply in_map_iff. now exists (k', h2, q2, b2).
Qed.
Lemma flow_accept s c t s' : sys_inv s -> flow s -> accept links uris session_of serve s c t = Some s' -> flow s'.
Proof.
  intros Iv [F1 F2 F3 F4 F5 F6]. unfold accept. destruct (i_names (y_lines s c)) as [|k ks] eqn:En; [discriminate|]. destruct (take_message _ _) as [[[rid body] rest]|]; [|discriminate].
  destruct (server_receive uris body) as [[name vals] left| | |]; try discriminate. destruct (question_of name vals) as [[[tok h0] q0]|]; [|discriminate].
  destruct (serve (y_server s) _) as [srv|] eqn:Sv; [|discriminate]. intros Es. injection Es as <-. pose proof (serve_frame _ _ _ Sv) as Fr. cbn iota in Fr.
  destruct (y_server s) as [w hs] eqn:Ey. destruct (serve_invoke _ _ _ _ _ _ Sv) as (Hh & Nw & _ & _).
  assert (forall c', exists ups ops downs, chan_inv c' (y_lines s c') (y_open s) (y_seen s) hs ups ops downs) as Ch by (intros c'; pose proof (si_chan _ Iv c') as X; now rewrite Ey in X).
  destruct (Ch c) as (ups & ops & downs & CI). pose proof (ci_names _ _ _ _ _ _ _ _ CI) as En'. rewrite En in En'. destruct ups as [|[[[k1 h1] q1] b1] ups]; [discriminate En'|]. cbn [map label fst] in En'. injection En' as -> En'.
  destruct (chan_keys _ _ _ _ _ _ _ _ _ _ _ _ CI) as [Lk Ks]. rewrite En' in Ks.
  assert (forall c', i_pending (upd_line (y_lines s) c (mkLine rest (i_down (y_lines s c)) (i_upseq (y_lines s c)) (i_downseq (y_lines s c)) (i_handle (y_lines s c)) (i_pending (y_lines s c)) ks) c') = i_pending (y_lines s c')) as Ep.
  { intros c'. unfold upd_line. now destruct (Z.eqb_spec c' c) as [->|]. }
  split; cbn [y_server y_open y_lines y_seen]; try assumption.
  - intros c' k' I.
    assert (k' <> k /\ In k' (i_names (y_lines s c'))) as [Nk I'].
    { unfold upd_line in I. destruct (Z.eqb_spec c' c) as [->|Nc].
      - cbn [i_names] in I. split; [|rewrite En; now right]. intros ->. destruct (Ks _ I) as (h' & Nh & X). destruct (F2 _ _ _ _ _ X Lk). congruence.
      - split; [|exact I]. intros ->. destruct (Ch c') as (u' & o' & d' & X). rewrite <- (ci_names _ _ _ _ _ _ _ _ X) in I. apply in_map_iff in I. destruct I as ([[[k2 h2] q2] b2] & E2 & I). cbn [label fst] in E2. subst k2.
        assert (lookup h2 (i_pending (y_lines s c')) = Some k) as Y by (apply (ci_wait _ _ _ _ _ _ _ _ X); apply in_or_app; left; apply in_map_iff; now exists (k, h2, q2, b2)). destruct (F2 _ _ _ _ _ Y Lk). congruence. }
    apply Fr; [exact Nk|]. cbn [fst]. pose proof (F1 _ _ I') as X. now cbn [fst] in X.
  - intros c1 c2 h2 h3 k'. rewrite !Ep. apply F2.
  - intros c' h' k'. rewrite Ep. apply F3.
  - intros k' q' t' I. destruct (F4 _ _ _ I) as [X|(c' & h' & X)]; [now left|]. right. exists c', h'. now rewrite Ep.
  - intros k' x. cbn [lookup]. destruct (Z.eqb_spec k k') as [<-|N]; intros X a t' I; rewrite Hh in I; apply in_app_or in I; destruct I as [I|[I|[]]]; try discriminate I.
    + assert (In (Got k a t') (snd (y_server s))) as I' by now rewrite Ey. pose proof (got_calls s k a t' Iv I') as Y. rewrite Ey in Y. cbn [fst] in Y. congruence.
    + exact (F5 _ _ X _ _ I).
Qed.
Lemma flow_works s k i t1 t2 s' : flow s -> next s (Works k i t1 t2) = Some s' -> flow s'.
Proof.
  intros [F1 F2 F3 F4 F5 F6]. cbn [Stack.next]. destruct (serve (y_server s) _) as [srv|] eqn:Sv; [|discriminate]. intros Es. injection Es as <-. pose proof (serve_frame _ _ _ Sv) as Fr. cbn iota in Fr.
  destruct (y_server s) as [w hs] eqn:Ey. destruct (serve_run _ _ _ _ _ _ _ Sv) as (Hh & _). split; cbn [y_server y_open y_lines y_seen]; try assumption.
  - intros c' k' I. apply Fr; [exact Logic.I|]. exact (F1 _ _ I).
  - intros k' x X a t' I. rewrite Hh in I. exact (F5 _ _ X _ _ I).
Qed.
Lemma flow_answer s k t s' : flow s -> answer_call links uris serve s k t = Some s' -> flow s'.
Proof.
  intros [F1 F2 F3 F4 F5 F6]. unfold answer_call. destruct (lookup k (y_open s)) as [[[c rid] h]|] eqn:Lk; [|discriminate]. destruct (w_calls (fst (y_server s)) k) as [cl|] eqn:Ec; [|discriminate]. destruct (respond cl) as [a|] eqn:Ra; [|discriminate].
  destruct (serve (y_server s) _) as [srv|] eqn:Sv; [|discriminate]. destruct (server_send _ _ _) as [body|]; [|discriminate]. destruct (transmit _ _ _ _) as [[bs seq]|]; [|discriminate]. intros Es. injection Es as <-.
  pose proof (serve_frame _ _ _ Sv) as Fr. cbn iota in Fr. destruct (y_server s) as [w hs] eqn:Ey. destruct (serve_respond _ _ _ _ _ Sv) as (cl' & a' & _ & _ & Hh & _).
  assert (forall c', i_pending (upd_line (y_lines s) c (mkLine (i_up (y_lines s c)) (i_down (y_lines s c) ++ bs) (i_upseq (y_lines s c)) seq (i_handle (y_lines s c)) (i_pending (y_lines s c)) (i_names (y_lines s c))) c') = i_pending (y_lines s c') /\
    i_names (upd_line (y_lines s) c (mkLine (i_up (y_lines s c)) (i_down (y_lines s c) ++ bs) (i_upseq (y_lines s c)) seq (i_handle (y_lines s c)) (i_pending (y_lines s c)) (i_names (y_lines s c))) c') = i_names (y_lines s c')) as Ep.
  { intros c'. unfold upd_line. now destruct (Z.eqb_spec c' c) as [->|]. }
  split; cbn [y_server y_open y_lines y_seen]; try assumption.
  - intros c' k' I. rewrite (proj2 (Ep c')) in I. apply Fr; [exact Logic.I|]. exact (F1 _ _ I).
  - intros c1 c2 h2 h3 k'. rewrite !(fun c => proj1 (Ep c)). apply F2.
  - intros c' h' k'. rewrite (proj1 (Ep c')). apply F3.
  - intros k' q' t' I. destruct (F4 _ _ _ I) as [X|(c' & h' & X)]; [now left|]. right. exists c', h'. now rewrite (proj1 (Ep c')).
  - intros k' x. rewrite lookup_without. destruct (Z.eqb_spec k' k) as [->|N]; [discriminate|]. intros X b t' I. rewrite Hh in I. apply in_app_or in I. destruct I as [I|[I|[]]]; [exact (F5 _ _ X _ _ I)|congruence].
Qed.
Lemma flow_return s c t s' : flow s -> return_answer links s c t = Some s' -> flow s'.
Proof.
  intros [F1 F2 F3 F4 F5 F6]. unfold return_answer. destruct (take_message _ _) as [[[rid body] rest]|]; [|discriminate]. destruct (client_receive _ body) as [[name vals] left| | |]; try discriminate.
  destruct (response_of name vals) as [[h a]|]; [|discriminate]. destruct (lookup h (i_pending (y_lines s c))) as [k|] eqn:Lh; [|discriminate]. intros Es. injection Es as <-.
  set (i' := mkLine _ _ _ _ _ _ _).
  assert (forall c' h' k', lookup h' (i_pending (upd_line (y_lines s) c i' c')) = Some k' <-> lookup h' (i_pending (y_lines s c')) = Some k' /\ k' <> k) as Ep.
  { intros c' h' k'. unfold upd_line. destruct (Z.eqb_spec c' c) as [->|Nc].
    - cbn [i' i_pending]. rewrite lookup_without. destruct (Z.eqb_spec h' h) as [->|N]; split; try discriminate.
      + intros [X Y]. congruence.
      + intros X. split; [exact X|]. intros ->. destruct (F2 _ _ _ _ _ X Lh). congruence.
      + intros [X _]. exact X.
    - split; [|now intros [X _]]. intros X. split; [exact X|]. intros ->. destruct (F2 _ _ _ _ _ X Lh). congruence. }
  split; cbn [y_server y_open y_lines y_seen]; try assumption.
  - intros c' k'. unfold upd_line. destruct (Z.eqb_spec c' c) as [->|Nc]; apply F1.
  - intros c1 c2 h2 h3 k' X Y. apply Ep in X, Y. exact (F2 _ _ _ _ _ (proj1 X) (proj1 Y)).
  - intros c' h' k' X. apply Ep in X. destruct X as [X N]. destruct (F3 _ _ _ X) as [(q & t' & J) G]. split; [exists q, t'; apply in_or_app; now left|]. intros b t2 I. apply in_app_or in I. destruct I as [I|[I|[]]]; [exact (G _ _ I)|congruence].
  - intros k' q t' I. apply in_app_or in I. destruct I as [I|[I|[]]]; [|discriminate I]. destruct (Z.eq_dec k' k) as [->|N]; [left; exists a, t; apply in_or_app; right; now left|].
    destruct (F4 _ _ _ I) as [(b & t2 & J)|(c' & h' & X)]; [left; exists b, t2; apply in_or_app; now left|]. right. exists c', h'. apply Ep. now split.
  - intros H1 k' b t' H2 E. destruct (snoc_cases H2) as [->|(H3 & z & ->)].
    + apply app_inj_tail in E. destruct E as [<- E]. injection E as -> _ _. exact (F3 _ _ _ Lh).
    + rewrite app_comm_cons, app_assoc in E. apply app_inj_tail in E. destruct E as [E _]. exact (F6 _ _ _ _ _ E).
Qed.
Lemma next_flow s e s' : sys_inv s -> flow s -> next s e = Some s' -> flow s'.
Proof.
  destruct e as [k c q t|c t|k i t1 t2|k t|c t]; intros Iv Fl E.
  - exact (flow_place _ _ _ _ _ _ Iv Fl E).
  - exact (flow_accept _ _ _ _ Iv Fl E).
  - exact (flow_works _ _ _ _ _ _ Fl E).
  - exact (flow_answer _ _ _ _ Fl E).
  - exact (flow_return _ _ _ _ Fl E).
Qed.
Lemma happens_flow l s s' : sys_inv s -> flow s -> Forall ok_event l -> happens s l = Some s' -> flow s'.
Proof.
  revert s. induction l as [|e l IH]; intros s Iv Fl F E; cbn [Stack.happens] in E; [now injection E as <-|]. inversion F as [|? ? Oe F']; subst. destruct (next s e) as [s1|] eqn:Es; [|discriminate].
  exact (IH s1 (next_inv _ _ _ Iv Oe Es) (next_flow _ _ _ Iv Fl Es) F' E).
Qed.
Lemma return_step s c t ups ops downs k h a body : chan_inv c (y_lines s c) (y_open s) (y_seen s) (snd (y_server s)) ups ops ((k, h, a, body) :: downs) ->
  exists s', return_answer links s c t = Some s' /\ y_seen s' = y_seen s ++ [Got k (norm_response a) t] /\
    chan_inv c (y_lines s' c) (y_open s') (y_seen s') (snd (y_server s')) ups ops downs.
Proof.
  intros CI. pose proof CI as [A B C D E F G K L M Al]. cbn [map packet] in B. destruct (carried_take _ _ _ _ _ B) as (rest & Tk & B'). inversion E as [|? ? E0 E']; subst. destruct E0 as ((name & vals & left & Rc & Ro) & t0 & Is).
  assert (lookup h (i_pending (y_lines s c)) = Some k) as Lh by (apply L; rewrite !in_app_iff; right; right; now left).
  unfold return_answer. rewrite Tk, Rc, Ro, Lh. eexists. split; [reflexivity|]. cbn [y_server y_open y_lines y_seen]. split; [reflexivity|].
  assert (NoDup (h :: map snd (map label ups ++ ops ++ map label downs))) as K'.
  { apply NoDup_Add with (a := h) (l := map snd (map label ups ++ ops ++ map label downs)) in K; [constructor; apply K|]. cbn [map label]. rewrite !app_assoc, !(map_app snd (map label ups ++ ops)). cbn [map snd]. apply Add_app. }
  unfold upd_line. rewrite Z.eqb_refl. split; cbn [i_up i_down i_upseq i_downseq i_handle i_pending i_names]; try assumption.
  - eapply Forall_impl; [|exact D]. intros [[[k' h'] q'] b'] (X1 & X2 & X3 & t' & J). split; [exact X1|]. split; [exact X2|]. split; [exact X3|]. exists t'. apply in_or_app. now left.
  - now inversion K'.
  - intros k' h' I. rewrite lookup_without. destruct (Z.eqb_spec h' h) as [->|N].
    + inversion K' as [|? ? N1 N2]; subst. destruct N1. apply in_map_iff. now exists (k', h).
    + apply L. rewrite !in_app_iff in I |- *. cbn [map In]. tauto.
  - intros k' h'. rewrite lookup_without. destruct (Z.eqb_spec h' h) as [->|N]; [discriminate|]. intros X. apply Al in X. cbn [map label] in X. rewrite !in_app_iff in X |- *. cbn [In] in X. destruct X as [X|[X|[X|X]]]; [now left|right; now left|congruence|right; now right].
Qed.
Lemma deliver c t k h a body : forall d1 s ups ops d2, chan_inv c (y_lines s c) (y_open s) (y_seen s) (snd (y_server s)) ups ops (d1 ++ (k, h, a, body) :: d2) ->
  exists s', happens s (repeat (Returns c t) (S (List.length d1))) = Some s' /\ In (Got k (norm_response a) t) (y_seen s').
Proof.
  induction d1 as [|[[[k1 h1] a1] b1] d1 IH]; intros s ups ops d2 CI; cbn [app] in CI; destruct (return_step _ _ t _ _ _ _ _ _ _ CI) as (s1 & E1 & Y1 & CI1).
  - exists s1. cbn [List.length repeat Stack.happens Stack.next]. rewrite E1. split; [reflexivity|]. rewrite Y1. apply in_or_app. right. now left.
  - destruct (IH s1 ups ops d2 CI1) as (s' & E' & I). exists s'. split; [|exact I]. change (List.length ((k1, h1, a1, b1) :: d1)) with (S (List.length d1)). remember (S (List.length d1)) as n. cbn [repeat Stack.happens Stack.next]. now rewrite E1.
Qed.
Lemma got_unique s k a t a' t' : sys_inv s -> In (Got k a t) (snd (y_server s)) -> In (Got k a' t') (snd (y_server s)) -> a = a'.
Proof.
  intros Iv I J. destruct (DataPathProofs.b_got _ _ _ _ (inv_base s Iv) _ _ _ I) as (c & E & _ & R). destruct (DataPathProofs.b_got _ _ _ _ (inv_base s Iv) _ _ _ J) as (c' & E' & _ & R'). congruence.
Qed.
Lemma inv_delivered s k a t now : sys_inv s -> flow s -> In (Got k a t) (snd (y_server s)) ->
  exists c n s' t', happens s (repeat (Returns c now) n) = Some s' /\ In (Got k (norm_response a) t') (y_seen s').
Proof.
  intros Iv Fl I. assert (w_calls (fst (y_server s)) k <> None) as Nc by exact (got_calls s k a t Iv I). destruct (calls_sent s k Iv Nc) as (q & t1 & J). destruct (fl_wait _ Fl _ _ _ J) as [(b & t2 & G)|(c & h & Lh)].
  - destruct (hi_got _ _ (si_hist _ Iv) _ _ _ G) as (b0 & t3 & G0 & ->). rewrite (got_unique _ _ _ _ _ _ Iv G0 I) in G. exists 0, 0%nat, s, t2. split; [reflexivity|exact G].
  - destruct (si_chan _ Iv c) as (ups & ops & downs & CI). pose proof (ci_all _ _ _ _ _ _ _ _ CI _ _ Lh) as X. rewrite !in_app_iff in X. destruct X as [X|[X|X]].
    + destruct Nc. apply (fl_names _ Fl c). rewrite <- (ci_names _ _ _ _ _ _ _ _ CI). apply in_map_iff in X. destruct X as (m & E & X). apply in_map_iff. exists m. split; [now rewrite E|exact X].
    + apply (ci_ops _ _ _ _ _ _ _ _ CI) in X. destruct (fl_open _ Fl _ _ X _ _ I).
    + apply in_map_iff in X. destruct X as ([[[k2 h2] a2] b2] & E & X). cbn [label] in E. injection E as -> ->. apply in_split in X. destruct X as (d1 & d2 & Ed).
      pose proof (proj1 (Forall_forall _ _) (ci_downs _ _ _ _ _ _ _ _ CI) (k, h, a2, b2)) as Gd. rewrite Ed in Gd. destruct Gd as [_ (t4 & G4)]; [apply in_or_app; right; now left|]. rewrite (got_unique _ _ _ _ _ _ Iv G4 I) in *.
      rewrite Ed in CI. destruct (deliver c now k h a b2 d1 s ups ops d2 CI) as (s' & Hs & G). exists c, (S (List.length d1)), s', now. now split.
Qed.
Lemma accept_step s c t ups ops downs k h q body : sys_inv s -> chan_inv c (y_lines s c) (y_open s) (y_seen s) (snd (y_server s)) ((k, h, q, body) :: ups) ops downs ->
  w_down (fst (y_server s)) = false -> w_calls (fst (y_server s)) k = None ->
  exists s', accept links uris session_of serve s c t = Some s' /\ w_down (fst (y_server s')) = false /\ snd (y_server s') = snd (y_server s) ++ [Sent k (as_request (who c) (norm_question q)) t] /\
    chan_inv c (y_lines s' c) (y_open s') (y_seen s') (snd (y_server s')) ups ((k, h) :: ops) downs.
Proof.
  intros Iv CI Up Nw. pose proof CI as [A B C D E F G K L M Al]. cbn [map label fst] in C. cbn [map packet] in A. destruct (carried_take _ _ _ _ _ A) as (rest & Tk & A'). inversion D as [|? ? D0 D']; subst. destruct D0 as (Rh & OQ & (name & vals & left & Rc & Qo) & t0 & Is).
  unfold accept. rewrite <- C, Tk, Rc, Qo. fold (who c).
  assert (lookup k (y_open s) = None) as Nk by (destruct (lookup k (y_open s)) as [[[c' rid'] h']|] eqn:X; [destruct (si_open _ Iv _ _ _ _ X); congruence|reflexivity]).
  destruct (y_server s) as [w hs] eqn:Ey. cbn [fst snd] in *. unfold step at 1. rewrite Up, Nw. eexists. split; [reflexivity|]. cbn [y_server y_open y_lines y_seen fst snd w_down]. split; [reflexivity|]. split; [reflexivity|].
  unfold upd_line. rewrite Z.eqb_refl. split; cbn [i_up i_down i_upseq i_downseq i_handle i_pending i_names]; try assumption; try reflexivity.
  - eapply Forall_impl; [|exact E]. intros [[[k' h'] a'] b'] (X & t' & J). split; [exact X|]. exists t'. apply in_or_app. now left.
  - intros k' h'. cbn [In lookup]. destruct (Z.eqb_spec k k') as [<-|N].
    + split; [intros [X|X]; [now injection X as ->|apply F in X; congruence]|intros X; injection X as ->; now left].
    + rewrite <- F. split; [intros [X|X]; [congruence|exact X]|now right].
  - intros k' h' [X|X]; [injection X as <- <-; exact Rh|exact (G _ _ X)].
  - cbn [map app snd label] in K. rewrite map_app. cbn [map app snd]. apply NoDup_Add with (a := h) (l := map snd (map label ups ++ ops ++ map label downs)); [rewrite (map_app snd); apply Add_app|].
    inversion K as [|? ? N1 N2]; subst. now split.
  - intros k' h' I. apply L. cbn [map app label]. apply in_app_or in I. cbn [In app] in I |- *. destruct I as [I|[I|I]]; [right; apply in_or_app; now left|now left|right; apply in_or_app; now right].
  - intros k' h' X. apply Al in X. cbn [map app label] in X. rewrite !in_app_iff. cbn [In] in X |- *. rewrite !in_app_iff in X. tauto.
Qed.
Lemma arrive c t k h q body : ok_time t -> forall u1 s u2 ops downs, sys_inv s -> flow s -> w_down (fst (y_server s)) = false ->
  chan_inv c (y_lines s c) (y_open s) (y_seen s) (snd (y_server s)) (u1 ++ (k, h, q, body) :: u2) ops downs ->
  exists s', happens s (repeat (Takes c t) (S (List.length u1))) = Some s' /\ In (Sent k (as_request (who c) (norm_question q)) t) (snd (y_server s')).
Proof.
  intros OT. induction u1 as [|[[[k1 h1] q1] b1] u1 IH]; intros s u2 ops downs Iv Fl Up CI; cbn [app] in CI;
    (match type of CI with chan_inv _ _ _ _ _ ((?kk, _, _, _) :: _) _ _ => assert (w_calls (fst (y_server s)) kk = None) as Nw by (apply (fl_names _ Fl c); rewrite <- (ci_names _ _ _ _ _ _ _ _ CI); now left) end);
    destruct (accept_step _ _ t _ _ _ _ _ _ _ Iv CI Up Nw) as (s1 & E1 & Up1 & Hh & CI1).
  - exists s1. cbn [List.length repeat Stack.happens Stack.next]. rewrite E1. split; [reflexivity|]. rewrite Hh. apply in_or_app. right. now left.
  - destruct (IH s1 u2 ((k1, h1) :: ops) downs (accept_inv _ _ _ _ Iv OT E1) (flow_accept _ _ _ _ Iv Fl E1) Up1 CI1) as (s' & E' & I). exists s'. split; [|exact I]. change (List.length ((k1, h1, q1, b1) :: u1)) with (S (List.length u1)). remember (S (List.length u1)) as n. cbn [repeat Stack.happens Stack.next]. now rewrite E1.
Qed.
Lemma inv_arrived s k q t now : sys_inv s -> flow s -> w_down (fst (y_server s)) = false -> ok_time now -> In (Sent k q t) (y_seen s) ->
  exists c n s' t', happens s (repeat (Takes c now) n) = Some s' /\ In (Sent k (norm_request q) t') (snd (y_server s')).
Proof.
  intros Iv Fl Up OT I.
  assert (forall q' t', In (Sent k q' t') (snd (y_server s)) -> exists c n s' t', happens s (repeat (Takes c now) n) = Some s' /\ In (Sent k (norm_request q) t') (snd (y_server s'))) as Have.
  { intros q' t' J. destruct (hi_sent _ _ (si_hist _ Iv) _ _ _ J) as (q0 & t0 & J' & ->). destruct (hi_once _ _ (si_hist _ Iv) _ _ _ _ _ I J') as [-> _]. exists 0, 0%nat, s, t'. split; [reflexivity|exact J]. }
  assert (forall x, w_calls (fst (y_server s)) k = Some x -> exists c n s' t', happens s (repeat (Takes c now) n) = Some s' /\ In (Sent k (norm_request q) t') (snd (y_server s'))) as Called.
  { intros x E. destruct (DataPathProofs.b_sent _ _ _ _ (inv_base s Iv) _ _ E) as (t' & J). exact (Have _ _ J). }
  destruct (fl_wait _ Fl _ _ _ I) as [(b & t2 & G)|(c & h & Lh)].
  - destruct (hi_got _ _ (si_hist _ Iv) _ _ _ G) as (b0 & t3 & G0 & ->). destruct (DataPathProofs.b_got _ _ _ _ (inv_base s Iv) _ _ _ G0) as (x & E & _). exact (Called _ E).
  - destruct (si_chan _ Iv c) as (ups & ops & downs & CI). pose proof (ci_all _ _ _ _ _ _ _ _ CI _ _ Lh) as X. rewrite !in_app_iff in X. destruct X as [X|[X|X]].
    + apply in_map_iff in X. destruct X as ([[[k2 h2] q2] b2] & E & X). cbn [label] in E. injection E as -> ->. apply in_split in X. destruct X as (u1 & u2 & Eu).
      pose proof (proj1 (Forall_forall _ _) (ci_ups _ _ _ _ _ _ _ _ CI) (k, h, q2, b2)) as Gu. rewrite Eu in Gu. destruct Gu as (_ & _ & _ & (t4 & G4)); [apply in_or_app; right; now left|]. destruct (hi_once _ _ (si_hist _ Iv) _ _ _ _ _ I G4) as [-> _].
      rewrite Eu in CI. destruct (arrive c now k h q2 b2 OT u1 s u2 ops downs Iv Fl Up CI) as (s' & Hs & G). exists c, (S (List.length u1)), s', now. split; [exact Hs|]. now rewrite <- norm_as_request.
    + apply (ci_ops _ _ _ _ _ _ _ _ CI) in X. destruct (si_open _ Iv _ _ _ _ X) as [_ N]. destruct (w_calls (fst (y_server s)) k) as [x|] eqn:E; [exact (Called x eq_refl)|congruence].
    + apply in_map_iff in X. destruct X as ([[[k2 h2] a2] b2] & E & X). cbn [label] in E. injection E as -> ->. destruct (proj1 (Forall_forall _ _) (ci_downs _ _ _ _ _ _ _ _ CI) _ X) as [_ (t4 & G4)].
      destruct (DataPathProofs.b_got _ _ _ _ (inv_base s Iv) _ _ _ G4) as (x & E & _). exact (Called _ E).
Qed.
Lemma fits_norm q a : fits_request max_read max_write (norm_request q) a -> fits_request max_read max_write q (norm_response a).
Proof.
  destruct a as [st|l|l], q as [who' age stm ops|who' ops]; cbn [norm_request norm_response fits_request reason]; rewrite ?map_length; try tauto.
  - assert (map norm_rop ops = [] <-> ops = []) as -> by (destruct ops; cbn; split; congruence). tauto.
  - assert (map norm_wop ops = [] <-> ops = []) as -> by (destruct ops; cbn; split; congruence). tauto.
Qed.
Theorem stack_answers l s : Forall ok_event l -> happens (begin_system init) l = Some s -> forall H1 k a t H2, y_seen s = H1 ++ Got k a t :: H2 ->
  (exists q t', In (Sent k q t') H1 /\ fits_request max_read max_write q a) /\ (forall a' t', ~ In (Got k a' t') (H1 ++ H2)).
Proof.
  intros F E H1 k a t H2 Eh. pose proof (happens_inv _ _ _ sys_start F E) as Iv. pose proof (happens_flow _ _ _ sys_start flow_start F E) as Fl. destruct (fl_got _ Fl _ _ _ _ _ Eh) as [(q & t' & I) N]. split.
  - exists q, t'. split; [exact I|]. assert (In (Sent k q t') (y_seen s)) as I' by (rewrite Eh; apply in_or_app; now left). assert (In (Got k a t) (y_seen s)) as G by (rewrite Eh; apply in_or_app; right; now left).
    destruct (hi_got _ _ (si_hist _ Iv) _ _ _ G) as (a0 & t0 & G0 & ->). destruct (DataPathProofs.b_got _ _ _ _ (inv_base s Iv) _ _ _ G0) as (x & Ex & _). destruct (DataPathProofs.b_sent _ _ _ _ (inv_base s Iv) _ _ Ex) as (t1 & J).
    destruct (hi_sent _ _ (si_hist _ Iv) _ _ _ J) as (q1 & t2 & J' & Eq). destruct (hi_once _ _ (si_hist _ Iv) _ _ _ _ _ I' J') as [<- _]. apply fits_norm. rewrite Eq in J.
    destruct (si_run _ Iv) as (evs & Ru). destruct (y_server s) as [w hs]. cbn [fst snd] in *. eapply answers_fit; [exact Ru| |exact J|exact G0].
    destruct (hi_ok _ _ (si_hist _ Iv) _ _ _ I') as (wh & qq & -> & O). destruct qq as [age st ops|ops]; cbn; [|exact Logic.I]. destruct O as [O _]. exact O.
  - intros a' t2 J. apply in_app_or in J. destruct J as [J|J]; [exact (N _ _ J)|]. apply in_split in J. destruct J as (x1 & x2 & ->).
    destruct (fl_got _ Fl (H1 ++ Got k a t :: x1) k a' t2 x2) as [_ N']; [rewrite Eh, <- app_assoc; reflexivity|]. apply (N' a t). apply in_or_app. right. now left.
Qed.
Theorem stack_arrives l s k q t now : Forall ok_event l -> happens (begin_system init) l = Some s -> w_down (fst (y_server s)) = false -> ok_time now -> In (Sent k q t) (y_seen s) ->
  exists c n s' t', happens s (repeat (Takes c now) n) = Some s' /\ In (Sent k (norm_request q) t') (snd (y_server s')).
Proof. intros F E. apply inv_arrived; [exact (happens_inv _ _ _ sys_start F E)|exact (happens_flow _ _ _ sys_start flow_start F E)]. Qed.
Theorem stack_delivered l s k a t now : Forall ok_event l -> happens (begin_system init) l = Some s -> In (Got k a t) (snd (y_server s)) ->
  exists c n s' t', happens s (repeat (Returns c now) n) = Some s' /\ In (Got k (norm_response a) t') (y_seen s').
Proof. intros F E. apply inv_delivered; [exact (happens_inv _ _ _ sys_start F E)|exact (happens_flow _ _ _ sys_start flow_start F E)]. Qed.
End S.
