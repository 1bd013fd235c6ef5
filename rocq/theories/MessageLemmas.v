(** The lemmas behind MessageProperties.v, and examples. *)
From Coq Require Import ZArith List String Bool Lia Strings.Byte.
From Verif Require Import Bytes CodecSpec BytesProofs Prim PrimSpec PrimProofs Value ValueSpec ValueProofs CodecLemmas
  Registry StructTable MessageTable Messages StructSpec MessageSpec MessageProofs.
Import ListNotations.
Open Scope Z_scope.
Ltac Zify.zify_post_hook ::= idtac.
Local Opaque std_registry struct_table find_id find_type server_reads client_reads client_sends server_sends.

(** ** C83 *)
Lemma entry_In name id f : entry_check name id f = true -> NoDup (map (fun e => fst (fst e)) struct_table) ->
  In (name, id, f) struct_table.
Proof.
  intros EC ND. unfold entry_check in EC. repeat (apply andb_true_iff in EC; destruct EC as [EC ?]).
  match goal with H : existsb _ _ = true |- _ => apply existsb_exists in H; destruct H as ([[n i] g] & I & Q) end.
  cbn [fst snd] in Q. apply andb_true_iff in Q. destruct Q as [Q1 Q2]. apply String.eqb_eq in Q1. apply Z.eqb_eq in Q2. subst n i.
  destruct (fields_of_name name) as [f'|] eqn:FN; [|discriminate]. apply fields_eqb_eq in EC. subst f'.
  unfold fields_of_name in FN. clear - FN I ND. revert FN I ND. generalize struct_table as l.
  induction l as [|[[n i] h] l IH]; intros FN I ND; [contradiction|]. cbn [find fst snd map] in *.
  inversion ND as [|? ? NI ND']; subst. destruct (String.eqb n name) eqn:Q.
  - apply String.eqb_eq in Q. subst n. injection FN as ->. destruct I as [I|I]; [injection I as -> ->; left; reflexivity|].
    exfalso. apply NI. apply (in_map (fun e => fst (fst e))) in I. exact I.
  - right. destruct I as [I|I]; [injection I as -> -> ->; rewrite String.eqb_refl in Q; discriminate|]. apply IH; assumption.
Qed.
Fixpoint nodupb {A} (eqb : A -> A -> bool) (l : list A) : bool :=
  match l with [] => true | x :: r => negb (existsb (eqb x) r) && nodupb eqb r end.
Lemma nodupb_ok {A} (eqb : A -> A -> bool) : (forall x, eqb x x = true) -> forall l, nodupb eqb l = true -> NoDup l.
Proof.
  intros R. induction l as [|x r IH]; cbn; [constructor|]. intros H. apply andb_true_iff in H. destruct H as [A1 B1].
  constructor; [|apply IH; exact B1]. intros I. apply negb_true_iff in A1. rewrite <- not_true_iff_false in A1. apply A1.
  apply existsb_exists. exists x. split; [exact I|apply R].
Qed.
Lemma names_distinct : NoDup (map (fun e => fst (fst e)) struct_table).
Proof. apply (nodupb_ok String.eqb String.eqb_refl). vm_compute. reflexivity. Qed.
Lemma ids_distinct : NoDup (map (fun e => snd (fst e)) struct_table).
Proof. apply (nodupb_ok Z.eqb Z.eqb_refl). vm_compute. reflexivity. Qed.
Lemma no_panic_at_start : all_registered registrations = true.
Proof. vm_compute. reflexivity. Qed.

Lemma service_facts n qi qf ri rf : In (n, (qi, qf), (ri, rf)) standard_services -> 
  entry_check (n ++ "Request") qi qf = true /\ route_check client_sends server_reads (n ++ "Request") qi = true /\
  entry_check (n ++ "Response") ri rf = true /\
  (n = "CloseSecureChannel"%string \/ route_check server_sends client_reads (n ++ "Response") ri = true).
Proof.
  intros H. pose proof (proj1 (forallb_forall service_check standard_services) service_check_ok _ H) as C.
  unfold service_check in C. rewrite !andb_true_iff, orb_true_iff, String.eqb_eq in C. tauto.
Qed.

Lemma layouts n qi qf ri rf : In (n, (qi, qf), (ri, rf)) standard_services ->
  In (n ++ "Request", qi, qf)%string struct_table /\ In (n ++ "Response", ri, rf)%string struct_table.
Proof.
  intros H. apply service_facts in H. destruct H as (A & B & C & D).
  split; apply entry_In; try assumption; exact names_distinct.
Qed.
Definition param_check (p : Z * list ty) : bool :=
  existsb (fun e => (snd (fst e) =? fst p) && ty_eqb (TStruct (snd e)) (TStruct (snd p))) struct_table.
Lemma param_layouts id f : In (id, f) (standard_fault :: standard_parameters) -> exists name, In (name, id, f) struct_table.
Proof.
  intros H. assert (C : forallb param_check (standard_fault :: standard_parameters) = true) by (vm_compute; reflexivity).
  pose proof (proj1 (forallb_forall param_check _) C _ H) as D. unfold param_check in D. apply existsb_exists in D.
  destruct D as ([[n i] g] & I & Q). cbn [fst snd] in Q. apply andb_true_iff in Q. destruct Q as [Q1 Q2].
  apply Z.eqb_eq in Q1. apply fields_eqb_eq in Q2. subst. exists n. exact I.
Qed.

Lemma requests n qi qf ri rf : In (n, (qi, qf), (ri, rf)) standard_services ->
  carries client_send server_receive (n ++ "Request") qi qf.
Proof.
  intros H. apply service_facts in H. destruct H as (A & B & C & D).
  unfold client_send, server_receive. apply carries_ok; assumption.
Qed.
Lemma responses n qi qf ri rf : In (n, (qi, qf), (ri, rf)) standard_services -> n <> "CloseSecureChannel"%string ->
  carries server_send client_receive (n ++ "Response") ri rf.
Proof.
  intros H NE. apply service_facts in H. destruct H as (A & B & C & [D|D]); [contradiction|].
  unfold server_send, client_receive. apply carries_ok; assumption.
Qed.
Lemma fault : carries server_send client_receive "ServiceFault" (fst standard_fault) (snd standard_fault).
Proof. unfold server_send, client_receive. apply carries_ok; vm_compute; reflexivity. Qed.
(** A session is created over an open channel: a request and a response with values meet the hypothesis. *)
Definition ex_header : val :=
  VStruct [VB BNodeId (NNum 1 77); VB BTime (mkTime 1700000000 0); VB BUInt32 5; VB BUInt32 0; VB BString []; VB BUInt32 15000; VExtNil].
Example requests_ex : exists qf, In ("Read"%string, (631, qf), (634, answer [ResponseHeader; Many TDV])) standard_services /\
  wzip (wf (std_env []) false) qf
    [ex_header; VB BDouble 0; VB BInt32 2; VSlice [VStruct [VB BNodeId (NNum 0 2258); VB BUInt32 13; VB BString []; VB BQName (mkQ 0 [])]]].
Proof.
  eexists. split.
  - unfold standard_services. cbn [In]. do 22 right. left. reflexivity.
  - unfold ex_header. cbn [wf wzip wall bwf ReadValueId RequestHeader Of Many Node' Time' UInt32' Text' Double' Enum' QName'].
    repeat match goal with |- _ /\ _ => split end; try exact I; try reflexivity;
      unfold wf_time, time_in_int64_ticks, wf_nodeid, wf_qname, in_u, in_s, len_ok; cbn; try lia.
Qed.

Definition request_ids : list Z := map (fun s => fst (snd (fst s))) standard_services.
Lemma reads_only_standard : forallb (fun p => existsb (Z.eqb (fst p)) request_ids) server_reads = true.
Proof. vm_compute. reflexivity. Qed.
Lemma others_refused u n rest : wf_nodeid n ->
  (forall s qi qf r, In (s, (qi, qf), r) standard_services -> norm_nodeid n <> NNum 0 qi) ->
  exists left, server_receive u (write_nodeid n ++ rest) = Err left.
Proof.
  intros W H. exists rest. unfold server_receive, receive, bind.
  rewrite (codes_rt (codes_nodeid true n W) rest).
  destruct (find (fun p => nodeid_eqb (norm_nodeid n) (NNum 0 (fst p))) server_reads) as [[k name]|] eqn:F; [|reflexivity].
  exfalso. apply find_some in F. destruct F as [I Q]. cbn [fst] in Q.
  pose proof (proj1 (forallb_forall _ server_reads) reads_only_standard _ I) as D. cbn [fst] in D.
  apply existsb_exists in D. destruct D as (k' & I' & E). apply Z.eqb_eq in E. subst k'.
  unfold request_ids in I'. apply in_map_iff in I'. destruct I' as ([[s [qi qf]] r] & E & I'). cbn [fst snd] in E. subst qi.
  apply (H _ _ _ _ I'). destruct (norm_nodeid n); try discriminate. cbn in Q. apply andb_true_iff in Q. destruct Q as [Q1 Q2].
  apply Z.eqb_eq in Q1, Q2. subst. reflexivity.
Qed.
Example others_refused_ex : forall s qi qf r, In (s, (qi, qf), r) standard_services -> norm_nodeid (NNum 1 631) <> NNum 0 qi.
Proof. intros s qi qf r _. discriminate. Qed.

(** ** C19 *)
Lemma table_bijection name k f : In (name, k, f) struct_table -> exists t,
  find_id std_registry t = Some (std_id k) /\ find_type std_registry (std_id k) = Some t /\ fields_of_type t = f.
Proof. intros H. destruct (table_registered name k f [] H) as (t & A & B & _ & T). exists t. split; [exact A|]. split; [exact T|exact B]. Qed.

(** ** C11 *)
Lemma as_extension_object name k f uris vals : In (name, k, f) struct_table -> supported (TStruct f) = true ->
  wzip (wf (std_env uris) false) f vals -> exists t body,
    find_id std_registry t = Some (std_id k) /\
    encode (std_env uris) (TStruct f) (VStruct vals) = Some body /\
    encode (std_env uris) TExt (VExt t vals) = Some (write_nodeid (NNum 0 k) ++ write_int 1 1 ++ write_int 4 (Z.of_nat (List.length body)) ++ body) /\
    reads_back (decode (std_env uris) TExt) (write_nodeid (NNum 0 k) ++ write_int 1 1 ++ write_int 4 (Z.of_nat (List.length body)) ++ body)
      (VExt t (map norm vals)).
Proof.
  intros H SP W. destruct (registered_std name k f uris H SP) as (t & R & A & B).
  destruct (roundtrip (std_env uris) (TStruct f) (VStruct vals) SP W) as (body & EB & _). exists t, body.
  split; [exact A|]. split; [exact EB|].
  assert (WE : wf (std_env uris) false TExt (VExt t vals)) by (cbn [wf]; rewrite B; auto).
  destruct (roundtrip (std_env uris) TExt (VExt t vals) eq_refl WE) as (e & E1 & RB).
  assert (X : encode (std_env uris) TExt (VExt t vals) = Some (write_nodeid (NNum 0 k) ++ write_int 1 1 ++ write_int 4 (Z.of_nat (List.length body)) ++ body)).
  { unfold encode in EB |- *. cbn [supported] in EB |- *. cbn [supported] in SP. rewrite SP in EB. cbn [enc] in EB |- *.
    rewrite A, B. cbn [supported]. rewrite SP, EB. reflexivity. }
  split; [exact X|]. rewrite X in E1. injection E1 as <-. exact RB.
Qed.
Example as_extension_object_ex : In ("Argument"%string, 298, f_Argument) struct_table /\ supported (TStruct f_Argument) = true /\
  wzip (wf (std_env []) false) f_Argument
    [VB BString [x61]; VB BNodeId (NNum 0 11); VB BInt32 1; VSlice [VB BUInt32 0]; VB BLText (mkLT [] [x61])].
Proof.
  split; [|split; [reflexivity|]].
  - apply entry_In; [vm_compute; reflexivity|exact names_distinct].
  - cbn [wf wzip wall bwf f_Argument].
    repeat match goal with |- _ /\ _ => split end; try exact I; try reflexivity;
      unfold wf_nodeid, wf_ltext, in_u, in_s, len_ok; cbn; lia.
Qed.
Definition unencodable : list string := map (fun e => fst (fst e)) (filter (fun e => negb (forallb supported (snd e))) struct_table).
Lemma unencodable_names n : In n unencodable <-> In n without_encoder.
Proof.
  assert (A : forallb (fun n => existsb (String.eqb n) without_encoder) unencodable = true) by (vm_compute; reflexivity).
  assert (B : forallb (fun n => existsb (String.eqb n) unencodable) without_encoder = true) by (vm_compute; reflexivity).
  split; intros I; [pose proof (proj1 (forallb_forall _ _) A _ I) as C|pose proof (proj1 (forallb_forall _ _) B _ I) as C];
    apply existsb_exists in C; destruct C as (m & J & E); apply String.eqb_eq in E; subst m; exact J.
Qed.
Lemma supported_but name k f : In (name, k, f) struct_table ->
  (exists uris vals, encode (std_env uris) (TStruct f) (VStruct vals) <> None) -> ~ In name without_encoder.
Proof.
  intros H (u & vals & E) I. apply unencodable_names in I. apply E. unfold encode.
  replace (supported (TStruct f)) with false; [reflexivity|]. symmetry.
  unfold unencodable in I. apply in_map_iff in I. destruct I as ([[n' k'] f'] & E' & I). cbn [fst] in E'. subst n'. apply filter_In in I.
  destruct I as [I Q]. cbn [snd] in Q. apply negb_true_iff in Q.
  assert (f' = f) as ->; [|cbn [supported]; exact Q].
  clear Q E. pose proof names_distinct as ND. revert H I ND. generalize struct_table as l.
  induction l as [|[[n i] h] l IH]; intros A B ND; [contradiction|]. cbn [map fst] in ND.
  inversion ND as [|? ? NI ND']; subst. destruct A as [A|A], B as [B|B].
  + congruence.
  + injection A as -> -> ->. exfalso. apply NI. apply (in_map (fun e => fst (fst e))) in B. exact B.
  + injection B as -> -> ->. exfalso. apply NI. apply (in_map (fun e => fst (fst e))) in A. exact A.
  + apply IH; assumption.
Qed.
Lemma others_supported name k f : In (name, k, f) struct_table -> ~ In name without_encoder -> supported (TStruct f) = true.
Proof.
  intros H N. destruct (supported (TStruct f)) eqn:E; [reflexivity|]. exfalso. apply N. apply unencodable_names.
  unfold unencodable. apply (in_map (fun e => fst (fst e)) (filter _ struct_table) (name, k, f)).
  apply filter_In. split; [exact H|]. cbn [snd]. cbn [supported] in E. rewrite E. reflexivity.
Qed.
Lemma guid_structures_refused name : In name without_encoder -> exists k f, In (name, k, f) struct_table /\
  forall uris vals, encode (std_env uris) (TStruct f) (VStruct vals) = None.
Proof.
  intros I. apply unencodable_names in I. pose proof I as I0. unfold unencodable in I. apply in_map_iff in I.
  destruct I as ([[n' k] f] & E & I). cbn [fst] in E. subst n'. apply filter_In in I. destruct I as [I Q].
  exists k, f. split; [exact I|]. intros u v. destruct (encode (std_env u) (TStruct f) (VStruct v)) eqn:X; [|reflexivity].
  exfalso. apply (supported_but name k f I); [|apply unencodable_names; exact I0]. exists u, v. rewrite X. discriminate.
Qed.
Lemma every_other_structure name k f uris vals : In (name, k, f) struct_table -> ~ In name without_encoder ->
  wzip (wf (std_env uris) false) f vals -> exists t body,
    find_id std_registry t = Some (std_id k) /\
    encode (std_env uris) (TStruct f) (VStruct vals) = Some body /\
    encode (std_env uris) TExt (VExt t vals) = Some (write_nodeid (NNum 0 k) ++ write_int 1 1 ++ write_int 4 (Z.of_nat (List.length body)) ++ body) /\
    reads_back (decode (std_env uris) TExt) (write_nodeid (NNum 0 k) ++ write_int 1 1 ++ write_int 4 (Z.of_nat (List.length body)) ++ body)
      (VExt t (map norm vals)).
Proof. intros H N. apply as_extension_object with name; [exact H|]. exact (others_supported name k f H N). Qed.

(** ** C14 *)
Definition bomb : bytes := write_int 1 (6 + 192) ++ write_int 4 0 ++ write_int 4 2 ++ write_int 4 1 ++ write_int 4 1.
Definition bad_request_header : bytes :=
  write_nodeid NNull ++ write_int 8 0 ++ write_int 4 0 ++ write_int 4 0 ++ write_int 4 (-1) ++ write_int 4 0
  ++ write_nodeid (NNum 0 597) ++ write_int 1 1 ++ write_int 4 17 ++ bomb.
Definition bad_response_header : bytes := write_int 8 0 ++ write_int 4 0 ++ write_int 4 0 ++ write_int 1 1 ++ write_int 4 0.
Definition panics {A} (r : res A) : bool := match r with Panic => true | _ => false end.
Lemma panics_eq {A} (r : res A) : panics r = true -> r = Panic. Proof. destruct r; try discriminate. reflexivity. Qed.
Definition crash_check (u : list bytes) (s : string * (Z * list ty) * (Z * list ty)) : bool :=
  match s with (_, (qi, _), (ri, _)) =>
    panics (server_receive u (write_nodeid (NNum 0 qi) ++ bad_request_header)) &&
    panics (client_receive u (write_nodeid (NNum 0 ri) ++ bad_response_header)) end.
Lemma crash_check_ok u : forallb (crash_check u) standard_services = true.
Proof. vm_compute. reflexivity. Qed.
Lemma crashes u n qi qf ri rf : In (n, (qi, qf), (ri, rf)) standard_services ->
  exists q r, server_receive u (write_nodeid (NNum 0 qi) ++ q) = Panic /\ client_receive u (write_nodeid (NNum 0 ri) ++ r) = Panic.
Proof.
  intros H. pose proof (proj1 (forallb_forall (crash_check u) _) (crash_check_ok u) _ H) as C.
  unfold crash_check in C. apply andb_true_iff in C. destruct C as [A B]. apply panics_eq in A, B.
  exists bad_request_header, bad_response_header. split; assumption.
Qed.

(** ** C84 *)
Definition handler_check (s : string * (Z * list ty) * (Z * list ty)) : bool :=
  match s with (n, _, _) =>
    match handle_request (n ++ "Request") with
    | Fault st => existsb (String.eqb n) not_offered && (st =? 0x800B0000)
    | Answers l => negb (existsb (String.eqb n) not_offered) &&
        forallb (fun x => String.eqb x (n ++ "Response") || String.eqb x "ServiceFault") l &&
        (String.eqb n "CloseSecureChannel" || existsb (String.eqb (n ++ "Response")) l)
    end end.
Lemma handler_check_ok : forallb handler_check standard_services = true. Proof. vm_compute. reflexivity. Qed.
Lemma existsb_eqb n l : existsb (String.eqb n) l = true <-> In n l.
Proof.
  rewrite existsb_exists. split.
  - intros (x & I & E). apply String.eqb_eq in E. subst x. exact I.
  - intros I. exists n. split; [exact I|apply String.eqb_refl].
Qed.
Lemma handled n q r : In (n, q, r) standard_services ->
  (In n not_offered /\ handle_request (n ++ "Request") = Fault 0x800B0000) \/
  (~ In n not_offered /\ exists l, handle_request (n ++ "Request") = Answers l /\
     (forall x, In x l -> x = (n ++ "Response")%string \/ x = "ServiceFault"%string) /\
     (n = "CloseSecureChannel"%string \/ In (n ++ "Response")%string l)).
Proof.
  intros H. pose proof (proj1 (forallb_forall handler_check _) handler_check_ok _ H) as C. unfold handler_check in C.
  destruct (handle_request (n ++ "Request")) as [l|st].
  - right. rewrite !andb_true_iff, negb_true_iff, orb_true_iff, String.eqb_eq, existsb_eqb in C. destruct C as ((A & B) & D).
    split; [rewrite <- existsb_eqb, A; discriminate|]. exists l. split; [reflexivity|]. split; [|exact D].
    intros x I. pose proof (proj1 (forallb_forall _ _) B _ I) as Q. cbv beta in Q.
    rewrite orb_true_iff, !String.eqb_eq in Q. exact Q.
  - left. rewrite andb_true_iff, existsb_eqb, Z.eqb_eq in C. destruct C as (A & ->). split; [exact A|reflexivity].
Qed.
Definition method_check (p : string * string) : bool :=
  existsb (fun s => String.eqb (fst p) (fst (fst s) ++ "Request") && String.eqb (snd p) (fst (fst s) ++ "Response")) standard_services.
Lemma method_check_ok : forallb method_check client_methods = true. Proof. vm_compute. reflexivity. Qed.
Lemma method_service q r : In (q, r) client_methods -> exists n a b, In (n, a, b) standard_services /\
  q = (n ++ "Request")%string /\ r = (n ++ "Response")%string.
Proof.
  intros H. pose proof (proj1 (forallb_forall method_check _) method_check_ok _ H) as C. unfold method_check in C.
  apply existsb_exists in C. destruct C as ([[n a] b] & I & E). cbn [fst snd] in E.
  rewrite andb_true_iff, !String.eqb_eq in E. exists n, a, b. tauto.
Qed.
Lemma method_result q r got sr : In (q, r) client_methods ->
  match handle_request q with
  | Answers l => In got l /\ (got = "ServiceFault"%string -> sr <> 0)
  | Fault st => got = "ServiceFault"%string /\ sr = st
  end ->
  finish r got sr = (if sr =? 0 then Response else Error sr) /\ (sr = 0 -> got = r).
Proof.
  intros H A. destruct (method_service q r H) as (n & a & b & I & -> & ->).
  destruct (handled n a b I) as [(O & E)|(O & l & E & X & _)]; rewrite E in A.
  - destruct A as [-> ->]. split; [reflexivity|discriminate].
  - destruct A as [G F]. unfold finish. destruct (sr =? 0) eqn:Z0.
    + apply Z.eqb_eq in Z0. subst sr. destruct (X _ G) as [-> | ->].
      * rewrite String.eqb_refl. split; reflexivity.
      * exfalso. apply F; reflexivity.
    + split; [reflexivity|]. intros ->. discriminate.
Qed.
Example method_result_ex : In ("ReadRequest"%string, "ReadResponse"%string) client_methods /\
  exists l, handle_request "ReadRequest" = Answers l /\ In "ReadResponse"%string l /\ In "ServiceFault"%string l.
Proof.
  split; [unfold client_methods; do 15 right; left; reflexivity|].
  eexists. split; [vm_compute; reflexivity|]. split; [right; left|left]; reflexivity.
Qed.
Lemma other_answer_crashes q r got : In (q, r) client_methods -> got <> r -> finish r got 0 = Crash.
Proof. intros _ N. unfold finish. cbn [Z.eqb]. destruct (String.eqb got r) eqn:E; [apply String.eqb_eq in E; contradiction|reflexivity]. Qed.
