(** The server's own variables as clients see them: several at once, on the wire, and what is wrong with some of them. *)
From Coq Require Import ZArith List Bool String Lia.
From Verif Require Import Bytes CodecSpec Prim PrimSpec Value ValueSpec CodecProperties Text StructTable Messages OwnData OwnTable OwnSpace OwnSpec OwnProofs.
Import ListNotations.
Open Scope string_scope.
Open Scope Z_scope.

Lemma facts_any range w s c l es q : plain_range range -> w_caps w = Some c -> cap_OperationLimits c = Some l -> new_server w = Some s ->
  let s' := run_server s es in In q (facts (sv_world s') c l) ->
  exists i v, descend (sv_nodes s') 0 (fst q) = Some i /\ read_response range (sv_world s') (sv_nodes s') [(i, [])] = Some [(v, 0)] /\ shows v (snd q).
Proof.
  intros P C L N s' I. destruct (running w s c l es C L N) as (w' & A & B & _ & _). fold s' in A, B.
  rewrite A in I. pose proof (facts_told w' c l) as F. rewrite Forall_forall in F.
  destruct (F q I) as (i & v & D & R & S). exists i, v. rewrite B, A.
  split; [exact D|]. split; [|exact S]. now rewrite response_plain.
Qed.

Lemma all_written_cons a l v st vs : all_written [a] = Some [(v, st)] -> all_written l = Some vs -> all_written (a :: l) = Some ((v, st) :: vs).
Proof.
  destruct a as [g s]. cbn [all_written]. destruct (variant_of g); [|discriminate]. intros [= -> ->] ->. reflexivity.
Qed.
Lemma facts_together range w s c l es qs : plain_range range -> w_caps w = Some c -> cap_OperationLimits c = Some l -> new_server w = Some s ->
  let s' := run_server s es in incl qs (facts (sv_world s') c l) ->
  exists ids vs, Forall2 (fun q i => descend (sv_nodes s') 0 (fst q) = Some i) qs ids /\
    read_response range (sv_world s') (sv_nodes s') (map (fun i => (i, [])) ids) = Some (map (fun v => (v, 0)) vs) /\
    Forall2 (fun q v => shows v (snd q)) qs vs.
Proof.
  intros P C L N s'. induction qs as [|q qs IH]; intros I.
  - exists [], []. repeat split; constructor.
  - destruct (facts_any range w s c l es q P C L N) as (i & v & D & R & S); [apply I; now left|].
    destruct IH as (ids & vs & D' & R' & S'); [intros x X; apply I; now right|]. fold s' in D, R.
    exists (i :: ids), (v :: vs). split; [now constructor|]. split; [|now constructor].
    unfold read_response in *. cbn [map]. apply all_written_cons; assumption.
Qed.

(** * Data types *)
Lemma typed_any range w s c l es n v st : plain_range range -> w_caps w = Some c -> cap_OperationLimits c = Some l -> new_server w = Some s ->
  let s' := run_server s es in In n (sv_nodes s') -> is_variable n = true -> d_name (n_decl n) <> "MaxReturnDataValues" -> d_name (n_decl n) <> "MaxReturnEventValues" ->
  read_response range (sv_world s') (sv_nodes s') [(n_id n, [])] = Some [(v, st)] -> fits (d_type (n_decl n)) (d_rank (n_decl n)) v.
Proof.
  intros P C L N s' I V X Y R. destruct (running w s c l es C L N) as (w' & A & B & _ & _). fold s' in A, B.
  rewrite B in I, R. rewrite A in R. rewrite response_plain in R by exact P.
  pose proof (all_typed w' c l) as F. rewrite Forall_forall in F. destruct (F n I V) as [[E|E]|T]; [congruence|congruence|].
  exact (T v st R).
Qed.

(** * On the wire *)
Definition only_at (n : string) (t : Z) : bool :=
  forallb (fun p => negb (String.eqb (fst (fst (snd p))) n) || (fst p =? t)) (numbered 0 struct_table).
Lemma nth_numbered {A} (l : list A) x n : forall i, nth_error l n = Some x -> In (i + Z.of_nat n, x) (numbered i l).
Proof.
  revert n. induction l as [|y l IH]; intros [|n] i; cbn [nth_error numbered]; try discriminate.
  - intros [= ->]. left. f_equal. lia.
  - intros H. right. replace (i + Z.of_nat (S n)) with (i + 1 + Z.of_nat n) by lia. now apply IH.
Qed.
Lemma only n t t' : only_at n t = true -> numbered_as n t' -> t' = t.
Proof.
  intros O (P & e & f & H). apply (nth_numbered struct_table _ _ 0) in H. rewrite Z2Nat.id in H by exact P.
  unfold only_at in O. rewrite forallb_forall in O. specialize (O _ H). cbn [fst snd] in O.
  rewrite String.eqb_refl in O. cbn [negb orb] in O. apply Z.eqb_eq in O. exact O.
Qed.

Ltac reg := split; [vm_compute; reflexivity|]; eexists; split; [vm_compute; reflexivity|]; split; [vm_compute; repeat split; discriminate|vm_compute; reflexivity].
Definition status_no : Z := Eval vm_compute in type_number "ServerStatusDataType".
Definition build_no : Z := Eval vm_compute in type_number "BuildInfo".
Definition sub_no : Z := Eval vm_compute in type_number "SubscriptionDiagnosticsDataType".
Lemma reg_status u : registered (std_env u) status_no. Proof. reg. Qed.
Lemma reg_build u : registered (std_env u) build_no. Proof. reg. Qed.
Lemma reg_sub u : registered (std_env u) sub_no. Proof. reg. Qed.
Definition build_types : list ty := Eval vm_compute in fields_of_type build_no.
Definition status_types : list ty := Eval vm_compute in fields_of_type status_no.
Definition sub_types : list ty := Eval vm_compute in fields_of_type sub_no.
Lemma fields_build u : v_fields (std_env u) build_no = build_types. Proof. vm_compute. reflexivity. Qed.
Lemma fields_status u : v_fields (std_env u) status_no = status_types. Proof. vm_compute. reflexivity. Qed.
Lemma fields_sub u : v_fields (std_env u) sub_no = sub_types. Proof. vm_compute. reflexivity. Qed.

Section Wire.
Variable u : list bytes.
Let E := std_env u.
Definition sent (q : shown) : Prop := forall v, shows v q -> wf E false TVar v.
Lemma sent_plain t (x : bval t) : bwf t x -> sent (Plain (VScalar (KB t) (VB t x))).
Proof. intros H v ->. cbn [wf ty_of_kind]. auto. Qed.
Lemma sent_nil : sent (Plain VNil).
Proof. intros v ->. reflexivity. Qed.
Lemma wall_strings l : Forall len_ok l -> wall (wf E false (TB BString)) (map (VB BString) l).
Proof. induction 1; cbn [map wall]; [exact Logic.I|]. split; [|assumption]. split; [reflexivity|assumption]. Qed.
Lemma sent_strs l : ok_strings l -> sent (Strs l).
Proof.
  intros [A B] v ->. cbn [wf ty_of_kind]. split; [reflexivity|]. split; [discriminate|].
  split; [unfold len_ok; now rewrite map_length|]. now apply wall_strings.
Qed.
Lemma sent_strs_of o : ok_strings_of o -> sent (StrsOf o).
Proof. destruct o as [l|]; [apply sent_strs|]. intros _ v ->. cbn [wf]. split; [reflexivity|discriminate]. Qed.

Lemma wf_build b : ok_build b -> wzip (wf E false) build_types (build_shown b).
Proof. intros (A1 & A2 & A3 & A4 & A5 & A6). cbn [build_types build_shown wzip wf]. repeat (split; [split; [reflexivity|assumption]|]). exact Logic.I. Qed.
Lemma sent_build b : ok_build b -> sent (Structure "BuildInfo" (build_shown b)).
Proof.
  intros K v (t & N & ->). apply (only "BuildInfo" build_no) in N; [|vm_compute; reflexivity]. subst t.
  cbn [wf ty_of_kind]. split; [reflexivity|]. split; [discriminate|]. split; [reflexivity|]. split; [apply reg_build|].
  unfold E. rewrite fields_build. now apply wf_build.
Qed.
Lemma sent_status w : ok_build (w_build w) -> ok_time (w_start w) -> ok_moment (the_moment w) ->
  sent (Structure "ServerStatusDataType" [VB BTime (w_start w); VB BTime (w_now w); VB BInt32 (w_state w); VStruct (build_shown (w_build w)); VB BUInt32 (w_seconds w); VB BLText (w_reason w)]).
Proof.
  intros B T (M1 & M2 & M3 & M4 & _) v (t & N & ->). cbn [the_moment m_now m_state m_seconds m_reason] in *.
  apply (only "ServerStatusDataType" status_no) in N; [|vm_compute; reflexivity]. subst t.
  cbn [wf ty_of_kind]. split; [reflexivity|]. split; [discriminate|]. split; [reflexivity|]. split; [apply reg_status|].
  unfold E. rewrite fields_status. cbn [status_types wzip wf]. fold E.
  split; [split; [reflexivity|exact T]|]. split; [split; [reflexivity|exact M1]|]. split; [split; [reflexivity|exact M2]|].
  split; [exact (wf_build _ B)|]. split; [split; [reflexivity|exact M3]|]. split; [split; [reflexivity|exact M4]|]. exact Logic.I.
Qed.
Lemma zero_u4 : in_u 4 0. Proof. unfold in_u. cbn. lia. Qed.
Lemma wf_sub s : ok_sub s -> wzip (wf E false) sub_types (subscription_shown s).
Proof.
  intros (A1 & A2 & A3 & A4). cbn [sub_types subscription_shown wzip wf].
  repeat (split; [split; [reflexivity|first [exact A1|exact A2|exact A3|apply A4|exact zero_u4|exact Logic.I]]|]). exact Logic.I.
Qed.
Lemma sent_subs l : len_ok l -> Forall ok_sub l -> sent (Structures "SubscriptionDiagnosticsDataType" (map subscription_shown l)).
Proof.
  intros L F v (t & N & ->). apply (only "SubscriptionDiagnosticsDataType" sub_no) in N; [|vm_compute; reflexivity]. subst t.
  cbn [wf]. split; [reflexivity|]. split; [discriminate|]. split; [unfold len_ok in *; now rewrite !map_length|].
  induction F as [|s l K F IH]; cbn [map wall]; [exact Logic.I|]. split.
  - cbn [wf ty_of_kind]. split; [reflexivity|]. split; [apply reg_sub|]. unfold E. rewrite fields_sub. now apply wf_sub.
  - apply IH. unfold len_ok in *. cbn [List.length] in L. lia.
Qed.
Ltac plain := apply (sent_plain _ _); assumption.
Lemma facts_sent w c l : w_caps w = Some c -> cap_OperationLimits c = Some l -> ok_world w -> Forall (fun q => sent (snd q)) (facts w c l).
Proof.
  intros C L (K & B & T & V & M). pose proof M as (M1 & M2 & M3 & M4 & M5 & M6 & M7 & M8).
  cbn [the_moment m_now m_state m_seconds m_reason m_namespaces m_summary m_subs] in *.
  pose proof B as (B1 & B2 & B3 & B4 & B5 & B6).
  destruct (K c C) as (C1 & C2 & C3 & C4 & C5 & C6 & C7 & C8 & C9 & C10). specialize (C10 l L).
  unfold facts. rewrite !Forall_app. repeat split.
  - repeat (apply Forall_cons; [cbn [snd]; first
      [ now apply sent_strs | now apply sent_strs_of | now apply sent_build | now apply sent_status
      | apply (sent_plain BBool), Logic.I | now apply (sent_plain BTime) | now apply (sent_plain BLText) | now apply (sent_plain BString)
      | apply (sent_plain BByte); unfold bwf, in_u; cbn; lia
      | apply (sent_plain BInt32); unfold bwf, in_s; cbn; lia
      | now apply (sent_plain BUInt32) | now apply (sent_plain BInt32) | now apply (sent_plain BUInt16) | now apply (sent_plain BDouble)
      | destruct (w_diagnostics w); [now apply sent_subs|apply sent_nil] ]|]).
    apply Forall_nil.
  - rewrite Forall_forall. intros q I. apply in_map_iff in I as (x & <- & _). cbn [snd]. apply (sent_plain BUInt32), C10.
  - rewrite Forall_forall. intros q I. apply in_map_iff in I as (x & <- & _). cbn [snd]. apply (sent_plain BUInt32), M6.
  - rewrite Forall_forall. intros q I. apply in_map_iff in I as (x & <- & _). cbn [snd]. apply (sent_plain BBool), Logic.I.
Qed.
End Wire.

Lemma fact_bytes u w c l q v : w_caps w = Some c -> cap_OperationLimits c = Some l -> ok_world w -> In q (facts w c l) -> shows v (snd q) ->
  exists e, encode (std_env u) TVar v = Some e /\ reads_back (decode (std_env u) TVar) e (norm v).
Proof.
  intros C L K I S. apply c07_variant. pose proof (facts_sent u w c l C L K) as F. rewrite Forall_forall in F. exact (F q I v S).
Qed.

(** * What is wrong *)
Lemma gone_always w s c l es p : w_caps w = Some c -> cap_OperationLimits c = Some l -> new_server w = Some s ->
  In p removed -> descend (sv_nodes (run_server s es)) 0 p = None.
Proof.
  intros C L N I. destruct (running w s c l es C L N) as (w' & _ & B & _ & _). rewrite B.
  cbn [removed In] in I. destruct I as [<-|[<-|[<-|[]]]]; vm_compute; reflexivity.
Qed.

Lemma gone_unread range w s c l es i r : w_caps w = Some c -> cap_OperationLimits c = Some l -> new_server w = Some s ->
  In i removed_ids -> read_response range (sv_world (run_server s es)) (sv_nodes (run_server s es)) [(i, r)] = Some [(VNil, 0x80340000)].
Proof.
  intros C L N I. destruct (running w s c l es C L N) as (w' & A & B & _ & _). rewrite B. unfold read_response, read_value. cbn [map fst snd].
  repeat (destruct I as [<-|I]; [vm_compute; reflexivity|]). destruct I.
Qed.
(** What the facts are about: the last moment, and the configuration of the beginning *)
Lemma last_moment s es m ws : Forall is_write ws -> the_moment (sv_world (run_server s (es ++ [Later m] ++ ws))) = m.
Proof.
  intros W. unfold run_server. rewrite !fold_left_app. cbn [fold_left]. set (s1 := step _ _). assert (H : the_moment (sv_world s1) = m) by (destruct m; reflexivity).
  clearbody s1. revert s1 H. induction W as [|e ws E _ IH]; intros s1 H; [exact H|]. destruct e; [destruct E|]. apply IH. exact H.
Qed.
Lemma same_configuration s es : let w := sv_world s in let v := sv_world (run_server s es) in
  w_caps v = w_caps w /\ w_build v = w_build w /\ w_start v = w_start w /\ w_diagnostics v = w_diagnostics w /\ w_historian v = w_historian w /\ w_servers v = w_servers w.
Proof.
  cbv zeta. unfold run_server. revert s. induction es as [|e es IH]; intros s; [repeat split|]. cbn [fold_left]. destruct (IH (step s e)) as (A & B & C & D & E & F). rewrite A, B, C, D, E, F. destruct e; repeat split.
Qed.

Lemma all_written_none l g : In g l -> variant_of (fst g) = None -> all_written l = None.
Proof.
  induction l as [|[x s] l IH]; [intros []|]. intros [<-|I] V; cbn [all_written fst] in *.
  - now rewrite V.
  - rewrite (IH I V). destruct (variant_of x); reflexivity.
Qed.
Lemma summary_none range w s c l es : w_caps w = Some c -> cap_OperationLimits c = Some l -> new_server w = Some s ->
  let s' := run_server s es in exists i, descend (sv_nodes s') 0 ["Server"; "ServerDiagnostics"; "ServerDiagnosticsSummary"] = Some i /\
  forall ids r, In (i, r) ids -> read_response range (sv_world s') (sv_nodes s') ids = None.
Proof.
  intros C L N s'. destruct (running w s c l es C L N) as (w' & A & B & _ & _). fold s' in A, B. rewrite A, B.
  eexists. split; [vm_compute; reflexivity|]. intros ids r I. unfold read_response.
  apply (in_map (fun p => read_value range (with_caps w' c l) (nodes_of w' c l) (fst p) (snd p))) in I.
  eapply all_written_none; [exact I|]. vm_compute. reflexivity.
Qed.
Lemma wrong_type range w s c l es p : plain_range range -> w_caps w = Some c -> cap_OperationLimits c = Some l -> new_server w = Some s ->
  In p ["MaxReturnDataValues"; "MaxReturnEventValues"] ->
  let s' := run_server s es in exists n v, In n (sv_nodes s') /\ descend (sv_nodes s') 0 ["HistoryServerCapabilities"; p] = Some (n_id n) /\
    d_type (n_decl n) = 7 /\ read_response range (sv_world s') (sv_nodes s') [(n_id n, [])] = Some [(v, 0)] /\
    v = VScalar (KB BBool) (VB BBool false) /\ ~ fits (d_type (n_decl n)) (d_rank (n_decl n)) v.
Proof.
  intros P C L N I s'. destruct (running w s c l es C L N) as (w' & A & B & _ & _). fold s' in A, B. rewrite A, B.
  cbn [In] in I. destruct I as [<-|[<-|[]]]; [set (k := 11273)|set (k := 11274)].
  all: destruct (find_node k (nodes_of w' c l)) as [n|] eqn:F; [|vm_compute in F; discriminate].
  all: pose proof (find_some _ _ F) as [I _]; vm_compute in F; injection F as <-; eexists; eexists.
  all: split; [exact I|]; split; [vm_compute; reflexivity|]; split; [reflexivity|]; split.
  all: try (rewrite response_plain by exact P; vm_compute; reflexivity).
  all: split; [reflexivity|]; intros [_ [[X|X] _]]; vm_compute in X; discriminate.
Qed.
Lemma no_history range w s c l es : plain_range range -> w_caps w = Some c -> cap_OperationLimits c = Some l -> new_server w = Some s ->
  let s' := run_server s es in exists i, descend (sv_nodes s') 0 ["HistoryServerCapabilities"; "AccessHistoryDataCapability"] = Some i /\
    read_response range (sv_world s') (sv_nodes s') [(i, [])] = Some [(VScalar (KB BBool) (VB BBool false), 0)].
Proof.
  intros P C L N s'. destruct (running w s c l es C L N) as (w' & A & B & _ & _). fold s' in A, B. rewrite A, B.
  eexists. split; [vm_compute; reflexivity|]. rewrite response_plain by exact P. vm_compute. reflexivity.
Qed.
Lemma unset range w s c l es p : plain_range range -> w_caps w = Some c -> cap_OperationLimits c = Some l -> new_server w = Some s ->
  In p never_set ->
  let s' := run_server s es in exists i, descend (sv_nodes s') 0 p = Some i /\ read_response range (sv_world s') (sv_nodes s') [(i, [])] = Some [(VNil, 0)].
Proof.
  intros P C L N I s'. destruct (running w s c l es C L N) as (w' & A & B & _ & _). fold s' in A, B. rewrite A, B.
  cbn [never_set In] in I. repeat (destruct I as [<-|I]; [eexists; split; [vm_compute; reflexivity|]; rewrite response_plain by exact P; vm_compute; reflexivity|]).
  destruct I.
Qed.
Lemma range_ignored range w s c l es r : w_caps w = Some c -> cap_OperationLimits c = Some l -> new_server w = Some s ->
  let s' := run_server s es in exists i, descend (sv_nodes s') 0 ["Server"; "NamespaceArray"] = Some i /\
    read_response range (sv_world s') (sv_nodes s') [(i, r)] = Some [(VArr (KB BString) (map (VB BString) (w_namespaces (sv_world s'))), 0)].
Proof.
  intros C L N s'. destruct (running w s c l es C L N) as (w' & A & B & _ & D). fold s' in A, B, D. rewrite B.
  eexists. split; [vm_compute; reflexivity|]. rewrite D. vm_compute. reflexivity.
Qed.
Lemma writes_fail w s c l es i g : w_caps w = Some c -> cap_OperationLimits c = Some l -> new_server w = Some s ->
  let s' := run_server s es in fst (write_value (sv_nodes s') i g) = sv_nodes s' /\ snd (write_value (sv_nodes s') i g) <> 0.
Proof.
  intros C L N s'. destruct (running w s c l es C L N) as (w' & _ & B & _ & _). fold s' in B. rewrite B. apply write_refused, all_refuse.
Qed.
Lemma nil_limits w : w_caps w = None \/ (exists c, w_caps w = Some c /\ cap_OperationLimits c = None) -> new_server w = None.
Proof. intros H. unfold new_server. rewrite (made_stuck w H). reflexivity. Qed.
