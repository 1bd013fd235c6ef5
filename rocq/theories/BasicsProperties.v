(** C15-C21 and C72: text forms, namespace translation, type registry, message
    writer, status codes.  Property theorems only. *)
From Coq Require Import ZArith List Bool Lia String Strings.Byte.
From Verif Require Import Bytes CodecSpec Prim PrimSpec Value Text TextSpec TextProofs TransProofs
  Registry RegistryProofs Writer WriterProofs Status StatusTable StatusSpec StatusProofs BasicsLemmas.
Import ListNotations.
Open Scope list_scope.
Open Scope Z_scope.

(** * C15 *)
Theorem c15_nodeid_text : forall n, text_nodeid n -> parse_nodeid (print_nodeid n) = null_numeric n.
Proof. exact parse_print_nodeid. Qed.
Print Assumptions c15_nodeid_text.
Example c15_ex : text_nodeid (NStr 3 (lit "a;ns=4;i=7")) /\ null_numeric (NStr 3 (lit "a;ns=4;i=7")) = NStr 3 (lit "a;ns=4;i=7")
  /\ null_numeric (NNum 0 0) = NNull /\ null_numeric (NNum 1 0) = NNum 1 0.
Proof. unfold text_nodeid, in_u. repeat split; cbn; lia. Qed.
(** The syntax itself: index and identifier in decimal, as in OPC UA part 6. *)
Theorem c15_syntax : forall ns id, 0 < ns < 2 ^ 16 -> 0 <= id < 2 ^ 32 ->
  print_nodeid (NNum ns id) = lit "ns=" ++ print_dec ns ++ lit ";i=" ++ print_dec id /\
  parse_nodeid (lit "ns=" ++ print_dec ns ++ lit ";i=" ++ print_dec id) = NNum ns id.
Proof. exact nodeid_syntax. Qed.
Print Assumptions c15_syntax.
Example c15_syntax_ex :
  parse_nodeid (lit "ns=12;i=345") = NNum 12 345 /\ parse_nodeid (lit "ns=2;s=Demo.Static") = NStr 2 (lit "Demo.Static") /\
  parse_nodeid (lit "ns=1;g=5ce9dbce-5d79-434c-9ac3-1cfba9a6e92c")
    = NGuid 1 (Guid x5c xe9 xdb xce x5d x79 x43 x4c x9a xc3 x1c xfb xa9 xa6 xe9 x2c) /\
  parse_nodeid (lit "b=YWJjZA==") = NOpq 0 (lit "abcd") /\ print_dec 4294967295 = lit "4294967295" /\
  parse_nodeid (lit "i=4294967296") = NNull /\ parse_nodeid (lit "ns=65536;i=1") = NNull.
Proof. repeat split; reflexivity. Qed.
Theorem c15_base64_alphabet : forall d, 0 <= d < 64 -> b64_char d =
  nth (Z.to_nat d) (lit "ABCDEFGHIJKLMNOPQRSTUVWXYZabcdefghijklmnopqrstuvwxyz0123456789+/") x00.
Proof. exact alphabet. Qed.
Print Assumptions c15_base64_alphabet.
(** RFC 4648 test vectors *)
Example c15_base64_ex : map b64_enc [[]; lit "f"; lit "fo"; lit "foo"; lit "foob"; lit "fooba"; lit "foobar"] =
  [[]; lit "Zg=="; lit "Zm8="; lit "Zm9v"; lit "Zm9vYg=="; lit "Zm9vYmE="; lit "Zm9vYmFy"].
Proof. reflexivity. Qed.
Theorem c15_null_text : print_nodeid NNull = lit "i=0" /\ parse_nodeid (lit "i=0") = NNull.
Proof. split; reflexivity. Qed.
Print Assumptions c15_null_text.
(** Besides the letters and padding only line breaks may stand in the text of a byte string. *)
Theorem c15_base64_only : forall t s c, b64_dec t = Some s -> In c t ->
  In c (lit "ABCDEFGHIJKLMNOPQRSTUVWXYZabcdefghijklmnopqrstuvwxyz0123456789+/=") \/ c = x0a \/ c = x0d.
Proof. exact base64_only. Qed.
Print Assumptions c15_base64_only.
(** A Guid is printed in lower case; its text is read in letters of either case, also in braces, after
    "urn:uuid:" or without the dashes. *)
Theorem c15_guid_digits : forall d, 0 <= d < 16 -> hex_char d = nth (Z.to_nat d) (lit "0123456789abcdef") x00.
Proof. exact hex_digits. Qed.
Print Assumptions c15_guid_digits.
Theorem c15_guid_case : forall g t, same_but_case (print_guid g) t -> parse_guid t = Some g.
Proof. exact guid_case. Qed.
Print Assumptions c15_guid_case.
Theorem c15_guid_only : forall g t, List.length t = 36%nat -> parse_guid t = Some g -> same_but_case (print_guid g) t.
Proof. exact guid_only. Qed.
Print Assumptions c15_guid_only.
Theorem c15_guid_forms : forall g t, same_but_case (print_guid g) t ->
  parse_guid (lit "{" ++ t ++ lit "}") = Some g /\
  (forall p, same_but_case (lit "urn:uuid:") p -> parse_guid (p ++ t) = Some g) /\
  parse_guid (filter (fun c => negb (Byte.eqb c x2d)) (print_guid g)) = Some g.
Proof. exact guid_forms. Qed.
Print Assumptions c15_guid_forms.
(** Whatever text is given, the result is a legal NodeId whose own text parses to it. *)
Theorem c15_parse_stable : forall s,
  text_nodeid (parse_nodeid s) /\ parse_nodeid (print_nodeid (parse_nodeid s)) = parse_nodeid s.
Proof. intros s. exact (conj (parse_nodeid_legal s) (parse_print_parse s)). Qed.
Print Assumptions c15_parse_stable.

(** * C16 *)
(** Missing: URIs containing a semicolon (refuted below). *)
Theorem c16_expanded_nodeid_text_partial : forall e, text_exp e -> ~ has_byte semicolon (e_uri e) ->
  parse_exp (print_exp e) = mkExp (e_server e) (e_uri e) (null_numeric (e_node e)).
Proof. exact parse_print_exp. Qed.
Print Assumptions c16_expanded_nodeid_text_partial.
Example c16_ex : text_exp (mkExp 3 (lit "http://x/y?z=1") (NNum 0 9)) /\ ~ has_byte semicolon (lit "http://x/y?z=1").
Proof.
  unfold text_exp, text_nodeid, in_u, has_byte. repeat split; cbn; try lia. intuition discriminate.
Qed.
Example c16_syntax_ex : parse_exp (lit "svr=1;nsu=urn:x;i=5") = mkExp 1 (lit "urn:x") (NNum 0 5) /\
  parse_exp (lit "nsu=urn:x;s=a;b") = mkExp 0 (lit "urn:x") (NStr 0 (lit "a;b")).
Proof. repeat split; reflexivity. Qed.
Theorem c16_semicolon_refuted : exists e, text_exp e /\ e_node e = NNum 0 9 /\
  e_node (parse_exp (print_exp e)) = NNull.
Proof.
  exists (mkExp 0 (lit "urn:a;b") (NNum 0 9)). split; [unfold text_exp, text_nodeid, in_u; cbn; lia|].
  split; reflexivity.
Qed.
Print Assumptions c16_semicolon_refuted.

(** * C17 *)
Theorem c17_qualified_name_text : forall q, text_qname q -> parse_qname (print_qname q) = q.
Proof. exact parse_print_qname. Qed.
Print Assumptions c17_qualified_name_text.
Example c17_ex : text_qname (mkQ 65535 (lit "2:a:b/c")).
Proof. unfold text_qname, in_u. cbn. lia. Qed.
(** Text without a namespace index is a name in namespace 0, kept whole. *)
Theorem c17_no_index : forall s, ~ has_byte colon s -> parse_qname s = mkQ 0 s.
Proof. exact no_colon_name. Qed.
Print Assumptions c17_no_index.
Theorem c17_not_a_number : forall a b, ~ has_byte colon a -> (List.length a <= 4)%nat ->
  (a = [] \/ exists c, In c a /\ digit_val c = None) ->
  parse_qname (a ++ colon :: b) = mkQ 0 (a ++ colon :: b).
Proof. exact plain_name. Qed.
Print Assumptions c17_not_a_number.
Example c17_not_a_number_ex : parse_qname (lit "urn:x") = mkQ 0 (lit "urn:x").
Proof. reflexivity. Qed.
Theorem c17_browse_path_text_partial : forall l,
  (forall q, In q l -> text_qname q /\ ~ has_byte slash (q_name q)) -> parse_path (print_path l) = l.
Proof. exact parse_print_path. Qed.
Print Assumptions c17_browse_path_text_partial.
Example c17_path_ex : forall q, In q [mkQ 2 (lit "a:b"); mkQ 0 []] -> text_qname q /\ ~ has_byte slash (q_name q).
Proof.
  intros q [<-|[<-|[]]]; unfold text_qname, in_u, has_byte; cbn; (split; [lia|intuition discriminate]).
Qed.
Example c17_syntax_ex : parse_path (lit "2:a/b/3:c:d") = [mkQ 2 (lit "a"); mkQ 0 (lit "b"); mkQ 3 (lit "c:d")].
Proof. reflexivity. Qed.
(** A name containing "/" becomes two elements (there is no escape)... *)
Theorem c17_slash_refuted : exists q, text_qname q /\ parse_path (print_path [q]) <> [q].
Proof. exists (mkQ 2 (lit "a/b")). split; [unfold text_qname, in_u; cbn; lia|vm_compute; discriminate]. Qed.
Print Assumptions c17_slash_refuted.
(** ...and an index that does not fit lands in namespace 65535, not 0. *)
Theorem c17_out_of_range_refuted : parse_qname (lit "65536:x") = mkQ 65535 (lit "65536:x").
Proof. reflexivity. Qed.
Print Assumptions c17_out_of_range_refuted.

(** * C18 *)
(** Tables without duplicates and without an empty entry after the first. *)
Theorem c18_round_trip_partial : forall n uris, NoDup uris -> ~ In [] (tl uris) -> in_u 2 (ns_of n) ->
  to_nodeid (to_expanded n uris) uris = n.
Proof. exact nodeid_roundtrip. Qed.
Print Assumptions c18_round_trip_partial.
Example c18_ex : NoDup [lit "http://opcfoundation.org/UA/"; lit "urn:x"] /\ ~ In [] (tl [lit "u"; lit "urn:x"]) /\ in_u 2 (ns_of (NNum 1 5)).
Proof.
  split; [|split; [cbn; intuition discriminate|unfold in_u; cbn; lia]].
  repeat constructor; cbn; intuition discriminate.
Qed.
Theorem c18_expanded_round_trip : forall e uris, NoDup uris -> Z.of_nat (List.length uris) < 65536 ->
  e_server e = 0 -> e_uri e <> [] -> In (e_uri e) (tl uris) -> e_node e <> NNull -> ns_of (e_node e) = 0 ->
  to_expanded (to_nodeid e uris) uris = e.
Proof. exact exp_roundtrip. Qed.
Print Assumptions c18_expanded_round_trip.
Theorem c18_unknown_uri : forall e uris, e_uri e <> [] -> ~ In (e_uri e) uris -> to_nodeid e uris = NNull.
Proof. exact unknown_uri. Qed.
Print Assumptions c18_unknown_uri.
(** A known URI gives the index at which the table has that URI. *)
Theorem c18_known_uri : forall e uris, e_uri e <> [] -> In (e_uri e) uris ->
  Z.of_nat (List.length uris) <= 65536 -> e_node e <> NNull ->
  exists i, to_nodeid e uris = with_ns (e_node e) i /\ 0 <= i < 65536 /\
            nth_error uris (Z.to_nat i) = Some (e_uri e).
Proof. exact known_uri. Qed.
Print Assumptions c18_known_uri.
Theorem c18_duplicate_refuted : exists n uris, in_u 2 (ns_of n) /\ to_nodeid (to_expanded n uris) uris <> n.
Proof.
  exists (NNum 2 5), [lit "a"; lit "b"; lit "b"]. split; [unfold in_u; cbn; lia|vm_compute; discriminate].
Qed.
Print Assumptions c18_duplicate_refuted.
Theorem c18_empty_entry_refuted : exists n uris, NoDup uris /\ in_u 2 (ns_of n) /\
  to_nodeid (to_expanded n uris) uris = NNum 0 5 /\ n = NNum 1 5.
Proof.
  exists (NNum 1 5), [lit "a"; []]. split; [repeat constructor; cbn; intuition discriminate|].
  split; [unfold in_u; cbn; lia|]. split; reflexivity.
Qed.
Print Assumptions c18_empty_entry_refuted.
(** The 65537th entry is translated to namespace 0. *)
Theorem c18_large_table_refuted : exists uris, nth_error uris (Z.to_nat 65536) = Some (lit "u") /\
  to_nodeid (mkExp 0 (lit "u") (NNum 0 5)) uris = NNum 0 5.
Proof. exists (repeat (lit "a") (Z.to_nat 65536) ++ [lit "u"]). split; vm_compute; reflexivity. Qed.
Print Assumptions c18_large_table_refuted.

(** * C19 *)
Theorem c19_bijection : forall l t id,
  find_type (reg_run l) id = Some t <-> find_id (reg_run l) t = Some id.
Proof. exact run_bijective. Qed.
Print Assumptions c19_bijection.
(** One more registration after any history: accepted exactly when it repeats an
    existing pair or both sides are new; a refused one changes no answer; an
    accepted one changes only the answers for its own id and type. *)
Theorem c19_registration : forall l t id, let r := reg_run l in let '(r', ok) := register r t id in
  (ok = true <-> (find_type r id = None /\ find_id r t = None) \/ find_type r id = Some t) /\
  (ok = false -> (forall x, find_type r' x = find_type r x) /\ (forall x, find_id r' x = find_id r x)) /\
  (ok = true -> find_type r' id = Some t /\ find_id r' t = Some id /\
     (forall x, x <> id -> find_type r' x = find_type r x) /\
     (forall x, x <> t -> find_id r' x = find_id r x)).
Proof. exact registration_spec. Qed.
Print Assumptions c19_registration.
Example c19_ex : let r := reg_run [(1, mkExp 0 [] (NNum 0 5)); (2, mkExp 0 [] (NNum 0 5)); (1, mkExp 0 [] (NNum 0 6))] in
  find_type r (mkExp 0 [] (NNum 0 5)) = Some 1 /\ find_type r (mkExp 0 [] (NNum 0 6)) = None /\
  find_id r 2 = None.
Proof. repeat split. Qed.
(** With concurrent callers a refused registration can undo somebody else's
    accepted one: types 1 and 3 race; type 3 is registered, yet its id resolves to nothing. *)
Theorem c19_concurrent_refuted : exists callers sched,
  let id := mkExp 0 [] (NNum 0 6) in
  let '(r, cs) := fold_left sched_step sched (empty_registry, callers) in
  nth_error cs 3 = Some (mkC 3 id Registered) /\ find_id r 3 = Some id /\ find_type r id = None.
Proof.
  exists [mkC 1 (mkExp 0 [] (NNum 0 5)) AtFirst; mkC 1 (mkExp 0 [] (NNum 0 6)) AtFirst;
          mkC 1 (mkExp 0 [] (NNum 0 6)) AtFirst; mkC 3 (mkExp 0 [] (NNum 0 6)) AtFirst].
  exists [0; 0; 1; 2; 1; 1; 3; 3; 2; 2]%nat. vm_compute. repeat split.
Qed.
Print Assumptions c19_concurrent_refuted.

(** * C20 *)
(** For any buffer and any sequence of writes: what has been written is the
    longest prefix of the data that fits, and the rest of the buffer is untouched. *)
Theorem c20_writes : forall buf ps, let w := w_run (new_writer buf) (map Write ps) in
  w_bytes w = firstn (List.length buf) (List.concat ps) /\
  skipn (List.length (List.concat ps)) (w_buf w) = skipn (List.length (List.concat ps)) buf.
Proof. exact run_writes. Qed.
Print Assumptions c20_writes.
Theorem c20_in_bounds : forall buf ops, let w := w_run (new_writer buf) ops in
  (w_i w <= List.length (w_buf w))%nat /\ List.length (w_buf w) = List.length buf.
Proof. exact run_in_bounds. Qed.
Print Assumptions c20_in_bounds.
Theorem c20_one_write : forall buf ops p, let w := w_run (new_writer buf) ops in
  let room := (List.length (w_buf w) - w_i w)%nat in
  w_bytes (fst (w_write w p)) = w_bytes w ++ firstn room p /\
  (p <> [] -> snd (w_write w p) =
     if Nat.ltb room (List.length p) then WShort room else WOk (List.length p)).
Proof. exact one_write. Qed.
Print Assumptions c20_one_write.
Theorem c20_write_at : forall buf ops p off, let w := w_run (new_writer buf) ops in
  let '(w', r) := w_write_at w p off in
  List.length (w_buf w') = List.length buf /\ w_i w' = w_i w /\
  (r <> WPanic -> forall k, Z.of_nat k < off \/ Z.of_nat k >= off + Z.of_nat (List.length p) ->
     nth_error (w_buf w') k = nth_error (w_buf w) k) /\
  (r = WPanic <-> off < 0).
Proof. exact write_at_run. Qed.
Print Assumptions c20_write_at.
(** WriteAt overwrites exactly the bytes at the offset, clipped to the buffer. *)
Theorem c20_write_at_data : forall buf ops p off, let w := w_run (new_writer buf) ops in
  0 <= off -> let o := Z.to_nat off in
  w_write_at w p off =
    if Nat.ltb o (w_i w)
    then (mkW (firstn o (w_buf w) ++ firstn (List.length buf - o) p ++ skipn (o + List.length p) (w_buf w)) (w_i w),
          if Nat.ltb (List.length buf) (o + List.length p) then WShort (List.length buf - o) else WOk (List.length p))
    else (w, WShort 0).
Proof. exact write_at_data. Qed.
Print Assumptions c20_write_at_data.
(** "A short write exactly when data did not fit" fails for one case: writing
    nothing to a full buffer is reported as short. *)
Theorem c20_empty_write_refuted : exists buf ps, snd (w_write (w_run (new_writer buf) (map Write ps)) []) = WShort 0.
Proof. exists [x00], [[x01]]. reflexivity. Qed.
Print Assumptions c20_empty_write_refuted.

(** * C21 *)
Theorem c21_severity : forall c, 0 <= c < 2 ^ 32 ->
  is_good c = (c / 2 ^ 30 =? 0) /\ is_uncertain c = (c / 2 ^ 30 =? 1) /\ is_bad c = (c / 2 ^ 30 =? 2).
Proof. exact severity_cases. Qed.
Print Assumptions c21_severity.
Theorem c21_exclusive : forall c, 0 <= c < 2 ^ 32 ->
  List.length (filter (fun b => b) [is_good c; is_uncertain c; is_bad c; c / 2 ^ 30 =? 3]) = 1%nat.
Proof. exact severity_exclusive. Qed.
Print Assumptions c21_exclusive.
Theorem c21_info_bits : forall c bits, 0 <= c < 2 ^ 32 -> 0 <= bits < 2 ^ 16 ->
  let c' := set_bits c bits in
  0 <= c' < 2 ^ 32 /\ c' / 2 ^ 16 = c / 2 ^ 16 /\
  is_good c' = is_good c /\ is_uncertain c' = is_uncertain c /\ is_bad c' = is_bad c.
Proof. exact info_bits_keep. Qed.
Print Assumptions c21_info_bits.
Example c21_ex : 0 <= 0x80340000 < 2 ^ 32 /\ 0 <= 0x480 < 2 ^ 16 /\ is_bad (set_bits 0x80340000 0x480) = true.
Proof. split; [lia|]. split; [lia|reflexivity]. Qed.
(** Marking a value as overflowed is seen by IsOverflow, unless the code carried
    the reserved information type bit. *)
Theorem c21_overflow : forall c,
  is_overflow (set_bits c (Z.lor info_type_data_value overflow_bit)) = negb (Z.testbit c 11).
Proof. exact overflow_set. Qed.
Print Assumptions c21_overflow.
(** IsStructureChanged, IsSemanticsChanged and IsOverflow test exactly the bits the standard gives these
    meanings (Part 4, 7.39: bits 15 and 14; information type 01 in bits 11-10 and bit 7). *)
Theorem c21_flags : forall c,
  is_structure_changed c = Z.testbit c 15 /\ is_semantics_changed c = Z.testbit c 14 /\
  is_overflow c = (negb (Z.testbit c 11) && Z.testbit c 10 && Z.testbit c 7).
Proof. exact flag_tests. Qed.
Print Assumptions c21_flags.
Example c21_flags_ex : is_overflow 0x80340480 = true /\ is_structure_changed 0x8000 = true /\ is_semantics_changed 0x8000 = false.
Proof. split; [reflexivity|]. split; reflexivity. Qed.

(** * C72 *)
Theorem c72_names_match_severity : forall name c, In (name, c) status_table ->
  c mod 2 ^ 16 = 0 /\ 0 <= c < 2 ^ 32 /\
  (if String.prefix "Good" name then is_good c
   else if String.prefix "Uncertain" name then is_uncertain c
   else if String.prefix "Bad" name then is_bad c else false) = true.
Proof. exact names_match. Qed.
Print Assumptions c72_names_match_severity.
Theorem c72_codes_distinct : NoDup (map snd status_table).
Proof. exact codes_distinct. Qed.
Print Assumptions c72_codes_distinct.
Theorem c72_limit_bits_in_mask : forall name c, In (name, c) limit_bits -> Z.land c limit_bits_mask = c.
Proof. intros name c. cbn. intuition (match goal with H : _ = (_, _) |- _ => injection H as _ <- end; reflexivity). Qed.
Print Assumptions c72_limit_bits_in_mask.
(** HistorianBitsPartial lies outside its mask and is the LimitBitsLow bit. *)
Theorem c72_historian_bits_refuted : exists name c, In (name, c) historian_bits /\
  Z.land c historian_bits_mask <> c /\ In ("LimitBitsLow"%string, c) limit_bits.
Proof. exists "HistorianBitsPartial"%string, 0x100. split; [cbn; auto|]. split; [discriminate|cbn; auto]. Qed.
Print Assumptions c72_historian_bits_refuted.
(** The masks and the single flags have the bits of the standard, and so have the masks the tests above use. *)
Theorem c72_masks : mask_bits = standard_masks /\ limit_bits = standard_limit /\
  [("SeverityMask"%string, severity_mask); ("StructureChanged"%string, structure_changed); ("SemanticsChanged"%string, semantics_changed);
   ("InfoTypeMask"%string, info_type_mask); ("InfoTypeDataValue"%string, info_type_data_value); ("LimitBitsMask"%string, limit_bits_mask);
   ("Overflow"%string, overflow_bit); ("HistorianBitsMask"%string, historian_bits_mask)] =
  filter (fun p => negb (String.eqb (fst p) "SubCodeMask" || String.eqb (fst p) "InfoBitsMask")) standard_masks.
Proof. exact masks_standard. Qed.
Print Assumptions c72_masks.
(** Two historian flags are the binary digits of the standard read as hexadecimal ones. *)
Theorem c72_historian_values_refuted :
  In ("HistorianBitsInterpolated"%string, 0x10) historian_bits /\ In ("HistorianBitsInterpolated"%string, 0x2) standard_historian /\
  In ("HistorianBitsPartial"%string, 0x100) historian_bits /\ In ("HistorianBitsPartial"%string, 0x4) standard_historian.
Proof. exact historian_wrong. Qed.
Print Assumptions c72_historian_values_refuted.
