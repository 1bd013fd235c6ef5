(** C60, C61, C62: index ranges. *)
From Coq Require Import ZArith List Bool Strings.Byte.
From Verif Require Import Bytes Text IndexRange IndexRangeSpec IndexRangeProofs IndexRangeLemmas.
Import ListNotations.
Open Scope Z_scope.

(** * C60: reading with an index range *)
(** [spells_all range [d]]: the text of the range is a number or two increasing numbers with a colon;
    [reads_as mk d l out]: [out] has the elements of [l] at the positions [d] names, as many as exist,
    or is BadIndexRangeNoData if there are none. *)
Theorem c60_array_partial : forall t els range d, spells_all range [d] -> bounded d -> reads_as (GArr t) d els (read_range (GArr t els) range).
Proof. exact read_array. Qed.
Print Assumptions c60_array_partial.
Theorem c60_bytestring_partial : forall s range d, spells_all range [d] -> bounded d -> reads_as GBlob d s (read_range (GBlob s) range).
Proof. exact read_blob. Qed.
Print Assumptions c60_bytestring_partial.
(** Strings: by character, not by byte. *)
Theorem c60_string_partial : forall cs range d, Forall character cs -> spells_all range [d] -> bounded d ->
  reads_as (fun r => GText (text_of r)) d cs (read_range (GText (text_of cs)) range).
Proof. exact read_text. Qed.
Print Assumptions c60_string_partial.
Theorem c60_strings_partial : forall l range d, spells_all range [d] -> bounded d -> reads_as GTexts d l (read_range (GTexts l) range).
Proof. exact read_texts. Qed.
Print Assumptions c60_strings_partial.
Theorem c60_bytestrings_partial : forall l range d, spells_all range [d] -> bounded d -> reads_as GBlobs d l (read_range (GBlobs l) range).
Proof. exact read_blobs. Qed.
Print Assumptions c60_bytestrings_partial.
(** Two dimensions: the second selects inside each selected element. *)
Theorem c60_inside_strings_partial : forall ll range d1 d2, all_characters ll -> spells_all range [d1; d2] -> bounded d1 -> bounded d2 ->
  reads_inside GTexts text_of d1 d2 ll (read_range (GTexts (map text_of ll)) range).
Proof. exact read_texts2. Qed.
Print Assumptions c60_inside_strings_partial.
Theorem c60_inside_bytestrings_partial : forall l range d1 d2, spells_all range [d1; d2] -> bounded d1 -> bounded d2 ->
  reads_inside GBlobs (fun x => x) d1 d2 l (read_range (GBlobs l) range).
Proof. exact read_blobs2. Qed.
Print Assumptions c60_inside_bytestrings_partial.
(** Nothing is read out of bounds, whatever the text. *)
Theorem c60_within : forall s len i j, 0 <= len -> parse_bounds s len = BOk i j -> 0 <= i < j /\ j <= len.
Proof. exact bounds_within. Qed.
Print Assumptions c60_within.
(** Malformed text without sign characters is refused, of any data with an element. *)
Theorem c60_malformed_partial : forall v range, 0 < element_count v -> range <> [] -> ~ In x2c range -> unsigned_text range -> (forall d, ~ spells range d) ->
  read_range v range = RBad invalid.
Proof. exact read_malformed. Qed.
Print Assumptions c60_malformed_partial.
(** More dimensions than the data has (a string inside an array counts as one). *)
Theorem c60_dimensions : forall v range, (match v with GText _ | GBlob _ | GArr _ _ => 1 | GTexts _ | GBlobs _ => 2 | _ => 0 end < Z.of_nat (length (split x2c range)))%Z ->
  range <> [] -> read_range v range = RBad no_data.
Proof. exact read_dimensions. Qed.
Print Assumptions c60_dimensions.
(** The range of a new monitored item: accepted exactly if it has as many dimensions as the variable
    can have; malformed text is refused. *)
Theorem c60_item_range : forall range ds dest rank, ds <> [] -> spells_all range ds -> Forall bounded ds ->
  (validate_range range dest rank = 0 /\ admits ((dest =? 12) || (dest =? 15)) rank (Z.of_nat (length ds))) \/
  (validate_range range dest rank = no_data /\ ~ admits ((dest =? 12) || (dest =? 15)) rank (Z.of_nat (length ds))).
Proof. exact validate_spelled. Qed.
Print Assumptions c60_item_range.
Theorem c60_item_malformed_partial : forall range dest rank, range <> [] -> unsigned_text range -> (forall ds, ds <> [] -> Forall bounded ds -> ~ spells_all range ds) ->
  validate_range range dest rank = invalid.
Proof. exact validate_malformed. Qed.
Print Assumptions c60_item_malformed_partial.
(** What the code does otherwise than the property says. *)
Theorem c60_empty_array_refuted : exists range, range <> [] /\ (forall ds, ~ spells_all range ds) /\ forall t, read_range (GArr t []) range = RBad no_data.
Proof. exact empty_array. Qed.
Print Assumptions c60_empty_array_refuted.
Theorem c60_signs_refuted : exists range, (forall ds, ~ spells_all range ds) /\ read_range (GArr 6 [10; 20; 30]) range = RVal (GArr 6 [20]).
Proof. exact signs. Qed.
Print Assumptions c60_signs_refuted.
Theorem c60_trailing_comma_refuted : exists range, (forall ds, ~ spells_all range ds) /\ read_range (GTexts [[x61]; [x62; x63]]) range = RVal (GTexts [[x62; x63]]).
Proof. exact trailing. Qed.
Print Assumptions c60_trailing_comma_refuted.
(** The standard's bounds go up to 2^32 - 1, also "0:4294967295" for all elements. *)
Theorem c60_large_refuted : forall v range d, 0 < element_count v -> spells range d -> 2 ^ 31 <= last_of d -> read_range v range = RBad invalid.
Proof. exact read_large. Qed.
Print Assumptions c60_large_refuted.
Theorem c60_matrix_refuted : forall t c range, range <> [] -> read_range (GMatrix t c) range = RBad no_data.
Proof. exact (fun t c range => read_empty (GMatrix t c) range eq_refl). Qed.
Print Assumptions c60_matrix_refuted.
Theorem c60_string_bytes_refuted : read_range (GText [xff; x61; x62]) [x30; x3a; x31] = RVal (GText [xef; xbf; xbd; x61]).
Proof. exact bad_utf8. Qed.
Print Assumptions c60_string_bytes_refuted.

(** * C61: writing with an index range *)
(** [writes_as mk d l v out]: [out] is [l] with [v] at the positions of [d] and nothing else changed,
    or BadIndexRangeNoData if there are none or not as many as elements of [v]. *)
Theorem c61_array_partial : forall t els w range d, spells_all range [d] -> bounded d -> writes_as (GArr t) d els w (write_range (GArr t els) (GArr t w) range).
Proof. exact write_array. Qed.
Print Assumptions c61_array_partial.
Theorem c61_bytestring_partial : forall s w range d, spells_all range [d] -> bounded d -> writes_as GBlob d s w (write_range (GBlob s) (GBlob w) range).
Proof. exact write_blob. Qed.
Print Assumptions c61_bytestring_partial.
Theorem c61_string_partial : forall cs ws range d, Forall character cs -> Forall character ws -> spells_all range [d] -> bounded d ->
  writes_as (fun r => GText (text_of r)) d cs ws (write_range (GText (text_of cs)) (GText (text_of ws)) range).
Proof. exact write_text. Qed.
Print Assumptions c61_string_partial.
Theorem c61_strings_partial : forall l w range d, spells_all range [d] -> bounded d -> writes_as GTexts d l w (write_range (GTexts l) (GTexts w) range).
Proof. exact write_texts. Qed.
Print Assumptions c61_strings_partial.
Theorem c61_bytestrings_partial : forall l w range d, spells_all range [d] -> bounded d -> writes_as GBlobs d l w (write_range (GBlobs l) (GBlobs w) range).
Proof. exact write_blobs. Qed.
Print Assumptions c61_bytestrings_partial.
(** Reading the range again returns what was written: any values, any text without a comma. *)
Theorem c61_read_back_partial : forall src v range out, ~ In x2c range -> well_encoded src -> well_encoded v -> write_range src v range = WrVal out -> read_range out range = RVal v.
Proof. exact read_back. Qed.
Print Assumptions c61_read_back_partial.
(** The second dimension of a write is ignored; whole strings are replaced. *)
Theorem c61_second_ignored_refuted : forall l w r1 r2, ~ In x2c r1 -> ~ In x2c r2 -> r1 <> [] ->
  write_range (GTexts l) (GTexts w) (r1 ++ x2c :: r2) = write_range (GTexts l) (GTexts w) r1 /\
  write_range (GBlobs l) (GBlobs w) (r1 ++ x2c :: r2) = write_range (GBlobs l) (GBlobs w) r1.
Proof. exact second_ignored. Qed.
Print Assumptions c61_second_ignored_refuted.
Theorem c61_two_dimensions_refuted : exists old v new, spells_all [x31; x2c; x30] [One 1; One 0] /\
  write_range (GTexts old) (GTexts v) [x31; x2c; x30] = WrVal (GTexts new) /\ read_range (GTexts new) [x31; x2c; x30] = RBad no_data /\
  old = [[x61; x62]; [x63; x64]] /\ new = [[x61; x62]; []].
Proof. exact two_dimensions. Qed.
Print Assumptions c61_two_dimensions_refuted.
Theorem c61_string_bytes_refuted : exists old v range new, ~ In x2c range /\ write_range (GText old) (GText v) range = WrVal (GText new) /\
  spells range (One 1) /\ hd_error old = Some xff /\ hd_error new = Some xef /\ length new <> length old.
Proof. exact bad_utf8_write. Qed.
Print Assumptions c61_string_bytes_refuted.

(** * C62: a write request cannot crash the server *)
(** A value of the Go type of the stored value cannot; any other value does, as soon as the range
    is well formed and inside the data. *)
Theorem c62_same_kind_partial : forall src v range, same_kind src v -> write_range src v range <> WrCrash.
Proof. exact same_kind_safe. Qed.
Print Assumptions c62_same_kind_partial.
Theorem c62_other_kind_refuted : forall src v range d, spells_all range [d] -> bounded d -> first_of d < element_count src -> ~ same_kind src v -> write_range src v range = WrCrash.
Proof. exact other_kind_crashes. Qed.
Print Assumptions c62_other_kind_refuted.
