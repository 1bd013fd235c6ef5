(** C114. CertificateList is a set of certificates. [x] (the fields of a certificate), [parses] and
    [decode] stand for crypto/x509 and encoding/pem. *)
From Coq Require Import ZArith List Bool.
From Verif Require Import Bytes CertList CertListSpec CertListProofs CertListLemmas.
Import ListNotations.
Open Scope nat_scope.

(** After any calls of AddCert and AppendCertsFromPEM it has what was added, each once, in order *)
Theorem c114_history : forall x parses decode ops lists,
  shrinks decode -> Forall2 (gives_certs parses decode) ops lists ->
  exists s, run x parses decode new_list ops = Some (Gives s) /\
    certs s = firsts (concat lists) /\ subjects x s = map (subject x) (firsts (concat lists)).
Proof. exact history. Qed.
Print Assumptions c114_history.
Theorem c114_each_once : forall l, NoDup (firsts l) /\ forall x, In x (firsts l) <-> In x l.
Proof. exact firsts_ok. Qed.
Print Assumptions c114_each_once.

Theorem c114_contains : forall x parses decode ops lists s c,
  shrinks decode -> Forall2 (gives_certs parses decode) ops lists -> run x parses decode new_list ops = Some (Gives s) ->
  (contains x (Some s) c = Gives true <-> In c (concat lists)) /\ (contains x (Some s) c = Gives false <-> ~ In c (concat lists)).
Proof. exact contains_reached. Qed.
Print Assumptions c114_contains.

(** For a certificate that does not name the key of its issuer, the parents are exactly those that may have signed it *)
Theorem c114_parents_by_name : forall x parses decode ops lists s c,
  shrinks decode -> Forall2 (gives_certs parses decode) ops lists -> run x parses decode new_list ops = Some (Gives s) ->
  authority_key x c = [] -> exists ps, find_parents x (Some s) c = Gives ps /\ NoDup ps /\
    forall p, In p ps <-> In p (concat lists) /\ may_have_signed (subject x) (issuer x) (subject_key x) (authority_key x) p c.
Proof. exact by_name. Qed.
Print Assumptions c114_parents_by_name.

(** For one that does, they are those with this key: *)
Theorem c114_parents_by_key : forall x parses decode ops lists s c,
  shrinks decode -> Forall2 (gives_certs parses decode) ops lists -> run x parses decode new_list ops = Some (Gives s) ->
  authority_key x c <> [] -> exists ps, find_parents x (Some s) c = Gives ps /\ NoDup ps /\
    forall p, In p ps <-> In p (concat lists) /\ subject_key x p = authority_key x c.
Proof. exact by_key_found. Qed.
Print Assumptions c114_parents_by_key.

(** every parent with a key id is found, *)
Theorem c114_parents_partial : forall x parses decode ops lists s c p,
  shrinks decode -> Forall2 (gives_certs parses decode) ops lists -> run x parses decode new_list ops = Some (Gives s) ->
  authority_key x c <> [] -> In p (concat lists) -> may_have_signed (subject x) (issuer x) (subject_key x) (authority_key x) p c -> subject_key x p <> [] ->
  exists ps, find_parents x (Some s) c = Gives ps /\ In p ps.
Proof. exact by_key_complete. Qed.
Print Assumptions c114_parents_partial.

(** but no parent without, *)
Theorem c114_missed_refuted : forall x parses decode ops lists s c p,
  shrinks decode -> Forall2 (gives_certs parses decode) ops lists -> run x parses decode new_list ops = Some (Gives s) ->
  authority_key x c <> [] -> In p (concat lists) -> subject x p = issuer x c -> subject_key x p = [] ->
  may_have_signed (subject x) (issuer x) (subject_key x) (authority_key x) p c /\
  exists ps, find_parents x (Some s) c = Gives ps /\ ~ In p ps.
Proof. exact missed. Qed.
Print Assumptions c114_missed_refuted.

(** and the names are not compared: certificates that cannot have signed it are given too *)
Theorem c114_other_name_refuted : forall x parses decode ops lists s c p,
  shrinks decode -> Forall2 (gives_certs parses decode) ops lists -> run x parses decode new_list ops = Some (Gives s) ->
  authority_key x c <> [] -> In p (concat lists) -> subject_key x p = authority_key x c -> subject x p <> issuer x c ->
  ~ may_have_signed (subject x) (issuer x) (subject_key x) (authority_key x) p c /\
  exists ps, find_parents x (Some s) c = Gives ps /\ In p ps.
Proof. exact other_name. Qed.
Print Assumptions c114_other_name_refuted.

(** AppendCertsFromPEM adds the certificates of the text and says whether there were any *)
Theorem c114_pem : forall x parses decode ops lists s text cs,
  shrinks decode -> Forall2 (gives_certs parses decode) ops lists -> run x parses decode new_list ops = Some (Gives s) ->
  pem parses decode text cs -> exists s' ok, append_pem x parses decode (length text) s text false = Some (Gives (s', ok)) /\
    (ok = true <-> cs <> []) /\ certs s' = firsts (concat lists ++ cs).
Proof. exact pem_says. Qed.
Print Assumptions c114_pem.
Theorem c114_pem_any_text : forall parses decode, shrinks decode -> forall text, exists cs, pem parses decode text cs.
Proof. exact pem_total. Qed.
Print Assumptions c114_pem_any_text.

(** A nil list is empty, and nothing can be added to it; nil is not added *)
Theorem c114_nil_list : forall x c,
  contains x None c = Gives false /\ find_parents x None c = Gives [] /\
  add_cert x None (Some c) = Panics.
Proof. exact nil_list. Qed.
Print Assumptions c114_nil_list.
Theorem c114_nil_certificate : forall x s, add_cert x s None = Panics.
Proof. exact nil_cert. Qed.
Print Assumptions c114_nil_certificate.

(** The zero value looks empty, but to add to it panics *)
Theorem c114_zero_value_refuted : forall x c,
  contains x (Some zero_list) c = Gives false /\ add_cert x (Some zero_list) (Some c) = Panics.
Proof. exact zero_value. Qed.
Print Assumptions c114_zero_value_refuted.
