(** What a set of certificates is to be. *)
From Coq Require Import ZArith List Bool.
From Verif Require Import Bytes CertList.
Import ListNotations.
Open Scope nat_scope.

Definition bytes_dec : forall a b : bytes, {a = b} + {a <> b} := list_eq_dec Byte.byte_eq_dec.

(** each once, in the order in which they first came *)
Fixpoint firsts (l : list bytes) : list bytes :=
  match l with [] => [] | x :: r => x :: remove bytes_dec x (firsts r) end.

(** The certificates of a PEM text: blocks of the type CERTIFICATE, without headers, that can be parsed *)
Definition usable (parses : bytes -> bool) (b : block) : Prop :=
  b_certificate b = true /\ b_headers b = 0 /\ parses (b_bytes b) = true.
Inductive pem (parses : bytes -> bool) (decode : bytes -> option (block * bytes)) : bytes -> list bytes -> Prop :=
| pem_empty : pem parses decode [] []
| pem_end : forall text, decode text = None -> pem parses decode text []
| pem_other : forall text b rest cs, text <> [] -> decode text = Some (b, rest) -> ~ usable parses b ->
    pem parses decode rest cs -> pem parses decode text cs
| pem_cert : forall text b rest cs, text <> [] -> decode text = Some (b, rest) -> usable parses b ->
    pem parses decode rest cs -> pem parses decode text (b_bytes b :: cs).
(** pem.Decode takes away what it has decoded *)
Definition shrinks (decode : bytes -> option (block * bytes)) : Prop :=
  forall text b rest, decode text = Some (b, rest) -> length rest < length text.

(** What a call is to add *)
Inductive gives_certs (parses : bytes -> bool) (decode : bytes -> option (block * bytes)) : op -> list bytes -> Prop :=
| gc_add : forall c, gives_certs parses decode (Add c) [c]
| gc_pem : forall text cs, pem parses decode text cs -> gives_certs parses decode (AppendPem text) cs.

(** A certificate that can have signed another: its subject is the issuer of the other, and the key ids agree if both
    have one (RFC 5280, 4.2.1.1 and 6.1.3) *)
Definition may_have_signed (subject issuer subject_key authority_key : bytes -> bytes) (parent child : bytes) : Prop :=
  subject parent = issuer child /\
  (authority_key child = [] \/ subject_key parent = [] \/ authority_key child = subject_key parent).
