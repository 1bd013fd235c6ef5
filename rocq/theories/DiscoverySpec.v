(** What discovery should tell. *)
From Coq Require Import ZArith List Bool String.
From Verif Require Import Bytes Text Endpoints Discovery.
Import ListNotations.
Open Scope Z_scope.

(** The answer to GetEndpoints, Part 4, 5.4.4: of the endpoints [eps] exactly those with a profile asked for (all, when
    none is asked for), in order, each once, with the URL of the request and otherwise as they are *)
Definition asked (profiles : list bytes) (e : desc) : Prop := profiles = [] \/ In (d_profile e) profiles.
Definition told_as (url : bytes) (e x : desc) : Prop :=
  d_url x = url /\ d_profile x = d_profile e /\ d_policy x = d_policy e /\ d_mode x = d_mode e /\ d_level x = d_level e /\ d_tokens x = d_tokens e.
Inductive answered (profiles : list bytes) (url : bytes) : list desc -> list desc -> Prop :=
| an_nil : answered profiles url [] []
| an_yes e x r l : asked profiles e -> told_as url e x -> answered profiles url r l -> answered profiles url (e :: r) (x :: l)
| an_no e r l : ~ asked profiles e -> answered profiles url r l -> answered profiles url (e :: r) l.

(** Descending by security level *)
Fixpoint by_level (l : list desc) : Prop :=
  match l with [] => True | e :: r => (forall x, In x r -> d_level x <= d_level e) /\ by_level r end.

(** What a client gets from a server of this library: security policy and mode.  [policy] [] is "best available", [mode]
    0 is "any". *)
Definition uri (name : string) : bytes := lit "http://opcfoundation.org/UA/SecurityPolicy#"%string ++ lit name.
Definition five : list bytes :=
  [uri "Basic128Rsa15"%string; uri "Basic256"%string; uri "Basic256Sha256"%string; uri "Aes128_Sha256_RsaOaep"%string; uri "Aes256_Sha256_RsaPss"%string].
Definition unsecured (none : bool) : option (bytes * Z) := if none then Some (uri "None"%string, 1) else None.
Definition with_mode (policy : bytes) (mode : Z) : option (bytes * Z) :=
  if (mode =? 0) || (mode =? 3) then Some (policy, 3) else if mode =? 2 then Some (policy, 2) else None.
Definition choice (none : bool) (policy : bytes) (mode : Z) (has_cert : bool) : option (bytes * Z) :=
  match policy with
  | [] =>
      if has_cert then if mode =? 1 then unsecured none else with_mode (uri "Aes256_Sha256_RsaPss"%string) mode
      else unsecured none
  | _ =>
      if existsb (bytes_eqb policy) five then with_mode policy mode
      else if bytes_eqb policy (uri "None"%string) && ((mode =? 0) || (mode =? 1)) then unsecured none else None
  end.
(** A type of identity the server can check *)
Definition checks (c : scfg) (t : Z) : bool := if t =? 0 then sc_anon c else if t =? 1 then sc_user c else if t =? 2 then sc_cert c else false.
(** An address of the server: the one it was started with *)
Definition own_address (c : scfg) (url : bytes) : Prop := url = sc_url c.
