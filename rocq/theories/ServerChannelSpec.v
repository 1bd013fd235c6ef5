(** What the theorems about the server's secure channel talk about.  They are about the
    sequence of observable events ([event] in ServerChannel.v), not about the state. *)
From Coq Require Import ZArith List Bool Strings.Byte.
From Verif Require Import Bytes Prim Chunk Asym Keys ServerChannel.
Import ListNotations.
Open Scope Z_scope.

(** The token id in the header of a symmetric chunk. *)
Definition token_of (b : bytes) : Z := u32_at 12 b.

(** The tokens issued so far, oldest first, with the two nonces of each. *)
Fixpoint issued (tr : list event) : list (Z * bytes * bytes) :=
  match tr with
  | [] => []
  | Issued t ln rn :: tr' => (t, ln, rn) :: issued tr'
  | _ :: tr' => issued tr'
  end.
(** The newest token, which the client has not used yet or is the one in use. *)
Definition newest (tr : list event) : option Z :=
  match rev (issued tr) with [] => None | (t, _, _) :: _ => Some t end.
(** The token of the last accepted chunk: the one in use. *)
Fixpoint in_use (tr : list event) : option Z :=
  match tr with
  | [] => None
  | Chunk b _ :: tr' => match in_use tr' with Some t => Some t | None => Some (token_of b) end
  | _ :: tr' => in_use tr'
  end.

Section Spec.
  Variable hmac : hash -> bytes -> bytes -> bytes.
  Variable cbc_dec : bytes -> bytes -> bytes -> bytes.

  (** The chunk ends, after decryption, with the HMAC of everything before it. *)
  Definition signed_by (m : mode) (p : pname) (k : keyset) (b : bytes) : Prop :=
    let plain := match m with MSignEnc => firstn 16 b ++ cbc_dec (k_enc k) (k_iv k) (skipn 16 b) | _ => b end in
    exists text, plain = text ++ hmac (sym_hash p) (k_sign k) text.

  (** A chunk is authentic after the events [tr]: its token is the one in use or the
      newest one, and it is signed with the keys that belong to the nonces exchanged
      when that token was issued. *)
  Definition authentic (m : mode) (tr : list event) (b : bytes) : Prop :=
    (in_use tr = Some (token_of b) \/ newest tr = Some (token_of b)) /\
    exists ln rn p, In (token_of b, ln, rn) (issued tr) /\ p <> PNone /\
      signed_by m p (derive hmac p ln rn) b.
End Spec.

(** The body is what the chunks accepted since the last event of another kind carried. *)
Definition part_of (e : event) : option bytes :=
  match e with Chunk _ p | OpenChunk _ p => Some p | _ => None end.
Inductive carried : list event -> bytes -> Prop :=
| carried_nil : carried [] []
| carried_one e p evs body : part_of e = Some p -> carried evs body -> carried (e :: evs) (p ++ body).
Definition made_of (tr evs : list event) (body : bytes) : Prop :=
  evs <> [] /\ carried evs body /\ exists old e, tr = old ++ e :: evs /\ part_of e = None.

(** An arriving message that is not of type OPN. *)
Definition symmetric (a : arrival) : Prop :=
  let '(Arrive b _ _) := a in In (u32_at 0 b) [t_final; t_chunk; t_close].
Definition token_is (t : Z) (a : arrival) : Prop := let '(Arrive b _ _) := a in token_of b = t.

(** A server that waits for the first chunk of a message. *)
Definition idle (s : srv) : Prop := v_life s = Alive /\ v_count s = 0 /\ v_acc s = [].

(** An OpenSecureChannel message under policy None, made without any key. *)
Definition bare_open (uri body : bytes) (chan seq rid : Z) : bytes :=
  let tail := le_enc 4 chan ++ write_string uri ++ write_bytearray None ++ write_bytearray None ++
              le_enc 4 seq ++ le_enc 4 rid ++ body in
  le_enc 4 t_open ++ le_enc 4 (8 + Z.of_nat (length tail)) ++ tail.
