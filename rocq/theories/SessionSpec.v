(** What the theorems about sessions talk about: facts read off the history of requests and
    answers alone (the latest entry first), without the server's table. *)
From Coq Require Import ZArith List Bool Strings.Byte.
From Verif Require Import Bytes Keys Password Session.
Import ListNotations.
Open Scope Z_scope.

(** The channel and the session token a request came with. *)
Definition op_chan (o : sop) : option chan :=
  match o with
  | OCreate ch _ _ _ _ _ _ | OActivate ch _ _ _ _ _ | OService ch _ | OClose ch _ => Some ch
  | OTick _ | OSweep => None
  end.
Definition op_token (o : sop) : option bytes :=
  match o with OActivate _ t _ _ _ _ | OService _ t | OClose _ t => Some t | _ => None end.

(** The session was ended by this answer: closed, or refused because it was not activated. *)
Definition ends_session (e : entry) (token : bytes) : bool :=
  match en_ev e with
  | EvClosed t => bytes_eqb t token
  | EvFault FSessionNotActivated => match op_token (en_op e) with Some t => bytes_eqb t token | None => false end
  | _ => false
  end.
Definition creates (e : entry) (token : bytes) : bool :=
  match en_ev e with EvCreated t _ _ => bytes_eqb t token | _ => false end.
Definition activates (e : entry) (token : bytes) : bool :=
  match en_ev e with EvActivated t _ _ => bytes_eqb t token | _ => false end.
(** The request named the token and was not turned away at the door. *)
Definition uses (e : entry) (token : bytes) : bool :=
  match op_token (en_op e) with
  | Some t => bytes_eqb t token &&
              match en_ev e with EvFault FSessionIDInvalid | EvAborted => false | _ => true end
  | None => false
  end.

(** The timeout granted when the session was created, unless it has ended since. *)
Fixpoint granted (h : list entry) (token : bytes) : option (option Z) :=
  match h with
  | [] => None
  | e :: h' =>
      if ends_session e token then None
      else if creates e token then match en_ev e with EvCreated _ _ t => Some t | _ => None end
      else granted h' token
  end.
(** The time of its creation or latest use. *)
Fixpoint last_use (h : list entry) (token : bytes) : Z :=
  match h with
  | [] => 0
  | e :: h' => if creates e token || uses e token then en_time e else last_use h' token
  end.
(** The channel on which it was last activated, and as whom. *)
Fixpoint activation (h : list entry) (token : bytes) : option (chan * identity) :=
  match h with
  | [] => None
  | e :: h' =>
      if ends_session e token || creates e token then None
      else if activates e token
           then match op_chan (en_op e), en_ev e with
                | Some ch, EvActivated _ id _ => Some (ch, id)
                | _, _ => None
                end
           else activation h' token
  end.
(** The last nonce the server handed out for it. *)
Fixpoint last_nonce (h : list entry) (token : bytes) : option bytes :=
  match h with
  | [] => None
  | e :: h' =>
      match en_ev e with
      | EvCreated t n _ | EvActivated t _ n => if bytes_eqb t token then Some n else last_nonce h' token
      | _ => last_nonce h' token
      end
  end.
(** The application URI given when it was created. *)
Fixpoint creator (h : list entry) (token : bytes) : option (chan * bytes * bytes) :=
  match h with
  | [] => None
  | e :: h' =>
      if creates e token
      then match en_op e with OCreate ch _ app cert _ _ _ => Some (ch, app, cert) | _ => None end
      else creator h' token
  end.

(** How a request of an activated service must be answered, from the history alone. *)
Definition timed_out (nan_ms now : Z) (h : list entry) (token : bytes) : bool :=
  match granted h token with
  | None => true
  | Some t => (match t with Some ms => ms | None => nan_ms end) <? now - last_use h token
  end.
Definition door (nan_ms now : Z) (h : list entry) (ch : chan) (token : bytes) : sev :=
  if ch_discovery ch then EvAborted
  else if timed_out nan_ms now h token then EvFault FSessionIDInvalid
  else match activation h token with
       | None => EvFault FSessionNotActivated
       | Some (ch', _) => if ch_id ch' =? ch_id ch then EvServed token else EvFault FSecureChannelIDInvalid
       end.

(** Channel ids are never zero (C26). *)
Definition real_chan (o : sop) : Prop := match op_chan o with Some ch => ch_id ch <> 0 | None => True end.

(** The identity goes with the token presented. *)
Definition token_policy_id (ut : utoken) : option bytes :=
  match ut with UAnonymous p | UUserName p _ _ _ | UX509 p _ | UIssued p _ => Some p | UOther => None end.
Definition token_type (ut : utoken) : option ttype :=
  match ut with
  | UAnonymous _ => Some TAnonymous | UUserName _ _ _ _ => Some TUserName
  | UX509 _ _ => Some TCertificate | UIssued _ _ => Some TIssued | UOther => None
  end.
Definition same_user (ut : utoken) (id : identity) : Prop :=
  match ut, id with
  | UAnonymous _, IAnonymous => True
  | UUserName _ u _ _, IUserName u' _ => u = u' /\ u <> []
  | UX509 _ c, IX509 c' => c = c'
  | UIssued _ d, IIssued d' => d = d'
  | _, _ => False
  end.
