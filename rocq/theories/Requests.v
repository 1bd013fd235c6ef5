(** The client's bookkeeping of requests and responses, and of the time to renew its token.

    Sources: /repo/client/client_secure_channel.go (Request 237-267, sendRequest 506-546,
    responseWorker 1350-1365, handleResponse 1734-1747, mapPendingResponses 1750-1759,
    renewToken 1762-1787, getNextRequestHandle 1822-1834), /repo/ua/service_operation.go.

    Simplifications: a response is its request handle and its body; callers are numbered in
    the order in which they draw their handles; what sendRequest does on the wire is left out. *)
From Coq Require Import ZArith List Bool Strings.Byte.
From Verif Require Import Bytes Chunk.
Import ListNotations.
Open Scope Z_scope.

(** A response: the [n]-th that came from the server, or the one a CloseSecureChannelRequest
    gives to itself.  client:527-533 *)
Inductive answer : Type := FromServer (n : nat) (h : Z) (body : bytes) | OwnClose (h : Z).
Inductive outcome : Type := Got (r : answer) | TimedOut | SendFailed | ChannelClosed.
(** Where a call of Request is: before "pendingResponseCh <- operation", in sendRequest, in the
    select, returned. *)
Inductive cstate : Type := Entering | Sending | Waiting | Done (o : outcome).
Record caller := mkCaller { cr_handle : Z; cr_state : cstate; cr_buf : option answer }.

Record reqs := mkReqs {
  q_handle : Z;                 (* requestHandle *)
  q_callers : list caller;
  q_chan : list nat;            (* pendingResponseCh, room for 32 *)
  q_map : list (Z * nat);       (* pendingResponses *)
  q_seen : nat;                 (* number of responses received *)
  q_closed : bool               (* responseWorker has ended *)
}.
Definition reqs0 (h : Z) : reqs := mkReqs h [] [] [] 0 false.

Definition chan_cap : nat := 32.

Inductive qop : Type :=
| QStart                             (* somebody calls Request *)
| QRegister (i : nat)                (* caller i gets past pendingResponseCh *)
| QSent (i : nat) (ok : bool)        (* sendRequest of caller i returns *)
| QSentClose (i : nat)               (* ... of a CloseSecureChannelRequest *)
| QTake (i : nat)                    (* caller i takes its response *)
| QTimeout (i : nat)                 (* ctx.Done() *)
| QSeeClosed (i : nat)               (* <-ch.closed *)
| QResponse (h : Z) (body : bytes)   (* responseWorker has read a response *)
| QClose.                            (* responseWorker ends *)

Fixpoint set_nth {A} (i : nat) (x : A) (l : list A) : list A :=
  match i, l with _, [] => [] | O, _ :: l' => x :: l' | S i', y :: l' => y :: set_nth i' x l' end.
Fixpoint look (h : Z) (m : list (Z * nat)) : option nat :=
  match m with [] => None | (k, i) :: m' => if k =? h then Some i else look h m' end.
Fixpoint drop (h : Z) (m : list (Z * nat)) : list (Z * nat) :=
  match m with [] => [] | (k, i) :: m' => if k =? h then drop h m' else (k, i) :: drop h m' end.
Definition handle_of (l : list caller) (i : nat) : Z := match nth_error l i with Some c => cr_handle c | None => 0 end.

(** mapPendingResponses.  client:1750-1759 *)
Definition register (l : list caller) (m : list (Z * nat)) (i : nat) : list (Z * nat) :=
  let h := handle_of l i in (h, i) :: drop h m.
Definition map_pending (l : list caller) (ch : list nat) (m : list (Z * nat)) : list (Z * nat) :=
  fold_left (register l) ch m.

(** handleResponse.  client:1734-1747 *)
Definition handle_response (q : reqs) (h : Z) (body : bytes) : reqs :=
  let m := map_pending (q_callers q) (q_chan q) (q_map q) in
  let r := FromServer (q_seen q) h body in
  match look h m with
  | None => mkReqs (q_handle q) (q_callers q) [] m (S (q_seen q)) (q_closed q)
  | Some i =>
      let cs := match nth_error (q_callers q) i with
                | Some c => match cr_buf c with
                            | None => set_nth i (mkCaller (cr_handle c) (cr_state c) (Some r)) (q_callers q)
                            | Some _ => q_callers q
                            end
                | None => q_callers q
                end in
      mkReqs (q_handle q) cs [] (drop h m) (S (q_seen q)) (q_closed q)
  end.

Definition with_callers (q : reqs) (l : list caller) : reqs :=
  mkReqs (q_handle q) l (q_chan q) (q_map q) (q_seen q) (q_closed q).
Definition move (q : reqs) (i : nat) (c : caller) (s : cstate) : reqs :=
  with_callers q (set_nth i (mkCaller (cr_handle c) s (cr_buf c)) (q_callers q)).

(** Request, sendRequest and responseWorker, step by step.  client:237-267 523-545 1350-1365 *)
Definition q_step (q : reqs) (o : qop) : reqs :=
  match o with
  | QStart =>
      let h := next_counter (q_handle q) in
      mkReqs h (q_callers q ++ [mkCaller h Entering None]) (q_chan q) (q_map q) (q_seen q) (q_closed q)
  | QRegister i =>
      match nth_error (q_callers q) i with
      | Some (mkCaller h Entering b) =>
          if (List.length (q_chan q) <? chan_cap)%nat
          then mkReqs (q_handle q) (set_nth i (mkCaller h Sending b) (q_callers q)) (q_chan q ++ [i]) (q_map q) (q_seen q) (q_closed q)
          else q
      | _ => q
      end
  | QSent i ok =>
      match nth_error (q_callers q) i with
      | Some (mkCaller h Sending b as c) => move q i c (if ok then Waiting else Done SendFailed)
      | _ => q
      end
  | QSentClose i =>
      match nth_error (q_callers q) i with
      | Some (mkCaller h Sending b) =>
          with_callers q (set_nth i (mkCaller h Waiting (match b with None => Some (OwnClose h) | Some _ => b end)) (q_callers q))
      | _ => q
      end
  | QTake i =>
      match nth_error (q_callers q) i with
      | Some (mkCaller h Waiting (Some r) as c) => move q i c (Done (Got r))
      | _ => q
      end
  | QTimeout i =>
      match nth_error (q_callers q) i with
      | Some (mkCaller h Waiting b as c) => move q i c (Done TimedOut)
      | _ => q
      end
  | QSeeClosed i =>
      match nth_error (q_callers q) i with
      | Some (mkCaller h Waiting b as c) => if q_closed q then move q i c (Done ChannelClosed) else q
      | _ => q
      end
  | QResponse h body => if q_closed q then q else handle_response q h body
  | QClose => mkReqs (q_handle q) (q_callers q) (q_chan q) (q_map q) (q_seen q) true
  end.
Definition q_run (h : Z) (ops : list qop) : reqs := fold_left q_step ops (reqs0 h).

(** The time to renew, in milliseconds after the token was received: uint32 arithmetic.
    client:1779, 456 *)
Definition renew_offset (lifetime : Z) : Z := ((lifetime * 75) mod 4294967296) / 100.

(** The head of sendRequest: how often renewToken is called for one request at time [now], when
    the time to renew is [at]; each renewal sends a request itself.  None: out of fuel.
    client:507-511 1771 *)
Fixpoint renewals (fuel : nat) (due now : Z) : option nat :=
  match fuel with
  | O => None
  | S f => if now <=? due then Some 0%nat
           else match renewals f (due + 60000) now with Some n => Some (S n) | None => None end
  end.

(** A client that has a token until [tm_end] and will renew it with the first request after
    [tm_due]; [ok] is the lifetime granted when the renewal succeeds, at once. *)
Record timer := mkTimer { tm_due : Z; tm_end : Z }.
Definition token_received (now lifetime : Z) : timer := mkTimer (now + renew_offset lifetime) (now + lifetime).
Definition request_at (tm : timer) (now : Z) (ok : option Z) : timer :=
  if now <=? tm_due tm then tm
  else match ok with
       | Some l => token_received now l
       | None => mkTimer (tm_due tm + 60000) (tm_end tm)
       end.
