(** The methods GetMonitoredItems and ResendData of the Server object.

    Source: /repo/server/server.go 859-957, /repo/server/subscription.go 117-125 (Items), 651-656 (resendData),
    /repo/server/subscription_manager.go 41-48 (Get).

    Simplifications: the sessions are numbers, equal when the pointers are; the items of a subscription are in the
    order the range over the map gives; the handler of GetMonitoredItems, set twice (859, 894), is the same text twice. *)
From Coq Require Import ZArith List Bool.
From Verif Require Import Bytes Value OwnData.
Import ListNotations.
Open Scope Z_scope.

(** subscription.go 28-66: the fields used; an item is its id and its client handle *)
Record msub : Type := mkMsub { ms_id : Z; ms_session : option Z; ms_items : list (Z * Z); ms_resend : bool }.
Inductive method : Type := GetMonitoredItems | ResendData.
(** ua CallMethodResult: the status, the results of the arguments, the output arguments *)
Record result : Type := mkResult { rs_status : Z; rs_inputs : list Z; rs_outputs : list val }.

Definition m_BadArgumentsMissing : Z := 0x80760000.
Definition m_BadTooManyArguments : Z := 0x80E50000.
Definition m_BadInvalidArgument : Z := 0x80AB0000.
Definition m_BadTypeMismatch : Z := 0x80740000.
Definition m_BadSubscriptionIDInvalid : Z := 0x80280000.
Definition m_BadUserAccessDenied : Z := 0x801F0000.

(** server.go 869, 904, 939: the argument is a uint32 *)
Definition as_uint32 (v : val) : option Z := match v with VScalar (KB BUInt32) (VB BUInt32 z) => Some z | _ => None end.
(** server.go 880, 950: the session of the call is there and is that of the subscription *)
Definition own (caller : option Z) (s : msub) : bool :=
  match caller with None => false | Some c => match ms_session s with Some o => c =? o | None => false end end.
Definition uint32s (l : list Z) : val := VArr (KB BUInt32) (map (VB BUInt32) l).
(** server.go 860-891, 895-926, 930-956 *)
Definition call (m : method) (subs : list msub) (caller : option Z) (args : list val) : list msub * result :=
  match args with
  | [] => (subs, mkResult m_BadArgumentsMissing [] [])
  | [a] =>
      match as_uint32 a with
      | None => (subs, mkResult m_BadInvalidArgument [m_BadTypeMismatch] [])
      | Some id =>
          match find (fun s => ms_id s =? id) subs with
          | None => (subs, mkResult m_BadSubscriptionIDInvalid [] [])
          | Some s =>
              if own caller s then
                match m with
                | GetMonitoredItems => (subs, mkResult 0 [] [uint32s (map fst (ms_items s)); uint32s (map snd (ms_items s))])
                | ResendData => (map (fun s => if ms_id s =? id then mkMsub (ms_id s) (ms_session s) (ms_items s) true else s) subs, mkResult 0 [] [])
                end
              else (subs, mkResult m_BadUserAccessDenied [] [])
          end
      end
  | _ => (subs, mkResult m_BadTooManyArguments [] [])
  end.
