(** What the methods GetMonitoredItems and ResendData (OPC UA Part 5, 9.1 and 9.2) are asked to do. *)
From Coq Require Import ZArith List Bool.
From Verif Require Import Bytes Value OwnMethod.
Import ListNotations.
Open Scope Z_scope.

(** The call names a subscription of the calling session: one argument, a UInt32, which is the id of a subscription the session has *)
Definition names_own (subs : list msub) (caller : option Z) (args : list val) (s : msub) : Prop :=
  args = [VScalar (KB BUInt32) (VB BUInt32 (ms_id s))] /\ In s subs /\ exists c, caller = Some c /\ ms_session s = Some c.
(** Two tables with the same ids and owners; the items may differ *)
Definition alike (a b : list msub) : Prop := map (fun s => (ms_id s, ms_session s)) a = map (fun s => (ms_id s, ms_session s)) b.
(** No two subscriptions have the same id (the table is a map) *)
Definition distinct (subs : list msub) : Prop := NoDup (map ms_id subs).
