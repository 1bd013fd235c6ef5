(** What the theorems about the server's subscriptions talk about. *)
From Coq Require Import ZArith List Bool.
From Verif Require Import Bytes MonQueue Subscription SubServer.
Import ListNotations.
Open Scope Z_scope.

(** Creations asked for; identifiers handed out, in order. *)
Definition creates {A} (ops : list (svop A)) : nat :=
  length (filter (fun o => match o with VCreate _ _ _ _ _ => true | _ => false end) ops).
Definition created {A} (log : list (svev A)) : list Z :=
  flat_map (fun e => match e with VCreated id => [id] | _ => [] end) (rev log).
(** ModifySubscription, SetPublishingMode, DeleteSubscriptions, ModifyMonitoredItems *)
Definition protected (r : sreq) : Prop :=
  match r with RModify _ _ _ | RMode _ | RDelete | RModifyItem _ _ _ => True | _ => False end.
(** CreateMonitoredItems, SetMonitoringMode, DeleteMonitoredItems, acknowledging, Republish *)
Definition exposed (r : sreq) : Prop :=
  match r with RAddItem _ _ | RItemMode _ _ | RDelItem _ | RAck _ | RRepublish _ _ => True | _ => False end.
