(** The limits of the number of operations in a request: what the standard asks, in terms of the runs of the handlers. *)
From Coq Require Import ZArith List Bool String.
From Verif Require Import OwnData OwnSpec Handlers HandlerTable HandlersSpec.
Import ListNotations.
Open Scope string_scope.
Open Scope Z_scope.

(** The standard (Part 5, 6.3.11), by service: the array of the request whose length counts and the variable with the limit *)
Definition limited : list (string * (string * string)) :=
  [ ("Read", ("NodesToRead", "MaxNodesPerRead"));
    ("Write", ("NodesToWrite", "MaxNodesPerWrite"));
    ("Call", ("MethodsToCall", "MaxNodesPerMethodCall"));
    ("Browse", ("NodesToBrowse", "MaxNodesPerBrowse"));
    ("BrowseNext", ("ContinuationPoints", "MaxNodesPerBrowse"));
    ("TranslateBrowsePathsToNodeIDs", ("BrowsePaths", "MaxNodesPerTranslateBrowsePathsToNodeIds"));
    ("RegisterNodes", ("NodesToRegister", "MaxNodesPerRegisterNodes"));
    ("UnregisterNodes", ("NodesToUnregister", "MaxNodesPerRegisterNodes"));
    ("CreateMonitoredItems", ("ItemsToCreate", "MaxMonitoredItemsPerCall"));
    ("ModifyMonitoredItems", ("ItemsToModify", "MaxMonitoredItemsPerCall"));
    ("SetMonitoringMode", ("MonitoredItemIDs", "MaxMonitoredItemsPerCall"));
    ("DeleteMonitoredItems", ("MonitoredItemIDs", "MaxMonitoredItemsPerCall"));
    ("HistoryRead", ("NodesToRead", "MaxNodesPerHistoryReadData")) ].

(** The outcome of the checks of the number n of operations, with the limits l of the server; no other check depends on them *)
Definition outcome (l : limits) (n : Z) (check : string) : option bool :=
  if String.eqb check "l == 0" then Some (n =? 0)
  else match find (fun x => String.eqb check ("l > int(srv.serverCapabilities.OperationLimits." ++ x ++ ")")) operation_limits with
       | Some x => Some (l x <? n)
       | None => None
       end.
(** A run of a handler for a request with n operations, in a server with the limits l *)
Definition run_with (l : limits) (n : Z) (t : list event) : Prop :=
  forall c b m, In (Cond c b) t -> outcome l n c = Some m -> b = m.

Definition responds (service : string) (t : list event) : Prop := exists c, In (Did (Send true (service ++ "Response") c)) t.
Definition faults (code : string) (t : list event) : Prop := In (Did (Send true "ServiceFault" code)) t.
(** No call but lookups and the removal of a session that was never activated *)
Definition does_nothing (t : list event) : Prop := forall a, In (Did (Act a)) t -> is_lookup a = true \/ a = "srv.SessionManager().Delete".
(** The reasons to refuse a request that have nothing to do with the number of operations and may be found before it is counted *)
Definition other_reasons : list string :=
  ["BadSessionIDInvalid"; "BadSessionNotActivated"; "BadSecureChannelIDInvalid"; "BadSubscriptionIDInvalid"; "BadTimestampsToReturnInvalid";
   "BadInvalidTimestampArgument"; "BadMaxAgeInvalid"; "BadViewIDUnknown"; "BadMonitoringModeInvalid"].
(** Services whose request has an array of operations and which check no limit (MaxMonitoredItemsPerCall applies to SetTriggering) *)
Definition unlimited : list string := ["SetTriggering"; "SetPublishingMode"].
