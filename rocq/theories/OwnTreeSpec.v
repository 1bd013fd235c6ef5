(** Browse paths in a list of nodes, independent of how a path is followed; what the diagnostics of a new session show. *)
From Coq Require Import ZArith List String.
From Verif Require Import Bytes Prim Value Text Messages OwnData OwnTable OwnSpace OwnSpec.
Import ListNotations.
Open Scope Z_scope.

(** From the node [p] a path leads to [i]: each name is that of a node whose parent is the node before. *)
Inductive leads (ns : list node) : Z -> list string -> Z -> Prop :=
| leads_here p : leads ns p [] p
| leads_down p n rest i : In n ns -> d_parent (n_decl n) = p -> leads ns (d_id (n_decl n)) rest i -> leads ns p (d_name (n_decl n) :: rest) i.

(** CreateSession has been answered and nothing else happened: what the client gave, the times, and zero for everything that is counted *)
Definition nothing_counted : shown := Structure "ServiceCounterDataType" [VB BUInt32 0; VB BUInt32 0].
Definition new_facts (id : nodeid) (name : bytes) (timeout : Z) (description : list val) (uri endpoint : bytes) (max : Z) (now : time) : list (string * shown) :=
  [ ("SessionId", Node id); ("SessionName", Str name); ("ClientDescription", Structure "ApplicationDescription" description); ("ServerUri", Str uri);
    ("EndpointUrl", Str endpoint); ("LocaleIds", StrsOf (Some [lit "en-US"])); ("ActualSessionTimeout", Double timeout); ("MaxResponseMessageSize", UInt32 max);
    ("ClientConnectionTime", DateTime now); ("ClientLastContactTime", DateTime now); ("CurrentSubscriptionsCount", UInt32 0);
    ("CurrentMonitoredItemsCount", UInt32 0); ("CurrentPublishRequestsInQueue", UInt32 0); ("TotalRequestCount", nothing_counted); ("UnauthorizedRequestCount", UInt32 0) ]%string
  ++ map (fun p => ((fst p ++ "Count")%string, nothing_counted)) counted_names.
