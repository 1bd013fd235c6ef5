(** The locks, waits and accesses to shared data of the functions of /repo/server, transcribed by
    tools/race_table.py in the language of Flow.v and Race.v. The table of MutexTable.v with the accesses added;
    functions with the suffix _new are called on a structure that no other thread knows yet, without the accesses to it. A call is the [Scope] of what is called;
    one of several possible callees is an [If]; a deferred unlock is at the end of the function. *)
From Coq Require Import List String.
From Verif Require Import Flow Mutex Race.
Import ListNotations.

(** /repo/server/session.go 145-149 Session.IsExpired *)
Definition f_Session_IsExpired : prog aop :=
  Do (L (Lk Sh KSession)) (
  Do (L (Un Sh KSession)) (
  Done)).

(** /repo/server/server.go 234-238 Server.NamespaceManager *)
Definition f_Server_NamespaceManager : prog aop :=
  Do (L (Lk Sh KServer)) (
  Do (L (Un Sh KServer)) (
  Done)).

(** /repo/server/session.go 174-178 Session.SessionId *)
Definition f_Session_SessionId : prog aop :=
  Do (L (Lk Sh KSession)) (
  Do (L (Un Sh KSession)) (
  Done)).

(** /repo/server/namespace_manager.go 73-78 NamespaceManager.FindNode *)
Definition f_NamespaceManager_FindNode : prog aop :=
  Do (L (Lk Sh KNamespaceManager)) (
  Scope (
   Do (Rd [KNamespaceManager] KNamespaceManager "nodes"%string) (
   Exit Leave)) (
  Do (L (Un Sh KNamespaceManager)) (
  Done))).

(** /repo/server/data_type_node.go 98-102 DataTypeNode.References *)
Definition f_DataTypeNode_References : prog aop :=
  Do (L (Lk Sh KDataTypeNode)) (
  Scope (
   Do (Rd [KDataTypeNode] KDataTypeNode "references"%string) (
   Exit Leave)) (
  Do (L (Un Sh KDataTypeNode)) (
  Done))).

(** /repo/server/method_node.go 97-101 MethodNode.References *)
Definition f_MethodNode_References : prog aop :=
  Do (L (Lk Sh KMethodNode)) (
  Scope (
   Do (Rd [KMethodNode] KMethodNode "references"%string) (
   Exit Leave)) (
  Do (L (Un Sh KMethodNode)) (
  Done))).

(** /repo/server/object_node.go 98-102 ObjectNode.References *)
Definition f_ObjectNode_References : prog aop :=
  Do (L (Lk Sh KObjectNode)) (
  Scope (
   Do (Rd [KObjectNode] KObjectNode "references"%string) (
   Exit Leave)) (
  Do (L (Un Sh KObjectNode)) (
  Done))).

(** /repo/server/object_type_node.go 96-100 ObjectTypeNode.References *)
Definition f_ObjectTypeNode_References : prog aop :=
  Do (L (Lk Sh KObjectTypeNode)) (
  Scope (
   Do (Rd [KObjectTypeNode] KObjectTypeNode "references"%string) (
   Exit Leave)) (
  Do (L (Un Sh KObjectTypeNode)) (
  Done))).

(** /repo/server/reference_type_node.go 98-102 ReferenceTypeNode.References *)
Definition f_ReferenceTypeNode_References : prog aop :=
  Do (L (Lk Sh KReferenceTypeNode)) (
  Scope (
   Do (Rd [KReferenceTypeNode] KReferenceTypeNode "references"%string) (
   Exit Leave)) (
  Do (L (Un Sh KReferenceTypeNode)) (
  Done))).

(** /repo/server/variable_node.go 109-113 VariableNode.References *)
Definition f_VariableNode_References : prog aop :=
  Do (L (Lk Sh KVariableNode)) (
  Scope (
   Do (Rd [KVariableNode] KVariableNode "references"%string) (
   Exit Leave)) (
  Do (L (Un Sh KVariableNode)) (
  Done))).

(** /repo/server/variable_type_node.go 100-104 VariableTypeNode.References *)
Definition f_VariableTypeNode_References : prog aop :=
  Do (L (Lk Sh KVariableTypeNode)) (
  Scope (
   Do (Rd [KVariableTypeNode] KVariableTypeNode "references"%string) (
   Exit Leave)) (
  Do (L (Un Sh KVariableTypeNode)) (
  Done))).

(** /repo/server/view_node.go 94-98 ViewNode.References *)
Definition f_ViewNode_References : prog aop :=
  Do (L (Lk Sh KViewNode)) (
  Scope (
   Do (Rd [KViewNode] KViewNode "references"%string) (
   Exit Leave)) (
  Do (L (Un Sh KViewNode)) (
  Done))).

(** References of the interface Node: the kinds of Node *)
Definition f_Node_References : prog aop :=
  If "kind"%string (
   Scope f_DataTypeNode_References (
   Done)) (If "kind"%string (
    Scope f_MethodNode_References (
    Done)) (If "kind"%string (
     Scope f_ObjectNode_References (
     Done)) (If "kind"%string (
      Scope f_ObjectTypeNode_References (
      Done)) (If "kind"%string (
       Scope f_ReferenceTypeNode_References (
       Done)) (If "kind"%string (
        Scope f_VariableNode_References (
        Done)) (If "kind"%string (
         Scope f_VariableTypeNode_References (
         Done)) (Scope f_ViewNode_References (
         Done)) (
        Done)) (
       Done)) (
      Done)) (
     Done)) (
    Done)) (
   Done)) (
  Done).

(** /repo/server/namespace_manager.go 575-598 NamespaceManager.GetChildren *)
Definition f_NamespaceManager_GetChildren : prog aop :=
  Loop (
   If "item.Visited"%string (
    Exit Continue) (Done) (
   Scope f_Node_References (
   Loop (
    If "!r.IsInverse && (withRefTypes == nil || Contains(withRefType"%string (
     Do (Rd [KNamespaceManager] KNamespaceManager "nodes"%string) (
     Done)) (Done) (
    Done)) (
   Done)))) (
  Done).

(** /repo/server/data_type_node.go 105-109 DataTypeNode.SetReferences *)
Definition f_DataTypeNode_SetReferences : prog aop :=
  Do (L (Lk Ex KDataTypeNode)) (
  Do (Wr [KDataTypeNode] KDataTypeNode "references"%string) (
  Do (L (Un Ex KDataTypeNode)) (
  Done))).

(** /repo/server/method_node.go 104-108 MethodNode.SetReferences *)
Definition f_MethodNode_SetReferences : prog aop :=
  Do (L (Lk Ex KMethodNode)) (
  Do (Wr [KMethodNode] KMethodNode "references"%string) (
  Do (L (Un Ex KMethodNode)) (
  Done))).

(** /repo/server/object_node.go 105-109 ObjectNode.SetReferences *)
Definition f_ObjectNode_SetReferences : prog aop :=
  Do (L (Lk Ex KObjectNode)) (
  Do (Wr [KObjectNode] KObjectNode "references"%string) (
  Do (L (Un Ex KObjectNode)) (
  Done))).

(** /repo/server/object_type_node.go 103-107 ObjectTypeNode.SetReferences *)
Definition f_ObjectTypeNode_SetReferences : prog aop :=
  Do (L (Lk Ex KObjectTypeNode)) (
  Do (Wr [KObjectTypeNode] KObjectTypeNode "references"%string) (
  Do (L (Un Ex KObjectTypeNode)) (
  Done))).

(** /repo/server/reference_type_node.go 105-109 ReferenceTypeNode.SetReferences *)
Definition f_ReferenceTypeNode_SetReferences : prog aop :=
  Do (L (Lk Ex KReferenceTypeNode)) (
  Do (Wr [KReferenceTypeNode] KReferenceTypeNode "references"%string) (
  Do (L (Un Ex KReferenceTypeNode)) (
  Done))).

(** /repo/server/variable_node.go 116-120 VariableNode.SetReferences *)
Definition f_VariableNode_SetReferences : prog aop :=
  Do (L (Lk Ex KVariableNode)) (
  Do (Wr [KVariableNode] KVariableNode "references"%string) (
  Do (L (Un Ex KVariableNode)) (
  Done))).

(** /repo/server/variable_type_node.go 107-111 VariableTypeNode.SetReferences *)
Definition f_VariableTypeNode_SetReferences : prog aop :=
  Do (L (Lk Ex KVariableTypeNode)) (
  Do (Wr [KVariableTypeNode] KVariableTypeNode "references"%string) (
  Do (L (Un Ex KVariableTypeNode)) (
  Done))).

(** /repo/server/view_node.go 101-105 ViewNode.SetReferences *)
Definition f_ViewNode_SetReferences : prog aop :=
  Do (L (Lk Ex KViewNode)) (
  Do (Wr [KViewNode] KViewNode "references"%string) (
  Do (L (Un Ex KViewNode)) (
  Done))).

(** SetReferences of the interface Node: the kinds of Node *)
Definition f_Node_SetReferences : prog aop :=
  If "kind"%string (
   Scope f_DataTypeNode_SetReferences (
   Done)) (If "kind"%string (
    Scope f_MethodNode_SetReferences (
    Done)) (If "kind"%string (
     Scope f_ObjectNode_SetReferences (
     Done)) (If "kind"%string (
      Scope f_ObjectTypeNode_SetReferences (
      Done)) (If "kind"%string (
       Scope f_ReferenceTypeNode_SetReferences (
       Done)) (If "kind"%string (
        Scope f_VariableNode_SetReferences (
        Done)) (If "kind"%string (
         Scope f_VariableTypeNode_SetReferences (
         Done)) (Scope f_ViewNode_SetReferences (
         Done)) (
        Done)) (
       Done)) (
      Done)) (
     Done)) (
    Done)) (
   Done)) (
  Done).

(** /repo/server/namespace_manager.go 419-444 NamespaceManager.deleteNodeandInverseReferences *)
Definition f_NamespaceManager_deleteNodeandInverseReferences : prog aop :=
  Scope f_Node_References (
  Loop (
   If "r.ReferenceTypeID == ua.ReferenceTypeIDHasTypeDefinition || "%string (
    Exit Continue) (Done) (
   Do (Rd [KNamespaceManager] KNamespaceManager "nodes"%string) (
   If "ok"%string (
    Scope f_Node_References (
    Scope f_Node_SetReferences (
    Done))) (Done) (
   Done)))) (
  Do (Wr [KNamespaceManager] KNamespaceManager "nodes"%string) (
  Done))).

(** /repo/server/namespace_manager.go 402-417 NamespaceManager.DeleteNodes *)
Definition f_NamespaceManager_DeleteNodes : prog aop :=
  Do (L (Lk Ex KNamespaceManager)) (
  Scope (
   Loop (
    If "deleteChildren"%string (
     Do (Rd [KNamespaceManager] KNamespaceManager "namespaces"%string) (
     Scope f_NamespaceManager_GetChildren (
     Loop (
      Do (Rd [KNamespaceManager] KNamespaceManager "namespaces"%string) (
      Scope f_NamespaceManager_deleteNodeandInverseReferences (
      Done))) (
     Done)))) (Done) (
    Loop (
     Do (Rd [KNamespaceManager] KNamespaceManager "namespaces"%string) (
     Scope f_NamespaceManager_deleteNodeandInverseReferences (
     Done))) (
    Done))) (
   Exit Leave)) (
  Do (L (Un Ex KNamespaceManager)) (
  Done))).

(** /repo/server/namespace_manager.go 448-450 NamespaceManager.DeleteNode *)
Definition f_NamespaceManager_DeleteNode : prog aop :=
  Scope f_NamespaceManager_DeleteNodes (
  Done).

(** /repo/server/session_manager.go 1714-1718 SessionManager.removeDiagnosticsNode *)
Definition f_SessionManager_removeDiagnosticsNode : prog aop :=
  Scope f_Server_NamespaceManager (
  Scope f_Session_SessionId (
  Scope f_NamespaceManager_FindNode (
  If "ok"%string (
   Scope f_Server_NamespaceManager (
   Scope f_NamespaceManager_DeleteNode (
   Done))) (Done) (
  Done)))).

(** /repo/server/session.go 151-172 Session.delete *)
Definition f_Session_delete : prog aop :=
  Do (L (Lk Ex KSession)) (
  Do (Wr [KSession] KSession "userIdentity"%string) (
  Do (Wr [KSession] KSession "channelId"%string) (
  Do (Wr [KSession] KSession "securityMode"%string) (
  Do (Wr [KSession] KSession "securityPolicyURI"%string) (
  Do (Wr [KSession] KSession "clientCertificate"%string) (
  Do (Rd [KSession] KSession "browseCPs"%string) (
  Loop (
   Do (Wr [KSession] KSession "browseCPs"%string) (
   Done)) (
  Do (Wr [KSession] KSession "browseCPs"%string) (
  Do (Rd [KSession] KSession "historyCPs"%string) (
  Loop (
   Do (Wr [KSession] KSession "historyCPs"%string) (
   Done)) (
  Do (Wr [KSession] KSession "historyCPs"%string) (
  Do (L (Un Ex KSession)) (
  Done))))))))))))).

(** /repo/server/session_manager.go 88-104 SessionManager.checkForExpiredSessions *)
Definition f_SessionManager_checkForExpiredSessions : prog aop :=
  Do (L (Lk Ex KSessionManager)) (
  Do (Rd [KSessionManager] KSessionManager "sessionsByToken"%string) (
  Loop (
   Do (Rd [KSessionManager] KSessionManager "sessionsByToken"%string) (
   Scope f_Session_IsExpired (
   If "s.IsExpired()"%string (
    Do (Wr [KSessionManager] KSessionManager "sessionsByToken"%string) (
    If "m.server.serverDiagnostics"%string (
     Scope f_SessionManager_removeDiagnosticsNode (
     Do (L (Lk Ex KServer)) (
     Do (Wr [KServer] KServer "serverDiagnosticsSummary"%string) (
     Do (Rd [KSessionManager] KSessionManager "sessionsByToken"%string) (
     Do (L (Un Ex KServer)) (
     Done)))))) (Done) (
    Scope f_Session_delete (
    Done)))) (Done) (
   Done)))) (
  Do (L (Un Ex KSessionManager)) (
  Done)))).

(** /repo/server/session_manager.go 24-31 NewSessionManager.go1 *)
Definition f_NewSessionManager_go1 : prog aop :=
  Loop (
   Do (L (Wt "channel select"%string)) (
   If "case <-ticker.C"%string (
    Scope f_SessionManager_checkForExpiredSessions (
    Done)) (If "case <-m.server.closing"%string (
     Exit Leave) (Done) (
    Done)) (
   Done))) (
  Done).

(** /repo/server/server.go 350-352 Server.GetRoles *)
Definition f_Server_GetRoles : prog aop :=
  Do (L (Wt "application GetRoles"%string)) (
  Done).

(** /repo/server/server.go 213-217 Server.RolePermissions *)
Definition f_Server_RolePermissions : prog aop :=
  Do (L (Lk Sh KServer)) (
  Do (L (Un Sh KServer)) (
  Done)).

(** /repo/server/data_type_node.go 77-95 DataTypeNode.UserRolePermissions *)
Definition f_DataTypeNode_UserRolePermissions : prog aop :=
  Scope f_Server_GetRoles (
  If "err != nil"%string (
   Exit Leave) (Done) (
  If "rolePermissions == nil"%string (
   Scope f_Server_RolePermissions (
   Done)) (Done) (
  Done))).

(** /repo/server/method_node.go 76-94 MethodNode.UserRolePermissions *)
Definition f_MethodNode_UserRolePermissions : prog aop :=
  Scope f_Server_GetRoles (
  If "err != nil"%string (
   Exit Leave) (Done) (
  If "rolePermissions == nil"%string (
   Scope f_Server_RolePermissions (
   Done)) (Done) (
  Done))).

(** /repo/server/object_node.go 77-95 ObjectNode.UserRolePermissions *)
Definition f_ObjectNode_UserRolePermissions : prog aop :=
  Scope f_Server_GetRoles (
  If "err != nil"%string (
   Exit Leave) (Done) (
  If "rolePermissions == nil"%string (
   Scope f_Server_RolePermissions (
   Done)) (Done) (
  Done))).

(** /repo/server/object_type_node.go 75-93 ObjectTypeNode.UserRolePermissions *)
Definition f_ObjectTypeNode_UserRolePermissions : prog aop :=
  Scope f_Server_GetRoles (
  If "err != nil"%string (
   Exit Leave) (Done) (
  If "rolePermissions == nil"%string (
   Scope f_Server_RolePermissions (
   Done)) (Done) (
  Done))).

(** /repo/server/reference_type_node.go 77-95 ReferenceTypeNode.UserRolePermissions *)
Definition f_ReferenceTypeNode_UserRolePermissions : prog aop :=
  Scope f_Server_GetRoles (
  If "err != nil"%string (
   Exit Leave) (Done) (
  If "rolePermissions == nil"%string (
   Scope f_Server_RolePermissions (
   Done)) (Done) (
  Done))).

(** /repo/server/variable_node.go 88-106 VariableNode.UserRolePermissions *)
Definition f_VariableNode_UserRolePermissions : prog aop :=
  Scope f_Server_GetRoles (
  If "err != nil"%string (
   Exit Leave) (Done) (
  If "rolePermissions == nil"%string (
   Scope f_Server_RolePermissions (
   Done)) (Done) (
  Done))).

(** /repo/server/variable_type_node.go 79-97 VariableTypeNode.UserRolePermissions *)
Definition f_VariableTypeNode_UserRolePermissions : prog aop :=
  Scope f_Server_GetRoles (
  If "err != nil"%string (
   Exit Leave) (Done) (
  If "rolePermissions == nil"%string (
   Scope f_Server_RolePermissions (
   Done)) (Done) (
  Done))).

(** /repo/server/view_node.go 73-91 ViewNode.UserRolePermissions *)
Definition f_ViewNode_UserRolePermissions : prog aop :=
  Scope f_Server_GetRoles (
  If "err != nil"%string (
   Exit Leave) (Done) (
  If "rolePermissions == nil"%string (
   Scope f_Server_RolePermissions (
   Done)) (Done) (
  Done))).

(** UserRolePermissions of the interface Node: the kinds of Node *)
Definition f_Node_UserRolePermissions : prog aop :=
  If "kind"%string (
   Scope f_DataTypeNode_UserRolePermissions (
   Done)) (If "kind"%string (
    Scope f_MethodNode_UserRolePermissions (
    Done)) (If "kind"%string (
     Scope f_ObjectNode_UserRolePermissions (
     Done)) (If "kind"%string (
      Scope f_ObjectTypeNode_UserRolePermissions (
      Done)) (If "kind"%string (
       Scope f_ReferenceTypeNode_UserRolePermissions (
       Done)) (If "kind"%string (
        Scope f_VariableNode_UserRolePermissions (
        Done)) (If "kind"%string (
         Scope f_VariableTypeNode_UserRolePermissions (
         Done)) (Scope f_ViewNode_UserRolePermissions (
         Done)) (
        Done)) (
       Done)) (
      Done)) (
     Done)) (
    Done)) (
   Done)) (
  Done).

(** /repo/server/variable_node.go 160-196 VariableNode.UserAccessLevel *)
Definition f_VariableNode_UserAccessLevel : prog aop :=
  Scope f_Server_GetRoles (
  If "err != nil"%string (
   Exit Leave) (Done) (
  If "rolePermissions == nil"%string (
   Scope f_Server_RolePermissions (
   Done)) (Done) (
  Done))).

(** /repo/server/namespace_manager.go 66-70 NamespaceManager.NamespaceUris *)
Definition f_NamespaceManager_NamespaceUris : prog aop :=
  Do (L (Lk Sh KNamespaceManager)) (
  Scope (
   Do (Rd [KNamespaceManager] KNamespaceManager "namespaces"%string) (
   Exit Leave)) (
  Do (L (Un Sh KNamespaceManager)) (
  Done))).

(** /repo/server/server.go 199-203 Server.NamespaceUris *)
Definition f_Server_NamespaceUris : prog aop :=
  Do (L (Lk Sh KServer)) (
  Scope (
   Scope f_NamespaceManager_NamespaceUris (
   Exit Leave)) (
  Do (L (Un Sh KServer)) (
  Done))).

(** /repo/server/server.go 206-210 Server.ServerUris *)
Definition f_Server_ServerUris : prog aop :=
  Do (L (Lk Sh KServer)) (
  Do (L (Un Sh KServer)) (
  Done)).

(** /repo/server/server.go 192-196 Server.State *)
Definition f_Server_State : prog aop :=
  Do (L (Lk Sh KServer)) (
  Scope (
   Do (Rd [KServer] KServer "state"%string) (
   Exit Leave)) (
  Do (L (Un Sh KServer)) (
  Done))).

(** /repo/server/server.go 241-245 Server.SubscriptionManager *)
Definition f_Server_SubscriptionManager : prog aop :=
  Do (L (Lk Sh KServer)) (
  Do (L (Un Sh KServer)) (
  Done)).

(** /repo/server/subscription_manager.go 85-95 SubscriptionManager.GetBySession *)
Definition f_SubscriptionManager_GetBySession : prog aop :=
  Do (L (Lk Sh KSubscriptionManager)) (
  Scope (
   Do (Rd [KSubscriptionManager] KSubscriptionManager "subscriptionsByID"%string) (
   Loop (
    Do (Rd [KSubscriptionManager] KSubscriptionManager "subscriptionsByID"%string) (
    Do (Rd [] KSubscription "session"%string) (
    Done))) (
   Exit Leave))) (
  Do (L (Un Sh KSubscriptionManager)) (
  Done))).

(** /repo/server/session.go 262-266 Session.SecurityMode *)
Definition f_Session_SecurityMode : prog aop :=
  Do (L (Lk Sh KSession)) (
  Scope (
   Do (Rd [KSession] KSession "securityMode"%string) (
   Exit Leave)) (
  Do (L (Un Sh KSession)) (
  Done))).

(** /repo/server/session.go 274-278 Session.SecurityPolicyURI *)
Definition f_Session_SecurityPolicyURI : prog aop :=
  Do (L (Lk Sh KSession)) (
  Scope (
   Do (Rd [KSession] KSession "securityPolicyURI"%string) (
   Exit Leave)) (
  Do (L (Un Sh KSession)) (
  Done))).

(** /repo/server/session.go 286-290 Session.ClientCertificate *)
Definition f_Session_ClientCertificate : prog aop :=
  Do (L (Lk Sh KSession)) (
  Scope (
   Do (Rd [KSession] KSession "clientCertificate"%string) (
   Exit Leave)) (
  Do (L (Un Sh KSession)) (
  Done))).

(** the read handlers that the server sets, or one of the application *)
Definition read_handlers : prog aop :=
  If "which handler"%string (
   Scope (
    Scope f_Server_NamespaceUris (
    Exit Leave)) (
   Done)) (If "which handler"%string (
    Scope (
     Scope f_Server_ServerUris (
     Exit Leave)) (
    Done)) (If "which handler"%string (
     Scope (
      Do (Rd [KServer] KServer "state"%string) (
      Exit Leave)) (
     Done)) (If "which handler"%string (
      Scope (
       Scope f_Server_State (
       Exit Leave)) (
      Done)) (If "which handler"%string (
       Scope (
        Do (Rd [KServer] KServer "serverDiagnosticsSummary"%string) (
        Exit Leave)) (
       Done)) (If "which handler"%string (
        Scope (
         If "!srv.serverDiagnostics"%string (
          Exit Leave) (Done) (
         Do (Rd [KSubscriptionManager] KSubscriptionManager "subscriptionsByID"%string) (
         Scope f_Server_SubscriptionManager (
         Loop (
          Do (Rd [KSubscriptionManager] KSubscriptionManager "subscriptionsByID"%string) (
          Do (L (Lk Sh KSubscription)) (
          Do (Rd [KSubscription] KSubscription "disabledMonitoredItemCount"%string) (
          Do (Rd [KSubscription] KSubscription "monitoringQueueOverflowCount"%string) (
          Do (L (Un Sh KSubscription)) (
          Done)))))) (
         Exit Leave))))) (
        Done)) (If "which handler"%string (
         Scope (
          Scope f_SubscriptionManager_GetBySession (
          Loop (
           Do (Rd [] KSubscription "items"%string) (
           Done)) (
          Do (Rd [] KSession "localeIds"%string) (
          Do (Rd [] KSession "requestCount"%string) (
          Exit Leave))))) (
         Done)) (If "which handler"%string (
          Scope (
           Do (Rd [] KSession "localeIds"%string) (
           Exit Leave)) (
          Done)) (If "which handler"%string (
           Scope (
            Scope f_SubscriptionManager_GetBySession (
            Exit Leave)) (
           Done)) (If "which handler"%string (
            Scope (
             Scope f_SubscriptionManager_GetBySession (
             Loop (
              Do (Rd [] KSubscription "items"%string) (
              Done)) (
             Exit Leave))) (
            Done)) (If "which handler"%string (
             Scope (
              Do (Rd [] KSession "requestCount"%string) (
              Exit Leave)) (
             Done)) (If "which handler"%string (
              Scope (
               If "session == nil"%string (
                Exit Leave) (Done) (
               Do (Rd [] KSession "userIdentity"%string) (
               Scope f_Server_GetRoles (
               If "err != nil"%string (
                Exit Leave) (Done) (
               If "!ok"%string (
                Exit Leave) (Done) (
               Scope f_Session_SecurityMode (
               If "session.SecurityMode() != ua.MessageSecurityModeSignAndEncry"%string (
                Exit Leave) (Done) (
               Scope f_Session_SecurityMode (
               Scope f_Session_SecurityPolicyURI (
               Scope f_Session_ClientCertificate (
               Exit Leave))))))))))) (
              Done)) (If "which handler"%string (
               Scope (
                If "session == nil"%string (
                 Exit Leave) (Done) (
                Do (Rd [] KSession "userIdentity"%string) (
                Scope f_Server_GetRoles (
                If "err != nil"%string (
                 Exit Leave) (Done) (
                If "!ok"%string (
                 Exit Leave) (Done) (
                Scope f_Session_SecurityMode (
                Exit Leave))))))) (
               Done)) (If "which handler"%string (
                Scope (
                 If "session == nil"%string (
                  Exit Leave) (Done) (
                 Do (Rd [] KSession "userIdentity"%string) (
                 Scope f_Server_GetRoles (
                 If "err != nil"%string (
                  Exit Leave) (Done) (
                 If "!ok"%string (
                  Exit Leave) (Done) (
                 Scope f_Session_SecurityMode (
                 Exit Leave))))))) (
                Done)) (If "which handler"%string (
                 Scope (
                  If "session == nil"%string (
                   Exit Leave) (Done) (
                  Do (Rd [] KSession "userIdentity"%string) (
                  Scope f_Server_GetRoles (
                  If "err != nil"%string (
                   Exit Leave) (Done) (
                  If "!ok"%string (
                   Exit Leave) (Done) (
                  Scope f_Session_SecurityMode (
                  Exit Leave))))))) (
                 Done)) (If "which handler"%string (
                  Scope (
                   If "session == nil"%string (
                    Exit Leave) (Done) (
                   Do (Rd [] KSession "userIdentity"%string) (
                   Scope f_Server_GetRoles (
                   If "err != nil"%string (
                    Exit Leave) (Done) (
                   If "!ok"%string (
                    Exit Leave) (Done) (
                   Scope f_Session_SecurityMode (
                   Exit Leave))))))) (
                  Done)) (If "which handler"%string (
                   Scope (
                    If "session == nil"%string (
                     Exit Leave) (Done) (
                    Do (Rd [] KSession "userIdentity"%string) (
                    Scope f_Server_GetRoles (
                    If "err != nil"%string (
                     Exit Leave) (Done) (
                    If "!ok"%string (
                     Exit Leave) (Done) (
                    Scope f_Session_SecurityMode (
                    Exit Leave))))))) (
                   Done)) (If "which handler"%string (
                    Scope (
                     If "session == nil"%string (
                      Exit Leave) (Done) (
                     Do (Rd [] KSession "userIdentity"%string) (
                     Scope f_Server_GetRoles (
                     If "err != nil"%string (
                      Exit Leave) (Done) (
                     If "!ok"%string (
                      Exit Leave) (Done) (
                     Scope f_Session_SecurityMode (
                     If "session.SecurityMode() != ua.MessageSecurityModeSignAndEncry"%string (
                      Exit Leave) (Done) (
                     Scope f_Session_SecurityMode (
                     Exit Leave))))))))) (
                    Done)) (If "which handler"%string (
                     Scope (
                      If "session == nil"%string (
                       Exit Leave) (Done) (
                      Do (Rd [] KSession "userIdentity"%string) (
                      Scope f_Server_GetRoles (
                      If "err != nil"%string (
                       Exit Leave) (Done) (
                      If "!ok"%string (
                       Exit Leave) (Done) (
                      Scope f_Session_SecurityMode (
                      If "session.SecurityMode() != ua.MessageSecurityModeSignAndEncry"%string (
                       Exit Leave) (Done) (
                      Scope f_Session_SecurityPolicyURI (
                      Exit Leave))))))))) (
                     Done)) (If "which handler"%string (
                      Scope (
                       If "session == nil"%string (
                        Exit Leave) (Done) (
                       Do (Rd [] KSession "userIdentity"%string) (
                       Scope f_Server_GetRoles (
                       If "err != nil"%string (
                        Exit Leave) (Done) (
                       If "!ok"%string (
                        Exit Leave) (Done) (
                       Scope f_Session_SecurityMode (
                       If "session.SecurityMode() != ua.MessageSecurityModeSignAndEncry"%string (
                        Exit Leave) (Done) (
                       Scope f_Session_ClientCertificate (
                       Exit Leave))))))))) (
                      Done)) (If "which handler"%string (
                       Do (L (Lk Sh KSubscription)) (
                       Scope (
                        Do (Rd [KSubscription] KSubscription "disabledMonitoredItemCount"%string) (
                        Do (Rd [KSubscription] KSubscription "monitoringQueueOverflowCount"%string) (
                        Exit Leave))) (
                       Do (L (Un Sh KSubscription)) (
                       Done)))) (If "which handler"%string (
                        Scope (
                         Do (Rd [] KSubscription "disabledMonitoredItemCount"%string) (
                         Exit Leave)) (
                        Done)) (If "which handler"%string (
                         Scope (
                          Do (Rd [] KSubscription "monitoringQueueOverflowCount"%string) (
                          Exit Leave)) (
                         Done)) (Do (L (Wt "application handler"%string)) (
                         Done)) (
                        Done)) (
                       Done)) (
                      Done)) (
                     Done)) (
                    Done)) (
                   Done)) (
                  Done)) (
                 Done)) (
                Done)) (
               Done)) (
              Done)) (
             Done)) (
            Done)) (
           Done)) (
          Done)) (
         Done)) (
        Done)) (
       Done)) (
      Done)) (
     Done)) (
    Done)) (
   Done)) (
  Done).

(** /repo/server/variable_node.go 123-127 VariableNode.Value *)
Definition f_VariableNode_Value : prog aop :=
  Do (L (Lk Sh KVariableNode)) (
  Scope (
   Do (Rd [KVariableNode] KVariableNode "value"%string) (
   Exit Leave)) (
  Do (L (Un Sh KVariableNode)) (
  Done))).

(** /repo/server/variable_node.go 204-208 VariableNode.Historizing *)
Definition f_VariableNode_Historizing : prog aop :=
  Do (L (Lk Sh KVariableNode)) (
  Scope (
   Do (Rd [KVariableNode] KVariableNode "historizing"%string) (
   Exit Leave)) (
  Do (L (Un Sh KVariableNode)) (
  Done))).

(** /repo/server/method_node.go 116-136 MethodNode.UserExecutable *)
Definition f_MethodNode_UserExecutable : prog aop :=
  If "!n.executable"%string (
   Exit Leave) (Done) (
  Scope f_Server_GetRoles (
  If "err != nil"%string (
   Exit Leave) (Done) (
  If "rolePermissions == nil"%string (
   Scope f_Server_RolePermissions (
   Done)) (Done) (
  Loop (
   Loop (
    If "rp.RoleID == role && rp.Permissions&ua.PermissionTypeCall !="%string (
     Exit Leave) (Done) (
    Done)) (
   Done)) (
  Done))))).

(** /repo/server/server_service_set.go 6063-6251 Server.readValue *)
Definition f_Server_readValue : prog aop :=
  If "session == nil"%string (
   Exit Leave) (Done) (
  If "readValueId.DataEncoding.Name != ''"%string (
   Exit Leave) (Done) (
  If "readValueId.IndexRange != '' && readValueId.AttributeID != u"%string (
   Exit Leave) (Done) (
  Scope f_Server_NamespaceManager (
  Scope f_NamespaceManager_FindNode (
  If "!ok"%string (
   Exit Leave) (Done) (
  Do (Rd [] KSession "userIdentity"%string) (
  Scope f_Node_UserRolePermissions (
  If "!IsUserPermitted(rp, ua.PermissionTypeBrowse)"%string (
   Exit Leave) (Done) (
  If "case ua.AttributeIDValue"%string (
   If "case *VariableNode"%string (
    If "(n1.AccessLevel()&ua.AccessLevelsCurrentRead) == 0"%string (
     Exit Leave) (Done) (
    Do (Rd [] KSession "userIdentity"%string) (
    Scope f_VariableNode_UserAccessLevel (
    If "(n1.UserAccessLevel(session.userIdentity)&ua.AccessLevelsCur"%string (
     Exit Leave) (Done) (
    Do (Rd [] KVariableNode "readValueHandler"%string) (
    If "f != nil"%string (
     Scope read_handlers (
     Exit Leave)) (Done) (
    Scope f_VariableNode_Value (
    Exit Leave)))))))) (Exit Leave) (
   Done)) (If "case ua.AttributeIDNodeID"%string (
    Exit Leave) (If "case ua.AttributeIDNodeClass"%string (
     Exit Leave) (If "case ua.AttributeIDBrowseName"%string (
      Exit Leave) (If "case ua.AttributeIDDisplayName"%string (
       Exit Leave) (If "case ua.AttributeIDDescription"%string (
        Exit Leave) (If "case ua.AttributeIDIsAbstract"%string (
         Exit Leave) (If "case ua.AttributeIDSymmetric"%string (
          Exit Leave) (If "case ua.AttributeIDInverseName"%string (
           Exit Leave) (If "case ua.AttributeIDContainsNoLoops"%string (
            Exit Leave) (If "case ua.AttributeIDEventNotifier"%string (
             Exit Leave) (If "case ua.AttributeIDDataType"%string (
              Exit Leave) (If "case ua.AttributeIDValueRank"%string (
               Exit Leave) (If "case ua.AttributeIDArrayDimensions"%string (
                Exit Leave) (If "case ua.AttributeIDAccessLevel"%string (
                 Exit Leave) (If "case ua.AttributeIDUserAccessLevel"%string (
                  If "case *VariableNode"%string (
                   Do (Rd [] KSession "userIdentity"%string) (
                   Scope f_VariableNode_UserAccessLevel (
                   Exit Leave))) (Exit Leave) (
                  Done)) (If "case ua.AttributeIDMinimumSamplingInterval"%string (
                   Exit Leave) (If "case ua.AttributeIDHistorizing"%string (
                    If "case *VariableNode"%string (
                     Scope f_VariableNode_Historizing (
                     Exit Leave)) (Exit Leave) (
                    Done)) (If "case ua.AttributeIDExecutable"%string (
                     Exit Leave) (If "case ua.AttributeIDUserExecutable"%string (
                      If "case *MethodNode"%string (
                       Do (Rd [] KSession "userIdentity"%string) (
                       Scope f_MethodNode_UserExecutable (
                       Exit Leave))) (Exit Leave) (
                      Done)) (If "case ua.AttributeIDDataTypeDefinition"%string (
                       Exit Leave) (If "case ua.AttributeIDRolePermissions"%string (
                        Exit Leave) (If "case ua.AttributeIDUserRolePermissions"%string (
                         Do (Rd [] KSession "userIdentity"%string) (
                         Scope f_Node_UserRolePermissions (
                         Exit Leave))) (Exit Leave) (
                        Done)) (
                       Done)) (
                      Done)) (
                     Done)) (
                    Done)) (
                   Done)) (
                  Done)) (
                 Done)) (
                Done)) (
               Done)) (
              Done)) (
             Done)) (
            Done)) (
           Done)) (
          Done)) (
         Done)) (
        Done)) (
       Done)) (
      Done)) (
     Done)) (
    Done)) (
   Done)) (
  Done)))))))))).

(** /repo/server/datachange_monitored_item.go 266-273 DataChangeMonitoredItem.Poll *)
Definition f_DataChangeMonitoredItem_Poll : prog aop :=
  Do (L (Lk Ex KDataItem)) (
  If "n != nil"%string (
   Do (Rd [KDataItem] KDataItem "sub"%string) (
   Do (Rd [] KSubscription "session"%string) (
   Scope f_Server_readValue (
   Do (Wr [KDataItem] KDataItem "prequeue"%string) (
   Done))))) (Done) (
  Do (L (Un Ex KDataItem)) (
  Done))).

(** /repo/server/scheduler.go 56-83 PollGroup.run *)
Definition f_PollGroup_run : prog aop :=
  Loop (
   Do (L (Wt "channel select"%string)) (
   If "case <-b.cancellationCh"%string (
    Do (L (Lk Ex KPollGroup)) (
    Do (Rd [KPollGroup] KPollGroup "subs"%string) (
    Loop (
     Do (Wr [KPollGroup] KPollGroup "subs"%string) (
     Done)) (
    Do (L (Un Ex KPollGroup)) (
    Exit Leave))))) (If "case <-ticker.C"%string (
     Do (L (Lk Ex KPollGroup)) (
     Do (Rd [KPollGroup] KPollGroup "subs"%string) (
     Loop (
      Do (Rd [KPollGroup] KPollGroup "subs"%string) (
      Done)) (
     Do (L (Un Ex KPollGroup)) (
     Loop (
      Scope f_DataChangeMonitoredItem_Poll (
      Done)) (
     Done)))))) (Done) (
    Done)) (
   Done))) (
  Done).

(** /repo/server/subscription.go 87-91 Subscription.IsExpired *)
Definition f_Subscription_IsExpired : prog aop :=
  Do (L (Lk Sh KSubscription)) (
  Do (L (Un Sh KSubscription)) (
  Done)).

(** /repo/server/subscription.go 300-303 Subscription.stopPublishing *)
Definition f_Subscription_stopPublishing : prog aop :=
  Do (Rd [] KSubscription "cancelPublishing"%string) (
  Done).

(** /repo/server/server.go 248-252 Server.Scheduler *)
Definition f_Server_Scheduler : prog aop :=
  Do (L (Lk Sh KServer)) (
  Do (L (Un Sh KServer)) (
  Done)).

(** /repo/server/scheduler.go 24-36 Scheduler.GetPollGroup *)
Definition f_Scheduler_GetPollGroup : prog aop :=
  Do (L (Lk Ex KScheduler)) (
  Scope (
   Do (Rd [KScheduler] KScheduler "tickers"%string) (
   If "ok"%string (
    Exit Leave) (Done) (
   Do (Wr [KScheduler] KScheduler "tickers"%string) (
   Exit Leave)))) (
  Do (L (Un Ex KScheduler)) (
  Done))).

(** /repo/server/scheduler.go 91-95 PollGroup.Unsubscribe *)
Definition f_PollGroup_Unsubscribe : prog aop :=
  Do (L (Lk Ex KPollGroup)) (
  Do (Wr [KPollGroup] KPollGroup "subs"%string) (
  Do (L (Un Ex KPollGroup)) (
  Done))).

(** /repo/server/datachange_monitored_item.go 259-263 DataChangeMonitoredItem.stopMonitoring *)
Definition f_DataChangeMonitoredItem_stopMonitoring : prog aop :=
  Do (L (Un Ex KDataItem)) (
  Do (Rd [] KDataItem "samplingInterval"%string) (
  Scope f_Server_Scheduler (
  Scope f_Scheduler_GetPollGroup (
  Scope f_PollGroup_Unsubscribe (
  Do (L (Lk Ex KDataItem)) (
  Done)))))).

(** /repo/server/datachange_monitored_item.go 142-152 DataChangeMonitoredItem.Delete *)
Definition f_DataChangeMonitoredItem_Delete : prog aop :=
  Do (L (Lk Ex KDataItem)) (
  Scope f_DataChangeMonitoredItem_stopMonitoring (
  Do (Wr [KDataItem] KDataItem "queue"%string) (
  Do (Wr [KDataItem] KDataItem "previousQueuedValue"%string) (
  Do (Wr [KDataItem] KDataItem "sub"%string) (
  Do (Wr [KDataItem] KDataItem "prequeue"%string) (
  Do (Wr [KDataItem] KDataItem "triggeredItems"%string) (
  Do (L (Un Ex KDataItem)) (
  Done)))))))).

(** /repo/server/object_node.go 135-139 ObjectNode.RemoveEventListener *)
Definition f_ObjectNode_RemoveEventListener : prog aop :=
  Do (L (Lk Ex KObjectNode)) (
  Do (Wr [KObjectNode] KObjectNode "subs"%string) (
  Do (L (Un Ex KObjectNode)) (
  Done))).

(** /repo/server/event_monitored_item.go 291-295 EventMonitoredItem.stopMonitoring *)
Definition f_EventMonitoredItem_stopMonitoring : prog aop :=
  If "ok"%string (
   Scope f_ObjectNode_RemoveEventListener (
   Done)) (Done) (
  Done).

(** /repo/server/event_monitored_item.go 129-137 EventMonitoredItem.Delete *)
Definition f_EventMonitoredItem_Delete : prog aop :=
  Do (L (Lk Ex KEventItem)) (
  Scope f_EventMonitoredItem_stopMonitoring (
  Do (Wr [KEventItem] KEventItem "queue"%string) (
  Do (Wr [KEventItem] KEventItem "sub"%string) (
  Do (Wr [KEventItem] KEventItem "triggeredItems"%string) (
  Do (L (Un Ex KEventItem)) (
  Done)))))).

(** Delete of the interface MonitoredItem: the kinds of MonitoredItem *)
Definition f_MonitoredItem_Delete : prog aop :=
  If "kind"%string (
   Scope f_DataChangeMonitoredItem_Delete (
   Done)) (Scope f_EventMonitoredItem_Delete (
   Done)) (
  Done).

(** /repo/server/subscription.go 99-115 Subscription.deleteImpl *)
Definition f_Subscription_deleteImpl : prog aop :=
  Scope f_Subscription_stopPublishing (
  Do (Rd [KSubscription] KSubscription "items"%string) (
  Loop (
   Do (Wr [KSubscription] KSubscription "items"%string) (
   Scope f_MonitoredItem_Delete (
   Done))) (
  Do (Wr [KSubscription] KSubscription "items"%string) (
  Do (Rd [KSubscription] KSubscription "retransmissionQueue"%string) (
  Loop (
   Do (Wr [KSubscription] KSubscription "retransmissionQueue"%string) (
   Done)) (
  Do (Wr [KSubscription] KSubscription "retransmissionQueue"%string) (
  Do (Wr [KSubscription] KSubscription "session"%string) (
  Done)))))))).

(** /repo/server/subscription.go 93-97 Subscription.Delete *)
Definition f_Subscription_Delete : prog aop :=
  Do (L (Lk Ex KSubscription)) (
  Scope f_Subscription_deleteImpl (
  Do (L (Un Ex KSubscription)) (
  Done))).

(** /repo/server/subscription_manager.go 97-117 SubscriptionManager.checkForExpiredSubscriptions *)
Definition f_SubscriptionManager_checkForExpiredSubscriptions : prog aop :=
  Do (L (Lk Ex KSubscriptionManager)) (
  Do (Rd [KSubscriptionManager] KSubscriptionManager "subscriptionsByID"%string) (
  Loop (
   Do (Rd [KSubscriptionManager] KSubscriptionManager "subscriptionsByID"%string) (
   Scope f_Subscription_IsExpired (
   If "s.IsExpired()"%string (
    Do (Wr [KSubscriptionManager] KSubscriptionManager "subscriptionsByID"%string) (
    If "m.server.serverDiagnostics"%string (
     Scope f_Server_NamespaceManager (
     Scope f_NamespaceManager_FindNode (
     If "ok"%string (
      Scope f_NamespaceManager_DeleteNode (
      Done)) (Done) (
     Do (L (Lk Ex KServer)) (
     Do (Rd [KSubscriptionManager] KSubscriptionManager "subscriptionsByID"%string) (
     Do (Wr [KServer] KServer "serverDiagnosticsSummary"%string) (
     Do (L (Un Ex KServer)) (
     Done)))))))) (Done) (
    Scope f_Subscription_Delete (
    Done)))) (Done) (
   Done)))) (
  Do (L (Un Ex KSubscriptionManager)) (
  Done)))).

(** /repo/server/subscription_manager.go 119-125 SubscriptionManager.stopPublishingAllSubscriptions *)
Definition f_SubscriptionManager_stopPublishingAllSubscriptions : prog aop :=
  Do (L (Lk Sh KSubscriptionManager)) (
  Do (Rd [KSubscriptionManager] KSubscriptionManager "subscriptionsByID"%string) (
  Loop (
   Do (Rd [KSubscriptionManager] KSubscriptionManager "subscriptionsByID"%string) (
   Scope f_Subscription_stopPublishing (
   Done))) (
  Do (L (Un Sh KSubscriptionManager)) (
  Done)))).

(** /repo/server/subscription_manager.go 25-33 NewSubscriptionManager.go1 *)
Definition f_NewSubscriptionManager_go1 : prog aop :=
  Loop (
   Do (L (Wt "channel select"%string)) (
   If "case <-ticker.C"%string (
    Scope f_SubscriptionManager_checkForExpiredSubscriptions (
    Done)) (If "case <-m.server.closing"%string (
     Scope f_SubscriptionManager_stopPublishingAllSubscriptions (
     Exit Leave)) (Done) (
    Done)) (
   Done))) (
  Done).

(** /repo/server/server.go 308-309 Server.ListenAndServe.go1 *)
Definition f_Server_ListenAndServe_go1 : prog aop :=
  Do (L (Wt "channel srv.closing"%string)) (
  Done).

(** /repo/server/server_secure_channel.go 1589-1620 serverSecureChannel.read *)
Definition f_serverSecureChannel_read : prog aop :=
  If "ch.conn == nil"%string (
   Exit Leave) (Done) (
  Loop (
   Do (L (Wt "network read"%string)) (
   If "err != nil || n == 0"%string (
    Exit Leave) (Done) (
   Done))) (
  If "count > cap(p)"%string (
   Exit Leave) (Done) (
  Loop (
   Do (L (Wt "network read"%string)) (
   If "err != nil || n == 0"%string (
    Exit Leave) (Done) (
   Done))) (
  Done)))).

(** /repo/server/server_secure_channel.go 1623-1628 serverSecureChannel.write *)
Definition f_serverSecureChannel_write : prog aop :=
  If "ch.conn == nil"%string (
   Exit Leave) (Done) (
  Do (L (Wt "network write"%string)) (
  Done)).

(** /repo/server/server_secure_channel.go 152-154 serverSecureChannel.NamespaceURIs *)
Definition f_serverSecureChannel_NamespaceURIs : prog aop :=
  Scope f_Server_NamespaceUris (
  Done).

(** /repo/server/server_secure_channel.go 1028-1467 serverSecureChannel.readRequest *)
Definition f_serverSecureChannel_readRequest : prog aop :=
  Do (L (Lk Ex KReceiving)) (
  Scope (
   Loop (
    If "i > 0 && chunkCount > i"%string (
     Exit Leave) (Done) (
    Scope f_serverSecureChannel_read (
    If "err != nil || count == 0"%string (
     Exit Leave) (Done) (
    If "expanded node id"%string (
     Scope f_serverSecureChannel_NamespaceURIs (
     Done)) (Done) (
    If "err != nil"%string (
     Exit Leave) (Done) (
    If "expanded node id"%string (
     Scope f_serverSecureChannel_NamespaceURIs (
     Done)) (Done) (
    If "err != nil"%string (
     Exit Leave) (Done) (
    If "count != int(messageLength)"%string (
     Exit Leave) (Done) (
    If "case ua.MessageTypeChunk, ua.MessageTypeFinal, ua.MessageTyp"%string (
     If "expanded node id"%string (
      Scope f_serverSecureChannel_NamespaceURIs (
      Done)) (Done) (
     If "err != nil"%string (
      Exit Leave) (Done) (
     If "channelID != ch.channelID"%string (
      Exit Leave) (Done) (
     If "expanded node id"%string (
      Scope f_serverSecureChannel_NamespaceURIs (
      Done)) (Done) (
     If "err != nil"%string (
      Exit Leave) (Done) (
     Do (Rd [KReceiving] KChannel "tokenID"%string) (
     If "ch.tokenID != newTokenID"%string (
      If "newTokenID != ch.pendingTokenID"%string (
       Exit Leave) (Done) (
      Do (Wr [KReceiving] KChannel "tokenID"%string) (
      If "ch.securityMode == ua.MessageSecurityModeSignAndEncrypt || c"%string (
       Do (Wr [KReceiving] KChannel "remoteSigningKey"%string) (
       Do (Wr [KReceiving] KChannel "remoteEncryptingKey"%string) (
       Do (Wr [KReceiving] KChannel "remoteInitializationVector"%string) (
       Do (Rd [KReceiving] KChannel "remoteSigningKey"%string) (
       Do (Rd [KReceiving] KChannel "remoteEncryptingKey"%string) (
       Do (Rd [KReceiving] KChannel "remoteInitializationVector"%string) (
       Do (Wr [KReceiving] KChannel "symVerifyHMAC"%string) (
       If "ch.securityMode == ua.MessageSecurityModeSignAndEncrypt"%string (
        Do (Rd [KReceiving] KChannel "remoteEncryptingKey"%string) (
        If "err == nil"%string (
         Do (Wr [KReceiving] KChannel "symDecryptingBlockCipher"%string) (
         Done)) (Exit Leave) (
        Done))) (Done) (
       Done))))))))) (Done) (
      Do (L (Lk Ex KSending)) (
      If "ch.securityMode == ua.MessageSecurityModeSignAndEncrypt || c"%string (
       Do (Wr [KSending; KReceiving] KChannel "localSigningKey"%string) (
       Do (Wr [KSending; KReceiving] KChannel "localEncryptingKey"%string) (
       Do (Wr [KSending; KReceiving] KChannel "localInitializationVector"%string) (
       Do (Rd [KSending; KReceiving] KChannel "localSigningKey"%string) (
       Do (Rd [KSending; KReceiving] KChannel "localEncryptingKey"%string) (
       Do (Rd [KSending; KReceiving] KChannel "localInitializationVector"%string) (
       Do (Wr [KSending; KReceiving] KChannel "symSignHMAC"%string) (
       If "ch.securityMode == ua.MessageSecurityModeSignAndEncrypt"%string (
        Do (Rd [KSending; KReceiving] KChannel "localEncryptingKey"%string) (
        If "err == nil"%string (
         Do (Wr [KSending; KReceiving] KChannel "symEncryptingBlockCipher"%string) (
         Done)) (Do (L (Un Ex KSending)) (
         Exit Leave)) (
        Done))) (Done) (
       Done))))))))) (Done) (
      Do (L (Un Ex KSending)) (
      Done))))))) (Done) (
     If "ch.securityMode == ua.MessageSecurityModeSignAndEncrypt"%string (
      Do (Rd [KReceiving] KChannel "symDecryptingBlockCipher"%string) (
      If "len(span)%ch.symDecryptingBlockCipher.BlockSize() != 0"%string (
       Exit Leave) (Done) (
      Do (Rd [KReceiving] KChannel "symDecryptingBlockCipher"%string) (
      Do (Rd [KReceiving] KChannel "remoteInitializationVector"%string) (
      Done))))) (Done) (
     If "ch.securityMode == ua.MessageSecurityModeSignAndEncrypt || c"%string (
      Do (Wr [KReceiving] KChannel "symVerifyHMAC"%string) (
      If "err != nil"%string (
       Exit Leave) (Done) (
      Do (Wr [KReceiving] KChannel "symVerifyHMAC"%string) (
      If "!hmac.Equal(sig, ch.receiveBuffer[sigStart:sigEnd])"%string (
       Exit Leave) (Done) (
      Done))))) (Done) (
     If "expanded node id"%string (
      Scope f_serverSecureChannel_NamespaceURIs (
      Done)) (Done) (
     If "err != nil"%string (
      Exit Leave) (Done) (
     If "expanded node id"%string (
      Scope f_serverSecureChannel_NamespaceURIs (
      Done)) (Done) (
     If "err != nil"%string (
      Exit Leave) (Done) (
     If "err != nil"%string (
      Exit Leave) (Done) (
     Done))))))))))))))) (If "case ua.MessageTypeOpenFinal"%string (
      If "expanded node id"%string (
       Scope f_serverSecureChannel_NamespaceURIs (
       Done)) (Done) (
      If "err != nil"%string (
       Exit Leave) (Done) (
      If "expanded node id"%string (
       Scope f_serverSecureChannel_NamespaceURIs (
       Done)) (Done) (
      If "err != nil"%string (
       Exit Leave) (Done) (
      If "expanded node id"%string (
       Scope f_serverSecureChannel_NamespaceURIs (
       Done)) (Done) (
      If "err != nil"%string (
       Exit Leave) (Done) (
      If "expanded node id"%string (
       Scope f_serverSecureChannel_NamespaceURIs (
       Done)) (Done) (
      If "err != nil"%string (
       Exit Leave) (Done) (
      If "case ua.SecurityPolicyURINone"%string (
       Done) (If "case ua.SecurityPolicyURIBasic128Rsa15"%string (
        Done) (If "case ua.SecurityPolicyURIBasic256"%string (
         Done) (If "case ua.SecurityPolicyURIBasic256Sha256"%string (
          Done) (If "case ua.SecurityPolicyURIAes128Sha256RsaOaep"%string (
           Done) (If "case ua.SecurityPolicyURIAes256Sha256RsaPss"%string (
            Done) (Exit Leave) (
           Done)) (
          Done)) (
         Done)) (
        Done)) (
       Done)) (
      If "ch.securityPolicyURI != ua.SecurityPolicyURINone"%string (
       If "ch.localCertificate == nil"%string (
        Exit Leave) (Done) (
       If "ch.localPrivateKey == nil"%string (
        Exit Leave) (Done) (
       If "ch.remoteCertificate == nil"%string (
        Exit Leave) (Done) (
       If "ch.remotePublicKey == nil"%string (
        Exit Leave) (Done) (
       Loop (
        If "err != nil"%string (
         Exit Leave) (Done) (
        Done)) (
       Done)))))) (Done) (
      If "ch.securityPolicyURI != ua.SecurityPolicyURINone"%string (
       If "err != nil"%string (
        Exit Leave) (Done) (
       Done)) (Done) (
      If "expanded node id"%string (
       Scope f_serverSecureChannel_NamespaceURIs (
       Done)) (Done) (
      If "err != nil"%string (
       Exit Leave) (Done) (
      If "expanded node id"%string (
       Scope f_serverSecureChannel_NamespaceURIs (
       Done)) (Done) (
      If "err != nil"%string (
       Exit Leave) (Done) (
      If "err != nil"%string (
       Exit Leave) (Done) (
      Done))))))))))))))))) (If "case ua.MessageTypeError, ua.MessageTypeAbort"%string (
       If "expanded node id"%string (
        Scope f_serverSecureChannel_NamespaceURIs (
        Done)) (Done) (
       If "err != nil"%string (
        Exit Leave) (Done) (
       If "expanded node id"%string (
        Scope f_serverSecureChannel_NamespaceURIs (
        Done)) (Done) (
       Exit Leave)))) (Exit Leave) (
      Done)) (
     Done)) (
    If "i > 0 && bodyStream.Len() > i"%string (
     Exit Leave) (Done) (
    Done))))))))))) (
   If "expanded node id"%string (
    Scope f_serverSecureChannel_NamespaceURIs (
    Done)) (Done) (
   If "err != nil"%string (
    Exit Leave) (Done) (
   If "case ua.ObjectIDPublishRequestEncodingDefaultBinary"%string (
    Done) (If "case ua.ObjectIDReadRequestEncodingDefaultBinary"%string (
     Done) (If "case ua.ObjectIDBrowseRequestEncodingDefaultBinary"%string (
      Done) (If "case ua.ObjectIDBrowseNextRequestEncodingDefaultBinary"%string (
       Done) (If "case ua.ObjectIDTranslateBrowsePathsToNodeIDsRequestEncoding"%string (
        Done) (If "case ua.ObjectIDWriteRequestEncodingDefaultBinary"%string (
         Done) (If "case ua.ObjectIDCallRequestEncodingDefaultBinary"%string (
          Done) (If "case ua.ObjectIDHistoryReadRequestEncodingDefaultBinary"%string (
           Done) (If "case ua.ObjectIDGetEndpointsRequestEncodingDefaultBinary"%string (
            Done) (If "case ua.ObjectIDOpenSecureChannelRequestEncodingDefaultBinar"%string (
             Done) (If "case ua.ObjectIDCloseSecureChannelRequestEncodingDefaultBina"%string (
              Done) (If "case ua.ObjectIDCreateSessionRequestEncodingDefaultBinary"%string (
               Done) (If "case ua.ObjectIDActivateSessionRequestEncodingDefaultBinary"%string (
                Done) (If "case ua.ObjectIDCloseSessionRequestEncodingDefaultBinary"%string (
                 Done) (If "case ua.ObjectIDCreateMonitoredItemsRequestEncodingDefaultBi"%string (
                  Done) (If "case ua.ObjectIDDeleteMonitoredItemsRequestEncodingDefaultBi"%string (
                   Done) (If "case ua.ObjectIDCreateSubscriptionRequestEncodingDefaultBina"%string (
                    Done) (If "case ua.ObjectIDDeleteSubscriptionsRequestEncodingDefaultBin"%string (
                     Done) (If "case ua.ObjectIDSetPublishingModeRequestEncodingDefaultBinar"%string (
                      Done) (If "case ua.ObjectIDModifyMonitoredItemsRequestEncodingDefaultBi"%string (
                       Done) (If "case ua.ObjectIDSetMonitoringModeRequestEncodingDefaultBinar"%string (
                        Done) (If "case ua.ObjectIDSetTriggeringRequestEncodingDefaultBinary"%string (
                         Done) (If "case ua.ObjectIDModifySubscriptionRequestEncodingDefaultBina"%string (
                          Done) (If "case ua.ObjectIDRepublishRequestEncodingDefaultBinary"%string (
                           Done) (If "case ua.ObjectIDTransferSubscriptionsRequestEncodingDefaultB"%string (
                            Done) (If "case ua.ObjectIDFindServersRequestEncodingDefaultBinary"%string (
                             Done) (If "case ua.ObjectIDFindServersOnNetworkRequestEncodingDefaultBi"%string (
                              Done) (If "case ua.ObjectIDRegisterServerRequestEncodingDefaultBinary"%string (
                               Done) (If "case ua.ObjectIDRegisterServer2RequestEncodingDefaultBinary"%string (
                                Done) (If "case ua.ObjectIDCancelRequestEncodingDefaultBinary"%string (
                                 Done) (If "case ua.ObjectIDAddNodesRequestEncodingDefaultBinary"%string (
                                  Done) (If "case ua.ObjectIDAddReferencesRequestEncodingDefaultBinary"%string (
                                   Done) (If "case ua.ObjectIDDeleteNodesRequestEncodingDefaultBinary"%string (
                                    Done) (If "case ua.ObjectIDDeleteReferencesRequestEncodingDefaultBinary"%string (
                                     Done) (If "case ua.ObjectIDRegisterNodesRequestEncodingDefaultBinary"%string (
                                      Done) (If "case ua.ObjectIDUnregisterNodesRequestEncodingDefaultBinary"%string (
                                       Done) (If "case ua.ObjectIDQueryFirstRequestEncodingDefaultBinary"%string (
                                        Done) (If "case ua.ObjectIDQueryNextRequestEncodingDefaultBinary"%string (
                                         Done) (If "case ua.ObjectIDHistoryUpdateRequestEncodingDefaultBinary"%string (
                                          Done) (Exit Leave) (
                                         Done)) (
                                        Done)) (
                                       Done)) (
                                      Done)) (
                                     Done)) (
                                    Done)) (
                                   Done)) (
                                  Done)) (
                                 Done)) (
                                Done)) (
                               Done)) (
                              Done)) (
                             Done)) (
                            Done)) (
                           Done)) (
                          Done)) (
                         Done)) (
                        Done)) (
                       Done)) (
                      Done)) (
                     Done)) (
                    Done)) (
                   Done)) (
                  Done)) (
                 Done)) (
                Done)) (
               Done)) (
              Done)) (
             Done)) (
            Done)) (
           Done)) (
          Done)) (
         Done)) (
        Done)) (
       Done)) (
      Done)) (
     Done)) (
    Done)) (
   If "expanded node id"%string (
    Scope f_serverSecureChannel_NamespaceURIs (
    Done)) (Done) (
   Exit Leave)))))) (
  Do (L (Un Ex KReceiving)) (
  Done))).

(** /repo/server/server.go 161-165 Server.LocalCertificate *)
Definition f_Server_LocalCertificate : prog aop :=
  Do (L (Lk Sh KServer)) (
  Do (L (Un Sh KServer)) (
  Done)).

(** /repo/server/server.go 961-1074 Server.buildEndpointDescriptions *)
Definition f_Server_buildEndpointDescriptions : prog aop :=
  If "srv.allowSecurityPolicyNone"%string (
   Scope f_Server_LocalCertificate (
   Done)) (Done) (
  Loop (
   Scope f_Server_LocalCertificate (
   Done)) (
  Loop (
   Scope f_Server_LocalCertificate (
   Done)) (
  Done))).

(** /repo/server/server.go 175-182 Server.Endpoints *)
Definition f_Server_Endpoints : prog aop :=
  Do (L (Lk Sh KServer)) (
  Scope (
   Do (Rd [KServer] KServer "endpoints"%string) (
   If "srv.endpoints == nil"%string (
    Scope f_Server_buildEndpointDescriptions (
    Do (Wr [KServer] KServer "endpoints"%string) (
    Done))) (Done) (
   Do (Rd [KServer] KServer "endpoints"%string) (
   Exit Leave)))) (
  Do (L (Un Sh KServer)) (
  Done))).

(** /repo/server/server_secure_channel.go 432-616 serverSecureChannel.sendOpenSecureChannelResponse *)
Definition f_serverSecureChannel_sendOpenSecureChannelResponse : prog aop :=
  Do (L (Lk Ex KSending)) (
  Scope (
   If "expanded node id"%string (
    Scope f_serverSecureChannel_NamespaceURIs (
    Done)) (Done) (
   If "err != nil"%string (
    Exit Leave) (Done) (
   If "expanded node id"%string (
    Scope f_serverSecureChannel_NamespaceURIs (
    Done)) (Done) (
   If "err != nil"%string (
    Exit Leave) (Done) (
   If "i > 0 && bodyStream.Len() > i"%string (
    Exit Leave) (Done) (
   Loop (
    If "i > 0 && chunkCount > i"%string (
     Exit Leave) (Done) (
    If "expanded node id"%string (
     Scope f_serverSecureChannel_NamespaceURIs (
     Done)) (Done) (
    If "expanded node id"%string (
     Scope f_serverSecureChannel_NamespaceURIs (
     Done)) (Done) (
    If "expanded node id"%string (
     Scope f_serverSecureChannel_NamespaceURIs (
     Done)) (Done) (
    If "expanded node id"%string (
     Scope f_serverSecureChannel_NamespaceURIs (
     Done)) (Done) (
    If "expanded node id"%string (
     Scope f_serverSecureChannel_NamespaceURIs (
     Done)) (Done) (
    If "expanded node id"%string (
     Scope f_serverSecureChannel_NamespaceURIs (
     Done)) (Done) (
    If "plainHeaderSize != stream.Len()"%string (
     Exit Leave) (Done) (
    If "expanded node id"%string (
     Scope f_serverSecureChannel_NamespaceURIs (
     Done)) (Done) (
    If "expanded node id"%string (
     Scope f_serverSecureChannel_NamespaceURIs (
     Done)) (Done) (
    If "err != nil"%string (
     Exit Leave) (Done) (
    If "ch.securityMode == ua.MessageSecurityModeSignAndEncrypt || c"%string (
     If "expanded node id"%string (
      Scope f_serverSecureChannel_NamespaceURIs (
      Done)) (Done) (
     Loop (
      If "expanded node id"%string (
       Scope f_serverSecureChannel_NamespaceURIs (
       Done)) (Done) (
      Done)) (
     If "paddingHeaderSize == 2"%string (
      If "expanded node id"%string (
       Scope f_serverSecureChannel_NamespaceURIs (
       Done)) (Done) (
      Done)) (Done) (
     Done)))) (Done) (
    If "bodyCount > 0"%string (
     Exit Leave) (Done) (
    If "ch.securityMode == ua.MessageSecurityModeSignAndEncrypt || c"%string (
     If "err != nil"%string (
      Exit Leave) (Done) (
     If "len(signature) != signatureSize"%string (
      Exit Leave) (Done) (
     If "err != nil"%string (
      Exit Leave) (Done) (
     Done)))) (Done) (
    If "ch.securityMode == ua.MessageSecurityModeSignAndEncrypt || c"%string (
     Loop (
      If "err != nil"%string (
       Exit Leave) (Done) (
      If "len(cipherText) != cipherTextBlockSize"%string (
       Exit Leave) (Done) (
      Done))) (
     If "jj != chunkSize"%string (
      Exit Leave) (Done) (
     Scope f_serverSecureChannel_write (
     If "err != nil"%string (
      Exit Leave) (Done) (
     Done))))) (If "stream.Len() != chunkSize"%string (
      Exit Leave) (Done) (
     Scope f_serverSecureChannel_write (
     If "err != nil"%string (
      Exit Leave) (Done) (
     Done)))) (
    Done)))))))))))))))) (
   Exit Leave))))))) (
  Do (L (Un Ex KSending)) (
  Done))).

(** /repo/server/server_secure_channel.go 619-1025 serverSecureChannel.sendServiceResponse *)
Definition f_serverSecureChannel_sendServiceResponse : prog aop :=
  Do (L (Lk Ex KSending)) (
  Scope (
   If "case *ua.PublishResponse"%string (
    If "expanded node id"%string (
     Scope f_serverSecureChannel_NamespaceURIs (
     Done)) (Done) (
    If "err != nil"%string (
     Exit Leave) (Done) (
    If "expanded node id"%string (
     Scope f_serverSecureChannel_NamespaceURIs (
     Done)) (Done) (
    If "err != nil"%string (
     Exit Leave) (Done) (
    Done))))) (If "case *ua.ReadResponse"%string (
     If "expanded node id"%string (
      Scope f_serverSecureChannel_NamespaceURIs (
      Done)) (Done) (
     If "err != nil"%string (
      Exit Leave) (Done) (
     If "expanded node id"%string (
      Scope f_serverSecureChannel_NamespaceURIs (
      Done)) (Done) (
     If "err != nil"%string (
      Exit Leave) (Done) (
     Done))))) (If "case *ua.BrowseResponse"%string (
      If "expanded node id"%string (
       Scope f_serverSecureChannel_NamespaceURIs (
       Done)) (Done) (
      If "err != nil"%string (
       Exit Leave) (Done) (
      If "expanded node id"%string (
       Scope f_serverSecureChannel_NamespaceURIs (
       Done)) (Done) (
      If "err != nil"%string (
       Exit Leave) (Done) (
      Done))))) (If "case *ua.BrowseNextResponse"%string (
       If "expanded node id"%string (
        Scope f_serverSecureChannel_NamespaceURIs (
        Done)) (Done) (
       If "err != nil"%string (
        Exit Leave) (Done) (
       If "expanded node id"%string (
        Scope f_serverSecureChannel_NamespaceURIs (
        Done)) (Done) (
       If "err != nil"%string (
        Exit Leave) (Done) (
       Done))))) (If "case *ua.TranslateBrowsePathsToNodeIDsResponse"%string (
        If "expanded node id"%string (
         Scope f_serverSecureChannel_NamespaceURIs (
         Done)) (Done) (
        If "err != nil"%string (
         Exit Leave) (Done) (
        If "expanded node id"%string (
         Scope f_serverSecureChannel_NamespaceURIs (
         Done)) (Done) (
        If "err != nil"%string (
         Exit Leave) (Done) (
        Done))))) (If "case *ua.WriteResponse"%string (
         If "expanded node id"%string (
          Scope f_serverSecureChannel_NamespaceURIs (
          Done)) (Done) (
         If "err != nil"%string (
          Exit Leave) (Done) (
         If "expanded node id"%string (
          Scope f_serverSecureChannel_NamespaceURIs (
          Done)) (Done) (
         If "err != nil"%string (
          Exit Leave) (Done) (
         Done))))) (If "case *ua.CallResponse"%string (
          If "expanded node id"%string (
           Scope f_serverSecureChannel_NamespaceURIs (
           Done)) (Done) (
          If "err != nil"%string (
           Exit Leave) (Done) (
          If "expanded node id"%string (
           Scope f_serverSecureChannel_NamespaceURIs (
           Done)) (Done) (
          If "err != nil"%string (
           Exit Leave) (Done) (
          Done))))) (If "case *ua.HistoryReadResponse"%string (
           If "expanded node id"%string (
            Scope f_serverSecureChannel_NamespaceURIs (
            Done)) (Done) (
           If "err != nil"%string (
            Exit Leave) (Done) (
           If "expanded node id"%string (
            Scope f_serverSecureChannel_NamespaceURIs (
            Done)) (Done) (
           If "err != nil"%string (
            Exit Leave) (Done) (
           Done))))) (If "case *ua.GetEndpointsResponse"%string (
            If "expanded node id"%string (
             Scope f_serverSecureChannel_NamespaceURIs (
             Done)) (Done) (
            If "err != nil"%string (
             Exit Leave) (Done) (
            If "expanded node id"%string (
             Scope f_serverSecureChannel_NamespaceURIs (
             Done)) (Done) (
            If "err != nil"%string (
             Exit Leave) (Done) (
            Done))))) (If "case *ua.CreateSessionResponse"%string (
             If "expanded node id"%string (
              Scope f_serverSecureChannel_NamespaceURIs (
              Done)) (Done) (
             If "err != nil"%string (
              Exit Leave) (Done) (
             If "expanded node id"%string (
              Scope f_serverSecureChannel_NamespaceURIs (
              Done)) (Done) (
             If "err != nil"%string (
              Exit Leave) (Done) (
             Done))))) (If "case *ua.ActivateSessionResponse"%string (
              If "expanded node id"%string (
               Scope f_serverSecureChannel_NamespaceURIs (
               Done)) (Done) (
              If "err != nil"%string (
               Exit Leave) (Done) (
              If "expanded node id"%string (
               Scope f_serverSecureChannel_NamespaceURIs (
               Done)) (Done) (
              If "err != nil"%string (
               Exit Leave) (Done) (
              Done))))) (If "case *ua.CloseSessionResponse"%string (
               If "expanded node id"%string (
                Scope f_serverSecureChannel_NamespaceURIs (
                Done)) (Done) (
               If "err != nil"%string (
                Exit Leave) (Done) (
               If "expanded node id"%string (
                Scope f_serverSecureChannel_NamespaceURIs (
                Done)) (Done) (
               If "err != nil"%string (
                Exit Leave) (Done) (
               Done))))) (If "case *ua.CreateMonitoredItemsResponse"%string (
                If "expanded node id"%string (
                 Scope f_serverSecureChannel_NamespaceURIs (
                 Done)) (Done) (
                If "err != nil"%string (
                 Exit Leave) (Done) (
                If "expanded node id"%string (
                 Scope f_serverSecureChannel_NamespaceURIs (
                 Done)) (Done) (
                If "err != nil"%string (
                 Exit Leave) (Done) (
                Done))))) (If "case *ua.DeleteMonitoredItemsResponse"%string (
                 If "expanded node id"%string (
                  Scope f_serverSecureChannel_NamespaceURIs (
                  Done)) (Done) (
                 If "err != nil"%string (
                  Exit Leave) (Done) (
                 If "expanded node id"%string (
                  Scope f_serverSecureChannel_NamespaceURIs (
                  Done)) (Done) (
                 If "err != nil"%string (
                  Exit Leave) (Done) (
                 Done))))) (If "case *ua.CreateSubscriptionResponse"%string (
                  If "expanded node id"%string (
                   Scope f_serverSecureChannel_NamespaceURIs (
                   Done)) (Done) (
                  If "err != nil"%string (
                   Exit Leave) (Done) (
                  If "expanded node id"%string (
                   Scope f_serverSecureChannel_NamespaceURIs (
                   Done)) (Done) (
                  If "err != nil"%string (
                   Exit Leave) (Done) (
                  Done))))) (If "case *ua.DeleteSubscriptionsResponse"%string (
                   If "expanded node id"%string (
                    Scope f_serverSecureChannel_NamespaceURIs (
                    Done)) (Done) (
                   If "err != nil"%string (
                    Exit Leave) (Done) (
                   If "expanded node id"%string (
                    Scope f_serverSecureChannel_NamespaceURIs (
                    Done)) (Done) (
                   If "err != nil"%string (
                    Exit Leave) (Done) (
                   Done))))) (If "case *ua.SetPublishingModeResponse"%string (
                    If "expanded node id"%string (
                     Scope f_serverSecureChannel_NamespaceURIs (
                     Done)) (Done) (
                    If "err != nil"%string (
                     Exit Leave) (Done) (
                    If "expanded node id"%string (
                     Scope f_serverSecureChannel_NamespaceURIs (
                     Done)) (Done) (
                    If "err != nil"%string (
                     Exit Leave) (Done) (
                    Done))))) (If "case *ua.ServiceFault"%string (
                     If "expanded node id"%string (
                      Scope f_serverSecureChannel_NamespaceURIs (
                      Done)) (Done) (
                     If "err != nil"%string (
                      Exit Leave) (Done) (
                     If "expanded node id"%string (
                      Scope f_serverSecureChannel_NamespaceURIs (
                      Done)) (Done) (
                     If "err != nil"%string (
                      Exit Leave) (Done) (
                     Done))))) (If "case *ua.ModifyMonitoredItemsResponse"%string (
                      If "expanded node id"%string (
                       Scope f_serverSecureChannel_NamespaceURIs (
                       Done)) (Done) (
                      If "err != nil"%string (
                       Exit Leave) (Done) (
                      If "expanded node id"%string (
                       Scope f_serverSecureChannel_NamespaceURIs (
                       Done)) (Done) (
                      If "err != nil"%string (
                       Exit Leave) (Done) (
                      Done))))) (If "case *ua.SetMonitoringModeResponse"%string (
                       If "expanded node id"%string (
                        Scope f_serverSecureChannel_NamespaceURIs (
                        Done)) (Done) (
                       If "err != nil"%string (
                        Exit Leave) (Done) (
                       If "expanded node id"%string (
                        Scope f_serverSecureChannel_NamespaceURIs (
                        Done)) (Done) (
                       If "err != nil"%string (
                        Exit Leave) (Done) (
                       Done))))) (If "case *ua.SetTriggeringResponse"%string (
                        If "expanded node id"%string (
                         Scope f_serverSecureChannel_NamespaceURIs (
                         Done)) (Done) (
                        If "err != nil"%string (
                         Exit Leave) (Done) (
                        If "expanded node id"%string (
                         Scope f_serverSecureChannel_NamespaceURIs (
                         Done)) (Done) (
                        If "err != nil"%string (
                         Exit Leave) (Done) (
                        Done))))) (If "case *ua.ModifySubscriptionResponse"%string (
                         If "expanded node id"%string (
                          Scope f_serverSecureChannel_NamespaceURIs (
                          Done)) (Done) (
                         If "err != nil"%string (
                          Exit Leave) (Done) (
                         If "expanded node id"%string (
                          Scope f_serverSecureChannel_NamespaceURIs (
                          Done)) (Done) (
                         If "err != nil"%string (
                          Exit Leave) (Done) (
                         Done))))) (If "case *ua.RepublishResponse"%string (
                          If "expanded node id"%string (
                           Scope f_serverSecureChannel_NamespaceURIs (
                           Done)) (Done) (
                          If "err != nil"%string (
                           Exit Leave) (Done) (
                          If "expanded node id"%string (
                           Scope f_serverSecureChannel_NamespaceURIs (
                           Done)) (Done) (
                          If "err != nil"%string (
                           Exit Leave) (Done) (
                          Done))))) (If "case *ua.TransferSubscriptionsResponse"%string (
                           If "expanded node id"%string (
                            Scope f_serverSecureChannel_NamespaceURIs (
                            Done)) (Done) (
                           If "err != nil"%string (
                            Exit Leave) (Done) (
                           If "expanded node id"%string (
                            Scope f_serverSecureChannel_NamespaceURIs (
                            Done)) (Done) (
                           If "err != nil"%string (
                            Exit Leave) (Done) (
                           Done))))) (If "case *ua.FindServersResponse"%string (
                            If "expanded node id"%string (
                             Scope f_serverSecureChannel_NamespaceURIs (
                             Done)) (Done) (
                            If "err != nil"%string (
                             Exit Leave) (Done) (
                            If "expanded node id"%string (
                             Scope f_serverSecureChannel_NamespaceURIs (
                             Done)) (Done) (
                            If "err != nil"%string (
                             Exit Leave) (Done) (
                            Done))))) (If "case *ua.FindServersOnNetworkResponse"%string (
                             If "expanded node id"%string (
                              Scope f_serverSecureChannel_NamespaceURIs (
                              Done)) (Done) (
                             If "err != nil"%string (
                              Exit Leave) (Done) (
                             If "expanded node id"%string (
                              Scope f_serverSecureChannel_NamespaceURIs (
                              Done)) (Done) (
                             If "err != nil"%string (
                              Exit Leave) (Done) (
                             Done))))) (If "case *ua.RegisterServerResponse"%string (
                              If "expanded node id"%string (
                               Scope f_serverSecureChannel_NamespaceURIs (
                               Done)) (Done) (
                              If "err != nil"%string (
                               Exit Leave) (Done) (
                              If "expanded node id"%string (
                               Scope f_serverSecureChannel_NamespaceURIs (
                               Done)) (Done) (
                              If "err != nil"%string (
                               Exit Leave) (Done) (
                              Done))))) (If "case *ua.RegisterServer2Response"%string (
                               If "expanded node id"%string (
                                Scope f_serverSecureChannel_NamespaceURIs (
                                Done)) (Done) (
                               If "err != nil"%string (
                                Exit Leave) (Done) (
                               If "expanded node id"%string (
                                Scope f_serverSecureChannel_NamespaceURIs (
                                Done)) (Done) (
                               If "err != nil"%string (
                                Exit Leave) (Done) (
                               Done))))) (If "case *ua.CancelResponse"%string (
                                If "expanded node id"%string (
                                 Scope f_serverSecureChannel_NamespaceURIs (
                                 Done)) (Done) (
                                If "err != nil"%string (
                                 Exit Leave) (Done) (
                                If "expanded node id"%string (
                                 Scope f_serverSecureChannel_NamespaceURIs (
                                 Done)) (Done) (
                                If "err != nil"%string (
                                 Exit Leave) (Done) (
                                Done))))) (If "case *ua.AddNodesResponse"%string (
                                 If "expanded node id"%string (
                                  Scope f_serverSecureChannel_NamespaceURIs (
                                  Done)) (Done) (
                                 If "err != nil"%string (
                                  Exit Leave) (Done) (
                                 If "expanded node id"%string (
                                  Scope f_serverSecureChannel_NamespaceURIs (
                                  Done)) (Done) (
                                 If "err != nil"%string (
                                  Exit Leave) (Done) (
                                 Done))))) (If "case *ua.AddReferencesResponse"%string (
                                  If "expanded node id"%string (
                                   Scope f_serverSecureChannel_NamespaceURIs (
                                   Done)) (Done) (
                                  If "err != nil"%string (
                                   Exit Leave) (Done) (
                                  If "expanded node id"%string (
                                   Scope f_serverSecureChannel_NamespaceURIs (
                                   Done)) (Done) (
                                  If "err != nil"%string (
                                   Exit Leave) (Done) (
                                  Done))))) (If "case *ua.DeleteNodesResponse"%string (
                                   If "expanded node id"%string (
                                    Scope f_serverSecureChannel_NamespaceURIs (
                                    Done)) (Done) (
                                   If "err != nil"%string (
                                    Exit Leave) (Done) (
                                   If "expanded node id"%string (
                                    Scope f_serverSecureChannel_NamespaceURIs (
                                    Done)) (Done) (
                                   If "err != nil"%string (
                                    Exit Leave) (Done) (
                                   Done))))) (If "case *ua.DeleteReferencesResponse"%string (
                                    If "expanded node id"%string (
                                     Scope f_serverSecureChannel_NamespaceURIs (
                                     Done)) (Done) (
                                    If "err != nil"%string (
                                     Exit Leave) (Done) (
                                    If "expanded node id"%string (
                                     Scope f_serverSecureChannel_NamespaceURIs (
                                     Done)) (Done) (
                                    If "err != nil"%string (
                                     Exit Leave) (Done) (
                                    Done))))) (If "case *ua.RegisterNodesResponse"%string (
                                     If "expanded node id"%string (
                                      Scope f_serverSecureChannel_NamespaceURIs (
                                      Done)) (Done) (
                                     If "err != nil"%string (
                                      Exit Leave) (Done) (
                                     If "expanded node id"%string (
                                      Scope f_serverSecureChannel_NamespaceURIs (
                                      Done)) (Done) (
                                     If "err != nil"%string (
                                      Exit Leave) (Done) (
                                     Done))))) (If "case *ua.UnregisterNodesResponse"%string (
                                      If "expanded node id"%string (
                                       Scope f_serverSecureChannel_NamespaceURIs (
                                       Done)) (Done) (
                                      If "err != nil"%string (
                                       Exit Leave) (Done) (
                                      If "expanded node id"%string (
                                       Scope f_serverSecureChannel_NamespaceURIs (
                                       Done)) (Done) (
                                      If "err != nil"%string (
                                       Exit Leave) (Done) (
                                      Done))))) (If "case *ua.QueryFirstResponse"%string (
                                       If "expanded node id"%string (
                                        Scope f_serverSecureChannel_NamespaceURIs (
                                        Done)) (Done) (
                                       If "err != nil"%string (
                                        Exit Leave) (Done) (
                                       If "expanded node id"%string (
                                        Scope f_serverSecureChannel_NamespaceURIs (
                                        Done)) (Done) (
                                       If "err != nil"%string (
                                        Exit Leave) (Done) (
                                       Done))))) (If "case *ua.QueryNextResponse"%string (
                                        If "expanded node id"%string (
                                         Scope f_serverSecureChannel_NamespaceURIs (
                                         Done)) (Done) (
                                        If "err != nil"%string (
                                         Exit Leave) (Done) (
                                        If "expanded node id"%string (
                                         Scope f_serverSecureChannel_NamespaceURIs (
                                         Done)) (Done) (
                                        If "err != nil"%string (
                                         Exit Leave) (Done) (
                                        Done))))) (If "case *ua.HistoryUpdateResponse"%string (
                                         If "expanded node id"%string (
                                          Scope f_serverSecureChannel_NamespaceURIs (
                                          Done)) (Done) (
                                         If "err != nil"%string (
                                          Exit Leave) (Done) (
                                         If "expanded node id"%string (
                                          Scope f_serverSecureChannel_NamespaceURIs (
                                          Done)) (Done) (
                                         If "err != nil"%string (
                                          Exit Leave) (Done) (
                                         Done))))) (Exit Leave) (
                                        Done)) (
                                       Done)) (
                                      Done)) (
                                     Done)) (
                                    Done)) (
                                   Done)) (
                                  Done)) (
                                 Done)) (
                                Done)) (
                               Done)) (
                              Done)) (
                             Done)) (
                            Done)) (
                           Done)) (
                          Done)) (
                         Done)) (
                        Done)) (
                       Done)) (
                      Done)) (
                     Done)) (
                    Done)) (
                   Done)) (
                  Done)) (
                 Done)) (
                Done)) (
               Done)) (
              Done)) (
             Done)) (
            Done)) (
           Done)) (
          Done)) (
         Done)) (
        Done)) (
       Done)) (
      Done)) (
     Done)) (
    Done)) (
   If "i > 0 && bodyStream.Len() > i"%string (
    Exit Leave) (Done) (
   Loop (
    If "i > 0 && chunkCount > i"%string (
     Exit Leave) (Done) (
    If "expanded node id"%string (
     Scope f_serverSecureChannel_NamespaceURIs (
     Done)) (Done) (
    If "expanded node id"%string (
     Scope f_serverSecureChannel_NamespaceURIs (
     Done)) (Done) (
    If "expanded node id"%string (
     Scope f_serverSecureChannel_NamespaceURIs (
     Done)) (Done) (
    Do (Rd [KSending] KChannel "tokenID"%string) (
    If "expanded node id"%string (
     Scope f_serverSecureChannel_NamespaceURIs (
     Done)) (Done) (
    If "plainHeaderSize != stream.Len()"%string (
     Exit Leave) (Done) (
    If "expanded node id"%string (
     Scope f_serverSecureChannel_NamespaceURIs (
     Done)) (Done) (
    If "expanded node id"%string (
     Scope f_serverSecureChannel_NamespaceURIs (
     Done)) (Done) (
    If "err != nil"%string (
     Exit Leave) (Done) (
    If "ch.securityMode == ua.MessageSecurityModeSignAndEncrypt"%string (
     If "expanded node id"%string (
      Scope f_serverSecureChannel_NamespaceURIs (
      Done)) (Done) (
     Loop (
      If "expanded node id"%string (
       Scope f_serverSecureChannel_NamespaceURIs (
       Done)) (Done) (
      Done)) (
     If "paddingHeaderSize == 2"%string (
      If "expanded node id"%string (
       Scope f_serverSecureChannel_NamespaceURIs (
       Done)) (Done) (
      Done)) (Done) (
     Done)))) (Done) (
    If "ch.securityMode == ua.MessageSecurityModeSignAndEncrypt || c"%string (
     Do (Wr [KSending] KChannel "symSignHMAC"%string) (
     If "err != nil"%string (
      Exit Leave) (Done) (
     Do (Wr [KSending] KChannel "symSignHMAC"%string) (
     If "err != nil"%string (
      Exit Leave) (Done) (
     Done))))) (Done) (
    If "ch.securityMode == ua.MessageSecurityModeSignAndEncrypt"%string (
     Do (Rd [KSending] KChannel "symEncryptingBlockCipher"%string) (
     Do (Rd [KSending] KChannel "localInitializationVector"%string) (
     Done))) (Done) (
    Scope f_serverSecureChannel_write (
    If "err != nil"%string (
     Exit Leave) (Done) (
    Done)))))))))))))))) (
   Exit Leave)))) (
  Do (L (Un Ex KSending)) (
  Done))).

(** /repo/server/server_secure_channel.go 418-429 serverSecureChannel.Write *)
Definition f_serverSecureChannel_Write : prog aop :=
  If "case *ua.OpenSecureChannelResponse"%string (
   Scope f_serverSecureChannel_sendOpenSecureChannelResponse (
   Exit Leave)) (Scope f_serverSecureChannel_sendServiceResponse (
   Exit Leave)) (
  Done).

(** /repo/server/server_secure_channel.go 183-379 serverSecureChannel.Open *)
Definition f_serverSecureChannel_Open : prog aop :=
  Do (L (Lk Ex KChannel)) (
  Scope (
   Scope f_serverSecureChannel_read (
   If "err != nil"%string (
    Exit Leave) (Done) (
   If "err != nil"%string (
    Exit Leave) (Done) (
   If "err != nil"%string (
    Exit Leave) (Done) (
   If "case ua.MessageTypeHello"%string (
    If "msgLen < 28"%string (
     Exit Leave) (Done) (
    If "err != nil || cliProtocolVersion < protocolVersion"%string (
     Exit Leave) (Done) (
    If "err != nil"%string (
     Exit Leave) (Done) (
    If "err != nil"%string (
     Exit Leave) (Done) (
    If "err != nil"%string (
     Exit Leave) (Done) (
    If "err != nil"%string (
     Exit Leave) (Done) (
    If "err != nil"%string (
     Exit Leave) (Done) (
    Done)))))))) (Exit Leave) (
   Scope f_serverSecureChannel_write (
   If "err != nil"%string (
    Exit Leave) (Done) (
   Scope f_serverSecureChannel_readRequest (
   If "err != nil"%string (
    Exit Leave) (Done) (
   If "!ok"%string (
    Exit Leave) (Done) (
   Scope f_Server_Endpoints (
   If "ch.securityMode == ua.MessageSecurityModeSignAndEncrypt || c"%string (
    If "rc == nil"%string (
     Exit Leave) (Done) (
    If "err != nil"%string (
     Exit Leave) (Done) (
    If "err != nil"%string (
     Exit Leave) (Done) (
    Done)))) (Done) (
   Scope f_serverSecureChannel_Write (
   Exit Leave)))))))))))))) (
  Do (L (Un Ex KChannel)) (
  Done))).

(** /repo/server/server_secure_channel.go 394-415 serverSecureChannel.Abort *)
Definition f_serverSecureChannel_Abort : prog aop :=
  Do (L (Lk Ex KChannel)) (
  Scope (
   If "ch.conn != nil"%string (
    Scope f_serverSecureChannel_write (
    Done)) (Done) (
   Exit Leave)) (
  Do (L (Un Ex KChannel)) (
  Done))).

(** /repo/server/server.go 227-231 Server.SessionManager *)
Definition f_Server_SessionManager : prog aop :=
  Do (L (Lk Sh KServer)) (
  Do (L (Un Sh KServer)) (
  Done)).

(** /repo/server/session.go 244-248 Session.SetLastAccess *)
Definition f_Session_SetLastAccess : prog aop :=
  Do (L (Lk Ex KSession)) (
  Do (L (Un Ex KSession)) (
  Done)).

(** /repo/server/session_manager.go 39-47 SessionManager.Get *)
Definition f_SessionManager_Get : prog aop :=
  Do (L (Lk Sh KSessionManager)) (
  Scope (
   Do (Rd [KSessionManager] KSessionManager "sessionsByToken"%string) (
   If "&& ||"%string (
    Scope f_Session_IsExpired (
    Done)) (Done) (
   If "ok && !s.IsExpired()"%string (
    Scope f_Session_SetLastAccess (
    Exit Leave)) (Done) (
   Exit Leave)))) (
  Do (L (Un Sh KSessionManager)) (
  Done))).

(** /repo/server/session.go 250-254 Session.SecureChannelId *)
Definition f_Session_SecureChannelId : prog aop :=
  Do (L (Lk Sh KSession)) (
  Scope (
   Do (Rd [KSession] KSession "channelId"%string) (
   Exit Leave)) (
  Do (L (Un Sh KSession)) (
  Done))).

(** /repo/server/session_manager.go 68-79 SessionManager.Delete *)
Definition f_SessionManager_Delete : prog aop :=
  Do (L (Lk Ex KSessionManager)) (
  Do (Wr [KSessionManager] KSessionManager "sessionsByToken"%string) (
  If "m.server.serverDiagnostics"%string (
   Scope f_SessionManager_removeDiagnosticsNode (
   Do (L (Lk Ex KServer)) (
   Do (Rd [KSessionManager] KSessionManager "sessionsByToken"%string) (
   Do (Wr [KServer] KServer "serverDiagnosticsSummary"%string) (
   Do (L (Un Ex KServer)) (
   Done)))))) (Done) (
  Scope f_Session_delete (
  Do (L (Un Ex KSessionManager)) (
  Done))))).

(** /repo/server/server_secure_channel.go 145-149 serverSecureChannel.ChannelID *)
Definition f_serverSecureChannel_ChannelID : prog aop :=
  Do (L (Lk Sh KChannel)) (
  Do (L (Un Sh KChannel)) (
  Done)).

(** /repo/server/subscription_manager.go 41-48 SubscriptionManager.Get *)
Definition f_SubscriptionManager_Get : prog aop :=
  Do (L (Lk Sh KSubscriptionManager)) (
  Scope (
   Do (Rd [KSubscriptionManager] KSubscriptionManager "subscriptionsByID"%string) (
   Exit Leave)) (
  Do (L (Un Sh KSubscriptionManager)) (
  Done))).

(** /repo/server/subscription.go 268-280 Subscription.acknowledge *)
Definition f_Subscription_acknowledge : prog aop :=
  Do (L (Lk Ex KSubscription)) (
  Scope (
   Do (Rd [KSubscription] KSubscription "retransmissionQueue"%string) (
   Loop (
    Do (Rd [KSubscription] KSubscription "retransmissionQueue"%string) (
    If "ok && nm.SequenceNumber == seqNum"%string (
     Do (Wr [KSubscription] KSubscription "retransmissionQueue"%string) (
     Exit Leave)) (Done) (
    Done))) (
   Exit Leave))) (
  Do (L (Un Ex KSubscription)) (
  Done))).

(** /repo/server/subscription_manager.go 78-82 SubscriptionManager.Len *)
Definition f_SubscriptionManager_Len : prog aop :=
  Do (L (Lk Sh KSubscriptionManager)) (
  Scope (
   Do (Rd [KSubscriptionManager] KSubscriptionManager "subscriptionsByID"%string) (
   Exit Leave)) (
  Do (L (Un Sh KSubscriptionManager)) (
  Done))).

(** /repo/server/datachange_monitored_item.go 413-447 DataChangeMonitoredItem.isDataChange *)
Definition f_DataChangeMonitoredItem_isDataChange : prog aop :=
  Do (Rd [KDataItem] KDataItem "dataChangeFilter"%string) (
  If "case ua.DataChangeTriggerStatus"%string (
   Exit Leave) (If "case ua.DataChangeTriggerStatusValue"%string (
    If "current.StatusCode&0xFFFFF000 != previous.StatusCode&0xFFFFF"%string (
     Exit Leave) (Done) (
    If "case ua.DeadbandTypeNone"%string (
     Exit Leave) (If "case ua.DeadbandTypeAbsolute"%string (
      Exit Leave) (If "case ua.DeadbandTypePercent"%string (
       Exit Leave) (Done) (
      Done)) (
     Done)) (
    Done))) (If "case ua.DataChangeTriggerStatusValueTimestamp"%string (
     If "current.StatusCode&0xFFFFF000 != previous.StatusCode&0xFFFFF"%string (
      Exit Leave) (Done) (
     If "current.SourceTimestamp != previous.SourceTimestamp"%string (
      Exit Leave) (Done) (
     If "case ua.DeadbandTypeNone"%string (
      Exit Leave) (If "case ua.DeadbandTypeAbsolute"%string (
       Exit Leave) (If "case ua.DeadbandTypePercent"%string (
        Exit Leave) (Done) (
       Done)) (
      Done)) (
     Done)))) (Done) (
    Done)) (
   Done)) (
  Done)).

(** /repo/server/datachange_monitored_item.go 121-125 DataChangeMonitoredItem.SetTriggered *)
Definition f_DataChangeMonitoredItem_SetTriggered : prog aop :=
  Do (L (Lk Ex KDataItem)) (
  Do (Wr [KDataItem] KDataItem "triggered"%string) (
  Do (L (Un Ex KDataItem)) (
  Done))).

(** /repo/server/event_monitored_item.go 108-112 EventMonitoredItem.SetTriggered *)
Definition f_EventMonitoredItem_SetTriggered : prog aop :=
  Do (L (Lk Ex KEventItem)) (
  Do (Wr [KEventItem] KEventItem "triggered"%string) (
  Do (L (Un Ex KEventItem)) (
  Done))).

(** SetTriggered of the interface MonitoredItem: the kinds of MonitoredItem *)
Definition f_MonitoredItem_SetTriggered : prog aop :=
  If "kind"%string (
   Scope f_DataChangeMonitoredItem_SetTriggered (
   Done)) (Scope f_EventMonitoredItem_SetTriggered (
   Done)) (
  Done).

(** /repo/server/datachange_monitored_item.go 300-334 DataChangeMonitoredItem.enqueue *)
Definition f_DataChangeMonitoredItem_enqueue : prog aop :=
  Do (Rd [KDataItem] KDataItem "discardOldest"%string) (
  Do (Rd [KDataItem] KDataItem "queue"%string) (
  Do (Rd [KDataItem] KDataItem "queueSize"%string) (
  Loop (
   Do (Rd [KDataItem] KDataItem "queueSize"%string) (
   Do (Wr [KDataItem] KDataItem "queue"%string) (
   Done))) (
  Do (Wr [KDataItem] KDataItem "queue"%string) (
  Do (Rd [KDataItem] KDataItem "queueSize"%string) (
  If "overflow && mi.queueSize > 1"%string (
   Do (Rd [KDataItem] KDataItem "queue"%string) (
   Do (Rd [KDataItem] KDataItem "sub"%string) (
   Do (Wr [] KSubscription "monitoringQueueOverflowCount"%string) (
   Done)))) (Done) (
  Do (Rd [KDataItem] KDataItem "triggeredItems"%string) (
  If "mi.triggeredItems != nil"%string (
   Do (Rd [KDataItem] KDataItem "triggeredItems"%string) (
   Loop (
    Scope f_MonitoredItem_SetTriggered (
    Done)) (
   Done))) (Done) (
  Done))))))))).

(** /repo/server/datachange_monitored_item.go 355-411 DataChangeMonitoredItem.notificationsAvailable *)
Definition f_DataChangeMonitoredItem_notificationsAvailable : prog aop :=
  Do (L (Lk Ex KDataItem)) (
  Scope (
   Do (Rd [KDataItem] KDataItem "monitoringMode"%string) (
   If "mi.monitoringMode == ua.MonitoringModeDisabled"%string (
    Do (Wr [KDataItem] KDataItem "ts"%string) (
    Exit Leave)) (Done) (
   Do (Rd [KDataItem] KDataItem "ti"%string) (
   If "mi.ti > 0"%string (
    Do (Rd [KDataItem] KDataItem "previousQueuedValue"%string) (
    Do (Rd [KDataItem] KDataItem "ti"%string) (
    Do (Wr [KDataItem] KDataItem "ts"%string) (
    Loop (
     Do (Rd [KDataItem] KDataItem "ti"%string) (
     Do (Wr [KDataItem] KDataItem "ts"%string) (
     Do (Rd [KDataItem] KDataItem "prequeue"%string) (
     Loop (
      Do (Rd [KDataItem] KDataItem "prequeue"%string) (
      Do (Rd [KDataItem] KDataItem "ts"%string) (
      If "!peek.ServerTimestamp.After(mi.ts)"%string (
       Do (Wr [KDataItem] KDataItem "prequeue"%string) (
       Done)) (Exit Break) (
      Done)))) (
     Do (Rd [KDataItem] KDataItem "previousQueuedValue"%string) (
     Scope f_DataChangeMonitoredItem_isDataChange (
     If "mi.isDataChange(v, mi.previousQueuedValue)"%string (
      Scope f_DataChangeMonitoredItem_enqueue (
      Do (Wr [KDataItem] KDataItem "previousQueuedValue"%string) (
      Done))) (Done) (
     Done)))))))) (
    Done))))) (Do (Rd [KDataItem] KDataItem "prequeue"%string) (
    Loop (
     Do (Wr [KDataItem] KDataItem "prequeue"%string) (
     Do (Rd [KDataItem] KDataItem "previousQueuedValue"%string) (
     Scope f_DataChangeMonitoredItem_isDataChange (
     If "mi.isDataChange(v, mi.previousQueuedValue)"%string (
      Scope f_DataChangeMonitoredItem_enqueue (
      Do (Wr [KDataItem] KDataItem "previousQueuedValue"%string) (
      Done))) (Done) (
     Done))))) (
    Done))) (
   Do (Rd [KDataItem] KDataItem "monitoringMode"%string) (
   If "resend && mi.monitoringMode == ua.MonitoringModeReporting"%string (
    Do (Rd [KDataItem] KDataItem "queue"%string) (
    If "mi.queue.Len() == 0"%string (
     Do (Rd [KDataItem] KDataItem "sub"%string) (
     Do (Rd [] KSubscription "session"%string) (
     Scope f_Server_readValue (
     Scope f_DataChangeMonitoredItem_enqueue (
     Do (Wr [KDataItem] KDataItem "previousQueuedValue"%string) (
     Done)))))) (Done) (
    Done))) (Done) (
   Do (Rd [KDataItem] KDataItem "queue"%string) (
   Do (Rd [KDataItem] KDataItem "monitoringMode"%string) (
   Do (Rd [KDataItem] KDataItem "triggered"%string) (
   Exit Leave)))))))))) (
  Do (L (Un Ex KDataItem)) (
  Done))).

(** /repo/server/event_monitored_item.go 316-326 EventMonitoredItem.notificationsAvailable *)
Definition f_EventMonitoredItem_notificationsAvailable : prog aop :=
  Do (L (Lk Ex KEventItem)) (
  Scope (
   Do (Rd [KEventItem] KEventItem "monitoringMode"%string) (
   If "mi.monitoringMode == ua.MonitoringModeDisabled"%string (
    Exit Leave) (Done) (
   Do (Rd [KEventItem] KEventItem "queue"%string) (
   Do (Rd [KEventItem] KEventItem "monitoringMode"%string) (
   Do (Rd [KEventItem] KEventItem "triggered"%string) (
   Exit Leave)))))) (
  Do (L (Un Ex KEventItem)) (
  Done))).

(** notificationsAvailable of the interface MonitoredItem: the kinds of MonitoredItem *)
Definition f_MonitoredItem_notificationsAvailable : prog aop :=
  If "kind"%string (
   Scope f_DataChangeMonitoredItem_notificationsAvailable (
   Done)) (Scope f_EventMonitoredItem_notificationsAvailable (
   Done)) (
  Done).

(** /repo/server/datachange_monitored_item.go 100-104 DataChangeMonitoredItem.MonitoringMode *)
Definition f_DataChangeMonitoredItem_MonitoringMode : prog aop :=
  Do (L (Lk Sh KDataItem)) (
  Scope (
   Do (Rd [KDataItem] KDataItem "monitoringMode"%string) (
   Exit Leave)) (
  Do (L (Un Sh KDataItem)) (
  Done))).

(** /repo/server/event_monitored_item.go 87-91 EventMonitoredItem.MonitoringMode *)
Definition f_EventMonitoredItem_MonitoringMode : prog aop :=
  Do (L (Lk Sh KEventItem)) (
  Scope (
   Do (Rd [KEventItem] KEventItem "monitoringMode"%string) (
   Exit Leave)) (
  Do (L (Un Sh KEventItem)) (
  Done))).

(** MonitoringMode of the interface MonitoredItem: the kinds of MonitoredItem *)
Definition f_MonitoredItem_MonitoringMode : prog aop :=
  If "kind"%string (
   Scope f_DataChangeMonitoredItem_MonitoringMode (
   Done)) (Scope f_EventMonitoredItem_MonitoringMode (
   Done)) (
  Done).

(** /repo/server/datachange_monitored_item.go 114-118 DataChangeMonitoredItem.Triggered *)
Definition f_DataChangeMonitoredItem_Triggered : prog aop :=
  Do (L (Lk Sh KDataItem)) (
  Scope (
   Do (Rd [KDataItem] KDataItem "triggered"%string) (
   Exit Leave)) (
  Do (L (Un Sh KDataItem)) (
  Done))).

(** /repo/server/event_monitored_item.go 101-105 EventMonitoredItem.Triggered *)
Definition f_EventMonitoredItem_Triggered : prog aop :=
  Do (L (Lk Sh KEventItem)) (
  Scope (
   Do (Rd [KEventItem] KEventItem "triggered"%string) (
   Exit Leave)) (
  Do (L (Un Sh KEventItem)) (
  Done))).

(** Triggered of the interface MonitoredItem: the kinds of MonitoredItem *)
Definition f_MonitoredItem_Triggered : prog aop :=
  If "kind"%string (
   Scope f_DataChangeMonitoredItem_Triggered (
   Done)) (Scope f_EventMonitoredItem_Triggered (
   Done)) (
  Done).

(** /repo/server/event_monitored_item.go 297-314 EventMonitoredItem.notifications *)
Definition f_EventMonitoredItem_notifications : prog aop :=
  Do (L (Lk Ex KEventItem)) (
  Scope (
   Loop (
    Do (Rd [KEventItem] KEventItem "queue"%string) (
    If "mi.queue.Len() > 0"%string (
     Do (Wr [KEventItem] KEventItem "queue"%string) (
     Done)) (Exit Break) (
    Done))) (
   Do (Rd [KEventItem] KEventItem "queue"%string) (
   Do (Rd [KEventItem] KEventItem "triggered"%string) (
   If "mi.triggered && !more"%string (
    Do (Wr [KEventItem] KEventItem "triggered"%string) (
    Done)) (Done) (
   Exit Leave))))) (
  Do (L (Un Ex KEventItem)) (
  Done))).

(** /repo/server/datachange_monitored_item.go 107-111 DataChangeMonitoredItem.ClientHandle *)
Definition f_DataChangeMonitoredItem_ClientHandle : prog aop :=
  Do (L (Lk Sh KDataItem)) (
  Scope (
   Do (Rd [KDataItem] KDataItem "clientHandle"%string) (
   Exit Leave)) (
  Do (L (Un Sh KDataItem)) (
  Done))).

(** /repo/server/event_monitored_item.go 94-98 EventMonitoredItem.ClientHandle *)
Definition f_EventMonitoredItem_ClientHandle : prog aop :=
  Do (L (Lk Sh KEventItem)) (
  Scope (
   Do (Rd [KEventItem] KEventItem "clientHandle"%string) (
   Exit Leave)) (
  Do (L (Un Sh KEventItem)) (
  Done))).

(** ClientHandle of the interface MonitoredItem: the kinds of MonitoredItem *)
Definition f_MonitoredItem_ClientHandle : prog aop :=
  If "kind"%string (
   Scope f_DataChangeMonitoredItem_ClientHandle (
   Done)) (Scope f_EventMonitoredItem_ClientHandle (
   Done)) (
  Done).

(** /repo/server/datachange_monitored_item.go 336-353 DataChangeMonitoredItem.notifications *)
Definition f_DataChangeMonitoredItem_notifications : prog aop :=
  Do (L (Lk Ex KDataItem)) (
  Scope (
   Loop (
    Do (Rd [KDataItem] KDataItem "queue"%string) (
    If "mi.queue.Len() > 0"%string (
     Do (Wr [KDataItem] KDataItem "queue"%string) (
     Done)) (Exit Break) (
    Done))) (
   Do (Rd [KDataItem] KDataItem "queue"%string) (
   Do (Rd [KDataItem] KDataItem "triggered"%string) (
   If "mi.triggered && !more"%string (
    Do (Wr [KDataItem] KDataItem "triggered"%string) (
    Done)) (Done) (
   Exit Leave))))) (
  Do (L (Un Ex KDataItem)) (
  Done))).

(** /repo/server/subscription.go 502-649 Subscription.handleLatePublishRequest *)
Definition f_Subscription_handleLatePublishRequest : prog aop :=
  Do (L (Lk Ex KSubscription)) (
  Scope (
   Do (Rd [KSubscription] KSubscription "isLate"%string) (
   If "!s.isLate"%string (
    Exit Leave) (Done) (
   Do (Rd [KSubscription] KSubscription "items"%string) (
   Loop (
    Do (Rd [KSubscription] KSubscription "items"%string) (
    Scope f_MonitoredItem_notificationsAvailable (
    Done))) (
   If "case notificationsAvailable && s.publishingEnabled"%string (
    Do (Rd [KSubscription] KSubscription "items"%string) (
    Loop (
     Do (Rd [KSubscription] KSubscription "items"%string) (
     Scope f_MonitoredItem_MonitoringMode (
     If "&& ||"%string (
      Scope f_MonitoredItem_Triggered (
      Done)) (Done) (
     If "item.MonitoringMode() != ua.MonitoringModeReporting && !item"%string (
      Exit Continue) (Done) (
     If "case *EventMonitoredItem"%string (
      Scope f_EventMonitoredItem_notifications (
      Loop (
       If "ok"%string (
        Scope f_MonitoredItem_ClientHandle (
        Done)) (Done) (
       Done)) (
      Done))) (If "case *DataChangeMonitoredItem"%string (
       Scope f_DataChangeMonitoredItem_notifications (
       Loop (
        If "ok"%string (
         Scope f_MonitoredItem_ClientHandle (
         Done)) (Done) (
        Done)) (
       Done))) (Done) (
      Done)) (
     Done)))))) (
    Do (Rd [KSubscription] KSubscription "retransmissionQueue"%string) (
    Loop (
     Do (Wr [KSubscription] KSubscription "retransmissionQueue"%string) (
     Done)) (
    Do (Wr [KSubscription] KSubscription "retransmissionQueue"%string) (
    Loop (
     Do (Rd [KSubscription] KSubscription "retransmissionQueue"%string) (
     Done)) (
    Scope f_serverSecureChannel_Write (
    If "err != nil"%string (
     Exit Leave) (Done) (
    Do (Wr [KSubscription] KSubscription "moreNotifications"%string) (
    If "!more"%string (
     Do (Wr [KSubscription] KSubscription "isLate"%string) (
     Done)) (Done) (
    Exit Leave))))))))))) (If "s.keepAliveCount >= s.maxKeepAliveCount || s.publishRequestC"%string (
     Do (Rd [KSubscription] KSubscription "retransmissionQueue"%string) (
     Loop (
      Do (Rd [KSubscription] KSubscription "retransmissionQueue"%string) (
      Done)) (
     Scope f_serverSecureChannel_Write (
     If "err != nil"%string (
      Exit Leave) (Done) (
     Do (Wr [KSubscription] KSubscription "isLate"%string) (
     Exit Leave)))))) (Done) (
    Done)) (
   Exit Leave)))))) (
  Do (L (Un Ex KSubscription)) (
  Done))).

(** /repo/server/session.go 292-314 Session.addPublishRequest *)
Definition f_Session_addPublishRequest : prog aop :=
  Loop (
   If "case s.publishRequests<-&publishOp{ch, requestid, req, resul"%string (
    Exit Leave) (Do (L (Wt "channel s.publishRequests"%string)) (
    Scope f_serverSecureChannel_Write (
    If "err != nil"%string (
     Exit Leave) (Done) (
    Done)))) (
   Done)) (
  Done).

(** /repo/server/server_service_set.go 5262-5425 Server.handlePublish *)
Definition f_Server_handlePublish : prog aop :=
  If "ch.discoveryOnly"%string (
   Do (Wr [KServer] KServer "serverDiagnosticsSummary"%string) (
   Scope f_serverSecureChannel_Abort (
   Exit Leave))) (Done) (
  Scope f_Server_SessionManager (
  Scope f_SessionManager_Get (
  If "!ok"%string (
   Do (Wr [KServer] KServer "serverDiagnosticsSummary"%string) (
   Scope f_serverSecureChannel_Write (
   Exit Leave))) (Done) (
  Do (Wr [] KSession "requestCount"%string) (
  Scope f_Session_SecureChannelId (
  If "id == 0"%string (
   Do (Wr [KServer] KServer "serverDiagnosticsSummary"%string) (
   Scope f_Server_SessionManager (
   Scope f_SessionManager_Delete (
   Scope f_serverSecureChannel_Write (
   Exit Leave))))) (Done) (
  Scope f_serverSecureChannel_ChannelID (
  If "id != ch.ChannelID()"%string (
   Do (Wr [KServer] KServer "serverDiagnosticsSummary"%string) (
   Scope f_serverSecureChannel_Write (
   Exit Leave))) (Done) (
  Scope f_Server_SubscriptionManager (
  Loop (
   Scope f_SubscriptionManager_Get (
   If "ok"%string (
    Scope f_Subscription_acknowledge (
    Done)) (Done) (
   Done))) (
  If "case op := <-session.stateChanges"%string (
   Scope f_serverSecureChannel_Write (
   Exit Leave)) (Done) (
  Scope f_SubscriptionManager_Len (
  If "sm.Len() == 0"%string (
   Scope f_serverSecureChannel_Write (
   Exit Leave)) (Done) (
  Scope f_SubscriptionManager_GetBySession (
  Loop (
   Scope f_Subscription_handleLatePublishRequest (
   If "err != nil"%string (
    Exit Leave) (Done) (
   If "ok"%string (
    Exit Leave) (Done) (
   Done)))) (
  Scope f_Session_addPublishRequest (
  Done))))))))))))))))).

(** /repo/server/server_service_set.go 5428-5566 Server.handleRepublish *)
Definition f_Server_handleRepublish : prog aop :=
  If "ch.discoveryOnly"%string (
   Do (Wr [KServer] KServer "serverDiagnosticsSummary"%string) (
   Scope f_serverSecureChannel_Abort (
   Exit Leave))) (Done) (
  Scope f_Server_SessionManager (
  Scope f_SessionManager_Get (
  If "!ok"%string (
   Do (Wr [KServer] KServer "serverDiagnosticsSummary"%string) (
   Scope f_serverSecureChannel_Write (
   Exit Leave))) (Done) (
  Do (Wr [] KSession "requestCount"%string) (
  Scope f_Session_SecureChannelId (
  If "id == 0"%string (
   Do (Wr [KServer] KServer "serverDiagnosticsSummary"%string) (
   Scope f_Server_SessionManager (
   Scope f_SessionManager_Delete (
   Scope f_serverSecureChannel_Write (
   Exit Leave))))) (Done) (
  Scope f_serverSecureChannel_ChannelID (
  If "id != ch.ChannelID()"%string (
   Do (Wr [KServer] KServer "serverDiagnosticsSummary"%string) (
   Scope f_serverSecureChannel_Write (
   Exit Leave))) (Done) (
  Scope f_Server_SubscriptionManager (
  Scope f_SubscriptionManager_Get (
  If "!ok"%string (
   Do (Wr [KServer] KServer "serverDiagnosticsSummary"%string) (
   Scope f_serverSecureChannel_Write (
   Exit Leave))) (Done) (
  Do (L (Lk Ex KSubscription)) (
  Do (L (Un Ex KSubscription)) (
  Do (Rd [] KSubscription "retransmissionQueue"%string) (
  Loop (
   Do (Rd [] KSubscription "retransmissionQueue"%string) (
   If "ok"%string (
    If "req.RetransmitSequenceNumber == nm.SequenceNumber"%string (
     Scope f_serverSecureChannel_Write (
     If "err != nil"%string (
      Exit Leave) (Done) (
     Do (Wr [] KSubscription "retransmissionQueue"%string) (
     Exit Leave)))) (Done) (
    Done)) (Done) (
   Done))) (
  Scope f_serverSecureChannel_Write (
  Done))))))))))))))))).

(** /repo/server/server.go 220-224 Server.WorkerPool *)
Definition f_Server_WorkerPool : prog aop :=
  Do (L (Lk Sh KServer)) (
  Do (L (Un Sh KServer)) (
  Done)).

(** /repo/server/server_service_set.go 2057-2240 Server.handleRead *)
Definition f_Server_handleRead : prog aop :=
  If "ch.discoveryOnly"%string (
   Do (Wr [KServer] KServer "serverDiagnosticsSummary"%string) (
   Scope f_serverSecureChannel_Abort (
   Exit Leave))) (Done) (
  Scope f_Server_SessionManager (
  Scope f_SessionManager_Get (
  If "!ok"%string (
   Do (Wr [KServer] KServer "serverDiagnosticsSummary"%string) (
   Scope f_serverSecureChannel_Write (
   Exit Leave))) (Done) (
  Do (Wr [] KSession "requestCount"%string) (
  Scope f_Session_SecureChannelId (
  If "id == 0"%string (
   Do (Wr [KServer] KServer "serverDiagnosticsSummary"%string) (
   Scope f_Server_SessionManager (
   Scope f_SessionManager_Delete (
   Scope f_serverSecureChannel_Write (
   Exit Leave))))) (Done) (
  Scope f_serverSecureChannel_ChannelID (
  If "id != ch.ChannelID()"%string (
   Do (Wr [KServer] KServer "serverDiagnosticsSummary"%string) (
   Scope f_serverSecureChannel_Write (
   Exit Leave))) (Done) (
  If "req.MaxAge < 0.0"%string (
   Do (Wr [KServer] KServer "serverDiagnosticsSummary"%string) (
   Scope f_serverSecureChannel_Write (
   Exit Leave))) (Done) (
  If "req.TimestampsToReturn < ua.TimestampsToReturnSource || req."%string (
   Do (Wr [KServer] KServer "serverDiagnosticsSummary"%string) (
   Scope f_serverSecureChannel_Write (
   Exit Leave))) (Done) (
  If "l == 0"%string (
   Do (Wr [KServer] KServer "serverDiagnosticsSummary"%string) (
   Scope f_serverSecureChannel_Write (
   Exit Leave))) (Done) (
  If "l > int(srv.serverCapabilities.OperationLimits.MaxNodesPerRe"%string (
   Do (Wr [KServer] KServer "serverDiagnosticsSummary"%string) (
   Scope f_serverSecureChannel_Write (
   Exit Leave))) (Done) (
  Scope f_Server_WorkerPool (
  Do (L (Wt "tasks"%string)) (
  Scope f_serverSecureChannel_Write (
  Done)))))))))))))))).

(** /repo/server/server_service_set.go 2243-2388 Server.handleWrite *)
Definition f_Server_handleWrite : prog aop :=
  If "ch.discoveryOnly"%string (
   Do (Wr [KServer] KServer "serverDiagnosticsSummary"%string) (
   Scope f_serverSecureChannel_Abort (
   Exit Leave))) (Done) (
  Scope f_Server_SessionManager (
  Scope f_SessionManager_Get (
  If "!ok"%string (
   Do (Wr [KServer] KServer "serverDiagnosticsSummary"%string) (
   Scope f_serverSecureChannel_Write (
   Exit Leave))) (Done) (
  Do (Wr [] KSession "requestCount"%string) (
  Scope f_Session_SecureChannelId (
  If "id == 0"%string (
   Do (Wr [KServer] KServer "serverDiagnosticsSummary"%string) (
   Scope f_Server_SessionManager (
   Scope f_SessionManager_Delete (
   Scope f_serverSecureChannel_Write (
   Exit Leave))))) (Done) (
  Scope f_serverSecureChannel_ChannelID (
  If "id != ch.ChannelID()"%string (
   Do (Wr [KServer] KServer "serverDiagnosticsSummary"%string) (
   Scope f_serverSecureChannel_Write (
   Exit Leave))) (Done) (
  If "l == 0"%string (
   Do (Wr [KServer] KServer "serverDiagnosticsSummary"%string) (
   Scope f_serverSecureChannel_Write (
   Exit Leave))) (Done) (
  If "l > int(srv.serverCapabilities.OperationLimits.MaxNodesPerWr"%string (
   Do (Wr [KServer] KServer "serverDiagnosticsSummary"%string) (
   Scope f_serverSecureChannel_Write (
   Exit Leave))) (Done) (
  Scope f_Server_WorkerPool (
  Do (L (Wt "tasks"%string)) (
  Scope f_serverSecureChannel_Write (
  Done)))))))))))))).

(** /repo/server/server_service_set.go 3496-3687 Server.handleCall *)
Definition f_Server_handleCall : prog aop :=
  If "ch.discoveryOnly"%string (
   Do (Wr [KServer] KServer "serverDiagnosticsSummary"%string) (
   Scope f_serverSecureChannel_Abort (
   Exit Leave))) (Done) (
  Scope f_Server_SessionManager (
  Scope f_SessionManager_Get (
  If "!ok"%string (
   Do (Wr [KServer] KServer "serverDiagnosticsSummary"%string) (
   Scope f_serverSecureChannel_Write (
   Exit Leave))) (Done) (
  Do (Wr [] KSession "requestCount"%string) (
  Scope f_Session_SecureChannelId (
  If "id == 0"%string (
   Do (Wr [KServer] KServer "serverDiagnosticsSummary"%string) (
   Scope f_Server_SessionManager (
   Scope f_SessionManager_Delete (
   Scope f_serverSecureChannel_Write (
   Exit Leave))))) (Done) (
  Scope f_serverSecureChannel_ChannelID (
  If "id != ch.ChannelID()"%string (
   Do (Wr [KServer] KServer "serverDiagnosticsSummary"%string) (
   Scope f_serverSecureChannel_Write (
   Exit Leave))) (Done) (
  If "l == 0"%string (
   Do (Wr [KServer] KServer "serverDiagnosticsSummary"%string) (
   Scope f_serverSecureChannel_Write (
   Exit Leave))) (Done) (
  If "l > int(srv.serverCapabilities.OperationLimits.MaxNodesPerMe"%string (
   Do (Wr [KServer] KServer "serverDiagnosticsSummary"%string) (
   Scope f_serverSecureChannel_Write (
   Exit Leave))) (Done) (
  Scope f_Server_WorkerPool (
  Do (L (Wt "tasks"%string)) (
  Scope f_serverSecureChannel_Write (
  Done)))))))))))))).

(** /repo/server/server_service_set.go 1047-1352 Server.handleBrowse *)
Definition f_Server_handleBrowse : prog aop :=
  If "ch.discoveryOnly"%string (
   Do (Wr [KServer] KServer "serverDiagnosticsSummary"%string) (
   Scope f_serverSecureChannel_Abort (
   Exit Leave))) (Done) (
  Scope f_Server_SessionManager (
  Scope f_SessionManager_Get (
  If "!ok"%string (
   Do (Wr [KServer] KServer "serverDiagnosticsSummary"%string) (
   Scope f_serverSecureChannel_Write (
   Exit Leave))) (Done) (
  Do (Wr [] KSession "requestCount"%string) (
  Scope f_Session_SecureChannelId (
  If "id == 0"%string (
   Do (Wr [KServer] KServer "serverDiagnosticsSummary"%string) (
   Scope f_Server_SessionManager (
   Scope f_SessionManager_Delete (
   Scope f_serverSecureChannel_Write (
   Exit Leave))))) (Done) (
  Scope f_serverSecureChannel_ChannelID (
  If "id != ch.ChannelID()"%string (
   Do (Wr [KServer] KServer "serverDiagnosticsSummary"%string) (
   Scope f_serverSecureChannel_Write (
   Exit Leave))) (Done) (
  If "req.View.ViewID != nil"%string (
   Scope f_Server_NamespaceManager (
   Scope f_NamespaceManager_FindNode (
   If "!ok"%string (
    Do (Wr [KServer] KServer "serverDiagnosticsSummary"%string) (
    Scope f_serverSecureChannel_Write (
    Exit Leave))) (Done) (
   If "n.NodeClass() != ua.NodeClassView"%string (
    Do (Wr [KServer] KServer "serverDiagnosticsSummary"%string) (
    Scope f_serverSecureChannel_Write (
    Exit Leave))) (Done) (
   Done))))) (Done) (
  If "l == 0"%string (
   Do (Wr [KServer] KServer "serverDiagnosticsSummary"%string) (
   Scope f_serverSecureChannel_Write (
   Exit Leave))) (Done) (
  If "l > int(srv.serverCapabilities.OperationLimits.MaxNodesPerBr"%string (
   Do (Wr [KServer] KServer "serverDiagnosticsSummary"%string) (
   Scope f_serverSecureChannel_Write (
   Exit Leave))) (Done) (
  Scope f_Server_WorkerPool (
  Do (L (Wt "tasks"%string)) (
  Scope f_serverSecureChannel_Write (
  Done))))))))))))))).

(** /repo/server/server_service_set.go 1354-1537 Server.handleBrowseNext *)
Definition f_Server_handleBrowseNext : prog aop :=
  If "ch.discoveryOnly"%string (
   Do (Wr [KServer] KServer "serverDiagnosticsSummary"%string) (
   Scope f_serverSecureChannel_Abort (
   Exit Leave))) (Done) (
  Scope f_Server_SessionManager (
  Scope f_SessionManager_Get (
  If "!ok"%string (
   Do (Wr [KServer] KServer "serverDiagnosticsSummary"%string) (
   Scope f_serverSecureChannel_Write (
   Exit Leave))) (Done) (
  Do (Wr [] KSession "requestCount"%string) (
  Scope f_Session_SecureChannelId (
  If "id == 0"%string (
   Do (Wr [KServer] KServer "serverDiagnosticsSummary"%string) (
   Scope f_Server_SessionManager (
   Scope f_SessionManager_Delete (
   Scope f_serverSecureChannel_Write (
   Exit Leave))))) (Done) (
  Scope f_serverSecureChannel_ChannelID (
  If "id != ch.ChannelID()"%string (
   Do (Wr [KServer] KServer "serverDiagnosticsSummary"%string) (
   Scope f_serverSecureChannel_Write (
   Exit Leave))) (Done) (
  If "l == 0"%string (
   Do (Wr [KServer] KServer "serverDiagnosticsSummary"%string) (
   Scope f_serverSecureChannel_Write (
   Exit Leave))) (Done) (
  If "l > int(srv.serverCapabilities.OperationLimits.MaxNodesPerBr"%string (
   Do (Wr [KServer] KServer "serverDiagnosticsSummary"%string) (
   Scope f_serverSecureChannel_Write (
   Exit Leave))) (Done) (
  Scope f_Server_WorkerPool (
  Do (L (Wt "tasks"%string)) (
  Scope f_serverSecureChannel_Write (
  Done)))))))))))))).

(** /repo/server/server_service_set.go 1539-1720 Server.handleTranslateBrowsePathsToNodeIds *)
Definition f_Server_handleTranslateBrowsePathsToNodeIds : prog aop :=
  If "ch.discoveryOnly"%string (
   Do (Wr [KServer] KServer "serverDiagnosticsSummary"%string) (
   Scope f_serverSecureChannel_Abort (
   Exit Leave))) (Done) (
  Scope f_Server_SessionManager (
  Scope f_SessionManager_Get (
  If "!ok"%string (
   Do (Wr [KServer] KServer "serverDiagnosticsSummary"%string) (
   Scope f_serverSecureChannel_Write (
   Exit Leave))) (Done) (
  Do (Wr [] KSession "requestCount"%string) (
  Scope f_Session_SecureChannelId (
  If "id == 0"%string (
   Do (Wr [KServer] KServer "serverDiagnosticsSummary"%string) (
   Scope f_Server_SessionManager (
   Scope f_SessionManager_Delete (
   Scope f_serverSecureChannel_Write (
   Exit Leave))))) (Done) (
  Scope f_serverSecureChannel_ChannelID (
  If "id != ch.ChannelID()"%string (
   Do (Wr [KServer] KServer "serverDiagnosticsSummary"%string) (
   Scope f_serverSecureChannel_Write (
   Exit Leave))) (Done) (
  If "l == 0"%string (
   Do (Wr [KServer] KServer "serverDiagnosticsSummary"%string) (
   Scope f_serverSecureChannel_Write (
   Exit Leave))) (Done) (
  If "l > int(srv.serverCapabilities.OperationLimits.MaxNodesPerTr"%string (
   Do (Wr [KServer] KServer "serverDiagnosticsSummary"%string) (
   Scope f_serverSecureChannel_Write (
   Exit Leave))) (Done) (
  Scope f_Server_WorkerPool (
  Do (L (Wt "tasks"%string)) (
  Scope f_serverSecureChannel_Write (
  Done)))))))))))))).

(** /repo/server/namespace_manager.go 119-134 NamespaceManager.FindComponent *)
Definition f_NamespaceManager_FindComponent : prog aop :=
  Do (L (Lk Sh KNamespaceManager)) (
  Scope (
   Scope f_Node_References (
   Loop (
    If "!r.IsInverse && ua.ReferenceTypeIDHasComponent == r.Referenc"%string (
     Do (Rd [KNamespaceManager] KNamespaceManager "namespaces"%string) (
     Do (Rd [KNamespaceManager] KNamespaceManager "nodes"%string) (
     If "ok1"%string (
      If "browseName == node1.BrowseName()"%string (
       Exit Leave) (Done) (
      Done)) (Done) (
     Done)))) (Done) (
    Done)) (
   Exit Leave))) (
  Do (L (Un Sh KNamespaceManager)) (
  Done))).

(** /repo/server/variable_node.go 218-222 VariableNode.SetReadValueHandler *)
Definition f_VariableNode_SetReadValueHandler : prog aop :=
  Do (L (Lk Ex KVariableNode)) (
  Do (Wr [KVariableNode] KVariableNode "readValueHandler"%string) (
  Do (L (Un Ex KVariableNode)) (
  Done))).

(** /repo/server/namespace_manager.go 348-382 NamespaceManager.addNodes *)
Definition f_NamespaceManager_addNodes : prog aop :=
  Loop (
   Do (Wr [KNamespaceManager] KNamespaceManager "nodes"%string) (
   Done)) (
  Loop (
   Scope f_Node_References (
   Loop (
    If "r.ReferenceTypeID == ua.ReferenceTypeIDHasTypeDefinition || "%string (
     Exit Continue) (Done) (
    Do (Rd [KNamespaceManager] KNamespaceManager "nodes"%string) (
    Do (Rd [KNamespaceManager] KNamespaceManager "namespaces"%string) (
    If "ok"%string (
     Scope f_Node_References (
     Loop (
      Do (Rd [KNamespaceManager] KNamespaceManager "namespaces"%string) (
      If "tr.ReferenceTypeID == r.ReferenceTypeID && tr.IsInverse != r"%string (
       Exit Break) (Done) (
      Done))) (
     If "!flag"%string (
      Scope f_Node_References (
      Scope f_Node_SetReferences (
      Done))) (Done) (
     Done)))) (Done) (
    Done))))) (
   Done))) (
  Done)).

(** /repo/server/namespace_manager.go 386-390 NamespaceManager.AddNodes *)
Definition f_NamespaceManager_AddNodes : prog aop :=
  Do (L (Lk Ex KNamespaceManager)) (
  Scope (
   Scope f_NamespaceManager_addNodes (
   Exit Leave)) (
  Do (L (Un Ex KNamespaceManager)) (
  Done))).

(** /repo/server/subscription_manager.go 127-947 SubscriptionManager.addDiagnosticsNode *)
Definition f_SubscriptionManager_addDiagnosticsNode : prog aop :=
  Scope f_Server_NamespaceManager (
  Scope f_NamespaceManager_FindNode (
  If "ok"%string (
   Scope f_NamespaceManager_FindComponent (
   Done)) (Done) (
  Scope f_VariableNode_SetReadValueHandler (
  Scope f_VariableNode_SetReadValueHandler (
  Scope f_VariableNode_SetReadValueHandler (
  Scope f_VariableNode_SetReadValueHandler (
  Scope f_VariableNode_SetReadValueHandler (
  Scope f_VariableNode_SetReadValueHandler (
  Scope f_VariableNode_SetReadValueHandler (
  Scope f_VariableNode_SetReadValueHandler (
  Scope f_VariableNode_SetReadValueHandler (
  Scope f_VariableNode_SetReadValueHandler (
  Scope f_VariableNode_SetReadValueHandler (
  Scope f_VariableNode_SetReadValueHandler (
  Scope f_VariableNode_SetReadValueHandler (
  Scope f_VariableNode_SetReadValueHandler (
  Scope f_VariableNode_SetReadValueHandler (
  Scope f_VariableNode_SetReadValueHandler (
  Scope f_VariableNode_SetReadValueHandler (
  Scope f_VariableNode_SetReadValueHandler (
  Scope f_VariableNode_SetReadValueHandler (
  Scope f_VariableNode_SetReadValueHandler (
  Scope f_VariableNode_SetReadValueHandler (
  Scope f_VariableNode_SetReadValueHandler (
  Scope f_VariableNode_SetReadValueHandler (
  Scope f_VariableNode_SetReadValueHandler (
  Scope f_VariableNode_SetReadValueHandler (
  Scope f_VariableNode_SetReadValueHandler (
  Scope f_VariableNode_SetReadValueHandler (
  Scope f_VariableNode_SetReadValueHandler (
  Scope f_VariableNode_SetReadValueHandler (
  Scope f_VariableNode_SetReadValueHandler (
  Scope f_VariableNode_SetReadValueHandler (
  Scope f_VariableNode_SetReadValueHandler (
  Scope f_NamespaceManager_AddNodes (
  Done)))))))))))))))))))))))))))))))))))).

(** /repo/server/subscription_manager.go 51-64 SubscriptionManager.Add *)
Definition f_SubscriptionManager_Add : prog aop :=
  Do (L (Lk Ex KSubscriptionManager)) (
  Scope (
   Do (Rd [KSubscriptionManager] KSubscriptionManager "subscriptionsByID"%string) (
   If "m.maxSubscriptionCount > 0 && len(m.subscriptionsByID) >= m."%string (
    Exit Leave) (Done) (
   Do (Wr [KSubscriptionManager] KSubscriptionManager "subscriptionsByID"%string) (
   If "m.server.serverDiagnostics"%string (
    Scope f_SubscriptionManager_addDiagnosticsNode (
    Do (Wr [KServer] KServer "serverDiagnosticsSummary"%string) (
    Do (Rd [KSubscriptionManager] KSubscriptionManager "subscriptionsByID"%string) (
    Done)))) (Done) (
   Exit Leave))))) (
  Do (L (Un Ex KSubscriptionManager)) (
  Done))).

(** /repo/server/subscription.go 282-298 Subscription.startPublishing *)
Definition f_Subscription_startPublishing : prog aop :=
  Do (Wr [] KSubscription "cancelPublishing"%string) (
  Done).

(** /repo/server/server_service_set.go 4781-4893 Server.handleCreateSubscription *)
Definition f_Server_handleCreateSubscription : prog aop :=
  If "ch.discoveryOnly"%string (
   Do (Wr [KServer] KServer "serverDiagnosticsSummary"%string) (
   Scope f_serverSecureChannel_Abort (
   Exit Leave))) (Done) (
  Scope f_Server_SessionManager (
  Scope f_SessionManager_Get (
  If "!ok"%string (
   Do (Wr [KServer] KServer "serverDiagnosticsSummary"%string) (
   Scope f_serverSecureChannel_Write (
   Exit Leave))) (Done) (
  Do (Wr [] KSession "requestCount"%string) (
  Scope f_Session_SecureChannelId (
  If "id == 0"%string (
   Do (Wr [KServer] KServer "serverDiagnosticsSummary"%string) (
   Scope f_Server_SessionManager (
   Scope f_SessionManager_Delete (
   Scope f_serverSecureChannel_Write (
   Exit Leave))))) (Done) (
  Scope f_serverSecureChannel_ChannelID (
  If "id != ch.ChannelID()"%string (
   Do (Wr [KServer] KServer "serverDiagnosticsSummary"%string) (
   Scope f_serverSecureChannel_Write (
   Exit Leave))) (Done) (
  Scope f_Server_SubscriptionManager (
  Scope f_SubscriptionManager_Add (
  If "err != nil"%string (
   Do (Wr [KServer] KServer "serverDiagnosticsSummary"%string) (
   Scope f_serverSecureChannel_Write (
   Exit Leave))) (Done) (
  Scope f_Subscription_startPublishing (
  Scope f_serverSecureChannel_Write (
  Done)))))))))))))).

(** /repo/server/subscription.go 172-184 Subscription.Modify *)
Definition f_Subscription_Modify : prog aop :=
  Do (L (Lk Ex KSubscription)) (
  Scope f_Subscription_stopPublishing (
  Scope f_Subscription_startPublishing (
  Do (L (Un Ex KSubscription)) (
  Done)))).

(** /repo/server/server_service_set.go 4896-5007 Server.handleModifySubscription *)
Definition f_Server_handleModifySubscription : prog aop :=
  If "ch.discoveryOnly"%string (
   Do (Wr [KServer] KServer "serverDiagnosticsSummary"%string) (
   Scope f_serverSecureChannel_Abort (
   Exit Leave))) (Done) (
  Scope f_Server_SessionManager (
  Scope f_SessionManager_Get (
  If "!ok"%string (
   Do (Wr [KServer] KServer "serverDiagnosticsSummary"%string) (
   Scope f_serverSecureChannel_Write (
   Exit Leave))) (Done) (
  Do (Wr [] KSession "requestCount"%string) (
  Scope f_Session_SecureChannelId (
  If "id == 0"%string (
   Do (Wr [KServer] KServer "serverDiagnosticsSummary"%string) (
   Scope f_Server_SessionManager (
   Scope f_SessionManager_Delete (
   Scope f_serverSecureChannel_Write (
   Exit Leave))))) (Done) (
  Scope f_serverSecureChannel_ChannelID (
  If "id != ch.ChannelID()"%string (
   Do (Wr [KServer] KServer "serverDiagnosticsSummary"%string) (
   Scope f_serverSecureChannel_Write (
   Exit Leave))) (Done) (
  Scope f_Server_SubscriptionManager (
  Scope f_SubscriptionManager_Get (
  If "!ok || sub.sessionId != session.sessionId"%string (
   Do (Wr [KServer] KServer "serverDiagnosticsSummary"%string) (
   Scope f_serverSecureChannel_Write (
   Exit Leave))) (Done) (
  Scope f_Subscription_Modify (
  Scope f_serverSecureChannel_Write (
  Done)))))))))))))).

(** /repo/server/subscription.go 165-170 Subscription.SetPublishingMode *)
Definition f_Subscription_SetPublishingMode : prog aop :=
  Do (L (Lk Ex KSubscription)) (
  Do (L (Un Ex KSubscription)) (
  Done)).

(** /repo/server/server_service_set.go 5010-5106 Server.handleSetPublishingMode *)
Definition f_Server_handleSetPublishingMode : prog aop :=
  If "ch.discoveryOnly"%string (
   Do (Wr [KServer] KServer "serverDiagnosticsSummary"%string) (
   Scope f_serverSecureChannel_Abort (
   Exit Leave))) (Done) (
  Scope f_Server_SessionManager (
  Scope f_SessionManager_Get (
  If "!ok"%string (
   Do (Wr [KServer] KServer "serverDiagnosticsSummary"%string) (
   Scope f_serverSecureChannel_Write (
   Exit Leave))) (Done) (
  Do (Wr [] KSession "requestCount"%string) (
  Scope f_Session_SecureChannelId (
  If "id == 0"%string (
   Do (Wr [KServer] KServer "serverDiagnosticsSummary"%string) (
   Scope f_Server_SessionManager (
   Scope f_SessionManager_Delete (
   Scope f_serverSecureChannel_Write (
   Exit Leave))))) (Done) (
  Scope f_serverSecureChannel_ChannelID (
  If "id != ch.ChannelID()"%string (
   Do (Wr [KServer] KServer "serverDiagnosticsSummary"%string) (
   Scope f_serverSecureChannel_Write (
   Exit Leave))) (Done) (
  Scope f_Server_SubscriptionManager (
  Loop (
   Scope f_SubscriptionManager_Get (
   If "ok && sub.sessionId == session.sessionId"%string (
    Scope f_Subscription_SetPublishingMode (
    Done)) (Done) (
   Done))) (
  Scope f_serverSecureChannel_Write (
  Done)))))))))))).

(** /repo/server/subscription_manager.go 949-954 SubscriptionManager.removeDiagnosticsNode *)
Definition f_SubscriptionManager_removeDiagnosticsNode : prog aop :=
  Scope f_Server_NamespaceManager (
  Scope f_NamespaceManager_FindNode (
  If "ok"%string (
   Scope f_NamespaceManager_DeleteNode (
   Done)) (Done) (
  Done))).

(** /repo/server/subscription_manager.go 67-75 SubscriptionManager.Delete *)
Definition f_SubscriptionManager_Delete : prog aop :=
  Do (L (Lk Ex KSubscriptionManager)) (
  Do (Wr [KSubscriptionManager] KSubscriptionManager "subscriptionsByID"%string) (
  If "m.server.serverDiagnostics"%string (
   Scope f_SubscriptionManager_removeDiagnosticsNode (
   Do (Rd [KSubscriptionManager] KSubscriptionManager "subscriptionsByID"%string) (
   Do (Wr [KServer] KServer "serverDiagnosticsSummary"%string) (
   Done)))) (Done) (
  Do (L (Un Ex KSubscriptionManager)) (
  Done)))).

(** /repo/server/session.go 316-346 Session.removePublishRequest *)
Definition f_Session_removePublishRequest : prog aop :=
  Loop (
   If "case op := <-s.publishRequests"%string (
    If "time.Now().After(req.RequestHeader.Timestamp.Add(time.Durati"%string (
     Scope f_serverSecureChannel_Write (
     If "err != nil"%string (
      Exit Leave) (Done) (
     Exit Continue))) (Done) (
    Exit Leave)) (Exit Leave) (
   Done)) (
  Done).

(** /repo/server/server_service_set.go 5111-5259 Server.handleDeleteSubscriptions *)
Definition f_Server_handleDeleteSubscriptions : prog aop :=
  If "ch.discoveryOnly"%string (
   Do (Wr [KServer] KServer "serverDiagnosticsSummary"%string) (
   Scope f_serverSecureChannel_Abort (
   Exit Leave))) (Done) (
  Scope f_Server_SessionManager (
  Scope f_SessionManager_Get (
  If "!ok"%string (
   Do (Wr [KServer] KServer "serverDiagnosticsSummary"%string) (
   Scope f_serverSecureChannel_Write (
   Exit Leave))) (Done) (
  Do (Wr [] KSession "requestCount"%string) (
  Scope f_Session_SecureChannelId (
  If "id == 0"%string (
   Do (Wr [KServer] KServer "serverDiagnosticsSummary"%string) (
   Scope f_Server_SessionManager (
   Scope f_SessionManager_Delete (
   Scope f_serverSecureChannel_Write (
   Exit Leave))))) (Done) (
  Scope f_serverSecureChannel_ChannelID (
  If "id != ch.ChannelID()"%string (
   Do (Wr [KServer] KServer "serverDiagnosticsSummary"%string) (
   Scope f_serverSecureChannel_Write (
   Exit Leave))) (Done) (
  If "l == 0"%string (
   Do (Wr [KServer] KServer "serverDiagnosticsSummary"%string) (
   Scope f_serverSecureChannel_Write (
   Exit Leave))) (Done) (
  Scope f_Server_SubscriptionManager (
  Loop (
   Scope f_SubscriptionManager_Get (
   If "ok && sub.sessionId == session.sessionId"%string (
    Scope f_SubscriptionManager_Delete (
    Scope f_Subscription_Delete (
    Done))) (Done) (
   Done))) (
  Scope f_serverSecureChannel_Write (
  If "err != nil"%string (
   Exit Leave) (Done) (
  Scope f_SubscriptionManager_GetBySession (
  If "len(sm.GetBySession(session)) == 0"%string (
   Scope f_Session_removePublishRequest (
   If "err != nil"%string (
    Exit Leave) (Done) (
   Loop (
    Scope f_serverSecureChannel_Write (
    If "err != nil"%string (
     Exit Leave) (Done) (
    Scope f_Session_removePublishRequest (
    If "err != nil"%string (
     Exit Leave) (Done) (
    Done))))) (
   Done)))) (Done) (
  Done)))))))))))))))).

(** /repo/server/server.go 276-280 Server.ServerCapabilities *)
Definition f_Server_ServerCapabilities : prog aop :=
  Do (L (Lk Sh KServer)) (
  Do (L (Un Sh KServer)) (
  Done)).

(** /repo/server/session.go 198-202 Session.UserIdentity *)
Definition f_Session_UserIdentity : prog aop :=
  Do (L (Lk Sh KSession)) (
  Scope (
   Do (Rd [KSession] KSession "userIdentity"%string) (
   Exit Leave)) (
  Do (L (Un Sh KSession)) (
  Done))).

(** /repo/server/namespace_manager.go 171-180 NamespaceManager.FindSuperType *)
Definition f_NamespaceManager_FindSuperType : prog aop :=
  Scope f_NamespaceManager_FindNode (
  If "ok"%string (
   Scope f_Node_References (
   Loop (
    If "r.IsInverse && ua.ReferenceTypeIDHasSubtype == r.ReferenceTy"%string (
     Scope f_NamespaceManager_NamespaceUris (
     Exit Leave)) (Done) (
    Done)) (
   Done))) (Done) (
  Done)).

(** /repo/server/namespace_manager.go 183-283 NamespaceManager.FindVariantType *)
Definition f_NamespaceManager_FindVariantType : prog aop :=
  Scope (
   Do (L (Lk Sh KNamespaceManager)) (
   Do (Rd [KNamespaceManager] KNamespaceManager "variantTypeMap"%string) (
   If "ok"%string (
    Do (L (Un Sh KNamespaceManager)) (
    Exit Leave)) (Done) (
   Do (L (Un Sh KNamespaceManager)) (
   Loop (
    If "case ua.DataTypeIDBoolean"%string (
     Exit Leave) (If "case ua.DataTypeIDSByte"%string (
      Exit Leave) (If "case ua.DataTypeIDByte"%string (
       Exit Leave) (If "case ua.DataTypeIDInt16"%string (
        Exit Leave) (If "case ua.DataTypeIDUInt16"%string (
         Exit Leave) (If "case ua.DataTypeIDInt32"%string (
          Exit Leave) (If "case ua.DataTypeIDUInt32"%string (
           Exit Leave) (If "case ua.DataTypeIDInt64"%string (
            Exit Leave) (If "case ua.DataTypeIDUInt64"%string (
             Exit Leave) (If "case ua.DataTypeIDFloat"%string (
              Exit Leave) (If "case ua.DataTypeIDDouble"%string (
               Exit Leave) (If "case ua.DataTypeIDString"%string (
                Exit Leave) (If "case ua.DataTypeIDDateTime"%string (
                 Exit Leave) (If "case ua.DataTypeIDGUID"%string (
                  Exit Leave) (If "case ua.DataTypeIDByteString"%string (
                   Exit Leave) (If "case ua.DataTypeIDXMLElement"%string (
                    Exit Leave) (If "case ua.DataTypeIDNodeID"%string (
                     Exit Leave) (If "case ua.DataTypeIDExpandedNodeID"%string (
                      Exit Leave) (If "case ua.DataTypeIDStatusCode"%string (
                       Exit Leave) (If "case ua.DataTypeIDQualifiedName"%string (
                        Exit Leave) (If "case ua.DataTypeIDLocalizedText"%string (
                         Exit Leave) (If "case ua.DataTypeIDStructure"%string (
                          Exit Leave) (If "case ua.DataTypeIDDataValue"%string (
                           Exit Leave) (If "case ua.DataTypeIDBaseDataType"%string (
                            Exit Leave) (If "case ua.DataTypeIDDiagnosticInfo"%string (
                             Exit Leave) (If "case ua.DataTypeIDEnumeration"%string (
                              Exit Leave) (If "case nil"%string (
                               Exit Leave) (Done) (
                              Done)) (
                             Done)) (
                            Done)) (
                           Done)) (
                          Done)) (
                         Done)) (
                        Done)) (
                       Done)) (
                      Done)) (
                     Done)) (
                    Done)) (
                   Done)) (
                  Done)) (
                 Done)) (
                Done)) (
               Done)) (
              Done)) (
             Done)) (
            Done)) (
           Done)) (
          Done)) (
         Done)) (
        Done)) (
       Done)) (
      Done)) (
     Done)) (
    Scope f_NamespaceManager_FindSuperType (
    Done))) (
   Done)))))) (
  If "exit"%string (
   Do (L (Lk Ex KNamespaceManager)) (
   Do (Wr [KNamespaceManager] KNamespaceManager "variantTypeMap"%string) (
   Do (L (Un Ex KNamespaceManager)) (
   Exit Leave)))) (Done) (
  Done)).

(** /repo/server/server_service_set.go 4714-4778 Server.validateIndexRange *)
Definition f_Server_validateIndexRange : prog aop :=
  If "s == ''"%string (
   Exit Leave) (Done) (
  Loop (
   If "index != -1"%string (
    If "err != nil"%string (
     Exit Leave) (Done) (
    If "err != nil"%string (
     Exit Leave) (Done) (
    If "hi < 0"%string (
     Exit Leave) (Done) (
    If "lo >= hi"%string (
     Exit Leave) (Done) (
    Done))))) (If "err != nil"%string (
     Exit Leave) (Done) (
    Done)) (
   If "lo < 0"%string (
    Exit Leave) (Done) (
   Done))) (
  Scope f_Server_NamespaceManager (
  Scope f_NamespaceManager_FindVariantType (
  If "case ua.ValueRankScalarOrOneDimension"%string (
   If "!(diff == 0)"%string (
    If "!(diff == 1 && (destType == ua.VariantTypeString || destType"%string (
     Exit Leave) (Done) (
    Done)) (Done) (
   Done)) (If "case ua.ValueRankAny"%string (
    Done) (If "case ua.ValueRankScalar"%string (
     If "!(len(ranges) == 1 && (destType == ua.VariantTypeString || d"%string (
      Exit Leave) (Done) (
     Done)) (If "case ua.ValueRankOneOrMoreDimensions"%string (
      Done) (If "!(diff == 0)"%string (
       If "!(diff == 1 && (destType == ua.VariantTypeString || destType"%string (
        Exit Leave) (Done) (
       Done)) (Done) (
      Done)) (
     Done)) (
    Done)) (
   Done)) (
  Done))))).

(** /repo/server/scheduler.go 85-89 PollGroup.Subscribe *)
Definition f_PollGroup_Subscribe : prog aop :=
  Do (L (Lk Ex KPollGroup)) (
  Do (Wr [KPollGroup] KPollGroup "subs"%string) (
  Do (L (Un Ex KPollGroup)) (
  Done))).

(** /repo/server/datachange_monitored_item.go 247-257 DataChangeMonitoredItem.startMonitoring.new *)
Definition f_DataChangeMonitoredItem_startMonitoring_new : prog aop :=
  If "mi.monitoringMode == ua.MonitoringModeDisabled"%string (
   Exit Leave) (Done) (
  Do (Rd [] KSubscription "session"%string) (
  Scope f_Server_readValue (
  Do (L (Un Ex KDataItem)) (
  Scope f_Server_Scheduler (
  Scope f_Scheduler_GetPollGroup (
  Scope f_PollGroup_Subscribe (
  Do (L (Lk Ex KDataItem)) (
  Done)))))))).

(** /repo/server/datachange_monitored_item.go 44-68 NewDataChangeMonitoredItem *)
Definition f_NewDataChangeMonitoredItem : prog aop :=
  Do (L (Lk Ex KDataItem)) (
  Scope f_DataChangeMonitoredItem_startMonitoring_new (
  Do (L (Un Ex KDataItem)) (
  Done))).

(** /repo/server/subscription.go 134-147 Subscription.AppendItem *)
Definition f_Subscription_AppendItem : prog aop :=
  Do (L (Lk Ex KSubscription)) (
  Scope (
   Do (Rd [KSubscription] KSubscription "items"%string) (
   If "!ok"%string (
    Do (Wr [KSubscription] KSubscription "items"%string) (
    Scope f_MonitoredItem_MonitoringMode (
    If "item.MonitoringMode() == ua.MonitoringModeDisabled"%string (
     Do (Wr [KSubscription] KSubscription "disabledMonitoredItemCount"%string) (
     Done)) (Done) (
    Done)))) (Done) (
   Exit Leave))) (
  Do (L (Un Ex KSubscription)) (
  Done))).

(** /repo/server/datachange_monitored_item.go 86-90 DataChangeMonitoredItem.SamplingInterval *)
Definition f_DataChangeMonitoredItem_SamplingInterval : prog aop :=
  Do (L (Lk Sh KDataItem)) (
  Scope (
   Do (Rd [KDataItem] KDataItem "samplingInterval"%string) (
   Exit Leave)) (
  Do (L (Un Sh KDataItem)) (
  Done))).

(** /repo/server/event_monitored_item.go 73-77 EventMonitoredItem.SamplingInterval *)
Definition f_EventMonitoredItem_SamplingInterval : prog aop :=
  Do (L (Lk Sh KEventItem)) (
  Scope (
   Do (Rd [KEventItem] KEventItem "samplingInterval"%string) (
   Exit Leave)) (
  Do (L (Un Sh KEventItem)) (
  Done))).

(** SamplingInterval of the interface MonitoredItem: the kinds of MonitoredItem *)
Definition f_MonitoredItem_SamplingInterval : prog aop :=
  If "kind"%string (
   Scope f_DataChangeMonitoredItem_SamplingInterval (
   Done)) (Scope f_EventMonitoredItem_SamplingInterval (
   Done)) (
  Done).

(** /repo/server/datachange_monitored_item.go 93-97 DataChangeMonitoredItem.QueueSize *)
Definition f_DataChangeMonitoredItem_QueueSize : prog aop :=
  Do (L (Lk Sh KDataItem)) (
  Scope (
   Do (Rd [KDataItem] KDataItem "queueSize"%string) (
   Exit Leave)) (
  Do (L (Un Sh KDataItem)) (
  Done))).

(** /repo/server/event_monitored_item.go 80-84 EventMonitoredItem.QueueSize *)
Definition f_EventMonitoredItem_QueueSize : prog aop :=
  Do (L (Lk Sh KEventItem)) (
  Scope (
   Do (Rd [KEventItem] KEventItem "queueSize"%string) (
   Exit Leave)) (
  Do (L (Un Sh KEventItem)) (
  Done))).

(** QueueSize of the interface MonitoredItem: the kinds of MonitoredItem *)
Definition f_MonitoredItem_QueueSize : prog aop :=
  If "kind"%string (
   Scope f_DataChangeMonitoredItem_QueueSize (
   Done)) (Scope f_EventMonitoredItem_QueueSize (
   Done)) (
  Done).

(** /repo/server/object_node.go 129-133 ObjectNode.AddEventListener *)
Definition f_ObjectNode_AddEventListener : prog aop :=
  Do (L (Lk Ex KObjectNode)) (
  Do (Wr [KObjectNode] KObjectNode "subs"%string) (
  Do (L (Un Ex KObjectNode)) (
  Done))).

(** /repo/server/event_monitored_item.go 282-289 EventMonitoredItem.startMonitoring.new *)
Definition f_EventMonitoredItem_startMonitoring_new : prog aop :=
  If "mi.monitoringMode == ua.MonitoringModeDisabled"%string (
   Exit Leave) (Done) (
  If "ok"%string (
   Scope f_ObjectNode_AddEventListener (
   Done)) (Done) (
  Done)).

(** /repo/server/event_monitored_item.go 35-55 NewEventMonitoredItem *)
Definition f_NewEventMonitoredItem : prog aop :=
  Do (L (Lk Ex KEventItem)) (
  Scope f_EventMonitoredItem_startMonitoring_new (
  Do (L (Un Ex KEventItem)) (
  Done))).

(** /repo/server/server_service_set.go 3690-3973 Server.handleCreateMonitoredItems *)
Definition f_Server_handleCreateMonitoredItems : prog aop :=
  If "ch.discoveryOnly"%string (
   Do (Wr [KServer] KServer "serverDiagnosticsSummary"%string) (
   Scope f_serverSecureChannel_Abort (
   Exit Leave))) (Done) (
  Scope f_Server_SessionManager (
  Scope f_SessionManager_Get (
  If "!ok"%string (
   Do (Wr [KServer] KServer "serverDiagnosticsSummary"%string) (
   Scope f_serverSecureChannel_Write (
   Exit Leave))) (Done) (
  Do (Wr [] KSession "requestCount"%string) (
  Scope f_Session_SecureChannelId (
  If "id == 0"%string (
   Do (Wr [KServer] KServer "serverDiagnosticsSummary"%string) (
   Scope f_Server_SessionManager (
   Scope f_SessionManager_Delete (
   Scope f_serverSecureChannel_Write (
   Exit Leave))))) (Done) (
  Scope f_serverSecureChannel_ChannelID (
  If "id != ch.ChannelID()"%string (
   Do (Wr [KServer] KServer "serverDiagnosticsSummary"%string) (
   Scope f_serverSecureChannel_Write (
   Exit Leave))) (Done) (
  Scope f_Server_SubscriptionManager (
  Scope f_SubscriptionManager_Get (
  If "!ok"%string (
   Do (Wr [KServer] KServer "serverDiagnosticsSummary"%string) (
   Scope f_serverSecureChannel_Write (
   Exit Leave))) (Done) (
  Do (L (Lk Ex KSubscription)) (
  Do (L (Un Ex KSubscription)) (
  If "req.TimestampsToReturn < ua.TimestampsToReturnSource || req."%string (
   Do (Wr [KServer] KServer "serverDiagnosticsSummary"%string) (
   Scope f_serverSecureChannel_Write (
   Exit Leave))) (Done) (
  If "l == 0"%string (
   Do (Wr [KServer] KServer "serverDiagnosticsSummary"%string) (
   Scope f_serverSecureChannel_Write (
   Exit Leave))) (Done) (
  If "l > int(srv.serverCapabilities.OperationLimits.MaxMonitoredI"%string (
   Do (Wr [KServer] KServer "serverDiagnosticsSummary"%string) (
   Scope f_serverSecureChannel_Write (
   Exit Leave))) (Done) (
  Scope f_Server_ServerCapabilities (
  Loop (
   Scope f_Server_NamespaceManager (
   Scope f_NamespaceManager_FindNode (
   If "!ok"%string (
    Exit Continue) (Done) (
   If "!n.IsAttributeIDValid(attr)"%string (
    Exit Continue) (Done) (
   If "case ua.AttributeIDValue"%string (
    If "!ok"%string (
     Exit Continue) (Done) (
    If "(n2.AccessLevel()&ua.AccessLevelsCurrentRead) == 0"%string (
     Exit Continue) (Done) (
    Scope f_Session_UserIdentity (
    Scope f_VariableNode_UserAccessLevel (
    If "(n2.UserAccessLevel(session.UserIdentity())&ua.AccessLevelsC"%string (
     Exit Continue) (Done) (
    Scope f_Server_validateIndexRange (
    If "sc != ua.Good"%string (
     Exit Continue) (Done) (
    If "!ok"%string (
     Exit Continue) (Done) (
    If "dcf.DeadbandType != uint32(ua.DeadbandTypeNone)"%string (
     Scope f_Server_NamespaceManager (
     Scope f_NamespaceManager_FindVariantType (
     If "case ua.VariantTypeByte, ua.VariantTypeSByte"%string (
      Done) (If "case ua.VariantTypeInt16, ua.VariantTypeInt32, ua.VariantTyp"%string (
       Done) (If "case ua.VariantTypeUInt16, ua.VariantTypeUInt32, ua.VariantT"%string (
        Done) (If "case ua.VariantTypeFloat, ua.VariantTypeDouble"%string (
         Done) (Exit Continue) (
        Done)) (
       Done)) (
      Done)) (
     Done)))) (Done) (
    Scope f_NewDataChangeMonitoredItem (
    Scope f_Subscription_AppendItem (
    Scope f_MonitoredItem_SamplingInterval (
    Scope f_MonitoredItem_QueueSize (
    Exit Continue)))))))))))))) (If "case ua.AttributeIDEventNotifier"%string (
     If "!ok"%string (
      Exit Continue) (Done) (
     If "(n2.EventNotifier()&ua.EventNotifierSubscribeToEvents) == 0"%string (
      Exit Continue) (Done) (
     Scope f_Session_UserIdentity (
     Scope f_Node_UserRolePermissions (
     If "!IsUserPermitted(rp, ua.PermissionTypeReceiveEvents)"%string (
      Exit Continue) (Done) (
     If "!ok"%string (
      Exit Continue) (Done) (
     Scope f_NewEventMonitoredItem (
     Scope f_Subscription_AppendItem (
     Scope f_MonitoredItem_SamplingInterval (
     Scope f_MonitoredItem_QueueSize (
     Exit Continue))))))))))) (Scope f_Session_UserIdentity (
     Scope f_Node_UserRolePermissions (
     If "!IsUserPermitted(rp, ua.PermissionTypeBrowse)"%string (
      Exit Continue) (Done) (
     If "item.RequestedParameters.Filter != nil"%string (
      Exit Continue) (Done) (
     Scope f_NewDataChangeMonitoredItem (
     Scope f_Subscription_AppendItem (
     Scope f_MonitoredItem_SamplingInterval (
     Scope f_MonitoredItem_QueueSize (
     Exit Continue))))))))) (
    Done)) (
   Done)))))) (
  Scope f_serverSecureChannel_Write (
  Done)))))))))))))))))))).

(** /repo/server/subscription.go 127-132 Subscription.FindItem *)
Definition f_Subscription_FindItem : prog aop :=
  Do (L (Lk Sh KSubscription)) (
  Scope (
   Do (Rd [KSubscription] KSubscription "items"%string) (
   Exit Leave)) (
  Do (L (Un Sh KSubscription)) (
  Done))).

(** /repo/server/datachange_monitored_item.go 173-205 DataChangeMonitoredItem.setQueueSize *)
Definition f_DataChangeMonitoredItem_setQueueSize : prog aop :=
  Do (Wr [KDataItem] KDataItem "queueSize"%string) (
  Do (Rd [KDataItem] KDataItem "discardOldest"%string) (
  Do (Rd [KDataItem] KDataItem "queue"%string) (
  Do (Rd [KDataItem] KDataItem "queueSize"%string) (
  Loop (
   Do (Rd [KDataItem] KDataItem "queueSize"%string) (
   Do (Wr [KDataItem] KDataItem "queue"%string) (
   Done))) (
  Do (Rd [KDataItem] KDataItem "queue"%string) (
  If "overflow && mi.queue.Len() > 1"%string (
   Do (Rd [KDataItem] KDataItem "queue"%string) (
   Done)) (Done) (
  Done))))))).

(** /repo/server/datachange_monitored_item.go 207-237 DataChangeMonitoredItem.setSamplingInterval *)
Definition f_DataChangeMonitoredItem_setSamplingInterval : prog aop :=
  If "samplingInterval < 0"%string (
   Do (Rd [KDataItem] KDataItem "sub"%string) (
   Done)) (Done) (
  Do (Wr [KDataItem] KDataItem "samplingInterval"%string) (
  Do (Wr [KDataItem] KDataItem "ti"%string) (
  Done))).

(** /repo/server/datachange_monitored_item.go 239-245 DataChangeMonitoredItem.setFilter *)
Definition f_DataChangeMonitoredItem_setFilter : prog aop :=
  Do (Wr [KDataItem] KDataItem "dataChangeFilter"%string) (
  Done).

(** /repo/server/datachange_monitored_item.go 247-257 DataChangeMonitoredItem.startMonitoring *)
Definition f_DataChangeMonitoredItem_startMonitoring : prog aop :=
  Do (Wr [KDataItem] KDataItem "ts"%string) (
  Do (Rd [KDataItem] KDataItem "monitoringMode"%string) (
  If "mi.monitoringMode == ua.MonitoringModeDisabled"%string (
   Exit Leave) (Done) (
  Do (Rd [KDataItem] KDataItem "sub"%string) (
  Do (Rd [] KSubscription "session"%string) (
  Scope f_Server_readValue (
  Do (Wr [KDataItem] KDataItem "prequeue"%string) (
  Do (L (Un Ex KDataItem)) (
  Do (Rd [] KDataItem "samplingInterval"%string) (
  Scope f_Server_Scheduler (
  Scope f_Scheduler_GetPollGroup (
  Scope f_PollGroup_Subscribe (
  Do (L (Lk Ex KDataItem)) (
  Done))))))))))))).

(** /repo/server/datachange_monitored_item.go 128-139 DataChangeMonitoredItem.Modify *)
Definition f_DataChangeMonitoredItem_Modify : prog aop :=
  Do (L (Lk Ex KDataItem)) (
  Scope (
   Scope f_DataChangeMonitoredItem_stopMonitoring (
   Do (Wr [KDataItem] KDataItem "clientHandle"%string) (
   Do (Wr [KDataItem] KDataItem "discardOldest"%string) (
   Scope f_DataChangeMonitoredItem_setQueueSize (
   Scope f_DataChangeMonitoredItem_setSamplingInterval (
   Scope f_DataChangeMonitoredItem_setFilter (
   Scope f_DataChangeMonitoredItem_startMonitoring (
   Do (Rd [KDataItem] KDataItem "samplingInterval"%string) (
   Do (Rd [KDataItem] KDataItem "queueSize"%string) (
   Exit Leave)))))))))) (
  Do (L (Un Ex KDataItem)) (
  Done))).

(** /repo/server/event_monitored_item.go 157-170 EventMonitoredItem.setQueueSize *)
Definition f_EventMonitoredItem_setQueueSize : prog aop :=
  Do (Wr [KEventItem] KEventItem "queueSize"%string) (
  Do (Rd [KEventItem] KEventItem "discardOldest"%string) (
  Do (Rd [KEventItem] KEventItem "queue"%string) (
  Do (Rd [KEventItem] KEventItem "queueSize"%string) (
  Loop (
   Do (Rd [KEventItem] KEventItem "queueSize"%string) (
   Do (Wr [KEventItem] KEventItem "queue"%string) (
   Done))) (
  Done))))).

(** /repo/server/event_monitored_item.go 172-174 EventMonitoredItem.setSamplingInterval *)
Definition f_EventMonitoredItem_setSamplingInterval : prog aop :=
  Do (Wr [KEventItem] KEventItem "samplingInterval"%string) (
  Done).

(** /repo/server/event_monitored_item.go 176-182 EventMonitoredItem.setFilter *)
Definition f_EventMonitoredItem_setFilter : prog aop :=
  Do (Wr [KEventItem] KEventItem "eventFilter"%string) (
  Done).

(** /repo/server/event_monitored_item.go 282-289 EventMonitoredItem.startMonitoring *)
Definition f_EventMonitoredItem_startMonitoring : prog aop :=
  Do (Rd [KEventItem] KEventItem "monitoringMode"%string) (
  If "mi.monitoringMode == ua.MonitoringModeDisabled"%string (
   Exit Leave) (Done) (
  If "ok"%string (
   Scope f_ObjectNode_AddEventListener (
   Done)) (Done) (
  Done))).

(** /repo/server/event_monitored_item.go 115-126 EventMonitoredItem.Modify *)
Definition f_EventMonitoredItem_Modify : prog aop :=
  Do (L (Lk Ex KEventItem)) (
  Scope (
   Scope f_EventMonitoredItem_stopMonitoring (
   Do (Wr [KEventItem] KEventItem "clientHandle"%string) (
   Do (Wr [KEventItem] KEventItem "discardOldest"%string) (
   Scope f_EventMonitoredItem_setQueueSize (
   Scope f_EventMonitoredItem_setSamplingInterval (
   Scope f_EventMonitoredItem_setFilter (
   Scope f_EventMonitoredItem_startMonitoring (
   Do (Rd [KEventItem] KEventItem "samplingInterval"%string) (
   Do (Rd [KEventItem] KEventItem "queueSize"%string) (
   Exit Leave)))))))))) (
  Do (L (Un Ex KEventItem)) (
  Done))).

(** Modify of the interface MonitoredItem: the kinds of MonitoredItem *)
Definition f_MonitoredItem_Modify : prog aop :=
  If "kind"%string (
   Scope f_DataChangeMonitoredItem_Modify (
   Done)) (Scope f_EventMonitoredItem_Modify (
   Done)) (
  Done).

(** /repo/server/server_service_set.go 3976-4201 Server.handleModifyMonitoredItems *)
Definition f_Server_handleModifyMonitoredItems : prog aop :=
  If "ch.discoveryOnly"%string (
   Do (Wr [KServer] KServer "serverDiagnosticsSummary"%string) (
   Scope f_serverSecureChannel_Abort (
   Exit Leave))) (Done) (
  Scope f_Server_SessionManager (
  Scope f_SessionManager_Get (
  If "!ok"%string (
   Do (Wr [KServer] KServer "serverDiagnosticsSummary"%string) (
   Scope f_serverSecureChannel_Write (
   Exit Leave))) (Done) (
  Do (Wr [] KSession "requestCount"%string) (
  Scope f_Session_SecureChannelId (
  If "id == 0"%string (
   Do (Wr [KServer] KServer "serverDiagnosticsSummary"%string) (
   Scope f_Server_SessionManager (
   Scope f_SessionManager_Delete (
   Scope f_serverSecureChannel_Write (
   Exit Leave))))) (Done) (
  Scope f_serverSecureChannel_ChannelID (
  If "id != ch.ChannelID()"%string (
   Do (Wr [KServer] KServer "serverDiagnosticsSummary"%string) (
   Scope f_serverSecureChannel_Write (
   Exit Leave))) (Done) (
  Scope f_Server_SubscriptionManager (
  Scope f_SubscriptionManager_Get (
  If "!ok || sub.sessionId != session.sessionId"%string (
   Do (Wr [KServer] KServer "serverDiagnosticsSummary"%string) (
   Scope f_serverSecureChannel_Write (
   Exit Leave))) (Done) (
  Do (L (Lk Ex KSubscription)) (
  Do (L (Un Ex KSubscription)) (
  If "req.TimestampsToReturn < ua.TimestampsToReturnSource || req."%string (
   Do (Wr [KServer] KServer "serverDiagnosticsSummary"%string) (
   Scope f_serverSecureChannel_Write (
   Exit Leave))) (Done) (
  If "l == 0"%string (
   Do (Wr [KServer] KServer "serverDiagnosticsSummary"%string) (
   Scope f_serverSecureChannel_Write (
   Exit Leave))) (Done) (
  If "l > int(srv.serverCapabilities.OperationLimits.MaxMonitoredI"%string (
   Do (Wr [KServer] KServer "serverDiagnosticsSummary"%string) (
   Scope f_serverSecureChannel_Write (
   Exit Leave))) (Done) (
  Loop (
   Scope f_Subscription_FindItem (
   If "ok"%string (
    If "case attr == ua.AttributeIDValue"%string (
     If "!ok"%string (
      Exit Continue) (Done) (
     If "dcf.DeadbandType != uint32(ua.DeadbandTypeNone)"%string (
      Scope f_Server_NamespaceManager (
      Scope f_NamespaceManager_FindVariantType (
      If "case ua.VariantTypeByte, ua.VariantTypeSByte"%string (
       Done) (If "case ua.VariantTypeInt16, ua.VariantTypeInt32, ua.VariantTyp"%string (
        Done) (If "case ua.VariantTypeUInt16, ua.VariantTypeUInt32, ua.VariantT"%string (
         Done) (If "case ua.VariantTypeFloat, ua.VariantTypeDouble"%string (
          Done) (Exit Continue) (
         Done)) (
        Done)) (
       Done)) (
      Done)))) (Done) (
     Scope f_MonitoredItem_Modify (
     Exit Continue)))) (If "case attr == ua.AttributeIDEventNotifier"%string (
      If "!ok"%string (
       Exit Continue) (Done) (
      Scope f_MonitoredItem_Modify (
      Exit Continue))) (If "modifyReq.RequestedParameters.Filter != nil"%string (
       Exit Continue) (Done) (
      Scope f_MonitoredItem_Modify (
      Exit Continue))) (
     Done)) (
    Done)) (Done) (
   Done))) (
  Scope f_serverSecureChannel_Write (
  Done))))))))))))))))))).

(** /repo/server/datachange_monitored_item.go 155-171 DataChangeMonitoredItem.SetMonitoringMode *)
Definition f_DataChangeMonitoredItem_SetMonitoringMode : prog aop :=
  Do (L (Lk Ex KDataItem)) (
  Scope (
   Do (Rd [KDataItem] KDataItem "monitoringMode"%string) (
   If "mi.monitoringMode == mode"%string (
    Exit Leave) (Done) (
   Scope f_DataChangeMonitoredItem_stopMonitoring (
   Do (Wr [KDataItem] KDataItem "monitoringMode"%string) (
   If "mode == ua.MonitoringModeDisabled"%string (
    Do (Wr [KDataItem] KDataItem "queue"%string) (
    Do (Wr [KDataItem] KDataItem "previousQueuedValue"%string) (
    Do (Rd [KDataItem] KDataItem "sub"%string) (
    Do (Wr [] KSubscription "disabledMonitoredItemCount"%string) (
    Done))))) (Do (Rd [KDataItem] KDataItem "sub"%string) (
    Do (Wr [] KSubscription "disabledMonitoredItemCount"%string) (
    Done))) (
   Scope f_DataChangeMonitoredItem_startMonitoring (
   Done))))))) (
  Do (L (Un Ex KDataItem)) (
  Done))).

(** /repo/server/event_monitored_item.go 140-155 EventMonitoredItem.SetMonitoringMode *)
Definition f_EventMonitoredItem_SetMonitoringMode : prog aop :=
  Do (L (Lk Ex KEventItem)) (
  Scope (
   Do (Rd [KEventItem] KEventItem "monitoringMode"%string) (
   If "mi.monitoringMode == mode"%string (
    Exit Leave) (Done) (
   Scope f_EventMonitoredItem_stopMonitoring (
   Do (Wr [KEventItem] KEventItem "monitoringMode"%string) (
   If "mode == ua.MonitoringModeDisabled"%string (
    Do (Wr [KEventItem] KEventItem "queue"%string) (
    Do (Rd [KEventItem] KEventItem "sub"%string) (
    Do (Wr [] KSubscription "disabledMonitoredItemCount"%string) (
    Done)))) (Do (Rd [KEventItem] KEventItem "sub"%string) (
    Do (Wr [] KSubscription "disabledMonitoredItemCount"%string) (
    Done))) (
   Scope f_EventMonitoredItem_startMonitoring (
   Done))))))) (
  Do (L (Un Ex KEventItem)) (
  Done))).

(** SetMonitoringMode of the interface MonitoredItem: the kinds of MonitoredItem *)
Definition f_MonitoredItem_SetMonitoringMode : prog aop :=
  If "kind"%string (
   Scope f_DataChangeMonitoredItem_SetMonitoringMode (
   Done)) (Scope f_EventMonitoredItem_SetMonitoringMode (
   Done)) (
  Done).

(** /repo/server/server_service_set.go 4204-4366 Server.handleSetMonitoringMode *)
Definition f_Server_handleSetMonitoringMode : prog aop :=
  If "ch.discoveryOnly"%string (
   Do (Wr [KServer] KServer "serverDiagnosticsSummary"%string) (
   Scope f_serverSecureChannel_Abort (
   Exit Leave))) (Done) (
  Scope f_Server_SessionManager (
  Scope f_SessionManager_Get (
  If "!ok"%string (
   Do (Wr [KServer] KServer "serverDiagnosticsSummary"%string) (
   Scope f_serverSecureChannel_Write (
   Exit Leave))) (Done) (
  Do (Wr [] KSession "requestCount"%string) (
  Scope f_Session_SecureChannelId (
  If "id == 0"%string (
   Do (Wr [KServer] KServer "serverDiagnosticsSummary"%string) (
   Scope f_Server_SessionManager (
   Scope f_SessionManager_Delete (
   Scope f_serverSecureChannel_Write (
   Exit Leave))))) (Done) (
  Scope f_serverSecureChannel_ChannelID (
  If "id != ch.ChannelID()"%string (
   Do (Wr [KServer] KServer "serverDiagnosticsSummary"%string) (
   Scope f_serverSecureChannel_Write (
   Exit Leave))) (Done) (
  Scope f_Server_SubscriptionManager (
  Scope f_SubscriptionManager_Get (
  If "!ok"%string (
   Do (Wr [KServer] KServer "serverDiagnosticsSummary"%string) (
   Scope f_serverSecureChannel_Write (
   Exit Leave))) (Done) (
  Do (L (Lk Ex KSubscription)) (
  Do (L (Un Ex KSubscription)) (
  If "l == 0"%string (
   Do (Wr [KServer] KServer "serverDiagnosticsSummary"%string) (
   Scope f_serverSecureChannel_Write (
   Exit Leave))) (Done) (
  If "l > int(srv.serverCapabilities.OperationLimits.MaxMonitoredI"%string (
   Do (Wr [KServer] KServer "serverDiagnosticsSummary"%string) (
   Scope f_serverSecureChannel_Write (
   Exit Leave))) (Done) (
  Loop (
   Scope f_Subscription_FindItem (
   If "ok"%string (
    Scope f_MonitoredItem_SetMonitoringMode (
    Done)) (Done) (
   Done))) (
  Scope f_serverSecureChannel_Write (
  Done)))))))))))))))))).

(** /repo/server/subscription.go 149-163 Subscription.DeleteItem *)
Definition f_Subscription_DeleteItem : prog aop :=
  Do (L (Lk Ex KSubscription)) (
  Scope (
   Do (Rd [KSubscription] KSubscription "items"%string) (
   If "ok"%string (
    Do (Wr [KSubscription] KSubscription "items"%string) (
    Scope f_MonitoredItem_Delete (
    Scope f_MonitoredItem_MonitoringMode (
    If "item.MonitoringMode() == ua.MonitoringModeDisabled"%string (
     Do (Wr [KSubscription] KSubscription "disabledMonitoredItemCount"%string) (
     Done)) (Done) (
    Done))))) (Done) (
   Exit Leave))) (
  Do (L (Un Ex KSubscription)) (
  Done))).

(** /repo/server/server_service_set.go 4552-4712 Server.handleDeleteMonitoredItems *)
Definition f_Server_handleDeleteMonitoredItems : prog aop :=
  If "ch.discoveryOnly"%string (
   Do (Wr [KServer] KServer "serverDiagnosticsSummary"%string) (
   Scope f_serverSecureChannel_Abort (
   Exit Leave))) (Done) (
  Scope f_Server_SessionManager (
  Scope f_SessionManager_Get (
  If "!ok"%string (
   Do (Wr [KServer] KServer "serverDiagnosticsSummary"%string) (
   Scope f_serverSecureChannel_Write (
   Exit Leave))) (Done) (
  Do (Wr [] KSession "requestCount"%string) (
  Scope f_Session_SecureChannelId (
  If "id == 0"%string (
   Do (Wr [KServer] KServer "serverDiagnosticsSummary"%string) (
   Scope f_Server_SessionManager (
   Scope f_SessionManager_Delete (
   Scope f_serverSecureChannel_Write (
   Exit Leave))))) (Done) (
  Scope f_serverSecureChannel_ChannelID (
  If "id != ch.ChannelID()"%string (
   Do (Wr [KServer] KServer "serverDiagnosticsSummary"%string) (
   Scope f_serverSecureChannel_Write (
   Exit Leave))) (Done) (
  Scope f_Server_SubscriptionManager (
  Scope f_SubscriptionManager_Get (
  If "!ok"%string (
   Do (Wr [KServer] KServer "serverDiagnosticsSummary"%string) (
   Scope f_serverSecureChannel_Write (
   Exit Leave))) (Done) (
  Do (L (Lk Ex KSubscription)) (
  Do (L (Un Ex KSubscription)) (
  If "l == 0"%string (
   Do (Wr [KServer] KServer "serverDiagnosticsSummary"%string) (
   Scope f_serverSecureChannel_Write (
   Exit Leave))) (Done) (
  If "l > int(srv.serverCapabilities.OperationLimits.MaxMonitoredI"%string (
   Do (Wr [KServer] KServer "serverDiagnosticsSummary"%string) (
   Scope f_serverSecureChannel_Write (
   Exit Leave))) (Done) (
  Loop (
   Scope f_Subscription_DeleteItem (
   Done)) (
  Scope f_serverSecureChannel_Write (
  Done)))))))))))))))))).

(** /repo/server/server_service_set.go 2391-2635 Server.handleHistoryRead *)
Definition f_Server_handleHistoryRead : prog aop :=
  If "ch.discoveryOnly"%string (
   Do (Wr [KServer] KServer "serverDiagnosticsSummary"%string) (
   Scope f_serverSecureChannel_Abort (
   Exit Leave))) (Done) (
  Scope f_Server_SessionManager (
  Scope f_SessionManager_Get (
  If "!ok"%string (
   Do (Wr [KServer] KServer "serverDiagnosticsSummary"%string) (
   Scope f_serverSecureChannel_Write (
   Exit Leave))) (Done) (
  Scope f_Session_SecureChannelId (
  If "id == 0"%string (
   Do (Wr [KServer] KServer "serverDiagnosticsSummary"%string) (
   Scope f_Server_SessionManager (
   Scope f_SessionManager_Delete (
   Scope f_serverSecureChannel_Write (
   Exit Leave))))) (Done) (
  Scope f_serverSecureChannel_ChannelID (
  If "id != ch.ChannelID()"%string (
   Do (Wr [KServer] KServer "serverDiagnosticsSummary"%string) (
   Scope f_serverSecureChannel_Write (
   Exit Leave))) (Done) (
  If "req.TimestampsToReturn < ua.TimestampsToReturnSource || req."%string (
   Do (Wr [KServer] KServer "serverDiagnosticsSummary"%string) (
   Scope f_serverSecureChannel_Write (
   Exit Leave))) (Done) (
  If "l == 0"%string (
   Do (Wr [KServer] KServer "serverDiagnosticsSummary"%string) (
   Scope f_serverSecureChannel_Write (
   Exit Leave))) (Done) (
  If "l > int(srv.serverCapabilities.OperationLimits.MaxNodesPerHi"%string (
   Do (Wr [KServer] KServer "serverDiagnosticsSummary"%string) (
   Scope f_serverSecureChannel_Write (
   Exit Leave))) (Done) (
  If "h == nil"%string (
   Do (Wr [KServer] KServer "serverDiagnosticsSummary"%string) (
   Scope f_serverSecureChannel_Write (
   Exit Leave))) (Done) (
  If "case ua.ReadEventDetails"%string (
   Do (L (Wt "application ReadEvent"%string)) (
   Scope f_serverSecureChannel_Write (
   Exit Leave))) (If "case ua.ReadRawModifiedDetails"%string (
    Do (L (Wt "application ReadRawModified"%string)) (
    Scope f_serverSecureChannel_Write (
    Exit Leave))) (If "case ua.ReadProcessedDetails"%string (
     Do (L (Wt "application ReadProcessed"%string)) (
     Scope f_serverSecureChannel_Write (
     Exit Leave))) (If "case ua.ReadAtTimeDetails"%string (
      Do (L (Wt "application ReadAtTime"%string)) (
      Scope f_serverSecureChannel_Write (
      Exit Leave))) (Done) (
     Done)) (
    Done)) (
   Done)) (
  Do (Wr [KServer] KServer "serverDiagnosticsSummary"%string) (
  Scope f_serverSecureChannel_Write (
  Done))))))))))))))).

(** /repo/server/server_secure_channel.go 162-166 serverSecureChannel.SecurityPolicyURI *)
Definition f_serverSecureChannel_SecurityPolicyURI : prog aop :=
  Do (L (Lk Sh KChannel)) (
  Do (L (Un Sh KChannel)) (
  Done)).

(** /repo/server/session.go 119-143 NewSession *)
Definition f_NewSession : prog aop :=
  Scope f_Server_ServerCapabilities (
  Scope f_Server_ServerCapabilities (
  Done)).

(** /repo/server/session_manager.go 106-1712 SessionManager.addDiagnosticsNode *)
Definition f_SessionManager_addDiagnosticsNode : prog aop :=
  Scope f_Server_NamespaceManager (
  Scope f_VariableNode_SetReadValueHandler (
  Scope f_VariableNode_SetReadValueHandler (
  Scope f_VariableNode_SetReadValueHandler (
  Scope f_VariableNode_SetReadValueHandler (
  Scope f_VariableNode_SetReadValueHandler (
  Scope f_VariableNode_SetReadValueHandler (
  Scope f_VariableNode_SetReadValueHandler (
  Scope f_VariableNode_SetReadValueHandler (
  Scope f_VariableNode_SetReadValueHandler (
  Scope f_VariableNode_SetReadValueHandler (
  Scope f_VariableNode_SetReadValueHandler (
  Scope f_VariableNode_SetReadValueHandler (
  Scope f_VariableNode_SetReadValueHandler (
  Scope f_VariableNode_SetReadValueHandler (
  Scope f_VariableNode_SetReadValueHandler (
  Scope f_VariableNode_SetReadValueHandler (
  Scope f_VariableNode_SetReadValueHandler (
  Scope f_VariableNode_SetReadValueHandler (
  Scope f_VariableNode_SetReadValueHandler (
  Scope f_VariableNode_SetReadValueHandler (
  Scope f_VariableNode_SetReadValueHandler (
  Scope f_VariableNode_SetReadValueHandler (
  Scope f_VariableNode_SetReadValueHandler (
  Scope f_VariableNode_SetReadValueHandler (
  Scope f_VariableNode_SetReadValueHandler (
  Scope f_VariableNode_SetReadValueHandler (
  Scope f_VariableNode_SetReadValueHandler (
  Scope f_VariableNode_SetReadValueHandler (
  Scope f_VariableNode_SetReadValueHandler (
  Scope f_VariableNode_SetReadValueHandler (
  Scope f_VariableNode_SetReadValueHandler (
  Scope f_VariableNode_SetReadValueHandler (
  Scope f_VariableNode_SetReadValueHandler (
  Scope f_VariableNode_SetReadValueHandler (
  Scope f_VariableNode_SetReadValueHandler (
  Scope f_VariableNode_SetReadValueHandler (
  Scope f_VariableNode_SetReadValueHandler (
  Scope f_VariableNode_SetReadValueHandler (
  Scope f_VariableNode_SetReadValueHandler (
  Scope f_VariableNode_SetReadValueHandler (
  Scope f_VariableNode_SetReadValueHandler (
  Scope f_VariableNode_SetReadValueHandler (
  Scope f_VariableNode_SetReadValueHandler (
  Scope f_VariableNode_SetReadValueHandler (
  Scope f_VariableNode_SetReadValueHandler (
  Scope f_VariableNode_SetReadValueHandler (
  Scope f_VariableNode_SetReadValueHandler (
  Scope f_VariableNode_SetReadValueHandler (
  Scope f_VariableNode_SetReadValueHandler (
  Scope f_VariableNode_SetReadValueHandler (
  Scope f_VariableNode_SetReadValueHandler (
  Scope f_VariableNode_SetReadValueHandler (
  Scope f_VariableNode_SetReadValueHandler (
  Scope f_VariableNode_SetReadValueHandler (
  Scope f_VariableNode_SetReadValueHandler (
  Scope f_NamespaceManager_AddNodes (
  Done))))))))))))))))))))))))))))))))))))))))))))))))))))))))).

(** /repo/server/session_manager.go 50-65 SessionManager.Add *)
Definition f_SessionManager_Add : prog aop :=
  Do (L (Lk Ex KSessionManager)) (
  Scope (
   Do (Rd [KSessionManager] KSessionManager "sessionsByToken"%string) (
   If "m.maxSessionCount > 0 && len(m.sessionsByToken) >= m.maxSess"%string (
    Exit Leave) (Done) (
   Do (Wr [KSessionManager] KSessionManager "sessionsByToken"%string) (
   If "m.server.serverDiagnostics"%string (
    Scope f_SessionManager_addDiagnosticsNode (
    Do (L (Lk Ex KServer)) (
    Do (Wr [KServer] KServer "serverDiagnosticsSummary"%string) (
    Do (Rd [KSessionManager] KSessionManager "sessionsByToken"%string) (
    Do (L (Un Ex KServer)) (
    Done)))))) (Done) (
   Exit Leave))))) (
  Do (L (Un Ex KSessionManager)) (
  Done))).

(** /repo/server/server_service_set.go 92-277 Server.handleCreateSession *)
Definition f_Server_handleCreateSession : prog aop :=
  If "ch.discoveryOnly"%string (
   Do (Wr [KServer] KServer "serverDiagnosticsSummary"%string) (
   Scope f_serverSecureChannel_Abort (
   Exit Leave))) (Done) (
  Scope f_serverSecureChannel_SecurityPolicyURI (
  If "case ua.SecurityPolicyURIBasic128Rsa15, ua.SecurityPolicyURI"%string (
   If "!valid"%string (
    Do (Wr [KServer] KServer "serverDiagnosticsSummary"%string) (
    Scope f_serverSecureChannel_Write (
    Exit Leave))) (Done) (
   If "len(req.ClientNonce) < int(nonceLength)"%string (
    Do (Wr [KServer] KServer "serverDiagnosticsSummary"%string) (
    Scope f_serverSecureChannel_Write (
    Exit Leave))) (Done) (
   Done))) (Done) (
  Scope f_serverSecureChannel_SecurityPolicyURI (
  If "case ua.SecurityPolicyURIBasic128Rsa15, ua.SecurityPolicyURI"%string (
   If "err != nil"%string (
    Exit Leave) (Done) (
   Done)) (If "case ua.SecurityPolicyURIBasic256Sha256, ua.SecurityPolicyUR"%string (
    If "err != nil"%string (
     Exit Leave) (Done) (
    Done)) (If "case ua.SecurityPolicyURIAes256Sha256RsaPss"%string (
     If "err != nil"%string (
      Exit Leave) (Done) (
     Done)) (Done) (
    Done)) (
   Done)) (
  Scope f_NewSession (
  Scope f_Server_SessionManager (
  Scope f_SessionManager_Add (
  If "err != nil"%string (
   Do (Wr [KServer] KServer "serverDiagnosticsSummary"%string) (
   Scope f_serverSecureChannel_Write (
   Exit Leave))) (Done) (
  Scope f_Server_LocalCertificate (
  Scope f_Server_Endpoints (
  Scope f_serverSecureChannel_Write (
  Done)))))))))))).

(** /repo/server/session.go 226-230 Session.SessionNonce *)
Definition f_Session_SessionNonce : prog aop :=
  Do (L (Lk Sh KSession)) (
  Do (L (Un Sh KSession)) (
  Done)).

(** /repo/server/server_secure_channel.go 138-142 serverSecureChannel.RemotePublicKey *)
Definition f_serverSecureChannel_RemotePublicKey : prog aop :=
  Do (L (Lk Sh KChannel)) (
  Do (L (Un Sh KChannel)) (
  Done)).

(** /repo/server/server_secure_channel.go 124-128 serverSecureChannel.LocalEndpoint *)
Definition f_serverSecureChannel_LocalEndpoint : prog aop :=
  Do (L (Lk Sh KChannel)) (
  Do (L (Un Sh KChannel)) (
  Done)).

(** /repo/server/session.go 204-224 Session.SetUserIdentity *)
Definition f_Session_SetUserIdentity : prog aop :=
  Do (L (Lk Ex KSession)) (
  Do (Wr [KSession] KSession "userIdentity"%string) (
  Do (L (Un Ex KSession)) (
  Done))).

(** /repo/server/session.go 232-236 Session.SetSessionNonce *)
Definition f_Session_SetSessionNonce : prog aop :=
  Do (L (Lk Ex KSession)) (
  Do (L (Un Ex KSession)) (
  Done)).

(** /repo/server/session.go 256-260 Session.SetSecureChannelId *)
Definition f_Session_SetSecureChannelId : prog aop :=
  Do (L (Lk Ex KSession)) (
  Do (Wr [KSession] KSession "channelId"%string) (
  Do (L (Un Ex KSession)) (
  Done))).

(** /repo/server/session.go 268-272 Session.SetSecurityMode *)
Definition f_Session_SetSecurityMode : prog aop :=
  Do (L (Lk Ex KSession)) (
  Do (Wr [KSession] KSession "securityMode"%string) (
  Do (L (Un Ex KSession)) (
  Done))).

(** /repo/server/session.go 280-284 Session.SetSecurityPolicyURI *)
Definition f_Session_SetSecurityPolicyURI : prog aop :=
  Do (L (Lk Ex KSession)) (
  Do (Wr [KSession] KSession "securityPolicyURI"%string) (
  Do (L (Un Ex KSession)) (
  Done))).

(** /repo/server/server_service_set.go 280-864 Server.handleActivateSession *)
Definition f_Server_handleActivateSession : prog aop :=
  If "ch.discoveryOnly"%string (
   Do (Wr [KServer] KServer "serverDiagnosticsSummary"%string) (
   Scope f_serverSecureChannel_Abort (
   Exit Leave))) (Done) (
  Scope f_SessionManager_Get (
  If "!ok"%string (
   Do (Wr [KServer] KServer "serverDiagnosticsSummary"%string) (
   Scope f_serverSecureChannel_Write (
   Exit Leave))) (Done) (
  Scope f_serverSecureChannel_SecurityPolicyURI (
  If "case ua.SecurityPolicyURIBasic128Rsa15, ua.SecurityPolicyURI"%string (
   Scope f_Server_LocalCertificate (
   Scope f_Session_SessionNonce (
   Scope f_serverSecureChannel_RemotePublicKey (
   Done)))) (If "case ua.SecurityPolicyURIBasic256Sha256, ua.SecurityPolicyUR"%string (
    Scope f_Server_LocalCertificate (
    Scope f_Session_SessionNonce (
    Scope f_serverSecureChannel_RemotePublicKey (
    Done)))) (If "case ua.SecurityPolicyURIAes256Sha256RsaPss"%string (
     Scope f_Server_LocalCertificate (
     Scope f_Session_SessionNonce (
     Scope f_serverSecureChannel_RemotePublicKey (
     Done)))) (Done) (
    Done)) (
   Done)) (
  If "err != nil"%string (
   Do (Wr [KServer] KServer "serverDiagnosticsSummary"%string) (
   Scope f_serverSecureChannel_Write (
   Exit Leave))) (Done) (
  If "case ua.IssuedIdentityToken"%string (
   Scope f_serverSecureChannel_LocalEndpoint (
   If "tokenPolicy == nil"%string (
    Do (Wr [KServer] KServer "serverDiagnosticsSummary"%string) (
    Scope f_serverSecureChannel_Write (
    Exit Leave))) (Done) (
   Done))) (If "case ua.X509IdentityToken"%string (
    Scope f_serverSecureChannel_LocalEndpoint (
    If "tokenPolicy == nil"%string (
     Do (Wr [KServer] KServer "serverDiagnosticsSummary"%string) (
     Scope f_serverSecureChannel_Write (
     Exit Leave))) (Done) (
    If "secPolicyURI == ''"%string (
     Scope f_serverSecureChannel_SecurityPolicyURI (
     Done)) (Done) (
    If "err != nil || len(userCerts) == 0"%string (
     Do (Wr [KServer] KServer "serverDiagnosticsSummary"%string) (
     Scope f_serverSecureChannel_Write (
     Exit Leave))) (Done) (
    If "!ok"%string (
     Do (Wr [KServer] KServer "serverDiagnosticsSummary"%string) (
     Scope f_serverSecureChannel_Write (
     Exit Leave))) (Done) (
    If "case ua.SecurityPolicyURIBasic128Rsa15, ua.SecurityPolicyURI"%string (
     Scope f_Server_LocalCertificate (
     Scope f_Session_SessionNonce (
     Done))) (If "case ua.SecurityPolicyURIBasic256Sha256, ua.SecurityPolicyUR"%string (
      Scope f_Server_LocalCertificate (
      Scope f_Session_SessionNonce (
      Done))) (If "case ua.SecurityPolicyURIAes256Sha256RsaPss"%string (
       Scope f_Server_LocalCertificate (
       Scope f_Session_SessionNonce (
       Done))) (Done) (
      Done)) (
     Done)) (
    If "err != nil"%string (
     Do (Wr [KServer] KServer "serverDiagnosticsSummary"%string) (
     Scope f_serverSecureChannel_Write (
     Exit Leave))) (Done) (
    Done)))))))) (If "case ua.UserNameIdentityToken"%string (
     Scope f_serverSecureChannel_LocalEndpoint (
     If "tokenPolicy == nil"%string (
      Do (Wr [KServer] KServer "serverDiagnosticsSummary"%string) (
      Scope f_serverSecureChannel_Write (
      Exit Leave))) (Done) (
     If "userIdentityToken.UserName == ''"%string (
      Do (Wr [KServer] KServer "serverDiagnosticsSummary"%string) (
      Scope f_serverSecureChannel_Write (
      Exit Leave))) (Done) (
     If "secPolicyURI == ''"%string (
      Scope f_serverSecureChannel_LocalEndpoint (
      Done)) (Done) (
     If "case ua.SecurityPolicyURIBasic128Rsa15"%string (
      If "userIdentityToken.EncryptionAlgorithm != ua.RsaV15KeyWrap"%string (
       Do (Wr [KServer] KServer "serverDiagnosticsSummary"%string) (
       Scope f_serverSecureChannel_Write (
       Exit Leave))) (Done) (
      Loop (
       If "err != nil"%string (
        Exit Leave) (Done) (
       Done)) (
      If "plainLength < 32 || plainLength > 96"%string (
       Scope f_serverSecureChannel_Write (
       Exit Leave)) (Done) (
      Done)))) (If "case ua.SecurityPolicyURIBasic256, ua.SecurityPolicyURIBasic"%string (
       If "userIdentityToken.EncryptionAlgorithm != ua.RsaOaepKeyWrap"%string (
        Do (Wr [KServer] KServer "serverDiagnosticsSummary"%string) (
        Scope f_serverSecureChannel_Write (
        Exit Leave))) (Done) (
       Loop (
        If "err != nil"%string (
         Exit Leave) (Done) (
        Done)) (
       If "plainLength < 32 || plainLength > 96"%string (
        Scope f_serverSecureChannel_Write (
        Exit Leave)) (Done) (
       Done)))) (If "case ua.SecurityPolicyURIAes256Sha256RsaPss"%string (
        If "userIdentityToken.EncryptionAlgorithm != ua.RsaOaepSha256Key"%string (
         Do (Wr [KServer] KServer "serverDiagnosticsSummary"%string) (
         Scope f_serverSecureChannel_Write (
         Exit Leave))) (Done) (
        Loop (
         If "err != nil"%string (
          Exit Leave) (Done) (
         Done)) (
        If "plainLength < 32 || plainLength > 96"%string (
         Do (Wr [KServer] KServer "serverDiagnosticsSummary"%string) (
         Scope f_serverSecureChannel_Write (
         Exit Leave))) (Done) (
        Done)))) (Done) (
       Done)) (
      Done)) (
     Done)))))) (If "case ua.AnonymousIdentityToken"%string (
      Scope f_serverSecureChannel_LocalEndpoint (
      If "tokenPolicy == nil"%string (
       Do (Wr [KServer] KServer "serverDiagnosticsSummary"%string) (
       Scope f_serverSecureChannel_Write (
       Exit Leave))) (Done) (
      Done))) (Done) (
     Done)) (
    Done)) (
   Done)) (
  If "case ua.AnonymousIdentity"%string (
   If "auth != nil"%string (
    Do (L (Wt "application AuthenticateAnonymousIdentity"%string)) (
    Done)) (Done) (
   Done)) (If "case ua.UserNameIdentity"%string (
    If "auth != nil"%string (
     Do (L (Wt "application AuthenticateUserNameIdentity"%string)) (
     Done)) (Done) (
    Done)) (If "case ua.X509Identity"%string (
     If "auth != nil"%string (
      Do (L (Wt "application AuthenticateX509Identity"%string)) (
      Done)) (Done) (
     Done)) (If "case ua.IssuedIdentity"%string (
      If "auth != nil"%string (
       Do (L (Wt "application AuthenticateIssuedIdentity"%string)) (
       Done)) (Done) (
      Done)) (Done) (
     Done)) (
    Done)) (
   Done)) (
  If "err != nil"%string (
   Do (Wr [KServer] KServer "serverDiagnosticsSummary"%string) (
   Scope f_serverSecureChannel_Write (
   Exit Leave))) (Done) (
  Scope f_Session_SetUserIdentity (
  Scope f_Session_SetSessionNonce (
  Scope f_serverSecureChannel_ChannelID (
  Scope f_Session_SetSecureChannelId (
  Scope f_Session_SetSecurityMode (
  Scope f_Session_SetSecurityPolicyURI (
  Do (Wr [] KSession "localeIds"%string) (
  Scope f_Session_SessionNonce (
  Scope f_serverSecureChannel_Write (
  Done)))))))))))))))))).

(** /repo/server/server_service_set.go 867-959 Server.handleCloseSession *)
Definition f_Server_handleCloseSession : prog aop :=
  If "ch.discoveryOnly"%string (
   Do (Wr [KServer] KServer "serverDiagnosticsSummary"%string) (
   Scope f_serverSecureChannel_Abort (
   Exit Leave))) (Done) (
  Scope f_SessionManager_Get (
  If "!ok"%string (
   Do (Wr [KServer] KServer "serverDiagnosticsSummary"%string) (
   Scope f_serverSecureChannel_Write (
   Exit Leave))) (Done) (
  Scope f_Session_SecureChannelId (
  If "id == 0"%string (
   Do (Wr [KServer] KServer "serverDiagnosticsSummary"%string) (
   Scope f_Server_SessionManager (
   Scope f_SessionManager_Delete (
   Scope f_serverSecureChannel_Write (
   Exit Leave))))) (Done) (
  Scope f_serverSecureChannel_ChannelID (
  If "id != ch.ChannelID()"%string (
   Do (Wr [KServer] KServer "serverDiagnosticsSummary"%string) (
   Scope f_serverSecureChannel_Write (
   Exit Leave))) (Done) (
  If "req.DeleteSubscriptions"%string (
   Scope f_Server_SubscriptionManager (
   Scope f_SubscriptionManager_GetBySession (
   Loop (
    Scope f_SubscriptionManager_Delete (
    Scope f_Subscription_Delete (
    Done))) (
   Done)))) (Done) (
  Scope f_SessionManager_Delete (
  Scope f_serverSecureChannel_Write (
  Done)))))))))).

(** /repo/server/server_secure_channel.go 1469-1511 serverSecureChannel.handleOpenSecureChannel *)
Definition f_serverSecureChannel_handleOpenSecureChannel : prog aop :=
  If "req.RequestType != ua.SecurityTokenRequestTypeRenew"%string (
   Exit Leave) (Done) (
  Scope f_serverSecureChannel_Write (
  Done)).

(** /repo/server/server.go 154-158 Server.LocalDescription *)
Definition f_Server_LocalDescription : prog aop :=
  Do (L (Lk Sh KServer)) (
  Do (L (Un Sh KServer)) (
  Done)).

(** /repo/server/server_service_set.go 28-56 Server.findServers *)
Definition f_Server_findServers : prog aop :=
  Loop (
   Scope f_Server_LocalDescription (
   Done)) (
  Scope f_serverSecureChannel_Write (
  Done)).

(** /repo/server/server_service_set.go 59-89 Server.getEndpoints *)
Definition f_Server_getEndpoints : prog aop :=
  Scope f_Server_Endpoints (
  Scope f_Server_Endpoints (
  Scope f_serverSecureChannel_Write (
  Done))).

(** /repo/server/server_service_set.go 1722-1853 Server.handleRegisterNodes *)
Definition f_Server_handleRegisterNodes : prog aop :=
  If "ch.discoveryOnly"%string (
   Do (Wr [KServer] KServer "serverDiagnosticsSummary"%string) (
   Scope f_serverSecureChannel_Abort (
   Exit Leave))) (Done) (
  Scope f_Server_SessionManager (
  Scope f_SessionManager_Get (
  If "!ok"%string (
   Do (Wr [KServer] KServer "serverDiagnosticsSummary"%string) (
   Scope f_serverSecureChannel_Write (
   Exit Leave))) (Done) (
  Do (Wr [] KSession "requestCount"%string) (
  Scope f_Session_SecureChannelId (
  If "id == 0"%string (
   Do (Wr [KServer] KServer "serverDiagnosticsSummary"%string) (
   Scope f_Server_SessionManager (
   Scope f_SessionManager_Delete (
   Scope f_serverSecureChannel_Write (
   Exit Leave))))) (Done) (
  Scope f_serverSecureChannel_ChannelID (
  If "id != ch.ChannelID()"%string (
   Do (Wr [KServer] KServer "serverDiagnosticsSummary"%string) (
   Scope f_serverSecureChannel_Write (
   Exit Leave))) (Done) (
  If "l == 0"%string (
   Do (Wr [KServer] KServer "serverDiagnosticsSummary"%string) (
   Scope f_serverSecureChannel_Write (
   Exit Leave))) (Done) (
  If "l > int(srv.serverCapabilities.OperationLimits.MaxNodesPerRe"%string (
   Do (Wr [KServer] KServer "serverDiagnosticsSummary"%string) (
   Scope f_serverSecureChannel_Write (
   Exit Leave))) (Done) (
  Scope f_serverSecureChannel_Write (
  Done)))))))))))).

(** /repo/server/server_service_set.go 1855-1979 Server.handleUnregisterNodes *)
Definition f_Server_handleUnregisterNodes : prog aop :=
  If "ch.discoveryOnly"%string (
   Do (Wr [KServer] KServer "serverDiagnosticsSummary"%string) (
   Scope f_serverSecureChannel_Abort (
   Exit Leave))) (Done) (
  Scope f_Server_SessionManager (
  Scope f_SessionManager_Get (
  If "!ok"%string (
   Do (Wr [KServer] KServer "serverDiagnosticsSummary"%string) (
   Scope f_serverSecureChannel_Write (
   Exit Leave))) (Done) (
  Do (Wr [] KSession "requestCount"%string) (
  Scope f_Session_SecureChannelId (
  If "id == 0"%string (
   Scope f_Server_SessionManager (
   Scope f_SessionManager_Delete (
   Scope f_serverSecureChannel_Write (
   Exit Leave)))) (Done) (
  Scope f_serverSecureChannel_ChannelID (
  If "id != ch.ChannelID()"%string (
   Do (Wr [KServer] KServer "serverDiagnosticsSummary"%string) (
   Scope f_serverSecureChannel_Write (
   Exit Leave))) (Done) (
  If "l == 0"%string (
   Do (Wr [KServer] KServer "serverDiagnosticsSummary"%string) (
   Scope f_serverSecureChannel_Write (
   Exit Leave))) (Done) (
  If "l > int(srv.serverCapabilities.OperationLimits.MaxNodesPerRe"%string (
   Do (Wr [KServer] KServer "serverDiagnosticsSummary"%string) (
   Scope f_serverSecureChannel_Write (
   Exit Leave))) (Done) (
  Scope f_serverSecureChannel_Write (
  Done)))))))))))).

(** /repo/server/datachange_monitored_item.go 284-298 DataChangeMonitoredItem.RemoveTriggeredItem *)
Definition f_DataChangeMonitoredItem_RemoveTriggeredItem : prog aop :=
  Do (L (Lk Ex KDataItem)) (
  Do (Rd [KDataItem] KDataItem "triggeredItems"%string) (
  Loop (
   If "e.ID() == item.ID()"%string (
    Do (Wr [KDataItem] KDataItem "triggeredItems"%string) (
    Exit Break)) (Done) (
   Done)) (
  Do (L (Un Ex KDataItem)) (
  Done)))).

(** /repo/server/event_monitored_item.go 337-351 EventMonitoredItem.RemoveTriggeredItem *)
Definition f_EventMonitoredItem_RemoveTriggeredItem : prog aop :=
  Do (L (Lk Ex KEventItem)) (
  Do (Rd [KEventItem] KEventItem "triggeredItems"%string) (
  Loop (
   If "e.ID() == item.ID()"%string (
    Do (Wr [KEventItem] KEventItem "triggeredItems"%string) (
    Exit Break)) (Done) (
   Done)) (
  Do (L (Un Ex KEventItem)) (
  Done)))).

(** RemoveTriggeredItem of the interface MonitoredItem: the kinds of MonitoredItem *)
Definition f_MonitoredItem_RemoveTriggeredItem : prog aop :=
  If "kind"%string (
   Scope f_DataChangeMonitoredItem_RemoveTriggeredItem (
   Done)) (Scope f_EventMonitoredItem_RemoveTriggeredItem (
   Done)) (
  Done).

(** /repo/server/datachange_monitored_item.go 276-281 DataChangeMonitoredItem.AddTriggeredItem *)
Definition f_DataChangeMonitoredItem_AddTriggeredItem : prog aop :=
  Do (L (Lk Ex KDataItem)) (
  Do (Wr [KDataItem] KDataItem "triggeredItems"%string) (
  Do (L (Un Ex KDataItem)) (
  Done))).

(** /repo/server/event_monitored_item.go 329-334 EventMonitoredItem.AddTriggeredItem *)
Definition f_EventMonitoredItem_AddTriggeredItem : prog aop :=
  Do (L (Lk Ex KEventItem)) (
  Do (Wr [KEventItem] KEventItem "triggeredItems"%string) (
  Do (L (Un Ex KEventItem)) (
  Done))).

(** AddTriggeredItem of the interface MonitoredItem: the kinds of MonitoredItem *)
Definition f_MonitoredItem_AddTriggeredItem : prog aop :=
  If "kind"%string (
   Scope f_DataChangeMonitoredItem_AddTriggeredItem (
   Done)) (Scope f_EventMonitoredItem_AddTriggeredItem (
   Done)) (
  Done).

(** /repo/server/server_service_set.go 4369-4549 Server.handleSetTriggering *)
Definition f_Server_handleSetTriggering : prog aop :=
  If "ch.discoveryOnly"%string (
   Do (Wr [KServer] KServer "serverDiagnosticsSummary"%string) (
   Scope f_serverSecureChannel_Abort (
   Exit Leave))) (Done) (
  Scope f_Server_SessionManager (
  Scope f_SessionManager_Get (
  If "!ok"%string (
   Do (Wr [KServer] KServer "serverDiagnosticsSummary"%string) (
   Scope f_serverSecureChannel_Write (
   Exit Leave))) (Done) (
  Do (Wr [] KSession "requestCount"%string) (
  Scope f_Session_SecureChannelId (
  If "id == 0"%string (
   Do (Wr [KServer] KServer "serverDiagnosticsSummary"%string) (
   Scope f_Server_SessionManager (
   Scope f_SessionManager_Delete (
   Scope f_serverSecureChannel_Write (
   Exit Leave))))) (Done) (
  Scope f_serverSecureChannel_ChannelID (
  If "id != ch.ChannelID()"%string (
   Do (Wr [KServer] KServer "serverDiagnosticsSummary"%string) (
   Scope f_serverSecureChannel_Write (
   Exit Leave))) (Done) (
  Scope f_Server_SubscriptionManager (
  Scope f_SubscriptionManager_Get (
  If "!ok"%string (
   Do (Wr [KServer] KServer "serverDiagnosticsSummary"%string) (
   Scope f_serverSecureChannel_Write (
   Exit Leave))) (Done) (
  Do (L (Lk Ex KSubscription)) (
  Do (L (Un Ex KSubscription)) (
  If "len(req.LinksToRemove) == 0 && len(req.LinksToAdd) == 0"%string (
   Do (Wr [KServer] KServer "serverDiagnosticsSummary"%string) (
   Scope f_serverSecureChannel_Write (
   Exit Leave))) (Done) (
  Scope f_Subscription_FindItem (
  If "!ok"%string (
   Do (Wr [KServer] KServer "serverDiagnosticsSummary"%string) (
   Scope f_serverSecureChannel_Write (
   Exit Leave))) (Done) (
  Loop (
   Scope f_Subscription_FindItem (
   If "!ok"%string (
    Exit Continue) (Done) (
   Scope f_MonitoredItem_RemoveTriggeredItem (
   Done)))) (
  Loop (
   Scope f_Subscription_FindItem (
   If "!ok"%string (
    Exit Continue) (Done) (
   Scope f_MonitoredItem_AddTriggeredItem (
   Done)))) (
  Scope f_serverSecureChannel_Write (
  Done)))))))))))))))))))).

(** /repo/server/server_service_set.go 962-1040 Server.handleCancel *)
Definition f_Server_handleCancel : prog aop :=
  If "ch.discoveryOnly"%string (
   Do (Wr [KServer] KServer "serverDiagnosticsSummary"%string) (
   Scope f_serverSecureChannel_Abort (
   Exit Leave))) (Done) (
  Scope f_SessionManager_Get (
  If "!ok"%string (
   Do (Wr [KServer] KServer "serverDiagnosticsSummary"%string) (
   Scope f_serverSecureChannel_Write (
   Exit Leave))) (Done) (
  Scope f_Session_SecureChannelId (
  If "id == 0"%string (
   Do (Wr [KServer] KServer "serverDiagnosticsSummary"%string) (
   Scope f_Server_SessionManager (
   Scope f_SessionManager_Delete (
   Scope f_serverSecureChannel_Write (
   Exit Leave))))) (Done) (
  Scope f_serverSecureChannel_ChannelID (
  If "id != ch.ChannelID()"%string (
   Do (Wr [KServer] KServer "serverDiagnosticsSummary"%string) (
   Scope f_serverSecureChannel_Write (
   Exit Leave))) (Done) (
  Scope f_serverSecureChannel_Write (
  Done)))))))).

(** /repo/server/server.go 430-504 Server.handleRequest *)
Definition f_Server_handleRequest : prog aop :=
  If "case *ua.PublishRequest"%string (
   Scope f_Server_handlePublish (
   Exit Leave)) (If "case *ua.RepublishRequest"%string (
    Scope f_Server_handleRepublish (
    Exit Leave)) (If "case *ua.ReadRequest"%string (
     Scope f_Server_handleRead (
     Exit Leave)) (If "case *ua.WriteRequest"%string (
      Scope f_Server_handleWrite (
      Exit Leave)) (If "case *ua.CallRequest"%string (
       Scope f_Server_handleCall (
       Exit Leave)) (If "case *ua.BrowseRequest"%string (
        Scope f_Server_handleBrowse (
        Exit Leave)) (If "case *ua.BrowseNextRequest"%string (
         Scope f_Server_handleBrowseNext (
         Exit Leave)) (If "case *ua.TranslateBrowsePathsToNodeIDsRequest"%string (
          Scope f_Server_handleTranslateBrowsePathsToNodeIds (
          Exit Leave)) (If "case *ua.CreateSubscriptionRequest"%string (
           Scope f_Server_handleCreateSubscription (
           Exit Leave)) (If "case *ua.ModifySubscriptionRequest"%string (
            Scope f_Server_handleModifySubscription (
            Exit Leave)) (If "case *ua.SetPublishingModeRequest"%string (
             Scope f_Server_handleSetPublishingMode (
             Exit Leave)) (If "case *ua.DeleteSubscriptionsRequest"%string (
              Scope f_Server_handleDeleteSubscriptions (
              Exit Leave)) (If "case *ua.CreateMonitoredItemsRequest"%string (
               Scope f_Server_handleCreateMonitoredItems (
               Exit Leave)) (If "case *ua.ModifyMonitoredItemsRequest"%string (
                Scope f_Server_handleModifyMonitoredItems (
                Exit Leave)) (If "case *ua.SetMonitoringModeRequest"%string (
                 Scope f_Server_handleSetMonitoringMode (
                 Exit Leave)) (If "case *ua.DeleteMonitoredItemsRequest"%string (
                  Scope f_Server_handleDeleteMonitoredItems (
                  Exit Leave)) (If "case *ua.HistoryReadRequest"%string (
                   Scope f_Server_handleHistoryRead (
                   Exit Leave)) (If "case *ua.CreateSessionRequest"%string (
                    Scope f_Server_handleCreateSession (
                    Exit Leave)) (If "case *ua.ActivateSessionRequest"%string (
                     Scope f_Server_handleActivateSession (
                     Exit Leave)) (If "case *ua.CloseSessionRequest"%string (
                      Scope f_Server_handleCloseSession (
                      Exit Leave)) (If "case *ua.OpenSecureChannelRequest"%string (
                       Scope f_serverSecureChannel_handleOpenSecureChannel (
                       Exit Leave)) (If "case *ua.CloseSecureChannelRequest"%string (
                        Exit Leave) (If "case *ua.FindServersRequest"%string (
                         Scope f_Server_findServers (
                         Exit Leave)) (If "case *ua.GetEndpointsRequest"%string (
                          Scope f_Server_getEndpoints (
                          Exit Leave)) (If "case *ua.RegisterNodesRequest"%string (
                           Scope f_Server_handleRegisterNodes (
                           Exit Leave)) (If "case *ua.UnregisterNodesRequest"%string (
                            Scope f_Server_handleUnregisterNodes (
                            Exit Leave)) (If "case *ua.SetTriggeringRequest"%string (
                             Scope f_Server_handleSetTriggering (
                             Exit Leave)) (If "case *ua.CancelRequest"%string (
                              Scope f_Server_handleCancel (
                              Exit Leave)) (Scope f_serverSecureChannel_Write (
                              Exit Leave)) (
                             Done)) (
                            Done)) (
                           Done)) (
                          Done)) (
                         Done)) (
                        Done)) (
                       Done)) (
                      Done)) (
                     Done)) (
                    Done)) (
                   Done)) (
                  Done)) (
                 Done)) (
                Done)) (
               Done)) (
              Done)) (
             Done)) (
            Done)) (
           Done)) (
          Done)) (
         Done)) (
        Done)) (
       Done)) (
      Done)) (
     Done)) (
    Done)) (
   Done)) (
  Done).

(** /repo/server/server.go 416-427 Server.requestWorker *)
Definition f_Server_requestWorker : prog aop :=
  Loop (
   Scope f_serverSecureChannel_readRequest (
   If "err != nil"%string (
    Exit Leave) (Done) (
   Scope f_Server_handleRequest (
   If "err != nil"%string (
    Exit Leave) (Done) (
   Done))))) (
  Done).

(** /repo/server/server.go 384-413 Server.handleConnection *)
Definition f_Server_handleConnection : prog aop :=
  Scope f_serverSecureChannel_Open (
  If "err != nil"%string (
   If "ok"%string (
    Scope f_serverSecureChannel_Abort (
    Done)) (Done) (
   Exit Leave)) (Done) (
  Scope f_Server_requestWorker (
  If "err != nil"%string (
   Exit Leave) (Done) (
  Done)))).

(** /repo/server/namespace_manager.go 147-168 NamespaceManager.IsSubtype *)
Definition f_NamespaceManager_IsSubtype : prog aop :=
  Loop (
   Scope (
    Scope f_NamespaceManager_FindNode (
    If "ok"%string (
     Scope f_Node_References (
     Loop (
      If "r.IsInverse && ua.ReferenceTypeIDHasSubtype == r.ReferenceTy"%string (
       Scope f_NamespaceManager_NamespaceUris (
       Exit Leave)) (Done) (
      Done)) (
     Done))) (Done) (
    Exit Leave))) (
   Done)) (
  Done).

(** /repo/server/session.go 348-359 Session.addBrowseContinuationPoint *)
Definition f_Session_addBrowseContinuationPoint : prog aop :=
  Do (L (Lk Ex KSession)) (
  Scope (
   Do (Rd [KSession] KSession "browseCPs"%string) (
   If "s.maxBrowseContinuationPoints > 0 && len(s.browseCPs) >= s.m"%string (
    Exit Leave) (Done) (
   Do (Wr [KSession] KSession "browseCPs"%string) (
   Exit Leave)))) (
  Do (L (Un Ex KSession)) (
  Done))).

(** /repo/server/server_service_set.go 1211-1332 Server.handleBrowse.task1 *)
Definition f_Server_handleBrowse_task1 : prog aop :=
  If "d.BrowseDirection < ua.BrowseDirectionForward || d.BrowseDir"%string (
   Exit Leave) (Done) (
  Scope f_Server_NamespaceManager (
  Scope f_NamespaceManager_FindNode (
  If "!ok"%string (
   Exit Leave) (Done) (
  Scope f_Session_UserIdentity (
  Scope f_Node_UserRolePermissions (
  If "!IsUserPermitted(rp, ua.PermissionTypeBrowse)"%string (
   Exit Leave) (Done) (
  If "!allTypes"%string (
   Scope f_NamespaceManager_FindNode (
   If "!ok"%string (
    Exit Leave) (Done) (
   If "rt.NodeClass() != ua.NodeClassReferenceType"%string (
    Exit Leave) (Done) (
   Done)))) (Done) (
  Scope f_Node_References (
  Loop (
   If "!(both || r.IsInverse == isInverse)"%string (
    Exit Continue) (Done) (
   If "&& ||"%string (
    Scope f_NamespaceManager_IsSubtype (
    Done)) (Done) (
   If "!(allTypes || d.ReferenceTypeID == r.ReferenceTypeID || (d.I"%string (
    Exit Continue) (Done) (
   Scope f_Server_NamespaceUris (
   Scope f_NamespaceManager_FindNode (
   If "!ok"%string (
    Exit Leave) (Done) (
   Scope f_Session_UserIdentity (
   Scope f_Node_UserRolePermissions (
   If "!IsUserPermitted(rp2, ua.PermissionTypeBrowse)"%string (
    Exit Continue) (Done) (
   If "!(allClasses || d.NodeClassMask&uint32(t.NodeClass()) != 0)"%string (
    Exit Continue) (Done) (
   If "d.ResultMask&uint32(ua.BrowseResultMaskTypeDefinition) != 0"%string (
    If "nc == ua.NodeClassObject || nc == ua.NodeClassVariable"%string (
     Scope f_Node_References (
     Done)) (Done) (
    Done)) (Done) (
   Done)))))))))))) (
  If "max > 0 && len(rds) > max"%string (
   Scope f_Session_addBrowseContinuationPoint (
   Exit Leave)) (Done) (
  Done))))))))))).

(** /repo/server/session.go 361-373 Session.removeBrowseContinuationPoint *)
Definition f_Session_removeBrowseContinuationPoint : prog aop :=
  If "cp == nil"%string (
   Exit Leave) (Done) (
  Do (L (Lk Ex KSession)) (
  Scope (
   Do (Rd [KSession] KSession "browseCPs"%string) (
   If "ok"%string (
    Do (Wr [KSession] KSession "browseCPs"%string) (
    Exit Leave)) (Done) (
   Exit Leave))) (
  Do (L (Un Ex KSession)) (
  Done)))).

(** /repo/server/server_service_set.go 1475-1517 Server.handleBrowseNext.task1 *)
Definition f_Server_handleBrowseNext_task1 : prog aop :=
  If "len(cp) == 0"%string (
   Exit Leave) (Done) (
  Scope f_Session_removeBrowseContinuationPoint (
  If "!ok"%string (
   Exit Leave) (Done) (
  If "req.ReleaseContinuationPoints"%string (
   Exit Leave) (Done) (
  If "len(rds) > max"%string (
   Scope f_Session_addBrowseContinuationPoint (
   Exit Leave)) (Done) (
  Done))))).

(** /repo/server/subscription.go 117-125 Subscription.Items *)
Definition f_Subscription_Items : prog aop :=
  Do (L (Lk Sh KSubscription)) (
  Scope (
   Do (Rd [KSubscription] KSubscription "items"%string) (
   Loop (
    Do (Rd [KSubscription] KSubscription "items"%string) (
    Done)) (
   Exit Leave))) (
  Do (L (Un Sh KSubscription)) (
  Done))).

(** /repo/server/subscription.go 651-656 Subscription.resendData *)
Definition f_Subscription_resendData : prog aop :=
  Do (L (Lk Ex KSubscription)) (
  Do (Wr [KSubscription] KSubscription "resend"%string) (
  Do (L (Un Ex KSubscription)) (
  Done))).

(** the call handlers that the server sets, or one of the application *)
Definition call_handlers : prog aop :=
  If "which handler"%string (
   Scope (
    If "len(req.InputArguments) < 1"%string (
     Exit Leave) (Done) (
    If "len(req.InputArguments) > 1"%string (
     Exit Leave) (Done) (
    If "opResult == ua.BadInvalidArgument"%string (
     Exit Leave) (Done) (
    Scope f_Server_SubscriptionManager (
    Scope f_SubscriptionManager_Get (
    If "!ok"%string (
     Exit Leave) (Done) (
    Do (Rd [] KSubscription "session"%string) (
    If "session == nil || sub.session != session"%string (
     Exit Leave) (Done) (
    Scope f_Subscription_Items (
    Loop (
     Scope f_MonitoredItem_ClientHandle (
     Done)) (
    Exit Leave))))))))))) (
   Done)) (If "which handler"%string (
    Scope (
     If "len(req.InputArguments) < 1"%string (
      Exit Leave) (Done) (
     If "len(req.InputArguments) > 1"%string (
      Exit Leave) (Done) (
     If "opResult == ua.BadInvalidArgument"%string (
      Exit Leave) (Done) (
     Scope f_Server_SubscriptionManager (
     Scope f_SubscriptionManager_Get (
     If "!ok"%string (
      Exit Leave) (Done) (
     Do (Rd [] KSubscription "session"%string) (
     If "session == nil || sub.session != session"%string (
      Exit Leave) (Done) (
     Scope f_Subscription_resendData (
     Exit Leave)))))))))) (
    Done)) (Do (L (Wt "application handler"%string)) (
    Done)) (
   Done)) (
  Done).

(** /repo/server/server_service_set.go 3618-3667 Server.handleCall.task1 *)
Definition f_Server_handleCall_task1 : prog aop :=
  Scope f_Server_NamespaceManager (
  Scope f_NamespaceManager_FindNode (
  If "!ok"%string (
   Exit Leave) (Done) (
  Scope f_Session_UserIdentity (
  Scope f_Node_UserRolePermissions (
  If "!IsUserPermitted(rp, ua.PermissionTypeBrowse)"%string (
   Exit Leave) (Done) (
  If "case *ObjectNode"%string (
   Done) (If "case *ObjectTypeNode"%string (
    Done) (Exit Leave) (
   Done)) (
  Scope f_NamespaceManager_FindNode (
  If "!ok"%string (
   Exit Leave) (Done) (
  Scope f_Session_UserIdentity (
  Scope f_Node_UserRolePermissions (
  If "!IsUserPermitted(rp, ua.PermissionTypeBrowse)"%string (
   Exit Leave) (Done) (
  If "case *MethodNode"%string (
   Scope f_Session_UserIdentity (
   Scope f_MethodNode_UserExecutable (
   If "!n3.UserExecutable(session.UserIdentity())"%string (
    Done) (Do (Rd [] KMethodNode "callMethodHandler"%string) (
    If "n3.callMethodHandler != nil"%string (
     Scope call_handlers (
     Done)) (Done) (
    Done))) (
   Done)))) (Done) (
  Done))))))))))))).

(** /repo/server/server_secure_channel.go 382-391 serverSecureChannel.Close *)
Definition f_serverSecureChannel_Close : prog aop :=
  Do (L (Lk Ex KChannel)) (
  Do (L (Un Ex KChannel)) (
  Done)).

(** /repo/server/server.go 401-403 Server.handleConnection.go1 *)
Definition f_Server_handleConnection_go1 : prog aop :=
  Do (L (Wt "channel select"%string)) (
  If "case <-srv.closing"%string (
   Scope f_serverSecureChannel_Close (
   Done)) (Done) (
  Done)).

(** /repo/server/subscription.go 305-500 Subscription.publish *)
Definition f_Subscription_publish : prog aop :=
  Do (L (Lk Ex KSubscription)) (
  Scope (
   Do (Rd [KSubscription] KSubscription "items"%string) (
   Loop (
    Do (Rd [KSubscription] KSubscription "items"%string) (
    Do (Rd [KSubscription] KSubscription "resend"%string) (
    Scope f_MonitoredItem_notificationsAvailable (
    Done)))) (
   Do (Wr [KSubscription] KSubscription "resend"%string) (
   If "case notificationsAvailable && s.publishingEnabled"%string (
    Do (Rd [KSubscription] KSubscription "session"%string) (
    If "sess == nil"%string (
     Exit Leave) (Done) (
    Scope f_Session_removePublishRequest (
    If "err != nil"%string (
     Exit Leave) (Done) (
    If "ok"%string (
     Do (Rd [KSubscription] KSubscription "items"%string) (
     Loop (
      Do (Rd [KSubscription] KSubscription "items"%string) (
      Scope f_MonitoredItem_MonitoringMode (
      If "&& ||"%string (
       Scope f_MonitoredItem_Triggered (
       Done)) (Done) (
      If "item.MonitoringMode() != ua.MonitoringModeReporting && !item"%string (
       Exit Continue) (Done) (
      If "case *EventMonitoredItem"%string (
       Scope f_EventMonitoredItem_notifications (
       Loop (
        If "ok"%string (
         Scope f_MonitoredItem_ClientHandle (
         Done)) (Done) (
        Done)) (
       Done))) (If "case *DataChangeMonitoredItem"%string (
        Scope f_DataChangeMonitoredItem_notifications (
        Loop (
         If "ok"%string (
          Scope f_MonitoredItem_ClientHandle (
          Done)) (Done) (
         Done)) (
        Done))) (Done) (
       Done)) (
      Done)))))) (
     Do (Rd [KSubscription] KSubscription "retransmissionQueue"%string) (
     Loop (
      Do (Wr [KSubscription] KSubscription "retransmissionQueue"%string) (
      Done)) (
     Do (Wr [KSubscription] KSubscription "retransmissionQueue"%string) (
     Loop (
      Do (Rd [KSubscription] KSubscription "retransmissionQueue"%string) (
      Done)) (
     Scope f_serverSecureChannel_Write (
     If "err != nil"%string (
      Exit Leave) (Done) (
     Do (Wr [KSubscription] KSubscription "isLate"%string) (
     Do (Wr [KSubscription] KSubscription "moreNotifications"%string) (
     Exit Leave))))))))))) (Done) (
    Do (Wr [KSubscription] KSubscription "isLate"%string) (
    If "s.lifetimeCount >= s.maxLifetimeCount"%string (
     Do (Rd [KSubscription] KSubscription "session"%string) (
     Do (L (Wt "channel s.session.stateChanges"%string)) (
     Scope f_SubscriptionManager_Delete (
     Scope f_Subscription_deleteImpl (
     Done))))) (Done) (
    Exit Leave)))))))) (If "s.keepAliveCount >= s.maxKeepAliveCount || s.publishRequestC"%string (
     Do (Rd [KSubscription] KSubscription "session"%string) (
     If "sess == nil"%string (
      Exit Leave) (Done) (
     Scope f_Session_removePublishRequest (
     If "err != nil"%string (
      Exit Leave) (Done) (
     If "ok"%string (
      Do (Rd [KSubscription] KSubscription "retransmissionQueue"%string) (
      Loop (
       Do (Rd [KSubscription] KSubscription "retransmissionQueue"%string) (
       Done)) (
      Scope f_serverSecureChannel_Write (
      If "err != nil"%string (
       Exit Leave) (Done) (
      Do (Wr [KSubscription] KSubscription "isLate"%string) (
      Exit Leave)))))) (Done) (
     Do (Wr [KSubscription] KSubscription "isLate"%string) (
     If "s.lifetimeCount == s.maxLifetimeCount"%string (
      Do (Rd [KSubscription] KSubscription "session"%string) (
      Do (L (Wt "channel s.session.stateChanges"%string)) (
      Scope f_SubscriptionManager_Delete (
      Scope f_Subscription_deleteImpl (
      Done))))) (Done) (
     Exit Leave)))))))) (Done) (
    Exit Leave)) (
   Done))))) (
  Do (L (Un Ex KSubscription)) (
  Done))).

(** /repo/server/subscription.go 287-294 Subscription.startPublishing.go1 *)
Definition f_Subscription_startPublishing_go1 : prog aop :=
  Loop (
   Do (L (Wt "channel select"%string)) (
   If "case <-done"%string (
    Exit Leave) (If "case t := <-ticker.C"%string (
     Scope f_Subscription_publish (
     Done)) (Done) (
    Done)) (
   Done))) (
  Done).

(** /repo/server/server_service_set.go 2022-2054 Server.target *)
Definition f_Server_target : prog aop :=
  Scope f_Server_NamespaceManager (
  Scope f_NamespaceManager_FindNode (
  If "!ok"%string (
   Exit Leave) (Done) (
  Scope f_Node_References (
  Loop (
   If "!(r.IsInverse == isInverse)"%string (
    Exit Continue) (Done) (
   If "&& ||"%string (
    Scope f_NamespaceManager_IsSubtype (
    Done)) (Done) (
   If "!(referenceTypeID == nil || r.ReferenceTypeID == referenceTy"%string (
    Exit Continue) (Done) (
   Scope f_Server_NamespaceUris (
   Scope f_NamespaceManager_FindNode (
   If "!ok"%string (
    Exit Continue) (Done) (
   If "!(targetName == t.BrowseName())"%string (
    Exit Continue) (Done) (
   Done)))))))) (
  Done))))).

(** /repo/server/server_service_set.go 1981-2019 Server.follow *)
Definition f_Server_follow : prog aop :=
  Loop (
   Scope (
    If "len(elements) == 0"%string (
     Exit Leave) (If "len(elements) == 1"%string (
      Scope f_Server_target (
      Exit Leave)) (Scope f_Server_target (
      If "err3 != nil"%string (
       Exit Leave) (Done) (
      Scope f_Server_NamespaceManager (
      Scope f_Server_NamespaceUris (
      Scope f_NamespaceManager_FindNode (
      Exit Leave)))))) (
     Done)) (
    Done)) (
   Done)) (
  Done).

(** /repo/server/server_service_set.go 1660-1700 Server.handleTranslateBrowsePathsToNodeIds.task1 *)
Definition f_Server_handleTranslateBrowsePathsToNodeIds_task1 : prog aop :=
  If "len(d.RelativePath.Elements) == 0"%string (
   Exit Leave) (Done) (
  Loop (
   If "element.TargetName.Name == ''"%string (
    Exit Leave) (Done) (
   Done)) (
  Scope f_Server_follow (
  If "err1 == ua.BadNodeIDUnknown"%string (
   Exit Leave) (Done) (
  If "err1 == ua.BadNothingToDo"%string (
   Exit Leave) (Done) (
  If "err1 == ua.BadNoMatch"%string (
   Exit Leave) (Done) (
  If "targets != nil"%string (
   Exit Leave) (Done) (
  Done))))))).

(** Value of the interface Node: the kinds of Node *)
Definition f_Node_Value : prog aop :=
  If "kind"%string (
   Scope f_VariableNode_Value (
   Done)) (Done) (
  Done).

(** /repo/server/variable_node.go 130-137 VariableNode.SetValue *)
Definition f_VariableNode_SetValue : prog aop :=
  Do (L (Lk Ex KVariableNode)) (
  Do (Wr [KVariableNode] KVariableNode "value"%string) (
  Do (Rd [KVariableNode] KVariableNode "historizing"%string) (
  If "n.historizing"%string (
   Do (L (Wt "application WriteValue"%string)) (
   Done)) (Done) (
  Do (L (Un Ex KVariableNode)) (
  Done))))).

(** the write handlers that the server sets, or one of the application *)
Definition write_handlers : prog aop :=
  If "which handler"%string (
   Scope (
    If "case uint8"%string (
     Done) (If "case uint16"%string (
      Done) (If "case uint32"%string (
       Done) (If "case uint64"%string (
        Done) (If "case int8"%string (
         Done) (If "case int16"%string (
          Done) (If "case int32"%string (
           Done) (If "case int64"%string (
            Done) (If "case float32"%string (
             Done) (If "case float64"%string (
              Done) (Exit Leave) (
             Done)) (
            Done)) (
           Done)) (
          Done)) (
         Done)) (
        Done)) (
       Done)) (
      Done)) (
     Done)) (
    Scope f_Node_Value (
    Loop (
     If "ev.Value == value"%string (
      Scope f_VariableNode_SetValue (
      Scope f_VariableNode_SetValue (
      Exit Break))) (Done) (
     Done)) (
    Exit Leave)))) (
   Done)) (Do (L (Wt "application handler"%string)) (
   Done)) (
  Done).

(** /repo/server/variable_node.go 211-215 VariableNode.SetHistorizing *)
Definition f_VariableNode_SetHistorizing : prog aop :=
  Do (L (Lk Ex KVariableNode)) (
  Do (Wr [KVariableNode] KVariableNode "historizing"%string) (
  Do (L (Un Ex KVariableNode)) (
  Done))).

(** /repo/server/server_service_set.go 5569-6060 Server.writeValue *)
Definition f_Server_writeValue : prog aop :=
  If "session == nil"%string (
   Exit Leave) (Done) (
  Scope f_Server_NamespaceManager (
  Scope f_NamespaceManager_FindNode (
  If "!ok"%string (
   Exit Leave) (Done) (
  Do (Rd [] KSession "userIdentity"%string) (
  Scope f_Node_UserRolePermissions (
  If "!IsUserPermitted(rp, ua.PermissionTypeBrowse)"%string (
   Exit Leave) (Done) (
  If "case ua.AttributeIDValue"%string (
   If "case *VariableNode"%string (
    If "(n1.AccessLevel()&ua.AccessLevelsCurrentWrite) == 0"%string (
     Exit Leave) (Done) (
    Do (Rd [] KSession "userIdentity"%string) (
    Scope f_VariableNode_UserAccessLevel (
    If "(n1.UserAccessLevel(session.userIdentity)&ua.AccessLevelsCur"%string (
     Exit Leave) (Done) (
    Scope f_Server_NamespaceManager (
    Scope f_NamespaceManager_FindVariantType (
    If "case nil"%string (
     Done) (If "case bool"%string (
      If "destType != ua.VariantTypeBoolean && destType != ua.VariantT"%string (
       Exit Leave) (Done) (
      If "destRank != ua.ValueRankScalar && destRank != ua.ValueRankSc"%string (
       Exit Leave) (Done) (
      Done))) (If "case int8"%string (
       If "destType != ua.VariantTypeSByte && destType != ua.VariantTyp"%string (
        Exit Leave) (Done) (
       If "destRank != ua.ValueRankScalar && destRank != ua.ValueRankSc"%string (
        Exit Leave) (Done) (
       Done))) (If "case uint8"%string (
        If "destType != ua.VariantTypeByte && destType != ua.VariantType"%string (
         Exit Leave) (Done) (
        If "destRank != ua.ValueRankScalar && destRank != ua.ValueRankSc"%string (
         Exit Leave) (Done) (
        Done))) (If "case int16"%string (
         If "destType != ua.VariantTypeInt16 && destType != ua.VariantTyp"%string (
          Exit Leave) (Done) (
         If "destRank != ua.ValueRankScalar && destRank != ua.ValueRankSc"%string (
          Exit Leave) (Done) (
         Done))) (If "case uint16"%string (
          If "destType != ua.VariantTypeUInt16 && destType != ua.VariantTy"%string (
           Exit Leave) (Done) (
          If "destRank != ua.ValueRankScalar && destRank != ua.ValueRankSc"%string (
           Exit Leave) (Done) (
          Done))) (If "case int32"%string (
           If "destType != ua.VariantTypeInt32 && destType != ua.VariantTyp"%string (
            Exit Leave) (Done) (
           If "destRank != ua.ValueRankScalar && destRank != ua.ValueRankSc"%string (
            Exit Leave) (Done) (
           Done))) (If "case uint32"%string (
            If "destType != ua.VariantTypeUInt32 && destType != ua.VariantTy"%string (
             Exit Leave) (Done) (
            If "destRank != ua.ValueRankScalar && destRank != ua.ValueRankSc"%string (
             Exit Leave) (Done) (
            Done))) (If "case int64"%string (
             If "destType != ua.VariantTypeInt64 && destType != ua.VariantTyp"%string (
              Exit Leave) (Done) (
             If "destRank != ua.ValueRankScalar && destRank != ua.ValueRankSc"%string (
              Exit Leave) (Done) (
             Done))) (If "case uint64"%string (
              If "destType != ua.VariantTypeUInt64 && destType != ua.VariantTy"%string (
               Exit Leave) (Done) (
              If "destRank != ua.ValueRankScalar && destRank != ua.ValueRankSc"%string (
               Exit Leave) (Done) (
              Done))) (If "case float32"%string (
               If "destType != ua.VariantTypeFloat && destType != ua.VariantTyp"%string (
                Exit Leave) (Done) (
               If "destRank != ua.ValueRankScalar && destRank != ua.ValueRankSc"%string (
                Exit Leave) (Done) (
               Done))) (If "case float64"%string (
                If "destType != ua.VariantTypeDouble && destType != ua.VariantTy"%string (
                 Exit Leave) (Done) (
                If "destRank != ua.ValueRankScalar && destRank != ua.ValueRankSc"%string (
                 Exit Leave) (Done) (
                Done))) (If "case string"%string (
                 If "len(v2) > int(srv.serverCapabilities.MaxStringLength)"%string (
                  Exit Leave) (Done) (
                 If "destType != ua.VariantTypeString && destType != ua.VariantTy"%string (
                  Exit Leave) (Done) (
                 If "destRank != ua.ValueRankScalar && destRank != ua.ValueRankSc"%string (
                  Exit Leave) (Done) (
                 Done)))) (If "case time.Time"%string (
                  If "destType != ua.VariantTypeDateTime && destType != ua.Variant"%string (
                   Exit Leave) (Done) (
                  If "destRank != ua.ValueRankScalar && destRank != ua.ValueRankSc"%string (
                   Exit Leave) (Done) (
                  Done))) (If "case uuid.UUID"%string (
                   If "destType != ua.VariantTypeGUID && destType != ua.VariantType"%string (
                    Exit Leave) (Done) (
                   If "destRank != ua.ValueRankScalar && destRank != ua.ValueRankSc"%string (
                    Exit Leave) (Done) (
                   Done))) (If "case ua.ByteString"%string (
                    If "len(v2) > int(srv.serverCapabilities.MaxByteStringLength)"%string (
                     Exit Leave) (Done) (
                    If "destType != ua.VariantTypeByteString && destType != ua.Varia"%string (
                     Exit Leave) (Done) (
                    If "destRank != ua.ValueRankScalar && destRank != ua.ValueRankSc"%string (
                     Exit Leave) (Done) (
                    Done)))) (If "case ua.XMLElement"%string (
                     If "destType != ua.VariantTypeXMLElement && destType != ua.Varia"%string (
                      Exit Leave) (Done) (
                     If "destRank != ua.ValueRankScalar && destRank != ua.ValueRankSc"%string (
                      Exit Leave) (Done) (
                     Done))) (If "case ua.NodeID"%string (
                      If "destType != ua.VariantTypeNodeID && destType != ua.VariantTy"%string (
                       Exit Leave) (Done) (
                      If "destRank != ua.ValueRankScalar && destRank != ua.ValueRankSc"%string (
                       Exit Leave) (Done) (
                      Done))) (If "case ua.ExpandedNodeID"%string (
                       If "destType != ua.VariantTypeExpandedNodeID && destType != ua.V"%string (
                        Exit Leave) (Done) (
                       If "destRank != ua.ValueRankScalar && destRank != ua.ValueRankSc"%string (
                        Exit Leave) (Done) (
                       Done))) (If "case ua.StatusCode"%string (
                        If "destType != ua.VariantTypeStatusCode && destType != ua.Varia"%string (
                         Exit Leave) (Done) (
                        If "destRank != ua.ValueRankScalar && destRank != ua.ValueRankSc"%string (
                         Exit Leave) (Done) (
                        Done))) (If "case ua.QualifiedName"%string (
                         If "destType != ua.VariantTypeQualifiedName && destType != ua.Va"%string (
                          Exit Leave) (Done) (
                         If "destRank != ua.ValueRankScalar && destRank != ua.ValueRankSc"%string (
                          Exit Leave) (Done) (
                         Done))) (If "case ua.LocalizedText"%string (
                          If "destType != ua.VariantTypeLocalizedText && destType != ua.Va"%string (
                           Exit Leave) (Done) (
                          If "destRank != ua.ValueRankScalar && destRank != ua.ValueRankSc"%string (
                           Exit Leave) (Done) (
                          Done))) (If "case []bool"%string (
                           If "len(v2) > int(srv.serverCapabilities.MaxArrayLength)"%string (
                            Exit Leave) (Done) (
                           If "destType != ua.VariantTypeBoolean && destType != ua.VariantT"%string (
                            Exit Leave) (Done) (
                           If "destRank != ua.ValueRankOneDimension && destRank != ua.Value"%string (
                            Exit Leave) (Done) (
                           Done)))) (If "case []int8"%string (
                            If "len(v2) > int(srv.serverCapabilities.MaxArrayLength)"%string (
                             Exit Leave) (Done) (
                            If "destType != ua.VariantTypeSByte && destType != ua.VariantTyp"%string (
                             Exit Leave) (Done) (
                            If "destRank != ua.ValueRankOneDimension && destRank != ua.Value"%string (
                             Exit Leave) (Done) (
                            Done)))) (If "case []uint8"%string (
                             If "len(v2) > int(srv.serverCapabilities.MaxArrayLength)"%string (
                              Exit Leave) (Done) (
                             If "destType != ua.VariantTypeByte && destType != ua.VariantType"%string (
                              Exit Leave) (Done) (
                             If "destRank != ua.ValueRankOneDimension && destRank != ua.Value"%string (
                              Exit Leave) (Done) (
                             Done)))) (If "case []int16"%string (
                              If "len(v2) > int(srv.serverCapabilities.MaxArrayLength)"%string (
                               Exit Leave) (Done) (
                              If "destType != ua.VariantTypeInt16 && destType != ua.VariantTyp"%string (
                               Exit Leave) (Done) (
                              If "destRank != ua.ValueRankOneDimension && destRank != ua.Value"%string (
                               Exit Leave) (Done) (
                              Done)))) (If "case []uint16"%string (
                               If "len(v2) > int(srv.serverCapabilities.MaxArrayLength)"%string (
                                Exit Leave) (Done) (
                               If "destType != ua.VariantTypeUInt16 && destType != ua.VariantTy"%string (
                                Exit Leave) (Done) (
                               If "destRank != ua.ValueRankOneDimension && destRank != ua.Value"%string (
                                Exit Leave) (Done) (
                               Done)))) (If "case []int32"%string (
                                If "len(v2) > int(srv.serverCapabilities.MaxArrayLength)"%string (
                                 Exit Leave) (Done) (
                                If "destType != ua.VariantTypeInt32 && destType != ua.VariantTyp"%string (
                                 Exit Leave) (Done) (
                                If "destRank != ua.ValueRankOneDimension && destRank != ua.Value"%string (
                                 Exit Leave) (Done) (
                                Done)))) (If "case []uint32"%string (
                                 If "len(v2) > int(srv.serverCapabilities.MaxArrayLength)"%string (
                                  Exit Leave) (Done) (
                                 If "destType != ua.VariantTypeUInt32 && destType != ua.VariantTy"%string (
                                  Exit Leave) (Done) (
                                 If "destRank != ua.ValueRankOneDimension && destRank != ua.Value"%string (
                                  Exit Leave) (Done) (
                                 Done)))) (If "case []int64"%string (
                                  If "len(v2) > int(srv.serverCapabilities.MaxArrayLength)"%string (
                                   Exit Leave) (Done) (
                                  If "destType != ua.VariantTypeInt64 && destType != ua.VariantTyp"%string (
                                   Exit Leave) (Done) (
                                  If "destRank != ua.ValueRankOneDimension && destRank != ua.Value"%string (
                                   Exit Leave) (Done) (
                                  Done)))) (If "case []uint64"%string (
                                   If "len(v2) > int(srv.serverCapabilities.MaxArrayLength)"%string (
                                    Exit Leave) (Done) (
                                   If "destType != ua.VariantTypeUInt64 && destType != ua.VariantTy"%string (
                                    Exit Leave) (Done) (
                                   If "destRank != ua.ValueRankOneDimension && destRank != ua.Value"%string (
                                    Exit Leave) (Done) (
                                   Done)))) (If "case []float32"%string (
                                    If "len(v2) > int(srv.serverCapabilities.MaxArrayLength)"%string (
                                     Exit Leave) (Done) (
                                    If "destType != ua.VariantTypeFloat && destType != ua.VariantTyp"%string (
                                     Exit Leave) (Done) (
                                    If "destRank != ua.ValueRankOneDimension && destRank != ua.Value"%string (
                                     Exit Leave) (Done) (
                                    Done)))) (If "case []float64"%string (
                                     If "len(v2) > int(srv.serverCapabilities.MaxArrayLength)"%string (
                                      Exit Leave) (Done) (
                                     If "destType != ua.VariantTypeDouble && destType != ua.VariantTy"%string (
                                      Exit Leave) (Done) (
                                     If "destRank != ua.ValueRankOneDimension && destRank != ua.Value"%string (
                                      Exit Leave) (Done) (
                                     Done)))) (If "case []string"%string (
                                      If "len(v2) > int(srv.serverCapabilities.MaxArrayLength)"%string (
                                       Exit Leave) (Done) (
                                      If "destType != ua.VariantTypeString && destType != ua.VariantTy"%string (
                                       Exit Leave) (Done) (
                                      If "destRank != ua.ValueRankOneDimension && destRank != ua.Value"%string (
                                       Exit Leave) (Done) (
                                      Done)))) (If "case []time.Time"%string (
                                       If "len(v2) > int(srv.serverCapabilities.MaxArrayLength)"%string (
                                        Exit Leave) (Done) (
                                       If "destType != ua.VariantTypeDateTime && destType != ua.Variant"%string (
                                        Exit Leave) (Done) (
                                       If "destRank != ua.ValueRankOneDimension && destRank != ua.Value"%string (
                                        Exit Leave) (Done) (
                                       Done)))) (If "case []uuid.UUID"%string (
                                        If "len(v2) > int(srv.serverCapabilities.MaxArrayLength)"%string (
                                         Exit Leave) (Done) (
                                        If "destType != ua.VariantTypeGUID && destType != ua.VariantType"%string (
                                         Exit Leave) (Done) (
                                        If "destRank != ua.ValueRankOneDimension && destRank != ua.Value"%string (
                                         Exit Leave) (Done) (
                                        Done)))) (If "case []ua.ByteString"%string (
                                         If "len(v2) > int(srv.serverCapabilities.MaxArrayLength)"%string (
                                          Exit Leave) (Done) (
                                         If "destType != ua.VariantTypeByteString && destType != ua.Varia"%string (
                                          Exit Leave) (Done) (
                                         If "destRank != ua.ValueRankOneDimension && destRank != ua.Value"%string (
                                          Exit Leave) (Done) (
                                         Done)))) (If "case []ua.XMLElement"%string (
                                          If "len(v2) > int(srv.serverCapabilities.MaxArrayLength)"%string (
                                           Exit Leave) (Done) (
                                          If "destType != ua.VariantTypeXMLElement && destType != ua.Varia"%string (
                                           Exit Leave) (Done) (
                                          If "destRank != ua.ValueRankOneDimension && destRank != ua.Value"%string (
                                           Exit Leave) (Done) (
                                          Done)))) (If "case []ua.NodeID"%string (
                                           If "len(v2) > int(srv.serverCapabilities.MaxArrayLength)"%string (
                                            Exit Leave) (Done) (
                                           If "destType != ua.VariantTypeNodeID && destType != ua.VariantTy"%string (
                                            Exit Leave) (Done) (
                                           If "destRank != ua.ValueRankOneDimension && destRank != ua.Value"%string (
                                            Exit Leave) (Done) (
                                           Done)))) (If "case []ua.ExpandedNodeID"%string (
                                            If "len(v2) > int(srv.serverCapabilities.MaxArrayLength)"%string (
                                             Exit Leave) (Done) (
                                            If "destType != ua.VariantTypeExpandedNodeID && destType != ua.V"%string (
                                             Exit Leave) (Done) (
                                            If "destRank != ua.ValueRankOneDimension && destRank != ua.Value"%string (
                                             Exit Leave) (Done) (
                                            Done)))) (If "case []ua.StatusCode"%string (
                                             If "len(v2) > int(srv.serverCapabilities.MaxArrayLength)"%string (
                                              Exit Leave) (Done) (
                                             If "destType != ua.VariantTypeStatusCode && destType != ua.Varia"%string (
                                              Exit Leave) (Done) (
                                             If "destRank != ua.ValueRankOneDimension && destRank != ua.Value"%string (
                                              Exit Leave) (Done) (
                                             Done)))) (If "case []ua.QualifiedName"%string (
                                              If "len(v2) > int(srv.serverCapabilities.MaxArrayLength)"%string (
                                               Exit Leave) (Done) (
                                              If "destType != ua.VariantTypeQualifiedName && destType != ua.Va"%string (
                                               Exit Leave) (Done) (
                                              If "destRank != ua.ValueRankOneDimension && destRank != ua.Value"%string (
                                               Exit Leave) (Done) (
                                              Done)))) (If "case []ua.LocalizedText"%string (
                                               If "len(v2) > int(srv.serverCapabilities.MaxArrayLength)"%string (
                                                Exit Leave) (Done) (
                                               If "destType != ua.VariantTypeLocalizedText && destType != ua.Va"%string (
                                                Exit Leave) (Done) (
                                               If "destRank != ua.ValueRankOneDimension && destRank != ua.Value"%string (
                                                Exit Leave) (Done) (
                                               Done)))) (If "case []ua.ExtensionObject"%string (
                                                If "len(v2) > int(srv.serverCapabilities.MaxArrayLength)"%string (
                                                 Exit Leave) (Done) (
                                                If "destType != ua.VariantTypeExtensionObject && destType != ua."%string (
                                                 Exit Leave) (Done) (
                                                If "destRank != ua.ValueRankOneDimension && destRank != ua.Value"%string (
                                                 Exit Leave) (Done) (
                                                Done)))) (If "case []ua.DataValue"%string (
                                                 If "len(v2) > int(srv.serverCapabilities.MaxArrayLength)"%string (
                                                  Exit Leave) (Done) (
                                                 If "destType != ua.VariantTypeDataValue && destType != ua.Varian"%string (
                                                  Exit Leave) (Done) (
                                                 If "destRank != ua.ValueRankOneDimension && destRank != ua.Value"%string (
                                                  Exit Leave) (Done) (
                                                 Done)))) (If "case []ua.Variant"%string (
                                                  If "len(v2) > int(srv.serverCapabilities.MaxArrayLength)"%string (
                                                   Exit Leave) (Done) (
                                                  If "destType != ua.VariantTypeVariant"%string (
                                                   Exit Leave) (Done) (
                                                  If "destRank != ua.ValueRankOneDimension && destRank != ua.Value"%string (
                                                   Exit Leave) (Done) (
                                                  Done)))) (If "case reflect.Struct"%string (
                                                   If "destType != ua.VariantTypeExtensionObject && destType != ua."%string (
                                                    Exit Leave) (Done) (
                                                   If "destRank != ua.ValueRankScalar && destRank != ua.ValueRankSc"%string (
                                                    Exit Leave) (Done) (
                                                   Done))) (If "case reflect.Slice, reflect.Array"%string (
                                                    If "destRank == ua.ValueRankScalar"%string (
                                                     Exit Leave) (Done) (
                                                    Done)) (Exit Leave) (
                                                   Done)) (
                                                  Done)) (
                                                 Done)) (
                                                Done)) (
                                               Done)) (
                                              Done)) (
                                             Done)) (
                                            Done)) (
                                           Done)) (
                                          Done)) (
                                         Done)) (
                                        Done)) (
                                       Done)) (
                                      Done)) (
                                     Done)) (
                                    Done)) (
                                   Done)) (
                                  Done)) (
                                 Done)) (
                                Done)) (
                               Done)) (
                              Done)) (
                             Done)) (
                            Done)) (
                           Done)) (
                          Done)) (
                         Done)) (
                        Done)) (
                       Done)) (
                      Done)) (
                     Done)) (
                    Done)) (
                   Done)) (
                  Done)) (
                 Done)) (
                Done)) (
               Done)) (
              Done)) (
             Done)) (
            Done)) (
           Done)) (
          Done)) (
         Done)) (
        Done)) (
       Done)) (
      Done)) (
     Done)) (
    If "f != nil"%string (
     Scope write_handlers (
     If "status == ua.Good"%string (
      Scope f_VariableNode_SetValue (
      Done)) (Done) (
     Exit Leave))) (Scope f_VariableNode_Value (
     If "status == ua.Good"%string (
      Scope f_VariableNode_SetValue (
      Done)) (Done) (
     Exit Leave))) (
    Done))))))))) (Exit Leave) (
   Done)) (If "case ua.AttributeIDHistorizing"%string (
    If "case *VariableNode"%string (
     If "!IsUserPermitted(rp, ua.PermissionTypeWriteHistorizing)"%string (
      Exit Leave) (Done) (
     If "!ok"%string (
      Exit Leave) (Done) (
     Scope f_VariableNode_SetHistorizing (
     Exit Leave)))) (Exit Leave) (
    Done)) (Exit Leave) (
   Done)) (
  Done)))))))).

(** /repo/server/server_service_set.go 2366-2368 Server.handleWrite.task1 *)
Definition f_Server_handleWrite_task1 : prog aop :=
  Scope f_Server_writeValue (
  Done).

(** /repo/server/server_service_set.go 2218-2220 Server.handleRead.task1 *)
Definition f_Server_handleRead_task1 : prog aop :=
  Scope f_Server_readValue (
  Done).

(** /repo/server/namespace_manager.go 35-42 NewNamespaceManager *)
Definition f_NewNamespaceManager : prog aop :=
  Scope f_Server_LocalDescription (
  Done).

(** /repo/server/scheduler.go 15-22 NewScheduler *)
Definition f_NewScheduler : prog aop :=
  Scope f_Server_ServerCapabilities (
  Done).

(** /repo/server/server.go 262-266 Server.MaxSessionCount *)
Definition f_Server_MaxSessionCount : prog aop :=
  Do (L (Lk Sh KServer)) (
  Do (L (Un Sh KServer)) (
  Done)).

(** /repo/server/session_manager.go 21-36 NewSessionManager *)
Definition f_NewSessionManager : prog aop :=
  Scope f_Server_MaxSessionCount (
  Done).

(** /repo/server/server.go 269-273 Server.MaxSubscriptionCount *)
Definition f_Server_MaxSubscriptionCount : prog aop :=
  Do (L (Lk Sh KServer)) (
  Do (L (Un Sh KServer)) (
  Done)).

(** /repo/server/subscription_manager.go 22-38 NewSubscriptionManager *)
Definition f_NewSubscriptionManager : prog aop :=
  Scope f_Server_MaxSubscriptionCount (
  Done).

(** /repo/server/event_monitored_item.go 225-271 EventMonitoredItem.whereClause *)
Definition f_EventMonitoredItem_whereClause : prog aop :=
  Loop (
   Scope (
    Do (Rd [KEventItem] KEventItem "eventFilter"%string) (
    If "idx >= len(mi.eventFilter.WhereClause.Elements)"%string (
     Exit Leave) (Done) (
    Do (Rd [KEventItem] KEventItem "eventFilter"%string) (
    If "case ua.FilterOperatorEquals"%string (
     If "case ua.LiteralOperand"%string (
      Done) (If "case ua.SimpleAttributeOperand"%string (
       Done) (If "case ua.ElementOperand"%string (
        Done) (Exit Leave) (
       Done)) (
      Done)) (
     If "case ua.LiteralOperand"%string (
      Done) (If "case ua.SimpleAttributeOperand"%string (
       Done) (If "case ua.ElementOperand"%string (
        Done) (Exit Leave) (
       Done)) (
      Done)) (
     Exit Leave))) (If "case ua.FilterOperatorOfType"%string (
      If "ok"%string (
       If "ok"%string (
        If "ok"%string (
         If "&& ||"%string (
          Scope f_NamespaceManager_IsSubtype (
          Done)) (Done) (
         If "c == b || mi.srv.namespaceManager.IsSubtype(c, b)"%string (
          Exit Leave) (Done) (
         Done))) (Done) (
        Done)) (Done) (
       Done)) (Done) (
      Exit Leave)) (Exit Leave) (
     Done)) (
    Done))))) (
   Done)) (
  Done).

(** /repo/server/event_monitored_item.go 273-280 EventMonitoredItem.selectFields *)
Definition f_EventMonitoredItem_selectFields : prog aop :=
  Do (Rd [KEventItem] KEventItem "eventFilter"%string) (
  Done).

(** /repo/server/event_monitored_item.go 184-211 EventMonitoredItem.enqueue *)
Definition f_EventMonitoredItem_enqueue : prog aop :=
  Do (Rd [KEventItem] KEventItem "discardOldest"%string) (
  Do (Rd [KEventItem] KEventItem "queue"%string) (
  Do (Rd [KEventItem] KEventItem "queueSize"%string) (
  Loop (
   Do (Rd [KEventItem] KEventItem "queueSize"%string) (
   Do (Wr [KEventItem] KEventItem "queue"%string) (
   Done))) (
  Do (Wr [KEventItem] KEventItem "queue"%string) (
  Do (Rd [KEventItem] KEventItem "queueSize"%string) (
  If "overflow && mi.queueSize > 1"%string (
   Do (Rd [KEventItem] KEventItem "sub"%string) (
   Do (Wr [] KSubscription "monitoringQueueOverflowCount"%string) (
   Done))) (Done) (
  Do (Rd [KEventItem] KEventItem "triggeredItems"%string) (
  If "mi.triggeredItems != nil"%string (
   Do (Rd [KEventItem] KEventItem "triggeredItems"%string) (
   Loop (
    Scope f_MonitoredItem_SetTriggered (
    Done)) (
   Done))) (Done) (
  Done))))))))).

(** /repo/server/event_monitored_item.go 213-219 EventMonitoredItem.OnEvent *)
Definition f_EventMonitoredItem_OnEvent : prog aop :=
  Do (L (Lk Ex KEventItem)) (
  Scope f_EventMonitoredItem_whereClause (
  If "ok && res"%string (
   Scope f_EventMonitoredItem_selectFields (
   Scope f_EventMonitoredItem_enqueue (
   Done))) (Done) (
  Do (L (Un Ex KEventItem)) (
  Done)))).

(** /repo/server/method_node.go 139-143 MethodNode.SetCallMethodHandler *)
Definition f_MethodNode_SetCallMethodHandler : prog aop :=
  Do (L (Lk Ex KMethodNode)) (
  Do (Wr [KMethodNode] KMethodNode "callMethodHandler"%string) (
  Do (L (Un Ex KMethodNode)) (
  Done))).

(** /repo/server/namespace_manager.go 46-56 NamespaceManager.Add *)
Definition f_NamespaceManager_Add : prog aop :=
  Do (L (Lk Ex KNamespaceManager)) (
  Scope (
   Do (Rd [KNamespaceManager] KNamespaceManager "namespaces"%string) (
   Loop (
    If "ns == nsu"%string (
     Exit Leave) (Done) (
    Done)) (
   Do (Wr [KNamespaceManager] KNamespaceManager "namespaces"%string) (
   Exit Leave)))) (
  Do (L (Un Ex KNamespaceManager)) (
  Done))).

(** /repo/server/namespace_manager.go 394-398 NamespaceManager.AddNode *)
Definition f_NamespaceManager_AddNode : prog aop :=
  Do (L (Lk Ex KNamespaceManager)) (
  Scope (
   Scope f_NamespaceManager_addNodes (
   Exit Leave)) (
  Do (L (Un Ex KNamespaceManager)) (
  Done))).

(** /repo/server/namespace_manager.go 497-514 NamespaceManager.DeleteNodeByID *)
Definition f_NamespaceManager_DeleteNodeByID : prog aop :=
  Do (L (Lk Ex KNamespaceManager)) (
  Scope (
   If "m.isProtectedNode(nodeId)"%string (
    Exit Leave) (Done) (
   Do (Rd [KNamespaceManager] KNamespaceManager "nodes"%string) (
   If "!ok"%string (
    Exit Leave) (Done) (
   Do (Rd [KNamespaceManager] KNamespaceManager "namespaces"%string) (
   Scope f_NamespaceManager_deleteNodeandInverseReferences (
   Exit Leave)))))) (
  Do (L (Un Ex KNamespaceManager)) (
  Done))).

(** /repo/server/namespace_manager.go 519-555 NamespaceManager.DeleteNodeByIDRecursive *)
Definition f_NamespaceManager_DeleteNodeByIDRecursive : prog aop :=
  Do (L (Lk Ex KNamespaceManager)) (
  Scope (
   If "m.isProtectedNode(nodeId)"%string (
    Exit Leave) (Done) (
   Do (Rd [KNamespaceManager] KNamespaceManager "nodes"%string) (
   If "!ok"%string (
    Exit Leave) (Done) (
   Do (Rd [KNamespaceManager] KNamespaceManager "namespaces"%string) (
   Scope f_NamespaceManager_GetChildren (
   Loop (
    If "m.isProtectedNode(child.NodeID())"%string (
     Exit Continue) (Done) (
    Do (Rd [KNamespaceManager] KNamespaceManager "namespaces"%string) (
    Scope f_NamespaceManager_deleteNodeandInverseReferences (
    If "err != nil"%string (
     Exit Leave) (Done) (
    Done))))) (
   Do (Rd [KNamespaceManager] KNamespaceManager "namespaces"%string) (
   Scope f_NamespaceManager_deleteNodeandInverseReferences (
   Exit Leave))))))))) (
  Do (L (Un Ex KNamespaceManager)) (
  Done))).

(** /repo/server/namespace_manager.go 137-144 NamespaceManager.FindMethod *)
Definition f_NamespaceManager_FindMethod : prog aop :=
  Do (L (Lk Sh KNamespaceManager)) (
  Scope (
   Do (Rd [KNamespaceManager] KNamespaceManager "nodes"%string) (
   Exit Leave)) (
  Do (L (Un Sh KNamespaceManager)) (
  Done))).

(** /repo/server/namespace_manager.go 81-88 NamespaceManager.FindObject *)
Definition f_NamespaceManager_FindObject : prog aop :=
  Do (L (Lk Sh KNamespaceManager)) (
  Scope (
   Do (Rd [KNamespaceManager] KNamespaceManager "nodes"%string) (
   Exit Leave)) (
  Do (L (Un Sh KNamespaceManager)) (
  Done))).

(** /repo/server/namespace_manager.go 101-116 NamespaceManager.FindProperty *)
Definition f_NamespaceManager_FindProperty : prog aop :=
  Do (L (Lk Sh KNamespaceManager)) (
  Scope (
   Scope f_Node_References (
   Loop (
    If "!r.IsInverse && ua.ReferenceTypeIDHasProperty == r.Reference"%string (
     Do (Rd [KNamespaceManager] KNamespaceManager "namespaces"%string) (
     Do (Rd [KNamespaceManager] KNamespaceManager "nodes"%string) (
     If "ok1"%string (
      If "browseName == node1.BrowseName()"%string (
       Exit Leave) (Done) (
      Done)) (Done) (
     Done)))) (Done) (
    Done)) (
   Exit Leave))) (
  Do (L (Un Sh KNamespaceManager)) (
  Done))).

(** /repo/server/namespace_manager.go 91-98 NamespaceManager.FindVariable *)
Definition f_NamespaceManager_FindVariable : prog aop :=
  Do (L (Lk Sh KNamespaceManager)) (
  Scope (
   Do (Rd [KNamespaceManager] KNamespaceManager "nodes"%string) (
   Exit Leave)) (
  Do (L (Un Sh KNamespaceManager)) (
  Done))).

(** /repo/server/namespace_manager.go 558-572 NamespaceManager.GetSubTypes *)
Definition f_NamespaceManager_GetSubTypes : prog aop :=
  Loop (
   Scope f_Node_References (
   Done)) (
  Done).

(** /repo/server/namespace_manager.go 59-63 NamespaceManager.Len *)
Definition f_NamespaceManager_Len : prog aop :=
  Do (L (Lk Sh KNamespaceManager)) (
  Scope (
   Do (Rd [KNamespaceManager] KNamespaceManager "namespaces"%string) (
   Exit Leave)) (
  Do (L (Un Sh KNamespaceManager)) (
  Done))).

(** /repo/server/namespace_manager.go 928-1379 toDataValue *)
Definition f_toDataValue : prog aop :=
  If "true"%string (
   If "case -1"%string (
    If "case ua.DataTypeIDBoolean"%string (
     If "s.Bool != nil"%string (
      Exit Leave) (Done) (
     Done)) (If "case ua.DataTypeIDByte"%string (
      If "s.Byte != nil"%string (
       Exit Leave) (Done) (
      Done)) (If "case ua.DataTypeIDInt16"%string (
       If "s.Int16 != nil"%string (
        Exit Leave) (Done) (
       Done)) (If "case ua.DataTypeIDUInt16"%string (
        If "s.UInt16 != nil"%string (
         Exit Leave) (Done) (
        Done)) (If "case ua.DataTypeIDInt32"%string (
         Exit Leave) (If "case ua.DataTypeIDUInt32"%string (
          If "s.UInt32 != nil"%string (
           Exit Leave) (Done) (
          Done)) (If "case ua.DataTypeIDSByte"%string (
           If "s.SByte != nil"%string (
            Exit Leave) (Done) (
           Done)) (If "case ua.DataTypeIDInt64"%string (
            If "s.Int64 != nil"%string (
             Exit Leave) (Done) (
            Done)) (If "case ua.DataTypeIDUInt64"%string (
             If "s.UInt64 != nil"%string (
              Exit Leave) (Done) (
             Done)) (If "case ua.DataTypeIDFloat"%string (
              If "s.Float != nil"%string (
               Exit Leave) (Done) (
              Done)) (If "case ua.DataTypeIDDouble"%string (
               If "s.Double != nil"%string (
                Exit Leave) (Done) (
               Done)) (If "case ua.DataTypeIDString"%string (
                If "s.String != nil"%string (
                 Exit Leave) (Done) (
                Done)) (If "case ua.DataTypeIDDateTime"%string (
                 If "s.DateTime != nil"%string (
                  Exit Leave) (Done) (
                 Done)) (If "case ua.DataTypeIDGUID"%string (
                  If "s.GUID != nil"%string (
                   If "err == nil"%string (
                    Exit Leave) (Done) (
                   Done)) (Done) (
                  Done)) (If "case ua.DataTypeIDByteString"%string (
                   If "s.ByteString != nil"%string (
                    Exit Leave) (Done) (
                   Done)) (If "case ua.DataTypeIDXMLElement"%string (
                    If "s.XMLElement != nil"%string (
                     Exit Leave) (Done) (
                    Done)) (If "case ua.DataTypeIDLocalizedText"%string (
                     If "s.LocalizedText != nil"%string (
                      Exit Leave) (Done) (
                     Done)) (If "case ua.DataTypeIDQualifiedName"%string (
                      If "s.QualifiedName != nil"%string (
                       Exit Leave) (Done) (
                      Done)) (If "case ua.DataTypeIDDuration"%string (
                       If "s.Double != nil"%string (
                        Exit Leave) (Done) (
                       Done)) (If "case ua.DataTypeIDNodeID"%string (
                        If "s.NodeID != nil"%string (
                         Exit Leave) (Done) (
                        Done)) (If "case ua.DataTypeIDExpandedNodeID"%string (
                         If "s.ExpandedNodeID != nil"%string (
                          Exit Leave) (Done) (
                         Done)) (If "case ua.DataTypeIDInteger"%string (
                          If "case s.SByte != nil"%string (
                           Exit Leave) (If "case s.Int16 != nil"%string (
                            Exit Leave) (If "case s.Int32 != nil"%string (
                             Exit Leave) (If "case s.Int64 != nil"%string (
                              Exit Leave) (Done) (
                             Done)) (
                            Done)) (
                           Done)) (
                          Done)) (If "case ua.DataTypeIDUInteger"%string (
                           If "case s.Byte != nil"%string (
                            Exit Leave) (If "case s.UInt16 != nil"%string (
                             Exit Leave) (If "case s.UInt32 != nil"%string (
                              Exit Leave) (If "case s.UInt64 != nil"%string (
                               Exit Leave) (Done) (
                              Done)) (
                             Done)) (
                            Done)) (
                           Done)) (If "case ua.DataTypeIDNumber"%string (
                            If "case s.Byte != nil"%string (
                             Exit Leave) (If "case s.UInt16 != nil"%string (
                              Exit Leave) (If "case s.UInt32 != nil"%string (
                               Exit Leave) (If "case s.UInt64 != nil"%string (
                                Exit Leave) (If "case s.SByte != nil"%string (
                                 Exit Leave) (If "case s.Int16 != nil"%string (
                                  Exit Leave) (If "case s.Int32 != nil"%string (
                                   Exit Leave) (If "case s.Int64 != nil"%string (
                                    Exit Leave) (If "case s.Float != nil"%string (
                                     Exit Leave) (If "case s.Double != nil"%string (
                                      Exit Leave) (Done) (
                                     Done)) (
                                    Done)) (
                                   Done)) (
                                  Done)) (
                                 Done)) (
                                Done)) (
                               Done)) (
                              Done)) (
                             Done)) (
                            Done)) (If "case ua.DataTypeIDBaseDataType"%string (
                             If "case s.Bool != nil"%string (
                              Exit Leave) (If "case s.Byte != nil"%string (
                               Exit Leave) (If "case s.UInt16 != nil"%string (
                                Exit Leave) (If "case s.UInt32 != nil"%string (
                                 Exit Leave) (If "case s.UInt64 != nil"%string (
                                  Exit Leave) (If "case s.SByte != nil"%string (
                                   Exit Leave) (If "case s.Int16 != nil"%string (
                                    Exit Leave) (If "case s.Int32 != nil"%string (
                                     Exit Leave) (If "case s.Int64 != nil"%string (
                                      Exit Leave) (If "case s.Float != nil"%string (
                                       Exit Leave) (If "case s.Double != nil"%string (
                                        Exit Leave) (If "case s.String != nil"%string (
                                         Exit Leave) (If "case s.DateTime != nil"%string (
                                          Exit Leave) (If "case s.GUID != nil"%string (
                                           If "err == nil"%string (
                                            Exit Leave) (Done) (
                                           Done)) (If "case s.ByteString != nil"%string (
                                            Exit Leave) (If "case s.XMLElement != nil"%string (
                                             Exit Leave) (If "case s.LocalizedText != nil"%string (
                                              Exit Leave) (If "case s.QualifiedName != nil"%string (
                                               Exit Leave) (If "case s.NodeID != nil"%string (
                                                Exit Leave) (If "case s.ExpandedNodeID != nil"%string (
                                                 Exit Leave) (Done) (
                                                Done)) (
                                               Done)) (
                                              Done)) (
                                             Done)) (
                                            Done)) (
                                           Done)) (
                                          Done)) (
                                         Done)) (
                                        Done)) (
                                       Done)) (
                                      Done)) (
                                     Done)) (
                                    Done)) (
                                   Done)) (
                                  Done)) (
                                 Done)) (
                                Done)) (
                               Done)) (
                              Done)) (
                             Done)) (If "case ua.DataTypeIDRange"%string (
                              If "s.ExtensionObject != nil"%string (
                               Exit Leave) (Done) (
                              Done)) (If "case ua.DataTypeIDEUInformation"%string (
                               If "s.ExtensionObject != nil"%string (
                                Exit Leave) (Done) (
                               Done)) (Scope f_NamespaceManager_IsSubtype (
                               If "m.IsSubtype(n2, ua.DataTypeIDEnumeration)"%string (
                                If "s.Int32 != nil"%string (
                                 Exit Leave) (Done) (
                                Done)) (Done) (
                               Exit Leave))) (
                              Done)) (
                             Done)) (
                            Done)) (
                           Done)) (
                          Done)) (
                         Done)) (
                        Done)) (
                       Done)) (
                      Done)) (
                     Done)) (
                    Done)) (
                   Done)) (
                  Done)) (
                 Done)) (
                Done)) (
               Done)) (
              Done)) (
             Done)) (
            Done)) (
           Done)) (
          Done)) (
         Done)) (
        Done)) (
       Done)) (
      Done)) (
     Done)) (
    Done)) (If "case 1"%string (
     If "case ua.DataTypeIDBoolean"%string (
      If "s.ListOfBoolean != nil"%string (
       Exit Leave) (Done) (
      Done)) (If "case ua.DataTypeIDSByte"%string (
       If "s.ListOfSByte != nil"%string (
        Exit Leave) (Done) (
       Done)) (If "case ua.DataTypeIDByte"%string (
        If "s.ListOfByte != nil"%string (
         Exit Leave) (Done) (
        Done)) (If "case ua.DataTypeIDInt16"%string (
         If "s.ListOfInt16 != nil"%string (
          Exit Leave) (Done) (
         Done)) (If "case ua.DataTypeIDUInt16"%string (
          If "s.ListOfUInt16 != nil"%string (
           Exit Leave) (Done) (
          Done)) (If "case ua.DataTypeIDInt32"%string (
           If "s.ListOfInt32 != nil"%string (
            Exit Leave) (Done) (
           Done)) (If "case ua.DataTypeIDUInt32"%string (
            If "s.ListOfUInt32 != nil"%string (
             Exit Leave) (Done) (
            Done)) (If "case ua.DataTypeIDInt64"%string (
             If "s.ListOfInt64 != nil"%string (
              Exit Leave) (Done) (
             Done)) (If "case ua.DataTypeIDUInt64"%string (
              If "s.ListOfUInt64 != nil"%string (
               Exit Leave) (Done) (
              Done)) (If "case ua.DataTypeIDFloat"%string (
               If "s.ListOfFloat != nil"%string (
                Exit Leave) (Done) (
               Done)) (If "case ua.DataTypeIDDouble"%string (
                If "s.ListOfDouble != nil"%string (
                 Exit Leave) (Done) (
                Done)) (If "case ua.DataTypeIDString"%string (
                 If "s.ListOfString != nil"%string (
                  Exit Leave) (Done) (
                 Done)) (If "case ua.DataTypeIDDateTime"%string (
                  If "s.ListOfDateTime != nil"%string (
                   Exit Leave) (Done) (
                  Done)) (If "case ua.DataTypeIDGUID"%string (
                   If "s.ListOfGUID != nil"%string (
                    Loop (
                     If "err != nil"%string (
                      Exit Leave) (Done) (
                     Done)) (
                    Exit Leave)) (Done) (
                   Done)) (If "case ua.DataTypeIDByteString"%string (
                    If "s.ListOfByteString != nil"%string (
                     Exit Leave) (Done) (
                    Done)) (If "case ua.DataTypeIDXMLElement"%string (
                     If "s.ListOfXMLElement != nil"%string (
                      Exit Leave) (Done) (
                     Done)) (If "case ua.DataTypeIDLocalizedText"%string (
                      If "s.ListOfLocalizedText != nil"%string (
                       Exit Leave) (Done) (
                      Done)) (If "case ua.DataTypeIDQualifiedName"%string (
                       If "s.ListOfQualifiedName != nil"%string (
                        Exit Leave) (Done) (
                       Done)) (If "case ua.DataTypeIDDuration"%string (
                        If "s.ListOfDouble != nil"%string (
                         Exit Leave) (Done) (
                        Done)) (If "case ua.DataTypeIDBaseDataType"%string (
                         If "s.ListOfVariant != nil"%string (
                          Exit Leave) (Done) (
                         Done)) (If "case ua.DataTypeIDArgument"%string (
                          If "s.ListOfExtensionObject != nil"%string (
                           Exit Leave) (Done) (
                          Done)) (If "case ua.DataTypeIDEnumValueType"%string (
                           If "s.ListOfExtensionObject != nil"%string (
                            Exit Leave) (Done) (
                           Done)) (Exit Leave) (
                          Done)) (
                         Done)) (
                        Done)) (
                       Done)) (
                      Done)) (
                     Done)) (
                    Done)) (
                   Done)) (
                  Done)) (
                 Done)) (
                Done)) (
               Done)) (
              Done)) (
             Done)) (
            Done)) (
           Done)) (
          Done)) (
         Done)) (
        Done)) (
       Done)) (
      Done)) (
     Done)) (Exit Leave) (
    Done)) (
   Done)) (Done) (
  Done).

(** /repo/server/namespace_manager.go 654-796 NamespaceManager.LoadNodeSetFromBuffer *)
Definition f_NamespaceManager_LoadNodeSetFromBuffer : prog aop :=
  If "err != nil"%string (
   Exit Leave) (Done) (
  Scope f_NamespaceManager_NamespaceUris (
  Loop (
   If "k != -1"%string (
    Done) (Scope f_NamespaceManager_Add (
    Done)) (
   Done)) (
  Loop (
   If "case 'UAObjectType'"%string (
    Done) (If "case 'UAVariableType'"%string (
     Scope f_toDataValue (
     Done)) (If "case 'UADataType'"%string (
      Done) (If "case 'UAReferenceType'"%string (
       Done) (If "case 'UAObject'"%string (
        Done) (If "case 'UAVariable'"%string (
         Scope f_toDataValue (
         Done)) (Done) (
        Done)) (
       Done)) (
      Done)) (
     Done)) (
    Done)) (
   Done)) (
  Scope f_NamespaceManager_AddNodes (
  Done))))).

(** /repo/server/namespace_manager.go 644-651 NamespaceManager.LoadNodeSetFromFile *)
Definition f_NamespaceManager_LoadNodeSetFromFile : prog aop :=
  If "err != nil"%string (
   Exit Leave) (Done) (
  Scope f_NamespaceManager_LoadNodeSetFromBuffer (
  Done)).

(** /repo/server/object_node.go 117-123 ObjectNode.OnEvent *)
Definition f_ObjectNode_OnEvent : prog aop :=
  Do (L (Lk Sh KObjectNode)) (
  Do (Rd [KObjectNode] KObjectNode "subs"%string) (
  Loop (
   Do (Rd [KObjectNode] KObjectNode "subs"%string) (
   Scope f_EventMonitoredItem_OnEvent (
   Done))) (
  Do (L (Un Sh KObjectNode)) (
  Done)))).

(** /repo/server/namespace_manager.go 601-621 NamespaceManager.OnEvent *)
Definition f_NamespaceManager_OnEvent : prog aop :=
  Loop (
   Scope f_ObjectNode_OnEvent (
   Scope f_ObjectNode_References (
   Loop (
    If "r.IsInverse && r.ReferenceTypeID == ua.ReferenceTypeIDHasNot"%string (
     Scope f_NamespaceManager_NamespaceUris (
     Scope f_NamespaceManager_FindObject (
     If "ok1"%string (
      Exit Break) (Done) (
     Exit Leave)))) (Done) (
    Done)) (
   If "!found"%string (
    Exit Leave) (Done) (
   Done))))) (
  Scope f_ObjectNode_OnEvent (
  Done)).

(** /repo/server/variable_node.go 225-229 VariableNode.SetWriteValueHandler *)
Definition f_VariableNode_SetWriteValueHandler : prog aop :=
  Do (L (Lk Ex KVariableNode)) (
  Do (L (Un Ex KVariableNode)) (
  Done)).

(** /repo/server/namespace_manager.go 291-338 NamespaceManager.SetMultiStateValueDiscreteTypeBehavior *)
Definition f_NamespaceManager_SetMultiStateValueDiscreteTypeBehavior : prog aop :=
  Scope f_NamespaceManager_FindProperty (
  If "!ok"%string (
   Exit Leave) (Done) (
  Scope f_NamespaceManager_FindProperty (
  If "!ok"%string (
   Exit Leave) (Done) (
  Scope f_VariableNode_SetWriteValueHandler (
  Done))))).

(** /repo/server/server.go 325-347 Server.Close *)
Definition f_Server_Close : prog aop :=
  Do (L (Lk Ex KServer)) (
  Do (Rd [KServer] KServer "state"%string) (
  If "srv.state == ua.ServerStateRunning"%string (
   Do (Wr [KServer] KServer "state"%string) (
   Do (L (Un Ex KServer)) (
   Loop (
    Do (L (Wt "time"%string)) (
    Done)) (
   Done)))) (Do (Wr [KServer] KServer "state"%string) (
   Do (L (Un Ex KServer)) (
   Done))) (
  Done))).

(** /repo/server/server.go 185-189 Server.Closing *)
Definition f_Server_Closing : prog aop :=
  Do (L (Lk Sh KServer)) (
  Do (L (Un Sh KServer)) (
  Done)).

(** /repo/server/server.go 168-172 Server.EndpointURL *)
Definition f_Server_EndpointURL : prog aop :=
  Do (L (Lk Sh KServer)) (
  Do (L (Un Sh KServer)) (
  Done)).

(** /repo/server/server.go 255-259 Server.Historian *)
Definition f_Server_Historian : prog aop :=
  Do (L (Lk Sh KServer)) (
  Do (L (Un Sh KServer)) (
  Done)).

(** /repo/server/server.go 354-381 Server.serve *)
Definition f_Server_serve : prog aop :=
  Loop (
   Do (L (Wt "network accept"%string)) (
   If "err != nil"%string (
    Scope f_Server_State (
    If "srv.State() != ua.ServerStateRunning"%string (
     Exit Leave) (Done) (
    If "ok && ne.Timeout()"%string (
     Do (L (Wt "time"%string)) (
     Exit Continue)) (Done) (
    Exit Leave)))) (Done) (
   Done))) (
  Done).

(** /repo/server/server.go 286-322 Server.ListenAndServe *)
Definition f_Server_ListenAndServe : prog aop :=
  Do (L (Lk Ex KServer)) (
  Do (Rd [KServer] KServer "state"%string) (
  If "srv.state != ua.ServerStateUnknown"%string (
   Do (L (Un Ex KServer)) (
   Exit Leave)) (Done) (
  Do (Wr [KServer] KServer "state"%string) (
  Do (L (Un Ex KServer)) (
  If "err != nil"%string (
   Exit Leave) (Done) (
  If "err != nil"%string (
   Exit Leave) (Done) (
  Scope f_Server_serve (
  Do (L (Wt "tasks"%string)) (
  Do (L (Wt "tasks"%string)) (
  Done)))))))))).

(** /repo/server/session.go 186-190 Session.AuthenticationToken *)
Definition f_Session_AuthenticationToken : prog aop :=
  Do (L (Lk Sh KSession)) (
  Do (L (Un Sh KSession)) (
  Done)).

(** /repo/server/session.go 238-242 Session.LastAccess *)
Definition f_Session_LastAccess : prog aop :=
  Do (L (Lk Sh KSession)) (
  Do (L (Un Sh KSession)) (
  Done)).

(** /repo/server/session.go 180-184 Session.SessionName *)
Definition f_Session_SessionName : prog aop :=
  Do (L (Lk Sh KSession)) (
  Do (L (Un Sh KSession)) (
  Done)).

(** /repo/server/session.go 192-196 Session.Timeout *)
Definition f_Session_Timeout : prog aop :=
  Do (L (Lk Sh KSession)) (
  Do (L (Un Sh KSession)) (
  Done)).

(** /repo/server/session_manager.go 82-86 SessionManager.Len *)
Definition f_SessionManager_Len : prog aop :=
  Do (L (Lk Sh KSessionManager)) (
  Scope (
   Do (Rd [KSessionManager] KSessionManager "sessionsByToken"%string) (
   Exit Leave)) (
  Do (L (Un Sh KSessionManager)) (
  Done))).

(** /repo/server/server_secure_channel.go 176-180 serverSecureChannel.IsExpired *)
Definition f_serverSecureChannel_IsExpired : prog aop :=
  Do (L (Lk Sh KChannel)) (
  Do (L (Un Sh KChannel)) (
  Done)).

(** /repo/server/server_secure_channel.go 131-135 serverSecureChannel.RemoteCertificate *)
Definition f_serverSecureChannel_RemoteCertificate : prog aop :=
  Do (L (Lk Sh KChannel)) (
  Do (L (Un Sh KChannel)) (
  Done)).

(** /repo/server/server_secure_channel.go 169-173 serverSecureChannel.SecurityMode *)
Definition f_serverSecureChannel_SecurityMode : prog aop :=
  Do (L (Lk Sh KChannel)) (
  Do (L (Un Sh KChannel)) (
  Done)).

(** /repo/server/server_secure_channel.go 157-159 serverSecureChannel.ServerURIs *)
Definition f_serverSecureChannel_ServerURIs : prog aop :=
  Scope f_Server_ServerUris (
  Done).

(** How a thread of the server starts: its goroutines, the tasks of the worker pool and the exported functions *)
Definition roots : list (string * prog aop) := [
  ("NewSessionManager.go1"%string, f_NewSessionManager_go1);
  ("PollGroup.run"%string, f_PollGroup_run);
  ("NewSubscriptionManager.go1"%string, f_NewSubscriptionManager_go1);
  ("Server.ListenAndServe.go1"%string, f_Server_ListenAndServe_go1);
  ("Server.handleConnection"%string, f_Server_handleConnection);
  ("Server.handleBrowse.task1"%string, f_Server_handleBrowse_task1);
  ("Server.handleBrowseNext.task1"%string, f_Server_handleBrowseNext_task1);
  ("Server.handleCall.task1"%string, f_Server_handleCall_task1);
  ("Server.handleConnection.go1"%string, f_Server_handleConnection_go1);
  ("Subscription.startPublishing.go1"%string, f_Subscription_startPublishing_go1);
  ("Server.handleTranslateBrowsePathsToNodeIds.task1"%string, f_Server_handleTranslateBrowsePathsToNodeIds_task1);
  ("Server.handleWrite.task1"%string, f_Server_handleWrite_task1);
  ("Server.handleRead.task1"%string, f_Server_handleRead_task1);
  ("NewDataChangeMonitoredItem"%string, f_NewDataChangeMonitoredItem);
  ("NewEventMonitoredItem"%string, f_NewEventMonitoredItem);
  ("NewNamespaceManager"%string, f_NewNamespaceManager);
  ("NewScheduler"%string, f_NewScheduler);
  ("NewSession"%string, f_NewSession);
  ("NewSessionManager"%string, f_NewSessionManager);
  ("NewSubscriptionManager"%string, f_NewSubscriptionManager);
  ("DataChangeMonitoredItem.AddTriggeredItem"%string, f_DataChangeMonitoredItem_AddTriggeredItem);
  ("DataChangeMonitoredItem.ClientHandle"%string, f_DataChangeMonitoredItem_ClientHandle);
  ("DataChangeMonitoredItem.Delete"%string, f_DataChangeMonitoredItem_Delete);
  ("DataChangeMonitoredItem.Modify"%string, f_DataChangeMonitoredItem_Modify);
  ("DataChangeMonitoredItem.MonitoringMode"%string, f_DataChangeMonitoredItem_MonitoringMode);
  ("DataChangeMonitoredItem.Poll"%string, f_DataChangeMonitoredItem_Poll);
  ("DataChangeMonitoredItem.QueueSize"%string, f_DataChangeMonitoredItem_QueueSize);
  ("DataChangeMonitoredItem.RemoveTriggeredItem"%string, f_DataChangeMonitoredItem_RemoveTriggeredItem);
  ("DataChangeMonitoredItem.SamplingInterval"%string, f_DataChangeMonitoredItem_SamplingInterval);
  ("DataChangeMonitoredItem.SetMonitoringMode"%string, f_DataChangeMonitoredItem_SetMonitoringMode);
  ("DataChangeMonitoredItem.SetTriggered"%string, f_DataChangeMonitoredItem_SetTriggered);
  ("DataChangeMonitoredItem.Triggered"%string, f_DataChangeMonitoredItem_Triggered);
  ("DataTypeNode.References"%string, f_DataTypeNode_References);
  ("DataTypeNode.SetReferences"%string, f_DataTypeNode_SetReferences);
  ("DataTypeNode.UserRolePermissions"%string, f_DataTypeNode_UserRolePermissions);
  ("EventMonitoredItem.AddTriggeredItem"%string, f_EventMonitoredItem_AddTriggeredItem);
  ("EventMonitoredItem.ClientHandle"%string, f_EventMonitoredItem_ClientHandle);
  ("EventMonitoredItem.Delete"%string, f_EventMonitoredItem_Delete);
  ("EventMonitoredItem.Modify"%string, f_EventMonitoredItem_Modify);
  ("EventMonitoredItem.MonitoringMode"%string, f_EventMonitoredItem_MonitoringMode);
  ("EventMonitoredItem.OnEvent"%string, f_EventMonitoredItem_OnEvent);
  ("EventMonitoredItem.QueueSize"%string, f_EventMonitoredItem_QueueSize);
  ("EventMonitoredItem.RemoveTriggeredItem"%string, f_EventMonitoredItem_RemoveTriggeredItem);
  ("EventMonitoredItem.SamplingInterval"%string, f_EventMonitoredItem_SamplingInterval);
  ("EventMonitoredItem.SetMonitoringMode"%string, f_EventMonitoredItem_SetMonitoringMode);
  ("EventMonitoredItem.SetTriggered"%string, f_EventMonitoredItem_SetTriggered);
  ("EventMonitoredItem.Triggered"%string, f_EventMonitoredItem_Triggered);
  ("MethodNode.References"%string, f_MethodNode_References);
  ("MethodNode.SetCallMethodHandler"%string, f_MethodNode_SetCallMethodHandler);
  ("MethodNode.SetReferences"%string, f_MethodNode_SetReferences);
  ("MethodNode.UserExecutable"%string, f_MethodNode_UserExecutable);
  ("MethodNode.UserRolePermissions"%string, f_MethodNode_UserRolePermissions);
  ("NamespaceManager.Add"%string, f_NamespaceManager_Add);
  ("NamespaceManager.AddNode"%string, f_NamespaceManager_AddNode);
  ("NamespaceManager.AddNodes"%string, f_NamespaceManager_AddNodes);
  ("NamespaceManager.DeleteNode"%string, f_NamespaceManager_DeleteNode);
  ("NamespaceManager.DeleteNodeByID"%string, f_NamespaceManager_DeleteNodeByID);
  ("NamespaceManager.DeleteNodeByIDRecursive"%string, f_NamespaceManager_DeleteNodeByIDRecursive);
  ("NamespaceManager.DeleteNodes"%string, f_NamespaceManager_DeleteNodes);
  ("NamespaceManager.FindComponent"%string, f_NamespaceManager_FindComponent);
  ("NamespaceManager.FindMethod"%string, f_NamespaceManager_FindMethod);
  ("NamespaceManager.FindNode"%string, f_NamespaceManager_FindNode);
  ("NamespaceManager.FindObject"%string, f_NamespaceManager_FindObject);
  ("NamespaceManager.FindProperty"%string, f_NamespaceManager_FindProperty);
  ("NamespaceManager.FindSuperType"%string, f_NamespaceManager_FindSuperType);
  ("NamespaceManager.FindVariable"%string, f_NamespaceManager_FindVariable);
  ("NamespaceManager.FindVariantType"%string, f_NamespaceManager_FindVariantType);
  ("NamespaceManager.GetChildren"%string, f_NamespaceManager_GetChildren);
  ("NamespaceManager.GetSubTypes"%string, f_NamespaceManager_GetSubTypes);
  ("NamespaceManager.IsSubtype"%string, f_NamespaceManager_IsSubtype);
  ("NamespaceManager.Len"%string, f_NamespaceManager_Len);
  ("NamespaceManager.LoadNodeSetFromBuffer"%string, f_NamespaceManager_LoadNodeSetFromBuffer);
  ("NamespaceManager.LoadNodeSetFromFile"%string, f_NamespaceManager_LoadNodeSetFromFile);
  ("NamespaceManager.NamespaceUris"%string, f_NamespaceManager_NamespaceUris);
  ("NamespaceManager.OnEvent"%string, f_NamespaceManager_OnEvent);
  ("NamespaceManager.SetMultiStateValueDiscreteTypeBehavior"%string, f_NamespaceManager_SetMultiStateValueDiscreteTypeBehavior);
  ("ObjectNode.AddEventListener"%string, f_ObjectNode_AddEventListener);
  ("ObjectNode.OnEvent"%string, f_ObjectNode_OnEvent);
  ("ObjectNode.References"%string, f_ObjectNode_References);
  ("ObjectNode.RemoveEventListener"%string, f_ObjectNode_RemoveEventListener);
  ("ObjectNode.SetReferences"%string, f_ObjectNode_SetReferences);
  ("ObjectNode.UserRolePermissions"%string, f_ObjectNode_UserRolePermissions);
  ("ObjectTypeNode.References"%string, f_ObjectTypeNode_References);
  ("ObjectTypeNode.SetReferences"%string, f_ObjectTypeNode_SetReferences);
  ("ObjectTypeNode.UserRolePermissions"%string, f_ObjectTypeNode_UserRolePermissions);
  ("PollGroup.Subscribe"%string, f_PollGroup_Subscribe);
  ("PollGroup.Unsubscribe"%string, f_PollGroup_Unsubscribe);
  ("ReferenceTypeNode.References"%string, f_ReferenceTypeNode_References);
  ("ReferenceTypeNode.SetReferences"%string, f_ReferenceTypeNode_SetReferences);
  ("ReferenceTypeNode.UserRolePermissions"%string, f_ReferenceTypeNode_UserRolePermissions);
  ("Scheduler.GetPollGroup"%string, f_Scheduler_GetPollGroup);
  ("Server.Close"%string, f_Server_Close);
  ("Server.Closing"%string, f_Server_Closing);
  ("Server.EndpointURL"%string, f_Server_EndpointURL);
  ("Server.Endpoints"%string, f_Server_Endpoints);
  ("Server.GetRoles"%string, f_Server_GetRoles);
  ("Server.Historian"%string, f_Server_Historian);
  ("Server.ListenAndServe"%string, f_Server_ListenAndServe);
  ("Server.LocalCertificate"%string, f_Server_LocalCertificate);
  ("Server.LocalDescription"%string, f_Server_LocalDescription);
  ("Server.MaxSessionCount"%string, f_Server_MaxSessionCount);
  ("Server.MaxSubscriptionCount"%string, f_Server_MaxSubscriptionCount);
  ("Server.NamespaceManager"%string, f_Server_NamespaceManager);
  ("Server.NamespaceUris"%string, f_Server_NamespaceUris);
  ("Server.RolePermissions"%string, f_Server_RolePermissions);
  ("Server.Scheduler"%string, f_Server_Scheduler);
  ("Server.ServerCapabilities"%string, f_Server_ServerCapabilities);
  ("Server.ServerUris"%string, f_Server_ServerUris);
  ("Server.SessionManager"%string, f_Server_SessionManager);
  ("Server.State"%string, f_Server_State);
  ("Server.SubscriptionManager"%string, f_Server_SubscriptionManager);
  ("Server.WorkerPool"%string, f_Server_WorkerPool);
  ("Session.AuthenticationToken"%string, f_Session_AuthenticationToken);
  ("Session.ClientCertificate"%string, f_Session_ClientCertificate);
  ("Session.IsExpired"%string, f_Session_IsExpired);
  ("Session.LastAccess"%string, f_Session_LastAccess);
  ("Session.SecureChannelId"%string, f_Session_SecureChannelId);
  ("Session.SecurityMode"%string, f_Session_SecurityMode);
  ("Session.SecurityPolicyURI"%string, f_Session_SecurityPolicyURI);
  ("Session.SessionId"%string, f_Session_SessionId);
  ("Session.SessionName"%string, f_Session_SessionName);
  ("Session.SessionNonce"%string, f_Session_SessionNonce);
  ("Session.SetLastAccess"%string, f_Session_SetLastAccess);
  ("Session.SetSecureChannelId"%string, f_Session_SetSecureChannelId);
  ("Session.SetSecurityMode"%string, f_Session_SetSecurityMode);
  ("Session.SetSecurityPolicyURI"%string, f_Session_SetSecurityPolicyURI);
  ("Session.SetSessionNonce"%string, f_Session_SetSessionNonce);
  ("Session.SetUserIdentity"%string, f_Session_SetUserIdentity);
  ("Session.Timeout"%string, f_Session_Timeout);
  ("Session.UserIdentity"%string, f_Session_UserIdentity);
  ("SessionManager.Add"%string, f_SessionManager_Add);
  ("SessionManager.Delete"%string, f_SessionManager_Delete);
  ("SessionManager.Get"%string, f_SessionManager_Get);
  ("SessionManager.Len"%string, f_SessionManager_Len);
  ("Subscription.AppendItem"%string, f_Subscription_AppendItem);
  ("Subscription.Delete"%string, f_Subscription_Delete);
  ("Subscription.DeleteItem"%string, f_Subscription_DeleteItem);
  ("Subscription.FindItem"%string, f_Subscription_FindItem);
  ("Subscription.IsExpired"%string, f_Subscription_IsExpired);
  ("Subscription.Items"%string, f_Subscription_Items);
  ("Subscription.Modify"%string, f_Subscription_Modify);
  ("Subscription.SetPublishingMode"%string, f_Subscription_SetPublishingMode);
  ("SubscriptionManager.Add"%string, f_SubscriptionManager_Add);
  ("SubscriptionManager.Delete"%string, f_SubscriptionManager_Delete);
  ("SubscriptionManager.Get"%string, f_SubscriptionManager_Get);
  ("SubscriptionManager.GetBySession"%string, f_SubscriptionManager_GetBySession);
  ("SubscriptionManager.Len"%string, f_SubscriptionManager_Len);
  ("VariableNode.Historizing"%string, f_VariableNode_Historizing);
  ("VariableNode.References"%string, f_VariableNode_References);
  ("VariableNode.SetHistorizing"%string, f_VariableNode_SetHistorizing);
  ("VariableNode.SetReadValueHandler"%string, f_VariableNode_SetReadValueHandler);
  ("VariableNode.SetReferences"%string, f_VariableNode_SetReferences);
  ("VariableNode.SetValue"%string, f_VariableNode_SetValue);
  ("VariableNode.SetWriteValueHandler"%string, f_VariableNode_SetWriteValueHandler);
  ("VariableNode.UserAccessLevel"%string, f_VariableNode_UserAccessLevel);
  ("VariableNode.UserRolePermissions"%string, f_VariableNode_UserRolePermissions);
  ("VariableNode.Value"%string, f_VariableNode_Value);
  ("VariableTypeNode.References"%string, f_VariableTypeNode_References);
  ("VariableTypeNode.SetReferences"%string, f_VariableTypeNode_SetReferences);
  ("VariableTypeNode.UserRolePermissions"%string, f_VariableTypeNode_UserRolePermissions);
  ("ViewNode.References"%string, f_ViewNode_References);
  ("ViewNode.SetReferences"%string, f_ViewNode_SetReferences);
  ("ViewNode.UserRolePermissions"%string, f_ViewNode_UserRolePermissions);
  ("serverSecureChannel.Abort"%string, f_serverSecureChannel_Abort);
  ("serverSecureChannel.ChannelID"%string, f_serverSecureChannel_ChannelID);
  ("serverSecureChannel.Close"%string, f_serverSecureChannel_Close);
  ("serverSecureChannel.IsExpired"%string, f_serverSecureChannel_IsExpired);
  ("serverSecureChannel.LocalEndpoint"%string, f_serverSecureChannel_LocalEndpoint);
  ("serverSecureChannel.NamespaceURIs"%string, f_serverSecureChannel_NamespaceURIs);
  ("serverSecureChannel.Open"%string, f_serverSecureChannel_Open);
  ("serverSecureChannel.RemoteCertificate"%string, f_serverSecureChannel_RemoteCertificate);
  ("serverSecureChannel.RemotePublicKey"%string, f_serverSecureChannel_RemotePublicKey);
  ("serverSecureChannel.SecurityMode"%string, f_serverSecureChannel_SecurityMode);
  ("serverSecureChannel.SecurityPolicyURI"%string, f_serverSecureChannel_SecurityPolicyURI);
  ("serverSecureChannel.ServerURIs"%string, f_serverSecureChannel_ServerURIs);
  ("serverSecureChannel.Write"%string, f_serverSecureChannel_Write)
].
