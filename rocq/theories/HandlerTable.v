(** The service handlers, transcribed by tools/handler_table.py from
    /repo/server/server_service_set.go in the language of Handlers.v. *)
From Coq Require Import List String.
From Verif Require Import Handlers.
Import ListNotations.

(** /repo/server/server_service_set.go 5262-5425 handlePublish *)
Definition h_Publish : prog :=
  If "ch.discoveryOnly"%string (
   Do (Inc "summary.SecurityRejectedRequestsCount"%string) (
   Do (Inc "summary.RejectedRequestsCount"%string) (
   Do (Abort "BadSecurityPolicyRejected"%string) (
   Exit Return)))) (Done) (
  Do (Act "srv.SessionManager().Get"%string) (
  If "!ok"%string (
   Do (Inc "summary.RejectedRequestsCount"%string) (
   Do (Send true "ServiceFault"%string "BadSessionIDInvalid"%string) (
   If "err != nil"%string (
    Exit Fail) (Done) (
   Exit Return)))) (Done) (
  Do (Inc "publishCount"%string) (
  Do (Inc "requestCount"%string) (
  Do (Act "session.SecureChannelId"%string) (
  If "id == 0"%string (
   Do (Inc "publishErrorCount"%string) (
   Do (Inc "errorCount"%string) (
   Do (Inc "summary.RejectedRequestsCount"%string) (
   Do (Act "srv.SessionManager().Delete"%string) (
   Do (Send true "ServiceFault"%string "BadSessionNotActivated"%string) (
   If "err != nil"%string (
    Exit Fail) (Done) (
   Exit Return))))))) (Done) (
  If "id != ch.ChannelID()"%string (
   Do (Inc "publishErrorCount"%string) (
   Do (Inc "errorCount"%string) (
   Do (Inc "summary.RejectedRequestsCount"%string) (
   Do (Send true "ServiceFault"%string "BadSecureChannelIDInvalid"%string) (
   If "err != nil"%string (
    Exit Fail) (Done) (
   Exit Return)))))) (Done) (
  Loop (
   If "ok"%string (
    Do (Act "sub.acknowledge"%string) (
    Done)) (Done) (
   Done)) (
  If "case op := <-session.stateChanges"%string (
   Do (Send true "PublishResponse"%string ""%string) (
   If "err != nil"%string (
    Exit Fail) (Done) (
   Exit Return))) (Done) (
  If "sm.Len() == 0"%string (
   Do (Inc "publishErrorCount"%string) (
   Do (Inc "errorCount"%string) (
   Do (Send true "ServiceFault"%string "BadNoSubscription"%string) (
   If "err != nil"%string (
    Exit Fail) (Done) (
   Exit Return))))) (Done) (
  Loop (
   Scope (
    If "!s.isLate"%string (
     Exit Leave) (Done) (
    If "case notificationsAvailable && s.publishingEnabled"%string (
     Loop (
      If "item.MonitoringMode() != ua.MonitoringModeReporting && !item.Triggered()"%string (
       Exit Continue) (Done) (
      Done)) (
     Loop (
      Do (Act "q.Remove"%string) (
      Done)) (
     Do (Send true "PublishResponse"%string ""%string) (
     If "err != nil"%string (
      Exit Fail) (Done) (
     Exit Return))))) (If "s.keepAliveCount >= s.maxKeepAliveCount || s.publishRequestCount == 0"%string (
      Do (Send true "PublishResponse"%string ""%string) (
      If "err != nil"%string (
       Exit Fail) (Done) (
      Exit Return))) (Done) (
     Done)) (
    Exit Leave))) (
   Done)) (
  If "session.addPublishRequest: err != nil"%string (
   Exit Fail) (Do (Queue) (
   Done)) (
  Exit Return))))))))))))).

(** /repo/server/server_service_set.go 5428-5566 handleRepublish *)
Definition h_Republish : prog :=
  If "ch.discoveryOnly"%string (
   Do (Inc "summary.SecurityRejectedRequestsCount"%string) (
   Do (Inc "summary.RejectedRequestsCount"%string) (
   Do (Abort "BadSecurityPolicyRejected"%string) (
   Exit Return)))) (Done) (
  Do (Act "srv.SessionManager().Get"%string) (
  If "!ok"%string (
   Do (Inc "summary.RejectedRequestsCount"%string) (
   Do (Send true "ServiceFault"%string "BadSessionIDInvalid"%string) (
   If "err != nil"%string (
    Exit Fail) (Done) (
   Exit Return)))) (Done) (
  Do (Inc "republishCount"%string) (
  Do (Inc "requestCount"%string) (
  Do (Act "session.SecureChannelId"%string) (
  If "id == 0"%string (
   Do (Inc "republishErrorCount"%string) (
   Do (Inc "errorCount"%string) (
   Do (Inc "summary.RejectedRequestsCount"%string) (
   Do (Act "srv.SessionManager().Delete"%string) (
   Do (Send true "ServiceFault"%string "BadSessionNotActivated"%string) (
   If "err != nil"%string (
    Exit Fail) (Done) (
   Exit Return))))))) (Done) (
  If "id != ch.ChannelID()"%string (
   Do (Inc "republishErrorCount"%string) (
   Do (Inc "errorCount"%string) (
   Do (Inc "summary.RejectedRequestsCount"%string) (
   Do (Send true "ServiceFault"%string "BadSecureChannelIDInvalid"%string) (
   If "err != nil"%string (
    Exit Fail) (Done) (
   Exit Return)))))) (Done) (
  If "!ok"%string (
   Do (Inc "republishErrorCount"%string) (
   Do (Inc "errorCount"%string) (
   Do (Inc "summary.RejectedRequestsCount"%string) (
   Do (Send true "ServiceFault"%string "BadSubscriptionIDInvalid"%string) (
   If "err != nil"%string (
    Exit Fail) (Done) (
   Exit Return)))))) (Done) (
  Loop (
   If "ok"%string (
    If "req.RetransmitSequenceNumber == nm.SequenceNumber"%string (
     Do (Send true "RepublishResponse"%string ""%string) (
     If "err != nil"%string (
      Exit Fail) (Done) (
     Do (Act "q.Remove"%string) (
     Exit Return)))) (Done) (
    Done)) (Done) (
   Done)) (
  Do (Inc "republishErrorCount"%string) (
  Do (Inc "errorCount"%string) (
  Do (Send true "ServiceFault"%string "BadMessageNotAvailable"%string) (
  If "err != nil"%string (
   Exit Fail) (Done) (
  Exit Return)))))))))))))).

(** /repo/server/server_service_set.go 2057-2240 handleRead *)
Definition h_Read : prog :=
  If "ch.discoveryOnly"%string (
   Do (Inc "summary.SecurityRejectedRequestsCount"%string) (
   Do (Inc "summary.RejectedRequestsCount"%string) (
   Do (Abort "BadSecurityPolicyRejected"%string) (
   Exit Return)))) (Done) (
  Do (Act "srv.SessionManager().Get"%string) (
  If "!ok"%string (
   Do (Inc "summary.RejectedRequestsCount"%string) (
   Do (Send true "ServiceFault"%string "BadSessionIDInvalid"%string) (
   If "err != nil"%string (
    Exit Fail) (Done) (
   Exit Return)))) (Done) (
  Do (Inc "readCount"%string) (
  Do (Inc "requestCount"%string) (
  Do (Act "session.SecureChannelId"%string) (
  If "id == 0"%string (
   Do (Inc "readErrorCount"%string) (
   Do (Inc "errorCount"%string) (
   Do (Inc "summary.RejectedRequestsCount"%string) (
   Do (Act "srv.SessionManager().Delete"%string) (
   Do (Send true "ServiceFault"%string "BadSessionNotActivated"%string) (
   If "err != nil"%string (
    Exit Fail) (Done) (
   Exit Return))))))) (Done) (
  If "id != ch.ChannelID()"%string (
   Do (Inc "readErrorCount"%string) (
   Do (Inc "errorCount"%string) (
   Do (Inc "summary.RejectedRequestsCount"%string) (
   Do (Send true "ServiceFault"%string "BadSecureChannelIDInvalid"%string) (
   If "err != nil"%string (
    Exit Fail) (Done) (
   Exit Return)))))) (Done) (
  If "req.MaxAge < 0.0"%string (
   Do (Inc "readErrorCount"%string) (
   Do (Inc "errorCount"%string) (
   Do (Inc "summary.RejectedRequestsCount"%string) (
   Do (Send true "ServiceFault"%string "BadMaxAgeInvalid"%string) (
   If "err != nil"%string (
    Exit Fail) (Done) (
   Exit Return)))))) (Done) (
  If "req.TimestampsToReturn < ua.TimestampsToReturnSource || req.TimestampsToReturn > ua.TimestampsToReturnNeither"%string (
   Do (Inc "readErrorCount"%string) (
   Do (Inc "errorCount"%string) (
   Do (Inc "summary.RejectedRequestsCount"%string) (
   Do (Send true "ServiceFault"%string "BadTimestampsToReturnInvalid"%string) (
   If "err != nil"%string (
    Exit Fail) (Done) (
   Exit Return)))))) (Done) (
  If "l == 0"%string (
   Do (Inc "readErrorCount"%string) (
   Do (Inc "errorCount"%string) (
   Do (Inc "summary.RejectedRequestsCount"%string) (
   Do (Send true "ServiceFault"%string "BadNothingToDo"%string) (
   If "err != nil"%string (
    Exit Fail) (Done) (
   Exit Return)))))) (Done) (
  If "l > int(srv.serverCapabilities.OperationLimits.MaxNodesPerRead)"%string (
   Do (Inc "readErrorCount"%string) (
   Do (Inc "errorCount"%string) (
   Do (Inc "summary.RejectedRequestsCount"%string) (
   Do (Send true "ServiceFault"%string "BadTooManyOperations"%string) (
   If "err != nil"%string (
    Exit Fail) (Done) (
   Exit Return)))))) (Done) (
  Loop (
   Scope (
    Do (Act "srv.readValue"%string) (
    Done)) (
   Done)) (
  Do (Send true "ReadResponse"%string ""%string) (
  If "err != nil"%string (
   Exit Fail) (Done) (
  Exit Return))))))))))))))).

(** /repo/server/server_service_set.go 2243-2388 handleWrite *)
Definition h_Write : prog :=
  If "ch.discoveryOnly"%string (
   Do (Inc "summary.SecurityRejectedRequestsCount"%string) (
   Do (Inc "summary.RejectedRequestsCount"%string) (
   Do (Abort "BadSecurityPolicyRejected"%string) (
   Exit Return)))) (Done) (
  Do (Act "srv.SessionManager().Get"%string) (
  If "!ok"%string (
   Do (Inc "summary.RejectedRequestsCount"%string) (
   Do (Send true "ServiceFault"%string "BadSessionIDInvalid"%string) (
   If "err != nil"%string (
    Exit Fail) (Done) (
   Exit Return)))) (Done) (
  Do (Inc "writeCount"%string) (
  Do (Inc "requestCount"%string) (
  Do (Act "session.SecureChannelId"%string) (
  If "id == 0"%string (
   Do (Inc "writeErrorCount"%string) (
   Do (Inc "errorCount"%string) (
   Do (Inc "summary.RejectedRequestsCount"%string) (
   Do (Act "srv.SessionManager().Delete"%string) (
   Do (Send true "ServiceFault"%string "BadSessionNotActivated"%string) (
   If "err != nil"%string (
    Exit Fail) (Done) (
   Exit Return))))))) (Done) (
  If "id != ch.ChannelID()"%string (
   Do (Inc "writeErrorCount"%string) (
   Do (Inc "errorCount"%string) (
   Do (Inc "summary.RejectedRequestsCount"%string) (
   Do (Send true "ServiceFault"%string "BadSecureChannelIDInvalid"%string) (
   If "err != nil"%string (
    Exit Fail) (Done) (
   Exit Return)))))) (Done) (
  If "l == 0"%string (
   Do (Inc "writeErrorCount"%string) (
   Do (Inc "errorCount"%string) (
   Do (Inc "summary.RejectedRequestsCount"%string) (
   Do (Send true "ServiceFault"%string "BadNothingToDo"%string) (
   If "err != nil"%string (
    Exit Fail) (Done) (
   Exit Return)))))) (Done) (
  If "l > int(srv.serverCapabilities.OperationLimits.MaxNodesPerWrite)"%string (
   Do (Inc "writeErrorCount"%string) (
   Do (Inc "errorCount"%string) (
   Do (Inc "summary.RejectedRequestsCount"%string) (
   Do (Send true "ServiceFault"%string "BadTooManyOperations"%string) (
   If "err != nil"%string (
    Exit Fail) (Done) (
   Exit Return)))))) (Done) (
  Loop (
   Scope (
    Do (Act "srv.writeValue"%string) (
    Done)) (
   Done)) (
  Do (Send true "WriteResponse"%string ""%string) (
  If "err != nil"%string (
   Exit Fail) (Done) (
  Exit Return))))))))))))).

(** /repo/server/server_service_set.go 3496-3687 handleCall *)
Definition h_Call : prog :=
  If "ch.discoveryOnly"%string (
   Do (Inc "summary.SecurityRejectedRequestsCount"%string) (
   Do (Inc "summary.RejectedRequestsCount"%string) (
   Do (Abort "BadSecurityPolicyRejected"%string) (
   Exit Return)))) (Done) (
  Do (Act "srv.SessionManager().Get"%string) (
  If "!ok"%string (
   Do (Inc "summary.RejectedRequestsCount"%string) (
   Do (Send true "ServiceFault"%string "BadSessionIDInvalid"%string) (
   If "err != nil"%string (
    Exit Fail) (Done) (
   Exit Return)))) (Done) (
  Do (Inc "callCount"%string) (
  Do (Inc "requestCount"%string) (
  Do (Act "session.SecureChannelId"%string) (
  If "id == 0"%string (
   Do (Inc "callErrorCount"%string) (
   Do (Inc "errorCount"%string) (
   Do (Inc "summary.RejectedRequestsCount"%string) (
   Do (Act "srv.SessionManager().Delete"%string) (
   Do (Send true "ServiceFault"%string "BadSessionNotActivated"%string) (
   If "err != nil"%string (
    Exit Fail) (Done) (
   Exit Return))))))) (Done) (
  If "id != ch.ChannelID()"%string (
   Do (Inc "callErrorCount"%string) (
   Do (Inc "errorCount"%string) (
   Do (Inc "summary.RejectedRequestsCount"%string) (
   Do (Send true "ServiceFault"%string "BadSecureChannelIDInvalid"%string) (
   If "err != nil"%string (
    Exit Fail) (Done) (
   Exit Return)))))) (Done) (
  If "l == 0"%string (
   Do (Inc "callErrorCount"%string) (
   Do (Inc "errorCount"%string) (
   Do (Inc "summary.RejectedRequestsCount"%string) (
   Do (Send true "ServiceFault"%string "BadNothingToDo"%string) (
   If "err != nil"%string (
    Exit Fail) (Done) (
   Exit Return)))))) (Done) (
  If "l > int(srv.serverCapabilities.OperationLimits.MaxNodesPerMethodCall)"%string (
   Do (Inc "callErrorCount"%string) (
   Do (Inc "errorCount"%string) (
   Do (Inc "summary.RejectedRequestsCount"%string) (
   Do (Send true "ServiceFault"%string "BadTooManyOperations"%string) (
   If "err != nil"%string (
    Exit Fail) (Done) (
   Exit Return)))))) (Done) (
  Loop (
   Scope (
    If "!ok"%string (
     Exit Leave) (Done) (
    If "!IsUserPermitted(rp, ua.PermissionTypeBrowse)"%string (
     Exit Leave) (Done) (
    If "case *ObjectNode"%string (
     Done) (If "case *ObjectTypeNode"%string (
      Done) (Exit Leave) (
     Done)) (
    If "!ok"%string (
     Exit Leave) (Done) (
    If "!IsUserPermitted(rp, ua.PermissionTypeBrowse)"%string (
     Exit Leave) (Done) (
    If "case *MethodNode"%string (
     If "!n3.UserExecutable(session.UserIdentity())"%string (
      Done) (If "n3.callMethodHandler != nil"%string (
       Do (Act "n3.callMethodHandler"%string) (
       Done)) (Done) (
      Done)) (
     Done)) (Done) (
    Done))))))) (
   Done)) (
  Do (Send true "CallResponse"%string ""%string) (
  If "err != nil"%string (
   Exit Fail) (Done) (
  Exit Return))))))))))))).

(** /repo/server/server_service_set.go 1047-1352 handleBrowse *)
Definition h_Browse : prog :=
  If "ch.discoveryOnly"%string (
   Do (Inc "summary.SecurityRejectedRequestsCount"%string) (
   Do (Inc "summary.RejectedRequestsCount"%string) (
   Do (Abort "BadSecurityPolicyRejected"%string) (
   Exit Return)))) (Done) (
  Do (Act "srv.SessionManager().Get"%string) (
  If "!ok"%string (
   Do (Inc "summary.RejectedRequestsCount"%string) (
   Do (Send true "ServiceFault"%string "BadSessionIDInvalid"%string) (
   If "err != nil"%string (
    Exit Fail) (Done) (
   Exit Return)))) (Done) (
  Do (Inc "browseCount"%string) (
  Do (Inc "requestCount"%string) (
  Do (Act "session.SecureChannelId"%string) (
  If "id == 0"%string (
   Do (Inc "browseErrorCount"%string) (
   Do (Inc "errorCount"%string) (
   Do (Inc "summary.RejectedRequestsCount"%string) (
   Do (Act "srv.SessionManager().Delete"%string) (
   Do (Send true "ServiceFault"%string "BadSessionNotActivated"%string) (
   If "err != nil"%string (
    Exit Fail) (Done) (
   Exit Return))))))) (Done) (
  If "id != ch.ChannelID()"%string (
   Do (Inc "browseErrorCount"%string) (
   Do (Inc "errorCount"%string) (
   Do (Inc "summary.RejectedRequestsCount"%string) (
   Do (Send true "ServiceFault"%string "BadSecureChannelIDInvalid"%string) (
   If "err != nil"%string (
    Exit Fail) (Done) (
   Exit Return)))))) (Done) (
  If "req.View.ViewID != nil"%string (
   If "!ok"%string (
    Do (Inc "browseErrorCount"%string) (
    Do (Inc "errorCount"%string) (
    Do (Inc "summary.RejectedRequestsCount"%string) (
    Do (Send true "ServiceFault"%string "BadViewIDUnknown"%string) (
    If "err != nil"%string (
     Exit Fail) (Done) (
    Exit Return)))))) (Done) (
   If "n.NodeClass() != ua.NodeClassView"%string (
    Do (Inc "browseErrorCount"%string) (
    Do (Inc "errorCount"%string) (
    Do (Inc "summary.RejectedRequestsCount"%string) (
    Do (Send true "ServiceFault"%string "BadViewIDUnknown"%string) (
    If "err != nil"%string (
     Exit Fail) (Done) (
    Exit Return)))))) (Done) (
   Done))) (Done) (
  If "l == 0"%string (
   Do (Inc "browseErrorCount"%string) (
   Do (Inc "errorCount"%string) (
   Do (Inc "summary.RejectedRequestsCount"%string) (
   Do (Send true "ServiceFault"%string "BadNothingToDo"%string) (
   If "err != nil"%string (
    Exit Fail) (Done) (
   Exit Return)))))) (Done) (
  If "l > int(srv.serverCapabilities.OperationLimits.MaxNodesPerBrowse)"%string (
   Do (Inc "browseErrorCount"%string) (
   Do (Inc "errorCount"%string) (
   Do (Inc "summary.RejectedRequestsCount"%string) (
   Do (Send true "ServiceFault"%string "BadTooManyOperations"%string) (
   If "err != nil"%string (
    Exit Fail) (Done) (
   Exit Return)))))) (Done) (
  Loop (
   Scope (
    If "d.BrowseDirection < ua.BrowseDirectionForward || d.BrowseDirection > ua.BrowseDirectionBoth"%string (
     Exit Leave) (Done) (
    If "!ok"%string (
     Exit Leave) (Done) (
    If "!IsUserPermitted(rp, ua.PermissionTypeBrowse)"%string (
     Exit Leave) (Done) (
    If "!allTypes"%string (
     If "!ok"%string (
      Exit Leave) (Done) (
     If "rt.NodeClass() != ua.NodeClassReferenceType"%string (
      Exit Leave) (Done) (
     Done))) (Done) (
    Loop (
     If "!(both || r.IsInverse == isInverse)"%string (
      Exit Continue) (Done) (
     If "!(allTypes || d.ReferenceTypeID == r.ReferenceTypeID || (d.IncludeSubtypes && m.IsSubtype(r.ReferenceTypeID, d.ReferenceTypeID)))"%string (
      Exit Continue) (Done) (
     If "!ok"%string (
      Exit Leave) (Done) (
     If "!IsUserPermitted(rp2, ua.PermissionTypeBrowse)"%string (
      Exit Continue) (Done) (
     If "!(allClasses || d.NodeClassMask&uint32(t.NodeClass()) != 0)"%string (
      Exit Continue) (Done) (
     If "d.ResultMask&uint32(ua.BrowseResultMaskTypeDefinition) != 0"%string (
      If "nc == ua.NodeClassObject || nc == ua.NodeClassVariable"%string (
       Loop (
        If "hasTypeDef == tr.ReferenceTypeID"%string (
         Exit Break) (Done) (
        Done)) (
       Done)) (Done) (
      Done)) (Done) (
     Done))))))) (
    If "max > 0 && len(rds) > max"%string (
     Do (Act "session.addBrowseContinuationPoint"%string) (
     If "err != nil"%string (
      Exit Leave) (Done) (
     Exit Leave))) (Done) (
    Done))))))) (
   Done)) (
  Do (Send true "BrowseResponse"%string ""%string) (
  If "err != nil"%string (
   Exit Fail) (Done) (
  Exit Return)))))))))))))).

(** /repo/server/server_service_set.go 1354-1537 handleBrowseNext *)
Definition h_BrowseNext : prog :=
  If "ch.discoveryOnly"%string (
   Do (Inc "summary.SecurityRejectedRequestsCount"%string) (
   Do (Inc "summary.RejectedRequestsCount"%string) (
   Do (Abort "BadSecurityPolicyRejected"%string) (
   Exit Return)))) (Done) (
  Do (Act "srv.SessionManager().Get"%string) (
  If "!ok"%string (
   Do (Inc "summary.RejectedRequestsCount"%string) (
   Do (Send true "ServiceFault"%string "BadSessionIDInvalid"%string) (
   If "err != nil"%string (
    Exit Fail) (Done) (
   Exit Return)))) (Done) (
  Do (Inc "browseNextCount"%string) (
  Do (Inc "requestCount"%string) (
  Do (Act "session.SecureChannelId"%string) (
  If "id == 0"%string (
   Do (Inc "browseNextErrorCount"%string) (
   Do (Inc "errorCount"%string) (
   Do (Inc "summary.RejectedRequestsCount"%string) (
   Do (Act "srv.SessionManager().Delete"%string) (
   Do (Send true "ServiceFault"%string "BadSessionNotActivated"%string) (
   If "err != nil"%string (
    Exit Fail) (Done) (
   Exit Return))))))) (Done) (
  If "id != ch.ChannelID()"%string (
   Do (Inc "browseNextErrorCount"%string) (
   Do (Inc "errorCount"%string) (
   Do (Inc "summary.RejectedRequestsCount"%string) (
   Do (Send true "ServiceFault"%string "BadSecureChannelIDInvalid"%string) (
   If "err != nil"%string (
    Exit Fail) (Done) (
   Exit Return)))))) (Done) (
  If "l == 0"%string (
   Do (Inc "browseNextErrorCount"%string) (
   Do (Inc "errorCount"%string) (
   Do (Inc "summary.RejectedRequestsCount"%string) (
   Do (Send true "ServiceFault"%string "BadNothingToDo"%string) (
   If "err != nil"%string (
    Exit Fail) (Done) (
   Exit Return)))))) (Done) (
  If "l > int(srv.serverCapabilities.OperationLimits.MaxNodesPerBrowse)"%string (
   Do (Inc "browseNextErrorCount"%string) (
   Do (Inc "errorCount"%string) (
   Do (Inc "summary.RejectedRequestsCount"%string) (
   Do (Send true "ServiceFault"%string "BadTooManyOperations"%string) (
   If "err != nil"%string (
    Exit Fail) (Done) (
   Exit Return)))))) (Done) (
  Loop (
   Scope (
    If "len(cp) == 0"%string (
     Exit Leave) (Done) (
    Do (Act "session.removeBrowseContinuationPoint"%string) (
    If "!ok"%string (
     Exit Leave) (Done) (
    If "req.ReleaseContinuationPoints"%string (
     Exit Leave) (Done) (
    If "len(rds) > max"%string (
     Do (Act "session.addBrowseContinuationPoint"%string) (
     If "err != nil"%string (
      Exit Leave) (Done) (
     Exit Leave))) (Done) (
    Done)))))) (
   Done)) (
  Do (Send true "BrowseNextResponse"%string ""%string) (
  If "err != nil"%string (
   Exit Fail) (Done) (
  Exit Return))))))))))))).

(** /repo/server/server_service_set.go 1539-1720 handleTranslateBrowsePathsToNodeIds *)
Definition h_TranslateBrowsePathsToNodeIDs : prog :=
  If "ch.discoveryOnly"%string (
   Do (Inc "summary.SecurityRejectedRequestsCount"%string) (
   Do (Inc "summary.RejectedRequestsCount"%string) (
   Do (Abort "BadSecurityPolicyRejected"%string) (
   Exit Return)))) (Done) (
  Do (Act "srv.SessionManager().Get"%string) (
  If "!ok"%string (
   Do (Inc "summary.RejectedRequestsCount"%string) (
   Do (Send true "ServiceFault"%string "BadSessionIDInvalid"%string) (
   If "err != nil"%string (
    Exit Fail) (Done) (
   Exit Return)))) (Done) (
  Do (Inc "translateBrowsePathsToNodeIdsCount"%string) (
  Do (Inc "requestCount"%string) (
  Do (Act "session.SecureChannelId"%string) (
  If "id == 0"%string (
   Do (Inc "translateBrowsePathsToNodeIdsErrorCount"%string) (
   Do (Inc "errorCount"%string) (
   Do (Inc "summary.RejectedRequestsCount"%string) (
   Do (Act "srv.SessionManager().Delete"%string) (
   Do (Send true "ServiceFault"%string "BadSessionNotActivated"%string) (
   If "err != nil"%string (
    Exit Fail) (Done) (
   Exit Return))))))) (Done) (
  If "id != ch.ChannelID()"%string (
   Do (Inc "translateBrowsePathsToNodeIdsErrorCount"%string) (
   Do (Inc "errorCount"%string) (
   Do (Inc "summary.RejectedRequestsCount"%string) (
   Do (Send true "ServiceFault"%string "BadSecureChannelIDInvalid"%string) (
   If "err != nil"%string (
    Exit Fail) (Done) (
   Exit Return)))))) (Done) (
  If "l == 0"%string (
   Do (Inc "translateBrowsePathsToNodeIdsErrorCount"%string) (
   Do (Inc "errorCount"%string) (
   Do (Inc "summary.RejectedRequestsCount"%string) (
   Do (Send true "ServiceFault"%string "BadNothingToDo"%string) (
   If "err != nil"%string (
    Exit Fail) (Done) (
   Exit Return)))))) (Done) (
  If "l > int(srv.serverCapabilities.OperationLimits.MaxNodesPerTranslateBrowsePathsToNodeIds)"%string (
   Do (Inc "translateBrowsePathsToNodeIdsErrorCount"%string) (
   Do (Inc "errorCount"%string) (
   Do (Inc "summary.RejectedRequestsCount"%string) (
   Do (Send true "ServiceFault"%string "BadTooManyOperations"%string) (
   If "err != nil"%string (
    Exit Fail) (Done) (
   Exit Return)))))) (Done) (
  Loop (
   Scope (
    If "len(d.RelativePath.Elements) == 0"%string (
     Exit Leave) (Done) (
    Loop (
     If "element.TargetName.Name == ''"%string (
      Exit Leave) (Done) (
     Done)) (
    Do (Act "srv.follow"%string) (
    If "err1 == ua.BadNodeIDUnknown"%string (
     Exit Leave) (Done) (
    If "err1 == ua.BadNothingToDo"%string (
     Exit Leave) (Done) (
    If "err1 == ua.BadNoMatch"%string (
     Exit Leave) (Done) (
    If "targets != nil"%string (
     If "len(targets) > 0"%string (
      Exit Leave) (Done) (
     Exit Leave)) (Done) (
    Done)))))))) (
   Done)) (
  Do (Send true "TranslateBrowsePathsToNodeIDsResponse"%string ""%string) (
  If "err != nil"%string (
   Exit Fail) (Done) (
  Exit Return))))))))))))).

(** /repo/server/server_service_set.go 4781-4893 handleCreateSubscription *)
Definition h_CreateSubscription : prog :=
  If "ch.discoveryOnly"%string (
   Do (Inc "summary.SecurityRejectedRequestsCount"%string) (
   Do (Inc "summary.RejectedRequestsCount"%string) (
   Do (Abort "BadSecurityPolicyRejected"%string) (
   Exit Return)))) (Done) (
  Do (Act "srv.SessionManager().Get"%string) (
  If "!ok"%string (
   Do (Inc "summary.RejectedRequestsCount"%string) (
   Do (Send true "ServiceFault"%string "BadSessionIDInvalid"%string) (
   If "err != nil"%string (
    Exit Fail) (Done) (
   Exit Return)))) (Done) (
  Do (Inc "createSubscriptionCount"%string) (
  Do (Inc "requestCount"%string) (
  Do (Act "session.SecureChannelId"%string) (
  If "id == 0"%string (
   Do (Inc "createSubscriptionErrorCount"%string) (
   Do (Inc "errorCount"%string) (
   Do (Inc "summary.RejectedRequestsCount"%string) (
   Do (Act "srv.SessionManager().Delete"%string) (
   Do (Send true "ServiceFault"%string "BadSessionNotActivated"%string) (
   If "err != nil"%string (
    Exit Fail) (Done) (
   Exit Return))))))) (Done) (
  If "id != ch.ChannelID()"%string (
   Do (Inc "createSubscriptionErrorCount"%string) (
   Do (Inc "errorCount"%string) (
   Do (Inc "summary.RejectedRequestsCount"%string) (
   Do (Send true "ServiceFault"%string "BadSecureChannelIDInvalid"%string) (
   If "err != nil"%string (
    Exit Fail) (Done) (
   Exit Return)))))) (Done) (
  Do (Act "sm.Add"%string) (
  If "err != nil"%string (
   Do (Inc "createSubscriptionErrorCount"%string) (
   Do (Inc "errorCount"%string) (
   Do (Inc "summary.RejectedRequestsCount"%string) (
   Do (Send true "ServiceFault"%string "BadTooManySubscriptions"%string) (
   If "err != nil"%string (
    Exit Fail) (Done) (
   Exit Return)))))) (Done) (
  Do (Act "s.startPublishing"%string) (
  Do (Send true "CreateSubscriptionResponse"%string ""%string) (
  If "err != nil"%string (
   Exit Fail) (Done) (
  Exit Return))))))))))))).

(** /repo/server/server_service_set.go 4896-5007 handleModifySubscription *)
Definition h_ModifySubscription : prog :=
  If "ch.discoveryOnly"%string (
   Do (Inc "summary.SecurityRejectedRequestsCount"%string) (
   Do (Inc "summary.RejectedRequestsCount"%string) (
   Do (Abort "BadSecurityPolicyRejected"%string) (
   Exit Return)))) (Done) (
  Do (Act "srv.SessionManager().Get"%string) (
  If "!ok"%string (
   Do (Inc "summary.RejectedRequestsCount"%string) (
   Do (Send true "ServiceFault"%string "BadSessionIDInvalid"%string) (
   If "err != nil"%string (
    Exit Fail) (Done) (
   Exit Return)))) (Done) (
  Do (Inc "modifySubscriptionCount"%string) (
  Do (Inc "requestCount"%string) (
  Do (Act "session.SecureChannelId"%string) (
  If "id == 0"%string (
   Do (Inc "modifySubscriptionErrorCount"%string) (
   Do (Inc "errorCount"%string) (
   Do (Inc "summary.RejectedRequestsCount"%string) (
   Do (Act "srv.SessionManager().Delete"%string) (
   Do (Send true "ServiceFault"%string "BadSessionNotActivated"%string) (
   If "err != nil"%string (
    Exit Fail) (Done) (
   Exit Return))))))) (Done) (
  If "id != ch.ChannelID()"%string (
   Do (Inc "modifySubscriptionErrorCount"%string) (
   Do (Inc "errorCount"%string) (
   Do (Inc "summary.RejectedRequestsCount"%string) (
   Do (Send true "ServiceFault"%string "BadSecureChannelIDInvalid"%string) (
   If "err != nil"%string (
    Exit Fail) (Done) (
   Exit Return)))))) (Done) (
  If "!ok || sub.sessionId != session.sessionId"%string (
   Do (Inc "modifySubscriptionErrorCount"%string) (
   Do (Inc "errorCount"%string) (
   Do (Inc "summary.RejectedRequestsCount"%string) (
   Do (Send true "ServiceFault"%string "BadSubscriptionIDInvalid"%string) (
   If "err != nil"%string (
    Exit Fail) (Done) (
   Exit Return)))))) (Done) (
  Do (Act "sub.Modify"%string) (
  Do (Send true "ModifySubscriptionResponse"%string ""%string) (
  If "err != nil"%string (
   Exit Fail) (Done) (
  Exit Return)))))))))))).

(** /repo/server/server_service_set.go 5010-5106 handleSetPublishingMode *)
Definition h_SetPublishingMode : prog :=
  If "ch.discoveryOnly"%string (
   Do (Inc "summary.SecurityRejectedRequestsCount"%string) (
   Do (Inc "summary.RejectedRequestsCount"%string) (
   Do (Abort "BadSecurityPolicyRejected"%string) (
   Exit Return)))) (Done) (
  Do (Act "srv.SessionManager().Get"%string) (
  If "!ok"%string (
   Do (Inc "summary.RejectedRequestsCount"%string) (
   Do (Send true "ServiceFault"%string "BadSessionIDInvalid"%string) (
   If "err != nil"%string (
    Exit Fail) (Done) (
   Exit Return)))) (Done) (
  Do (Inc "setPublishingModeCount"%string) (
  Do (Inc "requestCount"%string) (
  Do (Act "session.SecureChannelId"%string) (
  If "id == 0"%string (
   Do (Inc "setPublishingModeErrorCount"%string) (
   Do (Inc "errorCount"%string) (
   Do (Inc "summary.RejectedRequestsCount"%string) (
   Do (Act "srv.SessionManager().Delete"%string) (
   Do (Send true "ServiceFault"%string "BadSessionNotActivated"%string) (
   If "err != nil"%string (
    Exit Fail) (Done) (
   Exit Return))))))) (Done) (
  If "id != ch.ChannelID()"%string (
   Do (Inc "setPublishingModeErrorCount"%string) (
   Do (Inc "errorCount"%string) (
   Do (Inc "summary.RejectedRequestsCount"%string) (
   Do (Send true "ServiceFault"%string "BadSecureChannelIDInvalid"%string) (
   If "err != nil"%string (
    Exit Fail) (Done) (
   Exit Return)))))) (Done) (
  Loop (
   If "ok && sub.sessionId == session.sessionId"%string (
    Do (Act "sub.SetPublishingMode"%string) (
    Done)) (Done) (
   Done)) (
  Do (Send true "SetPublishingModeResponse"%string ""%string) (
  If "err != nil"%string (
   Exit Fail) (Done) (
  Exit Return))))))))))).

(** /repo/server/server_service_set.go 5111-5259 handleDeleteSubscriptions *)
Definition h_DeleteSubscriptions : prog :=
  If "ch.discoveryOnly"%string (
   Do (Inc "summary.SecurityRejectedRequestsCount"%string) (
   Do (Inc "summary.RejectedRequestsCount"%string) (
   Do (Abort "BadSecurityPolicyRejected"%string) (
   Exit Return)))) (Done) (
  Do (Act "srv.SessionManager().Get"%string) (
  If "!ok"%string (
   Do (Inc "summary.RejectedRequestsCount"%string) (
   Do (Send true "ServiceFault"%string "BadSessionIDInvalid"%string) (
   If "err != nil"%string (
    Exit Fail) (Done) (
   Exit Return)))) (Done) (
  Do (Inc "deleteSubscriptionsCount"%string) (
  Do (Inc "requestCount"%string) (
  Do (Act "session.SecureChannelId"%string) (
  If "id == 0"%string (
   Do (Inc "deleteSubscriptionsErrorCount"%string) (
   Do (Inc "errorCount"%string) (
   Do (Inc "summary.RejectedRequestsCount"%string) (
   Do (Act "srv.SessionManager().Delete"%string) (
   Do (Send true "ServiceFault"%string "BadSessionNotActivated"%string) (
   If "err != nil"%string (
    Exit Fail) (Done) (
   Exit Return))))))) (Done) (
  If "id != ch.ChannelID()"%string (
   Do (Inc "deleteSubscriptionsErrorCount"%string) (
   Do (Inc "errorCount"%string) (
   Do (Inc "summary.RejectedRequestsCount"%string) (
   Do (Send true "ServiceFault"%string "BadSecureChannelIDInvalid"%string) (
   If "err != nil"%string (
    Exit Fail) (Done) (
   Exit Return)))))) (Done) (
  If "l == 0"%string (
   Do (Inc "deleteSubscriptionsErrorCount"%string) (
   Do (Inc "errorCount"%string) (
   Do (Inc "summary.RejectedRequestsCount"%string) (
   Do (Send true "ServiceFault"%string "BadNothingToDo"%string) (
   If "err != nil"%string (
    Exit Fail) (Done) (
   Exit Return)))))) (Done) (
  Loop (
   If "ok && sub.sessionId == session.sessionId"%string (
    Do (Act "sm.Delete"%string) (
    Do (Act "sub.Delete"%string) (
    Done))) (Done) (
   Done)) (
  Do (Send true "DeleteSubscriptionsResponse"%string ""%string) (
  If "err != nil"%string (
   Exit Fail) (Done) (
  If "len(sm.GetBySession(session)) == 0"%string (
   Do (Act "session.removePublishRequest"%string) (
   If "err != nil"%string (
    Exit Fail) (Done) (
   Loop (
    Do (Inc "publishErrorCount"%string) (
    Do (Inc "errorCount"%string) (
    Do (Send false "ServiceFault"%string "BadNoSubscription"%string) (
    If "err != nil"%string (
     Exit Fail) (Done) (
    Do (Act "session.removePublishRequest"%string) (
    If "err != nil"%string (
     Exit Fail) (Done) (
    Done))))))) (
   Done)))) (Done) (
  Exit Return))))))))))))).

(** /repo/server/server_service_set.go 3690-3973 handleCreateMonitoredItems *)
Definition h_CreateMonitoredItems : prog :=
  If "ch.discoveryOnly"%string (
   Do (Inc "summary.SecurityRejectedRequestsCount"%string) (
   Do (Inc "summary.RejectedRequestsCount"%string) (
   Do (Abort "BadSecurityPolicyRejected"%string) (
   Exit Return)))) (Done) (
  Do (Act "srv.SessionManager().Get"%string) (
  If "!ok"%string (
   Do (Inc "summary.RejectedRequestsCount"%string) (
   Do (Send true "ServiceFault"%string "BadSessionIDInvalid"%string) (
   If "err != nil"%string (
    Exit Fail) (Done) (
   Exit Return)))) (Done) (
  Do (Inc "createMonitoredItemsCount"%string) (
  Do (Inc "requestCount"%string) (
  Do (Act "session.SecureChannelId"%string) (
  If "id == 0"%string (
   Do (Inc "createMonitoredItemsErrorCount"%string) (
   Do (Inc "errorCount"%string) (
   Do (Inc "summary.RejectedRequestsCount"%string) (
   Do (Act "srv.SessionManager().Delete"%string) (
   Do (Send true "ServiceFault"%string "BadSessionNotActivated"%string) (
   If "err != nil"%string (
    Exit Fail) (Done) (
   Exit Return))))))) (Done) (
  If "id != ch.ChannelID()"%string (
   Do (Inc "createMonitoredItemsErrorCount"%string) (
   Do (Inc "errorCount"%string) (
   Do (Inc "summary.RejectedRequestsCount"%string) (
   Do (Send true "ServiceFault"%string "BadSecureChannelIDInvalid"%string) (
   If "err != nil"%string (
    Exit Fail) (Done) (
   Exit Return)))))) (Done) (
  If "!ok"%string (
   Do (Inc "createMonitoredItemsErrorCount"%string) (
   Do (Inc "errorCount"%string) (
   Do (Inc "summary.RejectedRequestsCount"%string) (
   Do (Send true "ServiceFault"%string "BadSubscriptionIDInvalid"%string) (
   If "err != nil"%string (
    Exit Fail) (Done) (
   Exit Return)))))) (Done) (
  If "req.TimestampsToReturn < ua.TimestampsToReturnSource || req.TimestampsToReturn > ua.TimestampsToReturnNeither"%string (
   Do (Inc "createMonitoredItemsErrorCount"%string) (
   Do (Inc "errorCount"%string) (
   Do (Inc "summary.RejectedRequestsCount"%string) (
   Do (Send true "ServiceFault"%string "BadTimestampsToReturnInvalid"%string) (
   If "err != nil"%string (
    Exit Fail) (Done) (
   Exit Return)))))) (Done) (
  If "l == 0"%string (
   Do (Inc "createMonitoredItemsErrorCount"%string) (
   Do (Inc "errorCount"%string) (
   Do (Inc "summary.RejectedRequestsCount"%string) (
   Do (Send true "ServiceFault"%string "BadNothingToDo"%string) (
   If "err != nil"%string (
    Exit Fail) (Done) (
   Exit Return)))))) (Done) (
  If "l > int(srv.serverCapabilities.OperationLimits.MaxMonitoredItemsPerCall)"%string (
   Do (Inc "createMonitoredItemsErrorCount"%string) (
   Do (Inc "errorCount"%string) (
   Do (Inc "summary.RejectedRequestsCount"%string) (
   Do (Send true "ServiceFault"%string "BadTooManyOperations"%string) (
   If "err != nil"%string (
    Exit Fail) (Done) (
   Exit Return)))))) (Done) (
  Loop (
   If "!ok"%string (
    Exit Continue) (Done) (
   If "!n.IsAttributeIDValid(attr)"%string (
    Exit Continue) (Done) (
   If "case ua.AttributeIDValue"%string (
    If "!ok"%string (
     Exit Continue) (Done) (
    If "(n2.AccessLevel()&ua.AccessLevelsCurrentRead) == 0"%string (
     Exit Continue) (Done) (
    If "(n2.UserAccessLevel(session.UserIdentity())&ua.AccessLevelsCurrentRead) == 0"%string (
     Exit Continue) (Done) (
    If "sc != ua.Good"%string (
     Exit Continue) (Done) (
    If "!ok"%string (
     Exit Continue) (Done) (
    If "dcf.DeadbandType != uint32(ua.DeadbandTypeNone)"%string (
     If "case ua.VariantTypeByte, ua.VariantTypeSByte"%string (
      Done) (If "case ua.VariantTypeInt16, ua.VariantTypeInt32, ua.VariantTyp"%string (
       Done) (If "case ua.VariantTypeUInt16, ua.VariantTypeUInt32, ua.VariantT"%string (
        Done) (If "case ua.VariantTypeFloat, ua.VariantTypeDouble"%string (
         Done) (Exit Continue) (
        Done)) (
       Done)) (
      Done)) (
     Done)) (Done) (
    Do (Act "sub.AppendItem"%string) (
    Exit Continue)))))))) (If "case ua.AttributeIDEventNotifier"%string (
     If "!ok"%string (
      Exit Continue) (Done) (
     If "(n2.EventNotifier()&ua.EventNotifierSubscribeToEvents) == 0"%string (
      Exit Continue) (Done) (
     If "!IsUserPermitted(rp, ua.PermissionTypeReceiveEvents)"%string (
      Exit Continue) (Done) (
     If "!ok"%string (
      Exit Continue) (Done) (
     Do (Act "sub.AppendItem"%string) (
     Exit Continue)))))) (If "!IsUserPermitted(rp, ua.PermissionTypeBrowse)"%string (
      Exit Continue) (Done) (
     If "item.RequestedParameters.Filter != nil"%string (
      Exit Continue) (Done) (
     Do (Act "sub.AppendItem"%string) (
     Exit Continue)))) (
    Done)) (
   Done)))) (
  Do (Send true "CreateMonitoredItemsResponse"%string ""%string) (
  If "err != nil"%string (
   Exit Fail) (Done) (
  Exit Return))))))))))))))).

(** /repo/server/server_service_set.go 3976-4201 handleModifyMonitoredItems *)
Definition h_ModifyMonitoredItems : prog :=
  If "ch.discoveryOnly"%string (
   Do (Inc "summary.SecurityRejectedRequestsCount"%string) (
   Do (Inc "summary.RejectedRequestsCount"%string) (
   Do (Abort "BadSecurityPolicyRejected"%string) (
   Exit Return)))) (Done) (
  Do (Act "srv.SessionManager().Get"%string) (
  If "!ok"%string (
   Do (Inc "summary.RejectedRequestsCount"%string) (
   Do (Send true "ServiceFault"%string "BadSessionIDInvalid"%string) (
   If "err != nil"%string (
    Exit Fail) (Done) (
   Exit Return)))) (Done) (
  Do (Inc "modifyMonitoredItemsCount"%string) (
  Do (Inc "requestCount"%string) (
  Do (Act "session.SecureChannelId"%string) (
  If "id == 0"%string (
   Do (Inc "modifyMonitoredItemsErrorCount"%string) (
   Do (Inc "errorCount"%string) (
   Do (Inc "summary.RejectedRequestsCount"%string) (
   Do (Act "srv.SessionManager().Delete"%string) (
   Do (Send true "ServiceFault"%string "BadSessionNotActivated"%string) (
   If "err != nil"%string (
    Exit Fail) (Done) (
   Exit Return))))))) (Done) (
  If "id != ch.ChannelID()"%string (
   Do (Inc "modifyMonitoredItemsErrorCount"%string) (
   Do (Inc "errorCount"%string) (
   Do (Inc "summary.RejectedRequestsCount"%string) (
   Do (Send true "ServiceFault"%string "BadSecureChannelIDInvalid"%string) (
   If "err != nil"%string (
    Exit Fail) (Done) (
   Exit Return)))))) (Done) (
  If "!ok || sub.sessionId != session.sessionId"%string (
   Do (Inc "modifyMonitoredItemsErrorCount"%string) (
   Do (Inc "errorCount"%string) (
   Do (Inc "summary.RejectedRequestsCount"%string) (
   Do (Send true "ServiceFault"%string "BadSubscriptionIDInvalid"%string) (
   If "err != nil"%string (
    Exit Fail) (Done) (
   Exit Return)))))) (Done) (
  If "req.TimestampsToReturn < ua.TimestampsToReturnSource || req.TimestampsToReturn > ua.TimestampsToReturnNeither"%string (
   Do (Inc "modifyMonitoredItemsErrorCount"%string) (
   Do (Inc "errorCount"%string) (
   Do (Inc "summary.RejectedRequestsCount"%string) (
   Do (Send true "ServiceFault"%string "BadTimestampsToReturnInvalid"%string) (
   If "err != nil"%string (
    Exit Fail) (Done) (
   Exit Return)))))) (Done) (
  If "l == 0"%string (
   Do (Inc "modifyMonitoredItemsErrorCount"%string) (
   Do (Inc "errorCount"%string) (
   Do (Inc "summary.RejectedRequestsCount"%string) (
   Do (Send true "ServiceFault"%string "BadNothingToDo"%string) (
   If "err != nil"%string (
    Exit Fail) (Done) (
   Exit Return)))))) (Done) (
  If "l > int(srv.serverCapabilities.OperationLimits.MaxMonitoredItemsPerCall)"%string (
   Do (Inc "modifyMonitoredItemsErrorCount"%string) (
   Do (Inc "errorCount"%string) (
   Do (Inc "summary.RejectedRequestsCount"%string) (
   Do (Send true "ServiceFault"%string "BadTooManyOperations"%string) (
   If "err != nil"%string (
    Exit Fail) (Done) (
   Exit Return)))))) (Done) (
  Loop (
   If "ok"%string (
    If "case attr == ua.AttributeIDValue"%string (
     If "!ok"%string (
      Exit Continue) (Done) (
     If "dcf.DeadbandType != uint32(ua.DeadbandTypeNone)"%string (
      If "case ua.VariantTypeByte, ua.VariantTypeSByte"%string (
       Done) (If "case ua.VariantTypeInt16, ua.VariantTypeInt32, ua.VariantTyp"%string (
        Done) (If "case ua.VariantTypeUInt16, ua.VariantTypeUInt32, ua.VariantT"%string (
         Done) (If "case ua.VariantTypeFloat, ua.VariantTypeDouble"%string (
          Done) (Exit Continue) (
         Done)) (
        Done)) (
       Done)) (
      Done)) (Done) (
     Do (Act "item.Modify"%string) (
     Exit Continue)))) (If "case attr == ua.AttributeIDEventNotifier"%string (
      If "!ok"%string (
       Exit Continue) (Done) (
      Do (Act "item.Modify"%string) (
      Exit Continue))) (If "modifyReq.RequestedParameters.Filter != nil"%string (
       Exit Continue) (Done) (
      Do (Act "item.Modify"%string) (
      Exit Continue))) (
     Done)) (
    Done)) (Done) (
   Done)) (
  Do (Send true "ModifyMonitoredItemsResponse"%string ""%string) (
  If "err != nil"%string (
   Exit Fail) (Done) (
  Exit Return))))))))))))))).

(** /repo/server/server_service_set.go 4204-4366 handleSetMonitoringMode *)
Definition h_SetMonitoringMode : prog :=
  If "ch.discoveryOnly"%string (
   Do (Inc "summary.SecurityRejectedRequestsCount"%string) (
   Do (Inc "summary.RejectedRequestsCount"%string) (
   Do (Abort "BadSecurityPolicyRejected"%string) (
   Exit Return)))) (Done) (
  Do (Act "srv.SessionManager().Get"%string) (
  If "!ok"%string (
   Do (Inc "summary.RejectedRequestsCount"%string) (
   Do (Send true "ServiceFault"%string "BadSessionIDInvalid"%string) (
   If "err != nil"%string (
    Exit Fail) (Done) (
   Exit Return)))) (Done) (
  Do (Inc "setMonitoringModeCount"%string) (
  Do (Inc "requestCount"%string) (
  Do (Act "session.SecureChannelId"%string) (
  If "id == 0"%string (
   Do (Inc "setMonitoringModeErrorCount"%string) (
   Do (Inc "errorCount"%string) (
   Do (Inc "summary.RejectedRequestsCount"%string) (
   Do (Act "srv.SessionManager().Delete"%string) (
   Do (Send true "ServiceFault"%string "BadSessionNotActivated"%string) (
   If "err != nil"%string (
    Exit Fail) (Done) (
   Exit Return))))))) (Done) (
  If "id != ch.ChannelID()"%string (
   Do (Inc "setMonitoringModeErrorCount"%string) (
   Do (Inc "errorCount"%string) (
   Do (Inc "summary.RejectedRequestsCount"%string) (
   Do (Send true "ServiceFault"%string "BadSecureChannelIDInvalid"%string) (
   If "err != nil"%string (
    Exit Fail) (Done) (
   Exit Return)))))) (Done) (
  If "!ok"%string (
   Do (Inc "setMonitoringModeErrorCount"%string) (
   Do (Inc "errorCount"%string) (
   Do (Inc "summary.RejectedRequestsCount"%string) (
   Do (Send true "ServiceFault"%string "BadSubscriptionIDInvalid"%string) (
   If "err != nil"%string (
    Exit Fail) (Done) (
   Exit Return)))))) (Done) (
  If "l == 0"%string (
   Do (Inc "setMonitoringModeErrorCount"%string) (
   Do (Inc "errorCount"%string) (
   Do (Inc "summary.RejectedRequestsCount"%string) (
   Do (Send true "ServiceFault"%string "BadNothingToDo"%string) (
   If "err != nil"%string (
    Exit Fail) (Done) (
   Exit Return)))))) (Done) (
  If "l > int(srv.serverCapabilities.OperationLimits.MaxMonitoredItemsPerCall)"%string (
   Do (Inc "setMonitoringModeErrorCount"%string) (
   Do (Inc "errorCount"%string) (
   Do (Inc "summary.RejectedRequestsCount"%string) (
   Do (Send true "ServiceFault"%string "BadTooManyOperations"%string) (
   If "err != nil"%string (
    Exit Fail) (Done) (
   Exit Return)))))) (Done) (
  Loop (
   If "ok"%string (
    Do (Act "item.SetMonitoringMode"%string) (
    Done)) (Done) (
   Done)) (
  Do (Send true "SetMonitoringModeResponse"%string ""%string) (
  If "err != nil"%string (
   Exit Fail) (Done) (
  Exit Return)))))))))))))).

(** /repo/server/server_service_set.go 4552-4712 handleDeleteMonitoredItems *)
Definition h_DeleteMonitoredItems : prog :=
  If "ch.discoveryOnly"%string (
   Do (Inc "summary.SecurityRejectedRequestsCount"%string) (
   Do (Inc "summary.RejectedRequestsCount"%string) (
   Do (Abort "BadSecurityPolicyRejected"%string) (
   Exit Return)))) (Done) (
  Do (Act "srv.SessionManager().Get"%string) (
  If "!ok"%string (
   Do (Inc "summary.RejectedRequestsCount"%string) (
   Do (Send true "ServiceFault"%string "BadSessionIDInvalid"%string) (
   If "err != nil"%string (
    Exit Fail) (Done) (
   Exit Return)))) (Done) (
  Do (Inc "deleteMonitoredItemsCount"%string) (
  Do (Inc "requestCount"%string) (
  Do (Act "session.SecureChannelId"%string) (
  If "id == 0"%string (
   Do (Inc "deleteMonitoredItemsErrorCount"%string) (
   Do (Inc "errorCount"%string) (
   Do (Inc "summary.RejectedRequestsCount"%string) (
   Do (Act "srv.SessionManager().Delete"%string) (
   Do (Send true "ServiceFault"%string "BadSessionNotActivated"%string) (
   If "err != nil"%string (
    Exit Fail) (Done) (
   Exit Return))))))) (Done) (
  If "id != ch.ChannelID()"%string (
   Do (Inc "deleteMonitoredItemsErrorCount"%string) (
   Do (Inc "errorCount"%string) (
   Do (Inc "summary.RejectedRequestsCount"%string) (
   Do (Send true "ServiceFault"%string "BadSecureChannelIDInvalid"%string) (
   If "err != nil"%string (
    Exit Fail) (Done) (
   Exit Return)))))) (Done) (
  If "!ok"%string (
   Do (Inc "deleteMonitoredItemsErrorCount"%string) (
   Do (Inc "errorCount"%string) (
   Do (Inc "summary.RejectedRequestsCount"%string) (
   Do (Send true "ServiceFault"%string "BadSubscriptionIDInvalid"%string) (
   If "err != nil"%string (
    Exit Fail) (Done) (
   Exit Return)))))) (Done) (
  If "l == 0"%string (
   Do (Inc "deleteMonitoredItemsErrorCount"%string) (
   Do (Inc "errorCount"%string) (
   Do (Inc "summary.RejectedRequestsCount"%string) (
   Do (Send true "ServiceFault"%string "BadNothingToDo"%string) (
   If "err != nil"%string (
    Exit Fail) (Done) (
   Exit Return)))))) (Done) (
  If "l > int(srv.serverCapabilities.OperationLimits.MaxMonitoredItemsPerCall)"%string (
   Do (Inc "deleteMonitoredItemsErrorCount"%string) (
   Do (Inc "errorCount"%string) (
   Do (Inc "summary.RejectedRequestsCount"%string) (
   Do (Send true "ServiceFault"%string "BadTooManyOperations"%string) (
   If "err != nil"%string (
    Exit Fail) (Done) (
   Exit Return)))))) (Done) (
  Loop (
   Do (Act "sub.DeleteItem"%string) (
   Done)) (
  Do (Send true "DeleteMonitoredItemsResponse"%string ""%string) (
  If "err != nil"%string (
   Exit Fail) (Done) (
  Exit Return)))))))))))))).

(** /repo/server/server_service_set.go 2391-2635 handleHistoryRead *)
Definition h_HistoryRead : prog :=
  If "ch.discoveryOnly"%string (
   Do (Inc "summary.SecurityRejectedRequestsCount"%string) (
   Do (Inc "summary.RejectedRequestsCount"%string) (
   Do (Abort "BadSecurityPolicyRejected"%string) (
   Exit Return)))) (Done) (
  Do (Act "srv.SessionManager().Get"%string) (
  If "!ok"%string (
   Do (Inc "summary.RejectedRequestsCount"%string) (
   Do (Send true "ServiceFault"%string "BadSessionIDInvalid"%string) (
   If "err != nil"%string (
    Exit Fail) (Done) (
   Exit Return)))) (Done) (
  Do (Act "session.SecureChannelId"%string) (
  If "id == 0"%string (
   Do (Inc "summary.RejectedRequestsCount"%string) (
   Do (Act "srv.SessionManager().Delete"%string) (
   Do (Send true "ServiceFault"%string "BadSessionNotActivated"%string) (
   If "err != nil"%string (
    Exit Fail) (Done) (
   Exit Return))))) (Done) (
  If "id != ch.ChannelID()"%string (
   Do (Inc "summary.RejectedRequestsCount"%string) (
   Do (Send true "ServiceFault"%string "BadSecureChannelIDInvalid"%string) (
   If "err != nil"%string (
    Exit Fail) (Done) (
   Exit Return)))) (Done) (
  If "req.TimestampsToReturn < ua.TimestampsToReturnSource || req.TimestampsToReturn > ua.TimestampsToReturnBoth"%string (
   Do (Inc "summary.RejectedRequestsCount"%string) (
   Do (Send true "ServiceFault"%string "BadInvalidTimestampArgument"%string) (
   If "err != nil"%string (
    Exit Fail) (Done) (
   Exit Return)))) (Done) (
  If "l == 0"%string (
   Do (Inc "summary.RejectedRequestsCount"%string) (
   Do (Send true "ServiceFault"%string "BadNothingToDo"%string) (
   If "err != nil"%string (
    Exit Fail) (Done) (
   Exit Return)))) (Done) (
  If "l > int(srv.serverCapabilities.OperationLimits.MaxNodesPerHistoryReadData)"%string (
   Do (Inc "summary.RejectedRequestsCount"%string) (
   Do (Send true "ServiceFault"%string "BadTooManyOperations"%string) (
   If "err != nil"%string (
    Exit Fail) (Done) (
   Exit Return)))) (Done) (
  If "h == nil"%string (
   Do (Inc "summary.RejectedRequestsCount"%string) (
   Do (Send true "ServiceFault"%string "BadHistoryOperationUnsupported"%string) (
   If "err != nil"%string (
    Exit Fail) (Done) (
   Exit Return)))) (Done) (
  If "case ua.ReadEventDetails"%string (
   Do (Act "h.ReadEvent"%string) (
   Do (Send true "HistoryReadResponse"%string "?"%string) (
   If "err != nil"%string (
    Exit Fail) (Done) (
   Exit Return)))) (If "case ua.ReadRawModifiedDetails"%string (
    Do (Act "h.ReadRawModified"%string) (
    Do (Send true "HistoryReadResponse"%string "?"%string) (
    If "err != nil"%string (
     Exit Fail) (Done) (
    Exit Return)))) (If "case ua.ReadProcessedDetails"%string (
     Do (Act "h.ReadProcessed"%string) (
     Do (Send true "HistoryReadResponse"%string "?"%string) (
     If "err != nil"%string (
      Exit Fail) (Done) (
     Exit Return)))) (If "case ua.ReadAtTimeDetails"%string (
      Do (Act "h.ReadAtTime"%string) (
      Do (Send true "HistoryReadResponse"%string "?"%string) (
      If "err != nil"%string (
       Exit Fail) (Done) (
      Exit Return)))) (Done) (
     Done)) (
    Done)) (
   Done)) (
  Do (Inc "summary.RejectedRequestsCount"%string) (
  Do (Send true "ServiceFault"%string "BadHistoryOperationInvalid"%string) (
  If "err != nil"%string (
   Exit Fail) (Done) (
  Exit Return)))))))))))))).

(** /repo/server/server_service_set.go 92-277 handleCreateSession *)
Definition h_CreateSession : prog :=
  If "ch.discoveryOnly"%string (
   Do (Inc "summary.SecurityRejectedSessionCount"%string) (
   Do (Inc "summary.RejectedSessionCount"%string) (
   Do (Inc "summary.SecurityRejectedRequestsCount"%string) (
   Do (Inc "summary.RejectedRequestsCount"%string) (
   Do (Abort "BadSecurityPolicyRejected"%string) (
   Exit Return)))))) (Done) (
  If "case ua.SecurityPolicyURIBasic128Rsa15, ua.SecurityPolicyURI"%string (
   If "appuri != ''"%string (
    If "err == nil && len(crts) > 0"%string (
     Loop (
      If "crturi.String() == appuri"%string (
       Exit Break) (Done) (
      Done)) (
     Done)) (Done) (
    Done)) (Done) (
   If "!valid"%string (
    Do (Inc "summary.SecurityRejectedSessionCount"%string) (
    Do (Inc "summary.RejectedSessionCount"%string) (
    Do (Inc "summary.SecurityRejectedRequestsCount"%string) (
    Do (Inc "summary.RejectedRequestsCount"%string) (
    Do (Send true "ServiceFault"%string "BadCertificateURIInvalid"%string) (
    If "err != nil"%string (
     Exit Fail) (Done) (
    Exit Return))))))) (Done) (
   If "len(req.ClientNonce) < int(nonceLength)"%string (
    Do (Inc "summary.SecurityRejectedSessionCount"%string) (
    Do (Inc "summary.RejectedSessionCount"%string) (
    Do (Inc "summary.SecurityRejectedRequestsCount"%string) (
    Do (Inc "summary.RejectedRequestsCount"%string) (
    Do (Send true "ServiceFault"%string "BadNonceInvalid"%string) (
    If "err != nil"%string (
     Exit Fail) (Done) (
    Exit Return))))))) (Done) (
   Done)))) (Done) (
  If "case ua.SecurityPolicyURIBasic128Rsa15, ua.SecurityPolicyURI"%string (
   If "err != nil"%string (
    Exit Fail) (Done) (
   Done)) (If "case ua.SecurityPolicyURIBasic256Sha256, ua.SecurityPolicyUR"%string (
    If "err != nil"%string (
     Exit Fail) (Done) (
    Done)) (If "case ua.SecurityPolicyURIAes256Sha256RsaPss"%string (
     If "err != nil"%string (
      Exit Fail) (Done) (
     Done)) (Done) (
    Done)) (
   Done)) (
  Do (Act "srv.SessionManager().Add"%string) (
  If "err != nil"%string (
   Do (Inc "summary.RejectedSessionCount"%string) (
   Do (Inc "summary.RejectedRequestsCount"%string) (
   Do (Send true "ServiceFault"%string "BadTooManySessions"%string) (
   If "err != nil"%string (
    Exit Fail) (Done) (
   Exit Return))))) (Done) (
  Do (Send true "CreateSessionResponse"%string ""%string) (
  If "err != nil"%string (
   Exit Fail) (Done) (
  Exit Return))))))).

(** /repo/server/server_service_set.go 280-864 handleActivateSession *)
Definition h_ActivateSession : prog :=
  If "ch.discoveryOnly"%string (
   Do (Inc "summary.SecurityRejectedSessionCount"%string) (
   Do (Inc "summary.RejectedSessionCount"%string) (
   Do (Inc "summary.SecurityRejectedRequestsCount"%string) (
   Do (Inc "summary.RejectedRequestsCount"%string) (
   Do (Abort "BadSecurityPolicyRejected"%string) (
   Exit Return)))))) (Done) (
  Do (Act "srv.SessionManager().Get"%string) (
  If "!ok"%string (
   Do (Inc "summary.RejectedSessionCount"%string) (
   Do (Inc "summary.RejectedRequestsCount"%string) (
   Do (Send true "ServiceFault"%string "BadSessionIDInvalid"%string) (
   If "err != nil"%string (
    Exit Fail) (Done) (
   Exit Return))))) (Done) (
  If "err != nil"%string (
   Do (Inc "summary.SecurityRejectedSessionCount"%string) (
   Do (Inc "summary.RejectedSessionCount"%string) (
   Do (Inc "summary.SecurityRejectedRequestsCount"%string) (
   Do (Inc "summary.RejectedRequestsCount"%string) (
   Do (Send true "ServiceFault"%string "BadApplicationSignatureInvalid"%string) (
   If "err != nil"%string (
    Exit Fail) (Done) (
   Exit Return))))))) (Done) (
  If "case ua.IssuedIdentityToken"%string (
   Loop (
    If "t.TokenType == ua.UserTokenTypeCertificate && t.PolicyID == userIdentityToken.PolicyID"%string (
     Exit Break) (Done) (
    Done)) (
   If "tokenPolicy == nil"%string (
    Do (Inc "summary.SecurityRejectedSessionCount"%string) (
    Do (Inc "summary.RejectedSessionCount"%string) (
    Do (Inc "summary.SecurityRejectedRequestsCount"%string) (
    Do (Inc "summary.RejectedRequestsCount"%string) (
    Do (Send true "ServiceFault"%string "BadIdentityTokenInvalid"%string) (
    If "err != nil"%string (
     Exit Fail) (Done) (
    Exit Return))))))) (Done) (
   Done))) (If "case ua.X509IdentityToken"%string (
    Loop (
     If "t.TokenType == ua.UserTokenTypeCertificate && t.PolicyID == userIdentityToken.PolicyID"%string (
      Exit Break) (Done) (
     Done)) (
    If "tokenPolicy == nil"%string (
     Do (Inc "summary.SecurityRejectedSessionCount"%string) (
     Do (Inc "summary.RejectedSessionCount"%string) (
     Do (Inc "summary.SecurityRejectedRequestsCount"%string) (
     Do (Inc "summary.RejectedRequestsCount"%string) (
     Do (Send true "ServiceFault"%string "BadIdentityTokenInvalid"%string) (
     If "err != nil"%string (
      Exit Fail) (Done) (
     Exit Return))))))) (Done) (
    If "err != nil || len(userCerts) == 0"%string (
     Do (Inc "summary.SecurityRejectedSessionCount"%string) (
     Do (Inc "summary.RejectedSessionCount"%string) (
     Do (Inc "summary.SecurityRejectedRequestsCount"%string) (
     Do (Inc "summary.RejectedRequestsCount"%string) (
     Do (Send true "ServiceFault"%string "BadIdentityTokenInvalid"%string) (
     If "err != nil"%string (
      Exit Fail) (Done) (
     Exit Return))))))) (Done) (
    If "!ok"%string (
     Do (Inc "summary.SecurityRejectedSessionCount"%string) (
     Do (Inc "summary.RejectedSessionCount"%string) (
     Do (Inc "summary.SecurityRejectedRequestsCount"%string) (
     Do (Inc "summary.RejectedRequestsCount"%string) (
     Do (Send true "ServiceFault"%string "BadIdentityTokenInvalid"%string) (
     If "err != nil"%string (
      Exit Fail) (Done) (
     Exit Return))))))) (Done) (
    If "err != nil"%string (
     Do (Inc "summary.SecurityRejectedSessionCount"%string) (
     Do (Inc "summary.RejectedSessionCount"%string) (
     Do (Inc "summary.SecurityRejectedRequestsCount"%string) (
     Do (Inc "summary.RejectedRequestsCount"%string) (
     Do (Send true "ServiceFault"%string "BadIdentityTokenRejected"%string) (
     If "err != nil"%string (
      Exit Fail) (Done) (
     Exit Return))))))) (Done) (
    Done)))))) (If "case ua.UserNameIdentityToken"%string (
     Loop (
      If "t.TokenType == ua.UserTokenTypeUserName && t.PolicyID == userIdentityToken.PolicyID"%string (
       Exit Break) (Done) (
      Done)) (
     If "tokenPolicy == nil"%string (
      Do (Inc "summary.SecurityRejectedSessionCount"%string) (
      Do (Inc "summary.RejectedSessionCount"%string) (
      Do (Inc "summary.SecurityRejectedRequestsCount"%string) (
      Do (Inc "summary.RejectedRequestsCount"%string) (
      Do (Send true "ServiceFault"%string "BadIdentityTokenInvalid"%string) (
      If "err != nil"%string (
       Exit Fail) (Done) (
      Exit Return))))))) (Done) (
     If "userIdentityToken.UserName == ''"%string (
      Do (Inc "summary.SecurityRejectedSessionCount"%string) (
      Do (Inc "summary.RejectedSessionCount"%string) (
      Do (Inc "summary.SecurityRejectedRequestsCount"%string) (
      Do (Inc "summary.RejectedRequestsCount"%string) (
      Do (Send true "ServiceFault"%string "BadIdentityTokenInvalid"%string) (
      If "err != nil"%string (
       Exit Fail) (Done) (
      Exit Return))))))) (Done) (
     If "case ua.SecurityPolicyURIBasic128Rsa15"%string (
      If "userIdentityToken.EncryptionAlgorithm != ua.RsaV15KeyWrap"%string (
       Do (Inc "summary.SecurityRejectedSessionCount"%string) (
       Do (Inc "summary.RejectedSessionCount"%string) (
       Do (Inc "summary.SecurityRejectedRequestsCount"%string) (
       Do (Inc "summary.RejectedRequestsCount"%string) (
       Do (Send true "ServiceFault"%string "BadIdentityTokenInvalid"%string) (
       If "err != nil"%string (
        Exit Fail) (Done) (
       Exit Return))))))) (Done) (
      Loop (
       If "err != nil"%string (
        Exit Fail) (Done) (
       Done)) (
      If "plainLength < 32 || plainLength > 96"%string (
       Do (Send true "ServiceFault"%string "BadIdentityTokenRejected"%string) (
       If "err != nil"%string (
        Exit Fail) (Done) (
       Exit Return))) (Done) (
      Done)))) (If "case ua.SecurityPolicyURIBasic256, ua.SecurityPolicyURIBasic"%string (
       If "userIdentityToken.EncryptionAlgorithm != ua.RsaOaepKeyWrap"%string (
        Do (Inc "summary.SecurityRejectedSessionCount"%string) (
        Do (Inc "summary.RejectedSessionCount"%string) (
        Do (Inc "summary.SecurityRejectedRequestsCount"%string) (
        Do (Inc "summary.RejectedRequestsCount"%string) (
        Do (Send true "ServiceFault"%string "BadIdentityTokenInvalid"%string) (
        If "err != nil"%string (
         Exit Fail) (Done) (
        Exit Return))))))) (Done) (
       Loop (
        If "err != nil"%string (
         Exit Fail) (Done) (
        Done)) (
       If "plainLength < 32 || plainLength > 96"%string (
        Do (Send true "ServiceFault"%string "BadIdentityTokenRejected"%string) (
        If "err != nil"%string (
         Exit Fail) (Done) (
        Exit Return))) (Done) (
       Done)))) (If "case ua.SecurityPolicyURIAes256Sha256RsaPss"%string (
        If "userIdentityToken.EncryptionAlgorithm != ua.RsaOaepSha256KeyWrap"%string (
         Do (Inc "summary.SecurityRejectedSessionCount"%string) (
         Do (Inc "summary.RejectedSessionCount"%string) (
         Do (Inc "summary.SecurityRejectedRequestsCount"%string) (
         Do (Inc "summary.RejectedRequestsCount"%string) (
         Do (Send true "ServiceFault"%string "BadIdentityTokenInvalid"%string) (
         If "err != nil"%string (
          Exit Fail) (Done) (
         Exit Return))))))) (Done) (
        Loop (
         If "err != nil"%string (
          Exit Fail) (Done) (
         Done)) (
        If "plainLength < 32 || plainLength > 96"%string (
         Do (Inc "summary.SecurityRejectedSessionCount"%string) (
         Do (Inc "summary.RejectedSessionCount"%string) (
         Do (Inc "summary.SecurityRejectedRequestsCount"%string) (
         Do (Inc "summary.RejectedRequestsCount"%string) (
         Do (Send true "ServiceFault"%string "BadIdentityTokenRejected"%string) (
         If "err != nil"%string (
          Exit Fail) (Done) (
         Exit Return))))))) (Done) (
        Done)))) (Done) (
       Done)) (
      Done)) (
     Done))))) (If "case ua.AnonymousIdentityToken"%string (
      Loop (
       If "t.TokenType == ua.UserTokenTypeAnonymous && t.PolicyID == userIdentityToken.PolicyID"%string (
        Exit Break) (Done) (
       Done)) (
      If "tokenPolicy == nil"%string (
       Do (Inc "summary.SecurityRejectedSessionCount"%string) (
       Do (Inc "summary.RejectedSessionCount"%string) (
       Do (Inc "summary.SecurityRejectedRequestsCount"%string) (
       Do (Inc "summary.RejectedRequestsCount"%string) (
       Do (Send true "ServiceFault"%string "BadIdentityTokenInvalid"%string) (
       If "err != nil"%string (
        Exit Fail) (Done) (
       Exit Return))))))) (Done) (
      Done))) (Done) (
     Done)) (
    Done)) (
   Done)) (
  If "case ua.AnonymousIdentity"%string (
   If "auth != nil"%string (
    Do (Act "auth.AuthenticateAnonymousIdentity"%string) (
    Done)) (Done) (
   Done)) (If "case ua.UserNameIdentity"%string (
    If "auth != nil"%string (
     Do (Act "auth.AuthenticateUserNameIdentity"%string) (
     Done)) (Done) (
    Done)) (If "case ua.X509Identity"%string (
     If "auth != nil"%string (
      Do (Act "auth.AuthenticateX509Identity"%string) (
      Done)) (Done) (
     Done)) (If "case ua.IssuedIdentity"%string (
      If "auth != nil"%string (
       Do (Act "auth.AuthenticateIssuedIdentity"%string) (
       Done)) (Done) (
      Done)) (Done) (
     Done)) (
    Done)) (
   Done)) (
  If "err != nil"%string (
   Do (Inc "summary.SecurityRejectedSessionCount"%string) (
   Do (Inc "summary.RejectedSessionCount"%string) (
   Do (Inc "summary.SecurityRejectedRequestsCount"%string) (
   Do (Inc "summary.RejectedRequestsCount"%string) (
   Do (Send true "ServiceFault"%string "?"%string) (
   If "err != nil"%string (
    Exit Fail) (Done) (
   Exit Return))))))) (Done) (
  Do (Act "session.SetUserIdentity"%string) (
  Do (Act "session.SetSessionNonce"%string) (
  Do (Act "session.SetSecureChannelId"%string) (
  Do (Act "session.SetSecurityMode"%string) (
  Do (Act "session.SetSecurityPolicyURI"%string) (
  Do (Send true "ActivateSessionResponse"%string ""%string) (
  If "err != nil"%string (
   Exit Fail) (Done) (
  Exit Return)))))))))))))).

(** /repo/server/server_service_set.go 867-959 handleCloseSession *)
Definition h_CloseSession : prog :=
  If "ch.discoveryOnly"%string (
   Do (Inc "summary.SecurityRejectedRequestsCount"%string) (
   Do (Inc "summary.RejectedRequestsCount"%string) (
   Do (Abort "BadSecurityPolicyRejected"%string) (
   Exit Return)))) (Done) (
  Do (Act "srv.SessionManager().Get"%string) (
  If "!ok"%string (
   Do (Inc "summary.RejectedRequestsCount"%string) (
   Do (Send true "ServiceFault"%string "BadSessionIDInvalid"%string) (
   If "err != nil"%string (
    Exit Fail) (Done) (
   Exit Return)))) (Done) (
  Do (Act "session.SecureChannelId"%string) (
  If "id == 0"%string (
   Do (Inc "summary.RejectedRequestsCount"%string) (
   Do (Act "srv.SessionManager().Delete"%string) (
   Do (Send true "ServiceFault"%string "BadSessionNotActivated"%string) (
   If "err != nil"%string (
    Exit Fail) (Done) (
   Exit Return))))) (Done) (
  If "id != ch.ChannelID()"%string (
   Do (Inc "summary.RejectedRequestsCount"%string) (
   Do (Send true "ServiceFault"%string "BadSecureChannelIDInvalid"%string) (
   If "err != nil"%string (
    Exit Fail) (Done) (
   Exit Return)))) (Done) (
  If "req.DeleteSubscriptions"%string (
   Loop (
    Do (Act "sm.Delete"%string) (
    Do (Act "s.Delete"%string) (
    Done))) (
   Done)) (Done) (
  Do (Act "srv.SessionManager().Delete"%string) (
  Do (Send true "CloseSessionResponse"%string ""%string) (
  If "err != nil"%string (
   Exit Fail) (Done) (
  Exit Return)))))))))).

(** /repo/server/server_service_set.go 28-56 findServers *)
Definition h_FindServers : prog :=
  If "len(req.ServerURIs) > 0"%string (
   Loop (
    If "s.ApplicationURI == su"%string (
     Exit Break) (Done) (
    Done)) (
   Done)) (Done) (
  Do (Send true "FindServersResponse"%string ""%string) (
  If "err != nil"%string (
   Exit Fail) (Done) (
  Exit Return))).

(** /repo/server/server_service_set.go 59-89 getEndpoints *)
Definition h_GetEndpoints : prog :=
  Loop (
   If "len(req.ProfileURIs) > 0"%string (
    Loop (
     If "ep.TransportProfileURI == pu"%string (
      Exit Break) (Done) (
     Done)) (
    Done)) (Done) (
   Done)) (
  Do (Send true "GetEndpointsResponse"%string ""%string) (
  If "err != nil"%string (
   Exit Fail) (Done) (
  Exit Return))).

(** /repo/server/server_service_set.go 1722-1853 handleRegisterNodes *)
Definition h_RegisterNodes : prog :=
  If "ch.discoveryOnly"%string (
   Do (Inc "summary.SecurityRejectedRequestsCount"%string) (
   Do (Inc "summary.RejectedRequestsCount"%string) (
   Do (Abort "BadSecurityPolicyRejected"%string) (
   Exit Return)))) (Done) (
  Do (Act "srv.SessionManager().Get"%string) (
  If "!ok"%string (
   Do (Inc "summary.RejectedRequestsCount"%string) (
   Do (Send true "ServiceFault"%string "BadSessionIDInvalid"%string) (
   If "err != nil"%string (
    Exit Fail) (Done) (
   Exit Return)))) (Done) (
  Do (Inc "registerNodesCount"%string) (
  Do (Inc "requestCount"%string) (
  Do (Act "session.SecureChannelId"%string) (
  If "id == 0"%string (
   Do (Inc "registerNodesErrorCount"%string) (
   Do (Inc "errorCount"%string) (
   Do (Inc "summary.RejectedRequestsCount"%string) (
   Do (Act "srv.SessionManager().Delete"%string) (
   Do (Send true "ServiceFault"%string "BadSessionNotActivated"%string) (
   If "err != nil"%string (
    Exit Fail) (Done) (
   Exit Return))))))) (Done) (
  If "id != ch.ChannelID()"%string (
   Do (Inc "registerNodesErrorCount"%string) (
   Do (Inc "errorCount"%string) (
   Do (Inc "summary.RejectedRequestsCount"%string) (
   Do (Send true "ServiceFault"%string "BadSecureChannelIDInvalid"%string) (
   If "err != nil"%string (
    Exit Fail) (Done) (
   Exit Return)))))) (Done) (
  If "l == 0"%string (
   Do (Inc "registerNodesErrorCount"%string) (
   Do (Inc "errorCount"%string) (
   Do (Inc "summary.RejectedRequestsCount"%string) (
   Do (Send true "ServiceFault"%string "BadNothingToDo"%string) (
   If "err != nil"%string (
    Exit Fail) (Done) (
   Exit Return)))))) (Done) (
  If "l > int(srv.serverCapabilities.OperationLimits.MaxNodesPerRegisterNodes)"%string (
   Do (Inc "registerNodesErrorCount"%string) (
   Do (Inc "errorCount"%string) (
   Do (Inc "summary.RejectedRequestsCount"%string) (
   Do (Send true "ServiceFault"%string "BadTooManyOperations"%string) (
   If "err != nil"%string (
    Exit Fail) (Done) (
   Exit Return)))))) (Done) (
  Do (Send true "RegisterNodesResponse"%string ""%string) (
  If "err != nil"%string (
   Exit Fail) (Done) (
  Exit Return)))))))))))).

(** /repo/server/server_service_set.go 1855-1979 handleUnregisterNodes *)
Definition h_UnregisterNodes : prog :=
  If "ch.discoveryOnly"%string (
   Do (Inc "summary.SecurityRejectedRequestsCount"%string) (
   Do (Inc "summary.RejectedRequestsCount"%string) (
   Do (Abort "BadSecurityPolicyRejected"%string) (
   Exit Return)))) (Done) (
  Do (Act "srv.SessionManager().Get"%string) (
  If "!ok"%string (
   Do (Inc "summary.RejectedRequestsCount"%string) (
   Do (Send true "ServiceFault"%string "BadSessionIDInvalid"%string) (
   If "err != nil"%string (
    Exit Fail) (Done) (
   Exit Return)))) (Done) (
  Do (Inc "unregisterNodesCount"%string) (
  Do (Inc "requestCount"%string) (
  Do (Act "session.SecureChannelId"%string) (
  If "id == 0"%string (
   Do (Inc "unregisterNodesErrorCount"%string) (
   Do (Inc "errorCount"%string) (
   Do (Act "srv.SessionManager().Delete"%string) (
   Do (Send true "ServiceFault"%string "BadSessionNotActivated"%string) (
   If "err != nil"%string (
    Exit Fail) (Done) (
   Exit Return)))))) (Done) (
  If "id != ch.ChannelID()"%string (
   Do (Inc "unregisterNodesErrorCount"%string) (
   Do (Inc "errorCount"%string) (
   Do (Inc "summary.RejectedRequestsCount"%string) (
   Do (Send true "ServiceFault"%string "BadSecureChannelIDInvalid"%string) (
   If "err != nil"%string (
    Exit Fail) (Done) (
   Exit Return)))))) (Done) (
  If "l == 0"%string (
   Do (Inc "unregisterNodesErrorCount"%string) (
   Do (Inc "errorCount"%string) (
   Do (Inc "summary.RejectedRequestsCount"%string) (
   Do (Send true "ServiceFault"%string "BadNothingToDo"%string) (
   If "err != nil"%string (
    Exit Fail) (Done) (
   Exit Return)))))) (Done) (
  If "l > int(srv.serverCapabilities.OperationLimits.MaxNodesPerRegisterNodes)"%string (
   Do (Inc "unregisterNodesErrorCount"%string) (
   Do (Inc "errorCount"%string) (
   Do (Inc "summary.RejectedRequestsCount"%string) (
   Do (Send true "ServiceFault"%string "BadTooManyOperations"%string) (
   If "err != nil"%string (
    Exit Fail) (Done) (
   Exit Return)))))) (Done) (
  Do (Send true "UnregisterNodesResponse"%string ""%string) (
  If "err != nil"%string (
   Exit Fail) (Done) (
  Exit Return)))))))))))).

(** /repo/server/server_service_set.go 4369-4549 handleSetTriggering *)
Definition h_SetTriggering : prog :=
  If "ch.discoveryOnly"%string (
   Do (Inc "summary.SecurityRejectedRequestsCount"%string) (
   Do (Inc "summary.RejectedRequestsCount"%string) (
   Do (Abort "BadSecurityPolicyRejected"%string) (
   Exit Return)))) (Done) (
  Do (Act "srv.SessionManager().Get"%string) (
  If "!ok"%string (
   Do (Inc "summary.RejectedRequestsCount"%string) (
   Do (Send true "ServiceFault"%string "BadSessionIDInvalid"%string) (
   If "err != nil"%string (
    Exit Fail) (Done) (
   Exit Return)))) (Done) (
  Do (Inc "setTriggeringCount"%string) (
  Do (Inc "requestCount"%string) (
  Do (Act "session.SecureChannelId"%string) (
  If "id == 0"%string (
   Do (Inc "setTriggeringErrorCount"%string) (
   Do (Inc "errorCount"%string) (
   Do (Inc "summary.RejectedRequestsCount"%string) (
   Do (Act "srv.SessionManager().Delete"%string) (
   Do (Send true "ServiceFault"%string "BadSessionNotActivated"%string) (
   If "err != nil"%string (
    Exit Fail) (Done) (
   Exit Return))))))) (Done) (
  If "id != ch.ChannelID()"%string (
   Do (Inc "setTriggeringErrorCount"%string) (
   Do (Inc "errorCount"%string) (
   Do (Inc "summary.RejectedRequestsCount"%string) (
   Do (Send true "ServiceFault"%string "BadSecureChannelIDInvalid"%string) (
   If "err != nil"%string (
    Exit Fail) (Done) (
   Exit Return)))))) (Done) (
  If "!ok"%string (
   Do (Inc "setTriggeringErrorCount"%string) (
   Do (Inc "errorCount"%string) (
   Do (Inc "summary.RejectedRequestsCount"%string) (
   Do (Send true "ServiceFault"%string "BadSubscriptionIDInvalid"%string) (
   If "err != nil"%string (
    Exit Fail) (Done) (
   Exit Return)))))) (Done) (
  If "len(req.LinksToRemove) == 0 && len(req.LinksToAdd) == 0"%string (
   Do (Inc "setTriggeringErrorCount"%string) (
   Do (Inc "errorCount"%string) (
   Do (Inc "summary.RejectedRequestsCount"%string) (
   Do (Send true "ServiceFault"%string "BadNothingToDo"%string) (
   If "err != nil"%string (
    Exit Fail) (Done) (
   Exit Return)))))) (Done) (
  If "!ok"%string (
   Do (Inc "setTriggeringErrorCount"%string) (
   Do (Inc "errorCount"%string) (
   Do (Inc "summary.RejectedRequestsCount"%string) (
   Do (Send true "ServiceFault"%string "BadMonitoredItemIDInvalid"%string) (
   If "err != nil"%string (
    Exit Fail) (Done) (
   Exit Return)))))) (Done) (
  Loop (
   If "!ok"%string (
    Exit Continue) (Done) (
   Do (Act "trigger.RemoveTriggeredItem"%string) (
   Done))) (
  Loop (
   If "!ok"%string (
    Exit Continue) (Done) (
   Do (Act "trigger.AddTriggeredItem"%string) (
   Done))) (
  Do (Send true "SetTriggeringResponse"%string ""%string) (
  If "err != nil"%string (
   Exit Fail) (Done) (
  Exit Return))))))))))))))).

(** /repo/server/server_service_set.go 962-1040 handleCancel *)
Definition h_Cancel : prog :=
  If "ch.discoveryOnly"%string (
   Do (Inc "summary.SecurityRejectedRequestsCount"%string) (
   Do (Inc "summary.RejectedRequestsCount"%string) (
   Do (Abort "BadSecurityPolicyRejected"%string) (
   Exit Return)))) (Done) (
  Do (Act "srv.SessionManager().Get"%string) (
  If "!ok"%string (
   Do (Inc "summary.RejectedRequestsCount"%string) (
   Do (Send true "ServiceFault"%string "BadSessionIDInvalid"%string) (
   If "err != nil"%string (
    Exit Fail) (Done) (
   Exit Return)))) (Done) (
  Do (Act "session.SecureChannelId"%string) (
  If "id == 0"%string (
   Do (Inc "summary.RejectedRequestsCount"%string) (
   Do (Act "srv.SessionManager().Delete"%string) (
   Do (Send true "ServiceFault"%string "BadSessionNotActivated"%string) (
   If "err != nil"%string (
    Exit Fail) (Done) (
   Exit Return))))) (Done) (
  If "id != ch.ChannelID()"%string (
   Do (Inc "summary.RejectedRequestsCount"%string) (
   Do (Send true "ServiceFault"%string "BadSecureChannelIDInvalid"%string) (
   If "err != nil"%string (
    Exit Fail) (Done) (
   Exit Return)))) (Done) (
  Do (Send true "CancelResponse"%string ""%string) (
  If "err != nil"%string (
   Exit Fail) (Done) (
  Exit Return)))))))).

(** /repo/server/server.go 430-505 handleRequest: the request types it passes to a handler of the server *)
Definition handlers : list (string * prog) := [
  ("Publish"%string, h_Publish);
  ("Republish"%string, h_Republish);
  ("Read"%string, h_Read);
  ("Write"%string, h_Write);
  ("Call"%string, h_Call);
  ("Browse"%string, h_Browse);
  ("BrowseNext"%string, h_BrowseNext);
  ("TranslateBrowsePathsToNodeIDs"%string, h_TranslateBrowsePathsToNodeIDs);
  ("CreateSubscription"%string, h_CreateSubscription);
  ("ModifySubscription"%string, h_ModifySubscription);
  ("SetPublishingMode"%string, h_SetPublishingMode);
  ("DeleteSubscriptions"%string, h_DeleteSubscriptions);
  ("CreateMonitoredItems"%string, h_CreateMonitoredItems);
  ("ModifyMonitoredItems"%string, h_ModifyMonitoredItems);
  ("SetMonitoringMode"%string, h_SetMonitoringMode);
  ("DeleteMonitoredItems"%string, h_DeleteMonitoredItems);
  ("HistoryRead"%string, h_HistoryRead);
  ("CreateSession"%string, h_CreateSession);
  ("ActivateSession"%string, h_ActivateSession);
  ("CloseSession"%string, h_CloseSession);
  ("FindServers"%string, h_FindServers);
  ("GetEndpoints"%string, h_GetEndpoints);
  ("RegisterNodes"%string, h_RegisterNodes);
  ("UnregisterNodes"%string, h_UnregisterNodes);
  ("SetTriggering"%string, h_SetTriggering);
  ("Cancel"%string, h_Cancel)
].

(** /repo/server/session_manager.go 153-197: counters of the SessionDiagnostics value: field, total, errors *)
Definition diagnostics_fields : list (string * (string * string)) := [
  ("TotalRequestCount"%string, ("requestCount"%string, "errorCount"%string));
  ("ReadCount"%string, ("readCount"%string, "readErrorCount"%string));
  ("HistoryReadCount"%string, ("historyReadCount"%string, "historyReadErrorCount"%string));
  ("WriteCount"%string, ("writeCount"%string, "writeErrorCount"%string));
  ("HistoryUpdateCount"%string, ("historyUpdateCount"%string, "historyUpdateErrorCount"%string));
  ("CallCount"%string, ("callCount"%string, "callErrorCount"%string));
  ("CreateMonitoredItemsCount"%string, ("createMonitoredItemsCount"%string, "createMonitoredItemsErrorCount"%string));
  ("ModifyMonitoredItemsCount"%string, ("modifyMonitoredItemsCount"%string, "modifyMonitoredItemsErrorCount"%string));
  ("SetMonitoringModeCount"%string, ("setMonitoringModeCount"%string, "setMonitoringModeErrorCount"%string));
  ("SetTriggeringCount"%string, ("setTriggeringCount"%string, "setTriggeringErrorCount"%string));
  ("DeleteMonitoredItemsCount"%string, ("deleteMonitoredItemsCount"%string, "deleteMonitoredItemsErrorCount"%string));
  ("CreateSubscriptionCount"%string, ("createSubscriptionCount"%string, "createSubscriptionErrorCount"%string));
  ("ModifySubscriptionCount"%string, ("modifySubscriptionCount"%string, "modifySubscriptionErrorCount"%string));
  ("SetPublishingModeCount"%string, ("setPublishingModeCount"%string, "setPublishingModeErrorCount"%string));
  ("PublishCount"%string, ("publishCount"%string, "publishErrorCount"%string));
  ("RepublishCount"%string, ("republishCount"%string, "republishErrorCount"%string));
  ("TransferSubscriptionsCount"%string, ("transferSubscriptionsCount"%string, "transferSubscriptionsErrorCount"%string));
  ("DeleteSubscriptionsCount"%string, ("deleteSubscriptionsCount"%string, "deleteSubscriptionsErrorCount"%string));
  ("AddNodesCount"%string, ("addNodesCount"%string, "addNodesErrorCount"%string));
  ("AddReferencesCount"%string, ("addReferencesCount"%string, "addReferencesErrorCount"%string));
  ("DeleteNodesCount"%string, ("deleteNodesCount"%string, "deleteNodesErrorCount"%string));
  ("DeleteReferencesCount"%string, ("deleteReferencesCount"%string, "deleteReferencesErrorCount"%string));
  ("BrowseCount"%string, ("browseCount"%string, "browseErrorCount"%string));
  ("BrowseNextCount"%string, ("browseNextCount"%string, "browseNextErrorCount"%string));
  ("TranslateBrowsePathsToNodeIDsCount"%string, ("translateBrowsePathsToNodeIdsCount"%string, "translateBrowsePathsToNodeIdsErrorCount"%string));
  ("QueryFirstCount"%string, ("queryFirstCount"%string, "queryFirstErrorCount"%string));
  ("QueryNextCount"%string, ("queryNextCount"%string, "queryNextErrorCount"%string));
  ("RegisterNodesCount"%string, ("registerNodesCount"%string, "registerNodesErrorCount"%string));
  ("UnregisterNodesCount"%string, ("unregisterNodesCount"%string, "unregisterNodesErrorCount"%string))
].

(** the same file: the variables below SessionDiagnostics: browse name, total, errors *)
Definition diagnostics_variables : list (string * (string * string)) := [
  ("TotalRequestCount"%string, ("requestCount"%string, "errorCount"%string));
  ("ReadCount"%string, ("readCount"%string, "readErrorCount"%string));
  ("HistoryReadCount"%string, ("historyReadCount"%string, "historyReadErrorCount"%string));
  ("WriteCount"%string, ("writeCount"%string, "writeErrorCount"%string));
  ("HistoryUpdateCount"%string, ("historyUpdateCount"%string, "historyUpdateErrorCount"%string));
  ("CallCount"%string, ("callCount"%string, "callErrorCount"%string));
  ("CreateMonitoredItemsCount"%string, ("createMonitoredItemsCount"%string, "createMonitoredItemsErrorCount"%string));
  ("ModifyMonitoredItemsCount"%string, ("modifyMonitoredItemsCount"%string, "modifyMonitoredItemsErrorCount"%string));
  ("SetMonitoringModeCount"%string, ("setMonitoringModeCount"%string, "setMonitoringModeErrorCount"%string));
  ("SetTriggeringCount"%string, ("setTriggeringCount"%string, "setTriggeringErrorCount"%string));
  ("DeleteMonitoredItemsCount"%string, ("deleteMonitoredItemsCount"%string, "deleteMonitoredItemsErrorCount"%string));
  ("CreateSubscriptionCount"%string, ("createSubscriptionCount"%string, "createSubscriptionErrorCount"%string));
  ("ModifySubscriptionCount"%string, ("modifySubscriptionCount"%string, "modifySubscriptionErrorCount"%string));
  ("SetPublishingModeCount"%string, ("setPublishingModeCount"%string, "setPublishingModeErrorCount"%string));
  ("PublishCount"%string, ("publishCount"%string, "publishErrorCount"%string));
  ("RepublishCount"%string, ("republishCount"%string, "republishErrorCount"%string));
  ("TransferSubscriptionsCount"%string, ("transferSubscriptionsCount"%string, "transferSubscriptionsErrorCount"%string));
  ("DeleteSubscriptionsCount"%string, ("deleteSubscriptionsCount"%string, "deleteSubscriptionsErrorCount"%string));
  ("AddNodesCount"%string, ("addNodesCount"%string, "addNodesErrorCount"%string));
  ("AddReferencesCount"%string, ("addReferencesCount"%string, "addReferencesErrorCount"%string));
  ("DeleteNodesCount"%string, ("deleteNodesCount"%string, "deleteNodesErrorCount"%string));
  ("DeleteReferencesCount"%string, ("deleteReferencesCount"%string, "deleteReferencesErrorCount"%string));
  ("BrowseCount"%string, ("browseCount"%string, "browseErrorCount"%string));
  ("BrowseNextCount"%string, ("browseNextCount"%string, "browseNextErrorCount"%string));
  ("TranslateBrowsePathsToNodeIdsCount"%string, ("translateBrowsePathsToNodeIdsCount"%string, "translateBrowsePathsToNodeIdsErrorCount"%string));
  ("QueryFirstCount"%string, ("queryFirstCount"%string, "queryFirstErrorCount"%string));
  ("QueryNextCount"%string, ("queryNextCount"%string, "queryNextErrorCount"%string));
  ("RegisterNodesCount"%string, ("registerNodesCount"%string, "registerNodesErrorCount"%string));
  ("UnregisterNodesCount"%string, ("unregisterNodesCount"%string, "unregisterNodesErrorCount"%string))
].
