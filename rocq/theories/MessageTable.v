(** The messages client and server put on a channel, transcribed by tools/message_table.py. *)
From Coq Require Import ZArith List String.
Import ListNotations.
Open Scope Z_scope.

(** /repo/client/client_secure_channel.go 506 sendRequest, 549, 744 and 911: structure, identifier written before it *)
Definition client_sends : list (string * Z) := [
  ("PublishRequest"%string, 826);
  ("ReadRequest"%string, 631);
  ("BrowseRequest"%string, 527);
  ("BrowseNextRequest"%string, 533);
  ("TranslateBrowsePathsToNodeIDsRequest"%string, 554);
  ("WriteRequest"%string, 673);
  ("CallRequest"%string, 712);
  ("HistoryReadRequest"%string, 664);
  ("GetEndpointsRequest"%string, 428);
  ("CreateSessionRequest"%string, 461);
  ("ActivateSessionRequest"%string, 467);
  ("CloseSessionRequest"%string, 473);
  ("CreateMonitoredItemsRequest"%string, 751);
  ("DeleteMonitoredItemsRequest"%string, 781);
  ("CreateSubscriptionRequest"%string, 787);
  ("DeleteSubscriptionsRequest"%string, 847);
  ("SetPublishingModeRequest"%string, 799);
  ("ModifyMonitoredItemsRequest"%string, 763);
  ("SetMonitoringModeRequest"%string, 769);
  ("SetTriggeringRequest"%string, 775);
  ("ModifySubscriptionRequest"%string, 793);
  ("RepublishRequest"%string, 832);
  ("TransferSubscriptionsRequest"%string, 841);
  ("FindServersRequest"%string, 422);
  ("FindServersOnNetworkRequest"%string, 12208);
  ("RegisterServerRequest"%string, 437);
  ("RegisterServer2Request"%string, 12211);
  ("CancelRequest"%string, 479);
  ("AddNodesRequest"%string, 488);
  ("AddReferencesRequest"%string, 494);
  ("DeleteNodesRequest"%string, 500);
  ("DeleteReferencesRequest"%string, 506);
  ("RegisterNodesRequest"%string, 560);
  ("UnregisterNodesRequest"%string, 566);
  ("QueryFirstRequest"%string, 615);
  ("QueryNextRequest"%string, 621);
  ("HistoryUpdateRequest"%string, 700);
  ("OpenSecureChannelRequest"%string, 446);
  ("CloseSecureChannelRequest"%string, 452)
].

(** /repo/server/server_secure_channel.go 1366-1453 readRequest: identifier read, structure decoded after it *)
Definition server_reads : list (Z * string) := [
  (826, "PublishRequest"%string);
  (631, "ReadRequest"%string);
  (527, "BrowseRequest"%string);
  (533, "BrowseNextRequest"%string);
  (554, "TranslateBrowsePathsToNodeIDsRequest"%string);
  (673, "WriteRequest"%string);
  (712, "CallRequest"%string);
  (664, "HistoryReadRequest"%string);
  (428, "GetEndpointsRequest"%string);
  (446, "OpenSecureChannelRequest"%string);
  (452, "CloseSecureChannelRequest"%string);
  (461, "CreateSessionRequest"%string);
  (467, "ActivateSessionRequest"%string);
  (473, "CloseSessionRequest"%string);
  (751, "CreateMonitoredItemsRequest"%string);
  (781, "DeleteMonitoredItemsRequest"%string);
  (787, "CreateSubscriptionRequest"%string);
  (847, "DeleteSubscriptionsRequest"%string);
  (799, "SetPublishingModeRequest"%string);
  (763, "ModifyMonitoredItemsRequest"%string);
  (769, "SetMonitoringModeRequest"%string);
  (775, "SetTriggeringRequest"%string);
  (793, "ModifySubscriptionRequest"%string);
  (832, "RepublishRequest"%string);
  (841, "TransferSubscriptionsRequest"%string);
  (422, "FindServersRequest"%string);
  (12208, "FindServersOnNetworkRequest"%string);
  (437, "RegisterServerRequest"%string);
  (12211, "RegisterServer2Request"%string);
  (479, "CancelRequest"%string);
  (488, "AddNodesRequest"%string);
  (494, "AddReferencesRequest"%string);
  (500, "DeleteNodesRequest"%string);
  (506, "DeleteReferencesRequest"%string);
  (560, "RegisterNodesRequest"%string);
  (566, "UnregisterNodesRequest"%string);
  (615, "QueryFirstRequest"%string);
  (621, "QueryNextRequest"%string);
  (700, "HistoryUpdateRequest"%string)
].

(** /repo/server/server.go 430 handleRequest: request, structures its handler answers with itself.
    handlePublish leaves the PublishResponse to the subscription. *)
Definition server_handles : list (string * list string) := [
  ("PublishRequest"%string, ["ServiceFault"%string; "PublishResponse"%string]);
  ("RepublishRequest"%string, ["ServiceFault"%string; "RepublishResponse"%string]);
  ("ReadRequest"%string, ["ServiceFault"%string; "ReadResponse"%string]);
  ("WriteRequest"%string, ["ServiceFault"%string; "WriteResponse"%string]);
  ("CallRequest"%string, ["ServiceFault"%string; "CallResponse"%string]);
  ("BrowseRequest"%string, ["ServiceFault"%string; "BrowseResponse"%string]);
  ("BrowseNextRequest"%string, ["ServiceFault"%string; "BrowseNextResponse"%string]);
  ("TranslateBrowsePathsToNodeIDsRequest"%string, ["ServiceFault"%string; "TranslateBrowsePathsToNodeIDsResponse"%string]);
  ("CreateSubscriptionRequest"%string, ["ServiceFault"%string; "CreateSubscriptionResponse"%string]);
  ("ModifySubscriptionRequest"%string, ["ServiceFault"%string; "ModifySubscriptionResponse"%string]);
  ("SetPublishingModeRequest"%string, ["ServiceFault"%string; "SetPublishingModeResponse"%string]);
  ("DeleteSubscriptionsRequest"%string, ["ServiceFault"%string; "DeleteSubscriptionsResponse"%string]);
  ("CreateMonitoredItemsRequest"%string, ["ServiceFault"%string; "CreateMonitoredItemsResponse"%string]);
  ("ModifyMonitoredItemsRequest"%string, ["ServiceFault"%string; "ModifyMonitoredItemsResponse"%string]);
  ("SetMonitoringModeRequest"%string, ["ServiceFault"%string; "SetMonitoringModeResponse"%string]);
  ("DeleteMonitoredItemsRequest"%string, ["ServiceFault"%string; "DeleteMonitoredItemsResponse"%string]);
  ("HistoryReadRequest"%string, ["ServiceFault"%string; "HistoryReadResponse"%string]);
  ("CreateSessionRequest"%string, ["ServiceFault"%string; "CreateSessionResponse"%string]);
  ("ActivateSessionRequest"%string, ["ServiceFault"%string; "ActivateSessionResponse"%string]);
  ("CloseSessionRequest"%string, ["ServiceFault"%string; "CloseSessionResponse"%string]);
  ("OpenSecureChannelRequest"%string, ["OpenSecureChannelResponse"%string]);
  ("CloseSecureChannelRequest"%string, []);
  ("FindServersRequest"%string, ["FindServersResponse"%string]);
  ("GetEndpointsRequest"%string, ["GetEndpointsResponse"%string]);
  ("RegisterNodesRequest"%string, ["ServiceFault"%string; "RegisterNodesResponse"%string]);
  ("UnregisterNodesRequest"%string, ["ServiceFault"%string; "UnregisterNodesResponse"%string]);
  ("SetTriggeringRequest"%string, ["ServiceFault"%string; "SetTriggeringResponse"%string]);
  ("CancelRequest"%string, ["ServiceFault"%string; "CancelResponse"%string])
].

(** /repo/server/server_secure_channel.go 430-445 and 619-900: structure, identifier written before it *)
Definition server_sends : list (string * Z) := [
  ("PublishResponse"%string, 829);
  ("ReadResponse"%string, 634);
  ("BrowseResponse"%string, 530);
  ("BrowseNextResponse"%string, 536);
  ("TranslateBrowsePathsToNodeIDsResponse"%string, 557);
  ("WriteResponse"%string, 676);
  ("CallResponse"%string, 715);
  ("HistoryReadResponse"%string, 667);
  ("GetEndpointsResponse"%string, 431);
  ("CreateSessionResponse"%string, 464);
  ("ActivateSessionResponse"%string, 470);
  ("CloseSessionResponse"%string, 476);
  ("CreateMonitoredItemsResponse"%string, 754);
  ("DeleteMonitoredItemsResponse"%string, 784);
  ("CreateSubscriptionResponse"%string, 790);
  ("DeleteSubscriptionsResponse"%string, 850);
  ("SetPublishingModeResponse"%string, 802);
  ("ServiceFault"%string, 397);
  ("ModifyMonitoredItemsResponse"%string, 766);
  ("SetMonitoringModeResponse"%string, 772);
  ("SetTriggeringResponse"%string, 778);
  ("ModifySubscriptionResponse"%string, 796);
  ("RepublishResponse"%string, 835);
  ("TransferSubscriptionsResponse"%string, 844);
  ("FindServersResponse"%string, 425);
  ("FindServersOnNetworkResponse"%string, 12209);
  ("RegisterServerResponse"%string, 440);
  ("RegisterServer2Response"%string, 12212);
  ("CancelResponse"%string, 482);
  ("AddNodesResponse"%string, 491);
  ("AddReferencesResponse"%string, 497);
  ("DeleteNodesResponse"%string, 503);
  ("DeleteReferencesResponse"%string, 509);
  ("RegisterNodesResponse"%string, 563);
  ("UnregisterNodesResponse"%string, 569);
  ("QueryFirstResponse"%string, 618);
  ("QueryNextResponse"%string, 624);
  ("HistoryUpdateResponse"%string, 703);
  ("OpenSecureChannelResponse"%string, 449)
].

(** /repo/client/client_secure_channel.go 1628-1717 readResponse: identifier read, structure decoded after it *)
Definition client_reads : list (Z * string) := [
  (829, "PublishResponse"%string);
  (634, "ReadResponse"%string);
  (530, "BrowseResponse"%string);
  (536, "BrowseNextResponse"%string);
  (557, "TranslateBrowsePathsToNodeIDsResponse"%string);
  (676, "WriteResponse"%string);
  (715, "CallResponse"%string);
  (667, "HistoryReadResponse"%string);
  (431, "GetEndpointsResponse"%string);
  (449, "OpenSecureChannelResponse"%string);
  (455, "CloseSecureChannelResponse"%string);
  (464, "CreateSessionResponse"%string);
  (470, "ActivateSessionResponse"%string);
  (476, "CloseSessionResponse"%string);
  (754, "CreateMonitoredItemsResponse"%string);
  (784, "DeleteMonitoredItemsResponse"%string);
  (790, "CreateSubscriptionResponse"%string);
  (850, "DeleteSubscriptionsResponse"%string);
  (802, "SetPublishingModeResponse"%string);
  (397, "ServiceFault"%string);
  (766, "ModifyMonitoredItemsResponse"%string);
  (772, "SetMonitoringModeResponse"%string);
  (778, "SetTriggeringResponse"%string);
  (796, "ModifySubscriptionResponse"%string);
  (835, "RepublishResponse"%string);
  (844, "TransferSubscriptionsResponse"%string);
  (425, "FindServersResponse"%string);
  (12209, "FindServersOnNetworkResponse"%string);
  (440, "RegisterServerResponse"%string);
  (12212, "RegisterServer2Response"%string);
  (482, "CancelResponse"%string);
  (491, "AddNodesResponse"%string);
  (497, "AddReferencesResponse"%string);
  (503, "DeleteNodesResponse"%string);
  (509, "DeleteReferencesResponse"%string);
  (563, "RegisterNodesResponse"%string);
  (569, "UnregisterNodesResponse"%string);
  (618, "QueryFirstResponse"%string);
  (624, "QueryNextResponse"%string);
  (703, "HistoryUpdateResponse"%string)
].

(** /repo/client/client_service_set.go: request of each method, structure its answer is asserted to be *)
Definition client_methods : list (string * string) := [
  ("FindServersRequest"%string, "FindServersResponse"%string);
  ("GetEndpointsRequest"%string, "GetEndpointsResponse"%string);
  ("CreateSessionRequest"%string, "CreateSessionResponse"%string);
  ("ActivateSessionRequest"%string, "ActivateSessionResponse"%string);
  ("CloseSessionRequest"%string, "CloseSessionResponse"%string);
  ("CancelRequest"%string, "CancelResponse"%string);
  ("AddNodesRequest"%string, "AddNodesResponse"%string);
  ("AddReferencesRequest"%string, "AddReferencesResponse"%string);
  ("DeleteNodesRequest"%string, "DeleteNodesResponse"%string);
  ("DeleteReferencesRequest"%string, "DeleteReferencesResponse"%string);
  ("BrowseRequest"%string, "BrowseResponse"%string);
  ("BrowseNextRequest"%string, "BrowseNextResponse"%string);
  ("TranslateBrowsePathsToNodeIDsRequest"%string, "TranslateBrowsePathsToNodeIDsResponse"%string);
  ("RegisterNodesRequest"%string, "RegisterNodesResponse"%string);
  ("UnregisterNodesRequest"%string, "UnregisterNodesResponse"%string);
  ("ReadRequest"%string, "ReadResponse"%string);
  ("WriteRequest"%string, "WriteResponse"%string);
  ("HistoryReadRequest"%string, "HistoryReadResponse"%string);
  ("HistoryUpdateRequest"%string, "HistoryUpdateResponse"%string);
  ("CallRequest"%string, "CallResponse"%string);
  ("CreateMonitoredItemsRequest"%string, "CreateMonitoredItemsResponse"%string);
  ("ModifyMonitoredItemsRequest"%string, "ModifyMonitoredItemsResponse"%string);
  ("SetMonitoringModeRequest"%string, "SetMonitoringModeResponse"%string);
  ("SetTriggeringRequest"%string, "SetTriggeringResponse"%string);
  ("DeleteMonitoredItemsRequest"%string, "DeleteMonitoredItemsResponse"%string);
  ("CreateSubscriptionRequest"%string, "CreateSubscriptionResponse"%string);
  ("ModifySubscriptionRequest"%string, "ModifySubscriptionResponse"%string);
  ("SetPublishingModeRequest"%string, "SetPublishingModeResponse"%string);
  ("PublishRequest"%string, "PublishResponse"%string);
  ("RepublishRequest"%string, "RepublishResponse"%string);
  ("TransferSubscriptionsRequest"%string, "TransferSubscriptionsResponse"%string);
  ("DeleteSubscriptionsRequest"%string, "DeleteSubscriptionsResponse"%string)
].
