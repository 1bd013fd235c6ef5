(** The messages of the services as in OPC 10000-4 and 10000-6: for each structure the identifier of its binary encoding
    and its fields in order.
    Where this comes from: written by hand from memory of the standard, as no copy of it is available here. It is not
    generated from the code, but its author had also read the code, so it is not an independent transcription. *)
From Coq Require Import ZArith List String.
From Verif Require Import Prim Value.
Import ListNotations.
Open Scope Z_scope.

Definition Bool' := TB BBool.
Definition Byte' := TB BByte.
Definition UInt32' := TB BUInt32.
Definition Enum' := TB BInt32.              (* enumerations are Int32 *)
Definition Int32' := TB BInt32.
Definition Double' := TB BDouble.           (* also Duration *)
Definition Text' := TB BString.             (* String *)
Definition Bin' := TB BString.              (* ByteString: the same bytes *)
Definition Time' := TB BTime.
Definition Status' := TB BUInt32.           (* StatusCode: the bytes of a UInt32 *)
Definition Node' := TB BNodeId.
Definition ExpNode' := TB BExp.
Definition QName' := TB BQName.
Definition LText' := TB BLText.
Definition Many (t : ty) := TSlice t.
Definition Of (l : list ty) := TStruct l.

Definition RequestHeader := Of [Node'; Time'; UInt32'; UInt32'; Text'; UInt32'; TExt].
Definition ResponseHeader := Of [Time'; UInt32'; Status'; TDiag; Many Text'; TExt].
Definition ApplicationDescription := Of [Text'; Text'; LText'; Enum'; Text'; Text'; Many Text'].
Definition UserTokenPolicy := Of [Text'; Enum'; Text'; Text'; Text'].
Definition EndpointDescription := Of [Text'; ApplicationDescription; Bin'; Enum'; Text'; Many UserTokenPolicy; Text'; Byte'].
Definition RegisteredServer := Of [Text'; Text'; Many LText'; Enum'; Text'; Many Text'; Text'; Bool'].
Definition ServerOnNetwork := Of [UInt32'; Text'; Text'; Many Text'].
Definition ChannelSecurityToken := Of [UInt32'; UInt32'; Time'; UInt32'].
Definition SignatureData := Of [Text'; Bin'].
Definition SignedSoftwareCertificate := Of [Bin'; Bin'].
Definition ViewDescription := Of [Node'; Time'; UInt32'].
Definition BrowseDescription := Of [Node'; Enum'; Node'; Bool'; UInt32'; UInt32'].
Definition ReferenceDescription := Of [Node'; Bool'; ExpNode'; QName'; LText'; Enum'; ExpNode'].
Definition BrowseResult := Of [Status'; Bin'; Many ReferenceDescription].
Definition RelativePathElement := Of [Node'; Bool'; Bool'; QName'].
Definition RelativePath := Of [Many RelativePathElement].
Definition BrowsePath := Of [Node'; RelativePath].
Definition BrowsePathTarget := Of [ExpNode'; UInt32'].
Definition BrowsePathResult := Of [Status'; Many BrowsePathTarget].
Definition ContentFilterElement := Of [Enum'; Many TExt].
Definition ContentFilter := Of [Many ContentFilterElement].
Definition SimpleAttributeOperand := Of [Node'; Many QName'; UInt32'; Text'].
Definition ContentFilterElementResult := Of [Status'; Many Status'; Many TDiag].
Definition ContentFilterResult := Of [Many ContentFilterElementResult; Many TDiag].
Definition QueryDataDescription := Of [RelativePath; UInt32'; Text'].
Definition NodeTypeDescription := Of [ExpNode'; Bool'; Many QueryDataDescription].
Definition QueryDataSet := Of [ExpNode'; ExpNode'; Many TVar].
Definition ParsingResult := Of [Status'; Many Status'; Many TDiag].
Definition ReadValueId := Of [Node'; UInt32'; Text'; QName'].
Definition WriteValue := Of [Node'; UInt32'; Text'; TDV].
Definition HistoryReadValueId := Of [Node'; Text'; QName'; Bin'].
Definition HistoryReadResult := Of [Status'; Bin'; TExt].
Definition HistoryUpdateResult := Of [Status'; Many Status'; Many TDiag].
Definition CallMethodRequest := Of [Node'; Node'; Many TVar].
Definition CallMethodResult := Of [Status'; Many Status'; Many TDiag; Many TVar].
Definition EventFilter := Of [Many SimpleAttributeOperand; ContentFilter].
Definition AggregateConfiguration := Of [Bool'; Bool'; Byte'; Byte'; Bool'].
Definition MonitoringParameters := Of [UInt32'; Double'; TExt; UInt32'; Bool'].
Definition MonitoredItemCreateRequest := Of [ReadValueId; Enum'; MonitoringParameters].
Definition MonitoredItemCreateResult := Of [Status'; UInt32'; Double'; UInt32'; TExt].
Definition MonitoredItemModifyRequest := Of [UInt32'; MonitoringParameters].
Definition MonitoredItemModifyResult := Of [Status'; Double'; UInt32'; TExt].
Definition NotificationMessage := Of [UInt32'; Time'; Many TExt].
Definition MonitoredItemNotification := Of [UInt32'; TDV].
Definition EventFieldList := Of [UInt32'; Many TVar].
Definition HistoryEventFieldList := Of [Many TVar].
Definition SubscriptionAcknowledgement := Of [UInt32'; UInt32'].
Definition TransferResult := Of [Status'; Many UInt32'].
Definition AddNodesItem := Of [ExpNode'; Node'; ExpNode'; QName'; Enum'; TExt; ExpNode'].
Definition AddNodesResult := Of [Status'; Node'].
Definition AddReferencesItem := Of [Node'; Node'; Bool'; Text'; ExpNode'; Enum'].
Definition DeleteNodesItem := Of [Node'; Bool'].
Definition DeleteReferencesItem := Of [Node'; Node'; Bool'; ExpNode'; Bool'].

Definition answer (l : list ty) : list ty := l ++ [Many TDiag].
(** name of the service (spelled as in the library), identifier and fields of its request, of its response *)
Definition standard_services : list (string * (Z * list ty) * (Z * list ty)) := [
  ("FindServers"%string, (422, [RequestHeader; Text'; Many Text'; Many Text']),
     (425, [ResponseHeader; Many ApplicationDescription]));
  ("FindServersOnNetwork"%string, (12208, [RequestHeader; UInt32'; UInt32'; Many Text']),
     (12209, [ResponseHeader; Time'; Many ServerOnNetwork]));
  ("GetEndpoints"%string, (428, [RequestHeader; Text'; Many Text'; Many Text']),
     (431, [ResponseHeader; Many EndpointDescription]));
  ("RegisterServer"%string, (437, [RequestHeader; RegisteredServer]),
     (440, [ResponseHeader]));
  ("RegisterServer2"%string, (12211, [RequestHeader; RegisteredServer; Many TExt]),
     (12212, answer [ResponseHeader; Many Status']));
  ("OpenSecureChannel"%string, (446, [RequestHeader; UInt32'; Enum'; Enum'; Bin'; UInt32']),
     (449, [ResponseHeader; UInt32'; ChannelSecurityToken; Bin']));
  ("CloseSecureChannel"%string, (452, [RequestHeader]),
     (455, [ResponseHeader]));
  ("CreateSession"%string, (461, [RequestHeader; ApplicationDescription; Text'; Text'; Text'; Bin'; Bin'; Double'; UInt32']),
     (464, [ResponseHeader; Node'; Node'; Double'; Bin'; Bin'; Many EndpointDescription; Many SignedSoftwareCertificate; SignatureData; UInt32']));
  ("ActivateSession"%string, (467, [RequestHeader; SignatureData; Many SignedSoftwareCertificate; Many Text'; TExt; SignatureData]),
     (470, answer [ResponseHeader; Bin'; Many Status']));
  ("CloseSession"%string, (473, [RequestHeader; Bool']),
     (476, [ResponseHeader]));
  ("Cancel"%string, (479, [RequestHeader; UInt32']),
     (482, [ResponseHeader; UInt32']));
  ("AddNodes"%string, (488, [RequestHeader; Many AddNodesItem]),
     (491, answer [ResponseHeader; Many AddNodesResult]));
  ("AddReferences"%string, (494, [RequestHeader; Many AddReferencesItem]),
     (497, answer [ResponseHeader; Many Status']));
  ("DeleteNodes"%string, (500, [RequestHeader; Many DeleteNodesItem]),
     (503, answer [ResponseHeader; Many Status']));
  ("DeleteReferences"%string, (506, [RequestHeader; Many DeleteReferencesItem]),
     (509, answer [ResponseHeader; Many Status']));
  ("Browse"%string, (527, [RequestHeader; ViewDescription; UInt32'; Many BrowseDescription]),
     (530, answer [ResponseHeader; Many BrowseResult]));
  ("BrowseNext"%string, (533, [RequestHeader; Bool'; Many Bin']),
     (536, answer [ResponseHeader; Many BrowseResult]));
  ("TranslateBrowsePathsToNodeIDs"%string, (554, [RequestHeader; Many BrowsePath]),
     (557, answer [ResponseHeader; Many BrowsePathResult]));
  ("RegisterNodes"%string, (560, [RequestHeader; Many Node']),
     (563, [ResponseHeader; Many Node']));
  ("UnregisterNodes"%string, (566, [RequestHeader; Many Node']),
     (569, [ResponseHeader]));
  ("QueryFirst"%string, (615, [RequestHeader; ViewDescription; Many NodeTypeDescription; ContentFilter; UInt32'; UInt32']),
     (618, [ResponseHeader; Many QueryDataSet; Bin'; Many ParsingResult; Many TDiag; ContentFilterResult]));
  ("QueryNext"%string, (621, [RequestHeader; Bool'; Bin']),
     (624, [ResponseHeader; Many QueryDataSet; Bin']));
  ("Read"%string, (631, [RequestHeader; Double'; Enum'; Many ReadValueId]),
     (634, answer [ResponseHeader; Many TDV]));
  ("HistoryRead"%string, (664, [RequestHeader; TExt; Enum'; Bool'; Many HistoryReadValueId]),
     (667, answer [ResponseHeader; Many HistoryReadResult]));
  ("Write"%string, (673, [RequestHeader; Many WriteValue]),
     (676, answer [ResponseHeader; Many Status']));
  ("HistoryUpdate"%string, (700, [RequestHeader; Many TExt]),
     (703, answer [ResponseHeader; Many HistoryUpdateResult]));
  ("Call"%string, (712, [RequestHeader; Many CallMethodRequest]),
     (715, answer [ResponseHeader; Many CallMethodResult]));
  ("CreateMonitoredItems"%string, (751, [RequestHeader; UInt32'; Enum'; Many MonitoredItemCreateRequest]),
     (754, answer [ResponseHeader; Many MonitoredItemCreateResult]));
  ("ModifyMonitoredItems"%string, (763, [RequestHeader; UInt32'; Enum'; Many MonitoredItemModifyRequest]),
     (766, answer [ResponseHeader; Many MonitoredItemModifyResult]));
  ("SetMonitoringMode"%string, (769, [RequestHeader; UInt32'; Enum'; Many UInt32']),
     (772, answer [ResponseHeader; Many Status']));
  ("SetTriggering"%string, (775, [RequestHeader; UInt32'; UInt32'; Many UInt32'; Many UInt32']),
     (778, answer [ResponseHeader; Many Status'; Many TDiag; Many Status']));
  ("DeleteMonitoredItems"%string, (781, [RequestHeader; UInt32'; Many UInt32']),
     (784, answer [ResponseHeader; Many Status']));
  ("CreateSubscription"%string, (787, [RequestHeader; Double'; UInt32'; UInt32'; UInt32'; Bool'; Byte']),
     (790, [ResponseHeader; UInt32'; Double'; UInt32'; UInt32']));
  ("ModifySubscription"%string, (793, [RequestHeader; UInt32'; Double'; UInt32'; UInt32'; UInt32'; Byte']),
     (796, [ResponseHeader; Double'; UInt32'; UInt32']));
  ("SetPublishingMode"%string, (799, [RequestHeader; Bool'; Many UInt32']),
     (802, answer [ResponseHeader; Many Status']));
  ("Publish"%string, (826, [RequestHeader; Many SubscriptionAcknowledgement]),
     (829, answer [ResponseHeader; UInt32'; Many UInt32'; Bool'; NotificationMessage; Many Status']));
  ("Republish"%string, (832, [RequestHeader; UInt32'; UInt32']),
     (835, [ResponseHeader; NotificationMessage]));
  ("TransferSubscriptions"%string, (841, [RequestHeader; Many UInt32'; Bool']),
     (844, answer [ResponseHeader; Many TransferResult]));
  ("DeleteSubscriptions"%string, (847, [RequestHeader; Many UInt32']),
     (850, answer [ResponseHeader; Many Status']))
].
Definition standard_fault : Z * list ty := (397, [ResponseHeader]).

(** Structures the messages carry in ExtensionObjects *)
Definition standard_parameters : list (Z * list ty) := [
  (321, [Text']);                                     (* AnonymousIdentityToken *)
  (324, [Text'; Text'; Bin'; Text']);                 (* UserNameIdentityToken *)
  (327, [Text'; Bin']);                               (* X509IdentityToken *)
  (940, [Text'; Bin'; Text']);                        (* IssuedIdentityToken *)
  (594, [UInt32']);                                   (* ElementOperand *)
  (597, [TVar]);                                      (* LiteralOperand *)
  (600, [Node'; Text'; RelativePath; UInt32'; Text']);   (* AttributeOperand *)
  (603, [Node'; Many QName'; UInt32'; Text']);        (* SimpleAttributeOperand *)
  (646, [UInt32'; Time'; Time'; EventFilter]);        (* ReadEventDetails *)
  (649, [Bool'; Time'; Time'; UInt32'; Bool']);       (* ReadRawModifiedDetails *)
  (652, [Time'; Time'; Double'; Many Node'; AggregateConfiguration]);   (* ReadProcessedDetails *)
  (655, [Many Time'; Bool']);                         (* ReadAtTimeDetails *)
  (658, [Many TDV]);                                  (* HistoryData *)
  (661, [Many HistoryEventFieldList]);                (* HistoryEvent *)
  (682, [Node'; Enum'; Many TDV]);                    (* UpdateDataDetails *)
  (685, [Node'; Enum'; EventFilter; Many HistoryEventFieldList]);   (* UpdateEventDetails *)
  (688, [Node'; Bool'; Time'; Time']);                (* DeleteRawModifiedDetails *)
  (691, [Node'; Many Time']);                         (* DeleteAtTimeDetails *)
  (694, [Node'; Many Bin']);                          (* DeleteEventDetails *)
  (724, [Enum'; UInt32'; Double']);                   (* DataChangeFilter *)
  (727, [Many SimpleAttributeOperand; ContentFilter]);   (* EventFilter *)
  (730, [Time'; Node'; Double'; AggregateConfiguration]);   (* AggregateFilter *)
  (736, [Many Status'; Many TDiag; ContentFilterResult]);   (* EventFilterResult *)
  (811, [Many MonitoredItemNotification; Many TDiag]);   (* DataChangeNotification *)
  (820, [Status'; TDiag]);                            (* StatusChangeNotification *)
  (916, [Many EventFieldList]);                       (* EventNotificationList *)
  (298, [Text'; Node'; Int32'; Many UInt32'; LText']);   (* Argument *)
  (886, [Double'; Double']);                          (* Range *)
  (889, [Text'; Int32'; LText'; LText']);             (* EUInformation *)
  (864, [Time'; Time'; Enum'; Of [Text'; Text'; Text'; Text'; Text'; Time']; UInt32'; LText'])   (* ServerStatusDataType *)
].
