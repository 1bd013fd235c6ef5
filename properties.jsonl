{"id": "C01", "title": "Built-in scalars survive the wire", "statement": "Writing any Boolean, integer of any width, Float, Double, String, ByteString, byte slice or XmlElement with the binary encoder and reading it back with the decoder yields the same value and leaves exactly the bytes that followed it (a nil byte slice stays nil; the empty String/ByteString is the null one).", "quantifier": "every value of every scalar type, every stream contents after it", "why_tests_cant": "2^64 integers and all strings of every length; a test samples boundary values only", "anchors": ["ua/binary_encoder.go:WriteBoolean..WriteByteArray", "ua/binary_decoder.go:ReadBoolean..ReadByteArray"]}
{"id": "C02", "title": "DateTime keeps 100 ns resolution and saturates", "statement": "A UTC time written as DateTime is read back as the same instant truncated to 100 ns whenever it lies between 1601-01-01 and the documented maximum; earlier times read back as the 1601 epoch and later times as the maximum; the conversion never produces another instant.", "quantifier": "every instant representable as (int64 seconds, nanoseconds)", "why_tests_cant": "the tick arithmetic is modular 64-bit arithmetic over an unbounded range of instants; boundaries and wrap-around cannot be sampled exhaustively", "anchors": ["ua/binary_encoder.go:WriteDateTime", "ua/binary_decoder.go:ReadDateTime"]}
{"id": "C03", "title": "Guid survives the wire", "statement": "Every Guid is written as 16 bytes in the mixed-endian OPC UA layout and read back unchanged, and two different Guids never have the same bytes.", "quantifier": "all 2^128 Guids", "why_tests_cant": "2^128 values", "anchors": ["ua/binary_encoder.go:WriteGUID", "ua/binary_decoder.go:ReadGUID"]}
{"id": "C04", "title": "NodeId survives the wire in the shortest form", "statement": "Every NodeId (numeric, string, guid, opaque) is read back as the same NodeId, except that the null identifier of each kind in namespace 0 reads back as the null NodeId; numeric ids use the 2-, 4- or 7-byte form, the shortest that can carry them.", "quantifier": "every namespace index and identifier of every kind, every following stream", "why_tests_cant": "the encoding picks one of six layouts by value; the product of namespaces and identifiers cannot be enumerated", "anchors": ["ua/binary_encoder.go:WriteNodeID", "ua/binary_decoder.go:ReadNodeID"]}
{"id": "C05", "title": "ExpandedNodeId survives the wire", "statement": "Every ExpandedNodeId (NodeId, optional namespace URI, optional server index) is read back as the same value, up to the namespace index being carried by the URI when a URI is present.", "quantifier": "every ExpandedNodeId including the null NodeId with and without URI and server index", "why_tests_cant": "flag bits combine with six NodeId layouts; the null case is easy to miss in tests", "anchors": ["ua/binary_encoder.go:WriteExpandedNodeID", "ua/binary_decoder.go:ReadExpandedNodeID"]}
{"id": "C06", "title": "QualifiedName, LocalizedText and StatusCode survive the wire", "statement": "Every QualifiedName, LocalizedText (any combination of missing locale and text) and StatusCode is read back unchanged and the reader stops exactly at the end of it.", "quantifier": "all values of the three types", "why_tests_cant": "unbounded strings", "anchors": ["ua/binary_encoder.go:WriteQualifiedName,WriteLocalizedText,WriteStatusCode", "ua/binary_decoder.go:ReadQualifiedName,ReadLocalizedText,ReadStatusCode"]}
{"id": "C07", "title": "Variant survives the wire", "statement": "Every Variant the encoder accepts - null, any scalar, any array, any rectangular two or three dimensional array, variants nested to any depth - is read back as the same value.", "quantifier": "every variant value, every nesting depth, every array length and shape", "why_tests_cant": "25 types times 4 ranks with unbounded nesting", "anchors": ["ua/binary_encoder.go:WriteVariant", "ua/binary_decoder.go:ReadVariant"]}
{"id": "C08", "title": "DataValue survives the wire", "statement": "Every DataValue (any subset of value, status, timestamps and picoseconds) is read back unchanged with timestamps truncated to 100 ns.", "quantifier": "every DataValue", "why_tests_cant": "64 field subsets times unbounded payloads", "anchors": ["ua/binary_encoder.go:WriteDataValue", "ua/binary_decoder.go:ReadDataValue"]}
{"id": "C09", "title": "DiagnosticInfo survives the wire", "statement": "Every DiagnosticInfo, including nested inner diagnostics, is read back unchanged.", "quantifier": "every DiagnosticInfo of every nesting depth", "why_tests_cant": "127 field masks with unbounded nesting", "anchors": ["ua/binary_encoder.go:WriteDiagnosticInfo", "ua/binary_decoder.go:ReadDiagnosticInfo"]}
{"id": "C10", "title": "ExtensionObjects keep the stream in step", "statement": "A structure of a registered type wrapped in an ExtensionObject is read back as that structure; an ExtensionObject of an unknown type, or with an XML body, is skipped as a whole, so whatever follows it in the message is still decoded correctly.", "quantifier": "every registry, every body length and content, every following stream", "why_tests_cant": "depends on all registered and unregistered type ids and arbitrary opaque bodies", "anchors": ["ua/binary_encoder.go:WriteExtensionObject", "ua/binary_decoder.go:ReadExtensionObject", "ua/binary_registry.go"]}
{"id": "C11", "title": "Every service message survives the wire", "statement": "For every Go structure type built from the supported field kinds (nested structures, pointers, slices, enumerations, built-in types), encoding a value and decoding the bytes yields the same value, with nil and empty slices identified.", "quantifier": "every structure type and every value of it, at any nesting depth", "why_tests_cant": "the codec is driven by reflection over hundreds of generated types; no test suite covers all types and values", "anchors": ["ua/binary_encoder.go:getEncoder,getStructEncoder,getSliceEncoder,getStructPtrEncoder", "ua/binary_decoder.go:getDecoder,getStructDecoder,getSliceDecoder"]}
{"id": "C12", "title": "A truncated message never decodes", "statement": "If a message is cut short anywhere, decoding it reports an error; it never yields a value built from missing bytes.", "quantifier": "every message type, every value and every cut point", "why_tests_cant": "quadratically many cut points times unboundedly many messages", "anchors": ["ua/binary_decoder.go"]}
{"id": "C13", "title": "Two different messages never have the same bytes", "statement": "The binary encoding is prefix free: no encoded value is a proper prefix of the encoding of another value of the same type, and equal encodings mean equal values.", "quantifier": "all pairs of values of the same type", "why_tests_cant": "pairs of unbounded values", "anchors": ["ua/binary_encoder.go", "ua/binary_decoder.go"]}
{"id": "C14", "title": "No input makes the decoder crash", "statement": "Decoding arbitrary bytes received from the network either yields a value or an error; it never panics.", "quantifier": "all byte strings, all target types", "why_tests_cant": "arbitrary hostile inputs", "anchors": ["ua/binary_decoder.go:ReadVariant,ReadDiagnosticInfo"]}
{"id": "C15", "title": "NodeId text form round-trips", "statement": "Parsing the text form of a NodeId gives back the same NodeId for numeric, string, guid and opaque identifiers, and the null NodeId prints as i=0.", "quantifier": "every NodeId", "why_tests_cant": "unbounded identifiers, strings may contain any characters including '=' and ';'", "anchors": ["ua/nodeid.go:ParseNodeID,String"]}
{"id": "C16", "title": "ExpandedNodeId text form round-trips", "statement": "Parsing the text form of an ExpandedNodeId gives back the same server index, namespace URI and NodeId.", "quantifier": "every server index, URI and NodeId", "why_tests_cant": "URIs can contain ';' and other delimiters", "anchors": ["ua/expanded_nodeid.go:ParseExpandedNodeID,String"]}
{"id": "C17", "title": "QualifiedName text form round-trips", "statement": "Parsing the text form of a QualifiedName gives back the same namespace index and name, whatever characters the name contains.", "quantifier": "every namespace index and every name", "why_tests_cant": "names may contain ':' and digits", "anchors": ["ua/qualified_name.go:ParseQualifiedName,String,ParseBrowsePath"]}
{"id": "C18", "title": "Namespace URI translation is faithful", "statement": "Translating a NodeId to its ExpandedNodeId with a namespace table and back with the same table yields the same NodeId, and a URI that is not in the table yields no NodeId rather than another namespace's NodeId.", "quantifier": "every NodeId and every namespace table", "why_tests_cant": "all tables including duplicates and more than 65535 entries", "anchors": ["ua/nodeid.go:ToExpandedNodeID", "ua/expanded_nodeid.go:ToNodeID"]}
{"id": "C19", "title": "The type registry is a bijection", "statement": "After any sequence of registrations, a type found for an encoding id is registered with exactly that id and vice versa; conflicting registrations are refused without changing what other types resolve to.", "quantifier": "every sequence of registrations, including conflicting ones", "why_tests_cant": "arbitrary histories", "anchors": ["ua/binary_registry.go"]}
{"id": "C20", "title": "The chunk writer never writes outside its buffer", "statement": "Any sequence of writes to the fixed-size message writer leaves the bytes before each write untouched, never exceeds the buffer, and reports a short write exactly when data did not fit.", "quantifier": "every buffer size and sequence of writes", "why_tests_cant": "arbitrary histories", "anchors": ["ua/bytes_writer.go"]}
{"id": "C21", "title": "Status code severity is well defined", "statement": "Every status code is exactly one of good, uncertain, bad (or the reserved fourth class, which is reported as none of them), and setting information bits never changes the severity or the code.", "quantifier": "all 2^32 status codes", "why_tests_cant": "2^32 values, interplay of masks", "anchors": ["ua/status_code.go"]}
{"id": "C22", "title": "Chunks always fit the peer's buffer", "statement": "Whatever the size of a request or response, and whatever buffer size was negotiated above the minimum needed for one chunk, every chunk sent is at most the peer's receive buffer, carries at least one body byte, and in encrypted mode its encrypted part is a whole number of cipher blocks.", "quantifier": "every body size, buffer size, security policy and mode", "why_tests_cant": "off-by-one errors only show at particular residues of body size modulo block and buffer size", "anchors": ["server/server_secure_channel.go:sendServiceResponse", "client/client_secure_channel.go:sendServiceRequest"]}
{"id": "C23", "title": "Chunking then reassembly is the identity", "statement": "The body reassembled by the receiver from the chunks is byte for byte the body the sender encoded, for every security mode, with exactly the last chunk marked final.", "quantifier": "every body, every buffer size, every policy and mode, both directions", "why_tests_cant": "padding, signature and block alignment interact with every body length", "anchors": ["server/server_secure_channel.go:sendServiceResponse,readRequest", "client/client_secure_channel.go:sendServiceRequest,readResponse"]}
{"id": "C24", "title": "OpenSecureChannel messages fit RSA blocks", "statement": "An OpenSecureChannel request or response is padded so that the plaintext is a whole number of RSA plain blocks, its encrypted size is the announced message length, it fits in the buffer, and the receiver recovers exactly the encoded body.", "quantifier": "every RSA key size of sender and receiver, every policy, every body length", "why_tests_cant": "key sizes of the two parties vary independently; extra-padding byte appears only above 2048 bit keys", "anchors": ["server/server_secure_channel.go:sendOpenSecureChannelResponse,readRequest", "client/client_secure_channel.go:sendOpenSecureChannelRequest,readResponse"]}
{"id": "C25", "title": "Message size limits are enforced in both directions", "statement": "A peer never sends a message with more chunks or bytes than the limits announced by the other side, and a receiver rejects any message that exceeds its own limits without handing it to a service.", "quantifier": "every message size, every limit including zero (unlimited)", "why_tests_cant": "limits interact with chunk boundaries", "anchors": ["server/server_secure_channel.go:sendServiceResponse,readRequest", "client/client_secure_channel.go:sendServiceRequest,readResponse"]}
{"id": "C26", "title": "Sequence numbers, request handles, channel and token ids never repeat or hit zero", "statement": "Successive sequence numbers, request handles, channel ids and token ids are consecutive, never zero, and do not repeat within 2^32-1 uses.", "quantifier": "every history length, including wrap-around", "why_tests_cant": "wrap occurs after four billion messages", "anchors": ["server/server_secure_channel.go:getNextSequenceNumber,getNextTokenID", "client/client_secure_channel.go:getNextRequestHandle,getNextSequenceNumber", "server/server.go:getNextChannelID"]}
{"id": "C27", "title": "Unauthenticated messages are never executed", "statement": "On a channel in Sign or SignAndEncrypt mode, a service request is only handed to the server if every one of its chunks carried a valid signature under the keys of the channel's current or pending token.", "quantifier": "every byte stream an attacker can inject, every interleaving with genuine chunks and token renewals", "why_tests_cant": "adversarial inputs", "anchors": ["server/server_secure_channel.go:readRequest"]}
{"id": "C28", "title": "Messages are not replayed", "statement": "A recorded message that is sent again on the same channel is rejected.", "quantifier": "every recorded history", "why_tests_cant": "adversarial schedules", "anchors": ["server/server_secure_channel.go:readRequest", "client/client_secure_channel.go:readResponse"]}
{"id": "C29", "title": "Buffer negotiation is consistent", "statement": "After Hello/Acknowledge each side's send buffer is no larger than the other side's receive buffer and neither exceeds what that side asked for.", "quantifier": "every combination of requested sizes", "why_tests_cant": "four independent 32-bit parameters", "anchors": ["server/server_secure_channel.go:Open", "client/client_secure_channel.go:Open"]}
{"id": "C30", "title": "Token renewal keeps both sides in step", "statement": "After any number of renewals client and server use the same token id and derive identical signing, encryption and initialisation keys for each direction, and a message secured with a superseded token is rejected once the new token has been used.", "quantifier": "every sequence of renewals and messages in flight", "why_tests_cant": "schedules of renewals against in-flight messages", "anchors": ["server/server_secure_channel.go:handleOpenSecureChannel,readRequest,sendServiceResponse", "client/client_secure_channel.go:renewToken,sendServiceRequest,readResponse"]}
{"id": "C31", "title": "Key derivation is deterministic and length independent", "statement": "The derived key material for a requested length is a prefix of the material for any larger length, has exactly the requested length, and splits into non-overlapping signing, encryption and IV parts.", "quantifier": "every secret, seed and length", "why_tests_cant": "unbounded lengths, arbitrary hash", "anchors": ["server/server_secure_channel.go:calculatePSHA", "client/client_secure_channel.go:calculatePSHA"]}
{"id": "C32", "title": "Each response reaches exactly the caller that asked", "statement": "With any number of concurrent requests, every response is delivered to the request with the same handle and to no other, at most once; a response for an unknown or timed-out request is dropped.", "quantifier": "every interleaving of requests, responses, timeouts and channel closure", "why_tests_cant": "schedules", "anchors": ["client/client_secure_channel.go:Request,handleResponse,responseWorker"]}
{"id": "C33", "title": "User passwords arrive intact", "statement": "A user name password encrypted by the client for the session's server nonce is recovered by the server byte for byte, whatever its length.", "quantifier": "every password, nonce, policy and RSA key size", "why_tests_cant": "block splitting depends on password length and key size", "anchors": ["client/client.go:open", "server/server_service_set.go:handleActivateSession"]}
{"id": "C34", "title": "No service runs without an activated session on that channel", "statement": "Every session-bound service request is executed only if its authentication token names a session that exists, has not expired and is activated on the secure channel that carried the request; otherwise it is answered with the matching error and has no effect on the address space or subscriptions.", "quantifier": "every sequence of create/activate/close/expire/service requests over any number of channels", "why_tests_cant": "histories across channels and sessions", "anchors": ["server/server_service_set.go:handleCreateSession,handleActivateSession,handleCloseSession,handleRead,handleWrite", "server/session_manager.go"]}
{"id": "C35", "title": "Activation proves the identity", "statement": "A session becomes activated with a user identity only if the client signature over the server certificate and the session's last nonce verifies, the token matches a policy of the endpoint, and the configured authenticator accepts that identity.", "quantifier": "every activation request against every session history", "why_tests_cant": "adversarial requests; crypto outcomes are arbitrary", "anchors": ["server/server_service_set.go:handleActivateSession"]}
{"id": "C36", "title": "A session is bound to the client that created it", "statement": "A session can only be activated by the client application whose certificate was used to create it.", "quantifier": "every pair of channels and every history", "why_tests_cant": "adversarial schedules", "anchors": ["server/server_service_set.go:handleActivateSession"]}
{"id": "C37", "title": "Session count and timeouts are bounded", "statement": "The number of sessions never exceeds the configured maximum, each session's timeout lies within the server's bounds, and a session that has not been used for longer than its timeout is never served again.", "quantifier": "every history of create, use, expire and close", "why_tests_cant": "histories and clock values", "anchors": ["server/session_manager.go", "server/server_service_set.go:handleCreateSession", "server/session.go:IsExpired"]}
{"id": "C38", "title": "Publish requests are answered exactly once in order", "statement": "At most 64 publish requests are held per session; they are used oldest first; when a new one arrives and the queue is full the oldest is answered BadTooManyPublishRequests; expired ones are answered BadTimeout; none is lost or answered twice.", "quantifier": "every interleaving of arrivals, uses and expirations", "why_tests_cant": "schedules", "anchors": ["server/session.go:addPublishRequest,removePublishRequest"]}
{"id": "C39", "title": "Browse continuation points deliver every reference exactly once", "statement": "Browse followed by BrowseNext calls until no continuation point is returned yields exactly the full list of matching references in order with no duplicates; each continuation point works once; a released or foreign one is rejected; no more than the configured number are held.", "quantifier": "every reference list, page size and sequence of BrowseNext calls", "why_tests_cant": "page boundaries and histories", "anchors": ["server/server_service_set.go:handleBrowse,handleBrowseNext", "server/session.go:addBrowseContinuationPoint,removeBrowseContinuationPoint"]}
{"id": "C40", "title": "Malformed continuation points are rejected, not fatal", "statement": "A BrowseNext request with any byte string as continuation point gets a per-operation result; it never stops the server.", "quantifier": "every byte string", "why_tests_cant": "arbitrary input", "anchors": ["server/session.go:removeBrowseContinuationPoint", "server/server_service_set.go:handleBrowseNext"]}
{"id": "C41", "title": "Revised subscription parameters stay in bounds", "statement": "For any requested values the revised publishing interval lies within the server limits, the keep-alive count is at least one, the lifetime is at least three keep-alive periods and the subscription's keep-alive period and lifetime stay within the server's maxima.", "quantifier": "every requested interval (including NaN and infinities), keep-alive count and lifetime count", "why_tests_cant": "floating point and 32-bit corner cases", "anchors": ["server/subscription.go:setPublishingInterval,setMaxKeepAliveCount,setLifetimeCount"]}
{"id": "C42", "title": "Notification sequence numbers are consecutive and unique", "statement": "The sequence numbers of the notification messages of a subscription are consecutive starting at 1, never zero, and no two messages available for retransmission share one.", "quantifier": "every history of publishing, acknowledging, republishing and transport failures", "why_tests_cant": "histories and wrap-around after four billion messages", "anchors": ["server/subscription.go:publish,handleLatePublishRequest"]}
{"id": "C43", "title": "Unacknowledged notifications can be republished", "statement": "A sent notification message stays available with its original content until it is acknowledged or pushed out by 128 newer ones; acknowledging removes exactly that message and reports BadSequenceNumberUnknown for others; the list of available sequence numbers reported with each publish is exact.", "quantifier": "every history of publish, acknowledge and republish", "why_tests_cant": "histories", "anchors": ["server/subscription.go:acknowledge,publish", "server/server_service_set.go:handleRepublish,handlePublish"]}
{"id": "C44", "title": "Notifications are delivered once and in order", "statement": "Every notification queued by a monitored item is delivered exactly once, in queue order, across the publish responses, regardless of the limit on notifications per publish.", "quantifier": "every queue content, every limit, every sequence of publish calls", "why_tests_cant": "histories and limits", "anchors": ["server/subscription.go:publish", "server/datachange_monitored_item.go:notifications"]}
{"id": "C45", "title": "Keep-alive and lifetime counting", "statement": "While the client keeps publish requests queued, a keep-alive is sent after at most the revised keep-alive count of idle cycles and the subscription never expires; without publish requests the subscription expires after exactly the revised lifetime count of cycles.", "quantifier": "every history of publishing cycles and publish requests", "why_tests_cant": "histories of arbitrary length", "anchors": ["server/subscription.go:publish,IsExpired"]}
{"id": "C46", "title": "Subscriptions of other sessions cannot be touched", "statement": "A session can only modify, delete, publish-control, add items to, delete items from, republish from or acknowledge messages of its own subscriptions.", "quantifier": "every service, every pair of sessions, every history", "why_tests_cant": "cross-session histories", "anchors": ["server/server_service_set.go:handleModifySubscription,handleSetPublishingMode,handleDeleteSubscriptions,handleCreateMonitoredItems,handleSetMonitoringMode,handleSetTriggering,handleDeleteMonitoredItems,handleRepublish,handlePublish"]}
{"id": "C47", "title": "Subscription count is bounded", "statement": "The number of subscriptions never exceeds the configured maximum, identifiers are never reused, and a deleted or expired subscription is never published again.", "quantifier": "every history of create, delete and expiry", "why_tests_cant": "histories", "anchors": ["server/subscription_manager.go", "server/server_service_set.go:handleCreateSubscription"]}
{"id": "C48", "title": "Monitored item queue respects size and discard policy", "statement": "The queue of a monitored item never exceeds its revised queue size (1..1024); with discard-oldest it holds the newest values in order; otherwise it holds the oldest values and the newest one in last place.", "quantifier": "every sequence of values, resizes and publishes", "why_tests_cant": "histories", "anchors": ["server/datachange_monitored_item.go:enqueue,setQueueSize", "server/event_monitored_item.go:enqueue"]}
{"id": "C49", "title": "Overflow is signalled", "statement": "Whenever a value of a queue larger than one is discarded, a delivered value carries the overflow bit.", "quantifier": "every sequence of values", "why_tests_cant": "histories", "anchors": ["server/datachange_monitored_item.go:enqueue"]}
{"id": "C50", "title": "Data change filter reports exactly the changes asked for", "statement": "With trigger Status, StatusValue or StatusValueTimestamp a sample is reported iff the selected fields differ from the last reported sample, and with an absolute deadband a numeric value is reported iff it differs by more than the deadband.", "quantifier": "every pair of samples of every numeric type and every deadband", "why_tests_cant": "pairs of 64-bit values, wrap-around in differences", "anchors": ["server/datachange_monitored_item.go:isDataChange,equalDeadbandAbsolute"]}
{"id": "C51", "title": "Monitoring mode semantics", "statement": "A disabled item never samples or reports; a sampling item reports only when triggered; switching modes any number of times leaves the server's count of disabled items exact.", "quantifier": "every sequence of mode changes", "why_tests_cant": "histories", "anchors": ["server/datachange_monitored_item.go:SetMonitoringMode,notificationsAvailable"]}
{"id": "C52", "title": "Event filter where clause", "statement": "Evaluating the where clause of an event filter terminates and selects exactly the events that satisfy it, for the supported operators; unsupported operators select nothing.", "quantifier": "every filter tree and every event", "why_tests_cant": "unbounded filter trees including cyclic references", "anchors": ["server/event_monitored_item.go:whereClause"]}
{"id": "C53", "title": "Read never reveals what the user may not see", "statement": "An attribute value is returned only if the user has Browse permission on the node and, for the Value attribute, the node is readable and one of the user's roles has Read permission; a node that is hidden is indistinguishable from one that does not exist.", "quantifier": "every node configuration, role set, attribute and index range", "why_tests_cant": "all combinations of permissions and attributes", "anchors": ["server/server_service_set.go:readValue", "server/variable_node.go:UserAccessLevel,UserRolePermissions"]}
{"id": "C54", "title": "Write changes only what the user may change", "statement": "A write succeeds only if the attribute is writable and the user's roles permit it and the value fits the variable's type and rank; a refused write leaves the node unchanged; a write touches no other node or attribute.", "quantifier": "every node, role set, attribute and value", "why_tests_cant": "all combinations", "anchors": ["server/server_service_set.go:writeValue", "server/variable_node.go"]}
{"id": "C55", "title": "Browse shows only permitted references", "statement": "Browse returns exactly those references of the node, in the requested direction, of the requested reference type or a subtype of it if asked, of the requested node classes, whose target the user may browse.", "quantifier": "every address space, filter and role set", "why_tests_cant": "graph-shaped inputs", "anchors": ["server/server_service_set.go:handleBrowse"]}
{"id": "C56", "title": "Methods run only with Call permission", "statement": "A method handler is invoked only if the object exists and is an object or object type, both it and the method are browsable by the user, and the method is executable for one of the user's roles.", "quantifier": "every object, method and role set", "why_tests_cant": "all combinations", "anchors": ["server/server_service_set.go:handleCall", "server/method_node.go:UserExecutable"]}
{"id": "C57", "title": "History is protected like values", "statement": "Historical values are returned only if the user may read history of the node.", "quantifier": "every node and role set", "why_tests_cant": "all combinations", "anchors": ["server/server_service_set.go:handleHistoryRead"]}
{"id": "C58", "title": "Roles are granted exactly by the matching rules", "statement": "A user gets precisely the roles of those identity mapping rules that match the identity, application and endpoint; no rule affects whether another rule grants its role; a user matching no rule is denied.", "quantifier": "every rule list and identity", "why_tests_cant": "all permutations of rules", "anchors": ["server/roles_provider.go:GetRoles"]}
{"id": "C59", "title": "Effective access never exceeds the node's access level", "statement": "The user access level and effective permissions are always a subset of the node's access level and role permissions, and adding a role never removes access.", "quantifier": "every node and role set", "why_tests_cant": "all combinations of bit masks", "anchors": ["server/variable_node.go:UserAccessLevel", "server/roles_provider.go:IsUserPermitted"]}
{"id": "C60", "title": "Index ranges select exactly the requested elements", "statement": "Reading with an index range \"a\" or \"a:b\" (per dimension) returns exactly elements a..b clipped to the length; malformed ranges give BadIndexRangeInvalid, ranges outside the data BadIndexRangeNoData, and nothing is read out of bounds.", "quantifier": "every range text and every array", "why_tests_cant": "arbitrary strings and lengths", "anchors": ["server/server_service_set.go:readRange,parseBounds"]}
{"id": "C61", "title": "Index range writes touch only the range", "statement": "Writing with an index range replaces exactly the selected elements; all other elements and the length stay the same; reading the same range back returns what was written; a value of the wrong length is refused.", "quantifier": "every range, array and value, in one and two dimensions", "why_tests_cant": "arbitrary lengths and ranges", "anchors": ["server/server_service_set.go:writeRange,parseBounds"]}
{"id": "C62", "title": "A write request cannot crash the server", "statement": "Any value combined with any index range yields a status code; it never stops the server.", "quantifier": "every value, index range and variable", "why_tests_cant": "arbitrary input", "anchors": ["server/server_service_set.go:writeValue,writeRange"]}
{"id": "C63", "title": "References stay bidirectional", "statement": "After adding any set of nodes, every hierarchical reference between two nodes of the address space is visible from both ends, so that anything browsed forward can be browsed back.", "quantifier": "every sequence of AddNodes with any graph", "why_tests_cant": "graph histories", "anchors": ["server/namespace_manager.go:AddNodes,addNodes"]}
{"id": "C64", "title": "Deleting nodes leaves no dangling references", "statement": "After deleting nodes, the nodes cannot be found, every other node is still there, and no remaining node keeps a reverse reference to a deleted one.", "quantifier": "every sequence of adds and deletes", "why_tests_cant": "graph histories", "anchors": ["server/namespace_manager.go:DeleteNodes,DeleteNode,deleteNodeandInverseReferences"]}
{"id": "C65", "title": "Subtype queries follow the type hierarchy", "statement": "IsSubtype answers true exactly when the second type is reachable from the first through supertypes (up to depth 100), is transitive, and terminates on every address space.", "quantifier": "every type graph including cyclic ones", "why_tests_cant": "graph-shaped inputs", "anchors": ["server/namespace_manager.go:IsSubtype,FindSuperType"]}
{"id": "C66", "title": "The namespace table is stable", "statement": "Adding a namespace URI returns its existing index if already present, indices of existing URIs never change, and no two entries share a URI.", "quantifier": "every sequence of additions", "why_tests_cant": "histories", "anchors": ["server/namespace_manager.go:Add,NamespaceUris"]}
{"id": "C67", "title": "Enumerating children terminates", "statement": "Listing all children of a node terminates and lists every descendant reachable through hierarchical references exactly once.", "quantifier": "every address space, including cyclic and diamond shaped ones", "why_tests_cant": "graph-shaped inputs", "anchors": ["server/namespace_manager.go:GetChildren,DeleteNodeByIDRecursive,GetSubTypes"]}
{"id": "C68", "title": "TranslateBrowsePaths finds exactly the targets of the path", "statement": "Every target returned is reachable from the starting node along references matching the path elements, and every node reachable that way is returned.", "quantifier": "every address space and relative path", "why_tests_cant": "graph-shaped inputs", "anchors": ["server/server_service_set.go:handleTranslateBrowsePaths,follow,target"]}
{"id": "C69", "title": "Only trusted certificates are accepted", "statement": "A peer certificate is accepted only if some verified chain contains a certificate of the trust list, the leaf allows the required use, issuers may sign certificates, and no chain member is revoked.", "quantifier": "every set of chains, trust lists and revocation lists", "why_tests_cant": "combinations of chains and lists", "anchors": ["ua/certificate_helpers.go:ValidateCertificate,checkRevocation"]}
{"id": "C70", "title": "The client picks the most secure matching endpoint", "statement": "Dial selects an endpoint whose security policy is supported and matches the requested policy and mode, and no other matching endpoint has a higher security level; without a client certificate only policy None is chosen.", "quantifier": "every endpoint list in every order", "why_tests_cant": "permutations of endpoint lists", "anchors": ["client/client.go:Dial"]}
{"id": "C71", "title": "Token renewal happens before expiry", "statement": "The client renews its security token strictly before the revised lifetime ends.", "quantifier": "every revised lifetime", "why_tests_cant": "32-bit multiplication wrap for large lifetimes", "anchors": ["client/client_secure_channel.go:Open,sendRequest,renewToken"]}
{"id": "C72", "title": "Status code constants are consistent", "statement": "Every named status code has the severity its name announces, a zero information half, and a value of its own; flag constants lie inside the mask of their group.", "quantifier": "every exported status code constant and flag", "why_tests_cant": "a test would have to restate the whole table; a clash shows only when two particular codes meet", "anchors": ["ua/status_code.go", "ua/status_code.generated.go"]}
{"id": "C73", "title": "No message terminates the process, and only authenticated messages are delivered", "statement": "Whatever bytes a peer sends on a connection, the receiver answers with an error or drops the connection; it never terminates the process. In the Sign and SignAndEncrypt modes nothing is handed to a service unless every chunk of the message carried a valid signature under the channel's keys.", "quantifier": "every byte stream, every mode, policy and key size", "why_tests_cant": "the hostile inputs are lengths and padding values nobody thought of; a test checks the few that were thought of", "anchors": ["server/server_secure_channel.go:readRequest", "client/client_secure_channel.go:readResponse"]}
{"id": "C74", "title": "Every client call returns", "statement": "A call of a service by the client returns, with a response or an error, no later than its timeout.", "quantifier": "every history of earlier calls, answers, timeouts and closed connections", "why_tests_cant": "needs more than thirty-two unanswered calls and an unbounded wait", "anchors": ["client/client_secure_channel.go:Request,mapPendingResponses,handleResponse"]}
{"id": "C75", "title": "The server does not deadlock", "statement": "Whatever the subscription services, publishing, sampling, events and expiry do at the same time, every one of them can run to its end; no set of operations waits for each other's locks for ever.", "quantifier": "every set of concurrent operations and every schedule", "why_tests_cant": "a deadlock needs one particular interleaving of two goroutines", "anchors": ["server/subscription_manager.go:checkForExpiredSubscriptions,Delete", "server/subscription.go:publish", "server/datachange_monitored_item.go:enqueue,Poll", "server/event_monitored_item.go:SetMonitoringMode,OnEvent", "server/object_node.go:OnEvent"]}
{"id": "C76", "title": "Deleting a subscription is safe at any moment", "statement": "An operation on a subscription that is deleted or expires at the same time fails with an error; it never terminates the server.", "quantifier": "every operation, every moment of deletion or expiry", "why_tests_cant": "needs the deletion to fall between looking the subscription up and using it", "anchors": ["server/subscription.go:deleteImpl,acknowledge,handleLatePublishRequest,Modify,AppendItem", "server/server_service_set.go:handlePublish,handleRepublish"]}
{"id": "C77", "title": "Methods are called on their objects", "statement": "A method handler is invoked only with an object that has the method as a component, or whose type has it.", "quantifier": "every object and method", "why_tests_cant": "needs every pair of object and method", "anchors": ["server/server_service_set.go:handleCall"]}
{"id": "C78", "title": "The default configuration protects the server from anonymous users", "statement": "On a server without role options an anonymous user may browse, read, read history and receive events, and nothing else; it changes and runs only nodes that have permissions of their own. Every authenticated user may also write and call.", "quantifier": "every identity, node and request", "why_tests_cant": "quantifies over all nodes and requests", "anchors": ["server/roles_provider.go:DefaultRolePermissions,DefaultIdentityMappingRules"]}
{"id": "C79", "title": "Results are in the order of the operations", "statement": "Whatever the order in which the workers of the server finish, the result at position i of a response belongs to the operation at position i of the request.", "quantifier": "every number of operations, every order of completion", "why_tests_cant": "quantifies over all interleavings of the workers", "anchors": ["server/server_service_set.go:handleRead,handleBrowse,handleCall,handleWrite"]}
{"id": "C80", "title": "An event reaches the notifiers of its source", "statement": "An event raised at an object is also raised at every object reachable through HasNotifier references up to the Server object, and nowhere else, and raising it terminates.", "quantifier": "every address space, every source object", "why_tests_cant": "graph-shaped inputs", "anchors": ["server/namespace_manager.go:OnEvent"]}
{"id": "C81", "title": "Data types are mapped to their built-in types", "statement": "FindVariantType answers with the built-in type the data type is derived from (Int32 for enumerations, none if there is none), terminates, and later answers agree with the type hierarchy at that time.", "quantifier": "every type hierarchy and every history of questions and additions", "why_tests_cant": "graph-shaped inputs and histories", "anchors": ["server/namespace_manager.go:FindVariantType,FindSuperType"]}
{"id": "C82", "title": "Sessions only on channels an endpoint offers", "statement": "A session can be activated only over a secure channel whose security policy and mode are those of an endpoint the server offers, with a kind of user token that endpoint lists; if the mode is Sign or SignAndEncrypt, the client certificate has passed all certificate checks.", "quantifier": "every endpoint list, requested policy and mode, client certificate and token", "why_tests_cant": "combinations of policy, mode and certificate a client may send", "anchors": ["server/server_secure_channel.go:Open", "server/server_service_set.go:handleActivateSession"]}
{"id": "C83", "title": "Messages have the standard's identifiers and fields", "statement": "Request and response of every service, ServiceFault and the structures they carry have the fields of OPC UA Part 4 in that order and the identifiers of Part 6; a request sent by the client is read by the server as the same request with the same values, a response by the client as the same response, and nothing else is accepted; every structure the library declares can be sent.", "quantifier": "every service, every structure, all values, all namespace tables of the two sides", "why_tests_cant": "tests with the library on both sides do not see a field or identifier that is wrong on both; 284 structures with unboundedly many values", "anchors": ["ua/structs.generated.go", "client/client_secure_channel.go:sendServiceRequest,readResponse", "server/server_secure_channel.go:readRequest,sendServiceResponse"]}
{"id": "C84", "title": "A call returns the response of its service or an error", "statement": "The server answers every request with the response of that service or a fault with a bad service result (BadServiceUnsupported for a service it does not offer); a client method returns the response of its service, or an error if the service result is bad, whatever the server answers.", "quantifier": "every service, every answer", "why_tests_cant": "arbitrary answers of a foreign or hostile server", "anchors": ["server/server.go:handleRequest", "client/client_service_set.go", "client/client_secure_channel.go:Request"]}
{"id": "C85", "title": "The client gives its credentials only to the server it selected", "statement": "Dial sends the user's credentials only after the server has shown the selected endpoint's certificate and, unless the policy is None, signed the client's certificate and nonce with its key; the client's own signature and the user token cover the server's nonce; passwords and issued tokens are encrypted for the server's key unless the token's policy is None; no answer of the server crashes the client.", "quantifier": "every endpoint, user identity and answer of the server", "why_tests_cant": "adversarial answers; cryptographic outcomes are arbitrary", "anchors": ["client/client.go:Dial,open", "client/client_secure_channel.go:newClientSecureChannel"]}
{"id": "C86", "title": "Used credentials cannot be used again", "statement": "Credentials captured from one activation (encrypted password or certificate signature) are not accepted for another session or after the server's nonce has changed.", "quantifier": "every pair of histories and every captured token", "why_tests_cant": "adversarial replays across histories", "anchors": ["server/server_service_set.go:handleActivateSession"]}
{"id": "C87", "title": "A matching client and server always get a session", "statement": "If the client's certificate carries an application URI, its endpoint and token policies are those of the server, the server has room and its authenticator accepts the user, then CreateSession, the client's checks and ActivateSession succeed with that user's identity and the following service is served, under every security policy and for every kind of user.", "quantifier": "every policy, key, nonce, user and server state", "why_tests_cant": "product of policies, kinds of token and server states", "anchors": ["client/client.go:open", "server/server_service_set.go:handleCreateSession,handleActivateSession"]}
{"id": "C88", "title": "A monitored item shows only what its user may read", "statement": "CreateMonitoredItems creates an item exactly if the user may read or browse what it monitors (value, attribute or events) and its index range and filter suit, and the item is the one the answer describes; sampled values and events reach only users who may see them; the answers do not tell hidden nodes from missing ones.", "quantifier": "every address space, user, request and history of the subscription", "why_tests_cant": "product of permissions, attributes, filters and histories", "anchors": ["server/server_service_set.go:handleCreateMonitoredItems", "server/datachange_monitored_item.go:startMonitoring,Poll", "server/event_monitored_item.go:OnEvent"]}
{"id": "C89", "title": "Monitored items have the parameters the answers give", "statement": "Revised sampling intervals and queue sizes are the nearest ones the server allows; modifying, changing the mode of and deleting items affects exactly the items named, as the answers say; invalid modes, filters and intervals are refused; a refused request changes nothing.", "quantifier": "every request and history", "why_tests_cant": "every number and every sequence of requests", "anchors": ["server/server_service_set.go:handleModifyMonitoredItems,handleSetMonitoringMode,handleDeleteMonitoredItems", "server/datachange_monitored_item.go:setSamplingInterval,setQueueSize,Modify"]}
{"id": "C90", "title": "SetTriggering links exactly the items it names", "statement": "After any history an item triggers exactly the items that were linked to it, not unlinked since, and still exist; a trigger releases the values sampled so far and no others.", "quantifier": "every history of creations, deletions, links and removals", "why_tests_cant": "histories", "anchors": ["server/server_service_set.go:handleSetTriggering", "server/datachange_monitored_item.go:AddTriggeredItem,RemoveTriggeredItem,enqueue"]}
{"id": "C91", "title": "Every request is answered once", "statement": "Each service request gets exactly one answer on its channel and under its request id: the response of its service, a service fault with a bad code, or the end of the channel (publish requests may wait). A service fault means that the request had no effect. The effects of a request are in place when its answer is sent.", "quantifier": "every service and every way through its handler: all outcomes of all conditions, any number of turns of all loops", "why_tests_cant": "some hundred exits of 26 handlers, most of them error paths", "anchors": ["server/server_service_set.go:handle*", "server/subscription.go:handleLatePublishRequest", "server/session.go:addPublishRequest"]}
{"id": "C92", "title": "The diagnostics count the requests", "statement": "After any history the service counters of a session's diagnostics, read as one value or as single variables, are the numbers of requests and of faults of each service in that session, and their total; the server's counters of rejected requests and sessions are the numbers of those refused, and of those refused for reasons of security.", "quantifier": "every history of requests of any number of sessions, every way through the handlers", "why_tests_cant": "the counters are moved by hand on each of some hundred paths", "anchors": ["server/server_service_set.go:handle*", "server/session_manager.go:addDiagnosticsNode", "server/session.go:Session"]}
{"id": "C93", "title": "Every lock is released", "statement": "Whatever way a request, a background task or a call of the API takes through the server, it has released every lock when it ends, as often as it has taken it, and it never releases a lock that it does not hold (which would end the process).", "quantifier": "every goroutine, worker task and exported function of the server, all outcomes of all conditions, any number of turns of all loops", "why_tests_cant": "a forgotten unlock on one error path stops the server for ever, on the first error of that kind", "anchors": ["server/*.go"]}
{"id": "C94", "title": "One client does not hold up the others", "statement": "No thread of the server waits for the network, for a client or for the application while it holds a lock that the requests of other clients need.", "quantifier": "every thread of the server and every way through its code", "why_tests_cant": "needs a client that stops reading at a particular moment", "anchors": ["server/subscription.go:publish", "server/subscription_manager.go:checkForExpiredSubscriptions", "server/server_secure_channel.go:Write", "server/datachange_monitored_item.go:Poll", "server/variable_node.go:SetValue"]}
{"id": "C95", "title": "An event arrives with the fields the client selected", "statement": "Each notification of an event carries one value for each select clause, in order: the value of the field the clause names, or nothing if the event has no such field. A client that selects with the clauses of an event class and reads the fields as that class gets the event that was raised.", "quantifier": "all events of the four classes, all lists of select clauses, all values of the fields", "why_tests_cant": "the clause tables, the switch of each class and the positional reading are four parallel lists per class; a swap or a missed case shows only for particular fields and values", "anchors": ["ua/base_event.go", "ua/condition.go", "ua/acknowledgeable_condition.go", "ua/alarm_condition.go", "ua/content_filter.go:EqualSimpleAttributeOperand", "server/event_monitored_item.go:selectFields"]}
{"id": "C96", "title": "No thread of the server accesses shared data while another thread writes it", "statement": "Whatever requests are handled, subscriptions publish, items are sampled and functions are called by the application at the same time: a field that one thread writes is not read or written by another thread at that moment. For maps Go ends the process otherwise; counters would lose counts; a reader could see a value half written.", "quantifier": "all numbers of threads of the server and of the application, all their runs, all schedules, all structures", "why_tests_cant": "the race detector sees only the accesses of the schedule that happened; the windows are a few instructions wide and depend on which two requests meet", "anchors": ["server/server.go", "server/server_service_set.go", "server/session.go", "server/session_manager.go", "server/subscription.go", "server/subscription_manager.go", "server/datachange_monitored_item.go", "server/event_monitored_item.go", "server/namespace_manager.go", "server/scheduler.go", "server/server_secure_channel.go"]}
{"id": "C97", "title": "Loading a node set gives the nodes the file describes", "statement": "Loading a UANodeSet file adds the nodes of the file with its ids, names, references, attributes and values. An index of the file's NamespaceUris is replaced everywhere by the index the server has for the same URI, an alias by its NodeId; the namespace table gains the new URIs once each and its old indices stay.", "quantifier": "all node set files, all namespace tables of the server", "why_tests_cant": "tests load a few files whose indices mostly equal those of the server; every combination of indices, aliases, escapes, value types and ranks must be translated", "anchors": ["server/namespace_manager.go LoadNodeSetFromBuffer", "server/namespace_manager.go toNodeID", "server/namespace_manager.go toRefs", "server/namespace_manager.go toDataValue", "ua/ua_node_set.go"]}
{"id": "C98", "title": "A variable is a register", "statement": "Whatever clients read and write at the same time, every variable behaves as one register: the operations can be ordered, in agreement with real time, so that each Read returns exactly the value, status and timestamps of the last Write answered Good (with the timestamps the reader asked for), writes answered with an error change nothing, and each request gets one result per operation or one of the standard's faults.", "quantifier": "All sets of variables, users and permissions, all interleavings of any number of Read and Write requests of any clients over the worker pool, all values, all clocks.", "why_tests_cant": "Linearizability is a statement about every interleaving of concurrent requests; tests see a few schedules.", "anchors": ["server/server_service_set.go: handleRead, handleWrite, readValue, writeValue, readRange, writeRange, selectTimestamps", "server/variable_node.go: Value, SetValue"]}
{"id": "C99", "title": "What one client writes another client reads", "statement": "A value written through one client and answered Good is the value another client reads, end to end: for all concurrent Read and Write calls on any number of clients and channels, what the callers see is linearizable (one register per variable); every call gets at most one answer, its own, of the right shape; no request and no answer is lost on the way; nothing a client writes harms a client that reads it.", "quantifier": "All clients and secure channels (any security mode, buffer sizes and limits that were negotiated), all interleavings of calls, network, server workers and answers, all values that the encoding carries.", "why_tests_cant": "The property composes encoding, chunking, encryption, request matching and concurrent services; it is about every schedule and every value at once.", "anchors": ["client/client_secure_channel.go: Request, sendServiceRequest, readResponse, handleResponse", "server/server_secure_channel.go: readRequest, sendServiceResponse", "server/server_service_set.go: handleRead, handleWrite", "ua/binary_encoder.go", "ua/binary_decoder.go"]}
{"id": "C100", "title": "The server's own variables say what is so", "statement": "The variables below the Server and HistoryServerCapabilities objects, read by any client at any time, alone or together, give the configuration and the present state of the server (arrays, status, build information, capabilities, limits, diagnostics), with status Good, in the data type and rank they declare, and arrive so at the client; clients cannot change them; nodes for what the server cannot do are absent.", "quantifier": "all configurations of a server, all histories of its state and of clients' writes, all sets of these variables in one Read", "why_tests_cant": "some hundred variables are set by hand-written code from a configuration with many values; a test reads a few of them in one configuration", "anchors": ["server/server.go initializeNamespace", "server/server_service_set.go readValue, writeValue, handleRead", "server/nodeset_1_04.xml", "ua/server_capabilites.go"]}
{"id": "C101", "title": "The operation limits a client reads are the ones the server keeps", "statement": "For every service with an operation limit, the number a client reads in OperationLimits is the largest number of operations the service accepts: requests with more get BadTooManyOperations and have no effect, requests with none get BadNothingToDo, requests within it are never refused for their number; the limit 0 means no limit.", "quantifier": "all values of the limits, all services with a limit, all numbers of operations, all runs of the handlers", "why_tests_cant": "the limits are checked in thirteen separate handlers and published by other code; each pair of handler and variable must agree for every value and on every path", "anchors": ["server/server_service_set.go handle*", "server/server.go initializeNamespace", "ua/server_capabilites.go OperationLimits"]}
{"id": "C102", "title": "Diagnostics objects describe their session or subscription", "statement": "The diagnostics variables of a session and of a subscription tell the state of that session or subscription; the structured variable and its components agree field by field; types, names and ranks are those of the standard; the security diagnostics are told only to authenticated users on encrypted channels.", "quantifier": "all sessions and subscriptions described, all sessions that read, all role assignments", "why_tests_cant": "some eighty handlers, one per variable, each repeating a name, a type and a field, must agree with each other and the standard", "anchors": ["server/session_manager.go addDiagnosticsNode", "server/subscription_manager.go addDiagnosticsNode", "server/session.go NewSession"]}
{"id": "C103", "title": "A server starts once, stops once and says in which state it is", "statement": "The state a client reads goes from Unknown to Running to Shutdown and never back; ListenAndServe works at most once; Close stops the listener after the announced countdown and can be called at any time from any goroutine; a failed start is not reported as Running.", "quantifier": "all sequences and interleavings of calls of ListenAndServe and Close", "why_tests_cant": "the interleavings of concurrent calls of Close with a countdown of seconds, and repeated calls, are not covered by tests", "anchors": ["server/server.go ListenAndServe, Close, Abort"]}
{"id": "C104", "title": "GetMonitoredItems and ResendData act on the caller's own subscriptions only", "statement": "A call of GetMonitoredItems or ResendData succeeds exactly when its one argument is the id of a subscription of the calling session; it then gives the pairs of server and client handles of all its items, or makes every reporting data item send its value with the next publishing; every other call gets the code of the standard, changes nothing and tells nothing about other sessions' items.", "quantifier": "all tables of subscriptions, callers, argument lists", "why_tests_cant": "the statement is about all arguments and all owners, and about what an answer must not depend on", "anchors": ["server/server.go initializeNamespace", "server/subscription.go Items, resendData, publish", "server/datachange_monitored_item.go notificationsAvailable"]}
{"id": "C105", "title": "An item is sampled at its interval, exactly while it is there and not disabled", "statement": "After any creation, modification, mode change and removal of a data item, the item is sampled at the interval set last (rounded to whole milliseconds), exactly while it exists and is not disabled; this also holds when calls for one item run at the same time; sampling starts no more than one timer per interval and never stops the server.", "quantifier": "all sequences of calls and timer ticks, all interleavings of concurrent calls, all intervals including NaN and infinity", "why_tests_cant": "a call releases the item's lock twice, so what remains after it depends on the interleaving; intervals are floating-point numbers converted to integers", "anchors": ["server/scheduler.go GetPollGroup, run, Subscribe, Unsubscribe", "server/datachange_monitored_item.go Modify, SetMonitoringMode, Delete, startMonitoring, stopMonitoring, Poll"]}
{"id": "C106", "title": "A subscriber ends up with the current value, and gets values in order", "statement": "Whatever was written, polled, modified and switched on or off before: once nobody writes any more, one poll and one answer a sampling interval later, the last value a reporting item has handed to its subscription does not differ from the variable's value in the sense of the filter set last (with an absolute deadband, it lies within the deadband); and what a subscriber gets are values the variable had, in the order it had them.", "quantifier": "all histories of writes, polls, publishing cycles, mode changes and modifications, all filters, queue sizes and intervals", "why_tests_cant": "whether a value is lost depends on how writes, polls, publishing cycles and modifications interleave", "anchors": ["server/datachange_monitored_item.go Poll, enqueue, notificationsAvailable, notifications, Modify, SetMonitoringMode, setQueueSize", "server/subscription.go"]}
{"id": "C108", "title": "Discovery tells what a client can use, and client and server mean the same endpoint", "statement": "GetEndpoints answers exactly the server's endpoints with a transport profile asked for, in order and unchanged but for the URL; FindServers answers the server itself when asked for; every endpoint offers exactly the types of identity the server can check, under names used once and, for user names and certificates, under a policy that protects them; a client that dials a server of this library gets the strongest endpoint its settings allow or is refused, and the server uses the same endpoint for that channel; the address told is one of the server's.", "quantifier": "all server configurations, all requests, all client settings (policy, mode, certificate), all orders of sorting", "why_tests_cant": "tests use one server configuration and a few client settings", "anchors": ["server/server.go buildEndpointDescriptions, Endpoints", "server/server_service_set.go findServers, getEndpoints", "client/client.go Dial", "server/server_secure_channel.go Open"]}
{"id": "C107", "title": "The client gives back what it took", "statement": "After any history of FindServers, GetEndpoints, Dial, Close and Abort, whatever servers did meanwhile, the connections open and the goroutines reading are those of the clients in use, that is dialled and neither aborted nor closed; a Dial or a discovery that fails leaves nothing behind, and a discovery the server answered has a result.", "quantifier": "all histories of calls, all ways an opening, a request or a closing can end, all choices of select", "why_tests_cant": "leaks show only for failures at particular points and for particular choices of select, and only in the sum over many calls", "anchors": ["client/client_service_set.go FindServers, GetEndpoints", "client/client.go Dial, Close, Abort", "client/client_secure_channel.go Open, Close, Abort, Request, responseWorker"]}
{"id": "C109", "title": "Calls on one client do not block each other for good", "statement": "Whatever calls are made on clients at the same time, from any number of goroutines, every lock that is taken is released, and the calls never come to wait for each other for good: every one of them returns once the network has done what it waits for.", "quantifier": "all sets of threads of the client's functions with any outcome of their conditions, all channels, all schedules", "why_tests_cant": "a deadlock needs a particular interleaving of two calls and a particular kind of request; tests run few schedules", "anchors": ["client/client_secure_channel.go Request, Open, Close, Abort, IsClosing, sendRequest, renewToken, responseWorker, readResponse, NamespaceURIs", "ua/binary_encoder.go WriteExtensionObject", "ua/binary_decoder.go ReadExtensionObject", "client/client.go Dial, Close, Abort"]}
{"id": "C110", "title": "A setting has the effect it is documented to have", "statement": "Whatever options Dial or New is given, in any number and order, each has the effect its documentation says, the last one about something wins, options about different things can be given in any order, what no option is about has its documented default, and an option that cannot be applied makes the call fail.", "quantifier": "all lists of options of the client and of the server with all their arguments, all contents of the files they name", "why_tests_cant": "tests use few combinations of options and do not look at what each of them changes on the wire", "anchors": ["client/option.go", "server/option.go", "client/client.go Dial", "client/client_secure_channel.go newClientSecureChannel, Request, Open", "client/client_service_set.go GetEndpoints", "server/server.go New", "server/server_secure_channel.go newServerSecureChannel"]}
{"id": "C111", "title": "How the network cuts the bytes does not matter", "statement": "Whatever pieces the network delivers the bytes of a connection in, client and server receive exactly the chunks and messages that were sent, in order; a chunk that is cut off by the end of the connection gives an error and is never taken for a whole one, and a chunk larger than the buffer is refused as soon as its header has arrived.", "quantifier": "all sequences of chunks and messages, all ways to cut their bytes into pieces, all points where the connection ends, all interleavings of writers", "why_tests_cant": "tests run over loopback, where messages arrive in few large pieces", "anchors": ["client/client_secure_channel.go Read, readResponse, responseWorker", "server/server_secure_channel.go read, readRequest"]}
{"id": "C112", "title": "Calls on one client can run at the same time", "statement": "A client can be used from several goroutines: no goroutine of the client or of its user reads or writes the data of its channel (keys, nonces, ids, pending responses, namespaces) while another one writes it, and a token is renewed once when its time has come.", "quantifier": "all numbers of concurrent calls, with the worker of the channel, all outcomes of their conditions, all schedules", "why_tests_cant": "a race needs two goroutines between particular statements; the race detector only sees the schedules that happen", "anchors": ["client/client_secure_channel.go clientSecureChannel.Request, sendRequest, sendServiceRequest, sendCloseSecureChannelRequest, renewToken, Open, Close, Abort, IsClosing, responseWorker, readResponse, handleResponse"]}
{"id": "C113", "title": "Multi-state variables show the text of their value", "statement": "Once SetMultiStateValueDiscreteTypeBehavior has been called for a variable, clients can write exactly the values listed in its EnumValues: after each write answered Good the variable has the written value and ValueAsText the display name of this value; every other write is refused and changes nothing, and no write ends the process. FindProperty, FindComponent, FindObject, FindVariable and FindMethod find what the references say.", "quantifier": "all tables of values, all written values of all types, all histories and interleavings of writes, all nodes and references", "why_tests_cant": "needs all values of ten numeric types, histories and interleavings of writes", "anchors": ["server/namespace_manager.go SetMultiStateValueDiscreteTypeBehavior, toEnumValues, FindObject, FindVariable, FindProperty, FindComponent, FindMethod, Any, Contains", "server/server_service_set.go writeValue"]}
{"id": "C114", "title": "CertificateList is a set of certificates", "statement": "After any calls of AddCert and AppendCertsFromPEM a CertificateList has exactly the certificates that were added, each once and in order: Contains and Subjects say so, AppendCertsFromPEM returns true exactly if the text has a certificate, and FindPotentialParents returns exactly the certificates of the list that may have signed the given one.", "quantifier": "all sequences of calls, all certificates, all PEM texts", "why_tests_cant": "the indexes must agree with the list after every history; tests build a few lists", "anchors": ["ua/certificate_list.go NewCertificateList, AddCert, Contains, FindPotentialParents, AppendCertsFromPEM, Subjects"]}
{"id": "C115", "title": "All declared data types have the standard's layout", "statement": "Every structured data type the library declares, service messages or not, has the identifier and the fields, in order and with the types, of the OPC UA standard, so that any value of it sent in an ExtensionObject has the standard's bytes; nothing else is declared.", "quantifier": "all declared structures, all values of them", "why_tests_cant": "a test encodes and decodes with the same declaration, so a wrong field order or width goes unnoticed, and values are unbounded", "anchors": ["ua/structs.generated.go", "ua/binary_encoder.go", "ua/binary_decoder.go"]}
{"id": "C116", "title": "Enumerations have the standard's values, and values and status codes their names", "statement": "Each enumeration and set of flags has exactly the standard's values; String of a value is its name, different values have different names, and sets of flags are shown by the names of their flags; Error of a StatusCode is the text of its severity and subcode, whatever its flag and info bits, and tells codes apart.", "quantifier": "all enumerations, all 32-bit values, all status codes", "why_tests_cant": "2^32 values per type; a test compares constants with themselves", "anchors": ["ua/enums.generated.go", "ua/status_code.generated.go StatusCode.Error"]}
{"id": "C117", "title": "The first messages of a connection are answered, and no bytes of a peer end the process", "statement": "Whatever a peer sends first and in whatever pieces it arrives, the server process goes on: a well-formed Hello is answered with one Acknowledge that names the smaller sizes, anything else with one Error message, and the client's Open returns that status code; the fields are those within the message; the client uses no size above its own; Open returns when the server stays silent.", "quantifier": "all byte streams and their pieces, all sizes, URLs and options, both ends", "why_tests_cant": "a test sends a few well-formed messages; the bytes, cuts and sizes of a hostile peer are without number", "anchors": ["server/server_secure_channel.go Open, Abort, read, readRequest", "server/server.go handleConnection", "client/client_secure_channel.go Open, Read"]}
{"id": "C118", "title": "Reading a message asks for no more memory than its length accounts for", "statement": "While a server or client reads a message, or a program decodes a value, the memory asked for is at most a constant times the number of bytes received, whether the message is accepted or refused; in particular no unauthenticated peer can make the server ask for gigabytes with a few bytes.", "quantifier": "all byte strings, all types, all messages", "why_tests_cant": "tests decode what the encoder wrote; the length fields of a hostile peer are independent of what follows", "anchors": ["ua/binary_decoder.go", "server/server_secure_channel.go Open, readRequest", "client/client_secure_channel.go readResponse"]}
{"id": "C119", "title": "Reading a message takes a bounded depth of calls", "statement": "However a message is nested, the decoder's calls inside calls stay within a fixed limit: a message nested deeper than the limit (the standard asks for at least 100 levels, and for an error above what is supported) is refused, and the depth of the calls does not grow with the size of the message.", "quantifier": "all byte strings, all types, all messages, all limits", "why_tests_cant": "tests nest a few levels; a stack that overflows ends the process only at a depth no test reaches", "anchors": ["ua/binary_decoder.go ReadVariant, ReadDataValue, ReadExtensionObject, ReadDiagnosticInfo", "server/server_secure_channel.go readRequest", "client/client_secure_channel.go readResponse"]}
{"id": "C120", "title": "What a subscription notifies arrives at the client", "statement": "Every notification which a monitored item queues is told to the caller of the client that subscribed, with the handle the client chose, in the order in which it was queued, once, with the value the encoding leaves of it (times of 100 ns), and with the sequence number, the subscription and the request it answers; whatever happens with other subscriptions, other items and the network's timing. A message sent again has the contents it had.", "quantifier": "all subscriptions, items, values and event fields that can be encoded, histories of sampling, publishing, republishing and reading, and channels of any security and sizes", "why_tests_cant": "a test sees one schedule of samples, ticks, requests and reads and one channel; the statement is about every interleaving of every subscription with any sizes of messages and chunks", "anchors": ["server/subscription.go (publish, handleLateRequest)", "server/server_service_set.go (handlePublish, handleRepublish, writeValue)", "client/client.go (Publish, Republish)", "ua/binary_encoder.go", "ua/binary_decoder.go", "server/server_secure_channel.go (Write)", "client/client_secure_channel.go (readResponse)"]}
{"id": "C121", "title": "A connection lives as long as the token used on it", "statement": "The server grants a security token the lifetime asked for, at least 5 minutes and at most an hour, keeps the connection until the token last used on it ends, and handles nothing on it afterwards; a connection without a channel ends after 20 seconds and one whose token is not renewed within the hour. A client that makes requests at least every minute keeps its connection for any number of tokens. A client that opens a channel can use it for the lifetime granted.", "quantifier": "all requested lifetimes, histories of openings, renewals, messages and writes at any times, and all sequences of requests and network delays within the stated bounds", "why_tests_cant": "the shortest lifetime is five minutes and the interplay of renewal time, grace and deadline shows only over many tokens; a test waits for none of them", "anchors": ["server/server_secure_channel.go (newServerSecureChannel, Open, readRequest, handleOpenSecureChannel)", "client/client_secure_channel.go (Open, sendRequest, renewToken)"]}
{"id": "C122", "title": "What a client can make the server keep for a subscription is bounded", "statement": "A monitored item keeps at most 1024 values, and a subscription has no more items than were asked for. The number of items of a subscription, of the links between them and of the values that wait for the next publishing cycle is limited, so that one client cannot use up the memory of the server.", "quantifier": "all histories of the monitored item services on a subscription, by users with any roles, on any address space", "why_tests_cant": "a test makes a few items; that there is a bound is a statement about histories of every length", "anchors": ["server/server_service_set.go (handleCreateMonitoredItems, handleModifyMonitoredItems, handleSetTriggering)", "server/subscription.go (AppendItem)", "server/datachange_monitored_item.go (startMonitoring, AddTriggeredItem)"]}
{"id": "C123", "title": "A server takes every connection until it is closed", "statement": "While the server runs, each connection that comes is handled once, in order, and the server goes on waiting for the next one; when no connection comes in time it pauses, at most a second, and tries again; when it is closed it says so. An error that passes, such as too many open files, does not end it, and the number of connections at one time is limited.", "quantifier": "all sequences of results of accepting, and of the moments at which the server is closed", "why_tests_cant": "errors of accepting cannot be brought about by a test of the library, and a limit is a statement about every number of connections", "anchors": ["server/server.go (ListenAndServe, serve)"]}
