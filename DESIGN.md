# Formal model of awcullen/opcua in Coq

Plan of the development.  Properties are numbered as in `properties.jsonl`.

## 1. Trusted base

* Coq 8.16.1's kernel (and its `vm_compute` reduction machine, used for witnesses and finite sweeps).
* What `Print Assumptions` lists under each theorem in `theories/*Properties.v`.  The goal is
  "Closed under the global context" for every theorem.  No axiom of our own, no `Admitted`, no functor,
  no section-less `Variable`.  (`vcheck` also counts seven axioms of `Coq.ssr.ssrunder`, a standard library
  module loaded with the tactics; no theorem here depends on them.)
* The reading of the Go source.  Each model definition cites the file and the lines it models.
  `StructTable.v`, `MessageTable.v`, `HandlerTable.v`, `MutexTable.v` and `EnumTable.v` are transcribed by scripts in `tools/` from the text of
  the source; what the scripts read, and what they leave out, is trusted like the rest of the reading.
* The reading of the standard.  The tables of the standard (`StructSpec.v`, `TypeSpec.v`, `EnumSpec.v`, the codes in the `*Spec.v` files)
  were written by hand from memory, as no copy of the standard is available here, by an author who had also read the
  code.  They are not generated from the code, but they are not independent transcriptions: a theorem that the code
  agrees with one of them is only as good as that table, and should be checked against the published schema.
* External code (crypto primitives, TCP, clock, file system, application callbacks, type registry contents)
  enters as universally quantified `Section` variables or as explicit arguments of the model functions.
  What is assumed about them is written as hypotheses of the theorem that needs it.

## 2. Conventions

* A byte is Coq's `Byte.byte` (256 constructors), so every byte list is a legal stream.
* Go strings and `ByteString` are byte lists.  Machine integers are `Z`/`N` with the wrap written explicitly
  wherever Go can wrap.  Floats travel as their bit patterns.  In the parameter clamps of the subscription
  engine, floats are modelled as an explicit type (`NaN`, infinities, finite rational milliseconds).
* A reader is `list byte -> res A` with `Ok a rest`, `Err status rest`, `Panic`, and the distinct `Fuel` outcome for an
  exhausted recursion budget, which every theorem excludes or proves impossible.  A run-time panic is the
  explicit value `Panic`, never folded into an error.
* State machines are `step : state -> op -> state * out` functions; statements about histories quantify over all
  operation lists.
* Model files (one per area) contain definitions only.  Proofs are in `*Proofs.v`.  Property theorems
  are in `*Properties.v`, each closed by `exact`, followed by `Print Assumptions`; examples showing that the
  hypotheses are satisfiable are beside them.
* A property that the code violates gets a theorem `..._refuted` with a witness, plus the strongest guarded
  theorem that does hold.  These are listed in section 5 (findings).

## 3. Model areas

| Area | Files | Source modelled |
|---|---|---|
| Bytes, readers | `Bytes.v` | `encoding/binary` little endian helpers used by the codec, `io.ReadFull` |
| Built-in codecs | `Prim.v`, `Wire*.v` | `ua/binary_encoder.go`, `ua/binary_decoder.go` |
| Value codecs | `Value*.v` | Variant, DataValue, DiagnosticInfo, ExtensionObject and the reflection-driven structure codec |
| Text forms | `Text*.v` | `ua/nodeid.go`, `ua/expanded_nodeid.go`, `ua/qualified_name.go` |
| Registry, writer, status codes | `Registry*.v`, `Writer*.v`, `Status*.v`, `Trans*.v` | `ua/binary_registry.go`, `ua/bytes_writer.go`, `ua/status_code.go` |
| Chunk planning and reassembly | `Chunk*.v` | `client/client_secure_channel.go`, `server/server_secure_channel.go` |
| Secure channel state | `Channel*.v` | token renewal, handshake, sequence numbers, key derivation, response matching |
| Sessions | `Session*.v` | `server/session.go`, `server/session_manager.go`, create/activate/close handlers |
| Subscriptions | `Subscription*.v` | `server/subscription.go`, `server/subscription_manager.go`, publish/republish handlers |
| Index ranges | `IndexRange*.v` | `server/server_service_set.go` (readRange, writeRange, parseBounds, validateIndexRange) |
| Monitored items | `MonQueue*.v`, `DataChange*.v`, `DataItem*.v`, `Where*.v`, `MonItem*.v` | `server/datachange_monitored_item.go`, `server/event_monitored_item.go` |
| Access control | `Roles*.v`, `NodeAccess.v`, `Access*.v` | `server/roles_provider.go`, `server/variable_node.go`, `server/method_node.go`, `readValue`, `writeValue`, browse, call and history handlers |
| Certificates and endpoints | `Certificates.v`, `Endpoints.v`, `Trust*.v` | `ua/certificate_helpers.go`, `client/client.go` (Dial), channel opening in `client`, `server` |
| Messages | `StructTable.v`, `MessageTable.v` (written by `tools/struct_table.py`, `tools/message_table.py` from the source), `Messages.v`, `StructSpec.v`, `Message*.v` | `ua/structs.generated.go`, the type switches of `client/client_secure_channel.go`, `server/server_secure_channel.go`, `server/server.go`, `client/client_service_set.go` |
| Opening a session | `ClientSession.v`, `ClientSessionSpec.v`, `ClientSessionProofs.v`, `Handshake*.v` | `client/client.go` (open), `server/server_service_set.go` (server signature), composed with `Session.v` |
| Monitored item services | `MonService*.v` | `server/server_service_set.go` (Create/Modify/Delete MonitoredItems, SetMonitoringMode, SetTriggering), `server/*_monitored_item.go` |
| Handlers | `HandlerTable.v` (written by `tools/handler_table.py` from the source), `Handlers.v`, `HandlersAnalysis.v` (proof machinery), `HandlersSpec.v`, `Handlers*.v` | control flow, answers, counters and calls of all handlers of `server/server_service_set.go`; session diagnostics of `server/session_manager.go` |
| Locks | `MutexTable.v` (written by `tools/mutex_table.py` from the source), `Mutex.v`, `MutexSpec.v`, `MutexProofs.v`, `Mutex*.v` | lock operations and waits of every function of package `server`, sync.RWMutex |
| Event fields | `EventFields.v`, `EventFieldsSpec.v`, `EventFieldsProofs.v`, `EventFields*.v` | event classes of package `ua`, select clauses, `selectFields` |
| Shared data | `Race.v`, `RaceTable.v` (generated by `tools/race_table.py`), `RaceSpec.v`, `RaceProofs.v`, `Race*.v` | accesses to the fields of all structures with a lock, `server/*.go` |
| Node sets | `NodeSet.v`, `NodeSetSpec.v`, `NodeSetProofs.v`, `NodeSet*.v` | `server/namespace_manager.go` 653-1379, `ua/ua_node_set.go`, after xml.Unmarshal |
| Read and Write | `DataPath.v`, `DataPathSpec.v`, `DataPathProofs.v`, `DataPath*.v` | `server/server_service_set.go` handleRead, handleWrite, readValue and writeValue for the attribute Value, selectTimestamps, on the worker pool; handlers of the application, other attributes and index ranges are functions |
| Clients and server together | `Stack.v`, `StackSpec.v`, `StackProofs.v`, `Stack*.v` | the way of Read and Write calls through `client/client_secure_channel.go`, the codec, the chunks, `server/server_secure_channel.go` and back; uses `Messages.v`, `Chunk.v`, `DataPath.v` |
| The server about itself | `OwnData.v`, `OwnTable.v`, `OwnSpace.v`, `OwnMethod.v`, `OwnSpec.v`, `LimitSpec.v`, `OwnMethodSpec.v`, `OwnTreeSpec.v`, `OwnTreeLemmas.v`, `Own*Proofs.v`, `Limit*.v`, `LifeProofs.v` | `server/server.go` (initializeNamespace, ListenAndServe, Close), `server/session_manager.go` and `server/subscription_manager.go` (addDiagnosticsNode), the Server objects of `server/nodeset_1_04.xml`; tables transcribed by `tools/self_table.py`; uses `Value.v`, `Messages.v`, `HandlerTable.v`, `DataChange.v` |
| Sampling | `Sampling.v`, `SamplingSpec.v`, `SamplingProofs.v`, `SamplingLemmas.v` | `server/scheduler.go`, `server/datachange_monitored_item.go` (Modify, SetMonitoringMode, Delete, startMonitoring, stopMonitoring) |
| Subscribers and values | `Watch.v`, `WatchSpec.v`, `WatchProofs.v`, `WatchLemmas.v` | `server/datachange_monitored_item.go` together with the variable it reads |
| Discovery | `Discovery.v`, `DiscoverySpec.v`, `DiscoveryProofs.v`, `DiscoveryLemmas.v` | `server/server.go` buildEndpointDescriptions; `server/server_service_set.go` findServers, getEndpoints; `client/client.go` Dial 53-102 |
| Connections of clients | `ClientLife.v`, `ClientLifeSpec.v`, `ClientLifeProofs.v`, `ClientLifeLemmas.v` | `client/client.go` Dial, Close, Abort; `client/client_service_set.go` FindServers, GetEndpoints; `client/client_secure_channel.go` Open, Close, Abort |
| Locks of clients | `ClientLocks.v`, `ClientLocksSpec.v`, `MutexOrder.v`, `ClientLocksProofs.v`, `ClientLocksLemmas.v` | `client/client_secure_channel.go`, `client/client.go`, `client/client_service_set.go`: all uses of locks, written by hand |
| Options | `Options.v`, `OptionsSpec.v`, `OptionsProofs.v`, `OptionsLemmas.v` | `client/option.go`, `server/option.go`: all options; where `Dial`, `New`, the channels and `Request` use what they set |
| Reading from connections | `Framing.v`, `FramingSpec.v`, `FramingProofs.v`, `FramingLemmas.v` | `client/client_secure_channel.go`, `server/server_secure_channel.go`: Read and the loops that call it; `net.Conn` as a list of pieces |
| Data of the client | `RaceGuard.v`, `ClientRace.v`, `ClientRaceSpec.v`, `ClientRaceProofs.v`, `ClientRaceLemmas.v` | `client/client_secure_channel.go`, `client.go`, `client_service_set.go`: every access to a field of the channel that is written after the worker was started, with the locks of `ClientLocks.v` |
| Multi-state variables | `MultiState.v`, `MultiStateSpec.v`, `MultiStateProofs.v`, `MultiStateLemmas.v` | `server/namespace_manager.go`: SetMultiStateValueDiscreteTypeBehavior, toEnumValues, the Find functions, Any, Contains; the call of the write handler in `server_service_set.go` |
| Sets of certificates | `CertList.v`, `CertListSpec.v`, `CertListProofs.v`, `CertListLemmas.v` | `ua/certificate_list.go`, all of it; `crypto/x509` and `encoding/pem` are parameters |
| Data types | `TypeSpec.v`, `TypeLemmas.v` over `StructTable.v` | `ua/structs.generated.go`, all structures but SessionlessInvokeRequestType |
| Enumerations | `EnumTable.v` (written by `tools/enum_table.py` from the source), `Enums.v`, `EnumSpec.v`, `EnumLemmas.v` | `ua/enums.generated.go`, `StatusCode.Error` |
| First messages of a connection | `Opening.v`, `OpeningSpec.v`, `OpeningProofs.v`, `OpeningLemmas.v` | `serverSecureChannel.Open` to its first chunk, `Abort`, `handleConnection`; `clientSecureChannel.Open` to the Acknowledge |
| Memory asked for | `Alloc.v`, `AllocSpec.v`, `AllocProofs.v`, `AllocLemmas.v` | the readers of `binary_decoder.go`, of the messages and of the Hello, with the sizes of the slices they make |
| Depth of calls | `Nesting.v`, `NestingSpec.v`, `NestingProofs.v`, `NestingLemmas.v` | the calls of `binary_decoder.go` inside one another |
| What a subscription makes the server keep | `HoldingLemmas.v` | the monitored item services of `MonService.v` and `DataChange.v` |
| Accepting connections | `Accepting.v`, `AcceptingSpec.v`, `AcceptingLemmas.v` | `server/server.go` (ListenAndServe, serve); errors of Accept as Go's library reports them |
| How long a connection is kept | `Deadline.v`, `DeadlineSpec.v`, `DeadlineProofs.v`, `DeadlineLemmas.v` | deadlines and tokens of `server/server_secure_channel.go`, with the renewing client |
| From the item's queue to the caller of the client | `Notify.v`, `NotifySpec.v`, `NotifyProofs.v`, `NotifyLemmas.v` | `server/subscription.go`, Publish and Republish of `server_service_set.go` and of the client, on the codec, chunks and subscriptions modelled elsewhere |
| Address space | `Nodes.v`, `Namespaces.v`, `Translate.v`, `Type*.v`, `Space*.v`, `Path*.v` | `server/namespace_manager.go`, translate |

## 4. Plan per property

| Id | Model and proof |
|---|---|
| C01 | writer/reader pairs on byte lists; round-trip law for all values in range and all following streams |
| C02 | 64-bit tick arithmetic with explicit wrap; law `read (write t) = clamp/truncate t`; truncation and saturation separately stated |
| C03 | 16-byte permutation; round trip and injectivity |
| C04 | six layouts; round trip up to the null normalisation written as a separate spec function; length equals the minimum of admissible layouts |
| C05 | flags; round trip for non-null NodeIds, refutation for the null NodeId with URI or server index |
| C06 | masks and strings; round trip |
| C07 | inductive values with nesting; mutual structural encoder, fuelled decoder; round trip by induction on values, matrices by flatten/unflatten lemmas |
| C08 | field masks; round trip inside the same mutual induction |
| C09 | faithful decoder that dereferences a nil pointer: refuted for every non-empty value (theorem), round trip for the empty one |
| C10 | registry oracle; round trip and skipping theorem for unknown ids |
| C11 | universe of type descriptors with generic encode/decode; round trip by induction on the type |
| C12 | reader extension lemma (more input never changes a success) gives: every proper prefix of an encoding yields an error; refuted for DataValue which swallows the error |
| C13 | corollary of the round trip |
| C14 | refuted with byte witnesses; positive theorem for all readers that do not reach the two faulty places |
| C15-C17 | executable printer and parser on byte strings incl. decimal printing/parsing; round trip by induction on digits; delimiter corner cases stated |
| C18 | table lookup functions; round trip under no-duplicate tables, refutation otherwise |
| C19 | two finite maps, `step` over registrations, bijection invariant over all histories |
| C20 | writer as buffer + index; invariant over all write sequences |
| C21 | bit masks over N; finite case split by `testbit` |
| C22-C23 | exact chunk planning arithmetic as functions; loop by fuel = body length; crypto as section variables with `dec (enc x) = x`; round trip by strong induction on the body |
| C24 | asymmetric planning arithmetic, RSA block function as section variable |
| C25 | limits inside the same loop functions; invariants on produced/accepted message |
| C73 | Go panics (slice bounds, failed type assertions) are values of the receive functions; theorems say which inputs reach them |
| C26 | counter functions; iterate law and uniqueness within the period |
| C27 | receiver state machine over injected chunks with an arbitrary `verify` oracle; every delivered body is covered by verified chunks |
| C28 | refuted on the receiver machine (sequence numbers are not checked) |
| C29 | negotiation functions of both sides composed |
| C30 | client/server token state machine with renewals and in-flight messages; invariant |
| C31 | PSHA over arbitrary HMAC function of fixed output length |
| C32 | pending table machine over interleavings; delivery lemma by invariant over all histories |
| C33 | block split, encrypt, decrypt, length checks; round trip for passwords up to 64 bytes and refutation above |
| C34-C37 | session table machine with channels and clock; invariants over all histories; refutation for C36 |
| C38 | bounded queue machine with explicit answers; conservation law |
| C39-C40 | continuation point table; paging concatenation law; refutation for short continuation points |
| C41 | clamp functions on extended rationals; bounds |
| C42-C45 | publish machine; invariants over all histories; refutations for transport failure and republish |
| C46 | per-service guard table; proved for the guarded services, refuted for the unguarded |
| C47 | subscription table machine |
| C48-C49 | queue functions, invariants over all value sequences; refutation of the overflow bit |
| C50 | filter functions over typed numbers with wrap; equivalences and refutation for unsigned |
| C51 | mode machine; refutation for the counter |
| C52 | fuelled evaluation; termination for well-founded filters, divergence theorem for self references |
| C53-C59 | decision functions over nodes, roles, bit masks; implications in both directions, refutations for C57 and C58 |
| C60-C62 | bounds parser over byte strings, list slicing, panics explicit |
| C63-C68 | finite graphs; invariants over histories of adds and deletes; reachability characterisations |
| C69 | chain checking functions over abstract certificates |
| C70 | sort and select; maximality |
| C82 | the two gates of the server composed |
| C83 | tables extracted from the source compared with a separate table of the standard; round trip of every message with the library's own registry |
| C84 | handler table and the client's assertion |
| C85 | the client's open as a function of the server's answer; signatures and RSA arbitrary functions |
| C86 | session machine of C34-C37, two histories |
| C87 | composition of the client's function with the session machine, signatures and RSA assumed to work |
| C88 | items of a subscription as a machine over requests, samples, events, user and node changes |
| C89 | the same machine; intervals as exact binary64 values |
| C90 | the same machine against a relation kept from the answers alone |
| C91 | all runs of the transcribed handlers, by a finite-state analysis proved sound and complete for runs of any length |
| C93 | all runs of all functions of the server that can take locks, by the finite-state analysis of C91 |
| C94 | the same analysis with the locks held at each wait; concrete schedules for the refutations |
| C95 | clause tables and switches against an independent table of fields; round trip of each class, composed with the codec of variants |
| C96 | table of locks and accesses of all functions; a static analysis proved sound gives the lock held at each access; exclusion of locks by induction over schedules |
| C97 | the file as written is a relation to its contents; induction over URIs, references, dimensions and nodes; parsers inverted against printers |
| C98 | machine of requests, workers and a clock; invariant relating the state to the list of operations that took effect; linearizability, from which the theorem about the last value follows |
| C99 | system of clients, byte streams and the server machine of C98; invariant relating bytes on the way to messages and both histories; the linearization of the server's history is carried over to the history of the callers |
| C100 | nodes of the standard node set and the statements that fill them as tables; machine of moments and writes; invariant that writes change nothing; facts by evaluation for every configuration |
| C101 | facts of C100 joined with an analysis of all runs of the handlers |
| C102 | tables of the diagnostics variables; facts and agreement by evaluation for every session and subscription |
| C103 | small-step machine of concurrent Close calls; invariant by induction |
| C104 | decision table; non-interference of the items; composition with the item model |
| C105 | small-step machine of concurrent calls on one item; invariant that some call still owes the subscription of an enabled item; induction over turns; exact integer arithmetic for durations |
| C106 | invariant of the whole history (what was told last is what the item compares with; nothing waits longer than an interval) and of the calm after it (the current value is last in the prequeue or told); order: a stuttering-subsequence relation kept by each step |
| C108 | answers: an inductive relation between the server's list and the answer; choice: the sorted answer is unique because levels differ, then a fixed table of policies and modes |
| C107 | invariant over histories of calls: channels not given to the program are shut, clients in use (computed from the results of the calls) are open |
| C109 | table of the client's functions in the language of C75, two orders of the locks each with one exception, both checked by the analysis of C75; permanence of a deadlock by induction over schedules |
| C110 | configuration as function of its fields, options as lists of assignments; documented effects as a separate table; last assignment wins by induction, order by induction over permutations |
| C111 | connection as list of pieces; filling a buffer by induction over the pieces; the reader on pieces refines the reader on bytes of C23, so its theorems carry over |
| C112 | the table of C109 with the accesses added (erasing them gives it back); every access to a protected field has its lock by an analysis of the table that is sound for all runs; locks exclude each other by an invariant of the runs |
| C113 | a write as four steps on value and text; histories by induction; interleavings by a schedule that mixes two writes; finding by induction over the references |
| C114 | invariant: each index has the positions of its certificates; histories by induction, PEM texts by induction over their blocks |
| C115 | tables compared by computation, then the theorem on all values of all declared structures (C83) |
| C116 | tables compared by computation; all values by the search through the cases |
| C117 | case analysis of the reader on all streams, from the laws of the framing (C111) |
| C118 | readers that count, erased to the decoder of C01 and C14; induction over types and budget with the bytes consumed as potential |
| C119 | the budget of the decoder of C01 read as depth: the least that suffices; induction over the nesting |
| C122 | invariants over all histories of the monitored item services; growth by induction on the number of requests |
| C123 | the loop as a function of the results of Accept; induction over them |
| C121 | state of deadline and tokens; invariant by induction over histories that it is the end of the token last used; the busy client by induction over its requests |
| C120 | composition of the subscription (C39, C41), codec (C14) and channel (C23): invariant over all happenings that the wire carries exactly what was written and not yet told |
| C92 | counters as folds over histories of handler runs; the same analysis gives the increments of each run |
| C72 | table of constants transcribed by a script; decided by computation over the table |
| C71 | 32-bit arithmetic of the renewal time; a client with a clock and a list of request times |
| C74 | same model as C32; liveness as "can return" and as "stays blocked in every continuation" |
| C75 | goroutines as lists of lock operations with RWMutex semantics; lock ranking theorem; for each cycle a schedule after which the goroutines stay blocked in every continuation |
| C76 | subscription machine with operations on deleted subscriptions; requests of the server machine never reach one |
| C77 | same model as C56; refuted |
| C78 | the tables of the default configuration with the models of C53, C54, C56, C58 |
| C79 | a list of results filled in any order |
| C80 | the way from notifier to notifier; exact relation |
| C81 | search through supertypes, with the table of earlier answers |

No property is considered inexpressible.  Run-time aspects that a functional model cannot exhibit (data races on fields
accessed without lock, memory exhaustion by huge array lengths, real elapsed time) are out of scope and named in the notes of the
properties they touch.

## 5. Findings

Places where the faithful model violates a listed property; each has a `..._refuted` theorem with a witness.

| Property | Finding | Theorem |
|---|---|---|
| C02 | a time far outside the representable range wraps in the tick computation and another date is written | `c02_datetime_refuted` |
| C05 | an ExpandedNodeId with a null NodeId loses its URI and server index | `c05_null_nodeid_refuted` |
| C07 | ragged matrices are accepted and changed; empty planes lose their outer dimension | `c07_ragged_refuted`, `c07_empty_planes_refuted` |
| C09, C14 | reading any non-empty DiagnosticInfo dereferences a nil pointer | `c09_any_field_refuted` |
| C10 | the declared body length of a known type is not used | `c10_known_type_length_ignored_refuted` |
| C11 | structures with Guid fields cannot be encoded | `c11_unsupported_field_rejected` |
| C12 | a DataValue cut inside its value decodes successfully | `c12_data_value_refuted` |
| C14 | Variant array dimensions from the wire can crash the reader | `c14_variant_refuted` |
| C16 | a namespace URI with a semicolon is not recovered from the text form | `c16_semicolon_refuted` |
| C17 | a slash in a browse name splits it; an index over 65535 becomes 65535 | `c17_slash_refuted`, `c17_out_of_range_refuted` |
| C18 | duplicate, empty and oversized namespace tables translate to another namespace | `c18_*_refuted` |
| C19 | a refused concurrent registration can delete another caller's accepted entry | `c19_concurrent_refuted` |
| C20 | an empty write on a full buffer reports a short write | `c20_empty_write_refuted` |
| C22 | a client may announce a receive buffer too small for any chunk; the server then sends empty chunks forever | `c22_small_buffer_refuted` |
| C25 | a message refused in the middle by the chunk limit leaves its first chunks on the wire; the next message is lost with it; a server limit of 2^31 or more is no limit | `c25_half_sent_message_refuted`, `c25_server_limit_wraps_refuted` |
| C73 | a chunk shorter than a signature, a certificate without RSA key, or an oversized padding value panics the receiver (the last two before any trust check) | `c73_*_refuted` |
| C27 | a request inside an OPN message that names policy None is executed unsigned on a secured channel; one signed with the sender's own certificate as well | `c27_unsigned_request_refuted`, `c27_own_certificate_refuted` |
| C28 | sequence numbers are read and ignored: every accepted message is accepted again | `c28_every_message_refuted`, `c28_replay_refuted` |
| C29 | the client takes over buffer sizes larger than it asked for | `c29_client_trusts_ack_refuted` |
| C30 | five schedules break the channel: a response during the server's token switch, a renewal stored while a chunk is half written, a renewal before the first response, two renewals at once, a second renewal before the first token is used | `c30_disturbed_refuted` |
| C71 | only requests trigger a renewal, so an idle client loses its channel; a failed renewal is postponed by a minute even past the end; an overdue client renews once per overdue minute | `c71_idle_client_refuted`, `c71_failed_renewal_refuted`, `c71_renewals_per_request` |
| C73 | one unsigned chunk with token 0 after Open, or an unsigned renewal followed by one chunk, panics the server | `c73_token_zero_refuted`, `c73_unsigned_renewal_refuted` |
| C74 | the queue of new requests is only emptied when a response arrives: with 32 unanswered requests the next call blocks for ever, ignoring its timeout | `c74_call_hangs_refuted`, `c74_silent_server_refuted` |
| C33 | passwords over 64 bytes are rejected; a server key whose private exponent is shorter than its modulus decrypts no password at all | `c33_long_refuted`, `c33_short_exponent_refuted` |
| C35 | under policy None a user certificate is accepted without proof of its key; an issued token is accepted where the endpoint offers none; an authenticator error that is not a status code panics (modelled as an aborted request) | `c35_x509_refuted`, `c35_issued_refuted` |
| C36 | a session is activated by whoever has its token, on any channel and with any certificate | `c36_refuted` |
| C37 | a requested timeout of NaN is granted and the session is never usable | `c37_nan_refuted` |
| C38 | a publish request is never answered if the queue is emptied between its two steps, if its session is deleted, or if the oldest request's channel is gone | `c38_stuck_refuted`, `c38_deleted_refuted`, `c38_dead_refuted` |
| C39 | BrowseNext can lose the remaining references to a concurrent Browse; bytes after the fourth of a continuation point are ignored | `c39_lost_refuted`, `c39_foreign_refuted` |
| C40 | a continuation point of one to three bytes panics the server | `c40_short_refuted` |
| C41 | with a publishing interval of 7 s the keep-alive period becomes 63 s and the lifetime 3605 s, above the maxima of 60 s and 3600 s: counts are rounded up | `c41_period_refuted` |
| C42 | after 2^32 messages the sequence number is 0 | `c42_zero_refuted` |
| C42, C44 | when a publish response cannot be written its notifications are lost and its sequence number is used again: two messages with one number wait for retransmission | `c42_duplicate_refuted`, `c44_lost_refuted` |
| C43 | Republish removes the message from the retransmission queue | `c43_republish_refuted` |
| C45 | an idle subscription without publish requests lives for keep-alive count - 1 cycles more than its lifetime count | `c45_count_refuted` |
| C46 | CreateMonitoredItems, SetMonitoringMode, DeleteMonitoredItems, acknowledgements and Republish work on subscriptions of other sessions | `c46_exposed_refuted`, `c46_foreign_refuted` |
| C75 | an expiring subscription and the check for expired subscriptions take the manager lock and the subscription lock in opposite order | `c75_expiry_refuted` |
| C75 | a monitored item that triggers itself, or two event items that trigger each other, deadlock | `c75_self_trigger_refuted`, `c75_mutual_trigger_refuted` |
| C75 | raising an event and changing an event item take the node lock and the item lock in opposite order | `c75_event_refuted` |
| C75 | an item on the diagnostics variable of a subscription deadlocks with its publishing, and always after ResendData | `c75_diagnostics_refuted`, `c75_resend_refuted` |
| C76 | a Publish request overtaken by the expiry of its subscription, and other requests overtaken by deletion, panic the server | `c76_late_refuted`, `c76_deleted_refuted` |
| C72 | HistorianBitsPartial is outside its mask and equals LimitBitsLow; it and HistorianBitsInterpolated are the binary digits of the standard (100, 10) read as hexadecimal ones | `c72_historian_bits_refuted`, `c72_historian_values_refuted` |
| C49 | the overflow bit is never set: lost values are not signalled | `c49_never_refuted`, `c49_lost_refuted` |
| C50 | with a deadband, every decrease of an unsigned value is reported; differences over 2^63 wrap; differences over 2^53 are rounded; percent deadbands and deadbands on copied arrays report every sample; NaN is reported each time | `c50_*_refuted` |
| C51 | a change between Sampling and Reporting takes one off the count of disabled items; a poll under way samples a disabled item; a value sampled before an item was disabled is reported when it is enabled again | `c51_count_refuted`, `c51_underflow_refuted`, `c51_late_poll_refuted`, `c51_stale_refuted` |
| C52 | an event filter element that refers to itself recurses until the stack overflows; missing operands and comparisons of arrays panic; an unsupported operator compared with false selects every event | `c52_circular_refuted`, `c52_operands_refuted`, `c52_lists_refuted`, `c52_nested_refuted` |
| C60 | malformed ranges on empty data give BadIndexRangeNoData; "+1" and "1," are accepted; bounds from 2^31 are refused; matrices have no ranges; bytes of a string that are not UTF-8 come back as U+FFFD | `c60_*_refuted` |
| C61 | the second dimension of a write into strings or byte strings is ignored: whole elements are replaced; bytes outside the range that are not UTF-8 are changed | `c61_second_ignored_refuted`, `c61_two_dimensions_refuted`, `c61_string_bytes_refuted` |
| C62 | a write with an index range and a value of another Go type than the stored one (null, a scalar) panics the server | `c62_other_kind_refuted` |
| C54 | null is accepted by every variable, a matrix or an array of DiagnosticInfo by every variable that is not a scalar, a DataValue by ExtensionObject variables (and refused by DataValue variables), a String by variables of the abstract types Number and Integer | `c54_null_refuted`, `c54_matrix_refuted`, `c54_data_value_refuted`, `c54_abstract_refuted` |
| C55 | one reference to a node that is not in the address space makes a browse fail with BadNodeIdUnknown | `c55_dangling_refuted` |
| C57 | HistoryRead gives every node to the historian without looking at the user's permissions | `c57_unprotected_refuted`, `c57_witness_refuted` |
| C58 | a rule that excludes the application or endpoint ends the search instead of being skipped; roles are always asked for without application and endpoint, so rules that include some never apply and rules that exclude some always do | `c58_*_refuted` |
| C61 | two writes with index ranges at the same time (also two entries of one request): the second to be stored undoes the first | `c61_lost_update_refuted`, `c61_lost_witness_refuted` |
| C62 | whoever may write a variable stops the server by writing null with an index range; or by setting Historizing on a variable without historian and then writing it | `c62_null_refuted`, `c62_historizing_refuted`, `c62_two_writes_refuted` |
| C77 | a method can be called on any object the user may browse | `c77_any_object_refuted`, `c77_stranger_refuted` |
| C63 | a reference to a node that is added by a later call stays one-way; adding a node again drops the references others had added to it | `c63_target_later_refuted`, `c63_added_again_refuted` |
| C64 | deleting a type leaves the HasTypeDefinition references to it; the objects of that type can then not be browsed at all; the number of deleted nodes counts diamonds twice | `c64_type_refuted`, `c64_count_refuted` |
| C65 | only the first supertype is followed, and 101 levels of the hierarchy; IsSubtype is not transitive beyond that | `c65_*_refuted` |
| C66 | the index wraps at 65536 entries; a server with the standard URI as application URI has it twice | `c66_*_refuted` |
| C67 | GetChildren and deleting with children never return on a cycle (the lock is held); diamonds are listed twice; GetSubTypes never returns if there is a subtype, and returns nothing otherwise | `c67_*_refuted` |
| C68 | only the first match of each path element is followed; nodes the user may not browse are found | `c68_second_way_refuted`, `c68_hidden_refuted` |
| C80 | the second notifier of a node hears nothing; on a cycle of notifiers an event is raised forever | `c80_*_refuted` |
| C81 | the built-in type of a data type is remembered from the first question, also if the type is added later; derived-from cycles are followed forever | `c81_*_refuted` |
| C69 | the second revocation list of an issuer is ignored; one unreadable file (a subdirectory, say) makes all lists of that directory ignored, so a revoked certificate passes with suppressed RevocationUnknown; certificates with other than RSA keys panic in server and client | `c69_*_refuted` |
| C70 | `WithSecurityPolicyURI("", SignAndEncrypt)` without a certificate connects without security; SecurityLevel decides between modes, so the answer of the (unauthenticated) GetEndpoints can lead to an unsecured endpoint | `c70_mode_refuted`, `c70_level_refuted` |
| C83 | structures with a Guid inside (FieldMetaData, DataSetMetaDataType and eight PubSub structures) cannot be encoded: BadEncodingError for any value | `c83_guid_structures_refuted` |
| C14 | RequestHeader.AdditionalHeader may hold a LiteralOperand whose Variant is a matrix with wrong dimensions: every request, the first OpenSecureChannel included, can crash the server process | `c14_messages_refuted` |
| C84 | every client method asserts the type of the answer unchecked; a ServiceFault with service result Good panics | `c84_other_answer_refuted` |
| C85 | a token policy with an unknown security policy URI makes the client send the password in the clear | `c85_unknown_policy_refuted` |
| C85 | the endpoints in the CreateSession answer are not compared with those of discovery | `c85_endpoints_refuted` |
| C85 | the client accepts an empty server nonce under every policy | `c85_nonce_refuted` |
| C85 | a server certificate with a key that is not RSA, or a namespace array that is not a list of strings, panics in Dial | `c85_key_type_refuted`, `c85_tables_refuted` |
| C86 | the server does not compare the nonce in an encrypted password: a captured one is accepted in any session | `c86_password_refuted` |
| C87 | issued tokens are searched among certificate token policies and always refused unless a policy id coincides | `c87_issued_refuted` |
| C88 | events are delivered to a user without the ReceiveEvents permission after ActivateSession changed the user, or when another session created the item | `c88_user_change_refuted`, `c88_user_blind_refuted`, `c88_foreign_refuted` |
| C88 | CreateMonitoredItems tells nodes the user may not browse from missing ones | `c88_hidden_refuted` |
| C88 | the DataTypeDefinition of a data type that has none can be monitored | `c88_definition_refuted` |
| C89 | a NaN sampling interval passes all bounds | `c89_nan_refuted` |
| C89 | SetMonitoringMode accepts any number as mode | `c89_mode_refuted` |
| C89 | ModifyMonitoredItems ignores TimestampsToReturn | `c89_stamps_refuted` |
| C89 | unknown triggers and deadband types are accepted | `c89_filter_refuted` |
| C90 | a link added twice and removed once still triggers | `c90_twice_refuted` |
| C90 | an item can be linked to itself; the operation limit does not apply to SetTriggering | `c90_self_refuted`, `c90_limit_refuted` |
| C90 | a trigger that finds no values releases values sampled later | `c90_stale_refuted` |
| C91 | ActivateSession with a password that does not decrypt closes the connection without an answer; so may Publish (when an older queued request cannot be answered) and CreateSession (when signing fails) | `c91_silent_refuted`, `c91_password_refuted` |
| C91 | a publish request answered BadNoSubscription has had its acknowledgements carried out | `c91_acknowledged_refuted` |
| C92 | HistoryRead requests appear in no counter of the session | `c92_history_read_refuted` |
| C92 | the server does not count as rejected: Publish BadNoSubscription, Republish BadMessageNotAvailable, UnregisterNodes BadSessionNotActivated (and ActivateSession BadIdentityTokenRejected for two of three encryption algorithms) | `c92_not_counted_refuted` |
| C92 | UnauthorizedRequestCount is never incremented | `c92_unauthorized_refuted` |
| C75 | sampling an item that monitors its session's subscription diagnostics takes the manager's lock under the item's; the removal of an expired subscription takes them the other way round | `c75_server_session_diagnostics_refuted` |
| C75 | an OfType filter is evaluated (namespace manager read lock) under the object's lock; AddNode locks the namespace manager and then the object | `c75_server_add_node_refuted` |
| C75 | an event item and a data item linked to each other: event delivery and publishing lock them in opposite order | `c75_server_trigger_refuted` |
| C75 | the first call of Endpoints takes the server's read lock twice: deadlock if a writer (Close, a new session with diagnostics) comes between | `c75_server_endpoints_refuted` |
| C94 | a client that stops reading blocks publishing under the subscription's lock, then the subscription manager, then every request that looks up a subscription | `c94_slow_client_refuted` |
| C94 | an expiring subscription waits under its lock for room in the session's channel of status changes, with the same effect | `c94_state_channel_refuted` |
| C95 | a select clause that names an inherited field by the event's own type, for example ConditionType and Message, gives nothing: EqualSimpleAttributeOperand compares type ids | `c95_subtype_refuted`, `c95_message_refuted` |
| C96 | reading SubscriptionDiagnosticsArray ranges over the map of subscriptions without a lock (server.go 814), and GetChildren reads the map of nodes without a lock (namespace_manager.go 590): Go ends the process when a subscription or node is added at that moment | `c96_maps_refuted` |
| C96 | handleRepublish walks and changes the retransmission queue without the lock of the subscription, which publishing changes and deletion sets to nil | `c96_republish_refuted` |
| C96 | readRequest sets the token id of the channel before it takes the mutex for sending, under which the signing keys change: a response sent in between has the new id and the old signature | `c96_token_refuted` |
| C96 | the counters of sessions and of the server's diagnostics summary, and two counters of subscriptions, are incremented without a common lock: counts are lost | `c96_counts_refuted` |
| C96 | stopMonitoring and startMonitoring read the sampling interval after they released the item: the item can be taken from the wrong poll group | `c96_sampling_refuted` |
| C96 | user identity, locales, session, items of a subscription, server endpoints and state, and node handlers are read or written without their lock | `c96_others_refuted` |
| C97 | an index that the file does not declare stays as it is and names a namespace of the server; one that is no number of 16 bits becomes 0 (toNodeID ignores the error) | `c97_undeclared_refuted`, `c97_index_refuted` |
| C97 | `IsForward="0"` is a legal xs:boolean, but the code compares with "false" | `c97_direction_refuted` |
| C97 | reference targets, alias ids and labels are read as innerxml: `&amp;` stays in them, so references to ids with `&` dangle; the Locale attribute of labels is lost | `c97_escaped_refuted`, `c97_locale_refuted` |
| C97 | AccessLevel is parsed with 8 bits: a value with bits of AccessLevelEx becomes 1 | `c97_access_refuted` |
| C97 | ByteString values stay base64 text; NodeIds in values keep the index of the file; values of subtypes of built-in types, of ListOfVariant and of variables without DataType are lost; an Int32 without a value becomes 0 | `c97_bytestring_refuted`, `c97_value_index_refuted`, `c97_subtypes_refuted`, `c97_variants_refuted`, `c97_default_type_refuted`, `c97_int32_refuted` |
| C97 | an unknown element beside the nodes, or a Range, EUInformation, Argument or EnumValueType without its body, is a nil pointer that is followed | `c97_panic_refuted` |
| C98 | `writeRange` works on a value that was fetched before: of two writes to different elements one can be lost although both are answered Good | `c98_range_refuted` |
| C98 | `writeValue` drops the timestamps of the client (the check that would refuse them is commented out) and answers Good | `c98_client_stamps_refuted` |
| C98 | the time of a value is taken before the value is stored, outside the lock: the source timestamps that a reader sees can go backwards | `c98_stamp_order_refuted` |
| C98 | `selectTimestamps` drops the picoseconds unless both timestamps are asked for | `c98_picoseconds_refuted` |
| C99 | an ExpandedNodeID with a URI and the identifier 0 is accepted by the server, but its answer to a reader has the URI without its flag: the reader takes it for diagnostics and panics (C05, C09 combined); nothing recovers | `c99_reader_crash_refuted` |
| C99 | a null NodeId written to a variable comes back as a Variant without type | `c99_null_refuted` |
| C100 | New panics when the capabilities have no OperationLimits | `c100_nil_limits_refuted` |
| C100 | ServerDiagnosticsSummary holds a pointer (server.go 743-747): a Read that contains it is not answered and the connection ends | `c100_summary_refuted` |
| C100 | MaxReturnDataValues and MaxReturnEventValues are Booleans, AccessHistoryDataCapability is false with a historian, and variables never set are null with status Good | `c100_max_return_refuted`, `c100_history_refuted`, `c100_unset_refuted` |
| C100 | variables with a handler ignore the index range | `c100_index_range_refuted` |
| C101 | an operation limit of 0, no limit in the standard, refuses every request; HistoryRead of events is limited by the data limit; SetTriggering and SetPublishingMode have no limit | `c101_zero_refuted`, `c101_events_refuted`, `c101_unlimited_refuted` |
| C102 | SecurityMode and ClientCertificate in a session's security diagnostics are those of the reader; the client certificate is never stored | `c102_reader_refuted`, `c102_certificate_refuted` |
| C102 | SecurityPolicyUri and EventQueueOverflowCount are misspelt; structured variables declare BaseDataType; a session's SubscriptionDiagnosticsArray is always empty; seven counters of subscriptions are always 0 | `c102_names_refuted`, `c102_declared_refuted`, `c102_array_refuted`, `c102_uncounted_refuted` |
| C103 | a second call of Close panics (close of closed channel), and cuts the countdown of the first short | `c103_close_again_refuted`, `c103_cut_short_refuted` |
| C103 | a ListenAndServe that fails leaves the server in the state Running, without a listener, and it can never be started | `c103_failed_listen_refuted` |
| C105 | SetMonitoringMode or Modify under way while the item is removed (by another connection or because the subscription expired) uses mi.sub, which is nil then: the process panics (datachange_monitored_item.go 142-153, 166, 252) | `c105_set_mode_and_removal_refuted`, `c105_modify_and_removal_refuted` |
| C105 | the lock is released around Subscribe and Unsubscribe: two Modify at once leave the item in two groups, also after its removal; SetMonitoringMode(Disabled) during Modify leaves a disabled item sampled, its queue growing for ever | `c105_two_groups_refuted`, `c105_disabled_sampled_refuted` |
| C105 | MinSupportedSampleRate below 1 ms becomes the duration 0 and time.NewTicker panics; fractions of a millisecond are dropped, so the item is sampled faster than told | `c105_half_millisecond_refuted`, `c105_fraction_refuted` |
| C105 | poll groups and their goroutines are kept until the server closes, also without items | `c105_groups_kept_without_items_refuted` |
| C106 | Modify with discardOldest=false and a smaller queue removes the newest values (PopBack) although the item remembers the last of them as told: the subscriber is never told the current value (datachange_monitored_item.go 190-204, 388) | `c106_cut_queue_refuted` |
| C106 | a value whose server timestamp lies in the future stays at the head of the prequeue; no later value is reported before that time (372-384) | `c106_future_stamp_refuted` |
| C106 | ResendData puts the current value in the queue before older values that still wait in the prequeue: the subscriber sees new, then old (402-408) | `c106_resend_order_refuted` |
| C108 | getEndpoints tells back the request's EndpointURL as the address of every endpoint, also when it is empty or not an address of the server (server_service_set.go 64, 70); Part 4 asks for a default URL then | `c108_foreign_address_refuted` |
| C107 | FindServers and GetEndpoints (and so Dial) do not Abort when Open fails: if the server accepted the connection, it and the goroutine stay for good, n of them after n calls (client_service_set.go 64-67, 114-117) | `c107_discovery_leaks_refuted`, `c107_leaks_add_up_refuted` |
| C107 | Client.Close returns the error of CloseSession and leaves connection and goroutine (client.go 752-755) | `c107_close_session_refuted` |
| C107 | Client.Close ignores the error of the channel's Close, which leaves the connection open when the context has ended, the send fails or the server hung up first (client.go 756, client_secure_channel.go 478-480) | `c107_close_without_error_refuted` |
| C107 | the server closes its socket on CloseSecureChannel; when responseWorker sees that before the select in Request runs, select may take ch.closed: GetEndpoints and Dial fail although the server answered (client_secure_channel.go 254-266, 534) | `c107_answer_lost_refuted` |
| C109 | Close holds the channel's lock while it waits to send; a request holds the lock for sending while its extension objects ask the channel for its namespaces (binary_encoder.go 786, client_secure_channel.go 209-213, 473-478, 513): both wait for good, and so do Abort and IsClosing from then on | `c109_close_refuted`, `c109_never_return_refuted`, `c109_abort_needs_lock` |
| C109 | Open holds the channel's lock while it waits for the answer; if the server puts an extension object into it (the additional header), the worker cannot decode it and Dial fails with BadRequestTimeout (client_secure_channel.go 271, 453; binary_decoder.go 782) | `c109_dial_refuted` |
| C109 | a Close that renews the token waits for the answer in the same way, if the worker is decoding an extension object meanwhile (client_secure_channel.go 474, 508-510) | `c109_close_renewal_refuted` |
| C110 | WithTimeoutHint and WithDiagnosticsHint have no effect: the values are stored and never read, requests get the constant 15000 and no diagnostics (client_secure_channel.go 178-179, 242-244) | `c110_fixed_refuted`, `c110_says_refuted` |
| C110 | WithConnectTimeout, WithTransportLimits and WithTrace do not apply to the discovery connection of Dial (client_service_set.go 81-112), and the message size is not the one in CreateSession (client.go 250) | `c110_fixed_refuted`, `c110_says_refuted` |
| C110 | the defaults of the timeouts are 15000 where the comments say 1500 and 5000 (option.go 189, 213; client_secure_channel.go 36, 42) | `c110_default_refuted` |
| C110 | a private key that is not RSA makes WithX509IdentityPaths panic (option.go 50, 63) and is dropped by WithClientCertificatePaths without an error (option.go 119, 133) | `c110_other_key_refuted` |
| C112 | a request writes the id of the token without tokenLock while another, which renews the token, changes it (client_secure_channel.go 831, 1270 and 1782) | `c112_token_refuted` |
| C112 | the time of the renewal is read and written without a lock (client_secure_channel.go 508-509): two requests can both find that it has come and both renew the token | `c112_renewal_refuted` |
| C112 | the worker reads channelID and closing without the lock under which Open, Close and Abort write them (client_secure_channel.go 1354, 1424 and 464, 476, 491) | `c112_channel_refuted`, `c112_closing_refuted` |
| C113 | a value that is not in EnumValues is stored and answered Good, the text stays the old one (namespace_manager.go 326-336 and server_service_set.go 6026-6030) | `c113_unlisted_refuted`, `c113_no_number_refuted` |
| C113 | numbers are converted to int64 before the comparison: UInt64 values of 2^63 and more take the text of negative ones, 2.5 that of 2 (namespace_manager.go 301-325) | `c113_wrap_refuted`, `c113_fraction_refuted` |
| C113 | a variable with a write handler ignores the index range of the request (server_service_set.go 6025-6030) | `c113_range_refuted` |
| C113 | the handler panics if EnumValues has no value, or an element that is null; nothing recovers (namespace_manager.go 327, 343) | `c113_panic_null_refuted`, `c113_panic_element_refuted` |
| C113 | two writes at the same time can leave the value of one and the text of the other | `c113_concurrent_refuted` |
| C113 | FindProperty gives up at the first property with the name if it is no variable (namespace_manager.go 109) | `c113_hidden_refuted` |
| C114 | a certificate with an authority key id: FindPotentialParents misses a parent that has no subject key id, and returns certificates with the same key id whose name is not that of the issuer (ua/certificate_list.go 28-35) | `c114_missed_refuted`, `c114_other_name_refuted` |
| C114 | AddCert panics on the zero value `CertificateList{}`: its maps are nil (ua/certificate_list.go 76, 79) | `c114_zero_value_refuted` |
| C115 | FieldMetaData.FieldFlags is an int32 of four bytes, DataSetFieldFlags of the standard is a UInt16 (ua/structs.generated.go 206, ua/enums.generated.go 185) | `c115_field_flags_refuted` |
| C116 | String of a set of two flags is empty, e.g. AccessLevelType 3 (ua/enums.generated.go) | `c116_sets_refuted` |
| C116 | Error of any StatusCode with flag or info bits is "An unknown error occurred.", also if its severity is good (ua/status_code.generated.go 499-994) | `c116_info_refuted` |
| C116 | GoodNoData and BadNoData have one text, and GoodMoreData that of GoodEntryReplaced (ua/status_code.generated.go 885-910) | `c116_same_text_refuted`, `c116_distinct_partial` |
| C116 | NodeAttributesMaskVariable lacks Value and ValueRank, NodeAttributesMaskVariableType lacks ValueRank, which are fields of their attributes (as far as remembered the published schema has the same numbers; the library does not use them) (ua/enums.generated.go) | `c116_attributes_refuted` |
| C117 | a Hello with SendBufferSize below 8 makes the server slice a buffer beyond its end; nothing recovers, so 32 bytes of an unauthenticated peer end the process (server/server_secure_channel.go 243, 268, 1054, 1599) | `c117_small_refuted`; `c117_no_crash_partial` says that nothing else in the first message does |
| C117 | the fields of a Hello are read from the whole buffer: a URL longer than the message is completed with zeros (server/server_secure_channel.go 196) | `c117_beyond_refuted` |
| C117 | WithTransportLimits takes sizes below 8: every connection then ends the process, on the server and on the client (server/option.go 83, client/option.go 230) | `c117_config_refuted`, `c117_client_config_refuted` |
| C117 | the client takes the sizes of an Acknowledge as they are, also above its own buffer (client/client_secure_channel.go 353-360) | `c117_enlarged_refuted` |
| C117 | the client sets no deadline and does not look at the context until the Acknowledge: Dial never returns when the server is silent (client/client_secure_channel.go 302-333) | `c117_silent_refuted` |
| C118 | strings, byte strings and slices are made with the received length before the bytes are there, and without any limit: 7 bytes of a request, or a Hello of 32, ask for 2 GB, a GetEndpoints request of 41 bytes for 34 GB, all without authentication (ua/binary_decoder.go 207, 450, 507, 2142ff) | `c118_unknown_refuted`, `c118_request_refuted`, `c118_slice_refuted`, `c118_discovery_refuted`, `c118_hello_refuted` |
| C118 | ReadDataValue goes on after a value it could not read, so 6 bytes that are accepted ask for 2 GB (ua/binary_decoder.go 831) | `c118_value_refuted` |
| C118 | the dimensions of an array are not compared with the number of its elements: 17 accepted bytes make 2^31 empty rows (51 GB), 21 bytes 2^62 (ua/binary_decoder.go 1311-1322 and the same for each type) | `c118_rows_refuted`, `c118_planes_refuted` |
| C119 | there is no limit to the nesting of Variants, DataValues and ExtensionObjects: each byte 0x18 is one more call of ReadVariant, and the additional header of any request, read before its service is looked at, can hold them; Go ends the process when the stack of a goroutine passes its limit (ua/binary_decoder.go 769, 816, 866) | `c119_variants_refuted`, `c119_limit_refuted`, `c119_values_refuted`, `c119_requests_refuted`, `c119_responses_refuted`, `c119_accepted_refuted`, `c119_answered_refuted` |
| C47 | identifiers are a counter of 32 bits that also counts refused creations and is not compared with those in use: after 2^32 a new subscription replaces another session's in the map, which then can be neither changed nor deleted and outlives its session (server/subscription.go 67, server/subscription_manager.go 52) | `c47_wrap_refuted` |
| C120 | a client may write a DiagnosticInfo to a variable of type BaseDataType, and the server stores it; WriteVariant cannot encode it, so every Publish response with it fails, the values of other items in the same message are lost, and Read of the variable cannot be answered (server/server_service_set.go 6003-6012, ua/binary_encoder.go 795ff, server/subscription.go) | `c120_hostage_refuted` |
| C120 | a message whose response cannot be written keeps its number in the retransmission queue while the next message gets the same number: the numbers which the client sees have no gap although values are missing (server/subscription.go 388-412) | `c120_unnoticed_refuted` |
| C121 | the deadline of the connection is set to the token's end only when a message with the token arrives; a client that opens a channel and makes its first request later than 20 seconds after connecting finds the connection ended although its token was granted for at least 5 minutes (server/server_secure_channel.go 119, 190, 1091-1097) | `c121_unused_refuted` |
| C122 | the server has no limit on the monitored items of a subscription or of the server, only on those per request (server/server_service_set.go 3827-3841, server/subscription.go 134-147) | `c122_items_refuted` |
| C122 | SetTriggering stores a link again each time it is asked for (server/datachange_monitored_item.go 276-281, server/event_monitored_item.go 329-334) | `c122_links_refuted` |
| C122 | each ModifyMonitoredItems reads the value and appends it to those that wait for the next publishing cycle, whatever the queue size (server/datachange_monitored_item.go 247-257) | `c122_waiting_refuted` |
| C97 | in a list of variants the elements XmlElement, NodeId and ExpandedNodeId of the standard are lost: the code looks for XMLElement, NodeID and ExpandedNodeID (server/namespace_manager.go 1313-1328) | `c97_variant_names_refuted` |
| C97 | one text that is no Guid makes the whole list of Guids null, with a line in the log only (server/namespace_manager.go 1207-1215) | `c97_guids_refuted` |
| C123 | an error of Accept that is no time-out, for example too many open files (EMFILE), ends ListenAndServe; the listener stays open, the state stays Running and the server cannot be started again (server/server.go 358-376, 288-291) | `c123_error_refuted` |
| C123 | the number of connections is not limited, so clients can bring that error about (server/server.go 377-380) | `c123_limit_refuted` |
