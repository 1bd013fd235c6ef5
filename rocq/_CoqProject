-Q theories Verif
theories/Bytes.v
theories/Prim.v
theories/CodecSpec.v
theories/BytesProofs.v
theories/PrimSpec.v
theories/PrimProofs.v
theories/Value.v
theories/ValueSpec.v
theories/ValueProofs.v
theories/CodecLemmas.v
theories/CodecProperties.v
theories/WireSpec.v
theories/WireProofs.v
theories/WireProperties.v
theories/Text.v
theories/TextSpec.v
theories/TextProofs.v
theories/TransProofs.v
theories/StatusTable.v
theories/StatusSpec.v
theories/Status.v
theories/StatusProofs.v
theories/Writer.v
theories/WriterProofs.v
theories/Registry.v
theories/RegistryProofs.v
theories/BasicsLemmas.v
theories/BasicsProperties.v
theories/Tac.v
theories/Chunk.v
theories/ChunkSpec.v
theories/ChunkProofs.v
theories/ChunkLemmas.v
theories/Asym.v
theories/AsymSpec.v
theories/AsymProofs.v
theories/AsymLemmas.v
theories/ChunkProperties.v
theories/Keys.v
theories/KeysSpec.v
theories/KeysProofs.v
theories/ServerChannel.v
theories/ServerChannelSpec.v
theories/ServerChannelProofs.v
theories/ServerChannelLemmas.v
theories/Renew.v
theories/RenewSpec.v
theories/RenewProofs.v
theories/Requests.v
theories/RequestsSpec.v
theories/RequestsProofs.v
theories/ChannelLemmas.v
theories/ChannelProperties.v
theories/Password.v
theories/PasswordSpec.v
theories/PasswordProofs.v
theories/Session.v
theories/SessionSpec.v
theories/SessionProofs.v
theories/PubQueue.v
theories/PubQueueSpec.v
theories/PubQueueProofs.v
theories/ContPoint.v
theories/ContPointSpec.v
theories/ContPointProofs.v
theories/SessionLemmas.v
theories/SessionProperties.v
theories/Float.v
theories/FloatProofs.v
theories/SubParams.v
theories/SubParamsProofs.v
theories/MonQueue.v
theories/MonQueueProofs.v
theories/Subscription.v
theories/SubscriptionSpec.v
theories/SubscriptionProofs.v
theories/SubDeliveryProofs.v
theories/SubLifeProofs.v
theories/SubRenewProofs.v
theories/SubServer.v
theories/SubServerSpec.v
theories/SubServerProofs.v
theories/SubscriptionLemmas.v
theories/Locks.v
theories/LocksSpec.v
theories/LocksProofs.v
theories/SubscriptionProperties.v
theories/DataChange.v
theories/DataChangeSpec.v
theories/DataChangeProofs.v
theories/DataItemProofs.v
theories/WhereClause.v
theories/WhereSpec.v
theories/WhereProofs.v
theories/MonItemLemmas.v
theories/MonItemProperties.v
theories/IndexRange.v
theories/IndexRangeSpec.v
theories/IndexRangeProofs.v
theories/IndexRangeLemmas.v
theories/IndexRangeProperties.v
theories/Roles.v
theories/RolesSpec.v
theories/RolesProofs.v
theories/Nodes.v
theories/NodeAccess.v
theories/AccessSpec.v
theories/TypeProofs.v
theories/AccessProofs.v
theories/AccessLemmas.v
theories/AccessProperties.v
theories/Translate.v
theories/Namespaces.v
theories/SpaceSpec.v
theories/SpaceProofs.v
theories/PathProofs.v
theories/SpaceLemmas.v
theories/SpaceProperties.v
theories/Certificates.v
theories/Endpoints.v
theories/TrustSpec.v
theories/TrustProofs.v
theories/TrustLemmas.v
theories/TrustProperties.v
theories/StructTable.v
theories/MessageTable.v
theories/Messages.v
theories/StructSpec.v
theories/MessageSpec.v
theories/MessageProofs.v
theories/MessageLemmas.v
theories/MessageProperties.v
theories/ClientSession.v
theories/ClientSessionSpec.v
theories/ClientSessionProofs.v
theories/HandshakeProofs.v
theories/HandshakeLemmas.v
theories/HandshakeProperties.v
theories/MonService.v
theories/MonServiceSpec.v
theories/MonServiceProofs.v
theories/MonServiceLemmas.v
theories/MonServiceProperties.v
theories/Flow.v
theories/Handlers.v
theories/HandlerTable.v
theories/HandlersAnalysis.v
theories/HandlersSpec.v
theories/HandlersProofs.v
theories/HandlersCountProofs.v
theories/HandlersLemmas.v
theories/HandlersProperties.v
theories/Mutex.v
theories/MutexTable.v
theories/MutexSpec.v
theories/MutexProofs.v
theories/MutexLemmas.v
theories/MutexProperties.v
theories/EventFields.v
theories/EventFieldsSpec.v
theories/EventFieldsProofs.v
theories/EventFieldsLemmas.v
theories/EventFieldsProperties.v
theories/Race.v
theories/RaceTable.v
theories/RaceSpec.v
theories/RaceProofs.v
theories/RaceLemmas.v
theories/RaceProperties.v
theories/NodeSet.v
theories/NodeSetSpec.v
theories/NodeSetProofs.v
theories/NodeSetLemmas.v
theories/NodeSetProperties.v
theories/DataPath.v
theories/DataPathSpec.v
theories/DataPathProofs.v
theories/DataPathLemmas.v
theories/DataPathProperties.v
theories/Stack.v
theories/StackSpec.v
theories/StackProofs.v
theories/StackLemmas.v
theories/StackNumProofs.v
theories/StackProperties.v
theories/OwnData.v
theories/OwnTable.v
theories/OwnSpace.v
theories/OwnSpec.v
theories/OwnProofs.v
theories/OwnWireProofs.v
theories/LimitSpec.v
theories/LimitProofs.v
theories/OwnDiagProofs.v
theories/LifeProofs.v
theories/OwnMethod.v
theories/OwnMethodSpec.v
theories/OwnMethodProofs.v
theories/OwnLemmas.v
theories/OwnProperties.v
theories/LimitLemmas.v
theories/LimitProperties.v
theories/Sampling.v
theories/SamplingSpec.v
theories/SamplingProofs.v
theories/SamplingLemmas.v
theories/SamplingProperties.v
theories/Watch.v
theories/WatchSpec.v
theories/WatchProofs.v
theories/WatchLemmas.v
theories/WatchProperties.v
theories/Discovery.v
theories/DiscoverySpec.v
theories/DiscoveryProofs.v
theories/DiscoveryLemmas.v
theories/DiscoveryProperties.v
theories/ClientLife.v
theories/ClientLifeSpec.v
theories/ClientLifeProofs.v
theories/ClientLifeLemmas.v
theories/ClientLifeProperties.v
theories/MutexOrder.v
theories/ClientLocks.v
theories/ClientLocksSpec.v
theories/ClientLocksProofs.v
theories/ClientLocksLemmas.v
theories/ClientLocksProperties.v
theories/Options.v
theories/OptionsSpec.v
theories/OptionsProofs.v
theories/OptionsLemmas.v
theories/OptionsProperties.v
theories/Framing.v
theories/FramingSpec.v
theories/FramingProofs.v
theories/FramingLemmas.v
theories/FramingProperties.v
theories/RaceGuard.v
theories/ClientRace.v
theories/ClientRaceSpec.v
theories/ClientRaceProofs.v
theories/ClientRaceLemmas.v
theories/ClientRaceProperties.v
theories/MultiState.v
theories/MultiStateSpec.v
theories/MultiStateProofs.v
theories/MultiStateLemmas.v
theories/MultiStateProperties.v
theories/CertList.v
theories/CertListSpec.v
theories/CertListProofs.v
theories/CertListLemmas.v
theories/CertListProperties.v
theories/TypeSpec.v
theories/TypeLemmas.v
theories/TypeProperties.v
theories/EnumTable.v
theories/Enums.v
theories/EnumSpec.v
theories/EnumLemmas.v
theories/EnumProperties.v
theories/Opening.v
theories/OpeningSpec.v
theories/OpeningProofs.v
theories/OpeningLemmas.v
theories/OpeningProperties.v
theories/Alloc.v
theories/AllocSpec.v
theories/AllocProofs.v
theories/AllocLemmas.v
theories/AllocProperties.v
theories/Nesting.v
theories/NestingSpec.v
theories/NestingProofs.v
theories/NestingLemmas.v
theories/NestingProperties.v
theories/Notify.v
theories/NotifySpec.v
theories/NotifyProofs.v
theories/NotifyLemmas.v
theories/NotifyProperties.v
theories/ConstantLemmas.v
theories/ConstantProperties.v
theories/Deadline.v
theories/DeadlineSpec.v
theories/DeadlineProofs.v
theories/DeadlineLemmas.v
theories/DeadlineProperties.v
theories/HoldingLemmas.v
theories/HoldingProperties.v
theories/NodeSetStructLemmas.v
theories/OwnTreeSpec.v
theories/OwnTreeLemmas.v
theories/Accepting.v
theories/AcceptingSpec.v
theories/AcceptingLemmas.v
theories/AcceptingProperties.v
