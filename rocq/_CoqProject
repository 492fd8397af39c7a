-Q theories Verif
theories/Base.v
theories/Text.v
theories/Utf8.v
theories/Base64.v
theories/Json.v
theories/JsonCodec.v
theories/Proto.v
theories/ProtoFacts.v
theories/ProtoSound.v
theories/Types.v
theories/Schemas.v
theories/CosmosMsg.v
theories/QueryMsg.v
theories/JsonTypes.v
theories/Store.v
theories/Metadata.v
theories/Stargate.v
theories/PacketData.v
theories/Ownable.v
theories/Semver.v
theories/Contract.v
theories/JsonSound.v
theories/HostSpec.v
theories/AnswerSpec.v
theories/HostFacts.v
theories/PacketFacts.v
theories/AnswerFacts.v
theories/AnswerHost.v
theories/AnswerJson.v
theories/EntryFacts.v
theories/Chain.v
theories/ChainSpec.v
theories/Trans.v
theories/Inv.v
theories/HistorySpec.v
theories/History.v
theories/Queries.v
theories/HistFacts.v
theories/Enabled.v
theories/Witness.v
theories/PropOwner.v
theories/PropChannel.v
theories/PropHandshake.v
theories/PropPacket.v
theories/PropAnswer.v
theories/PropCallback.v
theories/SemverFacts.v
theories/PropMigrate.v
theories/StorageKeys.v
theories/PropStorage.v
theories/PropProto.v
theories/Helpers.v
theories/OwnerContract.v
theories/CounterContract.v
theories/PropHelpers.v
theories/CallSpec.v
theories/CallFacts.v
theories/PropCounter.v
theories/OwnerSpec.v
theories/PropOwnerContract.v
theories/PropClose.v
theories/WireSpec.v
theories/TextSpec.v
theories/PropText.v
theories/PropWire.v
theories/ReadSpec.v
theories/PropRead.v
theories/PropFlow.v
theories/Features.v
theories/PropFeatures.v
theories/OwnerKeys.v
theories/PropExamples.v
theories/Host.v
theories/HostInv.v
theories/HostReach.v
theories/PropHost.v
theories/PropEnd.v
theories/PropLost.v
theories/PropCause.v
theories/PropConform.v
theories/Errors.v
theories/PropRefusal.v
theories/PropReason.v
theories/PropAdmin.v
theories/PropSingle.v
theories/PropUpgrade.v
theories/Derive.v
theories/PropDerive.v
