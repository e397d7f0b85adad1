-Q theories Verif
theories/Base.v
theories/BaseFacts.v
theories/Keccak.v
theories/Crypto.v
theories/Message.v
theories/Bech32.v
theories/OMap.v
theories/Metadata.v
theories/CodecFacts.v
theories/Bech32Facts.v
theories/Merkle.v
theories/MerkleFacts.v
theories/CodecSummary.v
theories/SpecCodec.v
theories/LayoutFacts.v
theories/PropsCodec.v
theories/Coins.v
theories/Chain.v
theories/Ownable.v
theories/Router.v
theories/Utils.v
theories/Hex.v
theories/Mailbox.v
theories/Va.v
theories/Isms.v
theories/Hooks.v
theories/Igp.v
theories/Warp.v
theories/Proto.v
theories/Cw20.v
theories/Contracts.v
theories/Events.v
theories/Found.v
theories/Spec.v
theories/SpecModules.v
theories/CoinsFacts.v
theories/StepFacts.v
theories/AccessFacts.v
theories/AcceptFacts.v
theories/HexFacts.v
theories/PagingFacts.v
theories/MailboxConfFacts.v
theories/MigrateFacts.v
theories/SpecVersion.v
theories/SpecEvents.v
theories/VersionFacts.v
theories/SpecProto.v
theories/ProtoFacts.v
theories/MailboxFacts.v
theories/IsmFacts.v
theories/HookFacts.v
theories/IgpFacts.v
theories/VaFacts.v
theories/WarpFacts.v
theories/World.v
theories/SpecWorld.v
theories/WorldFacts.v
theories/WorldMailbox.v
theories/WorldMerkle.v
theories/EventFacts.v
theories/EventLedger.v
theories/SpecBridge.v
theories/WorldWarp.v
theories/WorldToken.v
theories/SpecRoute.v
theories/WorldRoute.v
theories/SpecVerify.v
theories/WorldVerify.v
theories/SpecLive.v
theories/WorldLive.v
theories/SpecSend.v
theories/SpecTransfer.v
theories/SpecArrive.v
theories/SpecQuery.v
theories/QueryFacts.v
theories/WorldSend.v
theories/WorldTransfer.v
theories/WorldArrive.v
theories/SpecNetwork.v
theories/NetworkFacts.v
theories/PropsNetwork.v
theories/SpecInit.v
theories/InitFacts.v
theories/PropsAccess.v
theories/PropsConfig.v
theories/PropsMailbox.v
theories/PropsIsm.v
theories/PropsHooks.v
theories/PropsIgp.v
theories/PropsVa.v
theories/PropsWarp.v
theories/PropsProto.v
theories/PropsWorld.v
theories/PropsMerkle.v
theories/PropsBridge.v
theories/PropsEvents.v
theories/PropsInit.v
theories/PropsRoute.v
theories/PropsVerify.v
theories/PropsLive.v
theories/PropsSend.v
theories/PropsTransfer.v
theories/PropsArrive.v
theories/PropsQuery.v
theories/SpecFound.v
theories/FoundFacts.v
theories/PropsFound.v
theories/Json.v
theories/JsonFacts.v
theories/SpecJson.v
theories/JsonGrammar.v
theories/Utf8.v
theories/SpecUtf8.v
theories/Utf8Facts.v
theories/Wire.v
theories/WireFacts.v
theories/WireQuery.v
theories/WireQueryFacts.v
theories/WireAnswers.v
theories/SpecWire.v
theories/WireWidths.v
theories/WireCalls.v
theories/WireWorld.v
theories/WireWorldFacts.v
theories/WireTexts.v
theories/PropsUtf8.v
theories/WireStrict.v
theories/WireInit.v
theories/SpecInitText.v
theories/PropsWire.v
theories/SpecTell.v
theories/TellFacts.v
theories/CaseFacts.v
theories/InfoFacts.v
theories/PropsTell.v
theories/SpecAbort.v
theories/AbortFacts.v
theories/PropsAbort.v
theories/Store.v
theories/StoreFacts.v
theories/SpecStore.v
theories/StoreState.v
theories/StoreTexts.v
theories/StoreFrame.v
theories/StorePages.v
theories/PropsStore.v
theories/Raw.v
theories/SpecRaw.v
theories/RawFacts.v
theories/RawExec.v
theories/RawQuery.v
theories/RawInit.v
theories/PropsRaw.v
theories/RawWorld.v
theories/SpecRawWorld.v
theories/RawWorldFacts.v
theories/PropsRawWorld.v
theories/WireInitFacts.v
theories/PropsBirth.v
theories/TextWorld.v
theories/SpecTextWorld.v
theories/TextWorldFacts.v
theories/PropsText.v
theories/Mocks.v
theories/SpecMocks.v
theories/MocksFacts.v
theories/PropsMocks.v
theories/Upgrade.v
theories/SpecUpgrade.v
theories/UpgradeFacts.v
theories/PropsUpgrade.v
theories/Digest.v
theories/SpecDigest.v
theories/DigestFacts.v
theories/PropsDigest.v
theories/SpecGas.v
theories/GasFacts.v
theories/PropsGas.v
theories/SpecGuard.v
theories/GuardFacts.v
theories/PropsGuard.v
theories/SpecRelay.v
theories/RelayFacts.v
theories/PropsRelay.v
theories/SpecStranger.v
theories/StrangerFacts.v
theories/PropsStranger.v
theories/SpecQuote.v
theories/QuoteFacts.v
theories/PropsQuote.v
theories/SpecBacklog.v
theories/BacklogFacts.v
theories/PropsBacklog.v
theories/SpecAnnounce.v
theories/AnnounceFacts.v
theories/PropsAnnounce.v
theories/SpecStray.v
theories/StrayFacts.v
theories/PropsStray.v
theories/SpecFees.v
theories/FeesFacts.v
theories/PropsFees.v
theories/SpecPurse.v
theories/PurseFacts.v
theories/PropsPurse.v
theories/SpecErrors.v
theories/ErrorFacts.v
theories/ErrorCauses.v
theories/ErrorAsk.v
theories/PropsErrors.v
