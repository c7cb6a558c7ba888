-Q theories Verif
theories/Base.v
theories/BaseProofs.v
theories/Ring.v
theories/RingSpec.v
theories/RingLemmas.v
theories/RingInsert.v
theories/RingRemove.v
theories/RingQuery.v
theories/RingQuery2.v
theories/RingFacts.v
theories/PropertiesRing.v
theories/Ids.v
theories/IdsProofs.v
theories/PropertiesIds.v
theories/Payment.v
theories/PaymentSpec.v
theories/PaymentProofs.v
theories/PaymentFacts.v
theories/PaymentConc.v
theories/PaymentConcProofs.v
theories/BigBuf.v
theories/BigBufProofs.v
theories/PropertiesPayment.v
theories/Merkle.v
theories/MerkleSpec.v
theories/MerkleProofs.v
theories/PropertiesMerkle.v
theories/Json.v
theories/JsonProofs.v
theories/MerkleWire.v
theories/MerkleWireProofs.v
theories/Crypto.v
theories/Message.v
theories/Offer.v
theories/WireSpec.v
theories/CryptoProofs.v
theories/MessageProofs.v
theories/PropertiesCrypto.v
theories/OfferProofs.v
theories/PropertiesOffer.v
theories/Schema.v
theories/Messages.v
theories/SchemaProofs.v
theories/MessagesSpec.v
theories/MessagesProofs.v
theories/PropertiesMessages.v
theories/IdWire.v
theories/IdWireProofs.v
theories/PropertiesIdWire.v
theories/OfferStore.v
theories/OfferStoreSpec.v
theories/OfferStoreProofs.v
theories/OfferStoreHist.v
theories/OfferStoreFacts.v
theories/OfferConc.v
theories/OfferConcProofs.v
theories/PropertiesOfferStore.v
theories/Frame.v
theories/Server.v
theories/FrameSpec.v
theories/FrameProofs.v
theories/Routes.v
theories/RoutesProofs.v
theories/PropertiesFrame.v
theories/Pool.v
theories/PoolSpec.v
theories/PoolProofs.v
theories/PropertiesPool.v
theories/BodySpec.v
theories/BodyProofs.v
theories/PropertiesBody.v
theories/Register.v
theories/RegisterSpec.v
theories/RegisterProofs.v
theories/RegisterLocks.v
theories/RegisterLocksSpec.v
theories/RegisterLocksProofs.v
theories/PropertiesRegister.v
theories/SqlOffers.v
theories/SqlOffersSpec.v
theories/SqlOffersProofs.v
theories/PropertiesSql.v
theories/Rest.v
theories/Reputation.v
theories/ReputationSpec.v
theories/ReputationProofs.v
theories/PropertiesReputation.v
theories/Gateway.v
theories/GatewaySpec.v
theories/GatewayProofs.v
theories/GatewayStoreProofs.v
theories/ToyGateway.v
theories/PropertiesGateway.v
theories/Provider.v
theories/ProviderSpec.v
theories/ProviderProofs.v
theories/ProviderLifeProofs.v
theories/ProviderListProofs.v
theories/ProviderServeProofs.v
theories/ProviderAckProofs.v
theories/ProviderSendProofs.v
theories/GatewayAdmin.v
theories/ToyProvider.v
theories/PropertiesProvider.v
theories/PropertiesProviderListing.v
theories/GatewayAdminSpec.v
theories/GatewayAdminProofs.v
theories/GatewayListProofs.v
theories/GatewayMoneyProofs.v
theories/PropertiesGatewayAdmin.v
theories/Client.v
theories/ClientSpec.v
theories/ClientProofs.v
theories/ClientFindProofs.v
theories/ClientLifeProofs.v
theories/ClientConc.v
theories/ClientConcProofs.v
theories/ToyClient.v
theories/PropertiesClient.v
theories/RegisterService.v
theories/RegisterServiceSpec.v
theories/RegisterServiceProofs.v
theories/RegisterServiceConc.v
theories/PropertiesRegisterService.v
theories/SubOfferWire.v
theories/GatewayOfferSpec.v
theories/GatewayOfferProofs.v
theories/Admin.v
theories/AdminSpec.v
theories/AdminProofs.v
theories/AdminNodeProofs.v
theories/PropertiesAdmin.v
theories/RetrievalSpec.v
theories/RetrievalProofs.v
theories/PropertiesRetrieval.v
theories/DhtSpec.v
theories/DhtProofs.v
theories/PropertiesDht.v
theories/MarketSpec.v
theories/MarketProofs.v
theories/PropertiesMarket.v
theories/Config.v
theories/ConfigSpec.v
theories/ConfigProofs.v
theories/PropertiesConfig.v
theories/EnvFile.v
theories/EnvFileSpec.v
theories/EnvFileProofs.v
theories/PropertiesEnvFile.v
theories/Prng.v
theories/PrngSpec.v
theories/PrngProofs.v
theories/PropertiesPrng.v
theories/ClientBuild.v
theories/ClientBuildSpec.v
theories/PropertiesBuild.v
theories/Http.v
theories/HttpProofs.v
theories/HttpSpec.v
theories/HttpNodeProofs.v
theories/PropertiesHttp.v
theories/AckSpec.v
theories/AckProofs.v
theories/PropertiesAck.v
theories/PropertiesDistance.v
theories/JsClient.v
theories/JsClientProofs.v
theories/JsNodeProofs.v
theories/PropertiesJs.v
theories/JsPayment.v
theories/JsPaymentSpec.v
theories/JsPaymentProofs.v
theories/PropertiesJsPayment.v
theories/Dump.v
theories/DumpSpec.v
theories/DumpProofs.v
theories/PropertiesDump.v
theories/Cli.v
theories/CliSpec.v
theories/CliProofs.v
theories/PropertiesCli.v
theories/ProviderAllProofs.v
theories/PropertiesProviderAll.v
theories/AdminCli.v
theories/AdminCliSpec.v
theories/AdminCliProofs.v
theories/PropertiesAdminCli.v
theories/DhtPaidSpec.v
theories/DhtPaidProofs.v
theories/PropertiesDhtPaid.v
theories/DhtOfferSpec.v
theories/DhtOfferProofs.v
theories/PropertiesDhtOffer.v
theories/DhtWholeSpec.v
theories/DhtWholeProofs.v
theories/PropertiesDhtWhole.v
theories/PropertiesKeyVersion.v
theories/ClientConcSpec.v
theories/ClientConcStepProofs.v
theories/PropertiesClientConc.v
theories/PropertiesProviderLock.v
theories/JsSearch.v
theories/JsSearchProofs.v
theories/PropertiesJsSearch.v
theories/WireFormatSpec.v
theories/WireFormatProofs.v
theories/PropertiesWireFormat.v
theories/PropertiesDhtAnswers.v
theories/JsMerkle.v
theories/JsMerkleProofs.v
theories/PropertiesJsMerkle.v
theories/JsSign.v
theories/PropertiesJsSign.v
theories/JsonTextSpec.v
theories/JsonTextProofs.v
theories/PropertiesJsonText.v
theories/DhtLimitProofs.v
theories/PropertiesDhtLimit.v
theories/Logging.v
theories/PropertiesLogging.v
theories/JsSettings.v
theories/PropertiesJsSettings.v
theories/PropertiesFree.v
theories/PropertiesListed.v
theories/ModuleCheck.v
theories/ModuleCheckSpec.v
theories/PropertiesModuleCheck.v
theories/PropertiesSigned.v
theories/PropertiesSent.v
theories/HttpConc.v
theories/HttpConcSpec.v
theories/HttpConcProofs.v
theories/PropertiesHttpConc.v
theories/KeyConc.v
theories/KeyConcSpec.v
theories/KeyConcProofs.v
theories/PropertiesKeyConc.v
theories/RecordConc.v
theories/RecordConcSpec.v
theories/RecordConcProofs.v
theories/PropertiesRecordConc.v
theories/LazyConc.v
theories/LazyConcProofs.v
theories/PropertiesLazyConc.v
theories/AdminConc.v
theories/AdminConcProofs.v
theories/PropertiesAdminConc.v
theories/StopConc.v
theories/StopConcProofs.v
theories/PropertiesStopConc.v
theories/ReplyConc.v
theories/ReplyConcProofs.v
theories/PropertiesReplyConc.v
