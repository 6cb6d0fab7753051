-Q theories Verif
theories/Prelude.v
theories/Value.v
theories/Msg.v
theories/IdGen.v
theories/Rawsocket.v
theories/Payload.v
theories/BaseSpec.v
theories/BaseFacts.v
theories/RoundFacts.v
theories/Mutex.v
theories/MutexFacts.v
theories/WireSpec.v
theories/FloatSame.v
theories/PayloadFacts.v
theories/PropsBase.v
theories/MsgSpec.v
theories/MsgFacts.v
theories/MsgParse.v
theories/MsgProof.v
theories/MsgWire.v
theories/PropsMsg.v
theories/Types.v
theories/PathMatch.v
theories/Broker.v
theories/MatchSpec.v
theories/BrokerSpec.v
theories/TypesFacts.v
theories/BrokerFacts.v
theories/BrokerSim.v
theories/BrokerTrace.v
theories/BrokerSafe.v
theories/BrokerProofs.v
theories/BrokerEx.v
theories/BrokerMore.v
theories/PropsBroker.v
theories/Dealer.v
theories/DealerSpec.v
theories/DealerFacts.v
theories/DealerCalls.v
theories/DealerCases.v
theories/DealerRegs.v
theories/DealerSim.v
theories/DealerStep.v
theories/DealerProofs.v
theories/DealerPolite.v
theories/DealerShare.v
theories/DealerFinal.v
theories/DealerEx.v
theories/DealerKind.v
theories/DealerKindProofs.v
theories/DealerKindEx.v
theories/DealerMore.v
theories/PropsDealer.v
theories/Session.v
theories/SessionSpec.v
theories/SessionFacts.v
theories/SessionProofs.v
theories/SessionConc.v
theories/SessionEx.v
theories/SessionHistory.v
theories/SessionLin.v
theories/SessionLinFacts.v
theories/PropsSession.v
theories/Encoding.v
theories/Auth.v
theories/Acceptor.v
theories/Joiner.v
theories/AuthSpec.v
theories/EncodingFacts.v
theories/AuthProofs.v
theories/AcceptorProofs.v
theories/JoinerProofs.v
theories/AuthGaps.v
theories/HandshakeSpec.v
theories/HandshakeProofs.v
theories/AuthEx.v
theories/PropsAuth.v
theories/PathMatchSpec.v
theories/PathUtf8.v
theories/PathMatchParse.v
theories/PathMatchProofs.v
theories/PathMatchMain.v
theories/PropsGlob.v
theories/Network.v
theories/NetworkSpec.v
theories/NetworkClient.v
theories/NetworkSync.v
theories/NetworkProofs.v
theories/NetworkCalls.v
theories/NetworkLocal.v
theories/NetworkOrigin.v
theories/NetworkFinal.v
theories/NetworkEx.v
theories/PropsNetwork.v
theories/NetworkReplies.v
theories/NetworkRest.v
theories/NetworkAnswers.v
theories/NetworkRepliesEx.v
theories/PropsReplies.v
theories/RawStream.v
theories/RawStreamFacts.v
theories/PropsStream.v
theories/NetworkComplete.v
theories/NetworkCompletion.v
theories/NetworkHung.v
theories/NetworkCompleteEx.v
theories/PropsCalls.v
theories/AuthWorld.v
theories/AuthWorldProofs.v
theories/AuthWorldEx.v
theories/PropsWorld.v
theories/NetworkWire.v
theories/WireFacts.v
theories/NetworkWireProofs.v
theories/NetworkWireIds.v
theories/NetworkWireSim.v
theories/NetworkWireRun.v
theories/NetworkWireGo.v
theories/NetworkWireEx.v
theories/PropsWire.v
theories/FeatureSpec.v
theories/FeatureProofs.v
theories/PropsFeatures.v
theories/Construct.v
theories/ConstructSpec.v
theories/ConstructProofs.v
theories/PassThrough.v
theories/PropsConstruct.v
theories/Realm.v
theories/RealmSpec.v
theories/RealmProofs.v
theories/RealmCrash.v
theories/RealmEx.v
theories/PropsRealm.v
theories/SignWorld.v
theories/SignWorldProofs.v
theories/SignWorldEx.v
theories/PropsSign.v
theories/RealmTopics.v
theories/RealmTopicsProofs.v
theories/PropsTopics.v
theories/Hostile.v
theories/HostileDealer.v
theories/HostileProofs.v
theories/HostileStep.v
theories/HostileFinal.v
theories/DealerSole.v
theories/HostileEx.v
theories/HostileSole.v
theories/PropsHostile.v
theories/JsonSpec.v
theories/JsonFacts.v
theories/DefaultAuth.v
theories/AcceptorMore.v
theories/PropsChallenge.v
theories/Json.v
theories/JsonSafe.v
theories/JsonRound.v
theories/JsonMsg.v
theories/PropsJson.v
theories/Binary.v
theories/BinarySpec.v
theories/BinaryRound.v
theories/BinaryLaws.v
theories/BinaryMsg.v
theories/PropsBinary.v
theories/JsonGrammar.v
theories/JsonNumber.v
theories/JsonRead.v
theories/JsonFloat.v
theories/JsonShortest.v
theories/JsonSingle.v
theories/JsonValues.v
theories/JsonTree.v
theories/JsonWrite.v
theories/PropsGrammar.v
theories/Connection.v
theories/ConnectionSpec.v
theories/ConnectionFacts.v
theories/PropsConnection.v
theories/JsonCut.v
theories/PropsJsonCut.v
theories/PropsJsonFloat.v
theories/Portable.v
theories/PortableFacts.v
theories/NetworkBytes.v
theories/NetworkBytesIds.v
theories/NetworkBytesProofs.v
theories/NetworkBytesRun.v
theories/PropsBytes.v
theories/BinaryGrammar.v
theories/BinaryExact.v
theories/BinaryExactLaws.v
theories/PropsItems.v
theories/DealerLeft.v
theories/DealerLeftEx.v
theories/PropsLeft.v
theories/SessionLeftSpec.v
theories/SessionLeft.v
theories/PropsSessionLeft.v
theories/HostileBytes.v
theories/HostileBytesProofs.v
theories/HostileBytesEx.v
theories/PropsHostileBytes.v
theories/HostileOriginSpec.v
theories/HostileOrigin.v
theories/HostileOriginEx.v
theories/PropsHostileOrigin.v
theories/HostileOrderSpec.v
theories/HostileOrder.v
theories/HostileOrderEx.v
theories/PropsHostileOrder.v
theories/HostileRestSpec.v
theories/HostileRest.v
theories/HostileRestEx.v
theories/PropsHostileRest.v
theories/HostileBytesOrderSpec.v
theories/HostileBytesOrder.v
theories/HostileBytesOrderEx.v
theories/PropsHostileBytesOrder.v
theories/HostileCalleeSpec.v
theories/HostileCallee.v
theories/HostileCalleeEx.v
theories/PropsHostileCallee.v
theories/HostileReadSpec.v
theories/HostileRead.v
theories/HostileReadEx.v
theories/PropsHostileRead.v
theories/HostileLate.v
theories/HostileLateEx.v
theories/PropsHostileLate.v
