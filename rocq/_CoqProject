-Q theories Verif
theories/Base.v
theories/Crypto.v
theories/Toy.v
theories/Base64.v
theories/Base64Proofs.v
theories/Utf8.v
theories/Utf8Proofs.v
theories/Msgpack.v
theories/MsgpackProofs.v
theories/Types.v
theories/Codec.v
theories/CodecProofs.v
theories/CodecProofs2.v
theories/Secret.v
theories/Lru.v
theories/Store.v
theories/StoreProofs.v
theories/Server.v
theories/System.v
theories/ServerSpec.v
theories/ServerVocab.v
theories/ServerProofs.v
theories/ServerProofs2.v
theories/SystemProofs.v
theories/AnswerProofs.v
theories/ServerTheorems.v
theories/Demo.v
theories/PropertiesServer1.v
theories/PropertiesServer2.v
theories/PropertiesServer3.v
theories/PropertiesStore.v
theories/PropertiesCodec.v
theories/Wire.v
theories/Sender.v
theories/WireVocab.v
theories/WireProofs.v
theories/SenderProofs.v
theories/Handshake.v
theories/WireProofs2.v
theories/PropertiesWire.v
theories/PropertiesDeliver.v
theories/SeedBundle.v
theories/SeedBundleProofs.v
theories/PropertiesBundle.v
theories/Cli.v
theories/PropertiesCli.v
theories/ConnUrl.v
theories/PropertiesUrl.v
theories/Startup.v
theories/PropertiesStartup.v
theories/PropertiesConfigured.v
theories/PidFile.v
theories/PropertiesPid.v
theories/InitFile.v
theories/PropertiesInit.v
theories/Migrate.v
theories/PropertiesMigrate.v
theories/SqlPool.v
theories/PropertiesPool.v
theories/Client.v
theories/PropertiesClient.v
theories/Fallback.v
theories/PropertiesFallback.v
theories/PropertiesFallback2.v
theories/Signing.v
theories/SigningVocab.v
theories/SigningProofs.v
theories/PropertiesSigning.v
theories/PropertiesDelivered.v
theories/ConfigText.v
theories/PropertiesConfigText.v
theories/PropertiesDirect.v
theories/Commands.v
theories/PropertiesCommands.v
theories/Json.v
theories/JsonText.v
theories/PropertiesJson.v
theories/Asks.v
theories/World.v
theories/EchoProofs.v
theories/WorldVocab.v
theories/WorldProofs.v
theories/WorldProofs2.v
theories/WorldProofs3.v
theories/DemoWorld.v
theories/PropertiesWorld.v
theories/Tls.v
theories/PropertiesTls.v
theories/PropertiesLimits.v
theories/PropertiesCreated.v
theories/WriteProofs.v
theories/PropertiesWrites.v
theories/FreshVocab.v
theories/FreshProofs.v
theories/PropertiesFresh.v
theories/SecretVocab.v
theories/SecretProofs.v
theories/PropertiesSecret.v
theories/Net.v
theories/NetVocab.v
theories/NetProofs.v
theories/NetProofs2.v
theories/DemoNet.v
theories/PropertiesNet.v
theories/PropertiesRead.v
theories/PropertiesEndToEnd.v
theories/PropertiesImported.v
theories/PropertiesOnly.v
theories/PropertiesNetUse.v
theories/PropertiesHangup.v
theories/Accept.v
theories/PropertiesAccept.v
theories/Flow.v
theories/FlowProofs.v
theories/PropertiesFlow.v
theories/CodecForms.v
theories/PropertiesForms.v
theories/Lifetime.v
theories/PropertiesLifetime.v
theories/AtOnce.v
theories/AtOnceProofs.v
theories/AtOnceProofs2.v
theories/AtOnceSpec.v
theories/AtOnceProofs3.v
theories/PropertiesAtOnce.v
theories/PropertiesAtOnce2.v
theories/PropertiesAtOnce3.v
theories/Power.v
theories/PropertiesPower.v
theories/Root.v
theories/PropertiesRoot.v
theories/PropertiesDerive.v
theories/PropertiesTamper.v
