-Q theories Verif
theories/Prelude.v
theories/Md5.v
theories/Utf8.v
theories/Tag.v
theories/Code.v
theories/Avp.v
theories/AvpOpenssl.v
theories/Attributes.v
theories/Packet.v
theories/PacketOpenssl.v
theories/Vsa.v
theories/Accessors.v
theories/Rfc.v
theories/Display.v
theories/PreludeFacts.v
theories/Md5Test.v
theories/Spec.v
theories/CodecFacts.v
theories/AuthFacts.v
theories/RoundTrip.v
theories/Samples.v
theories/PropPacket.v
theories/AvpSpec.v
theories/Utf8Facts.v
theories/AvpFacts.v
theories/PropAvp.v
theories/AccessorSpec.v
theories/AccessorFacts.v
theories/PropAccessors.v
theories/InteropSpec.v
theories/PropInterop.v
theories/PropConstruct.v
theories/PropWire.v
theories/PropVsa.v
theories/PropOpenssl.v
theories/Addr.v
theories/Server.v
theories/SourceCore.v
theories/SourceNet.v
theories/Rust.v
theories/RustEval.v
theories/RustModule.v
theories/CodeRun.v
theories/RustFacts.v
theories/CodeTactics.v
theories/CodeBase.v
theories/Openssl.v
theories/CodeEncode.v
theories/CodeAttributes.v
theories/CodeHash.v
theories/CodePacket.v
theories/CodePassword.v
theories/CodeAvp.v
theories/CodeNet.v
theories/CodeClient.v
theories/CodeServer.v
theories/CodeListen.v
theories/OpensslFacts.v
theories/ServerSpec.v
theories/ServerFacts.v
theories/PropServer.v
theories/PropServerMore.v
theories/PropIsolation.v
theories/AddrFacts.v
theories/PropAddr.v
theories/Client.v
theories/PropClient.v
theories/ExampleApp.v
theories/PropEndToEnd.v
theories/CodeGen.v
theories/Dicts.v
theories/CodeGenSpec.v
theories/CodeGenFacts.v
theories/PropCodeGen.v
theories/PropGenerated.v
theories/Inflect.v
theories/GenText.v
theories/Sources.v
theories/SourceSpec.v
theories/InflectFacts.v
theories/LexFacts.v
theories/GenTextFacts.v
theories/PropSource.v
theories/PropCode.v
theories/CodeAccessors.v
theories/CodeModules.v
theories/PropModules.v
theories/PropClientCode.v
theories/PropServerCode.v
theories/SourceGen.v
theories/Utf8Text.v
theories/GenRun.v
theories/GenTemplates.v
theories/GenAttributes.v
theories/GenDict.v
theories/GenHeader.v
theories/GenParse.v
theories/GenLines.v
theories/GenMain.v
theories/GenWhole.v
theories/PropGenCode.v
theories/RustLink.v
theories/SourceApp.v
theories/CodeApp.v
theories/CodeExample.v
theories/CodeExampleMain.v
theories/PropApp.v
theories/GenLex.v
theories/GenTree.v
theories/GenStep.v
theories/GenItems.v
theories/GenModule.v
theories/GenInline.v
theories/PropGenRun.v
theories/CodeTests.v
theories/CodeVectors.v
theories/CodeVectorsMd5.v
theories/CodeVectorsSsl.v
theories/PropTests.v
theories/E2eApp.v
theories/CodeE2e.v
theories/PropE2e.v
theories/CodeRunner.v
theories/PropRunner.v
