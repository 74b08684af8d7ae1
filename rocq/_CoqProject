-Q theories Verif
theories/PyBase.v
theories/World.v
theories/Regex.v
theories/Codec.v
theories/PyFloat.v
theories/PyTime.v
theories/Algo.v
theories/Receipt.v
theories/DepBase.v
theories/Json.v
theories/Pem.v
theories/KeyStore.v
theories/VerifyReceipt.v
theories/State.v
theories/DepParser.v
theories/Verify.v
theories/Url.v
theories/DepExport.v
theories/ListFacts.v
theories/RegexFacts.v
theories/CodecFacts.v
theories/CodecFacts2.v
theories/AlgoFacts.v
theories/SpecReceipt.v
theories/FieldFacts.v
theories/ReceiptFacts.v
theories/SpecDep.v
theories/RoundTrip.v
theories/RoundTrip2.v
theories/VerifyFacts.v
theories/StepFacts.v
theories/DepFacts.v
theories/SpecCluster.v
theories/ClusterFacts.v
theories/AcceptFacts.v
theories/SeqFacts.v
theories/DepTheorems.v
theories/TamperFacts.v
theories/PartsFacts.v
theories/SpecAmount.v
theories/FloatFacts.v
theories/AmountFacts.v
theories/SpecState.v
theories/StateFacts.v
theories/UpdateFacts.v
theories/ParFacts.v
theories/SpecChunks.v
theories/ChunkFacts.v
theories/DictFacts.v
theories/ParTheorems.v
theories/BalanceFacts.v
theories/SpecDoc.v
theories/IncFacts.v
theories/IncDoc.v
theories/IncBack.v
theories/IncTheorems.v
theories/SpecKeys.v
theories/IntFacts.v
theories/PemFacts.v
theories/SpecStore.v
theories/SpecKeyFile.v
theories/SpecReceiptCli.v
theories/KeyFacts.v
theories/KeyFileFacts.v
theories/SpecUrl.v
theories/UrlFacts.v
theories/FormFacts.v
theories/MiddleFacts.v
theories/MiddleFacts2.v
theories/StateCliFacts2.v
theories/SpecMerge.v
theories/MergeFacts.v
theories/SpecExport.v
theories/ExportFacts.v
theories/SplitFacts.v
theories/CashReg.v
theories/Demo.v
theories/RunTest.v
theories/SpecCashReg.v
theories/SpecDemo.v
theories/SpecRunTest.v
theories/CashRegText.v
theories/CashRegFacts.v
theories/CashRegSeq.v
theories/DemoFacts.v
theories/ClusterRun.v
theories/RunTestFacts.v
theories/RunTestSeq.v
theories/SpecJsonText.v
theories/JsonText.v
theories/JsonTextFacts.v
theories/JsonWriteFacts.v
theories/JsonFileFacts.v
theories/SpecCounter.v
theories/CounterFacts.v
theories/SpecCodec.v
theories/BitFacts.v
theories/SpecNatural.v
theories/NaturalFacts.v
theories/Cli.v
theories/StateCli.v
theories/KeyStoreCli.v
theories/ReceiptCli.v
theories/Gui.v
theories/SpecGui.v
theories/GuiFacts.v
theories/GuiFacts2.v
theories/SpecPool.v
theories/Pool.v
theories/PoolFacts.v
theories/PoolFacts2.v
theories/SpecCli.v
theories/CliFacts.v
theories/SpecCrypto.v
theories/CryptoFacts.v
theories/SpecClean.v
theories/CleanFacts.v
theories/CleanParFacts.v
theories/SpecConvert.v
theories/SpecStateCli.v
theories/SpecKeyStoreCli.v
theories/ConvertFacts.v
theories/StateCliFacts.v
theories/KeyStoreCliFacts.v
theories/IniFacts.v
theories/CertExtractFacts.v
theories/ReceiptCliFacts.v
theories/ExampleWorld.v
theories/ExampleReceipts.v
theories/ExampleDep.v
theories/ExamplePar.v
theories/ExampleInc.v
theories/ExampleKeys.v
theories/ExampleExport.v
theories/ExampleCashReg.v
theories/ExampleCounter.v
theories/ExampleCli.v
theories/ExampleCrypto.v
theories/ExampleClean.v
theories/ExampleCleanPar.v
theories/ExampleGui.v
theories/ExampleConvert.v
theories/ExampleStateCli.v
theories/ExampleKeyStoreCli.v
theories/ExampleReceiptCli.v
theories/PropsCodec.v
theories/PropsReceipt.v
theories/PropsDep.v
theories/PropsFloat.v
theories/PropsState.v
theories/PropsPar.v
theories/PropsInc.v
theories/PropsKeys.v
theories/PropsForm.v
theories/PropsMiddle.v
theories/PropsExport.v
theories/PropsCashReg.v
theories/PropsCounter.v
theories/PropsNatural.v
theories/PropsCli.v
theories/PropsCrypto.v
theories/PropsClean.v
theories/PropsConvert.v
theories/PropsStateCli.v
theories/PropsKeyStoreCli.v
theories/PropsKeyFile.v
theories/PropsReceiptCli.v
theories/PropsGui.v
theories/ExamplePool.v
theories/PropsPool.v
theories/ExampleDemo.v
theories/PropsDemo.v
theories/ExampleRunTest.v
theories/PropsRunTest.v
theories/TestVerify.v
theories/SpecTestVerify.v
theories/TestVerifyFacts.v
theories/ExampleTestVerify.v
theories/PropsTestVerify.v
theories/Remote.v
theories/SpecRemote.v
theories/RemoteFacts.v
theories/ExampleRemote.v
theories/PropsRemote.v
theories/Override.v
theories/SpecOverride.v
theories/OverrideFacts.v
theories/OverrideCaught.v
theories/ExampleOverride.v
theories/PropsOverride.v
theories/ExampleJsonText.v
theories/PropsJsonText.v
theories/Host.v
theories/SpecHost.v
theories/HostFacts.v
theories/PropsHost.v
theories/View.v
theories/SpecView.v
theories/ViewFloat.v
theories/ViewRepr.v
theories/ViewFacts.v
theories/ExampleView.v
theories/PropsView.v
theories/SpecReading.v
theories/ReadingFacts.v
theories/PrintedFacts.v
theories/SpecDiag.v
theories/DiagFacts.v
theories/CaughtFacts.v
theories/ExampleDiag.v
theories/PropsDiag.v
theories/LastFault.v
theories/LastCaught.v
theories/LastTheorems.v
theories/RunTestOver.v
theories/ExampleRunTestOver.v
theories/PropsRunTestOver.v
theories/SpecGarbled.v
theories/GarbledFacts.v
theories/GarbledTest.v
theories/ExampleReading.v
theories/PropsReading.v
theories/ExampleLast.v
theories/PropsLast.v
theories/TestSetup.v
theories/SpecSetup.v
theories/SetupFacts.v
theories/SetupTest.v
theories/ExampleSetup.v
theories/PropsSetup.v
theories/CertFault.v
theories/CertTest.v
theories/SpecFlaw.v
theories/FlawFacts.v
theories/ExampleFlaw.v
theories/PropsFlaw.v
theories/TestFiles.v
theories/SpecTestFiles.v
theories/TestFilesFacts.v
theories/ExampleTestFiles.v
theories/PropsTestFiles.v
theories/TestMulti.v
theories/SpecTestMulti.v
theories/TestMultiFacts.v
theories/ExampleTestMulti.v
theories/PropsTestMulti.v
theories/SpecOcr.v
theories/OcrFacts.v
theories/ExampleOcr.v
theories/PropsOcr.v
theories/Argv.v
theories/SpecArgv.v
theories/ArgvFacts.v
theories/ExampleArgv.v
theories/PropsArgv.v
theories/StateArgv.v
theories/SpecStateArgv.v
theories/StateArgvFacts.v
theories/ExampleStateArgv.v
theories/PropsStateArgv.v
theories/SetupRead.v
theories/KeyArgv.v
theories/SpecKeyArgv.v
theories/KeyArgvFacts.v
theories/ExampleKeyArgv.v
theories/PropsKeyArgv.v
theories/DepArgv.v
theories/SpecDepArgv.v
theories/DepArgvFacts.v
theories/ExampleDepArgv.v
theories/PropsDepArgv.v
theories/ReceiptArgv.v
theories/SpecReceiptArgv.v
theories/ReceiptArgvFacts.v
theories/ExampleReceiptArgv.v
theories/PropsReceiptArgv.v
theories/DemoArgv.v
theories/SpecDemoArgv.v
theories/DemoArgvFacts.v
theories/ExampleDemoArgv.v
theories/PropsDemoArgv.v
theories/ExtractArgv.v
theories/SpecExtractArgv.v
theories/ExtractArgvFacts.v
theories/ExampleExtractArgv.v
theories/PropsExtractArgv.v
theories/OverrideText.v
theories/SpecOverrideText.v
theories/OverrideTextFacts.v
theories/ExampleOverrideText.v
theories/PropsOverrideText.v
