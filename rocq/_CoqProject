-Q theories Verif

theories/Base.v
theories/Utf8.v
theories/B64.v
theories/Util.v
theories/MatterTables.v
theories/Matter.v
theories/BaseFacts.v
theories/B64Facts.v
theories/UtilFacts.v
theories/MatterFacts.v
theories/MatterFacts2.v
theories/MatterFacts3.v
theories/Spec.v
theories/SpecFacts.v
theories/MatterFacts4.v
theories/MatterDefs.v
theories/MatterThms.v
theories/PropMatter.v
theories/StdStr.v
theories/StdStrFacts.v
theories/CounterTables.v
theories/Counter.v
theories/CounterFacts.v
theories/CounterDefs.v
theories/CounterThms.v
theories/PropCounter.v
theories/IndexerTables.v
theories/Indexer.v
theories/IndexerFacts.v
theories/IndexerFacts2.v
theories/IndexerFacts3.v
theories/IndexerDefs.v
theories/IndexerThms.v
theories/PropIndexer.v
theories/Crypto.v
theories/Prims.v
theories/PrimsDefs.v
theories/PrimsFacts.v
theories/PrimsFacts2.v
theories/PrimsThms.v
theories/PropPrims.v
theories/Signer.v
theories/SignerDefs.v
theories/SignerToy.v
theories/SignerThms.v
theories/PropSigner.v
theories/Data.v
theories/Json.v
theories/DataDefs.v
theories/DataFacts.v
theories/JsonFacts.v
theories/ImportFacts.v
theories/DataThms.v
theories/PropData.v
theories/Common.v
theories/CommonDefs.v
theories/CommonFacts.v
theories/CommonFacts2.v
theories/CommonThms.v
theories/PropCommon.v
theories/Saider.v
theories/SaiderDefs.v
theories/SaiderFacts.v
theories/SaiderFacts2.v
theories/SaiderThms.v
theories/PropSaider.v
theories/Tholder.v
theories/TholderDefs.v
theories/TholderFacts.v
theories/TholderFacts2.v
theories/TholderFacts3.v
theories/TholderFacts4.v
theories/TholderFacts5.v
theories/TholderFacts6.v
theories/TholderFacts7.v
theories/TholderThms.v
theories/PropTholder.v
theories/Sadder.v
theories/SadderDefs.v
theories/SadderFacts.v
theories/SadderFacts2.v
theories/SadderThms.v
theories/PropSadder.v
theories/Pather.v
theories/PatherDefs.v
theories/PatherFacts.v
theories/PatherFacts2.v
theories/PatherThms.v
theories/PropPather.v
theories/Prefixer.v
theories/PrefixerDefs.v
theories/PrefixerFacts.v
theories/PrefixerThms.v
theories/PropPrefixer.v
theories/AccessDefs.v
theories/AccessThms.v
theories/PropAccess.v
theories/Pretty.v
theories/LayoutDefs.v
theories/LayoutFacts.v
theories/PrettyFacts.v
theories/LayoutThms.v
theories/PropLayout.v
theories/StreamDefs.v
theories/StreamThms.v
theories/PropStream.v
theories/SignedDefs.v
theories/SignedThms.v
theories/PropSigned.v
theories/CrashDefs.v
theories/CrashThms.v
theories/PropCrash.v
theories/GrammarDefs.v
theories/GrammarFacts.v
theories/GrammarThms.v
theories/PropGrammar.v
theories/TextDefs.v
theories/TextFacts.v
theories/TextThms.v
theories/PropText.v
theories/Wasm.v
theories/WasmDefs.v
theories/WasmThms.v
theories/PropWasm.v
theories/FlowThms.v
theories/PropFlow.v
theories/InceptDefs.v
theories/InceptThms.v
theories/PropIncept.v
theories/AssembleThms.v
theories/PropAssemble.v
theories/PrintDefs.v
theories/PrintThms.v
theories/PropPrint.v
theories/Defaults.v
theories/DefaultsDefs.v
theories/DefaultsThms.v
theories/PropDefaults.v
theories/LogDefs.v
theories/LogThms.v
theories/PropLog.v
theories/Hash.v
theories/HashDefs.v
theories/HashFacts.v
theories/HashThms.v
theories/PropHash.v
theories/Float.v
theories/FloatDefs.v
theories/FloatFacts.v
theories/FloatErr.v
theories/FloatShort.v
theories/FloatThms.v
theories/PropFloat.v
theories/Convert.v
theories/ConvertDefs.v
theories/ConvertThms.v
theories/PropConvert.v
theories/ConformDefs.v
theories/ConformMatter.v
theories/ConformIndexer.v
theories/ConformCodes.v
theories/ConformPrims.v
theories/ConformSaid.v
theories/ConformTrees.v
