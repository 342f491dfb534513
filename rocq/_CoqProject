-Q theories Verif
theories/AccessorFacts.v
theories/Accessors.v
theories/AcctText.v
theories/AcctTextFacts.v
theories/AgainDocFacts.v
theories/AgainFacts.v
theories/AgainReadFacts.v
theories/AlikeDocs.v
theories/AlikeFacts.v
theories/AmountSizeFacts.v
theories/AmountTextFacts.v
theories/AttemptFacts.v
theories/Bodies.v
theories/BodyFacts.v
theories/Bufio.v
theories/BufioFacts.v
theories/CalFacts.v
theories/Cli.v
theories/CliDetect.v
theories/CliDry.v
theories/CliFacts.v
theories/CliRuns.v
theories/CliSamples.v
theories/ClientFacts.v
theories/Clients.v
theories/ClosureCodec.v
theories/ClosureDocs.v
theories/ClosureFacts.v
theories/Codec.v
theories/CodecFacts.v
theories/CodecSim.v
theories/Common.v
theories/ContentDocs.v
theories/ContentFacts.v
theories/CrashFacts.v
theories/DateFacts.v
theories/DateTextFacts.v
theories/Document.v
theories/DocumentFacts.v
theories/DriftFacts.v
theories/EnumFacts.v
theories/EnumTables.v
theories/EnumTextFacts.v
theories/Enums.v
theories/ErrText.v
theories/ErrorFacts.v
theories/ExchangeFacts.v
theories/ExtendFacts.v
theories/Fidelity.v
theories/FidelityScalars.v
theories/FilingFacts.v
theories/FlagFacts.v
theories/FormFacts.v
theories/GoNum.v
theories/GoNumFacts.v
theories/GoRat.v
theories/GoStr.v
theories/GoStrFacts.v
theories/GoTime.v
theories/GoUint.v
theories/GoroutineFacts.v
theories/Goroutines.v
theories/HeaderFacts.v
theories/Headers.v
theories/HttpFacts.v
theories/LayoutFacts.v
theories/Leaves.v
theories/LexFacts.v
theories/ListFacts.v
theories/MarkupDocs.v
theories/MarkupTags.v
theories/MarkupText.v
theories/Marshal.v
theories/Messages.v
theories/NewDate.v
theories/NewDateFacts.v
theories/PanicFacts.v
theories/Panics.v
theories/PropsAcctText.v
theories/PropsAgain.v
theories/PropsAmountText.v
theories/PropsAttempt.v
theories/PropsBodies.v
theories/PropsCli.v
theories/PropsClients.v
theories/PropsContent.v
theories/PropsCrash.v
theories/PropsDate.v
theories/PropsDateText.v
theories/PropsDecode.v
theories/PropsDocument.v
theories/PropsEnum.v
theories/PropsEnumText.v
theories/PropsErrText.v
theories/PropsErrors.v
theories/PropsExchange.v
theories/PropsFlags.v
theories/PropsGoroutines.v
theories/PropsHeaders.v
theories/PropsHttp.v
theories/PropsLists.v
theories/PropsMarkup.v
theories/PropsNewDate.v
theories/PropsPanics.v
theories/PropsReader.v
theories/PropsReading.v
theories/PropsReady.v
theories/PropsRequestAgain.v
theories/PropsReread.v
theories/PropsRules.v
theories/PropsSecret.v
theories/PropsSettle.v
theories/PropsSettleDoc.v
theories/PropsSgml.v
theories/PropsSize.v
theories/PropsStream.v
theories/PropsTypes.v
theories/PropsUrl.v
theories/PropsUsage.v
theories/PropsValid.v
theories/PropsWire.v
theories/PropsZone.v
theories/RatFacts.v
theories/ReadingDocs.v
theories/ReadingFacts.v
theories/ReadingLists.v
theories/ReadyFacts.v
theories/Records.v
theories/RequestAgainFacts.v
theories/RequestReading.v
theories/RereadFacts.v
theories/RuleFacts.v
theories/Samples.v
theories/Schema.v
theories/SchemaInv.v
theories/SecretCli.v
theories/SecretFacts.v
theories/SendFacts.v
theories/SetsFacts.v
theories/SettleDocFacts.v
theories/SettleFacts.v
theories/SgmlDocs.v
theories/SgmlRead.v
theories/SgmlTags.v
theories/SgmlText.v
theories/SimFacts.v
theories/SizeFacts.v
theories/SleepFacts.v
theories/SpecAcctText.v
theories/SpecAgain.v
theories/SpecAmountText.v
theories/SpecAttempt.v
theories/SpecBodies.v
theories/SpecCli.v
theories/SpecClients.v
theories/SpecCodec.v
theories/SpecContent.v
theories/SpecCrash.v
theories/SpecDate.v
theories/SpecDateText.v
theories/SpecDecode.v
theories/SpecDocument.v
theories/SpecErrors.v
theories/SpecExchange.v
theories/SpecFlags.v
theories/SpecGoroutines.v
theories/SpecHeader.v
theories/SpecHttp.v
theories/SpecLayout.v
theories/SpecLists.v
theories/SpecMarkup.v
theories/SpecNewDate.v
theories/SpecNum.v
theories/SpecReader.v
theories/SpecReading.v
theories/SpecReady.v
theories/SpecRequestAgain.v
theories/SpecReread.v
theories/SpecRules.v
theories/SpecSecret.v
theories/SpecSgml.v
theories/SpecSize.v
theories/SpecStr.v
theories/SpecStream.v
theories/SpecUrl.v
theories/SpecUsage.v
theories/SpecValid.v
theories/SpecWire.v
theories/SpecXml.v
theories/SpecZone.v
theories/SpellFacts.v
theories/StatusTable.v
theories/Stream.v
theories/StreamFacts.v
theories/TimeFacts.v
theories/TreeFacts.v
theories/Types.v
theories/TypesFacts.v
theories/UintFacts.v
theories/Url.v
theories/UrlFacts.v
theories/UsageFacts.v
theories/Utf8.v
theories/ValidFacts.v
theories/Wire.v
theories/WireFacts.v
theories/WrittenHeaderFacts.v
theories/Xml.v
theories/XmlFacts.v
theories/ZoneFacts.v
