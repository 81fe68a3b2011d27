-Q theories Verif

theories/PyBase.v
theories/UniTables.v
theories/PyText.v
theories/PyNum.v
theories/PyFloat.v
theories/PyTime.v
theories/Tables.v
theories/Helpers.v
theories/Message.v
theories/Reader.v
theories/Socket.v
theories/BaseLemmas.v
theories/TextLemmas.v
theories/NumLemmas.v
theories/Spec.v
theories/ParseProofs.v
theories/MessageProofs.v
theories/SelectProofs.v
theories/DecodeProofs.v
theories/TableProofs.v
theories/StreamProofs.v
theories/PropsParse.v
theories/PropsMessage.v
theories/PropsDecode.v
theories/PropsObject.v
theories/UniPrint.v
theories/Repr.v
theories/ReprSpec.v
theories/PropsRepr.v
theories/ReaderSpec.v
theories/ReaderProofs.v
theories/PropsReader.v
theories/SocketSpec.v
theories/SocketProofs.v
theories/ChunkProofs.v
theories/PropsSocket.v
theories/PropsChunked.v
theories/PropsPipeline.v
theories/PropsSession.v
theories/PropsFault.v
theories/KeywordSpec.v
theories/KeywordProofs.v
theories/CompleteProofs.v
theories/PropsConstruct.v
theories/PropsTruncate.v
theories/ValueSpec.v
theories/PropsValue.v
theories/PropsWrite.v
theories/PropsKeyword.v
theories/GenerateProofs.v
theories/PropsGenerate.v
theories/TimeSpec.v
theories/TimeProofs.v
theories/PropsTime.v
theories/PropsHelpers.v
theories/PropsTables.v
theories/FloatProofs.v
theories/GnssSpec.v
theories/GnssProofs.v
theories/PropsGnss.v
theories/DecimalProofs.v
theories/CoordSpec.v
theories/CoordProofs.v
theories/PropsCoord.v
theories/DmsProofs.v
theories/PropsDms.v
theories/Geo.v
theories/GeoSpec.v
theories/GeoProofs.v
theories/EcefProofs.v
theories/EcefAccuracy.v
theories/PropsGeo.v
theories/PropsEcef.v
theories/PropsEcef2.v
theories/PiBounds.v
theories/FloatErr.v
theories/FGeo.v
theories/FGeoSpec.v
theories/LibmExact.v
theories/FGeoProofs.v
theories/FGeoProofs2.v
theories/FGeoProofs3.v
theories/PropsFGeo.v
theories/PropsFGeo2.v
theories/PropsFGeo3.v
theories/FGeoProofs4.v
theories/FGeoProofs5.v
theories/FGeoProofs6.v
theories/FGeoProofs7.v
theories/FGeoProofs8.v
theories/FGeoProofs9.v
theories/PropsFGeo4.v
theories/PropsSpeed.v
theories/ReaderHandler.v
theories/HandlerProofs.v
theories/PropsHandler.v
theories/PropsRoundTrip.v
theories/PropsWeek.v
theories/PropsWaiting.v
theories/Decodes.v
theories/PropsCodes.v
theories/PropsPrompt.v
theories/PropsPort.v
theories/ReaderAny.v
theories/PropsAny.v
theories/PropsConcat.v
theories/PropsRelax.v
theories/Objects.v
theories/PropsObjects.v
theories/Threads.v
theories/PropsThreads.v
theories/PropsDamage.v
theories/PropsArgs.v
theories/PropsChecks.v
theories/PropsExc.v
theories/DecimalShort.v
theories/RewriteSpec.v
theories/RewriteProofs.v
theories/PropsRewrite.v
theories/Conformance.v
theories/ConformanceGeo.v
theories/Poller.v
theories/PropsPoller.v
theories/Datums.v
theories/PropsDatums.v
theories/Tracker.v
theories/XmlSpec.v
theories/XmlProofs.v
theories/SlotProofs.v
theories/PropsTracker.v
theories/Server.v
theories/JsonSpec.v
theories/JsonProofs.v
theories/PropsServer.v
theories/PropsDmsText.v
theories/Items.v
theories/PropsItems.v
theories/PropsItems2.v
theories/PropsTimeText.v
theories/PropsNumText.v
theories/Demos.v
theories/PropsDemos.v
theories/PropsDms2.v
theories/Http.v
theories/PropsHttp.v
theories/PropsShown.v
theories/NmeaFile.v
theories/PropsFile.v
theories/ErrorText.v
theories/PropsErrorText.v
theories/PropsErrorText2.v
theories/PropsErrorText3.v
theories/PropsMemory.v
theories/ReaderReentrant.v
theories/PropsReentrant.v
theories/PropsSettings.v
theories/ConformanceErrors.v
theories/GeoDefaults.v
theories/PropsDefaults.v
theories/SocketInt.v
theories/PropsInterrupt.v
theories/NmeaSocket.v
theories/PropsSockProg.v
theories/BufferedPort.v
theories/PropsBuffered.v
theories/Benchmark.v
theories/PropsBench.v
theories/PropsRewriteIds.v
theories/ConformanceDocs.v
