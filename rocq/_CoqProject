-Q theories Verif
theories/PyBytes.v
theories/PyBytesFacts.v
theories/Regex.v
theories/FileIO.v
theories/Stream.v
theories/Record.v
theories/Warc.v
theories/Arc.v
theories/Reader.v
theories/RegexFacts.v
theories/WarcRx.v
theories/StreamFacts.v
theories/WarcLines.v
theories/WarcSpec.v
theories/WarcRead.v
theories/WarcArchive.v
theories/WarcWrite.v
theories/Checks.v
theories/PropsRead.v
theories/PropsCut.v
theories/PropsParse.v
theories/PropsRecord.v
theories/ArcSpec.v
theories/ArcFacts.v
theories/PropsArc.v
theories/Http.v
theories/HttpFacts.v
theories/HttpSplit.v
theories/HttpRun.v
theories/HttpSpec.v
theories/HttpHead.v
theories/HttpFrame.v
theories/HttpBody.v
theories/HttpShift.v
theories/HttpHist.v
theories/PropsHttp.v
theories/PropsHttpMsg.v
theories/PropsHttpMore.v
theories/HttpTidy.v
theories/PropsHttpDecoded.v
theories/HttpExamples.v
theories/Tools.v
theories/ToolFacts.v
theories/PropsTools.v
theories/PropsFilter.v
theories/PropsValid.v
theories/PropsReading.v
theories/PropsIndex.v
theories/ToolExamples.v
theories/Dates.v
theories/DateFacts.v
theories/Arc2Warc.v
theories/PropsA2W.v
theories/PropsA2WMore.v
theories/PropsFactory.v
theories/S3.v
theories/PropsS3.v
theories/PropsIter.v
theories/HttpRequest.v
theories/PropsRequest.v
theories/Place.v
theories/PropsPlace.v
theories/PropsPayload.v
theories/Dump.v
theories/PropsDump.v
theories/PropsResume.v
theories/Sink.v
theories/PropsSink.v
theories/Into.v
theories/PropsInto.v
theories/Http09.v
theories/PropsHttp09.v
theories/FeedFd.v
theories/PropsFeedFd.v
theories/Faults.v
theories/FaultFacts.v
theories/PropsFaults.v
theories/Ids.v
theories/PropsIds.v
theories/TextMode.v
theories/PropsTextMode.v
theories/Unpack.v
theories/PropsUnpack.v
theories/PropsAnyFile.v
theories/PropsCopyTwice.v
theories/PropsAnyList.v
theories/PropsArcAny.v
theories/PropsMixedAny.v
theories/PropsDateAny.v
theories/PropsA2WAny.v
theories/PropsEnds.v
theories/Links.v
theories/PropsLinks.v
theories/GzHandle.v
theories/PropsGzHandle.v
theories/A2WMain.v
theories/PropsA2WMain.v
theories/PropsUnpackMore.v
theories/MoreExamples.v
theories/HttpAny.v
theories/HttpAnyFacts.v
theories/HttpAnyRun.v
theories/PropsHttpAny.v
theories/HttpRaise.v
theories/HttpRaiseFacts.v
theories/HttpRaiseRun.v
theories/HttpPlant.v
theories/PropsHttpRaise.v
theories/Life.v
theories/LifeSpec.v
theories/PropsLife.v
theories/HttpPipe.v
theories/Conn.v
theories/ConnFacts.v
theories/PropsConn.v
theories/Shelf.v
theories/ShelfSpec.v
theories/PropsShelf.v
theories/GzSeek.v
theories/PropsGzSeek.v
theories/Attrs.v
theories/AttrsFacts.v
theories/PropsAttrs.v
theories/Closing.v
theories/PropsClosing.v
theories/AnyShelfSpec.v
theories/PropsAnyShelf.v
theories/Delegate.v
theories/PropsDelegate.v
theories/Cli.v
theories/Remote.v
theories/Shared.v
theories/Semantics.v
theories/PropsCli.v
theories/PropsRemote.v
theories/PropsShared.v
theories/PropsSemantics.v
theories/Iters.v
theories/IterSpec.v
theories/PropsIters.v
theories/PropsPipes.v
theories/PropsCutCopy.v
theories/PropsNewline.v
theories/FaultTools.v
theories/PropsCutTools.v
theories/FaultDump.v
theories/PropsCutDump.v
theories/FaultW2w.v
theories/PropsCutW2w.v
theories/Assumptions.v
