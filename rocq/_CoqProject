-Q theories Verif
theories/Base.v
theories/BaseFacts.v
theories/VecModel.v
theories/VecSpec.v
theories/VecProofs.v
theories/VecProofs2.v
theories/VecAlias.v
theories/VecMain.v
theories/PropsVec.v
theories/PlistModel.v
theories/PlistSpec.v
theories/PlistProofs.v
theories/SpanModel.v
theories/SpanProofs.v
theories/SpanMain.v
theories/PropsContainers.v
theories/HeapModel.v
theories/AllocModel.v
theories/AllocSpec.v
theories/AllocProofs.v
theories/AllocMain.v
theories/PropsAlloc.v
theories/StrModel.v
theories/StrModel2.v
theories/StrSpec.v
theories/StrProofs.v
theories/StrProofs2.v
theories/StrProofs3.v
theories/StrMain.v
theories/PropsStr.v
theories/NumModel.v
theories/NumProofs.v
theories/PropsNum.v
theories/DtProofs.v
theories/DtProofs2.v
theories/PropsDt.v
theories/FsModel.v
theories/PathModel.v
theories/PathProofs.v
theories/FsSpec.v
theories/FsProofs.v
theories/FsMain.v
theories/FsMain2.v
theories/PropsPath.v
theories/ArgModel.v
theories/ArgSpec.v
theories/ArgProofs.v
theories/PropsArg.v
theories/LogModel.v
theories/LogSpec.v
theories/LogProofs.v
theories/SockModel.v
theories/SockProofs.v
theories/PropsSys.v
theories/MoreProofs.v
theories/PropsMore.v
theories/ContModel.v
theories/ContSpec.v
theories/ContProofs.v
theories/ContBound.v
theories/ContMain.v
theories/PropsHeap.v
theories/TypedModel.v
theories/TypedSpec.v
theories/TypedProofs.v
theories/PropsTyped.v
theories/FloatModel.v
theories/DtModel.v
theories/FloatFacts.v
theories/FloatProofs.v
theories/MapProofs.v
theories/CarmackGuess.v
theories/CarmackProofs.v
theories/PropsFloat.v
theories/FtextModel.v
theories/FtextProofs.v
theories/PropsFtext.v
theories/StrAlias.v
theories/PropsAlias.v
theories/OwnModel.v
theories/OwnSpec.v
theories/OwnProofs.v
theories/PropsOwn.v
theories/UpstreamTests1.v
theories/UpstreamTests2.v
theories/PrintModel.v
theories/PrintProofs.v
theories/AdoptProofs.v
theories/PropsPrint.v
theories/RenameModel.v
theories/RenameProofs.v
theories/PropsRename.v
theories/PropsFopt.v
theories/RandModel.v
theories/RandProofs.v
theories/PropsRand.v
theories/LocModel.v
theories/LocProofs.v
theories/PropsLoc.v
theories/DbgProofs.v
theories/PropsDbg.v
theories/StrSafe.v
theories/PlistSafe.v
theories/PropsSafe.v
theories/GrowProofs.v
theories/PropsGrow.v
theories/NormModel.v
theories/NormProofs.v
theories/PropsNorm.v
theories/DtSplit.v
theories/DtBuild.v
theories/DtBuildProofs.v
theories/PropsDtBuild.v
theories/WriteModel.v
theories/PropsWrite.v
theories/LogLines.v
theories/PropsLogLines.v
theories/FindProofs.v
theories/PropsFind.v
theories/ArgOrder.v
theories/PropsArgOrder.v
theories/StrLaws.v
theories/PropsStrLaws.v
theories/FsTree.v
theories/PropsFsTree.v
theories/PathLaws.v
theories/PropsPathLaws.v
theories/RealModel.v
theories/RealProofs.v
theories/PropsReal.v
theories/DstModel.v
theories/DstProofs.v
theories/PropsDst.v
theories/DocProofs.v
theories/PropsDoc.v
theories/NetModel.v
theories/NetProofs.v
theories/NetSpec.v
theories/PropsNet.v
theories/SymModel.v
theories/SymProofs.v
theories/SymAgree.v
theories/PropsSym.v
theories/NameModel.v
theories/NameProofs.v
theories/PropsName.v
theories/MatModel.v
theories/MatProofs.v
theories/MatMain.v
theories/PropsMat.v
theories/MatTest.v
theories/GridProofs.v
theories/PropsGrid.v
theories/WinModel.v
theories/WinProofs.v
theories/PropsWin.v
theories/LoopModel.v
theories/PropsLoop.v
theories/SlideProofs.v
theories/PropsSlide.v
theories/ProcModel.v
theories/PropsProc.v
theories/SeqProofs.v
theories/PropsSeq.v
theories/WikiTest.v
theories/ThreadModel.v
theories/PropsThread.v
theories/FmtModel.v
theories/FmtProofs.v
theories/PropsFmt.v
theories/MsgModel.v
theories/PropsMsg.v
theories/PropsDead.v
theories/ExactStr.v
theories/PropsExact.v
theories/ExactMisc.v
theories/ExactPath.v
theories/PropsExact2.v
theories/OomProofs.v
theories/PropsOom.v
theories/ExactFs.v
theories/PropsExact3.v
theories/ExactMore.v
theories/PropsExact4.v
theories/RaceModel.v
theories/RaceProofs.v
theories/PropsRace.v
theories/WinFsModel.v
theories/WinFsProofs.v
theories/PropsWinFs.v
theories/PermModel.v
theories/PermProofs.v
theories/PropsPerm.v
theories/CtypeModel.v
theories/CtypeProofs.v
theories/PropsCtype.v
theories/Utf8Proofs.v
theories/PropsUtf8.v
theories/FfmtProofs.v
theories/PropsFfmt.v
theories/NullModel.v
theories/NullProofs.v
theories/PropsNull.v
theories/CrashModel.v
theories/CrashProofs.v
theories/PropsCrash.v
theories/FmtSpec.v
theories/FmtProofs2.v
theories/PropsFmt2.v
theories/DtText.v
theories/PropsDtText.v
theories/LineProofs.v
theories/PropsLines.v
theories/RandPeriod.v
theories/RandSeeds.v
theories/NormLoop.v
theories/PropsPeriod.v
theories/DtOrder.v
theories/PropsOrder.v
theories/DtAlgebra.v
theories/PropsAlgebra.v
theories/TableProofs.v
theories/PropsTable.v
theories/PropsCopy.v
theories/NumTable.v
theories/PropsNumTable.v
theories/DescModel.v
theories/DescProofs.v
theories/PropsDesc.v
theories/LimModel.v
theories/LimProofs.v
theories/PropsLim.v
theories/ConnModel.v
theories/ConnProofs.v
theories/PropsConn.v
theories/WinLines.v
theories/PropsWinLines.v
theories/WinNum.v
theories/PropsWinNum.v
theories/SetProofs.v
theories/PropsSet.v
theories/LiveModel.v
theories/LiveProofs.v
theories/PropsLive.v
theories/AliasPop.v
theories/PropsAliasPop.v
theories/AliasPath.v
theories/PropsAliasPath.v
theories/LiveRm.v
theories/PropsLiveRm.v
theories/LiveElse.v
theories/PropsLiveElse.v
theories/DblProofs.v
theories/PropsDbl.v
theories/CodeProofs.v
theories/PropsCode.v
