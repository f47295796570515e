-Q theories Verif
theories/Bytes.v
theories/StrMap.v
theories/Ieee.v
theories/SioModel.v
theories/SioProofs.v
theories/SioRecord.v
theories/SioRead.v
theories/SioFrame.v
theories/SioSpec.v
theories/PropsSio.v
theories/ObjModel.v
theories/ObjSpec.v
theories/ObjProofs.v
theories/ObjCalls.v
theories/CollSpec.v
theories/CollProofs.v
theories/ListFacts.v
theories/EventModel.v
theories/EventSpec.v
theories/EventProofs.v
theories/PostProofs.v
theories/EventFacts.v
theories/EventExamples.v
theories/PropsEvent.v
theories/IndexModel.v
theories/FileModel.v
theories/IndexSpec.v
theories/IndexProofs.v
theories/FileFrame.v
theories/IndexFile.v
theories/IndexFacts.v
theories/IndexExamples.v
theories/PropsIndex.v
theories/FileRead.v
theories/FileSpec.v
theories/FileWrite.v
theories/FileSessions.v
theories/FileSeq.v
theories/FileDeliver.v
theories/FileFacts.v
theories/FileUse.v
theories/FileDirect.v
theories/FileMore.v
theories/FileCount.v
theories/FileExamples.v
theories/PropsFile.v
theories/FlagModel.v
theories/FlagSpec.v
theories/FlagProofs.v
theories/PropsFlags.v
theories/BitModel.v
theories/BitSpec.v
theories/BitProofs.v
theories/BitParse.v
theories/BitFacts.v
theories/BitExamples.v
theories/BitLoose.v
theories/PropsBits.v
theories/ImplModel.v
theories/ImplSpec.v
theories/ImplProofs.v
theories/AccessProofs.v
theories/PropsImpl.v
theories/PropsNames.v
theories/ZMap.v
theories/NavModel.v
theories/NavSpec.v
theories/NavProofs.v
theories/PropsNav.v
theories/TimeModel.v
theories/TimeSpec.v
theories/TimeProofs.v
theories/PropsTime.v
theories/PidModel.v
theories/PidSpec.v
theories/PidProofs.v
theories/PropsPid.v
theories/SplitModel.v
theories/SplitSpec.v
theories/SplitProofs.v
theories/PropsSplit.v
theories/ThreadModel.v
theories/ThreadSpec.v
theories/ThreadProofs.v
theories/ThreadInv.v
theories/ThreadRun.v
theories/PropsThread.v
theories/LazyModel.v
theories/LazySpec.v
theories/LazyProofs.v
theories/LazyFile.v
theories/LazyExamples.v
theories/PropsLazy.v
theories/HepModel.v
theories/HepSpec.v
theories/HepProofs.v
theories/HepCharge.v
theories/HepFormat.v
theories/HepFile.v
theories/HepExamples.v
theories/PropsHep.v
theories/InputSpec.v
theories/InputProofs.v
theories/InputObj.v
theories/InputEvent.v
theories/InputFile.v
theories/InputExamples.v
theories/PropsInput.v
theories/StreamSpec.v
theories/FileStream.v
theories/PropsStream.v
theories/CopySpec.v
theories/CopyObj.v
theories/CopySize.v
theories/CopyEvent.v
theories/MergeModel.v
theories/MergeProofs.v
theories/PropsCopy.v
theories/ToolProofs.v
theories/PropsTools.v
theories/ReaderModel.v
theories/ReaderSpec.v
theories/ReaderProofs.v
theories/PropsReader.v
theories/OwnModel.v
theories/OwnSpec.v
theories/OwnProofs.v
theories/HevtModel.v
theories/HevtSpec.v
theories/HevtProofs.v
theories/PropsHevt.v
theories/HepUpdModel.v
theories/HepUpdSpec.v
theories/HepUpdProofs.v
theories/PropsHepUpd.v
theories/ProcModel.v
theories/ProcSpec.v
theories/ProcProofs.v
theories/PropsProc.v
theories/ConfModel.v
theories/ConfSpec.v
theories/ConfProofs.v
theories/PropsConf.v
theories/FixModel.v
theories/FixProofs.v
theories/PropsFix.v
theories/InputStream.v
theories/InputIndex.v
theories/InputDirect.v
theories/PropsDirect.v
theories/ViewModel.v
theories/ViewSpec.v
theories/ViewProofs.v
theories/ViewFixed.v
theories/PropsView.v
theories/SchedModel.v
theories/SchedSpec.v
theories/SchedProofs.v
theories/PropsSched.v
theories/CheckModel.v
theories/CheckSpec.v
theories/CheckProofs.v
theories/PropsCheck.v
theories/DumpModel.v
theories/DumpSpec.v
theories/DumpProofs.v
theories/PropsDump.v
theories/FortModel.v
theories/FortSpec.v
theories/FortProofs.v
theories/PropsFort.v
theories/WarnModel.v
theories/WarnSpec.v
theories/WarnProofs.v
theories/PropsWarn.v
theories/TypeModel.v
theories/TypeSpec.v
theories/TypeProofs.v
theories/PropsType.v
theories/F77Model.v
theories/F77Spec.v
theories/F77Proofs.v
theories/PropsF77.v
theories/AttrModel.v
theories/AttrSpec.v
theories/AttrProofs.v
theories/AttrRuns.v
theories/PropsAttr.v
theories/DerivModel.v
theories/DerivSpec.v
theories/DerivProofs.v
theories/PropsDeriv.v
theories/EvAttrModel.v
theories/EvAttrSpec.v
theories/EvAttrProofs.v
theories/PropsEvAttr.v
theories/WrapModel.v
theories/WrapSpec.v
theories/WrapProofs.v
theories/PropsWrap.v
theories/OwnReadSpec.v
theories/OwnReadProofs.v
theories/PropsOwn.v
theories/WriterModel.v
theories/WriterSpec.v
theories/WriterProofs.v
theories/WriterRun.v
theories/WriterExamples.v
theories/PropsWriter.v
theories/LayoutSpec.v
theories/LayoutProofs.v
theories/LayoutFile.v
theories/PropsLayout.v
theories/CompatSpec.v
theories/CompatProofs.v
theories/CompatObjs.v
theories/CompatColl.v
theories/CompatFile.v
theories/PropsCompat.v
theories/FevtModel.v
theories/FevtSpec.v
theories/FevtProofs.v
theories/PropsFevt.v
theories/StdJobModel.v
theories/StdJobSpec.v
theories/StdJobProofs.v
theories/PropsStdJob.v
theories/StdCountModel.v
theories/PropsStdCount.v
theories/MtModel.v
theories/MtSpec.v
theories/MtProofs.v
theories/PropsMt.v
theories/ShowModel.v
theories/ShowSpec.v
theories/ShowProofs.v
theories/PropsShow.v
theories/AnaModel.v
theories/AnaSpec.v
theories/AnaProofs.v
theories/PropsAna.v
theories/ParModel.v
theories/ParSpec.v
theories/ParProofs.v
theories/PropsPar.v
theories/McOutModel.v
theories/McOutSpec.v
theories/McOutProofs.v
theories/PropsMcOut.v
theories/TreeOutModel.v
theories/TreeOutSpec.v
theories/TreeOutProofs.v
theories/PropsTreeOut.v
theories/PropsOwnPar.v
theories/PropsFileName.v
theories/PropsForce.v
theories/CalModel.v
theories/CalSpec.v
theories/CalProofs.v
theories/PropsCal.v
theories/McSumModel.v
theories/McSumSpec.v
theories/McSumProofs.v
theories/PropsMcSum.v
theories/PropsFileRec.v
