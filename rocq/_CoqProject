-Q theories Verif

theories/Base.v
theories/BaseFacts.v
theories/Dtype.v
theories/Cast.v
theories/Array.v
theories/FS.v
theories/Fmt.v
theories/Attr.v
theories/Block.v
theories/File.v
theories/Record.v
theories/Pack.v
theories/Par.v
theories/MpiSpec.v
theories/Mpi.v
theories/Spec.v
theories/SeekFacts.v
theories/FSFacts.v
theories/ArrayFacts.v
theories/ConvFacts.v
theories/WriteFacts.v
theories/ReadFacts.v
theories/TableFacts.v
theories/IOFacts.v
theories/HeaderFacts.v
theories/DtypeFacts.v
theories/AttrSpec.v
theories/AttrFacts.v
theories/TextFacts.v
theories/OpenSpec.v
theories/OpenFacts.v
theories/ReopenFacts.v
theories/SessSpec.v
theories/SessFacts.v
theories/AttrFileSpec.v
theories/AttrFileFacts.v
theories/CastSpec.v
theories/CastFacts.v
theories/Split.v
theories/MiscFacts.v
theories/HistSpec.v
theories/HistFacts.v
theories/FrameFacts.v
theories/FileSpec.v
theories/FileFacts.v
theories/ListFacts.v
theories/RecSpec.v
theories/PackSpec.v
theories/RecFacts.v
theories/RecIOFacts.v
theories/RecNewFacts.v
theories/PackFacts.v
theories/ParFacts.v
theories/SyncFacts.v
theories/VecFacts.v
theories/CollFacts.v
theories/SegFacts.v
theories/StepFacts.v
theories/AggFacts.v
theories/LoopFacts.v
theories/ThrFacts.v
theories/LeadFacts.v
theories/CallFacts.v
theories/KeepFacts.v
theories/ExecFacts.v
theories/MpiFacts.v
theories/AgreeFacts.v
theories/HandleFacts.v
theories/CHistSpec.v
theories/CHistFacts.v
theories/PropsHandle.v
theories/Ex.v
theories/PropsIO.v
theories/PropsHeader.v
theories/PropsAttr.v
theories/PropsHist.v
theories/PropsCast.v
theories/PropsFile.v
theories/PropsMpi.v
theories/PropsColl.v
theories/Py.v
theories/PySpec.v
theories/PyFacts.v
theories/PyNewFacts.v
theories/PropsPy.v
theories/PropsName.v
theories/Errmsg.v
theories/ErrFacts.v
theories/PropsErr.v
theories/Util.v
theories/UtilSpec.v
theories/UtilFacts.v
theories/CopyFacts.v
theories/PropsUtil.v
theories/Tools.v
theories/Repart.v
theories/RepartSpec.v
theories/RepartFacts.v
theories/RepartRunFacts.v
theories/PropsRepart.v
theories/Share.v
theories/ShareSpec.v
theories/ShareFacts.v
theories/PropsShare.v
theories/MpiPy.v
theories/MpiPyFacts.v
theories/PropsMpiPy.v
theories/PyAttr.v
theories/PyAttrSpec.v
theories/PyAttrFacts.v
theories/PropsPyAttr.v
theories/PyData.v
theories/PyDataSpec.v
theories/PyDataFacts.v
theories/PropsPyData.v
theories/Pickle.v
theories/PickleSpec.v
theories/PickleFacts.v
theories/PropsPickle.v
theories/PyFile.v
theories/PyFileSpec.v
theories/PyFileFacts.v
theories/PropsPyFile.v
theories/Show.v
theories/ShowSpec.v
theories/ShowFacts.v
theories/PropsShow.v
theories/ToolsSpec.v
theories/ToolsFacts.v
theories/PropsTools.v
theories/CopyMpi.v
theories/CopyMpiFacts.v
theories/PropsCopyMpi.v
theories/Alltoall.v
theories/AlltoallFacts.v
theories/PropsAlltoall.v
theories/MpiSess.v
theories/MpiSessSpec.v
theories/MpiSessFacts.v
theories/PropsMpiSess.v
theories/PyRead.v
theories/PyReadSpec.v
theories/PyReadFacts.v
theories/PropsPyRead.v
