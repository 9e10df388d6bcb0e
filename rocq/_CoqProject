-Q theories Verif
theories/Str.v
theories/PathModel.v
theories/PathSpec.v
theories/PathProofs.v
theories/PathProofs2.v
theories/FsModel.v
theories/OpsModel.v
theories/IoModel.v
theories/SysModel.v
theories/PropPath.v
theories/FsSpec.v
theories/ResProofs.v
theories/ResProofs2.v
theories/ExtProofs.v
theories/Wp.v
theories/GraphInv.v
theories/GraphOps.v
theories/GraphOps2.v
theories/GraphOps3.v
theories/GraphOps4.v
theories/GraphRename.v
theories/GraphIo.v
theories/LookupProofs.v
theories/ParentInv.v
theories/ResThm.v
theories/PropRes.v
theories/TreeThm.v
theories/PropTree.v
theories/ResThm2.v
theories/OpsThm.v
theories/OpsThm2.v
theories/OpsThm3.v
theories/OpsThm4.v
theories/OpsThm5.v
theories/Frame.v
theories/IoFrame.v
theories/OpsThm6.v
theories/PropOps.v
theories/LookEq.v
theories/Gen.v
theories/Limits.v
theories/AttrThm.v
theories/CwdThm.v
theories/PropAttr.v
theories/FdThm.v
theories/IoThm.v
theories/IoApp.v
theories/OpenThm.v
theories/PropFd.v
theories/IoSess.v
theories/PropIo.v
theories/PropIo2.v
theories/CohThm.v
theories/CohThm2.v
theories/PropIo3.v
theories/StubModel.v
theories/PropStub.v
theories/PatcherModel.v
theories/PropPatch.v
theories/WalkModel.v
theories/WalkSpec.v
theories/WalkThm.v
theories/PropWalk.v
theories/CaseSpec.v
theories/CaseThm.v
theories/PropCase.v
theories/MountThm.v
theories/PropMount.v
theories/UsageSpec.v
theories/UsageThm.v
theories/PropUsage.v
theories/RealpathModel.v
theories/RealSpec.v
theories/RelThm.v
theories/RealThm.v
theories/HonestSpec.v
theories/Honest.v
theories/PropReal.v
theories/HistThm.v
theories/PropHist.v
theories/PathlibModel.v
theories/PathlibSpec.v
theories/PathlibThm.v
theories/ErrThm.v
theories/PropPathlib.v
theories/PropErr.v
theories/WinSpec.v
theories/WinProofs.v
theories/PropWin.v
theories/PropOpen.v
theories/PropRmdirs.v
theories/PropFail.v
theories/PropMake.v
theories/AddRealModel.v
theories/AddRealThm.v
theories/PropAddReal.v
theories/AddRealTree.v
theories/AddRealDir.v
theories/PropAddReal2.v
theories/StatModel.v
theories/FloatThm.v
theories/PropStat.v
theories/TextModel.v
theories/TextThm.v
theories/PropText.v
theories/LazyModel.v
theories/LazyThm.v
theories/PropLazy.v
theories/LineModel.v
theories/LineThm.v
theories/PropLine.v
theories/PropSend.v
theories/DirFdModel.v
theories/PropDirFd.v
theories/PathlibTextModel.v
theories/PropText2.v
theories/WalkGenModel.v
theories/PropWalkGen.v
theories/RmtreeModel.v
theories/PropRmtree.v
theories/PropRmtree2.v
theories/FsExtraModel.v
theories/PropGet.v
theories/MkdirModel.v
theories/PropMkdir.v
theories/PropMkdir2.v
theories/CopyModel.v
theories/PropCopy.v
