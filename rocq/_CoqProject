-Q theories Verif
theories/Base.v
theories/LayoutModel.v
theories/LayoutSpec.v
theories/LayoutProofs.v
theories/LayoutOk.v
theories/LayoutCases.v
theories/PropLayout.v
theories/LayoutInt.v
theories/LayoutIntOk.v
theories/PropLayoutInt.v
theories/SetModel.v
theories/SetSpec.v
theories/SetProofs.v
theories/PropSet.v
theories/MapModel.v
theories/MapSpec.v
theories/MapProofs.v
theories/MapNN.v
theories/PropMap.v
theories/EvalModel.v
theories/EvalSpec.v
theories/EvalProofs.v
theories/RingProofs.v
theories/PropEval.v
theories/RngModel.v
theories/RngSpec.v
theories/RngProofs.v
theories/RngDraw.v
theories/RngOrder.v
theories/RngFloat.v
theories/RngNyu.v
theories/PropRng.v
theories/CrcModel.v
theories/CrcSpec.v
theories/CrcProofs.v
theories/CrcOrder.v
theories/SwapProofs.v
theories/IoModel.v
theories/IoSpec.v
theories/IoProofs.v
theories/PropIo.v
theories/LatIoModel.v
theories/LatIoSpec.v
theories/LatIoProofs.v
theories/LatIoOk.v
theories/PropLatIo.v
theories/MapObjModel.v
theories/MapObjSpec.v
theories/MapObjProofs.v
theories/MapDiskProofs.v
theories/MapDiskOk.v
theories/MapDiskRun.v
theories/MapDiskMore.v
theories/MapDiskBad.v
theories/PropMapObj.v
theories/MultiModel.v
theories/MultiSpec.v
theories/MultiProofs.v
theories/MultiOk.v
theories/MultiMore.v
theories/PropMulti.v
theories/AllocModel.v
theories/AllocSpec.v
theories/AllocProofs.v
theories/PropAlloc.v
theories/GammaModel.v
theories/GammaSpec.v
theories/GammaProofs.v
theories/GammaAlgebra.v
theories/SpinProofs.v
theories/PropGamma.v
theories/ColorModel.v
theories/ColorSpec.v
theories/ColorProofs.v
theories/PropColor.v
theories/ComplexModel.v
theories/PropComplex.v
theories/TensorModel.v
theories/TensorSpec.v
theories/TensorProofs.v
theories/TensorLaws.v
theories/TensorTrace.v
theories/TensorPartial.v
theories/PropTensor.v
theories/ExprModel.v
theories/ExprSpec.v
theories/ExprProofs.v
theories/PropExpr.v
theories/ClassModel.v
theories/PropClass.v
theories/KernLang.v
theories/KernBlas.v
theories/KernG5.v
theories/KernSpin.v
theories/KernSym.v
theories/KernSound.v
theories/KernSpec.v
theories/KernRun.v
theories/KernVec.v
theories/KernSums.v
theories/KernNorm.v
theories/KernHalf.v
theories/KernBound.v
theories/PropKern.v
theories/KernSu3.v
theories/KernLine.v
theories/KernSu3Spec.v
theories/KernSu3Ok.v
theories/PropSu3.v
theories/FuseModel.v
theories/FuseTable.v
theories/FuseSpec.v
theories/FuseSite.v
theories/FuseEntries.v
theories/FuseProofs.v
theories/HalfModel.v
theories/HalfProofs.v
theories/PropFuse.v
theories/NormModel.v
theories/NormSpec.v
theories/NormProofs.v
theories/PropNorm.v
theories/NerscModel.v
theories/NerscSpec.v
theories/NerscProofs.v
theories/NerscAlgebra.v
theories/NerscHeader.v
theories/NerscHeaderSpec.v
theories/NerscText.v
theories/NerscHeaderOk.v
theories/NerscArchive.v
theories/NerscItems.v
theories/NerscForeign.v
theories/PropNersc.v
theories/SubModel.v
theories/SubSpec.v
theories/SubProofs.v
theories/SubSim.v
theories/SubStep.v
theories/SubAssign.v
theories/PropSub.v
theories/IoNodeModel.v
theories/IoNodeSpec.v
theories/IoNodeProofs.v
theories/PropIoNode.v
theories/QioModel.v
theories/QioSpec.v
theories/QioProofs.v
theories/QioMore.v
theories/PropQio.v
theories/Hdf5Model.v
theories/Hdf5Spec.v
theories/Hdf5Proofs.v
theories/Hdf5Blocks.v
theories/Hdf5Xfer.v
theories/Hdf5Read.v
theories/Hdf5Ok.v
theories/Hdf5Bad.v
theories/PropHdf5.v
theories/PropHdf5Bad.v
theories/H5DirModel.v
theories/H5DirSpec.v
theories/H5DirProofs.v
theories/H5DirOps.v
theories/H5DirFrame.v
theories/H5DirVals.v
theories/PropH5Dir.v
theories/PropH5DirBad.v
theories/XmlModel.v
theories/XmlSpec.v
theories/XmlProofs.v
theories/XmlRound.v
theories/XmlOne.v
theories/XmlMaps.v
theories/PropXml.v
theories/XmlNodesModel.v
theories/XmlNodesProofs.v
theories/PropXmlNodes.v
theories/StartModel.v
theories/StartSpec.v
theories/StartProofs.v
theories/PropStart.v
theories/RealTextModel.v
theories/RealTextSpec.v
theories/RealTextProofs.v
theories/RealTextMain.v
theories/PropRealText.v
theories/ArrWriteModel.v
theories/ArrWriteSpec.v
theories/ArrWriteProofs.v
theories/PropArrWrite.v
theories/TextModel.v
theories/TextSpec.v
theories/TextProofs.v
theories/PropText.v
theories/StaticModel.v
theories/StaticSpec.v
theories/StaticProofs.v
theories/PropStatic.v
theories/TimerModel.v
theories/TimerSpec.v
theories/TimerProofs.v
theories/PropTimer.v
theories/OperModel.v
theories/OperSpec.v
theories/OperProofs.v
theories/PropOper.v
theories/WrapModel.v
theories/WrapSpec.v
theories/WrapProofs.v
theories/PropWrap.v
theories/DbModel.v
theories/DbSpec.v
theories/DbProofs.v
theories/PropDb.v
theories/H5FileModel.v
theories/H5FileSpec.v
theories/H5FileProofs.v
theories/PropH5File.v
theories/DamageSpec.v
theories/DamageProofs.v
theories/PropDamage.v
theories/SseMachine.v
theories/SseKernels.v
theories/SseSpec.v
theories/SseProofs.v
theories/SseEval.v
theories/SseMatrix.v
theories/SseFields.v
theories/SseElem.v
theories/SseCopy.v
theories/PropSse.v
theories/SseBlasSpec.v
theories/SseBlas.v
theories/SseBlasProofs.v
theories/SseBlasSums.v
theories/SseBlasReduce.v
theories/PropSseBlas.v
theories/QioFileSpec.v
theories/QioFileModel.v
theories/QioFileProofs.v
theories/QioFileLost.v
theories/PropQioFile.v
theories/Sse4Machine.v
theories/Sse4Kernels.v
theories/Sse4Eval.v
theories/Sse4Proofs.v
theories/Sse4Statements.v
theories/Sse4Fields.v
theories/Sse4Copy.v
theories/Sse4Sums.v
theories/Sse4Reduce.v
theories/PropSse4.v
theories/SseSpinMachine.v
theories/SseSpinKernels.v
theories/SseSpinSpec.v
theories/SseSpinWindow.v
theories/SseSpinCases.v
theories/SseSpinProofs.v
theories/SseSpinFields.v
theories/PropSseSpin.v
theories/SingletonModel.v
theories/SingletonSpec.v
theories/SingletonProofs.v
theories/SingletonExit.v
theories/PropSingleton.v
theories/LatXmlModel.v
theories/LatXmlSpec.v
theories/LatXmlProofs.v
theories/PropLatXml.v
theories/PlaqModel.v
theories/PlaqSpec.v
theories/PlaqProofs.v
theories/PropPlaq.v
theories/PlaqArchive.v
theories/PropPlaqArchive.v
theories/PropPlaqUnit.v
