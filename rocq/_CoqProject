-Q theories Verif
theories/Base.v
theories/Stream.v
theories/Dtype.v
theories/Values.v
theories/Header.v
theories/Tensor.v
theories/Npy.v
theories/Crc.v
theories/Npz.v
theories/AssetData.v
theories/Assets.v
theories/BaseFacts.v
theories/Spec.v
theories/ZipSpec.v
theories/ValuesFacts.v
theories/PropValues.v
theories/HeaderFacts.v
theories/ParseFacts.v
theories/ParserInv.v
theories/ParserRel.v
theories/NpyFacts.v
theories/PropHeader.v
theories/TensorFacts.v
theories/PropTensor.v
theories/SaveFacts.v
theories/PropNpy.v
theories/TensorVars.v
theories/PropVars.v
theories/CutFacts.v
theories/PropCut.v
theories/Files.v
theories/PropFiles.v
theories/PropForeign.v
theories/PropCrc.v
theories/NpzFacts.v
theories/ArchiveFacts.v
theories/PropNpz.v
theories/ForeignZip.v
theories/PropZip.v
theories/PropAny.v
theories/Race.v
theories/PropRace.v
theories/Threads.v
theories/PropThreads.v
theories/Arr.v
theories/DeflateSpec.v
theories/Tinfl.v
theories/Tdefl.v
theories/TdeflAsserts.v
theories/AssetsZip.v
theories/BitFacts.v
theories/HuffCost.v
theories/HuffFacts.v
theories/HuffBuild.v
theories/InflCopy.v
theories/InflBits.v
theories/InflRun.v
theories/InflBlocks.v
theories/InflTop.v
theories/PropDeflate.v
theories/MinRed.v
theories/DeflHuff.v
theories/DeflCost.v
theories/DeflBits.v
theories/DeflLz.v
theories/DeflLz2.v
theories/DeflLz3.v
theories/DeflRle.v
theories/DeflHead.v
theories/DeflBlock.v
theories/DeflWindow.v
theories/DeflTop.v
theories/PropCompress.v
theories/PropOthers.v
theories/PropBig.v
theories/PropBuilds.v
theories/PropTrunc.v
theories/DeflateFaults.v
theories/InflFault.v
theories/InflFault2.v
theories/InflFault3.v
theories/InflFault4.v
theories/DeflateDecide.v
theories/DeflateUnique.v
theories/PropFault.v
theories/Custom.v
theories/PropCustom.v
theories/Checked.v
theories/InflSafe.v
theories/InflEndless.v
theories/PropSafe.v
theories/ZipFiles.v
theories/PropDisk.v
theories/Raw.v
theories/PropRaw.v
theories/LenientSpec.v
theories/LenientFacts.v
theories/LenientText.v
theories/PropLenient.v
theories/StrictSpec.v
theories/StrictFacts.v
theories/StrictText.v
theories/PropStrict.v
theories/BigHost.v
theories/PropHost.v
theories/DeflAsserts.v
theories/PropAsserts.v
theories/PropSize.v
theories/Views.v
theories/PropViews.v
theories/MemberSpec.v
theories/PropMember.v
theories/Twin.v
theories/PropSame.v
theories/Program.v
theories/ProgramSpec.v
theories/ProgFacts.v
theories/ProgArch.v
theories/ProgServe.v
theories/PropProgram.v
theories/Sessions.v
theories/SessionSpec.v
theories/PropSessions.v
theories/PropKilled.v
theories/Parallel.v
theories/PropParallel.v
theories/SharedArrays.v
theories/PropSharedArrays.v
theories/Locale.v
theories/PropLocale.v
theories/PropLocaleZip.v
theories/Throwing.v
theories/ThrowFacts.v
theories/PropThrowing.v
theories/PropThreadsKilled.v
theories/Sinks.v
theories/PropSinks.v
theories/Sources.v
theories/SourceFacts.v
theories/PropSources.v
