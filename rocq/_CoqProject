-Q theories Verif
theories/Base.v
theories/FloatFacts.v
theories/SampleConv.v
theories/SampleConvSpec.v
theories/SampleConvProofs.v
theories/PosFacts.v
theories/Types.v
theories/Common.v
theories/Zoh.v
theories/Linear.v
theories/Sinc.v
theories/SincCopies.v
theories/SincCopiesEq.v
theories/Api.v
theories/Heap.v
theories/Callback.v
theories/HoldSpec.v
theories/HoldFacts.v
theories/HoldRamp.v
theories/HoldCore.v
theories/ZohProofs.v
theories/LinearProofs.v
theories/HoldCall.v
theories/ApiHist.v
theories/HoldProcess.v
theories/ProcFacts.v
theories/LinAny.v
theories/HoldStream.v
theories/HoldValue.v
theories/HoldMain.v
theories/HoldHuge.v
theories/HoldThms.v
theories/HoldCases.v
theories/RunCases.v
theories/Properties_Conv.v
theories/Properties_Hold.v
theories/ErrFacts.v
theories/ApiSpec.v
theories/ApiFacts.v
theories/ApiThms.v
theories/LifeSpec.v
theories/HeapFacts.v
theories/LifeFacts.v
theories/LocalFacts.v
theories/LifeThms.v
theories/ApiCases.v
theories/LifeCases.v
theories/Properties_Api.v
theories/Properties_Life.v
theories/SincSpec.v
theories/SincFacts.v
theories/SincCalc.v
theories/SincPrep.v
theories/SincLoop.v
theories/SincProcess.v
theories/SincCall.v
theories/SincApi.v
theories/SincHist.v
theories/SincStream.v
theories/SincMain.v
theories/SincAlike.v
theories/SincPair.v
theories/SincLen.v
theories/SincFastTable.v
theories/SincMidTable.v
theories/SincTables.v
theories/SincThms.v
theories/SincCases.v
theories/SincRuns.v
theories/SincSame.v
theories/Properties_Sinc.v
theories/NegFacts.v
theories/SymThms.v
theories/Properties_Sym.v
theories/DataSpec.v
theories/DataFacts.v
theories/DataCases.v
theories/Properties_Data.v
theories/CbSpec.v
theories/CbCore.v
theories/CbHold.v
theories/CbSinc.v
theories/CbThms.v
theories/CbCases.v
theories/CbReadSpec.v
theories/CbTwin.v
theories/CbStream.v
theories/CbReadThms.v
theories/CbReadCases.v
theories/Properties_Callback.v
theories/GainGrid.v
theories/GainCheck.v
theories/GainUnits.v
theories/GainFastInts.v
theories/GainMidInts.v
theories/GainFast.v
theories/GainMid1.v
theories/GainMid2.v
theories/GainMid3.v
theories/GainMid4.v
theories/GainFloat.v
theories/GainWeights.v
theories/GainBound.v
theories/GainQuad.v
theories/GainMain.v
theories/GainStream.v
theories/GainTables.v
theories/GainThms.v
theories/GainCases.v
theories/Properties_Gain.v
theories/AccSpec.v
theories/AccFacts.v
theories/AccThms.v
theories/AccCases.v
theories/Properties_Acc.v
theories/KernSpec.v
theories/KernFacts.v
theories/KernMain.v
theories/KernThms.v
theories/KernTables.v
theories/KernCases.v
theories/Properties_Kern.v
theories/LocSpec.v
theories/LocThms.v
theories/LocCases.v
theories/Properties_Loc.v
theories/VarSpec.v
theories/VarThms.v
theories/VarCases.v
theories/VarEndSpec.v
theories/VarEnd.v
theories/VarEndCases.v
theories/Properties_Var.v
theories/Timewarp.v
theories/WarpSpec.v
theories/WarpThms.v
theories/WarpCases.v
theories/Properties_Warp.v
theories/LinMapped.v
theories/CbFeedSpec.v
theories/CbFeed.v
theories/CbFeedCases.v
theories/Properties_Feed.v
theories/Varispeed.v
theories/VariSpec.v
theories/VariIn.v
theories/VariSpeed.v
theories/VariThms.v
theories/VariCases.v
theories/Properties_Vari.v
theories/LinRoomSpec.v
theories/LinRoom.v
theories/Properties_LinRoom.v
theories/SincReadsSpec.v
theories/SincReads.v
theories/Properties_SincReads.v
theories/ToneSpec.v
theories/ToneTrig.v
theories/ToneCheck.v
theories/ToneSound.v
theories/ToneTable.v
theories/ToneSums.v
theories/ToneCells.v
theories/ToneFast.v
theories/ToneMain.v
theories/ToneThms.v
theories/ToneCases.v
theories/Properties_Tone.v
theories/CbFailSpec.v
theories/CbFail.v
theories/Properties_Fail.v
theories/StreamTest.v
theories/StreamTestSpec.v
theories/StreamTestThms.v
theories/StreamFunc.v
theories/StreamTestCases.v
theories/Properties_Stream.v
theories/TermTest.v
theories/TermTestThms.v
theories/TermFunc.v
theories/TermTestCases.v
theories/Properties_Term.v
theories/HoldLength.v
theories/Properties_Length.v
