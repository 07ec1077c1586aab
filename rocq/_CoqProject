-Q theories Verif
theories/Base.v
theories/Regex.v
theories/RegexFacts.v
theories/Unicode.v
theories/UnicodeFacts.v
theories/PathEsc.v
theories/PathEscSpec.v
theories/PathEscFacts.v
theories/PosixPath.v
theories/PosixFacts.v
theories/ProcessPath.v
theories/ProcessPathFacts.v
theories/OptionsM.v
theories/OptionsSpec.v
theories/OptionsFacts.v
theories/MColl.v
theories/MCollSpec.v
theories/MCollFacts.v
theories/DtypeShape.v
theories/Props_Arrays.v
theories/RoundSpec.v
theories/RoundNp.v
theories/RoundHeap.v
theories/RoundWrite.v
theories/RoundVal.v
theories/RoundDict.v
theories/StructBuild.v
theories/RoundStruct.v
theories/RoundAll.v
theories/OverSpec.v
theories/Over.v
theories/OverDict.v
theories/RndFacts.v
theories/RoundApi.v
theories/Props_Path.v
theories/Props_Options.v
theories/Props_Coll.v
theories/Dec.v
theories/NdArray.v
theories/Value.v
theories/StrConv.v
theories/ComplexM.v
theories/Attrs.v
theories/NpDims.v
theories/ConvFacts.v
theories/Hdf5.v
theories/NpWrite.v
theories/NpRead.v
theories/MarshalW.v
theories/MarshalR.v
theories/HeapFacts.v
theories/FrameFacts.v
theories/WriteFrame.v
theories/ReadFacts.v
theories/FileApi.v
theories/ApiFacts.v
theories/CutM.v
theories/CutFrame.v
theories/CutFacts.v
theories/CutEnd.v
theories/CutSpec.v
theories/CutChain.v
theories/ApiSpec.v
theories/HistoryFacts.v
theories/FileFacts.v
theories/Steps.v
theories/StepsCut.v
theories/FilterSpec.v
theories/FilterFacts.v
theories/OpenM.v
theories/OpenSpec.v
theories/OpenFacts.v
theories/Props_Conv.v
theories/Props_File.v
theories/Props_Store.v
theories/Props_Open.v
theories/ProgressSpec.v
theories/Progress.v
theories/ProgressApi.v
theories/OverApi.v
theories/Plan.v
theories/Layout.v
theories/LayoutNp.v
theories/LayoutApi.v
theories/MatlabSpec.v
theories/MatlabFacts.v
theories/MatlabPlan.v
theories/MatlabApi.v
theories/MatlabLater.v
theories/MatReadSpec.v
theories/MatRead.v
theories/MatReadStruct.v
theories/MatBack.v
theories/IncompatSpec.v
theories/Incompat.v
theories/MembersSpec.v
theories/Members.v
theories/Props_Round.v
theories/Props_Struct.v
theories/Props_Matlab.v
theories/Props_MatRead.v
theories/PlainSpec.v
theories/PlainRead.v
theories/PlainPlan.v
theories/PlainApi.v
theories/Props_Plain.v
theories/Props_Reading.v
theories/Props_Module.v
theories/Props_Meta.v
theories/Props_Incompat.v
theories/Props_Members.v
theories/Props_Over.v
theories/ThreadSpec.v
theories/ThreadM.v
theories/ThreadFacts.v
theories/ThreadTake.v
theories/Props_Thread.v
theories/MapM.v
theories/MapSpec.v
theories/MapFacts.v
theories/Props_Map.v
theories/Session.v
theories/SessionSpec.v
theories/SessionFacts.v
theories/Dispatch.v
theories/DispatchSpec.v
theories/DispatchFacts.v
theories/Props_Dispatch.v
theories/Props_Session.v
theories/RefSpec.v
theories/Refs.v
theories/RefRead.v
theories/RefApi.v
theories/Props_Refs.v
theories/Props_Cut.v
theories/Props_Words.v
