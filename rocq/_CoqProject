-Q theories Verif
theories/Base.v
theories/ListAux.v
theories/RunesModel.v
theories/Utf8Model.v
theories/RunesSpec.v
theories/RunesProofs.v
theories/Utf8Spec.v
theories/Utf8Proofs.v
theories/RunesProps.v
theories/RuneBufModel.v
theories/RuneBufSpec.v
theories/RuneBufProofs.v
theories/RuneBufProps.v
theories/CompleterModel.v
theories/CompleterSpec.v
theories/CompleterProofs.v
theories/CompleterProps.v
theories/HistoryModel.v
theories/HistorySpec.v
theories/HistoryProofs.v
theories/HistoryNavProofs.v
theories/HistoryFileProofs.v
theories/HistFileModel.v
theories/HistFileProofs.v
theories/HistoryProps.v
theories/TerminalModel.v
theories/TerminalSpec.v
theories/TerminalProofs.v
theories/TerminalProps.v
theories/RemoteModel.v
theories/RemoteSpec.v
theories/RemoteProofs.v
theories/RemoteProps.v
theories/TtyModel.v
theories/TtySpec.v
theories/TtyProofs.v
theories/TtyProps.v
theories/AnsiWinModel.v
theories/AnsiWinSpec.v
theories/AnsiWinProofs.v
theories/AnsiWinProps.v
theories/WinReaderModel.v
theories/WinReaderSpec.v
theories/WinReaderProofs.v
theories/WinReaderProps.v
theories/StdinModel.v
theories/StdinSpec.v
theories/StdinProofs.v
theories/StdinProps.v
theories/ScreenModel.v
theories/RenderModel.v
theories/RenderSpec.v
theories/RenderProofs.v
theories/RenderDraw.v
theories/RenderSession.v
theories/RenderMore.v
theories/RenderProps.v
theories/OpModel.v
theories/OpSpec.v
theories/OpProofs.v
theories/OpStep.v
theories/OpKeys.v
theories/OpModes.v
theories/OpHist.v
theories/SessionModel.v
theories/SessionProofs.v
theories/SessionClose.v
theories/SessionMore.v
theories/OpProps.v
theories/OpTableSpec.v
theories/OpTable.v
theories/OpTableProps.v
theories/MenuSpec.v
theories/MenuProofs.v
theories/MenuMore.v
theories/MenuStep.v
theories/MenuProps.v
theories/SessionProps.v
theories/LifeModel.v
theories/LifeSpec.v
theories/LifeProofs.v
theories/LifeProps.v
theories/RemoteConc.v
theories/RemoteConcSpec.v
theories/RemoteConcProofs.v
theories/RemoteConcProps.v
theories/StdinConc.v
theories/StdinConcProofs.v
theories/StdinConcProps.v
theories/HeapModel.v
theories/HeapSpec.v
theories/HeapProofs.v
theories/HeapUse.v
theories/HeapProps.v
theories/OpAliasModel.v
theories/OpAliasSpec.v
theories/OpAliasProofs.v
theories/OpAliasHist.v
theories/OpAliasRun.v
theories/OpAliasSafe.v
theories/OpAliasProps.v
theories/HistOffSpec.v
theories/OpHistOff.v
theories/HistOffProps.v
theories/SearchSpec.v
theories/SearchProofs.v
theories/SearchProps.v
theories/WinTtyModel.v
theories/WinTtyProofs.v
theories/WinTtyProps.v
theories/WinConModel.v
theories/WinConSpec.v
theories/WinConProps.v
theories/OpHistFresh.v
theories/StdModel.v
theories/StdSpec.v
theories/StdProofs.v
theories/StdProps.v
theories/DefaultModel.v
theories/DefaultSpec.v
theories/DefaultProofs.v
theories/DefaultProps.v
theories/LoopModel.v
theories/LoopSpec.v
theories/LoopProps.v
theories/CliModel.v
theories/CliSpec.v
theories/CliProofs.v
theories/CliProps.v
theories/WidthModel.v
theories/WidthSpec.v
theories/WidthProps.v
theories/PaintModel.v
theories/PaintSpec.v
theories/PaintProps.v
theories/TreeModel.v
theories/TreeSpec.v
theories/TreeProps.v
theories/SuspendModel.v
theories/SuspendSpec.v
theories/SuspendProps.v
theories/PathModel.v
theories/PathProps.v
theories/BgModel.v
theories/BgProps.v
theories/FilterSpec.v
theories/FilterProps.v
theories/ListenSpec.v
theories/ListenProofs.v
theories/ListenProps.v
theories/ClearModel.v
theories/ClearSpec.v
theories/ClearProps.v
theories/ShareModel.v
theories/ShareSpec.v
theories/ShareProps.v
theories/VimHookProps.v
theories/OffsetModel.v
theories/OffsetSpec.v
theories/OffsetProps.v
theories/LockModel.v
theories/LockSpec.v
theories/LockProofs.v
theories/LockProps.v
theories/WideSpec.v
theories/WideProps.v
theories/TightProps.v
theories/FillModel.v
theories/FillSpec.v
theories/FillProps.v
theories/AppendSpec.v
theories/AppendProofs.v
theories/AppendProps.v
theories/CfgModel.v
theories/CfgSpec.v
theories/CfgProofs.v
theories/CfgProps.v
theories/TightConcProps.v
theories/OutModel.v
theories/OutSpec.v
theories/OutProofs.v
theories/OutProps.v
theories/SeekModel.v
theories/SeekSpec.v
theories/SeekProofs.v
theories/SeekProps.v
theories/CompModel.v
theories/CompSpec.v
theories/CompDraw.v
theories/CompProofs.v
theories/CompProps.v
theories/HideSpec.v
theories/HideProofs.v
theories/HideProps.v
theories/PipeModel.v
theories/PipeSpec.v
theories/PipeProofs.v
theories/PipeProps.v
theories/VimSess.v
theories/VimSessProps.v
theories/ViewModel.v
theories/ViewSpec.v
theories/ViewProofs.v
theories/ViewProps.v
theories/RaceModel.v
theories/RaceSpec.v
theories/RaceProofs.v
theories/RaceProps.v
theories/SightSpec.v
theories/SightProofs.v
theories/SightProps.v
theories/BroadSpec.v
theories/BroadProofs.v
theories/BroadProps.v
theories/SwapModel.v
theories/SwapSpec.v
theories/SwapProofs.v
theories/SwapProps.v
theories/VeilSpec.v
theories/VeilProofs.v
theories/VeilProps.v
theories/MixModel.v
theories/MixSpec.v
theories/MixProofs.v
theories/MixProps.v
theories/PassSpec.v
theories/PassProofs.v
theories/PassSearch.v
theories/PassProps.v
theories/OffSpec.v
theories/OffProofs.v
theories/OffProps.v
theories/BoundProps.v
theories/ForgetProps.v
