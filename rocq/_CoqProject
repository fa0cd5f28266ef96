-Q theories Verif
theories/Base.v
theories/ArrayModel.v
theories/ArraySpec.v
theories/ArrayProofs.v
theories/ArrayProps.v
theories/HeapModel.v
theories/HeapSpec.v
theories/HeapProofs.v
theories/HeapProps.v
theories/QueueModel.v
theories/QueueSpec.v
theories/QueueProofs.v
theories/QueueProps.v
theories/ListModel.v
theories/ListSpec.v
theories/ListProofs.v
theories/ListProps.v
theories/Bits.v
theories/MapModel.v
theories/MapSpec.v
theories/MapProofs.v
theories/MapProps.v
theories/MemModel.v
theories/MemSpec.v
theories/MemProofs.v
theories/MemProofs2.v
theories/MemProofs3.v
theories/MemProps.v
theories/BufModel.v
theories/BufSpec.v
theories/BufProofs.v
theories/BufProps.v
theories/Num.v
theories/TimerModel.v
theories/TimerSpec.v
theories/TimerProofs.v
theories/TimerProps.v
theories/CStr.v
theories/StrModel.v
theories/StrSpec.v
theories/StrProofs.v
theories/StrProps.v
theories/CrcModel.v
theories/CrcSpec.v
theories/CrcProofs.v
theories/CrcErrProofs.v
theories/CrcProps.v
theories/CNum.v
theories/ScModel.v
theories/ScSpec.v
theories/ScProofs.v
theories/ScProps.v
theories/IniModel.v
theories/IniSpec.v
theories/IniProofs.v
theories/IniDocProofs.v
theories/IniProps.v
theories/OptModel.v
theories/OptSpec.v
theories/OptProofs.v
theories/OptProps.v
theories/UriModel.v
theories/UriSpec.v
theories/UriProofs.v
theories/UriProps.v
theories/SigModel.v
theories/SigSpec.v
theories/SigProofs.v
theories/SigProps.v
theories/CondModel.v
theories/CondSpec.v
theories/CondProofs.v
theories/CondProps.v
theories/TimeModel.v
theories/TimeProps.v
theories/ThrModel.v
theories/ThrProps.v
theories/MmapModel.v
theories/MmapProps.v
theories/LogModel.v
theories/LogSpec.v
theories/LogProofs.v
theories/LogProps.v
theories/LogConcModel.v
theories/LogConcSpec.v
theories/LogConcProofs.v
theories/LogConcInv.v
theories/LogConcProps.v
theories/SockModel.v
theories/SockSpec.v
theories/SockProofs.v
theories/SockProps.v
theories/PollModel.v
theories/PollProps.v
theories/AddrModel.v
theories/AddrProps.v
theories/FatalModel.v
theories/FatalProps.v
theories/SigConcModel.v
theories/SigConcProps.v
theories/PerfModel.v
theories/PerfProps.v
theories/WinModel.v
theories/WinSpec.v
theories/WinProofs.v
theories/WinRun.v
theories/WinEdge.v
theories/WinMem.v
theories/WinProps.v
theories/WthrModel.v
theories/WthrProps.v
theories/WmapModel.v
theories/WmapProps.v
theories/WsigModel.v
theories/WsigProps.v
theories/WtimeModel.v
theories/WtimeProps.v
theories/MutexModel.v
theories/MutexProps.v
theories/WsockModel.v
theories/WsockProps.v
theories/MapLoopModel.v
theories/MapLoopProps.v
theories/SeqLoopModel.v
theories/SeqLoopProps.v
theories/StrSelfModel.v
theories/StrSelfProps.v
theories/LogCbModel.v
theories/LogCbProps.v
theories/PollErrModel.v
theories/PollErrProps.v
theories/WcondModel.v
theories/WcondProps.v
theories/ListLoopModel.v
theories/ListLoopProps.v
theories/StrKeyModel.v
theories/StrKeyProps.v
theories/CostModel.v
theories/CostProps.v
theories/MapLoadProps.v
theories/SortModel.v
theories/SortProps.v
theories/ArgModel.v
theories/ArgProps.v
theories/SizeModel.v
theories/SizeProps.v
theories/SockRunModel.v
theories/SockRunProps.v
theories/ListRingModel.v
theories/ListRingProps.v
theories/TokModel.v
theories/TokProps.v
theories/CrcZeroModel.v
theories/CrcZeroProps.v
theories/CrashModel.v
theories/CrashProps.v
theories/TimerNestModel.v
theories/TimerNestProps.v
theories/PollManyModel.v
theories/PollManyProps.v
theories/PollBatchModel.v
theories/PollBatchProps.v
theories/WtimeRaceModel.v
theories/WtimeRaceProps.v
theories/SockErrProps.v
theories/KqManyModel.v
theories/KqManyProps.v
theories/WinDataSpec.v
theories/WinDataProofs.v
theories/WinDataProps.v
theories/MacMapModel.v
theories/MacMapProps.v
theories/WinFullProps.v
theories/TimerHandSpec.v
theories/TimerHandProofs.v
theories/TimerHandProps.v
theories/PerfDoubleModel.v
theories/PerfDoubleProps.v
theories/CondFairSpec.v
theories/CondFairProofs.v
theories/CondFairProps.v
theories/LogFairSpec.v
theories/LogFairProofs.v
theories/LogFairProps.v
theories/SockFallProps.v
theories/WaddrModel.v
theories/WaddrProps.v
theories/Wmap32Model.v
theories/Wmap32Props.v
theories/Time32Model.v
theories/Time32Props.v
theories/PerfTextModel.v
theories/PerfTextProps.v
theories/LogTermProps.v
