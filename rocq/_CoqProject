-Q theories Verif
theories/Bytes.v
theories/Utf8.v
theories/Float64.v
theories/Value.v
theories/CommandId.v
theories/Request.v
theories/ReqContext.v
theories/Response.v
theories/RespContext.v
theories/Metrics.v
theories/Session.v
theories/Prog.v
theories/Commands.v
theories/EngineSpec.v
theories/WireSpec.v
theories/RequestSpec.v
theories/BytesFacts.v
theories/RequestFacts.v
theories/RequestProps.v
theories/P_Request.v
theories/IdSpec.v
theories/IdsFacts.v
theories/P_Ids.v
theories/ParserSpec.v
theories/ReqContextFacts.v
theories/ReqParserProps.v
theories/P_ReqParser.v
theories/ResponseFacts.v
theories/RespContextFacts.v
theories/RespProps.v
theories/RespExact.v
theories/RespLimits.v
theories/P_Response.v
theories/FloatFacts.v
theories/ProgFacts.v
theories/Utf8Spec.v
theories/Utf8Facts.v
theories/CommandFacts.v
theories/HistorySpec.v
theories/SafeFacts.v
theories/EngineFacts.v
theories/EngineProps.v
theories/ReservedSpec.v
theories/ReservedFacts.v
theories/P_Engine.v
theories/HistoryFacts.v
theories/P_History.v
theories/PubSub.v
theories/Timer.v
theories/LibSpec.v
theories/LibFacts.v
theories/SessionExact.v
theories/AddsSpec.v
theories/AddsFacts.v
theories/PubSubFacts.v
theories/TimerFacts.v
theories/P_Lib.v
theories/Concurrent.v
theories/ConcSpec.v
theories/ConcFacts.v
theories/ConcProps.v
theories/ConcExact.v
theories/Scripts.v
theories/LinSpec.v
theories/LinFacts.v
theories/ConcBound.v
theories/ConcTight.v
theories/P_Conc.v
theories/Server.v
theories/ServerSpec.v
theories/ServerFacts.v
theories/ServerProps.v
theories/SegFacts.v
theories/P_Server.v
theories/Client.v
theories/ClientSpec.v
theories/ClientFacts.v
theories/ClientProps.v
theories/ClientRealSpec.v
theories/ClientReal.v
theories/StatsFacts.v
theories/P_Client.v
theories/Cli.v
theories/CliSpec.v
theories/CliFacts.v
theories/CliProps.v
theories/CliMany.v
theories/LossySpec.v
theories/LossyFacts.v
theories/P_Cli.v
theories/FloatSpec.v
theories/FloatRound.v
theories/FloatUnique.v
theories/FloatProps.v
theories/P_Float.v
theories/Futures.v
theories/FutureSpec.v
theories/FutureFacts.v
theories/P_Futures.v
theories/ConcPubSub.v
theories/ConcPubSubSpec.v
theories/ConcPubSubFacts.v
theories/ConcPubSubExact.v
theories/P_ConcPubSub.v
theories/Process.v
theories/ProcessSpec.v
theories/ProcessFacts.v
theories/P_Process.v
theories/Hop.v
theories/HopSpec.v
theories/HopFacts.v
theories/P_Hop.v
theories/Wire.v
theories/System.v
theories/ShareSpec.v
theories/WireFacts.v
theories/P_Wire.v
theories/Locks.v
theories/LockSpec.v
theories/LockFacts.v
theories/P_Locks.v
theories/KeyLinSpec.v
theories/KeyLin.v
theories/KeyLinFacts.v
theories/P_KeyLin.v
theories/LockScripts.v
theories/LockScriptSpec.v
theories/LockScriptFacts.v
theories/P_LockScripts.v
theories/FairSpec.v
theories/ScriptBound.v
theories/WaitFreeSpec.v
theories/WaitFree.v
theories/P_Progress.v
theories/IsoSpec.v
theories/IsoFacts.v
theories/ScriptInv.v
theories/IsoProps.v
theories/P_Iso.v
theories/MemTasks.v
theories/MemTaskSpec.v
theories/MemTaskFacts.v
theories/P_MemTasks.v
theories/BuilderSpec.v
theories/BuilderFacts.v
theories/P_Builder.v
theories/Fluent.v
theories/FluentSpec.v
theories/FluentFacts.v
theories/P_Fluent.v
theories/RespReadSpec.v
theories/RespRead.v
theories/P_RespRead.v
theories/MemAppendSpec.v
theories/MemAppend.v
theories/TextSpec.v
theories/Texts.v
theories/TextFacts.v
theories/P_Texts.v
theories/MemLinSpec.v
theories/MemLin.v
theories/AnyBackend.v
theories/AnySpec.v
theories/AnyFacts.v
theories/P_Any.v
theories/ServerWrites.v
theories/WritesSpec.v
theories/WritesFacts.v
theories/P_Writes.v
theories/DocSpec.v
theories/DocFacts.v
theories/P_Docs.v
theories/SubHandles.v
theories/HandleSpec.v
theories/HandleFacts.v
theories/P_Handles.v
theories/CostSpec.v
theories/CostFacts.v
theories/P_Cost.v
theories/TooManySpec.v
theories/TooManyFacts.v
theories/P_TooMany.v
theories/NotationSpec.v
theories/NotationFacts.v
theories/P_Notation.v
theories/SystemSpec.v
theories/SystemFacts.v
theories/P_System.v
theories/MomentSpec.v
theories/MomentFacts.v
theories/P_Moment.v
theories/OriginSpec.v
theories/OriginFacts.v
theories/MemOriginSpec.v
theories/MemOrigin.v
theories/MemFair.v
theories/P_Origin.v
theories/FloatText.v
theories/FloatTextSpec.v
theories/FloatTextFacts.v
theories/FloatTextRead.v
theories/FloatTextShow.v
theories/FloatTextCli.v
theories/P_FloatText.v
theories/SetRaceSpec.v
theories/SetRaceFacts.v
theories/P_SetRace.v
theories/TakeRaceSpec.v
theories/RaceRule.v
theories/TakeRaceFacts.v
theories/P_TakeRace.v
theories/MemRaceSpec.v
theories/MemRaceFacts.v
theories/P_MemRace.v
theories/ForwardSpec.v
theories/ForwardFacts.v
theories/MemForwardSpec.v
theories/MemForward.v
theories/P_Forward.v
theories/StatsRaceSpec.v
theories/StatsRace.v
theories/MemStatsSpec.v
theories/MemStats.v
theories/P_StatsRace.v
theories/StartRaceSpec.v
theories/StartRace.v
theories/MemStartSpec.v
theories/MemStart.v
theories/P_StartRace.v
theories/OnceSpec.v
theories/OnceFacts.v
theories/MemOnceSpec.v
theories/MemOnce.v
theories/P_Once.v
theories/RespAskSpec.v
theories/RespAsk.v
theories/P_RespAsk.v
theories/SeenSpec.v
theories/SeenFacts.v
theories/P_Seen.v
theories/WroteSpec.v
theories/WroteFacts.v
theories/P_Wrote.v
theories/LedgerSpec.v
theories/LedgerFacts.v
theories/P_Ledger.v
theories/CliTextFacts.v
theories/P_CliText.v
theories/RepoTests.v
theories/TypeKeptSpec.v
theories/TypeKeptFacts.v
theories/P_TypeKept.v
theories/SpareSpec.v
theories/SpareFacts.v
theories/P_Spare.v
theories/LastingSpec.v
theories/LastingFacts.v
theories/P_Lasting.v
theories/MildSpec.v
theories/MildFacts.v
theories/P_Mild.v
theories/AtMostFacts.v
theories/P_AtMost.v
