-Q theories Verif
theories/Bytes.v
theories/BytesFacts.v
theories/Encoding.v
theories/EncodingFacts.v
theories/FixedModel.v
theories/WireSpec.v
theories/FixedSpec.v
theories/FixedFacts.v
theories/P_Fixed.v
theories/RequestModel.v
theories/RequestSpec.v
theories/RequestFacts.v
theories/P_Request.v
theories/ConnModel.v
theories/ConnSpec.v
theories/ConnFacts.v
theories/ConnSeqFacts.v
theories/P_Conn.v
theories/MuxModel.v
theories/MuxSpec.v
theories/MuxFacts.v
theories/P_Mux.v
theories/ServerModel.v
theories/ServerSpec.v
theories/ServerFacts.v
theories/P_Server.v
theories/RunnerModel.v
theories/RunnerSpec.v
theories/RunnerFacts.v
theories/P_Runner.v
theories/StepFacts.v
theories/MatchModel.v
theories/MatchSpec.v
theories/MatchFacts.v
theories/P_Match.v
theories/ActionModel.v
theories/ActionSpec.v
theories/ActionFacts.v
theories/P_Action.v
theories/InstructionModel.v
theories/InstructionSpec.v
theories/InstructionFacts.v
theories/P_Instruction.v
theories/FlowModel.v
theories/FlowSpec.v
theories/FlowFacts.v
theories/P_Flow.v
theories/CookieModel.v
theories/CookieFacts.v
theories/P_Cookie.v
theories/GroupModel.v
theories/MeterModel.v
theories/QueueModel.v
theories/HelloModel.v
theories/ListSpec.v
theories/ListFacts.v
theories/LoopFacts.v
theories/P_List.v
theories/DataModel.v
theories/DataSpec.v
theories/DataFacts.v
theories/P_Data.v
theories/TableModel.v
theories/TableSpec.v
theories/TableFacts.v
theories/P_Table.v
theories/LengthFacts.v
theories/P_Length.v
theories/UtilModel.v
theories/UtilSpec.v
theories/P_Util.v
theories/HandlerModel.v
theories/HandlerFacts.v
theories/P_Handler.v
theories/TestServerModel.v
theories/TestServerFacts.v
theories/P_TestServer.v
theories/DeadlineModel.v
theories/P_Deadline.v
theories/P_Helpers.v
theories/PoolServerModel.v
theories/P_PoolServer.v
theories/RelaySpec.v
theories/RelayFacts.v
theories/P_Relay.v
theories/TextModel.v
theories/TextFacts.v
theories/P_Text.v
theories/PortsModel.v
theories/CutSpec.v
theories/CutFacts.v
theories/PortsFacts.v
theories/P_Ports.v
theories/P_Cut.v
theories/SessionModel.v
theories/P_Session.v
theories/VaryingModel.v
theories/VaryingSpec.v
theories/FillFacts.v
theories/P_Varying.v
theories/MatchRelaySpec.v
theories/MatchRelayFacts.v
theories/P_MatchRelay.v
theories/SafetySpec.v
theories/SafetyFacts.v
theories/P_Safety.v
theories/ReadAheadModel.v
theories/ReadAheadFacts.v
theories/P_ReadAhead.v
theories/JarModel.v
theories/JarSpec.v
theories/JarFacts.v
theories/P_Jar.v
theories/ServeLoopModel.v
theories/ServeLoopSpec.v
theories/ServeLoopFacts.v
theories/P_ServeLoop.v
theories/SliceModel.v
theories/SliceSpec.v
theories/SliceFacts.v
theories/P_Slices.v
theories/PipelineModel.v
theories/PipelineSpec.v
theories/PipelineFacts.v
theories/P_Pipeline.v
theories/EndModel.v
theories/EndSpec.v
theories/EndFacts.v
theories/P_End.v
theories/WaitModel.v
theories/WaitSpec.v
theories/WaitFacts.v
theories/P_Wait.v
theories/P_Reuse.v
theories/SharedModel.v
theories/P_Shared.v
theories/LeftoverSpec.v
theories/LeftoverSteps.v
theories/LeftoverFacts.v
theories/LeftoverLists.v
theories/P_Leftover.v
theories/WriterModel.v
theories/WriterSpec.v
theories/WriterFacts.v
theories/P_Writer.v
theories/BulkSpec.v
theories/BulkFacts.v
theories/BulkLists.v
theories/BulkTables.v
theories/P_Bulk.v
theories/TruncSpec.v
theories/TruncFacts.v
theories/P_Trunc.v
theories/PairSpec.v
theories/P_Pair.v
theories/DistinctSpec.v
theories/P_Distinct.v
theories/ExchangeSpec.v
theories/P_Exchange.v
theories/ProxySpec.v
theories/P_Proxy.v
theories/HandsModel.v
theories/HandsSpec.v
theories/P_Hands.v
theories/PartsSpec.v
theories/P_Parts.v
theories/IsolationSpec.v
theories/P_Isolation.v
theories/ShortSpec.v
theories/ShortFacts.v
theories/P_Short.v
theories/OverlongSpec.v
theories/P_Overlong.v
theories/PadModel.v
theories/PadSpec.v
theories/P_Pad.v
theories/CrashModel.v
theories/CrashFacts.v
theories/CrashSpec.v
theories/P_Crash.v
theories/AtomicSpec.v
theories/P_Atomic.v
theories/FeatCutSpec.v
theories/FeatCutFacts.v
theories/P_FeatCut.v
theories/LowSpec.v
theories/LowFacts.v
theories/P_Low.v
theories/RegModel.v
theories/P_Reg.v
theories/HeldModel.v
theories/HeldSpec.v
theories/P_Held.v
theories/SendRaceModel.v
theories/P_SendRace.v
theories/FlagModel.v
theories/FlagSpec.v
theories/P_Flag.v
theories/ElemModel.v
theories/ElemSpec.v
theories/P_Elem.v
theories/PartyModel.v
theories/PartySpec.v
theories/P_Party.v
theories/SeenSpec.v
theories/P_Seen.v
theories/NestModel.v
theories/NestSpec.v
theories/NestFacts.v
theories/P_Nest.v
theories/AcceptSpec.v
theories/P_Accept.v
theories/TakenSpec.v
theories/P_Taken.v
theories/P_NestEnd.v
theories/LockModel.v
theories/LockSpec.v
theories/LockFacts.v
theories/P_Lock.v
theories/LockTieSpec.v
theories/P_LockTie.v
theories/P_MuxRace.v
theories/MultiSpec.v
theories/P_Multi.v
theories/P_LockPanic.v
theories/InstrListSpec.v
theories/P_InstrList.v
theories/FlowBytesSpec.v
theories/P_FlowBytes.v
theories/P_LowTable.v
theories/P_StatsBytes.v
theories/LockAtomicSpec.v
theories/P_LockAtomic.v
theories/MeterBytesSpec.v
theories/P_MeterBytes.v
theories/HelloBytesSpec.v
theories/P_HelloBytes.v
theories/QueueBytesSpec.v
theories/P_QueueBytes.v
theories/GroupBytesSpec.v
theories/P_GroupBytes.v
theories/P_GroupDesc.v
theories/QueueReplySpec.v
theories/P_QueueReply.v
