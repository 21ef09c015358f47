-Q theories Verif
theories/Base.v
theories/GoBuf.v
theories/CodecPrim.v
theories/Types.v
theories/Codec.v
theories/StubPrim.v
theories/Stubs.v
theories/Gen.v
theories/Msgs.v
theories/GenEq.v
theories/GenThm.v
theories/GenInv.v
theories/CodecSpec.v
theories/MsgThm.v
theories/CodecLemmas.v
theories/CodecLemmas2.v
theories/CodecLemmas3.v
theories/CodecLemmas4.v
theories/PropsCodec.v
theories/Server.v
theories/ServerSpec.v
theories/ServerLemmas.v
theories/ServerLemmas2.v
theories/ServerLemmas3.v
theories/Rpc.v
theories/ServerLemmas4.v
theories/ServerWitness.v
theories/ServerLemmas5.v
theories/PropsServer.v
theories/Listener.v
theories/ListenerSpec.v
theories/ListenerLemmas.v
theories/PropsListener.v
theories/Client.v
theories/ClientSpec.v
theories/ClientLemmas.v
theories/ClientLemmas2.v
theories/ClientLemmas3.v
theories/ClientLemmas4.v
theories/ClientLemmas5.v
theories/ClientLemmas6.v
theories/ClientLemmas7.v
theories/ClientWitness.v
theories/PropsClient.v
theories/GoPath.v
theories/PathSpec.v
theories/PathLemmas.v
theories/Ufs.v
theories/UfsSpec.v
theories/UfsLemmas.v
theories/UfsLemmas2.v
theories/UfsLemmas3.v
theories/UfsLemmas4.v
theories/UfsLemmas5.v
theories/UfsLemmas6.v
theories/UfsLemmas7.v
theories/MemOS.v
theories/MemSpec.v
theories/MemLemmas.v
theories/UfsRefute.v
theories/PropsUfs.v
theories/Debugfs.v
theories/DebugLemmas.v
theories/Conns.v
theories/ConnsLemmas.v
theories/PropsConns.v
theories/GenoutText.v
theories/GenText.v
theories/GoSyntax.v
theories/GoSem.v
theories/GenoutProg.v
theories/GenoutSem.v
theories/GenoutMarshal.v
theories/GenoutUnmarshal.v
theories/GenoutWalk.v
theories/GenoutStubSem.v
theories/GenoutStubs.v
theories/GenoutThm.v
theories/GoText.v
theories/GoRun.v
theories/GoFmt.v
theories/GoProg.v
theories/GoWp.v
theories/UfsRun.v
theories/UfsRunLemmas.v
theories/UfsRunThm.v
theories/UfsRunThm2.v
theories/UfsRunThm3.v
theories/PropsRun.v
theories/ServerRun.v
theories/ServerRunLemmas.v
theories/ServerRunThm.v
theories/ListenerRun.v
theories/ListenerRunLemmas.v
theories/ListenerRunThm.v
theories/PropsRunServer.v
theories/DebugRun.v
theories/DebugRunLemmas.v
theories/DebugRunThm.v
theories/PropsRunDebug.v
theories/DaemonRun.v
theories/DaemonRunLemmas.v
theories/DaemonRunThm.v
theories/PropsRunDaemon.v
theories/ConnsRun.v
theories/ConnsRunLemmas.v
theories/ConnsRunThm.v
theories/ConnsRunThm2.v
theories/ConnsRunExec.v
theories/PropsRunConns.v
theories/LinSpec.v
theories/LinThm.v
theories/PropsRunLin.v
theories/LisConc.v
theories/LisConcLemmas.v
theories/LisRun.v
theories/LisRunLemmas.v
theories/LisRunText.v
theories/LisRunExec.v
theories/LisRunThm.v
theories/PropsRunLis.v
theories/ClientRun.v
theories/ClientRunLemmas.v
theories/ClientRunText.v
theories/ClientRunSim.v
theories/ClientRunSim2.v
theories/ClientRunSim3.v
theories/ClientRunSim4.v
theories/ClientRunSim5.v
theories/ClientRunNew.v
theories/ClientRunSim6.v
theories/ClientRunExec.v
theories/ClientHist.v
theories/ClientRunThm.v
theories/ClientRunCases.v
theories/PropsRunClient.v
theories/GenGoText.v
theories/GenRun.v
theories/ProtocolSpec.v
theories/GenRunThm.v
theories/PropsRunGen.v
theories/PropsText.v
theories/NetRun.v
theories/NetLemmas.v
theories/NetModel.v
theories/NetCase.v
theories/NetEats.v
theories/NetServer.v
theories/NetWait.v
theories/NetWait2.v
theories/NetThm.v
theories/NetThm2.v
theories/NetStore.v
theories/PropsRunNet.v
theories/NetClient.v
theories/NetLive.v
theories/NetLiveCase.v
theories/PropsRunLive.v
theories/ClientRank.v
theories/ClientRank2.v
theories/ClientRank3.v
theories/NetEnds.v
theories/NetEnds2.v
theories/NetEndsCase.v
theories/PropsRunEnds.v
theories/NetTidy.v
theories/NetStays.v
theories/ClientWell.v
theories/NetWell.v
theories/NetWell2.v
theories/NetWellCase.v
theories/PropsRunWell.v
theories/UfsFits.v
theories/NetUfsCase.v
theories/PropsRunUfs.v
theories/UfsStored.v
theories/NetStored.v
theories/NetStoredCase.v
theories/NetOddCase.v
theories/PropsRunStored.v
theories/UfsText.v
theories/NetText.v
theories/NetTextCase.v
theories/NetAlike.v
theories/NetChatty.v
theories/DebugText.v
theories/NetFour.v
theories/PropsRunText.v
theories/PropsRunChatty.v
theories/PropsRunFour.v
