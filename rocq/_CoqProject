-Q theories Verif
theories/Base.v
theories/Buffer.v
theories/BufferSpec.v
theories/BufferProofs.v
theories/BufferTop.v
theories/P_Buffer.v
theories/Codec.v
theories/CodecSpec.v
theories/CodecProofs.v
theories/P_Codec.v
theories/Msg.v
theories/Rpc.v
theories/RpcSpec.v
theories/RpcProofs.v
theories/P_Rpc.v
theories/FsLogStore.v
theories/FsLogSpec.v
theories/FsLogProofs.v
theories/FsLogOps.v
theories/FsLogReads.v
theories/FsLogChange.v
theories/FsLogTop.v
theories/FsLogWeak.v
theories/P_LogStore.v
theories/FsLogCrash.v
theories/P_Crash.v
theories/FsLogTorn.v
theories/P_Torn.v
theories/Alog.v
theories/Raft.v
theories/RaftQuiet.v
theories/RaftTrace.v
theories/RaftTrace2.v
theories/RaftTrace3.v
theories/RaftWalk.v
theories/NodeSpec.v
theories/NodeLife.v
theories/NodeExamples.v
theories/P_Terms.v
theories/ServerSpec.v
theories/NodeFacts.v
theories/AppendFacts.v
theories/P_Append.v
theories/P_Vote.v
theories/P_Commit.v
theories/P_Leader.v
theories/PeerWalk.v
theories/PeerInv.v
theories/P_Peer.v
theories/P_Out.v
theories/P_Api.v
theories/WalkAll.v
theories/P_Leave.v
theories/P_Config.v
theories/Cluster.v
theories/ClusterElect.v
theories/ClusterLog.v
theories/ClusterWalk.v
theories/ClusterRun.v
theories/ClusterElectS.v
theories/ClusterWalkS.v
theories/ClusterRunS.v
theories/ClusterExamples.v
theories/ClusterSafe.v
theories/CommitSpec.v
theories/SafeRun.v
theories/MatchWalk.v
theories/MatchRun.v
theories/CommitExamples.v
theories/P_Cluster.v
theories/P_Safe.v
theories/P_Own.v
theories/Wp.v
theories/P_Timer.v
theories/Runs.v
theories/ServeFacts.v
theories/P_Serve.v
theories/P_Snap.v
theories/P_Compact.v
theories/P_SnapConf.v
theories/P_SnapMatch.v
theories/Async.v
theories/P_Async.v
theories/Sched.v
theories/P_Sched.v
theories/Client.v
theories/P_Client.v
theories/P_Forward.v
theories/Endpoint.v
theories/P_Endpoint.v
theories/Service.v
theories/P_Service.v
theories/P_Elect.v
theories/P_Ack.v
theories/Member.v
theories/MemberElect.v
theories/P_Member.v
theories/P_Remove.v
theories/Committer.v
theories/P_Committer.v
theories/Locks.v
theories/P_Locks.v
theories/P_Join.v
theories/Intake.v
theories/P_Intake.v
theories/Listener.v
theories/P_Listener.v
theories/Progress.v
theories/P_Progress.v
theories/P_Change.v
theories/LogShare.v
theories/P_LogShare.v
theories/LogFault.v
theories/P_Fault.v
theories/Stack.v
theories/P_Stack.v
theories/StackCluster.v
theories/P_StackCluster.v
theories/Bounds.v
theories/BoundsWalk.v
theories/P_Bounds.v
theories/Wire.v
theories/WireFacts.v
theories/P_Wire.v
theories/Full.v
theories/P_Full.v
theories/Events.v
theories/P_Events.v
theories/P_Recover.v
theories/P_Avail.v
theories/Alive.v
theories/P_Down.v
theories/P_Accept.v
theories/Keep.v
theories/P_Keep.v
theories/P_Rest.v
theories/P_Stuck.v
theories/P_Consent.v
theories/P_CutOff.v
