-Q theories Verif
theories/PyBase.v
theories/L_PyBase.v
theories/PyDict.v
theories/L_PyDict.v
theories/Utf8.v
theories/L_Utf8.v
theories/Struct.v
theories/M_SofaHeader.v
theories/M_Package.v
theories/L_Struct.v
theories/S_Wire.v
theories/L_SofaHeader.v
theories/L_Package.v
theories/L_Codec.v
theories/P_Codec.v
theories/M_RequestId.v
theories/L_RequestId.v
theories/L_RequestIdCodec.v
theories/P_RequestId.v
theories/PyInt.v
theories/M_RpcId.v
theories/S_Rpc.v
theories/L_PyInt.v
theories/L_RpcId.v
theories/M_Trace.v
theories/L_Trace.v
theories/L_Trace2.v
theories/L_Trace3.v
theories/L_Trace4.v
theories/P_Trace.v
theories/M_Mesh.v
theories/S_Mesh.v
theories/L_Mesh.v
theories/P_Mesh.v
theories/M_Lru.v
theories/S_Lru.v
theories/L_Lru.v
theories/P_Lru.v
theories/M_ConnPool.v
theories/S_Pool.v
theories/L_ConnPool.v
theories/L_ConnPool2.v
theories/M_ConnRace.v
theories/L_ConnRace.v
theories/M_PoolManager.v
theories/L_PoolManager.v
theories/P_Pool.v
theories/M_SyncClient.v
theories/L_SyncClient.v
theories/P_Sync.v
theories/M_AioClient.v
theories/L_AioClient.v
theories/L_AioClient2.v
theories/L_AioClient3.v
theories/L_AioClient4.v
theories/L_AioClient5.v
theories/P_Aio.v
theories/L_AioClient6.v
theories/P_AioSend.v
theories/M_AioServer.v
theories/S_Server.v
theories/L_AioServer.v
theories/L_AioServer2.v
theories/L_AioServer3.v
theories/L_AioServer4.v
theories/L_AioServer5.v
theories/L_AioServer6.v
theories/L_AioServer7.v
theories/L_AioServer8.v
theories/L_AioServer9.v
theories/P_AioServer.v
theories/M_SockServer.v
theories/S_SockServer.v
theories/L_SockServer.v
theories/P_SockServer.v
theories/S_EndToEnd.v
theories/L_EndToEnd.v
theories/P_EndToEnd.v
theories/M_System.v
theories/S_System.v
theories/L_System1.v
theories/L_System.v
theories/P_System.v
theories/M_Front.v
theories/S_Front.v
theories/L_Front.v
theories/L_AioClient7.v
theories/P_Front.v
theories/M_PoolThreads.v
theories/S_PoolThreads.v
theories/L_PoolThreads.v
theories/P_PoolThreads.v
theories/M_SyncSystem.v
theories/S_SyncSystem.v
theories/L_SyncSystem.v
theories/P_SyncSystem.v
theories/L_Frames.v
theories/P_Frames.v
theories/M_LruThreads.v
theories/S_LruThreads.v
theories/L_LruThreads.v
theories/L_LruThreads2.v
theories/P_LruThreads.v
theories/L_Settle1.v
theories/L_Settle2.v
theories/S_Settle.v
theories/L_Settle.v
theories/P_Settle.v
theories/S_Written.v
theories/L_Written.v
theories/P_Written.v
theories/L_Rest1.v
theories/L_Rest2.v
theories/S_Rest.v
theories/L_Rest.v
theories/P_Rest.v
theories/M_Listener.v
theories/S_Listener.v
theories/L_Listener.v
theories/P_Listener.v
theories/M_Threads.v
theories/S_Threads.v
theories/L_Threads.v
theories/L_Threads2.v
theories/L_Threads3.v
theories/P_Threads.v
theories/X_RepoTests.v
theories/M_SyncTime.v
theories/S_SyncTime.v
theories/L_SyncTime.v
theories/P_SyncTime.v
theories/M_Net.v
theories/S_Net.v
theories/L_Net.v
theories/P_Net.v
theories/M_Deploy.v
theories/S_Deploy.v
theories/L_Deploy.v
theories/P_Deploy.v
theories/M_Lifecycle.v
theories/S_Lifecycle.v
theories/L_Lifecycle.v
theories/L_Lifecycle2.v
theories/P_Lifecycle.v
theories/S_PoolLimit.v
theories/L_PoolLimit.v
theories/P_PoolLimit.v
theories/M_AioSock.v
theories/S_AioSock.v
theories/L_AioSock.v
theories/P_AioSock.v
theories/M_CallTree.v
theories/S_CallTree.v
theories/L_CallTree.v
theories/P_CallTree.v
theories/M_SockConn.v
theories/S_SockConn.v
theories/L_SockConn.v
theories/P_SockConn.v
theories/M_World.v
theories/S_World.v
theories/L_World.v
theories/P_World.v
theories/S_SyncPool.v
theories/L_SyncPool.v
theories/P_SyncPool.v
theories/M_PoolStream.v
theories/S_PoolStream.v
theories/L_PoolStream.v
theories/P_PoolStream.v
theories/M_DictOps.v
theories/S_DictOps.v
theories/L_DictOps.v
theories/P_DictOps.v
theories/L_LruThreads3.v
theories/M_MgrThreads.v
theories/S_MgrThreads.v
theories/L_MgrThreads.v
theories/L_MgrThreads2.v
theories/L_MgrThreads3.v
theories/P_MgrThreads.v
theories/M_Span.v
theories/S_Span.v
theories/L_Span.v
theories/P_Span.v
theories/S_Nested.v
theories/L_Nested.v
theories/P_Nested.v
theories/L_Lifecycle3.v
theories/L_Threads4.v
theories/S_Closing.v
theories/L_Closing.v
theories/P_Closing.v
theories/S_ClientClosing.v
theories/L_ClientClosing.v
theories/P_ClientClosing.v
theories/S_Answered.v
theories/L_Answered.v
theories/P_Answered.v
theories/M_Callback.v
theories/S_Callback.v
theories/L_Callback.v
theories/P_Callback.v
theories/M_Exit.v
theories/S_Exit.v
theories/L_Exit.v
theories/P_Exit.v
theories/M_Singleton.v
theories/S_Singleton.v
theories/L_Singleton.v
theories/P_Singleton.v
theories/S_NetRest.v
theories/L_NetRest.v
theories/P_NetRest.v
theories/L_ClientGone.v
theories/P_ClientGone.v
theories/L_Lost.v
theories/P_Lost.v
theories/S_DepRest.v
theories/L_DepRest.v
theories/L_DepRest2.v
theories/L_DepRest3.v
theories/P_DepRest.v
theories/M_Publish.v
theories/S_Publish.v
theories/L_Publish.v
theories/P_Publish.v
theories/S_SrvTime.v
theories/L_SrvTime.v
theories/P_SrvTime.v
theories/S_PoolCap.v
theories/L_PoolCap.v
theories/P_PoolCap.v
theories/S_WhyFailed.v
theories/L_WhyFailed.v
theories/P_WhyFailed.v
theories/S_WhyAio.v
theories/L_WhyAio.v
theories/S_WhyWorld.v
theories/L_WhyWorld.v
theories/P_WhyAio.v
theories/S_Context.v
theories/L_Context.v
theories/L_Context2.v
theories/P_Context.v
theories/M_Service.v
theories/S_Service.v
theories/L_Service.v
theories/P_Service.v
theories/M_Objects.v
theories/S_Objects.v
theories/L_Objects.v
theories/P_Objects.v
theories/M_Lifetime.v
theories/S_Lifetime.v
theories/L_Lifetime.v
theories/P_Lifetime.v
theories/S_WorldRest.v
theories/L_WorldRest.v
theories/L_WorldRest2.v
theories/L_WorldRest3.v
theories/P_WorldRest.v
theories/S_WorldAnswers.v
theories/L_AioKept.v
theories/L_WorldAnswers.v
theories/P_WorldAnswers.v
theories/L_WorldAnswers2.v
theories/L_WorldAnswers3.v
theories/P_WorldAnswers2.v
theories/M_PoolLife.v
theories/S_PoolLife.v
theories/L_PoolLife.v
theories/P_PoolLife.v
theories/M_PoolMake.v
theories/S_PoolMake.v
theories/L_PoolMake.v
theories/P_PoolMake.v
theories/S_PoolSerial.v
theories/L_PoolSerial.v
theories/P_PoolSerial.v
theories/M_PoolWith.v
theories/S_PoolWith.v
theories/L_PoolWith.v
theories/P_PoolWith.v
theories/M_SubThreads.v
theories/S_SubThreads.v
theories/L_SubThreads.v
theories/P_SubThreads.v
theories/M_AioMake.v
theories/S_AioMake.v
theories/L_AioMake.v
theories/P_AioMake.v
theories/M_MeshWait.v
theories/S_MeshWait.v
theories/L_MeshWait.v
theories/P_MeshWait.v
theories/M_IdCompare.v
theories/S_IdCompare.v
theories/L_IdCompare.v
theories/P_IdCompare.v
theories/M_Register.v
theories/S_Register.v
theories/L_Register.v
theories/P_Register.v
theories/M_ManagerLife.v
theories/S_ManagerLife.v
theories/L_ManagerLife.v
theories/P_ManagerLife.v
theories/M_LruMap.v
theories/S_LruMap.v
theories/L_LruMap.v
theories/P_LruMap.v
theories/M_ErrText.v
theories/S_ErrText.v
theories/L_ErrText.v
theories/P_ErrText.v
theories/M_LruFail.v
theories/S_LruFail.v
theories/L_LruFail.v
theories/P_LruFail.v
theories/M_LruCalls.v
theories/S_LruCalls.v
theories/L_LruCalls.v
theories/P_LruCalls.v
