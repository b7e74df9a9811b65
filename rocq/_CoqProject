-Q theories Verif
theories/Base.v
theories/CLib.v
theories/StringUtils.v
theories/JsonUtils.v
theories/FileUtils.v
theories/ConfParser.v
theories/HttpUtils.v
theories/Router.v
theories/WsConn.v
theories/WsMultipart.v
theories/WsRequest.v
theories/Queue.v
theories/Races.v
theories/LogMain.v
theories/Lemmas.v
theories/Spec.v
theories/StringUtils_proofs.v
theories/Properties_String.v
theories/SpecJson.v
theories/JsonUtils_proofs.v
theories/Properties_Json.v
theories/SpecConf.v
theories/ConfParser_proofs.v
theories/Properties_Conf.v
theories/FileUtils_proofs.v
theories/Properties_File.v
theories/SpecHttp.v
theories/HttpUtils_proofs.v
theories/Properties_Http.v
theories/SpecRouter.v
theories/Router_proofs.v
theories/Properties_Router.v
theories/SpecConn.v
theories/WsConn_proofs.v
theories/Properties_Conn.v
theories/SpecQueue.v
theories/Queue_proofs.v
theories/Properties_Queue.v
theories/Races_proofs.v
theories/Properties_Race.v
theories/SpecMain.v
theories/LogMain_proofs.v
theories/Properties_Main.v
theories/SpecReq.v
theories/WsRequest_proofs.v
theories/Properties_Request.v
theories/SpecDispatch.v
theories/SpecMultipart.v
theories/WsMultipart_proofs.v
theories/Properties_Multipart.v
theories/WsUpload_proofs.v
theories/Properties_Upload.v
theories/WsDispatch_proofs.v
theories/Properties_Dispatch.v
theories/Termination_proofs.v
theories/Properties_Termination.v
theories/Server.v
theories/SpecServer.v
theories/Server_proofs.v
theories/Properties_Server.v
theories/ConfHeap.v
theories/SpecHeap.v
theories/ConfHeap_proofs.v
theories/Properties_Heap.v
theories/SpecApi.v
theories/WsApi_proofs.v
theories/Properties_Api.v
theories/SpecLog.v
theories/Log_proofs.v
theories/Properties_Log.v
theories/ReqHeap.v
theories/SpecReqHeap.v
theories/ReqHeap_proofs.v
theories/Properties_ReqHeap.v
theories/Time.v
theories/SpecTime.v
theories/Calendar_proofs.v
theories/Time_proofs.v
theories/Properties_Time.v
theories/Start.v
theories/SpecStart.v
theories/Start_proofs.v
theories/Properties_Start.v
theories/JsonHeap.v
theories/SpecJsonHeap.v
theories/JsonHeap_proofs.v
theories/Properties_JsonHeap.v
theories/Reads.v
theories/SpecReads.v
theories/Reads_proofs.v
theories/Properties_Reads.v
theories/Sends.v
theories/SpecSends.v
theories/Sends_proofs.v
theories/Properties_Sends.v
theories/Trace.v
theories/SpecTrace.v
theories/Trace_proofs.v
theories/TraceForm_proofs.v
theories/LogLine.v
theories/SpecLogLine.v
theories/LogLine_proofs.v
theories/Tame_proofs.v
theories/Properties_Trace.v
theories/Properties_LogLine.v
theories/SpecEffects.v
theories/Effects_proofs.v
theories/Properties_Effects.v
theories/Memory.v
theories/SpecMemory.v
theories/Memory_proofs.v
theories/Properties_Memory.v
theories/Conformance.v
theories/SpecLive.v
theories/Live_proofs.v
theories/Properties_Live.v
theories/Workers.v
theories/SpecWorkers.v
theories/Workers_proofs.v
theories/Properties_Workers.v
theories/Gate.v
theories/SpecGate.v
theories/Gate_proofs.v
theories/Properties_Gate.v
theories/AccessLog.v
theories/SpecAccess.v
theories/AccessLog_proofs.v
theories/Properties_Access.v
theories/SpecDefined.v
theories/Defined_proofs.v
theories/Properties_Defined.v
theories/SpecDefinedApi.v
theories/DefinedApi_proofs.v
theories/Properties_DefinedApi.v
theories/SpecDecode.v
theories/Decode_proofs.v
theories/Properties_Decode.v
theories/Properties_Harmless.v
theories/Splits.v
theories/Splits_proofs.v
theories/Properties_Splits.v
theories/SpecSafe.v
theories/Safe_proofs.v
theories/Properties_Safe.v
theories/Program.v
theories/SpecProgram.v
theories/Program_proofs.v
theories/Properties_Program.v
theories/Mutex.v
theories/SpecMutex.v
theories/Mutex_proofs.v
theories/Properties_Mutex.v
theories/Scarce.v
theories/SpecScarce.v
theories/Scarce_proofs.v
theories/Properties_Scarce.v
theories/SpecScarceApi.v
theories/ScarceApi_proofs.v
theories/Properties_ScarceApi.v
theories/ScarceStart.v
theories/SpecScarceStart.v
theories/ScarceStart_proofs.v
theories/Properties_ScarceStart.v
theories/ScarceText.v
theories/SpecScarceText.v
theories/ScarceText_proofs.v
theories/Properties_ScarceText.v
theories/ScarceConf.v
theories/SpecScarceConf.v
theories/ScarceConf_proofs.v
theories/Properties_ScarceConf.v
theories/ScarceItems.v
theories/SpecScarceItems.v
theories/ScarceItems_proofs.v
theories/Properties_ScarceItems.v
theories/ScarceLog.v
theories/SpecScarceLog.v
theories/ScarceLog_proofs.v
theories/Properties_ScarceLog.v
theories/FailFiles.v
theories/SpecFailFiles.v
theories/FailFiles_proofs.v
theories/Properties_FailFiles.v
theories/FailUpload.v
theories/SpecFailUpload.v
theories/FailUpload_proofs.v
theories/Properties_FailUpload.v
