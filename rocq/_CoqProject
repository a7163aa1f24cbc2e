-Q theories Verif
theories/Base.v
theories/AlgModel.v
theories/AlgSpec.v
theories/AlgProofs.v
theories/P_Algorithm.v
theories/Digits.v
theories/FormModel.v
theories/FormSpec.v
theories/FormProofs.v
theories/P_Forms.v
theories/DictModel.v
theories/MultipartModel.v
theories/HttpModel.v
theories/HttpBase.v
theories/HttpSplit.v
theories/HttpSpec.v
theories/HttpProofs.v
theories/HttpHead.v
theories/HttpBody.v
theories/HttpChunk.v
theories/HttpMore.v
theories/HttpBounds.v
theories/HttpLimits.v
theories/HttpTooLong.v
theories/HttpReset.v
theories/HttpStatus.v
theories/HttpFeeds.v
theories/HttpExamples.v
theories/DictSpec.v
theories/DictProofs.v
theories/EolSpec.v
theories/HttpEol.v
theories/LaxSpec.v
theories/HttpLax.v
theories/P_Http.v
theories/MessageModel.v
theories/MessageSpec.v
theories/MessageProofs.v
theories/WriterModel.v
theories/WriterSpec.v
theories/WriterProofs.v
theories/P_Message.v
theories/ReaderModel.v
theories/ReaderSpec.v
theories/ReaderProofs.v
theories/SMap.v
theories/ServerModel.v
theories/ServerSpec.v
theories/ServerProofs.v
theories/P_Server.v
theories/UriModel.v
theories/UriSpec.v
theories/UriProofs.v
theories/MultipartSpec.v
theories/MultipartProofs.v
theories/MissingSpec.v
theories/HttpMissing.v
theories/P_Parse.v
theories/UserModel.v
theories/UserSpec.v
theories/UserProofs.v
theories/AuthModel.v
theories/AuthSpec.v
theories/AuthProofs.v
theories/ReplyModel.v
theories/P_Auth.v
theories/P_Reply.v
theories/PathModel.v
theories/FileModel.v
theories/FileSpec.v
theories/PathProofs.v
theories/FileProofs.v
theories/FileRuns.v
theories/FileCache.v
theories/SenderModel.v
theories/SenderProofs.v
theories/P_File.v
theories/Runs.v
theories/TimerModel.v
theories/TimerSpec.v
theories/P_Timer.v
theories/Threads.v
theories/TcpModel.v
theories/TcpSpec.v
theories/TcpProofs.v
theories/P_Tcp.v
theories/SchedModel.v
theories/SchedSpec.v
theories/SchedProofs.v
theories/P_Sched.v
theories/KeepModel.v
theories/P_Keep.v
theories/PluginModel.v
theories/PluginSpec.v
theories/PluginProofs.v
theories/PlugMgrProofs.v
theories/PlugFindProofs.v
theories/P_Plugin.v
theories/StreamModel.v
theories/StreamSpec.v
theories/StreamProofs.v
theories/StreamInput.v
theories/StreamWait.v
theories/P_Stream.v
theories/ServicesModel.v
theories/ServicesSpec.v
theories/ServicesProofs.v
theories/P_Services.v
theories/ConfigModel.v
theories/ConfigSpec.v
theories/ConfigProofs.v
theories/P_Config.v
theories/SpdyModel.v
theories/SpdySpec.v
theories/SpdyProofs.v
theories/P_Spdy.v
theories/FloatModel.v
theories/FloatSpec.v
theories/FloatProofs.v
theories/P_Float.v
theories/PagesModel.v
theories/PagesSpec.v
theories/P_Pages.v
theories/AdminModel.v
theories/AdminSpec.v
theories/P_Admin.v
theories/IoModel.v
theories/P_Io.v
theories/P_Framing.v
theories/SoundSpec.v
theories/HttpSound.v
theories/P_Sound.v
theories/FoldSpec.v
theories/HttpFold.v
theories/P_Fold.v
theories/PiondModel.v
theories/PiondSpec.v
theories/PiondProofs.v
theories/P_Piond.v
theories/ConnectModel.v
theories/P_Connect.v
theories/ReportModel.v
theories/P_Report.v
theories/DataModel.v
theories/P_Data.v
theories/WebModel.v
theories/WebSpec.v
theories/WebProofs.v
theories/P_Web.v
theories/StopProofs.v
theories/P_Stop.v
theories/UploadSpec.v
theories/UploadProofs.v
theories/P_Upload.v
theories/P_Gone.v
theories/DateModel.v
theories/DateSpec.v
theories/DateProofs.v
theories/DateText.v
theories/P_Date.v
theories/HashModel.v
theories/HashSpec.v
theories/HashProofs.v
theories/P_Hash.v
theories/FindModel.v
theories/P_Find.v
theories/SignalModel.v
theories/P_Signal.v
theories/P_Cookies.v
theories/P_Types.v
theories/SettingModel.v
theories/P_Settings.v
theories/P_Version.v
theories/BufferModel.v
theories/P_Buffer.v
theories/CopyModel.v
theories/P_Copy.v
theories/ErrorModel.v
theories/P_Errors.v
theories/P_FilePages.v
theories/P_SpdyErr.v
theories/SkipModel.v
theories/P_Skip.v
theories/DaemonModel.v
theories/P_Daemon.v
theories/TestModel.v
theories/P_TestFiles.v
theories/P_TestLog.v
theories/KeptSpec.v
theories/KeptProofs.v
theories/P_Kept.v
theories/VarProofs.v
theories/P_Vars.v
theories/P_User.v
theories/P_Scan.v
theories/P_Cut.v
theories/P_Break.v
theories/P_After.v
