-Q theories Verif
theories/Base.v
theories/PQueueModel.v
theories/PQueueSpec.v
theories/PQueueProofs.v
theories/PQueueProofs2.v
theories/PQueueProps.v
theories/SpanKeyModel.v
theories/SpanKeySpec.v
theories/SpanKeyProofs.v
theories/SpanKeyProofs2.v
theories/SpanKeyProps.v
theories/PendingModel.v
theories/PendingSpec.v
theories/PendingProofs.v
theories/PendingProps.v
theories/PermTac.v
theories/HandlerModel.v
theories/HandlerSpec.v
theories/HandlerProofs.v
theories/HandlerProofs2.v
theories/HandlerProofs3.v
theories/HandlerProofs4.v
theories/HandlerProofs5.v
theories/HandlerProofs6.v
theories/HandlerProps.v
theories/SenderModel.v
theories/SenderSpec.v
theories/SenderProofs.v
theories/SenderProofs2.v
theories/SenderProofs3.v
theories/SenderProps.v
theories/RouterModel.v
theories/RouterSpec.v
theories/RouterProofs.v
theories/RouterProofs2.v
theories/RouterProps.v
theories/StreamModel.v
theories/StreamSpec.v
theories/StreamProofs.v
theories/StreamProps.v
theories/ClientModel.v
theories/ClientSpec.v
theories/ClientProofs.v
theories/ClientProofs2.v
theories/ClientProofs3.v
theories/ClientProps.v
theories/LruModel.v
theories/LruSpec.v
theories/LruProofs.v
theories/LruProofs2.v
theories/LruProofs3.v
theories/LruProofs4.v
theories/LruProps.v
theories/ErrStateModel.v
theories/ErrStateSpec.v
theories/ErrStateProofs.v
theories/ErrStateProps.v
theories/StatsModel.v
theories/StatsSpec.v
theories/StatsProofs.v
theories/StatsProofs2.v
theories/StatsProofs3.v
theories/StatsProps.v
theories/ConfigModel.v
theories/ConfigSpec.v
theories/ConfigProofs.v
theories/ConfigProofs2.v
theories/ConfigProps.v
theories/WrapModel.v
theories/WrapSpec.v
theories/WrapProofs.v
theories/WrapProps.v
theories/PromModel.v
theories/PromSpec.v
theories/PromProofs.v
theories/PromProofs2.v
theories/PromProofs3.v
theories/PromProps.v
theories/LogBufModel.v
theories/LogBufSpec.v
theories/LogBufProofs.v
theories/LogBufProps.v
theories/LockModel.v
theories/LockSpec.v
theories/LockProofs.v
theories/LockProps.v
theories/ShipperModel.v
theories/ShipperSpec.v
theories/ShipperProofs.v
theories/ShipperProofs2.v
theories/ShipperProps.v
theories/JsonModel.v
theories/JsonSpec.v
theories/JsonProofs.v
theories/WireModel.v
theories/WireSpec.v
theories/WireProofs.v
theories/WireProofs2.v
theories/WireProps.v
theories/EnvelopeModel.v
theories/EnvelopeSpec.v
theories/EnvelopeProofs.v
theories/EnvelopeProps.v
theories/TraceModel.v
theories/TraceSpec.v
theories/TraceProofs.v
theories/TraceProofs2.v
theories/TraceProofs3.v
theories/TraceProps.v
theories/ManageModel.v
theories/ManageSpec.v
theories/ManageProofs.v
theories/ManageProps.v
theories/CliModel.v
theories/CliSpec.v
theories/CliProofs.v
theories/CliProps.v
theories/FilesModel.v
theories/FilesSpec.v
theories/FilesProofs.v
theories/FilesProps.v
theories/LifeModel.v
theories/LifeSpec.v
theories/LifeProofs.v
theories/LifeProofs2.v
theories/LifeProps.v
theories/DeliveryModel.v
theories/DeliverySpec.v
theories/DeliveryProofs.v
theories/DeliveryProofs2.v
theories/DeliveryProofs3.v
theories/DeliveryProofs4.v
theories/DeliveryProofs5.v
theories/DeliveryProps.v
theories/UtilModel.v
theories/UtilSpec.v
theories/UtilProofs.v
theories/UtilProofs2.v
theories/UtilProps.v
theories/CrashModel.v
theories/CrashProofs.v
theories/CrashProofs2.v
theories/CrashProofs3.v
theories/CrashProps.v
theories/SCrashModel.v
theories/SCrashProofs.v
theories/SCrashProofs2.v
theories/SCrashProps.v
theories/JsonProofs2.v
theories/AskModel.v
theories/AskSpec.v
theories/AskProofs.v
theories/AskProofs2.v
theories/AskProofs3.v
theories/AskProps.v
theories/FleetModel.v
theories/FleetSpec.v
theories/FleetProofs.v
theories/FleetProofs2.v
theories/FleetProps.v
theories/RelayModel.v
theories/RelaySpec.v
theories/RelayProofs.v
theories/RelayProofs2.v
theories/RelayProps.v
theories/CtxModel.v
theories/CtxSpec.v
theories/CtxProofs.v
theories/CtxProps.v
theories/ProgressSpec.v
theories/ProgressProofs.v
theories/ProgressProps.v
theories/SProgressSpec.v
theories/SProgressProofs.v
theories/SProgressProps.v
theories/RecoverySpec.v
theories/RecoveryProofs.v
theories/RecoveryProofs2.v
theories/RecoveryProps.v
theories/HttpSenderModel.v
theories/HttpSenderSpec.v
theories/HttpSenderProofs.v
theories/HttpSenderProps.v
theories/BothCrashModel.v
theories/BothCrashProofs.v
theories/BothCrashSpec.v
theories/BothCrashProofs2.v
theories/BothCrashProofs3.v
theories/BothCrashProps.v
theories/DgModel.v
theories/DgSpec.v
theories/DgProofs.v
theories/DgProofs2.v
theories/DgProofs3.v
theories/DgProofs4.v
theories/DgProps.v
theories/EndSpec.v
theories/EndProofs.v
theories/EndProofs2.v
theories/EndProofs3.v
theories/EndProps.v
theories/LeakSpec.v
theories/LeakProofs.v
theories/LeakProps.v
theories/ConnSpec.v
theories/ConnProofs.v
theories/ConnProofs2.v
theories/ConnProofs3.v
theories/ConnProps.v
theories/KQueueModel.v
theories/KQueueSpec.v
theories/KQueueProofs.v
theories/KQueueProps.v
theories/FnModel.v
theories/FnSpec.v
theories/FnProofs.v
theories/FnProps.v
theories/UniModel.v
theories/UniSpec.v
theories/UniProofs.v
theories/UniProofs2.v
theories/UniProofs3.v
theories/UniProofs4.v
theories/UniProps.v
theories/ArgModel.v
theories/ArgSpec.v
theories/ArgProofs.v
theories/ArgProofs2.v
theories/ArgProps.v
theories/ScrapeSpec.v
theories/ScrapeProofs.v
theories/ScrapeProofs2.v
theories/ScrapeProps.v
theories/SpanEqModel.v
theories/SpanEqSpec.v
theories/SpanEqProofs.v
theories/SpanEqProps.v
theories/SingleModel.v
theories/SingleSpec.v
theories/SingleProofs.v
theories/SingleProps.v
theories/GatherModel.v
theories/GatherSpec.v
theories/GatherProofs.v
theories/GatherProps.v
theories/BeatModel.v
theories/BeatSpec.v
theories/BeatProofs.v
theories/BeatProps.v
