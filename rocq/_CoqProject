-Q theories Verif
theories/Go.v
theories/GoFacts.v
theories/BinModel.v
theories/BinSpec.v
theories/BinProofs.v
theories/BinTheorems.v
theories/StrconvModel.v
theories/IntSpec.v
theories/IntModel.v
theories/IntProofs.v
theories/IntTheorems.v
theories/HeapModel.v
theories/HeapSpec.v
theories/HeapProofs.v
theories/HeapTheorems.v
theories/TimingModel.v
theories/TimingSpec.v
theories/TimingProofs.v
theories/TimingProofs2.v
theories/TimingProofs3.v
theories/WheelModel.v
theories/WheelSpec.v
theories/WheelProofs.v
theories/TimingTheorems.v
theories/SyllabModel.v
theories/SyllabSpec.v
theories/SyllabProofs.v
theories/SyllabProofs2.v
theories/SyllabTheorems.v
theories/Base64Model.v
theories/JsonModel.v
theories/JsonSpec.v
theories/Base64Proofs.v
theories/JsonProofs.v
theories/JsonTheorems.v
theories/EscapeModel.v
theories/EscapeSpec.v
theories/EscapeProofs.v
theories/UriModel.v
theories/UriSpec.v
theories/UriProofs.v
theories/UriProofs2.v
theories/UriProofs3.v
theories/UriTheorems.v
theories/StringsModel.v
theories/HttpModel.v
theories/StringsProofs.v
theories/HttpSpec.v
theories/HttpProofs.v
theories/HttpProofs2.v
theories/HttpProofs3.v
theories/HttpTheorems.v
theories/ClockModel.v
theories/ClockSpec.v
theories/ClockProofs.v
theories/ClockTheorems.v
theories/LuhnModel.v
theories/LuhnSpec.v
theories/LuhnProofs.v
theories/LuhnTheorems.v
theories/PoolModel.v
theories/PoolSpec.v
theories/PoolProofs.v
theories/PoolProofs2.v
theories/FlatModel.v
theories/FlatSpec.v
theories/FlatProofs.v
theories/PoolTheorems.v
theories/FlatTheorems.v
theories/NetModel.v
theories/NetSpec.v
theories/NetProofs.v
theories/NetTheorems.v
theories/TcpModel.v
theories/TcpSpec.v
theories/TcpProofs.v
theories/TcpTheorems.v
theories/AddrModel.v
theories/AddrSpec.v
theories/AddrProofs.v
theories/AddrTheorems.v
theories/LinkModel.v
theories/LinkProofs.v
theories/LinkTheorems.v
theories/FramesModel.v
theories/FramesSpec.v
theories/FramesTheorems.v
theories/IdModel.v
theories/IdSpec.v
theories/IdTheorems.v
theories/CmdModel.v
theories/CmdSpec.v
theories/CmdTheorems.v
theories/RegModel.v
theories/RegSpec.v
theories/RegTheorems.v
theories/EventModel.v
theories/EventSpec.v
theories/EventTheorems.v
theories/FileModel.v
theories/FileSpec.v
theories/FileTheorems.v
theories/SockModel.v
theories/SockTheorems.v
theories/MetricModel.v
theories/MetricSpec.v
theories/MetricTheorems.v
theories/HttpMsgModel.v
theories/HttpMsgSpec.v
theories/HttpMsgTheorems.v
theories/SyllabGenModel.v
theories/SyllabGenSpec.v
theories/SyllabGenTheorems.v
theories/JsonObjModel.v
theories/JsonObjSpec.v
theories/JsonObjProofs.v
theories/JsonObjTheorems.v
theories/CodecModel.v
theories/CodecSpec.v
theories/CodecTheorems.v
theories/TcpExtraTheorems.v
theories/TcpExtraModel.v
theories/TcpExtraSpec.v
theories/WwwModel.v
theories/WwwSpec.v
theories/WwwProofs.v
theories/WwwTheorems.v
theories/HttpMoreTheorems.v
theories/SyncModel.v
theories/SyncSpec.v
theories/SyncTheorems.v
theories/NetMoreTheorems.v
theories/LogModel.v
theories/LogSpec.v
theories/LogTheorems.v
theories/AppModel.v
theories/AppSpec.v
theories/AppTheorems.v
theories/SockIoModel.v
theories/SockIoTheorems.v
theories/MathModel.v
theories/MathSpec.v
theories/MathTheorems.v
theories/ConvModel.v
theories/ConvSpec.v
theories/ConvTheorems.v
theories/GoParseModel.v
theories/GoParseSpec.v
theories/GoParseTheorems.v
theories/ChaparNetModel.v
theories/ChaparNetSpec.v
theories/ChaparNetTheorems.v
theories/EdgeModel.v
theories/EdgeSpec.v
theories/EdgeTheorems.v
theories/ClientModel.v
theories/ClientSpec.v
theories/ClientTheorems.v
theories/MiscModel.v
theories/MiscSpec.v
theories/MiscTheorems.v
theories/QueueModel.v
theories/QueueSpec.v
theories/QueueProofs.v
theories/QueueTheorems.v
theories/WakeSpec.v
theories/WakeProofs.v
theories/WakeTheorems.v
theories/WheelTheorems.v
theories/WheelArith.v
theories/TreeModel.v
theories/TreeSpec.v
theories/TreeProofs.v
theories/TreeTheorems.v
theories/CombineModel.v
theories/CombineSpec.v
theories/CombineProofs.v
theories/CombineTheorems.v
theories/CombineMoreTheorems.v
theories/CmdPathModel.v
theories/CmdPathSpec.v
theories/CmdPathTheorems.v
theories/UriMoreTheorems.v
theories/TimingMoreTheorems.v
theories/MoreTheorems.v
theories/JsonCrashTheorems.v
theories/HttpHostModel.v
theories/HttpHostTheorems.v
theories/TimerLifeModel.v
theories/TimerLifeTheorems.v
theories/HttpReuseModel.v
theories/HttpReuseTheorems.v
theories/WheelLifeModel.v
theories/WheelLifeTheorems.v
theories/WheelPeriodTheorems.v
theories/ClockMoreModel.v
theories/ClockMoreTheorems.v
theories/SleepModel.v
theories/SleepTheorems.v
theories/RaceModel.v
theories/RaceSpec.v
theories/RaceProofs.v
theories/RaceProofs2.v
theories/RaceProofs3.v
theories/RaceTheorems.v
theories/RaceProofs4.v
theories/UriLenTheorems.v
theories/PoolRaceModel.v
theories/PoolRaceSpec.v
theories/PoolRaceProofs.v
theories/PoolRaceTheorems.v
theories/EventRaceModel.v
theories/EventRaceSpec.v
theories/EventRaceTheorems.v
theories/StatusRaceModel.v
theories/StatusRaceSpec.v
theories/StatusRaceTheorems.v
theories/AtomicRaceModel.v
theories/AtomicRaceSpec.v
theories/AtomicRaceTheorems.v
theories/ServeFileModel.v
theories/ServeFileTheorems.v
theories/GenFileModel.v
theories/GenFileSpec.v
theories/GenFileTheorems.v
theories/HttpErrModel.v
theories/HttpErrSpec.v
theories/HttpErrTheorems.v
theories/DispatchModel.v
theories/DispatchSpec.v
theories/DispatchTheorems.v
theories/HttpAcceptTheorems.v
theories/BoundaryTheorems.v
theories/TcpOrderTheorems.v
theories/FloatModel.v
theories/FloatSpec.v
theories/FloatTheorems.v
theories/JsonFloatModel.v
theories/JsonFloatSpec.v
theories/JsonFloatTheorems.v
theories/PageGenModel.v
theories/PageGenSpec.v
theories/PageGenTheorems.v
theories/JsonLoopModel.v
theories/JsonLoopSpec.v
theories/JsonLoopTheorems.v
theories/CookieDateModel.v
theories/CookieDateSpec.v
theories/CookieDateTheorems.v
theories/CookieWireTheorems.v
theories/WheelInitTheorems.v
theories/CrcSpec.v
theories/CrcTheorems.v
