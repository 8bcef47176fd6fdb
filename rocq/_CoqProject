-Q theories Verif
theories/Base.v
theories/BaseFacts.v
theories/UMapModel.v
theories/UMapSpec.v
theories/UMapProofs.v
theories/UMapReach.v
theories/UMapProps.v
theories/UrlModel.v
theories/UrlSpec.v
theories/UrlProofs.v
theories/UrlProps.v
theories/Utf8Model.v
theories/Utf8Spec.v
theories/Utf8Proofs.v
theories/Utf8Props.v
theories/SMap.v
theories/RouterModel.v
theories/RouterSpec.v
theories/RouterProofs.v
theories/EndpointProofs.v
theories/RouterProps.v
theories/InputModel.v
theories/InputSpec.v
theories/InputProofs.v
theories/InputProps.v
theories/Dec.v
theories/CookieModel.v
theories/CookieSpec.v
theories/CookieProofs.v
theories/CookieProps.v
theories/CopyModel.v
theories/CopySpec.v
theories/CopyProofs.v
theories/CopyProps.v
theories/DispatchModel.v
theories/DispatchSpec.v
theories/DispatchProofs.v
theories/DispatchProps.v
theories/WsFrameModel.v
theories/WsRecvModel.v
theories/WsSpec.v
theories/WsFrameProofs.v
theories/WsRecvSpec.v
theories/WsRecvProofs.v
theories/WsProps.v
theories/WsSendModel.v
theories/WsSendSpec.v
theories/WsSendProofs.v
theories/WsSendProps.v
theories/StrModel.v
theories/NegoModel.v
theories/NegoSpec.v
theories/StrProofs.v
theories/NegoProofs.v
theories/NegoProps.v
theories/ExtModel.v
theories/ExtSpec.v
theories/ExtProps.v
theories/DeflateModel.v
theories/DeflateSpec.v
theories/DeflateProps.v
theories/DeflateStreamProps.v
theories/ConcModel.v
theories/ConcSpec.v
theories/ConcProofs.v
theories/ConcProps.v
theories/ClientModel.v
theories/ClientSpec.v
theories/SMapCase.v
theories/ClientProofs.v
theories/ClientCookieProofs.v
theories/ClientProps.v
theories/YuarelModel.v
theories/YuarelSpec.v
theories/YuarelProofs.v
theories/YuarelProps.v
theories/HttpText.v
theories/SendModel.v
theories/SendSpec.v
theories/SendProofs.v
theories/SendProps.v
theories/OpenModel.v
theories/OpenSpec.v
theories/OpenProofs.v
theories/OpenProps.v
theories/ExportModel.v
theories/ExportSpec.v
theories/ExportProofs.v
theories/ExportProps.v
theories/StaticModel.v
theories/StaticSpec.v
theories/StaticProofs.v
theories/StaticProps.v
theories/TokenModel.v
theories/TokenSpec.v
theories/TokenProofs.v
theories/TokenProps.v
theories/CompressModel.v
theories/CompressSpec.v
theories/CompressProofs.v
theories/CompressProps.v
theories/LifeModel.v
theories/LifeSpec.v
theories/LifeProofs.v
theories/LifeProps.v
theories/PropModel.v
theories/PropSpec.v
theories/PropProofs.v
theories/PropProps.v
theories/ConnModel.v
theories/ConnSpec.v
theories/ConnProofs.v
theories/ConnProps.v
theories/QueryModel.v
theories/QuerySpec.v
theories/QueryProofs.v
theories/QueryProps.v
theories/TalkModel.v
theories/TalkSpec.v
theories/TalkProofs.v
theories/TalkProps.v
theories/RoundSpec.v
theories/RoundProofs.v
theories/RoundProps.v
theories/OwnModel.v
theories/OwnSpec.v
theories/OwnProofs.v
theories/OwnProps.v
theories/LogModel.v
theories/LogProps.v
theories/MapMemModel.v
theories/MapMemSpec.v
theories/MapMemProofs.v
theories/MapMemPut.v
theories/MapMemRun.v
theories/MapMemSteps.v
theories/MapMemProps.v
theories/TalkExtModel.v
theories/TalkExtSpec.v
theories/TalkExtProofs.v
theories/TalkExtProps.v
theories/RespMemModel.v
theories/RespMemSpec.v
theories/RespMemProofs.v
theories/RespMemCalls.v
theories/RespMemCookie.v
theories/RespMemSteps.v
theories/RespMemProps.v
theories/TalkExtFrames.v
theories/ReqMemModel.v
theories/ReqMemSpec.v
theories/ReqMemProofs.v
theories/ReqMemCalls.v
theories/ReqMemCopy.v
theories/ReqMemSteps.v
theories/ReqMemProps.v
theories/WsMemModel.v
theories/WsMemSpec.v
theories/WsMemProofs.v
theories/WsMemCalls.v
theories/WsMemRecv.v
theories/WsMemSteps.v
theories/WsMemProps.v
theories/HandMemModel.v
theories/HandMemSpec.v
theories/HandMemProofs.v
theories/HandMemSteps.v
theories/HandMemProps.v
theories/CliMemModel.v
theories/CliMemSpec.v
theories/CliMemProofs.v
theories/CliMemClear.v
theories/CliMemCalls.v
theories/CliMemSteps.v
theories/CliMemLoss.v
theories/CliMemProps.v
theories/CacheModel.v
theories/CacheSpec.v
theories/CacheProofs.v
theories/CacheProps.v
theories/RouteMemModel.v
theories/RouteMemSpec.v
theories/RouteMemProofs.v
theories/RouteMemSteps.v
theories/RouteMemRun.v
theories/RouteMemProps.v
theories/AnswerMemModel.v
theories/AnswerMemSpec.v
theories/AnswerMemProofs.v
theories/AnswerMemSteps.v
theories/AnswerMemProps.v
theories/RecvMemModel.v
theories/RecvMemSpec.v
theories/RecvMemProofs.v
theories/RecvMemPieces.v
theories/RecvMemSteps.v
theories/RecvMemRun.v
theories/RecvMemProps.v
theories/WaitModel.v
theories/WaitProps.v
theories/HttpMemModel.v
theories/HttpMemSpec.v
theories/HttpMemProofs.v
theories/HttpMemLists.v
theories/HttpMemSteps.v
theories/HttpMemRun.v
theories/HttpMemProps.v
theories/PullMemModel.v
theories/PullMemSpec.v
theories/PullMemProofs.v
theories/PullMemCookies.v
theories/PullMemRun.v
theories/PullMemProps.v
theories/DefMemModel.v
theories/DefMemSpec.v
theories/DefMemProofs.v
theories/DefMemProps.v
theories/SiteMemModel.v
theories/SiteMemSpec.v
theories/SiteMemProofs.v
theories/SiteMemProps.v
theories/ZipMemModel.v
theories/ZipMemSpec.v
theories/ZipMemProofs.v
theories/ZipMemProps.v
theories/MailMemModel.v
theories/MailMemSpec.v
theories/MailMemProofs.v
theories/MailMemProps.v
theories/InstMemModel.v
theories/InstMemSpec.v
theories/InstMemProofs.v
theories/InstMemProps.v
theories/LiveModel.v
theories/LiveSpec.v
theories/LiveProofs.v
theories/LiveProps.v
theories/CrowdModel.v
theories/CrowdSpec.v
theories/CrowdProofs.v
theories/CrowdProps.v
theories/UwscModel.v
theories/UwscSpec.v
theories/UwscProofs.v
theories/UwscProps.v
theories/ByeModel.v
theories/ByeSpec.v
theories/ByeProofs.v
theories/ByeProps.v
theories/ProxyModel.v
theories/ProxySpec.v
theories/ProxyProofs.v
theories/ProxyProps.v
theories/SheepModel.v
theories/SheepSpec.v
theories/SheepProofs.v
theories/SheepProps.v
theories/FlowModel.v
theories/FlowSpec.v
theories/FlowProps.v
theories/DoorModel.v
theories/DoorSpec.v
theories/DoorProps.v
theories/PrintModel.v
theories/PrintSpec.v
theories/PrintProps.v
theories/EchoModel.v
theories/EchoProps.v
theories/SafeModel.v
theories/SafeProps.v
theories/VouchModel.v
theories/VouchProps.v
theories/HandModel.v
theories/HandProps.v
theories/OnceModel.v
theories/OnceProps.v
theories/EchoExtProps.v
theories/CrowdLostProps.v
theories/UserModel.v
theories/UserProps.v
theories/LockModel.v
theories/LockProps.v
theories/FiveModel.v
theories/FiveSpec.v
theories/FiveProofs.v
theories/FiveProps.v
theories/SiteCodingProps.v
theories/UMapNullProps.v
theories/LevelModel.v
theories/LevelSpec.v
theories/LevelProofs.v
theories/LevelProps.v
theories/HandTextProps.v
theories/RefuseProps.v
theories/ShowModel.v
theories/ShowProps.v
theories/StopConnProps.v
theories/HugeProps.v
theories/UMapCaseProps.v
theories/InjectModel.v
theories/InjectProps.v
theories/SimpleModel.v
theories/SimpleProps.v
theories/SimpleFooProps.v
theories/TellModel.v
theories/TellProps.v
theories/HerdModel.v
theories/HerdProps.v
theories/PortalModel.v
theories/PortalProps.v
