-Q theories Verif
theories/Model/Bytes.v
theories/Model/Frame.v
theories/Model/Service.v
theories/Model/Utf8.v
theories/Model/Control.v
theories/Proofs/BytesFacts.v
theories/Spec/FrameSpec.v
theories/Proofs/FrameProofs.v
theories/Proofs/FramePropsPf.v
theories/Props/FrameProps.v
theories/Spec/ControlSpec.v
theories/Proofs/ControlProofs.v
theories/Proofs/ControlReaders.v
theories/Spec/FactorySpec.v
theories/Proofs/FactoryPf.v
theories/Props/ControlProps.v
theories/Model/Alist.v
theories/Model/Session.v
theories/Model/Manager.v
theories/Model/Client.v
theories/Spec/SessionSpec.v
theories/Proofs/SessionProofs.v
theories/Proofs/SessionPropsPf.v
theories/Props/SessionProps.v
theories/Spec/ManagerSpec.v
theories/Spec/ClientSpec.v
theories/Proofs/AlistFacts.v
theories/Proofs/ManagerProofs.v
theories/Proofs/ManagerPropsPf.v
theories/Proofs/ManagerPropsPf2.v
theories/Props/ManagerProps.v
theories/Proofs/ClientProofs.v
theories/Proofs/ClientInv.v
theories/Proofs/ClientRun.v
theories/Proofs/ClientPropsPf.v
theories/Proofs/ClientPropsPf2.v
theories/Proofs/ClientEnd.v
theories/Props/ClientProps.v
theories/Model/SvcTable.v
theories/Model/Text.v
theories/Model/Mac.v
theories/Model/TableJson.v
theories/Model/Config.v
theories/Spec/TableSpec.v
theories/Spec/ConfigSpec.v
theories/Proofs/TableProofs.v
theories/Proofs/TablePropsPf.v
theories/Proofs/TableExpiry.v
theories/Proofs/TableJsonPf.v
theories/Proofs/TableCases.v
theories/Proofs/ConfigProofs.v
theories/Proofs/ConfigCases.v
theories/Props/TableProps.v
theories/Proofs/TableRefPf.v
theories/Props/ConfigProps.v
theories/Model/Url.v
theories/Model/CmdLine.v
theories/Spec/UrlSpec.v
theories/Spec/CmdSpec.v
theories/Proofs/TextProofs.v
theories/Proofs/UrlProofs.v
theories/Spec/TextSpec.v
theories/Proofs/TrimPf.v
theories/Proofs/SlicePf.v
theories/Proofs/CmdProofs.v
theories/Props/UrlProps.v
theories/Props/CmdProps.v
theories/Proofs/CmdCases.v
theories/Model/MainTask.v
theories/Spec/MainSpec.v
theories/Proofs/MainProofs.v
theories/Props/MainProps.v
theories/Model/Background.v
theories/Spec/BackgroundSpec.v
theories/Proofs/BackgroundProofs.v
theories/Props/BackgroundProps.v
theories/Model/Events.v
theories/Spec/EventsSpec.v
theories/Proofs/EventsProofs.v
theories/Props/EventsProps.v
theories/Model/Http.v
theories/Spec/HttpSpec.v
theories/Proofs/HttpLines.v
theories/Proofs/HttpLaws.v
theories/Proofs/HttpCodec.v
theories/Proofs/HttpExact.v
theories/Proofs/HttpBodies.v
theories/Proofs/HttpResponse.v
theories/Proofs/HttpOnce.v
theories/Proofs/HttpFinal.v
theories/Proofs/HttpMore.v
theories/Props/HttpProps.v
theories/Model/Sdp.v
theories/Spec/SdpSpec.v
theories/Proofs/SdpLines.v
theories/Proofs/SdpText.v
theories/Proofs/SdpFinal.v
theories/Props/SdpProps.v
theories/Model/Raw.v
theories/Spec/RawSpec.v
theories/Proofs/RawSums.v
theories/Proofs/RawChecks.v
theories/Proofs/RawRound.v
theories/Proofs/RawLayout.v
theories/Proofs/RawParse.v
theories/Proofs/RawGen.v
theories/Proofs/RawScan.v
theories/Props/RawProps.v
theories/Model/Discovery.v
theories/Spec/DiscoverySpec.v
theories/Proofs/DiscMaps.v
theories/Proofs/DiscPick.v
theories/Proofs/DiscReport.v
theories/Props/DiscoveryProps.v
theories/Model/Logger.v
theories/Spec/LoggerSpec.v
theories/Proofs/LoggerFacts.v
theories/Proofs/LoggerRun.v
theories/Props/LoggerProps.v
theories/Model/Request.v
theories/Spec/RequestSpec.v
theories/Proofs/DecFacts.v
theories/Proofs/RequestPf.v
theories/Props/RequestProps.v
theories/Model/Tls.v
theories/Spec/TlsSpec.v
theories/Proofs/TlsPoll.v
theories/Proofs/TlsRace.v
theories/Proofs/TlsTime.v
theories/Props/TlsProps.v
theories/Model/Exports.v
theories/Spec/ExportsSpec.v
theories/Proofs/ExportsMem.v
theories/Proofs/ExportsPf.v
theories/Props/ExportsProps.v
theories/Model/Storage.v
theories/Spec/StorageSpec.v
theories/Proofs/StoragePf.v
theories/Props/StorageProps.v
theories/Model/Capture.v
theories/Spec/CaptureSpec.v
theories/Proofs/CapturePf.v
theories/Props/CaptureProps.v
theories/Model/JsonText.v
theories/Spec/JsonSpec.v
theories/Proofs/JsonPf.v
theories/Spec/SecrecySpec.v
theories/Proofs/SecrecyPf.v
theories/Proofs/JsonCases.v
theories/Props/JsonProps.v
theories/Model/Start.v
theories/Spec/StartSpec.v
theories/Proofs/StartPf.v
theories/Proofs/StartCases.v
theories/Props/StartProps.v
theories/Model/Loggers.v
theories/Spec/LoggersSpec.v
theories/Proofs/LoggersPf.v
theories/Props/LoggersProps.v
theories/Model/StableHash.v
theories/Spec/HashSpec.v
theories/Proofs/HashPf.v
theories/Props/HashProps.v
theories/Model/Wire.v
theories/Spec/WireSpec.v
theories/Proofs/WirePf.v
theories/Proofs/WireRun.v
theories/Proofs/EndToEnd.v
theories/Proofs/WireFinal.v
theories/Proofs/WireEnd.v
theories/Props/WireProps.v
theories/Spec/QueueSpec.v
theories/Proofs/QueuePf.v
theories/Props/QueueProps.v
theories/Model/Locks.v
theories/Spec/LocksSpec.v
theories/Proofs/LocksPf.v
theories/Props/LocksProps.v
theories/Tests/RepoTests.v
theories/Spec/EndSpec.v
theories/Proofs/EndPf.v
theories/Props/EndProps.v
theories/Spec/MemorySpec.v
theories/Proofs/MemoryPf.v
theories/Props/MemoryProps.v
theories/Spec/ReachSpec.v
theories/Proofs/ReachPf.v
theories/Proofs/ReachCases.v
theories/Props/ReachProps.v
theories/Spec/WholeSpec.v
theories/Proofs/WholePf.v
theories/Props/WholeProps.v
theories/Model/Sockets.v
theories/Spec/SocketSpec.v
theories/Proofs/SocketPf.v
theories/Props/SocketProps.v
theories/Spec/CurrentSpec.v
theories/Proofs/CurrentPf.v
theories/Proofs/CurrentCases.v
theories/Props/CurrentProps.v
theories/Model/Runtime.v
theories/Spec/RuntimeSpec.v
theories/Proofs/RuntimePf.v
theories/Props/RuntimeProps.v
theories/Model/Handles.v
theories/Spec/HandleSpec.v
theories/Proofs/HandlePf.v
theories/Props/HandleProps.v
theories/Spec/DocSpec.v
theories/Proofs/DocPf.v
theories/Props/DocProps.v
theories/Spec/SendSpec.v
theories/Proofs/SendPf.v
theories/Props/SendProps.v
theories/Spec/RoomSpec.v
theories/Proofs/RoomPf.v
theories/Props/RoomProps.v
theories/Proofs/FoundPf.v
theories/Proofs/FoundCases.v
theories/Props/FoundProps.v
theories/Model/Scan.v
theories/Spec/ScanSpec.v
theories/Proofs/ScanFrames.v
theories/Proofs/ScanPf.v
theories/Proofs/ScanWhole.v
theories/Proofs/ScanCases.v
theories/Props/ScanProps.v
theories/Model/Probes.v
theories/Spec/ProbesSpec.v
theories/Proofs/ProbesPf.v
theories/Proofs/AlonePf.v
theories/Proofs/ProbesCases.v
theories/Props/ProbesProps.v
theories/Model/Memory.v
theories/Spec/ResponseSpec.v
theories/Proofs/ResponseMem.v
theories/Proofs/ResponseMem2.v
theories/Props/ResponseProps.v
theories/Spec/OriginSpec.v
theories/Proofs/OriginPf.v
theories/Proofs/OriginCases.v
theories/Props/OriginProps.v
theories/Spec/PaceSpec.v
theories/Proofs/PacePf.v
theories/Proofs/PaceCases.v
theories/Props/PaceProps.v
theories/Spec/AnnounceSpec.v
theories/Proofs/AnnouncePf.v
theories/Proofs/AnnounceCases.v
theories/Props/AnnounceProps.v
theories/Spec/SpinSpec.v
theories/Proofs/SpinPf.v
theories/Props/SpinProps.v
theories/Spec/ProgressSpec.v
theories/Proofs/ProgressPf.v
theories/Proofs/ProgressLift.v
theories/Props/ProgressProps.v
theories/Spec/FairSpec.v
theories/Proofs/FairPf.v
theories/Props/FairProps.v
theories/Spec/FlowSpec.v
theories/Proofs/FlowPf.v
theories/Props/FlowProps.v
theories/Proofs/OwedPf.v
theories/Props/OwedProps.v
theories/Spec/NumeralSpec.v
theories/Proofs/NumeralPf.v
theories/Props/TextProps.v
theories/Spec/ChatSpec.v
theories/Proofs/ChatPf.v
theories/Props/ChatProps.v
theories/Spec/IdsSpec.v
theories/Proofs/IdsPf.v
theories/Props/IdsProps.v
theories/Spec/HangSpec.v
theories/Proofs/HangPf.v
theories/Props/HangProps.v
theories/Model/Journal.v
theories/Spec/JournalSpec.v
theories/Proofs/JournalPf.v
theories/Proofs/JournalPf2.v
theories/Props/JournalProps.v
theories/Model/ScanLog.v
theories/Spec/ScanLogSpec.v
theories/Proofs/ScanLogPf.v
theories/Proofs/ScanLogPf2.v
theories/Props/ScanLogProps.v
theories/Spec/OpaqueSpec.v
theories/Proofs/OpaquePf.v
theories/Proofs/OpaquePf2.v
theories/Props/OpaqueProps.v
theories/Model/ConnLog.v
theories/Spec/ConnLogSpec.v
theories/Proofs/ConnLogPf.v
theories/Proofs/ConnLogPf2.v
theories/Props/ConnLogProps.v
theories/Model/DiscLog.v
theories/Spec/DiscLogSpec.v
theories/Proofs/DiscLogPf.v
theories/Props/DiscLogProps.v
theories/Model/StartLog.v
theories/Spec/StartLogSpec.v
theories/Proofs/StartLogPf.v
theories/Props/StartLogProps.v
theories/Model/SaveLog.v
theories/Spec/SaveLogSpec.v
theories/Proofs/SaveLogPf.v
theories/Props/SaveLogProps.v
theories/Model/CaLog.v
theories/Spec/CaLogSpec.v
theories/Proofs/CaLogPf.v
theories/Props/CaLogProps.v
theories/Spec/WindowSpec.v
theories/Proofs/WindowPf.v
theories/Props/WindowProps.v
theories/Proofs/ConfirmPf.v
theories/Proofs/RespectPf.v
theories/Props/RespectProps.v
theories/Proofs/BeyondPf.v
theories/Props/BeyondProps.v
theories/Spec/StallSpec.v
theories/Proofs/StallPf.v
theories/Props/StallProps.v
theories/Model/Finish.v
theories/Spec/FinishSpec.v
theories/Proofs/FinishPf.v
theories/Props/FinishProps.v
