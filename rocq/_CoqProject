-Q theories Verif
theories/AddrModel.v
theories/AddrProofs.v
theories/AddrProps.v
theories/AddrSpec.v
theories/AddrTextModel.v
theories/AddrTextProofs.v
theories/AddrTextProps.v
theories/AddrTextSpec.v
theories/AlertModel.v
theories/AlertProps.v
theories/AlertSpec.v
theories/Assoc.v
theories/BandwidthModel.v
theories/BandwidthProofs.v
theories/BandwidthProofs2.v
theories/BandwidthProofs3.v
theories/BandwidthProps.v
theories/BandwidthSpec.v
theories/Base.v
theories/Base32Model.v
theories/Base32Proofs.v
theories/Base32Props.v
theories/Base32Spec.v
theories/BaseLemmas.v
theories/BencodeModel.v
theories/BencodeProofs.v
theories/BencodeProps.v
theories/BencodeSafe.v
theories/BencodeSpec.v
theories/BigModel.v
theories/BigProofs.v
theories/BigProofs2.v
theories/BigProofs3.v
theories/BigProps.v
theories/BigSpec.v
theories/CacheModel.v
theories/CacheProofs.v
theories/CacheProps.v
theories/CacheSpec.v
theories/CheckModel.v
theories/CheckProofs.v
theories/CheckProps.v
theories/CheckSpec.v
theories/CheckersModel.v
theories/CheckersProofs.v
theories/CheckersProps.v
theories/CheckersSpec.v
theories/ConfigModel.v
theories/ConfigProps.v
theories/CountryModel.v
theories/CountryProofs.v
theories/CountryProps.v
theories/CountrySpec.v
theories/Dec.v
theories/DecLemmas.v
theories/DhModel.v
theories/DhtAnnounceModel.v
theories/DhtAnnounceProps.v
theories/DhtAnswerProps.v
theories/DhtCommModel.v
theories/DhtCommProofs.v
theories/DhtCommProps.v
theories/DhtExchangeProps.v
theories/DhtMsgModel.v
theories/DhtMsgProofs.v
theories/DhtMsgProps.v
theories/DhtMsgSpec.v
theories/DhtRefreshModel.v
theories/DhtRefreshProps.v
theories/DiscoveryModel.v
theories/DiscoveryProofs.v
theories/DiscoveryProps.v
theories/DiscoverySpec.v
theories/DlModel.v
theories/DlProofs.v
theories/DlProofs2.v
theories/DlProofs3.v
theories/DlProofs4.v
theories/DlProofs5.v
theories/DlProps.v
theories/DlSpec.v
theories/HexModel.v
theories/HexProofs.v
theories/HexProps.v
theories/HexSpec.v
theories/HolepunchModel.v
theories/HolepunchProps.v
theories/HttpCommModel.v
theories/HttpCommProofs.v
theories/HttpCommProps.v
theories/HttpCommSpec.v
theories/HttpModel.v
theories/HttpProofs.v
theories/HttpProps.v
theories/HttpSpec.v
theories/HttpsModel.v
theories/HttpsProofs.v
theories/HttpsProps.v
theories/HttpsSpec.v
theories/LayoutModel.v
theories/LayoutProofs.v
theories/LayoutProps.v
theories/LayoutSpec.v
theories/LeftModel.v
theories/LeftProofs.v
theories/LeftProofs2.v
theories/LeftProps.v
theories/LeftSpec.v
theories/LifeModel.v
theories/LifeProps.v
theories/ListenerModel.v
theories/ListenerProofs.v
theories/ListenerProps.v
theories/ListenerSpec.v
theories/LockCodeModel.v
theories/LockModel.v
theories/LockProofs.v
theories/LockProps.v
theories/LockSpec.v
theories/LogWriterModel.v
theories/LogWriterProps.v
theories/LogWriterSpec.v
theories/MagnetModel.v
theories/MagnetProofs.v
theories/MagnetProps.v
theories/MagnetSpec.v
theories/MdLogModel.v
theories/MdLogProps.v
theories/MdLogSpec.v
theories/MetadataModel.v
theories/MetadataProofs.v
theories/MetadataProofs2.v
theories/MetadataProps.v
theories/MetadataSpec.v
theories/MoveModel.v
theories/MoveProofs.v
theories/MoveProps.v
theories/MoveSpec.v
theories/NodeModel.v
theories/NodeProofs.v
theories/NodeProps.v
theories/NodeSpec.v
theories/PacketModel.v
theories/PacketProofs.v
theories/PacketProps.v
theories/PacketSpec.v
theories/PathModel.v
theories/PathProps.v
theories/PathSpec.v
theories/PeModel.v
theories/PeProofs.v
theories/PeProps.v
theories/PeSessionModel.v
theories/PeSessionProps.v
theories/PeSessionSpec.v
theories/PeSpec.v
theories/PeerMsgModel.v
theories/PeerMsgProofs.v
theories/PeerMsgProps.v
theories/PeerMsgSpec.v
theories/PeerStateModel.v
theories/PeerStateProofs.v
theories/PeerStateSpec.v
theories/PeerStreamModel.v
theories/PeerStreamProofs.v
theories/PeerStreamProps.v
theories/PeerStreamSpec.v
theories/PeersModel.v
theories/PeersProofs.v
theories/PeersProps.v
theories/PexModel.v
theories/PexProofs.v
theories/PexProps.v
theories/PingModel.v
theories/PingProps.v
theories/ProgressModel.v
theories/ProgressProofs.v
theories/ProgressProofs2.v
theories/ProgressProps.v
theories/ProgressSpec.v
theories/QueryModel.v
theories/QueryProofs.v
theories/QueryProps.v
theories/QuerySpec.v
theories/Rc4Model.v
theories/Rc4Proofs.v
theories/Rc4Props.v
theories/Rc4Spec.v
theories/ReceiverModel.v
theories/ReceiverProofs.v
theories/ReceiverProps.v
theories/ReceiverSpec.v
theories/RegModel.v
theories/RegProps.v
theories/ResponderModel.v
theories/ResponderProofs.v
theories/ResponderProps.v
theories/ResponderSpec.v
theories/RoomModel.v
theories/RoomProofs.v
theories/RoomProps.v
theories/RoomSpec.v
theories/SelectModel.v
theories/SelectProofs.v
theories/SelectProps.v
theories/ShaModel.v
theories/ShaProofs.v
theories/ShaProps.v
theories/ShaSpec.v
theories/SlidingModel.v
theories/SlidingProps.v
theories/StartModel.v
theories/StartProofs.v
theories/StartProps.v
theories/StartSpec.v
theories/StateFileProps.v
theories/StateModel.v
theories/StateProps.v
theories/StopCheckModel.v
theories/StopCheckProps.v
theories/StopCheckSpec.v
theories/StorageModel.v
theories/StorageProofs.v
theories/StorageProps.v
theories/StorageSpec.v
theories/SubSeq.v
theories/SuspectModel.v
theories/SuspectProps.v
theories/TableModel.v
theories/TableProofs.v
theories/TableProofs2.v
theories/TableProofs3.v
theories/TableProps.v
theories/TableSaveModel.v
theories/TableSaveProofs.v
theories/TableSaveProps.v
theories/TableSpec.v
theories/TcpModel.v
theories/TcpProofs.v
theories/TcpProps.v
theories/TcpSpec.v
theories/TfModel.v
theories/TfProofs.v
theories/TfProps.v
theories/TfReads.v
theories/TfSaveModel.v
theories/TfSaveProps.v
theories/TfSpec.v
theories/TimerModel.v
theories/TrackerModel.v
theories/TrackerProofs.v
theories/TrackerProps.v
theories/UdpCommModel.v
theories/UdpCommProofs.v
theories/UdpCommProps.v
theories/UdpCommSpec.v
theories/UdpTimerProofs.v
theories/UdpTrackerModel.v
theories/UdpTrackerProps.v
theories/UdpTrackerSpec.v
theories/UnfModel.v
theories/UnfProps.v
theories/UnfSpec.v
theories/UploaderModel.v
theories/UploaderProofs.v
theories/UploaderProps.v
theories/UploaderSpec.v
theories/UpnpModel.v
theories/UpnpProofs.v
theories/UpnpProofs2.v
theories/UpnpProps.v
theories/UpnpSpec.v
theories/UriModel.v
theories/UriProps.v
theories/UrlModel.v
theories/UrlProofs.v
theories/UrlProps.v
theories/UrlSpec.v
theories/UtpManagerModel.v
theories/UtpManagerProps.v
theories/UtpManagerSpec.v
theories/UtpModel.v
theories/UtpProofs.v
theories/UtpProofs2.v
theories/UtpProofs3.v
theories/UtpProofs4.v
theories/UtpProofs5.v
theories/UtpProofs6.v
theories/UtpProofs7.v
theories/UtpProps.v
theories/UtpSpec.v
theories/UtpTimerModel.v
theories/UtpTimerProofs.v
theories/UtpTimerProps.v
theories/UtpTimerSpec.v
theories/WriterModel.v
theories/WriterProofs.v
theories/WriterProps.v
theories/WriterSpec.v
theories/XmlModel.v
theories/XmlProofs.v
theories/XmlProps.v
