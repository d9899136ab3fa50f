-Q theories Verif
theories/Bytes.v
theories/Mtcp.v
theories/MtcpProofs.v
theories/Props_Mtcp.v
theories/TcpclWire.v
theories/TcpclWireProofs.v
theories/TcpclSession.v
theories/TcpclSessionProofs.v
theories/TcpclPair.v
theories/TcpclPairProofs.v
theories/TcpclCancel.v
theories/TcpclExtraProofs.v
theories/Props_Tcpcl.v
theories/Core.v
theories/Group.v
theories/StoreMem.v
theories/StoreSled.v
theories/StoreProofs.v
theories/IdProofs.v
theories/Sneakers.v
theories/Props_Store.v
theories/Peers.v
theories/PeersProofs.v
theories/Props_Peers.v
theories/Routing.v
theories/RoutingProofs.v
theories/Props_Epidemic.v
theories/SawProofs.v
theories/Props_Saw.v
theories/StaticProofs.v
theories/Props_Static.v
theories/External.v
theories/ExternalProofs.v
theories/Props_External.v
theories/Pipeline.v
theories/PipelineBase.v
theories/PipelineProofs.v
theories/PipelineInv.v
theories/PipelineRun.v
theories/TransferProofs.v
theories/Props_Transfer.v
theories/ReceptionProofs.v
theories/Props_Reception.v
theories/CauseProofs.v
theories/LocalProofs.v
theories/Props_Cause.v
theories/Cbor.v
theories/CborProofs.v
theories/Utf8.v
theories/Beacon.v
theories/BeaconProofs.v
theories/DiscoveryProofs.v
theories/Props_Discovery.v
theories/Apps.v
theories/AppsProofs.v
theories/AppsOrder.v
theories/Props_Apps.v
theories/Httpd.v
theories/HttpdProofs.v
theories/Props_Httpd.v
theories/Props_Httpd2.v
theories/Tools.v
theories/Props_Tools.v
theories/TriggerProofs.v
theories/Props_Trigger.v
theories/Pull.v
theories/PullProofs.v
theories/Props_Pull.v
theories/Ecla.v
theories/EclaProofs.v
theories/EclaInv.v
theories/EclaLive.v
theories/Props_Ecla.v
theories/Locks.v
theories/LocksProofs.v
theories/Props_Locks.v
theories/Transfers.v
theories/TransfersProofs.v
theories/Props_Layers.v
theories/MtcpSend.v
theories/MtcpSendProofs.v
theories/Props_MtcpSend.v
theories/Config.v
theories/ConfigProofs.v
theories/Props_Config.v
theories/TcpclConn.v
theories/TcpclConnProofs.v
theories/Props_TcpclConn.v
theories/Network.v
theories/NetworkProofs.v
theories/Props_Network.v
theories/DeliverProofs.v
theories/Props_Deliver.v
theories/TcpclLink.v
theories/TcpclLinkProofs.v
theories/TcpclLinkSim.v
theories/TcpclLinkLive.v
theories/TcpclClean.v
theories/TcpclLinkClean.v
theories/Props_TcpclLink.v
theories/EclaWire.v
theories/EclaWireProofs.v
theories/Props_EclaWire.v
theories/Props_Query.v
theories/EchoPing.v
theories/AppsCount.v
theories/Props_Echo.v
theories/Props_Ping.v
theories/Erouter.v
theories/ErouterProofs.v
theories/Props_Erouter.v
theories/Props_EclaIn.v
theories/EclaMtcp.v
theories/EclaMtcpProofs.v
theories/Props_EclaMtcp.v
theories/Props_TcpclSilent.v
theories/WsBeat.v
theories/WsBeatProofs.v
theories/Props_WsBeat.v
theories/PipelineCount.v
theories/NodeRouting.v
theories/NodeRoutingProofs.v
theories/NodeRoutingBack.v
theories/Props_NodeRouting.v
theories/NodeHops.v
theories/Props_NodeHops.v
theories/Restart.v
theories/JanitorProofs.v
theories/Props_Janitor.v
theories/DispatchProofs.v
theories/Props_Dispatch.v
theories/ConnectN.v
theories/ConnectNProofs.v
theories/Props_ConnectN.v
theories/Props_Endpoint.v
theories/Props_Recorded.v
theories/NodeDisk.v
theories/Props_NodeDisk.v
theories/PanicProofs.v
theories/Props_Panic.v
theories/JsonMtcp.v
theories/JsonMtcpProofs.v
theories/Props_JsonMtcp.v
theories/ErLink.v
theories/Props_ErLink.v
theories/Props_Route.v
theories/Props_Httpd3.v
theories/Props_RouteEpi.v
theories/Props_RouteSaw.v
theories/Props_SawNet.v
theories/NodeExternal.v
theories/Props_NodeExternal.v
theories/NodeApps.v
theories/Props_NodeApps.v
theories/Props_WsReply.v
theories/SneakersEid.v
theories/Props_SneakersEid.v
theories/Props_EpiTraffic.v
theories/Props_Removed.v
theories/PeerFeed.v
theories/Props_PeerFeed.v
theories/SvcList.v
theories/Props_SvcList.v
theories/Props_EclaServices.v
theories/TcpPeers.v
theories/Props_TcpPeers.v
theories/PyRouters.v
theories/Props_PyRouters.v
