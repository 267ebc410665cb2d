-Q theories Verif
theories/Apm.v
theories/ApmProofs.v
theories/ApmSpec.v
theories/ArpRefresh.v
theories/ArpRefreshProofs.v
theories/ArpRefreshSpec.v
theories/Autobuf.v
theories/AutobufProofs.v
theories/AutobufSpec.v
theories/Avl.v
theories/AvlProofs.v
theories/AvlSpec.v
theories/Base.v
theories/BmfForward.v
theories/BmfForwardProofs.v
theories/BmfForwardSpec.v
theories/BmfHandleProofs.v
theories/BmfHistory.v
theories/BmfHistoryProofs.v
theories/BmfHistorySpec.v
theories/BmfPacket.v
theories/BmfPacketProofs.v
theories/BmfPacketSpec.v
theories/BmfSumProofs.v
theories/BuildHna.v
theories/BuildHnaProofs.v
theories/BuildHnaSpec.v
theories/BuildHnaStepProofs.v
theories/BuildMsg.v
theories/BuildMsgHelloProofs.v
theories/BuildMsgLqProofs.v
theories/BuildMsgLqTcProofs.v
theories/BuildMsgOrderProofs.v
theories/BuildMsgProofs.v
theories/BuildMsgSpec.v
theories/BuildMsgTcProofs.v
theories/Bytes.v
theories/Cli.v
theories/CliProofs.v
theories/CliSpec.v
theories/Compare.v
theories/CompareProofs.v
theories/ConfCheck.v
theories/ConfCheckProofs.v
theories/ConfCheckSpec.v
theories/ConfIf.v
theories/ConfIfProofs.v
theories/ConfIfSpec.v
theories/ConfScan.v
theories/ConfScanFileProofs.v
theories/ConfScanProofs.v
theories/ConfScanSpec.v
theories/ConfSum.v
theories/ConfSumProofs.v
theories/ConfSumSpec.v
theories/Cookie.v
theories/CookieProofs.v
theories/CookieSpec.v
theories/CreateMsg.v
theories/CreateMsgProofs.v
theories/CreateMsgRunProofs.v
theories/CreateMsgSpec.v
theories/DList.v
theories/DListProofs.v
theories/DListSpec.v
theories/DupProofs.v
theories/DupSet.v
theories/DupSpec.v
theories/DynGw.v
theories/DynGwPingProofs.v
theories/DynGwProofs.v
theories/DynGwSpec.v
theories/Egress.v
theories/EgressProofs.v
theories/EgressRunProofs.v
theories/EgressSpec.v
theories/FilterGw.v
theories/FilterGwProofs.v
theories/FilterGwSpec.v
theories/Forward.v
theories/ForwardProofs.v
theories/ForwardSpec.v
theories/Gateway.v
theories/GatewayProofs.v
theories/GwHna.v
theories/GwSpeed.v
theories/GwSpeedProofs.v
theories/Hello.v
theories/HelloProofs.v
theories/HelloSpec.v
theories/Hna.v
theories/HnaGwProofs.v
theories/HnaProofs.v
theories/HnaSpec.v
theories/HostSwitch.v
theories/HostSwitchProofs.v
theories/HostSwitchSpec.v
theories/HttpInfo.v
theories/HttpInfoProofs.v
theories/HttpInfoSpec.v
theories/HttpSendProofs.v
theories/HttpSendSpec.v
theories/Hyst.v
theories/HystProofs.v
theories/HystSpec.v
theories/InfoCache.v
theories/InfoCacheProofs.v
theories/InfoCacheSpec.v
theories/InfoOut.v
theories/InfoOutProofs.v
theories/InfoOutSpec.v
theories/InfoReq.v
theories/InfoReqProofs.v
theories/InfoReqSpec.v
theories/IpCalc.v
theories/IpProofs.v
theories/IpSpec.v
theories/IpcFront.v
theories/IpcFrontProofs.v
theories/IpcFrontSpec.v
theories/Json.v
theories/JsonProofs.v
theories/JsonSpec.v
theories/JsonUnique.v
theories/LinkSet.v
theories/LinkSetExec.v
theories/LinkSetNbrProofs.v
theories/LinkSetProofs.v
theories/LinkSetRunProofs.v
theories/LinkSetSpec.v
theories/Loop.v
theories/LqCost.v
theories/LqCostProofs.v
theories/LqCostSpec.v
theories/LqMprProofs.v
theories/Mantissa.v
theories/MantissaProofs.v
theories/Md5.v
theories/Md5Proofs.v
theories/Md5Spec.v
theories/MdnsCaptureProofs.v
theories/MdnsElect.v
theories/MdnsElectProofs.v
theories/MdnsElectSpec.v
theories/MdnsRelay.v
theories/MdnsRelayProofs.v
theories/MdnsRelaySpec.v
theories/Mid.v
theories/MidExec.v
theories/MidProofs.v
theories/MidSpec.v
theories/MidTimeProofs.v
theories/Mpr.v
theories/MprProofs.v
theories/MprSpec.v
theories/MultiGw.v
theories/MultiGwPickProofs.v
theories/MultiGwProofs.v
theories/MultiGwReachProofs.v
theories/MultiGwRunProofs.v
theories/MultiGwSpec.v
theories/NameBestProofs.v
theories/NameMsgProofs.v
theories/NameRepProofs.v
theories/NameRunProofs.v
theories/NameSvc.v
theories/NameSvcProofs.v
theories/NameSvcSpec.v
theories/NetBuf.v
theories/NetBufProofs.v
theories/NetBufSpec.v
theories/Niit.v
theories/NiitProofs.v
theories/NiitSpec.v
theories/NlRoute.v
theories/NlRouteProofs.v
theories/NlRouteSpec.v
theories/Nmea.v
theories/NmeaGga.v
theories/NmeaGgaProofs.v
theories/NmeaGgaSpec.v
theories/NmeaGsa.v
theories/NmeaGsaProofs.v
theories/NmeaGsaSpec.v
theories/NmeaGsv.v
theories/NmeaGsvProofs.v
theories/NmeaGsvSpec.v
theories/NmeaProofs.v
theories/NmeaRmc.v
theories/NmeaRmcProofs.v
theories/NmeaRmcSpec.v
theories/NmeaScan.v
theories/NmeaScanProofs.v
theories/NmeaScanSpec.v
theories/NmeaSpec.v
theories/NmeaTime.v
theories/NmeaTimeProofs.v
theories/NmeaTimeSpec.v
theories/NmeaVtg.v
theories/NmeaVtgProofs.v
theories/P2pd.v
theories/P2pdLanProofs.v
theories/P2pdProofs.v
theories/P2pdSpec.v
theories/Parser.v
theories/ParserProofs.v
theories/ParserSpec.v
theories/PluginUtil.v
theories/PluginUtilProofs.v
theories/PluginUtilSpec.v
theories/PolicyRules.v
theories/PolicyRulesProofs.v
theories/PolicyRulesSpec.v
theories/PosFile.v
theories/PosFileProofs.v
theories/PosFileSpec.v
theories/ProcFs.v
theories/ProcFsProofs.v
theories/ProcFsSpec.v
theories/PropApm.v
theories/PropArpRefresh.v
theories/PropAutobuf.v
theories/PropAvl.v
theories/PropBmfForward.v
theories/PropBmfHistory.v
theories/PropBmfPacket.v
theories/PropBuildHna.v
theories/PropBuildMsg.v
theories/PropCli.v
theories/PropConfCheck.v
theories/PropConfIf.v
theories/PropConfScan.v
theories/PropConfSum.v
theories/PropCookie.v
theories/PropCreateMsg.v
theories/PropDList.v
theories/PropDup.v
theories/PropDynGw.v
theories/PropEgress.v
theories/PropFilterGw.v
theories/PropForward.v
theories/PropGateway.v
theories/PropGwHna.v
theories/PropGwSpeed.v
theories/PropHello.v
theories/PropHna.v
theories/PropHostSwitch.v
theories/PropHttpInfo.v
theories/PropHyst.v
theories/PropInfoOut.v
theories/PropInfoReq.v
theories/PropIp.v
theories/PropIpcFront.v
theories/PropJson.v
theories/PropLinkSet.v
theories/PropLoop.v
theories/PropLqCost.v
theories/PropMantissa.v
theories/PropMd5.v
theories/PropMdnsElect.v
theories/PropMdnsRelay.v
theories/PropMid.v
theories/PropMpr.v
theories/PropMultiGw.v
theories/PropNameSvc.v
theories/PropNetBuf.v
theories/PropNiit.v
theories/PropNlRoute.v
theories/PropNmea.v
theories/PropNmeaGga.v
theories/PropNmeaGsa.v
theories/PropNmeaGsv.v
theories/PropNmeaRmc.v
theories/PropNmeaScan.v
theories/PropNmeaTime.v
theories/PropNmeaVtg.v
theories/PropP2pd.v
theories/PropParser.v
theories/PropPluginUtil.v
theories/PropPolicyRules.v
theories/PropPosFile.v
theories/PropProcFs.v
theories/PropPudId.v
theories/PropPudRx.v
theories/PropPudState.v
theories/PropPudWire.v
theories/PropQuagga.v
theories/PropRfcMsg.v
theories/PropRib.v
theories/PropRtBest.v
theories/PropRunFiles.v
theories/PropSanitise.v
theories/PropSched.v
theories/PropSecure.v
theories/PropSeqNo.v
theories/PropSpeedFile.v
theories/PropSpf.v
theories/PropStrings.v
theories/PropTc.v
theories/PropTcGraph.v
theories/PropTimers.v
theories/PropTwoHop.v
theories/PudId.v
theories/PudIdProofs.v
theories/PudIdSpec.v
theories/PudRx.v
theories/PudRxProofs.v
theories/PudRxSpec.v
theories/PudState.v
theories/PudStateProofs.v
theories/PudStateSpec.v
theories/PudWire.v
theories/PudWireProofs.v
theories/PudWireSpec.v
theories/Quagga.v
theories/QuaggaHnaProofs.v
theories/QuaggaInProofs.v
theories/QuaggaOutProofs.v
theories/QuaggaReadProofs.v
theories/QuaggaRunProofs.v
theories/QuaggaSpec.v
theories/Regex.v
theories/RfcMsg.v
theories/RfcMsgProofs.v
theories/RfcMsgSpec.v
theories/Rib.v
theories/RibProofs.v
theories/RibSpec.v
theories/RtBest.v
theories/RtBestProofs.v
theories/RtBestSpec.v
theories/RunFiles.v
theories/RunFilesProofs.v
theories/RunFilesSpec.v
theories/Sanitise.v
theories/SanitiseProofs.v
theories/SanitiseSpec.v
theories/SchedSpec.v
theories/SchedTime.v
theories/SchedTimeProofs.v
theories/Secure.v
theories/SecureDbProofs.v
theories/SecureHandProofs.v
theories/SecureProofs.v
theories/SecureRunProofs.v
theories/SecureSpec.v
theories/SeqNo.v
theories/SpeedFile.v
theories/SpeedFileProofs.v
theories/SpeedFileSpec.v
theories/Spf.v
theories/SpfGraph.v
theories/SpfProofs.v
theories/SpfSpec.v
theories/Strings.v
theories/StringsProofs.v
theories/StringsSpec.v
theories/Tc.v
theories/TcBase.v
theories/TcFrag.v
theories/TcGraph.v
theories/TcGraphProofs.v
theories/TcGraphSpec.v
theories/TcProofs.v
theories/TcSpec.v
theories/Timers.v
theories/TimersProofs.v
theories/TimersSpec.v
theories/TwoHop.v
theories/TwoHopExec.v
theories/TwoHopProofs.v
theories/TwoHopRunProofs.v
theories/TwoHopSpec.v
