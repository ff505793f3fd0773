-Q theories Verif
theories/Base.v
theories/PeerId.v
theories/Db.v
theories/DbSpec.v
theories/DbProofs.v
theories/DbThms.v
theories/DbThms2.v
theories/DbThms3.v
theories/DbProperties.v
theories/DbThms5.v
theories/DbThms6.v
theories/DbProperties2.v
theories/Auth.v
theories/AuthSpec.v
theories/AuthThms.v
theories/AuthThms2.v
theories/AuthThms3.v
theories/AuthThms4.v
theories/AuthThms5.v
theories/AuthProperties.v
theories/PeerSpec.v
theories/PeerThms.v
theories/PeerThms2.v
theories/PeerProperties.v
theories/Gsup.v
theories/Router.v
theories/Hlr.v
theories/HlrSpec.v
theories/HlrThms.v
theories/RouterThms.v
theories/RouterThms2.v
theories/HlrThms2.v
theories/HlrThms3.v
theories/HlrStep.v
theories/HlrThms4.v
theories/PurgeThms.v
theories/HlrThms5.v
theories/HlrThms6.v
theories/HlrThms7.v
theories/HlrThms8.v
theories/HlrThms10.v
theories/HlrSpec2.v
theories/HlrThms9.v
theories/NotifyThms.v
theories/UssdCfg.v
theories/UssdSpec.v
theories/UssdThms.v
theories/UssdThms2.v
theories/SmsCfg.v
theories/SmsSpec.v
theories/SmsThms.v
theories/HlrExamples.v
theories/RouterThms3.v
theories/RouterThms4.v
theories/RouterProperties.v
theories/HlrProperties.v
theories/NotifyProperties.v
theories/UssdProperties.v
theories/SmsProperties.v
theories/MsLookup.v
theories/MsSpec.v
theories/MsThms.v
theories/MsProperties.v
theories/Mdns.v
theories/MdnsSpec.v
theories/MdnsThms.v
theories/MdnsThms2.v
theories/MdnsSpec2.v
theories/MdnsThms3.v
theories/MdnsThms4.v
theories/MdnsProperties.v
theories/MsClient.v
theories/MsClientSpec.v
theories/MsClientThms.v
theories/MsClientThms2.v
theories/MsClientProperties.v
theories/Proxy.v
theories/MsServer.v
theories/MsServerSpec.v
theories/MsServerThms.v
theories/MsServerThms2.v
theories/MsServerProperties.v
theories/Dgsm.v
theories/DgsmSpec.v
theories/DgsmThms.v
theories/DgsmThms2.v
theories/DgsmThms3.v
theories/DgsmThms4.v
theories/DgsmThms5.v
theories/DgsmThms6.v
theories/DgsmThms7.v
theories/DgsmProperties.v
theories/Upgrade.v
theories/UpgradeSpec.v
theories/UpgradeThms.v
theories/UpgradeThms2.v
theories/UpgradeThms3.v
theories/UpgradeThms4.v
theories/UpgradeThms5.v
theories/UpgradeThms6.v
theories/UpgradeThms7.v
theories/UpgradeThms8.v
theories/UpgradeProperties.v
theories/Dbd.v
theories/DbdSpec.v
theories/DbdThms.v
theories/DbdProperties.v
theories/Client.v
theories/ClientSpec.v
theories/ClientThms.v
theories/ClientThms2.v
theories/ClientProperties.v
theories/ClientMux.v
theories/MuxSpec.v
theories/MuxThms.v
theories/MuxProperties.v
theories/Ctrl.v
theories/CtrlSpec.v
theories/CtrlThms.v
theories/CtrlThms2.v
theories/CtrlThms3.v
theories/CtrlThms4.v
theories/CtrlThms5.v
theories/CtrlThms6.v
theories/CtrlProperties.v
theories/VtySubscr.v
theories/VtySpec.v
theories/VtyThms.v
theories/VtyThms2.v
theories/VtyThms3.v
theories/VtyThms4.v
theories/VtyThms5.v
theories/VtyThms6.v
theories/VtyProperties.v
theories/VtyList.v
theories/VtyListSpec.v
theories/VtyListThms.v
theories/VtyListProperties.v
theories/Nitb.v
theories/NitbSpec.v
theories/NitbThms.v
theories/NitbThms2.v
theories/NitbProperties.v
theories/Config.v
theories/ConfigSpec.v
theories/ConfigSpec2.v
theories/ConfigThms.v
theories/ConfigThms2.v
theories/ConfigThms3.v
theories/ConfigThms4.v
theories/ConfigThms5.v
theories/ConfigThms6.v
theories/ConfigThms7.v
theories/ConfigThms8.v
theories/ConfigThms9.v
theories/ConfigThms10.v
theories/ConfigProperties.v
theories/MsTool.v
theories/MsToolSpec.v
theories/MsToolThms.v
theories/MsToolThms2.v
theories/MsToolThms3.v
theories/MsToolThms4.v
theories/MsToolThms5.v
theories/MsToolThms6.v
theories/MsToolThms7.v
theories/MsToolThms8.v
theories/MsToolThms9.v
theories/MsToolThms10.v
theories/MsToolThms12.v
theories/MsToolProperties.v
theories/MsNet.v
theories/MsNetSpec.v
theories/MsNetThms.v
theories/MsNetThms2.v
theories/MsNetThms3.v
theories/MsNetProperties.v
theories/DgsmRun.v
theories/DgsmRunSpec.v
theories/DgsmRunThms.v
theories/DgsmRunThms2.v
theories/DgsmRunThms3.v
theories/DgsmRunProperties.v
theories/DbThms4.v
theories/MsToolThms11.v
theories/ContentSpec.v
theories/ContentThms.v
theories/ContentThms2.v
theories/ContentProperties.v
theories/NetSpec.v
theories/NetThms.v
theories/NetThms2.v
theories/NetThms3.v
theories/NetProperties.v
theories/Frame.v
theories/FrameSpec.v
theories/FrameThms.v
theories/FrameProperties.v
theories/SizeSpec.v
theories/SizeThms.v
theories/SizeThms2.v
theories/SizeProperties.v
theories/Euse.v
theories/EuseSpec.v
theories/EuseThms.v
theories/EuseProperties.v
theories/LocSpec.v
theories/LocThms.v
theories/LocProperties.v
theories/Main.v
theories/MainSpec.v
theories/MainThms.v
theories/MainProperties.v
theories/Cmd.v
theories/CmdSpec.v
theories/CmdThms.v
theories/CmdThms2.v
theories/CmdProperties.v
theories/Post.v
theories/PostSpec.v
theories/PostThms.v
theories/PostThms2.v
theories/PostThms3.v
theories/PostProperties.v
theories/VtyText.v
theories/VtyTextSpec.v
theories/VtyTextThms.v
theories/VtyTextThms2.v
theories/VtyTextThms3.v
theories/VtyTextThms4.v
theories/VtyTextThms5.v
theories/VtyTextThms6.v
theories/VtyTextThms7.v
theories/VtyTextThms8.v
theories/VtyTextProperties.v
theories/Scripts.v
theories/ScriptsSpec.v
theories/ScriptsThms.v
theories/ScriptsThms2.v
theories/ScriptsThms3.v
theories/ScriptsProperties.v
theories/TestClient.v
theories/TestSpec.v
theories/TestThms.v
theories/TestThms2.v
theories/TestThms3.v
theories/TestThms4.v
theories/TestProperties.v
theories/FakeMethod.v
theories/FakeSpec.v
theories/FakeThms.v
theories/FakeThms2.v
theories/FakeThms3.v
theories/FakeProperties.v
theories/Populate.v
theories/PopulateSpec.v
theories/PopulateThms.v
theories/PopulateThms2.v
theories/PopulateThms3.v
theories/PopulateThms4.v
theories/PopulateProperties.v
