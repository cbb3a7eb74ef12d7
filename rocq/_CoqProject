-Q theories Verif
theories/CBase.v
theories/PBase.v
theories/MFrame.v
theories/SWire.v
theories/SFrame.v
theories/PFrame.v
theories/PFrame2.v
theories/PropFrame.v
theories/MRecv.v
theories/SRecv.v
theories/PRecv.v
theories/PropRecv.v
theories/MCodec.v
theories/SCodec.v
theories/PCodec.v
theories/PCodec2.v
theories/PropCodec.v
theories/MVar.v
theories/SVar.v
theories/PVar.v
theories/PVar2.v
theories/PVar3.v
theories/PropVar.v
theories/CStr.v
theories/MText.v
theories/SText.v
theories/SXml.v
theories/MXml.v
theories/PXml.v
theories/PText.v
theories/PText2.v
theories/PText3.v
theories/PropText.v
theories/PXml2.v
theories/PXml3.v
theories/PXml4.v
theories/PropXml.v
theories/MSecond.v
theories/MProto.v
theories/SProto.v
theories/PProto.v
theories/SSecond.v
theories/PSecond.v
theories/PropSecond.v
theories/PProto2.v
theories/PropProto.v
theories/PReq.v
theories/SReq.v
theories/PReq2.v
theories/PropReq.v
theories/MHex.v
theories/SHex.v
theories/PropHex.v
theories/MDouble.v
theories/PDouble.v
theories/MUnit.v
theories/SUnit.v
theories/PropUnit.v
theories/PropUnit2.v
theories/SBus.v
theories/PBus.v
theories/PBus2.v
theories/PBus3.v
theories/PropBus.v
theories/SLine.v
theories/PLine.v
theories/PropLine.v
theories/SNorm.v
theories/PNorm.v
theories/PropNorm.v
theories/MXmlN.v
theories/SXmlN.v
theories/PXmlN.v
theories/PropXmlN.v
theories/SUText.v
theories/SMean.v
theories/PropUText.v
theories/PropMean.v
theories/SName.v
theories/PropName.v
theories/SNet.v
theories/MTools.v
theories/PNet.v
theories/PNet2.v
theories/PropNet.v
theories/MConn.v
theories/SConn.v
theories/PConn.v
theories/PConn2.v
theories/PConn3.v
theories/PConn4.v
theories/PropConn.v
theories/SChain.v
theories/PChain.v
theories/PropChain.v
theories/PAny.v
theories/PropAny.v
theories/MProg.v
theories/PProg.v
theories/PropProg.v
theories/MMon.v
theories/SMon.v
theories/PMon.v
theories/PropMon.v
theories/MPrint.v
theories/SPrint.v
theories/PPrint.v
theories/PropPrint.v
theories/MMem.v
theories/SMem.v
theories/PMem.v
theories/PMem2.v
theories/PropMem.v
theories/MMemN.v
theories/SMemN.v
theories/PMemN.v
theories/PropMemN.v
theories/MScan.v
theories/SScan.v
theories/PScan.v
theories/PropScan.v
theories/MReqM.v
theories/SReqM.v
theories/PReqM.v
theories/PropReqM.v
theories/MErr.v
theories/SErr.v
theories/PErr.v
theories/PErr2.v
theories/PErr3.v
theories/PErr4.v
theories/PErr5.v
theories/PErr6.v
theories/PropErr.v
theories/MErrT.v
theories/SErrT.v
theories/PErrT.v
theories/PropErrT.v
theories/SDoc.v
theories/PDoc.v
theories/PropDoc.v
theories/SDocN.v
theories/PropDocN.v
theories/MDebug.v
theories/SDebug.v
theories/PropDebug.v
theories/MCmd.v
theories/SCmd.v
theories/PCmd.v
theories/PropCmd.v
theories/MMain.v
theories/SMain.v
theories/PMain.v
theories/PropMain.v
theories/SProduct.v
theories/PropProduct.v
theories/MStatic.v
theories/SStatic.v
theories/PStatic.v
theories/PStatic2.v
theories/PStatic3.v
theories/PropStatic.v
theories/SAgree.v
theories/PAgree.v
theories/PropAgree.v
theories/SSmall.v
theories/PSmall.v
theories/PropSmall.v
theories/SNew.v
theories/PropNew.v
theories/MErrA.v
theories/SErrA.v
theories/PErrA.v
theories/PErrA2.v
theories/PErrA3.v
theories/PropErrA.v
theories/MMainE.v
theories/SMainE.v
theories/PMainE.v
theories/PMainE2.v
theories/PMainE3.v
theories/PropMainE.v
theories/PropSmall2.v
