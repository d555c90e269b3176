-Q theories Verif
theories/CBase.v
theories/Bits.v
theories/SpecNames.v
theories/ModelBlockHash.v
theories/SpecBlockHash.v
theories/ProofBlockHashRead.v
theories/ProofBlockHashMake.v
theories/ProofBlockHashWild.v
theories/PropsBlockHash.v
theories/ModelDwHash.v
theories/SpecCache.v
theories/SpecCacheRun.v
theories/ProofRing.v
theories/ProofDwHashFila.v
theories/ProofDwHashChain.v
theories/ProofDwHashInv.v
theories/ProofDwHashRefine.v
theories/ProofCacheSpec.v
theories/ProofCacheHist.v
theories/PropsCache.v
theories/SpecCacheFile.v
theories/ModelDwHashFile.v
theories/ProofDwHashFile.v
theories/PropsCacheFile.v
theories/SpecDict.v
theories/ModelDwDict.v
theories/ProofDwDict.v
theories/PropsDict.v
theories/SpecDwStr.v
theories/ModelDwStr.v
theories/ProofDwStr.v
theories/ModelDwCompress.v
theories/ProofDwCompressSafe.v
theories/SpecMessage.v
theories/SpecDeadwoodMsg.v
theories/ProofDwDecomp.v
theories/ProofMessage.v
theories/PropsDecompress.v
theories/SpecAnswer.v
theories/ModelDwDnsStr.v
theories/ProofDwDnsStr.v
theories/ProofDwRotate.v
theories/ProofDwDnsSafe.v
theories/PropsAnswer.v
theories/ModelDwRecurse.v
theories/ProofDwRecurseSafe.v
theories/SpecReply.v
theories/ProofDwNames.v
theories/ProofDwReply.v
theories/ProofDwDissect.v
theories/ProofDwRefer.v
theories/ProofDwReplyAll.v
theories/PropsRecurse.v
theories/ByteEnum.v
theories/SpecQuery.v
theories/ProofDwDname.v
theories/PropsQuery.v
theories/ModelDwSys.v
theories/SpecAcl.v
theories/ProofDwSys.v
theories/PropsAcl.v
theories/ModelDwUdp.v
theories/ModelDwPend.v
theories/SpecUdp.v
theories/ProofDwUdp.v
theories/ProofDwPend.v
theories/PropsUdp.v
theories/ModelDwPack.v
theories/SpecPack.v
theories/ProofDwPack.v
theories/ProofDwPackSafe.v
theories/ProofDwPackAll.v
theories/PropsPack.v
theories/ModelJsStr.v
theories/SpecJsStr.v
theories/ProofJsStr.v
theories/ProofJsSearch.v
theories/PropsJsStr.v
theories/ModelQueries.v
theories/SpecQueries.v
theories/ProofQueries.v
theories/ProofHname.v
theories/ProofEmail.v
theories/ProofQuestion.v
theories/ProofSqueeze.v
theories/PropsQueries.v
theories/PropsPacket.v
theories/ModelMaraHash.v
theories/SpecMaraHash.v
theories/ProofMaraHash.v
theories/PropsMaraHash.v
theories/ModelIpAcl.v
theories/SpecIpAcl.v
theories/ProofIpAcl.v
theories/ProofIpAclList.v
theories/ProofIpAclSafe.v
theories/PropsIpAcl.v
theories/ModelDecomp.v
theories/SpecDecomp.v
theories/ProofJsList.v
theories/ProofDecompList.v
theories/ProofDecompPacket.v
theories/ProofDecompSpec.v
theories/ProofDecompRec.v
theories/PropsDecomp.v
theories/ModelCompress.v
theories/SpecCompress.v
theories/ProofCompList.v
theories/ProofCompPacket.v
theories/ProofCompName.v
theories/ProofCompRec.v
theories/ProofCompMsg.v
theories/PropsCompress.v
theories/ModelDwTcp.v
theories/SpecTcp.v
theories/ProofDwTcp.v
theories/ProofDwTcpRun.v
theories/ProofDwTcpSafe.v
theories/ProofDwTcpSend.v
theories/ProofDwTcpUp.v
theories/ProofDwTcpSlot.v
theories/PropsTcp.v
theories/ModelDwRadioGatun.v
theories/SpecRadioGatun.v
theories/ProofDwRadioGatun.v
theories/PropsRadioGatun.v
theories/ModelIp6.v
theories/SpecIp6.v
theories/ProofIp6.v
theories/ProofIp6Safe.v
theories/ProofIp6Colon.v
theories/ProofIp6Quad.v
theories/ProofIp6Exact.v
theories/ProofIp6All.v
theories/ProofIp6Text.v
theories/ProofIp6Digits.v
theories/PropsIp6.v
theories/ModelColunacy.v
theories/SpecColunacy.v
theories/ProofColunacy.v
theories/ProofColunacyServe.v
theories/ProofColunacySafe.v
theories/ProofColunacyUp.v
theories/ProofColunacySend.v
theories/PropsColunacy.v
theories/ModelServe.v
theories/SpecServe.v
theories/ProofServe.v
theories/ProofServeRun.v
theories/ProofServeFind.v
theories/ProofServeAll.v
theories/PropsServe.v
theories/ModelServeMain.v
theories/SpecServeSafe.v
theories/ProofServeSafe.v
theories/ProofServeEvery.v
theories/PropsServeSafe.v
theories/ModelCsv2.v
theories/SpecCsv2.v
theories/ProofCsv2.v
theories/ProofCsv2Names.v
theories/ProofCsv2Addr.v
theories/ProofCsv2Any.v
theories/PropsCsv2.v
theories/ModelCsv2Rr.v
theories/SpecCsv2Rr.v
theories/ProofCsv2Rr.v
theories/PropsCsv2Rr.v
theories/ModelBigHash.v
theories/SpecBigHash.v
theories/ProofBigHash.v
theories/ProofBigAuth.v
theories/ProofBigRun.v
theories/ProofBigInv.v
theories/ProofBigStep.v
theories/ProofBigZap.v
theories/ProofBigLoad.v
theories/ProofBigAll.v
theories/PropsBigHash.v
theories/ModelSuccess.v
theories/SpecSuccess.v
theories/ProofFit.v
theories/PropsFit.v
theories/ProofSuccess.v
theories/PropsSuccess.v
theories/ProofCsv2Safe.v
theories/PropsCsv2Safe.v
theories/ModelCsv2Txt.v
theories/SpecCsv2Txt.v
theories/ProofCsv2Txt.v
theories/ProofCsv2TxtAny.v
theories/PropsCsv2Txt.v
theories/ModelCsv2Zone.v
theories/SpecCsv2Zone.v
theories/ProofCsv2Zone.v
theories/ProofCsv2Lines.v
theories/PropsCsv2Zone.v
theories/SpecCsv2ZoneAny.v
theories/ProofCsv2ZoneAny.v
theories/PropsCsv2ZoneAny.v
theories/ModelCsv2Aaaa.v
theories/SpecCsv2Aaaa.v
theories/ProofCsv2Aaaa.v
theories/ProofCsv2AaaaAny.v
theories/PropsCsv2Aaaa.v
theories/ModelCsv2Soa.v
theories/SpecCsv2Soa.v
theories/ProofCsv2Soa.v
theories/ProofCsv2SoaAny.v
theories/PropsCsv2Soa.v
theories/ModelCsv2Wks.v
theories/SpecCsv2Wks.v
theories/ProofCsv2Wks.v
theories/PropsCsv2Wks.v
