-Q theories Verif
theories/Base.v
theories/PBase.v
theories/MBase64.v
theories/SBase64.v
theories/PBase64.v
theories/TBase64.v
theories/MSerialize.v
theories/SSerialize.v
theories/PSerialize.v
theories/PTimeExact.v
theories/PTimeYears.v
theories/TSerialize.v
theories/MOs.v
theories/POs.v
theories/TOs.v
theories/MJsmn.v
theories/MVoucher.v
theories/SVoucher.v
theories/PVoucher.v
theories/PJsmn.v
theories/SJson.v
theories/PVoucherText.v
theories/TJsmn.v
theories/TVoucher.v
theories/PJsonTok.v
theories/PVoucherJson.v
theories/PVoucherRound.v
theories/TVoucherJson.v
theories/MCrypto.v
theories/MRequest.v
theories/SRequest.v
theories/PRequest.v
theories/PRequest2.v
theories/PRequest3.v
theories/PRequest4.v
theories/PRequest5.v
theories/PRequest6.v
theories/TRequest.v
theories/PRequest7.v
theories/TRequestExact.v
theories/MHeap.v
theories/MArray.v
theories/SHeap.v
theories/SArray.v
theories/PHeap.v
theories/PArray.v
theories/TArray.v
theories/MVoucherHeap.v
theories/SVoucherHeap.v
theories/PVoucherHeap.v
theories/PVoucherHeapJson.v
theories/PVoucherHeapOom.v
theories/PVoucherHeapWritten.v
theories/PVoucherHeapFind.v
theories/TVoucherHeap.v
theories/PBlocks.v
theories/MConfig.v
theories/SConfig.v
theories/PConfig.v
theories/PConfigMore.v
theories/PCertFiles.v
theories/PConfigExact.v
theories/TConfig.v
theories/MHandlers.v
theories/SHandlers.v
theories/POwn.v
theories/PAcquire.v
theories/PAcquire2.v
theories/PMasa.v
theories/PMasa2.v
theories/PRegistrar.v
theories/PEnroll.v
theories/PRegistrar2.v
theories/THandlers.v
theories/SPledge.v
theories/PPledge.v
theories/PPledge2.v
theories/PPledge3.v
theories/PPledge4.v
theories/TPledge.v
theories/SChain.v
theories/PChain.v
theories/PChain2.v
theories/TChain.v
theories/MConcurrent.v
theories/SConcurrent.v
theories/PConcurrent.v
theories/TConcurrent.v
theories/MLog.v
theories/SLog.v
theories/PLog.v
theories/PLog2.v
theories/TLog.v
theories/MHttp.v
theories/SHttp.v
theories/PHttp.v
theories/PHttp2.v
theories/THttp.v
theories/MSignCert.v
theories/SSignCert.v
theories/PSignCert.v
theories/PSignCert2.v
theories/PSignCert3.v
theories/TSignCert.v
theories/MMain.v
theories/SMain.v
theories/PMain.v
theories/PMain2.v
theories/PMain3.v
theories/PMain4.v
theories/PMain5.v
theories/PMain6.v
theories/TMain.v
theories/MObjects.v
theories/MObjectFiles.v
theories/SObjects.v
theories/PObjects.v
theories/PObjects2.v
theories/PObjects3.v
theories/PObjects4.v
theories/PObjects5.v
theories/PObjects6.v
theories/PObjects7.v
theories/PObjects8.v
theories/PObjects9.v
theories/PObjects10.v
theories/TObjects.v
theories/MEnrolLog.v
theories/MEnrolLogHeap.v
theories/SEnrolLog.v
theories/SEnrolLogHeap.v
theories/PKlist.v
theories/PEnrolLog.v
theories/PEnrolLog2.v
theories/PEnrolLogHeap.v
theories/TEnrolLog.v
theories/MTls.v
theories/STls.v
theories/PTls.v
theories/PTls2.v
theories/PTls3.v
theories/TTls.v
theories/MWire.v
theories/SWire.v
theories/PWire.v
theories/PWire2.v
theories/PWire3.v
theories/PWire4.v
theories/PWire5.v
theories/PWire6.v
theories/PWire7.v
theories/PWire8.v
theories/TWire.v
theories/MLink.v
theories/SLink.v
theories/PLink.v
theories/PLink2.v
theories/PLink3.v
theories/PLink4.v
theories/TLink.v
theories/MConcurrentReg.v
theories/SConcurrentReg.v
theories/PConcurrentReg.v
theories/PConcurrentReg2.v
theories/PConcurrentReg3.v
theories/PConcurrentReg4.v
theories/PConcurrentReg5.v
theories/SConcurrentMasa.v
theories/PConcurrentMasa.v
theories/PConcurrentMasa2.v
theories/PConcurrentMasa3.v
theories/TConcurrentReg.v
theories/MSerialHeap.v
theories/SSerialHeap.v
theories/PHold.v
theories/PSerialHeap.v
theories/PSerialHeap2.v
theories/PSerialHeap3.v
theories/PSerialHeap4.v
theories/TSerialHeap.v
theories/MRequestHeap.v
theories/SRequestHeap.v
theories/PRequestHeap.v
theories/PRequestHeap2.v
theories/PRequestHeap3.v
theories/PRequestHeap4.v
theories/PRequestHeap5.v
theories/TRequestHeap.v
theories/PRequestHeap6.v
theories/PRequestHeap7.v
theories/PRequestHeap8.v
theories/PRequestHeap9.v
theories/TMasaHeap.v
theories/PRequestHeap10.v
theories/PRequestHeap11.v
theories/PRequestHeap12.v
theories/TPledgeHeap.v
theories/PObjectResults.v
theories/TObjectFiles.v
theories/SJsonMore.v
theories/PJsonPrefix.v
theories/PVoucherPrefix.v
theories/PVoucherPrefix2.v
theories/PRequestMore.v
theories/TVoucherMore.v
theories/TRequestMore.v
theories/MHandlerHeap.v
theories/SHandlerHeap.v
theories/SHonestHeap.v
theories/PHandlerHeap.v
theories/PHandlerHeap2.v
theories/PHandlerHeap3.v
theories/PHandlerHeap4.v
theories/PHandlerHeap5.v
theories/PHandlerHeap6.v
theories/PHandlerHeap7.v
theories/PHandlerHeap8.v
theories/PHandlerHeap9.v
theories/PHandlerHeap10.v
theories/PHonestHeap.v
theories/THandlerHeap.v
theories/PHonestHeap2.v
theories/PHonestHeap3.v
theories/PHonestHeap4.v
theories/THonestHeap.v
theories/MEnrolHeap.v
theories/SEnrolHeap.v
theories/PEnrolHeap.v
theories/PEnrolHeap2.v
theories/TEnrolHeap.v
theories/MLife.v
theories/SLife.v
theories/PLife.v
theories/PLife2.v
theories/PLife3.v
theories/PLife4.v
theories/TLife.v
theories/MRange.v
theories/SRange.v
theories/PRange.v
theories/PRange2.v
theories/PRange3.v
theories/TRange.v
theories/SChunk.v
theories/PChunk.v
theories/PChunk2.v
theories/PChunk3.v
theories/TChunk.v
theories/MSocket.v
theories/SSocket.v
theories/PSocket.v
theories/PSocket2.v
theories/PSocket3.v
theories/PSocket4.v
theories/TSocket.v
theories/STarget.v
theories/PTarget.v
theories/PTarget2.v
theories/PTarget3.v
theories/TTarget.v
theories/MSignHeap.v
theories/SSignHeap.v
theories/PSignHeap.v
theories/PSignHeap2.v
theories/PSignHeap3.v
theories/PSignHeap4.v
theories/TSignHeap.v
theories/SSignHonest.v
theories/PSignHonest.v
theories/PSignHonest2.v
theories/TSignHonest.v
theories/SSignShort.v
theories/PSignShort.v
theories/PSignShort2.v
theories/PSignShort3.v
theories/TSignShort.v
theories/SJsonTree.v
theories/PJsonTree.v
theories/PJsonTree2.v
theories/PJsonTree3.v
theories/SJsonVoucher.v
theories/PJsonVoucher.v
theories/PJsonVoucher2.v
theories/TJsonTree.v
theories/SLength.v
theories/PLength.v
theories/PLength2.v
theories/TLength.v
theories/MMultipart.v
theories/SMultipart.v
theories/PMultipart.v
theories/PHeadLines.v
theories/PMultipart2.v
theories/PMultipart3.v
theories/PMultipart4.v
theories/PMultipart5.v
theories/PMultipart6.v
theories/SMultipart2.v
theories/PMultipart7.v
theories/PMultipart8.v
theories/TMultipart.v
theories/SCase.v
theories/PCase.v
theories/TCase.v
theories/SVoucherRfc.v
theories/PVoucherRfc.v
theories/TVoucherRfc.v
theories/SWireText.v
theories/PWireText.v
theories/TWireText.v
theories/SAnswerText.v
theories/PAnswerText.v
theories/TAnswerText.v
