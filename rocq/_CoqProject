-Q theories Verif

theories/Assumptions.v
theories/Base.v
theories/BaseLemmas.v
theories/Digest.v
theories/DigestTests.v
theories/ModelBase.v
theories/ModelBody.v
theories/ModelBoth.v
theories/ModelConc.v
theories/ModelConn.v
theories/ModelDecode.v
theories/ModelDelta.v
theories/ModelGateway.v
theories/ModelHttp.v
theories/ModelIdx.v
theories/ModelJson.v
theories/ModelLfs.v
theories/ModelLfsConc.v
theories/ModelLoose.v
theories/ModelObject.v
theories/ModelPack.v
theories/ModelPkt.v
theories/ModelProto.v
theories/ModelRead.v
theories/ModelService.v
theories/ModelStorage.v
theories/ModelUtils.v
theories/ProofBase.v
theories/ProofBoth.v
theories/ProofClone.v
theories/ProofConc.v
theories/ProofContent.v
theories/ProofDecode.v
theories/ProofDelta.v
theories/ProofDiff.v
theories/ProofEncode.v
theories/ProofExample.v
theories/ProofFields.v
theories/ProofGateway.v
theories/ProofGrammar.v
theories/ProofGraph.v
theories/ProofHttp.v
theories/ProofIdx.v
theories/ProofLfs.v
theories/ProofLfsApart.v
theories/ProofLfsConc.v
theories/ProofLoose.v
theories/ProofLossy.v
theories/ProofNodes.v
theories/ProofObject.v
theories/ProofPack.v
theories/ProofPackAny.v
theories/ProofPackDir.v
theories/ProofPath.v
theories/ProofPkt.v
theories/ProofPush.v
theories/ProofRefs.v
theories/ProofReply.v
theories/ProofRepo.v
theories/ProofReq.v
theories/ProofSerde.v
theories/ProofService.v
theories/ProofSession.v
theories/ProofShort.v
theories/ProofSnapshot.v
theories/ProofStorage.v
theories/ProofTogether.v
theories/ProofUtf8.v
theories/ProofUtils.v
theories/ProofWhole.v
theories/ProofWrite.v
theories/PropAccept.v
theories/PropAddress.v
theories/PropAnswer.v
theories/PropBase.v
theories/PropBody.v
theories/PropBook.v
theories/PropBoth.v
theories/PropCaps.v
theories/PropCase.v
theories/PropConc.v
theories/PropConn.v
theories/PropContent.v
theories/PropDecode.v
theories/PropDelta.v
theories/PropDir.v
theories/PropDuring.v
theories/PropDuringSsh.v
theories/PropFail.v
theories/PropFetch.v
theories/PropFiles.v
theories/PropFit.v
theories/PropForm.v
theories/PropGateway.v
theories/PropGlance.v
theories/PropGreet.v
theories/PropHttp.v
theories/PropIdx.v
theories/PropLfsApart.v
theories/PropLfsConc.v
theories/PropLockList.v
theories/PropLocks.v
theories/PropLoose.v
theories/PropNegotiate.v
theories/PropObject.v
theories/PropOnce.v
theories/PropOrder.v
theories/PropOutage.v
theories/PropPack.v
theories/PropPath.v
theories/PropPick.v
theories/PropPkt.v
theories/PropProto.v
theories/PropRead.v
theories/PropRetry.v
theories/PropRows.v
theories/PropSerde.v
theories/PropServer.v
theories/PropService.v
theories/PropShelf.v
theories/PropSsh.v
theories/PropStorage.v
theories/PropTail.v
theories/PropThin.v
theories/PropTogether.v
theories/PropTransfer.v
theories/PropUtils.v
theories/PropWire.v
theories/SpecBase.v
theories/SpecBook.v
theories/SpecConc.v
theories/SpecConn.v
theories/SpecDecode.v
theories/SpecDelta.v
theories/SpecDiff.v
theories/SpecFetch.v
theories/SpecFormat.v
theories/SpecGateway.v
theories/SpecHttp.v
theories/SpecIdx.v
theories/SpecJson.v
theories/SpecLfs.v
theories/SpecLfsConc.v
theories/SpecLoose.v
theories/SpecObject.v
theories/SpecPack.v
theories/SpecPath.v
theories/SpecPkt.v
theories/SpecProto.v
theories/SpecReply.v
theories/SpecServer.v
theories/SpecService.v
theories/SpecShelf.v
theories/SpecStorage.v
theories/SpecWire.v
theories/StoredZlib.v
