-Q theories Verif
theories/Base.v
theories/BaseFacts.v
theories/ByteConv.v
theories/Util.v
theories/SpecCodec.v
theories/CodecProofs.v
theories/PropCodec.v
theories/MCRing.v
theories/EC.v
theories/ECGroup.v
theories/Fp.v
theories/Pock.v
theories/PrimesSecp.v
theories/PrimesBN.v
theories/ZMod.v
theories/SpecCurve.v
theories/ZCurve.v
theories/ZOrder.v
theories/CertSecp.v
theories/CertBN.v
theories/P256.v
theories/SecpGroup.v
theories/ZField.v
theories/Pedersen.v
theories/SpecSecp.v
theories/SecpProofs.v
theories/SecpDL.v
theories/SecpMain.v
theories/SecpLaws.v
theories/PropSecp.v
theories/Vector.v
theories/Bulletproofs.v
theories/SpecBP.v
theories/VecProofs.v
theories/VecLaws.v
theories/BipProofs.v
theories/BipLaws.v
theories/BpProofs.v
theories/BpLaws.v
theories/BpMore.v
theories/BpSetup.v
theories/BpExamples.v
theories/PropBP.v
theories/BB.v
theories/CCS08.v
theories/SpecCCS.v
theories/CCSProofs.v
theories/CCSRange.v
theories/CCSLaws.v
theories/CCSInterval.v
theories/CCSExamples.v
theories/PropCCS.v
theories/BN256.v
theories/FieldExt.v
theories/CertXi.v
theories/BNTower.v
theories/BNField.v
theories/ZExp.v
theories/BNFrob.v
theories/BNFinal.v
theories/Jac.v
theories/PtGroup.v
theories/SpecBN.v
theories/BNG1.v
theories/BNGroup.v
theories/BNG2.v
theories/BNOrder2.v
theories/CertBN2.v
theories/BNGroup2.v
theories/BNBytes.v
theories/BNEnc.v
theories/BNAlias.v
theories/SpecPair.v
theories/PtMap.v
theories/BNLine.v
theories/BNEigen.v
theories/BNMiller.v
theories/BNPair.v
theories/Cocycle.v
theories/CocycleExt.v
theories/AteBilin.v
theories/BNBilin.v
theories/CertSmall.v
theories/BNLaws.v
theories/BNNeg.v
theories/Limb.v
theories/FastFp.v
theories/FastTower.v
theories/NonDegen.v
theories/BNExact.v
theories/PropBN.v
theories/BNOps.v
theories/BNInst.v
theories/EndProofs.v
theories/BNNegRuns.v
theories/PropEnd.v
theories/BNHeap.v
theories/HeapLogic.v
theories/BNHeapProofs.v
theories/BNStale.v
theories/BNHeapTower.v
theories/BNHeapCurve.v
theories/BNHeapPair.v
theories/BNHeapFinal.v
theories/BNHeapApi.v
theories/SpecHeap.v
theories/BNHeapTransfer.v
theories/BNHeapTheorems.v
theories/BNMulStale.v
theories/BNHeapCount.v
theories/BNHeapMath.v
theories/BNHeapExamples.v
theories/PropHeap.v
theories/SpecExtract.v
theories/ExtractProofs.v
theories/ExtractExamples.v
theories/PropExtract.v
theories/Rand.v
theories/SpecRand.v
theories/RandProofs.v
theories/RandGroup.v
theories/PropRand.v
theories/RandTape.v
theories/SpecTape.v
theories/RandTapeProofs.v
theories/SpecOrder.v
theories/RandOrder.v
theories/PropTape.v
theories/BNAccess.v
theories/BNAccessProofs.v
theories/PropAccess.v
