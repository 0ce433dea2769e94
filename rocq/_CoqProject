-Q theories Verif
theories/Words.v
theories/ModelRepr.v
theories/ReprProofs.v
theories/ReprProofs2.v
theories/ReprProofs3.v
theories/NumTheory.v
theories/Primality.v
theories/ModelFq.v
theories/ModelFr.v
theories/FqProofs.v
theories/FqProofs2.v
theories/Fp.v
theories/InvZ.v
theories/FqInverse.v
theories/ModelOps.v
theories/ModelTower.v
theories/ModelCurve.v
theories/ModelPairing.v
theories/ModelHash.v
theories/ModelBls.v
theories/Loops.v
theories/FpOps.v
theories/FqRel.v
theories/OpsRel.v
theories/OpsRel2.v
theories/FqTransfer.v
theories/FrProofs.v
theories/FrProofs2.v
theories/ModelFrHeap.v
theories/FrHeapProofs.v
theories/FqMisc.v
theories/ZInst.v
theories/TwoPow.v
theories/Ext.v
theories/ExtFrob.v
theories/TowerProofs.v
theories/TowerLimb.v
theories/Fld.v
theories/Poly.v
theories/EcIdeal.v
theories/EcGroup.v
theories/AbGrp.v
theories/EcJac.v
theories/EcMul.v
theories/Curves.v
theories/CurveLimb.v
theories/CurveMisc.v
theories/Codec.v
theories/FinExp.v
theories/Miller.v
theories/PairBasic.v
theories/PairLimb.v
theories/LineIdeal.v
theories/Cocycle.v
theories/Recip.v
theories/BilinBase.v
theories/MillerVal.v
theories/Bilin.v
theories/UNat.v
theories/UInst.v
theories/GenFacts.v
theories/PairGen.v
theories/PairGen2.v
theories/BlsProofs.v
theories/MsgScreen.v
theories/BlsProofs2.v
theories/BlsProofs3.v
theories/BlsKeys.v
theories/BlsProofs4.v
theories/PockU.v
theories/PrimCof.v
theories/Span.v
theories/EcCount.v
theories/GenCheck.v
theories/Gens.v
theories/Torsion.v
theories/ClearCof.v
theories/PairTor.v
theories/VerifyProofs.v
theories/CountFacts.v
theories/PolyEval.v
theories/IsoProofs.v
theories/SwuProofs.v
theories/HashProofs.v
theories/HashEx.v
theories/SwEnc.v
theories/RandEx.v
theories/HonestEx.v
theories/Sha256.v
theories/KnownAnswer.v
theories/KnownHonest.v
theories/WireProofs.v
theories/RogueProofs.v
theories/ModelSlice.v
theories/SliceProofs.v
theories/ModelPtHeap.v
theories/PtHeapProofs.v
theories/WireEx.v
theories/CasesEx.v
theories/ModelAsmGen.v
theories/AsmGenProofs.v
theories/ModelQ12Heap.v
theories/ModelObjHeap.v
theories/Q12HeapProofs.v
theories/Q12HeapProofs2.v
theories/Q12HeapProofs3.v
theories/Q12HeapEx.v
theories/ObjHeapProofs.v
theories/KeyHeapProofs.v
theories/ModelAsm.v
theories/AsmProg.v
theories/AsmProofs.v
theories/Properties_Words.v
theories/Properties_Field.v
theories/Properties_Tower.v
theories/Properties_Curve.v
theories/Properties_Codec.v
theories/Properties_Pairing.v
theories/Properties_Bls.v
theories/Properties_Verify.v
theories/Properties_Wire.v
theories/Properties_Objects.v
theories/Properties_Memory.v
theories/ModelRand.v
theories/RandProofs.v
theories/RandProofs2.v
theories/RandProofs3.v
theories/Properties_Random.v
theories/ModelStr.v
theories/SrcConst.v
theories/StrProofs.v
theories/StrProofs2.v
theories/StrProofs3.v
theories/Properties_Strings.v
theories/Properties_Hash.v
theories/Properties_Asm.v
theories/ModelSort.v
theories/SortProofs.v
theories/Properties_Sort.v
theories/HashInf.v
theories/HonestInf.v
theories/Properties_Honest.v
theories/SrcAst.v
theories/SrcSem.v
theories/SrcCode.v
theories/SrcCall.v
theories/SrcTac.v
theories/SrcTower.v
theories/SrcCurve.v
theories/SrcLoops.v
theories/SrcLoops2.v
theories/SrcBytes.v
theories/SrcPairing.v
theories/SrcPairing2.v
theories/SrcPairing3.v
theories/SrcHash.v
theories/SrcBls.v
theories/SrcBls2.v
theories/SrcLimb.v
theories/SrcRepr.v
theories/SrcRepr2.v
theories/SrcFq.v
theories/SrcFq2.v
theories/Properties_Src.v
