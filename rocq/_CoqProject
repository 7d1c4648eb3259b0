-Q theories Verif
theories/Base.v
theories/Prim.v
theories/PrimProofs.v
theories/Loop.v
theories/Vuint.v
theories/VuintProofs.v
theories/Dbl.v
theories/DblProofs.v
theories/VDiv.v
theories/VDivEst.v
theories/VDivProofs.v
theories/P_VDiv.v
theories/P_Vuint.v
theories/StrSpec.v
theories/VStr.v
theories/VStrProofs.v
theories/P_Str.v
theories/Vsint.v
theories/VsintProofs.v
theories/P_Vsint.v
theories/ZmZ.v
theories/ZmZProofs.v
theories/Power.v
theories/PowerProofs.v
theories/P_ZmZ.v
theories/Alg.v
theories/FpSpec.v
theories/Pock.v
theories/Primes.v
theories/Cfg.v
theories/FpM.v
theories/FpProofs.v
theories/FpInvProofs.v
theories/FpApi.v
theories/FpApiProofs.v
theories/FpInit.v
theories/FpInitProofs.v
theories/FpCProofs.v
theories/FpWit.v
theories/P_Fp.v
theories/TowerSpec.v
theories/TowerField.v
theories/TowerM.v
theories/Fp2Proofs.v
theories/Fp6Proofs.v
theories/Frob.v
theories/ParamM.v
theories/ParamProofs.v
theories/FinalM.v
theories/FinalProofs.v
theories/FinalExp.v
theories/TowerWit.v
theories/TowerApi.v
theories/P_Tower.v
theories/Poly.v
theories/EcSpec.v
theories/EcGroup.v
theories/EcM.v
theories/EcProofs.v
theories/EcInst.v
theories/EcFrob.v
theories/EcApi.v
theories/EcTors.v
theories/P_Ec.v
theories/PairM.v
theories/Cocyc.v
theories/Biext.v
theories/PairProofs.v
theories/PairE.v
theories/PairH.v
theories/PairStep.v
theories/PairBil.v
theories/PairLin.v
theories/PairApi.v
theories/PairObj.v
theories/PairLine.v
theories/EcZ.v
theories/PairTop.v
theories/Gen2.v
theories/P_Pair.v
theories/SnarkPow.v
theories/SnarkSmall.v
theories/SnarkRun.v
theories/SnarkFinal.v
theories/SnarkWit.v
theories/SnarkMil.v
theories/SnarkBiext.v
theories/SnarkAte.v
theories/SnarkBil.v
theories/SnarkLin.v
theories/SnarkTop.v
theories/Gen2S.v
theories/SnarkZero.v
theories/P_Snark.v
theories/TextM.v
theories/TextSpec.v
theories/TextProofs.v
theories/TextBad.v
theories/P_Text.v
theories/ConcM.v
theories/ConcProofs.v
theories/P_Conc.v
theories/InitM.v
theories/Init12.v
theories/InitProofs.v
theories/P_Init.v
theories/X64.v
theories/XLog.v
theories/JitSpec.v
theories/XTac.v
theories/XReg.v
theories/JitFp.v
theories/JitMac.v
theories/JitMac2.v
theories/JitMul.v
theories/JitMont.v
theories/JitMul4.v
theories/JitMod.v
theories/JitZm.v
theories/JitZmProofs.v
theories/JitZmMul.v
theories/JitZmApi.v
theories/JitFrame.v
theories/JitFpSpec.v
theories/JitRep.v
theories/JitFpApi.v
theories/JitFpApi2.v
theories/JitFpEnd.v
theories/JitFp2.v
theories/JitFp2Spec.v
theories/JitFp2Mac.v
theories/JitFp2Mac2.v
theories/JitFp2Api.v
theories/JitFp2Api2.v
theories/JitFp2End.v
theories/JitSym.v
theories/JitSub.v
theories/JitLib.v
theories/JitFp6Spec.v
theories/JitFp6.v
theories/JitFp6Sub.v
theories/JitFp6Mul.v
theories/JitTop.v
theories/JitFp6Api.v
theories/JitFp12Api.v
theories/JitMul9.v
theories/JitSq9.v
theories/JitFp6End.v
theories/JitLineSpec.v
theories/JitLine.v
theories/JitLineSub.v
theories/JitTop2.v
theories/JitLineApi.v
theories/JitTangentSpec.v
theories/JitLineEnd.v
theories/JitCmpSpec.v
theories/JitCmp.v
theories/JitCmpSub.v
theories/JitCmpApi.v
theories/JitCmpTop.v
theories/JitCmpEnd.v
theories/JitNeg.v
theories/JitInv.v
theories/JitInvSpec.v
theories/JitInvMac.v
theories/JitInvApi.v
theories/JitInvEnd.v
theories/P_Jit.v
theories/P_JitFp.v
theories/P_JitFp2.v
theories/P_JitFp6.v
theories/P_JitLine.v
theories/P_JitCmp.v
theories/P_JitNeg.v
theories/P_JitInv.v
theories/Gen1Tab.v
theories/Gen1.v
theories/Count.v
theories/GenT.v
theories/Order.v
theories/Inject.v
theories/P_Order.v
theories/MpzM.v
theories/MpzProofs.v
theories/MpzJava.v
theories/P_Mpz.v
