-Q theories Verif
theories/Prim.v
theories/Rom.v
theories/Big.v
theories/Fp.v
theories/Fp2.v
theories/Fp4.v
theories/Fp12.v
theories/Ecp.v
theories/Ecp2.v
theories/Pair.v
theories/Utils.v
theories/Hash256.v
theories/SpecSha.v
theories/HashP.v
theories/Rand.v
theories/Api.v
theories/SpecRand.v
theories/PrimP.v
theories/BigP.v
theories/BigP2.v
theories/SpecBytes.v
theories/BigP3.v
theories/SkP.v
theories/PropsSecretKey.v
theories/BigP4.v
theories/BigP5.v
theories/Dig.v
theories/PowD.v
theories/NumT.v
theories/FieldQ.v
theories/FieldQ2.v
theories/FpP.v
theories/FpP2.v
theories/SpecCurve.v
theories/CurveP.v
theories/JacobiM.v
theories/JacP.v
theories/Fp2P.v
theories/Sqrt2P.v
theories/GroupP.v
theories/WinP.v
theories/EcpP.v
theories/Ecp2P.v
theories/EcpC.v
theories/Denote.v
theories/CvD.v
theories/GenP.v
theories/KeysP.v
theories/KeysP2.v
theories/RandP.v
theories/PropsRand.v
theories/ExRand.v
theories/KeysP3.v
theories/PropsKeys.v
theories/ExKeys.v
theories/BigL.v
theories/LayerP.v
theories/Ecp2C.v
theories/Ecp2L.v
theories/MapP.v
theories/SigsP.v
theories/FinGrp.v
theories/Poly.v
theories/SextP.v
theories/SearchP.v
theories/SigsP2.v
theories/PropsSigs.v
theories/ExSigs.v
theories/PropsBig.v
theories/PropsField.v
theories/PropsCurve.v
theories/ExField.v
theories/Tower.v
theories/KexpD.v
theories/TowerP.v
theories/FrobP.v
theories/CycP.v
theories/Fp4P.v
theories/Fp12P.v
theories/NafP.v
theories/FexpP.v
theories/LineP.v
theories/SpecPairing.v
theories/PairP.v
theories/PairP2.v
theories/PairP3.v
theories/MillerP.v
theories/MillerP2.v
theories/MillerP3.v
theories/PsiP.v
theories/RecipP.v
theories/BilinP.v
theories/TwD.v
theories/TwGrp.v
theories/TwPts.v
theories/PrimesD.v
theories/TwPsi.v
theories/F12D.v
theories/MillD.v
theories/TwistP.v
theories/PairD.v
theories/G1Grp.v
theories/G1Ord.v
theories/RootP.v
theories/VerifyP.v
theories/VerifyP2.v
theories/VerifyP3.v
theories/VerifyP4.v
theories/VerifyP5.v
theories/VerifyP6.v
theories/VerifyP7.v
theories/DenoteT.v
theories/PropsVerify.v
theories/ExVerify.v
theories/PropsVerify2.v
theories/PropsVerify3.v
theories/ExVerify2.v
theories/ExVerify3.v
theories/PropsPairing.v
theories/ExPairing.v
theories/Glv.v
theories/RecodeP.v
theories/Mul2P.v
theories/Mul4P.v
theories/Pow4P.v
theories/PinP.v
theories/GlvP.v
theories/PropsGlv.v
theories/ExGlv.v
theories/TwPts2.v
theories/KerP.v
theories/ClearP.v
theories/MapitP.v
theories/PropsMapit.v
theories/ExMapit.v
theories/BigX.v
theories/InvP.v
theories/SpecSha5.v
theories/Hash512.v
theories/HashQ.v
theories/PropsInv.v
theories/PropsSha.v
theories/ExSha.v
theories/SpecMac.v
theories/Ecdh.v
theories/EcdhH.v
theories/EcdhK.v
theories/PropsMac.v
theories/ExMac.v
theories/SpecEcdh.v
theories/EcdhP.v
theories/EcdhQ.v
theories/EcdhS.v
theories/PropsEcdh.v
theories/ExEcdh.v
theories/AesTab.v
theories/Aes.v
theories/SpecAes.v
theories/AesW.v
theories/AesP.v
theories/AesK.v
theories/Ecies.v
theories/AesM.v
theories/EciesP.v
theories/SpecEcies.v
theories/EciesQ.v
theories/PropsAes.v
theories/PropsEcies.v
theories/ExAes.v
theories/ExEcies.v
theories/Gcm.v
theories/SpecGcm.v
theories/GcmP.v
theories/GcmQ.v
theories/GcmR.v
theories/PropsGcm.v
theories/ExGcm.v
theories/Sha3.v
theories/SpecSha3.v
theories/Sha3P.v
theories/Sha3Q.v
theories/PropsSha3.v
theories/ExSha3.v
theories/Pair2.v
theories/Ate2P.v
theories/Ate2V.v
theories/SpecMpin.v
theories/Mpin.v
theories/MpinP.v
theories/MpinQ.v
theories/MpinR.v
theories/MpinS.v
theories/MpinT.v
theories/MpinU.v
theories/MpinV.v
theories/PropsAte2.v
theories/PropsMpin.v
theories/ExAte2.v
theories/ExMpin.v
theories/SpecMpin2.v
theories/Mpin2.v
theories/MpinW.v
theories/MpinX.v
theories/PropsMpin2.v
theories/ExMpin2.v
theories/Kang.v
theories/KangP.v
theories/MpinY.v
theories/PropsKang.v
theories/ExKang.v
theories/ExKang2.v
