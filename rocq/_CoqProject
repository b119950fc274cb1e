-Q theories Verif
theories/Base.v
theories/BaseFacts.v
theories/ModelEndian.v
theories/ModelMemxor.v
theories/ProofEndian.v
theories/ProofMemxor.v
theories/ModelHash.v
theories/ModelSM3.v
theories/SpecSM3.v
theories/ProofHash.v
theories/ProofWord32.v
theories/ProofSM3.v
theories/ModelModes.v
theories/SpecModes.v
theories/ProofModeStream.v
theories/ProofModes.v
theories/ProofModes2.v
theories/ProofModes3.v
theories/ProofModeHist.v
theories/TablesSM4.v
theories/SpecSM4.v
theories/ModelSM4.v
theories/ProofSM4.v
theories/ProofSM4b.v
theories/ModelCipher.v
theories/SpecCipher.v
theories/ProofCipher.v
theories/ProofModesProp.v
theories/TablesGHASH.v
theories/SpecGHASH.v
theories/ModelGHASH.v
theories/ProofLinear.v
theories/ProofGHASH.v
theories/ProofPclmul.v
theories/ProofGHClass.v
theories/SpecGCM.v
theories/ModelGCM.v
theories/SpecGCMUse.v
theories/ProofGCM.v
theories/TablesAES.v
theories/SpecAES.v
theories/ModelAES.v
theories/ProofAES.v
theories/ProofAESb.v
theories/ModelASN1.v
theories/SpecASN1.v
theories/ProofASN1.v
theories/ProofASN1b.v
theories/ProofASN1c.v
theories/PropASN1.v
theories/PropBasic.v
theories/PropModes.v
theories/PropSM4.v
theories/PropHash.v
theories/PropGHASH.v
theories/PropGCM.v
theories/PropAES.v
theories/ModelNumber.v
theories/ModelNumberX64.v
theories/ModelMont.v
theories/SpecNumber.v
theories/SpecMont.v
theories/ProofNumber.v
theories/ProofNumberX64.v
theories/ProofFermat.v
theories/ProofMont.v
theories/ProofMont2.v
theories/PropNumber.v
theories/SpecField.v
theories/SpecEC.v
theories/ProofEC.v
theories/ProofECMul.v
theories/ProofFast.v
theories/ProofPocklington.v
theories/ProofPrimes.v
theories/ModelEC.v
theories/ModelSM2.v
theories/SpecJac.v
theories/ProofJac.v
theories/ProofNumlib.v
theories/ProofJacRep.v
theories/ProofOrder.v
theories/ProofZops.v
theories/SpecSM2Curve.v
theories/ProofSM2Steps.v
theories/ProofSM2Curve.v
theories/SpecSM2.v
theories/SpecSM2Api.v
theories/ProofSM2Rep.v
theories/ProofSM2Enc.v
theories/ProofSM2.v
theories/ProofSM2b.v
theories/ProofSM2c.v
theories/ProofSM2d.v
theories/ProofSM2e.v
theories/PropSM2.v
theories/SpecTower.v
theories/ProofSM9Res.v
theories/SpecSM9.v
theories/ModelSM9.v
theories/ProofTower.v
theories/ProofTowerRep.v
theories/ProofNumlib9.v
theories/ProofSM9Rep.v
theories/ProofFrob.v
theories/ProofSM9Frob.v
theories/ProofSM9Pow.v
theories/ProofSM9Fin.v
theories/ProofZops2.v
theories/ProofSM9Steps1.v
theories/ProofSM9Steps2.v
theories/ProofSM9Curve.v
theories/SpecSM9Api.v
theories/ProofSM9Point.v
theories/ProofSM9Enc.v
theories/ProofSM9.v
theories/ProofSM9Sign.v
theories/ProofSM9Pub.v
theories/PropSM9.v
theories/SpecPairing.v
theories/ProofIso.v
theories/ProofEndo.v
theories/ProofPairing.v
theories/ProofPairingFr.v
theories/ProofPairingRep.v
theories/ProofMiller.v
theories/PropPairing.v
theories/SpecSM9Keys.v
theories/ProofLines.v
theories/ProofBilin.v
theories/ProofCocycle.v
theories/ProofRate.v
theories/ProofEigenSteps.v
theories/ProofEigen.v
theories/ProofRate9.v
theories/ProofSubgroup.v
theories/PropBilin.v
theories/ModelRng.v
theories/ModelMemdump.v
theories/SpecRng.v
theories/ProofRng.v
theories/PropRng.v
theories/ModelInplace.v
theories/ProofInplace.v
theories/ProofInplace2.v
theories/ProofInplace3.v
theories/PropInplace.v
theories/ModelReuse.v
theories/ProofReuse.v
theories/PropReuse.v
theories/ModelAlias.v
theories/SpecAlias.v
theories/ProofAlias.v
theories/ProofAlias2.v
theories/ProofAlias3.v
theories/ProofAlias4.v
theories/ProofAlias5.v
theories/PropAlias.v
theories/ModelAliasF.v
theories/SpecAliasF.v
theories/ProofAliasF.v
theories/ProofAliasF2.v
theories/ProofAliasF3.v
theories/ProofAliasF4.v
theories/PropAliasF.v
theories/ModelAliasG.v
theories/SpecAliasG.v
theories/ProofAliasG.v
theories/ProofAliasG2.v
theories/ProofAliasG3.v
theories/ProofAliasG4.v
theories/PropAliasG.v
theories/ModelSM9Elem.v
theories/SpecSM9Elem.v
theories/ProofSM9Elem.v
theories/PropSM9Elem.v
theories/ModelGCMConc.v
theories/ProofGCMConc.v
theories/PropGCMConc.v
