-Q theories Verif
theories/Base.v
theories/BaseLemmas.v
theories/ModelColor.v
theories/SpecImage.v
theories/ProofDecoder.v
theories/BitLemmas.v
theories/ModelBc.v
theories/SpecBc.v
theories/ProofBc.v
theories/ProofBcImage.v
theories/ProofBlock.v
theories/ModelEtc.v
theories/SpecEtc.v
theories/FieldLemmas.v
theories/ModelBits.v
theories/SpecBits.v
theories/ProofBits.v
theories/ProofEtc.v
theories/ProofEtc2.v
theories/ProofEac.v
theories/ProofEtcImage.v
theories/ModelBptc.v
theories/SpecBptc.v
theories/ModelBc7.v
theories/SpecBc7.v
theories/ProofBc7.v
theories/ProofBc7Block.v
theories/ProofBc7Image.v
theories/ModelF16.v
theories/SpecF16.v
theories/ProofF16.v
theories/ModelBc6.v
theories/SpecBc6.v
theories/ProofBc6.v
theories/ProofBc6Image.v
theories/SpecFormats.v
theories/ProofImage.v
theories/ProofNoErr.v
theories/ProofOversize.v
theories/PropImage.v
theories/PropBc.v
theories/PropEtc.v
theories/PropBits.v
theories/PropBc7.v
theories/PropBc6.v
theories/ModelPvrtc.v
theories/SpecPvrtc.v
theories/GridLemmas.v
theories/ProofMorton.v
theories/ProofPvrInfo.v
theories/ProofPvrPixel.v
theories/ProofPvrtc.v
theories/PropPvrtc.v
theories/ModelAstc.v
theories/SpecAstc.v
theories/ProofAstcSeq.v
theories/ProofAstcParams.v
theories/ProofAstcEnd.v
theories/ProofAstcWeights.v
theories/ProofAstcRange.v
theories/ProofAstcColor.v
theories/ProofAstcBlock.v
theories/ProofAstcImage.v
theories/ProofAstcMore.v
theories/SpecAstcCode.v
theories/ProofAstcNoErr.v
theories/ProofAstcCodeParams.v
theories/ProofAstcCode.v
theories/PropAstc.v
theories/PropAstcCode.v
theories/ModelCrn.v
theories/ModelCrunch.v
theories/ModelUnity.v
theories/SpecCrn.v
theories/ProofCrnBits.v
theories/ProofHuff.v
theories/ProofCrnRead.v
theories/SpecCrnHeader.v
theories/ProofCrnHeader.v
theories/ProofCrnIndex.v
theories/PropCrn.v
theories/SpecCrnLevel.v
theories/ProofCrnGrid.v
theories/ProofCrnLevel.v
theories/SpecCrnFile.v
theories/ProofCrnModel.v
theories/ProofCrnPalette.v
theories/ProofCrnFile.v
theories/ProofCrnWhole.v
theories/ProofCrnKeep.v
theories/ProofCrnExample.v
theories/SpecCrnTexel.v
theories/ProofCrnDecode.v
theories/ProofCrnFaces.v
theories/ProofCrnEnd.v
theories/PropCrunch.v
theories/SpecUnity.v
theories/ProofUnityGrid.v
theories/ProofUnityLevel.v
theories/ProofUnityEtc.v
theories/SpecUnityFile.v
theories/ProofUnityPalette.v
theories/ProofUnityWhole.v
theories/ProofUnityFile.v
theories/PropUnity.v
theories/ModelPy.v
theories/SpecPy.v
theories/ProofPy.v
theories/PropPy.v
theories/ProofAgree.v
theories/PropBuild.v
theories/PropErrors.v
theories/ProofTrailing.v
theories/PropTrailing.v
theories/SpecReads.v
theories/ProofReads.v
theories/PropReads.v
theories/ModelLoops.v
theories/SpecLoops.v
theories/ProofLoops.v
theories/PropLoops.v
theories/SpecCrnSound.v
theories/ProofCrnSound.v
theories/ProofCrnSoundFmt.v
theories/ProofCrnSoundFile.v
theories/SpecUnitySound.v
theories/ProofUnitySound.v
theories/ProofUnitySoundFile.v
theories/PropSound.v
theories/SpecCrnStore.v
theories/ProofCrnStore.v
theories/ProofCrnStoreFile.v
theories/ProofCrnStoreWhole.v
theories/PropStore.v
theories/SpecUnityStore.v
theories/ProofUnityStoreLayout.v
theories/ProofUnityStore.v
theories/ProofUnityStoreLevel.v
theories/ProofUnityStoreWhole.v
theories/PropUnityStore.v
theories/ModelClz.v
theories/PropClz.v
theories/SpecCrnErr.v
theories/ProofCrnErr.v
theories/PropCrnErr.v
theories/SpecHuff.v
theories/ProofHuffAll.v
theories/PropHuff.v
theories/SpecCrnSafe.v
theories/ProofCrnSafe.v
theories/ProofCrnSafeFile.v
theories/PropCrnSafe.v
theories/SpecUnitySafe.v
theories/ProofUnitySafe.v
theories/ProofUnitySafeFile.v
theories/PropUnitySafe.v
theories/SpecCrnCodes.v
theories/ProofCrnCodes.v
theories/PropCrnCodes.v
theories/SpecUnityCodes.v
theories/ProofUnityCodes.v
theories/PropUnityCodes.v
theories/SpecCut.v
theories/ProofCut.v
theories/PropCut.v
theories/SpecEncode.v
theories/ProofEncode.v
theories/ProofEncodeBc.v
theories/ProofEncodeSolid.v
theories/PropEncode.v
theories/SpecPvrShift.v
theories/ProofPvrShift.v
theories/PropPvrShift.v
theories/SpecChannels.v
theories/ProofChannels.v
theories/PropChannels.v
theories/SpecFlip.v
theories/ProofFlip.v
theories/PropFlip.v
theories/SpecBetween.v
theories/ProofBetween.v
theories/PropBetween.v
theories/SpecTranspose.v
theories/ProofTranspose.v
theories/ProofTransposeEtc.v
theories/PropTranspose.v
theories/SpecArrange.v
theories/ProofArrange.v
theories/PropArrange.v
theories/SpecContent.v
theories/ProofContent.v
theories/PropContent.v
theories/SpecContent7.v
theories/ProofContent7.v
theories/PropContent7.v
theories/SpecContentAstc.v
theories/ProofContentAstc.v
theories/PropContentAstc.v
theories/SpecContentPvr.v
theories/ProofContentPvr.v
theories/PropContentPvr.v
theories/SpecContentBc6.v
theories/ProofContentBc6.v
theories/PropContentBc6.v
theories/SpecContent6.v
theories/ProofContent6.v
theories/PropContent6.v
theories/SpecContentEac.v
theories/ProofContentEac.v
theories/ProofSolidEac.v
theories/PropContentEac.v
