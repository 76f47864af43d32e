-Q theories Verif
theories/Base.v
theories/Dict.v
theories/Utf8.v
theories/PyStr.v
theories/PyFloat.v
theories/Struct.v
theories/PySort.v
theories/ModelTypes.v
theories/ModelRead.v
theories/ModelApi.v
theories/ModelWrite.v
theories/Sql.v
theories/ModelSchema.v
theories/Schema5.v
theories/ModelDb.v
theories/ModelMigrate.v
theories/Spec.v
theories/SpecSection.v
theories/SpecMsg.v
theories/ProofsRead.v
theories/ProofsMsg.v
theories/ProofsFile.v
theories/ProofsSync.v
theories/ProofsInv.v
theories/ProofsTrace.v
theories/ProofsChange.v
theories/ProofsSection.v
theories/ProofsExpand.v
theories/ProofsData.v
theories/ProofsWhole.v
theories/ProofsFields.v
theories/ProofsLoad.v
theories/ProofsCut.v
theories/SpecLog.v
theories/SpecWrite.v
theories/ProofsDefaults.v
theories/ProofsLog.v
theories/Samples.v
theories/SamplesWrite.v
theories/ProofsProps.v
theories/ProofsApi.v
theories/SpecApi.v
theories/ProofsEq.v
theories/ProofsWrite.v
theories/ProofsRound.v
theories/ProofsBack.v
theories/ProofsSame.v
theories/ProofsCopy.v
theories/ProofsStable.v
theories/ProofsTags.v
theories/ProofsRewrite.v
theories/SpecDb.v
theories/ProofsDb.v
theories/ProofsDel.v
theories/ProofsFrame.v
theories/ProofsSave.v
theories/ProofsStore.v
theories/ProofsReload.v
theories/SpecStorable.v
theories/ProofsFwd.v
theories/SpecHist.v
theories/ProofsHist.v
theories/ProofsCache.v
theories/SpecMigrate.v
theories/ProofsMigrate.v
theories/ProofsKeep.v
theories/ModelTools.v
theories/SpecTools.v
theories/ProofsWindow.v
theories/ProofsListing.v
theories/ProofsKml.v
theories/SpecFilter.v
theories/ProofsFilter.v
theories/PropsRead.v
theories/PropsApi.v
theories/PropsWrite.v
theories/PropsDb.v
theories/PropsMigrate.v
theories/PropsTools.v
theories/PropsFilter.v
theories/ModelAttitude.v
theories/SpecAttitude.v
theories/ProofsAttitude.v
theories/PropsAttitude.v
theories/ModelConc.v
theories/SpecConc.v
theories/ProofsConc.v
theories/ProofsTorn.v
theories/PropsConc.v
theories/PropsFile.v
theories/PropsOffsets.v
theories/ModelInfo.v
theories/SpecInfo.v
theories/ProofsInfo.v
theories/PropsInfo.v
theories/ModelEq.v
theories/PropsEq.v
theories/ModelBag.v
theories/SpecBag.v
theories/ProofsBag.v
theories/PropsBag.v
theories/ModelKml.v
theories/SpecKml.v
theories/ProofsMap.v
theories/PropsMap.v
theories/SpecText.v
theories/ProofsText.v
theories/PropsText.v
theories/SpecCut.v
theories/ProofsPart.v
theories/PropsCut.v
theories/SpecHang.v
theories/ProofsHang.v
theories/PropsHang.v
theories/ModelWriting.v
theories/SpecWriting.v
theories/ProofsWriting.v
theories/PropsWriting.v
theories/ModelEvents.v
theories/SpecEvents.v
theories/ProofsEvents.v
theories/PropsEvents.v
theories/ModelPartial.v
theories/SpecPartial.v
theories/ProofsPartial.v
theories/PropsPartial.v
theories/ProofsStorable.v
theories/PropsStorable.v
theories/SpecRefused.v
theories/ProofsRefused.v
theories/PropsRefused.v
theories/SpecLoaded.v
theories/ProofsLoaded.v
theories/PropsLoaded.v
theories/SpecDefect.v
theories/ProofsDefect.v
theories/PropsDefect.v
theories/PropsColumns.v
theories/PropsExact.v
theories/SpecWritable.v
theories/ProofsWritable.v
theories/ProofsRewritable.v
theories/ProofsRaises.v
theories/PropsWritable.v
theories/ModelCommand.v
theories/SpecCommand.v
theories/ProofsCommand.v
theories/PropsCommand.v
theories/ProofsAgain.v
theories/PropsAgain.v
theories/PropsLaws.v
theories/PropsPrinted.v
theories/PropsFirst.v
theories/ModelScripts.v
theories/SpecScripts.v
theories/ProofsScripts.v
theories/PropsScripts.v
theories/PropsKilled.v
theories/SpecWalk.v
theories/ProofsWalk.v
theories/ProofsDamage.v
theories/PropsWalk.v
theories/ModelJson.v
theories/SpecJson.v
theories/ProofsJson.v
theories/PropsJson.v
theories/ModelRos.v
theories/SpecRos.v
theories/ProofsRos.v
theories/ProofsVersions.v
theories/PropsRos.v
theories/ModelHandle.v
theories/SpecHandle.v
theories/ProofsHandle.v
theories/PropsHandle.v
theories/SpecNumber.v
theories/ProofsNumber.v
theories/ProofsIeee.v
theories/ProofsDouble.v
theories/ProofsInt.v
theories/PropsNumber.v
theories/ModelShown.v
theories/PropsShown.v
theories/ModelScreen.v
theories/PropsScreen.v
theories/SpecFlag.v
theories/ProofsFlag.v
theories/PropsFlag.v
theories/Audit.v
