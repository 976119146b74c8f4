-Q theories Verif
theories/Options.v
theories/Bytes.v
theories/Types.v
theories/Tape.v
theories/ModelLayout.v
theories/ModelGdef.v
theories/ModelGsub.v
theories/ModelGpos.v
theories/ModelCpal.v
theories/ModelFvar.v
theories/ModelFont.v
theories/TagsFeature.v
theories/TagsScript.v
theories/TagsLanguage.v
theories/ModelTags.v
theories/SpecLayout.v
theories/SpecGdef.v
theories/SpecGsub.v
theories/SpecGpos.v
theories/SpecCpal.v
theories/SpecFvar.v
theories/SpecFont.v
theories/Reads.v
theories/ReadsTactics.v
theories/ProofLayout.v
theories/ProofGdef.v
theories/ProofGsub.v
theories/ProofGpos.v
theories/ProofCpal.v
theories/ProofFvar.v
theories/ProofFont.v
theories/Api.v
theories/SpecAccess.v
theories/SpecHistory.v
theories/SpecShape.v
theories/Requests.v
theories/SpecTags.v
theories/ProofTags.v
theories/ProofAccess.v
theories/ProofShape.v
theories/ProofExtend.v
theories/ProofRelocate.v
theories/ProofRequests.v
theories/SpecBuilds.v
theories/ProofBuilds.v
theories/SpecStandard.v
theories/Encode.v
theories/SpecSize.v
theories/ProofFindings.v
theories/SpecOverflow.v
theories/ProofOverflow.v
theories/ProofFormats.v
theories/Tree.v
theories/FixtureData.v
theories/Fixtures.v
theories/Samples.v
theories/ProofFontProperties.v
theories/PropertiesFont.v
theories/PropertiesTags.v
theories/PropertiesFormats.v
theories/ProofReads.v
theories/PropertiesReads.v
theories/ProofDepartures.v
theories/ProofSize.v
theories/PropertiesFindings.v
theories/SpecErase.v
theories/SpecFits.v
theories/Writer.v
theories/ProofWriter.v
theories/ProofWriterGsub.v
theories/ProofWriterGpos.v
theories/ProofWriterTables.v
theories/ProofFits.v
theories/ProofCanonical.v
theories/Written.v
theories/ProofWritten.v
theories/Copies.v
theories/PropertiesWriter.v
theories/SpecErrors.v
theories/ProofErrors.v
theories/PropertiesErrors.v
theories/Assembly.v
theories/ProofAssembly.v
theories/PropertiesAssembly.v
theories/SpecSharing.v
theories/ProofSharing.v
theories/SpecMissing.v
theories/ProofMissing.v
theories/SpecPortable.v
theories/ProofPortable.v
theories/PropertiesBuilds.v
theories/ModelFlags.v
theories/SpecFlags.v
theories/ProofFlags.v
theories/ModelDefaults.v
theories/ProofDefaults.v
theories/SpecUnchecked.v
theories/ProofUnchecked.v
theories/PropertiesValues.v
theories/SpecPositions.v
theories/ProofPositions.v
theories/SpecCursor.v
theories/ProofCursor.v
theories/PropertiesPositions.v
theories/SpecGetters.v
theories/ProofGetters.v
theories/PropertiesGetters.v
theories/SpecReach.v
theories/ProofReach.v
theories/PropertiesReach.v
theories/SpecExtent.v
theories/ProofExtent.v
theories/ProofExtentTables.v
theories/ProofExtentUse.v
theories/PropertiesExtent.v
theories/ModelOrder.v
theories/SpecOrder.v
theories/ProofOrder.v
theories/PropertiesOrder.v
theories/SpecNames.v
theories/ProofNames.v
theories/PropertiesNames.v
theories/SpecVersions.v
theories/ProofVersions.v
theories/PropertiesVersions.v
theories/SpecParts.v
theories/ProofParts.v
theories/ProofApart.v
theories/PropertiesParts.v
theories/SpecCommon.v
theories/ProofCommon.v
theories/PropertiesCommon.v
theories/ProofEnd.v
theories/PropertiesEnd.v
theories/SpecEdit.v
theories/ProofEdit.v
theories/PropertiesEdit.v
theories/SpecWeight.v
theories/ProofWeight.v
theories/ProofHeavy.v
theories/PropertiesWeight.v
theories/SpecConform.v
theories/SpecSupport.v
theories/ProofConform.v
theories/ProofStandard.v
theories/ProofGdefStandard.v
theories/ProofGdefSamples.v
theories/SpecTrim.v
theories/ProofTrim.v
theories/ProofTrimmed.v
theories/PropertiesConform.v
theories/PropertiesGdefStandard.v
theories/Steps.v
theories/StepsReaders.v
theories/SpecSteps.v
theories/ProofSteps.v
theories/ProofTapes.v
theories/PropertiesTapes.v
theories/SpecWork.v
theories/ProofWork.v
theories/ProofTally.v
theories/ProofToil.v
theories/PropertiesWork.v
theories/SpecLoose.v
theories/SpecRanges.v
theories/SpecChange.v
theories/ProofLoose.v
theories/ProofRangesOnly.v
theories/ProofRangesCan.v
theories/ProofChange.v
theories/PropertiesChange.v
theories/ModelOpen.v
theories/SpecOpen.v
theories/ProofOpen.v
theories/ProofOpenSamples.v
theories/PropertiesOpen.v
theories/Pieces.v
theories/ProofPieces.v
theories/PropertiesPieces.v
theories/SpecShift.v
theories/ProofShift.v
theories/PropertiesShift.v
theories/SpecEmbed.v
theories/ProofEmbed.v
theories/PropertiesEmbed.v
theories/SpecFallback.v
theories/ProofFallback.v
theories/PropertiesFallback.v
theories/SpecLost.v
theories/ProofLost.v
theories/PropertiesLost.v
theories/SpecNull.v
theories/ProofNull.v
theories/PropertiesNull.v
theories/SpecEntries.v
theories/ProofEntries.v
theories/PropertiesEntries.v
theories/SpecGuaranteed.v
theories/ProofGuaranteed.v
theories/PropertiesGuaranteed.v
theories/SpecValues.v
theories/ProofValues.v
theories/PropertiesPartValues.v
theories/SpecReports.v
theories/ProofReports.v
theories/ProofReported.v
theories/PropertiesReports.v
theories/SpecPlaces.v
theories/ProofPlaces.v
theories/PropertiesPlaces.v
theories/SpecExtensions.v
theories/ProofExtensions.v
theories/PropertiesExtensions.v
theories/SpecOwned.v
theories/ProofOwned.v
theories/ProofFarthest.v
theories/ProofSpared.v
theories/ProofPalettes.v
theories/PropertiesOwned.v
theories/SpecPartWork.v
theories/ProofPartWork.v
theories/SpecPartWeight.v
theories/ProofPartWeight.v
theories/PropertiesPartWork.v
theories/ProofSpots.v
theories/ProofFileReports.v
theories/PropertiesFileReports.v
theories/SpecFaults.v
theories/ProofFaults.v
theories/ProofRefused.v
theories/ProofTraced.v
theories/PropertiesFaults.v
theories/ProofFaultsOpen.v
theories/PropertiesFaultsOpen.v
theories/SpecPresence.v
theories/ProofPresence.v
theories/PropertiesPresence.v
theories/SpecMeaning.v
theories/ProofMeaning.v
theories/PropertiesMeaning.v
theories/SpecRules.v
theories/ProofRules.v
theories/PropertiesRules.v
theories/SpecDetails.v
theories/ProofDetails.v
theories/PropertiesDetails.v
theories/SpecCorrections.v
theories/ProofCorrections.v
theories/PropertiesCorrections.v
theories/SpecThrough.v
theories/ProofThrough.v
theories/PropertiesThrough.v
theories/SpecSkips.v
theories/ProofSkips.v
theories/PropertiesSkips.v
theories/SpecBeyond.v
theories/ProofBeyond.v
theories/PropertiesBeyond.v
theories/SpecGot.v
theories/ProofGot.v
theories/PropertiesGot.v
theories/SpecRanks.v
theories/ProofRanks.v
theories/PropertiesRanks.v
theories/SpecText.v
theories/ProofText.v
theories/PropertiesText.v
theories/SpecKerning.v
theories/ProofKerning.v
theories/PropertiesKerning.v
theories/SpecClear.v
theories/ProofClear.v
theories/PropertiesClear.v
theories/SpecSources.v
theories/ProofSources.v
theories/PropertiesSources.v
theories/SpecDepth.v
theories/ProofDepth.v
theories/PropertiesDepth.v
theories/SpecUnused.v
theories/ProofUnused.v
theories/PropertiesUnused.v
theories/SpecPlain.v
theories/ProofPlain.v
theories/PropertiesPlain.v
theories/ProofEnds.v
theories/PropertiesEnds.v
theories/ProofLast.v
theories/PropertiesLast.v
theories/SpecListed.v
theories/ProofListed.v
theories/PropertiesListed.v
