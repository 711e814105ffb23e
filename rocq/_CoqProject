-Q theories Verif
theories/Base.v
theories/Text.v
theories/TextFacts.v
theories/GocadModel.v
theories/MeshModel.v
theories/TsModel.v
theories/Spec.v
theories/GocadFacts.v
theories/TsFacts.v
theories/CrlfFacts.v
theories/DepthFacts.v
theories/StreamFacts.v
theories/ShiftFacts.v
theories/MultiFacts.v
theories/MultiMore.v
theories/ExNum.v
theories/ExCheck.v
theories/PropsText.v
theories/PropsTsVs.v
theories/PropsCrlf.v
theories/PropsDepth.v
theories/PropsShift.v
theories/PropsMulti.v
theories/PropsGocad.v
theories/NumText.v
theories/FemModel.v
theories/FemSpec.v
theories/FemFacts.v
theories/FemFeatures.v
theories/FemText.v
theories/ExFem.v
theories/PropsFem.v
theories/DemModel.v
theories/PropsDem.v
theories/GrdeclModel.v
theories/PropsGrdecl.v
theories/WellModel.v
theories/Sections.v
theories/PropsWell.v
theories/VoModel.v
theories/PropsVo.v
theories/PlModel.v
theories/PlFacts.v
theories/PropsPl.v
theories/SignsModel.v
theories/PropsSigns.v
theories/MlModel.v
theories/MlFacts.v
theories/MlFile.v
theories/MlRound.v
theories/PropsMl.v
theories/MlLines.v
theories/MlLinesFacts.v
theories/PropsMlLines.v
theories/LsoModel.v
theories/LsoFacts.v
theories/LsoRead.v
theories/LsoRound.v
theories/LsoFile.v
theories/LsoWhole.v
theories/LsoTrip.v
theories/LsoRel.v
theories/LsoCount.v
theories/LsoInspect.v
theories/LsoEnds.v
theories/LsoAttrs.v
theories/LsoBlocks.v
theories/PropsLso.v
theories/SkuaModel.v
theories/PropsSkua.v
theories/GeosModel.v
theories/PropsGeos.v
theories/ShpModel.v
theories/PropsShp.v
theories/BrepFemModel.v
theories/PropsBrepFem.v
theories/DecText.v
theories/PropsDec.v
theories/LsoLines.v
theories/LsoLinesFacts.v
theories/PropsLsoLines.v
theories/StratiLso.v
theories/PropsStratiLso.v
theories/PolyTiff.v
theories/PropsPolyTiff.v
theories/MultiAttrs.v
theories/PropsMultiAttrs.v
theories/GeoTiff.v
theories/PropsGeoTiff.v
theories/GocadSafe.v
theories/PropsGocadSafe.v
theories/Border.v
theories/BorderFacts.v
theories/BorderLoops.v
theories/PropsBorder.v
theories/PropsFemTotal.v
theories/Grammar.v
theories/GrammarFacts.v
theories/PropsGrammar.v
theories/GrammarLso.v
theories/GrammarLsoFacts.v
theories/PropsGrammarLso.v
theories/GrammarMl.v
theories/GrammarMlFacts.v
theories/PropsGrammarMl.v
theories/PlRule.v
theories/PropsPlRule.v
theories/PropsWellOut.v
theories/PropsVoOut.v
theories/Registry.v
theories/PropsRegistry.v
theories/GeosFiles.v
theories/PropsGeosFiles.v
theories/MlOut.v
theories/PropsMlOut.v
theories/LsoOut.v
theories/PropsLsoOut.v
theories/PropsResave.v
theories/PropsMlSound.v
theories/PropsLsoSound.v
theories/PropsValid.v
theories/PropsCrlfAll.v
theories/PropsFemOrder.v
theories/PropsSavedLoadable.v
theories/PropsFemXml.v
theories/PropsFemSections.v
theories/PropsMlUnique.v
theories/PropsLsoAccept.v
theories/PropsGrdeclGrid.v
theories/PropsMlAccept.v
theories/PropsMlRelations.v
theories/PropsComments.v
theories/PropsCut.v
theories/PropsObjects.v
theories/PropsShpEnd.v
theories/PropsDemEnd.v
theories/PropsSkuaOrder.v
theories/PropsCutWell.v
theories/PropsCutMl.v
theories/PropsCutLso.v
theories/PropsCutGrid.v
theories/PropsMixed.v
theories/PropsMlBrep.v
theories/PropsLsoSides.v
theories/PlAgain.v
theories/PropsPlAgain.v
theories/PropsLsoAgain.v
theories/PropsMlAgain.v
theories/PropsMlOwn.v
theories/PropsGrdeclParts.v
theories/PropsLsoNames.v
theories/PropsGrdeclLayout.v
theories/SpacingFacts.v
theories/PropsSpacing.v
theories/PropsVoRows.v
theories/PropsGrdeclOther.v
theories/PropsVoAxes.v
theories/PropsWellStations.v
theories/PropsHeader.v
theories/PropsCrsOnly.v
theories/PropsPropsOnly.v
theories/PropsMoreWords.v
theories/PropsDataLines.v
theories/PropsCellOrder.v
theories/PropsIndicators.v
theories/PropsSolidLines.v
