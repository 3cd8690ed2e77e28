-Q theories Verif
theories/Base.v
theories/BodyInd.v
theories/ConformConflicts.v
theories/ConformExpand.v
theories/ConformRun.v
theories/ConformTests.v
theories/ConformTraits.v
theories/ConformUi.v
theories/Examples.v
theories/ExamplesAuto.v
theories/ExamplesBody.v
theories/ExamplesDestroy.v
theories/ExamplesHistory.v
theories/ExamplesMeaning.v
theories/ExamplesNames.v
theories/ExamplesNested.v
theories/ExamplesObject.v
theories/ExamplesOutlives.v
theories/ExamplesPhantom.v
theories/ExamplesPinnedDrop.v
theories/ExamplesProgram.v
theories/ExamplesReach.v
theories/ExamplesRenamed.v
theories/ExamplesRun.v
theories/ExamplesShape.v
theories/ExamplesSized.v
theories/ExamplesTraits.v
theories/ExamplesUnpin.v
theories/ExamplesVariance.v
theories/ModelAlias.v
theories/ModelArgs.v
theories/ModelAttribute.v
theories/ModelDerive.v
theories/ModelDestroy.v
theories/ModelHistory.v
theories/ModelLayout.v
theories/ModelLints.v
theories/ModelMeaning.v
theories/ModelObject.v
theories/ModelPinnedDrop.v
theories/ModelPipeline.v
theories/ModelPrint.v
theories/ModelRun.v
theories/ModelTraits.v
theories/ModelTree.v
theories/ModelUnpin.v
theories/ModelUtils.v
theories/ProofsAgree.v
theories/ProofsAlias.v
theories/ProofsAliasCall.v
theories/ProofsAliasMain.v
theories/ProofsAliasNested.v
theories/ProofsAliasRun.v
theories/ProofsAlone.v
theories/ProofsArgs.v
theories/ProofsAttrs.v
theories/ProofsAuto.v
theories/ProofsBlocks.v
theories/ProofsBody.v
theories/ProofsBodyMeaning.v
theories/ProofsChoice.v
theories/ProofsDecl.v
theories/ProofsDeeds.v
theories/ProofsDerive.v
theories/ProofsDestroy.v
theories/ProofsExpand.v
theories/ProofsFindings.v
theories/ProofsHistory.v
theories/ProofsInstances.v
theories/ProofsInterfere.v
theories/ProofsItems.v
theories/ProofsLayout.v
theories/ProofsLints.v
theories/ProofsMeaning.v
theories/ProofsNames.v
theories/ProofsNested.v
theories/ProofsObject.v
theories/ProofsOutlives.v
theories/ProofsOutput.v
theories/ProofsPanics.v
theories/ProofsParse.v
theories/ProofsPhantom.v
theories/ProofsPinnedDrop.v
theories/ProofsPipeline.v
theories/ProofsProgram.v
theories/ProofsProgramView.v
theories/ProofsReach.v
theories/ProofsRead.v
theories/ProofsReplaceNested.v
theories/ProofsRepr.v
theories/ProofsRun.v
theories/ProofsRunDrop.v
theories/ProofsRunMain.v
theories/ProofsRunNames.v
theories/ProofsRunProj.v
theories/ProofsRunReplace.v
theories/ProofsScope.v
theories/ProofsSelf.v
theories/ProofsSelfRef.v
theories/ProofsSelfRefMain.v
theories/ProofsSelfRefOps.v
theories/ProofsSelfRefRun.v
theories/ProofsSet.v
theories/ProofsShape.v
theories/ProofsSized.v
theories/ProofsThreads.v
theories/ProofsThreadsRun.v
theories/ProofsTokens.v
theories/ProofsTraits.v
theories/ProofsTraitsEnv.v
theories/ProofsTraitsForm.v
theories/ProofsTraitsMain.v
theories/ProofsTraitsProps.v
theories/ProofsTree.v
theories/ProofsTreeMain.v
theories/ProofsTreeSelf.v
theories/ProofsTreeSelfRun.v
theories/ProofsTreeSession.v
theories/ProofsTreeThreads.v
theories/ProofsTypes.v
theories/ProofsTyping.v
theories/ProofsUnpin.v
theories/ProofsUnsafe.v
theories/ProofsUtils.v
theories/ProofsVariance.v
theories/ProofsVis.v
theories/PropAgree.v
theories/PropAlias.v
theories/PropAlone.v
theories/PropArgs.v
theories/PropAttrs.v
theories/PropAuto.v
theories/PropBody.v
theories/PropChoice.v
theories/PropDecl.v
theories/PropDeeds.v
theories/PropDestroy.v
theories/PropHistory.v
theories/PropInstances.v
theories/PropInterfere.v
theories/PropLayout.v
theories/PropLints.v
theories/PropMeaning.v
theories/PropNames.v
theories/PropNested.v
theories/PropOutlives.v
theories/PropOutput.v
theories/PropPanics.v
theories/PropParse.v
theories/PropPhantom.v
theories/PropPinnedDrop.v
theories/PropPipeline.v
theories/PropProgram.v
theories/PropReach.v
theories/PropRead.v
theories/PropReplaceNested.v
theories/PropRun.v
theories/PropScope.v
theories/PropSelfRef.v
theories/PropSet.v
theories/PropShape.v
theories/PropSized.v
theories/PropThreads.v
theories/PropTraits.v
theories/PropTree.v
theories/PropTreeSelf.v
theories/PropTreeThreads.v
theories/PropTypes.v
theories/PropTyping.v
theories/PropUnpin.v
theories/PropUnsafe.v
theories/PropVariance.v
theories/SpecAgree.v
theories/SpecAlias.v
theories/SpecAlone.v
theories/SpecArgs.v
theories/SpecAttrs.v
theories/SpecAuto.v
theories/SpecBody.v
theories/SpecChoice.v
theories/SpecDecl.v
theories/SpecDeeds.v
theories/SpecDerive.v
theories/SpecDestroy.v
theories/SpecExpand.v
theories/SpecHistory.v
theories/SpecInstances.v
theories/SpecInterfere.v
theories/SpecItems.v
theories/SpecLayout.v
theories/SpecLifetime.v
theories/SpecLints.v
theories/SpecMeaning.v
theories/SpecNames.v
theories/SpecNested.v
theories/SpecObject.v
theories/SpecOutlives.v
theories/SpecOutput.v
theories/SpecPanics.v
theories/SpecParse.v
theories/SpecPhantom.v
theories/SpecPinnedDrop.v
theories/SpecPipeline.v
theories/SpecProgram.v
theories/SpecReach.v
theories/SpecRead.v
theories/SpecRun.v
theories/SpecScope.v
theories/SpecSelfRef.v
theories/SpecSet.v
theories/SpecShape.v
theories/SpecSized.v
theories/SpecThreads.v
theories/SpecTokens.v
theories/SpecTraits.v
theories/SpecTree.v
theories/SpecTreeSelf.v
theories/SpecTyping.v
theories/SpecUnpin.v
theories/SpecUnsafe.v
theories/SpecVariance.v
theories/SpecVis.v
theories/Syntax.v
theories/SyntaxInd.v
