-Q theories Verif
theories/Base.v
theories/BaseFacts.v
theories/ModelShare.v
theories/ModelConfig.v
theories/ModelComponent.v
theories/SpecComponent.v
theories/ProofComponent.v
theories/ProofWorkflow.v
theories/ProofSim.v
theories/ProofHistory.v
theories/ProofComponentTop.v
theories/PropComponent.v
theories/SpecConfig.v
theories/ProofConfig.v
theories/ProofConfig2.v
theories/PropConfig.v
theories/ModelFloat.v
theories/ModelHist.v
theories/ModelLikelihood.v
theories/SpecHist.v
theories/SpecLikelihood.v
theories/ProofFloat.v
theories/ProofHist.v
theories/ProofLikelihood.v
theories/ProofLikelihood2.v
theories/ProofLikelihood3.v
theories/PropHist.v
theories/PropLikelihood.v
theories/ModelTwoHalf.v
theories/ModelParameter.v
theories/SpecParameter.v
theories/ProofParameter.v
theories/ProofParameter2.v
theories/PropParameter.v
theories/ModelContext.v
theories/ModelJson.v
theories/SpecContext.v
theories/ProofContext.v
theories/ProofJson.v
theories/PropContext.v
theories/ModelInterp.v
theories/SpecInterp.v
theories/ProofInterp.v
theories/ProofInterp2.v
theories/PropInterp.v
theories/ModelRandgen.v
theories/SpecRandgen.v
theories/ProofRandgen.v
theories/PropRandgen.v
theories/ModelPlugins.v
theories/SpecPlugins.v
theories/ProofPlugins.v
theories/PropPlugins.v
theories/ModelUtils.v
theories/SpecUtils.v
theories/ProofUtils.v
theories/PropUtils.v
theories/ModelCompile.v
theories/SpecCompile.v
theories/ProofCompile.v
theories/PropCompile.v
theories/SpecSigma.v
theories/ProofSigma.v
theories/PropSigma.v
theories/SpecWeighted.v
theories/ProofWeighted.v
theories/ProofWeighted2.v
theories/PropWeighted.v
theories/ModelLit.v
theories/SpecLit.v
theories/ProofLit.v
theories/PropLit.v
theories/ModelBinning.v
theories/SpecBinning.v
theories/ProofBinning.v
theories/PropBinning.v
theories/ModelWhole.v
theories/SpecWhole.v
theories/ProofWhole.v
theories/ProofWhole2.v
theories/PropWhole.v
theories/SpecSignals.v
theories/PropSignals.v
theories/ModelShipped.v
theories/SpecBuild.v
theories/ProofBuild.v
theories/ProofShipped.v
theories/PropBuild.v
theories/SpecNeeded.v
theories/ProofNeeded.v
theories/PropNeeded.v
theories/PropWholeLit.v
theories/SpecConstruct.v
theories/ProofConstruct.v
theories/PropConstruct.v
theories/ModelInstruct.v
theories/SpecInstruct.v
theories/ProofInstruct.v
theories/PropInstruct.v
theories/ModelParFiles.v
theories/SpecParFiles.v
theories/ProofParFiles.v
theories/PropParFiles.v
theories/ModelProfiler.v
theories/SpecProfiler.v
theories/ProofProfiler.v
theories/ProofProfiler2.v
theories/PropProfiler.v
theories/ModelPlotMap.v
theories/SpecPlotMap.v
theories/ProofPlotMap.v
theories/ProofPlotMap2.v
theories/PropPlotMap.v
theories/PropPlotFiles.v
theories/ModelPlotter.v
theories/SpecPlotter.v
theories/ProofPlotter.v
theories/ProofPlotter2.v
theories/ProofAccept.v
theories/ProofPlotter3.v
theories/ProofAutocorr.v
theories/ProofAutocorr2.v
theories/ProofAutocorr3.v
theories/PropPlotter.v
theories/PropAccept.v
theories/PropAutocorr.v
theories/ModelSigmas.v
theories/SpecSigmas.v
theories/ProofSigmas.v
theories/ProofSigmas2.v
theories/ProofGauss.v
theories/PropSigmas.v
theories/ModelFit.v
theories/SpecFit.v
theories/ProofFit.v
theories/ProofFit2.v
theories/ProofFit3.v
theories/ProofFit4.v
theories/ProofFit5.v
theories/ProofFit6.v
theories/ProofFit7.v
theories/PropFit.v
theories/ModelLineage.v
theories/SpecLineage.v
theories/ProofLineage.v
theories/PropLineage.v
theories/ModelText.v
theories/SpecText.v
theories/ProofText.v
theories/ProofText2.v
theories/PropText.v
theories/ModelPost.v
theories/SpecPost.v
theories/ProofPost.v
theories/ProofPost2.v
theories/ProofPost3.v
theories/PropPost.v
theories/ModelRecompile.v
theories/SpecRecompile.v
theories/ProofRecompile.v
theories/ProofRecompile2.v
theories/ProofRecompile3.v
theories/PropRecompile.v
theories/ModelIrregPlot.v
theories/SpecIrregPlot.v
theories/ProofIrregPlot.v
theories/PropIrregPlot.v
theories/ModelCtxLineage.v
theories/SpecCtxLineage.v
theories/ProofCtxLineage.v
theories/ProofHash.v
theories/PropCtxLineage.v
theories/PropCtxLineage2.v
theories/ModelCopy.v
theories/SpecCopy.v
theories/ProofCopy.v
theories/PropCopy.v
theories/ModelOnSim.v
theories/SpecOnSim.v
theories/ProofOnSim.v
theories/PropOnSim.v
theories/ModelCode.v
theories/SpecCode.v
theories/ProofCode.v
theories/PropCode.v
theories/ModelSpectra.v
theories/SpecSpectra.v
theories/PropSpectra.v
theories/SpecYields.v
theories/PropYields.v
theories/PropQuanta.v
theories/SpecSamplers.v
theories/PropSamplers.v
theories/SpecExpect.v
theories/PropExpect.v
theories/ModelMaps.v
theories/SpecMaps.v
theories/ProofMaps.v
theories/PropMaps.v
theories/ModelRound.v
theories/SpecRound.v
theories/ProofRound.v
theories/PropRound.v
theories/SpecFrame.v
theories/ProofFrame.v
theories/PropFrame.v
theories/SpecRate.v
theories/ProofRate.v
theories/PropRate.v
theories/SpecRebin.v
theories/ProofRebin.v
theories/PropRebin.v
theories/ModelReport.v
theories/SpecReport.v
theories/ProofReport.v
theories/PropReport.v
theories/ModelBisect.v
theories/ProofBisect.v
theories/PropBisect.v
theories/ModelModules.v
theories/SpecModules.v
theories/ProofModules.v
theories/PropModules.v
theories/SpecSwap.v
theories/ProofSwap.v
theories/PropSwap.v
theories/ModelSummary.v
theories/SpecSummary.v
theories/ProofSummary.v
theories/PropSummary.v
theories/PropRefused.v
theories/ModelKeys.v
theories/SpecKeys.v
theories/PropKeys.v
theories/ModelSha.v
theories/PropSha.v
theories/ModelDump.v
theories/SpecDump.v
theories/ProofDump.v
theories/PropDump.v
theories/SpecMapFile.v
theories/PropMapFile.v
theories/SpecAnswers.v
theories/ProofAnswers.v
theories/PropAnswers.v
theories/ModelLoad.v
theories/SpecLoad.v
theories/PropLoad.v
theories/PropAnswers2.v
theories/PropGet.v
theories/SpecDraws.v
theories/PropDraws.v
theories/ModelSigma.v
theories/PropSigmaApply.v
theories/PropDataFile.v
theories/PropEvents.v
theories/ModelReopen.v
theories/PropReopen.v
theories/PropAxes.v
