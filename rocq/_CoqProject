-Q theories Verif
theories/ArgsortFacts.v
theories/AssignSteps.v
theories/Atlas.v
theories/AtlasFacts.v
theories/BasisLead.v
theories/Calib.v
theories/CalibFacts.v
theories/Calls.v
theories/Cand.v
theories/CandFacts.v
theories/Chart.v
theories/Csv.v
theories/CsvFacts.v
theories/Delim.v
theories/EdlenFacts.v
theories/F64.v
theories/Fit.v
theories/FitFacts.v
theories/Hough.v
theories/HoughFacts.v
theories/HumidFacts.v
theories/Interrupt.v
theories/Listing.v
theories/LoadFacts.v
theories/Log.v
theories/Main_Add.v
theories/Main_Again.v
theories/Main_Apart.v
theories/Main_Archive.v
theories/Main_AssignSteps.v
theories/Main_Atlas.v
theories/Main_Bins.v
theories/Main_Bright.v
theories/Main_Brute.v
theories/Main_Calib.v
theories/Main_Calls.v
theories/Main_Cand.v
theories/Main_Chart.v
theories/Main_Construct.v
theories/Main_Count.v
theories/Main_Cover.v
theories/Main_Crowded.v
theories/Main_Csv.v
theories/Main_Decoy.v
theories/Main_Delim.v
theories/Main_Density.v
theories/Main_Edit.v
theories/Main_Fit.v
theories/Main_Forever.v
theories/Main_Hough.v
theories/Main_Humid.v
theories/Main_Interrupt.v
theories/Main_Limits.v
theories/Main_Listing.v
theories/Main_Load.v
theories/Main_Log.v
theories/Main_Match.v
theories/Main_MatchOrder.v
theories/Main_Mirror.v
theories/Main_Models.v
theories/Main_Optimal.v
theories/Main_Order.v
theories/Main_Pairs.v
theories/Main_Panel.v
theories/Main_PeakOrder.v
theories/Main_Permute.v
theories/Main_Pixels.v
theories/Main_Plot.v
theories/Main_Ranks.v
theories/Main_Ransac.v
theories/Main_RawPix.v
theories/Main_Rebuilt.v
theories/Main_Recover.v
theories/Main_Refine.v
theories/Main_Refs.v
theories/Main_Region.v
theories/Main_SaveName.v
theories/Main_SaveSteps.v
theories/Main_Scale.v
theories/Main_Seed.v
theories/Main_Session.v
theories/Main_SetModel.v
theories/Main_SetterSteps.v
theories/Main_Shift.v
theories/Main_Sim.v
theories/Main_Smooth.v
theories/Main_Symbol.v
theories/Main_SynthRefs.v
theories/Main_Synthetic.v
theories/Main_Tolerance.v
theories/Main_Truth.v
theories/Main_Units.v
theories/Main_Util.v
theories/Main_Vote.v
theories/Main_Whole.v
theories/Main_WholeCand.v
theories/Main_WholeMatch.v
theories/Main_Window.v
theories/Main_Work.v
theories/Main_World.v
theories/MatchFacts.v
theories/MatchPeaks.v
theories/Models.v
theories/Np.v
theories/NpFacts.v
theories/Num.v
theories/Panel.v
theories/Plot.v
theories/PolyEval.v
theories/PolyFacts.v
theories/PolyIdent.v
theories/Props_Add.v
theories/Props_Again.v
theories/Props_Apart.v
theories/Props_Archive.v
theories/Props_AssignSteps.v
theories/Props_Atlas.v
theories/Props_Bins.v
theories/Props_Bright.v
theories/Props_Brute.v
theories/Props_Calib.v
theories/Props_Calls.v
theories/Props_Cand.v
theories/Props_Chart.v
theories/Props_Construct.v
theories/Props_Count.v
theories/Props_Cover.v
theories/Props_Crowded.v
theories/Props_Csv.v
theories/Props_Decoy.v
theories/Props_Delim.v
theories/Props_Density.v
theories/Props_Edit.v
theories/Props_Fit.v
theories/Props_Forever.v
theories/Props_Hough.v
theories/Props_Humid.v
theories/Props_Interrupt.v
theories/Props_Limits.v
theories/Props_Listing.v
theories/Props_Load.v
theories/Props_Log.v
theories/Props_Match.v
theories/Props_MatchOrder.v
theories/Props_Mirror.v
theories/Props_Models.v
theories/Props_Optimal.v
theories/Props_Order.v
theories/Props_Pairs.v
theories/Props_Panel.v
theories/Props_PeakOrder.v
theories/Props_Permute.v
theories/Props_Pixels.v
theories/Props_Plot.v
theories/Props_Ranks.v
theories/Props_Ransac.v
theories/Props_RawPix.v
theories/Props_Rebuilt.v
theories/Props_Recover.v
theories/Props_Refine.v
theories/Props_Refs.v
theories/Props_Region.v
theories/Props_SaveName.v
theories/Props_SaveSteps.v
theories/Props_Scale.v
theories/Props_Seed.v
theories/Props_Session.v
theories/Props_SetModel.v
theories/Props_SetterSteps.v
theories/Props_Shift.v
theories/Props_Sim.v
theories/Props_Smooth.v
theories/Props_Symbol.v
theories/Props_SynthRefs.v
theories/Props_Synthetic.v
theories/Props_Tolerance.v
theories/Props_Truth.v
theories/Props_Units.v
theories/Props_Util.v
theories/Props_Vote.v
theories/Props_Whole.v
theories/Props_WholeCand.v
theories/Props_WholeMatch.v
theories/Props_Window.v
theories/Props_Work.v
theories/Props_World.v
theories/Py.v
theories/Ransac.v
theories/RansacFacts.v
theories/RawPix.v
theories/RecoverFacts.v
theories/RefineFacts.v
theories/RefineFacts2.v
theories/Refs.v
theories/SampleFacts.v
theories/SaveSteps.v
theories/Seed.v
theories/SepFacts.v
theories/SetterSteps.v
theories/Smooth.v
theories/SpecAdd.v
theories/SpecAgain.v
theories/SpecAssign.v
theories/SpecAtlas.v
theories/SpecBrute.v
theories/SpecCalib.v
theories/SpecCalls.v
theories/SpecCand.v
theories/SpecChart.v
theories/SpecCount.v
theories/SpecCover.v
theories/SpecCsv.v
theories/SpecDecoy.v
theories/SpecFit.v
theories/SpecHough.v
theories/SpecInterrupt.v
theories/SpecLog.v
theories/SpecMatch.v
theories/SpecMatchOrder.v
theories/SpecMirror.v
theories/SpecOptimal.v
theories/SpecOrder.v
theories/SpecPairs.v
theories/SpecPanel.v
theories/SpecPeakOrder.v
theories/SpecPermute.v
theories/SpecPlot.v
theories/SpecPoly.v
theories/SpecRansac.v
theories/SpecRawPix.v
theories/SpecRecover.v
theories/SpecRegion.v
theories/SpecSeed.v
theories/SpecSession.v
theories/SpecSetter.v
theories/SpecSim.v
theories/SpecSmooth.v
theories/SpecSynthetic.v
theories/SpecUnits.v
theories/SpecUtil.v
theories/SpecVote.v
theories/SpecWholeMatch.v
theories/SynthRefs.v
theories/Synthetic.v
theories/Util.v
theories/UtilFacts.v
theories/Whole.v
theories/WholeCand.v
theories/WholeMatch.v
theories/World.v
theories/XReal.v
