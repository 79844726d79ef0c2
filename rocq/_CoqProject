-Q theories Verif
theories/Base.v
theories/BaseLemmas.v
theories/CConv.v
theories/Spec.v
theories/Instances.v
theories/LoopLemmas.v
theories/ExtLemmas.v
theories/DownConv.v
theories/DownPer.v
theories/UpConv.v
theories/Lengths.v
theories/Dwt.v
theories/DwtProofs.v
theories/PR.v
theories/LengthsProofs.v
theories/Linear.v
theories/Multilevel.v
theories/MultilevelProofs.v
theories/Extra1D.v
theories/ExBanks.v
theories/Facts1.v
theories/Props1.v
theories/Swt.v
theories/SwtSpec.v
theories/SwtProofs.v
theories/FactsSwt.v
theories/ExBanks2.v
theories/PropsSwt.v
theories/Nd.v
theories/NdSpec.v
theories/Axis.v
theories/AxisProofs.v
theories/AxisProofs2.v
theories/NdLinear.v
theories/Multidim.v
theories/MultidimProofs.v
theories/MultidimFacts.v
theories/ExNd.v
theories/PropsNd.v
theories/MultilevelNd.v
theories/MultilevelNdProofs.v
theories/MultilevelNdFacts.v
theories/ExNd2.v
theories/PropsNd2.v
theories/Threshold.v
theories/ThresholdProofs.v
theories/PropsThresh.v
theories/Pad.v
theories/PadProofs.v
theories/PropsPad.v
theories/FilterSpec.v
theories/Filters.v
theories/FiltersProofs.v
theories/FiltersFacts.v
theories/Tables.v
theories/PRError.v
theories/TablesProofs.v
theories/TablesFacts.v
theories/ExFilters.v
theories/NamesSpec.v
theories/Names.v
theories/NamesProofs.v
theories/NamesProofs2.v
theories/Freq.v
theories/PropsFilters.v
theories/SwtNd.v
theories/InvLinear.v
theories/Mra.v
theories/MraProofs.v
theories/SwtNdArgs.v
theories/ExMra.v
theories/PropsMra.v
theories/Packets.v
theories/PacketsInv.v
theories/PacketsPath.v
theories/PacketsPath2.v
theories/PacketsRead.v
theories/PacketsSpec.v
theories/PacketsLevel.v
theories/PacketsClasses.v
theories/PacketsFacts.v
theories/PacketsFacts2.v
theories/PacketsFacts3.v
theories/PacketsRebuild.v
theories/PacketsRebuild2.v
theories/ExPackets.v
theories/PropsPackets.v
theories/PackSpec.v
theories/Packing.v
theories/PackRavel.v
theories/PackRavelFacts.v
theories/PackBox.v
theories/PackArray.v
theories/PackArrayFacts.v
theories/PackLink.v
theories/ExPack.v
theories/PropsPack.v
theories/Fsw.v
theories/FswSpec.v
theories/FswLine.v
theories/FswAxis.v
theories/FswProofs.v
theories/FswBands.v
theories/FswWave.v
theories/ExFsw.v
theories/PropsFsw.v
theories/Cwt.v
theories/CwtSpec.v
theories/CwtProofs.v
theories/CwtNd.v
theories/CwtMain.v
theories/ExCwt.v
theories/PropsCwt.v
theories/AxisOps.v
theories/NdSynth.v
theories/NdSwtSpec.v
theories/SwtNdBand.v
theories/SwtNdSlices.v
theories/SwtNdLevel.v
theories/SwtNdLevel2.v
theories/SwtNdFwd.v
theories/SwtNdInv.v
theories/SwtNd2.v
theories/SwtAxisInv.v
theories/ExSwtNd.v
theories/PropsSwtNd.v
theories/MranLoop.v
theories/MranSum.v
theories/MranAdd.v
theories/MranSwt.v
theories/MranDwt.v
theories/MranTerms.v
theories/ExMraNd.v
theories/PropsMraNd.v
theories/NamesOrder.v
theories/PacketsMax.v
theories/PacketsLevel2.v
theories/PacketsLevel3.v
theories/ExPackets2.v
theories/PropsPackets2.v
theories/Wavefun.v
theories/WavefunSpec.v
theories/WavefunProofs.v
theories/WavefunFacts.v
theories/WavefunMain.v
theories/WavefunMore.v
theories/ExWavefun.v
theories/PropsWavefun.v
theories/Continuous.v
theories/ContinuousSpec.v
theories/GaussInt.v
theories/ContinuousPoly.v
theories/ContinuousDoc.v
theories/ContinuousProofs.v
theories/ContinuousMain.v
theories/ExContinuous.v
theories/PropsContinuous.v
theories/CwtReal.v
theories/CwtRealSpec.v
theories/CwtRealProofs.v
theories/ExCwtReal.v
theories/PropsCwtReal.v
theories/MomentSpec.v
theories/TableMoments.v
theories/BuiltinMoments.v
theories/PolySpec.v
theories/PolyData.v
theories/ExMoments.v
theories/PropsMoments.v
theories/Dtype.v
theories/DtypeSpec.v
theories/DtypeProofs.v
theories/DtypeValues.v
theories/ExDtype.v
theories/PropsDtype.v
theories/Pickle.v
theories/PickleProofs.v
theories/PropsPickle.v
theories/RawConv.v
theories/RawRel.v
theories/HomRing.v
theories/Rounding.v
theories/RoundingProofs.v
theories/RoundingLevels.v
theories/ExRounding.v
theories/RoundingFacts.v
theories/RoundingBuiltin.v
theories/RoundingMain.v
theories/ExRounding2.v
theories/PropsRounding.v
theories/Cyclic.v
theories/CyclicMain.v
theories/CyclicNd.v
theories/ParsevalNd.v
theories/RollNd.v
theories/ExCyclic.v
theories/PropsCyclic.v
theories/PadNd.v
theories/PadNdSpec.v
theories/PadNdProofs.v
theories/PadNdDwt.v
theories/PadNdFacts.v
theories/PadNdEmpty.v
theories/PropsPadNd.v
theories/PacketsWalk.v
theories/PacketsWalkSpec.v
theories/PacketsWalkProofs.v
theories/PacketsWalkMain.v
theories/PacketsNdRead.v
theories/PropsPacketsWalk.v
theories/Demo.v
theories/DemoSpec.v
theories/DemoProofs.v
theories/DemoMain.v
theories/DemoFloat.v
theories/Demo64.v
theories/PropsDemo.v
theories/PackBad.v
theories/PropsPackBad.v
theories/ThreshC.v
theories/ThreshCSpec.v
theories/ThreshCProofs.v
theories/ThreshInf.v
theories/PropsThreshC.v
theories/DocUtils.v
theories/DocUtilsSpec.v
theories/DocUtilsProofs.v
theories/DocUtilsKeys.v
theories/DocUtilsBoxes.v
theories/PropsDocUtils.v
theories/DemoValuesSpec.v
theories/DemoValues.v
theories/DemoValues2.v
theories/DemoValues3.v
theories/DemoValues4.v
theories/PropsDemoValues.v
theories/ReversalSpec.v
theories/Reversal.v
theories/Reversal2.v
theories/DiscreteSymmetry.v
theories/SymmetrySpec.v
theories/Reversal3.v
theories/PropsReversal.v
theories/BoundaryPlotSpec.v
theories/BoundaryPlot.v
theories/BoundaryPlotProofs.v
theories/PropsBoundaryPlot.v
theories/DenoiseSpec.v
theories/Denoise.v
theories/DenoiseReal.v
theories/ExDenoise.v
theories/ExDenoiseQ.v
theories/PropsDenoise.v
theories/DenoiseNdSpec.v
theories/DenoiseNd.v
theories/ExDenoiseNd.v
theories/PropsDenoiseNd.v
theories/DenoiseNdFlat.v
theories/DenoiseNdReal.v
theories/ExDenoiseImage.v
theories/PropsDenoiseImage.v
theories/PacketsEmpty.v
theories/EmptyArgs.v
theories/ExEmpty.v
theories/PropsEmpty.v
theories/MeanSpec.v
theories/Mean.v
theories/MeanReal.v
theories/ExMean.v
theories/PropsMean.v
theories/MeanNd.v
theories/MeanNdReal.v
theories/ExMeanNd.v
theories/PropsMeanNd.v
theories/PacketsEnergy.v
theories/PacketsEnergyNd.v
theories/ExPacketsEnergy.v
theories/PropsPacketsEnergy.v
theories/SwtNdRefuse.v
theories/ExSwtNdRefuse.v
theories/PropsSwtNdRefuse.v
theories/MeanSwtNd.v
theories/PropsMeanSwtNd.v
theories/EnergySwtNd.v
theories/PropsEnergySwtNd.v
theories/DwtRefuse.v
theories/PropsDwtRefuse.v
theories/WaverecRefuse.v
theories/PropsWaverecRefuse.v
theories/FswKeys.v
theories/ContinuousName.v
theories/PropsGaps.v
theories/SpecPins.v
theories/PropsPins.v
