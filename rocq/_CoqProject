-Q theories Verif
theories/PyBase.v
theories/PyFacts.v
theories/Windowed.v
theories/WindowedProofs.v
theories/SlidingNode.v
theories/SlidingNodeProofs.v
theories/PropsWindow.v
theories/NdWindow.v
theories/NdWindowProofs.v
theories/Growable.v
theories/GrowableProofs.v
theories/Bits.v
theories/BitsProofs.v
theories/HammingDb.v
theories/HammingDbProofs.v
theories/PropsArrays.v
theories/Index.v
theories/IndexProofs.v
theories/PropsIndex.v
theories/Time.v
theories/TimeProofs.v
theories/PropsTime.v
theories/PyMore.v
theories/Freq.v
theories/FreqProofs.v
theories/FreqScaleProofs.v
theories/FreqDim.v
theories/FreqDimProofs.v
theories/PropsFreq.v
theories/Axis.v
theories/AxisProofs.v
theories/PropsAxis.v
theories/Vrts.v
theories/VrtsProofs.v
theories/Persist.v
theories/PersistProofs.v
theories/PropsPersist.v
theories/PyRange.v
theories/Pipeline.v
theories/PipelineProofs.v
theories/Preproc.v
theories/PreprocProofs.v
theories/Reservoir.v
theories/ReservoirProofs.v
theories/Trainer.v
theories/TrainerProofs.v
theories/PropsLearn.v
theories/ReshapeMore.v
theories/PropsReshape.v
theories/Nodes.v
theories/NodesProofs.v
theories/Audio.v
theories/AudioProofs.v
theories/Midi.v
theories/MidiProofs.v
theories/PropsNodes.v
theories/Ui.v
theories/UiProofs.v
theories/Ui2Proofs.v
theories/PropsUi.v
theories/Spectral.v
theories/SpectralProofs.v
theories/TransformProofs.v
theories/WindowProofs.v
theories/ReconProofs.v
theories/OverlapProofs.v
theories/SynthProofs.v
theories/PropsSpectral.v
theories/ScaleBasis.v
theories/ScaleBasisProofs.v
theories/ChromaProofs.v
theories/Weighting.v
theories/WeightingProofs.v
theories/PropsSpectral2.v
theories/Datasets.v
theories/DatasetsProofs.v
theories/PropsDatasets.v
theories/IngestMore.v
theories/PropsIngest.v
theories/Resample.v
theories/ResampleProofs.v
theories/Decompose.v
theories/DecomposeProofs.v
theories/Square.v
theories/SquareProofs.v
theories/PhaseShift.v
theories/PhaseShiftProofs.v
theories/PropsTransforms.v
theories/Stft.v
theories/StftProofs.v
theories/TimeStretch.v
theories/TimeStretchProofs.v
theories/TimeStretchProofs2.v
theories/TimeStretchProofs3.v
theories/TimeStretchProofs4.v
theories/TimeStretchProofs5.v
theories/TimeStretchErrors.v
theories/PropsStft.v
theories/FreqAdapt.v
theories/FreqAdaptProofs.v
theories/FreqAdaptProofs2.v
theories/FreqAdaptProofs3.v
theories/PropsAdapt.v
theories/Float64.v
theories/Float64Proofs.v
theories/Synths.v
theories/SynthsProofs.v
theories/PropsSynths.v
theories/Loss.v
theories/LossProofs.v
theories/LossProofs2.v
theories/LossProofs3.v
theories/NetUtil.v
theories/NetUtilProofs.v
theories/PropsNets.v
theories/Ops.v
theories/OpsProofs.v
theories/OpsProofs2.v
theories/OpsProofs3.v
theories/OpsProofs4.v
theories/OpsProofs5.v
theories/PropsOps.v
theories/Json.v
theories/JsonProofs.v
theories/IndexSearch.v
theories/IndexSearchProofs.v
theories/IndexSearchProofs2.v
theories/IndexSearchProofs3.v
theories/PropsSearch.v
theories/Learned.v
theories/LearnedProofs.v
theories/LearnedProofs2.v
theories/LearnedProofs3.v
theories/PropsLearned.v
theories/Sampler.v
theories/SamplerProofs.v
theories/SamplerProofs2.v
theories/Optim.v
theories/OptimProofs.v
theories/OptimProofs2.v
theories/PropsTrain.v
theories/FilterBank.v
theories/FilterBankProofs.v
theories/FilterBankProofs2.v
theories/PropsFilters.v
theories/Repl.v
theories/ReplProofs.v
theories/ReplProofs2.v
theories/PropsRepl.v
theories/Graph.v
theories/GraphProofs.v
theories/GraphProofs2.v
theories/GraphProofs3.v
theories/GraphProofs4.v
theories/GraphProofs5.v
theories/PropsGraph.v
theories/Onsets.v
theories/OnsetsProofs.v
theories/OnsetsProofs2.v
theories/PropsOnsets.v
theories/Training.v
theories/TrainingProofs.v
theories/TrainingProofs2.v
theories/TrainingProofs3.v
theories/PropsTraining.v
theories/SoundNodes.v
theories/SoundNodesProofs.v
theories/SoundNodesProofs2.v
theories/SoundNodesProofs3.v
theories/PropsSoundNodes.v
theories/Listening.v
theories/ListeningProofs.v
theories/ListeningProofs2.v
theories/ListeningProofs3.v
theories/PropsListening.v
theories/EndToEnd.v
theories/EndToEndProofs.v
theories/EndToEndProofs2.v
theories/PropsEndToEnd.v
theories/Archives.v
theories/ArchivesProofs.v
theories/ArchivesProofs2.v
theories/PropsArchives.v
theories/Concat.v
theories/ConcatProofs.v
theories/PropsConcat.v
theories/Monitor.v
theories/MonitorProofs.v
theories/MonitorProofs2.v
theories/MonitorProofs3.v
theories/MonitorProofs4.v
theories/MonitorProofs5.v
theories/PropsMonitor.v
theories/Lifecycle.v
theories/LifecycleProofs.v
theories/LifecycleProofs2.v
theories/LifecycleProofs3.v
theories/PropsLifecycle.v
theories/Time64.v
theories/Time64Proofs.v
theories/Time64Proofs2.v
theories/Time64Proofs3.v
theories/Time64Proofs4.v
theories/Time64Proofs5.v
theories/Time64Proofs6.v
theories/PropsTime64.v
theories/Penalty.v
theories/PenaltyProofs.v
theories/PropsPenalty.v
theories/Rainbow.v
theories/RainbowProofs.v
theories/PropsRainbow.v
theories/Fractions.v
theories/FractionsProofs.v
theories/FractionsProofs2.v
theories/FractionsProofs3.v
theories/FractionsProofs4.v
theories/PropsFractions.v
theories/Range64.v
theories/Range64Proofs.v
theories/Range64Proofs2.v
theories/PropsRange64.v
theories/Masks.v
theories/MasksProofs.v
theories/MasksProofs2.v
theories/MasksProofs3.v
theories/PropsMasks.v
theories/SquareProofs2.v
theories/PropsSquare.v
theories/AdvIndex.v
theories/AdvIndexProofs.v
theories/PropsAdvIndex.v
theories/AdvIndexMore.v
theories/PropsAdvIndexMore.v
theories/MasksBeside.v
theories/PropsMasksBeside.v
theories/DctAxis.v
theories/DctAxisProofs.v
theories/PropsDctAxis.v
