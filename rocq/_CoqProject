-Q theories Verif
theories/Base/Arr.v
theories/Base/ArrFacts.v
theories/Base/Dict.v
theories/Base/DictFacts.v
theories/Base/Float.v
theories/Base/FloatFacts.v
theories/Base/Py.v
theories/Base/PyFacts.v
theories/Base/Str.v
theories/Base/StrFacts.v
theories/Model/Algorithms.v
theories/Model/AlgorithmsRounded.v
theories/Model/AnalysisOptions.v
theories/Model/Arrays.v
theories/Model/CentroidRounded.v
theories/Model/Classifier.v
theories/Model/Clustering.v
theories/Model/CommandLine.v
theories/Model/ConcurrentTable.v
theories/Model/CutFile.v
theories/Model/DBA.v
theories/Model/Dataset.v
theories/Model/Dbscan.v
theories/Model/Distance.v
theories/Model/DistanceProgram.v
theories/Model/Dnn.v
theories/Model/Elbows.v
theories/Model/ErrorPlot.v
theories/Model/Errors.v
theories/Model/Example2d.v
theories/Model/Examples.v
theories/Model/Extraction.v
theories/Model/Forecast.v
theories/Model/ForecastErrorsRounded.v
theories/Model/FuzzyMask.v
theories/Model/FuzzyMaskRounded.v
theories/Model/FuzzyRounded.v
theories/Model/FuzzySearchRounded.v
theories/Model/Histories.v
theories/Model/Iris.v
theories/Model/KMedoids.v
theories/Model/KMedoidsBad.v
theories/Model/KMedoidsFuzzy.v
theories/Model/KMedoidsRounded.v
theories/Model/Maths.v
theories/Model/Models.v
theories/Model/Optimize.v
theories/Model/PartitionAnalysis.v
theories/Model/PartitionRace.v
theories/Model/Plots.v
theories/Model/Pool.v
theories/Model/Programs.v
theories/Model/Queue2D.v
theories/Model/Region.v
theories/Model/Reports.v
theories/Model/Results.v
theories/Model/Rmse.v
theories/Model/Rounded.v
theories/Model/RoundedErrors.v
theories/Model/SavedRegion.v
theories/Model/Scaling.v
theories/Model/SearchPlots.v
theories/Model/Series.v
theories/Model/SilhouetteProgram.v
theories/Model/Solver.v
theories/Model/SolverFiles.v
theories/Model/SolverSave.v
theories/Model/SuitePrograms.v
theories/Model/Synthetic.v
theories/Model/TrainInput.v
theories/Model/Variance.v
theories/Proofs/AlgorithmFacts.v
theories/Proofs/AlgorithmsRoundedFacts.v
theories/Proofs/AnalysisFacts.v
theories/Proofs/AnalysisRunFacts.v
theories/Proofs/ArraysFacts.v
theories/Proofs/BarycenterFacts.v
theories/Proofs/BasicsFacts.v
theories/Proofs/CentroidRoundedFacts.v
theories/Proofs/ClassifierFacts.v
theories/Proofs/ClusteringFacts.v
theories/Proofs/ConvergeFacts.v
theories/Proofs/CutFileFacts.v
theories/Proofs/DBAFacts.v
theories/Proofs/DatasetFacts.v
theories/Proofs/DbscanFacts.v
theories/Proofs/DistanceFacts.v
theories/Proofs/DistanceObjFacts.v
theories/Proofs/DistanceProgramFacts.v
theories/Proofs/ElbowFacts.v
theories/Proofs/ElbowProgramFacts.v
theories/Proofs/ErrorFacts.v
theories/Proofs/ExtractionFacts.v
theories/Proofs/FilesFacts.v
theories/Proofs/ForecastFacts.v
theories/Proofs/FuzzyMaskFacts.v
theories/Proofs/FuzzyMaskRoundedFacts.v
theories/Proofs/FuzzyRoundedFacts.v
theories/Proofs/FuzzySearchRoundedFacts.v
theories/Proofs/HistoryFacts.v
theories/Proofs/IeeeFacts.v
theories/Proofs/KMedoidsBadFacts.v
theories/Proofs/KMedoidsFacts.v
theories/Proofs/KMedoidsFuzzyFacts.v
theories/Proofs/KMedoidsRoundedFacts.v
theories/Proofs/MathsFacts.v
theories/Proofs/ModelFacts.v
theories/Proofs/NameFacts.v
theories/Proofs/OptimizeFacts.v
theories/Proofs/OptionsFacts.v
theories/Proofs/OverflowFacts.v
theories/Proofs/PartitionFacts.v
theories/Proofs/PlotsFacts.v
theories/Proofs/PoolFacts.v
theories/Proofs/ProgramFacts.v
theories/Proofs/ProperFacts.v
theories/Proofs/Queue2DFacts.v
theories/Proofs/RegionFacts.v
theories/Proofs/ReportFacts.v
theories/Proofs/ResultsFacts.v
theories/Proofs/RmseFacts.v
theories/Proofs/RoundedFacts.v
theories/Proofs/SavedRegionFacts.v
theories/Proofs/ScalingFacts.v
theories/Proofs/SeriesFacts.v
theories/Proofs/SilhouetteProgramFacts.v
theories/Proofs/SolverFacts.v
theories/Proofs/SolverTotal.v
theories/Proofs/SubsetFacts.v
theories/Proofs/SuiteFacts.v
theories/Proofs/SummationFacts.v
theories/Proofs/TrainInputFacts.v
theories/Proofs/VarianceFacts.v
theories/Proofs/WarpingFacts.v
theories/Props/Algorithms.v
theories/Props/AlgorithmsRounded.v
theories/Props/AnalysisOptions.v
theories/Props/Arrays.v
theories/Props/Basics.v
theories/Props/CentroidRounded.v
theories/Props/Classifier.v
theories/Props/Clustering.v
theories/Props/CommandLine.v
theories/Props/ConcurrentTable.v
theories/Props/Converge.v
theories/Props/CutFile.v
theories/Props/DBA.v
theories/Props/Dataset.v
theories/Props/Dbscan.v
theories/Props/Distance.v
theories/Props/DistanceProgram.v
theories/Props/Dnn.v
theories/Props/Elbows.v
theories/Props/ErrorPlot.v
theories/Props/Errors.v
theories/Props/ErrorsOverflow.v
theories/Props/ErrorsRounded.v
theories/Props/Example2d.v
theories/Props/Examples.v
theories/Props/Extraction.v
theories/Props/Forecast.v
theories/Props/Fuzzy.v
theories/Props/FuzzyMaskRounded.v
theories/Props/FuzzyPipelineRounded.v
theories/Props/FuzzyRounded.v
theories/Props/FuzzySearchRounded.v
theories/Props/Histories.v
theories/Props/Ieee.v
theories/Props/Iris.v
theories/Props/KMedoids.v
theories/Props/KMedoidsBad.v
theories/Props/KMedoidsRounded.v
theories/Props/KnnEach.v
theories/Props/Optimize.v
theories/Props/OverflowRounded.v
theories/Props/PartitionAnalysis.v
theories/Props/PartitionRace.v
theories/Props/Plots.v
theories/Props/PlotsProgram.v
theories/Props/Programs.v
theories/Props/Queue2D.v
theories/Props/Regions.v
theories/Props/RepoTests.v
theories/Props/Reports.v
theories/Props/Results.v
theories/Props/Rmse.v
theories/Props/Rounded.v
theories/Props/RoundedErrors.v
theories/Props/SavedRegion.v
theories/Props/Scaling.v
theories/Props/SearchPlots.v
theories/Props/Series.v
theories/Props/SilhouetteProgram.v
theories/Props/SmapeRounded.v
theories/Props/Solver.v
theories/Props/SolverFiles.v
theories/Props/SolverSave.v
theories/Props/Subsets.v
theories/Props/SuitePrograms.v
theories/Props/Synthetic.v
theories/Props/TrainInput.v
theories/Props/TrainingErrors.v
theories/Props/Variance.v
theories/Props/Witnesses.v
theories/Spec/Algorithms.v
theories/Spec/AnalysisOptions.v
theories/Spec/Calendar.v
theories/Spec/Classifier.v
theories/Spec/Clustering.v
theories/Spec/CommandLine.v
theories/Spec/CutFile.v
theories/Spec/Dataset.v
theories/Spec/Dbscan.v
theories/Spec/Distance.v
theories/Spec/DistanceProgram.v
theories/Spec/Dnn.v
theories/Spec/Elbows.v
theories/Spec/ErrorPlot.v
theories/Spec/Errors.v
theories/Spec/Example2d.v
theories/Spec/Examples.v
theories/Spec/Extraction.v
theories/Spec/Extrema.v
theories/Spec/Forecast.v
theories/Spec/Fuzzy.v
theories/Spec/FuzzyRounded.v
theories/Spec/FuzzySearchRounded.v
theories/Spec/Grid.v
theories/Spec/Histories.v
theories/Spec/Ieee.v
theories/Spec/Interleaving.v
theories/Spec/Iris.v
theories/Spec/KMedoidsBad.v
theories/Spec/KMedoidsRounded.v
theories/Spec/Medoids.v
theories/Spec/Optimize.v
theories/Spec/Partition.v
theories/Spec/PartitionAnalysis.v
theories/Spec/Plots.v
theories/Spec/Programs.v
theories/Spec/Queue2D.v
theories/Spec/Rect.v
theories/Spec/Regions.v
theories/Spec/Reports.v
theories/Spec/Results.v
theories/Spec/Rmse.v
theories/Spec/Rounded.v
theories/Spec/SavedRegion.v
theories/Spec/Scaling.v
theories/Spec/SearchPlots.v
theories/Spec/SilhouetteProgram.v
theories/Spec/Solver.v
theories/Spec/SolverFiles.v
theories/Spec/SolverSave.v
theories/Spec/SuitePrograms.v
theories/Spec/Synthetic.v
theories/Spec/TrainInput.v
theories/Spec/TrainingErrors.v
theories/Spec/Variance.v
theories/Spec/Warping.v
