# Formal model of ginomcevoy/lxai2019 (spta) in Rocq / Coq 8.16.1

## Layout

`rocq/theories/`

* `Base/` – Python and numpy primitives used by all models: results with exceptions as values (`res`),
  Python list indexing and slicing (negative indices included), `range`, strings, dicts, floats, n-d arrays in C order.
* `Model/` – one file per group of source files.  Total functions that mirror the Python code
  branch by branch.  Every definition cites file and lines in /repo; simplifications are stated there.
  The table "What is modelled" below lists the files.
* `Spec/` – small independent specifications (what it means to be a divisor list, a warping path, a
  partition of a grid ...) that do not mention the helpers of the model.
* `Proofs/` – lemmas.
* `Props/` – the property theorems (`Cnn_...`), each closed by `exact` or a short combination of lemmas, followed by
  `Print Assumptions`, and `Example`s showing that the hypotheses can be met by a case that is not trivial.

`seeded/LOG.jsonl` records the wrong programs that were tried against the theorems.
`Props/RepoTests.v` runs the model on the inputs of the repository's own unit tests (spta/tests) and states the outcomes that
those tests assert: evidence that the model is the code's, not a proof of any property.  Left out are the tests that need a
file that is not in the repository (test_choose_medoid), identity of objects, `__str__` and the two unused file names
scaled_min_filename and scaled_max_filename.

## Modelling conventions

* Python exceptions are values: `Ok v | Raise e`.
* Python integers are `Z`; list lengths and loop counters are `nat` where they cannot be negative.
* Floating-point numbers are `fnum = NaN | -inf | +inf | Fin q` with `q : Q`: comparisons with NaN are
  false, infinities behave as in IEEE, but finite arithmetic is exact.  Rounding, overflow to infinity and
  signed zeros are abstracted away, except in C148-C151, where scaling, descaling and the overall error are modelled
  with every result rounded, and in C153-C162, where the k-medoids search, the choice of a centroid, fuzzy k-medoids and fuzzy masks are.
* numpy arrays are values: shape plus flat list in C order.  Aliasing of views is not modelled
  except where a property is about it.
* A loop of the code that has no bound of its own (`while`) is a recursive function with a fuel argument that returns
  `Raise Diverges` when the fuel is used up; the theorems either show that enough fuel exists or speak about the runs
  that end.
* State that the code keeps in objects (iterator positions, cached matrices, cached partitions, cached forecasts,
  counters of random draws) is passed in and out explicitly.
* Random draws, the distance measure, the model-fitting libraries, the neural network, pickle and the file system are
  function arguments or explicit state (maps from path to content).  Where a theorem needs something from such an
  argument, this is a hypothesis in its statement, and an `Example` shows that it can be met.
* Processes are modelled by interleavings: the theorems quantify over all schedules (`Model/Pool.v`,
  `Model/Queue2D.v`, `Model/Errors.v`), and in `Queue2D.v` over the moments at which a process is killed.
* Pictures are the lists of calls that draw on them.  Logging and timing are not modelled.
* The command-line programs start from the options that argparse has read; what argparse makes of a line for the parsers
  of the programs is in `Model/CommandLine.v` (a transcription of the part of Python's argparse that they use).

## Trusted base

* Coq's kernel (8.16.1) and its virtual machine for `vm_compute` in concrete examples and refutation witnesses.
* `Print Assumptions`: every theorem listed in MANIFEST.json prints "Closed under the global context" (checked for all
  of them with a script; the commands also stand in the `Props` files).  No axiom is used, neither of the standard library
  nor of any other library.  (`coqchk -o` lists seven axioms of `Coq.ssr.ssrunder`: the standard library declares
  them in a module that `ssreflect` loads; no theorem depends on them.)
* Only the standard library is imported (`grep Require rocq/theories` shows `From Coq` and `From Verif` alone).
* The reading of the Python code: the model is hand-written; nothing ties it to the code but the citations.
* What is assumed of the world outside /repo, because the model gives it a meaning of its own:
  * CPython: `int`, `str`, `range`, slices, negative indices, `sorted` (stable), `enumerate`, dict order (insertion; equal
    keys keep the first key), `str.split/join`, `int(str)`, `os.path.join`, the csv module (delimiter, quoting,
    one row per call), `datetime` ordinals, `open` with `'w'` (empties) and `'a'` (appends).
  * numpy: C order, `reshape`, `arange` (length `ceil`), `linspace`, `argmin` (first minimum; NaN wins),
    `argpartition`, `partition`, `median`, `max/min` (NaN propagates), `unique` (sorted), `intersect1d`,
    `np.save`/`np.load` (round trip), out-of-range slices cut off, negative indices counting from the end.
  * `np.random.choice/randint/normal`, `random.choice`, `np.random.seed` (range check): functions of the number of the
    call; the theorems quantify over them, with the contract that a draw without replacement has no
    duplicates and comes from the population.
  * `list(set(...))`: an arbitrary order of the elements.
  * multiprocessing: `Pool.map` runs every task once in some order and returns results in the order of the
    tasks; a lock excludes; a Manager's queue and list operations are atomic.
  * tslearn's DTW, statsmodels' ARIMA, pmdarima's auto ARIMA, keras' `predict`, sklearn's `normalize` and silhouettes,
    oapackage's Pareto fronts (the last three by their definitions), `sqrt` (an argument with the contract stated where
    it is used): arbitrary functions otherwise.
  * pickle and the file system: a path that was written gives back the object; paths are equal when they are equal as strings;
    directories exist once created; no other program changes the files, and no call is interrupted,
    unless the property says so.
  * pandas: reading back a CSV of labels gives the labels; rolling windows are windows.

## Properties: what is modelled and how it is proved

* **C01 A full for-loop over a region visits every point once, in row-major order, and can be repeated.** Iterator as a state machine on `point_index`; for-loop = run `next` until StopIteration. Induction on the index; list equality with the row-major list of the spec.
* **C02 Leaving a loop early (or nesting loops) makes the next loop skip points.** Same machine, loop with break after m items; exact characterisation of the following loop, refutation of the naive claim by a witness.
* **C03 Point index and (x, y) coordinates are inverse to each other.** Arithmetic of div/mod; both round trips, injectivity.
* **C04 membership_of_points agrees with is_member.** Flat `take` versus 2-d indexing on C-order arrays.
* **C05 The clusters of a crisp partition split the region.** Filter of the row-major list by label; permutation with all points; counting.
* **C06 A cluster exposes exactly the values of its own members.** Both branches of value_at/series_at; all_point_indices as filtered range.
* **C07 merge_clusters_2d reassembles the region from its clusters.** Model of the merge loop over a mutable matrix; pointwise equality; converse error case.
* **C08 merge_clusters_2d does not sort its input, although it says it does.** Refutation witness plus general theorem: any list not in order raises ValueError.
* **C09 merge_with_representatives_2d replicates the representative's value over its cluster.** repeat_point then merge; pointwise equality; error iff some representative is no member.
* **C10 Clusters intersecting a rectangle.** Set of labels as duplicate-free list; membership equivalence; out-of-range witness.
* **C11 regular_partitioning covers the grid with k rectangles.** Model of the nested block loops writing a matrix; interval arithmetic; all labels reached.
* **C12 divisors returns exactly the positive divisors in increasing order.** Model with integer square root; divisor pairing argument; sortedness.
* **C13 Balanced divisors multiply to n and are the closest pair.** First divisor with n/d <= d in the sorted list; optimality from pairing.
* **C14 find_minimum / find_maximum.** Fold with strict comparison over fnum; first-minimum specification.
* **C15 minimum_value_and_index / maximum_value_and_index.** nanmin fold and first index; specification by extremality and firstness.
* **C16 Applying a function region.** Fold over iterated points writing a zero matrix; pointwise specification; shape assertion.
* **C17 Sub-setting regions and intervals.** C-order arrays with Python slices; pointwise equality of flat arrays.
* **C18 Repeating a series or value over a region.** np.repeat + reshape on flat arrays; pointwise.
* **C19 Scaling puts every series in [0, 1].** nanmin/nanmax bounds and field arithmetic in Q.
* **C20 descale undoes scale.** Field arithmetic; refutation witness for constant-with-NaN.
* **C21 Sub-setting a scaled region keeps it descalable.** Pointwise equality of both sides.
* **C22 sliding_window.** Python range/slices; nth window.
* **C23 Train/test split.** Slices; append law; witness with negative slice.
* **C24 Year intervals tile the series.** Gregorian day count (model of datetime ordinal) and sums of year lengths.
* **C25 Daily averaging.** Reshape to (n,4,x,y) and mean; pointwise.
* **C26 k-medoids never increases the cost.** Fuelled loop over passes; invariant: cost only replaced by cost lower by more than tol.
* **C27 The k-medoids result is internally consistent.** Invariant: labels/costs/total are those computed from the current medoids; spec of argmin and sums.
* **C28 k-medoids medoids stay valid.** Invariant NoDup and range of the medoid list under replacement by a non-member.
* **C29 k-medoids stops at a local optimum or at the iteration limit.** Pass bound; a pass without swap tried every candidate.
* **C30 A medoid belongs to its own cluster.** argmin first-minimum property; witness for ties.
* **C31 Fuzzy memberships form a distribution.** Arithmetic in Q for m = 2 (exponent 1/(m-1) = 1); infinities as fnum.
* **C32 run_kmedoids_fuzzy fails when the initial medoids are already optimal.** State machine with option for the unassigned local.
* **C33 Fuzzy mask membership.** argmax over fnum/Q; monotonicity.
* **C34 Centroid minimises the sum of distances.** Fold over iterated points with strict comparison.
* **C35 Clustering metadata survive their string representation.** Decimal printing/parsing of integers, split on '_' and '-'.
* **C36 Clustering cache keys are not injective.** Two witnesses with equal key.
* **C37 A clustering suite is the cartesian product of its parameters.** flat_map; grouping dict as association list with insertion order; stable sort by k.
* **C38 Medoid coordinates survive the suite CSV.** Formatter and parser on strings; round trip by induction on the list.
* **C39 The elbow is the interior k with the largest discrete second derivative.** Fold argmax on interior triples in Q; quadratic exactness by field.
* **C40 Per-seed elbows use the wrong costs.** Dict keyed by (name,k); witness.
* **C41 squared_DTW is the optimal warping cost.** DP recursion against min over inductively defined warping paths.
* **C42 squared_DTW is a symmetric non-negative dissimilarity.** From C41 by path reversal/diagonal path.
* **C43 DBA update is well defined.** Backtracking over recorded directions; invariants on positions and counts.
* **C44 approximate_medoid_index returns a best candidate.** Fold with first-strict-minimum.
* **C45 The distance matrix holds all pairwise distances.** Nested loops writing matrix rows.
* **C46 Parallel distance matrix equals the serial one, for every schedule.** Tasks as writes to distinct cells; any permutation of the task list gives the same matrix.
* **C47 distances_to_point uses the right row.** List indexing.
* **C48 A missing matrix file is reported.** Small state machine of the distance object with file-system oracle; refutation.
* **C49 Spatial weighting is applied once.** Operation sequences on the distance object; invariant and refutation.
* **C50 kNN selects k nearest windows.** argpartition as an oracle constrained by its numpy contract.
* **C51 kNN forecast is the mean of the nearest earlier windows.** Window index arithmetic, mean bounds.
* **C52 Mean-of-past model.** Python negative slice; mean bounds.
* **C53 Error measures vanish exactly on perfect forecasts.** Q arithmetic over lists.
* **C54 Overall error.** nanmean of squares; sqrt as a monotone oracle.
* **C55 Parallel error computation equals the serial one, for every schedule.** As C46, on the points iterated by the forecast region.
* **C56 Error summary is ordered.** Min/max over the iterated region.
* **C57 Models are trained only at representatives.** Pointwise fold; counting.
* **C58 A solver forecasts each point with the model of its cluster's medoid.** Composition of the models of split, train, replicate, predict, descale.
* **C59 Query results use consistent coordinates and headers.** Results as an inductive type with one constructor per class; an independent relation column/value; induction over the layers; CSV round trip; connection to the solver theorems.
* **C60 Solver file names.** String formatting; injectivity lemmas; witness.
* **C61 Medoid choice picks the least penalty.** Nested folds with argmin (numpy NaN behaviour): invariant about the processed prefix of the suite; witness with a missing penalty.
* **C62 No medoid is chosen more often than the threshold.** Invariant over lists of calls with arbitrary suites and penalties; capacity by a sum over all medoids.
* **C63 Random points avoid the blacklist.** Random choice as oracle returning a duplicate-free sub-list.
* **C64 Random training points can coincide with medoids.** Witness with offset; theorem for zero offset.
* **C65 Labelled series windows.** flat_map of windows.
* **C66 Partition caching.** File system as finite map from paths; histories.
* **C67 Dataset caching.** File system as a map; invariant over histories of requests, crashes, deletions and damage: every readable cache file holds its interval; the interval is unique; file names are injective.
* **C68 The default cluster_len of a partition is always 0.** Fold adding 0.
* **C69 Silhouette analysis returns the best clustering.** Fold with strict comparison.
* **C70 Nested loops over the same region object never end.** Iteration protocol as state machine; histories of next/for/break.
* **C71 repeat_point works on plain spatio-temporal regions only.** MRO resolved by hand; every nesting of decorators.
* **C72 subset(region, interval) on a scaled region keeps the wrong scaling data.** Witness and universal statement on cut and kept arrays.
* **C73 Descaling a cluster of a scaled region.** Descale of the cluster composed twice.
* **C74 The k-medoids report fails exactly when a cluster is empty.** Case split on empty clusters.
* **C75 Fuzzy k-medoids fails on equal samples.** Invariant over the search: some candidate has a zero distance, membership sum NaN.
* **C76 Intra-cluster cost is the cost of the whole partition.** Sum by label regrouped into a sum over the grid.
* **C77 DTW barycenter averaging never gets worse.** The mean minimises the squared differences along fixed paths; regrouping by center position; induction over iterations.
* **C78 Whole-region forecasts belong to the current models.** State machine of the analysis object; witness with two trainings.
* **C79 Saved solvers are loaded unchanged.** File system as a map from paths to objects; histories of operations; injectivity of the paths; witness with auto ARIMA.
* **C80 The clustering report covers every point once.** Report as a function of the partition; sums over the clusters; CSV round trip.
* **C81 Regions created from metadata.** File system invariant of C67, then the subset and scaling lemmas of C16 and C19; witness with a rectangle past the border.
* **C82 Training rows for the classifier.** Fold over the random points related to the history of choices of C62; least distance from C61 with the distance matrix as penalties.
* **C83 Medoid series file.** mapM lemmas over clusterings and medoids, series through the subset lemma of C16.
* **C84 Prediction error as penalty.** setitem on a list of infinities; the error from the in-sample theorem of C58; choice from C61.
* **C85 Partition from labels.** Maximum of a list; index arithmetic of reshape; witnesses with a missing and a negative label.
* **C86 Rectangles in the dataset.** Linear arithmetic on the corners.
* **C87 Flat arrays of a region.** Index arithmetic of reshape.
* **C88 RMSE distance.** Sum of squares over the rationals; np.sqrt is a parameter.
* **C89 Names of dataset and distance files.** Injectivity of the string of a region, cut from the right.
* **C90 Predictions with a classifier.** Invariant of the object over all histories (each solver in memory is the stored one), then the pipeline of labels, models, forecasts and descaling point by point. The classifier and the files are parameters.
* **C91 Repeated queries to a classifier solver.** The solvers in memory only grow and the regions never change after the first query.
* **C92 Label of a series.** Arithmetic of the l1 norm over the rationals and the specification of argmax; the network is a parameter.
* **C93 Histogram of the distances to a centroid.** Model/Variance.v: the calls on a subplot as values; the list of members of a region as specification; matrix rows by C49-style lemmas.
* **C94 Statistics of the distances.** Insertion sort as np.sort, sortedness and permutation; second element of the sorted list; square root as parameter.
* **C95 Random points outside a cluster.** np.random.choice as any draw without repetition; set intersection as filter.
* **C96 One histogram per cluster.** Invariant over the histograms during the two loops (axis, then drawing); refutations by concrete draws.
* **C97 Clusters with their centroids.** Induction over the clusters; encode/decode of indices from C03.
* **C98 A matrix computed by the task queue survives crashing processes.** A state machine whose events are steps and kills of processes; an invariant that the written, lost, held and queued positions are a permutation of all positions; a measure for termination.
* **C99 The old silhouette analysis returns its best run.** The nested loops are one fold over all pairs; induction from the right for the first maximum.
* **C100 A silhouette plot shows each sample once, in the band and colour of its cluster.** The drawing calls are recorded; induction over the clusters for the positions, permutations for the samples.
* **C101 The distance pictures show distances to the first point and to the centre.** Arithmetic of the centre index for both parities; rows of the matrix reshaped.
* **C102 A plotted partition colours, marks and frames the right points.** Drawing calls with rational coordinates; the frame is shown to be the union of pixel squares.
* **C103 Series drawn by colour keep their groups apart.** Induction over the series; the palette has no duplicates.
* **C104 The first k-medoids algorithm stops, and its clusters and medoids fit together.** The number of samples better than each medoid falls with every replacement; a pass that changes nothing satisfies the final condition.
* **C105 The best models are exactly the models nobody beats.** The inverse reverses the order of non-negative numbers; a row of least sum among the rows that are nowhere worse is not beaten; the cost is monotone in time and error.
* **C106 Synthetic training data respects its limits and has the format of the training files.** Induction over the entries with the numbered random choices; comparison with the header and the row of the training file.
* **C107 A delayed function keeps its shape and length.** Position by position through the padded list.
* **C108 The table of medoid distances holds the distances between the medoids.** Model/Reports.v save_medoid_distances; the rows follow from the facts about distance matrices (C22); series version through matrix_of_region.
* **C109 The distance and error tables describe each point of each cluster once.** Model/Reports.v distance_vs_errors_for_cluster and distance_errors over a scaled or unscaled region with a crisp partition; the errors follow from the facts about repeated forecasts, the points from the order of cluster iteration. C109_forecast_length_in_name_refuted: runs that differ only in the forecast length write to the same files.
* **C110 The table of errors between medoids holds the error of each model at each medoid.** Model/Reports.v error_between_medoids with rows appended one by one, so the file at the point of failure is part of the result. C110_forecast_length_in_name_refuted as for C109.
* **C111 The table of training errors keeps the rows of all completed analyses.** Model/Reports.v training_error_analysis; rows appended one by one; positions by division of the row number by the number of orders.
* **C112 The predefined experiments mean what their names say.** Model the tables as lists (Model/Programs.v) and prove the statements by the product theorem of suites (C37, C60) and by going through the tables.
* **C113 The solver programs predict with what they have trained.** Model train_request and predict_request over the file system of C79; an invariant (what the four files hold) is kept by every run of a history that keeps the training; the printed lines come from C58 and C59.
* **C114 The k-NN and auto-ARIMA programs for each point forecast it from its own past, in the units of the dataset.** Model/Programs.v each_result, knn_each_request and auto_arima_each_request; theorems C114_* in Props/KnnEach.v. The models are those of train with the same k everywhere; measure_q_spec, apply_models_spec and descale_again (shared with the classifier) give the forecast, the error and the descaled series of each point; show_blocks gives the printed lines.
* **C115 The program with the neural network answers with the models that the labels name, and its tables of experiments exist.** Model/Dnn.v dnn_request over Model/Classifier.v, Spec/Dnn.v trained_before; theorems C115_* in Props/Dnn.v. held_after (ProgramFacts) shows that the training left a saved solver that later runs keep; C90_predictions gives the answer at each point; show_blocks the printed lines; the paths by computing the joins.
* **C116 Clustering a region: partition and medoids.** Model `Algorithms.v`: partition_impl of both algorithms on the region model, on top of the k-medoids search (`KMedoids.v`), the regular partition (`Arrays.v`) and the centroid search (`Distance.v`); the random choice of starting points is a parameter. The search theorems C26-C28, C74 are carried from samples to the points of the region through the row-major numbering; the regular medoids come from the centroid theorem for the cluster of a possibly scaled region.
* **C117 The table of a clustering suite.** Model `PartitionAnalysis.v`: the program over a state of pickles, text files and the shared distance measure, on top of the algorithms (C116), saved partitions (C36), cluster regions with centroids, the report (C80) and the predefined suites (C112). Induction over the clusterings with an explicit description of all files after a prefix; the paths are shown to be distinct. Cost: sum by clusters equals sum over points. Without --silhouette and --variance.
* **C118 The elbows printed for a clustering suite.** Model `Elbows.v`: the program over the saved partitions and the distance measure, with the dictionaries of partitions and costs keyed by the metadata (equal when name and k are equal). The dictionary of partitions is the image of the one of C40, so C40 (elbow) and C76 (cost, extended to scaled regions) apply; files by induction over the suite as in C117. Refuted: 'quick' is usable. The lines of derivatives printed on the way are left out.
* **C119 The named forecast errors and the errors of one forecast used everywhere.** Spec/Errors.v gives the three formulas over rationals (averages of lists) and the counted points of a region or cluster; the theorems relate get_error_func, with_repeated_forecast, overall_error_generic and overall_with_each_forecast (Model/Errors.v) to them, using the series of each point as the user sees them (shown).
* **C120 Training data of the classifier for random points.** Model/Extraction.v: the program with its files, the shared distance measure and the cache of loaded solvers as state, np.random.choice after np.random.seed as a parameter. Spec/Extraction.v says where the files are and what their lines contain. Props/Extraction.v: run for both criteria (the penalties are shown not to depend on the state), closest medoid, threshold, file names, failures, and the composition with the suite analysis of C117.
* **C121 The program that computes the distance matrix of a region.** Model/DistanceProgram.v models the program over the dataset files of Model/Dataset.v and a map of distance files; the pool's final state is a parameter that some schedule reaches. Spec/DistanceProgram.v says what each entry is and defines sequences of runs. Proofs: the cache invariant of the dataset is kept by every run, other files are untouched, the matrix of one process and of the pool (C46) holds the stated distances. C121_after_any_history delivers the hypothesis [ready] of the partition analysis (C117, C118, C120).
* **C122 Saving regions in numpy files and pickles.** Model/SavedRegion.v adds the attribute region_metadata to every layer of a region and models the operations with it, save, pickle and from_pickle. C122_same_operations and C122_same_creation show that without the attribute these are the operations of the earlier models. Spec/SavedRegion.v defines the regions made from a region by any operations; the invariant, by induction, is that a region whose innermost metadata is still there has the data of the whole region.
* **C123 The silhouette program analyses a region's own series with its own distances, after any history.** Model/SilhouetteProgram.v models the program with its commands over the files of Model/DistanceProgram.v; Spec/SilhouetteProgram.v defines histories and what it means that a region was saved and measured in one. Invariant over histories: the dataset is in place, loadable cache files hold their intervals, and the two files of a region are determined by whether it was saved and measured. The result of kmedoids is then that of C99 on the region's own series and distances. Refuted: scaled regions, independence of analyses in one process.
* **C124 medoid_distances.py: the tables of a suite.** Model/SuitePrograms.v has the loop over the clusterings of a suite, with the tables written so far kept when an exception ends it, and the programs from their arguments to the files; what is done with one clustering is in Model/Reports.v and Model/PartitionAnalysis.v. Spec/SuitePrograms.v has the paths as plain strings and what each table says. Induction over the clusterings before the failure, with the invariant that all their tables are in place (paths are injective in the clustering).
* **C125 error_between_medoids.py: the tables of an experiment.** Same model and invariant, with the partitions saved and loaded in each step. The table of a clustering is that of C110; the row-before-failure theorem gives exactly the rows written before the exception.
* **C126 distance_errors.py: the tables of an experiment.** Same model and invariant; the tables of a clustering are those of C109, and the paths of all clusters of all clusterings differ.
* **C127 Error analysis of a region or cluster ends with one result on every schedule.** Model.Forecast.analyze_errors (a relation over schedules) applied to Model.Models.train; Proofs/AnalysisRunFacts composes splitting, training, forecasting, per-member errors and the parallel sweep; Spec/TrainingErrors states the summary.
* **C128 The ARIMA training-error program tabulates every cluster and order of a suite.** Model/SuitePrograms arima_error_analysis: loop over the suite with partitions from pickles; analyses enter through the relation analyzed (errors, failed count, unknown times). Rows by C111, files by the lemmas of C125.
* **C129 The auto-ARIMA training-error program tabulates every cluster of a suite.** Model/SuitePrograms auto_arima_error_analysis, same construction as C128 with the order and AIC of the medoid's model.
* **C130 The directories stay consistent under any sequence of program runs.** Model/Histories.v: a run is one of eight programs with its own random choices, data and distance files; a history folds runs over the directories. Each run is refined to a sequence of small steps (save a partition that was not saved, write a report, write the suite table, save a solver) in Proofs/HistoryFacts.v; the invariants are proved by induction over the small steps and over the history.
* **C131 The k-medoids of the iris script ends and finds consistent clusters.** Model/Iris.v: the loop with fuel, rows of any type. Termination: each pass replaces a medoid only by a row with a strictly smaller sum, so the total of the ranks of the medoids decreases until the medoids stay. The labels belong to the returned medoids because a changed medoid that was also an old medoid would be nearer to itself.
* **C132 Counting matching labels.** Model/Iris.v: mark_matches and count_matches; counting by induction over the two lists; counterexamples for three labels and for the script.
* **C133 The command lines of the programs.** Model/CommandLine.v models what argparse does for these parsers (classification of words, abbreviations, --name=value, choices, types, required options) and the 21 parsers; Spec/CommandLine.v describes a line as a list of pieces and the value a string means; proofs by induction on the pieces and on the classified words.
* **C134 The picture of distances and forecast errors.** Model/ErrorPlot.v models plot_distances_vs_errors as the list of drawing calls and the exception, with the state of the analysis and of the distance object; the state after analyze_errors is characterised for all schedules; distances and errors are both shown to be maps over the points of the cluster in grid order. Names by injectivity of decimal numerals.
* **C135 The program that prints the forecast errors of a region.** Model/ErrorPlot.v models do_arima_forecast as a relation (schedules of the workers); induction on the suite; the single analyses by C127.
* **C136 The training-error program with pictures.** the loop over clusters and orders as a list of steps, each with a row and a picture; a prefix of successful steps splits off (rows_prefix, split_drawn), the pictures come from C134, the program level from the lemmas of C128.
* **C137 Options of the suite analysis: silhouettes and variance histograms.** the silhouette loop and the table loop as functions of the files and the list of pictures; each loop by induction over the clusterings, reusing the loop of C117; the pictures from C96 and C100; failures as the first clustering whose step raises
* **C138 The DBSCAN clustering of a region: what its clusters hold, where it fails and what it leaves on disk.** Model/Dbscan.v: sklearn's fit is an argument that gives labels; Spec/Dbscan.v says what density-connected groups are and what labels DBSCAN gives. The labels shifted by one become the partition (C85), counting lemmas relate the printed counts to it; the failures follow from the branches of partition and from the missing global variable.
* **C139 With --plots the search program draws one picture per cluster, and stops at a medoid without a model.** Model/SearchPlots.v has the analysis of a cluster with the picture after it as a relation (the name of the picture is known only after the analysis), the step of a cluster (row, then picture), the table and pictures of a clustering and the program. Spec/SearchPlots.v says which pictures a clustering leaves. Proved for all regions, suites, partitions, libraries and schedules by splitting the steps at the first one that fails; the expectation that --plots only adds pictures is refuted with a concrete run.
* **C140 The k-medoids examples cluster series that come from their functions in turn.** Model/Examples.v: the two generators over indexed random draws and main of example1d on top of the models of the distance matrix (C45), k-medoids (C26-C30, C74) and the coloured picture (C103); the rest of example2d.main is the silhouette analysis (C99). Proved by induction on the number of series, by the loop lemmas for arrays, and from the k-medoids theorems; the share of the second of two functions by counting odd coordinates.
* **C141 The two-dimensional k-medoids example draws the best clustering it found.** The whole program for any region, functions, seeds and numbers of clusters (Model/Example2d.v), on top of the region of C140, the k-medoids search of C26-C30 and the silhouette analysis of C99. Proved by showing that every run succeeds under the stated conditions and then using the theorem about the best run. Random numbers, the distance and the silhouette scores are arguments.
* **C142 A suite table whose writing was interrupted never gives a wrong medoid, but the interruption is not noticed.** The text written by csv.writer (lines with CRLF), the lines a file opened with newline='' gives, and the CSV reader at the end of an open quoted field; induction over the lines, the fields and the medoid string for the part of each that is left.
* **C143 Analyses of one suite that run at the same time leave a table that reads as if one had run, if creating the file is atomic.** Each run is a list of steps on the lines (or the text) of the file; interleavings are an inductive relation on lists of programs; invariant: some run has not created the file yet, or some run's rows still to be written and the rows in the file cover the suite.
* **C144 Saving over a saved solver is not atomic: readers get the old or the new content of each file, or an error.** Saving as six steps (empty and fill three files) on the file system of C79; the state of each file after n steps; loading with each file read from a later state.
* **C145 Concurrent processes that want the same partition all get it.** Each process is a state machine (look and compute, empty the file, write it); an invariant over all schedules for the file and the states; a measure for progress.
* **C146 The RMSE distance obeys the triangle inequality and its combination is the RMSE of all samples.** Minkowski by weighted squares over the rationals, means of means of equal length, with a square root of relative error eps.
* **C147 The distances from a point to all points of a grid.** The row-major grid and the sum of squares of each row.
* **C148 In floating point a scaled series stays between 0 and 1, keeps its order and reaches both ends.** The scaling of one series with every result rounded by an abstract monotone function; case analysis of minimum and maximum.
* **C149 In floating point scaling and descaling gives the series back up to a stated rounding error.** The standard model of floating-point error, number by number, with underflow term; bounds by linear arithmetic over the rationals.
* **C150 In floating point a larger error never makes the overall error smaller.** Rounded sums as trees; monotonicity of every step by induction on the tree.
* **C151 Scaling, descaling and the overall error in IEEE double precision.** IEEE double rounding defined over rationals and proved to be nearest, monotone, exact on doubles and accurate, so C148-C150 apply; counterexamples computed.
* **C152 The k-medoids search stops by itself, at medoids no single change improves.** The loop of the k-medoids search is followed pass by pass: by induction on the passes, (number of repeated passes) * tol is at most the loss of total cost (loop_gain). With the local optimality of C29 and the region-level reading of the costs (C116) the result is stated with sums of distances over the points of the region only; an example meets the hypotheses in both modes, and four points on a line show that mode lite does not consider points of other clusters.
* **C153 The k-medoids search in floating point.** Model/KMedoidsRounded.v is the search with the sums formed by an arbitrary function and the difference of totals rounded by a monotone function; the invariants of the exact search are proved again, where the gain of a swap is a strict decrease because rounding keeps order and zero. A six-sample instance in IEEE double precision refutes that the exact cost never grows.
* **C154 How far the computed cost of a clustering is from its exact cost.** Induction over the tree of additions (Model/RoundedErrors.v) with the accuracy of one addition; then over the clusters, and from start to result by C153.
* **C155 The centroid in floating point.** Model/CentroidRounded.v copies the loop with the sum as argument. The loop invariant is that of C34 and uses no property of the sum. The error bound follows from the bounds of SummationFacts (one factor 1±u per level of the sum, e per addition). A counterexample in a four-digit format shows that the exact sum need not be the least (`_refuted`).
* **C156 Computed memberships of fuzzy k-medoids add up to one within the rounding errors.** Model/FuzzyRounded.v is compute_membership_fcm with each operation rounded. The relative error of the denominator is at most (1+u)^k, each division adds one rounding, and the sum of a row adds h more; Bernoulli's inequality turns the product into a linear bound. Entries at most 1 follow from monotonicity: the running sum is at least each power. np.power is an external function of which only the listed facts are assumed.
* **C157 The fuzzy k-medoids search behaves the same way in floating point.** Model/FuzzySearchRounded.v is run_kmedoids_fuzzy on the rounded memberships of C156, with the difference of two totals rounded. The invariant of the search is that the state holds k different medoids with their computed costs; each swap is a computed gain, and computed gains compose because rounding is monotone. Spec/FuzzySearchRounded.v defines the computed memberships and totals directly.
* **C158 Fuzzy masks in floating point.** Model/FuzzyMaskRounded.v is MaskRegionFuzzy with the difference rounded. The maximum of the memberships has the largest rounded difference because rounding is monotone; the other claims follow from that and from rounding keeping 0 and 1.
* **C159 From fuzzy search to masks in double precision.** Composition of C157 (what the search returns), C156 (the rows are finite and the row of a medoid is 1 in its own cluster) and C158 (what a mask of such rows contains). An example shows a run in double precision that returns.
* **C160 The k-medoids algorithm on a region in floating point.** Model/AlgorithmsRounded.v is the algorithm of C116 with the search of C153. The search gives labels of nearest medoids whatever the sums are, and the rest of the proof of C116 only uses the labels. The bound in double precision is C154 read in points of the region.
* **C161 How far the overall error in floating point is from the exact one.** Model/RoundedErrors.v is the overall error with every result rounded. The squares are bounded one by one, their sum by the lemmas of C154, then the quotient and the root; missing errors add zero to the sum and nothing to the count.
* **C162 The forecast error sMAPE keeps its bounds in floating point.** Model smape with every result rounded (Model/ForecastErrorsRounded.v). The difference of two positive samples is rounded to at most the larger one and their sum to at least it, so each quotient is at most 1; partial sums of k terms are at most 200 k by monotonicity, as that is a float.

## What is modelled

| file | about |
|---|---|
| Model/Algorithms.v | The clustering algorithms applied to a spatio-temporal region: clustering/kmedoids.py and clustering/regular.py (partition_impl), with the helper of clustering/__init__.py that finds medoids. |
| Model/AlgorithmsRounded.v | The k-medoids algorithm applied to a region, in floating point: Model/Algorithms.v with the rounded search. |
| Model/AnalysisOptions.v | experiments/clustering/partition_analysis.py with its options --silhouette, --variance, --random and --bins, and the silhouette analysis of a suite (spta/clustering/silhouette.py). |
| Model/Arrays.v | spta/util/arrays.py: extrema, regular partitioning, sliding windows; and the extrema of spatial regions (spta/region/spatial.py). |
| Model/CentroidRounded.v | The centroid of a region in floating point: Model/Distance.v with the sums of the distances formed in any way. |
| Model/Classifier.v | Predictions with the help of a classifier: spta/classifier/model.py and the label of spta/classifier/dnn.py. |
| Model/Clustering.v | Clustering metadata, suites, the elbow and silhouette analyses: spta/clustering/{__init__,kmedoids,regular,factory,suite,silhouette}.py, the medoid strings of spta/kmedoids/__init__.py, and the names built from region metadata (spta/region/metadata.py). |
| Model/CommandLine.v | The command lines of the programs in experiments/: what argparse makes of the arguments for the parsers that the programs set up. argparse is part of Python; [parse_args] follows Lib/argparse.py (_parse_known_args, _parse_optional, _get_option_tuples, consume_optional, consume_positionals) for what these parsers use: options with one value or none, positional arguments with one value, choices, type=int, required options, abbreviations and --name=value. |
| Model/ConcurrentTable.v | The writes that one run of experiments/clustering/partition_analysis.py makes to the table of its suite, as the steps that other runs of it can come between. |
| Model/CutFile.v | The suite CSV as one text, so that it can be cut at any character. |
| Model/DBA.v | Model of spta/dba/dba.py: dynamic time warping and DTW barycenter averaging. |
| Model/Dataset.v | The dataset and its cache files: spta/dataset/temp_brazil.py, and the creation of regions from it, spta/region/metadata.py. |
| Model/Dbscan.v | spta/clustering/dbscan.py: the DBSCAN clustering of a region, its metadata and the program at the end of the file. sklearn's DBSCAN(eps=0.7, min_samples=5, metric='precomputed').fit is a function [dbscan] from the matrix to one label per sample. |
| Model/Distance.v | Distance measures and their distance matrices: spta/distance/{__init__,dtw,dtw_parallel,rmse}.py, the centroid (spta/region/centroid.py) and the intra-cluster cost (spta/region/partition.py). |
| Model/DistanceProgram.v | experiments/region/distance.py: the program that computes the distance matrix of a predefined region, in one process or in parallel, writes it to the file from which the other programs load it, and draws two pictures. |
| Model/Dnn.v | The program that answers with the help of the neural network, experiments/classifier/solver_dnn.py, and its tables of experiments: experiments/metadata/{classifier,arima_clustering}.py. |
| Model/Elbows.v | experiments/clustering/find_elbows.py: the program that prints the elbow of a k-medoids suite for each seed, with clustering/suite.py FindSuiteElbow computing the partitions and their costs. |
| Model/ErrorPlot.v | The picture of distances and forecast errors that the two training-error programs draw with --plots: spta/model/forecast.py:282-342 and the names of its files; and experiments/arima/forecast.py, the program that prints the forecast errors of a whole region for each order of a suite. |
| Model/Errors.v | Forecast errors: spta/util/error.py, spta/util/arrays.py (mean squares), spta/model/error.py and spta/model/error_parallel.py. |
| Model/Example2d.v | The program spta/kmedoids/example2d.py: it makes a region from some functions, clusters it for several numbers of clusters and draws the best clustering. |
| Model/Examples.v | The examples of the k-medoids package: spta/kmedoids/example1d.py and example2d.py, which make series from three functions (spta/dataset/synthetic_temporal.py) and cluster them. |
| Model/Extraction.v | experiments/clustering/extraction_lstm.py: the program that draws random points of a region, chooses a medoid of a suite for each of them and writes the training data of the classifier, with the files of spta/classifier/train_input.py. |
| Model/Forecast.v | spta/model/forecast.py: the ForecastAnalysis object. |
| Model/ForecastErrorsRounded.v | The forecast error sMAPE in floating point: Model/Errors.v with every result rounded. |
| Model/FuzzyMask.v | spta/region/mask.py: fuzzy masks. |
| Model/FuzzyMaskRounded.v | spta/region/mask.py in floating point: fuzzy masks that round the difference of two memberships. |
| Model/FuzzyRounded.v | The memberships of fuzzy k-medoids in floating point: Model/KMedoidsFuzzy.v with every result rounded. |
| Model/FuzzySearchRounded.v | The search of fuzzy k-medoids in floating point: Model/KMedoidsFuzzy.v with rounded memberships, costs and differences. |
| Model/Histories.v | The programs of experiments/ that use saved partitions, run one after the other in the same directory. |
| Model/Iris.v | spta/kmedoids/iris_kmedoid.py: a k-medoids algorithm of its own, and the script that runs it. |
| Model/KMedoids.v | spta/kmedoids/kmedoids.py: the k-medoids algorithm. |
| Model/KMedoidsBad.v | spta/kmedoids/kmedoids_bad.py: the first k-medoids algorithm, which measures a medoid against all the samples. |
| Model/KMedoidsFuzzy.v | spta/kmedoids/kmedoids_fuzzy.py: fuzzy k-medoids. |
| Model/KMedoidsRounded.v | The k-medoids search in floating point: Model/KMedoids.v with the sums of the distances formed in any way and the difference of two totals rounded. |
| Model/Maths.v | spta/util/maths.py: divisors. |
| Model/Models.v | Forecasting models and their training: spta/model/{base,train,knn,mean}.py. |
| Model/Optimize.v | spta/arima/optimize.py: the models with the best computing time and prediction error. |
| Model/PartitionAnalysis.v | experiments/clustering/partition_analysis.py: the program that clusters a region with every algorithm of a suite and writes the costs and medoids to a CSV file, with ClusteringAlgorithm.partition (clustering/__init__.py) writing its report and saving the partition. |
| Model/PartitionRace.v | Several processes that want the same partition at the same time: ClusteringAlgorithm.partition with a pickle home, as the steps that other processes can come between. |
| Model/Plots.v | What the pictures show: spta/util/plot.py, the silhouette analysis of spta/kmedoids/silhouette.py and the pictures of experiments/region/distance.py. |
| Model/Pool.v | multiprocessing.Pool.map over tasks that write a shared array under its lock: spta/util/parallel.py and spta/model/error_parallel.py; and the older queue of spta/util/parallel_old.py. |
| Model/Programs.v | The command-line programs around the solver and the tables of predefined experiments: experiments/metadata/{region, clustering,arima,centroid}.py, experiments/auto_arima/{solver,solver_each}.py and experiments/baseline/{solver_mean_past, solver_knn_medoids,solver_knn_each}.py. |
| Model/Queue2D.v | spta/util/parallel_old.py: a queue of tasks over the positions of a matrix, worked off by processes that may raise or be killed at any moment. |
| Model/Region.v | Regions, their iterators, crisp partitions and clusters: spta/region/{__init__,base,spatial,temporal,partition}.py. |
| Model/Reports.v | The programs under experiments/ that write tables as CSV files: clustering/medoid_distances.py, auto_arima/distance_errors.py, auto_arima/error_between_medoids.py and arima/training_error_analysis.py. |
| Model/Results.v | The results of prediction queries: spta/solver/result.py, and the CSV files written from them. |
| Model/Rmse.v | The RMSE distances of several series combined into one, and the distances between the points of a grid. |
| Model/Rounded.v | Scaling and descaling of one series with rounding: the arithmetic of Model/Scaling.v with every result rounded. |
| Model/RoundedErrors.v | The overall error in floating point: the arithmetic of Model/Errors.v with every result rounded. |
| Model/SavedRegion.v | spta/region: saving regions in numpy files and in pickles. |
| Model/Scaling.v | spta/region/scaling.py: scaling every series of a region to [0, 1] and back. |
| Model/SearchPlots.v | experiments/auto_arima/training_error_analysis.py with --plots: after the row of a cluster, the picture of the distances to its medoid and of the errors of the medoid's model. |
| Model/Series.v | Splitting, dating, averaging and windowing series: spta/model/train.py (split), spta/util/maths.py (years), spta/dataset/temp_brazil.py (averaging), spta/classifier/sliding_window.py. |
| Model/SilhouetteProgram.v | experiments/clustering/silhouette.py with experiments/metadata/silhouette.py and spta/kmedoids/silhouette.py: the program with the commands save, distances, kmedoids and show_distances. |
| Model/Solver.v | The solver: spta/solver/train.py, spta/solver/model.py (prediction) and the ARIMA trainers of spta/arima/train.py. |
| Model/SolverFiles.v | Names of the files of a solver (spta/solver/metadata.py, spta/arima/__init__.py, the reprs of spta/model/knn.py and mean.py), the cache of partitions (spta/clustering/__init__.py, spta/region/partition.py) and the persistence of solvers (spta/solver/model.py SolverPickler). |
| Model/SolverSave.v | Saving a solver as the steps that a crash or another process can come between. |
| Model/SuitePrograms.v | The programs that write tables for every clustering of a suite: experiments/clustering/medoid_distances.py, experiments/auto_arima/{error_between_medoids,distance_errors,training_error_analysis}.py and experiments/arima/training_error_analysis.py, from the arguments to the files. |
| Model/Synthetic.v | Synthetic series: spta/dataset/synthetic_temporal.py and spta/classifier/synthetic.py. |
| Model/TrainInput.v | Training data for the classifier: spta/classifier/train_input.py and random_integers_with_blacklist of spta/util/maths.py. get_medoid_penalties is a parameter of the choice; the two strategies of the code follow. np.random.choice and the order in which a set is turned into a list are parameters too. |
| Model/Variance.v | Histograms of the distances to a centroid: spta/distance/variance.py, with the centroids of regions and clusters (spta/region/temporal.py, partition.py). |

## Expectations that the code does not meet

Each of these is a theorem with a concrete witness: what the name says is what one would expect, and it is false of the model of the code.

* `C02_every_loop_is_complete_refuted` (Leaving a loop early (or nesting loops) makes the next loop skip points): the claim "every loop visits every point" is false after any early exit
* `C08_order_does_not_matter_refuted` (merge_clusters_2d does not sort its input, although it says it does): "the order of the clusters passed in does not matter" is false: every other order is rejected
* `C10_out_of_range_rectangle_refuted` (Clusters intersecting a rectangle): a rectangle that sticks out on the y side yields a cluster that has no point in it
* `C20_every_series_restored_refuted` (descale undoes scale): The unrestricted round trip is false: missing samples of an otherwise constant series are filled in.
* `C23_test_length_as_asked_refuted` (Train/test split): A test length out of range is not rejected: it silently acts as another one. With L samples, a negative length acts as 0, a length between L and 2L as (length - L), and a longer one as L.
* `C30_own_cluster_with_equal_samples_refuted` (A medoid belongs to its own cluster): Two medoids at distance 0: the second is labelled with the first cluster, and its own cluster is empty.
* `C33_threshold_zero_is_crisp_refuted` (Fuzzy mask membership): The documentation says that with threshold 0 each point belongs only to one cluster: not when two memberships are equal.
* `C36_keys_injective_refuted` (Clustering cache keys are not injective): But the iteration bound, the tolerance and the coordinates of the region are not part of it: configurations that differ in all of them share one cache entry.
* `C40_own_seed_elbow_refuted` (Per-seed elbows use the wrong costs): With two seeds it need not be: seed 0's own costs have their elbow at k = 3, but k = 4 is reported.
* `C46_missing_values_refuted` (Parallel distance matrix equals the serial one, for every schedule): a series with a missing value: NaN on the diagonal serially, 0 in parallel, under every schedule
* `C48_missing_file_refuted` (A missing matrix file is reported): Documented: a matrix that cannot be loaded gives ValueError, or is computed when that is accepted. If the file is missing, plain DTW gives AssertionError in both cases.
* `C49_later_loads_unweighted_refuted` (Spatial weighting is applied once): but once the object has weighted a matrix, every matrix loaded later is used without weights
* `C49_missing_file_weights_old_matrix_refuted` (Spatial weighting is applied once): and a missing file goes unnoticed if the object holds an unweighted matrix: that one is weighted and returned
* `C51_forecasts_what_followed_refuted` (kNN forecast is the mean of the nearest earlier windows): The windows that are averaged are not continued: on a series that repeats with period 3 the forecast repeats the last window instead of continuing the period.
* `C53_smape_nonnegative_refuted` (Error measures vanish exactly on perfect forecasts): and on negative samples (temperatures below zero) the error is negative.
* `C53_smape_perfect_is_zero_refuted` (Error measures vanish exactly on perfect forecasts): A perfect forecast of a series with a zero sample has error NaN, not 0 ...
* `C60_all_parameters_refuted` (Solver file names): What the files do not distinguish: the distance measure of a k-NN model and the coordinates of a region.
* `C60_repr_distinguishes_refuted` (Solver file names): The representation of a solver does not contain the number of test samples.
* `C61_missing_penalty_refuted` (Medoid choice picks the least penalty): not true with missing penalties: a clustering in which one medoid has a NaN is passed over, so a medoid that is not the least is chosen.
* `C64_offset_refuted` (Random training points can coincide with medoids): not true in general: if the region starts at least as far to the right as it is wide, the blacklist never has an effect: asking for as many points as the region has gives, whatever is drawn, every medoid.
* `C66_homes_separate_refuted` (Partition caching): The pickle home is ignored: all homes share their files, so that a call for a new home returns the partition saved for another one.
* `C66_medoids_on_demand_refuted` (Partition caching): A partition saved by a call that did not ask for medoids is returned to calls that do, without medoids, although computing it would have given them.
* `C67_replaced_dataset_refuted` (Dataset caching): Refuted: that the data always belong to the present dataset. The cache files do not know of the dataset they were computed from, so after the raw dataset is replaced the old data are returned.
* `C68_inherited_cluster_len_counts_members_refuted` (The default cluster_len of a partition is always 0): The inherited cluster_len should count the members of a cluster, as the one of crisp partitions does: it does not.
* `C71_repeat_point_on_decorated_refuted` (repeat_point works on plain spatio-temporal regions only): "repeat_point works on every region" is false: it raises on every decorated one
* `C72_subset_commutes_with_descale_refuted` (subset(region, interval) on a scaled region keeps the wrong scaling data): so descaling the subset does not give the subset of the descaled region.
* `C73_cluster_descales_once_refuted` (Descaling a cluster of a scaled region): A descaled region should not descale again: true of a scaled region, false of a cluster of one.
* `C78_forecasts_follow_retraining_refuted` (Whole-region forecasts belong to the current models): But training again does not discard the stored forecast: the next whole-region forecast silently uses the forecasts of the old models.
* `C79_test_lengths_independent_refuted` (Saved solvers are loaded unchanged): Not so for auto ARIMA, whose whole-data models depend on the training data: two solvers of the same data, region and parameters are trained with 1 and 4 test samples and saved. The first one, loaded again, does not answer an out-of-sample query as before (here: no forecast any more).
* `C81_extent_refuted` (Regions created from metadata): Refuted: that a created region always has the extent of its metadata. A rectangle that leaves the dataset is cut off without an error, so the metadata and the region disagree about the extent.
* `C83_foreign_medoid_refuted` (Medoid series file): why the medoids must lie in the region: one just left of it silently gets the series of the last column (numpy counts negative indices from the end).
* `C85_all_clusters_present_refuted` (Partition from labels): not true: the check does not make sure that every label from 0 to k-1 is present, so a partition can have an empty cluster; and it accepts negative labels, so a point can be in no cluster at all.
* `C85_every_point_in_a_cluster_refuted` (Partition from labels): not true: the check does not make sure that every label from 0 to k-1 is present, so a partition can have an empty cluster; and it accepts negative labels, so a point can be in no cluster at all.
* `C90_too_many_samples_refuted` (Predictions with a classifier): One would also expect the classifier to see all samples, or an error, when more samples are asked for than the series have. With one sample too many it sees only the last sample.
* `C91_own_out_of_sample_region_refuted` (Repeated queries to a classifier solver): One would expect a query to use the out-of-sample region that it is given. It does not in general: after a query without such a region, the same object gives other labels and forecasts than an object that is asked for the first time.
* `C96_axis_covers_random_points_refuted` (One histogram per cluster): the random points are drawn again for the picture, after the axis has been chosen: a point can lie beyond the end of the axis.
* `C96_inherited_centroid_refuted` (One histogram per cluster): a centroid known only to the region underneath passes the check but the figure then fails.
* `C98_exceptions_reported_refuted` (A matrix computed by the task queue survives crashing processes): the caller is not told of an exception: a function that always raises gives a matrix of zeros, and so does a queue without processes
* `C100_every_sample_shown_refuted` (A silhouette plot shows each sample once, in the band and colour of its cluster): otherwise samples can be missing: with the labels 0 and 2 the sample with label 2 is not drawn
* `C102_frame_on_new_figure_refuted` (A plotted partition colours, marks and frames the right points): without a subplot the frame cannot be drawn: the call fails
* `C103_few_colors_suffice_refuted` (Series drawn by colour keep their groups apart): more than seven different numbers are refused; but the check counts the numbers and does not look at them
* `C104_best_of_its_cluster_refuted` (The first k-medoids algorithm stops, and its clusters and medoids fit together): the medoid is the member nearest to all the samples, not the member nearest to its cluster
* `C104_labels_match_when_stopped_refuted` (The first k-medoids algorithm stops, and its clusters and medoids fit together): with a limit on the steps the labels can belong to the medoids of an earlier step
* `C104_starting_medoids_kept_refuted` (The first k-medoids algorithm stops, and its clusters and medoids fit together): the caller's list of starting medoids is overwritten
* `C105_logged_cost_refuted` (The best models are exactly the models nobody beats): the cost logged for the best model is the cost of the last model
* `C105_negative_values_refuted` (The best models are exactly the models nobody beats): a negative value counts as worse than any positive value
* `C106_reproducible_refuted` (Synthetic training data respects its limits and has the format of the training files): the seed of the call does not fix the noise: the same choices give different series
* `C109_forecast_length_in_name_refuted` (The distance and error tables describe each point of each cluster once): Two runs that differ only in the forecast length write to the same files, so the second replaces the tables of the first.
* `C110_forecast_length_in_name_refuted` (The table of errors between medoids holds the error of each model at each medoid): The same holds for the table of the errors between medoids: its path does not depend on the forecast length.
* `C112_offered_suites_refuted` (The predefined experiments mean what their names say): one list of suites is offered for both types, but some suites exist for one type only
* `C113_later_training_refuted` (The solver programs predict with what they have trained): auto-ARIMA keeps one file of models of the whole data for all numbers of test samples, so a later training with another --tp changes the out-of-sample predictions of the earlier one.
* `C115_answers_kept_apart_refuted` (The program with the neural network answers with the models that the labels name, and its tables of experiments exist): one would expect that answers that differ are kept in different files: the ones of the two classifiers are not
* `C115_arima_experiments_run_refuted` (The program with the neural network answers with the models that the labels name, and its tables of experiments exist): one would expect that all of them can be run: 'arima_whole_brazil' is offered on the command line, but there is no suite 'even'
* `C116_enough_points_refuted` (Clustering a region: partition and medoids): Clustering fails for some regions with at least k points (default settings; two equal points, two clusters).
* `C118_offered_suite_refuted` (The elbows printed for a clustering suite): the suite "quick" is offered, but has two values of k and so no elbow: the program fails on every input
* `C120_threshold_in_name_refuted` (Training data of the classifier for random points): not true that runs with different thresholds have different files: the name has no threshold. After a complete run without a threshold, a run with too small a threshold fails and leaves fewer lines in the same file.
* `C121_pictures_kept_apart_refuted` (The program that computes the distance matrix of a region): The pictures of a region and of its scaled version go to the same files, although the distance matrices do not.
* `C122_cluster_pickle_refuted` (Saving regions in numpy files and pickles): One expects the pickle of a region to be replaced by that of another version of the region only. But a cluster keeps the metadata of the region, so its pickle goes to the same file, like the pickles of the other clusters.
* `C122_dataset_kept_refuted` (Saving regions in numpy files and pickles): One expects that saving a region leaves the dataset alone. But the dataset is cached in files that are named like regions: a region that is called like the dataset replaces the cache, and the regions that are created from it later are wrong.
* `C122_interval_pickle_refuted` (Saving regions in numpy files and pickles): Some days of a scaled region also keep the metadata: their pickle replaces the pickle of the whole region.
* `C122_scaled_region_saved_refuted` (Saving regions in numpy files and pickles): One expects that the region of any metadata can be saved, as temporal.py:483-489 does for a scaled region. No scaled region can: ValueError, and no file is written.
* `C123_independent_analyses_refuted` (The silhouette program analyses a region's own series with its own distances, after any history): One analysis does not stay out of the next: metadata made without a distance measure share one measure, so that the second analysis of a process uses the distances of the first region and labels the points of the second one differently.
* `C123_scaled_regions_refuted` (The silhouette program analyses a region's own series with its own distances, after any history): The scaled regions are offered, but the program cannot be used with them: saving always fails, and so does every other command, after any history.
* `C124_saved_medoids_refuted` (medoid_distances.py: the tables of a suite): the program does not look at saved partitions. When partitions are saved, as the other programs do, its tables need not belong to the medoids that the other programs use.
* `C131_central_refuted` (The k-medoids of the iris script ends and finds consistent clusters): the medoid is not the row with the least sum of distances from the rows of its own cluster: the sums are taken over all rows of the data, so that medoids move towards the middle of the data.
* `C131_other_data_refuted` (The k-medoids of the iris script ends and finds consistent clusters): with other data than the global data set, the medoids returned need not be rows of the data.
* `C131_stopped_refuted` (The k-medoids of the iris script ends and finds consistent clusters): when the number of steps ends the algorithm, the labels returned are those of the medoids before the last update: a row may have the label of a medoid that is not the nearest of those returned.
* `C132_species_refuted` (Counting matching labels): the number that the script prints is not that of the matches of its clusters with the species: data whose clusters are the species in every row, and fewer matches are printed.
* `C132_three_refuted` (Counting matching labels): with three labels, as the script uses it, the inexact count can be greater than the agreement under any renaming of the labels.
* `C133_log_refuted` (The command lines of the programs): refuted: the other programs accept any word for --log, and only the name of a level starts: with another word nothing but the attribute of that name in the logging module decides (an AttributeError if there is none).
* `C133_random_refuted` (The command lines of the programs): refuted: --random is said to need --variance, and the program has a check for it that never fires: every line that the parser accepts goes through.
* `C133_unchecked_refuted` (The command lines of the programs): refuted: what the parser accepts for --parallel, for the suite and for -k is not checked further: a word that is not a number fails only when the distances are computed, a suite of the other clustering is a KeyError, and no number of clusters is too small.
* `C136_same_tables_refuted` (The training-error program with pictures): one would expect --plots to add pictures and nothing else. This is false: when the model of a medoid could not be fitted, the table is complete without --plots (the failed models are counted in it), and with --plots the program ends before the rest of the table is written.
* `C137_number_of_bins_refuted` (Options of the suite analysis: silhouettes and variance histograms): --bins is passed on as text ("bins argument for plt.hist()", which takes a number of bins): with a number, --variance always stops the program at the first clustering, whatever the partitions are, and leaves the table without rows.
* `C138_imported_refuted` (The DBSCAN clustering of a region: what its clusters hold, where it fails and what it leaves on disk): Imported from another module the algorithm never makes a partition: whatever the region, the matrix of its distance measure and the arguments, it can only return a partition that was saved before.
* `C138_number_of_clusters_refuted` (The DBSCAN clustering of a region: what its clusters hold, where it fails and what it leaves on disk): The printed number of clusters is the number of clusters of the partition exactly when there is noise. Without noise the partition has one more: cluster 0, which is empty.
* `C138_report_refuted` (The DBSCAN clustering of a region: what its clusters hold, where it fails and what it leaves on disk): The report has one row for each of the k clusters of the metadata, not of the partition: with the metadata that is made without a k it is the header alone, however many clusters there are.
* `C138_spatial_refuted` (The DBSCAN clustering of a region: what its clusters hold, where it fails and what it leaves on disk): partition_2d fails for every spatial region
* `C139_same_tables_refuted` (With --plots the search program draws one picture per cluster, and stops at a medoid without a model): one would expect --plots to add pictures and nothing else. This is false: when the search finds no model for a medoid, all tables are written without --plots, and with --plots the program ends before the tables of the other clusterings are begun.
* `C140_same_share_refuted` (The k-medoids examples cluster series that come from their functions in turn): The documentation says that about the same number of points gets each function. That is not so.
* `C142_interruption_noticed_refuted` (A suite table whose writing was interrupted never gives a wrong medoid, but the interruption is not noticed): One would expect the reader to notice that the table was cut inside a row. It does not: for every table and every last row with medoids, the file that stops after the opening quote of its medoids is read without an exception, and gives that clustering no medoids at all.
* `C143_only_rows_refuted` (Analyses of one suite that run at the same time leave a table that reads as if one had run, if creating the file is atomic): Emptying the file and writing the header are two steps of the operating system. When a row of another run comes between them, the header is written over its beginning and the rest of that row stays in the file as a line of its own: two runs of one analysis can leave a line that is neither the header nor a row.
* `C143_suite_order_refuted` (Analyses of one suite that run at the same time leave a table that reads as if one had run, if creating the file is atomic): The order of the clusterings, in which the other programs take them, is not that of the suite in general: two runs can leave a table that gives the second clustering first.
* `C144_old_or_new_refuted` (Saving over a saved solver is not atomic: readers get the old or the new content of each file, or an error): One would expect that after a crash the saved solver is the old one, the new one, or refused. It is not: whenever the new solver has other training models and other errors than the old one, a crash between the first and the second file leaves a solver that loads, with the new training models and the old errors.
* `C145_saved_after_the_call_refuted` (Concurrent processes that want the same partition all get it): One would expect a process to find at the end of its call the partition that it saved. It need not: another process may have the file open and emptied, and if that one is killed the file stays unreadable.
* `C146_any_lengths_refuted` (The RMSE distance obeys the triangle inequality and its combination is the RMSE of all samples): The series must have one length: short series count as much as long ones.
* `C148_greatest_sample_refuted` (In floating point a scaled series stays between 0 and 1, keeps its order and reaches both ends): Series are promised to be scaled to [0, 1]. If the range of the series is too large for a float, its greatest sample becomes NaN although no sample is missing.
* `C148_order_strict_refuted` (In floating point a scaled series stays between 0 and 1, keeps its order and reaches both ends): Without rounding different samples stay different (C19). With rounding they need not.
* `C149_exactly_restored_refuted` (In floating point scaling and descaling gives the series back up to a stated rounding error): Without rounding, scaling and descaling gives every sample back (C20). With rounding it does not.
* `C150_order_irrelevant_refuted` (In floating point a larger error never makes the overall error smaller): Without rounding the order of the points does not matter. With rounding it does: the same errors in another order can give another overall error.
* `C151_exactly_restored_refuted` (Scaling, descaling and the overall error in IEEE double precision): Scaling and descaling does not give every double back: of 0, 1 and 49, the 1 comes back as 1 - 2^-53.
* `C151_no_missing_refuted` (Scaling, descaling and the overall error in IEEE double precision): A series without missing samples can get one: -2^1023, 0 and 2^1023 become 0, 0 and NaN.
* `C151_order_irrelevant_refuted` (Scaling, descaling and the overall error in IEEE double precision): The overall error in double precision depends on the order of the points.
* `C151_order_strict_refuted` (Scaling, descaling and the overall error in IEEE double precision): In double precision different samples can become equal: -1, 2^-60 and 2^-59.
* `C152_lite_any_point_refuted` (The k-medoids search stops by itself, at medoids no single change improves): In mode "lite" a change of one medoid into a point of another cluster can still improve the medoids by more than the tolerance, even if the search stopped by itself: the points at 0, 10, 1000 and 1001 keep the medoids 0, 1000 and 1001.
* `C153_exact_cost_never_increases_refuted` (The k-medoids search in floating point): In a binary floating-point format the exact cost of the medoids can grow by more than the tolerance although the computed cost falls: with four digits, from 18 to 20.
* `C155_exact_least_refuted` (The centroid in floating point): In a binary floating-point format the centroid need not be a point of least exact sum: with four digits the sums 18 and 17 both come out as 16.
* `C156_exact_sum_refuted` (Computed memberships of fuzzy k-medoids add up to one within the rounding errors): Computed memberships need not add up to exactly 1: a tolerance of zero, which exact arithmetic always meets (C31), makes the call fail although nothing overflows and all distances are ordinary.
* `C158_exact_members_only_refuted` (Fuzzy masks in floating point): The converse fails: rounding can bring a difference down to the threshold, so that a point is a member although its memberships differ by more than the threshold.
* `C161_exact_refuted` (How far the overall error in floating point is from the exact one): The overall error is not exact: the square of 1 + 2^-52 needs more than 53 binary digits.
* `C162_any_sign_refuted` (The forecast error sMAPE keeps its bounds in floating point): Without positive samples the upper bound fails: a forecast of 3 for an observation of -1 has sMAPE 400.

## Not modelled

* Floating-point rounding, except in C148-C151 and C153-C162; the internals of tslearn, pmdarima, statsmodels, keras, sklearn, matplotlib.
* Help texts and messages of argparse, logging, timing.
* Reading HDF5 files and the network: the dataset is the array that the reader returns.
* `spta/arima/performance.py`, `spta/arima/fuzzy_sensibility.py`, `experiments/arima/fuzzy_sensibility.py`: they import
  modules that do not exist in this commit, so nothing in them can be run.
* `DistanceByDTWParallel.compute_distance_matrix_sptr_old`: it looks up `Parallel2DQueue` in `spta.util.parallel`, which does not define it
  (it is in `parallel_old`), so every call raises AttributeError.
* `other/`: scripts outside the package.  `spta/tests`: tests.
* Functions without a citation (abstract methods, constructors that store their arguments, and what has not been
  reached yet) are listed below by file.

* experiments/baseline/solver_knn_medoids.py: `configure_predict_parser`
* experiments/baseline/solver_mean_past.py: `configure_predict_parser`
* spta/arima/__init__.py: `ArimaSuiteParams.__init__`
* spta/arima/model.py: `ModelRegionArima.instance`
* spta/arima/train.py: `TrainerAutoArima.__init__`, `ExtractAicFromArima.__init__`, `ExtractPDQFromAutoArima.__init__`
* spta/classifier/dnn.py: `ClassifierDNNParams.__repr__`, `ClassifierDNNParams.__str__`
* spta/classifier/model.py: `MockClassifier.label_for_series`, `RandomClassifier.label_for_series`
* spta/classifier/train_input.py: `MedoidsChoiceStrategy.get_medoid_penalties`, `MedoidsChoiceStrategy.csv_filepaths`
* spta/clustering/__init__.py: `ClusteringMetadata.as_dict`, `ClusteringMetadata.__str__`, `ClusteringAlgorithm.partition_impl`, `ClusteringAlgorithm.as_dict`, `ClusteringAlgorithm.__repr__`, `ClusteringAlgorithm.__str__`
* spta/clustering/dbscan.py: `DbscanClusteringMetadata.as_dict`
* spta/clustering/suite.py: `ClusteringSuite.__init__`, `ClusteringSuite.__iter__`, `FindSuiteElbow.__init__`
* spta/dataset/distances_1y_1ppd.py: `main`
* spta/distance/__init__.py: `DistanceBetweenSeries.__init__`, `DistanceBetweenSeries.measure`, `DistanceBetweenSeries.combine`, `DistanceBetweenSeries.compute_distance_matrix`
* spta/distance/dtw.py: `DistanceByDTW.__init__`, `DistanceByDTW.__str__`
* spta/distance/dtw_parallel.py: `DistanceByDTWParallel.__init__`, `DistanceByDTWParallel.compute_distance_matrix_sptr_old`
* spta/distance/rmse.py: `DistanceByRMSE.__init__`
* spta/distance/variance.py: `DistanceHistogramRandomOutsidePoints.__init__`, `DistanceHistogramRandomOutsidePoints.plot`, `DistanceHistogramClusters.point_indices`, `DistanceHistogramClusters.distances_to_point`, `DistanceHistogramClusters.statistics`
* spta/kmedoids/__init__.py: `get_medoid_series`
* spta/kmedoids/kmedoids.py: `kmedoids_default_metadata`, `run_kmedoids_from_metadata`, `kmedoids_suite_metadata`
* spta/kmedoids/kmedoids_fuzzy.py: `KmedoidsFuzzy.__init__`, `choose_initial_medoids`, `kmedoids_fuzzy_default_params`, `run_kmedoids_fuzzy_from_params`
* spta/model/base.py: `ModelRegion.forecast_from_model`
* spta/model/error_parallel.py: `init_process`
* spta/model/knn.py: `KNNModel.__repr__`, `KNNModel.__str__`, `TrainerKNN.create_model_region`
* spta/model/train.py: `ModelTrainer.training_function`, `ModelTrainer.create_model_region`, `TrainAtRepresentatives.__init__`, `TrainAtRepresentatives.training_function`, `TrainAtRepresentatives.create_model_region`, `SplitTrainingAndTest.__init__`, `SplitTrainingAndTest.split`
* spta/region/base.py: `BaseRegion.__iter__`, `BaseRegion.__str__`
* spta/region/centroid.py: `CalculateCentroid.__init__`, `CalculateCentroid.for_sptr_metadata`
* spta/region/function.py: `FunctionRegion.apply_to`, `FunctionRegionScalar.apply_to`, `FunctionRegionSeries.__init__`, `FunctionRegionSeries.apply_to`
* spta/region/mask.py: `MaskRegion.__init__`, `MaskRegion.is_member`, `MaskRegion.clone`
* spta/region/metadata.py: `SpatioTemporalRegionMetadata.__str__`
* spta/region/partition.py: `PartitionRegion.__init__`, `PartitionRegion.is_member`, `PartitionRegion.membership_of_point_indices`, `PartitionRegion.clone`, `PartitionRegionCrisp.clone`
* spta/region/spatial.py: `DomainRegion.__init__`, `SpatialRegion.__init__`, `SpatialRegion.region_with_zeroes`, `SpatialRegion.__str__`, `SpatialDecorator.new_spatio_temporal_region`, `SpatialDecorator.region_subset`, `SpatialDecorator.value_at`, `SpatialDecorator.save_to`, `SpatialDecorator.__str__`, `SpatialCluster.__init__`, `SpatialCluster.cluster_len`, `SpatialCluster.__str__`
* spta/region/temporal.py: `SpatioTemporalRegion.shape_2d`, `SpatioTemporalRegion.__str__`, `SpatioTemporalCluster.__str__`, `SpatioTemporalCluster.from_fuzzy_clustering`
* spta/solver/metadata.py: `SolverMetadataBasic.pickle_dir`, `SolverMetadataBasic.__str__`, `MetadataForClusteringSuite.__str__`, `SolverMetadataBuilder.__init__`, `SolverMetadataBuilder.with_clustering`, `SolverMetadataBuilder.for_suite`, `SolverMetadataBuilder.build`
* spta/solver/model.py: `SolverPickler.partition_pickle_path`
* spta/solver/result.py: `PredictionQueryResult.lines_for_point`, `PredictionQueryResultBuilder.build`
* spta/util/arrays.py: `root_sum_squared`
* spta/util/log.py: `LoggerMixin.__init__`, `LoggerMixin.logger`, `logger_for_me`
* spta/util/parallel.py: `init_process`
* spta/util/parallel_example.py: `init_worker`, `worker_func`
* spta/util/plot.py: `plot_distances_vs_forecast_errors`, `plot_pandas_heatmap`, `check_palette_len`
