{"id": "C01", "title": "A full for-loop over a region visits every point once, in row-major order, and can be repeated", "statement": "For every region shape, running `for ... in region` to exhaustion on a region whose iterator is at rest yields exactly the x_len*y_len points (0,0),(0,1),...,(x_len-1,y_len-1), each once and in that order, and leaves the iterator at rest, so any number of successive full loops yields the same sequence.", "quantifier": "all region shapes, all numbers of successive complete loops", "why_tests_cant": "the claim ranges over all shapes and all loop histories; a test samples a handful of shapes", "anchors": ["spta/region/base.py:BaseRegion.__iter__", "spta/region/base.py:BaseRegion.__next__", "spta/region/spatial.py:SpatialRegion.__next__"]}
{"id": "C02", "title": "Leaving a loop early (or nesting loops) makes the next loop skip points", "statement": "The iterator state is shared by all loops over one region object: a loop left after m points makes the next loop yield exactly the remaining points m.. and only the loop after that is complete again; hence 'every loop visits every point' is false of the code.", "quantifier": "all shapes and all break positions m", "why_tests_cant": "depends on the history of calls made on one object, at every break position", "anchors": ["spta/region/base.py:BaseRegion.__iter__", "spta/region/base.py:BaseRegion.__next__"]}
{"id": "C03", "title": "Point index and (x, y) coordinates are inverse to each other", "statement": "For every grid, the index x*y_len+y used by partitions, distance matrices and medoids and the decoding (int(i/y_len), i mod y_len) are mutually inverse bijections between in-range points and 0..x_len*y_len-1; index_to_absolute_point(i) is the decoded point shifted by the region's (x1, y1).", "quantifier": "all grid shapes, all points, all indices", "why_tests_cant": "universally quantified over shapes and points; off-by-one and swapped-dimension errors only show on non-square grids", "anchors": ["spta/region/metadata.py:index_to_absolute_point", "spta/region/partition.py:membership_of_points", "spta/region/partition.py:create_all_spt_clusters", "spta/clustering/kmedoids.py:KmedoidsClusteringAlgorithm.partition_impl"]}
{"id": "C04", "title": "membership_of_points agrees with is_member", "statement": "For a crisp partition and any list of in-range points, membership_of_points returns a list of the same length whose n-th entry is the unique cluster index c for which is_member(n-th point, c) is true.", "quantifier": "all partitions, all lists of in-range points", "why_tests_cant": "relates two code paths (flat take vs. 2-d indexing) for every shape", "anchors": ["spta/region/partition.py:PartitionRegion.membership_of_points", "spta/region/partition.py:PartitionRegionCrisp.is_member", "spta/region/partition.py:PartitionRegionCrisp.membership_of_point_indices"]}
{"id": "C05", "title": "The clusters of a crisp partition split the region", "statement": "For every crisp partition, iterating the k clusters one after the other yields every point of the region exactly once; a point is yielded by cluster c iff is_member(point, c); cluster_len(c) equals the number of points yielded by cluster c, and the k cluster lengths add up to x_len*y_len.", "quantifier": "all label matrices, all cluster indices", "why_tests_cant": "a conservation law over all label matrices", "anchors": ["spta/region/spatial.py:SpatialCluster.__next__", "spta/region/partition.py:PartitionRegionCrisp.cluster_len", "spta/region/partition.py:PartitionRegion.create_all_spatial_clusters"]}
{"id": "C06", "title": "A cluster exposes exactly the values of its own members", "statement": "value_at / series_at on a cluster returns the decorated region's value for members and raises ValueError for every non-member; all_point_indices of a cluster lists, in increasing order, exactly the indices of the points the cluster iterates over.", "quantifier": "all partitions, regions, clusters and in-range points", "why_tests_cant": "covers both branches for every point of every partition", "anchors": ["spta/region/spatial.py:SpatialCluster.value_at", "spta/region/temporal.py:SpatioTemporalCluster.series_at", "spta/region/temporal.py:SpatioTemporalCluster.all_point_indices"]}
{"id": "C07", "title": "merge_clusters_2d reassembles the region from its clusters", "statement": "If the list holds one cluster per index in increasing order, the merged region has at each point the value of the cluster the point belongs to; in particular splitting a region with create_all_spatial_clusters and merging gives the original region back. Any other list of indices raises ValueError.", "quantifier": "all partitions, all regions, all cluster lists", "why_tests_cant": "round trip over all label matrices and regions", "anchors": ["spta/region/partition.py:PartitionRegionCrisp.merge_clusters_2d"]}
{"id": "C08", "title": "merge_clusters_2d does not sort its input, although it says it does", "statement": "The code says 'order clusters by their index' but discards the result of sorted(): a permuted list of the same k clusters is rejected with ValueError. The claim 'the order of the clusters passed in does not matter' is refuted.", "quantifier": "all permutations of the cluster list", "why_tests_cant": "a claim about every permutation", "anchors": ["spta/region/partition.py:PartitionRegionCrisp.merge_clusters_2d"]}
{"id": "C09", "title": "merge_with_representatives_2d replicates the representative's value over its cluster", "statement": "When every representative is a member of its cluster, the value of the result at each point equals the value of the region at the representative of the cluster to which the point belongs; if some representative is not a member of its cluster, ValueError is raised.", "quantifier": "all partitions, regions and representative lists", "why_tests_cant": "quantifies over all label matrices and representative choices", "anchors": ["spta/region/partition.py:PartitionRegionCrisp.merge_with_representatives_2d", "spta/region/spatial.py:SpatialRegion.repeat_point"]}
{"id": "C10", "title": "Clusters intersecting a rectangle", "statement": "For every rectangle inside the region, find_indices_of_clusters_intersecting_with returns without repetition exactly the cluster indices that occur at some point of the rectangle. Rectangles that stick out of the region on the y side are not rejected and can return clusters that do not occur in the rectangle (refuted there).", "quantifier": "all partitions and rectangles", "why_tests_cant": "set equality over all rectangles; the wrap-around needs out-of-range input", "anchors": ["spta/region/partition.py:find_indices_of_clusters_intersecting_with", "spta/region/partition.py:find_medoids_of_clusters_intersecting_with"]}
{"id": "C11", "title": "regular_partitioning covers the grid with k rectangles", "statement": "Whenever it returns, every cell has the label row_block*div_y+col_block of the block that contains it, blocks are consecutive intervals of rows and columns covering the grid without gap or overlap, every one of the k labels 0..k-1 occurs, and no other label occurs. It raises ValueError exactly when the region is smaller than the divisors of k.", "quantifier": "all x_len, y_len, k >= 1", "why_tests_cant": "the residue handling has many regimes; gaps or empty labels occur only for particular combinations", "anchors": ["spta/util/arrays.py:regular_partitioning", "spta/region/partition.py:with_regular_partition"]}
{"id": "C12", "title": "divisors returns exactly the positive divisors in increasing order", "statement": "For every n >= 1 the result is strictly increasing and contains d iff d divides n.", "quantifier": "all n >= 1", "why_tests_cant": "for every n; the sqrt bound is the classic off-by-one", "anchors": ["spta/util/maths.py:divisors"]}
{"id": "C13", "title": "Balanced divisors multiply to n and are the closest pair", "statement": "find_two_balanced_divisors(n) returns (a, b) with a*b = n, a <= b and no divisor pair of n is closer; the x/y ordering gives the larger one to the larger dimension.", "quantifier": "all n >= 1, all region shapes", "why_tests_cant": "optimality over all divisor pairs of every n", "anchors": ["spta/util/maths.py:find_two_balanced_divisors", "spta/util/maths.py:two_balanced_divisors_order_x_y"]}
{"id": "C14", "title": "find_minimum / find_maximum", "statement": "On every spatial region (or cluster), find_minimum returns the first iterated point attaining the least non-NaN value below +inf together with that value, and (None, inf) when there is none; dually for find_maximum. NaN values never win.", "quantifier": "all regions including NaN and infinite values", "why_tests_cant": "minimality over all points and all NaN placements", "anchors": ["spta/region/spatial.py:SpatialRegion.find_minimum", "spta/region/spatial.py:SpatialRegion.find_maximum"]}
{"id": "C15", "title": "minimum_value_and_index / maximum_value_and_index", "statement": "The returned value is the least (greatest) non-NaN entry and the index is the first position in row-major order holding it; an all-NaN array raises.", "quantifier": "all arrays", "why_tests_cant": "extremality over all entries and NaN placements", "anchors": ["spta/util/arrays.py:minimum_value_and_index", "spta/util/arrays.py:maximum_value_and_index"]}
{"id": "C16", "title": "Applying a function region", "statement": "apply_function_scalar gives a region of the same shape whose value at each iterated point is the point's own function applied to the point's own value, and 0 at points that are not iterated (outside a cluster); different shapes raise AssertionError; likewise for series functions.", "quantifier": "all regions/clusters, all function regions", "why_tests_cant": "pointwise law over all functions and shapes", "anchors": ["spta/region/spatial.py:DomainRegion.apply_function_scalar", "spta/region/spatial.py:DomainRegion.apply_function_series", "spta/region/function.py"]}
{"id": "C17", "title": "Sub-setting regions and intervals", "statement": "region_subset has shape (x2-x1, y2-y1) and its series at (i,j) is the series of the original at (x1+i, y1+j); interval_subset keeps exactly samples t1..t2-1; subset(region, ti) equals region_subset then interval_subset in either order; subsetting twice composes offsets.", "quantifier": "all regions, all in-range rectangles and intervals", "why_tests_cant": "algebraic laws for every rectangle and interval", "anchors": ["spta/region/temporal.py:SpatioTemporalRegion.region_subset", "spta/region/temporal.py:SpatioTemporalRegion.interval_subset", "spta/region/temporal.py:SpatioTemporalRegion.subset", "spta/region/spatial.py:SpatialRegion.region_subset"]}
{"id": "C18", "title": "Repeating a series or value over a region", "statement": "repeat_series / repeat_series_over_region / repeat_value give a region with the requested 2-d shape in which every point holds exactly the given series or value; as_list / as_2d list the series in point-index order.", "quantifier": "all series, shapes and points", "why_tests_cant": "the reshape order is wrong for some shapes only if at all", "anchors": ["spta/util/arrays.py:copy_array_as_matrix_elements", "spta/util/arrays.py:copy_value_as_matrix_elements", "spta/region/temporal.py:SpatioTemporalRegion.repeat_series", "spta/region/temporal.py:SpatioTemporalRegion.as_list"]}
{"id": "C19", "title": "Scaling puts every series in [0, 1]", "statement": "After ScaleFunction.apply_to, every non-NaN sample lies in [0,1]; if the series is not constant, 0 and 1 are attained; constant series become 0; all-NaN series stay NaN; order of samples within a series is preserved.", "quantifier": "all regions with or without NaN", "why_tests_cant": "inequalities over all series", "anchors": ["spta/region/scaling.py:ScaleFunction"]}
{"id": "C20", "title": "descale undoes scale", "statement": "For every region whose series are NaN-free or not constant on their non-NaN samples, descale() of the scaled region returns the original samples. A series that is constant except for NaN samples is not restored: its NaN samples come back as the constant (refuted).", "quantifier": "all regions", "why_tests_cant": "round trip over all series and NaN placements", "anchors": ["spta/region/scaling.py:ScaleFunction", "spta/region/scaling.py:SpatioTemporalScaled.descale"]}
{"id": "C21", "title": "Sub-setting a scaled region keeps it descalable", "statement": "For every rectangle, region_subset of a scaled region followed by descale equals descale followed by region_subset, for every dataset of the same shape put into the scaled region (e.g. forecasts).", "quantifier": "all scaled regions and rectangles", "why_tests_cant": "commutation law for every rectangle", "anchors": ["spta/region/scaling.py:SpatioTemporalScaled.region_subset", "spta/region/scaling.py:SpatioTemporalScaled.descale"]}
{"id": "C22", "title": "sliding_window", "statement": "For every array, window length and stride >= 1, the n-th window is array[n*stride : n*stride+window_len], every window has full length, and the number of windows is the number of starts that fit; consecutive windows with stride 1 overlap in window_len-1 samples.", "quantifier": "all arrays, window lengths, strides", "why_tests_cant": "for every length, window and stride", "anchors": ["spta/util/arrays.py:sliding_window"]}
{"id": "C23", "title": "Train/test split", "statement": "For 0 <= test_len <= series_len, training followed by test is the original series at every point, training has series_len-test_len samples, test has test_len samples. For test_len > series_len nothing is rejected: python's negative slices silently give a different split (refuted).", "quantifier": "all regions, all test lengths", "why_tests_cant": "for every length; the failure is on out-of-range input", "anchors": ["spta/model/train.py:SplitTrainingAndTestLast"]}
{"id": "C24", "title": "Year intervals tile the series", "statement": "years_to_series_interval gives, for every year range, an interval of (number of days in those years)*samples_per_day samples with 366-day years exactly where the Gregorian rule says; the interval of years a..b followed by b+1..c is the interval of a..c; the first year starts at 0.", "quantifier": "all years, ranges and sampling rates", "why_tests_cant": "the leap-year rule and adjacency hold for every year", "anchors": ["spta/util/maths.py:years_to_series_interval", "spta/dataset/temp_brazil.py"]}
{"id": "C25", "title": "Daily averaging", "statement": "average_4spd_to_1spd gives, for every dataset with 4*n samples, n samples where the d-th value at each point is the mean of samples 4d..4d+3 at the same point; a length that is not a multiple of 4 is rejected.", "quantifier": "all datasets", "why_tests_cant": "layout of the reshape for every shape", "anchors": ["spta/dataset/temp_brazil.py:average_4spd_to_1spd"]}
{"id": "C26", "title": "k-medoids never increases the cost", "statement": "For every data set, distance, initial medoids, mode, max_iter and tol >= 0, the total cost returned by run_kmedoids is at most the cost of the initial medoids, and strictly lower by more than tol if any swap happened.", "quantifier": "all data sets, distance matrices, initial medoids, modes, tolerances", "why_tests_cant": "an invariant of an unbounded search loop", "anchors": ["spta/kmedoids/kmedoids.py:run_kmedoids", "spta/kmedoids/kmedoids.py:_get_cost"]}
{"id": "C27", "title": "The k-medoids result is internally consistent", "statement": "The returned labels assign every sample to a medoid at least distance (the first such), the returned cluster costs are the sums of the member distances to their medoid, the total cost is their sum and equals the sum over all samples of the least distance to a medoid.", "quantifier": "all inputs", "why_tests_cant": "consistency of the final state for every run of the loop", "anchors": ["spta/kmedoids/kmedoids.py:run_kmedoids", "spta/kmedoids/kmedoids.py:_get_cost"]}
{"id": "C28", "title": "k-medoids medoids stay valid", "statement": "If the initial medoids are k distinct sample indices, the final medoids are k distinct sample indices, whatever swaps were made.", "quantifier": "all inputs and swap histories", "why_tests_cant": "loop invariant", "anchors": ["spta/kmedoids/kmedoids.py:run_kmedoids"]}
{"id": "C29", "title": "k-medoids stops at a local optimum or at the iteration limit", "statement": "run_kmedoids performs at most max(0,max_iter)+2 passes. If it stops before the limit, no single swap in the candidate set of the mode (any sample for 'robust', the members of the cluster for 'lite') lowers the total cost by more than tol.", "quantifier": "all inputs", "why_tests_cant": "termination and optimality for every input", "anchors": ["spta/kmedoids/kmedoids.py:run_kmedoids", "spta/kmedoids/kmedoids.py:candidate_generator_for_robust_kmedoids", "spta/kmedoids/kmedoids.py:candidate_generator_for_lite_kmedoids"]}
{"id": "C30", "title": "A medoid belongs to its own cluster", "statement": "If distinct medoids have positive distance, every medoid is labelled with its own cluster, so no cluster is empty. With two medoids at distance 0 (duplicate series) this is refuted: a medoid is labelled with the other cluster and its own cluster is empty.", "quantifier": "all inputs", "why_tests_cant": "depends on ties in the data, which tests rarely contain", "anchors": ["spta/kmedoids/kmedoids.py:_get_cost", "spta/clustering/kmedoids.py:KmedoidsClusteringAlgorithm.partition_impl"]}
{"id": "C31", "title": "Fuzzy memberships form a distribution", "statement": "compute_membership_fcm gives, for every sample at positive distance from all medoids, memberships in (0,1] that add up to 1 and decrease with distance; a medoid has membership 1 in its own cluster and 0 elsewhere.", "quantifier": "all distance matrices and medoids (m = 2)", "why_tests_cant": "normalisation over all inputs", "anchors": ["spta/kmedoids/kmedoids_fuzzy.py:compute_membership_fcm"]}
{"id": "C32", "title": "run_kmedoids_fuzzy fails when the initial medoids are already optimal", "statement": "When no swap happens the variable holding the memberships was never assigned, so the call raises UnboundLocalError instead of returning a result; it returns iff at least one swap happened.", "quantifier": "all inputs", "why_tests_cant": "control-flow property over all runs", "anchors": ["spta/kmedoids/kmedoids_fuzzy.py:run_kmedoids_fuzzy"]}
{"id": "C33", "title": "Fuzzy mask membership", "statement": "With threshold T in [0,1], a point belongs to cluster j iff max_m u_m - u_j <= T; every point belongs to at least the best cluster; raising T only adds members; cluster_len counts exactly the members.", "quantifier": "all membership arrays, thresholds", "why_tests_cant": "monotonicity and covering over all arrays", "anchors": ["spta/region/mask.py:MaskRegionFuzzy"]}
{"id": "C34", "title": "Centroid minimises the sum of distances", "statement": "find_centroid_and_distances returns a point of the region/cluster whose summed distance to all points of the region/cluster is least, the first such in iteration order, together with its distances.", "quantifier": "all regions/clusters and distance matrices", "why_tests_cant": "minimality over all points", "anchors": ["spta/region/centroid.py:CalculateCentroid.find_centroid_and_distances", "spta/distance/__init__.py:distances_to_point"]}
{"id": "C35", "title": "Clustering metadata survive their string representation", "statement": "from_repr(repr(m)) recovers name, k, seed and mode for every k, seed (mode without underscore, no initial medoids); the classifier label k-seed-index recovers the same metadata.", "quantifier": "all k, seeds and modes", "why_tests_cant": "string round trip for all integers", "anchors": ["spta/clustering/kmedoids.py:KmedoidsClusteringMetadata", "spta/clustering/regular.py:RegularClusteringMetadata", "spta/clustering/factory.py:ClusteringMetadataFactory.from_repr"]}
{"id": "C36", "title": "Clustering cache keys are not injective", "statement": "Partitions are cached under a path built from repr; parameters max_iter and tol are not part of it, nor are the region coordinates, so two different configurations share one cache entry (refuted: 'different configurations have different keys').", "quantifier": "all pairs of configurations", "why_tests_cant": "a claim about all pairs", "anchors": ["spta/clustering/kmedoids.py:KmedoidsClusteringMetadata.__repr__", "spta/region/metadata.py:SpatioTemporalRegionMetadata.__repr__", "spta/clustering/__init__.py:ClusteringAlgorithm.pickle_full_path"]}
{"id": "C37", "title": "A clustering suite is the cartesian product of its parameters", "statement": "The suite iterates over exactly |ks|*|seeds| metadata, k varying slowest, each (k, seed) combination once per occurrence; organising by seed gives, for each seed, exactly its metadata in increasing k.", "quantifier": "all lists of ks and seeds", "why_tests_cant": "for all lists", "anchors": ["spta/clustering/suite.py:ClusteringSuite", "spta/clustering/suite.py:OrganizeClusteringSuite.organize_kmedoids_suite"]}
{"id": "C38", "title": "Medoid coordinates survive the suite CSV", "statement": "The medoid string written by medoids_to_absolute_coordinates is parsed by retrieve_suite_result_csv back into exactly the absolute medoid points, in order.", "quantifier": "all medoid lists and region offsets", "why_tests_cant": "string round trip for all integers and list lengths", "anchors": ["spta/kmedoids/__init__.py:medoids_to_absolute_coordinates", "spta/clustering/suite.py:ClusteringSuite.retrieve_suite_result_csv"]}
{"id": "C39", "title": "The elbow is the interior k with the largest discrete second derivative", "statement": "For at least three metadata with distinct increasing k, find_cost_elbow_given_order returns the first interior metadata maximising the three-point second derivative of the cost; fewer than three or mismatched lengths raise AssertionError; it is exact on quadratics.", "quantifier": "all cost sequences and spacings", "why_tests_cant": "argmax over all sequences", "anchors": ["spta/clustering/suite.py:FindSuiteElbow.find_cost_elbow_given_order"]}
{"id": "C40", "title": "Per-seed elbows use the wrong costs", "statement": "Because metadata compare equal when name and k agree, the cost table keeps one cost per k (that of the last seed); the elbow reported for a seed need not be the elbow of that seed's own costs (refuted).", "quantifier": "all suites with several seeds", "why_tests_cant": "needs two seeds with different cost shapes", "anchors": ["spta/clustering/suite.py:FindSuiteElbow.find_cost_elbow_for_each_kmedoids_seed", "spta/clustering/__init__.py:ClusteringMetadata.__eq__"]}
{"id": "C41", "title": "squared_DTW is the optimal warping cost", "statement": "For all non-empty series, squared_DTW equals the least total squared difference over all monotone warping paths from the first pair to the last pair, whatever the scratch matrix contained.", "quantifier": "all pairs of series, all warping paths", "why_tests_cant": "optimality over exponentially many paths", "anchors": ["spta/dba/dba.py:squared_DTW", "spta/dba/dba.py:fill_delta_mat_dtw"]}
{"id": "C42", "title": "squared_DTW is a symmetric non-negative dissimilarity", "statement": "squared_DTW(s,t) >= 0, = 0 when s = t, and squared_DTW(s,t) = squared_DTW(t,s); it never exceeds the pointwise squared distance for equal lengths.", "quantifier": "all pairs of series", "why_tests_cant": "for all pairs", "anchors": ["spta/dba/dba.py:squared_DTW"]}
{"id": "C43", "title": "DBA update is well defined", "statement": "For every center and every non-empty list of non-empty series, the backtracking in DBA_update ends at (0,0) (its assertion never fails), every center position receives at least one sample per series (no division by zero) and the new value lies between the least and greatest sample aligned to it.", "quantifier": "all centers and series", "why_tests_cant": "the path reconstruction must hold for every cost matrix", "anchors": ["spta/dba/dba.py:DBA_update", "spta/dba/dba.py:performDBA"]}
{"id": "C44", "title": "approximate_medoid_index returns a best candidate", "statement": "The returned index is one of the candidates and no candidate has a smaller sum of squared DTW distances.", "quantifier": "all series lists, all random samples", "why_tests_cant": "minimality for all inputs and random choices", "anchors": ["spta/dba/dba.py:approximate_medoid_index"]}
{"id": "C45", "title": "The distance matrix holds all pairwise distances", "statement": "Entry (i, j) of the matrix computed serially for a region is the distance measure between the series of the points with index i and j; a series with NaN has NaN distances.", "quantifier": "all regions and measures", "why_tests_cant": "all pairs, all shapes", "anchors": ["spta/distance/dtw.py:DistanceByDTW.compute_distance_matrix_sptr", "spta/distance/dtw.py:DistanceByDTW.measure"]}
{"id": "C46", "title": "Parallel distance matrix equals the serial one, for every schedule", "statement": "For every order in which the worker pool executes the tasks, the parallel matrix (lower triangle plus transpose) equals the serial matrix if the measure is symmetric with zero self-distance; for a series with NaN the diagonal differs (NaN serially, 0 in parallel: refuted).", "quantifier": "all regions, all schedules of the worker pool", "why_tests_cant": "all interleavings", "anchors": ["spta/util/parallel.py:InterPointsOperation", "spta/distance/dtw_parallel.py:DistanceByDTWParallel", "spta/util/parallel_old.py"]}
{"id": "C47", "title": "distances_to_point uses the right row", "statement": "With a loaded matrix, distances_to_point returns the matrix row of the point restricted to the given indices, in order.", "quantifier": "all matrices, points and index lists", "why_tests_cant": "row/column and layout errors only show on non-square grids", "anchors": ["spta/distance/__init__.py:DistanceBetweenSeries.distances_to_point"]}
{"id": "C48", "title": "A missing matrix file is reported", "statement": "The documentation promises ValueError or recomputation when the matrix cannot be loaded; loading swallows the missing file, so the call fails with AssertionError instead (refuted).", "quantifier": "all states of the distance object", "why_tests_cant": "error path", "anchors": ["spta/distance/__init__.py:DistanceBetweenSeries.load_distance_matrix_2d", "spta/distance/__init__.py:DistanceBetweenSeries.distances_to_point"]}
{"id": "C49", "title": "Spatial weighting is applied once", "statement": "Over any sequence of loads and weightings the matrix in use should be raw + weight*euclid, added exactly once; re-applying is idempotent, but after loading a second matrix the weights are never applied (refuted).", "quantifier": "all sequences of load/weight operations", "why_tests_cant": "history property", "anchors": ["spta/distance/dtw.py:DistanceBySpatialDTW"]}
{"id": "C50", "title": "kNN selects k nearest windows", "statement": "find_k_nearest_neighbors returns k distinct positions such that no unselected position is nearer than a selected one; fewer than k candidates raise ValueError.", "quantifier": "all windows, distances and k; all tie-breaking of argpartition", "why_tests_cant": "order-statistics property for all inputs", "anchors": ["spta/model/knn.py:find_k_nearest_neighbors"]}
{"id": "C51", "title": "kNN forecast is the mean of the nearest earlier windows", "statement": "predict_future_values_with_knn(series, k, forecast_len) takes the k windows of forecast_len samples, among all windows but the last, that are nearest to the last window, and returns their element-wise mean; each forecast sample lies between the min and max of the training series; too short a series raises IndexError, too few windows ValueError. The samples that follow the selected windows are not used: that the forecast continues the pattern is refuted.", "quantifier": "all series, k, lengths and distance measures", "why_tests_cant": "index arithmetic on windows for all lengths", "anchors": ["spta/model/knn.py:predict_future_values_with_knn"]}
{"id": "C52", "title": "Mean-of-past model", "statement": "The forecast is forecast_len copies of the mean of the last `past` training samples; past = 0 uses the whole series; the forecast lies between min and max of those samples.", "quantifier": "all series, past and forecast lengths", "why_tests_cant": "slicing with negative start for all lengths", "anchors": ["spta/model/mean.py"]}
{"id": "C53", "title": "Error measures vanish exactly on perfect forecasts", "statement": "MSE is >= 0 and 0 iff forecast equals observation (on non-NaN samples); MASE is >= 0, 0 iff equal and invariant under a common rescaling and shift of all three series; sMAPE is symmetric in its arguments, 0 on perfect forecasts of series without zero samples, and within [0,200] for positive series. That sMAPE is 0 on every perfect forecast and never negative is refuted (zero samples give NaN, negative samples negative errors).", "quantifier": "all series", "why_tests_cant": "algebraic identities and inequalities", "anchors": ["spta/util/error.py"]}
{"id": "C54", "title": "Overall error", "statement": "overall_error is the root mean square of the point errors of the iterated points, lies between the least and greatest absolute point error, and is monotone in each point error; NaN errors are left out.", "quantifier": "all error regions", "why_tests_cant": "inequalities over all regions", "anchors": ["spta/model/error.py:ErrorRegion.overall_error", "spta/util/arrays.py:root_mean_squared"]}
{"id": "C55", "title": "Parallel error computation equals the serial one, for every schedule", "statement": "overall_with_each_forecast gives each iterated point the overall error of using that point's forecast at all points of the region; with any number of workers and any order in which the tasks run the table equals the serial one, the call always ends, and it raises exactly when the serial one raises, with the exception of one of the points.", "quantifier": "all regions, all schedules", "why_tests_cant": "all interleavings", "anchors": ["spta/model/error_parallel.py:ParallelForecastError", "spta/model/error.py:MeasureForecastingError"]}
{"id": "C56", "title": "Error summary is ordered", "statement": "In the result of analyze_errors, minimum <= every per-model overall error <= maximum, in particular minimum <= centroid error <= maximum and minimum <= error of the model of the locally best point <= maximum.", "quantifier": "all error tables without NaN", "why_tests_cant": "order relation over all inputs", "anchors": ["spta/model/forecast.py:ForecastAnalysis.analyze_errors"]}
{"id": "C57", "title": "Models are trained only at representatives", "statement": "TrainAtRepresentatives trains exactly at the representatives and leaves None elsewhere; missing_count equals the number of iterated points without model.", "quantifier": "all regions, representatives, trainers", "why_tests_cant": "pointwise law", "anchors": ["spta/model/train.py:TrainAtRepresentatives", "spta/model/train.py:ModelTrainer.apply_to"]}
{"id": "C58", "title": "A solver forecasts each point with the model of its cluster's medoid", "statement": "After training, the forecast for every point of every prediction region equals the forecast of the model trained on the series of the medoid of the point's cluster: trained without the last test_len samples for in-sample queries, with all samples for out-of-sample queries; a failed model gives NaN.", "quantifier": "all regions, partitions, prediction regions, lengths", "why_tests_cant": "end-to-end functional property of a pipeline", "anchors": ["spta/solver/train.py:SolverTrainer.train", "spta/solver/model.py:SolverWithMedoids.predict", "spta/model/base.py:ModelRegion.function_at"]}
{"id": "C59", "title": "Query results use consistent coordinates and headers", "statement": "to_domain_coordinates and to_relative_coordinates are inverse; every CSV row has as many columns as the header, for every kind of result, and each cell is the value its column names (position in the dataset, error, forecast, test series, cluster, label); the results file has one row per point in row-major order and the summary one row with the stated statistics; both read back; results of every query to a trained solver qualify; with the RMSE distance or without medoids the summary fails.", "quantifier": "all results, layers of partitions and classifiers, points, lengths, regions, renderings of floats", "why_tests_cant": "for all lengths and regions", "anchors": ["spta/solver/result.py"]}
{"id": "C60", "title": "Solver file names", "statement": "CSV names distinguish prediction region, test length, forecast length and error type; the solver cache key (repr) does not contain test_len, so two solvers with different test lengths share it (refuted).", "quantifier": "all pairs of solver metadata", "why_tests_cant": "injectivity over all pairs", "anchors": ["spta/solver/metadata.py"]}
{"id": "C61", "title": "Medoid choice picks the least penalty", "statement": "choose_medoid returns the first medoid with the least penalty over all clusterings of the suite; if all penalties are infinite it raises ValueError.", "quantifier": "all suites and penalties", "why_tests_cant": "minimality", "anchors": ["spta/classifier/train_input.py:MedoidsChoiceStrategy.choose_medoid"]}
{"id": "C62", "title": "No medoid is chosen more often than the threshold", "statement": "Over any sequence of choices with threshold t > 0, the histogram counts sum to the number of successful choices and no count exceeds t; the internal assertion never fails.", "quantifier": "all call histories", "why_tests_cant": "invariant over unbounded histories", "anchors": ["spta/classifier/train_input.py:MedoidsChoiceStrategy.choose_medoid", "spta/classifier/train_input.py:MedoidsChoiceStrategy.supress_medoids_that_reached_threshold"]}
{"id": "C63", "title": "Random points avoid the blacklist", "statement": "random_integers_with_blacklist returns n distinct integers of [min,max] none of which is blacklisted, and fails if there are not enough; random points derived from it never repeat.", "quantifier": "all n, ranges, blacklists, random outcomes", "why_tests_cant": "for every random outcome", "anchors": ["spta/util/maths.py:random_integers_with_blacklist", "spta/distance/variance.py", "spta/classifier/train_input.py:get_random_points_different_to_medoids"]}
{"id": "C64", "title": "Random training points can coincide with medoids", "statement": "The blacklist of medoid indices is computed from absolute coordinates without removing the region offset, so for a region with non-zero offset a 'random point different to medoids' can be a medoid (refuted); with zero offset it cannot.", "quantifier": "all regions and suites", "why_tests_cant": "needs a non-zero offset", "anchors": ["spta/classifier/train_input.py:extract_all_medoid_indices_from_suite_result", "spta/classifier/train_input.py:get_random_points_different_to_medoids"]}
{"id": "C65", "title": "Labelled series windows", "statement": "apply_sliding_window_to_labeled_series produces for every labelled row series_len-window+1 rows with the same label, whose samples are the consecutive windows.", "quantifier": "all labelled data sets and windows", "why_tests_cant": "for all lengths", "anchors": ["spta/classifier/sliding_window.py"]}
{"id": "C66", "title": "Partition caching", "statement": "Calling partition twice with pickling returns the partition computed the first time without recomputation, for any intermediate calls with other keys; a corrupt or missing file leads to recomputation; pickle_home is ignored by the path (refuted).", "quantifier": "all call histories on the file system model", "why_tests_cant": "history property", "anchors": ["spta/clustering/__init__.py:ClusteringAlgorithm.partition"]}
{"id": "C67", "title": "Dataset caching", "statement": "retrieve_dataset_interval returns the same data whether it is loaded from its cache file or computed, for any sequence of requests; samples_per_day other than 1 or 4 is rejected, and so are years outside the dataset. Refuted if the raw dataset is replaced: the cache files keep the old data.", "quantifier": "all request histories", "why_tests_cant": "history property", "anchors": ["spta/dataset/temp_brazil.py:retrieve_dataset_interval"]}
{"id": "C68", "title": "The default cluster_len of a partition is always 0", "statement": "PartitionRegion.cluster_len (the inherited implementation) adds 0 for each member, so it returns 0 for every partition and index; 'it returns the number of members' is refuted, while the crisp override is correct.", "quantifier": "all partitions", "why_tests_cant": "for all partitions", "anchors": ["spta/region/partition.py:PartitionRegion.cluster_len"]}
{"id": "C69", "title": "Silhouette analysis returns the best clustering", "statement": "perform_analysis returns the first clustering of the suite with the largest silhouette average, provided one exceeds -1; the average reported is that of the returned clustering.", "quantifier": "all suites and scores", "why_tests_cant": "argmax over all sequences", "anchors": ["spta/clustering/silhouette.py:SilhouetteAnalysis.perform_analysis"]}
{"id": "C70", "title": "Nested loops over the same region object never end", "statement": "The loop counter belongs to the region object: in `for p in r: for q in r: ...` over a non-empty region the inner loop always resets the counter, so the outer loop yields (0, 0) again and again and never stops.", "quantifier": "all non-empty region shapes, all numbers of outer iterations", "why_tests_cant": "non-termination cannot be observed by a terminating test", "anchors": ["spta/region/base.py:BaseRegion.__iter__", "spta/region/base.py:BaseRegion.__next__"]}
{"id": "C71", "title": "repeat_point works on plain spatio-temporal regions only", "statement": "On a plain spatio-temporal region repeat_point(p) gives a region of the same shape whose series at every point is the series at p; on every spatio-temporal cluster or scaled region it raises, because the method resolution order picks the spatial implementation.", "quantifier": "all regions, nestings of decorators and points", "why_tests_cant": "tests pick one kind of region; the claim is about every nesting of decorators", "anchors": ["spta/region/temporal.py:SpatioTemporalRegion.repeat_point", "spta/region/spatial.py:SpatialRegion.repeat_point", "spta/region/temporal.py:SpatioTemporalCluster"]}
{"id": "C72", "title": "subset(region, interval) on a scaled region keeps the wrong scaling data", "statement": "subset(region, ti) on a scaled region cuts the dataset but keeps the full-size minimum and maximum regions, so descaling the subset uses the minimum and maximum of other points; region_subset does not have this defect. The claim 'subset commutes with descale' is refuted for subset.", "quantifier": "all scaled regions, rectangles and intervals", "why_tests_cant": "tests descale whole regions; the defect needs an offset rectangle", "anchors": ["spta/region/temporal.py:SpatioTemporalRegion.subset", "spta/region/scaling.py:SpatioTemporalScaled"]}
{"id": "C73", "title": "Descaling a cluster of a scaled region", "statement": "descale() of a cluster of a scaled region gives, at every point of the cluster, the descaled series of the region; but the result is still a scaled region (has_scaling() is true) and descaling it again silently transforms the samples a second time, whereas a descaled plain region refuses a second descale. The claim 'the result is no longer scaled' is refuted for clusters.", "quantifier": "all scaled regions, partitions and cluster indices", "why_tests_cant": "tests descale once; the claim is about every region and every repetition", "anchors": ["spta/region/temporal.py:SpatioTemporalCluster.descale", "spta/region/scaling.py:SpatioTemporalScaled.descale"]}
{"id": "C74", "title": "The k-medoids report fails exactly when a cluster is empty", "statement": "run_kmedoids with the report enabled (verbose) raises IndexError exactly when some cluster of the result has no samples, and otherwise does not affect the result.", "quantifier": "all datasets, distance measures, medoids and iteration limits", "why_tests_cant": "an empty cluster needs equal samples chosen as medoids; tests use well separated data", "anchors": ["spta/kmedoids/kmedoids.py:show_report", "spta/kmedoids/kmedoids.py:run_kmedoids"]}
{"id": "C75", "title": "Fuzzy k-medoids fails on equal samples", "statement": "If two different samples are at distance 0, the fuzzy k-medoids search ends with AssertionError, whatever the initial medoids, tolerance and iteration limit.", "quantifier": "all datasets with two samples at distance 0, all initial medoids and parameters", "why_tests_cant": "the failure may appear only when one of the equal samples is tried as a medoid, so it depends on the whole search", "anchors": ["spta/kmedoids/kmedoids_fuzzy.py:run_kmedoids_fuzzy", "spta/kmedoids/kmedoids_fuzzy.py:compute_membership_fcm"]}
{"id": "C76", "title": "Intra-cluster cost is the cost of the whole partition", "statement": "intra_cluster_cost(medoids, region, distance_measure) is the sum, over all points of the region, of the squared distance between the point and the medoid of its own cluster; it raises IndexError without medoids.", "quantifier": "all partitions, regions, distance matrices and medoids", "why_tests_cant": "a cost of a few clusters does not show that every point is counted once and against its own medoid", "anchors": ["spta/region/partition.py:PartitionRegion.intra_cluster_cost", "spta/util/arrays.py:sum_squared"]}
{"id": "C77", "title": "DTW barycenter averaging never gets worse", "statement": "One DBA update never increases the sum of squared DTW distances from the center to the series; performDBA succeeds for every number of iterations, more iterations never give a worse center, and the result is never worse than the medoid it starts from.", "quantifier": "all lists of non-empty finite series (of different lengths), all numbers of iterations, all random candidate choices", "why_tests_cant": "convergence of an alternating minimisation is a claim about every input and every iteration", "anchors": ["spta/dba/dba.py:DBA_update", "spta/dba/dba.py:performDBA"]}
{"id": "C78", "title": "Whole-region forecasts belong to the current models", "statement": "After train_models and forecast_at_each_point, the whole-region forecasts use, at each point, the forecast of the model just trained there, whatever was done before with the same analysis. That this also holds after train_models alone is refuted: training again keeps the stored forecast of the old models.", "quantifier": "all regions, trainers, forecast lengths and previous histories", "why_tests_cant": "needs a history of two trainings with one analysis object", "anchors": ["spta/model/forecast.py:ForecastAnalysis.train_models", "spta/model/forecast.py:ForecastAnalysis.forecast_at_each_point", "spta/model/forecast.py:ForecastAnalysis.forecast_whole_region_with_single_model"]}
{"id": "C79", "title": "Saved solvers are loaded unchanged", "statement": "A trained solver that has been saved is loaded with the same partition, models and errors and answers every query as before, whatever other solvers and partitions are saved and loaded in between; a save interrupted by a crash makes loading fail instead of giving a partial solver; two solvers share a file exactly if they agree in the data it depends on. Refuted for solvers that differ only in the number of test samples and whose trainer keeps orders found on the training data (auto ARIMA): they overwrite each other's whole-data models, so a solver loaded again can answer differently.", "quantifier": "all solvers, keys, histories of saves, loads, partitions, deletions and crashes", "why_tests_cant": "a property of every history on the file system and of every pair of keys", "anchors": ["spta/solver/model.py:SolverPickler.save_solver", "spta/solver/model.py:SolverPickler.load_solver", "spta/solver/metadata.py:MetadataWithClustering"]}
{"id": "C80", "title": "The clustering report covers every point once", "statement": "The CSV report of a partition has one row per cluster with the number of points that have that label; the numbers add up to the size of the region and the coverages to 100 percent; every row reads back with three columns.", "quantifier": "all partitions and numbers of clusters", "why_tests_cant": "sums over all clusters of all partitions", "anchors": ["spta/clustering/__init__.py:ClusteringAlgorithm.save_to_csv", "spta/region/partition.py:PartitionRegionCrisp.cluster_len"]}
{"id": "C81", "title": "Regions created from metadata", "statement": "create_instance() gives a region with the extent of the metadata's rectangle whose series at (i, j) is the dataset's series of the requested years at (x1+i, y1+j), scaled to [0, 1] if asked for, whatever requests, crashes or deletions of cache files came before; other numbers of samples per day and other years are rejected. Refuted for rectangles that leave the dataset: they are cut off silently, so the region is smaller than its metadata says.", "quantifier": "all datasets, metadata, file system histories", "why_tests_cant": "a history property over all rectangles and years", "anchors": ["spta/region/metadata.py:SpatioTemporalRegionMetadata.create_instance", "spta/dataset/temp_brazil.py:retrieve_dataset_interval"]}
{"id": "C82", "title": "Training rows for the classifier", "statement": "The training file has one row for each of the requested random points, which are different points of the region; a row names the region, the clustering, index and position of the medoid chosen for the point and holds the point's series under the columns of the header; with the minimum-distance criterion and no threshold the named medoid has the least distance to the point among all medoids of the suite; the histogram file lists each chosen medoid once with the number of rows that name it.", "quantifier": "all suites, regions, distance matrices, counts, thresholds and random outcomes", "why_tests_cant": "for every random outcome and every suite", "anchors": ["spta/classifier/train_input.py:TrainDataWithRandomPoints.evaluate_score_of_random_points", "spta/classifier/train_input.py:MedoidsChoiceMinDistance.get_medoid_penalties", "spta/classifier/train_input.py:calculate_csv_header_given_suite_result"]}
{"id": "C83", "title": "Medoid series file", "statement": "The file of medoid series has one row for each medoid of each clustering of the suite, in order, with the series that the dataset has at the medoid's position. Refuted for medoids outside the region (a stale suite): one just left of it silently gets the series of the opposite border.", "quantifier": "all datasets, rectangles and suites", "why_tests_cant": "coordinates relative to every rectangle", "anchors": ["spta/classifier/train_input.py:MedoidSeriesFormatter.retrieve_medoid_data", "spta/classifier/train_input.py:MedoidSeriesFormatter.produce_csv"]}
{"id": "C84", "title": "Prediction error as penalty", "statement": "With the minimum-error criterion, every medoid has an infinite penalty except the one whose cluster holds the point, whose penalty is the error of its model's forecast against the last samples of the point; so the chosen medoid is always the one whose cluster holds the point in the partition of its clustering.", "quantifier": "all trained solvers, suites, points, histograms", "why_tests_cant": "an argument about every partition and model", "anchors": ["spta/classifier/train_input.py:MedoidsChoiceMinPredictionError.get_medoid_penalties"]}
{"id": "C85", "title": "Partition from labels", "statement": "A partition can be made from a flat list of labels exactly if the list is not empty and has one label for each point; it then has the label at place i*y_len+j at point (i,j) and as many clusters as the largest label plus one; the constructor rejects any other number of clusters. Refuted: that every cluster up to that number has points, and that every point is in one (negative labels are accepted).", "quantifier": "all lists of labels and shapes", "why_tests_cant": "all lengths and label values", "anchors": ["spta/region/partition.py:PartitionRegionCrisp.__init__", "spta/region/partition.py:PartitionRegionCrisp.from_membership_array"]}
{"id": "C86", "title": "Rectangles in the dataset", "statement": "A rectangle relative to a region, converted to the dataset, keeps its extent, holds exactly the converted points, and stays within the dataset when it was within the region.", "quantifier": "all rectangles and points", "why_tests_cant": "all coordinates", "anchors": ["spta/region/metadata.py:SpatioTemporalRegionMetadata.absolute_coordinates_of_region"]}
{"id": "C87", "title": "Flat arrays of a region", "statement": "The flat array of a spatial region lists its values row by row, making a region of it gives back the same region, and lists of another length are rejected.", "quantifier": "all regions and lists", "why_tests_cant": "all shapes and contents", "anchors": ["spta/region/spatial.py:SpatialRegion.create_from_1d", "spta/region/spatial.py:SpatialRegion.as_array"]}
{"id": "C88", "title": "RMSE distance", "statement": "The RMSE distance is symmetric, is NaN when a sample is missing, and otherwise is the square root of a number that is never negative, is the mean of the squared differences, and is zero exactly for equal series.", "quantifier": "all series of equal length", "why_tests_cant": "all real-valued series", "anchors": ["spta/distance/rmse.py:DistanceByRMSE.measure"]}
{"id": "C89", "title": "Names of dataset and distance files", "statement": "Two regions in the same directory share a dataset file, or a file of distances, exactly if they agree in name, years, samples per day and scaling; a dataset file is a distances file exactly if one region's name is the other's with 'distances_' in front.", "quantifier": "all region metadata", "why_tests_cant": "injectivity over all names and numbers", "anchors": ["spta/region/metadata.py:SpatioTemporalRegionMetadata.dataset_filename", "spta/region/metadata.py:SpatioTemporalRegionMetadata.distances_filename"]}
{"id": "C90", "title": "Predictions with a classifier", "statement": "After any history of queries, a query that returns has at each point of the prediction region: the label that the classifier gives for the last tp samples of the target region there; the forecast of the model trained on the start of the series of the medoid with the index of the label in the clustering that the label names; the last samples as test series; and the chosen error between the two. All in original units, and in the form that the query results need. Refuted: that all samples are used when tp is larger than the length (one too many leaves only the last sample).", "quantifier": "all regions, trained and stored solvers, classifiers, histories of queries and prediction regions", "why_tests_cant": "ranges over every history, region and classifier", "anchors": ["spta/classifier/model.py:ClassifierSolver.predict", "spta/classifier/model.py:ClassifierSolver.get_labels_from_classifier", "spta/classifier/model.py:ClassifierSolver.retrieve_model_for_solver", "spta/classifier/model.py:ClassifierSolver.build_model_region_for_models", "spta/classifier/model.py:ClassifierSolver.create_prediction_query_result"]}
{"id": "C91", "title": "Repeated queries to a classifier solver", "statement": "A query that returned once returns the same result again, whatever other queries come in between and whatever happens to the files. The out-of-sample region is chosen by the first query only, and when the regions could not be created then, every later query fails with AttributeError. Refuted: that a query uses the out-of-sample region that it is given.", "quantifier": "all histories of queries and file changes", "why_tests_cant": "ranges over every interleaving of queries and file changes", "anchors": ["spta/classifier/model.py:ClassifierSolver.prepare", "spta/classifier/model.py:ClassifierSolver.predict", "spta/classifier/model.py:ClassifierSolver.retrieve_model_for_solver"]}
{"id": "C92", "title": "Label of a series", "statement": "The neural network is given the series divided by the sum of its absolute values, and the label is the row of the label table with the number of the largest answer, the first one among equals. The units of the series do not matter. Series of another length than the window, or with missing or infinite samples, are refused with ValueError.", "quantifier": "all series, window sizes, label tables and networks", "why_tests_cant": "ranges over all series, units and networks", "anchors": ["spta/classifier/dnn.py:ClassifierDNN.label_for_series"]}
{"id": "C93", "title": "Histogram of the distances to a centroid", "statement": "With a distance matrix and a known centroid, the histogram of a region shows the distance to the centroid of every point of the region, row by row, on an axis that ends at the largest of them, with one text of statistics. A region of fewer than two points gives ValueError, and a missing matrix or centroid is refused with AssertionError.", "quantifier": "all regions, clusters, matrices and centroids", "why_tests_cant": "ranges over every partition and matrix", "anchors": ["spta/distance/variance.py:DistanceHistogram.histogram_to_centroid", "spta/distance/variance.py:DistanceHistogram.plot", "spta/region/temporal.py:SpatioTemporalRegion.get_centroid"]}
{"id": "C94", "title": "Statistics of the distances", "statement": "The statistics under a histogram are those of the distances: how many there are, the mean, the median, the standard deviation, the maximum, and as minimum the second smallest value, which is the smallest distance to another point when the centroid is in the region at distance zero and nothing is missing. Fewer than two distances give ValueError.", "quantifier": "all lists of distances", "why_tests_cant": "ranges over every list of distances", "anchors": ["spta/distance/variance.py:DistanceHistogram.statistics"]}
{"id": "C95", "title": "Random points outside a cluster", "statement": "The random points of a histogram are different points of the region outside the cluster, as many as asked for, or as the cluster has when zero are asked for, and never more than there are; a cluster that fills the region gives IndexError.", "quantifier": "all clusters, numbers and random outcomes", "why_tests_cant": "for every random outcome and set order", "anchors": ["spta/distance/variance.py:DistanceHistogramWithRandomPointsOtherClusters.distances_to_point", "spta/distance/variance.py:DistanceHistogramWithRandomPointsOtherClusters.point_indices"]}
{"id": "C96", "title": "One histogram per cluster", "statement": "For two clusters or more, the figure has one panel per cluster, at different places of a grid with as many places as clusters. The panel of a cluster shows the distances of its points to its centroid and, if asked for, those of random points outside it. All panels have the same axis, which without random points ends at the largest distance shown. Figures with different numbers of random points go to different files. Refuted: that the axis covers the random points (they are drawn again after the axis is chosen), and that a centroid of the region underneath is enough. One cluster alone gives TypeError.", "quantifier": "all partitions, matrices, numbers of random points, random outcomes", "why_tests_cant": "for every number of clusters and random outcome", "anchors": ["spta/distance/variance.py:DistanceHistogramClusters.cluster_histograms", "spta/distance/variance.py:DistanceHistogramClusters.plot"]}
{"id": "C97", "title": "Clusters with their centroids", "statement": "The clusters made of a partition are as many as it has, and the i-th has the i-th medoid as its centroid, or the point whose index i*y_len+j is the i-th index. Lists that are too short give IndexError, giving both is refused, and with neither the clusters answer with the centroid of the region.", "quantifier": "all partitions, regions, lists of medoids and indices", "why_tests_cant": "all partitions and lists", "anchors": ["spta/region/partition.py:PartitionRegionCrisp.create_all_spt_clusters", "spta/region/partition.py:SpatioTemporalCluster"]}
{"id": "C98", "title": "A matrix computed by the task queue survives crashing processes", "statement": "When a function is computed over a matrix by the older task queue, then whatever the processes do, and whenever some of them raise or are killed, the call returns a matrix of the right shape in which each entry is the function's value or 0, no position is computed twice, and unless every process failed at most one position is missing for each process that failed. Without failures every schedule gives the function's value everywhere. The call never waits for ever. A task's exception is not reported to the caller.", "quantifier": "all functions (that may raise), matrix shapes, numbers of processes, interleavings and crash points", "why_tests_cant": "interleavings and crash points of processes cannot be enumerated by tests", "anchors": ["spta/util/parallel_old.py:Parallel2DQueue.execute_func_on_2D", "spta/util/parallel_old.py:process_one_task", "spta/util/parallel_old.py:Parallel2DTask.work"]}
{"id": "C99", "title": "The old silhouette analysis returns its best run", "statement": "The analysis over seeds and numbers of clusters returns the number of clusters, seed, medoids and labels of one and the same run: the first of those with the largest average silhouette above -1. It computes the distance matrix only if there is none. It writes one picture per run, under names that differ between runs, and stops with the exception of the first run that fails. With initial medoids, the run for k starts from the first k.", "quantifier": "all data sets, lists of k and seeds, distance matrices, silhouette scores (also NaN) and failures", "why_tests_cant": "the winner must be right for every sequence of scores, ties and NaN included", "anchors": ["spta/kmedoids/silhouette.py:do_silhouette_analysis", "spta/kmedoids/silhouette.py:single_kmedoids_for_silhouette", "spta/kmedoids/silhouette.py:single_silhouette", "spta/kmedoids/silhouette.py:kmedoids_metadata_from_silhouette_metadata", "spta/kmedoids/silhouette.py:silhouette_default_metadata"]}
{"id": "C100", "title": "A silhouette plot shows each sample once, in the band and colour of its cluster", "statement": "In a silhouette plot the bands of the clusters are disjoint, ten apart and inside the axis; each band has the sorted silhouettes of the samples of its cluster. If the labels are 0 to k-1, every sample is drawn exactly once and each band has the colour that the map of labels gives to its cluster. For other labels samples can be missing.", "quantifier": "all labellings, numbers of samples and silhouette values", "why_tests_cant": "the layout accumulates over all clusters; tests look at a few sizes", "anchors": ["spta/util/plot.py:plot_clustering_silhouette", "spta/util/plot.py:plot_discrete_spatial_region"]}
{"id": "C101", "title": "The distance pictures show distances to the first point and to the centre", "statement": "For a region of any size, the two pictures of the distance matrix show at row i and column j the distance between the point (i, j) and the point (0, 0), and between (i, j) and the point whose coordinates are half the sides rounded down.", "quantifier": "all region sizes (odd and even) and distance matrices of the right shape", "why_tests_cant": "the index of the centre depends on the parity of both sides", "anchors": ["experiments/region/distance.py:show_distances", "spta/kmedoids/silhouette.py:KmedoidsWithSilhouette.show_distances"]}
{"id": "C102", "title": "A plotted partition colours, marks and frames the right points", "statement": "In the plot of a partition every point has the colour of its label and different labels get different places in the colour map. Each marked point has its mark in the middle of its own pixel, white exactly on black. The frame of a region covers the pixels of the points of that region and nothing else. Without a subplot the frame fails with AttributeError.", "quantifier": "all partitions, marked points and regions", "why_tests_cant": "rows and columns are swapped between data and picture; the claim is about every point", "anchors": ["spta/util/plot.py:plot_discrete_spatial_region", "spta/util/plot.py:plot_partition", "spta/util/plot.py:plot_2d_clusters"]}
{"id": "C103", "title": "Series drawn by colour keep their groups apart", "statement": "When series are drawn with one colour number below seven each, all are drawn in order and two series have the same colour exactly if they have the same number. More than seven different numbers are refused; a number above six is not noticed by the check and fails later.", "quantifier": "all groups of series and colour numbers", "why_tests_cant": "the palette check is about all combinations of numbers", "anchors": ["spta/util/plot.py:plot_series_group_by_color", "spta/util/plot.py:check_palette_len"]}
{"id": "C104", "title": "The first k-medoids algorithm stops, and its clusters and medoids fit together", "statement": "From any non-empty list of medoids the algorithm stops, whatever the distance measure. Every medoid is the one given or a sample with a smaller combined distance to all the samples. Without a limit on the steps, and from medoids that are samples, the labels are the nearest of the final medoids and no member of a cluster has a smaller combined distance than its medoid. Different starting samples give different medoids if the measure tells different series apart. With a limit the labels can be those of earlier medoids; the given list is overwritten; the medoid need not be the best of its own cluster.", "quantifier": "all data sets, distance measures, starting medoids and step limits", "why_tests_cant": "termination and the final condition are about every measure and every sequence of replacements", "anchors": ["spta/kmedoids/kmedoids_bad.py:kmedoids", "spta/kmedoids/kmedoids_bad.py:update_medoids", "spta/kmedoids/kmedoids_bad.py:compute_cluster_distances", "spta/kmedoids/kmedoids_bad.py:assign_labels", "spta/kmedoids/kmedoids_bad.py:has_converged"]}
{"id": "C105", "title": "The best models are exactly the models nobody beats", "statement": "From the results of the models (time and error not negative), the best models are the rows that no other row beats in time and error, each once and whole, and every model has a best model that is at least as fast and as exact. In the sweep over weights the cost of each model is alpha * time + beta * error, between 0 and 1, the best models are exactly those of least cost, and they are the best among all the results for that alpha and beta. Negative values are ranked wrongly; the cost in the message about the best model is that of the last model.", "quantifier": "all tables of results with non-negative times and errors", "why_tests_cant": "it quantifies over all tables and all pairs of rows", "anchors": ["spta/arima/optimize.py:find_best_models", "spta/arima/optimize.py:scale_perf_values", "spta/arima/optimize.py:sweep_cost_factors"]}
{"id": "C106", "title": "Synthetic training data respects its limits and has the format of the training files", "statement": "Every synthetic entry has a k and a seed of the given lists, a cluster index below k, one of the given number of medoids, all inside the region, and a series of the given length: noise around a line whose slope is k minus the cluster index times the weight, rising for odd seeds and falling for even ones. The file has the header and the rows that training data of k-medoids clusterings has. Empty lists raise IndexError. The seed does not fix the noise.", "quantifier": "all parameters, all outcomes of the random choices and all noise", "why_tests_cant": "it holds for every outcome of the random number generators", "anchors": ["spta/classifier/synthetic.py:generate_synthetic_series", "spta/classifier/synthetic.py:generate_synthetic_csv", "spta/dataset/synthetic_temporal.py:synthetic_temperature"]}
{"id": "C107", "title": "A delayed function keeps its shape and length", "statement": "A delayed function of seven values or more has the given length; the profile appears whole after a delay smaller than the padding (15% of the length, at most 30), with zeros elsewhere, all with noise. Shorter lengths raise ValueError.", "quantifier": "all lengths, profiles, delays and noise", "why_tests_cant": "the layout must hold for every length and every random delay", "anchors": ["spta/dataset/synthetic_temporal.py:delayed_function_with_noise"]}
{"id": "C108", "title": "The table of medoid distances holds the distances between the medoids", "statement": "The table of a partition has a header with the indices of its clusters and, for each medoid, one row with the index of its cluster and its distances to all medoids in order, read from the distance matrix. With the matrix of the region, the cell of medoids i and j is the distance of their series, so a symmetric measure gives a symmetric table. When the number of medoids differs from the k of the algorithm no table is written.", "quantifier": "all distance matrices, regions, medoids and k", "why_tests_cant": "the cells must match for every partition", "anchors": ["experiments/clustering/medoid_distances.py:compute_and_save_medoid_distances"]}
{"id": "C109", "title": "The distance and error tables describe each point of each cluster once", "statement": "The analysis of distances and forecast errors writes one file for each cluster, with different names. Each file has one row for each point of the cluster, in the order of the grid, with its absolute position, its distance to the medoid and the error of the medoid's forecast at that point, computed on the values before scaling.", "quantifier": "all regions, partitions, medoids, models, forecast lengths and error measures", "why_tests_cant": "rows, distances and errors are aligned by position and must agree for every cluster", "anchors": ["experiments/auto_arima/distance_errors.py:distance_vs_errors_for_cluster", "experiments/auto_arima/distance_errors.py:do_auto_arima_distance_errors"]}
{"id": "C110", "title": "The table of errors between medoids holds the error of each model at each medoid", "statement": "Row i, column j of the table is the error at medoid j of the forecast of the model trained at medoid i. If the forecast of a model fails, the file holds the header and the complete rows of the medoids before it.", "quantifier": "all regions, medoids, models, forecast lengths, error measures and points of failure", "why_tests_cant": "must hold for every partition and every failing model", "anchors": ["experiments/auto_arima/error_between_medoids.py:do_auto_arima_errors_for_clustering", "experiments/auto_arima/error_between_medoids.py:find_auto_arima_errors_for_medoid"]}
{"id": "C111", "title": "The table of training errors keeps the rows of all completed analyses", "statement": "The training error analysis writes one row for each cluster and each ARIMA order, clusters first, with the number of points of the cluster, the order, and the results of that analysis. When an analysis fails, the file holds exactly the rows of all earlier ones.", "quantifier": "all partitions, suites of orders, results and points of failure", "why_tests_cant": "a failure can occur at any of the analyses", "anchors": ["experiments/arima/training_error_analysis.py:do_arima_error_analysis_for_clustering"]}
{"id": "C112", "title": "The predefined experiments mean what their names say", "statement": "A region offered by name has that name as the name of its metadata (so in all file names), a non-empty rectangle and years within the dataset; two offered regions never share a dataset, distance or pickle name, and equal first names mean equal rectangles. A clustering suite holds exactly the announced clusterings, each once and with distinct names; an ARIMA suite holds exactly its orders; no offered region uses a precalculated centroid; anything else is refused with KeyError. Refuted: that every offered suite exists for both types of clustering.", "quantifier": "all names of regions, suites and distances, all functions that calculate a centroid", "why_tests_cant": "A test can look up a few names; the claim is about all names, including those that must be refused, and about all pairs of regions.", "anchors": ["experiments/metadata/region.py: predefined_regions", "experiments/metadata/clustering.py: kmedoids_suites, regular_suites, get_suite, suite_options", "experiments/metadata/arima.py: predefined_arima_suites, arima_suite_by_name", "experiments/metadata/centroid.py: centroid_by_region_and_distance"]}
{"id": "C113", "title": "The solver programs predict with what they have trained", "statement": "After a successful training, and after any further runs that are predictions, or trainings for other places or parameters, or of the same program with the same number of test samples, predicting with the same options prints, for each point of the prediction region row by row, its position in the raw dataset and its cluster, the forecast of the model of the medoid of that cluster, the observed values (in-sample) and the error asked for, writes the CSV files of that result and changes no saved file. Without a training nothing is predicted. For mean and k-NN other trainings with any number of test samples do no harm; for auto-ARIMA a training with another number of test samples changes the out-of-sample predictions (refuted).", "quantifier": "all file systems, options, histories of runs, regions, scalings, partitions with medoids, models, prediction regions and forecast lengths", "why_tests_cant": "Interleavings of trainings and predictions through shared files are unbounded, and the claim is about every point of every prediction region.", "anchors": ["experiments/auto_arima/solver.py: train_request, predict_request, metadata_from_args", "experiments/baseline/solver_mean_past.py: train_request, predict_request", "experiments/baseline/solver_knn_medoids.py: train_request, predict_request", "spta/solver/train.py: SolverTrainer.train", "spta/solver/model.py: SolverFromClustering.save, load_solver"]}
{"id": "C114", "title": "The k-NN and auto-ARIMA programs for each point forecast it from its own past, in the units of the dataset", "statement": "When the program that runs k-NN, or the one that runs auto-ARIMA, at each point of a rectangle succeeds, it prints four lines for each point of the rectangle in row order: the position in the raw dataset, the forecast of the model computed from the series of that same point without its last tf samples, these last tf samples, and the error of the one with respect to the other. For a scaled region all of them are in the original units. The saved tables are those of the printed result. The lines of a point do not depend on the series of other points. An unknown region or parameter name raises KeyError.", "quantifier": "every predefined region, plain or scaled, every dataset, every rectangle inside the region, every k and every auto-ARIMA implementation, every number of test samples, every error type, every DTW and argpartition", "why_tests_cant": "It relates all points of arbitrary rectangles and arbitrary data, scaled or not; the program descales already scaled regions a second time and a test on a few points cannot show that this is harmless for all of them.", "anchors": ["experiments/baseline/solver_knn_each.py: process_request, descale_subregion", "experiments/auto_arima/solver_each.py: process_request, descale_subregion", "spta/model/forecast.py: ForecastAnalysis.train_models, forecast_at_each_point", "spta/model/knn.py: predict_future_values_with_knn", "spta/solver/result.py: PredictionQueryResultBuilder"]}
{"id": "C115", "title": "The program with the neural network answers with the models that the labels name, and its tables of experiments exist", "statement": "When the auto-ARIMA program has been run, with the same region, test length and error type, for every clustering that the labels of the classifier name, a successful request of the program prints for each point of the rectangle in row order its position in the raw dataset, the label that the network gives to the last 15 samples of that point in the target region, the forecast of the model trained at the medoid that the label names, the test samples of the point and the error; it saves the tables of that result and changes no saved solver, model or partition. Every experiment and classifier offered on its command line resolves to an existing suite, existing parameters and window 15; unknown names raise KeyError and change nothing. The paths of the two tables are determined by region, type of clustering, parameters, rectangle, test length and error type: the answers of different classifiers, suites or out-of-sample regions overwrite each other, and one experiment offered for ARIMA with clusters names a suite that does not exist.", "quantifier": "every predefined region, every offered experiment, classifier and out-of-sample region, every dataset, rectangle, test length, error type, network, file of labels, auto-ARIMA implementation and history of trainings and predictions that keeps what was trained", "why_tests_cant": "It composes earlier runs of another program, saved files, a classifier and the models at each point; tests would need the network and the trained models, and can only try a few of them.", "anchors": ["experiments/classifier/solver_dnn.py: process_request, metadata_from_args", "experiments/metadata/classifier.py: classifier_experiments", "experiments/metadata/arima_clustering.py: experiments_for_arima_with_clusters, auto_arima_clustering_experiments", "spta/classifier/model.py: SolverFromClassifier.predict", "spta/clustering/suite.py: ClusteringSuite.csv_suite_dir"]}
{"id": "C116", "title": "Clustering a region: partition and medoids", "statement": "Clustering a spatio-temporal region with k-medoids from k different starting points returns a partition and k different medoids, points of the region, such that every point carries the number of the first of the medoids nearest to it (by the matrix of the distance measure, or by the measure itself without a matrix); asking for no medoids returns the same partition. If different points have positive distance it always succeeds with exactly k clusters, each containing its medoid. With the report on, it fails with IndexError exactly when a cluster has no points, hence always for two or more clusters of equal points. With finite distances the points' distances to their medoids add up to no more than to any starting points. The regular partition with medoids returns, for each cluster, the first of its points with the least sum of distances to the cluster, and needs a matrix. Both use the matrix in the file of the region's metadata if it exists.", "quantifier": "all regions (scaled or not), distance matrices and measures, numbers of clusters, seeds, starting points, modes, tolerances and iteration limits", "why_tests_cant": "The claims hold for every region, matrix, seed and random choice, over searches of any length; a test fixes one region and one seed.", "anchors": ["spta/clustering/kmedoids.py: KmedoidsClusteringAlgorithm.partition_impl", "spta/clustering/regular.py: RegularClusteringAlgorithm.partition_impl", "spta/clustering/__init__.py: ClusteringAlgorithm.partition", "spta/clustering/__init__.py: ClusteringAlgorithm.find_medoids_for_partition", "spta/clustering/factory.py: ClusteringFactory.instance"]}
{"id": "C117", "title": "The table of a clustering suite", "statement": "The program that analyses a suite of clusterings on a predefined region writes outputs/<region>/dtw/clustering__<type>-<suite>.csv with one row per clustering, in the order of the suite: its name, the sum over all the points of the region of the distance to the medoid of the point's cluster with three decimals, and the medoids in raw coordinates; the reader of the table gets exactly these medoids back. It uses the saved partition of each clustering or else computes and saves it, writes the report of each clustering and changes no other file. Running it again, whatever the random choices, changes no file. If a clustering fails, the program stops with its exception and the table keeps the rows before it. An unknown region or suite, or a distances file of another size, stops it before it writes anything; without a distances file it always fails with a table that holds only the header. With positive distances between different points every k-medoids suite runs to its end, and with finite distances every regular suite whose divisions exist.", "quantifier": "all predefined regions, suites and clustering types, previous files, distance matrices and random choices", "why_tests_cant": "It is a claim about the files after every possible run, with any previous state of the disk and any prefix of successful clusterings.", "anchors": ["experiments/clustering/partition_analysis.py: analyze_suite", "experiments/clustering/partition_analysis.py: analyze_partition", "spta/clustering/suite.py: ClusteringSuite.analysis_csv_filepath", "spta/clustering/__init__.py: ClusteringAlgorithm.partition", "spta/clustering/__init__.py: ClusteringAlgorithm.save_to_csv"]}
{"id": "C118", "title": "The elbows printed for a clustering suite", "statement": "The program that looks for the elbow of a k-medoids suite prints three lines for each seed: the seed, the values of k of the suite, and an elbow. The elbow is the same for every seed: the first value of k, neither the smallest nor the largest, at which the costs have the largest second derivative (as a parabola through three neighbours); the costs are those of the clusterings with the LAST seed, each the sum over all points of the squared distance from the medoid of the point's cluster. The partition of every clustering is saved and no other file changes; a second run prints the same and changes nothing, whatever the random choices. If a clustering fails the program fails with its exception and keeps the partitions before it. The suite 'quick', although offered, has only two values of k: the program fails on it for every input.", "quantifier": "all predefined regions, the suites offered, previous files, distance matrices and random choices", "why_tests_cant": "It is a claim about the output and files for every distance matrix and every previous state of the disk; the merging of the seeds by the equality of the metadata shows only in the costs.", "anchors": ["experiments/clustering/find_elbows.py: analyze_suite", "spta/clustering/suite.py: FindSuiteElbow.calculate_elbows_kmedoids", "spta/clustering/suite.py: FindSuiteElbow.get_all_partitions", "spta/clustering/suite.py: FindSuiteElbow.get_all_intra_cluster_costs", "spta/clustering/kmedoids.py: KmedoidsClusteringMetadata.__str__", "spta/region/partition.py: intra_cluster_cost"]}
{"id": "C119", "title": "The named forecast errors and the errors of one forecast used everywhere", "statement": "The error names MASE, sMAPE and MSE select the formulas of those names (mean absolute error over mean absolute training step; mean of 200|f-o|/(f+o); mean squared difference); any other name is refused with ValueError. Using one forecast series over a region or a cluster gives, at each point of the region or cluster, the named error of that forecast against the point's own observation and training series, all three with the scaling of the point removed, and the overall error is the root of the mean square of the errors that are not NaN. A forecast that is NaN everywhere has overall error NaN. The table of overall errors holds that value for the forecast of each point.", "quantifier": "all finite series of equal positive length for the formulas; all regions, scaled or not, all partitions and clusters, all forecasts, all error names, any number of workers and any schedule for the table", "why_tests_cant": "a test compares a few numbers; the claim is about every series, every scaling, every cluster and every schedule of the worker processes", "anchors": ["spta/util/error.py:mase", "spta/util/error.py:smape", "spta/util/error.py:mse", "spta/model/error.py:get_error_func", "spta/model/error.py:MeasureForecastingError", "spta/model/error.py:ErrorAnalysis", "spta/model/error.py:overall_error_generic", "spta/model/error.py:OverallErrorForEachForecast"]}
{"id": "C120", "title": "Training data of the classifier for random points", "statement": "experiments/clustering/extraction_lstm.py draws the requested number of different points of the region at positions no medoid of the suite has (the medoids being taken with their dataset coordinates); the points depend on the seed, their number and the suite only, not on the criterion, the threshold or earlier files. It writes one line per point, up to the first point for which no medoid can be chosen, with the region, the clustering, number and coordinates of the chosen medoid and the series of the point; if every choice succeeds it also writes the histogram of the choices and the series of every medoid, and no other file changes. By distance without a threshold every point gets a closest medoid of the suite; with a threshold t the run succeeds exactly if there are at most t points per medoid, otherwise it stops with ValueError after t lines per medoid and writes no histogram and no medoid file. Without the region, the suite, its table, a valid seed or enough points nothing is written. The table written by the suite analysis can always be used. The file names tell criterion, suite, number and seed apart but not the threshold: a failing run with a threshold cuts the complete file of an earlier run short (refuted).", "quantifier": "every predefined region and its data, every suite and its table, every count, seed, threshold and criterion, every order of sets and every draw of numpy, whatever files exist", "why_tests_cant": "the points and the choices depend on the random generator, on the order of sets and on the whole table and the distance matrix; tests run a few seeds on one region", "anchors": ["experiments/clustering/extraction_lstm.py:analyze_suite", "spta/classifier/train_input.py:TrainDataWithRandomPoints.evaluate_score_of_random_points", "spta/classifier/train_input.py:MedoidSeriesFormatter.produce_csv", "spta/classifier/train_input.py:MedoidsChoiceMinDistance", "spta/classifier/train_input.py:MedoidsChoiceMinPredictionError", "spta/clustering/suite.py:ClusteringSuite.medoid_series_csv_filepath"]}
{"id": "C121", "title": "The program that computes the distance matrix of a region", "statement": "experiments/region/distance.py computes the distances between all points of a predefined region and stores them. Whatever happened to the cached dataset files before (requests, crashes, deletions, damaged cache files) and whichever regions the program is run for before and after, successfully or not, the file of the region then holds its own distances and the programs that read it find a matrix that fits the region: without --parallel (or with 0 workers) every entry is the measure of the two series in that order, with workers each pair is measured once, the later point in row order first, and the diagonal is 0, for every schedule of the pool. No other distance file changes. With --plots the two pictures show the distances to the first point and to the point in the middle. If the region is unknown, its data cannot be read, or the number of workers is no number or negative, no distance file changes. The pictures of a region and of its scaled version go to the same files (refuted).", "quantifier": "every distance measure, dataset, history of cache files, sequence of runs with any options, predefined region inside the dataset, number of workers and schedule of the worker pool", "why_tests_cant": "the file is read by other programs much later; histories of cache files, runs for other regions and worker schedules cannot be enumerated", "anchors": ["experiments/region/distance.py:calculate_distances_with_args", "experiments/region/distance.py:show_distances", "spta/distance/dtw.py:DistanceByDTW", "spta/distance/dtw_parallel.py:DistanceByDTWParallel"]}
{"id": "C122", "title": "Saving regions in numpy files and pickles", "statement": "Whatever is done with a region created from its metadata (subsets, clusters, scaling, descaling, new data, in any order) and whichever result is saved, the file of the region is written with the data of the whole region, or ValueError is raised and no file changes. A region that is not scaled can be saved, and loading it gives the same series; saving a cluster saves the whole region. Regions without metadata, in particular parts of a region, are neither saved nor pickled. Any created region can be pickled and read again with everything it had, and other pickles stay. Not so (refuted): no scaled region can be saved, although scaling is the default and the values for descaling should be saved with it; the pickle of a cluster, and that of some days of a scaled region, replace the pickle of the whole region; saving a region that has the name of the dataset replaces the dataset's cache, so that regions created later are wrong.", "quantifier": "every dataset, metadata, region created from it and sequence of operations on it, every state of the files", "why_tests_cant": "which metadata an object still has depends on the whole sequence of operations that made it, and a wrong file shows only when it is read later", "anchors": ["spta/region/temporal.py:SpatioTemporalRegion.save", "spta/region/temporal.py:SpatioTemporalRegion.pickle", "spta/region/scaling.py:SpatioTemporalScaled.save", "spta/region/base.py:BaseRegion.from_pickle", "spta/region/metadata.py:SpatioTemporalRegionMetadata"]}
{"id": "C123", "title": "The silhouette program analyses a region's own series with its own distances, after any history", "statement": "After any sequence of runs of the silhouette program (commands save, distances, kmedoids, show_distances, for any of the offered regions, in any order), mixed with requests for the dataset, crashes during them and deleted or damaged cache files, the command kmedoids for a region that was saved analyses the series of that region with the distances between those series, whether or not they were computed before; it reports the first of the runs with the best average silhouette and a graph file for every run, raises the error of the first run that fails, and changes no file. save writes exactly the region's data, distances exactly the region's distance matrix, show_distances draws the distances to the first and the middle point; before save, the other commands raise IOError; unknown regions, analyses and commands raise KeyError; nothing touches the files of other regions. Expected but false: the scaled regions that are offered can be analysed (saving always fails); two analyses in one process do not influence each other (default metadata share one distance measure, whose matrix is that of the first region).", "quantifier": "all raw datasets, all histories of program runs and cache events, all offered regions and commands, all distance measures, random choices, scores", "why_tests_cant": "the files are left by earlier runs for other regions and commands in any order and by crashes; tests run the commands in the documented order on one region", "anchors": ["experiments/clustering/silhouette.py:do_silhouette", "experiments/metadata/silhouette.py:silhouette_metadata_by_name", "spta/kmedoids/silhouette.py:KmedoidsWithSilhouette", "spta/kmedoids/silhouette.py:do_silhouette_analysis", "spta/kmedoids/silhouette.py:silhouette_default_metadata"]}
{"id": "C124", "title": "medoid_distances.py: the tables of a suite", "statement": "For a predefined region and suite, medoid_distances.py writes exactly one table for each clustering, in the directory of the clustering, with the distances between the medoids that the clustering computes; it saves no partition and no report, and no other table changes. When a clustering fails, the tables of the clusterings before it stay and nothing else has changed; an unknown region or suite, unreadable data or a distances file of another size ends the program before anything is written; without the distances file it always fails and writes no table. When no partition of the suite is saved for the region, its medoids are those that partition_analysis.py reports. Not so (refuted): when partitions are saved, the tables need not belong to the medoids that the other programs use, because this program never looks at saved partitions.", "quantifier": "every region, suite, random choice, distances file, state of the files and point of failure", "why_tests_cant": "the program's output depends on the files that other programs left, and on which clustering of the suite fails", "anchors": ["experiments/clustering/medoid_distances.py:do_medoid_distances", "experiments/clustering/medoid_distances.py:compute_and_save_medoid_distances", "spta/clustering/suite.py:get_suite"]}
{"id": "C125", "title": "error_between_medoids.py: the tables of an experiment", "statement": "For each clustering of the suite of an experiment, error_between_medoids.py writes exactly one table: the row of a medoid has the errors, at every medoid, of the forecast with the model of that medoid, trained on all but the last samples. Partitions are saved and reported, saved ones are used again, and no other file changes. When the partition of a clustering cannot be computed, the tables and partitions of the clusterings before it stay; when the model of a medoid cannot forecast, the table of its clustering has the rows of the medoids before it, and the partition stays saved. An unknown region or experiment, unreadable data or a distances file of another size ends the program before anything is written.", "quantifier": "every region, experiment, forecast length, error type, model fitting and search, random choice, state of the files and point of failure", "why_tests_cant": "a table of a failed run is incomplete in a way that depends on where it failed, and which partition is used depends on the history of the files", "anchors": ["experiments/auto_arima/error_between_medoids.py:do_auto_arima_errors", "experiments/auto_arima/error_between_medoids.py:do_auto_arima_errors_for_clustering", "spta/solver/train.py:SolverTrainer.prepare_for_training"]}
{"id": "C126", "title": "distance_errors.py: the tables of an experiment", "statement": "For each clustering of the suite of an experiment, distance_errors.py writes one table for each cluster, named after the cluster and the order of the model of its medoid: for each point of the cluster its position, its distance to the medoid and the error there of the medoid's forecast, sorted by distance. No two clusters or clusterings share a file, partitions are saved and reported, and no other file changes. When the partition of a clustering cannot be computed, the tables and partitions of the clusterings before it stay; an unknown region or experiment, unreadable data or a distances file of another size ends the program before anything is written.", "quantifier": "every region, experiment, forecast length, error type, model fitting and search, random choice, state of the files and point of failure", "why_tests_cant": "that no file of one cluster replaces that of another must hold for every suite and order, and every point of every cluster must be in the right file", "anchors": ["experiments/auto_arima/distance_errors.py:do_auto_arima_distance_errors", "experiments/auto_arima/distance_errors.py:distance_vs_errors_for_cluster", "spta/solver/train.py:SolverTrainer.prepare_for_training"]}
{"id": "C127", "title": "Error analysis of a region or cluster ends with one result on every schedule", "statement": "An error analysis (training on all but the last n samples, forecasting them, measuring all errors) of a region or of a cluster with a given centroid ends, for every kind of model, every non-negative number of parallel workers and every order in which they finish, and always with the same result: the root-mean-squared error when each member uses its own forecast, the least and greatest overall error of a member's forecast, and the overall errors of the forecasts of the member with the least own error and of the centroid. The trainer's count of failed models is the number of members without a model, and the least and greatest errors bound the error of the centroid's forecast.", "quantifier": "all regions (scaled or not), partitions, clusters, model kinds, error types, numbers of workers and schedules, members with and without models", "why_tests_cant": "The result must not depend on worker count or schedule, and the summary must be right for every assignment of models and errors to members.", "anchors": ["spta/model/forecast.py: ForecastAnalysis.analyze_errors", "spta/model/error.py: ErrorAnalysis", "spta/model/train.py: Trainer"]}
{"id": "C128", "title": "The ARIMA training-error program tabulates every cluster and order of a suite", "statement": "arima/training_error_analysis.py leaves, for each clustering of the experiment's suite, one table at a path that names region, clustering, suite of orders and error type, with one row for each cluster and each order (clusters first): index and size of the cluster, the order, the number of members without a model, the times, and the five errors of the analysis of that cluster with its medoid as centroid. Partitions are saved and reported, saved ones are reused, and nothing else changes. When a partition fails, the tables of the clusterings before it stay; when an analysis fails, the rows of the analyses before it also stay; when the region, experiment, data or distances file cannot be used, nothing is written. The experiment arima_whole_brazil names a suite that does not exist and ends that way.", "quantifier": "all prepared regions, both runnable experiments, saved or computed partitions, workers, schedules, failing and non-failing analyses, prior contents of the directories", "why_tests_cant": "The contents depend on all partitions of a suite, all schedules and all prior file states; a test can only sample them.", "anchors": ["experiments/arima/training_error_analysis.py: do_arima_error_analysis", "experiments/arima/training_error_analysis.py: do_arima_error_analysis_for_clustering"]}
{"id": "C129", "title": "The auto-ARIMA training-error program tabulates every cluster of a suite", "statement": "auto_arima/training_error_analysis.py leaves, for each clustering of the experiment's suite, one table with one row for each cluster: index and size, the order and AIC of the model that the search finds at the medoid ((-1,-1,-1) and NaN without a model), the number of members without a model, the times and the five errors. Partitions are saved and reported, saved ones are reused, and nothing else changes. When a partition fails, the tables before it stay; when the analysis of a cluster fails, the rows of the clusters before it stay; when the program cannot start, nothing is written.", "quantifier": "all prepared regions, all five experiments, saved or computed partitions, workers, schedules, failing and non-failing analyses, prior contents of the directories", "why_tests_cant": "The contents depend on all partitions of a suite, all schedules and all prior file states; a test can only sample them.", "anchors": ["experiments/auto_arima/training_error_analysis.py: do_auto_arima_error_analysis", "experiments/auto_arima/training_error_analysis.py: analyze_auto_arima_for_cluster"]}
{"id": "C130", "title": "The directories stay consistent under any sequence of program runs", "statement": "The programs that cluster regions, train solvers and write tables share the directories of saved partitions and results. After any sequence of runs, with any options, in which each run may complete or fail: a partition once saved never changes, so all later runs use it whatever they draw at random; every saved partition is a good one for its region and clustering (one medoid in each cluster; with k-medoids every point is with its nearest medoid; otherwise the parts are the regular ones and each medoid has the least sum of distances in its part); every report is the report of the partition that is saved; the table of a suite has rows for a first part of the suite, each with the medoids and the cost of the partition that is saved; the analysis of a suite completes when its clusterings are possible. A run, even a failing one, changes only the partitions, reports, tables and solver files that it is about.", "quantifier": "all finite sequences of runs of eight programs with any arguments, random choices that differ from run to run, all predefined regions, failing and completed runs, any place in the history", "why_tests_cant": "The invariants relate files written by different programs at different times; they must hold after every interleaving of runs and failures, of which there are unboundedly many.", "anchors": ["experiments/clustering/partition_analysis.py: analyze_suite", "experiments/clustering/medoid_distances.py: do_medoid_distances", "experiments/auto_arima/error_between_medoids.py: do_auto_arima_errors", "experiments/auto_arima/distance_errors.py: do_auto_arima_distance_errors", "experiments/arima/training_error_analysis.py: do_arima_error_analysis", "experiments/auto_arima/training_error_analysis.py: do_auto_arima_error_analysis", "experiments/auto_arima/solver.py: train_request", "experiments/auto_arima/solver.py: predict_request", "spta/clustering/__init__.py: ClusteringAlgorithm.partition", "spta/solver/train.py: SolverTrainer.train"]}
{"id": "C131", "title": "The k-medoids of the iris script ends and finds consistent clusters", "statement": "The function ends for every data set without NaN, every distance, starting medoids and limit of steps, after at most k*n+1 passes; a limit of steps is never exceeded. Run on the script's data set without limit it returns as many medoids as it started with, all rows of the data; every row has the label of its (first) nearest medoid; no row of a cluster has a smaller sum of distances from all the data than the medoid of the cluster; no medoid has a greater sum than the one it started from; the order in which a Python set is traversed makes no difference. It does not, however, return the most central row of each cluster, nor rows of the data it is given when that is not the script's own data set, nor labels that belong to the returned medoids when the limit of steps ends it, and a NaN medoid keeps it from ending.", "quantifier": "all data sets of any size and type of rows, all distances (zero between equal rows, positive otherwise), all k, starting medoids, limits of steps and traversal orders of sets", "why_tests_cant": "Termination and the relation between labels and medoids at the end of a loop need an argument over all passes; a test sees one data set and one traversal order.", "anchors": ["spta/kmedoids/iris_kmedoid.py: kmedoids", "spta/kmedoids/iris_kmedoid.py: init_medoids", "spta/kmedoids/iris_kmedoid.py: compute_d_p", "spta/kmedoids/iris_kmedoid.py: assign_labels", "spta/kmedoids/iris_kmedoid.py: update_medoids", "spta/kmedoids/iris_kmedoid.py: has_converged"]}
{"id": "C132", "title": "Counting matching labels", "statement": "Counting matches fails unless both lists of labels are equally long and have no labels but 0, 1 and 2. The exact count is the number of places in which they agree. The inexact count is the greater of the numbers of agreements and disagreements; with the two labels 0 and 1 this is the best agreement under either naming of the labels. With three labels it can exceed the agreement under every renaming, and the number that the script prints is not that of the matches of its clusters with the species.", "quantifier": "all pairs of lists of integers, exact and inexact; all renamings of labels", "why_tests_cant": "The claim about renamings ranges over all lists of labels and all renamings.", "anchors": ["spta/kmedoids/iris_kmedoid.py: mark_matches", "spta/kmedoids/iris_kmedoid.py: count_matches"]}
{"id": "C133", "title": "The command lines of the programs", "statement": "For each of the 21 command lines (programs and subcommands) of experiments/: a line of positional arguments and options, the options anywhere and in any order, is accepted when the positional arguments are as many as declared, every value has its type or is one of the choices and the required options occur; each argument then has the value the line gives it, the last one for a repeated option, and the other options their defaults. Whatever line is accepted, every attribute has a value of its type or of its choices, the region exists, and no mistyped long option was passed over. --option value and --option=value are equivalent anywhere; so are an option and an abbreviation that only it has. A solver program accepts a line exactly when it begins with train or predict and the rest suits that subcommand, and then region and clustering are found; the options of a training followed by four coordinates are a prediction with the same values, so it looks for the solver that the training saved. Where --log has choices the log starts at one of three levels. Not checked: --log of the other programs, --random without --variance (the check never fires), --parallel, the suite of the other clustering, k.", "quantifier": "all argument lists, all parsers with sensible option names (and each of the 21 parsers of the programs), all positions of an option, all words for coordinates", "why_tests_cant": "A test parses a few lines; that no order, repetition, abbreviation or unusual word is misread or passed over is about all argument lists.", "anchors": ["experiments/auto_arima/solver.py processRequest, configure_parent, configure_train_parser, configure_predict_parser", "experiments/baseline/solver_mean_past.py processRequest", "experiments/baseline/solver_knn_medoids.py processRequest", "experiments/clustering/partition_analysis.py processRequest", "experiments/clustering/extraction_lstm.py processRequest", "experiments/region/distance.py processRequest", "spta/util/log.py setup_log, setup_log_argparse"]}
{"id": "C134", "title": "The picture of distances and forecast errors", "statement": "After the error analysis of a cluster (whatever came of it), the picture of the training-error programs has exactly one point for each point of the cluster, in the order of the grid: to the right its distance to the medoid in the distance matrix, upwards the error there of the forecast of the medoid's model. It is saved under the given name when the model of the medoid has an order; when it has none (no model could be fitted there) the points are drawn, nothing is saved and the exception ends the program. Drawing changes neither the distances nor the analysis. Another forecast length than that of the analysis, or no analysis, is refused before anything is drawn. Within a clustering and a suite no picture replaces another: other clusters and other orders have other file names.", "quantifier": "all regions (scaled or not), partitions, clusters, medoids, kinds of model, models and forecasts, numbers of workers, schedules of the analysis, distance matrices, cluster indices and orders", "why_tests_cant": "A test compares one picture; that the two lists are aligned for every cluster shape, and that no two names agree, is about all partitions and orders.", "anchors": ["spta/model/forecast.py ForecastAnalysis.plot_distances_vs_errors", "experiments/arima/training_error_analysis.py plot_name_distances_vs_errors", "experiments/auto_arima/training_error_analysis.py plot_name_distances_vs_errors"]}
{"id": "C135", "title": "The program that prints the forecast errors of a region", "statement": "When the region, its centroid, the number of workers and the suite of orders can be obtained, and every order's models can be trained and forecast, the program prints one line for each order of the suite, in the order of the suite, with the error when each point has its own model and the overall errors of the models of the point with the least error and of the centroid, all of that order only; every run ends and prints the same, whatever the workers do. All or nothing: a run that fails prints nothing, also when the errors of earlier orders had been found. The exception is that of the region, of the centroid, of the number of workers or of the suite, else that of the first order whose analysis fails.", "quantifier": "all regions and datasets, suites, orders, models, forecasts, options for the number of workers, schedules, and failures at any order", "why_tests_cant": "A test runs one suite once; independence of the orders, of the schedule, and what remains after a failure at any order are about all runs.", "anchors": ["experiments/arima/forecast.py do_arima_forecast", "spta/model/forecast.py ForecastAnalysis.analyze_errors", "experiments/metadata/arima.py arima_suite_by_name", "experiments/metadata/centroid.py centroid_by_region_and_distance"]}
{"id": "C136", "title": "The training-error program with pictures", "statement": "With --plots, when the model of every medoid has an order, the program writes the same tables and partitions as without it, and for every cluster and every order of the experiment it saves exactly one complete picture under a name of its own: for each point of the cluster its distance to the medoid and the error there of the forecast of the medoid's model. The first medoid whose model has no order ends the program: its row is in the table, the rows after it are not, the pictures before it are complete, the points of its own picture are drawn but not saved, and the tables and partitions of the clusterings before it stay. That --plots only adds pictures is false: without it the table with failed models is complete.", "quantifier": "all suites of clusterings, partitions (saved or computed), medoids, orders, regions, error types, forecasts, libraries of models, numbers of workers, schedules and times, and all positions at which the program stops", "why_tests_cant": "Where the program stops depends on the position of the first medoid without a model among all clusterings, clusters and orders; a test fixes one position.", "anchors": ["experiments/arima/training_error_analysis.py do_arima_error_analysis", "experiments/arima/training_error_analysis.py do_arima_error_analysis_for_clustering", "spta/model/forecast.py ForecastAnalysis.plot_distances_vs_errors"]}
{"id": "C137", "title": "Options of the suite analysis: silhouettes and variance histograms", "statement": "With --silhouette and --variance the program that analyses a clustering suite writes the same table, partitions and reports as without them. It also saves one silhouette picture per clustering (a map of the clusters and, for each label, the sorted silhouette values of its points, with a line at the average) and then one picture of histograms per clustering (for each cluster the distances of its points to its medoid and, with --random n, of that many points outside it), in the order of the suite and under the documented names. When a silhouette cannot be computed, or the distances file is missing, the old table is untouched and the earlier pictures stay. When histograms cannot be made (a cluster with one point, unknown bins, a number of random points that is not an integer) the table has exactly the rows of the clusterings before, and the partition and report of that clustering are already written. The best clustering of the silhouette analysis is the first with the greatest average. That --bins takes a number of bins is false: a number always stops the program.", "quantifier": "all regions, suites, partitions (saved or computed), distances, option values, silhouette scores and samples, orders of sets, random draws, and all positions in the suite at which the program stops", "why_tests_cant": "What is left behind depends on the option values and on the position of the first clustering that fails; a test fixes one suite and one failure.", "anchors": ["experiments/clustering/partition_analysis.py analyze_suite", "experiments/clustering/partition_analysis.py analyze_partition", "spta/clustering/silhouette.py SilhouetteAnalysis", "spta/distance/variance.py ClusterHistograms"]}
{"id": "C138", "title": "The DBSCAN clustering of a region: what its clusters hold, where it fails and what it leaves on disk", "statement": "With the matrix of the distance measure at hand, the DBSCAN clustering gives a partition in which cluster 0 holds exactly the noise points and each further cluster is one group of density-connected points (radius 0.7, five points), with border points in the group of a core point near them, and no further cluster empty; asking for medoids changes nothing. The printed number of noise points is the size of cluster 0; the printed number of clusters is the partition's only when there is noise, otherwise the partition has one more, empty cluster. When the algorithm is imported by another module it can only return a saved partition: otherwise it ends in NameError. Clustering a spatial region always fails. A partition made with a pickle directory is what every later call returns. With metadata made without k, the report is its header alone. The name of the metadata gives it back, and a suite of DBSCAN clusterings cannot be made. The program of the module makes the partition when the 6400-by-6400 matrix file is there and stops with ValueError when it is missing or has another shape.", "quantifier": "every region, matrix, labelling that DBSCAN can give, metadata, state of the files, and every use as module or program", "why_tests_cant": "Tests run one data set; whether noise is present, whether the file is run or imported and which files exist are conditions no fixed example covers.", "anchors": ["spta/clustering/dbscan.py:DbscanClusteringAlgorithm.partition_impl", "spta/clustering/dbscan.py:DbscanClusteringMetadata.from_repr", "spta/clustering/dbscan.py:dbscan_metadata_generator", "spta/clustering/__init__.py:ClusteringAlgorithm.partition", "spta/clustering/__init__.py:ClusteringAlgorithm.save_to_csv"]}
{"id": "C139", "title": "With --plots the search program draws one picture per cluster, and stops at a medoid without a model", "statement": "auto_arima/training_error_analysis.py with --plots writes the same tables and saves the same partitions as without it when the search finds a model at each medoid, and saves for each cluster one complete picture whose points are the distances to the medoid and the errors of the medoid's forecast, with the order that was found in the picture and in the name of its file. A medoid without a model ends the program with an AttributeError after its row is written and before its picture is saved, so that the remaining rows and tables are missing (without --plots they are written). When an analysis fails, the rows and pictures before it stay.", "quantifier": "all regions and data of at least eight samples, experiments with a search of models, saved or computed partitions, libraries, numbers of workers and schedules, error types, previous files, and all positions of a failure", "why_tests_cant": "the outcome depends on which medoid has no model, on the position in the suite and on all data; tests replace the libraries and look at one picture", "anchors": ["experiments/auto_arima/training_error_analysis.py:do_auto_arima_error_analysis", "experiments/auto_arima/training_error_analysis.py:analyze_auto_arima_for_cluster", "experiments/auto_arima/training_error_analysis.py:plot_name_distances_vs_errors", "spta/model/forecast.py:ForecastAnalysis.plot_distances_vs_errors"]}
{"id": "C140", "title": "The k-medoids examples cluster series that come from their functions in turn", "statement": "alternating_functions_1d makes the requested number of series; series i is a noisy, delayed copy of function i modulo the number of functions. alternating_functions_2d makes a region in which the series at (i, j) comes from function i*j modulo the number of functions, with a mask that holds that number; contrary to its documentation the functions do not get about the same number of points (with two functions the second gets the points with two odd coordinates). Without functions both raise ZeroDivisionError, for series shorter than seven ValueError. The example program puts every series in the cluster of a nearest medoid and draws it in the colour of its cluster; the medoids are different series; it can fail only in the report, when a cluster has no series, which cannot happen if different series have positive distance.", "quantifier": "every number of series, region shape, series length, list of functions, random draws, distance measure without missing values and choice of starting medoids", "why_tests_cant": "a test sees one seed and the three functions of the example; the shares of the functions and the clusters depend on every draw", "anchors": ["spta/kmedoids/example1d.py:alternating_functions_1d", "spta/kmedoids/example1d.py:main", "spta/kmedoids/example2d.py:alternating_functions_2d", "spta/dataset/synthetic_temporal.py:delayed_function_with_noise", "spta/util/plot.py:plot_series_group_by_color"]}
{"id": "C141", "title": "The two-dimensional k-medoids example draws the best clustering it found", "statement": "The second k-medoids example program makes a region whose point (i, j) has a noisy copy of function i*j modulo the number of functions, and a picture of these numbers whose colours are equal exactly for equal numbers. It clusters the series once for every seed and every number of clusters; each clustering has that many different medoids, uses every label, and puts every series with a nearest medoid. It writes one picture per run, named by the number of clusters and the seed, and ends by drawing every series in the colour of its label in the first clustering with the highest silhouette average. If no average is above -1 it stops with a TypeError instead of drawing. Without functions, without points or with series shorter than seven it stops before clustering.", "quantifier": "all region sizes, series lengths, function lists, lists of seeds and of numbers of clusters from two to seven, all random delays and noise, all distances that tell different series apart, all silhouette values and all admissible random starts", "why_tests_cant": "The program draws and shows pictures from random series; a test can only look at one drawing and cannot range over the random starts, the distances and the ties between averages.", "anchors": ["spta/kmedoids/example2d.py: main, alternating_functions_2d", "spta/kmedoids/silhouette.py: do_silhouette_analysis, silhouette_default_metadata", "spta/util/plot.py: plot_discrete_spatial_region, plot_series_group_by_color"]}
{"id": "C142", "title": "A suite table whose writing was interrupted never gives a wrong medoid, but the interruption is not noticed", "statement": "Let the CSV of a clustering suite be cut at any character (the program was killed while writing it). Reading it ends with StopIteration (only when nothing was written), with IndexError (the cut lies in the representation or the cost of a row), or with a dictionary that holds exactly the medoids of every row whose line is complete and, for at most one more row, the first few of its medoids in order: never a medoid that was not written. Reading does not detect the interruption: cutting any table inside the medoid column of its last row is read without an exception and gives that clustering fewer medoids than it has, possibly none.", "quantifier": "all tables of rows with distinct representations free of line breaks, any costs and medoids, and every position at which the file is cut", "why_tests_cant": "Every crash point of every table is a different file; tests write whole files.", "anchors": ["spta/clustering/suite.py: ClusteringSuite.retrieve_suite_result_csv", "experiments/clustering/partition_analysis.py: processRequest"]}
{"id": "C143", "title": "Analyses of one suite that run at the same time leave a table that reads as if one had run, if creating the file is atomic", "statement": "Let any number of runs of the clustering analysis of one suite write the same table at the same time, their writes (creating the table with its header, appending one row) coming in any order. When all have ended, the table consists of its header and rows of the suite, and reading it gives every clustering the medoids that a single run leaves. The order of the clusterings can differ from that of the suite. If emptying the file and writing the header are two steps, a run can write its header over part of another run's row, and the table then holds a line that is neither the header nor a row.", "quantifier": "all suites with distinct clusterings, any number of concurrent runs, every interleaving of their writes, any previous content of the file", "why_tests_cant": "It ranges over all schedules of all numbers of concurrent runs.", "anchors": ["experiments/clustering/partition_analysis.py: processRequest", "spta/clustering/suite.py: ClusteringSuite.retrieve_suite_result_csv"]}
{"id": "C144", "title": "Saving over a saved solver is not atomic: readers get the old or the new content of each file, or an error", "statement": "Let a solver be saved where one is saved already, and let another process load it at the same time, or let the saving process be killed at any moment and the solver be loaded afterwards. Loading fails with UnpicklingError exactly when it comes upon a file that is being written; otherwise it gives, for the training models, the whole models and the errors, each the old or the new content, according to when that file was read. If the two solvers are equal, loading gives that solver or fails. It is not the case that loading gives the old solver or the new one: after a crash between the first and the second file it gives the new training models with the old errors.", "quantifier": "all stored and new solvers of a key, every crash point among the steps of the save, and every moment at which a concurrent reader reads each of its files", "why_tests_cant": "It ranges over all crash points and all schedules of a reader and a writer.", "anchors": ["spta/solver/model.py: SolverPickler.save_solver", "spta/solver/model.py: SolverPickler.load_solver"]}
{"id": "C145", "title": "Concurrent processes that want the same partition all get it", "statement": "Any number of processes ask for the same partition of the same region with pickling at the same time. If the file of that partition is missing or unreadable and the algorithm gives the partition q, then under every schedule of their steps, and whichever of them are killed on the way, every call that returns gives q, the file never holds any other partition, no other file changes, and when all calls have returned the file holds q. If a partition is saved already, every call gives it and nothing is written. No process waits for another. A process that has returned need not find the partition saved: another one may have emptied the file and been killed.", "quantifier": "all numbers of processes, all schedules of their steps including those in which some stop for ever, all earlier file contents, algorithms, metadata and regions", "why_tests_cant": "It ranges over all interleavings and crash points of any number of processes.", "anchors": ["spta/clustering/__init__.py: ClusteringAlgorithm.partition", "spta/clustering/__init__.py: ClusteringAlgorithm.save_partition", "spta/clustering/__init__.py: ClusteringAlgorithm.try_load_previous_partition", "spta/region/partition.py: PartitionRegion.to_pickle"]}
{"id": "C146", "title": "The RMSE distance obeys the triangle inequality and its combination is the RMSE of all samples", "statement": "For series of numbers of one length, the RMSE distance from one series to another is at most the sum of the distances over any third series. The combination of the RMSE distances of any number of pairs of series of one length is the RMSE of all their samples together, where missing distances are left out. Both hold for exact square roots, and up to the rounding of the square root otherwise. The second does not hold for pairs of different lengths: a short series then counts as much as a long one.", "quantifier": "all series of numbers of one length, all numbers of pairs, all square root functions with a bounded relative error", "why_tests_cant": "It ranges over all series; an inequality and an identity over the reals cannot be settled by samples.", "anchors": ["spta/distance/rmse.py: DistanceByRMSE.combine", "spta/distance/rmse.py: DistanceByRMSE.measure", "spta/util/arrays.py: root_mean_squared"]}
{"id": "C147", "title": "The distances from a point to all points of a grid", "statement": "For a grid of any size and any point (i, j), inside or outside, distances_to_point_in_2d_region gives one entry per grid point in row order, and the entry of (x, y) is the square root of (x-i)^2 + (y-j)^2, which is the root of zero exactly for the point itself.", "quantifier": "all grid sizes and points", "why_tests_cant": "It ranges over all sizes and points.", "anchors": ["spta/util/arrays.py: distances_to_point_in_2d_region", "spta/util/arrays.py: list_of_2d_points"]}
{"id": "C148", "title": "In floating point a scaled series stays between 0 and 1, keeps its order and reaches both ends", "statement": "With any rounding that keeps the order of numbers and the numbers 0 and 1, and that does not round the difference of two different samples to zero, every sample of a scaled series is missing or between 0 and 1. If the range of the series is not too large for a float, samples are missing exactly where they were, the order of samples is kept (different samples may become equal), the least becomes 0 and the greatest 1. If the range is too large, the greatest sample becomes NaN although no sample was missing.", "quantifier": "all series without infinite samples and all roundings with these properties", "why_tests_cant": "It ranges over all series and all floating-point formats and rounding modes.", "anchors": ["spta/region/scaling.py: ScaleFunction.function_at", "spta/region/scaling.py: ScaleFunction.apply_to"]}
{"id": "C149", "title": "In floating point scaling and descaling gives the series back up to a stated rounding error", "statement": "With rounding of relative error u (and absolute error e near zero) that keeps the order of numbers, scaling a series and descaling it gives the least sample, and every sample of a constant series, back exactly, and each other sample x up to u|x| + e + (1+u) (((1+u)^3 - 1) (x - min) + ((1+u)^2 + (1+u) d + 1) e), where d is the rounded range of the series, whenever the range and the result are not too large for a float. Samples other than the least need not come back exactly.", "quantifier": "all series, all roundings with these properties, all u and e", "why_tests_cant": "It ranges over all series and floating-point formats; the error bound is an inequality over all of them.", "anchors": ["spta/region/scaling.py: ScaleFunction.function_at", "spta/region/scaling.py: DescaleRegion", "spta/region/scaling.py: SpatioTemporalScaled.descale"]}
{"id": "C150", "title": "In floating point a larger error never makes the overall error smaller", "statement": "With any rounding that keeps the order of numbers, any monotone square root and any order of summation, if every point error is at least as large in magnitude as before and missing where it was, then the overall error is at least as large as before, also when sums overflow. The overall error can depend on the order in which the errors are summed.", "quantifier": "all lists of errors (also infinite and missing ones), roundings, square roots and orders of summation", "why_tests_cant": "It ranges over all lists, roundings and summation orders.", "anchors": ["spta/util/arrays.py: root_mean_squared", "spta/util/arrays.py: mean_squared", "spta/model/error.py: ErrorRegion.overall_error"]}
{"id": "C151", "title": "Scaling, descaling and the overall error in IEEE double precision", "statement": "In double precision (53 binary digits, round to nearest even, gradual underflow, overflow to infinity), scaling a series of doubles gives samples that are missing or between 0 and 1; if its range does not overflow, the order is kept and the least and greatest samples become exactly 0 and 1. Descaling gives the least sample back exactly and any other finite sample x up to 2^-53 |x| + 2^-51 (x - min) + 2^-1074 (2 + d), d the rounded range. The overall error does not shrink when errors grow. Four things that hold without rounding fail for particular doubles: different samples stay different (-1, 2^-60, 2^-59), no sample becomes missing (-2^1023, 0, 2^1023), every sample comes back exactly (1 in 0, 1, 49), and the order of the points does not matter for the overall error.", "quantifier": "all series of doubles and missing samples, all lists of errors, all orders of summation", "why_tests_cant": "It ranges over all series of doubles; there are 2^64 values for each sample.", "anchors": ["spta/region/scaling.py: ScaleFunction.function_at", "spta/region/scaling.py: SpatioTemporalScaled.descale", "spta/util/arrays.py: root_mean_squared"]}
{"id": "C152", "title": "The k-medoids search stops by itself, at medoids no single change improves", "statement": "Each pass of the k-medoids search but the last lowers the sum of the distances from the points to their medoids by more than the tolerance, so the number of passes is bounded by the sum for the starting medoids divided by the tolerance. If that sum is below (max_iter + 1) * tol, the limit max_iter plays no part, and changing any one medoid of the result into another point of the region (mode robust), or into another point of its own cluster (mode lite), cannot lower the sum by more than the tolerance. In mode lite a point of another cluster can still do so.", "quantifier": "all regions, non-negative finite distance matrices or measures, numbers of clusters, starting medoids, modes, limits and positive tolerances; every replaced medoid, every new point and every way of assigning points to medoids", "why_tests_cant": "Tests run the search on a few regions and compare labels; whether every possible single change of the result was considered, for every region and in both modes, needs a proof.", "anchors": ["spta/kmedoids/kmedoids.py: run_kmedoids", "spta/clustering/kmedoids.py: KmedoidsClusteringAlgorithm.partition_impl, KmedoidsClusteringMetadata"]}
{"id": "C153", "title": "The k-medoids search in floating point", "statement": "However the sums of distances are formed and rounded and however the difference of two totals is rounded (as long as rounding keeps order and zero), the search ends within its limit, returns k different valid samples, the nearest medoid of every sample and the costs of exactly these clusters, and either returns the starting medoids or a computed total strictly below theirs, with a computed difference above the tolerance; if it stopped before the limit, no candidate change has a computed gain above the tolerance. The exact cost, however, can grow.", "quantifier": "every data set, distance, number of clusters, start, mode, limit, tolerance, rounding and way to form sums", "why_tests_cant": "rounding errors depend on the data; a test sees one order of additions on a few numbers", "anchors": ["spta/kmedoids/kmedoids.py:run_kmedoids", "spta/kmedoids/kmedoids.py:_get_cost"]}
{"id": "C154", "title": "How far the computed cost of a clustering is from its exact cost", "statement": "The total cost computed in floating point is infinite (overflow) or within (1-u)^2h and (1+u)^2h times the exact sum of the least distances, up to an underflow term per sample and cluster, for every order of additions of depth h; so the exact cost of the medoids the search returns exceeds the exact cost of the starting ones by no more than these errors, in particular in IEEE double precision.", "quantifier": "every data set with finite non-negative distances, every medoids, every order of additions and every accurate rounding", "why_tests_cant": "the bound is about all inputs and all summation orders; a test compares one float with another", "anchors": ["spta/kmedoids/kmedoids.py:_get_cost", "spta/kmedoids/kmedoids.py:run_kmedoids"]}
{"id": "C155", "title": "The centroid in floating point", "statement": "Whatever the order of the additions and their rounding, the centroid of a region or cluster is the first of its points with the least computed sum of distances, returned with its own distances. Its exact sum exceeds the exact sum of any other point whose computed sum is finite by no more than the rounding errors of two sums, and there is no centroid only if every computed sum overflows.", "quantifier": "every rounding of the additions with a bounded error, every order of additions, every matrix (of finite, non-negative distances for the error bound), region and cluster", "why_tests_cant": "a test checks one matrix on one machine; the order in which numpy adds depends on the length and the version", "anchors": ["region/centroid.py: find_centroid_and_distances"]}
{"id": "C156", "title": "Computed memberships of fuzzy k-medoids add up to one within the rounding errors", "statement": "When every operation of the membership computation is rounded, memberships are not negative and at most 1, the computed sum of each sample's memberships is within an explicit rounding bound of 1, a medoid has membership 1 in its own cluster and 0 in the others, and the built-in check of the sums passes for every tolerance above that bound. In double precision the default tolerance 0.001 always suffices for up to 2^40 additions. The computed sums need not be exactly 1: with a tolerance of zero the call can fail.", "quantifier": "every data set, list of distinct valid medoids, distance, fuzzifier, rounding rule and order of numpy's additions, as long as powers of inverse distances neither overflow nor become subnormal", "why_tests_cant": "Rounding depends on every digit of every distance and on the order numpy adds in; tests see a few inputs on one machine, not every input and order.", "anchors": ["spta/kmedoids/kmedoids_fuzzy.py:compute_membership_fcm"]}
{"id": "C157", "title": "The fuzzy k-medoids search behaves the same way in floating point", "statement": "With every operation rounded, and as long as the computed memberships of any k different medoids add up to 1 within the tolerance, the fuzzy search ends within its iteration limit. It returns iff exchanging one of the starting medoids lowers the computed total by a computed difference above the tolerance, and fails with UnboundLocalError otherwise. The result holds k different samples as medoids with their computed memberships, costs and total; the total is below the one of the starting medoids; and if the search stopped before the limit no single exchange lowers the computed total by more than the tolerance. In double precision with the default tolerance the check of the sums never fails.", "quantifier": "every data set, distance, fuzzifier, starting medoids, iteration limit, tolerance, monotone rounding rule and order of numpy's additions", "why_tests_cant": "The path of the search depends on the rounding of every sum and difference; a test fixes one input and one machine.", "anchors": ["spta/kmedoids/kmedoids_fuzzy.py:run_kmedoids_fuzzy", "spta/kmedoids/kmedoids_fuzzy.py:compute_membership_fcm"]}
{"id": "C158", "title": "Fuzzy masks in floating point", "statement": "With the difference of memberships rounded: a point with finite memberships is in the mask of a cluster iff no membership exceeds that of the cluster by a computed difference above the threshold; no member of exact arithmetic is lost when the threshold is a float, and with threshold 0 and gradual underflow the members are exactly those of exact arithmetic. Every point with finite memberships is in the mask of a cluster where its membership is largest. A larger threshold keeps all members, threshold 1 includes all points in all clusters, and below 1 a medoid is in its own cluster only. Iteration and the length agree with membership. A rounded difference can add a point that exact arithmetic excludes.", "quantifier": "every table of memberships, cluster, threshold, point and monotone rounding rule", "why_tests_cant": "Whether a difference rounds to the threshold depends on the digits of the memberships; no finite set of masks covers that.", "anchors": ["spta/region/mask.py:MaskRegionFuzzy", "spta/kmedoids/kmedoids_fuzzy.py:show_report"]}
{"id": "C159", "title": "From fuzzy search to masks in double precision", "statement": "When the powers of inverse distances are doubles of at least 2^-1022 (infinite for a sample and itself) with sums that do not overflow: after a double-precision fuzzy search with the default tolerance returns, over a region of x by y points, a mask can be built from its memberships for every cluster and every threshold between 0 and 1. Every point of the region is in the mask of at least one cluster, and for a threshold below 1 the point of a medoid is in the mask of its own cluster and of no other.", "quantifier": "every region, distance, number of clusters, fuzzifier, starting medoids, summation order and threshold", "why_tests_cant": "The memberships are rounded results of a search whose path depends on rounded costs; no finite set of runs shows that no point is left without a mask.", "anchors": ["spta/kmedoids/kmedoids_fuzzy.py:run_kmedoids_fuzzy", "spta/region/mask.py:MaskRegionFuzzy"]}
{"id": "C160", "title": "The k-medoids algorithm on a region in floating point", "statement": "However the sums of distances and the difference of two totals are rounded, clustering a region by k-medoids gives a valid partition with k different medoids in the region, each point being in the cluster of the first of its nearest medoids, and the same partition with or without asking for medoids. It fails only when a report is asked for and a cluster is left without points, and never when different points have positive distance: then there are exactly k clusters and every medoid lies in its own. In double precision, when the computed cost of the starting points does not overflow (as when their exact cost with these errors is at most 2^1023), the exact sum of distances to the medoids exceeds that to the starting points by no more than the stated rounding errors of the sums.", "quantifier": "every region, distance measure without missing values, number of clusters, starting points, rounding rule and way of summing", "why_tests_cant": "Rounding decides which medoids the search visits; that the partition fits the medoids on every such path cannot be settled by runs.", "anchors": ["spta/clustering/kmedoids.py:KmedoidsClusteringAlgorithm.partition_impl", "spta/kmedoids/kmedoids.py:run_kmedoids"]}
{"id": "C161", "title": "How far the overall error in floating point is from the exact one", "statement": "For point errors that are finite or missing, not all missing, the mean of the squared errors computed in floating point is infinite (overflow) or within (1-u)^(h+2) and (1+u)^(h+2) times the exact mean over the errors that are not missing, up to a stated underflow term, for every order of additions of depth h. In double precision, with a square root of relative error 2^-53, the square of the overall error is within (1-u)^(h+4) and (1+u)^(h+4) times the exact mean, up to an underflow term. There is no overflow when the exact sum of the squares, with the errors of squaring and adding, is at most 2^1023.", "quantifier": "every list of finite or missing errors, order of additions, rounding rule of given accuracy and square root", "why_tests_cant": "Rounding errors of squares, sums, the quotient and the root add up differently for every list; tests compare a few lists with loose tolerances.", "anchors": ["spta/util/arrays.py: root_mean_squared", "spta/util/arrays.py: mean_squared", "spta/model/error.py: ErrorRegion.overall_error"]}
{"id": "C162", "title": "The forecast error sMAPE keeps its bounds in floating point", "statement": "For forecast and observed series of positive doubles of the same length, not empty and of at most 2^45 samples, the sMAPE computed in double precision is a number between 0 and 200, in whichever order the terms are added, even if sums overflow; it is 0 when the forecast equals the observation. The same holds for any monotone rounding that keeps 0, 1, the samples, their opposites and the multiples of 200 up to 200 times the length. The upper bound does not hold for samples of both signs.", "quantifier": "every pair of series of positive doubles of equal length up to 2^45, every order of summation, every such rounding", "why_tests_cant": "Rounding, overflow and the order of summation depend on the values and the machine; tests see a few series on one machine.", "anchors": ["spta/util/error.py: smape"]}
