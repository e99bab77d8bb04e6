{"id": "C01", "title": "Slice keys of an example are exactly the matching combinations", "statement": "For one slicing spec and one example, the slice keys produced are: none, if some fixed feature value of the spec is not among the example's values or some sliced column is absent; otherwise exactly the keys that pair every sliced column with one of the example's values for it and carry every fixed feature value, each key once, listed in ascending (name, value) order.", "quantifier": "every slicing spec, every example (any multi-valued features), any default-feature fallback", "why_tests_cant": "the number of specs, columns and multi-valued features is unbounded; tests enumerate a handful of dictionaries", "anchors": ["tensorflow_model_analysis/slicer/slicer_lib.py:SingleSliceSpec.generate_slices", "tensorflow_model_analysis/slicer/slice_accessor.py:SliceAccessor.get"]}
{"id": "C02", "title": "A generated slice key is always recognised by the spec that generated it", "statement": "Whenever a slicing spec generates a slice key for some example, asking whether that spec applies to that key answers yes; so metrics thresholds and saved-result filters that name the spec see every slice it created. Conversely a key the spec accepts has exactly the spec's columns and fixed values.", "quantifier": "every slicing spec and every example", "why_tests_cant": "needs agreement of two independently written algorithms over all specs and keys", "anchors": ["tensorflow_model_analysis/slicer/slicer_lib.py:SingleSliceSpec.is_slice_applicable", "tensorflow_model_analysis/slicer/slicer_lib.py:slice_key_matches_slice_specs"]}
{"id": "C03", "title": "Slicing on a fixed feature value selects every example holding that text", "statement": "If the config asks for the slice feature == v (v a string) then every example whose feature holds exactly the text v falls in the slice.", "quantifier": "every feature name, every string v, every example whose (bytes or string) feature value equals v", "why_tests_cant": "tests only use values that are clearly words or clearly ints; leading zeros, bytes digits, trailing zero decimals are unbounded", "anchors": ["tensorflow_model_analysis/slicer/slicer_lib.py:SingleSliceSpec.generate_slices", "tensorflow_model_analysis/slicer/slicer_lib.py:_to_type"]}
{"id": "C04", "title": "An example is counted at most once per slice", "statement": "However many specs (including specs pulled in by cross slicing) produce the same slice key for an example, the example is fanned out to that slice exactly once, and to each of its slices; it is never sent to a slice it does not match.", "quantifier": "every list of specs, every example, every pre-existing key set", "why_tests_cant": "overlap patterns between specs are unbounded", "anchors": ["tensorflow_model_analysis/extractors/slice_key_extractor.py:ExtractSliceKeysFn.process", "tensorflow_model_analysis/slicer/slicer_lib.py:_FanoutSlicesDoFn.process"]}
{"id": "C05", "title": "Metrics reported for a slice are the metrics of exactly the examples in the slice", "statement": "For any batching, any bundling, any merge tree and any worker ordering, the value reported for slice key k equals the metric computed over precisely the sub-multiset of input examples that match k, and a slice key is reported iff at least one example matches it.", "quantifier": "every dataset, every spec list, every schedule of the distributed combine, every combiner whose accumulator is a homomorphic summary", "why_tests_cant": "the space of schedules and datasets is infinite; unit tests run the single-process runner", "anchors": ["tensorflow_model_analysis/evaluators/metrics_plots_and_validations_evaluator.py:_ComputeMetricsAndPlots", "tensorflow_model_analysis/slicer/slicer_lib.py:FanoutSlices", "tensorflow_model_analysis/evaluators/metrics_plots_and_validations_evaluator.py:_ComputationsCombineFn"]}
{"id": "C06", "title": "Small slices never leak aggregated values", "statement": "With a minimum slice size m, every reported non-overall slice backed by fewer than m examples carries only the error entry and none of its metric values; every slice with at least m examples, and the overall slice, is reported unchanged.", "quantifier": "every dataset, every m, every metric dictionary", "why_tests_cant": "privacy guarantee over all datasets", "anchors": ["tensorflow_model_analysis/slicer/slicer_lib.py:FilterOutSlices"]}
{"id": "C07", "title": "Minimum slice size works together with cross slicing", "statement": "Turning on a minimum slice size does not make an evaluation with cross slices crash: each cross slice is reported or replaced by an error entry.", "quantifier": "every configuration with cross slices and minimum slice size > 1", "why_tests_cant": "interaction of two features; tests cover each alone", "anchors": ["tensorflow_model_analysis/slicer/slicer_lib.py:FilterOutSlices", "tensorflow_model_analysis/evaluators/metrics_plots_and_validations_evaluator.py:_ComputeMetricsAndPlots"]}
{"id": "C08", "title": "Slice keys survive being written and read back", "statement": "Serialising a slice key and deserialising it gives back the same columns, order and values (text, integer, and float values exactly representable in the file format); cross slice keys likewise.", "quantifier": "every slice key and cross slice key", "why_tests_cant": "infinitely many keys and value types", "anchors": ["tensorflow_model_analysis/slicer/slicer_lib.py:serialize_slice_key", "tensorflow_model_analysis/slicer/slicer_lib.py:deserialize_slice_key", "tensorflow_model_analysis/slicer/slicer_lib.py:serialize_cross_slice_key"]}
{"id": "C09", "title": "Single-slice keys and cross-slice keys are never confused", "statement": "The classifier that decides whether a key in the results is a plain slice or a cross slice answers 'plain' on every key made by slicing, and 'cross' on every (baseline, comparison) pair of such keys, including pairs with the overall slice.", "quantifier": "every pair of slice keys", "why_tests_cant": "classification is by structural duck-typing of nested tuples; all shapes must be covered", "anchors": ["tensorflow_model_analysis/slicer/slicer_lib.py:get_slice_key_type", "tensorflow_model_analysis/slicer/slicer_lib.py:is_cross_slice_key"]}
{"id": "C10", "title": "Example count, weighted example count and means do not depend on the schedule", "statement": "The (weighted) example count and the mean of a feature equal the sum of weights (resp. total/count) of the inputs for every way of splitting, ordering, and merging them; the mean is NaN exactly when the total weight is zero; weights that cannot be attributed to the model or output raise an error for every schedule.", "quantifier": "every multiset of inputs, every merge tree", "why_tests_cant": "schedules are unbounded", "anchors": ["tensorflow_model_analysis/metrics/example_count.py:_ExampleCountCombiner", "tensorflow_model_analysis/metrics/stats.py:_MeanCombiner"]}
{"id": "C11", "title": "Calibration is total weighted prediction over total weighted label", "statement": "For every schedule, calibration = sum(w*prediction)/sum(w*label), mean label and mean prediction are the weighted means; the value is NaN exactly when the denominator is within 1e-8 of zero.", "quantifier": "every multiset of weighted examples, every merge tree", "why_tests_cant": "schedules and datasets are unbounded", "anchors": ["tensorflow_model_analysis/metrics/calibration.py:_WeightedLabelsPredictionsExamplesCombiner"]}
{"id": "C12", "title": "Calibration histogram loses no weight", "statement": "For every number of buckets, range and schedule, each example lands in exactly one bucket (below-range, interior or above-range) whose interval contains its prediction, and the bucket totals of weight, weighted label and weighted prediction add up to the dataset totals.", "quantifier": "every dataset, bucket count >= 1, range, merge tree", "why_tests_cant": "real-valued predictions, arbitrary schedules", "anchors": ["tensorflow_model_analysis/metrics/calibration_histogram.py:_CalibrationHistogramCombiner"]}
{"id": "C13", "title": "Re-bucketing a histogram by thresholds loses no weight and respects the thresholds", "statement": "Re-bucketing conserves the total of every bucket field, and the weight assigned to output interval i is the weight of the source buckets whose lower edge lies between threshold i and threshold i+1.", "quantifier": "every histogram and every ascending threshold list", "why_tests_cant": "combinatorial in buckets and thresholds", "anchors": ["tensorflow_model_analysis/metrics/calibration_histogram.py:rebin"]}
{"id": "C14", "title": "Confusion matrix counts are exactly the weighted counts, whatever the schedule", "statement": "For each threshold t: true positives are the total weight of examples with label 1 and prediction > t, and likewise for the other three cells; this holds for every split, order and merge tree.", "quantifier": "every dataset, list of distinct thresholds, weights, merge tree", "why_tests_cant": "schedules and datasets are unbounded", "anchors": ["tensorflow_model_analysis/contrib/aggregates/binary_confusion_matrices.py:BinaryConfusionMatrices"]}
{"id": "C15", "title": "Confusion matrix cells are conserved and monotone in the threshold", "statement": "At every threshold tp+fn is the total positive weight and fp+tn the total negative weight; raising the threshold never increases tp or fp and never decreases fn or tn (non-negative weights).", "quantifier": "every dataset and every pair of thresholds", "why_tests_cant": "unbounded thresholds and data", "anchors": ["tensorflow_model_analysis/contrib/aggregates/binary_confusion_matrices.py:BinaryConfusionMatrices", "tensorflow_model_analysis/metrics/binary_confusion_matrices.py:_histogram_to_binary_confusion_matrices"]}
{"id": "C16", "title": "Histogram-based confusion matrices conserve the examples", "statement": "When the matrix at a threshold is derived from the calibration histogram, tp+fn and fp+tn equal the total positive and negative weight of the dataset for every requested threshold list.", "quantifier": "every dataset, every threshold list (including thresholds above 1 or below 0)", "why_tests_cant": "threshold lists are unbounded; tests use thresholds inside [0,1]", "anchors": ["tensorflow_model_analysis/metrics/binary_confusion_matrices.py:_histogram_to_binary_confusion_matrices"]}
{"id": "C17", "title": "Flip rates do not depend on how the runner bundles data", "statement": "Symmetric, negative-to-positive and positive-to-negative flip rates are the weighted fraction of flipped examples for every split, order and merge tree.", "quantifier": "every dataset, every merge tree", "why_tests_cant": "single-process test runner uses one bundling", "anchors": ["tensorflow_model_analysis/metrics/flip_metrics.py:_BooleanFlipCountsCombiner.merge_accumulators"]}
{"id": "C18", "title": "Flip counts partition the flips", "statement": "Without merging, symmetric flips = neg-to-pos + pos-to-neg flips, and all rates lie in [0,1] (non-negative weights, positive total).", "quantifier": "every dataset and threshold", "why_tests_cant": "unbounded data", "anchors": ["tensorflow_model_analysis/metrics/flip_metrics.py:_BooleanFlipCountsCombiner"]}
{"id": "C19", "title": "NDCG lies in [0,1]", "statement": "For every query with non-negative gains, NDCG@k is between 0 and 1 and equals 1 when the predicted ranking sorts gains in descending order; the aggregated NDCG is the weighted mean over queries, for every schedule.", "quantifier": "every list of gains and scores, every k, every schedule", "why_tests_cant": "needs the rearrangement inequality over all permutations", "anchors": ["tensorflow_model_analysis/metrics/ndcg.py:_NDCGCombiner"]}
{"id": "C20", "title": "Query statistics and minimum label position are schedule independent", "statement": "total queries and documents are the (weighted) sums over all queries, min/max documents per query are attained bounds, and the mean minimum label position is the weighted mean rank of the best scored positive document over queries that have one, for every split, order and merge tree.", "quantifier": "every multiset of queries, every merge tree", "why_tests_cant": "schedules unbounded", "anchors": ["tensorflow_model_analysis/metrics/query_statistics.py:_QueryStatisticsCombiner", "tensorflow_model_analysis/metrics/min_label_position.py:_MinLabelPositionCombiner"]}
{"id": "C21", "title": "Jackknife point estimates are the metrics of the full data", "statement": "With jackknife confidence intervals on, the unsampled value of every metric equals the metric without confidence intervals, and sample i equals the metric computed on all examples not assigned to partition i, for every random assignment to partitions.", "quantifier": "every dataset, every number of partitions, every partition assignment, every schedule", "why_tests_cant": "random assignments and schedules are unbounded", "anchors": ["tensorflow_model_analysis/evaluators/jackknife.py:ComputeWithConfidenceIntervals", "tensorflow_model_analysis/evaluators/jackknife.py:_AccumulatorCombineFn"]}
{"id": "C22", "title": "Confidence intervals never change point estimates and are withheld when samples are missing", "statement": "For every metric and slice the reported unsampled value is the point estimate; an interval is attached exactly when all samples carry a numeric value for the metric and it is not in the skip list; otherwise the plain point estimate is reported; when samples are missing an error entry is added.", "quantifier": "every set of sample dictionaries, every order/merge tree of samples", "why_tests_cant": "arrival orders and missing patterns are unbounded", "anchors": ["tensorflow_model_analysis/evaluators/confidence_intervals_util.py:SampleCombineFn", "tensorflow_model_analysis/evaluators/jackknife.py:_JackknifeSampleCombineFn.extract_output", "tensorflow_model_analysis/evaluators/poisson_bootstrap.py:_BootstrapSampleCombineFn.extract_output"]}
{"id": "C23", "title": "Jackknife mean and standard error have their textbook values", "statement": "The reported sample mean is the arithmetic mean of the leave-one-out values; the squared reported standard error is (n-1)/n times the sum of squared deviations of the leave-one-out values; it is >= 0, invariant under adding a constant to all inputs, and zero iff all samples agree. The 95% interval is symmetric about the sample mean.", "quantifier": "every n >= 2 and every list of sample values", "why_tests_cant": "algebraic identity over all reals", "anchors": ["tensorflow_model_analysis/evaluators/jackknife.py:_JackknifeSampleCombineFn.extract_output", "tensorflow_model_analysis/evaluators/confidence_intervals_util.py:mean_and_std", "tensorflow_model_analysis/utils/math_util.py:calculate_confidence_interval"]}
{"id": "C24", "title": "Bootstrap replicates resample only the slice's own examples", "statement": "Every bootstrap replicate of slice k equals the metric over a multiset in which each example of k appears as often as its Poisson draw, whatever the draws and the schedule; a draw of all ones reproduces the unsampled metric.", "quantifier": "every dataset, every draw, every schedule", "why_tests_cant": "random draws unbounded", "anchors": ["tensorflow_model_analysis/evaluators/poisson_bootstrap.py:_BootstrapCombineFn.add_input"]}
{"id": "C25", "title": "A value threshold fails exactly when the metric is outside its bounds", "statement": "For a slice to which a value threshold applies, a failure is recorded iff the metric is NaN or below the lower bound or above the upper bound (bounds inclusive, absent bound = unbounded).", "quantifier": "every metric value incl. NaN/infinities, every pair of optional bounds", "why_tests_cant": "real-valued inputs", "anchors": ["tensorflow_model_analysis/evaluators/metrics_validator.py:validate_metrics"]}
{"id": "C26", "title": "A change threshold fails exactly when the change is worse than allowed in the stated direction", "statement": "With direction higher-is-better the check passes iff diff >= absolute (if given) and diff/baseline >= relative (if given); lower-is-better mirrored; with a zero baseline any relative threshold fails.", "quantifier": "every diff, baseline, direction, optional bounds", "why_tests_cant": "real-valued inputs", "anchors": ["tensorflow_model_analysis/evaluators/metrics_validator.py:validate_metrics"]}
{"id": "C27", "title": "A slice is validated ok iff it has no failing and no missing threshold", "statement": "The verdict for one slice is ok iff every threshold of a non-baseline metric that applies to the slice passes and no non-baseline threshold for this kind of slice (single or cross) refers to a metric absent from the results; every reported failure corresponds to such a threshold; thresholds on the baseline model and for other slices are ignored.", "quantifier": "every metrics dictionary, threshold table and slice key", "why_tests_cant": "combinatorial in metrics, thresholds, slices", "anchors": ["tensorflow_model_analysis/evaluators/metrics_validator.py:validate_metrics"]}
{"id": "C28", "title": "A threshold scoped to slices constrains only those slices", "statement": "A threshold configured for given slicing specs can fail only slices matching one of those specs, also when the metric is missing from a slice.", "quantifier": "every threshold table, every slice", "why_tests_cant": "needs all slices and all missing-metric patterns", "anchors": ["tensorflow_model_analysis/evaluators/metrics_validator.py:validate_metrics"]}
{"id": "C29", "title": "The overall verdict is the conjunction of all slice verdicts", "statement": "With thresholds configured, the final verdict is ok iff at least one slice was validated, all slice verdicts are ok and no configured slice is missing; every slice's failures are in the final result; for every order and merge tree.", "quantifier": "every list of slice verdicts, every merge tree", "why_tests_cant": "schedules unbounded", "anchors": ["tensorflow_model_analysis/writers/metrics_plots_and_validations_writer.py:CombineValidations"]}
{"id": "C30", "title": "Without thresholds the verdict is ok only when rubber stamping", "statement": "If no thresholds are configured the verdict is ok iff rubber stamping was requested, and missing_thresholds is reported otherwise.", "quantifier": "every list of slice results and merge tree", "why_tests_cant": "all schedules", "anchors": ["tensorflow_model_analysis/writers/metrics_plots_and_validations_writer.py:CombineValidations.extract_output"]}
{"id": "C31", "title": "Matching-slice counts in validation details are exact", "statement": "num_matching_slices for a slicing spec is the number of slices for which at least one threshold scoped to that spec was checked, for every merge tree, even when the same spec is used by several metrics and thresholds.", "quantifier": "every list of slice results and merge tree", "why_tests_cant": "schedules unbounded", "anchors": ["tensorflow_model_analysis/evaluators/metrics_validator.py:merge_details", "tensorflow_model_analysis/writers/metrics_plots_and_validations_writer.py:CombineValidations"]}
{"id": "C32", "title": "A configured slice with no data is reported as missing", "statement": "Each slicing spec that a non-baseline threshold mentions and that no validated slice matched is listed exactly once among the missing slices and makes the verdict fail; no spec that was matched is listed.", "quantifier": "every config and every list of slice results", "why_tests_cant": "combinatorial", "anchors": ["tensorflow_model_analysis/evaluators/metrics_validator.py:get_missing_slices"]}
{"id": "C33", "title": "Cross-slice thresholds can be satisfied", "statement": "If a threshold is scoped to a cross-slicing spec, and the cross slice exists and satisfies the threshold, the final verdict is ok.", "quantifier": "every config with cross slice thresholds and satisfied metrics", "why_tests_cant": "requires the full validate + combine path", "anchors": ["tensorflow_model_analysis/evaluators/metrics_validator.py:_hashed_slicing_details", "tensorflow_model_analysis/evaluators/metrics_validator.py:get_missing_slices"]}
{"id": "C34", "title": "Diff metrics are candidate minus baseline", "statement": "For every slice and every diffable metric of a non-baseline model that also exists for the baseline, the change reported under the diff key is the candidate's value minus the baseline's value; no diff is produced for other metrics and existing values are untouched.", "quantifier": "every metrics dictionary, every set of models", "why_tests_cant": "combinatorial in keys", "anchors": ["tensorflow_model_analysis/evaluators/metrics_plots_and_validations_evaluator.py:_AddDerivedCrossSliceAndDiffMetrics"]}
{"id": "C35", "title": "Private helper metrics never appear in results", "statement": "Metrics whose name starts with one underscore (not two) are used to derive others but no such key is ever in the reported results, and no public key is dropped.", "quantifier": "every metrics dictionary", "why_tests_cant": "all keys", "anchors": ["tensorflow_model_analysis/evaluators/metrics_plots_and_validations_evaluator.py:_remove_private_metrics"]}
{"id": "C36", "title": "Shared computations are computed once without changing results", "statement": "When several metrics request the same computation the evaluation runs it once and every metric gets the value it would have had alone; the order of the rest is preserved; derived computations run after what they depend on.", "quantifier": "every list of computations", "why_tests_cant": "combinatorial", "anchors": ["tensorflow_model_analysis/evaluators/metrics_plots_and_validations_evaluator.py:_filter_and_separate_computations"]}
{"id": "C37", "title": "Computing several metrics together equals computing each alone", "statement": "The compound combiner returns for each computation exactly what that computation returns alone, for every schedule, when preprocessors are applied once per input.", "quantifier": "every list of combiners, every data, every schedule", "why_tests_cant": "schedules unbounded", "anchors": ["tensorflow_model_analysis/evaluators/metrics_plots_and_validations_evaluator.py:_ComputationsCombineFn"]}
{"id": "C38", "title": "Metric keys survive being written and read back", "statement": "Serialising a metric key to its protocol message and back yields the same key for every name, model, output, sub key, aggregation type and flags.", "quantifier": "every metric key", "why_tests_cant": "combinatorial; field defaults in the wire format collapse values", "anchors": ["tensorflow_model_analysis/metrics/metric_types.py:MetricKey.to_proto", "tensorflow_model_analysis/metrics/metric_types.py:MetricKey.from_proto", "tensorflow_model_analysis/metrics/metric_types.py:SubKey", "tensorflow_model_analysis/metrics/metric_types.py:AggregationType"]}
{"id": "C39", "title": "Plot keys survive being written and read back", "statement": "Serialising a plot key and reading it back yields the same key.", "quantifier": "every plot key", "why_tests_cant": "tests only use keys with name/model/output/sub key", "anchors": ["tensorflow_model_analysis/metrics/metric_types.py:PlotKey.to_proto"]}
{"id": "C40", "title": "Rate metrics stay within [0,1] and complementary rates sum to one", "statement": "For non-negative counts: precision, recall, specificity, fall-out, miss rate, NPV, FDR, FOR, accuracy, prevalence, threat score, F1, balanced accuracy and predicted positive rate are NaN or in [0,1]; precision+FDR=1, recall+miss rate=1, specificity+fall-out=1, NPV+FOR=1 whenever defined; F1 is the harmonic mean of precision and recall.", "quantifier": "every non-negative tp, tn, fp, fn", "why_tests_cant": "algebraic facts over all rationals", "anchors": ["tensorflow_model_analysis/metrics/confusion_matrix_metrics.py:Precision.result", "tensorflow_model_analysis/metrics/confusion_matrix_metrics.py:F1Score.result"]}
{"id": "C41", "title": "AUC is in [0,1] and its three summation methods are ordered", "statement": "For the confusion matrices of any dataset at any ascending thresholds, ROC AUC by minoring <= interpolation <= majoring and all lie in [0,1].", "quantifier": "every dataset, thresholds", "why_tests_cant": "inequalities over all data", "anchors": ["tensorflow_model_analysis/metrics/confusion_matrix_metrics.py:AUC._metric_value"]}
{"id": "C42", "title": "'X at Y' metrics return the best achievable value under the constraint", "statement": "Sensitivity at specificity s (and its siblings) returns the largest sensitivity among thresholds whose specificity is at least s, and 0 when there is none.", "quantifier": "every matrices list, every constraint value", "why_tests_cant": "all data", "anchors": ["tensorflow_model_analysis/metrics/confusion_matrix_metrics.py:_find_max_under_constraint"]}
{"id": "C43", "title": "Element-wise arithmetic on confusion matrices is total on equal thresholds and agrees with cell-wise arithmetic", "statement": "Adding/subtracting two confusion matrix results (as the jackknife does) combines the cells at equal thresholds and never fails, also when one of the two has only a subset of the thresholds.", "quantifier": "every pair of matrices with ascending thresholds", "why_tests_cant": "combinatorial in threshold lists", "anchors": ["tensorflow_model_analysis/metrics/binary_confusion_matrices.py:Matrices._apply_binary_op_elementwise"]}
{"id": "C44", "title": "Variable length batches round-trip", "statement": "Packing dense rows into a variable-length batch and iterating over it gives back the same rows in order (including empty rows).", "quantifier": "every list of rows", "why_tests_cant": "row-length patterns unbounded", "anchors": ["tensorflow_model_analysis/api/types.py:VarLenTensorValue.from_dense_rows", "tensorflow_model_analysis/api/types.py:VarLenTensorValue.DenseRowIterator"]}
{"id": "C45", "title": "Include and exclude filters partition the data", "statement": "For every nested extracts dictionary and filter tree, every leaf is kept by exactly one of include(f) and exclude(f); merging include filters keeps exactly the union of what each keeps.", "quantifier": "every nested dictionary and filter tree", "why_tests_cant": "unbounded nesting", "anchors": ["tensorflow_model_analysis/utils/util.py:include_filter", "tensorflow_model_analysis/utils/util.py:exclude_filter", "tensorflow_model_analysis/utils/util.py:merge_filters"]}
{"id": "C46", "title": "Generated unique names are fresh", "statement": "unique_key always terminates and returns a name not among the current names, stable if the name is free.", "quantifier": "every name and every list of current names", "why_tests_cant": "unbounded collisions", "anchors": ["tensorflow_model_analysis/utils/util.py:unique_key"]}
{"id": "C47", "title": "Compound keys identify their parts", "statement": "Two different part lists never give the same compound key.", "quantifier": "every pair of part lists", "why_tests_cant": "needs all string pairs", "anchors": ["tensorflow_model_analysis/utils/util.py:compound_key"]}
{"id": "C48", "title": "Macro average is the (weighted) mean over classes and stays within the range of class values", "statement": "macro average equals sum(w_i*v_i)/sum(w_i) over the sub keys and lies between the smallest and largest class value; class weights derived from labels are non-negative and sum to 1 for every schedule. A value that is not a number is refused.", "quantifier": "every set of class values and weights, merge tree", "why_tests_cant": "unbounded", "anchors": ["tensorflow_model_analysis/metrics/aggregation.py:macro_average", "tensorflow_model_analysis/metrics/aggregation.py:weighted_macro_average", "tensorflow_model_analysis/metrics/aggregation.py:_ClassWeightsFromLabelsCombiner"]}
{"id": "C49", "title": "Macro and weighted macro averages are reported under different keys", "statement": "Configuring both macro_average and weighted_macro_average for a metric yields two results under two distinct keys.", "quantifier": "every metric and aggregation config", "why_tests_cant": "needs both options on simultaneously", "anchors": ["tensorflow_model_analysis/metrics/aggregation.py:weighted_macro_average"]}
{"id": "C50", "title": "Duplicate model names are rejected", "statement": "Verification of the evaluation config rejects any config with two model specs of the same name.", "quantifier": "every eval config", "why_tests_cant": "all configs", "anchors": ["tensorflow_model_analysis/utils/config_util.py:verify_eval_config"]}
{"id": "C51", "title": "Removing the baseline removes every change threshold", "statement": "After defaults are applied to a config with no baseline model, no change threshold (overall, per-slice or cross-slice, in metrics or in metrics specs) and no baseline model spec remains, and all value thresholds are preserved.", "quantifier": "every eval config", "why_tests_cant": "combinatorial in nested optional messages", "anchors": ["tensorflow_model_analysis/utils/config_util.py:update_eval_config_with_defaults"]}
{"id": "C52", "title": "Splitting fractional labels conserves weight", "statement": "Turning an example with fractional label y and weight w into a negative and a positive example conserves total weight w and weighted label w*y, for every y in [0,1].", "quantifier": "every y in [0,1], w >= 0", "why_tests_cant": "real-valued", "anchors": ["tensorflow_model_analysis/metrics/metric_util.py:to_label_prediction_example_weight"]}
{"id": "C53", "title": "Top-k selection keeps exactly the k best classes", "statement": "Selecting the top-k keeps the k largest predictions (with their labels), and 'k' selection returns exactly the k-th largest.", "quantifier": "every prediction vector and k", "why_tests_cant": "all vectors, ties", "anchors": ["tensorflow_model_analysis/metrics/metric_util.py:top_k_indices", "tensorflow_model_analysis/metrics/metric_util.py:select_indices"]}
{"id": "C54", "title": "Loading results with a slice filter returns exactly the requested slices", "statement": "Loading saved metrics restricted to given slicing specs returns precisely the records whose slice key matches one of the specs.", "quantifier": "every file of records and every spec list", "why_tests_cant": "records include cross slices", "anchors": ["tensorflow_model_analysis/writers/metrics_plots_and_validations_writer.py:load_and_deserialize_metrics"]}
{"id": "C55", "title": "Written result tables keep distinct slices distinguishable", "statement": "Two different slice keys are written to different slice key columns in the tabular (parquet) output.", "quantifier": "every pair of slice keys", "why_tests_cant": "all keys", "anchors": ["tensorflow_model_analysis/writers/metrics_plots_and_validations_writer.py:_WriteMetricsPlotsAndValidations"]}
{"id": "C56", "title": "Lookup by key path finds nested and flattened values", "statement": "get_by_keys returns the value stored under a key path, whether the dictionary is nested or flattened with '/' between the keys; for an absent path it returns the default, None if optional, and raises ValueError otherwise.", "quantifier": "every nested dictionary, key path, default and optional flag", "why_tests_cant": "nesting depth and key names are unbounded", "anchors": ["tensorflow_model_analysis/utils/util.py:get_by_keys"]}
{"id": "C57", "title": "Sparse and one-hot labels are interchangeable", "statement": "Flattened metric inputs are the same whether the label is given as a class id or as the one-hot vector of that class, for every sub key, class weighting, example weight and label splitting.", "quantifier": "every class count of at least two, class id in range, prediction vector, weight and option set", "why_tests_cant": "class count, sub keys and weights are unbounded; tests use three or four classes", "anchors": ["tensorflow_model_analysis/metrics/metric_util.py:to_label_prediction_example_weight", "tensorflow_model_analysis/metrics/metric_util.py:one_hot", "tensorflow_model_analysis/metrics/metric_util.py:select_class_id"]}
{"id": "C58", "title": "Invalid class ids in labels are rejected", "statement": "A label that is not a class id of the model (and not the marker -1 for 'no class') is rejected instead of being counted for another class.", "quantifier": "every class count and integer label", "why_tests_cant": "the wrong labels that slip through are just next to the valid range", "anchors": ["tensorflow_model_analysis/metrics/metric_util.py:one_hot"]}
{"id": "C59", "title": "Flattening pairs every class with its own label, prediction and weight", "statement": "Flattening a multi-class example of n classes yields exactly n tuples; the i-th holds the i-th label, the i-th prediction and the example's weight (or i-th weight). The yielded example weight is never empty.", "quantifier": "every class count, labels, predictions and scalar or per-class weight", "why_tests_cant": "class count unbounded", "anchors": ["tensorflow_model_analysis/metrics/metric_util.py:to_label_prediction_example_weight"]}
{"id": "C60", "title": "Mean prediction does not need labels", "statement": "The mean prediction is the weighted mean of the predictions, also for data without labels (which the metric accepts).", "quantifier": "every dataset, labelled or not", "why_tests_cant": "needs unlabelled data with the right configuration", "anchors": ["tensorflow_model_analysis/metrics/calibration.py:_WeightedLabelsPredictionsExamplesCombiner.add_input"]}
{"id": "C61", "title": "Calibration is defined for top_k", "statement": "Calibration, mean label and mean prediction restricted to the top k predictions are computed from these k labels and predictions.", "quantifier": "every k and every multi-class example", "why_tests_cant": "k and class count unbounded", "anchors": ["tensorflow_model_analysis/metrics/calibration.py:_WeightedLabelsPredictionsExamplesCombiner.add_input"]}
{"id": "C62", "title": "Query statistics count documents for every model", "statement": "In a multi-model evaluation the number of documents reported for a model is the number of documents of the queries.", "quantifier": "every number of models and queries", "why_tests_cant": "the tests use one model only", "anchors": ["tensorflow_model_analysis/metrics/query_statistics.py:_QueryStatisticsCombiner.add_input"]}
{"id": "C63", "title": "Minimum label position without positives", "statement": "If no row of the evaluation set has a positive label the reported minimum label position is zero (class documentation), and queries without labels are skipped.", "quantifier": "every dataset without positive labels", "why_tests_cant": "depends on absence of data", "anchors": ["tensorflow_model_analysis/metrics/min_label_position.py:_MinLabelPositionCombiner"]}
{"id": "C64", "title": "Histogram confusion matrices count predictions above the threshold", "statement": "Confusion matrices computed from a calibration histogram count as positive the weight of the examples whose prediction exceeds the threshold, up to the examples less than one bucket width above it.", "quantifier": "every bucket count, thresholds, weights and predictions", "why_tests_cant": "the error shows only for predictions on a threshold or in the bucket that contains it", "anchors": ["tensorflow_model_analysis/metrics/binary_confusion_matrices.py:_binary_confusion_matrix_computation", "tensorflow_model_analysis/metrics/calibration_histogram.py:rebin"]}
{"id": "C65", "title": "Top-k confusion matrices count the selected classes", "statement": "For top-k metrics (threshold -inf) the predicted positives are exactly the entries that are among the top k of their example.", "quantifier": "every dataset and k", "why_tests_cant": "fails only for data in which no (or every) example selects the class", "anchors": ["tensorflow_model_analysis/metrics/binary_confusion_matrices.py:_binary_confusion_matrix_computation", "tensorflow_model_analysis/metrics/metric_util.py:top_k_indices"]}
{"id": "C66", "title": "Sampled example ids belong to their cell", "statement": "The example ids listed for a confusion matrix cell at a threshold are the first N ids, in the order the data was combined, of the examples that contribute to that cell; no other id is listed and none is dropped while there is room.", "quantifier": "every dataset, limit N >= 1, distinct thresholds and merge tree", "why_tests_cant": "depends on schedule and on data that repeats ids", "anchors": ["tensorflow_model_analysis/contrib/aggregates/binary_confusion_matrices.py:BinaryConfusionMatrices._merge_example_ids"]}
{"id": "C67", "title": "Counts at a threshold do not depend on the other thresholds", "statement": "The confusion matrix reported at a threshold is the same whatever other thresholds are requested along with it.", "quantifier": "every two threshold lists and dataset", "why_tests_cant": "fails only for lists with repeated thresholds", "anchors": ["tensorflow_model_analysis/contrib/aggregates/binary_confusion_matrices.py:BinaryConfusionMatrices.add_input"]}
{"id": "C68", "title": "Mean regression errors are weighted means for every bundling", "statement": "Mean absolute, squared and absolute percentage error are the weighted mean of the per-example errors (examples with label 0 left out of the percentage error), NaN without weight, for every split and merge order; the value always lies between the smallest and the largest error.", "quantifier": "every dataset, weights and merge tree", "why_tests_cant": "the tests run one bundle", "anchors": ["tensorflow_model_analysis/metrics/mean_regression_error.py:_MeanRegressionErrorCombiner"]}
{"id": "C69", "title": "Symmetric prediction difference", "statement": "The value is the weighted mean of 2|a-b|/|a+b| (0 when both are below 1e-7) for every split and merge order; swapping baseline and candidate does not change it; for non-negative predictions it lies in [0,2].", "quantifier": "every dataset, weights and merge tree", "why_tests_cant": "the tests run one bundle; range over unbounded data", "anchors": ["tensorflow_model_analysis/metrics/prediction_difference_metrics.py:_SymmetricPredictionDifferenceCombiner"]}
{"id": "C70", "title": "Squared Pearson correlation", "statement": "For every split and merge order the value is the squared weighted covariance divided by the product of the weighted variances, NaN if that is undefined, and lies in [0,1] for non-negative weights.", "quantifier": "every dataset, weights and merge tree", "why_tests_cant": "Cauchy-Schwarz over unbounded data", "anchors": ["tensorflow_model_analysis/metrics/squared_pearson_correlation.py:_SquaredPearsonCorrelationCombiner"]}
{"id": "C71", "title": "Coefficients of discrimination", "statement": "For every split and merge order the coefficient of discrimination is the weighted mean prediction of the positives minus that of the negatives, the relative one is their ratio; both are NaN without positives or negatives; with labels and predictions in [0,1] the coefficient lies in [-1,1].", "quantifier": "every dataset, weights and merge tree", "why_tests_cant": "unbounded data", "anchors": ["tensorflow_model_analysis/metrics/tjur_discrimination.py:_TjurDiscriminationCombiner", "tensorflow_model_analysis/metrics/tjur_discrimination.py:_coefficient_of_discrimination", "tensorflow_model_analysis/metrics/tjur_discrimination.py:_relative_coefficient_of_discrimination"]}
{"id": "C72", "title": "Exact match is the weighted fraction of matching examples", "statement": "For single valued examples exact match is the total weight of the examples whose prediction equals the label divided by the total weight, in [0,1], for every split and merge order; an example without label values is not a match.", "quantifier": "every dataset, weights and merge tree", "why_tests_cant": "unbounded data", "anchors": ["tensorflow_model_analysis/metrics/exact_match.py:_ExactMatchCombiner"]}
{"id": "C73", "title": "Metrics of data without weight are undefined, not fatal", "statement": "If the total example weight of a slice is zero, averaging metrics report NaN and the evaluation goes on.", "quantifier": "every averaging metric and every dataset of total weight zero", "why_tests_cant": "needs slices of total weight zero", "anchors": ["tensorflow_model_analysis/metrics/flip_metrics.py:_FlipRateBase", "tensorflow_model_analysis/metrics/prediction_difference_metrics.py:_SymmetricPredictionDifferenceCombiner.extract_output", "tensorflow_model_analysis/metrics/exact_match.py:_ExactMatchCombiner.extract_output"]}
{"id": "C74", "title": "A value reported for a class is computed from that class", "statement": "A metric value whose key carries a class id is computed from the labels and predictions of that class.", "quantifier": "every metric that accepts sub keys, every class", "why_tests_cant": "metrics x classes", "anchors": ["tensorflow_model_analysis/metrics/squared_pearson_correlation.py:_squared_pearson_correlation", "tensorflow_model_analysis/metrics/tjur_discrimination.py:_coefficient_of_discrimination", "tensorflow_model_analysis/metrics/exact_match.py:_exact_match", "tensorflow_model_analysis/metrics/flip_metrics.py:_FlipRateBase._metric_computations", "tensorflow_model_analysis/metrics/prediction_difference_metrics.py:_symmetric_prediction_difference_computations"]}
{"id": "C75", "title": "Exact match requires all values of an example to match", "statement": "An example whose prediction differs from its label in some component scores 0.", "quantifier": "every multi valued example", "why_tests_cant": "dimension unbounded", "anchors": ["tensorflow_model_analysis/metrics/exact_match.py:_ExactMatchCombiner.add_input"]}
{"id": "C76", "title": "Attributions keys survive being written and read back", "statement": "Serialising an attributions key and reading it back yields the same key.", "quantifier": "every attributions key", "why_tests_cant": "the tests use few keys", "anchors": ["tensorflow_model_analysis/metrics/metric_types.py:AttributionsKey.to_proto", "tensorflow_model_analysis/metrics/metric_types.py:AttributionsKey.from_proto"]}
{"id": "C77", "title": "Sorting metric keys puts them in an order independent of how they are listed", "statement": "The order in which metrics are written, and whether two computations producing the same keys are recognised as one, do not depend on the order in which the keys are listed.", "quantifier": "every list of metric keys", "why_tests_cant": "all permutations of all key lists", "anchors": ["tensorflow_model_analysis/metrics/metric_types.py:MetricKey.__lt__", "tensorflow_model_analysis/metrics/metric_types.py:MetricComputation._computation_id", "tensorflow_model_analysis/writers/metrics_plots_and_validations_writer.py:convert_slice_metrics_to_proto"]}
{"id": "C78", "title": "Results that mix weighted and unweighted metrics can be written", "statement": "Sorting the metric keys of a slice, as the writers do, never raises.", "quantifier": "every list of metric keys", "why_tests_cant": "needs pairs of keys equal up to the weighting flag's position", "anchors": ["tensorflow_model_analysis/metrics/metric_types.py:MetricKey.__lt__", "tensorflow_model_analysis/writers/metrics_plots_and_validations_writer.py:convert_slice_metrics_to_proto"]}
{"id": "C79", "title": "A computation is given the data it asked for", "statement": "Each input of a metric computation holds the label, prediction, weight and feature values its include filter asks for, unchanged, one input per example, whatever other computations of the evaluation ask for; computations with their own preprocessors get exactly what these produce.", "quantifier": "every list of preprocessors of the computations, every extracts tree", "why_tests_cant": "combinations of filters are unbounded", "anchors": ["tensorflow_model_analysis/evaluators/metrics_plots_and_validations_evaluator.py:_PreprocessorDoFn.process", "tensorflow_model_analysis/metrics/metric_types.py:StandardMetricInputsPreprocessor", "tensorflow_model_analysis/metrics/metric_types.py:StandardMetricInputsPreprocessorList", "tensorflow_model_analysis/utils/util.py:merge_filters"]}
{"id": "C80", "title": "A metric and a plot of the same name are both reported", "statement": "Metrics, plots and attributions computed for a slice are all reported, each under its own kind.", "quantifier": "every set of result keys", "why_tests_cant": "needs clashes of names across kinds", "anchors": ["tensorflow_model_analysis/evaluators/metrics_plots_and_validations_evaluator.py:_filter_by_key_type", "tensorflow_model_analysis/evaluators/metrics_plots_and_validations_evaluator.py:_ComputationsCombineFn", "tensorflow_model_analysis/metrics/metric_types.py:PlotKey"]}
{"id": "C81", "title": "Each pair of compared slices is reported once", "statement": "Cross slicing reports exactly one result per pair of a baseline slice and a comparison slice that the cross slicing specs select, and none for other pairs.", "quantifier": "every set of slices and of cross slicing specs", "why_tests_cant": "combinatorial in slices and specs", "anchors": ["tensorflow_model_analysis/evaluators/metrics_plots_and_validations_evaluator.py:_AddCrossSliceMetrics"]}
{"id": "C82", "title": "Cross slice values are baseline minus comparison", "statement": "The cross slice value of a metric is its value for the baseline slice minus its value for the comparison slice, for every public metric that both slices have; metrics that cannot be subtracted do not stop the evaluation.", "quantifier": "every pair of metric dictionaries", "why_tests_cant": "combinatorial in keys", "anchors": ["tensorflow_model_analysis/evaluators/metrics_plots_and_validations_evaluator.py:_AddCrossSliceMetrics"]}
{"id": "C83", "title": "Results of metrics specs with different query keys are put together", "statement": "The results of a slice are the union of the results computed for each query key, for every split and merge order.", "quantifier": "every family of result dictionaries and every schedule", "why_tests_cant": "schedules unbounded", "anchors": ["tensorflow_model_analysis/evaluators/evaluator.py:_CombineEvaluationDictionariesFn", "tensorflow_model_analysis/evaluators/metrics_plots_and_validations_evaluator.py:_ComputeMetricsAndPlots"]}
{"id": "C84", "title": "Queries partition the examples", "statement": "Grouping by a query key puts every example into exactly one group, with the examples of the same query and no others.", "quantifier": "every dataset and query feature", "why_tests_cant": "data unbounded, schedules unbounded", "anchors": ["tensorflow_model_analysis/evaluators/metrics_plots_and_validations_evaluator.py:_GroupByQueryKey"]}
{"id": "C85", "title": "min_slice_size is about examples also with query keys", "statement": "A slice with at least min_slice_size examples is reported, whether or not the metrics are computed by query.", "quantifier": "every dataset, slicing and query key", "why_tests_cant": "needs slices with many examples of few queries", "anchors": ["tensorflow_model_analysis/slicer/slicer_lib.py:FilterOutSlices", "tensorflow_model_analysis/evaluators/metrics_plots_and_validations_evaluator.py:_ComputeMetricsAndPlots"]}
{"id": "C86", "title": "Slices are computed for all specs of the config, cross slicing included", "statement": "The specs used for slicing are those of slicing_specs together with the baseline and comparison specs of cross_slicing_specs, and only these; with none of them the overall slice is computed.", "quantifier": "every list of slicing and cross slicing specs", "why_tests_cant": "combinations of specs are unbounded", "anchors": ["tensorflow_model_analysis/extractors/slice_key_extractor.py:SliceKeyExtractor", "tensorflow_model_analysis/extractors/slice_key_extractor.py:ExtractSliceKeysFn"]}
{"id": "C87", "title": "Every configured threshold is enforced", "statement": "Validation uses exactly the thresholds of the configuration: value thresholds for the metric and change thresholds for its difference to the baseline, each for its slicing specs, none twice.", "quantifier": "every list of configured thresholds", "why_tests_cant": "combinations of metrics, specs and thresholds are unbounded", "anchors": ["tensorflow_model_analysis/metrics/metric_specs.py:metric_thresholds_from_metrics_specs"]}
{"id": "C88", "title": "A metric that cannot be compared fails validation", "statement": "If a metric cannot be compared with its threshold (not a number, no direction given) validation reports a failure instead of stopping the evaluation.", "quantifier": "every metric value and threshold", "why_tests_cant": "needs unusual metric types together with thresholds", "anchors": ["tensorflow_model_analysis/evaluators/metrics_validator.py:validate_metrics"]}
{"id": "C89", "title": "A relative change threshold bounds the ratio of candidate to baseline", "statement": "As the guide (docs/model_validations.md) states, a relative threshold r with higher-is-better passes iff candidate/baseline >= r.", "quantifier": "every candidate and baseline value and threshold", "why_tests_cant": "the documented formula and the code agree on no input but look alike for small thresholds", "anchors": ["tensorflow_model_analysis/evaluators/metrics_validator.py:validate_metrics"]}
{"id": "C90", "title": "An improvement over the baseline passes a relative threshold of zero", "statement": "With relative threshold 0 a candidate passes iff it is not worse than the baseline in the stated direction (zero baselines excepted).", "quantifier": "every candidate and baseline value", "why_tests_cant": "tests use positive metric values", "anchors": ["tensorflow_model_analysis/evaluators/metrics_validator.py:validate_metrics"]}
{"id": "C91", "title": "A confidence interval contains the value it is reported with", "statement": "The 95% interval of a metric (sample mean +- quantile times standard error) contains the metric's unsampled value; in particular the jackknife interval of counts such as true positives is centred on the count up to sampling error.", "quantifier": "every metric value and set of samples", "why_tests_cant": "tests use ratios, for which the bias of leaving out data is small", "anchors": ["tensorflow_model_analysis/evaluators/jackknife.py:_JackknifeSampleCombineFn.extract_output", "tensorflow_model_analysis/utils/math_util.py:calculate_confidence_interval"]}
{"id": "C92", "title": "Metrics configured without intervals have none", "statement": "A metric whose class disables confidence intervals (ExampleCount) is reported as plain value, and so is its difference between two models.", "quantifier": "every configuration of models and metrics", "why_tests_cant": "needs model comparison together with confidence intervals", "anchors": ["tensorflow_model_analysis/metrics/metric_specs.py:metric_keys_to_skip_for_confidence_intervals", "tensorflow_model_analysis/evaluators/confidence_intervals_util.py:SampleCombineFn"]}
{"id": "C93", "title": "The correlation metrics agree with each other", "statement": "For non-negative counts: the squared MCC is informedness times markedness, MCC is in [-1,1] with the sign of tp*tn - fp*fn, undefined exactly when a margin is empty; the squared Fowlkes-Mallows index is precision times recall and lies in [0,1].", "quantifier": "every non-negative tp, tn, fp, fn", "why_tests_cant": "algebraic facts over all counts", "anchors": ["tensorflow_model_analysis/metrics/confusion_matrix_metrics.py:MatthewsCorrelationCoefficient.result", "tensorflow_model_analysis/metrics/confusion_matrix_metrics.py:FowlkesMallowsIndex.result"]}
{"id": "C94", "title": "The likelihood ratios are the ratios of the rates", "statement": "LR+ is recall/fall-out, LR- is miss rate/specificity, the diagnostic odds ratio is their quotient and equals (tp*tn)/(fp*fn), each whenever defined.", "quantifier": "every non-negative tp, tn, fp, fn", "why_tests_cant": "algebraic facts over all counts", "anchors": ["tensorflow_model_analysis/metrics/confusion_matrix_metrics.py:PositiveLikelihoodRatio.result", "tensorflow_model_analysis/metrics/confusion_matrix_metrics.py:DiagnosticOddsRatio.result"]}
{"id": "C95", "title": "'X at Y' metrics accept a number or a list of numbers in [0,1]", "statement": "Every 'X at Y' metric can be constructed with and computed for a number or list of numbers in [0,1], and rejects numbers outside.", "quantifier": "every constraint value", "why_tests_cant": "needs every combination of metric and form of constraint", "anchors": ["tensorflow_model_analysis/metrics/confusion_matrix_metrics.py:RecallAtPrecision", "tensorflow_model_analysis/metrics/confusion_matrix_metrics.py:_find_max_under_constraint"]}
{"id": "C96", "title": "PR AUC is in [0,1] and its three summation methods are ordered", "statement": "For the confusion matrices of any dataset at ascending thresholds, area under the precision-recall curve by minoring <= interpolation <= majoring and all lie in [0,1].", "quantifier": "every dataset, thresholds", "why_tests_cant": "inequalities over all data, logarithms", "anchors": ["tensorflow_model_analysis/metrics/confusion_matrix_metrics.py:AUC._metric_value"]}
{"id": "C97", "title": "ROC AUC is the probability of ranking a positive above a negative", "statement": "With thresholds separating the scores, ROC AUC equals the weighted share of (positive, negative) pairs with the positive scored higher, ties counted half; with any thresholds minoring and majoring enclose it.", "quantifier": "every dataset, thresholds", "why_tests_cant": "equality of two differently computed sums for all data", "anchors": ["tensorflow_model_analysis/metrics/confusion_matrix_metrics.py:AUC._metric_value"]}
{"id": "C98", "title": "AUC uses the thresholds it was given", "statement": "As documented, given thresholds take precedence over num_thresholds and are extended with endpoints below 0 and above 1; AUC of the top k predictions is computed at useful thresholds.", "quantifier": "every setting of thresholds, num_thresholds and top_k", "why_tests_cant": "settings are combinatorial; areas of degenerate curves look plausible", "anchors": ["tensorflow_model_analysis/metrics/confusion_matrix_metrics.py:AUC.__init__", "tensorflow_model_analysis/metrics/binary_confusion_matrices.py:binary_confusion_matrices"]}
{"id": "C99", "title": "A rate metric never stops the evaluation", "statement": "For all non-negative counts each confusion matrix metric returns a value or NaN and raises nothing; in particular the prevalence threshold is sqrt(fpr)/(sqrt(tpr)+sqrt(fpr)).", "quantifier": "every non-negative tp, tn, fp, fn", "why_tests_cant": "needs recall equal to fall-out", "anchors": ["tensorflow_model_analysis/metrics/confusion_matrix_metrics.py:PrevalenceThreshold.result"]}
{"id": "C100", "title": "Metric settings give valid sub keys", "statement": "Combining the sub key of the metrics spec with the top_k and class_id of the metric gives a sub key that SubKey itself accepts, or an error.", "quantifier": "every sub key, top_k and class_id", "why_tests_cant": "combinations of spec and metric settings", "anchors": ["tensorflow_model_analysis/metrics/confusion_matrix_metrics.py:_validate_and_update_sub_key"]}
{"id": "C101", "title": "Class weights do not depend on how labels are encoded", "statement": "The class weights derived from labels are the same whether labels are given as class numbers or as one-hot vectors.", "quantifier": "every list of examples, every schedule", "why_tests_cant": "tests use one encoding each", "anchors": ["tensorflow_model_analysis/metrics/aggregation.py:_ClassWeightsFromLabelsCombiner.add_input"]}
{"id": "C102", "title": "Examples without a label do not count towards class weights", "statement": "Deriving class weights from labels ignores examples that have no label (the code allows None and tests for it).", "quantifier": "every dataset", "why_tests_cant": "needs unlabelled examples in a weighted macro average", "anchors": ["tensorflow_model_analysis/metrics/aggregation.py:_ClassWeightsFromLabelsCombiner.add_input", "tensorflow_model_analysis/metrics/metric_util.py:to_label_prediction_example_weight"]}
{"id": "C103", "title": "Every configured metric is reported", "statement": "For all metrics specs (models, outputs, binarization, aggregation, example weights) the averages find the class values they need and each key that a spec configures, and that thresholds are set on, has a value in the result.", "quantifier": "every list of metrics specs", "why_tests_cant": "combinatorial in the options of a spec", "anchors": ["tensorflow_model_analysis/metrics/metric_specs.py:to_computations", "tensorflow_model_analysis/metrics/metric_specs.py:keys_and_metrics_from_specs", "tensorflow_model_analysis/metrics/metric_specs.py:_process_tfma_metrics_specs"]}
{"id": "C104", "title": "Thresholds on a weighted macro average are checked against it", "statement": "A threshold of a metric aggregated by weighted_macro_average is compared with the weighted macro average in the result.", "quantifier": "every spec with weighted macro average, every value", "why_tests_cant": "needs thresholds together with this aggregation", "anchors": ["tensorflow_model_analysis/metrics/aggregation.py:weighted_macro_average", "tensorflow_model_analysis/metrics/metric_specs.py:metric_thresholds_from_metrics_specs"]}
{"id": "C105", "title": "Output weights and aggregation can be combined", "statement": "A metrics spec with output weights and an aggregation gives the weighted average over the outputs of the aggregated metric.", "quantifier": "every such spec", "why_tests_cant": "needs both options at once", "anchors": ["tensorflow_model_analysis/metrics/aggregation.py:output_average", "tensorflow_model_analysis/metrics/metric_specs.py:to_computations"]}
{"id": "C106", "title": "Metrics specs do not interfere", "statement": "The value of a metric configured by one metrics spec is the same whatever other metrics specs are configured.", "quantifier": "every pair of specs for different metrics", "why_tests_cant": "needs two weighted averages over different classes", "anchors": ["tensorflow_model_analysis/metrics/aggregation.py:class_weights_from_labels", "tensorflow_model_analysis/metrics/aggregation.py:weighted_macro_average"]}
{"id": "C107", "title": "Weighted macro averages over top k are plain averages", "statement": "A weighted macro average over the top k predictions equals the macro average over them, whatever the labels are.", "quantifier": "every k, metric values and labels", "why_tests_cant": "all values", "anchors": ["tensorflow_model_analysis/metrics/aggregation.py:weighted_macro_average", "tensorflow_model_analysis/metrics/metric_specs.py:_macro_average_sub_keys"]}
{"id": "C108", "title": "Sub keys and aggregation types are valid by construction", "statement": "SubKey accepts exactly positive k or top_k, not both, and no class id with k; AggregationType accepts at most one kind; anything else raises ValueError.", "quantifier": "every combination of arguments", "why_tests_cant": "all combinations", "anchors": ["tensorflow_model_analysis/metrics/metric_types.py:SubKey.__new__", "tensorflow_model_analysis/metrics/metric_types.py:AggregationType.__new__"]}
{"id": "C109", "title": "Change thresholds without a baseline are an error", "statement": "Applying defaults to a config that has a change threshold anywhere raises RuntimeError if there is no baseline, unless the model is rubber stamped.", "quantifier": "every config", "why_tests_cant": "combinatorial in nested optional messages", "anchors": ["tensorflow_model_analysis/utils/config_util.py:update_eval_config_with_defaults", "tensorflow_model_analysis/utils/config_util.py:has_change_threshold"]}
{"id": "C110", "title": "A baseline is added when asked for", "statement": "For a single unnamed model spec, maybe_add_baseline=True or has_baseline=True gives two specs, candidate and baseline, that are copies of it, and metrics specs without models are for both.", "quantifier": "every config with one unnamed model spec", "why_tests_cant": "the deprecated flag is not tested", "anchors": ["tensorflow_model_analysis/utils/config_util.py:update_eval_config_with_defaults"]}
{"id": "C111", "title": "Applying the defaults again changes nothing", "statement": "The entry points (Evaluate, default_extractors, default_evaluators) each apply the defaults; doing so to an updated config gives the same config.", "quantifier": "every config and list of models", "why_tests_cant": "tests apply them once", "anchors": ["tensorflow_model_analysis/utils/config_util.py:update_eval_config_with_defaults", "tensorflow_model_analysis/api/model_eval_lib.py:_update_eval_config_with_defaults"]}
{"id": "C112", "title": "Metrics specs name existing models", "statement": "If the model names of the metrics specs are names of model specs they still are after defaults were applied.", "quantifier": "every config", "why_tests_cant": "needs model names in metrics specs together with added or removed baselines", "anchors": ["tensorflow_model_analysis/utils/config_util.py:update_eval_config_with_defaults"]}
{"id": "C113", "title": "Defaults are filled in and nothing else is changed", "statement": "The updated config has a model spec; a single one is unnamed and all metrics specs are for it, metrics specs without models are for all; the confidence interval method is JACKKNIFE if intervals are requested without method; metrics, value thresholds and all other settings stay.", "quantifier": "every config", "why_tests_cant": "every combination of settings", "anchors": ["tensorflow_model_analysis/utils/config_util.py:update_eval_config_with_defaults"]}
{"id": "C114", "title": "Models to evaluate have distinct names", "statement": "The verified list of models holds the given models in order; a single model is unnamed, several have non-empty distinct names (the dictionary keys if a dictionary was given), and verifying the list again changes nothing.", "quantifier": "every model, list or dictionary of models", "why_tests_cant": "all inputs", "anchors": ["tensorflow_model_analysis/utils/model_util.py:verify_and_update_eval_shared_models"]}
{"id": "C115", "title": "A model's labels, weights and predictions do not depend on other models", "statement": "The values extracted for a model in a multi-model evaluation are those extracted when it is evaluated alone.", "quantifier": "every list of model specs with distinct names, every features", "why_tests_cant": "combinations of model specs", "anchors": ["tensorflow_model_analysis/utils/model_util.py:get_feature_values_for_model_spec_field"]}
{"id": "C116", "title": "Rubber stamping requires every candidate to be rubber stamped", "statement": "Change thresholds are waived only if each non-baseline model is marked rubber stamp; a baseline alone is an error.", "quantifier": "every list of models", "why_tests_cant": "all lists", "anchors": ["tensorflow_model_analysis/utils/model_util.py:has_rubber_stamp"]}
{"id": "C117", "title": "Stored results are loaded completely and in order", "statement": "Loading the metrics, plots, attributions or validation result of an output directory without filter gives exactly the records written there, shard by shard, in either file format; a missing validation result is an error.", "quantifier": "every directory, both formats, any number of shards and records", "why_tests_cant": "the number and names of shards vary with the runner", "anchors": ["tensorflow_model_analysis/writers/metrics_plots_and_validations_writer.py:load_and_deserialize_metrics", "tensorflow_model_analysis/writers/metrics_plots_and_validations_writer.py:_WriteMetricsPlotsAndValidations", "tensorflow_model_analysis/writers/metrics_plots_and_validations_writer.py:_raw_value_iterator"]}
{"id": "C118", "title": "Every metric of a model is shown in the loaded results", "statement": "The loaded results of a slice hold each metric of the model asked for (and those of no model) under its output, sub key and name with its value or bounded value, and nothing else; a model without metrics in a slice has no entry for the slice.", "quantifier": "every slice, every set of metric keys, every model name", "why_tests_cant": "combinations of models, differences, aggregations and weights", "anchors": ["tensorflow_model_analysis/view/util.py:convert_metrics_proto_to_dict", "tensorflow_model_analysis/view/util.py:_get_metric_value_with_ci", "tensorflow_model_analysis/writers/metrics_plots_and_validations_writer.py:convert_slice_metrics_to_proto"]}
{"id": "C119", "title": "The metrics of a slice can be looked up after loading", "statement": "After writing and loading an evaluation, get_metrics_for_slice for the key of an evaluated slice, output and sub key returns its metrics, and None for a slice that was not evaluated.", "quantifier": "every evaluation with distinct slices", "why_tests_cant": "end to end over writer, loader and view for all slices", "anchors": ["tensorflow_model_analysis/view/view_types.py:EvalResult.get_metrics_for_slice", "tensorflow_model_analysis/api/model_eval_lib.py:load_eval_result"]}
{"id": "C120", "title": "The attributions of a slice can be looked up after loading", "statement": "Loaded attributions hold every attribution of the model under its output, sub key and metric, for the slice it was computed for, and are found by asking for class id, k or top k.", "quantifier": "every slice, key and class id", "why_tests_cant": "class id 0 and cross slices are not tested", "anchors": ["tensorflow_model_analysis/view/view_types.py:EvalResult.get_attributions_for_slice", "tensorflow_model_analysis/view/util.py:convert_attributions_proto_to_dict", "tensorflow_model_analysis/writers/metrics_plots_and_validations_writer.py:convert_slice_attributions_to_proto"]}
{"id": "C121", "title": "Every plot of a model is shown in the loaded results", "statement": "Every plot computed for a model, output, sub key and slice is present in the loaded results for that slice.", "quantifier": "every set of plots and slice", "why_tests_cant": "combinations of plots", "anchors": ["tensorflow_model_analysis/view/util.py:convert_plots_proto_to_dict", "tensorflow_model_analysis/writers/metrics_plots_and_validations_writer.py:convert_slice_plots_to_proto"]}
{"id": "C122", "title": "Displayed slices are those asked for", "statement": "get_slicing_metrics, find_all_slices and get_time_series choose exactly the slices whose columns and values are those asked for, and raise ValueError if there is none, or several where one is expected.", "quantifier": "every list of results and slicing spec", "why_tests_cant": "all lists of slices, including cross slices", "anchors": ["tensorflow_model_analysis/view/util.py:get_slicing_metrics", "tensorflow_model_analysis/view/util.py:find_all_slices", "tensorflow_model_analysis/view/util.py:get_time_series"]}
{"id": "C123", "title": "All models of all runs are loaded", "statement": "load_eval_results without a model name loads the results of every model of every output path; with a name, those of that model for every path.", "quantifier": "every list of paths and models", "why_tests_cant": "tests use one path or one model", "anchors": ["tensorflow_model_analysis/api/model_eval_lib.py:load_eval_results"]}
{"id": "C124", "title": "Every evaluator runs exactly once", "statement": "Each verified evaluator runs exactly once on the extracts of the stage it names (before all extractors, after an extractor, or after the last one), and the evaluation holds exactly the outputs of the evaluators under each key; an evaluator naming an unknown stage is refused.", "quantifier": "every list of extractors with distinct stage names and evaluators", "why_tests_cant": "all orders of stages", "anchors": ["tensorflow_model_analysis/api/model_eval_lib.py:ExtractAndEvaluate", "tensorflow_model_analysis/evaluators/evaluator.py:verify_evaluator"]}
{"id": "C125", "title": "Errors of slices are shown", "statement": "A slice whose metrics were replaced by an error message is shown with this message in the loaded results.", "quantifier": "every slice, message and model name", "why_tests_cant": "tests load without a model name", "anchors": ["tensorflow_model_analysis/view/util.py:convert_metrics_proto_to_dict", "tensorflow_model_analysis/writers/metrics_plots_and_validations_writer.py:convert_slice_metrics_to_proto"]}
{"id": "C126", "title": "Metric names are listed once", "statement": "get_metric_names returns exactly the names that occur in some slice, output and sub key, each once.", "quantifier": "every loaded result", "why_tests_cant": "all results", "anchors": ["tensorflow_model_analysis/view/view_types.py:EvalResult.get_metric_names"]}
{"id": "C127", "title": "Variable length values are checked and read row by row", "statement": "A VarLenTensorValue is accepted exactly when its dense shape has two entries and its indices are in row-major order; iterating over the rows of an accepted value with values gives one row per row of the dense shape, holding the values of the indices of that row in order.", "quantifier": "all values, indices and dense shapes", "why_tests_cant": "all index patterns", "anchors": ["tensorflow_model_analysis/api/types.py:VarLenTensorValue.__new__", "tensorflow_model_analysis/api/types.py:VarLenTensorValue.DenseRowIterator"]}
{"id": "C128", "title": "Splitting a batch gives its examples", "statement": "split_extracts of a batch of n examples gives n extracts with exactly the key paths of the batch; value i is element i of a dense batch, row i of a variable-length one, and the entries with first index i of a sparse one, with the shapes keep_batch_dim and expand_zero_dims ask for.", "quantifier": "every nesting of dictionaries, every mix of dense, variable-length, sparse and None values", "why_tests_cant": "nesting and shapes unbounded", "anchors": ["tensorflow_model_analysis/utils/util.py:split_extracts", "tensorflow_model_analysis/utils/util.py:_split_sparse_batch"]}
{"id": "C129", "title": "Splitting and merging a batch", "statement": "Merging the examples of a split batch gives the batch back, path by path, without expansion and squeezing; with the default options the same except that columns of shape (n, 1) become (n,).", "quantifier": "every batch of at least one example", "why_tests_cant": "nesting, shapes and row lengths unbounded", "anchors": ["tensorflow_model_analysis/utils/util.py:split_extracts", "tensorflow_model_analysis/utils/util.py:merge_extracts"]}
{"id": "C130", "title": "Merging and splitting examples", "statement": "Splitting the merge of examples of one-dimensional arrays gives the examples back, where an example that lacks a key some other example has gets an empty array.", "quantifier": "every list of examples agreeing on which paths are dictionaries", "why_tests_cant": "row lengths and missing keys unbounded", "anchors": ["tensorflow_model_analysis/utils/util.py:merge_extracts", "tensorflow_model_analysis/utils/util.py:split_extracts"]}
{"id": "C131", "title": "The batch size", "statement": "batch_size is the common first dimension of all values that are not None, None without such a value, and a ValueError exactly when two values disagree; it is the number of examples split_extracts gives.", "quantifier": "every nesting of dictionaries", "why_tests_cant": "nesting unbounded", "anchors": ["tensorflow_model_analysis/utils/util.py:batch_size"]}
{"id": "C132", "title": "Unbatching extracts", "statement": "Unbatching a mix of per-example lists and batched values gives one extract per example holding item i of every list and example i of every batched value, without the Arrow record batch.", "quantifier": "every mix of columns of n examples", "why_tests_cant": "all mixes of lists and batches", "anchors": ["tensorflow_model_analysis/extractors/unbatch_extractor.py:_extract_unbatched_inputs"]}
{"id": "C133", "title": "Setting a value in a nested dictionary", "statement": "copy_and_set_by_keys stores the value under the key path and leaves every other path as it was; it raises ValueError exactly when the key path is empty or a value is stored along it.", "quantifier": "every nested dictionary and key path", "why_tests_cant": "nesting unbounded", "anchors": ["tensorflow_model_analysis/utils/util.py:copy_and_set_by_keys"]}
{"id": "C134", "title": "What is set in extracts can be got", "statement": "Labels, predictions and weights set for a model and an output are got by the same names; other keys and other models keep theirs; setting below an existing value is a RuntimeError.", "quantifier": "all extracts, keys, models and outputs", "why_tests_cant": "all combinations of names", "anchors": ["tensorflow_model_analysis/utils/util.py:StandardExtracts.get_by_key", "tensorflow_model_analysis/utils/util.py:StandardExtracts._set_by_key"]}
{"id": "C135", "title": "Models and outputs of extracts are listed", "statement": "get_model_and_output_names lists every model and output that has predictions, and the listed names get the predictions.", "quantifier": "all extracts and configs", "why_tests_cant": "tests use single tensors", "anchors": ["tensorflow_model_analysis/utils/util.py:StandardExtracts.get_model_and_output_names"]}
{"id": "C136", "title": "Output averages are weighted means", "statement": "The average of a metric over the outputs of a model is the mean of its values with the configured output weights, reported for the model without output name; NaN if the weights sum to 0.", "quantifier": "all metrics, outputs and weights", "why_tests_cant": "all weights", "anchors": ["tensorflow_model_analysis/metrics/aggregation.py:output_average"]}
{"id": "C137", "title": "Aggregations that cannot be computed are refused", "statement": "A metrics spec that combines class weights with top_k_list, or asks for a (weighted) macro average without class weights and without top_k_list, raises ValueError.", "quantifier": "every metrics spec with metrics", "why_tests_cant": "all combinations of settings", "anchors": ["tensorflow_model_analysis/metrics/metric_specs.py:_class_weights", "tensorflow_model_analysis/metrics/metric_specs.py:_macro_average_sub_keys"]}
{"id": "C138", "title": "Model specs and models are found by name", "statement": "The baseline spec is the first baseline; the spec of a name is the first of this name, and the only spec if no name is given; the label key is the model's or that of the output and an error if there is none; a model is found by its name, or is the only unnamed one.", "quantifier": "all configs, names and outputs", "why_tests_cant": "all combinations of names", "anchors": ["tensorflow_model_analysis/utils/model_util.py:get_model_spec", "tensorflow_model_analysis/utils/model_util.py:get_baseline_model_spec", "tensorflow_model_analysis/utils/model_util.py:get_label_key", "tensorflow_model_analysis/utils/model_util.py:get_eval_shared_model"]}
{"id": "C139", "title": "NDCG is reported for the cutoffs asked for", "statement": "NDCG is reported once for every sub key with top_k and for every top_k of the metric's own top_k_list, in order, and for nothing else; a sub key of another kind is refused.", "quantifier": "all sub keys and top_k lists", "why_tests_cant": "all combinations of cutoffs, repeated ones included", "anchors": ["tensorflow_model_analysis/metrics/ndcg.py:_ndcg"]}
{"id": "C140", "title": "NDCG refuses data that mixes queries", "statement": "Within one accumulated element all values of the query key must be the same; an element that mixes queries is refused with ValueError.", "quantifier": "every element", "why_tests_cant": "all mixes of query values", "anchors": ["tensorflow_model_analysis/metrics/ndcg.py:_NDCGCombiner"]}
{"id": "C141", "title": "Binary cross entropy of one example", "statement": "The loss of an example is the mean over classes of -y ln p - (1-y) ln(1-p) with the label smoothed to y(1-s)+s/2 and, for logits, p the logistic function of the prediction; it is least at the label, and 0 for a perfect prediction.", "quantifier": "all labels, predictions, smoothings; logits and probabilities", "why_tests_cant": "real-valued identities over all inputs, limits at 0 and 1", "anchors": ["tensorflow_model_analysis/metrics/cross_entropy_metrics.py:_BinaryCrossEntropyCombiner"]}
{"id": "C142", "title": "Categorical cross entropy of one example", "statement": "The loss of an example is -sum y_i ln q_i over classes, with labels smoothed to y(1-s)+s/n and q the predictions divided by their sum (for logits the softmax); scaling probabilities and shifting logits does not change it, it is not negative and least when the predicted distribution is the label; a class id means the same as its one-hot label, and an impossible true class costs more than a likely one.", "quantifier": "all labels, predictions, smoothings; logits and probabilities", "why_tests_cant": "needs Gibbs' inequality over all distributions", "anchors": ["tensorflow_model_analysis/metrics/cross_entropy_metrics.py:_CategoricalCrossEntropyCombiner"]}
{"id": "C143", "title": "Computing a cross entropy leaves the examples alone", "statement": "Computing the categorical cross entropy does not change the predictions that the other metrics of the same slice are computed from.", "quantifier": "every example and every other metric", "why_tests_cant": "tests compute metrics one at a time", "anchors": ["tensorflow_model_analysis/metrics/cross_entropy_metrics.py:_CategoricalCrossEntropyCombiner", "tensorflow_model_analysis/evaluators/metrics_plots_and_validations_evaluator.py:_ComputationsCombineFn"]}
{"id": "C144", "title": "Cross entropy is the weighted mean of the losses", "statement": "The binary or categorical cross entropy of a data set is the sum of loss times weight divided by the sum of weights, for every schedule, hence between the least and the largest loss.", "quantifier": "every data set and schedule", "why_tests_cant": "tests use one accumulator", "anchors": ["tensorflow_model_analysis/metrics/cross_entropy_metrics.py:_CrossEntropyCombiner"]}
{"id": "C145", "title": "Mean squared logarithmic error", "statement": "The metric is the weighted mean of (ln(1+label) - ln(1+prediction))^2 for labels and predictions above -1, for every schedule; it is never negative and zero just when every prediction equals its label.", "quantifier": "every data set and schedule", "why_tests_cant": "tests use one accumulator and few values", "anchors": ["tensorflow_model_analysis/metrics/mean_regression_error.py:_MeanSquaredLogarithmicErrorCombiner"]}
{"id": "C146", "title": "Cosine similarity of two models", "statement": "The cosine similarity of two outputs lies in [-1,1], is symmetric, 1 for outputs of the same direction and -1 for opposite ones; the metric is its mean over the examples, for every schedule.", "quantifier": "all outputs of equal length that are not zero, every schedule", "why_tests_cant": "needs the Cauchy-Schwarz inequality", "anchors": ["tensorflow_model_analysis/metrics/model_cosine_similarity.py:_ModelCosineSimilarityCombiner", "tensorflow_model_analysis/metrics/model_cosine_similarity.py:_compute_cosine_similarity"]}
{"id": "C147", "title": "Multi-class confusion matrices", "statement": "At every threshold the multi-class confusion matrix lists, for each pair of actual and predicted class that occurs, the total weight of the examples of the actual class whose highest scored class is the predicted one, or 'no prediction' if that score does not exceed the threshold; every example counts once per threshold; for every schedule.", "quantifier": "every data set, schedule and list of thresholds", "why_tests_cant": "all orders of thresholds and merges", "anchors": ["tensorflow_model_analysis/metrics/multi_class_confusion_matrix_metrics.py:_MultiClassConfusionMatrixCombiner"]}
{"id": "C148", "title": "Each multi-class metric uses its own thresholds", "statement": "Several multi-class confusion matrix metrics in one evaluation are each computed with the thresholds they were configured with.", "quantifier": "all pairs of metrics", "why_tests_cant": "tests configure one at a time", "anchors": ["tensorflow_model_analysis/metrics/multi_class_confusion_matrix_metrics.py:multi_class_confusion_matrices", "tensorflow_model_analysis/evaluators/metrics_plots_and_validations_evaluator.py:_filter_and_separate_computations"]}
{"id": "C149", "title": "Arithmetic on multi-class matrices", "statement": "Combining two matrices or a matrix with a number works entry by entry; an entry missing on one side counts as zero and no other entry appears.", "quantifier": "every operation and all matrices", "why_tests_cant": "all entry sets", "anchors": ["tensorflow_model_analysis/metrics/multi_class_confusion_matrix_metrics.py:Matrices._apply_elementwise", "tensorflow_model_analysis/metrics/multi_class_confusion_matrix_metrics.py:Matrices._apply_broadcast"]}
{"id": "C150", "title": "Multi-class matrices as shown", "statement": "The protocol buffer lists the thresholds in ascending order and, within each, all entries in the order of their classes; num_thresholds = n means the thresholds 0, 1/(n-1), ..., 1.", "quantifier": "every matrix, every number of thresholds", "why_tests_cant": "all entry sets and numbers", "anchors": ["tensorflow_model_analysis/metrics/multi_class_confusion_matrix_metrics.py:Matrices.to_proto", "tensorflow_model_analysis/metrics/multi_label_confusion_matrix_plot.py:_MultiLabelConfusionMatrixPlotCombiner"]}
{"id": "C151", "title": "Multi-label confusion matrices", "statement": "At every threshold, for each class a that some example has and each class c, the plot holds the weight of the examples having a, split into true and false positives and negatives of c.", "quantifier": "every data set, schedule and list of distinct thresholds", "why_tests_cant": "all label sets and merges", "anchors": ["tensorflow_model_analysis/metrics/multi_label_confusion_matrix_plot.py:_MultiLabelConfusionMatrixPlotCombiner"]}
{"id": "C152", "title": "Pixels of segmented images", "statement": "For each class asked for, the semantic segmentation matrix counts over all images the pixels of each combination of truth and prediction; each pixel counts once unless its true class is ignored; images of different sizes are refused.", "quantifier": "all images, classes, ignored ids and schedules", "why_tests_cant": "all images and merges", "anchors": ["tensorflow_model_analysis/metrics/semantic_segmentation_confusion_matrix_metrics.py:_SemanticSegmentationConfusionMatrixCombiner"]}
{"id": "C153", "title": "Sets of classes as label prediction pairs", "statement": "The set match preprocessor yields exactly one pair for every class that is a label or predicted: label 1 or 0, the predicted score or minus infinity, and the product of example weight and class weight.", "quantifier": "every example, class weight and iteration order of sets", "why_tests_cant": "set iteration order is arbitrary", "anchors": ["tensorflow_model_analysis/metrics/preprocessors/set_match_preprocessors.py:SetMatchPreprocessor.process"]}
{"id": "C154", "title": "Set match keeps the top k predictions", "statement": "With top_k only the k highest scored predicted classes are matched.", "quantifier": "every example and k", "why_tests_cant": "all orders of predictions", "anchors": ["tensorflow_model_analysis/metrics/preprocessors/set_match_preprocessors.py:SetMatchPreprocessor.process"]}
{"id": "C155", "title": "Set match without scores", "statement": "Predictions without scores are matched, as in the example of the documentation.", "quantifier": "every example", "why_tests_cant": "tests always give scores", "anchors": ["tensorflow_model_analysis/metrics/preprocessors/set_match_preprocessors.py:SetMatchPreprocessor.process"]}
{"id": "C156", "title": "Intersection over union of boxes", "statement": "For boxes with left<=right and top<=bottom, not both of size zero, the computed value is the size of the rectangle of common points divided by the size of the union; it lies in [0,1], is symmetric, 0 for boxes without common point and 1 just for equal boxes of positive size; the table holds the value of every prediction with every object, and improper boxes are refused.", "quantifier": "all boxes", "why_tests_cant": "a geometric identity over all positions", "anchors": ["tensorflow_model_analysis/metrics/preprocessors/utils/box_match.py:compute_ious_for_image", "tensorflow_model_analysis/metrics/preprocessors/utils/bounding_box.py:bounding_box_area"]}
{"id": "C157", "title": "Greedy matching of boxes", "statement": "Going through the predictions in order, each takes the object not taken before with which its overlap is greatest, provided it reaches the threshold (at most 1-1e-10), the last one of equals; it takes none if no free object reaches the threshold; both result lists describe the same one-to-one matching; a negative threshold is refused.", "quantifier": "all tables of overlaps, all thresholds", "why_tests_cant": "all orders and ties", "anchors": ["tensorflow_model_analysis/metrics/preprocessors/utils/box_match.py:_match_boxes"]}
{"id": "C158", "title": "Label prediction pairs of an image", "statement": "Each object of the class within the area range gives one pair of label 1 with the confidence of the detection that took it or 0; each of the (at most max_num_detections most confident) detections of the class that took none and lies in the range gives one pair of label 0 with its confidence; every pair has the product of example and class weight; unusable settings are refused.", "quantifier": "all images with proper boxes, all settings", "why_tests_cant": "all numbers of boxes and ties", "anchors": ["tensorflow_model_analysis/metrics/preprocessors/utils/box_match.py:boxes_to_label_prediction_example_weight", "tensorflow_model_analysis/metrics/preprocessors/object_detection_preprocessors.py:BoundingBoxMatchPreprocessor.process"]}
{"id": "C159", "title": "The order of detections does not matter", "statement": "Detections of different confidence may be listed in any order without changing the pairs.", "quantifier": "all images, all permutations", "why_tests_cant": "all permutations", "anchors": ["tensorflow_model_analysis/metrics/preprocessors/object_detection_preprocessors.py:BoundingBoxMatchPreprocessor.process", "tensorflow_model_analysis/metrics/preprocessors/utils/bounding_box.py:sort_boxes_by_confidence"]}
{"id": "C160", "title": "Object detection matrices count objects", "statement": "At every confidence threshold t>=0 the true positives are the weighted number of objects found by a detection of more confidence than t, the false positives that of detections of more confidence that found nothing, and true positives plus false negatives that of all objects, over all images and for every schedule.", "quantifier": "every data set, threshold list and schedule", "why_tests_cant": "all merges of accumulators", "anchors": ["tensorflow_model_analysis/metrics/object_detection_confusion_matrix_metrics.py:ObjectDetectionConfusionMatrixMetricBase", "tensorflow_model_analysis/metrics/binary_confusion_matrices.py:_BinaryConfusionMatrixCombiner"]}
{"id": "C161", "title": "Object detection for several models or outputs", "statement": "Object detection metrics can be computed for a named model or output.", "quantifier": "every data set and schedule", "why_tests_cant": "tests use one unnamed model", "anchors": ["tensorflow_model_analysis/metrics/object_detection_confusion_matrix_metrics.py:ObjectDetectionConfusionMatrixMetricBase", "tensorflow_model_analysis/metrics/preprocessors/object_detection_preprocessors.py:BoundingBoxMatchPreprocessor.process"]}
{"id": "C162", "title": "Objects outside of the area range are left out", "statement": "An object outside of the area range does not influence the pairs: neither the object nor a detection that finds it counts.", "quantifier": "all images and ranges", "why_tests_cant": "needs boxes on both sides of the bound", "anchors": ["tensorflow_model_analysis/metrics/preprocessors/utils/box_match.py:boxes_to_label_prediction_example_weight"]}
{"id": "C163", "title": "Stacking columns of boxes", "statement": "Row i of the stacked labels or predictions consists of the entries i of all named columns in order, each looked up first in the labels or predictions, then in the further dictionaries; a missing column is a KeyError, or no boxes if that is allowed; columns of different length are refused.", "quantifier": "all columns and dictionaries", "why_tests_cant": "all shapes", "anchors": ["tensorflow_model_analysis/metrics/preprocessors/utils/object_detection_format.py:stack_labels", "tensorflow_model_analysis/metrics/preprocessors/utils/object_detection_format.py:stack_predictions"]}
{"id": "C164", "title": "The number of detections cuts off padding", "statement": "If num_detections_key gives n, just the first n predictions are used.", "quantifier": "all numbers and predictions", "why_tests_cant": "tests use positive numbers", "anchors": ["tensorflow_model_analysis/metrics/preprocessors/utils/object_detection_format.py:truncate_by_num_detections"]}
{"id": "C165", "title": "Accepted object detection arguments work", "statement": "Arguments that pass the check when a metric is set up do not fail on every image; the check accepts just class ids with as many non-negative weights, a range of two ascending bounds, a positive number of detections, and stacking only for an unnamed output.", "quantifier": "all arguments and images", "why_tests_cant": "tests check each argument alone", "anchors": ["tensorflow_model_analysis/metrics/metric_util.py:validate_object_detection_arguments", "tensorflow_model_analysis/metrics/preprocessors/object_detection_preprocessors.py:BoundingBoxMatchPreprocessor.process"]}
{"id": "C166", "title": "Averages of the COCO metrics", "statement": "The COCO averages are NaN just when no value is a number, and otherwise the mean of the numbers, between the least and the largest; the confidence thresholds ascend strictly within 0 and 1; the default overlap thresholds are 0.5, 0.55, ..., 0.95.", "quantifier": "all values, all numbers of thresholds below 10^12", "why_tests_cant": "all lists", "anchors": ["tensorflow_model_analysis/metrics/object_detection_metrics.py:COCOAveragePrecision", "tensorflow_model_analysis/metrics/object_detection_metrics.py:COCOMeanAveragePrecision"]}
{"id": "C167", "title": "Weights in COCO metrics", "statement": "COCO metrics take example weights into account if example_weighted is set, and class weights weight the mean over classes.", "quantifier": "all data sets and weights", "why_tests_cant": "tests use no weights", "anchors": ["tensorflow_model_analysis/metrics/object_detection_metrics.py:COCOAveragePrecision._metric_computations", "tensorflow_model_analysis/metrics/object_detection_metrics.py:COCOMeanAveragePrecision._metric_computations"]}
{"id": "C168", "title": "Each object detection metric uses its own boxes", "statement": "Several object detection metrics in one evaluation are each computed from the columns, class and truncation they were configured with.", "quantifier": "all pairs of metrics", "why_tests_cant": "tests configure one at a time", "anchors": ["tensorflow_model_analysis/metrics/preprocessors/object_detection_preprocessors.py:BoundingBoxMatchPreprocessor", "tensorflow_model_analysis/evaluators/metrics_plots_and_validations_evaluator.py:_filter_and_separate_computations"]}
{"id": "C169", "title": "Keras metrics do not depend on batches", "statement": "A Keras metric whose state is a sum over examples reports the value of the sum over all tuples of all examples, however these are split into batches, accumulators and compactions, and its initial value without examples; an example that cannot be read makes the whole computation fail.", "quantifier": "all data sets, schedules, batch sizes, additive metrics and numbers of outputs", "why_tests_cant": "the order of merging and the batch size are up to the runner", "anchors": ["tensorflow_model_analysis/metrics/tf_metric_wrapper.py:_CompilableMetricsCombiner", "tensorflow_model_analysis/metrics/tf_metric_accumulators.py:TFCompilableMetricsAccumulator"]}
{"id": "C170", "title": "Padding of labels and predictions", "statement": "Padding makes the examples of a batch equally wide with the configured values and the metric still does not depend on batches; a padding value of the wrong kind is refused.", "quantifier": "all widths, values and schedules", "why_tests_cant": "tests use one batch", "anchors": ["tensorflow_model_analysis/metrics/tf_metric_accumulators.py:TFCompilableMetricsAccumulator.get_inputs", "tensorflow_model_analysis/metrics/metric_util.py:pad"]}
{"id": "C171", "title": "Keras results are kept under their declared keys", "statement": "The keys of the results of a computation of Keras metrics are the keys it declares.", "quantifier": "all metrics, outputs, sub keys and aggregations", "why_tests_cant": "tests read single keys", "anchors": ["tensorflow_model_analysis/metrics/tf_metric_wrapper.py:_CompilableMetricsCombiner.extract_output", "tensorflow_model_analysis/metrics/tf_metric_wrapper.py:_metric_keys_and_configs"]}
{"id": "C172", "title": "Losses are weighted means", "statement": "A loss used as a metric reports the mean of the losses of the examples weighted by the example weights, whatever the batches.", "quantifier": "all data sets, weights and schedules", "why_tests_cant": "depends on the batches of the runner", "anchors": ["tensorflow_model_analysis/metrics/tf_metric_wrapper.py:_LossMetric"]}
{"id": "C173", "title": "Top k is applied once", "statement": "A metric or loss computed for a top k (or class) sees just the predictions of that top k (or class): either they are prepared that way or the metric selects them itself, not both and not neither.", "quantifier": "all combinations of metrics, losses and sub keys", "why_tests_cant": "tests cover single metrics", "anchors": ["tensorflow_model_analysis/metrics/tf_metric_wrapper.py:_CompilableMetricsCombiner.__init__", "tensorflow_model_analysis/metrics/tf_metric_wrapper.py:_verify_and_update_sub_key"]}
{"id": "C174", "title": "Every Keras metric is computed once", "statement": "For every output, every metric name and sub key asked for is declared by exactly one computation, and no other; of several with the same name and sub key the last one counts; nine kinds of metrics are read off confusion matrices and all others, and losses, are computed in batches.", "quantifier": "all dictionaries of lists of metrics", "why_tests_cant": "all lists", "anchors": ["tensorflow_model_analysis/metrics/tf_metric_wrapper.py:tf_metric_computations", "tensorflow_model_analysis/metrics/tf_metric_wrapper.py:_filter_duplicate_metrics", "tensorflow_model_analysis/metrics/tf_metric_wrapper.py:_separate_confusion_matrix_metrics"]}
{"id": "C175", "title": "Inconsistent Keras metrics are refused", "statement": "Metrics whose own class_id or top_k differs from that of the sub key, sparse metrics with an aggregation, AUC with label_weights while there are class weights and AUC with multi_label are refused; nothing else is.", "quantifier": "all dictionaries of lists of metrics", "why_tests_cant": "all combinations", "anchors": ["tensorflow_model_analysis/metrics/tf_metric_wrapper.py:tf_metric_computations", "tensorflow_model_analysis/metrics/tf_metric_wrapper.py:_verify_and_update_sub_key", "tensorflow_model_analysis/metrics/tf_metric_wrapper.py:_wrap_confusion_matrix_metric"]}
{"id": "C176", "title": "Thresholds of Keras confusion matrix metrics", "statement": "A Keras metric read off confusion matrices uses its own thresholds, its number of thresholds just when it has none, and, when the top k comes from the options and nothing is configured, one threshold below every score; AUC's label_weights become the class weights.", "quantifier": "all metrics and sub keys", "why_tests_cant": "all combinations", "anchors": ["tensorflow_model_analysis/metrics/tf_metric_wrapper.py:_wrap_confusion_matrix_metric"]}
{"id": "C177", "title": "Total attributions", "statement": "For every feature that occurs, the total attribution is the sum over the examples of each of its attributions times the example weight (of the absolute values, for total absolute attributions, which bound the totals), for every schedule; examples without attributions or with different numbers of attributions for one feature are refused by every schedule, and nothing else readable is.", "quantifier": "all data sets, schedules, features and sizes", "why_tests_cant": "merge orders and sizes are unbounded", "anchors": ["tensorflow_model_analysis/metrics/attributions.py:_TotalAttributionsCombiner", "tensorflow_model_analysis/metrics/attributions.py:TotalAttributions", "tensorflow_model_analysis/metrics/attributions.py:TotalAbsoluteAttributions"]}
{"id": "C178", "title": "Attributions of a class or of the top k", "statement": "class_id takes the attribution of that class (or its row), k the kth largest, top_k the k largest in descending order; a class out of range, fewer than k attributions and, without sub key, tables of several columns are refused.", "quantifier": "all arrays, classes and k", "why_tests_cant": "all values", "anchors": ["tensorflow_model_analysis/metrics/attributions.py:_scores_by_class_id", "tensorflow_model_analysis/metrics/attributions.py:_scores_by_top_k", "tensorflow_model_analysis/metrics/attributions.py:_TotalAttributionsCombiner.add_input"]}
{"id": "C179", "title": "Mean attributions", "statement": "The mean attribution of a feature is its total divided by the total weight of all examples, whenever that weight is not 0; each metric reads the totals of its own kind, model, output, sub key and weighting.", "quantifier": "all data sets, weights and schedules", "why_tests_cant": "weights are arbitrary numbers", "anchors": ["tensorflow_model_analysis/metrics/attributions.py:_mean_attributions", "tensorflow_model_analysis/metrics/example_count.py:example_count"]}
{"id": "C180", "title": "Counts of a confusion matrix plot", "statement": "At every threshold of a confusion matrix plot, the scores above the threshold are counted as positive and all others as negative, by weight and label.", "quantifier": "all data sets, weights, schedules and numbers of thresholds", "why_tests_cant": "depends on the position of every score in a histogram", "anchors": ["tensorflow_model_analysis/metrics/confusion_matrix_plot.py:ConfusionMatrixPlot._confusion_matrix_plot", "tensorflow_model_analysis/metrics/binary_confusion_matrices.py:binary_confusion_matrices", "tensorflow_model_analysis/metrics/calibration_histogram.py:rebin"]}
{"id": "C181", "title": "Rates shown with confusion matrices", "statement": "With every confusion matrix shown come its own counts, the threshold rounded to six digits, precision (1 if nothing is predicted), recall (0 if there is no positive), false positive rate, false omission rate, accuracy, and the F1 of the F1 metric.", "quantifier": "all matrices of non-negative weights", "why_tests_cant": "rates are over arbitrary weights", "anchors": ["tensorflow_model_analysis/metrics/binary_confusion_matrices.py:Matrices.to_proto", "tensorflow_model_analysis/metrics/confusion_matrix_metrics.py:F1Score"]}
{"id": "C182", "title": "Score distribution", "statement": "For scores in [0, 1], with or without labels, the score distribution plot shows for each threshold the weight of the scores above it (as true positives) and the weight of all others (as true negatives), and no other counts.", "quantifier": "all data sets, weights, schedules, models, outputs and numbers of thresholds", "why_tests_cant": "scores and thresholds are arbitrary", "anchors": ["tensorflow_model_analysis/metrics/score_distribution_plot.py:_confusion_matrix_plot", "tensorflow_model_analysis/metrics/score_distribution_plot.py:_extract_prediction_and_weight"]}
{"id": "C183", "title": "Score distributions of whatever can be plotted", "statement": "Whatever predictions a confusion matrix plot can be made of, the distribution of their scores can be plotted as well.", "quantifier": "all predictions", "why_tests_cant": "depends on the layout of predictions and on configurations", "anchors": ["tensorflow_model_analysis/metrics/score_distribution_plot.py:_confusion_matrix_plot", "tensorflow_model_analysis/metrics/score_distribution_plot.py:_extract_prediction_and_weight", "tensorflow_model_analysis/metrics/metric_util.py:to_label_prediction_example_weight"]}
{"id": "C184", "title": "Calibration plot", "statement": "A calibration plot of n buckets shows n + 2 adjacent buckets from -inf to inf whose weighted labels, predictions and examples add up to those of all examples; if n divides the 10000 buckets of the histogram, each bucket shows exactly the examples with scores from its lower end up to its upper end.", "quantifier": "all data sets, weights, schedules, ranges and numbers of buckets", "why_tests_cant": "scores and ranges are arbitrary", "anchors": ["tensorflow_model_analysis/metrics/calibration_plot.py:_calibration_plot", "tensorflow_model_analysis/metrics/calibration_plot.py:_to_proto", "tensorflow_model_analysis/metrics/calibration_histogram.py:rebin"]}
{"id": "C185", "title": "Range of a calibration plot", "statement": "The ends of a calibration plot are those given, else the minimum and maximum of the label in the schema, else 0 and 1; and they form a range.", "quantifier": "all configurations and schemas", "why_tests_cant": "combinations of ends, configurations and schemas", "anchors": ["tensorflow_model_analysis/metrics/calibration_plot.py:_calibration_plot", "tensorflow_model_analysis/metrics/calibration_plot.py:_find_label_domain"]}
{"id": "C186", "title": "Confusion matrix plots of several object classes", "statement": "Confusion matrix plots asked for several object classes show each the matrices of its own class.", "quantifier": "all pairs of plots", "why_tests_cant": "every single plot is right", "anchors": ["tensorflow_model_analysis/metrics/object_detection_confusion_matrix_plot.py:ObjectDetectionConfusionMatrixPlot._confusion_matrix_plot", "tensorflow_model_analysis/metrics/confusion_matrix_plot.py:ConfusionMatrixPlot._confusion_matrix_plot", "tensorflow_model_analysis/evaluators/metrics_plots_and_validations_evaluator.py:_filter_and_separate_computations"]}
{"id": "C187", "title": "Bounds of calibration buckets", "statement": "For any number of buckets, every example of a bucket of a calibration plot has a score between the bounds shown with it.", "quantifier": "all data sets and numbers of buckets", "why_tests_cant": "the default number of buckets divides that of the histogram", "anchors": ["tensorflow_model_analysis/metrics/calibration_plot.py:_calibration_plot", "tensorflow_model_analysis/metrics/calibration_histogram.py:rebin"]}
{"id": "C188", "title": "Statistics of BLEU", "statement": "For every n up to the maximal order, BLEU credits each run of n words of a hypothesis at most as often as it occurs in the reference that has most of it; it counts all runs of n words, the words of the hypotheses, and for each hypothesis the length of the reference nearest in length (the first of them). The result is the same for any order of the examples and any bundles. Examples without references or hypotheses, or with a hypothesis without any reference, are refused.", "quantifier": "all corpora, numbers of references, tokenizers and schedules", "why_tests_cant": "repetitions of words and missing references in arbitrary combinations", "anchors": ["tensorflow_model_analysis/metrics/bleu.py:_BleuCombiner.add_input", "tensorflow_model_analysis/metrics/bleu.py:_BleuCombiner.merge_accumulators", "tensorflow_model_analysis/metrics/bleu.py:_BleuCombiner._compute_segment_statistics", "tensorflow_model_analysis/metrics/bleu.py:_BleuCombiner._extract_reference_info", "tensorflow_model_analysis/metrics/bleu.py:_find_closest_ref_len"]}
{"id": "C189", "title": "Order of references", "statement": "The BLEU score does not depend on the order in which the references of a hypothesis are given.", "quantifier": "all corpora and permutations of references", "why_tests_cant": "matters only if lengths are equally near", "anchors": ["tensorflow_model_analysis/metrics/bleu.py:_find_closest_ref_len", "tensorflow_model_analysis/metrics/bleu.py:_BleuCombiner._extract_reference_info"]}
{"id": "C190", "title": "Length of the hypotheses", "statement": "The length of the hypotheses in BLEU is the number of words of all hypotheses, whatever their references.", "quantifier": "all corpora and tokenizers", "why_tests_cant": "only blank references are special", "anchors": ["tensorflow_model_analysis/metrics/bleu.py:_BleuCombiner._extract_statistics_for_empty_reference", "tensorflow_model_analysis/metrics/bleu.py:_BleuCombiner._extract_corpus_statistics"]}
{"id": "C191", "title": "All hypotheses count", "statement": "Every hypothesis of an example contributes to BLEU.", "quantifier": "all examples", "why_tests_cant": "depends on the numbers of hypotheses and references", "anchors": ["tensorflow_model_analysis/metrics/bleu.py:_BleuCombiner._extract_corpus_statistics"]}
{"id": "C192", "title": "BLEU and ROUGE of several models and outputs", "statement": "BLEU and ROUGE are computed for every model and every output.", "quantifier": "all lists of models and outputs", "why_tests_cant": "tests have one model", "anchors": ["tensorflow_model_analysis/metrics/bleu.py:_bleu", "tensorflow_model_analysis/metrics/rouge.py:_rouge", "tensorflow_model_analysis/metrics/metric_util.py:merge_per_key_computations", "tensorflow_model_analysis/evaluators/metrics_plots_and_validations_evaluator.py:_filter_and_separate_computations"]}
{"id": "C193", "title": "Bounds of what BLEU credits", "statement": "BLEU never credits more runs of n words than there are; it credits all of them, with equal lengths, if every hypothesis is among its references; and further references never lower the credit or change the totals.", "quantifier": "all corpora, orders and schedules", "why_tests_cant": "arbitrary repetitions of words", "anchors": ["tensorflow_model_analysis/metrics/bleu.py:_BleuCombiner._compute_segment_statistics", "tensorflow_model_analysis/metrics/bleu.py:_BleuCombiner._extract_reference_info"]}
{"id": "C194", "title": "ROUGE", "statement": "Precision, recall and f-measure of ROUGE are the weighted means of those of the examples (first prediction against all labels), nan if the weights add up to 0, and lie between the least and greatest of the examples if no weight is negative.", "quantifier": "all data sets, weights and schedules", "why_tests_cant": "weights and scores are arbitrary numbers", "anchors": ["tensorflow_model_analysis/metrics/rouge.py:RougeCombiner.add_input", "tensorflow_model_analysis/metrics/rouge.py:RougeCombiner.merge_accumulators", "tensorflow_model_analysis/metrics/rouge.py:RougeCombiner.extract_output"]}
{"id": "C195", "title": "F-measure of ROUGE", "statement": "The f-measure reported by ROUGE is the harmonic mean of the precision and recall reported with it.", "quantifier": "all data sets", "why_tests_cant": "holds for single examples", "anchors": ["tensorflow_model_analysis/metrics/rouge.py:RougeCombiner.extract_output"]}
{"id": "C196", "title": "Inputs of ROUGE", "statement": "ROUGE refuses examples without labels, without a prediction, and without a single weight.", "quantifier": "all data sets and schedules", "why_tests_cant": "one bad example anywhere", "anchors": ["tensorflow_model_analysis/metrics/rouge.py:RougeCombiner.add_input", "tensorflow_model_analysis/metrics/metric_util.py:to_label_prediction_example_weight"]}
{"id": "C197", "title": "Fixed size samples", "statement": "A sample of size n has, for every key, the values of the n examples with the greatest tags (all examples if there are fewer), greatest first; the tag is the number drawn, to the power 1 / weight if weighted. If no tags are equal the sample is the same for any order of the examples and any bundles.", "quantifier": "all data sets, sizes, numbers drawn and schedules", "why_tests_cant": "random numbers", "anchors": ["tensorflow_model_analysis/metrics/sample_metrics.py:_FixedSizeSampleCombineFn.add_input", "tensorflow_model_analysis/metrics/sample_metrics.py:_FixedSizeSampleCombineFn.extract_output", "tensorflow_model_analysis/utils/beam_util.py:DelegatingCombineFn"]}
{"id": "C198", "title": "Inputs of samples", "statement": "An example without the sampled feature, or without weight in a weighted sample, is refused.", "quantifier": "all data sets and schedules", "why_tests_cant": "one bad example anywhere", "anchors": ["tensorflow_model_analysis/metrics/sample_metrics.py:_FixedSizeSampleCombineFn.add_input"]}
{"id": "C199", "title": "Examples of weight zero in samples", "statement": "An example of weight zero is never in a weighted sample.", "quantifier": "all data sets", "why_tests_cant": "depends on the number of examples of positive weight", "anchors": ["tensorflow_model_analysis/metrics/sample_metrics.py:_FixedSizeSampleCombineFn.add_input"]}
{"id": "C200", "title": "Inputs of models", "statement": "A function of a model with named inputs is given the feature with the name of each input, or with that name without _input; as soon as there is no feature for one of them it is given the serialized examples instead.", "quantifier": "all features and inputs", "why_tests_cant": "any subset of features may be missing", "anchors": ["tensorflow_model_analysis/utils/model_util.py:find_input_name_in_features", "tensorflow_model_analysis/utils/model_util.py:filter_by_input_names", "tensorflow_model_analysis/utils/model_util.py:get_inputs"]}
{"id": "C201", "title": "Functions of models", "statement": "A named function is the signature of that name, or else the callable attribute; without a name a callable model is called itself on its inputs, or its default signature (predict if it has one, else serving_default) on serialized examples. Outputs must be for as many examples as the batch has. A missing function is an error if it is required.", "quantifier": "all models, names, features and batches", "why_tests_cant": "many kinds of models", "anchors": ["tensorflow_model_analysis/utils/model_util.py:get_callable", "tensorflow_model_analysis/utils/model_util.py:get_input_specs", "tensorflow_model_analysis/utils/model_util.py:get_default_signature_name_from_model", "tensorflow_model_analysis/utils/model_util.py:_to_dense_outputs", "tensorflow_model_analysis/utils/model_util.py:ModelSignaturesDoFn._batch_reducible_process"]}
{"id": "C202", "title": "Where predictions go", "statement": "The predictions of a single model are stored directly, those of several models by the name of the model; a single output is stored without its name. All else in the extract stays as it is.", "quantifier": "all models, batches and outputs", "why_tests_cant": "any number of models and outputs", "anchors": ["tensorflow_model_analysis/extractors/predictions_extractor.py:PredictionsExtractor", "tensorflow_model_analysis/extractors/predictions_extractor.py:_ModelSignaturesInferenceWrapper", "tensorflow_model_analysis/utils/model_util.py:ModelSignaturesDoFn._batch_reducible_process"]}
{"id": "C203", "title": "Batches that are too large", "statement": "A batch the model refuses is given to it example by example, so that a model which takes single examples predicts the same for each of them as if it took the whole batch. Other errors are not hidden.", "quantifier": "all batches, models and limits", "why_tests_cant": "needs models that run out of memory", "anchors": ["tensorflow_model_analysis/utils/model_util.py:BatchReducibleBatchedDoFnWithModels.process", "tensorflow_model_analysis/utils/util.py:split_extracts"]}
{"id": "C204", "title": "Transformed features", "statement": "Transformed features are stored by the name of their model, later functions overwriting the outputs of earlier ones; labels are taken from the transformed features of their own model, then from the features.", "quantifier": "all models, functions and batches", "why_tests_cant": "combinations of models with and without transformations", "anchors": ["tensorflow_model_analysis/extractors/transformed_features_extractor.py:TransformedFeaturesExtractor", "tensorflow_model_analysis/utils/model_util.py:get_feature_values_for_model_spec_field", "tensorflow_model_analysis/extractors/labels_extractor.py:_ExtractLabels"]}
{"id": "C205", "title": "Preprocessing functions of features", "statement": "name@feature calls the preprocessing function of that name with the feature. It is an error to name several features, or one that is not there; and every feature named gets its own output.", "quantifier": "all functions and features", "why_tests_cant": "tests name one function of one feature", "anchors": ["tensorflow_model_analysis/utils/model_util.py:get_preprocessing_signature", "tensorflow_model_analysis/utils/model_util.py:ModelSignaturesDoFn._batch_reducible_process"]}
{"id": "C206", "title": "Counterfactual examples", "statement": "In a counterfactual example every feature named as a destination has the value its source has in the original example, and all other features keep theirs.", "quantifier": "all examples and configurations", "why_tests_cant": "configurations whose sources are also destinations", "anchors": ["tensorflow_model_analysis/extractors/counterfactual_predictions_extractor.py:_cf_preprocess"]}
{"id": "C207", "title": "Counterfactual predictions", "statement": "The predictions of a model with a counterfactual configuration are those for the counterfactual examples, whatever the inputs of the model; those of other models are for the original examples. All are stored by the name of the model, and the extract keeps its original examples.", "quantifier": "all models, configurations and batches", "why_tests_cant": "kinds of inputs and numbers of models", "anchors": ["tensorflow_model_analysis/extractors/counterfactual_predictions_extractor.py:CounterfactualPredictionsExtractor", "tensorflow_model_analysis/extractors/counterfactual_predictions_extractor.py:_ExtractCounterfactualPredictions", "tensorflow_model_analysis/extractors/counterfactual_predictions_extractor.py:_cf_postprocess", "tensorflow_model_analysis/extractors/counterfactual_predictions_extractor.py:_filter_model_specs"]}
{"id": "C208", "title": "Features of record batches", "statement": "Columns of supported types become features, replacing those of the same name; the column of serialized examples becomes the input; all else stays. Without a record batch the extract must have features and is left alone.", "quantifier": "all record batches and extracts", "why_tests_cant": "columns of all types and existing features", "anchors": ["tensorflow_model_analysis/extractors/features_extractor.py:_ExtractFeatures", "tensorflow_model_analysis/extractors/features_extractor.py:_drop_unsupported_columns_and_fetch_raw_data_column"]}
{"id": "C209", "title": "Slice keys by SQL", "statement": "A query sees the features overlaid with the transformed features, those of earlier models first, and only the slice keys are added to the extract.", "quantifier": "all queries, models and extracts", "why_tests_cant": "features of the same name in several places", "anchors": ["tensorflow_model_analysis/extractors/sql_slice_key_extractor.py:ExtractSqlSliceKeyFn.process"]}
{"id": "C210", "title": "Bulk inference", "statement": "Bulk inference is possible exactly if all models are of supported types and the signature of every model spec takes serialized examples as its only input. Predictions of prediction logs are stored by the name of their model (directly for one model); logs of other kinds are errors.", "quantifier": "all models, signatures, logs and extracts", "why_tests_cant": "combinations of kinds of logs and graphs", "anchors": ["tensorflow_model_analysis/extractors/inference_base.py:is_valid_config_for_bulk_inference", "tensorflow_model_analysis/extractors/inference_base.py:_parse_prediction_log_to_tensor_value", "tensorflow_model_analysis/extractors/inference_base.py:insert_predictions_into_extracts", "tensorflow_model_analysis/utils/model_util.py:get_signature_def_from_saved_model_proto", "tensorflow_model_analysis/utils/model_util.py:get_default_signature_name_from_saved_model_proto"]}
{"id": "C211", "title": "Example weights and stored predictions", "statement": "Example weights and stored predictions are the values at the keys of the model spec, among the transformed features of the model or else the features; models without such values have none, and nothing else in the extract changes.", "quantifier": "all model specs and extracts", "why_tests_cant": "keys in several places, missing for some models", "anchors": ["tensorflow_model_analysis/extractors/example_weights_extractor.py:_ExtractExampleWeights", "tensorflow_model_analysis/extractors/materialized_predictions_extractor.py:_ExtractMaterializedPredictions", "tensorflow_model_analysis/utils/model_util.py:get_feature_values_for_model_spec_field"]}
{"id": "C212", "title": "Rows of data frames", "statement": "metrics_as_dataframes and plots_as_dataframes have a frame for each type of value that occurs, with one row for each value of a metric or plot (one for each item of a list of matrices or buckets), numbered over all types. A row has its slice under slices, the fields of its key under metric_keys or plot_keys, and its value under metric_values or plot_data; other cells are empty. This holds for all values, arrays and multi-class matrices included.", "quantifier": "all metrics and plots, keys and slices", "why_tests_cant": "combinations of types, slices and repeated fields", "anchors": ["tensorflow_model_analysis/api/dataframe.py:_to_dataframes", "tensorflow_model_analysis/api/dataframe.py:_flatten_proto"]}
{"id": "C213", "title": "Types of data frames", "statement": "Metrics and plots of all types that are written can be turned into data frames; a value that is not set has no row.", "quantifier": "all metrics and plots", "why_tests_cant": "each type of value alone and with others", "anchors": ["tensorflow_model_analysis/api/dataframe.py:metrics_as_dataframes", "tensorflow_model_analysis/api/dataframe.py:plots_as_dataframes", "tensorflow_model_analysis/api/dataframe.py:MetricsDataFrames", "tensorflow_model_analysis/api/dataframe.py:PlotsDataFrames"]}
{"id": "C214", "title": "Slices in data frames", "statement": "Two rows have the same cells under slices exactly if they are of the same slice, cross slices and features of any name included. A slice without a value is refused.", "quantifier": "all slices", "why_tests_cant": "slices of any features, pairs of slices", "anchors": ["tensorflow_model_analysis/api/dataframe.py:_to_dataframes", "tensorflow_model_analysis/api/dataframe.py:_get_slice_value"]}
{"id": "C215", "title": "Empty columns of data frames", "statement": "With include_empty_columns the frames have the same rows with the same cells, and in addition a column for each field of a key that is unset.", "quantifier": "all metrics and plots", "why_tests_cant": "keys with any fields unset", "anchors": ["tensorflow_model_analysis/api/dataframe.py:_flatten_proto", "tensorflow_model_analysis/api/dataframe.py:_to_dataframes"]}
{"id": "C216", "title": "Slices as strings", "statement": "With slices as strings a frame has one column for slices: name:value for each cell of the slice that is not empty, joined by '; ' in the order of columns, and Overall for the whole data. Rows are sorted by it, keep all other cells, and have the same string exactly if their slices are the same.", "quantifier": "all frames", "why_tests_cant": "any names and values of features, numbers of rows", "anchors": ["tensorflow_model_analysis/api/dataframe.py:_stringify_slices"]}
{"id": "C217", "title": "Pivoted data frames", "statement": "auto_pivot turns every frame of metrics or plots into a table with a row for each slice and a column for each value and each combination of those parts of keys that differ, parts with more values first. Each cell is that of the row of the slice and key, empty if there is none. Frames without slices, keys or values are refused.", "quantifier": "all frames", "why_tests_cant": "combinations of slices, keys and missing rows", "anchors": ["tensorflow_model_analysis/api/dataframe.py:auto_pivot", "tensorflow_model_analysis/api/dataframe.py:_auto_pivot"]}
{"id": "C218", "title": "Collapsed names of pivoted columns", "statement": "Collapsing the names of columns drops the name of the value exactly if the frame has one value and was pivoted; it never fails, keeps rows and leaves names of columns distinct.", "quantifier": "all frames", "why_tests_cant": "numbers of values and of varying keys", "anchors": ["tensorflow_model_analysis/api/dataframe.py:_collapse_column_names", "tensorflow_model_analysis/api/dataframe.py:_auto_pivot"]}
{"id": "C219", "title": "The saved evaluation configuration", "statement": "load_eval_run returns the configuration, data location, file format and model locations that EvalConfigWriter was given, with defaults for what was not given. Only eval_config.json is written, nothing if the output is disabled, and other formats are refused. Without the file that of former versions is read, and without both there is no configuration. Files without a version are refused.", "quantifier": "all configurations, locations and paths", "why_tests_cant": "paths with dots, disabled outputs, older files", "anchors": ["tensorflow_model_analysis/writers/eval_config_writer.py:load_eval_run", "tensorflow_model_analysis/writers/eval_config_writer.py:EvalConfigWriter", "tensorflow_model_analysis/writers/eval_config_writer.py:_WriteEvalConfig", "tensorflow_model_analysis/writers/eval_config_writer.py:_check_version"]}
{"id": "C220", "title": "Pairs of matched sets", "statement": "For an example with a set of label classes and a list of predicted classes with scores, SetMatchPreprocessor yields exactly one pair for each class: 1 and its score for a label that is predicted, 1 and minus infinity for a label that is not, and 0 and its score for any other class predicted. With top_k only the first k predictions are considered.", "quantifier": "all labels, predictions, numbers k and orders of sets", "why_tests_cant": "repeated classes, classes in one set only, k beyond the length", "anchors": ["tensorflow_model_analysis/metrics/preprocessors/set_match_preprocessors.py:SetMatchPreprocessor.process"]}
{"id": "C221", "title": "Weights of matched sets", "statement": "The weight of a pair is the weight of the example times the weight of its class, where a weight that is not given counts as 1; pairs have no weight if none is given.", "quantifier": "all examples, weights and classes", "why_tests_cant": "combinations of weights given and not, weights of zero", "anchors": ["tensorflow_model_analysis/metrics/preprocessors/set_match_preprocessors.py:SetMatchPreprocessor.process"]}
{"id": "C222", "title": "Top k of sets", "statement": "With top_k the classes that count as predicted are k (or all, if there are fewer) of the highest scores.", "quantifier": "all predictions and numbers k", "why_tests_cant": "any order of scores", "anchors": ["tensorflow_model_analysis/metrics/preprocessors/set_match_preprocessors.py:SetMatchPreprocessor.process"]}
{"id": "C223", "title": "Sets that are refused", "statement": "SetMatchPreprocessor refuses examples without labels, with labels or predictions of several dimensions, with predictions that are not a dictionary, with a number of scores other than that of classes, without features for class weights, and with class weights that do not fit; and accepts predictions of classes alone, as documented.", "quantifier": "all extracts and settings", "why_tests_cant": "each way to be malformed, alone and with others", "anchors": ["tensorflow_model_analysis/metrics/preprocessors/set_match_preprocessors.py:SetMatchPreprocessor.process"]}
{"id": "C224", "title": "Precision and recall of sets", "statement": "For any thresholds that are not a single negative one, true positives, false positives, false negatives and true negatives of SetMatchPrecision and SetMatchRecall are the weights of labels above the threshold, of other predicted classes above it, of labels not above it (or missed), and of others not above it, over all examples and independent of how they are bundled and merged. Precision is TP/(TP+FP), recall is TP/(TP+FN).", "quantifier": "all examples, thresholds, weights and schedules", "why_tests_cant": "numbers of examples, bundles and merges", "anchors": ["tensorflow_model_analysis/metrics/set_match_confusion_matrix_metrics.py:SetMatchPrecision", "tensorflow_model_analysis/metrics/set_match_confusion_matrix_metrics.py:SetMatchRecall", "tensorflow_model_analysis/metrics/binary_confusion_matrices.py:_binary_confusion_matrix_computation"]}
{"id": "C225", "title": "Precision and recall of the first k", "statement": "With top_k and no thresholds, true positives of SetMatchPrecision and SetMatchRecall are the labels among the first k predictions, false positives the other classes among them, and false negatives the labels not among them, by weight, whatever the scores.", "quantifier": "all examples, scores, weights and schedules", "why_tests_cant": "scores at, above and below the borders of buckets, data sets without misses or predictions", "anchors": ["tensorflow_model_analysis/metrics/set_match_confusion_matrix_metrics.py:SetMatchPrecision", "tensorflow_model_analysis/metrics/set_match_confusion_matrix_metrics.py:SetMatchRecall", "tensorflow_model_analysis/metrics/binary_confusion_matrices.py:binary_confusion_matrices"]}
{"id": "C226", "title": "Several metrics of sets", "statement": "Metrics of sets with different settings are computed each from its own pairs, for each of several models.", "quantifier": "all pairs of settings, thresholds and models", "why_tests_cant": "pairs of settings in one configuration, numbers of models", "anchors": ["tensorflow_model_analysis/metrics/set_match_confusion_matrix_metrics.py:SetMatchPrecision._metric_computations", "tensorflow_model_analysis/metrics/preprocessors/set_match_preprocessors.py:SetMatchPreprocessor"]}
{"id": "C227", "title": "Inverted logarithms", "statement": "InvertBinaryLogarithmPreprocessor turns labels and predictions x into 2^x - 1, limits predictions (and not labels) to between 0 and the maximum if one is given, leaves all else, refuses labels and predictions of different shapes, returns y for the logarithm of y + 1, and does not change the extract that it is given.", "quantifier": "all real numbers greater than -1, shapes and extracts", "why_tests_cant": "real numbers, repeated processing", "anchors": ["tensorflow_model_analysis/metrics/preprocessors/invert_logarithm_preprocessors.py:InvertBinaryLogarithmPreprocessor.process"]}
{"id": "C228", "title": "Decoded images", "statement": "DecodeImagePreprocessor yields as label and prediction the arrays found under its keys in the labels or predictions, else the features, else the transformed features, decoded if asked for. Images that are not found or are of different shapes are refused. Example weights are passed on.", "quantifier": "all extracts, keys and decoders", "why_tests_cant": "places of the keys, shapes, weights given or not", "anchors": ["tensorflow_model_analysis/metrics/preprocessors/image_preprocessors.py:DecodeImagePreprocessor.process", "tensorflow_model_analysis/metrics/preprocessors/image_preprocessors.py:_image_bytes_to_numpy_array"]}
{"id": "C229", "title": "Statistics of queries", "statement": "For every schedule QueryStatisticsCombineFn reports the number of queries, the number of their documents, and the numbers of documents of a smallest and of a largest query.", "quantifier": "all queries and schedules", "why_tests_cant": "numbers of queries, bundles and merges, no queries at all", "anchors": ["tensorflow_model_analysis/evaluators/query_metrics/query_statistics.py:QueryStatisticsCombineFn"]}
{"id": "C230", "title": "NDCG of queries in the order of their documents", "statement": "For every schedule NdcgMetricCombineFn reports, for each number k, the mean of NDCG@k over the queries weighted by their weights (1 without a key of weights), 0 without weight; it is between 0 and 1 for gains and weights that are not negative, and 1 if all queries are in the best order. A document without exactly one gain or weight, and different weights within a query, are refused.", "quantifier": "all queries, gains, weights, numbers and schedules", "why_tests_cant": "real numbers, numbers of documents and queries, bundles and merges", "anchors": ["tensorflow_model_analysis/evaluators/query_metrics/ndcg.py:NdcgMetricCombineFn", "tensorflow_model_analysis/evaluators/query_metrics/ndcg.py:_get_feature_value"]}
{"id": "C231", "title": "Mean position of the first label", "statement": "For every schedule MinLabelPositionCombineFn reports the mean, weighted by the weights of the queries, of the position (from 1) of the first document with a positive label, over the queries that have one; nothing if there is none. Weights that are missing or differ within a query are refused.", "quantifier": "all queries, labels, weights, keys and schedules", "why_tests_cant": "positions, weights of queries, bundles and merges", "anchors": ["tensorflow_model_analysis/evaluators/query_metrics/min_label_position.py:MinLabelPositionCombineFn"]}
{"id": "C232", "title": "Columns of features, predictions and labels", "statement": "The FeatureExtractor of FPLs adds for each feature, prediction and label, and each item of an additional extract, that is not excluded a column that holds the values of a sparse tensor or the first row of an array, under a name of its own made of the prefix and the name, and changes nothing else. Other values, a missing FPL and an unknown source are refused.", "quantifier": "all extracts, dictionaries, names and excluded names", "why_tests_cant": "names that coincide or contain the separator, kinds of values", "anchors": ["tensorflow_model_analysis/extractors/legacy_feature_extractor.py:_AugmentExtracts", "tensorflow_model_analysis/extractors/legacy_feature_extractor.py:_MaterializeFeatures"]}
{"id": "C233", "title": "Columns of a serialized example", "statement": "With the input as the source each feature of the tf.Example that is not excluded becomes a column of its values, and is added to the FPL if that does not have it; an example without values of a feature gives no values for it. Features go to the FPL or to columns, as asked for. A missing example is refused.", "quantifier": "all examples, extracts and destinations", "why_tests_cant": "features without values, order of features, destinations", "anchors": ["tensorflow_model_analysis/extractors/legacy_feature_extractor.py:_ParseExample", "tensorflow_model_analysis/extractors/legacy_feature_extractor.py:_MaterializeFeatures"]}
{"id": "C234", "title": "Features made of others", "statement": "ExtractMetaFeature adds the features that the function makes of the FPL to those of the FPL, values that are no arrays as arrays of one, and leaves all else; a name that is in use and a missing FPL are refused.", "quantifier": "all functions, FPLs and extracts", "why_tests_cant": "functions, names in use", "anchors": ["tensorflow_model_analysis/extractors/legacy_meta_feature_extractor.py:_ExtractMetaFeature", "tensorflow_model_analysis/extractors/legacy_meta_feature_extractor.py:update_fpl_features"]}
{"id": "C235", "title": "Labels, weights and predictions of parsed examples", "statement": "The InputExtractor puts the features of the example into the extract, and what is found under the keys of labels, example weights and predictions of the model's specification (None if it is missing), by output if there are several keys and by model if there are several models. Other extracts are merged with it; the given extract is not changed; a precomputed prediction is removed from the features.", "quantifier": "all specifications, features and extracts", "why_tests_cant": "numbers of models, extracts that exist already", "anchors": ["tensorflow_model_analysis/extractors/legacy_input_extractor.py:_ParseExample", "tensorflow_model_analysis/extractors/legacy_input_extractor.py:_keys_and_values", "tensorflow_model_analysis/extractors/legacy_input_extractor.py:InputExtractor"]}
{"id": "C236", "title": "Extracts for analysis", "statement": "AnalysisTableEvaluator yields under its key each extract with the included keys only, or without the excluded keys, by default without the input. Both at once are refused.", "quantifier": "all extracts and lists of keys", "why_tests_cant": "lists of keys, empty lists", "anchors": ["tensorflow_model_analysis/evaluators/analysis_table_evaluator.py:EvaluateExtracts", "tensorflow_model_analysis/extractors/extractor.py:Filter"]}
{"id": "C237", "title": "Merged validations and estimated sizes", "statement": "Validate gives every validator the evaluations of all alternatives and reports for each key what the last validator with this key says. A SizeEstimator's estimate is the sum of the sizes divided by the references beyond three, and it asks for a flush when the threshold is reached; values of positive size reach it in the end.", "quantifier": "all alternatives, validators, sizes and numbers of references", "why_tests_cant": "numbers of validators, values shared often", "anchors": ["tensorflow_model_analysis/api/verifier_lib.py:Validate", "tensorflow_model_analysis/utils/size_estimator.py:SizeEstimator"]}
{"id": "C238", "title": "Counters of metrics and slices", "statement": "The pipeline counts every metric of every specification once for each type of model, every callback with a name, and every pair of each slice, each in a counter of its own.", "quantifier": "all specifications, types of models and slices", "why_tests_cant": "names that are joined to the same name", "anchors": ["tensorflow_model_analysis/evaluators/counter_util.py:IncrementMetricsSpecsCounters", "tensorflow_model_analysis/evaluators/counter_util.py:IncrementMetricsCallbacksCounters", "tensorflow_model_analysis/evaluators/counter_util.py:IncrementSliceSpecCounters"]}
{"id": "C239", "title": "Names of metrics from names of classes", "statement": "The name of a metric made of its class name is the words of the class name in small letters, with underscores between them; the class name made of such a name is the words again, with capitals. Nothing but underscores and the size of letters changes in any name.", "quantifier": "all class names", "why_tests_cant": "names with digits, abbreviations and underscores", "anchors": ["tensorflow_model_analysis/metrics/metric_specs.py:_maybe_add_name_to_config", "tensorflow_model_analysis/metrics/metric_util.py:_camel_case"]}
{"id": "C240", "title": "The config of a metric", "statement": "A metric or loss of Keras is written as TFMA's metric of the same name if there is one and the settings TFMA does not know have their defaults; these are then left out. Otherwise it is written with its module and all settings.", "quantifier": "all metrics, settings and registered classes", "why_tests_cant": "combinations of classes, settings and values", "anchors": ["tensorflow_model_analysis/metrics/metric_specs.py:config_from_metric", "tensorflow_model_analysis/metrics/metric_specs.py:_serialize_tf_metric", "tensorflow_model_analysis/metrics/metric_specs.py:_is_supported_tf_metric", "tensorflow_model_analysis/metrics/metric_specs.py:_remove_unsupported_tf_settings"]}
{"id": "C241", "title": "The metric of a config", "statement": "A config gives the registered class, or the class of the module it names, with its settings; the config of a metric gives this metric back.", "quantifier": "all configs, metrics and registered classes", "why_tests_cant": "modules and classes of the user", "anchors": ["tensorflow_model_analysis/metrics/metric_specs.py:metric_instance", "tensorflow_model_analysis/metrics/metric_specs.py:_deserialize_tf_metric", "tensorflow_model_analysis/metrics/metric_specs.py:_deserialize_tfma_metric"]}
{"id": "C242", "title": "Specs from lists of metrics", "statement": "specs_from_metrics of lists gives one unweighted example count without outputs and one weighted count, unless switched off, one spec with all metrics and one with all unweighted metrics, for the given models, outputs, binarization, aggregation and query key. An object that is no metric is refused.", "quantifier": "all lists of metrics and options", "why_tests_cant": "lists with nothing in them, switches", "anchors": ["tensorflow_model_analysis/metrics/metric_specs.py:specs_from_metrics"]}
{"id": "C243", "title": "Specs from metrics by output", "statement": "specs_from_metrics of dictionaries gives for every output, in the order of names, the specs of its own metrics with the options given, and one example count in all.", "quantifier": "all dictionaries of metrics and options", "why_tests_cant": "outputs with weighted or unweighted metrics only, options", "anchors": ["tensorflow_model_analysis/metrics/metric_specs.py:specs_from_metrics"]}
{"id": "C244", "title": "Combinations of arguments of specs_from_metrics", "statement": "A list together with a dictionary of metrics, and output names together with a dictionary, are refused; all other combinations are accepted if the metrics are.", "quantifier": "all combinations of arguments", "why_tests_cant": "combinations with empty arguments", "anchors": ["tensorflow_model_analysis/metrics/metric_specs.py:specs_from_metrics"]}
{"id": "C245", "title": "Default specs", "statement": "The default specs of regression, binary and multi-class classification contain the documented metrics once each: the given losses and plots, binarized and aggregated as asked for, top k for the precision and recall over all classes only, and the micro average if no aggregation is given.", "quantifier": "all models, outputs, losses, binarizations and aggregations", "why_tests_cant": "combinations of options", "anchors": ["tensorflow_model_analysis/metrics/metric_specs.py:default_regression_specs", "tensorflow_model_analysis/metrics/metric_specs.py:default_binary_classification_specs", "tensorflow_model_analysis/metrics/metric_specs.py:default_multi_class_classification_specs"]}
{"id": "C246", "title": "Weights of examples by default", "statement": "Without options for example weights the metrics of a spec are weighted exactly if one of the spec's models (or of all, if it names none) has example weights for one of the spec's outputs; with options, as they say.", "quantifier": "all configs and specs", "why_tests_cant": "configs of several models and outputs", "anchors": ["tensorflow_model_analysis/metrics/metric_specs.py:_example_weighted_default", "tensorflow_model_analysis/metrics/metric_specs.py:_example_weight_options"]}
{"id": "C247", "title": "The model for an evaluation", "statement": "default_eval_shared_model gives a model of the type, tags, weights and switches of its spec in the config, or of the arguments if there is no config; a name that is in no spec is refused.", "quantifier": "all arguments and configs", "why_tests_cant": "combinations of tags, types and configs", "anchors": ["tensorflow_model_analysis/api/model_eval_lib.py:default_eval_shared_model", "tensorflow_model_analysis/utils/model_util.py:get_model_type"]}
{"id": "C248", "title": "Default extractors", "statement": "The default extractors are those of features, labels, weights and predictions that the types of the models need, in this order, then those of slices, all with the config updated for the models. Unknown types and types that do not go together are refused.", "quantifier": "all models, configs, slices and custom extractors", "why_tests_cant": "types of models and their combinations", "anchors": ["tensorflow_model_analysis/api/model_eval_lib.py:default_extractors", "tensorflow_model_analysis/api/model_eval_lib.py:is_batched_input", "tensorflow_model_analysis/utils/model_util.py:get_model_type"]}
{"id": "C249", "title": "Default evaluators", "statement": "The default evaluators are one for metrics, plots, attributions and validations, after the slices, unless all of these are disabled.", "quantifier": "all models and configs", "why_tests_cant": "disabled outputs", "anchors": ["tensorflow_model_analysis/api/model_eval_lib.py:default_evaluators"]}
{"id": "C250", "title": "Default writers", "statement": "The default writers write the config with the places of all models, and the results under their own paths with the callbacks given and the rubber stamp of the models.", "quantifier": "all paths, models, configs and callbacks", "why_tests_cant": "paths and places of several models", "anchors": ["tensorflow_model_analysis/api/model_eval_lib.py:default_writers"]}
{"id": "C251", "title": "The plan of a run", "statement": "A run uses the extractors, evaluators and writers given and the default ones for those left out. It is accepted if the config is valid, the evaluators have their places among the extractors and something is to be evaluated.", "quantifier": "all arguments", "why_tests_cant": "combinations of given and missing arguments", "anchors": ["tensorflow_model_analysis/api/model_eval_lib.py:ExtractEvaluateAndWriteResults", "tensorflow_model_analysis/api/model_eval_lib.py:ExtractAndEvaluate", "tensorflow_model_analysis/api/model_eval_lib.py:WriteResults"]}
{"id": "C252", "title": "Reading the examples", "statement": "The data is read in the form in which the extractors of the run take it: record batches under their key, inputs under theirs. The bytes processed are the sizes of all examples.", "quantifier": "all runs, formats and data", "why_tests_cant": "combinations of formats and kinds of models", "anchors": ["tensorflow_model_analysis/api/model_eval_lib.py:run_model_analysis", "tensorflow_model_analysis/api/model_eval_lib.py:InputsToExtracts", "tensorflow_model_analysis/api/model_eval_lib.py:BatchedInputsToExtracts"]}
{"id": "C253", "title": "Results of a run", "statement": "A run returns one result, or one by model in the order of the config if there are several; runs over several models or data sets return their results in order. Each run is of the model that the config describes.", "quantifier": "all runs", "why_tests_cant": "several models and configs", "anchors": ["tensorflow_model_analysis/api/model_eval_lib.py:run_model_analysis", "tensorflow_model_analysis/api/model_eval_lib.py:single_model_analysis", "tensorflow_model_analysis/api/model_eval_lib.py:multiple_model_analysis", "tensorflow_model_analysis/api/model_eval_lib.py:multiple_data_analysis"]}
{"id": "C254", "title": "Analysis of a data frame", "statement": "analyze_raw_data uses the columns the model specs name, or prediction and label if they name none, and refuses data without them with a KeyError.", "quantifier": "all data frames and configs", "why_tests_cant": "configs with and without keys", "anchors": ["tensorflow_model_analysis/api/model_eval_lib.py:analyze_raw_data"]}
{"id": "C255", "title": "Inputs of TFLite models", "statement": "Each input of a TFLite model gets, at its index, the values of the feature of its name for all examples in order, in the input's shape. The name is without the signature's name and tensor number. A missing value is -1 or the empty text.", "quantifier": "all models, features and batches", "why_tests_cant": "missing values, shapes and types of inputs", "anchors": ["tensorflow_model_analysis/extractors/tflite_predict_extractor.py:_batch_reducible_process", "tensorflow_model_analysis/extractors/tflite_predict_extractor.py:_get_input_name_from_input_detail"]}
{"id": "C256", "title": "Quantized values of TFLite models", "statement": "Quantized inputs and outputs stand for (k - zero point) * scale. A value of that form is passed and read back exactly, any other in range with an error below one scale, to the nearest one.", "quantifier": "all scales, zero points and values", "why_tests_cant": "real values between steps of the scale", "anchors": ["tensorflow_model_analysis/extractors/tflite_predict_extractor.py:_quantize", "tensorflow_model_analysis/extractors/tflite_predict_extractor.py:_dequantize"]}
{"id": "C257", "title": "Predictions of TFLite models", "statement": "The predictions of one TFLite model are its outputs by name, or its only output; with several models they are held by model name. Models that were not loaded and outputs for another number of examples are refused. The extracts passed in do not change.", "quantifier": "all models, specs and extracts", "why_tests_cant": "several models and outputs", "anchors": ["tensorflow_model_analysis/extractors/tflite_predict_extractor.py:_batch_reducible_process"]}
{"id": "C258", "title": "Inputs of TFJS models", "statement": "The binary gets for each input of the signature the values of the feature of its name, for all examples in order. Missing features and features with more axes than the input are refused. Values are passed as they are.", "quantifier": "all signatures, features and batches", "why_tests_cant": "shapes and large integers", "anchors": ["tensorflow_model_analysis/extractors/tfjs_predict_extractor.py:_batch_reducible_process"]}
{"id": "C259", "title": "Predictions of TFJS models", "statement": "What the binary writes are the outputs of the signature in order. They are stored as for TFLite models, and outputs for another number of examples are refused, as are missing ones.", "quantifier": "all signatures and outputs of the binary", "why_tests_cant": "several models and outputs", "anchors": ["tensorflow_model_analysis/extractors/tfjs_predict_extractor.py:_batch_reducible_process"]}
{"id": "C260", "title": "Predictions of earlier versions", "statement": "The legacy PredictExtractor gives for each example its extracts with what the model fetched, the weights of the model's spec and the predictions, by model name if there are several, each those for the same example. Several models need a config.", "quantifier": "all models, configs and examples", "why_tests_cant": "several models, missing weights", "anchors": ["tensorflow_model_analysis/extractors/legacy_predict_extractor.py:_TFMAPredictionDoFn"]}
{"id": "C261", "title": "Batches of the legacy predict extractor", "statement": "With a config a batch of extracts is taken apart into the examples of its raw records, and put together again after prediction. Each key then has one value for each example, in order, and the other extracts are kept.", "quantifier": "all batches", "why_tests_cant": "examples with different keys", "anchors": ["tensorflow_model_analysis/extractors/legacy_predict_extractor.py:_wrap_as_batched_extract", "tensorflow_model_analysis/extractors/legacy_predict_extractor.py:_unwrap_batched_extract", "tensorflow_model_analysis/extractors/legacy_predict_extractor.py:_TFMAPredict"]}
{"id": "C262", "title": "Keys of metrics of Keras models", "statement": "A metric saved in a Keras model has the key of the output its name begins with, the rest of the name, and the sub key of its class_id or top_k. Metrics of no output keep their names.", "quantifier": "all metrics and outputs", "why_tests_cant": "names that begin with those of several outputs", "anchors": ["tensorflow_model_analysis/evaluators/keras_util.py:_metric_keys"]}
{"id": "C263", "title": "Metrics of Keras models", "statement": "The metrics of a Keras model are computed by its compiled metrics and loss if those are all its metrics, and by evaluate otherwise. For metrics whose weights are sums the values depend only on the examples, not on batches, bundles, merges and compaction; without examples they are those of the reset metrics.", "quantifier": "all models, schedules and batch sizes", "why_tests_cant": "all ways to bundle and to flush", "anchors": ["tensorflow_model_analysis/evaluators/keras_util.py:metric_computations_using_keras_saved_model", "tensorflow_model_analysis/evaluators/keras_util.py:_KerasCombiner", "tensorflow_model_analysis/evaluators/keras_util.py:_KerasCompiledMetricsCombiner", "tensorflow_model_analysis/evaluators/keras_util.py:_KerasEvaluateCombiner"]}
{"id": "C264", "title": "Metrics specs by query key", "statement": "The metrics specs are evaluated in groups, one for each query key they have, with the specs of that key in order. Each spec is in exactly one group; without specs there is the group of the empty spec.", "quantifier": "all lists of metrics specs", "why_tests_cant": "specs of one key far apart", "anchors": ["tensorflow_model_analysis/evaluators/metrics_plots_and_validations_evaluator.py:_EvaluateMetricsPlotsAndValidations"]}
{"id": "C265", "title": "Metrics saved in models", "statement": "Metrics saved in Keras models that ask for their default metrics are computed unless the option is off, and not in groups with a query key. Where a spec has a metric of the same key, the value is that of the spec.", "quantifier": "all models, options and specs", "why_tests_cant": "which option, model and group take effect together", "anchors": ["tensorflow_model_analysis/evaluators/metrics_plots_and_validations_evaluator.py:_ComputeMetricsAndPlots", "tensorflow_model_analysis/evaluators/metrics_plots_and_validations_evaluator.py:_EvaluateMetricsPlotsAndValidations"]}
{"id": "C266", "title": "The metrics of each slice", "statement": "An evaluation reports exactly the slices some extract is in, each once. A slice's metrics are those of the extracts in it, in any order, with derived metrics, diffs and intervals added and private metrics removed; a slice with fewer extracts than the minimum has only an error, except the overall slice. The evaluation succeeds if that of each extract and of each slice does.", "quantifier": "all computations, extracts, schedules and minimum sizes", "why_tests_cant": "all ways to bundle and merge, all sets of slices", "anchors": ["tensorflow_model_analysis/evaluators/metrics_plots_and_validations_evaluator.py:_ComputeMetricsAndPlots"]}
{"id": "C267", "title": "The results of several query keys", "statement": "The results of the groups are put together by slice: no entry is lost or added, and a key that two groups report ends the run. With one group the metrics, plots and attributions have the same slices and each entry is in just one of them. Hiding a small slice does not end the run.", "quantifier": "all groups and results", "why_tests_cant": "groups that share slices", "anchors": ["tensorflow_model_analysis/evaluators/metrics_plots_and_validations_evaluator.py:_EvaluateMetricsPlotsAndValidations", "tensorflow_model_analysis/evaluators/evaluator.py:combine_dict_based_evaluations", "tensorflow_model_analysis/slicer/slicer_lib.py:FilterOutSlices"]}
{"id": "C268", "title": "Differences of cross slices to the baseline model", "statement": "For a pair of slices, the difference of a metric to the baseline model is the baseline slice's difference to that model minus the comparison slice's.", "quantifier": "all metrics of two slices", "why_tests_cant": "two kinds of difference at once", "anchors": ["tensorflow_model_analysis/evaluators/metrics_plots_and_validations_evaluator.py:_ComputeMetricsAndPlots", "tensorflow_model_analysis/evaluators/metrics_plots_and_validations_evaluator.py:_AddCrossSliceMetrics", "tensorflow_model_analysis/evaluators/metrics_plots_and_validations_evaluator.py:_AddDerivedCrossSliceAndDiffMetrics"]}
{"id": "C269", "title": "Queries and slices", "statement": "With a query key there is one extract for each query, made of all its examples. It is in the slices of any of them, so the slices are those of the examples. The metrics of a slice are computed from the examples in it.", "quantifier": "all examples, queries and slices", "why_tests_cant": "queries over several slices", "anchors": ["tensorflow_model_analysis/evaluators/metrics_plots_and_validations_evaluator.py:_GroupByQueryKey", "tensorflow_model_analysis/slicer/slicer_lib.py:FanoutSlices"]}
{"id": "C270", "title": "The way of confidence intervals", "statement": "If a config asks for confidence intervals they are computed: from 20 bootstrap samples if that method is set, else from 20 jackknife samples. If it does not, none are.", "quantifier": "all configs", "why_tests_cant": "combinations of options", "anchors": ["tensorflow_model_analysis/evaluators/metrics_plots_and_validations_evaluator.py:_get_confidence_interval_params", "tensorflow_model_analysis/evaluators/metrics_plots_and_validations_evaluator.py:_ComputeMetricsAndPlots"]}
{"id": "C271", "title": "Validation of hidden slices", "statement": "A slice hidden for being small fails validation if a model that is not the baseline has a threshold that is not of cross slices. A threshold for the overall slice only does not concern other slices.", "quantifier": "all thresholds and slices", "why_tests_cant": "thresholds and slice sizes together", "anchors": ["tensorflow_model_analysis/evaluators/metrics_plots_and_validations_evaluator.py:_EvaluateMetricsPlotsAndValidations", "tensorflow_model_analysis/evaluators/metrics_validator.py:validate_metrics", "tensorflow_model_analysis/slicer/slicer_lib.py:FilterOutSlices"]}
{"id": "C272", "title": "Values to tensors and back", "statement": "Converting nested tensor values to tensors and back gives the same values: dense, sparse, ragged and of variable length. No value is lost or moved to another place.", "quantifier": "all nested tensor values", "why_tests_cant": "all shapes and nestings", "anchors": ["tensorflow_model_analysis/utils/util.py:to_tensor_values", "tensorflow_model_analysis/utils/util.py:to_tensorflow_tensors"]}
{"id": "C273", "title": "Tensors for specs", "statement": "With specs the tensors are just those the specs name, each of the value at the same path. A spec whose value is not there, or is a dictionary, is refused. Without specs, that is with an empty dictionary of them, there is no tensor.", "quantifier": "all nested specs and values", "why_tests_cant": "specs and values of all nestings", "anchors": ["tensorflow_model_analysis/utils/util.py:to_tensorflow_tensors"]}
{"id": "C274", "title": "Shapes of specs", "statement": "A dense value is given the shape of its spec except for the first size, which stays that of the batch; the values of each row stay the same. It succeeds whenever the sizes fit, for batches without rows, too.", "quantifier": "all dense values and shapes", "why_tests_cant": "shapes with unknown sizes", "anchors": ["tensorflow_model_analysis/utils/util.py:to_tensorflow_tensors"]}
{"id": "C275", "title": "Inferred specs", "statement": "Specs inferred from tensors fit the tensors they are inferred from, and fit batches of any other number of rows. Tensors of no dimension are refused.", "quantifier": "all nested tensors", "why_tests_cant": "all batch sizes", "anchors": ["tensorflow_model_analysis/utils/util.py:infer_tensor_specs", "tensorflow_model_analysis/utils/util.py:to_tensorflow_tensors"]}
{"id": "C276", "title": "Features of record batches", "statement": "Without tensor representations each column of a record batch is one feature. Lists all there and of one length are an array of a row for each list. If lists are missing the feature has None for them. Otherwise it is of variable length, with the values of each row at their positions.", "quantifier": "all record batches", "why_tests_cant": "lists missing, empty and of several lengths", "anchors": ["tensorflow_model_analysis/utils/util.py:record_batch_to_tensor_values"]}
{"id": "C277", "title": "Record batches and tensor representations", "statement": "With tensor representations each is used for the feature of its name: dense, of variable length, ragged or sparse. Columns for which there is none are converted as without. A dense representation refuses lists that are missing or not of its size.", "quantifier": "all record batches and representations", "why_tests_cant": "representations and columns of different names", "anchors": ["tensorflow_model_analysis/utils/util.py:record_batch_to_tensor_values"]}
{"id": "C278", "title": "Representations of input specs", "statement": "Each input of a model gets a representation of the kind and shape of its spec, of the column of its name. Dense inputs with unknown sizes beside the first are refused.", "quantifier": "all input specs", "why_tests_cant": "all kinds and shapes", "anchors": ["tensorflow_model_analysis/utils/model_util.py:input_specs_to_tensor_representations"]}
{"id": "C279", "title": "From record batches to inputs", "statement": "For dense inputs of known sizes, record batches converted with the representations of the inputs' specs and then to tensors of those specs give for each input its column's lists in order, one row for each example. Other columns do not matter.", "quantifier": "all record batches and inputs", "why_tests_cant": "three conversions one after the other", "anchors": ["tensorflow_model_analysis/utils/model_util.py:input_specs_to_tensor_representations", "tensorflow_model_analysis/utils/util.py:record_batch_to_tensor_values", "tensorflow_model_analysis/utils/util.py:to_tensorflow_tensors"]}
{"id": "C280", "title": "Texts of slices", "statement": "The text a slice is displayed under names its columns and values: slices displayed under the same text are the same slice.", "quantifier": "all slice keys", "why_tests_cant": "texts that collide only for rare names and values", "anchors": ["tensorflow_model_analysis/slicer/slicer_lib.py:stringify_slice_key"]}
{"id": "C281", "title": "Slices displayed", "statement": "With a column the view shows all slices of that column alone; with a spec those it selects; with neither the overall slice. If there is none, or several overall slices, it is refused. Cross slices among the results do not matter.", "quantifier": "all results, columns and specs", "why_tests_cant": "results with slices of many columns", "anchors": ["tensorflow_model_analysis/view/widget_view.py:render_slicing_metrics", "tensorflow_model_analysis/view/util.py:get_slicing_metrics"]}
{"id": "C282", "title": "Sizes displayed", "statement": "The size of slices is shown by the column asked for; else by the weighted count if the model shown has example weights, and the count if not, under the names of the kind of config.", "quantifier": "all configs", "why_tests_cant": "configs with baselines, weights and several outputs", "anchors": ["tensorflow_model_analysis/view/util.py:get_slicing_config"]}
{"id": "C283", "title": "Plots displayed", "statement": "The plots displayed are those of the one slice selected, of the output and of the sub key asked for, as metrics have it. Nothing else is displayed, and refusals are ValueErrors.", "quantifier": "all results, specs, outputs and sub keys", "why_tests_cant": "many combinations of arguments", "anchors": ["tensorflow_model_analysis/view/util.py:get_plot_data_and_config", "tensorflow_model_analysis/view/widget_view.py:render_plot"]}
{"id": "C284", "title": "Plots without NaN", "statement": "In plots displayed NaN is replaced by null, wherever it is; all else stays the same, in order. Plots of other kinds are left out.", "quantifier": "all plot data", "why_tests_cant": "values nested in plot data", "anchors": ["tensorflow_model_analysis/view/util.py:_replace_nan_with_none", "tensorflow_model_analysis/view/util.py:get_plot_data_and_config"]}
{"id": "C285", "title": "Plots by label", "statement": "With a label the plots displayed are those under the one name the label is part of. A label of no name or of several names is refused, and so is a label given with an output or sub key.", "quantifier": "all results and labels", "why_tests_cant": "labels part of several names", "anchors": ["tensorflow_model_analysis/view/util.py:get_plot_data_and_config"]}
{"id": "C286", "title": "Attributions displayed", "statement": "The attributions displayed are, for the slices metrics would be displayed of, those of the metric asked for at each output and sub key, or of the only metric. If it is missing anywhere, or there are several and none is named, it is refused.", "quantifier": "all results, metrics and slices", "why_tests_cant": "results with several metrics and outputs", "anchors": ["tensorflow_model_analysis/view/widget_view.py:render_slicing_attributions", "tensorflow_model_analysis/view/util.py:get_slicing_metrics"]}
{"id": "C287", "title": "All slices at once", "statement": "The metrics and attributions of all slices are just those given for each slice asked for on its own. The slice names are those of the slices there are metrics for.", "quantifier": "all results with different slices", "why_tests_cant": "agreement of several functions for all arguments", "anchors": ["tensorflow_model_analysis/view/view_types.py:EvalResult"]}
{"id": "C288", "title": "Time series", "statement": "A time series has a point for each run that has the slice, in order, with the metrics and the identifiers of model and data: the whole path or what follows its last slash. It is refused if no run has the slice, if several slices of a run are selected, or the mode is not one of the two. Runs of different models have different identifiers.", "quantifier": "all runs, specs and modes", "why_tests_cant": "runs with and without the slice", "anchors": ["tensorflow_model_analysis/view/widget_view.py:render_time_series", "tensorflow_model_analysis/view/util.py:get_time_series", "tensorflow_model_analysis/view/util.py:_get_identifier", "tensorflow_model_analysis/view/view_types.py:EvalResults"]}
{"id": "C289", "title": "Pages of notebooks", "statement": "A page is a frame that does not depend on the data, with the data in base64 in it, from which they are read back: no data can end the script. Only known components are put in pages. Each page whose events are handled has a callback of its own name, with its own handlers.", "quantifier": "all data, components and handlers", "why_tests_cant": "all data, and all orders of pages", "anchors": ["tensorflow_model_analysis/notebook/colab/util.py:generate_html_for_tfma_component", "tensorflow_model_analysis/notebook/colab/util.py:to_base64_encoded_json", "tensorflow_model_analysis/notebook/colab/util.py:make_trusted_event_handler_js"]}
{"id": "C290", "title": "Sides of metrics", "statement": "Each metric of a spec is computed either as a metric of Keras or as one of TFMA, each side in the order of the spec: class names TFMA has registered are TFMA's, those without a module Keras's, all others by what their class is. An instance has the configuration given and is of the class of the module given.", "quantifier": "all specs, modules and registries", "why_tests_cant": "custom classes in many combinations of modules and names", "anchors": ["tensorflow_model_analysis/metrics/metric_specs.py:to_computations", "tensorflow_model_analysis/metrics/metric_specs.py:_deserialize_tf_metric", "tensorflow_model_analysis/metrics/metric_specs.py:_deserialize_tf_loss", "tensorflow_model_analysis/metrics/metric_specs.py:_deserialize_tfma_metric"]}
{"id": "C291", "title": "Gathering Keras metrics", "statement": "The Keras metrics of all specs are gathered into calls, one for each model, sub key, aggregation, class weights and weighting. Together they are for just the metrics the specs ask for, at the outputs they ask for, the later specs after the earlier. Binarization and aggregation of a spec both count.", "quantifier": "all lists of specs", "why_tests_cant": "all combinations of binarization, aggregation, models, outputs and weights", "anchors": ["tensorflow_model_analysis/metrics/metric_specs.py:_process_tf_metrics_specs", "tensorflow_model_analysis/metrics/metric_specs.py:_create_sub_keys"]}
{"id": "C292", "title": "Keys of Keras metrics", "statement": "The keys of the Keras metrics computed are just those the specs ask for, each once: what is computed for one spec is not lost to another.", "quantifier": "all lists of specs", "why_tests_cant": "specs that overlap in some respects only", "anchors": ["tensorflow_model_analysis/metrics/metric_specs.py:_process_tf_metrics_specs", "tensorflow_model_analysis/metrics/tf_metric_wrapper.py:tf_metric_computations"]}
{"id": "C293", "title": "Classes of macro averages of Keras metrics", "statement": "For each class or rank a macro average is taken over, the Keras metric of that class is computed, where the average looks for it: under its own name if the spec binarizes by that class, else hidden.", "quantifier": "all specs with macro averages", "why_tests_cant": "all classes, binarized or not", "anchors": ["tensorflow_model_analysis/metrics/metric_specs.py:_process_tf_metrics_specs", "tensorflow_model_analysis/metrics/metric_specs.py:_private_tf_metric", "tensorflow_model_analysis/metrics/metric_specs.py:_private_tf_loss", "tensorflow_model_analysis/metrics/metric_specs.py:_macro_average_sub_keys"]}
{"id": "C294", "title": "Thresholds configured", "statement": "The thresholds used in validation are just those configured: each bound on a value or a change, for each model, output, class, position and aggregation of its spec, with the weighting of the spec, at the slices or pairs of slices it is configured for. Those by name are for metrics without weighting. Configurations with valid positions and slicing specs are accepted.", "quantifier": "all lists of metrics specs with thresholds of all kinds", "why_tests_cant": "thresholds of metrics, of names, per slice and across slices, together with binarization and aggregation", "anchors": ["tensorflow_model_analysis/metrics/metric_specs.py:metric_thresholds_from_metrics_specs", "tensorflow_model_analysis/metrics/metric_specs.py:_create_sub_keys", "tensorflow_model_analysis/metrics/metric_specs.py:_keys_for_metric"]}
{"id": "C295", "title": "OK means within the bounds configured", "statement": "If the validation of an evaluation is OK then on each slice, or pair of slices, a bound is configured for, each metric it is configured for has a value, and that value is within the bound.", "quantifier": "all configurations, results and orders of combination", "why_tests_cant": "the way from configuration to verdict through four modules", "anchors": ["tensorflow_model_analysis/metrics/metric_specs.py:metric_thresholds_from_metrics_specs", "tensorflow_model_analysis/evaluators/metrics_validator.py:validate_metrics", "tensorflow_model_analysis/evaluators/metrics_plots_and_validations_evaluator.py"]}
{"id": "C296", "title": "Each place of a threshold counts", "statement": "A threshold for the slices of a SQL query is checked on those slices, and one for slices without a slicing spec is checked somewhere.", "quantifier": "all thresholds per slice", "why_tests_cant": "validation that is OK looks right", "anchors": ["tensorflow_model_analysis/metrics/metric_specs.py:metric_thresholds_from_metrics_specs", "tensorflow_model_analysis/proto/config.proto:SlicingSpec"]}
{"id": "C297", "title": "Metrics come back from their configs", "statement": "A registered metric made with any arguments says a config from which, in any order of keys, a metric with the same settings is made. So metrics put into specs and read back are the same.", "quantifier": "all registered metric classes and all keyword arguments they accept", "why_tests_cant": "each of a hundred constructors with each combination of arguments", "anchors": ["tensorflow_model_analysis/metrics/metric_types.py:Metric.get_config", "tensorflow_model_analysis/metrics/metric_types.py:Metric.from_config", "tensorflow_model_analysis/metrics/confusion_matrix_metrics.py:ConfusionMatrixMetricBase.get_config", "tensorflow_model_analysis/metrics/metric_specs.py:_serialize_tfma_metric", "tensorflow_model_analysis/metrics/metric_specs.py:_deserialize_tfma_metric"]}
{"id": "C298", "title": "Every metric takes its own config", "statement": "No registered metric refuses the config it gives.", "quantifier": "all registered metric classes and arguments", "why_tests_cant": "classes are seldom read back in tests of their own", "anchors": ["tensorflow_model_analysis/metrics/bleu.py:Bleu", "tensorflow_model_analysis/metrics/flip_metrics.py:BooleanFlipRates", "tensorflow_model_analysis/metrics/object_detection_metrics.py:COCOAveragePrecision", "tensorflow_model_analysis/metrics/confusion_matrix_metrics.py:MaxRecall", "tensorflow_model_analysis/metrics/confusion_matrix_metrics.py:BinaryAccuracy"]}
{"id": "C299", "title": "Preprocessors of confusion matrix metrics", "statement": "Preprocessors given to a confusion matrix metric are part of the metric.", "quantifier": "all confusion matrix metrics and preprocessors", "why_tests_cant": "a metric without its preprocessors still has a value", "anchors": ["tensorflow_model_analysis/metrics/confusion_matrix_metrics.py:ConfusionMatrixMetricBase"]}
{"id": "C300", "title": "Calls that make computations", "statement": "The function of a metric is called with what is asked for under the reserved names it takes, before the metric's own settings, and with the settings under all other names; functions of one key are called once for each model, output and sub key in order. Weights a metric does not support are refused.", "quantifier": "all functions, settings and requests", "why_tests_cant": "functions take any subset of the reserved names", "anchors": ["tensorflow_model_analysis/metrics/metric_types.py:validate_and_update_create_computations_fn_kwargs", "tensorflow_model_analysis/metrics/metric_types.py:Metric.computations", "tensorflow_model_analysis/metrics/metric_util.py:merge_per_key_computations"]}
{"id": "C301", "title": "Functions take their calls", "statement": "A registered metric made with arguments its constructor or its function knows can be computed: every call of its function has all parameters it needs and no others than it knows. A setting the function does not know makes the computation fail.", "quantifier": "all registered metric classes, arguments and requests", "why_tests_cant": "calls are put together from settings and requests at run time, for each of a hundred functions", "anchors": ["tensorflow_model_analysis/metrics/metric_types.py:Metric.computations", "tensorflow_model_analysis/metrics/metric_util.py:merge_per_key_computations", "tensorflow_model_analysis/metrics/confusion_matrix_metrics.py", "tensorflow_model_analysis/metrics/object_detection_metrics.py"]}
{"id": "C302", "title": "Settings reach the function", "statement": "The settings a registered metric is made with are those its function is called with.", "quantifier": "all registered metric classes, settings and requests", "why_tests_cant": "a setting that is lost leaves the default, which still gives values", "anchors": ["tensorflow_model_analysis/metrics/object_detection_metrics.py:COCOMeanAveragePrecision", "tensorflow_model_analysis/metrics/object_detection_metrics.py:COCOMeanAverageRecall", "tensorflow_model_analysis/metrics/metric_types.py:validate_and_update_create_computations_fn_kwargs", "tensorflow_model_analysis/metrics/metric_util.py:merge_per_key_computations"]}
{"id": "C303", "title": "Calls name the model and the output", "statement": "The function of a metric that is computed for each model and output is told which model and which output each call is for.", "quantifier": "all registered metric classes and requests", "why_tests_cant": "models of one output have no output name", "anchors": ["tensorflow_model_analysis/metrics/set_match_confusion_matrix_metrics.py:SetMatchPrecision._metric_computations", "tensorflow_model_analysis/metrics/set_match_confusion_matrix_metrics.py:SetMatchRecall._metric_computations", "tensorflow_model_analysis/metrics/metric_util.py:merge_per_key_computations"]}
{"id": "C304", "title": "Metrics that take example weights", "statement": "All registered metrics but Bleu, Rouge, Mean and ModelCosineSimilarity take example weights, and the function is told whether examples are weighted; those four refuse example weights.", "quantifier": "all registered metric classes and requests without class weights", "why_tests_cant": "one test for each of a hundred classes", "anchors": ["tensorflow_model_analysis/metrics/metric_types.py:validate_and_update_create_computations_fn_kwargs", "tensorflow_model_analysis/metrics/bleu.py:Bleu", "tensorflow_model_analysis/metrics/rouge.py:Rouge", "tensorflow_model_analysis/metrics/stats.py:Mean", "tensorflow_model_analysis/metrics/model_cosine_similarity.py:ModelCosineSimilarity"]}
{"id": "C305", "title": "Values from bootstrap replicas", "statement": "With two samples or more, each number of a metric, in arrays too, has the mean, the standard deviation and the degrees of freedom of its replicas that are not NaN, in whatever order the replicas come; protos are those without sampling. Replicas with the names and structures of the metrics without sampling are accepted.", "quantifier": "all metrics, numbers of replicas and orders", "why_tests_cant": "replicas are random and come in any order", "anchors": ["tensorflow_model_analysis/evaluators/legacy_poisson_bootstrap.py:_calculate_t_distribution", "tensorflow_model_analysis/evaluators/legacy_poisson_bootstrap.py:_MergeBootstrap"]}
{"id": "C306", "title": "Values without sampling are kept", "statement": "A number with a t distribution comes with its value without sampling.", "quantifier": "all metrics and replicas", "why_tests_cant": "replicas that are all NaN are rare", "anchors": ["tensorflow_model_analysis/evaluators/legacy_poisson_bootstrap.py:_calculate_t_distribution"]}
{"id": "C307", "title": "Slices and numbers of bootstrap samples", "statement": "There is one result for each slice that any replica has. Without samples the metrics are as they are, and a negative number of samples is refused, as is a slice with other names in the replicas than without sampling.", "quantifier": "all numbers of samples and all metrics", "why_tests_cant": "slices missing in some replicas depend on draws", "anchors": ["tensorflow_model_analysis/evaluators/legacy_poisson_bootstrap.py:ComputeWithConfidenceIntervals", "tensorflow_model_analysis/evaluators/legacy_poisson_bootstrap.py:_MergeBootstrap"]}
{"id": "C308", "title": "Metrics on workers are those configured", "statement": "Each Keras metric and each loss of a computation is on the workers an object of the class and with the settings it was made with, by output and metrics before losses. A class that its module does not have is refused.", "quantifier": "all metrics, losses, outputs and modules", "why_tests_cant": "classes of the same name from two modules, or a metric and a loss of the same name, are not in one test", "anchors": ["tensorflow_model_analysis/metrics/tf_metric_wrapper.py:_custom_objects", "tensorflow_model_analysis/metrics/tf_metric_wrapper.py:_load_custom_objects", "tensorflow_model_analysis/metrics/tf_metric_wrapper.py:_CompilableMetricsCombiner.setup"]}
{"id": "C309", "title": "Models run in bulk", "statement": "With bulk inference, each model spec is run with the model of its name, or the only model, from its path and with its tags, its batch size and its signature, by default predict where the saved model has it and else serving_default; its log is under its name. Specs are accepted just when each has a model.", "quantifier": "all model specs, shared models and saved models", "why_tests_cant": "order and names of several models", "anchors": ["tensorflow_model_analysis/extractors/tfx_bsl_predictions_extractor.py:TfxBslInferenceWrapper", "tensorflow_model_analysis/extractors/tfx_bsl_predictions_extractor.py:TfxBslPredictionsExtractor", "tensorflow_model_analysis/utils/model_util.py:get_eval_shared_model"]}
{"id": "C310", "title": "Tags of metric keys", "statement": "A tag is put after the first part of a metric key, and different keys or tags give different tagged keys.", "quantifier": "all keys and tags", "why_tests_cant": "keys and tags are free text", "anchors": ["tensorflow_model_analysis/post_export_metrics/metric_keys.py:tagged_key"]}
{"id": "C311", "title": "Keys of plots", "statement": "A metric key is the key of a plot just when it is the name of one of the four plots, under any prefix; a tag does not change that, and bounds are never plots.", "quantifier": "all keys, prefixes and tags", "why_tests_cant": "keys and tags are free text", "anchors": ["tensorflow_model_analysis/post_export_metrics/metric_keys.py:is_plot_key", "tensorflow_model_analysis/post_export_metrics/metric_keys.py:upper_bound_key", "tensorflow_model_analysis/post_export_metrics/metric_keys.py:lower_bound_key"]}
{"id": "C312", "title": "Batches in a metrics graph", "statement": "A list of examples gives the variables of the metrics updated with it from their start, whatever they were before. If the list is refused, its examples are run one by one from the start.", "quantifier": "all graphs of metrics, variables and examples", "why_tests_cant": "errors depend on memory and on data", "anchors": ["tensorflow_model_analysis/eval_metrics_graph/eval_metrics_graph.py:EvalMetricsGraph.metrics_reset_update_get_list", "tensorflow_model_analysis/eval_metrics_graph/eval_metrics_graph.py:EvalMetricsGraph._perform_metrics_update_list", "tensorflow_model_analysis/utils/util.py:reraise_augmented"]}
{"id": "C313", "title": "Variables of a metrics graph are set and read", "statement": "After the variables of a graph were set they are read as they were set, and the values of the metrics are by name those of the variables set. Too few values are refused.", "quantifier": "all graphs of metrics and variables", "why_tests_cant": "metrics of several registrations share one list of variables", "anchors": ["tensorflow_model_analysis/eval_metrics_graph/eval_metrics_graph.py:EvalMetricsGraph.metrics_set_variables_and_get_values", "tensorflow_model_analysis/eval_metrics_graph/eval_metrics_graph.py:EvalMetricsGraph.set_metric_variables", "tensorflow_model_analysis/eval_metrics_graph/eval_metrics_graph.py:EvalMetricsGraph.get_metric_variables"]}
{"id": "C314", "title": "Registering metrics on a graph", "statement": "Callbacks whose names are new and differ are registered after the metrics there are, with all their variables, and every variable is at its start. A name that is taken or given by two callbacks is refused, and the graph is as before.", "quantifier": "all graphs, callbacks and names", "why_tests_cant": "conflicts depend on which callbacks come together", "anchors": ["tensorflow_model_analysis/eval_metrics_graph/eval_metrics_graph.py:EvalMetricsGraph.register_add_metric_callbacks", "tensorflow_model_analysis/eval_metrics_graph/eval_metrics_graph.py:EvalMetricsGraph.register_additional_metric_ops"]}
{"id": "C315", "title": "Extracts selected by preprocessors", "statement": "The preprocessors for inputs, features, transformed features, combined features and attributions give for each example one extract, with the values of the example under the keys asked for (of all keys if none are given, and of the models and outputs named), with the labels, predictions and example weights unless these are excluded, and nothing else. Extracts whose features are dictionaries are accepted.", "quantifier": "all extracts, keys, models and outputs", "why_tests_cant": "nesting by model and output multiplies the shapes of extracts", "anchors": ["tensorflow_model_analysis/metrics/metric_types.py:FeaturePreprocessor", "tensorflow_model_analysis/metrics/metric_types.py:TransformedFeaturePreprocessor", "tensorflow_model_analysis/metrics/metric_types.py:CombinedFeaturePreprocessor", "tensorflow_model_analysis/metrics/metric_types.py:AttributionPreprocessor", "tensorflow_model_analysis/metrics/metric_types.py:InputPreprocessor"]}
{"id": "C316", "title": "Inputs of Keras models that are evaluated", "statement": "A Keras model with metrics of its own is evaluated on the features it takes as inputs, a transformed feature of the model instead of the raw one of the same name, and on its labels and example weights.", "quantifier": "all extracts, models and inputs", "why_tests_cant": "the other computations of an evaluation may ask for the same extracts and hide the loss", "anchors": ["tensorflow_model_analysis/evaluators/keras_util.py:metric_computations_using_keras_saved_model", "tensorflow_model_analysis/evaluators/keras_util.py:_KerasEvaluateCombiner._add_input", "tensorflow_model_analysis/metrics/metric_types.py:StandardMetricInputsPreprocessorList"]}
{"id": "C317", "title": "Means read the features they ask for", "statement": "The extract that the mean of a feature gets holds the values that the mean reads, under its feature path and its example weight path: adding this extract to the sums gives what adding the whole extract gives.", "quantifier": "all extracts, feature paths and weight paths", "why_tests_cant": "the filter is made from the paths, but values are also found under joined keys", "anchors": ["tensorflow_model_analysis/metrics/stats.py:_mean_metric", "tensorflow_model_analysis/metrics/stats.py:_convert_key_path_to_dict", "tensorflow_model_analysis/metrics/stats.py:_MeanCombiner"]}
{"id": "C318", "title": "Examples are evaluated with their own labels and weights", "statement": "When a batch of examples is evaluated with a Keras model, the labels and example weights of each output that has a name (or of the only output) have one row per example, in the order of the examples, which holds the example's own labels and weights for that output. Models with one output get plain arrays, others dictionaries with exactly these outputs.", "quantifier": "all batches, outputs, labels and weights", "why_tests_cant": "rows only go wrong for several outputs in one batch", "anchors": ["tensorflow_model_analysis/evaluators/keras_util.py:_KerasEvaluateCombiner._add_input", "tensorflow_model_analysis/evaluators/keras_util.py:_KerasEvaluateCombiner._update_state"]}
{"id": "C319", "title": "Batches are evaluated on the features of their examples", "statement": "The inputs of a Keras model that is evaluated on a batch are found in the merged features of its examples in order, transformed features instead of raw ones of the same name. The batch is evaluated at once, and is refused if inputs of the model are missing.", "quantifier": "all batches and features", "why_tests_cant": "features of some examples may be missing or of other shapes", "anchors": ["tensorflow_model_analysis/evaluators/keras_util.py:_KerasEvaluateCombiner._add_input", "tensorflow_model_analysis/evaluators/keras_util.py:_KerasEvaluateCombiner._update_state", "tensorflow_model_analysis/utils/util.py:merge_extracts", "tensorflow_model_analysis/utils/util.py:batch_size"]}
{"id": "C320", "title": "Metrics compiled with a model get their own rows", "statement": "When the metrics compiled with a Keras model are updated with a batch, each output that has a name (or the only output) gets one row per example, in the order of the examples: the example's labels, predictions and weights for that output. With padding configured, labels and predictions are extended by the configured values to the longest labels or predictions of that output in the batch.", "quantifier": "all batches, outputs, labels, predictions and padding options", "why_tests_cant": "the width of one output only matters beside a wider output", "anchors": ["tensorflow_model_analysis/evaluators/keras_util.py:_KerasCompiledMetricsCombiner._add_input", "tensorflow_model_analysis/evaluators/keras_util.py:_KerasCompiledMetricsCombiner._update_state", "tensorflow_model_analysis/metrics/tf_metric_accumulators.py:TFCompilableMetricsAccumulator"]}
{"id": "C321", "title": "Confusion matrix metrics are computed from their own pairs", "statement": "Several metrics of binary confusion matrices that are configured together (binarized or aggregated, over classes or over the top k, at any thresholds) each report the value that they report alone.", "quantifier": "all lists of metrics, thresholds, sub keys, aggregation types and extracts", "why_tests_cant": "only some pairs of settings share the private keys under which matrices are kept", "anchors": ["tensorflow_model_analysis/metrics/binary_confusion_matrices.py:binary_confusion_matrices", "tensorflow_model_analysis/metrics/calibration_histogram.py:calibration_histogram", "tensorflow_model_analysis/metrics/confusion_matrix_metrics.py:ConfusionMatrixMetricBase._metric_computations", "tensorflow_model_analysis/metrics/metric_specs.py:_create_sub_keys"]}
{"id": "C322", "title": "Bounds on metrics are checked on averages", "statement": "A bound that is configured for a metric is checked on every value that is reported for the metric: on the metric of each model, output, class or top k and weighting, and on its micro averages. The metric and its micro average are both reported when both are configured.", "quantifier": "all metric specs, thresholds and metrics", "why_tests_cant": "an average is only mixed up with its metric, or not checked, for metrics whose key leaves out the aggregation", "anchors": ["tensorflow_model_analysis/metrics/metric_specs.py:_keys_for_metric", "tensorflow_model_analysis/metrics/metric_specs.py:metric_thresholds_from_metrics_specs", "tensorflow_model_analysis/metrics/metric_specs.py:_process_tfma_metrics_specs", "tensorflow_model_analysis/metrics/mean_regression_error.py:MeanSquaredError", "tensorflow_model_analysis/metrics/confusion_matrix_metrics.py:ConfusionMatrixMetricBase._metric_computations"]}
{"id": "C323", "title": "Calibration metrics are computed from their own totals", "statement": "The calibration, the mean label and the mean prediction that are configured together, under any aggregations and class weights, each report the quotient of the totals that they report alone.", "quantifier": "all lists of calibration metrics, sub keys, aggregation types, class weights and extracts", "why_tests_cant": "totals are only shared by metrics of one model, output, sub key and weighting", "anchors": ["tensorflow_model_analysis/metrics/calibration.py:_calibration", "tensorflow_model_analysis/metrics/calibration.py:_mean_label", "tensorflow_model_analysis/metrics/calibration.py:_mean_prediction", "tensorflow_model_analysis/metrics/calibration.py:_weighted_labels_predictions_examples"]}
{"id": "C324", "title": "Counts of examples have no intervals in any spec", "statement": "The example counts that a metrics spec reports (for its models, outputs, classes or top k and weightings, and with averages configured) are plain values without confidence interval.", "quantifier": "all metric specs, samples and interval methods", "why_tests_cant": "needs counts beside averages together with confidence intervals", "anchors": ["tensorflow_model_analysis/metrics/metric_specs.py:metric_keys_to_skip_for_confidence_intervals", "tensorflow_model_analysis/metrics/metric_specs.py:keys_and_metrics_from_specs", "tensorflow_model_analysis/metrics/example_count.py:example_count", "tensorflow_model_analysis/evaluators/confidence_intervals_util.py:SampleCombineFn"]}
{"id": "C325", "title": "A model that keeps the bounds of a metric passes", "statement": "A model passes the bounds that are configured for a metric of confusion matrices exactly if every value that is reported for the metric (for each model, output, class or top k and weighting, also with top k or class of the metric's own) is a number within the bounds.", "quantifier": "all metric specs, bounds, reported metrics and slices", "why_tests_cant": "needs a metric with a top k of its own together with a threshold and validation", "anchors": ["tensorflow_model_analysis/metrics/confusion_matrix_metrics.py:_validate_and_update_sub_key", "tensorflow_model_analysis/metrics/metric_specs.py:metric_thresholds_from_metrics_specs", "tensorflow_model_analysis/metrics/metric_specs.py:_keys_for_metric", "tensorflow_model_analysis/evaluators/metrics_validator.py:validate_metrics"]}
{"id": "C326", "title": "Bounds on metrics of the model itself are checked on the values it reports", "statement": "A bound that a metrics spec sets by name on a metric that was saved with a Keras model is checked on the value that the model reports for it: validation passes exactly if the metric is reported, for each model and output of the spec, as a number within the bounds.", "quantifier": "all metric specs, Keras metrics, outputs, bounds, reported metrics and slices", "why_tests_cant": "needs a compiled metric with a top k, or a binarized spec, together with thresholds by name", "anchors": ["tensorflow_model_analysis/evaluators/keras_util.py:_metric_keys", "tensorflow_model_analysis/metrics/metric_specs.py:metric_thresholds_from_metrics_specs", "tensorflow_model_analysis/metrics/metric_specs.py:_keys_for_metric", "tensorflow_model_analysis/evaluators/metrics_validator.py:validate_metrics"]}
{"id": "C327", "title": "Confidence intervals do not change verdicts", "statement": "Validation of metrics that are reported with confidence intervals gives the same result as validation of the metrics of the whole data: the same verdict, failures and matching slices. This holds for both methods, whatever the samples hold, for skipped metrics, and when intervals are left out as samples are missing.", "quantifier": "all samples, methods, skipped metrics, thresholds, slices and baselines", "why_tests_cant": "bounds near the value or near the sample mean only differ for some samples", "anchors": ["tensorflow_model_analysis/api/types.py:ValueWithTDistribution.__float__", "tensorflow_model_analysis/evaluators/confidence_intervals_util.py:SampleCombineFn", "tensorflow_model_analysis/evaluators/jackknife.py:_JackknifeSampleCombineFn", "tensorflow_model_analysis/evaluators/poisson_bootstrap.py:_BootstrapSampleCombineFn", "tensorflow_model_analysis/evaluators/metrics_validator.py:validate_metrics"]}
