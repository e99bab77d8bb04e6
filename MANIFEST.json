{
 "claims": [
  {
   "property": "C01",
   "status": "proved",
   "theorems": [
    "C01_slices_exact"
   ],
   "note": "Proved for specs built from any SlicingSpec proto whose map keys are unique (they are in a proto), any features, any fallback dictionary, valid UTF-8 text. Order of equal-valued representatives is first occurrence instead of np.unique order."
  },
  {
   "property": "C02",
   "status": "proved",
   "theorems": [
    "C02_generated_applicable",
    "C02_applicable_characterised"
   ],
   "note": "Both directions."
  },
  {
   "property": "C03",
   "status": "partial",
   "theorems": [
    "C03_text_value_selects_refuted",
    "C03_bytes_value_selects_refuted",
    "C03_text_value_selects_partial"
   ],
   "note": "Refuted: numeric-looking text (\"02139\", or b\"42\") is normalised to a number and no longer matches. The partial theorem shows text that does not parse as a number is always matched."
  },
  {
   "property": "C04",
   "status": "proved",
   "theorems": [
    "C04_fanout_once"
   ],
   "note": "Keys compared by Python equality."
  },
  {
   "property": "C05",
   "status": "proved",
   "theorems": [
    "C05_slice_metrics_exact"
   ],
   "note": "Assumes Beam's CombinePerKey contract (Beam.per_key), no integral float feature values, valid UTF-8. Applies to every combiner that is a function of the multiset of its inputs; the concrete combiners are shown to be such in C10-C20."
  },
  {
   "property": "C06",
   "status": "proved",
   "theorems": [
    "C06_small_slices_hidden"
   ],
   "note": "Counts come from Count.PerElement over the same fanned-out examples."
  },
  {
   "property": "C07",
   "status": "partial",
   "theorems": [
    "C07_min_size_with_cross_slices_refuted",
    "C07_min_size_crashes_on_every_cross_slice"
   ],
   "note": "Refuted: FilterOutSlices indexes slices_count[0], which is empty for every cross slice key; the second theorem shows the crash happens whenever a cross slice value is present."
  },
  {
   "property": "C08",
   "status": "partial",
   "theorems": [
    "C08_slice_key_round_trip",
    "C08_cross_slice_key_round_trip",
    "C08_float_precision_refuted"
   ],
   "note": "float_value is a 32 bit field, hence the representability condition; the refuted theorem shows 0.1 does not survive."
  },
  {
   "property": "C09",
   "status": "proved",
   "theorems": [
    "C09_key_types_never_confused"
   ],
   "note": "Model of the duck-typing classifier over nested tuples of str/bytes/int/float."
  },
  {
   "property": "C10",
   "status": "proved",
   "theorems": [
    "C10_example_count",
    "C10_weighted_example_count",
    "C10_ambiguous_weights_rejected",
    "C10_mean"
   ],
   "note": "Sums are over exact rationals (floating point rounding not modelled). The example count theorem for the unweighted case needs no hypothesis at all."
  },
  {
   "property": "C11",
   "status": "proved",
   "theorems": [
    "C11_calibration"
   ],
   "note": "One class (binary) or flattened classes without sub key; labels and predictions dense and finite; exact rationals. np.isclose(x,0) is modelled as |x| <= 1e-8."
  },
  {
   "property": "C12",
   "status": "proved",
   "theorems": [
    "C12_bucket_contains",
    "C12_histogram_conserves"
   ],
   "note": "Any number of buckets and range, any argpartition, labels dense; the weights and labels are those of the flattened (and, if enabled, label-split) tuples. np.trunc on finite values; exact rationals."
  },
  {
   "property": "C13",
   "status": "proved",
   "theorems": [
    "C13_rebin"
   ],
   "note": "Holds for any sorted thresholds without NaN; every bucket goes to the last threshold at or below its lower edge, and totals are conserved. The first group also takes everything below the first threshold."
  },
  {
   "property": "C14",
   "status": "proved",
   "theorems": [
    "C14_confusion_counts"
   ],
   "note": "Distinct thresholds (repeated ones are C67). Both with fractional labels (weights split into label and 1-label parts) and without (label compared with the threshold). Dense one- or multi-class examples without sub key; predictions may be NaN or infinite."
  },
  {
   "property": "C15",
   "status": "proved",
   "theorems": [
    "C15_confusion_conserved_monotone",
    "C15_histogram_monotone"
   ],
   "note": "For the exact matrices with fractional labels (the default) and for those derived from a histogram (under the conditions of C16). Without fractional labels the positives themselves depend on the threshold, so the claim does not apply."
  },
  {
   "property": "C16",
   "status": "partial",
   "theorems": [
    "C16_histogram_conserves_refuted",
    "C16_histogram_conserves_partial"
   ],
   "note": "Refuted: for a threshold of at least 1+1e-7 (first threshold not negative) all four cells are left at values that drop examples. The partial theorem proves conservation at every threshold for every non-empty histogram when the thresholds are below 1+1e-7 or the first one is negative; sortedness is not needed. C64 relates the totals to the data."
  },
  {
   "property": "C17",
   "status": "partial",
   "theorems": [
    "C17_flip_rate_schedule_refuted",
    "C17_flip_rates_partial"
   ],
   "note": "Refuted: merge_accumulators takes next(iter(accumulators)) and then loops over all accumulators, so the first one is counted twice whenever the runner passes a re-iterable (the evaluator's tuple combiner passes tuples): 2/3 instead of 1/2. The partial theorem covers schedules without merges (bundles and further inputs)."
  },
  {
   "property": "C18",
   "status": "proved",
   "theorems": [
    "C18_flip_counts_partition"
   ],
   "note": "Holds for every merge tree, including the double counting of C17 (the duplicated weights are still partitioned)."
  },
  {
   "property": "C19",
   "status": "proved",
   "theorems": [
    "C19_ndcg_mean",
    "C19_ndcg_schedule",
    "C19_ndcg_range",
    "C19_perfect_ranking",
    "C19_mean_range"
   ],
   "note": "Exact real logarithms (standard library reals); np.argsort is an oracle with its documented contract, so ties may be broken either way. Queries without a positive gain are left out of the mean, as in the code."
  },
  {
   "property": "C20",
   "status": "proved",
   "theorems": [
    "C20_query_statistics",
    "C20_argsort_satisfiable",
    "C20_min_label_position"
   ],
   "note": "np.argsort is an oracle satisfying its contract (instance given), so ties may be broken either way. Document counts are multiplied by the example weight, as coded. Multi-model document counts are C62."
  },
  {
   "property": "C21",
   "status": "proved",
   "theorems": [
    "C21_jackknife_samples",
    "C21_point_estimates"
   ],
   "note": "Complete for the metrics before derived metrics are added; derived metrics are functions of them (C40)."
  },
  {
   "property": "C22",
   "status": "proved",
   "theorems": [
    "C22_intervals"
   ],
   "note": "Complete, for every schedule; values are numbers (structured values and arrays behave like several numbers)."
  },
  {
   "property": "C23",
   "status": "proved",
   "theorems": [
    "C23_jackknife",
    "C23_bootstrap",
    "C23_shift",
    "C23_interval"
   ],
   "note": "Complete; the standard error is given by its square, the interval is in real numbers with any quantile >= 0."
  },
  {
   "property": "C24",
   "status": "proved",
   "theorems": [
    "C24_replicates",
    "C24_ones"
   ],
   "note": "Complete. An example enters with the number its Poisson draw gives."
  },
  {
   "property": "C25",
   "status": "proved",
   "theorems": [
    "C25_value_threshold"
   ],
   "note": "Complete."
  },
  {
   "property": "C26",
   "status": "proved",
   "theorems": [
    "C26_change_threshold"
   ],
   "note": "Complete for thresholds with a direction; the missing direction is C88."
  },
  {
   "property": "C27",
   "status": "proved",
   "theorems": [
    "C27_verdict_exact"
   ],
   "note": "Complete: verdict and reported (metric, threshold) pairs; a raised exception is C88."
  },
  {
   "property": "C28",
   "status": "partial",
   "theorems": [
    "C28_missing_metric_any_slice_refuted",
    "C28_scoped_threshold_partial"
   ],
   "note": "Refuted: a metric missing from a slice fails thresholds scoped to other slices. Partial: thresholds of metrics that are there."
  },
  {
   "property": "C29",
   "status": "proved",
   "theorems": [
    "C29_final_verdict"
   ],
   "note": "A spec counts as found as described in C32; a spec of cross slices always counts as missing (C33)."
  },
  {
   "property": "C30",
   "status": "proved",
   "theorems": [
    "C30_no_thresholds"
   ],
   "note": "Complete, for every schedule."
  },
  {
   "property": "C31",
   "status": "partial",
   "theorems": [
    "C31_slice_details_partial",
    "C31_counts_partial",
    "C31_repeated_threshold_refuted",
    "C31_cross_slice_as_overall_refuted"
   ],
   "note": "Refuted: a failing threshold repeated for a second spec is not counted for it; a cross slice is counted as the overall slice. Partial: single slices, each threshold of a metric given for one spec."
  },
  {
   "property": "C32",
   "status": "partial",
   "theorems": [
    "C32_missing_slices_partial",
    "C32_checked_slice_missing_refuted",
    "C32_overall_slice_not_missing_refuted"
   ],
   "note": "Refuted: a spec that was checked is listed as missing, if its threshold failed under another spec too; a missing overall slice is not listed if a threshold without spec was checked elsewhere. Partial: single slices, each threshold of a metric given for one spec, and a threshold without spec counted as one for the overall spec."
  },
  {
   "property": "C33",
   "status": "partial",
   "theorems": [
    "C33_never_ok",
    "C33_cross_threshold_refuted"
   ],
   "note": "Refuted: every validation with a threshold scoped to a cross slicing spec fails (C33_never_ok, for all results and schedules)."
  },
  {
   "property": "C34",
   "status": "proved",
   "theorems": [
    "C34_diff_is_candidate_minus_baseline",
    "C34_diffs_defined"
   ],
   "note": "Two theorems: the exact content of the result including the untouched old values, and that the diff is defined whenever the metric values are numbers."
  },
  {
   "property": "C35",
   "status": "proved",
   "theorems": [
    "C35_private_metrics_hidden",
    "C35_public_values_kept"
   ],
   "note": "Proved for every dictionary; public values and their keys are kept."
  },
  {
   "property": "C36",
   "status": "partial",
   "theorems": [
    "C36_computed_once",
    "C36_values_as_alone_partial",
    "C36_feature_sampler_dropped_refuted"
   ],
   "note": "Refuted for the derived computation of the confusion matrix feature samplers: it has an empty key list, so a second sampler is dropped as a duplicate. Proved: ids are computed once, in order, and (partial) the values of computations whose ids identify them are as alone."
  },
  {
   "property": "C37",
   "status": "proved",
   "theorems": [
    "C37_compound_is_union_of_parts",
    "C37_parts_see_their_inputs",
    "C37_value_as_alone"
   ],
   "note": "Complete: success exactly if every part succeeds alone on its inputs with the same bundling; the result is the union in order."
  },
  {
   "property": "C38",
   "status": "partial",
   "theorems": [
    "C38_metric_key_round_trip",
    "C38_distinct_messages",
    "C38_micro_becomes_macro_refuted"
   ],
   "note": "The round trip is proved to hold exactly for keys whose sub key says something in 32 bit numbers and whose aggregation type names one average and leaves the others out. Refuted for the rest: micro average with macro_average=False spelled out reads back as a macro average (the oneof keeps the last field set). Messages are records of fields, the wire format is not modelled."
  },
  {
   "property": "C39",
   "status": "partial",
   "theorems": [
    "C39_plot_key_round_trip",
    "C39_aggregation_dropped_refuted"
   ],
   "note": "Refuted: the plot key message has no aggregation type, so a plot of an averaged metric and the plot without averaging share one message. The round trip is proved for keys without aggregation type and weighting."
  },
  {
   "property": "C40",
   "status": "proved",
   "theorems": [
    "C40_rates",
    "C40_complements",
    "C40_means",
    "C40_on_data"
   ],
   "note": "Complete, and carried over to the matrices of every dataset and schedule (C40_on_data)."
  },
  {
   "property": "C41",
   "status": "proved",
   "theorems": [
    "C41_roc_auc",
    "C41_roc_auc_on_data"
   ],
   "note": "Complete: for matrices in general and for those of every dataset and schedule. If a class is absent the area is 0 by definition of the code."
  },
  {
   "property": "C42",
   "status": "proved",
   "theorems": [
    "C42_best_under_constraint"
   ],
   "note": "Complete for all six metrics, single constraints and lists."
  },
  {
   "property": "C43",
   "status": "partial",
   "theorems": [
    "C43_elementwise_refuted",
    "C43_elementwise_partial"
   ],
   "note": "Refuted: line 126 swaps the indices, so IndexError when self lacks thresholds that other has. The partial theorem covers every operation whenever other's thresholds are among self's (equal thresholds in particular)."
  },
  {
   "property": "C44",
   "status": "partial",
   "theorems": [
    "C44_rows_round_trip_partial",
    "C44_rows_all_empty_lost_refuted"
   ],
   "note": "Refuted: a batch whose rows are all empty has no rows when iterated. Partial: at least one row with a value."
  },
  {
   "property": "C45",
   "status": "partial",
   "theorems": [
    "C45_include_exclude_partition",
    "C45_merge_is_union",
    "C45_empty_filter_refuted"
   ],
   "note": "Refuted: only for the empty filter, which both include and exclude treat as 'keep everything'. For every other filter that does not reach into a leaf the partition and union theorems hold."
  },
  {
   "property": "C46",
   "status": "proved",
   "theorems": [
    "C46_unique_key_fresh"
   ],
   "note": "Termination is by pigeonhole: at most length(current)+1 tests."
  },
  {
   "property": "C47",
   "status": "partial",
   "theorems": [
    "C47_compound_key_injective_refuted",
    "C47_empty_part_collides_refuted",
    "C47_compound_key_injective_partial"
   ],
   "note": "Refuted: ['a_','b'] and ['a','_b'] collide, so do ['a__b'] and ['a','','b']. The partial theorem shows injectivity when every part is non-empty and neither starts nor ends with an underscore (the separator may occur inside)."
  },
  {
   "property": "C48",
   "status": "proved",
   "theorems": [
    "C48_macro_average_is_weighted_mean",
    "C48_macro_average_in_range",
    "C48_weighted_macro_average_is_weighted_mean",
    "C48_other_values_are_refused",
    "C48_class_weights_are_label_shares",
    "C48_class_weights_sum_to_1"
   ],
   "note": "Complete for non-negative weights: mean, range, weights by labels, shares and their sum, for every schedule."
  },
  {
   "property": "C49",
   "status": "partial",
   "theorems": [
    "C49_both_averages_are_reported_refuted"
   ],
   "note": "Refuted: both averages have the same key and the second computation is dropped."
  },
  {
   "property": "C50",
   "status": "partial",
   "theorems": [
    "C50_verification_partial",
    "C50_duplicate_names_rejected_refuted"
   ],
   "note": "Refuted: the test for duplicates compares a name with messages and never fires. Partial: an exact description of what is accepted."
  },
  {
   "property": "C51",
   "status": "proved",
   "theorems": [
    "C51_removal_of_baseline",
    "C51_one_model_has_no_baseline"
   ],
   "note": "Complete."
  },
  {
   "property": "C52",
   "status": "proved",
   "theorems": [
    "C52_fractional_split_conserves"
   ],
   "note": "Weights of the two split examples sum to the original weight and their weighted labels to label times weight; parts of weight zero are dropped."
  },
  {
   "property": "C53",
   "status": "proved",
   "theorems": [
    "C53_argpartition_satisfiable",
    "C53_top_k_keeps_best",
    "C53_kth_is_kth_largest",
    "C53_top_k_masks_rest",
    "C53_too_few_classes_rejected"
   ],
   "note": "np.argpartition is an oracle assumed to satisfy its documented contract (argpartition_ok); an insertion sort instance shows the contract is satisfiable. NaN predictions excluded by hypothesis."
  },
  {
   "property": "C54",
   "status": "partial",
   "theorems": [
    "C54_cross_slices_match_overall_refuted",
    "C54_load_filter_partial"
   ],
   "note": "Refuted: a cross slice is taken for the overall slice. Partial: all records of single slices."
  },
  {
   "property": "C55",
   "status": "partial",
   "theorems": [
    "C55_slice_key_column_refuted",
    "C55_slice_key_column_partial"
   ],
   "note": "Refuted: the column holds no feature names. Partial: slices with different values are told apart."
  },
  {
   "property": "C56",
   "status": "proved",
   "theorems": [
    "C56_lookup_finds_stored",
    "C56_lookup_flattened",
    "C56_lookup_absent"
   ],
   "note": "None keys (ignored by the code) are not modelled. Flattening is covered one level deep with outer names free of '/'."
  },
  {
   "property": "C57",
   "status": "proved",
   "theorems": [
    "C57_sparse_equals_one_hot"
   ],
   "note": "Any argpartition, any option set with flatten=True."
  },
  {
   "property": "C58",
   "status": "partial",
   "theorems": [
    "C58_invalid_class_rejected_refuted",
    "C58_far_class_rejected_partial"
   ],
   "note": "Refuted: np.eye(n+1) makes class id n an all-zero row and negative ids wrap, so -2 counts as class n-1. The partial theorem shows ids further away are rejected."
  },
  {
   "property": "C59",
   "status": "partial",
   "theorems": [
    "C59_flatten_pairs_classes",
    "C59_class_weights",
    "C59_weight_never_empty_refuted"
   ],
   "note": "The pairing is proved. Refuted: the documented 'example weight will always be non-empty' fails when both label and prediction are missing (allowed by allow_none)."
  },
  {
   "property": "C60",
   "status": "partial",
   "theorems": [
    "C60_mean_prediction_unlabelled_refuted"
   ],
   "note": "Refuted: the prediction is only accumulated when len(label) > 0."
  },
  {
   "property": "C61",
   "status": "partial",
   "theorems": [
    "C61_top_k_calibration_refuted"
   ],
   "note": "Refuted: after flattening every label array has one element, so label[1] raises IndexError for k >= 2."
  },
  {
   "property": "C62",
   "status": "partial",
   "theorems": [
    "C62_documents_multi_model_refuted"
   ],
   "note": "Refuted: len(element.prediction) is the number of entries of the dict keyed by model name."
  },
  {
   "property": "C63",
   "status": "partial",
   "theorems": [
    "C63_no_positive_is_zero_refuted",
    "C63_unlabelled_skipped_refuted"
   ],
   "note": "Refuted twice: the value is NaN, and an unlabelled query raises IndexError because to_label_prediction_example_weight never yields None."
  },
  {
   "property": "C64",
   "status": "partial",
   "theorems": [
    "C64_histogram_sandwich_partial",
    "C64_histogram_exact_refuted"
   ],
   "note": "Refuted: histogram counts are approximate (a score less than a bucket above t is missed), and at t=0 and t=1 a score equal to t is counted as above. The partial theorem bounds the counts for any sorted thresholds strictly inside (0, 1-1e-7), any bucket count, non-negative weights and labels in [0,1]."
  },
  {
   "property": "C65",
   "status": "partial",
   "theorems": [
    "C65_top_k_positives_refuted",
    "C65_top_k_positives_partial"
   ],
   "note": "Refuted: when no example selects the class the only bucket (-inf) is taken as predicted positive; when all do and the scores fall in two buckets the lower one is taken as predicted negative. The partial theorem covers histograms with bucket 0 and at least one other."
  },
  {
   "property": "C66",
   "status": "proved",
   "theorems": [
    "C66_example_ids"
   ],
   "note": "Limit at least 1. In the code an example whose flattened classes fall into a cell several times is listed once."
  },
  {
   "property": "C67",
   "status": "partial",
   "theorems": [
    "C67_repeated_threshold_refuted",
    "C67_repeated_threshold_partial"
   ],
   "note": "Refuted: a threshold listed twice is updated twice per element. The partial theorem covers lists without repetitions."
  },
  {
   "property": "C68",
   "status": "partial",
   "theorems": [
    "C68_mean_error_schedule_refuted",
    "C68_mean_error_partial",
    "C68_mean_error_within"
   ],
   "note": "Refuted for merge trees (first accumulator counted twice). The partial theorem covers schedules without merges; the bounds hold for every merge tree. Mean squared logarithmic error is C145 (logarithm). Finite predictions; no sub key, class weights."
  },
  {
   "property": "C69",
   "status": "partial",
   "theorems": [
    "C69_difference_symmetric",
    "C69_difference_partial",
    "C69_difference_range",
    "C69_difference_schedule_refuted"
   ],
   "note": "Refuted for merge trees (first accumulator counted twice). Symmetry holds for all predictions including NaN and infinities; range and value for finite non-negative predictions."
  },
  {
   "property": "C70",
   "status": "proved",
   "theorems": [
    "C70_squared_pearson"
   ],
   "note": "Finite predictions, exact rationals, classes flattened; any sub key (it is ignored, see C74)."
  },
  {
   "property": "C71",
   "status": "proved",
   "theorems": [
    "C71_tjur_discrimination"
   ],
   "note": "Finite predictions, exact rationals, classes flattened; any sub key (it is ignored, see C74)."
  },
  {
   "property": "C72",
   "status": "partial",
   "theorems": [
    "C72_exact_match",
    "C72_unlabelled_matches_refuted"
   ],
   "note": "The fraction is proved. Refuted: an empty label array compares equal to any prediction (all([]) is true). convert_to='json' is not modelled."
  },
  {
   "property": "C73",
   "status": "partial",
   "theorems": [
    "C73_zero_weight_refuted"
   ],
   "note": "Refuted: flip rates, symmetric prediction difference and exact match divide Python floats and raise ZeroDivisionError; regression errors and Pearson return NaN."
  },
  {
   "property": "C74",
   "status": "partial",
   "theorems": [
    "C74_sub_key_ignored_refuted",
    "C74_flips_first_class_refuted"
   ],
   "note": "Refuted: Pearson, Tjur and exact match do not pass the sub key on, flips and prediction difference always use the first class."
  },
  {
   "property": "C75",
   "status": "partial",
   "theorems": [
    "C75_all_components_refuted"
   ],
   "note": "Refuted: the inputs are flattened by default, so every component is an example of its own and all(match) only ever sees one value."
  },
  {
   "property": "C76",
   "status": "partial",
   "theorems": [
    "C76_attributions_key_round_trip",
    "C76_aggregation_dropped_refuted"
   ],
   "note": "Refuted: aggregation type and weighting are dropped, as for plots. The round trip is proved for the other keys."
  },
  {
   "property": "C77",
   "status": "partial",
   "theorems": [
    "C77_sorting_is_listing_order",
    "C77_order_not_canonical_refuted",
    "C77_sorting_by_an_order"
   ],
   "note": "Refuted: MetricKey.__lt__ is a conjunction of strict comparisons of every field, the last ones of flags, so no key is ever less than another and sorting returns the input order or raises."
  },
  {
   "property": "C78",
   "status": "partial",
   "theorems": [
    "C78_mixed_weighting_refuted",
    "C78_same_weighting_partial"
   ],
   "note": "Refuted: __lt__ compares True with the empty tuple when one metric is weighted and the other is not, a TypeError. Proved for metrics of one weighting."
  },
  {
   "property": "C79",
   "status": "partial",
   "theorems": [
    "C79_inputs_asked_for_partial",
    "C79_own_preprocessors",
    "C79_empty_filter_refuted"
   ],
   "note": "Refuted: the empty filter (all of the extracts) yields an extra empty input and is ignored as soon as another filter is present. Partial: the claim for non-empty filters; computations with their own preprocessors are complete."
  },
  {
   "property": "C80",
   "status": "partial",
   "theorems": [
    "C80_plot_replaces_metric_refuted",
    "C80_types_partition_results_partial"
   ],
   "note": "Refuted: MetricKey and PlotKey with equal fields are equal dictionary keys, so the later value replaces the earlier one under the earlier key. Partial: the split by kind loses nothing else."
  },
  {
   "property": "C81",
   "status": "partial",
   "theorems": [
    "C81_pairs_compared_once_partial",
    "C81_overlapping_specs_refuted"
   ],
   "note": "Refuted: pairs selected by two cross slicing specs are reported twice. Partial: one spec."
  },
  {
   "property": "C82",
   "status": "partial",
   "theorems": [
    "C82_cross_slice_value",
    "C82_structured_metric_refuted"
   ],
   "note": "Refuted: subtraction is tried for every metric, a TypeError for structured values. The value itself is proved."
  },
  {
   "property": "C83",
   "status": "partial",
   "theorems": [
    "C83_results_combined_partial",
    "C83_same_metric_twice_refuted"
   ],
   "note": "Refuted: metric keys do not contain the query key, so a metric requested under two query keys raises ValueError. Partial: the union for disjoint keys."
  },
  {
   "property": "C84",
   "status": "partial",
   "theorems": [
    "C84_queries_partition_examples_partial",
    "C84_missing_queries_merged_refuted"
   ],
   "note": "Refuted: a missing query feature is the query with empty text. Partial: partition by query text for every schedule."
  },
  {
   "property": "C85",
   "status": "partial",
   "theorems": [
    "C85_slice_size_counts_queries_refuted"
   ],
   "note": "Refuted: examples are grouped by query before the slice sizes are counted."
  },
  {
   "property": "C86",
   "status": "proved",
   "theorems": [
    "C86_specs_used"
   ],
   "note": "Complete, up to equality of specs as Python sees it."
  },
  {
   "property": "C87",
   "status": "proved",
   "theorems": [
    "C87_thresholds_used"
   ],
   "note": "Complete, up to equality of specs as Python sees it."
  },
  {
   "property": "C88",
   "status": "partial",
   "theorems": [
    "C88_incomparable_metric_refuted",
    "C88_unknown_direction_partial"
   ],
   "note": "Refuted: float(metric) when the failure is recorded raises again. Partial: missing direction."
  },
  {
   "property": "C89",
   "status": "partial",
   "theorems": [
    "C89_relative_is_ratio_refuted",
    "C89_relative_change_partial"
   ],
   "note": "Refuted: the code bounds (candidate - baseline) / baseline, as config.proto says; the example of the guide asks for an improvement of 101%. Partial: what the code computes."
  },
  {
   "property": "C90",
   "status": "partial",
   "theorems": [
    "C90_improvement_refuted",
    "C90_improvement_partial"
   ],
   "note": "Refuted for negative baselines. Partial: positive baselines."
  },
  {
   "property": "C91",
   "status": "partial",
   "theorems": [
    "C91_additive_mean",
    "C91_interval_contains_value_refuted"
   ],
   "note": "Refuted: the jackknife mean of a count is (n-1)/n of it, with variance 0 for equal partitions. Partial: what the mean of additive metrics is."
  },
  {
   "property": "C92",
   "status": "partial",
   "theorems": [
    "C92_skipped_metrics",
    "C92_skipped_differences_refuted"
   ],
   "note": "Refuted: differences of skipped metrics get intervals. Partial: the metrics themselves."
  },
  {
   "property": "C93",
   "status": "proved",
   "theorems": [
    "C93_matthews",
    "C93_fowlkes_mallows"
   ],
   "note": "Complete."
  },
  {
   "property": "C94",
   "status": "proved",
   "theorems": [
    "C94_likelihood_ratios"
   ],
   "note": "Complete."
  },
  {
   "property": "C95",
   "status": "partial",
   "theorems": [
    "C95_constraint_forms_refuted",
    "C95_constraint_forms_partial"
   ],
   "note": "Refuted: the integer 1 (or 0) raises TypeError when computed, RecallAtPrecision and RecallAtFalsePositiveRate reject lists, SensitivityAtSpecificity accepts 2. Partial: floats in range."
  },
  {
   "property": "C96",
   "status": "partial",
   "theorems": [
    "C96_pr_auc_ordered_refuted",
    "C96_pr_auc_partial"
   ],
   "note": "Refuted: interpolation can exceed majoring, when nothing is predicted positive at the last threshold. Partial: bounds for all three always, order if something is predicted positive at every threshold."
  },
  {
   "property": "C97",
   "status": "proved",
   "theorems": [
    "C97_concordance",
    "C97_mann_whitney"
   ],
   "note": "Complete, for every schedule; thresholds must cover the scores, which the default ones do (C98)."
  },
  {
   "property": "C98",
   "status": "partial",
   "theorems": [
    "C98_auc_thresholds_refuted",
    "C98_interpolated_thresholds_partial"
   ],
   "note": "Refuted: given thresholds are not extended by endpoints, together with num_thresholds they are an error or are replaced, and with top_k the default single threshold makes AUC 0 for all data. Partial: num_thresholds alone."
  },
  {
   "property": "C99",
   "status": "partial",
   "theorems": [
    "C99_prevalence_threshold_refuted",
    "C99_prevalence_threshold_partial"
   ],
   "note": "Refuted: ZeroDivisionError when recall equals fall-out (both defined). Partial: all other counts; the other rates are total (C40)."
  },
  {
   "property": "C100",
   "status": "partial",
   "theorems": [
    "C100_sub_key_refuted",
    "C100_sub_key_partial"
   ],
   "note": "Refuted: k with class_id and top_k < 1 pass. Partial: specs without k, positive top_k."
  },
  {
   "property": "C101",
   "status": "proved",
   "theorems": [
    "C101_label_encoding_does_not_matter"
   ],
   "note": "Complete, for every schedule."
  },
  {
   "property": "C102",
   "status": "partial",
   "theorems": [
    "C102_unlabelled_examples_are_ignored_refuted"
   ],
   "note": "Refuted: a missing label arrives as an empty array, never as None, and raises ValueError."
  },
  {
   "property": "C103",
   "status": "partial",
   "theorems": [
    "C103_configured_metrics_are_reported_partial",
    "C103_configured_metrics_are_reported_refuted",
    "C103_weighted_as_asked",
    "C103_all_weights_asked_for"
   ],
   "note": "Refuted: the key of a weighted macro average is in no result (C104). Partial: metric names must not start with an underscore; output weights must not be combined with an aggregation (C105); keys of weighted macro averages are never reported (C104). Metrics with one computation each; values of classes are numbers."
  },
  {
   "property": "C104",
   "status": "partial",
   "theorems": [
    "C104_weighted_average_thresholds_are_checked_refuted"
   ],
   "note": "Refuted: the result is reported with macro_average=True, the threshold is on weighted_macro_average=True, so validation always fails."
  },
  {
   "property": "C105",
   "status": "partial",
   "theorems": [
    "C105_output_average_of_aggregates_refuted"
   ],
   "note": "Refuted: the average over outputs looks for keys without aggregation type and raises KeyError."
  },
  {
   "property": "C106",
   "status": "partial",
   "theorems": [
    "C106_specs_are_independent_refuted"
   ],
   "note": "Refuted: class weights from labels are computed for the classes of the first weighted average only, and the other average is NaN."
  },
  {
   "property": "C107",
   "status": "proved",
   "theorems": [
    "C107_weighted_average_over_top_k_is_plain"
   ],
   "note": "Complete."
  },
  {
   "property": "C108",
   "status": "proved",
   "theorems": [
    "C108_aggregation_type_has_one_kind",
    "C108_sub_key_is_valid"
   ],
   "note": "Complete."
  },
  {
   "property": "C109",
   "status": "partial",
   "theorems": [
    "C109_change_needs_baseline_refuted",
    "C109_change_needs_baseline_partial"
   ],
   "note": "Refuted: an empty change threshold is not noticed. Partial: all others, exactly."
  },
  {
   "property": "C110",
   "status": "partial",
   "theorems": [
    "C110_maybe_add_baseline_adds_refuted",
    "C110_baseline_added_partial"
   ],
   "note": "Refuted: has_baseline=False is the default and removes the baseline that maybe_add_baseline added. Partial: with has_baseline=True, or has_baseline=None."
  },
  {
   "property": "C111",
   "status": "partial",
   "theorems": [
    "C111_defaults_idempotent_refuted",
    "C111_defaults_idempotent_partial"
   ],
   "note": "Refuted: a single named spec with two models. Partial: every other case (no baseline, several specs, one unnamed spec)."
  },
  {
   "property": "C112",
   "status": "partial",
   "theorems": [
    "C112_named_models_exist_refuted",
    "C112_named_models_exist_partial"
   ],
   "note": "Refuted: metrics specs keep the name of a removed baseline, or the empty name when candidate and baseline are named. Partial: specs naming no models, single models, unchanged models."
  },
  {
   "property": "C113",
   "status": "proved",
   "theorems": [
    "C113_defaults_are_filled_in"
   ],
   "note": "Complete."
  },
  {
   "property": "C114",
   "status": "partial",
   "theorems": [
    "C114_model_names_differ_refuted",
    "C114_models_are_normalized_partial"
   ],
   "note": "Refuted: lists with equal names are accepted. Partial: everything else, and dictionaries with non-empty keys."
  },
  {
   "property": "C115",
   "status": "proved",
   "theorems": [
    "C115_values_by_model",
    "C115_missing_values_are_none"
   ],
   "note": "Complete."
  },
  {
   "property": "C116",
   "status": "proved",
   "theorems": [
    "C116_rubber_stamp_needs_all_candidates"
   ],
   "note": "Complete."
  },
  {
   "property": "C117",
   "status": "proved",
   "theorems": [
    "C117_stored_results_are_loaded",
    "C117_one_validation_result"
   ],
   "note": "Complete."
  },
  {
   "property": "C118",
   "status": "partial",
   "theorems": [
    "C118_metrics_are_shown_partial",
    "C118_weighted_metrics_collide_refuted"
   ],
   "note": "Refuted: weighted and unweighted metrics of one name replace each other. Partial: keys with distinct places."
  },
  {
   "property": "C119",
   "status": "proved",
   "theorems": [
    "C119_metrics_of_a_slice_are_found"
   ],
   "note": "Complete, for evaluations in which no two metrics share a place (C118)."
  },
  {
   "property": "C120",
   "status": "partial",
   "theorems": [
    "C120_attributions_are_shown_partial",
    "C120_class_zero_refuted",
    "C120_cross_slice_is_overall_refuted",
    "C120_sub_key_lookup_partial"
   ],
   "note": "Refuted: class 0 is taken for no class, and a cross slice for the overall slice. Partial: everything else."
  },
  {
   "property": "C121",
   "status": "partial",
   "theorems": [
    "C121_plots_are_shown_partial",
    "C121_plots_replace_each_other_refuted",
    "C121_cross_slice_is_overall_refuted"
   ],
   "note": "Refuted: plots of one output replace each other, and a cross slice is taken for the overall slice. Partial: one plot per place, or the two default plots."
  },
  {
   "property": "C122",
   "status": "partial",
   "theorems": [
    "C122_cross_slices_refuted",
    "C122_slices_to_display_partial",
    "C122_time_series_partial"
   ],
   "note": "Refuted: a cross slice with the overall slice as baseline raises IndexError. Partial: single slices."
  },
  {
   "property": "C123",
   "status": "partial",
   "theorems": [
    "C123_models_of_later_runs_refuted",
    "C123_all_results_are_loaded_partial"
   ],
   "note": "Refuted: the loop variable replaces the parameter, so later runs are loaded for one model only. Partial: a given name, one run, or one model of one name."
  },
  {
   "property": "C124",
   "status": "proved",
   "theorems": [
    "C124_evaluators_run_once",
    "C124_verification"
   ],
   "note": "Complete, for stages with distinct names."
  },
  {
   "property": "C125",
   "status": "partial",
   "theorems": [
    "C125_errors_are_shown_partial",
    "C125_errors_of_named_models_refuted"
   ],
   "note": "Refuted: the slice disappears when a model is named. Partial: no name."
  },
  {
   "property": "C126",
   "status": "proved",
   "theorems": [
    "C126_metric_names"
   ],
   "note": "Complete."
  },
  {
   "property": "C127",
   "status": "proved",
   "theorems": [
    "C127_rows_of_constructed_values",
    "C127_constructor_accepts"
   ],
   "note": "Complete, for values with at least one entry; without entries see C44."
  },
  {
   "property": "C128",
   "status": "partial",
   "theorems": [
    "C128_split_gives_examples_partial",
    "C128_empty_rows_are_lost_refuted",
    "C128_scalars_refused"
   ],
   "note": "Refuted: a variable-length value whose rows are all empty vanishes from the examples. Partial: all other batches."
  },
  {
   "property": "C129",
   "status": "partial",
   "theorems": [
    "C129_split_merge_round_trip_partial",
    "C129_default_options_partial",
    "C129_equal_rows_become_dense_refuted"
   ],
   "note": "Refuted: variable-length batches with rows of equal length come back as dense arrays. Partial: rows of different lengths, dense values and sparse values listed example by example."
  },
  {
   "property": "C130",
   "status": "proved",
   "theorems": [
    "C130_merge_split_round_trip"
   ],
   "note": "Complete."
  },
  {
   "property": "C131",
   "status": "proved",
   "theorems": [
    "C131_batch_size",
    "C131_size_is_number_of_examples"
   ],
   "note": "Complete."
  },
  {
   "property": "C132",
   "status": "proved",
   "theorems": [
    "C132_unbatching",
    "C132_columns_only",
    "C132_unequal_columns_refused"
   ],
   "note": "Complete, for batches with a value that is not None and for lists only; pandas' treatment of empty columns is not modelled."
  },
  {
   "property": "C133",
   "status": "proved",
   "theorems": [
    "C133_copy_and_set"
   ],
   "note": "Complete; that the original is not changed is not expressible, data are immutable in the model."
  },
  {
   "property": "C134",
   "status": "proved",
   "theorems": [
    "C134_set_then_get",
    "C134_other_models_keep_theirs",
    "C134_shared_value"
   ],
   "note": "Complete, for non-empty names."
  },
  {
   "property": "C135",
   "status": "partial",
   "theorems": [
    "C135_listed_models_and_outputs_partial",
    "C135_listed_can_be_got",
    "C135_outputs_with_several_tensors_not_listed_refuted"
   ],
   "note": "Refuted: a model and output whose predictions are a dictionary of tensors is not listed (key paths are cut off after two keys). Partial: exactly the paths of one or two keys are listed."
  },
  {
   "property": "C136",
   "status": "proved",
   "theorems": [
    "C136_output_average_is_weighted_mean"
   ],
   "note": "Complete."
  },
  {
   "property": "C137",
   "status": "proved",
   "theorems": [
    "C137_bad_aggregations_are_refused"
   ],
   "note": "Complete, for specs without binarization."
  },
  {
   "property": "C138",
   "status": "partial",
   "theorems": [
    "C138_baseline_spec",
    "C138_spec_by_name",
    "C138_label_key",
    "C138_unknown_output_refuted",
    "C138_model_by_name"
   ],
   "note": "Refuted: the label key of an output that is not listed is the empty string, no error. Everything else is proved."
  },
  {
   "property": "C139",
   "status": "partial",
   "theorems": [
    "C139_reported_cutoffs",
    "C139_cutoffs_accepted",
    "C139_top_k_list_alone_refuted"
   ],
   "note": "Refuted: a top_k_list without sub keys (sub_keys=None) raises TypeError ('NoneType' is not iterable). The positive theorems cover sub keys given as a list."
  },
  {
   "property": "C140",
   "status": "partial",
   "theorems": [
    "C140_mixed_queries_refuted"
   ],
   "note": "Refuted: _query, which would raise, is never called; the accumulator mixes the queries and reports a number."
  },
  {
   "property": "C141",
   "status": "partial",
   "theorems": [
    "C141_binary_cross_entropy",
    "C141_least_at_label",
    "C141_perfect_prediction_refuted"
   ],
   "note": "Proved for probabilities strictly between 0 and 1 and for every logit. Refuted: the perfect probability 1 for label 1 gives NaN (0 times minus infinity), not 0. Exact real arithmetic."
  },
  {
   "property": "C142",
   "status": "partial",
   "theorems": [
    "C142_categorical_cross_entropy",
    "C142_scale_of_predictions",
    "C142_shift_of_logits",
    "C142_least_at_label",
    "C142_impossible_class_refuted",
    "C142_sparse_label_refuted"
   ],
   "note": "Proved for positive predictions and every logit. Refuted: a predicted probability 0 is masked, so the impossible true class costs nothing; a class id label is broadcast over the classes instead of selecting one."
  },
  {
   "property": "C143",
   "status": "partial",
   "theorems": [
    "C143_predictions_kept_partial",
    "C143_predictions_kept_refuted"
   ],
   "note": "Refuted: 'prediction /= np.sum(prediction)' writes into the array of the element, which later combiners of the same slice read. The partial theorem covers logits and predictions that sum to one."
  },
  {
   "property": "C144",
   "status": "partial",
   "theorems": [
    "C144_mean_cross_entropy_partial",
    "C144_mean_cross_entropy_within",
    "C144_schedule_refuted"
   ],
   "note": "Refuted for merge trees (merge_accumulators counts the first accumulator twice). The partial theorem covers schedules without merges; the bounds hold for every schedule."
  },
  {
   "property": "C145",
   "status": "partial",
   "theorems": [
    "C145_mean_log_error_partial",
    "C145_mean_log_error_within",
    "C145_zero_just_for_equal",
    "C145_schedule_refuted"
   ],
   "note": "Refuted for merge trees (first accumulator counted twice). The partial theorem covers schedules without merges; the bounds and the zero criterion hold for every schedule."
  },
  {
   "property": "C146",
   "status": "partial",
   "theorems": [
    "C146_cosine_range",
    "C146_cosine_direction",
    "C146_cosine_symmetric",
    "C146_mean_similarity_partial",
    "C146_mean_similarity_within",
    "C146_schedule_refuted"
   ],
   "note": "Refuted for merge trees (first accumulator counted twice). The partial theorem covers schedules without merges; range and bounds hold for every schedule."
  },
  {
   "property": "C147",
   "status": "partial",
   "theorems": [
    "C147_multi_class_matrices",
    "C147_each_example_once",
    "C147_single_score_refused",
    "C147_any_thresholds_refuted",
    "C147_repeated_threshold_refuted"
   ],
   "note": "Refuted for thresholds that are not ascending and for a repeated threshold. Proved for ascending thresholds, examples with one class id or one-hot label and finite scores."
  },
  {
   "property": "C148",
   "status": "partial",
   "theorems": [
    "C148_own_thresholds_refuted",
    "C148_separate_outputs"
   ],
   "note": "Refuted: the key of the underlying computation does not contain the thresholds, so the second metric shows the first one's matrices. Proved for metrics of different models, outputs or weighting."
  },
  {
   "property": "C149",
   "status": "proved",
   "theorems": [
    "C149_elementwise",
    "C149_elementwise_defined",
    "C149_broadcast"
   ],
   "note": "Complete."
  },
  {
   "property": "C150",
   "status": "partial",
   "theorems": [
    "C150_rendering",
    "C150_even_thresholds",
    "C150_one_threshold_refuted"
   ],
   "note": "Refuted for num_thresholds = 1 (two thresholds are made)."
  },
  {
   "property": "C151",
   "status": "partial",
   "theorems": [
    "C151_multi_label_matrices",
    "C151_repeated_threshold_refuted"
   ],
   "note": "Refuted for a repeated threshold (examples count twice). Proved for distinct thresholds, dense labels or one class id, finite scores."
  },
  {
   "property": "C152",
   "status": "partial",
   "theorems": [
    "C152_pixel_counts",
    "C152_every_pixel_once",
    "C152_other_sizes_refused",
    "C152_ignored_class_refuted",
    "C152_repeated_class_refuted"
   ],
   "note": "Refuted when the ignored class is itself asked for, and for a class listed twice. Proved for distinct classes and rectangular images."
  },
  {
   "property": "C153",
   "status": "partial",
   "theorems": [
    "C153_set_match_pairs",
    "C153_zero_weight_refuted",
    "C153_zero_weight_dropped_refuted"
   ],
   "note": "Refuted for an example of weight zero, which is treated as having no weight. Proved for a missing or single non-zero example weight; arrays are one-dimensional and their keys present."
  },
  {
   "property": "C154",
   "status": "partial",
   "theorems": [
    "C154_top_k_refuted",
    "C154_ranked_predictions"
   ],
   "note": "Refuted: the first k predictions are taken, whatever their scores. Proved for predictions listed by falling score."
  },
  {
   "property": "C155",
   "status": "partial",
   "theorems": [
    "C155_no_scores_refuted"
   ],
   "note": "Refuted: zip(pred_classes, None) raises TypeError."
  },
  {
   "property": "C156",
   "status": "proved",
   "theorems": [
    "C156_intersection_over_union",
    "C156_disjoint_boxes",
    "C156_range",
    "C156_symmetric",
    "C156_same_box",
    "C156_table",
    "C156_improper_refused"
   ],
   "note": "Complete."
  },
  {
   "property": "C157",
   "status": "proved",
   "theorems": [
    "C157_greedy_matching",
    "C157_negative_threshold_refused",
    "C157_one_to_one"
   ],
   "note": "Complete."
  },
  {
   "property": "C158",
   "status": "proved",
   "theorems": [
    "C158_pairs",
    "C158_refused"
   ],
   "note": "Complete."
  },
  {
   "property": "C159",
   "status": "proved",
   "theorems": [
    "C159_order_irrelevant"
   ],
   "note": "Complete."
  },
  {
   "property": "C160",
   "status": "proved",
   "theorems": [
    "C160_matrices_count_objects"
   ],
   "note": "For boxes of finite exact numbers and thresholds of at least 0."
  },
  {
   "property": "C161",
   "status": "partial",
   "theorems": [
    "C161_named_models_always_fail",
    "C161_several_models_refuted"
   ],
   "note": "Refuted: the preprocessor hands on bare arrays, and the combiner of a named model or output looks the name up in them (ValueError), for every data set with a pair."
  },
  {
   "property": "C162",
   "status": "partial",
   "theorems": [
    "C162_area_range_refuted",
    "C162_detections_outside_partial"
   ],
   "note": "Refuted: a detection that overlaps only an object outside of the range counts as a false positive. Proved: detections that are themselves outside give no false positive."
  },
  {
   "property": "C163",
   "status": "proved",
   "theorems": [
    "C163_first_dictionary_wins",
    "C163_rows_of_columns",
    "C163_missing_key",
    "C163_different_lengths_refused"
   ],
   "note": "Complete."
  },
  {
   "property": "C164",
   "status": "partial",
   "theorems": [
    "C164_truncated_partial",
    "C164_missing_number",
    "C164_no_detections_refuted"
   ],
   "note": "Refuted for n = 0: all rows, padding included, are kept. Proved for n > 0."
  },
  {
   "property": "C165",
   "status": "partial",
   "theorems": [
    "C165_equal_bounds_refuted",
    "C165_negative_class_refuted",
    "C165_more_columns_refuted",
    "C165_accepted_partial",
    "C165_rejected"
   ],
   "note": "Refuted for equal bounds, negative class ids and boxes with further columns: accepted when set up, every image fails. Proved otherwise."
  },
  {
   "property": "C166",
   "status": "proved",
   "theorems": [
    "C166_average",
    "C166_mean_over_classes",
    "C166_every_class",
    "C166_confidence_thresholds",
    "C166_overlap_thresholds"
   ],
   "note": "Complete."
  },
  {
   "property": "C167",
   "status": "partial",
   "theorems": [
    "C167_example_weights_refuted",
    "C167_class_weights_ignored",
    "C167_class_weights_refuted"
   ],
   "note": "Refuted: the average precision asks for its precisions without example_weighted, and class weights have no effect on any matrix or mean."
  },
  {
   "property": "C168",
   "status": "partial",
   "theorems": [
    "C168_own_columns_refuted",
    "C168_classes_apart_partial"
   ],
   "note": "Refuted: the name of the preprocessor leaves out columns, num_detections_key and allow_missing_key, so the second metric's matching is dropped. Proved for metrics that differ in the class."
  },
  {
   "property": "C169",
   "status": "proved",
   "theorems": [
    "C169_batches",
    "C169_compaction",
    "C169_unreadable_refused"
   ],
   "note": "Keras is outside of the repository: a metric is modelled by the state a batch leaves and the value read off it."
  },
  {
   "property": "C170",
   "status": "partial",
   "theorems": [
    "C170_padding_refuted",
    "C170_equal_widths_partial",
    "C170_filled",
    "C170_wrong_kind_refused"
   ],
   "note": "Refuted: each batch is padded to its own greatest width, so a metric that averages over the last dimension depends on the batches. Partial: examples of equal width; the filling and the refusals are proved."
  },
  {
   "property": "C171",
   "status": "partial",
   "theorems": [
    "C171_declared_keys_partial",
    "C171_aggregated_refuted"
   ],
   "note": "Refuted: extract_output leaves the aggregation type out of the keys, so micro averages appear under the key of the plain metric. Partial: no aggregation, one value per metric."
  },
  {
   "property": "C172",
   "status": "partial",
   "theorems": [
    "C172_loss_equal_weights_partial",
    "C172_loss_weights_refuted"
   ],
   "note": "Refuted: the loss of the whole batch is weighted with the sum of the weights, so weights within a batch do not matter and the value depends on the batches. Partial: equal weights."
  },
  {
   "property": "C173",
   "status": "partial",
   "theorems": [
    "C173_metrics_partial",
    "C173_tuples",
    "C173_loss_top_k_refuted",
    "C173_class_and_top_k_refuted"
   ],
   "note": "Refuted: a loss without metrics beside it sees all predictions although a top k was asked for; a metric with both class_id and top_k is given the prediction of the class alone. Partial: metrics of one sub key. C173_tuples: labels and predictions a batch is given."
  },
  {
   "property": "C174",
   "status": "proved",
   "theorems": [
    "C174_every_metric_once",
    "C174_last_wins_and_separated"
   ],
   "note": "Complete."
  },
  {
   "property": "C175",
   "status": "proved",
   "theorems": [
    "C175_conflicts_and_sparse_refused",
    "C175_auc_refused",
    "C175_accepted"
   ],
   "note": "Complete."
  },
  {
   "property": "C176",
   "status": "proved",
   "theorems": [
    "C176_thresholds"
   ],
   "note": "Complete."
  },
  {
   "property": "C177",
   "status": "proved",
   "theorems": [
    "C177_totals",
    "C177_refused",
    "C177_absolute"
   ],
   "note": "Arrays have at most two dimensions; numpy's argpartition is an oracle."
  },
  {
   "property": "C178",
   "status": "proved",
   "theorems": [
    "C178_class",
    "C178_top_k",
    "C178_table_refused"
   ],
   "note": "Tables with top_k are refused in the model; numpy fails too unless the table holds one number."
  },
  {
   "property": "C179",
   "status": "partial",
   "theorems": [
    "C179_means_partial",
    "C179_small_weights_refuted",
    "C179_own_totals"
   ],
   "note": "Refuted: total weights within 10^-8 of 0 give NaN (np.isclose). Partial: other weights."
  },
  {
   "property": "C180",
   "status": "partial",
   "theorems": [
    "C180_counts_partial",
    "C180_above_threshold_refuted"
   ],
   "note": "Refuted: scores less than a histogram bucket (10^-4) above a threshold are not counted; scores 0 at threshold 0, 1 at 1 and all negative ones at -10^-6 are. Partial: exactly which scores are counted if the number of thresholds divides that of the histogram's buckets, and that no weight is lost otherwise."
  },
  {
   "property": "C181",
   "status": "partial",
   "theorems": [
    "C181_shown_rows",
    "C181_f1_partial",
    "C181_f1_refuted"
   ],
   "note": "Refuted for F1: NaN where the metric is 0 and 0 where the metric is NaN, when there is no true positive. All other rates, and F1 with a true positive, are proved."
  },
  {
   "property": "C182",
   "status": "proved",
   "theorems": [
    "C182_score_distribution"
   ],
   "note": "Complete."
  },
  {
   "property": "C183",
   "status": "partial",
   "theorems": [
    "C183_score_distribution_refuted",
    "C183_probabilities_refuted",
    "C183_prediction_key_refuted"
   ],
   "note": "Refuted: scores outside of [0, 1], predictions under a key found by default (probabilities) and prediction keys of one of several models are refused."
  },
  {
   "property": "C184",
   "status": "proved",
   "theorems": [
    "C184_calibration_plot"
   ],
   "note": "Complete."
  },
  {
   "property": "C185",
   "status": "partial",
   "theorems": [
    "C185_ends_given",
    "C185_ends_from_schema",
    "C185_usable_range_refuted"
   ],
   "note": "Refuted: a domain with a minimum only ends at 1, giving an empty (ZeroDivisionError) or reversed range. Where the ends come from is proved."
  },
  {
   "property": "C186",
   "status": "partial",
   "theorems": [
    "C186_classes_refuted",
    "C186_names_apart_partial"
   ],
   "note": "Refuted: the name of the matrices is made of the plot's name only, so plots of the same name show the first one's matrices. Proved for plots of different names."
  },
  {
   "property": "C187",
   "status": "partial",
   "theorems": [
    "C187_bucket_bounds_refuted",
    "C187_bucket_bounds_partial"
   ],
   "note": "Refuted: three buckets put 0.35 (of a ten bucket histogram) below 1/3. Partial: scores are never below the lower bound and exceed the upper bound by less than a bucket of the histogram."
  },
  {
   "property": "C188",
   "status": "proved",
   "theorems": [
    "C188_statistics",
    "C188_any_bundles",
    "C188_refused"
   ],
   "note": "Complete. Tokenizer, lower-casing and the score made of the statistics (sacrebleu) are arbitrary functions."
  },
  {
   "property": "C189",
   "status": "partial",
   "theorems": [
    "C189_order_refuted",
    "C189_order_partial"
   ],
   "note": "Refuted: of references of 2 and 4 words, equally near to 3, the first counts. Proved when references equally near are equally long."
  },
  {
   "property": "C190",
   "status": "partial",
   "theorems": [
    "C190_blank_refuted",
    "C190_length_partial"
   ],
   "note": "Refuted: with blank references the hypotheses are split without the tokenizer and their runs of words are not counted. Proved for tokenizers that only split at white space."
  },
  {
   "property": "C191",
   "status": "partial",
   "theorems": [
    "C191_extra_hypothesis_refuted",
    "C191_columns_partial"
   ],
   "note": "Refuted: hypotheses beyond the columns of the references are dropped. Proved in general that they are, and that all others count."
  },
  {
   "property": "C192",
   "status": "partial",
   "theorems": [
    "C192_models_refuted",
    "C192_first_partial"
   ],
   "note": "Refuted: the key has only the name, so only the first output of the first model is computed (proved in general)."
  },
  {
   "property": "C193",
   "status": "proved",
   "theorems": [
    "C193_at_most_all",
    "C193_exact",
    "C193_more_references"
   ],
   "note": "Complete."
  },
  {
   "property": "C194",
   "status": "proved",
   "theorems": [
    "C194_means",
    "C194_between"
   ],
   "note": "Complete. The scorer is an arbitrary function."
  },
  {
   "property": "C195",
   "status": "partial",
   "theorems": [
    "C195_harmonic_refuted",
    "C195_at_most_partial"
   ],
   "note": "Refuted: means of precision, recall and f-measure are taken separately. Proved: the reported f-measure is never greater than the harmonic mean."
  },
  {
   "property": "C196",
   "status": "proved",
   "theorems": [
    "C196_refused"
   ],
   "note": "Complete."
  },
  {
   "property": "C197",
   "status": "proved",
   "theorems": [
    "C197_greatest_tags",
    "C197_any_bundles"
   ],
   "note": "Complete, for given random numbers; how they are drawn is not modelled. Equal tags keep their order in the model."
  },
  {
   "property": "C198",
   "status": "proved",
   "theorems": [
    "C198_refused"
   ],
   "note": "Complete."
  },
  {
   "property": "C199",
   "status": "partial",
   "theorems": [
    "C199_weight_zero_refuted",
    "C199_last_partial"
   ],
   "note": "Refuted: an example of weight 0 is sampled if there are not enough others. Proved: only if all examples of positive weight are in the sample."
  },
  {
   "property": "C200",
   "status": "proved",
   "theorems": [
    "C200_inputs_are_named_features",
    "C200_examples_otherwise"
   ],
   "note": "Complete; conversions to TensorFlow tensors are not modelled."
  },
  {
   "property": "C201",
   "status": "proved",
   "theorems": [
    "C201_named_function",
    "C201_default_signature",
    "C201_callable_model",
    "C201_callable_model_on_examples",
    "C201_missing_function",
    "C201_no_examples"
   ],
   "note": "Complete for dense outputs; sparse and ragged outputs are not modelled."
  },
  {
   "property": "C202",
   "status": "proved",
   "theorems": [
    "C202_one_model",
    "C202_several_models"
   ],
   "note": "Complete."
  },
  {
   "property": "C203",
   "status": "partial",
   "theorems": [
    "C203_whole_or_each_partial",
    "C203_other_errors",
    "C203_large_batches_partial",
    "C203_sparse_values_refuted",
    "C203_more_dimensions_refuted"
   ],
   "note": "Refuted: with a sparse value in the batch the single examples fail (C203_sparse_values_refuted), and the examples reach the model with one dimension more than a batch of one has (C203_more_dimensions_refuted). Proved: one result for the batch or one for each example as split_extracts gives it; equal predictions for functions of serialized examples without sparse values; other errors come out."
  },
  {
   "property": "C204",
   "status": "partial",
   "theorems": [
    "C204_one_model",
    "C204_several_models_partial",
    "C204_labels_partial",
    "C204_other_models_labels_refuted"
   ],
   "note": "Refuted: if only one model has transformed features they are stored without its name and the labels of other models are taken from them. Partial: every model has some, or there is one model."
  },
  {
   "property": "C205",
   "status": "partial",
   "theorems": [
    "C205_function_of_feature",
    "C205_several_features",
    "C205_function_of_model",
    "C205_missing_feature_refuted",
    "C205_two_features_refuted"
   ],
   "note": "Refuted: a missing feature is replaced by the serialized examples, and a second feature of the same function overwrites the first. Proved: what the function is called with if the feature is there, several features are refused, functions unknown to TFMA are the model's."
  },
  {
   "property": "C206",
   "status": "partial",
   "theorems": [
    "C206_sources_to_destinations_partial",
    "C206_features_there",
    "C206_swap_refuted"
   ],
   "note": "Refuted: two features cannot be swapped. Partial: no source is an earlier destination."
  },
  {
   "property": "C207",
   "status": "partial",
   "theorems": [
    "C207_one_model_partial",
    "C207_original_and_counterfactual",
    "C207_named_spec_refuted",
    "C207_named_inputs_refuted"
   ],
   "note": "Refuted: models with named inputs are given the original features, and a single model whose spec has a name cannot be evaluated. Proved for functions given examples and for features as they are, for one model without a name, and for an original and a counterfactual model."
  },
  {
   "property": "C208",
   "status": "partial",
   "theorems": [
    "C208_columns_become_features",
    "C208_no_record_batch",
    "C208_examples_lost_refuted"
   ],
   "note": "Refuted: the input is replaced by None if there is no column of serialized examples. All else is proved. Which Arrow types are supported is not modelled."
  },
  {
   "property": "C209",
   "status": "partial",
   "theorems": [
    "C209_query_sees_transformed_features",
    "C209_only_slice_keys_partial",
    "C209_features_overwritten_refuted"
   ],
   "note": "Refuted: the features of the extract are overwritten by the transformed features. Partial: there are no transformed features. The query itself is an arbitrary function."
  },
  {
   "property": "C210",
   "status": "proved",
   "theorems": [
    "C210_predictions_inserted",
    "C210_other_logs",
    "C210_bulk_inference"
   ],
   "note": "Complete; the decoding of tensors is not modelled."
  },
  {
   "property": "C211",
   "status": "proved",
   "theorems": [
    "C211_weights_of_one_model",
    "C211_weights_by_model",
    "C211_stored_predictions"
   ],
   "note": "Complete for model specs with one key; several outputs are covered by C115."
  },
  {
   "property": "C212",
   "status": "partial",
   "theorems": [
    "C212_rows_partial",
    "C212_arrays_refuted",
    "C212_class_matrices_refuted"
   ],
   "note": "Refuted: arrays of more dimensions than elements, and multi-class matrices at several thresholds, have overlapping rows, and no frame is made. Partial: slices have distinct features, fields of keys and values have distinct names, and only a list that is the only field of its value is repeated."
  },
  {
   "property": "C213",
   "status": "partial",
   "theorems": [
    "C213_types",
    "C213_bounded_values_refuted"
   ],
   "note": "Refuted: one bounded value (or a value of any type without a frame) is a TypeError, and there are no frames at all. Which types have frames is proved for all values as in C212."
  },
  {
   "property": "C214",
   "status": "partial",
   "theorems": [
    "C214_no_value",
    "C214_slices_partial",
    "C214_cross_slices_refuted",
    "C214_overall_feature_refuted"
   ],
   "note": "Refuted: cross slices are all like the whole data, and so is the slice where a feature called Overall is empty. Partial: single slices, no feature called Overall."
  },
  {
   "property": "C215",
   "status": "proved",
   "theorems": [
    "C215_empty_columns"
   ],
   "note": "Complete for metrics and plots as in C212."
  },
  {
   "property": "C216",
   "status": "partial",
   "theorems": [
    "C216_strings",
    "C216_distinct_partial",
    "C216_same_string_refuted",
    "C216_overall_refuted"
   ],
   "note": "Refuted: slices whose values contain '; name:' may have the same string, and the whole data is Overall: with a colon. Partial: no name with a colon, no value with a semicolon, and values with distinct strings. Stability of the sorting is not claimed."
  },
  {
   "property": "C217",
   "status": "partial",
   "theorems": [
    "C217_pivot_columns",
    "C217_pivot",
    "C217_stringified",
    "C217_plots_refuted",
    "C217_other_frames"
   ],
   "note": "Refuted: a frame with several rows for a slice and key, as that of a plot of two models, is a ValueError. Proved for all frames whose rows differ in slice (or its string) or key. The order of rows and columns of the table is not modelled."
  },
  {
   "property": "C218",
   "status": "proved",
   "theorems": [
    "C218_collapsed"
   ],
   "note": "Complete."
  },
  {
   "property": "C219",
   "status": "partial",
   "theorems": [
    "C219_round_trip",
    "C219_one_file",
    "C219_formats",
    "C219_other_files",
    "C219_versions",
    "C219_versions_refuted"
   ],
   "note": "Refuted: a file of former versions without a version is accepted, as the whole dictionary is tested. All else is proved. Serialization as JSON and the conversion of older configurations are not modelled."
  },
  {
   "property": "C220",
   "status": "proved",
   "theorems": [
    "C220_set_pairs"
   ],
   "note": "Complete. Classes are strings, and the order of iteration over a set is any permutation."
  },
  {
   "property": "C221",
   "status": "partial",
   "theorems": [
    "C221_weights_of_pairs_partial",
    "C221_weight_zero_refuted"
   ],
   "note": "Refuted: an example of weight 0 counts as if it had no weight, since the weight is tested for truth. Partial: weights of examples other than 0, and one weight for each example."
  },
  {
   "property": "C222",
   "status": "partial",
   "theorems": [
    "C222_highest_scores_partial",
    "C222_highest_scores_refuted"
   ],
   "note": "Refuted: the first k listed are taken, whatever their scores. Partial: distinct classes listed from the highest score to the lowest."
  },
  {
   "property": "C223",
   "status": "partial",
   "theorems": [
    "C223_refused",
    "C223_several_weights",
    "C223_classes_alone_refuted"
   ],
   "note": "Refuted: predictions without scores are a TypeError for every extract. The other refusals are proved."
  },
  {
   "property": "C224",
   "status": "proved",
   "theorems": [
    "C224_matrices_count_classes",
    "C224_options"
   ],
   "note": "Complete. Weights of examples are not 0 (C221), and the model has no name (C226)."
  },
  {
   "property": "C225",
   "status": "partial",
   "theorems": [
    "C225_nothing_listed_refuted",
    "C225_certain_and_uncertain_refuted",
    "C225_negative_scores_refuted",
    "C225_matrices_of_listed_partial"
   ],
   "note": "Refuted: the matrices come from a histogram of one bucket whose first bucket is dropped: without misses, or without predictions, or with negative scores, what is counted is wrong. Partial: scores that are not negative, some label missed and some class predicted with weights other than 0."
  },
  {
   "property": "C226",
   "status": "partial",
   "theorems": [
    "C226_named_models_always_fail",
    "C226_several_models_refuted",
    "C226_own_predictions_refuted",
    "C226_top_k_apart_partial"
   ],
   "note": "Refuted: the name of the preprocessor depends on top_k only, so metrics with different keys share one computation; and for a named model the metric always fails. Partial: settings with different top_k."
  },
  {
   "property": "C227",
   "status": "partial",
   "theorems": [
    "C227_inverted_logarithms",
    "C227_round_trip",
    "C227_extract_kept_refuted"
   ],
   "note": "Refuted: the extract given is changed in place, so that a second preprocessing inverts twice. All else is proved, over the reals."
  },
  {
   "property": "C228",
   "status": "partial",
   "theorems": [
    "C228_images",
    "C228_one_image",
    "C228_weighted_images_refuted"
   ],
   "note": "Refuted: with an array of example weights every extract is an AttributeError. All else is proved. Decoding is a parameter."
  },
  {
   "property": "C229",
   "status": "partial",
   "theorems": [
    "C229_totals",
    "C229_smallest_and_largest_partial",
    "C229_without_queries_refuted"
   ],
   "note": "Refuted: without queries the smallest is reported to have 1000000000 documents. Partial: at least one query, and none of more than 1000000000 documents. The totals are proved for all schedules."
  },
  {
   "property": "C230",
   "status": "partial",
   "theorems": [
    "C230_mean_by_weight",
    "C230_range",
    "C230_refused",
    "C230_best_order_refuted"
   ],
   "note": "Refuted: a query without a positive gain counts as 0 in whatever order, so queries in the best order need not have a mean of 1. All else is proved, over the reals; NDCG is a mean of quotients of discounted sums. Features are arrays of two dimensions and numbers k are not negative."
  },
  {
   "property": "C231",
   "status": "partial",
   "theorems": [
    "C231_positions_over_weights",
    "C231_mean_position_partial",
    "C231_mean_by_weight_refuted",
    "C231_refused"
   ],
   "note": "Refuted: the positions are not multiplied by the weights while the weights are summed, so with weights it is not a mean. Partial: without a key of weights it is the mean. What is reported with weights is proved too."
  },
  {
   "property": "C232",
   "status": "partial",
   "theorems": [
    "C232_columns",
    "C232_additional_columns",
    "C232_every_feature_refuted",
    "C232_refused",
    "C232_no_fpl_refused"
   ],
   "note": "Refuted: a feature named like the prefix and one with the separator before it share a column, and the first is lost. The columns are proved for all extracts, the last of those with the same name being kept. Names to exclude are strings; at most one additional extract."
  },
  {
   "property": "C233",
   "status": "partial",
   "theorems": [
    "C233_columns_partial",
    "C233_added_to_fpl_partial",
    "C233_empty_feature_refuted",
    "C233_excludes_refuted",
    "C233_other_destination",
    "C233_other_destination_refuted",
    "C233_no_example"
   ],
   "note": "Refuted: a feature of no kind gets the values of the feature before it (or fails if it is the first), excluded features become columns, and without an FPL features are lost if no columns are asked for. Partial: each feature is of a kind."
  },
  {
   "property": "C234",
   "status": "proved",
   "theorems": [
    "C234_features_added",
    "C234_refused"
   ],
   "note": "Complete. An extract under the key of the FPL is an FPL or counts as missing."
  },
  {
   "property": "C235",
   "status": "partial",
   "theorems": [
    "C235_one_model",
    "C235_several_models_partial",
    "C235_given_changed_refuted",
    "C235_merged_refuted",
    "C235_popped_refuted"
   ],
   "note": "Refuted: with several models a dictionary in the given extract is changed in place and an array there is an error; precomputed predictions stay among the features. Partial: with several models, extracts that have none of the three kinds. One model: complete."
  },
  {
   "property": "C236",
   "status": "partial",
   "theorems": [
    "C236_excluded",
    "C236_default",
    "C236_included",
    "C236_both_refused",
    "C236_include_nothing_refuted"
   ],
   "note": "Refuted: an empty list to include keeps everything, with the input. Complete for lists with something in them; maps are covered by the filters of C45."
  },
  {
   "property": "C237",
   "status": "partial",
   "theorems": [
    "C237_validations",
    "C237_estimates",
    "C237_never_flushed_refuted"
   ],
   "note": "Refuted: values that are shared more often than they are large count nothing and are never flushed. All else is proved."
  },
  {
   "property": "C238",
   "status": "partial",
   "theorems": [
    "C238_metrics_counted",
    "C238_callbacks_counted",
    "C238_slices_counted",
    "C238_separate_counters_refuted"
   ],
   "note": "Refuted: names are joined by underscores, so different pairs can share a counter. What each counter counts is proved."
  },
  {
   "property": "C239",
   "status": "partial",
   "theorems": [
    "C239_words",
    "C239_back",
    "C239_letters_kept",
    "C239_digits_refuted"
   ],
   "note": "Refuted: a word that ends in a digit runs into the next. Proved for words of a capital and small letters or digits that end in a letter, both ways; what any name keeps is proved for all."
  },
  {
   "property": "C240",
   "status": "partial",
   "theorems": [
    "C240_native",
    "C240_kept",
    "C240_reduction_refuted"
   ],
   "note": "Refuted: the table misspells MeanSquaredLogarithmicError, so its loss is written as TFMA's with any reduction, and with this setting. All other classes are proved. The JSON text is a list of settings."
  },
  {
   "property": "C241",
   "status": "partial",
   "theorems": [
    "C241_back_tfma",
    "C241_back_keras",
    "C241_module",
    "C241_module_refuted",
    "C241_custom_refuted",
    "C241_wrapped_refuted"
   ],
   "note": "Refuted: the module is ignored if TFMA has a class of the same name; an unregistered metric derived from TFMA's loses its module; a wrapped function is looked for in the wrong module. All else is proved."
  },
  {
   "property": "C242",
   "status": "proved",
   "theorems": [
    "C242_lists",
    "C242_order",
    "C242_none",
    "C242_no_metric"
   ],
   "note": "Complete."
  },
  {
   "property": "C243",
   "status": "partial",
   "theorems": [
    "C243_outputs",
    "C243_options_refuted"
   ],
   "note": "Refuted: the query key and the weights of outputs do not reach the specs. All else is proved."
  },
  {
   "property": "C244",
   "status": "partial",
   "theorems": [
    "C244_refused",
    "C244_accepted",
    "C244_names_refuted"
   ],
   "note": "Refuted: output names together with unweighted metrics by output are ignored, not refused. All else is proved."
  },
  {
   "property": "C245",
   "status": "partial",
   "theorems": [
    "C245_regression",
    "C245_binary",
    "C245_multi_class",
    "C245_counts_refuted"
   ],
   "note": "Refuted: the specs of several classes ask for the example counts twice. All else is proved."
  },
  {
   "property": "C246",
   "status": "partial",
   "theorems": [
    "C246_default",
    "C246_options",
    "C246_outputs_refuted"
   ],
   "note": "Refuted: weights by output do not count for a spec that names no outputs. The exact condition is proved."
  },
  {
   "property": "C247",
   "status": "partial",
   "theorems": [
    "C247_no_config",
    "C247_config",
    "C247_unknown",
    "C247_tags_refuted"
   ],
   "note": "Refuted: with a config the tag eval does not decide the type. The exact types, weights, loaders and switches are proved; loading the model is not modelled."
  },
  {
   "property": "C248",
   "status": "partial",
   "theorems": [
    "C248_extractors",
    "C248_refused",
    "C248_slices_refuted",
    "C248_custom_refuted"
   ],
   "note": "Refuted: slices given without a config are ignored, and a custom extractor is ignored for materialized predictions. The list of extractors and the condition of refusal are proved."
  },
  {
   "property": "C249",
   "status": "partial",
   "theorems": [
    "C249_evaluators",
    "C249_default_metrics_refuted"
   ],
   "note": "Refuted: the default metrics in the graph are not switched off for models of TFLite given alone. The evaluators are otherwise as claimed."
  },
  {
   "property": "C250",
   "status": "partial",
   "theorems": [
    "C250_writers",
    "C250_no_path",
    "C250_callbacks_refuted"
   ],
   "note": "Refuted: callbacks given along with an only model are lost. Proved for plain paths."
  },
  {
   "property": "C251",
   "status": "partial",
   "theorems": [
    "C251_plan",
    "C251_accepted",
    "C251_place_refused",
    "C251_disabled_refuted",
    "C251_nothing"
   ],
   "note": "Refuted: with metrics, plots and attributions disabled the run fails though validations are left. The other parts are proved; the Beam pipeline itself is in the areas of its stages."
  },
  {
   "property": "C252",
   "status": "partial",
   "theorems": [
    "C252_extracts",
    "C252_batches",
    "C252_formats",
    "C252_unbatched",
    "C252_legacy_refuted",
    "C252_text_refuted",
    "C252_bytes"
   ],
   "note": "Refuted: without a config serialized examples and text are given to extractors that cannot take them. Proved for all runs with a config."
  },
  {
   "property": "C253",
   "status": "partial",
   "theorems": [
    "C253_results",
    "C253_default_config",
    "C253_multiple",
    "C253_slices_refused",
    "C253_type_refuted"
   ],
   "note": "Refuted: single_model_analysis ignores the type in the config. The results and the default config are proved."
  },
  {
   "property": "C254",
   "status": "partial",
   "theorems": [
    "C254_columns",
    "C254_run",
    "C254_no_config_refuted",
    "C254_config_refuted"
   ],
   "note": "Refuted: without a config the call fails, and a config without model specs gets no keys. Proved for all configs with model specs."
  },
  {
   "property": "C255",
   "status": "partial",
   "theorems": [
    "C255_names",
    "C255_inputs",
    "C255_default_refuted",
    "C255_same_name_refuted"
   ],
   "note": "Refuted: a missing value of an input of another type than float32, int64 and text is a ValueError, and two inputs of one name (after its number is cut off) are an error. Otherwise proved for all details, shapes and features; the interpreter is a parameter."
  },
  {
   "property": "C256",
   "status": "partial",
   "theorems": [
    "C256_exact",
    "C256_error",
    "C256_nearest_refuted"
   ],
   "note": "Refuted: astype truncates, so the value used is not the nearest. Exactness and the error bound are proved; values out of the range of the type are left to the machine."
  },
  {
   "property": "C257",
   "status": "partial",
   "theorems": [
    "C257_one",
    "C257_several",
    "C257_refused",
    "C257_outputs",
    "C257_given_refuted"
   ],
   "note": "Refuted: with several models the dictionary of predictions that was passed in is changed. The stored values and the refusals are proved."
  },
  {
   "property": "C258",
   "status": "partial",
   "theorems": [
    "C258_inputs",
    "C258_refused",
    "C258_int64_refuted"
   ],
   "note": "Refuted: int64 values are cut to 32 bits. Proved for inputs with one unknown dimension in front and values that fit."
  },
  {
   "property": "C259",
   "status": "partial",
   "theorems": [
    "C259_one",
    "C259_several",
    "C259_refused",
    "C259_outputs",
    "C259_missing_refuted"
   ],
   "note": "Refuted: outputs that the binary does not write are left out without an error, because zip stops there. Names, order and storage are proved."
  },
  {
   "property": "C260",
   "status": "partial",
   "theorems": [
    "C260_one",
    "C260_several",
    "C260_no_config",
    "C260_weights_refused",
    "C260_weights_refuted",
    "C260_position_refuted"
   ],
   "note": "Refuted: the weights of the specs of further models are not stored, and predictions are matched by position rather than by example. Proved for models that fetch one value for each example in order."
  },
  {
   "property": "C261",
   "status": "partial",
   "theorems": [
    "C261_wrapped",
    "C261_positions_refuted",
    "C261_batch",
    "C261_others_refuted"
   ],
   "note": "Refuted: a key that some examples lack has its values at other positions, and all other extracts of the batch are lost. Proved for examples that have the key."
  },
  {
   "property": "C262",
   "status": "partial",
   "theorems": [
    "C262_keys",
    "C262_other_output_refuted",
    "C262_name_refuted"
   ],
   "note": "Refuted: the first output whose name fits is taken, and a repeated prefix is removed from a metric's own name. Proved where one output fits."
  },
  {
   "property": "C263",
   "status": "partial",
   "theorems": [
    "C263_choice",
    "C263_schedule",
    "C263_several_outputs_refuted"
   ],
   "note": "Refuted: if no metric is of all outputs, there are too few places for the weights of metrics of several outputs. Proved with such a metric or one output; Keras itself is a parameter."
  },
  {
   "property": "C264",
   "status": "proved",
   "theorems": [
    "C264_groups",
    "C264_each_once"
   ],
   "note": "The query key of a spec and the empty spec are parameters."
  },
  {
   "property": "C265",
   "status": "partial",
   "theorems": [
    "C265_included",
    "C265_not_included",
    "C265_only_queries_refuted",
    "C265_spec_wins"
   ],
   "note": "Refuted: if all specs have a query key, the metrics saved in the models are not computed though the option is on. Proved where some spec has none."
  },
  {
   "property": "C266",
   "status": "proved",
   "theorems": [
    "C266_slices",
    "C266_succeeds"
   ],
   "note": "For evaluations without confidence intervals and without cross slices; the combiners are any whose outcome depends only on the multiset of inputs."
  },
  {
   "property": "C267",
   "status": "partial",
   "theorems": [
    "C267_union",
    "C267_one_group",
    "C267_small_twice",
    "C267_hidden_slice_refuted"
   ],
   "note": "Refuted: a slice too small in two groups has the entry __ERROR__ from both, so hiding it ends the run. Proved for results without common keys."
  },
  {
   "property": "C268",
   "status": "proved",
   "theorems": [
    "C268_difference_of_differences"
   ],
   "note": "For finite values of metrics that both slices and both models have."
  },
  {
   "property": "C269",
   "status": "partial",
   "theorems": [
    "C269_queries",
    "C269_slices",
    "C269_only_the_slice_refuted"
   ],
   "note": "Refuted: the metrics of a slice take in examples outside it, those of the same query. Proved: the queries and their slices."
  },
  {
   "property": "C270",
   "status": "partial",
   "theorems": [
    "C270_requested",
    "C270_unset_method_refuted"
   ],
   "note": "Refuted: without its defaults a config that asks for intervals and sets no method gets none. Proved for configs with their defaults."
  },
  {
   "property": "C271",
   "status": "partial",
   "theorems": [
    "C271_hidden_fails",
    "C271_overall_threshold_refuted"
   ],
   "note": "Refuted: a threshold for the overall slice alone makes a hidden slice fail. Proved: hidden slices fail with any such threshold."
  },
  {
   "property": "C272",
   "status": "partial",
   "theorems": [
    "C272_round_trip",
    "C272_variable_length",
    "C272_variable_length_refuted",
    "C272_values_kept"
   ],
   "note": "Refuted: values of variable length come back as sparse ones. Proved: all others come back the same, those of variable length with the same values and positions."
  },
  {
   "property": "C273",
   "status": "partial",
   "theorems": [
    "C273_tensors_of_specs",
    "C273_missing",
    "C273_empty_specs_refuted"
   ],
   "note": "Refuted: an empty dictionary of specs gives tensors of all values. Proved: otherwise the tensors are those named; missing values are refused."
  },
  {
   "property": "C274",
   "status": "partial",
   "theorems": [
    "C274_reshaped",
    "C274_fits",
    "C274_empty_batch_refuted"
   ],
   "note": "Refuted: an empty batch is refused if the spec leaves a further size open. Proved: shapes and rows, and success if the sizes fit."
  },
  {
   "property": "C275",
   "status": "proved",
   "theorems": [
    "C275_fit",
    "C275_other_batches",
    "C275_ragged_axes",
    "C275_sparse_axes",
    "C275_scalars_refused"
   ],
   "note": "Specs are inferred from tensors as to_tensorflow_tensors makes them; the shapes of specs are lists of known or unknown sizes."
  },
  {
   "property": "C276",
   "status": "partial",
   "theorems": [
    "C276_columns",
    "C276_some_missing_refuted"
   ],
   "note": "Refuted: lists missing beside others become empty rows of a value of variable length, as lists without values do. Proved: all columns. Lists are of single values, not of further lists; tfx_bsl's adapter is modelled for these."
  },
  {
   "property": "C277",
   "status": "partial",
   "theorems": [
    "C277_representations",
    "C277_misfit",
    "C277_renamed_refuted"
   ],
   "note": "Refuted: a representation other than a sparse one under a name that is no column is left out. Proved: all others. The adapter's sparse tensors are a parameter."
  },
  {
   "property": "C278",
   "status": "partial",
   "theorems": [
    "C278_representations",
    "C278_unknown_sizes",
    "C278_sparse_rank_refuted"
   ],
   "note": "Refuted: a sparse input with three sizes gets a value of variable length with two. Proved: kinds, dense shapes and refusals."
  },
  {
   "property": "C279",
   "status": "proved",
   "theorems": [
    "C279_inputs"
   ],
   "note": "All inputs dense with known sizes; the features are passed on under the names they have."
  },
  {
   "property": "C280",
   "status": "partial",
   "theorems": [
    "C280_texts",
    "C280_same_text_refuted"
   ],
   "note": "Refuted: a number and its text, or values with the separator in them, are displayed under the same text. Proved: otherwise the columns and texts of the values are the same."
  },
  {
   "property": "C281",
   "status": "partial",
   "theorems": [
    "C281_column",
    "C281_overall",
    "C281_spec",
    "C281_cross_slices_refuted"
   ],
   "note": "Refuted: a cross slice with the overall baseline among the results makes the view fail with an IndexError. Proved for results without cross slices."
  },
  {
   "property": "C282",
   "status": "partial",
   "theorems": [
    "C282_column",
    "C282_weights_by_output_refuted"
   ],
   "note": "Refuted: with example weights by output the plain count is used. Proved: the column for weights of the first model that is no baseline."
  },
  {
   "property": "C283",
   "status": "partial",
   "theorems": [
    "C283_plots",
    "C283_refused",
    "C283_errors",
    "C283_class_and_top_k_refuted"
   ],
   "note": "Refuted: plots of a class among the top k have a sub key but cannot be displayed. Proved for one of class, k and top k, without cross slices."
  },
  {
   "property": "C284",
   "status": "partial",
   "theorems": [
    "C284_null_for_nan",
    "C284_succeeds",
    "C284_nested_refuted"
   ],
   "note": "Refuted: NaN deeper than the entries of a series stays. Proved: the entries of series. What json_format makes of the protos is given."
  },
  {
   "property": "C285",
   "status": "partial",
   "theorems": [
    "C285_label",
    "C285_label_refused",
    "C285_label_alone",
    "C285_empty_refuted"
   ],
   "note": "Refuted: of two names with the label the second is displayed if the first has no plots. Proved: names with plots."
  },
  {
   "property": "C286",
   "status": "proved",
   "theorems": [
    "C286_attributions",
    "C286_refused"
   ],
   "note": "Attributions are those of the slices given; the widget's rendering itself is not modelled."
  },
  {
   "property": "C287",
   "status": "proved",
   "theorems": [
    "C287_attributions",
    "C287_metrics",
    "C287_slice_names"
   ],
   "note": "Slices pairwise different in the eyes of Python, as they are when loaded."
  },
  {
   "property": "C288",
   "status": "partial",
   "theorems": [
    "C288_time_series_partial",
    "C288_identifier",
    "C288_same_identifier_refuted"
   ],
   "note": "Refuted: models at /models/a/1 and /models/b/1 are both shown as 1, and a path that ends in a slash as nothing. Proved: the points, identifiers and refusals, without cross slices."
  },
  {
   "property": "C289",
   "status": "proved",
   "theorems": [
    "C289_page",
    "C289_known",
    "C289_callbacks",
    "C289_events"
   ],
   "note": "The JSON text and the trusted HTML around the component are given; texts are bytes."
  },
  {
   "property": "C290",
   "status": "partial",
   "theorems": [
    "C290_each_metric_on_one_side",
    "C290_registered_classes",
    "C290_class_of_the_module_partial",
    "C290_own_losses_refuted",
    "C290_own_losses_become_metrics_refuted",
    "C290_module_overruled_refuted",
    "C290_two_modules_refuted"
   ],
   "note": "Refuted: a loss of a module of its own is refused or taken for a Keras metric of that name; a class name TFMA has registered overrules the module; of two modules with one class name only one counts. Proved: sides and order; the class of the module otherwise."
  },
  {
   "property": "C291",
   "status": "partial",
   "theorems": [
    "C291_calls",
    "C291_later_specs_later",
    "C291_binarization_lost_refuted"
   ],
   "note": "Refuted: beside aggregation options without a type the binarization is lost. Proved: the calls are for just what is asked for with that exception. Class ids are not negative."
  },
  {
   "property": "C292",
   "status": "partial",
   "theorems": [
    "C292_declared_keys",
    "C292_keys_once",
    "C292_weights_not_in_keys_refuted",
    "C292_own_class_refuted"
   ],
   "note": "Refuted: two specs that differ in class weights give the same key twice; so do a metric with a class of its own and its binarization by that class. Proved: the keys, and that each is there once otherwise."
  },
  {
   "property": "C293",
   "status": "proved",
   "theorems": [
    "C293_classes_of_macro_averages"
   ],
   "note": "For metrics whose name does not begin with an underscore and without a class or top k of their own."
  },
  {
   "property": "C294",
   "status": "partial",
   "theorems": [
    "C294_thresholds_used",
    "C294_accepted",
    "C294_untyped_aggregation_refuted"
   ],
   "note": "Refuted in one case: next to binarization an aggregation without a type takes the place of the binarized classes, whose thresholds are then not used; for all other specs the thresholds are just those configured."
  },
  {
   "property": "C295",
   "status": "proved",
   "theorems": [
    "C295_ok_means_within_bounds"
   ],
   "note": "The verdict is that of the validation of each slice, combined in any order."
  },
  {
   "property": "C296",
   "status": "partial",
   "theorems": [
    "C296_slices_of_queries_are_checked_refuted",
    "C296_queries_are_told_apart_refuted",
    "C296_threshold_without_slicing_specs_refuted"
   ],
   "note": "Refuted: a slicing spec with only slice_keys_sql is read as the overall slice, so the slices of the query are not looked at and two queries are one; a per-slice threshold without slicing specs is dropped."
  },
  {
   "property": "C297",
   "status": "proved",
   "theorems": [
    "C297_config_gives_metric_back"
   ],
   "note": "For all classes but the six of C298, and for arguments other than preprocessors (C299) and fn. The values of arguments are JSON values."
  },
  {
   "property": "C298",
   "status": "partial",
   "theorems": [
    "C298_config_is_not_taken_refuted",
    "C298_threshold_of_accuracy_refuted"
   ],
   "note": "Refuted: Bleu, BooleanFlipRates, COCOAveragePrecision, MaxRecall and ObjectDetectionMaxRecall refuse every config they give with a TypeError, since they pass settings on under names they do not take; BinaryAccuracy refuses its config if it has a threshold."
  },
  {
   "property": "C299",
   "status": "partial",
   "theorems": [
    "C299_preprocessors_are_lost_refuted",
    "C299_no_metric_keeps_preprocessors"
   ],
   "note": "Refuted: ConfusionMatrixMetricBase takes preprocessors and passes them on to nothing."
  },
  {
   "property": "C300",
   "status": "proved",
   "theorems": [
    "C300_arguments",
    "C300_one_call_for_each_key",
    "C300_unsupported"
   ],
   "note": "With no models, outputs or sub keys there are no calls and weights are not looked at."
  },
  {
   "property": "C301",
   "status": "proved",
   "theorems": [
    "C301_functions_take_their_calls",
    "C301_unknown_settings_refused",
    "C301_preprocessors_taken"
   ],
   "note": "Arguments taken by **kwargs that nobody knows are refused only when the metric is computed. With no models, outputs or sub keys there are no calls."
  },
  {
   "property": "C302",
   "status": "partial",
   "theorems": [
    "C302_settings_reach_function_partial",
    "C302_settings_reach_function_refuted"
   ],
   "note": "Refuted: COCOMeanAveragePrecision and COCOMeanAverageRecall have a setting class_weights, which is a reserved name: what is asked for, mostly none, replaces it. Partial: all other registered metrics, with no setting given under a name the calls set."
  },
  {
   "property": "C303",
   "status": "partial",
   "theorems": [
    "C303_calls_name_model_and_output_partial",
    "C303_calls_name_model_and_output_refuted"
   ],
   "note": "Refuted: SetMatchPrecision and SetMatchRecall do not take the output name, so the calls for two outputs are the same. Partial: the model for all metrics, the output for all others."
  },
  {
   "property": "C304",
   "status": "proved",
   "theorems": [
    "C304_example_weights"
   ],
   "note": "With no models, outputs or sub keys there are no calls and weights are not looked at."
  },
  {
   "property": "C305",
   "status": "proved",
   "theorems": [
    "C305_values",
    "C305_accepted"
   ],
   "note": "For finite numbers and NaN; with one number that is not NaN the deviation is NaN. A slice with one replica only has the values of that replica."
  },
  {
   "property": "C306",
   "status": "partial",
   "theorems": [
    "C306_unsampled_value_kept_partial",
    "C306_unsampled_value_kept_refuted"
   ],
   "note": "Refuted: if all replicas of a number are NaN then its value without sampling is replaced by NaN. Partial: some replica that is not NaN, and two replicas of the slice or more."
  },
  {
   "property": "C307",
   "status": "proved",
   "theorems": [
    "C307_slices",
    "C307_samples",
    "C307_other_names_refused"
   ],
   "note": "A slice of the metrics without sampling that no replica has is not in the result."
  },
  {
   "property": "C308",
   "status": "partial",
   "theorems": [
    "C308_classes_partial",
    "C308_classes_refuted",
    "C308_local_classes_refused"
   ],
   "note": "Refuted: classes are loaded on the workers by their name alone, so of two classes of one name, from different modules or a metric and a loss, the last stands for both. Partial: classes of the same name are of the same module, and are neither functions in a wrapper of Keras nor registered under other names."
  },
  {
   "property": "C309",
   "status": "proved",
   "theorems": [
    "C309_models_run",
    "C309_logs_by_name",
    "C309_accepted"
   ],
   "note": "Logs are under the names of the specs, which are unique."
  },
  {
   "property": "C310",
   "status": "partial",
   "theorems": [
    "C310_after_first_part",
    "C310_distinct_keys",
    "C310_distinct_tags_partial",
    "C310_distinct_tags_refuted"
   ],
   "note": "Refuted: a tag with a slash is not told from a key with more parts. Partial: tags without a slash, or the same tag."
  },
  {
   "property": "C311",
   "status": "partial",
   "theorems": [
    "C311_plots_partial",
    "C311_plots_refuted",
    "C311_tags_and_bounds_partial",
    "C311_tags_refuted"
   ],
   "note": "Refuted: any key that ends like the name of a plot is taken as the key of a plot, and a tag on the bare name of a plot gives a key that is not. Partial: names of plots are keys of plots, and with a prefix stay so when tagged."
  },
  {
   "property": "C312",
   "status": "partial",
   "theorems": [
    "C312_batches",
    "C312_one_by_one_partial",
    "C312_one_by_one_refuted"
   ],
   "note": "Refuted: an error of TensorFlow, as ResourceExhausted, is reraised as a RuntimeError, which is not caught, so the examples are not run one by one. Partial: a ValueError with a message."
  },
  {
   "property": "C313",
   "status": "proved",
   "theorems": [
    "C313_set_variables",
    "C313_too_few",
    "C313_values"
   ],
   "note": "The variables of a graph are distinct. Values beyond the number of variables are ignored."
  },
  {
   "property": "C314",
   "status": "partial",
   "theorems": [
    "C314_registered",
    "C314_taken_names_refused",
    "C314_refused_unchanged_partial",
    "C314_refused_unchanged_refuted"
   ],
   "note": "Refuted: if a name was registered before then the metrics before it in the same call stay registered, without variables, and no metric of the graph can be read any more. Partial: conflicts among the callbacks of one call change no metric."
  },
  {
   "property": "C315",
   "status": "partial",
   "theorems": [
    "C315_features",
    "C315_transformed_features",
    "C315_attributions",
    "C315_input",
    "C315_combined_partial",
    "C315_combined_refuted",
    "C315_accepted"
   ],
   "note": "Refuted: CombinedFeaturePreprocessor looks up raw features by model too if names of models are given, where they are not kept by model, and so drops them. The partial theorem covers it without names of models."
  },
  {
   "property": "C316",
   "status": "partial",
   "theorems": [
    "C316_features_partial",
    "C316_inputs_of_model",
    "C316_one_model_refuted",
    "C316_two_models_refuted",
    "C316_transformed_first"
   ],
   "note": "Refuted: a single model has the name '', so labels, predictions and transformed features are looked up under '' and dropped (unless another computation asks for them); with several models the transformed features are merged into the features as one feature per model name instead of by feature. Partial: without transformed features the model gets exactly the raw features it takes. The labels, predictions and weights of a model among several are kept."
  },
  {
   "property": "C317",
   "status": "partial",
   "theorems": [
    "C317_mean_reads_partial",
    "C317_mean_reads_refuted"
   ],
   "note": "Refuted: a feature stored under a joined key (user/age) is found by the path (user, age) in the whole extract, but is dropped by the filter, and the mean fails. Partial: the values are stored one dictionary per key."
  },
  {
   "property": "C318",
   "status": "proved",
   "theorems": [
    "C318_own_labels_and_weights",
    "C318_outputs"
   ],
   "note": "For any argpartition, keys of the model spec and function that finds the inputs. Arrays of labels or weights of different lengths are refused (NumPy before 1.24 makes arrays of objects)."
  },
  {
   "property": "C319",
   "status": "proved",
   "theorems": [
    "C319_features",
    "C319_one_batch",
    "C319_missing_inputs"
   ],
   "note": "The batch size is that of the merged features; it is None only if there are no features. The conversion of inputs to tensors and model.evaluate itself are TensorFlow."
  },
  {
   "property": "C320",
   "status": "partial",
   "theorems": [
    "C320_rows_partial",
    "C320_own_width_refuted",
    "C320_outputs"
   ],
   "note": "Refuted: all outputs are padded to the longest labels or predictions of any output, so the metrics of a narrow output also average over padding (pad_to_dim is kept once per accumulator). Partial: the rows are as stated with the longest of all outputs."
  },
  {
   "property": "C321",
   "status": "partial",
   "theorems": [
    "C321_own_pairs_refuted",
    "C321_together_as_alone_partial"
   ],
   "note": "Refuted: the keys of the matrices and of the histogram leave out the aggregation type, so that a micro average over the top k shows the value binarized over the top k when both are configured. Partial: metrics are computed as alone when those over the same top k of one model, output and weighting are all aggregated or none is; class weights, example ids, preprocessors and interpolated thresholds are not part of the model."
  },
  {
   "property": "C322",
   "status": "partial",
   "theorems": [
    "C322_bounds_are_checked_partial",
    "C322_bounds_are_checked_refuted",
    "C322_both_are_reported_refuted",
    "C322_both_are_reported_partial",
    "C322_bounds_on_errors_partial"
   ],
   "note": "Refuted: the mean regression errors are reported without the aggregation type. A bound on a micro average is kept for a key that is not reported, and of a mean squared error and its micro average only the first is computed (the keys of calibration.py, cross_entropy_metrics.py, exact_match.py, squared_pearson_correlation.py and tjur_discrimination.py leave it out as well). Partial: bounds on metrics of confusion matrices are for exactly the keys of their values, macro averages aside, and bounds on mean errors for the keys of those that are no averages; mean errors of different names, models, outputs, sub keys or weightings are computed together as alone."
  },
  {
   "property": "C323",
   "status": "partial",
   "theorems": [
    "C323_own_totals_refuted",
    "C323_totals_as_alone_partial"
   ],
   "note": "Refuted: the key of the totals leaves out the aggregation type and the class weights, so that a micro average of predictions with class weights is made of the totals of an unaggregated calibration when both are configured. Partial: the metrics are computed as alone when those of one model, output, sub key and weighting have the same class weights and are all aggregated or none is."
  },
  {
   "property": "C324",
   "status": "partial",
   "theorems": [
    "C324_counts_without_interval_partial",
    "C324_counts_without_interval_refuted"
   ],
   "note": "Refuted: the keys to skip carry the aggregation type of the spec, the key of example_count never does; a count that is configured with micro averages gets an interval. Partial: the counts that are configured without averages."
  },
  {
   "property": "C325",
   "status": "partial",
   "theorems": [
    "C325_bounds_kept_partial",
    "C325_bounds_kept_refuted",
    "C325_own_settings_partial",
    "C325_bounds_of_metrics_partial"
   ],
   "note": "Refuted: a metric with a top k of its own is reported under this sub key, its bounds are kept for the key of the spec; validation fails whatever is reported. Partial: metrics without top k or class of their own, for bounds on values and without macro averages; with such settings validation never passes. For any metric, macro averages included, validation passes exactly if a value within the bounds is reported for each model, output, class, top k or average and weighting of the spec."
  },
  {
   "property": "C326",
   "status": "partial",
   "theorems": [
    "C326_bounds_of_model_metrics_partial",
    "C326_metric_of_model_partial",
    "C326_metric_with_top_k_refuted",
    "C326_binarized_refuted"
   ],
   "note": "Refuted: a metric of the model with a top k of its own, or a spec with binarization: the bounds are kept for keys that the model does not report, and validation fails whatever is reported. Partial: validation passes exactly if a value within the bounds is reported for each model, output and class, top k or average of the spec; for metrics without top k or class, in specs without binarization and aggregation, the value of the model decides."
  },
  {
   "property": "C327",
   "status": "proved",
   "theorems": [
    "C327_intervals_and_verdicts"
   ],
   "note": "Complete, for values that are numbers or texts and thresholds on metrics that are not named __ERROR__."
  }
 ]
}