# Formal model of TensorFlow Model Analysis in Rocq (Coq 8.16.1)

Source: `/repo` (Python, pinned commit), read as text.  All paths below are
relative to `/repo/tensorflow_model_analysis/`.

## 1. Approach

* **Shallow, executable model.**  Each modelled Python function is a total
  Gallina function of the same shape, branch by branch, with a comment giving
  file, lines and every simplification.  Model files (`*_Model.v`) contain no
  proofs.
* **Values.**  Numbers are canonical rationals `Qc` (exact arithmetic, Leibniz
  equality, computable); where the code produces or compares NaN / ±inf the
  extended type `num := NaN | NegInf | Fin q | PosInf` of `Base.v` is used with
  IEEE comparison semantics.  Floating-point *rounding* is not modelled.
  Square roots are handled through their squares or in the standard library's
  real numbers `R`; logarithms in `R`.
* **Python objects.**  Exceptions are values (`res A := Ok a | Err exn`), dicts
  are insertion-ordered association lists, sets are duplicate-free lists (the
  iteration order of a Python `set` is represented by quantifying over all
  permutations, or by using only order-insensitive observations), numpy arrays
  are lists, protobuf messages are records with `option` for presence.
* **Distribution.**  Beam's `CombinePerKey` contract is modelled once in
  `Beam.v`: a combiner is a record `create/add/merge/extract`; a *schedule* is
  any tree whose leaves are bundles of inputs folded with `add` and whose inner
  nodes are `merge` calls on one or more children (and further `add`s to a
  merged accumulator).  "For every schedule" means for all such trees whose
  leaves are, up to permutation, the inputs.
* **Specifications** are separate: the theorem statements use filters, sums,
  membership and permutations of the standard library or small definitions of
  their own, and do not call the model's helpers.
* **Files.**  Each area has `X_Model.v` (the model), `X_Main.v` (proofs) and
  `X_Properties.v` (the theorems of the properties, an `Example` beside each,
  and `Print Assumptions` under each).
* **Refutations.**  Where the English property is false of the code, a theorem
  `…_refuted : exists …` gives a witness, together with the largest positive
  statement we could prove (suffix `_partial` when it falls short of the
  property's English statement).
* **Seeded bugs.**  `seeded/LOG.jsonl` records mutations of the model, the
  theorems that then fail, and which theorems were tightened because of one.

### Areas

| files | code |
|---|---|
| Base, BaseFacts | numbers, dictionaries, exceptions; facts about them |
| Beam, BeamFacts | combiners and schedules |
| Slicer, Pipeline | slicer/slicer_lib.py, slicer/slice_accessor.py, extractors/slice_key_extractor.py; fan-out and per-slice combination of evaluators/metrics_plots_and_validations_evaluator.py |
| Util | utils/util.py, metrics/metric_util.py (key lookup, filters on nested dictionaries) |
| Inputs | metrics/metric_util.py: to_label_prediction_example_weight and its parts |
| Sums | metrics/example_count.py, mean metrics of calibration.py, query statistics, min_label_position.py, tjur / score distribution sums |
| Histogram | metrics/calibration_histogram.py and its use for confusion matrices |
| Confusion | contrib/aggregates/binary_confusion_matrices.py, metrics/binary_confusion_matrices.py |
| Means | metrics/flip_metrics.py, mean_regression_error.py, prediction_difference_metrics.py, tjur_discrimination.py, squared_pearson_correlation.py and relatives |
| Keys | metrics/metric_types.py: MetricKey, SubKey, AggregationType and their messages |
| Evaluator | evaluators/metrics_plots_and_validations_evaluator.py: computations, derived, diff and cross slice metrics; evaluators/evaluator.py |
| Validation | evaluators/metrics_validator.py, metrics/metric_specs.py: thresholds |
| CI | evaluators/jackknife.py, poisson_bootstrap.py, confidence_intervals_util.py, utils/math_util.py |
| Rates | metrics/confusion_matrix_metrics.py, choice of thresholds in metrics/binary_confusion_matrices.py (square roots and logarithms in R, facts in RealFacts) |
| Aggregation | metrics/aggregation.py, metrics/metric_specs.py: the keys of metrics specs, output, macro and weighted macro averages, class weights from labels |
| Config | utils/config_util.py, utils/model_util.py: verification and defaults of a config, models by name, feature values of a model |
| Results | writers/metrics_plots_and_validations_writer.py, view/util.py, view/view_types.py, api/model_eval_lib.py: storing, loading and showing results, running evaluators |
| Batches | api/types.py: VarLenTensorValue; utils/util.py: splitting, merging and measuring batches, StandardExtracts; extractors/unbatch_extractor.py |
| Ranking | metrics/ndcg.py |
| Entropy | metrics/cross_entropy_metrics.py, metrics/model_cosine_similarity.py, metrics/mean_regression_error.py: squared logarithmic error |
| Classes | metrics/multi_class_confusion_matrix_metrics.py, multi_class_confusion_matrix_plot.py, multi_label_confusion_matrix_plot.py, semantic_segmentation_confusion_matrix_metrics.py, preprocessors/set_match_preprocessors.py |
| Detection | metrics/preprocessors/utils/bounding_box.py, box_match.py, object_detection_format.py, metrics/preprocessors/object_detection_preprocessors.py, metrics/object_detection_confusion_matrix_metrics.py, metrics/object_detection_metrics.py, metric_util.py: object detection arguments |
| Keras | metrics/tf_metric_accumulators.py, metrics/tf_metric_wrapper.py, metric_util.py: pad |
| Attributions | metrics/attributions.py |
| Plots | metrics/confusion_matrix_plot.py, score_distribution_plot.py, calibration_plot.py, object_detection_confusion_matrix_plot.py, binary_confusion_matrices.py: Matrices.to_proto |
| Text | metrics/bleu.py, metrics/rouge.py, metrics/sample_metrics.py |
| Extract | utils/model_util.py: inputs and functions of models, ModelSignaturesDoFn; extractors/predictions_extractor.py, transformed_features_extractor.py, labels_extractor.py, example_weights_extractor.py, materialized_predictions_extractor.py, counterfactual_predictions_extractor.py, features_extractor.py, sql_slice_key_extractor.py, inference_base.py |
| Frames | api/dataframe.py, writers/eval_config_writer.py |
| Sets | metrics/preprocessors/set_match_preprocessors.py, metrics/set_match_confusion_matrix_metrics.py, metrics/preprocessors/invert_logarithm_preprocessors.py, metrics/preprocessors/image_preprocessors.py |
| Legacy | evaluators/query_metrics/*.py, extractors/legacy_feature_extractor.py, legacy_meta_feature_extractor.py, legacy_input_extractor.py, extractor.py, evaluators/analysis_table_evaluator.py, evaluators/counter_util.py, api/verifier_lib.py, utils/size_estimator.py |
| Specs | metrics/metric_specs.py: configs of metrics, specs_from_metrics, default specs, example weights; metrics/metric_util.py: names, serialization |
| Setup | api/model_eval_lib.py: default shared model, extractors, evaluators, writers, runs, analyses; utils/model_util.py: get_model_type |
| Predict | extractors/tflite_predict_extractor.py, tfjs_predict_extractor.py, legacy_predict_extractor.py; evaluators/keras_util.py |
| Whole | evaluators/metrics_plots_and_validations_evaluator.py as a whole: groups of specs, metrics of models, slices, results put together, validation, the way of intervals |
| Tensors | utils/util.py: to_tensor_values, to_tensorflow_tensors, infer_tensor_specs, record_batch_to_tensor_values; utils/model_util.py: input_specs_to_tensor_representations |
| Views | view/util.py, view/widget_view.py and view/view_types.py: slices, plots, attributions and time series displayed; slicer/slicer_lib.py: stringify_slice_key; notebook/colab/util.py |
| Routing | metrics/metric_specs.py: splitting into Keras and TFMA metrics in to_computations, _process_tf_metrics_specs and the private metrics |
| Thresholds | metrics/metric_specs.py: metric_thresholds_from_metrics_specs and _keys_for_metric, on to the verdict of the validation |
| Ctors | metrics/metric_types.py: Metric, validate_and_update_create_computations_fn_kwargs; the __init__ and get_config of all registered metrics in metrics/*.py; metrics/metric_util.py: merge_per_key_computations |
| Signatures | the parameters of the functions that make the computations of all registered metrics in metrics/*.py, and Python calls of them |
| Replicas | evaluators/legacy_poisson_bootstrap.py |
| Workers | metrics/tf_metric_wrapper.py: _custom_objects, _load_custom_objects, _CompilableMetricsCombiner.setup; extractors/tfx_bsl_predictions_extractor.py; post_export_metrics/metric_keys.py |
| Graphs | eval_metrics_graph/eval_metrics_graph.py; utils/util.py: reraise_augmented |
| Features | metrics/metric_types.py: InputPreprocessor, FeaturePreprocessor, TransformedFeaturePreprocessor, CombinedFeaturePreprocessor, AttributionPreprocessor; evaluators/keras_util.py: preprocessors of native evaluation and _KerasEvaluateCombiner._add_input; metrics/stats.py: filter of means |
| Native | evaluators/keras_util.py: _KerasEvaluateCombiner._add_input and _update_state (the call of model.evaluate); _KerasCompiledMetricsCombiner._update_state |
| Sharing | metrics/binary_confusion_matrices.py: names and keys of the computations; metrics/calibration_histogram.py: name and key; metrics/confusion_matrix_metrics.py: ConfusionMatrixMetricBase._metric_computations, _validate_and_update_sub_key; metrics/mean_regression_error.py and calibration.py: keys and computations; metrics/metric_specs.py: the keys of _process_tfma_metrics_specs and keys_and_metrics_from_specs; metrics/example_count.py: keys; api/types.py: ValueWithTDistribution.__float__ |

## 2. Properties

| id | property | status | theorems | remarks |
|---|---|---|---|---|
| C01 | Slice keys of an example are exactly the matching combinations | proved | `C01_slices_exact` | Proved for specs built from any SlicingSpec proto whose map keys are unique (they are in a proto), any features, any fallback dictionary, valid UTF-8 text. Order of equal-valued representatives is first occurrence instead of np.unique order. |
| C02 | A generated slice key is always recognised by the spec that generated it | proved | `C02_generated_applicable`, `C02_applicable_characterised` | Both directions. |
| C03 | Slicing on a fixed feature value selects every example holding that text | partial | `C03_text_value_selects_refuted`, `C03_bytes_value_selects_refuted`, `C03_text_value_selects_partial` | Refuted: numeric-looking text ("02139", or b"42") is normalised to a number and no longer matches. The partial theorem shows text that does not parse as a number is always matched. |
| C04 | An example is counted at most once per slice | proved | `C04_fanout_once` | Keys compared by Python equality. |
| C05 | Metrics reported for a slice are the metrics of exactly the examples in the slice | proved | `C05_slice_metrics_exact` | Assumes Beam's CombinePerKey contract (Beam.per_key), no integral float feature values, valid UTF-8. Applies to every combiner that is a function of the multiset of its inputs; the concrete combiners are shown to be such in C10-C20. |
| C06 | Small slices never leak aggregated values | proved | `C06_small_slices_hidden` | Counts come from Count.PerElement over the same fanned-out examples. |
| C07 | Minimum slice size works together with cross slicing | partial | `C07_min_size_with_cross_slices_refuted`, `C07_min_size_crashes_on_every_cross_slice` | Refuted: FilterOutSlices indexes slices_count[0], which is empty for every cross slice key; the second theorem shows the crash happens whenever a cross slice value is present. |
| C08 | Slice keys survive being written and read back | partial | `C08_slice_key_round_trip`, `C08_cross_slice_key_round_trip`, `C08_float_precision_refuted` | float_value is a 32 bit field, hence the representability condition; the refuted theorem shows 0.1 does not survive. |
| C09 | Single-slice keys and cross-slice keys are never confused | proved | `C09_key_types_never_confused` | Model of the duck-typing classifier over nested tuples of str/bytes/int/float. |
| C10 | Example count, weighted example count and means do not depend on the schedule | proved | `C10_example_count`, `C10_weighted_example_count`, `C10_ambiguous_weights_rejected`, `C10_mean` | Sums are over exact rationals (floating point rounding not modelled). The example count theorem for the unweighted case needs no hypothesis at all. |
| C11 | Calibration is total weighted prediction over total weighted label | proved | `C11_calibration` | One class (binary) or flattened classes without sub key; labels and predictions dense and finite; exact rationals. np.isclose(x,0) is modelled as \|x\| <= 1e-8. |
| C12 | Calibration histogram loses no weight | proved | `C12_bucket_contains`, `C12_histogram_conserves` | Any number of buckets and range, any argpartition, labels dense; the weights and labels are those of the flattened (and, if enabled, label-split) tuples. np.trunc on finite values; exact rationals. |
| C13 | Re-bucketing a histogram by thresholds loses no weight and respects the thresholds | proved | `C13_rebin` | Holds for any sorted thresholds without NaN; every bucket goes to the last threshold at or below its lower edge, and totals are conserved. The first group also takes everything below the first threshold. |
| C14 | Confusion matrix counts are exactly the weighted counts, whatever the schedule | proved | `C14_confusion_counts` | Distinct thresholds (repeated ones are C67). Both with fractional labels (weights split into label and 1-label parts) and without (label compared with the threshold). Dense one- or multi-class examples without sub key; predictions may be NaN or infinite. |
| C15 | Confusion matrix cells are conserved and monotone in the threshold | proved | `C15_confusion_conserved_monotone`, `C15_histogram_monotone` | For the exact matrices with fractional labels (the default) and for those derived from a histogram (under the conditions of C16). Without fractional labels the positives themselves depend on the threshold, so the claim does not apply. |
| C16 | Histogram-based confusion matrices conserve the examples | partial | `C16_histogram_conserves_refuted`, `C16_histogram_conserves_partial` | Refuted: for a threshold of at least 1+1e-7 (first threshold not negative) all four cells are left at values that drop examples. The partial theorem proves conservation at every threshold for every non-empty histogram when the thresholds are below 1+1e-7 or the first one is negative; sortedness is not needed. C64 relates the totals to the data. |
| C17 | Flip rates do not depend on how the runner bundles data | partial | `C17_flip_rate_schedule_refuted`, `C17_flip_rates_partial` | Refuted: merge_accumulators takes next(iter(accumulators)) and then loops over all accumulators, so the first one is counted twice whenever the runner passes a re-iterable (the evaluator's tuple combiner passes tuples): 2/3 instead of 1/2. The partial theorem covers schedules without merges (bundles and further inputs). |
| C18 | Flip counts partition the flips | proved | `C18_flip_counts_partition` | Holds for every merge tree, including the double counting of C17 (the duplicated weights are still partitioned). |
| C19 | NDCG lies in [0,1] | proved | `C19_ndcg_mean`, `C19_ndcg_schedule`, `C19_ndcg_range`, `C19_perfect_ranking`, `C19_mean_range` | Exact real logarithms (standard library reals); np.argsort is an oracle with its documented contract, so ties may be broken either way. Queries without a positive gain are left out of the mean, as in the code. |
| C20 | Query statistics and minimum label position are schedule independent | proved | `C20_query_statistics`, `C20_argsort_satisfiable`, `C20_min_label_position` | np.argsort is an oracle satisfying its contract (instance given), so ties may be broken either way. Document counts are multiplied by the example weight, as coded. Multi-model document counts are C62. |
| C21 | Jackknife point estimates are the metrics of the full data | proved | `C21_jackknife_samples`, `C21_point_estimates` | Complete for the metrics before derived metrics are added; derived metrics are functions of them (C40). |
| C22 | Confidence intervals never change point estimates and are withheld when samples are missing | proved | `C22_intervals` | Complete, for every schedule; values are numbers (structured values and arrays behave like several numbers). |
| C23 | Jackknife mean and standard error have their textbook values | proved | `C23_jackknife`, `C23_bootstrap`, `C23_shift`, `C23_interval` | Complete; the standard error is given by its square, the interval is in real numbers with any quantile >= 0. |
| C24 | Bootstrap replicates resample only the slice's own examples | proved | `C24_replicates`, `C24_ones` | Complete. An example enters with the number its Poisson draw gives. |
| C25 | A value threshold fails exactly when the metric is outside its bounds | proved | `C25_value_threshold` | Complete. |
| C26 | A change threshold fails exactly when the change is worse than allowed in the stated direction | proved | `C26_change_threshold` | Complete for thresholds with a direction; the missing direction is C88. |
| C27 | A slice is validated ok iff it has no failing and no missing threshold | proved | `C27_verdict_exact` | Complete: verdict and reported (metric, threshold) pairs; a raised exception is C88. |
| C28 | A threshold scoped to slices constrains only those slices | partial | `C28_missing_metric_any_slice_refuted`, `C28_scoped_threshold_partial` | Refuted: a metric missing from a slice fails thresholds scoped to other slices. Partial: thresholds of metrics that are there. |
| C29 | The overall verdict is the conjunction of all slice verdicts | proved | `C29_final_verdict` | A spec counts as found as described in C32; a spec of cross slices always counts as missing (C33). |
| C30 | Without thresholds the verdict is ok only when rubber stamping | proved | `C30_no_thresholds` | Complete, for every schedule. |
| C31 | Matching-slice counts in validation details are exact | partial | `C31_slice_details_partial`, `C31_counts_partial`, `C31_repeated_threshold_refuted`, `C31_cross_slice_as_overall_refuted` | Refuted: a failing threshold repeated for a second spec is not counted for it; a cross slice is counted as the overall slice. Partial: single slices, each threshold of a metric given for one spec. |
| C32 | A configured slice with no data is reported as missing | partial | `C32_missing_slices_partial`, `C32_checked_slice_missing_refuted`, `C32_overall_slice_not_missing_refuted` | Refuted: a spec that was checked is listed as missing, if its threshold failed under another spec too; a missing overall slice is not listed if a threshold without spec was checked elsewhere. Partial: single slices, each threshold of a metric given for one spec, and a threshold without spec counted as one for the overall spec. |
| C33 | Cross-slice thresholds can be satisfied | partial | `C33_never_ok`, `C33_cross_threshold_refuted` | Refuted: every validation with a threshold scoped to a cross slicing spec fails (C33_never_ok, for all results and schedules). |
| C34 | Diff metrics are candidate minus baseline | proved | `C34_diff_is_candidate_minus_baseline`, `C34_diffs_defined` | Two theorems: the exact content of the result including the untouched old values, and that the diff is defined whenever the metric values are numbers. |
| C35 | Private helper metrics never appear in results | proved | `C35_private_metrics_hidden`, `C35_public_values_kept` | Proved for every dictionary; public values and their keys are kept. |
| C36 | Shared computations are computed once without changing results | partial | `C36_computed_once`, `C36_values_as_alone_partial`, `C36_feature_sampler_dropped_refuted` | Refuted for the derived computation of the confusion matrix feature samplers: it has an empty key list, so a second sampler is dropped as a duplicate. Proved: ids are computed once, in order, and (partial) the values of computations whose ids identify them are as alone. |
| C37 | Computing several metrics together equals computing each alone | proved | `C37_compound_is_union_of_parts`, `C37_parts_see_their_inputs`, `C37_value_as_alone` | Complete: success exactly if every part succeeds alone on its inputs with the same bundling; the result is the union in order. |
| C38 | Metric keys survive being written and read back | partial | `C38_metric_key_round_trip`, `C38_distinct_messages`, `C38_micro_becomes_macro_refuted` | The round trip is proved to hold exactly for keys whose sub key says something in 32 bit numbers and whose aggregation type names one average and leaves the others out. Refuted for the rest: micro average with macro_average=False spelled out reads back as a macro average (the oneof keeps the last field set). Messages are records of fields, the wire format is not modelled. |
| C39 | Plot keys survive being written and read back | partial | `C39_plot_key_round_trip`, `C39_aggregation_dropped_refuted` | Refuted: the plot key message has no aggregation type, so a plot of an averaged metric and the plot without averaging share one message. The round trip is proved for keys without aggregation type and weighting. |
| C40 | Rate metrics stay within [0,1] and complementary rates sum to one | proved | `C40_rates`, `C40_complements`, `C40_means`, `C40_on_data` | Complete, and carried over to the matrices of every dataset and schedule (C40_on_data). |
| C41 | AUC is in [0,1] and its three summation methods are ordered | proved | `C41_roc_auc`, `C41_roc_auc_on_data` | Complete: for matrices in general and for those of every dataset and schedule. If a class is absent the area is 0 by definition of the code. |
| C42 | 'X at Y' metrics return the best achievable value under the constraint | proved | `C42_best_under_constraint` | Complete for all six metrics, single constraints and lists. |
| C43 | Element-wise arithmetic on confusion matrices is total on equal thresholds and agrees with cell-wise arithmetic | partial | `C43_elementwise_refuted`, `C43_elementwise_partial` | Refuted: line 126 swaps the indices, so IndexError when self lacks thresholds that other has. The partial theorem covers every operation whenever other's thresholds are among self's (equal thresholds in particular). |
| C44 | Variable length batches round-trip | partial | `C44_rows_round_trip_partial`, `C44_rows_all_empty_lost_refuted` | Refuted: a batch whose rows are all empty has no rows when iterated. Partial: at least one row with a value. |
| C45 | Include and exclude filters partition the data | partial | `C45_include_exclude_partition`, `C45_merge_is_union`, `C45_empty_filter_refuted` | Refuted: only for the empty filter, which both include and exclude treat as 'keep everything'. For every other filter that does not reach into a leaf the partition and union theorems hold. |
| C46 | Generated unique names are fresh | proved | `C46_unique_key_fresh` | Termination is by pigeonhole: at most length(current)+1 tests. |
| C47 | Compound keys identify their parts | partial | `C47_compound_key_injective_refuted`, `C47_empty_part_collides_refuted`, `C47_compound_key_injective_partial` | Refuted: ['a_','b'] and ['a','_b'] collide, so do ['a__b'] and ['a','','b']. The partial theorem shows injectivity when every part is non-empty and neither starts nor ends with an underscore (the separator may occur inside). |
| C48 | Macro average is the (weighted) mean over classes and stays within the range of class values | proved | `C48_macro_average_is_weighted_mean`, `C48_macro_average_in_range`, `C48_weighted_macro_average_is_weighted_mean`, `C48_other_values_are_refused`, `C48_class_weights_are_label_shares`, `C48_class_weights_sum_to_1` | Complete for non-negative weights: mean, range, weights by labels, shares and their sum, for every schedule. |
| C49 | Macro and weighted macro averages are reported under different keys | partial | `C49_both_averages_are_reported_refuted` | Refuted: both averages have the same key and the second computation is dropped. |
| C50 | Duplicate model names are rejected | partial | `C50_verification_partial`, `C50_duplicate_names_rejected_refuted` | Refuted: the test for duplicates compares a name with messages and never fires. Partial: an exact description of what is accepted. |
| C51 | Removing the baseline removes every change threshold | proved | `C51_removal_of_baseline`, `C51_one_model_has_no_baseline` | Complete. |
| C52 | Splitting fractional labels conserves weight | proved | `C52_fractional_split_conserves` | Weights of the two split examples sum to the original weight and their weighted labels to label times weight; parts of weight zero are dropped. |
| C53 | Top-k selection keeps exactly the k best classes | proved | `C53_argpartition_satisfiable`, `C53_top_k_keeps_best`, `C53_kth_is_kth_largest`, `C53_top_k_masks_rest`, `C53_too_few_classes_rejected` | np.argpartition is an oracle assumed to satisfy its documented contract (argpartition_ok); an insertion sort instance shows the contract is satisfiable. NaN predictions excluded by hypothesis. |
| C54 | Loading results with a slice filter returns exactly the requested slices | partial | `C54_cross_slices_match_overall_refuted`, `C54_load_filter_partial` | Refuted: a cross slice is taken for the overall slice. Partial: all records of single slices. |
| C55 | Written result tables keep distinct slices distinguishable | partial | `C55_slice_key_column_refuted`, `C55_slice_key_column_partial` | Refuted: the column holds no feature names. Partial: slices with different values are told apart. |
| C56 | Lookup by key path finds nested and flattened values | proved | `C56_lookup_finds_stored`, `C56_lookup_flattened`, `C56_lookup_absent` | None keys (ignored by the code) are not modelled. Flattening is covered one level deep with outer names free of '/'. |
| C57 | Sparse and one-hot labels are interchangeable | proved | `C57_sparse_equals_one_hot` | Any argpartition, any option set with flatten=True. |
| C58 | Invalid class ids in labels are rejected | partial | `C58_invalid_class_rejected_refuted`, `C58_far_class_rejected_partial` | Refuted: np.eye(n+1) makes class id n an all-zero row and negative ids wrap, so -2 counts as class n-1. The partial theorem shows ids further away are rejected. |
| C59 | Flattening pairs every class with its own label, prediction and weight | partial | `C59_flatten_pairs_classes`, `C59_class_weights`, `C59_weight_never_empty_refuted` | The pairing is proved. Refuted: the documented 'example weight will always be non-empty' fails when both label and prediction are missing (allowed by allow_none). |
| C60 | Mean prediction does not need labels | partial | `C60_mean_prediction_unlabelled_refuted` | Refuted: the prediction is only accumulated when len(label) > 0. |
| C61 | Calibration is defined for top_k | partial | `C61_top_k_calibration_refuted` | Refuted: after flattening every label array has one element, so label[1] raises IndexError for k >= 2. |
| C62 | Query statistics count documents for every model | partial | `C62_documents_multi_model_refuted` | Refuted: len(element.prediction) is the number of entries of the dict keyed by model name. |
| C63 | Minimum label position without positives | partial | `C63_no_positive_is_zero_refuted`, `C63_unlabelled_skipped_refuted` | Refuted twice: the value is NaN, and an unlabelled query raises IndexError because to_label_prediction_example_weight never yields None. |
| C64 | Histogram confusion matrices count predictions above the threshold | partial | `C64_histogram_sandwich_partial`, `C64_histogram_exact_refuted` | Refuted: histogram counts are approximate (a score less than a bucket above t is missed), and at t=0 and t=1 a score equal to t is counted as above. The partial theorem bounds the counts for any sorted thresholds strictly inside (0, 1-1e-7), any bucket count, non-negative weights and labels in [0,1]. |
| C65 | Top-k confusion matrices count the selected classes | partial | `C65_top_k_positives_refuted`, `C65_top_k_positives_partial` | Refuted: when no example selects the class the only bucket (-inf) is taken as predicted positive; when all do and the scores fall in two buckets the lower one is taken as predicted negative. The partial theorem covers histograms with bucket 0 and at least one other. |
| C66 | Sampled example ids belong to their cell | proved | `C66_example_ids` | Limit at least 1. In the code an example whose flattened classes fall into a cell several times is listed once. |
| C67 | Counts at a threshold do not depend on the other thresholds | partial | `C67_repeated_threshold_refuted`, `C67_repeated_threshold_partial` | Refuted: a threshold listed twice is updated twice per element. The partial theorem covers lists without repetitions. |
| C68 | Mean regression errors are weighted means for every bundling | partial | `C68_mean_error_schedule_refuted`, `C68_mean_error_partial`, `C68_mean_error_within` | Refuted for merge trees (first accumulator counted twice). The partial theorem covers schedules without merges; the bounds hold for every merge tree. Mean squared logarithmic error is C145 (logarithm). Finite predictions; no sub key, class weights. |
| C69 | Symmetric prediction difference | partial | `C69_difference_symmetric`, `C69_difference_partial`, `C69_difference_range`, `C69_difference_schedule_refuted` | Refuted for merge trees (first accumulator counted twice). Symmetry holds for all predictions including NaN and infinities; range and value for finite non-negative predictions. |
| C70 | Squared Pearson correlation | proved | `C70_squared_pearson` | Finite predictions, exact rationals, classes flattened; any sub key (it is ignored, see C74). |
| C71 | Coefficients of discrimination | proved | `C71_tjur_discrimination` | Finite predictions, exact rationals, classes flattened; any sub key (it is ignored, see C74). |
| C72 | Exact match is the weighted fraction of matching examples | partial | `C72_exact_match`, `C72_unlabelled_matches_refuted` | The fraction is proved. Refuted: an empty label array compares equal to any prediction (all([]) is true). convert_to='json' is not modelled. |
| C73 | Metrics of data without weight are undefined, not fatal | partial | `C73_zero_weight_refuted` | Refuted: flip rates, symmetric prediction difference and exact match divide Python floats and raise ZeroDivisionError; regression errors and Pearson return NaN. |
| C74 | A value reported for a class is computed from that class | partial | `C74_sub_key_ignored_refuted`, `C74_flips_first_class_refuted` | Refuted: Pearson, Tjur and exact match do not pass the sub key on, flips and prediction difference always use the first class. |
| C75 | Exact match requires all values of an example to match | partial | `C75_all_components_refuted` | Refuted: the inputs are flattened by default, so every component is an example of its own and all(match) only ever sees one value. |
| C76 | Attributions keys survive being written and read back | partial | `C76_attributions_key_round_trip`, `C76_aggregation_dropped_refuted` | Refuted: aggregation type and weighting are dropped, as for plots. The round trip is proved for the other keys. |
| C77 | Sorting metric keys puts them in an order independent of how they are listed | partial | `C77_sorting_is_listing_order`, `C77_order_not_canonical_refuted`, `C77_sorting_by_an_order` | Refuted: MetricKey.__lt__ is a conjunction of strict comparisons of every field, the last ones of flags, so no key is ever less than another and sorting returns the input order or raises. |
| C78 | Results that mix weighted and unweighted metrics can be written | partial | `C78_mixed_weighting_refuted`, `C78_same_weighting_partial` | Refuted: __lt__ compares True with the empty tuple when one metric is weighted and the other is not, a TypeError. Proved for metrics of one weighting. |
| C79 | A computation is given the data it asked for | partial | `C79_inputs_asked_for_partial`, `C79_own_preprocessors`, `C79_empty_filter_refuted` | Refuted: the empty filter (all of the extracts) yields an extra empty input and is ignored as soon as another filter is present. Partial: the claim for non-empty filters; computations with their own preprocessors are complete. |
| C80 | A metric and a plot of the same name are both reported | partial | `C80_plot_replaces_metric_refuted`, `C80_types_partition_results_partial` | Refuted: MetricKey and PlotKey with equal fields are equal dictionary keys, so the later value replaces the earlier one under the earlier key. Partial: the split by kind loses nothing else. |
| C81 | Each pair of compared slices is reported once | partial | `C81_pairs_compared_once_partial`, `C81_overlapping_specs_refuted` | Refuted: pairs selected by two cross slicing specs are reported twice. Partial: one spec. |
| C82 | Cross slice values are baseline minus comparison | partial | `C82_cross_slice_value`, `C82_structured_metric_refuted` | Refuted: subtraction is tried for every metric, a TypeError for structured values. The value itself is proved. |
| C83 | Results of metrics specs with different query keys are put together | partial | `C83_results_combined_partial`, `C83_same_metric_twice_refuted` | Refuted: metric keys do not contain the query key, so a metric requested under two query keys raises ValueError. Partial: the union for disjoint keys. |
| C84 | Queries partition the examples | partial | `C84_queries_partition_examples_partial`, `C84_missing_queries_merged_refuted` | Refuted: a missing query feature is the query with empty text. Partial: partition by query text for every schedule. |
| C85 | min_slice_size is about examples also with query keys | partial | `C85_slice_size_counts_queries_refuted` | Refuted: examples are grouped by query before the slice sizes are counted. |
| C86 | Slices are computed for all specs of the config, cross slicing included | proved | `C86_specs_used` | Complete, up to equality of specs as Python sees it. |
| C87 | Every configured threshold is enforced | proved | `C87_thresholds_used` | Complete, up to equality of specs as Python sees it. |
| C88 | A metric that cannot be compared fails validation | partial | `C88_incomparable_metric_refuted`, `C88_unknown_direction_partial` | Refuted: float(metric) when the failure is recorded raises again. Partial: missing direction. |
| C89 | A relative change threshold bounds the ratio of candidate to baseline | partial | `C89_relative_is_ratio_refuted`, `C89_relative_change_partial` | Refuted: the code bounds (candidate - baseline) / baseline, as config.proto says; the example of the guide asks for an improvement of 101%. Partial: what the code computes. |
| C90 | An improvement over the baseline passes a relative threshold of zero | partial | `C90_improvement_refuted`, `C90_improvement_partial` | Refuted for negative baselines. Partial: positive baselines. |
| C91 | A confidence interval contains the value it is reported with | partial | `C91_additive_mean`, `C91_interval_contains_value_refuted` | Refuted: the jackknife mean of a count is (n-1)/n of it, with variance 0 for equal partitions. Partial: what the mean of additive metrics is. |
| C92 | Metrics configured without intervals have none | partial | `C92_skipped_metrics`, `C92_skipped_differences_refuted` | Refuted: differences of skipped metrics get intervals. Partial: the metrics themselves. |
| C93 | The correlation metrics agree with each other | proved | `C93_matthews`, `C93_fowlkes_mallows` | Complete. |
| C94 | The likelihood ratios are the ratios of the rates | proved | `C94_likelihood_ratios` | Complete. |
| C95 | 'X at Y' metrics accept a number or a list of numbers in [0,1] | partial | `C95_constraint_forms_refuted`, `C95_constraint_forms_partial` | Refuted: the integer 1 (or 0) raises TypeError when computed, RecallAtPrecision and RecallAtFalsePositiveRate reject lists, SensitivityAtSpecificity accepts 2. Partial: floats in range. |
| C96 | PR AUC is in [0,1] and its three summation methods are ordered | partial | `C96_pr_auc_ordered_refuted`, `C96_pr_auc_partial` | Refuted: interpolation can exceed majoring, when nothing is predicted positive at the last threshold. Partial: bounds for all three always, order if something is predicted positive at every threshold. |
| C97 | ROC AUC is the probability of ranking a positive above a negative | proved | `C97_concordance`, `C97_mann_whitney` | Complete, for every schedule; thresholds must cover the scores, which the default ones do (C98). |
| C98 | AUC uses the thresholds it was given | partial | `C98_auc_thresholds_refuted`, `C98_interpolated_thresholds_partial` | Refuted: given thresholds are not extended by endpoints, together with num_thresholds they are an error or are replaced, and with top_k the default single threshold makes AUC 0 for all data. Partial: num_thresholds alone. |
| C99 | A rate metric never stops the evaluation | partial | `C99_prevalence_threshold_refuted`, `C99_prevalence_threshold_partial` | Refuted: ZeroDivisionError when recall equals fall-out (both defined). Partial: all other counts; the other rates are total (C40). |
| C100 | Metric settings give valid sub keys | partial | `C100_sub_key_refuted`, `C100_sub_key_partial` | Refuted: k with class_id and top_k < 1 pass. Partial: specs without k, positive top_k. |
| C101 | Class weights do not depend on how labels are encoded | proved | `C101_label_encoding_does_not_matter` | Complete, for every schedule. |
| C102 | Examples without a label do not count towards class weights | partial | `C102_unlabelled_examples_are_ignored_refuted` | Refuted: a missing label arrives as an empty array, never as None, and raises ValueError. |
| C103 | Every configured metric is reported | partial | `C103_configured_metrics_are_reported_partial`, `C103_configured_metrics_are_reported_refuted`, `C103_weighted_as_asked`, `C103_all_weights_asked_for` | Refuted: the key of a weighted macro average is in no result (C104). Partial: metric names must not start with an underscore; output weights must not be combined with an aggregation (C105); keys of weighted macro averages are never reported (C104). Metrics with one computation each; values of classes are numbers. |
| C104 | Thresholds on a weighted macro average are checked against it | partial | `C104_weighted_average_thresholds_are_checked_refuted` | Refuted: the result is reported with macro_average=True, the threshold is on weighted_macro_average=True, so validation always fails. |
| C105 | Output weights and aggregation can be combined | partial | `C105_output_average_of_aggregates_refuted` | Refuted: the average over outputs looks for keys without aggregation type and raises KeyError. |
| C106 | Metrics specs do not interfere | partial | `C106_specs_are_independent_refuted` | Refuted: class weights from labels are computed for the classes of the first weighted average only, and the other average is NaN. |
| C107 | Weighted macro averages over top k are plain averages | proved | `C107_weighted_average_over_top_k_is_plain` | Complete. |
| C108 | Sub keys and aggregation types are valid by construction | proved | `C108_aggregation_type_has_one_kind`, `C108_sub_key_is_valid` | Complete. |
| C109 | Change thresholds without a baseline are an error | partial | `C109_change_needs_baseline_refuted`, `C109_change_needs_baseline_partial` | Refuted: an empty change threshold is not noticed. Partial: all others, exactly. |
| C110 | A baseline is added when asked for | partial | `C110_maybe_add_baseline_adds_refuted`, `C110_baseline_added_partial` | Refuted: has_baseline=False is the default and removes the baseline that maybe_add_baseline added. Partial: with has_baseline=True, or has_baseline=None. |
| C111 | Applying the defaults again changes nothing | partial | `C111_defaults_idempotent_refuted`, `C111_defaults_idempotent_partial` | Refuted: a single named spec with two models. Partial: every other case (no baseline, several specs, one unnamed spec). |
| C112 | Metrics specs name existing models | partial | `C112_named_models_exist_refuted`, `C112_named_models_exist_partial` | Refuted: metrics specs keep the name of a removed baseline, or the empty name when candidate and baseline are named. Partial: specs naming no models, single models, unchanged models. |
| C113 | Defaults are filled in and nothing else is changed | proved | `C113_defaults_are_filled_in` | Complete. |
| C114 | Models to evaluate have distinct names | partial | `C114_model_names_differ_refuted`, `C114_models_are_normalized_partial` | Refuted: lists with equal names are accepted. Partial: everything else, and dictionaries with non-empty keys. |
| C115 | A model's labels, weights and predictions do not depend on other models | proved | `C115_values_by_model`, `C115_missing_values_are_none` | Complete. |
| C116 | Rubber stamping requires every candidate to be rubber stamped | proved | `C116_rubber_stamp_needs_all_candidates` | Complete. |
| C117 | Stored results are loaded completely and in order | proved | `C117_stored_results_are_loaded`, `C117_one_validation_result` | Complete. |
| C118 | Every metric of a model is shown in the loaded results | partial | `C118_metrics_are_shown_partial`, `C118_weighted_metrics_collide_refuted` | Refuted: weighted and unweighted metrics of one name replace each other. Partial: keys with distinct places. |
| C119 | The metrics of a slice can be looked up after loading | proved | `C119_metrics_of_a_slice_are_found` | Complete, for evaluations in which no two metrics share a place (C118). |
| C120 | The attributions of a slice can be looked up after loading | partial | `C120_attributions_are_shown_partial`, `C120_class_zero_refuted`, `C120_cross_slice_is_overall_refuted`, `C120_sub_key_lookup_partial` | Refuted: class 0 is taken for no class, and a cross slice for the overall slice. Partial: everything else. |
| C121 | Every plot of a model is shown in the loaded results | partial | `C121_plots_are_shown_partial`, `C121_plots_replace_each_other_refuted`, `C121_cross_slice_is_overall_refuted` | Refuted: plots of one output replace each other, and a cross slice is taken for the overall slice. Partial: one plot per place, or the two default plots. |
| C122 | Displayed slices are those asked for | partial | `C122_cross_slices_refuted`, `C122_slices_to_display_partial`, `C122_time_series_partial` | Refuted: a cross slice with the overall slice as baseline raises IndexError. Partial: single slices. |
| C123 | All models of all runs are loaded | partial | `C123_models_of_later_runs_refuted`, `C123_all_results_are_loaded_partial` | Refuted: the loop variable replaces the parameter, so later runs are loaded for one model only. Partial: a given name, one run, or one model of one name. |
| C124 | Every evaluator runs exactly once | proved | `C124_evaluators_run_once`, `C124_verification` | Complete, for stages with distinct names. |
| C125 | Errors of slices are shown | partial | `C125_errors_are_shown_partial`, `C125_errors_of_named_models_refuted` | Refuted: the slice disappears when a model is named. Partial: no name. |
| C126 | Metric names are listed once | proved | `C126_metric_names` | Complete. |
| C127 | Variable length values are checked and read row by row | proved | `C127_rows_of_constructed_values`, `C127_constructor_accepts` | Complete, for values with at least one entry; without entries see C44. |
| C128 | Splitting a batch gives its examples | partial | `C128_split_gives_examples_partial`, `C128_empty_rows_are_lost_refuted`, `C128_scalars_refused` | Refuted: a variable-length value whose rows are all empty vanishes from the examples. Partial: all other batches. |
| C129 | Splitting and merging a batch | partial | `C129_split_merge_round_trip_partial`, `C129_default_options_partial`, `C129_equal_rows_become_dense_refuted` | Refuted: variable-length batches with rows of equal length come back as dense arrays. Partial: rows of different lengths, dense values and sparse values listed example by example. |
| C130 | Merging and splitting examples | proved | `C130_merge_split_round_trip` | Complete. |
| C131 | The batch size | proved | `C131_batch_size`, `C131_size_is_number_of_examples` | Complete. |
| C132 | Unbatching extracts | proved | `C132_unbatching`, `C132_columns_only`, `C132_unequal_columns_refused` | Complete, for batches with a value that is not None and for lists only; pandas' treatment of empty columns is not modelled. |
| C133 | Setting a value in a nested dictionary | proved | `C133_copy_and_set` | Complete; that the original is not changed is not expressible, data are immutable in the model. |
| C134 | What is set in extracts can be got | proved | `C134_set_then_get`, `C134_other_models_keep_theirs`, `C134_shared_value` | Complete, for non-empty names. |
| C135 | Models and outputs of extracts are listed | partial | `C135_listed_models_and_outputs_partial`, `C135_listed_can_be_got`, `C135_outputs_with_several_tensors_not_listed_refuted` | Refuted: a model and output whose predictions are a dictionary of tensors is not listed (key paths are cut off after two keys). Partial: exactly the paths of one or two keys are listed. |
| C136 | Output averages are weighted means | proved | `C136_output_average_is_weighted_mean` | Complete. |
| C137 | Aggregations that cannot be computed are refused | proved | `C137_bad_aggregations_are_refused` | Complete, for specs without binarization. |
| C138 | Model specs and models are found by name | partial | `C138_baseline_spec`, `C138_spec_by_name`, `C138_label_key`, `C138_unknown_output_refuted`, `C138_model_by_name` | Refuted: the label key of an output that is not listed is the empty string, no error. Everything else is proved. |
| C139 | NDCG is reported for the cutoffs asked for | partial | `C139_reported_cutoffs`, `C139_cutoffs_accepted`, `C139_top_k_list_alone_refuted` | Refuted: a top_k_list without sub keys (sub_keys=None) raises TypeError ('NoneType' is not iterable). The positive theorems cover sub keys given as a list. |
| C140 | NDCG refuses data that mixes queries | partial | `C140_mixed_queries_refuted` | Refuted: _query, which would raise, is never called; the accumulator mixes the queries and reports a number. |
| C141 | Binary cross entropy of one example | partial | `C141_binary_cross_entropy`, `C141_least_at_label`, `C141_perfect_prediction_refuted` | Proved for probabilities strictly between 0 and 1 and for every logit. Refuted: the perfect probability 1 for label 1 gives NaN (0 times minus infinity), not 0. Exact real arithmetic. |
| C142 | Categorical cross entropy of one example | partial | `C142_categorical_cross_entropy`, `C142_scale_of_predictions`, `C142_shift_of_logits`, `C142_least_at_label`, `C142_impossible_class_refuted`, `C142_sparse_label_refuted` | Proved for positive predictions and every logit. Refuted: a predicted probability 0 is masked, so the impossible true class costs nothing; a class id label is broadcast over the classes instead of selecting one. |
| C143 | Computing a cross entropy leaves the examples alone | partial | `C143_predictions_kept_partial`, `C143_predictions_kept_refuted` | Refuted: 'prediction /= np.sum(prediction)' writes into the array of the element, which later combiners of the same slice read. The partial theorem covers logits and predictions that sum to one. |
| C144 | Cross entropy is the weighted mean of the losses | partial | `C144_mean_cross_entropy_partial`, `C144_mean_cross_entropy_within`, `C144_schedule_refuted` | Refuted for merge trees (merge_accumulators counts the first accumulator twice). The partial theorem covers schedules without merges; the bounds hold for every schedule. |
| C145 | Mean squared logarithmic error | partial | `C145_mean_log_error_partial`, `C145_mean_log_error_within`, `C145_zero_just_for_equal`, `C145_schedule_refuted` | Refuted for merge trees (first accumulator counted twice). The partial theorem covers schedules without merges; the bounds and the zero criterion hold for every schedule. |
| C146 | Cosine similarity of two models | partial | `C146_cosine_range`, `C146_cosine_direction`, `C146_cosine_symmetric`, `C146_mean_similarity_partial`, `C146_mean_similarity_within`, `C146_schedule_refuted` | Refuted for merge trees (first accumulator counted twice). The partial theorem covers schedules without merges; range and bounds hold for every schedule. |
| C147 | Multi-class confusion matrices | partial | `C147_multi_class_matrices`, `C147_each_example_once`, `C147_single_score_refused`, `C147_any_thresholds_refuted`, `C147_repeated_threshold_refuted` | Refuted for thresholds that are not ascending and for a repeated threshold. Proved for ascending thresholds, examples with one class id or one-hot label and finite scores. |
| C148 | Each multi-class metric uses its own thresholds | partial | `C148_own_thresholds_refuted`, `C148_separate_outputs` | Refuted: the key of the underlying computation does not contain the thresholds, so the second metric shows the first one's matrices. Proved for metrics of different models, outputs or weighting. |
| C149 | Arithmetic on multi-class matrices | proved | `C149_elementwise`, `C149_elementwise_defined`, `C149_broadcast` | Complete. |
| C150 | Multi-class matrices as shown | partial | `C150_rendering`, `C150_even_thresholds`, `C150_one_threshold_refuted` | Refuted for num_thresholds = 1 (two thresholds are made). |
| C151 | Multi-label confusion matrices | partial | `C151_multi_label_matrices`, `C151_repeated_threshold_refuted` | Refuted for a repeated threshold (examples count twice). Proved for distinct thresholds, dense labels or one class id, finite scores. |
| C152 | Pixels of segmented images | partial | `C152_pixel_counts`, `C152_every_pixel_once`, `C152_other_sizes_refused`, `C152_ignored_class_refuted`, `C152_repeated_class_refuted` | Refuted when the ignored class is itself asked for, and for a class listed twice. Proved for distinct classes and rectangular images. |
| C153 | Sets of classes as label prediction pairs | partial | `C153_set_match_pairs`, `C153_zero_weight_refuted`, `C153_zero_weight_dropped_refuted` | Refuted for an example of weight zero, which is treated as having no weight. Proved for a missing or single non-zero example weight; arrays are one-dimensional and their keys present. |
| C154 | Set match keeps the top k predictions | partial | `C154_top_k_refuted`, `C154_ranked_predictions` | Refuted: the first k predictions are taken, whatever their scores. Proved for predictions listed by falling score. |
| C155 | Set match without scores | partial | `C155_no_scores_refuted` | Refuted: zip(pred_classes, None) raises TypeError. |
| C156 | Intersection over union of boxes | proved | `C156_intersection_over_union`, `C156_disjoint_boxes`, `C156_range`, `C156_symmetric`, `C156_same_box`, `C156_table`, `C156_improper_refused` | Complete. |
| C157 | Greedy matching of boxes | proved | `C157_greedy_matching`, `C157_negative_threshold_refused`, `C157_one_to_one` | Complete. |
| C158 | Label prediction pairs of an image | proved | `C158_pairs`, `C158_refused` | Complete. |
| C159 | The order of detections does not matter | proved | `C159_order_irrelevant` | Complete. |
| C160 | Object detection matrices count objects | proved | `C160_matrices_count_objects` | For boxes of finite exact numbers and thresholds of at least 0. |
| C161 | Object detection for several models or outputs | partial | `C161_named_models_always_fail`, `C161_several_models_refuted` | Refuted: the preprocessor hands on bare arrays, and the combiner of a named model or output looks the name up in them (ValueError), for every data set with a pair. |
| C162 | Objects outside of the area range are left out | partial | `C162_area_range_refuted`, `C162_detections_outside_partial` | Refuted: a detection that overlaps only an object outside of the range counts as a false positive. Proved: detections that are themselves outside give no false positive. |
| C163 | Stacking columns of boxes | proved | `C163_first_dictionary_wins`, `C163_rows_of_columns`, `C163_missing_key`, `C163_different_lengths_refused` | Complete. |
| C164 | The number of detections cuts off padding | partial | `C164_truncated_partial`, `C164_missing_number`, `C164_no_detections_refuted` | Refuted for n = 0: all rows, padding included, are kept. Proved for n > 0. |
| C165 | Accepted object detection arguments work | partial | `C165_equal_bounds_refuted`, `C165_negative_class_refuted`, `C165_more_columns_refuted`, `C165_accepted_partial`, `C165_rejected` | Refuted for equal bounds, negative class ids and boxes with further columns: accepted when set up, every image fails. Proved otherwise. |
| C166 | Averages of the COCO metrics | proved | `C166_average`, `C166_mean_over_classes`, `C166_every_class`, `C166_confidence_thresholds`, `C166_overlap_thresholds` | Complete. |
| C167 | Weights in COCO metrics | partial | `C167_example_weights_refuted`, `C167_class_weights_ignored`, `C167_class_weights_refuted` | Refuted: the average precision asks for its precisions without example_weighted, and class weights have no effect on any matrix or mean. |
| C168 | Each object detection metric uses its own boxes | partial | `C168_own_columns_refuted`, `C168_classes_apart_partial` | Refuted: the name of the preprocessor leaves out columns, num_detections_key and allow_missing_key, so the second metric's matching is dropped. Proved for metrics that differ in the class. |
| C169 | Keras metrics do not depend on batches | proved | `C169_batches`, `C169_compaction`, `C169_unreadable_refused` | Keras is outside of the repository: a metric is modelled by the state a batch leaves and the value read off it. |
| C170 | Padding of labels and predictions | partial | `C170_padding_refuted`, `C170_equal_widths_partial`, `C170_filled`, `C170_wrong_kind_refused` | Refuted: each batch is padded to its own greatest width, so a metric that averages over the last dimension depends on the batches. Partial: examples of equal width; the filling and the refusals are proved. |
| C171 | Keras results are kept under their declared keys | partial | `C171_declared_keys_partial`, `C171_aggregated_refuted` | Refuted: extract_output leaves the aggregation type out of the keys, so micro averages appear under the key of the plain metric. Partial: no aggregation, one value per metric. |
| C172 | Losses are weighted means | partial | `C172_loss_equal_weights_partial`, `C172_loss_weights_refuted` | Refuted: the loss of the whole batch is weighted with the sum of the weights, so weights within a batch do not matter and the value depends on the batches. Partial: equal weights. |
| C173 | Top k is applied once | partial | `C173_metrics_partial`, `C173_tuples`, `C173_loss_top_k_refuted`, `C173_class_and_top_k_refuted` | Refuted: a loss without metrics beside it sees all predictions although a top k was asked for; a metric with both class_id and top_k is given the prediction of the class alone. Partial: metrics of one sub key. C173_tuples: labels and predictions a batch is given. |
| C174 | Every Keras metric is computed once | proved | `C174_every_metric_once`, `C174_last_wins_and_separated` | Complete. |
| C175 | Inconsistent Keras metrics are refused | proved | `C175_conflicts_and_sparse_refused`, `C175_auc_refused`, `C175_accepted` | Complete. |
| C176 | Thresholds of Keras confusion matrix metrics | proved | `C176_thresholds` | Complete. |
| C177 | Total attributions | proved | `C177_totals`, `C177_refused`, `C177_absolute` | Arrays have at most two dimensions; numpy's argpartition is an oracle. |
| C178 | Attributions of a class or of the top k | proved | `C178_class`, `C178_top_k`, `C178_table_refused` | Tables with top_k are refused in the model; numpy fails too unless the table holds one number. |
| C179 | Mean attributions | partial | `C179_means_partial`, `C179_small_weights_refuted`, `C179_own_totals` | Refuted: total weights within 10^-8 of 0 give NaN (np.isclose). Partial: other weights. |
| C180 | Counts of a confusion matrix plot | partial | `C180_counts_partial`, `C180_above_threshold_refuted` | Refuted: scores less than a histogram bucket (10^-4) above a threshold are not counted; scores 0 at threshold 0, 1 at 1 and all negative ones at -10^-6 are. Partial: exactly which scores are counted if the number of thresholds divides that of the histogram's buckets, and that no weight is lost otherwise. |
| C181 | Rates shown with confusion matrices | partial | `C181_shown_rows`, `C181_f1_partial`, `C181_f1_refuted` | Refuted for F1: NaN where the metric is 0 and 0 where the metric is NaN, when there is no true positive. All other rates, and F1 with a true positive, are proved. |
| C182 | Score distribution | proved | `C182_score_distribution` | Complete. |
| C183 | Score distributions of whatever can be plotted | partial | `C183_score_distribution_refuted`, `C183_probabilities_refuted`, `C183_prediction_key_refuted` | Refuted: scores outside of [0, 1], predictions under a key found by default (probabilities) and prediction keys of one of several models are refused. |
| C184 | Calibration plot | proved | `C184_calibration_plot` | Complete. |
| C185 | Range of a calibration plot | partial | `C185_ends_given`, `C185_ends_from_schema`, `C185_usable_range_refuted` | Refuted: a domain with a minimum only ends at 1, giving an empty (ZeroDivisionError) or reversed range. Where the ends come from is proved. |
| C186 | Confusion matrix plots of several object classes | partial | `C186_classes_refuted`, `C186_names_apart_partial` | Refuted: the name of the matrices is made of the plot's name only, so plots of the same name show the first one's matrices. Proved for plots of different names. |
| C187 | Bounds of calibration buckets | partial | `C187_bucket_bounds_refuted`, `C187_bucket_bounds_partial` | Refuted: three buckets put 0.35 (of a ten bucket histogram) below 1/3. Partial: scores are never below the lower bound and exceed the upper bound by less than a bucket of the histogram. |
| C188 | Statistics of BLEU | proved | `C188_statistics`, `C188_any_bundles`, `C188_refused` | Complete. Tokenizer, lower-casing and the score made of the statistics (sacrebleu) are arbitrary functions. |
| C189 | Order of references | partial | `C189_order_refuted`, `C189_order_partial` | Refuted: of references of 2 and 4 words, equally near to 3, the first counts. Proved when references equally near are equally long. |
| C190 | Length of the hypotheses | partial | `C190_blank_refuted`, `C190_length_partial` | Refuted: with blank references the hypotheses are split without the tokenizer and their runs of words are not counted. Proved for tokenizers that only split at white space. |
| C191 | All hypotheses count | partial | `C191_extra_hypothesis_refuted`, `C191_columns_partial` | Refuted: hypotheses beyond the columns of the references are dropped. Proved in general that they are, and that all others count. |
| C192 | BLEU and ROUGE of several models and outputs | partial | `C192_models_refuted`, `C192_first_partial` | Refuted: the key has only the name, so only the first output of the first model is computed (proved in general). |
| C193 | Bounds of what BLEU credits | proved | `C193_at_most_all`, `C193_exact`, `C193_more_references` | Complete. |
| C194 | ROUGE | proved | `C194_means`, `C194_between` | Complete. The scorer is an arbitrary function. |
| C195 | F-measure of ROUGE | partial | `C195_harmonic_refuted`, `C195_at_most_partial` | Refuted: means of precision, recall and f-measure are taken separately. Proved: the reported f-measure is never greater than the harmonic mean. |
| C196 | Inputs of ROUGE | proved | `C196_refused` | Complete. |
| C197 | Fixed size samples | proved | `C197_greatest_tags`, `C197_any_bundles` | Complete, for given random numbers; how they are drawn is not modelled. Equal tags keep their order in the model. |
| C198 | Inputs of samples | proved | `C198_refused` | Complete. |
| C199 | Examples of weight zero in samples | partial | `C199_weight_zero_refuted`, `C199_last_partial` | Refuted: an example of weight 0 is sampled if there are not enough others. Proved: only if all examples of positive weight are in the sample. |
| C200 | Inputs of models | proved | `C200_inputs_are_named_features`, `C200_examples_otherwise` | Complete; conversions to TensorFlow tensors are not modelled. |
| C201 | Functions of models | proved | `C201_named_function`, `C201_default_signature`, `C201_callable_model`, `C201_callable_model_on_examples`, `C201_missing_function`, `C201_no_examples` | Complete for dense outputs; sparse and ragged outputs are not modelled. |
| C202 | Where predictions go | proved | `C202_one_model`, `C202_several_models` | Complete. |
| C203 | Batches that are too large | partial | `C203_whole_or_each_partial`, `C203_other_errors`, `C203_large_batches_partial`, `C203_sparse_values_refuted`, `C203_more_dimensions_refuted` | Refuted: with a sparse value in the batch the single examples fail (C203_sparse_values_refuted), and the examples reach the model with one dimension more than a batch of one has (C203_more_dimensions_refuted). Proved: one result for the batch or one for each example as split_extracts gives it; equal predictions for functions of serialized examples without sparse values; other errors come out. |
| C204 | Transformed features | partial | `C204_one_model`, `C204_several_models_partial`, `C204_labels_partial`, `C204_other_models_labels_refuted` | Refuted: if only one model has transformed features they are stored without its name and the labels of other models are taken from them. Partial: every model has some, or there is one model. |
| C205 | Preprocessing functions of features | partial | `C205_function_of_feature`, `C205_several_features`, `C205_function_of_model`, `C205_missing_feature_refuted`, `C205_two_features_refuted` | Refuted: a missing feature is replaced by the serialized examples, and a second feature of the same function overwrites the first. Proved: what the function is called with if the feature is there, several features are refused, functions unknown to TFMA are the model's. |
| C206 | Counterfactual examples | partial | `C206_sources_to_destinations_partial`, `C206_features_there`, `C206_swap_refuted` | Refuted: two features cannot be swapped. Partial: no source is an earlier destination. |
| C207 | Counterfactual predictions | partial | `C207_one_model_partial`, `C207_original_and_counterfactual`, `C207_named_spec_refuted`, `C207_named_inputs_refuted` | Refuted: models with named inputs are given the original features, and a single model whose spec has a name cannot be evaluated. Proved for functions given examples and for features as they are, for one model without a name, and for an original and a counterfactual model. |
| C208 | Features of record batches | partial | `C208_columns_become_features`, `C208_no_record_batch`, `C208_examples_lost_refuted` | Refuted: the input is replaced by None if there is no column of serialized examples. All else is proved. Which Arrow types are supported is not modelled. |
| C209 | Slice keys by SQL | partial | `C209_query_sees_transformed_features`, `C209_only_slice_keys_partial`, `C209_features_overwritten_refuted` | Refuted: the features of the extract are overwritten by the transformed features. Partial: there are no transformed features. The query itself is an arbitrary function. |
| C210 | Bulk inference | proved | `C210_predictions_inserted`, `C210_other_logs`, `C210_bulk_inference` | Complete; the decoding of tensors is not modelled. |
| C211 | Example weights and stored predictions | proved | `C211_weights_of_one_model`, `C211_weights_by_model`, `C211_stored_predictions` | Complete for model specs with one key; several outputs are covered by C115. |
| C212 | Rows of data frames | partial | `C212_rows_partial`, `C212_arrays_refuted`, `C212_class_matrices_refuted` | Refuted: arrays of more dimensions than elements, and multi-class matrices at several thresholds, have overlapping rows, and no frame is made. Partial: slices have distinct features, fields of keys and values have distinct names, and only a list that is the only field of its value is repeated. |
| C213 | Types of data frames | partial | `C213_types`, `C213_bounded_values_refuted` | Refuted: one bounded value (or a value of any type without a frame) is a TypeError, and there are no frames at all. Which types have frames is proved for all values as in C212. |
| C214 | Slices in data frames | partial | `C214_no_value`, `C214_slices_partial`, `C214_cross_slices_refuted`, `C214_overall_feature_refuted` | Refuted: cross slices are all like the whole data, and so is the slice where a feature called Overall is empty. Partial: single slices, no feature called Overall. |
| C215 | Empty columns of data frames | proved | `C215_empty_columns` | Complete for metrics and plots as in C212. |
| C216 | Slices as strings | partial | `C216_strings`, `C216_distinct_partial`, `C216_same_string_refuted`, `C216_overall_refuted` | Refuted: slices whose values contain '; name:' may have the same string, and the whole data is Overall: with a colon. Partial: no name with a colon, no value with a semicolon, and values with distinct strings. Stability of the sorting is not claimed. |
| C217 | Pivoted data frames | partial | `C217_pivot_columns`, `C217_pivot`, `C217_stringified`, `C217_plots_refuted`, `C217_other_frames` | Refuted: a frame with several rows for a slice and key, as that of a plot of two models, is a ValueError. Proved for all frames whose rows differ in slice (or its string) or key. The order of rows and columns of the table is not modelled. |
| C218 | Collapsed names of pivoted columns | proved | `C218_collapsed` | Complete. |
| C219 | The saved evaluation configuration | partial | `C219_round_trip`, `C219_one_file`, `C219_formats`, `C219_other_files`, `C219_versions`, `C219_versions_refuted` | Refuted: a file of former versions without a version is accepted, as the whole dictionary is tested. All else is proved. Serialization as JSON and the conversion of older configurations are not modelled. |
| C220 | Pairs of matched sets | proved | `C220_set_pairs` | Complete. Classes are strings, and the order of iteration over a set is any permutation. |
| C221 | Weights of matched sets | partial | `C221_weights_of_pairs_partial`, `C221_weight_zero_refuted` | Refuted: an example of weight 0 counts as if it had no weight, since the weight is tested for truth. Partial: weights of examples other than 0, and one weight for each example. |
| C222 | Top k of sets | partial | `C222_highest_scores_partial`, `C222_highest_scores_refuted` | Refuted: the first k listed are taken, whatever their scores. Partial: distinct classes listed from the highest score to the lowest. |
| C223 | Sets that are refused | partial | `C223_refused`, `C223_several_weights`, `C223_classes_alone_refuted` | Refuted: predictions without scores are a TypeError for every extract. The other refusals are proved. |
| C224 | Precision and recall of sets | proved | `C224_matrices_count_classes`, `C224_options` | Complete. Weights of examples are not 0 (C221), and the model has no name (C226). |
| C225 | Precision and recall of the first k | partial | `C225_nothing_listed_refuted`, `C225_certain_and_uncertain_refuted`, `C225_negative_scores_refuted`, `C225_matrices_of_listed_partial` | Refuted: the matrices come from a histogram of one bucket whose first bucket is dropped: without misses, or without predictions, or with negative scores, what is counted is wrong. Partial: scores that are not negative, some label missed and some class predicted with weights other than 0. |
| C226 | Several metrics of sets | partial | `C226_named_models_always_fail`, `C226_several_models_refuted`, `C226_own_predictions_refuted`, `C226_top_k_apart_partial` | Refuted: the name of the preprocessor depends on top_k only, so metrics with different keys share one computation; and for a named model the metric always fails. Partial: settings with different top_k. |
| C227 | Inverted logarithms | partial | `C227_inverted_logarithms`, `C227_round_trip`, `C227_extract_kept_refuted` | Refuted: the extract given is changed in place, so that a second preprocessing inverts twice. All else is proved, over the reals. |
| C228 | Decoded images | partial | `C228_images`, `C228_one_image`, `C228_weighted_images_refuted` | Refuted: with an array of example weights every extract is an AttributeError. All else is proved. Decoding is a parameter. |
| C229 | Statistics of queries | partial | `C229_totals`, `C229_smallest_and_largest_partial`, `C229_without_queries_refuted` | Refuted: without queries the smallest is reported to have 1000000000 documents. Partial: at least one query, and none of more than 1000000000 documents. The totals are proved for all schedules. |
| C230 | NDCG of queries in the order of their documents | partial | `C230_mean_by_weight`, `C230_range`, `C230_refused`, `C230_best_order_refuted` | Refuted: a query without a positive gain counts as 0 in whatever order, so queries in the best order need not have a mean of 1. All else is proved, over the reals; NDCG is a mean of quotients of discounted sums. Features are arrays of two dimensions and numbers k are not negative. |
| C231 | Mean position of the first label | partial | `C231_positions_over_weights`, `C231_mean_position_partial`, `C231_mean_by_weight_refuted`, `C231_refused` | Refuted: the positions are not multiplied by the weights while the weights are summed, so with weights it is not a mean. Partial: without a key of weights it is the mean. What is reported with weights is proved too. |
| C232 | Columns of features, predictions and labels | partial | `C232_columns`, `C232_additional_columns`, `C232_every_feature_refuted`, `C232_refused`, `C232_no_fpl_refused` | Refuted: a feature named like the prefix and one with the separator before it share a column, and the first is lost. The columns are proved for all extracts, the last of those with the same name being kept. Names to exclude are strings; at most one additional extract. |
| C233 | Columns of a serialized example | partial | `C233_columns_partial`, `C233_added_to_fpl_partial`, `C233_empty_feature_refuted`, `C233_excludes_refuted`, `C233_other_destination`, `C233_other_destination_refuted`, `C233_no_example` | Refuted: a feature of no kind gets the values of the feature before it (or fails if it is the first), excluded features become columns, and without an FPL features are lost if no columns are asked for. Partial: each feature is of a kind. |
| C234 | Features made of others | proved | `C234_features_added`, `C234_refused` | Complete. An extract under the key of the FPL is an FPL or counts as missing. |
| C235 | Labels, weights and predictions of parsed examples | partial | `C235_one_model`, `C235_several_models_partial`, `C235_given_changed_refuted`, `C235_merged_refuted`, `C235_popped_refuted` | Refuted: with several models a dictionary in the given extract is changed in place and an array there is an error; precomputed predictions stay among the features. Partial: with several models, extracts that have none of the three kinds. One model: complete. |
| C236 | Extracts for analysis | partial | `C236_excluded`, `C236_default`, `C236_included`, `C236_both_refused`, `C236_include_nothing_refuted` | Refuted: an empty list to include keeps everything, with the input. Complete for lists with something in them; maps are covered by the filters of C45. |
| C237 | Merged validations and estimated sizes | partial | `C237_validations`, `C237_estimates`, `C237_never_flushed_refuted` | Refuted: values that are shared more often than they are large count nothing and are never flushed. All else is proved. |
| C238 | Counters of metrics and slices | partial | `C238_metrics_counted`, `C238_callbacks_counted`, `C238_slices_counted`, `C238_separate_counters_refuted` | Refuted: names are joined by underscores, so different pairs can share a counter. What each counter counts is proved. |
| C239 | Names of metrics from names of classes | partial | `C239_words`, `C239_back`, `C239_letters_kept`, `C239_digits_refuted` | Refuted: a word that ends in a digit runs into the next. Proved for words of a capital and small letters or digits that end in a letter, both ways; what any name keeps is proved for all. |
| C240 | The config of a metric | partial | `C240_native`, `C240_kept`, `C240_reduction_refuted` | Refuted: the table misspells MeanSquaredLogarithmicError, so its loss is written as TFMA's with any reduction, and with this setting. All other classes are proved. The JSON text is a list of settings. |
| C241 | The metric of a config | partial | `C241_back_tfma`, `C241_back_keras`, `C241_module`, `C241_module_refuted`, `C241_custom_refuted`, `C241_wrapped_refuted` | Refuted: the module is ignored if TFMA has a class of the same name; an unregistered metric derived from TFMA's loses its module; a wrapped function is looked for in the wrong module. All else is proved. |
| C242 | Specs from lists of metrics | proved | `C242_lists`, `C242_order`, `C242_none`, `C242_no_metric` | Complete. |
| C243 | Specs from metrics by output | partial | `C243_outputs`, `C243_options_refuted` | Refuted: the query key and the weights of outputs do not reach the specs. All else is proved. |
| C244 | Combinations of arguments of specs_from_metrics | partial | `C244_refused`, `C244_accepted`, `C244_names_refuted` | Refuted: output names together with unweighted metrics by output are ignored, not refused. All else is proved. |
| C245 | Default specs | partial | `C245_regression`, `C245_binary`, `C245_multi_class`, `C245_counts_refuted` | Refuted: the specs of several classes ask for the example counts twice. All else is proved. |
| C246 | Weights of examples by default | partial | `C246_default`, `C246_options`, `C246_outputs_refuted` | Refuted: weights by output do not count for a spec that names no outputs. The exact condition is proved. |
| C247 | The model for an evaluation | partial | `C247_no_config`, `C247_config`, `C247_unknown`, `C247_tags_refuted` | Refuted: with a config the tag eval does not decide the type. The exact types, weights, loaders and switches are proved; loading the model is not modelled. |
| C248 | Default extractors | partial | `C248_extractors`, `C248_refused`, `C248_slices_refuted`, `C248_custom_refuted` | Refuted: slices given without a config are ignored, and a custom extractor is ignored for materialized predictions. The list of extractors and the condition of refusal are proved. |
| C249 | Default evaluators | partial | `C249_evaluators`, `C249_default_metrics_refuted` | Refuted: the default metrics in the graph are not switched off for models of TFLite given alone. The evaluators are otherwise as claimed. |
| C250 | Default writers | partial | `C250_writers`, `C250_no_path`, `C250_callbacks_refuted` | Refuted: callbacks given along with an only model are lost. Proved for plain paths. |
| C251 | The plan of a run | partial | `C251_plan`, `C251_accepted`, `C251_place_refused`, `C251_disabled_refuted`, `C251_nothing` | Refuted: with metrics, plots and attributions disabled the run fails though validations are left. The other parts are proved; the Beam pipeline itself is in the areas of its stages. |
| C252 | Reading the examples | partial | `C252_extracts`, `C252_batches`, `C252_formats`, `C252_unbatched`, `C252_legacy_refuted`, `C252_text_refuted`, `C252_bytes` | Refuted: without a config serialized examples and text are given to extractors that cannot take them. Proved for all runs with a config. |
| C253 | Results of a run | partial | `C253_results`, `C253_default_config`, `C253_multiple`, `C253_slices_refused`, `C253_type_refuted` | Refuted: single_model_analysis ignores the type in the config. The results and the default config are proved. |
| C254 | Analysis of a data frame | partial | `C254_columns`, `C254_run`, `C254_no_config_refuted`, `C254_config_refuted` | Refuted: without a config the call fails, and a config without model specs gets no keys. Proved for all configs with model specs. |
| C255 | Inputs of TFLite models | partial | `C255_names`, `C255_inputs`, `C255_default_refuted`, `C255_same_name_refuted` | Refuted: a missing value of an input of another type than float32, int64 and text is a ValueError, and two inputs of one name (after its number is cut off) are an error. Otherwise proved for all details, shapes and features; the interpreter is a parameter. |
| C256 | Quantized values of TFLite models | partial | `C256_exact`, `C256_error`, `C256_nearest_refuted` | Refuted: astype truncates, so the value used is not the nearest. Exactness and the error bound are proved; values out of the range of the type are left to the machine. |
| C257 | Predictions of TFLite models | partial | `C257_one`, `C257_several`, `C257_refused`, `C257_outputs`, `C257_given_refuted` | Refuted: with several models the dictionary of predictions that was passed in is changed. The stored values and the refusals are proved. |
| C258 | Inputs of TFJS models | partial | `C258_inputs`, `C258_refused`, `C258_int64_refuted` | Refuted: int64 values are cut to 32 bits. Proved for inputs with one unknown dimension in front and values that fit. |
| C259 | Predictions of TFJS models | partial | `C259_one`, `C259_several`, `C259_refused`, `C259_outputs`, `C259_missing_refuted` | Refuted: outputs that the binary does not write are left out without an error, because zip stops there. Names, order and storage are proved. |
| C260 | Predictions of earlier versions | partial | `C260_one`, `C260_several`, `C260_no_config`, `C260_weights_refused`, `C260_weights_refuted`, `C260_position_refuted` | Refuted: the weights of the specs of further models are not stored, and predictions are matched by position rather than by example. Proved for models that fetch one value for each example in order. |
| C261 | Batches of the legacy predict extractor | partial | `C261_wrapped`, `C261_positions_refuted`, `C261_batch`, `C261_others_refuted` | Refuted: a key that some examples lack has its values at other positions, and all other extracts of the batch are lost. Proved for examples that have the key. |
| C262 | Keys of metrics of Keras models | partial | `C262_keys`, `C262_other_output_refuted`, `C262_name_refuted` | Refuted: the first output whose name fits is taken, and a repeated prefix is removed from a metric's own name. Proved where one output fits. |
| C263 | Metrics of Keras models | partial | `C263_choice`, `C263_schedule`, `C263_several_outputs_refuted` | Refuted: if no metric is of all outputs, there are too few places for the weights of metrics of several outputs. Proved with such a metric or one output; Keras itself is a parameter. |
| C264 | Metrics specs by query key | proved | `C264_groups`, `C264_each_once` | The query key of a spec and the empty spec are parameters. |
| C265 | Metrics saved in models | partial | `C265_included`, `C265_not_included`, `C265_only_queries_refuted`, `C265_spec_wins` | Refuted: if all specs have a query key, the metrics saved in the models are not computed though the option is on. Proved where some spec has none. |
| C266 | The metrics of each slice | proved | `C266_slices`, `C266_succeeds` | For evaluations without confidence intervals and without cross slices; the combiners are any whose outcome depends only on the multiset of inputs. |
| C267 | The results of several query keys | partial | `C267_union`, `C267_one_group`, `C267_small_twice`, `C267_hidden_slice_refuted` | Refuted: a slice too small in two groups has the entry __ERROR__ from both, so hiding it ends the run. Proved for results without common keys. |
| C268 | Differences of cross slices to the baseline model | proved | `C268_difference_of_differences` | For finite values of metrics that both slices and both models have. |
| C269 | Queries and slices | partial | `C269_queries`, `C269_slices`, `C269_only_the_slice_refuted` | Refuted: the metrics of a slice take in examples outside it, those of the same query. Proved: the queries and their slices. |
| C270 | The way of confidence intervals | partial | `C270_requested`, `C270_unset_method_refuted` | Refuted: without its defaults a config that asks for intervals and sets no method gets none. Proved for configs with their defaults. |
| C271 | Validation of hidden slices | partial | `C271_hidden_fails`, `C271_overall_threshold_refuted` | Refuted: a threshold for the overall slice alone makes a hidden slice fail. Proved: hidden slices fail with any such threshold. |
| C272 | Values to tensors and back | partial | `C272_round_trip`, `C272_variable_length`, `C272_variable_length_refuted`, `C272_values_kept` | Refuted: values of variable length come back as sparse ones. Proved: all others come back the same, those of variable length with the same values and positions. |
| C273 | Tensors for specs | partial | `C273_tensors_of_specs`, `C273_missing`, `C273_empty_specs_refuted` | Refuted: an empty dictionary of specs gives tensors of all values. Proved: otherwise the tensors are those named; missing values are refused. |
| C274 | Shapes of specs | partial | `C274_reshaped`, `C274_fits`, `C274_empty_batch_refuted` | Refuted: an empty batch is refused if the spec leaves a further size open. Proved: shapes and rows, and success if the sizes fit. |
| C275 | Inferred specs | proved | `C275_fit`, `C275_other_batches`, `C275_ragged_axes`, `C275_sparse_axes`, `C275_scalars_refused` | Specs are inferred from tensors as to_tensorflow_tensors makes them; the shapes of specs are lists of known or unknown sizes. |
| C276 | Features of record batches | partial | `C276_columns`, `C276_some_missing_refuted` | Refuted: lists missing beside others become empty rows of a value of variable length, as lists without values do. Proved: all columns. Lists are of single values, not of further lists; tfx_bsl's adapter is modelled for these. |
| C277 | Record batches and tensor representations | partial | `C277_representations`, `C277_misfit`, `C277_renamed_refuted` | Refuted: a representation other than a sparse one under a name that is no column is left out. Proved: all others. The adapter's sparse tensors are a parameter. |
| C278 | Representations of input specs | partial | `C278_representations`, `C278_unknown_sizes`, `C278_sparse_rank_refuted` | Refuted: a sparse input with three sizes gets a value of variable length with two. Proved: kinds, dense shapes and refusals. |
| C279 | From record batches to inputs | proved | `C279_inputs` | All inputs dense with known sizes; the features are passed on under the names they have. |
| C280 | Texts of slices | partial | `C280_texts`, `C280_same_text_refuted` | Refuted: a number and its text, or values with the separator in them, are displayed under the same text. Proved: otherwise the columns and texts of the values are the same. |
| C281 | Slices displayed | partial | `C281_column`, `C281_overall`, `C281_spec`, `C281_cross_slices_refuted` | Refuted: a cross slice with the overall baseline among the results makes the view fail with an IndexError. Proved for results without cross slices. |
| C282 | Sizes displayed | partial | `C282_column`, `C282_weights_by_output_refuted` | Refuted: with example weights by output the plain count is used. Proved: the column for weights of the first model that is no baseline. |
| C283 | Plots displayed | partial | `C283_plots`, `C283_refused`, `C283_errors`, `C283_class_and_top_k_refuted` | Refuted: plots of a class among the top k have a sub key but cannot be displayed. Proved for one of class, k and top k, without cross slices. |
| C284 | Plots without NaN | partial | `C284_null_for_nan`, `C284_succeeds`, `C284_nested_refuted` | Refuted: NaN deeper than the entries of a series stays. Proved: the entries of series. What json_format makes of the protos is given. |
| C285 | Plots by label | partial | `C285_label`, `C285_label_refused`, `C285_label_alone`, `C285_empty_refuted` | Refuted: of two names with the label the second is displayed if the first has no plots. Proved: names with plots. |
| C286 | Attributions displayed | proved | `C286_attributions`, `C286_refused` | Attributions are those of the slices given; the widget's rendering itself is not modelled. |
| C287 | All slices at once | proved | `C287_attributions`, `C287_metrics`, `C287_slice_names` | Slices pairwise different in the eyes of Python, as they are when loaded. |
| C288 | Time series | partial | `C288_time_series_partial`, `C288_identifier`, `C288_same_identifier_refuted` | Refuted: models at /models/a/1 and /models/b/1 are both shown as 1, and a path that ends in a slash as nothing. Proved: the points, identifiers and refusals, without cross slices. |
| C289 | Pages of notebooks | proved | `C289_page`, `C289_known`, `C289_callbacks`, `C289_events` | The JSON text and the trusted HTML around the component are given; texts are bytes. |
| C290 | Sides of metrics | partial | `C290_each_metric_on_one_side`, `C290_registered_classes`, `C290_class_of_the_module_partial`, `C290_own_losses_refuted`, `C290_own_losses_become_metrics_refuted`, `C290_module_overruled_refuted`, `C290_two_modules_refuted` | Refuted: a loss of a module of its own is refused or taken for a Keras metric of that name; a class name TFMA has registered overrules the module; of two modules with one class name only one counts. Proved: sides and order; the class of the module otherwise. |
| C291 | Gathering Keras metrics | partial | `C291_calls`, `C291_later_specs_later`, `C291_binarization_lost_refuted` | Refuted: beside aggregation options without a type the binarization is lost. Proved: the calls are for just what is asked for with that exception. Class ids are not negative. |
| C292 | Keys of Keras metrics | partial | `C292_declared_keys`, `C292_keys_once`, `C292_weights_not_in_keys_refuted`, `C292_own_class_refuted` | Refuted: two specs that differ in class weights give the same key twice; so do a metric with a class of its own and its binarization by that class. Proved: the keys, and that each is there once otherwise. |
| C293 | Classes of macro averages of Keras metrics | proved | `C293_classes_of_macro_averages` | For metrics whose name does not begin with an underscore and without a class or top k of their own. |
| C294 | Thresholds configured | partial | `C294_thresholds_used`, `C294_accepted`, `C294_untyped_aggregation_refuted` | Refuted in one case: next to binarization an aggregation without a type takes the place of the binarized classes, whose thresholds are then not used; for all other specs the thresholds are just those configured. |
| C295 | OK means within the bounds configured | proved | `C295_ok_means_within_bounds` | The verdict is that of the validation of each slice, combined in any order. |
| C296 | Each place of a threshold counts | partial | `C296_slices_of_queries_are_checked_refuted`, `C296_queries_are_told_apart_refuted`, `C296_threshold_without_slicing_specs_refuted` | Refuted: a slicing spec with only slice_keys_sql is read as the overall slice, so the slices of the query are not looked at and two queries are one; a per-slice threshold without slicing specs is dropped. |
| C297 | Metrics come back from their configs | proved | `C297_config_gives_metric_back` | For all classes but the six of C298, and for arguments other than preprocessors (C299) and fn. The values of arguments are JSON values. |
| C298 | Every metric takes its own config | partial | `C298_config_is_not_taken_refuted`, `C298_threshold_of_accuracy_refuted` | Refuted: Bleu, BooleanFlipRates, COCOAveragePrecision, MaxRecall and ObjectDetectionMaxRecall refuse every config they give with a TypeError, since they pass settings on under names they do not take; BinaryAccuracy refuses its config if it has a threshold. |
| C299 | Preprocessors of confusion matrix metrics | partial | `C299_preprocessors_are_lost_refuted`, `C299_no_metric_keeps_preprocessors` | Refuted: ConfusionMatrixMetricBase takes preprocessors and passes them on to nothing. |
| C300 | Calls that make computations | proved | `C300_arguments`, `C300_one_call_for_each_key`, `C300_unsupported` | With no models, outputs or sub keys there are no calls and weights are not looked at. |
| C301 | Functions take their calls | proved | `C301_functions_take_their_calls`, `C301_unknown_settings_refused`, `C301_preprocessors_taken` | Arguments taken by **kwargs that nobody knows are refused only when the metric is computed. With no models, outputs or sub keys there are no calls. |
| C302 | Settings reach the function | partial | `C302_settings_reach_function_partial`, `C302_settings_reach_function_refuted` | Refuted: COCOMeanAveragePrecision and COCOMeanAverageRecall have a setting class_weights, which is a reserved name: what is asked for, mostly none, replaces it. Partial: all other registered metrics, with no setting given under a name the calls set. |
| C303 | Calls name the model and the output | partial | `C303_calls_name_model_and_output_partial`, `C303_calls_name_model_and_output_refuted` | Refuted: SetMatchPrecision and SetMatchRecall do not take the output name, so the calls for two outputs are the same. Partial: the model for all metrics, the output for all others. |
| C304 | Metrics that take example weights | proved | `C304_example_weights` | With no models, outputs or sub keys there are no calls and weights are not looked at. |
| C305 | Values from bootstrap replicas | proved | `C305_values`, `C305_accepted` | For finite numbers and NaN; with one number that is not NaN the deviation is NaN. A slice with one replica only has the values of that replica. |
| C306 | Values without sampling are kept | partial | `C306_unsampled_value_kept_partial`, `C306_unsampled_value_kept_refuted` | Refuted: if all replicas of a number are NaN then its value without sampling is replaced by NaN. Partial: some replica that is not NaN, and two replicas of the slice or more. |
| C307 | Slices and numbers of bootstrap samples | proved | `C307_slices`, `C307_samples`, `C307_other_names_refused` | A slice of the metrics without sampling that no replica has is not in the result. |
| C308 | Metrics on workers are those configured | partial | `C308_classes_partial`, `C308_classes_refuted`, `C308_local_classes_refused` | Refuted: classes are loaded on the workers by their name alone, so of two classes of one name, from different modules or a metric and a loss, the last stands for both. Partial: classes of the same name are of the same module, and are neither functions in a wrapper of Keras nor registered under other names. |
| C309 | Models run in bulk | proved | `C309_models_run`, `C309_logs_by_name`, `C309_accepted` | Logs are under the names of the specs, which are unique. |
| C310 | Tags of metric keys | partial | `C310_after_first_part`, `C310_distinct_keys`, `C310_distinct_tags_partial`, `C310_distinct_tags_refuted` | Refuted: a tag with a slash is not told from a key with more parts. Partial: tags without a slash, or the same tag. |
| C311 | Keys of plots | partial | `C311_plots_partial`, `C311_plots_refuted`, `C311_tags_and_bounds_partial`, `C311_tags_refuted` | Refuted: any key that ends like the name of a plot is taken as the key of a plot, and a tag on the bare name of a plot gives a key that is not. Partial: names of plots are keys of plots, and with a prefix stay so when tagged. |
| C312 | Batches in a metrics graph | partial | `C312_batches`, `C312_one_by_one_partial`, `C312_one_by_one_refuted` | Refuted: an error of TensorFlow, as ResourceExhausted, is reraised as a RuntimeError, which is not caught, so the examples are not run one by one. Partial: a ValueError with a message. |
| C313 | Variables of a metrics graph are set and read | proved | `C313_set_variables`, `C313_too_few`, `C313_values` | The variables of a graph are distinct. Values beyond the number of variables are ignored. |
| C314 | Registering metrics on a graph | partial | `C314_registered`, `C314_taken_names_refused`, `C314_refused_unchanged_partial`, `C314_refused_unchanged_refuted` | Refuted: if a name was registered before then the metrics before it in the same call stay registered, without variables, and no metric of the graph can be read any more. Partial: conflicts among the callbacks of one call change no metric. |
| C315 | Extracts selected by preprocessors | partial | `C315_features`, `C315_transformed_features`, `C315_attributions`, `C315_input`, `C315_combined_partial`, `C315_combined_refuted`, `C315_accepted` | Refuted: CombinedFeaturePreprocessor looks up raw features by model too if names of models are given, where they are not kept by model, and so drops them. The partial theorem covers it without names of models. |
| C316 | Inputs of Keras models that are evaluated | partial | `C316_features_partial`, `C316_inputs_of_model`, `C316_one_model_refuted`, `C316_two_models_refuted`, `C316_transformed_first` | Refuted: a single model has the name '', so labels, predictions and transformed features are looked up under '' and dropped (unless another computation asks for them); with several models the transformed features are merged into the features as one feature per model name instead of by feature. Partial: without transformed features the model gets exactly the raw features it takes. The labels, predictions and weights of a model among several are kept. |
| C317 | Means read the features they ask for | partial | `C317_mean_reads_partial`, `C317_mean_reads_refuted` | Refuted: a feature stored under a joined key (user/age) is found by the path (user, age) in the whole extract, but is dropped by the filter, and the mean fails. Partial: the values are stored one dictionary per key. |
| C318 | Examples are evaluated with their own labels and weights | proved | `C318_own_labels_and_weights`, `C318_outputs` | For any argpartition, keys of the model spec and function that finds the inputs. Arrays of labels or weights of different lengths are refused (NumPy before 1.24 makes arrays of objects). |
| C319 | Batches are evaluated on the features of their examples | proved | `C319_features`, `C319_one_batch`, `C319_missing_inputs` | The batch size is that of the merged features; it is None only if there are no features. The conversion of inputs to tensors and model.evaluate itself are TensorFlow. |
| C320 | Metrics compiled with a model get their own rows | partial | `C320_rows_partial`, `C320_own_width_refuted`, `C320_outputs` | Refuted: all outputs are padded to the longest labels or predictions of any output, so the metrics of a narrow output also average over padding (pad_to_dim is kept once per accumulator). Partial: the rows are as stated with the longest of all outputs. |
| C321 | Confusion matrix metrics are computed from their own pairs | partial | `C321_own_pairs_refuted`, `C321_together_as_alone_partial` | Refuted: the keys of the matrices and of the histogram leave out the aggregation type, so that a micro average over the top k shows the value binarized over the top k when both are configured. Partial: metrics are computed as alone when those over the same top k of one model, output and weighting are all aggregated or none is; class weights, example ids, preprocessors and interpolated thresholds are not part of the model. |
| C322 | Bounds on metrics are checked on averages | partial | `C322_bounds_are_checked_partial`, `C322_bounds_are_checked_refuted`, `C322_both_are_reported_refuted`, `C322_both_are_reported_partial`, `C322_bounds_on_errors_partial` | Refuted: the mean regression errors are reported without the aggregation type. A bound on a micro average is kept for a key that is not reported, and of a mean squared error and its micro average only the first is computed (the keys of calibration.py, cross_entropy_metrics.py, exact_match.py, squared_pearson_correlation.py and tjur_discrimination.py leave it out as well). Partial: bounds on metrics of confusion matrices are for exactly the keys of their values, macro averages aside, and bounds on mean errors for the keys of those that are no averages; mean errors of different names, models, outputs, sub keys or weightings are computed together as alone. |
| C323 | Calibration metrics are computed from their own totals | partial | `C323_own_totals_refuted`, `C323_totals_as_alone_partial` | Refuted: the key of the totals leaves out the aggregation type and the class weights, so that a micro average of predictions with class weights is made of the totals of an unaggregated calibration when both are configured. Partial: the metrics are computed as alone when those of one model, output, sub key and weighting have the same class weights and are all aggregated or none is. |
| C324 | Counts of examples have no intervals in any spec | partial | `C324_counts_without_interval_partial`, `C324_counts_without_interval_refuted` | Refuted: the keys to skip carry the aggregation type of the spec, the key of example_count never does; a count that is configured with micro averages gets an interval. Partial: the counts that are configured without averages. |
| C325 | A model that keeps the bounds of a metric passes | partial | `C325_bounds_kept_partial`, `C325_bounds_kept_refuted`, `C325_own_settings_partial`, `C325_bounds_of_metrics_partial` | Refuted: a metric with a top k of its own is reported under this sub key, its bounds are kept for the key of the spec; validation fails whatever is reported. Partial: metrics without top k or class of their own, for bounds on values and without macro averages; with such settings validation never passes. For any metric, macro averages included, validation passes exactly if a value within the bounds is reported for each model, output, class, top k or average and weighting of the spec. |
| C326 | Bounds on metrics of the model itself are checked on the values it reports | partial | `C326_bounds_of_model_metrics_partial`, `C326_metric_of_model_partial`, `C326_metric_with_top_k_refuted`, `C326_binarized_refuted` | Refuted: a metric of the model with a top k of its own, or a spec with binarization: the bounds are kept for keys that the model does not report, and validation fails whatever is reported. Partial: validation passes exactly if a value within the bounds is reported for each model, output and class, top k or average of the spec; for metrics without top k or class, in specs without binarization and aggregation, the value of the model decides. |
| C327 | Confidence intervals do not change verdicts | proved | `C327_intervals_and_verdicts` | Complete, for values that are numbers or texts and thresholds on metrics that are not named __ERROR__. |

## 3. Trusted base

* The Coq 8.16.1 kernel (no `Admitted`, no axioms of our own, no kernel checks
  disabled, no `native_compute`).
* `Print Assumptions` is executed for every theorem in the `*_Properties.v`
  files; section 4 lists what it prints.
* The transcription of Python into Gallina (each definition cites its lines).
* **Not modelled:** IEEE rounding and overflow, numpy broadcasting/dtype rules
  beyond what is cited, TensorFlow/Keras model inference, Beam's own runner
  (only its combine contract), file formats below the protobuf field level,
  the JavaScript user interface, logging and Beam counters.
* Simplifications of single functions are stated in the comment of the
  definition; those that matter for a property are repeated in the note of the
  property in `MANIFEST.json` and in the table above.

## 4. Assumptions per theorem

A checker that lists the axioms of all loaded libraries also reports what is
loaded but not used by a theorem: `Classical_Prop.classic`, the opaque constants
of the module `Rdefinitions` (`R`, `Rplus`, …, which are definitions sealed by a
module type of the standard library), and those of `ssr.ssrunder`.

`Print Assumptions` answers "Closed under the global context" for all
theorems but the following, which use the axioms of the standard library's real
numbers (and functional extensionality on which they rest):

* `C19_ndcg_mean`, `C19_ndcg_schedule`, `C19_ndcg_range`, `C19_perfect_ranking`, `C19_mean_range`, `C41_roc_auc`, `C41_roc_auc_on_data`, `C96_pr_auc_ordered_refuted`, `C96_pr_auc_partial`, `C97_concordance`, `C97_mann_whitney`, `C98_auc_thresholds_refuted`, `C140_mixed_queries_refuted`, `C141_binary_cross_entropy`, `C141_least_at_label`, `C141_perfect_prediction_refuted`, `C142_categorical_cross_entropy`, `C142_scale_of_predictions`, `C142_shift_of_logits`, `C142_least_at_label`, `C142_impossible_class_refuted`, `C142_sparse_label_refuted`, `C143_predictions_kept_refuted`, `C144_schedule_refuted`, `C145_mean_log_error_partial`, `C145_mean_log_error_within`, `C145_zero_just_for_equal`, `C145_schedule_refuted`, `C227_inverted_logarithms`, `C227_round_trip`, `C227_extract_kept_refuted`, `C230_mean_by_weight`, `C230_range`, `C230_refused`, `C230_best_order_refuted`: `ClassicalDedekindReals.sig_forall_dec`, `ClassicalDedekindReals.sig_not_dec`, `Classical_Prop.classic`, `FunctionalExtensionality.functional_extensionality_dep`
* `C23_interval`, `C91_interval_contains_value_refuted`, `C93_matthews`, `C93_fowlkes_mallows`, `C99_prevalence_threshold_refuted`, `C99_prevalence_threshold_partial`, `C146_cosine_range`, `C146_cosine_direction`, `C146_cosine_symmetric`, `C146_mean_similarity_partial`, `C146_mean_similarity_within`, `C146_schedule_refuted`: `ClassicalDedekindReals.sig_forall_dec`, `ClassicalDedekindReals.sig_not_dec`, `FunctionalExtensionality.functional_extensionality_dep`
* `C144_mean_cross_entropy_partial`, `C144_mean_cross_entropy_within`: `ClassicalDedekindReals.sig_forall_dec`, `FunctionalExtensionality.functional_extensionality_dep`
