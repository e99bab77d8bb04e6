(* The functions that make the computations of the registered metrics, metrics/: their
   parameters, and whether they are wrapped by metric_util.merge_per_key_computations
   (metric_util.py 1176-1233). *)
From Coq Require Import String Ascii.
From Verif Require Import Base Specs_Model Ctors_Model.
Local Open Scope string_scope.
Local Open Scope list_scope.

(** [sg_params]: the parameters without self, true for those without default; [sg_rest]: takes
    further keywords *)
Record signature := Signature { sg_per_key : bool; sg_params : list (string * bool); sg_rest : bool }.

(** Python's call with keywords kw: TypeError for keywords it does not know and for arguments that are
    missing. *)
Definition python_call {K C} (sg : signature) (body : kwargs K -> res (list C)) (kw : kwargs K) : res (list C) :=
  if negb (sg_rest sg) && existsb (fun kv => negb (memb String.eqb (fst kv) (map fst (sg_params sg)))) kw then Err TypeError
  else if existsb (fun pr => snd pr && negb (dmem String.eqb kw (fst pr))) (sg_params sg) then Err TypeError
  else body kw.
(** metric_types.py 893-920 [Metric.computations] of a metric with settings [s]; the names asked for
    are the parameters of the function. *)
Definition metric_computations {K C} (sg : signature) (body : kwargs K -> res (list C)) (s : settings) (r : request K) : res (list C) :=
  let args := map fst (sg_params sg) in
  if sg_per_key sg then computations_per_key args (python_call sg body) s r
  else computations args (python_call sg body) s r.

(* ------------------------------------------------------------------ *)
(** * The functions *)

(** attributions.py 95-152 [_mean_attributions], absolute being set by functools.partial *)
Definition f_mean_attributions : signature := Signature true
  [("name", false); ("eval_config", false); ("model_name", false); ("output_name", false); ("sub_key", false); ("example_weighted", false)] false.
(** attributions.py 197-236 [_total_attributions], absolute being set by functools.partial *)
Definition f_total_attributions : signature := Signature true
  [("name", false); ("eval_config", false); ("model_name", false); ("output_name", false); ("sub_key", false); ("example_weighted", false)] false.
(** bleu.py 416-447 [_bleu] *)
Definition f_bleu : signature := Signature true
  [("name", true); ("eval_config", true); ("model_name", true); ("output_name", true); ("lowercase", true); ("force", true); ("tokenize", true); ("smooth_method", true); ("smooth_value", true); ("effective_order", true)] false.
(** calibration.py 46-92 [_mean_label] *)
Definition f_mean_label : signature := Signature true
  [("name", false); ("eval_config", false); ("model_name", false); ("output_name", false); ("sub_key", false); ("aggregation_type", false); ("class_weights", false); ("example_weighted", false)] false.
(** calibration.py 113-159 [_mean_prediction] *)
Definition f_mean_prediction : signature := Signature true
  [("name", false); ("eval_config", false); ("model_name", false); ("output_name", false); ("sub_key", false); ("aggregation_type", false); ("class_weights", false); ("example_weighted", false)] false.
(** calibration.py 184-231 [_calibration] *)
Definition f_calibration : signature := Signature true
  [("name", false); ("eval_config", false); ("model_name", false); ("output_name", false); ("sub_key", false); ("aggregation_type", false); ("class_weights", false); ("example_weighted", false)] false.
(** calibration_plot.py 104-170 [_calibration_plot] *)
Definition f_calibration_plot : signature := Signature true
  [("num_buckets", false); ("left", false); ("right", false); ("name", false); ("eval_config", false); ("schema", false); ("model_name", false); ("output_name", false); ("sub_key", false); ("aggregation_type", false); ("class_weights", false); ("example_weighted", false)] false.
(** confusion_matrix_metrics.py 308-379 [_metric_computations] *)
Definition f_m_ConfusionMatrixMetricBase : signature := Signature true
  [("thresholds", false); ("num_thresholds", false); ("top_k", false); ("class_id", false); ("name", false); ("eval_config", false); ("model_name", false); ("output_name", false); ("sub_key", false); ("aggregation_type", false); ("class_weights", false); ("example_weighted", false); ("preprocessors", false); ("metric_key", false)] true.
(** confusion_matrix_metrics.py 2604-2662 [_metric_computations] *)
Definition f_m_ConfusionMatrixFeatureSamplerBase : signature := Signature true
  [("feature_key", true); ("sample_size", true); ("threshold", false); ("top_k", false); ("class_id", false); ("name", false); ("eval_config", false); ("model_name", false); ("output_name", false); ("sub_key", false); ("aggregation_type", false); ("class_weights", false); ("example_weighted", false)] false.
(** confusion_matrix_metrics.py 2816-2866 [_metric_computations] *)
Definition f_m_ConfusionMatrixAtThresholds : signature := Signature true
  [("thresholds", true); ("top_k", false); ("class_id", false); ("name", false); ("eval_config", false); ("model_name", false); ("output_name", false); ("sub_key", false); ("aggregation_type", false); ("class_weights", false); ("example_weighted", false)] false.
(** confusion_matrix_plot.py 57-123 [_confusion_matrix_plot] *)
Definition f_confusion_matrix_plot : signature := Signature true
  [("num_thresholds", false); ("name", false); ("eval_config", false); ("model_name", false); ("output_name", false); ("sub_key", false); ("aggregation_type", false); ("class_weights", false); ("example_weighted", false); ("preprocessors", false); ("plot_key", false)] false.
(** cross_entropy_metrics.py 63-119 [_binary_cross_entropy_computations] *)
Definition f_binary_cross_entropy_computations : signature := Signature true
  [("name", false); ("from_logits", false); ("label_smoothing", false); ("eval_config", false); ("model_name", false); ("output_name", false); ("example_weighted", false); ("sub_key", false); ("aggregation_type", false); ("class_weights", false)] false.
(** cross_entropy_metrics.py 159-215 [_categorical_cross_entropy_computations] *)
Definition f_categorical_cross_entropy_computations : signature := Signature true
  [("name", false); ("from_logits", false); ("label_smoothing", false); ("eval_config", false); ("model_name", false); ("output_name", false); ("example_weighted", false); ("sub_key", false); ("aggregation_type", false); ("class_weights", false)] false.
(** exact_match.py 54-86 [_exact_match] *)
Definition f_exact_match : signature := Signature true
  [("name", true); ("eval_config", false); ("model_name", false); ("output_name", false); ("sub_key", false); ("aggregation_type", false); ("class_weights", false); ("example_weighted", false); ("convert_to", false)] false.
(** example_count.py 62-103 [example_count] *)
Definition f_example_count : signature := Signature false
  [("name", false); ("model_names", false); ("output_names", false); ("sub_keys", false); ("example_weighted", false)] false.
(** flip_metrics.py 254-328 [_metric_computations] *)
Definition f_m__FlipRateBase : signature := Signature false
  [("name", true); ("eval_config", true); ("example_weighted", true); ("threshold", true); ("model_names", true); ("output_names", false); ("sub_keys", false)] false.
(** flip_metrics.py 488-562 [_boolean_flip_rates_computations] *)
Definition f_boolean_flip_rates_computations : signature := Signature false
  [("symmetric_flip_rate_name", true); ("neg_to_neg_flip_rate_name", true); ("neg_to_pos_flip_rate_name", true); ("pos_to_neg_flip_rate_name", true); ("pos_to_pos_flip_rate_name", true); ("threshold", true); ("eval_config", false); ("model_names", false); ("output_names", false); ("sub_keys", false); ("example_weighted", false)] false.
(** mean_regression_error.py 56-105 [_mean_absolute_error_computations] *)
Definition f_mean_absolute_error_computations : signature := Signature true
  [("name", false); ("eval_config", false); ("model_name", false); ("output_name", false); ("example_weighted", false); ("sub_key", false); ("aggregation_type", false); ("class_weights", false); ("preprocessors", false)] false.
(** mean_regression_error.py 137-186 [_mean_absolute_percentage_error_computations] *)
Definition f_mean_absolute_percentage_error_computations : signature := Signature true
  [("name", false); ("eval_config", false); ("model_name", false); ("output_name", false); ("example_weighted", false); ("sub_key", false); ("aggregation_type", false); ("class_weights", false); ("preprocessors", false)] false.
(** mean_regression_error.py 217-266 [_mean_squared_error_computations] *)
Definition f_mean_squared_error_computations : signature := Signature true
  [("name", false); ("eval_config", false); ("model_name", false); ("output_name", false); ("example_weighted", false); ("sub_key", false); ("aggregation_type", false); ("class_weights", false); ("preprocessors", false)] false.
(** mean_regression_error.py 301-350 [_mean_squared_logarithmic_error_computations] *)
Definition f_mean_squared_logarithmic_error_computations : signature := Signature true
  [("name", false); ("eval_config", false); ("model_name", false); ("output_name", false); ("example_weighted", false); ("sub_key", false); ("aggregation_type", false); ("class_weights", false); ("preprocessors", false)] false.
(** min_label_position.py 55-94 [_min_label_position] *)
Definition f_min_label_position : signature := Signature false
  [("name", false); ("label_key", false); ("eval_config", false); ("model_names", false); ("output_names", false); ("example_weighted", false); ("query_key", false)] false.
(** model_cosine_similarity.py 63-117 [_metric_computation] *)
Definition f_metric_computation : signature := Signature false
  [("name", true); ("eval_config", true); ("model_names", true); ("output_names", false); ("sub_keys", false)] false.
(** multi_class_confusion_matrix_metrics.py 78-123 [_multi_class_confusion_matrix_at_thresholds] *)
Definition f_multi_class_confusion_matrix_at_thresholds : signature := Signature true
  [("thresholds", false); ("name", false); ("eval_config", false); ("model_name", false); ("output_name", false); ("example_weighted", false)] false.
(** multi_class_confusion_matrix_plot.py 73-125 [_multi_class_confusion_matrix_plot] *)
Definition f_multi_class_confusion_matrix_plot : signature := Signature true
  [("thresholds", false); ("num_thresholds", false); ("name", false); ("eval_config", false); ("model_name", false); ("output_name", false); ("example_weighted", false)] false.
(** multi_label_confusion_matrix_plot.py 103-142 [_multi_label_confusion_matrix_plot] *)
Definition f_multi_label_confusion_matrix_plot : signature := Signature true
  [("thresholds", false); ("num_thresholds", false); ("name", false); ("eval_config", false); ("model_name", false); ("output_name", false); ("example_weighted", false)] false.
(** ndcg.py 68-124 [_ndcg] *)
Definition f_ndcg : signature := Signature false
  [("gain_key", true); ("top_k_list", false); ("name", false); ("eval_config", false); ("model_names", false); ("output_names", false); ("sub_keys", false); ("example_weighted", false); ("query_key", false)] false.
(** object_detection_confusion_matrix_metrics.py 135-197 [_metric_computations] *)
Definition f_m_ObjectDetectionPrecisionAtRecall : signature := Signature true
  [("thresholds", false); ("num_thresholds", false); ("iou_threshold", false); ("class_id", false); ("class_weight", false); ("area_range", false); ("max_num_detections", false); ("name", false); ("eval_config", false); ("model_name", false); ("output_name", false); ("labels_to_stack", false); ("predictions_to_stack", false); ("num_detections_key", false); ("allow_missing_key", false); ("example_weighted", false)] true.
(** object_detection_confusion_matrix_metrics.py 289-350 [_metric_computations] *)
Definition f_m_ObjectDetectionRecall : signature := Signature true
  [("thresholds", false); ("num_thresholds", false); ("iou_threshold", false); ("class_id", false); ("class_weight", false); ("area_range", false); ("max_num_detections", false); ("name", false); ("eval_config", false); ("model_name", false); ("output_name", false); ("labels_to_stack", false); ("predictions_to_stack", false); ("num_detections_key", false); ("allow_missing_key", false); ("example_weighted", false)] true.
(** object_detection_confusion_matrix_metrics.py 442-503 [_metric_computations] *)
Definition f_m_ObjectDetectionPrecision : signature := Signature true
  [("thresholds", false); ("num_thresholds", false); ("iou_threshold", false); ("class_id", false); ("class_weight", false); ("area_range", false); ("max_num_detections", false); ("name", false); ("eval_config", false); ("model_name", false); ("output_name", false); ("labels_to_stack", false); ("predictions_to_stack", false); ("num_detections_key", false); ("allow_missing_key", false); ("example_weighted", false)] true.
(** object_detection_confusion_matrix_metrics.py 590-651 [_metric_computations] *)
Definition f_m_ObjectDetectionMaxRecall : signature := Signature true
  [("thresholds", false); ("num_thresholds", false); ("iou_threshold", false); ("class_id", false); ("class_weight", false); ("area_range", false); ("max_num_detections", false); ("name", false); ("eval_config", false); ("model_name", false); ("output_name", false); ("labels_to_stack", false); ("predictions_to_stack", false); ("num_detections_key", false); ("allow_missing_key", false); ("example_weighted", false)] true.
(** object_detection_confusion_matrix_metrics.py 750-812 [_metric_computations] *)
Definition f_m_ObjectDetectionThresholdAtRecall : signature := Signature true
  [("thresholds", false); ("num_thresholds", false); ("iou_threshold", false); ("class_id", false); ("class_weight", false); ("area_range", false); ("max_num_detections", false); ("name", false); ("eval_config", false); ("model_name", false); ("output_name", false); ("labels_to_stack", false); ("predictions_to_stack", false); ("num_detections_key", false); ("allow_missing_key", false); ("example_weighted", false)] true.
(** object_detection_confusion_matrix_plot.py 103-163 [_confusion_matrix_plot] *)
Definition f_confusion_matrix_plot_object_detection_confusion_matrix_plot : signature := Signature true
  [("num_thresholds", false); ("name", false); ("eval_config", false); ("model_name", false); ("output_name", false); ("iou_threshold", false); ("class_id", false); ("class_weight", false); ("area_range", false); ("max_num_detections", false); ("labels_to_stack", false); ("predictions_to_stack", false); ("num_detections_key", false); ("allow_missing_key", false); ("example_weighted", false)] true.
(** object_detection_metrics.py 133-225 [_metric_computations] *)
Definition f_m_COCOAveragePrecision : signature := Signature true
  [("num_thresholds", false); ("iou_threshold", false); ("class_id", false); ("class_weight", false); ("max_num_detections", false); ("area_range", false); ("recall_thresholds", false); ("name", false); ("model_name", false); ("output_name", false); ("example_weighted", false); ("labels_to_stack", false); ("predictions_to_stack", false); ("num_detections_key", false); ("allow_missing_key", false)] false.
(** object_detection_metrics.py 323-421 [_metric_computations] *)
Definition f_m_COCOMeanAveragePrecision : signature := Signature true
  [("num_thresholds", false); ("iou_thresholds", false); ("class_ids", false); ("class_weights", false); ("max_num_detections", false); ("area_range", false); ("recalls", false); ("num_recalls", false); ("name", false); ("model_name", false); ("output_name", false); ("example_weighted", false); ("labels_to_stack", false); ("predictions_to_stack", false); ("num_detections_key", false); ("allow_missing_key", false)] true.
(** object_detection_metrics.py 507-597 [_metric_computations] *)
Definition f_m_COCOAverageRecall : signature := Signature true
  [("iou_thresholds", false); ("class_id", false); ("class_weight", false); ("max_num_detections", false); ("area_range", false); ("name", false); ("model_name", false); ("output_name", false); ("example_weighted", false); ("labels_to_stack", false); ("predictions_to_stack", false); ("num_detections_key", false); ("allow_missing_key", false)] false.
(** object_detection_metrics.py 683-763 [_metric_computations] *)
Definition f_m_COCOMeanAverageRecall : signature := Signature true
  [("iou_thresholds", false); ("class_ids", false); ("class_weights", false); ("max_num_detections", false); ("area_range", false); ("name", false); ("model_name", false); ("output_name", false); ("example_weighted", false); ("labels_to_stack", false); ("predictions_to_stack", false); ("num_detections_key", false); ("allow_missing_key", false)] false.
(** prediction_difference_metrics.py 45-98 [_symmetric_prediction_difference_computations] *)
Definition f_symmetric_prediction_difference_computations : signature := Signature false
  [("name", false); ("eval_config", false); ("model_names", false); ("output_names", false); ("sub_keys", false); ("example_weighted", false)] false.
(** query_statistics.py 64-124 [_query_statistics] *)
Definition f_query_statistics : signature := Signature false
  [("total_queries_name", false); ("total_documents_name", false); ("min_documents_name", false); ("max_documents_name", false); ("eval_config", false); ("model_name", false); ("output_name", false); ("query_key", false); ("example_weighted", false)] false.
(** rouge.py 153-180 [_rouge] *)
Definition f_rouge : signature := Signature true
  [("rouge_type", true); ("name", true); ("eval_config", true); ("model_name", true); ("output_name", true); ("use_stemmer", true); ("split_summaries", true); ("tokenizer", true)] false.
(** sample_metrics.py 64-102 [_fixed_size_sample] *)
Definition f_fixed_size_sample : signature := Signature false
  [("sampled_key", true); ("size", true); ("name", true); ("random_seed", true); ("model_names", false); ("output_names", false); ("sub_keys", false); ("example_weighted", false)] false.
(** score_distribution_plot.py 71-154 [_confusion_matrix_plot] *)
Definition f_confusion_matrix_plot_score_distribution_plot : signature := Signature true
  [("num_thresholds", false); ("name", false); ("eval_config", false); ("model_name", false); ("output_name", false); ("sub_key", false); ("aggregation_type", false); ("class_weights", false); ("example_weighted", false)] false.
(** semantic_segmentation_confusion_matrix_metrics.py 85-130 [_metric_computations] *)
Definition f_m_SemanticSegmentationConfusionMatrix : signature := Signature true
  [("class_ids", true); ("ground_truth_key", true); ("prediction_key", true); ("decode_ground_truth", false); ("decode_prediction", false); ("ignore_ground_truth_id", false); ("name", false); ("eval_config", false); ("model_name", false); ("output_name", false); ("example_weighted", false)] true.
(** semantic_segmentation_confusion_matrix_metrics.py 325-398 [_metric_computations] *)
Definition f_m_SemanticSegmentationConfusionMatrixMetricBase : signature := Signature true
  [("class_ids", true); ("ground_truth_key", true); ("prediction_key", true); ("decode_ground_truth", false); ("decode_prediction", false); ("ignore_ground_truth_id", false); ("name", false); ("eval_config", false); ("model_name", false); ("output_name", false); ("example_weighted", false)] true.
(** set_match_confusion_matrix_metrics.py 103-149 [_metric_computations] *)
Definition f_m_SetMatchPrecision : signature := Signature true
  [("thresholds", false); ("top_k", false); ("name", false); ("prediction_class_key", false); ("prediction_score_key", false); ("class_key", false); ("weight_key", false); ("eval_config", false); ("model_name", false); ("sub_key", false); ("aggregation_type", false); ("class_weights", false); ("example_weighted", false)] true.
(** set_match_confusion_matrix_metrics.py 229-274 [_metric_computations] *)
Definition f_m_SetMatchRecall : signature := Signature true
  [("thresholds", false); ("top_k", false); ("name", false); ("prediction_class_key", false); ("prediction_score_key", false); ("class_key", false); ("weight_key", false); ("eval_config", false); ("model_name", false); ("sub_key", false); ("aggregation_type", false); ("class_weights", false); ("example_weighted", false)] true.
(** squared_pearson_correlation.py 45-71 [_squared_pearson_correlation] *)
Definition f_squared_pearson_correlation : signature := Signature true
  [("name", false); ("eval_config", false); ("model_name", false); ("output_name", false); ("sub_key", false); ("aggregation_type", false); ("class_weights", false); ("example_weighted", false)] false.
(** stats.py 102-130 [_mean_metric] *)
Definition f_mean_metric : signature := Signature false
  [("feature_key_path", true); ("example_weights_key_path", true); ("name", true)] false.
(** tjur_discrimination.py 60-117 [_coefficient_of_discrimination] *)
Definition f_coefficient_of_discrimination : signature := Signature true
  [("name", false); ("eval_config", false); ("model_name", false); ("output_name", false); ("sub_key", false); ("aggregation_type", false); ("class_weights", false); ("example_weighted", false)] false.
(** tjur_discrimination.py 148-204 [_relative_coefficient_of_discrimination] *)
Definition f_relative_coefficient_of_discrimination : signature := Signature true
  [("name", false); ("eval_config", false); ("model_name", false); ("output_name", false); ("aggregation_type", false); ("class_weights", false); ("example_weighted", false)] false.

(** By class the function its constructor gives to Metric. *)
Definition functions : list (string * signature) :=
  [("MeanAttributions", f_mean_attributions);
   ("MeanAbsoluteAttributions", f_mean_attributions);
   ("TotalAttributions", f_total_attributions);
   ("TotalAbsoluteAttributions", f_total_attributions);
   ("Bleu", f_bleu);
   ("MeanLabel", f_mean_label);
   ("MeanPrediction", f_mean_prediction);
   ("Calibration", f_calibration);
   ("CalibrationPlot", f_calibration_plot);
   ("AUC", f_m_ConfusionMatrixMetricBase);
   ("AUCPrecisionRecall", f_m_ConfusionMatrixMetricBase);
   ("SensitivityAtSpecificity", f_m_ConfusionMatrixMetricBase);
   ("SpecificityAtSensitivity", f_m_ConfusionMatrixMetricBase);
   ("PrecisionAtRecall", f_m_ConfusionMatrixMetricBase);
   ("RecallAtPrecision", f_m_ConfusionMatrixMetricBase);
   ("RecallAtFalsePositiveRate", f_m_ConfusionMatrixMetricBase);
   ("TruePositives", f_m_ConfusionMatrixMetricBase);
   ("TP", f_m_ConfusionMatrixMetricBase);
   ("TrueNegatives", f_m_ConfusionMatrixMetricBase);
   ("TN", f_m_ConfusionMatrixMetricBase);
   ("FalsePositives", f_m_ConfusionMatrixMetricBase);
   ("FP", f_m_ConfusionMatrixMetricBase);
   ("FalseNegatives", f_m_ConfusionMatrixMetricBase);
   ("FN", f_m_ConfusionMatrixMetricBase);
   ("BinaryAccuracy", f_m_ConfusionMatrixMetricBase);
   ("Precision", f_m_ConfusionMatrixMetricBase);
   ("PPV", f_m_ConfusionMatrixMetricBase);
   ("Recall", f_m_ConfusionMatrixMetricBase);
   ("TPR", f_m_ConfusionMatrixMetricBase);
   ("Specificity", f_m_ConfusionMatrixMetricBase);
   ("TNR", f_m_ConfusionMatrixMetricBase);
   ("FallOut", f_m_ConfusionMatrixMetricBase);
   ("FPR", f_m_ConfusionMatrixMetricBase);
   ("MissRate", f_m_ConfusionMatrixMetricBase);
   ("FNR", f_m_ConfusionMatrixMetricBase);
   ("NegativePredictiveValue", f_m_ConfusionMatrixMetricBase);
   ("NPV", f_m_ConfusionMatrixMetricBase);
   ("FalseDiscoveryRate", f_m_ConfusionMatrixMetricBase);
   ("FalseOmissionRate", f_m_ConfusionMatrixMetricBase);
   ("Prevalence", f_m_ConfusionMatrixMetricBase);
   ("PrevalenceThreshold", f_m_ConfusionMatrixMetricBase);
   ("ThreatScore", f_m_ConfusionMatrixMetricBase);
   ("BalancedAccuracy", f_m_ConfusionMatrixMetricBase);
   ("F1Score", f_m_ConfusionMatrixMetricBase);
   ("MatthewsCorrelationCoefficient", f_m_ConfusionMatrixMetricBase);
   ("FowlkesMallowsIndex", f_m_ConfusionMatrixMetricBase);
   ("Informedness", f_m_ConfusionMatrixMetricBase);
   ("Markedness", f_m_ConfusionMatrixMetricBase);
   ("PositiveLikelihoodRatio", f_m_ConfusionMatrixMetricBase);
   ("NegativeLikelihoodRatio", f_m_ConfusionMatrixMetricBase);
   ("DiagnosticOddsRatio", f_m_ConfusionMatrixMetricBase);
   ("PredictedPositiveRate", f_m_ConfusionMatrixMetricBase);
   ("FalsePositiveFeatureSampler", f_m_ConfusionMatrixFeatureSamplerBase);
   ("FalseNegativeFeatureSampler", f_m_ConfusionMatrixFeatureSamplerBase);
   ("ConfusionMatrixAtThresholds", f_m_ConfusionMatrixAtThresholds);
   ("MaxRecall", f_m_ConfusionMatrixMetricBase);
   ("ThresholdAtRecall", f_m_ConfusionMatrixMetricBase);
   ("ConfusionMatrixPlot", f_confusion_matrix_plot);
   ("BinaryCrossEntropy", f_binary_cross_entropy_computations);
   ("CategoricalCrossEntropy", f_categorical_cross_entropy_computations);
   ("ExactMatch", f_exact_match);
   ("ExampleCount", f_example_count);
   ("SymmetricFlipRate", f_m__FlipRateBase);
   ("NegToNegFlipRate", f_m__FlipRateBase);
   ("NegToPosFlipRate", f_m__FlipRateBase);
   ("PosToNegFlipRate", f_m__FlipRateBase);
   ("PosToPosFlipRate", f_m__FlipRateBase);
   ("BooleanFlipRates", f_boolean_flip_rates_computations);
   ("MeanAbsoluteError", f_mean_absolute_error_computations);
   ("MeanAbsolutePercentageError", f_mean_absolute_percentage_error_computations);
   ("MeanSquaredError", f_mean_squared_error_computations);
   ("MeanSquaredLogarithmicError", f_mean_squared_logarithmic_error_computations);
   ("MinLabelPosition", f_min_label_position);
   ("ModelCosineSimilarity", f_metric_computation);
   ("MultiClassConfusionMatrixAtThresholds", f_multi_class_confusion_matrix_at_thresholds);
   ("MultiClassConfusionMatrixPlot", f_multi_class_confusion_matrix_plot);
   ("MultiLabelConfusionMatrixPlot", f_multi_label_confusion_matrix_plot);
   ("NDCG", f_ndcg);
   ("ObjectDetectionPrecisionAtRecall", f_m_ObjectDetectionPrecisionAtRecall);
   ("ObjectDetectionRecall", f_m_ObjectDetectionRecall);
   ("ObjectDetectionPrecision", f_m_ObjectDetectionPrecision);
   ("ObjectDetectionMaxRecall", f_m_ObjectDetectionMaxRecall);
   ("ObjectDetectionThresholdAtRecall", f_m_ObjectDetectionThresholdAtRecall);
   ("ObjectDetectionConfusionMatrixPlot", f_confusion_matrix_plot_object_detection_confusion_matrix_plot);
   ("COCOAveragePrecision", f_m_COCOAveragePrecision);
   ("COCOMeanAveragePrecision", f_m_COCOMeanAveragePrecision);
   ("COCOAverageRecall", f_m_COCOAverageRecall);
   ("COCOMeanAverageRecall", f_m_COCOMeanAverageRecall);
   ("SymmetricPredictionDifference", f_symmetric_prediction_difference_computations);
   ("QueryStatistics", f_query_statistics);
   ("Rouge", f_rouge);
   ("FixedSizeSample", f_fixed_size_sample);
   ("ScoreDistributionPlot", f_confusion_matrix_plot_score_distribution_plot);
   ("SemanticSegmentationConfusionMatrix", f_m_SemanticSegmentationConfusionMatrix);
   ("SemanticSegmentationTruePositive", f_m_SemanticSegmentationConfusionMatrixMetricBase);
   ("SemanticSegmentationFalsePositive", f_m_SemanticSegmentationConfusionMatrixMetricBase);
   ("SetMatchPrecision", f_m_SetMatchPrecision);
   ("SetMatchRecall", f_m_SetMatchRecall);
   ("SquaredPearsonCorrelation", f_squared_pearson_correlation);
   ("Mean", f_mean_metric);
   ("CoefficientOfDiscrimination", f_coefficient_of_discrimination);
   ("RelativeCoefficientOfDiscrimination", f_relative_coefficient_of_discrimination);
   ("WeightedExampleCount", f_example_count)].
