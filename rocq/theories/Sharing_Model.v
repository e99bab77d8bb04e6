(* The computations that metrics of binary confusion matrices ask for, and which of them
   are shared: metrics/binary_confusion_matrices.py and metrics/confusion_matrix_metrics.py. *)
From Coq Require Import String Ascii.
From Verif Require Import Base Beam Keys_Model Inputs_Model Means_Model Sums_Model Slicer_Model Validation_Model Aggregation_Model Thresholds_Model Histogram_Model Confusion_Model Evaluator_Model Detection_Model Sets_Model.
From Verif Require CI_Model.
Local Open Scope string_scope.
Local Open Scope list_scope.

(** A value in the dictionary of a slice: a calibration histogram, matrices, a number or the
    totals of a calibration.
    Simplification: the accumulator of the counts is kept as the matrices made of it
    (binary_confusion_matrices.py 675-695 is part of [confusion_combiner]). *)
Inductive shared_value := VBuckets (h : list bucket) | VMatrices (m : matrices) | VNumber (x : num) | VTotals (t : wlpe).
Definition shared_dict := list (metric_key * shared_value).
Definition sget (d : shared_dict) (k : metric_key) : option shared_value := dget metric_key_eqb d k.

(** confusion_matrix_metrics.py 308-381 [_metric_computations]: the arguments.
    Simplifications: there are no class weights, example ids or preprocessors, and the
    thresholds are a list that is not interpolated (binary_confusion_matrices.py 287-301);
    mm_value is _metric_value. *)
Record matrix_metric := MatrixMetric {
  mm_name : string; mm_thresholds : list num; mm_model : string; mm_output : string;
  mm_sub_key : option sub_key; mm_agg : option agg_type; mm_weighted : bool;
  mm_value : matrices -> num
}.

(** 341-345: the thresholds of a metric for which none are set *)
Definition default_thresholds (sk : option sub_key) (default : num) : list num :=
  match sk with
  | Some s => match sk_top_k s with Some (S _) => [NegInf] | _ => [default] end
  | None => [default]
  end.

Section Sharing.
  Variable argpartition : list num -> nat -> list nat.
  (** str of a list of thresholds *)
  Variable show : list num -> string.
  Variables label_key prediction_key : string.
  (** The extracts of the slice *)
  Variable s : sched inputs_dict.

  (** 330-337: the key of the metric *)
  Definition metric_key_of (a : matrix_metric) : metric_key :=
    MetricKey (mm_name a) (mm_model a) (mm_output a) (mm_sub_key a) (mm_agg a) (Some (mm_weighted a)) false.
  (** binary_confusion_matrices.py 341-367: the key of the matrices, without the
      aggregation type *)
  Definition matrices_name (a : matrix_metric) : string :=
    Detection_Model.private_name "binary_confusion_matrices" [("thresholds", Some (show (mm_thresholds a)))].
  Definition matrices_key (a : matrix_metric) : metric_key :=
    MetricKey (matrices_name a) (mm_model a) (mm_output a) (mm_sub_key a) None (Some (mm_weighted a)) false.
  (** 562-569: the key of the counts, with the aggregation type *)
  Definition counts_key_of (a : matrix_metric) : metric_key :=
    MetricKey (matrices_name a) (mm_model a) (mm_output a) (mm_sub_key a) (mm_agg a) (Some (mm_weighted a)) false.
  (** calibration_histogram.py 109-131 for one bucket (binary_confusion_matrices.py 395):
      the key of the histogram, without the aggregation type *)
  Definition histogram_key_of (a : matrix_metric) : metric_key :=
    MetricKey (Detection_Model.private_name "calibration_histogram"
                 [("fractional_labels", Some "True"); ("left", Some "0.0"); ("num_buckets", Some "1");
                  ("prediction_based_bucketing", Some "True"); ("right", Some "1.0")])
      (mm_model a) (mm_output a) (mm_sub_key a) None (Some (mm_weighted a)) false.
  Definition input_key (a : matrix_metric) : metric_key :=
    if use_histogram (mm_thresholds a) then histogram_key_of a else counts_key_of a.

  Definition pair_options (a : matrix_metric) : options :=
    histogram_options (mm_sub_key a) (match mm_agg a with Some _ => true | None => false end) (mm_weighted a) true None.

  (** 570-588 and calibration_histogram.py 132-150: what is combined *)
  Definition input_value (a : matrix_metric) : res shared_value :=
    if use_histogram (mm_thresholds a) then
      let! h := outcome (histogram_combiner argpartition 1 0%Qc 1%Qc true (pair_options a) label_key prediction_key (mm_model a) (mm_output a)) s in
      Ok (VBuckets h)
    else
      let! r := outcome (confusion_combiner argpartition (mm_thresholds a) 100 (pair_options a) label_key prediction_key (mm_model a) (mm_output a))
                  (map_sched (fun x => (None, x)) s) in
      Ok (VMatrices (fst r)).
  (** 442-482 [result] *)
  Definition matrices_of (a : matrix_metric) (v : shared_value) : res shared_value :=
    match v with
    | VBuckets h => let! m := histogram_result (mm_thresholds a) h 1 in Ok (VMatrices m)
    | VMatrices m => Ok (VMatrices m)
    | _ => Err TypeError
    end.
  (** confusion_matrix_metrics.py 367-373 [result] *)
  Definition number_of (a : matrix_metric) (v : shared_value) : res shared_value :=
    match v with VMatrices m => Ok (VNumber (mm_value a m)) | _ => Err TypeError end.

  (** The value of another computation in the dictionary *)
  Definition derive_from (k : metric_key) (f : shared_value -> res shared_value) (out : metric_key) (d : shared_dict) : res shared_dict :=
    match sget d k with
    | Some v => let! r := f v in Ok [(out, r)]
    | None => Err KeyError
    end.

  (** 348-380, binary_confusion_matrices.py 378-488: the computations of one metric *)
  Definition input_class (a : matrix_metric) : string :=
    if use_histogram (mm_thresholds a) then "_CalibrationHistogramCombiner" else "_BinaryConfusionMatrixCombiner".
  Definition input_computation (a : matrix_metric) : computation (shared_dict -> res shared_dict) :=
    Computation (Combine (input_class a) []) [input_key a] (fun _ => let! v := input_value a in Ok [(input_key a, v)]).
  Definition matrices_computation (a : matrix_metric) : computation (shared_dict -> res shared_dict) :=
    Computation Derive [matrices_key a] (derive_from (input_key a) (matrices_of a) (matrices_key a)).
  Definition metric_computation (a : matrix_metric) : computation (shared_dict -> res shared_dict) :=
    Computation Derive [metric_key_of a] (derive_from (matrices_key a) (number_of a) (metric_key_of a)).
  Definition metric_computations (a : matrix_metric) : list (computation (shared_dict -> res shared_dict)) :=
    [input_computation a; matrices_computation a; metric_computation a].

  (** evaluators/metrics_plots_and_validations_evaluator.py 130-196, 439-443 and 610-625:
      the results of the computations of all metrics on the slice *)
  Definition run_computation (d : shared_dict) (c : computation_id * computation (shared_dict -> res shared_dict)) : res shared_dict :=
    let! r := cp_body (snd c) d in Ok (dupdate metric_key_eqb d r).
  Definition run_shared (cs : list (computation (shared_dict -> res shared_dict))) : res shared_dict :=
    let! sep := filter_and_separate_computations cs in
    let! base := foldM run_computation (sp_base sep) [] in
    foldM run_computation (sp_derived sep) base.
  Definition evaluate_metrics (l : list matrix_metric) : res shared_dict :=
    run_shared (flat_map metric_computations l).
End Sharing.

(* ------------------------------------------------------------------ *)
(** * Metrics that are combined without matrices *)

(** mean_regression_error.py 56-105 (137-186, 217-266, 301-350): the arguments of a mean
    error, dm_class is the class of its combiner and dm_error its _regression_error *)
Record mean_error := MeanError {
  dm_name : string; dm_class : string; dm_error : list Qc -> list num -> res num;
  dm_model : string; dm_output : string; dm_sub_key : option sub_key; dm_agg : option agg_type;
  dm_class_weights : option (list (nat * Qc)); dm_weighted : bool
}.
(** 84-90: the key has no aggregation type *)
Definition mean_error_key (a : mean_error) : metric_key :=
  MetricKey (dm_name a) (dm_model a) (dm_output a) (dm_sub_key a) None (Some (dm_weighted a)) false.
(** 91-105, 413-422, 444-453 *)
Definition mean_error_computation argpartition (label_key prediction_key : string) (s : sched inputs_dict) (a : mean_error)
  : computation (shared_dict -> res shared_dict) :=
  Computation (Combine (dm_class a) []) [mean_error_key a] (fun _ =>
    let o := regression_options (dm_sub_key a) (match dm_agg a with Some _ => true | None => false end) (dm_class_weights a) (dm_weighted a) in
    let! x := outcome (regression_combiner argpartition (dm_error a) o label_key prediction_key (dm_model a) (dm_output a)) s in
    Ok [(mean_error_key a, VNumber x)]).
Definition evaluate_mean_errors argpartition label_key prediction_key s (l : list mean_error) : res shared_dict :=
  run_shared (map (mean_error_computation argpartition label_key prediction_key s) l).

(** metric_specs.py 1078-1123, metric_types.py 870-905: the metrics of a spec that are not
    macro averages.  What each of them is reported under is left open. *)
Definition spec_metrics {K} (default : metrics_spec -> bool) (sp : metrics_spec)
    (make : string -> string -> option sub_key -> option agg_type -> bool -> K) : res (list K) :=
  let! groups := create_sub_keys sp in
  Ok (flat_map (fun g => if is_macro (fst g) then [] else
    flat_map (fun w => flat_map (fun m => flat_map (fun o =>
      map (fun sk => make m o sk (fst g) w) (snd g))
      (or_blank (ms_outputs sp))) (or_blank (ms_models sp)))
      (example_weight_options (default sp) sp)) groups).

(* ------------------------------------------------------------------ *)
(** * Metrics of the totals of labels and predictions *)

(** calibration.py 47-92 [_mean_label], 112-161 [_mean_prediction], 183-233 [_calibration]: the
    arguments; tm_result is the quotient (Sums_Model) *)
Record totals_metric := TotalsMetric {
  tm_name : string; tm_result : wlpe -> num; tm_model : string; tm_output : string;
  tm_sub_key : option sub_key; tm_agg : option agg_type;
  tm_class_weights : option (list (nat * Qc)); tm_weighted : bool
}.
(** 57-63, 124-130, 195-201: the key has no aggregation type *)
Definition totals_metric_key (a : totals_metric) : metric_key :=
  MetricKey (tm_name a) (tm_model a) (tm_output a) (tm_sub_key a) None (Some (tm_weighted a)) false.
(** 258-264: neither the aggregation type nor the class weights are part of the key *)
Definition totals_key (a : totals_metric) : metric_key :=
  MetricKey "_weighted_labels_predictions_examples" (tm_model a) (tm_output a) (tm_sub_key a) None (Some (tm_weighted a)) false.
Section Totals.
  Variable argpartition : list num -> nat -> list nat.
  Variables label_key prediction_key : string.
  Variable s : sched inputs_dict.
  (** 265-278, 321-334, 365-368 *)
  Definition totals_computation (a : totals_metric) : computation (shared_dict -> res shared_dict) :=
    Computation (Combine "_WeightedLabelsPredictionsExamplesCombiner" []) [totals_key a] (fun _ =>
      let o := calibration_options (tm_sub_key a) (match tm_agg a with Some _ => true | None => false end) (tm_weighted a) (tm_class_weights a) in
      let! t := outcome (wlpe_combiner argpartition o label_key prediction_key (tm_model a) (tm_output a)) s in
      Ok [(totals_key a, VTotals t)]).
  (** 78-92, 143-161, 214-233 *)
  Definition quotient_of (a : totals_metric) (v : shared_value) : res shared_value :=
    match v with VTotals t => Ok (VNumber (tm_result a t)) | _ => Err TypeError end.
  Definition quotient_computation (a : totals_metric) : computation (shared_dict -> res shared_dict) :=
    Computation Derive [totals_metric_key a] (derive_from (totals_key a) (quotient_of a) (totals_metric_key a)).
  Definition evaluate_totals (l : list totals_metric) : res shared_dict :=
    run_shared (flat_map (fun a => [totals_computation a; quotient_computation a]) l).
End Totals.

(* ------------------------------------------------------------------ *)
(** * Counts of examples, and the metrics that get no confidence interval *)

(** example_count.py 62-82 [example_count]: the key of a count; there is no parameter for the
    aggregation type, as metrics only get the arguments they take (metric_types.py 870-905) *)
Definition count_key (name : string) (m o : string) (sk : option sub_key) (agg : option agg_type) (w : bool) : metric_key :=
  MetricKey name m o sk None (Some w) false.
(** metric_specs.py 571-612 [_keys_for_metric], [keys_and_metrics_from_specs] for one spec: the
    names of its metrics come with their compute_confidence_interval property; 615-625 keeps
    those where it is False (CI_Model [keys_to_skip]) *)
Definition configured_keys (default : metrics_spec -> bool) (sp : metrics_spec) (metrics : list (string * bool)) : res (list (metric_key * bool)) :=
  let! groups := create_sub_keys sp in
  Ok (flat_map (fun g => flat_map (fun nc => map (fun k => (k, snd nc))
        (keys_for (fst nc) sp (fst g) (snd g) (map Some (example_weight_options (default sp) sp)))) metrics) groups).

(* ------------------------------------------------------------------ *)
(** * Metrics with a top k or class of their own *)

(** confusion_matrix_metrics.py 105-168 [_validate_and_update_sub_key], for settings that are not
    negative (Rates_Model [update_sub_key]) *)
Definition own_sub_key (sk : option sub_key) (top_k : option nat) (class_id : option Z) : res (option sub_key) :=
  match sk, top_k, class_id with
  | None, None, None => Ok None
  | _, _, _ =>
      let s := match sk with Some s => s | None => SubKey None None None end in
      let! s := match top_k with
                | None => Ok s
                | Some t => match sk_top_k s with Some _ => Err ValueError | None => Ok (SubKey (sk_class_id s) (sk_k s) (Some t)) end
                end in
      let! s := match class_id with
                | None => Ok s
                | Some c => match sk_class_id s with Some _ => Err ValueError | None => Ok (SubKey (Some c) (sk_k s) (sk_top_k s)) end
                end in
      Ok (Some s)
  end.
(** 327-340: the keys that a metric of confusion matrices with these settings is reported
    under, macro averages aside *)
Definition reported_keys (default : metrics_spec -> bool) (sp : metrics_spec) (name : string) (top_k : option nat) (class_id : option Z) : res (list metric_key) :=
  let! l := spec_metrics default sp (fun m o sk agg w => (m, o, sk, agg, w)) in
  mapM (fun x => let '(m, o, sk, agg, w) := x in
    let! sk := own_sub_key sk top_k class_id in Ok (MetricKey name m o sk agg (Some w) false)) l.

(** What float() gives for the value of a metric: for a value with an interval the unsampled value
    (api/types.py 412-415 [ValueWithTDistribution.__float__]); texts that are not numbers are
    refused.  The texts of messages are left out. *)
Definition point_as_float (v : CI_Model.mval) : mvalue :=
  match v with
  | CI_Model.Num x => Number x
  | CI_Model.Opaque s => Text s
  | CI_Model.TooFewSamples _ _ | CI_Model.WrongCounts _ _ => Text ""
  end.
Definition as_float (v : CI_Model.ci_value) : mvalue :=
  match v with
  | CI_Model.Plain v => point_as_float v
  | CI_Model.TValue _ _ _ unsampled => Number unsampled
  end.
(** evaluators/metrics_plots_and_validations_evaluator.py 1060-1063: what is reported for a slice
    is validated as it is *)
Definition validate_reported (baseline : option string) (slice : slice_key) (out : list (metric_key * CI_Model.ci_value)) (ths : thresholds) : res vresult :=
  validate_metrics baseline slice (map (fun kv => (fst kv, as_float (snd kv))) out) ths.
