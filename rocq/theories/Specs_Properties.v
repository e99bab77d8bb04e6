(* Specs *)
From Coq Require Import String Ascii Sorting.Sorted.
From Verif Require Import Base BaseFacts Beam BeamFacts Keys_Model Ranking_Model Ranking_Main Keras_Main Classes_Main Aggregation_Model Config_Model Specs_Model.
From Verif Require Import Specs_Main.
Local Open Scope string_scope.
Local Open Scope list_scope.

(* ------------------------------------------------------------------ *)
(** ** C239 names of metrics from names of classes *)
(** A class name of words that end in letters becomes the words in small letters with underscores. *)
Theorem C239_words :
  forall ups lows, Forall2 word ups lows -> Forall ends_in_letter ups ->
    snake_case (string_of_list_ascii (concat ups)) = String.concat "_" (map string_of_list_ascii lows).
Proof. exact C239_words_pf. Qed.

(** The other way round: words in small letters with underscores become the class name. *)
Theorem C239_back :
  forall ups lows, Forall2 word ups lows ->
    camel_case (String.concat "_" (map string_of_list_ascii lows)) = string_of_list_ascii (concat ups).
Proof. exact C239_back_pf. Qed.

(** Whatever the name is, only underscores are added and only capitals changed. *)
Theorem C239_letters_kept :
  forall s, Forall2 same_letter (without_underscores s) (without_underscores (snake_case s)).
Proof. exact C239_letters_kept_pf. Qed.

(** Words that end in a digit are run together: MyTop5Accuracy becomes my_top5accuracy. *)
Theorem C239_digits_refuted :
  exists ups lows, Forall2 word ups lows /\ snake_case (string_of_list_ascii (concat ups)) <> String.concat "_" (map string_of_list_ascii lows).
Proof. exact C239_digits_refuted_pf. Qed.

Example C239_example :
  snake_case "SparseTopKCategoricalAccuracy" = "sparse_top_k_categorical_accuracy" /\ snake_case "AUCPrecisionRecall" = "auc_precision_recall" /\
  snake_case "AUC" = "auc" /\ snake_case "my_Metric" = "my__metric" /\ snake_case "MyTop5Accuracy" = "my_top5accuracy" /\
  camel_case "mean_absolute_error" = "MeanAbsoluteError" /\ camel_case "auc" = "Auc".
Proof. repeat split; reflexivity. Qed.

(* ------------------------------------------------------------------ *)
(** ** C240 the config of a metric *)
(** A metric or loss of Keras whose class TFMA has, too, and whose settings without a counterpart have
    their defaults is written as TFMA's, without those settings. *)
Theorem C240_native :
  forall e m, mt_kind m = KerasMetric \/ mt_kind m = KerasLoss -> mt_registered m = mt_class m ->
    ~ In (mt_class m) ["MeanMetricWrapper"; "MeanSqauredLogarithmicError"] -> In (mt_class m) (map fst (env_registry e)) -> NoDup (map fst (mt_settings m)) ->
    (forall p v, dget String.eqb (mt_settings m) p = Some v -> no_parameter (mt_class m) p -> default_value p v) ->
    exists c, config_from_metric e m = Ok c /\ cf_class c = mt_class m /\ cf_module c = "" /\
      forall p, (no_parameter (mt_class m) p -> dget String.eqb (cf_settings c) p = None) /\
                (~ no_parameter (mt_class m) p -> dget String.eqb (cf_settings c) p = dget String.eqb (mt_settings m) p).
Proof. exact C240_native_pf. Qed.

(** A class TFMA does not have, or another value of such a setting, keeps the metric Keras's, with its
    module and all settings. *)
Theorem C240_kept :
  forall e m, mt_kind m = KerasMetric \/ mt_kind m = KerasLoss -> mt_registered m = mt_class m ->
    ~ In (mt_class m) ["MeanMetricWrapper"; "LossFunctionWrapper"; "MeanSqauredLogarithmicError"] ->
    ~ In (mt_class m) (map fst (env_registry e)) \/
      (exists p v, dget String.eqb (mt_settings m) p = Some v /\ no_parameter (mt_class m) p /\ ~ default_value p v) ->
    config_from_metric e m = Ok (Config (mt_class m) (mt_module m) (mt_settings m)).
Proof. exact C240_kept_pf. Qed.

(** The loss MeanSquaredLogarithmicError is written as TFMA's whatever its reduction is (its name is
    misspelt in the table), and the setting is written, too. *)
Theorem C240_reduction_refuted :
  exists e m c, mt_kind m = KerasLoss /\ mt_registered m = mt_class m /\ In (mt_class m) (map fst (env_registry e)) /\
    dget String.eqb (mt_settings m) "reduction" = Some (JStr "sum") /\
    config_from_metric e m = Ok c /\ cf_module c = "" /\ dget String.eqb (cf_settings c) "reduction" = Some (JStr "sum").
Proof. exact C240_reduction_refuted_pf. Qed.

Example C240_example :
  let auc v := Metric KerasMetric "AUC" "tf_keras.metrics" "AUC" [("name", JStr "auc"); ("multi_label", v); ("curve", JStr "ROC"); ("dtype", JStr "float32")] in
  config_from_metric example_env (auc (JBool false)) = Ok (Config "AUC" "" [("name", JStr "auc"); ("curve", JStr "ROC")]) /\
  config_from_metric example_env (auc (JBool true)) =
    Ok (Config "AUC" "tf_keras.metrics" [("name", JStr "auc"); ("multi_label", JBool true); ("curve", JStr "ROC"); ("dtype", JStr "float32")]) /\
  config_from_metric example_env (Metric KerasLoss "MeanSquaredError" "tf_keras.losses" "MeanSquaredError" [("reduction", JStr "auto"); ("name", JStr "mse")]) =
    Ok (Config "MeanSquaredError" "" [("name", JStr "mse")]) /\
  config_from_metric example_env (Metric OtherKind "dict" "builtins" "dict" []) = Err NotImplementedError.
Proof. repeat split; reflexivity. Qed.

(* ------------------------------------------------------------------ *)
(** ** C241 the metric of a config *)
(** A metric comes back from its config: the class of TFMA that is registered, *)
Theorem C241_back_tfma :
  forall e m, mt_kind m = TfmaMetric -> mt_registered m = mt_class m -> dget String.eqb (env_registry e) (mt_class m) = Some (mt_module m) ->
    exists c, config_from_metric e m = Ok c /\ metric_instance e c = Ok (Instance TfmaMetric (mt_module m) (mt_class m) (mt_settings m)).
Proof. exact C241_back_tfma_pf. Qed.

(** and a metric or loss of Keras of a class TFMA does not have; only a missing name is added. *)
Theorem C241_back_keras :
  forall e m classes, mt_kind m = KerasMetric \/ mt_kind m = KerasLoss -> mt_registered m = mt_class m ->
    ~ In (mt_class m) ["MeanMetricWrapper"; "LossFunctionWrapper"; "MeanSqauredLogarithmicError"] -> ~ In (mt_class m) (map fst (env_registry e)) ->
    mt_module m <> "" -> dget String.eqb (env_modules e) (mt_module m) = Some classes -> dget String.eqb classes (mt_class m) = Some (mt_kind m) ->
    exists c s, config_from_metric e m = Ok c /\ metric_instance e c = Ok (Instance (mt_kind m) (mt_module m) (mt_class m) s) /\
      (forall p, p <> "name" \/ In p (map fst (mt_settings m)) -> dget String.eqb s p = dget String.eqb (mt_settings m) p) /\
      In "name" (map fst s).
Proof. exact C241_back_keras_pf. Qed.

(** A config with a module gives the class of that module if TFMA has no class of that name, *)
Theorem C241_module :
  forall e c classes k, cf_module c <> "" -> ~ In (cf_class c) (map fst (env_registry e)) ->
    dget String.eqb (env_modules e) (cf_module c) = Some classes -> dget String.eqb classes (cf_class c) = Some k -> k <> OtherKind ->
    exists s, metric_instance e c = Ok (Instance k (cf_module c) (cf_class c) s).
Proof. exact C241_module_pf. Qed.

(** but not otherwise: the class AUC of the module my.metrics is never used. *)
Theorem C241_module_refuted :
  exists e c classes, cf_module c = "my.metrics" /\ dget String.eqb (env_modules e) (cf_module c) = Some classes /\
    dget String.eqb classes (cf_class c) = Some KerasMetric /\
    exists i, metric_instance e c = Ok i /\ in_module i = "tfma.metrics" /\ in_kind i = TfmaMetric.
Proof. exact C241_module_refuted_pf. Qed.

(** A metric derived from TFMA's that is not registered does not come back: its module is lost. *)
Theorem C241_custom_refuted :
  exists e m c classes, mt_kind m = TfmaMetric /\ dget String.eqb (env_modules e) (mt_module m) = Some classes /\
    dget String.eqb classes (mt_class m) = Some TfmaMetric /\ config_from_metric e m = Ok c /\ metric_instance e c = Err ValueError.
Proof. exact C241_custom_refuted_pf. Qed.

(** Neither does a wrapped function: the class it is renamed to is looked for in the module of the
    wrapper. *)
Theorem C241_wrapped_refuted :
  exists e m c, mt_kind m = KerasMetric /\ mt_class m = "MeanMetricWrapper" /\ dget String.eqb (mt_settings m) "name" = Some (JStr "categorical_accuracy") /\
    dget String.eqb (env_keras e) "CategoricalAccuracy" = Some (KerasMetric, "tf_keras.metrics") /\
    config_from_metric e m = Ok c /\ cf_class c = "CategoricalAccuracy" /\ metric_instance e c = Err AttributeError.
Proof. exact C241_wrapped_refuted_pf. Qed.

Example C241_example :
  metric_instance example_env (Config "AUC" "" [("curve", JStr "PR")]) = Ok (Instance TfmaMetric "tfma.metrics" "AUC" [("curve", JStr "PR")]) /\
  metric_instance example_env (Config "Accuracy" "" []) = Ok (Instance KerasMetric "tf_keras.metrics" "Accuracy" [("name", JStr "accuracy")]) /\
  metric_instance example_env (Config "Huber" "tf_keras.losses" [("delta", JNum 1%Qc)]) =
    Ok (Instance KerasLoss "tf_keras.losses" "Huber" [("delta", JNum 1%Qc); ("name", JStr "huber")]) /\
  metric_instance example_env (Config "Custom" "my.metrics" []) = Ok (Instance TfmaMetric "my.metrics" "Custom" []) /\
  metric_instance example_env (Config "Helper" "my.metrics" []) = Err NotImplementedError /\
  metric_instance example_env (Config "Missing" "my.metrics" []) = Err AttributeError.
Proof. repeat split; reflexivity. Qed.

(* ------------------------------------------------------------------ *)
(** ** C242 specs from lists of metrics *)
(** The specs of two lists: the example count (of no output and not weighted) and the weighted example
    count unless switched off, the metrics, and the unweighted metrics. *)
Theorem C242_lists :
  forall e ms us cs ds outputs o count weighted, configs_of e ms cs -> configs_of e us ds ->
    exists l, specs_from_metrics e (Some (MetricList ms)) (Some (MetricList us)) outputs o count weighted = Ok l /\
      (forall s, In s l <-> listed_spec cs ds outputs o count weighted s) /\
      length l = (length (one_if count tt) + length (one_if weighted tt) + Nat.min 1 (length ms) + Nat.min 1 (length us))%nat.
Proof. exact C242_lists_pf. Qed.

(** Their order: the counts, the metrics, the unweighted metrics. *)
Theorem C242_order :
  forall e ms us cs ds outputs o count weighted, configs_of e ms cs -> configs_of e us ds ->
    specs_from_metrics e (Some (MetricList ms)) (Some (MetricList us)) outputs o count weighted =
    Ok (one_if count (Spec [Config "ExampleCount" "" [("name", JStr "example_count")]] (so_models o) [] [] None None (Some (false, true)) "") ++
        one_if weighted (Spec [Config "WeightedExampleCount" "" [("name", JStr "weighted_example_count")]] (so_models o) outputs (so_output_weights o) None None (Some (true, false)) "") ++
        firstn (length cs) [Spec cs (so_models o) outputs (so_output_weights o) (so_binarize o) (so_aggregate o) None (so_query_key o)] ++
        firstn (length ds) [Spec ds (so_models o) outputs (so_output_weights o) (so_binarize o) (so_aggregate o) (Some (false, true)) (so_query_key o)]).
Proof. exact C242_order_pf. Qed.

(** An argument left out is an empty list. *)
Theorem C242_none :
  forall e ms us outputs o count weighted,
    specs_from_metrics e (Some (MetricList ms)) None outputs o count weighted = specs_from_metrics e (Some (MetricList ms)) (Some (MetricList [])) outputs o count weighted /\
    specs_from_metrics e None (Some (MetricList us)) outputs o count weighted = specs_from_metrics e (Some (MetricList [])) (Some (MetricList us)) outputs o count weighted.
Proof. exact C242_none_pf. Qed.

(** An object that is no metric is refused. *)
Theorem C242_no_metric :
  forall e ms us outputs o count weighted m, In m (ms ++ us) -> mt_kind m = OtherKind ->
    is_ok (specs_from_metrics e (Some (MetricList ms)) (Some (MetricList us)) outputs o count weighted) = false.
Proof. exact C242_no_metric_pf. Qed.

Example C242_example :
  let auc := Metric TfmaMetric "AUC" "tfma.metrics" "AUC" [("name", JStr "auc")] in
  let o := SpecOptions ["candidate"] [] None None "query" in
  specs_from_metrics example_env (Some (MetricList [auc])) None ["head"] o (Some false) None =
    Ok [Spec [weighted_example_count_config] ["candidate"] ["head"] [] None None (Some (true, false)) "";
        Spec [Config "AUC" "" [("name", JStr "auc")]] ["candidate"] ["head"] [] None None None "query"] /\
  specs_from_metrics example_env None (Some (MetricList [auc])) [] o None (Some false) =
    Ok [Spec [example_count_config] ["candidate"] [] [] None None (Some (false, true)) "";
        Spec [Config "AUC" "" [("name", JStr "auc")]] ["candidate"] [] [] None None (Some (false, true)) "query"].
Proof. split; reflexivity. Qed.

(* ------------------------------------------------------------------ *)
(** ** C243 specs from metrics by output *)
(** The specs of metrics by output: those of every output, for that output, with the output's own
    metrics, in the order of the outputs' names, and one example count. *)
Theorem C243_outputs :
  forall e dm du o count weighted,
    (forall n, In n (map fst dm ++ map fst du) -> exists cs ds, output_configs e dm n cs /\ output_configs e du n ds) ->
    exists l, specs_from_metrics e (Some (MetricDict dm)) (Some (MetricDict du)) [] o count weighted = Ok l /\
      (forall s, In s l <-> (wanted count /\ map fst dm ++ map fst du <> [] /\ s = count_spec o) \/
         exists n cs ds, In n (map fst dm ++ map fst du) /\ output_configs e dm n cs /\ output_configs e du n ds /\
           listed_spec cs ds [n] (of_one_output o) (Some false) weighted s) /\
      (length (filter no_outputs l) <= 1)%nat /\ StronglySorted (fun a b => String.leb a b = true) (flat_map sp_outputs l).
Proof. exact C243_outputs_pf. Qed.

(** The query key and the weights of the outputs do not reach the specs of metrics by output. *)
Theorem C243_options_refuted :
  exists e d o l, so_query_key o = "query" /\ so_output_weights o <> [] /\
    specs_from_metrics e (Some (MetricDict d)) None [] o None None = Ok l /\ (exists s, In s l /\ sp_metrics s = [Config "AUC" "" []]) /\
    forall s, In s l -> sp_query_key s = "" /\ sp_output_weights s = [].
Proof. exact C243_options_refuted_pf. Qed.

Example C243_example :
  let auc := Metric TfmaMetric "AUC" "tfma.metrics" "AUC" [] in let mse := Metric TfmaMetric "MeanSquaredError" "tfma.metrics" "MeanSquaredError" [] in
  specs_from_metrics example_env (Some (MetricDict [("b", [auc]); ("a", [])])) (Some (MetricDict [("c", [mse])])) [] (SpecOptions ["m"] [] None None "") None (Some false) =
    Ok [Spec [example_count_config] ["m"] [] [] None None (Some (false, true)) "";
        Spec [Config "AUC" "" []] ["m"] ["b"] [] None None None ""; Spec [Config "MeanSquaredError" "" []] ["m"] ["c"] [] None None (Some (false, true)) ""].
Proof. reflexivity. Qed.

(* ------------------------------------------------------------------ *)
(** ** C244 combinations of arguments *)
Theorem C244_refused :
  forall e metrics unweighted outputs o count weighted, ill_combined metrics unweighted outputs ->
    specs_from_metrics e metrics unweighted outputs o count weighted = Err ValueError.
Proof. exact C244_refused_pf. Qed.

Theorem C244_accepted :
  forall e metrics unweighted outputs o count weighted, ~ ill_combined metrics unweighted outputs ->
    (forall m, In m (all_metrics metrics ++ all_metrics unweighted) -> is_ok (config_from_metric e m) = true) ->
    is_ok (specs_from_metrics e metrics unweighted outputs o count weighted) = true.
Proof. exact C244_accepted_pf. Qed.

(** Output names together with unweighted metrics by output are not refused but ignored. *)
Theorem C244_names_refuted :
  exists e d o l, specs_from_metrics e None (Some (MetricDict d)) ["x"] o None None = Ok l /\ forall s, In s l -> ~ In "x" (sp_outputs s).
Proof. exact C244_names_refuted_pf. Qed.

Example C244_example :
  let auc := Metric TfmaMetric "AUC" "tfma.metrics" "AUC" [] in let o := SpecOptions [] [] None None "" in
  specs_from_metrics example_env (Some (MetricDict [])) None ["a"] o None None = Err ValueError /\
  specs_from_metrics example_env (Some (MetricDict [("a", [auc])])) (Some (MetricList [auc])) [] o None None = Err ValueError /\
  specs_from_metrics example_env (Some (MetricList [])) (Some (MetricDict [("a", [auc])])) [] o (Some false) (Some false) =
    Ok [Spec [Config "AUC" "" []] [] ["a"] [] None None (Some (false, true)) ""].
Proof. repeat split; reflexivity. Qed.

(* ------------------------------------------------------------------ *)
(** ** C245 default specs *)
(** Regression: accuracy, the two means, calibration, the losses (the mean squared error if none are
    given) and, if both bounds are given, the calibration plot between them. *)
Theorem C245_regression :
  forall e models outputs weights losses lo hi cs,
    match losses with None => map view cs = [named "MeanSquaredError" "mse"] | Some ls => configs_of e ls cs end ->
    exists l s, default_regression_specs e models outputs weights losses lo hi = Ok l /\ In s l /\
      (forall s', In s' l -> s' = s \/ map cf_class (sp_metrics s') = ["ExampleCount"] \/ map cf_class (sp_metrics s') = ["WeightedExampleCount"]) /\
      sp_models s = models /\ sp_outputs s = outputs /\ sp_output_weights s = weights /\ sp_binarize s = None /\ sp_aggregate s = None /\ sp_example_weights s = None /\
      map view (sp_metrics s) = [named "Accuracy" "accuracy"; named "MeanLabel" "mean_label"; named "MeanPrediction" "mean_prediction"; named "Calibration" "calibration"] ++
        map view cs ++
        match lo, hi with Some a, Some b => [("CalibrationPlot", [("name", JStr "calibration_plot"); ("left", JNum a); ("right", JNum b)])] | _, _ => [] end.
Proof. exact C245_regression_pf. Qed.

(** Binary classification: the usual metrics and plots and, unless left out, the loss, binarized and
    aggregated as given. *)
Theorem C245_binary :
  forall e models outputs weights bin agg loss, exists l s,
    default_binary_classification_specs e models outputs weights bin agg loss = Ok l /\ In s l /\
    (forall s', In s' l -> s' = s \/ map cf_class (sp_metrics s') = ["ExampleCount"] \/ map cf_class (sp_metrics s') = ["WeightedExampleCount"]) /\
    sp_models s = models /\ sp_outputs s = outputs /\ sp_output_weights s = weights /\ sp_binarize s = bin /\ sp_aggregate s = agg /\ sp_example_weights s = None /\
    map view (sp_metrics s) = binary_views loss.
Proof. exact C245_binary_pf. Qed.

(** Several classes: loss, accuracy and confusion matrix of all classes with precision and recall for
    every top k, neither binarized nor aggregated; and the metrics of binary classification binarized by
    the classes and ks given but not by top k, and aggregated as given, or else the micro average. *)
Theorem C245_multi_class :
  forall e models outputs weights bin agg sparse, exists l all each,
    default_multi_class_classification_specs e models outputs weights bin agg sparse = Ok l /\ In all l /\ In each l /\
    (forall s, In s l -> s = all \/ s = each \/ map cf_class (sp_metrics s) = ["ExampleCount"] \/ map cf_class (sp_metrics s) = ["WeightedExampleCount"]) /\
    (forall s, s = all \/ s = each -> sp_models s = models /\ sp_outputs s = outputs /\ sp_output_weights s = weights /\ sp_example_weights s = None) /\
    sp_binarize all = None /\ sp_aggregate all = None /\
    map view (sp_metrics all) =
      (if sparse then [named "SparseCategoricalCrossentropy" "loss"; named "SparseCategoricalAccuracy" "accuracy"]
       else [named "CategoricalCrossentropy" "loss"; named "CategoricalAccuracy" "accuracy"]) ++
      [named "MultiClassConfusionMatrixPlot" "multi_class_confusion_matrix_plot"] ++
      match bin with Some b => concat (map top_k_views (b_top_k b)) | None => [] end /\
    map view (sp_metrics each) = binary_views true /\
    match bin, sp_binarize each with
    | Some b, Some b' => b_class_ids b' = b_class_ids b /\ b_k b' = b_k b /\ b_top_k b' = []
    | None, None => True
    | _, _ => False
    end /\
    match agg with Some a => sp_aggregate each = Some a | None => exists a, sp_aggregate each = Some a /\ a_type a = Some (Micro, true) /\ a_class_weights a = [] /\ a_top_k a = None end.
Proof. exact C245_multi_class_pf. Qed.

(** The default specs of several classes ask for the example counts twice. *)
Theorem C245_counts_refuted :
  exists e s a b c, default_multi_class_classification_specs e [] [] [] None None true = Ok (a ++ s :: b ++ s :: c) /\ map cf_class (sp_metrics s) = ["ExampleCount"].
Proof. exact C245_counts_refuted_pf. Qed.

Example C245_example :
  exists s1 s2 s3 s4, default_multi_class_classification_specs example_env ["m"] [] [] (Some (Binarize [0%Z; 1%Z] [] [2%Z])) None false = Ok [s1; s2; s3; s1; s2; s4] /\
    map view (sp_metrics s3) = [named "CategoricalCrossentropy" "loss"; named "CategoricalAccuracy" "accuracy"; named "MultiClassConfusionMatrixPlot" "multi_class_confusion_matrix_plot";
      ("Precision", [("name", JStr "precision"); ("top_k", JNum (qz 2))]); ("Recall", [("name", JStr "recall"); ("top_k", JNum (qz 2))])] /\
    sp_binarize s4 = Some (Binarize [0%Z; 1%Z] [] []) /\ sp_models s4 = ["m"].
Proof. do 4 eexists. split; [reflexivity|]. repeat split; reflexivity. Qed.

(* ------------------------------------------------------------------ *)
(** ** C246 weights of examples by default *)
(** The metrics of a spec are weighted by default exactly if one of its models has a key of weights or
    one for an output of the spec. *)
Theorem C246_default :
  forall c s, NoDup (map m_name (e_models c)) ->
    (example_weighted_default c s = true <-> exists m, model_of_spec c s m /\ has_weights s m).
Proof. exact C246_default_pf. Qed.

(** The options of a spec: weighted, unweighted or both if set, else the default. *)
Theorem C246_options :
  forall c s, (forall w u, sp_example_weights s = Some (w, u) ->
      (In true (weight_options c s) <-> w = true) /\ (In false (weight_options c s) <-> u = true) /\ NoDup (weight_options c s)) /\
    (sp_example_weights s = None -> weight_options c s = [example_weighted_default c s]).
Proof. exact C246_options_pf. Qed.

(** A model with weights by output does not weight the metrics of a spec that names no outputs. *)
Theorem C246_outputs_refuted :
  exists c s m, e_models c = [m] /\ m_weight_keys m = [("head", "weight")] /\ sp_models s = [] /\ sp_outputs s = [] /\ sp_example_weights s = None /\
    weight_options c s = [false].
Proof. exact C246_outputs_refuted_pf. Qed.

Example C246_example :
  let c := EvalConfig [ModelSpec "a" "" [] "" [] "" [] false ""; ModelSpec "b" "" [] "" [] "" [("head", "weight")] true ""] [] false UnknownMethod "" in
  let s models outputs ew := Spec [example_count_config] models outputs [] None None ew "" in
  weight_options c (s [] ["head"] None) = [true] /\ weight_options c (s ["a"] ["head"] None) = [false] /\ weight_options c (s ["a"; "b"] ["tail"; "head"] None) = [true] /\
  weight_options c (s ["a"] [] (Some (true, true))) = [true; false] /\ weight_options c (s [] [] (Some (false, false))) = [].
Proof. repeat split; reflexivity. Qed.

Print Assumptions C239_words.
Print Assumptions C239_back.
Print Assumptions C239_letters_kept.
Print Assumptions C239_digits_refuted.
Print Assumptions C240_native.
Print Assumptions C240_kept.
Print Assumptions C240_reduction_refuted.
Print Assumptions C241_back_tfma.
Print Assumptions C241_back_keras.
Print Assumptions C241_module.
Print Assumptions C241_module_refuted.
Print Assumptions C241_custom_refuted.
Print Assumptions C241_wrapped_refuted.
Print Assumptions C242_lists.
Print Assumptions C242_order.
Print Assumptions C242_none.
Print Assumptions C242_no_metric.
Print Assumptions C243_outputs.
Print Assumptions C243_options_refuted.
Print Assumptions C244_refused.
Print Assumptions C244_accepted.
Print Assumptions C244_names_refuted.
Print Assumptions C245_regression.
Print Assumptions C245_binary.
Print Assumptions C245_multi_class.
Print Assumptions C245_counts_refuted.
Print Assumptions C246_default.
Print Assumptions C246_options.
Print Assumptions C246_outputs_refuted.
