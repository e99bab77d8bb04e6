(* Model of metrics/metric_specs.py 71-568, 1209-1390 (the config of a metric and the metric of a
   config, specs from lists of metrics, the default specs, weights of examples by default) and of
   metrics/metric_util.py 135-215 (serialization). *)
From Coq Require Import String Ascii.
From Verif Require Import Base Beam Keys_Model Ranking_Model Aggregation_Model Config_Model.
Local Open Scope string_scope.
Local Open Scope list_scope.

(* ------------------------------------------------------------------ *)
(** * Names: metric_util.py 213-214, metric_specs.py 1261-1267 *)

Definition in_range (a b : nat) (c : ascii) : bool := Nat.leb a (nat_of_ascii c) && Nat.leb (nat_of_ascii c) b.
Definition is_upper : ascii -> bool := in_range 65 90.
Definition is_lower : ascii -> bool := in_range 97 122.
Definition is_digit : ascii -> bool := in_range 48 57.
Definition lower_or_digit (c : ascii) : bool := is_lower c || is_digit c.
(** str.lower and str.upper of one character.  Simplification: names are ASCII text. *)
Definition to_lower (c : ascii) : ascii := if is_upper c then ascii_of_nat (nat_of_ascii c + 32) else c.
Definition to_upper (c : ascii) : ascii := if is_lower c then ascii_of_nat (nat_of_ascii c - 32) else c.

(** 1265: re.sub("(.)([A-Z][a-z0-9]+)", r"\1_\2", s).  [copying]: inside the last group of a
    match; the search goes on where the match ended. *)
Fixpoint sub_words (copying : bool) (s : list ascii) : list ascii :=
  match s with
  | [] => []
  | c :: r =>
      if copying && lower_or_digit c then c :: sub_words true r
      else match r with
           | c2 :: ((c3 :: _) as r3) =>
               if negb (Ascii.eqb c "010") && is_upper c2 && lower_or_digit c3
               then c :: "_"%char :: c2 :: sub_words true r3
               else c :: sub_words false r
           | _ => c :: sub_words false r
           end
  end.
(** 1266: re.sub("([a-z])([A-Z])", r"\1_\2", s) *)
Fixpoint sub_humps (s : list ascii) : list ascii :=
  match s with
  | c :: ((c2 :: r2) as r) => if is_lower c && is_upper c2 then c :: "_"%char :: c2 :: sub_humps r2 else c :: sub_humps r
  | _ => s
  end.
Definition snake_case (s : string) : string :=
  string_of_list_ascii (map to_lower (sub_humps (sub_words false (list_ascii_of_string s)))).

(** metric_util.py 213-214 [_camel_case]: "".join(s.capitalize() for s in txt.split("_")) *)
Definition capitalize (s : list ascii) : list ascii :=
  match s with [] => [] | c :: r => to_upper c :: map to_lower r end.
Fixpoint split_underscore (s : list ascii) : list (list ascii) :=
  match s with
  | [] => [[]]
  | c :: r =>
      if Ascii.eqb c "_" then [] :: split_underscore r
      else match split_underscore r with
           | [] => [[c]]
           | w :: ws => (c :: w) :: ws
           end
  end.
Definition camel_case (s : string) : string :=
  string_of_list_ascii (concat (map capitalize (split_underscore (list_ascii_of_string s)))).

(* ------------------------------------------------------------------ *)
(** * Metrics and their configs *)

(** A value in the config of a metric.  [JOther] stands for lists and dictionaries. *)
Inductive json := JNull | JBool (b : bool) | JNum (q : Qc) | JStr (s : string) | JOther (text : string).
Definition settings := list (string * json).
(** == of Python: False == 0 and True == 1. *)
Definition json_eqb (a b : json) : bool :=
  match a, b with
  | JNull, JNull => true
  | JBool x, JBool y => Bool.eqb x y
  | JBool x, JNum q | JNum q, JBool x => Qc_eqb q (if x then 1%Qc else 0%Qc)
  | JNum x, JNum y => Qc_eqb x y
  | JStr s, JStr t => String.eqb s t
  | JOther s, JOther t => String.eqb s t
  | _, _ => false
  end.

Inductive kind := KerasMetric | KerasLoss | TfmaMetric | OtherKind.
(** An object: what it is an instance of, its class, the module of the class, the name Keras
    registered the class under (the name of the class unless it was registered), and get_config(). *)
Record metric := Metric {
  mt_kind : kind; mt_class : string; mt_module : string; mt_registered : string; mt_settings : settings
}.
(** MetricConfig: class_name, module and config (config.proto 454-478).  The JSON text of the config
    is identified with the settings it stands for; json.dumps and json.loads are inverse. *)
Record config := Config { cf_class : string; cf_module : string; cf_settings : settings }.

(** 71-88 [_UNSUPPORTED_TF_SETTINGS], with the class names as they are spelt there; tf.float32 is
    not a JSON value and is omitted. *)
Definition unsupported_settings : list (string * list (string * list json)) :=
  [("", [("dtype", [JNull; JStr "float32"])]);
   ("AUC", [("multi_label", [JBool false]); ("num_labels", [JNull]); ("label_weights", [JNull]); ("from_logits", [JBool false])]);
   ("MeanAbsoluteError", [("reduction", [JStr "auto"])]);
   ("MeanSquaredError", [("reduction", [JStr "auto"])]);
   ("MeanAbsolutePercentageError", [("reduction", [JStr "auto"])]);
   ("MeanSqauredLogarithmicError", [("reduction", [JStr "auto"])]);
   ("BinaryCrossEntropy", [("reduction", [JStr "auto"])]);
   ("CategoricalCrossEntropy", [("reduction", [JStr "auto"])])].
(** The settings checked for a class: 1214-1216, 1239-1241 *)
Definition checked_settings (class_name : string) : list (string * list json) :=
  flat_map (fun cs => if String.eqb (fst cs) "" || String.eqb (fst cs) class_name then snd cs else []) unsupported_settings.

(** What the interpreter knows.  [env_registry]: the classes of TFMA's register_metric
    (metric_types.py 924-936) with their modules; [env_keras]: the classes tf_keras.metrics.deserialize
    finds by name; [env_modules]: the classes of the modules that can be imported. *)
Record env := Env {
  env_registry : list (string * string);
  env_keras : list (string * (kind * string));
  env_modules : list (string * list (string * kind))
}.

(** 1209-1219 [_is_supported_tf_metric] *)
Definition is_supported (e : env) (m : metric) : bool :=
  dmem String.eqb (env_registry e) (mt_class m) &&
  forallb (fun pv => match dget String.eqb (mt_settings m) (fst pv) with
                     | Some v => existsb (json_eqb v) (snd pv)
                     | None => true
                     end) (checked_settings (mt_class m)).

(** metric_util.py 135-176 [serialize_metric], [serialize_loss]: class_name and config;
    [wrapper] is MeanMetricWrapper or LossFunctionWrapper.  A name that is not text has no split. *)
Definition serialize (wrapper : string) (m : metric) : res (string * settings) :=
  if String.eqb (mt_registered m) wrapper then
    match dget String.eqb (mt_settings m) "name" with
    | Some (JStr n) => Ok (camel_case n, mt_settings m)
    | Some _ => Err AttributeError
    | None => Ok (mt_registered m, mt_settings m)
    end
  else Ok (mt_registered m, mt_settings m).
(** 1285-1301 [_serialize_tf_metric] *)
Definition serialize_tf_metric (m : metric) : res config :=
  let! cs := serialize "MeanMetricWrapper" m in
  Ok (Config (fst cs) (if String.eqb (mt_registered m) (mt_class m) then mt_module m else "") (snd cs)).
(** 1329-1336 [_serialize_tf_loss] *)
Definition serialize_tf_loss (m : metric) : res config :=
  let! cs := serialize "LossFunctionWrapper" m in Ok (Config (fst cs) (mt_module m) (snd cs)).
(** 1360-1365 [_serialize_tfma_metric] *)
Definition serialize_tfma (m : metric) : config := Config (mt_registered m) "" (mt_settings m).
(** 1222-1247 [_remove_unsupported_tf_settings] *)
Definition remove_unsupported (c : config) : config :=
  Config (cf_class c) "" (fold_left (fun s pv => ddel String.eqb s (fst pv)) (checked_settings (cf_class c)) (cf_settings c)).
(** 91-110 [config_from_metric] *)
Definition config_from_metric (e : env) (m : metric) : res config :=
  match mt_kind m with
  | KerasMetric => let! c := serialize_tf_metric m in Ok (if is_supported e m then remove_unsupported c else c)
  | KerasLoss => if is_supported e m then let! c := serialize_tf_metric m in Ok (remove_unsupported c) else serialize_tf_loss m
  | TfmaMetric => Ok (serialize_tfma m)
  | OtherKind => Err NotImplementedError
  end.

(** 1261-1267 [_maybe_add_name_to_config] *)
Definition add_name (class_name : string) (s : settings) : settings :=
  if dmem String.eqb s "name" then s else dset String.eqb s "name" (JStr (snake_case class_name)).
(** An instance: its kind, module, class and the settings its from_config is called with. *)
Record instance := Instance { in_kind : kind; in_module : string; in_class : string; in_settings : settings }.
(** 536-568 [metric_instance], 1304-1313, 1339-1348, 1368-1379.  Simplification: a module that cannot
    be imported fails like a missing class; Keras does not know the name: ValueError. *)
Definition metric_instance (e : env) (c : config) : res instance :=
  match dget String.eqb (env_registry e) (cf_class c) with
  | Some module => Ok (Instance TfmaMetric module (cf_class c) (cf_settings c))
  | None =>
      if String.eqb (cf_module c) "" then
        match dget String.eqb (env_keras e) (cf_class c) with
        | Some (k, module) => Ok (Instance k module (cf_class c) (add_name (cf_class c) (cf_settings c)))
        | None => Err ValueError
        end
      else match dget String.eqb (match dget String.eqb (env_modules e) (cf_module c) with Some l => l | None => [] end) (cf_class c) with
           | None => Err AttributeError
           | Some KerasMetric => Ok (Instance KerasMetric (cf_module c) (cf_class c) (add_name (cf_class c) (cf_settings c)))
           | Some KerasLoss => Ok (Instance KerasLoss (cf_module c) (cf_class c) (add_name (cf_class c) (cf_settings c)))
           | Some TfmaMetric => Ok (Instance TfmaMetric (cf_module c) (cf_class c) (cf_settings c))
           | Some OtherKind => Err NotImplementedError
           end
  end.

(* ------------------------------------------------------------------ *)
(** * Specs: metric_specs.py 164-533 *)

(** MetricsSpec without thresholds; example_weights as (weighted, unweighted).  An unset list or text
    is empty. *)
Record spec := Spec {
  sp_metrics : list config; sp_models : list string; sp_outputs : list string;
  sp_output_weights : list (string * Qc);
  sp_binarize : option binarize; sp_aggregate : option aggregate;
  sp_example_weights : option (bool * bool); sp_query_key : string
}.
(** A list of metrics, or lists by output. *)
Inductive metrics_arg := MetricList (l : list metric) | MetricDict (d : list (string * list metric)).
Definition given {A} (l : option (list A)) : list A := match l with Some x => x | None => [] end.
Definition is_dict (a : option metrics_arg) : bool := match a with Some (MetricDict _) => true | _ => false end.
Definition truthy_arg (a : option metrics_arg) : bool :=
  match a with None | Some (MetricList []) | Some (MetricDict []) => false | _ => true end.
Definition by_output (a : option metrics_arg) : list (string * list metric) := match a with Some (MetricDict d) => d | _ => [] end.
Definition as_list (a : option metrics_arg) : list metric := match a with Some (MetricList l) => l | _ => [] end.

(** ExampleCount() and WeightedExampleCount() *)
Definition example_count_config : config := Config "ExampleCount" "" [("name", JStr "example_count")].
Definition weighted_example_count_config : config := Config "WeightedExampleCount" "" [("name", JStr "weighted_example_count")].
(** 321-366 [example_count_specs] *)
Definition example_count_specs (models outputs : list string) (weights : list (string * Qc)) (count weighted : bool) : list spec :=
  (if count then [Spec [example_count_config] models [] [] None None (Some (false, true)) ""] else []) ++
  (if weighted then [Spec [weighted_example_count_config] models outputs weights None None (Some (true, false)) ""] else []).

(** Options shared by the specs of one call. *)
Record spec_options := SpecOptions {
  so_models : list string; so_output_weights : list (string * Qc);
  so_binarize : option binarize; so_aggregate : option aggregate; so_query_key : string
}.
Definition is_none {A} (o : option A) : bool := match o with None => true | Some _ => false end.

(** 276-318, for lists *)
Definition specs_of_lists (e : env) (metrics unweighted : list metric) (outputs : list string) (o : spec_options)
    (count weighted_count : option bool) : res (list spec) :=
  let default b := match b with Some x => x | None => true end in
  let counts := example_count_specs (so_models o) outputs (so_output_weights o) (default count) (default weighted_count) in
  let one ms ew :=
    match ms with
    | [] => Ok []
    | _ => let! cs := mapM (config_from_metric e) ms in
           Ok [Spec cs (so_models o) outputs (so_output_weights o) (so_binarize o) (so_aggregate o) ew (so_query_key o)]
    end in
  let! a := one metrics None in
  let! b := one unweighted (Some (false, true)) in
  Ok (counts ++ a ++ b).

(** 258-274: the outputs in order; the recursive calls leave out output_weights and query_key, and
    only the first one may add the example count. *)
Fixpoint specs_of_outputs (e : env) (metrics unweighted : list (string * list metric)) (names : list string) (o : spec_options)
    (count weighted_count : option bool) : res (list spec) :=
  match names with
  | [] => Ok []
  | n :: t =>
      let inner := SpecOptions (so_models o) [] (so_binarize o) (so_aggregate o) "" in
      let! a := specs_of_lists e (given (dget String.eqb metrics n)) (given (dget String.eqb unweighted n)) [n] inner count weighted_count in
      let! b := specs_of_outputs e metrics unweighted t o (Some false) weighted_count in
      Ok (a ++ b)
  end.

(** 164-318 [specs_from_metrics] *)
Definition specs_from_metrics (e : env) (metrics unweighted : option metrics_arg) (outputs : list string) (o : spec_options)
    (count weighted_count : option bool) : res (list spec) :=
  if is_dict metrics && set_map outputs then Err ValueError
  else if truthy_arg metrics && truthy_arg unweighted && negb (Bool.eqb (is_dict metrics) (is_dict unweighted)) then Err ValueError
  else if is_dict metrics || is_dict unweighted then
    specs_of_outputs e (by_output metrics) (by_output unweighted)
      (py_sorted String.leb (dedup String.eqb (dkeys (by_output metrics) ++ dkeys (by_output unweighted)))) o count weighted_count
  else specs_of_lists e (as_list metrics) (as_list unweighted) outputs o count weighted_count.

(** The metrics of the default specs.  Simplification: only the settings given there and the name. *)
Definition tfma (class name : string) (s : settings) : metric :=
  Metric TfmaMetric class "tfma.metrics" class (("name", JStr name) :: s).
Definition keras (class name : string) : metric :=
  Metric KerasMetric class "tf_keras.metrics" class [("name", JStr name); ("dtype", JStr "float32")].

(** 369-415 [default_regression_specs] *)
Definition default_regression_specs (e : env) (models outputs : list string) (weights : list (string * Qc))
    (losses : option (list metric)) (min_value max_value : option Qc) : res (list spec) :=
  let losses := match losses with Some l => l | None => [keras "MeanSquaredError" "mse"] end in
  let metrics := [keras "Accuracy" "accuracy"; tfma "MeanLabel" "mean_label" []; tfma "MeanPrediction" "mean_prediction" [];
                  tfma "Calibration" "calibration" []] ++ losses ++
                 match min_value, max_value with
                 | Some a, Some b => [tfma "CalibrationPlot" "calibration_plot" [("left", JNum a); ("right", JNum b)]]
                 | _, _ => []
                 end in
  specs_from_metrics e (Some (MetricList metrics)) None outputs (SpecOptions models weights None None "") None None.

(** 418-468 [default_binary_classification_specs]; DEFAULT_NUM_THRESHOLDS is 10000
    (binary_confusion_matrices.py 42, calibration_histogram.py 27) *)
Definition binary_metrics (include_loss : bool) : list metric :=
  [tfma "BinaryAccuracy" "binary_accuracy" [];
   tfma "AUC" "auc" [("num_thresholds", JNum (qz 10000))];
   tfma "AUC" "auc_precison_recall" [("curve", JStr "PR"); ("num_thresholds", JNum (qz 10000))];
   tfma "Precision" "precision" []; tfma "Recall" "recall" [];
   tfma "MeanLabel" "mean_label" []; tfma "MeanPrediction" "mean_prediction" []; tfma "Calibration" "calibration" [];
   tfma "ConfusionMatrixPlot" "confusion_matrix_plot" []; tfma "CalibrationPlot" "calibration_plot" []] ++
  (if include_loss then [keras "BinaryCrossentropy" "loss"] else []).
Definition default_binary_classification_specs (e : env) (models outputs : list string) (weights : list (string * Qc))
    (bin : option binarize) (agg : option aggregate) (include_loss : bool) : res (list spec) :=
  specs_from_metrics e (Some (MetricList (binary_metrics include_loss))) None outputs (SpecOptions models weights bin agg "") None None.

(** 471-533 [default_multi_class_classification_specs] *)
Definition top_k_metrics (k : Z) : list metric :=
  [tfma "Precision" "precision" [("top_k", JNum (qz k))]; tfma "Recall" "recall" [("top_k", JNum (qz k))]].
Definition default_multi_class_classification_specs (e : env) (models outputs : list string) (weights : list (string * Qc))
    (bin : option binarize) (agg : option aggregate) (sparse : bool) : res (list spec) :=
  let metrics := (if sparse then [keras "SparseCategoricalCrossentropy" "loss"; keras "SparseCategoricalAccuracy" "accuracy"]
                  else [keras "CategoricalCrossentropy" "loss"; keras "CategoricalAccuracy" "accuracy"]) ++
                 [tfma "MultiClassConfusionMatrixPlot" "multi_class_confusion_matrix_plot" []] ++
                 match bin with Some b => flat_map top_k_metrics (b_top_k b) | None => [] end in
  let bin := match bin with Some b => Some (Binarize (b_class_ids b) (b_k b) []) | None => None end in
  let agg := match agg with Some a => a | None => Aggregate (Some (Micro, true)) [] None end in
  let! a := specs_from_metrics e (Some (MetricList metrics)) None outputs (SpecOptions models weights None None "") None None in
  let! b := default_binary_classification_specs e models outputs weights bin (Some agg) true in
  Ok (a ++ b).

(* ------------------------------------------------------------------ *)
(** * Weights of examples: 113-161 *)

(** 128-135 [has_example_weight_key] *)
Definition has_example_weight_key (outputs : list string) (m : model_spec) : bool :=
  set_str (m_weight_key m) || existsb (fun o => dmem String.eqb (m_weight_keys m) o) outputs.
(** 113-146 [_example_weighted_default] *)
Definition example_weighted_default (c : eval_config) (s : spec) : bool :=
  match sp_models s with
  | [] => existsb (has_example_weight_key (sp_outputs s)) (e_models c)
  | names => existsb (fun n => match get_model_spec c n with
                               | Some m => has_example_weight_key (sp_outputs s) m
                               | None => false
                               end) names
  end.
(** 149-161 [_example_weight_options] *)
Definition weight_options (c : eval_config) (s : spec) : list bool :=
  match sp_example_weights s with
  | None => [example_weighted_default c s]
  | Some (w, u) => (if w then [true] else []) ++ (if u then [false] else [])
  end.

