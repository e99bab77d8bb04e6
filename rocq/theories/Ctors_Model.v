(** The constructors of the registered metrics and their configs: metrics/metric_types.py 815-876
    (class Metric), metrics/confusion_matrix_metrics.py 278-288, 669-676 (get_config) and the
    __init__ of each class of metrics/*.py that is registered (metric_types.py 924-926).
    Simplifications: arguments are given by name, as from_config does; the objects are their
    settings (self.kwargs), the computations they make are modelled elsewhere. *)
From Coq Require Import String Ascii.
From Verif Require Import Base Specs_Model.
Local Open Scope string_scope.
Local Open Scope list_scope.

(* ------------------------------------------------------------------ *)
(** * Calls *)

(** Truth of a value in Python; [JOther ""] stands for an empty list or dictionary. *)
Definition truthy (v : json) : bool :=
  match v with
  | JNull => false
  | JBool b => b
  | JNum q => negb (Qc_eqb q 0%Qc)
  | JStr s => negb (String.eqb s "")
  | JOther s => negb (String.eqb s "")
  end.

(** What a constructor passes on under a name: one of its arguments, a constant, something computed
    from arguments other than the name, or the name and if there is none something computed. *)
Inductive expr := Arg (p : string) | Const (v : json) | Computed (f : settings -> json) | NameOr (f : settings -> json).
(** A constructor: its parameters, the required ones without default; whether it has **kwargs and
    passes them on; its checks of arguments; and the keywords of super().__init__. *)
Record level := Level {
  lv_params : list (string * option json); lv_kwargs : bool;
  lv_check : settings -> res unit; lv_super : list (string * expr)
}.
(** The constructor of a class with those of its base classes; [Root] is Metric.__init__. *)
Inductive ctor := Root | Sub (l : level) (base : ctor).

Definition unnamed (env : settings) : settings := filter (fun kv => negb (String.eqb (fst kv) "name")) env.
Definition eval (env : settings) (e : expr) : json :=
  let arg p := match dget String.eqb env p with Some v => v | None => JNull end in
  match e with
  | Arg p => arg p
  | Const v => v
  | Computed f => f (unnamed env)
  | NameOr f => if truthy (arg "name") then arg "name" else f (unnamed env)
  end.
Definition is_param (l : level) (k : string) : bool := memb String.eqb k (map fst (lv_params l)).
(** Binding of keyword arguments: unknown ones and missing ones are TypeErrors. *)
Definition bind_args (l : level) (kw : settings) : res settings :=
  if negb (lv_kwargs l) && existsb (fun kv => negb (is_param l (fst kv))) kw then Err TypeError
  else mapM (fun pd => match dget String.eqb kw (fst pd), snd pd with
                       | Some v, _ | None, Some v => Ok (fst pd, v)
                       | None, None => Err TypeError
                       end) (lv_params l).
(** The keywords of super().__init__ and **kwargs; a name in both is a TypeError. *)
Definition super_args (l : level) (env kw : settings) : res settings :=
  let given := map (fun ke => (fst ke, eval env (snd ke))) (lv_super l) in
  let extra := filter (fun kv => negb (is_param l (fst kv))) kw in
  if lv_kwargs l then
    if existsb (fun kv => dmem String.eqb given (fst kv)) extra then Err TypeError else Ok (given ++ extra)
  else Ok given.
(** From the arguments to the keywords Metric.__init__ gets. *)
Fixpoint make (c : ctor) (kw : settings) : res settings :=
  match c with
  | Root => Ok kw
  | Sub l b =>
      let! env := bind_args l kw in
      let! _ := lv_check l (unnamed env) in
      let! kw' := super_args l env kw in
      make b kw'
  end.

(** How get_config changes the settings: the keys dropped if None, a key dropped always. *)
Inductive config_step := DropNone (keys : list string) | DropKey (key : string).
(** [mc_default]: _default_name(), None if not overridden *)
Record metric_class := MetricClass {
  mc_class : string; mc_ctor : ctor; mc_default : option string; mc_config : list config_step
}.

(** 838-853 of Metric.__init__: an empty name is replaced by the default name *)
Definition fill_name (default : option string) (s : settings) : settings :=
  match dget String.eqb s "name", default with
  | Some v, Some d => if negb (truthy v) && negb (String.eqb d "") then dset String.eqb s "name" (JStr d) else s
  | _, _ => s
  end.
(** A call of the class with keywords: self.kwargs *)
Definition construct (c : metric_class) (kw : settings) : res settings :=
  let! s := make (mc_ctor c) kw in Ok (fill_name (mc_default c) s).

(** confusion_matrix_metrics.py 278-288, 669-676; kwargs[arg] and del fail without the key *)
Definition drop_none (s : settings) (k : string) : res settings :=
  match dget String.eqb s k with
  | None => Err KeyError
  | Some JNull => Ok (ddel String.eqb s k)
  | Some _ => Ok s
  end.
Definition drop_key (s : settings) (k : string) : res settings :=
  if dmem String.eqb s k then Ok (ddel String.eqb s k) else Err KeyError.
Definition get_config (c : metric_class) (s : settings) : res settings :=
  foldM (fun s step => match step with
                       | DropNone ks => foldM drop_none ks s
                       | DropKey k => drop_key s k
                       end) (mc_config c) s.
(** 871-876 [from_config] *)
Definition from_config (c : metric_class) (config : settings) : res settings :=
  construct c (ddel String.eqb config "fn").

(* ------------------------------------------------------------------ *)
(** * Calls for computations *)

Section Computations.
  Context {K C : Type}.
  (** What create_computations_fn is called with; [K] are sub keys, configs and schemas texts. *)
  Inductive kwarg :=
  | Setting (v : json) | Text (v : option string) | Names (v : option (list string)) | Keys (v : option (list (option K)))
  | Weights (w : option (list (Z * Qc))) | Flag (b : bool) | OneName (n : string) | OneKey (k : option K).
  Definition kwargs := list (string * kwarg).
  (** The arguments of Metric.computations, metric_types.py 893-905 *)
  Record request := Request {
    rq_eval_config : option string; rq_schema : option string; rq_models : option (list string); rq_outputs : option (list string);
    rq_sub_keys : option (list (option K)); rq_aggregation : option string; rq_class_weights : option (list (Z * Qc));
    rq_example_weighted : bool; rq_query_key : option string
  }.
  Definition some_weights (w : option (list (Z * Qc))) : bool := match w with Some (_ :: _) => true | _ => false end.
  (** metric_types.py 745-813 [validate_and_update_create_computations_fn_kwargs] *)
  Definition update_kwargs (args : list string) (kw : kwargs) (r : request) : res kwargs :=
    let has n := memb String.eqb n args in
    let put n v (kw : kwargs) := if has n then dset String.eqb kw n v else kw in
    let kw := put "eval_config" (Text (rq_eval_config r)) kw in
    let kw := put "schema" (Text (rq_schema r)) kw in
    let kw := put "model_names" (Names (rq_models r)) kw in
    let kw := put "output_names" (Names (rq_outputs r)) kw in
    let kw := put "sub_keys" (Keys (rq_sub_keys r)) kw in
    let kw := put "aggregation_type" (Text (rq_aggregation r)) kw in
    let! kw := (if has "class_weights" then Ok (dset String.eqb kw "class_weights" (Weights (rq_class_weights r)))
                else if some_weights (rq_class_weights r) then Err ValueError else Ok kw) in
    let kw := put "query_key" (Text (rq_query_key r)) kw in
    if has "example_weighted" then Ok (dset String.eqb kw "example_weighted" (Flag (rq_example_weighted r)))
    else if rq_example_weighted r then Err ValueError else Ok kw.

  (** metric_util.py 1181-1192: the parameters of merge_computations_fn *)
  Definition merge_args : list string :=
    ["eval_config"; "schema"; "model_names"; "output_names"; "sub_keys"; "aggregation_type"; "class_weights"; "example_weighted"; "query_key"].
  Definition or_else {A} (o : option A) (d : A) : A := match o with Some x => x | None => d end.
  (** metric_util.py 1176-1233 [merge_per_key_computations]: [args] are the arguments of the function
      wrapped, [create] is its call, [kw] are the keywords left over by merge_computations_fn. *)
  Definition merge_per_key (args : list string) (create : kwargs -> res (list C)) (kw : kwargs) (r : request) : res (list C) :=
    let models := or_else (rq_models r) [""] in
    let outputs := or_else (rq_outputs r) [""] in
    let keys := or_else (rq_sub_keys r) [None] in
    let r' := Request (rq_eval_config r) (rq_schema r) (Some models) (Some outputs) (Some keys) (rq_aggregation r) (rq_class_weights r) (rq_example_weighted r) (rq_query_key r) in
    foldM (fun cs m => foldM (fun cs o => foldM (fun cs k =>
      let! kw := update_kwargs args kw r' in
      let put n v (kw : kwargs) := if memb String.eqb n args then dset String.eqb kw n v else kw in
      let kw := put "model_name" (OneName m) kw in
      let kw := put "output_name" (OneName o) kw in
      let kw := put "sub_key" (OneKey k) kw in
      let! new := create kw in
      Ok (cs ++ new)) keys cs) outputs cs) models [].

  (** metric_types.py 893-920 [Metric.computations]: of a metric around a function ... *)
  Definition computations (args : list string) (create : kwargs -> res (list C)) (s : settings) (r : request) : res (list C) :=
    let! kw := update_kwargs args (map (fun kv => (fst kv, Setting (snd kv))) s) r in create kw.
  (** ... and of one around merge_per_key_computations, which takes the arguments it names. *)
  Definition computations_per_key (args : list string) (create : kwargs -> res (list C)) (s : settings) (r : request) : res (list C) :=
    computations merge_args (fun kw => merge_per_key args create (filter (fun kv => negb (memb String.eqb (fst kv) merge_args)) kw) r) s r.
End Computations.
Arguments kwarg K : clear implicits.
Arguments kwargs K : clear implicits.
Arguments request K : clear implicits.

(* ------------------------------------------------------------------ *)
(** * Checks and computed settings *)

Definition unchecked (_ : settings) : res unit := Ok tt.
Definition value_of (env : settings) (p : string) : json := match dget String.eqb env p with Some v => v | None => JNull end.
(** confusion_matrix_metrics.py 877-882, 2969-2974: a number in [0, 1] or a list; lists are not looked into *)
Definition in_range_or_list (p : string) (env : settings) : res unit :=
  match value_of env p with
  | JNum q => if Qc_ltb q 0%Qc || Qc_ltb 1%Qc q then Err ValueError else Ok tt
  | JOther _ => Ok tt
  | _ => Err TypeError
  end.
(** confusion_matrix_metrics.py 957-961, 1034-1038: a number in [0, 1]; Booleans are numbers *)
Definition in_range (p : string) (env : settings) : res unit :=
  match value_of env p with
  | JNum q => if Qc_ltb q 0%Qc || Qc_ltb 1%Qc q then Err ValueError else Ok tt
  | JBool _ => Ok tt
  | _ => Err TypeError
  end.
(** exact_match.py 45-49 *)
Definition convertible (env : settings) : res unit :=
  let v := value_of env "convert_to" in
  if truthy v && negb (json_eqb v (JStr "json")) then Err ValueError else Ok tt.
(** object_detection_metrics.py 104-111; arrays stand for themselves *)
Definition recall_thresholds (env : settings) : json :=
  match value_of env "recalls" with
  | JNull => match value_of env "num_recalls" with JNull => JOther "linspace 101" | _ => JOther "linspace" end
  | v => v
  end.
(** rouge.py 267: name or rouge_type *)
Definition rouge_type (env : settings) : json := value_of env "rouge_type".
(** stats.py 154: the base name and the path, here a text of names joined by dots *)
Definition mean_name (env : settings) : json :=
  JStr ("mean_" ++ match value_of env "feature_key_path" with JOther s | JStr s => s | _ => "" end)%string.

(* ------------------------------------------------------------------ *)
(** * The classes *)

(** attributions.py 56-68 [MeanAttributions.__init__] *)
Definition i_MeanAttributions : ctor := Sub (Level
  [("name", Some (JStr "mean_attributions"))] false (unchecked)
  [("name", Arg "name")]) Root.
(** attributions.py 77-89 [MeanAbsoluteAttributions.__init__] *)
Definition i_MeanAbsoluteAttributions : ctor := Sub (Level
  [("name", Some (JStr "mean_absolute_attributions"))] false (unchecked)
  [("name", Arg "name")]) Root.
(** attributions.py 158-170 [TotalAttributions.__init__] *)
Definition i_TotalAttributions : ctor := Sub (Level
  [("name", Some (JStr "total_attributions"))] false (unchecked)
  [("name", Arg "name")]) Root.
(** attributions.py 179-191 [TotalAbsoluteAttributions.__init__] *)
Definition i_TotalAbsoluteAttributions : ctor := Sub (Level
  [("name", Some (JStr "total_absolute_attributions"))] false (unchecked)
  [("name", Arg "name")]) Root.
(** bleu.py 453-475 [Bleu.__init__] *)
Definition i_Bleu : ctor := Sub (Level
  [("name", Some (JStr "BLEU")); ("lowercase", Some (JBool false)); ("force", Some (JBool false)); ("tokenize", Some (JStr "13a")); ("smooth_method", Some (JStr "exp")); ("smooth_value", Some (JNull)); ("use_effective_order", Some (JBool false))] false (unchecked)
  [("name", Arg "name"); ("lowercase", Arg "lowercase"); ("force", Arg "force"); ("tokenize", Arg "tokenize"); ("smooth_method", Arg "smooth_method"); ("smooth_value", Arg "smooth_value"); ("effective_order", Arg "use_effective_order")]) Root.
(** calibration.py 33-40 [MeanLabel.__init__] *)
Definition i_MeanLabel : ctor := Sub (Level
  [("name", Some (JStr "mean_label"))] false (unchecked)
  [("name", Arg "name")]) Root.
(** calibration.py 98-107 [MeanPrediction.__init__] *)
Definition i_MeanPrediction : ctor := Sub (Level
  [("name", Some (JStr "mean_prediction"))] false (unchecked)
  [("name", Arg "name")]) Root.
(** calibration.py 169-178 [Calibration.__init__] *)
Definition i_Calibration : ctor := Sub (Level
  [("name", Some (JStr "calibration"))] false (unchecked)
  [("name", Arg "name")]) Root.
(** calibration_plot.py 36-61 [CalibrationPlot.__init__] *)
Definition i_CalibrationPlot : ctor := Sub (Level
  [("num_buckets", Some (JNum (Q2Qc (1000#1)))); ("left", Some (JNull)); ("right", Some (JNull)); ("name", Some (JStr "calibration_plot"))] false (unchecked)
  [("num_buckets", Arg "num_buckets"); ("left", Arg "left"); ("right", Arg "right"); ("name", Arg "name")]) Root.
(** confusion_matrix_metrics.py 228-272 [ConfusionMatrixMetricBase.__init__] *)
Definition i_ConfusionMatrixMetricBase : ctor := Sub (Level
  [("thresholds", Some (JNull)); ("num_thresholds", Some (JNull)); ("top_k", Some (JNull)); ("class_id", Some (JNull)); ("name", Some (JNull)); ("preprocessors", Some (JNull))] true (unchecked)
  [("thresholds", Arg "thresholds"); ("num_thresholds", Arg "num_thresholds"); ("top_k", Arg "top_k"); ("class_id", Arg "class_id"); ("name", Arg "name")]) Root.
(** confusion_matrix_metrics.py 499-551 [AUC.__init__] *)
Definition i_AUC : ctor := Sub (Level
  [("num_thresholds", Some (JNull)); ("curve", Some (JStr "ROC")); ("summation_method", Some (JStr "interpolation")); ("name", Some (JNull)); ("thresholds", Some (JNull)); ("top_k", Some (JNull)); ("class_id", Some (JNull))] false (unchecked)
  [("num_thresholds", Arg "num_thresholds"); ("thresholds", Arg "thresholds"); ("curve", Arg "curve"); ("summation_method", Arg "summation_method"); ("name", Arg "name"); ("top_k", Arg "top_k"); ("class_id", Arg "class_id")]) i_ConfusionMatrixMetricBase.
(** confusion_matrix_metrics.py 619-667 [AUCPrecisionRecall.__init__] *)
Definition i_AUCPrecisionRecall : ctor := Sub (Level
  [("num_thresholds", Some (JNull)); ("summation_method", Some (JStr "interpolation")); ("name", Some (JNull)); ("thresholds", Some (JNull)); ("top_k", Some (JNull)); ("class_id", Some (JNull))] false (unchecked)
  [("num_thresholds", Arg "num_thresholds"); ("thresholds", Arg "thresholds"); ("curve", Const (JStr "PR")); ("summation_method", Arg "summation_method"); ("name", Arg "name"); ("top_k", Arg "top_k"); ("class_id", Arg "class_id")]) i_AUC.
(** confusion_matrix_metrics.py 703-737 [SensitivityAtSpecificity.__init__] *)
Definition i_SensitivityAtSpecificity : ctor := Sub (Level
  [("specificity", None); ("num_thresholds", Some (JNull)); ("class_id", Some (JNull)); ("name", Some (JNull)); ("top_k", Some (JNull))] false (unchecked)
  [("num_thresholds", Arg "num_thresholds"); ("specificity", Arg "specificity"); ("class_id", Arg "class_id"); ("name", Arg "name"); ("top_k", Arg "top_k")]) i_ConfusionMatrixMetricBase.
(** confusion_matrix_metrics.py 777-811 [SpecificityAtSensitivity.__init__] *)
Definition i_SpecificityAtSensitivity : ctor := Sub (Level
  [("sensitivity", None); ("num_thresholds", Some (JNull)); ("class_id", Some (JNull)); ("name", Some (JNull)); ("top_k", Some (JNull))] false (unchecked)
  [("num_thresholds", Arg "num_thresholds"); ("sensitivity", Arg "sensitivity"); ("class_id", Arg "class_id"); ("name", Arg "name"); ("top_k", Arg "top_k")]) i_ConfusionMatrixMetricBase.
(** confusion_matrix_metrics.py 843-892 [PrecisionAtRecall.__init__] *)
Definition i_PrecisionAtRecall : ctor := Sub (Level
  [("recall", None); ("thresholds", Some (JNull)); ("num_thresholds", Some (JNull)); ("class_id", Some (JNull)); ("name", Some (JNull)); ("top_k", Some (JNull))] true (in_range_or_list "recall")
  [("thresholds", Arg "thresholds"); ("num_thresholds", Arg "num_thresholds"); ("recall", Arg "recall"); ("class_id", Arg "class_id"); ("name", Arg "name"); ("top_k", Arg "top_k")]) i_ConfusionMatrixMetricBase.
(** confusion_matrix_metrics.py 929-968 [RecallAtPrecision.__init__] *)
Definition i_RecallAtPrecision : ctor := Sub (Level
  [("precision", None); ("num_thresholds", Some (JNull)); ("class_id", Some (JNull)); ("name", Some (JNull)); ("top_k", Some (JNull))] false (in_range "precision")
  [("num_thresholds", Arg "num_thresholds"); ("precision", Arg "precision"); ("class_id", Arg "class_id"); ("name", Arg "name"); ("top_k", Arg "top_k")]) i_ConfusionMatrixMetricBase.
(** confusion_matrix_metrics.py 1006-1045 [RecallAtFalsePositiveRate.__init__] *)
Definition i_RecallAtFalsePositiveRate : ctor := Sub (Level
  [("false_positive_rate", None); ("num_thresholds", Some (JNull)); ("class_id", Some (JNull)); ("name", Some (JNull)); ("top_k", Some (JNull))] false (in_range "false_positive_rate")
  [("false_positive_rate", Arg "false_positive_rate"); ("num_thresholds", Arg "num_thresholds"); ("class_id", Arg "class_id"); ("name", Arg "name"); ("top_k", Arg "top_k")]) i_ConfusionMatrixMetricBase.
(** confusion_matrix_metrics.py 385-424 [ConfusionMatrixMetric.__init__] *)
Definition i_ConfusionMatrixMetric : ctor := Sub (Level
  [("thresholds", Some (JNull)); ("num_thresholds", Some (JNull)); ("top_k", Some (JNull)); ("class_id", Some (JNull)); ("name", Some (JNull))] true (unchecked)
  [("thresholds", Arg "thresholds"); ("num_thresholds", Arg "num_thresholds"); ("top_k", Arg "top_k"); ("class_id", Arg "class_id"); ("name", Arg "name")]) i_ConfusionMatrixMetricBase.
(** confusion_matrix_metrics.py 1083-1114 [TruePositives.__init__] *)
Definition i_TruePositives : ctor := Sub (Level
  [("thresholds", Some (JNull)); ("name", Some (JNull)); ("top_k", Some (JNull)); ("class_id", Some (JNull))] false (unchecked)
  [("thresholds", Arg "thresholds"); ("name", Arg "name"); ("top_k", Arg "top_k"); ("class_id", Arg "class_id")]) i_ConfusionMatrixMetric.
(** confusion_matrix_metrics.py 1129-1139 [TP.__init__] *)
Definition i_TP : ctor := Sub (Level
  [("thresholds", Some (JNull)); ("name", Some (JNull)); ("top_k", Some (JNull)); ("class_id", Some (JNull))] false (unchecked)
  [("thresholds", Arg "thresholds"); ("name", Arg "name"); ("top_k", Arg "top_k"); ("class_id", Arg "class_id")]) i_TruePositives.
(** confusion_matrix_metrics.py 1158-1189 [TrueNegatives.__init__] *)
Definition i_TrueNegatives : ctor := Sub (Level
  [("thresholds", Some (JNull)); ("name", Some (JNull)); ("top_k", Some (JNull)); ("class_id", Some (JNull))] false (unchecked)
  [("thresholds", Arg "thresholds"); ("name", Arg "name"); ("top_k", Arg "top_k"); ("class_id", Arg "class_id")]) i_ConfusionMatrixMetric.
(** confusion_matrix_metrics.py 1204-1214 [TN.__init__] *)
Definition i_TN : ctor := Sub (Level
  [("thresholds", Some (JNull)); ("name", Some (JNull)); ("top_k", Some (JNull)); ("class_id", Some (JNull))] false (unchecked)
  [("thresholds", Arg "thresholds"); ("name", Arg "name"); ("top_k", Arg "top_k"); ("class_id", Arg "class_id")]) i_TrueNegatives.
(** confusion_matrix_metrics.py 1233-1264 [FalsePositives.__init__] *)
Definition i_FalsePositives : ctor := Sub (Level
  [("thresholds", Some (JNull)); ("name", Some (JNull)); ("top_k", Some (JNull)); ("class_id", Some (JNull))] false (unchecked)
  [("thresholds", Arg "thresholds"); ("name", Arg "name"); ("top_k", Arg "top_k"); ("class_id", Arg "class_id")]) i_ConfusionMatrixMetric.
(** confusion_matrix_metrics.py 1279-1289 [FP.__init__] *)
Definition i_FP : ctor := Sub (Level
  [("thresholds", Some (JNull)); ("name", Some (JNull)); ("top_k", Some (JNull)); ("class_id", Some (JNull))] false (unchecked)
  [("thresholds", Arg "thresholds"); ("name", Arg "name"); ("top_k", Arg "top_k"); ("class_id", Arg "class_id")]) i_FalsePositives.
(** confusion_matrix_metrics.py 1308-1339 [FalseNegatives.__init__] *)
Definition i_FalseNegatives : ctor := Sub (Level
  [("thresholds", Some (JNull)); ("name", Some (JNull)); ("top_k", Some (JNull)); ("class_id", Some (JNull))] false (unchecked)
  [("thresholds", Arg "thresholds"); ("name", Arg "name"); ("top_k", Arg "top_k"); ("class_id", Arg "class_id")]) i_ConfusionMatrixMetric.
(** confusion_matrix_metrics.py 1354-1364 [FN.__init__] *)
Definition i_FN : ctor := Sub (Level
  [("thresholds", Some (JNull)); ("name", Some (JNull)); ("top_k", Some (JNull)); ("class_id", Some (JNull))] false (unchecked)
  [("thresholds", Arg "thresholds"); ("name", Arg "name"); ("top_k", Arg "top_k"); ("class_id", Arg "class_id")]) i_FalseNegatives.
(** confusion_matrix_metrics.py 1382-1413 [BinaryAccuracy.__init__] *)
Definition i_BinaryAccuracy : ctor := Sub (Level
  [("threshold", Some (JNull)); ("top_k", Some (JNull)); ("class_id", Some (JNull)); ("name", Some (JNull))] false (unchecked)
  [("thresholds", Arg "threshold"); ("top_k", Arg "top_k"); ("class_id", Arg "class_id"); ("name", Arg "name")]) i_ConfusionMatrixMetric.
(** confusion_matrix_metrics.py 1435-1470 [Precision.__init__] *)
Definition i_Precision : ctor := Sub (Level
  [("thresholds", Some (JNull)); ("top_k", Some (JNull)); ("class_id", Some (JNull)); ("name", Some (JNull))] true (unchecked)
  [("thresholds", Arg "thresholds"); ("top_k", Arg "top_k"); ("class_id", Arg "class_id"); ("name", Arg "name")]) i_ConfusionMatrixMetric.
(** confusion_matrix_metrics.py 1486-1496 [PPV.__init__] *)
Definition i_PPV : ctor := Sub (Level
  [("thresholds", Some (JNull)); ("name", Some (JNull)); ("top_k", Some (JNull)); ("class_id", Some (JNull))] false (unchecked)
  [("thresholds", Arg "thresholds"); ("name", Arg "name"); ("top_k", Arg "top_k"); ("class_id", Arg "class_id")]) i_Precision.
(** confusion_matrix_metrics.py 1515-1550 [Recall.__init__] *)
Definition i_Recall : ctor := Sub (Level
  [("thresholds", Some (JNull)); ("top_k", Some (JNull)); ("class_id", Some (JNull)); ("name", Some (JNull))] true (unchecked)
  [("thresholds", Arg "thresholds"); ("top_k", Arg "top_k"); ("class_id", Arg "class_id"); ("name", Arg "name")]) i_ConfusionMatrixMetric.
(** confusion_matrix_metrics.py 1566-1576 [TPR.__init__] *)
Definition i_TPR : ctor := Sub (Level
  [("thresholds", Some (JNull)); ("name", Some (JNull)); ("top_k", Some (JNull)); ("class_id", Some (JNull))] false (unchecked)
  [("thresholds", Arg "thresholds"); ("name", Arg "name"); ("top_k", Arg "top_k"); ("class_id", Arg "class_id")]) i_Recall.
(** confusion_matrix_metrics.py 1588-1616 [Specificity.__init__] *)
Definition i_Specificity : ctor := Sub (Level
  [("thresholds", Some (JNull)); ("name", Some (JNull)); ("top_k", Some (JNull)); ("class_id", Some (JNull))] false (unchecked)
  [("thresholds", Arg "thresholds"); ("name", Arg "name"); ("top_k", Arg "top_k"); ("class_id", Arg "class_id")]) i_ConfusionMatrixMetric.
(** confusion_matrix_metrics.py 1632-1642 [TNR.__init__] *)
Definition i_TNR : ctor := Sub (Level
  [("thresholds", Some (JNull)); ("name", Some (JNull)); ("top_k", Some (JNull)); ("class_id", Some (JNull))] false (unchecked)
  [("thresholds", Arg "thresholds"); ("name", Arg "name"); ("top_k", Arg "top_k"); ("class_id", Arg "class_id")]) i_Specificity.
(** confusion_matrix_metrics.py 1654-1681 [FallOut.__init__] *)
Definition i_FallOut : ctor := Sub (Level
  [("thresholds", Some (JNull)); ("name", Some (JNull)); ("top_k", Some (JNull)); ("class_id", Some (JNull))] false (unchecked)
  [("thresholds", Arg "thresholds"); ("name", Arg "name"); ("top_k", Arg "top_k"); ("class_id", Arg "class_id")]) i_ConfusionMatrixMetric.
(** confusion_matrix_metrics.py 1697-1707 [FPR.__init__] *)
Definition i_FPR : ctor := Sub (Level
  [("thresholds", Some (JNull)); ("name", Some (JNull)); ("top_k", Some (JNull)); ("class_id", Some (JNull))] false (unchecked)
  [("thresholds", Arg "thresholds"); ("name", Arg "name"); ("top_k", Arg "top_k"); ("class_id", Arg "class_id")]) i_FallOut.
(** confusion_matrix_metrics.py 1719-1746 [MissRate.__init__] *)
Definition i_MissRate : ctor := Sub (Level
  [("thresholds", Some (JNull)); ("name", Some (JNull)); ("top_k", Some (JNull)); ("class_id", Some (JNull))] false (unchecked)
  [("thresholds", Arg "thresholds"); ("name", Arg "name"); ("top_k", Arg "top_k"); ("class_id", Arg "class_id")]) i_ConfusionMatrixMetric.
(** confusion_matrix_metrics.py 1762-1772 [FNR.__init__] *)
Definition i_FNR : ctor := Sub (Level
  [("thresholds", Some (JNull)); ("name", Some (JNull)); ("top_k", Some (JNull)); ("class_id", Some (JNull))] false (unchecked)
  [("thresholds", Arg "thresholds"); ("name", Arg "name"); ("top_k", Arg "top_k"); ("class_id", Arg "class_id")]) i_MissRate.
(** confusion_matrix_metrics.py 1784-1811 [NegativePredictiveValue.__init__] *)
Definition i_NegativePredictiveValue : ctor := Sub (Level
  [("thresholds", Some (JNull)); ("name", Some (JNull)); ("top_k", Some (JNull)); ("class_id", Some (JNull))] false (unchecked)
  [("thresholds", Arg "thresholds"); ("name", Arg "name"); ("top_k", Arg "top_k"); ("class_id", Arg "class_id")]) i_ConfusionMatrixMetric.
(** confusion_matrix_metrics.py 1827-1837 [NPV.__init__] *)
Definition i_NPV : ctor := Sub (Level
  [("thresholds", Some (JNull)); ("name", Some (JNull)); ("top_k", Some (JNull)); ("class_id", Some (JNull))] false (unchecked)
  [("thresholds", Arg "thresholds"); ("name", Arg "name"); ("top_k", Arg "top_k"); ("class_id", Arg "class_id")]) i_NegativePredictiveValue.
(** confusion_matrix_metrics.py 1849-1876 [FalseDiscoveryRate.__init__] *)
Definition i_FalseDiscoveryRate : ctor := Sub (Level
  [("thresholds", Some (JNull)); ("name", Some (JNull)); ("top_k", Some (JNull)); ("class_id", Some (JNull))] false (unchecked)
  [("thresholds", Arg "thresholds"); ("name", Arg "name"); ("top_k", Arg "top_k"); ("class_id", Arg "class_id")]) i_ConfusionMatrixMetric.
(** confusion_matrix_metrics.py 1892-1919 [FalseOmissionRate.__init__] *)
Definition i_FalseOmissionRate : ctor := Sub (Level
  [("thresholds", Some (JNull)); ("name", Some (JNull)); ("top_k", Some (JNull)); ("class_id", Some (JNull))] false (unchecked)
  [("thresholds", Arg "thresholds"); ("name", Arg "name"); ("top_k", Arg "top_k"); ("class_id", Arg "class_id")]) i_ConfusionMatrixMetric.
(** confusion_matrix_metrics.py 1935-1962 [Prevalence.__init__] *)
Definition i_Prevalence : ctor := Sub (Level
  [("thresholds", Some (JNull)); ("name", Some (JNull)); ("top_k", Some (JNull)); ("class_id", Some (JNull))] false (unchecked)
  [("thresholds", Arg "thresholds"); ("name", Arg "name"); ("top_k", Arg "top_k"); ("class_id", Arg "class_id")]) i_ConfusionMatrixMetric.
(** confusion_matrix_metrics.py 1977-2004 [PrevalenceThreshold.__init__] *)
Definition i_PrevalenceThreshold : ctor := Sub (Level
  [("thresholds", Some (JNull)); ("name", Some (JNull)); ("top_k", Some (JNull)); ("class_id", Some (JNull))] false (unchecked)
  [("thresholds", Arg "thresholds"); ("name", Arg "name"); ("top_k", Arg "top_k"); ("class_id", Arg "class_id")]) i_ConfusionMatrixMetric.
(** confusion_matrix_metrics.py 2026-2053 [ThreatScore.__init__] *)
Definition i_ThreatScore : ctor := Sub (Level
  [("thresholds", Some (JNull)); ("name", Some (JNull)); ("top_k", Some (JNull)); ("class_id", Some (JNull))] false (unchecked)
  [("thresholds", Arg "thresholds"); ("name", Arg "name"); ("top_k", Arg "top_k"); ("class_id", Arg "class_id")]) i_ConfusionMatrixMetric.
(** confusion_matrix_metrics.py 2069-2096 [BalancedAccuracy.__init__] *)
Definition i_BalancedAccuracy : ctor := Sub (Level
  [("thresholds", Some (JNull)); ("name", Some (JNull)); ("top_k", Some (JNull)); ("class_id", Some (JNull))] false (unchecked)
  [("thresholds", Arg "thresholds"); ("name", Arg "name"); ("top_k", Arg "top_k"); ("class_id", Arg "class_id")]) i_ConfusionMatrixMetric.
(** confusion_matrix_metrics.py 2118-2145 [F1Score.__init__] *)
Definition i_F1Score : ctor := Sub (Level
  [("thresholds", Some (JNull)); ("name", Some (JNull)); ("top_k", Some (JNull)); ("class_id", Some (JNull))] false (unchecked)
  [("thresholds", Arg "thresholds"); ("name", Arg "name"); ("top_k", Arg "top_k"); ("class_id", Arg "class_id")]) i_ConfusionMatrixMetric.
(** confusion_matrix_metrics.py 2166-2193 [MatthewsCorrelationCoefficient.__init__] *)
Definition i_MatthewsCorrelationCoefficient : ctor := Sub (Level
  [("thresholds", Some (JNull)); ("name", Some (JNull)); ("top_k", Some (JNull)); ("class_id", Some (JNull))] false (unchecked)
  [("thresholds", Arg "thresholds"); ("name", Arg "name"); ("top_k", Arg "top_k"); ("class_id", Arg "class_id")]) i_ConfusionMatrixMetric.
(** confusion_matrix_metrics.py 2211-2238 [FowlkesMallowsIndex.__init__] *)
Definition i_FowlkesMallowsIndex : ctor := Sub (Level
  [("thresholds", Some (JNull)); ("name", Some (JNull)); ("top_k", Some (JNull)); ("class_id", Some (JNull))] false (unchecked)
  [("thresholds", Arg "thresholds"); ("name", Arg "name"); ("top_k", Arg "top_k"); ("class_id", Arg "class_id")]) i_ConfusionMatrixMetric.
(** confusion_matrix_metrics.py 2261-2288 [Informedness.__init__] *)
Definition i_Informedness : ctor := Sub (Level
  [("thresholds", Some (JNull)); ("name", Some (JNull)); ("top_k", Some (JNull)); ("class_id", Some (JNull))] false (unchecked)
  [("thresholds", Arg "thresholds"); ("name", Arg "name"); ("top_k", Arg "top_k"); ("class_id", Arg "class_id")]) i_ConfusionMatrixMetric.
(** confusion_matrix_metrics.py 2310-2337 [Markedness.__init__] *)
Definition i_Markedness : ctor := Sub (Level
  [("thresholds", Some (JNull)); ("name", Some (JNull)); ("top_k", Some (JNull)); ("class_id", Some (JNull))] false (unchecked)
  [("thresholds", Arg "thresholds"); ("name", Arg "name"); ("top_k", Arg "top_k"); ("class_id", Arg "class_id")]) i_ConfusionMatrixMetric.
(** confusion_matrix_metrics.py 2359-2386 [PositiveLikelihoodRatio.__init__] *)
Definition i_PositiveLikelihoodRatio : ctor := Sub (Level
  [("thresholds", Some (JNull)); ("name", Some (JNull)); ("top_k", Some (JNull)); ("class_id", Some (JNull))] false (unchecked)
  [("thresholds", Arg "thresholds"); ("name", Arg "name"); ("top_k", Arg "top_k"); ("class_id", Arg "class_id")]) i_ConfusionMatrixMetric.
(** confusion_matrix_metrics.py 2408-2435 [NegativeLikelihoodRatio.__init__] *)
Definition i_NegativeLikelihoodRatio : ctor := Sub (Level
  [("thresholds", Some (JNull)); ("name", Some (JNull)); ("top_k", Some (JNull)); ("class_id", Some (JNull))] false (unchecked)
  [("thresholds", Arg "thresholds"); ("name", Arg "name"); ("top_k", Arg "top_k"); ("class_id", Arg "class_id")]) i_ConfusionMatrixMetric.
(** confusion_matrix_metrics.py 2457-2484 [DiagnosticOddsRatio.__init__] *)
Definition i_DiagnosticOddsRatio : ctor := Sub (Level
  [("thresholds", Some (JNull)); ("name", Some (JNull)); ("top_k", Some (JNull)); ("class_id", Some (JNull))] false (unchecked)
  [("thresholds", Arg "thresholds"); ("name", Arg "name"); ("top_k", Arg "top_k"); ("class_id", Arg "class_id")]) i_ConfusionMatrixMetric.
(** confusion_matrix_metrics.py 2502-2529 [PredictedPositiveRate.__init__] *)
Definition i_PredictedPositiveRate : ctor := Sub (Level
  [("thresholds", Some (JNull)); ("name", Some (JNull)); ("top_k", Some (JNull)); ("class_id", Some (JNull))] false (unchecked)
  [("thresholds", Arg "thresholds"); ("name", Arg "name"); ("top_k", Arg "top_k"); ("class_id", Arg "class_id")]) i_ConfusionMatrixMetric.
(** confusion_matrix_metrics.py 2546-2586 [ConfusionMatrixFeatureSamplerBase.__init__] *)
Definition i_ConfusionMatrixFeatureSamplerBase : ctor := Sub (Level
  [("feature_key", None); ("sample_size", None); ("threshold", None); ("name", Some (JNull)); ("top_k", Some (JNull)); ("class_id", Some (JNull))] false (unchecked)
  [("threshold", Arg "threshold"); ("feature_key", Arg "feature_key"); ("sample_size", Arg "sample_size"); ("name", Arg "name"); ("top_k", Arg "top_k"); ("class_id", Arg "class_id")]) Root.
(** confusion_matrix_metrics.py 2668-2707 [FalsePositiveFeatureSampler.__init__] *)
Definition i_FalsePositiveFeatureSampler : ctor := Sub (Level
  [("feature_key", None); ("sample_size", None); ("threshold", Some (JNum (Q2Qc (1#2)))); ("name", Some (JNull)); ("top_k", Some (JNull)); ("class_id", Some (JNull))] false (unchecked)
  [("feature_key", Arg "feature_key"); ("sample_size", Arg "sample_size"); ("threshold", Arg "threshold"); ("name", Arg "name"); ("top_k", Arg "top_k"); ("class_id", Arg "class_id")]) i_ConfusionMatrixFeatureSamplerBase.
(** confusion_matrix_metrics.py 2724-2763 [FalseNegativeFeatureSampler.__init__] *)
Definition i_FalseNegativeFeatureSampler : ctor := Sub (Level
  [("feature_key", None); ("sample_size", None); ("threshold", Some (JNum (Q2Qc (1#2)))); ("name", Some (JNull)); ("top_k", Some (JNull)); ("class_id", Some (JNull))] false (unchecked)
  [("feature_key", Arg "feature_key"); ("sample_size", Arg "sample_size"); ("threshold", Arg "threshold"); ("name", Arg "name"); ("top_k", Arg "top_k"); ("class_id", Arg "class_id")]) i_ConfusionMatrixFeatureSamplerBase.
(** confusion_matrix_metrics.py 2780-2811 [ConfusionMatrixAtThresholds.__init__] *)
Definition i_ConfusionMatrixAtThresholds : ctor := Sub (Level
  [("thresholds", None); ("name", Some (JNull)); ("top_k", Some (JNull)); ("class_id", Some (JNull))] false (unchecked)
  [("thresholds", Arg "thresholds"); ("name", Arg "name"); ("top_k", Arg "top_k"); ("class_id", Arg "class_id")]) Root.
(** confusion_matrix_metrics.py 2887-2919 [MaxRecall.__init__] *)
Definition i_MaxRecall : ctor := Sub (Level
  [("top_k", Some (JNull)); ("class_id", Some (JNull)); ("name", Some (JNull))] true (unchecked)
  [("thresholds", Const (JNum (Q2Qc (1#1000000000000)))); ("top_k", Arg "top_k"); ("class_id", Arg "class_id"); ("name", Arg "name")]) i_Recall.
(** confusion_matrix_metrics.py 2935-2984 [ThresholdAtRecall.__init__] *)
Definition i_ThresholdAtRecall : ctor := Sub (Level
  [("recall", None); ("thresholds", Some (JNull)); ("num_thresholds", Some (JNull)); ("class_id", Some (JNull)); ("name", Some (JNull)); ("top_k", Some (JNull))] true (in_range_or_list "recall")
  [("thresholds", Arg "thresholds"); ("num_thresholds", Arg "num_thresholds"); ("recall", Arg "recall"); ("class_id", Arg "class_id"); ("name", Arg "name"); ("top_k", Arg "top_k")]) i_ConfusionMatrixMetricBase.
(** confusion_matrix_plot.py 33-55 [ConfusionMatrixPlot.__init__] *)
Definition i_ConfusionMatrixPlot : ctor := Sub (Level
  [("num_thresholds", Some (JNum (Q2Qc (1000#1)))); ("name", Some (JStr "confusion_matrix_plot"))] true (unchecked)
  [("num_thresholds", Arg "num_thresholds"); ("name", Arg "name")]) Root.
(** cross_entropy_metrics.py 37-60 [BinaryCrossEntropy.__init__] *)
Definition i_BinaryCrossEntropy : ctor := Sub (Level
  [("name", Some (JStr "binary_crossentropy")); ("from_logits", Some (JBool false)); ("label_smoothing", Some (JNum (Q2Qc (0#1))))] false (unchecked)
  [("name", Arg "name"); ("from_logits", Arg "from_logits"); ("label_smoothing", Arg "label_smoothing")]) Root.
(** cross_entropy_metrics.py 132-156 [CategoricalCrossEntropy.__init__] *)
Definition i_CategoricalCrossEntropy : ctor := Sub (Level
  [("name", Some (JStr "categorical_crossentropy")); ("from_logits", Some (JBool false)); ("label_smoothing", Some (JNum (Q2Qc (0#1))))] false (unchecked)
  [("name", Arg "name"); ("from_logits", Arg "from_logits"); ("label_smoothing", Arg "label_smoothing")]) Root.
(** exact_match.py 32-48 [ExactMatch.__init__] *)
Definition i_ExactMatch : ctor := Sub (Level
  [("name", Some (JStr "exact_match")); ("convert_to", Some (JNull))] false (convertible)
  [("name", Arg "name"); ("convert_to", Arg "convert_to")]) Root.
(** example_count.py 35-42 [ExampleCount.__init__] *)
Definition i_ExampleCount : ctor := Sub (Level
  [("name", Some (JStr "example_count"))] false (unchecked)
  [("name", Arg "name")]) Root.
(** flip_metrics.py 201-206 [_FlipRateBase.__init__] *)
Definition i__FlipRateBase : ctor := Sub (Level
  [("name", None); ("threshold", None)] false (unchecked)
  [("name", Arg "name"); ("threshold", Arg "threshold")]) Root.
(** flip_metrics.py 340-356 [SymmetricFlipRate.__init__] *)
Definition i_SymmetricFlipRate : ctor := Sub (Level
  [("name", Some (JStr "symmetric_flip_rate")); ("threshold", Some (JNum (Q2Qc (1#2))))] false (unchecked)
  [("name", Arg "name"); ("threshold", Arg "threshold")]) i__FlipRateBase.
(** flip_metrics.py 373-389 [NegToNegFlipRate.__init__] *)
Definition i_NegToNegFlipRate : ctor := Sub (Level
  [("name", Some (JStr "neg_to_neg_flip_rate")); ("threshold", Some (JNum (Q2Qc (1#2))))] false (unchecked)
  [("name", Arg "name"); ("threshold", Arg "threshold")]) i__FlipRateBase.
(** flip_metrics.py 404-420 [NegToPosFlipRate.__init__] *)
Definition i_NegToPosFlipRate : ctor := Sub (Level
  [("name", Some (JStr "neg_to_pos_flip_rate")); ("threshold", Some (JNum (Q2Qc (1#2))))] false (unchecked)
  [("name", Arg "name"); ("threshold", Arg "threshold")]) i__FlipRateBase.
(** flip_metrics.py 435-451 [PosToNegFlipRate.__init__] *)
Definition i_PosToNegFlipRate : ctor := Sub (Level
  [("name", Some (JStr "pos_to_neg_flip_rate")); ("threshold", Some (JNum (Q2Qc (1#2))))] false (unchecked)
  [("name", Arg "name"); ("threshold", Arg "threshold")]) i__FlipRateBase.
(** flip_metrics.py 466-482 [PosToPosFlipRate.__init__] *)
Definition i_PosToPosFlipRate : ctor := Sub (Level
  [("name", Some (JStr "pos_to_pos_flip_rate")); ("threshold", Some (JNum (Q2Qc (1#2))))] false (unchecked)
  [("name", Arg "name"); ("threshold", Arg "threshold")]) i__FlipRateBase.
(** flip_metrics.py 580-613 [BooleanFlipRates.__init__] *)
Definition i_BooleanFlipRates : ctor := Sub (Level
  [("threshold", Some (JNum (Q2Qc (1#2)))); ("flip_rate_name", Some (JStr "flip_rate")); ("neg_to_neg_flip_rate_name", Some (JStr "neg_to_neg_flip_rate")); ("neg_to_pos_flip_rate_name", Some (JStr "neg_to_pos_flip_rate")); ("pos_to_neg_flip_rate_name", Some (JStr "pos_to_neg_flip_rate")); ("pos_to_pos_flip_rate_name", Some (JStr "pos_to_pos_flip_rate"))] false (unchecked)
  [("symmetric_flip_rate_name", Arg "flip_rate_name"); ("neg_to_neg_flip_rate_name", Arg "neg_to_neg_flip_rate_name"); ("neg_to_pos_flip_rate_name", Arg "neg_to_pos_flip_rate_name"); ("pos_to_neg_flip_rate_name", Arg "pos_to_neg_flip_rate_name"); ("pos_to_pos_flip_rate_name", Arg "pos_to_pos_flip_rate_name"); ("threshold", Arg "threshold")]) Root.
(** mean_regression_error.py 41-53 [MeanAbsoluteError.__init__] *)
Definition i_MeanAbsoluteError : ctor := Sub (Level
  [("name", Some (JStr "mean_absolute_error"))] true (unchecked)
  [("name", Arg "name")]) Root.
(** mean_regression_error.py 120-134 [MeanAbsolutePercentageError.__init__] *)
Definition i_MeanAbsolutePercentageError : ctor := Sub (Level
  [("name", Some (JStr "mean_absolute_percentage_error"))] true (unchecked)
  [("name", Arg "name")]) Root.
(** mean_regression_error.py 202-214 [MeanSquaredError.__init__] *)
Definition i_MeanSquaredError : ctor := Sub (Level
  [("name", Some (JStr "mean_squared_error"))] true (unchecked)
  [("name", Arg "name")]) Root.
(** mean_regression_error.py 284-298 [MeanSquaredLogarithmicError.__init__] *)
Definition i_MeanSquaredLogarithmicError : ctor := Sub (Level
  [("name", Some (JStr "mean_squared_logarithmic_error"))] true (unchecked)
  [("name", Arg "name")]) Root.
(** min_label_position.py 41-49 [MinLabelPosition.__init__] *)
Definition i_MinLabelPosition : ctor := Sub (Level
  [("name", Some (JStr "min_label_position")); ("label_key", Some (JNull))] false (unchecked)
  [("name", Arg "name"); ("label_key", Arg "label_key")]) Root.
(** model_cosine_similarity.py 60-61 [ModelCosineSimilarity.__init__] *)
Definition i_ModelCosineSimilarity : ctor := Sub (Level
  [("name", Some (JStr "model_cosine_similarity"))] false (unchecked)
  [("name", Arg "name")]) Root.
(** multi_class_confusion_matrix_metrics.py 51-72 [MultiClassConfusionMatrixAtThresholds.__init__] *)
Definition i_MultiClassConfusionMatrixAtThresholds : ctor := Sub (Level
  [("thresholds", Some (JNull)); ("name", Some (JStr "multi_class_confusion_matrix_at_thresholds"))] false (unchecked)
  [("thresholds", Arg "thresholds"); ("name", Arg "name")]) Root.
(** multi_class_confusion_matrix_plot.py 39-67 [MultiClassConfusionMatrixPlot.__init__] *)
Definition i_MultiClassConfusionMatrixPlot : ctor := Sub (Level
  [("thresholds", Some (JNull)); ("num_thresholds", Some (JNull)); ("name", Some (JStr "multi_class_confusion_matrix_plot"))] false (unchecked)
  [("thresholds", Arg "thresholds"); ("num_thresholds", Arg "num_thresholds"); ("name", Arg "name")]) Root.
(** multi_label_confusion_matrix_plot.py 72-97 [MultiLabelConfusionMatrixPlot.__init__] *)
Definition i_MultiLabelConfusionMatrixPlot : ctor := Sub (Level
  [("thresholds", Some (JNull)); ("num_thresholds", Some (JNull)); ("name", Some (JStr "multi_label_confusion_matrix_plot"))] false (unchecked)
  [("thresholds", Arg "thresholds"); ("num_thresholds", Arg "num_thresholds"); ("name", Arg "name")]) Root.
(** ndcg.py 47-62 [NDCG.__init__] *)
Definition i_NDCG : ctor := Sub (Level
  [("gain_key", None); ("top_k_list", Some (JNull)); ("name", Some (JStr "ndcg"))] false (unchecked)
  [("gain_key", Arg "gain_key"); ("top_k_list", Arg "top_k_list"); ("name", Arg "name")]) Root.
(** object_detection_confusion_matrix_metrics.py 49-130 [ObjectDetectionPrecisionAtRecall.__init__] *)
Definition i_ObjectDetectionPrecisionAtRecall : ctor := Sub (Level
  [("recall", None); ("thresholds", Some (JNull)); ("num_thresholds", Some (JNull)); ("name", Some (JNull)); ("iou_threshold", Some (JNull)); ("class_id", Some (JNull)); ("class_weight", Some (JNull)); ("area_range", Some (JNull)); ("max_num_detections", Some (JNull)); ("labels_to_stack", Some (JNull)); ("predictions_to_stack", Some (JNull)); ("num_detections_key", Some (JNull)); ("allow_missing_key", Some (JBool false))] false (in_range_or_list "recall")
  [("thresholds", Arg "thresholds"); ("num_thresholds", Arg "num_thresholds"); ("recall", Arg "recall"); ("name", Arg "name"); ("class_id", Arg "class_id"); ("iou_threshold", Arg "iou_threshold"); ("area_range", Arg "area_range"); ("max_num_detections", Arg "max_num_detections"); ("class_weight", Arg "class_weight"); ("labels_to_stack", Arg "labels_to_stack"); ("predictions_to_stack", Arg "predictions_to_stack"); ("num_detections_key", Arg "num_detections_key"); ("allow_missing_key", Arg "allow_missing_key")]) i_PrecisionAtRecall.
(** object_detection_confusion_matrix_metrics.py 213-284 [ObjectDetectionRecall.__init__] *)
Definition i_ObjectDetectionRecall : ctor := Sub (Level
  [("thresholds", Some (JNull)); ("name", Some (JNull)); ("iou_threshold", Some (JNull)); ("class_id", Some (JNull)); ("class_weight", Some (JNull)); ("area_range", Some (JNull)); ("max_num_detections", Some (JNull)); ("labels_to_stack", Some (JNull)); ("predictions_to_stack", Some (JNull)); ("num_detections_key", Some (JNull)); ("allow_missing_key", Some (JBool false))] false (unchecked)
  [("thresholds", Arg "thresholds"); ("name", Arg "name"); ("class_id", Arg "class_id"); ("iou_threshold", Arg "iou_threshold"); ("area_range", Arg "area_range"); ("max_num_detections", Arg "max_num_detections"); ("class_weight", Arg "class_weight"); ("labels_to_stack", Arg "labels_to_stack"); ("predictions_to_stack", Arg "predictions_to_stack"); ("num_detections_key", Arg "num_detections_key"); ("allow_missing_key", Arg "allow_missing_key")]) i_Recall.
(** object_detection_confusion_matrix_metrics.py 366-437 [ObjectDetectionPrecision.__init__] *)
Definition i_ObjectDetectionPrecision : ctor := Sub (Level
  [("thresholds", Some (JNull)); ("name", Some (JNull)); ("iou_threshold", Some (JNull)); ("class_id", Some (JNull)); ("class_weight", Some (JNull)); ("area_range", Some (JNull)); ("max_num_detections", Some (JNull)); ("labels_to_stack", Some (JNull)); ("predictions_to_stack", Some (JNull)); ("num_detections_key", Some (JNull)); ("allow_missing_key", Some (JBool false))] false (unchecked)
  [("thresholds", Arg "thresholds"); ("name", Arg "name"); ("class_id", Arg "class_id"); ("iou_threshold", Arg "iou_threshold"); ("area_range", Arg "area_range"); ("max_num_detections", Arg "max_num_detections"); ("class_weight", Arg "class_weight"); ("labels_to_stack", Arg "labels_to_stack"); ("predictions_to_stack", Arg "predictions_to_stack"); ("num_detections_key", Arg "num_detections_key"); ("allow_missing_key", Arg "allow_missing_key")]) i_Precision.
(** object_detection_confusion_matrix_metrics.py 522-585 [ObjectDetectionMaxRecall.__init__] *)
Definition i_ObjectDetectionMaxRecall : ctor := Sub (Level
  [("name", Some (JNull)); ("iou_threshold", Some (JNull)); ("class_id", Some (JNull)); ("class_weight", Some (JNull)); ("area_range", Some (JNull)); ("max_num_detections", Some (JNull)); ("labels_to_stack", Some (JNull)); ("predictions_to_stack", Some (JNull)); ("num_detections_key", Some (JNull)); ("allow_missing_key", Some (JBool false))] false (unchecked)
  [("name", Arg "name"); ("class_id", Arg "class_id"); ("iou_threshold", Arg "iou_threshold"); ("area_range", Arg "area_range"); ("max_num_detections", Arg "max_num_detections"); ("class_weight", Arg "class_weight"); ("labels_to_stack", Arg "labels_to_stack"); ("predictions_to_stack", Arg "predictions_to_stack"); ("num_detections_key", Arg "num_detections_key"); ("allow_missing_key", Arg "allow_missing_key")]) i_MaxRecall.
(** object_detection_confusion_matrix_metrics.py 664-745 [ObjectDetectionThresholdAtRecall.__init__] *)
Definition i_ObjectDetectionThresholdAtRecall : ctor := Sub (Level
  [("recall", None); ("thresholds", Some (JNull)); ("num_thresholds", Some (JNull)); ("name", Some (JNull)); ("iou_threshold", Some (JNull)); ("class_id", Some (JNull)); ("class_weight", Some (JNull)); ("area_range", Some (JNull)); ("max_num_detections", Some (JNull)); ("labels_to_stack", Some (JNull)); ("predictions_to_stack", Some (JNull)); ("num_detections_key", Some (JNull)); ("allow_missing_key", Some (JBool false))] false (in_range_or_list "recall")
  [("thresholds", Arg "thresholds"); ("num_thresholds", Arg "num_thresholds"); ("recall", Arg "recall"); ("name", Arg "name"); ("class_id", Arg "class_id"); ("iou_threshold", Arg "iou_threshold"); ("area_range", Arg "area_range"); ("max_num_detections", Arg "max_num_detections"); ("class_weight", Arg "class_weight"); ("labels_to_stack", Arg "labels_to_stack"); ("predictions_to_stack", Arg "predictions_to_stack"); ("num_detections_key", Arg "num_detections_key"); ("allow_missing_key", Arg "allow_missing_key")]) i_ThresholdAtRecall.
(** object_detection_confusion_matrix_plot.py 34-101 [ObjectDetectionConfusionMatrixPlot.__init__] *)
Definition i_ObjectDetectionConfusionMatrixPlot : ctor := Sub (Level
  [("num_thresholds", Some (JNum (Q2Qc (1000#1)))); ("name", Some (JStr "confusion_matrix_plot")); ("iou_threshold", Some (JNull)); ("class_id", Some (JNull)); ("class_weight", Some (JNull)); ("area_range", Some (JNull)); ("max_num_detections", Some (JNull)); ("labels_to_stack", Some (JNull)); ("predictions_to_stack", Some (JNull)); ("num_detections_key", Some (JNull)); ("allow_missing_key", Some (JBool false))] false (unchecked)
  [("num_thresholds", Arg "num_thresholds"); ("name", Arg "name"); ("class_id", Arg "class_id"); ("iou_threshold", Arg "iou_threshold"); ("area_range", Arg "area_range"); ("max_num_detections", Arg "max_num_detections"); ("class_weight", Arg "class_weight"); ("labels_to_stack", Arg "labels_to_stack"); ("predictions_to_stack", Arg "predictions_to_stack"); ("num_detections_key", Arg "num_detections_key"); ("allow_missing_key", Arg "allow_missing_key")]) i_ConfusionMatrixPlot.
(** object_detection_metrics.py 42-128 [COCOAveragePrecision.__init__] *)
Definition i_COCOAveragePrecision : ctor := Sub (Level
  [("num_thresholds", Some (JNull)); ("iou_threshold", Some (JNull)); ("class_id", Some (JNull)); ("class_weight", Some (JNull)); ("area_range", Some (JNull)); ("max_num_detections", Some (JNull)); ("recalls", Some (JNull)); ("num_recalls", Some (JNull)); ("name", Some (JNull)); ("labels_to_stack", Some (JNull)); ("predictions_to_stack", Some (JNull)); ("num_detections_key", Some (JNull)); ("allow_missing_key", Some (JBool false))] false (unchecked)
  [("num_thresholds", Arg "num_thresholds"); ("iou_threshold", Arg "iou_threshold"); ("class_id", Arg "class_id"); ("class_weight", Arg "class_weight"); ("area_range", Arg "area_range"); ("max_num_detections", Arg "max_num_detections"); ("recall_thresholds", Computed recall_thresholds); ("name", Arg "name"); ("labels_to_stack", Arg "labels_to_stack"); ("predictions_to_stack", Arg "predictions_to_stack"); ("num_detections_key", Arg "num_detections_key"); ("allow_missing_key", Arg "allow_missing_key")]) Root.
(** object_detection_metrics.py 238-318 [COCOMeanAveragePrecision.__init__] *)
Definition i_COCOMeanAveragePrecision : ctor := Sub (Level
  [("num_thresholds", Some (JNull)); ("iou_thresholds", Some (JNull)); ("class_ids", Some (JNull)); ("class_weights", Some (JNull)); ("area_range", Some (JNull)); ("max_num_detections", Some (JNull)); ("recalls", Some (JNull)); ("num_recalls", Some (JNull)); ("name", Some (JNull)); ("labels_to_stack", Some (JNull)); ("predictions_to_stack", Some (JNull)); ("num_detections_key", Some (JNull)); ("allow_missing_key", Some (JBool false))] false (unchecked)
  [("num_thresholds", Arg "num_thresholds"); ("iou_thresholds", Arg "iou_thresholds"); ("class_ids", Arg "class_ids"); ("class_weights", Arg "class_weights"); ("area_range", Arg "area_range"); ("max_num_detections", Arg "max_num_detections"); ("recalls", Arg "recalls"); ("num_recalls", Arg "num_recalls"); ("name", Arg "name"); ("labels_to_stack", Arg "labels_to_stack"); ("predictions_to_stack", Arg "predictions_to_stack"); ("num_detections_key", Arg "num_detections_key"); ("allow_missing_key", Arg "allow_missing_key")]) Root.
(** object_detection_metrics.py 434-502 [COCOAverageRecall.__init__] *)
Definition i_COCOAverageRecall : ctor := Sub (Level
  [("iou_thresholds", Some (JNull)); ("class_id", Some (JNull)); ("class_weight", Some (JNull)); ("area_range", Some (JNull)); ("max_num_detections", Some (JNull)); ("name", Some (JNull)); ("labels_to_stack", Some (JNull)); ("predictions_to_stack", Some (JNull)); ("num_detections_key", Some (JNull)); ("allow_missing_key", Some (JBool false))] false (unchecked)
  [("iou_thresholds", Arg "iou_thresholds"); ("class_id", Arg "class_id"); ("class_weight", Arg "class_weight"); ("area_range", Arg "area_range"); ("max_num_detections", Arg "max_num_detections"); ("name", Arg "name"); ("labels_to_stack", Arg "labels_to_stack"); ("predictions_to_stack", Arg "predictions_to_stack"); ("num_detections_key", Arg "num_detections_key"); ("allow_missing_key", Arg "allow_missing_key")]) Root.
(** object_detection_metrics.py 610-678 [COCOMeanAverageRecall.__init__] *)
Definition i_COCOMeanAverageRecall : ctor := Sub (Level
  [("iou_thresholds", Some (JNull)); ("class_ids", Some (JNull)); ("class_weights", Some (JNull)); ("area_range", Some (JNull)); ("max_num_detections", Some (JNull)); ("name", Some (JNull)); ("labels_to_stack", Some (JNull)); ("predictions_to_stack", Some (JNull)); ("num_detections_key", Some (JNull)); ("allow_missing_key", Some (JBool false))] false (unchecked)
  [("iou_thresholds", Arg "iou_thresholds"); ("class_ids", Arg "class_ids"); ("class_weights", Arg "class_weights"); ("area_range", Arg "area_range"); ("max_num_detections", Arg "max_num_detections"); ("name", Arg "name"); ("labels_to_stack", Arg "labels_to_stack"); ("predictions_to_stack", Arg "predictions_to_stack"); ("num_detections_key", Arg "num_detections_key"); ("allow_missing_key", Arg "allow_missing_key")]) Root.
(** prediction_difference_metrics.py 32-39 [SymmetricPredictionDifference.__init__] *)
Definition i_SymmetricPredictionDifference : ctor := Sub (Level
  [("name", Some (JStr "symmetric_prediction_difference"))] false (unchecked)
  [("name", Arg "name")]) Root.
(** query_statistics.py 36-58 [QueryStatistics.__init__] *)
Definition i_QueryStatistics : ctor := Sub (Level
  [("total_queries_name", Some (JStr "total_queries")); ("total_documents_name", Some (JStr "total_documents")); ("min_documents_name", Some (JStr "min_documents")); ("max_documents_name", Some (JStr "max_documents"))] false (unchecked)
  [("total_queries_name", Arg "total_queries_name"); ("total_documents_name", Arg "total_documents_name"); ("min_documents_name", Arg "min_documents_name"); ("max_documents_name", Arg "max_documents_name")]) Root.
(** rouge.py 255-271 [Rouge.__init__] *)
Definition i_Rouge : ctor := Sub (Level
  [("rouge_type", None); ("name", Some (JNull)); ("use_stemmer", Some (JBool false)); ("split_summaries", Some (JBool false)); ("tokenizer", Some (JNull))] false (unchecked)
  [("rouge_type", Arg "rouge_type"); ("name", NameOr rouge_type); ("use_stemmer", Arg "use_stemmer"); ("split_summaries", Arg "split_summaries"); ("tokenizer", Arg "tokenizer")]) Root.
(** sample_metrics.py 33-58 [FixedSizeSample.__init__] *)
Definition i_FixedSizeSample : ctor := Sub (Level
  [("sampled_key", None); ("size", None); ("name", Some (JStr "fixed_size_sample")); ("random_seed", Some (JNull))] false (unchecked)
  [("sampled_key", Arg "sampled_key"); ("size", Arg "size"); ("name", Arg "name"); ("random_seed", Arg "random_seed")]) Root.
(** score_distribution_plot.py 37-54 [ScoreDistributionPlot.__init__] *)
Definition i_ScoreDistributionPlot : ctor := Sub (Level
  [("num_thresholds", Some (JNum (Q2Qc (1000#1)))); ("name", Some (JStr "score_distribution_plot"))] false (unchecked)
  [("num_thresholds", Arg "num_thresholds"); ("name", Arg "name")]) Root.
(** semantic_segmentation_confusion_matrix_metrics.py 43-80 [SemanticSegmentationConfusionMatrix.__init__] *)
Definition i_SemanticSegmentationConfusionMatrix : ctor := Sub (Level
  [("class_ids", None); ("ground_truth_key", None); ("prediction_key", None); ("decode_ground_truth", Some (JBool true)); ("decode_prediction", Some (JBool false)); ("ignore_ground_truth_id", Some (JNull)); ("name", Some (JNull))] false (unchecked)
  [("name", Arg "name"); ("class_ids", Arg "class_ids"); ("ground_truth_key", Arg "ground_truth_key"); ("prediction_key", Arg "prediction_key"); ("decode_ground_truth", Arg "decode_ground_truth"); ("decode_prediction", Arg "decode_prediction"); ("ignore_ground_truth_id", Arg "ignore_ground_truth_id")]) Root.
(** semantic_segmentation_confusion_matrix_metrics.py 264-301 [SemanticSegmentationConfusionMatrixMetricBase.__init__] *)
Definition i_SemanticSegmentationConfusionMatrixMetricBase : ctor := Sub (Level
  [("class_ids", None); ("ground_truth_key", None); ("prediction_key", None); ("decode_ground_truth", Some (JBool true)); ("decode_prediction", Some (JBool false)); ("ignore_ground_truth_id", Some (JNull)); ("name", Some (JNull))] false (unchecked)
  [("name", Arg "name"); ("class_ids", Arg "class_ids"); ("ground_truth_key", Arg "ground_truth_key"); ("prediction_key", Arg "prediction_key"); ("decode_ground_truth", Arg "decode_ground_truth"); ("decode_prediction", Arg "decode_prediction"); ("ignore_ground_truth_id", Arg "ignore_ground_truth_id")]) Root.
(** set_match_confusion_matrix_metrics.py 46-98 [SetMatchPrecision.__init__] *)
Definition i_SetMatchPrecision : ctor := Sub (Level
  [("thresholds", Some (JNull)); ("top_k", Some (JNull)); ("name", Some (JNull)); ("prediction_class_key", Some (JStr "classes")); ("prediction_score_key", Some (JStr "scores")); ("class_key", Some (JNull)); ("weight_key", Some (JNull))] true (unchecked)
  [("thresholds", Arg "thresholds"); ("top_k", Arg "top_k"); ("name", Arg "name"); ("prediction_class_key", Arg "prediction_class_key"); ("prediction_score_key", Arg "prediction_score_key"); ("class_key", Arg "class_key"); ("weight_key", Arg "weight_key")]) i_Precision.
(** set_match_confusion_matrix_metrics.py 172-224 [SetMatchRecall.__init__] *)
Definition i_SetMatchRecall : ctor := Sub (Level
  [("thresholds", Some (JNull)); ("top_k", Some (JNull)); ("name", Some (JNull)); ("prediction_class_key", Some (JStr "classes")); ("prediction_score_key", Some (JStr "scores")); ("class_key", Some (JNull)); ("weight_key", Some (JNull))] true (unchecked)
  [("thresholds", Arg "thresholds"); ("top_k", Arg "top_k"); ("name", Arg "name"); ("prediction_class_key", Arg "prediction_class_key"); ("prediction_score_key", Arg "prediction_score_key"); ("class_key", Arg "class_key"); ("weight_key", Arg "weight_key")]) i_Recall.
(** squared_pearson_correlation.py 29-39 [SquaredPearsonCorrelation.__init__] *)
Definition i_SquaredPearsonCorrelation : ctor := Sub (Level
  [("name", Some (JStr "squared_pearson_correlation"))] false (unchecked)
  [("name", Arg "name")]) Root.
(** stats.py 136-155 [Mean.__init__] *)
Definition i_Mean : ctor := Sub (Level
  [("feature_key_path", None); ("example_weights_key_path", Some (JNull)); ("name", Some (JNull))] false (unchecked)
  [("feature_key_path", Arg "feature_key_path"); ("example_weights_key_path", Arg "example_weights_key_path"); ("name", NameOr mean_name)]) Root.
(** tjur_discrimination.py 44-54 [CoefficientOfDiscrimination.__init__] *)
Definition i_CoefficientOfDiscrimination : ctor := Sub (Level
  [("name", Some (JStr "coefficient_of_discrimination"))] false (unchecked)
  [("name", Arg "name")]) Root.
(** tjur_discrimination.py 130-142 [RelativeCoefficientOfDiscrimination.__init__] *)
Definition i_RelativeCoefficientOfDiscrimination : ctor := Sub (Level
  [("name", Some (JStr "relative_coefficient_of_discrimination"))] false (unchecked)
  [("name", Arg "name")]) Root.
(** weighted_example_count.py 25-32 [WeightedExampleCount.__init__] *)
Definition i_WeightedExampleCount : ctor := Sub (Level
  [("name", Some (JStr "weighted_example_count"))] false (unchecked)
  [("name", Arg "name")]) i_ExampleCount.

(** The registered classes, their default names and how get_config changes the settings. *)
Definition classes : list metric_class :=
  [MetricClass "MeanAttributions" i_MeanAttributions (None) [];
   MetricClass "MeanAbsoluteAttributions" i_MeanAbsoluteAttributions (None) [];
   MetricClass "TotalAttributions" i_TotalAttributions (None) [];
   MetricClass "TotalAbsoluteAttributions" i_TotalAbsoluteAttributions (None) [];
   MetricClass "Bleu" i_Bleu (None) [];
   MetricClass "MeanLabel" i_MeanLabel (None) [];
   MetricClass "MeanPrediction" i_MeanPrediction (None) [];
   MetricClass "Calibration" i_Calibration (None) [];
   MetricClass "CalibrationPlot" i_CalibrationPlot (None) [];
   MetricClass "AUC" i_AUC (Some "auc") [DropNone ["thresholds"; "num_thresholds"; "top_k"; "class_id"]];
   MetricClass "AUCPrecisionRecall" i_AUCPrecisionRecall (Some "auc_precision_recall") [DropNone ["thresholds"; "num_thresholds"; "top_k"; "class_id"]; DropKey "curve"];
   MetricClass "SensitivityAtSpecificity" i_SensitivityAtSpecificity (Some "sensitivity_at_specificity") [DropNone ["thresholds"; "num_thresholds"; "top_k"; "class_id"]];
   MetricClass "SpecificityAtSensitivity" i_SpecificityAtSensitivity (Some "specificity_at_sensitivity") [DropNone ["thresholds"; "num_thresholds"; "top_k"; "class_id"]];
   MetricClass "PrecisionAtRecall" i_PrecisionAtRecall (Some "precision_at_recall") [DropNone ["thresholds"; "num_thresholds"; "top_k"; "class_id"]];
   MetricClass "RecallAtPrecision" i_RecallAtPrecision (Some "recall_at_precision") [DropNone ["thresholds"; "num_thresholds"; "top_k"; "class_id"]];
   MetricClass "RecallAtFalsePositiveRate" i_RecallAtFalsePositiveRate (Some "recall_at_false_positive_rate") [DropNone ["thresholds"; "num_thresholds"; "top_k"; "class_id"]];
   MetricClass "TruePositives" i_TruePositives (Some "true_positives") [DropNone ["thresholds"; "num_thresholds"; "top_k"; "class_id"]];
   MetricClass "TP" i_TP (Some "tp") [DropNone ["thresholds"; "num_thresholds"; "top_k"; "class_id"]];
   MetricClass "TrueNegatives" i_TrueNegatives (Some "true_negatives") [DropNone ["thresholds"; "num_thresholds"; "top_k"; "class_id"]];
   MetricClass "TN" i_TN (Some "tn") [DropNone ["thresholds"; "num_thresholds"; "top_k"; "class_id"]];
   MetricClass "FalsePositives" i_FalsePositives (Some "false_positives") [DropNone ["thresholds"; "num_thresholds"; "top_k"; "class_id"]];
   MetricClass "FP" i_FP (Some "fp") [DropNone ["thresholds"; "num_thresholds"; "top_k"; "class_id"]];
   MetricClass "FalseNegatives" i_FalseNegatives (Some "false_negatives") [DropNone ["thresholds"; "num_thresholds"; "top_k"; "class_id"]];
   MetricClass "FN" i_FN (Some "fn") [DropNone ["thresholds"; "num_thresholds"; "top_k"; "class_id"]];
   MetricClass "BinaryAccuracy" i_BinaryAccuracy (Some "binary_accuracy") [DropNone ["thresholds"; "num_thresholds"; "top_k"; "class_id"]];
   MetricClass "Precision" i_Precision (Some "precision") [DropNone ["thresholds"; "num_thresholds"; "top_k"; "class_id"]];
   MetricClass "PPV" i_PPV (Some "ppv") [DropNone ["thresholds"; "num_thresholds"; "top_k"; "class_id"]];
   MetricClass "Recall" i_Recall (Some "recall") [DropNone ["thresholds"; "num_thresholds"; "top_k"; "class_id"]];
   MetricClass "TPR" i_TPR (Some "tpr") [DropNone ["thresholds"; "num_thresholds"; "top_k"; "class_id"]];
   MetricClass "Specificity" i_Specificity (Some "specificity") [DropNone ["thresholds"; "num_thresholds"; "top_k"; "class_id"]];
   MetricClass "TNR" i_TNR (Some "tnr") [DropNone ["thresholds"; "num_thresholds"; "top_k"; "class_id"]];
   MetricClass "FallOut" i_FallOut (Some "fall_out") [DropNone ["thresholds"; "num_thresholds"; "top_k"; "class_id"]];
   MetricClass "FPR" i_FPR (Some "fpr") [DropNone ["thresholds"; "num_thresholds"; "top_k"; "class_id"]];
   MetricClass "MissRate" i_MissRate (Some "miss_rate") [DropNone ["thresholds"; "num_thresholds"; "top_k"; "class_id"]];
   MetricClass "FNR" i_FNR (Some "fnr") [DropNone ["thresholds"; "num_thresholds"; "top_k"; "class_id"]];
   MetricClass "NegativePredictiveValue" i_NegativePredictiveValue (Some "negative_predictive_value") [DropNone ["thresholds"; "num_thresholds"; "top_k"; "class_id"]];
   MetricClass "NPV" i_NPV (Some "npv") [DropNone ["thresholds"; "num_thresholds"; "top_k"; "class_id"]];
   MetricClass "FalseDiscoveryRate" i_FalseDiscoveryRate (Some "false_discovery_rate") [DropNone ["thresholds"; "num_thresholds"; "top_k"; "class_id"]];
   MetricClass "FalseOmissionRate" i_FalseOmissionRate (Some "false_omission_rate") [DropNone ["thresholds"; "num_thresholds"; "top_k"; "class_id"]];
   MetricClass "Prevalence" i_Prevalence (Some "prevalence") [DropNone ["thresholds"; "num_thresholds"; "top_k"; "class_id"]];
   MetricClass "PrevalenceThreshold" i_PrevalenceThreshold (Some "prevalence_threshold") [DropNone ["thresholds"; "num_thresholds"; "top_k"; "class_id"]];
   MetricClass "ThreatScore" i_ThreatScore (Some "threat_score") [DropNone ["thresholds"; "num_thresholds"; "top_k"; "class_id"]];
   MetricClass "BalancedAccuracy" i_BalancedAccuracy (Some "balanced_accuracy") [DropNone ["thresholds"; "num_thresholds"; "top_k"; "class_id"]];
   MetricClass "F1Score" i_F1Score (Some "f1_score") [DropNone ["thresholds"; "num_thresholds"; "top_k"; "class_id"]];
   MetricClass "MatthewsCorrelationCoefficient" i_MatthewsCorrelationCoefficient (Some "matthews_correlation_coefficient") [DropNone ["thresholds"; "num_thresholds"; "top_k"; "class_id"]];
   MetricClass "FowlkesMallowsIndex" i_FowlkesMallowsIndex (Some "fowlkes_mallows_index") [DropNone ["thresholds"; "num_thresholds"; "top_k"; "class_id"]];
   MetricClass "Informedness" i_Informedness (Some "informedness") [DropNone ["thresholds"; "num_thresholds"; "top_k"; "class_id"]];
   MetricClass "Markedness" i_Markedness (Some "markedness") [DropNone ["thresholds"; "num_thresholds"; "top_k"; "class_id"]];
   MetricClass "PositiveLikelihoodRatio" i_PositiveLikelihoodRatio (Some "positive_likelihood_ratio") [DropNone ["thresholds"; "num_thresholds"; "top_k"; "class_id"]];
   MetricClass "NegativeLikelihoodRatio" i_NegativeLikelihoodRatio (Some "negative_likelihood_ratio") [DropNone ["thresholds"; "num_thresholds"; "top_k"; "class_id"]];
   MetricClass "DiagnosticOddsRatio" i_DiagnosticOddsRatio (Some "diagnostic_odds_ratio") [DropNone ["thresholds"; "num_thresholds"; "top_k"; "class_id"]];
   MetricClass "PredictedPositiveRate" i_PredictedPositiveRate (Some "predicted_positive_rate") [DropNone ["thresholds"; "num_thresholds"; "top_k"; "class_id"]];
   MetricClass "FalsePositiveFeatureSampler" i_FalsePositiveFeatureSampler (Some "false_positive_feature_sampler") [];
   MetricClass "FalseNegativeFeatureSampler" i_FalseNegativeFeatureSampler (Some "false_negative_feature_sampler") [];
   MetricClass "ConfusionMatrixAtThresholds" i_ConfusionMatrixAtThresholds (Some "confusion_matrix_at_thresholds") [];
   MetricClass "MaxRecall" i_MaxRecall (Some "max_recall") [DropNone ["thresholds"; "num_thresholds"; "top_k"; "class_id"]];
   MetricClass "ThresholdAtRecall" i_ThresholdAtRecall (Some "threshold_at_recall") [DropNone ["thresholds"; "num_thresholds"; "top_k"; "class_id"]];
   MetricClass "ConfusionMatrixPlot" i_ConfusionMatrixPlot (None) [];
   MetricClass "BinaryCrossEntropy" i_BinaryCrossEntropy (None) [];
   MetricClass "CategoricalCrossEntropy" i_CategoricalCrossEntropy (None) [];
   MetricClass "ExactMatch" i_ExactMatch (None) [];
   MetricClass "ExampleCount" i_ExampleCount (None) [];
   MetricClass "SymmetricFlipRate" i_SymmetricFlipRate (None) [];
   MetricClass "NegToNegFlipRate" i_NegToNegFlipRate (None) [];
   MetricClass "NegToPosFlipRate" i_NegToPosFlipRate (None) [];
   MetricClass "PosToNegFlipRate" i_PosToNegFlipRate (None) [];
   MetricClass "PosToPosFlipRate" i_PosToPosFlipRate (None) [];
   MetricClass "BooleanFlipRates" i_BooleanFlipRates (None) [];
   MetricClass "MeanAbsoluteError" i_MeanAbsoluteError (None) [];
   MetricClass "MeanAbsolutePercentageError" i_MeanAbsolutePercentageError (None) [];
   MetricClass "MeanSquaredError" i_MeanSquaredError (None) [];
   MetricClass "MeanSquaredLogarithmicError" i_MeanSquaredLogarithmicError (None) [];
   MetricClass "MinLabelPosition" i_MinLabelPosition (None) [];
   MetricClass "ModelCosineSimilarity" i_ModelCosineSimilarity (None) [];
   MetricClass "MultiClassConfusionMatrixAtThresholds" i_MultiClassConfusionMatrixAtThresholds (None) [];
   MetricClass "MultiClassConfusionMatrixPlot" i_MultiClassConfusionMatrixPlot (None) [];
   MetricClass "MultiLabelConfusionMatrixPlot" i_MultiLabelConfusionMatrixPlot (None) [];
   MetricClass "NDCG" i_NDCG (None) [];
   MetricClass "ObjectDetectionPrecisionAtRecall" i_ObjectDetectionPrecisionAtRecall (Some "object_detection_precision_at_recall") [DropNone ["thresholds"; "num_thresholds"; "top_k"; "class_id"]];
   MetricClass "ObjectDetectionRecall" i_ObjectDetectionRecall (Some "object_detection_recall") [DropNone ["thresholds"; "num_thresholds"; "top_k"; "class_id"]];
   MetricClass "ObjectDetectionPrecision" i_ObjectDetectionPrecision (Some "object_detection_precision") [DropNone ["thresholds"; "num_thresholds"; "top_k"; "class_id"]];
   MetricClass "ObjectDetectionMaxRecall" i_ObjectDetectionMaxRecall (Some "object_detection_max_recall") [DropNone ["thresholds"; "num_thresholds"; "top_k"; "class_id"]];
   MetricClass "ObjectDetectionThresholdAtRecall" i_ObjectDetectionThresholdAtRecall (Some "object_detection_threshold_at_recall") [DropNone ["thresholds"; "num_thresholds"; "top_k"; "class_id"]];
   MetricClass "ObjectDetectionConfusionMatrixPlot" i_ObjectDetectionConfusionMatrixPlot (None) [];
   MetricClass "COCOAveragePrecision" i_COCOAveragePrecision (Some "average_precision") [];
   MetricClass "COCOMeanAveragePrecision" i_COCOMeanAveragePrecision (Some "mean_average_precision") [];
   MetricClass "COCOAverageRecall" i_COCOAverageRecall (Some "average_recall") [];
   MetricClass "COCOMeanAverageRecall" i_COCOMeanAverageRecall (Some "mean_average_recall") [];
   MetricClass "SymmetricPredictionDifference" i_SymmetricPredictionDifference (None) [];
   MetricClass "QueryStatistics" i_QueryStatistics (None) [];
   MetricClass "Rouge" i_Rouge (None) [];
   MetricClass "FixedSizeSample" i_FixedSizeSample (None) [];
   MetricClass "ScoreDistributionPlot" i_ScoreDistributionPlot (None) [];
   MetricClass "SemanticSegmentationConfusionMatrix" i_SemanticSegmentationConfusionMatrix (Some "_semantic_segmentation_confusion_matrix") [];
   MetricClass "SemanticSegmentationTruePositive" i_SemanticSegmentationConfusionMatrixMetricBase (Some "semantic_segmentation_true_positives") [];
   MetricClass "SemanticSegmentationFalsePositive" i_SemanticSegmentationConfusionMatrixMetricBase (Some "semantic_segmentation_false_positives") [];
   MetricClass "SetMatchPrecision" i_SetMatchPrecision (Some "set_match_precision") [DropNone ["thresholds"; "num_thresholds"; "top_k"; "class_id"]];
   MetricClass "SetMatchRecall" i_SetMatchRecall (Some "set_match_recall") [DropNone ["thresholds"; "num_thresholds"; "top_k"; "class_id"]];
   MetricClass "SquaredPearsonCorrelation" i_SquaredPearsonCorrelation (None) [];
   MetricClass "Mean" i_Mean (None) [];
   MetricClass "CoefficientOfDiscrimination" i_CoefficientOfDiscrimination (None) [];
   MetricClass "RelativeCoefficientOfDiscrimination" i_RelativeCoefficientOfDiscrimination (None) [];
   MetricClass "WeightedExampleCount" i_WeightedExampleCount (None) []].
