(** Preprocessors that select features, and what Keras models that are evaluated natively get:
    metrics/metric_types.py 1059-1205, evaluators/keras_util.py 88-113 and 441-475. *)
From Coq Require Import String Ascii.
From Verif Require Import Base Util_Model Slicer_Model Evaluator_Model.
Local Open Scope string_scope.
Local Open Scope list_scope.

(** constants.py 56 *)
Definition INPUT_KEY := "input".

(** metric_types.py 1094-1097 (and 1127-1130, 1160-1163, 1195-1198): {k: {} for k in feature_keys}, an
    empty dict if there are none.  A dict has a key once. *)
Definition keys_filter (feature_keys : list string) : filt := nest (dedup String.eqb feature_keys) (Filt []).

(** metric_types.py 1059-1073 [InputPreprocessor] *)
Definition input_preprocessor (include_default_inputs : bool) : filt :=
  standard_filter [(INPUT_KEY, Filt [])] include_default_inputs [] [].

(** metric_types.py 1076-1104 [FeaturePreprocessor]; None and empty lists of names are not told apart
    (1031-1034 only ask whether they are true) *)
Definition feature_preprocessor (feature_keys : list string) (include_default_inputs : bool)
    (model_names output_names : list string) : filt :=
  standard_filter [(FEATURES_KEY, keys_filter feature_keys)] include_default_inputs model_names output_names.

(** metric_types.py 1107-1137 [TransformedFeaturePreprocessor] *)
Definition transformed_feature_preprocessor (feature_keys : list string) (include_default_inputs : bool)
    (model_names output_names : list string) : filt :=
  standard_filter [(TRANSFORMED_FEATURES_KEY, nest model_names (keys_filter feature_keys))]
    include_default_inputs model_names output_names.

(** metric_types.py 1140-1173 [CombinedFeaturePreprocessor]: the same filter for both *)
Definition combined_feature_preprocessor (feature_keys : list string) (include_default_inputs : bool)
    (model_names output_names : list string) : filt :=
  let include_features := nest model_names (keys_filter feature_keys) in
  standard_filter [(TRANSFORMED_FEATURES_KEY, include_features); (FEATURES_KEY, include_features)]
    include_default_inputs model_names output_names.

(** metric_types.py 1176-1205 [AttributionPreprocessor] *)
Definition attribution_preprocessor (feature_keys : list string) (include_default_inputs : bool)
    (model_names output_names : list string) : filt :=
  standard_filter [(ATTRIBUTIONS_KEY, nest model_names (nest output_names (keys_filter feature_keys)))]
    include_default_inputs model_names output_names.

(** keras_util.py 94-108: the preprocessor of the computation that calls model.evaluate; feature_keys
    are the names of the input specs of the model *)
Definition evaluate_filter (model_name : string) (feature_keys : list string) : filt :=
  merged_filter [feature_preprocessor feature_keys true [model_name] [];
                 transformed_feature_preprocessor feature_keys true [model_name] []].

Section Evaluate.
  Context {A : Type}.

  (** util.py 1262-1278 [StandardExtracts.features], [transformed_features] *)
  Definition extract_of (k : string) (x : data A) : option (data A) :=
    match x with Dict d => dget String.eqb d k | Leaf _ => None end.

  (** keras_util.py 465-471 [_KerasEvaluateCombiner._add_input]: the features of the example.
      Simplification: features that are not a dict raise TypeError here instead of in merge_extracts
      (484). *)
  Definition evaluate_features (x : data A) : res (list (string * data A)) :=
    let features := extract_of FEATURES_KEY x in
    match extract_of TRANSFORMED_FEATURES_KEY x with
    | Some (Dict (t :: ts)) =>
        match features with Some (Dict f) => Ok (dupdate String.eqb f (t :: ts)) | _ => Err TypeError end
    | _ => match features with Some (Dict f) => Ok f | _ => Err TypeError end
    end.
End Evaluate.

(** stats.py 97-99 [_convert_key_path_to_dict] *)
Definition path_filter (key_path : list string) : filt := fold_right (fun k f => Filt [(k, f)]) (Filt []) key_path.

(** stats.py 112-117 [_mean_metric]: the include filter of the mean of a feature *)
Definition mean_filter (feature_key_path : list string) (example_weights_key_path : option (list string)) : filt :=
  let include := path_filter feature_key_path in
  match example_weights_key_path with
  | Some (k :: p) => merge_filters include (path_filter (k :: p))
  | _ => include
  end.
