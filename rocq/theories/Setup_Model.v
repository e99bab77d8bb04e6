(* Model of api/model_eval_lib.py 92-219, 395-876, 974-1385, 1388-1627 and utils/model_util.py 170-209:
   the default models, extractors, evaluators and writers, and the functions that put a run together.
   What extractors, evaluators and writers do is modelled elsewhere; here they are values that say
   which they are and what they were given. *)
From Coq Require Import String Ascii.
From Verif Require Import Base Beam Keys_Model Validation_Model Config_Model.
From Verif Require Results_Model.
Local Open Scope string_scope.
Local Open Scope list_scope.

(* ------------------------------------------------------------------ *)
(** * Constants: constants.py 28-43, 61-105 *)
Definition TFMA_EVAL := "tfma_eval".
Definition TF_ESTIMATOR := "tf_estimator".
Definition TF_KERAS := "tf_keras".
Definition TF_GENERIC := "tf_generic".
Definition TF_LITE := "tf_lite".
Definition TF_JS := "tf_js".
Definition MATERIALIZED_PREDICTION := "materialized_prediction".
Definition VALID_TF_MODEL_TYPES := [TFMA_EVAL; TF_GENERIC; TF_ESTIMATOR; TF_KERAS; TF_LITE; TF_JS; MATERIALIZED_PREDICTION].
(** model_eval_lib.py 71; tf.saved_model.SERVING *)
Definition LEGACY_EVAL_TAG := "eval".
Definition SERVING := "serve".

(* ------------------------------------------------------------------ *)
(** * Configs and shared models *)

(** SlicingSpec: feature_keys, feature_values and slice_keys_sql *)
Record slicing := Slicing { sl_keys : list string; sl_values : list (string * string); sl_sql : string }.
(** EvalConfig: what Config_Model has (where m_rest, the other fields of a ModelSpec, is read as the
    model_type here), slicing_specs, and the options disabled_outputs, include_default_metrics and
    min_slice_size.  Simplification: no cross_slicing_specs (their slices are in Slicer_Model). *)
Record config := Config {
  c_eval : eval_config; c_slices : list slicing; c_disabled : list string;
  c_default_metrics : option bool; c_min_slice : option Z
}.
Definition m_type (m : model_spec) : string := m_rest m.
Definition with_eval (c : config) (e : eval_config) : config :=
  Config e (c_slices c) (c_disabled c) (c_default_metrics c) (c_min_slice c).

(** An example_weight_key: none, one key, or one per output *)
Inductive weight_key := NoWeight | OneWeight (k : string) | WeightPerOutput (d : list (string * string)).
(** types.py 520-540 [EvalSharedModel]; callbacks are names; of a model_loader only the tags
    (which may be None) are kept. *)
Record model := Model {
  es_name : string; es_type : string; es_path : option string; es_callbacks : option (list string);
  es_default_metrics : option bool; es_weight : weight_key; es_loader : option (option (list string));
  es_stamp : bool; es_baseline : bool
}.
Definition named (m : model) (n : string) : model :=
  Model n (es_type m) (es_path m) (es_callbacks m) (es_default_metrics m) (es_weight m) (es_loader m) (es_stamp m) (es_baseline m).
Definition without_default_metrics (m : model) : model :=
  Model (es_name m) (es_type m) (es_path m) (es_callbacks m) (Some false) (es_weight m) (es_loader m) (es_stamp m) (es_baseline m).
(** The argument eval_shared_model: None, a single model, a list, or a dictionary *)
Inductive models := Absent | Single (m : model) | Listed (l : list model) | Keyed (l : list (string * model)).

(** model_util.py 212-266 [verify_and_update_eval_shared_models], as in Config_Model but with all
    fields of the models *)
Definition keyed_model (kv : string * model) : res model :=
  let (k, v) := kv in
  if set_str (es_name v) && set_str k && negb (String.eqb k (es_name v)) then Err ValueError
  else Ok (if negb (set_str (es_name v)) && set_str k then named v k else v).
Definition as_list (x : models) : res (list model) :=
  match x with Absent => Ok [] | Single m => Ok [m] | Listed l => Ok l | Keyed l => mapM keyed_model l end.
Definition verified (x : models) : res (option (list model)) :=
  match x with
  | Absent | Listed [] | Keyed [] => Ok None
  | _ => let! l := as_list x in
         match l with
         | [m] => Ok (Some [named m ""])
         | _ => if forallb (fun m => set_str (es_name m)) l then Ok (Some l) else Err ValueError
         end
  end.
(** The truth value of the argument *)
Definition given (x : models) : bool := match x with Absent | Listed [] | Keyed [] => false | _ => true end.

(** What Config_Model knows of a model *)
Definition plain (m : model) : shared_model :=
  SharedModel (es_name m) (es_baseline m) (es_stamp m) (match es_path m with Some p => p | None => "" end).
Definition plain_models (x : models) : shared_models :=
  match x with
  | Absent => NoModel | Single m => OneModel (plain m) | Listed l => ModelList (map plain l)
  | Keyed l => ModelDict (map (fun kv => (fst kv, plain (snd kv))) l)
  end.
(** 174-187 [_update_eval_config_with_defaults] *)
Definition with_defaults (c : config) (x : models) : res config :=
  let! e := update_for_models (c_eval c) (plain_models x) in Ok (with_eval c e).
(** model_util.py 1128-1145 [has_rubber_stamp] *)
Definition stamped (l : option (list model)) : res bool := has_rubber_stamp (option_map (map plain) l).

(* ------------------------------------------------------------------ *)
(** * The default shared model *)

(** model_util.py 170-209 [get_model_type]: [is_keras path] says that tf.keras.models.load_model
    succeeds and gives a Keras model.  The tags and the signature are not used. *)
Definition get_model_type (is_keras : string -> bool) (s : model_spec) (path : string) (tags : option (list string)) : string :=
  if set_str (m_type s) then m_type s
  else if set_str path && is_keras path then TF_KERAS
  else TF_GENERIC.

Definition has_tag (t : string) (tags : option (list string)) : bool :=
  match tags with Some l => memb String.eqb t l | None => false end.
(** 395-507 [default_eval_shared_model] *)
Definition default_eval_shared_model (is_keras : string -> bool) (path : string) (callbacks : option (list string))
           (default_metrics : option bool) (weight : weight_key) (tags : option (list string)) (name : string)
           (cfg : option config) (loader : option (option (list string))) (stamp : bool) : res model :=
  let! r :=
    match cfg with
    | None =>
        let type := if has_tag LEGACY_EVAL_TAG tags then TFMA_EVAL
                    else if has_tag SERVING tags then TF_ESTIMATOR else TFMA_EVAL in
        Ok (false, type, match tags with None => [LEGACY_EVAL_TAG] | Some t => t end, weight, default_metrics)
    | Some c =>
        match get_model_spec (c_eval c) name with
        | None => Err ValueError
        | Some s =>
            let type := get_model_type is_keras s path tags in
            let tags := match tags with
                        | None => if String.eqb type TFMA_EVAL then [LEGACY_EVAL_TAG] else [SERVING]
                        | Some t => t
                        end in
            let weight := if set_str (m_weight_key s) then OneWeight (m_weight_key s)
                          else if set_map (m_weight_keys s) then WeightPerOutput (m_weight_keys s) else weight in
            Ok (m_is_baseline s, type, tags, weight,
                match c_default_metrics c with Some b => Some b | None => default_metrics end)
        end
    end in
  let '(baseline, type, tags, weight, default_metrics) := r in
  let loader := match loader with
                | Some l => Some l
                | None => if memb String.eqb type VALID_TF_MODEL_TYPES then Some (Some tags) else None
                end in
  Ok (Model name type (Some path) callbacks default_metrics weight loader stamp baseline).

(* ------------------------------------------------------------------ *)
(** * Kinds of evaluations *)

(** 164-171 [_model_types]: a set *)
Definition model_types (l : option (list model)) : option (list string) :=
  match l with None | Some [] => None | Some l => Some (dedup String.eqb (map es_type l)) end.
Definition only (t : string) (types : option (list string)) : bool :=
  match types with Some [t'] => String.eqb t t' | _ => false end.

(** 92-126 [_is_legacy_eval] *)
Definition is_legacy_eval (version : option Z) (l : option (list model)) (cfg : option config) : bool :=
  match version with Some v => Z.eqb v 1 | None => false end ||
  match l, cfg with Some [m], None => String.eqb (es_type m) TFMA_EVAL | _, _ => false end.

(** 1003-1026 [is_legacy_estimator]; tags of None cannot be searched (TypeError), a missing loader
    has no tags (AttributeError); all() stops at the first model without the tag. *)
Fixpoint all_legacy (l : list model) : res bool :=
  match l with
  | [] => Ok true
  | m :: r => match es_loader m with
              | None => Err AttributeError
              | Some None => Err TypeError
              | Some (Some tags) => if memb String.eqb LEGACY_EVAL_TAG tags then all_legacy r else Ok false
              end
  end.
Definition is_legacy_estimator (x : models) : res bool :=
  let! l := verified x in
  if only TFMA_EVAL (model_types l) then all_legacy (match l with Some l => l | None => [] end) else Ok false.

(** 1029-1059 [is_batched_input] *)
Definition is_batched_input (x : models) (cfg : option config) (version : option Z) : res bool :=
  let! l := verified x in Ok (negb (is_legacy_eval version l cfg)).

(** eval_config_writer.py 34: EVAL_CONFIG_FILE *)
Definition EVAL_CONFIG_FILE := "eval_config".
(** 129-161 [_default_eval_config]; no models (None) cannot be iterated. *)
Definition default_spec (m : model) : model_spec :=
  let (one, many) := match es_weight m with NoWeight => ("", []) | OneWeight k => (k, []) | WeightPerOutput d => ("", d) end in
  ModelSpec (es_name m) "" [] "" [] one many false "".
Definition default_eval_config (l : option (list model)) (slices : option (list slicing)) (write_config ci : bool) (min_slice : Z) : res config :=
  match l with
  | None => Err TypeError
  | Some l => Ok (Config (EvalConfig (map default_spec l) [] ci UnknownMethod "")
                    (match slices with Some s => s | None => [] end)
                    (if write_config then [] else [EVAL_CONFIG_FILE]) None (Some min_slice))
  end.

(* ------------------------------------------------------------------ *)
(** * Extractors *)

(** The extractors, and one of the user's with its stage name *)
Inductive kind :=
  | Features | TransformedFeatures | Labels | ExampleWeights | MaterializedPredictions | TFLitePredictions
  | TFJSPredictions | Predictions | SqlSliceKeys | Unbatched | SliceKeys (slices : list slicing) (materialize : bool) | Own (stage : string).
(** The stage names, extractors/*.py *)
Definition stage (k : kind) : string :=
  match k with
  | Features => "ExtractFeatures" | TransformedFeatures => "ExtractTransformedFeatures" | Labels => "ExtractLabels"
  | ExampleWeights => "ExtractExampleWeights" | MaterializedPredictions => "ExtractMaterializedPredictions"
  | TFLitePredictions => "ExtractTFLitePredictions" | TFJSPredictions => "ExtractTFJSPredictions"
  | Predictions => "ExtractPredictions" | SqlSliceKeys => "ExtractSqlSliceKeys" | Unbatched => "ExtractUnbatchedInputs"
  | SliceKeys _ _ => "ExtractSliceKeys" | Own s => s
  end.
(** An extractor with the config and the models it was given *)
Record ext := Ext { x_kind : kind; x_config : option config; x_models : models }.

(** 510-515 [_has_sql_slices] *)
Definition has_sql_slices (c : option config) : bool :=
  match c with Some c => existsb (fun s => set_str (sl_sql s)) (c_slices c) | None => false end.
(** slice_key_extractor.py 56-79 [SliceKeyExtractor], called with eval_config only; without specs there
    is the overall slice *)
Definition overall : slicing := Slicing [] [] "".
Definition slice_keys (c : option config) (materialize : bool) : ext :=
  let l := match c with Some c => c_slices c | None => [] end in
  Ext (SliceKeys (match l with [] => [overall] | _ => l end) materialize) c Absent.

(** 518-680 [default_extractors]; tensor_adapter_config is left out, config_version is not used. *)
Definition default_extractors (x : models) (cfg : option config) (slices : option (list slicing)) (materialize : option bool)
           (custom : option ext) : res (list ext) :=
  let materialize := match materialize with Some b => b | None => false end in
  if match slices with Some (_ :: _) => true | _ => false end && match cfg with Some _ => true | None => false end then Err ValueError
  else
    let! cfg := match cfg with Some c => let! c := with_defaults c x in Ok (Some c) | None => Ok None end in
    let! l := verified x in
    let plain k := Ext k cfg Absent in
    let with_model k := Ext k cfg x in
    let slicing := (if has_sql_slices cfg then [plain SqlSliceKeys] else []) ++ [Ext Unbatched None Absent; slice_keys cfg materialize] in
    let or_custom k := match custom with Some e => e | None => with_model k end in
    if given x then
      match model_types l with
      | None => Err AssertionError
      | Some types =>
          if negb (forallb (fun t => memb String.eqb t VALID_TF_MODEL_TYPES) types) && match custom with None => true | _ => false end
          then Err NotImplementedError
          else if only MATERIALIZED_PREDICTION (Some types) then
            Ok ([plain Features; plain Labels; plain ExampleWeights; plain MaterializedPredictions] ++ slicing)
          else if only TF_LITE (Some types) then
            Ok ([plain Features; with_model TransformedFeatures; plain Labels; plain ExampleWeights; or_custom TFLitePredictions] ++ slicing)
          else if memb String.eqb TF_LITE types then Err NotImplementedError
          else if only TF_JS (Some types) then
            Ok ([plain Features; plain Labels; plain ExampleWeights; or_custom TFJSPredictions] ++ slicing)
          else if memb String.eqb TF_JS types then Err NotImplementedError
          else Ok ([plain Features] ++ match custom with None => [with_model TransformedFeatures] | _ => [] end ++
                   [plain Labels; plain ExampleWeights; or_custom Predictions] ++ slicing)
      end
    else Ok ([plain Features; plain Labels; plain ExampleWeights; plain MaterializedPredictions] ++ slicing).

(* ------------------------------------------------------------------ *)
(** * Evaluators and writers *)

(** constants.py: the keys of outputs *)
Definition METRICS_KEY := "metrics".
Definition PLOTS_KEY := "plots".
Definition ATTRIBUTIONS_KEY := "attributions".
Definition VALIDATIONS_KEY := "validations".
(** An evaluator: its stage, the stage it runs after (None or "": before all extractors), the keys of
    its outputs, and the config and models it was given *)
Record evl := Evl { v_stage : string; v_after : option string; v_outputs : list string; v_config : option config; v_models : models }.
(** metrics_plots_and_validations_evaluator.py 72-122, 973-1064: what it yields always has these keys *)
Definition metrics_evaluator (cfg : option config) (x : models) : evl :=
  Evl "EvaluateMetricsAndPlots" (Some "ExtractSliceKeys") [METRICS_KEY; PLOTS_KEY; ATTRIBUTIONS_KEY; VALIDATIONS_KEY] cfg x.

(** 683-741 [default_evaluators]; the models without default metrics (722-726) are not used.
    MetricsPlotsAndValidationsEvaluator verifies the models again. *)
Definition default_evaluators (x : models) (cfg : option config) : res (list evl) :=
  let! l := verified x in
  let! cfg := match cfg with Some c => let! c := with_defaults c x in Ok (Some c) | None => Ok None end in
  let disabled := match cfg with Some c => c_disabled c | None => [] end in
  let types := model_types l in
  let l := match cfg with
           | Some _ => if only TF_LITE types || only TF_JS types then option_map (map without_default_metrics) l else l
           | None => l
           end in
  if memb String.eqb METRICS_KEY disabled && memb String.eqb PLOTS_KEY disabled && memb String.eqb ATTRIBUTIONS_KEY disabled
  then Ok [] else Ok [metrics_evaluator cfg x].

(** Writers, with their arguments; one of the user's has a stage name *)
Inductive wr :=
  | ConfigWriter (path : string) (cfg : config) (data format : string) (locations : list (string * string))
  | ResultsWriter (paths : list (string * string)) (cfg : config) (callbacks : option (list string)) (format : string) (stamp : bool)
  | OwnWriter (stage : string).
Definition writer_stage (w : wr) : string :=
  match w with ConfigWriter _ _ _ _ _ => "WriteEvalConfig" | ResultsWriter _ _ _ _ _ => "WriteMetricsAndPlots" | OwnWriter s => s end.
(** os.path.join of a directory and a name that does not start with a slash *)
Fixpoint ends_with_slash (s : string) : bool :=
  match s with "" => false | String c "" => Ascii.eqb c "/" | String _ r => ends_with_slash r end.
Definition join_path (a b : string) : string := if String.eqb a "" || ends_with_slash a then a ++ b else a ++ "/" ++ b.
Definition empty_config : config := Config (EvalConfig [] [] false UnknownMethod "") [] [] None None.
(** 744-834 [default_writers], eval_config_writer.py 146-151; os.path.join of None is a TypeError *)
Definition default_writers (path : option string) (x : models) (cfg : option config) (data format : option string)
           (output_format : string) (callbacks : option (list string)) : res (list wr) :=
  let callbacks := match callbacks with Some l => Some l | None => Some [] end in
  let callbacks := match x with Single m => es_callbacks m | _ => callbacks end in
  let! l := verified x in
  let locations :=
    match l with
    | None => [("", "<unknown>")]
    | Some l => fold_left (fun d m => dset String.eqb d (es_name m) (match es_path m with Some p => p | None => "<unknown>" end)) l []
    end in
  match path with
  | None => Err TypeError
  | Some path =>
      let config_writers := match cfg with
        | Some c => [ConfigWriter path c (match data with Some d => d | None => "<user provided PCollection>" end)
                                 (match format with Some f => f | None => "<unknown>" end) locations]
        | None => [] end in
      let! stamp := stamped l in
      Ok (config_writers ++
          [ResultsWriter (map (fun k => (k, join_path path k)) [METRICS_KEY; PLOTS_KEY; ATTRIBUTIONS_KEY; VALIDATIONS_KEY])
             (match cfg with Some c => c | None => empty_config end) callbacks output_format stamp])
  end.

(* ------------------------------------------------------------------ *)
(** * Runs *)

(** evaluators/evaluator.py 43-62 [verify_evaluator], Results_Model *)
Definition verify_evaluator (v : evl) (xs : list ext) : res unit :=
  Results_Model.verify_evaluator (A := unit) (Results_Model.Evaluator (v_stage v) (v_after v) (fun _ : unit => []))
    (map (fun x => Results_Model.Extractor (stage (x_kind x)) (fun e : unit => e)) xs).

(** What is written where: the extractors, evaluators and writers of a run, and whether the examples
    go to the key of record batches *)
Record plan := Plan { p_config : config; p_extractors : list ext; p_evaluators : list evl; p_writers : list wr; p_batched : bool }.

(** The arguments of 1063-1081 that are read *)
Record args := Args {
  a_models : models; a_config : option config; a_extractors : list ext; a_evaluators : list evl; a_writers : list wr;
  a_path : option string; a_data : option string; a_format : option string; a_slices : option (list slicing);
  a_write_config : bool; a_ci : bool; a_min_slice : Z; a_version : option Z
}.
(** 1169-1185: the config and its version *)
Definition config_of (x : models) (cfg : option config) (slices : option (list slicing)) (write_config ci : bool) (min_slice : Z)
           (version : option Z) : res (config * Z) :=
  let! l := verified x in
  match cfg with
  | None => let! c := default_eval_config l slices write_config ci min_slice in
            Ok (c, match version with Some v => v | None => 1%Z end)
  | Some c => let! c := with_defaults c x in
              Ok (c, match version with Some v => v | None => 2%Z end)
  end.
(** 1063-1227 [ExtractEvaluateAndWriteResults], 976-1000 [WriteResults]: every verified evaluator runs,
    so the evaluation is empty exactly if no evaluator has an output.  Lists left out are empty. *)
Definition extract_evaluate_and_write (a : args) : res plan :=
  let! r := config_of (a_models a) (a_config a) (a_slices a) (a_write_config a) (a_ci a) (a_min_slice a) (a_version a) in
  let (c, version) := r in
  let! _ := verify_eval_config (c_eval c) false in
  let! xs := match a_extractors a with [] => default_extractors (a_models a) (Some c) None None None | l => Ok l end in
  let! vs := match a_evaluators a with [] => default_evaluators (a_models a) (Some c) | l => Ok l end in
  let! _ := mapM (fun v => verify_evaluator v xs) vs in
  let! ws := match a_writers a with [] => default_writers (a_path a) (a_models a) (Some c) (a_data a) (a_format a) "tfrecord" None | l => Ok l end in
  let! batched := is_batched_input (a_models a) (Some c) (Some version) in
  match concat (map v_outputs vs) with
  | [] => Err ValueError
  | _ => Ok (Plan c xs vs ws batched)
  end.

(** The key examples that are no extracts are put under: 847-853, 866-874 *)
Definition INPUT_KEY := "input".
Definition ARROW_RECORD_BATCH_KEY := "arrow_record_batch".
Section Inputs.
  Context {V : Type}.
  (** An example: extracts, or a serialized example or record batch *)
  Inductive example := IsExtracts (d : list (string * V)) | IsValue (v : V).
  Definition to_extracts (batched : bool) (x : example) : list (string * V) :=
    match x with
    | IsExtracts d => dupdate String.eqb [] d
    | IsValue v => [(if batched then ARROW_RECORD_BATCH_KEY else INPUT_KEY, v)]
    end.
  (** features_extractor.py 172-199: extracts with neither of the two keys are refused; what a record
      batch gives is in Extract_Model. *)
  Definition FEATURES_KEY := "features".
  Definition features_accept (d : list (string * V)) : bool :=
    dmem String.eqb d ARROW_RECORD_BATCH_KEY || dmem String.eqb d FEATURES_KEY.

  (** 190-198 [_get_extract_num_bytes], 208-219 [_TrackBytesProcessed]: [nbytes] of a record batch,
      [len] of bytes (None if it is something else) *)
  Context (nbytes : V -> Z) (len : V -> option Z).
  Definition num_bytes (d : list (string * V)) : Z :=
    match dget String.eqb d ARROW_RECORD_BATCH_KEY with
    | Some v => nbytes v
    | None => match dget String.eqb d INPUT_KEY with
              | Some v => match len v with Some n => n | None => 0 end
              | None => 0
              end
    end.
  Definition bytes_processed (l : list (list (string * V))) : Z := fold_left Z.add (map num_bytes l) 0%Z.
End Inputs.

(** How the data is read: 1318-1360 *)
Inductive source := RawRecordBatches | ExampleRecordBatches | SerializedRecords | TextRecordBatches.
Definition batches_of (s : source) : bool := match s with SerializedRecords => false | _ => true end.
Definition read_data (x : models) (c : config) (version : Z) (format : string) : res source :=
  if String.eqb format "tfrecords" then
    let! b := is_batched_input x (Some c) (Some version) in
    if b then let! e := is_legacy_estimator x in Ok (if e then RawRecordBatches else ExampleRecordBatches)
    else Ok SerializedRecords
  else if String.eqb format "text" then Ok TextRecordBatches
  else Err ValueError.
(** 1379-1385: the results loaded, by the name of the model (None: the only one) *)
Definition results_of (c : config) : list (option string) :=
  match e_models (c_eval c) with
  | [] | [_] => [None]
  | l => map (fun s => Some (m_name s)) l
  end.
(** 1230-1385 [run_model_analysis]; a missing output path is a new directory [tmp]. *)
Definition run_model_analysis (tmp : string) (a : args) (format : string) : res (source * plan * list (option string)) :=
  let path := match a_path a with Some p => p | None => tmp end in
  let! r := config_of (a_models a) (a_config a) (a_slices a) (a_write_config a) (a_ci a) (a_min_slice a) None in
  let (c, version) := r in
  let! s := read_data (a_models a) c version format in
  let! p := extract_evaluate_and_write
              (Args (a_models a) (Some c) (a_extractors a) (a_evaluators a) (a_writers a) (Some path) (a_data a) (Some format) None
                    true false 1 (Some version)) in
  Ok (s, p, results_of c).

(** 1388-1434 [single_model_analysis]: the config is not given to default_eval_shared_model, whose other
    arguments have their defaults. *)
Definition single_model_analysis (is_keras : string -> bool) (tmp location data : string) (path : option string) (cfg : option config)
           (slices : option (list slicing)) : res (source * plan * list (option string)) :=
  match slices, cfg with
  | Some (_ :: _), Some _ => Err ValueError
  | _, _ =>
      let cfg := match slices with
                 | Some ((_ :: _) as l) => Some (Config (EvalConfig [] [] false UnknownMethod "") l [] None None)
                 | _ => cfg
                 end in
      let! m := default_eval_shared_model is_keras location None (Some true) NoWeight None "" None None false in
      run_model_analysis tmp (Args (Single m) cfg [] [] [] (Some (match path with Some p => p | None => tmp end)) (Some data) None None
                                   true false 1 None) "tfrecords"
  end.
(** 1437-1480 [multiple_model_analysis], [multiple_data_analysis]: [one] is single_model_analysis with
    the other arguments; the results are in the order of the models or the data. *)
Definition multiple_analysis {A R} (one : A -> res R) (l : list A) : res (list R) := mapM one l.

(** 1483-1627 [analyze_raw_data]: the keys of the specs are filled in and looked for among the columns;
    without a config there is nothing to iterate.  A field of a message that repeats is never None
    (1598). *)
Definition raw_spec (columns : list string) (s : model_spec) : res model_spec :=
  let p := if set_str (m_prediction_key s) then m_prediction_key s else "prediction" in
  let l := if set_str (m_label_key s) then m_label_key s else "label" in
  if negb (memb String.eqb p columns) then Err KeyError
  else if negb (memb String.eqb l columns) then Err KeyError
  else Ok (ModelSpec (m_name s) l (m_label_keys s) p (m_prediction_keys s) (m_weight_key s) (m_weight_keys s) (m_is_baseline s) (m_rest s)).
Definition analyze_raw_data (tmp : string) (columns : list string) (cfg : option config) (path : option string) (extractors : list ext)
           (evaluators : list evl) (writers : list wr) (callbacks : option (list string)) : res plan :=
  match cfg with
  | None => Err AttributeError
  | Some c =>
      let! specs := mapM (raw_spec columns) (e_models (c_eval c)) in
      let e := c_eval c in
      let c := with_eval c (EvalConfig specs (e_specs e) (e_compute_ci e) (e_ci_method e) (e_rest e)) in
      let path := match path with Some p => p | None => tmp end in
      let! ws := match writers with [] => default_writers (Some path) Absent (Some c) None None "tfrecord" callbacks | l => Ok l end in
      extract_evaluate_and_write (Args Absent (Some c) extractors evaluators ws (Some path) None None None true false 1 None)
  end.
