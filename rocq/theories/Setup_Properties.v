(* Setup *)
From Coq Require Import String Ascii.
From Verif Require Import Base BaseFacts Beam BeamFacts Keys_Model Keras_Main Classes_Main Validation_Model Config_Model Setup_Model.
From Verif Require Import Setup_Main.
Local Open Scope string_scope.
Local Open Scope list_scope.

(* ------------------------------------------------------------------ *)
(** ** C247 the default shared model *)
(** Without a config the model is one of TFMA, or an estimator if the tags say serve and not eval. *)
Theorem C247_no_config :
  forall is_keras path callbacks dm w tags name loader stamp, exists type,
    default_eval_shared_model is_keras path callbacks dm w tags name None loader stamp =
      Ok (Model name type (Some path) callbacks dm w (or_loader loader (or_tag tags "eval")) stamp false) /\
    (type = "tf_estimator" <-> tagged "serve" tags /\ ~ tagged "eval" tags) /\ (type = "tf_estimator" \/ type = "tfma_eval").
Proof. exact C247_no_config_pf. Qed.

Theorem C247_config :
  forall is_keras path callbacks dm w tags name c loader stamp s, spec_of c name s -> exists type w' l,
    default_eval_shared_model is_keras path callbacks dm w tags name (Some c) loader stamp =
      Ok (Model name type (Some path) callbacks (match c_default_metrics c with Some b => Some b | None => dm end) w' l stamp (m_is_baseline s)) /\
    type_by_config is_keras path s type /\ weight_by_config s w w' /\
    (loader <> None -> l = loader) /\
    (loader = None -> In type ["tfma_eval"; "tf_generic"; "tf_estimator"; "tf_keras"; "tf_lite"; "tf_js"; "materialized_prediction"] ->
       l = Some (Some (or_tag tags (if String.eqb type "tfma_eval" then "eval" else "serve")))) /\
    (loader = None -> ~ In type ["tfma_eval"; "tf_generic"; "tf_estimator"; "tf_keras"; "tf_lite"; "tf_js"; "materialized_prediction"] -> l = None).
Proof. exact C247_config_pf. Qed.

(** A name the config does not have is refused. *)
Theorem C247_unknown :
  forall is_keras path callbacks dm w tags name c loader stamp, (forall s, ~ spec_of c name s) ->
    default_eval_shared_model is_keras path callbacks dm w tags name (Some c) loader stamp = Err ValueError.
Proof. exact C247_unknown_pf. Qed.

(** With a config the tag eval does not make the model an estimator. *)
Theorem C247_tags_refuted :
  exists c m, default_eval_shared_model (fun _ => false) "/model" None None NoWeight (Some ["eval"]) "" (Some c) None false = Ok m /\ es_type m = "tf_generic".
Proof. exact C247_tags_refuted_pf. Qed.

Example C247_example :
  let c := Config (EvalConfig [ModelSpec "a" "" [] "" [] "w" [] false "tf_lite"; ModelSpec "b" "" [] "" [] "" [] true "xgboost"] [] false UnknownMethod "") [] [] (Some false) None in
  default_eval_shared_model (fun _ => true) "/m" None (Some true) (OneWeight "v") None "a" (Some c) None false =
    Ok (Model "a" "tf_lite" (Some "/m") None (Some false) (OneWeight "w") (Some (Some ["serve"])) false false) /\
  default_eval_shared_model (fun _ => true) "/m" None (Some true) (OneWeight "v") None "b" (Some c) None true =
    Ok (Model "b" "xgboost" (Some "/m") None (Some false) (OneWeight "v") None true true) /\
  default_eval_shared_model (fun _ => true) "/m" None (Some true) NoWeight (Some ["serve"]) "a" None None false =
    Ok (Model "a" "tf_estimator" (Some "/m") None (Some true) NoWeight (Some (Some ["serve"])) false false) /\
  default_eval_shared_model (fun _ => true) "/m" None (Some true) NoWeight None "" (Some c) None false = Err ValueError.
Proof. repeat split; reflexivity. Qed.

(* ------------------------------------------------------------------ *)
(** ** C248 the default extractors *)
(** The extractors: those of the types of the models, then of SQL slices if there are any, then the
    examples of the batches and the slices of the config (or all examples). *)
Theorem C248_extractors :
  forall x cfg slices mat custom xs, default_extractors x cfg slices mat custom = Ok xs ->
    exists cfg' head sql sl, updated cfg x cfg' /\ front (types x) custom head /\ sql_kinds cfg' sql /\ slices_of cfg' sl /\
      map x_kind xs = head ++ sql ++ [Unbatched; SliceKeys sl (or_false mat)] /\
      (forall e, In e xs -> custom = Some e \/ x_kind e = Unbatched \/ x_config e = cfg') /\
      (forall e, In e xs -> In (x_kind e) [TransformedFeatures; TFLitePredictions; TFJSPredictions; Predictions] -> custom = Some e \/ x_models e = x).
Proof. exact C248_extractors_pf. Qed.

Theorem C248_refused :
  forall x cfg cfg' slices mat custom l, no_slices slices cfg -> updated cfg x cfg' -> verified x = Ok l ->
    (default_extractors x cfg slices mat custom = Err NotImplementedError <-> (unknown_type x /\ custom = None) \/ mixed x) /\
    (is_ok (default_extractors x cfg slices mat custom) = true <-> ~ ((unknown_type x /\ custom = None) \/ mixed x)).
Proof. exact C248_refused_pf. Qed.

(** Slices given without a config are ignored. *)
Theorem C248_slices_refuted :
  exists s xs, default_extractors Absent None (Some [s]) None None = Ok xs /\ s <> Slicing [] [] "" /\
    forall e l b, In e xs -> x_kind e = SliceKeys l b -> ~ In s l.
Proof. exact C248_slices_refuted_pf. Qed.

(** A custom extractor of predictions is ignored for models whose predictions exist. *)
Theorem C248_custom_refuted :
  exists m e xs, es_type m = "materialized_prediction" /\ default_extractors (Single m) None None None (Some e) = Ok xs /\ ~ In e xs.
Proof. exact C248_custom_refuted_pf. Qed.

Example C248_example :
  let m n t := Model n t None None None NoWeight None false false in
  let c := Config (EvalConfig [ModelSpec "a" "" [] "" [] "" [] false ""] [] false UnknownMethod "") [Slicing [] [] "SELECT"] [] None None in
  match default_extractors (Single (m "" "tf_keras")) (Some c) None None None with
  | Ok xs => map x_kind xs = [Features; TransformedFeatures; Labels; ExampleWeights; Predictions; SqlSliceKeys; Unbatched; SliceKeys [Slicing [] [] "SELECT"] false]
  | Err _ => False
  end /\
  (match default_extractors (Listed [m "a" "tf_lite"; m "b" "tf_lite"]) None None (Some true) (Some (Ext (Own "Mine") None Absent)) with
   | Ok xs => map x_kind xs = [Features; TransformedFeatures; Labels; ExampleWeights; Own "Mine"; Unbatched; SliceKeys [Slicing [] [] ""] true]
   | Err _ => False
   end) /\
  default_extractors (Listed [m "a" "tf_lite"; m "b" "tf_keras"]) None None None None = Err NotImplementedError /\
  default_extractors (Single (m "" "xgboost")) None None None None = Err NotImplementedError.
Proof. cbn. repeat split; reflexivity. Qed.

(* ------------------------------------------------------------------ *)
(** ** C249 the default evaluators *)
(** There is one evaluator, of metrics, plots, attributions and validations, which runs after the slices
    are known, with the models and the config with its defaults; and none if metrics, plots and
    attributions are all disabled. *)
Theorem C249_evaluators :
  forall x cfg cfg' l, verified x = Ok l -> updated cfg x cfg' ->
    (all_disabled cfg -> default_evaluators x cfg = Ok []) /\
    (~ all_disabled cfg -> exists v, default_evaluators x cfg = Ok [v] /\ v_after v = Some "ExtractSliceKeys" /\ v_config v = cfg' /\ v_models v = x /\
       forall k, In k (v_outputs v) <-> In k ["metrics"; "plots"; "attributions"; "validations"]).
Proof. exact C249_evaluators_pf. Qed.

(** The default metrics in the graph are not switched off for models of TFLite, contrary to the code
    that does so. *)
Theorem C249_default_metrics_refuted :
  exists m c v, es_type m = "tf_lite" /\ es_default_metrics m = Some true /\ default_evaluators (Single m) (Some c) = Ok [v] /\
    exists m', v_models v = Single m' /\ es_default_metrics m' = Some true.
Proof. exact C249_default_metrics_refuted_pf. Qed.

Example C249_example :
  let m := Model "" "tf_keras" None None None NoWeight None false false in
  let c d := Config (EvalConfig [] [] false UnknownMethod "") [] d None None in
  default_evaluators (Single m) (Some (c ["plots"; "attributions"; "metrics"])) = Ok [] /\
  (match default_evaluators (Single m) (Some (c ["plots"; "metrics"])) with
   | Ok [v] => v_outputs v = ["metrics"; "plots"; "attributions"; "validations"]
   | _ => False
   end) /\
  default_evaluators (Listed [m; m]) None = Err ValueError.
Proof. repeat split; reflexivity. Qed.

(* ------------------------------------------------------------------ *)
(** ** C250 the default writers *)
(** The config is written if there is one, with the places of the models by name and the data; the
    results are written to four places under the path, with the callbacks of an only model. *)
Theorem C250_writers :
  forall path x cfg data format out callbacks l stamp, verified x = Ok l -> stamped l = Ok stamp -> plain_path path -> one_place x ->
    exists locations paths cbs,
      default_writers (Some path) x cfg data format out callbacks =
        Ok (match cfg with
            | Some c => [ConfigWriter path c (match data with Some d => d | None => "<user provided PCollection>" end) (match format with Some f => f | None => "<unknown>" end) locations]
            | None => [] end ++ [ResultsWriter paths (match cfg with Some c => c | None => Config (EvalConfig [] [] false UnknownMethod "") [] [] None None end) cbs out stamp]) /\
      NoDup (map fst locations) /\
      (forall k p, In (k, p) locations <-> (exists m, entry x k m /\ place m = p) \/ (members x = [] /\ k = "" /\ p = "<unknown>")) /\
      (forall k p, In (k, p) paths <-> In k ["metrics"; "plots"; "attributions"; "validations"] /\ p = (path ++ "/" ++ k)%string) /\
      (forall m, x = Single m -> cbs = es_callbacks m) /\
      ((forall m, x <> Single m) -> cbs = Some (match callbacks with Some l => l | None => [] end)).
Proof. exact C250_writers_pf. Qed.

(** Without a path there are no default writers. *)
Theorem C250_no_path :
  forall x cfg data format out callbacks l, verified x = Ok l -> default_writers None x cfg data format out callbacks = Err TypeError.
Proof. exact C250_no_path_pf. Qed.

(** Callbacks given together with an only model are lost. *)
Theorem C250_callbacks_refuted :
  exists m ws, default_writers (Some "/out") (Single m) None None None "tfrecord" (Some ["mine"]) = Ok ws /\
    forall w paths c cbs out stamp, In w ws -> w = ResultsWriter paths c cbs out stamp -> cbs = None.
Proof. exact C250_callbacks_refuted_pf. Qed.

Example C250_example :
  let m n p := Model n "tf_keras" p None None NoWeight None false false in
  let c := Config (EvalConfig [] [] false UnknownMethod "") [] [] None None in
  default_writers (Some "/out") (Keyed [("a", m "" (Some "/a")); ("b", m "b" None)]) (Some c) (Some "/data") None "tfrecord" None =
    Ok [ConfigWriter "/out" c "/data" "<unknown>" [("a", "/a"); ("b", "<unknown>")];
        ResultsWriter [("metrics", "/out/metrics"); ("plots", "/out/plots"); ("attributions", "/out/attributions"); ("validations", "/out/validations")] c (Some []) "tfrecord" false] /\
  (match default_writers (Some "/out/") Absent None None None "tfrecord" (Some ["x"]) with
   | Ok [ResultsWriter paths _ cbs _ _] => cbs = Some ["x"] /\ hd ("", "") paths = ("metrics", "/out/metrics")
   | _ => False
   end).
Proof. repeat split; reflexivity. Qed.

(* ------------------------------------------------------------------ *)
(** ** C251 runs *)
(** In a run the extractors, evaluators and writers given are used, and the default ones if none are
    given; every evaluator has its place and something is evaluated. *)
Theorem C251_plan :
  forall a p, extract_evaluate_and_write a = Ok p ->
    (a_extractors a <> [] -> p_extractors p = a_extractors a) /\
    (a_extractors a = [] -> default_extractors (a_models a) (Some (p_config p)) None None None = Ok (p_extractors p)) /\
    (a_evaluators a <> [] -> p_evaluators p = a_evaluators a) /\
    (a_evaluators a = [] -> default_evaluators (a_models a) (Some (p_config p)) = Ok (p_evaluators p)) /\
    (a_writers a <> [] -> p_writers p = a_writers a) /\
    (a_writers a = [] -> default_writers (a_path a) (a_models a) (Some (p_config p)) (a_data a) (a_format a) "tfrecord" None = Ok (p_writers p)) /\
    (forall v, In v (p_evaluators p) -> has_place v (p_extractors p)) /\ (exists v k, In v (p_evaluators p) /\ In k (v_outputs v)) /\
    verify_eval_config (c_eval (p_config p)) false = Ok tt /\
    (forall c, a_config a = Some c -> with_defaults c (a_models a) = Ok (p_config p)).
Proof. exact C251_plan_pf. Qed.

(** A run with defaults only is possible if the config and the models fit: the defaults can be put in,
    the config is valid, the types of the models are known and not mixed, there is a path, and something
    is to be evaluated. *)
Theorem C251_accepted :
  forall x c c1 c2 path data format, with_defaults c x = Ok c1 -> with_defaults c1 x = Ok c2 -> verify_eval_config (c_eval c1) false = Ok tt ->
    ~ unknown_type x -> ~ mixed x -> ~ all_disabled (Some c) ->
    exists p, extract_evaluate_and_write (Args x (Some c) [] [] [] (Some path) data format None true false 1 None) = Ok p /\ p_batched p = true.
Proof. exact C251_accepted_pf. Qed.

(** An evaluator that is to run after a missing extractor is refused. *)
Theorem C251_place_refused :
  forall a c c1 v, a_config a = Some c -> with_defaults c (a_models a) = Ok c1 -> verify_eval_config (c_eval c1) false = Ok tt ->
    a_extractors a <> [] -> In v (a_evaluators a) -> ~ has_place v (a_extractors a) -> extract_evaluate_and_write a = Err ValueError.
Proof. exact C251_place_refused_pf. Qed.

(** With metrics, plots and attributions disabled the run fails, although validations are not. *)
Theorem C251_disabled_refuted :
  exists x c c1, with_defaults c x = Ok c1 /\ with_defaults c1 x = Ok c1 /\ verify_eval_config (c_eval c1) false = Ok tt /\ ~ unknown_type x /\ ~ mixed x /\ ~ In "validations" (c_disabled c) /\
    extract_evaluate_and_write (Args x (Some c) [] [] [] (Some "/out") None None None true false 1 None) = Err ValueError.
Proof. exact C251_disabled_refuted_pf. Qed.

(** Without a config and models nothing can be run, whatever extractors, evaluators and writers are given. *)
Theorem C251_nothing :
  forall xs vs ws path, extract_evaluate_and_write (Args Absent None xs vs ws path None None None true false 1 None) = Err TypeError.
Proof. exact C251_nothing_pf. Qed.

Example C251_example :
  let m := Model "" "tf_keras" (Some "/m") None None NoWeight None false false in
  let c := Config (EvalConfig [ModelSpec "a" "label" [] "" [] "" [] false "tf_keras"] [] false UnknownMethod "") [] [] None None in
  let v after := Evl "Mine" after ["mine"] None Absent in
  match extract_evaluate_and_write (Args (Single m) (Some c) [] [v (Some "ExtractPredictions")] [OwnWriter "W"] None None None None true false 1 None) with
  | Ok p => map v_stage (p_evaluators p) = ["Mine"] /\ p_writers p = [OwnWriter "W"] /\ p_batched p = true /\ map m_name (e_models (c_eval (p_config p))) = [""]
  | Err _ => False
  end /\
  extract_evaluate_and_write (Args (Single m) (Some c) [] [v (Some "Missing")] [OwnWriter "W"] None None None None true false 1 None) = Err ValueError /\
  extract_evaluate_and_write (Args (Single m) (Some c) [] [Evl "Mine" None [] None Absent] [OwnWriter "W"] None None None None true false 1 None) = Err ValueError.
Proof. intros m c v. split; [|split; vm_compute; reflexivity]. vm_compute. split; [reflexivity|]. split; [reflexivity|]. split; reflexivity. Qed.

(* ------------------------------------------------------------------ *)
(** ** C252 how the examples are read *)
(** Extracts are taken as they are; other examples go under the key of record batches or of inputs. *)
Theorem C252_extracts :
  forall (V : Type) batched (d : list (string * V)), NoDup (map fst d) -> forall k, dget String.eqb (to_extracts batched (IsExtracts d)) k = dget String.eqb d k.
Proof. exact C252_extracts_pf. Qed.

(** With a config, data read from records or text comes as record batches, and the features can be
    extracted. *)
Theorem C252_batches :
  forall (V : Type) tmp a format s p r, a_config a <> None -> run_model_analysis tmp a format = Ok (s, p, r) ->
    s <> SerializedRecords /\ p_batched p = true /\ (forall v : V, features_accept (to_extracts (p_batched p) (IsValue v)) = true).
Proof. exact C252_batches_pf. Qed.

(** Other formats are refused. *)
Theorem C252_formats :
  forall tmp a format c version, config_of (a_models a) (a_config a) (a_slices a) (a_write_config a) (a_ci a) (a_min_slice a) None = Ok (c, version) ->
    format <> "tfrecords" -> format <> "text" -> run_model_analysis tmp a format = Err ValueError.
Proof. exact C252_formats_pf. Qed.

(** Inputs are unbatched just where the first version is asked for, or one model for evaluation is
    given and no config. *)
Theorem C252_unbatched :
  forall x l cfg version, verified x = Ok l ->
    (is_batched_input x cfg version = Ok false <->
     version = Some 1%Z \/ cfg = None /\ exists m, l = Some [m] /\ es_type m = TFMA_EVAL) /\
    is_ok (is_batched_input x cfg version) = true.
Proof. exact C252_unbatched_pf. Qed.

(** Without a config the default extractors are given serialized examples, and the first of them refuses
    every one. *)
Theorem C252_legacy_refuted :
  exists a p, run_model_analysis "/tmp" a "tfrecords" = Ok (SerializedRecords, p, [None]) /\ a_extractors a = [] /\
    match p_extractors p with e :: _ => x_kind e = Features | [] => False end /\
    forall (V : Type) (v : V), features_accept (to_extracts (p_batched p) (IsValue v)) = false.
Proof. exact C252_legacy_refuted_pf. Qed.

(** And text is read as record batches, which are then taken for inputs. *)
Theorem C252_text_refuted :
  exists a p, run_model_analysis "/tmp" a "text" = Ok (TextRecordBatches, p, [None]) /\ batches_of TextRecordBatches = true /\
    forall (V : Type) (v : V), to_extracts (p_batched p) (IsValue v) = [("input", v)].
Proof. exact C252_text_refuted_pf. Qed.

Theorem C252_bytes :
  forall (V : Type) (nbytes : V -> Z) (len : V -> option Z) l ns, Forall2 (size_of nbytes len) l ns -> bytes_processed nbytes len l = fold_right Z.add 0%Z ns.
Proof. exact C252_bytes_pf. Qed.

Example C252_example :
  let m := Model "" "tf_keras" (Some "/m") None None NoWeight (Some (Some ["serve"])) false false in
  let e := Model "" "tfma_eval" (Some "/m") None None NoWeight (Some (Some ["eval"])) false false in
  let c := Config (EvalConfig [] [] false UnknownMethod "") [] [] None None in
  let a x := Args x (Some c) [] [] [] None None None None true false 1 None in
  let source x f := match run_model_analysis "/tmp" (a x) f with Ok (s, _, _) => Some s | Err _ => None end in
  source (Single m) "tfrecords" = Some ExampleRecordBatches /\ source (Single e) "tfrecords" = Some RawRecordBatches /\
  source (Single m) "text" = Some TextRecordBatches /\ source (Single m) "csv" = None /\
  bytes_processed (fun v => (10 * v)%Z) (fun v => if Z.ltb v 0 then None else Some v) [[("arrow_record_batch", 3%Z); ("input", 5%Z)]; [("input", 7%Z)]; [("input", (-1)%Z)]; []] = 37%Z.
Proof. intros m e c a source. split; [vm_compute; reflexivity|]. split; [vm_compute; reflexivity|]. split; [vm_compute; reflexivity|]. split; vm_compute; reflexivity. Qed.

(* ------------------------------------------------------------------ *)
(** ** C253 the results of runs *)
(** One result is returned for a config of one model, else one for each of its models, in order. *)
Theorem C253_results :
  forall tmp a format s p r, run_model_analysis tmp a format = Ok (s, p, r) ->
    exists c version, config_of (a_models a) (a_config a) (a_slices a) (a_write_config a) (a_ci a) (a_min_slice a) None = Ok (c, version) /\
      ((length (e_models (c_eval c)) <= 1)%nat -> r = [None]) /\ ((1 < length (e_models (c_eval c)))%nat -> r = map (fun m => Some (m_name m)) (e_models (c_eval c))).
Proof. exact C253_results_pf. Qed.

(** The default config has the models by name with their weights, the slices given and the options. *)
Theorem C253_default_config :
  forall x l slices write ci min, verified x = Ok (Some l) -> exists c,
    config_of x None slices write ci min None = Ok (c, 1%Z) /\ map m_name (e_models (c_eval c)) = map es_name l /\
    (forall m s, In (m, s) (combine l (e_models (c_eval c))) -> weight_by_config s NoWeight (es_weight m) \/ es_weight m = OneWeight "" \/ es_weight m = WeightPerOutput []) /\
    (c_slices c = match slices with Some s => s | None => [] end) /\ e_compute_ci (c_eval c) = ci /\ c_min_slice c = Some min /\ (In "eval_config" (c_disabled c) <-> write = false).
Proof. exact C253_default_config_pf. Qed.

(** An analysis of several models or data sets gives the results in their order. *)
Theorem C253_multiple :
  forall (A R : Type) (one : A -> res R) l rs, multiple_analysis one l = Ok rs -> Forall2 (fun a r => one a = Ok r) l rs.
Proof. exact C253_multiple_pf. Qed.

(** Slices and a config together are refused. *)
Theorem C253_slices_refused :
  forall is_keras tmp location data path c s l, single_model_analysis is_keras tmp location data path (Some c) (Some (s :: l)) = Err ValueError.
Proof. exact C253_slices_refused_pf. Qed.

(** single_model_analysis ignores the type of the model in the config: it always runs a model of TFMA. *)
Theorem C253_type_refuted :
  exists c s p r, map m_rest (e_models (c_eval c)) = ["tf_keras"] /\
    single_model_analysis (fun _ => true) "/tmp" "/m" "/data" None (Some c) None = Ok (s, p, r) /\
    (exists e m, In e (p_extractors p) /\ x_kind e = Predictions /\ x_models e = Single m /\ es_type m = "tfma_eval").
Proof. exact C253_type_refuted_pf. Qed.

Example C253_example :
  let m n := Model n "tf_keras" (Some "/m") None None NoWeight (Some (Some ["serve"])) false false in
  let c := Config (EvalConfig [ModelSpec "" "" [] "" [] "" [] false ""] [] false UnknownMethod "") [] [] None None in
  let result x := match run_model_analysis "/tmp" (Args x (Some c) [] [] [] None None None None true false 1 None) "tfrecords" with Ok (_, _, r) => r | Err _ => [] end in
  result (Single (m "")) = [None] /\ result (Listed [m "candidate"; m "baseline"]) = [Some "candidate"; Some "baseline"] /\
  (match single_model_analysis (fun _ => false) "/tmp" "/m" "/data" (Some "/out") None (Some [Slicing ["country"] [] ""]) with
   | Ok (s, p, r) => s = RawRecordBatches /\ r = [None] /\ c_slices (p_config p) = [Slicing ["country"] [] ""]
   | Err _ => False
   end) /\
  multiple_analysis (fun n => if Nat.eqb n 0 then Err ValueError else Ok (n * 2)) [1; 2] = Ok [2; 4].
Proof. intros m c result. split; [vm_compute; reflexivity|]. split; [vm_compute; reflexivity|]. split; [vm_compute; split; [reflexivity|split; reflexivity]|reflexivity]. Qed.

(* ------------------------------------------------------------------ *)
(** ** C254 analyses of data frames *)
(** The columns of predictions and labels, "prediction" and "label" if not named, must be there for every
    model; *)
Theorem C254_columns :
  forall tmp columns c path xs vs ws cbs, (exists s, In s (e_models (c_eval c)) /\ ~ found columns s) ->
    analyze_raw_data tmp columns (Some c) path xs vs ws cbs = Err KeyError.
Proof. exact C254_columns_pf. Qed.

(** then the run is that of a config with these keys. *)
Theorem C254_run :
  forall tmp columns c path xs vs ws cbs, (forall s, In s (e_models (c_eval c)) -> found columns s) -> exists c' ws',
    analyze_raw_data tmp columns (Some c) path xs vs ws cbs =
      (let! ws := match ws with [] => default_writers (Some (match path with Some p => p | None => tmp end)) Absent (Some c') None None "tfrecord" cbs | _ => Ok ws' end in
       extract_evaluate_and_write (Args Absent (Some c') xs vs ws (Some (match path with Some p => p | None => tmp end)) None None None true false 1 None)) /\
    ws' = ws /\ c_slices c' = c_slices c /\ c_disabled c' = c_disabled c /\ e_specs (c_eval c') = e_specs (c_eval c) /\
    Forall2 (fun s s' => m_prediction_key s' = or_name (m_prediction_key s) "prediction" /\ m_label_key s' = or_name (m_label_key s) "label" /\ m_name s' = m_name s /\
                         m_weight_key s' = m_weight_key s /\ m_weight_keys s' = m_weight_keys s) (e_models (c_eval c)) (e_models (c_eval c')).
Proof. exact C254_run_pf. Qed.

(** The config cannot be left out. *)
Theorem C254_no_config_refuted :
  exists columns, In "label" columns /\ In "prediction" columns /\ forall tmp path xs vs ws cbs, analyze_raw_data tmp columns None path xs vs ws cbs = Err AttributeError.
Proof. exact C254_no_config_refuted_pf. Qed.

(** And a config without models gets no keys of labels and predictions. *)
Theorem C254_config_refuted :
  exists tmp columns c p, analyze_raw_data tmp columns (Some c) None [] [] [] None = Ok p /\ In "label" columns /\ In "prediction" columns /\ e_models (c_eval c) = [] /\
     forall s, In s (e_models (c_eval (p_config p))) -> m_label_key s = "" /\ m_prediction_key s = "".
Proof. exact C254_config_refuted_pf. Qed.

Example C254_example :
  let c l p := Config (EvalConfig [ModelSpec "" l [] p [] "" [] false ""] [] false UnknownMethod "") [] [] None None in
  match analyze_raw_data "/tmp" ["x"; "prediction"; "y"] (Some (c "y" "")) None [] [] [] (Some ["cb"]) with
  | Ok p => map m_label_key (e_models (c_eval (p_config p))) = ["y"] /\ map m_prediction_key (e_models (c_eval (p_config p))) = ["prediction"] /\
            map x_kind (p_extractors p) = [Features; Labels; ExampleWeights; MaterializedPredictions; Unbatched; SliceKeys [Slicing [] [] ""] false]
  | Err _ => False
  end /\
  analyze_raw_data "/tmp" ["x"; "prediction"] (Some (c "" "")) None [] [] [] None = Err KeyError.
Proof. intros c. split; [vm_compute; split; [reflexivity|split; reflexivity]|vm_compute; reflexivity]. Qed.

Print Assumptions C247_no_config.
Print Assumptions C247_config.
Print Assumptions C247_unknown.
Print Assumptions C247_tags_refuted.
Print Assumptions C248_extractors.
Print Assumptions C248_refused.
Print Assumptions C248_slices_refuted.
Print Assumptions C248_custom_refuted.
Print Assumptions C249_evaluators.
Print Assumptions C249_default_metrics_refuted.
Print Assumptions C250_writers.
Print Assumptions C250_no_path.
Print Assumptions C250_callbacks_refuted.
Print Assumptions C251_plan.
Print Assumptions C251_accepted.
Print Assumptions C251_place_refused.
Print Assumptions C251_disabled_refuted.
Print Assumptions C251_nothing.
Print Assumptions C252_extracts.
Print Assumptions C252_batches.
Print Assumptions C252_formats.
Print Assumptions C252_unbatched.
Print Assumptions C252_legacy_refuted.
Print Assumptions C252_text_refuted.
Print Assumptions C252_bytes.
Print Assumptions C253_results.
Print Assumptions C253_default_config.
Print Assumptions C253_multiple.
Print Assumptions C253_slices_refused.
Print Assumptions C253_type_refuted.
Print Assumptions C254_columns.
Print Assumptions C254_run.
Print Assumptions C254_no_config_refuted.
Print Assumptions C254_config_refuted.
