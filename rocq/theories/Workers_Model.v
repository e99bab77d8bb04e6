(* Model of what is sent to workers and put together again there: metrics/tf_metric_wrapper.py 315-355
   and 543-556 (Keras metrics and losses by their configs), extractors/tfx_bsl_predictions_extractor.py
   (models run in bulk), and the names of post_export_metrics/metric_keys.py. *)
From Coq Require Import String Ascii.
From Verif Require Import Base Util_Model Config_Model Batches_Model Extract_Model Specs_Model.
Local Open Scope string_scope.
Local Open Scope list_scope.

(* ------------------------------------------------------------------ *)
(** * Keras metrics and losses: tf_metric_wrapper.py *)

(** Metrics and losses by output. *)
Definition outputs_of := list (string * list metric).

Section Keras.
  (** tf_keras.metrics.__name__ and tf_keras.losses.__name__ *)
  Variables metrics_name losses_name : string.
  (** What a worker can import, and the metrics Keras knows by name; [losses_known]: the losses it
      knows by name. *)
  Variable e : env.
  Variable losses_known : list (string * (kind * string)).

  (** 332-346 [_custom_objects] *)
  Definition custom_objects (l : outputs_of) : list (string * string) :=
    flat_map (fun om => flat_map (fun m =>
      if negb (String.eqb (mt_module m) metrics_name) && negb (String.eqb (mt_module m) losses_name)
      then [(mt_module m, mt_class m)] else []) (snd om)) l.

  (** 349-355 [_load_custom_objects].  A class is its kind and its module.  Simplifications: a module
      that cannot be imported fails like a missing class, and the class a module has under a name
      is one defined there. *)
  Definition load_custom_objects (l : list (string * string)) : res (list (string * (kind * string))) :=
    foldM (fun d mc => match dget String.eqb (match dget String.eqb (env_modules e) (fst mc) with Some x => x | None => [] end) (snd mc) with
                       | Some k => Ok (dset String.eqb d (snd mc) (k, fst mc))
                       | None => Err AttributeError
                       end) l [].

  (** metric_util.py 179-190 [deserialize_metric], [deserialize_loss] with use_legacy_format: Keras
      looks into the scope of custom objects before the classes it knows, and calls from_config. *)
  Definition deserialize (known scope : list (string * (kind * string))) (c : string * settings) : res instance :=
    match dget String.eqb scope (fst c) with
    | Some (k, module) => Ok (Instance k module (fst c) (snd c))
    | None => match dget String.eqb known (fst c) with
              | Some (k, module) => Ok (Instance k module (fst c) (snd c))
              | None => Err ValueError
              end
    end.

  Definition is_metric (m : metric) : bool := match mt_kind m with KerasMetric => true | _ => false end.
  Definition is_loss (m : metric) : bool := match mt_kind m with KerasLoss => true | _ => false end.
  (** 303-311: the configs of an output *)
  Definition configs_of_output (om : string * list metric) : res (string * (list (string * settings) * list (string * settings))) :=
    let! ms := mapM (serialize "MeanMetricWrapper") (filter is_metric (snd om)) in
    let! ls := mapM (serialize "LossFunctionWrapper") (filter is_loss (snd om)) in
    Ok (fst om, (ms, ls)).
  (** 518-520: sorted by the name of the output *)
  Fixpoint insert_sorted {A} (o : string * A) (l : list (string * A)) : list (string * A) :=
    match l with
    | [] => [o]
    | p :: t => if String.leb (fst o) (fst p) then o :: l else p :: insert_sorted o t
    end.
  (** 543-556 [setup]: the metrics of each output, then its losses (each in a _LossMetric).  [all]
      are the metrics of all sub keys (line 136), [group] those of one. *)
  Definition setup (all group : outputs_of) : res (list (string * list instance)) :=
    let! configs := mapM configs_of_output group in
    let! scope := load_custom_objects (custom_objects all) in
    mapM (fun oc => let! ms := mapM (deserialize (env_keras e) scope) (fst (snd oc)) in
                    let! ls := mapM (deserialize losses_known scope) (snd (snd oc)) in
                    Ok (fst oc, ms ++ ls)) (fold_right insert_sorted [] configs).
End Keras.

(* ------------------------------------------------------------------ *)
(** * Models run in bulk: extractors/tfx_bsl_predictions_extractor.py *)

(** The model specs, as far as read here. *)
Record bulk_model_spec := BulkModelSpec { bm_name : string; bm_signature : string; bm_batch_size : Z }.
(** An InferenceSpecType: path, tags and signature of a saved model, and the least and the greatest
    size of batches. *)
Record inference_spec := InferenceSpec {
  is_path : string; is_tags : list string; is_signature : list string; is_min_batch : Z; is_max_batch : Z
}.

Section Bulk.
  (** model_loader.tags and the signatures of the meta graphs, by the path of a saved model *)
  Variable tags_at : string -> list string.
  Variable graphs_at : string -> list (list (string * unit)).

  (** 143 *)
  Definition by_name (l : list shared_model) : list (string * shared_model) := fold_left (fun d m => dset String.eqb d (sm_name m) m) l [].
  (** 144-159: the signature, by default that of the saved model.  The copy of the spec is changed,
      the config is not. *)
  Definition with_signature (d : list (string * shared_model)) (ms : bulk_model_spec) : res bulk_model_spec :=
    if set_str (bm_signature ms) then Ok ms else
    let! s := get_eval_shared_model (bm_name ms) d in
    Ok (BulkModelSpec (bm_name ms) (default_name_of_saved_model (graphs_at (sm_path s))) (bm_batch_size ms)).
  (** 64-80 *)
  Definition inference_spec_of (d : list (string * shared_model)) (ms : bulk_model_spec) : res (string * inference_spec) :=
    let! s := get_eval_shared_model (bm_name ms) d in
    Ok (bm_name ms, InferenceSpec (sm_path s) (tags_at (sm_path s)) [bm_signature ms] (bm_batch_size ms) (bm_batch_size ms)).
  (** 131-170 [TfxBslPredictionsExtractor], 48-82 [TfxBslInferenceWrapper.__init__]: names and specs *)
  Definition bulk_inference (shared : shared_models) (specs : list bulk_model_spec) : res (list string * list inference_spec) :=
    let! l := verify_and_update_eval_shared_models shared in
    match l with
    | None | Some [] => Err ValueError
    | Some l =>
        let d := by_name l in
        let! specs := mapM (with_signature d) specs in
        let! nis := mapM (inference_spec_of d) specs in
        Ok (map fst nis, map snd nis)
    end.
  (** 84-102 [expand]: RunInferencePerModel gives the logs of an input in the order of the specs *)
  Definition logs_of {I P} (infer : inference_spec -> I -> P) (names : list string) (specs : list inference_spec) (x : I) : list (string * P) :=
    fold_left (fun d nl => dset String.eqb d (fst nl) (snd nl)) (combine names (map (fun s => infer s x) specs)) [].
End Bulk.

(* ------------------------------------------------------------------ *)
(** * Names: post_export_metrics/metric_keys.py *)

(** "/".join *)
Definition join_parts (l : list string) : string := String.concat "/" l.
(** 29-31 [base_key] *)
Definition base_key (suffix prefix : string) : string := prefix ++ "/" ++ suffix.
(** 34-50 [tagged_key] *)
Definition tagged_key (key tag : string) : string :=
  match split_at "/" key with
  | first :: second :: rest => first ++ "/" ++ tag ++ "/" ++ join_parts (second :: rest)
  | _ => key ++ "/" ++ tag
  end.
(** 53-60 [upper_bound_key], [lower_bound_key] *)
Definition upper_bound_key (key : string) : string := key ++ "/upper_bound".
Definition lower_bound_key (key : string) : string := key ++ "/lower_bound".
(** str.endswith *)
Fixpoint ends_with (suffix s : string) : bool :=
  String.eqb s suffix || match s with EmptyString => false | String _ t => ends_with suffix t end.
(** 106-111 [_PLOT_SUFFIXES] *)
Definition plot_suffixes : list string :=
  ["calibration_plot/matrices"; "calibration_plot/boundaries"; "auc_plots/matrices"; "auc_plots/thresholds"].
(** 114-121 [is_plot_key] *)
Definition is_plot_key (key : string) : bool := existsb (fun suffix => ends_with suffix key) plot_suffixes.
