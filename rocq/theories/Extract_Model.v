(* Model of the extractors that run models and pick values: utils/model_util.py 89-117,
   269-353 (with Config_Model), 356-415, 443-606, 633-704, 855-1098, extractors/
   predictions_extractor.py, transformed_features_extractor.py, labels_extractor.py,
   example_weights_extractor.py, materialized_predictions_extractor.py,
   counterfactual_predictions_extractor.py, features_extractor.py, sql_slice_key_extractor.py
   and inference_base.py. *)
From Coq Require Import String Ascii.
From Verif Require Import Base Util_Model Config_Model Batches_Model.
Local Open Scope string_scope.
Local Open Scope list_scope.

(** constants.py *)
Definition FEATURES_KEY := "features".
Definition TRANSFORMED_FEATURES_KEY := "transformed_features".
Definition INPUT_KEY := "input".
Definition LABELS_KEY := "labels".
Definition PREDICTIONS_KEY := "predictions".
Definition EXAMPLE_WEIGHTS_KEY := "example_weights".
Definition SLICE_KEY_TYPES_KEY := "_slice_key_types".

(* ------------------------------------------------------------------ *)
(** * Names of signatures and inputs: model_util.py *)

(** str.split *)
Fixpoint split_at (sep : ascii) (s : string) : list string :=
  match s with
  | EmptyString => [""]
  | String c t => match split_at sep t with
                  | w :: ws => if Ascii.eqb c sep then "" :: w :: ws else String c w :: ws
                  | [] => []
                  end
  end.
(** 108-117 [get_preprocessing_signature] *)
Definition get_preprocessing_signature (signature_name : string) : res (string * list string) :=
  match split_at "@" signature_name with
  | [] => Err ValueError
  | name :: input_names => match input_names with
                           | _ :: _ :: _ => Err NotImplementedError
                           | _ => Ok (name, input_names)
                           end
  end.
Definition has_at (s : string) : bool := Nat.ltb 1 (length (split_at "@" s)).

(** s.endswith(suffix) and s[:-len(suffix)] *)
Fixpoint strip_suffix (suffix s : string) : option string :=
  if String.eqb s suffix then Some ""
  else match s with
       | EmptyString => None
       | String c t => option_map (String c) (strip_suffix suffix t)
       end.
(** 89, 633-644 [find_input_name_in_features] *)
Definition KERAS_INPUT_SUFFIX := "_input".
Definition find_input_name_in_features (features : list string) (input_name : string) : option string :=
  if memb String.eqb input_name features then Some input_name
  else match strip_suffix KERAS_INPUT_SUFFIX input_name with
       | Some n => if memb String.eqb n features then Some n else None
       | None => None
       end.
(** 647-674 [filter_by_input_names] *)
Definition filter_by_input_names {A} (input_dict : list (string * A)) (input_names : list string) : option (list (string * A)) :=
  match input_names with
  | [] => None
  | _ => fold_left (fun result name =>
           match result, find_input_name_in_features (dkeys input_dict) name with
           | Some r, Some n => match dget String.eqb input_dict n with Some v => Some (dset String.eqb r name v) | None => None end
           | _, _ => None
           end) input_names (Some [])
  end.

(* ------------------------------------------------------------------ *)
(** * Running models: model_util.py *)

Section Extract.
  (** Scalars: numbers, strings, serialized examples. *)
  Context {V : Type}.
  Notation value := (data (leaf V)).
  Notation extract := (list (string * data (leaf V))).

  (** What a function of a model is called with: keyword arguments, one dictionary, positional
      arguments, or serialized examples (1051-1062). *)
  Inductive call_input := Keywords (l : list (string * value)) | Dictionary (l : list (string * value))
                        | Positional (l : list value) | Examples (l : list V).
  (** Its result; sparse and ragged tensors (443-450) are not modelled. *)
  Inductive call_output := Tensor (a : arr V) | Tensors (l : list (string * arr V)).
  Definition fn : Type := call_input -> res call_output.

  (** Of the specs of the inputs only whether they are strings is read. *)
  Notation specs := (list (string * bool)).
  (** An entry of model.signatures: the second part of structured_input_signature if it has
      two parts and that part is a dictionary (587-596). *)
  Record signature := Signature { sg_specs : option (list (string * bool)); sg_call : fn }.
  (** A function (or model) that is_callable_fn accepts (472-484), with its inputs
      (556-571). *)
  Record layer := Layer { ly_specs : list (string * bool); ly_call : fn }.
  (** A model: its signatures if it has that attribute, the other attributes that are
      callable, and the model itself if it is callable. *)
  Record model := Model { md_signatures : option (list (string * signature)); md_layers : list (string * layer); md_self : option layer }.
  (** experimental/preprocessing_functions: input_signature and the function *)
  Record preprocessing_fn := PreprocessingFn { pf_specs : list bool; pf_call : fn }.
  Context (preprocessing_functions : list (string * preprocessing_fn)).

  (** 356-366 [get_default_signature_name_from_model] *)
  Definition get_default_signature_name_from_model (m : model) : string :=
    match md_signatures m with
    | Some sigs => if dmem String.eqb sigs "predict" then "predict" else "serving_default"
    | None => "serving_default"
    end.

  Inductive found := FoundSignature (s : signature) | FoundLayer (l : layer).
  (** 487-531 [get_callable] *)
  Definition get_callable (m : model) (signature_name : string) (required : bool) : res (option found) :=
    match md_signatures m, md_self m with
    | None, None => Ok None
    | sigs, self =>
        match (if set_str signature_name then None else self) with
        | Some l => Ok (Some (FoundLayer l))
        | None =>
            let name := if set_str signature_name then signature_name else get_default_signature_name_from_model m in
            match sigs with
            | None => Err AttributeError
            | Some sigs =>
                match dget String.eqb sigs name with
                | Some s => Ok (Some (FoundSignature s))
                | None => match dget String.eqb (md_layers m) name with
                          | Some l => Ok (Some (FoundLayer l))
                          | None => if required then Err ValueError else Ok None
                          end
                end
            end
        end
    end.
  (** 534-606 [get_input_specs] *)
  Definition get_input_specs (m : model) (signature_name : string) (required : bool) : res (option specs) :=
    match md_signatures m, md_self m with
    | None, None => Ok None
    | sigs, self =>
        match (if set_str signature_name then None else self) with
        | Some l => Ok (Some (ly_specs l))
        | None =>
            let name := if set_str signature_name then signature_name else get_default_signature_name_from_model m in
            match sigs with
            | None => Err AttributeError
            | Some sigs =>
                match dget String.eqb sigs name with
                | Some s => Ok (sg_specs s)
                | None => match dget String.eqb (md_layers m) name with
                          | Some l => Ok (Some (ly_specs l))
                          | None => if required then Err ValueError else Ok None
                          end
                end
            end
        end
    end.

  (** 677-704 [get_inputs]; the conversion to TensorFlow tensors is not modelled. *)
  Definition get_inputs (features : list (string * value)) (input_specs : specs) : option (list (string * value)) :=
    let serialized := match input_specs with
                      | [(name, is_string)] => is_string && match find_input_name_in_features (dkeys features) name with None => true | Some _ => false end
                      | _ => false
                      end in
    if serialized then None
    else match filter_by_input_names features (map fst input_specs) with
         | Some [] => None
         | r => r
         end.

  (** 453-459 [_check_shape] *)
  Definition check_shape (batch_size : option nat) (a : arr V) : res unit :=
    match shape a with
    | [] => Err IndexError
    | n :: _ => match batch_size with
                | Some m => if Nat.eqb n m then Ok tt else Err ValueError
                | None => Err ValueError
                end
    end.
  (** 434-440, 462-480 [_to_dense_outputs]; an output that passes the check has a shape, so
      that _maybe_expand_dims leaves it alone. *)
  Definition to_dense_outputs (outputs : call_output) (batch_size : option nat) (signature_name : string) : res (list (string * arr V)) :=
    match outputs with
    | Tensor a => let! _ := check_shape batch_size a in Ok [(signature_name, a)]
    | Tensors l => let! _ := mapM (fun kv => check_shape batch_size (snd kv)) l in Ok l
    end.

  (** util.py 859-874 [get_features_from_extracts], without FeaturesPredictionsLabels *)
  Definition get_features_from_extracts (e : extract) : res (list (string * value)) :=
    match dget String.eqb e FEATURES_KEY with
    | None => Ok []
    | Some (Dict d) => Ok d
    | Some (Leaf _) => Err TypeError
    end.
  (** 1003-1006: the serialized examples, flattened if they are an array; values that are
      neither an array nor None are not modelled (refused). *)
  Definition get_serialized_examples (e : extract) : res (option (list V)) :=
    match dget String.eqb e INPUT_KEY with
    | None => Err KeyError
    | Some (Leaf (Dense a)) => Ok (Some (items a))
    | Some (Leaf PyNone) => Ok None
    | Some _ => Err ValueError
    end.

  (** What is run: a function of the model, or one of TFMA's preprocessing functions. *)
  Inductive runnable := OfModel (f : found) | OfTfma (f : preprocessing_fn).
  (** 1059-1068: how it is called with named inputs *)
  Definition call_named (r : runnable) (inputs : list (string * value)) : res call_output :=
    match r with
    | OfModel (FoundSignature s) => sg_call s (Keywords inputs)
    | OfModel (FoundLayer l) => ly_call l (Dictionary inputs)
    | OfTfma f => pf_call f (Positional (map snd inputs))
    end.
  Definition call_examples (r : runnable) (l : list V) : res call_output :=
    match r with
    | OfModel (FoundSignature s) => sg_call s (Examples l)
    | OfModel (FoundLayer y) => ly_call y (Examples l)
    | OfTfma f => pf_call f (Examples l)
    end.
  (** 1070-1075: errors of the types of the inputs become ValueErrors; InvalidArgumentError is
      taken for a ValueError *)
  Definition call_errors {A} (r : res A) : res A := match r with Err TypeError => Err ValueError | r => r end.

  (** 1015-1078: one signature.  None: it is not there and not required. *)
  Definition run_signature (m : model) (features : list (string * value)) (examples : option (list V)) (batch_size : option nat)
      (required : bool) (signature_name : string) : res (option (list (string * arr V))) :=
    (* 1021-1041 *)
    let! pre := (if has_at signature_name
                 then let! ni := get_preprocessing_signature signature_name in
                      Ok (fst ni, option_map (fun f => (f, combine (snd ni) (pf_specs f))) (dget String.eqb preprocessing_functions (fst ni)))
                 else Ok (signature_name, None)) in
    let name := fst pre in
    let pre_specs := match snd pre with Some (_, s) => s | None => [] end in
    (* 1043-1048 *)
    let! inputs := match pre_specs with
                   | [] => let! s := get_input_specs m name required in
                           Ok (match s with Some (x :: t) => get_inputs features (x :: t) | _ => None end)
                   | _ => Ok (get_inputs features pre_specs)
                   end in
    (* 1049-1056 *)
    let! name := match inputs, examples with
                 | None, None => Err AssertionError
                 | None, Some _ => Ok (if set_str name then name else get_default_signature_name_from_model m)
                 | Some _, _ => Ok name
                 end in
    (* 1058-1065 *)
    let! callable := match snd pre with
                     | Some (f, _) => Ok (Some (OfTfma f))
                     | None => let! c := get_callable m name required in
                               match c with
                               | Some c => Ok (Some (OfModel c))
                               | None => if required then Err ValueError else Ok None
                               end
                     end in
    match callable with
    | None => Ok None
    | Some r =>
        let! outputs := call_errors (match inputs, examples with
                                     | Some d, _ => call_named r d
                                     | None, Some l => call_examples r l
                                     | None, None => Err AssertionError
                                     end) in
        let! o := to_dense_outputs outputs batch_size name in
        Ok (Some o)
    end.

  (** 915-998: the arguments of ModelSignaturesDoFn *)
  Record signatures_fn := SignaturesFn {
    sf_models : list (string * model);             (* after setup *)
    sf_output_keypath : list string;
    sf_signature_names : list (string * list string);
    sf_defaults : option (list string);
    sf_prefer_dict_outputs : bool
  }.
  (** 975-991 [setup]; [names] are the names of the model specs. *)
  Definition setup (names : list string) (loaded : list (string * model)) : res (list (string * model)) :=
    foldM (fun d n => let name := if Nat.ltb 1 (length names) then n else "" in
                      match loaded with
                      | [] => Err ValueError
                      | _ => match dget String.eqb loaded name with
                             | None => Err ValueError
                             | Some m => Ok (dset String.eqb d name m)
                             end
                      end) names [].

  (** 1013-1016 *)
  Definition names_to_run (f : signatures_fn) (model_name : string) : res (bool * list string) :=
    match dget String.eqb (sf_signature_names f) model_name with
    | None => Err KeyError
    | Some [] => match sf_defaults f with None => Err TypeError | Some l => Ok (false, l) end
    | Some l => Ok (true, l)
    end.
  (** 1010-1078: the outputs of all models, in a dictionary that gains a key with the first
      output of a model *)
  Definition outputs_per_model (f : signatures_fn) (e : extract) : res (list (string * list (string * arr V))) :=
    let! n := batch_size (Dict e) in
    let! features := get_features_from_extracts e in
    let! examples := get_serialized_examples e in
    match sf_models f with
    | [] => Err ValueError
    | models =>
        foldM (fun out nm =>
                 let! rn := names_to_run f (fst nm) in
                 foldM (fun out s =>
                          let! o := run_signature (snd nm) features examples n (fst rn) s in
                          match o with
                          | None => Ok out
                          | Some o => let old := match dget String.eqb out (fst nm) with Some x => x | None => [] end in
                                      Ok (dset String.eqb out (fst nm) (dupdate String.eqb old o))
                          end) (snd rn) out) models []
    end.
  (** 1080-1086 *)
  Definition model_value (prefer_dict_outputs : bool) (o : list (string * arr V)) : value :=
    match o with
    | [(_, a)] => if prefer_dict_outputs then Dict (map (fun kv => (fst kv, Leaf (Dense (snd kv)))) o) else Leaf (Dense a)
    | _ => Dict (map (fun kv => (fst kv, Leaf (Dense (snd kv)))) o)
    end.
  Definition models_value (f : signatures_fn) (out : list (string * list (string * arr V))) : value :=
    match map (fun no => (fst no, model_value (sf_prefer_dict_outputs f) (snd no))) out with
    | [(_, v)] => v
    | l => Dict l
    end.
  Definition as_dict (v : value) : res extract := match v with Dict d => Ok d | Leaf _ => Err TypeError end.
  (** 1000-1095 [_batch_reducible_process]: its list has one extract *)
  Definition run_models (f : signatures_fn) (e : extract) : res extract :=
    let! out := outputs_per_model f e in
    let! r := copy_and_set_by_keys (Dict e) (sf_output_keypath f) (models_value f out) in
    as_dict r.

  (** 882-912: the errors that are retried; NotImplementedError is a RuntimeError, TensorFlow's
      errors are taken for ValueErrors. *)
  Definition retried (x : exn) : bool :=
    match x with ValueError | RuntimeError | NotImplementedError => true | _ => false end.
  (** 881-912 [process] for any function of a batch *)
  Definition process (run : extract -> res extract) (e : extract) : res (list extract) :=
    let! _ := batch_size (Dict e) in
    match run e with
    | Ok r => Ok [r]
    | Err x => if retried x then let! es := split_extracts e true true in mapM run es else Err x
    end.

  (* ------------------------------------------------------------------ *)
  (** * Predictions and transformed features *)

  (** The fields of a model spec that Config_Model keeps in [m_rest], and loading a model (its
      loader is part of [sm_path]). *)
  Context (signature_name : model_spec -> string) (preprocessing_function_names : model_spec -> list string)
          (load : string -> model).

  Definition loaded_models (l : list shared_model) : list (string * model) :=
    fold_left (fun d m => dset String.eqb d (sm_name m) (load (sm_path m))) l [].
  Definition key_of_spec (ms : list model_spec) (m : model_spec) : string :=
    match ms with [_] => "" | _ => m_name m end.
  (** predictions_extractor.py 96-152 [_ModelSignaturesInferenceWrapper] *)
  Definition predictions_fn (ms : list model_spec) (shared : shared_models) (keypath : list string) : res signatures_fn :=
    let! l := verify_and_update_eval_shared_models shared in
    match l with
    | None | Some [] => Err ValueError
    | Some l =>
        let names := fold_left (fun d m => dset String.eqb d (key_of_spec ms m) [signature_name m]) ms [] in
        let! models := setup (map m_name ms) (loaded_models l) in
        Ok (SignaturesFn models keypath names None false)
    end.
  (** transformed_features_extractor.py 50-104; without models the constructor fails on
      iterating over None. *)
  Definition transformed_features_fn (ms : list model_spec) (shared : shared_models) : res signatures_fn :=
    let! l := verify_and_update_eval_shared_models shared in
    match l with
    | None => Err TypeError
    | Some l =>
        let names := fold_left (fun d m => dset String.eqb d (key_of_spec ms m) (preprocessing_function_names m)) ms [] in
        let! models := setup (map m_name ms) (loaded_models l) in
        Ok (SignaturesFn models [TRANSFORMED_FEATURES_KEY] names (Some ["transformed_features"; "transformed_labels"]) true)
    end.
  Definition extract_with (f : res signatures_fn) (e : extract) : res (list extract) :=
    let! f := f in process (run_models f) e.

  (* ------------------------------------------------------------------ *)
  (** * Labels, weights and stored predictions *)

  (** model_util.py 305-312 *)
  Definition features_of (e : extract) : list (string * value) :=
    match dget String.eqb e FEATURES_KEY with Some (Dict d) => d | _ => [] end.
  (** 315-324: the transformed features for a model; a single transformed feature with the name
      of the model is not modelled (reads as none). *)
  Definition transformed_of (e : extract) (model_name : string) : list (string * value) :=
    match dget String.eqb e TRANSFORMED_FEATURES_KEY with
    | Some (Dict d) => match dget String.eqb d model_name with
                       | Some (Dict c) => c
                       | Some (Leaf _) => []
                       | None => d
                       end
    | _ => []
    end.
  (** The value that get_feature_values_for_model_spec_field returns, None being a value of its
      own. *)
  Definition opt_value (v : option value) : value := match v with Some v => v | None => Leaf PyNone end.
  Definition field_value (v : fvalue) : value :=
    match v with One v => opt_value v | PerOutput l => Dict (map (fun ov => (fst ov, opt_value (snd ov))) l) end.
  Definition spec_field (e : extract) (ms : list model_spec) (field : model_spec -> string) (fields : model_spec -> list (string * string))
      (allow_missing : bool) : option value :=
    match get_feature_values (features_of e) (transformed_of e) allow_missing field fields ms with
    | NoValues => None
    | Single v => Some (field_value v)
    | PerModel l => Some (Dict (map (fun nv => (fst nv, field_value (snd nv))) l))
    end.
  (** labels_extractor.py 67-83 *)
  Definition extract_labels (ms : list model_spec) (e : extract) : extract :=
    dset String.eqb e LABELS_KEY (opt_value (spec_field e ms m_label_key m_label_keys true)).
  (** example_weights_extractor.py 74-88 *)
  Definition extract_example_weights (ms : list model_spec) (e : extract) : extract :=
    match spec_field e ms m_weight_key m_weight_keys false with
    | Some v => dset String.eqb e EXAMPLE_WEIGHTS_KEY v
    | None => e
    end.
  (** materialized_predictions_extractor.py 83-100 *)
  Definition rekey_predictions (ms : list model_spec) (keypath : list string) (e : extract) : res extract :=
    match spec_field e ms m_prediction_key m_prediction_keys false with
    | Some v => let! r := copy_and_set_by_keys (Dict e) keypath v in as_dict r
    | None => Ok e
    end.

  (* ------------------------------------------------------------------ *)
  (** * Counterfactual predictions *)

  (** A tf.train.Example: a map from names to features.  Reading an absent feature adds the
      empty one. *)
  Context {F : Type} (empty_feature : F) (parse : V -> res (list (string * F))) (serialize : list (string * F) -> V).
  Notation example := (list (string * F)).
  (** counterfactual_predictions_extractor.py 248-255: the map is read at the destination
      first, then at the source *)
  Definition read_feature (x : example) (k : string) : example :=
    if dmem String.eqb x k then x else dset String.eqb x k empty_feature.
  Definition cf_example (config : list (string * string)) (x : example) : example :=
    fold_left (fun x ds =>
                 let x := read_feature (read_feature x (fst ds)) (snd ds) in
                 match dget String.eqb x (snd ds) with
                 | Some f => dset String.eqb x (fst ds) f
                 | None => x
                 end) config x.
  Definition TEMP_ORIG_INPUT_KEY := "non_counterfactual_input".
  (** 223-258 [_cf_preprocess]; the inputs are taken as an array of one dimension *)
  Definition cf_preprocess (config : list (string * string)) (e : extract) : res extract :=
    match dget String.eqb e INPUT_KEY with
    | None => Err KeyError
    | Some (Leaf (Dense a)) =>
        let! l := mapM (fun s => let! x := parse s in Ok (serialize (cf_example config x))) (items a) in
        Ok (dset String.eqb (dset String.eqb e TEMP_ORIG_INPUT_KEY (Leaf (Dense a))) INPUT_KEY (Leaf (Dense (Arr [length l] l))))
    | Some _ => Err TypeError
    end.
  (** 261-281 [_cf_postprocess] *)
  Definition cf_postprocess (e : extract) : res extract :=
    match dget String.eqb e TEMP_ORIG_INPUT_KEY with
    | None => Err KeyError
    | Some v => Ok (ddel String.eqb (dset String.eqb e INPUT_KEY v) TEMP_ORIG_INPUT_KEY)
    end.

  (** 125-186 [_validate_and_update_models_and_configs]; [supported] says whether the type of a
      model is. *)
  Notation cf_configs := (list (string * list (string * string))).
  Definition validate_and_update_models_and_configs (supported : shared_model -> bool) (shared : shared_models) (configs : cf_configs)
      : res (list shared_model * cf_configs) :=
    let! l := verify_and_update_eval_shared_models shared in
    match l with
    | None | Some [] => Err ValueError
    | Some l =>
        if negb (forallb supported l) then Err ValueError
        else let! configs := match configs, l with
                             | [], _ => Err ValueError
                             | [(_, c)], [_] => Ok [("", c)]
                             | _, [_] => Err ValueError
                             | _, _ => Ok configs
                             end in
             if forallb (fun nc => memb String.eqb (fst nc) (map sm_name l)) configs then Ok (l, configs) else Err ValueError
    end.
  (** 189-203 [_filter_model_specs] *)
  Definition filter_model_specs (ms : list model_spec) (l : list shared_model) : list model_spec :=
    filter (fun m => memb String.eqb (m_name m) (map sm_name l)) ms.

  (** 284-298, for the extracts of one batch *)
  Definition extract_counterfactual (config : list (string * string)) (predict : extract -> res (list extract)) (e : extract) : res (list extract) :=
    let! e := cf_preprocess config e in
    let! l := predict e in
    mapM cf_postprocess l.
  Definition and_then (f : extract -> res (list extract)) (l : list extract) : res (list extract) :=
    let! r := mapM f l in Ok (concat r).
  Definition config_of (configs : cf_configs) (m : shared_model) : list (string * string) :=
    match dget String.eqb configs (sm_name m) with Some c => c | None => [] end.
  Definition is_nil {A} (l : list A) : bool := match l with [] => true | _ => false end.
  (** 34-122 [CounterfactualPredictionsExtractor] and 301-325 [_ExtractPredictions].  An empty
      config counts as none. *)
  Definition counterfactual_predictions (supported : shared_model -> bool) (ms : list model_spec) (shared : shared_models) (configs : cf_configs)
      (e : extract) : res (list extract) :=
    let! lc := validate_and_update_models_and_configs supported shared configs in
    let '(l, configs) := lc in
    let non_cf := filter (fun m => is_nil (config_of configs m)) l in
    let cf := fold_left (fun d m => match config_of configs m with
                                    | [] => d
                                    | c => dset String.eqb d (sm_name m) (m, c)
                                    end) l [] in
    let! es := match non_cf with
               | [] => Ok [e]
               | _ => let keypath := match non_cf with [m] => [PREDICTIONS_KEY; sm_name m] | _ => [PREDICTIONS_KEY] end in
                      extract_with (predictions_fn (filter_model_specs ms non_cf) (ModelList non_cf) keypath) e
               end in
    foldM (fun es nmc =>
             let '(name, (m, c)) := nmc in
             and_then (extract_counterfactual c (extract_with (predictions_fn (filter_model_specs ms [m]) (OneModel m) [PREDICTIONS_KEY; name]))) es)
          cf es.

  (* ------------------------------------------------------------------ *)
  (** * Features *)

  (** A column of a record batch: its values as a tensor, whether it has a supported type
      (features_extractor.py 84-109), or serialized examples. *)
  Inductive column := Supported (v : value) | Unsupported | BinaryList (l : list V) (v : value).
  Definition ARROW_INPUT_COLUMN := "__raw_record__".
  (** 112-151 [_drop_unsupported_columns_and_fetch_raw_data_column]; columns with lists of
      strings are supported *)
  Definition drop_unsupported (columns : list (string * column)) : res (list (string * value) * option (list V)) :=
    foldM (fun acc nc =>
             if String.eqb (fst nc) ARROW_INPUT_COLUMN
             then match snd nc with
                  | BinaryList l _ => Ok (fst acc, Some l)
                  | _ => Err AssertionError
                  end
             else match snd nc with
                  | Supported v | BinaryList _ v => Ok (fst acc ++ [(fst nc, v)], snd acc)
                  | Unsupported => Ok acc
                  end) columns ([], None).
  (** 178-206 [extract_features].  The record batch is an argument of its own (None: no such
      key); the extract does not hold it. *)
  Definition extract_features (record_batch : option (list (string * column))) (e : extract) : res extract :=
    match record_batch with
    | Some columns =>
        let! fr := drop_unsupported columns in
        let! features := match dget String.eqb e FEATURES_KEY with
                         | Some (Dict d) => Ok d
                         | Some (Leaf _) => Err AttributeError
                         | None => Ok []
                         end in
        Ok (dset String.eqb (dset String.eqb e FEATURES_KEY (Dict (dupdate String.eqb features (fst fr))))
                 INPUT_KEY (Leaf (match snd fr with Some l => Dense (Arr [length l] l) | None => PyNone end)))
    | None => if dmem String.eqb e FEATURES_KEY then Ok e else Err ValueError
    end.

  (** sql_slice_key_extractor.py 93-156 [process]: [query features] stands for the slice keys
      of the rows, as a variable length tensor.  features.update changes the dictionary that the
      extract holds. *)
  Definition sql_slice_keys (ms : list model_spec) (query : list (string * value) -> res (leaf V)) (e : extract) : res extract :=
    let! features := match dget String.eqb e FEATURES_KEY with
                     | None => Err KeyError
                     | Some (Dict d) => Ok d
                     | Some (Leaf _) => Err AttributeError
                     end in
    let! features := match dget String.eqb e TRANSFORMED_FEATURES_KEY with
                     | None | Some (Leaf PyNone) => Ok features
                     | Some (Leaf _) => Err TypeError
                     | Some (Dict t) =>
                         match ms with
                         | [_] => Ok (dupdate String.eqb features t)
                         | _ => foldM (fun fs m => match dget String.eqb t (m_name m) with
                                                   | None => Ok fs
                                                   | Some (Dict c) => Ok (dupdate String.eqb fs c)
                                                   | Some (Leaf _) => Err TypeError
                                                   end) (rev ms) features
                         end
                     end in
    let! keys := query features in
    Ok (dset String.eqb (dset String.eqb e FEATURES_KEY (Dict features)) SLICE_KEY_TYPES_KEY (Leaf keys)).
End Extract.

(* ------------------------------------------------------------------ *)
(** * Bulk inference: extractors/inference_base.py *)

Section Inference.
  Context {T L : Type}.
  (** A PredictionLog: one list of classes with scores per classification, the values of the
      regressions, or the outputs without their batch dimension (of size one).  [T] are tensors. *)
  Inductive prediction_log := Classify (l : list (list (T * T))) | Regress (l : list T) | Predict (l : list (string * T)) | MultiInference | Session | NoLog.
  Context (stack : list T -> T).
  (** 125-183 [_parse_prediction_log_to_tensor_value] *)
  Definition parse_prediction_log (p : prediction_log) : res (data T) :=
    match p with
    | Classify [c] => Ok (Dict [("classes", Leaf (stack (map fst c))); ("scores", Leaf (stack (map snd c)))])
    | Classify _ => Err AssertionError
    | Regress l => Ok (Leaf (stack l))
    | Predict [(_, t)] => Ok (Leaf t)
    | Predict l => Ok (Dict (map (fun kv => (fst kv, Leaf (snd kv))) l))
    | MultiInference => Err NotImplementedError
    | Session => Err ValueError
    | NoLog => Err NotImplementedError
    end.
  (** 203-242: one entry is not stored in a dictionary *)
  Definition unwrap {A} (l : list (string * data A)) : data A := match l with [(_, v)] => v | _ => Dict l end.
  (** 186-243 [insert_predictions_into_extracts]; [keep] is the log as a leaf *)
  Definition insert_predictions (keep : prediction_log -> T) (e : list (string * data T)) (logs : list (string * prediction_log))
      (output_keypath : list string) (prediction_log_keypath : list string) : res (data T) :=
    let! tensors := mapM (fun nl => let! v := parse_prediction_log (snd nl) in Ok (fst nl, v)) logs in
    let! e := copy_and_set_by_keys (Dict e) output_keypath (unwrap tensors) in
    match prediction_log_keypath with
    | [] => Ok e
    | _ => copy_and_set_by_keys e prediction_log_keypath (unwrap (map (fun nl => (fst nl, Leaf (keep (snd nl)))) logs))
    end.

  (** model_util.py 369-401 on the names of the signatures of the meta graphs; the names a
      graph has are unique *)
  Definition default_name_of_saved_model (graphs : list (list (string * L))) : string :=
    if existsb (fun g => dmem String.eqb g "predict") graphs then "predict" else "serving_default".
  (** 404-414 [get_signature_def_from_saved_model_proto] *)
  Definition signature_def (name : string) (graphs : list (list (string * L))) : res L :=
    match find (fun nd => String.eqb name (fst nd)) (concat graphs) with
    | Some (_, d) => Ok d
    | None => Err ValueError
    end.
End Inference.
(** inference_base.py 33-95 [is_valid_config_for_bulk_inference]: a signature is the list of whether its inputs are strings. *)
Definition valid_for_bulk_inference (supported : shared_model -> bool) (graphs_of : shared_model -> list (list (string * list bool)))
    (signature_name : model_spec -> string) (ms : list model_spec) (shared : shared_models) : res bool :=
  let! l := verify_and_update_eval_shared_models shared in
  match l with
  | None => Ok false
  | Some l =>
      if negb (forallb supported l) then Ok false
      else
        let d := fold_left (fun d m => dset String.eqb d (sm_name m) m) l [] in
        (fix go ms := match ms with
                      | [] => Ok true
                      | m :: t =>
                          let! s := get_eval_shared_model (m_name m) d in
                          let graphs := graphs_of s in
                          let name := if set_str (signature_name m) then signature_name m else default_name_of_saved_model graphs in
                          match signature_def name graphs with
                          | Ok [true] => go t
                          | _ => Ok false
                          end
                      end) ms
  end.
