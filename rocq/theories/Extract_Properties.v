(* Extract *)
From Coq Require Import String Ascii.
From Verif Require Import Base BaseFacts BeamFacts Classes_Main Keras_Main Util_Model Config_Model Config_Main Batches_Model Batches_Main Extract_Model.
From Verif Require Import Extract_Main.
Local Open Scope string_scope.
Local Open Scope list_scope.

(* ------------------------------------------------------------------ *)
(** ** C200 the inputs of a function of a model *)
(** The inputs of a function are the features its input names stand for. *)
Theorem C200_inputs_are_named_features : forall (V : Type) (features d : list (string * data (leaf V))) (specs : list (string * bool)), NoDup (map fst specs) ->
  (get_inputs features specs = Some d <-> specs <> [] /\ named_inputs features (map fst specs) d).
Proof. exact C200_inputs_are_named_features_pf. Qed.

(** Features are not used at all as soon as one of them is missing. *)
Theorem C200_examples_otherwise : forall (V : Type) (features : list (string * data (leaf V))) (specs : list (string * bool)), NoDup (map fst specs) ->
  (get_inputs features specs = None <-> specs = [] \/ exists n, In n (map fst specs) /\ no_feature_for features n).
Proof. exact C200_examples_otherwise_pf. Qed.

Example C200_inputs_are_named_features_example :
  get_inputs [("x", Leaf (Dense (Arr [2] [1; 2]))); ("y", Leaf (Dense (Arr [2] [3; 4])))] [("y_input", false); ("x", false)] =
  Some [("y_input", Leaf (Dense (Arr [2] [3; 4]))); ("x", Leaf (Dense (Arr [2] [1; 2])))].
Proof. reflexivity. Qed.

Example C200_examples_otherwise_example :
  get_inputs [("x", Leaf (Dense (Arr [2] [1; 2])))] [("x", false); ("y", false)] = None /\ get_inputs [("x", Leaf (Dense (Arr [2] [1; 2])))] [("examples", true)] = None.
Proof. split; reflexivity. Qed.

(* ------------------------------------------------------------------ *)
(** ** C201 the function that is run *)
(** A signature, or else a callable attribute, is called with its inputs or the examples. *)
Theorem C201_named_function : forall (V : Type) pre (m : @model V) name f features xs n required o,
  plain name -> name <> "" -> function_of m name f -> NoDup (input_names f) ->
  (run_signature pre m features (Some xs) (Some n) required name = Ok (Some o) <->
   exists x out, given features xs f x /\ called_with f x = Ok out /\ outputs_by_name n name out o).
Proof. exact C201_named_function_pf. Qed.

(** Without a name: a model that is not callable itself is run by its default signature. *)
Theorem C201_default_signature : forall (V : Type) pre (m : @model V) name f features xs n required o,
  md_self m = None -> default_name m name -> function_of m name f -> NoDup (input_names f) ->
  (run_signature pre m features (Some xs) (Some n) required "" = Ok (Some o) <->
   exists x out label, given features xs f x /\ called_with f x = Ok out /\ outputs_by_name n label out o /\
     label = match x with Examples _ => name | _ => "" end).
Proof. exact C201_default_signature_pf. Qed.

(** A model that is callable itself is called with the features if it names them all, or else
    its default signature is run on the examples. *)
Theorem C201_callable_model : forall (V : Type) pre (m : @model V) l features d xs n required o,
  md_self m = Some l -> NoDup (map fst (ly_specs l)) -> ly_specs l <> [] -> named_inputs features (map fst (ly_specs l)) d ->
  (run_signature pre m features (Some xs) (Some n) required "" = Ok (Some o) <->
   exists out, ly_call l (Dictionary d) = Ok out /\ outputs_by_name n "" out o).
Proof. exact C201_callable_model_pf. Qed.

Theorem C201_callable_model_on_examples : forall (V : Type) pre (m : @model V) l name f features k xs n required o,
  md_self m = Some l -> NoDup (map fst (ly_specs l)) -> In k (map fst (ly_specs l)) -> no_feature_for features k ->
  default_name m name -> function_of m name f ->
  (run_signature pre m features (Some xs) (Some n) required "" = Ok (Some o) <->
   exists out, called_with f (Examples xs) = Ok out /\ outputs_by_name n name out o).
Proof. exact C201_callable_model_on_examples_pf. Qed.

(** A name the model does not have is an error if it was asked for and is left out if it is a
    default. *)
Theorem C201_missing_function : forall (V : Type) pre (m : @model V) sigs name features xs n required,
  plain name -> name <> "" -> md_signatures m = Some sigs -> ~ In name (map fst sigs) -> ~ In name (map fst (md_layers m)) ->
  run_signature pre m features (Some xs) n required name = if required then Err ValueError else Ok None.
Proof. exact C201_missing_function_pf. Qed.

Example C201_named_function_example :
  run_signature [] sample_model sample_features (Some [7; 8]) (Some 2) true "other" = Ok (Some [("out", Arr [2] [207; 208])]) /\
  run_signature [] sample_model sample_features (Some [7; 8]) (Some 2) true "adder" = Ok (Some [("adder", Arr [2] [4; 6])]).
Proof. split; reflexivity. Qed.

Example C201_default_signature_example :
  run_signature [] (Model (md_signatures sample_model) [] None) sample_features (Some [7; 8]) (Some 2) true "" = Ok (Some [("out", Arr [2] [107; 108])]).
Proof. reflexivity. Qed.

Example C201_callable_model_example :
  run_signature [] sample_model sample_features (Some [7; 8]) (Some 2) true "" = Ok (Some [("", Arr [2] [4; 6])]).
Proof. reflexivity. Qed.

Example C201_callable_model_on_examples_example :
  run_signature [] sample_model [] (Some [7; 8]) (Some 2) true "" = Ok (Some [("out", Arr [2] [107; 108])]).
Proof. reflexivity. Qed.

Example C201_missing_function_example :
  run_signature [] sample_model sample_features (Some [7; 8]) (Some 2) true "transformed" = Err ValueError /\
  run_signature [] sample_model sample_features (Some [7; 8]) (Some 2) false "transformed" = Ok None.
Proof. split; reflexivity. Qed.

(** Without serialized examples a function whose inputs are not all features cannot be run. *)
Theorem C201_no_examples : forall (V : Type) pre (f : @signatures_fn V) e n features mn m models name names g,
  sf_models f = (mn, m) :: models -> dget String.eqb (sf_signature_names f) mn = Some (name :: names) ->
  batch_size (Dict e) = Ok n -> dget String.eqb e "features" = Some (Dict features) -> dget String.eqb e "input" = Some (Leaf PyNone) ->
  plain name -> name <> "" -> function_of m name g -> NoDup (input_names g) ->
  input_names g = [] \/ (exists k, In k (input_names g) /\ no_feature_for features k) ->
  run_models pre f e = Err AssertionError.
Proof. exact C201_no_examples_pf. Qed.

Example C201_no_examples_example : run_models [] (SignaturesFn [("", sample_model)] ["predictions"] [("", ["other"])] None false)
    [("features", Dict sample_features); ("input", Leaf PyNone)] = Err AssertionError.
Proof. reflexivity. Qed.

(* ------------------------------------------------------------------ *)
(** ** C202 predictions by model *)
(** One model: its predictions are those of its function, whatever the name of its spec. *)
Theorem C202_one_model : forall (V : Type) pre signature_name (load : string -> @model V) spec m e n features xs o,
  holds e n features xs -> NoDup (map fst o) ->
  run_signature pre (load (sm_path m)) features (Some xs) (Some n) true (signature_name spec) = Ok (Some o) ->
  extract_with pre (predictions_fn signature_name load [spec] (OneModel m) ["predictions"]) e = Ok [dset String.eqb e "predictions" (stored o)].
Proof. exact C202_one_model_pf. Qed.

(** Several models: the predictions are stored under the names of the models. *)
Theorem C202_several_models : forall (V : Type) pre signature_name (load : string -> @model V) specs models e n features xs outs,
  2 <= length specs -> NoDup (map m_name specs) -> 2 <= length models -> NoDup (map sm_name models) -> Forall (fun m => sm_name m <> "") models ->
  holds e n features xs ->
  Forall2 (fun spec o => NoDup (map fst o) /\ exists m, In m models /\ sm_name m = m_name spec /\
             run_signature pre (load (sm_path m)) features (Some xs) (Some n) true (signature_name spec) = Ok (Some o)) specs outs ->
  extract_with pre (predictions_fn signature_name load specs (ModelList models) ["predictions"]) e =
    Ok [dset String.eqb e "predictions" (Dict (combine (map m_name specs) (map stored outs)))].
Proof. exact C202_several_models_pf. Qed.

Example C202_one_model_example :
  extract_with [] (predictions_fn (fun _ => "") sample_load [sample_spec "m"] (OneModel (SharedModel "model" false false "keras")) ["predictions"]) sample_extract =
    Ok [[("features", Dict sample_features); ("input", Leaf (Dense (Arr [2] [7; 8]))); ("predictions", Leaf (Dense (Arr [2] [4; 6])))]].
Proof. reflexivity. Qed.

Example C202_several_models_example :
  extract_with [] (predictions_fn (fun _ => "") sample_load [sample_spec "a"; sample_spec "b"]
    (ModelList [SharedModel "b" false false ""; SharedModel "a" false false "keras"]) ["predictions"]) sample_extract =
    Ok [[("features", Dict sample_features); ("input", Leaf (Dense (Arr [2] [7; 8])));
         ("predictions", Dict [("a", Leaf (Dense (Arr [2] [4; 6]))); ("b", Leaf (Dense (Arr [2] [307; 308])))])]].
Proof. reflexivity. Qed.

(* ------------------------------------------------------------------ *)
(** ** C203 batches that are too large *)
(** One result for the batch, or one for each of its examples. *)
Theorem C203_whole_or_each_partial : forall (V : Type) (run : list (string * data (leaf V)) -> res (list (string * data (leaf V)))) n e l,
  batch n e -> process run e = Ok l ->
  (exists r, run e = Ok r /\ l = [r]) \/
  (exists x es, run e = Err x /\ In x [ValueError; RuntimeError; NotImplementedError] /\ length es = n /\ Forall2 (fun d r => run d = Ok r) es l /\
     forall i d, nth_error es i = Some d ->
       (forall p v, leaf_at (Dict e) p = Some v -> exists w, leaf_at (Dict d) p = Some w /\ example_of true true i v w) /\
       (forall p w, leaf_at (Dict d) p = Some w -> exists v, leaf_at (Dict e) p = Some v)).
Proof. exact C203_whole_or_each_partial_pf. Qed.

Theorem C203_other_errors : forall (V : Type) (run : list (string * data (leaf V)) -> res (list (string * data (leaf V)))) e n x,
  batch_size (Dict e) = Ok n -> run e = Err x -> ~ In x [ValueError; RuntimeError; NotImplementedError] -> process run e = Err x.
Proof. exact C203_other_errors_pf. Qed.

(** A function of single examples that refuses large batches predicts the same for every
    example, whatever the batch (without sparse values). *)
Theorem C203_large_batches_partial : forall (V : Type) pre (m : @model V) name s input limit g e n features xs,
  plain name -> name <> "" -> function_of m name (FoundSignature s) -> sg_specs s = Some [(input, true)] ->
  (forall l, sg_call s (Examples l) = if Nat.leb (length l) limit then Ok (Tensor (Arr [length l] (map g l))) else Err ValueError) -> 1 <= limit ->
  batch n e -> (forall p v, leaf_at (Dict e) p <> Some (Sparse v)) ->
  dget String.eqb e "input" = Some (Leaf (Dense (Arr [n] xs))) ->
  (dget String.eqb e "features" = Some (Dict features) \/ dget String.eqb e "features" = None /\ features = []) -> no_feature_for features input ->
  exists l, process (run_models pre (SignaturesFn [("", m)] ["predictions"] [("", [name])] None false)) e = Ok l /\ concat (map predicted l) = map g xs.
Proof. exact C203_large_batches_partial_pf. Qed.

Example C203_whole_or_each_partial_example : batch 2 two_examples /\
  process (run_models [] small_fn) two_examples =
  Ok [[("features", Dict [("a", Leaf (Dense (Arr [1; 2] [4; 5])))]); ("input", Leaf (Dense (Arr [1; 1] [7]))); ("predictions", Leaf (Dense (Arr [1] [107])))];
      [("features", Dict [("a", Leaf (Dense (Arr [1; 1] [6])))]); ("input", Leaf (Dense (Arr [1; 1] [8]))); ("predictions", Leaf (Dense (Arr [1] [108])))]].
Proof. split; [exact two_ok|reflexivity]. Qed.

Example C203_other_errors_example : process (run_models [] small_fn) [("features", Dict [("a", Leaf (Dense (Arr [2] [4; 5])))])] = Err KeyError.
Proof. reflexivity. Qed.

Example C203_large_batches_partial_example : batch 2 two_examples /\ (forall p v, leaf_at (Dict two_examples) p <> Some (Sparse v)) /\
  exists l, process (run_models [] small_fn) two_examples = Ok l /\ concat (map predicted l) = [107; 108].
Proof.
  split; [exact two_ok|]. split.
  - intros p v. unfold leaf_at. destruct p as [|k p]; [discriminate|]. cbn [at_path dget two_examples]. destruct (String.eqb k "features"); [|destruct (String.eqb k "input"); [|discriminate]].
    + destruct p as [|k2 p]; [discriminate|]. cbn [at_path dget]. destruct (String.eqb k2 "a"); [|discriminate]. destruct p; discriminate.
    + destruct p; discriminate.
  - eexists. split; reflexivity.
Qed.

(** A sparse value no model reads makes the examples of a batch that was too large fail. *)
Theorem C203_sparse_values_refuted : exists (f : @signatures_fn nat) e xs s l,
  e = [("features", Dict [("s", Leaf (Sparse s))]); ("input", Leaf (Dense (Arr [2] xs)))] /\ batch 2 e /\
  process (run_models [] f) [("features", Dict []); ("input", Leaf (Dense (Arr [2] xs)))] = Ok l /\ length l = 2 /\
  process (run_models [] f) e = Err ValueError.
Proof. exact C203_sparse_values_refuted_pf. Qed.

Theorem C203_more_dimensions_refuted : exists (f : @signatures_fn nat),
  process (run_models [] f) (batch_of [7]) = Ok [batch_of [7] ++ [("predictions", Leaf (Dense (Arr [1] [7])))]] /\
  process (run_models [] f) (batch_of [8]) = Ok [batch_of [8] ++ [("predictions", Leaf (Dense (Arr [1] [8])))]] /\
  process (run_models [] f) (batch_of [7; 8]) = Err ValueError.
Proof. exact C203_more_dimensions_refuted_pf. Qed.

(* ------------------------------------------------------------------ *)
(** ** C204 transformed features *)
(** A single model: its transformed features in one dictionary. *)
Theorem C204_one_model : forall (V : Type) pre functions (load : string -> @model V) spec m e n features xs os,
  holds e n features xs -> outputs_of pre functions spec (load (sm_path m)) features xs n os ->
  exists c, extract_with pre (transformed_features_fn functions load [spec] (OneModel m)) e = Ok [dset String.eqb e "transformed_features" (Dict c)] /\ transformed_dict os c.
Proof. exact C204_one_model_pf. Qed.

(** Several models each of which has transformed features: by name. *)
Theorem C204_several_models_partial : forall (V : Type) pre functions (load : string -> @model V) specs models e n features xs oss,
  2 <= length specs -> NoDup (map m_name specs) -> 2 <= length models -> NoDup (map sm_name models) -> Forall (fun m => sm_name m <> "") models ->
  holds e n features xs ->
  Forall2 (fun spec os => (exists o, In (Some o) os) /\ exists m, In m models /\ sm_name m = m_name spec /\ outputs_of pre functions spec (load (sm_path m)) features xs n os) specs oss ->
  exists cs, extract_with pre (transformed_features_fn functions load specs (ModelList models)) e = Ok [dset String.eqb e "transformed_features" (Dict (combine (map m_name specs) (map (fun c => Dict c) cs)))] /\
    Forall2 transformed_dict oss cs.
Proof. exact C204_several_models_partial_pf. Qed.

Example C204_one_model_example :
  extract_with [] (transformed_features_fn (fun _ => ["transformed_features"; "again"]) transforming [labelled "b"] (OneModel (SharedModel "" false false "second"))) labels_batch =
    Ok [labels_batch ++ [("transformed_features", Dict [("label", Leaf (Dense (Arr [2] [407; 408])))])]].
Proof. reflexivity. Qed.

Example C204_several_models_partial_example :
  extract_with [] (transformed_features_fn (fun _ => []) transforming [labelled "a"; labelled "b"]
    (ModelList [SharedModel "a" false false "first"; SharedModel "b" true false "second"])) labels_batch =
    Ok [labels_batch ++ [("transformed_features", Dict [("a", Dict [("label", Leaf (Dense (Arr [2] [107; 108]))); ("y", Leaf (Dense (Arr [2] [207; 208])))]);
                                                       ("b", Dict [("label", Leaf (Dense (Arr [2] [307; 308])))])])]].
Proof. reflexivity. Qed.

(** Labels come from the transformed features of their model, then from the features; nothing
    else changes.  The transformed features of every model must be there. *)
Theorem C204_labels_partial : forall (V : Type) specs (e : list (string * data (leaf V))) features d spec c,
  NoDup (map m_name specs) -> 2 <= length specs -> In spec specs -> m_label_key spec <> "" ->
  dget String.eqb e "features" = Some (Dict features) -> dget String.eqb e "transformed_features" = Some (Dict d) -> dget String.eqb d (m_name spec) = Some (Dict c) ->
  exists labels, dget String.eqb (extract_labels specs e) "labels" = Some (Dict labels) /\
    dget String.eqb labels (m_name spec) =
      Some (match dget String.eqb c (m_label_key spec) with
            | Some v => v
            | None => match dget String.eqb features (m_label_key spec) with Some v => v | None => Leaf PyNone end
            end) /\
    forall k, k <> "labels" -> dget String.eqb (extract_labels specs e) k = dget String.eqb e k.
Proof. exact C204_labels_partial_pf. Qed.

Example C204_labels_partial_example : dget String.eqb (extract_labels [labelled "a"; labelled "b"; labelled "c"]
    (labels_batch ++ [("transformed_features", Dict [("a", Dict [("label", Leaf (Dense (Arr [2] [107; 108])))]); ("b", Dict [("y", Leaf (Dense (Arr [2] [3; 4])))]); ("c", Dict [])])])) "labels" =
  Some (Dict [("a", Leaf (Dense (Arr [2] [107; 108]))); ("b", Leaf (Dense (Arr [2] [1; 2]))); ("c", Leaf (Dense (Arr [2] [1; 2])))]).
Proof. reflexivity. Qed.

(** If only one of two models has transformed features, the labels of the other are taken from
    them, unlike when it is evaluated alone. *)
Theorem C204_other_models_labels_refuted : exists (load : string -> @model nat) a b specs e r both alone,
  let f := fun _ : model_spec => [] in
  specs = [labelled "a"; labelled "b"] /\
  extract_with [] (transformed_features_fn f load specs (ModelList [a; b])) e = Ok [both] /\
  extract_with [] (transformed_features_fn f load [labelled "b"] (OneModel b)) e = Ok [alone] /\
  dget String.eqb (extract_labels specs both) "labels" = Some (Dict r) /\
  dget String.eqb r "b" = Some (Leaf (Dense (Arr [2] [107; 108]))) /\
  dget String.eqb (extract_labels [labelled "b"] alone) "labels" = Some (Leaf (Dense (Arr [2] [1; 2]))).
Proof. exact C204_other_models_labels_refuted_pf. Qed.

(* ------------------------------------------------------------------ *)
(** ** C205 preprocessing functions *)
(** name@feature: TFMA's function is called with the value of the feature. *)
Theorem C205_function_of_feature : forall (V : Type) pre (m : @model V) name feature f kind features v xs n required o,
  plain name -> plain feature -> dget String.eqb pre name = Some f -> pf_specs f = [kind] -> feature_for features feature v ->
  (run_signature pre m features xs (Some n) required (at_feature name feature) = Ok (Some o) <->
   exists out, pf_call f (Positional [v]) = Ok out /\ outputs_by_name n name out o).
Proof. exact C205_function_of_feature_pf. Qed.

(** More than one feature is refused. *)
Theorem C205_several_features : forall (V : Type) pre (m : @model V) name a b features xs n required,
  plain name -> plain a -> run_signature pre m features xs n required (at_feature name (at_feature a b)) = Err NotImplementedError.
Proof. exact C205_several_features_pf. Qed.

(** A function TFMA does not have is looked up in the model, which it is called on as if
    no feature had been named. *)
Theorem C205_function_of_model : forall (V : Type) pre (m : @model V) name feature features xs n required,
  plain name -> plain feature -> dget String.eqb pre name = None ->
  run_signature pre m features xs n required (at_feature name feature) = run_signature pre m features xs n required name.
Proof. exact C205_function_of_model_pf. Qed.

Example C205_function_of_feature_example : run_signature [("age", age)] sample_model sample_features None (Some 2) true "age@y" = Ok (Some [("age", Arr [2] [13; 14])]).
Proof. reflexivity. Qed.

Example C205_several_features_example : run_signature [("age", age)] sample_model sample_features None (Some 2) true "age@y@x" = Err NotImplementedError.
Proof. reflexivity. Qed.

Example C205_function_of_model_example : run_signature [("age", age)] sample_model sample_features (Some [7; 8]) (Some 2) true "adder@nothing" = Ok (Some [("adder", Arr [2] [4; 6])]).
Proof. reflexivity. Qed.

(** If there is no such feature the function runs on the serialized examples. *)
Theorem C205_missing_feature_refuted : exists pre (m : @model nat) features xs f out,
  no_feature_for features "z" /\ dget String.eqb pre "age" = Some f /\ pf_call f (Examples xs) = Ok (Tensor out) /\
  run_signature pre m features (Some xs) (Some 2) true "age@z" = Ok (Some [("age", out)]).
Proof. exact C205_missing_feature_refuted_pf. Qed.

(** A function of two features: only what it makes of the second is kept. *)
Theorem C205_two_features_refuted : exists pre (load : string -> @model nat) spec m e r a,
  extract_with pre (transformed_features_fn (fun _ => ["age@x"; "age@y"]) load [spec] (OneModel m)) e = Ok [r] /\
  dget String.eqb r "transformed_features" = Some (Dict [("age", Leaf (Dense a))]) /\
  run_signature pre (load (sm_path m)) sample_features None (Some 2) true "age@y" = Ok (Some [("age", a)]) /\
  run_signature pre (load (sm_path m)) sample_features None (Some 2) true "age@x" <> Ok (Some [("age", a)]).
Proof. exact C205_two_features_refuted_pf. Qed.

(* ------------------------------------------------------------------ *)
(** ** C206 counterfactual examples *)
(** Every feature named as a destination gets the value its source had before. *)
Theorem C206_sources_to_destinations_partial : forall (F : Type) (empty : F) config x k, NoDup (map fst config) -> independent config ->
  feature_of empty (cf_example empty config x) k =
    match dget String.eqb config k with Some src => feature_of empty x src | None => feature_of empty x k end.
Proof. exact C206_sources_to_destinations_partial_pf. Qed.

(** The features named are there afterwards, if only as empty ones; no other is added. *)
Theorem C206_features_there : forall (F : Type) (empty : F) config x k,
  In k (map fst (cf_example empty config x)) <-> In k (map fst x) \/ In k (map fst config) \/ In k (map snd config).
Proof. exact C206_features_there_pf. Qed.

Example C206_sources_to_destinations_partial_example : independent [("x", "x1"); ("y", "y1")] /\
  cf_example 0 [("x", "x1"); ("y", "y1")] [("x", 1); ("x1", 2)] = [("x", 2); ("x1", 2); ("y", 0); ("y1", 0)].
Proof.
  split; [|reflexivity]. intros [|[a b] [|[c d] [|p l]]] dst src later E; cbn in E; try discriminate; injection E; intros; subst; cbn; try tauto; intros [H|[]]; discriminate.
Qed.

(** Swapping two features gives both the same value. *)
Theorem C206_swap_refuted : exists (x : list (string * nat)), let y := cf_example 0 [("a", "b"); ("b", "a")] x in
  feature_of 0 x "a" <> feature_of 0 x "b" /\ feature_of 0 y "a" = feature_of 0 x "b" /\ feature_of 0 y "b" = feature_of 0 x "b".
Proof. exact C206_swap_refuted_pf. Qed.

(* ------------------------------------------------------------------ *)
(** ** C207 counterfactual predictions *)
(** One model: its predictions for the counterfactual examples; the extract keeps its own
    examples.  The spec of the model must have no name. *)
Theorem C207_one_model_partial : forall (V F : Type) pre signature_name (load : string -> @model V) (empty : F) parse serialize supported spec m which config e n features xs ys o,
  m_name spec = "" -> supported (with_name m "") = true -> config <> [] ->
  of_size n e -> dget String.eqb e "non_counterfactual_input" = None ->
  (dget String.eqb e "features" = Some (Dict features) \/ dget String.eqb e "features" = None /\ features = []) -> dget String.eqb e "input" = Some (Leaf (Dense (Arr [n] xs))) -> length xs = n ->
  no_prediction_value e -> counterfactuals empty parse serialize config xs ys -> NoDup (map fst o) ->
  run_signature pre (load (sm_path m)) features (Some ys) (Some n) true (signature_name spec) = Ok (Some o) ->
  exists r, counterfactual_predictions pre signature_name load empty parse serialize supported [spec] (OneModel m) [(which, config)] e = Ok [r] /\ with_prediction e "" (stored o) r.
Proof. exact C207_one_model_partial_pf. Qed.

(** A model on the original examples and one on counterfactual ones. *)
Theorem C207_original_and_counterfactual : forall (V F : Type) pre signature_name (load : string -> @model V) (empty : F) parse serialize supported s1 s2 m1 m2 config e n features xs ys o1 o2,
  m_name s1 = sm_name m1 -> m_name s2 = sm_name m2 -> sm_name m1 <> sm_name m2 -> sm_name m1 <> "" -> sm_name m2 <> "" ->
  supported m1 = true -> supported m2 = true -> config <> [] ->
  of_size n e -> dget String.eqb e "non_counterfactual_input" = None ->
  (dget String.eqb e "features" = Some (Dict features) \/ dget String.eqb e "features" = None /\ features = []) -> dget String.eqb e "input" = Some (Leaf (Dense (Arr [n] xs))) -> length xs = n ->
  dget String.eqb e "predictions" = None -> counterfactuals empty parse serialize config xs ys -> NoDup (map fst o1) -> NoDup (map fst o2) ->
  run_signature pre (load (sm_path m1)) features (Some xs) (Some n) true (signature_name s1) = Ok (Some o1) ->
  run_signature pre (load (sm_path m2)) features (Some ys) (Some n) true (signature_name s2) = Ok (Some o2) ->
  exists r c, counterfactual_predictions pre signature_name load empty parse serialize supported [s1; s2] (ModelList [m1; m2]) [(sm_name m2, config)] e = Ok [r] /\
    dget String.eqb r "predictions" = Some (Dict c) /\ dget String.eqb c (sm_name m1) = Some (stored o1) /\ dget String.eqb c (sm_name m2) = Some (stored o2) /\
    (forall k, k <> sm_name m1 -> k <> sm_name m2 -> dget String.eqb c k = None) /\
    forall k, k <> "predictions" -> dget String.eqb r k = dget String.eqb e k.
Proof. exact C207_original_and_counterfactual_pf. Qed.

Example C207_one_model_partial_example : of_size 2 cf_batch /\ counterfactuals 0 parse_xy write_xy [("x", "y")] [73; 84] [77; 88] /\
  counterfactual_predictions [] (fun _ => "serving_default") sample_load 0 parse_xy write_xy (fun _ => true) [named_spec ""] (OneModel (SharedModel "" false false "keras")) [("cf", [("x", "y")])] cf_batch =
    Ok [cf_batch ++ [("predictions", Dict [("", Leaf (Dense (Arr [2] [177; 188])))])]].
Proof. split; [exact cf_batch_ok|]. split; [|reflexivity]. repeat constructor; eexists; split; reflexivity. Qed.

Example C207_original_and_counterfactual_example :
  counterfactual_predictions [] (fun _ => "serving_default") sample_load 0 parse_xy write_xy (fun _ => true) [named_spec "a"; named_spec "b"]
    (ModelList [SharedModel "a" false false "keras"; SharedModel "b" false false "keras"]) [("b", [("x", "y")])] cf_batch =
    Ok [cf_batch ++ [("predictions", Dict [("a", Leaf (Dense (Arr [2] [173; 184]))); ("b", Leaf (Dense (Arr [2] [177; 188])))])]].
Proof. reflexivity. Qed.

(** A single model whose spec has a name cannot be evaluated, although it can be without
    counterfactuals. *)
Theorem C207_named_spec_refuted : exists (load : string -> @model nat) spec m e config r,
  let sn := fun _ : model_spec => "serving_default" in
  m_name spec = sm_name m /\ sm_name m <> "" /\
  extract_with [] (predictions_fn sn load [spec] (OneModel m) ["predictions"]) e = Ok [r] /\
  counterfactual_predictions [] sn load 0 parse_xy write_xy (fun _ => true) [spec] (OneModel m) [(sm_name m, config)] e = Err ValueError.
Proof. exact C207_named_spec_refuted_pf. Qed.

Theorem C207_named_inputs_refuted : exists (load : string -> @model nat) spec m e config c v,
  let sn := fun _ : model_spec => "serving_default" in
  extract_with [] (predictions_fn sn load [spec] (OneModel m) ["predictions"]) e = Ok [e ++ [("predictions", v)]] /\
  counterfactual_predictions [] sn load 0 parse_xy write_xy (fun _ => true) [spec] (OneModel m) [("", config)] e = Ok [e ++ [("predictions", Dict c)]] /\
  dget String.eqb c "" = Some v /\ In ("x", "y") config /\
  exists xs, dget String.eqb e "input" = Some (Leaf (Dense (Arr [2] xs))) /\
    Forall (fun s => exists x, parse_xy s = Ok x /\ feature_of 0 x "x" <> feature_of 0 x "y") xs.
Proof. exact C207_named_inputs_refuted_pf. Qed.

(* ------------------------------------------------------------------ *)
(** ** C208 features *)
(** The columns of the record batch become features, before those already there; columns of
    other types are dropped; the column of serialized examples becomes the input. *)
Theorem C208_columns_become_features : forall (V : Type) columns (e : list (string * data (leaf V))) r, NoDup (map fst columns) ->
  extract_features (Some columns) e = Ok r ->
  (exists fs, dget String.eqb r "features" = Some (Dict fs) /\
     forall k, dget String.eqb fs k =
       match dget String.eqb columns k with
       | Some c => match (if String.eqb k "__raw_record__" then None else tensor_of c) with
                   | Some v => Some v
                   | None => match dget String.eqb e "features" with Some (Dict d) => dget String.eqb d k | _ => None end
                   end
       | None => match dget String.eqb e "features" with Some (Dict d) => dget String.eqb d k | _ => None end
       end) /\
  (exists v, dget String.eqb r "input" = Some (Leaf v) /\
     match dget String.eqb columns "__raw_record__" with
     | Some c => exists l w, c = BinaryList l w /\ v = Dense (Arr [length l] l)
     | None => v = PyNone
     end) /\
  forall k, k <> "features" -> k <> "input" -> dget String.eqb r k = dget String.eqb e k.
Proof. exact C208_columns_become_features_pf. Qed.

(** Without a record batch the extract is left alone, and must have features. *)
Theorem C208_no_record_batch : forall (V : Type) (e : list (string * data (leaf V))) r,
  (extract_features None e = Ok r <-> r = e /\ In "features" (map fst e)) /\ (~ In "features" (map fst e) -> extract_features None e = Err ValueError).
Proof. exact C208_no_record_batch_pf. Qed.

Example C208_columns_become_features_example :
  extract_features (Some [("a", Supported (Leaf (Dense (Arr [2] [1; 2])))); ("b", Unsupported); ("__raw_record__", BinaryList [7; 8] (Leaf PyNone))])
    [("features", Dict [("a", Leaf PyNone); ("b", Leaf PyNone)]); ("other", Leaf PyNone)] =
  Ok [("features", Dict [("a", Leaf (Dense (Arr [2] [1; 2]))); ("b", Leaf PyNone)]); ("other", Leaf PyNone); ("input", Leaf (Dense (Arr [2] [7; 8])))].
Proof. reflexivity. Qed.

Example C208_no_record_batch_example : extract_features None [("features", Dict [("a", Leaf (Dense (Arr [2] [1; 2])))])] = Ok [("features", Dict [("a", Leaf (Dense (Arr [2] [1; 2])))])] /\
  extract_features (V := nat) None [("input", Leaf PyNone)] = Err ValueError.
Proof. split; reflexivity. Qed.

(** Serialized examples that are already there are lost if the record batch has none. *)
Theorem C208_examples_lost_refuted : exists (columns : list (string * @column nat)) e v r, dget String.eqb e "input" = Some (Leaf (Dense v)) /\
  extract_features (Some columns) e = Ok r /\ dget String.eqb r "input" = Some (Leaf PyNone).
Proof. exact C208_examples_lost_refuted_pf. Qed.

(* ------------------------------------------------------------------ *)
(** ** C209 slice keys by SQL *)
(** The query runs on the features overlaid with the transformed features, of earlier models
    before later ones; its slice keys are added. *)
Theorem C209_query_sees_transformed_features : forall (V : Type) specs query (e r : list (string * data (leaf V))), wf_data (Dict e) ->
  sql_slice_keys specs query e = Ok r ->
  exists features fs keys, dget String.eqb e "features" = Some (Dict features) /\ query fs = Ok keys /\ (forall k, dget String.eqb fs k = seen specs e features k) /\
    dget String.eqb r "_slice_key_types" = Some (Leaf keys) /\
    forall k, k <> "features" -> k <> "_slice_key_types" -> dget String.eqb r k = dget String.eqb e k.
Proof. exact C209_query_sees_transformed_features_pf. Qed.

(** Without transformed features nothing else changes. *)
Theorem C209_only_slice_keys_partial : forall (V : Type) specs query (e r : list (string * data (leaf V))),
  dget String.eqb e "transformed_features" = None -> sql_slice_keys specs query e = Ok r -> forall k, k <> "_slice_key_types" -> dget String.eqb r k = dget String.eqb e k.
Proof. exact C209_only_slice_keys_partial_pf. Qed.

Example C209_query_sees_transformed_features_example :
  sql_slice_keys [named_spec "a"; named_spec "b"] query_x sql_batch =
  Ok [("features", Dict [("x", Leaf (Dense (Arr [2] [3; 4])))]); ("transformed_features", Dict [("a", Dict [("x", Leaf (Dense (Arr [2] [3; 4])))]); ("b", Dict [("x", Leaf (Dense (Arr [2] [5; 6])))])]);
      ("_slice_key_types", Leaf (Dense (Arr [2] [3; 4])))].
Proof. reflexivity. Qed.

Example C209_only_slice_keys_partial_example :
  sql_slice_keys [named_spec "a"; named_spec "b"] query_x [("features", Dict [("x", Leaf (Dense (Arr [2] [1; 2])))])] =
  Ok [("features", Dict [("x", Leaf (Dense (Arr [2] [1; 2])))]); ("_slice_key_types", Leaf (Dense (Arr [2] [1; 2])))].
Proof. reflexivity. Qed.

(** The features themselves are overwritten: the label of a model without transform changes. *)
Theorem C209_features_overwritten_refuted : exists specs (query : list (string * data (leaf nat)) -> res (leaf nat)) e r,
  sql_slice_keys specs query e = Ok r /\ dget String.eqb e "features" <> dget String.eqb r "features" /\
  exists spec, In spec specs /\ let labels := fun e => match dget String.eqb (extract_labels specs e) "labels" with Some (Dict d) => dget String.eqb d (m_name spec) | _ => None end in
    labels e <> labels r.
Proof. exact C209_features_overwritten_refuted_pf. Qed.

(* ------------------------------------------------------------------ *)
(** ** C210 bulk inference *)
(** The predictions of the logs, and the logs themselves if asked for. *)
Theorem C210_predictions_inserted : forall (T : Type) stack keep (e : list (string * data T)) logs vs v w log_key,
  Forall2 (fun nl nv => fst nv = fst nl /\ log_holds stack (snd nl) (snd nv)) logs vs -> by_name vs v ->
  by_name (map (fun nl => (fst nl, Leaf (keep (snd nl)))) logs) w ->
  insert_predictions stack keep e logs ["predictions"] [] = Ok (Dict (dset String.eqb e "predictions" v)) /\
  insert_predictions stack keep e logs ["predictions"] [log_key] = Ok (Dict (dset String.eqb (dset String.eqb e "predictions" v) log_key w)).
Proof. exact C210_predictions_inserted_pf. Qed.

(** A log that holds no predictions is an error. *)
Theorem C210_other_logs : forall (T : Type) stack keep (e : list (string * data T)) logs keypath log_keypath n p,
  In (n, p) logs -> (forall v, ~ log_holds stack p v) -> is_ok (insert_predictions stack keep e logs keypath log_keypath) = false.
Proof. exact C210_other_logs_pf. Qed.

Example C210_predictions_inserted_example :
  insert_predictions (fun l => fold_right plus 0 l) (fun _ => 99) [("input", Leaf 1)] [("a", Predict [("out", 5)]); ("b", Classify [[(1, 2); (3, 4)]])] ["predictions"] ["log"] =
  Ok (Dict [("input", Leaf 1); ("predictions", Dict [("a", Leaf 5); ("b", Dict [("classes", Leaf 4); ("scores", Leaf 6)])]); ("log", Dict [("a", Leaf 99); ("b", Leaf 99)])]).
Proof. reflexivity. Qed.

Example C210_other_logs_example : (forall v, ~ log_holds (fun l => fold_right plus 0 l) (Classify [[(1, 2)]; [(3, 4)]]) v) /\
  insert_predictions (fun l => fold_right plus 0 l) (fun _ => 99) [] [("a", Classify [[(1, 2)]; [(3, 4)]])] ["predictions"] [] = Err AssertionError.
Proof. split; [|reflexivity]. intros v H. inversion H. Qed.

(** Bulk inference is possible if every model is of a supported type and its signature has
    serialized examples as its only input. *)
Theorem C210_bulk_inference : forall supported graphs_of signature_name specs shared l,
  verify_and_update_eval_shared_models shared = Ok (Some l) -> NoDup (map sm_name l) ->
  (valid_for_bulk_inference supported graphs_of signature_name specs shared = Ok true <->
   (forall m, In m l -> supported m = true) /\
   forall spec, In spec specs -> exists m name, model_for l (m_name spec) m /\ bulk_name (signature_name spec) (graphs_of m) name /\ first_graph (graphs_of m) name [true]).
Proof. exact C210_bulk_inference_pf. Qed.

Example C210_bulk_inference_example :
  let graphs := fun _ : shared_model => [[("serving_default", [true]); ("train", [false; false])]; [("predict", [true])]] in
  let m := OneModel (SharedModel "" false false "p") in
  valid_for_bulk_inference (fun _ => true) graphs (fun _ => "") [named_spec ""] m = Ok true /\
  valid_for_bulk_inference (fun _ => true) graphs (fun _ => "train") [named_spec ""] m = Ok false /\
  valid_for_bulk_inference (fun _ => false) graphs (fun _ => "") [named_spec ""] m = Ok false.
Proof. repeat split. Qed.

(* ------------------------------------------------------------------ *)
(** ** C211 example weights and stored predictions *)
(** A model with one key for the weights: they are added, or nothing is if there are none. *)
Theorem C211_weights_of_one_model : forall (V : Type) spec (e : list (string * data (leaf V))), m_weight_key spec <> "" ->
  extract_example_weights [spec] e = match value_for e (m_name spec) (m_weight_key spec) with Some v => dset String.eqb e "example_weights" v | None => e end.
Proof. exact C211_weights_of_one_model_pf. Qed.

(** Several models: the weights of those that have any, by name. *)
Theorem C211_weights_by_model : forall (V : Type) specs (e : list (string * data (leaf V))), NoDup (map m_name specs) -> 2 <= length specs -> Forall (fun s => m_weight_key s <> "") specs ->
  (forall k, k <> "example_weights" -> dget String.eqb (extract_example_weights specs e) k = dget String.eqb e k) /\
  ((forall s, In s specs -> value_for e (m_name s) (m_weight_key s) = None) -> extract_example_weights specs e = e) /\
  ((exists s v, In s specs /\ value_for e (m_name s) (m_weight_key s) = Some v) ->
   exists d, dget String.eqb (extract_example_weights specs e) "example_weights" = Some (Dict d) /\
     forall s, In s specs -> dget String.eqb d (m_name s) = value_for e (m_name s) (m_weight_key s)).
Proof. exact C211_weights_by_model_pf. Qed.

(** Stored predictions are moved to the predictions. *)
Theorem C211_stored_predictions : forall (V : Type) spec (e : list (string * data (leaf V))), m_prediction_key spec <> "" ->
  rekey_predictions [spec] ["predictions"] e = Ok (match value_for e (m_name spec) (m_prediction_key spec) with Some v => dset String.eqb e "predictions" v | None => e end).
Proof. exact C211_stored_predictions_pf. Qed.

Example C211_weights_of_one_model_example : extract_example_weights [weighted "a"] weights_batch = weights_batch ++ [("example_weights", Leaf (Dense (Arr [2] [3; 4])))] /\
  extract_example_weights [weighted "b"] weights_batch = weights_batch.
Proof. split; reflexivity. Qed.

Example C211_weights_by_model_example : extract_example_weights [weighted "a"; weighted "b"] weights_batch = weights_batch ++ [("example_weights", Dict [("a", Leaf (Dense (Arr [2] [3; 4])))])].
Proof. reflexivity. Qed.

Example C211_stored_predictions_example : rekey_predictions [weighted "b"] ["predictions"] weights_batch = Ok (weights_batch ++ [("predictions", Leaf (Dense (Arr [2] [1; 2])))]).
Proof. reflexivity. Qed.

Print Assumptions C200_inputs_are_named_features.
Print Assumptions C200_examples_otherwise.
Print Assumptions C201_named_function.
Print Assumptions C201_default_signature.
Print Assumptions C201_callable_model.
Print Assumptions C201_callable_model_on_examples.
Print Assumptions C201_missing_function.
Print Assumptions C201_no_examples.
Print Assumptions C202_one_model.
Print Assumptions C202_several_models.
Print Assumptions C203_whole_or_each_partial.
Print Assumptions C203_other_errors.
Print Assumptions C203_large_batches_partial.
Print Assumptions C203_sparse_values_refuted.
Print Assumptions C203_more_dimensions_refuted.
Print Assumptions C204_one_model.
Print Assumptions C204_several_models_partial.
Print Assumptions C204_labels_partial.
Print Assumptions C204_other_models_labels_refuted.
Print Assumptions C205_function_of_feature.
Print Assumptions C205_several_features.
Print Assumptions C205_function_of_model.
Print Assumptions C205_missing_feature_refuted.
Print Assumptions C205_two_features_refuted.
Print Assumptions C206_sources_to_destinations_partial.
Print Assumptions C206_features_there.
Print Assumptions C206_swap_refuted.
Print Assumptions C207_one_model_partial.
Print Assumptions C207_original_and_counterfactual.
Print Assumptions C207_named_spec_refuted.
Print Assumptions C207_named_inputs_refuted.
Print Assumptions C208_columns_become_features.
Print Assumptions C208_no_record_batch.
Print Assumptions C208_examples_lost_refuted.
Print Assumptions C209_query_sees_transformed_features.
Print Assumptions C209_only_slice_keys_partial.
Print Assumptions C209_features_overwritten_refuted.
Print Assumptions C210_predictions_inserted.
Print Assumptions C210_other_logs.
Print Assumptions C210_bulk_inference.
Print Assumptions C211_weights_of_one_model.
Print Assumptions C211_weights_by_model.
Print Assumptions C211_stored_predictions.
