(* Features *)
From Coq Require Import String Ascii.
From Verif Require Import Base BaseFacts Slicer_Model Inputs_Model Sums_Model Util_Model Util_Main Evaluator_Model Evaluator_Main Features_Model.
From Verif Require Import Features_Main.
Local Open Scope string_scope.
Local Open Scope list_scope.

(** ** Specification: paths in extracts *)
(** ** C315 *)
Theorem C315_features :
  forall (A : Type) keys dflt models outputs (e : data A) l, unique_keys e -> NoDup models -> NoDup outputs ->
    standard_process (feature_preprocessor keys dflt models outputs) e = Ok l ->
    selects (fun p => (dflt = true /\ default_input models outputs p) \/ below "features" (inside keys anywhere) p) e l.
Proof. exact C315_features_pf. Qed.

Theorem C315_transformed_features :
  forall (A : Type) keys dflt models outputs (e : data A) l, unique_keys e -> NoDup models -> NoDup outputs ->
    standard_process (transformed_feature_preprocessor keys dflt models outputs) e = Ok l ->
    selects (fun p => (dflt = true /\ default_input models outputs p) \/ below "transformed_features" (inside models (inside keys anywhere)) p) e l.
Proof. exact C315_transformed_features_pf. Qed.

Theorem C315_attributions :
  forall (A : Type) keys dflt models outputs (e : data A) l, unique_keys e -> NoDup models -> NoDup outputs ->
    standard_process (attribution_preprocessor keys dflt models outputs) e = Ok l ->
    selects (fun p => (dflt = true /\ default_input models outputs p) \/ below "attributions" (inside models (inside outputs (inside keys anywhere))) p) e l.
Proof. exact C315_attributions_pf. Qed.

Theorem C315_input :
  forall (A : Type) dflt (e : data A) l, unique_keys e -> standard_process (input_preprocessor dflt) e = Ok l ->
    selects (fun p => (dflt = true /\ default_input [] [] p) \/ below "input" anywhere p) e l.
Proof. exact C315_input_pf. Qed.

Theorem C315_combined_partial :
  forall (A : Type) keys dflt outputs (e : data A) l, unique_keys e -> NoDup outputs ->
    standard_process (combined_feature_preprocessor keys dflt [] outputs) e = Ok l ->
    selects (fun p => (dflt = true /\ default_input [] outputs p) \/
                      below "features" (inside keys anywhere) p \/ below "transformed_features" (inside keys anywhere) p) e l.
Proof. exact C315_combined_partial_pf. Qed.

Theorem C315_combined_refuted :
  exists (keys models : list string) (e : data nat) (x : data nat),
    unique_keys e /\ NoDup models /\ standard_process (combined_feature_preprocessor keys true models []) e = Ok [x] /\
    In "query" keys /\ leaf_at e ["features"; "query"] 1 /\ ~ leaf_at x ["features"; "query"] 1.
Proof. exact C315_combined_refuted_pf. Qed.

Example C315_example :
  standard_process (feature_preprocessor ["age"; "sex"; "age"] true [] []) an_extract =
    Ok [Dict [("features", Dict [("age", Leaf 2)]); ("labels", Leaf 5); ("predictions", Leaf 6); ("example_weights", Leaf 7)]] /\
  standard_process (feature_preprocessor [] false [] []) an_extract = Ok [Dict [("features", Dict [("query", Leaf 1); ("age", Leaf 2)])]] /\
  standard_process (transformed_feature_preprocessor ["age"] true ["m2"] []) two_models =
    Ok [Dict [("transformed_features", Dict [("m2", Dict [("age", Leaf 4)])]); ("labels", Dict [("m2", Leaf 5)]); ("predictions", Dict [("m2", Leaf 7)])]] /\
  standard_process (combined_feature_preprocessor ["age"] false [] []) an_extract =
    Ok [Dict [("transformed_features", Dict [("age", Leaf 3)]); ("features", Dict [("age", Leaf 2)])]] /\
  standard_process (attribution_preprocessor ["sex"] false [] []) an_extract = Ok [Dict [("attributions", Dict [("sex", Leaf 9)])]] /\
  standard_process (input_preprocessor false) an_extract = Ok [Dict [("input", Leaf 0)]].
Proof. repeat split; vm_compute; reflexivity. Qed.

Theorem C315_accepted :
  forall (A : Type) keys dflt (d : list (string * data A)), unique_keys (Dict d) ->
    (forall s v, In s ["features"; "transformed_features"; "attributions"] -> In (s, v) d -> exists f, v = Dict f) ->
    forall f, In f (kinds keys dflt) -> is_ok (standard_process f (Dict d)) = true.
Proof. exact C315_accepted_pf. Qed.

(** ** C316 *)
Theorem C316_features_partial :
  forall (A : Type) m inputs (d ff : list (string * data A)) l, unique_keys (Dict d) ->
    In ("features", Dict ff) d -> ~ In "transformed_features" (map fst d) ->
    evaluated m inputs (Dict d) = Ok l ->
    exists fs, l = [fs] /\ forall k v, In (k, v) fs <-> In (k, v) ff /\ (inputs = [] \/ In k inputs).
Proof. exact C316_features_partial_pf. Qed.

Theorem C316_inputs_of_model :
  forall (A : Type) m inputs (e : data A) el, unique_keys e ->
    preprocess [[Standard (evaluate_filter m inputs)]] e = Ok el ->
    exists x, snd el = [x] /\
      forall s q a, In s ["labels"; "predictions"; "example_weights"] -> (leaf_at x (s :: m :: q) a <-> leaf_at e (s :: m :: q) a).
Proof. exact C316_inputs_of_model_pf. Qed.

Theorem C316_one_model_refuted :
  exists (inputs : list string) (e : data nat),
    (leaf_at e ["transformed_features"; "age"] 2 /\ leaf_at e ["labels"; "o1"] 3) /\
    evaluated "" inputs e = Ok [[("age", Leaf 1)]] /\
    preprocess [[Standard (evaluate_filter "" inputs)]] e =
      Ok ([None], [Dict [("features", Dict [("age", Leaf 1)]); ("labels", Dict []); ("predictions", Dict []); ("transformed_features", Dict [])]]).
Proof. exact C316_one_model_refuted_pf. Qed.

Theorem C316_two_models_refuted :
  exists (inputs : list string) (e : data nat),
    leaf_at e ["transformed_features"; "m1"; "age"] 3 /\
    evaluated "m1" inputs e = Ok [[("query", Leaf 1); ("age", Leaf 2); ("m1", Dict [("age", Leaf 3)])]].
Proof. exact C316_two_models_refuted_pf. Qed.

Example C316_example :
  evaluated "m1" ["query"; "size"] (Dict [("features", Dict [("query", Leaf 1); ("age", Leaf 2)]);
    ("labels", Dict [("m1", Leaf 5); ("m2", Leaf 5)]); ("predictions", Dict [("m1", Leaf 6); ("m2", Leaf 7)])]) = Ok [[("query", Leaf 1)]] /\
  preprocess [[Standard (evaluate_filter "m1" ["query"; "age"])]] two_models =
    Ok ([None], [Dict [("features", Dict [("query", Leaf 1); ("age", Leaf 2)]); ("labels", Dict [("m1", Leaf 5)]); ("predictions", Dict [("m1", Leaf 6)]);
                       ("transformed_features", Dict [("m1", Dict [("age", Leaf 3)])])]]).
Proof. split; vm_compute; reflexivity. Qed.

(** Of the features of an example the transformed ones come before the raw ones, by name. *)
Theorem C316_transformed_first :
  forall (A : Type) (d f t : list (string * data A)) fs, unique_keys (Dict d) ->
    In ("features", Dict f) d -> In ("transformed_features", Dict t) d ->
    evaluate_features (Dict d) = Ok fs ->
    forall k v, In (k, v) fs <-> In (k, v) t \/ (In (k, v) f /\ ~ In k (map fst t)).
Proof. exact C316_transformed_first_pf. Qed.

Example C316_transformed_example :
  evaluate_features (Dict [("features", Dict [("query", Leaf 1); ("age", Leaf 2)]); ("transformed_features", Dict [("age", Leaf 3); ("size", Leaf 4)])]) =
  Ok [("query", Leaf 1); ("age", Leaf 3); ("size", Leaf 4)].
Proof. vm_compute. reflexivity. Qed.

(** ** C317 *)
Theorem C317_mean_reads_partial :
  forall path weights (e : data (list Qc)) l acc, unique_keys e -> path <> [] -> weights <> Some [] ->
    (forall p, reads path weights p -> exists v, value_at e p v) ->
    standard_process (mean_filter path weights) e = Ok l ->
    exists x, l = [x] /\ mean_add path weights acc x = mean_add path weights acc e.
Proof. exact C317_mean_reads_partial_pf. Qed.

(** Features that are stored under joined keys are found in extracts, but are not asked for. *)
Theorem C317_mean_reads_refuted :
  exists (path : list string) (e x : data (list Qc)),
    unique_keys e /\ path <> [] /\ standard_process (mean_filter path None) e = Ok [x] /\
    mean_add path None (0%Qc, 0%Qc) e = Ok (1%Qc, qz 3) /\ mean_add path None (0%Qc, 0%Qc) x = Err ValueError.
Proof. exact C317_mean_reads_refuted_pf. Qed.

Example C317_example :
  let e := Dict [("features", Dict [("age", Leaf [qz 3]); ("weight", Leaf [qz 2]); ("sex", Leaf [1%Qc])]); ("labels", Leaf [1%Qc])] in
  standard_process (mean_filter ["features"; "age"] (Some ["features"; "weight"])) e =
    Ok [Dict [("features", Dict [("age", Leaf [qz 3]); ("weight", Leaf [qz 2])])]] /\
  mean_add ["features"; "age"] (Some ["features"; "weight"]) (0%Qc, 0%Qc) e = Ok (qz 2, qz 6).
Proof. split; vm_compute; reflexivity. Qed.

Print Assumptions C315_features.
Print Assumptions C315_transformed_features.
Print Assumptions C315_attributions.
Print Assumptions C315_input.
Print Assumptions C315_combined_partial.
Print Assumptions C315_combined_refuted.
Print Assumptions C315_accepted.
Print Assumptions C316_features_partial.
Print Assumptions C316_inputs_of_model.
Print Assumptions C316_one_model_refuted.
Print Assumptions C316_two_models_refuted.
Print Assumptions C316_transformed_first.
Print Assumptions C317_mean_reads_partial.
Print Assumptions C317_mean_reads_refuted.
