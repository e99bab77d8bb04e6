(* Config *)
From Coq Require Import String.
From Verif Require Import Base BaseFacts Beam Slicer_Model Inputs_Model Keys_Model Means_Model Validation_Model Config_Model.
From Verif Require Import Config_Main.
Local Open Scope string_scope.
Local Open Scope list_scope.

(* ------------------------------------------------------------------ *)
(** ** Verification *)
Theorem C50_verification_partial :
  forall c required,
    (acceptable c required -> verify_eval_config c required = Ok tt) /\
    (~ acceptable c required -> verify_eval_config c required = Err ValueError).
Proof. exact C50_verification_partial_pf. Qed.

Example verification_ex :
  verify_eval_config (models_only [named "a" false; named "b" true]) true = Ok tt /\
  verify_eval_config (models_only [named "a" false]) true = Err ValueError /\
  verify_eval_config (models_only [named "a" true; named "b" true]) false = Err ValueError /\
  verify_eval_config (models_only [named "a" false; named "" true]) false = Err ValueError /\
  verify_eval_config (models_only [ModelSpec "" "label" [("out", "label2")] "" [] "" [] false ""]) false = Err ValueError.
Proof. repeat split. Qed.

(** Two specs of the same name pass. *)
Theorem C50_duplicate_names_rejected_refuted :
  exists m1 m2, m_name m1 = m_name m2 /\ m_is_baseline m1 = false /\ m_is_baseline m2 = true /\
    verify_eval_config (models_only [m1; m2]) true = Ok tt.
Proof. exact C50_duplicate_names_rejected_refuted_pf. Qed.

(* ------------------------------------------------------------------ *)
(** ** Defaults: thresholds and baseline *)
(** Without baseline (and with leave, if there were change thresholds) no baseline and no
    change threshold remain, and nothing else of the models and thresholds is lost. *)
Theorem C51_removal_of_baseline :
  forall c stamp c',
    update_eval_config_with_defaults c None None (Some false) stamp = Ok c' ->
    (forall m, In m (e_models c') -> m_is_baseline m = false) /\
    map unnamed (e_models c') = match filter (fun m => negb (m_is_baseline m)) (e_models c) with
                                | [] => [empty_model_spec]
                                | l => map unnamed l
                                end /\
    Forall2 (fun s s' => same_values (entries s) (entries s')) (e_specs c) (e_specs c').
Proof. exact C51_removal_of_baseline_pf. Qed.

Example removal_ex :
  update_eval_config_with_defaults (EvalConfig [named "m" false; named "b" true] [auc_spec [] true; auc_spec ["m"] true] true UnknownMethod "") None None (Some false) true
  = Ok (EvalConfig [named "" false] [auc_spec [""] false; auc_spec [""] false] true Jackknife "").
Proof. reflexivity. Qed.

(** Without baseline, change thresholds should be an error unless the model is rubber stamped;
    one without bounds is not. *)
Theorem C109_change_needs_baseline_refuted :
  exists c c', change_thresholds c = [(None, None, UnknownDirection)] /\
    update_eval_config_with_defaults c None None (Some false) false = Ok c'.
Proof. exact C109_change_needs_baseline_refuted_pf. Qed.

Theorem C109_change_needs_baseline_partial :
  forall c add remove has_baseline stamp,
    update_eval_config_with_defaults c add remove has_baseline stamp = Err RuntimeError <->
    has_baseline <> Some true /\ stamp = false /\
    exists ch, In ch (change_thresholds c) /\ ch <> (None, None, UnknownDirection).
Proof. exact C109_change_needs_baseline_partial_pf. Qed.

Example change_needs_baseline_ex :
  let c := EvalConfig [named "" false] [auc_spec [] true] false UnknownMethod "" in
  update_eval_config_with_defaults c None None (Some false) false = Err RuntimeError /\
  update_eval_config_with_defaults c None None (Some true) false
    = Ok (EvalConfig [named "candidate" false; named "baseline" true] [auc_spec ["candidate"; "baseline"] true] false UnknownMethod "").
Proof. split; reflexivity. Qed.

(** maybe_add_baseline=True should add a baseline to a single unnamed model.  As has_baseline is
    False by default it is removed again. *)
Theorem C110_maybe_add_baseline_adds_refuted :
  forall m, m_name m = "" ->
    exists c', update_eval_config_with_defaults (models_only [m]) (Some true) None (Some false) false = Ok c' /\
      forall m', In m' (e_models c') -> m_is_baseline m' = false.
Proof. exact C110_maybe_add_baseline_adds_refuted_pf. Qed.

Theorem C110_baseline_added_partial :
  forall c add has_baseline stamp m c',
    e_models c = [m] -> m_name m = "" ->
    (has_baseline = Some true \/ (has_baseline = None /\ add = Some true)) ->
    update_eval_config_with_defaults c add None has_baseline stamp = Ok c' ->
    map m_name (e_models c') = ["candidate"; "baseline"] /\ map unnamed (e_models c') = [unnamed m; rename m "" true] /\
    Forall2 (fun s s' => entries s' = entries s /\ s_models s' = match s_models s with [] => ["candidate"; "baseline"] | l => l end) (e_specs c) (e_specs c').
Proof. exact C110_baseline_added_partial_pf. Qed.

(* ------------------------------------------------------------------ *)
(** ** Defaults: names *)
(** There is a model; a single one has no name and all metrics are for it; metrics specs that
    name no model are for all; confidence intervals have a method. *)
Theorem C113_defaults_are_filled_in :
  forall c add remove has_baseline stamp c',
    update_eval_config_with_defaults c add remove has_baseline stamp = Ok c' ->
    e_models c' <> [] /\ (length (e_models c') = 1 -> forall m, In m (e_models c') -> m_name m = "") /\
    Forall2 (fun s s' => metric_settings s' = metric_settings s /\
               s_models s' = if Nat.eqb (length (e_models c')) 1 then [""]
                             else match s_models s with [] => map m_name (e_models c') | l => l end)
            (e_specs c) (e_specs c') /\
    e_compute_ci c' = e_compute_ci c /\ e_rest c' = e_rest c /\
    (e_compute_ci c = true -> e_ci_method c' <> UnknownMethod) /\
    (e_ci_method c <> UnknownMethod \/ e_compute_ci c = false -> e_ci_method c' = e_ci_method c).
Proof. exact C113_defaults_are_filled_in_pf. Qed.

Example defaults_ex :
  update_eval_config_with_defaults (EvalConfig [] [auc_spec ["m"] false] true UnknownMethod "") None None (Some false) false
    = Ok (EvalConfig [empty_model_spec] [auc_spec [""] false] true Jackknife "") /\
  update_eval_config_with_defaults (EvalConfig [named "a" false; named "b" false] [auc_spec ["a"] false; auc_spec [] false] false UnknownMethod "") None None None false
    = Ok (EvalConfig [named "a" false; named "b" false] [auc_spec ["a"] false; auc_spec ["a"; "b"] false] false UnknownMethod "").
Proof. split; reflexivity. Qed.

Theorem C112_named_models_exist_refuted :
  (exists c c', names_known c /\ update_eval_config_with_defaults c None None (Some false) false = Ok c' /\ ~ names_known c') /\
    (exists c c', names_known c /\ update_eval_config_with_defaults c None None (Some true) false = Ok c' /\ ~ names_known c').
Proof. exact C112_named_models_exist_refuted_pf. Qed.

(** It holds for every spec that names no models, and whenever one model remains or no model
    is added or removed. *)
Theorem C112_named_models_exist_partial :
  forall c add remove has_baseline stamp c',
    update_eval_config_with_defaults c add remove has_baseline stamp = Ok c' ->
    (forall s, In s (e_specs c) -> s_models s = []) \/ length (e_models c') = 1 \/
      (names_known c /\ map m_name (e_models c') = map m_name (e_models c)) ->
    names_known c'.
Proof. exact C112_named_models_exist_partial_pf. Qed.

(* ------------------------------------------------------------------ *)
(** ** Applying the defaults again *)
(** The entry points of the library apply the defaults to a config to which they were applied
    before.  The second time should change nothing; a single named spec evaluated with two
    models first loses its name and then becomes candidate and baseline, which no metrics spec
    is for. *)
Theorem C111_defaults_idempotent_refuted :
  exists c x c1 c2,
    update_for_models c x = Ok c1 /\ update_for_models c1 x = Ok c2 /\
    map m_name (e_models c1) = [""] /\ map m_name (e_models c2) = ["candidate"; "baseline"] /\
    forall s, In s (e_specs c2) -> s_models s = [""].
Proof. exact C111_defaults_idempotent_refuted_pf. Qed.

Theorem C111_defaults_idempotent_partial :
  forall c has_baseline stamp c',
    update_eval_config_with_defaults c None None has_baseline stamp = Ok c' ->
    (has_baseline = Some true -> 2 <= length (e_models c) \/ exists m, e_models c = [m] /\ m_name m = "") ->
    update_eval_config_with_defaults c' None None has_baseline stamp = Ok c'.
Proof. exact C111_defaults_idempotent_partial_pf. Qed.

Example idempotent_ex :
  let c := EvalConfig [named "" false] [auc_spec [] true] true UnknownMethod "" in
  match update_eval_config_with_defaults c None None (Some true) false with
  | Ok c' => c' <> c /\ update_eval_config_with_defaults c' None None (Some true) false = Ok c'
  | Err _ => False
  end.
Proof. cbn. split; [discriminate|reflexivity]. Qed.

(* ------------------------------------------------------------------ *)
(** ** Models by name *)
(** The models to evaluate should have different names; they need not. *)
Theorem C114_model_names_differ_refuted :
  exists x l, verify_and_update_eval_shared_models x = Ok (Some l) /\ ~ NoDup (map sm_name l).
Proof. exact C114_model_names_differ_refuted_pf. Qed.

(** Nothing is lost or added; a single model has no name, several have names, and verifying
    the result again changes nothing.  Names differ if models are given in a dictionary whose
    keys are not empty, and are these keys. *)
Theorem C114_models_are_normalized_partial :
  forall x l, verify_and_update_eval_shared_models x = Ok (Some l) ->
    l <> [] /\
    map sm_path l = match x with NoModel => [] | OneModel m => [sm_path m] | ModelList t => map sm_path t | ModelDict t => map (fun kv => sm_path (snd kv)) t end /\
    (length l = 1 -> map sm_name l = [""]) /\ (length l <> 1 -> forall m, In m l -> sm_name m <> "") /\
    verify_and_update_eval_shared_models (ModelList l) = Ok (Some l) /\
    (forall d, x = ModelDict d -> length d <> 1 -> NoDup (map fst d) -> ~ In "" (map fst d) -> map sm_name l = map fst d /\ NoDup (map sm_name l)).
Proof. exact C114_models_are_normalized_partial_pf. Qed.

Example models_ex :
  verify_and_update_eval_shared_models (ModelDict [("a", SharedModel "" false false "/a"); ("b", SharedModel "b" true false "/b")])
    = Ok (Some [SharedModel "a" false false "/a"; SharedModel "b" true false "/b"]) /\
  verify_and_update_eval_shared_models (ModelList [SharedModel "a" false false "/a"]) = Ok (Some [SharedModel "" false false "/a"]) /\
  verify_and_update_eval_shared_models (ModelDict [("a", SharedModel "b" false false "/a")]) = Err ValueError /\
  verify_and_update_eval_shared_models (ModelList [SharedModel "" false false "/a"; SharedModel "b" true false "/b"]) = Err ValueError.
Proof. repeat split. Qed.

(** A rubber stamp is needed from every candidate; a baseline alone is refused. *)
Theorem C116_rubber_stamp_needs_all_candidates :
  forall x, has_rubber_stamp x = Ok true <->
    exists l, x = Some l /\ (forall m, In m l -> sm_baseline m = false -> sm_stamp m = true) /\
      (forall m, l = [m] -> sm_baseline m = false).
Proof. exact C116_rubber_stamp_needs_all_candidates_pf. Qed.

Example stamp_ex :
  has_rubber_stamp (Some [SharedModel "a" false true "/a"; SharedModel "b" true false "/b"; SharedModel "c" false false "/c"]) = Ok false /\
  has_rubber_stamp (Some [SharedModel "a" false true "/a"; SharedModel "b" true false "/b"]) = Ok true /\
  has_rubber_stamp (Some [SharedModel "" true true "/b"]) = Err ValueError.
Proof. repeat split. Qed.

(* ------------------------------------------------------------------ *)
(** ** Values of a model *)
(** The labels, weights or predictions of a model evaluated with others are those it has when
    evaluated alone. *)
Theorem C115_values_by_model :
  forall V (features : list (string * V)) transformed allow field fields ms m v,
    NoDup (map m_name ms) -> 2 <= length ms -> In m ms -> v <> One None ->
    (part_for (get_feature_values features transformed allow field fields ms) (m_name m) = Some v <->
     get_feature_values features transformed allow field fields [m] = Single v).
Proof. exact C115_values_by_model_pf. Qed.

Example values_ex :
  let features := [("label", 1); ("l1", 2); ("l2", 3)] in
  let transformed := fun n => if String.eqb n "a" then [("label", 7)] else [] in
  get_feature_values features transformed false m_label_key m_label_keys [named "a" false; two_heads]
    = PerModel [("a", One (Some 7)); ("b", PerOutput [("h1", Some 2); ("h2", Some 3)])] /\
  get_feature_values features transformed false m_label_key m_label_keys [two_heads] = Single (PerOutput [("h1", Some 2); ("h2", Some 3)]) /\
  get_feature_values (V := nat) [] (fun _ => []) true m_label_key m_label_keys [named "a" false] = NoValues.
Proof. repeat split. Qed.

(** With leave to miss values every model has an entry, with None for what is missing. *)
Theorem C115_missing_values_are_none :
  forall V (features : list (string * V)) transformed field fields ms m,
    NoDup (map m_name ms) -> 2 <= length ms -> In m ms ->
    part_for (get_feature_values features transformed true field fields ms) (m_name m) =
    Some (if String.eqb (field m) "" then
            match fields m with
            | [] => One None
            | l => PerOutput (map (fun ok => (fst ok, stored_value features transformed (m_name m) (snd ok))) l)
            end
          else One (stored_value features transformed (m_name m) (field m))).
Proof. exact C115_missing_values_are_none_pf. Qed.

(* ------------------------------------------------------------------ *)
(** ** Specs and models by name *)
Theorem C138_baseline_spec : forall c,
  match get_baseline_model_spec c with
  | Some m => first_with (fun m => m_is_baseline m = true) (e_models c) m
  | None => forall m, In m (e_models c) -> m_is_baseline m = false
  end.
Proof. exact C138_baseline_spec_pf. Qed.

(** The spec of a name is the first one of this name; no name asks for the only one. *)
Theorem C138_spec_by_name : forall c name,
  match get_model_spec c name with
  | Some m => (name = "" /\ e_models c = [m]) \/ first_with (fun m => m_name m = name) (e_models c) m
  | None => forall m, In m (e_models c) -> m_name m <> name /\ (name = "" -> length (e_models c) <> 1)
  end.
Proof. exact C138_spec_by_name_pf. Qed.

(** The label of an output: the one label of the model, else the label of the output; several
    labels need an output. *)
Theorem C138_label_key : forall m output,
  (m_label_key m <> "" -> get_label_key m output = Ok (Some (m_label_key m))) /\
  (m_label_key m = "" -> m_label_keys m = [] -> get_label_key m output = Ok None) /\
  (m_label_key m = "" -> m_label_keys m <> [] -> output = "" -> get_label_key m output = Err ValueError) /\
  (m_label_key m = "" -> output <> "" -> NoDup (map fst (m_label_keys m)) ->
     forall k, In (output, k) (m_label_keys m) -> get_label_key m output = Ok (Some k)).
Proof. exact C138_label_key_pf. Qed.

(** An output without a label should be an error; the label is the empty key. *)
Theorem C138_unknown_output_refuted : exists m output,
  m_label_keys m <> [] /\ ~ In output (map fst (m_label_keys m)) /\ get_label_key m output = Ok (Some "").
Proof. exact C138_unknown_output_refuted_pf. Qed.

(** The model of a name, or else the only model if it has no name. *)
Theorem C138_model_by_name : forall name d, NoDup (map fst d) ->
  (forall m, In (name, m) d -> get_eval_shared_model name d = Ok m) /\
  (~ In name (map fst d) -> forall m, d = [("", m)] -> get_eval_shared_model name d = Ok m) /\
  (~ In name (map fst d) -> (forall m, d <> [("", m)]) -> get_eval_shared_model name d = Err ValueError).
Proof. exact C138_model_by_name_pf. Qed.

Example C138_example :
  get_model_spec (EvalConfig [named "a" false] [] false UnknownMethod "") "" = Some (named "a" false) /\
  get_model_spec (EvalConfig [named "a" false] [] false UnknownMethod "") "b" = None /\
  get_baseline_model_spec (EvalConfig [named "a" false; two_heads] [] false UnknownMethod "") = Some two_heads /\
  get_label_key two_heads "h2" = Ok (Some "l2") /\ get_label_key two_heads "" = Err ValueError /\
  get_eval_shared_model "a" [("", SharedModel "" false false "/a")] = Ok (SharedModel "" false false "/a") /\
  get_eval_shared_model "b" [("a", SharedModel "a" false false "/a")] = Err ValueError.
Proof. repeat split. Qed.

(** An evaluation of one model has no baseline, whatever the config says. *)
Theorem C51_one_model_has_no_baseline :
  forall c m c', update_for_models c (OneModel m) = Ok c' ->
    sm_baseline m = false /\ (forall m, In m (e_models c') -> m_is_baseline m = false) /\
    Forall2 (fun s s' => same_values (entries s) (entries s')) (e_specs c) (e_specs c').
Proof. exact C51_one_model_has_no_baseline_pf. Qed.

Print Assumptions C50_verification_partial.
Print Assumptions C50_duplicate_names_rejected_refuted.
Print Assumptions C51_removal_of_baseline.
Print Assumptions C109_change_needs_baseline_refuted.
Print Assumptions C109_change_needs_baseline_partial.
Print Assumptions C110_maybe_add_baseline_adds_refuted.
Print Assumptions C110_baseline_added_partial.
Print Assumptions C113_defaults_are_filled_in.
Print Assumptions C112_named_models_exist_refuted.
Print Assumptions C112_named_models_exist_partial.
Print Assumptions C111_defaults_idempotent_refuted.
Print Assumptions C111_defaults_idempotent_partial.
Print Assumptions C114_model_names_differ_refuted.
Print Assumptions C114_models_are_normalized_partial.
Print Assumptions C116_rubber_stamp_needs_all_candidates.
Print Assumptions C115_values_by_model.
Print Assumptions C115_missing_values_are_none.
Print Assumptions C138_baseline_spec.
Print Assumptions C138_spec_by_name.
Print Assumptions C138_label_key.
Print Assumptions C138_unknown_output_refuted.
Print Assumptions C138_model_by_name.
Print Assumptions C51_one_model_has_no_baseline.
