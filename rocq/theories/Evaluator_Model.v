(* evaluators/metrics_plots_and_validations_evaluator.py: from examples to the
   dictionary of results of every slice, and evaluators/evaluator.py 64-140.
   Confidence intervals are not part of this file. *)
From Coq Require Import String Ascii.
From Verif Require Import Base Beam Slicer_Model Util_Model Inputs_Model Means_Model Keys_Model.
Local Open Scope string_scope.
Local Open Scope list_scope.

(* ------------------------------------------------------------------ *)
(** * Results *)

(** metric_types.py 262-275, 369-385, 421-430: PlotKey and AttributionsKey are subclasses of
    MetricKey; all three compare and hash as the tuple of their fields, so the
    class of a key plays no part in a dictionary lookup. *)
Inductive key_class := IsMetric | IsPlot | IsAttributions.
Record okey := OKey { ok_class : key_class; ok_key : metric_key }.
Definition okey_eqb (a b : okey) : bool := metric_key_eqb (ok_key a) (ok_key b).

(** A value of a metric: a number, or anything that is not one (text, messages,
    dictionaries), for which "-" raises TypeError.  Simplification: arrays of
    numbers and StructuredMetricValues are left out. *)
Inductive val := Num (x : num) | Other (s : string).
Definition val_sub (a b : val) : res val :=
  match a, b with Num x, Num y => Ok (Num (num_sub x y)) | _, _ => Err TypeError end.
(** evaluator 557-562 [_is_metric_diffable] *)
Definition diffable (v : val) : bool := match v with Num _ => true | Other _ => false end.

(** MetricsDict *)
Definition metrics := list (okey * val).
Definition mget (m : metrics) (k : metric_key) : option val := dget okey_eqb m (OKey IsMetric k).

(* ------------------------------------------------------------------ *)
(** * Computations *)

(** metric_types.py 520-720.  cp_body is the combiner or the function. *)
Inductive comp_kind := Combine (combiner_class : string) (preprocessor_ids : list string)
  | Derive | DeriveCI | CompareSlices.
Record computation (B : Type) := Computation {
  cp_kind : comp_kind; cp_keys : list metric_key; cp_body : B
}.
Arguments Computation {B}. Arguments cp_kind {B}. Arguments cp_keys {B}. Arguments cp_body {B}.

Definition comp_id {B} (c : computation B) : res computation_id :=
  match cp_kind c with
  | Combine cls pre => metric_computation_id cls (cp_keys c) pre
  | _ => derived_computation_id (cp_keys c)
  end.

(** 130-196 [_filter_and_separate_computations]: four lists, each with the ids
    seen so far. *)
Record separated (B : Type) := Separated {
  sp_base : list (computation_id * computation B);
  sp_derived : list (computation_id * computation B);
  sp_cross : list (computation_id * computation B);
  sp_ci : list (computation_id * computation B)
}.
Arguments Separated {B}. Arguments sp_base {B}. Arguments sp_derived {B}. Arguments sp_cross {B}. Arguments sp_ci {B}.

Section Separate.
  Context {B : Type}.
  Definition add_new (l : list (computation_id * computation B)) (i : computation_id) (c : computation B) :=
    if existsb (fun ic => id_eqb i (fst ic)) l then l else l ++ [(i, c)].
  Definition separate_step (s : separated B) (c : computation B) : res (separated B) :=
    let! i := comp_id c in
    Ok match cp_kind c with
       | Combine _ _ => Separated (add_new (sp_base s) i c) (sp_derived s) (sp_cross s) (sp_ci s)
       | DeriveCI => Separated (sp_base s) (sp_derived s) (sp_cross s) (add_new (sp_ci s) i c)
       | Derive => Separated (sp_base s) (add_new (sp_derived s) i c) (sp_cross s) (sp_ci s)
       | CompareSlices => Separated (sp_base s) (sp_derived s) (add_new (sp_cross s) i c) (sp_ci s)
       end.
  Definition filter_and_separate_computations (l : list (computation B)) : res (separated B) :=
    foldM separate_step l (Separated [] [] [] []).
End Separate.

(* ------------------------------------------------------------------ *)
(** * Preprocessing *)

(** metric_types.py 985-1050: a StandardMetricInputsPreprocessor is its include filter;
    any other preprocessor is a function. *)
Inductive preprocessor (A : Type) :=
| Standard (f : filt)
| Custom (process : data A -> res (list (data A))).
Arguments Standard {A}. Arguments Custom {A}.

Definition LABELS_KEY := "labels".
Definition PREDICTIONS_KEY := "predictions".
Definition EXAMPLE_WEIGHTS_KEY := "example_weights".
Definition FEATURES_KEY := "features".
Definition TRANSFORMED_FEATURES_KEY := "transformed_features".
Definition ATTRIBUTIONS_KEY := "attributions".

(** metric_types.py 1019-1040 [StandardMetricInputsPreprocessor.__init__] *)
Definition nest (names : list string) (f : filt) : filt :=
  match names with [] => f | _ => Filt (map (fun n => (n, f)) names) end.
Definition standard_filter (include : list (string * filt)) (include_default_inputs : bool)
    (model_names output_names : list string) : filt :=
  if include_default_inputs then
    let d := nest model_names (nest output_names (Filt [])) in
    Filt (dupdate String.eqb include [(LABELS_KEY, d); (PREDICTIONS_KEY, d); (EXAMPLE_WEIGHTS_KEY, d)])
  else Filt include.

Section Preprocess.
  Context {A : Type}.

  (** 1046-1050 [StandardMetricInputsPreprocessor.process]: an empty filter yields {}
      and then, since there is no return, the whole extracts as well. *)
  Definition standard_process (f : filt) (e : data A) : res (list (data A)) :=
    let! r := include_filter f e in
    Ok (match f with Filt [] => [Dict []; r] | _ => [r] end).

  (** 1207-1235 [StandardMetricInputsPreprocessorList] *)
  Definition merged_filter (fs : list filt) : filt :=
    fold_left (fun acc f => match acc with Filt [] => f | _ => merge_filters acc f end) fs (Filt []).

  (** metric_util.py 261-320 [to_standard_metric_inputs], with the flags of evaluator
      373-392. *)
  Definition has (k : string) (e : data A) : bool :=
    match e with Dict d => dmem String.eqb d k | Leaf _ => false end.
  Definition to_standard_metric_inputs (f : filt) (e : data A) : res (data A) :=
    let wants k := dmem String.eqb (subfilters f) k in
    if wants LABELS_KEY && negb (has LABELS_KEY e) then Err ValueError
    else if wants PREDICTIONS_KEY && negb (has PREDICTIONS_KEY e) then Err ValueError
    else if (wants FEATURES_KEY || wants TRANSFORMED_FEATURES_KEY)
            && negb (has FEATURES_KEY e) && negb (has TRANSFORMED_FEATURES_KEY e) then Err ValueError
    else if wants ATTRIBUTIONS_KEY && negb (has ATTRIBUTIONS_KEY e) then Err ValueError
    else Ok e.

  (** 351-366: the preprocessors of a computation one after the other. *)
  Definition run_preprocessor (p : preprocessor A) (e : data A) : res (list (data A)) :=
    match p with Standard f => standard_process f e | Custom g => g e end.
  Definition chain_preprocessors (ps : list (preprocessor A)) (e : data A) : res (list (data A)) :=
    foldM (fun es p => let! ls := mapM (run_preprocessor p) es in Ok (concat ls)) ps [e].

  (** 1019-1040: StandardMetricInputsPreprocessor() *)
  Definition default_filter : filt := standard_filter [] true [] [].

  (** 312-398 [_PreprocessorDoFn.process].  comps are the preprocessors of the
      computations; None among the combiner inputs stands for the shared inputs. *)
  Definition shared (ps : list (preprocessor A)) : option filt :=
    match ps with [] => Some default_filter | [Standard f] => Some f | _ => None end.
  Fixpoint standard_filters (seen_default : bool) (comps : list (list (preprocessor A))) : list filt :=
    match comps with
    | [] => []
    | [] :: t => (if seen_default then [] else [default_filter]) ++ standard_filters true t
    | [Standard f] :: t => f :: standard_filters seen_default t
    | _ :: t => standard_filters seen_default t
    end.
  Definition element := (list (option (list (data A))) * list (data A))%type.
  Definition preprocess (comps : list (list (preprocessor A))) (e : data A) : res element :=
    let! own := mapM (fun ps => match shared ps with
                                | Some _ => Ok None
                                | None => let! es := chain_preprocessors ps e in Ok (Some es)
                                end) comps in
    match standard_filters false comps with
    | [] => Ok (own, [])
    | fs => let f := merged_filter fs in
            let! es := standard_process f e in
            let! inputs := mapM (to_standard_metric_inputs f) es in
            Ok (own, inputs)
    end.
End Preprocess.
Arguments element : clear implicits.

(* ------------------------------------------------------------------ *)
(** * The compound combiner *)

Section Tuple.
  Context {A : Type}.

  (** A computation's combiner: accumulators of any type. *)
  Record column := Column {
    col_acc : Type; col_combiner : combiner (data A) col_acc (res metrics)
  }.

  (** 414-418 [_ComputationsCombineFn.__init__]; Beam's SingleInputTupleCombineFn keeps one
      accumulator per combiner. *)
  Fixpoint accs (cs : list column) : Type :=
    match cs with [] => unit | c :: t => (col_acc c * accs t)%type end.
  Fixpoint tuple_create (cs : list column) : accs cs :=
    match cs with [] => tt | c :: t => (c_create (col_combiner c), tuple_create t) end.

  (** 421-440 [add_input]: item i, or the shared inputs if it is None; CombineFn.add_inputs
      adds them one by one.  Simplification: an exception of a combiner keeps its class instead of
      being wrapped in RuntimeError; it lives in the column's accumulator. *)
  Definition item (e : element A) (i : nat) : list (data A) :=
    match nth_error (fst e) i with Some (Some l) => l | _ => snd e end.
  Definition add_inputs (c : column) (a : col_acc c) (l : list (data A)) : col_acc c :=
    fold_left (c_add (col_combiner c)) l a.
  Fixpoint tuple_add_input (cs : list column) (i : nat) (e : element A) : accs cs -> accs cs :=
    match cs with
    | [] => fun a => a
    | c :: t => fun a => (add_inputs c (fst a) (item e i), tuple_add_input t (S i) e (snd a))
    end.

  (** apache_beam combiners.TupleCombineFn.merge_accumulators: zip of the accumulators, column by
      column. *)
  Fixpoint tuple_merge (cs : list column) : list (accs cs) -> accs cs :=
    match cs with
    | [] => fun _ => tt
    | c :: t => fun l => (c_merge (col_combiner c) (map fst l), tuple_merge t (map snd l))
    end.

  (** 446-450 [extract_output] *)
  Fixpoint tuple_extract (cs : list column) : accs cs -> metrics -> res metrics :=
    match cs with
    | [] => fun _ m => Ok m
    | c :: t => fun a m => let! o := c_extract (col_combiner c) (fst a) in
                           tuple_extract t (snd a) (dupdate okey_eqb m o)
    end.

  Definition computations_combine_fn (cs : list column) : combiner (element A) (accs cs) (res metrics) :=
    {| c_create := tuple_create cs;
       c_add := fun a e => tuple_add_input cs 0 e a;
       c_merge := tuple_merge cs;
       c_extract := fun a => tuple_extract cs a [] |}.
End Tuple.
Arguments column : clear implicits.

(* ------------------------------------------------------------------ *)
(** * Derived, cross slice and diff metrics *)

(** 611-621 [add_derived_metrics], 741-744 [_add_ci_derived_metrics] *)
Definition add_derived_metrics (fs : list (metrics -> res metrics)) (m : metrics) : res metrics :=
  foldM (fun r f => let! d := f r in Ok (dupdate okey_eqb r d)) fs m.

(** 446-447 [_is_private_metrics]; str.startswith *)
Definition starts_with (p s : string) : bool :=
  match strip_prefix p s with Some _ => true | None => false end.
Definition is_private (k : okey) : bool :=
  starts_with "_" (k_name (ok_key k)) && negb (starts_with "__" (k_name (ok_key k))).
(** 450-456 [_remove_private_metrics] *)
Definition remove_private_metrics (m : metrics) : metrics := filter (fun kv => negb (is_private (fst kv))) m.

(** 489-519 [compute_cross_slices], one comparison slice. *)
Definition cross_slice_metrics (compare : list (metrics -> metrics -> res metrics))
    (baseline comparison : metrics) : res metrics :=
  let! r := foldM (fun acc kv =>
      let k := fst kv in
      match dget okey_eqb baseline k with
      | None => Ok acc
      | Some b =>
          if is_private k then Ok acc
          else match ok_class k with
               | IsMetric => let! d := val_sub b (snd kv) in Ok (dset okey_eqb acc k d)
               | _ => Ok acc
               end
      end) comparison [] in
  foldM (fun acc f => let! d := f baseline comparison in Ok (dupdate okey_eqb acc d)) compare r.

(** 473-487 [is_slice_applicable] *)
Section Cross.
  Context {S : Type} (applicable : S -> skey -> bool).
  (** The specs of a CrossSlicingSpec after SingleSliceSpec(spec=...). *)
  Definition cross_of (compare : list (metrics -> metrics -> res metrics)) (base_spec : S) (specs : list S)
      (sliced : list (skey * metrics)) : res (list ((skey * skey) * metrics)) :=
    let bases := filter (fun km => applicable base_spec (fst km)) sliced in
    let comparisons :=
      match specs with
      | [] => filter (fun km => negb (applicable base_spec (fst km))) sliced
      | _ => filter (fun km => existsb (fun s => applicable s (fst km)) specs) sliced
      end in
    let! ls := mapM (fun b => mapM (fun c => let! m := cross_slice_metrics compare (snd b) (snd c) in
                                              Ok ((fst b, fst c), m)) comparisons) bases in
    Ok (concat ls).

  (** 521-554 [_AddCrossSliceMetrics]; a result belongs to a slice or to a pair of slices. *)
  Definition add_cross_slice_metrics (compare : list (metrics -> metrics -> res metrics))
      (cross_specs : list (S * list S)) (sliced : list (skey * metrics))
      : res (list ((skey + skey * skey) * metrics)) :=
    let! ls := mapM (fun bs => cross_of compare (fst bs) (snd bs) sliced) cross_specs in
    Ok (map (fun km => (inl (fst km), snd km)) sliced ++ map (fun km => (inr (fst km), snd km)) (concat ls)).
End Cross.

(** metric_types.py 300-306, 24-28 of Keys_Model: keys of the same class. *)
Definition odiff_key (k : okey) : okey := OKey (ok_class k) (make_diff_key (ok_key k)).
Definition obaseline_key (k : okey) (baseline : string) : okey :=
  OKey (ok_class k) (make_baseline_key (ok_key k) baseline).

(** 623-655 [add_diff_metrics]; baseline "" (or None) means no baseline model. *)
Definition add_diff_metrics (baseline : string) (m : metrics) : res metrics :=
  if String.eqb baseline "" then Ok m
  else
    let! d := foldM (fun acc kv =>
        let k := fst kv in
        if is_private k then Ok acc
        else if k_diff (ok_key k) then Ok acc
        else if negb (String.eqb (k_model (ok_key k)) baseline) then
          match dget okey_eqb m (obaseline_key k baseline) with
          | Some b => if diffable (snd kv) then let! x := val_sub (snd kv) b in Ok (dset okey_eqb acc (odiff_key k) x)
                      else Ok acc
          | None => Ok acc
          end
        else Ok acc) m [] in
    Ok (dupdate okey_eqb m d).

(** 670-700 [_filter_by_key_type] *)
Definition class_eqb (a b : key_class) : bool :=
  match a, b with IsMetric, IsMetric | IsPlot, IsPlot | IsAttributions, IsAttributions => true | _, _ => false end.
Definition filter_by_key_type (c : key_class) (m : metrics) : metrics :=
  filter (fun kv => class_eqb (ok_class (fst kv)) c) m.

(** What one slice reports: 920-962 without cross slices. *)
Definition finish_slice (derived ci : list (metrics -> res metrics)) (baseline : string) (m : metrics) : res metrics :=
  let! m1 := add_derived_metrics derived m in
  let! m2 := add_diff_metrics baseline m1 in
  let! m3 := add_derived_metrics ci m2 in
  Ok (remove_private_metrics m3).

(* ------------------------------------------------------------------ *)
(** * evaluators/evaluator.py 64-103 [_CombineEvaluationDictionariesFn] *)

Definition merge_dicts (a b : metrics) : res metrics :=
  if existsb (fun kv => dmem okey_eqb a (fst kv)) b then Err ValueError else Ok (dupdate okey_eqb a b).
Definition combine_dictionaries : combiner metrics (res metrics) (res metrics) :=
  {| c_create := Ok [];
     c_add := fun acc m => let! a := acc in merge_dicts a m;
     c_merge := fun l => match l with
                         | [] => Err StopIteration
                         | a :: t => fold_left (fun acc b => let! x := acc in let! y := b in merge_dicts x y) t a
                         end;
     c_extract := fun a => a |}.

(* ------------------------------------------------------------------ *)
(** * Queries *)

(** 199-246 [_GroupByQueryKey]: CombinePerKey(ToListCombineFn) by the text of the query
    feature, "" if the feature is missing; merge_extracts keeps the examples in the order of the
    list. *)
Definition query_text (v : option string) : string := match v with Some s => s | None => "" end.
(** apache_beam.transforms.combiners.ToListCombineFn *)
Definition to_list_combiner {X} : combiner X (list X) (list X) :=
  {| c_create := []; c_add := fun a x => a ++ [x]; c_merge := fun l => concat l; c_extract := fun a => a |}.
Definition keyed_by_query {X} (query : X -> option string) (xs : list X) : list (string * X) :=
  map (fun x => (query_text (query x), x)) xs.

(* ------------------------------------------------------------------ *)
(** * metrics/confusion_matrix_metrics.py 2637-2660 *)

(** [ConfusionMatrixFeatureSamplerBase._metric_computations], the derived computation:
    keys=[]; result(metrics) stores the samples into its argument and returns it. *)
Definition feature_sampler (output_key examples_key : metric_key) (get_samples : val -> val)
    : computation (metrics -> res metrics) :=
  Computation Derive [] (fun m => match mget m examples_key with
                                  | None => Err KeyError
                                  | Some v => Ok (dset okey_eqb m (OKey IsMetric output_key) (get_samples v))
                                  end).
