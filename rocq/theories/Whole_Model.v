(* evaluators/metrics_plots_and_validations_evaluator.py as a whole: from the metrics specs and
   the examples to the reported metrics, plots and attributions of every slice.  The parts
   (preprocessing, combiners, derived, cross slice and diff metrics) are in Evaluator_Model, the
   confidence intervals in CI_Model, slicing in Slicer_Model and Pipeline_Model. *)
From Coq Require Import String Ascii.
From Verif Require Import Base Beam Slicer_Model Pipeline_Model Util_Model Keys_Model Evaluator_Model Config_Model.
From Verif Require Validation_Model.
Local Open Scope string_scope.
Local Open Scope list_scope.

(* ------------------------------------------------------------------ *)
(** * Metrics specs by query key *)

(** 1012-1017 of [_EvaluateMetricsPlotsAndValidations]: a dictionary of lists.  [query] is
    spec.query_key, "" if it is not set. *)
Definition add_to_group {S} (query : S -> string) (d : list (string * list S)) (s : S) : list (string * list S) :=
  dset String.eqb d (query s) (match dget String.eqb d (query s) with Some l => l | None => [] end ++ [s]).
Definition by_query_key {S} (query : S -> string) (specs : list S) : list (string * list S) :=
  fold_left (add_to_group query) specs [].
(** 1019-1022; [empty] is MetricsSpec(). *)
Definition spec_groups {S} (query : S -> string) (empty : S) (specs : list S) : list (string * list S) :=
  match by_query_key query specs with [] => [("", [empty])] | d => d end.

(* ------------------------------------------------------------------ *)
(** * Computations of a group of specs *)

(** What is needed of an EvalSharedModel: include_default_metrics, whether model_type is
    TF_KERAS, and the computations keras_util.metric_computations_using_keras_saved_model
    returns, with their preprocessors. *)
Record shared_model A := SharedModel {
  sm_name : string; sm_include : bool; sm_keras : bool;
  sm_columns : list (list (preprocessor A) * column A)
}.
Arguments SharedModel {A}. Arguments sm_name {A}. Arguments sm_include {A}. Arguments sm_keras {A}. Arguments sm_columns {A}.

(** What metric_specs.to_computations and [_filter_and_separate_computations] give (836-841). *)
Record compiled A := Compiled {
  cd_columns : list (list (preprocessor A) * column A);
  cd_derived : list (metrics -> res metrics);
  cd_compare : list (metrics -> metrics -> res metrics);
  cd_ci : list (metrics -> res metrics)
}.
Arguments Compiled {A}. Arguments cd_columns {A}. Arguments cd_derived {A}. Arguments cd_compare {A}. Arguments cd_ci {A}.

Section Computations.
  Context {A S : Type} (to_computations : list S -> res (compiled A)).

  (** 816-834: the metrics of the models come first. *)
  Definition default_columns (models : option (list (shared_model A))) : list (list (preprocessor A) * column A) :=
    flat_map (fun m => if sm_include m then if sm_keras m then sm_columns m else [] else [])
             (match models with Some l => l | None => [] end).
  Definition computations_of (models : option (list (shared_model A))) (specs : list S) : res (compiled A) :=
    let! c := to_computations specs in
    Ok (Compiled (default_columns models ++ cd_columns c) (cd_derived c) (cd_compare c) (cd_ci c)).

  (** 1029-1041: default metrics only without a query key, and unless
      options.include_default_metrics is set to false. *)
  Definition include_default_metrics (option_value : option bool) (query_key : string) : bool :=
    if negb (String.eqb query_key "") then false
    else match option_value with None => true | Some b => b end.
  (** 1042-1056, the arguments of [_ComputeMetricsAndPlots] *)
  Definition group_computations (option_value : option bool) (models : option (list (shared_model A)))
      (group : string * list S) : res (compiled A) :=
    computations_of (if include_default_metrics option_value (fst group) then models else None) (snd group).
End Computations.

(* ------------------------------------------------------------------ *)
(** * Results of a slice *)

(** Keys of results: MetricKey and its subclasses, or the plain text "__ERROR__" that
    slicer_lib.py 815 stores.  A text is never equal to a tuple. *)
Inductive rkey := Key (k : okey) | Text (s : string).
Definition rkey_eqb (a b : rkey) : bool :=
  match a, b with Key x, Key y => okey_eqb x y | Text s, Text t => String.eqb s t | _, _ => false end.
Definition results := list (rkey * val).
Definition of_metrics (m : metrics) : results := map (fun kv => (Key (fst kv), snd kv)) m.

(** slicer_lib.py 812-821 *)
Definition ERROR := "__ERROR__".
Definition too_small : results := [(Text ERROR, Other "Example count for this slice key is lower than the minimum required value")].

(** A slice or a pair of slices (baseline, comparison) *)
Definition slice := (skey + skey * skey)%type.
Definition slice_eqb (a b : slice) : bool :=
  match a, b with
  | inl x, inl y => skey_eqb x y
  | inr (x, u), inr (y, v) => skey_eqb x y && skey_eqb u v
  | _, _ => false
  end.
(** slicer_lib.py 809: not slice_key; a pair is never empty. *)
Definition is_overall (s : slice) : bool := match s with inl [] => true | _ => false end.

(** 665-700 [_filter_by_key_type]: whatever is neither plot nor attributions is a metric. *)
Definition kind_of (k : rkey) : key_class := match k with Key o => ok_class o | Text _ => IsMetric end.
Definition of_kind (c : key_class) (r : results) : results := filter (fun kv => class_eqb (kind_of (fst kv)) c) r.

(* ------------------------------------------------------------------ *)
(** * [_ComputeMetricsAndPlots], 763-965, without confidence intervals *)

Section Compute.
  Context {A Spec : Type} (applicable : Spec -> skey -> bool).

  (** Per slice: every step is a Map, so an exception for one slice ends the run. *)
  Definition each {K X Y} (f : X -> res Y) (l : list (K * X)) : res (list (K * Y)) :=
    mapM (fun kx => let! y := f (snd kx) in Ok (fst kx, y)) l.

  (** 927-951: derived metrics, cross slice metrics, diff metrics, metrics derived from
      confidence intervals, removal of private metrics, small slices. *)
  Definition finish (c : compiled A) (cross : list (Spec * list Spec)) (baseline : string) (min_size : Z)
      (combined : list (skey * res metrics)) (counts : list (skey * Z)) : res (list (slice * results)) :=
    let! base := each (fun r => r) combined in
    let! derived := each (add_derived_metrics (cd_derived c)) base in
    let! crossed := add_cross_slice_metrics applicable (cd_compare c) cross derived in
    let! diffs := each (add_diff_metrics baseline) crossed in
    let! cis := each (add_derived_metrics (cd_ci c)) diffs in
    let public := map (fun km => (fst km, of_metrics (remove_private_metrics (snd km)))) cis in
    if Z.ltb 1 min_size
    then filter_out_slices slice_eqb is_overall too_small min_size public (map (fun kn => (inl (fst kn), snd kn)) counts)
    else Ok public.

  (** 853-883: an extract has its slice keys (fst) and its data; the output of a run. *)
  Definition keyed (c : compiled A) (xs : list (list skey * data A)) : res (list (skey * element A)) :=
    let! es := mapM (fun kx => let! e := preprocess (map fst (cd_columns c)) (snd kx) in
                               Ok (fanout (fst kx) e)) xs in
    Ok (concat es).
  Definition computes (c : compiled A) (cross : list (Spec * list Spec)) (baseline : string) (min_size : Z)
      (xs : list (list skey * data A)) (out : res (list (slice * results))) : Prop :=
    match keyed c xs with
    | Err e => out = Err e
    | Ok kvs =>
        exists combined counts,
          per_key skey_eqb (computations_combine_fn (map snd (cd_columns c))) kvs combined /\
          per_key skey_eqb count_combiner kvs counts /\
          out = finish c cross baseline min_size combined counts
    end.
End Compute.

(* ------------------------------------------------------------------ *)
(** * Grouping by query: 199-246 *)

(** An example: its slice keys, the text of its query feature if there is one, and its data.
    [merge] is util.merge_extracts on the data (Batches_Model); the slice keys of the merged extract
    are those of all its examples, which _FanoutSlicesDoFn flattens (slicer_lib.py 683-691). *)
Record qexample A := QExample { q_slices : list skey; q_query : string -> option string; q_data : data A }.
Arguments QExample {A}. Arguments q_slices {A}. Arguments q_query {A}. Arguments q_data {A}.

Section Queries.
  Context {A : Type} (merge : list (data A) -> res (data A)).
  Definition merge_query (g : list (qexample A)) : res (list skey * data A) :=
    let! d := merge (map q_data g) in Ok (concat (map q_slices g), d).
  (** 1023-1041: the extracts of a group *)
  Definition extracts_of (query_key : string) (xs : list (qexample A)) (ys : res (list (list skey * data A))) : Prop :=
    if String.eqb query_key "" then ys = Ok (map (fun x => (q_slices x, q_data x)) xs)
    else exists groups, per_key String.eqb to_list_combiner (keyed_by_query (fun x => q_query x query_key) xs) groups /\
                        ys = mapM (fun qg => merge_query (snd qg)) groups.
End Queries.

(* ------------------------------------------------------------------ *)
(** * Putting the groups together *)

(** evaluators/evaluator.py 64-103 [_CombineEvaluationDictionariesFn], for any keys *)
Definition merge_results (a b : results) : res results :=
  if existsb (fun kv => dmem rkey_eqb a (fst kv)) b then Err ValueError else Ok (dupdate rkey_eqb a b).
Definition combine_results : combiner results (res results) (res results) :=
  {| c_create := Ok [];
     c_add := fun acc m => let! a := acc in merge_results a m;
     c_merge := fun l => match l with
                         | [] => Err StopIteration
                         | a :: t => fold_left (fun acc b => let! x := acc in let! y := b in merge_results x y) t a
                         end;
     c_extract := fun a => a |}.

(** evaluator.py 106-140 [combine_dict_based_evaluations], for the outputs of one kind *)
Definition put_together (c : key_class) (ls : list (list (slice * results))) (out : list (slice * res results)) : Prop :=
  match ls with
  | [l] => out = map (fun kr => (fst kr, Ok (of_kind c (snd kr)))) l
  | _ => per_key slice_eqb combine_results (map (fun kr => (fst kr, of_kind c (snd kr))) (concat ls)) out
  end.

(** 968-1064 [_EvaluateMetricsPlotsAndValidations], the output of one kind; the validations are
    below. *)
Section Evaluate.
  Context {A S Spec : Type} (applicable : Spec -> skey -> bool) (to_computations : list S -> res (compiled A))
          (query : S -> string) (empty : S) (merge : list (data A) -> res (data A)).

  Definition group_evaluates (option_value : option bool) (models : option (list (shared_model A)))
      (cross : list (Spec * list Spec)) (baseline : string) (min_size : Z) (xs : list (qexample A))
      (group : string * list S) (out : list (slice * results)) : Prop :=
    exists c ys, group_computations to_computations option_value models group = Ok c /\
      extracts_of merge (fst group) xs (Ok ys) /\
      computes applicable c cross baseline min_size ys (Ok out).
  Definition evaluates (option_value : option bool) (models : option (list (shared_model A)))
      (cross : list (Spec * list Spec)) (baseline : string) (min_size : Z) (specs : list S)
      (xs : list (qexample A)) (kind : key_class) (out : list (slice * res results)) : Prop :=
    exists ls, Forall2 (group_evaluates option_value models cross baseline min_size xs)
                       (spec_groups query empty specs) ls /\
               put_together kind ls out.
End Evaluate.

(** 1060-1062: the validation of the metrics of a slice.  The text "__ERROR__" is the key of no
    threshold, so it plays no part. *)
Definition for_validation (r : results) : list (metric_key * Validation_Model.mvalue) :=
  flat_map (fun kv => match fst kv with
                      | Key k => [(ok_key k, match snd kv with Num x => Validation_Model.Number x | Other _ => Validation_Model.Structure end)]
                      | Text _ => []
                      end) r.
Definition validate_slice (baseline : option string) (ths : Validation_Model.thresholds) (sr : slice * results)
    : res Validation_Model.vresult :=
  Validation_Model.validate_metrics baseline (fst sr) (for_validation (snd sr)) ths.

(* ------------------------------------------------------------------ *)
(** * Confidence intervals: 701-738 [_get_confidence_interval_params] *)

(** The numbers of jackknife and of bootstrap samples (60-61: 20 each). *)
Definition ci_samples (compute : bool) (m : ci_method) : nat * nat :=
  if compute then match m with
                  | Jackknife => (20, 0)
                  | PoissonBootstrap => (0, 20)
                  | UnknownMethod => (0, 0)
                  end
  else (0, 0).
(** 891-925: which of the three ways is taken *)
Inductive way := BootstrapWay (samples : nat) | JackknifeWay (samples : nat) | PlainWay.
Definition ci_way (params : nat * nat) : way :=
  match params with
  | (_, S n) => BootstrapWay (S n)
  | (S n, 0) => JackknifeWay (S n)
  | (0, 0) => PlainWay
  end.
