(* Model of evaluators/query_metrics/*.py, extractors/legacy_feature_extractor.py,
   legacy_meta_feature_extractor.py, legacy_input_extractor.py, extractor.py (Filter),
   evaluators/analysis_table_evaluator.py, api/verifier_lib.py and utils/size_estimator.py. *)
From Coq Require Import String Ascii Reals.
From Verif Require Import Base Beam Util_Model Ranking_Model.
Local Open Scope string_scope.
Local Open Scope list_scope.

(* ------------------------------------------------------------------ *)
(** * query_metrics *)

(** query_types.py: an example of a query: its features (the elements of an array) and its
    labels.  Simplification: a label is one number, and predictions, which are not read, are left
    out. *)
Record example_fpl := ExampleFpl { ef_features : list (string * list Qc); ef_labels : list (string * Qc) }.
(** QueryFPL; the id serves messages only *)
Notation query_fpl := (list example_fpl).

(** ndcg.py 40-61, min_label_position.py 38-59 [_get_feature_value].  Simplification: an array has two
    dimensions (of one without a second one, feature[0][0] is an error) *)
Definition get_feature_value (f : example_fpl) (key : string) : res Qc :=
  match dget String.eqb (ef_features f) key with
  | Some [x] => Ok x
  | _ => Err ValueError
  end.

(** ndcg.py 137-150, min_label_position.py 101-114: the weight of a query *)
Definition query_weight (weight_key : string) (q : query_fpl) : res Qc :=
  if String.eqb weight_key "" then Ok 1%Qc
  else
    let! weights := mapM (fun f => get_feature_value f weight_key) q in
    match weights with
    | [] => Ok 1%Qc
    | w :: ws => if negb (Qc_eqb (fold_left Qcmin ws w) (fold_left Qcmax ws w)) then Err ValueError else Ok w
    end.

(** ndcg.py 35-37 [_State], the values in the order of at_vals; the dictionary has one
    value for each number, so equal numbers have equal values.
    Simplification: at_vals are not negative. *)
Definition at_state := (list R * Qc)%type.
(** 130-134 [_add_states] *)
Definition at_add (a b : at_state) : at_state :=
  (map (fun xy => fst xy + snd xy)%R (combine (fst a) (fst b)), (snd a + snd b)%Qc).
(** 136-160 [add_input]; 83-122 are the lines of [calculate_ndcg] in Ranking_Model *)
Definition at_add_input (at_vals : list nat) (gain_key weight_key : string) (acc : at_state) (q : query_fpl) : res at_state :=
  let! weight := query_weight weight_key q in
  let! terms := mapM (fun at_ =>
      let! gains := mapM (fun f => get_feature_value f gain_key) q in
      Ok (calculate_ndcg (combine (seq 1 (length gains)) gains) at_ * Q2R weight)%R) at_vals in
  Ok (at_add acc (terms, weight)).
(** 169-177 [extract_output]: by number (the names are ndcg@number) *)
Definition at_extract (at_vals : list nat) (a : at_state) : list (nat * R) :=
  fold_left (fun d kv => dset Nat.eqb d (fst kv) (snd kv))
    (combine at_vals (map (fun x => if Qc_ltb 0%Qc (snd a) then x / Q2R (snd a) else 0)%R (fst a))) [].
(** 64-177 [NdcgMetricCombineFn] *)
Definition legacy_ndcg (at_vals : list nat) (gain_key weight_key : string) :=
  res_combiner (repeat 0%R (length at_vals), 0%Qc) (at_add_input at_vals gain_key weight_key) at_add (fun a => Ok (at_extract at_vals a)).

(** min_label_position.py 76-82: the key of the labels *)
Definition min_label_key (label_key : string) : string := if String.eqb label_key "" then (KEY_SEPARATOR ++ "labels")%string else label_key.
(** 85-89 [_get_label] *)
Definition get_label (key : string) (f : example_fpl) : Qc := match dget String.eqb (ef_labels f) key with Some l => l | None => 0%Qc end.
(** 116-120: the position of the first label *)
Fixpoint first_label (key : string) (pos : nat) (q : query_fpl) : option nat :=
  match q with
  | [] => None
  | f :: r => if Qc_ltb 0%Qc (get_label key f) then Some (pos + 1)%nat else first_label key (pos + 1)%nat r
  end.
Definition pos_state := (Qc * Qc)%type.
(** 94-98 [_add_states] *)
Definition pos_add (a b : pos_state) : pos_state := ((fst a + fst b)%Qc, (snd a + snd b)%Qc).
(** 100-126 [add_input] *)
Definition pos_add_input (label_key weight_key : string) (acc : pos_state) (q : query_fpl) : res pos_state :=
  let! weight := query_weight weight_key q in
  Ok (pos_add acc match first_label (min_label_key label_key) 0 q with
                  | Some p => (qz (Z.of_nat p), weight)
                  | None => (0%Qc, 0%Qc)
                  end).
(** 135-142 [extract_output]; None: an empty dictionary *)
Definition pos_extract (a : pos_state) : option Qc := if Qc_ltb 0%Qc (snd a) then Some (fst a / snd a)%Qc else None.
Definition min_label_position (label_key weight_key : string) :=
  res_combiner (0%Qc, 0%Qc) (pos_add_input label_key weight_key) pos_add (fun a => Ok (pos_extract a)).

(** query_statistics.py 25-77 *)
Record query_state := QueryState { total_queries : Z; total_documents : Z; min_documents : Z; max_documents : Z }.
Definition LARGE_INT : Z := 1000000000.
Definition statistics_add (a : query_state) (q : query_fpl) : query_state :=
  let n := Z.of_nat (length q) in
  QueryState (total_queries a + 1) (total_documents a + n) (Z.min (min_documents a) n) (Z.max (max_documents a) n).
Definition statistics_merge (a b : query_state) : query_state :=
  QueryState (total_queries a + total_queries b) (total_documents a + total_documents b)
    (Z.min (min_documents a) (min_documents b)) (Z.max (max_documents a) (max_documents b)).
Definition query_statistics :=
  res_combiner (QueryState 0 0 LARGE_INT 0) (fun a q => Ok (statistics_add a q)) statistics_merge (fun a => Ok a).

(* ------------------------------------------------------------------ *)
(** * legacy_feature_extractor.py *)

(** A value of a feature, prediction or label: a sparse tensor, an array (or list) by its
    first dimension, or something else *)
Inductive fetched (X : Type) := Sparse (values : list X) | Rows (rows : list X) | OtherFetched.
Arguments Sparse {X}. Arguments Rows {X}. Arguments OtherFetched {X}.
(** An item of a dictionary of data: the value, under 'node' or not *)
Inductive node (X : Type) := UnderNode (v : fetched X) | Plain (v : fetched X).
Arguments UnderNode {X}. Arguments Plain {X}.
(** The value of a MaterializedColumn: values of a sparse tensor or of an example, the first
    row, or the empty list *)
Inductive column (X : Type) := ColumnValues (values : list X) | ColumnRow (row : X) | ColumnEmpty.
Arguments ColumnValues {X}. Arguments ColumnRow {X}. Arguments ColumnEmpty {X}.

(** A feature of a tf.Example: the values of the kind that is set, None if none is *)
Definition example_feature (X : Type) := option (list X).

(** FeaturesPredictionsLabels *)
Record fpl_value (X : Type) := FplValue { fv_features : list (string * node X); fv_predictions : list (string * node X); fv_labels : list (string * node X) }.
Arguments FplValue {X}. Arguments fv_features {X}. Arguments fv_predictions {X}. Arguments fv_labels {X}.

(** A value of an extract: a column, an FPL, a serialized example (with its features if it can
    be parsed; empty bytes are told apart), a dictionary of data, or something else that is false
    or not *)
Inductive extracted (X : Type) :=
| Column (name : string) (value : column X)
| Fpl (v : fpl_value X)
| Serialized (empty : bool) (features : option (list (string * example_feature X)))
| Data (d : list (string * node X))
| Something (falsy : bool).
Arguments Column {X}. Arguments Fpl {X}. Arguments Serialized {X}. Arguments Data {X}. Arguments Something {X}.

Section Features.
  Context {X : Type}.

  (** 80-87: the name of a column *)
  Definition column_name (prefix name : string) : string :=
    if String.eqb name prefix || String.eqb name (KEY_SEPARATOR ++ prefix) then prefix
    else if negb (existsb (String.eqb prefix) ["features"; "predictions"; "labels"]) then (prefix ++ KEY_SEPARATOR ++ name)%string
    else compound_key KEY_SEPARATOR [prefix; name].

  (** 77-78, 89-103 *)
  Definition column_of (v : node X) : res (column X) :=
    match v with
    | UnderNode (Sparse l) | Plain (Sparse l) => Ok (ColumnValues l)
    | UnderNode (Rows (r :: _)) | Plain (Rows (r :: _)) => Ok (ColumnRow r)
    | UnderNode (Rows []) | Plain (Rows []) => Ok ColumnEmpty
    | _ => Err TypeError
    end.

  (** 52-103 [_AugmentExtracts] *)
  Definition augment_extracts (data : list (string * node X)) (prefix : string) (excludes : option (list string))
      (extracts : list (string * extracted X)) : res (list (string * extracted X)) :=
    foldM (fun e nv =>
      if match excludes with Some l => existsb (String.eqb (fst nv)) l | None => false end then Ok e
      else let! c := column_of (snd nv) in
           let n := column_name prefix (fst nv) in
           Ok (dset String.eqb e n (Column n c))) data extracts.

  (** 106-132 [_ParseExample]: the variable "values" outlives an iteration.  An example that
      cannot be parsed has no features.
      Simplification: np.array([values]) is an array whose only row is made of the values by
      [row]. *)
  Variable row : list X -> X.
  Definition parse_step (materialize : bool)
      (s : option (list X) * list (string * node X) * list (string * extracted X)) (nf : string * example_feature X)
    : res (option (list X) * list (string * node X) * list (string * extracted X)) :=
    let '(values, features, e) := s in
    let '(name, feature) := nf in
    if materialize || negb (dmem String.eqb features name) then
      let key := compound_key KEY_SEPARATOR ["features"; name] in
      let values := match feature with Some l => Some l | None => values end in
      match values with
      | None => Err UnboundLocalError
      | Some l =>
          let e := if materialize then dset String.eqb e key (Column key (ColumnValues l)) else e in
          let features := if dmem String.eqb features name then features else dset String.eqb features name (UnderNode (Rows [row l])) in
          Ok (values, features, e)
      end
    else Ok s.
  Definition parse_example (materialize : bool) (parsed : option (list (string * example_feature X)))
      (e : list (string * extracted X)) : res (list (string * extracted X)) :=
    let! features := match dget String.eqb e "fpl" with
                     | Some (Fpl v) => Ok (fv_features v)
                     | Some _ => Err AttributeError
                     | None => Ok []
                     end in
    let! s := foldM (parse_step materialize) (match parsed with Some l => l | None => [] end) (None, features, e) in
    let '(_, features, e) := s in
    Ok match dget String.eqb e "fpl" with
       | Some (Fpl v) => dset String.eqb e "fpl" (Fpl (FplValue features (fv_predictions v) (fv_labels v)))
       | _ => e
       end.

  (** 135-206 [_MaterializeFeatures]; the sources are "fpl" and "input", and the destination is to
      materialize columns or not.  deepcopy: the given extract is not changed. *)
  Definition materialize_features (e : list (string * extracted X)) (additional : list string) (excludes : option (list string))
      (source : string) (materialize : bool) : res (list (string * extracted X)) :=
    let! e := foldM (fun e key =>
        match dget String.eqb e key with
        | None => Ok e
        | Some (Data d) => augment_extracts d key excludes e
        | Some _ => Err AttributeError
        end) additional e in
    if String.eqb source "fpl" then
      match dget String.eqb e "fpl" with
      | None | Some (Something true) | Some (Data []) | Some (Serialized true _) => Err RuntimeError
      | Some (Fpl v) =>
          let! e := augment_extracts (fv_features v) "features" excludes e in
          let! e := augment_extracts (fv_predictions v) "predictions" excludes e in
          augment_extracts (fv_labels v) "labels" excludes e
      | Some _ => Err TypeError
      end
    else if String.eqb source "input" then
      match dget String.eqb e "input" with
      | None | Some (Something true) | Some (Data []) | Some (Serialized true _) => Err RuntimeError
      | Some (Serialized false parsed) => parse_example materialize parsed e
      | Some _ => parse_example materialize None e
      end
    else Err RuntimeError.
End Features.

(* ------------------------------------------------------------------ *)
(** * legacy_meta_feature_extractor.py *)

Section Meta.
  Context {X : Type}.
  (** A new feature: an array or a sparse tensor, or another value, of which an array is made *)
  Inductive new_value := AsArray (v : fetched X) | AsOther (v : X).

  (** 40-51 [_set_feature_value] *)
  Definition set_feature_value (features : list (string * node X)) (key : string) (v : new_value) : list (string * node X) :=
    dset String.eqb features key (UnderNode match v with AsArray f => f | AsOther x => Rows [x] end).

  (** 71-80 [update_fpl_features] *)
  Definition update_fpl_features (features : list (string * node X)) (new : list (string * new_value)) : res (list (string * node X)) :=
    foldM (fun f kv => if dmem String.eqb f (fst kv) then Err ValueError else Ok (set_feature_value f (fst kv) (snd kv))) new features.

  (** 54-68, 83-99 [_ExtractMetaFeature]; the features are copied before they are changed.
      Simplification: an extract under the key is an FPL. *)
  Definition extract_meta_feature (new_features_fn : fpl_value X -> list (string * new_value)) (e : list (string * extracted X))
    : res (list (string * extracted X)) :=
    match dget String.eqb e "fpl" with
    | Some (Fpl v) =>
        let! f := update_fpl_features (fv_features v) (new_features_fn v) in
        Ok (dset String.eqb e "fpl" (Fpl (FplValue f (fv_predictions v) (fv_labels v))))
    | _ => Err RuntimeError
    end.
End Meta.

(* ------------------------------------------------------------------ *)
(** * legacy_input_extractor.py *)

(** The keys of a ModelSpec: one, or by output *)
Record input_spec := InputSpec {
  is_name : string; is_label_key : string; is_label_keys : list (string * string);
  is_weight_key : string; is_weight_keys : list (string * string);
  is_prediction_key : string; is_prediction_keys : list (string * string)
}.

(** A value of an extract: None, an array, or a dictionary *)
Inductive xvalue (X : Type) := XNone | XArray (v : X) | XDict (d : list (string * xvalue X)).
Arguments XNone {X}. Arguments XArray {X}. Arguments XDict {X}.

Section Inputs.
  Context {X : Type}.

  (** 70-86 [_keys_and_values], the values *)
  Definition keys_and_values (key : string) (keys : list (string * string)) (features : list (string * X)) : xvalue X :=
    if String.eqb key "" then
      XDict (fold_left (fun d ok => match dget String.eqb features (snd ok) with
                                    | Some v => dset String.eqb d (fst ok) (XArray v)
                                    | None => d
                                    end) keys [])
    else match dget String.eqb features key with Some v => XArray v | None => XNone end.

  (** 105-115 [add_to_extracts]: the extract that was given (whose dictionaries are shared with
      the copy) and the copy *)
  Definition add_to_extracts (several : bool) (key model_name : string) (v : xvalue X)
      (s : list (string * xvalue X) * list (string * xvalue X)) : res (list (string * xvalue X) * list (string * xvalue X)) :=
    let '(given, e) := s in
    if several then
      match dget String.eqb e key with
      | None => Ok (given, dset String.eqb e key (XDict [(model_name, v)]))
      | Some (XDict d) =>
          let d' := XDict (dset String.eqb d model_name v) in
          Ok (if dmem String.eqb given key then dset String.eqb given key d' else given, dset String.eqb e key d')
      | Some (XArray _) => Err IndexError
      | Some XNone => Err TypeError
      end
    else Ok (given, dset String.eqb e key v).

  (** 117-132 *)
  Definition add_kind (several : bool) (kind name key : string) (keys : list (string * string)) (features : list (string * X))
      (s : list (string * xvalue X) * list (string * xvalue X)) : res (list (string * xvalue X) * list (string * xvalue X)) :=
    match key, keys with
    | EmptyString, [] => Ok s
    | _, _ => add_to_extracts several kind name (keys_and_values key keys features) s
    end.
  Definition add_spec (several : bool) (features : list (string * X))
      (s : list (string * xvalue X) * list (string * xvalue X)) (spec : input_spec) :=
    let! s := add_kind several "labels" (is_name spec) (is_label_key spec) (is_label_keys spec) features s in
    let! s := add_kind several "example_weights" (is_name spec) (is_weight_key spec) (is_weight_keys spec) features s in
    add_kind several "predictions" (is_name spec) (is_prediction_key spec) (is_prediction_keys spec) features s.

  (** 89-134 [_ParseExample]: the extract that was given as it is afterwards, and the new one.
      [features] is what the example is parsed to. *)
  Definition parse_inputs (specs : list input_spec) (features : list (string * X)) (e : list (string * xvalue X))
    : res (list (string * xvalue X) * list (string * xvalue X)) :=
    let! s := foldM (add_spec (Nat.ltb 1 (length specs)) features) specs (e, e) in
    Ok (fst s, dset String.eqb (snd s) "features" (XDict (map (fun kv => (fst kv, XArray (snd kv))) features))).
End Inputs.

(* ------------------------------------------------------------------ *)
(** * extractor.py and analysis_table_evaluator.py *)

(** include or exclude: None, a list or a dictionary *)
Inductive selection := NoSelection | SelectList (l : list string) | SelectMap (f : filt).
Definition selected (s : selection) : bool :=
  match s with NoSelection | SelectList [] | SelectMap (Filt []) => false | _ => true end.
Definition as_filter (s : selection) : filt :=
  match s with
  | NoSelection => Filt []
  | SelectList l => Filt (map (fun k => (k, Filt [])) (dedup String.eqb l))
  | SelectMap f => f
  end.

Section Analysis.
  Context {A : Type}.
  (** extractor.py 36-87 [Filter]: the function applied to each extract; the check is made when
      the transform is built *)
  Definition filter_extracts (include exclude : selection) : res (data A -> res (data A)) :=
    if selected include && selected exclude then Err ValueError
    else Ok (fun e => if selected include then include_filter (as_filter include) e
                      else if selected exclude then exclude_filter (as_filter exclude) e else Ok e).

  (** analysis_table_evaluator.py 73-114 [EvaluateExtracts]: the extracts under the key *)
  Definition evaluate_extracts (key : string) (include exclude : selection) (extracts : list (data A))
    : res (list (string * list (data A))) :=
    let exclude := match include, exclude with NoSelection, NoSelection => SelectList ["input"] | _, _ => exclude end in
    let! filtered := if selected include || selected exclude then
                       let! f := filter_extracts include exclude in mapM f extracts
                     else Ok extracts in
    Ok [(key, filtered)].
End Analysis.

(* ------------------------------------------------------------------ *)
(** * verifier_lib.py and size_estimator.py *)

(** verifier_lib.py 24-55 [Validate] *)
Definition validate {E V W} (extracts : E) (alternatives : list (string * (E -> V)))
    (validators : list (list (string * V) -> list (string * W))) : list (string * W) :=
  let evaluations := fold_left (fun d kv => dset String.eqb d (fst kv) (snd kv extracts)) alternatives [] in
  fold_left (fun d v => dupdate String.eqb d (v evaluations)) validators [].

(** size_estimator.py 24-77: the current size, the threshold, the size of a value and the count
    of references to it; int(a / b) cuts off *)
Record size_estimator := SizeEstimator { se_threshold : Z; se_current : Z }.
Definition amortized_size (size refcount : Z) : Z := Z.quot size (Z.max 1 (refcount - 3)).
Definition estimator_update (s : size_estimator) (size refcount : Z) : size_estimator :=
  SizeEstimator (se_threshold s) (se_current s + amortized_size size refcount).
Definition estimator_add (s other : size_estimator) : size_estimator := SizeEstimator (se_threshold s) (se_current s + se_current other).
Definition should_flush (s : size_estimator) : bool := Z.leb (se_threshold s) (se_current s).
Definition estimator_clear (s : size_estimator) : size_estimator := SizeEstimator (se_threshold s) 0.

(* ------------------------------------------------------------------ *)
(** * evaluators/counter_util.py *)

(** The counters of the pipeline *)
Definition counters := list (string * Z).
Definition increment (c : counters) (name : string) : counters :=
  dset String.eqb c name (match dget String.eqb c name with Some n => n | None => 0 end + 1)%Z.
(** 25-32 [_IncrementMetricsCounters] *)
Definition increment_metric (c : counters) (metric version model_type : string) : counters :=
  increment c ("metric_computed_" ++ metric ++ "_" ++ version ++ "_" ++ model_type)%string.
(** 35-54 [IncrementMetricsCallbacksCounters]; None: a callback without a name *)
Definition callbacks_counters (callbacks : list (option string)) (model_type : string) (c : counters) : counters :=
  fold_left (fun c n => match n with Some n => increment_metric c n "v1" model_type | None => c end) callbacks c.
(** 57-79 [IncrementSliceSpecCounters]; a slice key, whose values are already the strings that
    they are formatted to *)
Definition slice_counters (slices : list (list (string * string))) (c : counters) : counters :=
  fold_left (fun c key => fold_left (fun c kv => increment c ("slice_computed_" ++ fst kv ++ "_" ++ snd kv)%string) key c) slices c.
(** 82-102 [IncrementMetricsSpecsCounters]; the class names of the metrics of each spec *)
Definition metrics_specs_counters (specs : list (list string)) (model_types : list string) (c : counters) : counters :=
  fold_left (fun c t => fold_left (fun c spec => fold_left (fun c m => increment_metric c m "v2" t) spec c) specs c) model_types c.
