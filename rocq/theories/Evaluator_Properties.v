(* Evaluator *)
From Coq Require Import String Ascii.
From Verif Require Import Base BaseFacts Beam BeamFacts Slicer_Model Util_Model Inputs_Model Means_Model.
From Verif Require Import Keys_Model Keys_Main Util_Main Pipeline_Model Evaluator_Model.
From Verif Require Import Evaluator_Main.
Local Open Scope string_scope.
Local Open Scope list_scope.

(* ------------------------------------------------------------------ *)
(** ** Dictionaries of results *)
(* ------------------------------------------------------------------ *)
(** ** C34 diff metrics *)
(** With a baseline model, the value under the diff key of every numeric public metric of
    another model whose baseline has it is the difference; every other key keeps its value. *)
Theorem C34_diff_is_candidate_minus_baseline :
  forall baseline m r, baseline <> "" -> unique m -> add_diff_metrics baseline m = Ok r ->
    (forall n mo o s a w x, compared baseline m n mo o s a w x ->
       mget r (MetricKey n mo o s a w true) = Some (Num x)) /\
    (forall n mo o s a w, (forall x, ~ compared baseline m n mo o s a w x) ->
       mget r (MetricKey n mo o s a w true) = mget m (MetricKey n mo o s a w true)) /\
    (forall n mo o s a w,
       mget r (MetricKey n mo o s a w false) = mget m (MetricKey n mo o s a w false)).
Proof. exact C34_diff_is_candidate_minus_baseline_pf. Qed.

(** Adding diffs only fails if a numeric metric has a baseline value that is not a number;
    without a baseline model nothing changes. *)
Theorem C34_diffs_defined :
  (forall m, add_diff_metrics "" m = Ok m) /\
  (forall baseline m,
    (forall j v, In (j, v) m -> diffable v = true -> ok_class j = IsMetric -> forall b,
       mget m (make_baseline_key (ok_key j) baseline) = Some b -> diffable b = true) ->
    (forall j v, In (j, v) m -> ok_class j <> IsMetric -> diffable v = false) ->
    exists r, add_diff_metrics baseline m = Ok r).
Proof. exact C34_diffs_defined_pf. Qed.

(** Two candidates and a baseline; the private helper and the text metric get no diff. *)
Example C34_example :
  add_diff_metrics "base"
    [(OKey IsMetric (plain "auc" "a"), Num (Fin (qz 3))); (OKey IsMetric (plain "auc" "base"), Num (Fin (qz 2)));
     (OKey IsMetric (plain "auc" "b"), Num (Fin 1%Qc)); (OKey IsMetric (plain "_tp" "a"), Num (Fin 1%Qc));
     (OKey IsMetric (plain "_tp" "base"), Num (Fin 1%Qc)); (OKey IsMetric (plain "words" "a"), Other "x");
     (OKey IsMetric (plain "words" "base"), Other "y")]
  = Ok
    [(OKey IsMetric (plain "auc" "a"), Num (Fin (qz 3))); (OKey IsMetric (plain "auc" "base"), Num (Fin (qz 2)));
     (OKey IsMetric (plain "auc" "b"), Num (Fin 1%Qc)); (OKey IsMetric (plain "_tp" "a"), Num (Fin 1%Qc));
     (OKey IsMetric (plain "_tp" "base"), Num (Fin 1%Qc)); (OKey IsMetric (plain "words" "a"), Other "x");
     (OKey IsMetric (plain "words" "base"), Other "y");
     (OKey IsMetric (make_diff_key (plain "auc" "a")), Num (Fin 1%Qc));
     (OKey IsMetric (make_diff_key (plain "auc" "b")), Num (Fin (qz (-1))))].
Proof. vm_compute. reflexivity. Qed.

(* ------------------------------------------------------------------ *)
(** ** C35 private metrics *)
(** What a slice reports has no private metric, and every public metric of the combiners is there. *)
Theorem C35_private_metrics_hidden :
  forall derived ci baseline m r, finish_slice derived ci baseline m = Ok r ->
    (forall k v, In (k, v) r -> ~ private_name (k_name (ok_key k))) /\
    (forall k, mget m k <> None -> ~ private_name (k_name k) -> mget r k <> None).
Proof. exact C35_private_metrics_hidden_pf. Qed.

(** Values that are not overwritten by a later step are reported as they are. *)
Theorem C35_public_values_kept :
  forall m k, ~ private_name (k_name k) -> mget (remove_private_metrics m) k = mget m k.
Proof. exact C35_public_values_kept_pf. Qed.

Example C35_example :
  finish_slice [fun m => match mget m (plain "_tp" "") with
                         | Some v => Ok [(OKey IsMetric (plain "tp" ""), v)] | None => Err KeyError end] [] ""
    [(OKey IsMetric (plain "_tp" ""), Num (Fin 1%Qc)); (OKey IsMetric (plain "__odd" ""), Num (Fin 0%Qc))]
  = Ok [(OKey IsMetric (plain "__odd" ""), Num (Fin 0%Qc)); (OKey IsMetric (plain "tp" ""), Num (Fin 1%Qc))].
Proof. reflexivity. Qed.

(* ------------------------------------------------------------------ *)
(** ** C36 shared computations *)
(** A computation is run at most once, the first one asked for is the one that is run, and every
    computation asked for is run or has the id of one that is. *)
Theorem C36_computed_once :
  forall (B : Type) (l : list (computation B)) s, filter_and_separate_computations l = Ok s ->
    forall bucket p, In (bucket, p) [(sp_base s, is_base); (sp_derived s, is_derived); (sp_cross s, is_cross); (sp_ci s, is_ci)] ->
      NoDup (map fst bucket) /\
      (forall i c, In (i, c) bucket -> p c = true /\ comp_id c = Ok i /\
         exists l1 l2, l = l1 ++ c :: l2 /\ forall d, In d l1 -> p d = true -> comp_id d <> Ok i) /\
      (forall c, In c l -> p c = true -> exists i d, comp_id c = Ok i /\ In (i, d) bucket).
Proof. exact C36_computed_once_pf. Qed.

(** Metrics evaluated together have the values each has alone, provided the id of a computation
    tells it apart from the others asked for, no two computations output the same key, and every
    derived computation is listed after the ones it uses. *)
Theorem C36_values_as_alone_partial :
  forall (asked : list (list comp)) (needs : comp -> list metric_key),
    (forall c, In c (concat asked) -> is_base c = true \/ is_derived c = true) ->
    (forall c d i, In c (concat asked) -> In d (concat asked) -> is_base c = is_base d ->
       comp_id c = Ok i -> comp_id d = Ok i -> c = d) ->
    (forall c d k, In c (concat asked) -> In d (concat asked) -> writes c k -> writes d k -> c = d) ->
    (forall c m m', In c (concat asked) -> (forall k, In k (needs c) -> mget m k = mget m' k) -> cp_body c m = cp_body c m') ->
    (forall c, In c (concat asked) -> is_base c = true -> needs c = []) ->
    (forall g, In g asked -> forall g1 c g2 k, g = g1 ++ c :: g2 -> In k (needs c) ->
       exists d, always d k /\ ((In d g1 /\ is_derived d = true) \/ (In d g /\ is_base d = true))) ->
    (forall g, In g asked -> exists r, evaluate g = Ok r) ->
    exists r, evaluate (concat asked) = Ok r /\
      (forall g rg k v, In g asked -> evaluate g = Ok rg -> mget rg k = Some v -> mget r k = Some v) /\
      (forall k v, mget r k = Some v -> exists g rg, In g asked /\ evaluate g = Ok rg /\ mget rg k = Some v).
Proof. exact C36_values_as_alone_partial_pf. Qed.

(** Two metrics derived from one matrix: the matrix is computed once. *)
Example C36_example :
  evaluate [counts_comp; half_comp "precision"] = Ok [(OKey IsMetric counts_key, Num (Fin (qz 6))); (OKey IsMetric (plain "precision" ""), Num (Fin (qz 4)))] /\
  evaluate [counts_comp; half_comp "precision"; counts_comp; half_comp "recall"] =
    Ok [(OKey IsMetric counts_key, Num (Fin (qz 6))); (OKey IsMetric (plain "precision" ""), Num (Fin (qz 4)));
        (OKey IsMetric (plain "recall" ""), Num (Fin (qz 4)))] /\
  exists s, filter_and_separate_computations [counts_comp; half_comp "precision"; counts_comp; half_comp "recall"] = Ok s /\ length (kept s) = 3.
Proof. split; [vm_compute; reflexivity|]. split; [vm_compute; reflexivity|]. eexists. split; [reflexivity|reflexivity]. Qed.

(** Two feature samplers: both derived computations have no keys, hence the same id, and the
    second metric is never computed although it would be alone. *)
Theorem C36_feature_sampler_dropped_refuted :
  exists base fp fn ex, fp <> fn /\
    let sampler k := feature_sampler k ex (fun v => v) in
    (exists r, evaluate [base; sampler fn] = Ok r /\ mget r fn <> None) /\
    (exists r, evaluate [base; sampler fp; base; sampler fn] = Ok r /\ mget r fp <> None /\ mget r fn = None).
Proof. exact C36_feature_sampler_dropped_refuted_pf. Qed.

(* ------------------------------------------------------------------ *)
(** ** C37 the compound combiner *)
(** For every schedule the compound combiner succeeds exactly if every combiner does, alone, on
    the inputs meant for it with the same bundling; its result is the union of theirs. *)
Theorem C37_compound_is_union_of_parts :
  forall (A : Type) (cs : list (column A)) (s : sched (element A)) (r : metrics),
    outcome (computations_combine_fn cs) s = Ok r <->
    exists os, length os = length cs /\
      (forall i c, nth_error cs i = Some c -> exists o, nth_error os i = Some o /\ outcome (col_combiner c) (of_column i s) = Ok o) /\
      r = fold_left (dupdate okey_eqb) os [].
Proof. exact C37_compound_is_union_of_parts_pf. Qed.

(** Nothing but the computation's own inputs takes part in its share of the work. *)
Theorem C37_parts_see_their_inputs :
  forall (A : Type) i (s : sched (element A)),
    inputs (of_column i s) = flat_map (fun e => match nth_error (fst e) i with Some (Some l) => l | _ => snd e end) (inputs s).
Proof. exact C37_parts_see_their_inputs_pf. Qed.

(** A key that only one computation reports has the value that computation reports alone. *)
Theorem C37_value_as_alone :
  forall (A : Type) (cs : list (column A)) (s : sched (element A)) r i c k,
    outcome (computations_combine_fn cs) s = Ok r -> nth_error cs i = Some c ->
    (forall j d o, nth_error cs j = Some d -> j <> i -> outcome (col_combiner d) (of_column j s) = Ok o -> mlast o k = None) ->
    exists o, outcome (col_combiner c) (of_column i s) = Ok o /\ mget r k = mlast o k.
Proof. exact C37_value_as_alone_pf. Qed.

Example C37_example :
  outcome (computations_combine_fn [tally "all" (fun _ => true); tally "data" has_data])
    (Merge (Bundle [([None; Some [Dict []; Dict [("x", Leaf 1)]]], [Dict [("x", Leaf 1)]])])
           [Bundle [([None; None], [Dict [("x", Leaf 2)]]); ([None; Some []], [Dict []])]]) =
  Ok [(OKey IsMetric (plain "all" ""), Num (Fin (qz 3))); (OKey IsMetric (plain "data" ""), Num (Fin (qz 2)))].
Proof. vm_compute. reflexivity. Qed.

(* ------------------------------------------------------------------ *)
(** ** C79 what a computation is given *)
(** Provided nobody asks for everything with an empty filter: the inputs of a computation
    are one example (dictionary), and wherever the computation asked for data this is the data
    of the extracts, whatever the other computations ask for. *)
Theorem C79_inputs_asked_for_partial :
  forall (A : Type) (comps : list (list (preprocessor A))) (e : data A) (el : element A),
    unique_keys e ->
    (forall ps f, In ps comps -> asks ps f -> unique_filter f /\ fits f e /\ f <> Filt []) ->
    preprocess comps e = Ok el ->
    forall i ps f, nth_error comps i = Some ps -> asks ps f ->
      exists x, (match nth_error (fst el) i with Some (Some l) => l | _ => snd el end) = [x] /\
        forall p a, covered f p -> (leaf_at x p a <-> leaf_at e p a).
Proof. exact C79_inputs_asked_for_partial_pf. Qed.

(** A computation with preprocessors of its own gets exactly what they make of the extracts. *)
Theorem C79_own_preprocessors :
  forall (A : Type) (comps : list (list (preprocessor A))) (e : data A) (el : element A) i gs,
    preprocess comps e = Ok el -> gs <> [] -> nth_error comps i = Some (map Custom gs) ->
    exists l, nth_error (fst el) i = Some (Some l) /\ forall x, In x l <-> reaches gs e x.
Proof. exact C79_own_preprocessors_pf. Qed.

Example C79_example :
  preprocess [[]; [Standard (Filt [("features", Filt [("x", Filt [])])])]; [Custom (fun e => Ok [e; e])]] an_example =
  Ok ([None; None; Some [an_example; an_example]],
      [Dict [("labels", Leaf 1); ("predictions", Leaf 2); ("example_weights", Leaf 3); ("features", Dict [("x", Leaf 4)])]]).
Proof. vm_compute. reflexivity. Qed.

(** An empty filter ("everything") gives a computation two inputs, one of them empty, when it is
    alone; next to a computation that wants the labels it gets the labels only. *)
Theorem C79_empty_filter_refuted :
  exists (e : data nat) (all labels : list (preprocessor nat)),
    preprocess [all] e = Ok ([None], [Dict []; e]) /\
    preprocess [all; labels] e = Ok ([None; None], [Dict [("labels", Leaf 1)]]) /\
    e <> Dict [("labels", Leaf 1)].
Proof. exact C79_empty_filter_refuted_pf. Qed.

(* ------------------------------------------------------------------ *)
(** ** C80 metrics and plots of the same name *)
(** A metric and a plot of the same name (and model, output, ...) are both computed but only
    one is reported: it has the key of the metric and the value of the plot. *)
Theorem C80_plot_replaces_metric_refuted :
  exists (k : metric_key) (x y : val), x <> y /\
    forall (A : Type) (s : sched (element A)),
    exists r, outcome (computations_combine_fn [constant (OKey IsMetric k) x; constant (OKey IsPlot k) y]) s = Ok r /\
      filter_by_key_type IsMetric r = [(OKey IsMetric k, y)] /\ filter_by_key_type IsPlot r = [].
Proof. exact C80_plot_replaces_metric_refuted_pf. Qed.

(** Apart from such clashes metrics, plots and attributions are separated without loss. *)
Theorem C80_types_partition_results_partial :
  forall (m : metrics) k v,
    In (k, v) m <-> In (k, v) (filter_by_key_type IsMetric m) \/ In (k, v) (filter_by_key_type IsPlot m) \/ In (k, v) (filter_by_key_type IsAttributions m).
Proof. exact C80_types_partition_results_partial_pf. Qed.

(* ------------------------------------------------------------------ *)
(** ** C81, C82 cross slice comparisons *)
(** A cross slicing spec: every pair of a slice of the baseline spec and a slice of (one of) the
    other specs - of no baseline, if there are none - is compared exactly once. *)
Theorem C81_pairs_compared_once_partial :
  forall (S : Type) (applicable : S -> skey -> bool) compare base specs (sliced : list (skey * metrics)) out,
    NoDup (map fst sliced) ->
    cross_of applicable compare base specs sliced = Ok out ->
    NoDup (map fst out) /\
    forall b c m, In ((b, c), m) out <->
      exists mb mc, In (b, mb) sliced /\ In (c, mc) sliced /\ applicable base b = true /\
        (specs <> [] /\ (exists s, In s specs /\ applicable s c = true) \/ specs = [] /\ applicable base c = false) /\
        cross_slice_metrics compare mb mc = Ok m.
Proof. exact C81_pairs_compared_once_partial_pf. Qed.

Example C81_example :
  cross_of is_slice_applicable [] (Spec [] []) [Spec ["c"] []] sliced_example =
  Ok [(([], red), [(acc_key, Num (Fin (qz (-2))))]); (([], blue), [(acc_key, Num (Fin (qz 2)))])].
Proof. vm_compute. reflexivity. Qed.

(** Two cross slicing specs with a pair in common: the pair is reported twice. *)
Theorem C81_overlapping_specs_refuted :
  exists (cross_specs : list (spec * list spec)) (sliced : list (skey * metrics)) out,
    NoDup (map fst sliced) /\ NoDup cross_specs /\
    add_cross_slice_metrics is_slice_applicable [] cross_specs sliced = Ok out /\ ~ NoDup (map fst out).
Proof. exact C81_overlapping_specs_refuted_pf. Qed.

(** The cross slice value of a metric is the value of the baseline slice minus the value of the
    comparison slice, for the metrics (not plots, not private) both have; no other key. *)
Theorem C82_cross_slice_value :
  forall (mb mc r : metrics) (k : metric_key), unique mc ->
    cross_slice_metrics [] mb mc = Ok r ->
    (forall d, mget r k = Some d <->
       exists x y, mget mb k = Some (Num x) /\ In (OKey IsMetric k, Num y) mc /\
         ~ private_name (k_name k) /\ d = Num (num_sub x y)).
Proof. exact C82_cross_slice_value_pf. Qed.

(** Both slices have both metrics; the plot is not compared. *)
Example C82_example :
  cross_slice_metrics []
    [(acc_key, Num (Fin (qz 5))); (OKey IsMetric (plain "_private" ""), Num (Fin (qz 1))); (OKey IsPlot (plain "roc" ""), Other "p")]
    [(OKey IsPlot (plain "roc" ""), Other "q"); (acc_key, Num (Fin (qz 3))); (OKey IsMetric (plain "_private" ""), Num (Fin (qz 1)))] =
  Ok [(acc_key, Num (Fin (qz 2)))].
Proof. vm_compute. reflexivity. Qed.

(** One metric that is not a number (a confusion matrix, say) makes the whole evaluation fail. *)
Theorem C82_structured_metric_refuted :
  exists (sliced : list (skey * metrics)) (cross_specs : list (spec * list spec)),
    NoDup (map fst sliced) /\ (forall k m, In (k, m) sliced -> unique m) /\
    add_cross_slice_metrics is_slice_applicable [] [] sliced = Ok (map (fun km => (inl (fst km), snd km)) sliced) /\
    add_cross_slice_metrics is_slice_applicable [] cross_specs sliced = Err TypeError.
Proof. exact C82_structured_metric_refuted_pf. Qed.

(* ------------------------------------------------------------------ *)
(** ** C83 combining the results of several query keys *)
(** The results of the query keys for a slice are put together for every schedule: without loss
    if no metric occurs twice ... *)
Theorem C83_results_combined_partial :
  forall s, Forall unique (inputs s) -> unique (concat (inputs s)) -> outcome combine_dictionaries s = Ok (concat (inputs s)).
Proof. exact C83_results_combined_partial_pf. Qed.

(** ... but a metric computed for two query keys (say the number of examples) makes the
    evaluation fail: metric keys do not tell the query keys apart. *)
Theorem C83_same_metric_twice_refuted :
  exists (a b : metrics), unique a /\ unique b /\
    forall s, Permutation (inputs s) [a; b] -> outcome combine_dictionaries s = Err ValueError.
Proof. exact C83_same_metric_twice_refuted_pf. Qed.

Example C83_example :
  let d n v := [(OKey IsMetric (plain n ""), Num (Fin (qz v)))] in
  outcome combine_dictionaries (Merge (Bundle [d "ndcg" 1%Z]) [Then (Bundle []) [d "example_count" 4%Z]]) = Ok (d "ndcg" 1%Z ++ d "example_count" 4%Z) /\
  outcome combine_dictionaries (Merge (Bundle [d "example_count" 2%Z]) [Then (Bundle []) [d "example_count" 4%Z]]) = Err ValueError.
Proof. split; vm_compute; reflexivity. Qed.

(* ------------------------------------------------------------------ *)
(** ** C84, C85 queries *)
(** Grouping by query: whatever the bundling, every example is in exactly one group, and a group
    holds the examples of one query text. *)
Theorem C84_queries_partition_examples_partial :
  forall (X : Type) (query : X -> option string) (xs : list X) out,
    per_key String.eqb to_list_combiner (keyed_by_query query xs) out ->
    Permutation (concat (map snd out)) xs /\
    NoDup (map fst out) /\
    forall q g x, In (q, g) out -> In x g -> query x = Some q \/ query x = None /\ q = "".
Proof. exact C84_queries_partition_examples_partial_pf. Qed.

Example C84_example :
  per_key String.eqb to_list_combiner (keyed_by_query (fun x => Some (fst x)) [("q1", 1); ("q2", 2); ("q1", 3)]) [("q2", [("q2", 2)]); ("q1", [("q1", 3); ("q1", 1)])].
Proof.
  split; [repeat constructor; cbn; intuition discriminate|]. split; [intros k; cbn; intuition|].
  intros k o [[= <- <-]|[[= <- <-]|[]]].
  - exists (Bundle [("q2", 2)]). split; reflexivity.
  - exists (Merge (Bundle [("q1", 3)]) [Bundle [("q1", 1)]]). split; [|reflexivity]. cbn. apply perm_swap.
Qed.

(** Examples without the query feature are one query, together with those whose query is "". *)
Theorem C84_missing_queries_merged_refuted :
  exists (xs : list (nat * option string)),
    (exists x y z, In x xs /\ In y xs /\ In z xs /\ snd x = None /\ snd y = None /\ x <> y /\ snd z = Some "") /\
    forall out, per_key String.eqb to_list_combiner (keyed_by_query snd xs) out ->
      exists g, out = [("", g)] /\ Permutation g xs.
Proof. exact C84_missing_queries_merged_refuted_pf. Qed.

(** With a query key the size of a slice is its number of queries: three examples of one query do
    not make up a slice of two. *)
Theorem C85_slice_size_counts_queries_refuted :
  exists (xs : list (list skey)) (min_size : Z) (counts : list (skey * Z)),
    (* every example is in the slice, there are enough of them, and they have the same query *)
    (forall ks, In ks xs -> In red ks) /\ Z.le min_size (Z.of_nat (length xs)) /\
    per_key skey_eqb count_combiner (fanout (concat xs) tt) counts /\
    filter_out_slices skey_eqb (fun k => match k with [] => true | _ => false end) (-1)%Z min_size [([], 7%Z); (red, 8%Z)] counts
      = Ok [([], 7%Z); (red, (-1)%Z)].
Proof. exact C85_slice_size_counts_queries_refuted_pf. Qed.

Print Assumptions C34_diff_is_candidate_minus_baseline.
Print Assumptions C34_diffs_defined.
Print Assumptions C35_private_metrics_hidden.
Print Assumptions C35_public_values_kept.
Print Assumptions C36_computed_once.
Print Assumptions C36_values_as_alone_partial.
Print Assumptions C36_feature_sampler_dropped_refuted.
Print Assumptions C37_compound_is_union_of_parts.
Print Assumptions C37_parts_see_their_inputs.
Print Assumptions C37_value_as_alone.
Print Assumptions C79_inputs_asked_for_partial.
Print Assumptions C79_own_preprocessors.
Print Assumptions C79_empty_filter_refuted.
Print Assumptions C80_plot_replaces_metric_refuted.
Print Assumptions C80_types_partition_results_partial.
Print Assumptions C81_pairs_compared_once_partial.
Print Assumptions C81_overlapping_specs_refuted.
Print Assumptions C82_cross_slice_value.
Print Assumptions C82_structured_metric_refuted.
Print Assumptions C83_results_combined_partial.
Print Assumptions C83_same_metric_twice_refuted.
Print Assumptions C84_queries_partition_examples_partial.
Print Assumptions C84_missing_queries_merged_refuted.
Print Assumptions C85_slice_size_counts_queries_refuted.
