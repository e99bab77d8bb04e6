(* Whole *)
From Coq Require Import String Ascii Permutation.
From Verif Require Import Base BaseFacts Beam BeamFacts Slicer_Model Slicer_Spec Slicer_Proofs Pipeline_Model Pipeline_Proofs Util_Model Keys_Model Keys_Main Config_Model Keras_Main Classes_Main Evaluator_Model Evaluator_Main Whole_Model.
From Verif Require Validation_Model.
From Verif Require Import Whole_Main.
Local Open Scope string_scope.
Local Open Scope list_scope.

(* ------------------------------------------------------------------ *)
(** ** C264 metrics specs and query keys *)
(** The specs are put into groups, one for each query key that is used; a group has the specs of
    its query key in the order they are listed ... *)
Theorem C264_groups :
  forall (S : Type) (query : S -> string) empty specs, specs <> [] ->
    NoDup (map fst (spec_groups query empty specs)) /\
    (forall q, In q (map fst (spec_groups query empty specs)) <-> exists s, In s specs /\ query s = q) /\
    (forall q l, In (q, l) (spec_groups query empty specs) -> l = filter (fun s => String.eqb (query s) q) specs).
Proof. exact C264_groups_pf. Qed.

(** ... so that each spec is evaluated exactly once; without specs the empty one is. *)
Theorem C264_each_once :
  forall (S : Type) (query : S -> string) empty specs,
    Permutation (concat (map snd (spec_groups query empty specs))) (match specs with [] => [empty] | _ => specs end).
Proof. exact C264_each_once_pf. Qed.

Example C264_example :
  spec_groups (fun s => fst s) ("", 0) [("", 1); ("q", 2); ("", 3)] = [("", [("", 1); ("", 3)]); ("q", [("q", 2)])] /\
  spec_groups (fun s => fst s) ("", 0) [] = [("", [("", 0)])].
Proof. split; reflexivity. Qed.

(* ------------------------------------------------------------------ *)
(** ** C265 the metrics of the models *)
(** The metrics of a Keras model are computed if some spec has no query key or there are no specs,
    unless they are switched off ... *)
Theorem C265_included :
  forall (A S : Type) (to_computations : list S -> res (compiled A)) query empty specs option_value models m col,
    (forall l, exists c, to_computations l = Ok c) ->
    (specs = [] \/ exists s, In s specs /\ query s = "") -> option_value <> Some false ->
    In m models -> sm_include m = true -> sm_keras m = true -> In col (sm_columns m) ->
    exists g c, In g (spec_groups query empty specs) /\ group_computations to_computations option_value (Some models) g = Ok c /\ In col (cd_columns c).
Proof. exact C265_included_pf. Qed.

(** ... and not in any other case: with a query key, if switched off by the options or by the model,
    or for other models. *)
Theorem C265_not_included :
  forall (A S : Type) (to_computations : list S -> res (compiled A)) option_value models g c c0,
    group_computations to_computations option_value (Some models) g = Ok c -> to_computations (snd g) = Ok c0 ->
    (fst g <> "" \/ option_value = Some false \/ forall m, In m models -> sm_include m = false \/ sm_keras m = false) -> c = c0.
Proof. exact C265_not_included_pf. Qed.

(** With query keys only, the metrics of the models are not computed at all although the options ask for
    them. *)
Theorem C265_only_queries_refuted :
  exists (specs : list string) (to_computations : list string -> res (compiled nat)) (m : shared_model nat),
    specs <> [] /\ sm_include m = true /\ sm_keras m = true /\ sm_columns m <> [] /\
    forall g c, In g (spec_groups (fun q => q) "" specs) -> group_computations to_computations (Some true) (Some [m]) g = Ok c -> cd_columns c = [].
Proof. exact C265_only_queries_refuted_pf. Qed.

(** A metric that the model and a spec both compute has the value of the spec, whatever the
    schedule. *)
Theorem C265_spec_wins :
  forall (A : Type) models (cols : list (list (preprocessor A) * column A)) s r i c o k v,
    outcome (computations_combine_fn (map snd (default_columns models ++ cols))) s = Ok r ->
    nth_error (map snd cols) i = Some c ->
    outcome (col_combiner c) (of_column (length (default_columns models) + i) s) = Ok o -> mlast o k = Some v ->
    (forall j d p, nth_error (map snd cols) j = Some d -> i < j ->
       outcome (col_combiner d) (of_column (length (default_columns models) + j) s) = Ok p -> mlast p k = None) ->
    mget r k = Some v.
Proof. exact C265_spec_wins_pf. Qed.

Example C265_example :
  group_computations (fun _ : list string => Ok (Compiled [([], tally "auc" (fun _ => true))] [] [] [])) None (Some [SharedModel "" true true [model_tally]]) ("", [""]) =
    Ok (Compiled [model_tally; ([], tally "auc" (fun _ => true))] [] [] []) /\
  outcome (computations_combine_fn (map snd (default_columns (Some [SharedModel "" true true [model_tally]]) ++ [([], tally "loss" has_data)])))
    (Bundle [([None; None], [Dict [("x", Leaf 1)]]); ([None; None], [Dict []])]) = Ok [(OKey IsMetric (plain "loss" ""), Num (Fin (qz 1)))].
Proof. split; vm_compute; reflexivity. Qed.

(* ------------------------------------------------------------------ *)
(** ** C266 the results of an evaluation *)
(** An evaluation without query keys and cross slices: a slice is reported just if it has extracts,
    once, and with the metrics of exactly its extracts followed by the derived, diff and other
    derived metrics without the private ones, or with the error entry if it is too small.  This
    holds for every schedule of combiners that do not depend on the order of their inputs. *)
Theorem C266_slices :
  forall (A Spec : Type) (applicable : Spec -> skey -> bool) (c : compiled A) baseline min_size xs out metric,
    (forall s, outcome (computations_combine_fn (map snd (cd_columns c))) s = metric (inputs s)) ->
    (forall l l', Permutation l l' -> metric l = metric l') ->
    (forall ks d, In (ks, d) xs -> no_clash ks) ->
    computes applicable c [] baseline min_size xs (Ok out) ->
    NoDup (map fst out) /\
    (forall k, In k (map fst out) <-> exists s ks d, k = inl s /\ In (ks, d) xs /\ In s ks) /\
    (forall s r, In (inl s, r) out ->
       exists es, mapM (preprocess (map fst (cd_columns c))) (of_slice s xs) = Ok es /\ reported c metric baseline min_size s es r).
Proof. exact C266_slices_pf. Qed.

(** The evaluation fails only if that of an extract or of a slice does. *)
Theorem C266_succeeds :
  forall (A Spec : Type) (applicable : Spec -> skey -> bool) (c : compiled A) baseline min_size xs out metric,
    (forall s, outcome (computations_combine_fn (map snd (cd_columns c))) s = metric (inputs s)) ->
    (forall l l', Permutation l l' -> metric l = metric l') ->
    (forall ks d, In (ks, d) xs -> no_clash ks /\ exists e, preprocess (map fst (cd_columns c)) d = Ok e) ->
    (forall s es, of_slice s xs <> [] -> mapM (preprocess (map fst (cd_columns c))) (of_slice s xs) = Ok es ->
       exists m m', metric es = Ok m /\ finish_slice (cd_derived c) (cd_ci c) baseline m = Ok m') ->
    computes applicable c [] baseline min_size xs out -> exists l, out = Ok l.
Proof. exact C266_succeeds_pf. Qed.

Example C266_example :
  computes (fun (_ : unit) _ => true) doubling [] "" 2%Z three
    (Ok [(inl [], [(Key (OKey IsMetric (plain "double" "")), Num (Fin (qz 6)))]);
         (inl red_slice, [(Key (OKey IsMetric (plain "double" "")), Num (Fin (qz 4)))]);
         (inl blue_slice, too_small)]).
Proof.
  unfold computes. vm_compute keyed.
  exists [([], Ok [(OKey IsMetric (plain "_count" ""), Num (Fin (qz 3)))]); (red_slice, Ok [(OKey IsMetric (plain "_count" ""), Num (Fin (qz 2)))]); (blue_slice, Ok [(OKey IsMetric (plain "_count" ""), Num (Fin (qz 1)))])],
         [([], 3%Z); (red_slice, 2%Z); (blue_slice, 1%Z)].
  set (E := ([None], [Dict [("labels", Leaf 1); ("predictions", Leaf 0); ("example_weights", Leaf 1)]]) : element nat).
  split; [|split; [|vm_compute; reflexivity]].
  - split; [repeat constructor; cbn; intuition discriminate|]. split; [intros k; cbn; intuition|].
    intros k o [[= <- <-]|[[= <- <-]|[[= <- <-]|[]]]].
    + exists (Merge (Bundle [E]) [Then (Bundle [E]) [E]]). split; [reflexivity|]. rewrite (counted_outcome "_count"). reflexivity.
    + exists (Bundle [E; E]). split; [reflexivity|]. rewrite (counted_outcome "_count"). reflexivity.
    + exists (Bundle [E]). split; [reflexivity|]. rewrite (counted_outcome "_count"). reflexivity.
  - split; [repeat constructor; cbn; intuition discriminate|]. split; [intros k; cbn; intuition|].
    intros k o [[= <- <-]|[[= <- <-]|[[= <- <-]|[]]]].
    + exists (Bundle [E; E; E]). split; reflexivity.
    + exists (Bundle [E; E]). split; reflexivity.
    + exists (Bundle [E]). split; reflexivity.
Qed.

(* ------------------------------------------------------------------ *)
(** ** C267 the results of several query keys *)
(** With several groups the results of a slice are put together: no entry is lost or made up if no
    two groups use the same key; otherwise the run ends with ValueError. *)
Theorem C267_union :
  forall c ls out, length ls <> 1 -> put_together c ls out ->
    NoDup (map fst out) /\
    (forall k, In k (map fst out) <-> exists r, In (k, r) (concat ls)) /\
    (forall k o, In (k, o) out -> Forall runique (parts c k ls) ->
       (runique (concat (parts c k ls)) -> exists r, o = Ok r /\ Permutation r (concat (parts c k ls))) /\
       (~ runique (concat (parts c k ls)) -> o = Err ValueError)).
Proof. exact C267_union_pf. Qed.

(** With one group nothing is lost either: the three outputs have the same slices, and each
    entry of a slice is in just one of them. *)
Theorem C267_one_group :
  forall l ms ps ats, put_together IsMetric [l] ms -> put_together IsPlot [l] ps -> put_together IsAttributions [l] ats ->
    map fst ms = map fst l /\ map fst ps = map fst l /\ map fst ats = map fst l /\
    forall i k r, nth_error l i = Some (k, r) -> exists m p a, nth_error ms i = Some (k, Ok m) /\ nth_error ps i = Some (k, Ok p) /\ nth_error ats i = Some (k, Ok a) /\ Permutation (m ++ p ++ a) r.
Proof. exact C267_one_group_pf. Qed.

(** A slice that is too small in two groups ends the run: both have the entry "__ERROR__". *)
Theorem C267_small_twice :
  forall l1 a l2 b l3 s out, In (s, too_small) a -> In (s, too_small) b ->
    (forall p, In p (parts IsMetric s (l1 ++ a :: l2 ++ b :: l3)) -> runique p) ->
    put_together IsMetric (l1 ++ a :: l2 ++ b :: l3) out -> In (s, Err ValueError) out.
Proof. exact C267_small_twice_pf. Qed.

(** With metrics of queries beside others, a minimum slice size that hides a slice ends the run
    though no metric is computed twice: whatever way it is run, the slice ends in ValueError. *)
Theorem C267_hidden_slice_refuted :
  exists specs xs min_size s,
    (exists out, evaluates (fun (_ : unit) _ => true) counting (fun s => s) "" first_of None None [] "" min_size specs xs IsMetric out /\ exists r, In (inl [], Ok r) out /\ length r = 2) /\
    forall out, evaluates (fun (_ : unit) _ => true) counting (fun s => s) "" first_of None None [] "" min_size specs xs IsMetric out -> In (inl s, Err ValueError) out.
Proof. exact C267_hidden_slice_refuted_pf. Qed.

(** The overall slice has the metrics of both groups. *)
Example C267_example :
  evaluates (fun (_ : unit) _ => true) counting (fun s => s) "" first_of None None [] "" 2%Z [""; "q"] one_red IsMetric
    [(inl [], Ok [(Key (OKey IsMetric (plain "examples" "")), Num (Fin (qz 1))); (Key (OKey IsMetric (plain "queries" "")), Num (Fin (qz 1)))]);
     (inl red_slice, Err ValueError)].
Proof. exact two_groups_evaluate. Qed.

(* ------------------------------------------------------------------ *)
(** ** C268 differences of differences *)
(** Of a cross slice, the difference to the baseline model is the difference of the two slices'
    differences to it. *)
Theorem C268_difference_of_differences :
  forall baseline (mb mc r d db dc : metrics) n mo o s a w x1 x2 y1 y2,
    baseline <> "" -> mo <> baseline -> ~ private_name n -> unique mb -> unique mc ->
    mget mb (MetricKey n mo o s a w false) = Some (Num (Fin x1)) -> mget mb (MetricKey n baseline o s a w false) = Some (Num (Fin x2)) ->
    In (OKey IsMetric (MetricKey n mo o s a w false), Num (Fin y1)) mc -> In (OKey IsMetric (MetricKey n baseline o s a w false), Num (Fin y2)) mc ->
    cross_slice_metrics [] mb mc = Ok r -> add_diff_metrics baseline r = Ok d ->
    add_diff_metrics baseline mb = Ok db -> add_diff_metrics baseline mc = Ok dc ->
    exists p q, mget db (MetricKey n mo o s a w true) = Some (Num (Fin p)) /\ mget dc (MetricKey n mo o s a w true) = Some (Num (Fin q)) /\
      mget d (MetricKey n mo o s a w true) = Some (Num (Fin (p - q)%Qc)).
Proof. exact C268_difference_of_differences_pf. Qed.

(** The cross slice values are computed before the differences to the baseline model, so a cross
    slice has differences though the values compared are those of the slices. *)
Example C268_example :
  let k m := OKey IsMetric (plain "auc" m) in let mb := [(k "c", Num (Fin (qz 9))); (k "b", Num (Fin (qz 5)))] in let mc := [(k "c", Num (Fin (qz 4))); (k "b", Num (Fin (qz 3)))] in
  exists r d, cross_slice_metrics [] mb mc = Ok r /\ add_diff_metrics "b" r = Ok d /\
    mget d (make_diff_key (plain "auc" "c")) = Some (Num (Fin (qz 3))).
Proof. eexists. eexists. split; [reflexivity|]. split; [reflexivity|]. vm_compute. reflexivity. Qed.

(* ------------------------------------------------------------------ *)
(** ** C269 queries and slices *)
(** With a query key there is one extract for each query text, made of all its examples; it is in
    the slices of any of them. *)
Theorem C269_queries :
  forall (A : Type) (merge : list (data A) -> res (data A)) query_key xs ys, query_key <> "" ->
    extracts_of merge query_key xs (Ok ys) ->
    exists queries, NoDup queries /\
      (forall q, In q queries <-> exists x, In x xs /\ text_of (q_query x query_key) = q) /\
      Forall2 (fun q y => exists g, Permutation g (filter (fun x => String.eqb q (text_of (q_query x query_key))) xs) /\
                 merge (map q_data g) = Ok (snd y) /\
                 forall s, In s (fst y) <-> exists x, In x xs /\ text_of (q_query x query_key) = q /\ In s (q_slices x)) queries ys.
Proof. exact C269_queries_pf. Qed.

(** So the slices of the queries are those of the examples. *)
Theorem C269_slices :
  forall (A : Type) (merge : list (data A) -> res (data A)) query_key xs ys s,
    extracts_of merge query_key xs (Ok ys) -> ((exists y, In y ys /\ In s (fst y)) <-> exists x, In x xs /\ In s (q_slices x)).
Proof. exact C269_slices_pf. Qed.

(** But a slice's extract has the data of examples outside the slice: those of the same query. *)
Theorem C269_only_the_slice_refuted :
  exists (xs : list (qexample (list nat))) ys s, extracts_of join_labels "q" xs (Ok ys) /\
    flat_map labels_in (of_slice s ys) <> flat_map labels_in (map q_data (filter (fun x => memb skey_eqb s (q_slices x)) xs)) /\
    length (flat_map labels_in (of_slice s ys)) = 2 /\ length (filter (fun x => memb skey_eqb s (q_slices x)) xs) = 1.
Proof. exact C269_only_the_slice_refuted_pf. Qed.

Example C269_example :
  let x s q l := QExample [s] (fun _ => q) (Dict [("labels", Leaf [l])]) in
  extracts_of join_labels "q" [x red_slice (Some "a") 1; x blue_slice (Some "b") 2; x blue_slice (Some "a") 3]
    (Ok [([red_slice; blue_slice], Dict [("labels", Leaf [1; 3])]); ([blue_slice], Dict [("labels", Leaf [2])])]).
Proof.
  cbv zeta. set (x := QExample [red_slice] (fun _ => Some "a") (Dict [("labels", Leaf [1])])). set (y := QExample [blue_slice] (fun _ => Some "b") (Dict [("labels", Leaf [2])])). set (z := QExample [blue_slice] (fun _ => Some "a") (Dict [("labels", Leaf [3])])).
  exists [("a", [x; z]); ("b", [y])]. split; [|reflexivity]. split; [repeat constructor; cbn; intuition discriminate|]. split; [intros k; cbn; tauto|].
  intros k v [[= <- <-]|[[= <- <-]|[]]]; [exists (Bundle [x; z])|exists (Bundle [y])]; split; reflexivity.
Qed.

(* ------------------------------------------------------------------ *)
(** ** C270 the way of confidence intervals *)
(** With a config given its defaults, requested intervals are computed: from 20 bootstrap samples
    if that is asked for, else from 20 jackknife samples; none are computed that are not requested. *)
Theorem C270_requested :
  forall c maybe_add maybe_remove has_baseline stamp c', update_eval_config_with_defaults c maybe_add maybe_remove has_baseline stamp = Ok c' ->
    ci_way (ci_samples (e_compute_ci c') (e_ci_method c')) =
    (if e_compute_ci c then match e_ci_method c with PoissonBootstrap => BootstrapWay 20 | _ => JackknifeWay 20 end else PlainWay).
Proof. exact C270_requested_pf. Qed.

(** Without its defaults, intervals are requested and none are computed. *)
Theorem C270_unset_method_refuted :
  exists compute m, compute = true /\ ci_way (ci_samples compute m) = PlainWay.
Proof. exact C270_unset_method_refuted_pf. Qed.

Example C270_example :
  exists c', update_eval_config_with_defaults (EvalConfig [] [] true UnknownMethod "") None None None false = Ok c' /\
    ci_way (ci_samples (e_compute_ci c') (e_ci_method c')) = JackknifeWay 20.
Proof. eexists. split; reflexivity. Qed.

(* ------------------------------------------------------------------ *)
(** ** C271 validating a hidden slice *)
(** A slice hidden for being small has none of its metrics, so it fails validation as soon as there
    is a threshold - for whatever slices, not cross slices - of a model that is not the baseline. *)
Theorem C271_hidden_fails :
  forall baseline (ths : Validation_Model.thresholds) s k sts sc t, In (k, sts) ths -> In (sc, t) sts ->
    (forall b, baseline = Some b -> k_model k <> b) -> (forall b l, sc <> Some (Validation_Model.CrossScope b l)) ->
    exists v, validate_slice baseline ths (inl s, too_small) = Ok v /\ Validation_Model.v_ok v = false.
Proof. exact C271_hidden_fails_pf. Qed.

(** So a threshold for the overall slice alone, which it passes, fails with a small slice beside it. *)
Theorem C271_overall_threshold_refuted :
  exists (ths : Validation_Model.thresholds) k r s v w,
    (forall j sts, In (j, sts) ths -> j = k /\ forall sc t, In (sc, t) sts -> sc = Some (Validation_Model.SingleScope Validation_Model.overall)) /\
    validate_slice None ths (inl [], r) = Ok v /\ Validation_Model.v_ok v = true /\
    validate_slice None ths (inl s, r) = Ok w /\ Validation_Model.v_ok w = true /\
    exists u, validate_slice None ths (inl s, too_small) = Ok u /\ Validation_Model.v_ok u = false.
Proof. exact C271_overall_threshold_refuted_pf. Qed.

Example C271_example :
  exists v, validate_slice (Some "base") [(plain "auc" "new", [(None, Validation_Model.ValueThreshold (Some (Fin (qz 1))) None)])] (inl red_slice, too_small) = Ok v /\
    Validation_Model.v_ok v = false.
Proof. eexists. split; reflexivity. Qed.

Print Assumptions C264_groups.
Print Assumptions C264_each_once.
Print Assumptions C265_included.
Print Assumptions C265_not_included.
Print Assumptions C265_only_queries_refuted.
Print Assumptions C265_spec_wins.
Print Assumptions C266_slices.
Print Assumptions C266_succeeds.
Print Assumptions C267_union.
Print Assumptions C267_one_group.
Print Assumptions C267_small_twice.
Print Assumptions C267_hidden_slice_refuted.
Print Assumptions C268_difference_of_differences.
Print Assumptions C269_queries.
Print Assumptions C269_slices.
Print Assumptions C269_only_the_slice_refuted.
Print Assumptions C270_requested.
Print Assumptions C270_unset_method_refuted.
Print Assumptions C271_hidden_fails.
Print Assumptions C271_overall_threshold_refuted.
