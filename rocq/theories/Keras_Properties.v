(* Keras *)
From Coq Require Import String Ascii.
From Verif Require Import Base BaseFacts Beam BeamFacts Util_Model Util_Main Keys_Model Keys_Main Inputs_Model Inputs_Main Sums_Model Sums_Main Histogram_Model Histogram_Main Evaluator_Model Evaluator_Main Classes_Main Keras_Model.
From Verif Require Import Keras_Main.
Local Open Scope string_scope.
Local Open Scope list_scope.

(* ------------------------------------------------------------------ *)
(** ** C169 batches *)
(** C169: whatever the batches (of any size, flushed at any time, merged in any order,
    compacted anywhere), a metric whose weights are sums is computed from the sum over
    all tuples of all examples. *)
Theorem C169_batches :
  forall ap outputs li pi desired too_big opts in_config lk pk model fits width part s,
    outputs <> [] ->
    (forall o, In o outputs -> one_shape (fits (fst o))) ->
    (forall o m, In o outputs -> In m (snd o) -> sums_up (fits (fst o)) m (width m) (part m)) ->
    Forall (readable ap outputs opts in_config lk pk model fits) (inputs s) ->
    NoDup (map fst (expected ap outputs opts in_config lk pk model width part (inputs s))) ->
    outcome (keras_combiner ap outputs None li pi desired too_big opts in_config lk pk model) s =
    Ok (expected ap outputs opts in_config lk pk model width part (inputs s)).
Proof. exact C169_batches_pf. Qed.

Example C169_batches_example :
  let es := [ex_example [1%Qc] [0%Qc] 1%Qc; ex_example [1%Qc] [qz 3] (qz 2); ex_example [0%Qc] [0%Qc] 1%Qc] in
  outcome (ex_keras None None [mse] (ex_opts None true) false) (Bundle es) = Ok [(ex_key "mse" None None true, Fin (Q2Qc (9#4)))] /\
  outcome (ex_keras None (Some 1%Z) [mse] (ex_opts None true) false) (Merge (Bundle (firstn 1 es)) [Bundle []; Bundle (skipn 1 es)]) =
    Ok [(ex_key "mse" None None true, Fin (Q2Qc (9#4)))] /\
  outcome (ex_keras None None [mse] (ex_opts None true) false) (Bundle []) = Ok [(ex_key "mse" None None true, Fin 0%Qc)].
Proof. split; [|split]; vm_compute; qc_ex. Qed.

Theorem C169_compaction :
  forall ap outputs li pi desired too_big opts in_config lk pk model fits width part (s : sched (option inputs_dict)),
    let c := keras_combiner ap outputs None li pi desired too_big opts in_config lk pk model in
    let l := flat_map (fun x => match x with Some e => [e] | None => [] end) (inputs s) in
    outputs <> [] ->
    (forall o, In o outputs -> one_shape (fits (fst o))) ->
    (forall o m, In o outputs -> In m (snd o) -> sums_up (fits (fst o)) m (width m) (part m)) ->
    Forall (readable ap outputs opts in_config lk pk model fits) l ->
    NoDup (map fst (expected ap outputs opts in_config lk pk model width part l)) ->
    outcome (Combiner (c_create c) (fun a x => match x with Some e => c_add c a e | None => keras_compact outputs None li pi a end) (c_merge c) (c_extract c)) s =
    Ok (expected ap outputs opts in_config lk pk model width part l).
Proof. exact C169_compaction_pf. Qed.

Example C169_compaction_example :
  let c := ex_keras None None [mse] (ex_opts None true) false in
  outcome (Combiner (c_create c) (fun a x => match x with Some e => c_add c a e | None => keras_compact [("", [mse])] None false false a end) (c_merge c) (c_extract c))
    (Then (Bundle [Some (ex_example [1%Qc] [0%Qc] 1%Qc); None; Some (ex_example [1%Qc] [qz 3] (qz 2))]) [None; Some (ex_example [0%Qc] [0%Qc] 1%Qc)]) =
  Ok [(ex_key "mse" None None true, Fin (Q2Qc (9#4)))].
Proof. vm_compute; qc_ex. Qed.

Theorem C169_unreadable_refused :
  forall ap outputs padding li pi desired too_big opts in_config lk pk model s e o,
    In e (inputs s) -> In o outputs -> is_ok (keras_tuples ap opts in_config lk pk model (fst o) e) = false ->
    is_ok (outcome (keras_combiner ap outputs padding li pi desired too_big opts in_config lk pk model) s) = false.
Proof. exact C169_unreadable_refused_pf. Qed.

Example C169_unreadable_refused_example :
  outcome (ex_keras None None [mse] (ex_opts None true) false) (Bundle [ex_example [1%Qc] [0%Qc] 1%Qc; InputsDict (Some (Leaf [1%Qc])) None None]) = Err ValueError.
Proof. vm_compute. reflexivity. Qed.

(* ------------------------------------------------------------------ *)
(** ** C170 padding *)
Theorem C170_padding_refuted :
  exists m part es s1 s2,
    (forall l, l <> [] -> km_update m l = Ok (total 2 part l)) /\ inputs s1 = es /\ inputs s2 = es /\
    is_ok (outcome (ex_keras (Some zeros) None [m] (ex_opts None true) false) s1) = true /\
    is_ok (outcome (ex_keras (Some zeros) None [m] (ex_opts None true) false) s2) = true /\
    outcome (ex_keras (Some zeros) None [m] (ex_opts None true) false) s1 <> outcome (ex_keras (Some zeros) None [m] (ex_opts None true) false) s2.
Proof. exact C170_padding_refuted_pf. Qed.

Example C170_padding_refuted_example :
  let es := [ex_example [1%Qc] [0%Qc] 1%Qc; ex_example [0%Qc; 0%Qc] [0%Qc; 0%Qc] 1%Qc] in
  outcome (ex_keras (Some zeros) None [mse] (ex_opts None true) false) (Bundle es) = Ok [(ex_key "mse" None None true, Fin (Q2Qc (1#4)))] /\
  outcome (ex_keras (Some zeros) (Some 1%Z) [mse] (ex_opts None true) false) (Bundle es) = Ok [(ex_key "mse" None None true, Fin (Q2Qc (1#2)))].
Proof. split; vm_compute; qc_ex. Qed.

(** C170: padding that has nothing to do changes nothing; missing: examples of
    different widths. *)
Theorem C170_equal_widths_partial :
  forall ap outputs p li pi desired too_big opts in_config lk pk model fits width part s n,
    outputs <> [] ->
    (exists v u, padding_for li (label_padding p) v /\ padding_for pi (prediction_padding p) u) ->
    (forall o, In o outputs -> one_shape (fits (fst o))) ->
    (forall o y, In o outputs -> fits (fst o) y -> length (fst (fst y)) = n /\ length (snd (fst y)) = n) ->
    (forall o m, In o outputs -> In m (snd o) -> sums_up (fits (fst o)) m (width m) (part m)) ->
    Forall (readable ap outputs opts in_config lk pk model fits) (inputs s) ->
    NoDup (map fst (expected ap outputs opts in_config lk pk model width part (inputs s))) ->
    outcome (keras_combiner ap outputs (Some p) li pi desired too_big opts in_config lk pk model) s =
    outcome (keras_combiner ap outputs None li pi desired too_big opts in_config lk pk model) s.
Proof. exact C170_equal_widths_partial_pf. Qed.

Example C170_equal_widths_partial_example :
  let es := [ex_example [1%Qc; 0%Qc] [0%Qc; 0%Qc] 1%Qc; ex_example [0%Qc; 0%Qc] [0%Qc; 0%Qc] 1%Qc] in
  outcome (ex_keras (Some zeros) (Some 1%Z) [mse] (ex_opts None true) false) (Bundle es) = outcome (ex_keras None None [mse] (ex_opts None true) false) (Bundle es).
Proof. vm_compute; qc_ex. Qed.

(** C170: the arrays of a batch are filled up at the end with the configured value, 0 if
    there is none, to the given width. *)
Theorem C170_filled :
  forall p li pi n l v u,
    padding_for li (label_padding p) v -> padding_for pi (prediction_padding p) u ->
    (forall y, In y l -> (length (fst (fst y)) <= n)%nat /\ (length (snd (fst y)) <= n)%nat /\ length (snd y) = 1%nat) ->
    exists l', get_inputs (Some p) li pi n l = Ok l' /\
      Forall2 (fun y z => length (fst (fst z)) = n /\ length (snd (fst z)) = n /\ snd z = snd y /\
        forall i, (i < n)%nat ->
          nth i (fst (fst z)) 0%Qc = (if Nat.ltb i (length (fst (fst y))) then nth i (fst (fst y)) 0%Qc else v) /\
          nth i (snd (fst z)) NaN = (if Nat.ltb i (length (snd (fst y))) then nth i (snd (fst y)) NaN else Fin u)) l l'.
Proof. exact C170_filled_pf. Qed.

Example C170_filled_example :
  get_inputs (Some (PaddingOptions (Some (IntPadding (-1))) (Some (FloatPadding (Q2Qc (1#2)))))) true false 2
    [([1%Qc], [Fin 0%Qc; Fin 1%Qc], [1%Qc]); ([], [Fin 1%Qc], [1%Qc])] =
  Ok [([1%Qc; qz (-1)], [Fin 0%Qc; Fin 1%Qc], [1%Qc]); ([qz (-1); qz (-1)], [Fin 1%Qc; Fin (Q2Qc (1#2))], [1%Qc])].
Proof. vm_compute; qc_ex. Qed.

(** C170: a whole number for floating point data, or the other way round, is refused as
    soon as there is an example. *)
Theorem C170_wrong_kind_refused :
  forall ap outputs p li pi desired too_big opts in_config lk pk model s,
    outputs <> [] -> inputs s <> [] ->
    (exists z, (li = false /\ label_padding p = Some (IntPadding z)) \/ (pi = false /\ prediction_padding p = Some (IntPadding z))) \/
    (exists q, (li = true /\ label_padding p = Some (FloatPadding q)) \/ (pi = true /\ prediction_padding p = Some (FloatPadding q))) ->
    is_ok (outcome (keras_combiner ap outputs (Some p) li pi desired too_big opts in_config lk pk model) s) = false.
Proof. exact C170_wrong_kind_refused_pf. Qed.

Example C170_wrong_kind_refused_example :
  outcome (ex_keras (Some (PaddingOptions (Some (IntPadding 0)) None)) None [mse] (ex_opts None true) false) (Bundle [ex_example [1%Qc] [0%Qc] 1%Qc]) = Err ValueError.
Proof. vm_compute. reflexivity. Qed.

(* ------------------------------------------------------------------ *)
(** ** C171 keys of the results *)
(** C171: without an aggregation, what a batch computation reports for metrics of one
    value is kept under just the keys it declares; missing: aggregations, and metrics
    that report several values. *)
Theorem C171_declared_keys_partial :
  forall metrics model sk weighted groups s keys outs build ap padding li pi desired too_big in_config cw lk pk sch d,
    keys_and_configs metrics model sk None weighted = Ok groups -> In (s, (keys, outs)) groups ->
    (forall m, km_name (build m) = tm_name m) -> (forall m w, exists x, km_result (build m) w = OneValue x) ->
    outcome (keras_combiner ap (batch_outputs build outs) padding li pi desired too_big (batch_options s None cw weighted) in_config lk pk model) sch = Ok d ->
    forall k, In k (map fst d) <-> In k keys.
Proof. exact C171_declared_keys_partial_pf. Qed.

Example C171_declared_keys_partial_example :
  exists keys outs, keys_and_configs [("b", [tf_simple "MeanSquaredError" "mse" false; tf_simple "Huber" "h" true]); ("a", [tf_simple "MeanSquaredError" "mse" false])] "m" None None true =
    Ok [(None, (keys, outs))] /\ length keys = 3%nat /\
    map fst (batch_outputs ex_build outs) = ["a"; "b"] /\
    outcome (keras_combiner ap_sort (batch_outputs ex_build outs) None false false None (fun _ => false) (batch_options None None [] true) false "" "" "m") (Bundle []) =
    Ok (map (fun k => (k, Fin 0%Qc)) [MetricKey "mse" "m" "a" None None (Some true) false; MetricKey "mse" "m" "b" None None (Some true) false; MetricKey "h" "m" "b" None None (Some true) false]).
Proof. eexists. eexists. split; [reflexivity|]. split; [reflexivity|]. split; [reflexivity|]. vm_compute; qc_ex. Qed.

Theorem C171_aggregated_refuted :
  exists metrics groups s keys outs build sch d k,
    keys_and_configs metrics "" None (Some micro) false = Ok groups /\ In (s, (keys, outs)) groups /\
    (forall m, km_name (build m) = tm_name m) /\ (forall m w, exists x, km_result (build m) w = OneValue x) /\
    outcome (keras_combiner ap_sort (batch_outputs build outs) None false false None (fun _ => false) (batch_options s (Some micro) [] false) false "" "" "") sch = Ok d /\
    In k (map fst d) /\ ~ In k keys /\ k = ex_key "mse" None None false.
Proof. exact C171_aggregated_refuted_pf. Qed.

Example C171_aggregated_refuted_example :
  let es := [ex_example [1%Qc; 0%Qc] [0%Qc; qz 2] 1%Qc] in
  let c agg := keras_combiner ap_sort [("", [mse])] None false false None (fun _ => false) (batch_options None agg [(0%nat, 1%Qc); (1%nat, qz 3)] true) false "" "" "" in
  outcome (keras_combiner ap_sort [("", [mse])] None false false None (fun _ => false) (batch_options None None [] true) false "" "" "") (Bundle es) =
    Ok [(ex_key "mse" None None true, Fin (Q2Qc (5#2)))] /\
  outcome (c (Some micro)) (Bundle es) = Ok [(ex_key "mse" None None true, Fin (Q2Qc (13#4)))].
Proof. split; vm_compute; qc_ex. Qed.

(* ------------------------------------------------------------------ *)
(** ** C172 losses *)
(** C172: when all weights are the same, a loss is the mean of the losses of all
    tuples, for every schedule; missing: different weights. *)
Theorem C172_loss_equal_weights_partial :
  forall ap li pi desired too_big opts in_config lk pk model name loss o w a b s,
    w <> 0%Qc -> inputs s <> [] ->
    (forall e, In e (inputs s) -> exists ys, keras_tuples ap opts in_config lk pk model o e = Ok ys /\
       forall y, In y ys -> length (fst (fst y)) = a /\ length (snd (fst y)) = b /\ snd y = [w]) ->
    let l := tuples ap opts in_config lk pk model o (inputs s) in
    outcome (keras_combiner ap [(o, [loss_metric name loss])] None li pi desired too_big opts in_config lk pk model) s =
    Ok [(MetricKey name model o (o_sub_key opts) None (Some (o_example_weighted opts)) false, Fin (qsum (map loss l) / qn (length l)))%Qc].
Proof. exact C172_loss_equal_weights_partial_pf. Qed.

Example C172_loss_equal_weights_partial_example :
  let es := [ex_example [1%Qc] [0%Qc] (qz 2); ex_example [1%Qc] [qz 3] (qz 2)] in
  outcome (ex_keras None None [loss_metric "loss" ex_loss] (ex_opts None true) false) (Bundle es) = Ok [(ex_key "loss" None None true, Fin (Q2Qc (5#2)))] /\
  outcome (ex_keras None (Some 1%Z) [loss_metric "loss" ex_loss] (ex_opts None true) false) (Bundle es) = Ok [(ex_key "loss" None None true, Fin (Q2Qc (5#2)))].
Proof. split; vm_compute; qc_ex. Qed.

(** C172 is false: weights within a batch have no effect on which losses count, so the
    value is not the weighted mean and changes with the batches. *)
Theorem C172_loss_weights_refuted :
  exists loss es s1 s2 x1 x2,
    inputs s1 = es /\ inputs s2 = es /\
    outcome (ex_keras None None [loss_metric "loss" loss] (ex_opts None true) false) s1 = Ok [(ex_key "loss" None None true, Fin x1)] /\
    outcome (ex_keras None None [loss_metric "loss" loss] (ex_opts None true) false) s2 = Ok [(ex_key "loss" None None true, Fin x2)] /\
    x1 <> x2 /\
    let ys := tuples ap_sort (ex_opts None true) false "" "" "" "" es in
    x1 <> (qsum (map (fun y => loss y * qsum (snd y)) ys) / qsum (map (fun y => qsum (snd y)) ys))%Qc.
Proof. exact C172_loss_weights_refuted_pf. Qed.

Example C172_loss_weights_refuted_example :
  let es := [ex_example [0%Qc] [0%Qc] 1%Qc; ex_example [1%Qc] [0%Qc] (qz 3)] in
  outcome (ex_keras None None [loss_metric "loss" ex_loss] (ex_opts None true) false) (Bundle es) = Ok [(ex_key "loss" None None true, Fin (Q2Qc (1#2)))] /\
  outcome (ex_keras None (Some 1%Z) [loss_metric "loss" ex_loss] (ex_opts None true) false) (Bundle es) = Ok [(ex_key "loss" None None true, Fin (Q2Qc (3#4)))].
Proof. split; vm_compute; qc_ex. Qed.

(* ------------------------------------------------------------------ *)
(** ** C174 every metric once *)
(** C174: every metric asked for (by output, name and sub key) is computed, once. *)
Theorem C174_every_metric_once :
  forall metrics model sk agg cw weighted comps,
    tf_metric_computations metrics model sk agg cw weighted = Ok comps -> NoDup (map fst metrics) ->
    NoDup (all_keys comps) /\
    forall k, In k (all_keys comps) <->
      exists o l m s, In (o, l) metrics /\ In m l /\ verify_and_update_sub_key sk m = Ok s /\ k = MetricKey (tm_name m) model o s agg (Some weighted) false.
Proof. exact C174_every_metric_once_pf. Qed.

Example C174_every_metric_once_example :
  exists a b c, tf_metric_computations
    [("", [tf_sub "Precision" "precision" None None; tf_simple "MeanSquaredError" "mse" false; tf_sub "Recall" "recall" None (Some 2%nat); tf_simple "Huber" "mse" true])]
    "" None None [] true = Ok [a; b; c] /\
  all_keys [a; b; c] = [ex_key "precision" None None true; ex_key "mse" None None true; ex_key "recall" (Some (SubKey None None (Some 2%nat))) None true] /\
  b = InBatches [ex_key "mse" None None true] None [("", ([], [tf_simple "Huber" "mse" true]))] false.
Proof. eexists. eexists. eexists. split; [vm_compute; reflexivity|]. split; reflexivity. Qed.

(** C174: of metrics with the same name and sub key the last one counts; the nine kinds
    read off confusion matrices (unless they have a top_k of their own) are separated
    from the rest; losses are kept apart. *)
Theorem C174_last_wins_and_separated :
  forall metrics model sk agg cw weighted comps,
    tf_metric_computations metrics model sk agg cw weighted = Ok comps ->
    (forall m k ths n w, In (FromMatrices m k ths n w) comps ->
       exists l, In (k_output k, l) metrics /\ last_of sk l m /\ k_name k = tm_name m /\
         In (tm_class m) ["AUC"; "SpecificityAtSensitivity"; "SensitivityAtSpecificity"; "TruePositives"; "FalsePositives"; "TrueNegatives"; "FalseNegatives"; "Precision"; "Recall"] /\
         tm_top_k m = None) /\
    (forall keys s outs b o ms ls, In (InBatches keys s outs b) comps -> In (o, (ms, ls)) outs ->
       (forall m, In m (ms ++ ls) -> exists l, In (o, l) metrics /\ last_of sk l m /\ verify_and_update_sub_key sk m = Ok s /\
          ~ (In (tm_class m) ["AUC"; "SpecificityAtSensitivity"; "SensitivityAtSpecificity"; "TruePositives"; "FalsePositives"; "TrueNegatives"; "FalseNegatives"; "Precision"; "Recall"] /\ tm_top_k m = None)) /\
       (forall m, In m ms -> tm_is_loss m = false) /\ (forall m, In m ls -> tm_is_loss m = true)).
Proof. exact C174_last_wins_and_separated_pf. Qed.

Example C174_last_wins_and_separated_example :
  exists a b, tf_metric_computations
    [("", [tf_sub "Precision" "p" None None; tf_sub "Recall" "p" None None; tf_sub "Precision" "p" (Some 1%Z) None])] "" None None [] true = Ok [a; b] /\
  (exists k t n w, a = FromMatrices (tf_sub "Recall" "p" None None) k t n w) /\
  (exists k t n w, b = FromMatrices (tf_sub "Precision" "p" (Some 1%Z) None) k t n w).
Proof. eexists. eexists. split; [vm_compute; reflexivity|]. split; repeat eexists. Qed.

(* ------------------------------------------------------------------ *)
(** ** C175 refusals *)
Theorem C175_conflicts_and_sparse_refused :
  forall metrics model sk agg cw weighted,
    (exists o l m, In (o, l) metrics /\ In m l /\ (conflict sk m \/ (agg <> None /\ exists n, tm_class m = ("Sparse" ++ n)%string))) ->
    tf_metric_computations metrics model sk agg cw weighted = Err ValueError.
Proof. exact C175_conflicts_and_sparse_refused_pf. Qed.

Example C175_conflicts_and_sparse_refused_example :
  tf_metric_computations [("", [tf_sub "Precision" "p" (Some 1%Z) None])] "" (Some (SubKey (Some 2%Z) None None)) None [] true = Err ValueError /\
  tf_metric_computations [("", [tf_simple "SparseCategoricalAccuracy" "a" false])] "" None (Some micro) [] true = Err ValueError.
Proof. split; vm_compute; reflexivity. Qed.

Theorem C175_auc_refused :
  forall metrics model sk agg cw weighted o l m,
    In (o, l) metrics -> last_of sk l m -> tm_class m = "AUC" -> tm_top_k m = None ->
    tm_multi_label m = true \/ (tm_label_weights m <> [] /\ cw <> []) ->
    is_ok (tf_metric_computations metrics model sk agg cw weighted) = false.
Proof. exact C175_auc_refused_pf. Qed.

Example C175_auc_refused_example :
  tf_metric_computations [("", [tf_auc "auc" [] true])] "" None None [] true = Err NotImplementedError /\
  tf_metric_computations [("", [tf_auc "auc" [1%Qc] false])] "" None (Some micro) [(0%nat, 1%Qc)] true = Err ValueError.
Proof. split; vm_compute; reflexivity. Qed.

(** C175: nothing else is refused. *)
Theorem C175_accepted :
  forall metrics model sk agg cw weighted,
    (forall o l m, In (o, l) metrics -> In m l ->
       ~ conflict sk m /\ (agg = None \/ forall n, tm_class m <> ("Sparse" ++ n)%string) /\ auc_fine cw m) ->
    exists comps, tf_metric_computations metrics model sk agg cw weighted = Ok comps.
Proof. exact C175_accepted_pf. Qed.

Example C175_accepted_example :
  is_ok (tf_metric_computations [("", [tf_auc "auc" [1%Qc] false; tf_sub "Precision" "p" (Some 1%Z) None])] "" (Some (SubKey (Some 1%Z) None None)) (Some micro) [] true) = true.
Proof. vm_compute. reflexivity. Qed.

(* ------------------------------------------------------------------ *)
(** ** C173 top k of the metric and of the options *)
(** C173: when a batch computation with a top k leaves the predictions as they are, each
    of its metrics takes the same top k itself, and there is none that does not; missing:
    losses. *)
Theorem C173_metrics_partial :
  forall metrics model sk agg cw weighted comps keys s outs b o ms ls,
    tf_metric_computations metrics model sk agg cw weighted = Ok comps ->
    In (InBatches keys s outs b) comps -> In (o, (ms, ls)) outs ->
    (b = true -> exists k, s = Some (SubKey None None (Some k)) \/ (exists t, s = Some t /\ s = sk /\ sk_top_k t = Some k)) /\
    (b = true -> forall m, In m ms -> exists k, tm_top_k m = Some k /\ s = Some (SubKey None None (Some k))) /\
    (b = false -> (exists t k, s = Some t /\ sk_top_k t = Some k) -> exists o' ms' ls' m, In (o', (ms', ls')) outs /\ In m ms' /\ tm_top_k m = None).
Proof. exact C173_metrics_partial_pf. Qed.

Example C173_metrics_partial_example :
  exists keys outs, tf_metric_computations [("", [tf_sub "Recall" "recall" None (Some 2%nat)])] "" (Some (SubKey None None (Some 2%nat))) None [] true =
    Ok [InBatches keys (Some (SubKey None None (Some 2%nat))) outs true].
Proof. eexists. eexists. vm_compute. reflexivity. Qed.

(** C173: with the sub key left to the metrics they are given the predictions as they
    are, and labels of the same length or the one-hot row of the label's class; a
    computation with no sub key gives labels and predictions as they are. *)
Theorem C173_tuples :
  forall ap opts in_config lk pk model output e ls ps w,
    o_flatten opts = false -> o_class_weights opts = None ->
    carries (o_example_weighted opts) model output e (Reading ls ps [w]) ->
    (in_config = true -> length ls = length ps ->
       keras_tuples ap opts in_config lk pk model output e = Ok [(ls, ps, [w])]) /\
    (in_config = true -> forall c, ls = [qz (Z.of_nat c)] -> (c < length ps)%nat -> length ps <> 1%nat ->
       keras_tuples ap opts in_config lk pk model output e = Ok [(indicator (length ps) c, ps, [w])]) /\
    (in_config = false -> o_sub_key opts = None -> keras_tuples ap opts in_config lk pk model output e = Ok [(ls, ps, [w])]).
Proof. exact C173_tuples_pf. Qed.

Example C173_tuples_example :
  keras_tuples ap_sort (ex_opts (Some (SubKey None None (Some 1%nat))) true) true "" "" "" ""
    (ex_example [1%Qc] [0%Qc; qz 2] 1%Qc) = Ok [([0%Qc; 1%Qc], [Fin 0%Qc; Fin (qz 2)], [1%Qc])].
Proof. vm_compute; qc_ex. Qed.

(** C173 is false of losses: a loss alone sees all predictions although only the top k
    were asked for; next to a metric it sees the top k. *)
Theorem C173_loss_top_k_refuted :
  exists loss metric s e keys outs keys' outs',
    tm_is_loss loss = true /\
    tf_metric_computations [("", [loss])] "" (Some s) None [] false = Ok [InBatches keys (Some s) outs true] /\
    tf_metric_computations [("", [loss; metric])] "" (Some s) None [] false = Ok [InBatches keys' (Some s) outs' false] /\
    sk_top_k s = Some 1%nat /\
    keras_tuples ap_sort (batch_options (Some s) None [] false) true "" "" "" "" e = Ok [([0%Qc; 1%Qc], [Fin (Q2Qc (3#10)); Fin (Q2Qc (7#10))], [1%Qc])] /\
    keras_tuples ap_sort (batch_options (Some s) None [] false) false "" "" "" "" e = Ok [([0%Qc; 1%Qc], [NegInf; Fin (Q2Qc (7#10))], [1%Qc])].
Proof. exact C173_loss_top_k_refuted_pf. Qed.

Example C173_loss_top_k_refuted_example :
  exists keys outs, tf_metric_computations [("", [tf_simple "MeanSquaredError" "mse" false])] "" (Some (SubKey None None (Some 1%nat))) None [] false =
    Ok [InBatches keys (Some (SubKey None None (Some 1%nat))) outs false].
Proof. eexists. eexists. vm_compute. reflexivity. Qed.

(** C173 is false of metrics with both a class and a top k of their own: they are given
    the prediction of that class alone, and then look for the class in it. *)
Theorem C173_class_and_top_k_refuted :
  exists m e keys s outs ys,
    tm_class m = "Precision" /\ tm_class_id m = Some 1%Z /\ tm_top_k m = Some 2%nat /\
    tf_metric_computations [("", [m])] "" None None [] false = Ok [InBatches keys s outs false] /\
    i_prediction e = Some (Leaf [Fin 0%Qc; Fin 1%Qc; Fin 1%Qc]) /\
    keras_tuples ap_sort (batch_options s None [] false) false "" "" "" "" e = Ok ys /\
    forall y, In y ys -> length (snd (fst y)) = 1%nat.
Proof. exact C173_class_and_top_k_refuted_pf. Qed.

Example C173_class_and_top_k_refuted_example :
  keras_tuples ap_sort (batch_options (Some (SubKey (Some 1%Z) None None)) None [] false) false "" "" "" ""
    (InputsDict (Some (Leaf [0%Qc; 1%Qc; 0%Qc])) (Some (Leaf [Fin 0%Qc; Fin 1%Qc; Fin 1%Qc])) None) = Ok [([1%Qc], [Fin 1%Qc], [1%Qc])].
Proof. vm_compute. reflexivity. Qed.

(* ------------------------------------------------------------------ *)
(** ** C176 thresholds of the metrics read off matrices *)
(** C176: with the top k taken from the options and no thresholds configured, the one
    threshold lies below every score kept; otherwise the metric's own thresholds are
    used, and its number of thresholds only when it has none. *)
Theorem C176_thresholds :
  forall metrics model sk agg cw weighted comps m k ths n w,
    tf_metric_computations metrics model sk agg cw weighted = Ok comps ->
    In (FromMatrices m k ths n w) comps ->
    ((exists t j, sk = Some t /\ sk_top_k t = Some j) -> tm_class_id m = None -> tm_configured_thresholds m = false ->
       exists t, ths = Some [t] /\ n = None /\ forall q, num_ltb t (Fin q) = true) /\
    (((forall t, sk = Some t -> sk_top_k t = None) \/ tm_configured_thresholds m = true \/ tm_class_id m <> None) ->
       ths = tm_thresholds m /\ n = (if tm_thresholds m then None else tm_num_thresholds m)) /\
    (w = cw \/ (tm_class m = "AUC" /\ cw = [] /\ w = combine (seq 0 (length (tm_label_weights m))) (tm_label_weights m))).
Proof. exact C176_thresholds_pf. Qed.

Example C176_thresholds_example :
  exists k k' k'', tf_metric_computations [("", [tf_sub "Precision" "p" None None])] "" (Some (SubKey None None (Some 2%nat))) None [] true =
    Ok [FromMatrices (tf_sub "Precision" "p" None None) k (Some [NegInf]) None []] /\
  tf_metric_computations [("", [tf_sub "Precision" "p" None None; tf_auc "auc" [1%Qc; qz 2] false])] "" None None [] true =
    Ok [FromMatrices (tf_sub "Precision" "p" None None) k' (Some [Fin (Q2Qc (1#2))]) None [];
        FromMatrices (tf_auc "auc" [1%Qc; qz 2] false) k'' (Some [Fin 0%Qc]) None [(0%nat, 1%Qc); (1%nat, qz 2)]].
Proof. eexists. eexists. eexists. split; vm_compute; reflexivity. Qed.

Print Assumptions C169_batches.
Print Assumptions C169_compaction.
Print Assumptions C169_unreadable_refused.
Print Assumptions C170_padding_refuted.
Print Assumptions C170_equal_widths_partial.
Print Assumptions C170_filled.
Print Assumptions C170_wrong_kind_refused.
Print Assumptions C171_declared_keys_partial.
Print Assumptions C171_aggregated_refuted.
Print Assumptions C172_loss_equal_weights_partial.
Print Assumptions C172_loss_weights_refuted.
Print Assumptions C174_every_metric_once.
Print Assumptions C174_last_wins_and_separated.
Print Assumptions C175_conflicts_and_sparse_refused.
Print Assumptions C175_auc_refused.
Print Assumptions C175_accepted.
Print Assumptions C173_metrics_partial.
Print Assumptions C173_tuples.
Print Assumptions C173_loss_top_k_refuted.
Print Assumptions C173_class_and_top_k_refuted.
Print Assumptions C176_thresholds.
