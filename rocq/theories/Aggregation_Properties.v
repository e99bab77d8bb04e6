(* Aggregation *)
From Coq Require Import String Ascii.
From Verif Require Import Base BaseFacts Beam BeamFacts Slicer_Model Util_Model Inputs_Model Inputs_Main Sums_Model Sums_Main Means_Model Keys_Model Keys_Main Evaluator_Model Evaluator_Main Validation_Model Aggregation_Model.
From Verif Require Import Aggregation_Main.
Local Open Scope string_scope.
Local Open Scope list_scope.

(* ------------------------------------------------------------------ *)
(** ** Averages *)
(** The macro average of a metric is the weighted mean of its values for the classes (or for the
    k-th predictions), with the configured weights. *)
Theorem C48_macro_average_is_weighted_mean :
  forall name model output sks sk w cw m (wt v : sub_key -> Qc),
    NoDup (map fst m) -> NoDup (map fst cw) ->
    (forall s, In s sks -> reports m name model output w s (v s)) ->
    (forall s, In s sks -> configured_weight cw s (wt s)) ->
    macro_average name model output sks sk w (Some cw) m
    = Ok [(macro_entry name model output w sk, ANum (weighted_mean wt v sks))].
Proof. exact C48_macro_average_is_weighted_mean_pf. Qed.

(** A weighted mean with non-negative weights lies between the smallest and the largest value. *)
Theorem C48_macro_average_in_range :
  forall name model output sks sk w cw m (wt v : sub_key -> Qc) lo hi,
    NoDup (map fst m) -> NoDup (map fst cw) ->
    (forall s, In s sks -> reports m name model output w s (v s)) ->
    (forall s, In s sks -> configured_weight cw s (wt s)) ->
    (forall s, In s sks -> (0 <= wt s)%Qc /\ (lo <= v s)%Qc /\ (v s <= hi)%Qc) ->
    (exists s, In s sks /\ (0 < wt s)%Qc) ->
    exists a, macro_average name model output sks sk w (Some cw) m = Ok [(macro_entry name model output w sk, ANum (Fin a))]
      /\ (lo <= a)%Qc /\ (a <= hi)%Qc.
Proof. exact C48_macro_average_in_range_pf. Qed.

(** The weighted macro average is the mean weighted by share of the labels times configured
    weight. *)
Theorem C48_weighted_macro_average_is_weighted_mean :
  forall name model output sks sk w cw m shares (wt v : sub_key -> Qc),
    NoDup (map fst m) -> NoDup (map fst cw) -> NoDup (map fst shares) ->
    In ({| k_name := "_class_weights_from_labels"; k_model := model; k_output := output; k_sub := None; k_agg := None;
           k_weighted := Some w; k_diff := false |}, AWeights shares) m ->
    (forall s, In s sks -> reports m name model output w s (v s)) ->
    (forall s, In s sks -> share_weight shares cw s (wt s)) ->
    weighted_macro_average name model output sks sk w (Some cw) m
    = Ok [(macro_entry name model output w sk, ANum (weighted_mean wt v sks))].
Proof. exact C48_weighted_macro_average_is_weighted_mean_pf. Qed.

(** Values that are not numbers (curves, matrices, texts) have no averages. *)
Theorem C48_other_values_are_refused :
  forall name model output sks sk w m s v cw outputs o x,
    NoDup (map fst m) -> (forall y, v <> ANum y) ->
    (In s sks -> In (class_entry name model output w s, v) m ->
       (forall r, macro_average name model output sks sk w cw m <> Ok r) /\
       (forall r, weighted_macro_average name model output sks sk w cw m <> Ok r)) /\
    (In (o, x) outputs ->
       In ({| k_name := name; k_model := model; k_output := o; k_sub := sk; k_agg := None; k_weighted := Some w; k_diff := false |}, v) m ->
       forall r, output_average name model outputs sk w m <> Ok r).
Proof. exact C48_other_values_are_refused_pf. Qed.

Example C48_other_values_example :
  let k c := class_entry "auc" "" "" false (SubKey (Some c) None None) in
  macro_average "auc" "" "" [SubKey (Some 0%Z) None None; SubKey (Some 1%Z) None None] None false (Some []) [(k 0%Z, ANum (Fin 1%Qc)); (k 1%Z, AOther)] = Err ValueError.
Proof. vm_compute. reflexivity. Qed.

(* ------------------------------------------------------------------ *)
(** ** Class weights from labels *)
(** The weights of the classes are their weighted shares of the labels, whatever the schedule;
    a label vector without an entry for one of the classes raises ValueError, whatever the
    schedule. *)
Theorem C48_class_weights_are_label_shares :
  forall ap ids lk pk model output weighted s lw,
    NoDup ids -> (forall c, In c ids -> (0 <= c)%Z) ->
    Forall2 (labelled model output weighted) (inputs s) lw ->
    outcome (label_weights_combiner ap ids lk pk model output weighted) s
    = if forallb (fun p => covers ids (fst p)) lw then Ok (map (fun c => (c, share ids lw c)) ids) else Err ValueError.
Proof. exact C48_class_weights_are_label_shares_pf. Qed.

(** Non-negative labels and weights give non-negative class weights that sum to 1, or are all 0. *)
Theorem C48_class_weights_sum_to_1 :
  forall ap ids lk pk model output weighted s lw r,
    NoDup ids -> (forall c, In c ids -> (0 <= c)%Z) ->
    Forall2 (labelled model output weighted) (inputs s) lw ->
    (forall p, In p lw -> (0 <= snd p)%Qc /\ forall l, In l (fst p) -> (0 <= l)%Qc) ->
    outcome (label_weights_combiner ap ids lk pk model output weighted) s = Ok r ->
    map fst r = ids /\ (forall c x, In (c, x) r -> (0 <= x)%Qc /\ (x <= 1)%Qc) /\
    (qsum (map snd r) = 1%Qc \/ forall c x, In (c, x) r -> x = 0%Qc).
Proof. exact C48_class_weights_sum_to_1_pf. Qed.

(** Class ids as labels and the corresponding one-hot vectors give the same class weights. *)
Theorem C101_label_encoding_does_not_matter :
  forall ap ids lk pk model output weighted n s1 s2 lw1 lw2,
    NoDup ids -> (forall c, In c ids -> (0 <= c)%Z /\ (c < Z.of_nat n)%Z) -> 2 <= n ->
    Forall2 (labelled model output weighted) (inputs s1) lw1 ->
    Forall2 (labelled model output weighted) (inputs s2) lw2 ->
    Forall2 (same_class n) lw1 lw2 ->
    outcome (label_weights_combiner ap ids lk pk model output weighted) s1
    = outcome (label_weights_combiner ap ids lk pk model output weighted) s2
    /\ is_ok (outcome (label_weights_combiner ap ids lk pk model output weighted) s1) = true.
Proof. exact C101_label_encoding_does_not_matter_pf. Qed.

(* ------------------------------------------------------------------ *)
(** ** From specs to keys *)
(** Whatever the metrics specs, every average finds the values it averages, and every key of
    the configured metrics (and thus every key a threshold can be set on) is reported with a
    number.  Not for keys of weighted macro averages, and not if output weights are combined
    with an aggregation: see C104 and C105. *)
Theorem C103_configured_metrics_are_reported_partial :
  forall default specs cs value,
    to_computations default specs = Ok cs ->
    (forall s n, In s specs -> In n (ms_metrics s) -> public n) ->
    (forall s, In s specs -> no_clash s) ->
    sensible value ->
    exists m, evaluate value cs = Ok m /\
      forall s ks k, In s specs -> keys_from_spec default s = Ok ks -> In k ks ->
        k_agg k <> Some (AggType None None (Some true)) -> exists x, In (k, ANum x) m.
Proof. exact C103_configured_metrics_are_reported_partial_pf. Qed.

(* ------------------------------------------------------------------ *)
(** ** Examples *)
(** Weights 1 and 3: 1/4; class 2 is not asked for. *)
Example macro_average_ex :
  macro_average "auc" "" "" [class_sub 0; class_sub 1] None false (Some [(0%Z, 1%Qc); (1%Z, qz 3)]) auc_metrics
  = Ok [(MetricKey "auc" "" "" None (Some (AggType None (Some true) None)) (Some false) false, ANum (Fin (Q2Qc (1 # 4))))].
Proof. qc_ex. Qed.

(** A class the table leaves out counts nothing; without any weight there is no average. *)
Example macro_average_zero_ex :
  macro_average "auc" "" "" [class_sub 0; class_sub 1] None false (Some [(0%Z, 1%Qc)]) auc_metrics
    = Ok [(MetricKey "auc" "" "" None (Some (AggType None (Some true) None)) (Some false) false, ANum (Fin 1%Qc))] /\
  macro_average "auc" "" "" [class_sub 0; class_sub 1] None false (Some [(5%Z, 1%Qc)]) auc_metrics
    = Ok [(MetricKey "auc" "" "" None (Some (AggType None (Some true) None)) (Some false) false, ANum NaN)].
Proof. split; qc_ex. Qed.

Example weighted_macro_average_ex :
  weighted_macro_average "auc" "" "" [class_sub 0; class_sub 1] None false (Some [(0%Z, 1%Qc); (1%Z, 1%Qc)])
    (auc_metrics ++ [(MetricKey "_class_weights_from_labels" "" "" None None (Some false) false,
                      AWeights [(0%Z, Q2Qc (2 # 3)); (1%Z, Q2Qc (1 # 3))])])
  = Ok [(MetricKey "auc" "" "" None (Some (AggType None (Some true) None)) (Some false) false, ANum (Fin (Q2Qc (2 # 3))))].
Proof. qc_ex. Qed.

(** Labels 0, 1, 0: two thirds and one third; the same with one-hot labels. *)
Example label_shares_ex :
  label_run [0; 1]%Z [class_example [qz 0]; class_example [qz 1]; class_example [qz 0]] = Ok [(0%Z, Q2Qc (2 # 3)); (1%Z, Q2Qc (1 # 3))] /\
  label_run [0; 1]%Z [class_example [1%Qc; 0%Qc]; class_example [0%Qc; 1%Qc]; class_example [1%Qc; 0%Qc]] = Ok [(0%Z, Q2Qc (2 # 3)); (1%Z, Q2Qc (1 # 3))] /\
  label_run [0; 2]%Z [class_example [1%Qc; 0%Qc]] = Err ValueError.
Proof. split; [|split]; qc_ex. Qed.

Example labelled_ex : labelled "" "" false (class_example [qz 1]) ([qz 1], 1%Qc).
Proof.
  exists [Fin 1%Qc], [1%Qc]. split; [|split; [discriminate|intros w [<-|[]]; reflexivity]].
  split; [reflexivity|]. split; [eexists; eexists; repeat split; reflexivity|reflexivity].
Qed.

(** Examples without a label should not count; they raise. *)
Theorem C102_unlabelled_examples_are_ignored_refuted :
  exists ids e1 e2, i_label e2 = None /\
    label_run ids [e1] = Ok [(0%Z, 0%Qc); (1%Z, 1%Qc)] /\ label_run ids [e1; e2] = Err ValueError.
Proof. exact C102_unlabelled_examples_are_ignored_refuted_pf. Qed.

(** Over the top k predictions a weighted macro average is the plain macro average: the labels
    play no part. *)
Theorem C107_weighted_average_over_top_k_is_plain :
  forall n m o s k w l shares d,
    sk_top_k s = Some k -> macro_average_sub_keys (Some s) None = Ok l ->
    aget d (label_weights_key m o w) = Ok (AWeights shares) ->
    weighted_macro_average n m o l (Some s) w (Some []) d = macro_average n m o l (Some s) w (Some []) d.
Proof. exact C107_weighted_average_over_top_k_is_plain_pf. Qed.

(** Precision at the first and second prediction, 1 and 0, whatever the shares. *)
Example weighted_top_k_ex :
  macro_average_sub_keys (Some (SubKey None None (Some 2))) None = Ok [kth_sub 1; kth_sub 2] /\
  weighted_macro_average "precision" "" "" [kth_sub 1; kth_sub 2] (Some (SubKey None None (Some 2))) false (Some [])
    [num_entry "_precision" (kth_sub 1) 1%Qc; num_entry "_precision" (kth_sub 2) 0%Qc;
     (MetricKey "_class_weights_from_labels" "" "" None None (Some false) false, AWeights [])]
  = Ok [(MetricKey "precision" "" "" (Some (SubKey None None (Some 2))) (Some (AggType None (Some true) None)) (Some false) false, ANum (Fin (Q2Qc (1 # 2))))].
Proof. split; [reflexivity|qc_ex]. Qed.

Example macro_spec_ex :
  slice_result [0; 0; 1]%Z [class_spec "auc" Macro [0; 1]%Z]
  = Ok [num_entry "_auc" (class_sub 0) 1%Qc; num_entry "_auc" (class_sub 1) (Q2Qc (1 # 2));
        (auc_key (AggType None (Some true) None), ANum (Fin (Q2Qc (3 # 4))))].
Proof. qc_ex. Qed.

(** Binarized classes are shared with the macro average. *)
Example shared_spec_ex :
  let s := MetricsSpec ["auc"] [] [] [] (Some (Binarize [0]%Z [] []))
             (Some (Aggregate (Some (Macro, true)) [(0%Z, 1%Qc); (1%Z, 1%Qc)] None)) None in
  slice_result [] [s]
  = Ok [num_entry "auc" (class_sub 0) 1%Qc; num_entry "_auc" (class_sub 1) (Q2Qc (1 # 2));
        (auc_key (AggType None (Some true) None), ANum (Fin (Q2Qc (3 # 4))))] /\
  keys_from_spec false s = Ok [fst (num_entry "auc" (class_sub 0) 0%Qc); auc_key (AggType None (Some true) None)].
Proof. split; [qc_ex|reflexivity]. Qed.

(** Outputs a and b with weights 1 and 3 *)
Example output_weights_ex :
  match to_computations false [MetricsSpec ["auc"] [] ["a"; "b"] [("a", 1%Qc); ("b", qz 3)] None None None] with
  | Ok cs => evaluate (fun c => match cp_keys c with
                                | [k] => ANum (Fin (if String.eqb (k_output k) "a" then 1%Qc else 0%Qc))
                                | _ => AOther
                                end) cs
  | Err e => Err e
  end
  = Ok [(MetricKey "auc" "" "a" None None (Some false) false, ANum (Fin 1%Qc));
        (MetricKey "auc" "" "b" None None (Some false) false, ANum (Fin 0%Qc));
        (MetricKey "auc" "" "" None None (Some false) false, ANum (Fin (Q2Qc (1 # 4))))].
Proof. qc_ex. Qed.

(** Both averages of a metric should be reported, under two keys; only one of them is. *)
Theorem C49_both_averages_are_reported_refuted :
  exists labels specs m,
    specs = [class_spec "auc" Macro [0; 1]%Z; class_spec "auc" WeightedMacro [0; 1]%Z] /\
    slice_result labels specs = Ok m /\
    ~ exists k1 k2 x1 x2, k1 <> k2 /\ k_name k1 = "auc" /\ k_name k2 = "auc" /\ k_sub k1 = None /\ k_sub k2 = None /\
        In (k1, ANum x1) m /\ In (k2, ANum x2) m.
Proof. exact C49_both_averages_are_reported_refuted_pf. Qed.

(** The general claim fails for weighted macro averages: whatever the values, the key that the spec
    configures is in no result. *)
Theorem C103_configured_metrics_are_reported_refuted :
  exists s cs ks k,
    to_computations false [s] = Ok cs /\ (forall n, In n (ms_metrics s) -> public n) /\ no_clash s /\
    keys_from_spec false s = Ok ks /\ In k ks /\
    forall value, sensible value -> exists m, evaluate value cs = Ok m /\ forall v, ~ In (k, v) m.
Proof. exact C103_configured_metrics_are_reported_refuted_pf. Qed.

(** A threshold on a weighted macro average should be compared with that average.  It never is:
    the key it is attached to is in no result, and the verdict is always a failure, "metric not
    found", whatever the values and the bounds. *)
Theorem C104_weighted_average_thresholds_are_checked_refuted :
  exists s cs k,
    ms_aggregate s = Some (Aggregate (Some (WeightedMacro, true)) [(0%Z, 1%Qc); (1%Z, 1%Qc)] None) /\
    to_computations false [s] = Ok cs /\ keys_from_spec false s = Ok [k] /\
    forall value lo hi sl, sensible value ->
      exists m r, evaluate value cs = Ok m /\
        validate_metrics None (inl sl) (seen_by_validation m)
          (metric_thresholds [(k, None, MetricThreshold (Some (lo, hi)) None)]) = Ok r /\
        v_ok r = false /\ v_failures r = [(inl sl, [Failure k None (ValueThreshold lo hi) MetricNotFound])].
Proof. exact C104_weighted_average_thresholds_are_checked_refuted_pf. Qed.

(** Output weights together with an aggregation should give the average over outputs of the
    aggregated metric; every evaluation raises KeyError instead. *)
Theorem C105_output_average_of_aggregates_refuted :
  exists s cs,
    ms_outputs s = ["a"; "b"] /\ ms_output_weights s = [("a", 1%Qc); ("b", 1%Qc)] /\
    ms_aggregate s = Some (Aggregate (Some (Micro, true)) [] None) /\
    to_computations false [s] = Ok cs /\ forall value, evaluate value cs = Err KeyError.
Proof. exact C105_output_average_of_aggregates_refuted_pf. Qed.

(** The result of a metrics spec should not depend on the other specs.  A weighted macro average
    over other classes takes away its class weights: the weights of both are computed under one
    key, for the classes of the first only. *)
Theorem C106_specs_are_independent_refuted :
  exists labels s1 s2 k m2 m12,
    ms_metrics s1 = ["auc"] /\ ms_metrics s2 = ["precision"] /\ k_name k = "precision" /\
    slice_result labels [s2] = Ok m2 /\ In (k, ANum (Fin (Q2Qc (7 # 24)))) m2 /\
    slice_result labels [s1; s2] = Ok m12 /\ In (k, ANum NaN) m12.
Proof. exact C106_specs_are_independent_refuted_pf. Qed.

(* ------------------------------------------------------------------ *)
(** ** Output averages *)
(** The average over the outputs is reported for the model without an output, as the mean of the
    values of the outputs with the output weights. *)
Theorem C136_output_average_is_weighted_mean :
  forall name model weights sk w m (v : string -> Qc),
    NoDup (map fst m) ->
    (forall o x, In (o, x) weights ->
       In ({| k_name := name; k_model := model; k_output := o; k_sub := sk; k_agg := None; k_weighted := Some w; k_diff := false |},
           ANum (Fin (v o))) m) ->
    output_average name model weights sk w m =
    Ok [({| k_name := name; k_model := model; k_output := ""; k_sub := sk; k_agg := None; k_weighted := Some w; k_diff := false |},
         ANum (weighted_mean snd (fun ow => v (fst ow)) weights))].
Proof. exact C136_output_average_is_weighted_mean_pf. Qed.

Example C136_example :
  output_average "auc" "" [("a", 1%Qc); ("b", qz 3)] None true
    [(MetricKey "auc" "" "a" None None (Some true) false, ANum (Fin 1%Qc)); (MetricKey "auc" "" "b" None None (Some true) false, ANum (Fin 0%Qc))]
  = Ok [(MetricKey "auc" "" "" None None (Some true) false, ANum (Fin (Q2Qc (1 # 4))))] /\
  output_average "auc" "" [("a", 0%Qc)] None false [(MetricKey "auc" "" "a" None None (Some false) false, ANum (Fin 1%Qc))]
  = Ok [(MetricKey "auc" "" "" None None (Some false) false, ANum NaN)].
Proof. split; qc_ex. Qed.

(* ------------------------------------------------------------------ *)
(** ** What specs ask for *)
(** A spec reports weighted metrics exactly if they are asked for, and unweighted ones exactly if
    they are asked for; a spec that says nothing has the default. *)
Theorem C103_weighted_as_asked :
  forall default s ks k, keys_from_spec default s = Ok ks -> In k ks ->
    match ms_example_weights s with
    | None => k_weighted k = Some default
    | Some (weighted, unweighted) => k_weighted k = Some true /\ weighted = true \/ k_weighted k = Some false /\ unweighted = true
    end.
Proof. exact C103_weighted_as_asked_pf. Qed.

Theorem C103_all_weights_asked_for :
  forall default s ks k, keys_from_spec default s = Ok ks -> In k ks ->
    forall w : bool, match ms_example_weights s with None => w = default | Some (a, b) => (if w then a else b) = true end ->
      In (MetricKey (k_name k) (k_model k) (k_output k) (k_sub k) (k_agg k) (Some w) (k_diff k)) ks.
Proof. exact C103_all_weights_asked_for_pf. Qed.

Theorem C137_bad_aggregations_are_refused :
  forall default s a, ms_aggregate s = Some a -> ms_metrics s <> [] -> ms_binarize s = None ->
    (aggregation_type a <> None /\ a_top_k a <> None /\ a_class_weights a <> []) \/
    (averages a /\ a_class_weights a = [] /\ (a_top_k a = None \/ a_top_k a = Some [])) ->
    to_computations default [s] = Err ValueError.
Proof. exact C137_bad_aggregations_are_refused_pf. Qed.

Example C137_example :
  to_computations false [MetricsSpec ["auc"] [] [] [] None (Some (Aggregate (Some (Macro, true)) [(0%Z, 1%Qc)] (Some [1%Z]))) None] = Err ValueError /\
  to_computations false [MetricsSpec ["auc"] [] [] [] None (Some (Aggregate (Some (Macro, true)) [] None)) None] = Err ValueError /\
  is_ok (to_computations false [MetricsSpec ["auc"] [] [] [] None (Some (Aggregate (Some (Macro, true)) [] (Some [1%Z]))) None]) = true.
Proof. repeat split. Qed.

Print Assumptions C48_macro_average_is_weighted_mean.
Print Assumptions C48_macro_average_in_range.
Print Assumptions C48_weighted_macro_average_is_weighted_mean.
Print Assumptions C48_other_values_are_refused.
Print Assumptions C48_class_weights_are_label_shares.
Print Assumptions C48_class_weights_sum_to_1.
Print Assumptions C101_label_encoding_does_not_matter.
Print Assumptions C103_configured_metrics_are_reported_partial.
Print Assumptions C102_unlabelled_examples_are_ignored_refuted.
Print Assumptions C107_weighted_average_over_top_k_is_plain.
Print Assumptions C49_both_averages_are_reported_refuted.
Print Assumptions C103_configured_metrics_are_reported_refuted.
Print Assumptions C104_weighted_average_thresholds_are_checked_refuted.
Print Assumptions C105_output_average_of_aggregates_refuted.
Print Assumptions C106_specs_are_independent_refuted.
Print Assumptions C136_output_average_is_weighted_mean.
Print Assumptions C103_weighted_as_asked.
Print Assumptions C103_all_weights_asked_for.
Print Assumptions C137_bad_aggregations_are_refused.
