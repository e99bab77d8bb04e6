(* Sharing *)
From Coq Require Import String Ascii.
From Verif Require Import Base BaseFacts Beam BeamFacts Slicer_Model Util_Model Keys_Model Keys_Main Inputs_Model Inputs_Main CI_Model CI_Main Means_Model Sums_Model Validation_Model Validation_Main Aggregation_Model Thresholds_Model Thresholds_Main Histogram_Model Confusion_Model Evaluator_Model Evaluator_Main Detection_Model Detection_Main Sets_Model Sharing_Model.
From Verif Require Predict_Model.
From Verif Require Import Sharing_Main.
Local Open Scope string_scope.
Local Open Scope list_scope.

(* ------------------------------------------------------------------ *)
(** ** C321 each metric is computed from its own pairs *)
(** Refuted: the recall of the two best classes, asked for binarized and as a micro average
    in one config.  Alone the micro average is 1, as positive labels outside of the two best
    classes are left out; together with the binarized recall the result of that is shown
    in its place. *)
Theorem C321_own_pairs_refuted :
  exists s micro,
    forall show, show [NegInf] = "[-inf]" ->
      (exists d, evaluate_metrics ap_sort show "" "" s [recall_top 2 None] = Ok d /\
                 sget d (metric_key_of (recall_top 2 None)) = Some (VNumber (Fin (Q2Qc (1 # 2))))) /\
      (exists d, evaluate_metrics ap_sort show "" "" s [recall_top 2 (Some micro)] = Ok d /\
                 sget d (metric_key_of (recall_top 2 (Some micro))) = Some (VNumber (Fin 1%Qc))) /\
      (exists d, evaluate_metrics ap_sort show "" "" s [recall_top 2 None; recall_top 2 (Some micro)] = Ok d /\
                 sget d (metric_key_of (recall_top 2 (Some micro))) = Some (VNumber (Fin (Q2Qc (1 # 2))))).
Proof. exact C321_own_pairs_refuted_pf. Qed.

(** Metrics are computed together as they are alone if those over the same top k of one
    model and output with the same weights are all aggregated, or none of them.  What is
    missing is the case of the theorem above. *)
Theorem C321_together_as_alone_partial :
  forall ap show lk pk s l,
    (forall a b, show a = show b -> a = b) ->
    (forall a, In a l -> forall r, mm_name a <> ("_" ++ r)%string) ->
    (forall a b, In a l -> In b l -> metric_key_of a = metric_key_of b -> a = b) ->
    (forall a b sk k, In a l -> In b l -> mm_sub_key a = Some sk -> sk_top_k sk = Some k ->
       mm_model a = mm_model b -> mm_output a = mm_output b -> mm_sub_key a = mm_sub_key b -> mm_weighted a = mm_weighted b ->
       (mm_agg a = None <-> mm_agg b = None)) ->
    (forall a, In a l -> exists d, evaluate_metrics ap show lk pk s [a] = Ok d) ->
    exists d, evaluate_metrics ap show lk pk s l = Ok d /\
      forall a da, In a l -> evaluate_metrics ap show lk pk s [a] = Ok da ->
        sget d (metric_key_of a) = sget da (metric_key_of a) /\ sget da (metric_key_of a) <> None.
Proof. exact C321_together_as_alone_partial_pf. Qed.

(** Recall and precision of the two best classes share one histogram; recall of one class
    has its own. *)
Example C321_together_example :
  let precision := MatrixMetric "precision" [NegInf] "" "" (Some (SubKey None None (Some 2))) None false (fun m => set_match_precision m 0) in
  let one := MatrixMetric "recall" [Fin (Q2Qc (1 # 4))] "" "" (Some (SubKey (Some 2%Z) None None)) None false recall_value in
  let s := Bundle [three_classes [1; 0; 0]%Qc; three_classes [0; 0; 1]%Qc] in
  let show ts := match ts with [NegInf] => "[-inf]" | _ => "[0.25]" end in
  exists d, evaluate_metrics ap_sort show "" "" s [recall_top 2 None; precision; one] = Ok d /\ length d = 6%nat /\
    map (fun a => sget d (metric_key_of a)) [recall_top 2 None; precision; one] =
      [Some (VNumber (Fin (Q2Qc (1 # 2)))); Some (VNumber (Fin (Q2Qc (1 # 4)))); Some (VNumber (Fin 0%Qc))].
Proof. cbv zeta. eexists. split; [vm_compute; reflexivity|split; vm_compute; reflexivity]. Qed.

Example C321_micro_example :
  let recall agg := MatrixMetric "recall" [Fin (Q2Qc (1 # 4))] "" "" None agg false recall_value in
  let s := Bundle [three_classes [1; 0; 0]%Qc; three_classes [0; 0; 1]%Qc] in
  exists d, evaluate_metrics ap_sort (fun _ => "[0.25]") "" "" s [recall None; recall (Some (AggType (Some true) None None))] = Ok d /\
    map (fun kv => snd kv) d = [VMatrices (Matrices [Fin (Q2Qc (1 # 4))] [1%Qc] [1%Qc] [qz 3] [1%Qc]); VMatrices (Matrices [Fin (Q2Qc (1 # 4))] [1%Qc] [1%Qc] [qz 3] [1%Qc]);
       VNumber (Fin (Q2Qc (1 # 2))); VNumber (Fin (Q2Qc (1 # 2)))].
Proof. cbv zeta. eexists. split; [vm_compute; reflexivity|vm_compute; reflexivity]. Qed.

(* ------------------------------------------------------------------ *)
(** ** C322 micro averages are reported, and checked, as such *)
(** A bound on a metric of confusion matrices is checked on each value that is reported for the
    metric, micro averages included, and each bound is on a value that is reported.  What is missing are the metrics of the theorems below. *)
Theorem C322_bounds_are_checked_partial :
  forall default s n t lo hi r ths value ms,
    mt_value t = Some (lo, hi) ->
    thresholds_of default [TSpec s [Thresholds_Model.MetricConfig n (Some t) [] []] [] [] []] = Ok r ->
    spec_metrics default s (fun m o sk agg w => MatrixMetric n ths m o sk agg w value) = Ok ms ->
    (forall a, In a ms -> Validation_Main.has r (metric_key_of a) None (ValueThreshold lo hi)) /\
    (forall k sc b, Validation_Main.has r k sc b -> k_diff k = false \/ mt_change t = None ->
       (forall g, k_agg k = Some g -> ag_macro g <> Some true /\ ag_weighted g <> Some true) ->
       sc = None /\ b = ValueThreshold lo hi /\ exists a, In a ms /\ metric_key_of a = k).
Proof. exact C322_bounds_are_checked_partial_pf. Qed.

Example C322_bounds_example :
  let t := MetricThreshold (Some (Some (Fin (Q2Qc (9 # 10))), None)) None in
  exists r ms, thresholds_of (fun _ => false) [TSpec (micro_spec []) [Thresholds_Model.MetricConfig "recall" (Some t) [] []] [] [] []] = Ok r /\
    spec_metrics (fun _ => false) (micro_spec []) (fun m o sk agg w => MatrixMetric "recall" [Fin (Q2Qc (1 # 2))] m o sk agg w recall_value) = Ok ms /\
    map metric_key_of ms = [MetricKey "recall" "" "" None (Some (AggType (Some true) None None)) (Some false) false] /\
    map fst r = map metric_key_of ms.
Proof. cbv zeta. do 2 eexists. split; [vm_compute; reflexivity|]. split; [cbv -[recall_value Q2Qc]; reflexivity|]. split; vm_compute; reflexivity. Qed.

(** Refuted: the bound on a micro average of squared errors is not for the key that the
    average is reported under. *)
Theorem C322_bounds_are_checked_refuted :
  exists s t r ms, mt_value t <> None /\
    thresholds_of (fun _ => false) [TSpec s [Thresholds_Model.MetricConfig "mean_squared_error" (Some t) [] []] [] [] []] = Ok r /\
    spec_metrics (fun _ => false) s squared = Ok ms /\ ms <> [] /\ r <> [] /\
    forall a, In a ms -> dm_agg a = Some (AggType (Some true) None None) /\ ~ In (mean_error_key a) (map fst r).
Proof. exact C322_bounds_are_checked_refuted_pf. Qed.

(** Refuted: the mean squared error and its micro average with class weights, asked for in one
    config.  Each has its own value alone; together one of them is not computed. *)
Theorem C322_both_are_reported_refuted :
  exists s plain micro,
    dm_agg plain = None /\ dm_agg micro = Some (AggType (Some true) None None) /\ dm_name plain = dm_name micro /\
    evaluate_mean_errors ap_sort "" "" s [plain] = Ok [(mean_error_key plain, VNumber (Fin (Q2Qc (1 # 2))))] /\
    evaluate_mean_errors ap_sort "" "" s [micro] = Ok [(mean_error_key micro, VNumber (Fin 0%Qc))] /\
    evaluate_mean_errors ap_sort "" "" s [plain; micro] = Ok [(mean_error_key plain, VNumber (Fin (Q2Qc (1 # 2))))].
Proof. exact C322_both_are_reported_refuted_pf. Qed.

(** Mean errors of different names, models, outputs, sub keys or weightings are computed together
    as they are alone.  What is missing are those that only differ in the aggregation. *)
Theorem C322_both_are_reported_partial :
  forall ap lk pk s l,
    (forall a b, In a l -> In b l -> dm_name a = dm_name b -> dm_model a = dm_model b -> dm_output a = dm_output b ->
       dm_sub_key a = dm_sub_key b -> dm_weighted a = dm_weighted b -> a = b) ->
    (forall d, evaluate_mean_errors ap lk pk s l = Ok d ->
       (forall a, In a l -> exists x, evaluate_mean_errors ap lk pk s [a] = Ok [(mean_error_key a, VNumber x)] /\ sget d (mean_error_key a) = Some (VNumber x))) /\
    ((forall a, In a l -> exists d, evaluate_mean_errors ap lk pk s [a] = Ok d) -> exists d, evaluate_mean_errors ap lk pk s l = Ok d).
Proof. exact C322_both_are_reported_partial_pf. Qed.

Example C322_reported_example :
  let s := Bundle [InputsDict (Some (Leaf [1; 0]%Qc)) (Some (Leaf [Fin 1%Qc; Fin 1%Qc])) None] in
  let of_class c := squared "" "" (Some (SubKey (Some c) None None)) None false in
  exists d, evaluate_mean_errors ap_sort "" "" s [of_class 0%Z; of_class 1%Z; squared "" "" None None false] = Ok d /\
    map snd d = [VNumber (Fin 0%Qc); VNumber (Fin 1%Qc); VNumber (Fin (Q2Qc (1 # 2)))].
Proof. cbv zeta. eexists. split; vm_compute; reflexivity. Qed.

(** A bound on a mean error is checked on each value that is no average.  What is missing is the
    case of the theorem above. *)
Theorem C322_bounds_on_errors_partial :
  forall default s n t lo hi r class error weights ms,
    mt_value t = Some (lo, hi) ->
    thresholds_of default [TSpec s [Thresholds_Model.MetricConfig n (Some t) [] []] [] [] []] = Ok r ->
    spec_metrics default s (fun m o sk agg w => MeanError n class error m o sk agg weights w) = Ok ms ->
    forall a, In a ms -> dm_agg a = None -> Validation_Main.has r (mean_error_key a) None (ValueThreshold lo hi).
Proof. exact C322_bounds_on_errors_partial_pf. Qed.

Example C322_errors_example :
  let t := MetricThreshold (Some (None, Some (Fin 1%Qc))) None in
  exists r ms, thresholds_of (fun _ => false) [TSpec class_spec [Thresholds_Model.MetricConfig "mean_squared_error" (Some t) [] []] [] [] []] = Ok r /\
    spec_metrics (fun _ => false) class_spec squared = Ok ms /\ length ms = 2%nat /\ map fst r = map mean_error_key ms.
Proof. cbv zeta. do 2 eexists. split; [vm_compute; reflexivity|]. split; [cbv -[squared_error Q2Qc]; reflexivity|]. split; vm_compute; reflexivity. Qed.

(* ------------------------------------------------------------------ *)
(** ** C323 calibration metrics are computed from their own totals *)
(** Refuted: the calibration and a micro average of predictions with class weights, asked for in
    one config under two names.  Together the micro average is made of the totals of the
    calibration. *)
Theorem C323_own_totals_refuted :
  exists s calibration micro,
    tm_agg calibration = None /\ tm_agg micro = Some (AggType (Some true) None None) /\ tm_name calibration <> tm_name micro /\
    (exists d, evaluate_totals ap_sort "" "" s [calibration] = Ok d /\ sget d (totals_metric_key calibration) = Some (VNumber (Fin (Q2Qc (1 # 2))))) /\
    (exists d, evaluate_totals ap_sort "" "" s [micro] = Ok d /\ sget d (totals_metric_key micro) = Some (VNumber (Fin 1%Qc))) /\
    (exists d, evaluate_totals ap_sort "" "" s [calibration; micro] = Ok d /\ sget d (totals_metric_key micro) = Some (VNumber (Fin (Q2Qc (1 # 2))))).
Proof. exact C323_own_totals_refuted_pf. Qed.

(** Calibration metrics are computed together as alone if those of one model, output, sub key and
    weighting have the same class weights and are all aggregated or none is. *)
Theorem C323_totals_as_alone_partial :
  forall ap lk pk s l,
    (forall a, In a l -> tm_name a <> "_weighted_labels_predictions_examples") ->
    (forall a b, In a l -> In b l -> tm_model a = tm_model b -> tm_output a = tm_output b -> tm_sub_key a = tm_sub_key b -> tm_weighted a = tm_weighted b ->
       (tm_agg a = None <-> tm_agg b = None) /\ tm_class_weights a = tm_class_weights b /\ (tm_name a = tm_name b -> a = b)) ->
    (forall a, In a l -> exists d, evaluate_totals ap lk pk s [a] = Ok d) ->
    exists d, evaluate_totals ap lk pk s l = Ok d /\
      forall a da, In a l -> evaluate_totals ap lk pk s [a] = Ok da ->
        sget d (totals_metric_key a) = sget da (totals_metric_key a) /\ sget da (totals_metric_key a) <> None.
Proof. exact C323_totals_as_alone_partial_pf. Qed.

Example C323_example :
  let s := Bundle [InputsDict (Some (Leaf [1; 1]%Qc)) (Some (Leaf [Fin 1%Qc; Fin 0%Qc])) None] in
  let of n f := TotalsMetric n f "" "" None None None false in
  exists d, evaluate_totals ap_sort "" "" s [of "calibration" calibration_result; of "mean_label" mean_label_result; of "mean_prediction" mean_prediction_result] = Ok d /\
    map fst d = totals_key (of "" calibration_result) :: map (fun n => totals_metric_key (of n calibration_result)) ["calibration"; "mean_label"; "mean_prediction"] /\
    map snd (tl d) = map (fun q => VNumber (Fin q)) [Q2Qc (1 # 2); Q2Qc (2 # 2); Q2Qc (1 # 2)].
Proof. cbv zeta. eexists. split; [vm_compute; reflexivity|]. split; vm_compute; reflexivity. Qed.

(* ------------------------------------------------------------------ *)
(** ** C324 counts of examples get no intervals *)
(** The count of each model, output, sub key and weighting that is not an average is reported
    without interval.  What is missing is the case of the theorem below. *)
Theorem C324_counts_without_interval_partial :
  forall default sp name metrics configured reported n m (P : CI_Model.metrics_dict) (others : list (nat * CI_Model.metrics_dict)) s agg k v,
    In (name, false) metrics ->
    configured_keys default sp metrics = Ok configured ->
    spec_metrics default sp (fun m o sk agg w => (agg, count_key name m o sk agg w)) = Ok reported ->
    2 <= n -> length others <= n -> NoDup (map fst P) -> ~ In error_key (map fst P) ->
    (forall o, In o others -> NoDup (map fst (snd o)) /\ ~ In error_key (map fst (snd o))) ->
    (forall k v, In (k, v) P -> length others = n -> Forall (fun o => numeric k (snd o)) others -> exists x, v = CI_Model.Num x) ->
    Permutation (inputs s) (Sample P None :: map as_sample others) ->
    In (agg, k) reported -> agg = None -> In (k, v) P ->
    exists out, outcome (sample_combiner n (keys_to_skip configured) m) s = Ok out /\ In (k, Plain v) out.
Proof. exact C324_counts_without_interval_partial_pf. Qed.

(** Refuted: the count that is configured with micro averages is skipped under another key than
    the one it is reported under, and gets an interval. *)
Theorem C324_counts_without_interval_refuted :
  exists sp configured k s out mean var x,
    configured_keys (fun _ => false) sp [("example_count", false)] = Ok configured /\
    spec_metrics (fun _ => false) sp (count_key "example_count") = Ok [k] /\
    outcome (sample_combiner 2 (keys_to_skip configured) Jackknife) s = Ok out /\ In (k, TValue mean var 1 x) out.
Proof. exact C324_counts_without_interval_refuted_pf. Qed.

Example C324_example :
  exists configured reported,
    configured_keys (fun _ => false) class_spec [("mean_squared_error", true); ("example_count", false)] = Ok configured /\
    spec_metrics (fun _ => false) class_spec (count_key "example_count") = Ok reported /\
    length configured = 4%nat /\ keys_to_skip configured = reported /\ length reported = 2%nat.
Proof. do 2 eexists. split; [vm_compute; reflexivity|]. split; [vm_compute; reflexivity|]. split; [reflexivity|]. split; vm_compute; reflexivity. Qed.

(* ------------------------------------------------------------------ *)
(** ** C325 a model that keeps the bounds of a metric passes *)
(** A metric without top k or class of its own, and without macro averages: validation is passed
    exactly if all values that are reported for it are within its bounds.  What is missing is
    the case of the theorem below. *)
Theorem C325_bounds_kept_partial :
  forall default sp n t lo hi r ks slice metrics v,
    mt_value t = Some (lo, hi) -> mt_change t = None ->
    thresholds_of default [TSpec sp [Thresholds_Model.MetricConfig n (Some t) [] []] [] [] []] = Ok r ->
    reported_keys default sp n None None = Ok ks ->
    (forall k g, In k (map fst r) -> k_agg k = Some g -> ag_macro g <> Some true /\ ag_weighted g <> Some true) ->
    NoDup (map fst metrics) -> (forall k, In k ks -> In k (map fst metrics)) ->
    validate_metrics None (inl slice) metrics r = Ok v ->
    (v_ok v = true <->
     forall k x, In k ks -> In (k, x) metrics ->
       exists y, x = Number y /\ y <> NaN /\ (forall b, lo = Some b -> num_leb b y = true) /\ (forall b, hi = Some b -> num_leb y b = true)).
Proof. exact C325_bounds_kept_partial_pf. Qed.

(** Refuted: the recall of the two best predictions (top_k of the metric) with a lower bound of 0.
    Whatever value is reported, validation fails as the metric is not found. *)
Theorem C325_bounds_kept_refuted :
  exists t r ks,
    mt_value t = Some (Some (Fin 0%Qc), None) /\ mt_change t = None /\
    thresholds_of (fun _ => false) [TSpec (plain_spec ["recall"]) [Thresholds_Model.MetricConfig "recall" (Some t) [] []] [] [] []] = Ok r /\
    reported_keys (fun _ => false) (plain_spec ["recall"]) "recall" (Some 2%nat) None = Ok ks /\ length ks = 1%nat /\
    forall slice metrics, map fst metrics = ks ->
      exists v, validate_metrics None (inl slice) metrics r = Ok v /\ v_ok v = false.
Proof. exact C325_bounds_kept_refuted_pf. Qed.

Example C325_example :
  let t := MetricThreshold (Some (Some (Fin (Q2Qc (1 # 2))), None)) None in
  let k := MetricKey "recall" "" "" None None (Some false) false in
  exists r, thresholds_of (fun _ => false) [TSpec (plain_spec ["recall"]) [Thresholds_Model.MetricConfig "recall" (Some t) [] []] [] [] []] = Ok r /\
    reported_keys (fun _ => false) (plain_spec ["recall"]) "recall" None None = Ok [k] /\
    (exists v, validate_metrics None (inl []) [(k, Number (Fin 1%Qc))] r = Ok v /\ v_ok v = true) /\
    (exists v, validate_metrics None (inl []) [(k, Number (Fin 0%Qc))] r = Ok v /\ v_ok v = false).
Proof. cbv zeta. eexists. split; [vm_compute; reflexivity|]. split; [vm_compute; reflexivity|]. split; (eexists; split; [vm_compute; reflexivity|reflexivity]). Qed.

(** With a top k or a class of its own no value of the metric is found under its bounds: the model
    never passes.  This is all that holds of such metrics; what is missing is that a model which
    keeps the bounds passes. *)
Theorem C325_own_settings_partial :
  forall default sp n t lo hi r top_k class_id ks slice metrics v,
    mt_value t = Some (lo, hi) ->
    thresholds_of default [TSpec sp [Thresholds_Model.MetricConfig n (Some t) [] []] [] [] []] = Ok r ->
    reported_keys default sp n top_k class_id = Ok ks -> ks <> [] ->
    top_k <> None \/ class_id <> None ->
    NoDup (map fst metrics) -> (forall k, In k (map fst metrics) -> k_name k = n -> In k ks) ->
    validate_metrics None (inl slice) metrics r = Ok v ->
    v_ok v = false.
Proof. exact C325_own_settings_partial_pf. Qed.

Example C325_own_settings_example :
  let t := MetricThreshold (Some (Some (Fin (Q2Qc (1 # 2))), None)) None in
  let k := MetricKey "recall" "" "" (Some (SubKey (Some 1%Z) None None)) None (Some false) false in
  exists r, thresholds_of (fun _ => false) [TSpec (plain_spec ["recall"]) [Thresholds_Model.MetricConfig "recall" (Some t) [] []] [] [] []] = Ok r /\
    reported_keys (fun _ => false) (plain_spec ["recall"]) "recall" None (Some 1%Z) = Ok [k] /\
    exists v, validate_metrics None (inl []) [(k, Number (Fin 1%Qc))] r = Ok v /\ v_ok v = false.
Proof. cbv zeta. eexists. split; [vm_compute; reflexivity|]. split; [vm_compute; reflexivity|]. eexists; split; [vm_compute; reflexivity|reflexivity]. Qed.

(** For any metric: validation is passed exactly if the metric is reported, with a value within the
    bounds, for each model, output, class, top k or average (macro averages included) and weighting of
    the spec ([part] and [weighting], of C294).  What is missing is that they are reported so. *)
Theorem C325_bounds_of_metrics_partial :
  forall default sp n t lo hi r slice metrics v,
    mt_value t = Some (lo, hi) -> mt_change t = None -> clear_spec sp ->
    thresholds_of default [TSpec sp [Thresholds_Model.MetricConfig n (Some t) [] []] [] [] []] = Ok r ->
    NoDup (map fst metrics) -> validate_metrics None (inl slice) metrics r = Ok v ->
    (v_ok v = true <->
     forall m o agg sk w, (In m (ms_models sp) \/ (ms_models sp = [] /\ m = "")) -> (In o (ms_outputs sp) \/ (ms_outputs sp = [] /\ o = "")) -> part sp agg sk -> weighting default sp w ->
       exists y, In (MetricKey n m o sk agg (Some w) false, Number y) metrics /\
         y <> NaN /\ (forall b, lo = Some b -> num_leb b y = true) /\ (forall b, hi = Some b -> num_leb y b = true)).
Proof. exact C325_bounds_of_metrics_partial_pf. Qed.

(** Recall of classes 0 and 1 and its macro average, each at least 1/2 *)
Example C325_macro_example :
  let t := MetricThreshold (Some (Some (Fin (Q2Qc (1 # 2))), None)) None in
  let sp := MetricsSpec ["recall"] [] [] [] (Some (Binarize [0%Z; 1%Z] [] [])) (Some (Aggregate (Some (Macro, true)) [(0%Z, 1%Qc); (1%Z, 1%Qc)] None)) None in
  let k sk agg := MetricKey "recall" "" "" sk agg (Some false) false in
  let class c := k (Some (SubKey (Some c) None None)) None in
  let macro := k None (Some (AggType None (Some true) None)) in
  let verdict x y z := match thresholds_of (fun _ => false) [TSpec sp [Thresholds_Model.MetricConfig "recall" (Some t) [] []] [] [] []] with
                   | Ok r => match validate_metrics None (inl []) [(class 0%Z, Number (Fin x)); (class 1%Z, Number (Fin y)); (macro, Number (Fin z))] r with Ok v => Some (v_ok v) | Err _ => None end
                   | Err _ => None
                   end in
  verdict 1%Qc 1%Qc 1%Qc = Some true /\ verdict 1%Qc 0%Qc (Q2Qc (1 # 2)) = Some false /\ verdict 1%Qc 1%Qc 0%Qc = Some false.
Proof. cbv zeta. split; [|split]; vm_compute; reflexivity. Qed.

(* ------------------------------------------------------------------ *)
(** ** C326 bounds on the metrics of the model itself *)
(** Validation is passed exactly if the metric is reported, with a value within the bounds, for each
    model, output, and class, top k or average of the spec ([part], of C294).  What is missing is that
    models report them. *)
Theorem C326_bounds_of_model_metrics_partial :
  forall default sp n t lo hi r slice metrics v,
    mt_value t = Some (lo, hi) -> mt_change t = None -> clear_spec sp ->
    thresholds_of default [TSpec sp [] [(n, t)] [] []] = Ok r ->
    NoDup (map fst metrics) -> validate_metrics None (inl slice) metrics r = Ok v ->
    (v_ok v = true <->
     forall m o agg sk, (In m (ms_models sp) \/ (ms_models sp = [] /\ m = "")) -> (In o (ms_outputs sp) \/ (ms_outputs sp = [] /\ o = "")) -> part sp agg sk ->
       exists y, In (MetricKey n m o sk agg None false, Number y) metrics /\
         y <> NaN /\ (forall b, lo = Some b -> num_leb b y = true) /\ (forall b, hi = Some b -> num_leb y b = true)).
Proof. exact C326_bounds_of_model_metrics_partial_pf. Qed.

(** A metric of the model without top k or class of its own, for the model and the output that the
    spec names: validation is passed exactly if its value is within the bounds. *)
Theorem C326_metric_of_model_partial :
  forall default sp km t lo hi r model outputs slice metrics x v,
    let k := Predict_Model.keras_key model outputs km in
    Predict_Model.km_class_id km = None -> Predict_Model.km_top_k km = None ->
    mt_value t = Some (lo, hi) -> mt_change t = None -> ms_binarize sp = None -> ms_aggregate sp = None ->
    (ms_models sp = [model] \/ (ms_models sp = [] /\ model = "")) -> (ms_outputs sp = [k_output k] \/ (ms_outputs sp = [] /\ k_output k = "")) ->
    thresholds_of default [TSpec sp [] [(k_name k, t)] [] []] = Ok r ->
    NoDup (map fst metrics) -> In (k, x) metrics -> validate_metrics None (inl slice) metrics r = Ok v ->
    (v_ok v = true <->
     exists y, x = Number y /\ y <> NaN /\ (forall b, lo = Some b -> num_leb b y = true) /\ (forall b, hi = Some b -> num_leb y b = true)).
Proof. exact C326_metric_of_model_partial_pf. Qed.

(** Refuted: a model with the recall of its two best predictions, and a lower bound of 0 on it;
    and a bound on the accuracy of the model in a spec that is binarized for other metrics. *)
Theorem C326_metric_with_top_k_refuted :
  exists km t r,
    mt_value t = Some (Some (Fin 0%Qc), None) /\ Predict_Model.km_top_k km = Some 2%nat /\
    k_name (Predict_Model.keras_key "" [] km) = "recall" /\
    thresholds_of (fun _ => false) [TSpec (plain_spec []) [] [("recall", t)] [] []] = Ok r /\
    forall slice x, exists v, validate_metrics None (inl slice) [(Predict_Model.keras_key "" [] km, x)] r = Ok v /\ v_ok v = false.
Proof. exact C326_metric_with_top_k_refuted_pf. Qed.

Theorem C326_binarized_refuted :
  exists sp km t r,
    mt_value t = Some (Some (Fin 0%Qc), None) /\ ms_binarize sp = Some (Binarize [0%Z] [] []) /\ k_name (Predict_Model.keras_key "" [] km) = "accuracy" /\
    thresholds_of (fun _ => false) [TSpec sp [] [("accuracy", t)] [] []] = Ok r /\
    forall slice x, exists v, validate_metrics None (inl slice) [(Predict_Model.keras_key "" [] km, x)] r = Ok v /\ v_ok v = false.
Proof. exact C326_binarized_refuted_pf. Qed.

Example C326_example :
  let t := MetricThreshold (Some (Some (Fin (Q2Qc (1 # 2))), None)) None in
  let sp := MetricsSpec [] ["m"] ["out"] [] None None None in
  let k := Predict_Model.keras_key "m" ["out"; "other"] (Predict_Model.KMetric "out_auc" None None) in
  exists r, thresholds_of (fun _ => false) [TSpec sp [] [("auc", t)] [] []] = Ok r /\ k = MetricKey "auc" "m" "out" None None None false /\
    (exists v, validate_metrics None (inl []) [(k, Number (Fin 1%Qc))] r = Ok v /\ v_ok v = true) /\
    (exists v, validate_metrics None (inl []) [(k, Number (Fin 0%Qc))] r = Ok v /\ v_ok v = false).
Proof. cbv zeta. eexists. split; [vm_compute; reflexivity|]. split; [vm_compute; reflexivity|]. split; (eexists; split; [vm_compute; reflexivity|reflexivity]). Qed.

(** A metric of class 0 of the model passes in a spec that is binarized for class 0, not for class 0 and 1. *)
Example C326_classes_example :
  let t := MetricThreshold (Some (Some (Fin (Q2Qc (1 # 2))), None)) None in
  let sp l := MetricsSpec [] [] [] [] (Some (Binarize l [] [])) None None in
  let k := Predict_Model.keras_key "" [] (Predict_Model.KMetric "recall" (Some 0%Z) None) in
  let verdict l := match thresholds_of (fun _ => false) [TSpec (sp l) [] [("recall", t)] [] []] with
                   | Ok r => match validate_metrics None (inl []) [(k, Number (Fin 1%Qc))] r with Ok v => Some (v_ok v) | Err _ => None end
                   | Err _ => None
                   end in
  verdict [0%Z] = Some true /\ verdict [0%Z; 1%Z] = Some false.
Proof. cbv zeta. split; vm_compute; reflexivity. Qed.

(* ------------------------------------------------------------------ *)
(** ** C327 confidence intervals do not change verdicts *)
(** Whatever the samples, the method and the metrics that are skipped: what is reported is validated
    as the metrics of the whole data are, with the same failures. *)
Theorem C327_intervals_and_verdicts :
  forall n skip method point others s out baseline slice ths,
    Permutation (inputs s) (Sample point None :: map as_sample others) ->
    outcome (sample_combiner n skip method) s = Ok out ->
    (forall k, In k (map fst ths) -> k_name k <> "__ERROR__") ->
    validate_reported baseline slice out ths =
    validate_metrics baseline slice (map (fun kv => (fst kv, point_as_float (snd kv))) point) ths.
Proof. exact C327_intervals_and_verdicts_pf. Qed.

Example C327_example :
  let k := MetricKey "auc" "" "" None None (Some false) false in
  let ths := [(k, [(None, ValueThreshold (Some (Fin (Q2Qc (1 # 2)))) None)])] in
  let samples p := fold_left (sample_add []) [Sample [(k, CI_Model.Num (Fin p))] None; Sample [(k, CI_Model.Num (Fin 0%Qc))] (Some 0%nat); Sample [(k, CI_Model.Num (Fin 0%Qc))] (Some 1%nat)] (SAcc None 0 []) in
  let verdict p := match sample_extract 2 Bootstrap (samples p) with
                   | Ok out => match validate_reported None (inl []) out ths with Ok v => Some (map (fun kv => match snd kv with TValue _ _ dof _ => dof | Plain _ => 0%nat end) out, v_ok v) | Err _ => None end
                   | Err _ => None
                   end in
  verdict 1%Qc = Some ([1%nat], true) /\ verdict 0%Qc = Some ([1%nat], false).
Proof. cbv zeta. split; vm_compute; reflexivity. Qed.

Print Assumptions C321_own_pairs_refuted.
Print Assumptions C321_together_as_alone_partial.
Print Assumptions C322_bounds_are_checked_partial.
Print Assumptions C322_bounds_are_checked_refuted.
Print Assumptions C322_both_are_reported_refuted.
Print Assumptions C322_both_are_reported_partial.
Print Assumptions C322_bounds_on_errors_partial.
Print Assumptions C323_own_totals_refuted.
Print Assumptions C323_totals_as_alone_partial.
Print Assumptions C324_counts_without_interval_partial.
Print Assumptions C324_counts_without_interval_refuted.
Print Assumptions C325_bounds_kept_partial.
Print Assumptions C325_bounds_kept_refuted.
Print Assumptions C325_own_settings_partial.
Print Assumptions C325_bounds_of_metrics_partial.
Print Assumptions C326_bounds_of_model_metrics_partial.
Print Assumptions C326_metric_of_model_partial.
Print Assumptions C326_metric_with_top_k_refuted.
Print Assumptions C326_binarized_refuted.
Print Assumptions C327_intervals_and_verdicts.
