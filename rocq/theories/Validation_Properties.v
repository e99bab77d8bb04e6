(* Validation *)
From Coq Require Import String.
From Verif Require Import Base BaseFacts Beam BeamFacts Slicer_Model Inputs_Model Keys_Model Keys_Main Means_Model Validation_Model.
From Verif Require Import Validation_Main.
Local Open Scope string_scope.
Local Open Scope list_scope.

(* ------------------------------------------------------------------ *)
(** ** Equality of specs, scopes and thresholds *)
(* ------------------------------------------------------------------ *)
(** ** What a threshold demands *)
(* ------------------------------------------------------------------ *)
(** ** The verdict for a slice *)
(* ------------------------------------------------------------------ *)
(** ** C25, C26 the thresholds *)
(** A value threshold that applies to the slice fails exactly for NaN and values outside the
    bounds. *)
Theorem C25_value_threshold :
  forall baseline slice metrics ths r k sts sc l u x,
    NoDup (map fst metrics) -> NoDup (map fst ths) -> validate_metrics baseline slice metrics ths = Ok r ->
    In (k, sts) ths -> In (sc, ValueThreshold l u) sts -> applies slice sc -> ~ of_baseline baseline k ->
    In (k, Number x) metrics ->
    (reports r k (ValueThreshold l u) <->
     x = NaN \/ (exists b, l = Some b /\ num_leb b x = false) \/ (exists b, u = Some b /\ num_leb x b = false)).
Proof. exact C25_value_threshold_pf. Qed.

Example C25_example :
  let ths t := [(auc "m" false, [(None, t)])] in
  let verdict x t := match validate_metrics None red [(auc "m" false, x)] (ths t) with Ok r => Some (v_ok r) | Err _ => None end in
  verdict (n 3) (ValueThreshold (Some (Fin (qz 3))) None) = Some true /\
  verdict (n 2) (ValueThreshold (Some (Fin (qz 3))) None) = Some false /\
  verdict (n 2) (ValueThreshold None (Some (Fin (qz 2)))) = Some true /\
  verdict (Number NaN) (ValueThreshold None None) = Some false.
Proof. repeat split; vm_compute; reflexivity. Qed.

(** A change threshold with a direction: the difference must be good enough, and so must the
    difference divided by the baseline's value, which must not be zero. *)
Theorem C26_change_threshold :
  forall bm slice metrics ths r k sts sc a rel d x b,
    NoDup (map fst metrics) -> NoDup (map fst ths) -> validate_metrics (Some bm) slice metrics ths = Ok r ->
    In (k, sts) ths -> In (sc, ChangeThreshold a rel d) sts -> applies slice sc -> k_model k <> bm -> d <> UnknownDirection ->
    In (k, Number x) metrics ->
    In (MetricKey (k_name k) bm (k_output k) (k_sub k) (k_agg k) (k_weighted k) false, Number b) metrics ->
    let enough y bound := match d with HigherIsBetter => num_leb bound y = true | _ => num_leb y bound = true end in
    (reports r k (ChangeThreshold a rel d) <->
     ~ ((forall c, a = Some c -> enough x c) /\ (forall c, rel = Some c -> b <> Fin 0%Qc /\ enough (num_div x b) c))).
Proof. exact C26_change_threshold_pf. Qed.

Example C26_example :
  let ms d b := [(auc "m" true, n d); (auc "base" false, n b)] in
  let verdict d b t := match validate_metrics (Some "base") red (ms d b) [(auc "m" true, [(None, t)])] with Ok r => Some (v_ok r) | Err _ => None end in
  verdict 6%Z 2%Z (ChangeThreshold (Some (Fin (qz 6))) (Some (Fin (qz 3))) HigherIsBetter) = Some true /\
  verdict 6%Z 2%Z (ChangeThreshold None (Some (Fin (qz 4))) HigherIsBetter) = Some false /\
  verdict (-1)%Z 2%Z (ChangeThreshold (Some (Fin (qz 0))) None LowerIsBetter) = Some true /\
  verdict 6%Z 0%Z (ChangeThreshold None (Some (Fin (qz 1))) HigherIsBetter) = Some false.
Proof. repeat split; vm_compute; reflexivity. Qed.

(* ------------------------------------------------------------------ *)
(** ** C27, C28 the verdict for a slice *)
(** The verdict is ok exactly if no threshold is violated; the failures are those of the slice,
    one or more for every violated threshold and none for the others. *)
Theorem C27_verdict_exact :
  forall baseline slice metrics ths r,
    NoDup (map fst metrics) -> NoDup (map fst ths) -> validate_metrics baseline slice metrics ths = Ok r ->
    (v_ok r = true <-> forall k t, ~ violated baseline slice metrics ths k t) /\
    (forall k t, reports r k t <-> violated baseline slice metrics ths k t) /\
    (forall s fs, In (s, fs) (v_failures r) -> s = slice).
Proof. exact C27_verdict_exact_pf. Qed.

(** One metric is too small for the red slice, one is missing, one belongs to the baseline. *)
Example C27_example :
  let low := ValueThreshold (Some (Fin (qz 3))) None in
  validate_metrics (Some "base") red [(auc "m" false, n 2); (auc "base" false, n 1)]
    [(auc "m" false, [(Some (SingleScope only_red), low); (Some (SingleScope overall), ValueThreshold (Some (Fin (qz 9))) None)]);
     (auc "m" true, [(None, low)]); (auc "base" false, [(None, low)])] =
  Ok (VResult false [(red, [Failure (auc "m" false) (Some (Fin (qz 2))) low NoMessage; Failure (auc "m" true) None low MetricNotFound])] [(SingleScope only_red, 1%Z)]).
Proof. vm_compute. reflexivity. Qed.

(** Refuted: a threshold for the red slice fails the blue slice if the blue slice does not
    have the metric. *)
Theorem C28_missing_metric_any_slice_refuted :
  exists slice metrics k sp t r,
    slice = inl [("c", VStr "blue")] /\ ~ applies slice (Some (SingleScope sp)) /\
    validate_metrics None slice metrics [(k, [(Some (SingleScope sp), t)])] = Ok r /\ v_ok r = false.
Proof. exact C28_missing_metric_any_slice_refuted_pf. Qed.

(** A slice that has the metric fails a threshold only if the threshold applies to it. *)
Theorem C28_scoped_threshold_partial :
  forall baseline slice metrics ths r k t v,
    NoDup (map fst metrics) -> NoDup (map fst ths) -> validate_metrics baseline slice metrics ths = Ok r ->
    In (k, v) metrics -> reports r k t ->
    exists sts sc, In (k, sts) ths /\ In (sc, t) sts /\ applies slice sc.
Proof. exact C28_scoped_threshold_partial_pf. Qed.

Example C28_example :
  let ths := [(auc "m" false, [(Some (SingleScope only_red), ValueThreshold (Some (Fin (qz 3))) None)])] in
  validate_metrics None (inl [("c", VStr "blue")]) [(auc "m" false, n 2)] ths = Ok (VResult true [] []).
Proof. vm_compute. reflexivity. Qed.

(* ------------------------------------------------------------------ *)
(** ** Details *)
(* ------------------------------------------------------------------ *)
(** ** Combining the results *)
(* ------------------------------------------------------------------ *)
(** ** Missing slices *)
(* ------------------------------------------------------------------ *)
(** ** The final verdict *)
(** The final verdict: some slice was validated, no threshold is violated for any slice, and every
    spec mentioned is for single slices (C33) and some slice was checked for it; the final result
    has every slice's failures. *)
Theorem C29_final_verdict :
  forall baseline ths rubber all rs s,
    ths <> [] -> NoDup (map fst ths) -> Forall (fun sm => NoDup (map fst (snd sm))) all ->
    validate_all baseline ths all = Ok rs -> Permutation (inputs s) rs ->
    let fin := outcome (combine_validations baseline ths rubber) s in
    (fin_ok fin = true <->
     all <> [] /\ (forall slice metrics k t, In (slice, metrics) all -> ~ violated baseline slice metrics ths k t) /\
     (forall sc, mentioned baseline ths sc -> ~ crossing sc /\ matched baseline ths all sc)) /\
    (forall slice metrics k t, In (slice, metrics) all ->
       violated baseline slice metrics ths k t -> exists fs f, In (slice, fs) (fin_failures fin) /\ In f fs /\ f_key f = k /\ f_threshold f = t) /\
    (forall slice fs f, In (slice, fs) (fin_failures fin) -> In f fs ->
       exists metrics, In (slice, metrics) all /\ violated baseline slice metrics ths (f_key f) (f_threshold f)).
Proof. exact C29_final_verdict_pf. Qed.

Example C29_example :
  let two := fun rs : list vresult => Merge (Bundle [hd fresh rs]) [Bundle []; Bundle (tl rs)] in
  option_map fin_ok (example_final [(inl [], [(auc "m" false, n 6)]); (red, [(auc "m" false, n 4)])] example_ths two) = Some true /\
  option_map fin_ok (example_final [(inl [], [(auc "m" false, n 6)]); (red, [(auc "m" false, n 2)])] example_ths two) = Some false /\
  option_map (fun f => (fin_ok f, fin_missing f)) (example_final [(inl [], [(auc "m" false, n 6)])] example_ths Bundle) = Some (false, [only_red]) /\
  option_map fin_ok (example_final [] example_ths Bundle) = Some false.
Proof. vm_compute. repeat split. Qed.

(** Without thresholds the verdict is ok exactly when rubber stamping, which is reported. *)
Theorem C30_no_thresholds :
  forall baseline rubber s,
    let fin := outcome (combine_validations baseline [] rubber) s in
    (fin_ok fin = true <-> rubber = true) /\ (fin_missing_thresholds fin = true <-> rubber = false) /\ fin_rubber_stamp fin = rubber.
Proof. exact C30_no_thresholds_pf. Qed.

Example C30_example :
  let fin rubber := outcome (combine_validations None [] rubber) (Bundle [VResult true [] []]) in
  (fin_ok (fin true), fin_missing_thresholds (fin true), fin_ok (fin false), fin_missing_thresholds (fin false)) = (true, false, false, true).
Proof. reflexivity. Qed.

(** The details of a slice, if a metric has no threshold twice: the specs for which it was
    checked. *)
Theorem C31_slice_details_partial :
  forall baseline slice metrics ths r,
    NoDup (map fst metrics) -> NoDup (map fst ths) -> no_cross ths ->
    (forall k sts sc sc' t, In (k, sts) ths -> In (sc, t) sts -> In (sc', t) sts -> sc = sc') ->
    validate_metrics baseline slice metrics ths = Ok r ->
    forall sp, (exists m, In (SingleScope sp, m) (v_details r)) <-> exists sc, checked_for baseline slice metrics ths sc /\ spec_of sc = sp.
Proof. exact C31_slice_details_partial_pf. Qed.

(** For every schedule the final details have each spec once, with the number of slices that
    have it among theirs. *)
Theorem C31_counts_partial :
  forall baseline ths rubber all rs s,
    NoDup (map fst ths) -> no_cross ths -> Forall (fun sm => NoDup (map fst (snd sm))) all ->
    validate_all baseline ths all = Ok rs -> Permutation (inputs s) rs ->
    let details := fin_details (outcome (combine_validations baseline ths rubber) s) in
    let having sp := filter (fun r => existsb (fun d => scope_eqb (SingleScope sp) (fst d)) (v_details r)) rs in
    (forall d m, In (d, m) details -> exists sp, d = SingleScope sp /\ m = Z.of_nat (length (having sp)) /\ (m > 0)%Z) /\
    (forall sp, having sp <> [] -> exists sp' m, In (SingleScope sp', m) details /\ same_spec sp sp') /\
    ForallOrdPairs (fun a b => ~ same_scope (fst a) (fst b)) details.
Proof. exact C31_counts_partial_pf. Qed.

Example C31_example :
  let slices := [(red, [(auc "m" false, n 4)]); (inl [("c", VStr "blue")], [(auc "m" false, n 4)]); (inl [], [(auc "m" false, n 4)])] in
  let ths := [(auc "m" false, [(Some (SingleScope (Spec ["c"] [])), ValueThreshold (Some (Fin (qz 3))) None); (Some (SingleScope only_red), ValueThreshold (Some (Fin (qz 5))) None)])] in
  option_map fin_details (example_final slices ths (fun rs => Merge (Bundle [hd fresh rs]) [Bundle (tl rs)])) =
  Some [(SingleScope (Spec ["c"] []), 2%Z); (SingleScope only_red, 1%Z)].
Proof. reflexivity. Qed.

(** A failing threshold configured both without spec and for a spec: the check for the spec is
    not counted, the spec is even reported as missing.  A cross slice counts as the overall
    slice. *)
Theorem C31_repeated_threshold_refuted :
  exists ths slice metrics sc r,
    checked_for None slice metrics ths sc /\ validate_metrics None slice metrics ths = Ok r /\ (forall m, ~ In (detail_scope sc, m) (v_details r)) /\
    fin_missing (outcome (combine_validations None ths false) (Bundle [r])) = [spec_of sc].
Proof. exact C31_repeated_threshold_refuted_pf. Qed.

Theorem C31_cross_slice_as_overall_refuted :
  exists ths slice1 slice2 metrics r1 r2,
    validate_metrics None (inr (slice1, slice2)) metrics ths = Ok r1 /\ validate_metrics None (inl []) metrics ths = Ok r2 /\
    fin_details (outcome (combine_validations None ths false) (Bundle [r1; r2])) = [(CrossScope overall [only_red], 2%Z)].
Proof. exact C31_cross_slice_as_overall_refuted_pf. Qed.

(* ------------------------------------------------------------------ *)
(** ** Reporting missing slices *)
(** Among the missing slices are exactly the mentioned specs no slice was checked for, each
    once; any of them makes the verdict fail.  For specs of single slices and metrics that have
    each threshold for one spec only. *)
Theorem C32_missing_slices_partial :
  forall baseline ths rubber all rs s,
    NoDup (map fst ths) -> no_cross ths -> Forall (fun sm => NoDup (map fst (snd sm))) all ->
    (forall k sts sc sc' t, In (k, sts) ths -> In (sc, t) sts -> In (sc', t) sts -> sc = sc') ->
    validate_all baseline ths all = Ok rs -> Permutation (inputs s) rs ->
    let fin := outcome (combine_validations baseline ths rubber) s in
    (forall sp, In sp (fin_missing fin) -> exists sc, mentioned baseline ths sc /\ spec_of sc = sp /\ ~ matched baseline ths all sc) /\
    (forall sc, mentioned baseline ths sc -> ~ matched baseline ths all sc -> (exists sp, In sp (fin_missing fin) /\ same_spec (spec_of sc) sp) /\ fin_ok fin = false) /\
    ForallOrdPairs (fun a b => ~ same_spec a b) (fin_missing fin) /\ fin_missing_cross fin = [].
Proof. exact C32_missing_slices_partial_pf. Qed.

Example C32_example :
  option_map (fun f => (fin_ok f, fin_missing f)) (example_final [(inl [("c", VStr "blue")], [(auc "m" false, n 6)])] example_ths Bundle) = Some (false, [only_red; overall]).
Proof. reflexivity. Qed.

(** A spec some slice was checked for is listed as missing; and an overall slice that is not
    there is not listed (nor fails the validation), if another slice was checked because of a
    threshold without spec. *)
Theorem C32_checked_slice_missing_refuted :
  exists ths slice metrics sc r,
    checked_for None slice metrics ths sc /\ validate_metrics None slice metrics ths = Ok r /\
    In (spec_of sc) (fin_missing (outcome (combine_validations None ths false) (Bundle [r]))).
Proof. exact C32_checked_slice_missing_refuted_pf. Qed.

Theorem C32_overall_slice_not_missing_refuted :
  exists ths slice metrics sc r,
    mentioned None ths (Some sc) /\ ~ applies slice (Some sc) /\ validate_metrics None slice metrics ths = Ok r /\
    fin_ok (outcome (combine_validations None ths false) (Bundle [r])) = true.
Proof. exact C32_overall_slice_not_missing_refuted_pf. Qed.

(** Whenever a threshold of a non-baseline metric is scoped to a cross slicing spec, the
    validation fails, whatever the results are. *)
Theorem C33_never_ok :
  forall baseline ths rubber s base specs,
    mentioned baseline ths (Some (CrossScope base specs)) ->
    let fin := outcome (combine_validations baseline ths rubber) s in
    fin_ok fin = false /\ fin_missing_cross fin <> [].
Proof. exact C33_never_ok_pf. Qed.

Theorem C33_cross_threshold_refuted :
  exists ths slice metrics r base specs,
    mentioned None ths (Some (CrossScope base specs)) /\ applies slice (Some (CrossScope base specs)) /\
    validate_metrics None slice metrics ths = Ok r /\ v_ok r = true /\
    fin_ok (outcome (combine_validations None ths false) (Bundle [r])) = false.
Proof. exact C33_cross_threshold_refuted_pf. Qed.

Example C33_example :
  let ths := [(auc "m" false, [(Some (CrossScope overall [only_red]), ValueThreshold (Some (Fin (qz 3))) None)])] in
  option_map (fun f => (fin_details f, fin_missing_cross f)) (example_final [(inr ([], [("c", VStr "red")]), [(auc "m" false, n 4)])] ths Bundle) =
  Some ([(CrossScope overall [only_red], 1%Z)], [(overall, [only_red])]).
Proof. reflexivity. Qed.

(* ------------------------------------------------------------------ *)
(** ** Thresholds of a configuration *)
(** Every threshold of the configuration is used for validation, for its metric (or difference)
    and its slices, none twice, and no other. *)
Theorem C87_thresholds_used :
  forall es, let r := metric_thresholds es in
    (forall k sc t, has r k sc t -> exists e, In e es /\ asks e k sc t) /\
    (forall e k sc t, In e es -> asks e k sc t -> exists sc', same_place sc sc' /\ has r k sc' t) /\
    NoDup (map fst r) /\ forall k sts, In (k, sts) r -> ForallOrdPairs (fun a b => ~ (same_place (fst a) (fst b) /\ snd a = snd b)) sts.
Proof. exact C87_thresholds_used_pf. Qed.

Example C87_example :
  metric_thresholds [(auc "m" false, None, MetricThreshold (Some (Some (Fin (qz 1)), None)) (Some (None, Some (Fin (qz 0)), HigherIsBetter)));
                     (auc "m" false, Some (SingleScope only_red), MetricThreshold (Some (Some (Fin (qz 1)), None)) None);
                     (auc "m" false, None, MetricThreshold (Some (Some (Fin (qz 1)), None)) None)] =
  [(auc "m" false, [(None, ValueThreshold (Some (Fin (qz 1))) None); (Some (SingleScope only_red), ValueThreshold (Some (Fin (qz 1))) None)]);
   (auc "m" true, [(None, ChangeThreshold None (Some (Fin (qz 0))) HigherIsBetter)])].
Proof. reflexivity. Qed.

(** A metric that cannot be compared stops the evaluation instead of failing the validation, in
    spite of the handler for it. *)
Theorem C88_incomparable_metric_refuted :
  exists v w ths, (forall x, v <> Number x) /\ (forall x, w <> Number x) /\
    validate_metrics None red [(auc "m" false, v)] ths = Err ValueError /\
    validate_metrics None red [(auc "m" false, w)] ths = Err TypeError.
Proof. exact C88_incomparable_metric_refuted_pf. Qed.

(** A change threshold without direction is reported as an invalid comparison. *)
Theorem C88_unknown_direction_partial :
  forall bm slice k x a sc,
    applies slice sc -> k_model k <> bm ->
    validate_metrics (Some bm) slice [(k, Number x)] [(k, [(sc, ChangeThreshold (Some a) None UnknownDirection)])] =
    Ok (VResult false [(slice, [Failure k (Some x) (ChangeThreshold (Some a) None UnknownDirection) InvalidComparison])] [(detail_scope sc, 1%Z)]).
Proof. exact C88_unknown_direction_partial_pf. Qed.

Example C88_example :
  option_map v_ok (match validate_metrics (Some "base") red [(auc "m" true, n 1)] [(auc "m" true, [(None, ChangeThreshold (Some (Fin 0%Qc)) None UnknownDirection)])] with Ok r => Some r | Err _ => None end) = Some false.
Proof. reflexivity. Qed.

(** The guide says that a relative threshold bounds the candidate divided by the baseline;
    a candidate 5% better than the baseline fails its example (1.01, higher is better). *)
Theorem C89_relative_is_ratio_refuted :
  exists candidate base bound,
    num_leb bound (num_div (Fin candidate) (Fin base)) = true /\
    match validate_metrics (Some "base") red [(auc "m" true, Number (Fin (candidate - base)%Qc)); (auc "base" false, Number (Fin base))]
            [(auc "m" true, [(None, ChangeThreshold None (Some bound) HigherIsBetter)])] with
    | Ok r => v_ok r = false
    | Err _ => False
    end.
Proof. exact C89_relative_is_ratio_refuted_pf. Qed.

(** What the code compares is candidate / baseline - 1. *)
Theorem C89_relative_change_partial :
  forall slice k bm c b bound d r sc,
    b <> 0%Qc -> k_model k <> bm -> d <> UnknownDirection -> applies slice sc ->
    validate_metrics (Some bm) slice [(k, Number (Fin (c - b)%Qc)); (make_baseline_key k bm, Number (Fin b))] [(k, [(sc, ChangeThreshold None (Some (Fin bound)) d)])] = Ok r ->
    (v_ok r = true <-> match d with HigherIsBetter => (1 + bound <= c / b)%Qc | _ => (c / b <= 1 + bound)%Qc end).
Proof. exact C89_relative_change_partial_pf. Qed.

Example C89_example :
  let verdict bound := match validate_metrics (Some "base") red [(auc "m" true, n 5); (auc "base" false, n 100)] [(auc "m" true, [(None, ChangeThreshold None (Some (np_div (qz bound) (qz 100))) HigherIsBetter)])] with Ok r => Some (v_ok r) | Err _ => None end in
  (verdict 5%Z, verdict 6%Z) = (Some true, Some false).
Proof. reflexivity. Qed.

(** For metrics with negative values an improvement fails the relative threshold 0 and a
    decline passes it. *)
Theorem C90_improvement_refuted :
  exists worse base better,
    (worse < base)%Qc /\ (base < better)%Qc /\
    let ths := [(auc "m" true, [(None, ChangeThreshold None (Some (Fin 0%Qc)) HigherIsBetter)])] in
    let verdict c := match validate_metrics (Some "base") red [(auc "m" true, Number (Fin (c - base)%Qc)); (auc "base" false, Number (Fin base))] ths with Ok r => Some (v_ok r) | Err _ => None end in
    verdict better = Some false /\ verdict worse = Some true.
Proof. exact C90_improvement_refuted_pf. Qed.

(** For positive baselines the relative threshold 0 accepts exactly what is not worse. *)
Theorem C90_improvement_partial :
  forall slice k bm c b d r sc,
    (0 < b)%Qc -> k_model k <> bm -> d <> UnknownDirection -> applies slice sc ->
    validate_metrics (Some bm) slice [(k, Number (Fin (c - b)%Qc)); (make_baseline_key k bm, Number (Fin b))] [(k, [(sc, ChangeThreshold None (Some (Fin 0%Qc)) d)])] = Ok r ->
    (v_ok r = true <-> match d with HigherIsBetter => (b <= c)%Qc | _ => (c <= b)%Qc end).
Proof. exact C90_improvement_partial_pf. Qed.

Example C90_example :
  let verdict c := match validate_metrics (Some "base") red [(auc "m" true, Number (Fin (qz c - qz 2)%Qc)); (auc "base" false, n 2)] [(auc "m" true, [(None, ChangeThreshold None (Some (Fin 0%Qc)) HigherIsBetter)])] with Ok r => Some (v_ok r) | Err _ => None end in
  (verdict 2%Z, verdict 1%Z) = (Some true, Some false).
Proof. reflexivity. Qed.

Print Assumptions C25_value_threshold.
Print Assumptions C26_change_threshold.
Print Assumptions C27_verdict_exact.
Print Assumptions C28_missing_metric_any_slice_refuted.
Print Assumptions C28_scoped_threshold_partial.
Print Assumptions C29_final_verdict.
Print Assumptions C30_no_thresholds.
Print Assumptions C31_slice_details_partial.
Print Assumptions C31_counts_partial.
Print Assumptions C31_repeated_threshold_refuted.
Print Assumptions C31_cross_slice_as_overall_refuted.
Print Assumptions C32_missing_slices_partial.
Print Assumptions C32_checked_slice_missing_refuted.
Print Assumptions C32_overall_slice_not_missing_refuted.
Print Assumptions C33_never_ok.
Print Assumptions C33_cross_threshold_refuted.
Print Assumptions C87_thresholds_used.
Print Assumptions C88_incomparable_metric_refuted.
Print Assumptions C88_unknown_direction_partial.
Print Assumptions C89_relative_is_ratio_refuted.
Print Assumptions C89_relative_change_partial.
Print Assumptions C90_improvement_refuted.
Print Assumptions C90_improvement_partial.
