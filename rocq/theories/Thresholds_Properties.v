(* Thresholds *)
From Coq Require Import String Ascii.
From Verif Require Import Base BaseFacts Beam BeamFacts Slicer_Model Slicer_Main Inputs_Model Keys_Model Keys_Main Means_Model Validation_Model Validation_Main Results_Model Results_Main Util_Model Sums_Model Evaluator_Model Aggregation_Model Aggregation_Main Thresholds_Model.
From Verif Require Import Thresholds_Main.
Local Open Scope string_scope.
Local Open Scope list_scope.

(* ------------------------------------------------------------------ *)
(** ** What a configuration asks for *)
(* ------------------------------------------------------------------ *)
(** ** The walk *)
(** The thresholds used are the configured ones: every bound configured for a metric, at its
    place, and no other. *)
Theorem C294_thresholds_used :
  forall default specs r, Forall (fun s => clear_spec (ts_spec s)) specs -> thresholds_of default specs = Ok r ->
    (forall k sc t, Validation_Main.has r k sc t ->
       exists k0 pl mt, configured default specs k0 pl mt /\ reads pl sc /\ bounds k0 mt k t) /\
    (forall k0 pl mt k t, configured default specs k0 pl mt -> bounds k0 mt k t ->
       exists sc sc', reads pl sc /\ same_place sc sc' /\ Validation_Main.has r k sc' t).
Proof. exact C294_thresholds_used_pf. Qed.

Example C294_example :
  let s := MetricsSpec [] ["m"] [] [] (Some (Binarize [3%Z] [] [])) None (Some (true, true)) in
  let key n w d := MetricKey n "m" "" (Some (SubKey (Some 3%Z) None None)) None w d in
  thresholds_of (fun _ => false)
    [TSpec s [MetricConfig "auc" (Some (MetricThreshold None (Some (None, Some (Fin (qz 0)), HigherIsBetter)))) [PerSlice [sliced_by "c"] (low 1)] []]
             [("loss", low 2)] [] []] =
  Ok [(key "loss" None false, [(None, at_least 2)]);
      (key "auc" (Some true) true, [(None, ChangeThreshold None (Some (Fin (qz 0))) HigherIsBetter)]);
      (key "auc" (Some true) false, [(Some (SingleScope (Spec ["c"] [])), at_least 1)]);
      (key "auc" (Some false) true, [(None, ChangeThreshold None (Some (Fin (qz 0))) HigherIsBetter)]);
      (key "auc" (Some false) false, [(Some (SingleScope (Spec ["c"] [])), at_least 1)])].
Proof. vm_compute. reflexivity. Qed.

(** A configuration with valid positions and slicing specs is accepted. *)
Theorem C294_accepted :
  forall default specs,
    Forall (fun s => clear_spec (ts_spec s) /\ positive_positions (ts_spec s)) specs ->
    (forall k pl mt, configured default specs k pl mt -> exists sc, reads pl sc) ->
    exists r, thresholds_of default specs = Ok r.
Proof. exact C294_accepted_pf. Qed.

(** A key both without and with a value has no slices. *)
Example C294_refused_example :
  thresholds_of (fun _ => false) [TSpec (MetricsSpec [] [] [] [] None None None) [] [] [("loss", [PerSlice [Slicing (SlicingSpec ["c"] [("c", "red")]) ""] (low 2)])] []] = Err ValueError.
Proof. vm_compute. reflexivity. Qed.

(* ------------------------------------------------------------------ *)
(** ** From the configuration to the verdict *)
(** If the validation of an evaluation is OK, then every metric has every configured bound: on each
    slice of its place the metric is there, and within the bound. *)
Theorem C295_ok_means_within_bounds :
  forall default specs r baseline rubber all rs s,
    Forall (fun t => clear_spec (ts_spec t)) specs -> (forall k pl mt, configured default specs k pl mt -> proper pl) ->
    thresholds_of default specs = Ok r -> Forall (fun sm => NoDup (map fst (snd sm))) all ->
    validate_all baseline r all = Ok rs -> Permutation (inputs s) rs ->
    fin_ok (outcome (combine_validations baseline r rubber) s) = true ->
    forall k0 pl mt k t, configured default specs k0 pl mt -> bounds k0 mt k t -> ~ of_baseline baseline k ->
    forall slice metrics, In (slice, metrics) all -> at_place pl slice ->
      exists v, In (k, v) metrics /\ passes baseline metrics k t v.
Proof. exact C295_ok_means_within_bounds_pf. Qed.

Example C295_example :
  let red := Slicing (SlicingSpec [] [("c", "red")]) "" in
  let results x := [(red_slice, [(auc_key, Number (Fin (qz x)))]); (inl [], [(auc_key, Number (Fin (qz 1)))])] in
  verdict [one_metric [PerSlice [red] (low 3)]] (results 4%Z) = Some true /\
  verdict [one_metric [PerSlice [red] (low 3)]] (results 2%Z) = Some false /\
  selected_by (sl_spec red) (One [("c", VStr "red")]).
Proof.
  split; [vm_compute; reflexivity|]. split; [vm_compute; reflexivity|]. split; [reflexivity|]. cbn. intros n v w [[= <- <-]|[]] [[= <-]|[]]. apply Slicer_Proofs.same_refl.
Qed.

(* ------------------------------------------------------------------ *)
(** ** Places that get lost *)
(** A threshold on the slices of a SQL query is a threshold on the overall slice: the slices of the
    query are not looked at, and the validation is OK though all of them are below the bound. *)
Theorem C296_slices_of_queries_are_checked_refuted :
  exists sl t all r, sl_sql sl = "SELECT STRUCT(c) FROM example.c" /\
    thresholds_of (fun _ => false) [one_metric [PerSlice [sl] t]] = Ok r /\
    r = [(auc_key, [(Some (SingleScope (Spec [] [])), at_least 3)])] /\
    In (red_slice, [(auc_key, Number (Fin (qz 2)))]) all /\
    verdict [one_metric [PerSlice [sl] t]] all = Some true.
Proof. exact C296_slices_of_queries_are_checked_refuted_pf. Qed.

(** Thresholds on the slices of two queries are one. *)
Theorem C296_queries_are_told_apart_refuted :
  exists sl1 sl2 t, sl_sql sl1 <> sl_sql sl2 /\
    thresholds_of (fun _ => false) [one_metric [PerSlice [sl1; sl2] t]] = thresholds_of (fun _ => false) [one_metric [PerSlice [sl1] t]].
Proof. exact C296_queries_are_told_apart_refuted_pf. Qed.

(** A per-slice threshold without slicing specs is for no slice, not for all: the metric may be
    below it everywhere. *)
Theorem C296_threshold_without_slicing_specs_refuted :
  exists t all, t = low 3 /\ (forall slice metrics, In (slice, metrics) all -> metrics = [(auc_key, Number (Fin (qz 2)))]) /\
    thresholds_of (fun _ => false) [one_metric [PerSlice [] t]] = Ok [] /\
    verdict [one_metric [PerSlice [] t; PerSlice [Slicing (SlicingSpec [] []) ""] (low 1)]] all = Some true.
Proof. exact C296_threshold_without_slicing_specs_refuted_pf. Qed.

(** Binarization next to aggregation options without a type: the threshold of the metric is not
    used for the class. *)
Theorem C294_untyped_aggregation_refuted :
  exists s m t k r, mc_threshold m = Some t /\ t = low 3 /\
    ts_metrics s = [m] /\ ms_binarize (ts_spec s) = Some (Binarize [3%Z] [] []) /\
    configured (fun _ => false) [s] k Everywhere t /\
    thresholds_of (fun _ => false) [s] = Ok r /\ ~ In k (map fst r).
Proof. exact C294_untyped_aggregation_refuted_pf. Qed.

Print Assumptions C294_thresholds_used.
Print Assumptions C294_accepted.
Print Assumptions C295_ok_means_within_bounds.
Print Assumptions C296_slices_of_queries_are_checked_refuted.
Print Assumptions C296_queries_are_told_apart_refuted.
Print Assumptions C296_threshold_without_slicing_specs_refuted.
Print Assumptions C294_untyped_aggregation_refuted.
