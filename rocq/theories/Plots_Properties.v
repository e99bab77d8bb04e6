(* Plots *)
From Coq Require Import String Ascii Sorting.Sorted.
From Verif Require Import Base BaseFacts Beam BeamFacts Util_Model Util_Main Inputs_Model Inputs_Main Sums_Model Sums_Main
  Histogram_Model Histogram_Main Confusion_Model Confusion_Main Means_Model Keys_Model Keys_Main Config_Model Evaluator_Model
  Detection_Model Rates_Model Rates_Main Plots_Model.
From Verif Require Import Plots_Main.
Local Open Scope string_scope.
Local Open Scope list_scope.

(* ------------------------------------------------------------------ *)
(** ** C181 rates shown with confusion matrices *)
(** What is shown at each threshold. *)
Theorem C181_shown_rows :
  forall m n, regular m n ->
    exists rows, to_proto m = Ok rows /\ length rows = n /\
      forall i, i < n -> exists r, nth_error rows i = Some r /\
        let tp := tp_at m i in let tn := tn_at m i in let fp := fp_at m i in let fn := fn_at m i in
        (forall q, nth i (m_thresholds m) NaN = Fin q -> exists q', sr_threshold r = Fin q' /\ six_digits q q') /\
        sr_tp r = tp /\ sr_tn r = tn /\ sr_fp r = fp /\ sr_fn r = fn /\
        sr_precision r = ratio (Fin 1%Qc) tp (tp + fp) /\
        sr_recall r = ratio (Fin 0%Qc) tp (tp + fn) /\
        sr_fpr r = ratio NaN fp (fp + tn) /\ sr_for r = ratio NaN fn (fn + tn) /\
        sr_accuracy r = ratio NaN (tp + tn) (tp + tn + fp + fn).
Proof. exact C181_shown_rows_pf. Qed.

Example C181_shown_rows_ex :
  (let! rows := to_proto (Matrices [Fin (Q2Qc (1 # 3)); Fin 1%Qc] [qz 3; 0%Qc] [qz 4; qz 5] [1%Qc; 0%Qc] [qz 2; qz 5]) in
   Ok (map (fun r => (sr_threshold r, sr_precision r, sr_recall r, sr_accuracy r)) rows)) =
  Ok [(Fin (Q2Qc (333333 # 1000000)), Fin (Q2Qc (3 # 4)), Fin (Q2Qc (3 # 5)), Fin (Q2Qc (7 # 10)));
      (Fin 1%Qc, Fin 1%Qc, Fin 0%Qc, Fin (Q2Qc (1 # 2)))].
Proof. qc_ex. Qed.

(** With a true positive the F1 shown is the F1 metric. *)
Theorem C181_f1_partial :
  forall m n, regular m n ->
    exists rows, to_proto m = Ok rows /\
      forall i r, nth_error rows i = Some r -> (0 < tp_at m i)%Qc ->
        sr_f1 r = Fin (qz 2 * tp_at m i / (qz 2 * tp_at m i + fp_at m i + fn_at m i))%Qc /\
        sr_f1 r = f1_score (tp_at m i) (fp_at m i) (fn_at m i).
Proof. exact C181_f1_partial_pf. Qed.

(** Refuted: "the F1 shown is the F1 metric".  If all positives are missed, one of them
    is a number and the other is not. *)
Theorem C181_f1_refuted :
  exists m1 r1 m2 r2, regular m1 1 /\ regular m2 1 /\ to_proto m1 = Ok [r1] /\ to_proto m2 = Ok [r2] /\
    f1_score (tp_at m1 0) (fp_at m1 0) (fn_at m1 0) = Fin 0%Qc /\ sr_f1 r1 = NaN /\
    f1_score (tp_at m2 0) (fp_at m2 0) (fn_at m2 0) = NaN /\ sr_f1 r2 = Fin 0%Qc.
Proof. exact C181_f1_refuted_pf. Qed.

(* ------------------------------------------------------------------ *)
(** ** C182 score distribution *)
(** The plot counts scores above each threshold; labels play no part. *)
Theorem C182_score_distribution :
  forall ap n weighted pk m o s scores w,
    1 <= n ->
    (forall e, In e (inputs s) ->
       has_scores pk m o e (map Fin (scores e)) /\ carries_weight weighted e [w e] /\ scores e <> [] /\
       forall q, In q (scores e) -> (0 <= q <= 1)%Qc) ->
    let D := weighted_scores scores w (inputs s) in
    exists rows,
      score_distribution_plot ap n None false None weighted pk m o s = Ok rows /\ length rows = n + 2 /\
      forall i, i < n + 2 -> exists r, nth_error rows i = Some r /\
        let t := plot_threshold n i in
        sr_tp r = qsum (map snd (filter (fun x => Qc_ltb t (fst x)) D)) /\
        sr_tn r = qsum (map snd (filter (fun x => Qc_leb (fst x) t) D)) /\
        sr_fp r = 0%Qc /\ sr_fn r = 0%Qc /\ sr_precision r = Fin 0%Qc /\ sr_recall r = Fin 0%Qc /\
        exists t', sr_threshold r = Fin t' /\ six_digits t t'.
Proof. exact C182_score_distribution_pf. Qed.

(** Two scores without labels: 1/2 (weight 3) and 4/5 (weight 1) for two thresholds. *)
Example C182_score_distribution_ex :
  let e q w := InputsDict None (Some (Dict [("m", Leaf [Fin q])])) (Some (Leaf [w])) in
  (let! rows := score_distribution_plot (fun _ _ => []) 2 None false None true "" "m" ""
                  (Merge (Bundle [e (Q2Qc (1 # 2)) (qz 3)]) [Bundle [e (Q2Qc (4 # 5)) 1%Qc]]) in
   Ok (map sr_tp rows, map sr_tn rows)) = Ok ([qz 4; qz 4; 1%Qc; 0%Qc], [0%Qc; 0%Qc; qz 3; qz 4]).
Proof. cbv zeta. qc_ex. Qed.

(* ------------------------------------------------------------------ *)
(** ** C183 score distributions that fail *)
(** A score above 1, scores under "probabilities" with no prediction key, and a model
    among several with a prediction key: the confusion matrices are plotted, the
    distribution of the scores is not. *)
Theorem C183_score_distribution_refuted :
  exists lk pk m s,
    (exists rows, confusion_matrix_plot (fun _ _ => []) 10 2 None false None false lk pk m "" s = Ok rows /\ length rows = 4) /\
    forall rows, score_distribution_plot (fun _ _ => []) 2 None false None false pk m "" s <> Ok rows.
Proof. exact C183_score_distribution_refuted_pf. Qed.

Theorem C183_probabilities_refuted :
  exists s,
    (exists rows, confusion_matrix_plot (fun _ _ => []) 10 2 None false None false "" "" "" "" s = Ok rows /\ length rows = 4) /\
    forall rows, score_distribution_plot (fun _ _ => []) 2 None false None false "" "" "" s <> Ok rows.
Proof. exact C183_probabilities_refuted_pf. Qed.

Theorem C183_prediction_key_refuted :
  exists s,
    (exists rows, confusion_matrix_plot (fun _ _ => []) 10 2 None false None false "" "p" "m1" "" s = Ok rows /\ length rows = 4) /\
    forall rows, score_distribution_plot (fun _ _ => []) 2 None false None false "p" "m1" "" s <> Ok rows.
Proof. exact C183_prediction_key_refuted_pf. Qed.

(* ------------------------------------------------------------------ *)
(** ** C184 calibration plots *)
(** The plot is made of n + 2 adjacent buckets from -inf to inf, and no weight is lost. *)
Theorem C184_calibration_plot :
  forall ap nb n left right c schema weighted lk pk m o s ex w l r,
    1 <= nb -> 1 <= n -> plot_ends left right c schema m o = Ok (l, r) -> (l < r)%Qc ->
    (forall e, In e (inputs s) -> plottable weighted (Qc_eqb l 0%Qc && Qc_eqb r 1%Qc) m o ex w e) ->
    let D := scored_of ex w (inputs s) in
    exists bs,
      calibration_plot ap nb n left right c schema None false None weighted lk pk m o s = Ok bs /\
      length bs = n + 2 /\
      (forall i, i < n + 2 -> exists b, nth_error bs i = Some b /\ sb_lower b = starts n l r i /\ sb_upper b = stops n l r i) /\
      qsum (map sb_labels bs) = qsum (map weighted_label D) /\
      qsum (map sb_examples bs) = qsum (map sc_weight D) /\
      ((forall x, In x D -> exists q, sc_score x = Fin q) ->
       fold_right num_plus (Fin 0%Qc) (map sb_predictions bs) = Fin (qsum (map weighted_score D))) /\
      (forall k, nb = n * k -> forall i, i < n + 2 -> exists b, nth_error bs i = Some b /\
         let E := filter (fun x => in_bucket n l r i (sc_score x)) D in
         sb_labels b = qsum (map weighted_label E) /\ sb_examples b = qsum (map sc_weight E) /\
         ((forall x, In x D -> exists q, sc_score x = Fin q) -> sb_predictions b = Fin (qsum (map weighted_score E)))).
Proof. exact C184_calibration_plot_pf. Qed.

(** Two buckets from 10 to 20: the labels, scores and weights of scores 5, 12, 15, 25. *)
Example C184_calibration_plot_ex :
  (let! bs := calibration_plot (fun _ _ => []) 4 2 (Some (qz 10)) (Some (qz 20)) None None None false None true "" "" "" ""
                (Merge (Bundle [plain 1 5 1; plain 11 12 2]) [Bundle [plain 16 15 1; plain 30 25 3]]) in
   Ok (map sb_lower bs, map sb_upper bs, map sb_labels bs, map sb_examples bs, map sb_predictions bs)) =
  Ok ([NegInf; Fin (qz 10); Fin (qz 15); Fin (qz 20)], [Fin (qz 10); Fin (qz 15); Fin (qz 20); PosInf],
      [1%Qc; qz 22; qz 16; qz 90], [1%Qc; qz 2; 1%Qc; qz 3], [Fin (qz 5); Fin (qz 24); Fin (qz 15); Fin (qz 75)]).
Proof. qc_ex. Qed.

(* ------------------------------------------------------------------ *)
(** ** C187 plotted buckets that are no union of buckets of the histogram *)
(** Three buckets out of ten: the score 0.35 is shown in the bucket that ends at 1/3. *)
Theorem C187_bucket_bounds_refuted :
  exists n s bs b q,
    calibration_plot (fun _ _ => []) 10 n None None None None None false None false "" "" "" "" s = Ok bs /\
    map i_prediction (inputs s) = [Some (Leaf [Fin q])] /\
    In b bs /\ sb_examples b = 1%Qc /\ num_leb (sb_upper b) (Fin q) = true.
Proof. exact C187_bucket_bounds_refuted_pf. Qed.

(** Every example is counted in the bucket of its own histogram bucket's lower edge. *)
Theorem C187_bucket_bounds_partial :
  forall ap nb n left right c schema weighted lk pk m o s ex w l r,
    1 <= nb -> 1 <= n -> plot_ends left right c schema m o = Ok (l, r) -> (l < r)%Qc ->
    (forall e, In e (inputs s) -> plottable weighted (Qc_eqb l 0%Qc && Qc_eqb r 1%Qc) m o ex w e) ->
    let D := scored_of ex w (inputs s) in
    exists bs,
      calibration_plot ap nb n left right c schema None false None weighted lk pk m o s = Ok bs /\
      forall i, i < n + 2 -> exists b (into : nat -> bool), nth_error bs i = Some b /\
        sb_examples b = qsum (map sc_weight (filter (fun x => into (bid nb l r (sc_score x))) D)) /\
        sb_labels b = qsum (map weighted_label (filter (fun x => into (bid nb l r (sc_score x))) D)) /\
        forall x, In x D -> into (bid nb l r (sc_score x)) = true ->
          num_leb (sb_lower b) (sc_score x) = true /\
          forall q, sc_score x = Fin q -> (q < r)%Qc -> num_ltb (Fin (q - (r - l) / qn nb)%Qc) (sb_upper b) = true.
Proof. exact C187_bucket_bounds_partial_pf. Qed.

Example C187_bucket_bounds_ex :
  (let! bs := calibration_plot (fun _ _ => []) 10 3 None None None None None false None false "" "" "" "" (Bundle [plain 1 (35 # 100) 1; plain 0 (45 # 100) 1]) in
   Ok (map sb_examples bs)) = Ok [0%Qc; 1%Qc; 1%Qc; 0%Qc; 0%Qc].
Proof. qc_ex. Qed.

(* ------------------------------------------------------------------ *)
(** ** C185 the range of a calibration plot *)
(** Ends given by the caller are used as they are; others come from the domain of the
    label, then from [0, 1]. *)
Theorem C185_ends_given : forall l r c schema m o, plot_ends (Some l) (Some r) c schema m o = Ok (l, r).
Proof. exact C185_ends_given_pf. Qed.

Theorem C185_ends_from_schema :
  forall left right c schema m o f, label_feature c schema m o f ->
    exists l r, plot_ends left right (Some c) (Some schema) m o = Ok (l, r) /\
      (forall x, left = Some x -> l = x) /\ (forall x, right = Some x -> r = x) /\
      (left = None -> forall x, lowest f = Some x -> l = x) /\ (right = None -> forall x, highest f = Some x -> r = x) /\
      (left = None -> lowest f = None -> l = 0%Qc) /\ (right = None -> highest f = None -> r = 1%Qc).
Proof. exact C185_ends_from_schema_pf. Qed.

Example C185_ends_from_schema_ex :
  label_feature one_model [Feature "x" NoDomain; Feature "label" (IntDomain (Some 1%Z) (Some 5%Z))] "" "" (Feature "label" (IntDomain (Some 1%Z) (Some 5%Z))) /\
  plot_ends None (Some (qz 4)) (Some one_model) (Some [Feature "x" NoDomain; Feature "label" (IntDomain (Some 1%Z) (Some 5%Z))]) "" "" = Ok (1%Qc, qz 4).
Proof. split; [apply label_feature_ex|]. vm_compute. repeat f_equal; apply Qc_is_canon; reflexivity. Qed.

(** A domain with a minimum only: the right end is 1 whatever the minimum is.  With
    minimum 1 no example can be plotted; with minimum 2 a score above the range is
    shown in the bucket below it. *)
Theorem C185_usable_range_refuted :
  (forall e, In e [plain 1 2 1; plain 3 (5 # 2) 1] ->
     calibration_plot (fun _ _ => []) 10 2 None None (Some one_model) (Some [Feature "label" (IntDomain (Some 1%Z) None)])
       None false None false "" "" "" "" (Bundle [e]) = Err ZeroDivisionError) /\
  exists bs b,
    calibration_plot (fun _ _ => []) 10 2 None None (Some one_model) (Some [Feature "label" (IntDomain (Some 2%Z) None)])
      None false None false "" "" "" "" (Bundle [plain 3 3 1]) = Ok bs /\
    In b bs /\ sb_lower b = NegInf /\ sb_upper b = Fin (qz 2) /\ sb_examples b = 1%Qc.
Proof. exact C185_usable_range_refuted_pf. Qed.

(* ------------------------------------------------------------------ *)
(** ** C186 confusion matrix plots of several object classes *)
(** Two classes plotted under the default name: the matrices are derived once, from the
    boxes of the first class, and both plots show them. *)
Theorem C186_classes_refuted :
  exists a b name sep,
    ma_class_id a <> ma_class_id b /\
    filter_and_separate_computations (detection_plot_computations a 1 name "" "" false ++ detection_plot_computations b 2 name "" "" false) = Ok sep /\
    map (fun c => cp_body (snd c)) (sp_base sep) = [CountHistogram a; CountHistogram b] /\
    map (fun c => cp_body (snd c)) (sp_derived sep) =
      [MatricesOf (plot_histogram_key a "" "" false); PlotOf (plot_matrices_key name "" "" false); PlotOf (plot_matrices_key name "" "" false)].
Proof. exact C186_classes_refuted_pf. Qed.

(** Plots with different names show the matrices of their own histogram. *)
Theorem C186_names_apart_partial :
  forall a b i j n1 n2 m o w, n1 <> n2 ->
    exists sep,
      filter_and_separate_computations (detection_plot_computations a i n1 m o w ++ detection_plot_computations b j n2 m o w) = Ok sep /\
      map (fun c => cp_body (snd c)) (sp_derived sep) =
        [MatricesOf (plot_histogram_key a m o w); PlotOf (plot_matrices_key n1 m o w);
         MatricesOf (plot_histogram_key b m o w); PlotOf (plot_matrices_key n2 m o w)].
Proof. exact C186_names_apart_partial_pf. Qed.

Example C186_names_apart_ex :
  (let! sep := filter_and_separate_computations (detection_plot_computations (MatchArguments "1" None None None None None None None false) 1 "cats" "" "" false ++
                                                 detection_plot_computations (MatchArguments "2" None None None None None None None false) 2 "dogs" "" "" false) in
   Ok (length (sp_derived sep))) = Ok 4%nat.
Proof. vm_compute. reflexivity. Qed.

(* ------------------------------------------------------------------ *)
(** ** C180 the counts of a confusion matrix plot *)
(** The exact counts, and that no weight is lost, at all thresholds. *)
Theorem C180_counts_partial :
  forall ap nb n weighted lk pk m o s ex w,
    1 <= nb -> 1 <= n -> (forall e, In e (inputs s) -> plottable weighted true m o ex w e) ->
    let D := scored_of ex w (inputs s) in
    exists rows,
      confusion_matrix_plot ap nb n None false None weighted lk pk m o s = Ok rows /\ length rows = n + 2 /\
      forall i, i < n + 2 -> exists r, nth_error rows i = Some r /\
        (exists t, sr_threshold r = Fin t /\ six_digits (plot_threshold n i) t) /\
        (sr_tp r + sr_fn r = qsum (map weighted_label D))%Qc /\
        (sr_fp r + sr_tn r = qsum (map weighted_negative D))%Qc /\
        forall k, nb = n * k -> (qn nb <= Q2Qc (10000000 # 1))%Qc ->
          sr_tp r = qsum (map weighted_label (filter (fun x => counted nb n i (sc_score x)) D)) /\
          sr_fp r = qsum (map weighted_negative (filter (fun x => counted nb n i (sc_score x)) D)).
Proof. exact C180_counts_partial_pf. Qed.

(** Two thresholds over ten buckets: the scores 0, 1/2, 11/20, 3/5 and 1. *)
Example C180_counts_ex :
  (let! rows := confusion_matrix_plot (fun _ _ => []) 10 2 None false None false "" "" "" ""
                  (Merge (Bundle [plain 1 0 1; plain 1 (1 # 2) 1]) [Bundle [plain 0 (11 # 20) 1; plain 1 (3 # 5) 1; plain 1 1 1]]) in
   Ok (map sr_tp rows, map sr_fp rows)) = Ok ([qz 4; qz 4; qz 2; 1%Qc], [1%Qc; 1%Qc; 0%Qc; 0%Qc]).
Proof. qc_ex. Qed.

(** Refuted: "the scores above the threshold are counted as positive".  The score 0.55
    is not counted at 0.5, while 0 is counted at 0, 1 at 1 and -5 at -1e-6. *)
Theorem C180_above_threshold_refuted :
  exists s rows,
    confusion_matrix_plot (fun _ _ => []) 10 2 None false None false "" "" "" "" s = Ok rows /\
    map i_prediction (inputs s) = map (fun q => Some (Leaf [Fin (Q2Qc q)])) [(-5) # 1; 0 # 1; 11 # 20; 1 # 1]%Q /\
    map sr_tp rows = [qz 4; qz 3; 1%Qc; 1%Qc].
Proof. exact C180_above_threshold_refuted_pf. Qed.

Example C181_f1_ex :
  (let! rows := to_proto (Matrices [Fin (Q2Qc (1 # 3))] [qz 3] [qz 4] [1%Qc] [qz 2]) in Ok (map sr_f1 rows)) = Ok [Fin (Q2Qc (2 # 3))].
Proof. qc_ex. Qed.

Print Assumptions C181_shown_rows.
Print Assumptions C181_f1_partial.
Print Assumptions C181_f1_refuted.
Print Assumptions C182_score_distribution.
Print Assumptions C183_score_distribution_refuted.
Print Assumptions C183_probabilities_refuted.
Print Assumptions C183_prediction_key_refuted.
Print Assumptions C184_calibration_plot.
Print Assumptions C187_bucket_bounds_refuted.
Print Assumptions C187_bucket_bounds_partial.
Print Assumptions C185_ends_given.
Print Assumptions C185_ends_from_schema.
Print Assumptions C185_usable_range_refuted.
Print Assumptions C186_classes_refuted.
Print Assumptions C186_names_apart_partial.
Print Assumptions C180_counts_partial.
Print Assumptions C180_above_threshold_refuted.
