(* Entropy *)
From Coq Require Import String Ascii Reals Qreals.
From Verif Require Import Base BaseFacts RealFacts Beam BeamFacts Util_Model Util_Main Inputs_Model Inputs_Main Sums_Model Sums_Main Histogram_Model Confusion_Model Means_Model Means_Main Entropy_Model.
From Verif Require Import Entropy_Main.
Local Open Scope string_scope.
Local Open Scope list_scope.

(* ------------------------------------------------------------------ *)
(** ** Extended numbers *)
(* ------------------------------------------------------------------ *)
(** ** C141 binary cross entropy *)
Theorem C141_binary_cross_entropy :
  forall (from_logits : bool) smoothing labels preds,
    length labels = length preds -> preds <> [] ->
    (from_logits = false -> forall p, In p preds -> (0 < p < 1)%Qc) ->
    binary_cross_entropy from_logits smoothing labels (map Fin preds) =
    Ok (XFin (Rsum (map (fun yp : Qc * Qc => bce (smoothed (Q2R smoothing) (Q2R (fst yp)))
                                       (if from_logits then sigmoid (Q2R (snd yp)) else Q2R (snd yp)))
                        (combine labels preds)) / INR (length preds))%R).
Proof. exact C141_binary_cross_entropy_pf. Qed.

Theorem C141_least_at_label :
  forall y p, (0 < p < 1)%R ->
    ((0 <= y <= 1)%R -> (0 <= bce y p)%R) /\ ((0 < y < 1)%R -> (bce y y <= bce y p)%R) /\
    (y = 1%R -> forall q, (0 < q <= p)%R -> (bce y p <= bce y q)%R).
Proof. exact C141_least_at_label_pf. Qed.

Example C141_example :
  binary_cross_entropy true 0%Qc [1%Qc; 0%Qc] [Fin 0%Qc; Fin 0%Qc] = Ok (XFin (ln 2)).
Proof.
  change [Fin 0%Qc; Fin 0%Qc] with (map Fin [0%Qc; 0%Qc]).
  rewrite C141_binary_cross_entropy; [|reflexivity|discriminate|discriminate].
  do 2 f_equal. unfold Rsum, smoothed, bce, sigmoid. cbn [combine map fold_right fst snd length INR].
  rewrite Q2R_0_c, Q2R_1_c, Ropp_0, exp_0. replace (1 - / (1 + 1))%R with (/ 2)%R by Lra.lra.
  replace (1 + 1)%R with 2%R by Lra.lra. rewrite ln_Rinv by Lra.lra. Lra.lra.
Qed.

(** The perfect prediction of a probability is NaN, not 0. *)
Theorem C141_perfect_prediction_refuted :
  exists y, (y = 1%Qc \/ y = 0%Qc) /\ binary_cross_entropy false 0%Qc [y] [Fin y] = Ok XNaN.
Proof. exact C141_perfect_prediction_refuted_pf. Qed.

(* ------------------------------------------------------------------ *)
(** ** C142 categorical cross entropy *)
Theorem C142_categorical_cross_entropy :
  forall (from_logits : bool) smoothing labels preds,
    length labels = length preds -> preds <> [] ->
    (from_logits = false -> forall p, In p preds -> (0 < p)%Qc) ->
    categorical_cross_entropy from_logits smoothing labels (map Fin preds) =
    Ok (XFin (cross_entropy (combine (map (smoothed_class (Q2R smoothing) (length preds)) (reals labels))
                                     (shares (likelihood from_logits) (reals preds))))).
Proof. exact C142_categorical_cross_entropy_pf. Qed.

Theorem C142_scale_of_predictions :
  forall smoothing labels preds c, length labels = length preds -> preds <> [] ->
    (0 < c)%Qc -> (forall p, In p preds -> (0 < p)%Qc) ->
    categorical_cross_entropy false smoothing labels (map (fun p => Fin (c * p)%Qc) preds) =
    categorical_cross_entropy false smoothing labels (map Fin preds).
Proof. exact C142_scale_of_predictions_pf. Qed.

Theorem C142_shift_of_logits :
  forall smoothing labels preds c, length labels = length preds -> preds <> [] ->
    categorical_cross_entropy true smoothing labels (map (fun p => Fin (c + p)%Qc) preds) =
    categorical_cross_entropy true smoothing labels (map Fin preds).
Proof. exact C142_shift_of_logits_pf. Qed.

(** The cross entropy of distributions is not negative and least for the label's
    own distribution. *)
Theorem C142_least_at_label :
  forall yq, (forall y q, In (y, q) yq -> (0 < y)%R /\ (0 < q)%R) -> Rsum (map fst yq) = 1%R -> Rsum (map snd yq) = 1%R ->
    (0 <= cross_entropy yq)%R /\ (cross_entropy (map (fun t => (fst t, fst t)) yq) <= cross_entropy yq)%R.
Proof. exact C142_least_at_label_pf. Qed.

Example C142_example :
  categorical_cross_entropy false 0%Qc [1%Qc; 0%Qc] [Fin (qz 1); Fin (qz 3)] = Ok (XFin (ln 4)).
Proof.
  change [Fin (qz 1); Fin (qz 3)] with (map Fin [qz 1; qz 3]).
  rewrite C142_categorical_cross_entropy; [|reflexivity|discriminate|].
  - do 2 f_equal. unfold cross_entropy, Rsum, shares, reals, smoothed_class, likelihood. cbn [combine map fold_right fst snd length INR].
    unfold Rsum. cbn [fold_right]. rewrite Q2R_0_c, Q2R_1_c, !Q2R_qz.
    replace (1 / (1 + (3 + 0)))%R with (/ 4)%R by Lra.lra. rewrite ln_Rinv by Lra.lra. Lra.lra.
  - intros _ p [<-|[<-|[]]]; vm_compute; reflexivity.
Qed.

(** Predicting that the true class is impossible costs nothing, predicting that it is
    likely does. *)
Theorem C142_impossible_class_refuted :
  exists labels wrong likely v, labels = [1%Qc; 0%Qc] /\ wrong = [0%Qc; 1%Qc] /\ likely = [Q2Qc (3#4); Q2Qc (1#4)] /\
    categorical_cross_entropy false 0%Qc labels (map Fin wrong) = Ok (XFin 0) /\
    categorical_cross_entropy false 0%Qc labels (map Fin likely) = Ok (XFin v) /\ (0 < v)%R.
Proof. exact C142_impossible_class_refuted_pf. Qed.

(** A class id is broadcast over the classes instead of selecting one: class 0 costs
    nothing whatever is predicted. *)
Theorem C142_sparse_label_refuted :
  exists preds one_hot_label v, one_hot [0%Qc] (length preds) = Ok one_hot_label /\
    categorical_cross_entropy false 0%Qc [0%Qc] (map Fin preds) = Ok (XFin 0) /\
    categorical_cross_entropy false 0%Qc one_hot_label (map Fin preds) = Ok (XFin v) /\ (0 < v)%R.
Proof. exact C142_sparse_label_refuted_pf. Qed.

(* ------------------------------------------------------------------ *)
(** ** C143 computing the categorical cross entropy leaves the predictions alone *)
(** It does for logits and for predictions that sum to one. *)
Theorem C143_predictions_kept_partial :
  forall (from_logits : bool) e preds, i_prediction e = Some (Leaf (map Fin preds)) ->
    from_logits = true \/ qsum preds = 1%Qc -> element_after from_logits e = e.
Proof. exact C143_predictions_kept_partial_pf. Qed.

Theorem C143_predictions_kept_refuted :
  exists e, let mean_absolute := regression_combiner ap_sort absolute_error (regression_options None false None false) "" "" "" "" in
    (exists v, outcome (entropy_combiner ap_sort (categorical_cross_entropy false 0%Qc) (entropy_options None false None false) "" "" "" "") (Bundle [e]) = Ok v) /\
    outcome mean_absolute (Bundle [e]) = Ok (Fin 0%Qc) /\
    outcome mean_absolute (Bundle [element_after false e]) = Ok (Fin (Q2Qc (3#2))).
Proof. exact C143_predictions_kept_refuted_pf. Qed.

(* ------------------------------------------------------------------ *)
(** ** Weighted means of extended numbers *)
(* ------------------------------------------------------------------ *)
(** ** C144 the mean cross entropy *)
Theorem C144_mean_cross_entropy_partial :
  forall ap loss weighted lk pk m o s v w,
    (forall e, In e (inputs s) -> charged loss weighted m o (v e) (w e) e) -> merge_free s ->
    total_weight w (inputs s) <> 0%Qc ->
    outcome (entropy_combiner ap loss (entropy_options None false None weighted) lk pk m o) s =
    Ok (XFin (total_loss v w (inputs s) / Q2R (total_weight w (inputs s)))).
Proof. exact C144_mean_cross_entropy_partial_pf. Qed.

Theorem C144_mean_cross_entropy_within :
  forall ap loss weighted lk pk m o s v w lo hi,
    (forall e, In e (inputs s) -> charged loss weighted m o (v e) (w e) e /\ (0 <= w e)%Qc /\ (lo <= v e <= hi)%R) ->
    (exists e, In e (inputs s) /\ w e <> 0%Qc) ->
    exists r, outcome (entropy_combiner ap loss (entropy_options None false None weighted) lk pk m o) s = Ok (XFin r) /\ (lo <= r <= hi)%R.
Proof. exact C144_mean_cross_entropy_within_pf. Qed.

Example C144_example :
  outcome (entropy_combiner ap_sort (binary_cross_entropy false 0%Qc) (entropy_options None false None true) "" "" "" "") (Bundle half_quarter)
  = Ok (XFin (3 / 2 * ln 2)).
Proof. exact half_quarter_mean. Qed.

(** Merging accumulators counts the first one twice. *)
Theorem C144_schedule_refuted :
  exists s1 s2, Permutation (inputs s1) (inputs s2) /\
    (forall e, In e (inputs s1) -> charged (binary_cross_entropy false 0%Qc) true "" "" (certain_loss e) 1%Qc e) /\
    outcome (entropy_combiner ap_sort (binary_cross_entropy false 0%Qc) (entropy_options None false None true) "" "" "" "") s1
      = Ok (XFin (3 / 2 * ln 2)) /\
    outcome (entropy_combiner ap_sort (binary_cross_entropy false 0%Qc) (entropy_options None false None true) "" "" "" "") s2
      = Ok (XFin (4 / 3 * ln 2)) /\ (3 / 2 * ln 2 <> 4 / 3 * ln 2)%R.
Proof. exact C144_schedule_refuted_pf. Qed.

(* ------------------------------------------------------------------ *)
(** ** C145 mean squared logarithmic error *)
Theorem C145_mean_log_error_partial :
  forall ap weighted lk pk m o s ex w,
    (forall e, In e (inputs s) -> holds_above weighted m o (ex e) (w e) e) -> merge_free s ->
    let D := observations ex w (inputs s) in
    exists v, outcome (log_error_combiner ap (regression_options None false None weighted) lk pk m o) s = Ok v /\
      (log_weight D = 0%Qc -> v = XNaN) /\
      (log_weight D <> 0%Qc -> v = XFin (log_total D / Q2R (log_weight D))).
Proof. exact C145_mean_log_error_partial_pf. Qed.

Theorem C145_mean_log_error_within :
  forall ap weighted lk pk m o s ex w lo hi,
    (forall e, In e (inputs s) -> holds_above weighted m o (ex e) (w e) e /\ (0 <= w e)%Qc) ->
    let D := observations ex w (inputs s) in
    (exists x, In x D /\ ob_weight x <> 0%Qc) ->
    (forall x, In x D -> (lo <= log_error x <= hi)%R) ->
    exists r, outcome (log_error_combiner ap (regression_options None false None weighted) lk pk m o) s = Ok (XFin r) /\ (lo <= r <= hi)%R.
Proof. exact C145_mean_log_error_within_pf. Qed.

(** With positive weights the error is never negative, and it is zero just when every
    score equals its label. *)
Theorem C145_zero_just_for_equal :
  forall ap weighted lk pk m o s ex w,
    (forall e, In e (inputs s) -> holds_above weighted m o (ex e) (w e) e /\ (0 < w e)%Qc) -> inputs s <> [] ->
    exists r, outcome (log_error_combiner ap (regression_options None false None weighted) lk pk m o) s = Ok (XFin r) /\ (0 <= r)%R /\
      (r = 0%R <-> forall e l p, In e (inputs s) -> In (l, p) (ex e) -> l = p).
Proof. exact C145_zero_just_for_equal_pf. Qed.

(** Labels 0 and scores 1 and 3: the errors are ln 2 and 2 ln 2. *)
Theorem C145_schedule_refuted :
  exists s1 s2, Permutation (inputs s1) (inputs s2) /\
    (forall e, In e (inputs s1) -> holds_above true "" "" (zero_pair e) 1%Qc e) /\
    outcome (log_error_combiner ap_sort (regression_options None false None true) "" "" "" "") s1 = Ok (XFin (5 / 2 * Rsqr (ln 2))) /\
    outcome (log_error_combiner ap_sort (regression_options None false None true) "" "" "" "") s2 = Ok (XFin (2 * Rsqr (ln 2))) /\
    (5 / 2 * Rsqr (ln 2) <> 2 * Rsqr (ln 2))%R.
Proof. exact C145_schedule_refuted_pf. Qed.

(* ------------------------------------------------------------------ *)
(** ** C146 cosine similarity of two models *)
Theorem C146_cosine_range :
  forall a b, length a = length b -> (exists x, In x a /\ x <> 0%R) -> (exists y, In y b /\ y <> 0%R) -> (-1 <= cosine a b <= 1)%R.
Proof. exact C146_cosine_range_pf. Qed.

(** Of vectors of the same direction it is 1, of opposite ones -1, and the order does not matter. *)
Theorem C146_cosine_direction :
  forall a c, (exists x, In x a /\ x <> 0%R) ->
    ((0 < c)%R -> cosine a (map (Rmult c) a) = 1%R) /\ ((c < 0)%R -> cosine a (map (Rmult c) a) = (-1)%R).
Proof. exact C146_cosine_direction_pf. Qed.

Theorem C146_cosine_symmetric : forall a b, length a = length b -> cosine a b = cosine b a.
Proof. exact C146_cosine_symmetric_pf. Qed.

Theorem C146_mean_similarity_partial :
  forall ap lb pb base lk pk m o s f,
    (forall e, In e (inputs s) -> outputs_of base m o e (f e)) -> merge_free s -> inputs s <> [] ->
    outcome (cosine_combiner ap lb pb base lk pk m o) s =
    Ok (XFin (Rsum (map (fun e => similarity (f e)) (inputs s)) / INR (length (inputs s)))).
Proof. exact C146_mean_similarity_partial_pf. Qed.

(** Whatever the schedule it lies between bounds of the similarities of the examples,
    so it is 1 for models that agree up to positive factors. *)
Theorem C146_mean_similarity_within :
  forall ap lb pb base lk pk m o s f lo hi,
    (forall e, In e (inputs s) -> outputs_of base m o e (f e) /\ (lo <= similarity (f e) <= hi)%R) -> inputs s <> [] ->
    exists r, outcome (cosine_combiner ap lb pb base lk pk m o) s = Ok (XFin r) /\ (lo <= r <= hi)%R /\ (-1 <= r <= 1)%R.
Proof. exact C146_mean_similarity_within_pf. Qed.

Example C146_example :
  outcome (cosine_combiner ap_sort "" "" "b" "" "" "m" "") (Bundle same_and_opposite) = Ok (XFin 0).
Proof. exact same_and_opposite_mean. Qed.

Theorem C146_schedule_refuted :
  exists s1 s2, Permutation (inputs s1) (inputs s2) /\
    (forall e, In e (inputs s1) -> outputs_of "b" "m" "" e (model_outputs e)) /\
    outcome (cosine_combiner ap_sort "" "" "b" "" "" "m" "") s1 = Ok (XFin 0) /\
    outcome (cosine_combiner ap_sort "" "" "b" "" "" "m" "") s2 = Ok (XFin (1 / 3)).
Proof. exact C146_schedule_refuted_pf. Qed.

Print Assumptions C141_binary_cross_entropy.
Print Assumptions C141_least_at_label.
Print Assumptions C141_perfect_prediction_refuted.
Print Assumptions C142_categorical_cross_entropy.
Print Assumptions C142_scale_of_predictions.
Print Assumptions C142_shift_of_logits.
Print Assumptions C142_least_at_label.
Print Assumptions C142_impossible_class_refuted.
Print Assumptions C142_sparse_label_refuted.
Print Assumptions C143_predictions_kept_partial.
Print Assumptions C143_predictions_kept_refuted.
Print Assumptions C144_mean_cross_entropy_partial.
Print Assumptions C144_mean_cross_entropy_within.
Print Assumptions C144_schedule_refuted.
Print Assumptions C145_mean_log_error_partial.
Print Assumptions C145_mean_log_error_within.
Print Assumptions C145_zero_just_for_equal.
Print Assumptions C145_schedule_refuted.
Print Assumptions C146_cosine_range.
Print Assumptions C146_cosine_direction.
Print Assumptions C146_cosine_symmetric.
Print Assumptions C146_mean_similarity_partial.
Print Assumptions C146_mean_similarity_within.
Print Assumptions C146_schedule_refuted.
