(* Rates *)
From Coq Require Import String Reals.
From Verif Require Import Base BaseFacts RealFacts Beam BeamFacts Inputs_Model Inputs_Main Means_Model Histogram_Model Histogram_Main Confusion_Model Confusion_Main Rates_Model.
From Verif Require Import Rates_Main.
Local Open Scope string_scope.
Local Open Scope list_scope.

(* ------------------------------------------------------------------ *)
(** ** C40 *)
(** Every rate is the stated fraction of the four cells, hence NaN or between 0 and 1. *)
Theorem C40_rates : forall r tp tn fp fn,
  (0 <= tp -> 0 <= tn -> 0 <= fp -> 0 <= fn ->
   fraction (top r true tp fp + top r false fn tn) (bottom r true tp fp + bottom r false fn tn) (reported r tp tn fp fn))%Qc.
Proof. exact C40_rates_pf. Qed.

Example C40_rates_ex : map (fun r => reported r (qz 3) (qz 5) 1%Qc 1%Qc) [Accuracy; Precision; Specificity; F1] =
  [Fin (Q2Qc (4#5)); Fin (Q2Qc (3#4)); Fin (Q2Qc (5#6)); Fin (Q2Qc (3#4))] /\ reported Precision 0%Qc 1%Qc 0%Qc 1%Qc = NaN.
Proof. split; qc_ex. Qed.

Theorem C40_complements : forall tp tn fp fn,
  complementary (precision tp fp) (false_discovery_rate tp fp) /\
  complementary (recall tp fn) (miss_rate tp fn) /\
  complementary (specificity tn fp) (fall_out tn fp) /\
  complementary (negative_predictive_value tn fn) (false_omission_rate tn fn).
Proof. exact C40_complements_pf. Qed.

Example C40_complements_ex : precision (qz 3) 1%Qc = Fin (Q2Qc (3#4)) /\ false_discovery_rate (qz 3) 1%Qc = Fin (Q2Qc (1#4)).
Proof. split; qc_ex. Qed.

(** F1 is the harmonic mean of precision and recall, balanced accuracy the mean of recall
    and specificity. *)
Theorem C40_means : forall tp tn fp fn,
  (0 <= tp -> 0 <= tn -> 0 <= fp -> 0 <= fn ->
   (forall p r, precision tp fp = Fin p -> recall tp fn = Fin r -> exists f, f1_score tp fp fn = Fin f /\ f * (p + r) = qz 2 * p * r /\ (p + r = 0 -> f = 0)) /\
   (forall r s, recall tp fn = Fin r -> specificity tn fp = Fin s -> exists b, balanced_accuracy tp tn fp fn = Fin b /\ qz 2 * b = r + s /\ 0 <= b <= 1) /\
   (recall tp fn = NaN \/ specificity tn fp = NaN -> balanced_accuracy tp tn fp fn = NaN))%Qc.
Proof. exact C40_means_pf. Qed.

Example C40_means_ex : f1_score (qz 3) 1%Qc (qz 3) = Fin (Q2Qc (3#5)) /\ balanced_accuracy (qz 3) (qz 3) 1%Qc (qz 3) = Fin (Q2Qc (5#8)).
Proof. split; qc_ex. Qed.

Theorem C40_on_data : forall ap ths limit weighted lk pk m o s ex w,
  NoDup ths -> 1 <= limit ->
  (forall e, In e (inputs s) -> well_formed weighted true m o ex w (snd e)) ->
  let D := scored_of ex w (map snd (inputs s)) in
  (forall x, In x D -> valid_example x) ->
  exists cm xm,
    outcome (confusion_combiner ap ths limit (histogram_options None false weighted true None) lk pk m o) s = Ok (cm, xm) /\
    forall r i, i < length ths -> at_threshold NaN (metric_value (reported r) cm) (length ths) i (data_fraction r (nth i ths NaN) D).
Proof. exact C40_on_data_pf. Qed.

Example C40_on_data_ex :
  (let! r := outcome (confusion_combiner ap_sort [Fin (Q2Qc (1#2)); Fin (Q2Qc (3#4))] 2
      (histogram_options None false true true None) "" "" "" "")
    (Merge (Bundle [(Some "a", plain 1 (97#100) 2)])
       [Bundle [(Some "b", plain 1 (52#100) 4); (Some "c", plain 1 (45#100) 8)]; Then (Bundle []) [(None, plain (1#4) (7#10) 4)]]) in
   Ok (metric_value (reported Precision) (fst r), metric_value (reported Recall) (fst r))) =
  Ok (Array [Fin (Q2Qc (7#10)); Fin 1%Qc], Array [Fin (Q2Qc (7#15)); Fin (Q2Qc (2#15))]).
Proof. qc_ex. Qed.

(* ------------------------------------------------------------------ *)
(** ** C42 *)
Theorem C42_best_under_constraint : forall a m n, regular m n ->
  (forall s, exists r, compute a (Float (Fin s)) m = Ok (Single r) /\ best a m n s r) /\
  (forall ss, exists rs, compute a (Floats (map Fin ss)) m = Ok (Array rs) /\ Forall2 (best a m n) ss rs).
Proof. exact C42_best_under_constraint_pf. Qed.

Example C42_best_ex :
  regular three 3 /\
  compute SensitivityAtSpecificity (Float (Fin (Q2Qc (1#2)))) three = Ok (Single (Fin (Q2Qc (1#2)))) /\
  compute RecallAtPrecision (Floats [Fin (Q2Qc (1#3)); Fin 1%Qc; Fin (qz 2)]) three = Ok (Array [Fin 1%Qc; Fin (Q2Qc (1#2)); Fin 0%Qc]) /\
  compute ThresholdAtRecall (Float (Fin (Q2Qc (1#4)))) three = Ok (Single (Fin (Q2Qc (1#2)))).
Proof.
  split; [|split; [qc_ex|split; qc_ex]]. repeat (split; [reflexivity|]).
  intros [|[|[|]]] I; try lia; cbn; repeat split; discriminate.
Qed.

(* ------------------------------------------------------------------ *)
(** ** C95 *)
Theorem C95_constraint_forms_refuted :
  (forall a z m, in_range (Int z) -> accepted a (Int z) m = Err TypeError) /\
  (forall vs m, accepted RecallAtPrecision (Floats vs) m = Err TypeError /\ accepted RecallAtFalsePositiveRate (Floats vs) m = Err TypeError) /\
  (exists v m r, ~ in_range v /\ accepted SensitivityAtSpecificity v m = Ok r).
Proof. exact C95_constraint_forms_refuted_pf. Qed.

Example C95_constraint_forms_ex : in_range (Int 1) /\ accepted PrecisionAtRecall (Int 1) three = Err TypeError /\ accepted PrecisionAtRecall (Float (Fin 1%Qc)) three = Ok (Single (Fin (Q2Qc (1#2)))).
Proof. split; [cbn; lia|]. split; [reflexivity|qc_ex]. Qed.

(** Floats in range are accepted by every metric, lists of them by four. *)
Theorem C95_constraint_forms_partial : forall a q qs m,
  ((0 <= q <= 1)%Qc -> exists r, accepted a (Float (Fin q)) m = Ok (Single r)) /\
  (a <> RecallAtPrecision -> a <> RecallAtFalsePositiveRate -> (forall q, In q qs -> (0 <= q <= 1)%Qc) ->
   exists rs, accepted a (Floats (map Fin qs)) m = Ok (Array rs) /\ length rs = length qs).
Proof. exact C95_constraint_forms_partial_pf. Qed.

Example C95_constraint_forms_partial_ex : accepted PrecisionAtRecall (Floats [Fin (Q2Qc (1#2)); Fin 1%Qc]) three = Ok (Array [Fin 1%Qc; Fin (Q2Qc (1#2))]).
Proof. qc_ex. Qed.

(* ------------------------------------------------------------------ *)
(** ** C93 *)
(** Matthews' coefficient is between -1 and 1, has the sign of tp tn - fp fn, and its
    square is informedness times markedness; undefined iff a row or column is empty. *)
Theorem C93_matthews : forall tp tn fp fn, (0 <= tp -> 0 <= tn -> 0 <= fp -> 0 <= fn ->
  ((tp + fp = 0 \/ tp + fn = 0 \/ tn + fp = 0 \/ tn + fn = 0) /\ matthews tp tn fp fn = Ok None) \/
  exists r i k, matthews tp tn fp fn = Ok (Some r) /\ (-1 <= r <= 1)%R /\
    informedness tp tn fp fn = Fin i /\ markedness tp tn fp fn = Fin k /\
    (r * r = Q2R (i * k)%Qc)%R /\ -(1) <= i <= 1 /\ -(1) <= k <= 1 /\
    ((0 <= r)%R <-> fp * fn <= tp * tn) /\ ((r <= 0)%R <-> tp * tn <= fp * fn))%Qc.
Proof. exact C93_matthews_pf. Qed.

Example C93_matthews_ex : matthews 1%Qc 1%Qc 0%Qc 0%Qc = Ok (Some 1%R) /\ informedness (qz 3) (qz 2) (qz 2) 1%Qc = Fin (Q2Qc (1#4)) /\ markedness (qz 3) (qz 2) (qz 2) 1%Qc = Fin (Q2Qc (4#15)).
Proof.
  split; [|split; qc_ex]. unfold matthews.
  assert (E : ((1 + 0) * (1 + 0) * (1 + 0) * (1 + 0))%Qc = 1%Qc) by ring. rewrite E.
  assert (F : (1 * 1 - 0 * 0)%Qc = 1%Qc) by ring. rewrite F. cbn. do 2 f_equal. unfold real. rewrite Q2R_1_c, sqrt_1. field.
Qed.

(** The Fowlkes-Mallows index is the geometric mean of precision and recall. *)
Theorem C93_fowlkes_mallows : forall tp fp fn, (0 <= tp -> 0 <= fp -> 0 <= fn ->
  ((precision tp fp = NaN \/ recall tp fn = NaN) /\ fowlkes_mallows tp fp fn = Ok None) \/
  exists r p q, fowlkes_mallows tp fp fn = Ok (Some r) /\ precision tp fp = Fin p /\ recall tp fn = Fin q /\
    (r * r = Q2R (p * q)%Qc /\ 0 <= r <= 1)%R)%Qc.
Proof. exact C93_fowlkes_mallows_pf. Qed.

Example C93_fowlkes_mallows_ex : precision (qz 3) 0%Qc = Fin 1%Qc /\ fowlkes_mallows (qz 3) 0%Qc 0%Qc = Ok (Some 1%R) /\ fowlkes_mallows 0%Qc 0%Qc (qz 3) = Ok None.
Proof.
  split; [qc_ex|]. split; [|reflexivity]. unfold fowlkes_mallows.
  assert (E : (qz 3 + 0)%Qc = qz 3) by ring. rewrite E. replace (Qc_ltb 0%Qc (qz 3)) with true by reflexivity. cbn [andb].
  assert (F : (qz 3 / qz 3 * (qz 3 / qz 3))%Qc = 1%Qc) by (field; discriminate). rewrite F. rewrite pos_sqrt_ok by discriminate. cbn [bind]. do 2 f_equal. rewrite Q2R_1_c. apply sqrt_1.
Qed.

(* ------------------------------------------------------------------ *)
(** ** C94 *)
(** The likelihood ratios are quotients of rates; the diagnostic odds ratio is their
    quotient and (tp tn) / (fp fn). *)
Theorem C94_likelihood_ratios : forall tp tn fp fn, (0 <= tp -> 0 <= tn -> 0 <= fp -> 0 <= fn ->
  (forall l, positive_likelihood_ratio tp tn fp fn = Fin l <-> exists r f, recall tp fn = Fin r /\ fall_out tn fp = Fin f /\ f <> 0 /\ l * f = r) /\
  (forall l, negative_likelihood_ratio tp tn fp fn = Fin l <-> exists r f, miss_rate tp fn = Fin r /\ specificity tn fp = Fin f /\ f <> 0 /\ l * f = r) /\
  (forall d, diagnostic_odds_ratio tp tn fp fn = Fin d -> 0 <= d /\ d * (fp * fn) = tp * tn /\
     exists p q, positive_likelihood_ratio tp tn fp fn = Fin p /\ negative_likelihood_ratio tp tn fp fn = Fin q /\ 0 < q /\ d * q = p) /\
  (fp <> 0 -> fn <> 0 -> tn <> 0 -> exists d, diagnostic_odds_ratio tp tn fp fn = Fin d))%Qc.
Proof. exact C94_likelihood_ratios_pf. Qed.

Example C94_likelihood_ratios_ex : positive_likelihood_ratio (qz 3) (qz 3) 1%Qc 1%Qc = Fin (qz 3) /\ negative_likelihood_ratio (qz 3) (qz 3) 1%Qc 1%Qc = Fin (Q2Qc (1#3)) /\ diagnostic_odds_ratio (qz 3) (qz 3) 1%Qc 1%Qc = Fin (qz 9).
Proof. repeat split; qc_ex. Qed.

(* ------------------------------------------------------------------ *)
(** ** C99 *)
(** The prevalence threshold stops the evaluation when recall and specificity sum to one,
    for instance when every prediction is above the threshold. *)
Theorem C99_prevalence_threshold_refuted :
  (forall tp fp, (0 < tp -> 0 < fp -> prevalence_threshold tp 0 fp 0 = Err ZeroDivisionError)%Qc) /\
  (forall tn fn, (0 < tn -> 0 < fn -> prevalence_threshold 0 tn 0 fn = Err ZeroDivisionError)%Qc).
Proof. exact C99_prevalence_threshold_refuted_pf. Qed.

Example C99_prevalence_threshold_ex : prevalence_threshold (qz 2) 0%Qc (qz 3) 0%Qc = Err ZeroDivisionError /\ recall (qz 2) 0%Qc = Fin 1%Qc /\ specificity 0%Qc (qz 3) = Fin 0%Qc.
Proof. split; [|split; qc_ex]. apply C99_prevalence_threshold_refuted; reflexivity. Qed.

(** Otherwise it is sqrt(fpr) / (sqrt(tpr) + sqrt(fpr)). *)
Theorem C99_prevalence_threshold_partial : forall tp tn fp fn, (0 <= tp -> 0 <= tn -> 0 <= fp -> 0 <= fn ->
  ((recall tp fn = NaN \/ fall_out tn fp = NaN) /\ prevalence_threshold tp tn fp fn = Ok None) \/
  exists a b, recall tp fn = Fin a /\ fall_out tn fp = Fin b /\
    (a <> b -> exists r, prevalence_threshold tp tn fp fn = Ok (Some r) /\ (0 <= r <= 1)%R /\
       (r * (sqrt (Q2R a) + sqrt (Q2R b)) = sqrt (Q2R b))%R))%Qc.
Proof. exact C99_prevalence_threshold_partial_pf. Qed.

Example C99_prevalence_threshold_partial_ex : prevalence_threshold 1%Qc 1%Qc 0%Qc 0%Qc = Ok (Some 0%R).
Proof.
  destruct (C99_prevalence_threshold_partial 1%Qc 1%Qc 0%Qc 0%Qc) as [[[H|H] _]|(a & b & A & B & H)]; try discriminate.
  injection A as <-. injection B as <-. destruct H as (r & E & _ & F); [discriminate|]. rewrite E. do 2 f_equal.
  assert (Z : (0 / (0 + 1))%Qc = 0%Qc) by (apply Qc_is_canon; reflexivity). assert (O : (1 / (1 + 0))%Qc = 1%Qc) by (apply Qc_is_canon; reflexivity).
  rewrite Z, O in F. rewrite Q2R_0_c, Q2R_1_c, sqrt_0, sqrt_1 in F. Lra.lra.
Qed.

(* ------------------------------------------------------------------ *)
(** ** C41 *)
Theorem C41_roc_auc : forall m n P N, regular m n -> same_data m n P N -> stricter m n ->
  exists low mid high, auc ROC Minoring m = Exact (Fin low) /\ auc ROC Interpolation m = Exact (Fin mid) /\ auc ROC Majoring m = Exact (Fin high) /\
    (0 <= low /\ low <= mid /\ mid <= high /\ high <= 1)%Qc.
Proof. exact C41_roc_auc_pf. Qed.

Example C41_roc_auc_ex : regular three 3 /\ same_data three 3 (qz 2) (qz 2) /\ stricter three 3 /\
  auc ROC Minoring three = Exact (Fin (Q2Qc (1#2))) /\ auc ROC Interpolation three = Exact (Fin (Q2Qc (3#4))) /\ auc ROC Majoring three = Exact (Fin 1%Qc).
Proof.
  split; [apply C42_best_ex|]. split; [intros [|[|[|]]] I; try lia; split; apply Qc_is_canon; reflexivity|].
  split; [intros [|[|[|]]] [|[|[|]]] I; try lia; split; discriminate|]. repeat split; qc_ex.
Qed.

Theorem C41_roc_auc_on_data : forall ap ths limit weighted lk pk m o s ex w,
  NoDup ths -> ascending_thresholds ths -> 1 <= limit ->
  (forall e, In e (inputs s) -> well_formed weighted true m o ex w (snd e)) ->
  (forall x, In x (scored_of ex w (map snd (inputs s))) -> valid_example x) ->
  exists cm xm low mid high,
    outcome (confusion_combiner ap ths limit (histogram_options None false weighted true None) lk pk m o) s = Ok (cm, xm) /\
    auc ROC Minoring cm = Exact (Fin low) /\ auc ROC Interpolation cm = Exact (Fin mid) /\ auc ROC Majoring cm = Exact (Fin high) /\
    (0 <= low /\ low <= mid /\ mid <= high /\ high <= 1)%Qc.
Proof. exact C41_roc_auc_on_data_pf. Qed.

Example C41_roc_auc_on_data_ex :
  (let! r := outcome (confusion_combiner ap_sort [Fin (Q2Qc (-1#10)); Fin (Q2Qc (1#2)); Fin 1%Qc] 2
      (histogram_options None false true true None) "" "" "" "")
    (Merge (Bundle [(Some "a", plain 1 (97#100) 2)])
       [Bundle [(Some "b", plain 0 (52#100) 4); (Some "c", plain 1 (45#100) 8)]; Then (Bundle []) [(None, plain (1#4) (1#10) 4)]]) in
   Ok (map (fun s => auc ROC s (fst r)) [Minoring; Interpolation; Majoring])) =
  Ok [Exact (Fin (Q2Qc (6#77))); Exact (Fin (Q2Qc (47#154))); Exact (Fin (Q2Qc (41#77)))].
Proof. qc_ex. Qed.

(* ------------------------------------------------------------------ *)
(** ** C97 *)
(** ROC AUC is the weight of the pairs of a positive and a negative ranked correctly,
    seen through the thresholds: minoring counts the pairs with a threshold between them in
    the right order, majoring those without a threshold between them in the wrong order,
    interpolation is their mean. *)
Theorem C97_concordance : forall ap ths limit weighted lk pk m o s ex w,
  NoDup ths -> ascending_thresholds ths -> 1 <= limit ->
  (forall e, In e (inputs s) -> well_formed weighted true m o ex w (snd e)) ->
  let D := scored_of ex w (map snd (inputs s)) in
  let P := qsum (map (fun x => sc_weight x * sc_label x)%Qc D) in
  let N := qsum (map (fun x => sc_weight x * (1 - sc_label x))%Qc D) in
  (forall x, In x D -> valid_example x) -> P <> 0%Qc -> N <> 0%Qc -> covered ths D ->
  exists cm xm low mid high,
    outcome (confusion_combiner ap ths limit (histogram_options None false weighted true None) lk pk m o) s = Ok (cm, xm) /\
    auc ROC Minoring cm = Exact (Fin low) /\ auc ROC Interpolation cm = Exact (Fin mid) /\ auc ROC Majoring cm = Exact (Fin high) /\
    (low * (P * N))%Qc = pairs (fun x y => separates ths (sc_score y) (sc_score x)) D /\
    (high * (P * N))%Qc = pairs (fun x y => negb (separates ths (sc_score x) (sc_score y))) D /\
    (qz 2 * mid = low + high)%Qc.
Proof. exact C97_concordance_pf. Qed.

(** In terms of scores: minoring and majoring enclose the probability of ranking a random
    positive above a random negative, whichever way ties are counted; interpolation gives
    it with ties counted half when the thresholds separate the scores. *)
Theorem C97_mann_whitney : forall ap ths limit weighted lk pk m o s ex w,
  NoDup ths -> ascending_thresholds ths -> 1 <= limit ->
  (forall e, In e (inputs s) -> well_formed weighted true m o ex w (snd e)) ->
  let D := scored_of ex w (map snd (inputs s)) in
  let P := qsum (map (fun x => sc_weight x * sc_label x)%Qc D) in
  let N := qsum (map (fun x => sc_weight x * (1 - sc_label x))%Qc D) in
  (forall x, In x D -> valid_example x) -> P <> 0%Qc -> N <> 0%Qc -> covered ths D ->
  let above := pairs (fun x y => num_ltb (sc_score y) (sc_score x)) D in
  let tied := pairs (fun x y => num_eqb (sc_score y) (sc_score x)) D in
  exists cm xm low mid high,
    outcome (confusion_combiner ap ths limit (histogram_options None false weighted true None) lk pk m o) s = Ok (cm, xm) /\
    auc ROC Minoring cm = Exact (Fin low) /\ auc ROC Interpolation cm = Exact (Fin mid) /\ auc ROC Majoring cm = Exact (Fin high) /\
    (low * (P * N) <= above)%Qc /\ (above + tied <= high * (P * N))%Qc /\
    ((forall x y, In x D -> In y D -> num_ltb (sc_score x) (sc_score y) = true -> separates ths (sc_score x) (sc_score y) = true) ->
     (qz 2 * (mid * (P * N)) = qz 2 * above + tied)%Qc).
Proof. exact C97_mann_whitney_pf. Qed.

(** Positives at 0.9 and 0.4, negatives at 0.6 and 0.4: of the four pairs two are ranked
    right and one is tied. *)
Example C97_mann_whitney_ex :
  (let! r := outcome (confusion_combiner ap_sort [Fin 0%Qc; Fin (Q2Qc (1#2)); Fin (Q2Qc (7#10)); Fin 1%Qc] 2
      (histogram_options None false true true None) "" "" "" "")
    (Bundle [(None, plain 1 (9#10) 1); (None, plain 0 (6#10) 1); (None, plain 1 (4#10) 1); (None, plain 0 (4#10) 1)]) in
   Ok (map (fun s => auc ROC s (fst r)) [Minoring; Interpolation; Majoring])) =
  Ok [Exact (Fin (Q2Qc (1#2))); Exact (Fin (Q2Qc (5#8))); Exact (Fin (Q2Qc (3#4)))].
Proof. qc_ex. Qed.

(* ------------------------------------------------------------------ *)
(** ** C96 *)
Theorem C96_pr_auc_ordered_refuted :
  exists m n P N, regular m n /\ same_data m n P N /\ stricter m n /\ P <> 0%Qc /\
    auc PR Majoring m = Exact (Fin 0%Qc) /\ auc PR Interpolation m = Interpolated 1.
Proof. exact C96_pr_auc_ordered_refuted_pf. Qed.

(** The estimates of the area under the precision-recall curve lie in [0, 1], minoring is
    at most majoring, and interpolation is between them if something is predicted positive
    at every threshold. *)
Theorem C96_pr_auc_partial : forall m n P N, regular m n -> same_data m n P N -> stricter m n ->
  exists low high mid, auc PR Minoring m = Exact (Fin low) /\ auc PR Majoring m = Exact (Fin high) /\ auc PR Interpolation m = Interpolated mid /\
    (0 <= low /\ low <= high /\ high <= 1)%Qc /\ (0 <= mid <= 1)%R /\
    ((forall i, i < n -> (0 < tp_at m i + fp_at m i)%Qc) -> (Q2R low <= mid <= Q2R high)%R).
Proof. exact C96_pr_auc_partial_pf. Qed.

Example C96_pr_auc_ex : auc PR Minoring three = Exact (Fin (Q2Qc (1#4))) /\ auc PR Majoring three = Exact (Fin (Q2Qc (1#2))).
Proof. split; qc_ex. Qed.

(* ------------------------------------------------------------------ *)
(** ** C98 *)
(** The documented handling of AUC's thresholds: num_thresholds is ignored if thresholds
    are given, and the endpoints {-epsilon, 1+epsilon} are added to given thresholds.
    Instead thresholds are used as they are; num_thresholds is an error or, for two values,
    replaces them; and a single threshold, as is the default with top_k, makes every area 0. *)
Theorem C98_auc_thresholds_refuted :
  (forall ts, ts <> [] -> num_eqb (hd NaN ts) (Fin (- epsilon)%Qc) = false -> used_thresholds None (Some ts) = Ok ts) /\
  (forall k ts, ts <> [] -> k <> 0%Z -> Z.of_nat (length ts) <> (k - 2)%Z -> used_thresholds (Some k) (Some ts) = Err ValueError) /\
  (forall k ts, In k [200; 10000]%Z -> Z.of_nat (length ts) = (k - 2)%Z -> used_thresholds (Some k) (Some ts) = Ok (interpolated_thresholds k)) /\
  (forall cls k t, t <> 0%Z -> default_settings None (Some (RawKey cls k (Some t))) None None = Some [NegInf] /\ used_thresholds None (Some [NegInf]) = Ok [NegInf]) /\
  (forall c s t tp tn fp fn, auc c s (Matrices [t] [tp] [tn] [fp] [fn]) = Exact (Fin 0%Qc) \/ auc c s (Matrices [t] [tp] [tn] [fp] [fn]) = Interpolated 0).
Proof. exact C98_auc_thresholds_refuted_pf. Qed.

Example C98_auc_thresholds_ex : used_thresholds None (Some [Fin (Q2Qc (1#2))]) = Ok [Fin (Q2Qc (1#2))] /\ used_thresholds (Some 3%Z) None = Ok [Fin (- epsilon)%Qc; Fin (Q2Qc (1#2)); Fin (1 + epsilon)%Qc].
Proof. split; [reflexivity|qc_ex]. Qed.

(** With num_thresholds alone, the thresholds ascend from below 0 to above 1. *)
Theorem C98_interpolated_thresholds_partial : forall k, (2 <= k)%Z ->
  exists ts, used_thresholds (Some k) None = Ok ts /\ used_thresholds None (Some ts) = Ok ts /\
    Z.of_nat (length ts) = k /\ ascending_thresholds ts /\ NoDup ts /\
    (forall p, (0 <= p /\ p <= 1)%Qc -> num_ltb (nth 0 ts NaN) (Fin p) = true /\ num_ltb (last ts NaN) (Fin p) = false) /\
    (forall i, (0 < Z.of_nat i < k - 1)%Z -> exists q, nth i ts NaN = Fin q /\ (q * qz (k - 1) = qz (Z.of_nat i))%Qc).
Proof. exact C98_interpolated_thresholds_partial_pf. Qed.

Example C98_interpolated_thresholds_ex : used_thresholds (Some 4%Z) None = Ok [Fin (- epsilon)%Qc; Fin (Q2Qc (1#3)); Fin (Q2Qc (2#3)); Fin (1 + epsilon)%Qc].
Proof. qc_ex. Qed.

(* ------------------------------------------------------------------ *)
(** ** C100 *)
Theorem C100_sub_key_refuted :
  (forall k c, (1 <= k)%Z -> exists s r, new_sub_key None (Some k) None = Ok s /\ update_sub_key (Some s) None (Some c) = Ok (Some r) /\ ~ valid_key r) /\
  (forall t, (t < 1)%Z -> exists r, update_sub_key None (Some t) None = Ok (Some r) /\ ~ valid_key r).
Proof. exact C100_sub_key_refuted_pf. Qed.

Example C100_sub_key_ex : new_sub_key None (Some 2%Z) None = Ok (RawKey None (Some 2%Z) None) /\
  update_sub_key (Some (RawKey None (Some 2%Z) None)) None (Some 1%Z) = Ok (Some (RawKey (Some 1%Z) (Some 2%Z) None)) /\
  new_sub_key (Some 1%Z) (Some 2%Z) None = Err ValueError.
Proof. repeat split. Qed.

(** Without k in the spec and with a positive top_k; overlapping settings are errors. *)
Theorem C100_sub_key_partial : forall s top_k class_id,
  (match s with Some s => valid_key s /\ r_k s = None | None => True end) -> (forall t, top_k = Some t -> (1 <= t)%Z) ->
  (exists s0, s = Some s0 /\ ((r_top_k s0 <> None /\ top_k <> None) \/ (r_class_id s0 <> None /\ class_id <> None)) /\ update_sub_key s top_k class_id = Err ValueError) \/
  (exists r, update_sub_key s top_k class_id = Ok r /\
     (r = None <-> s = None /\ top_k = None /\ class_id = None) /\
     (forall r0, r = Some r0 -> valid_key r0 /\ r_k r0 = None /\
        (forall t, r_top_k r0 = Some t <-> top_k = Some t \/ exists s0, s = Some s0 /\ r_top_k s0 = Some t) /\
        (forall c, r_class_id r0 = Some c <-> class_id = Some c \/ exists s0, s = Some s0 /\ r_class_id s0 = Some c))).
Proof. exact C100_sub_key_partial_pf. Qed.

Example C100_sub_key_partial_ex : update_sub_key (Some (RawKey (Some 3%Z) None None)) (Some 2%Z) None = Ok (Some (RawKey (Some 3%Z) None (Some 2%Z))) /\
  update_sub_key (Some (RawKey (Some 3%Z) None None)) None (Some 2%Z) = Err ValueError.
Proof. split; reflexivity. Qed.

Print Assumptions C40_rates.
Print Assumptions C40_complements.
Print Assumptions C40_means.
Print Assumptions C40_on_data.
Print Assumptions C42_best_under_constraint.
Print Assumptions C95_constraint_forms_refuted.
Print Assumptions C95_constraint_forms_partial.
Print Assumptions C93_matthews.
Print Assumptions C93_fowlkes_mallows.
Print Assumptions C94_likelihood_ratios.
Print Assumptions C99_prevalence_threshold_refuted.
Print Assumptions C99_prevalence_threshold_partial.
Print Assumptions C41_roc_auc.
Print Assumptions C41_roc_auc_on_data.
Print Assumptions C97_concordance.
Print Assumptions C97_mann_whitney.
Print Assumptions C96_pr_auc_ordered_refuted.
Print Assumptions C96_pr_auc_partial.
Print Assumptions C98_auc_thresholds_refuted.
Print Assumptions C98_interpolated_thresholds_partial.
Print Assumptions C100_sub_key_refuted.
Print Assumptions C100_sub_key_partial.
