(* Means *)
From Coq Require Import String Ascii.
From Verif Require Import Base BaseFacts Beam BeamFacts Util_Model Util_Main Inputs_Model Inputs_Main Sums_Model Sums_Main Histogram_Model Histogram_Main Confusion_Model Means_Model.
From Verif Require Import Means_Main.
Local Open Scope string_scope.
Local Open Scope list_scope.

(* ------------------------------------------------------------------ *)
(** ** Merging again *)
(* ------------------------------------------------------------------ *)
(** ** The first tuple of an element *)
(* ------------------------------------------------------------------ *)
(** ** C17, C18 flip rates *)
(** The flip rate depends on the bundling: a flipped and an unflipped example of the
    same weight give 1/2 in one bundle and 2/3 when merged from two bundles. *)
Theorem C17_flip_rate_schedule_refuted :
  exists ap t s1 s2 r f1 f2,
    (forall e, In e (inputs s1) -> pair_reading true "base" "cand" "" e (r e)) /\
    Permutation (inputs s1) (inputs s2) /\
    outcome (flips_combiner ap t true "" "" "base" "" "" "cand" "") s1 = Ok f1 /\
    outcome (flips_combiner ap t true "" "" "base" "" "" "cand" "") s2 = Ok f2 /\
    weight_where (flipped t) (map r (inputs s1)) = 1%Qc /\ qsum (map pr_weight (map r (inputs s1))) = qz 2 /\
    symmetric_flip_rate f1 = Ok (Q2Qc (1#2)) /\ symmetric_flip_rate f2 = Ok (Q2Qc (2#3)).
Proof. exact C17_flip_rate_schedule_refuted_pf. Qed.

(** Without merging the rates are the weighted fractions. *)
Theorem C17_flip_rates_partial :
  forall ap t weighted lb pb base lk pk m o s (r : inputs_dict -> paired),
    (forall e, In e (inputs s) -> pair_reading weighted base m o e (r e)) -> merge_free s ->
    let D := map r (inputs s) in
    let W := qsum (map pr_weight D) in
    W <> 0%Qc ->
    exists f, outcome (flips_combiner ap t weighted lb pb base lk pk m o) s = Ok f /\
      symmetric_flip_rate f = Ok (weight_where (flipped t) D / W)%Qc /\
      neg_to_neg_rate f = Ok (weight_where (stays_neg t) D / W)%Qc /\
      neg_to_pos_rate f = Ok (weight_where (turns_pos t) D / W)%Qc /\
      pos_to_neg_rate f = Ok (weight_where (turns_neg t) D / W)%Qc /\
      pos_to_pos_rate f = Ok (weight_where (stays_pos t) D / W)%Qc.
Proof. exact C17_flip_rates_partial_pf. Qed.

Example C17_example :
  merge_free (Bundle [two (1#4) (3#4) 1; two (1#4) (1#4) 3]) /\
  exists f, outcome (flips_combiner ap_sort (Q2Qc (1#2)) true "" "" "base" "" "" "cand" "")
    (Bundle [two (1#4) (3#4) 1; two (1#4) (1#4) 3]) = Ok f /\ symmetric_flip_rate f = Ok (Q2Qc (1#4)).
Proof. split; [exact I|]. exists (Flips (qz 4) (qz 3) 1%Qc 0%Qc 0%Qc). split; qc_ex. Qed.

(** Whatever the bundling, the four kinds partition the total, and all rates are
    fractions. *)
Theorem C18_flip_counts_partition :
  forall ap t weighted lb pb base lk pk m o s (r : inputs_dict -> paired),
    (forall e, In e (inputs s) -> pair_reading weighted base m o e (r e) /\ (0 <= pr_weight (r e))%Qc) ->
    (exists e, In e (inputs s) /\ (0 < pr_weight (r e))%Qc) ->
    exists f nn np pn pp sym, outcome (flips_combiner ap t weighted lb pb base lk pk m o) s = Ok f /\
      neg_to_neg_rate f = Ok nn /\ neg_to_pos_rate f = Ok np /\ pos_to_neg_rate f = Ok pn /\
      pos_to_pos_rate f = Ok pp /\ symmetric_flip_rate f = Ok sym /\
      (0 <= nn)%Qc /\ (0 <= np)%Qc /\ (0 <= pn)%Qc /\ (0 <= pp)%Qc /\
      (nn + np + pn + pp)%Qc = 1%Qc /\ sym = (np + pn)%Qc /\ (0 <= sym <= 1)%Qc.
Proof. exact C18_flip_counts_partition_pf. Qed.

Example C18_example :
  exists f, outcome (flips_combiner ap_sort (Q2Qc (1#2)) true "" "" "base" "" "" "cand" "")
    (Merge (Bundle [two (1#4) (3#4) 1; two (3#4) (1#4) 1]) [Bundle [two (3#4) (3#4) 2]]) = Ok f /\
    symmetric_flip_rate f = Ok (Q2Qc (2#3)) /\ neg_to_pos_rate f = Ok (Q2Qc (1#3)) /\
    pos_to_neg_rate f = Ok (Q2Qc (1#3)) /\ pos_to_pos_rate f = Ok (Q2Qc (1#3)).
Proof. exists (Flips (qz 6) 0%Qc (qz 2) (qz 2) (qz 2)). repeat split; qc_ex. Qed.

(* ------------------------------------------------------------------ *)
(** ** Sums over flattened tuples *)
(* ------------------------------------------------------------------ *)
(** ** C68 mean regression errors *)
(** One bundle: 1; two bundles of one example each, merged: 2/3. *)
Theorem C68_mean_error_schedule_refuted :
  exists ap s1 s2 ex w,
    (forall e, In e (inputs s1) -> holds true "cand" "" (ex e) (w e) e) /\
    Permutation (inputs s1) (inputs s2) /\
    error_total Absolute (observations ex w (inputs s1)) = 1%Qc /\
    error_weight Absolute (observations ex w (inputs s1)) = qz 2 /\
    outcome (regression_combiner ap absolute_error (regression_options None false None true) "" "" "cand" "") s1 = Ok (Fin (Q2Qc (1#2))) /\
    outcome (regression_combiner ap absolute_error (regression_options None false None true) "" "" "cand" "") s2 = Ok (Fin (Q2Qc (1#3))).
Proof. exact C68_mean_error_schedule_refuted_pf. Qed.

(** Without merging: the weighted mean of the errors, NaN if there is no weight. *)
Theorem C68_mean_error_partial :
  forall ap k weighted lk pk m o s ex w,
    (forall e, In e (inputs s) -> holds weighted m o (ex e) (w e) e) -> merge_free s ->
    let D := observations ex w (inputs s) in
    exists v, outcome (regression_combiner ap (error_of k) (regression_options None false None weighted) lk pk m o) s = Ok v /\
      (error_weight k D = 0%Qc -> v = NaN) /\
      (error_weight k D <> 0%Qc -> v = Fin (error_total k D / error_weight k D)%Qc).
Proof. exact C68_mean_error_partial_pf. Qed.

Example C68_example :
  outcome (regression_combiner ap_sort percentage_error (regression_options None false None true) "" "" "cand" "")
    (Bundle [binary 1 (1#2) 1; binary 0 1 5; binary (-2) (-1) 3]) = Ok (Fin (qz 50)).
Proof. qc_ex. Qed.

(** However the data are bundled, the reported mean lies between the smallest and the
    largest error. *)
Theorem C68_mean_error_within :
  forall ap k weighted lk pk m o s ex w lo hi,
    (forall e, In e (inputs s) -> holds weighted m o (ex e) (w e) e /\ (0 <= w e)%Qc) ->
    let D := observations ex w (inputs s) in
    (forall x err, In x D -> error_spec k x = Some err -> (lo <= err <= hi)%Qc) ->
    exists v, outcome (regression_combiner ap (error_of k) (regression_options None false None weighted) lk pk m o) s = Ok v /\
      ((v = NaN /\ error_weight k D = 0%Qc) \/ exists q, v = Fin q /\ (lo <= q <= hi)%Qc).
Proof. exact C68_mean_error_within_pf. Qed.

(* ------------------------------------------------------------------ *)
(** ** C69 symmetric prediction difference *)
Theorem C69_difference_symmetric :
  forall ap weighted l1 p1 base l2 p2 m o s (r : inputs_dict -> paired),
    (forall e, In e (inputs s) -> pair_reading weighted base m o e (r e) /\ i_label e <> None) ->
    outcome (difference_combiner ap weighted l1 p1 base l2 p2 m o) s =
    outcome (difference_combiner ap weighted l2 p2 m l1 p1 base o) s.
Proof. exact C69_difference_symmetric_pf. Qed.

Theorem C69_difference_partial :
  forall ap weighted lb pb base lk pk m o s (r : inputs_dict -> paired),
    (forall e, In e (inputs s) -> pair_reading weighted base m o e (r e) /\ i_label e <> None /\
       exists b c, pair_finite (r e) b c) ->
    merge_free s ->
    let D := map r (inputs s) in
    let W := qsum (map pr_weight D) in
    W <> 0%Qc ->
    outcome (difference_combiner ap weighted lb pb base lk pk m o) s =
    Ok (Fin (qsum (map (fun x => pr_weight x * difference_spec x)%Qc D) / W)%Qc).
Proof. exact C69_difference_partial_pf. Qed.

Example C69_example :
  outcome (difference_combiner ap_sort true "" "" "base" "" "" "cand" "")
    (Bundle [two_labelled (1#4) (3#4) 1; two_labelled 0 0 1; two_labelled (1#2) 0 2]) = Ok (Fin (Q2Qc (5#4))).
Proof. qc_ex. Qed.

(** For any bundling the value is between 0 (equal models) and 2. *)
Theorem C69_difference_range :
  forall ap weighted lb pb base lk pk m o s (r : inputs_dict -> paired),
    (forall e, In e (inputs s) -> pair_reading weighted base m o e (r e) /\ i_label e <> None /\
       (0 <= pr_weight (r e))%Qc /\ exists b c, pair_finite (r e) b c) ->
    (exists e, In e (inputs s) /\ (0 < pr_weight (r e))%Qc) ->
    exists v, outcome (difference_combiner ap weighted lb pb base lk pk m o) s = Ok (Fin v) /\ (0 <= v <= qz 2)%Qc.
Proof. exact C69_difference_range_pf. Qed.

(** The value depends on the bundling, like the flip rates. *)
Theorem C69_difference_schedule_refuted :
  exists ap s1 s2 r,
    (forall e, In e (inputs s1) -> pair_reading true "base" "cand" "" e (r e) /\ i_label e <> None /\ exists b c, pair_finite (r e) b c) /\
    Permutation (inputs s1) (inputs s2) /\
    outcome (difference_combiner ap true "" "" "base" "" "" "cand" "") s1 = Ok (Fin 1%Qc) /\
    outcome (difference_combiner ap true "" "" "base" "" "" "cand" "") s2 = Ok (Fin (Q2Qc (4#3))).
Proof. exact C69_difference_schedule_refuted_pf. Qed.

(* ------------------------------------------------------------------ *)
(** ** C70 squared Pearson correlation *)
(** For every bundling: the squared covariation over the product of the variations,
    NaN without weight or variation; it lies in [0, 1]. *)
Theorem C70_squared_pearson :
  forall ap sk weighted lk pk m o s ex w,
    (forall e, In e (inputs s) -> holds weighted m o (ex e) (w e) e) ->
    let D := observations ex w (inputs s) in
    let vx := covariation ob_label ob_label D in
    let vy := covariation ob_score ob_score D in
    let c := covariation ob_label ob_score D in
    exists v, outcome (pearson_combiner ap sk false None weighted lk pk m o) s = Ok v /\
      ((0 < weight_sum D)%Qc -> (0 < vx * vy)%Qc -> v = Fin (c * c / (vx * vy))%Qc) /\
      (~ ((0 < weight_sum D)%Qc /\ (0 < vx * vy)%Qc) -> v = NaN) /\
      ((forall e, In e (inputs s) -> (0 <= w e)%Qc) -> v = NaN \/ exists q, v = Fin q /\ (0 <= q <= 1)%Qc).
Proof. exact C70_squared_pearson_pf. Qed.

Example C70_example :
  outcome (pearson_combiner ap_sort None false None true "" "" "cand" "")
    (Merge (Bundle [binary 0 1 1; binary 1 2 1]) [Bundle [binary 2 2 1]]) = Ok (Fin (Q2Qc (3#4))).
Proof. qc_ex. Qed.

(* ------------------------------------------------------------------ *)
(** ** C71 Tjur discrimination *)
Theorem C71_tjur_discrimination :
  forall ap sk weighted lk pk m o s ex w,
    (forall e, In e (inputs s) -> holds weighted m o (ex e) (w e) e) ->
    let D := observations ex w (inputs s) in
    exists t, outcome (tjur_combiner ap sk false None weighted lk pk m o) s = Ok t /\
      (positives D = 0%Qc \/ negatives D = 0%Qc -> discrimination t = NaN /\ relative_discrimination t = NaN) /\
      (positives D <> 0%Qc -> negatives D <> 0%Qc ->
         discrimination t = Fin (mean_positive D - mean_negative D)%Qc /\
         (mean_negative D = 0%Qc -> relative_discrimination t = NaN) /\
         (mean_negative D <> 0%Qc -> relative_discrimination t = Fin (mean_positive D / mean_negative D)%Qc)) /\
      ((forall e, In e (inputs s) -> (0 <= w e)%Qc) ->
       (forall x, In x D -> (0 <= ob_label x <= 1)%Qc /\ (0 <= ob_score x <= 1)%Qc) ->
       discrimination t = NaN \/ exists q, discrimination t = Fin q /\ (- (1) <= q <= 1)%Qc).
Proof. exact C71_tjur_discrimination_pf. Qed.

Example C71_example :
  exists t, outcome (tjur_combiner ap_sort None false None true "" "" "cand" "")
    (Merge (Bundle [binary 1 (3#4) 1; binary 0 (1#4) 1]) [Bundle [binary 1 (1#4) 1]]) = Ok t /\
    discrimination t = Fin (Q2Qc (1#4)) /\ relative_discrimination t = Fin (qz 2).
Proof. exists (Tjur 1%Qc (Fin (Q2Qc (1#4))) (qz 2) (Fin 1%Qc)). split; [|split]; qc_ex. Qed.

(* ------------------------------------------------------------------ *)
(** ** C72 exact match *)
(** Without multi-valued labels the score is the weighted fraction of the examples
    whose prediction equals the label, for every bundling; with n classes every class
    counts as an example of its own. *)
Theorem C72_exact_match :
  forall ap sk weighted lk pk m o s ex w,
    (forall e, In e (inputs s) ->
       carries weighted m o e (Reading (map fst (ex e)) (map snd (ex e)) [w e]) /\ ex e <> []) ->
    let D := scored_of ex w (inputs s) in
    let W := qsum (map sc_weight D) in
    W <> 0%Qc ->
    exists v, outcome (match_combiner ap sk false None weighted lk pk m o) s = Ok v /\
      v = (qsum (map sc_weight (filter same_value D)) / W)%Qc /\
      ((forall e, In e (inputs s) -> (0 <= w e)%Qc) -> (0 <= v <= 1)%Qc).
Proof. exact C72_exact_match_pf. Qed.

Example C72_example :
  outcome (match_combiner ap_sort None false None true "" "" "" "")
    (Merge (Bundle [classes [1]%Q [1]%Q 1; classes [0]%Q [1]%Q 1]) [Bundle [classes [2]%Q [2]%Q 2]]) = Ok (Q2Qc (3#4)).
Proof. qc_ex. Qed.

(** An empty label counts as a match. *)
Theorem C72_unlabelled_matches_refuted :
  exists ap e, i_label e = Some (Leaf []) /\ carries_scores "" "" e [Fin 1%Qc] /\
    outcome (match_combiner ap None false None true "" "" "" "") (Bundle [e]) = Ok 1%Qc.
Proof. exact C72_unlabelled_matches_refuted_pf. Qed.

(* ------------------------------------------------------------------ *)
(** ** C73 no weight at all *)
Theorem C73_zero_weight_refuted :
  exists ap e r,
    pair_reading true "base" "cand" "" e r /\ pr_weight r = 0%Qc /\
    (forall t, exists f, outcome (flips_combiner ap t true "" "" "base" "" "" "cand" "") (Bundle [e]) = Ok f /\
               symmetric_flip_rate f = Err ZeroDivisionError) /\
    outcome (difference_combiner ap true "" "" "base" "" "" "cand" "") (Bundle [e]) = Err ZeroDivisionError /\
    outcome (match_combiner ap None false None true "" "" "cand" "") (Bundle [e]) = Err ZeroDivisionError /\
    outcome (regression_combiner ap absolute_error (regression_options None false None true) "" "" "cand" "") (Bundle [e]) = Ok NaN /\
    outcome (pearson_combiner ap None false None true "" "" "cand" "") (Bundle [e]) = Ok NaN.
Proof. exact C73_zero_weight_refuted_pf. Qed.

(* ------------------------------------------------------------------ *)
(** ** C74 per-class values *)
Theorem C74_sub_key_ignored_refuted :
  exists ap s ex w,
    (forall e, In e (inputs s) -> holds true "" "" (ex e) (w e) e) /\
    (let D := observations (of_class 1 ex) w (inputs s) in
     let c := covariation ob_label ob_score D in
     c <> 0%Qc /\ (c * c)%Qc = (covariation ob_label ob_label D * covariation ob_score ob_score D)%Qc /\
     (mean_positive D - mean_negative D)%Qc = 1%Qc /\
     (forall x, In x D -> ob_label x = ob_score x)) /\
    outcome (pearson_combiner ap class1 false None true "" "" "" "") s = Ok (Fin (Q2Qc (1#3))) /\
    (exists t, outcome (tjur_combiner ap class1 false None true "" "" "" "") s = Ok t /\ discrimination t = Fin (Q2Qc (1#2))) /\
    outcome (match_combiner ap class1 false None true "" "" "" "") s = Ok (Q2Qc (3#4)).
Proof. exact C74_sub_key_ignored_refuted_pf. Qed.

Theorem C74_flips_first_class_refuted :
  exists ap t e f,
    carries_scores "base" "" e [Fin (Q2Qc (1#4)); Fin (Q2Qc (3#4))] /\
    carries_scores "cand" "" e [Fin (Q2Qc (1#4)); Fin 0%Qc] /\ t = Q2Qc (1#2) /\
    outcome (flips_combiner ap t true "" "" "base" "" "" "cand" "") (Bundle [e]) = Ok f /\
    symmetric_flip_rate f = Ok 0%Qc /\
    outcome (difference_combiner ap true "" "" "base" "" "" "cand" "") (Bundle [e]) = Ok (Fin 0%Qc).
Proof. exact C74_flips_first_class_refuted_pf. Qed.

(* ------------------------------------------------------------------ *)
(** ** C75 exact match of several values *)
Theorem C75_all_components_refuted :
  exists ap e ls ps,
    carries true "" "" e (Reading ls (map Fin ps) [1%Qc]) /\ length ls = 2 /\ ls <> ps /\
    outcome (match_combiner ap None false None true "" "" "" "") (Bundle [e]) = Ok (Q2Qc (1#2)).
Proof. exact C75_all_components_refuted_pf. Qed.

Print Assumptions C17_flip_rate_schedule_refuted.
Print Assumptions C17_flip_rates_partial.
Print Assumptions C18_flip_counts_partition.
Print Assumptions C68_mean_error_schedule_refuted.
Print Assumptions C68_mean_error_partial.
Print Assumptions C68_mean_error_within.
Print Assumptions C69_difference_symmetric.
Print Assumptions C69_difference_partial.
Print Assumptions C69_difference_range.
Print Assumptions C69_difference_schedule_refuted.
Print Assumptions C70_squared_pearson.
Print Assumptions C71_tjur_discrimination.
Print Assumptions C72_exact_match.
Print Assumptions C72_unlabelled_matches_refuted.
Print Assumptions C73_zero_weight_refuted.
Print Assumptions C74_sub_key_ignored_refuted.
Print Assumptions C74_flips_first_class_refuted.
Print Assumptions C75_all_components_refuted.
