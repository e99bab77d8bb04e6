(* Classes *)
From Coq Require Import String Ascii Sorted.
From Verif Require Import Base BaseFacts Beam BeamFacts Util_Model Util_Main Keys_Model Keys_Main Inputs_Model Inputs_Main Sums_Model Sums_Main Histogram_Model Confusion_Model Means_Model Means_Main Evaluator_Model Evaluator_Main Ranking_Model Ranking_Main Classes_Model.
From Verif Require Import Classes_Main.
Local Open Scope string_scope.
Local Open Scope list_scope.

(* ------------------------------------------------------------------ *)
(** ** Dictionaries of counts *)
(* ------------------------------------------------------------------ *)
(** ** C147 multi-class confusion matrices *)
Theorem C147_multi_class_matrices :
  forall ap ts weighted lk pk m o s x,
    StronglySorted Qclt ts -> inputs s <> [] ->
    (forall e, In e (inputs s) -> classifies weighted m o e (x e)) ->
    exists M, outcome (multi_class_combiner ap ts weighted lk pk m o) s = Ok M /\
      unambiguous M /\
      (forall t, In t (map fst M) <-> In t ts) /\
      forall t, In t ts -> forall a p v,
        lists M t (a, p) v <->
        let hits := filter (counted t a p) (map x (inputs s)) in
        hits <> [] /\ v = qsum (map cl_weight hits).
Proof. exact C147_multi_class_matrices_pf. Qed.

Theorem C147_each_example_once :
  forall ap ts weighted lk pk m o s x t,
    StronglySorted Qclt ts -> In t ts -> inputs s <> [] ->
    (forall e, In e (inputs s) -> classifies weighted m o e (x e)) ->
    exists M r, outcome (multi_class_combiner ap ts weighted lk pk m o) s = Ok M /\ In (t, r) M /\
      qsum (map snd r) = qsum (map (fun e => cl_weight (x e)) (inputs s)).
Proof. exact C147_each_example_once_pf. Qed.

(** An element with a single score is not a multi-class prediction. *)
Theorem C147_single_score_refused :
  forall ap ts weighted lk pk m o s e labels score w,
    In e (inputs s) -> carries weighted m o e (Reading labels [score] [w]) ->
    is_ok (outcome (multi_class_combiner ap ts weighted lk pk m o) s) = false.
Proof. exact C147_single_score_refused_pf. Qed.

Example C147_single_score_example :
  outcome (multi_class_combiner ap_sort [Q2Qc (1#2)] true "" "" "" "")
    (Bundle [InputsDict (Some (Leaf [1%Qc])) (Some (Leaf [Fin (Q2Qc (7#10))])) (Some (Leaf [1%Qc]))]) = Err ValueError.
Proof. reflexivity. Qed.

Example C147_ascending_example :
  outcome (multi_class_combiner ap_sort [Q2Qc (1#2); Q2Qc (9#10)] false "" "" "" "") (Merge (Bundle [two_class_example]) [Bundle []; Bundle [two_class_example]]) =
    Ok [(Q2Qc (1#2), [((0%Z, 1%Z), qz 2)]); (Q2Qc (9#10), [((0%Z, (-1)%Z), qz 2)])].
Proof. qc_ex. Qed.

(** Refuted for thresholds that are not ascending: the matrix at 0.5 takes the
    prediction 0.8 for none because the threshold 0.9 came first. *)
Theorem C147_any_thresholds_refuted :
  exists ts s t M x,
    NoDup ts /\ In t ts /\ (forall e, In e (inputs s) -> classifies false "" "" e (x e)) /\
    outcome (multi_class_combiner ap_sort ts false "" "" "" "") s = Ok M /\
    outcome (multi_class_combiner ap_sort [t] false "" "" "" "") s = Ok [(t, [((0%Z, 1%Z), 1%Qc)])] /\
    lists M t (0%Z, (-1)%Z) 1%Qc /\ ~ exists v, lists M t (0%Z, 1%Z) v.
Proof. exact C147_any_thresholds_refuted_pf. Qed.

(** Refuted for a repeated threshold: its examples count twice. *)
Theorem C147_repeated_threshold_refuted :
  exists ts s t M x,
    In t ts /\ (forall e, In e (inputs s) -> classifies false "" "" e (x e)) /\
    outcome (multi_class_combiner ap_sort ts false "" "" "" "") s = Ok M /\
    (exists e, inputs s = [e] /\ cl_weight (x e) = 1%Qc) /\ lists M t (0%Z, 1%Z) (qz 2).
Proof. exact C147_repeated_threshold_refuted_pf. Qed.

(* ------------------------------------------------------------------ *)
(** ** C148 several multi-class metrics *)
(** Refuted: two metrics of different names and thresholds; only the combiner of the
    first is run, and the second metric shows its result. *)
Theorem C148_own_thresholds_refuted :
  exists ts1 ts2 name1 name2 sep,
    ts1 <> ts2 /\ name1 <> name2 /\
    filter_and_separate_computations (matrix_computations ts1 name1 "" "" false ++ matrix_computations ts2 name2 "" "" false) = Ok sep /\
    map (fun c => cp_body (snd c)) (sp_base sep) = [CombineMatrices ts1] /\
    map (fun c => (map k_name (cp_keys (snd c)), cp_body (snd c))) (sp_derived sep) =
      [([name1], CopyOf (matrices_key "" "" false)); ([name2], CopyOf (matrices_key "" "" false))].
Proof. exact C148_own_thresholds_refuted_pf. Qed.

(** Metrics of different outputs, models or weighting do not disturb one another. *)
Theorem C148_separate_outputs :
  forall ts1 ts2 n1 n2 m1 m2 o1 o2 w1 w2,
    (m1, o1, w1) <> (m2, o2, w2) -> n1 <> n2 ->
    exists sep,
      filter_and_separate_computations (matrix_computations ts1 n1 m1 o1 w1 ++ matrix_computations ts2 n2 m2 o2 w2) = Ok sep /\
      map (fun c => cp_body (snd c)) (sp_base sep) = [CombineMatrices ts1; CombineMatrices ts2] /\
      map (fun c => (map k_name (cp_keys (snd c)), cp_body (snd c))) (sp_derived sep) =
        [([n1], CopyOf (matrices_key m1 o1 w1)); ([n2], CopyOf (matrices_key m2 o2 w2))].
Proof. exact C148_separate_outputs_pf. Qed.

Example C148_separate_outputs_example :
  (let! sep := filter_and_separate_computations (matrix_computations [Q2Qc (1#2)] "a" "" "head1" false ++ matrix_computations [Q2Qc (1#4)] "b" "" "head2" false) in
   Ok (map (fun c => cp_body (snd c)) (sp_base sep))) = Ok [CombineMatrices [Q2Qc (1#2)]; CombineMatrices [Q2Qc (1#4)]].
Proof. qc_ex. Qed.

(* ------------------------------------------------------------------ *)
(** ** C149 arithmetic on matrices *)
Theorem C149_elementwise :
  forall (op : Qc -> Qc -> res Qc) a b M,
    unambiguous a -> unambiguous b -> matrices_elementwise op a b = Ok M ->
    unambiguous M /\
    (forall t, In t (map fst M) <-> In t (map fst a) \/ In t (map fst b)) /\
    forall t k v, lists M t k v <->
      (mentions a t k \/ mentions b t k) /\
      exists x y, amounts_to a t k x /\ amounts_to b t k y /\ op x y = Ok v.
Proof. exact C149_elementwise_pf. Qed.

Theorem C149_elementwise_defined :
  forall (op : Qc -> Qc -> Qc) a b, exists M, matrices_elementwise (fun x y => Ok (op x y)) a b = Ok M.
Proof. exact C149_elementwise_defined_pf. Qed.

Theorem C149_broadcast :
  forall (op : Qc -> Qc -> res Qc) a c M,
    unambiguous a -> matrices_broadcast op a c = Ok M ->
    unambiguous M /\ map fst M = map fst a /\
    forall t k v, lists M t k v <-> exists x, lists a t k x /\ op x c = Ok v.
Proof. exact C149_broadcast_pf. Qed.

Example C149_difference_example :
  matrices_elementwise (fun x y => Ok (x - y)%Qc)
    [(Q2Qc (1#2), [((0%Z, 0%Z), qz 3); ((0%Z, 1%Z), qz 1)])]
    [(Q2Qc (1#2), [((0%Z, 0%Z), qz 1); ((1%Z, 1%Z), qz 5)]); (Q2Qc (1#4), [])] =
  Ok [(Q2Qc (1#2), [((0%Z, 0%Z), qz 2); ((0%Z, 1%Z), qz 1); ((1%Z, 1%Z), qz (-5))]); (Q2Qc (1#4), [])].
Proof. qc_ex. Qed.

Example C149_scaling_example :
  matrices_broadcast (fun x y => Ok (x * y)%Qc) [(Q2Qc (1#2), [((0%Z, 0%Z), qz 3)])] (qz 2) =
    Ok [(Q2Qc (1#2), [((0%Z, 0%Z), qz 6)])].
Proof. qc_ex. Qed.

(* ------------------------------------------------------------------ *)
(** ** C150 thresholds and rendering *)
Theorem C150_rendering : forall V (m : list (Qc * list (entry_key * V))), unambiguous m -> renders m (table_to_proto m).
Proof. exact C150_rendering_pf. Qed.

Example C150_rendering_example :
  table_to_proto [(Q2Qc (1#2), [((1%Z, 0%Z), qz 1); ((0%Z, 2%Z), qz 2); ((0%Z, (-1)%Z), qz 3)]); ((- tiny)%Qc, [((0%Z, 0%Z), qz 6)])] =
    [(0%Qc, [((0%Z, 0%Z), qz 6)]); (Q2Qc (1#2), [((0%Z, (-1)%Z), qz 3); ((0%Z, 2%Z), qz 2); ((1%Z, 0%Z), qz 1)])].
Proof. qc_ex. Qed.

(** num_thresholds = n >= 2: n thresholds in ascending order, displayed as 0, 1/(n-1), ..., 1. *)
Theorem C150_even_thresholds :
  forall default n, 2 <= n ->
    exists ts, matrix_thresholds default None (Some n) = Ok ts /\ length ts = n /\ StronglySorted Qclt ts /\
      forall i t, nth_error ts i = Some t -> displays t (qn i / qn (n - 1))%Qc.
Proof. exact C150_even_thresholds_pf. Qed.

Example C150_even_thresholds_example :
  matrix_thresholds 0%Qc None (Some 3) = Ok [(- tiny)%Qc; Q2Qc (1#2); (1 + tiny)%Qc].
Proof. qc_ex. Qed.

(** Refuted for num_thresholds = 1: there are two. *)
Theorem C150_one_threshold_refuted :
  exists ts, matrix_thresholds 0%Qc None (Some 1) = Ok ts /\ length ts = 2.
Proof. exact C150_one_threshold_refuted_pf. Qed.

(* ------------------------------------------------------------------ *)
(** ** C151 multi-label confusion matrices *)
(** C151: at every threshold, for every class a some example has and every class c, the
    plot holds the weights of the examples having a, split by whether they also have c
    and whether c's score exceeds the threshold. *)
Theorem C151_multi_label_matrices :
  forall ap ts weighted lk pk m o s x,
    NoDup ts -> inputs s <> [] ->
    (forall e, In e (inputs s) -> multilabelled weighted m o e (x e)) ->
    exists M P, outcome (multi_label_combiner ap ts weighted lk pk m o) s = Ok P /\ renders M P /\
      unambiguous M /\
      (forall t, In t (map fst M) <-> In t ts) /\
      forall t, In t ts -> forall k v,
        lists M t k v <->
        exists a c, k = (Z.of_nat a, Z.of_nat c) /\
          let D := map x (inputs s) in
          (exists y, In y D /\ involves a c y = true) /\
          v = Cell (weight_where (picks a c t true false) D) (weight_where (picks a c t false false) D)
                   (weight_where (picks a c t false true) D) (weight_where (picks a c t true true) D).
Proof. exact C151_multi_label_matrices_pf. Qed.

Example C151_multi_label_example :
  outcome (multi_label_combiner ap_sort [Q2Qc (1#2)] false "" "" "" "") (Merge (Bundle both_kinds) [Bundle both_kinds]) =
  Ok [(Q2Qc (1#2),
       [((0, 0)%Z, one_cell 0 0 0 2); ((0, 1)%Z, one_cell 0 0 2 0); ((0, 2)%Z, one_cell 2 0 0 0);
        ((1, 0)%Z, one_cell 0 2 0 0); ((1, 1)%Z, one_cell 0 0 0 2); ((1, 2)%Z, one_cell 0 2 0 0);
        ((2, 0)%Z, one_cell 0 0 0 2); ((2, 1)%Z, one_cell 0 0 2 0); ((2, 2)%Z, one_cell 2 0 0 0)])].
Proof. exact both_kinds_run. Qed.

(** Refuted for a repeated threshold. *)
Theorem C151_repeated_threshold_refuted :
  exists ts e x t P,
    In t ts /\ multilabelled false "" "" e x /\ ml_weight x = 1%Qc /\
    outcome (multi_label_combiner ap_sort ts false "" "" "" "") (Bundle [e]) = Ok P /\
    lists P t (0, 0)%Z (one_cell 0 0 0 2).
Proof. exact C151_repeated_threshold_refuted_pf. Qed.

(* ------------------------------------------------------------------ *)
(** ** C152 semantic segmentation *)
(** C152: every class gets the numbers of pixels, over all images, of each combination of
    truth and prediction. *)
Theorem C152_pixel_counts :
  forall ids ignore s D, NoDup ids -> inputs s <> [] ->
    (forall e, In e (inputs s) -> segmented e (D e)) ->
    exists T, outcome (segmentation_combiner ids ignore) s = Ok T /\ NoDup (map fst T) /\
      (forall c, In c (map fst T) <-> In c ids) /\
      forall c v, In (c, v) T -> tallied ignore c v (flat_map D (inputs s)).
Proof. exact C152_pixel_counts_pf. Qed.

(** Each pixel is counted in exactly one of the four, unless its true class is ignored. *)
Theorem C152_every_pixel_once :
  forall ignore c v D, tallied ignore c v D -> ignore <> Some c ->
    p_tp v + p_fn v + p_fp v + p_tn v = tally (fun a _ => negb (ignored ignore a)) D.
Proof. exact C152_every_pixel_once_pf. Qed.

(** Images of different sizes, or arrays that are no images, are refused. *)
Theorem C152_other_sizes_refused :
  forall ids ignore s e, In e (inputs s) ->
    (s_truth e = NotAnImage \/ s_predicted e = NotAnImage \/
     exists g p, s_truth e = Image g /\ s_predicted e = Image p /\ (length g <> length p \/ exists r g' r' p', g = r :: g' /\ p = r' :: p' /\ length r <> length r')) ->
    is_ok (outcome (segmentation_combiner ids ignore) s) = false.
Proof. exact C152_other_sizes_refused_pf. Qed.

Example C152_pixel_counts_example :
  outcome (segmentation_combiner [1; 2]%Z (Some 0%Z)) (Merge (Bundle [two_by_two]) [Bundle []; Bundle [two_by_two]]) =
    Ok [(1%Z, Pixels 2 2 0 2); (2%Z, Pixels 2 2 2 0)].
Proof. reflexivity. Qed.

(** Refuted for the ignored class itself: its pixels are counted. *)
Theorem C152_ignored_class_refuted :
  exists ids ignore e D T v, segmented e D /\ ids = [ignore] /\ tally (fun a _ => negb (Z.eqb a ignore)) D = 0 /\
    outcome (segmentation_combiner ids (Some ignore)) (Bundle [e]) = Ok T /\ In (ignore, v) T /\ p_tp v + p_fn v = 2.
Proof. exact C152_ignored_class_refuted_pf. Qed.

(** Refuted for a class listed twice: every pixel counts twice. *)
Theorem C152_repeated_class_refuted :
  exists ids e D T v c, segmented e D /\ In c ids /\ outcome (segmentation_combiner ids None) (Bundle [e]) = Ok T /\ In (c, v) T /\
    p_tp v + p_fn v + p_fp v + p_tn v = 2 * length D /\ length D = 4.
Proof. exact C152_repeated_class_refuted_pf. Qed.

(* ------------------------------------------------------------------ *)
(** ** C153 - C155 sets of classes as pairs *)
(** C153: one pair for every class that is a label or predicted. *)
Theorem C153_set_match_pairs :
  forall iter top_k e scores,
    (forall l, Permutation (iter l) l) ->
    se_scores e = Some scores -> length (se_classes e) = length scores -> weight_shape e ->
    exists cs out, set_match iter (option_map Z.of_nat top_k) e = Ok out /\ NoDup cs /\
      (forall c, In c cs <-> In c (se_labels e) \/ In c (map fst (considered top_k e scores))) /\
      Forall2 (pair_of top_k e scores) cs out.
Proof. exact C153_set_match_pairs_pf. Qed.

Example C153_set_match_example :
  set_match (fun l => l) None sun_and_moon =
    Ok [Matched 1 (Fin 1%Qc) (Some (Q2Qc (3#100))); Matched 1 NegInf (Some (Q2Qc (4#100)));
        Matched 0 (Fin (Q2Qc (7#10))) (Some (Q2Qc (1#10))); Matched 0 (Fin (Q2Qc (3#10))) (Some (Q2Qc (1#10)))].
Proof. qc_ex. Qed.

(** Refuted for an example of weight zero: its pairs weigh one. *)
Theorem C153_zero_weight_refuted :
  exists e out, se_weight e = Some [0%Qc] /\ se_weighted_classes e = Some (["sun"], [1%Qc]) /\
    set_match (fun l => l) None e = Ok out /\ out = [Matched 1 (Fin 1%Qc) (Some 1%Qc)].
Proof. exact C153_zero_weight_refuted_pf. Qed.

(** ... and without class weights none is passed on, which the metrics take for one. *)
Theorem C153_zero_weight_dropped_refuted :
  exists e out, se_weight e = Some [0%Qc] /\ se_weighted_classes e = None /\
    set_match (fun l => l) None e = Ok out /\ out = [Matched 1 (Fin 1%Qc) None].
Proof. exact C153_zero_weight_dropped_refuted_pf. Qed.

(** C154, refuted: the k highest scoring classes. *)
Theorem C154_top_k_refuted :
  exists e out, se_classes e = ["low"; "high"] /\ se_scores e = Some [Fin (Q2Qc (1#10)); Fin (Q2Qc (9#10))] /\
    set_match (fun l => l) (Some 1%Z) e = Ok out /\
    ~ In (Fin (Q2Qc (9#10))) (map m_prediction out) /\ In (Fin (Q2Qc (1#10))) (map m_prediction out).
Proof. exact C154_top_k_refuted_pf. Qed.

(** It is right for predictions listed from the highest score down. *)
Theorem C154_ranked_predictions :
  forall k e scores qs, scores = map Fin qs -> length (se_classes e) = length scores -> StronglySorted (fun a b => b <= a)%Qc qs ->
    forall c x c' x', In (c, Fin x) (considered (Some k) e scores) -> In (c', Fin x') (skipn k (combine (se_classes e) scores)) -> (x' <= x)%Qc.
Proof. exact C154_ranked_predictions_pf. Qed.

Example C154_ranked_example :
  considered (Some 1) (SetExample ["a"] ["high"; "low"] (Some [Fin (Q2Qc (9#10)); Fin (Q2Qc (1#10))]) None None) [Fin (Q2Qc (9#10)); Fin (Q2Qc (1#10))] = [("high", Fin (Q2Qc (9#10)))].
Proof. reflexivity. Qed.

(** C155, refuted: predictions without scores, as in the documentation. *)
Theorem C155_no_scores_refuted :
  exists e, se_scores e = None /\ se_labels e = ["sun"; "moon"] /\ se_classes e = ["sun"; "sea"; "light"] /\
    forall iter top_k, set_match iter top_k e = Err TypeError.
Proof. exact C155_no_scores_refuted_pf. Qed.

Print Assumptions C147_multi_class_matrices.
Print Assumptions C147_each_example_once.
Print Assumptions C147_single_score_refused.
Print Assumptions C147_any_thresholds_refuted.
Print Assumptions C147_repeated_threshold_refuted.
Print Assumptions C148_own_thresholds_refuted.
Print Assumptions C148_separate_outputs.
Print Assumptions C149_elementwise.
Print Assumptions C149_elementwise_defined.
Print Assumptions C149_broadcast.
Print Assumptions C150_rendering.
Print Assumptions C150_even_thresholds.
Print Assumptions C150_one_threshold_refuted.
Print Assumptions C151_multi_label_matrices.
Print Assumptions C151_repeated_threshold_refuted.
Print Assumptions C152_pixel_counts.
Print Assumptions C152_every_pixel_once.
Print Assumptions C152_other_sizes_refused.
Print Assumptions C152_ignored_class_refuted.
Print Assumptions C152_repeated_class_refuted.
Print Assumptions C153_set_match_pairs.
Print Assumptions C153_zero_weight_refuted.
Print Assumptions C153_zero_weight_dropped_refuted.
Print Assumptions C154_top_k_refuted.
Print Assumptions C154_ranked_predictions.
Print Assumptions C155_no_scores_refuted.
