(* Detection *)
From Coq Require Import String Ascii Sorted.
From Verif Require Import Base BaseFacts Beam BeamFacts Util_Model Util_Main Keys_Model Inputs_Model Inputs_Main Sums_Model Sums_Main Histogram_Model Histogram_Main Confusion_Model Confusion_Main Evaluator_Model Evaluator_Main Classes_Main Ranking_Model Ranking_Main Detection_Model.
From Verif Require Import Detection_Main.
Local Open Scope string_scope.
Local Open Scope list_scope.

(* ------------------------------------------------------------------ *)
(** ** C156 intersection over union *)
(** C156: the size of the common part over the size covered by the two boxes. *)
Theorem C156_intersection_over_union :
  forall a b i, proper a -> proper b -> proper i -> (0 < size a \/ 0 < size b)%Qc ->
    (forall x y, inside i x y <-> inside a x y /\ inside b x y) ->
    (iou a b * (size a + size b - size i) = size i)%Qc.
Proof. exact C156_intersection_over_union_pf. Qed.

Example C156_intersection_over_union_example :
  iou (ex_box 0 0 10 10 1) (ex_box 5 0 15 10 1) = Q2Qc (1#3) /\ size (ex_box 5 0 10 10 1) = qz 50 /\
  forall x y, inside (ex_box 5 0 10 10 1) x y <-> inside (ex_box 0 0 10 10 1) x y /\ inside (ex_box 5 0 15 10 1) x y.
Proof.
  split; [vm_compute; qc_ex|]. split; [vm_compute; qc_ex|]. intros x y. unfold inside, ex_box, b_left, b_top, b_right, b_bottom. cbn [nth].
  assert (A : (qz 0 <= qz 5)%Qc) by (vm_compute; discriminate). assert (B : (qz 10 <= qz 15)%Qc) by (vm_compute; discriminate).
  split; [intros (? & ? & ? & ?)|intros [(? & ? & ? & ?) (? & ? & ? & ?)]]; repeat split; first [assumption | apply (Qcle_trans _ (qz 5)); assumption | apply (Qcle_trans _ (qz 10)); assumption].
Qed.

Theorem C156_disjoint_boxes :
  forall a b, proper a -> proper b -> (forall x y, ~ (inside a x y /\ inside b x y)) -> iou a b = 0%Qc.
Proof. exact C156_disjoint_boxes_pf. Qed.

Example C156_disjoint_boxes_example : iou (ex_box 0 0 10 10 1) (ex_box 11 0 15 10 1) = 0%Qc.
Proof. vm_compute. qc_ex. Qed.

Theorem C156_range :
  forall a b, proper a -> proper b -> (0 <= iou a b <= 1)%Qc.
Proof. exact C156_range_pf. Qed.

Example C156_range_example : iou (ex_box 0 0 10 10 1) (ex_box 0 0 10 5 1) = Q2Qc (1#2).
Proof. vm_compute. qc_ex. Qed.

Theorem C156_symmetric : forall a b, iou a b = iou b a.
Proof. exact C156_symmetric_pf. Qed.

Example C156_symmetric_example : iou (ex_box 0 0 10 5 1) (ex_box 0 0 10 10 1) = iou (ex_box 0 0 10 10 1) (ex_box 0 0 10 5 1).
Proof. apply C156_symmetric. Qed.

Theorem C156_same_box :
  forall a b, proper a -> proper b -> (0 < size a)%Qc -> (0 < size b)%Qc ->
    (iou a b = 1%Qc <-> b_left a = b_left b /\ b_top a = b_top b /\ b_right a = b_right b /\ b_bottom a = b_bottom b).
Proof. exact C156_same_box_pf. Qed.

Example C156_same_box_example : iou (ex_box 1 2 3 4 1) (ex_seen 1 2 3 4 7 (1#2)) = 1%Qc /\ iou (ex_box 1 2 3 4 1) (ex_box 1 2 3 5 1) <> 1%Qc.
Proof. split; [vm_compute; qc_ex|vm_compute; discriminate]. Qed.

(** C156: the table has the value for each pair; a box whose right edge is left of its
    left edge, or that is upside down, is refused. *)
Theorem C156_table :
  forall ps gs, (forall b, In b ps \/ In b gs -> proper b) ->
    exists t, compute_ious_for_image ps gs = Ok t /\ length t = length ps /\
      forall i p, nth_error ps i = Some p -> exists row, nth_error t i = Some row /\ length row = length gs /\
        forall j g, nth_error gs j = Some g -> nth_error row j = Some (iou p g).
Proof. exact C156_table_pf. Qed.

Example C156_table_example :
  compute_ious_for_image [ex_box 0 0 2 2 1; ex_box 5 5 6 6 1] [ex_box 0 0 2 1 1; ex_box 5 5 6 6 1; ex_box 8 8 9 9 1] =
  Ok [[Q2Qc (1#2); 0%Qc; 0%Qc]; [0%Qc; 1%Qc; 0%Qc]].
Proof. vm_compute. qc_ex. Qed.

Theorem C156_improper_refused :
  forall ps gs b, In b ps \/ In b gs -> ~ proper b -> compute_ious_for_image ps gs = Err ValueError.
Proof. exact C156_improper_refused_pf. Qed.

Example C156_improper_refused_example : compute_ious_for_image [ex_box 0 0 2 2 1] [ex_box 3 0 2 1 1] = Err ValueError.
Proof. vm_compute. reflexivity. Qed.

(* ------------------------------------------------------------------ *)
(** ** C157 greedy matching *)
(** C157: the two directions agree and the matching is the greedy one. *)
Theorem C157_greedy_matching :
  forall ious n t, (forall row, In row ious -> length row = n) -> (0 <= t)%Qc ->
    exists g q, match_boxes ious n t = Ok (g, q) /\ length g = n /\
      (forall i j, nth_error g j = Some (Some i) <-> nth_error q i = Some (Some j)) /\
      greedy (ov_of ious) (needed t) (length ious) n q.
Proof. exact C157_greedy_matching_pf. Qed.

Example C157_greedy_matching_example :
  match_boxes [[Q2Qc (3#5); Q2Qc (7#10)]; [Q2Qc (1#5); Q2Qc (9#10)]; [Q2Qc (1#2); 0%Qc]] 2 (Q2Qc (1#2)) = Ok ([Some 2%nat; Some 0%nat], [Some 1%nat; None; Some 0%nat]).
Proof. vm_compute. reflexivity. Qed.

Theorem C157_negative_threshold_refused :
  forall ious n t, (t < 0)%Qc -> match_boxes ious n t = Err ValueError.
Proof. exact C157_negative_threshold_refused_pf. Qed.

Example C157_negative_threshold_refused_example : match_boxes [[Q2Qc (1#2)]] 1 (qz (-1)) = Err ValueError.
Proof. reflexivity. Qed.

(** Each prediction has one ground truth, and nobody shares. *)
Theorem C157_one_to_one :
  forall ious n t g q, (forall row, In row ious -> length row = n) -> match_boxes ious n t = Ok (g, q) ->
    forall i i' j, nth_error q i = Some (Some j) -> nth_error q i' = Some (Some j) -> i = i'.
Proof. exact C157_one_to_one_pf. Qed.

Example C157_one_to_one_example :
  match_boxes [[1%Qc]; [1%Qc]] 1 (Q2Qc (1#2)) = Ok ([Some 0%nat], [Some 0%nat; None]).
Proof. vm_compute. reflexivity. Qed.

(* ------------------------------------------------------------------ *)
(** ** C158 the pairs of label and score *)
(** C158: with boxes as they should be, an example yields one pair of label 1 for each
    object of the class in the area range, and one of label 0 for each detection in range
    that found no object. *)
Theorem C158_pairs :
  forall st gt preds weight, good_settings st ->
    (forall b, In b gt \/ In b preds -> of_class (ds_class_id st) b = true -> proper b) ->
    exists best taken ps,
      let objects := filter (in_range (ds_area_range st)) (filter (of_class (ds_class_id st)) gt) in
      most_confident (ds_max_num_detections st) (filter (of_class (ds_class_id st)) preds) best /\
      greedy (fun i j => iou (nth i best []) (nth j objects [])) (needed (ds_iou_threshold st)) (length best) (length objects) taken /\
      detection_process st (DetectionExtracts (Rows 5 gt) (Rows 6 preds) weight) = Ok ps /\
      Permutation ps (expected_pairs (ds_area_range st) best objects taken (given 1%Qc weight * given 1%Qc (ds_class_weight st))).
Proof. exact C158_pairs_pf. Qed.

Example C158_pairs_example :
  detection_process ex_settings (DetectionExtracts (Rows 5 [ex_box 0 0 4 4 1; ex_box 10 10 14 14 1; ex_box 0 0 4 4 2])
    (Rows 6 [ex_seen 10 10 14 14 1 (3#10); ex_seen 20 20 24 24 1 (6#10); ex_seen 0 0 4 4 2 (9#10)]) (Some (qz 2))) =
  Ok [(1%Qc, Q2Qc (3#10), qz 2); (1%Qc, 0%Qc, qz 2); (0%Qc, Q2Qc (6#10), qz 2)].
Proof. vm_compute. qc_ex. Qed.

(** C158: settings that make no sense are refused. *)
Theorem C158_refused :
  forall st gt preds weight, num_leb (snd (ds_area_range st)) (fst (ds_area_range st)) = true \/ (ds_iou_threshold st < 0)%Qc \/ (ds_class_id st < 0)%Z \/
      (exists k, ds_max_num_detections st = Some k /\ (k <= 0)%Z) \/ (exists w, ds_class_weight st = Some w /\ (w < 0)%Qc) ->
    detection_process st (DetectionExtracts (Rows 5 gt) (Rows 6 preds) weight) = Err ValueError.
Proof. exact C158_refused_pf. Qed.

Example C158_refused_example :
  detection_process (DetectionSettings 1 (Q2Qc (1#2)) everything (Some 0%Z) None) (DetectionExtracts (Rows 5 [ex_box 0 0 4 4 1]) (Rows 6 []) None) = Err ValueError.
Proof. vm_compute. reflexivity. Qed.

(* ------------------------------------------------------------------ *)
(** ** C159 the order of the predictions *)
(** C159: predictions of different confidence may come in any order. *)
Theorem C159_order_irrelevant :
  forall st labels preds preds' weight c, Permutation preds preds' ->
    NoDup (map b_confidence (filter (of_class (ds_class_id st)) preds)) ->
    detection_process st (DetectionExtracts labels (Rows c preds') weight) = detection_process st (DetectionExtracts labels (Rows c preds) weight).
Proof. exact C159_order_irrelevant_pf. Qed.

Example C159_order_irrelevant_example :
  let st := DetectionSettings 1 (Q2Qc (1#2)) everything (Some 1%Z) None in
  let a := ex_seen 0 0 4 4 1 (3#10) in let b := ex_seen 20 20 24 24 1 (6#10) in
  detection_process st (DetectionExtracts (Rows 5 [ex_box 0 0 4 4 1]) (Rows 6 [a; b]) None) = Ok [(1%Qc, 0%Qc, 1%Qc); (0%Qc, Q2Qc (6#10), 1%Qc)] /\
  detection_process st (DetectionExtracts (Rows 5 [ex_box 0 0 4 4 1]) (Rows 6 [b; a]) None) = Ok [(1%Qc, 0%Qc, 1%Qc); (0%Qc, Q2Qc (6#10), 1%Qc)].
Proof. split; vm_compute; qc_ex. Qed.

(* ------------------------------------------------------------------ *)
(** ** C160 what the matrices count *)
(** C160: whatever the schedule, at a threshold t the true positives are the objects
    found, the false positives the detections of nothing, the false negatives the
    remaining objects; each counted with the weight of its image. *)
Theorem C160_matrices_count_objects :
  forall ap st images ths limit weighted lk pk,
    good_settings st ->
    (forall im b, In im images -> In b (im_objects im) \/ In b (im_predictions im) -> of_class (ds_class_id st) b = true -> proper b) ->
    NoDup ths -> (1 <= limit)%nat -> (forall t, In t ths -> 0 <= t)%Qc ->
    exists matching pairs,
      Forall2 (matched st) images matching /\
      mapM (pairs_of st) images = Ok pairs /\
      forall s, Permutation (map snd (inputs s)) (map (fun x => snd (detection_input x)) (concat pairs)) ->
        exists cm xm,
          outcome (confusion_combiner ap (map Fin ths) limit (histogram_options None false weighted true None) lk pk "" "") s = Ok (cm, xm) /\
          forall i, (i < length ths)%nat ->
            let t := nth i ths 0%Qc in
            tp_at cm i = qsum (map (fun x => image_weight weighted st (fst x) * qn (found_objects st t (fst x) (snd x)))%Qc (combine images matching)) /\
            fp_at cm i = qsum (map (fun x => image_weight weighted st (fst x) * qn (false_alarms st t (snd x)))%Qc (combine images matching)) /\
            (tp_at cm i + fn_at cm i = qsum (map (fun im => image_weight weighted st im * qn (length (objects_of st im))) images))%Qc.
Proof. exact C160_matrices_count_objects_pf. Qed.

Example C160_matrices_count_objects_example :
  let images := [Image [ex_box 0 0 4 4 1; ex_box 10 10 14 14 1] [ex_seen 0 0 4 4 1 (9#10); ex_seen 20 20 24 24 1 (6#10)] (Some (qz 3));
                 Image [ex_box 0 0 4 4 1] [ex_seen 0 0 4 4 1 (1#10)] None] in
  (let! ps := mapM (pairs_of ex_settings) images in
   let! r := outcome (confusion_combiner ap_sort [Fin (Q2Qc (1#2))] 1 (histogram_options None false true true None) "" "" "" "") (Bundle (map detection_input (concat ps))) in
   Ok (tp_at (fst r) 0, fp_at (fst r) 0, fn_at (fst r) 0)) = Ok (qz 3, qz 3, qz 4).
Proof. vm_compute. qc_ex. Qed.

(** C161: the same metrics for one of several named models, or outputs, never succeed:
    the pairs the preprocessor yields are not keyed by model or output. *)
Theorem C161_named_models_always_fail :
  forall ap ths limit weighted lk pk m o s x, m <> "" \/ o <> "" -> In (detection_input x) (inputs s) ->
    is_ok (outcome (confusion_combiner ap ths limit (histogram_options None false weighted true None) lk pk m o) s) = false.
Proof. exact C161_named_models_always_fail_pf. Qed.

Example C161_named_models_always_fail_example :
  outcome (confusion_combiner ap_sort [Fin (Q2Qc (1#2))] 1 (histogram_options None false true true None) "" "" "" "head")
    (Bundle [detection_input (1%Qc, Q2Qc (1#2), 1%Qc)]) = Err ValueError.
Proof. vm_compute. reflexivity. Qed.

(** C161: the preprocessor produces pairs for a named model, which the combiner of that
    model then refuses. *)
Theorem C161_several_models_refuted :
  exists st im ps,
    pairs_of st im = Ok ps /\ ps <> [] /\
    is_ok (outcome (confusion_combiner ap_sort [Fin (Q2Qc (1#2))] 1 (histogram_options None false true true None) "" "" "" "") (Bundle (map detection_input ps))) = true /\
    outcome (confusion_combiner ap_sort [Fin (Q2Qc (1#2))] 1 (histogram_options None false true true None) "" "" "candidate" "") (Bundle (map detection_input ps)) = Err ValueError.
Proof. exact C161_several_models_refuted_pf. Qed.

(* ------------------------------------------------------------------ *)
(** ** C162 objects outside of the area range *)
(** An object outside of the range is left out, the detection that found it is not. *)
Theorem C162_area_range_refuted :
  exists st g p q,
    in_range (ds_area_range st) g = false /\ (ds_iou_threshold st <= iou p g)%Qc /\
    pairs_of st (Image [g] [p] None) = Ok [(0%Qc, q, 1%Qc)] /\ (0 < q)%Qc.
Proof. exact C162_area_range_refuted_pf. Qed.

(** Detections outside of the range are no false positives. *)
Theorem C162_detections_outside_partial :
  forall st im ps, good_settings st ->
    (forall b, In b (im_objects im) \/ In b (im_predictions im) -> of_class (ds_class_id st) b = true -> proper b) ->
    (forall b, In b (im_predictions im) -> of_class (ds_class_id st) b = true -> in_range (ds_area_range st) b = false) ->
    pairs_of st im = Ok ps -> forall x, In x ps -> fst (fst x) = 1%Qc.
Proof. exact C162_detections_outside_partial_pf. Qed.

Example C162_example :
  pairs_of (DetectionSettings 1 (Q2Qc (1#2)) (Fin 0%Qc, Fin (qz 100)) None None) (Image [ex_box 0 0 10 10 1] [ex_seen 0 0 10 11 1 (9#10)] None) =
  Ok [(1%Qc, Q2Qc (9#10), 1%Qc)].
Proof. vm_compute. qc_ex. Qed.

(* ------------------------------------------------------------------ *)
(** ** C163 stacking columns *)
(** A key is looked up in one dictionary after the other. *)
Theorem C163_first_dictionary_wins :
  forall V (dicts : list (list (string * V))) k v,
    chain_get dicts k = Some v <->
    exists pre d post, dicts = pre ++ d :: post /\ dget String.eqb d k = Some v /\ forall d', In d' pre -> dget String.eqb d' k = None.
Proof. exact C163_first_dictionary_wins_pf. Qed.

Example C163_first_dictionary_wins_example : chain_get [[("b", 1%Z)]; [("a", 2%Z)]; [("a", 3%Z); ("b", 4%Z)]] "a" = Some 2%Z.
Proof. reflexivity. Qed.

(** C163: row i of the result holds the entries i of all columns, in the order of the
    names. *)
Theorem C163_rows_of_columns :
  forall dicts names cols allow e L, names <> [] ->
    Forall2 (fun k c => exists col, chain_get dicts k = Some col /\ column_rows col = Some c) names cols ->
    (forall c, In c cols -> length (snd c) = L) ->
    exists rows, stack_columns dicts names allow e [] = Ok (Rows (list_sum (map fst cols)) rows) /\ length rows = L /\
      forall i, (i < L)%nat -> nth i rows [] = concat (map (fun c => nth i (snd c) []) cols).
Proof. exact C163_rows_of_columns_pf. Qed.

(** A key that is nowhere: no boxes if that is allowed, an error otherwise. *)
Theorem C163_missing_key :
  forall dicts names cols k rest allow e,
    Forall2 (fun k c => exists col, chain_get dicts k = Some col /\ column_rows col = Some c) names cols -> chain_get dicts k = None ->
    stack_columns dicts (names ++ k :: rest) allow e [] = if allow then Ok (Rows e []) else Err KeyError.
Proof. exact C163_missing_key_pf. Qed.

Example C163_missing_key_example :
  stack_columns [[("xmin", Flat [qz 1])]] ["xmin"; "ymin"] true 5 [] = Ok (Rows 5 []) /\ stack_columns [[("xmin", Flat [qz 1])]] ["xmin"; "ymin"] false 5 [] = Err KeyError.
Proof. split; reflexivity. Qed.

(** Columns of different lengths are refused. *)
Theorem C163_different_lengths_refused :
  forall dicts names cols allow e c0 c,
    Forall2 (fun k c => exists col, chain_get dicts k = Some col /\ column_rows col = Some c) names (c0 :: cols) ->
    In c cols -> length (snd c) <> length (snd c0) ->
    stack_columns dicts names allow e [] = Err ValueError.
Proof. exact C163_different_lengths_refused_pf. Qed.

Example C163_different_lengths_refused_example :
  stack_columns [[("xmin", Flat [qz 1; qz 2]); ("ymin", Flat [qz 1])]] ["xmin"; "ymin"] false 5 [] = Err ValueError.
Proof. reflexivity. Qed.

Example C163_example :
  stack_columns [[("xmin", Flat [qz 1; qz 2])]; [("xmin", Flat []); ("box", Table 2 [[qz 3; qz 4]; [qz 5; qz 6]])]] ["xmin"; "box"] false 5 [] =
  Ok (Rows 3 [[qz 1; qz 3; qz 4]; [qz 2; qz 5; qz 6]]).
Proof. reflexivity. Qed.

(* ------------------------------------------------------------------ *)
(** ** C164 the number of detections *)
(** C164: a positive number keeps that many rows. *)
Theorem C164_truncated_partial :
  forall dicts k n rows allow, chain_get dicts k = Some n -> (0 < n)%Z ->
    truncate_by_num_detections dicts k rows allow = Ok (firstn (Z.to_nat n) rows).
Proof. exact C164_truncated_partial_pf. Qed.

Theorem C164_missing_number :
  forall dicts k rows allow, chain_get dicts k = None ->
    truncate_by_num_detections dicts k rows allow = if allow then Ok rows else Err KeyError.
Proof. exact C164_missing_number_pf. Qed.

Example C164_missing_number_example : truncate_by_num_detections [[("n", 1%Z)]] "m" [[qz 1]; [qz 2]] false = Err KeyError.
Proof. reflexivity. Qed.

(** No detection at all: the padding is kept, and counted as detections. *)
Theorem C164_no_detections_refuted :
  exists rows ps, truncate_by_num_detections [[("num_detections", 0%Z)]] "num_detections" rows false = Ok rows /\ rows <> [] /\
    pairs_of ex_settings (Image [] rows None) = Ok ps /\ ps <> [].
Proof. exact C164_no_detections_refuted_pf. Qed.

Example C164_example :
  truncate_by_num_detections [[("n", 1%Z)]] "n" [[qz 1]; [qz 2]] false = Ok [[qz 1]].
Proof. reflexivity. Qed.

(* ------------------------------------------------------------------ *)
(** ** C165 arguments that are accepted *)
(** Settings that pass the check when the metric is set up, yet every image is refused. *)
Theorem C165_equal_bounds_refuted :
  exists c lo hi, validate_object_detection_arguments (Some [c]) None (Some [lo; hi]) None "" false = Ok tt /\
    forall im, pairs_of (DetectionSettings c (Q2Qc (1#2)) (lo, hi) None None) im = Err ValueError.
Proof. exact C165_equal_bounds_refuted_pf. Qed.

Theorem C165_negative_class_refuted :
  exists c, validate_object_detection_arguments (Some [c]) None None None "" false = Ok tt /\
    forall im, pairs_of (DetectionSettings c (Q2Qc (1#2)) everything None None) im = Err ValueError.
Proof. exact C165_negative_class_refuted_pf. Qed.

(** Boxes with a further column pass the check of the preprocessor ("5+") and are
    refused by the matching. *)
Theorem C165_more_columns_refuted :
  exists n, columns_at_least 5 (Rows n []) = true /\
    forall st gt c preds w, detection_process st (DetectionExtracts (Rows n gt) (Rows c preds) w) = Err ValueError.
Proof. exact C165_more_columns_refuted_pf. Qed.

(** Otherwise what is accepted works. *)
Theorem C165_accepted_partial :
  forall c w lo hi k output stacked t im,
    validate_object_detection_arguments (Some [c]) (option_map (fun x => [x]) w) (Some [lo; hi]) k output stacked = Ok tt ->
    (0 <= c)%Z -> num_leb hi lo = false -> (0 <= t)%Qc ->
    (forall b, In b (im_objects im) \/ In b (im_predictions im) -> of_class c b = true -> proper b) ->
    is_ok (pairs_of (DetectionSettings c t (lo, hi) k w) im) = true.
Proof. exact C165_accepted_partial_pf. Qed.

(** What is not accepted. *)
Theorem C165_rejected :
  forall ids ws range k output stacked,
    validate_object_detection_arguments ids ws range k output stacked = Ok tt <->
    exists cs, ids = Some cs /\
      (forall l, ws = Some l -> length l = length cs /\ forall w, In w l -> (0 <= w)%Qc) /\
      (forall l, range = Some l -> exists lo hi, l = [lo; hi] /\ num_ltb hi lo = false) /\
      (forall n, k = Some n -> 0 < n)%Z /\ (output = "" \/ stacked = false).
Proof. exact C165_rejected_pf. Qed.

Example C165_example :
  validate_object_detection_arguments (Some [1; 2]%Z) (Some [qz 1; qz 3]) (Some [Fin 0%Qc; PosInf]) (Some 100%Z) "" true = Ok tt /\
  validate_object_detection_arguments (Some [1; 2]%Z) (Some [qz 1]) None None "" true = Err ValueError /\
  is_ok (pairs_of (DetectionSettings 2 (Q2Qc (1#2)) everything (Some 100%Z) (Some (qz 3))) (Image [ex_box 0 0 1 1 2] [ex_seen 0 0 1 1 2 (1#2)] None)) = true.
Proof. repeat split. Qed.

(* ------------------------------------------------------------------ *)
(** ** C166 averages *)
(** C166: the average is NaN only without any number; otherwise it lies between the
    smallest and the largest number and, as often as there are numbers, makes their
    sum. *)
Theorem C166_average :
  forall l, (nanmean l = NaN <-> forall x, In x l -> ~ is_number x) /\
    forall m, nanmean l = Fin m ->
      (forall a b, (forall q, In (Fin q) l -> a <= q /\ q <= b) -> a <= m /\ m <= b)%Qc /\
      exists qs, (forall x, In (Fin x) l <-> In x qs) /\ (m * qn (length qs) = qsum qs)%Qc /\
        length qs = length (filter (fun x => match x with Fin _ => true | _ => false end) l).
Proof. exact C166_average_pf. Qed.

Example C166_average_example : nanmean [Fin (Q2Qc (1#2)); NaN; Fin 1%Qc] = Fin (Q2Qc (3#4)) /\ nanmean [NaN] = NaN.
Proof. split; [vm_compute; qc_ex|reflexivity]. Qed.

(** The mean over thresholds and classes. *)
Theorem C166_mean_over_classes :
  forall average ts cs ws a b m, (forall t c w q, average t c w = Fin q -> a <= q /\ q <= b)%Qc ->
    coco_mean_average average ts cs ws = Fin m -> (a <= m /\ m <= b)%Qc.
Proof. exact C166_mean_over_classes_pf. Qed.

(** The mean runs over every threshold and every class with its weight. *)
Theorem C166_every_class :
  forall average ts cs ws m,
    coco_mean_average average ts cs ws = Fin m ->
    let thresholds := match ts with Some l => l | None => map (fun k => qn k * Q2Qc (1 # 20))%Qc (seq 10 10) end in
    let value t i := match average t (nth i cs 0%Z) (match ws with Some l => nth i l 0%Qc | None => 1%Qc end) with Fin q => [q] | _ => [] end in
    (forall l, ws = Some l -> length l = length cs) ->
    (m * qn (length (flat_map (fun t => flat_map (value t) (seq 0 (length cs))) thresholds)) =
     qsum (flat_map (fun t => flat_map (value t) (seq 0 (length cs))) thresholds))%Qc.
Proof. exact C166_every_class_pf. Qed.

Example C166_every_class_example :
  coco_mean_average (fun t c w => Fin (t * qz c * w)%Qc) (Some [Q2Qc (1#2)]) [2; 4]%Z (Some [1%Qc; qz 3]) = Fin (Q2Qc (7#2)).
Proof. vm_compute. qc_ex. Qed.

Example C166_mean_over_classes_example :
  coco_mean_average (fun t c _ => if Z.eqb c 7 then NaN else Fin t) (Some [Q2Qc (1#4); Q2Qc (3#4)]) [3; 7]%Z None = Fin (Q2Qc (1#2)).
Proof. vm_compute. qc_ex. Qed.

(** C166: the confidence thresholds lie strictly within 0 and 1, in ascending order. *)
Theorem C166_confidence_thresholds :
  forall n, (2 <= n)%nat -> (Z.of_nat (n - 1) < 10 ^ 12)%Z ->
    length (coco_thresholds (Some n)) = n /\ StronglySorted Qclt (coco_thresholds (Some n)) /\
    forall t, In t (coco_thresholds (Some n)) -> (0 < t /\ t < 1)%Qc.
Proof. exact C166_confidence_thresholds_pf. Qed.

Example C166_confidence_thresholds_example :
  coco_thresholds (Some 3%nat) = [Q2Qc (1 # 1000000000000); Q2Qc (1 # 2); (1 - Q2Qc (1 # 1000000000000))%Qc].
Proof. vm_compute. qc_ex. Qed.

(** The thresholds on the overlap that are used if none are given. *)
Theorem C166_overlap_thresholds :
  forall t, In t coco_iou_thresholds <-> exists k, (10 <= k <= 19)%nat /\ t = (qn k * Q2Qc (1 # 20))%Qc.
Proof. exact C166_overlap_thresholds_pf. Qed.

Example C166_overlap_thresholds_example : In (Q2Qc (3#4)) coco_iou_thresholds.
Proof. apply C166_overlap_thresholds. exists 15%nat. split; [lia|]. vm_compute. qc_ex. Qed.

(* ------------------------------------------------------------------ *)
(** ** C167 weights in COCO metrics *)
(** C167: the average precision does not look at its example_weighted setting. *)
Theorem C167_example_weights_refuted :
  exists precisions, precisions true <> precisions false /\ coco_average_precision precisions true <> nanmean (precisions true) /\
    forall w, coco_average_precision precisions w = nanmean (precisions false).
Proof. exact C167_example_weights_refuted_pf. Qed.

(** C167: whatever the weights of the class, the same counts and so the same averages:
    the matrices are built without weights. *)
Theorem C167_class_weights_ignored :
  forall ap ths limit lk pk st images w w', 
    (forall x, w = Some x -> 0 <= x)%Qc -> (forall x, w' = Some x -> 0 <= x)%Qc ->
    (let! ps := mapM (pairs_of (with_class_weight st w)) images in
     outcome (confusion_combiner ap ths limit (histogram_options None false false true None) lk pk "" "") (Bundle (map detection_input (concat ps)))) =
    (let! ps := mapM (pairs_of (with_class_weight st w')) images in
     outcome (confusion_combiner ap ths limit (histogram_options None false false true None) lk pk "" "") (Bundle (map detection_input (concat ps)))).
Proof. exact C167_class_weights_ignored_pf. Qed.

Example C167_class_weights_ignored_example :
  let heavy := with_class_weight ex_settings (Some (qz 5)) in
  pairs_of heavy (Image [ex_box 0 0 1 1 1] [ex_seen 0 0 1 1 1 (1#2)] None) = Ok [(1%Qc, Q2Qc (1#2), qz 5)] /\
  pairs_of ex_settings (Image [ex_box 0 0 1 1 1] [ex_seen 0 0 1 1 1 (1#2)] None) = Ok [(1%Qc, Q2Qc (1#2), 1%Qc)].
Proof. split; vm_compute; qc_ex. Qed.

(** So class weights do not make a weighted mean over the classes. *)
Theorem C167_class_weights_refuted :
  exists cs ws (average : Qc -> Z -> Qc -> num), length ws = length cs /\
    coco_mean_average average (Some [Q2Qc (1#2)]) cs (Some ws) = coco_mean_average average (Some [Q2Qc (1#2)]) cs None /\
    coco_mean_average average (Some [Q2Qc (1#2)]) cs (Some ws) <>
      Fin (qsum (map (fun cw => match average (Q2Qc (1#2)) (fst cw) (snd cw) with Fin q => q * snd cw | _ => 0 end) (combine cs ws)) / qsum ws)%Qc.
Proof. exact C167_class_weights_refuted_pf. Qed.

(* ------------------------------------------------------------------ *)
(** ** C168 several object detection metrics *)
(** Refuted: two metrics that read their boxes from different columns; only the first
    one's boxes are matched, and the second metric shows the result of the first. *)
Theorem C168_own_columns_refuted :
  exists a b name1 name2 sep,
    ma_predictions_to_stack a <> ma_predictions_to_stack b /\ name1 <> name2 /\
    filter_and_separate_computations (detection_computations a 1 "[0.5]" name1 "" "" false ++ detection_computations b 1 "[0.5]" name2 "" "" false) = Ok sep /\
    map (fun c => cp_body (snd c)) (sp_base sep) = [CountPairs a] /\
    map (fun c => (map k_name (cp_keys (snd c)), cp_body (snd c))) (sp_derived sep) =
      [([k_name (detection_matrices_key a "[0.5]" "" "" false)], AsMatrices (detection_matrices_key a "[0.5]" "" "" false));
       ([name1], RatioOf (detection_matrices_key a "[0.5]" "" "" false)); ([name2], RatioOf (detection_matrices_key a "[0.5]" "" "" false))].
Proof. exact C168_own_columns_refuted_pf. Qed.

(** Metrics of different classes keep their own counts. *)
Theorem C168_classes_apart_partial :
  forall a b i j n ts m o w,
    ma_class_id a <> ma_class_id b -> i <> j ->
    ma_iou_threshold a = ma_iou_threshold b -> ma_area_range a = ma_area_range b -> ma_max_num_detections a = ma_max_num_detections b -> ma_class_weight a = ma_class_weight b ->
    exists sep,
      filter_and_separate_computations (detection_computations a i ts n m o w ++ detection_computations b j ts n m o w) = Ok sep /\
      map (fun c => cp_body (snd c)) (sp_base sep) = [CountPairs a; CountPairs b] /\
      map (fun c => cp_body (snd c)) (sp_derived sep) =
        [AsMatrices (detection_matrices_key a ts m o w); RatioOf (detection_matrices_key a ts m o w);
         AsMatrices (detection_matrices_key b ts m o w); RatioOf (detection_matrices_key b ts m o w)].
Proof. exact C168_classes_apart_partial_pf. Qed.

Example C168_classes_apart_example :
  (let! sep := filter_and_separate_computations (detection_computations (MatchArguments "1" None None None None None None None false) 1 "[0.5]" "recall" "" "" false ++
                                                 detection_computations (MatchArguments "2" None None None None None None None false) 2 "[0.5]" "recall" "" "" false) in
   Ok (length (sp_base sep))) = Ok 2%nat.
Proof. vm_compute. reflexivity. Qed.

Print Assumptions C156_intersection_over_union.
Print Assumptions C156_disjoint_boxes.
Print Assumptions C156_range.
Print Assumptions C156_symmetric.
Print Assumptions C156_same_box.
Print Assumptions C156_table.
Print Assumptions C156_improper_refused.
Print Assumptions C157_greedy_matching.
Print Assumptions C157_negative_threshold_refused.
Print Assumptions C157_one_to_one.
Print Assumptions C158_pairs.
Print Assumptions C158_refused.
Print Assumptions C159_order_irrelevant.
Print Assumptions C160_matrices_count_objects.
Print Assumptions C161_named_models_always_fail.
Print Assumptions C161_several_models_refuted.
Print Assumptions C162_area_range_refuted.
Print Assumptions C162_detections_outside_partial.
Print Assumptions C163_first_dictionary_wins.
Print Assumptions C163_rows_of_columns.
Print Assumptions C163_missing_key.
Print Assumptions C163_different_lengths_refused.
Print Assumptions C164_truncated_partial.
Print Assumptions C164_missing_number.
Print Assumptions C164_no_detections_refuted.
Print Assumptions C165_equal_bounds_refuted.
Print Assumptions C165_negative_class_refuted.
Print Assumptions C165_more_columns_refuted.
Print Assumptions C165_accepted_partial.
Print Assumptions C165_rejected.
Print Assumptions C166_average.
Print Assumptions C166_mean_over_classes.
Print Assumptions C166_every_class.
Print Assumptions C166_confidence_thresholds.
Print Assumptions C166_overlap_thresholds.
Print Assumptions C167_example_weights_refuted.
Print Assumptions C167_class_weights_ignored.
Print Assumptions C167_class_weights_refuted.
Print Assumptions C168_own_columns_refuted.
Print Assumptions C168_classes_apart_partial.
