(* Model of metrics/preprocessors/utils/bounding_box.py, box_match.py,
   object_detection_format.py, metrics/preprocessors/object_detection_preprocessors.py,
   the object detection checks of metrics/metric_util.py and the averages of
   metrics/object_detection_metrics.py.  Coordinates and scores are exact and finite. *)
From Coq Require Import String Ascii.
From Verif Require Import Base Util_Model Keys_Model Inputs_Model Evaluator_Model Ranking_Model.
Local Open Scope string_scope.
Local Open Scope list_scope.

(* ------------------------------------------------------------------ *)
(** * bounding_box.py *)

(** A row [LEFT, TOP, RIGHT, BOTTOM, CLASS, CONFIDENCE] (26). *)
Notation box := (list Qc).
Definition b_left (b : box) : Qc := nth 0 b 0%Qc.
Definition b_top (b : box) : Qc := nth 1 b 0%Qc.
Definition b_right (b : box) : Qc := nth 2 b 0%Qc.
Definition b_bottom (b : box) : Qc := nth 3 b 0%Qc.
Definition b_class (b : box) : Qc := nth 4 b 0%Qc.
Definition b_confidence (b : box) : Qc := nth 5 b 0%Qc.

(** A numpy array: two dimensions with this many columns, or another number of
    dimensions. *)
Inductive array2 := Rows (columns : nat) (rows : list (list Qc)) | OtherDimensions.

(** 30-62 [bounding_box_area] (of an array of at least four columns) *)
Definition bounding_box_area (boxes : list box) : res (list Qc) :=
  if existsb (fun b => Qc_ltb (b_right b - b_left b)%Qc 0%Qc) boxes then Err ValueError
  else if existsb (fun b => Qc_ltb (b_bottom b - b_top b)%Qc 0%Qc) boxes then Err ValueError
  else Ok (map (fun b => ((b_right b - b_left b) * (b_bottom b - b_top b))%Qc) boxes).

(** 65-85 [filter_boxes_by_class] *)
Definition filter_boxes_by_class (boxes : list box) (class_ids : list Z) : list box :=
  filter (fun b => existsb (fun c => Qc_eqb (b_class b) (qz c)) class_ids) boxes.

(** 88-117 [check_boxes_in_area_range] *)
Definition check_boxes_in_area_range (boxes : list box) (area_range : num * num) : res (list bool) :=
  if num_leb (snd area_range) (fst area_range) then Err ValueError
  else let! areas := bounding_box_area boxes in
       Ok (map (fun a => num_leb (fst area_range) (Fin a) && num_leb (Fin a) (snd area_range)) areas).

(** boxes[tags, :] *)
Definition select {A} (tags : list bool) (l : list A) : list A := map fst (filter snd (combine l tags)).

(** 120-135 [filter_boxes_by_area_range] *)
Definition filter_boxes_by_area_range (boxes : list box) (area_range : num * num) : res (list box) :=
  let! tags := check_boxes_in_area_range boxes area_range in Ok (select tags boxes).

(** 138-162 [sort_boxes_by_confidence]: np.argsort(-confidence, kind="mergesort") is
    stable. *)
Definition sort_boxes_by_confidence (boxes : list box) : list box :=
  py_sorted (fun a b => Qc_leb (b_confidence b) (b_confidence a)) boxes.

(* ------------------------------------------------------------------ *)
(** * box_match.py *)

(** 137-157: one entry of the table of ious *)
Definition box_area (b : box) : Qc := ((b_right b - b_left b) * (b_bottom b - b_top b))%Qc.
Definition iou (a b : box) : Qc :=
  let intersect_ymin := Qcmax (b_top a) (b_top b) in
  let intersect_xmin := Qcmax (b_left a) (b_left b) in
  let intersect_ymax := Qcmin (b_bottom a) (b_bottom b) in
  let intersect_xmax := Qcmin (b_right a) (b_right b) in
  let intersect_width := Qcmax (intersect_xmax - intersect_xmin)%Qc 0%Qc in
  let intersect_height := Qcmax (intersect_ymax - intersect_ymin)%Qc 0%Qc in
  let intersect_area := (intersect_width * intersect_height)%Qc in
  let union_area := (box_area a + box_area b - intersect_area)%Qc in
  if Qc_eqb union_area 0%Qc then 0%Qc else (intersect_area / union_area)%Qc.

(** 98-157 [compute_ious_for_image]; the areas (134-135) are those of
    [bounding_box_area], which refuses improper boxes. *)
Definition compute_ious_for_image (boxes1 boxes2 : list box) : res (list (list Qc)) :=
  let! _ := bounding_box_area boxes1 in
  let! _ := bounding_box_area boxes2 in
  Ok (map (fun a => map (iou a) boxes2) boxes1).

(** 1.0 - 1e-10 *)
Definition ALMOST_ONE : Qc := (1 - Q2Qc (1 # 10000000000))%Qc.

(** 81-90: the ground truth for one prediction; None stands for -1. *)
Fixpoint best_match (ious : list Qc) (matches_gt : list (option nat)) (gt_idx : nat) (iou : Qc) (found : option nat)
  : option nat :=
  match ious, matches_gt with
  | x :: ious', m :: matches' =>
      match m with
      | Some _ => best_match ious' matches' (S gt_idx) iou found
      | None => if Qc_ltb x iou then best_match ious' matches' (S gt_idx) iou found
                else best_match ious' matches' (S gt_idx) x (Some gt_idx)
      end
  | _, _ => found
  end.

(** matches_gt[match_gt_index] = pred_idx *)
Fixpoint set_nth {A} (l : list A) (i : nat) (x : A) : list A :=
  match l, i with
  | [], _ => []
  | _ :: t, O => x :: t
  | y :: t, S j => y :: set_nth t j x
  end.

(** 74-94: all predictions at one threshold *)
Fixpoint match_predictions (threshold : Qc) (ious : list (list Qc)) (pred_idx : nat) (matches_gt : list (option nat))
  : list (option nat) * list (option nat) :=
  match ious with
  | [] => (matches_gt, [])
  | row :: rest =>
      let found := best_match row matches_gt 0 (Qcmin threshold ALMOST_ONE) None in
      let matches_gt := match found with Some j => set_nth matches_gt j (Some pred_idx) | None => matches_gt end in
      let '(g, p) := match_predictions threshold rest (S pred_idx) matches_gt in
      (g, found :: p)
  end.

(** 29-95 [_match_boxes] for a single threshold; the number of ground truths is that of
    the table's second dimension. *)
Definition match_boxes (ious : list (list Qc)) (num_gt : nat) (threshold : Qc)
  : res (list (option nat) * list (option nat)) :=
  if Qc_ltb threshold 0%Qc then Err ValueError
  else Ok (match_predictions threshold ious 0 (repeat None num_gt)).

Definition unmatched (m : option nat) : bool := match m with None => true | Some _ => false end.

(** What is given to the preprocessor. *)
Record detection_settings := DetectionSettings {
  ds_class_id : Z; ds_iou_threshold : Qc; ds_area_range : num * num;
  ds_max_num_detections : option Z; ds_class_weight : option Qc
}.

(** 160-271 [boxes_to_label_prediction_example_weight] *)
Definition boxes_to_label_prediction_example_weight (st : detection_settings) (boxes_gt boxes_pred : array2) (weight : option Qc)
  : res (list Qc * list Qc * list Qc) :=
  match boxes_gt, boxes_pred with
  | Rows cg gt, Rows cp pred =>
      if negb (Nat.eqb cg 5 && Nat.eqb cp 6) then Err ValueError else
      if match ds_max_num_detections st with Some k => Z.leb k 0 | None => false end then Err ValueError else
      if Z.ltb (ds_class_id st) 0 then Err ValueError else
      if match ds_class_weight st with Some w => Qc_ltb w 0%Qc | None => false end then Err ValueError else
      let gt := filter_boxes_by_class gt [ds_class_id st] in
      let pred := filter_boxes_by_class pred [ds_class_id st] in
      let! gt := filter_boxes_by_area_range gt (ds_area_range st) in
      let pred := sort_boxes_by_confidence pred in
      let pred := match ds_max_num_detections st with Some k => firstn (Z.to_nat k) pred | None => pred end in
      let! ious := compute_ious_for_image pred gt in
      let! matches := match_boxes ious (length gt) (ds_iou_threshold st) in
      let '(matches_gt, matches_pred) := matches in
      let! tags := check_boxes_in_area_range pred (ds_area_range st) in
      let lone := select (map (fun tm => fst tm && unmatched (snd tm)) (combine tags matches_pred)) pred in
      let labels := (repeat 1 (length gt) ++ repeat 0 (length lone))%Qc in
      let predictions :=
        map (fun i => b_confidence (nth i pred [])) (flat_map (fun m => match m with Some i => [i] | None => [] end) matches_gt) ++
        repeat 0%Qc (length (filter unmatched matches_gt)) ++
        map b_confidence lone in
      let w := match weight with Some x => x | None => 1%Qc end in
      let cw := match ds_class_weight st with Some x => x | None => 1%Qc end in
      Ok (labels, predictions, map (fun _ => (w * cw)%Qc) labels)
  | _, _ => Err ValueError
  end.

(* ------------------------------------------------------------------ *)
(** * object_detection_format.py *)

(** A column found in the extracts: one- or two-dimensional, or of another kind. *)
Inductive column := Flat (l : list Qc) | Table (columns : nat) (rows : list (list Qc)) | OtherColumn.

(** 74-78, 148-152: the first of three dictionaries that has the key *)
Definition chain_get {V} (dicts : list (list (string * V))) (k : string) : option V :=
  fold_right (fun d found => match dget String.eqb d k with Some v => Some v | None => found end) None dicts.

(** np.hstack of two-dimensional arrays *)
Definition hstack (cols : list (nat * list (list Qc))) : res array2 :=
  match cols with
  | [] => Err ValueError
  | (c, rows) :: rest =>
      let! r := foldM (fun acc col =>
                 if Nat.eqb (length (snd acc)) (length (snd col))
                 then Ok (fst acc + fst col, map (fun ab => fst ab ++ snd ab) (combine (snd acc) (snd col)))
                 else Err ValueError) rest (c, rows) in
      Ok (Rows (fst r) (snd r))
  end.

(** 29-102 [stack_labels] (empty = 5 columns), 105-177 [stack_predictions] (6 columns);
    the loop returns at the first missing key if that is allowed. *)
Fixpoint stack_columns (dicts : list (list (string * column))) (col_names : list string) (allow_missing_key : bool)
    (empty_columns : nat) (cols : list (nat * list (list Qc))) : res array2 :=
  match col_names with
  | [] => hstack cols
  | k :: rest =>
      match chain_get dicts k with
      | Some (Table c rows) => stack_columns dicts rest allow_missing_key empty_columns (cols ++ [(c, rows)])
      | Some (Flat l) => stack_columns dicts rest allow_missing_key empty_columns (cols ++ [(1, map (fun x => [x]) l)])
      | Some OtherColumn => Err ValueError
      | None => if allow_missing_key then Ok (Rows empty_columns []) else Err KeyError
      end
  end.

(** 180-231 [truncate_by_num_detections] for a number of rows that is a scalar *)
Definition truncate_by_num_detections (dicts : list (list (string * Z))) (num_rows_key : string) (rows : list (list Qc))
    (allow_missing_key : bool) : res (list (list Qc)) :=
  let! n := match chain_get dicts num_rows_key with
            | Some n => Ok (Some n)
            | None => if allow_missing_key then Ok None else Err KeyError
            end in
  match n with
  | Some n => if Z.ltb 0 n && Z.ltb n (Z.of_nat (length rows)) then Ok (firstn (Z.to_nat n) rows) else Ok rows
  | None => Ok rows
  end.

(* ------------------------------------------------------------------ *)
(** * object_detection_preprocessors.py *)

Record detection_extracts := DetectionExtracts {
  de_labels : array2; de_predictions : array2; de_weight : option Qc
}.

Definition columns_at_least (n : nat) (a : array2) : bool :=
  match a with Rows c _ => Nat.leb n c | OtherDimensions => false end.

(** 119-194 [process], for arrays that are already stacked; the yielded triples *)
Definition detection_process (st : detection_settings) (e : detection_extracts) : res (list (Qc * Qc * Qc)) :=
  if negb (columns_at_least 5 (de_labels e)) then Err ValueError else
  if negb (columns_at_least 6 (de_predictions e)) then Err ValueError else
  let sorted := match de_predictions e with Rows c rows => Rows c (sort_boxes_by_confidence rows) | a => a end in
  let! lpw := boxes_to_label_prediction_example_weight st (de_labels e) sorted (de_weight e) in
  let '(labels, predictions, weights) := lpw in
  Ok (combine (combine labels predictions) weights).

(** 188-194, metric_util.py to_standard_metric_inputs: what the combiner receives for
    one triple (no example id) *)
Definition detection_input (x : Qc * Qc * Qc) : option string * inputs_dict :=
  let '(l, p, w) := x in (None, InputsDict (Some (Leaf [l])) (Some (Leaf [Fin p])) (Some (Leaf [w]))).

(** 43-54: the arguments, the numbers as str() shows them *)
Record match_arguments := MatchArguments {
  ma_class_id : string; ma_iou_threshold : option string; ma_area_range : option string;
  ma_max_num_detections : option string; ma_class_weight : option string;
  ma_labels_to_stack : option (list string); ma_predictions_to_stack : option (list string);
  ma_num_detections_key : option string; ma_allow_missing_key : bool
}.

(** metric_util.py 96-125 [generate_private_name_from_arguments], the arguments sorted *)
Definition private_name (name : string) (args : list (string * option string)) : string :=
  "_" ++ name ++ ":" ++
  String.concat "," (flat_map (fun kv => match snd kv with Some v => [fst kv ++ "=" ++ v] | None => [] end)%string args).

(** 89-97: the preprocessor's name *)
Definition match_preprocessor_name (a : match_arguments) : string :=
  private_name "bounding_box_match_preprocessor"
    [("area_range", ma_area_range a); ("class_id", Some (ma_class_id a)); ("class_weight", ma_class_weight a);
     ("iou_threshold", ma_iou_threshold a); ("max_num_detections", ma_max_num_detections a)].

(** object_detection_confusion_matrix_metrics.py 135-197 with
    binary_confusion_matrices.py 341-376, 420-488, 562-586: the computations of one
    metric.  The matrices are combined and turned into their result under one key. *)
Definition detection_matrices_key (a : match_arguments) (thresholds model output : string) (weighted : bool) : metric_key :=
  MetricKey (private_name "binary_confusion_matrices"
               [("preprocessors", Some ("('" ++ match_preprocessor_name a ++ "',)")%string); ("thresholds", Some thresholds)])
    model output None None (Some weighted) false.
Inductive detection_body := CountPairs (a : match_arguments) | AsMatrices (k : metric_key) | RatioOf (k : metric_key).
Definition detection_computations (a : match_arguments) (class_id : Z) (thresholds name model output : string) (weighted : bool)
  : list (computation detection_body) :=
  let k := detection_matrices_key a thresholds model output weighted in
  [Computation (Combine "_BinaryConfusionMatrixCombiner" [match_preprocessor_name a]) [k] (CountPairs a);
   Computation Derive [k] (AsMatrices k);
   Computation Derive [MetricKey name model output (Some (SubKey (Some class_id) None None)) None (Some weighted) false] (RatioOf k)].

(** metric_util.py 54-93 [validate_object_detection_arguments]: class ids and weights
    as lists *)
Definition validate_object_detection_arguments (class_id : option (list Z)) (class_weight : option (list Qc))
    (area_range : option (list num)) (max_num_detections : option Z) (output_name : string) (stacked : bool) : res unit :=
  match class_id with
  | None => Err ValueError
  | Some ids =>
      let! _ := match class_weight with
                | None => Ok tt
                | Some ws => if existsb (fun w => Qc_ltb w 0%Qc) ws then Err ValueError
                             else if Nat.eqb (length ids) (length ws) then Ok tt else Err ValueError
                end in
      let! _ := match area_range with
                | None => Ok tt
                | Some [lo; hi] => if num_ltb hi lo then Err ValueError else Ok tt
                | Some _ => Err ValueError
                end in
      let! _ := match max_num_detections with
                | Some k => if Z.leb k 0 then Err ValueError else Ok tt
                | None => Ok tt
                end in
      if negb (String.eqb output_name "") && stacked then Err ValueError else Ok tt
  end.

(* ------------------------------------------------------------------ *)
(** * object_detection_metrics.py *)

(** np.nanmean: NaN if there is no number; no infinities *)
Definition nanmean (l : list num) : num :=
  let qs := flat_map (fun x => match x with Fin q => [q] | _ => [] end) l in
  match qs with [] => NaN | _ => Fin (qsum qs / qn (length qs))%Qc end.

(** np.linspace(0, 1, n), n <> 1 *)
Definition linspace01 (n : nat) : list Qc := map (fun i => (qn i / qn (n - 1))%Qc) (seq 0 n).

(** 175-181: the thresholds of COCOAveragePrecision *)
Definition coco_thresholds (num_thresholds : option nat) : list Qc :=
  let n := match num_thresholds with Some n => n | None => 100 * 100 end in
  [Q2Qc (1 # 1000000000000)] ++ map (fun i => (qn (i + 1) / qn (n - 1))%Qc) (seq 0 (n - 2)) ++ [(1 - Q2Qc (1 # 1000000000000))%Qc].

(** 208-228: the value of COCOAveragePrecision.  [precisions w] stands for the
    precisions at the recalls, computed with example_weighted=w; the inner metric is
    asked for its computations without example_weighted (210-212), so False. *)
Definition coco_average_precision (precisions : bool -> list num) (example_weighted : bool) : num := nanmean (precisions false).

(** np.linspace(0.5, 0.95, 10) *)
Definition coco_iou_thresholds : list Qc := map (fun i => Q2Qc (1 # 2) + qn i * Q2Qc (1 # 20))%Qc (seq 0 10).

(** 354-421: the value of COCOMeanAveragePrecision; [average t c w] is that of the
    average precision at an IoU threshold for a class and its weight. *)
Definition coco_mean_average (average : Qc -> Z -> Qc -> num) (iou_thresholds : option (list Qc)) (class_ids : list Z)
    (class_weights : option (list Qc)) : num :=
  let ts := match iou_thresholds with Some ts => ts | None => coco_iou_thresholds end in
  let ws := match class_weights with Some ws => ws | None => map (fun _ => 1%Qc) class_ids end in
  nanmean (flat_map (fun t => map (fun cw => average t (fst cw) (snd cw)) (combine class_ids ws)) ts).
