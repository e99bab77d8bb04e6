(* Model of metrics/multi_class_confusion_matrix_metrics.py,
   multi_class_confusion_matrix_plot.py, multi_label_confusion_matrix_plot.py,
   semantic_segmentation_confusion_matrix_metrics.py and
   metrics/preprocessors/set_match_preprocessors.py.  Sums are exact. *)
From Coq Require Import String Ascii.
From Verif Require Import Base Beam Util_Model Keys_Model Inputs_Model Sums_Model Histogram_Model Confusion_Model Means_Model Evaluator_Model Ranking_Model.
Local Open Scope string_scope.
Local Open Scope list_scope.

(* ------------------------------------------------------------------ *)
(** * Dictionaries of counts *)

Section Rows.
  Context {K V : Type} (keqb : K -> K -> bool) (plus : V -> V -> V).
  (** if k in d: d[k] += v else: d[k] = v *)
  Definition row_bump (r : list (K * V)) (k : K) (v : V) : list (K * V) :=
    dset keqb r k (match dget keqb r k with Some x => plus x v | None => v end).
  (** for k, v in other.items(): ... *)
  Definition row_plus (a b : list (K * V)) : list (K * V) :=
    fold_left (fun r kv => row_bump r (fst kv) (snd kv)) b a.

  (** Dict[float, Dict[K, V]] *)
  Definition table := list (Qc * list (K * V)).
  Definition row (m : table) (t : Qc) : list (K * V) := match dget Qc_eqb m t with Some r => r | None => [] end.
  (** if threshold not in accumulator: accumulator[threshold] = {} *)
  Definition open_row (m : table) (t : Qc) : table := if dmem Qc_eqb m t then m else dset Qc_eqb m t [].
  Definition bump (m : table) (t : Qc) (k : K) (v : V) : table := dset Qc_eqb m t (row_bump (row m t) k v).
  (** for threshold, matrix in accumulator.items(): for k, v in matrix.items(): ... *)
  Definition table_plus (a b : table) : table :=
    fold_left (fun m tr => fold_left (fun m kv => bump m (fst tr) (fst kv) (snd kv)) (snd tr) (open_row m (fst tr))) b a.
End Rows.

(** MatrixEntryKey: (actual class id, predicted class id), compared as tuples. *)
Definition entry_key := (Z * Z)%type.
Definition entry_key_eqb (a b : entry_key) : bool := Z.eqb (fst a) (fst b) && Z.eqb (snd a) (snd b).
Definition entry_key_leb (a b : entry_key) : bool :=
  Z.ltb (fst a) (fst b) || (Z.eqb (fst a) (fst b) && Z.leb (snd a) (snd b)).

(** np.argmax: the first position of the largest value (NaN counts as largest). *)
Section ArgMax.
  Context {A : Type} (gtb : A -> A -> bool).
  Fixpoint argmax_from (best : A) (at_best i : nat) (l : list A) : nat :=
    match l with
    | [] => at_best
    | x :: t => if gtb x best then argmax_from x i (S i) t else argmax_from best at_best (S i) t
    end.
  Definition argmax (l : list A) : res nat :=
    match l with [] => Err ValueError | x :: t => Ok (argmax_from x 0 1 t) end.
End ArgMax.
Definition np_gtb (x y : num) : bool :=
  match x, y with NaN, NaN => false | NaN, _ => true | _, NaN => false | _, _ => num_ltb y x end.

(** Both files: _EPSILON = 1e-7 *)
Definition MATRIX_EPSILON : Qc := Q2Qc (1 # 10000000).

(** multi_class_confusion_matrix_metrics.py 165-178, multi_label_confusion_matrix_plot.py
    112-124 and the combiners' "thresholds if thresholds else [default]" (265 / 190):
    the thresholds in use.  num_thresholds is not negative. *)
Definition matrix_thresholds (default : Qc) (thresholds : option (list Qc)) (num_thresholds : option nat)
  : res (list Qc) :=
  match num_thresholds, thresholds with
  | Some _, Some _ => Err ValueError
  | None, None => Ok [default]
  | Some n, None =>
      Ok ([(- MATRIX_EPSILON)%Qc] ++ map (fun i => (qn (i + 1) / qn (n - 1))%Qc) (seq 0 (n - 2)) ++ [(1 + MATRIX_EPSILON)%Qc])
  | None, Some [] => Ok [default]
  | None, Some ts => Ok ts
  end.

(** Matrices.to_proto 229-253 and extract_output of the multi label plot 262-292:
    sorted thresholds, sorted entries; the two boundaries are renamed. *)
Definition shown_threshold (t : Qc) : Qc :=
  if Qc_eqb t (- MATRIX_EPSILON)%Qc then 0%Qc
  else if Qc_eqb t (1 + MATRIX_EPSILON)%Qc then 1%Qc else t.
Definition table_to_proto {V} (m : @table entry_key V) : list (Qc * list (entry_key * V)) :=
  map (fun t => (shown_threshold t,
                 flat_map (fun k => match dget entry_key_eqb (row m t) k with Some v => [(k, v)] | None => [] end)
                   (py_sorted entry_key_leb (dkeys (row m t)))))
      (py_sorted Qc_leb (dkeys m)).

(* ------------------------------------------------------------------ *)
(** * multi_class_confusion_matrix_metrics.py *)

Notation matrices := (@table entry_key Qc).
Definition NO_PREDICTED_CLASS_ID : Z := (-1)%Z.

(** array[i] with a Python index *)
Definition py_nth {A} (l : list A) (i : Z) : res A :=
  let j := if Z.ltb i 0 then (i + Z.of_nat (length l))%Z else i in
  if Z.ltb j 0 then Err IndexError else nth_ok l (Z.to_nat j).

(** 318-328: one threshold; predicted_class_id is a variable of the loop. *)
Definition multi_class_step (preds : list num) (actual : Z) (w : Qc) (st : matrices * Z) (t : Qc) : res (matrices * Z) :=
  let (acc, predicted) := st in
  let acc := open_row acc t in
  let! score := py_nth preds predicted in
  let predicted := if num_leb score (Fin t) then NO_PREDICTED_CLASS_ID else predicted in
  Ok (bump entry_key_eqb Qcplus acc t (actual, predicted) w, predicted).

(** 302-317: checks of the first tuple *)
Definition multi_class_of (thresholds : list Qc) (acc : matrices) (y : yielded) : res matrices :=
  let '(label, preds, weight) := y in
  if Nat.leb (length preds) 1 then Err ValueError else
  let! actual := match label with
                 | [] => Err TypeError
                 | [l] => Ok (Qc_trunc l)
                 | _ => let! i := argmax (fun x y => Qc_ltb y x) label in Ok (Z.of_nat i)
                 end in
  let! predicted := argmax np_gtb preds in
  let! w := scalar weight in
  let! r := foldM (multi_class_step preds actual w) thresholds (acc, Z.of_nat predicted) in
  Ok (fst r).

Definition matrix_options (weighted : bool) : options := Options None false None weighted false false false true.

Section MultiClass.
  Variable argpartition : list num -> nat -> list nat.
  (** 256-346 [_MultiClassConfusionMatrixCombiner] *)
  Definition multi_class_add (thresholds : list Qc) (weighted : bool) lk pk model output (acc : matrices) (element : inputs_dict) : res matrices :=
    let! ys := to_label_prediction_example_weight argpartition (matrix_options weighted) lk pk model output element in
    let! y := first_tuple ys in
    multi_class_of thresholds acc y.
  Definition multi_class_combiner thresholds weighted lk pk model output :=
    res_combiner [] (multi_class_add thresholds weighted lk pk model output) (table_plus entry_key_eqb Qcplus) (fun a => Ok a).
End MultiClass.

(** 203-228 [Matrices._apply_binary_op_elementwise], [_apply_binary_op_broadcast];
    sets are listed in order of first appearance. *)
Definition entry_or_0 (r : list (entry_key * Qc)) (k : entry_key) : Qc :=
  match dget entry_key_eqb r k with Some x => x | None => 0%Qc end.
Definition matrices_elementwise (op : Qc -> Qc -> res Qc) (a b : matrices) : res matrices :=
  mapM (fun t =>
          let! r := mapM (fun k => let! v := op (entry_or_0 (row a t) k) (entry_or_0 (row b t) k) in Ok (k, v))
                      (dedup entry_key_eqb (dkeys (row a t) ++ dkeys (row b t))) in
          Ok (t, r))
       (dedup Qc_eqb (dkeys a ++ dkeys b)).
Definition matrices_broadcast (op : Qc -> Qc -> res Qc) (a : matrices) (x : Qc) : res matrices :=
  mapM (fun tr => let! r := mapM (fun kv => let! v := op (snd kv) x in Ok (fst kv, v)) (snd tr) in Ok (fst tr, r)) a.

(** The computations a MultiClassConfusionMatrixAtThresholds metric (79-124) or a
    MultiClassConfusionMatrixPlot (multi_class_confusion_matrix_plot.py 69-125) asks
    for: the matrices with their thresholds as combiner, and the value derived from
    them under the metric's own name. *)
Definition MULTI_CLASS_CONFUSION_MATRICES := "_multi_class_confusion_matrices".
Definition matrices_key (model output : string) (weighted : bool) : metric_key :=
  MetricKey MULTI_CLASS_CONFUSION_MATRICES model output None None (Some weighted) false.
Inductive matrix_body := CombineMatrices (thresholds : list Qc) | CopyOf (k : metric_key).
Definition matrix_computations (thresholds : list Qc) (name model output : string) (weighted : bool)
  : list (computation matrix_body) :=
  [Computation (Combine "_MultiClassConfusionMatrixCombiner" []) [matrices_key model output weighted] (CombineMatrices thresholds);
   Computation Derive [MetricKey name model output None None (Some weighted) false] (CopyOf (matrices_key model output weighted))].

(* ------------------------------------------------------------------ *)
(** * multi_label_confusion_matrix_plot.py *)

(** 145-163 [_ConfusionMatrix] *)
Record cell := Cell { cell_fn : Qc; cell_tn : Qc; cell_fp : Qc; cell_tp : Qc }.
Definition cell_zero : cell := Cell 0 0 0 0.
Definition cell_plus (a b : cell) : cell :=
  Cell (cell_fn a + cell_fn b) (cell_tn a + cell_tn b) (cell_fp a + cell_fp b) (cell_tp a + cell_tp b).

(** 225-231: the four numbers of one pair of classes *)
Definition truthy (q : Qc) : bool := negb (Qc_eqb q 0%Qc).
Definition label_cell (label : Qc) (pred : num) (t w : Qc) : cell :=
  Cell (times_bool w (truthy label && num_leb pred (Fin t)))
       (times_bool w (negb (truthy label) && num_leb pred (Fin t)))
       (times_bool w (negb (truthy label) && num_ltb (Fin t) pred))
       (times_bool w (truthy label && num_ltb (Fin t) pred)).

(** 194-246 *)
Definition multi_label_row (labels : list Qc) (preds : list num) (w t : Qc) (acc : @table entry_key cell) (a : nat) :=
  fold_left (fun acc c => bump entry_key_eqb cell_plus acc t (Z.of_nat a, Z.of_nat c)
                            (label_cell (nth c labels 0%Qc) (nth c preds NaN) t w))
            (seq 0 (length preds)) acc.
Definition multi_label_of (thresholds : list Qc) (acc : @table entry_key cell) (y : yielded) : res (@table entry_key cell) :=
  let '(labels, preds, weight) := y in
  if Nat.leb (length preds) 1 then Err ValueError else
  let! labels := if Nat.eqb (length labels) (length preds) then Ok labels else one_hot labels (length preds) in
  let! w := scalar weight in
  Ok (fold_left (fun acc t =>
        fold_left (multi_label_row labels preds w t)
          (filter (fun a => truthy (nth a labels 0%Qc)) (seq 0 (length labels))) (open_row acc t))
      thresholds acc).

Section MultiLabel.
  Variable argpartition : list num -> nat -> list nat.
  Definition multi_label_add (thresholds : list Qc) (weighted : bool) lk pk model output (acc : @table entry_key cell) (element : inputs_dict) :=
    let! ys := to_label_prediction_example_weight argpartition (matrix_options weighted) lk pk model output element in
    let! y := first_tuple ys in
    multi_label_of thresholds acc y.
  (** 170-292 [_MultiLabelConfusionMatrixPlotCombiner] *)
  Definition multi_label_combiner thresholds weighted lk pk model output :=
    res_combiner [] (multi_label_add thresholds weighted lk pk model output) (table_plus entry_key_eqb cell_plus)
      (fun a => Ok (table_to_proto a)).
End MultiLabel.

(* ------------------------------------------------------------------ *)
(** * semantic_segmentation_confusion_matrix_metrics.py *)

(** An image of class ids: its rows (all of the same length), or an array of another
    number of dimensions. *)
Inductive image := Image (rows : list (list Z)) | NotAnImage.
Record segmentation := Segmentation { s_truth : image; s_predicted : image }.
Definition shape (rows : list (list Z)) : nat * nat := (length rows, match rows with [] => 0 | r :: _ => length r end).

(** 133 [Matrix] of counts *)
Record pixels := Pixels { p_tp : nat; p_tn : nat; p_fp : nat; p_fn : nat }.
Definition pixels_plus (a b : pixels) : pixels :=
  Pixels (p_tp a + p_tp b) (p_tn a + p_tn b) (p_fp a + p_fp b) (p_fn a + p_fn b).

(** 167-197: the counts of a class; "ground_truth != None" holds everywhere. *)
Definition count_pixels (f : Z -> Z -> bool) (g p : list (list Z)) : nat :=
  length (filter (fun gp => f (fst gp) (snd gp)) (combine (concat g) (concat p))).
Definition not_ignored (ignore : option Z) (z : Z) : bool := match ignore with None => true | Some i => negb (Z.eqb z i) end.
Definition class_pixels (ignore : option Z) (g p : list (list Z)) (c : Z) : pixels :=
  Pixels (count_pixels (fun a b => Z.eqb a c && Z.eqb b c) g p)
         (count_pixels (fun a b => (negb (Z.eqb a c) && negb (Z.eqb b c)) && not_ignored ignore a) g p)
         (count_pixels (fun a b => (negb (Z.eqb a c) && Z.eqb b c) && not_ignored ignore a) g p)
         (count_pixels (fun a b => Z.eqb a c && negb (Z.eqb b c)) g p).

(** 156-208 [add_input] *)
Definition segmentation_add (class_ids : list Z) (ignore : option Z) (acc : list (Z * pixels)) (e : segmentation)
  : res (list (Z * pixels)) :=
  match s_truth e, s_predicted e with
  | Image g, Image p =>
      if Nat.eqb (fst (shape g)) (fst (shape p)) && Nat.eqb (snd (shape g)) (snd (shape p))
      then Ok (fold_left (fun acc c => row_bump Z.eqb pixels_plus acc c (class_pixels ignore g p c)) class_ids acc)
      else Err ValueError
  | _, _ => Err ValueError
  end.
(** 132-245; extract_output replaces the class id by a key with that class id. *)
Definition segmentation_combiner (class_ids : list Z) (ignore : option Z) :=
  res_combiner [] (segmentation_add class_ids ignore) (row_plus Z.eqb pixels_plus) (fun a => Ok a).

(* ------------------------------------------------------------------ *)
(** * set_match_preprocessors.py *)

(** An example: labels, predicted classes with their scores (None: no score key is
    configured), example weights, and the class weights taken from the features
    (a missing class_key means the labels). *)
Record set_example := SetExample {
  se_labels : list string; se_classes : list string; se_scores : option (list num);
  se_weight : option (list Qc); se_weighted_classes : option (list string * list Qc)
}.

(** What is yielded: label, prediction, example weights. *)
Record matched := Matched { m_label : Qc; m_prediction : num; m_weight : option Qc }.

(** bool(np.ndarray) as used by "not example_weight" *)
Definition array_truth (a : option (list Qc)) : res bool :=
  match a with
  | None | Some [] => Ok false
  | Some [x] => Ok (truthy x)
  | Some _ => Err ValueError
  end.

(** 196-204 [calculate_weights]; an example weight array that is true has one entry. *)
Definition calculate_weights (weight : option (list Qc)) (class_weights : option (list (string * Qc))) (c : string)
  : res (option Qc) :=
  let! has_weight := array_truth weight in
  let has_classes := match class_weights with Some (_ :: _) => true | _ => false end in
  if negb has_weight && negb has_classes then Ok None else
  let w := 1%Qc in
  let w := if has_weight then match weight with Some [x] => (w * x)%Qc | _ => w end else w in
  let w := match class_weights with
           | Some d => match dget String.eqb d c with Some x => (w * x)%Qc | None => w end
           | None => w
           end in
  Ok (Some w).

Definition dict_of {V} (l : list (string * V)) : list (string * V) := dupdate String.eqb [] l.

(** array[:k] *)
Definition py_prefix {A} (k : Z) (l : list A) : list A :=
  if Z.ltb k 0 then firstn (Z.to_nat (Z.of_nat (length l) + k)) l else firstn (Z.to_nat k) l.

Section SetMatch.
  (** The order in which a set is iterated. *)
  Variable iter : list string -> list string.

  (** 112-239 [process]; 1-d arrays, keys that are present; the shapes of classes and
      class weights are compared in 143-147, those of classes and scores in 170-174. *)
  Definition set_match (top_k : option Z) (e : set_example) : res (list matched) :=
    let! class_weights :=
      match se_weighted_classes e with
      | None => Ok None
      | Some (cs, ws) => if Nat.eqb (length cs) (length ws) then Ok (Some (dict_of (combine cs ws))) else Err ValueError
      end in
    let! _ := match se_scores e with
              | Some s => if Nat.eqb (length (se_classes e)) (length s) then Ok tt else Err ValueError
              | None => Ok tt
              end in
    let n := Z.of_nat (length (se_classes e)) in
    let cut {A} (l : list A) := match top_k with None => l | Some k => py_prefix (Z.min k n) l end in
    let classes := cut (se_classes e) in
    (* zip(pred_classes, None) *)
    let! scores := match se_scores e with None => Err TypeError | Some s => Ok (cut s) end in
    let scored := dict_of (combine classes scores) in
    let labels := dedup String.eqb (se_labels e) in
    let predicted := dedup String.eqb classes in
    let score c := match dget String.eqb scored c with Some x => Ok x | None => Err KeyError end in
    let! tps := mapM (fun c => let! s := score c in
                               let! w := calculate_weights (se_weight e) class_weights c in
                               Ok (Matched 1 s w)) (iter (filter (fun c => memb String.eqb c predicted) labels)) in
    let! fns := mapM (fun c => let! w := calculate_weights (se_weight e) class_weights c in
                               Ok (Matched 1 NegInf w)) (iter (filter (fun c => negb (memb String.eqb c predicted)) labels)) in
    let! fps := mapM (fun c => let! s := score c in
                               let! w := calculate_weights (se_weight e) class_weights c in
                               Ok (Matched 0 s w)) (iter (filter (fun c => negb (memb String.eqb c labels)) predicted)) in
    Ok (tps ++ fns ++ fps).
End SetMatch.
