(* Model of metrics/preprocessors/set_match_preprocessors.py,
   metrics/set_match_confusion_matrix_metrics.py,
   metrics/preprocessors/invert_logarithm_preprocessors.py and
   metrics/preprocessors/image_preprocessors.py. *)
From Coq Require Import String Ascii Reals.
From Verif Require Import Base Beam Util_Model Keys_Model Inputs_Model Sums_Model Batches_Model Histogram_Model Confusion_Model Rates_Model Evaluator_Model Detection_Model.
Local Open Scope string_scope.
Local Open Scope list_scope.

(* ------------------------------------------------------------------ *)
(** * set_match_preprocessors.py *)

(** A numpy array: of classes or of numbers in one dimension, or of another number of
    dimensions.  Simplification: classes are strings. *)
Inductive tensor := Strings (l : list string) | Floats (l : list num) | Wide (shape : list nat).
Definition tensor_shape (t : tensor) : list nat :=
  match t with Strings l => [length l] | Floats l => [length l] | Wide s => s end.

(** 37-47 [__init__]; None: no key, or the empty one *)
Record set_match := SetMatch {
  sm_prediction_class_key : string; sm_prediction_score_key : option string;
  sm_class_key : option string; sm_weight_key : option string; sm_top_k : option Z; sm_model_name : string
}.

(** 109-112: the name.  [show] is str() of the number. *)
Definition set_match_preprocessor_name (show : Z -> string) (st : set_match) : string :=
  private_name "set_match_preprocessor" [("top_k", option_map show (sm_top_k st))].

(** Simplification: weights are finite and labels, classes and scores are arrays of
    strings and of numbers; other arrays are a TypeError here. *)
Definition names_of (t : tensor) : res (list string) := match t with Strings l => Ok l | _ => Err TypeError end.
Definition scores_of (t : tensor) : res (list num) := match t with Floats l => Ok l | _ => Err TypeError end.
Definition finite (x : num) : res Qc := match x with Fin q => Ok q | _ => Err TypeError end.
Definition weights_of (t : tensor) : res (list Qc) := match t with Floats l => mapM finite l | _ => Err TypeError end.
Definition is_one_dimensional (t : tensor) : bool := Nat.eqb (length (tensor_shape t)) 1.

Fixpoint shape_eqb (a b : list nat) : bool :=
  match a, b with
  | [], [] => true
  | x :: a', y :: b' => Nat.eqb x y && shape_eqb a' b'
  | _, _ => false
  end.

(** 131-136: the labels; a dictionary has no ndim *)
Definition read_labels (e : list (string * data tensor)) (model_name : string) : res tensor :=
  let! labels := get_by_key e LABELS_KEY (Some model_name) None in
  match labels with
  | None => Err ValueError
  | Some (Dict _) => Err AttributeError
  | Some (Leaf t) => if is_one_dimensional t then Ok t else Err ValueError
  end.

(** 138-167, 216-218: the classes and their weights *)
Definition read_class_weights (st : set_match) (e : list (string * data tensor)) (labels : tensor)
  : res (option (list (string * Qc))) :=
  match sm_weight_key st with
  | None => Ok None
  | Some weight_key =>
      let! features := get_by_key e FEATURES_KEY None None in
      match features with
      | None => Err ValueError
      | Some features =>
          let! weights := get_by_keys features [weight_key] None false in
          let! classes := match sm_class_key st with
                          | Some k => get_by_keys features [k] None false
                          | None => Ok (Some (Leaf labels))
                          end in
          match classes, weights with
          | Some (Leaf c), Some (Leaf w) =>
              if negb (shape_eqb (tensor_shape c) (tensor_shape w)) then Err ValueError
              else let! c := names_of c in let! w := weights_of w in
                   Ok (Some (fold_left (fun d kv => dset String.eqb d (fst kv) (snd kv)) (combine c w) []))
          | _, _ => Err TypeError
          end
      end
  end.

(** 169-202: the predicted classes and their scores *)
Definition read_predictions (st : set_match) (e : list (string * data tensor)) : res (list string * option (list num)) :=
  let! predictions := get_by_key e PREDICTIONS_KEY (Some (sm_model_name st)) None in
  match predictions with
  | Some (Dict d) =>
      let! pred_classes := get_by_keys (Dict d) [sm_prediction_class_key st] None false in
      let! pred_scores := match sm_prediction_score_key st with
                          | Some k => get_by_keys (Dict d) [k] None false
                          | None => Ok None
                          end in
      match pred_classes, pred_scores with
      | Some (Leaf c), Some (Leaf s) =>
          if negb (shape_eqb (tensor_shape c) (tensor_shape s)) then Err ValueError
          else if negb (is_one_dimensional c) then Err ValueError
          else let! c := names_of c in let! s := scores_of s in Ok (c, Some s)
      | Some (Leaf c), None =>
          if negb (is_one_dimensional c) then Err ValueError
          else let! c := names_of c in Ok (c, None)
      | _, _ => Err AttributeError
      end
  | _ => Err TypeError
  end.

(** 204-212: l[:min(top_k, len(l))] *)
Definition slice_to {A} (k : Z) (l : list A) : list A :=
  if Z.ltb k 0 then firstn (Z.to_nat (Z.of_nat (length l) + k)) l else firstn (Z.to_nat k) l.
Definition first_k {A} (top_k : option Z) (l : list A) : list A :=
  match top_k with Some k => slice_to (Z.min k (Z.of_nat (length l))) l | None => l end.

(** 214: the example weights.  An empty dictionary is false; another one cannot be
    multiplied. *)
Definition read_example_weight (e : list (string * data tensor)) (model_name : string) : res (option (list Qc)) :=
  let! w := get_by_key e EXAMPLE_WEIGHTS_KEY (Some model_name) None in
  match w with
  | None | Some (Dict []) => Ok None
  | Some (Dict _) => Err TypeError
  | Some (Leaf t) => let! l := weights_of t in Ok (Some l)
  end.

(** bool() of an array: its only element, false if there is none, ambiguous if there are
    several *)
Definition truth (w : option (list Qc)) : res bool :=
  match w with
  | None | Some [] => Ok false
  | Some [x] => Ok (negb (Qc_eqb x 0%Qc))
  | Some _ => Err ValueError
  end.

(** 224-232 [calculate_weights] *)
Definition calculate_weights (example_weight : option (list Qc)) (class_weights : option (list (string * Qc)))
    (class_name : string) : res (option Qc) :=
  let! given := truth example_weight in
  let weighted := match class_weights with Some (_ :: _) => true | _ => false end in
  if negb given && negb weighted then Ok None
  else
    let weight := 1%Qc in
    let weight := if given then match example_weight with Some [x] => (weight * x)%Qc | _ => weight end else weight in
    Ok (Some match class_weights with
             | Some cw => match dget String.eqb cw class_name with Some c => (weight * c)%Qc | None => weight end
             | None => weight
             end).

(** A yielded pair: label, prediction and weight (None if there is none) *)
Notation set_pair := (Qc * num * option Qc)%type.

(** 220-222, 234-265: the pairs.  set() keeps each element once; the order in which Python
    goes through a set is [order]. *)
Definition set_pairs (order : list string -> list string) (weight : string -> res (option Qc))
    (labels pred_classes : list string) (pred_scores : list num) : res (list set_pair) :=
  let score := fold_left (fun d kv => dset String.eqb d (fst kv) (snd kv)) (combine pred_classes pred_scores) [] in
  let label_classes := dedup String.eqb labels in
  let predicted := dedup String.eqb pred_classes in
  let score_of c := match dget String.eqb score c with Some s => Ok s | None => Err KeyError end in
  let! tp := mapM (fun c => let! s := score_of c in let! w := weight c in Ok (1%Qc, s, w))
               (order (filter (fun c => memb String.eqb c predicted) label_classes)) in
  let! fn := mapM (fun c => let! w := weight c in Ok (1%Qc, NegInf, w))
               (order (filter (fun c => negb (memb String.eqb c predicted)) label_classes)) in
  let! fp := mapM (fun c => let! s := score_of c in let! w := weight c in Ok (0%Qc, s, w))
               (order (filter (fun c => negb (memb String.eqb c label_classes)) predicted)) in
  Ok (tp ++ fn ++ fp).

(** 126-265 [process]; zip(pred_classes, None) is a TypeError *)
Definition set_match_process (order : list string -> list string) (st : set_match) (e : list (string * data tensor))
  : res (list set_pair) :=
  let! labels := read_labels e (sm_model_name st) in
  let! class_weights := read_class_weights st e labels in
  let! cs := read_predictions st e in
  let pred_classes := first_k (sm_top_k st) (fst cs) in
  let pred_scores := option_map (first_k (sm_top_k st)) (snd cs) in
  let! example_weight := read_example_weight e (sm_model_name st) in
  let! labels := names_of labels in
  match pred_scores with
  | None => Err TypeError
  | Some scores => set_pairs order (calculate_weights example_weight class_weights) labels pred_classes scores
  end.

(* ------------------------------------------------------------------ *)
(** * set_match_confusion_matrix_metrics.py *)

(** set_match_preprocessors.py 236-265, metric_util.py 261-320 [to_standard_metric_inputs]:
    what a combiner receives for one pair *)
Definition set_input (x : set_pair) : inputs_dict :=
  let '(l, p, w) := x in InputsDict (Some (Leaf [l])) (Some (Leaf [p])) (option_map (fun q => Leaf [q]) w).

(** 128-129 (and 254-255), confusion_matrix_metrics.py 341-349: the thresholds *)
Definition set_match_thresholds (thresholds : option (list num)) (top_k : option Z) : list num :=
  match thresholds, top_k with
  | Some ts, _ => ts
  | None, Some _ => [NegInf]
  | None, None => [Fin (Q2Qc (1 # 2))]
  end.

(** 131-137 (256-262): weights are used if there are class weights *)
Definition set_match_weighted (st : set_match) (example_weighted : bool) : bool :=
  match sm_weight_key st with Some _ => true | None => example_weighted end.

(** binary_confusion_matrices.py 311-314.  Simplification: the thresholds are not those
    interpolated from a number of thresholds (281-287). *)
Definition use_histogram (thresholds : list num) : bool :=
  match thresholds with [t] => num_ltb t (Fin 0%Qc) | _ => false end.

(** The same bundles and merges for inputs in another form *)
Fixpoint map_sched {A B} (f : A -> B) (s : sched A) : sched B :=
  match s with
  | Bundle xs => Bundle (map f xs)
  | Merge t ts => Merge (map_sched f t) (map (map_sched f) ts)
  | Then t xs => Then (map_sched f t) (map f xs)
  end.

Section Metric.
  Variable argpartition : list num -> nat -> list nat.

  (** 103-154 (229-277): the matrices, which binary_confusion_matrices.py 378-488 takes
      from a histogram of one bucket (395) or counts; [DEFAULT_NUM_BUCKETS] plays no role
      for the histogram of one bucket. *)
  Definition set_match_matrices (thresholds : list num) (weighted : bool) (label_key prediction_key model_name : string)
      (s : sched inputs_dict) : res matrices :=
    let o := histogram_options None false weighted true None in
    if use_histogram thresholds then
      let! h := outcome (histogram_combiner argpartition 1 0%Qc 1%Qc true o label_key prediction_key model_name "") s in
      histogram_result thresholds h 1
    else
      let! r := outcome (confusion_combiner argpartition thresholds 1 o label_key prediction_key model_name "")
                  (map_sched (fun x => (None, x)) s) in
      Ok (fst r).

  (** confusion_matrix_metrics.py 1475-1477 and 1555-1557 at threshold i *)
  Definition set_match_precision (m : matrices) (i : nat) : num := pos_div (nth i (m_tp m) 0%Qc) (nth i (m_tp m) 0%Qc + nth i (m_fp m) 0%Qc)%Qc.
  Definition set_match_recall (m : matrices) (i : nat) : num := pos_div (nth i (m_tp m) 0%Qc) (nth i (m_tp m) 0%Qc + nth i (m_fn m) 0%Qc)%Qc.
End Metric.

(** binary_confusion_matrices.py 341-376, 412-440, 562-586: the computations of a metric
    whose matrices are counted *)
Definition set_matrices_key (show : Z -> string) (st : set_match) (thresholds : string) (weighted : bool) : metric_key :=
  MetricKey (private_name "binary_confusion_matrices"
               [("preprocessors", Some ("('" ++ set_match_preprocessor_name show st ++ "',)")%string); ("thresholds", Some thresholds)])
    (sm_model_name st) "" None None (Some weighted) false.
Inductive set_body := CountSets (st : set_match) | AsSetMatrices (k : metric_key) | SetRatio (k : metric_key).
Definition set_match_computations (show : Z -> string) (st : set_match) (thresholds name : string) (weighted : bool)
  : list (computation set_body) :=
  let k := set_matrices_key show st thresholds weighted in
  [Computation (Combine "_BinaryConfusionMatrixCombiner" [set_match_preprocessor_name show st]) [k] (CountSets st);
   Computation Derive [k] (AsSetMatrices k);
   Computation Derive [MetricKey name (sm_model_name st) "" None None (Some weighted) false] (SetRatio k)].

(* ------------------------------------------------------------------ *)
(** * invert_logarithm_preprocessors.py *)

(** A numpy array: its shape and its values *)
Record array (A : Type) := Arr { a_shape : list nat; a_data : list A }.
Arguments Arr {A}. Arguments a_shape {A}. Arguments a_data {A}.

(** 28-33 [_invert_log2_values] *)
Definition invert_log2_values (a : array R) : array R := Arr (a_shape a) (map (fun x => Rpower 2 x - 1)%R (a_data a)).

(** np.clip *)
Definition clip (low high : R) (x : R) : R := Rmin (Rmax x low) high.

(** 62-72 [_read_label_or_prediction_in_multiple_dicts]: np.power of None or of a
    dictionary is a TypeError *)
Definition read_log2 (model_name key : string) (e : list (string * data (array R))) : res (array R) :=
  let! v := get_by_key e key (Some model_name) None in
  match v with Some (Leaf a) => Ok (invert_log2_values a) | _ => Err TypeError end.

(** 74-125 [process]: what the extract that was given is afterwards, and what is yielded:
    StandardExtracts (util.py 1127-1153) refers to the extract that it is given, so this is the
    same extract, changed in place. *)
Definition invert_process (model_name : string) (limit_max : option R) (e : list (string * data (array R)))
  : res (list (string * data (array R)) * list (string * data (array R))) :=
  let! labels := read_log2 model_name LABELS_KEY e in
  let e := dset String.eqb e LABELS_KEY (Leaf labels) in
  let! predictions := read_log2 model_name PREDICTIONS_KEY e in
  let predictions := match limit_max with
                     | Some m => Arr (a_shape predictions) (map (clip 0%R m) (a_data predictions))
                     | None => predictions
                     end in
  let e := dset String.eqb e PREDICTIONS_KEY (Leaf predictions) in
  if shape_eqb (a_shape labels) (a_shape predictions) then Ok (e, e) else Err ValueError.

(* ------------------------------------------------------------------ *)
(** * image_preprocessors.py *)

(** Values of extracts: bytes, arrays of bytes, arrays of numbers. *)
Inductive image_value := Bytes (b : string) | BytesArray (shape : list nat) (l : list string) | Pixels (a : array Qc).

Record decode_image := DecodeImage {
  di_ground_truth_key : string; di_prediction_key : string;
  di_decode_ground_truth : bool; di_decode_prediction : bool; di_model_name : string
}.

Section Images.
  (** PIL's Image.open: an error for bytes that are no image *)
  Variable decode : string -> res (array Qc).

  (** 31-37 [_image_bytes_to_numpy_array]; io.BytesIO of a number is a TypeError *)
  Definition image_bytes_to_numpy_array (v : image_value) : res (array Qc) :=
    match v with
    | Bytes b => decode b
    | BytesArray _ [b] => decode b
    | BytesArray _ _ => Err AssertionError
    | Pixels (Arr _ [x]) => Err TypeError
    | Pixels _ => Err AssertionError
    end.

  (** "or {}" of labels, predictions and features.  Simplification: what is no dictionary is a
      ValueError (as for arrays of several elements). *)
  Definition dict_or_empty (v : option (data image_value)) : res (list (string * data image_value)) :=
    match v with None => Ok [] | Some (Dict d) => Ok d | Some (Leaf _) => Err ValueError end.

  (** 80-107 [_read_image_in_mutliple_dicts]: the value of the first dictionary that has the
      key; bytes that are not decoded have no shape *)
  Definition read_image (st : decode_image) (key where_ : string) (decode_it : bool) (e : list (string * data image_value))
    : res (array Qc) :=
    let! one := get_by_key e where_ (Some (di_model_name st)) None in
    let! one := dict_or_empty one in
    let! features := get_by_key e FEATURES_KEY None None in
    let! features := dict_or_empty features in
    let! transformed := get_by_key e TRANSFORMED_FEATURES_KEY (Some (di_model_name st)) None in
    let! transformed := dict_or_empty transformed in
    match chain_get [one; features; transformed] key with
    | None => Err ValueError
    | Some (Dict _) => Err TypeError
    | Some (Leaf v) => if decode_it then image_bytes_to_numpy_array v
                       else match v with Pixels a => Ok a | _ => Err AttributeError end
    end.

  (** 109-159 [process]: what is yielded: an extract of labels and predictions, but where
      there are example weights those alone (156-157); metric_util.py 261-284
      [to_standard_metric_inputs] refuses them: the message of the error asks an array for its
      keys, which it has not. *)
  Definition image_process (st : decode_image) (e : list (string * data image_value))
    : res (list (string * data image_value)) :=
    let! labels := read_image st (di_ground_truth_key st) LABELS_KEY (di_decode_ground_truth st) e in
    let! predictions := read_image st (di_prediction_key st) PREDICTIONS_KEY (di_decode_prediction st) e in
    if negb (shape_eqb (a_shape labels) (a_shape predictions)) then Err ValueError
    else
      let! result := match dget String.eqb e EXAMPLE_WEIGHTS_KEY with
                     | Some (Leaf _) => Err AttributeError
                     | Some (Dict d) => Ok d
                     | None => Ok [(LABELS_KEY, Leaf (Pixels labels)); (PREDICTIONS_KEY, Leaf (Pixels predictions))]
                     end in
      if negb (dmem String.eqb result LABELS_KEY) then Err ValueError
      else if negb (dmem String.eqb result PREDICTIONS_KEY) then Err ValueError
      else Ok result.
End Images.
