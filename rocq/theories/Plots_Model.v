(* Model of metrics/confusion_matrix_plot.py, score_distribution_plot.py,
   calibration_plot.py, object_detection_confusion_matrix_plot.py and of
   Matrices.to_proto (metrics/binary_confusion_matrices.py 153-202). *)
From Coq Require Import String Ascii.
From Verif Require Import Base Beam Util_Model Inputs_Model Sums_Model Histogram_Model Confusion_Model
  Means_Model Keys_Model Config_Model Evaluator_Model Detection_Model.
Local Open Scope string_scope.
Local Open Scope list_scope.

(* ------------------------------------------------------------------ *)
(** * Matrices.to_proto *)

(** ConfusionMatrixAtThresholds.ConfusionMatrixAtThreshold *)
Record shown_row := ShownRow {
  sr_threshold : num; sr_tp : Qc; sr_fp : Qc; sr_tn : Qc; sr_fn : Qc;
  sr_precision : num; sr_recall : num; sr_fpr : num; sr_for : num; sr_f1 : num; sr_accuracy : num
}.

(** round(q, 6): to the nearest multiple of 1e-6, ties to an even multiple (on exact
    numbers; infinities and NaN are returned as they are). *)
Definition round_half_even (q : Qc) : Z :=
  let n := Qnum (this q) in let d := Zpos (Qden (this q)) in
  let f := Z.div n d in let r := (2 * (n - f * d))%Z in
  if Z.ltb r d then f else if Z.ltb d r then (f + 1)%Z else if Z.even f then f else (f + 1)%Z.
Definition round6 (t : num) : num :=
  match t with
  | Fin q => Fin (qz (round_half_even (q * Q2Qc (1000000 # 1))%Qc) * Q2Qc (1 # 1000000))%Qc
  | _ => t
  end.

(** product of two numbers, of which none is infinite here *)
Definition num_times (a b : num) : num := match a, b with Fin x, Fin y => Fin (x * y)%Qc | _, _ => NaN end.

(** 163-201: one threshold.  np.divide(.., out, where) at 168-179 keeps 1 (0) where the
    divisor is not positive. *)
Definition show_row (t : num) (tp tn fp fn : Qc) : shown_row :=
  let precision := if Qc_ltb 0%Qc (tp + fp)%Qc then np_div tp (tp + fp)%Qc else Fin 1%Qc in
  let recall := if Qc_ltb 0%Qc (tp + fn)%Qc then np_div tp (tp + fn)%Qc else Fin 0%Qc in
  ShownRow (round6 t) tp fp tn fn precision recall
    (np_div fp (tn + fp)%Qc) (np_div fn (tn + fn)%Qc)
    (num_div (num_times (num_scale (qz 2) precision) recall) (num_plus precision recall))
    (np_div (tp + tn)%Qc (tp + tn + fp + fn)%Qc).

(** 153-202; the four lists are as long as the thresholds in all uses (numpy would
    refuse or broadcast lists of other lengths). *)
Definition to_proto (m : matrices) : res (list shown_row) :=
  mapM (fun it => let! a := nth_ok (m_tp m) (fst it) in let! b := nth_ok (m_tn m) (fst it) in
                  let! c := nth_ok (m_fp m) (fst it) in let! d := nth_ok (m_fn m) (fst it) in
                  Ok (show_row (snd it) a b c d))
       (combine (seq 0 (length (m_thresholds m))) (m_thresholds m)).

(* ------------------------------------------------------------------ *)
(** * confusion_matrix_plot.py *)

(** 85-86 (score_distribution_plot.py 93-94): i * 1.0 / n for i = 0 .. n, after -1e-6 *)
Definition plot_thresholds (n : nat) : res (list num) :=
  if Nat.eqb n 0 then Err ZeroDivisionError
  else Ok (Fin (- Q2Qc (1 # 1000000))%Qc :: map (fun i => Fin (qn i / qn n)%Qc) (seq 0 (n + 1))).

(** calibration_histogram.py 27, 101-108: the histogram of the default number of
    buckets (a parameter here), over [0, 1] with fractional labels. *)
Section ConfusionPlot.
  Variable argpartition : list num -> nat -> list nat.

  (** 57-123 with binary_confusion_matrices.py 377-408, 442-475: the histogram of the
      examples, then its matrices, then what is shown. *)
  Definition confusion_matrix_plot (num_buckets n : nat) (sk : option sub_key) (aggregation : bool)
      (class_weights : option (list (nat * Qc))) (weighted : bool)
      (label_key prediction_key model_name output_name : string) (s : sched inputs_dict) : res (list shown_row) :=
    let! thresholds := plot_thresholds n in
    let! h := outcome (histogram_combiner argpartition num_buckets 0%Qc 1%Qc true
                         (histogram_options sk aggregation weighted true class_weights)
                         label_key prediction_key model_name output_name) s in
    let! m := histogram_result thresholds h num_buckets in
    to_proto m.

  (* ---------------------------------------------------------------- *)
  (** * score_distribution_plot.py *)

  (** a prediction used as a label.  NaN and infinities, like all numbers outside of
      [0, 1], are refused as fractional labels; 2 stands for them. *)
  Definition as_label (x : num) : Qc := match x with Fin q => q | _ => qz 2 end.
  Fixpoint relabel (d : data (list num)) : data (list Qc) :=
    match d with
    | Leaf l => Leaf (map as_label l)
    | Dict kvs => Dict (map (fun kv => (fst kv, relabel (snd kv))) kvs)
    end.

  (** 60-68 [_extract_prediction_and_weight] *)
  Definition extract_prediction_and_weight (inp : inputs_dict) : inputs_dict :=
    match i_prediction inp with
    | Some p => InputsDict (Some (relabel p)) (i_prediction inp) (i_weight inp)
    | None => inp
    end.

  (** 96-111: the label key of every model is its prediction key.  140-146: the rows
      changed. *)
  Definition merge_row (r : shown_row) : shown_row :=
    ShownRow (sr_threshold r) (sr_tp r + sr_fp r)%Qc 0%Qc (sr_tn r + sr_fn r)%Qc 0%Qc
      (Fin 0%Qc) (Fin 0%Qc) (sr_fpr r) (sr_for r) (sr_f1 r) (sr_accuracy r).

  (** 71-154; no example ids are collected. *)
  Definition score_distribution_plot (n : nat) (sk : option sub_key) (aggregation : bool)
      (class_weights : option (list (nat * Qc))) (weighted : bool)
      (prediction_key model_name output_name : string) (s : sched inputs_dict) : res (list shown_row) :=
    let! thresholds := plot_thresholds n in
    let o := histogram_options sk aggregation weighted true class_weights in
    let! m := outcome (res_combiner []
                (fun acc e => confusion_add argpartition thresholds 1 o prediction_key prediction_key model_name output_name
                                acc (None, extract_prediction_and_weight e))
                (bcm_merge thresholds 1)
                (fun acc => to_matrices_and_examples thresholds (bcm_extract thresholds acc))) s in
    let! rows := to_proto (fst m) in
    Ok (map merge_row rows).
End ConfusionPlot.

(* ------------------------------------------------------------------ *)
(** * calibration_plot.py *)

(** schema.proto Feature: its name and domain; min and max may be unset. *)
Inductive domain := NoDomain | IntDomain (lo hi : option Z) | FloatDomain (lo hi : option Qc).
Record feature := Feature { f_name : string; f_domain : domain }.

(** 67-101 [_find_label_domain] *)
Definition find_label_domain (c : eval_config) (schema : list feature) (model_name output_name : string)
  : res (option Qc * option Qc) :=
  match get_model_spec c model_name with
  | None => Ok (None, None)
  | Some spec =>
      let! label_key := get_label_key spec output_name in
      match label_key with
      | None => Ok (None, None)
      | Some k =>
          if String.eqb k "" then Ok (None, None)
          else match find (fun f => String.eqb (f_name f) k) schema with
               | None => Ok (None, None)
               | Some f => Ok match f_domain f with
                              | IntDomain lo hi => (option_map qz lo, option_map qz hi)
                              | FloatDomain lo hi => (lo, hi)
                              | NoDomain => (None, None)
                              end
               end
      end
  end.

(** 127-135: the ends of the plot; [None] for no schema (or an empty one). *)
Definition plot_ends (left right : option Qc) (c : option eval_config) (schema : option (list feature))
    (model_name output_name : string) : res (Qc * Qc) :=
  let! found := match left, right with
                | Some _, Some _ => Ok (None, None)
                | _, _ => match c, schema with
                          | Some c, Some sc => find_label_domain c sc model_name output_name
                          | _, _ => Ok (None, None)
                          end
                end in
  let l := match left with Some l => l | None => match fst found with Some l => l | None => 0%Qc end end in
  let r := match right with Some r => r | None => match snd found with Some r => r | None => 1%Qc end end in
  Ok (l, r).

(** 157-160 *)
Definition calibration_thresholds (n : nat) (left right : Qc) : res (list num) :=
  if Nat.eqb n 0 then Err ZeroDivisionError
  else Ok (NegInf :: map (fun i => Fin (left + qn i * (right - left) / qn n)%Qc) (seq 0 (n + 1))).

(** CalibrationHistogramBuckets.Bucket *)
Record shown_bucket := ShownBucket { sb_lower : num; sb_upper : num; sb_labels : Qc; sb_predictions : num; sb_examples : Qc }.

(** 173-202 [_to_proto]: the loop at bucket i; the upper threshold is the next lower one. *)
Fixpoint show_buckets (thresholds : list num) (i : nat) (lower : num) (hist : list bucket) : list shown_bucket :=
  match hist with
  | [] => []
  | b :: t =>
      let upper := if Nat.leb (length thresholds - 1) i then PosInf else nth (i + 1) thresholds NaN in
      ShownBucket lower upper (t_labels (snd b)) (t_predictions (snd b)) (t_examples (snd b))
        :: show_buckets thresholds (i + 1) upper t
  end.

Section CalibrationPlot.
  Variable argpartition : list num -> nat -> list nat.

  (** 104-170 with calibration_histogram.py 101-150: the labels are fractional exactly if
      the ends are 0 and 1. *)
  Definition calibration_plot (num_buckets n : nat) (left right : option Qc) (c : option eval_config) (schema : option (list feature))
      (sk : option sub_key) (aggregation : bool) (class_weights : option (list (nat * Qc))) (weighted : bool)
      (label_key prediction_key model_name output_name : string) (s : sched inputs_dict) : res (list shown_bucket) :=
    let! ends := plot_ends left right c schema model_name output_name in
    let (l, r) := ends in
    let! h := outcome (histogram_combiner argpartition num_buckets l r true
                         (histogram_options sk aggregation weighted (Qc_eqb l 0%Qc && Qc_eqb r 1%Qc) class_weights)
                         label_key prediction_key model_name output_name) s in
    let! thresholds := calibration_thresholds n l r in
    Ok (show_buckets thresholds 0 NegInf (rebin thresholds h num_buckets l r)).
End CalibrationPlot.

(* ------------------------------------------------------------------ *)
(** * object_detection_confusion_matrix_plot.py *)

(** The computations of one plot: 103-163, confusion_matrix_plot.py 57-123,
    binary_confusion_matrices.py 361-408, 484-488 and calibration_histogram.py 109-150.
    The histogram's name has the preprocessor in it, the name of the matrices has not. *)
Inductive plot_body := CountHistogram (a : match_arguments) | MatricesOf (k : metric_key) | PlotOf (k : metric_key).
Definition plot_histogram_key (a : match_arguments) (model output : string) (weighted : bool) : metric_key :=
  MetricKey (private_name "calibration_histogram"
               [("fractional_labels", Some "True"); ("left", Some "0.0"); ("num_buckets", Some "10000");
                ("prediction_based_bucketing", Some "True");
                ("preprocessors", Some ("('" ++ match_preprocessor_name a ++ "',)")%string); ("right", Some "1.0")])
    model output None None (Some weighted) false.
Definition plot_matrices_key (name model output : string) (weighted : bool) : metric_key :=
  MetricKey ("_binary_confusion_matrices_" ++ name)%string model output None None (Some weighted) false.
Definition detection_plot_computations (a : match_arguments) (class_id : Z) (name model output : string) (weighted : bool)
  : list (computation plot_body) :=
  let h := plot_histogram_key a model output weighted in
  let k := plot_matrices_key name model output weighted in
  [Computation (Combine "_CalibrationHistogramCombiner" [match_preprocessor_name a]) [h] (CountHistogram a);
   Computation Derive [k] (MatricesOf h);
   Computation Derive [MetricKey name model output (Some (SubKey (Some class_id) None None)) None (Some weighted) false] (PlotOf k)].
