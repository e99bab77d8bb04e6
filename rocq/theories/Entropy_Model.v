(* Model of metrics/cross_entropy_metrics.py, metrics/model_cosine_similarity.py and
   the squared logarithmic error of metrics/mean_regression_error.py.  Logarithms,
   exponentials and norms are real numbers, extended by infinities and NaN;
   overflow and rounding are not modelled, zeros have no sign. *)
From Coq Require Import String Ascii Reals Qreals.
From Verif Require Import Base Beam Util_Model Inputs_Model Sums_Model Histogram_Model Confusion_Model Means_Model.
Local Open Scope string_scope.
Local Open Scope list_scope.

(* ------------------------------------------------------------------ *)
(** * numpy arithmetic on float64 *)

Inductive xr := XNaN | XNegInf | XFin (r : R) | XPosInf.

Definition of_num (a : num) : xr :=
  match a with NaN => XNaN | NegInf => XNegInf | Fin q => XFin (Q2R q) | PosInf => XPosInf end.
Definition x_plus (a b : xr) : xr :=
  match a, b with
  | XNaN, _ | _, XNaN => XNaN
  | XFin x, XFin y => XFin (x + y)%R
  | XPosInf, XNegInf | XNegInf, XPosInf => XNaN
  | XPosInf, _ | _, XPosInf => XPosInf
  | XNegInf, _ | _, XNegInf => XNegInf
  end.
Definition x_opp (a : xr) : xr :=
  match a with XNaN => XNaN | XFin x => XFin (- x)%R | XPosInf => XNegInf | XNegInf => XPosInf end.
Definition x_minus (a b : xr) : xr := x_plus a (x_opp b).
(** x times an infinity *)
Definition x_signed (x : R) (inf : xr) : xr :=
  if Rlt_dec 0 x then inf else if Rlt_dec x 0 then x_opp inf else XNaN.
Definition x_mult (a b : xr) : xr :=
  match a, b with
  | XNaN, _ | _, XNaN => XNaN
  | XFin x, XFin y => XFin (x * y)%R
  | XFin x, i => x_signed x i
  | i, XFin y => x_signed y i
  | XPosInf, i => i
  | XNegInf, i => x_opp i
  end.
Definition x_div (a b : xr) : xr :=
  match a, b with
  | XNaN, _ | _, XNaN => XNaN
  | XFin x, XFin y => if Req_EM_T y 0 then x_signed x XPosInf else XFin (x / y)%R
  | XFin _, _ => XFin 0%R
  | i, XFin y => if Rlt_dec y 0 then x_opp i else i
  | _, _ => XNaN
  end.
(** np.log, np.exp, np.abs, np.maximum(., 0) *)
Definition x_log (a : xr) : xr :=
  match a with
  | XFin x => if Rlt_dec 0 x then XFin (ln x) else if Rlt_dec x 0 then XNaN else XNegInf
  | XPosInf => XPosInf
  | _ => XNaN
  end.
Definition x_exp (a : xr) : xr :=
  match a with XNaN => XNaN | XNegInf => XFin 0%R | XFin x => XFin (exp x) | XPosInf => XPosInf end.
Definition x_abs (a : xr) : xr :=
  match a with XNaN => XNaN | XFin x => XFin (Rabs x) | _ => XPosInf end.
Definition x_max0 (a : xr) : xr :=
  match a with XNaN => XNaN | XNegInf => XFin 0%R | XFin x => XFin (Rmax x 0) | XPosInf => XPosInf end.
Definition x_sum (l : list xr) : xr := fold_right x_plus (XFin 0%R) l.
(** np.mean; NaN for an empty array *)
Definition x_mean (l : list xr) : xr := x_div (x_sum l) (XFin (INR (length l))).
Definition x_qc (q : Qc) : xr := XFin (Q2R q).

(* ------------------------------------------------------------------ *)
(** * cross_entropy_metrics.py *)

(** 332-364 [_BinaryCrossEntropyCombiner._cross_entropy]; label * (1 - smoothing) + 0.5 * smoothing. *)
Definition smooth_binary (s y : Qc) : Qc := (y * (1 - s) + Q2Qc (1 # 2) * s)%Qc.
Definition bce_logits (y : Qc) (x : num) : xr :=
  let x := of_num x in
  x_plus (x_minus (x_max0 x) (x_mult x (x_qc y))) (x_log (x_plus (XFin 1%R) (x_exp (x_opp (x_abs x))))).
Definition bce_probability (y : Qc) (p : num) : xr :=
  let p := of_num p in
  x_minus (x_opp (x_mult (x_qc y) (x_log p))) (x_mult (x_qc (1 - y)%Qc) (x_log (x_minus (XFin 1%R) p))).
Definition binary_cross_entropy (from_logits : bool) (smoothing : Qc) (label : list Qc) (pred : list num) : res xr :=
  let! l := broadcast (if from_logits then bce_logits else bce_probability) (map (smooth_binary smoothing) label) pred in
  Ok (x_mean l).

(** 370-395 [_CategoricalCrossEntropyCombiner._cross_entropy].  np.ma.log masks
    entries whose logarithm is not a finite number; the sum skips masked entries,
    and the "masked" constant of an entirely masked sum has the item 0.0. *)
Definition smooth_categorical (s : Qc) (classes : nat) (y : Qc) : Qc := (y * (1 - s) + s / qn classes)%Qc.
Definition ma_log (a : xr) : option R :=
  match a with XFin x => if Rlt_dec 0 x then Some (ln x) else None | _ => None end.
Definition distribution (from_logits : bool) (pred : list num) : list xr :=
  let p := map (fun x => if from_logits then x_exp (of_num x) else of_num x) pred in
  map (fun x => x_div x (x_sum p)) p.
Definition categorical_cross_entropy (from_logits : bool) (smoothing : Qc) (label : list Qc) (pred : list num) : res xr :=
  if Nat.eqb (length pred) 0 then Err ZeroDivisionError else
  let! terms := broadcast (fun (y : Qc) p => match ma_log p with Some l => (Q2R y * l)%R | None => 0%R end)
                  (map (smooth_categorical smoothing (length pred)) label) (distribution from_logits pred) in
  Ok (XFin (- fold_right Rplus 0 terms)%R).

(** 387: "prediction /= np.sum(prediction)" writes into the array it was given,
    which is the array of the element (to_label_prediction_example_weight copies
    nothing when flatten is False and there is no sub key); np.exp made a copy. *)
Definition prediction_after (from_logits : bool) (pred : list num) : list num :=
  if from_logits then pred
  else let total := fold_right num_plus (Fin 0%Qc) pred in map (fun x => num_div x total) pred.

(** What combiners after this one find in the element: all combiners of a slice get
    the same element, one after the other
    (metrics_plots_and_validations_evaluator.py 397-505, beam's
    SingleInputTupleCombineFn). *)
Definition element_after (from_logits : bool) (e : inputs_dict) : inputs_dict :=
  InputsDict (i_label e)
    (match i_prediction e with Some (Leaf p) => Some (Leaf (prediction_after from_logits p)) | other => other end)
    (i_weight e).

(** 221-230 [_CrossEntropyAccumulator] *)
Record xtotal := XTotal { xt_weight : Qc; xt_value : xr }.
Definition xtotal_zero : xtotal := XTotal 0%Qc (XFin 0%R).
Definition xtotal_plus (a b : xtotal) : xtotal :=
  XTotal (xt_weight a + xt_weight b)%Qc (x_plus (xt_value a) (xt_value b)).
(** 299-308: one tuple *)
Definition entropy_of (loss : list Qc -> list num -> res xr) (y : yielded) : res xtotal :=
  let '(label, pred, weight) := y in
  let! e := loss label pred in
  let! w := safe_to_scalar 0%Qc weight in
  Ok (XTotal w (x_mult e (x_qc w))).
(** 288-298: the arguments of to_label_prediction_example_weight *)
Definition entropy_options (sk : option sub_key) (agg : bool) (cw : option (list (nat * Qc))) (weighted : bool) : options :=
  Options sk agg cw weighted false false false false.
(** 320-326 [extract_output]: np.divide *)
Definition entropy_result (a : xtotal) : xr := x_div (xt_value a) (x_qc (xt_weight a)).
(** 233-326 [_CrossEntropyCombiner]; merge_accumulators (312-318) has the shape of
    [merge_again]. *)
Definition entropy_combiner argpartition loss o lk pk model output :=
  again_combiner xtotal_zero (tuple_add argpartition (entropy_of loss) xtotal_plus o lk pk model output)
    xtotal_plus (fun a => Ok (entropy_result a)).

(* ------------------------------------------------------------------ *)
(** * mean_regression_error.py: squared logarithmic error *)

(** 491-499: the squared norm of log(label + 1) - log(prediction + 1) *)
Definition x_sqr (a : xr) : xr := x_mult a a.
Definition squared_log_error (label : list Qc) (pred : list num) : res xr :=
  let! d := broadcast (fun l p => x_sqr (x_minus (x_log (x_qc (l + 1)%Qc)) (x_log (of_num (num_plus p (Fin 1%Qc)))))) label pred in
  Ok (x_sum d).
(** 423-432 with this error *)
Definition log_error_of (y : yielded) : res xtotal :=
  let '(label, pred, weight) := y in
  let! e := squared_log_error label pred in
  match e with
  | XNaN => Ok xtotal_zero
  | _ => let! w := safe_to_scalar 0%Qc weight in Ok (XTotal w (x_mult e (x_qc w)))
  end.
(** 444-453 [extract_output] *)
Definition log_error_result (a : xtotal) : xr :=
  if Qc_eqb (xt_weight a) 0%Qc then XNaN else x_div (xt_value a) (x_qc (xt_weight a)).
Definition log_error_combiner argpartition o lk pk model output :=
  again_combiner xtotal_zero (tuple_add argpartition log_error_of xtotal_plus o lk pk model output)
    xtotal_plus (fun a => Ok (log_error_result a)).

(* ------------------------------------------------------------------ *)
(** * model_cosine_similarity.py *)

(** 30-37: np.dot(b, c) / (norm(b) * norm(c)); arrays that hold an infinity or NaN
    give NaN (inf / inf), as do arrays of norm 0 (0 / 0). *)
Fixpoint finite_part (l : list num) : option (list Qc) :=
  match l with
  | [] => Some []
  | Fin q :: t => option_map (cons q) (finite_part t)
  | _ => None
  end.
Definition dot (a b : list Qc) : R := Q2R (qsum (map (fun xy => fst xy * snd xy)%Qc (combine a b))).
Definition norm (a : list Qc) : R := sqrt (dot a a).
Definition cosine_similarity (b c : list num) : res xr :=
  if negb (Nat.eqb (length b) (length c)) then Err ValueError
  else match finite_part b, finite_part c with
       | Some x, Some y => Ok (x_div (XFin (dot x y)) (XFin (norm x * norm y)%R))
       | _, _ => Ok XNaN
       end.
(** 41-54 [_CosineSimilarityAccumulator]: number of examples, sum *)
Definition cosine_options : options := Options None false None false false false true false.

Section Cosine.
  Variable argpartition : list num -> nat -> list nat.
  (** 140-175 [add_input]; example_weighted is left at its default False. *)
  Definition cosine_add (lk_base pk_base base lk pk model output : string) (acc : xtotal) (element : inputs_dict) : res xtotal :=
    let! bs := to_label_prediction_example_weight argpartition cosine_options lk_base pk_base base output element in
    let! b := first_tuple bs in
    let! ms := to_label_prediction_example_weight argpartition cosine_options lk pk model output element in
    let! m := first_tuple ms in
    let! c := cosine_similarity (snd (fst b)) (snd (fst m)) in
    Ok (xtotal_plus acc (XTotal 1%Qc c)).
  (** 51-54 [get_average], 177-188 *)
  Definition cosine_combiner lk_base pk_base base lk pk model output :=
    again_combiner xtotal_zero (cosine_add lk_base pk_base base lk pk model output) xtotal_plus
      (fun a => Ok (log_error_result a)).
End Cosine.
