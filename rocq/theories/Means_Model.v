(* Model of metrics that average something over the examples:
   metrics/flip_metrics.py, mean_regression_error.py,
   prediction_difference_metrics.py, squared_pearson_correlation.py,
   tjur_discrimination.py, exact_match.py.  Sums are exact; overflow of Python's
   float power is not modelled. *)
From Coq Require Import String Ascii.
From Verif Require Import Base Beam Util_Model Inputs_Model Sums_Model Histogram_Model Confusion_Model.
Local Open Scope string_scope.
Local Open Scope list_scope.

(* ------------------------------------------------------------------ *)
(** * numpy arithmetic *)

Definition num_sub (a b : num) : num := num_plus a (num_opp b).
Definition num_abs (a : num) : num :=
  match a with
  | NaN => NaN
  | Fin x => Fin (if Qc_ltb x 0%Qc then - x else x)%Qc
  | _ => PosInf
  end.
Definition num_sqr (a : num) : num :=
  match a with NaN => NaN | Fin x => Fin (x * x)%Qc | _ => PosInf end.
(** IEEE division; zeros are taken as positive. *)
Definition num_div (a b : num) : num :=
  match a, b with
  | NaN, _ | _, NaN => NaN
  | Fin x, Fin y => np_div x y
  | Fin _, _ => Fin 0%Qc
  | PosInf, Fin y => if Qc_ltb y 0%Qc then NegInf else PosInf
  | NegInf, Fin y => if Qc_ltb y 0%Qc then PosInf else NegInf
  | _, _ => NaN
  end.
Definition is_nan (a : num) : bool := match a with NaN => true | _ => false end.

(** Element-wise operation on two one-dimensional arrays with broadcasting. *)
Definition broadcast {A B C} (f : A -> B -> C) (x : list A) (y : list B) : res (list C) :=
  if Nat.eqb (length x) (length y) then Ok (map (fun ab => f (fst ab) (snd ab)) (combine x y))
  else match x, y with
       | [a], _ => Ok (map (f a) y)
       | _, [b] => Ok (map (fun a => f a b) x)
       | _, _ => Err ValueError
       end.

(** merge_accumulators as in flip_metrics.py 133-141, mean_regression_error.py
    436-442, prediction_difference_metrics.py 170-176:
      result = next(iter(accumulators)); for a in accumulators: result.merge(a)
    The evaluator hands over a tuple (SingleInputTupleCombineFn), so the loop starts
    again at the first accumulator. *)
Definition merge_again {A} (plus : A -> A -> A) (l : list (res A)) : res A :=
  match l with
  | [] => Err StopIteration
  | a :: _ => fold_left (fun acc b => let! x := acc in let! y := b in Ok (plus x y)) l a
  end.
Definition again_combiner {I A O} (create : A) (add : A -> I -> res A) (plus : A -> A -> A)
    (extract : A -> res O) : combiner I (res A) (res O) :=
  {| c_create := Ok create;
     c_add := fun acc x => let! a := acc in add a x;
     c_merge := merge_again plus;
     c_extract := fun acc => let! a := acc in extract a |}.

(** next(generator) *)
Definition first_tuple (ys : list yielded) : res yielded :=
  match ys with [] => Err StopIteration | y :: _ => Ok y end.

(** for label, prediction, example_weight in ...: accumulator += f(...) *)
Section Loop.
  Variable argpartition : list num -> nat -> list nat.
  Definition tuple_add {A} (f : yielded -> res A) (plus : A -> A -> A) (o : options)
      (label_key prediction_key model_name output_name : string) (acc : A) (element : inputs_dict) : res A :=
    let! ys := to_label_prediction_example_weight argpartition o label_key prediction_key
                 model_name output_name element in
    foldM (fun a y => let! d := f y in Ok (plus a d)) ys acc.
End Loop.

(* ------------------------------------------------------------------ *)
(** * flip_metrics.py *)

(** 42-57 [_BooleanFlipCountsAccumulator] *)
Record flips := Flips { f_examples : Qc; f_nn : Qc; f_np : Qc; f_pn : Qc; f_pp : Qc }.
Definition flips_zero : flips := Flips 0 0 0 0 0.
Definition flips_plus (a b : flips) : flips :=
  Flips (f_examples a + f_examples b) (f_nn a + f_nn b) (f_np a + f_np b) (f_pn a + f_pn b) (f_pp a + f_pp b).

(** 113-129: bool(prediction > threshold); int() of an empty array is a TypeError. *)
Definition above (threshold : Qc) (p : list num) : res bool :=
  match p with [x] => Ok (num_ltb (Fin threshold) x) | [] => Err TypeError | _ => Err ValueError end.
(** w * int(b) *)
Definition times_bool (w : Qc) (b : bool) : Qc := if b then w else 0%Qc.

Definition flip_options (weighted : bool) : options := Options None false None weighted false true true false.

Section Flips.
  Variable argpartition : list num -> nat -> list nat.

  (** 84-131 [add_input]; label_key and prediction_key of the two model specs. *)
  Definition flips_add (threshold : Qc) (weighted : bool)
      (lk_base pk_base base lk pk model output : string) (acc : flips) (element : inputs_dict) : res flips :=
    let! bs := to_label_prediction_example_weight argpartition (flip_options weighted) lk_base pk_base base output element in
    let! b := first_tuple bs in
    let! ms := to_label_prediction_example_weight argpartition (flip_options weighted) lk pk model output element in
    let! m := first_tuple ms in
    let! w := safe_to_scalar 0%Qc (snd b) in
    let! pb := above threshold (snd (fst b)) in
    let! pm := above threshold (snd (fst m)) in
    Ok (flips_plus acc (Flips w (times_bool w (negb pb && negb pm)) (times_bool w (negb pb && pm))
                              (times_bool w (pb && negb pm)) (times_bool w (pb && pm)))).

  (** 62-148 [_BooleanFlipCountsCombiner] *)
  Definition flips_combiner threshold weighted lk_base pk_base base lk pk model output :=
    again_combiner flips_zero (flips_add threshold weighted lk_base pk_base base lk pk model output)
      flips_plus (fun a => Ok a).
End Flips.

(** 358-361, 391-392, 422-423, 453-454, 484-485: the rates; Python floats. *)
Definition symmetric_flip_rate (f : flips) : res Qc := py_div (f_np f + f_pn f)%Qc (f_examples f).
Definition neg_to_neg_rate (f : flips) : res Qc := py_div (f_nn f) (f_examples f).
Definition neg_to_pos_rate (f : flips) : res Qc := py_div (f_np f) (f_examples f).
Definition pos_to_neg_rate (f : flips) : res Qc := py_div (f_pn f) (f_examples f).
Definition pos_to_pos_rate (f : flips) : res Qc := py_div (f_pp f) (f_examples f).

(* ------------------------------------------------------------------ *)
(** * mean_regression_error.py *)

(** 357-365 [_MeanRegressionErrorAccumulator]; also used for the symmetric
    prediction difference (prediction_difference_metrics.py 101-108) and exact match
    (exact_match.py 89-103): a weight and a weighted total. *)
Record total := Total { t_weight : Qc; t_value : num }.
Definition total_zero : total := Total 0 (Fin 0%Qc).
Definition total_plus (a b : total) : total :=
  Total (t_weight a + t_weight b) (num_plus (t_value a) (t_value b)).

(** 459-462 absolute error *)
Definition absolute_error (label : list Qc) (pred : list num) : res num :=
  let! d := broadcast (fun l p => num_abs (num_sub (Fin l) p)) label pred in
  safe_to_scalar (Fin 0%Qc) d.
(** 468-471 squared error: the norm of the difference, squared *)
Definition squared_error (label : list Qc) (pred : list num) : res num :=
  let! d := broadcast (fun l p => num_sqr (num_sub (Fin l) p)) label pred in
  Ok (fold_right num_plus (Fin 0%Qc) d).
(** 477-485 absolute percentage error *)
Definition percentage_error (label : list Qc) (pred : list num) : res num :=
  match label with
  | [] => Ok NaN
  | [l] => if Qc_eqb l 0%Qc then Ok NaN
           else let! d := broadcast (fun l p => num_abs (num_scale (/ l)%Qc (num_sub (Fin l) p))) label pred in
                let! e := safe_to_scalar (Fin 0%Qc) d in
                Ok (num_scale (qz 100) e)
  | _ => Err ValueError
  end.

(** 423-432: one tuple *)
Definition regression_of (error : list Qc -> list num -> res num) (y : yielded) : res total :=
  let '(label, pred, weight) := y in
  let! e := error label pred in
  if is_nan e then Ok total_zero
  else let! w := safe_to_scalar 0%Qc weight in Ok (Total w (num_scale w e)).
(** 444-453 [extract_output] *)
Definition regression_result (a : total) : num :=
  if Qc_eqb (t_weight a) 0%Qc then NaN else num_scale (/ t_weight a)%Qc (t_value a).
(** 413-422: the arguments of to_label_prediction_example_weight *)
Definition regression_options (sk : option sub_key) (agg : bool) (cw : option (list (nat * Qc))) (weighted : bool) : options :=
  Options sk agg cw weighted false true false false.

(** 368-453 [_MeanRegressionErrorCombiner] *)
Definition regression_combiner argpartition error o lk pk model output :=
  again_combiner total_zero (tuple_add argpartition (regression_of error) total_plus o lk pk model output)
    total_plus (fun a => Ok (regression_result a)).

(* ------------------------------------------------------------------ *)
(** * prediction_difference_metrics.py *)

(** 157-167; 26 _K_EPSILON = 1e-7 is the same number as metric_util's. *)
Definition sym_diff (b p : num) : num :=
  let numerator := num_scale (qz 2) (num_abs (num_sub b p)) in
  let denominator := num_abs (num_plus b p) in
  if num_ltb numerator (Fin EPSILON) && num_ltb denominator (Fin EPSILON) then Fin 0%Qc
  else num_div numerator denominator.
Definition difference_of (weight : list Qc) (base pred : list num) : res total :=
  let! w := safe_to_scalar 0%Qc weight in
  match base, pred with
  | [], [] | [], [_] | [_], [] => Ok (Total w (num_scale w (Fin 0%Qc)))
  | [b], [p] => Ok (Total w (num_scale w (sym_diff b p)))
  | _, _ => Err ValueError
  end.
Definition difference_options (weighted : bool) : options := Options None false None weighted false true false false.

Section Difference.
  Variable argpartition : list num -> nat -> list nat.
  (** 133-168 [add_input] *)
  Definition difference_add (weighted : bool) (lk_base pk_base base lk pk model output : string)
      (acc : total) (element : inputs_dict) : res total :=
    let! bs := to_label_prediction_example_weight argpartition (difference_options weighted) lk_base pk_base base output element in
    let! b := first_tuple bs in
    let! ms := to_label_prediction_example_weight argpartition (difference_options weighted) lk pk model output element in
    let! m := first_tuple ms in
    let! d := difference_of (snd b) (snd (fst b)) (snd (fst m)) in
    Ok (total_plus acc d).
  (** 178-184 [extract_output] *)
  Definition difference_result (a : total) : res num :=
    if Qc_eqb (t_weight a) 0%Qc then Err ZeroDivisionError
    else Ok (num_scale (/ t_weight a)%Qc (t_value a)).
  (** 111-184 [_SymmetricPredictionDifferenceCombiner] *)
  Definition difference_combiner weighted lk_base pk_base base lk pk model output :=
    again_combiner total_zero (difference_add weighted lk_base pk_base base lk pk model output)
      total_plus difference_result.
End Difference.

(* ------------------------------------------------------------------ *)
(** * squared_pearson_correlation.py *)

(** 74-92 [_SquaredPearsonCorrelationAccumulator] *)
Record pearson := Pearson { p_l : Qc; p_p : num; p_ll : Qc; p_pp : num; p_lp : num; p_n : Qc }.
Definition pearson_zero : pearson := Pearson 0 (Fin 0%Qc) 0 (Fin 0%Qc) (Fin 0%Qc) 0.
Definition pearson_plus (a b : pearson) : pearson :=
  Pearson (p_l a + p_l b) (num_plus (p_p a) (p_p b)) (p_ll a + p_ll b) (num_plus (p_pp a) (p_pp b))
          (num_plus (p_lp a) (p_lp b)) (p_n a + p_n b).
(** 133-145: one tuple *)
Definition pearson_of (y : yielded) : res pearson :=
  let '(label, pred, weight) := y in
  let! w := scalar weight in
  let! l := scalar label in
  let! p := scalar pred in
  Ok (Pearson (w * l) (num_scale w p) (w * (l * l)) (num_scale w (num_sqr p)) (num_scale (w * l) p) w).
(** 168-216 [extract_output] *)
Definition pearson_result (a : pearson) : num :=
  if Qc_ltb 0%Qc (p_n a) then
    let numerator := num_sqr (num_sub (p_lp a) (num_scale (p_l a / p_n a)%Qc (p_p a))) in
    let denominator_y := num_sub (p_pp a) (num_scale (/ p_n a)%Qc (num_sqr (p_p a))) in
    let denominator_x := (p_ll a - p_l a * p_l a / p_n a)%Qc in
    let denominator := num_scale denominator_x denominator_y in
    if num_ltb (Fin 0%Qc) denominator then num_div numerator denominator else NaN
  else NaN.
(** 120-132: no sub key is passed on. *)
Definition no_sub_key_options (agg : bool) (cw : option (list (nat * Qc))) (weighted : bool) : options :=
  Options None agg cw weighted false true false false.
(** 95-218; the metric's sub key [sk] is part of the key only (45-71). *)
Definition pearson_combiner argpartition (sk : option sub_key) agg cw weighted lk pk model output :=
  res_combiner pearson_zero
    (tuple_add argpartition pearson_of pearson_plus (no_sub_key_options agg cw weighted) lk pk model output)
    pearson_plus (fun a => Ok (pearson_result a)).

(* ------------------------------------------------------------------ *)
(** * tjur_discrimination.py *)

(** 238-252 [_TjurDiscriminationAccumulator] *)
Record tjur := Tjur { j_nl : Qc; j_np : num; j_pl : Qc; j_pp : num }.
Definition tjur_zero : tjur := Tjur 0 (Fin 0%Qc) 0 (Fin 0%Qc).
Definition tjur_plus (a b : tjur) : tjur :=
  Tjur (j_nl a + j_nl b) (num_plus (j_np a) (j_np b)) (j_pl a + j_pl b) (num_plus (j_pp a) (j_pp b)).
(** 293-303: one tuple *)
Definition tjur_of (y : yielded) : res tjur :=
  let '(label, pred, weight) := y in
  let! l := scalar label in
  let! p := scalar pred in
  let! w := scalar weight in
  Ok (Tjur ((1 - l) * w) (num_scale ((1 - l) * w) p) (l * w) (num_scale (l * w) p))%Qc.
(** 255-330; as for Pearson no sub key reaches the computation (207-235). *)
Definition tjur_combiner argpartition (sk : option sub_key) agg cw weighted lk pk model output :=
  res_combiner tjur_zero
    (tuple_add argpartition tjur_of tjur_plus (no_sub_key_options agg cw weighted) lk pk model output)
    tjur_plus (fun a => Ok a).
(** 91-111 coefficient of discrimination *)
Definition discrimination (a : tjur) : num :=
  if Qc_eqb (j_nl a) 0%Qc || Qc_eqb (j_pl a) 0%Qc then NaN
  else num_sub (num_scale (/ j_pl a)%Qc (j_pp a)) (num_scale (/ j_nl a)%Qc (j_np a)).
(** 177-198 relative coefficient of discrimination *)
Definition relative_discrimination (a : tjur) : num :=
  if Qc_eqb (j_nl a) 0%Qc || Qc_eqb (j_pl a) 0%Qc || num_eqb (j_np a) (Fin 0%Qc) then NaN
  else num_div (num_scale (/ j_pl a)%Qc (j_pp a)) (num_scale (/ j_nl a)%Qc (j_np a)).

(* ------------------------------------------------------------------ *)
(** * exact_match.py *)

(** 146-155: one tuple, convert_to = None (JSON conversion not modelled); label and
    prediction numeric. *)
Definition match_of (y : yielded) : res (Qc * Qc) :=
  let '(label, pred, weight) := y in
  let same := forallb (fun pl => num_eqb (fst pl) (Fin (snd pl))) (combine pred label) in
  let! w := safe_to_scalar 0%Qc weight in
  Ok (w, times_bool w same).
(** 106-174 [_ExactMatchCombiner]; (weight, weighted score) *)
Definition match_combiner argpartition (sk : option sub_key) agg cw weighted lk pk model output :=
  res_combiner (0%Qc, 0%Qc)
    (tuple_add argpartition match_of plus2 (no_sub_key_options agg cw weighted) lk pk model output)
    plus2 (fun a => py_div (snd a) (fst a)).
