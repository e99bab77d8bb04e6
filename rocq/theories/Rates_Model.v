(* Model of metrics/confusion_matrix_metrics.py: metrics computed from binary confusion
   matrices; and of the choice of thresholds in metrics/binary_confusion_matrices.py. *)
From Coq Require Import String Reals.
From Verif Require Import Base Inputs_Model Means_Model Histogram_Model.
Local Open Scope string_scope.
Local Open Scope list_scope.

(* ------------------------------------------------------------------ *)
(** * Metrics of one matrix *)

(** The counts are Python floats (metric_util.py 234-247 [safe_to_scalar] makes them so);
    dividing by zero raises. *)
Section Cells.
  Context (tp tn fp fn : Qc).

  (** 93-95 [_divide_only_positive_denominator] *)
  Definition pos_div (a b : Qc) : num := if Qc_ltb 0%Qc b then Fin (a / b)%Qc else NaN.

  (** 1418-1419 *) Definition binary_accuracy : num := pos_div (tp + tn)%Qc (tp + fp + tn + fn)%Qc.
  (** 1475-1477 *) Definition precision : num := pos_div tp (tp + fp)%Qc.
  (** 1555-1557 *) Definition recall : num := pos_div tp (tp + fn)%Qc.
  (** 1621-1623 *) Definition specificity : num := pos_div tn (tn + fp)%Qc.
  (** 1686-1688 *) Definition fall_out : num := pos_div fp (fp + tn)%Qc.
  (** 1751-1753 *) Definition miss_rate : num := pos_div fn (fn + tp)%Qc.
  (** 1816-1818 *) Definition negative_predictive_value : num := pos_div tn (tn + fn)%Qc.
  (** 1881-1883 *) Definition false_discovery_rate : num := pos_div fp (fp + tp)%Qc.
  (** 1924-1926 *) Definition false_omission_rate : num := pos_div fn (fn + tn)%Qc.
  (** 1967-1968 *) Definition prevalence : num := pos_div (tp + fn)%Qc (tp + tn + fp + fn)%Qc.
  (** 2058-2060 *) Definition threat_score : num := pos_div tp (tp + fn + fp)%Qc.
  (** 2101-2109 *)
  Definition balanced_accuracy : num :=
    if Qc_ltb 0%Qc (tp + fn)%Qc && Qc_ltb 0%Qc (tn + fp)%Qc
    then Fin ((tp / (tp + fn) + tn / (tn + fp)) / qz 2)%Qc else NaN.
  (** 2150-2157 *) Definition f1_score : num := pos_div (qz 2 * tp)%Qc (qz 2 * tp + fp + fn)%Qc.
  (** 2293-2301 *)
  Definition informedness : num :=
    if Qc_ltb 0%Qc (tp + fn)%Qc && Qc_ltb 0%Qc (tn + fp)%Qc
    then Fin (tp / (tp + fn) + tn / (tn + fp) - 1)%Qc else NaN.
  (** 2342-2350 *)
  Definition markedness : num :=
    if Qc_ltb 0%Qc (tp + fp)%Qc && Qc_ltb 0%Qc (tn + fn)%Qc
    then Fin (tp / (tp + fp) + tn / (tn + fn) - 1)%Qc else NaN.
  (** 2391-2399 *)
  Definition positive_likelihood_ratio : num :=
    if Qc_ltb 0%Qc (tp + fn)%Qc && Qc_ltb 0%Qc (fp + tn)%Qc && Qc_ltb 0%Qc fp
    then Fin ((tp / (tp + fn)) / (fp / (fp + tn)))%Qc else NaN.
  (** 2440-2448 *)
  Definition negative_likelihood_ratio : num :=
    if Qc_ltb 0%Qc (fn + tp)%Qc && Qc_ltb 0%Qc (tn + fp)%Qc && Qc_ltb 0%Qc tn
    then Fin ((fn / (fn + tp)) / (tn / (tn + fp)))%Qc else NaN.
  (** 2489-2493 *)
  Definition diagnostic_odds_ratio : num :=
    if Qc_ltb 0%Qc fn && Qc_ltb 0%Qc fp && Qc_ltb 0%Qc tn
    then Fin ((tp / fn) / (fp / tn))%Qc else NaN.
  (** 2534-2537 *) Definition predicted_positive_rate : num := pos_div (tp + fp)%Qc (tp + fp + tn + fn)%Qc.

  (** Metrics with square roots are real numbers, [None] for NaN. *)
  Definition real (q : Qc) : R := Q2R q.
  (** 98-102 [_pos_sqrt] *)
  Definition pos_sqrt (v : Qc) : res R := if Qc_ltb v 0%Qc then Err ValueError else Ok (sqrt (real v)).
  (** 2009-2017; the final division is by a Python float. *)
  Definition prevalence_threshold : res (option R) :=
    if Qc_ltb 0%Qc (tp + fn)%Qc && Qc_ltb 0%Qc (tn + fp)%Qc then
      let tpr := (tp / (tp + fn))%Qc in let tnr := (tn / (tn + fp))%Qc in
      let! s := pos_sqrt (tpr * (1 - tnr))%Qc in
      if Qc_eqb (tpr + tnr - 1)%Qc 0%Qc then Err ZeroDivisionError
      else Ok (Some ((s + real tnr - 1) / real (tpr + tnr - 1)%Qc)%R)
    else Ok None.
  (** 2198-2202 *)
  Definition matthews : res (option R) :=
    let v := ((tp + fp) * (tp + fn) * (tn + fp) * (tn + fn))%Qc in
    let! s := pos_sqrt v in
    if Qc_ltb 0%Qc v then Ok (Some (real (tp * tn - fp * fn)%Qc / s)%R) else Ok None.
  (** 2243-2252 *)
  Definition fowlkes_mallows : res (option R) :=
    if Qc_ltb 0%Qc (tp + fp)%Qc && Qc_ltb 0%Qc (tp + fn)%Qc then
      let! s := pos_sqrt ((tp / (tp + fp)) * (tp / (tp + fn)))%Qc in Ok (Some s)
    else Ok None.
End Cells.

(** 435-457 [ConfusionMatrixMetric._metric_value]: one value per threshold; a single one is
    not wrapped in an array. *)
Definition rows_of (m : matrices) : list (Qc * Qc * Qc * Qc) :=
  combine (combine (combine (m_tp m) (m_tn m)) (m_fp m)) (m_fn m).
Inductive value (A : Type) := Single (x : A) | Array (xs : list A).
Arguments Single {A}. Arguments Array {A}.
Definition metric_value {A} (result : Qc -> Qc -> Qc -> Qc -> A) (m : matrices) : value A :=
  let vs := map (fun r => let '(a, b, c, d) := r in result a b c d) (rows_of m) in
  match m_thresholds m, vs with [_], [v] => Single v | _, _ => Array vs end.

(* ------------------------------------------------------------------ *)
(** * Best value under a constraint *)

(** np.nanmax of a non-empty array. *)
Definition nanmax (l : list num) : num :=
  fold_left (fun acc x => match acc with
                          | NaN => x
                          | _ => if num_ltb acc x then x else acc
                          end) l NaN.

(** 188-222 [_find_max_under_constraint] for one constraint. *)
Definition find_max (operator : num -> num -> bool) (constrained dependent : list num) (v : num) : num :=
  match filter (fun cd => operator (fst cd) v) (combine constrained dependent) with
  | [] => Fin 0%Qc
  | feasible => nanmax (map snd feasible)
  end.

(** The constraint as configured.  209: anything that is not a float is iterated over; a
    number is not iterable. *)
Inductive constraint := Float (v : num) | Int (z : Z) | Floats (vs : list num).
Definition find_max_under_constraint (operator : num -> num -> bool) (constrained dependent : list num) (values : constraint) : res (value num) :=
  match values with
  | Float v => Ok (Single (find_max operator constrained dependent v))
  | Floats vs => Ok (Array (map (find_max operator constrained dependent) vs))
  | Int _ => Err TypeError
  end.

(** numpy division of arrays *)
Definition ratios (a b : list Qc) : list num := map (fun xy => np_div (fst xy) (fst xy + snd xy)%Qc) (combine a b).
Definition ge (a b : num) : bool := num_leb b a.
Definition le (a b : num) : bool := num_leb a b.

(** 742-755 *)
Definition sensitivity_at_specificity (v : constraint) (m : matrices) : res (value num) :=
  find_max_under_constraint ge (ratios (m_tn m) (m_fp m)) (ratios (m_tp m) (m_fn m)) v.
(** 816-829 *)
Definition specificity_at_sensitivity (v : constraint) (m : matrices) : res (value num) :=
  find_max_under_constraint ge (ratios (m_tp m) (m_fn m)) (ratios (m_tn m) (m_fp m)) v.
(** 897-909 *)
Definition precision_at_recall (v : constraint) (m : matrices) : res (value num) :=
  find_max_under_constraint ge (ratios (m_tp m) (m_fn m)) (ratios (m_tp m) (m_fp m)) v.
(** 973-985 *)
Definition recall_at_precision (v : constraint) (m : matrices) : res (value num) :=
  find_max_under_constraint ge (ratios (m_tp m) (m_fp m)) (ratios (m_tp m) (m_fn m)) v.
(** 1050-1067 *)
Definition recall_at_false_positive_rate (v : constraint) (m : matrices) : res (value num) :=
  find_max_under_constraint le (ratios (m_fp m) (m_tn m)) (ratios (m_tp m) (m_fn m)) v.
(** 2989-3000 *)
Definition threshold_at_recall (v : constraint) (m : matrices) : res (value num) :=
  find_max_under_constraint ge (ratios (m_tp m) (m_fn m)) (m_thresholds m) v.

(** The checks of the constructors: 703-737 and 777-811 none, 878-883 and 2970-2975 for
    recall, 958-962 and 1034-1038 for precision and false positive rate. *)
Definition outside (v : num) : bool := num_ltb v (Fin 0%Qc) || num_ltb (Fin 1%Qc) v.
Definition check_iterating (v : constraint) : res unit :=
  match v with
  | Float x => if outside x then Err ValueError else Ok tt
  | Floats xs => if existsb outside xs then Err ValueError else Ok tt
  | Int _ => Err TypeError
  end.
Definition check_comparing (v : constraint) : res unit :=
  match v with
  | Float x => if outside x then Err ValueError else Ok tt
  | Int z => if (z <? 0)%Z || (1 <? z)%Z then Err ValueError else Ok tt
  | Floats _ => Err TypeError
  end.
Inductive at_metric := SensitivityAtSpecificity | SpecificityAtSensitivity | PrecisionAtRecall | RecallAtPrecision | RecallAtFalsePositiveRate | ThresholdAtRecall.
Definition construct (a : at_metric) (v : constraint) : res unit :=
  match a with
  | SensitivityAtSpecificity | SpecificityAtSensitivity => Ok tt
  | PrecisionAtRecall | ThresholdAtRecall => check_iterating v
  | RecallAtPrecision | RecallAtFalsePositiveRate => check_comparing v
  end.
Definition compute (a : at_metric) (v : constraint) (m : matrices) : res (value num) :=
  match a with
  | SensitivityAtSpecificity => sensitivity_at_specificity v m
  | SpecificityAtSensitivity => specificity_at_sensitivity v m
  | PrecisionAtRecall => precision_at_recall v m
  | RecallAtPrecision => recall_at_precision v m
  | RecallAtFalsePositiveRate => recall_at_false_positive_rate v m
  | ThresholdAtRecall => threshold_at_recall v m
  end.

(* ------------------------------------------------------------------ *)
(** * Area under the curve: 556-611 *)

Inductive curve := ROC | PR.
Inductive summation := Interpolation | Minoring | Majoring.

(** np.minimum and np.maximum pass NaN on. *)
Definition np_minimum (a b : num) : num := match a, b with NaN, _ | _, NaN => NaN | _, _ => if num_leb a b then a else b end.
Definition np_maximum (a b : num) : num := match a, b with NaN, _ | _, NaN => NaN | _, _ => if num_leb a b then b else a end.
(** Product of arrays. *)
Definition num_mul (a b : num) : num :=
  match a, b with
  | NaN, _ | _, NaN => NaN
  | Fin x, _ => num_scale x b
  | _, Fin y => num_scale y a
  | PosInf, PosInf | NegInf, NegInf => PosInf
  | _, _ => NegInf
  end.
Definition nansum (l : list num) : num := fold_left (fun acc x => match x with NaN => acc | _ => num_plus acc x end) l (Fin 0%Qc).

(** The pairs (a[i], a[i+1]). *)
Definition steps {A} (l : list A) : list (A * A) := combine l (tl l).
Definition height (s : summation) (ab : num * num) : num :=
  match s with
  | Interpolation => num_div (num_plus (fst ab) (snd ab)) (Fin (qz 2))
  | Minoring => np_minimum (fst ab) (snd ab)
  | Majoring => np_maximum (fst ab) (snd ab)
  end.
Definition area (s : summation) (x y : list num) : num :=
  nansum (map (fun p => num_mul (num_sub (fst (fst p)) (snd (fst p))) (height s (snd p))) (combine (steps x) (steps y))).

(** 569-584: the interpolated precision-recall curve.  A slope, ratio or increment that is
    NaN is None; so is an infinite slope (tp decreases while tp + fp does not). *)
Definition pr_increment (a b : Qc * Qc * Qc) : option R :=
  let '(tpa, fpa, _) := a in let '(tpb, fpb, fnb) := b in
  let dtp := (tpa - tpb)%Qc in
  let pa := (tpa + fpa)%Qc in let pb := (tpb + fpb)%Qc in
  let dp := if Qc_ltb (pa - pb)%Qc 0%Qc then 0%Qc else (pa - pb)%Qc in
  let pos := if Qc_ltb (tpb + fnb)%Qc 0%Qc then 0%Qc else (tpb + fnb)%Qc in
  if Qc_eqb dp 0%Qc || Qc_eqb pos 0%Qc then None
  else
    let slope := (dtp / dp)%Qc in
    let intercept := (tpb - slope * pb)%Qc in
    let ratio := if Qc_ltb 0%Qc pa && Qc_ltb 0%Qc pb then (pa / pb)%Qc else 1%Qc in
    Some (real slope * (real dtp + real intercept * ln (real ratio)) / real pos)%R.
Definition pr_interpolated (m : matrices) : R :=
  fold_left (fun acc p => match pr_increment (fst p) (snd p) with Some x => (acc + x)%R | None => acc end)
            (steps (combine (combine (m_tp m) (m_fp m)) (m_fn m))) 0%R.

(** 556-611 [AUC._metric_value] *)
Inductive auc_value := Exact (v : num) | Interpolated (r : R).
Definition auc (c : curve) (s : summation) (m : matrices) : auc_value :=
  let rec := ratios (m_tp m) (m_fn m) in
  match c, s with
  | PR, Interpolation => Interpolated (pr_interpolated m)
  | PR, _ => Exact (area s rec (ratios (m_tp m) (m_fp m)))
  | ROC, _ => Exact (area s (ratios (m_fp m) (m_tn m)) rec)
  end.

(* ------------------------------------------------------------------ *)
(** * Settings *)

(** metric_types.py 63-129 [SubKey]: the fields and the checks of SubKey.__new__. *)
Record raw_key := RawKey { r_class_id : option Z; r_k : option Z; r_top_k : option Z }.
Definition new_sub_key (class_id k top_k : option Z) : res raw_key :=
  match mk_sub_key class_id k top_k with Ok _ => Ok (RawKey class_id k top_k) | Err e => Err e end.

(** 105-168 [_validate_and_update_sub_key].  _replace does not go through SubKey.__new__. *)
Definition update_sub_key (sub_key : option raw_key) (top_k class_id : option Z) : res (option raw_key) :=
  match sub_key, top_k, class_id with
  | None, None, None => Ok None
  | _, _, _ =>
      let s := match sub_key with Some s => s | None => RawKey None None None end in
      let! s1 := match top_k with
                 | None => Ok s
                 | Some t => match r_top_k s with Some _ => Err ValueError | None => Ok (RawKey (r_class_id s) (r_k s) (Some t)) end
                 end in
      let! s2 := match class_id with
                 | None => Ok s1
                 | Some c => match r_class_id s1 with Some _ => Err ValueError | None => Ok (RawKey (Some c) (r_k s1) (r_top_k s1)) end
                 end in
      Ok (Some s2)
  end.

(** binary_confusion_matrices.py 200, 203-209 *)
Definition epsilon : Qc := Q2Qc (1 # 10000000).
Definition interpolated_thresholds (n : Z) : list num :=
  [Fin (- epsilon)%Qc] ++
  map (fun i => Fin (qz (Z.of_nat i + 1) * 1 / qz (n - 1))%Qc) (seq 0 (Z.to_nat (n - 2))) ++
  [Fin (1 + epsilon)%Qc].
Definition thresholds_eqb (a b : list num) : bool :=
  Nat.eqb (length a) (length b) && forallb (fun xy => num_eqb (fst xy) (snd xy)) (combine a b).

(** confusion_matrix_metrics.py 342-350: the settings handed on.  An absent list of
    thresholds is None. *)
Definition default_settings (default : option num) (sub_key : option raw_key) (num_thresholds : option Z) (thresholds : option (list num)) : option (list num) :=
  match num_thresholds, thresholds with
  | None, None =>
      if match sub_key with Some s => match r_top_k s with Some t => negb (t =? 0)%Z | None => false end | None => false end
      then Some [NegInf] else option_map (fun d => [d]) default
  | _, _ => thresholds
  end.
(** binary_confusion_matrices.py 287-311: the thresholds used. *)
Definition used_thresholds (num_thresholds : option Z) (thresholds : option (list num)) : res (list num) :=
  let '(n, t) :=
    match thresholds with
    | Some ((_ :: _) as ts) =>
        if match num_thresholds with None => true | Some k => (k =? 0)%Z end && thresholds_eqb ts (interpolated_thresholds (Z.of_nat (length ts)))
        then (Some (Z.of_nat (length ts)), None)
        else match num_thresholds with
             | Some k => if ((k =? 10000) || (k =? 200))%Z && (Z.of_nat (length ts) =? k - 2)%Z then (num_thresholds, None) else (num_thresholds, thresholds)
             | None => (num_thresholds, thresholds)
             end
    | _ => (num_thresholds, thresholds)
    end in
  match n, t with
  | Some _, Some _ => Err ValueError
  | Some k, None => if (k <=? 1)%Z then Err ValueError else Ok (interpolated_thresholds k)
  | None, None => Ok (interpolated_thresholds 10000)
  | None, Some ts => Ok ts
  end.
