(* Model of the sum-like metric combiners: metrics/example_count.py, stats.py,
   calibration.py, query_statistics.py, min_label_position.py. *)
From Coq Require Import String Ascii.
From Verif Require Import Base Beam Util_Model Inputs_Model.
Local Open Scope string_scope.
Local Open Scope list_scope.

(** float(array): needs exactly one element. *)
Definition scalar {A} (a : list A) : res A := match a with [x] => Ok x | _ => Err TypeError end.

(** np.isclose(x, 0.0): |x - 0| <= 1e-8 + 1e-5 * 0. *)
Definition ATOL : Qc := Q2Qc (1 # 100000000).
Definition isclose0 (x : Qc) : bool := Qc_leb (- ATOL)%Qc x && Qc_leb x ATOL.

(* ------------------------------------------------------------------ *)
(** * example_count.py *)

(** 124-146 [_ExampleCountCombiner.add_input], the amount added. *)
Definition example_weight_of (weighted : bool) (model_name output_name : string)
    (weight : option (data (list Qc))) : res Qc :=
  let w := if negb weighted then Leaf [1%Qc]
           else match weight with None => Leaf [1%Qc] | Some w => w end in
  let! w := if is_dict w && negb (String.eqb model_name "") then
              let! v := get_by_keys w [model_name] None true in
              Ok (match v with Some v => v | None => w end)
            else Ok w in
  let! w := if is_dict w && negb (String.eqb output_name "") then
              let! v := get_by_keys w [output_name] (Some (Leaf [1%Qc])) false in
              Ok (match v with Some v => v | None => w end)
            else Ok w in
  match w with
  | Dict _ => Err ValueError
  | Leaf a => Ok (qsum a)
  end.

(** 106-155 [_ExampleCountCombiner]; one key (the same value is reported under
    every key); merge_accumulators sums from 0.0. *)
Definition example_count (weighted : bool) (model_name output_name : string)
  : combiner (option (data (list Qc))) (res Qc) (res Qc) :=
  {| c_create := Ok 0%Qc;
     c_add := fun acc x => let! a := acc in
                           let! w := example_weight_of weighted model_name output_name x in
                           Ok (a + w)%Qc;
     c_merge := fun l => fold_left (fun acc b => let! x := acc in let! y := b in Ok (x + y)%Qc) l (Ok 0%Qc);
     c_extract := fun acc => acc |}.

(* ------------------------------------------------------------------ *)
(** * stats.py *)

Definition plus2 (a b : Qc * Qc) : Qc * Qc := ((fst a + fst b)%Qc, (snd a + snd b)%Qc).

(** 52-79 [_MeanCombiner.add_input]; len(x) of a dict is its number of entries and
    x[0] then raises KeyError. *)
Definition single (v : option (data (list Qc))) : res Qc :=
  match v with
  | Some (Leaf [x]) => Ok x
  | Some (Dict [_]) => Err KeyError
  | Some _ => Err AssertionError
  | None => Err TypeError
  end.
Definition mean_add (path : list string) (weights_path : option (list string))
    (acc : Qc * Qc) (element : data (list Qc)) : res (Qc * Qc) :=
  let! features := get_by_keys element path None false in
  let! x := single features in
  let! w := match weights_path with
            | None => Ok 1%Qc
            | Some p => let! ws := get_by_keys element p None false in single ws
            end in
  Ok (plus2 acc (w, (w * x)%Qc)).

(** 89-94 [_MeanCombiner.extract_output]. *)
Definition mean_result (acc : Qc * Qc) : num :=
  if Qc_eqb (fst acc) 0%Qc then NaN else Fin (snd acc / fst acc)%Qc.

(** 30-94 [_MeanCombiner]. *)
Definition mean_combiner (path : list string) (weights_path : option (list string)) :=
  res_combiner (0%Qc, 0%Qc) (mean_add path weights_path) plus2 (fun a => Ok (mean_result a)).

(* ------------------------------------------------------------------ *)
(** * calibration.py *)

(** 280-293 [_WeightedLabelsPredictionsExamples]. *)
Record wlpe := Wlpe { wl_labels : Qc; wl_predictions : num; wl_examples : Qc }.
Definition wlpe_zero : wlpe := Wlpe 0%Qc (Fin 0%Qc) 0%Qc.
(** 354-363: one step of merge_accumulators. *)
Definition wlpe_plus (a b : wlpe) : wlpe :=
  Wlpe (wl_labels a + wl_labels b)%Qc (num_plus (wl_predictions a) (wl_predictions b))
       (wl_examples a + wl_examples b)%Qc.

(** 338-351: "for i in range(top_k): weighted = x[i] * w": the last one wins;
    top_k >= 1 (checked by SubKey). *)
Definition last_of {A} (top_k : nat) (x : list A) : res A :=
  let! xs := mapM (nth_ok x) (seq 0 top_k) in
  match rev xs with [] => Err UnboundLocalError | v :: _ => Ok v end.

(** 335-351: the body of the loop over yielded tuples. *)
Definition wlpe_of (top_k : option nat) (y : yielded) : res wlpe :=
  let '(label, pred, weight) := y in
  let! w := scalar weight in
  if Nat.eqb (length label) 0 then Ok (Wlpe 0%Qc (Fin 0%Qc) w)
  else
    let! l := match top_k with Some k => last_of k label | None => scalar label end in
    let! p := match top_k with Some k => last_of k pred | None => scalar pred end in
    Ok (Wlpe (l * w)%Qc (num_scale w p) w).

Section Calibration.
  Variable argpartition : list num -> nat -> list nat.

  (** 296-368 [_WeightedLabelsPredictionsExamplesCombiner]. *)
  Definition wlpe_add (o : options) (label_key prediction_key model_name output_name : string)
      (acc : wlpe) (element : inputs_dict) : res wlpe :=
    let! ys := to_label_prediction_example_weight argpartition o label_key prediction_key
                 model_name output_name element in
    foldM (fun a y => let! d := wlpe_of (match o_sub_key o with Some sk => sk_top_k sk | None => None end) y in
                      Ok (wlpe_plus a d)) ys acc.

  Definition wlpe_combiner (o : options) (label_key prediction_key model_name output_name : string) :=
    res_combiner wlpe_zero (wlpe_add o label_key prediction_key model_name output_name)
                 wlpe_plus (fun a => Ok a).
End Calibration.

(** 215-227 calibration, 77-88 mean label, 144-154 mean prediction: the three
    derived results. *)
Definition calibration_result (m : wlpe) : num :=
  if isclose0 (wl_labels m) then NaN else num_scale (/ wl_labels m)%Qc (wl_predictions m).
Definition mean_label_result (m : wlpe) : num :=
  if isclose0 (wl_examples m) then NaN else Fin (wl_labels m / wl_examples m)%Qc.
Definition mean_prediction_result (m : wlpe) : num :=
  if isclose0 (wl_examples m) then NaN else num_scale (/ wl_examples m)%Qc (wl_predictions m).

(** Options used by the three metrics: calibration.py 321-334. *)
Definition calibration_options (sk : option sub_key) (agg weighted : bool)
    (class_weights : option (list (nat * Qc))) : options :=
  Options sk agg class_weights weighted false true true false.

(* ------------------------------------------------------------------ *)
(** * query_statistics.py *)

(** len(element.prediction): an array's first dimension or a dict's entries. *)
Definition data_len {A} (d : data (list A)) : nat :=
  match d with Leaf l => length l | Dict kv => length kv end.

(** 127-136 [_QueryStatisticsAccumulator]; min_documents = inf is None. *)
Record qstats := QStats { q_queries : Qc; q_documents : Qc; q_min : option Qc; q_max : Qc }.
Definition qstats_zero : qstats := QStats 0%Qc 0%Qc None 0%Qc.
Definition omin (a b : option Qc) : option Qc :=
  match a, b with
  | None, x | x, None => x
  | Some x, Some y => Some (Qcmin x y)
  end.
(** 187-197: one step of merge_accumulators. *)
Definition qstats_plus (a b : qstats) : qstats :=
  QStats (q_queries a + q_queries b)%Qc (q_documents a + q_documents b)%Qc
         (omin (q_min a) (q_min b)) (Qcmax (q_max a) (q_max b)).

Section Queries.
  Variable argpartition : list num -> nat -> list nat.

  (** 165-185: flatten=False, require_single_example_weight=True. *)
  Definition query_options (weighted : bool) : options :=
    Options None false None weighted false false false true.
  Definition qstats_add (weighted : bool) (label_key prediction_key model_name output_name : string)
      (acc : qstats) (element : inputs_dict) : res qstats :=
    let! ys := to_label_prediction_example_weight argpartition (query_options weighted)
                 label_key prediction_key model_name output_name element in
    foldM (fun a y =>
      let! w := scalar (snd y) in
      let! p := match i_prediction element with Some p => Ok p | None => Err TypeError end in
      let n := (qn (data_len p) * w)%Qc in
      (* total += n; min = min(min, n); max = max(max, n) *)
      Ok (QStats (q_queries a + w)%Qc (q_documents a + n)%Qc
                 (omin (q_min a) (Some n)) (Qcmax (q_max a) n))) ys acc.

  (** 139-210 [_QueryStatisticsCombiner]. *)
  Definition qstats_combiner (weighted : bool) (label_key prediction_key model_name output_name : string) :=
    res_combiner qstats_zero (qstats_add weighted label_key prediction_key model_name output_name)
                 qstats_plus (fun a => Ok a).
End Queries.

(* ------------------------------------------------------------------ *)
(** * min_label_position.py *)

Section MinLabel.
  Variable argpartition : list num -> nat -> list nat.
  (** np.argsort(predictions) on 1-d predictions: an oracle, see [argsort_ok]. *)
  Variable argsort : list num -> list nat.

  (** 145-149: first position of a positive label in descending score order. *)
  Fixpoint first_positive (i : nat) (l : list Qc) : option nat :=
    match l with
    | [] => None
    | x :: t => if Qc_ltb 0%Qc x then Some i else first_positive (S i) t
    end.
  Definition min_label_pos (labels : list Qc) (predictions : list num) : res (option nat) :=
    let! sorted := select_indices labels (rev (argsort predictions)) in
    Ok (first_positive 1 sorted).

  (** 125-153 add_input without a label_key feature; one scalar label per document. *)
  Definition position_options (weighted : bool) : options :=
    Options None false None weighted false false true true.
  Definition position_add (weighted : bool) (label_key prediction_key model_name output_name : string)
      (acc : Qc * Qc) (element : inputs_dict) : res (Qc * Qc) :=
    let! ys := to_label_prediction_example_weight argpartition (position_options weighted)
                 label_key prediction_key model_name output_name element in
    match ys with
    | [] => Err StopIteration
    | (labels, predictions, weight) :: _ =>
        let! pos := min_label_pos labels predictions in
        match pos with
        | None => Ok acc
        | Some i => let! w := scalar weight in Ok (plus2 acc ((qn i * w)%Qc, w))
        end
    end.

  (** 165-173 extract_output; merge_accumulators 155-163. *)
  Definition position_result (acc : Qc * Qc) : num :=
    if Qc_ltb 0%Qc (snd acc) then Fin (fst acc / snd acc)%Qc else NaN.

  Definition position_combiner (weighted : bool) (label_key prediction_key model_name output_name : string) :=
    res_combiner (0%Qc, 0%Qc) (position_add weighted label_key prediction_key model_name output_name)
                 plus2 (fun a => Ok (position_result a)).
End MinLabel.
