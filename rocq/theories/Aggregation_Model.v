(* metrics/aggregation.py and the parts of metrics/metric_specs.py that decide which keys a
   metrics spec computes, averages and puts thresholds on. *)
From Coq Require Import String Ascii.
From Verif Require Import Base Beam Slicer_Model Util_Model Inputs_Model Sums_Model Means_Model Keys_Model Evaluator_Model.
Local Open Scope string_scope.
Local Open Scope list_scope.

(* ------------------------------------------------------------------ *)
(** * Values *)

(** A value of a metric: a number, the dictionary of class weights, or something float()
    rejects (ValueError or TypeError). *)
Inductive avalue := ANum (x : num) | AWeights (w : list (Z * Qc)) | AOther.
Definition adict := list (metric_key * avalue).
(** aggregation.py 266-275 [_to_float] *)
Definition to_number (v : avalue) : res num :=
  match v with ANum x => Ok x | _ => Err ValueError end.
(** metrics[key] *)
Definition aget (m : adict) (k : metric_key) : res avalue :=
  match dget metric_key_eqb m k with Some v => Ok v | None => Err KeyError end.

(** The total of value * weight, the total of weight, and their quotient (aggregation.py
    59-73, 119-150, 220-258). *)
Definition accumulate (t : num * Qc) (x : num) (w : Qc) : num * Qc :=
  (num_plus (fst t) (num_scale w x), (snd t + w)%Qc).
Definition average_of (t : num * Qc) : num :=
  if Qc_eqb (snd t) 0%Qc then NaN else num_scale (/ snd t)%Qc (fst t).

(* ------------------------------------------------------------------ *)
(** * Averages *)

(** AggregationType(macro_average=True), and the key of a sub key. *)
Definition macro_type : agg_type := AggType None (Some true) None.
Definition plain_key (name model output : string) (sk : option sub_key) (agg : option agg_type) (weighted : bool) : metric_key :=
  MetricKey name model output sk agg (Some weighted) false.

(** aggregation.py 25-75 [output_average]: key and result *)
Definition output_average_key (name model : string) (sk : option sub_key) (weighted : bool) : metric_key :=
  plain_key name model "" sk None weighted.
Definition output_average (name model : string) (output_weights : list (string * Qc))
    (sk : option sub_key) (weighted : bool) (m : adict) : res adict :=
  let! t := foldM (fun t ow =>
      let! v := aget m (plain_key name model (fst ow) sk None weighted) in
      let! x := to_number v in
      Ok (accumulate t x (snd ow))) output_weights (Fin 0%Qc, 0%Qc) in
  Ok [(output_average_key name model sk weighted, ANum (average_of t))].

(** 122-138, 224-240: the public key of a class, or else its private key. *)
Definition child_key (name model output : string) (weighted : bool) (m : adict) (sk : sub_key) : metric_key :=
  let k := plain_key name model output (Some sk) None weighted in
  if dmem metric_key_eqb m k then k
  else plain_key ("_" ++ name)%string model output (Some sk) None weighted.
(** 139-146, 241-248: weight and offset before the tables are consulted. *)
Definition falsy {A} (class_weights : option (list A)) : bool :=
  match class_weights with None | Some [] => true | _ => false end.
Definition start_weight (class_weights : option (list (Z * Qc))) : Qc :=
  if falsy class_weights then 1%Qc else 0%Qc.
Definition offset_of (sk : sub_key) : option Z :=
  match sk_class_id sk, sk_k sk with
  | Some c, _ => Some c
  | None, Some k => Some (Z.of_nat k)
  | None, None => None
  end.
(** 147-148; "in None" raises TypeError. *)
Definition macro_weight (class_weights : option (list (Z * Qc))) (sk : sub_key) : res Qc :=
  match offset_of sk with
  | None => Ok (start_weight class_weights)
  | Some o => match class_weights with
              | None => Err TypeError
              | Some cw => Ok (match dget Z.eqb cw o with Some w => w | None => start_weight class_weights end)
              end
  end.

Section Macro.
  Variables (name model output : string) (sks : list sub_key) (sk : option sub_key) (weighted : bool).

  (** 103-110, 193-200: macro_average and weighted_macro_average report under the same key. *)
  Definition macro_key : metric_key := plain_key name model output sk (Some macro_type) weighted.

  (** The loops 121-150 and 223-258 for a given weight of a sub key. *)
  Definition average_over (weight : sub_key -> res Qc) (m : adict) : res adict :=
    let! t := foldM (fun t s =>
        let! w := weight s in
        let! v := aget m (child_key name model output weighted m s) in
        let! x := to_number v in
        Ok (accumulate t x w)) sks (Fin 0%Qc, 0%Qc) in
    Ok [(macro_key, ANum (average_of t))].

  (** 78-153 [macro_average] *)
  Definition macro_average (class_weights : option (list (Z * Qc))) : adict -> res adict :=
    average_over (macro_weight class_weights).

  (** 202, 283-300: the class ids and the key of their weights. *)
  Definition class_ids_of : list Z := flat_map (fun s => match sk_class_id s with Some c => [c] | None => [] end) sks.
  Definition label_weights_name : string := "_class_weights_from_labels".
  Definition label_weights_key : metric_key := plain_key label_weights_name model output None None weighted.

  (** 249-256.  [labels] is class_weights_from_labels; "None in d" is False, and the offset
      is the class id whenever there is one. *)
  Definition weighted_weight (labels : list (Z * Qc)) (class_weights : option (list (Z * Qc))) (s : sub_key) : res Qc :=
    let w := start_weight class_weights in
    match sk_class_id s with
    | None => Ok w
    | Some c =>
        let w := match dget Z.eqb labels c with Some x => x | None => w end in
        Ok (match class_weights with
            | None => w
            | Some cw => match dget Z.eqb cw c with Some x => (w * x)%Qc | None => w end
            end)
    end.
  (** 216-258 [weighted_macro_average]'s derived result.  A value under the label weights key
      that is not a dictionary: "in" raises TypeError. *)
  Definition weighted_macro_average (class_weights : option (list (Z * Qc))) (m : adict) : res adict :=
    let! v := aget m label_weights_key in
    match v with
    | AWeights labels => average_over (weighted_weight labels class_weights) m
    | _ => Err TypeError
    end.
End Macro.

(* ------------------------------------------------------------------ *)
(** * Class weights from labels: aggregation.py 319-381 *)

(** label[class_id] with Python's negative indices. *)
Definition py_index {A} (l : list A) (i : Z) : res A :=
  let n := Z.of_nat (length l) in
  if Z.leb 0 i then nth_ok l (Z.to_nat i)
  else if Z.leb 0 (i + n) then nth_ok l (Z.to_nat (i + n)) else Err IndexError.
(** 353-363.  A missing label arrives as an empty array (metric_util.py 720), never as None. *)
Definition label_value (label : list Qc) (c : Z) : res Qc :=
  match label with
  | [x] => Ok (if Qc_eqb x (qz c) then 1%Qc else 0%Qc)
  | _ => if Z.leb (Z.of_nat (length label)) c then Err ValueError else py_index label c
  end.
(** accumulator[c] += x *)
Definition bump (acc : list (Z * Qc)) (c : Z) (x : Qc) : res (list (Z * Qc)) :=
  match dget Z.eqb acc c with Some v => Ok (dset Z.eqb acc c (v + x)%Qc) | None => Err KeyError end.

Section Labels.
  Variable argpartition : list num -> nat -> list nat.
  Variables (class_ids : list Z) (label_key prediction_key model output : string) (weighted : bool).

  (** 337 *)
  Definition label_weights_zero : list (Z * Qc) := fold_left (fun d c => dset Z.eqb d c 0%Qc) class_ids [].
  (** 342-351: the options. *)
  Definition label_options : options := Options None false None weighted false false true true.
  (** 352-364: one yielded tuple *)
  Definition label_weights_of (acc : list (Z * Qc)) (y : yielded) : res (list (Z * Qc)) :=
    let '(label, _, weight) := y in
    let! w := scalar weight in
    foldM (fun a c => let! l := label_value label c in bump a c (l * w)%Qc) class_ids acc.
  (** 339-365 [add_input] *)
  Definition label_weights_add (acc : list (Z * Qc)) (element : inputs_dict) : res (list (Z * Qc)) :=
    let! ys := to_label_prediction_example_weight argpartition label_options label_key prediction_key model output element in
    foldM label_weights_of ys acc.
  (** 367-374: for k, v in accumulator.items(): result[k] += v *)
  Definition label_weights_merge (a b : list (Z * Qc)) : res (list (Z * Qc)) :=
    foldM (fun r kv => bump r (fst kv) (snd kv)) b a.
  (** 376-381 [extract_output] *)
  Definition label_weights_extract (a : list (Z * Qc)) : list (Z * Qc) :=
    let total := qsum (map snd a) in
    map (fun kv => (fst kv, if Qc_eqb total 0%Qc then 0%Qc else (snd kv / total)%Qc)) a.
  Definition label_weights_combiner : combiner inputs_dict (res (list (Z * Qc))) (res (list (Z * Qc))) :=
    {| c_create := Ok label_weights_zero;
       c_add := fun acc e => let! a := acc in label_weights_add a e;
       c_merge := fun l => match l with
                           | [] => Err StopIteration
                           | a :: t => fold_left (fun acc b => let! x := acc in let! y := b in label_weights_merge x y) t a
                           end;
       c_extract := fun acc => let! a := acc in Ok (label_weights_extract a) |}.
End Labels.

(* ------------------------------------------------------------------ *)
(** * Metrics specs *)

(** config.proto 241-315: AggregationOptions (a oneof of three flags, class_weights,
    top_k_list) and BinarizationOptions. *)
Record aggregate := Aggregate {
  a_type : option (agg_field * bool); a_class_weights : list (Z * Qc); a_top_k : option (list Z)
}.
Record binarize := Binarize { b_class_ids : list Z; b_k : list Z; b_top_k : list Z }.
(** MetricsSpec: the names of the metric instances, model_names, output_names, output_weights,
    binarize, aggregate, example_weights as (weighted, unweighted). *)
Record metrics_spec := MetricsSpec {
  ms_metrics : list string; ms_models : list string; ms_outputs : list string;
  ms_output_weights : list (string * Qc);
  ms_binarize : option binarize; ms_aggregate : option aggregate;
  ms_example_weights : option (bool * bool)
}.
(** spec.model_names or [""] *)
Definition or_blank (l : list string) : list string := match l with [] => [""] | _ => l end.

(** metric_specs.py 149-161 [_example_weight_options]; [default] is
    _example_weighted_default(eval_config, spec) (117-146). *)
Definition example_weight_options (default : bool) (s : metrics_spec) : list bool :=
  match ms_example_weights s with
  | None => [default]
  | Some (w, u) => (if w then [true] else []) ++ (if u then [false] else [])
  end.

(** 1185-1195 [_aggregation_type]; a set flag may be false. *)
Definition aggregation_type (a : aggregate) : option agg_type :=
  match a_type a with
  | Some (Micro, true) => Some (AggType (Some true) None None)
  | Some (Macro, true) => Some (AggType None (Some true) None)
  | Some (WeightedMacro, true) => Some (AggType None None (Some true))
  | _ => None
  end.
(** 1198-1206 [_class_weights]; without aggregate the field is empty. *)
Definition spec_class_weights (s : metrics_spec) : res (option (list (Z * Qc))) :=
  match ms_aggregate s with
  | None => Ok None
  | Some a =>
      match a_top_k a, a_class_weights a with
      | Some _, [] => Ok None
      | Some _, _ => Err ValueError
      | None, [] => Ok None
      | None, cw => Ok (Some cw)
      end
  end.
(** 1127-1152 [_create_sub_keys]: a dictionary by aggregation type. *)
Definition opt_agg_eqb : option agg_type -> option agg_type -> bool := option_eqb agg_eqb.
Definition create_sub_keys (s : metrics_spec) : res (list (option agg_type * list (option sub_key))) :=
  let keys mk l := mapM (fun v => let! k := mk v in Ok (Some k)) l in
  let class_id v := mk_sub_key (Some v) None None in
  let k_key v := mk_sub_key None (Some v) None in
  let top_k v := mk_sub_key None None (Some v) in
  let! r1 := match ms_binarize s with
             | None => Ok []
             | Some b =>
                 let! cs := keys class_id (b_class_ids b) in
                 let! ks := keys k_key (b_k b) in
                 let! ts := keys top_k (b_top_k b) in
                 Ok (match cs ++ ks ++ ts with [] => [] | l => [(None, l)] end)
             end in
  let! r2 := match ms_aggregate s with
             | None => Ok r1
             | Some a =>
                 let! ts := keys top_k (match a_top_k a with Some l => l | None => [] end) in
                 Ok (dset opt_agg_eqb r1 (aggregation_type a) (match ts with [] => [None] | _ => ts end))
             end in
  Ok (match r2 with [] => [(None, [None])] | _ => r2 end).

(** 1155-1182 [_macro_average_sub_keys] *)
Definition macro_average_sub_keys (sk : option sub_key) (class_weights : option (list (Z * Qc))) : res (list sub_key) :=
  match sk with
  | None => if falsy class_weights then Err ValueError
            else mapM (fun kv => mk_sub_key (Some (fst kv)) None None) (match class_weights with Some l => l | None => [] end)
  | Some s => match sk_top_k s with
              | Some n => if Nat.eqb n 0 then Err ValueError
                          else mapM (fun i => mk_sub_key None (Some (Z.of_nat i + 1)%Z) None) (seq 0 n)
              | None => Err ValueError
              end
  end.
Definition is_macro (t : option agg_type) : bool :=
  match t with Some a => truthy (ag_macro a) || truthy (ag_weighted a) | None => false end.
(** 1382-1390 [_private_tfma_metric] *)
Definition private_name (name : string) : string := if starts_with "_" name then name else ("_" ++ name)%string.

(** What a computation does: a metric of its own, the weights of classes, an average. *)
Inductive body := OwnMetric | LabelWeights (class_ids : list Z) | Average (f : adict -> res adict).

(** metric_util.py 1176-1232 [merge_per_key_computations] for a metric with one computation
    and one key per model, output and sub key.  Simplification: its combiner class is named
    after the metric and it has the default preprocessors. *)
Definition own_computations (name : string) (models outputs : list string) (sks : list (option sub_key))
    (agg : option agg_type) (weighted : bool) : list (computation body) :=
  flat_map (fun m => flat_map (fun o => map (fun sk =>
    Computation (Combine name []) [plain_key name m o sk agg weighted] OwnMetric) sks) outputs) models.

Definition sub_key_in (s : sub_key) (l : list (option sub_key)) : bool :=
  existsb (fun t => option_eqb sub_key_eqb (Some s) t) l.

Section Specs.
  Variable default : bool.   (* _example_weighted_default *)

  (** 1086-1123 (within [_process_tfma_metrics_specs] 1039-1124): the computations of one
      metric for one spec. *)
  Definition tfma_computations (name : string) (s : metrics_spec) : res (list (computation body)) :=
    let! groups := create_sub_keys s in
    let shared := match dget opt_agg_eqb groups None with Some l => l | None => [] end in
    let! ls := mapM (fun g =>
      let '(agg, sks) := g in
      let! cw := match agg with Some _ => spec_class_weights s | None => Ok None end in
      let run n sks agg := flat_map (fun w => own_computations n (or_blank (ms_models s)) (or_blank (ms_outputs s)) sks agg w)
                                    (example_weight_options default s) in
      if is_macro agg then
        let! css := mapM (fun sk => macro_average_sub_keys sk cw) sks in
        match filter (fun c => negb (sub_key_in c shared)) (concat css) with
        | [] => Ok []
        | cs => Ok (run (private_name name) (map Some cs) None)
        end
      else Ok (run name sks agg)) groups in
    Ok (concat ls).

  (** 834-899 (within [to_computations]): the averages of one spec. *)
  Definition average_computations (s : metrics_spec) : res (list (computation body)) :=
    let! ls := mapM (fun w =>
      let! groups := create_sub_keys s in
      let! ls := mapM (fun g =>
        let '(agg, sks) := g in
        let outputs := or_blank (ms_outputs s) in
        if negb (forallb (fun ow => memb String.eqb (fst ow) outputs) (ms_output_weights s)) then Err ValueError else
        let! ls := mapM (fun m => mapM (fun sk => mapM (fun n =>
          let! macros :=
            if is_macro agg then
              let! cw := spec_class_weights s in
              let cw := Some (match cw with Some l => l | None => [] end) in
              let! ls := mapM (fun o =>
                let! cs := macro_average_sub_keys sk cw in
                let derive f := Computation Derive [macro_key n m o sk w] (Average f) in
                Ok (if match agg with Some a => truthy (ag_macro a) | None => false end
                    then [derive (macro_average n m o cs sk w cw)]
                    else [Computation (Combine "_ClassWeightsFromLabelsCombiner" []) [label_weights_key m o w]
                                      (LabelWeights (class_ids_of cs));
                          derive (weighted_macro_average n m o cs sk w cw)])) outputs in
              Ok (concat ls)
            else Ok [] in
          Ok (macros ++
              match ms_output_weights s with
              | [] => []
              | ow => [Computation Derive [output_average_key n m sk w] (Average (output_average n m ow sk w))]
              end)) (ms_metrics s)) sks) (or_blank (ms_models s)) in
        Ok (concat (map (fun l => concat (map (fun l => concat l) l)) ls))) groups in
      Ok (concat ls)) (example_weight_options default s) in
    Ok (concat ls).

  (** 733-899 [to_computations] for TFMA metrics.  Simplification: the metrics of equal
      configuration are not gathered across specs (1056-1075), which changes only the order of
      the computations. *)
  Definition to_computations (specs : list metrics_spec) : res (list (computation body)) :=
    let! own := mapM (fun s => let! ls := mapM (fun n => tfma_computations n s) (ms_metrics s) in Ok (concat ls)) specs in
    let! avg := mapM average_computations specs in
    Ok (concat own ++ concat avg).

  (** 571-591 [_keys_for_metric], 594-612 [keys_and_metrics_from_specs]: the keys thresholds
      and skipped confidence intervals are attached to. *)
  Definition keys_for_metric (name : string) (s : metrics_spec) (agg : option agg_type) (sks : list (option sub_key))
      (weights : list bool) : list metric_key :=
    flat_map (fun m => flat_map (fun o => flat_map (fun sk => map (fun w => plain_key name m o sk agg w) weights) sks)
      (or_blank (ms_outputs s))) (or_blank (ms_models s)).
  Definition keys_from_spec (s : metrics_spec) : res (list metric_key) :=
    let! groups := create_sub_keys s in
    Ok (flat_map (fun g => flat_map (fun n =>
      keys_for_metric n s (fst g) (snd g) (example_weight_options default s)) (ms_metrics s)) groups).
End Specs.

(* ------------------------------------------------------------------ *)
(** * One slice *)

(** evaluators/metrics_plots_and_validations_evaluator.py 130-196, 592-621: duplicates are
    dropped, the results of the base computations are gathered, then every derived
    computation in order adds its own. *)
Definition evaluate (value : computation body -> avalue) (cs : list (computation body)) : res adict :=
  let! sep := filter_and_separate_computations cs in
  let base := fold_left (fun m ic =>
      dupdate metric_key_eqb m (map (fun k => (k, value (snd ic))) (cp_keys (snd ic)))) (sp_base sep) [] in
  foldM (fun m ic =>
      match cp_body (snd ic) with
      | Average f => let! d := f m in Ok (dupdate metric_key_eqb m d)
      | _ => Ok m
      end) (sp_derived sep) base.
