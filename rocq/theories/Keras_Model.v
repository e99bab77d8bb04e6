(* Model of metrics/tf_metric_accumulators.py and metrics/tf_metric_wrapper.py: metrics
   and losses of Keras computed in batches.  Keras itself is not part of /repo: a metric
   is given by the weights one batch leaves behind and the value it reads off them. *)
From Coq Require Import String Ascii.
From Verif Require Import Base Beam Util_Model Keys_Model Inputs_Model Evaluator_Model.
Local Open Scope string_scope.
Local Open Scope list_scope.

(* ------------------------------------------------------------------ *)
(** * Metrics of Keras *)

(** metric.result(): a value or a dictionary of values (tf_metric_wrapper.py 683-690) *)
Inductive keras_result := OneValue (x : num) | NamedValues (l : list (string * num)).

(** km_update: the weights after reset_states and update_state on a batch (569-570,
    576-578); km_zero: those after reset_states alone; km_result: set_weights and
    result.  Simplification: the weights are one flat array. *)
Record keras_metric := KerasMetric {
  km_name : string;
  km_update : list yielded -> res (list Qc);
  km_zero : list Qc;
  km_result : list Qc -> keras_result
}.

(** tf_metric_wrapper.py 478-492 [_LossMetric]: tf_keras.metrics.Mean updated with the
    loss of the whole batch and the weights of its examples.  [loss] is that of one
    example; the reduction of a batch is the mean (SUM_OVER_BATCH_SIZE), and Mean
    keeps the sum of value times weight and the sum of weights. *)
Definition batch_weight (l : list yielded) : Qc := qsum (map (fun y => qsum (snd y)) l).
Definition loss_metric (name : string) (loss : yielded -> Qc) : keras_metric :=
  KerasMetric name
    (fun l => let value := (qsum (map loss l) / qn (length l))%Qc in
              Ok [(value * batch_weight l)%Qc; batch_weight l])
    [0%Qc; 0%Qc]
    (fun w => match w with
              | [total; count] => OneValue (Fin (if Qc_eqb count 0%Qc then 0 else total / count)%Qc)
              | _ => OneValue NaN
              end).

(* ------------------------------------------------------------------ *)
(** * tf_metric_accumulators.py *)

(** config.proto PaddingOptions; the oneofs *)
Inductive padding_value := IntPadding (z : Z) | FloatPadding (q : Qc).
Record padding_options := PaddingOptions { label_padding : option padding_value; prediction_padding : option padding_value }.

(** metric_util.py 250-258 [pad] of a one-dimensional array *)
Definition pad {A} (arr : list A) (last_dim : nat) (value : A) : list A :=
  if Nat.eqb (length arr) last_dim then arr else arr ++ repeat value (last_dim - length arr).

(** 224-236 [pad_value]; [is_int]: the kind of the array is "i", otherwise "f" *)
Definition pad_value (is_int : bool) (configured_value : option padding_value) : res Qc :=
  match configured_value with
  | None => Ok 0%Qc
  | Some (IntPadding z) => if is_int then Ok (qz z) else Err ValueError
  | Some (FloatPadding q) => if is_int then Err ValueError else Ok q
  end.

(** 55-86, 174-199: inputs and weights by output, weights by metric within; the maximal last
    dimension.  (Sizes in bytes are left to [too_big] below.) *)
Record keras_acc := KerasAcc {
  ka_inputs : list (list yielded);
  ka_weights : list (list (option (list Qc)));
  ka_pad_to_dim : nat
}.
(** 88-90 [len_inputs] *)
Definition len_inputs (a : keras_acc) : nat := length (nth 0 (ka_inputs a) []).

(** 110-116 [add_weights]; np.add of arrays of one shape *)
Definition vadd (a b : list Qc) : list Qc := map (fun xy => (fst xy + snd xy)%Qc) (combine a b).
Definition add_weights (cur : option (list Qc)) (weights : list Qc) : option (list Qc) :=
  match cur with None => Some weights | Some c => Some (vadd c weights) end.

(** np.array of a list of arrays: all of one shape *)
Definition same_length {A} (l : list (list A)) : bool :=
  match l with [] => true | x :: t => forallb (fun y => Nat.eqb (length y) (length x)) t end.

(** 217-252 [get_inputs] *)
Definition get_inputs (padding : option padding_options) (label_is_int prediction_is_int : bool) (pad_to_dim : nat) (l : list yielded)
  : res (list yielded) :=
  let! l :=
    match padding with
    | None => Ok l
    | Some p =>
        mapM (fun y => let '(label, pred, w) := y in
                let! v := pad_value label_is_int (label_padding p) in
                let! u := pad_value prediction_is_int (prediction_padding p) in
                Ok (pad label pad_to_dim v, pad pred pad_to_dim (Fin u), w)) l
    end in
  if same_length (map (fun y => fst (fst y)) l) && same_length (map (fun y => snd (fst y)) l) && same_length (map snd l)
  then Ok l else Err ValueError.

(* ------------------------------------------------------------------ *)
(** * tf_metric_wrapper.py: the combiner *)

Section Combiner.
  Variable argpartition : list num -> nat -> list nat.
  (** 518-520: the outputs in sorted order; 545-556: their metrics, then their losses *)
  Variable outputs : list (string * list keras_metric).
  Variable padding : option padding_options.
  Variables label_is_int prediction_is_int : bool.
  (** tf_metric_accumulators.py 83-86, 122-127: the desired batch size, and the
      estimate of bytes *)
  Variable desired_batch_size : option Z.
  Variable too_big : list (list yielded) -> bool.
  Variable opts : options.
  (** 526-531; see [sub_key_in_config] below *)
  Variable sub_key_in_config : bool.
  Variables label_key prediction_key model_name : string.

  Definition batch_size : nat :=
    match desired_batch_size with Some z => if Z.ltb 0 z then Z.to_nat z else 1000 | None => 1000 end.
  Definition should_flush (a : keras_acc) : bool := Nat.leb batch_size (len_inputs a) || too_big (ka_inputs a).

  (** 558-579 [_process_batch]; tf_metric_accumulators.py 254-257 [clear_inputs] *)
  Definition process_batch (a : keras_acc) : res keras_acc :=
    if Nat.eqb (len_inputs a) 0 then Ok a else
    let! ws := mapM (fun oiw => let '(o, inp, ws) := oiw in
                 let! inp := get_inputs padding label_is_int prediction_is_int (ka_pad_to_dim a) inp in
                 mapM (fun mw => match km_update (fst mw) inp with
                                 | Ok w => Ok (add_weights (snd mw) w)
                                 | Err _ => Err ValueError
                                 end) (combine (snd o) ws))
                 (combine (combine outputs (ka_inputs a)) (ka_weights a)) in
    Ok (KerasAcc (map (fun _ => []) (ka_inputs a)) ws 0).

  (** 581-595 [create_accumulator] *)
  Definition keras_create : keras_acc :=
    KerasAcc (map (fun _ => []) outputs) (map (fun o => map (fun _ => None) (snd o)) outputs) 0.

  (** 602-627: the tuples one example gives for an output *)
  Definition keras_tuples (output_name : string) (e : inputs_dict) : res (list yielded) :=
    let! ys := to_label_prediction_example_weight argpartition
                 (Options (if sub_key_in_config then None else o_sub_key opts) (o_aggregation opts) (o_class_weights opts)
                          (o_example_weighted opts) false (o_flatten opts) false false)
                 label_key prediction_key model_name output_name e in
    mapM (fun y => let '(label, pred, w) := y in
            if sub_key_in_config && negb (Nat.eqb (length label) (length pred))
            then let! label := one_hot label (length pred) in Ok (label, pred, w)
            else Ok (label, pred, w)) ys.

  (** tf_metric_accumulators.py 212-215: the greatest last dimension so far *)
  Definition widest (d : nat) (ys : list yielded) : nat :=
    fold_left (fun d y => Nat.max d (Nat.max (length (fst (fst y))) (length (snd (fst y))))) ys d.

  (** 597-630 [add_input] *)
  Definition keras_add (a : keras_acc) (e : inputs_dict) : res keras_acc :=
    let! yss := mapM (fun o => keras_tuples (fst o) e) outputs in
    let a := KerasAcc (map (fun iy => fst iy ++ snd iy) (combine (ka_inputs a) yss)) (ka_weights a)
               (match padding with None => ka_pad_to_dim a | Some _ => fold_left widest yss (ka_pad_to_dim a) end) in
    if should_flush a then process_batch a else Ok a.

  (** 642-651: the weights of a second accumulator, unless it has none *)
  Definition merge_weights (a b : keras_acc) : keras_acc :=
    KerasAcc (ka_inputs a)
      (map (fun wv => map (fun xy => match snd xy with None => fst xy | Some w => add_weights (fst xy) w end) (combine (fst wv) (snd wv)))
           (combine (ka_weights a) (ka_weights b)))
      (ka_pad_to_dim a).
  (** 632-652 [merge_accumulators] *)
  Definition keras_merge (l : list (res keras_acc)) : res keras_acc :=
    match l with
    | [] => Err StopIteration
    | a :: t =>
        fold_left (fun acc b => let! x := acc in let! b := b in let! y := process_batch b in Ok (merge_weights x y))
          t (let! a := a in process_batch a)
    end.

  (** 666-673 [make_metric_key] *)
  Definition result_key (metric_name output_name : string) : metric_key :=
    MetricKey metric_name model_name output_name (o_sub_key opts) None (Some (o_example_weighted opts)) false.

  (** 661-691 [extract_output] *)
  Definition keras_extract (a : keras_acc) : res (list (metric_key * num)) :=
    let! a := process_batch a in
    Ok (fold_left (fun d ow => fold_left (fun d mw =>
          match km_result (fst mw) (match snd mw with Some w => w | None => km_zero (fst mw) end) with
          | OneValue x => dset metric_key_eqb d (result_key (km_name (fst mw)) (fst (fst ow))) x
          | NamedValues l =>
              fold_left (fun d nx => dset metric_key_eqb d (result_key (km_name (fst mw) ++ "/" ++ fst nx)%string (fst (fst ow))) (snd nx)) l d
          end) (combine (snd (fst ow)) (snd ow)) d) (combine outputs (ka_weights a)) []).

  Definition keras_combiner : combiner inputs_dict (res keras_acc) (res (list (metric_key * num))) :=
    Combiner (Ok keras_create) (fun acc e => let! a := acc in keras_add a e) keras_merge (fun acc => let! a := acc in keras_extract a).
  (** 654-659 [compact] *)
  Definition keras_compact (a : res keras_acc) : res keras_acc := let! a := a in process_batch a.
End Combiner.

(* ------------------------------------------------------------------ *)
(** * tf_metric_wrapper.py: which computations *)

(** What is read off a metric or a loss: its class and name, the attributes class_id,
    top_k, thresholds and num_thresholds (None: absent or None), whether its
    configuration has thresholds or a number of thresholds, and those of AUC. *)
Record tf_metric := TfMetric {
  tm_class : string; tm_name : string; tm_is_loss : bool;
  tm_class_id : option Z; tm_top_k : option nat;
  tm_thresholds : option (list num); tm_num_thresholds : option Z; tm_configured_thresholds : bool;
  tm_label_weights : list Qc; tm_multi_label : bool
}.

(** 245-267 [_verify_and_update_sub_key] *)
Definition verify_and_update_sub_key (sk : option sub_key) (m : tf_metric) : res (option sub_key) :=
  match tm_class_id m with
  | Some c =>
      match sk with
      | Some s => if option_eqb Z.eqb (sk_class_id s) (Some c) then Ok (Some (SubKey (Some c) None None)) else Err ValueError
      | None => Ok (Some (SubKey (Some c) None None))
      end
  | None =>
      match tm_top_k m with
      | Some k =>
          match sk with
          | Some s => if option_eqb Nat.eqb (sk_top_k s) (Some k) then Ok (Some (SubKey None None (Some k))) else Err ValueError
          | None => Ok (Some (SubKey None None (Some k)))
          end
      | None => Ok sk
      end
  end.

(** 167-187 [_filter_duplicate_metrics]: the list of one output.  The keys are equal
    just when name and sub key are. *)
Definition dup_key := (string * option sub_key)%type.
Definition dup_key_eqb (a b : dup_key) : bool := String.eqb (fst a) (fst b) && option_eqb sub_key_eqb (snd a) (snd b).
Definition filter_duplicates (sk : option sub_key) (l : list tf_metric) : res (list tf_metric) :=
  let! d := foldM (fun d m => let! s := verify_and_update_sub_key sk m in Ok (dset dup_key_eqb d (tm_name m, s) m)) l [] in
  Ok (map snd d).

(** 190-201 [_sparse_metrics] *)
Definition is_sparse (m : tf_metric) : bool := starts_with "Sparse" (tm_class m).

(** 204-242 [_separate_confusion_matrix_metrics]: exact classes, unless top_k is set *)
Definition confusion_classes : list string :=
  ["AUC"; "SpecificityAtSensitivity"; "SensitivityAtSpecificity"; "TruePositives"; "FalsePositives"; "TrueNegatives"; "FalseNegatives";
   "Precision"; "Recall"].
Definition is_confusion_based (m : tf_metric) : bool :=
  memb String.eqb (tm_class m) confusion_classes && match tm_top_k m with None => true | Some _ => false end.

(** 378-391: the class weights of an AUC *)
Definition auc_class_weights (m : tf_metric) (class_weights : list (nat * Qc)) : res (list (nat * Qc)) :=
  if String.eqb (tm_class m) "AUC" then
    let! cw := match tm_label_weights m with
               | [] => Ok class_weights
               | ws => match class_weights with [] => Ok (combine (seq 0 (length ws)) ws) | _ => Err ValueError end
               end in
    if tm_multi_label m then Err NotImplementedError else Ok cw
  else Ok class_weights.

(** 405-423: thresholds, number of thresholds *)
Definition choose_thresholds (sk : option sub_key) (m : tf_metric) : option (list num) * option Z :=
  let thresholds :=
    if match sk with Some s => match sk_top_k s with Some _ => true | None => false end | None => false end
       && match tm_top_k m with None => true | Some _ => false end && negb (tm_configured_thresholds m)
    then Some [NegInf] else tm_thresholds m in
  (thresholds, match thresholds with Some _ => None | None => tm_num_thresholds m end).

(** The computations: one per confusion matrix metric (after those of the matrices),
    one per sub key for all other metrics and losses. *)
Inductive tf_computation :=
| FromMatrices (m : tf_metric) (key : metric_key) (thresholds : option (list num)) (num_thresholds : option Z) (class_weights : list (nat * Qc))
| InBatches (keys : list metric_key) (sk : option sub_key) (outs : list (string * (list tf_metric * list tf_metric))) (sub_key_in_config : bool).

(** 274-312 [_metric_keys_and_configs]: by sub key, the keys, and by output name the
    metrics and the losses *)
Definition group := (list metric_key * list (string * (list tf_metric * list tf_metric)))%type.
Definition osub_eqb := option_eqb sub_key_eqb.
Definition group_of (d : list (option sub_key * group)) (s : option sub_key) : group :=
  match dget osub_eqb d s with Some g => g | None => ([], []) end.
Definition add_to_group (model output : string) (agg : option agg_type) (weighted : bool) (s : option sub_key)
    (d : list (option sub_key * group)) (m : tf_metric) : list (option sub_key * group) :=
  let g := group_of d s in
  let ml := match dget String.eqb (snd g) output with Some ml => ml | None => ([], []) end in
  let ml := if tm_is_loss m then (fst ml, snd ml ++ [m]) else (fst ml ++ [m], snd ml) in
  dset osub_eqb d s (fst g ++ [MetricKey (tm_name m) model output s agg (Some weighted) false], dset String.eqb (snd g) output ml).
Definition keys_and_configs (metrics : list (string * list tf_metric)) (model : string) (sk : option sub_key)
    (agg : option agg_type) (weighted : bool) : res (list (option sub_key * group)) :=
  foldM (fun d om => foldM (fun d m =>
     let! s := verify_and_update_sub_key sk m in Ok (add_to_group model (fst om) agg weighted s d m)) (snd om) d) metrics [].

(** 526-531: True if the sub key is part of the metric configs already *)
Definition sub_key_in_config (s : option sub_key) (outs : list (string * (list tf_metric * list tf_metric))) : bool :=
  match s with Some s => match sk_top_k s with Some _ => true | None => false end | None => false end
  && forallb (fun m => match tm_top_k m with Some _ => true | None => false end) (flat_map (fun o => fst (snd o)) outs).

(** 45-164 [tf_metric_computations] *)
Definition tf_metric_computations (metrics : list (string * list tf_metric)) (model : string) (sk : option sub_key)
    (agg : option agg_type) (class_weights : list (nat * Qc)) (weighted : bool) : res (list tf_computation) :=
  if match agg with Some _ => existsb (fun om => existsb is_sparse (snd om)) metrics | None => false end then Err ValueError else
  let! metrics := mapM (fun om => let! l := filter_duplicates sk (snd om) in Ok (fst om, l)) metrics in
  let! matrices := mapM (fun om => mapM (fun m =>
       let! cw := auc_class_weights m class_weights in
       let! s := verify_and_update_sub_key sk m in
       let tn := choose_thresholds s m in
       Ok (FromMatrices m (MetricKey (tm_name m) model (fst om) s agg (Some weighted) false) (fst tn) (snd tn) cw))
     (filter is_confusion_based (snd om))) metrics in
  let others := filter (fun om => match snd om with [] => false | _ => true end)
                  (map (fun om => (fst om, filter (fun m => negb (is_confusion_based m)) (snd om))) metrics) in
  let! groups := keys_and_configs others model sk agg weighted in
  Ok (concat matrices ++ map (fun sg => InBatches (fst (snd sg)) (fst sg) (snd (snd sg)) (sub_key_in_config (fst sg) (snd (snd sg)))) groups).

(** The combiner of a group: 518-520, 545-556 (the outputs sorted by name; metrics
    before losses; [build] is deserialisation) and 603-623 (options). *)
Fixpoint insert_output {A} (o : string * A) (l : list (string * A)) : list (string * A) :=
  match l with
  | [] => [o]
  | p :: t => if String.leb (fst o) (fst p) then o :: l else p :: insert_output o t
  end.
Definition batch_outputs (build : tf_metric -> keras_metric) (outs : list (string * (list tf_metric * list tf_metric)))
  : list (string * list keras_metric) :=
  fold_right insert_output [] (map (fun o => (fst o, map build (fst (snd o) ++ snd (snd o)))) outs).
Definition batch_options (s : option sub_key) (agg : option agg_type) (class_weights : list (nat * Qc)) (weighted : bool) : options :=
  Options s (match agg with Some _ => true | None => false end) (Some class_weights) weighted false
    (match agg with Some a => match ag_micro a with Some b => b | None => false end | None => false end) false false.
