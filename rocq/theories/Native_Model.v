(* Model of evaluators/keras_util.py 334-517: the batches that Keras models are evaluated on with
   model.evaluate and that the metrics compiled with them are updated with. *)
From Coq Require Import String Ascii.
From Verif Require Import Base Util_Model Inputs_Model Keys_Model Batches_Model Keras_Model Predict_Model.
Local Open Scope string_scope.
Local Open Scope list_scope.

Section Evaluate.
  Context {V X : Type}.
  Notation features := (list (string * data (leaf V))).
  Variable argpartition : list num -> nat -> list nat.
  (** The keys of the model spec and the name of the model; the keys of the metrics *)
  Variables (label_key prediction_key model_name : string) (keys : list metric_key).
  (** 504-505 [model_util.get_inputs] with the input specs of the model (None: not all are found) *)
  Variable get_inputs : data (leaf V) -> res (option X).

  (** A StandardMetricInputs with its features and transformed features (None: no such extract) *)
  Record element := Element { el_inputs : inputs_dict; el_features : features; el_transformed : option features }.

  (** 465-473 [_add_input]: the features *)
  Definition features_of (e : element) : features :=
    match el_transformed e with
    | Some (t :: ts) => dupdate String.eqb (el_features e) (t :: ts)
    | _ => el_features e
    end.
  (** What is kept of an example: its features (kept with the first output), and the labels and
      example weights for each output that has a name (or is the only one) *)
  Record row := Row { r_features : features; r_outputs : list (string * (list Qc * list Qc)) }.
  (** 447-481 [_add_input]; the tuples are as in [_KerasCompiledMetricsCombiner._add_input] *)
  Definition evaluate_row (e : element) : res row :=
    let! tuples := compiled_row argpartition label_key prediction_key model_name keys (el_inputs e) in
    Ok (Row (features_of e) (map (fun oy => (fst oy, (fst (fst (snd oy)), snd (snd oy)))) tuples)).

  (** np.array of one array per example.  Simplification: arrays of different lengths raise
      (NumPy before 1.24 makes an array of objects). *)
  Definition np_array (l : list (list Qc)) : res (list (list Qc)) :=
    match l with
    | [] => Ok []
    | a :: t => if forallb (fun b => Nat.eqb (length b) (length a)) t then Ok l else Err ValueError
    end.
  (** 495-498: weights of shape (n, 1) become an array of shape (n,) *)
  Inductive weights := PerExample (l : list Qc) | PerItem (l : list (list Qc)).
  Definition squeeze_weights (l : list (list Qc)) : weights :=
    match l with
    | [_] :: _ => PerExample (concat l)
    | _ => PerItem l
    end.
  (** An argument of model.evaluate: for the only output, or a dictionary by output *)
  Inductive arg (A : Type) := Single (a : A) | ByOutput (d : list (string * A)).
  Global Arguments Single {A}. Global Arguments ByOutput {A}.
  (** 511-517: model.evaluate(x, y, batch_size, sample_weight) *)
  Record call := Call { c_x : X; c_y : arg (list (list Qc)); c_batch_size : option nat; c_sample_weight : arg weights }.

  (** accumulator.get_inputs(i) without the features *)
  Definition inputs_of (o : string) (rows : list row) : res (list (list Qc * list Qc)) :=
    mapM (fun r => match dget String.eqb (r_outputs r) o with Some v => Ok v | None => Err IndexError end) rows.
  (** 483-517 [_update_state]: the call of model.evaluate for the examples of the accumulator *)
  Definition evaluate_call (rows : list row) : res call :=
    let outputs := k_outputs keys in
    let! merged := merge_extracts (map r_features rows) true in
    let! columns := mapM (fun o =>
        let! inputs := inputs_of o rows in
        let! labels := np_array (map fst inputs) in
        let! ws := np_array (map snd inputs) in
        Ok (o, (labels, squeeze_weights ws)))
      (filter (fun o => negb (String.eqb o "" && Nat.ltb 1 (length outputs))) outputs) in
    let! yw := (if Nat.eqb (length outputs) 1 then
                  match columns with
                  | (_, (l, w)) :: _ => Ok (Single l, Single w)
                  | [] => Err StopIteration
                  end
                else Ok (ByOutput (map (fun c => (fst c, fst (snd c))) columns), ByOutput (map (fun c => (fst c, snd (snd c))) columns))) in
    let! x := get_inputs merged in
    match x with
    | None => Err ValueError
    | Some x => let! n := Batches_Model.batch_size merged in Ok (Call x (fst yw) n (snd yw))
    end.
End Evaluate.

(** keras_util.py 360-407 [_KerasCompiledMetricsCombiner._update_state], with the accumulator of
    tf_metric_accumulators.py 174-252; examples are kept as [compiled_row] gives them *)
Section Compiled.
  Variables (keys : list metric_key) (padding : option padding_options) (label_is_int prediction_is_int : bool).

  (** 208-215: the maximal length of labels and predictions of any output *)
  Definition pad_to_dim (rows : list (list (string * yielded))) : nat :=
    fold_left (fun m oy => Nat.max m (Nat.max (length (fst (fst (snd oy)))) (length (snd (fst (snd oy)))))) (concat rows) 0.
  (** the rows for an output *)
  Definition tuples_of (o : string) (rows : list (list (string * yielded))) : res (list yielded) :=
    mapM (fun r => match dget String.eqb r o with Some y => Ok y | None => Err IndexError end) rows.
  (** What compiled_metrics.update_state and compiled_loss are called with: labels, predictions and
      example weights, one row per example *)
  Definition compiled_call (rows : list (list (string * yielded))) : res (arg (list yielded)) :=
    let outputs := k_outputs keys in
    let column o := let! ys := tuples_of o rows in Keras_Model.get_inputs padding label_is_int prediction_is_int (pad_to_dim rows) ys in
    match outputs with
    | [o] => let! ys := column o in Ok (Single ys)
    | _ =>
        let! columns := mapM (fun o => let! ys := column o in Ok (o, ys)) (filter (fun o => negb (String.eqb o "")) outputs) in
        Ok (ByOutput columns)
    end.
End Compiled.
