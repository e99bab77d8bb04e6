(* Model of extractors/tflite_predict_extractor.py, extractors/tfjs_predict_extractor.py,
   extractors/legacy_predict_extractor.py and evaluators/keras_util.py.  What runs a model (the
   interpreter of TFLite, the binary of TFJS, a loaded model of TFMA, Keras) is a parameter. *)
From Coq Require Import String Ascii.
From Verif Require Import Base Beam Util_Model Keys_Model Inputs_Model Ranking_Model Config_Model Keras_Model.
Local Open Scope string_scope.
Local Open Scope list_scope.

(* ------------------------------------------------------------------ *)
(** * Arrays *)

(** An element of a numpy array *)
Inductive cell := CInt (z : Z) | CNum (q : Qc) | CText (s : string) | CNone.
Record array := Arr { a_shape : list nat; a_data : list cell }.
Definition size (shape : list nat) : nat := fold_right Nat.mul 1 shape.
Definition is_none (c : cell) : bool := match c with CNone => true | _ => false end.

(** np.reshape to a shape without -1 *)
Definition reshape (a : array) (shape : list nat) : res array :=
  if Nat.eqb (length (a_data a)) (size shape) then Ok (Arr shape (a_data a)) else Err ValueError.
Definition shape_eqb (a b : list nat) : bool := Nat.eqb (length a) (length b) && forallb (fun xy => Nat.eqb (fst xy) (snd xy)) (combine a b).
(** np.concatenate along the first axis: nothing, arrays without axes and arrays whose other axes
    differ are refused *)
Definition concatenate (l : list array) : res array :=
  match l with
  | [] => Err ValueError
  | a :: _ =>
      match a_shape a with
      | [] => Err ValueError
      | _ :: tail =>
          if forallb (fun b => match a_shape b with _ :: t => shape_eqb t tail | [] => false end) l
          then Ok (Arr (fold_right Nat.add 0 (map (fun b => hd 0 (a_shape b)) l) :: tail) (flat_map a_data l))
          else Err ValueError
      end
  end.

(** Features of a batch: for each example an array.  Simplification: the batch size is the number of
    arrays of the first feature (util.batch_size, Batches_Model, refuses features that differ). *)
Definition features := list (string * list array).
Definition batch_size (f : features) : nat := match f with (_, l) :: _ => length l | [] => 0 end.
(** Outputs of a model, and what is under other keys of the extracts *)
Definition extracts := list (string * data array).
Definition PREDICTIONS_KEY := "predictions".

(** s.split(":")[0] *)
Fixpoint before_colon (s : string) : string :=
  match s with
  | "" => ""
  | String c r => if Ascii.eqb c ":" then "" else String c (before_colon r)
  end.

(** tflite 188-205, tfjs 240-257: the outputs are checked, unwrapped if there is one, and stored in a
    copy of the extracts.  [given]: the extracts that were passed in, whose dictionary of predictions is
    shared with the copy.  An array cannot be indexed by a name (IndexError). *)
Definition check_outputs (n : nat) (outputs : list (string * array)) : res unit :=
  if forallb (fun kv => match a_shape (snd kv) with m :: _ => Nat.eqb m n | [] => false end) outputs then Ok tt else Err ValueError.
Definition outputs_value (outputs : list (string * array)) : data array :=
  match outputs with [(_, a)] => Leaf a | _ => Dict (map (fun kv => (fst kv, Leaf (snd kv))) outputs) end.
Definition store (several : bool) (name : string) (v : data array) (gr : extracts * extracts) : res (extracts * extracts) :=
  let (given, result) := gr in
  if negb several then Ok (given, dset String.eqb result PREDICTIONS_KEY v)
  else match dget String.eqb result PREDICTIONS_KEY with
       | None => Ok (given, dset String.eqb result PREDICTIONS_KEY (Dict [(name, v)]))
       | Some (Leaf _) => Err IndexError
       | Some (Dict d) =>
           let d' := Dict (dset String.eqb d name v) in
           Ok (if dmem String.eqb given PREDICTIONS_KEY then dset String.eqb given PREDICTIONS_KEY d' else given,
               dset String.eqb result PREDICTIONS_KEY d')
       end.
(** The loop over the model specs: tflite 120-127, tfjs 141-147; [outputs name] runs the model *)
Definition predict_models (loaded : list string) (outputs : string -> res (list (string * array))) (n : nat) (specs : list string) (e : extracts)
  : res (extracts * extracts) :=
  let several := Nat.ltb 1 (length specs) in
  foldM (fun gr spec =>
      let name := if several then spec else "" in
      if negb (memb String.eqb name loaded) then Err ValueError
      else
        let! o := outputs name in
        let! _ := check_outputs n o in
        store several spec (outputs_value o) gr)
    specs (e, e).

(* ------------------------------------------------------------------ *)
(** * tflite_predict_extractor.py *)

Inductive dtype := Float32 | Int64 | OtherFloat | OtherInt | Text.
(** get_input_details and get_output_details: at most one scale and zero point.  Simplification: no
    quantization by channel. *)
Record detail := Detail { d_name : string; d_index : nat; d_shape : list nat; d_dtype : dtype; d_scales : list Qc; d_zeros : list Z }.

(** 79-101 [_get_input_name_from_input_detail] *)
Definition input_name (d : detail) : string :=
  before_colon (match strip_prefix "serving_default_" (d_name d) with Some r => r | None => d_name d end).

(** The number of a cell in an arithmetic operation; text has none (TypeError). *)
Definition number (c : cell) : res Qc := match c with CInt z => Ok (qz z) | CNum q => Ok q | _ => Err TypeError end.
(** Truncation towards zero *)
Definition truncate (q : Qc) : Z := Z.quot (Qnum (this q)) (Zpos (Qden (this q))).
Section Quantize.
  (** astype of a float beyond the range of an integer type: whatever the machine gives *)
  Variable fit : dtype -> Z -> Z.
  Definition as_type (t : dtype) (q : Qc) : cell :=
    match t with Int64 | OtherInt => CInt (fit t (truncate q)) | _ => CNum q end.
  (** 113-124 [_quantize] *)
  Definition quantize (d : detail) (a : array) : res array :=
    match d_scales d, d_zeros d with
    | s :: _, z :: _ => let! l := mapM (fun c => let! x := number c in Ok (as_type (d_dtype d) (x / s + qz z)%Qc)) (a_data a) in Ok (Arr (a_shape a) l)
    | _, _ => Ok a
    end.
End Quantize.
(** 104-110 [_dequantize] *)
Definition dequantize (d : detail) (a : array) : res array :=
  match d_scales d, d_zeros d with
  | s :: _, z :: _ => let! l := mapM (fun c => let! x := number c in Ok (CNum ((x - qz z) * s)%Qc)) (a_data a) in Ok (Arr (a_shape a) l)
  | _, _ => let! l := mapM (fun c => let! x := number c in Ok (CNum x)) (a_data a) in Ok (Arr (a_shape a) l)
  end.

(** 147-149: the value of an input that is missing; "" is no number (ValueError) *)
Definition default_cell (t : dtype) : res cell :=
  match t with Float32 => Ok (CNum (qz (-1))) | Int64 => Ok (CInt (-1)%Z) | Text => Ok (CText "") | OtherFloat | OtherInt => Err ValueError end.
Definition default_value (d : detail) : res array :=
  let shape := 1 :: tl (d_shape d) in
  let! c := default_cell (d_dtype d) in Ok (Arr shape (repeat c (size shape))).
(** 137-159: the value of one example *)
Definition example_value (d : detail) (v : option array) : res array :=
  match v with
  | Some a => if existsb is_none (a_data a) then default_value d else reshape a (1 :: tl (d_shape d))
  | None => default_value d
  end.
(** 133-165: one input of the model *)
Definition input_value (f : features) (n : nat) (d : detail) : res array :=
  let! l := mapM (fun i => match dget String.eqb f (input_name d) with
                           | Some l => match nth_error l i with Some a => example_value d (Some a) | None => Err IndexError end
                           | None => example_value d None
                           end) (seq 0 n) in
  concatenate l.
(** 132-170: all of them by name; a name that occurs twice is appended to an array *)
Definition gather (f : features) (n : nat) (ds : list detail) : res (list (string * array)) :=
  foldM (fun acc d =>
      if dmem String.eqb acc (input_name d) && negb (Nat.eqb n 0) then Err AttributeError
      else let! a := input_value f n d in Ok (dset String.eqb acc (input_name d) a)) ds [].

Section TFLite.
  Variable fit : dtype -> Z -> Z.
  (** The interpreter of a model: its inputs and outputs, and what allocate_tensors, set_tensor (by
      index), invoke and get_tensor give *)
  Variables (inputs_of outputs_of : string -> list detail) (invoke : string -> list (nat * array) -> res (nat -> array)).

  (** 127-190 *)
  Definition tflite_outputs (f : features) (name : string) : res (list (string * array)) :=
    let n := batch_size f in
    let! given := gather f n (inputs_of name) in
    let! tensors := mapM (fun d => match dget String.eqb given (input_name d) with
                                   | Some a => let! a := quantize fit d a in Ok (d_index d, a)
                                   | None => Err KeyError
                                   end) (inputs_of name) in
    let! result := invoke name tensors in
    foldM (fun acc d => let! a := dequantize d (result (d_index d)) in Ok (dset String.eqb acc (d_name d) a)) (outputs_of name) [].
  (** 113-206 [_batch_reducible_process] *)
  Definition tflite_predict (loaded specs : list string) (f : features) (e : extracts) : res (extracts * extracts) :=
    predict_models loaded (tflite_outputs f) (batch_size f) specs e.
End TFLite.

(* ------------------------------------------------------------------ *)
(** * tfjs_predict_extractor.py *)

(** 130-133: astype(np.int32) of an int64, which is taken modulo 2^32 *)
Definition to_int32 (z : Z) : Z := ((z + 2147483648) mod 4294967296 - 2147483648)%Z.
Definition cell_to_int32 (c : cell) : cell := match c with CInt z => CInt (to_int32 z) | _ => c end.
(** Features with the type of their arrays: int64 or another *)
Definition typed_features := list (string * (bool * list array)).
Definition narrow (f : typed_features) : features :=
  fold_left (fun d (kv : string * (bool * list array)) => dset String.eqb d (fst kv)
               (if fst (snd kv) then map (fun a => Arr (a_shape a) (map cell_to_int32 (a_data a))) (snd (snd kv)) else snd (snd kv))) f [].

(** 49-58 [_InputSpec], 76-98: an input of the signature by its name; -1 is an unknown dimension *)
Record js_input := JsInput { j_name : string; j_dim : list Z; j_text : bool }.
(** np.reshape with at most one unknown dimension *)
Definition reshape_unknown (a : array) (dim : list Z) : res array :=
  let n := Z.of_nat (length (a_data a)) in
  let unknown := length (filter (Z.eqb (-1)%Z) dim) in
  let known := fold_right Z.mul 1%Z (filter (fun d => negb (Z.eqb (-1)%Z d)) dim) in
  if existsb (fun d => Z.ltb d (-1)%Z) dim then Err ValueError
  else match unknown with
       | 0 => if Z.eqb n known then Ok (Arr (map Z.to_nat dim) (a_data a)) else Err ValueError
       | 1 => if Z.ltb 0 known && Z.eqb (n mod known) 0
              then Ok (Arr (map (fun d => Z.to_nat (if Z.eqb d (-1) then n / known else d)%Z) dim) (a_data a))
              else Err ValueError
       | _ => Err ValueError
       end.
(** 149-172: the value of an input *)
Definition js_input_value (f : features) (i : js_input) : res array :=
  match dget String.eqb f (before_colon (j_name i)) with
  | None => Err ValueError
  | Some l =>
      let! l := mapM (fun a => if Nat.ltb (length (j_dim i)) (length (a_shape a)) then Err ValueError else reshape_unknown a (j_dim i)) l in
      concatenate l
  end.
(** 174-190: what is written for the binary: names, whether the values are written as text, values *)
Record js_entry := JsEntry { je_name : string; je_text : bool; je_value : array }.

Section TFJS.
  (** The inputs and the names of the outputs in a model's signature, and the shapes and values that the
      binary writes; a status other than 0 is a ValueError, missing files a FileNotFoundError *)
  Variables (js_inputs : string -> list js_input) (js_outputs : string -> list string)
            (binary : string -> list js_entry -> res (list (list nat * list cell))).
  (** 148-243 *)
  Definition js_run (f : features) (name : string) : res (list (string * array)) :=
    let! entries := mapM (fun i => let! a := js_input_value f i in Ok (JsEntry (j_name i) (j_text i) a)) (js_inputs name) in
    let! out := binary name entries in
    foldM (fun acc no => let! a := reshape (Arr [] (snd (snd no))) (fst (snd no)) in Ok (dset String.eqb acc (fst no) a))
      (combine (map before_colon (js_outputs name)) out) [].
  (** 122-258 [_batch_reducible_process]; len() of an array without axes is a TypeError, here a
      ValueError. *)
  Definition tfjs_predict (loaded specs : list string) (f : typed_features) (e : extracts) : res (extracts * extracts) :=
    predict_models loaded (js_run (narrow f)) (batch_size (narrow f)) specs e.
End TFJS.

(* ------------------------------------------------------------------ *)
(** * legacy_predict_extractor.py *)

Section Legacy.
  Context {V : Type}.
  (** Extracts of one example; a value of features, predictions or labels may be a dictionary. *)
  Definition example := list (string * data V).
  (** What predict_list gives: the position of the example and the values *)
  Record fetched := Fetched { f_ref : nat; f_values : example }.
  Variables (one : V)                                     (* np.array([1.0]) *)
            (fpl : fetched -> data V).                    (* as_features_predictions_labels *)

  Definition FEATURES_KEY := "features".
  Definition LABELS_KEY := "labels".
  Definition WEIGHTS_KEY := "example_weights".
  Definition FPL_KEY := "fpl".
  Definition INPUT_KEY := "input".
  (** 34-38: the names of the fetched values are the keys of the extracts *)
  Definition is_fpl (k : string) : bool := memb String.eqb k [FEATURES_KEY; PREDICTIONS_KEY; LABELS_KEY].

  (** 99-119 [_get_example_weights]; what is no dictionary has no features *)
  Definition get_example_weights (c : eval_config) (model_name : string) (f : option (data V)) : res (data V) :=
    match get_model_spec c model_name with
    | None => Err ValueError
    | Some s =>
        match f with
        | None => Err KeyError
        | Some (Leaf _) => Err TypeError
        | Some (Dict f) =>
            if set_str (m_weight_key s) then
              match dget String.eqb f (m_weight_key s) with Some v => Ok v | None => Err ValueError end
            else if set_map (m_weight_keys s) then
              let! d := foldM (fun d kv => match dget String.eqb f (snd kv) with
                                           | Some v => Ok (dset String.eqb d (fst kv) v)
                                           | None => Err ValueError
                                           end) (m_weight_keys s) [] in
              Ok (Dict d)
            else Ok (Leaf one)
        end
    end.

  (** 128-163: the extracts of a new example *)
  Definition new_example (c : option eval_config) (several : bool) (model_name : string) (elements : list example) (x : fetched) : res example :=
    match nth_error elements (f_ref x) with
    | None => Err IndexError
    | Some e =>
        let e := fold_left (fun e kv => if is_fpl (fst kv)
                                        then (if match c with Some _ => true | None => false end then dset String.eqb e (fst kv) (snd kv) else e)
                                        else dset String.eqb e (fst kv) (snd kv)) (f_values x) e in
        let! e := match c with
                  | Some c => let! w := get_example_weights c model_name (dget String.eqb e FEATURES_KEY) in Ok (dset String.eqb e WEIGHTS_KEY w)
                  | None => Ok e
                  end in
        if negb several then Ok (match c with None => dset String.eqb e FPL_KEY (fpl x) | Some _ => e end)
        else match c with
             | None => Err ValueError
             | Some _ => match dget String.eqb e PREDICTIONS_KEY with
                         | Some p => Ok (dset String.eqb e PREDICTIONS_KEY (Dict [(model_name, p)]))
                         | None => Err KeyError
                         end
             end
    end.
  (** 164-169: the predictions of a further model *)
  Definition add_prediction (model_name : string) (x : fetched) (e : example) : res example :=
    match dget String.eqb (f_values x) PREDICTIONS_KEY with
    | None => Err KeyError
    | Some p => match dget String.eqb e PREDICTIONS_KEY with
                | Some (Dict d) => Ok (dset String.eqb e PREDICTIONS_KEY (Dict (dset String.eqb d model_name p)))
                | Some (Leaf _) => Err IndexError
                | None => Err KeyError
                end
    end.
  Fixpoint update_nth {A} (i : nat) (f : A -> res A) (l : list A) : res (list A) :=
    match l, i with
    | [], _ => Err IndexError
    | x :: t, 0 => let! y := f x in Ok (y :: t)
    | x :: t, S i => let! t := update_nth i f t in Ok (x :: t)
    end.
  (** 121-172: [models] are the loaded models in order with what predict_list gives *)
  Definition predict_examples (c : option eval_config) (models : list (string * list fetched)) (elements : list example) : res (list example) :=
    let several := negb (Nat.eqb (length models) 1) in
    foldM (fun result m =>
        let! r := foldM (fun ir x =>
                      let (i, result) := (ir : nat * list example) in
                      let! result := if Nat.leb (length result) i
                                     then let! e := new_example c several (fst m) elements x in Ok (result ++ [e])
                                     else update_nth i (add_prediction (fst m) x) result in
                      Ok (S i, result)) (snd m) (0, result) in
        Ok (snd r)) models [].

  (** 178-184 [_wrap_as_batched_extract] *)
  Definition wrap_batched (l : list example) : list (string * list (data V)) :=
    fold_left (fun d e => fold_left (fun d kv => dset String.eqb d (fst kv) (match dget String.eqb d (fst kv) with Some vs => vs | None => [] end ++ [snd kv])) e d) l [].
  (** 187-210 [_fetch_raw_data_column] and [_unwrap_batched_extract]: the examples of the raw record column
      (None: no such column) of the record batch of extracts; the other extracts are not kept. *)
  Definition unwrap_batched (raw : option (list V)) (others : example) : res (list example) :=
    match raw with None => Err AssertionError | Some l => Ok (map (fun v => [(INPUT_KEY, Leaf v)]) l) end.
  (** 213-280 [_TFMAPredict] with a config: a batch of extracts; [predict es]: the loaded models with what
      predict_list gives for the examples *)
  Definition legacy_batch (c : eval_config) (predict : list example -> list (string * list fetched)) (raw : option (list V)) (others : example)
    : res (list (string * list (data V))) :=
    let! es := unwrap_batched raw others in
    let! rs := predict_examples (Some c) (predict es) es in
    Ok (wrap_batched rs).
End Legacy.

(* ------------------------------------------------------------------ *)
(** * keras_util.py *)

(** A metric of Keras: its name, class_id and top_k *)
Record k_metric := KMetric { km_label : string; km_class_id : option Z; km_top_k : option nat }.
(** while name.startswith(p): name = name[len(p):] *)
Fixpoint strip_all (fuel : nat) (p s : string) : string :=
  match fuel with
  | 0 => s
  | S n => match strip_prefix p s with Some r => strip_all n p r | None => s end
  end.
(** 117-169 [_metric_keys] *)
Definition k_sub_key (m : k_metric) : option sub_key :=
  match km_class_id m, km_top_k m with
  | Some i, _ => Some (SubKey (Some i) None None)
  | None, Some k => Some (SubKey None None (Some k))
  | None, None => None
  end.
Definition keras_key (model : string) (outputs : list string) (m : k_metric) : metric_key :=
  match find (fun o => match strip_prefix (o ++ "_")%string (km_label m) with Some _ => true | None => false end) outputs with
  | Some o => MetricKey (strip_all (String.length (km_label m)) (o ++ "_")%string (km_label m)) model o (k_sub_key m) None None false
  | None => MetricKey (km_label m) model "" (k_sub_key m) None None false
  end.
Definition keras_keys (metrics : list k_metric) (model : string) (outputs : list string) : list metric_key := map (keras_key model outputs) metrics.

(** 35-115 [metric_computations_using_keras_saved_model]: a loaded model; None: no such attribute or
    None.  [ks_inputs]: the names of its input specs *)
Record saved_model := KModel {
  ks_metrics : list k_metric; ks_compiled_metrics : option (list k_metric); ks_compiled_loss : option (list k_metric);
  ks_output_names : option (list string); ks_inputs : list string
}.
Inductive k_computation := CompiledMetrics (keys : list metric_key) | Evaluate (keys : list metric_key) (feature_keys : list string).
Definition keras_computations (model : string) (m : saved_model) : list k_computation :=
  match ks_metrics m with
  | [] => []
  | _ =>
      let outputs := match ks_output_names m with Some l => l | None => [] end in
      let evaluate := [Evaluate (keras_keys (ks_metrics m) model outputs) (ks_inputs m)] in
      match ks_compiled_metrics m, ks_compiled_loss m with
      | Some a, Some b => if Nat.eqb (length a + length b) (length (ks_metrics m))
                          then [CompiledMetrics (keras_keys (a ++ b) model outputs)] else evaluate
      | _, _ => evaluate
      end
  end.

(** 198-215: the outputs in order, the first of which has the weights of all metrics *)
Definition k_outputs (keys : list metric_key) : list string := py_sorted String.leb (dedup String.eqb (map k_output keys)).
Definition k_slots (keys : list metric_key) : nat :=
  match k_outputs keys with
  | [] => 0
  | "" :: _ => length keys
  | o :: _ => length (filter (fun k => String.eqb (k_output k) o) keys)
  end.

Section KerasCombiner.
  (** Examples, what is kept of one, and its computation (_add_input) *)
  Context {E R : Type} (row_of : E -> res R).
  Variable keys : list metric_key.
  (** The weights of all metrics after reset_states and _update_state with a batch; their values *)
  Variables (update : list R -> res (list (list Qc))) (zero : list (list Qc)) (value : nat -> list Qc -> num).
  (** should_flush *)
  Variable flush : list R -> bool.

  Record k_acc := KAcc { kk_rows : list R; kk_weights : list (option (list Qc)) }.
  (** accumulator.add_weights(0, i, w) for all metrics: an index that is not there is an IndexError *)
  Fixpoint add_all (cur : list (option (list Qc))) (ws : list (list Qc)) : res (list (option (list Qc))) :=
    match ws, cur with
    | [], _ => Ok cur
    | w :: ws, c :: cur => let! r := add_all cur ws in Ok (add_weights c w :: r)
    | _ :: _, [] => Err IndexError
    end.
  (** 256-273 [_process_batch] *)
  Definition k_process (a : k_acc) : res k_acc :=
    match kk_rows a with
    | [] => Ok a
    | rows => let! ws := update rows in let! ws := add_all (kk_weights a) ws in Ok (KAcc [] ws)
    end.
  (** 275-276, 369-384, 464-472 *)
  Definition k_create : k_acc := KAcc [] (repeat None (k_slots keys)).
  (** 278-286 [add_input] *)
  Definition k_add (a : k_acc) (e : E) : res k_acc :=
    let! r := row_of e in
    let a := KAcc (kk_rows a ++ [r]) (kk_weights a) in
    if flush (kk_rows a) then k_process a else Ok a.
  (** 296-305: the weights of a second accumulator, for every key *)
  Fixpoint merge_all (n : nat) (cur other : list (option (list Qc))) : res (list (option (list Qc))) :=
    match n, cur, other with
    | 0, _, _ => Ok cur
    | S n, c :: cur, o :: other =>
        let! r := merge_all n cur other in Ok (match o with None => c | Some w => add_weights c w end :: r)
    | S n, [], None :: other => merge_all n [] other
    | S _, _, _ => Err IndexError
    end.
  (** 288-306 [merge_accumulators] *)
  Definition k_merge (l : list (res k_acc)) : res k_acc :=
    match l with
    | [] => Err StopIteration
    | a :: t =>
        fold_left (fun acc b => let! x := acc in let! b := b in let! y := k_process b in
                     let! ws := merge_all (length keys) (kk_weights x) (kk_weights y) in Ok (KAcc (kk_rows x) ws))
          t (let! a := a in k_process a)
    end.
  (** 308-313 [compact] *)
  Definition k_compact (a : res k_acc) : res k_acc := let! a := a in k_process a.
  (** 315-331 [extract_output]; [zero]: the weights after reset_states *)
  Definition k_extract (a : k_acc) : res (list (metric_key * num)) :=
    let! a := k_process a in
    foldM (fun d ik => match nth_error (kk_weights a) (fst ik) with
                       | None => Err IndexError
                       | Some w => Ok (dset metric_key_eqb d (snd ik)
                                         (value (fst ik) (match w with Some w => w | None => nth (fst ik) zero [] end)))
                       end) (combine (seq 0 (length keys)) keys) [].
  Definition k_combiner : combiner E (res k_acc) (res (list (metric_key * num))) :=
    Combiner (Ok k_create) (fun acc e => let! a := acc in k_add a e) k_merge (fun acc => let! a := acc in k_extract a).
End KerasCombiner.

(** 386-410 [_KerasCompiledMetricsCombiner._add_input]: the tuple of every output; next() of nothing
    is a StopIteration *)
Definition compiled_row (argpartition : list num -> nat -> list nat) (label_key prediction_key model_name : string) (keys : list metric_key)
    (e : inputs_dict) : res (list (string * yielded)) :=
  let outputs := k_outputs keys in
  let! rows := mapM (fun o =>
      if String.eqb o "" && Nat.ltb 1 (length outputs) then Ok []
      else let! ys := to_label_prediction_example_weight argpartition (Options None false None true false false false false)
                        label_key prediction_key model_name o e in
           match ys with y :: _ => Ok [(o, y)] | [] => Err StopIteration end) outputs in
  Ok (concat rows).
