(* Predict *)
From Coq Require Import String Ascii Permutation.
From Verif Require Import Base BaseFacts Beam BeamFacts Util_Model Keys_Model Inputs_Model Ranking_Model Ranking_Main Keys_Main Keras_Main Classes_Main Config_Model Keras_Model Predict_Model.
From Verif Require Import Predict_Main.
Local Open Scope string_scope.
Local Open Scope list_scope.

(* ------------------------------------------------------------------ *)
(** ** C255 the inputs of models of TFLite *)
Theorem C255_names :
  forall d r t, no_colon r ->
    (d_name d = ("serving_default_" ++ r)%string \/ d_name d = ("serving_default_" ++ r ++ ":" ++ t)%string ->  input_name d = r) /\
    ((forall x, r <> ("serving_default_" ++ x)%string) -> (forall x, r ++ ":" ++ t <> "serving_default_" ++ x)%string ->
     d_name d = r \/ d_name d = (r ++ ":" ++ t)%string -> input_name d = r).
Proof. exact C255_names_pf. Qed.

Theorem C255_inputs :
  forall fit inputs_of outputs_of invoke f name ts, NoDup (map input_name (inputs_of name)) -> batch_size f <> 0 ->
    Forall2 (receives fit f (batch_size f)) (inputs_of name) ts ->
    tflite_outputs fit inputs_of outputs_of invoke f name =
      (let! result := invoke name ts in
       foldM (fun acc d => let! a := dequantize d (result (d_index d)) in Ok (dset String.eqb acc (d_name d) a)) (outputs_of name) []).
Proof. exact C255_inputs_pf. Qed.

(** A missing feature of another type is no value of it, and the batch is refused. *)
Theorem C255_default_refuted :
  exists d, d_dtype d = OtherInt /\ forall fit outputs_of invoke f name, batch_size f <> 0 -> dget String.eqb f (d_name d) = None ->
    tflite_outputs fit (fun _ => [d]) outputs_of invoke f name = Err ValueError.
Proof. exact C255_default_refuted_pf. Qed.

(** And so are inputs of one name. *)
Theorem C255_same_name_refuted :
  exists d d', d_index d <> d_index d' /\ d_name d <> d_name d' /\ forall fit outputs_of invoke name, exists x,
    tflite_outputs fit (fun _ => [d; d']) outputs_of invoke [("x", [Arr [1] [CInt 3]])] name = Err x.
Proof. exact C255_same_name_refuted_pf. Qed.

Example C255_example :
  let d1 := Detail "serving_default_age:0" 4 [1; 2] Float32 [] [] in
  let d2 := Detail "country" 7 [1; 1] Text [] [] in
  tflite_outputs (fun _ z => z) (fun _ => [d1; d2]) (fun _ => [Detail "y" 0 [1; 1] Float32 [] []])
    (fun _ ts => match ts with [(4, a); (7, Arr [2; 1] [CText ""; CText ""])] => Ok (fun _ => a) | _ => Err ValueError end)
    [("age", [Arr [2] [CNum (qz 1); CNum (qz 2)]; Arr [2] [CNum (qz 3); CNone]])] "m" =
  Ok [("y", Arr [2; 2] [CNum (qz 1); CNum (qz 2); CNum (qz (-1)); CNum (qz (-1))])].
Proof. vm_compute. reflexivity. Qed.

(* ------------------------------------------------------------------ *)
(** ** C256 quantized values *)
(** Values of the scale come back unchanged. *)
Theorem C256_exact :
  forall fit d s z ks a, d_scales d = [s] -> d_zeros d = [z] -> s <> 0%Qc -> d_dtype d = OtherInt \/ d_dtype d = Int64 -> (forall k, In k ks -> fit (d_dtype d) k = k) ->
    holds_numbers a (map (fun k => (qz k - qz z) * s)%Qc ks) ->
    quantize fit d a = Ok (Arr (a_shape a) (map CInt ks)) /\ dequantize d (Arr (a_shape a) (map CInt ks)) = Ok (Arr (a_shape a) (map (fun k => CNum ((qz k - qz z) * s)%Qc) ks)).
Proof. exact C256_exact_pf. Qed.

(** Other values come back with an error of less than a step of the scale. *)
Theorem C256_error :
  forall fit d s z x, d_scales d = [s] -> d_zeros d = [z] -> (0 < s)%Qc -> d_dtype d = OtherInt \/ d_dtype d = Int64 -> (forall k, fit (d_dtype d) k = k) ->
    exists y, (let! a := quantize fit d (Arr [1] [CNum x]) in dequantize d a) = Ok (Arr [1] [CNum y]) /\ (y - x < s)%Qc /\ (x - y < s)%Qc.
Proof. exact C256_error_pf. Qed.

(** But not as the nearest value of the scale. *)
Theorem C256_nearest_refuted :
  exists d s z x y k, d_scales d = [s] /\ d_zeros d = [z] /\ (0 < s)%Qc /\ d_dtype d = OtherInt /\
    (let! a := quantize (fun _ k => k) d (Arr [1] [CNum x]) in dequantize d a) = Ok (Arr [1] [CNum y]) /\ (y < (qz k - qz z) * s)%Qc /\ ((qz k - qz z) * s - x < x - y)%Qc.
Proof. exact C256_nearest_refuted_pf. Qed.

Example C256_example :
  let d := Detail "x" 0 [1; 1] OtherInt [Q2Qc (1 # 2)] [(-3)%Z] in
  quantize (fun _ k => k) d (Arr [2] [CNum (qz 4); CNum (Q2Qc (5 # 2))]) = Ok (Arr [2] [CInt 5; CInt 2]) /\
  dequantize d (Arr [2] [CInt 5; CInt 2]) = Ok (Arr [2] [CNum (Q2Qc (8 # 2)); CNum (Q2Qc (5 # 2))]) /\
  quantize (fun _ k => k) (Detail "x" 0 [1; 1] Text [] []) (Arr [1] [CText "a"]) = Ok (Arr [1] [CText "a"]).
Proof. split; [vm_compute; reflexivity|split; vm_compute; reflexivity]. Qed.

(* ------------------------------------------------------------------ *)
(** ** C257 the predictions of models of TFLite *)
Theorem C257_one :
  forall fit inputs_of outputs_of invoke f,
    one_model (fun loaded specs e => tflite_predict fit inputs_of outputs_of invoke loaded specs f e) (tflite_outputs fit inputs_of outputs_of invoke f) (batch_size f).
Proof. exact C257_one_pf. Qed.

Theorem C257_several :
  forall fit inputs_of outputs_of invoke f,
    several_models (fun loaded specs e => tflite_predict fit inputs_of outputs_of invoke loaded specs f e) (tflite_outputs fit inputs_of outputs_of invoke f) (batch_size f).
Proof. exact C257_several_pf. Qed.

Theorem C257_refused :
  forall fit inputs_of outputs_of invoke f,
    refuses (fun loaded specs e => tflite_predict fit inputs_of outputs_of invoke loaded specs f e) (tflite_outputs fit inputs_of outputs_of invoke f) (batch_size f).
Proof. exact C257_refused_pf. Qed.

(** The outputs of a model have their names, and are dequantized. *)
Theorem C257_outputs :
  forall fit inputs_of outputs_of invoke f name o, tflite_outputs fit inputs_of outputs_of invoke f name = Ok o -> NoDup (map d_name (outputs_of name)) ->
    exists ts r, invoke name ts = Ok r /\ Forall2 (fun d kv => fst kv = d_name d /\ dequantize d (r (d_index d)) = Ok (snd kv)) (outputs_of name) o.
Proof. exact C257_outputs_pf. Qed.

(** With several models the predictions that were passed in are changed. *)
Theorem C257_given_refuted :
  exists fit inputs_of outputs_of invoke loaded specs f e e1 e2, tflite_predict fit inputs_of outputs_of invoke loaded specs f e = Ok (e1, e2) /\ e1 <> e.
Proof. exact C257_given_refuted_pf. Qed.

Example C257_example :
  let run := tflite_predict (fun _ z => z) (fun _ => []) (fun m => if String.eqb m "b" then [Detail "y" 0 [1; 1] Float32 [] []; Detail "z" 1 [1; 1] Float32 [] []] else [Detail "y" 0 [1; 1] Float32 [] []])
        (fun _ _ => Ok (fun i => Arr [1; 1] [CNum (qz (Z.of_nat i))])) in
  run [""] ["a"] [("x", [Arr [1] [CInt 3]])] [] = Ok ([], [("predictions", Leaf (Arr [1; 1] [CNum 0%Qc]))]) /\
  run ["a"; "b"] ["a"; "b"] [("x", [Arr [1] [CInt 3]])] [] =
    Ok ([], [("predictions", Dict [("a", Leaf (Arr [1; 1] [CNum 0%Qc])); ("b", Dict [("y", Leaf (Arr [1; 1] [CNum 0%Qc])); ("z", Leaf (Arr [1; 1] [CNum 1%Qc]))])])]) /\
  run ["a"] ["a"; "b"] [("x", [Arr [1] [CInt 3]])] [] = Err ValueError /\
  run [""] ["a"] [("x", [Arr [1] [CInt 3]; Arr [1] [CInt 4]])] [] = Err ValueError.
Proof. split; [vm_compute; reflexivity|split; [vm_compute; reflexivity|split; vm_compute; reflexivity]]. Qed.

(* ------------------------------------------------------------------ *)
(** ** C258 the inputs of models of TFJS *)
Theorem C258_inputs :
  forall js_inputs js_outputs binary f name xs, NoDup (dkeys f) -> Forall2 (js_receives f) (js_inputs name) xs ->
    js_run js_inputs js_outputs binary (narrow f) name =
      (let! out := binary name xs in
       foldM (fun acc no => let! a := reshape (Arr [] (snd (snd no))) (fst (snd no)) in Ok (dset String.eqb acc (fst no) a))
         (combine (map before_colon (js_outputs name)) out) []).
Proof. exact C258_inputs_pf. Qed.

(** A feature that is missing, or with more axes than its input, is an error. *)
Theorem C258_refused :
  forall js_inputs js_outputs binary f name o, js_run js_inputs js_outputs binary f name = Ok o ->
    forall i, In i (js_inputs name) -> exists l, dget String.eqb f (before_colon (j_name i)) = Some l /\ forall a, In a l -> length (a_shape a) <= length (j_dim i).
Proof. exact C258_refused_pf. Qed.

(** Larger integers reach the model as other numbers. *)
Theorem C258_int64_refuted :
  exists js_inputs js_outputs f name z, dget String.eqb f "x" = Some (true, [Arr [1] [CInt z]]) /\ js_inputs name = [JsInput "x" [(-1)%Z; 1%Z] false] /\
    forall binary, js_run js_inputs js_outputs binary (narrow f) name =
      (let! out := binary name [JsEntry "x" false (Arr [1; 1] [CInt 0%Z])] in
       foldM (fun acc no => let! a := reshape (Arr [] (snd (snd no))) (fst (snd no)) in Ok (dset String.eqb acc (fst no) a)) (combine (map before_colon (js_outputs name)) out) []) /\ z <> 0%Z.
Proof. exact C258_int64_refuted_pf. Qed.

Example C258_example :
  let run := js_run (fun _ => [JsInput "x:0" [(-1)%Z; 2%Z] true]) (fun _ => ["y:0"]) (fun _ xs => match xs with [JsEntry _ _ a] => Ok [(a_shape a, a_data a)] | _ => Err ValueError end) in
  run (narrow [("x", (true, [Arr [2] [CInt 1; CInt 2]; Arr [2] [CInt (-7); CInt 4]]))]) "m" = Ok [("y", Arr [2; 2] [CInt 1; CInt 2; CInt (-7); CInt 4])] /\
  run (narrow [("z", (true, [Arr [2] [CInt 1; CInt 2]]))]) "m" = Err ValueError /\
  run (narrow [("x", (false, [Arr [1; 1; 2] [CInt 1; CInt 2]]))]) "m" = Err ValueError.
Proof. split; [vm_compute; reflexivity|split; vm_compute; reflexivity]. Qed.

(* ------------------------------------------------------------------ *)
(** ** C259 the predictions of models of TFJS *)
Theorem C259_one :
  forall js_inputs js_outputs binary f,
    one_model (fun loaded specs e => tfjs_predict js_inputs js_outputs binary loaded specs f e) (js_run js_inputs js_outputs binary (narrow f)) (batch_size (narrow f)).
Proof. exact C259_one_pf. Qed.

Theorem C259_several :
  forall js_inputs js_outputs binary f,
    several_models (fun loaded specs e => tfjs_predict js_inputs js_outputs binary loaded specs f e) (js_run js_inputs js_outputs binary (narrow f)) (batch_size (narrow f)).
Proof. exact C259_several_pf. Qed.

Theorem C259_refused :
  forall js_inputs js_outputs binary f,
    refuses (fun loaded specs e => tfjs_predict js_inputs js_outputs binary loaded specs f e) (js_run js_inputs js_outputs binary (narrow f)) (batch_size (narrow f)).
Proof. exact C259_refused_pf. Qed.

(** What the binary writes has the names of the outputs in the order of the signature. *)
Theorem C259_outputs :
  forall js_inputs js_outputs binary f name names outs, (forall xs, binary name xs = Ok outs) -> Forall2 (fun n r => no_colon r /\ (n = r \/ exists k, n = (r ++ ":" ++ k)%string)) (js_outputs name) names ->
    NoDup names -> length outs = length names -> (forall s d, In (s, d) outs -> length d = size s) -> (exists xs, mapM (js_input_value f) (js_inputs name) = Ok xs) ->
    js_run js_inputs js_outputs binary f name = Ok (combine names (map (fun o => Arr (fst o) (snd o)) outs)).
Proof. exact C259_outputs_pf. Qed.

(** Outputs that the binary did not write are left out without an error. *)
Theorem C259_missing_refuted :
  exists js_inputs js_outputs binary f name e e', js_outputs name = ["y"; "z"] /\
    tfjs_predict js_inputs js_outputs binary [name] ["m"] f e = Ok (e, e') /\ dget String.eqb e' "predictions" = Some (Leaf (Arr [1; 1] [CNum (qz 7)])).
Proof. exact C259_missing_refuted_pf. Qed.

Example C259_example :
  let run := tfjs_predict (fun _ => []) (fun m => if String.eqb m "b" then ["y:0"; "z"] else ["y"]) (fun m _ => Ok (if String.eqb m "b" then [([1; 1], [CInt 1]); ([1; 2], [CInt 2; CInt 3])] else [([1; 1], [CInt 4])])) in
  run ["a"; "b"] ["a"; "b"] [("x", (false, [Arr [1] [CInt 3]]))] [] =
    Ok ([], [("predictions", Dict [("a", Leaf (Arr [1; 1] [CInt 4])); ("b", Dict [("y", Leaf (Arr [1; 1] [CInt 1])); ("z", Leaf (Arr [1; 2] [CInt 2; CInt 3]))])])]) /\
  run [""] ["a"] [("x", (false, [Arr [1] [CInt 3]; Arr [1] [CInt 4]]))] [] = Err ValueError.
Proof. split; vm_compute; reflexivity. Qed.

(* ------------------------------------------------------------------ *)
(** ** C260 predictions of models of earlier versions *)
(** One model: its values, weights and predictions are added to each example. *)
Theorem C260_one :
  forall (V : Type) (one : V) fpl c name s elements xs, get_model_spec c name = Some s -> NoDup (dkeys (m_weight_keys s)) -> aligned xs elements -> fetches one s xs ->
    exists result, predict_examples one fpl (Some c) [(name, xs)] elements = Ok result /\ length result = length elements /\
      forall i e x r fx w p, nth_error elements i = Some e -> nth_error xs i = Some x -> nth_error result i = Some r ->
        dget String.eqb (f_values x) "features" = Some (Dict fx) -> spec_weights one s fx w -> dget String.eqb (f_values x) "predictions" = Some p -> updated e x w p r.
Proof. exact C260_one_pf. Qed.

(** Several models: the values and weights of the first, and the predictions of all by name. *)
Theorem C260_several :
  forall (V : Type) (one : V) fpl c name s elements xs more, get_model_spec c name = Some s -> NoDup (dkeys (m_weight_keys s)) -> aligned xs elements -> fetches one s xs ->
    more <> [] -> NoDup (name :: map fst more) -> (forall n ys, In (n, ys) more -> aligned ys elements /\ forall y, In y ys -> dmem String.eqb (f_values y) "predictions" = true) ->
    exists result, predict_examples one fpl (Some c) ((name, xs) :: more) elements = Ok result /\ length result = length elements /\
      forall i e x r fx w, nth_error elements i = Some e -> nth_error xs i = Some x -> nth_error result i = Some r ->
        dget String.eqb (f_values x) "features" = Some (Dict fx) -> spec_weights one s fx w ->
        exists ps, updated e x w (Dict ps) r /\
          Forall2 (fun m np => fst np = fst m /\ exists y, nth_error (snd m) i = Some y /\ dget String.eqb (f_values y) "predictions" = Some (snd np)) ((name, xs) :: more) ps.
Proof. exact C260_several_pf. Qed.

(** Several models without a configuration are an error. *)
Theorem C260_no_config :
  forall (V : Type) (one : V) fpl name x xs more elements, more <> [] -> f_ref x < length elements -> predict_examples one fpl None ((name, x :: xs) :: more) elements = Err ValueError.
Proof. exact C260_no_config_pf. Qed.

(** And a missing feature for the weights. *)
Theorem C260_weights_refused :
  forall (V : Type) (one : V) fpl c name s elements x xs more e fx, get_model_spec c name = Some s -> nth_error elements (f_ref x) = Some e -> NoDup (dkeys (f_values x)) -> dget String.eqb (f_values x) "features" = Some (Dict fx) ->
    m_weight_key s <> "" -> ~ In (m_weight_key s) (dkeys fx) -> predict_examples one fpl (Some c) ((name, x :: xs) :: more) elements = Err ValueError.
Proof. exact C260_weights_refused_pf. Qed.

(** The weights of the other models' specs are not there. *)
Theorem C260_weights_refuted :
  exists c elements models result e, get_model_spec c "b" <> None /\ (forall s, get_model_spec c "b" = Some s -> m_weight_key s = "wb") /\ predict_examples 0%Z (fun _ => Leaf 0%Z) (Some c) models elements = Ok result /\ nth_error result 0 = Some e /\
    dget String.eqb e "features" = Some (Dict [("wa", Leaf 3%Z); ("wb", Leaf 5%Z)]) /\ dget String.eqb e "example_weights" = Some (Leaf 3%Z).
Proof. exact C260_weights_refuted_pf. Qed.

(** Predictions are put together by position: those of another example if a model left one out. *)
Theorem C260_position_refuted :
  exists c elements xs ys result e y, predict_examples 0%Z (fun _ => Leaf 0%Z) (Some c) [("a", xs); ("b", ys)] elements = Ok result /\ In y ys /\ f_ref y = 1 /\ (forall y', In y' ys -> f_ref y' <> 0) /\
    nth_error result 0 = Some e /\ dget String.eqb e "input" = Some (Leaf 9%Z) /\ nth_error elements 0 = Some [("input", Leaf 9%Z)] /\
    exists p, dget String.eqb (f_values y) "predictions" = Some p /\ dget String.eqb e "predictions" = Some (Dict [("a", Leaf 1%Z); ("b", p)]).
Proof. exact C260_position_refuted_pf. Qed.

Example C260_example :
  let f := Dict [("wa", Leaf 3%Z); ("wb", Leaf 5%Z)] in
  predict_examples 0%Z (fun _ => Leaf 0%Z) (Some legacy_config) [("a", [Fetched 0 [("features", f); ("predictions", Leaf 1%Z); ("extra", Leaf 4%Z)]]); ("b", [Fetched 0 [("features", f); ("predictions", Leaf 2%Z)]])] [[("input", Leaf 9%Z)]] =
    Ok [[("input", Leaf 9%Z); ("features", f); ("predictions", Dict [("a", Leaf 1%Z); ("b", Leaf 2%Z)]); ("extra", Leaf 4%Z); ("example_weights", Leaf 3%Z)]] /\
  predict_examples 0%Z (fun _ => Leaf 7%Z) None [("", [Fetched 0 [("features", f); ("predictions", Leaf 1%Z); ("extra", Leaf 4%Z)]])] [[("input", Leaf 9%Z)]] = Ok [[("input", Leaf 9%Z); ("extra", Leaf 4%Z); ("fpl", Leaf 7%Z)]].
Proof. split; vm_compute; reflexivity. Qed.

(* ------------------------------------------------------------------ *)
(** ** C261 batches of earlier versions *)
(** Each key of a batch has the values of the examples that have it, in order: one for each example if all have. *)
Theorem C261_wrapped :
  forall (V : Type) (l : list (@example V)) k, (forall e, In e l -> NoDup (dkeys e)) ->
    (In k (dkeys (wrap_batched l)) <-> exists e, In e l /\ In k (dkeys e)) /\
    ((forall e, In e l -> In k (dkeys e)) -> l <> [] -> exists vs, dget String.eqb (wrap_batched l) k = Some vs /\ Forall2 (fun e v => dget String.eqb e k = Some v) l vs).
Proof. exact C261_wrapped_pf. Qed.

(** If some examples lack a key, its values are not at the positions of their examples. *)
Theorem C261_positions_refuted :
  exists (l : list (@example Z)) k vs i e v, dget String.eqb (wrap_batched l) k = Some vs /\ nth_error l i = Some e /\ nth_error vs i = Some v /\ dget String.eqb e k <> Some v.
Proof. exact C261_positions_refuted_pf. Qed.

(** The examples of a batch are those of the raw record column. *)
Theorem C261_batch :
  forall (V : Type) (one : V) fpl c name s raw others xs, get_model_spec c name = Some s -> NoDup (dkeys (m_weight_keys s)) -> raw <> [] -> aligned xs (map (fun v : V => [("input", Leaf v)] : @example V) raw) -> fetches one s xs ->
    exists b, legacy_batch one fpl c (fun _ => [(name, xs)]) (Some raw) others = Ok b /\
      dget String.eqb b "predictions" = Some (map (fun x => match dget String.eqb (f_values x) "predictions" with Some p => p | None => Leaf one end) xs) /\
      ((forall x, In x xs -> ~ In "input" (dkeys (f_values x))) -> dget String.eqb b "input" = Some (map Leaf raw)).
Proof. exact C261_batch_pf. Qed.

(** The other extracts of the batch are lost. *)
Theorem C261_others_refuted :
  exists c raw others k predict b, In k (dkeys others) /\ legacy_batch 0%Z (fun _ => Leaf 0%Z) c predict (Some raw) others = Ok b /\ ~ In k (dkeys b).
Proof. exact C261_others_refuted_pf. Qed.

Example C261_example :
  legacy_batch 0%Z (fun _ => Leaf 0%Z) legacy_config (fun es => [("a", [Fetched 0 [("features", Dict [("wa", Leaf 3%Z)]); ("predictions", Leaf 1%Z)]; Fetched 1 [("features", Dict [("wa", Leaf 4%Z)]); ("predictions", Leaf 2%Z)]])]) (Some [8%Z; 9%Z]) [] =
    Ok [("input", [Leaf 8%Z; Leaf 9%Z]); ("features", [Dict [("wa", Leaf 3%Z)]; Dict [("wa", Leaf 4%Z)]]); ("predictions", [Leaf 1%Z; Leaf 2%Z]); ("example_weights", [Leaf 3%Z; Leaf 4%Z])] /\
  legacy_batch 0%Z (fun _ => Leaf 0%Z) legacy_config (fun es => []) None [] = Err AssertionError.
Proof. split; vm_compute; reflexivity. Qed.

(* ------------------------------------------------------------------ *)
(** ** C262 the keys of metrics of Keras *)
Theorem C262_keys :
  forall model outputs ms keys, keras_keys ms model outputs = keys ->
    length keys = length ms /\
    forall i m k, nth_error ms i = Some m -> nth_error keys i = Some k ->
      sub_key_for m (k_sub k) /\ k_model k = model /\
      ((forall o name, In o outputs -> ~ named_for o m name) -> k_name k = km_label m /\ k_output k = "") /\
      (forall o name, In o outputs -> named_for o m name -> (forall o' name', In o' outputs -> named_for o' m name' -> o' = o) -> (forall r, name <> (o ++ "_" ++ r)%string) ->
         k_name k = name /\ k_output k = o).
Proof. exact C262_keys_pf. Qed.

(** A metric of one output may be taken for one of another output whose name it begins with. *)
Theorem C262_other_output_refuted :
  exists outputs o name m model, In o outputs /\ named_for o m name /\ k_output (keras_key model outputs m) <> o /\ k_output (keras_key model outputs m) <> "".
Proof. exact C262_other_output_refuted_pf. Qed.

(** A metric whose own name begins so loses that, and its key may be another metric's. *)
Theorem C262_name_refuted :
  exists outputs o name m m' model, outputs = [o] /\ named_for o m name /\ km_label m <> km_label m' /\ k_name (keras_key model outputs m) <> name /\ keras_key model outputs m = keras_key model outputs m'.
Proof. exact C262_name_refuted_pf. Qed.

Example C262_example :
  keras_keys [KMetric "loss" None None; KMetric "out_auc" None None; KMetric "other_recall" (Some 3%Z) (Some 2); KMetric "other_precision" None (Some 2)] "m" ["out"; "other"] =
    [MetricKey "loss" "m" "" None None None false; MetricKey "auc" "m" "out" None None None false;
     MetricKey "recall" "m" "other" (Some (SubKey (Some 3%Z) None None)) None None false; MetricKey "precision" "m" "other" (Some (SubKey None None (Some 2))) None None false].
Proof. vm_compute. reflexivity. Qed.

(* ------------------------------------------------------------------ *)
(** ** C263 the metrics of Keras models *)
(** Compiled metrics are used when they are all the metrics, otherwise evaluate with the inputs of the model. *)
Theorem C263_choice :
  forall model m, let keys l := keras_keys l model (match ks_output_names m with Some o => o | None => [] end) in
    (ks_metrics m = [] -> keras_computations model m = []) /\
    (ks_metrics m <> [] -> forall a b, ks_compiled_metrics m = Some a -> ks_compiled_loss m = Some b -> length a + length b = length (ks_metrics m) -> keras_computations model m = [CompiledMetrics (keys (a ++ b))]) /\
    (ks_metrics m <> [] -> (forall a b, ks_compiled_metrics m = Some a -> ks_compiled_loss m = Some b -> length a + length b <> length (ks_metrics m)) -> keras_computations model m = [Evaluate (keys (ks_metrics m)) (ks_inputs m)]).
Proof. exact C263_choice_pf. Qed.

(** Metrics whose weights are sums do not depend on batches, bundles and compaction; without examples they are reset. *)
Theorem C263_schedule :
  forall (E R : Type) (row_of : E -> res R) keys update zero value flush (good : R -> Prop) width part,
    NoDup keys -> enough_slots keys ->
    (forall l, l <> [] -> Forall good l -> update l = Ok (map (fun i => sums (width i) (part i) l) (seq 0 (length keys)))) ->
    (forall s rows, mapM row_of (inputs s) = Ok rows -> Forall good rows ->
       outcome (k_combiner row_of keys update zero value flush) s = Ok (expected_values keys zero value width part rows)) /\
    (forall s rows, mapM row_of (keep_rows (inputs s)) = Ok rows -> Forall good rows ->
       outcome (compacting row_of keys update zero value flush) s = Ok (expected_values keys zero value width part rows)).
Proof. exact C263_schedule_pf. Qed.

(** Metrics of several outputs, with none of all outputs together, cannot be computed. *)
Theorem C263_several_outputs_refuted :
  exists keys, NoDup keys /\ length keys = 2 /\ forall (value : nat -> list Qc -> num) zero (w : nat -> list Qc) (x : Z),
    outcome (k_combiner (fun e : Z => Ok e) keys (fun _ => Ok [w 0; w 1]) zero value (fun _ => false)) (Bundle [x]) = Err IndexError.
Proof. exact C263_several_outputs_refuted_pf. Qed.

Example C263_example :
  outcome (ex_kcombiner (fun l => Nat.leb 2 (length l))) (Merge (Bundle [1%Z; 2%Z; 4%Z]) [Bundle []; Bundle [8%Z]]) = Ok [(MetricKey "loss" "" "" None None None false, Fin (qz 15)); (MetricKey "mean" "" "a" None None None false, Fin (qz 4))] /\
  outcome (ex_kcombiner (fun _ => false)) (Bundle []) = Ok [(MetricKey "loss" "" "" None None None false, Fin 0%Qc); (MetricKey "mean" "" "a" None None None false, Fin 0%Qc)] /\
  keras_computations "" (KModel [KMetric "loss" None None; KMetric "a_mean" None None] (Some [KMetric "a_mean" None None]) (Some [KMetric "loss" None None]) (Some ["a"; "b"]) ["x"]) =
    [CompiledMetrics [MetricKey "mean" "" "a" None None None false; MetricKey "loss" "" "" None None None false]].
Proof. split; [vm_compute; qc_ex|split; [vm_compute; qc_ex|reflexivity]]. Qed.

Print Assumptions C255_names.
Print Assumptions C255_inputs.
Print Assumptions C255_default_refuted.
Print Assumptions C255_same_name_refuted.
Print Assumptions C256_exact.
Print Assumptions C256_error.
Print Assumptions C256_nearest_refuted.
Print Assumptions C257_one.
Print Assumptions C257_several.
Print Assumptions C257_refused.
Print Assumptions C257_outputs.
Print Assumptions C257_given_refuted.
Print Assumptions C258_inputs.
Print Assumptions C258_refused.
Print Assumptions C258_int64_refuted.
Print Assumptions C259_one.
Print Assumptions C259_several.
Print Assumptions C259_refused.
Print Assumptions C259_outputs.
Print Assumptions C259_missing_refuted.
Print Assumptions C260_one.
Print Assumptions C260_several.
Print Assumptions C260_no_config.
Print Assumptions C260_weights_refused.
Print Assumptions C260_weights_refuted.
Print Assumptions C260_position_refuted.
Print Assumptions C261_wrapped.
Print Assumptions C261_positions_refuted.
Print Assumptions C261_batch.
Print Assumptions C261_others_refuted.
Print Assumptions C262_keys.
Print Assumptions C262_other_output_refuted.
Print Assumptions C262_name_refuted.
Print Assumptions C263_choice.
Print Assumptions C263_schedule.
Print Assumptions C263_several_outputs_refuted.
