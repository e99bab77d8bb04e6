(* Native *)
From Coq Require Import String Ascii Permutation.
From Verif Require Import Base BaseFacts Util_Model Keys_Model Inputs_Model Ranking_Model Ranking_Main Batches_Model Batches_Main Keras_Model Predict_Model Native_Model.
From Verif Require Import Native_Main.
Local Open Scope string_scope.
Local Open Scope list_scope.

(** ** Specification *)
(** ** Lemmas *)
Theorem C318_own_labels_and_weights :
  forall (V X : Type) argpartition label_key prediction_key model_name keys (get_inputs : data (leaf V) -> res (option X)) es rows c,
    mapM (evaluate_row argpartition label_key prediction_key model_name keys) es = Ok rows ->
    evaluate_call keys get_inputs rows = Ok c ->
    forall o, asked keys o ->
      exists L W, arg_for (c_y c) o L /\ arg_for (c_sample_weight c) o W /\ length L = length es /\
        forall j e, nth_error es j = Some e ->
          exists l p w ys,
            to_label_prediction_example_weight argpartition (Options None false None true false false false false)
              label_key prediction_key model_name o (el_inputs e) = Ok ((l, p, w) :: ys) /\
            nth_error L j = Some l /\ weights_at W j w.
Proof. exact C318_own_labels_and_weights_pf. Qed.

Theorem C318_outputs :
  forall (V X : Type) argpartition label_key prediction_key model_name keys (get_inputs : data (leaf V) -> res (option X)) es rows c,
    mapM (evaluate_row argpartition label_key prediction_key model_name keys) es = Ok rows ->
    evaluate_call keys get_inputs rows = Ok c ->
    ((exists o, forall x, In x (map k_output keys) <-> x = o) <-> exists L, c_y c = Single L) /\
    (forall d, c_y c = ByOutput d -> NoDup (map fst d) /\ forall o, In o (map fst d) -> asked keys o).
Proof. exact C318_outputs_pf. Qed.

(** ** The features of a batch *)
Theorem C319_features :
  forall (V X : Type) argpartition label_key prediction_key model_name keys (get_inputs : data (leaf V) -> res (option X)) es rows c,
    mapM (evaluate_row argpartition label_key prediction_key model_name keys) es = Ok rows ->
    evaluate_call keys get_inputs rows = Ok c ->
    exists fs merged, length fs = length es /\ merge_extracts fs true = Ok merged /\ get_inputs merged = Ok (Some (c_x c)) /\
      forall j e f, nth_error es j = Some e -> nth_error fs j = Some f ->
        (el_transformed e = None -> f = el_features e) /\
        forall t k, el_transformed e = Some t -> NoDup (map fst t) ->
          dget String.eqb f k = match dget String.eqb t k with Some v => Some v | None => dget String.eqb (el_features e) k end.
Proof. exact C319_features_pf. Qed.

Theorem C319_one_batch :
  forall (V X : Type) argpartition label_key prediction_key model_name keys (get_inputs : data (leaf V) -> res (option X)) es rows c,
    mapM (evaluate_row argpartition label_key prediction_key model_name keys) es = Ok rows ->
    evaluate_call keys get_inputs rows = Ok c ->
    c_batch_size c = Some (length es) \/ c_batch_size c = None.
Proof. exact C319_one_batch_pf. Qed.

(** Batches are refused rather than evaluated without an input of the model. *)
Theorem C319_missing_inputs :
  forall (V X : Type) keys (get_inputs : data (leaf V) -> res (option X)) rows merged c,
    merge_extracts (map r_features rows) true = Ok merged -> get_inputs merged = Ok None -> evaluate_call keys get_inputs rows <> Ok c.
Proof. exact C319_missing_inputs_pf. Qed.

Example C318_example :
  (let! rows := mapM (evaluate_row (fun _ _ => []) "" "" "" two_keys) two_examples in
   evaluate_call two_keys (fun m => Ok (Some m)) rows) =
  Ok (Call (Dict [("x", Leaf (Dense (Batches_Model.Arr [2] [5; 9]))); ("y", Leaf (Dense (Batches_Model.Arr [2] [6; 8])))])
        (ByOutput [("left", [[1%Qc]; [qz 3]]); ("right", [[qz 2]; [qz 4]])]) (Some 2)
        (ByOutput [("left", PerExample [qz 3; qz 7]); ("right", PerExample [qz 3; qz 7])])).
Proof. vm_compute. reflexivity. Qed.

Example C319_example :
  (let! rows := mapM (evaluate_row (fun _ _ => []) "" "" "" two_keys) two_examples in
   let! c := evaluate_call two_keys (fun m => Ok (match m with Dict d => dget String.eqb d "x" | Leaf _ => None end)) rows in
   Ok (c_x c, c_batch_size c)) = Ok (Leaf (Dense (Batches_Model.Arr [2] [5; 9])), Some 2) /\
  (let! rows := mapM (evaluate_row (fun _ _ => []) "" "" "" two_keys) two_examples in
   evaluate_call two_keys (fun m => Ok (match m with Dict d => dget String.eqb d "z" | Leaf _ => None end)) rows) = Err ValueError.
Proof. split; vm_compute; reflexivity. Qed.

(** ** C320 *)
Theorem C320_rows_partial :
  forall argpartition label_key prediction_key model_name keys padding label_is_int prediction_is_int es rows a,
    mapM (compiled_row argpartition label_key prediction_key model_name keys) es = Ok rows ->
    compiled_call keys padding label_is_int prediction_is_int rows = Ok a ->
    exists width, longest (lengths_of argpartition label_key prediction_key model_name (asked keys) es) width /\
      forall o, asked keys o -> exists col, arg_for a o col /\ length col = length es /\
        forall j e, nth_error es j = Some e -> exists y ys y',
          to_label_prediction_example_weight argpartition (Options None false None true false false false false)
            label_key prediction_key model_name o e = Ok (y :: ys) /\
          nth_error col j = Some y' /\ row_for padding width y y'.
Proof. exact C320_rows_partial_pf. Qed.

(** Outputs are padded to the longest of all outputs, not to their own. *)
Theorem C320_own_width_refuted :
  exists argpartition label_key prediction_key model_name keys padding es rows d o col y,
    mapM (compiled_row argpartition label_key prediction_key model_name keys) es = Ok rows /\
    compiled_call keys (Some padding) false false rows = Ok (ByOutput d) /\
    asked keys o /\ In (o, col) d /\ In y col /\
    longest (lengths_of argpartition label_key prediction_key model_name (fun x => x = o) es) 1 /\ length (fst (fst y)) = 2.
Proof. exact C320_own_width_refuted_pf. Qed.

Example C320_example :
  (let! rows := mapM (compiled_row (fun _ _ => []) "" "" "" two_keys) [two_outputs 1 2; two_outputs 3 4] in
   compiled_call two_keys None false false rows) =
  Ok (ByOutput [("left", [([1%Qc], [Fin 1%Qc], [qz 3]); ([qz 3], [Fin (qz 3)], [qz 7])]);
                ("right", [([qz 2], [Fin (qz 2)], [qz 3]); ([qz 4], [Fin (qz 4)], [qz 7])])]).
Proof. vm_compute. reflexivity. Qed.

Theorem C320_outputs :
  forall keys padding label_is_int prediction_is_int rows a,
    compiled_call keys padding label_is_int prediction_is_int rows = Ok a ->
    ((exists o, forall x, In x (map k_output keys) <-> x = o) <-> exists c, a = Single c) /\
    (forall d, a = ByOutput d -> NoDup (map fst d) /\ forall o, In o (map fst d) -> asked keys o).
Proof. exact C320_outputs_pf. Qed.

Print Assumptions C318_own_labels_and_weights.
Print Assumptions C318_outputs.
Print Assumptions C319_features.
Print Assumptions C319_one_batch.
Print Assumptions C319_missing_inputs.
Print Assumptions C320_rows_partial.
Print Assumptions C320_own_width_refuted.
Print Assumptions C320_outputs.
