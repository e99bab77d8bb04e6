(* Inputs *)
From Coq Require Import String Ascii Sorting.Sorted.
From Verif Require Import Base BaseFacts Beam BeamFacts Util_Model Inputs_Model.
From Verif Require Import Inputs_Main.
Local Open Scope string_scope.
Local Open Scope list_scope.

(* ------------------------------------------------------------------ *)
(** ** C52 *)
(** Splitting one example: every piece keeps the prediction and has label 0 or 1
    and a non-zero weight; weight and weighted label are conserved; a label
    outside [0,1] (up to the tolerance 1e-7) is rejected. *)
Theorem C52_fractional_split_conserves :
  forall l p w,
    ((- EPSILON <= l)%Qc /\ (l <= 1 + EPSILON)%Qc ->
     exists ys, fractional ([l], p, [w]) = Ok ys /\
       (forall y, In y ys -> exists b v, y = ([b], p, [v]) /\ (b = 0%Qc \/ b = 1%Qc) /\ v <> 0%Qc) /\
       qsum (map tuple_weight ys) = w /\
       qsum (map tuple_weighted_label ys) = (w * l)%Qc /\
       ((0 <= l)%Qc -> (l <= 1)%Qc -> (0 <= w)%Qc -> forall y, In y ys -> (0 < tuple_weight y)%Qc) /\
       length ys <= 2) /\
    (~ ((- EPSILON <= l)%Qc /\ (l <= 1 + EPSILON)%Qc) -> fractional ([l], p, [w]) = Err ValueError).
Proof. exact C52_fractional_split_conserves_pf. Qed.

Example C52_example :
  fractional ([Q2Qc (1#4)], [Fin (Q2Qc (7#10))], [qz 2]) =
    Ok [([0%Qc], [Fin (Q2Qc (7#10))], [Q2Qc (3#2)]); ([1%Qc], [Fin (Q2Qc (7#10))], [Q2Qc (1#2)])] /\
  fractional ([1%Qc], [Fin 0%Qc], [qz 2]) = Ok [([1%Qc], [Fin 0%Qc], [qz 2])] /\
  fractional ([qz 2], [Fin 0%Qc], [qz 2]) = Err ValueError.
Proof. repeat split; qc_ex. Qed.

(* ------------------------------------------------------------------ *)
(** ** C53 *)
Theorem C53_argpartition_satisfiable : argpartition_ok ap_sort.
Proof. exact C53_argpartition_satisfiable_pf. Qed.

(** With aggregation, the k largest predictions are kept together with their
    labels and everything dropped is no larger than anything kept. *)
Theorem C53_top_k_keeps_best :
  forall ap label pred k,
    argpartition_ok ap -> length label = length pred -> ~ In NaN pred -> 1 <= k <= length pred ->
    exists l p rest,
      apply_sub_key ap (SubKey None None (Some k)) true label pred = Ok (l, p) /\
      length l = k /\ length p = k /\
      Permutation (combine l p ++ rest) (combine label pred) /\
      forall x y, In x p -> In y (map snd rest) -> num_leb y x = true.
Proof. exact C53_top_k_keeps_best_pf. Qed.

(** 'k' returns the k-th largest prediction (fewer than k are strictly larger, at
    least k are as large) with the label at the same position. *)
Theorem C53_kth_is_kth_largest :
  forall ap label pred k,
    argpartition_ok ap -> length label = length pred -> ~ In NaN pred -> 1 <= k <= length pred ->
    exists l p,
      apply_sub_key ap (SubKey None (Some k) None) false label pred = Ok ([l], [p]) /\
      In (l, p) (combine label pred) /\
      count (fun y => num_ltb p y) pred < k /\ k <= count (fun y => num_leb p y) pred.
Proof. exact C53_kth_is_kth_largest_pf. Qed.

(** Without aggregation, k positions keep their prediction, all others become
    -inf, and no overwritten prediction was larger than a kept one. *)
Theorem C53_top_k_masks_rest :
  forall ap label pred k,
    argpartition_ok ap -> ~ In NaN pred -> 1 <= k <= length pred ->
    exists kept p,
      apply_sub_key ap (SubKey None None (Some k)) false label pred = Ok (label, p) /\
      NoDup kept /\ length kept = k /\ (forall i, In i kept -> i < length pred) /\
      length p = length pred /\
      (forall i, i < length pred ->
         (In i kept -> nth i p NaN = nth i pred NaN) /\ (~ In i kept -> nth i p NaN = NegInf)) /\
      (forall i j, i < length pred -> ~ In i kept -> In j kept ->
         num_leb (nth i pred NaN) (nth j pred NaN) = true).
Proof. exact C53_top_k_masks_rest_pf. Qed.

(** Asking for more classes than there are is an error. *)
Theorem C53_too_few_classes_rejected :
  forall ap label pred k agg, length pred < k ->
    apply_sub_key ap (SubKey None None (Some k)) agg label pred = Err ValueError /\
    apply_sub_key ap (SubKey None (Some k) None) agg label pred = Err ValueError.
Proof. exact C53_too_few_classes_rejected_pf. Qed.

Example C53_example :
  apply_sub_key ap_sort (SubKey None None (Some 2)) true [0%Qc; 0%Qc; 1%Qc; 1%Qc] ex_pred =
    Ok ([1%Qc; 0%Qc], [Fin (Q2Qc (5#10)); Fin (Q2Qc (6#10))]) /\
  apply_sub_key ap_sort (SubKey None (Some 3) None) false [qz 2] ex_pred =
    Ok ([0%Qc], [Fin (Q2Qc (3#10))]) /\
  apply_sub_key ap_sort (SubKey None None (Some 2)) false [qz 2] ex_pred =
    Ok ([qz 2], [NegInf; Fin (Q2Qc (6#10)); NegInf; Fin (Q2Qc (5#10))]).
Proof. repeat split; qc_ex. Qed.

(* ------------------------------------------------------------------ *)
(** ** C57 *)
(** Giving the class id or the one-hot vector yields the same tuples, for every
    sub key, weighting, class weighting and label splitting. *)
Theorem C57_sparse_equals_one_hot :
  forall ap o c pred w,
    o_flatten o = true -> c < length pred -> 2 <= length pred ->
    yield_tuples ap o (Some [qz (Z.of_nat c)]) (Some pred) w =
    yield_tuples ap o (Some (indicator (length pred) c)) (Some pred) w.
Proof. exact C57_sparse_equals_one_hot_pf. Qed.

Example C57_example :
  yield_tuples ap_sort plain (Some [qz 1]) (Some [Fin (Q2Qc (3#10)); Fin (Q2Qc (6#10)); Fin (Q2Qc (1#10))]) [qz 5] =
    Ok [([0%Qc], [Fin (Q2Qc (3#10))], [qz 5]); ([1%Qc], [Fin (Q2Qc (6#10))], [qz 5]);
        ([0%Qc], [Fin (Q2Qc (1#10))], [qz 5])] /\
  yield_tuples ap_sort top2 (Some [qz 1]) (Some [Fin (Q2Qc (3#10)); Fin (Q2Qc (6#10)); Fin (Q2Qc (1#10))]) [1%Qc] =
    Ok [([0%Qc], [Fin (Q2Qc (3#10))], [1%Qc]); ([1%Qc], [Fin (Q2Qc (6#10))], [1%Qc])].
Proof. split; qc_ex. Qed.

(* ------------------------------------------------------------------ *)
(** ** C58 *)
(** Refuted: with three classes, class id 3 is silently treated as "no class" and
    class id -2 as class 2. *)
Theorem C58_invalid_class_rejected_refuted :
  exists ap pred,
    length pred = 3 /\
    yield_tuples ap plain (Some [qz 3]) (Some pred) [1%Qc] =
      Ok (map (fun p => ([0%Qc], [p], [1%Qc])) pred) /\
    yield_tuples ap plain (Some [qz (-2)]) (Some pred) [1%Qc] =
      yield_tuples ap plain (Some [qz 2]) (Some pred) [1%Qc].
Proof. exact C58_invalid_class_rejected_refuted_pf. Qed.

(** Class ids above the number of classes, or below -(number of classes + 1), are
    rejected. *)
Theorem C58_far_class_rejected_partial :
  forall ap pred z w,
    2 <= length pred -> (Z.of_nat (length pred) < z \/ z < - Z.of_nat (S (length pred)))%Z ->
    yield_tuples ap plain (Some [qz z]) (Some pred) [w] = Err ValueError.
Proof. exact C58_far_class_rejected_partial_pf. Qed.

Example C58_example :
  yield_tuples ap_sort plain (Some [qz 4]) (Some [Fin 0%Qc; Fin 1%Qc; Fin 0%Qc]) [1%Qc] = Err ValueError.
Proof. reflexivity. Qed.

(* ------------------------------------------------------------------ *)
(** ** C59 *)
(** Flattening a dense example: the i-th tuple carries the i-th label, the i-th
    prediction and the example's weight (or the i-th weight). *)
Theorem C59_flatten_pairs_classes :
  forall ap o label pred w,
    o_flatten o = true -> o_sub_key o = None -> o_class_weights o = None -> o_fractional o = false ->
    o_single_weight o = false ->
    length label = length pred -> pred <> [] -> (length w = 1 \/ length w = length pred) ->
    exists ys, yield_tuples ap o (Some label) (Some pred) w = Ok ys /\ length ys = length pred /\
      forall i, i < length pred ->
        nth_error ys i = Some ([nth i label 0%Qc], [nth i pred NaN],
                               [if Nat.eqb (length w) 1 then nth 0 w 0%Qc else nth i w 0%Qc]).
Proof. exact C59_flatten_pairs_classes_pf. Qed.

(** With class weights the weight of class i is multiplied by the weight given for class i, and
    is 0 if none is given. *)
Theorem C59_class_weights :
  forall ap o cw label pred w,
    o_flatten o = true -> o_sub_key o = None -> o_class_weights o = Some cw -> cw <> [] -> o_fractional o = false ->
    o_single_weight o = false ->
    length label = length pred -> pred <> [] -> (length w = 1 \/ length w = length pred) ->
    exists ys, yield_tuples ap o (Some label) (Some pred) w = Ok ys /\ length ys = length pred /\
      forall i, i < length pred ->
        let wi := if Nat.eqb (length w) 1 then nth 0 w 0%Qc else nth i w 0%Qc in
        exists v, nth_error ys i = Some ([nth i label 0%Qc], [nth i pred NaN], [v]) /\
          (forall c, (exists before after, cw = before ++ (i, c) :: after /\ ~ In i (map fst before)) -> v = (wi * c)%Qc) /\
          (~ In i (map fst cw) -> v = 0%Qc).
Proof. exact C59_class_weights_pf. Qed.

Example C59_class_weights_ex :
  yield_tuples ap_sort (Options None false (Some [(1, qz 5)]) true false true false false)
     (Some [0%Qc; 1%Qc]) (Some [Fin (Q2Qc (1#2)); Fin (Q2Qc (1#3))]) [qz 2] =
   Ok [([0%Qc], [Fin (Q2Qc (1#2))], [0%Qc]); ([1%Qc], [Fin (Q2Qc (1#3))], [qz 10])].
Proof. qc_ex. Qed.

(** Refuted: "the example weight will always be non-empty" fails for an example
    with neither label nor prediction. *)
Theorem C59_weight_never_empty_refuted :
  exists ap o, o_allow_none o = true /\
    yield_tuples ap o None None [1%Qc] = Ok [([], [], [])].
Proof. exact C59_weight_never_empty_refuted_pf. Qed.

Example C59_example :
  yield_tuples ap_sort (Options None false None true false true false false)
     (Some [0%Qc; 1%Qc]) (Some [Fin (Q2Qc (1#2)); Fin (Q2Qc (1#3))]) [qz 2; qz 3] =
   Ok [([0%Qc], [Fin (Q2Qc (1#2))], [qz 2]); ([1%Qc], [Fin (Q2Qc (1#3))], [qz 3])].
Proof. qc_ex. Qed.

Print Assumptions C52_fractional_split_conserves.
Print Assumptions C53_argpartition_satisfiable.
Print Assumptions C53_top_k_keeps_best.
Print Assumptions C53_kth_is_kth_largest.
Print Assumptions C53_top_k_masks_rest.
Print Assumptions C53_too_few_classes_rejected.
Print Assumptions C57_sparse_equals_one_hot.
Print Assumptions C58_invalid_class_rejected_refuted.
Print Assumptions C58_far_class_rejected_partial.
Print Assumptions C59_flatten_pairs_classes.
Print Assumptions C59_class_weights.
Print Assumptions C59_weight_never_empty_refuted.
