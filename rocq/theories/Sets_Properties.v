(* Sets *)
From Coq Require Import String Ascii Sorted Reals Lra.
From Verif Require Import Base BaseFacts Beam BeamFacts Util_Model Util_Main Keys_Model Inputs_Model Inputs_Main Sums_Model Sums_Main Batches_Model Histogram_Model Histogram_Main Confusion_Model Confusion_Main Rates_Model Evaluator_Model Evaluator_Main Keras_Main Classes_Main Text_Main Detection_Model Detection_Main Sets_Model.
From Verif Require Import Sets_Main.
Local Open Scope string_scope.
Local Open Scope list_scope.

(* ------------------------------------------------------------------ *)
(** ** C220 pairs of a set of labels and a set of predictions *)
Theorem C220_set_pairs order st e x k : holds st e x -> sm_top_k st = option_map Z.of_nat k -> (forall l, Permutation (order l) l) ->
  exists ps, set_match_process order st e = Ok ps /\ Permutation (map fst ps) (map snd (expected_set_pairs k x)).
Proof. exact (C220_set_pairs_pf order st e x k). Qed.

Example C220_example :
  set_match_process (fun l => l) (by_scores (Some 2%Z)) (of_cats ["cat"; "dog"; "cat"] ["cat"; "bird"; "dog"] [Fin (Q2Qc (3 # 4)); Fin (Q2Qc (1 # 2)); Fin (Q2Qc (1 # 4))]) =
    Ok [(1%Qc, Fin (Q2Qc (3 # 4)), None); (1%Qc, NegInf, None); (0%Qc, Fin (Q2Qc (1 # 2)), None)] /\
  expected_set_pairs (Some 2) (SetExample ["cat"; "dog"; "cat"] ["cat"; "bird"; "dog"] [Fin (Q2Qc (3 # 4)); Fin (Q2Qc (1 # 2)); Fin (Q2Qc (1 # 4))] None []) =
    [("dog", (1%Qc, NegInf)); ("cat", (1%Qc, Fin (Q2Qc (3 # 4)))); ("bird", (0%Qc, Fin (Q2Qc (1 # 2))))].
Proof. split; vm_compute; reflexivity. Qed.

(* ------------------------------------------------------------------ *)
(** ** C221 weights of examples and classes *)
Theorem C221_weights_of_pairs_partial order st e x k : holds st e x -> sm_top_k st = option_map Z.of_nat k -> (forall l, Permutation (order l) l) ->
  se_weight x <> Some 0%Qc ->
  exists ps, set_match_process order st e = Ok ps /\
    Permutation ps (map (fun cp => (fst (snd cp), snd (snd cp),
      if match se_weight x, se_class_weights x with None, [] => true | _, _ => false end then None else Some (weight_of x (fst cp))))
      (expected_set_pairs k x)).
Proof. exact (C221_weights_of_pairs_partial_pf order st e x k). Qed.

Theorem C221_weight_zero_refuted : exists st e x s,
  holds st e x /\ se_weight x = Some 0%Qc /\ weight_of x "cat" = 0%Qc /\
  set_match_process (fun l => l) st e = Ok [(1%Qc, s, None)] /\
  (* counted fully, whether or not weights are used *)
  forall ap, set_match_matrices ap [Fin (Q2Qc (1 # 2))] true "" "" "" (Bundle (map set_input [(1%Qc, s, None)])) =
    Ok (Matrices [Fin (Q2Qc (1 # 2))] [1%Qc] [0%Qc] [0%Qc] [0%Qc]).
Proof. exact C221_weight_zero_refuted_pf. Qed.

(* ------------------------------------------------------------------ *)
(** ** C222 the classes of the highest scores *)
(** With the scores listed from the highest to the lowest, a class that is listed is paired
    with its score or its score is at most each of those that are. *)
Theorem C222_highest_scores_partial order st e x k : holds st e x -> sm_top_k st = Some (Z.of_nat k) -> (forall l, Permutation (order l) l) ->
  NoDup (se_classes x) -> falling (se_scores x) -> ~ In NegInf (se_scores x) ->
  exists ps, set_match_process order st e = Ok ps /\
    let listed := filter (fun p => negb (num_eqb (snd (fst p)) NegInf)) ps in
    length listed = Nat.min k (length (se_classes x)) /\
    forall c s, In (c, s) (combine (se_classes x) (se_scores x)) ->
      In ((if existsb (String.eqb c) (se_labels x) then 1 else 0)%Qc, s) (map fst listed) \/
      forall p, In p listed -> num_ltb (snd (fst p)) s = false.
Proof. exact (C222_highest_scores_partial_pf order st e x k). Qed.

(** Otherwise the first are kept. *)
Theorem C222_highest_scores_refuted : exists order e x ps,
  (forall l : list string, Permutation (order l) l) /\ holds (by_scores (Some 1%Z)) e x /\
  set_match_process order (by_scores (Some 1%Z)) e = Ok ps /\
  se_labels x = ["cat"] /\ score_of None x "dog" = Fin (Q2Qc (1 # 4)) /\ score_of None x "cat" = Fin (Q2Qc (3 # 4)) /\
  (* the label with the highest score counts as missed *)
  ps = [(1%Qc, NegInf, None); (0%Qc, Fin (Q2Qc (1 # 4)), None)].
Proof. exact C222_highest_scores_refuted_pf. Qed.

(* ------------------------------------------------------------------ *)
(** ** C223 examples that are refused *)
Theorem C223_refused order st e : let m := sm_model_name st in
  (dget String.eqb e "labels" = None -> set_match_process order st e = Err ValueError) /\
  (forall t, stored e "labels" m (Leaf t) -> length (tensor_shape t) <> 1%nat -> set_match_process order st e = Err ValueError) /\
  forall t, stored e "labels" m (Leaf t) -> length (tensor_shape t) = 1%nat ->
    (sm_weight_key st <> None -> dget String.eqb e "features" = None -> set_match_process order st e = Err ValueError) /\
    (forall wk f c w, sm_weight_key st = Some wk -> dget String.eqb e "features" = Some (Dict f) -> dget String.eqb f wk = Some (Leaf w) ->
       match sm_class_key st with Some k => dget String.eqb f k = Some (Leaf c) | None => c = t end ->
       tensor_shape c <> tensor_shape w -> set_match_process order st e = Err ValueError) /\
    (sm_weight_key st = None ->
       (dget String.eqb e "predictions" = None \/ (exists a, stored e "predictions" m (Leaf a)) -> set_match_process order st e = Err TypeError) /\
       (forall d k c s, stored e "predictions" m (Dict d) -> sm_prediction_score_key st = Some k ->
          dget String.eqb d (sm_prediction_class_key st) = Some (Leaf c) -> dget String.eqb d k = Some (Leaf s) ->
          tensor_shape c <> tensor_shape s \/ length (tensor_shape c) <> 1%nat -> set_match_process order st e = Err ValueError)).
Proof. exact (C223_refused_pf order st e). Qed.

(** An example of several weights is refused if it has labels. *)
Theorem C223_several_weights order st e labels ws : (forall l, Permutation (order l) l) ->
  stored e "labels" (sm_model_name st) (Leaf (Strings labels)) -> labels <> [] ->
  stored e "example_weights" (sm_model_name st) (Leaf (Floats (map Fin ws))) -> (1 < length ws)%nat ->
  is_ok (set_match_process order st e) = false.
Proof. exact (C223_several_weights_pf order st e labels ws). Qed.

Example C223_example :
  set_match_process (fun l => l) (by_scores None) (of_cats ["cat"] ["cat"; "dog"] [Fin 1%Qc]) = Err ValueError /\
  set_match_process (fun l => l) (by_scores None) [("labels", Leaf (Wide [1; 2]%nat))] = Err ValueError.
Proof. split; reflexivity. Qed.

(** Predictions without scores, as in the documentation, are never accepted. *)
Theorem C223_classes_alone_refuted : exists st e,
  sm_prediction_score_key st = None /\
  stored e "labels" (sm_model_name st) (Leaf (Strings ["cat"; "dog"])) /\
  stored e "predictions" (sm_model_name st) (Dict [(sm_prediction_class_key st, Leaf (Strings ["cat"]))]) /\
  (forall order, set_match_process order st e = Err TypeError) /\
  (forall order e', is_ok (set_match_process order st e') = false).
Proof. exact C223_classes_alone_refuted_pf. Qed.

(* ------------------------------------------------------------------ *)
(** ** C224 the matrices count the classes of the examples *)
Theorem C224_matrices_count_classes order st es xs k ap ths weighted lk pk :
  (forall l, Permutation (order l) l) -> sm_top_k st = option_map Z.of_nat k -> Forall2 (holds st) es xs ->
  (forall x, In x xs -> se_weight x <> Some 0%Qc) ->
  NoDup ths -> (forall t, ths = [t] -> num_ltb t (Fin 0%Qc) = false) ->
  exists pairs, mapM (set_match_process order st) es = Ok pairs /\
    forall s, Permutation (inputs s) (map set_input (concat pairs)) ->
      exists cm, set_match_matrices ap ths weighted lk pk "" s = Ok cm /\
        m_thresholds cm = ths /\
        forall i, (i < length ths)%nat ->
          let t := nth i ths NaN in
          let tp := qsum (map (hits_of weighted k t) xs) in
          let fp := qsum (map (alarms_of weighted k t) xs) in
          let fn := qsum (map (misses_of weighted k t) xs) in
          let tn := qsum (map (silences_of weighted k t) xs) in
          nth i (m_tp cm) 0%Qc = tp /\ nth i (m_fp cm) 0%Qc = fp /\ nth i (m_fn cm) 0%Qc = fn /\ nth i (m_tn cm) 0%Qc = tn /\
          ((0 < tp + fp)%Qc -> set_match_precision cm i = Fin (tp / (tp + fp))%Qc) /\
          ((0 < tp + fn)%Qc -> set_match_recall cm i = Fin (tp / (tp + fn))%Qc).
Proof. exact (C224_matrices_count_classes_pf order st es xs k ap ths weighted lk pk). Qed.

Theorem C224_options order st es xs k ap given asked ths weighted lk pk :
  (forall l, Permutation (order l) l) -> sm_top_k st = option_map Z.of_nat k -> Forall2 (holds st) es xs ->
  (forall x, In x xs -> se_weight x <> Some 0%Qc) -> thresholds_meant given k ths -> weights_meant st asked weighted ->
  NoDup ths -> (forall t, ths = [t] -> num_ltb t (Fin 0%Qc) = false) ->
  exists pairs, mapM (set_match_process order st) es = Ok pairs /\
    forall s, Permutation (inputs s) (map set_input (concat pairs)) ->
      exists cm, set_match_matrices ap (set_match_thresholds given (sm_top_k st)) (set_match_weighted st asked) lk pk "" s = Ok cm /\
        m_thresholds cm = ths /\
        forall i, (i < length ths)%nat ->
          let t := nth i ths NaN in
          nth i (m_tp cm) 0%Qc = qsum (map (hits_of weighted k t) xs) /\ nth i (m_fp cm) 0%Qc = qsum (map (alarms_of weighted k t) xs) /\
          nth i (m_fn cm) 0%Qc = qsum (map (misses_of weighted k t) xs) /\ nth i (m_tn cm) 0%Qc = qsum (map (silences_of weighted k t) xs).
Proof. exact (C224_options_pf order st es xs k ap given asked ths weighted lk pk). Qed.

Example C224_example :
  let xs := [SetExample ["cat"; "dog"] ["cat"; "bird"] [Fin (Q2Qc (3 # 4)); Fin (Q2Qc (5 # 8))] None []; SetExample ["dog"] ["dog"] [Fin (Q2Qc (1 # 4))] None []] in
  let half := Fin (Q2Qc (1 # 2)) in
  (qsum (map (hits_of false None half) xs), qsum (map (alarms_of false None half) xs), qsum (map (misses_of false None half) xs), qsum (map (silences_of false None half) xs)) = (1%Qc, 1%Qc, qz 2, 0%Qc).
Proof. vm_compute. reflexivity. Qed.

(* ------------------------------------------------------------------ *)
(** ** C225 matrices of the first k *)
(** ... otherwise the labels that are missed take the place of those that are found, *)
Theorem C225_nothing_listed_refuted : exists e x, forall ap,
  holds (by_scores (Some 1%Z)) e x /\ se_labels x = ["cat"] /\ se_classes x = [] /\
  exists cm, set_match_process (fun l => l) (by_scores (Some 1%Z)) e = Ok [(1%Qc, NegInf, None)] /\
    set_match_matrices ap (set_match_thresholds None (Some 1%Z)) false "" "" "" (Bundle [set_input (1%Qc, NegInf, None)]) = Ok cm /\
    set_match_precision cm 0 = Fin 1%Qc /\ set_match_recall cm 0 = Fin 1%Qc.
Proof. exact C225_nothing_listed_refuted_pf. Qed.

(** classes with scores of less than 1 beside one of 1 are not counted as predicted, *)
Theorem C225_certain_and_uncertain_refuted : exists x cm, forall ap,
  holds (by_scores (Some 2%Z)) (of_cats (se_labels x) (se_classes x) (se_scores x)) x /\
  se_labels x = ["cat"; "dog"] /\ se_classes x = ["cat"; "dog"] /\ se_scores x = [Fin 1%Qc; Fin (Q2Qc (3 # 4))] /\
  set_match_matrices ap (set_match_thresholds None (Some 2%Z)) false "" "" "" (Bundle (map set_input [(1%Qc, Fin 1%Qc, None); (1%Qc, Fin (Q2Qc (3 # 4)), None)])) = Ok cm /\
  set_match_process (fun l => l) (by_scores (Some 2%Z)) (of_cats (se_labels x) (se_classes x) (se_scores x)) = Ok [(1%Qc, Fin 1%Qc, None); (1%Qc, Fin (Q2Qc (3 # 4)), None)] /\
  set_match_recall cm 0 = Fin (Q2Qc (1 # 2)).
Proof. exact C225_certain_and_uncertain_refuted_pf. Qed.

(** and those with negative scores never are when there are others. *)
Theorem C225_negative_scores_refuted : exists x cm, forall ap,
  holds (by_scores (Some 2%Z)) (of_cats (se_labels x) (se_classes x) (se_scores x)) x /\
  se_labels x = ["cat"; "dog"] /\ se_classes x = ["cat"; "dog"] /\
  set_match_matrices ap (set_match_thresholds None (Some 2%Z)) false "" "" "" (Bundle (map set_input [(1%Qc, Fin (Q2Qc (1 # 2)), None); (1%Qc, Fin (Q2Qc (- 1 # 2)), None)])) = Ok cm /\
  set_match_process (fun l => l) (by_scores (Some 2%Z)) (of_cats (se_labels x) (se_classes x) (se_scores x)) = Ok [(1%Qc, Fin (Q2Qc (1 # 2)), None); (1%Qc, Fin (Q2Qc (- 1 # 2)), None)] /\
  set_match_recall cm 0 = Fin (Q2Qc (1 # 2)).
Proof. exact C225_negative_scores_refuted_pf. Qed.

Theorem C225_matrices_of_listed_partial order st es xs k ap weighted lk pk :
  (forall l, Permutation (order l) l) -> sm_top_k st = Some (Z.of_nat k) -> Forall2 (holds st) es xs ->
  (forall x, In x xs -> se_weight x <> Some 0%Qc) ->
  (* scores that are not negative *)
  (forall x s, In x xs -> In s (se_scores x) -> num_ltb s (Fin 0%Qc) = false /\ s <> NaN) ->
  (* a label that is missed, and a class that is listed *)
  (exists x c, In x xs /\ In c (se_labels x) /\ ~ In c (kept_classes (Some k) x) /\ class_weight_of weighted x c <> 0%Qc) ->
  (exists x c, In x xs /\ In c (kept_classes (Some k) x) /\ class_weight_of weighted x c <> 0%Qc) ->
  exists pairs, mapM (set_match_process order st) es = Ok pairs /\
    forall s, Permutation (inputs s) (map set_input (concat pairs)) ->
      exists cm, set_match_matrices ap (set_match_thresholds None (sm_top_k st)) weighted lk pk "" s = Ok cm /\
        let tp := qsum (map (listed_hits weighted (Some k)) xs) in
        let fp := qsum (map (listed_alarms weighted (Some k)) xs) in
        let fn := qsum (map (listed_misses weighted (Some k)) xs) in
        nth 0 (m_tp cm) 0%Qc = tp /\ nth 0 (m_fp cm) 0%Qc = fp /\ nth 0 (m_fn cm) 0%Qc = fn /\ nth 0 (m_tn cm) 0%Qc = 0%Qc /\
        ((0 < tp + fp)%Qc -> set_match_precision cm 0 = Fin (tp / (tp + fp))%Qc) /\
        ((0 < tp + fn)%Qc -> set_match_recall cm 0 = Fin (tp / (tp + fn))%Qc).
Proof. exact (C225_matrices_of_listed_partial_pf order st es xs k ap weighted lk pk). Qed.

Example C225_example :
  let x := SetExample ["cat"; "dog"] ["cat"; "bird"; "dog"] [Fin (Q2Qc (3 # 4)); Fin (Q2Qc (5 # 8)); Fin (Q2Qc (1 # 2))] None [] in
  (listed_hits false (Some 2) x, listed_alarms false (Some 2) x, listed_misses false (Some 2) x) = (1%Qc, 1%Qc, 1%Qc) /\
  match set_match_process (fun l => l) (by_scores (Some 2%Z)) (of_cats (se_labels x) (se_classes x) (se_scores x)) with
  | Ok ps => match set_match_matrices (fun _ _ => []) [NegInf] false "" "" "" (Bundle (map set_input ps)) with
             | Ok cm => set_match_recall cm 0 = Fin (Q2Qc (1 # 2)) | Err _ => False end
  | Err _ => False end.
Proof. split; vm_compute; reflexivity. Qed.

(* ------------------------------------------------------------------ *)
(** ** C226 several set matches *)
Theorem C226_named_models_always_fail ap ths weighted lk pk m s x : m <> "" -> In (set_input x) (inputs s) ->
  is_ok (set_match_matrices ap ths weighted lk pk m s) = false.
Proof. exact (C226_named_models_always_fail_pf ap ths weighted lk pk m s x). Qed.

Example C226_example : set_match_matrices (fun _ _ => []) [Fin (Q2Qc (1 # 2))] false "" "" "candidate" (Bundle [set_input (1%Qc, Fin 1%Qc, None)]) = Err ValueError.
Proof. vm_compute. reflexivity. Qed.

(** "model_name": a metric for one of several models cannot be computed. *)
Theorem C226_several_models_refuted : exists e x ps, let st := SetMatch "classes" (Some "scores") None None None "candidate" in
  holds st e x /\ set_match_process (fun l => l) st e = Ok ps /\ ps <> [] /\
  forall ap, is_ok (set_match_matrices ap [Fin (Q2Qc (1 # 2))] false "" "" "candidate" (Bundle (map set_input ps))) = false.
Proof. exact C226_several_models_refuted_pf. Qed.

(** Two metrics of different predictions: both are that of the first. *)
Theorem C226_own_predictions_refuted : exists show a b name1 name2 sep,
  (forall i j, show i = show j -> i = j) /\ sm_prediction_class_key a <> sm_prediction_class_key b /\ name1 <> name2 /\
  filter_and_separate_computations (set_match_computations show a "[0.5]" name1 false ++ set_match_computations show b "[0.5]" name2 false) = Ok sep /\
  map (fun c => cp_body (snd c)) (sp_base sep) = [CountSets a] /\
  map (fun c => (map k_name (cp_keys (snd c)), cp_body (snd c))) (sp_derived sep) =
    [([k_name (set_matrices_key show a "[0.5]" false)], AsSetMatrices (set_matrices_key show a "[0.5]" false));
     ([name1], SetRatio (set_matrices_key show a "[0.5]" false)); ([name2], SetRatio (set_matrices_key show a "[0.5]" false))].
Proof. exact C226_own_predictions_refuted_pf. Qed.

(** Metrics of different numbers of predictions are kept apart. *)
Theorem C226_top_k_apart_partial show a b n1 n2 ts w :
  (forall i j, show i = show j -> i = j) -> sm_top_k a <> sm_top_k b -> sm_model_name a = sm_model_name b -> n1 <> n2 ->
  (forall r, n1 <> String "_" r /\ n2 <> String "_" r) ->
  exists sep,
    filter_and_separate_computations (set_match_computations show a ts n1 w ++ set_match_computations show b ts n2 w) = Ok sep /\
    map (fun c => cp_body (snd c)) (sp_base sep) = [CountSets a; CountSets b] /\
    map (fun c => cp_body (snd c)) (sp_derived sep) =
      [AsSetMatrices (set_matrices_key show a ts w); SetRatio (set_matrices_key show a ts w); AsSetMatrices (set_matrices_key show b ts w); SetRatio (set_matrices_key show b ts w)].
Proof. exact (C226_top_k_apart_partial_pf show a b n1 n2 ts w). Qed.

(* ------------------------------------------------------------------ *)
(** ** C227 logarithms *)
Theorem C227_inverted_logarithms m limit e labels predictions :
  stored e "labels" m (Leaf labels) -> stored e "predictions" m (Leaf predictions) ->
  (a_shape labels <> a_shape predictions -> invert_process m limit e = Err ValueError) /\
  (a_shape labels = a_shape predictions ->
   exists before e', invert_process m limit e = Ok (before, e') /\
     dget String.eqb e' "labels" = Some (Leaf (Arr (a_shape labels) (inverted labels))) /\
     dget String.eqb e' "predictions" = Some (Leaf (Arr (a_shape predictions)
       (map (fun y => match limit with Some top => Rmin (Rmax y 0) top | None => y end) (inverted predictions)))) /\
     forall k, k <> "labels" -> k <> "predictions" -> dget String.eqb e' k = dget String.eqb e k).
Proof. exact (C227_inverted_logarithms_pf m limit e labels predictions). Qed.

Example C227_example : invert_process "" (Some 5%R) [("labels", Leaf (Arr [1%nat] [3%R])); ("predictions", Leaf (Arr [2%nat] [1%R; 2%R]))] = Err ValueError.
Proof. reflexivity. Qed.

(** The logarithms of y + 1 come back as y. *)
Theorem C227_round_trip m e a b sh :
  (forall y, In y (a ++ b) -> (-1 < y)%R) ->
  stored e "labels" m (Leaf (Arr sh (map (fun y => ln (y + 1) / ln 2)%R a))) -> stored e "predictions" m (Leaf (Arr sh (map (fun y => ln (y + 1) / ln 2)%R b))) ->
  exists before e', invert_process m None e = Ok (before, e') /\
    dget String.eqb e' "labels" = Some (Leaf (Arr sh a)) /\ dget String.eqb e' "predictions" = Some (Leaf (Arr sh b)).
Proof. exact (C227_round_trip_pf m e a b sh). Qed.

Example C227_round_trip_example : stored [("labels", Leaf (Arr [1%nat] [(ln (3 + 1) / ln 2)%R]))] "labels" "" (Leaf (Arr [1%nat] (map (fun y => ln (y + 1) / ln 2)%R [3%R]))) /\ (-1 < 3)%R.
Proof. split; [right; split; [reflexivity|intros d E; discriminate]|Lra.lra]. Qed.

(** The extract that is given is changed: processed a second time it comes out different. *)
Theorem C227_extract_kept_refuted : exists e e1 e2, 
  invert_process "" None e = Ok (e1, e1) /\ e1 <> e /\ invert_process "" None e1 = Ok (e2, e2) /\ e2 <> e1.
Proof. exact C227_extract_kept_refuted_pf. Qed.

(* ------------------------------------------------------------------ *)
(** ** C228 images *)
Theorem C228_images decode st e l p f t :
  dict_under e "labels" (di_model_name st) l -> dict_under e "predictions" (di_model_name st) p -> features_under e f -> dict_under e "transformed_features" (di_model_name st) t ->
  (meant l f t (di_ground_truth_key st) = None -> image_process decode st e = Err ValueError) /\
  forall v a, meant l f t (di_ground_truth_key st) = Some (Leaf v) -> shown decode (di_decode_ground_truth st) v a ->
    (meant p f t (di_prediction_key st) = None -> image_process decode st e = Err ValueError) /\
    forall u b, meant p f t (di_prediction_key st) = Some (Leaf u) -> shown decode (di_decode_prediction st) u b ->
      (a_shape a <> a_shape b -> image_process decode st e = Err ValueError) /\
      (a_shape a = a_shape b -> dget String.eqb e "example_weights" = None ->
       exists out, image_process decode st e = Ok out /\
         dget String.eqb out "labels" = Some (Leaf (Pixels a)) /\ dget String.eqb out "predictions" = Some (Leaf (Pixels b))).
Proof. exact (C228_images_pf decode st e l p f t). Qed.

(** What holds several images, or none, is refused. *)
Theorem C228_one_image decode st e l p f t sh bs :
  dict_under e "labels" (di_model_name st) l -> dict_under e "predictions" (di_model_name st) p -> features_under e f -> dict_under e "transformed_features" (di_model_name st) t ->
  length bs <> 1%nat ->
  (meant l f t (di_ground_truth_key st) = Some (Leaf (BytesArray sh bs)) -> di_decode_ground_truth st = true -> image_process decode st e = Err AssertionError) /\
  (forall v a, meant l f t (di_ground_truth_key st) = Some (Leaf v) -> shown decode (di_decode_ground_truth st) v a ->
     meant p f t (di_prediction_key st) = Some (Leaf (BytesArray sh bs)) -> di_decode_prediction st = true -> image_process decode st e = Err AssertionError).
Proof. exact (C228_one_image_pf decode st e l p f t sh bs). Qed.

Example C228_example :
  image_process (fun b => if String.eqb b "png" then Ok (Arr [1; 2]%nat [1%Qc; 0%Qc]) else Err ValueError) (DecodeImage "mask" "seen" true false "")
    [("features", Dict [("mask", Leaf (BytesArray [1]%nat ["png"]))]); ("predictions", Dict [("seen", Leaf (Pixels (Arr [1; 2]%nat [1%Qc; 1%Qc])))])] =
  Ok [("labels", Leaf (Pixels (Arr [1; 2]%nat [1%Qc; 0%Qc]))); ("predictions", Leaf (Pixels (Arr [1; 2]%nat [1%Qc; 1%Qc])))].
Proof. reflexivity. Qed.

(** With example weights nothing is ever yielded. *)
Theorem C228_weighted_images_refuted : exists st e, forall decode,
  image_process decode st [("labels", Dict [("mask", Leaf (Pixels (Arr [1]%nat [1%Qc])))]); ("predictions", Dict [("seen", Leaf (Pixels (Arr [1]%nat [1%Qc])))])] =
    Ok [("labels", Leaf (Pixels (Arr [1]%nat [1%Qc]))); ("predictions", Leaf (Pixels (Arr [1]%nat [1%Qc])))] /\
  e = [("labels", Dict [("mask", Leaf (Pixels (Arr [1]%nat [1%Qc])))]); ("predictions", Dict [("seen", Leaf (Pixels (Arr [1]%nat [1%Qc])))]); ("example_weights", Leaf (Pixels (Arr [1]%nat [1%Qc])))] /\
  image_process decode st e = Err AttributeError /\
  forall st' e' w, dget String.eqb e' "example_weights" = Some (Leaf w) -> is_ok (image_process decode st' e') = false.
Proof. exact C228_weighted_images_refuted_pf. Qed.

Print Assumptions C220_set_pairs.
Print Assumptions C221_weights_of_pairs_partial.
Print Assumptions C221_weight_zero_refuted.
Print Assumptions C222_highest_scores_partial.
Print Assumptions C222_highest_scores_refuted.
Print Assumptions C223_refused.
Print Assumptions C223_several_weights.
Print Assumptions C223_classes_alone_refuted.
Print Assumptions C224_matrices_count_classes.
Print Assumptions C224_options.
Print Assumptions C225_nothing_listed_refuted.
Print Assumptions C225_certain_and_uncertain_refuted.
Print Assumptions C225_negative_scores_refuted.
Print Assumptions C225_matrices_of_listed_partial.
Print Assumptions C226_named_models_always_fail.
Print Assumptions C226_several_models_refuted.
Print Assumptions C226_own_predictions_refuted.
Print Assumptions C226_top_k_apart_partial.
Print Assumptions C227_inverted_logarithms.
Print Assumptions C227_round_trip.
Print Assumptions C227_extract_kept_refuted.
Print Assumptions C228_images.
Print Assumptions C228_one_image.
Print Assumptions C228_weighted_images_refuted.
