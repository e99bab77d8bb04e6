(* Legacy *)
From Coq Require Import String Ascii Reals Qreals Lra.
From Verif Require Import Base BaseFacts RealFacts Beam BeamFacts Util_Model Util_Main Ranking_Model Ranking_Main Keras_Main Classes_Main Legacy_Model.
From Verif Require Import Legacy_Main.
Local Open Scope string_scope.
Local Open Scope list_scope.

(* ------------------------------------------------------------------ *)
(** ** C229 statistics of queries *)
(** The numbers of queries and of documents are right for every schedule. *)
Theorem C229_totals :
  forall s, exists st, outcome query_statistics s = Ok st /\
    total_queries st = Z.of_nat (length (inputs s)) /\
    total_documents st = fold_right Z.add 0%Z (map (fun q => Z.of_nat (length q)) (inputs s)).
Proof. exact C229_totals_pf. Qed.

(** If there is a query, and no query has more than 1000000000 documents, the others are the
    numbers of documents of a smallest and of a largest query. *)
Theorem C229_smallest_and_largest_partial :
  forall s, inputs s <> [] -> (forall q, In q (inputs s) -> (Z.of_nat (length q) <= 1000000000)%Z) ->
    exists st, outcome query_statistics s = Ok st /\
      (exists q, In q (inputs s) /\ min_documents st = Z.of_nat (length q)) /\
      (exists q, In q (inputs s) /\ max_documents st = Z.of_nat (length q)) /\
      forall q, In q (inputs s) -> (min_documents st <= Z.of_nat (length q) <= max_documents st)%Z.
Proof. exact C229_smallest_and_largest_partial_pf. Qed.

(** Without a query the smallest is reported to have 1000000000 documents, and the largest none. *)
Theorem C229_without_queries_refuted :
  exists s st, outcome query_statistics s = Ok st /\ inputs s = [] /\ (min_documents st > max_documents st)%Z /\ min_documents st = 1000000000%Z.
Proof. exact C229_without_queries_refuted_pf. Qed.

Example C229_example :
  outcome query_statistics (Merge (Bundle [[plain_doc; plain_doc]]) [Bundle []; Bundle [[plain_doc]; [plain_doc; plain_doc; plain_doc]]]) =
    Ok (QueryState 3 6 1 3).
Proof. reflexivity. Qed.

(* ------------------------------------------------------------------ *)
(** ** C230 NDCG of queries in the order of their documents *)
(** For every schedule the value for each number is the mean, by weight, of the NDCG of the queries
    in the order of their documents; without weight it is 0. *)
Theorem C230_mean_by_weight :
  exists v : nat -> list Qc -> R,
    (forall k gains, listed_ndcg k gains (v k gains)) /\
    forall ats gain_key weight_key s (r : query_fpl -> list Qc * Qc),
      (forall q, In q (inputs s) -> query_reads gain_key weight_key q (r q)) ->
      exists d, outcome (legacy_ndcg ats gain_key weight_key) s = Ok d /\
        let W := qsum (map (fun q => snd (r q)) (inputs s)) in
        forall k, (~ In k ats -> dget Nat.eqb d k = None) /\
          (In k ats -> dget Nat.eqb d k = Some (if Qc_ltb 0%Qc W
             then fold_right Rplus 0 (map (fun q => v k (fst (r q)) * Q2R (snd (r q))) (inputs s)) / Q2R W else 0)%R).
Proof. exact C230_mean_by_weight_pf. Qed.

(** With gains and weights that are not negative every value is between 0 and 1. *)
Theorem C230_range :
  forall ats gain_key weight_key s (r : query_fpl -> list Qc * Qc) d,
    (forall q, In q (inputs s) -> query_reads gain_key weight_key q (r q) /\ (0 <= snd (r q))%Qc /\ forall g, In g (fst (r q)) -> (0 <= g)%Qc) ->
    outcome (legacy_ndcg ats gain_key weight_key) s = Ok d ->
    forall k x, In (k, x) d -> In k ats /\ (0 <= x <= 1)%R.
Proof. exact C230_range_pf. Qed.

(** A document without one gain (if a number is asked for) or without one weight (if there is a key)
    and documents of a query with different weights fail. *)
Theorem C230_refused :
  forall ats gain_key weight_key s q, In q (inputs s) ->
    ((weight_key <> "" /\ exists f, In f q /\ forall w, ~ feature_is weight_key f w) \/
     (weight_key <> "" /\ exists f g a b, In f q /\ In g q /\ feature_is weight_key f a /\ feature_is weight_key g b /\ a <> b) \/
     (ats <> [] /\ exists f, In f q /\ forall g, ~ feature_is gain_key f g)) ->
    is_ok (outcome (legacy_ndcg ats gain_key weight_key) s) = false.
Proof. exact C230_refused_pf. Qed.

(** A query without a positive gain counts as 0, however its documents are ordered: queries in the
    best order do not have a mean of 1. *)
Theorem C230_best_order_refuted :
  exists s d x, outcome (legacy_ndcg [1] "gain" "") s = Ok d /\ dget Nat.eqb d 1 = Some x /\ (x <> 1)%R /\
    (exists q, In q (inputs s) /\ exists f, In f q /\ exists g, feature_is "gain" f g /\ (0 < g)%Qc) /\
    forall q, In q (inputs s) -> length q = 1.
Proof. exact C230_best_order_refuted_pf. Qed.

Example C230_example :
  is_ok (outcome (legacy_ndcg [1] "gain" "weight") (Bundle [[gain_doc 1 1; gain_doc 0 2]])) = false /\
  weight_is "weight" [gain_doc 1 2; gain_doc 0 2] (Q2Qc 2) /\ query_reads "gain" "" [gain_doc 1 2; gain_doc 0 2] ([Q2Qc 1; Q2Qc 0], 1%Qc).
Proof.
  split; [|split].
  - apply (C230_refused [1] "gain" "weight" _ [gain_doc 1 1; gain_doc 0 2]); [left; reflexivity|]. right. left. split; [discriminate|].
    exists (gain_doc 1 1), (gain_doc 0 2), (Q2Qc 1), (Q2Qc 2). repeat split; try (left; reflexivity); try (right; left; reflexivity). discriminate.
  - right. right. split; [discriminate|]. split; [discriminate|]. intros f [<-|[<-|[]]]; reflexivity.
  - split; [repeat constructor|left; split; reflexivity].
Qed.

(* ------------------------------------------------------------------ *)
(** ** C231 the first document with a label *)
(** Of the queries with a label the sum of the positions is divided by the sum of the weights;
    there is nothing if the weights are not positive in sum. *)
Theorem C231_positions_over_weights :
  forall label_key weight_key s (r : query_fpl -> option nat * Qc),
    (forall q, In q (inputs s) -> position_reads label_key weight_key q (r q)) ->
    let found := flat_map (fun q => match fst (r q) with Some p => [(qz (Z.of_nat p), snd (r q))] | None => [] end) (inputs s) in
    outcome (min_label_position label_key weight_key) s =
    Ok (if Qc_ltb 0%Qc (qsum (map snd found)) then Some (qsum (map fst found) / qsum (map snd found))%Qc else None).
Proof. exact C231_positions_over_weights_pf. Qed.

(** Without a key of weights this is the mean of the positions. *)
Theorem C231_mean_position_partial :
  forall label_key key s (p : query_fpl -> option nat),
    labels_under label_key key -> (forall q, In q (inputs s) -> first_position key q (p q)) ->
    let found := flat_map (fun q => match p q with Some n => [qz (Z.of_nat n)] | None => [] end) (inputs s) in
    outcome (min_label_position label_key "") s =
    Ok match found with [] => None | _ => Some (qsum found / qz (Z.of_nat (length found)))%Qc end.
Proof. exact C231_mean_position_partial_pf. Qed.

(** With weights it is not the mean by weight: the positions are not multiplied.  The only query has
    its label in position 2, and 1/2 is reported. *)
Theorem C231_mean_by_weight_refuted :
  exists s q p w, inputs s = [q] /\ position_reads "clicked" "weight" q (Some p, w) /\ (1 <= p)%nat /\ (0 < w)%Qc /\
    outcome (min_label_position "clicked" "weight") s = Ok (Some (Q2Qc (1#2))) /\ ((qz (Z.of_nat p) * w) / w <> Q2Qc (1#2))%Qc.
Proof. exact C231_mean_by_weight_refuted_pf. Qed.

(** A document without one weight and documents of a query with different weights fail, whether the
    query has a label or not. *)
Theorem C231_refused :
  forall label_key weight_key s q, In q (inputs s) -> weight_key <> "" ->
    (exists f, In f q /\ forall w, ~ feature_is weight_key f w) \/
    (exists f g a b, In f q /\ In g q /\ feature_is weight_key f a /\ feature_is weight_key g b /\ a <> b) ->
    is_ok (outcome (min_label_position label_key weight_key) s) = false.
Proof. exact C231_refused_pf. Qed.

Example C231_example :
  outcome (min_label_position "clicked" "") (Merge (Bundle [two_docs]) [Bundle []; Bundle [[labelled_doc 1 1]; [labelled_doc 0 1]; []]]) = Ok (Some (Q2Qc (3#2))) /\
  outcome (min_label_position "clicked" "") (Bundle [[labelled_doc 0 1]]) = Ok None /\
  outcome (min_label_position "" "") (Bundle [[ExampleFpl [] [("__labels", 1%Qc)]]]) = Ok (Some 1%Qc).
Proof. split; [qc_ex|split; [reflexivity|qc_ex]]. Qed.

(* ------------------------------------------------------------------ *)
(** ** C232 columns of features, predictions and labels *)
(** Every item that is not excluded becomes a column (the last one if several have the same name);
    nothing else changes. *)
Theorem C232_columns :
  forall (X : Type) (row : list X -> X) e v excludes dest c1 c2 c3,
    dget String.eqb e "fpl" = Some (Fpl v) ->
    columns "features" excludes (fv_features v) c1 -> columns "predictions" excludes (fv_predictions v) c2 -> columns "labels" excludes (fv_labels v) c3 ->
    exists e', materialize_features row e [] excludes "fpl" dest = Ok e' /\
      (forall k, ~ In k (map fst (c1 ++ c2 ++ c3)) -> dget String.eqb e' k = dget String.eqb e k) /\
      (forall before k c after, c1 ++ c2 ++ c3 = before ++ (k, c) :: after -> ~ In k (map fst after) -> dget String.eqb e' k = Some (Column k c)).
Proof. exact C232_columns_pf. Qed.

(** The same with an additional extract, whose columns come first. *)
Theorem C232_additional_columns :
  forall (X : Type) (row : list X -> X) e key d v excludes dest c0 c1 c2 c3,
    key <> "fpl" -> dget String.eqb e key = Some (Data d) -> dget String.eqb e "fpl" = Some (Fpl v) -> columns key excludes d c0 ->
    columns "features" excludes (fv_features v) c1 -> columns "predictions" excludes (fv_predictions v) c2 -> columns "labels" excludes (fv_labels v) c3 ->
    exists e', materialize_features row e [key] excludes "fpl" dest = Ok e' /\
      (forall k, ~ In k (map fst (c0 ++ c1 ++ c2 ++ c3)) -> dget String.eqb e' k = dget String.eqb e k) /\
      (forall before k c after, c0 ++ c1 ++ c2 ++ c3 = before ++ (k, c) :: after -> ~ In k (map fst after) -> dget String.eqb e' k = Some (Column k c)).
Proof. exact C232_additional_columns_pf. Qed.

(** Two features can have the same column: the values of the first are lost. *)
Theorem C232_every_feature_refuted :
  exists e v (a b : Qc), a <> b /\ dget String.eqb e "fpl" = Some (Fpl v) /\
    dget String.eqb (fv_features v) "features" = Some (UnderNode (Rows [a])) /\ dget String.eqb (fv_features v) "__features" = Some (UnderNode (Rows [b])) /\
    exists e', materialize_features (fun _ => 0%Qc) e [] None "fpl" true = Ok e' /\ forall k n, dget String.eqb e' k <> Some (Column n (ColumnRow a)).
Proof. exact C232_every_feature_refuted_pf. Qed.

(** A value that is neither an array nor a sparse tensor fails, unless its name is excluded. *)
Theorem C232_refused :
  forall (X : Type) (row : list X -> X) e v excludes dest n x,
    dget String.eqb e "fpl" = Some (Fpl v) ->
    In (n, x) (not_excluded excludes (fv_features v)) \/ In (n, x) (not_excluded excludes (fv_predictions v)) \/ In (n, x) (not_excluded excludes (fv_labels v)) ->
    (forall c, ~ column_is x c) -> is_ok (materialize_features row e [] excludes "fpl" dest) = false.
Proof. exact C232_refused_pf. Qed.

(** Without an FPL, with something else in its place and with another source there is an error. *)
Theorem C232_no_fpl_refused :
  forall (X : Type) (row : list X -> X) e excludes source dest,
    (source = "fpl" /\ forall v, dget String.eqb e "fpl" <> Some (Fpl v)) \/ (source <> "fpl" /\ source <> "input") ->
    is_ok (materialize_features row e [] excludes source dest) = false.
Proof. exact C232_no_fpl_refused_pf. Qed.

Example C232_example :
  materialize_features (fun _ => 0) [("fpl", Fpl example_fpl_value); ("meta", Data [("a__b", Plain (Rows [5]))])] ["meta"; "absent"] (Some ["skip"]) "fpl" true =
    Ok [("fpl", Fpl example_fpl_value); ("meta", Data [("a__b", Plain (Rows [5]))]); ("meta__a__b", Column "meta__a__b" (ColumnRow 5));
        ("features__age", Column "features__age" (ColumnRow 7)); ("features__a____b", Column "features__a____b" (ColumnValues [1; 2]));
        ("predictions", Column "predictions" ColumnEmpty); ("labels", Column "labels" (ColumnRow 1))] /\
  is_ok (materialize_features (fun _ => 0) [("fpl", Fpl example_fpl_value)] [] None "fpl" true) = false /\
  is_ok (materialize_features (fun _ => 0) [] [] None "fpl" true) = false.
Proof. split; [reflexivity|]. split; reflexivity. Qed.

(* ------------------------------------------------------------------ *)
(** ** C233 features of a serialized example *)
(** If each feature of the example is of a kind, its values become a column when columns are to be
    made, and nothing else in the extract changes besides the FPL. *)
Theorem C233_columns_partial :
  forall (X : Type) (row : list X -> X) e feats excludes m,
    dget String.eqb e "input" = Some (Serialized false (Some (with_kinds feats))) ->
    (dget String.eqb e "fpl" = None \/ exists v, dget String.eqb e "fpl" = Some (Fpl v)) ->
    exists e', materialize_features row e [] excludes "input" m = Ok e' /\
      (forall k, k <> "fpl" -> m = false \/ ~ In k (map (fun nl => feature_column (fst nl)) feats) -> dget String.eqb e' k = dget String.eqb e k) /\
      (m = true -> forall before n l after, feats = before ++ (n, l) :: after -> ~ In (feature_column n) (map (fun nl => feature_column (fst nl)) after) ->
         dget String.eqb e' (feature_column n) = Some (Column (feature_column n) (ColumnValues l))).
Proof. exact C233_columns_partial_pf. Qed.

(** Features that the FPL does not have are added to it; those that it has stay as they are. *)
Theorem C233_added_to_fpl_partial :
  forall (X : Type) (row : list X -> X) e feats v excludes m,
    dget String.eqb e "input" = Some (Serialized false (Some (with_kinds feats))) -> NoDup (map fst feats) ->
    dget String.eqb e "fpl" = Some (Fpl v) ->
    exists e' fs, materialize_features row e [] excludes "input" m = Ok e' /\
      dget String.eqb e' "fpl" = Some (Fpl (FplValue fs (fv_predictions v) (fv_labels v))) /\
      (forall n, In n (map fst (fv_features v)) \/ ~ In n (map fst feats) -> dget String.eqb fs n = dget String.eqb (fv_features v) n) /\
      (forall n l, In (n, l) feats -> ~ In n (map fst (fv_features v)) -> dget String.eqb fs n = Some (UnderNode (Rows [row l]))).
Proof. exact C233_added_to_fpl_partial_pf. Qed.

(** A feature of no kind gets the values of the feature before it, and fails if it is the first. *)
Theorem C233_empty_feature_refuted :
  exists (feats : list (string * example_feature nat)) e',
    materialize_features (fun _ => 0) [("input", Serialized false (Some feats))] [] None "input" true = Ok e' /\
    dget String.eqb feats "clicks" = Some None /\ dget String.eqb e' "features__clicks" = Some (Column "features__clicks" (ColumnValues [18; 40])) /\
    materialize_features (fun _ => 0) [("input", Serialized false (Some [("clicks", None)]))] [] None "input" true = Err UnboundLocalError.
Proof. exact C233_empty_feature_refuted_pf. Qed.

(** What is excluded becomes a column nevertheless, if the source is the example. *)
Theorem C233_excludes_refuted :
  exists e e', materialize_features (fun _ => 0) e [] (Some ["age"]) "input" true = Ok e' /\
    dget String.eqb e "features__age" = None /\ dget String.eqb e' "features__age" = Some (Column "features__age" (ColumnValues [18])).
Proof. exact C233_excludes_refuted_pf. Qed.

(** Without an FPL and with another destination than columns the features are lost. *)
Theorem C233_other_destination :
  forall (X : Type) (row : list X -> X) e feats excludes,
    dget String.eqb e "input" = Some (Serialized false (Some (with_kinds feats))) -> dget String.eqb e "fpl" = None ->
    materialize_features row e [] excludes "input" false = Ok e.
Proof. exact C233_other_destination_pf. Qed.

Theorem C233_other_destination_refuted :
  exists (e : list (string * extracted nat)) feats, feats <> [] /\ dget String.eqb e "input" = Some (Serialized false (Some (with_kinds feats))) /\
    materialize_features (fun _ => 0) e [] None "input" false = Ok e.
Proof. exact C233_other_destination_refuted_pf. Qed.

(** Without an example there is an error; bytes that are no example count as one without features. *)
Theorem C233_no_example :
  forall (X : Type) (row : list X -> X) e excludes m,
    (dget String.eqb e "input" = None \/ (exists p, dget String.eqb e "input" = Some (Serialized true p)) -> is_ok (materialize_features row e [] excludes "input" m) = false) /\
    (dget String.eqb e "input" = Some (Serialized false None) -> dget String.eqb e "fpl" = None -> materialize_features row e [] excludes "input" m = Ok e).
Proof. exact C233_no_example_pf. Qed.

Example C233_example :
  materialize_features (fun l => length l) [("input", Serialized false (Some (with_kinds [("age", [18]); ("a__b", [1; 2])]))); ("fpl", Fpl (FplValue [("age", UnderNode (Rows [5]))] [] []))] [] None "input" true =
    Ok [("input", Serialized false (Some (with_kinds [("age", [18]); ("a__b", [1; 2])])));
        ("fpl", Fpl (FplValue [("age", UnderNode (Rows [5])); ("a__b", UnderNode (Rows [2]))] [] []));
        ("features__age", Column "features__age" (ColumnValues [18])); ("features__a____b", Column "features__a____b" (ColumnValues [1; 2]))].
Proof. reflexivity. Qed.

(* ------------------------------------------------------------------ *)
(** ** C234 features made of others *)
(** New features are added to those of the FPL; all else stays as it is. *)
Theorem C234_features_added :
  forall (X : Type) (fn : fpl_value X -> list (string * @new_value X)) e v,
    dget String.eqb e "fpl" = Some (Fpl v) -> NoDup (map fst (fn v)) -> (forall n, In n (map fst (fn v)) -> ~ In n (map fst (fv_features v))) ->
    exists e' fs, extract_meta_feature fn e = Ok e' /\
      dget String.eqb e' "fpl" = Some (Fpl (FplValue fs (fv_predictions v) (fv_labels v))) /\
      (forall k, k <> "fpl" -> dget String.eqb e' k = dget String.eqb e k) /\
      (forall n, ~ In n (map fst (fn v)) -> dget String.eqb fs n = dget String.eqb (fv_features v) n) /\
      (forall n x, In (n, x) (fn v) -> exists f, made_node x f /\ dget String.eqb fs n = Some f).
Proof. exact C234_features_added_pf. Qed.

(** A feature that there is already, and a missing FPL, are errors. *)
Theorem C234_refused :
  forall (X : Type) (fn : fpl_value X -> list (string * @new_value X)) e,
    (forall v, dget String.eqb e "fpl" <> Some (Fpl v)) \/ (exists v n, dget String.eqb e "fpl" = Some (Fpl v) /\ In n (map fst (fn v)) /\ In n (map fst (fv_features v))) ->
    is_ok (extract_meta_feature fn e) = false.
Proof. exact C234_refused_pf. Qed.

Example C234_example :
  extract_meta_feature (fun v => [("count", AsOther (length (fv_features v))); ("ids", AsArray (Sparse [4; 5]))]) [("fpl", Fpl (FplValue [("age", UnderNode (Rows [5]))] [] [])); ("input", Something false)] =
    Ok [("fpl", Fpl (FplValue [("age", UnderNode (Rows [5])); ("count", UnderNode (Rows [1])); ("ids", UnderNode (Sparse [4; 5]))] [] [])); ("input", Something false)] /\
  is_ok (extract_meta_feature (fun v => [("age", AsOther 1)]) [("fpl", Fpl (FplValue [("age", UnderNode (Rows [5]))] [] []))]) = false.
Proof. split; reflexivity. Qed.

(* ------------------------------------------------------------------ *)
(** ** C235 labels, weights and predictions of parsed examples *)
(** With one model what is found under its keys is put into the extract (None if it is missing), with all
    features; other extracts, and the extract that was given, do not change. *)
Theorem C235_one_model :
  forall (X : Type) spec (features : list (string * X)) e, unique_outputs spec ->
    exists e', parse_inputs [spec] features e = Ok (e, e') /\
      (forall kind, In kind kinds -> configured kind spec -> exists v, dget String.eqb e' kind = Some v /\ found_value (spec_key kind spec) (spec_keys kind spec) features v) /\
      (forall key, key <> "features" -> (forall kind, In kind kinds -> configured kind spec -> key <> kind) -> dget String.eqb e' key = dget String.eqb e key) /\
      dget String.eqb e' "features" = Some (XDict (map (fun kv => (fst kv, XArray (snd kv))) features)).
Proof. exact C235_one_model_pf. Qed.

(** With several models it is put under their names, if the extract has none of the three kinds yet. *)
Theorem C235_several_models_partial :
  forall (X : Type) specs (features : list (string * X)) e,
    (2 <= length specs)%nat -> NoDup (map is_name specs) -> (forall spec, In spec specs -> unique_outputs spec) -> (forall kind, In kind kinds -> dget String.eqb e kind = None) ->
    exists e', parse_inputs specs features e = Ok (e, e') /\
      (forall kind spec, In kind kinds -> In spec specs -> configured kind spec ->
         exists d v, dget String.eqb e' kind = Some (XDict d) /\ dget String.eqb d (is_name spec) = Some v /\ found_value (spec_key kind spec) (spec_keys kind spec) features v) /\
      (forall key, key <> "features" -> (forall kind spec, In kind kinds -> In spec specs -> configured kind spec -> key <> kind) -> dget String.eqb e' key = dget String.eqb e key) /\
      dget String.eqb e' "features" = Some (XDict (map (fun kv => (fst kv, XArray (snd kv))) features)).
Proof. exact C235_several_models_partial_pf. Qed.

(** With several models a dictionary that the extract has already is changed in place: the extract that
    was given is not the same afterwards. *)
Theorem C235_given_changed_refuted :
  exists specs (features : list (string * nat)) e given e', parse_inputs specs features e = Ok (given, e') /\ given <> e.
Proof. exact C235_given_changed_refuted_pf. Qed.

(** With several models an array that the extract has already is an error. *)
Theorem C235_merged_refuted :
  exists specs (features : list (string * nat)) e, is_ok (parse_inputs specs features e) = false /\ dget String.eqb e "labels" = Some (XArray 1).
Proof. exact C235_merged_refuted_pf. Qed.

(** A prediction stored as a feature stays among the features. *)
Theorem C235_popped_refuted :
  exists spec (features : list (string * nat)) e', parse_inputs [spec] features [] = Ok ([], e') /\
    is_prediction_key spec = "p" /\ dget String.eqb e' "predictions" = Some (XArray 7) /\
    exists d, dget String.eqb e' "features" = Some (XDict d) /\ dget String.eqb d "p" = Some (XArray 7).
Proof. exact C235_popped_refuted_pf. Qed.

Example C235_example :
  parse_inputs [InputSpec "" "y" [] "w" [] "" [("out", "p"); ("none", "q")]] [("y", 1); ("p", 5)] [("labels", XArray 9)] =
    Ok ([("labels", XArray 9)], [("labels", XArray 1); ("example_weights", XNone); ("predictions", XDict [("out", XArray 5)]); ("features", XDict [("y", XArray 1); ("p", XArray 5)])]) /\
  parse_inputs [label_spec "m1" "y"; label_spec "m2" "z"] [("y", 1); ("z", 2)] [] =
    Ok ([], [("labels", XDict [("m1", XArray 1); ("m2", XArray 2)]); ("features", XDict [("y", XArray 1); ("z", XArray 2)])]).
Proof. split; reflexivity. Qed.

(* ------------------------------------------------------------------ *)
(** ** C236 the table for analysis *)
(** Excluded keys are dropped; the rest is kept in its order. *)
Theorem C236_excluded :
  forall (A : Type) key l (ds : list (list (string * data A))), l <> [] ->
    evaluate_extracts key NoSelection (SelectList l) (map Dict ds) =
    Ok [(key, map (fun d => Dict (filter (fun kv => if in_dec string_dec (fst kv) l then false else true) d)) ds)].
Proof. exact C236_excluded_pf. Qed.

(** By default the input is dropped, and nothing else. *)
Theorem C236_default :
  forall (A : Type) key (ds : list (list (string * data A))),
    evaluate_extracts key NoSelection NoSelection (map Dict ds) =
    Ok [(key, map (fun d => Dict (filter (fun kv => if string_dec (fst kv) "input" then false else true) d)) ds)].
Proof. exact C236_default_pf. Qed.

(** Of included keys the extract keeps those that it has. *)
Theorem C236_included :
  forall (A : Type) key l (ds : list (list (string * data A))), l <> [] ->
    exists outs, evaluate_extracts key (SelectList l) NoSelection (map Dict ds) = Ok [(key, map Dict outs)] /\
      Forall2 (fun d o => NoDup (map fst o) /\ forall k, dget String.eqb o k = if in_dec string_dec k l then dget String.eqb d k else None) ds outs.
Proof. exact C236_included_pf. Qed.

(** Both at once are refused. *)
Theorem C236_both_refused :
  forall (A : Type) key include exclude (es : list (data A)), selected include = true -> selected exclude = true ->
    evaluate_extracts key include exclude es = Err ValueError.
Proof. exact C236_both_refused_pf. Qed.

(** To include nothing is to include everything, with the input. *)
Theorem C236_include_nothing_refuted :
  exists (e : list (string * data nat)), dmem String.eqb e "input" = true /\ evaluate_extracts "analysis" (SelectList []) NoSelection [Dict e] = Ok [("analysis", [Dict e])].
Proof. exact C236_include_nothing_refuted_pf. Qed.

Example C236_example :
  evaluate_extracts "analysis" NoSelection NoSelection [Dict [("input", Leaf 1); ("labels", Leaf 2)]] = Ok [("analysis", [Dict [("labels", Leaf 2)]])] /\
  evaluate_extracts "analysis" (SelectMap (Filt [("features", Filt [("age", Filt [])])])) NoSelection [Dict [("labels", Leaf 2); ("features", Dict [("age", Leaf 3); ("sex", Leaf 4)])]] =
    Ok [("analysis", [Dict [("features", Dict [("age", Leaf 3)])]])] /\
  evaluate_extracts "analysis" (SelectList ["labels"]) (SelectList ["input"]) [Dict [("labels", Leaf 2)]] = Err ValueError.
Proof. split; [reflexivity|]. split; reflexivity. Qed.

(* ------------------------------------------------------------------ *)
(** ** C237 merged validations, and estimated sizes *)
(** Each validator gets all evaluations, and what is reported under a key is what the last validator
    that has the key says. *)
Theorem C237_validations :
  forall (E V W : Type) (extracts : E) (alternatives : list (string * (E -> V))) (validators : list (list (string * V) -> list (string * W))),
    NoDup (map fst alternatives) -> (forall v d, In v validators -> NoDup (map fst (v d))) ->
    exists evaluations, (forall n f, In (n, f) alternatives -> dget String.eqb evaluations n = Some (f extracts)) /\ map fst evaluations = map fst alternatives /\
      (forall before v after k w, validators = before ++ v :: after -> dget String.eqb (v evaluations) k = Some w ->
         (forall v', In v' after -> dget String.eqb (v' evaluations) k = None) -> dget String.eqb (validate extracts alternatives validators) k = Some w) /\
      (forall k, (forall v, In v validators -> dget String.eqb (v evaluations) k = None) -> dget String.eqb (validate extracts alternatives validators) k = None).
Proof. exact C237_validations_pf. Qed.

Theorem C237_estimates :
  forall threshold values (shares : list Z),
    Forall2 (fun v n => share (fst v) (snd v) n) values shares ->
    let s := fold_left (fun s v => estimator_update s (fst v) (snd v)) values (SizeEstimator threshold 0) in
    se_current s = fold_right Z.add 0%Z shares /\ (should_flush s = true <-> (threshold <= fold_right Z.add 0 shares)%Z) /\
    (forall o, se_current (estimator_add s o) = (se_current s + se_current o)%Z /\ se_threshold (estimator_add s o) = threshold) /\
    se_current (estimator_clear s) = 0%Z /\ se_threshold (estimator_clear s) = threshold.
Proof. exact C237_estimates_pf. Qed.

(** Values of which each is shared more than it is large count nothing: they are never flushed,
    however many there are. *)
Theorem C237_never_flushed_refuted :
  exists size references threshold, (0 < size)%Z /\ (0 < threshold)%Z /\
    forall n, should_flush (fold_left (fun s v => estimator_update s (fst v) (snd v)) (repeat (size, references) n) (SizeEstimator threshold 0)) = false.
Proof. exact C237_never_flushed_refuted_pf. Qed.

Example C237_example :
  validate 3 [("candidate", fun n => n + 1); ("baseline", fun n => n + 2)]
     [(fun d => [("count", length d); ("ok", 1)]); (fun d => [("ok", match dget String.eqb d "baseline" with Some n => n | None => 0 end)])] = [("count", 2); ("ok", 5)] /\
  should_flush (fold_left (fun s v => estimator_update s (fst v) (snd v)) [(10, 2); (10, 5); (7, 5)]%Z (SizeEstimator 18 0)) = true /\
  should_flush (fold_left (fun s v => estimator_update s (fst v) (snd v)) [(10, 2); (10, 5); (7, 5)]%Z (SizeEstimator 19 0)) = false.
Proof. split; [reflexivity|]. split; reflexivity. Qed.

(* ------------------------------------------------------------------ *)
(** ** C238 counters *)
(** Every metric of every specification is counted once for each type of model. *)
Theorem C238_metrics_counted :
  forall specs types c name,
    counted_as (metrics_specs_counters specs types c) name =
    (counted_as c name + occurrences name (flat_map (fun t => map (fun m => "metric_computed_" ++ m ++ "_v2_" ++ t)%string (concat specs)) types))%Z.
Proof. exact C238_metrics_counted_pf. Qed.

(** Callbacks are counted if they have a name. *)
Theorem C238_callbacks_counted :
  forall callbacks t c name,
    counted_as (callbacks_counters callbacks t c) name =
    (counted_as c name + occurrences name (flat_map (fun n => match n with Some n => [("metric_computed_" ++ n ++ "_v1_" ++ t)%string] | None => [] end) callbacks))%Z.
Proof. exact C238_callbacks_counted_pf. Qed.

(** Each pair of the key of each slice is counted. *)
Theorem C238_slices_counted :
  forall slices c name,
    counted_as (slice_counters slices c) name = (counted_as c name + occurrences name (map (fun kv => "slice_computed_" ++ fst kv ++ "_" ++ snd kv)%string (concat slices)))%Z.
Proof. exact C238_slices_counted_pf. Qed.

(** Different pairs can share a counter. *)
Theorem C238_separate_counters_refuted :
  exists a b, a <> b /\ forall name n, counted_as (slice_counters [[a]; [b]] []) name = n -> n <> 0%Z -> n = 2%Z.
Proof. exact C238_separate_counters_refuted_pf. Qed.

Example C238_example :
  metrics_specs_counters [["AUC"; "Mean"]; ["AUC"]] ["keras"] [] = [("metric_computed_AUC_v2_keras", 2%Z); ("metric_computed_Mean_v2_keras", 1%Z)] /\
  slice_counters [[]; [("age", "3"); ("sex", "f")]; [("age", "3")]] [] = [("slice_computed_age_3", 2%Z); ("slice_computed_sex_f", 1%Z)] /\
  callbacks_counters [Some "auc"; None] "estimator" [] = [("metric_computed_auc_v1_estimator", 1%Z)].
Proof. split; [reflexivity|]. split; reflexivity. Qed.

Print Assumptions C229_totals.
Print Assumptions C229_smallest_and_largest_partial.
Print Assumptions C229_without_queries_refuted.
Print Assumptions C230_mean_by_weight.
Print Assumptions C230_range.
Print Assumptions C230_refused.
Print Assumptions C230_best_order_refuted.
Print Assumptions C231_positions_over_weights.
Print Assumptions C231_mean_position_partial.
Print Assumptions C231_mean_by_weight_refuted.
Print Assumptions C231_refused.
Print Assumptions C232_columns.
Print Assumptions C232_additional_columns.
Print Assumptions C232_every_feature_refuted.
Print Assumptions C232_refused.
Print Assumptions C232_no_fpl_refused.
Print Assumptions C233_columns_partial.
Print Assumptions C233_added_to_fpl_partial.
Print Assumptions C233_empty_feature_refuted.
Print Assumptions C233_excludes_refuted.
Print Assumptions C233_other_destination.
Print Assumptions C233_other_destination_refuted.
Print Assumptions C233_no_example.
Print Assumptions C234_features_added.
Print Assumptions C234_refused.
Print Assumptions C235_one_model.
Print Assumptions C235_several_models_partial.
Print Assumptions C235_given_changed_refuted.
Print Assumptions C235_merged_refuted.
Print Assumptions C235_popped_refuted.
Print Assumptions C236_excluded.
Print Assumptions C236_default.
Print Assumptions C236_included.
Print Assumptions C236_both_refused.
Print Assumptions C236_include_nothing_refuted.
Print Assumptions C237_validations.
Print Assumptions C237_estimates.
Print Assumptions C237_never_flushed_refuted.
Print Assumptions C238_metrics_counted.
Print Assumptions C238_callbacks_counted.
Print Assumptions C238_slices_counted.
Print Assumptions C238_separate_counters_refuted.
