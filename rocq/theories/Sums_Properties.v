(* Sums *)
From Coq Require Import String Ascii Sorting.Sorted.
From Verif Require Import Base BaseFacts Beam BeamFacts Util_Model Util_Main Inputs_Model Inputs_Main Sums_Model.
From Verif Require Import Sums_Main.
Local Open Scope string_scope.
Local Open Scope list_scope.

(* ------------------------------------------------------------------ *)
(** ** C10 *)
(** Unweighted: every example counts one, whatever its weights look like. *)
Theorem C10_example_count :
  forall m o s, outcome (example_count false m o) s = Ok (qn (length (inputs s))).
Proof. exact C10_example_count_pf. Qed.

(** Weighted: the total weight, for every schedule. *)
Theorem C10_weighted_example_count :
  forall m o s w,
    (forall x, In x (inputs s) -> weight_for m o x (w x)) ->
    outcome (example_count true m o) s = Ok (qsum (map w (inputs s))).
Proof. exact C10_weighted_example_count_pf. Qed.

(** Weights in a dict that neither a model nor an output name resolves are an
    error for every schedule, never a wrong count. *)
Theorem C10_ambiguous_weights_rejected :
  forall s d, In (Some (Dict d)) (inputs s) ->
    exists e, outcome (example_count true "" "") s = Err e.
Proof. exact C10_ambiguous_weights_rejected_pf. Qed.

Example C10_count_example :
  outcome (example_count true "m2" "") (Merge (Bundle [Some (Dict mixed_weights); None]) [Bundle []; Bundle [Some (Leaf [qz 3])]])
    = Ok (qz 9) /\
  outcome (example_count false "m2" "") (Merge (Bundle [Some (Dict mixed_weights); None]) [Bundle [Some (Leaf [qz 3])]])
    = Ok (qz 3) /\
  weight_for "m2" "" (Some (Dict mixed_weights)) (qsum [qz 5]).
Proof.
  split; [qc_ex|]. split; [qc_ex|]. apply wf_model; [discriminate| |].
  - right; left; reflexivity.
  - repeat constructor; simpl; intuition discriminate.
Qed.

(** The (weighted) mean of a feature; x and w read the feature and weight of an
    element, wherever they are nested. *)
Theorem C10_mean :
  forall path wpath s x w,
    path <> [] ->
    (forall e, In e (inputs s) ->
       unique_keys e /\ stored e path (Leaf [x e]) /\
       match wpath with None => w e = 1%Qc | Some p => p <> [] /\ stored e p (Leaf [w e]) end) ->
    outcome (mean_combiner path wpath) s =
      Ok (let W := qsum (map w (inputs s)) in
          if Qc_eqb W 0%Qc then NaN else Fin (qsum (map (fun e => w e * x e)%Qc (inputs s)) / W)%Qc).
Proof. exact C10_mean_pf. Qed.

Example C10_mean_example :
  outcome (mean_combiner ["features"; "age"] (Some ["example_weights"]))
    (Merge (Bundle [feat 10 1]) [Bundle []; Then (Bundle [feat 20 3]) [feat 40 0]]) = Ok (Fin (Q2Qc (35 # 2))) /\
  outcome (mean_combiner ["features"; "age"] None) (Bundle []) = Ok NaN.
Proof. split; qc_ex. Qed.

(* ------------------------------------------------------------------ *)
(* ------------------------------------------------------------------ *)
(** ** C11 *)
(** Binary (one class) or flattened multi-class examples: labels ls, scores ps and
    weight w of each element give total weighted labels, predictions and examples,
    hence calibration, mean label and mean prediction, for every schedule. *)
Theorem C11_calibration :
  forall ap weighted lk pk m o s ls ps w,
    (forall e, In e (inputs s) ->
       carries weighted m o e (Reading (ls e) (map Fin (ps e)) [w e]) /\
       length (ls e) = length (ps e) /\ ls e <> []) ->
    exists r, outcome (wlpe_combiner ap (calibration_options None false weighted None) lk pk m o) s = Ok r /\
      let P := qsum (map (fun e => w e * qsum (ps e))%Qc (inputs s)) in
      let L := qsum (map (fun e => w e * qsum (ls e))%Qc (inputs s)) in
      let W := qsum (map (fun e => w e * qn (length (ls e)))%Qc (inputs s)) in
      ratio_of (calibration_result r) P L /\
      ratio_of (mean_label_result r) L W /\
      ratio_of (mean_prediction_result r) P W.
Proof. exact C11_calibration_pf. Qed.

Example C11_example :
  (let! r := outcome (wlpe_combiner ap_sort (calibration_options None false true None) "" "" "cand" "")
    (Merge (Bundle [binary 1 (9#10) 2]) [Bundle [binary 0 (3#10) 1; binary 1 (6#10) 1]]) in
   Ok (calibration_result r, mean_label_result r, mean_prediction_result r)) =
   Ok (Fin (Q2Qc (9 # 10)), Fin (Q2Qc (3#4)), Fin (Q2Qc (27#40))) /\
  carries true "cand" "" (binary 1 (9#10) 2) (Reading [1%Qc] [Fin (Q2Qc (9#10))] [qz 2]).
Proof.
  split; [qc_ex|]. unfold carries. split; [qc_ex|]. split.
  - exists (Dict [("base", Leaf [Fin 0%Qc]); ("cand", Leaf [Fin (Q2Qc (9#10))])]), (Leaf [Fin (Q2Qc (9#10))]).
    repeat split; reflexivity.
  - reflexivity.
Qed.

(* ------------------------------------------------------------------ *)
(** ** C60 *)
(** Refuted: without labels the predictions are not accumulated and the mean
    prediction of any data of total weight 1 is 0, not 3/4. *)
Theorem C60_mean_prediction_unlabelled_refuted :
  exists ap e p w r, p <> 0%Qc /\ w = 1%Qc /\
    i_label e = None /\ carries_scores "" "" e [Fin p] /\ carries_weight true e [w] /\
    outcome (wlpe_combiner ap (calibration_options None false true None) "" "" "" "") (Bundle [e]) = Ok r /\
    mean_prediction_result r = Fin 0%Qc.
Proof. exact C60_mean_prediction_unlabelled_refuted_pf. Qed.

(* ------------------------------------------------------------------ *)
(** ** C61 *)
(** Refuted: with top_k = 2 and three classes, computing calibration raises. *)
Theorem C61_top_k_calibration_refuted :
  exists ap e,
    carries true "" "" e (Reading [0%Qc; 1%Qc; 0%Qc] [Fin 0%Qc; Fin (Q2Qc (1#2)); Fin (Q2Qc (1#4))] [1%Qc]) /\
    outcome (wlpe_combiner ap (calibration_options (Some (SubKey None None (Some 2))) true true None) "" "" "" "")
      (Bundle [e]) = Err IndexError /\
    outcome (wlpe_combiner ap (calibration_options (Some (SubKey None None (Some 2))) false true None) "" "" "" "")
      (Bundle [e]) = Err IndexError.
Proof. exact C61_top_k_calibration_refuted_pf. Qed.

(* ------------------------------------------------------------------ *)
(** ** C20 *)
(** Total queries and documents are the (weighted) sums over all queries, and the
    min and max are attained bounds (max starts at 0), for every schedule. *)
Theorem C20_query_statistics :
  forall ap weighted lk pk s ls ps ws w,
    (forall e, In e (inputs s) ->
       carries weighted "" "" e (Reading (ls e) (ps e) (ws e)) /\
       i_prediction e = Some (Leaf (ps e)) /\ one_weight (ws e) (w e)) ->
    let docs e := (qn (length (ps e)) * w e)%Qc in
    exists r, outcome (qstats_combiner ap weighted lk pk "" "") s = Ok r /\
      q_queries r = qsum (map w (inputs s)) /\
      q_documents r = qsum (map docs (inputs s)) /\
      match q_min r with
      | None => inputs s = []
      | Some x => (exists e, In e (inputs s) /\ x = docs e) /\
                  forall e, In e (inputs s) -> (x <= docs e)%Qc
      end /\
      (forall e, In e (inputs s) -> (docs e <= q_max r)%Qc) /\
      (q_max r = 0%Qc \/ exists e, In e (inputs s) /\ q_max r = docs e).
Proof. exact C20_query_statistics_pf. Qed.

Theorem C20_argsort_satisfiable : argsort_ok sorted_idx.
Proof. exact C20_argsort_satisfiable_pf. Qed.

(** Mean minimum label position: over the queries with a positive document, the
    weighted mean of the rank of the best positive document. *)
Theorem C20_min_label_position :
  forall ap argsort weighted lk pk m o s ls ps ws w,
    argsort_ok argsort ->
    (forall e, In e (inputs s) ->
       carries weighted m o e (Reading (ls e) (ps e) (ws e)) /\
       length (ls e) = length (ps e) /\ ~ In NaN (ps e) /\ one_weight (ws e) (w e)) ->
    exists rank, (forall e, In e (inputs s) -> rank_spec (ls e) (ps e) (rank e)) /\
      let labelled := filter (fun e => match rank e with Some _ => true | None => false end) (inputs s) in
      let W := qsum (map w labelled) in
      let T := qsum (map (fun e => qn (match rank e with Some r => r | None => 0 end) * w e)%Qc labelled) in
      outcome (position_combiner ap argsort weighted lk pk m o) s =
        Ok (if Qc_ltb 0%Qc W then Fin (T / W)%Qc else NaN).
Proof. exact C20_min_label_position_pf. Qed.

Example C20_example :
  outcome (qstats_combiner ap_sort true "" "" "" "")
    (Merge (Bundle [query [0%Q;1%Q;0%Q] [(1#2)%Q;(1#3)%Q;(1#4)%Q] 1]) [Bundle [query [1%Q;0%Q] [(1#5)%Q;(4#5)%Q] 3; query [0%Q] [1%Q] 1]])
    = Ok (QStats (qz 5) (qz 10) (Some (qz 1)) (qz 6)) /\
  outcome (position_combiner ap_sort sorted_idx true "" "" "" "")
    (Merge (Bundle [query [0%Q;1%Q;0%Q] [(1#2)%Q;(1#3)%Q;(1#4)%Q] 1]) [Bundle [query [1%Q;0%Q] [(4#5)%Q;(1#5)%Q] 3; query [0%Q] [1%Q] 1]])
    = Ok (Fin (Q2Qc (5#4))) /\
  rank_spec [0%Qc; 1%Qc; 0%Qc] (map (fun q => Fin (Q2Qc q)) [(1#2)%Q;(1#3)%Q;(1#4)%Q]) (Some 2).
Proof.
  split; [qc_ex|]. split; [qc_ex|].
  exists 1%Qc, (Fin (Q2Qc (1#3))). split; [simpl; auto|]. split; [reflexivity|]. split.
  - intros l' p [E|[E|[E|[]]]] HP; inversion E; subst; try reflexivity; exfalso; discriminate HP.
  - vm_compute. split; repeat constructor.
Qed.

(* ------------------------------------------------------------------ *)
(** ** C62 *)
(** Refuted: with two models the number of models is reported as the number of
    documents of every query. *)
Theorem C62_documents_multi_model_refuted :
  exists ap e ls ps r,
    carries true "cand" "" e (Reading ls ps [1%Qc]) /\ length ps = 3 /\
    outcome (qstats_combiner ap true "" "" "cand" "") (Bundle [e]) = Ok r /\
    q_documents r = qz 2 /\ q_max r = qz 2.
Proof. exact C62_documents_multi_model_refuted_pf. Qed.

(* ------------------------------------------------------------------ *)
(** ** C63 *)
(** Refuted: when no query has a positive document the metric is NaN, not zero. *)
Theorem C63_no_positive_is_zero_refuted :
  exists ap argsort, argsort_ok argsort /\
    forall s, (forall e, In e (inputs s) -> e = query [0%Q;0%Q] [(1#2)%Q; (1#3)%Q] 1) ->
      outcome (position_combiner ap argsort true "" "" "" "") s = Ok NaN.
Proof. exact C63_no_positive_is_zero_refuted_pf. Qed.

(** Refuted: a query without labels is not skipped but aborts the evaluation. *)
Theorem C63_unlabelled_skipped_refuted :
  exists ap argsort e, argsort_ok argsort /\ i_label e = None /\
    forall s, In e (inputs s) ->
      exists x, outcome (position_combiner ap argsort true "" "" "" "") s = Err x.
Proof. exact C63_unlabelled_skipped_refuted_pf. Qed.

Print Assumptions C10_example_count.
Print Assumptions C10_weighted_example_count.
Print Assumptions C10_ambiguous_weights_rejected.
Print Assumptions C10_mean.
Print Assumptions C11_calibration.
Print Assumptions C60_mean_prediction_unlabelled_refuted.
Print Assumptions C61_top_k_calibration_refuted.
Print Assumptions C20_query_statistics.
Print Assumptions C20_argsort_satisfiable.
Print Assumptions C20_min_label_position.
Print Assumptions C62_documents_multi_model_refuted.
Print Assumptions C63_no_positive_is_zero_refuted.
Print Assumptions C63_unlabelled_skipped_refuted.
