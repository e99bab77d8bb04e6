(* Ranking *)
From Coq Require Import String Ascii Reals Qreals Sorting.Sorted.
From Verif Require Import Base BaseFacts RealFacts Beam BeamFacts Util_Model Util_Main Inputs_Model Inputs_Main Sums_Model Sums_Main Ranking_Model.
From Verif Require Import Ranking_Main.
Local Open Scope string_scope.
Local Open Scope list_scope.

(* ------------------------------------------------------------------ *)
(** ** Python's sorted *)
(* ------------------------------------------------------------------ *)
(** ** Discounted sums *)
(* ------------------------------------------------------------------ *)
(** ** The rearrangement inequality *)
(* ------------------------------------------------------------------ *)
(** ** C19 NDCG *)
(** For every schedule, the value for k is the weighted mean of NDCG@k over the
    queries that have a positive gain; NaN (None) if these have no weight. *)
Theorem C19_ndcg_mean :
  forall argsort, argsort_ok argsort ->
  exists v : nat -> query -> R,
    (forall k q, length (qu_gains q) = length (qu_scores q) -> is_ndcg k (qu_scores q) (qu_gains q) (v k q)) /\
    forall ap weighted lk pk m o gain_key ks s (r : query_inputs -> query),
      (forall e, In e (inputs s) -> holds_query weighted m o gain_key (r e) e) ->
      let D := filter counted (map r (inputs s)) in
      let W := qsum (map qu_weight D) in
      outcome (ndcg_combiner argsort ap weighted lk pk m o gain_key (map Some ks)) s =
      Ok (map (fun k => if Qc_ltb 0%Qc W
                        then Some (fold_right Rplus 0 (map (fun q => v k q * Q2R (qu_weight q)) D) / Q2R W)%R
                        else None) ks).
Proof. exact C19_ndcg_mean_pf. Qed.

Theorem C19_ndcg_schedule :
  forall argsort ap weighted lk pk m o gain_key ks s1 s2 (r : query_inputs -> query),
    argsort_ok argsort -> (forall e, In e (inputs s1) -> holds_query weighted m o gain_key (r e) e) ->
    Permutation (inputs s1) (inputs s2) ->
    outcome (ndcg_combiner argsort ap weighted lk pk m o gain_key (map Some ks)) s1 =
    outcome (ndcg_combiner argsort ap weighted lk pk m o gain_key (map Some ks)) s2.
Proof. exact C19_ndcg_schedule_pf. Qed.

(** With gains that are not negative NDCG@k is in [0,1]. *)
Theorem C19_ndcg_range :
  forall k scores gains v, is_ndcg k scores gains v -> (forall g, In g gains -> (0 <= g)%Qc) -> (0 <= v <= 1)%R.
Proof. exact C19_ndcg_range_pf. Qed.

(** If documents of larger gain have larger scores, NDCG@k is 1. *)
Theorem C19_perfect_ranking :
  forall k scores gains v, is_ndcg k scores gains v -> 1 <= k -> length gains = length scores -> ~ In NaN scores ->
    (forall g, In g gains -> (0 <= g)%Qc) -> (exists g, In g gains /\ (0 < g)%Qc) ->
    (forall i j, i < length gains -> j < length gains -> (nth i gains 0 < nth j gains 0)%Qc ->
       num_ltb (nth i scores NaN) (nth j scores NaN) = true) ->
    v = 1%R.
Proof. exact C19_perfect_ranking_pf. Qed.

(** ... and so is every reported mean, for weights that are not negative. *)
Theorem C19_mean_range :
  forall argsort ap weighted lk pk m o gain_key ks s (r : query_inputs -> query) vs,
    argsort_ok argsort ->
    (forall e, In e (inputs s) -> holds_query weighted m o gain_key (r e) e /\ (0 <= qu_weight (r e))%Qc /\
       forall g, In g (qu_gains (r e)) -> (0 <= g)%Qc) ->
    outcome (ndcg_combiner argsort ap weighted lk pk m o gain_key (map Some ks)) s = Ok vs ->
    length vs = length ks /\ forall x, In (Some x) vs -> (0 <= x <= 1)%R.
Proof. exact C19_mean_range_pf. Qed.

(** Query 1 ranks the gain 1/2 above the gain 1, query 2 is perfect, query 3 has no
    gain: (1 * 1/2 + 2 * 1) / 3. *)
Example C19_example :
  outcome (ndcg_combiner sorted_idx ap_sort true "" "" "" "" "gain" [Some 1])
    (Merge (Bundle [ex_query [1#5; 4#5]%Q [1; 1#2]%Q 1]) [Bundle [ex_query [1#2; 9#10; 1#10]%Q [1#2; 1; 1#10]%Q 2; ex_query [9#10]%Q [0]%Q 3]]) =
  Ok [Some (5 / 6)%R].
Proof.
  unfold outcome, ndcg_combiner. cbn [run res_combiner c_add c_create c_merge c_extract merge_next fold_left map length repeat bind].
  set (e1 := ex_query [1#5; 4#5]%Q _ _). set (e2 := ex_query [1#2; 9#10; 1#10]%Q _ _). set (e3 := ex_query [9#10]%Q _ _).
  unfold ndcg_add.
  replace (to_gains_example_weight sorted_idx ap_sort true "" "" "" "" "gain" e1) with (Ok ([Q2Qc (1#2); Q2Qc 1], Q2Qc 1)) by (vm_compute; reflexivity).
  replace (to_gains_example_weight sorted_idx ap_sort true "" "" "" "" "gain" e2) with (Ok ([Q2Qc 1; Q2Qc (1#2); Q2Qc (1#10)], Q2Qc 2)) by (vm_compute; reflexivity).
  replace (to_gains_example_weight sorted_idx ap_sort true "" "" "" "" "gain" e3) with (Ok ([Q2Qc 0], 0%Qc)) by (vm_compute; reflexivity).
  cbn [bind mapM fst snd combine map]. rewrite Q2R_0_c, Rmult_0_r.
  rewrite (ndcg_1 (Q2Qc (1#2)) [Q2Qc 1]) by (vm_compute; reflexivity).
  rewrite (ndcg_1 (Q2Qc 1) [Q2Qc (1#2); Q2Qc (1#10)]) by (vm_compute; reflexivity).
  unfold ndcg_plus, ndcg_extract. cbn [fst snd combine map].
  replace (Qc_ltb 0 (0 + Q2Qc 1 + (0 + Q2Qc 2 + 0))%Qc) with true by (vm_compute; reflexivity).
  change (hd 0%Qc (py_sorted descending_gain [Q2Qc (1#2); Q2Qc 1])) with (Q2Qc 1).
  change (hd 0%Qc (py_sorted descending_gain [Q2Qc 1; Q2Qc (1#2); Q2Qc (1#10)])) with (Q2Qc 1).
  rewrite !Q2R_plus_c, !Q2R_0_c, !Q2R_Q2Qc. unfold Q2R. cbn [Qnum Qden]. do 3 f_equal. Lra.lra.
Qed.

(* ------------------------------------------------------------------ *)
(** ** C139 the reported cutoffs *)
(** The cutoffs reported are those of the sub keys and those of top_k_list, each
    once. *)
Theorem C139_reported_cutoffs :
  forall query_key given top_k_list all,
    ndcg_sub_keys query_key (Some given) top_k_list = Ok all ->
    query_key <> "" /\ all <> [] /\ (forall sk, In sk all -> cut sk <> None) /\
    (NoDup (map cut (present given)) -> NoDup (map cut all)) /\
    (forall sk, In (Some sk) given -> In sk all) /\
    (forall k, (exists sk, In sk all /\ cut sk = Some k) <->
       (exists sk, In (Some sk) given /\ cut sk = Some k) \/ (exists ks, top_k_list = Some ks /\ In k ks)).
Proof. exact C139_reported_cutoffs_pf. Qed.

(** They are accepted whenever there is a query key and every cutoff is positive. *)
Theorem C139_cutoffs_accepted :
  forall query_key given ks,
    query_key <> "" -> (forall sk, In (Some sk) given -> cut sk <> None) -> (forall k, In k ks -> (1 <= k)%Z) ->
    ks <> [] -> exists all, ndcg_sub_keys query_key (Some given) (Some ks) = Ok all.
Proof. exact C139_cutoffs_accepted_pf. Qed.

Example C139_example :
  (let! l := ndcg_sub_keys "query" (Some [None; Some (SubKey None None (Some 1)); Some (SubKey None None (Some 2))]) (Some [2%Z; 5%Z; 5%Z])
   in Ok (map sk_top_k l)) = Ok [Some 1; Some 2; Some 5].
Proof. reflexivity. Qed.

(** Without sub keys, top_k_list alone is not accepted: the list comprehension over
    None fails before the test for None. *)
Theorem C139_top_k_list_alone_refuted :
  exists query_key ks, query_key <> "" /\ ks <> [] /\ (forall k, In k ks -> (1 <= k)%Z) /\
    ndcg_sub_keys query_key None (Some ks) = Err TypeError.
Proof. exact C139_top_k_list_alone_refuted_pf. Qed.

(* ------------------------------------------------------------------ *)
(** ** C140 one query at a time *)
(** A query whose rows disagree about the query is counted like any other. *)
Theorem C140_mixed_queries_refuted :
  exists e kv x y, q_features e = Dict kv /\ dget String.eqb kv "query" = Some (Leaf [x; y]) /\ x <> y /\
    exists r, outcome (ndcg_combiner sorted_idx ap_sort true "" "" "" "" "gain" [Some 1]) (Bundle [e]) = Ok [Some r].
Proof. exact C140_mixed_queries_refuted_pf. Qed.

Print Assumptions C19_ndcg_mean.
Print Assumptions C19_ndcg_schedule.
Print Assumptions C19_ndcg_range.
Print Assumptions C19_perfect_ranking.
Print Assumptions C19_mean_range.
Print Assumptions C139_reported_cutoffs.
Print Assumptions C139_cutoffs_accepted.
Print Assumptions C139_top_k_list_alone_refuted.
Print Assumptions C140_mixed_queries_refuted.
