(* Histogram *)
From Coq Require Import String Ascii Sorting.Sorted.
From Verif Require Import Base BaseFacts Beam BeamFacts Util_Model Util_Main Inputs_Model Inputs_Main Sums_Model Sums_Main Histogram_Model.
From Verif Require Import Histogram_Main.
Local Open Scope string_scope.
Local Open Scope list_scope.

(* ------------------------------------------------------------------ *)
(** ** C12 *)
(** Every prediction other than NaN falls in exactly one bucket: the one whose
    interval contains it. *)
Theorem C12_bucket_contains :
  forall nb left right p, 1 <= nb -> (left < right)%Qc -> p <> NaN ->
    exists i, bucket_index nb left (right - left)%Qc p = Ok i /\
      forall j, in_bucket nb left right j p = true <-> j = i.
Proof. exact C12_bucket_contains_pf. Qed.

Example C12_bucket_contains_ex :
  bucket_index 4 0%Qc (1 - 0)%Qc (Fin (Q2Qc (1 # 2))) = Ok 3 /\
  in_bucket 4 0%Qc 1%Qc 3 (Fin (Q2Qc (1 # 2))) = true /\
  bucket_index 4 0%Qc (1 - 0)%Qc (Fin 1%Qc) = Ok 5 /\
  bucket_index 4 0%Qc (1 - 0)%Qc NaN = Err ValueError.
Proof. repeat split. Qed.

Theorem C12_histogram_conserves :
  forall ap nb left right bp fr weighted lk pk m o s ex w,
    1 <= nb -> (left < right)%Qc -> (bp = false -> fr = false) ->
    (forall e, In e (inputs s) ->
       carries weighted m o e (Reading (map fst (ex e)) (map snd (ex e)) [w e]) /\ ex e <> [] /\
       forall l p, In (l, p) (ex e) -> p <> NaN /\ (fr = true -> unit_label l)) ->
    let D := scored_of ex w (inputs s) in
    exists h,
      outcome (histogram_combiner ap nb left right bp (histogram_options None false weighted fr None) lk pk m o) s = Ok h /\
      ascending h /\
      (forall i t, In (i, t) h ->
         let E := over nb left right bp i D in
         i <= nb + 1 /\ E <> [] /\
         t_labels t = qsum (map weighted_label E) /\ t_examples t = qsum (map sc_weight E) /\
         ((forall x, In x D -> exists q, sc_score x = Fin q) -> t_predictions t = Fin (qsum (map weighted_score E)))) /\
      (forall i x, ~ In i (map fst h) -> In x (over nb left right bp i D) -> fr = true /\ sc_weight x = 0%Qc) /\
      qsum (map (fun b => t_labels (snd b)) h) = qsum (map weighted_label D) /\
      qsum (map (fun b => t_examples (snd b)) h) = qsum (map sc_weight D) /\
      ((forall x, In x D -> exists q, sc_score x = Fin q) ->
       qsum (map (fun b => finite_part (t_predictions (snd b))) h) = qsum (map weighted_score D)).
Proof. exact C12_histogram_conserves_pf. Qed.

Example C12_histogram_conserves_ex :
  outcome (histogram_combiner ap_sort 2 0%Qc 1%Qc true (histogram_options None false true true None) "" "" "cand" "")
    (Merge (Bundle [binary 1 (9#10) 2]) [Bundle [binary (1#2) (6#10) 2; binary 0 (3#10) 0; binary 0 (6#5) 1]]) =
  Ok [(2, Totals (qz 3) (Fin (qz 3)) (qz 4)); (3, Totals 0%Qc (Fin (Q2Qc (6#5))) 1%Qc)].
Proof. qc_ex. Qed.

(* ------------------------------------------------------------------ *)
(** ** C13 *)
Theorem C13_rebin :
  forall ths hist nb left right,
    ths <> [] -> ~ In NaN ths -> StronglySorted (fun a b => num_leb a b = true) ths ->
    (left <= right)%Qc -> ascending hist ->
    let out := rebin ths hist nb left right in
    map fst out = seq 0 (length ths) /\
    (forall i t, In (i, t) out ->
       let E := filter (fun b => between ths i (lower_edge nb left right (fst b))) hist in
       t_labels t = qsum (map (fun b => t_labels (snd b)) E) /\
       t_examples t = qsum (map (fun b => t_examples (snd b)) E) /\
       t_predictions t = fold_right num_plus (Fin 0%Qc) (map (fun b => t_predictions (snd b)) E)) /\
    qsum (map (fun b => t_labels (snd b)) out) = qsum (map (fun b => t_labels (snd b)) hist) /\
    qsum (map (fun b => t_examples (snd b)) out) = qsum (map (fun b => t_examples (snd b)) hist) /\
    fold_right num_plus (Fin 0%Qc) (map (fun b => t_predictions (snd b)) out) =
    fold_right num_plus (Fin 0%Qc) (map (fun b => t_predictions (snd b)) hist).
Proof. exact C13_rebin_pf. Qed.

Example C13_rebin_ex :
  rebin [Fin 0%Qc; Fin (Q2Qc (1#4)); Fin (Q2Qc (1#2)); PosInf] small_hist 4 0%Qc 1%Qc =
  [(0, Totals 0%Qc (Fin (- (1))%Qc) 1%Qc); (1, Totals 1%Qc (Fin (Q2Qc (1#2))) (qz 2)); (2, totals_zero);
   (3, Totals (qz 3) (Fin (qz 6)) (qz 3))] /\ ascending small_hist.
Proof. split; [qc_ex|]. unfold ascending. simpl. repeat constructor. Qed.

(* ------------------------------------------------------------------ *)
(** ** C16 *)
Theorem C16_histogram_conserves_refuted :
  (exists m, histogram_result [Fin (Q2Qc (3#2))] one_positive 1 = Ok m /\ ~ conserves m one_positive 0) /\
  (exists m, histogram_result [Fin (Q2Qc (1#2)); Fin (Q2Qc (3#2))] one_positive 1 = Ok m /\
     conserves m one_positive 0 /\ ~ conserves m one_positive 1).
Proof. exact C16_histogram_conserves_refuted_pf. Qed.

(** If no threshold reaches 1 + 1e-7, or the first one is negative, every example
    is counted at every threshold. *)
Theorem C16_histogram_conserves_partial :
  forall ths h nb, ths <> [] -> ~ In NaN ths -> ascending h -> h <> [] ->
    (forall t, In t ths -> num_ltb t (Fin (1 + Q2Qc (1 # 10000000))%Qc) = true) \/
    num_ltb (nth 0 ths NaN) (Fin 0%Qc) = true ->
    exists m, histogram_result ths h nb = Ok m /\ m_thresholds m = ths /\
      forall i, i < length ths -> conserves m h i.
Proof. exact C16_histogram_conserves_partial_pf. Qed.

Example C16_histogram_conserves_ex :
  (let! m := histogram_result [Fin (Q2Qc (1#4)); Fin (Q2Qc (3#4))] small_hist 4 in Ok (m_tp m, m_tn m, m_fp m, m_fn m)) =
  Ok ([qz 3; qz 3], [qz 2; qz 2], [0%Qc; 0%Qc], [1%Qc; 1%Qc]) /\
  positives small_hist = qz 4 /\ negatives small_hist = qz 2.
Proof. repeat split; qc_ex. Qed.

(* ------------------------------------------------------------------ *)
(** ** C64 *)
(** True and false positives from the histogram lie between the exact counts at t
    and the exact counts one bucket width further on. *)
Theorem C64_histogram_sandwich_partial :
  forall ap nb fr weighted lk pk m o s ex w qs,
    1 <= nb -> qs <> [] -> StronglySorted Qcle qs ->
    (forall q, In q qs -> (0 < q)%Qc /\ (q + Q2Qc (1 # 10000000) < 1)%Qc) ->
    (forall e, In e (inputs s) ->
       carries weighted m o e (Reading (map fst (ex e)) (map snd (ex e)) [w e]) /\ ex e <> [] /\ (0 <= w e)%Qc /\
       forall l p, In (l, p) (ex e) -> p <> NaN /\ (0 <= l <= 1)%Qc) ->
    let D := scored_of ex w (inputs s) in
    exists h c,
      outcome (histogram_combiner ap nb 0%Qc 1%Qc true (histogram_options None false weighted fr None) lk pk m o) s = Ok h /\
      histogram_result (map Fin qs) h nb = Ok c /\
      forall i, i < length qs ->
        let t := nth i qs 0%Qc in
        (qsum (map weighted_label (scores_clearly_above nb t D)) <= tp_at c i)%Qc /\
        (tp_at c i <= qsum (map weighted_label (scores_above t D)))%Qc /\
        (qsum (map weighted_negative (scores_clearly_above nb t D)) <= fp_at c i)%Qc /\
        (fp_at c i <= qsum (map weighted_negative (scores_above t D)))%Qc /\
        (tp_at c i + fn_at c i = qsum (map weighted_label D))%Qc /\
        (fp_at c i + tn_at c i = qsum (map weighted_negative D))%Qc.
Proof. exact C64_histogram_sandwich_partial_pf. Qed.

Example C64_histogram_sandwich_ex :
  (let! h := outcome (histogram_combiner ap_sort 10 0%Qc 1%Qc true (histogram_options None false true true None) "" "" "" "")
    (Merge (Bundle [plain 1 (97#100) 2]) [Bundle [plain 1 (52#100) 4; plain 1 (45#100) 8; plain 0 (7#10) 1]]) in
   let! c := histogram_result [Fin (Q2Qc (1#2))] h 10 in Ok (m_tp c, m_fn c, m_fp c, m_tn c)) =
  Ok ([qz 2], [qz 12], [1%Qc], [0%Qc]).
Proof. qc_ex. Qed.

(** Refuted: "the matrix at t counts exactly the predictions above t".  A score just
    above t is missed, and at t = 0 (and t = 1) a score equal to t is counted. *)
Theorem C64_histogram_exact_refuted :
  (exists h c, outcome (histogram_combiner ap_sort 10 0%Qc 1%Qc true (histogram_options None false true true None) "" "" "" "")
      (Bundle [plain 1 (55#100) 1]) = Ok h /\ histogram_result [Fin (Q2Qc (1#2))] h 10 = Ok c /\ tp_at c 0 = 0%Qc) /\
  (exists h c, outcome (histogram_combiner ap_sort 10 0%Qc 1%Qc true (histogram_options None false true true None) "" "" "" "")
      (Bundle [plain 1 0 1]) = Ok h /\ histogram_result [Fin 0%Qc; Fin (Q2Qc (1#2))] h 10 = Ok c /\ tp_at c 0 = 1%Qc) /\
  (exists h c, outcome (histogram_combiner ap_sort 10 0%Qc 1%Qc true (histogram_options None false true true None) "" "" "" "")
      (Bundle [plain 1 1 1]) = Ok h /\ histogram_result [Fin (Q2Qc (1#2)); Fin 1%Qc] h 10 = Ok c /\ tp_at c 1 = 1%Qc).
Proof. exact C64_histogram_exact_refuted_pf. Qed.

(* ------------------------------------------------------------------ *)
(** ** C65 *)
(** Refuted: class 0 is positive but never in the top 1, and yet a true positive;
    and scores 1/2 and 2, both in the top 1, of which only one is counted. *)
Theorem C65_top_k_positives_refuted :
  (exists h c,
     outcome (histogram_combiner ap_sort 1 0%Qc 1%Qc true top_1_of_class_0 "" "" "" "")
       (Bundle [two_class 1 0 (1#5) (4#5)]) = Ok h /\
     histogram_result [NegInf] h 1 = Ok c /\ tp_at c 0 = 1%Qc /\ fn_at c 0 = 0%Qc) /\
  (exists h c,
     outcome (histogram_combiner ap_sort 1 0%Qc 1%Qc true top_1_of_class_0 "" "" "" "")
       (Bundle [two_class 1 0 (1#2) (1#5); two_class 1 0 2 (1#5)]) = Ok h /\
     histogram_result [NegInf] h 1 = Ok c /\ tp_at c 0 = 1%Qc /\ fn_at c 0 = 1%Qc).
Proof. exact C65_top_k_positives_refuted_pf. Qed.

(** When both selected and unselected predictions occur, the count is right. *)
Theorem C65_top_k_positives_partial :
  forall h nb, ascending h -> In 0 (map fst h) -> 1 < length h ->
    exists c, histogram_result [NegInf] h nb = Ok c /\
      let sel := filter (fun b => negb (Nat.eqb (fst b) 0)) h in
      let uns := filter (fun b => Nat.eqb (fst b) 0) h in
      tp_at c 0 = positives sel /\ fp_at c 0 = negatives sel /\
      fn_at c 0 = positives uns /\ tn_at c 0 = negatives uns.
Proof. exact C65_top_k_positives_partial_pf. Qed.

Example C65_top_k_positives_ex :
  (let! h := outcome (histogram_combiner ap_sort 1 0%Qc 1%Qc true top_1_of_class_0 "" "" "" "")
      (Bundle [two_class 1 0 (1#2) (1#5); two_class 1 0 (1#10) (1#5)]) in
   let! c := histogram_result [NegInf] h 1 in Ok (m_tp c, m_fn c)) = Ok ([1%Qc], [1%Qc]).
Proof. qc_ex. Qed.

Print Assumptions C12_bucket_contains.
Print Assumptions C12_histogram_conserves.
Print Assumptions C13_rebin.
Print Assumptions C16_histogram_conserves_refuted.
Print Assumptions C16_histogram_conserves_partial.
Print Assumptions C64_histogram_sandwich_partial.
Print Assumptions C64_histogram_exact_refuted.
Print Assumptions C65_top_k_positives_refuted.
Print Assumptions C65_top_k_positives_partial.
