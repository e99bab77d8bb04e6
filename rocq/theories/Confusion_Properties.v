(* Confusion *)
From Coq Require Import String Ascii Sorting.Sorted.
From Verif Require Import Base BaseFacts Beam BeamFacts Util_Model Util_Main Inputs_Model Inputs_Main Sums_Model Sums_Main Histogram_Model Histogram_Main Confusion_Model.
From Verif Require Import Confusion_Main.
Local Open Scope string_scope.
Local Open Scope list_scope.

(* ------------------------------------------------------------------ *)
(** ** C14 *)
(** Cells at every threshold are the weights of the examples that belong there. *)
Theorem C14_confusion_counts :
  forall ap ths limit fr weighted lk pk m o s ex w,
    NoDup ths -> 1 <= limit ->
    (forall e, In e (inputs s) -> well_formed weighted fr m o ex w (snd e)) ->
    let D := scored_of ex w (map snd (inputs s)) in
    exists cm xm,
      outcome (confusion_combiner ap ths limit (histogram_options None false weighted fr None) lk pk m o) s = Ok (cm, xm) /\
      m_thresholds cm = ths /\
      length (m_tp cm) = length ths /\ length (m_tn cm) = length ths /\
      length (m_fp cm) = length ths /\ length (m_fn cm) = length ths /\
      forall i, i < length ths ->
        let t := nth i ths NaN in
        tp_at cm i = qsum (map (positive_weight fr t) (filter (predicted t) D)) /\
        fn_at cm i = qsum (map (positive_weight fr t) (filter (not_predicted t) D)) /\
        fp_at cm i = qsum (map (negative_weight fr t) (filter (predicted t) D)) /\
        tn_at cm i = qsum (map (negative_weight fr t) (filter (not_predicted t) D)).
Proof. exact C14_confusion_counts_pf. Qed.

Example C14_confusion_counts_ex :
  (let! r := outcome (confusion_combiner ap_sort [Fin (Q2Qc (1#2)); Fin (Q2Qc (3#4))] 2
      (histogram_options None false true true None) "" "" "" "")
    (Merge (Bundle [(Some "a", plain 1 (97#100) 2)])
       [Bundle [(Some "b", plain 1 (52#100) 4); (Some "c", plain 1 (45#100) 8)]; Then (Bundle []) [(None, plain (1#4) (7#10) 4)]]) in
   Ok (m_tp (fst r), m_fn (fst r), m_fp (fst r), m_tn (fst r), x_tp (snd r), x_fn (snd r))) =
  Ok ([qz 7; qz 2], [qz 8; qz 13], [qz 3; 0%Qc], [0%Qc; qz 3], [["a"; "b"]; ["a"]], [["c"]; ["b"; "c"]]).
Proof. qc_ex. Qed.

(* ------------------------------------------------------------------ *)
(** ** C15 *)
Theorem C15_confusion_conserved_monotone :
  forall ap ths limit weighted lk pk m o s ex w,
    NoDup ths -> 1 <= limit ->
    (forall e, In e (inputs s) -> well_formed weighted true m o ex w (snd e)) ->
    let D := scored_of ex w (map snd (inputs s)) in
    exists cm xm,
      outcome (confusion_combiner ap ths limit (histogram_options None false weighted true None) lk pk m o) s = Ok (cm, xm) /\
      (forall i, i < length ths ->
         (tp_at cm i + fn_at cm i = qsum (map (fun x => sc_weight x * sc_label x)%Qc D))%Qc /\
         (fp_at cm i + tn_at cm i = qsum (map (fun x => sc_weight x * (1 - sc_label x))%Qc D))%Qc) /\
      ((forall x, In x D -> (0 <= sc_weight x)%Qc /\ (0 <= sc_label x <= 1)%Qc) ->
       forall i j, i < length ths -> j < length ths -> num_leb (nth i ths NaN) (nth j ths NaN) = true ->
         (tp_at cm j <= tp_at cm i /\ fp_at cm j <= fp_at cm i /\
          fn_at cm i <= fn_at cm j /\ tn_at cm i <= tn_at cm j)%Qc).
Proof. exact C15_confusion_conserved_monotone_pf. Qed.

(** The same monotonicity for matrices derived from any histogram. *)
Theorem C15_histogram_monotone :
  forall ths h nb, ths <> [] -> ~ In NaN ths -> ascending h -> h <> [] ->
    (forall b, In b h -> (0 <= t_labels (snd b) <= t_examples (snd b))%Qc) ->
    (forall t, In t ths -> num_ltb t (Fin (1 + Q2Qc (1 # 10000000))%Qc) = true) \/
    num_ltb (nth 0 ths NaN) (Fin 0%Qc) = true ->
    exists cm, histogram_result ths h nb = Ok cm /\
      forall i j, i <= j < length ths -> num_leb (nth i ths NaN) (nth j ths NaN) = true ->
        (tp_at cm j <= tp_at cm i /\ fp_at cm j <= fp_at cm i /\
         fn_at cm i <= fn_at cm j /\ tn_at cm i <= tn_at cm j)%Qc.
Proof. exact C15_histogram_monotone_pf. Qed.

Example C15_monotone_ex :
  (let! cm := histogram_result [Fin (Q2Qc (1#4)); Fin (Q2Qc (3#4))]
     [(1, Totals 1%Qc (Fin 0%Qc) (qz 2)); (3, Totals 1%Qc (Fin 1%Qc) (qz 3)); (4, Totals (qz 2) (Fin (qz 2)) (qz 2))] 4 in
   Ok (m_tp cm, m_fp cm, m_fn cm, m_tn cm)) =
  Ok ([qz 3; 0%Qc], [qz 2; 0%Qc], [1%Qc; qz 4], [1%Qc; qz 3]).
Proof. qc_ex. Qed.

(* ------------------------------------------------------------------ *)
(** ** C66 *)
(** Sampled example ids: the first [limit] ids, in the order the elements were
    combined, of the elements that take part in the cell. *)
Theorem C66_example_ids :
  forall ap ths limit fr weighted lk pk m o s ex w,
    NoDup ths -> 1 <= limit ->
    (forall e, In e (inputs s) -> well_formed weighted fr m o ex w (snd e)) ->
    exists cm xm,
      outcome (confusion_combiner ap ths limit (histogram_options None false weighted fr None) lk pk m o) s = Ok (cm, xm) /\
      x_thresholds xm = ths /\
      forall i, i < length ths ->
        let ids c := flat_map (fun e => if existsb (takes_part fr (nth i ths NaN) c) (examples_of ex w (snd e))
                                        then match fst e with Some x => [x] | None => [] end else []) (inputs s) in
        nth i (x_tp xm) [] = firstn limit (ids TP) /\ nth i (x_fn xm) [] = firstn limit (ids FN) /\
        nth i (x_fp xm) [] = firstn limit (ids FP) /\ nth i (x_tn xm) [] = firstn limit (ids TN).
Proof. exact C66_example_ids_pf. Qed.

Example C66_example_ids_ex :
  (let! r := outcome (confusion_combiner ap_sort [Fin (Q2Qc (1#2))] 2 (histogram_options None false true true None) "" "" "" "")
    (Merge (Bundle [(Some "a", plain 1 (97#100) 2); (None, plain 1 (52#100) 4)])
       [Bundle [(Some "b", plain (1#2) (55#100) 8); (Some "c", plain 1 (9#10) 8)]]) in
   Ok (x_tp (snd r), x_fp (snd r))) = Ok ([["a"; "b"]], [["b"]]).
Proof. qc_ex. Qed.

(* ------------------------------------------------------------------ *)
(** ** C67 *)
(** Refuted: counts at a threshold do not depend on the other thresholds asked for. *)
Theorem C67_repeated_threshold_refuted :
  exists s, forall r1 r2,
    outcome (confusion_combiner ap_sort [Fin (Q2Qc (1#2))] 1 (histogram_options None false true true None) "" "" "" "") s = Ok r1 ->
    outcome (confusion_combiner ap_sort [Fin (Q2Qc (1#2)); Fin (Q2Qc (1#2))] 1 (histogram_options None false true true None) "" "" "" "") s = Ok r2 ->
    tp_at (fst r1) 0 = 1%Qc /\ tp_at (fst r2) 0 = qz 2 /\ tp_at (fst r2) 1 = qz 2.
Proof. exact C67_repeated_threshold_refuted_pf. Qed.

(** Without repetitions they do not. *)
Theorem C67_repeated_threshold_partial :
  forall ap ths1 ths2 limit fr weighted lk pk m o s ex w,
    NoDup ths1 -> NoDup ths2 -> 1 <= limit ->
    (forall e, In e (inputs s) -> well_formed weighted fr m o ex w (snd e)) ->
    exists r1 r2,
      outcome (confusion_combiner ap ths1 limit (histogram_options None false weighted fr None) lk pk m o) s = Ok r1 /\
      outcome (confusion_combiner ap ths2 limit (histogram_options None false weighted fr None) lk pk m o) s = Ok r2 /\
      forall i j, i < length ths1 -> j < length ths2 -> nth i ths1 NaN = nth j ths2 NaN ->
        tp_at (fst r1) i = tp_at (fst r2) j /\ fn_at (fst r1) i = fn_at (fst r2) j /\
        fp_at (fst r1) i = fp_at (fst r2) j /\ tn_at (fst r1) i = tn_at (fst r2) j.
Proof. exact C67_repeated_threshold_partial_pf. Qed.

Example C67_repeated_threshold_ex :
  (let! r := outcome (confusion_combiner ap_sort [Fin (Q2Qc (3#4)); Fin (Q2Qc (1#2))] 1 (histogram_options None false true true None) "" "" "" "")
     (Bundle [(None, plain 1 (9#10) 1); (None, plain 1 (6#10) 1)]) in Ok (m_tp (fst r))) = Ok [1%Qc; qz 2].
Proof. qc_ex. Qed.

(* ------------------------------------------------------------------ *)
(** ** C43 *)
(** Refuted: self has the threshold 0.5, other has 0.1, 0.2 (and possibly 0.5). *)
Theorem C43_elementwise_refuted :
  exists self other,
    proper_matrices self /\ proper_matrices other /\
    (forall t, In t (m_thresholds self) -> In t (m_thresholds other)) /\
    forall fuel, 10 <= fuel -> elementwise Qcplus fuel self other = Some (Err IndexError).
Proof. exact C43_elementwise_refuted_pf. Qed.

(** If the thresholds of other are among those of self the operation succeeds, and
    every cell is the operation on the cells at that threshold (0 where missing). *)
Theorem C43_elementwise_partial :
  forall op self other, proper_matrices self -> proper_matrices other ->
    (forall t, In t (m_thresholds other) -> In t (m_thresholds self)) ->
    exists m, (forall fuel, length (m_thresholds self) < fuel -> elementwise op fuel self other = Some (Ok m)) /\
      m_thresholds m = m_thresholds self /\
      forall i, i < length (m_thresholds self) ->
        exists a b c d, cells_at other (nth i (m_thresholds self) NaN) = (a, b, c, d) /\
          tp_at m i = op (tp_at self i) a /\ tn_at m i = op (tn_at self i) b /\
          fp_at m i = op (fp_at self i) c /\ fn_at m i = op (fn_at self i) d.
Proof. exact C43_elementwise_partial_pf. Qed.

Example C43_elementwise_ex :
  elementwise Qcminus 5 (Matrices [half; Fin 1%Qc] [qz 3; 1%Qc] [qz 2; qz 2] [1%Qc; 0%Qc] [0%Qc; 0%Qc]) (one_row (Fin 1%Qc)) =
  Some (Ok (Matrices [half; Fin 1%Qc] [qz 3; 0%Qc] [qz 2; 1%Qc] [1%Qc; qz (-1)] [0%Qc; qz (-1)])).
Proof. qc_ex. Qed.

Print Assumptions C14_confusion_counts.
Print Assumptions C15_confusion_conserved_monotone.
Print Assumptions C15_histogram_monotone.
Print Assumptions C66_example_ids.
Print Assumptions C67_repeated_threshold_refuted.
Print Assumptions C67_repeated_threshold_partial.
Print Assumptions C43_elementwise_refuted.
Print Assumptions C43_elementwise_partial.
