(* Attributions *)
From Coq Require Import String Ascii.
From Coq Require Import Qcabs Sorted.
From Verif Require Import Base BaseFacts Beam BeamFacts Util_Model Keys_Model Keys_Main Inputs_Model Inputs_Main Sums_Model Sums_Main Means_Model Attributions_Model.
From Verif Require Import Attributions_Main.
Local Open Scope string_scope.
Local Open Scope list_scope.

(* ------------------------------------------------------------------ *)
(** ** C177 totals *)
(** Every schedule totals the attributions of each feature that occurs, entry by entry,
    each multiplied by the weight of its example. *)
Theorem C177_totals : forall ap absolute key lk pk s rs,
  argpartition_ok ap -> sub_key_ok (k_sub key) ->
  Forall2 (says ap key lk pk) (inputs s) rs -> same_sizes rs ->
  exists d,
    outcome (total_combiner ap absolute key lk pk) s = Ok [(key, d)] /\
    NoDup (map fst d) /\
    (forall f, In f (map fst d) <-> exists r l, In r rs /\ In (f, l) (fst r)) /\
    (forall f a r l, In (f, a) d -> In r rs -> In (f, l) (fst r) -> length (parts a) = length l) /\
    (forall f a i, In (f, a) d -> nth i (parts a) 0%Qc = total_of absolute f i rs) /\
    (forall f a, In (f, a) d -> match a with One _ => True | Many xs => length xs <> 1 end).
Proof. exact C177_totals_pf. Qed.

(** A result is reported just when every example can be read and the sizes agree,
    whatever the schedule. *)
Theorem C177_refused : forall ap absolute key lk pk s,
  argpartition_ok ap -> sub_key_ok (k_sub key) ->
  is_ok (outcome (total_combiner ap absolute key lk pk) s) = true <->
  exists rs, Forall2 (says ap key lk pk) (inputs s) rs /\ same_sizes rs.
Proof. exact C177_refused_pf. Qed.

(** Totals of absolute values bound those of the attributions themselves, even computed
    by another schedule. *)
Theorem C177_absolute : forall ap k1 k2 lk pk s1 s2 d1 d2 f a1 a2 i,
  argpartition_ok ap -> sub_key_ok (k_sub k1) ->
  k_model k2 = k_model k1 -> k_output k2 = k_output k1 -> k_sub k2 = k_sub k1 -> k_weighted k2 = k_weighted k1 ->
  Permutation (inputs s1) (inputs s2) ->
  outcome (total_combiner ap false k1 lk pk) s1 = Ok [(k1, d1)] ->
  outcome (total_combiner ap true k2 lk pk) s2 = Ok [(k2, d2)] ->
  In (f, a1) d1 -> In (f, a2) d2 ->
  (Qcabs (nth i (parts a1) 0) <= nth i (parts a2) 0)%Qc.
Proof. exact C177_absolute_pf. Qed.

Example C177_totals_example :
  let e1 := ex_attributed (qz 2) [("age", Scalar (qz 3)); ("words", Row [1%Qc; qz (-1)])] in
  let e2 := ex_attributed 1%Qc [("age", Scalar (qz (-4)))] in
  outcome (total_combiner ap_sort false (ex_key true None) "" "") (Merge (Bundle [e1]) [Bundle []; Bundle [e2]]) =
    Ok [(ex_key true None, [("age", One (qz 2)); ("words", Many [qz 2; qz (-2)])])] /\
  outcome (total_combiner ap_sort true (ex_key true None) "" "") (Then (Bundle [e2]) [e1]) =
    Ok [(ex_key true None, [("age", One (qz 10)); ("words", Many [qz 2; qz 2])])] /\
  says ap_sort (ex_key true None) "" "" e1 ([("age", [qz 3]); ("words", [1%Qc; qz (-1)])], qz 2).
Proof.
  split; [vm_compute; qc_ex|]. split; [vm_compute; qc_ex|].
  eexists _, _, _, _, _. split; [reflexivity|]. split; [reflexivity|]. split; [reflexivity|].
  split; [reflexivity|]. split; [reflexivity|].
  repeat constructor; cbn [fst snd]; eexists; (split; [reflexivity|]); repeat constructor.
Qed.

Example C177_absolute_example :
  let es := [ex_attributed 1%Qc [("age", Scalar (qz 3))]; ex_attributed 1%Qc [("age", Scalar (qz (-4)))]] in
  outcome (total_combiner ap_sort false (ex_key true None) "" "") (Bundle es) = Ok [(ex_key true None, [("age", One (qz (-1)))])] /\
  outcome (total_combiner ap_sort true (ex_key true None) "" "") (Bundle es) = Ok [(ex_key true None, [("age", One (qz 7))])].
Proof. split; vm_compute; qc_ex. Qed.

Example C177_refused_example :
  let e1 := ex_attributed 1%Qc [("words", Row [1%Qc; 1%Qc])] in
  let e2 := ex_attributed 1%Qc [("words", Row [1%Qc])] in
  outcome (total_combiner ap_sort false (ex_key true None) "" "") (Merge (Bundle [e1]) [Bundle [e2]]) = Err ValueError /\
  outcome (total_combiner ap_sort false (ex_key true None) "" "") (Bundle [Attributed (a_inputs e1) None]) = Err ValueError.
Proof. split; reflexivity. Qed.

(* ------------------------------------------------------------------ *)
(** ** C178 selection by sub key *)
(** C178: a class takes its entry, or its row of a table; a class out of range is
    refused. *)
Theorem C178_class : forall ap c k t,
  (forall l, (0 <= c < Z.of_nat (length l))%Z ->
     select_scores ap (Some (SubKey (Some c) k t)) (Row l) = Ok (Scalar (nth (Z.to_nat c) l 0%Qc))) /\
  (forall rows, (0 <= c < Z.of_nat (length rows))%Z ->
     select_scores ap (Some (SubKey (Some c) k t)) (Table rows) = Ok (Row (nth (Z.to_nat c) rows []))) /\
  (forall v, (match v with Scalar _ => True | Row l => c < 0 \/ Z.of_nat (length l) <= c
                         | Table rows => c < 0 \/ Z.of_nat (length rows) <= c end)%Z ->
     is_ok (select_scores ap (Some (SubKey (Some c) k t)) v) = false).
Proof. exact C178_class_pf. Qed.

Example C178_class_example :
  select_scores ap_sort (Some (SubKey (Some 1%Z) None None)) (Row [qz 5; qz 7]) = Ok (Scalar (qz 7)) /\
  select_scores ap_sort (Some (SubKey (Some 2%Z) None None)) (Row [qz 5; qz 7]) = Err ValueError.
Proof. split; reflexivity. Qed.

(** C178: top k takes the k largest, largest first; k takes the kth largest; fewer than
    k attributions, a number or a table are refused. *)
Theorem C178_top_k : forall ap k t, argpartition_ok ap -> 1 <= k ->
  (forall l, k <= length l -> exists best rest,
     select_scores ap (Some (SubKey None None (Some k))) (Row l) = Ok (Row best) /\
     select_scores ap (Some (SubKey None (Some k) t)) (Row l) = Ok (Scalar (nth (k - 1) best 0%Qc)) /\
     length best = k /\ Permutation l (best ++ rest) /\
     (forall i j, i <= j < k -> (nth j best 0 <= nth i best 0)%Qc) /\
     (forall x y, In x best -> In y rest -> (y <= x)%Qc)) /\
  (forall v, (match v with Row l => length l < k | _ => True end) ->
     is_ok (select_scores ap (Some (SubKey None None (Some k))) v) = false /\
     is_ok (select_scores ap (Some (SubKey None (Some k) t)) v) = false).
Proof. exact C178_top_k_pf. Qed.

Example C178_top_k_example :
  select_scores ap_sort (Some (SubKey None None (Some 2))) (Row [qz 5; qz 7; qz (-9); qz 6]) = Ok (Row [qz 7; qz 6]) /\
  select_scores ap_sort (Some (SubKey None (Some 2) None)) (Row [qz 5; qz 7; qz (-9); qz 6]) = Ok (Scalar (qz 6)).
Proof. split; reflexivity. Qed.

(** C178: without sub key a table of more than one column is refused by every schedule
    that has such an example. *)
Theorem C178_table_refused : forall ap absolute key lk pk s e d f rows,
  argpartition_ok ap -> k_sub key = None -> k_model key = "" -> k_output key = "" ->
  In e (inputs s) -> a_attributions e = Some (Dict d) -> In (f, Leaf (Table rows)) d ->
  (exists r, In r rows /\ length r <> 1) ->
  is_ok (outcome (total_combiner ap absolute key lk pk) s) = false.
Proof. exact C178_table_refused_pf. Qed.

Example C178_table_refused_example :
  outcome (total_combiner ap_sort false (ex_key false None) "" "") (Bundle [ex_attributed 1%Qc [("f", Table [[1%Qc; 1%Qc]; [1%Qc; 1%Qc]])]]) = Err ValueError /\
  outcome (total_combiner ap_sort false (ex_key false (Some (SubKey (Some 1%Z) None None))) "" "")
    (Bundle [Attributed (InputsDict (Some (Leaf [1%Qc; 0%Qc])) (Some (Leaf [Fin 1%Qc; Fin 0%Qc])) None) (Some (Dict [("f", Leaf (Table [[1%Qc; 1%Qc]; [qz 2; qz 3]]))]))]) =
    Ok [(ex_key false (Some (SubKey (Some 1%Z) None None)), [("f", Many [qz 2; qz 3])])].
Proof. split; vm_compute; qc_ex. Qed.

(* ------------------------------------------------------------------ *)
(** ** C179 means *)
(** C179, unless the total weight is within 10^-8 of 0: the mean of a feature is its total
    over the total weight of all examples, those without the feature included. *)
Theorem C179_means_partial : forall ap absolute name model output sk weighted lk pk s1 s2 rs metrics d c,
  argpartition_ok ap -> sub_key_ok sk ->
  Forall2 (says ap (total_key absolute model output sk weighted) lk pk) (inputs s1) rs ->
  outcome (total_combiner ap absolute (total_key absolute model output sk weighted) lk pk) s1 = Ok [(total_key absolute model output sk weighted, d)] ->
  Permutation (inputs s2) (map (fun e => i_weight (a_inputs e)) (inputs s1)) ->
  outcome (example_count weighted model output) s2 = Ok c ->
  dget metric_key_eqb metrics (total_key absolute model output sk weighted) = Some (Totals d) ->
  dget metric_key_eqb metrics (MetricKey "example_count" model output sk None (Some weighted) false) = Some (Count c) ->
  (Q2Qc (1 # 100000000) < Qcabs (qsum (map snd rs)))%Qc ->
  exists means,
    mean_attributions absolute name model output sk weighted metrics =
      Ok [(MetricKey name model output sk None (Some weighted) false, means)] /\
    NoDup (map fst means) /\
    (forall f, In f (map fst means) <-> exists r l, In r rs /\ In (f, l) (fst r)) /\
    (forall f a r l, In (f, a) means -> In r rs -> In (f, l) (fst r) -> length (parts a) = length l) /\
    (forall f a i, In (f, a) means -> i < length (parts a) ->
       nth i (parts a) NaN = Fin (total_of absolute f i rs / qsum (map snd rs))%Qc).
Proof. exact C179_means_partial_pf. Qed.

Example C179_means_example :
  let e1 := ex_attributed (qz 2) [("age", Scalar (qz 3)); ("words", Row [1%Qc; qz (-1)])] in
  let e2 := ex_attributed (qz 3) [("age", Scalar (qz (-4)))] in
  (let! t := outcome (total_combiner ap_sort true (total_key true "" "" None true) "" "") (Bundle [e1; e2]) in
   let! c := outcome (example_count true "" "") (Bundle [i_weight (a_inputs e1); i_weight (a_inputs e2)]) in
   mean_attributions true "a" "" "" None true ((count_key "" "" None true, Count c) :: map (fun kd => (fst kd, Totals (snd kd))) t)) =
  Ok [(ex_key true None, [("age", One (Fin (Q2Qc (18 # 5)))); ("words", Many [Fin (Q2Qc (2 # 5)); Fin (Q2Qc (2 # 5))])])].
Proof. vm_compute. qc_ex. Qed.

(** C179 fails for small weights: an attribution of 2 in the only example, of weight
    10^-9, has no mean. *)
Theorem C179_small_weights_refuted : exists e rs d c,
  let key := total_key false "" "" None true in
  Forall2 (says ap_sort key "" "") [e] rs /\
  outcome (total_combiner ap_sort false key "" "") (Bundle [e]) = Ok [(key, d)] /\
  outcome (example_count true "" "") (Bundle [i_weight (a_inputs e)]) = Ok c /\
  qsum (map snd rs) <> 0%Qc /\ (total_of false "age" 0 rs / qsum (map snd rs))%Qc = qz 2 /\
  mean_attributions false "a" "" "" None true [(key, Totals d); (count_key "" "" None true, Count c)] =
    Ok [(ex_key true None, [("age", One NaN)])].
Proof. exact C179_small_weights_refuted_pf. Qed.

(** C179: each metric reads the totals of its own kind, model, output, sub key and
    weighting, and the totals themselves are reported unchanged. *)
Theorem C179_own_totals : forall a1 m1 o1 s1 w1,
  (forall a2 m2 o2 s2 w2, total_key a1 m1 o1 s1 w1 = total_key a2 m2 o2 s2 w2 -> a1 = a2 /\ m1 = m2 /\ o1 = o2 /\ s1 = s2 /\ w1 = w2) /\
  (forall m2 o2 s2 w2, total_key a1 m1 o1 s1 w1 <> MetricKey "example_count" m2 o2 s2 None (Some w2) false) /\
  (forall name metrics d, dget metric_key_eqb metrics (total_key a1 m1 o1 s1 w1) = Some (Totals d) ->
     total_attributions a1 name m1 o1 s1 w1 metrics = Ok [(MetricKey name m1 o1 s1 None (Some w1) false, d)]) /\
  (forall name metrics, dget metric_key_eqb metrics (total_key a1 m1 o1 s1 w1) = None ->
     total_attributions a1 name m1 o1 s1 w1 metrics = Err KeyError /\
     mean_attributions a1 name m1 o1 s1 w1 metrics = Err KeyError).
Proof. exact C179_own_totals_pf. Qed.

Example C179_own_totals_example :
  k_name (total_key true "" "" None true) = "_total_absolute_attributions" /\
  total_attributions false "t" "m" "" None false [(total_key false "m" "" None false, Totals [("f", One 1%Qc)])] =
    Ok [(attributions_key "t" "m" "" None false, [("f", One 1%Qc)])].
Proof. split; reflexivity. Qed.

Print Assumptions C177_totals.
Print Assumptions C177_refused.
Print Assumptions C177_absolute.
Print Assumptions C178_class.
Print Assumptions C178_top_k.
Print Assumptions C178_table_refused.
Print Assumptions C179_means_partial.
Print Assumptions C179_small_weights_refuted.
Print Assumptions C179_own_totals.
