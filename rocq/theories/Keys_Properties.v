(* Keys *)
From Coq Require Import String Ascii Permutation.
From Verif Require Import Base BaseFacts Util_Model Inputs_Model Keys_Model.
From Verif Require Import Keys_Main.
Local Open Scope string_scope.
Local Open Scope list_scope.

(* ------------------------------------------------------------------ *)
(** ** Which keys exist and which can be stored *)
(* ------------------------------------------------------------------ *)
(** ** C38 metric keys *)
(** A metric key survives being written and read back exactly if its sub key says
    something (in 32 bits) and its aggregation type names one average. *)
Theorem C38_metric_key_round_trip :
  forall k, made k ->
    ((exists pb, key_to_proto k = Ok pb /\ key_from_proto pb = Ok k) <-> storable k).
Proof. exact C38_metric_key_round_trip_pf. Qed.

(** The two models' values of a metric, and its diff, keep three different messages. *)
Theorem C38_distinct_messages :
  forall k k' pb, made k -> made k' -> storable k -> storable k' ->
    key_to_proto k = Ok pb -> key_to_proto k' = Ok pb -> k = k'.
Proof. exact C38_distinct_messages_pf. Qed.

Example C38_example :
  (exists pb, key_to_proto micro_top3 = Ok pb /\ key_from_proto pb = Ok micro_top3) /\ made micro_top3 /\ storable micro_top3.
Proof.
  assert (M : made micro_top3).
  { split; [intros s [= <-]; exists None, None, (Some 3%Z); reflexivity|intros a [= <-]; exists (Some true), None, None; reflexivity]. }
  assert (P : exists pb, key_to_proto micro_top3 = Ok pb /\ key_from_proto pb = Ok micro_top3) by (eexists; split; reflexivity).
  split; [exact P|]. split; [exact M|]. apply (C38_metric_key_round_trip _ M). exact P.
Qed.

(** A micro average whose key spells out macro_average=False reads back as a macro
    average; so do the values of the two written under one key. *)
Theorem C38_micro_becomes_macro_refuted :
  exists k k' pb,
    made k /\ made k' /\ k <> k' /\ option_map ag_micro (k_agg k) = Some (Some true) /\
    key_to_proto k = Ok pb /\ key_to_proto k' = Ok pb /\ key_from_proto pb = Ok k' /\
    option_map ag_macro (k_agg k') = Some (Some true).
Proof. exact C38_micro_becomes_macro_refuted_pf. Qed.

(* ------------------------------------------------------------------ *)
(** ** C39 plot keys *)
Theorem C39_plot_key_round_trip :
  forall k, made k ->
    ((exists pb, plot_key_to_proto k = Ok pb /\ plot_key_from_proto pb = Ok k) <->
     (forall s, k_sub k = Some s -> storable_sub s) /\ k_agg k = None /\ k_diff k = false).
Proof. exact C39_plot_key_round_trip_pf. Qed.

Example C39_example :
  let k := MetricKey "confusion_matrix_plot" "m" "" (Some (SubKey (Some 2%Z) None None)) None (Some false) false in
  exists pb, plot_key_to_proto k = Ok pb /\ plot_key_from_proto pb = Ok k.
Proof. eexists; split; reflexivity. Qed.

(** The plot of a class average and the plot without averaging share one message. *)
Theorem C39_aggregation_dropped_refuted :
  exists k k' pb, made k /\ made k' /\ storable k /\ storable k' /\ k <> k' /\
    k_agg k = Some (AggType (Some true) None None) /\ k_agg k' = None /\
    plot_key_to_proto k = Ok pb /\ plot_key_to_proto k' = Ok pb /\ plot_key_from_proto pb = Ok k'.
Proof. exact C39_aggregation_dropped_refuted_pf. Qed.

(* ------------------------------------------------------------------ *)
(** ** C76 attributions keys *)
Theorem C76_attributions_key_round_trip :
  forall k, made k ->
    ((exists pb, attributions_key_to_proto k = Ok pb /\ attributions_key_from_proto pb = Ok k) <->
     (forall s, k_sub k = Some s -> storable_sub s) /\ k_agg k = None).
Proof. exact C76_attributions_key_round_trip_pf. Qed.

Example C76_example :
  let k := MetricKey "mean" "m" "" (Some (SubKey None (Some 1) None)) None (Some false) true in
  exists pb, attributions_key_to_proto k = Ok pb /\ attributions_key_from_proto pb = Ok k.
Proof. eexists; split; reflexivity. Qed.

Theorem C76_aggregation_dropped_refuted :
  exists k k' pb, made k /\ storable k /\ k' <> k /\
    attributions_key_to_proto k = Ok pb /\ attributions_key_from_proto pb = Ok k'.
Proof. exact C76_aggregation_dropped_refuted_pf. Qed.

(* ------------------------------------------------------------------ *)
(** ** Order *)
(* ------------------------------------------------------------------ *)
(** ** C77 sorting keys *)
(** Sorting metric keys never changes their order: it gives back the list or raises. *)
Theorem C77_sorting_is_listing_order :
  forall l l', sorted key_lt l = Ok l' -> l' = l.
Proof. exact C77_sorting_is_listing_order_pf. Qed.

(** So the order in which the same metrics are listed shows in the output, and two
    computations of the same keys, listed differently, are not recognised as one. *)
Theorem C77_order_not_canonical_refuted :
  exists l l' s s', Permutation l l' /\ NoDup l /\ (forall k, In k l -> made k /\ storable k) /\
    sorted key_lt l = Ok s /\ sorted key_lt l' = Ok s' /\ s <> s' /\
    (forall c p i i', metric_computation_id c l p = Ok i -> metric_computation_id c l' p = Ok i' -> id_eqb i i' = false).
Proof. exact C77_order_not_canonical_refuted_pf. Qed.

Example C77_example :
  sorted key_lt [micro_top3; MetricKey "accuracy" "" "" None None (Some true) false] =
  Ok [micro_top3; MetricKey "accuracy" "" "" None None (Some true) false].
Proof. reflexivity. Qed.

(* ------------------------------------------------------------------ *)
(** ** C78 writing results with weighted and unweighted metrics *)
(** A weighted metric listed after an unweighted, aggregated one with a sub key makes
    the sorting of the results raise. *)
Theorem C78_mixed_weighting_refuted :
  exists l, NoDup l /\ length l = 2 /\ (forall k, In k l -> made k /\ storable k) /\ sorted key_lt l = Err TypeError.
Proof. exact C78_mixed_weighting_refuted_pf. Qed.

(** With one weighting for all metrics sorting never fails. *)
Theorem C78_same_weighting_partial :
  forall w l, (forall k, In k l -> k_weighted k = w) -> sorted key_lt l = Ok l.
Proof. exact C78_same_weighting_partial_pf. Qed.

Example C78_example :
  sorted key_lt [micro_top3; MetricKey "accuracy" "" "" None None (Some true) false; make_diff_key micro_top3] =
  Ok [micro_top3; MetricKey "accuracy" "" "" None None (Some true) false; make_diff_key micro_top3].
Proof. reflexivity. Qed.

(* ------------------------------------------------------------------ *)
(** ** Equality of keys *)
(* ------------------------------------------------------------------ *)
(** ** What the constructors accept *)
(** An AggregationType is of at most one kind, and is otherwise taken as it is. *)
Theorem C108_aggregation_type_has_one_kind :
  forall micro macro weighted : option bool,
    let two := (micro = Some true /\ macro = Some true) \/ (micro = Some true /\ weighted = Some true) \/
               (macro = Some true /\ weighted = Some true) in
    (two -> mk_agg_type micro macro weighted = Err ValueError) /\
    (~ two -> mk_agg_type micro macro weighted = Ok (AggType micro macro weighted)).
Proof. exact C108_aggregation_type_has_one_kind_pf. Qed.

(** A SubKey has a positive k or top_k, not both, and no class together with k. *)
Theorem C108_sub_key_is_valid :
  forall class_id k top_k,
    let valid := (forall x, k = Some x -> (1 <= x)%Z /\ top_k = None /\ class_id = None) /\
                 (forall x, top_k = Some x -> (1 <= x)%Z) in
    (valid -> mk_sub_key class_id k top_k = Ok (SubKey class_id (option_map Z.to_nat k) (option_map Z.to_nat top_k))) /\
    (~ valid -> mk_sub_key class_id k top_k = Err ValueError).
Proof. exact C108_sub_key_is_valid_pf. Qed.

Example constructors_ex :
  mk_agg_type (Some true) None (Some true) = Err ValueError /\ mk_agg_type (Some false) (Some true) None = Ok (AggType (Some false) (Some true) None) /\
  mk_sub_key (Some 3%Z) None (Some 2%Z) = Ok (SubKey (Some 3%Z) None (Some 2)) /\ mk_sub_key (Some 3%Z) (Some 2%Z) None = Err ValueError /\
  mk_sub_key None (Some 0%Z) None = Err ValueError.
Proof. repeat split. Qed.

(* ------------------------------------------------------------------ *)
(** ** What sorting does with a proper order *)
(** With a strict weak order sorting gives the listed keys in ascending order. *)
Theorem C77_sorting_by_an_order :
  forall A (lt : A -> A -> res bool) ltb,
    (forall a b, lt a b = Ok (ltb a b)) -> (forall a b, ltb a b = true -> ltb b a = false) ->
    (forall a b c, ltb b a = false -> ltb c b = false -> ltb c a = false) ->
    forall l, exists l', sorted lt l = Ok l' /\ Permutation l l' /\
      forall i j a b, nth_error l' i = Some a -> nth_error l' j = Some b -> i < j -> ltb b a = false.
Proof. exact C77_sorting_by_an_order_pf. Qed.

Example sorting_ex :
  sorted (fun a b => Ok (Nat.ltb a b)) [7; 5; 3; 9; 1; 6; 4] = Ok [1; 3; 4; 5; 6; 7; 9].
Proof. reflexivity. Qed.

Print Assumptions C38_metric_key_round_trip.
Print Assumptions C38_distinct_messages.
Print Assumptions C38_micro_becomes_macro_refuted.
Print Assumptions C39_plot_key_round_trip.
Print Assumptions C39_aggregation_dropped_refuted.
Print Assumptions C76_attributions_key_round_trip.
Print Assumptions C76_aggregation_dropped_refuted.
Print Assumptions C77_sorting_is_listing_order.
Print Assumptions C77_order_not_canonical_refuted.
Print Assumptions C78_mixed_weighting_refuted.
Print Assumptions C78_same_weighting_partial.
Print Assumptions C108_aggregation_type_has_one_kind.
Print Assumptions C108_sub_key_is_valid.
Print Assumptions C77_sorting_by_an_order.
