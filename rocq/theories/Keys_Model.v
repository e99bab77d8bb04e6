(* Model of the keys of metrics/metric_types.py: SubKey, AggregationType, MetricKey,
   PlotKey, AttributionsKey, their protocol messages (proto/metrics_for_slice.proto
   25-78, 400-414, 454-470), their order, and the identity of computations. *)
From Coq Require Import String Ascii.
From Verif Require Import Base Util_Model Inputs_Model.
Local Open Scope string_scope.
Local Open Scope list_scope.

(** metric_types.py 143-187 [AggregationType.__new__]: at most one true field. *)
Record agg_type := AggType { ag_micro : option bool; ag_macro : option bool; ag_weighted : option bool }.
Definition truthy (o : option bool) : bool := match o with Some true => true | _ => false end.
Definition mk_agg_type (micro macro weighted : option bool) : res agg_type :=
  if Nat.ltb 1 (length (filter truthy [micro; macro; weighted])) then Err ValueError
  else Ok (AggType micro macro weighted).

(** 247-297 [MetricKey]; PlotKey and AttributionsKey (390-484) have the same fields. *)
Record metric_key := MetricKey {
  k_name : string; k_model : string; k_output : string;
  k_sub : option sub_key; k_agg : option agg_type;
  k_weighted : option bool; k_diff : bool
}.

(** 375-381 *)
Definition make_diff_key (k : metric_key) : metric_key :=
  MetricKey (k_name k) (k_model k) (k_output k) (k_sub k) (k_agg k) (k_weighted k) true.
Definition make_baseline_key (k : metric_key) (model_name : string) : metric_key :=
  MetricKey (k_name k) model_name (k_output k) (k_sub k) (k_agg k) (k_weighted k) false.

(** 299-300 [__eq__]: equality of the tuples, whatever the class of the keys. *)
Definition option_eqb {A} (eqb : A -> A -> bool) (a b : option A) : bool :=
  match a, b with Some x, Some y => eqb x y | None, None => true | _, _ => false end.
Definition sub_key_eqb (a b : sub_key) : bool :=
  option_eqb Z.eqb (sk_class_id a) (sk_class_id b) && option_eqb Nat.eqb (sk_k a) (sk_k b)
  && option_eqb Nat.eqb (sk_top_k a) (sk_top_k b).
Definition agg_eqb (a b : agg_type) : bool :=
  option_eqb Bool.eqb (ag_micro a) (ag_micro b) && option_eqb Bool.eqb (ag_macro a) (ag_macro b)
  && option_eqb Bool.eqb (ag_weighted a) (ag_weighted b).
Definition metric_key_eqb (a b : metric_key) : bool :=
  String.eqb (k_name a) (k_name b) && String.eqb (k_model a) (k_model b)
  && String.eqb (k_output a) (k_output b) && option_eqb sub_key_eqb (k_sub a) (k_sub b)
  && option_eqb agg_eqb (k_agg a) (k_agg b) && option_eqb Bool.eqb (k_weighted a) (k_weighted b)
  && Bool.eqb (k_diff a) (k_diff b).

(* ------------------------------------------------------------------ *)
(** * Protocol messages *)

(** metrics_for_slice.proto 25-33, 41-50, 59-78; wrapper fields are options of Int32 /
    Bool; AggregationType is a oneof: which field is set, and its value. *)
Record pb_sub_key := PbSubKey { pb_class_id : option Z; pb_k : option Z; pb_top_k : option Z }.
Inductive agg_field := Micro | Macro | WeightedMacro.
Definition pb_agg := option (agg_field * bool).
Record pb_key := PbKey {
  pb_name : string; pb_model : string; pb_output : string;
  pb_sub : option pb_sub_key; pb_aggregation : option pb_agg;
  pb_weighted : option bool; pb_diff : bool
}.

(** Assigning to an Int32Value raises ValueError outside the range of int32. *)
Definition int32 (z : Z) : res Z :=
  if (Z.leb (- 2 ^ 31) z && Z.ltb z (2 ^ 31))%Z then Ok z else Err ValueError.
Definition opt_int32 (o : option Z) : res (option Z) :=
  match o with None => Ok None | Some z => let! z := int32 z in Ok (Some z) end.

(** 113-122 [SubKey.to_proto] *)
Definition sub_key_to_proto (s : sub_key) : res pb_sub_key :=
  let! c := opt_int32 (sk_class_id s) in
  let! k := opt_int32 (option_map Z.of_nat (sk_k s)) in
  let! t := opt_int32 (option_map Z.of_nat (sk_top_k s)) in
  Ok (PbSubKey c k t).
(** 124-139 [SubKey.from_proto] *)
Definition sub_key_from_proto (pb : pb_sub_key) : res (option sub_key) :=
  match pb with
  | PbSubKey None None None => Ok None
  | PbSubKey c k t => let! s := mk_sub_key c k t in Ok (Some s)
  end.

(** 213-222 [AggregationType.to_proto]: fields that are not None are set to True, one
    after the other; in a oneof the last assignment remains. *)
Definition agg_to_proto (a : agg_type) : pb_agg :=
  let p := None in
  let p := match ag_micro a with Some _ => Some (Micro, true) | None => p end in
  let p := match ag_macro a with Some _ => Some (Macro, true) | None => p end in
  match ag_weighted a with Some _ => Some (WeightedMacro, true) | None => p end.
(** 224-239 [AggregationType.from_proto] *)
Definition pb_agg_get (f : agg_field) (pb : pb_agg) : bool :=
  match f, pb with
  | Micro, Some (Micro, b) | Macro, Some (Macro, b) | WeightedMacro, Some (WeightedMacro, b) => b
  | _, _ => false
  end.
Definition or_none (b : bool) : option bool := if b then Some true else None.
Definition agg_from_proto (pb : pb_agg) : res (option agg_type) :=
  if pb_agg_get Micro pb || pb_agg_get Macro pb || pb_agg_get WeightedMacro pb then
    let! a := mk_agg_type (or_none (pb_agg_get Micro pb)) (or_none (pb_agg_get Macro pb))
                (or_none (pb_agg_get WeightedMacro pb)) in
    Ok (Some a)
  else Ok None.

(** 337-354 [MetricKey.to_proto]; "if self.sub_key": a named tuple is always true. *)
Definition opt_sub_to_proto (s : option sub_key) : res (option pb_sub_key) :=
  match s with None => Ok None | Some s => let! p := sub_key_to_proto s in Ok (Some p) end.
Definition key_to_proto (k : metric_key) : res pb_key :=
  let! s := opt_sub_to_proto (k_sub k) in
  Ok (PbKey (k_name k) (k_model k) (k_output k) s (option_map agg_to_proto (k_agg k))
            (k_weighted k) (k_diff k)).
(** 356-371 [MetricKey.from_proto]; an unset message field reads as the empty message. *)
Definition opt_sub_from_proto (s : option pb_sub_key) : res (option sub_key) :=
  sub_key_from_proto (match s with Some p => p | None => PbSubKey None None None end).
Definition key_from_proto (pb : pb_key) : res metric_key :=
  let! s := opt_sub_from_proto (pb_sub pb) in
  let! a := agg_from_proto (match pb_aggregation pb with Some p => p | None => None end) in
  Ok (MetricKey (pb_name pb) (pb_model pb) (pb_output pb) s a (pb_weighted pb) (pb_diff pb)).

(** 393-428 [PlotKey.to_proto]/[from_proto]: the message has no aggregation type and no
    is_diff. *)
Record pb_plot_key := PbPlotKey {
  pp_name : string; pp_model : string; pp_output : string;
  pp_sub : option pb_sub_key; pp_weighted : option bool
}.
Definition plot_key_to_proto (k : metric_key) : res pb_plot_key :=
  let! s := opt_sub_to_proto (k_sub k) in
  Ok (PbPlotKey (k_name k) (k_model k) (k_output k) s (k_weighted k)).
Definition plot_key_from_proto (pb : pb_plot_key) : res metric_key :=
  let! s := opt_sub_from_proto (pp_sub pb) in
  Ok (MetricKey (pp_name pb) (pp_model pb) (pp_output pb) s None (pp_weighted pb) false).

(** 438-484 [AttributionsKey.to_proto]/[from_proto]: no aggregation type. *)
Record pb_attributions_key := PbAttributionsKey {
  pa_name : string; pa_model : string; pa_output : string;
  pa_sub : option pb_sub_key; pa_weighted : option bool; pa_diff : bool
}.
Definition attributions_key_to_proto (k : metric_key) : res pb_attributions_key :=
  let! s := opt_sub_to_proto (k_sub k) in
  Ok (PbAttributionsKey (k_name k) (k_model k) (k_output k) s (k_weighted k) (k_diff k)).
Definition attributions_key_from_proto (pb : pb_attributions_key) : res metric_key :=
  let! s := opt_sub_from_proto (pa_sub pb) in
  Ok (MetricKey (pa_name pb) (pa_model pb) (pa_output pb) s None (pa_weighted pb) (pa_diff pb)).

(* ------------------------------------------------------------------ *)
(** * Order *)

(** < on Python tuples of totally ordered items. *)
Fixpoint tuple_ltb {A} (eqb ltb : A -> A -> bool) (a b : list A) : bool :=
  match a, b with
  | _, [] => false
  | [], _ :: _ => true
  | x :: t, y :: u => if eqb x y then tuple_ltb eqb ltb t u else ltb x y
  end.
Definition none_as (o : option Z) : Z := match o with Some z => z | None => (-1)%Z end.
(** 88-92: SubKey.__lt__ with other == () for None; () < SubKey holds as a shorter
    tuple is smaller. *)
Definition sub_tuple (s : option sub_key) : list Z :=
  match s with
  | None => []
  | Some s => [none_as (sk_class_id s); none_as (option_map Z.of_nat (sk_k s));
               none_as (option_map Z.of_nat (sk_top_k s))]
  end.
(** 191-195: the same for AggregationType; False = 0, True = 1. *)
Definition b2z (b : bool) : Z := if b then 1%Z else 0%Z.
Definition agg_tuple (a : option agg_type) : list Z :=
  match a with
  | None => []
  | Some a => [none_as (option_map b2z (ag_micro a)); none_as (option_map b2z (ag_macro a));
               none_as (option_map b2z (ag_weighted a))]
  end.
(** 310-313, 322: [self.example_weighted if self.example_weighted else ()], then <;
    comparing True with () raises TypeError. *)
Definition weighted_lt (a b : option bool) : res bool :=
  match truthy a, truthy b with
  | true, true => Ok false       (* True < True *)
  | false, false => Ok false     (* () < () *)
  | _, _ => Err TypeError
  end.
(** 302-325 [MetricKey.__lt__]: a chain of "and". *)
Definition key_lt (a b : metric_key) : res bool :=
  if tuple_ltb String.eqb String.ltb [k_name a; k_model a; k_output a] [k_name b; k_model b; k_output b]
     && tuple_ltb Z.eqb Z.ltb (sub_tuple (k_sub a)) (sub_tuple (k_sub b))
     && tuple_ltb Z.eqb Z.ltb (agg_tuple (k_agg a)) (agg_tuple (k_agg b))
  then let! w := weighted_lt (k_weighted a) (k_weighted b) in
       Ok (w && (negb (k_diff a) && k_diff b))
  else Ok false.

(** sorted() of CPython for fewer than 64 items: the longest initial run (count_run),
    reversed if strictly descending, then binary insertion of the rest (binarysort).
    [lt] may raise. *)
Section Sorted.
  Context {A : Type} (lt : A -> A -> res bool).

  (** the rest of an ascending (want = false) or descending (want = true) run after
      [prev]: (run, remaining items) *)
  Fixpoint take_run (want : bool) (prev : A) (l : list A) : res (list A * list A) :=
    match l with
    | [] => Ok ([], [])
    | x :: t => let! b := lt x prev in
                if Bool.eqb b want then
                  let! r := take_run want x t in Ok (x :: fst r, snd r)
                else Ok ([], l)
    end.
  (** bisection of positions [l, r) of the sorted prefix [s] *)
  Fixpoint bisect (fuel : nat) (pivot : A) (s : list A) (l r : nat) : res nat :=
    match fuel with
    | 0 => Ok l
    | S f => if Nat.ltb l r then
               let p := l + Nat.div (r - l) 2 in
               match nth_error s p with
               | None => Err IndexError
               | Some x => let! b := lt pivot x in
                           if b then bisect f pivot s l p else bisect f pivot s (S p) r
               end
             else Ok l
    end.
  Definition binary_insert (s : list A) (pivot : A) : res (list A) :=
    let! i := bisect (S (length s)) pivot s 0 (length s) in
    Ok (firstn i s ++ pivot :: skipn i s).
  Definition sorted (l : list A) : res (list A) :=
    match l with
    | [] => Ok []
    | [x] => Ok [x]
    | x :: y :: _ =>
        let! d := lt y x in
        let! r := take_run d x (tl l) in
        let run := x :: fst r in
        foldM binary_insert (snd r) (if d then rev run else run)
    end.
End Sorted.

(* ------------------------------------------------------------------ *)
(** * Identity of computations *)

(** 566-596 [MetricComputation._computation_id]/[__eq__]: class name of the combiner,
    sorted keys, preprocessor ids. *)
Record computation_id := ComputationId {
  ci_class : string; ci_keys : list metric_key; ci_preprocessors : list string
}.
Definition metric_computation_id (combiner_class : string) (keys : list metric_key)
    (preprocessors : list string) : res computation_id :=
  let! ks := sorted key_lt keys in Ok (ComputationId combiner_class ks preprocessors).
(** 630-646: for derived computations result.__class__.__name__, which is "function"
    for every function or closure; 694-713 likewise for cross slice comparisons. *)
Definition derived_computation_id (keys : list metric_key) : res computation_id :=
  let! ks := sorted key_lt keys in Ok (ComputationId "function" ks []).

Fixpoint list_eqb {A} (eqb : A -> A -> bool) (a b : list A) : bool :=
  match a, b with
  | [], [] => true
  | x :: t, y :: u => eqb x y && list_eqb eqb t u
  | _, _ => false
  end.
Definition id_eqb (a b : computation_id) : bool :=
  String.eqb (ci_class a) (ci_class b) && list_eqb metric_key_eqb (ci_keys a) (ci_keys b)
  && list_eqb String.eqb (ci_preprocessors a) (ci_preprocessors b).
