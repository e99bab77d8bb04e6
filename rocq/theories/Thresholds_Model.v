(* metrics/metric_specs.py 571-612, 635-730: the walk through the metrics specs that collects
   their thresholds. *)
From Coq Require Import String Ascii.
From Verif Require Import Base Beam Slicer_Model Inputs_Model Keys_Model Means_Model Validation_Model Aggregation_Model.
Local Open Scope string_scope.
Local Open Scope list_scope.

(* ------------------------------------------------------------------ *)
(** * The configuration *)

(** proto/config.proto 154-235 [SlicingSpec], [CrossSlicingSpec].  Instead of features a slicing
    spec may have a SQL query (slice_keys_sql, "" if not set). *)
Record slicing := Slicing { sl_spec : slicing_spec; sl_sql : string }.
Record cross_slicing := CrossSlicing { cs_base : slicing; cs_specs : list slicing }.
(** proto/config.proto 426-451 [PerSliceMetricThreshold], [CrossSliceMetricThreshold]; without
    threshold the field reads as an empty message. *)
Record per_slice := PerSlice { ps_specs : list slicing; ps_threshold : metric_threshold }.
Record cross_slice := CrossSlice { xs_specs : list cross_slicing; xs_threshold : metric_threshold }.
(** [MetricConfig]: the name of its instance and its thresholds. *)
Record metric_config := MetricConfig {
  mc_name : string; mc_threshold : option metric_threshold;
  mc_per_slice : list per_slice; mc_cross : list cross_slice
}.
(** [MetricsSpec]: [ts_spec] has its models, outputs, binarization, aggregation and example
    weights (its list of names is not used here, the metrics are [ts_metrics]); the maps thresholds,
    per_slice_thresholds and cross_slice_thresholds by name, in the order Python iterates over
    them. *)
Record tspec := TSpec {
  ts_spec : metrics_spec; ts_metrics : list metric_config;
  ts_thresholds : list (string * metric_threshold);
  ts_per_slice : list (string * list per_slice);
  ts_cross : list (string * list cross_slice)
}.

(* ------------------------------------------------------------------ *)
(** * Keys and scopes *)

(** metric_specs.py 571-591 [_keys_for_metric] *)
Definition keys_for (name : string) (s : metrics_spec) (agg : option agg_type) (sks : list (option sub_key))
    (weights : list (option bool)) : list metric_key :=
  flat_map (fun m => flat_map (fun o => flat_map (fun sk =>
    map (fun w => MetricKey name m o sk agg w false) weights) sks)
    (or_blank (ms_outputs s))) (or_blank (ms_models s)).

(** slicer/slicer_lib.py 96-156, 285-345 [deserialize_slice_spec]: of a slicing spec only the
    feature keys and values are read. *)
Definition single_scope (s : slicing) : res scope :=
  let! sp := mk_spec (sl_spec s) in Ok (SingleScope sp).
Definition cross_scope (c : cross_slicing) : res scope :=
  let! b := mk_spec (sl_spec (cs_base c)) in
  let! ss := mapM (fun s => mk_spec (sl_spec s)) (cs_specs c) in
  Ok (CrossScope b ss).

(* ------------------------------------------------------------------ *)
(** * The walk *)

(** What add_threshold is called with: key, slicing spec if any, threshold. *)
Definition entry := (metric_key * option scope * metric_threshold)%type.
(** 671-683 [add_threshold], 656-658: the slicing spec is deserialized when there is a bound to
    add. *)
Definition entry_of (k : metric_key) (sc : res (option scope)) (t : metric_threshold) : res (list entry) :=
  match mt_value t, mt_change t with
  | None, None => Ok []
  | _, _ => let! sc := sc in Ok [(k, sc, t)]
  end.
Definition gather {X} (f : X -> res (list entry)) (l : list X) : res (list entry) :=
  let! ls := mapM f l in Ok (concat ls).
Definition some_scope (r : res scope) : res (option scope) := let! s := r in Ok (Some s).
(** 697-702, 724-726 *)
Definition slice_entries (k : metric_key) (l : list per_slice) : res (list entry) :=
  gather (fun p => gather (fun s => entry_of k (some_scope (single_scope s)) (ps_threshold p)) (ps_specs p)) l.
(** 709-716, 727-729 *)
Definition cross_entries (k : metric_key) (l : list cross_slice) : res (list entry) :=
  gather (fun p => gather (fun s => entry_of k (some_scope (cross_scope s)) (xs_threshold p)) (xs_specs p)) l.

Section Walk.
  Variable default : metrics_spec -> bool.   (* _example_weighted_default(eval_config, spec) *)

  (** 685-716: the thresholds by name, for metrics computed in the graph of the model. *)
  Definition named_entries (s : tspec) : res (list entry) :=
    let! groups := create_sub_keys (ts_spec s) in
    gather (fun g =>
      let keys n := keys_for n (ts_spec s) (fst g) (snd g) [None] in
      let! plain := gather (fun nt => gather (fun k => entry_of k (Ok None) (snd nt)) (keys (fst nt))) (ts_thresholds s) in
      let! sliced := gather (fun nl => gather (fun k => slice_entries k (snd nl)) (keys (fst nl))) (ts_per_slice s) in
      let! crossed := gather (fun nl => gather (fun k => cross_entries k (snd nl)) (keys (fst nl))) (ts_cross s) in
      Ok (plain ++ sliced ++ crossed)) groups.

  (** 594-612 [keys_and_metrics_from_specs], 718-729: the thresholds of the metrics. *)
  Definition metric_entries (s : tspec) : res (list entry) :=
    let! groups := create_sub_keys (ts_spec s) in
    gather (fun g =>
      gather (fun m =>
        gather (fun k =>
          let! plain := match mc_threshold m with Some t => entry_of k (Ok None) t | None => Ok [] end in
          let! sliced := slice_entries k (mc_per_slice m) in
          let! crossed := cross_entries k (mc_cross m) in
          Ok (plain ++ sliced ++ crossed))
          (keys_for (mc_name m) (ts_spec s) (fst g) (snd g)
                    (map Some (example_weight_options (default (ts_spec s)) (ts_spec s)))))
        (ts_metrics s)) groups.

  (** 635-730 [metric_thresholds_from_metrics_specs] *)
  Definition thresholds_of (specs : list tspec) : res thresholds :=
    let! named := gather named_entries specs in
    let! own := gather metric_entries specs in
    Ok (metric_thresholds (named ++ own)).
End Walk.
