(* Model of writing and reading results: writers/metrics_plots_and_validations_writer.py,
   writers/eval_config_writer.py, view/util.py, view/view_types.py, and the parts of
   api/model_eval_lib.py that run evaluators and load results. *)
From Coq Require Import String Ascii.
From Verif Require Import Base Slicer_Model Inputs_Model Keys_Model.
Local Open Scope string_scope.
Local Open Scope list_scope.
Local Infix "+++" := String.append (right associativity, at level 60).

(* ------------------------------------------------------------------ *)
(** * Values: metrics_plots_and_validations_writer.py 279-340 *)

(** NumPy arrays: shape, dtype and flattened items (numbers; for other dtypes the
    numbers stand for the items and [as_text] for their str()). *)
Inductive dtype := Int32 | Int64 | Float32 | Float64 | OtherType.
Record array := Array { ar_shape : list nat; ar_dtype : dtype; ar_items : list num }.
(** metrics_for_slice.proto 196-216 [ArrayValue]; the four numeric fields are one here,
    told apart by the data type. *)
Inductive pb_dtype := PbInt32 | PbInt64 | PbFloat32 | PbFloat64 | PbBytesType.
Record pb_array := PbArr { pr_shape : list nat; pr_type : pb_dtype; pr_numbers : list num; pr_bytes : list string }.

(** metrics_for_slice.proto 220-245 [MetricValue], a oneof; [PbStructured] stands for the
    messages of structured metrics. *)
Inductive pb_value :=
| PbDouble (x : num) | PbBytes (s : string) | PbArray (a : pb_array)
| PbUnknown (value error : string) | PbBounded (value lower upper : num)
| PbStructured (s : string) | PbDebug (s : string).

(** Metric values: what float() accepts, text, arrays, structured values (with their
    proto), and anything else (str(value), str(error of float())). *)
Inductive item :=
| INum (x : num) | IBytes (s : string) | IStr (s : string) | IArray (a : array)
| IStructured (s : string) | IOther (text error : string).
(** A value with confidence interval holds its unsampled value, the bounds computed by
    math_util.calculate_confidence_interval, the standard error and degrees of freedom. *)
Inductive mvalue :=
| Plain (i : item)
| WithInterval (unsampled lower upper std_err : item) (df : Z)
| Bounded (value lower upper : num).

(* ------------------------------------------------------------------ *)
(** * Records *)

(** A slice key or a cross slice key; 299-305 of the proto: a oneof. *)
Inductive any_key := One (k : skey) | Two (baseline comparison : skey).
Definition any_obj (k : any_key) : pyobj :=
  match k with One k => key_obj k | Two b c => cross_obj (b, c) end.
Inductive pb_slice := PbOne (k : list single_slice_key) | PbTwo (b c : list single_slice_key).
(** Reading .slice_key when the oneof holds a cross slice key gives the empty message. *)
Definition pb_slice_key (s : pb_slice) : list single_slice_key :=
  match s with PbOne k => k | PbTwo _ _ => [] end.

Record pb_interval := PbInterval { ci_lower : pb_value; ci_upper : pb_value; ci_error : option pb_value; ci_df : option Z }.
Record metric_kv := MetricKv { kv_key : pb_key; kv_value : pb_value; kv_interval : option pb_interval }.
(** MetricsForSlice: [mf_metrics] is the deprecated map of metrics by text. *)
Record metrics_for_slice := MetricsForSlice {
  mf_slice : pb_slice; mf_metrics : list (string * pb_value); mf_kvs : list metric_kv }.

Definition ERROR_METRIC := "__ERROR__".

Section Writer.
  (** [f32]: rounding of float_value of slice keys; [as_text]: str() of array items. *)
  Context (f32 : Qc -> Qc) (as_text : num -> string).

  (** 279-303 [_convert_to_array_value] *)
  Definition convert_to_array_value (a : array) : pb_array :=
    match ar_dtype a with
    | Int32 => PbArr (ar_shape a) PbInt32 (ar_items a) []
    | Int64 => PbArr (ar_shape a) PbInt64 (ar_items a) []
    | Float32 => PbArr (ar_shape a) PbFloat32 (ar_items a) []
    | Float64 => PbArr (ar_shape a) PbFloat64 (ar_items a) []
    | OtherType => PbArr (ar_shape a) PbBytesType [] (map as_text (ar_items a))
    end.

  (** 306-339 [convert_metric_value_to_proto]; text is held as its UTF-8 bytes. *)
  Definition convert_metric_value_to_proto (v : item) : pb_value :=
    match v with
    | IStructured s => PbStructured s
    | IBytes s => PbBytes s
    | IStr s => PbBytes s
    | IArray a => PbArray (convert_to_array_value a)
    | INum x => PbDouble x
    | IOther t e => PbUnknown t e
    end.

  (** 366-369, 476-479, 574-577 *)
  Definition slice_to_proto (k : any_key) : res pb_slice :=
    let! cross := is_cross_slice_key (any_obj k) in
    match cross, k with
    | true, Two b c => let! p := serialize_cross f32 (b, c) in Ok (PbTwo (fst p) (snd p))
    | false, One k => let! p := serialize_slice_key f32 k in Ok (PbOne p)
    | _, _ => Err TypeError
    end.

  (** 394-449: one metric *)
  Definition convert_value (p : pb_key) (v : mvalue) : metric_kv :=
    match v with
    | Plain i => MetricKv p (convert_metric_value_to_proto i) None
    | WithInterval u l h e d =>
        MetricKv p (convert_metric_value_to_proto u)
          (Some (PbInterval (convert_metric_value_to_proto l) (convert_metric_value_to_proto h)
                            (Some (convert_metric_value_to_proto e)) (Some d)))
    | Bounded v l h => MetricKv p (PbDouble v) (Some (PbInterval (PbDouble l) (PbDouble h) None None))
    end.

  (** 342-450 [convert_slice_metrics_to_proto]: the metrics of a slice are keyed by
      MetricKeys (not the text keys of legacy evaluations, hence no callbacks), or hold an
      error message under the text ERROR_METRIC. *)
  Record slice_metrics := SliceMetrics { sm_error : option string; sm_items : list (metric_key * mvalue) }.
  Definition convert_slice_metrics_to_proto (k : any_key) (m : slice_metrics) : res metrics_for_slice :=
    let! s := slice_to_proto k in
    match sm_error m with
    | Some e => Ok (MetricsForSlice s [(ERROR_METRIC, PbDebug e)] [])
    | None =>
        let! keys := sorted key_lt (map fst (sm_items m)) in
        let! kvs := mapM (fun key => match dget metric_key_eqb (sm_items m) key with
                                     | None => Err KeyError
                                     | Some v => let! p := key_to_proto key in Ok (convert_value p v)
                                     end) keys in
        Ok (MetricsForSlice s [] kvs)
    end.

  (** 453-553 [convert_slice_plots_to_proto].  Plot values: the four messages, or anything
      else.  PlotData (proto 323-398) holds one of each. *)
  Inductive plot := Calibration (s : string) | ConfusionPlot (s : string)
                  | MultiClass (s : string) | MultiLabel (s : string) | NotAPlot.
  Record plot_data := PlotData { pd_calibration : option string; pd_confusion : option string;
                                 pd_multi_class : option string; pd_multi_label : option string }.
  Definition no_plots : plot_data := PlotData None None None None.
  Definition set_plot (v : plot) (d : plot_data) : plot_data :=
    match v with
    | Calibration s => PlotData (Some s) (pd_confusion d) (pd_multi_class d) (pd_multi_label d)
    | ConfusionPlot s => PlotData (pd_calibration d) (Some s) (pd_multi_class d) (pd_multi_label d)
    | MultiClass s => PlotData (pd_calibration d) (pd_confusion d) (Some s) (pd_multi_label d)
    | MultiLabel s => PlotData (pd_calibration d) (pd_confusion d) (pd_multi_class d) (Some s)
    | NotAPlot => d
    end.
  Record plots_for_slice := PlotsForSlice {
    pf_slice : pb_slice; pf_plots : list (string * string); pf_kvs : list (pb_plot_key * plot_data) }.

  (** 505-514: the name is removed from the keys of the default plots; true: removed *)
  Definition parent_key (k : metric_key) : bool * metric_key :=
    if memb String.eqb (k_name k) ["confusion_matrix_plot"; "calibration_plot"]
    then (true, MetricKey "" (k_model k) (k_output k) (k_sub k) (k_agg k) (k_weighted k) (k_diff k))
    else (false, k).
  Definition parent_eqb (a b : bool * metric_key) : bool :=
    Bool.eqb (fst a) (fst b) && metric_key_eqb (snd a) (snd b).
  Definition convert_slice_plots_to_proto (k : any_key) (error : option string) (plots : list (metric_key * plot))
      : res plots_for_slice :=
    let! s := slice_to_proto k in
    match error with
    | Some e => Ok (PlotsForSlice s [(ERROR_METRIC, e)] [])
    | None =>
        let! keys := sorted key_lt (map fst plots) in
        let step (acc : list ((bool * metric_key) * (pb_plot_key * plot_data))) key :=
          match dget metric_key_eqb plots key with
          | None => Err KeyError
          | Some v =>
              let parent := parent_key key in
              match dget parent_eqb acc parent with
              | Some (p, d) => Ok (dset parent_eqb acc parent (p, set_plot v d))
              | None => let! p := plot_key_to_proto (snd parent) in
                        Ok (acc ++ [(parent, (p, set_plot v no_plots))])
              end
          end in
        let! acc := foldM step keys [] in
        if existsb (fun kv => match snd kv with NotAPlot => true | _ => false end) plots
        then Err NotImplementedError
        else Ok (PlotsForSlice s [] (map snd acc))
    end.

  (** 556-606 [convert_slice_attributions_to_proto]; an array of size 1 goes to float();
      for unconvertible values a str is assigned to a bytes field: TypeError. *)
  Record attributions_for_slice := AttributionsForSlice {
    af_slice : pb_slice; af_kvs : list (pb_attributions_key * list (string * pb_value)) }.
  Definition convert_attribution (v : item) : res pb_value :=
    match v with
    | IBytes s | IStr s => Ok (PbBytes s)
    | IArray a => match ar_items a with
                  | [x] => Ok (PbDouble x)
                  | _ => Ok (PbArray (convert_to_array_value a))
                  end
    | INum x => Ok (PbDouble x)
    | IStructured _ | IOther _ _ => Err TypeError
    end.
  Definition convert_slice_attributions_to_proto (k : any_key) (m : list (metric_key * list (string * item)))
      : res attributions_for_slice :=
    let! s := slice_to_proto k in
    let! keys := sorted key_lt (map fst m) in
    let! kvs := mapM (fun key => match dget metric_key_eqb m key with
                                 | None => Err KeyError
                                 | Some fs =>
                                     let! p := attributions_key_to_proto key in
                                     let! vs := mapM (fun fv => let! v := convert_attribution (snd fv) in Ok (fst fv, v)) fs in
                                     Ok (p, vs)
                                 end) keys in
    Ok (AttributionsForSlice s kvs).
End Writer.

(* ------------------------------------------------------------------ *)
(** * Files *)

(** 774-783, 785-798: the columns of a parquet row; each single slice key contributes a
    dictionary holding only the value of its kind. *)
Inductive cell := CellBytes (s : string) | CellInt (z : Z) | CellFloat (q : Qc).
Definition convert_slice_key_to_parquet_dict (k : list single_slice_key) : list cell :=
  flat_map (fun s => match ssk_kind s with
                     | None => []
                     | Some (BytesValue b) => [CellBytes b]
                     | Some (Int64Value z) => [CellInt z]
                     | Some (FloatValue q) => [CellFloat q]
                     end) k.

Section Files.
  (** validation results are opaque here (Validation_Model) *)
  Context {V : Type}.
  Inductive record := RMetrics (m : metrics_for_slice) | RPlots (p : plots_for_slice)
                    | RAttributions (a : attributions_for_slice) | RValidation (v : V).
  Definition record_slice (r : record) : pb_slice :=
    match r with
    | RMetrics m => mf_slice m | RPlots p => pf_slice p | RAttributions a => af_slice a
    | RValidation _ => PbOne []
    end.

  (** A file holds TFRecords or parquet rows (slice key column, serialized value). *)
  Inductive file := TfRecords (l : list record) | ParquetRows (l : list (option (list cell) * record)).
  (** All files by path, in the order of listing. *)
  Definition files := list (string * file).

  (** 785-798 [convert_to_parquet_columns]; 900-905 validations have no slice key *)
  Definition convert_to_parquet_columns (r : record) : option (list cell) * record :=
    match r with
    | RValidation _ => (None, r)
    | _ => (Some (convert_slice_key_to_parquet_dict (pb_slice_key (record_slice r))), r)
    end.

  (** 800-950: the records of one output, spread over shards by Beam; [shard i n] is the
      text "-SSSSS-of-NNNNN". *)
  Definition write_shards (shard : nat -> nat -> string) (prefix fmt : string) (shards : list (list record)) : files :=
    map (fun ir => (prefix +++ shard (fst ir) (length shards) +++ "." +++ fmt,
                    if String.eqb fmt "parquet" then ParquetRows (map convert_to_parquet_columns (snd ir))
                    else TfRecords (snd ir)))
        (combine (seq 0 (length shards)) shards).

  (** os.path.join *)
  Fixpoint ends_with_slash (s : string) : bool :=
    match s with
    | "" => false
    | String c "" => Ascii.eqb c "/"
    | String _ t => ends_with_slash t
    end.
  Definition join (dir name : string) : string :=
    if String.eqb dir "" || ends_with_slash dir then dir +++ name else dir +++ "/" +++ name.

  (** 751-771, 838-950 and model_eval_lib.py 816-833 [default_writers]: everything under
      one directory; validations are a single file. *)
  Record outputs := Outputs {
    o_metrics : list (list record); o_plots : list (list record);
    o_attributions : list (list record); o_validations : option record }.
  Definition supported (fmt : string) : bool := String.eqb fmt "parquet" || String.eqb fmt "tfrecord".
  Definition write_results (shard : nat -> nat -> string) (dir fmt : string) (o : outputs) : res files :=
    if negb (supported fmt) then Err ValueError
    else Ok (write_shards shard (join dir "metrics") fmt (o_metrics o)
             ++ write_shards shard (join dir "plots") fmt (o_plots o)
             ++ write_shards shard (join dir "attributions") fmt (o_attributions o)
             ++ match o_validations o with
                | None => []
                | Some v => write_shards (fun _ _ => "") (join dir "validations") fmt [[v]]
                end).

  (** gfile.glob of prefix ++ "*" ++ suffix: the star matches text without "/" (the
      prefix holds no special characters). *)
  Fixpoint strip_prefix (p s : string) : option string :=
    match p, s with
    | "", _ => Some s
    | String a p, String b s => if Ascii.eqb a b then strip_prefix p s else None
    | _, "" => None
    end.
  Fixpoint star_then (suffix s : string) : bool :=
    String.eqb s suffix ||
    match s with "" => false | String c t => negb (Ascii.eqb c "/") && star_then suffix t end.
  Definition glob_match (prefix suffix path : string) : bool :=
    match strip_prefix prefix path with Some rest => star_then suffix rest | None => false end.
  Definition glob (fs : files) (prefix suffix : string) : list file :=
    map snd (filter (fun pf => glob_match prefix suffix (fst pf)) fs).
  Definition isdir (fs : files) (path : string) : bool :=
    negb (String.eqb path "") &&
    existsb (fun pf => match strip_prefix (join path "") (fst pf) with Some _ => true | None => false end) fs.

  (** 88-121 [_parquet_column_iterator], [_raw_value_iterator]; a file of the other format
      makes the reader fail (an exception of TensorFlow or Arrow, here RuntimeError). *)
  Definition raw_values (fmt : string) (l : list file) : res (list record) :=
    if String.eqb fmt "parquet" then
      let! ls := mapM (fun f => match f with ParquetRows rows => Ok (map snd rows) | _ => Err RuntimeError end) l in
      Ok (concat ls)
    else if String.eqb fmt "" || String.eqb fmt "tfrecord" then
      let! ls := mapM (fun f => match f with TfRecords rs => Ok rs | _ => Err RuntimeError end) l in
      Ok (concat ls)
    else Err ValueError.

  (** 146-155, 184-193, 222-231: the files of an output *)
  Definition output_files (fs : files) (path key fmt : string) : list file :=
    let base := if isdir fs path then join path key else path in
    let found := glob fs base (if String.eqb fmt "" then "" else "." +++ fmt) in
    match found with [] => glob fs base "" | _ => found end.

  (** 156-162, 194-200, 232-238: keep the records matching the specs; [select] picks the
      records of the kind read (another kind does not parse). *)
  Definition keep (specs : list spec) (s : pb_slice) : res bool :=
    match specs with
    | [] => Ok true
    | _ => let! k := deserialize_slice_key (pb_slice_key s) in Ok (slice_key_matches_slice_specs k specs)
    end.
  Definition load_records {A} (select : record -> option A) (slice_of : A -> pb_slice)
      (fs : files) (path key fmt : string) (specs : list spec) : res (list A) :=
    let! values := raw_values fmt (output_files fs path key fmt) in
    let! ls := mapM (fun r => match select r with
                              | None => Err RuntimeError
                              | Some a => let! b := keep specs (slice_of a) in Ok (if b then [a] else [])
                              end) values in
    Ok (concat ls).
  Definition as_metrics (r : record) := match r with RMetrics m => Some m | _ => None end.
  Definition as_plots (r : record) := match r with RPlots m => Some m | _ => None end.
  Definition as_attributions (r : record) := match r with RAttributions m => Some m | _ => None end.
  Definition as_validation (r : record) := match r with RValidation m => Some m | _ => None end.
  (** 124-238 [load_and_deserialize_metrics], [_plots], [_attributions] *)
  Definition load_and_deserialize_metrics fs path fmt specs := load_records as_metrics mf_slice fs path "metrics" fmt specs.
  Definition load_and_deserialize_plots fs path fmt specs := load_records as_plots pf_slice fs path "plots" fmt specs.
  Definition load_and_deserialize_attributions fs path fmt specs :=
    load_records as_attributions af_slice fs path "attributions" fmt specs.
  (** 241-276 [load_and_deserialize_validation_result]: exactly one record; no fallback to
      files without suffix *)
  Definition load_and_deserialize_validation_result (fs : files) (path fmt : string) : res V :=
    let base := if isdir fs path then join path "validations" else path in
    let! values := raw_values fmt (glob fs base (if String.eqb fmt "" then "" else "." +++ fmt)) in
    let! vs := mapM (fun r => match as_validation r with None => Err RuntimeError | Some v => Ok v end) values in
    match vs with [v] => Ok v | _ => Err AssertionError end.
End Files.
Arguments record : clear implicits.
Arguments file : clear implicits.
Arguments files : clear implicits.
Arguments outputs : clear implicits.

(* ------------------------------------------------------------------ *)
(** * Views: view/util.py *)

(** metrics_by output name, sub key, name: view_types.py 48-50 *)
Definition nested (A : Type) := list (string * list (string * list (string * A))).
Definition sget {A} (d : list (string * A)) (k : string) : option A := dget String.eqb d k.
Definition sset {A} (d : list (string * A)) (k : string) (v : A) := dset String.eqb d k v.
Definition child {A} (d : list (string * list A)) (k : string) : list A :=
  match sget d k with Some x => x | None => [] end.
(** the chain of "if … not in …: … = {}" followed by the assignment *)
Definition put {A} (d : nested A) (o s n : string) (v : A) : nested A :=
  sset d o (sset (child d o) s (sset (child (child d o) s) n v)).
Definition look {A} (d : nested A) (o s n : string) : option A :=
  match sget d o with
  | None => None
  | Some d => match sget d s with None => None | Some d => sget d n end
  end.

(** metric_types.py 99-115 [SubKey.__str__] *)
Definition sub_key_text (s : sub_key) : res string :=
  match sk_k s with
  | Some k => Ok ("k:" +++ print_Z (Z.of_nat k))
  | None =>
      match sk_class_id s, sk_top_k s with
      | None, None => Err NotImplementedError
      | Some c, None => Ok ("classId:" +++ print_Z c)
      | None, Some t => Ok ("topK:" +++ print_Z (Z.of_nat t))
      | Some c, Some t => Ok ("classId:" +++ print_Z c +++ " topK:" +++ print_Z (Z.of_nat t))
      end
  end.
(** util.py 573-577: an empty sub key message reads as None, whose text is "None" *)
Definition sub_key_id (s : option pb_sub_key) : res string :=
  match s with
  | None => Ok ""
  | Some p => let! s := sub_key_from_proto p in
              match s with None => Ok "None" | Some s => sub_key_text s end
  end.

(** The text of an AggregationType message: "field: true" and a newline; false is printed
    as well since the field is part of a oneof. *)
Definition newline : string := String (ascii_of_nat 10) "".
Definition agg_text (a : pb_agg) : string :=
  match a with
  | None => ""
  | Some (f, b) => (match f with Micro => "micro_average" | Macro => "macro_average"
                               | WeightedMacro => "weighted_macro_average" end)
                   +++ ": " +++ (if b then "true" else "false") +++ newline
  end.
(** 580-590 *)
Definition metric_name (k : pb_key) : string :=
  if pb_diff k then pb_name k +++ "_diff"
  else match pb_aggregation k with
       | Some a => agg_text a +++ "_" +++ pb_name k
       | None => pb_name k
       end.

(** 507-545 [_get_metric_value_with_ci]; reading .double_value of a bound that is not a
    double gives the empty message, 0.0.  The rendering MessageToDict is the identity. *)
Definition double_of (v : pb_value) : num := match v with PbDouble x => x | _ => Fin 0%Qc end.
Definition metric_value_with_ci (v : pb_value) (ci : option pb_interval) : pb_value :=
  match ci, v with
  | Some i, PbDouble x => PbBounded x (double_of (ci_lower i)) (double_of (ci_upper i))
  | _, _ => v
  end.

(** 565-566, 579-590, 699-709: the default model name, None or "" or a name *)
Definition next_default (diff : bool) (current : string) (default : option string) : option string :=
  if diff then match default with
               | None => Some current
               | Some d => if String.eqb d current then default else Some ""
               end
  else default.

(** "model_name or default_model_name" *)
Definition chosen_model (model_name default : option string) : option string :=
  match model_name with Some m => if String.eqb m "" then default else Some m | None => default end.

Definition slice_from_proto (s : pb_slice) : res any_key :=
  match s with
  | PbTwo b c => let! p := deserialize_cross (b, c) in Ok (Two (fst p) (snd p))
  | PbOne k => let! k := deserialize_slice_key k in Ok (One k)
  end.

(** 557-598: the metrics of all models *)
Definition by_model (A : Type) := list (string * nested A).
Definition put_model {A} (d : by_model A) (m o s n : string) (v : A) : by_model A := sset d m (put (child d m) o s n v).
Definition add_kv (acc : by_model pb_value * option string) (kv : metric_kv)
    : res (by_model pb_value * option string) :=
  let k := kv_key kv in
  let! id := sub_key_id (pb_sub k) in
  Ok (put_model (fst acc) (pb_model k) (pb_output k) id (metric_name k)
        (metric_value_with_ci (kv_value kv) (kv_interval kv)),
      next_default (pb_diff k) (pb_model k) (snd acc)).
(** 604-611: adding the metrics that belong to no model *)
Definition add_independent {A} (d shared : nested A) : nested A :=
  fold_left (fun d o => fold_left (fun d s => fold_left (fun d n => put d (fst o) (fst s) (fst n) (snd n)) (snd s) d) (snd o) d)
            shared d.
(** 600-621: the metrics of one model; None: the record is skipped *)
Definition select_model {A} (independent : bool) (maps : by_model A) (chosen : option string) : option (option (nested A)) :=
  let fallback :=
    match chosen, maps with
    | (None | Some ""), [(_, d)] => Some (Some d)
    | _, [] => Some None
    | _, _ => None
    end in
  match chosen with
  | Some m =>
      match sget maps m with
      | Some d =>
          if independent && negb (String.eqb m "")
          then Some (Some (match sget maps "" with Some shared => add_independent d shared | None => d end))
          else Some (Some d)
      | None => fallback
      end
  | None => fallback
  end.
(** 548-628 [convert_metrics_proto_to_dict] *)
Definition convert_metrics_proto_to_dict (r : metrics_for_slice) (model_name : option string)
    : res (option (any_key * option (nested pb_value))) :=
  let start := match mf_metrics r with [] => [] | l => [("", [("", [("", l)])])] end in
  let! acc := foldM add_kv (mf_kvs r) (start, None) in
  match select_model true (fst acc) (chosen_model model_name (snd acc)) with
  | None => Ok None
  | Some d => let! k := slice_from_proto (mf_slice r) in Ok (Some (k, d))
  end.

(** 631-682 [convert_plots_proto_to_dict]; plots by output and sub key.  The deprecated
    fields hold what errors leave (a map with one entry, which is chosen). *)
Definition flat (A : Type) := list (string * list (string * A)).
Inductive plot_view := ErrorPlot (s : string) | PlotOf (d : plot_data).
Definition put_plot (d : list (string * flat plot_view)) (m o s : string) (v : plot_view) :=
  sset d m (sset (child d m) o (sset (child (child d m) o) s v)).
Definition convert_plots_proto_to_dict (r : plots_for_slice) (model_name : option string)
    : res (option (skey * option (flat plot_view))) :=
  let start := match pf_plots r with (_, e) :: _ => [("", [("", [("", ErrorPlot e)])])] | [] => [] end in
  let! maps := foldM (fun acc kv => let! id := sub_key_id (pp_sub (fst kv)) in
                                    Ok (put_plot acc (pp_model (fst kv)) (pp_output (fst kv)) id (PlotOf (snd kv))))
                     (pf_kvs r) start in
  let found :=
    match model_name with Some m => sget maps m | None => None end in
  let chosen :=
    match found, maps with
    | Some d, _ => Some (Some d)
    | None, [] => Some None
    | None, [(_, d)] => match model_name with None | Some "" => Some (Some d) | _ => None end
    | None, _ => None
    end in
  match chosen with
  | None => Ok None
  | Some d => let! k := deserialize_slice_key (pb_slice_key (pf_slice r)) in Ok (Some (k, d))
  end.

(** 685-737 [convert_attributions_proto_to_dict] *)
Definition attribution_name (k : pb_attributions_key) : string :=
  if pa_diff k then pa_name k +++ "_diff" else pa_name k.
Definition convert_attributions_proto_to_dict (r : attributions_for_slice) (model_name : option string)
    : res (skey * option (nested (list (string * pb_value)))) :=
  let! acc := foldM (fun acc kv =>
      let k := fst kv in
      let! id := sub_key_id (pa_sub k) in
      Ok (put_model (fst acc) (pa_model k) (pa_output k) id (attribution_name k) (snd kv),
          next_default (pa_diff k) (pa_model k) (snd acc))) (af_kvs r) ([], None) in
  match select_model false (fst acc) (chosen_model model_name (snd acc)) with
  | None => Err ValueError
  | Some d => let! k := deserialize_slice_key (pb_slice_key (af_slice r)) in Ok (k, d)
  end.

(** slicer_lib.py 174-200 [is_slice_applicable] on any key: the elements of a cross slice
    key are slice keys; the empty one has no element 0, and a pair or a tuple of pairs is
    neither a feature nor a column of the spec. *)
Definition applicable_any (sp : spec) (k : any_key) : res bool :=
  match k with
  | One k => Ok (is_slice_applicable sp k)
  | Two [] _ => Err IndexError
  | Two (_ :: _) _ => Ok false
  end.
(** 84-110 [find_all_slices]; the slice is kept as its key rather than its text *)
Definition find_all_slices {A} (results : list (any_key * A)) (sp : spec) : res (list (any_key * A)) :=
  let! ls := mapM (fun r => let! b := applicable_any sp (fst r) in Ok (if b then [r] else [])) results in
  Ok (concat ls).
(** 34-81 [get_slicing_metrics]; "not slicing_spec" is false for any SingleSliceSpec (it
    defines no truth value), and an empty column counts as none. *)
Definition get_slicing_metrics {A} (results : list (any_key * A)) (column : string) (sp : option spec)
    : res (list (any_key * A)) :=
  let! data := find_all_slices results
                 (if negb (String.eqb column "") then Spec [column] []
                  else match sp with None => Spec [] [] | Some sp => sp end) in
  match data, sp with
  | [], _ => Err ValueError
  | _ :: _ :: _, None => if String.eqb column "" then Err ValueError else Ok data
  | _, _ => Ok data
  end.
(** 113-162 [get_time_series]; each run: its sliced metrics and its locations *)
Definition get_time_series {A L} (runs : list (list (any_key * A) * L)) (sp : spec) : res (list (A * L)) :=
  let! data := foldM (fun acc r =>
      let! m := find_all_slices (fst r) sp in
      match m with
      | [] => Ok acc
      | [x] => Ok (acc ++ [(snd x, snd r)])
      | _ => Err ValueError
      end) runs [] in
  match data with [] => Err ValueError | _ => Ok data end.

(* ------------------------------------------------------------------ *)
(** * Results: view/view_types.py, api/model_eval_lib.py *)

Record eval_result := EvalResult {
  er_metrics : list (any_key * option (nested pb_value));
  er_plots : list (skey * option (flat plot_view));
  er_attributions : list (skey * option (nested (list (string * pb_value))));
  er_model : string }.

(** Comparison of slice keys as tuples; numbers compare by value. *)
Definition any_key_eqb (a b : any_key) : bool :=
  match a, b with
  | One x, One y => key_eqb x y
  | Two b c, Two b' c' => key_eqb b b' && key_eqb c c'
  | _, _ => false
  end.
(** 222-226, 313-317 [equals_slice_name] *)
Definition equals_slice_name (k name : any_key) : bool :=
  match k with
  | One [] => match name with One [] => true | _ => false end
  | _ => any_key_eqb k name
  end.

(** indexing d[output][sub_key]; None is not subscriptable *)
Definition index {A} (d : list (string * A)) (k : string) : res A :=
  match sget d k with Some x => Ok x | None => Err KeyError end.
Definition index2 {A} (d : option (list (string * list (string * A)))) (o s : string) : res A :=
  match d with
  | None => Err TypeError
  | Some d => let! x := index d o in index x s
  end.

(** 215-220: is any of the three given? *)
Definition metrics_sub_key (class_id k top_k : option Z) : res string :=
  match class_id, k, top_k with
  | None, None, None => Ok ""
  | _, _, _ => let! s := mk_sub_key class_id k top_k in sub_key_text s
  end.
(** 303-306, 360-363: "if class_id or k or top_k" *)
Definition truthy_Z (o : option Z) : bool := match o with Some z => negb (Z.eqb z 0) | None => false end.
Definition attributions_sub_key (class_id k top_k : option Z) : res string :=
  if truthy_Z class_id || truthy_Z k || truthy_Z top_k
  then let! s := mk_sub_key class_id k top_k in sub_key_text s
  else Ok "".

(** 192-234 [get_metrics_for_slice] *)
Definition get_metrics_for_slice (r : eval_result) (name : any_key) (output : string) (class_id k top_k : option Z)
    : res (option (list (string * pb_value))) :=
  let! sub := metrics_sub_key class_id k top_k in
  match find (fun m => equals_slice_name (fst m) name) (er_metrics r) with
  | None => Ok None
  | Some m => let! x := index2 (snd m) output sub in Ok (Some x)
  end.
(** 236-271 [get_metrics_for_all_slices] *)
Definition get_metrics_for_all_slices (r : eval_result) (output : string) (class_id k top_k : option Z)
    : res (list (any_key * list (string * pb_value))) :=
  let! sub := metrics_sub_key class_id k top_k in
  foldM (fun acc m => let! x := index2 (snd m) output sub in Ok (dset any_key_eqb acc (fst m) x)) (er_metrics r) [].
(** 273-285 [get_metric_names]; a set *)
Definition get_metric_names (r : eval_result) : res (list string) :=
  let! ls := mapM (fun m => match snd m with
                            | None => Err TypeError
                            | Some d => Ok (flat_map (fun o => flat_map (fun s => map fst (snd s)) (snd o)) d)
                            end) (er_metrics r) in
  Ok (dedup String.eqb (concat ls)).
(** 287-334 [get_attributions_for_slice]; "" as metric name: none given *)
Definition pick_attributions {A} (d : list (string * A)) (metric : string) : res A :=
  if String.eqb metric "" then match d with [(_, x)] => Ok x | _ => Err ValueError end else index d metric.
Definition get_attributions_for_slice (r : eval_result) (name : skey) (metric output : string) (class_id k top_k : option Z)
    : res (option (list (string * pb_value))) :=
  let! sub := attributions_sub_key class_id k top_k in
  match find (fun m => equals_slice_name (One (fst m)) (One name)) (er_attributions r) with
  | None => Ok None
  | Some m => let! x := index2 (snd m) output sub in let! y := pick_attributions x metric in Ok (Some y)
  end.

(** eval_config_writer.py 50-118: what load_eval_run finds: the locations of the models
    by name (a proto map: a missing name reads as ""). *)
Section Load.
  Context {V : Type} (locations : string -> list (string * string)).

  (** model_eval_lib.py 330-391 [load_eval_result] *)
  Definition somes {A} (l : list (option A)) : list A := flat_map (fun o => match o with Some x => [x] | None => [] end) l.
  Definition load_eval_result (fs : files V) (path fmt : string) (model_name : option string) : res eval_result :=
    let! ms := load_and_deserialize_metrics fs path fmt [] in
    let! metrics := mapM (fun m => convert_metrics_proto_to_dict m model_name) ms in
    let! ps := load_and_deserialize_plots fs path fmt [] in
    let! plots := mapM (fun p => convert_plots_proto_to_dict p model_name) ps in
    let! ats := load_and_deserialize_attributions fs path fmt [] in
    let! attributions := mapM (fun a => convert_attributions_proto_to_dict a model_name) ats in
    let location :=
      match locations path with
      | [] => ""
      | (_, first) :: _ => match model_name with
                           | None => first
                           | Some m => match sget (locations path) m with Some l => l | None => "" end
                           end
      end in
    Ok (EvalResult (somes metrics) (somes plots) attributions location).

  (** 284-327 [load_eval_results]: [load path model] stands for load_eval_result; the loop
      variable is the parameter model_name itself. *)
  Definition load_eval_results {R} (load : string -> option string -> res R) (paths : list string)
      (model_name : option string) : res (list R) :=
    let! acc := foldM (fun acc path =>
        let names := match snd acc with None => map fst (locations path) | Some m => [m] end in
        foldM (fun acc name => let! r := load path (Some name) in Ok (fst acc ++ [r], Some name)) names acc)
      paths ([], model_name) in
    Ok (fst acc).
End Load.

(* ------------------------------------------------------------------ *)
(** * Running extractors and evaluators: model_eval_lib.py 879-930 *)

Definition LAST_EXTRACTOR_STAGE_NAME := "<last-extractor>".
Section Evaluate.
  Context {E A : Type}.
  Record extractor := Extractor { x_stage : string; x_run : E -> E }.
  (** An evaluator gives an output for some keys; run_after may be None or "". *)
  Record evaluator := Evaluator { v_stage : string; v_after : option string; v_run : E -> list (string * A) }.

  (** evaluators/evaluator.py 43-62 [verify_evaluator] *)
  Definition verify_evaluator (v : evaluator) (xs : list extractor) : res unit :=
    match v_after v with
    | None => Ok tt
    | Some a =>
        if negb (String.eqb a "") && negb (String.eqb a LAST_EXTRACTOR_STAGE_NAME)
           && negb (existsb (fun x => String.eqb a (x_stage x)) xs)
        then Err ValueError else Ok tt
    end.

  Definition evaluation := list (string * list A).
  (** 891-896 [update] *)
  Definition update (ev : evaluation) (new : list (string * A)) : evaluation :=
    fold_left (fun ev kv => dset String.eqb ev (fst kv) (child ev (fst kv) ++ [snd kv])) new ev.
  Definition runs_after (v : evaluator) (stage : string) : bool :=
    match v_after v with Some a => String.eqb a stage | None => false end.
  Definition runs_first (v : evaluator) : bool :=
    match v_after v with None => true | Some a => String.eqb a "" end.
  Definition run_those (p : evaluator -> bool) (vs : list evaluator) (e : E) (ev : evaluation) : evaluation :=
    fold_left (fun ev v => if p v then update ev (v_run v e) else ev) vs ev.
  (** 901-911; the merge of several outputs of one key is in Evaluator_Model *)
  Definition extract_and_evaluate (e : E) (xs : list extractor) (vs : list evaluator) : evaluation :=
    let ev := run_those runs_first vs e [] in
    let s := fold_left (fun s x => let e := x_run x (fst s) in (e, run_those (fun v => runs_after v (x_stage x)) vs e (snd s)))
                       xs (e, ev) in
    run_those (fun v => runs_after v LAST_EXTRACTOR_STAGE_NAME) vs (fst s) (snd s).
End Evaluate.
Arguments extractor : clear implicits.
Arguments evaluator : clear implicits.
