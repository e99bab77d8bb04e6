(* Frames *)
From Coq Require Import String Ascii Sorting.Sorted.
From Verif Require Import Base BaseFacts BeamFacts Classes_Main Keras_Main Util_Model Config_Model Frames_Model.
From Verif Require Import Frames_Main.
Local Open Scope string_scope.
Local Open Scope list_scope.

(* ------------------------------------------------------------------ *)
(** ** C212 the rows of the frames *)
(** The frame of a type has one row for each row of its values, numbered over all types, and in
    every column what the slice, the key or the value has there.  Partial: every value has one
    row, or one for each item of its only field. *)
Theorem C212_rows_partial V (truthy : V -> bool) (of_str : string -> V) px inc l es :
  NoDup [px_slices px; px_keys px; px_values px] -> describes truthy of_str inc l es ->
  exists dfs, to_dataframes truthy of_str px inc l = Ok dfs /\ NoDup (map fst dfs) /\
    (forall t, In t (map fst dfs) <-> exists e, In e es /\ e_type e = t) /\
    (forall t f, In (t, f) dfs -> exists slices keys values,
       fr_columns f = map (pair (px_slices px)) slices ++ map (pair (px_keys px)) keys ++ map (pair (px_values px)) values /\
       NoDup slices /\ NoDup keys /\ NoDup values /\
       (forall c, In c slices <-> slice_column t es c) /\ (forall c, In c keys <-> key_column t es c) /\ (forall c, In c values <-> value_column t es c) /\
       fr_rows f = map (fun r => (fst r, map (the_cell px r) (fr_columns f))) (filter (of_type t) (numbered 0 es))).
Proof. exact (C212_rows_partial_pf V truthy of_str px inc l es). Qed.

Example C212_example_rows : metrics_as_dataframes set_str (fun s => s) false
    [ForSlice (SliceKey [("age", Some "38"); ("sex", Some "f")]) [(metric_key "mae", double "0.1"); (metric_key "cm", matrices [matrix "0.2" "7"; matrix "0.8" "3"])];
     ForSlice (SliceKey []) [(metric_key "mae", double "0.3")]]
  = Ok [("double_value", Frame [("slices", "age"); ("slices", "sex"); ("slices", "Overall"); ("metric_keys", "name"); ("metric_keys", "example_weighted"); ("metric_values", "double_value")]
           [(0, [Some "38"; Some "f"; None; Some "mae"; Some "False"; Some "0.1"]);
            (3, [None; None; Some ""; Some "mae"; Some "False"; Some "0.3"])]);
        ("confusion_matrix_at_thresholds", Frame [("slices", "age"); ("slices", "sex"); ("metric_keys", "name"); ("metric_keys", "example_weighted");
                                                  ("metric_values", "threshold"); ("metric_values", "true_positives")]
           [(1, [Some "38"; Some "f"; Some "cm"; Some "False"; Some "0.2"; Some "7"]);
            (2, [Some "38"; Some "f"; Some "cm"; Some "False"; Some "0.8"; Some "3"])])].
Proof. vm_compute. reflexivity. Qed.

Theorem C212_arrays_refuted : exists a b, metrics_as_dataframes set_str (fun s => s) false [ForSlice (SliceKey []) [(metric_key "a", array ["1"; "1"; "1"] [a]); (metric_key "b", array ["1"; "1"; "1"] [b])]] = Err ValueError.
Proof. exact C212_arrays_refuted_pf. Qed.

Theorem C212_class_matrices_refuted : exists m1 m2, metrics_as_dataframes set_str (fun s => s) false
    [ForSlice (SliceKey []) [(metric_key "m", [("multi_class_confusion_matrix_at_thresholds", One (Message [("matrices", Repeated [class_matrix "0.2" m1; class_matrix "0.8" m2])]))])]] = Err ValueError.
Proof. exact C212_class_matrices_refuted_pf. Qed.

(* ------------------------------------------------------------------ *)
(** ** C213 the types that have a frame *)
Theorem C213_types V (truthy : V -> bool) (of_str : string -> V) inc l es : describes truthy of_str inc l es ->
  ((exists dfs, metrics_as_dataframes truthy of_str inc l = Ok dfs) <->
   forall e, In e es -> In (e_type e) ["double_value"; "confusion_matrix_at_thresholds"; "multi_class_confusion_matrix_at_thresholds"; "bytes_value"; "array_value"]) /\
  ((exists dfs, plots_as_dataframes truthy of_str inc l = Ok dfs) <->
   forall e, In e es -> In (e_type e) ["calibration_histogram_buckets"; "confusion_matrix_at_thresholds"; "multi_class_confusion_matrix_at_thresholds";
                                       "multi_label_confusion_matrix_at_thresholds"; "debug_message"]) /\
  (metrics_as_dataframes truthy of_str inc l = Err TypeError \/ metrics_as_dataframes truthy of_str inc l = to_dataframes truthy of_str metric_columns inc l) /\
  (plots_as_dataframes truthy of_str inc l = Err TypeError \/ plots_as_dataframes truthy of_str inc l = to_dataframes truthy of_str plot_columns inc l).
Proof. exact (C213_types_pf V truthy of_str inc l es). Qed.

Example C213_example_types : metrics_as_dataframes set_str (fun s => s) false
   [ForSlice (SliceKey []) [(metric_key "mae", [("debug_message", One (Prim ""))]); (metric_key "m", [("bytes_value", One (Prim "x"))])]]
  = Ok [("bytes_value", Frame [("slices", "Overall"); ("metric_keys", "name"); ("metric_keys", "example_weighted"); ("metric_values", "bytes_value")] [(0, [Some ""; Some "m"; Some "False"; Some "x"])])].
Proof. vm_compute. reflexivity. Qed.

Theorem C213_bounded_values_refuted : exists v w, metrics_as_dataframes set_str (fun s => s) false
    [ForSlice (SliceKey []) [(metric_key "mae", double v)]; ForSlice (SliceKey []) [(metric_key "auc", bounded w)]] = Err TypeError.
Proof. exact C213_bounded_values_refuted_pf. Qed.

(* ------------------------------------------------------------------ *)
(** ** C214 slices are told apart *)
(** A slice key without a value is refused. *)
Theorem C214_no_value V (truthy : V -> bool) (of_str : string -> V) px inc a b l r kvs c : (forall s, In s a -> exists sl, fs_slicing s = SliceKey (map (fun cv => (fst cv, Some (snd cv))) sl)) ->
  to_dataframes truthy of_str px inc (a ++ ForSlice (SliceKey (map (fun cv => (fst cv, Some (snd cv))) l ++ (c, None) :: r)) kvs :: b) = Err NotImplementedError.
Proof. exact (C214_no_value_pf V truthy of_str px inc a b l r kvs c). Qed.

Theorem C214_slices_partial V (truthy : V -> bool) (of_str : string -> V) px inc l es dfs t f i j x y :
  NoDup [px_slices px; px_keys px; px_values px] -> describes truthy of_str inc l es -> to_dataframes truthy of_str px inc l = Ok dfs -> In (t, f) dfs ->
  nth_error (fr_rows f) i = Some x -> nth_error (fr_rows f) j = Some y -> (forall c, cell_of f x (px_slices px, c) = cell_of f y (px_slices px, c)) ->
  exists r1 r2, nth_error (filter (of_type t) (numbered 0 es)) i = Some r1 /\ nth_error (filter (of_type t) (numbered 0 es)) j = Some r2 /\
    forall sl1 sl2, e_slices (fst (snd r1)) = slice_cells of_str sl1 -> e_slices (fst (snd r2)) = slice_cells of_str sl2 ->
      NoDup (map fst sl1) -> NoDup (map fst sl2) -> ~ In "Overall" (map fst sl1) -> ~ In "Overall" (map fst sl2) -> Permutation sl1 sl2.
Proof. exact (C214_slices_partial_pf V truthy of_str px inc l es dfs t f i j x y). Qed.

Example C214_example_slices : metrics_as_dataframes set_str (fun s => s) false [ForSlice (SliceKey [("a", Some "1")]) []; ForSlice (SliceKey [("b", None)]) []] = Err NotImplementedError /\
  match metrics_as_dataframes set_str (fun s => s) false [ForSlice (SliceKey [("a", Some "1")]) [(metric_key "mae", double "0.1")]; ForSlice (SliceKey []) [(metric_key "mae", double "0.2")]] with
  | Ok [(_, f)] => map (fun r => firstn 2 (snd r)) (fr_rows f) = [[Some "1"; None]; [None; Some ""]]
  | _ => False
  end.
Proof. vm_compute. split; reflexivity. Qed.

(** Comparisons of slices are reported as the whole data. *)
Theorem C214_cross_slices_refuted : exists baseline comparison, baseline <> comparison /\
  metrics_as_dataframes set_str (fun s => s) false [ForSlice (CrossSliceKey baseline comparison) [(metric_key "mae", double "-0.1")]]
  = metrics_as_dataframes set_str (fun s => s) false [ForSlice (SliceKey []) [(metric_key "mae", double "-0.1")]].
Proof. exact C214_cross_slices_refuted_pf. Qed.

(** So is the slice where a feature called Overall is empty. *)
Theorem C214_overall_feature_refuted : exists kvs, metrics_as_dataframes set_str (fun s => s) false [ForSlice (SliceKey [("Overall", Some "")]) kvs]
  = metrics_as_dataframes set_str (fun s => s) false [ForSlice (SliceKey []) kvs] /\
  is_ok (metrics_as_dataframes set_str (fun s => s) false [ForSlice (SliceKey []) kvs]) = true /\ kvs <> [].
Proof. exact C214_overall_feature_refuted_pf. Qed.

(* ------------------------------------------------------------------ *)
(** ** C215 empty columns *)
Theorem C215_empty_columns V (truthy : V -> bool) (of_str : string -> V) px l es :
  NoDup [px_slices px; px_keys px; px_values px] -> describes truthy of_str true l es ->
  exists dfs dfs', to_dataframes truthy of_str px false l = Ok dfs /\ to_dataframes truthy of_str px true l = Ok dfs' /\
    (forall t, In t (map fst dfs) <-> In t (map fst dfs')) /\
    forall t f f', In (t, f) dfs -> In (t, f') dfs' ->
      map fst (fr_rows f) = map fst (fr_rows f') /\
      (forall i x y c, nth_error (fr_rows f) i = Some x -> nth_error (fr_rows f') i = Some y -> cell_of f x c = cell_of f' y c) /\
      (forall p c, In (p, c) (fr_columns f') <-> In (p, c) (fr_columns f) \/ p = px_keys px /\ exists e, In e es /\ e_type e = t /\ In (c, None) (e_key e)).
Proof. exact (C215_empty_columns_pf V truthy of_str px l es). Qed.

Example C215_example_empty : match metrics_as_dataframes set_str (fun s => s) true [ForSlice (SliceKey []) [(metric_key "mae", double "0.1")]] with
  | Ok [(_, f)] => fr_columns f = [("slices", "Overall"); ("metric_keys", "name"); ("metric_keys", "sub_key"); ("metric_keys", "example_weighted"); ("metric_values", "double_value")] /\
                   map snd (fr_rows f) = [[Some ""; Some "mae"; None; Some "False"; Some "0.1"]]
  | _ => False
  end.
Proof. vm_compute. split; reflexivity. Qed.

(* ------------------------------------------------------------------ *)
(** ** C216 slices as strings *)
Theorem C216_strings V (of_str : string -> V) (str : V -> string) f : frame_shape f ->
  exists rows, Permutation rows (fr_rows f) /\ StronglySorted (fun a b => String.leb (slice_text str (slice_of f a)) (slice_text str (slice_of f b)) = true) rows /\
  let g := stringify_slices of_str str f "slices" in
  frame_shape g /\
  fr_columns g = ("slices", "stringified_slices") :: filter (fun c => negb (String.eqb (fst c) "slices")) (fr_columns f) /\
  Forall2 (fun r r' => fst r' = fst r /\ cell_of g r' ("slices", "stringified_slices") = Some (of_str (slice_text str (slice_of f r))) /\
                       forall c, fst c <> "slices" -> cell_of g r' c = cell_of f r c) rows (fr_rows g).
Proof. exact (C216_strings_pf V of_str str f). Qed.

Example C216_example_strings : stringify_slices (fun s => s) (fun s => s)
    (Frame [("slices", "sex"); ("slices", "age"); ("metric_keys", "name")] [(0, [Some "m"; Some "38"; Some "a"]); (1, [None; Some "38"; Some "b"]); (2, [Some "f"; None; Some "c"])]) "slices"
  = Frame [("slices", "stringified_slices"); ("metric_keys", "name")] [(1, [Some "age:38"; Some "b"]); (2, [Some "sex:f"; Some "c"]); (0, [Some "sex:m; age:38"; Some "a"])].
Proof. reflexivity. Qed.

Theorem C216_distinct_partial V (of_str : string -> V) (str : V -> string) f : (forall s t, of_str s = of_str t -> s = t) -> (forall v w, str v = str w -> v = w) -> frame_shape f ->
  (forall c, In ("slices", c) (fr_columns f) -> free_of ":" c) ->
  (forall r c v, In r (fr_rows f) -> cell_of f r ("slices", c) = Some v -> free_of ";" (str v)) ->
  exists rows, Permutation rows (fr_rows f) /\ Forall2 (fun r r' => fst r = fst r' /\
      forall q q', In (q, q') (combine rows (fr_rows (stringify_slices of_str str f "slices"))) ->
        (cell_of (stringify_slices of_str str f "slices") r' ("slices", "stringified_slices") = cell_of (stringify_slices of_str str f "slices") q' ("slices", "stringified_slices")
         <-> forall c, cell_of f r ("slices", c) = cell_of f q ("slices", c))) rows (fr_rows (stringify_slices of_str str f "slices")).
Proof. exact (C216_distinct_partial_pf V of_str str f). Qed.

Example C216_example_distinct : free_of ":" "age" /\ free_of ";" "38" /\ ~ free_of ";" "1; b:2".
Proof. cbn. repeat split; try discriminate. intuition. Qed.

(** Otherwise they may be the same. *)
Theorem C216_same_string_refuted : exists a b r q, a <> b /\ fr_rows (Frame [("slices", "a"); ("slices", "b")] [(0, a); (1, b)]) = [r; q] /\
  fr_rows (stringify_slices (fun s => s) (fun s : string => s) (Frame [("slices", "a"); ("slices", "b")] [(0, a); (1, b)]) "slices") = [(0, [Some "a:1; b:2"]); (1, [Some "a:1; b:2"])].
Proof. exact C216_same_string_refuted_pf. Qed.

(** The whole data is documented as Overall. *)
Theorem C216_overall_refuted : exists kvs f, metrics_as_dataframes set_str (fun s => s) false [ForSlice (SliceKey []) kvs] = Ok [("double_value", f)] /\
  map (fun r => hd None (snd r)) (fr_rows (stringify_slices (fun s => s) (fun s => s) f "slices")) = [Some "Overall:"].
Proof. exact C216_overall_refuted_pf. Qed.

(* ------------------------------------------------------------------ *)
(** ** C217 pivots *)
Theorem C217_pivot_columns V (veqb : V -> V -> bool) f p : (forall a b, veqb a b = true <-> a = b) -> frame_shape f ->
  NoDup (pivot_columns veqb f p) /\
  (forall c, In c (pivot_columns veqb f p) <-> In c (fr_columns f) /\ fst c = p /\ exists r q, In r (fr_rows f) /\ In q (fr_rows f) /\ cell_of f r c <> cell_of f q c) /\
  StronglySorted (pivoted_before f) (pivot_columns veqb f p).
Proof. exact (C217_pivot_columns_pf V veqb f p). Qed.

Example C217_example_columns : pivot_columns String.eqb
    (Frame [("slices", "Overall"); ("metric_keys", "name"); ("metric_keys", "model"); ("metric_keys", "class"); ("metric_keys", "diff")]
       [(0, [Some ""; Some "a"; Some "m"; Some "0"; Some "F"]); (1, [Some ""; Some "a"; Some "n"; Some "1"; Some "F"]); (2, [Some ""; Some "b"; Some "n"; Some "2"; Some "F"])]) "metric_keys"
  = [("metric_keys", "class"); ("metric_keys", "model"); ("metric_keys", "name")].
Proof. reflexivity. Qed.

Theorem C217_pivot V (veqb : V -> V -> bool) of_str str f px : (forall a b, veqb a b = true <-> a = b) -> frame_shape f -> px = metric_columns \/ px = plot_columns -> frame_with px f ->
  one_row_each f px (fun r => map (cell_of f r) (columns_under f "slices")) ->
  exists p, auto_pivot veqb of_str str false false f = Ok p /\ pv_index p = columns_under f "slices" /\
    ((exists columns, columns <> [] /\ NoDup columns /\ (forall c, In c columns <-> In c (columns_under f (px_keys px)) /\ varies f c) /\
        is_pivot f (fun r => map (cell_of f r) (columns_under f "slices")) columns (columns_under f (px_values px)) p) \/
     ((forall c, In c (columns_under f (px_keys px)) -> ~ varies f c) /\ pv_columns p = map (fun v => [ValueName v]) (columns_under f (px_values px)) /\
        pv_rows p = map (fun r => (map (cell_of f r) (columns_under f "slices"), map (cell_of f r) (columns_under f (px_values px)))) (fr_rows f))).
Proof. exact (C217_pivot_pf V veqb of_str str f px). Qed.

Example C217_example_pivot : auto_pivot String.eqb (fun s => s) (fun s => s) false false pivot_sample
  = Ok (Pivoted [("slices", "sex"); ("slices", "age")]
          [[ValueName ("metric_values", "double_value"); KeyCell (Some "mae")]; [ValueName ("metric_values", "double_value"); KeyCell (Some "mse")]]
          [([Some "m"; None], [Some "0.1"; Some "0.2"]); ([None; Some "38"], [Some "0.3"; None])]).
Proof. reflexivity. Qed.

Theorem C217_stringified V (veqb : V -> V -> bool) (of_str : string -> V) str f px : (forall a b, veqb a b = true <-> a = b) -> frame_shape f -> px = metric_columns \/ px = plot_columns -> frame_with px f ->
  one_row_each f px (fun r => [Some (of_str (slice_text str (slice_of f r)))]) ->
  exists p, auto_pivot veqb of_str str true false f = Ok p /\ pv_index p = [("slices", "")] /\
    ((exists columns, columns <> [] /\ NoDup columns /\ (forall c, In c columns <-> In c (columns_under f (px_keys px)) /\ varies f c) /\
        is_pivot f (fun r => [Some (of_str (slice_text str (slice_of f r)))]) columns (columns_under f (px_values px)) p) \/
     ((forall c, In c (columns_under f (px_keys px)) -> ~ varies f c) /\ pv_columns p = map (fun v => [ValueName v]) (columns_under f (px_values px)) /\
      exists rows, Permutation rows (fr_rows f) /\ StronglySorted (fun a b => String.leb (slice_text str (slice_of f a)) (slice_text str (slice_of f b)) = true) rows /\
        pv_rows p = map (fun r => ([Some (of_str (slice_text str (slice_of f r)))], map (cell_of f r) (columns_under f (px_values px)))) rows)).
Proof. exact (C217_stringified_pf V veqb of_str str f px). Qed.

Example C217_example_stringified : auto_pivot String.eqb (fun s => s) (fun s => s) true false pivot_sample
  = Ok (Pivoted [("slices", "")]
          [[ValueName ("metric_values", "double_value"); KeyCell (Some "mae")]; [ValueName ("metric_values", "double_value"); KeyCell (Some "mse")]]
          [([Some "age:38"], [Some "0.3"; None]); ([Some "sex:m"], [Some "0.1"; Some "0.2"])]).
Proof. reflexivity. Qed.

Theorem C217_plots_refuted : exists kvs f, plots_as_dataframes set_str (fun s => s) false [ForSlice (SliceKey []) kvs] = Ok [("confusion_matrix_at_thresholds", f)] /\
  forall s c, auto_pivot String.eqb (fun s => s) (fun s => s) s c f = Err ValueError.
Proof. exact C217_plots_refuted_pf. Qed.

(** Other frames are refused. *)
Theorem C217_other_frames V (veqb : V -> V -> bool) of_str str s c f : (forall px, px = metric_columns \/ px = plot_columns ->
    exists p, In p [px_slices px; px_keys px; px_values px] /\ forall d, ~ In (p, d) (fr_columns f)) ->
  auto_pivot veqb of_str str s c f = Err NotImplementedError.
Proof. exact (C217_other_frames_pf V veqb of_str str s c f). Qed.

Example C217_example_other : auto_pivot String.eqb (fun s => s) (fun s => s) true true (Frame [("slices", "a"); ("metric_keys", "name"); ("plot_data", "x")] []) = Err NotImplementedError.
Proof. reflexivity. Qed.

(* ------------------------------------------------------------------ *)
(** ** C218 collapsed names *)
Theorem C218_collapsed V (veqb : V -> V -> bool) (of_str : string -> V) str s f px p : (forall a b, veqb a b = true <-> a = b) -> frame_shape f -> px = metric_columns \/ px = plot_columns -> frame_with px f ->
  auto_pivot veqb of_str str s false f = Ok p ->
  exists p', auto_pivot veqb of_str str s true f = Ok p' /\ pv_index p' = pv_index p /\ pv_rows p' = pv_rows p /\
    ((exists c v, In c (columns_under f (px_keys px)) /\ varies f c /\ columns_under f (px_values px) = [v] /\ pv_columns p = map (cons (ValueName v)) (pv_columns p')) \/
     (((forall c, In c (columns_under f (px_keys px)) -> ~ varies f c) \/ 1 < length (columns_under f (px_values px))) /\ pv_columns p' = pv_columns p)).
Proof. exact (C218_collapsed_pf V veqb of_str str s f px p). Qed.

Example C218_example_collapsed : auto_pivot String.eqb (fun s => s) (fun s => s) true true pivot_sample
  = Ok (Pivoted [("slices", "")] [[KeyCell (Some "mae")]; [KeyCell (Some "mse")]] [([Some "age:38"], [Some "0.3"; None]); ([Some "sex:m"], [Some "0.1"; Some "0.2"])]).
Proof. reflexivity. Qed.

(* ------------------------------------------------------------------ *)
(** ** C219 the saved configuration *)
(** What was written is loaded. *)
Theorem C219_round_trip C O (convert : O -> C * string * string) disabled fs output_path cfg fmt data data_fmt models filename fs' :
  ~ output_disabled disabled -> write_eval_config disabled fs output_path cfg fmt data data_fmt models filename = Ok fs' ->
  load_eval_run convert fs' output_path fmt filename
  = Ok (Some cfg, given "<user provided PCollection>" data, given "<unknown>" data_fmt, given [("", "<unknown>")] models).
Proof. exact (C219_round_trip_pf C O convert disabled fs output_path cfg fmt data data_fmt models filename fs'). Qed.

Example C219_example_round_trip : exists fs, write_eval_config (C := nat) (O := unit) ["analysis"] [] "/tmp/out" 7 "json" (Some "data") None None None = Ok fs /\
  dget String.eqb fs "/tmp/out/eval_config.json" = Some (Json (EvalRun 7 "0.49.0.dev" "data" "<unknown>" [("", "<unknown>")])).
Proof. eexists. split; reflexivity. Qed.

(** It is one file, in the directory. *)
Theorem C219_one_file C O disabled fs dir (cfg : C) data data_fmt models : dir <> "" -> no_slash_at_end dir -> ~ output_disabled disabled ->
  exists fs', write_eval_config (O := O) disabled fs dir cfg "json" data data_fmt models None = Ok fs' /\
    (exists r, dget String.eqb fs' (dir ++ "/eval_config.json")%string = Some r) /\
    forall p, p <> (dir ++ "/eval_config.json")%string -> dget String.eqb fs' p = dget String.eqb fs p.
Proof. exact (C219_one_file_pf C O disabled fs dir cfg data data_fmt models). Qed.

Example C219_example_one_file : no_slash_at_end "/tmp/out".
Proof. intros t E. do 8 (destruct t as [|? t]; [discriminate E|injection E as <- E]). destruct t; discriminate E. Qed.

(** Other formats are refused, unless the output is disabled, which leaves all files. *)
Theorem C219_formats C O disabled (fs : list (string * content (C := C) (O := O))) output_path cfg fmt data data_fmt models filename :
  (output_disabled disabled -> write_eval_config disabled fs output_path cfg fmt data data_fmt models filename = Ok fs) /\
  (~ output_disabled disabled -> (fmt = "" \/ fmt = "json" -> is_ok (write_eval_config disabled fs output_path cfg fmt data data_fmt models filename) = true) /\
                                 (fmt <> "" -> fmt <> "json" -> write_eval_config disabled fs output_path cfg fmt data data_fmt models filename = Err ValueError)).
Proof. exact (C219_formats_pf C O disabled fs output_path cfg fmt data data_fmt models filename). Qed.

Example C219_example_formats : write_eval_config (C := nat) (O := unit) [] [] "/tmp/out" 7 "tfrecord" None None None None = Err ValueError.
Proof. reflexivity. Qed.

(** Without the file, that of former versions is read; without both there is no configuration. *)
Theorem C219_other_files C O (convert : O -> C * string * string) fs dir : dir <> "" -> no_slash_at_end dir -> dget String.eqb fs (dir ++ "/eval_config.json")%string = None ->
  (dget String.eqb fs (dir ++ "/eval_config")%string = None -> load_eval_run convert fs dir "json" None = Ok (None, "", "", [])) /\
  (forall version o cfg data model, dget String.eqb fs (dir ++ "/eval_config")%string = Some (Pickled (Some version) (Some o)) -> convert o = (cfg, data, model) ->
     load_eval_run convert fs dir "json" None = Ok (Some cfg, data, "", [("", model)])).
Proof. exact (C219_other_files_pf C O convert fs dir). Qed.

Example C219_example_other : load_eval_run (C := nat) (fun n => (n, "d", "m")) [("/tmp/out.1/eval_config", Pickled (Some "0.6") (Some 5))] "/tmp/out.1" "json" None
  = Ok (Some 5, "d", "", [("", "m")]).
Proof. reflexivity. Qed.

(** A file without a version is refused, ... *)
Theorem C219_versions C O (convert : O -> C * string * string) fs dir r : dir <> "" -> no_slash_at_end dir -> dget String.eqb fs (dir ++ "/eval_config.json")%string = Some (Json r) ->
  (load_eval_run convert fs dir "json" None = Err ValueError <-> er_version r = "").
Proof. exact (C219_versions_pf C O convert fs dir r). Qed.

Example C219_example_versions : load_eval_run (C := nat) (O := nat) (fun n => (n, "d", "m")) [("/o/eval_config.json", Json (EvalRun 7 "" "d" "f" []))] "/o" "json" None = Err ValueError.
Proof. reflexivity. Qed.

(** ... but not one of former versions. *)
Theorem C219_versions_refuted : exists fs cfg, dget String.eqb fs "/o/eval_config" = Some (Pickled None (Some 5)) /\
  load_eval_run (C := nat) (fun n => (n, "d", "m")) fs "/o" "json" None = Ok (Some cfg, "d", "", [("", "m")]).
Proof. exact C219_versions_refuted_pf. Qed.

Print Assumptions C212_rows_partial.
Print Assumptions C212_arrays_refuted.
Print Assumptions C212_class_matrices_refuted.
Print Assumptions C213_types.
Print Assumptions C213_bounded_values_refuted.
Print Assumptions C214_no_value.
Print Assumptions C214_slices_partial.
Print Assumptions C214_cross_slices_refuted.
Print Assumptions C214_overall_feature_refuted.
Print Assumptions C215_empty_columns.
Print Assumptions C216_strings.
Print Assumptions C216_distinct_partial.
Print Assumptions C216_same_string_refuted.
Print Assumptions C216_overall_refuted.
Print Assumptions C217_pivot_columns.
Print Assumptions C217_pivot.
Print Assumptions C217_stringified.
Print Assumptions C217_plots_refuted.
Print Assumptions C217_other_frames.
Print Assumptions C218_collapsed.
Print Assumptions C219_round_trip.
Print Assumptions C219_one_file.
Print Assumptions C219_formats.
Print Assumptions C219_other_files.
Print Assumptions C219_versions.
Print Assumptions C219_versions_refuted.
