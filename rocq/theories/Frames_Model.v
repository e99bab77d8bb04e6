(* Model of api/dataframe.py and of writers/eval_config_writer.py. *)
From Coq Require Import String Ascii.
From Verif Require Import Base Util_Model Config_Model.
Local Open Scope string_scope.
Local Open Scope list_scope.

Section Frames.
  (** Python values of fields and of slices; [of_str] are the strings among them.  pandas'
      conversions of columns (integers to floats beside missing values) are not modelled, nor is
      NaN as a value. *)
  Context {V : Type} (veqb : V -> V -> bool) (truthy : V -> bool) (of_str : string -> V) (str : V -> string).

  (** Messages, with the fields of their descriptors in order.  A field of message type may be
      unset (HasField); a primitive one always has a value. *)
  Inductive pval := Prim (v : V) | Wrapper (v : V) | Message (l : list (string * fval))
  with fval := Unset | One (p : pval) | Repeated (l : list pval).
  Notation leaf := (string * option V * nat)%type.

  (** 92-163 [_flatten_proto] *)
  Fixpoint flat_value (include_empty : bool) (name : string) (p : pval) (index : nat) {struct p} : list leaf :=
    match p with
    | Prim v | Wrapper v => [(name, Some v, index)]
    | Message l => (fix go l := match l with [] => [] | (n, f) :: t => flat_field include_empty n f index ++ go t end) l
    end
  with flat_field (include_empty : bool) (name : string) (f : fval) (index : nat) {struct f} : list leaf :=
    match f with
    | Unset => if include_empty then [(name, None, index)] else []
    | One p => flat_value include_empty name p index
    | Repeated l => (fix go i l := match l with [] => [] | p :: t => flat_value include_empty name p i ++ go (S i) t end) index l
    end.

  (** 39-51 [_ColumnData]; the names of the three parts are those of dictionaries *)
  Notation columns := (list (string * list (option V * nat))).
  Record column_data := ColumnData { cd_slices : columns; cd_keys : columns; cd_values : columns }.
  Definition column (d : columns) (k : string) : list (option V * nat) :=
    match dget String.eqb d k with Some l => l | None => [] end.
  Definition extend (d : columns) (k : string) (l : list (option V * nat)) : columns := dset String.eqb d k (column d k ++ l).

  (** 166-178 [_get_slice_value]; a slice key without a value is None here.  A MetricsForSlice or
      PlotsForSlice has a slice key or a cross slice key; the slice key of the latter reads as
      the empty one. *)
  Inductive slicing := SliceKey (l : list (string * option V)) | CrossSliceKey (baseline comparison : list (string * option V)).
  Record for_slice := ForSlice { fs_slicing : slicing; fs_values : list (fval * list (string * fval)) }.
  Definition single_slice_keys (s : slicing) : list (string * option V) :=
    match s with SliceKey l => l | CrossSliceKey _ _ => [] end.
  (** 207-210 *)
  Definition slices_of (s : slicing) : res (list (string * V)) :=
    mapM (fun kv => match snd kv with Some v => Ok (fst kv, v) | None => Err NotImplementedError end) (single_slice_keys s).

  (** 224-228: is there a value? *)
  Definition skipped (f : fval) : bool :=
    match f with
    | Unset => true
    | One (Prim v) => negb (truthy v)
    | One _ => false
    | Repeated l => match l with [] => true | _ => false end
    end.
  Definition OVERALL := "Overall".
  (** 234-239: one more than the row of the last leaf *)
  Definition index_end (leaves : list leaf) (index : nat) : nat :=
    fold_left (fun _ l => S (snd l)) leaves index.
  (** 220-260: one field of a value *)
  Definition add_value (include_empty : bool) (slices : list (string * V)) (key : fval)
      (st : list (string * column_data) * nat) (tf : string * fval) : list (string * column_data) * nat :=
    let '(data, index) := st in
    if skipped (snd tf) then st
    else
      let d := match dget String.eqb data (fst tf) with Some d => d | None => ColumnData [] [] [] end in
      let leaves := flat_field false (fst tf) (snd tf) index in
      let values := fold_left (fun c l => extend c (fst (fst l)) [(snd (fst l), snd l)]) leaves (cd_values d) in
      let e := index_end leaves index in
      let rows (v : option V) := map (fun i => (v, i)) (seq index (e - index)) in
      let keys := fold_left (fun c l => extend c (fst (fst l)) (rows (snd (fst l)))) (flat_field include_empty "key" key index) (cd_keys d) in
      let slices := match slices with
                    | [] => extend (cd_slices d) OVERALL (rows (Some (of_str "")))
                    | _ => fold_left (fun c s => extend c (fst s) (rows (Some (snd s)))) slices (cd_slices d)
                    end in
      (dset String.eqb data (fst tf) (ColumnData slices keys values), e).
  (** 204-260 *)
  Definition column_data_of (include_empty : bool) (l : list for_slice) : res (list (string * column_data)) :=
    let! st := foldM (fun st s =>
                        let! slices := slices_of (fs_slicing s) in
                        Ok (fold_left (fun st kv => fold_left (add_value include_empty slices (fst kv)) (snd kv) st) (fs_values s) st))
                     l ([], 0) in
    Ok (fst st).

  (** A DataFrame: names of columns, and rows with their labels.  None stands for None and
      for NaN. *)
  Record frame := Frame { fr_columns : list (string * string); fr_rows : list (nat * list (option V)) }.
  Fixpoint insert_nat (x : nat) (l : list nat) : list nat :=
    match l with [] => [x] | y :: t => if Nat.leb x y then x :: l else y :: insert_nat x t end.
  Definition sort_nat (l : list nat) : list nat := fold_right insert_nat [] l.
  Fixpoint nodup (l : list nat) : bool := match l with [] => true | x :: t => negb (memb Nat.eqb x t) && nodup t end.
  Fixpoint nats_eqb (a b : list nat) : bool :=
    match a, b with [], [] => true | x :: a, y :: b => Nat.eqb x y && nats_eqb a b | _, _ => false end.
  (** pd.DataFrame of a dictionary of pd.Series: rows are matched by label; repeated labels are
      refused unless all series have the same labels. *)
  Definition cell_at (s : list (option V * nat)) (i : nat) : option V :=
    match find (fun vi => Nat.eqb (snd vi) i) s with Some (v, _) => v | None => None end.
  Definition make_frame (cols : list ((string * string) * list (option V * nat))) : res frame :=
    match cols with
    | [] => Err TypeError
    | (_, s0) :: _ =>
        let labels := map snd s0 in
        if forallb (fun c => nats_eqb (map snd (snd c)) labels) cols
        then Ok (Frame (map fst cols)
                   (map (fun j => (nth j labels 0, map (fun c => nth j (map fst (snd c)) None) cols)) (seq 0 (length labels))))
        else if forallb (fun c => nodup (map snd (snd c))) cols
        then Ok (Frame (map fst cols)
                   (map (fun i => (i, map (fun c => cell_at (snd c) i) cols)) (sort_nat (dedup Nat.eqb (concat (map (fun c => map snd (snd c)) cols))))))
        else Err ValueError
    end.

  (** 71-78 [_ColumnPrefixes] *)
  Record prefixes := Prefixes { px_slices : string; px_keys : string; px_values : string }.
  Definition metric_columns := Prefixes "slices" "metric_keys" "metric_values".
  Definition plot_columns := Prefixes "slices" "plot_keys" "plot_data".
  (** 261-278 *)
  Definition frame_of (px : prefixes) (d : column_data) : res frame :=
    make_frame (map (fun kv => ((px_slices px, fst kv), snd kv)) (cd_slices d)
                ++ map (fun kv => ((px_keys px, fst kv), snd kv)) (cd_keys d)
                ++ map (fun kv => ((px_values px, fst kv), snd kv)) (cd_values d)).
  (** 181-278 [_to_dataframes] *)
  Definition to_dataframes (px : prefixes) (include_empty : bool) (l : list for_slice) : res (list (string * frame)) :=
    let! data := column_data_of include_empty l in
    mapM (fun td => let! f := frame_of px (snd td) in Ok (fst td, f)) data.
  (** 53-68: the fields of the results *)
  Definition METRIC_FRAMES := ["double_value"; "confusion_matrix_at_thresholds"; "multi_class_confusion_matrix_at_thresholds"; "bytes_value"; "array_value"].
  Definition PLOT_FRAMES := ["calibration_histogram_buckets"; "confusion_matrix_at_thresholds"; "multi_class_confusion_matrix_at_thresholds";
                             "multi_label_confusion_matrix_at_thresholds"; "debug_message"].
  Definition as_fields (fields : list string) (dfs : list (string * frame)) : res (list (string * frame)) :=
    if forallb (fun tf => memb String.eqb (fst tf) fields) dfs then Ok dfs else Err TypeError.
  (** 281-366 [metrics_as_dataframes], 369-462 [plots_as_dataframes] *)
  Definition metrics_as_dataframes (include_empty : bool) (l : list for_slice) : res (list (string * frame)) :=
    let! dfs := to_dataframes metric_columns include_empty l in as_fields METRIC_FRAMES dfs.
  Definition plots_as_dataframes (include_empty : bool) (l : list for_slice) : res (list (string * frame)) :=
    let! dfs := to_dataframes plot_columns include_empty l in as_fields PLOT_FRAMES dfs.

  (* ------------------------------------------------------------------ *)
  (** * Pivots *)

  (** The cells of a row under the first level name [p] *)
  Definition under (p : string) (cols : list (string * string)) (cells : list (option V)) : list (string * option V) :=
    map (fun cv => (snd (fst cv), snd cv)) (filter (fun cv => String.eqb (fst (fst cv)) p) (combine cols cells)).
  Definition names_under (p : string) (cols : list (string * string)) : list string :=
    map snd (filter (fun c => String.eqb (fst c) p) cols).
  (** 493-498 [_concatenate] *)
  Definition slice_string (cells : list (string * option V)) : string :=
    join "; " (concat (map (fun cv => match snd cv with Some v => [(fst cv ++ ":" ++ str v)%string] | None => [] end) cells)).
  Definition SLICE_STR := "stringified_slices".
  (** 471-503 [_stringify_slices]; sort_values is taken to be stable *)
  Definition row_string (f : frame) (r : nat * list (option V)) : string := slice_string (under "slices" (fr_columns f) (snd r)).
  Fixpoint insert_row (f : frame) (x : nat * list (option V)) (l : list (nat * list (option V))) : list (nat * list (option V)) :=
    match l with
    | [] => [x]
    | y :: t => if String.leb (row_string f x) (row_string f y) then x :: l else y :: insert_row f x t
    end.
  Definition stringify_slices (f : frame) (slice_key_name : string) : frame :=
    Frame ((slice_key_name, SLICE_STR) :: filter (fun c => negb (String.eqb (fst c) slice_key_name)) (fr_columns f))
          (map (fun r => (fst r, Some (of_str (row_string f r))
                                 :: map snd (filter (fun cv => negb (String.eqb (fst (fst cv)) slice_key_name)) (combine (fr_columns f) (snd r)))))
               (fold_right (insert_row f) [] (fr_rows f))).

  Definition cell_eqb (a b : option V) : bool :=
    match a, b with Some x, Some y => veqb x y | None, None => true | _, _ => false end.
  Fixpoint cells_eqb (a b : list (option V)) : bool :=
    match a, b with [], [] => true | x :: a, y :: b => cell_eqb x y && cells_eqb a b | _, _ => false end.
  (** 523-531: the key columns with more than one value, those with most values first, then by name *)
  Definition cell_of (f : frame) (r : nat * list (option V)) (c : string * string) : option V :=
    match find (fun cv => String.eqb (fst (fst cv)) (fst c) && String.eqb (snd (fst cv)) (snd c)) (combine (fr_columns f) (snd r)) with
    | Some (_, v) => v
    | None => None
    end.
  Definition nunique (f : frame) (c : string * string) : nat :=
    length (dedup cell_eqb (map (fun r => cell_of f r c) (fr_rows f))).
  Definition before (a b : string * nat) : bool :=
    Nat.ltb (snd b) (snd a) || (Nat.eqb (snd a) (snd b) && String.leb (fst a) (fst b)).
  Fixpoint insert_count (x : string * nat) (l : list (string * nat)) : list (string * nat) :=
    match l with [] => [x] | y :: t => if before x y then x :: l else y :: insert_count x t end.
  Definition pivot_columns (f : frame) (p : string) : list (string * string) :=
    map (fun cn => (p, fst cn))
        (filter (fun cn => Nat.ltb 1 (snd cn))
                (fold_right insert_count [] (map (fun c => (c, nunique f (p, c))) (names_under p (fr_columns f))))).

  (** The result: the names of the index, the labels of the columns (the name of the value, then
      the values of the pivoted columns), and the rows with their labels.  pandas sorts rows and
      columns by their labels; here they are in the order of first appearance. *)
  Inductive level := ValueName (c : string * string) | KeyCell (v : option V).
  Record pivoted := Pivoted { pv_index : list (string * string); pv_columns : list (list level); pv_rows : list (list (option V) * list (option V)) }.
  Definition cells (f : frame) (cs : list (string * string)) (r : nat * list (option V)) : list (option V) := map (cell_of f r) cs.
  (** pd.DataFrame.pivot: without pivoted columns the rows are kept; otherwise two rows with the
      same labels are refused. *)
  Fixpoint no_twice (eqb : list (option V) * list (option V) -> list (option V) * list (option V) -> bool) (l : list (list (option V) * list (option V))) : bool :=
    match l with [] => true | x :: t => negb (memb eqb x t) && no_twice eqb t end.
  Definition labels_eqb (a b : list (option V) * list (option V)) : bool := cells_eqb (fst a) (fst b) && cells_eqb (snd a) (snd b).
  Definition pivot (f : frame) (index columns values : list (string * string)) : res pivoted :=
    match columns with
    | [] => Ok (Pivoted index (map (fun c => [ValueName c]) values) (map (fun r => (cells f index r, cells f values r)) (fr_rows f)))
    | _ =>
        if negb (no_twice labels_eqb (map (fun r => (cells f index r, cells f columns r)) (fr_rows f))) then Err ValueError
        else
          let rows := dedup cells_eqb (map (cells f index) (fr_rows f)) in
          let cols := dedup cells_eqb (map (cells f columns) (fr_rows f)) in
          let cell v i k := match find (fun r => cells_eqb (cells f index r) i && cells_eqb (cells f columns r) k) (fr_rows f) with
                            | Some r => cell_of f r v
                            | None => None
                            end in
          Ok (Pivoted index
                (concat (map (fun v => map (fun k => ValueName v :: map KeyCell k) cols) values))
                (map (fun i => (i, concat (map (fun v => map (fun k => cell v i k) cols) values))) rows))
    end.

  Definition name_eqb (a b : string * string) : bool := String.eqb (fst a) (fst b) && String.eqb (snd a) (snd b).
  Definition level_eqb (a b : level) : bool :=
    match a, b with ValueName x, ValueName y => name_eqb x y | KeyCell x, KeyCell y => cell_eqb x y | _, _ => false end.
  (** 465-468 [_collapse_column_names]; dropping all levels is refused *)
  Definition depth (l : list (list level)) : nat := match l with [] => 0 | c :: _ => length c end.
  Definition constant_level (l : list (list level)) (i : nat) : bool :=
    Nat.eqb (length (dedup level_eqb (map (fun c => nth i c (KeyCell None)) l))) 1.
  Definition collapse_column_names (l : list (list level)) : res (list (list level)) :=
    let kept := filter (fun i => negb (constant_level l i)) (seq 0 (depth l)) in
    match kept, depth l with
    | [], S _ => Err ValueError
    | _, _ => Ok (map (fun c => map (fun i => nth i c (KeyCell None)) kept) l)
    end.
  (** 506-541 [_auto_pivot]; the columns of an unpivoted result are no MultiIndex *)
  Definition auto_pivot_with (px : prefixes) (stringify collapse : bool) (f : frame) : res pivoted :=
    let f := if stringify then stringify_slices f (px_slices px) else f in
    let columns := pivot_columns f (px_keys px) in
    let! r := pivot f (map (pair (px_slices px)) (names_under (px_slices px) (fr_columns f))) columns
                    (map (pair (px_values px)) (names_under (px_values px) (fr_columns f))) in
    let r := if stringify then Pivoted [(px_slices px, "")] (pv_columns r) (pv_rows r) else r in
    if collapse && match columns with [] => false | _ => true end
    then let! c := collapse_column_names (pv_columns r) in Ok (Pivoted (pv_index r) c (pv_rows r))
    else Ok r.
  Definition has_prefix (f : frame) (p : string) : bool := existsb (fun c => String.eqb (fst c) p) (fr_columns f).
  (** 544-600 [auto_pivot] *)
  Definition auto_pivot (stringify collapse : bool) (f : frame) : res pivoted :=
    if has_prefix f "slices" then
      if has_prefix f "plot_keys" && has_prefix f "plot_data" then auto_pivot_with plot_columns stringify collapse f
      else if has_prefix f "metric_keys" && has_prefix f "metric_values" then auto_pivot_with metric_columns stringify collapse f
      else Err NotImplementedError
    else Err NotImplementedError.
End Frames.
Arguments pval : clear implicits.
Arguments fval : clear implicits.
Arguments for_slice : clear implicits.
Arguments slicing : clear implicits.
Arguments frame : clear implicits.
Arguments column_data : clear implicits.
Arguments level : clear implicits.
Arguments pivoted : clear implicits.

(* ------------------------------------------------------------------ *)
(** * The saved configuration: writers/eval_config_writer.py *)

Section EvalRun.
  (** [C] are EvalConfigs, [O] those of former versions with their conversion (96-114). *)
  Context {C O : Type} (convert : O -> C * string * string).
  Record eval_run := EvalRun { er_config : C; er_version : string; er_data_location : string; er_file_format : string; er_model_locations : list (string * string) }.
  (** The content of a file: an EvalRun as JSON, or a pickled dictionary of a former version,
      whose version may be missing. *)
  Inductive content := Json (r : eval_run) | Pickled (version : option string) (config : option O) | Other.
  Notation files := (list (string * content)).

  Definition VERSION := "0.49.0.dev".
  (** os.path.join *)
  Fixpoint slash_last (s : string) : bool :=
    match s with "" => false | String c "" => Ascii.eqb c "/" | String _ t => slash_last t end.
  Definition path_join (dir name : string) : string :=
    if match name with String c _ => Ascii.eqb c "/" | "" => false end then name
    else if String.eqb dir "" || slash_last dir then (dir ++ name)%string else (dir ++ "/" ++ name)%string.
  (** os.path.splitext(path)[0]: what is before the last dot of the last component, unless only
      dots are before that dot. *)
  Fixpoint has_slash (s : string) : bool := match s with "" => false | String c t => Ascii.eqb c "/" || has_slash t end.
  Fixpoint has_dot (s : string) : bool := match s with "" => false | String c t => Ascii.eqb c "." || has_dot t end.
  Fixpoint root_from (only_dots : bool) (s : string) : string :=
    match s with
    | "" => ""
    | String c t =>
        if Ascii.eqb c "/" then String c (root_from true t)
        else if Ascii.eqb c "." then
               if only_dots then String c (root_from true t)
               else if has_slash t || has_dot t then String c (root_from false t) else ""
             else String c (root_from false t)
    end.
  Definition path_root (s : string) : string := root_from true s.

  Definition file_name (filename : option string) (output_file_format : string) : string :=
    match filename with Some f => f | None => ("eval_config" ++ "." ++ output_file_format)%string end.
  (** 121-223 [EvalConfigWriter]; [disabled] are the disabled outputs *)
  Definition write_eval_config (disabled : list string) (fs : files) (output_path : string) (eval_config : C) (output_file_format : string)
      (data_location data_file_format : option string) (model_locations : option (list (string * string))) (filename : option string) : res files :=
    let get d o := match o with Some x => x | None => d end in
    if memb String.eqb "eval_config" disabled then Ok fs
    else if set_str output_file_format && negb (String.eqb output_file_format "json") then Err ValueError
    else Ok (dset String.eqb fs (path_join output_path (file_name filename output_file_format))
               (Json (EvalRun eval_config VERSION (get "<user provided PCollection>" data_location) (get "<unknown>" data_file_format)
                        (match model_locations with Some m => m | None => [("", "<unknown>")] end)))).
  (** 61-118 [load_eval_run] *)
  Definition load_eval_run (fs : files) (output_path output_file_format : string) (filename : option string)
      : res (option C * string * string * list (string * string)) :=
    let path := path_join output_path (file_name filename output_file_format) in
    match dget String.eqb fs path with
    | Some (Json r) => if set_str (er_version r) then Ok (Some (er_config r), er_data_location r, er_file_format r, er_model_locations r) else Err ValueError
    | Some _ => Err ValueError
    | None =>
        match dget String.eqb fs (path_root path) with
        | Some (Pickled version config) =>
            (* the whole dictionary is checked for its version *)
            match version, config with
            | None, None => Err ValueError
            | _, None => Err KeyError
            | _, Some o => let '(c, data, model) := convert o in Ok (Some c, data, "", [("", model)])
            end
        | Some _ => Err ValueError
        | None => Ok (None, "", "", [])
        end
    end.
End EvalRun.
