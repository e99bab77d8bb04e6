(* Results *)
From Coq Require Import String Ascii Permutation.
From Verif Require Import Base BaseFacts Beam BeamFacts Slicer_Model Slicer_Spec Slicer_Proofs Slicer_Main Inputs_Model Keys_Model Keys_Main Results_Model.
From Verif Require Import Results_Main.
Local Open Scope string_scope.
Local Open Scope list_scope.

(* ------------------------------------------------------------------ *)
(** ** Paths *)
(* ------------------------------------------------------------------ *)
(** ** Files *)
Theorem C117_stored_results_are_loaded :
  forall V shard dir fmt fmt' ms ps ats v (fs : files V),
    stored shard dir fmt ms ps ats v fs -> fmt' = fmt \/ fmt = "tfrecord" /\ fmt' = "" ->
    load_and_deserialize_metrics fs dir fmt' [] = Ok (concat ms) /\
    load_and_deserialize_plots fs dir fmt' [] = Ok (concat ps) /\
    load_and_deserialize_attributions fs dir fmt' [] = Ok (concat ats) /\
    (forall w, v = Some w -> load_and_deserialize_validation_result fs dir fmt' = Ok w) /\
    (v = None -> load_and_deserialize_validation_result fs dir fmt' = Err AssertionError).
Proof. exact C117_stored_results_are_loaded_pf. Qed.

(** A validation file that does not hold exactly one record is refused. *)
Theorem C117_one_validation_result :
  forall V (vs : list V) path, path = "out" \/ path = "out/validations" ->
    load_and_deserialize_validation_result [("out/validations", TfRecords (map (@RValidation V) vs))] path "" =
    match vs with [v] => Ok v | _ => Err AssertionError end.
Proof. exact C117_one_validation_result_pf. Qed.

(* ------------------------------------------------------------------ *)
(** ** Loading with a filter *)
(** Asking for the overall slice also returns the metrics of a cross slice. *)
Theorem C54_cross_slices_match_overall_refuted :
  exists (fs : files unit) r sp,
    stored (fun _ _ => "-00000-of-00001") "out" "tfrecord" [[r]] [] [] None fs /\ mk_spec (SlicingSpec [] []) = Ok sp /\
    load_and_deserialize_metrics fs "out" "tfrecord" [sp] = Ok [r] /\
    exists k, slice_from_proto (mf_slice r) = Ok k /\ ~ selected_by (SlicingSpec [] []) k.
Proof. exact C54_cross_slices_match_overall_refuted_pf. Qed.

(** Records of slices (not of cross slices): exactly those selected, in order.  Missing:
    cross slices, whose records are treated as those of the overall slice. *)
Theorem C54_load_filter_partial :
  forall V shard dir fmt ms ps ats v (fs : files V) protos specs,
    stored shard dir fmt ms ps ats v fs ->
    protos <> [] -> (forall p, In p protos -> NoDup (map fst (sp_values p))) -> mapM mk_spec protos = Ok specs ->
    let exact {A} (slice_of : A -> pb_slice) (all : list A) (loaded : res (list A)) :=
      (forall r, In r all -> exists k, slice_from_proto (slice_of r) = Ok (One k)) ->
      exists choose, loaded = Ok (filter choose all) /\
        forall r k, In r all -> slice_from_proto (slice_of r) = Ok k ->
          (choose r = true <-> exists p, In p protos /\ selected_by p k) in
    exact mf_slice (concat ms) (load_and_deserialize_metrics fs dir fmt specs) /\
    exact pf_slice (concat ps) (load_and_deserialize_plots fs dir fmt specs) /\
    exact af_slice (concat ats) (load_and_deserialize_attributions fs dir fmt specs).
Proof. exact C54_load_filter_partial_pf. Qed.

Example C54_example :
  load_and_deserialize_metrics (ex_run [ex_overall; ex_single]) "out" "tfrecord" [Spec ["country"] []] = Ok [ex_single] /\
  load_and_deserialize_metrics (ex_run [ex_overall; ex_single]) "out" "tfrecord" [Spec [] []] = Ok [ex_overall] /\
  load_and_deserialize_metrics (ex_run [ex_overall; ex_single]) "out" "tfrecord" [] = Ok [ex_overall; ex_single].
Proof. repeat split; vm_compute; reflexivity. Qed.

Example C117_example :
  exists fs, stored ex_shard "out/" "parquet" [[ex_overall]; []; [ex_single; ex_cross]] [] [[AttributionsForSlice (PbOne []) []]] (Some 7) fs /\
    map fst fs = ["out/metrics-00000-of-00003.parquet"; "out/metrics-00001-of-00003.parquet"; "out/metrics-00002-of-00003.parquet";
                  "out/attributions-00000-of-00001.parquet"; "out/validations.parquet"] /\
    load_and_deserialize_metrics fs "out/" "parquet" [] = Ok [ex_overall; ex_single; ex_cross] /\
    load_and_deserialize_plots fs "out/" "tfrecord" [] = Ok [] /\
    load_and_deserialize_metrics fs "out/" "tfrecord" [] = Err RuntimeError /\
    load_and_deserialize_validation_result fs "out/" "parquet" = Ok 7.
Proof.
  eexists. split.
  - split; [|split; [discriminate|reflexivity]].
    intros i n. unfold ex_shard. rewrite no_slash_app.
    assert (A : no_slash (nth i ["-00000-of-"; "-00001-of-"; "-00002-of-"] "") = true) by (do 4 (destruct i as [|i]; [reflexivity|]); reflexivity).
    assert (B : no_slash (nth n ["00000"; "00001"; "00002"; "00003"] "") = true) by (do 5 (destruct n as [|n]; [reflexivity|]); reflexivity).
    rewrite A, B. reflexivity.
  - repeat split; vm_compute; reflexivity.
Qed.

(* ------------------------------------------------------------------ *)
(** ** Parquet rows *)
(** The column of the slice key holds the values without the names of their features: the
    slices country = "fr" and language = "fr" cannot be told apart. *)
Theorem C55_slice_key_column_refuted :
  exists k k' p p', k <> k' /\ serialize_slice_key (fun q => q) k = Ok p /\ serialize_slice_key (fun q => q) k' = Ok p' /\
    parquet_column p = parquet_column p'.
Proof. exact C55_slice_key_column_refuted_pf. Qed.

(** Missing: the names; slices with different values are told apart. *)
Theorem C55_slice_key_column_partial :
  forall f32 k k' p p', Slicer_Main.storable f32 k -> Slicer_Main.storable f32 k' ->
    serialize_slice_key f32 k = Ok p -> serialize_slice_key f32 k' = Ok p' ->
    (parquet_column p = parquet_column p' <-> map snd k = map snd k').
Proof. exact C55_slice_key_column_partial_pf. Qed.

Example C55_example :
  parquet_column [SingleSliceKey "age" (Some (Int64Value 5)); SingleSliceKey "country" (Some (BytesValue "fr"))]
  = Some [CellInt 5; CellBytes "fr"].
Proof. reflexivity. Qed.

(* ------------------------------------------------------------------ *)
(** ** Nested dictionaries *)
(* ------------------------------------------------------------------ *)
(** ** Filling the dictionaries of all models *)
(* ------------------------------------------------------------------ *)
(** ** Metrics in the loaded results *)
Theorem C118_metrics_are_shown_partial :
  forall f32 as_text k items r,
    convert_slice_metrics_to_proto f32 as_text k (SliceMetrics None items) = Ok r -> readable_key f32 k ->
    NoDup (map fst items) -> (forall key, In key (map fst items) -> made key /\ storable key) ->
    (forall model_name m,
       asks (map fst items) model_name m ->
       (* missing: metrics that share output, sub key and shown name, which replace each other *)
       (forall k1 k2, In k1 (map fst items) -> In k2 (map fst items) -> visible m k1 -> visible m k2 -> place k1 = place k2 -> k1 = k2) ->
       exists d, convert_metrics_proto_to_dict r model_name = Ok (Some (k, Some d)) /\
         (forall key v, In (key, v) items -> visible m key ->
            exists w, look d (k_output key) (sub_label (k_sub key)) (shown_name key) = Some w /\ shows as_text v w) /\
         (forall o s n w, look d o s n = Some w -> exists key, In key (map fst items) /\ visible m key /\ place key = (o, s, n))) /\
    (forall m, m <> "" -> items <> [] -> (forall key, In key (map fst items) -> k_model key <> m) ->
       convert_metrics_proto_to_dict r (Some m) = Ok None).
Proof. exact C118_metrics_are_shown_partial_pf. Qed.

(** Every metric of the model is found under its name: not so when the weighted and the
    unweighted metric of the same name are both computed. *)
Theorem C118_weighted_metrics_collide_refuted :
  exists items r d, convert_slice_metrics_to_proto (fun q => q) ex_text (One []) (SliceMetrics None items) = Ok r /\
    NoDup (map fst items) /\ (forall key, In key (map fst items) -> made key /\ storable key /\ k_model key = "") /\
    convert_metrics_proto_to_dict r None = Ok (Some (One [], Some d)) /\
    In (mkey "mean_label" "" (Some true), plainly 1) items /\
    forall o s n, look d o s n <> Some (PbDouble (Fin (qz 1))).
Proof. exact C118_weighted_metrics_collide_refuted_pf. Qed.

Example C118_example :
  let full := MetricKey "auc" "candidate" "" (mk_sub 1) (Some (AggType (Some true) None None)) None false in
  exists r d, convert_slice_metrics_to_proto (fun q => q) ex_text (One [("country", VStr "fr")])
      (SliceMetrics None [(mkey "auc" "candidate" None, plainly 3); (full, Bounded (Fin (qz 5)) (Fin (qz 4)) (Fin (qz 6)));
                          (mkey "example_count" "" None, plainly 7); (mkey "auc" "baseline" None, plainly 2)]) = Ok r /\
    convert_metrics_proto_to_dict r (Some "candidate") = Ok (Some (One [("country", VStr "fr")], Some d)) /\
    look d "" "" "auc" = Some (PbDouble (Fin (qz 3))) /\ look d "" "" "example_count" = Some (PbDouble (Fin (qz 7))) /\
    look d "" "classId:1" (shown_name full) = Some (PbBounded (Fin (qz 5)) (Fin (qz 4)) (Fin (qz 6))) /\
    convert_metrics_proto_to_dict r (Some "other") = Ok None /\ convert_metrics_proto_to_dict r None = Ok None.
Proof. intros full. do 2 eexists. split; [reflexivity|]. split; [reflexivity|]. repeat split. Qed.

(* ------------------------------------------------------------------ *)
(** ** Looking up results *)
Theorem C119_metrics_of_a_slice_are_found :
  forall V shard dir fmt ms ps ats v (fs : files V) locations model_name er f32 as_text slices m,
    stored shard dir fmt ms ps ats v fs -> load_eval_result locations fs dir fmt model_name = Ok er ->
    written f32 as_text slices (concat ms) ->
    ForallOrdPairs (fun s s' => ~ same_slice (fst s) (fst s')) slices ->
    (forall s, In s slices -> asks (map fst (snd s)) model_name m) ->
    (forall s k1 k2, In s slices -> In k1 (map fst (snd s)) -> In k2 (map fst (snd s)) -> visible m k1 -> visible m k2 ->
       place k1 = place k2 -> k1 = k2) ->
    (forall s key x c k t, In s slices -> In (key, x) (snd s) -> visible m key -> asks_sub c k t (k_sub key) ->
       exists d w, get_metrics_for_slice er (fst s) (k_output key) c k t = Ok (Some d) /\
         sget d (shown_name key) = Some w /\ shows as_text x w) /\
    (forall name o c k t sub, asks_sub c k t sub -> (forall s, In s slices -> ~ same_slice (fst s) name) ->
       get_metrics_for_slice er name o c k t = Ok None).
Proof. exact C119_metrics_of_a_slice_are_found_pf. Qed.

(* ------------------------------------------------------------------ *)
(** ** Attributions *)
(** Attributions of one model.  Missing: cross slices, which load as the overall slice;
    keys sharing a place; an explicit name for one of several models. *)
Theorem C120_attributions_are_shown_partial :
  forall f32 as_text k items r m model_name,
    convert_slice_attributions_to_proto f32 as_text (One k) items = Ok r -> Slicer_Main.storable f32 k ->
    NoDup (map fst items) -> (forall key, In key (map fst items) -> made key /\ storable key) ->
    (model_name = Some m /\ m <> "" /\ (exists key, In key (map fst items) /\ k_model key = m) \/
     (model_name = None \/ model_name = Some "") /\ items <> [] /\
       (forall key, In key (map fst items) -> k_model key = m /\ k_diff key = false)) ->
    (forall k1 k2, In k1 (map fst items) -> In k2 (map fst items) -> k_model k1 = m -> k_model k2 = m ->
       attribution_place k1 = attribution_place k2 -> k1 = k2) ->
    exists d, convert_attributions_proto_to_dict r model_name = Ok (k, Some d) /\
      (forall key fs, In (key, fs) items -> k_model key = m ->
         exists ws, look d (k_output key) (sub_label (k_sub key)) (attribution_shown key) = Some ws /\
           Forall2 (fun fv gw => fst fv = fst gw /\ attribution_value as_text (snd fv) (snd gw)) fs ws) /\
      (forall o s n w, look d o s n = Some w -> exists key, In key (map fst items) /\ k_model key = m /\ attribution_place key = (o, s, n)).
Proof. exact C120_attributions_are_shown_partial_pf. Qed.

(** Asking for the attributions of class 0 gives those that belong to no class. *)
Theorem C120_class_zero_refuted :
  exists er x y, get_attributions_for_slice er [] "total" "" (Some 0%Z) None None = Ok (Some x) /\ x <> y /\
    exists d, er_attributions er = [([], Some d)] /\ look d "" "classId:0" "total" = Some y /\ look d "" "" "total" = Some x.
Proof. exact C120_class_zero_refuted_pf. Qed.

(** The attributions of a cross slice are returned as those of the overall slice. *)
Theorem C120_cross_slice_is_overall_refuted :
  exists b c items r d, convert_slice_attributions_to_proto (fun q => q) ex_text (Two b c) items = Ok r /\ c <> [] /\
    convert_attributions_proto_to_dict r None = Ok ([], Some d).
Proof. exact C120_cross_slice_is_overall_refuted_pf. Qed.

(** For every other request, the attributions found are those of the sub key asked for. *)
Theorem C120_sub_key_lookup_partial :
  forall er name metric output c k t sub d,
    (* missing: class 0 *) c <> Some 0%Z ->
    asks_sub c k t sub -> metric <> "" ->
    In (name, d) (er_attributions er) -> (forall n x, In (n, x) (er_attributions er) -> same_key n name -> x = d) ->
    get_attributions_for_slice er name metric output c k t =
    match d with
    | None => Err TypeError
    | Some d => match look d output (sub_label sub) metric with Some x => Ok (Some x) | None => Err KeyError end
    end.
Proof. exact C120_sub_key_lookup_partial_pf. Qed.

Example C120_example :
  exists r d, convert_slice_attributions_to_proto (fun q => q) ex_text (One [])
     [(mkey "total" "m" None, [("age", INum (Fin (qz 2)))]);
      (MetricKey "total" "m" "" (mk_sub 3) None None false, [("age", INum (Fin (qz 5)))])] = Ok r /\
    convert_attributions_proto_to_dict r None = Ok ([], Some d) /\
    get_attributions_for_slice (EvalResult [] [] [([], Some d)] "") [] "total" "" (Some 3%Z) None None = Ok (Some [("age", PbDouble (Fin (qz 5)))]) /\
    get_attributions_for_slice (EvalResult [] [] [([], Some d)] "") [] "" "" None None None = Ok (Some [("age", PbDouble (Fin (qz 2)))]).
Proof. do 2 eexists. split; [reflexivity|]. split; [reflexivity|]. split; vm_compute; reflexivity. Qed.

Example C119_example :
  let slices := [(One [], [(mkey "auc" "m" None, plainly 1)]); (One [("age", VInt 5)], [(mkey "auc" "m" None, plainly 2)]);
                 (Two [] [("age", VInt 5)], [(mkey "auc" "m" None, plainly 3)])] in
  exists rs fs er, written (fun q => q) ex_text slices rs /\
    stored (V := unit) (fun _ _ => "-00000-of-00001") "out" "tfrecord" [rs] [] [] None fs /\
    load_eval_result (fun _ => [("m", "/models/m")]) fs "out" "tfrecord" (Some "m") = Ok er /\
    get_metrics_for_slice er (One [("age", VFloat (qz 5))]) "" None None None = Ok (Some [("auc", PbDouble (Fin (qz 2)))]) /\
    get_metrics_for_slice er (Two [] [("age", VInt 5)]) "" None None None = Ok (Some [("auc", PbDouble (Fin (qz 3)))]) /\
    get_metrics_for_slice er (One [("age", VInt 6)]) "" None None None = Ok None /\ er_model er = "/models/m".
Proof.
  intros slices. do 3 eexists. repeat apply conj.
  - unfold slices. repeat (constructor; [reflexivity|]). constructor.
  - intros s I. unfold slices in I. cbn [In] in I.
    assert (R : Slicer_Main.storable (fun q => q) [("age", VInt 5)]) by (intros n x [[= <- <-]|[]]; cbn; lia).
    assert (R0 : Slicer_Main.storable (fun q => q) []) by (intros n x []).
    destruct I as [<-|[<-|[<-|[]]]]; cbn [fst snd readable_key]; (split; [auto|]); (split; [repeat constructor; intros []|]);
      (intros key [<-|[]]; split; split; intros ? Q; discriminate Q).
  - intros; reflexivity.
  - discriminate.
  - reflexivity.
  - vm_compute. reflexivity.
  - vm_compute. reflexivity.
  - vm_compute. reflexivity.
  - vm_compute. reflexivity.
  - vm_compute. reflexivity.
Qed.

(* ------------------------------------------------------------------ *)
(** ** Plots *)
(** Missing: cross slices, which load as the overall slice; several plots at one place
    other than the default ones, which replace each other. *)
Theorem C121_plots_are_shown_partial :
  forall f32 k items r m model_name,
    convert_slice_plots_to_proto f32 (One k) None items = Ok r -> Slicer_Main.storable f32 k ->
    NoDup (map fst items) -> (forall key, In key (map fst items) -> made key /\ storable key) ->
    (model_name = Some m /\ (exists key, In key (map fst items) /\ k_model key = m) \/
     (model_name = None \/ model_name = Some "") /\ items <> [] /\ (forall key, In key (map fst items) -> k_model key = m)) ->
    (forall k1 v1 k2 v2, In (k1, v1) items -> In (k2, v2) items -> plot_place k1 = plot_place k2 ->
       k1 = k2 \/ together k1 k2 /\ fst (plot_content v1) <> fst (plot_content v2)) ->
    exists d, convert_plots_proto_to_dict r model_name = Ok (Some (k, Some d)) /\
      (forall key v, In (key, v) items -> k_model key = m ->
         exists x p, sget d (k_output key) = Some x /\ sget x (sub_label (k_sub key)) = Some (PlotOf p) /\
           plot_of_kind p (fst (plot_content v)) = Some (snd (plot_content v))) /\
      (forall o s x p, sget d o = Some x -> sget x s = Some p ->
         exists key, In key (map fst items) /\ k_model key = m /\ k_output key = o /\ sub_label (k_sub key) = s).
Proof. exact C121_plots_are_shown_partial_pf. Qed.

(** Two plots of the same model and output: the one is lost when loading. *)
Theorem C121_plots_replace_each_other_refuted :
  exists items r d, convert_slice_plots_to_proto (fun q => q) (One []) None items = Ok r /\
    NoDup (map fst items) /\ (forall key, In key (map fst items) -> made key /\ storable key) /\
    convert_plots_proto_to_dict r None = Ok (Some ([], Some d)) /\
    In (mkey "confusion_matrix_plot" "" None, ConfusionPlot "binary") items /\
    forall o s x p, sget d o = Some x -> sget x s = Some (PlotOf p) -> pd_confusion p = None.
Proof. exact C121_plots_replace_each_other_refuted_pf. Qed.

(** The plots of a cross slice are returned as those of the overall slice. *)
Theorem C121_cross_slice_is_overall_refuted :
  exists b c items r d, convert_slice_plots_to_proto (fun q => q) (Two b c) None items = Ok r /\ c <> [] /\
    convert_plots_proto_to_dict r None = Ok (Some ([], Some d)).
Proof. exact C121_cross_slice_is_overall_refuted_pf. Qed.

Example C121_example :
  exists r d, convert_slice_plots_to_proto (fun q => q) (One [("age", VInt 5)]) None
      [(mkey "confusion_matrix_plot" "m" None, ConfusionPlot "c"); (mkey "calibration_plot" "m" None, Calibration "l");
       (MetricKey "multi_label_confusion_matrix_plot" "m" "head" None None None false, MultiLabel "ml")] = Ok r /\
    convert_plots_proto_to_dict r (Some "m") = Ok (Some ([("age", VInt 5)], Some d)) /\
    d = [("", [("", PlotOf (PlotData (Some "l") (Some "c") None None))]); ("head", [("", PlotOf (PlotData None None None (Some "ml")))])].
Proof. do 2 eexists. split; [reflexivity|]. split; reflexivity. Qed.

(* ------------------------------------------------------------------ *)
(** ** Choosing slices to display *)
(** A result set holding a cross slice whose baseline is the overall slice cannot be
    displayed at all: here the overall slice is asked for. *)
Theorem C122_cross_slices_refuted :
  exists (results : list (any_key * nat)) sp, mk_spec (SlicingSpec [] []) = Ok sp /\
    In (One [], 7) results /\ selected_by (SlicingSpec [] []) (One []) /\
    find_all_slices results sp = Err IndexError /\ get_slicing_metrics results "" None = Err IndexError /\
    get_time_series [(results, "now")] sp = Err IndexError.
Proof. exact C122_cross_slices_refuted_pf. Qed.

(** Missing: cross slices. *)
Theorem C122_slices_to_display_partial :
  forall A (results : list (any_key * A)) column asked,
    (forall r, In r results -> exists k, fst r = One k) ->
    (forall p, asked = Some p -> NoDup (map fst (sp_values p))) ->
    let wanted := if String.eqb column "" then match asked with Some p => p | None => SlicingSpec [] [] end else SlicingSpec [column] [] in
    forall sp, match asked with Some p => mk_spec p = Ok sp | None => True end ->
    exists choose, (forall r, In r results -> (choose r = true <-> selected_by wanted (fst r))) /\
      get_slicing_metrics results column (option_map (fun _ => sp) asked) =
      match filter choose results with
      | [] => Err ValueError
      | [x] => Ok [x]
      | l => if String.eqb column "" then match asked with Some _ => Ok l | None => Err ValueError end else Ok l
      end.
Proof. exact C122_slices_to_display_partial_pf. Qed.

Theorem C122_time_series_partial :
  forall A L (runs : list (list (any_key * A) * L)) p sp,
    (forall run r, In run runs -> In r (fst run) -> exists k, fst r = One k) -> NoDup (map fst (sp_values p)) -> mk_spec p = Ok sp ->
    exists choose, (forall run r, In run runs -> In r (fst run) -> (choose r = true <-> selected_by p (fst r))) /\
      ((exists run, In run runs /\ 2 <= length (filter choose (fst run))) -> get_time_series runs sp = Err ValueError) /\
      ((forall run, In run runs -> filter choose (fst run) = []) -> get_time_series runs sp = Err ValueError) /\
      ((forall run, In run runs -> length (filter choose (fst run)) <= 1) -> (exists run, In run runs /\ filter choose (fst run) <> []) ->
       get_time_series runs sp = Ok (flat_map (fun run => map (fun r => (snd r, snd run)) (filter choose (fst run))) runs)).
Proof. exact C122_time_series_partial_pf. Qed.

Example C122_example :
  let results := [(One [], 1); (One [("age", VInt 5)], 2); (One [("age", VInt 6)], 3); (One [("age", VInt 5); ("sex", VStr "f")], 4)] in
  get_slicing_metrics results "age" None = Ok [(One [("age", VInt 5)], 2); (One [("age", VInt 6)], 3)] /\
  get_slicing_metrics results "" None = Ok [(One [], 1)] /\
  get_slicing_metrics results "" (Some (Spec [] [("age", VInt 6)])) = Ok [(One [("age", VInt 6)], 3)] /\
  get_slicing_metrics results "size" None = Err ValueError /\
  get_time_series [(results, "a"); ([], "b"); ([(One [], 9)], "c")] (Spec [] []) = Ok [(1, "a"); (9, "c")] /\
  get_time_series [(results, "a")] (Spec ["age"] []) = Err ValueError.
Proof. repeat split; vm_compute; reflexivity. Qed.

(* ------------------------------------------------------------------ *)
(** ** Loading the results of several runs *)
(** Without a model name all models are loaded: not so for the second path, of which only
    the last model of the first path is read. *)
Theorem C123_models_of_later_runs_refuted :
  exists locations paths (load : string -> option string -> res (string * option string)) rs,
    (forall path name, load path name = Ok (path, name)) /\
    load_eval_results locations load paths None = Ok rs /\
    exists path name, In path paths /\ In name (map fst (locations path)) /\ ~ In (path, Some name) rs.
Proof. exact C123_models_of_later_runs_refuted_pf. Qed.

(** Missing: several runs without a model name, unless all hold one model of one name. *)
Theorem C123_all_results_are_loaded_partial :
  forall R locations (load : string -> option string -> res R) paths,
    (forall m, load_eval_results locations load paths (Some m) = mapM (fun path => load path (Some m)) paths) /\
    (forall path, paths = [path] ->
       load_eval_results locations load paths None = mapM (fun name => load path (Some name)) (map fst (locations path))) /\
    (forall m, (forall path, In path paths -> map fst (locations path) = [m]) ->
       load_eval_results locations load paths None = mapM (fun path => load path (Some m)) paths).
Proof. exact C123_all_results_are_loaded_partial_pf. Qed.

Example C123_example :
  load_eval_results (fun _ => [("a", "/a"); ("b", "/b")]) (fun p n => Ok (p, n)) ["run"] None = Ok [("run", Some "a"); ("run", Some "b")] /\
  load_eval_results (fun _ => [("a", "/a"); ("b", "/b")]) (fun p n => Ok (p, n)) ["run1"; "run2"] (Some "a") = Ok [("run1", Some "a"); ("run2", Some "a")].
Proof. split; reflexivity. Qed.

(* ------------------------------------------------------------------ *)
(** ** Running evaluators *)
(** Every verified evaluator runs exactly once, on the extracts of the stage it names, and
    the evaluation collects exactly the outputs, key by key. *)
Theorem C124_evaluators_run_once :
  forall E A (e : E) (xs : list (extractor E)) (vs : list (evaluator E A)) (input : evaluator E A -> E) k,
    NoDup (map x_stage xs) -> ~ In "" (map x_stage xs) -> ~ In "<last-extractor>" (map x_stage xs) ->
    (forall v, In v vs -> verify_evaluator v xs = Ok tt) -> (forall v, In v vs -> sees e xs v (input v)) ->
    Permutation (child (extract_and_evaluate e xs vs) k) (flat_map (fun v => outputs_for k (v_run v (input v))) vs).
Proof. exact C124_evaluators_run_once_pf. Qed.

(** An evaluator is refused exactly when it names a stage that no extractor has. *)
Theorem C124_verification :
  forall E A (xs : list (extractor E)) (v : evaluator E A),
    verify_evaluator v xs = Ok tt <->
    (v_after v = None \/ v_after v = Some "" \/ v_after v = Some "<last-extractor>" \/ exists x, In x xs /\ v_after v = Some (x_stage x)).
Proof. exact C124_verification_pf. Qed.

Example C124_example :
  let xs := [Extractor "read" (fun l => l ++ ["read"]); Extractor "predict" (fun l => l ++ ["predict"])] in
  let out l := [("metrics", l)] in
  let vs := [Evaluator "a" (Some "<last-extractor>") out; Evaluator "b" None out; Evaluator "c" (Some "read") (fun l => [("analysis", l)])] in
  child (extract_and_evaluate [] xs vs) "metrics" = [[]; ["read"; "predict"]] /\
  child (extract_and_evaluate [] xs vs) "analysis" = [["read"]] /\
  verify_evaluator (Evaluator "d" (Some "slice") out) xs = Err ValueError.
Proof. repeat split. Qed.

(* ------------------------------------------------------------------ *)
(** ** Errors of slices *)
(** A slice whose metrics were replaced by an error (too few examples) is shown with its
    message.  Missing: results loaded for a model by name. *)
Theorem C125_errors_are_shown_partial :
  forall f32 as_text k e items r model_name,
    convert_slice_metrics_to_proto f32 as_text k (SliceMetrics (Some e) items) = Ok r -> readable_key f32 k ->
    model_name = None \/ model_name = Some "" ->
    exists d, convert_metrics_proto_to_dict r model_name = Ok (Some (k, Some d)) /\
      forall o s n w, look d o s n = Some w <-> (o, s, n, w) = ("", "", "__ERROR__", PbDebug e).
Proof. exact C125_errors_are_shown_partial_pf. Qed.

(** When the results of a model are asked for by its name, such a slice disappears. *)
Theorem C125_errors_of_named_models_refuted :
  exists f32 as_text k e items r, convert_slice_metrics_to_proto f32 as_text k (SliceMetrics (Some e) items) = Ok r /\
    forall m, m <> "" -> convert_metrics_proto_to_dict r (Some m) = Ok None.
Proof. exact C125_errors_of_named_models_refuted_pf. Qed.

Example C125_example :
  exists r, convert_slice_metrics_to_proto (fun q => q) ex_text (One [("age", VInt 5)]) (SliceMetrics (Some "few") []) = Ok r /\
    convert_metrics_proto_to_dict r None = Ok (Some (One [("age", VInt 5)], Some [("", [("", [("__ERROR__", PbDebug "few")])])])).
Proof. eexists. split; reflexivity. Qed.

(** ** Names of metrics *)
(** The names listed are those of some metric of some slice, each once. *)
Theorem C126_metric_names :
  forall r, (forall k d, In (k, d) (er_metrics r) -> exists x, d = Some x) ->
    exists names, get_metric_names r = Ok names /\ NoDup names /\
      forall n, In n names <-> exists k d o x s y w, In (k, Some d) (er_metrics r) /\ In (o, x) d /\ In (s, y) x /\ In (n, w) y.
Proof. exact C126_metric_names_pf. Qed.

Example C126_example :
  get_metric_names (EvalResult [(One [], Some [("", [("", [("auc", PbDouble NaN); ("loss", PbDouble NaN)]); ("classId:1", [("auc", PbDouble NaN)])])]);
                                (One [("age", VInt 5)], Some [("head", [("", [("mean", PbDouble NaN)])])])] [] [] "") = Ok ["auc"; "loss"; "mean"].
Proof. reflexivity. Qed.

Print Assumptions C117_stored_results_are_loaded.
Print Assumptions C117_one_validation_result.
Print Assumptions C54_cross_slices_match_overall_refuted.
Print Assumptions C54_load_filter_partial.
Print Assumptions C55_slice_key_column_refuted.
Print Assumptions C55_slice_key_column_partial.
Print Assumptions C118_metrics_are_shown_partial.
Print Assumptions C118_weighted_metrics_collide_refuted.
Print Assumptions C119_metrics_of_a_slice_are_found.
Print Assumptions C120_attributions_are_shown_partial.
Print Assumptions C120_class_zero_refuted.
Print Assumptions C120_cross_slice_is_overall_refuted.
Print Assumptions C120_sub_key_lookup_partial.
Print Assumptions C121_plots_are_shown_partial.
Print Assumptions C121_plots_replace_each_other_refuted.
Print Assumptions C121_cross_slice_is_overall_refuted.
Print Assumptions C122_cross_slices_refuted.
Print Assumptions C122_slices_to_display_partial.
Print Assumptions C122_time_series_partial.
Print Assumptions C123_models_of_later_runs_refuted.
Print Assumptions C123_all_results_are_loaded_partial.
Print Assumptions C124_evaluators_run_once.
Print Assumptions C124_verification.
Print Assumptions C125_errors_are_shown_partial.
Print Assumptions C125_errors_of_named_models_refuted.
Print Assumptions C126_metric_names.
