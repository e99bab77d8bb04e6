(* Views *)
From Coq Require Import String Ascii Permutation.
From Verif Require Import Base BaseFacts Slicer_Model Slicer_Spec Slicer_Proofs Slicer_Main Inputs_Model Keys_Model Keys_Main Util_Main Keras_Main Classes_Main Validation_Model Config_Model Results_Model Results_Main Views_Model.
From Verif Require Import Views_Main.
Local Open Scope string_scope.
Local Open Scope list_scope.

(* ------------------------------------------------------------------ *)
(** ** C280 texts of slices *)
(** Slices displayed under the same text have the same columns, and values of the same texts, unless
    there is a colon in the name of a column or an X in a name or value. *)
Theorem C280_texts :
  forall float_repr k1 k2,
    (forall n v, In (n, v) (k1 ++ k2) -> free ":" n /\ free "X" n /\ free "X" (value_text float_repr v)) ->
    stringify_slice_key float_repr k1 = stringify_slice_key float_repr k2 ->
    map (fun nv => (fst nv, value_text float_repr (snd nv))) k1 = map (fun nv => (fst nv, value_text float_repr (snd nv))) k2.
Proof. exact C280_texts_pf. Qed.

(** Different slices of the same columns may have the same text: numbers and their texts, and
    values in which the separator occurs. *)
Theorem C280_same_text_refuted :
  exists k1 k2 k3 k4, map fst k1 = map fst k2 /\ k1 <> k2 /\ (forall fr, stringify_slice_key fr k1 = stringify_slice_key fr k2) /\
    map fst k3 = map fst k4 /\ k3 <> k4 /\ Forall (fun nv => exists s, snd nv = VStr s) (k3 ++ k4) /\ forall fr, stringify_slice_key fr k3 = stringify_slice_key fr k4.
Proof. exact C280_same_text_refuted_pf. Qed.

Example C280_example :
  stringify_slice_key (fun _ => "") [("gender", VStr "f"); ("age", VInt (-5))] = "gender_X_age:f_X_-5" /\ stringify_slice_key (fun _ => "") [] = "Overall".
Proof. split; reflexivity. Qed.

(* ------------------------------------------------------------------ *)
(** ** C281 slices displayed *)
(** With a column: all slices of that column alone, under its name and their value. *)
Theorem C281_column :
  forall (A : Type) float_repr c (results : list (any_key * A)) column asked weighted,
    (forall r, In r results -> exists k, fst r = One k) -> column <> "" -> (forall p, asked = Some p -> is_ok (mk_spec p) = true) ->
    let shown := flat_map (fun r => match fst r with
                                    | One [(n, v)] => if String.eqb n column then [((column ++ ":" ++ value_text float_repr v)%string, snd r)] else []
                                    | _ => []
                                    end) results in
    render_slicing_metrics float_repr c results column asked weighted =
      match shown with [] => Err ValueError | _ => Ok (shown, slicing_column c weighted) end.
Proof. exact C281_column_pf. Qed.

(** With neither column nor spec: the overall slice, refused if there is none, or there are two. *)
Theorem C281_overall :
  forall (A : Type) float_repr c (results : list (any_key * A)) weighted,
    (forall r, In r results -> exists k, fst r = One k) ->
    render_slicing_metrics float_repr c results "" None weighted =
      match filter (fun r => match fst r with One [] => true | _ => false end) results with
      | [r] => Ok ([("Overall", snd r)], slicing_column c weighted)
      | _ => Err ValueError
      end.
Proof. exact C281_overall_pf. Qed.

(** With a spec alone: all slices it selects. *)
Theorem C281_spec :
  forall (A : Type) float_repr c (results : list (any_key * A)) p weighted,
    (forall r, In r results -> exists k, fst r = One k) -> NoDup (map fst (sp_values p)) -> is_ok (mk_spec p) = true ->
    exists choose, (forall r, In r results -> (choose r = true <-> selected_by p (fst r))) /\
      render_slicing_metrics float_repr c results "" (Some p) weighted =
        match filter choose results with
        | [] => Err ValueError
        | l => Ok (map (fun r => (match fst r with One k => stringify_slice_key float_repr k | Two _ _ => "" end, snd r)) l, slicing_column c weighted)
        end.
Proof. exact C281_spec_pf. Qed.

(** Results with a cross slice whose baseline is the overall slice cannot be displayed. *)
Theorem C281_cross_slices_refuted :
  exists (c : eval_config) (results : list (any_key * nat)), In (One [], 7) results /\ length results = 2 /\
    forall fr, render_slicing_metrics fr c results "" None "" = Err IndexError.
Proof. exact C281_cross_slices_refuted_pf. Qed.

Example C281_example :
  render_slicing_metrics (fun _ => "") (EvalConfig [] [] false UnknownMethod "") [(One [], 1); (One [("age", VInt 5)], 2); (One [("age", VInt 6)], 3); (One [("age", VInt 5); ("sex", VStr "f")], 4)] "age" None "w" =
    Ok ([("age:5", 2); ("age:6", 3)], "w").
Proof. reflexivity. Qed.

(* ------------------------------------------------------------------ *)
(** ** C282 the column of example counts *)
(** The column asked for; else that of weighted examples if the first model that is no baseline has a
    weight, and that of examples if not. *)
Theorem C282_column :
  forall c override, (override <> "" -> slicing_column c override = override) /\
    (override = "" -> candidate_weighted c -> slicing_column c override = match e_specs c with [] => "post_export_metrics/example_weight" | _ => "weighted_example_count" end) /\
    (override = "" -> ~ candidate_weighted c -> slicing_column c override = match e_specs c with [] => "post_export_metrics/example_count" | _ => "example_count" end).
Proof. exact C282_column_pf. Qed.

(** The column of examples is used though the model has weights, if these are by output. *)
Theorem C282_weights_by_output_refuted :
  exists c m, e_models c = [m] /\ m_is_baseline m = false /\ m_weight_keys m <> [] /\ e_specs c <> [] /\ slicing_column c "" = "example_count".
Proof. exact C282_weights_by_output_refuted_pf. Qed.

Example C282_example :
  slicing_column (EvalConfig [ModelSpec "b" "" [] "" [] "" [] true ""; ModelSpec "c" "" [] "" [] "w" [] false ""] [] false UnknownMethod "") "" = "post_export_metrics/example_weight".
Proof. reflexivity. Qed.

(* ------------------------------------------------------------------ *)
(** ** C283 plots displayed *)
(** The plots displayed are those of the slice asked for, of the output and of the class, k or top k,
    under the text of the sub key that metrics have. *)
Theorem C283_plots :
  forall float_repr results asked output class_id top_k k s key d subs plots,
    (forall r, In r results -> exists k, fst r = One k) -> NoDup (map fst (sp_values (asked_spec asked))) -> (forall p, asked = Some p -> is_ok (mk_spec p) = true) ->
    at_most_one class_id top_k k -> metrics_sub_key class_id k top_k = Ok s -> only_slice (asked_spec asked) results key d ->
    dget String.eqb d (match output with Some o => o | None => "" end) = Some subs -> dget String.eqb subs s = Some plots -> (exists n, In n (map fst plots) /\ supported_name n) ->
    render_plot float_repr results asked output class_id top_k k None =
      match replace_nan_with_none plots with Ok data => Ok (data, stringify_slice_key float_repr key) | Err e => Err e end.
Proof. exact C283_plots_pf. Qed.

(** Nothing else is displayed: what is displayed is of a slice that is the only one asked for. *)
Theorem C283_refused :
  forall float_repr results asked output class_id top_k k data name,
    (forall r, In r results -> exists k, fst r = One k) -> NoDup (map fst (sp_values (asked_spec asked))) ->
    render_plot float_repr results asked output class_id top_k k None = Ok (data, name) ->
    at_most_one class_id top_k k /\
    exists key d subs s plots, only_slice (asked_spec asked) results key d /\ name = stringify_slice_key float_repr key /\
      dget String.eqb d (match output with Some o => o | None => "" end) = Some subs /\ dget String.eqb subs s = Some plots /\
      (exists n, In n (map fst plots) /\ supported_name n) /\ replace_nan_with_none plots = Ok data /\
      match class_id, top_k, k with
      | None, None, None => s = ""
      | Some c, _, _ => s = ("classId:" ++ print_Z c)%string
      | _, Some t, _ => s = ("topK:" ++ print_Z t)%string
      | _, _, Some k => s = ("k:" ++ print_Z k)%string
      end.
Proof. exact C283_refused_pf. Qed.

(** Whatever is refused, other than by what the plots hold, is so with a ValueError. *)
Theorem C283_errors :
  forall float_repr results asked output class_id top_k k e,
    (forall r, In r results -> exists k, fst r = One k) -> (forall p, asked = Some p -> is_ok (mk_spec p) = true) ->
    render_plot float_repr results asked output class_id top_k k None = Err e -> e = ValueError \/ exists plots, replace_nan_with_none plots = Err e.
Proof. exact C283_errors_pf. Qed.

(** Plots of a class among the top k have a sub key, but cannot be displayed. *)
Theorem C283_class_and_top_k_refuted :
  exists results s d, metrics_sub_key (Some 1%Z) None (Some 2%Z) = Ok s /\ results = [(One [], [("", [(s, d)])])] /\ (exists n, In n (map fst d) /\ supported_name n) /\
    forall fr, render_plot fr results None None (Some 1%Z) (Some 2%Z) None None = Err ValueError.
Proof. exact C283_class_and_top_k_refuted_pf. Qed.

Example C283_example :
  render_plot (fun _ => "") [(One [], []); (One [("age", VInt 5)], [("out", [("classId:3", [("confusionMatrixAtThresholds", JObj [("matrices", JList [JObj [("precision", JText "NaN"); ("recall", JNum 1%Qc)]])])])])])]
      (Some (SlicingSpec [] [("age", "5")])) (Some "out") (Some 3%Z) None None None =
    Ok ([("confusionMatrixAtThresholds", JObj [("matrices", JList [JObj [("precision", JNull); ("recall", JNum 1%Qc)]])])], "age:5").
Proof. reflexivity. Qed.

(* ------------------------------------------------------------------ *)
(** ** C284 numbers that are none *)
(** The series of the plots keep their entries, in order, with null in place of NaN; plots of other
    names are left out. *)
Theorem C284_null_for_nan :
  forall d d', replace_nan_with_none d = Ok d' -> NoDup (map fst d') /\
    (forall n, supported_name n -> forall p es, dget String.eqb d n = Some (JObj p) -> dget String.eqb p (series_of n) = Some (JList es) ->
       exists es', dget String.eqb d' n = Some (JObj [(series_of n, JList es')]) /\ Forall2 nulled es es') /\
    (forall n, supported_name n -> In n (map fst d') -> exists p es, dget String.eqb d n = Some (JObj p) /\ dget String.eqb p (series_of n) = Some (JList es)).
Proof. exact C284_null_for_nan_pf. Qed.

(** It succeeds for all plots whose series are lists of objects. *)
Theorem C284_succeeds : forall d, shaped d -> is_ok (replace_nan_with_none d) = true.
Proof. exact C284_succeeds_pf. Qed.

(** NaN within an entry's own entries, as in plots of several classes, stays. *)
Theorem C284_nested_refuted :
  exists d d', replace_nan_with_none d = Ok d' /\
    dget String.eqb d' "multiClassConfusionMatrixAtThresholds" = Some (JObj [("matrices", JList [JObj [("entries", JList [JObj [("numWeightedExamples", JText "NaN")]])]])]).
Proof. exact C284_nested_refuted_pf. Qed.

Example C284_example :
  replace_nan_with_none [("x", JNull); ("confusionMatrixAtThresholds", JObj [("matrices", JList [JObj [("precision", JText "NaN"); ("threshold", JNum 1%Qc)]; JObj []])])] =
    Ok [("confusionMatrixAtThresholds", JObj [("matrices", JList [JObj [("precision", JNull); ("threshold", JNum 1%Qc)]; JObj []])])].
Proof. reflexivity. Qed.

(* ------------------------------------------------------------------ *)
(** ** C285 plots by label *)
(** With a label the plots are those under the one name it is part of. *)
Theorem C285_label :
  forall float_repr results asked key plots label before n p after,
    labelled_plots asked results key plots -> plots = before ++ (n, JObj p) :: after -> p <> [] -> named label (n, p) -> (forall kv, In kv (before ++ after) -> ~ named label kv) ->
    render_plot float_repr results asked None None None None (Some label) =
      match replace_nan_with_none p with Ok data => Ok (data, stringify_slice_key float_repr key) | Err e => Err e end.
Proof. exact C285_label_pf. Qed.

(** A label that is part of no name, or of several, is refused. *)
Theorem C285_label_refused :
  forall float_repr results asked key plots label, labelled_plots asked results key plots -> (forall kv, In kv plots -> exists p, snd kv = JObj p /\ p <> []) ->
    ((forall kv, In kv plots -> ~ named label kv) \/
     exists before x between y after, plots = before ++ x :: between ++ y :: after /\ named label x /\ named label y) ->
    render_plot float_repr results asked None None None None (Some label) = Err ValueError.
Proof. exact C285_label_refused_pf. Qed.

(** Together with an output or sub key a label is refused. *)
Theorem C285_label_alone :
  forall float_repr results asked output class_id top_k k label, (forall p, asked = Some p -> is_ok (mk_spec p) = true) ->
    ~ (output = None /\ class_id = None /\ top_k = None /\ k = None) ->
    render_plot float_repr results asked output class_id top_k k (Some label) = Err ValueError.
Proof. exact C285_label_alone_pf. Qed.

(** A label that is part of two names is not refused if there is nothing under the first. *)
Theorem C285_empty_refuted :
  exists results label n1 n2 p data, results = [(One [], [("", [("", [(n1, JObj []); (n2, JObj p)])])])] /\ n1 <> n2 /\ named label (n1, p) /\ named label (n2, p) /\
    forall fr, render_plot fr results None None None None None (Some label) = Ok (data, "Overall").
Proof. exact C285_empty_refuted_pf. Qed.

Example C285_example :
  render_plot (fun _ => "") [(One [], [("", [("", [("post_export_metrics/auc", JObj [("calibrationHistogramBuckets", JObj [("buckets", JList [])])]); ("other", JNull)])])])] None None None None None (Some "auc") =
    Ok ([("calibrationHistogramBuckets", JObj [("buckets", JList [])])], "Overall").
Proof. reflexivity. Qed.

(* ------------------------------------------------------------------ *)
(** ** C286 attributions displayed *)
(** The slices are those of metrics; of each output and sub key the attributions of the metric asked
    for are displayed, or of the only metric there is. *)
Theorem C286_attributions :
  forall (A : Type) float_repr c (results : list (any_key * nested A)) column asked metric weighted l w,
    render_slicing_attributions float_repr c results column asked metric weighted = Ok (l, w) <->
    exists shown, render_slicing_metrics float_repr c results column asked weighted = Ok (shown, w) /\
      Forall2 (fun a b => fst a = fst b /\ of_metric_all metric (snd a) (snd b)) shown l.
Proof. exact C286_attributions_pf. Qed.

(** If the metric is missing for an output and sub key, or none is asked for and there is not just
    one, all is refused. *)
Theorem C286_refused :
  forall (A : Type) float_repr c (results : list (any_key * nested A)) column asked metric weighted shown w text d o subs s ms,
    render_slicing_metrics float_repr c results column asked weighted = Ok (shown, w) -> In (text, d) shown -> In (o, subs) d -> In (s, ms) subs -> (forall x, ~ of_metric metric ms x) ->
    render_slicing_attributions float_repr c results column asked metric weighted = Err ValueError.
Proof. exact C286_refused_pf. Qed.

Example C286_example :
  render_slicing_attributions (fun _ => "") (EvalConfig [] [] false UnknownMethod "") [(One [], [("", [("", [("mean", [("age", 1)]); ("total", [("age", 2)])])])])] "" None "total" "w" =
    Ok ([("Overall", [("", [("", [("age", 2)])])])], "w") /\
  render_slicing_attributions (fun _ => "") (EvalConfig [] [] false UnknownMethod "") [(One [], [("", [("", [("mean", [("age", 1)]); ("total", [("age", 2)])])])])] "" None "" "w" = Err ValueError.
Proof. split; reflexivity. Qed.

(* ------------------------------------------------------------------ *)
(** ** C287 all slices at once *)
(** The metrics and attributions of all slices are those of each slice asked for on its own. *)
Theorem C287_attributions :
  forall r metric output class_id k top_k l, er_attributions r <> [] -> ForallOrdPairs (fun a b => ~ same_key (fst a) (fst b)) (er_attributions r) ->
    (get_attributions_for_all_slices r metric output class_id k top_k = Ok l <->
     Forall2 (fun m kv => fst m = fst kv /\ get_attributions_for_slice r (fst m) metric output class_id k top_k = Ok (Some (snd kv))) (er_attributions r) l).
Proof. exact C287_attributions_pf. Qed.

Theorem C287_metrics :
  forall r output class_id k top_k l, er_metrics r <> [] -> ForallOrdPairs (fun a b => ~ same_slice (fst a) (fst b)) (er_metrics r) ->
    (get_metrics_for_all_slices r output class_id k top_k = Ok l <->
     Forall2 (fun m kv => fst m = fst kv /\ get_metrics_for_slice r (fst m) output class_id k top_k = Ok (Some (snd kv))) (er_metrics r) l).
Proof. exact C287_metrics_pf. Qed.

(** The slices named are those there are metrics for. *)
Theorem C287_slice_names :
  forall r name output, (exists n, In n (get_slice_names r) /\ same_slice n name) <-> get_metrics_for_slice r name output None None None <> Ok None.
Proof. exact C287_slice_names_pf. Qed.

Example C287_example :
  let r := EvalResult [] [] [([], Some [("", [("", [("mean", [("age", PbDouble (Fin 1%Qc))])])])]); ([("sex", VStr "f")], Some [("", [("", [("mean", [("age", PbDouble (Fin (qz 2)))])])])])] "" in
  get_attributions_for_all_slices r "" "" None None None = Ok [([], [("age", PbDouble (Fin 1%Qc))]); ([("sex", VStr "f")], [("age", PbDouble (Fin (qz 2)))])].
Proof. reflexivity. Qed.

(* ------------------------------------------------------------------ *)
(** ** C288 time series *)
(** A series has a point for each run the slice is in, with the identifiers of its model and data;
    it is refused if the slice is in none, if several slices of a run are meant, or for another mode.
    Missing: cross slices. *)
Theorem C288_time_series_partial :
  forall (A : Type) mode (runs : list (list (any_key * A) * (string * string))) asked full,
    (forall run r, In run runs -> In r (fst run) -> exists k, fst r = One k) -> NoDup (map fst (sp_values (asked_spec asked))) -> (forall p, asked = Some p -> is_ok (mk_spec p) = true) ->
    exists choose, (forall run r, In run runs -> In r (fst run) -> (choose r = true <-> selected_by (asked_spec asked) (fst r))) /\
      (mode <> "data_centric_mode" -> mode <> "model_centric_mode" -> render_time_series mode runs asked full = Err ValueError) /\
      ((exists run, In run runs /\ 2 <= length (filter choose (fst run))) -> render_time_series mode runs asked full = Err ValueError) /\
      ((forall run, In run runs -> filter choose (fst run) = []) -> render_time_series mode runs asked full = Err ValueError) /\
      ((forall run, In run runs -> length (filter choose (fst run)) <= 1) -> (exists run, In run runs /\ filter choose (fst run) <> []) ->
       mode = "data_centric_mode" \/ mode = "model_centric_mode" ->
       exists data b, render_time_series mode runs asked full = Ok (data, b) /\ (b = true <-> mode = "model_centric_mode") /\
         Forall2 (point full) (flat_map (fun run => map (fun r => (snd r, snd run)) (filter choose (fst run))) runs) data).
Proof. exact C288_time_series_partial_pf. Qed.

(** There is one such identifier. *)
Theorem C288_identifier :
  forall full path id, identifies full path id <-> get_identifier path full = id.
Proof. exact C288_identifier_pf. Qed.

(** Models at different places can be shown the same, and those whose path ends in a slash as nothing. *)
Theorem C288_same_identifier_refuted :
  exists p1 p2 p3 id, p1 <> p2 /\ get_identifier p1 false = id /\ get_identifier p2 false = id /\ id <> "" /\ p3 <> "" /\ get_identifier p3 false = "".
Proof. exact C288_same_identifier_refuted_pf. Qed.

Example C288_example :
  render_time_series "model_centric_mode" [([(One [], 1); (One [("sex", VStr "f")], 2)], ("/models/5", "/data/day1")); ([(One [], 3)], ("/models/6", "/data/day1"))] None false =
    Ok ([(1, ("5", "day1")); (3, ("6", "day1"))], true) /\
  render_time_series (A := nat) "other" [([(One [], 1)], ("/m", "/d"))] None false = Err ValueError.
Proof. split; reflexivity. Qed.

(* ------------------------------------------------------------------ *)
(** ** C289 notebook pages *)
(** A page is a frame that does not depend on the data around the data in base64, of which no
    symbol ends the text or the script; the data are read back from it. *)
Theorem C289_page :
  forall count component trusted_html handlers, In component component_names ->
    exists before after st, forall json, exists payload,
      generate_html_for_tfma_component count component json trusted_html handlers = Ok ((before ++ "JSON.parse(atob('" ++ payload ++ "'));" ++ after)%string, st) /\
      decoded (list_ascii_of_string payload) (list_ascii_of_string json) /\
      (forall c, In c (list_ascii_of_string payload) -> digit c <> None \/ c = "="%char).
Proof. exact C289_page_pf. Qed.

(** Only the known components are put in a page. *)
Theorem C289_known :
  forall count component json trusted_html handlers, component <> "tfma-nb-slicing-metrics" -> component <> "tfma-nb-time-series" -> component <> "tfma-nb-plot" ->
    generate_html_for_tfma_component count component json trusted_html handlers = Err ValueError.
Proof. exact C289_known_pf. Qed.

(** Each page whose events are handled has a callback of its own, with its own handlers. *)
Theorem C289_callbacks :
  forall pages htmls n callbacks, render_all pages = Ok (htmls, (n, callbacks)) ->
    length htmls = length pages /\ NoDup (map fst callbacks) /\
    map snd callbacks = filter (fun hs => match hs with [] => false | _ => true end) (map (fun x => snd (snd (snd x))) pages).
Proof. exact C289_callbacks_pf. Qed.

(** The events of a page go to its callback. *)
Theorem C289_events :
  forall count component json trusted_html handlers html st, handlers <> [] -> generate_html_for_tfma_component count component json trusted_html handlers = Ok (html, st) ->
    exists name before after, st = (S count, [(name, handlers)]) /\ html = (before ++ "invokeFunction(
                '" ++ name ++ "', [], {" ++ after)%string.
Proof. exact C289_events_pf. Qed.

Example C289_example :
  b64encode "{}" = "e30=" /\ b64encode "</script>" = "PC9zY3JpcHQ+" /\
  match render_all [("tfma-nb-plot", ("{}", ("", []))); ("tfma-nb-plot", ("{}", ("", ["selectSlice"]))); ("tfma-nb-slicing-metrics", ("{}", ("", ["selectSlice"; "other"])))] with
  | Ok r => snd r = (2, [("tfma_eventCallback0", ["selectSlice"]); ("tfma_eventCallback1", ["selectSlice"; "other"])]) | Err _ => False end.
Proof. repeat split; vm_compute; reflexivity. Qed.

Print Assumptions C280_texts.
Print Assumptions C280_same_text_refuted.
Print Assumptions C281_column.
Print Assumptions C281_overall.
Print Assumptions C281_spec.
Print Assumptions C281_cross_slices_refuted.
Print Assumptions C282_column.
Print Assumptions C282_weights_by_output_refuted.
Print Assumptions C283_plots.
Print Assumptions C283_refused.
Print Assumptions C283_errors.
Print Assumptions C283_class_and_top_k_refuted.
Print Assumptions C284_null_for_nan.
Print Assumptions C284_succeeds.
Print Assumptions C284_nested_refuted.
Print Assumptions C285_label.
Print Assumptions C285_label_refused.
Print Assumptions C285_label_alone.
Print Assumptions C285_empty_refuted.
Print Assumptions C286_attributions.
Print Assumptions C286_refused.
Print Assumptions C287_attributions.
Print Assumptions C287_metrics.
Print Assumptions C287_slice_names.
Print Assumptions C288_time_series_partial.
Print Assumptions C288_identifier.
Print Assumptions C288_same_identifier_refuted.
Print Assumptions C289_page.
Print Assumptions C289_known.
Print Assumptions C289_callbacks.
Print Assumptions C289_events.
