(* Model of what is displayed: view/util.py 165-435 (plots, identifiers, the config of views),
   view/widget_view.py, view/view_types.py 336-421, slicer/slicer_lib.py 485-540 (texts of slices) and
   notebook/colab/util.py (HTML). *)
From Coq Require Import String Ascii.
From Verif Require Import Base Slicer_Model Inputs_Model Keys_Model Validation_Model Config_Model Results_Model.
Local Open Scope string_scope.
Local Open Scope list_scope.

(* ------------------------------------------------------------------ *)
(** * slicer_lib.py 485-540 [stringify_slice_key] *)

(** separator.join *)
Fixpoint joined (sep : string) (l : list string) : string :=
  match l with [] => "" | [x] => x | x :: r => (x ++ sep ++ joined sep r)%string end.
Section Texts.
  (** repr of a float *)
  Context (float_repr : Qc -> string).
  (** as_text(as_str_any(value)); bytes are taken to be valid UTF-8, as the comment says. *)
  Definition value_text (v : fval) : string :=
    match v with VStr s => s | VBytes s => s | VInt z => print_Z z | VFloat q => float_repr q end.
  Definition stringify_slice_key (k : skey) : string :=
    match k with
    | [] => "Overall"
    | _ => (joined "_X_" (map fst k) ++ ":" ++ joined "_X_" (map (fun cv => value_text (snd cv)) k))%string
    end.
  (** Cross slices are never chosen (Results_Model [applicable_any]). *)
  Definition any_text (k : any_key) : string := match k with One k => stringify_slice_key k | Two _ _ => "" end.

  (* ------------------------------------------------------------------ *)
  (** * view/util.py 389-430 [get_slicing_config] *)

  Definition slicing_column (c : eval_config) (override : string) : string :=
    if negb (String.eqb override "") then override else
    let weighted := match find (fun m => negb (m_is_baseline m)) (e_models c) with
                    | Some m => negb (String.eqb (m_weight_key m) "")
                    | None => false
                    end in
    match e_specs c, weighted with
    | [], false => "post_export_metrics/example_count"
    | [], true => "post_export_metrics/example_weight"
    | _ :: _, false => "example_count"
    | _ :: _, true => "weighted_example_count"
    end.

  (* ------------------------------------------------------------------ *)
  (** * widget_view.py 25-61 [render_slicing_metrics]: the data and the config of the view *)

  Definition spec_of (asked : option slicing_spec) : res (option spec) :=
    match asked with None => Ok None | Some p => let! s := mk_spec p in Ok (Some s) end.
  Definition spec_to_use (asked : option slicing_spec) : res spec :=
    match asked with None => Ok (Spec [] []) | Some p => mk_spec p end.
  Definition render_slicing_metrics {A} (c : eval_config) (results : list (any_key * A)) (column : string)
      (asked : option slicing_spec) (weighted_column : string) : res (list (string * A) * string) :=
    let! sp := spec_of asked in
    let! data := get_slicing_metrics results column sp in
    Ok (map (fun r => (any_text (fst r), snd r)) data, slicing_column c weighted_column).

  (* ------------------------------------------------------------------ *)
  (** * 130-193 [render_slicing_attributions] *)

  Definition pick {A} (metric : string) (d : list (string * A)) : res A :=
    if negb (String.eqb metric "") then match sget d metric with Some x => Ok x | None => Err ValueError end
    else match d with [(_, x)] => Ok x | _ => Err ValueError end.
  Definition pick_all {A} (metric : string) (d : nested A) : res (list (string * list (string * A))) :=
    mapM (fun o => let! l := mapM (fun s => let! x := pick metric (snd s) in Ok (fst s, x)) (snd o) in Ok (fst o, l)) d.
  Definition render_slicing_attributions {A} (c : eval_config) (results : list (any_key * nested A)) (column : string)
      (asked : option slicing_spec) (metric weighted_column : string) : res (list (string * list (string * list (string * A))) * string) :=
    let! sp := spec_of asked in
    let! data := get_slicing_metrics results column sp in
    let! l := mapM (fun r => let! d := pick_all metric (snd r) in Ok (any_text (fst r), d)) data in
    Ok (l, slicing_column c weighted_column).

  (* ------------------------------------------------------------------ *)
  (** * view_types.py 400-421 [EvalResults]; widget_view.py 63-91 [render_time_series] *)

  (** os.path.basename: what follows the last slash *)
  Fixpoint has_slash (s : string) : bool :=
    match s with EmptyString => false | String c r => Ascii.eqb c "/" || has_slash r end.
  Fixpoint basename (path : string) : string :=
    match path with
    | EmptyString => EmptyString
    | String c r => if has_slash r then basename r else if Ascii.eqb c "/" then r else String c r
    end.
  (** util.py 165-177 [_get_identifier] *)
  Definition get_identifier (path : string) (full : bool) : string := if full then path else basename path.
  Inductive mode := DataCentric | ModelCentric.
  Definition mk_mode (m : string) : res mode :=
    if String.eqb m "data_centric_mode" then Ok DataCentric
    else if String.eqb m "model_centric_mode" then Ok ModelCentric else Err ValueError.
  (** A run: its metrics, and the locations of its model and data.  The view: for each run its
      metrics and identifiers, and whether it is model centric. *)
  Definition render_time_series {A} (m : string) (runs : list (list (any_key * A) * (string * string)))
      (asked : option slicing_spec) (full : bool) : res (list (A * (string * string)) * bool) :=
    let! m := mk_mode m in
    let! sp := spec_to_use asked in
    let! data := get_time_series (map (fun r => (fst r, (get_identifier (fst (snd r)) full, get_identifier (snd (snd r)) full))) runs) sp in
    Ok (data, match m with ModelCentric => true | DataCentric => false end).

  (* ------------------------------------------------------------------ *)
  (** * util.py 180-387: plots *)

  (** What json_format.MessageToDict gives; numbers that are not a number are the text "NaN". *)
  Inductive json := JNull | JBool (b : bool) | JNum (q : Qc) | JText (s : string) | JList (l : list json) | JObj (l : list (string * json)).
  (** 180-201 [_SUPPORTED_PLOT_KEYS]: the names of the plots and of their series *)
  Definition supported_plots : list (string * string) :=
    [("calibrationHistogramBuckets", "buckets"); ("confusionMatrixAtThresholds", "matrices");
     ("multiClassConfusionMatrixAtThresholds", "matrices"); ("multiLabelConfusionMatrixAtThresholds", "matrices")].
  (** 204-241 [_replace_nan_with_none]; anything but an object of lists of objects raises here,
      for short, always the same. *)
  Definition null_nan (j : json) : json := match j with JText s => if String.eqb s "NaN" then JNull else j | _ => j end.
  Definition null_entry (j : json) : res json :=
    match j with JObj e => Ok (JObj (map (fun kv => (fst kv, null_nan (snd kv))) e)) | _ => Err TypeError end.
  Definition replace_nan_with_none (d : list (string * json)) : res (list (string * json)) :=
    let! ls := mapM (fun ns : string * string =>
        match sget d (fst ns) with
        | None => Ok []
        | Some (JObj p) =>
            match sget p (snd ns) with
            | None => Ok []
            | Some (JList es) => let! es' := mapM null_entry es in Ok [(fst ns, JObj [(snd ns, JList es')])]
            | Some _ => Err TypeError
            end
        | Some _ => Err TypeError
        end) supported_plots in
    Ok (concat ls).
  (** "label in key" *)
  Fixpoint occurs_in (label key : string) : bool :=
    String.prefix label key || match key with EmptyString => false | String _ r => occurs_in label r end.
  (** 340-362: the plots under the one key the label occurs in; an empty one counts as none. *)
  Definition labelled (label : string) (d : list (string * json)) : res (list (string * json)) :=
    let! s := foldM (fun acc kv =>
        if occurs_in label (fst kv) then
          match acc with
          | [] => match snd kv with JObj p => Ok p | _ => Err TypeError end
          | _ => Err ValueError
          end
        else Ok acc) d [] in
    match s with [] => Err ValueError | _ => Ok s end.
  (** 290-306: at most one of them *)
  Definition plot_sub_key (class_id top_k k : option Z) : res string :=
    match class_id, top_k, k with
    | None, None, None => Ok ""
    | Some c, None, None => Ok ("classId:" ++ print_Z c)%string
    | None, Some t, None => Ok ("topK:" ++ print_Z t)%string
    | None, None, Some k => Ok ("k:" ++ print_Z k)%string
    | _, _, _ => Err ValueError
    end.
  Definition plots_view := list (string * list (string * list (string * json))).
  (** 243-387 [get_plot_data_and_config], and widget_view.py 93-128 [render_plot]: the data and the
      name of the slice *)
  Definition get_plot_data_and_config (results : list (any_key * plots_view)) (sp : spec) (output : option string)
      (class_id top_k k : option Z) (label : option string) : res (list (string * json) * string) :=
    match label, output, class_id, top_k, k with
    | None, _, _, _, _ | Some _, None, None, None, None =>
        let! sub := plot_sub_key class_id top_k k in
        let output := match output with Some o => o | None => "" end in
        let! slices := find_all_slices results sp in
        match slices with
        | [r] =>
            match sget (snd r) output with
            | None => Err ValueError
            | Some subs =>
                match sget subs sub with
                | None => Err ValueError
                | Some d =>
                    let! d := match label with
                              | Some l => labelled l d
                              | None => if existsb (fun kv => existsb (fun ns => String.eqb (fst ns) (fst kv)) supported_plots) d
                                        then Ok d else Err ValueError
                              end in
                    let! d := replace_nan_with_none d in
                    Ok (d, any_text (fst r))
                end
            end
        | _ => Err ValueError
        end
    | _, _, _, _, _ => Err ValueError
    end.
  Definition render_plot (results : list (any_key * plots_view)) (asked : option slicing_spec) (output : option string)
      (class_id top_k k : option Z) (label : option string) : res (list (string * json) * string) :=
    let! sp := spec_to_use asked in
    get_plot_data_and_config results sp output class_id top_k k label.

  (* ------------------------------------------------------------------ *)
  (** * view_types.py 336-398 *)

  (** 336-386 [get_attributions_for_all_slices] *)
  Definition get_attributions_for_all_slices (r : eval_result) (metric output : string) (class_id k top_k : option Z)
      : res (list (skey * list (string * pb_value))) :=
    let! sub := attributions_sub_key class_id k top_k in
    foldM (fun acc m => let! x := index2 (snd m) output sub in let! y := pick_attributions x metric in
                        Ok (dset key_eqb acc (fst m) y)) (er_attributions r) [].
  (** 388-397 [get_slice_names] *)
  Definition get_slice_names (r : eval_result) : list any_key := map fst (er_metrics r).
End Texts.

(* ------------------------------------------------------------------ *)
(** * notebook/colab/util.py *)

(** base64.b64encode; texts are lists of bytes here *)
Definition alphabet : string := "ABCDEFGHIJKLMNOPQRSTUVWXYZabcdefghijklmnopqrstuvwxyz0123456789+/".
Definition symbol (i : nat) : ascii := match String.get i alphabet with Some c => c | None => "="%char end.
Fixpoint encode (l : list ascii) : list ascii :=
  match l with
  | [] => []
  | [a] => let a := nat_of_ascii a in [symbol (Nat.div a 4); symbol (Nat.modulo a 4 * 16); "="%char; "="%char]
  | [a; b] => let a := nat_of_ascii a in let b := nat_of_ascii b in
              [symbol (Nat.div a 4); symbol (Nat.modulo a 4 * 16 + Nat.div b 16); symbol (Nat.modulo b 16 * 4); "="%char]
  | a :: b :: c :: r =>
      let a := nat_of_ascii a in let b := nat_of_ascii b in let c := nat_of_ascii c in
      symbol (Nat.div a 4) :: symbol (Nat.modulo a 4 * 16 + Nat.div b 16) :: symbol (Nat.modulo b 16 * 4 + Nat.div c 64) :: symbol (Nat.modulo c 64) :: encode r
  end.
Definition b64encode (s : string) : string := string_of_list_ascii (encode (list_ascii_of_string s)).

(** 32-57, 60-86: the callbacks are numbered; [Some handlers] are the names of the events handled.
    The state is the number of callbacks so far; the result is the code and the callback, if any. *)
Definition make_trusted_event_handler_js (count : nat) (handlers : list string) : string * (nat * list (string * list string)) :=
  match handlers with
  | [] => ("/** No event handlers needed. */", (count, []))
  | _ => let name := ("tfma_eventCallback" ++ print_Z (Z.of_nat count))%string in
         (("
          element.addEventListener('tfma-event', (event) => {
            google.colab.kernel.invokeFunction(
                '" ++ name ++ "', [], {
                name: event.detail.type,
                detail: event.detail.detail
            });
          });
     ")%string, (S count, [(name, handlers)]))
  end.
(** 108-160 [generate_html_for_tfma_component]; the json text is given.  Returned are the HTML, the
    number of callbacks and those registered. *)
Definition component_names : list string := ["tfma-nb-slicing-metrics"; "tfma-nb-time-series"; "tfma-nb-plot"].
Definition generate_html_for_tfma_component (count : nat) (component json trusted_html : string) (handlers : list string)
    : res (string * (nat * list (string * list string))) :=
  if memb String.eqb component component_names then
    let js := make_trusted_event_handler_js count handlers in
    Ok (("
    " ++ trusted_html ++ "
    <" ++ component ++ " id=""component""></" ++ component ++ ">
    <script>
    const element = document.getElementById('component');

    " ++ fst js ++ "

    const json = JSON.parse(atob('" ++ b64encode json ++ "'));
    element.config = json.config;
    element.data = json.data;
    </script>
    ")%string, snd js)
  else Err ValueError.
(** Several components rendered one after the other in a session *)
Definition render_all (l : list (string * (string * (string * list string)))) : res (list string * (nat * list (string * list string))) :=
  foldM (fun acc x =>
      let! h := generate_html_for_tfma_component (fst (snd acc)) (fst x) (fst (snd x)) (fst (snd (snd x))) (snd (snd (snd x))) in
      Ok (fst acc ++ [fst h], (fst (snd h), snd (snd acc) ++ snd (snd h)))) l ([], (0, [])).
