(* Model of utils/config_util.py (verification of an EvalConfig and its defaults) and of
   utils/model_util.py 120-167, 212-353, 1128-1163 (specs and shared models by name, feature
   values of a model). *)
From Coq Require Import String.
From Verif Require Import Base Beam Slicer_Model Inputs_Model Keys_Model Means_Model Validation_Model.
Local Open Scope string_scope.
Local Open Scope list_scope.

(* ------------------------------------------------------------------ *)
(** * Messages: config.proto 22-151, 396-598 *)

(** The fields that are read here; [x_rest] stands for all others, which are only copied.  An
    unset message field is None and reads as the empty message. *)
Record model_spec := ModelSpec {
  m_name : string;
  m_label_key : string; m_label_keys : list (string * string);
  m_prediction_key : string; m_prediction_keys : list (string * string);
  m_weight_key : string; m_weight_keys : list (string * string);
  m_is_baseline : bool; m_rest : string
}.
Definition empty_model_spec : model_spec := ModelSpec "" "" [] "" [] "" [] false "".

(** PerSliceMetricThreshold and CrossSliceMetricThreshold *)
Record scoped := Scoped { sc_specs : list scope; sc_threshold : option metric_threshold }.
Record metric_config := MetricConfig {
  mc_class : string; mc_rest : string;
  mc_threshold : option metric_threshold; mc_per_slice : list scoped; mc_cross_slice : list scoped
}.
Record metrics_spec := MetricsSpec {
  s_metrics : list metric_config; s_models : list string; s_rest : string;
  s_thresholds : list (string * metric_threshold);
  s_per_slice : list (string * list scoped); s_cross_slice : list (string * list scoped)
}.
Inductive ci_method := UnknownMethod | PoissonBootstrap | Jackknife.
Record eval_config := EvalConfig {
  e_models : list model_spec; e_specs : list metrics_spec;
  e_compute_ci : bool; e_ci_method : ci_method; e_rest : string
}.

(** ByteSize() != 0: some field is set (a set but empty sub message has a size, too). *)
Definition has_size (t : metric_threshold) : bool :=
  match mt_value t, mt_change t with None, None => false | _, _ => true end.
Definition change_has_size (c : option num * option num * direction) : bool :=
  match c with
  | (None, None, UnknownDirection) => false
  | _ => true
  end.

(* ------------------------------------------------------------------ *)
(** * Verification *)

Definition set_str (s : string) : bool := negb (String.eqb s "").
Definition set_map {A} (l : list A) : bool := match l with [] => false | _ => true end.

(** 35-65, the loop over the model specs: names seen (a dictionary) and the baseline found.
    51: "spec.name in eval_config.model_specs" compares a string with messages and is never
    true. *)
Fixpoint verify_models (l : list model_spec) (names : list string) (baseline : bool) : res (list string * bool) :=
  match l with
  | [] => Ok (names, baseline)
  | s :: t =>
      if set_str (m_label_key s) && set_map (m_label_keys s) then Err ValueError
      else if set_str (m_prediction_key s) && set_map (m_prediction_keys s) then Err ValueError
      else if set_str (m_weight_key s) && set_map (m_weight_keys s) then Err ValueError
      else
        let names := if memb String.eqb (m_name s) names then names else names ++ [m_name s] in
        if m_is_baseline s then (if baseline then Err ValueError else verify_models t names true)
        else verify_models t names baseline
  end.

(** 24-92 [verify_eval_config] *)
Definition verify_eval_config (c : eval_config) (baseline_required : bool) : res unit :=
  match e_models c with
  | [] => Err ValueError
  | _ =>
      let! r := verify_models (e_models c) [] false in
      let (names, baseline) := r in
      if Nat.ltb 1 (length names) && memb String.eqb "" names then Err ValueError
      else if baseline_required && negb baseline then Err ValueError
      else if existsb (fun s =>
                existsb (fun kv => existsb (fun t => negb (set_map (sc_specs t))) (snd kv)) (s_per_slice s) ||
                existsb (fun m => existsb (fun t => negb (set_map (sc_specs t))) (mc_per_slice m)) (s_metrics s))
              (e_specs c) then Err ValueError
      else Ok tt
  end.

(* ------------------------------------------------------------------ *)
(** * Defaults *)

(** An unset threshold reads as the empty message, whose change_threshold is empty. *)
Definition has_change (t : metric_threshold) : bool :=
  match mt_change t with None => false | Some c => change_has_size c end.
Definition scoped_change (t : scoped) : bool :=
  match sc_threshold t with None => false | Some t => has_change t end.

(** 257-289 [has_change_threshold] *)
Definition has_change_threshold (c : eval_config) : bool :=
  existsb (fun s =>
    existsb (fun m => match mc_threshold m with None => false | Some t => has_change t end ||
                      existsb scoped_change (mc_per_slice m) || existsb scoped_change (mc_cross_slice m)) (s_metrics s) ||
    existsb (fun kv => has_change (snd kv)) (s_thresholds s) ||
    existsb (fun kv => existsb scoped_change (snd kv)) (s_per_slice s) ||
    existsb (fun kv => existsb scoped_change (snd kv)) (s_cross_slice s)) (e_specs c).

(** 202-221: if threshold.ByteSize(): threshold.ClearField("change_threshold") *)
Definition clear_change (t : metric_threshold) : metric_threshold :=
  if has_size t then MetricThreshold (mt_value t) None else t.
Definition clear_scoped (t : scoped) : scoped := Scoped (sc_specs t) (option_map clear_change (sc_threshold t)).
Definition clear_config (m : metric_config) : metric_config :=
  MetricConfig (mc_class m) (mc_rest m) (option_map clear_change (mc_threshold m))
    (map clear_scoped (mc_per_slice m)) (map clear_scoped (mc_cross_slice m)).
Definition clear_spec (s : metrics_spec) : metrics_spec :=
  MetricsSpec (map clear_config (s_metrics s)) (s_models s) (s_rest s)
    (map (fun kv => (fst kv, clear_change (snd kv))) (s_thresholds s))
    (map (fun kv => (fst kv, map clear_scoped (snd kv))) (s_per_slice s))
    (map (fun kv => (fst kv, map clear_scoped (snd kv))) (s_cross_slice s)).

Definition set_models (s : metrics_spec) (l : list string) : metrics_spec :=
  MetricsSpec (s_metrics s) l (s_rest s) (s_thresholds s) (s_per_slice s) (s_cross_slice s).
Definition rename (m : model_spec) (n : string) (baseline : bool) : model_spec :=
  ModelSpec n (m_label_key m) (m_label_keys m) (m_prediction_key m) (m_prediction_keys m)
    (m_weight_key m) (m_weight_keys m) baseline (m_rest m).

(** constants.py 104-105 *)
Definition BASELINE_KEY : string := "baseline".
Definition CANDIDATE_KEY : string := "candidate".

Definition is_true (b : option bool) : bool := match b with Some true => true | _ => false end.

(** 175-191 *)
Definition add_baseline (l : list model_spec) : list model_spec :=
  match l with
  | [m] => if set_str (m_name m) then l
           else [rename m CANDIDATE_KEY (m_is_baseline m); rename m BASELINE_KEY true]
  | _ => l
  end.
(** 235-252 *)
Definition fix_names (l : list model_spec) (specs : list metrics_spec) : list model_spec * list metrics_spec :=
  let l := match l with [] => [empty_model_spec] | _ => l end in
  let l := match l with [m] => [rename m "" (m_is_baseline m)] | _ => l end in
  let names := map m_name l in
  (l, map (fun s => match s_models s with
                    | [] => set_models s names
                    | _ => if Nat.eqb (length names) 1 then set_models s [""] else s
                    end) specs).

(** 95-254 [update_eval_config_with_defaults] *)
Definition update_eval_config_with_defaults (c : eval_config) (maybe_add maybe_remove has_baseline : option bool)
           (rubber_stamp : bool) : res eval_config :=
  if negb (is_true has_baseline) && has_change_threshold c && negb rubber_stamp then Err RuntimeError
  else
    let method := if e_compute_ci c then match e_ci_method c with UnknownMethod => Jackknife | m => m end else e_ci_method c in
    if is_true maybe_add && is_true maybe_remove then Err ValueError
    else if (is_true maybe_add || is_true maybe_remove) && is_true has_baseline then Err ValueError
    else
      let add := is_true maybe_add || is_true has_baseline in
      let remove := is_true maybe_remove || match has_baseline with Some false => true | _ => false end in
      let models := if add then add_baseline (e_models c) else e_models c in
      let models := if remove then filter (fun m => negb (m_is_baseline m)) models else models in
      let specs := if remove then map clear_spec (e_specs c) else e_specs c in
      let (models, specs) := fix_names models specs in
      Ok (EvalConfig models specs (e_compute_ci c) method (e_rest c)).

(* ------------------------------------------------------------------ *)
(** * Models by name: model_util.py *)

(** 120-127, 130-134, 137-146 *)
Definition get_baseline_model_spec (c : eval_config) : option model_spec := find m_is_baseline (e_models c).
Definition get_non_baseline_model_specs (c : eval_config) : list model_spec :=
  filter (fun m => negb (m_is_baseline m)) (e_models c).
Definition get_model_spec (c : eval_config) (name : string) : option model_spec :=
  match e_models c with
  | [m] => if set_str name then (if String.eqb (m_name m) name then Some m else None) else Some m
  | l => find (fun m => String.eqb (m_name m) name) l
  end.

(** 149-167 [get_label_key]; a missing key of a message's string map reads as the empty
    string. *)
Definition get_label_key (m : model_spec) (output : string) : res (option string) :=
  if set_str (m_label_key m) then Ok (Some (m_label_key m))
  else match m_label_keys m with
       | [] => Ok None
       | l => if set_str output then Ok (Some (match dget String.eqb l output with Some k => k | None => "" end))
              else Err ValueError
       end.

(** types.EvalSharedModel: the fields read here, the rest in [sm_path]. *)
Record shared_model := SharedModel { sm_name : string; sm_baseline : bool; sm_stamp : bool; sm_path : string }.
(** None, a single model, a list, or a dictionary. *)
Inductive shared_models := NoModel | OneModel (m : shared_model) | ModelList (l : list shared_model) | ModelDict (l : list (string * shared_model)).
Definition with_name (m : shared_model) (n : string) : shared_model := SharedModel n (sm_baseline m) (sm_stamp m) (sm_path m).

(** 238-253, the models as a list *)
Definition model_list (x : shared_models) : res (list shared_model) :=
  match x with
  | NoModel => Ok []
  | OneModel m => Ok [m]
  | ModelList l => Ok l
  | ModelDict l => mapM (fun kv : string * shared_model => let (k, v) := kv in
                     if set_str (sm_name v) && set_str k && negb (String.eqb k (sm_name v)) then Err ValueError
                     else Ok (if negb (set_str (sm_name v)) && set_str k then with_name v k else v)) l
  end.
(** 212-266 [verify_and_update_eval_shared_models]; an empty list or dictionary is falsy. *)
Definition verify_and_update_eval_shared_models (x : shared_models) : res (option (list shared_model)) :=
  match x with
  | NoModel | ModelList [] | ModelDict [] => Ok None
  | _ =>
      let! l := model_list x in
      match l with
      | [m] => Ok (Some [with_name m ""])
      | _ => if forallb (fun m => set_str (sm_name m)) l then Ok (Some l) else Err ValueError
      end
  end.

(** 1128-1145 [has_rubber_stamp] *)
Definition has_rubber_stamp (x : option (list shared_model)) : res bool :=
  match x with
  | None => Ok false
  | Some [m] => if sm_baseline m then Err ValueError else Ok (sm_stamp m)
  | Some l => Ok (forallb (fun m => if sm_baseline m then true else sm_stamp m) l)
  end.

(** 1148-1161 [get_eval_shared_model] *)
Definition get_eval_shared_model (name : string) (d : list (string * shared_model)) : res shared_model :=
  match dget String.eqb d name with
  | Some m => Ok m
  | None => match d with
            | [(k, m)] => if String.eqb k "" then Ok m else Err ValueError
            | _ => Err ValueError
            end
  end.

(** api/model_eval_lib.py 174-187 [_update_eval_config_with_defaults] *)
Definition update_for_models (c : eval_config) (x : shared_models) : res eval_config :=
  let! l := verify_and_update_eval_shared_models x in
  let has_baseline := match l with None => None | Some l => Some (Nat.ltb 1 (length l)) end in
  let! stamp := has_rubber_stamp l in
  update_eval_config_with_defaults c None None has_baseline stamp.

(* ------------------------------------------------------------------ *)
(** * Feature values of a model: model_util.py 269-353 *)

Section Features.
  Context {V : Type}.

  (** A field's value: nothing (None), one value, or one per output. *)
  Inductive fvalue := One (v : option V) | PerOutput (l : list (string * option V)).

  (** 305-312, 315-324: the features are taken as a dictionary.  The transformed features are
      either one dictionary or one per model; [transformed name] is the one looked at for a
      model. *)
  Context (features : list (string * V)) (transformed : string -> list (string * V)) (allow_missing : bool).

  (** 327-334, 341-348: the value at a key, if any is stored. *)
  Definition lookup (m : string) (key : string) : option (option V) :=
    match dget String.eqb (transformed m) key with
    | Some v => Some (Some v)
    | None => match dget String.eqb features key with
              | Some v => Some (Some v)
              | None => if allow_missing then Some None else None
              end
    end.

  (** 326-351 for one model spec: what is stored in values[spec.name], if anything. *)
  Definition value_of_spec (field : model_spec -> string) (fields : model_spec -> list (string * string)) (m : model_spec) : option fvalue :=
    if set_str (field m) then option_map One (lookup (m_name m) (field m))
    else match fields m with
         | [] => if allow_missing then Some (One None) else None
         | l => match flat_map (fun ok => match lookup (m_name m) (snd ok) with Some v => [(fst ok, v)] | None => [] end) l with
                | [] => None
                | out => Some (PerOutput out)
                end
         end.

  (** The result: None, the value of the single model, or the values by model. *)
  Inductive fresult := NoValues | Single (v : fvalue) | PerModel (l : list (string * fvalue)).

  (** 269-353 [get_feature_values_for_model_spec_field] *)
  Definition get_feature_values (field : model_spec -> string) (fields : model_spec -> list (string * string)) (ms : list model_spec) : fresult :=
    let values := fold_left (fun d m => match value_of_spec field fields m with
                                        | Some v => dset String.eqb d (m_name m) v
                                        | None => d
                                        end) ms [] in
    match values with
    | [] => NoValues
    | (_, v) :: _ =>
        if Nat.eqb (length ms) 1 then match v with One None => NoValues | _ => Single v end
        else PerModel values
    end.
End Features.
