(* metrics/metric_specs.py 733-1124: which metrics of the specs are Keras's and which are
   TFMA's, and how those of Keras are gathered into calls of tf_metric_computations. *)
From Coq Require Import String Ascii.
From Verif Require Import Base Inputs_Model Keys_Model Keras_Model Aggregation_Model.
Local Open Scope string_scope.
Local Open Scope list_scope.

(* ------------------------------------------------------------------ *)
(** * Splitting (762-832) *)

(** A class is known by its module and its name; issubclass tells metrics of Keras from
    losses of Keras and from all others. *)
Definition cls := (string * string)%type.
Inductive class_kind := IsMetric | IsLoss | IsOther.
(** config_pb2.MetricConfig: class_name, module, config; the config is left as text. *)
Record metric_config := MetricConfig { mc_class : string; mc_module : string; mc_config : string }.
(** An instance made from a configuration. *)
Record instance := Instance { in_class : cls; in_config : string }.

(** The classes by name seen so far: of Keras metrics, of Keras losses, of TFMA. *)
Record classes := Classes { cl_metrics : list (string * cls); cl_losses : list (string * cls); cl_tfma : list (string * cls) }.

Section Split.
  (* getattr(importlib.import_module(module), name): the kind of the class found there, or the
     exception *)
  Variable import : string -> string -> res class_kind.
  (* tf_keras.metrics.deserialize and tf_keras.losses.deserialize: the classes they know of by
     themselves *)
  Variables builtin_metric builtin_loss : string -> option cls.
  (* _TF_LOSSES_MODULE (56) *)
  Variable losses_module : string.

  (** 774-790: one metric of a spec; [true] when it is one of Keras. *)
  Definition route (c : classes) (m : metric_config) : res (classes * bool) :=
    if dmem String.eqb (cl_tfma c) (mc_class m) then Ok (c, false)
    else if String.eqb (mc_module m) "" then Ok (c, true)
    else
      let! k := import (mc_module m) (mc_class m) in
      let cl := (mc_module m, mc_class m) in
      Ok (match k with
          | IsMetric => (Classes (dset String.eqb (cl_metrics c) (mc_class m) cl) (cl_losses c) (cl_tfma c), true)
          | IsLoss => (Classes (cl_metrics c) (dset String.eqb (cl_losses c) (mc_class m) cl) (cl_tfma c), true)
          | IsOther => (Classes (cl_metrics c) (cl_losses c) (dset String.eqb (cl_tfma c) (mc_class m) cl), false)
          end).
  (** 773-790: the metrics of a spec, those of Keras and those of TFMA *)
  Definition split_spec (c : classes) (ms : list metric_config) : res (classes * (list metric_config * list metric_config)) :=
    foldM (fun st m =>
      let! r := route (fst st) m in
      Ok (fst r, if snd r then (fst (snd st) ++ [m], snd (snd st)) else (fst (snd st), snd (snd st) ++ [m])))
      ms (c, ([], [])).

  (** Keras's get_registered_object: the names of the scope come before its own.  A name
      known to neither is a ValueError.  1303-1314 [_deserialize_tf_metric], 1340-1350
      [_deserialize_tf_loss], 1369-1380 [_deserialize_tfma_metric]. *)
  Definition deserialize (scope : list (string * cls)) (builtin : string -> option cls) (m : metric_config) : res instance :=
    match dget String.eqb scope (mc_class m) with
    | Some cl => Ok (Instance cl (mc_config m))
    | None => match builtin (mc_class m) with Some cl => Ok (Instance cl (mc_config m)) | None => Err ValueError end
    end.
  (** 796-804 *)
  Definition tf_instance (c : classes) (m : metric_config) : res instance :=
    if String.eqb (mc_module m) losses_module then deserialize (cl_losses c) builtin_loss m
    else deserialize (cl_metrics c) builtin_metric m.
  (** 810-813 *)
  Definition tfma_instance (c : classes) (m : metric_config) : res instance := deserialize (cl_tfma c) (fun _ => None) m.

  (** 765-818: all specs; the classes stay from one spec to the next.  Per spec: the
      configurations and instances of Keras, and those of TFMA. *)
  Definition split_specs (registered : list (string * cls)) (specs : list (list metric_config))
      : res (classes * list (list (metric_config * instance) * list (metric_config * instance))) :=
    foldM (fun st ms =>
      let! r := split_spec (fst st) ms in
      let! tf := mapM (fun m => let! i := tf_instance (fst r) m in Ok (m, i)) (fst (snd r)) in
      let! tfma := mapM (fun m => let! i := tfma_instance (fst r) m in Ok (m, i)) (snd (snd r)) in
      Ok (fst r, snd st ++ [(tf, tfma)])) specs (Classes [] [] registered, []).
End Split.

(* ------------------------------------------------------------------ *)
(** * Gathering the metrics of Keras (902-1036) *)

(** 910-920 UniqueArgs: model_name, sub_key, aggregation_type, class_weights *)
Record unique_args := UniqueArgs {
  ua_model : string; ua_sub : option sub_key; ua_agg : option agg_type; ua_weights : list (Z * Qc)
}.
Definition weight_eqb (a b : Z * Qc) : bool := Z.eqb (fst a) (fst b) && Qc_eq_bool (snd a) (snd b).
Fixpoint weights_eqb (a b : list (Z * Qc)) : bool :=
  match a, b with
  | [], [] => true
  | x :: a, y :: b => weight_eqb x y && weights_eqb a b
  | _, _ => false
  end.
Definition unique_args_eqb (a b : unique_args) : bool :=
  String.eqb (ua_model a) (ua_model b) && osub_eqb (ua_sub a) (ua_sub b) && opt_agg_eqb (ua_agg a) (ua_agg b)
  && weights_eqb (ua_weights a) (ua_weights b).

(** 1317-1327 [_private_tf_metric], 1353-1360 [_private_tf_loss] *)
Definition private_tf (m : tf_metric) : tf_metric :=
  TfMetric (tm_class m) (private_name (tm_name m)) (tm_is_loss m) (tm_class_id m) (tm_top_k m) (tm_thresholds m)
    (tm_num_thresholds m) (tm_configured_thresholds m) (tm_label_weights m) (tm_multi_label m).

(** 961 sorted((class id, weight)): the ids are the keys of a map. *)
Fixpoint insert_weight (w : Z * Qc) (l : list (Z * Qc)) : list (Z * Qc) :=
  match l with
  | [] => [w]
  | v :: t => if (fst w <=? fst v)%Z then w :: l else v :: insert_weight w t
  end.
Definition sort_weights (l : list (Z * Qc)) : list (Z * Qc) := fold_right insert_weight [] l.

(** By output name the metrics: weighted and unweighted. *)
Definition by_output := list (string * list tf_metric).
Definition gathered := list (unique_args * (by_output * by_output)).
Definition append_to (d : by_output) (output : string) (m : tf_metric) : by_output :=
  dset String.eqb d output (match dget String.eqb d output with Some l => l | None => [] end ++ [m]).
(** 996-1012 *)
Definition gather_instances (options : list bool) (output : string) (instances : list tf_metric) (d : gathered) (args : unique_args) : gathered :=
  let d := if dmem unique_args_eqb d args then d else dset unique_args_eqb d args ([], []) in
  fold_left (fun d m => fold_left (fun d (w : bool) =>
    let e := match dget unique_args_eqb d args with Some e => e | None => ([], []) end in
    dset unique_args_eqb d args (if w then (append_to (fst e) output m, snd e) else (fst e, append_to (snd e) output m)))
    options d) instances d.

Section Process.
  Variable default : bool.   (* _example_weighted_default *)

  (** 943-1012: one spec with its instances *)
  Definition gather_spec (d : gathered) (sm : metrics_spec * list tf_metric) : res gathered :=
    let '(s, metrics) := sm in
    let! groups := create_sub_keys s in
    let shared := match dget opt_agg_eqb groups None with Some l => l | None => [] end in
    foldM (fun d g =>
      let '(agg, sks) := g in
      let! weights := match agg with
                      | Some _ => let! cw := spec_class_weights s in Ok (sort_weights (match cw with Some l => l | None => [] end))
                      | None => Ok []
                      end in
      foldM (fun d parent =>
        let! children := if is_macro agg
                         then let! cw := spec_class_weights s in let! cs := macro_average_sub_keys parent cw in Ok (map Some cs)
                         else Ok [parent] in
        Ok (fold_left (fun d output => fold_left (fun d sk =>
              let instances := if is_macro agg && negb (existsb (osub_eqb sk) shared) then map private_tf metrics else metrics in
              fold_left (fun d model =>
                gather_instances (example_weight_options default s) output instances d
                  (UniqueArgs model sk (if is_macro agg then None else agg) (if is_macro agg then [] else weights)))
                (or_blank (ms_models s)) d) children d) (or_blank (ms_outputs s)) d)) sks d) groups d.

  (** 902-1036 [_process_tf_metrics_specs]: the calls of tf_metric_computations.
      Simplification: class ids are not negative. *)
  Definition calls (d : gathered) : list (unique_args * bool * by_output) :=
    flat_map (fun e => let '(args, (weighted, unweighted)) := e in
      (match weighted with [] => [] | _ => [(args, true, weighted)] end) ++
      (match unweighted with [] => [] | _ => [(args, false, unweighted)] end)) d.
  Definition weights_by_index (l : list (Z * Qc)) : list (nat * Qc) := map (fun w => (Z.to_nat (fst w), snd w)) l.
  Definition process_tf_metrics_specs (specs : list (metrics_spec * list tf_metric)) : res (list tf_computation) :=
    let! d := foldM gather_spec specs [] in
    let! ls := mapM (fun c => let '(args, w, outs) := c in
      tf_metric_computations outs (ua_model args) (ua_sub args) (ua_agg args) (weights_by_index (ua_weights args)) w) (calls d) in
    Ok (concat ls).
End Process.
