(* Ctors *)
From Coq Require Import String Ascii.
From Verif Require Import Base BaseFacts Specs_Model Setup_Main Ctors_Model.
From Verif Require Import Ctors_Main.
Local Open Scope string_scope.
Local Open Scope list_scope.

(* ------------------------------------------------------------------ *)
(** ** What becomes of an argument *)
(* ------------------------------------------------------------------ *)
(** ** Calls *)
(* ------------------------------------------------------------------ *)
(** ** Arguments that make the same metric *)
(* ------------------------------------------------------------------ *)
(** ** Configs *)
(* ------------------------------------------------------------------ *)
(** ** C297 - C299: the classes *)
(** What a registered metric says of itself makes the same metric again, whatever the arguments. *)
Theorem C297_config_gives_metric_back : forall c kw m, In c classes -> ~ In (mc_class c) renaming ->
  NoDup (map fst kw) -> ~ In "fn" (map fst kw) -> ~ In "preprocessors" (map fst kw) -> construct c kw = Ok m ->
  exists config, get_config c m = Ok config /\
    forall config', NoDup (map fst config') -> (forall k, dget String.eqb config' k = dget String.eqb config k) ->
      exists m', from_config c config' = Ok m' /\ forall k, dget String.eqb m' k = dget String.eqb m k.
Proof. exact C297_config_gives_metric_back_pf. Qed.

Example C297_ex :
  exists c m config, In c classes /\ mc_class c = "AUCPrecisionRecall" /\ construct c [("num_thresholds", JNum (qz 100))] = Ok m /\
    dget String.eqb m "name" = Some (JStr "auc_precision_recall") /\ dget String.eqb m "curve" = Some (JStr "PR") /\ dget String.eqb m "class_id" = Some JNull /\
    get_config c m = Ok config /\ dget String.eqb config "curve" = None /\ dget String.eqb config "class_id" = None /\ from_config c config = Ok m.
Proof.
  destruct (find (fun c => String.eqb (mc_class c) "AUCPrecisionRecall") classes) as [c|] eqn:F; [|vm_compute in F; discriminate].
  exists c. assert (I := proj1 (find_some _ _ F)). vm_compute in F. injection F as <-.
  match goal with |- exists m config, _ /\ _ /\ construct ?c ?kw = _ /\ _ => let r := eval vm_compute in (construct c kw) in match r with Ok ?m => exists m; let g := eval vm_compute in (get_config c m) in match g with Ok ?g' => exists g' end end end.
  split; [exact I|]. repeat split; vm_compute; reflexivity.
Qed.

Theorem C298_config_is_not_taken_refuted : exists cs,
  incl cs classes /\ map mc_class cs = ["Bleu"; "BooleanFlipRates"; "COCOAveragePrecision"; "MaxRecall"; "ObjectDetectionMaxRecall"] /\
  (forall c, In c cs -> exists m, construct c [] = Ok m) /\
  forall c kw m, In c cs -> NoDup (map fst kw) -> construct c kw = Ok m -> exists config, get_config c m = Ok config /\ from_config c config = Err TypeError.
Proof. exact C298_config_is_not_taken_refuted_pf. Qed.

Example C298_ex : exists c, find_class "Bleu" = Some c /\ exists m, construct c [("use_effective_order", JBool true)] = Ok m /\ dget String.eqb m "effective_order" = Some (JBool true) /\ from_config c m = Err TypeError.
Proof. eexists. split; [vm_compute; reflexivity|]. eexists. split; [vm_compute; reflexivity|]. split; vm_compute; reflexivity. Qed.

(** BinaryAccuracy takes a threshold and has thresholds in its config, which it does not take. *)
Theorem C298_threshold_of_accuracy_refuted : exists c, In c classes /\ mc_class c = "BinaryAccuracy" /\ (exists m, construct c [("threshold", JNum (Q2Qc (1#4)))] = Ok m) /\
  forall kw m v, NoDup (map fst kw) -> dget String.eqb kw "threshold" = Some v -> v <> JNull -> construct c kw = Ok m ->
    exists config, get_config c m = Ok config /\ from_config c config = Err TypeError.
Proof. exact C298_threshold_of_accuracy_refuted_pf. Qed.

Example C298_accuracy_ex : exists c m config, find_class "BinaryAccuracy" = Some c /\ construct c [("threshold", JNum (Q2Qc (1#4)))] = Ok m /\
  get_config c m = Ok config /\ dget String.eqb config "thresholds" = Some (JNum (Q2Qc (1#4))) /\ from_config c config = Err TypeError.
Proof. do 3 eexists. split; [vm_compute; reflexivity|]. split; [vm_compute; reflexivity|]. split; [vm_compute; reflexivity|]. split; vm_compute; reflexivity. Qed.

Theorem C299_preprocessors_are_lost_refuted : exists c, In c classes /\ mc_class c = "Precision" /\
  (forall v, exists m, construct c [("preprocessors", v)] = Ok m) /\ forall kw m, construct c kw = Ok m -> dget String.eqb m "preprocessors" = None.
Proof. exact C299_preprocessors_are_lost_refuted_pf. Qed.

Theorem C299_no_metric_keeps_preprocessors : forall c kw m, In c classes -> ~ In (mc_class c) handing_on -> construct c kw = Ok m -> dget String.eqb m "preprocessors" = None.
Proof. exact C299_no_metric_keeps_preprocessors_pf. Qed.

Example C299_ex : exists c m, find_class "Recall" = Some c /\ construct c [("preprocessors", JOther "Filter"); ("class_id", JNum 1%Qc)] = Ok m /\
  construct c [("class_id", JNum 1%Qc)] = Ok m /\ dget String.eqb m "class_id" = Some (JNum 1%Qc).
Proof. do 2 eexists. split; [vm_compute; reflexivity|]. split; [vm_compute; reflexivity|]. split; vm_compute; reflexivity. Qed.

(* ------------------------------------------------------------------ *)
(** ** C300 what computations are made with *)
(** A metric's function is called with what is asked for under the reserved names it takes and the
    settings of the metric under all others, unless weights are asked for that it does not take. *)
Theorem C300_arguments : forall (K C : Type) args (create : kwargs K -> res (list C)) s r,
  (unsupported args r -> computations args create s r = Err ValueError) /\
  (~ unsupported args r -> exists kw, computations args create s r = create kw /\ gets args (requested r) (map (fun kv => (fst kv, Setting (snd kv))) s) kw).
Proof. exact C300_arguments_pf. Qed.

(** A function wrapped by merge_per_key_computations is called for every model, output and sub key,
    in this order, and the computations are put one after the other; the call has the names of its
    key, what else is asked for, and the settings of the metric under names that are not reserved. *)
Theorem C300_one_call_for_each_key : forall (K C : Type) args (create : kwargs K -> res (list C)) s r, ~ unsupported args r ->
  exists kws, Forall2 (fun mok kw => gets args (asked_for r (fst mok) (fst (snd mok)) (snd (snd mok))) (own_settings s) kw) (all_keys r) kws /\
    computations_per_key args create s r = let! parts := mapM create kws in Ok (concat parts).
Proof. exact C300_one_call_for_each_key_pf. Qed.

(** Weights that are not supported are refused if there is a key to make computations for. *)
Theorem C300_unsupported : forall (K C : Type) args (create : kwargs K -> res (list C)) s r, unsupported args r ->
  computations_per_key args create s r = match all_keys r with [] => Ok [] | _ :: _ => Err ValueError end.
Proof. exact C300_unsupported_pf. Qed.

Example C300_ex :
  let r := Request None None (Some ["m1"; "m2"]) None (Some [None; Some 3]) None None true None in
  computations_per_key ["thresholds"; "model_name"; "sub_key"; "example_weighted"] (fun kw => Ok [kw]) [("thresholds", JNum 1%Qc); ("schema", JNull)] r =
    Ok (map (fun mk => [("thresholds", Setting (JNum 1%Qc)); ("example_weighted", Flag true); ("model_name", OneName (fst mk)); ("sub_key", OneKey (snd mk))])
         [("m1", None); ("m1", Some 3); ("m2", None); ("m2", Some 3)]) /\
  computations_per_key ["thresholds"; "model_name"; "sub_key"] (fun kw => Ok [kw]) [] r = Err ValueError.
Proof. split; vm_compute; reflexivity. Qed.

Print Assumptions C297_config_gives_metric_back.
Print Assumptions C298_config_is_not_taken_refuted.
Print Assumptions C298_threshold_of_accuracy_refuted.
Print Assumptions C299_preprocessors_are_lost_refuted.
Print Assumptions C299_no_metric_keeps_preprocessors.
Print Assumptions C300_arguments.
Print Assumptions C300_one_call_for_each_key.
Print Assumptions C300_unsupported.
