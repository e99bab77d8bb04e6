(* Signatures *)
From Coq Require Import String Ascii.
From Verif Require Import Base BaseFacts Specs_Model Setup_Main Ctors_Model Ctors_Main Signatures_Model.
From Verif Require Import Signatures_Main.
Local Open Scope string_scope.
Local Open Scope list_scope.

(* ------------------------------------------------------------------ *)
(** ** Settings a metric may have *)
(* ------------------------------------------------------------------ *)
(** ** C301 the functions take their calls *)
(** Every registered metric made of arguments it knows can be computed: each call of its function is
    one the function takes, and what is computed is what its body gives for them. *)
Theorem C301_functions_take_their_calls : forall (K C : Type) c kw m r (body : kwargs K -> res (list C)), In c classes ->
  exists sg, dget String.eqb functions (mc_class c) = Some sg /\
    (construct c kw = Ok m -> (forall k, In k (map fst kw) -> known c sg k) -> ~ unsupported (map fst (sg_params sg)) r ->
     exists kws, Forall (fun call => call_of sg m call /\ takes sg call) kws /\ length kws = calls_made sg r /\
       metric_computations sg body m r = let! parts := mapM body kws in Ok (concat parts)).
Proof. exact C301_functions_take_their_calls_pf. Qed.

(** A setting the function does not know makes the first call of it fail. *)
Theorem C301_unknown_settings_refused : forall (K C : Type) sg (body : kwargs K -> res (list C)) m r k, ~ unsupported (map fst (sg_params sg)) r -> calls_made sg r <> 0 ->
  dget String.eqb m k <> None -> ~ set_for sg k -> ~ In k (map fst (sg_params sg)) -> sg_rest sg = false -> metric_computations sg body m r = Err TypeError.
Proof. exact C301_unknown_settings_refused_pf. Qed.

Example C301_ex1 : exists a b, computed_with "Precision" [("top_k", JNum (qz 3))] (plain ["a"; "b"] true) = Ok [a; b] /\
  dget String.eqb a "model_name" = Some (OneName "a") /\ dget String.eqb b "model_name" = Some (OneName "b") /\
  dget String.eqb a "top_k" = Some (Setting (JNum (qz 3))) /\ dget String.eqb b "example_weighted" = Some (Flag true) /\ dget String.eqb a "query_key" = None.
Proof. do 2 eexists. split; [vm_compute; reflexivity|]. repeat split. Qed.

Example C301_ex2 : computed_with "MeanSquaredError" [("gain_key", JStr "g")] (plain ["a"] true) = Err TypeError /\ is_ok (construct (class_named "MeanSquaredError") [("gain_key", JStr "g")]) = true /\
  is_ok (computed_with "Precision" [("gain_key", JStr "g")] (plain ["a"] true)) = true.
Proof. repeat split; vm_compute; reflexivity. Qed.

Example C301_ex3 : exists call, computed_with "NDCG" [("gain_key", JStr "g")] (plain ["a"; "b"] true) = Ok [call] /\ dget String.eqb call "model_names" = Some (Names (Some ["a"; "b"])) /\ dget String.eqb call "gain_key" = Some (Setting (JStr "g")).
Proof. eexists. split; [vm_compute; reflexivity|]. repeat split. Qed.

(* ------------------------------------------------------------------ *)
(** ** C302 settings reach the function *)
(** Of every registered metric but the two mean COCO metrics, each call has all settings of the metric
    as they are, if none is given under a name the calls set. *)
Theorem C302_settings_reach_function_partial : forall (K C : Type) c sg kw m r (body : kwargs K -> res (list C)), In c classes -> ~ In (mc_class c) weighting ->
  dget String.eqb functions (mc_class c) = Some sg -> construct c kw = Ok m -> (forall k, In k (map fst kw) -> ~ set_for sg k) -> ~ unsupported (map fst (sg_params sg)) r ->
  exists kws, length kws = calls_made sg r /\ metric_computations sg body m r = (let! parts := mapM (python_call sg body) kws in Ok (concat parts)) /\
    Forall (fun call => forall k v, dget String.eqb m k = Some v -> dget String.eqb call k = Some (Setting v)) kws.
Proof. exact C302_settings_reach_function_partial_pf. Qed.

(** The class weights COCOMeanAveragePrecision is made with are replaced by those asked for, none. *)
Theorem C302_settings_reach_function_refuted : exists c sg kw m (r : request nat), In c classes /\ dget String.eqb functions (mc_class c) = Some sg /\
  map fst kw = ["class_weights"] /\ In "class_weights" (top_params (mc_ctor c)) /\ construct c kw = Ok m /\ dget String.eqb m "class_weights" = dget String.eqb kw "class_weights" /\
  exists call, metric_computations sg (fun k => Ok [k]) m r = Ok [call] /\ dget String.eqb call "class_weights" = Some (Weights None).
Proof. exact C302_settings_reach_function_refuted_pf. Qed.

Example C302_ex1 : exists call, computed_with "COCOAveragePrecision" [("iou_threshold", JNum (Q2Qc (1#2))); ("class_id", JNum (qz 1))] (plain ["a"] false) = Ok [call] /\
  dget String.eqb call "iou_threshold" = Some (Setting (JNum (Q2Qc (1#2)))) /\ dget String.eqb call "class_id" = Some (Setting (JNum (qz 1))).
Proof. eexists. split; [vm_compute; reflexivity|]. split; vm_compute; reflexivity. Qed.

(* The same names are lost for both. *)
Example C302_ex2 : exists call, computed_with "COCOMeanAverageRecall" [("class_weights", JOther "{1: 2.0}"); ("class_ids", JOther "[1]")] (plain ["a"] false) = Ok [call] /\
  dget String.eqb call "class_ids" = Some (Setting (JOther "[1]")) /\ dget String.eqb call "class_weights" = Some (Weights None).
Proof. eexists. split; [vm_compute; reflexivity|]. split; vm_compute; reflexivity. Qed.

(* ------------------------------------------------------------------ *)
(** ** C303 which model, which output *)
(** The function of a metric called once for each key is told the model of it and, of all but the two
    set match metrics, the output. *)
Theorem C303_calls_name_model_and_output_partial : forall (K C : Type) c sg m r (body : kwargs K -> res (list C)), In c classes -> dget String.eqb functions (mc_class c) = Some sg ->
  sg_per_key sg = true -> ~ unsupported (map fst (sg_params sg)) r ->
  exists kws, metric_computations sg body m r = (let! parts := mapM (python_call sg body) kws in Ok (concat parts)) /\
    Forall2 (fun key call => dget String.eqb call "model_name" = Some (OneName (fst key)) /\ (~ In (mc_class c) outputless -> dget String.eqb call "output_name" = Some (OneName (fst (snd key))))) (all_keys r) kws.
Proof. exact C303_calls_name_model_and_output_partial_pf. Qed.

(** The calls of SetMatchPrecision for two outputs are one and the same. *)
Theorem C303_calls_name_model_and_output_refuted : exists c sg m (r : request nat) o1 o2 call, In c classes /\ dget String.eqb functions (mc_class c) = Some sg /\ construct c [] = Ok m /\
  sg_per_key sg = true /\ rq_outputs r = Some [o1; o2] /\ o1 <> o2 /\ metric_computations sg (fun k => Ok [k]) m r = Ok [call; call] /\ dget String.eqb call "output_name" = None.
Proof. exact C303_calls_name_model_and_output_refuted_pf. Qed.

Example C303_ex1 : exists a b, computed_with "Recall" [] (Request None None (Some ["a"]) (Some ["o1"; "o2"]) None None None false None) = Ok [a; b] /\
  dget String.eqb a "output_name" = Some (OneName "o1") /\ dget String.eqb b "output_name" = Some (OneName "o2").
Proof. do 2 eexists. split; [vm_compute; reflexivity|]. split; reflexivity. Qed.

(* ------------------------------------------------------------------ *)
(** ** C304 example weights *)
(** Example weights are refused by four of the registered metrics and reach the function of all others. *)
Theorem C304_example_weights : forall (K C : Type) c sg m r (body : kwargs K -> res (list C)), In c classes -> dget String.eqb functions (mc_class c) = Some sg ->
  (In (mc_class c) unweighted -> rq_example_weighted r = true -> calls_made sg r <> 0 -> metric_computations sg body m r = Err ValueError) /\
  (~ In (mc_class c) unweighted -> rq_class_weights r = None ->
   exists kws, length kws = calls_made sg r /\ metric_computations sg body m r = (let! parts := mapM (python_call sg body) kws in Ok (concat parts)) /\
     Forall (fun call => dget String.eqb call "example_weighted" = Some (Flag (rq_example_weighted r))) kws).
Proof. exact C304_example_weights_pf. Qed.

Example C304_ex1 : is_ok (construct (class_named "Bleu") []) = true /\ computed_with "Bleu" [] (plain ["a"] true) = Err ValueError /\ is_ok (computed_with "Bleu" [] (plain ["a"] false)) = true /\
  computed_with "Mean" [("feature_key_path", JOther "['f']")] (plain ["a"] true) = Err ValueError.
Proof. repeat split; vm_compute; reflexivity. Qed.

Example C304_ex2 : exists call, computed_with "ExampleCount" [] (plain ["a"; "b"] true) = Ok [call] /\ dget String.eqb call "example_weighted" = Some (Flag true).
Proof. eexists. split; [vm_compute; reflexivity|]. reflexivity. Qed.

Theorem C301_preprocessors_taken : forall (K C : Type) n text r (body : kwargs K -> res (list C)), In n with_preprocessors ->
  exists c sg m, In c classes /\ mc_class c = n /\ dget String.eqb functions n = Some sg /\ construct c [("preprocessors", JOther text)] = Ok m /\
    (~ unsupported (map fst (sg_params sg)) r ->
     exists kws, length kws = calls_made sg r /\ Forall (fun call => dget String.eqb call "preprocessors" = Some (Setting (JOther text))) kws /\
       metric_computations sg body m r = let! parts := mapM body kws in Ok (concat parts)).
Proof. exact C301_preprocessors_taken_pf. Qed.

Example C301_ex_preprocessors : exists call, computed_with "MeanAbsoluteError" [("preprocessors", JOther "[p]")] (plain ["a"] false) = Ok [call] /\
  dget String.eqb call "preprocessors" = Some (Setting (JOther "[p]")).
Proof. eexists. split; vm_compute; reflexivity. Qed.

Print Assumptions C301_functions_take_their_calls.
Print Assumptions C301_unknown_settings_refused.
Print Assumptions C302_settings_reach_function_partial.
Print Assumptions C302_settings_reach_function_refuted.
Print Assumptions C303_calls_name_model_and_output_partial.
Print Assumptions C303_calls_name_model_and_output_refuted.
Print Assumptions C304_example_weights.
Print Assumptions C301_preprocessors_taken.
