(* Routing *)
From Coq Require Import String Ascii Permutation Sorting.Sorted.
From Verif Require Import Base BaseFacts Util_Model Util_Main Inputs_Model Evaluator_Model Evaluator_Main Keys_Model Keys_Main Keras_Model Keras_Main Classes_Main Aggregation_Model Aggregation_Main Routing_Model.
From Verif Require Import Routing_Main.
Local Open Scope string_scope.
Local Open Scope list_scope.

(* ------------------------------------------------------------------ *)
(** ** C290 the two sides *)
(** C290: in every spec each metric goes to just one side, and each side keeps the order of
    the spec.  A metric whose class name TFMA has registered goes to TFMA; one on the side
    of Keras has no module, or its module's class is a Keras metric or loss; every other
    metric on the side of TFMA has the name of a class imported for some metric of that
    name that is neither. *)
Theorem C290_each_metric_on_one_side :
  forall import bm bl lm registered specs c rs,
    split_specs import bm bl lm registered specs = Ok (c, rs) ->
    Forall2 (fun ms r =>
      shuffled (map fst (fst r)) (map fst (snd r)) ms /\
      (forall m i, In (m, i) (fst r) -> ~ In (mc_class m) (map fst registered) /\
         (mc_module m = "" \/ import (mc_module m) (mc_class m) = Ok IsMetric \/ import (mc_module m) (mc_class m) = Ok IsLoss)) /\
      (forall m i, In (m, i) (snd r) -> In (mc_class m) (map fst registered) \/
         exists m', In m' (concat specs) /\ mc_class m' = mc_class m /\ mc_module m' <> "" /\ import (mc_module m') (mc_class m') = Ok IsOther)) specs rs.
Proof. exact C290_each_metric_on_one_side_pf. Qed.

Example C290_each_metric_on_one_side_example :
  exists c, ex_split [[MetricConfig "ExampleCount" "" ""; MetricConfig "MeanSquaredError" "" "a"; MetricConfig "Mine" "my.tfma" ""];
                      [MetricConfig "Mine" "" "b"; MetricConfig "MeanSquaredError" "keras.losses" ""]] =
    Ok (c, [([(MetricConfig "MeanSquaredError" "" "a", Instance ("keras.metrics", "MeanSquaredError") "a")],
             [(MetricConfig "ExampleCount" "" "", Instance ("tfma", "ExampleCount") ""); (MetricConfig "Mine" "my.tfma" "", Instance ("my.tfma", "Mine") "")]);
            ([(MetricConfig "MeanSquaredError" "keras.losses" "", Instance ("keras.losses", "MeanSquaredError") "")],
             [(MetricConfig "Mine" "" "b", Instance ("my.tfma", "Mine") "b")])]).
Proof. eexists. vm_compute. reflexivity. Qed.

(** C290: every instance keeps its configuration, and those of registered names are of the
    registered class. *)
Theorem C290_registered_classes :
  forall import bm bl lm registered specs c rs,
    split_specs import bm bl lm registered specs = Ok (c, rs) ->
    Forall (fun r =>
      (forall m i, In (m, i) (fst r ++ snd r) -> in_config i = mc_config m) /\
      (forall m i cl, In (m, i) (snd r) -> dget String.eqb registered (mc_class m) = Some cl -> in_class i = cl)) rs.
Proof. exact C290_registered_classes_pf. Qed.

Example C290_registered_classes_example :
  exists c, ex_split [[MetricConfig "ExampleCount" "" "e"]] =
    Ok (c, [([], [(MetricConfig "ExampleCount" "" "e", Instance ("tfma", "ExampleCount") "e")])]).
Proof. eexists. vm_compute. reflexivity. Qed.

(** C290: unless two modules of the same class name are used, a metric that names its module
    and is not registered is an instance of that module's class; except for losses, which
    must be in Keras's own module (and metrics, which must not). *)
Theorem C290_class_of_the_module_partial :
  forall import bm bl lm registered specs c rs,
    split_specs import bm bl lm registered specs = Ok (c, rs) -> one_module (concat specs) ->
    Forall (fun r =>
      forall m i, In (m, i) (fst r ++ snd r) -> mc_module m <> "" -> ~ In (mc_class m) (map fst registered) ->
        (import (mc_module m) (mc_class m) = Ok IsLoss <-> mc_module m = lm) ->
        in_class i = (mc_module m, mc_class m)) rs.
Proof. exact C290_class_of_the_module_partial_pf. Qed.

Example C290_class_of_the_module_partial_example :
  exists c, ex_split [[MetricConfig "AUC" "my.metrics" ""; MetricConfig "Huber" "keras.losses" ""; MetricConfig "Mine" "my.tfma" ""]; [MetricConfig "AUC" "my.metrics" "x"]] =
    Ok (c, [([(MetricConfig "AUC" "my.metrics" "", Instance ("my.metrics", "AUC") ""); (MetricConfig "Huber" "keras.losses" "", Instance ("keras.losses", "Huber") "")],
             [(MetricConfig "Mine" "my.tfma" "", Instance ("my.tfma", "Mine") "")]);
            ([(MetricConfig "AUC" "my.metrics" "x", Instance ("my.metrics", "AUC") "x")], [])]).
Proof. eexists. vm_compute. reflexivity. Qed.

(** C290 is false without those conditions.  A loss of a module of its own is refused,
    though its class was found. *)
Theorem C290_own_losses_refuted :
  exists import bm bl lm registered m,
    import (mc_module m) (mc_class m) = Ok IsLoss /\ ~ In (mc_class m) (map fst registered) /\
    split_specs import bm bl lm registered [[m]] = Err ValueError.
Proof. exact C290_own_losses_refuted_pf. Qed.

(** A loss of a module of its own that is named like a metric of Keras is computed as that
    metric. *)
Theorem C290_own_losses_become_metrics_refuted :
  exists import bm bl lm registered m c,
    import (mc_module m) (mc_class m) = Ok IsLoss /\
    split_specs import bm bl lm registered [[m]] = Ok (c, [([(m, Instance ("keras.metrics", "MeanSquaredError") "")], [])]).
Proof. exact C290_own_losses_become_metrics_refuted_pf. Qed.

(** A metric with the module of Keras whose class name TFMA uses too is TFMA's. *)
Theorem C290_module_overruled_refuted :
  exists import bm bl lm registered m c,
    import (mc_module m) (mc_class m) = Ok IsMetric /\ mc_module m = "keras.metrics" /\
    split_specs import bm bl lm registered [[m]] = Ok (c, [([], [(m, Instance ("tfma", mc_class m) (mc_config m))])]).
Proof. exact C290_module_overruled_refuted_pf. Qed.

(** Of two modules with the same class name, the last of a spec counts for all its metrics
    of Keras, the first of all for those of TFMA. *)
Theorem C290_two_modules_refuted :
  exists import bm bl lm registered a b x y c,
    mc_module a <> mc_module b /\ mc_module x <> mc_module y /\ mc_config a <> mc_config b /\
    split_specs import bm bl lm registered [[a; b; x; y]] =
      Ok (c, [([(a, Instance (mc_module b, mc_class b) (mc_config a)); (b, Instance (mc_module b, mc_class b) (mc_config b))],
               [(x, Instance (mc_module x, mc_class x) (mc_config x)); (y, Instance (mc_module x, mc_class x) (mc_config y))])]).
Proof. exact C290_two_modules_refuted_pf. Qed.

(* ------------------------------------------------------------------ *)
(** ** C291 the metrics of Keras *)
(** C291: the calls to compute metrics of Keras are each for other arguments; together they
    are for just the metrics asked for by the specs, under the model, sub key, aggregation
    and class weights, weighted or not, and for the outputs they are asked for. *)
Theorem C291_calls :
  forall default specs d,
    Forall (fun sm => weights_map (fst sm)) specs -> foldM (gather_spec default) specs [] = Ok d ->
    NoDup (map fst (calls d)) /\
    (forall c, In c (calls d) -> NoDup (map fst (snd c))) /\
    forall a w o m, (exists outs l, In (a, w, outs) (calls d) /\ In (o, l) outs /\ In m l) <-> exists sm, In sm specs /\ requested default sm a w o m.
Proof. exact C291_calls_pf. Qed.

Example C291_calls_example :
  exists d, foldM (gather_spec false)
    [(r_spec ["m"] [] (Some (Binarize [1%Z] [] [])) (Some (Aggregate (Some (Macro, true)) [(0%Z, 1%Qc); (1%Z, 1%Qc)] None)) None, [mse]);
     (r_spec ["m"] ["o"] (Some (Binarize [1%Z] [] [])) None (Some (true, true)), [huber])] [] = Ok d /\
  calls d = [(UniqueArgs "m" (Some (SubKey (Some 1%Z) None None)) None [], true, [("o", [huber])]);
             (UniqueArgs "m" (Some (SubKey (Some 1%Z) None None)) None [], false, [("", [mse; mse]); ("o", [huber])]);
             (UniqueArgs "m" (Some (SubKey (Some 0%Z) None None)) None [], false, [("", [tf_simple "MeanSquaredError" "_mse" false])])].
Proof. eexists. split; [vm_compute; reflexivity|]. vm_compute. reflexivity. Qed.

(** C291: the metrics of a later spec come after those of the specs before. *)
Theorem C291_later_specs_later :
  forall default specs sm d d',
    Forall (fun sm => weights_map (fst sm)) (specs ++ [sm]) ->
    foldM (gather_spec default) specs [] = Ok d -> foldM (gather_spec default) (specs ++ [sm]) [] = Ok d' ->
    forall a w o outs l, In (a, w, outs) (calls d') -> In (o, l) outs ->
      exists before new, l = before ++ new /\ (forall m, In m new <-> requested default sm a w o m) /\
        (before = [] \/ exists outs, In (a, w, outs) (calls d) /\ In (o, before) outs).
Proof. exact C291_later_specs_later_pf. Qed.

Example C291_later_specs_later_example :
  exists d d', foldM (gather_spec false) [(r_spec [] [] None None None, [mse])] [] = Ok d /\
    foldM (gather_spec false) ([(r_spec [] [] None None None, [mse])] ++ [(r_spec [] [] None None None, [huber])]) [] = Ok d' /\
    calls d = [(UniqueArgs "" None None [], false, [("", [mse])])] /\ calls d' = [(UniqueArgs "" None None [], false, [("", [mse; huber])])].
Proof. eexists. eexists. split; [vm_compute; reflexivity|]. split; [vm_compute; reflexivity|]. split; vm_compute; reflexivity. Qed.

(** A binarization is for nothing beside aggregation options whose type is not set. *)
Theorem C291_binarization_lost_refuted :
  exists default s ms d,
    ms_binarize s = Some (Binarize [1; 2]%Z [] []) /\ ms <> [] /\ foldM (gather_spec default) [(s, ms)] [] = Ok d /\
    forall a w outs, In (a, w, outs) (calls d) -> ua_sub a = None.
Proof. exact C291_binarization_lost_refuted_pf. Qed.

(* ------------------------------------------------------------------ *)
(** ** C292 the keys of the metrics of Keras *)
(** C292: the keys declared for the metrics of Keras are just those asked for. *)
Theorem C292_declared_keys :
  forall default specs comps,
    Forall (fun sm => weights_map (fst sm)) specs -> process_tf_metrics_specs default specs = Ok comps ->
    forall k, In k (all_keys comps) <->
      exists sm a w o m, In sm specs /\ requested default sm a w o m /\
        k = MetricKey (tm_name m) (ua_model a) o (own_sub (ua_sub a) m) (ua_agg a) (Some w) false.
Proof. exact C292_declared_keys_pf. Qed.

Example C292_declared_keys_example :
  exists comps, process_tf_metrics_specs false
    [(r_spec ["m"] [] (Some (Binarize [1%Z] [] [])) (Some (Aggregate (Some (Macro, true)) [(0%Z, 1%Qc); (1%Z, 1%Qc)] None)) None, [mse]);
     (r_spec ["m"] ["o"] None None (Some (true, true)), [huber; tf_sub "Precision" "p" (Some 1%Z) None])] = Ok comps /\
  all_keys comps =
    [MetricKey "mse" "m" "" (Some (SubKey (Some 1%Z) None None)) None (Some false) false;
     MetricKey "_mse" "m" "" (Some (SubKey (Some 0%Z) None None)) None (Some false) false;
     MetricKey "p" "m" "o" (Some (SubKey (Some 1%Z) None None)) None (Some true) false;
     MetricKey "h" "m" "o" None None (Some true) false;
     MetricKey "p" "m" "o" (Some (SubKey (Some 1%Z) None None)) None (Some false) false;
     MetricKey "h" "m" "o" None None (Some false) false].
Proof. eexists. split; [vm_compute; reflexivity|]. vm_compute. reflexivity. Qed.

(** C292: each key is declared once, when no metric has a class or top k of its own and the
    specs give the same class weights. *)
Theorem C292_keys_once :
  forall default specs comps,
    Forall (fun sm => weights_map (fst sm)) specs -> process_tf_metrics_specs default specs = Ok comps ->
    (forall sm m, In sm specs -> In m (snd sm) -> tm_class_id m = None /\ tm_top_k m = None) ->
    (forall sm sm' a a', In sm specs -> In sm' specs -> ms_aggregate (fst sm) = Some a -> ms_aggregate (fst sm') = Some a' ->
       Permutation (a_class_weights a) (a_class_weights a')) ->
    NoDup (all_keys comps).
Proof. exact C292_keys_once_pf. Qed.

Example C292_keys_once_example :
  exists comps, process_tf_metrics_specs false
    [(r_spec [] [] None (Some (Aggregate (Some (Micro, true)) [(0%Z, 1%Qc); (1%Z, 1%Qc)] None)) None, [mse]);
     (r_spec [] [] None (Some (Aggregate (Some (Micro, true)) [(1%Z, 1%Qc); (0%Z, 1%Qc)] None)) None, [mse; huber])] = Ok comps /\
  all_keys comps = [MetricKey "mse" "" "" None (Some (AggType (Some true) None None)) (Some false) false;
                    MetricKey "h" "" "" None (Some (AggType (Some true) None None)) (Some false) false].
Proof. eexists. split; [vm_compute; reflexivity|]. vm_compute. reflexivity. Qed.

(** C292 is false when two specs differ in their class weights only: two computations have
    the same key. *)
Theorem C292_weights_not_in_keys_refuted :
  exists default s1 s2 ms c1 c2 k w1 w2,
    process_tf_metrics_specs default [(s1, ms); (s2, ms)] = Ok [c1; c2] /\
    c1 = FromMatrices (tf_sub "Precision" "p" None None) k (Some [Fin (Q2Qc (1#2))]) None w1 /\
    c2 = FromMatrices (tf_sub "Precision" "p" None None) k (Some [Fin (Q2Qc (1#2))]) None w2 /\ w1 <> w2.
Proof. exact C292_weights_not_in_keys_refuted_pf. Qed.

(** A metric with a class of its own and the same metric binarized by that class too. *)
Theorem C292_own_class_refuted :
  exists default specs comps, process_tf_metrics_specs default specs = Ok comps /\ ~ NoDup (all_keys comps).
Proof. exact C292_own_class_refuted_pf. Qed.

(* ------------------------------------------------------------------ *)
(** ** C293 the classes of macro averages *)
(** C293: for each class (or rank) a macro average is taken over, the metric of Keras is
    computed: under its own name when the spec binarizes by that class too, else under its
    name with "_" in front, which is where the average looks. *)
Theorem C293_classes_of_macro_averages :
  forall default specs comps s ms f parent c m0 model o w,
    Forall (fun sm => weights_map (fst sm)) specs -> process_tf_metrics_specs default specs = Ok comps ->
    In (s, ms) specs -> f = Macro \/ f = WeightedMacro -> asks s (Some (type_of f)) parent -> averaged_over s parent c -> In m0 ms ->
    one_of (ms_models s) model -> one_of (ms_outputs s) o -> asked_weights default s w ->
    (forall n, tm_name m0 <> ("_" ++ n)%string) -> tm_class_id m0 = None -> tm_top_k m0 = None ->
    (binarized s c -> In (MetricKey (tm_name m0) model o (Some c) None (Some w) false) (all_keys comps)) /\
    (~ binarized s c -> In (MetricKey ("_" ++ tm_name m0) model o (Some c) None (Some w) false) (all_keys comps)).
Proof. exact C293_classes_of_macro_averages_pf. Qed.

Example C293_classes_of_macro_averages_example :
  exists comps, process_tf_metrics_specs false
    [(r_spec [] [] (Some (Binarize [] [2%Z] [])) (Some (Aggregate (Some (WeightedMacro, true)) [] (Some [2%Z]))) None, [huber])] = Ok comps /\
  all_keys comps = [MetricKey "h" "" "" (Some (SubKey None (Some 2%nat) None)) None (Some false) false;
                    MetricKey "_h" "" "" (Some (SubKey None (Some 1%nat) None)) None (Some false) false].
Proof. eexists. split; [vm_compute; reflexivity|]. vm_compute. reflexivity. Qed.

Print Assumptions C290_each_metric_on_one_side.
Print Assumptions C290_registered_classes.
Print Assumptions C290_class_of_the_module_partial.
Print Assumptions C290_own_losses_refuted.
Print Assumptions C290_own_losses_become_metrics_refuted.
Print Assumptions C290_module_overruled_refuted.
Print Assumptions C290_two_modules_refuted.
Print Assumptions C291_calls.
Print Assumptions C291_later_specs_later.
Print Assumptions C291_binarization_lost_refuted.
Print Assumptions C292_declared_keys.
Print Assumptions C292_keys_once.
Print Assumptions C292_weights_not_in_keys_refuted.
Print Assumptions C292_own_class_refuted.
Print Assumptions C293_classes_of_macro_averages.
