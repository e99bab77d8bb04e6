(* Workers *)
From Coq Require Import String Ascii Permutation.
From Verif Require Import Base BaseFacts Util_Model Config_Model Batches_Model Extract_Model Specs_Model Setup_Main Plots_Main Workers_Model.
From Verif Require Import Workers_Main.
Local Open Scope string_scope.
Local Open Scope list_scope.

(* ------------------------------------------------------------------ *)
(** ** Names *)
(** C310: the tag comes after the first part. *)
Theorem C310_after_first_part : forall first rest tag, no_slash first -> Forall no_slash rest ->
  tagged_key (String.concat "/" (first :: rest)) tag = String.concat "/" (first :: tag :: rest).
Proof. exact C310_after_first_part_pf. Qed.

Example C310_ex_tag : tagged_key "post_export_metrics/fairness/auc" "head" = "post_export_metrics/head/fairness/auc".
Proof. reflexivity. Qed.

(** Keys with the same tag stay apart, and so do keys and tags if the tags have no slash. *)
Theorem C310_distinct_keys : forall k1 k2 tag, tagged_key k1 tag = tagged_key k2 tag -> k1 = k2.
Proof. exact C310_distinct_keys_pf. Qed.

Example C310_ex_distinct : tagged_key "a" "b" = "a/b" /\ tagged_key "a/c" "b" = "a/b/c" /\ tagged_key "a/" "b" = "a/b/".
Proof. repeat split. Qed.

Theorem C310_distinct_tags_partial : forall k1 k2 t1 t2, no_slash t1 -> no_slash t2 ->
  tagged_key k1 t1 = tagged_key k2 t2 -> k1 = k2 /\ t1 = t2.
Proof. exact C310_distinct_tags_partial_pf. Qed.

Theorem C310_distinct_tags_refuted : exists k1 k2 t1 t2, k1 <> k2 /\ t1 <> t2 /\ tagged_key k1 t1 = tagged_key k2 t2.
Proof. exact C310_distinct_tags_refuted_pf. Qed.

Theorem C311_plots_partial : forall key, plot_under key -> is_plot_key key = true.
Proof. exact C311_plots_partial_pf. Qed.

Example C311_ex_plots : plot_under "post_export_metrics/head/auc_plots/matrices" /\ is_plot_key "post_export_metrics/head/auc_plots/matrices" = true /\
  is_plot_key "post_export_metrics/auc" = false.
Proof. split; [exists "auc_plots/matrices"; split; [cbn; tauto|right; exists "post_export_metrics/head"; reflexivity]|split; reflexivity]. Qed.

(** Keys of other metrics may end alike. *)
Theorem C311_plots_refuted : exists key, is_plot_key key = true /\ ~ plot_under key.
Proof. exact C311_plots_refuted_pf. Qed.

(** Tags keep the keys of plots, if they have a prefix; no bound is a plot. *)
Theorem C311_tags_and_bounds_partial : forall key name prefix tag, In name plot_names ->
  is_plot_key (tagged_key (prefix ++ "/" ++ name) tag) = true /\ is_plot_key (upper_bound_key key) = false /\ is_plot_key (lower_bound_key key) = false.
Proof. exact C311_tags_and_bounds_partial_pf. Qed.

Example C311_ex_tags : is_plot_key (tagged_key "post_export_metrics/auc_plots/matrices" "head") = true /\ is_plot_key (upper_bound_key "post_export_metrics/auc_plots/matrices") = false.
Proof. split; reflexivity. Qed.

(** A tag on the bare name of a plot goes into it. *)
Theorem C311_tags_refuted : exists name tag, In name plot_names /\ is_plot_key name = true /\ is_plot_key (tagged_key name tag) = false.
Proof. exact C311_tags_refuted_pf. Qed.

(* ------------------------------------------------------------------ *)
(** ** Models run in bulk *)
Theorem C309_models_run : forall tags graphs shared specs names runs, bulk_inference tags graphs shared specs = Ok (names, runs) ->
  names = map bm_name specs /\ Forall2 (spec_run tags graphs shared) specs runs.
Proof. exact C309_models_run_pf. Qed.

Example C309_ex_run : bulk_inference (fun _ => ["serve"]) (fun p => [[(if String.eqb p "/a" then "predict" else "other", tt)]])
  (ModelList [SharedModel "a" false false "/a"; SharedModel "b" true false "/b"])
  [BulkModelSpec "b" "" 4; BulkModelSpec "a" "" 0] =
  Ok (["b"; "a"], [InferenceSpec "/b" ["serve"] ["serving_default"] 4 4; InferenceSpec "/a" ["serve"] ["predict"] 0 0]).
Proof. reflexivity. Qed.

(** The log of a model is under the name of its spec. *)
Theorem C309_logs_by_name : forall I P tags graphs shared specs names runs (infer : inference_spec -> I -> P) x,
  bulk_inference tags graphs shared specs = Ok (names, runs) -> NoDup (map bm_name specs) ->
  map fst (logs_of infer names runs x) = map bm_name specs /\
  forall i ms, nth_error specs i = Some ms ->
    exists s, nth_error runs i = Some s /\ spec_run tags graphs shared ms s /\ dget String.eqb (logs_of infer names runs x) (bm_name ms) = Some (infer s x).
Proof. exact C309_logs_by_name_pf. Qed.

Example C309_ex_logs : logs_of (fun s x => (is_path s, x)) ["b"; "a"] [InferenceSpec "/b" [] ["serving_default"] 4 4; InferenceSpec "/a" [] ["predict"] 0 0] 7 =
  [("b", ("/b", 7)); ("a", ("/a", 7))].
Proof. reflexivity. Qed.

(** Specs are accepted just when there is a model for each. *)
Theorem C309_accepted : forall tags graphs shared specs l, verify_and_update_eval_shared_models shared = Ok (Some l) ->
  is_ok (bulk_inference tags graphs shared specs) = true <-> forall ms, In ms specs -> exists path, offers shared (bm_name ms) path.
Proof. exact C309_accepted_pf. Qed.

Example C309_ex_refused : is_ok (bulk_inference (fun _ => []) (fun _ => [])
  (ModelList [SharedModel "a" false false "/a"; SharedModel "b" true false "/b"]) [BulkModelSpec "c" "s" 4]) = false /\
  is_ok (bulk_inference (fun _ => []) (fun _ => []) (OneModel (SharedModel "a" false false "/a")) [BulkModelSpec "c" "s" 4]) = true.
Proof. split; reflexivity. Qed.

(* ------------------------------------------------------------------ *)
(** ** Keras metrics and losses on workers *)
(** C308: if classes of the same name are of the same module, each metric and each loss is of the
    class it was, with its settings: by output, metrics before losses. *)
Theorem C308_classes_partial : forall mn ln e losses all group,
  alike mn ln e losses all -> (forall m, all_of group m -> all_of all m) -> NoDup (map fst group) ->
  (forall m m', all_of all m -> all_of all m' -> mt_class m = mt_class m' -> mt_module m = mt_module m') ->
  exists r, setup mn ln e losses all group = Ok r /\ Permutation (map fst r) (map fst group) /\
    forall o ms, In (o, ms) group -> dget String.eqb r o = Some (map as_made (of_metrics ms) ++ map as_made (of_losses ms)).
Proof. exact C308_classes_partial_pf. Qed.

Example C308_ex_classes :
  let mine := Metric KerasMetric "Mine" "my.metrics" "Mine" [("name", JStr "mine")] in
  let loss := Metric KerasLoss "Huber" "losses" "Huber" [("delta", JNum 1%Qc)] in
  let mse := Metric KerasMetric "MeanSquaredError" "metrics" "MeanSquaredError" [] in
  setup "metrics" "losses" (Env [] [("MeanSquaredError", (KerasMetric, "metrics"))] [("my.metrics", [("Mine", KerasMetric)])]) [("Huber", (KerasLoss, "losses"))]
    [("b", [loss; mine]); ("a", [mse])] [("b", [loss; mine]); ("a", [mse])] =
  Ok [("a", [as_made mse]); ("b", [as_made mine; as_made loss])].
Proof. reflexivity. Qed.

(** Otherwise the last class of a name stands for all. *)
Theorem C308_classes_refuted : exists mn ln e losses group,
  alike mn ln e losses group /\ NoDup (map fst group) /\
  exists r o ms, setup mn ln e losses group group = Ok r /\ In (o, ms) group /\ dget String.eqb r o <> Some (map as_made (of_metrics ms) ++ map as_made (of_losses ms)).
Proof. exact C308_classes_refuted_pf. Qed.

(** A class its module does not have, as one made in a function, is refused. *)
Theorem C308_local_classes_refused : forall mn ln e losses all group m, all_of all m -> mt_module m <> mn -> mt_module m <> ln ->
  (forall k, ~ module_has e (mt_module m) (mt_class m) k) -> is_ok (setup mn ln e losses all group) = false.
Proof. exact C308_local_classes_refused_pf. Qed.

Example C308_ex_local : is_ok (setup "metrics" "losses" (Env [] [] [("my", [("Other", KerasMetric)])]) []
  [("", [Metric KerasMetric "Local" "my" "Local" []])] [("", [Metric KerasMetric "Local" "my" "Local" []])]) = false.
Proof. reflexivity. Qed.

Print Assumptions C310_after_first_part.
Print Assumptions C310_distinct_keys.
Print Assumptions C310_distinct_tags_partial.
Print Assumptions C310_distinct_tags_refuted.
Print Assumptions C311_plots_partial.
Print Assumptions C311_plots_refuted.
Print Assumptions C311_tags_and_bounds_partial.
Print Assumptions C311_tags_refuted.
Print Assumptions C309_models_run.
Print Assumptions C309_logs_by_name.
Print Assumptions C309_accepted.
Print Assumptions C308_classes_partial.
Print Assumptions C308_classes_refuted.
Print Assumptions C308_local_classes_refused.
