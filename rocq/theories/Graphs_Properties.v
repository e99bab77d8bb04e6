(* Graphs *)
From Coq Require Import String Ascii.
From Verif Require Import Base BaseFacts Graphs_Model.
From Verif Require Import Graphs_Main.
Local Open Scope string_scope.
Local Open Scope list_scope.

(* ------------------------------------------------------------------ *)
(** ** Graphs that were built *)
(* ------------------------------------------------------------------ *)
(** ** Batches *)
(** C312: whatever the variables were, a list of examples gives the variables updated with it from
    their start. *)
Theorem C312_batches : forall V X R (initial : nat -> V) (g : @graph V X R) xs s s' vs, built initial g ->
  updated (g_update_ops g) xs (at_start initial g) s' -> has_values s' (g_collection g) vs ->
  snd (reset_update_get initial g xs s) = Good vs.
Proof. exact C312_batches_pf. Qed.

(** A list refused with a ValueError is run one by one, from the start. *)
Theorem C312_one_by_one_partial : forall V X R (initial : nat -> V) (g : @graph V X R) xs s s' vs, built initial g ->
  refused (g_update_ops g) xs (at_start initial g) (Raised ValueError true) ->
  updated_each (g_update_ops g) xs (at_start initial g) s' -> has_values s' (g_collection g) vs ->
  snd (reset_update_get initial g xs s) = Good vs.
Proof. exact C312_one_by_one_partial_pf. Qed.

Example C312_ex_batch : snd (reset_update_get (fun _ => 0) (sum_graph (Raised ValueError true) 5) [1; 2; 3] [(0, 50)]) = Good [6].
Proof. reflexivity. Qed.

Example C312_ex_one_by_one : snd (reset_update_get (fun _ => 0) (sum_graph (Raised ValueError true) 1) [1; 2; 3] [(0, 50)]) = Good [6].
Proof. reflexivity. Qed.

(** A list refused with an error of TensorFlow, as for want of memory, is not. *)
Theorem C312_one_by_one_refuted : exists f (g : @graph nat nat nat) xs s s' vs, f = ResourceExhausted /\ built (fun _ => 0) g /\
  refused (g_update_ops g) xs (at_start (fun _ => 0) g) f /\
  updated_each (g_update_ops g) xs (at_start (fun _ => 0) g) s' /\ has_values s' (g_collection g) vs /\
  snd (reset_update_get (fun _ => 0) g xs s) = Failed (Raised RuntimeError true).
Proof. exact C312_one_by_one_refuted_pf. Qed.

(* ------------------------------------------------------------------ *)
(** ** Variables set and read *)
(** C313: after the variables of a graph were set, they are read as they were set. *)
Theorem C313_set_variables : forall V X R (initial : nat -> V) (g : @graph V X R) vs s, built initial g -> NoDup (g_collection g) ->
  length vs = length (g_collection g) -> exists s', set_variables g vs s = (s', None) /\ has_values s' (g_collection g) vs /\ get_variables g s' = Good vs.
Proof. exact C313_set_variables_pf. Qed.

Example C313_ex_set : set_variables (sum_graph InvalidArgument 5) [7] [(0, 1)] = ([(0, 7)], None).
Proof. reflexivity. Qed.

Theorem C313_too_few : forall V X R (initial : nat -> V) (g : @graph V X R) vs s, built initial g ->
  (length vs < length (g_collection g))%nat -> exists f, set_variables g vs s = (s, Some f).
Proof. exact C313_too_few_pf. Qed.

Example C313_ex_too_few : set_variables (sum_graph InvalidArgument 5) [] [(0, 1)] = ([(0, 1)], Some InvalidArgument).
Proof. reflexivity. Qed.

(** The values of metrics are by name those of their value ops, read with the variables set. *)
Theorem C313_values : forall V X R (initial : nat -> V) (g : @graph V X R) vs s, built initial g -> NoDup (g_collection g) ->
  length vs = length (g_collection g) -> exists s', has_values s' (g_collection g) vs /\
    forall rs, Forall2 (fun v r => v s' = Good r) (g_value_ops g) rs ->
    exists d, snd (set_and_get g vs s) = Good d /\ map fst d = g_names g /\ map snd d = rs.
Proof. exact C313_values_pf. Qed.

Example C313_ex_values : snd (set_and_get (sum_graph InvalidArgument 5) [7] [(0, 1)]) = Good [("sum", 7)].
Proof. reflexivity. Qed.

(* ------------------------------------------------------------------ *)
(** ** Names *)
Theorem C314_registered : forall V X R (initial : nat -> V) (g : @graph V X R) (l : list (@metric_ops V X R * list nat)) s, built initial g ->
  NoDup (g_names g ++ flat_map (fun c => map fst (fst c)) l) ->
  exists g', register_callbacks initial (map (fun c => plain_callback (fst c) (snd c)) l) g s = ((g', at_start initial g'), None) /\
    g_names g' = g_names g ++ map fst (flat_map fst l) /\ g_value_ops g' = g_value_ops g ++ map (fun o => fst (snd o)) (flat_map fst l) /\
    g_update_ops g' = g_update_ops g ++ map (fun o => snd (snd o)) (flat_map fst l) /\ g_collection g' = g_collection g ++ flat_map snd l.
Proof. exact C314_registered_pf. Qed.

Example C314_ex_registered : exists g' s', register_callbacks (fun _ => 0) [plain_callback [("other", (sum_value, sum_op InvalidArgument 5))] [1]] (sum_graph InvalidArgument 5) [(0, 9)] =
  ((g', s'), None) /\ g_names g' = ["sum"; "other"] /\ s' = [(0, 0); (1, 0)].
Proof. eexists; eexists; split; [reflexivity|split; reflexivity]. Qed.

(** A name that is taken, or given twice, is refused. *)
Theorem C314_taken_names_refused : forall V X R (initial : nat -> V) (g : @graph V X R) (l : list (@metric_ops V X R * list nat)) s,
  (forall c, In c l -> NoDup (map fst (fst c))) -> NoDup (g_names g) ->
  snd (register_callbacks initial (map (fun c => plain_callback (fst c) (snd c)) l) g s) = None ->
  NoDup (g_names g ++ flat_map (fun c => map fst (fst c)) l).
Proof. exact C314_taken_names_refused_pf. Qed.

Example C314_ex_refused : snd (register_callbacks (fun _ => 0) [plain_callback [("sum", (sum_value, sum_op InvalidArgument 5))] [1]] (sum_graph InvalidArgument 5) []) = Some (Raised ValueError true).
Proof. reflexivity. Qed.

(** Callbacks that conflict with one another change neither metrics nor variables read; a name that
    was registered before leaves part of the metrics behind. *)
Theorem C314_refused_unchanged_partial : forall V X R (initial : nat -> V) (g g' : @graph V X R) cs s s' f g1 s1,
  run_callbacks cs g [] = (g1, inr f) -> register_callbacks initial cs g s = ((g', s'), s1) ->
  s1 = Some f /\ s' = s /\ g_names g' = g_names g /\ get_values g' s' = get_values g s /\ get_variables g' s' = get_variables g s.
Proof. exact C314_refused_unchanged_partial_pf. Qed.

Example C314_ex_conflict : let two := plain_callback [("new", (sum_value, sum_op InvalidArgument 5))] [1] in
  exists g1, run_callbacks [two; two] (sum_graph InvalidArgument 5) [] = (g1, inr (Raised ValueError true)).
Proof. eexists; reflexivity. Qed.

Theorem C314_refused_unchanged_refuted : exists (g g' : @graph nat nat nat) cs s s' f, built (fun _ => 0) g /\
  register_callbacks (fun _ => 0) cs g s = ((g', s'), Some f) /\ g_names g' <> g_names g /\
  get_values g s = Good [("sum", 3)] /\ get_values g' s' = Failed OtherOpError.
Proof. exact C314_refused_unchanged_refuted_pf. Qed.

Print Assumptions C312_batches.
Print Assumptions C312_one_by_one_partial.
Print Assumptions C312_one_by_one_refuted.
Print Assumptions C313_set_variables.
Print Assumptions C313_too_few.
Print Assumptions C313_values.
Print Assumptions C314_registered.
Print Assumptions C314_taken_names_refused.
Print Assumptions C314_refused_unchanged_partial.
Print Assumptions C314_refused_unchanged_refuted.
