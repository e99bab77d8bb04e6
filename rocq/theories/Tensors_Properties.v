(* Tensors *)
From Coq Require Import String Ascii Permutation.
From Verif Require Import Base BaseFacts Util_Model Batches_Model Batches_Main Keras_Main Classes_Main Tensors_Model.
From Verif Require Import Tensors_Main.
Local Open Scope string_scope.
Local Open Scope list_scope.

(* ------------------------------------------------------------------ *)
(** ** C272 values and tensors *)
(** Converting values to tensors and back keeps all of them, but for those of variable length. *)
Theorem C272_round_trip :
  forall (V : Type) (known : V -> bool) d t, to_tensorflow_tensors known d None = Ok t ->
    all_leaves (fun v => forall x, v <> VVarLen x) d -> to_tensor_values (on_leaves ATensor t) = d.
Proof. exact C272_round_trip_pf. Qed.

(** Those become sparse values with the same entries. *)
Theorem C272_variable_length :
  forall (V : Type) (known : V -> bool) (x : varlen V) t, to_tensorflow_tensors known (Leaf (VVarLen x)) None = Ok t ->
    exists s, to_tensor_values (on_leaves ATensor t) = Leaf (VSparse s) /\
      combine (sp_indices s) (sp_values s) = combine (map (fun p => [fst p; snd p]) (vl_indices x)) (vl_values x) /\ sp_shape s = vl_shape x /\ length (vl_values x) = length (vl_indices x).
Proof. exact C272_variable_length_pf. Qed.

Theorem C272_variable_length_refuted :
  exists (d : data (tvalue (V := nat))) t, to_tensorflow_tensors (fun _ => true) d None = Ok t /\ to_tensor_values (on_leaves ATensor t) <> d.
Proof. exact C272_variable_length_refuted_pf. Qed.

(** Values stay as they are. *)
Theorem C272_values_kept :
  forall (V : Type) (d : data (tvalue (V := V))), to_tensor_values (on_leaves AValue d) = d.
Proof. exact C272_values_kept_pf. Qed.

Example C272_example :
  let d := Dict [("a", Leaf (VDense (Arr [2; 1] [1; 2]))); ("b", Dict [("c", Leaf (VRagged (Arr [3] [7; 8; 9]) [[0; 2; 3]])); ("d", Leaf (VSparse (SparseT [4] [[0; 1]] [2; 2])))])] in
  exists t, to_tensorflow_tensors (fun _ : nat => true) d None = Ok t /\ to_tensor_values (on_leaves ATensor t) = d /\
    to_tensorflow_tensors (fun _ : nat => true) (Dict [("c", Leaf (VRagged (Arr [3] [7; 8; 9]) [[0; 2]]))]) None = Err ValueError.
Proof. eexists. split; [reflexivity|]. split; reflexivity. Qed.

(* ------------------------------------------------------------------ *)
(** ** C273 tensors for specs *)
(** The tensors are those the specs name, each of the value at the same path. *)
Theorem C273_tensors_of_specs :
  forall (V : Type) (known : V -> bool) s v t, no_empty s -> to_tensorflow_tensors known v (Some s) = Ok t ->
    Forall2 (fun ps pt => fst ps = fst pt /\ exists x, at_path v (fst ps) = Some (Leaf x) /\
               to_tensorflow_tensors known (Leaf x) (Some (Leaf (snd ps))) = Ok (Leaf (snd pt))) (at_paths s) (at_paths t).
Proof. exact C273_tensors_of_specs_pf. Qed.

(** A spec whose value is not there, or is a dictionary, is refused. *)
Theorem C273_missing :
  forall (V : Type) (known : V -> bool) s v p sp, no_empty s -> In (p, sp) (at_paths s) ->
    (forall x, at_path v p <> Some (Leaf x)) -> is_ok (to_tensorflow_tensors known v (Some s)) = false.
Proof. exact C273_missing_pf. Qed.

(** No specs at all - an empty dictionary of them - name all values instead of none. *)
Theorem C273_empty_specs_refuted :
  exists (v : data (tvalue (V := nat))) t, to_tensorflow_tensors (fun _ => true) v (Some (Dict [])) = Ok t /\ at_paths t <> [].
Proof. exact C273_empty_specs_refuted_pf. Qed.

Example C273_example :
  to_tensorflow_tensors (fun _ : nat => true) (Dict [("a", Leaf (VDense (Arr [2] [1; 2]))); ("b", Leaf (VDense (Arr [2] [3; 4])))]) (Some (Dict [("b", Leaf (DenseSpec (Some [None; Some 1])))])) =
    Ok (Dict [("b", Leaf (TDense (Arr [2; 1] [3; 4])))]) /\
  to_tensorflow_tensors (fun _ : nat => true) (Dict [("a", Leaf (VDense (Arr [2] [1; 2])))]) (Some (Dict [("b", Leaf (DenseSpec None))])) = Err ValueError.
Proof. split; reflexivity. Qed.

(* ------------------------------------------------------------------ *)
(** ** C274 shapes of specs *)
(** A dense value is given the shape of its spec but for its first size; its values and its rows
    stay the same. *)
Theorem C274_reshaped :
  forall (V : Type) (known : V -> bool) (a b : arr V) dims n rest, shape a = n :: rest -> product (shape a) = length (items a) ->
    to_tensorflow_tensors known (Leaf (VDense a)) (Some (Leaf (DenseSpec (Some dims)))) = Ok (Leaf (TDense b)) ->
    items b = items a /\ exists rest', shape b = n :: rest' /\ Forall2 (fun o k => o = None \/ o = Some k) (tl dims) rest' /\
      forall i, i < n -> items (row_of rest' (items b) i) = items (row_of rest (items a) i).
Proof. exact C274_reshaped_pf. Qed.

(** It succeeds if the sizes fit. *)
Theorem C274_fits :
  forall (V : Type) (known : V -> bool) (a : arr V) dims n rest, shape a = n :: rest -> product (shape a) = length (items a) -> Forall (fun x => known x = true) (items a) ->
    (count_unknown (tl dims) = 0 /\ known_product (tl dims) = product rest \/
     count_unknown (tl dims) = 1 /\ n <> 0 /\ known_product (tl dims) <> 0 /\ exists q, product rest = q * known_product (tl dims)) ->
    is_ok (to_tensorflow_tensors known (Leaf (VDense a)) (Some (Leaf (DenseSpec (Some dims))))) = true.
Proof. exact C274_fits_pf. Qed.

(** An empty batch is refused where the spec leaves a further size open, though it fits. *)
Theorem C274_empty_batch_refuted :
  exists (a : arr nat) dims, shape a = [0; 3] /\ product (shape a) = length (items a) /\ dims = [None; None] /\
    to_tensorflow_tensors (fun _ => true) (Leaf (VDense a)) (Some (Leaf (DenseSpec (Some dims)))) = Err ValueError /\
    is_ok (to_tensorflow_tensors (fun _ => true) (Leaf (VDense a)) None) = true.
Proof. exact C274_empty_batch_refuted_pf. Qed.

Example C274_example :
  to_tensorflow_tensors (fun _ : nat => true) (Leaf (VDense (Arr [2; 6] [1; 2; 3; 4; 5; 6; 7; 8; 9; 10; 11; 12]))) (Some (Leaf (DenseSpec (Some [None; Some 2; None])))) =
    Ok (Leaf (TDense (Arr [2; 2; 3] [1; 2; 3; 4; 5; 6; 7; 8; 9; 10; 11; 12]))) /\
  to_tensorflow_tensors (fun _ : nat => true) (Leaf (VDense (Arr [2; 1] [1; 2]))) (Some (Leaf (DenseSpec (Some [None; Some 2])))) = Err ValueError.
Proof. split; reflexivity. Qed.

(* ------------------------------------------------------------------ *)
(** ** C275 inferred specs *)
(** Specs inferred from tensors fit the values the tensors are of ... *)
Theorem C275_fit :
  forall (V : Type) (known : V -> bool) d t s, wf_data d -> all_leaves wf_dense d ->
    to_tensorflow_tensors known d None = Ok t -> infer_tensor_specs t = Ok s -> to_tensorflow_tensors known d (Some s) = Ok t.
Proof. exact C275_fit_pf. Qed.

(** ... and values of batches of other sizes. *)
Theorem C275_other_batches :
  forall (V : Type) (known : V -> bool) (a b : arr V) n m rest s, shape a = n :: rest -> shape b = m :: rest -> product (shape b) = length (items b) -> Forall (fun x => known x = true) (items b) ->
    infer_tensor_specs (Leaf (TDense a)) = Ok s -> to_tensorflow_tensors known (Leaf (VDense b)) (Some s) = Ok (Leaf (TDense b)).
Proof. exact C275_other_batches_pf. Qed.

(** The axes of ragged tensors: those that are split have no size in the spec, the axes of the flat
    values after the first keep theirs. *)
Theorem C275_ragged_axes :
  forall (V : Type) (f : arr V) splits s, splits <> [] -> infer_tensor_specs (Leaf (TRagged f splits)) = Ok s ->
    exists sh, s = Leaf (RaggedSpec (Some sh)) /\ (forall i, i <= length splits -> nth_error sh i = Some None) /\
      forall j, 0 < j -> nth_error sh (length splits + j) = option_map Some (nth_error (shape f) j).
Proof. exact C275_ragged_axes_pf. Qed.

Theorem C275_sparse_axes :
  forall (V : Type) (vs : list V) idx n sh s, infer_tensor_specs (Leaf (TSparse vs idx (n :: sh))) = Ok s -> s = Leaf (SparseSpec (Some (None :: map Some sh))).
Proof. exact C275_sparse_axes_pf. Qed.

(** Tensors without rows are refused. *)
Theorem C275_scalars_refused :
  forall (V : Type) (x : V), infer_tensor_specs (Leaf (TDense (Arr [] [x]))) = Err ValueError.
Proof. exact C275_scalars_refused_pf. Qed.

Example C275_example :
  infer_tensor_specs (Dict [("a", Leaf (TDense (Arr [2; 3] [1; 2; 3; 4; 5; 6]))); ("b", Leaf (TRagged (Arr [3; 2] [7; 8; 9; 7; 8; 9]) [[0; 2; 3]]))]) =
    Ok (Dict [("a", Leaf (DenseSpec (Some [None; Some 3]))); ("b", Leaf (RaggedSpec (Some [None; None; Some 2])))]).
Proof. reflexivity. Qed.

(* ------------------------------------------------------------------ *)
(** ** C276 columns of record batches *)
(** Without representations every column is a feature: an array if its lists are all there and of one
    length, None for each if all are missing, and otherwise of variable length. *)
Theorem C276_columns :
  forall (V : Type) sparse_of (b : record_batch (V := V)), NoDup (map fst b) ->
    exists f, record_batch_to_tensor_values sparse_of b [] = Ok f /\ Permutation (map fst f) (map fst b) /\
      forall name c, In (name, c) b -> exists x, dget String.eqb f name = Some x /\ column_value c x.
Proof. exact C276_columns_pf. Qed.

(** A column that misses some of its lists has no None for them: they are empty, as lists of no
    values are. *)
Theorem C276_some_missing_refuted :
  exists (c c' : column (V := nat)) f f', In None c /\ ~ In None c' /\
    record_batch_to_tensor_values (fun _ _ _ => Err ValueError) [("a", c)] [] = Ok f /\
    record_batch_to_tensor_values (fun _ _ _ => Err ValueError) [("a", c')] [] = Ok f' /\ f = f'.
Proof. exact C276_some_missing_refuted_pf. Qed.

Example C276_example :
  record_batch_to_tensor_values (fun _ _ _ => Err ValueError) [("a", [Some [1; 2]; Some [3; 4]]); ("b", [None; None]); ("c", [Some [5; 6]; Some [7]]); ("d", [None; Some [8]])] [] =
    Ok [("b", AllNone 2); ("a", Values (VDense (Arr [2; 2] [1; 2; 3; 4]))); ("c", Values (VVarLen (VarLen [5; 6; 7] [(0, 0); (0, 1); (1, 0)] [2; 2])));
        ("d", Values (VVarLen (VarLen [8] [(1, 0)] [2; 1])))].
Proof. reflexivity. Qed.

(* ------------------------------------------------------------------ *)
(** ** C277 given representations *)
(** With representations the features are the columns and the sparse representations whose columns
    are all there; a column is as the representation of its name says, or as without if there is none. *)
Theorem C277_representations :
  forall (V : Type) sparse_of (b : record_batch (V := V)) reps f, NoDup (map fst b) -> NoDup (map fst reps) ->
    record_batch_to_tensor_values sparse_of b reps = Ok f ->
    NoDup (map fst f) /\ (forall name, In name (map fst f) <-> In name (map fst b) \/ complete b reps name) /\
    (forall name r, In (name, r) reps -> In name (map fst f) -> exists x, dget String.eqb f name = Some x /\ represented sparse_of b r x) /\
    forall name c, In (name, c) b -> ~ In name (map fst reps) -> exists x, dget String.eqb f name = Some x /\ column_value c x.
Proof. exact C277_representations_pf. Qed.

(** A list that is missing, or not of as many values as the shape has, is refused. *)
Theorem C277_misfit :
  forall (V : Type) sparse_of (b : record_batch (V := V)) reps name col dims c o, NoDup (map fst b) -> NoDup (map fst reps) ->
    In (name, DenseRep col dims) reps -> In name (map fst b) -> In (col, c) b -> In o c -> (forall l, o = Some l -> length l <> product dims) ->
    record_batch_to_tensor_values sparse_of b reps = Err ValueError.
Proof. exact C277_misfit_pf. Qed.

(** A representation, other than a sparse one, whose name is that of no column is left out, though
    its own column is there. *)
Theorem C277_renamed_refuted :
  exists (b : record_batch (V := nat)) name col dims f, In col (map fst b) /\
    record_batch_to_tensor_values (fun _ _ _ => Err ValueError) b [(name, DenseRep col dims)] = Ok f /\ dget String.eqb f name = None.
Proof. exact C277_renamed_refuted_pf. Qed.

Example C277_example :
  record_batch_to_tensor_values (fun _ _ _ => Ok (VDense (Arr [1] [7]))) [("a", [Some [1; 2; 3; 4]]); ("b", [Some [5]]); ("c", [Some [6; 7]])]
      [("a", DenseRep "a" [2; 2]); ("c", RaggedRep ["c"]); ("s", SparseRep ["a"] "b"); ("t", SparseRep ["z"] "b")] =
    Ok [("a", Values (VDense (Arr [1; 2; 2] [1; 2; 3; 4]))); ("b", Values (VDense (Arr [1; 1] [5]))); ("c", Values (VRagged (Arr [2] [6; 7]) [[0; 2]])); ("s", Values (VDense (Arr [1] [7])))].
Proof. reflexivity. Qed.

(* ------------------------------------------------------------------ *)
(** ** C278 representations of specs *)
(** Each input has the representation of its kind, of the column of its name. *)
Theorem C278_representations :
  forall specs reps, input_specs_to_tensor_representations specs = Ok reps <->
    Forall2 (fun s r => fst s = fst r /\ spec_fits (snd s) (fst s) (snd r)) specs reps.
Proof. exact C278_representations_pf. Qed.

(** Sizes that are not known are refused, for inputs that are dense. *)
Theorem C278_unknown_sizes :
  forall specs name dims, In (name, DenseSpec dims) specs -> (forall ds, dims <> Some ds \/ In None (tl ds)) ->
    input_specs_to_tensor_representations specs = Err ValueError.
Proof. exact C278_unknown_sizes_pf. Qed.

(** The shape of a sparse input is not asked for: whatever has more than two sizes, too, gets a
    value of two. *)
Theorem C278_sparse_rank_refuted :
  exists specs reps f dims t, specs = [("a", SparseSpec (Some dims))] /\ length dims = 3 /\ input_specs_to_tensor_representations specs = Ok reps /\
    record_batch_to_tensor_values (V := nat) (fun _ _ _ => Err ValueError) [("a", [Some [1; 2]])] reps = Ok f /\ dget String.eqb f "a" = Some (Values (VVarLen t)) /\ length (vl_shape t) = 2.
Proof. exact C278_sparse_rank_refuted_pf. Qed.

Example C278_example :
  input_specs_to_tensor_representations [("a", DenseSpec (Some [None; Some 2; Some 3])); ("b", SparseSpec None); ("c", RaggedSpec None); ("d", DenseSpec (Some []))] =
    Ok [("a", DenseRep "a" [2; 3]); ("b", VarLenRep "b"); ("c", RaggedRep ["c"]); ("d", DenseRep "d" [])] /\
  input_specs_to_tensor_representations [("a", DenseSpec (Some [None; None]))] = Err ValueError.
Proof. split; reflexivity. Qed.

(* ------------------------------------------------------------------ *)
(** ** C279 from record batches to the inputs of models *)
(** For inputs that are dense and whose sizes are known the tensors given to the model are the
    lists of the columns, whatever other columns there are. *)
Theorem C279_inputs :
  forall (V : Type) (known : V -> bool) sparse_of (b : record_batch (V := V)) (inputs : list (string * list nat)) specs,
    NoDup (map fst b) -> NoDup (map fst inputs) -> inputs <> [] -> specs = map (fun nd => (fst nd, DenseSpec (Some (None :: map Some (snd nd))))) inputs ->
    (forall name dims, In (name, dims) inputs -> exists c, In (name, c) b /\
       forall o, In o c -> exists l, o = Some l /\ length l = product dims /\ forall x, In x l -> known x = true) ->
    exists reps f, input_specs_to_tensor_representations specs = Ok reps /\ record_batch_to_tensor_values sparse_of b reps = Ok f /\
      forall values, (forall name v, dget String.eqb f name = Some (Values v) -> dget String.eqb values name = Some (Leaf v)) ->
        exists t, to_tensorflow_tensors known (Dict values) (Some (Dict (map (fun ns => (fst ns, Leaf (snd ns))) specs))) = Ok (Dict t) /\
          map fst t = map fst inputs /\
          forall name dims c, In (name, dims) inputs -> In (name, c) b -> exists a, dget String.eqb t name = Some (Leaf (TDense a)) /\
            shape a = length c :: dims /\ length (items a) = length c * product dims /\
            forall i j, i < length c -> j < product dims -> nth_error (items a) (i * product dims + j) = value_at c i j.
Proof. exact C279_inputs_pf. Qed.

Example C279_example :
  exists reps f, input_specs_to_tensor_representations [("a", DenseSpec (Some [None; Some 2; Some 1]))] = Ok reps /\
    record_batch_to_tensor_values (fun _ _ _ => Err ValueError) [("a", [Some [1; 2]; Some [3; 4]]); ("b", [Some [5]; None])] reps = Ok f /\
    to_tensorflow_tensors (fun _ : nat => true) (Dict (flat_map (fun nx => match snd nx with Values v => [(fst nx, Leaf v)] | AllNone _ => [] end) f))
      (Some (Dict [("a", Leaf (DenseSpec (Some [None; Some 2; Some 1])))])) = Ok (Dict [("a", Leaf (TDense (Arr [2; 2; 1] [1; 2; 3; 4])))]).
Proof. eexists. eexists. split; [reflexivity|]. split; reflexivity. Qed.

Print Assumptions C272_round_trip.
Print Assumptions C272_variable_length.
Print Assumptions C272_variable_length_refuted.
Print Assumptions C272_values_kept.
Print Assumptions C273_tensors_of_specs.
Print Assumptions C273_missing.
Print Assumptions C273_empty_specs_refuted.
Print Assumptions C274_reshaped.
Print Assumptions C274_fits.
Print Assumptions C274_empty_batch_refuted.
Print Assumptions C275_fit.
Print Assumptions C275_other_batches.
Print Assumptions C275_ragged_axes.
Print Assumptions C275_sparse_axes.
Print Assumptions C275_scalars_refused.
Print Assumptions C276_columns.
Print Assumptions C276_some_missing_refuted.
Print Assumptions C277_representations.
Print Assumptions C277_misfit.
Print Assumptions C277_renamed_refuted.
Print Assumptions C278_representations.
Print Assumptions C278_unknown_sizes.
Print Assumptions C278_sparse_rank_refuted.
Print Assumptions C279_inputs.
