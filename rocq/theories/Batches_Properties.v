(* Batches *)
From Coq Require Import String Ascii Permutation.
From Verif Require Import Base BaseFacts BeamFacts Slicer_Model Util_Model Inputs_Model Batches_Model.
From Verif Require Import Batches_Main.
Local Open Scope string_scope.
Local Open Scope list_scope.

(* ------------------------------------------------------------------ *)
(** ** Variable length values *)
Theorem C127_rows_of_constructed_values : forall (V : Type) (values : list V) (indices : list (nat * nat)) rows columns t,
  length values = length indices -> indices <> [] ->
  mk_varlen values indices [rows; columns] = Ok t ->
  exists l, dense_rows t = Ok l /\ length l = rows /\
    forall i row, nth_error l i = Some row ->
      row = Arr [length (values_in_row t i)] (values_in_row t i).
Proof. exact C127_rows_of_constructed_values_pf. Qed.

Theorem C127_constructor_accepts : forall (V : Type) (values : list V) indices dense_shape,
  is_ok (mk_varlen values indices dense_shape) = true <->
  length dense_shape = 2 /\
  forall i a b, nth_error indices i = Some a -> nth_error indices (S i) = Some b -> not_after a b.
Proof. exact C127_constructor_accepts_pf. Qed.

Example C127_example :
  let t := VarLen ["a"; "b"; "c"] [(0, 0); (2, 0); (2, 5)] [4; 6] in
  mk_varlen ["a"; "b"; "c"] [(0, 0); (2, 0); (2, 5)] [4; 6] = Ok t /\
  dense_rows t = Ok [Arr [1] ["a"]; Arr [0] []; Arr [2] ["b"; "c"]; Arr [0] []] /\
  mk_varlen ["a"; "b"] [(1, 0); (0, 0)] [2; 1] = Err ValueError.
Proof. repeat apply conj; reflexivity. Qed.

(* ------------------------------------------------------------------ *)
(** ** Packing rows *)
Theorem C44_rows_round_trip_partial : forall (V : Type) (rows : list (arr V)),
  Forall one_dim rows -> Exists (fun r => items r <> []) rows ->
  exists t, from_dense_rows rows = Ok t /\ dense_rows t = Ok rows /\
    vl_shape t = [length rows; list_max (map (fun r => length (items r)) rows)].
Proof. exact C44_rows_round_trip_partial_pf. Qed.

Theorem C44_rows_all_empty_lost_refuted : exists rows : list (arr nat), Forall one_dim rows /\
  (exists t, from_dense_rows rows = Ok t /\ vl_shape t = [2; 0] /\ dense_rows t = Ok []) /\ length rows = 2.
Proof. exact C44_rows_all_empty_lost_refuted_pf. Qed.

Example C44_example :
  let rows := [Arr [2] [5; 6]; Arr [0] []; Arr [1] [7]] in
  from_dense_rows rows = Ok (VarLen [5; 6; 7] [(0, 0); (0, 1); (2, 0)] [3; 2]) /\
  dense_rows (VarLen [5; 6; 7] [(0, 0); (0, 1); (2, 0)] [3; 2]) = Ok rows.
Proof. split; reflexivity. Qed.

(* ------------------------------------------------------------------ *)
(** ** Examples of a batch *)
(* ------------------------------------------------------------------ *)
(** ** Splitting and merging one value *)
(* ------------------------------------------------------------------ *)
(** ** Paths in nested dictionaries *)
(* ------------------------------------------------------------------ *)
(** ** The leaves of extracts *)
(* ------------------------------------------------------------------ *)
(** ** Splitting *)
(* ------------------------------------------------------------------ *)
(** ** Merging *)
(* ------------------------------------------------------------------ *)
(** ** Splitting a batch *)
Theorem C128_split_gives_examples_partial : forall (V : Type) n (e : list (string * data (leaf V))) keep_batch_dim expand_zero_dims,
  batch n e ->
  exists rs, split_extracts e keep_batch_dim expand_zero_dims = Ok rs /\ length rs = n /\
    forall i d, nth_error rs i = Some d ->
      (forall p v, leaf_at (Dict e) p = Some v ->
         exists w, leaf_at (Dict d) p = Some w /\ example_of keep_batch_dim expand_zero_dims i v w) /\
      (forall p w, leaf_at (Dict d) p = Some w -> exists v, leaf_at (Dict e) p = Some v).
Proof. exact C128_split_gives_examples_partial_pf. Qed.

Theorem C128_empty_rows_are_lost_refuted : exists (e : list (string * data (leaf nat))) t rs,
  leaf_at (Dict e) ["tags"] = Some (Var t) /\ from_dense_rows [Arr [0] []; Arr [0] []] = Ok t /\
  batch_size (Dict e) = Ok (Some 2) /\
  split_extracts e false true = Ok rs /\ length rs = 2 /\
  forall d, In d rs -> leaf_at (Dict d) ["tags"] = None.
Proof. exact C128_empty_rows_are_lost_refuted_pf. Qed.

Example C128_example : batch 2 sample_batch /\
  split_extracts sample_batch false true =
  Ok [[("features", Dict [("a", Leaf (Dense (Arr [2] [1; 2]))); ("tags", Leaf (Dense (Arr [0] [])))]);
       ("labels", Leaf (Dense (Arr [1] [5]))); ("s", Leaf (Sparse (SparseT [9] [[3]] [4]))); ("weights", Leaf PyNone)];
      [("features", Dict [("a", Leaf (Dense (Arr [2] [3; 4]))); ("tags", Leaf (Dense (Arr [2] [7; 8])))]);
       ("labels", Leaf (Dense (Arr [1] [6]))); ("s", Leaf (Sparse (SparseT [10] [[1]] [4]))); ("weights", Leaf PyNone)]].
Proof. split; [exact sample_ok|reflexivity]. Qed.

(* ------------------------------------------------------------------ *)
(** ** Splitting and merging *)
Theorem C129_split_merge_round_trip_partial : forall (V : Type) n (e : list (string * data (leaf V))),
  1 <= n -> regular_batch n e ->
  exists rs e', split_extracts e false false = Ok rs /\ merge_extracts rs false = Ok e' /\ length rs = n /\
    forall p, leaf_at e' p = leaf_at (Dict e) p.
Proof. exact C129_split_merge_round_trip_partial_pf. Qed.

Theorem C129_default_options_partial : forall (V : Type) n (e : list (string * data (leaf V))),
  1 <= n -> regular_batch n e ->
  exists rs e', split_extracts e false true = Ok rs /\ merge_extracts rs true = Ok e' /\ length rs = n /\
    forall p, leaf_at e' p = match leaf_at (Dict e) p with
                             | Some (Dense (Arr [m; 1] l)) => Some (Dense (Arr [m] l))
                             | v => v
                             end.
Proof. exact C129_default_options_partial_pf. Qed.

Theorem C129_equal_rows_become_dense_refuted : exists (e : list (string * data (leaf nat))) t rs e',
  from_dense_rows [Arr [2] [1; 2]; Arr [2] [3; 4]] = Ok t /\ leaf_at (Dict e) ["x"] = Some (Var t) /\
  split_extracts e false false = Ok rs /\ merge_extracts rs false = Ok e' /\
  leaf_at e' ["x"] = Some (Dense (Arr [2; 2] [1; 2; 3; 4])).
Proof. exact C129_equal_rows_become_dense_refuted_pf. Qed.

Example C129_example : regular_batch 2 sample_batch /\
  (let! rs := split_extracts sample_batch false false in merge_extracts rs false) =
  Ok (Dict [("features", Dict [("a", Leaf (Dense (Arr [2; 2] [1; 2; 3; 4])));
                      ("tags", Leaf (Var (VarLen [7; 8] [(1, 0); (1, 1)] [2; 2])))]);
            ("labels", Leaf (Dense (Arr [2] [5; 6])));
            ("s", Leaf (Sparse (SparseT [9; 10] [[0; 3]; [1; 1]] [2; 4])));
            ("weights", Leaf PyNone)]) /\
  (let! rs := split_extracts [("x", Leaf (Dense (Arr [2; 1] [1; 2])))] false true in merge_extracts rs true) =
  Ok (Dict [("x", Leaf (Dense (Arr [2] [1; 2])))]).
Proof.
  split; [|split; reflexivity]. split; [exact sample_wf|]. split.
  - intros p v H. apply In_leaves in H; [|exact sample_wf]. cbn in H.
    destruct H as [H|[H|[H|[H|[H|[]]]]]]; injection H as <- <-; cbn [regular].
    + split; [reflexivity|]. exists [2]. reflexivity.
    + exists [Arr [0] []; Arr [2] [7; 8]]. repeat apply conj; try reflexivity; [repeat constructor|].
      exists (Arr [0] []), (Arr [2] [7; 8]). repeat apply conj; [left; reflexivity|right; left; reflexivity|discriminate].
    + split; [reflexivity|]. exists []. reflexivity.
    + exact I.
    + split; [reflexivity|]. split; [cbn; auto|]. exists [4]. split; [reflexivity|]. repeat constructor.
  - exists ["labels"], (Dense (Arr [2] [5; 6])). split; [reflexivity|discriminate].
Qed.

(* ------------------------------------------------------------------ *)
(** ** Merging and splitting *)
Theorem C130_merge_split_round_trip : forall (V : Type) (es : list (list (string * data (leaf V)))),
  (forall d, In d es -> wf_data (Dict d)) -> same_structure es ->
  (forall d p v, In d es -> leaf_at (Dict d) p = Some v -> exists l, v = Dense (Arr [length l] l)) ->
  (exists d p v, In d es /\ leaf_at (Dict d) p = Some v) ->
  exists e rs, merge_extracts es true = Ok (Dict e) /\ split_extracts e false true = Ok rs /\ length rs = length es /\
    forall i d r, nth_error es i = Some d -> nth_error rs i = Some r ->
      forall p, leaf_at (Dict r) p =
        if existsb (fun d' => match leaf_at (Dict d') p with Some _ => true | None => false end) es
        then Some (match leaf_at (Dict d) p with Some v => v | None => Dense (Arr [0] []) end)
        else None.
Proof. exact C130_merge_split_round_trip_pf. Qed.

Example C130_example :
  let es := [[("a", Leaf (Dense (Arr [2] [1; 2]))); ("b", Leaf (Dense (Arr [1] [5])))]; [("b", Leaf (Dense (Arr [1] [6])))]] in
  merge_extracts es true = Ok (Dict [("a", Leaf (Var (VarLen [1; 2] [(0, 0); (0, 1)] [2; 2]))); ("b", Leaf (Dense (Arr [2] [5; 6])))]) /\
  (let! e := merge_extracts es true in match e with Dict e => split_extracts e false true | _ => Err TypeError end) =
  Ok [[("a", Leaf (Dense (Arr [2] [1; 2]))); ("b", Leaf (Dense (Arr [1] [5])))];
      [("a", Leaf (Dense (Arr [0] []))); ("b", Leaf (Dense (Arr [1] [6])))]].
Proof. split; reflexivity. Qed.

(* ------------------------------------------------------------------ *)
(** ** The batch size *)
Theorem C131_batch_size : forall (V : Type) (e : data (leaf V)), wf_data e ->
  match batch_size e with
  | Ok (Some n) => (exists p v, leaf_at e p = Some v /\ v <> PyNone) /\
                   forall p v, leaf_at e p = Some v -> v <> PyNone -> first_dim v = n
  | Ok None => forall p v, leaf_at e p = Some v -> v = PyNone
  | Err x => x = ValueError /\
             exists p v q w, leaf_at e p = Some v /\ leaf_at e q = Some w /\ v <> PyNone /\ w <> PyNone /\ first_dim v <> first_dim w
  end.
Proof. exact C131_batch_size_pf. Qed.

Theorem C131_size_is_number_of_examples : forall (V : Type) n (e : list (string * data (leaf V))) keep_batch_dim expand_zero_dims rs,
  batch n e -> split_extracts e keep_batch_dim expand_zero_dims = Ok rs -> batch_size (Dict e) = Ok (Some (length rs)).
Proof. exact C131_size_is_number_of_examples_pf. Qed.

Example C131_example : batch_size (Dict sample_batch) = Ok (Some 2) /\
  batch_size (Dict [("a", Leaf (Dense (Arr [2] [1; 2]))); ("b", Dict [("c", Leaf (Dense (Arr [3; 1] [1; 2; 3])))])]) = Err ValueError /\
  batch_size (Dict [("a", Leaf (@PyNone nat)); ("b", Dict [])]) = Ok None.
Proof. repeat split. Qed.

(* ------------------------------------------------------------------ *)
(** ** Unbatching *)
Theorem C132_unbatching : forall (V : Type) n (m : list (string * entry V)), 1 <= n -> mixed_batch n m ->
  exists rs, extract_unbatched_inputs m = Ok rs /\ length rs = n /\
    forall i d, nth_error rs i = Some d ->
      dget String.eqb d "arrow_record_batch" = None /\
      (forall k, dget String.eqb m k = None -> dget String.eqb d k = None) /\
      forall k en, In (k, en) m -> k <> "arrow_record_batch" ->
        match en with
        | Legacy l => dget String.eqb d k = nth_error l i
        | Batched e => (forall p v, leaf_at e p = Some v ->
                          exists w, leaf_at (Dict d) (k :: p) = Some w /\ example_of false true i v w) /\
                       (forall p w, leaf_at (Dict d) (k :: p) = Some w -> exists v, leaf_at e p = Some v)
        end.
Proof. exact C132_unbatching_pf. Qed.

Theorem C132_columns_only : forall (V : Type) n (m : list (string * entry V)), 1 <= n ->
  NoDup (map fst m) -> (forall k en, In (k, en) m -> k <> "arrow_record_batch" -> exists l, en = Legacy l /\ length l = n) ->
  (exists k en, In (k, en) m /\ k <> "arrow_record_batch") ->
  exists rs, extract_unbatched_inputs m = Ok rs /\ length rs = n /\
    forall i d, nth_error rs i = Some d -> forall k,
      dget String.eqb d k = if String.eqb k "arrow_record_batch" then None
                            else match dget String.eqb m k with Some (Legacy l) => nth_error l i | _ => None end.
Proof. exact C132_columns_only_pf. Qed.

Theorem C132_unequal_columns_refused : forall (V : Type) (m : list (string * entry V)) k l k' l',
  In (k, Legacy l) m -> k <> "arrow_record_batch" -> In (k', Legacy l') m -> k' <> "arrow_record_batch" ->
  length l <> length l' -> is_ok (extract_unbatched_inputs m) = false.
Proof. exact C132_unequal_columns_refused_pf. Qed.

Example C132_example :
  extract_unbatched_inputs [("input", Legacy [Leaf (Dense (Arr [] [1])); Leaf (Dense (Arr [] [2]))]);
                            ("arrow_record_batch", Batched (Leaf PyNone));
                            ("labels", Batched (Leaf (Dense (Arr [2; 1] [3; 4]))))] =
  Ok [[("input", Leaf (Dense (Arr [] [1]))); ("labels", Leaf (Dense (Arr [1] [3])))];
      [("input", Leaf (Dense (Arr [] [2]))); ("labels", Leaf (Dense (Arr [1] [4])))]] /\
  extract_unbatched_inputs [("input", Legacy [Leaf (Dense (Arr [] [1])); Leaf (Dense (Arr [] [2]))]);
                            ("labels", Batched (Leaf (Dense (Arr [3; 1] [3; 4; 5]))))] = Err ValueError.
Proof. split; reflexivity. Qed.

(* ------------------------------------------------------------------ *)
(** ** Key paths *)
Theorem C133_copy_and_set : forall (A : Type) (root value : data A) keypath, keypath <> [] ->
  (free root keypath -> exists r, copy_and_set_by_keys root keypath value = Ok r /\ at_path r keypath = Some value /\
     forall q, leaf_at r q = looked_up root value keypath q) /\
  (~ free root keypath -> copy_and_set_by_keys root keypath value = Err ValueError).
Proof. exact C133_copy_and_set_pf. Qed.

Example C133_example :
  copy_and_set_by_keys (Dict [("labels", Dict [("m1", Leaf 1)])]) ["labels"; "m2"; "o"] (Leaf 2) =
  Ok (Dict [("labels", Dict [("m1", Leaf 1); ("m2", Dict [("o", Leaf 2)])])]) /\
  copy_and_set_by_keys (Dict [("labels", Dict [("m1", Leaf 1)])]) ["labels"; "m1"; "o"] (Leaf 2) = Err ValueError /\
  free (Dict [("labels", Dict [("m1", Leaf 1)])]) ["labels"; "m2"; "o"] /\ ~ free (Dict [("labels", Dict [("m1", Leaf 1)])]) ["labels"; "m1"; "o"].
Proof.
  split; [reflexivity|]. split; [reflexivity|]. split.
  - intros [|q1 [|q2 [|q3 [|q4 q]]]] k r E; try discriminate; injection E; intros; subst; discriminate.
  - intros F. apply (F ["labels"; "m1"] "o" [] eq_refl). reflexivity.
Qed.

(* ------------------------------------------------------------------ *)
(** ** Standard extracts *)
Theorem C134_set_then_get : forall (A : Type) (e : list (string * data A)) key value model_name output_name,
  named model_name -> named output_name ->
  (free (Dict e) (key :: names model_name output_name) ->
     exists e', set_by_key e key value model_name output_name = Ok (Dict e') /\
       (value <> Dict [] -> get_by_key e' key model_name output_name = Ok (Some value)) /\
       (forall k m o, k <> key -> get_by_key e' k m o = get_by_key e k m o) /\
       (forall q, leaf_at (Dict e') q = looked_up (Dict e) value (key :: names model_name output_name) q)) /\
  (~ free (Dict e) (key :: names model_name output_name) -> set_by_key e key value model_name output_name = Err RuntimeError).
Proof. exact C134_set_then_get_pf. Qed.

Theorem C134_other_models_keep_theirs : forall (A : Type) (e e' : list (string * data A)) key value m m' v,
  m <> "" -> m' <> m -> set_by_key e key value (Some m) None = Ok (Dict e') ->
  at_path (Dict e) [key; m'] = Some v -> v <> Dict [] -> get_by_key e' key (Some m') None = Ok (Some v).
Proof. exact C134_other_models_keep_theirs_pf. Qed.

Theorem C134_shared_value : forall (A : Type) (e : list (string * data A)) key v m o,
  dget String.eqb e key = Some v ->
  match v with Leaf _ => True | Dict d => unnamed d m /\ unnamed d o end ->
  get_by_key e key (Some m) (Some o) = Ok (Some v).
Proof. exact C134_shared_value_pf. Qed.

Example C134_example :
  set_by_key [("labels", Leaf 0); ("predictions", Dict [("m1", Leaf 1)])] "predictions" (Leaf 2) (Some "m2") (Some "o") =
  Ok (Dict [("labels", Leaf 0); ("predictions", Dict [("m1", Leaf 1); ("m2", Dict [("o", Leaf 2)])])]) /\
  get_by_key [("labels", Leaf 0); ("predictions", Dict [("m1", Leaf 1); ("m2", Dict [("o", Leaf 2)])])] "predictions" (Some "m2") (Some "o") = Ok (Some (Leaf 2)) /\
  get_by_key [("labels", Leaf 0); ("predictions", Dict [("m1", Leaf 1); ("m2", Dict [("o", Leaf 2)])])] "labels" (Some "m2") (Some "o") = Ok (Some (Leaf 0)) /\
  set_by_key [("labels", Leaf 0); ("predictions", Dict [("m1", Leaf 1)])] "predictions" (Leaf 2) (Some "m1") (Some "o") = Err RuntimeError.
Proof. repeat split. Qed.

(* ------------------------------------------------------------------ *)
(** ** The models and outputs of extracts *)
Theorem C135_listed_models_and_outputs_partial : forall (A : Type) config (e d : list (string * data A)),
  dget String.eqb e "predictions" = Some (Dict d) -> wf_data (Dict d) ->
  forall m o, In (m, o) (get_model_and_output_names config e) <->
    exists p v, leaf_at (Dict d) p = Some v /\
      match p with
      | [k] => is_model_name config k /\ m = Some k /\ o = None \/ ~ is_model_name config k /\ m = None /\ o = Some k
      | [k; k'] => m = Some k /\ o = Some k'
      | _ => False
      end.
Proof. exact C135_listed_models_and_outputs_partial_pf. Qed.

Theorem C135_listed_can_be_got : forall (A : Type) config (e d : list (string * data A)) m o,
  dget String.eqb e "predictions" = Some (Dict d) -> wf_data (Dict d) ->
  In (m, o) (get_model_and_output_names config e) ->
  exists v, leaf_at (Dict d) (names m o) = Some v /\ get_by_key e "predictions" m o = Ok (Some (Leaf v)).
Proof. exact C135_listed_can_be_got_pf. Qed.

Theorem C135_outputs_with_several_tensors_not_listed_refuted : exists (e : list (string * data nat)) v,
  set_by_key [] "predictions" v (Some "model") (Some "output") = Ok (Dict e) /\
  get_by_key e "predictions" (Some "model") (Some "output") = Ok (Some v) /\
  get_model_and_output_names ["model"] e = [].
Proof. exact C135_outputs_with_several_tensors_not_listed_refuted_pf. Qed.

Example C135_example :
  get_model_and_output_names ["m1"; "m2"] [("predictions", Dict [("m1", Leaf 1); ("m2", Dict [("o1", Leaf 2); ("o2", Leaf 3)])])] =
  [(Some "m1", None); (Some "m2", Some "o1"); (Some "m2", Some "o2")] /\
  get_model_and_output_names [] [("predictions", Dict [("o1", Leaf 1); ("o2", Leaf 2)])] = [(None, Some "o1"); (None, Some "o2")] /\
  get_model_and_output_names [] [("predictions", Leaf 1)] = [(None, None)].
Proof. repeat split. Qed.

(** An array without dimensions is no batch: extracts that have one anywhere are refused. *)
Theorem C128_scalars_refused : forall (V : Type) (e : list (string * data (leaf V))) p a keep_batch_dim expand_zero_dims,
  wf_data (Dict e) -> leaf_at (Dict e) p = Some (Dense a) -> shape a = [] -> is_ok (split_extracts e keep_batch_dim expand_zero_dims) = false.
Proof. exact C128_scalars_refused_pf. Qed.

Example C128_ex_scalar : is_ok (split_extracts [("x", Leaf (Dense (Arr [2] [4; 5]))); ("y", Leaf (Dense (Arr [] [7])))] false true) = false /\
  is_ok (split_extracts [("x", Leaf (Dense (Arr [2] [4; 5]))); ("y", Leaf (Dense (Arr [2] [7; 8])))] false true) = true.
Proof. split; reflexivity. Qed.

Print Assumptions C127_rows_of_constructed_values.
Print Assumptions C127_constructor_accepts.
Print Assumptions C44_rows_round_trip_partial.
Print Assumptions C44_rows_all_empty_lost_refuted.
Print Assumptions C128_split_gives_examples_partial.
Print Assumptions C128_empty_rows_are_lost_refuted.
Print Assumptions C129_split_merge_round_trip_partial.
Print Assumptions C129_default_options_partial.
Print Assumptions C129_equal_rows_become_dense_refuted.
Print Assumptions C130_merge_split_round_trip.
Print Assumptions C131_batch_size.
Print Assumptions C131_size_is_number_of_examples.
Print Assumptions C132_unbatching.
Print Assumptions C132_columns_only.
Print Assumptions C132_unequal_columns_refused.
Print Assumptions C133_copy_and_set.
Print Assumptions C134_set_then_get.
Print Assumptions C134_other_models_keep_theirs.
Print Assumptions C134_shared_value.
Print Assumptions C135_listed_models_and_outputs_partial.
Print Assumptions C135_listed_can_be_got.
Print Assumptions C135_outputs_with_several_tensors_not_listed_refuted.
Print Assumptions C128_scalars_refused.
