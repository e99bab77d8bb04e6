(* Model of batches of extracts: api/types.py 60-213 (variable length and sparse values),
   utils/util.py 392-436 (batch size), 561-655 (setting values by key paths), 877-1117
   (merging and splitting extracts), 1120-1359 (StandardExtracts), and
   extractors/unbatch_extractor.py. *)
From Coq Require Import String Ascii.
From Verif Require Import Base Slicer_Model Util_Model Inputs_Model.
Local Open Scope string_scope.
Local Open Scope list_scope.

Section Batches.
  (** Scalars; the data types of arrays are not modelled. *)
  Context {V : Type}.

  (* ------------------------------------------------------------------ *)
  (** * Values: api/types.py *)

  (** NumPy arrays: shape and items in row-major order. *)
  Record arr := Arr { shape : list nat; items : list V }.
  (** types.py 60-76 *)
  Record sparse := SparseT { sp_values : list V; sp_indices : list (list nat); sp_shape : list nat }.
  (** 78-98; the indices array has two columns *)
  Record varlen := VarLen { vl_values : list V; vl_indices : list (nat * nat); vl_shape : list nat }.

  (** 114-116: the differences of neighbours are not negative, in the row first *)
  Fixpoint row_major (l : list (nat * nat)) : bool :=
    match l with
    | a :: ((b :: _) as t) =>
        negb (Nat.ltb (fst b) (fst a) || (Nat.eqb (fst b) (fst a) && Nat.ltb (snd b) (snd a)))
        && row_major t
    | _ => true
    end.
  (** 100-128 [VarLenTensorValue.__new__] *)
  Definition mk_varlen (values : list V) (indices : list (nat * nat)) (dense_shape : list nat) : res varlen :=
    if negb (Nat.eqb (length dense_shape) 2) then Err ValueError
    else if negb (row_major indices) then Err ValueError
    else Ok (VarLen values indices dense_shape).

  (** np.nonzero(mask)[0] *)
  Definition nonzero (mask : list bool) : list nat :=
    map fst (filter snd (combine (seq 0 (length mask)) mask)).
  (** 145-169 [DenseRowIterator.__next__], for offset [i] *)
  Definition dense_row (t : varlen) (i : nat) : res arr :=
    match nonzero (map (fun p => Nat.eqb (fst p) i) (vl_indices t)) with
    | [] => Ok (Arr [0] [])
    | start :: l =>
        let stop := S (last l start) in
        if Nat.eqb (stop - start) (S (length l)) then
          let row := firstn (stop - start) (skipn start (vl_values t)) in
          Ok (Arr [length row] row)
        else Err AssertionError
    end.
  (** 138-172 [dense_rows] *)
  Definition dense_rows (t : varlen) : res (list arr) :=
    match vl_indices t with
    | [] => Ok []
    | _ => mapM (dense_row t) (seq 0 (hd 0 (vl_shape t)))
    end.

  (** 174-213 [from_dense_rows]: the values and indices of each row *)
  Definition row_entries (i : nat) (row : arr) : res (list V * list (nat * nat)) :=
    match items row with
    | [] => Ok ([], [])
    | _ => if Nat.leb (length (shape row)) 1
           then Ok (items row, map (pair i) (seq 0 (length (items row))))
           else Err ValueError
    end.
  Definition from_dense_rows (rows : list arr) : res varlen :=
    let! es := mapM (fun ir => row_entries (fst ir) (snd ir)) (combine (seq 0 (length rows)) rows) in
    mk_varlen (concat (map fst es)) (concat (map snd es))
              [length rows; fold_left (fun m r => Nat.max m (length (items r))) rows 0].

  (* ------------------------------------------------------------------ *)
  (** * Splitting: utils/util.py 994-1117 *)

  (** Leaves of extracts.  Ragged tensors, lists and other Python objects are not modelled. *)
  Inductive leaf := Dense (a : arr) | Var (t : varlen) | Sparse (s : sparse) | PyNone.
  Definition extracts := data leaf.

  Definition product (s : list nat) : nat := fold_right Nat.mul 1 s.
  (** values[i] of an array with the shape n :: rest *)
  Definition row_of (rest : list nat) (l : list V) (i : nat) : arr :=
    Arr rest (firstn (product rest) (skipn (i * product rest) l)).

  (** 994-1016 [_split_sparse_batch] *)
  Definition split_sparse_batch (s : sparse) : res (list sparse) :=
    match sp_shape s with
    | [] => Err IndexError
    | n :: rest =>
        Ok (map (fun i =>
               let mine := filter (fun iv => Nat.eqb (hd 0 (fst iv)) i) (combine (sp_indices s) (sp_values s)) in
               SparseT (map snd mine) (map (fun iv => tl (fst iv)) mine) rest) (seq 0 n))
    end.

  (** 1074-1097: the value for one example.  An array with the shape () has no len(); the
      second condition at 1092 never holds. *)
  Definition example_value (keep_batch_dim expand_zero_dims : bool) (a : arr) : arr :=
    let s := match shape a with [] => if expand_zero_dims then [1] else [] | s => s end in
    Arr (if keep_batch_dim then 1 :: s else s) (items a).
  Definition split_leaf (keep_batch_dim expand_zero_dims : bool) (v : leaf) : res (list leaf) :=
    let dense l := map (fun a => Dense (example_value keep_batch_dim expand_zero_dims a)) l in
    match v with
    | PyNone => Ok []
    | Var t => let! rows := dense_rows t in Ok (dense rows)
    | Sparse s => let! l := split_sparse_batch s in Ok (map Sparse l)
    | Dense a =>
        match shape a with
        | [] => Err TypeError
        | n :: rest => Ok (dense (map (row_of rest (items a)) (seq 0 n)))
        end
    end.

  (** 1068-1073, 1096: walk to the parent, adding dictionaries, and set the value *)
  Fixpoint set_path (d : list (string * data leaf)) (keys : list string) (v : leaf)
      : res (list (string * data leaf)) :=
    match keys with
    | [] => Err IndexError
    | [k] => Ok (dset String.eqb d k (Leaf v))
    | k :: t =>
        match dget String.eqb d k with
        | None => let! c := set_path [] t v in Ok (dset String.eqb d k (Dict c))
        | Some (Dict c) => let! c := set_path c t v in Ok (dset String.eqb d k (Dict c))
        | Some (Leaf _) => Err TypeError
        end
    end.
  (** 1064-1096: the i-th value goes to the i-th result, which is added if need be *)
  Fixpoint set_all (results : list (list (string * data leaf))) (keys : list string) (vs : list leaf)
      : res (list (list (string * data leaf))) :=
    match vs, results with
    | [], _ => Ok results
    | v :: vs, [] => let! d := set_path [] keys v in let! t := set_all [] keys vs in Ok (d :: t)
    | v :: vs, d :: r => let! d := set_path d keys v in let! t := set_all r keys vs in Ok (d :: t)
    end.

  (** 1099-1104 [visit]: the leaves in order *)
  Fixpoint leaves (keys : list string) (e : data leaf) : list (list string * leaf) :=
    match e with
    | Leaf v => [(keys, v)]
    | Dict d => (fix go l := match l with
                             | [] => []
                             | (k, e) :: t => leaves (keys ++ [k]) e ++ go t
                             end) d
    end.
  Definition is_none (v : leaf) : bool := match v with PyNone => true | _ => false end.
  (** 1019-1117 [split_extracts] *)
  Definition split_extracts (e : list (string * data leaf)) (keep_batch_dim expand_zero_dims : bool)
      : res (list (list (string * data leaf))) :=
    let ls := leaves [] (Dict e) in
    let! results := foldM (fun r kv => if is_none (snd kv) then Ok r
                                       else let! vs := split_leaf keep_batch_dim expand_zero_dims (snd kv) in
                                            set_all r (fst kv) vs) ls [] in
    mapM (fun d => foldM (fun d kv => if is_none (snd kv) then set_path d (fst kv) PyNone else Ok d) ls d) results.

  (* ------------------------------------------------------------------ *)
  (** * Merging: utils/util.py 877-991 *)

  (** np.array([]), the value for extracts without the key *)
  Definition missing : leaf := Dense (Arr [0] []).
  Fixpoint set_nth {A} (l : list A) (i : nat) (x : A) : list A :=
    match l, i with
    | [], _ => []
    | _ :: t, O => x :: t
    | a :: t, S i => a :: set_nth t i x
    end.
  (** 901-929 [merge_with_lists].  A key that holds a dictionary in one example and a value
      in another is not modelled (here a TypeError). *)
  Fixpoint merge_with_lists (n index : nat) (value : data leaf) (target : option (data (list leaf)))
      : res (data (list leaf)) :=
    match value with
    | Dict d =>
        let! t := match target with
                  | None => Ok []
                  | Some (Dict t) => Ok t
                  | Some (Leaf _) => Err TypeError
                  end in
        let! t := (fix go l t := match l with
                                 | [] => Ok t
                                 | (k, v) :: l =>
                                     let! c := merge_with_lists n index v (dget String.eqb t k) in
                                     go l (dset String.eqb t k c)
                                 end) d t in
        Ok (Dict t)
    | Leaf v =>
        match target with
        | None => Ok (Leaf (set_nth (repeat missing n) index v))
        | Some (Leaf l) => Ok (Leaf (set_nth l index v))
        | Some (Dict _) => Err TypeError
        end
    end.

  Definition all_dense (l : list leaf) : option (list arr) :=
    fold_right (fun v o => match v, o with Dense a, Some l => Some (a :: l) | _, _ => None end) (Some []) l.
  Definition all_sparse (l : list leaf) : option (list sparse) :=
    fold_right (fun v o => match v, o with Sparse a, Some l => Some (a :: l) | _, _ => None end) (Some []) l.
  Definition nats_eqb (a b : list nat) : bool := if list_eq_dec Nat.eq_dec a b then true else false.
  Definition squeeze (a : arr) : arr := Arr (filter (fun n => negb (Nat.eqb n 1)) (shape a)) (items a).
  (** tf.compat.v1.sparse_concat(0, [tf.sparse.expand_dims(t, 0) ...], expand_nonconcat_dim=True):
      the ranks must agree *)
  Fixpoint max_shape (a b : list nat) : list nat :=
    match a, b with x :: a, y :: b => Nat.max x y :: max_shape a b | _, _ => [] end.
  Definition concat_sparse (l : list sparse) : res leaf :=
    match l with
    | [] => Err ValueError
    | s :: t =>
        if forallb (fun u => Nat.eqb (length (sp_shape u)) (length (sp_shape s))) t then
          Ok (Sparse (SparseT (concat (map sp_values l))
                (concat (map (fun iu => map (cons (fst iu)) (sp_indices (snd iu))) (combine (seq 0 (length l)) l)))
                (length l :: fold_left max_shape (map sp_shape t) (sp_shape s))))
        else Err ValueError
    end.
  (** 940-982 [merge_lists] for a list.  Lists that mix kinds of values, or hold variable
      length values, are not modelled (here a NotImplementedError). *)
  Definition merge_leaf (squeeze_two_dim_vector : bool) (l : list leaf) : res leaf :=
    match l with
    | Sparse _ :: _ => match all_sparse l with Some l => concat_sparse l | None => Err ValueError end
    | _ =>
        match all_dense l with
        | Some ((a :: t) as arrays) =>
            let data := concat (map items arrays) in
            if existsb (fun b => negb (nats_eqb (shape b) (shape a))) t
            then let! v := from_dense_rows (map squeeze arrays) in Ok (Var v)
            else match shape a with
                 | [] => Ok (Dense (Arr [length arrays] data))
                 | [1] => Ok (Dense (Arr (if squeeze_two_dim_vector then [length arrays] else [length arrays; 1]) data))
                 | s => Ok (Dense (Arr (length arrays :: s) data))
                 end
        | _ => if forallb is_none l then Ok PyNone else Err NotImplementedError
        end
    end.
  (** 931-939 [merge_lists] for a dictionary: exceptions become a RuntimeError *)
  Definition wrap {A} (r : res A) : res A :=
    match r with Ok x => Ok x | Err NotImplementedError => Err NotImplementedError | Err _ => Err RuntimeError end.
  Fixpoint merge_lists (squeeze_two_dim_vector : bool) (t : data (list leaf)) : res (data leaf) :=
    match t with
    | Leaf l => let! v := merge_leaf squeeze_two_dim_vector l in Ok (Leaf v)
    | Dict d =>
        let! l := (fix go l := match l with
                               | [] => Ok []
                               | (k, e) :: t => let! v := wrap (merge_lists squeeze_two_dim_vector e) in
                                                let! r := go t in Ok ((k, v) :: r)
                               end) d in
        Ok (Dict l)
    end.
  (** 877-991 [merge_extracts] *)
  Definition merge_extracts (es : list (list (string * data leaf))) (squeeze_two_dim_vector : bool)
      : res (data leaf) :=
    let! t := foldM (fun t ie => merge_with_lists (length es) (fst ie) (Dict (snd ie)) (Some t))
                    (combine (seq 0 (length es)) es) (Dict []) in
    merge_lists squeeze_two_dim_vector t.

  (* ------------------------------------------------------------------ *)
  (** * Batch sizes: utils/util.py 392-436 *)

  Definition leaf_size (v : leaf) : option nat :=
    match v with
    | Dense a => Some (match shape a with [] => 0 | n :: _ => n end)
    | Var t => Some (match vl_shape t with [] => 0 | n :: _ => n end)
    | Sparse s => Some (match sp_shape s with [] => 0 | n :: _ => n end)
    | PyNone => None
    end.
  Fixpoint batch_size (e : data leaf) : res (option nat) :=
    match e with
    | Leaf v => Ok (leaf_size v)
    | Dict d =>
        (fix go l result := match l with
                            | [] => Ok result
                            | (_, e) :: t =>
                                let! sz := batch_size e in
                                match sz, result with
                                | None, _ => go t result
                                | Some n, None => go t (Some n)
                                | Some n, Some m => if Nat.eqb n m then go t result else Err ValueError
                                end
                            end) d None
    end.

  (* ------------------------------------------------------------------ *)
  (** * Unbatching: extractors/unbatch_extractor.py 45-93 *)

  (** Entries of a mixed extract: a list (one item per example, a leaf or a dictionary) or
      anything else. *)
  Inductive entry := Legacy (l : list (data leaf)) | Batched (e : data leaf).
  Definition ARROW_RECORD_BATCH_KEY := "arrow_record_batch".
  (** 59-70: columns of one length.  pandas' treatment of empty columns is not modelled: a
      column of another length is a RuntimeError *)
  Definition add_column (df : option (list (list (string * data leaf)))) (k : string) (l : list (data leaf))
      : res (option (list (list (string * data leaf)))) :=
    match df with
    | None => Ok (Some (map (fun v => [(k, v)]) l))
    | Some rows => if Nat.eqb (length rows) (length l)
                   then Ok (Some (map (fun rv => dset String.eqb (fst rv) k (snd rv)) (combine rows l)))
                   else Err RuntimeError
    end.
  Definition extract_unbatched_inputs (m : list (string * entry)) : res (list (list (string * data leaf))) :=
    let kept := filter (fun kv => negb (String.eqb (fst kv) ARROW_RECORD_BATCH_KEY)) m in
    let! df := foldM (fun df kv => match snd kv with Legacy l => add_column df (fst kv) l | Batched _ => Ok df end)
                     kept None in
    let batched := flat_map (fun kv => match snd kv with Batched e => [(fst kv, e)] | Legacy _ => [] end) kept in
    let! unbatched := split_extracts batched false true in
    match unbatched, match df with Some rows => rows | None => [] end with
    | [], legacy => Ok legacy
    | u, [] => Ok u
    | u, legacy => if Nat.eqb (length u) (length legacy)
                   then Ok (map (fun lu => dupdate String.eqb (fst lu) (snd lu)) (combine legacy u))
                   else Err ValueError
    end.
End Batches.
Arguments arr V : clear implicits.
Arguments sparse V : clear implicits.
Arguments varlen V : clear implicits.
Arguments leaf V : clear implicits.
Arguments extracts V : clear implicits.
Arguments entry V : clear implicits.

(* ------------------------------------------------------------------ *)
(** * Key paths and StandardExtracts: utils/util.py 561-655, 1120-1359 *)

Section Paths.
  Context {A : Type}.

  (** 561-600 [copy_and_set_by_keys]; copies are not modelled, data are immutable here *)
  Fixpoint copy_and_set_by_keys (root : data A) (keypath : list string) (value : data A) : res (data A) :=
    match keypath with
    | [] => Err ValueError
    | key :: t =>
        match root with
        | Leaf _ => Err ValueError
        | Dict d =>
            match t with
            | [] => Ok (Dict (dset String.eqb d key value))
            | _ => let child := match dget String.eqb d key with None => Dict [] | Some c => c end in
                   let! c := copy_and_set_by_keys child t value in
                   Ok (Dict (dset String.eqb d key c))
            end
        end
    end.

  (** 603-611 [_contains_keys] with one key *)
  Definition contains_key (value : data A) (key : string) : bool :=
    match value with Dict d => dmem String.eqb d key | Leaf _ => false end.

  (** 614-639 [_set_by_keys]: errors below the root become RuntimeErrors *)
  Fixpoint set_by_keys (root : data A) (keys : list string) (value : data A) : res (data A) :=
    match keys with
    | [] => Err ValueError
    | first_key :: remaining =>
        match root with
        | Leaf _ => Err ValueError
        | Dict d =>
            match remaining with
            | [] => Ok (Dict (dset String.eqb d first_key value))
            | _ => match set_by_keys (match dget String.eqb d first_key with None => Dict [] | Some c => c end)
                                     remaining value with
                   | Ok c => Ok (Dict (dset String.eqb d first_key c))
                   | Err _ => Err RuntimeError
                   end
            end
        end
    end.

  (** 642-655 [_get_keys] with [levels] = max_depth - depth *)
  Fixpoint get_keys (levels : nat) (root : list (string * data A)) : list (list string) :=
    match levels with
    | O => []
    | S levels =>
        flat_map (fun kv => match snd kv with
                            | Dict d => map (cons (fst kv)) (get_keys levels d)
                            | Leaf _ => [[fst kv]]
                            end) root
    end.

  (** 1165-1199 [get_model_and_output_names]; None: the predictions are no dictionary *)
  Definition get_model_and_output_names (config_model_names : list string) (e : list (string * data A))
      : list (option string * option string) :=
    let names := match config_model_names with [] => [""] | l => l end in
    match dget String.eqb e "predictions" with
    | None => []
    | Some (Leaf _) => [(None, None)]
    | Some (Dict d) =>
        map (fun key => match key with
                        | [k] => if memb String.eqb k names then (Some k, None) else (None, Some k)
                        | k :: o :: _ => (Some k, Some o)
                        | [] => (None, None)
                        end) (get_keys 2 d)
    end.

  (** 1313-1328 [optionally_get_by_keys] with one key: Python's None is the result None of
      get_by_keys; a None stored under the key is a leaf, found by [contains_key].  An empty
      dictionary under the key counts as None. *)
  Definition optionally_get_by_key (value : option (data A)) (key : string) : res (option (data A)) :=
    match value with
    | Some (Dict d) =>
        let! found := get_by_keys (Dict d) [key] None true in
        match found with
        | Some v => Ok (Some v)
        | None => if contains_key (Dict d) key then Ok None else Ok value
        end
    | _ => Ok value
    end.
  (** 1305-1335 [get_by_key] *)
  Definition get_by_key (e : list (string * data A)) (key : string) (model_name output_name : option string)
      : res (option (data A)) :=
    let value := dget String.eqb e key in
    let! value := match model_name with Some m => optionally_get_by_key value m | None => Ok value end in
    match output_name with Some o => optionally_get_by_key value o | None => Ok value end.
  (** 1337-1359 [_set_by_key] *)
  Definition set_by_key (e : list (string * data A)) (key : string) (value : data A)
      (model_name output_name : option string) : res (data A) :=
    let name o := match o with Some n => if String.eqb n "" then [] else [n] | None => [] end in
    set_by_keys (Dict e) (key :: name model_name ++ name output_name) value.
End Paths.
