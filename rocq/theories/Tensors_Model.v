(* Model of tensors and their values: utils/util.py 61-283 (conversions), 283-390 (record
   batches), and utils/model_util.py 607-634 (representations of the inputs of a model). *)
From Coq Require Import String Ascii.
From Verif Require Import Base Util_Model Batches_Model.
Local Open Scope string_scope.
Local Open Scope list_scope.

Section Tensors.
  (** Scalars; [known] tells those TensorFlow has a type for from other Python objects, such as
      None in an array of objects. *)
  Context {V : Type} (known : V -> bool).

  (* ------------------------------------------------------------------ *)
  (** * Conversions: 61-254 *)

  (** api/types.py 41-130: an array, SparseTensorValue, VarLenTensorValue, RaggedTensorValue.
      The data types of arrays are not modelled. *)
  Inductive tvalue :=
  | VDense (a : arr V) | VSparse (s : sparse V) | VVarLen (t : varlen V)
  | VRagged (flat : arr V) (splits : list (list nat)).
  (** tf.Tensor, tf.SparseTensor, tf.RaggedTensor *)
  Inductive tensor :=
  | TDense (a : arr V) | TSparse (values : list V) (indices : list (list nat)) (dense_shape : list nat)
  | TRagged (flat : arr V) (splits : list (list nat)).
  Inductive anything := ATensor (t : tensor) | AValue (v : tvalue).

  (** 112-129 [to_tensor_value], with 80-109 *)
  Definition to_tensor_value (x : anything) : tvalue :=
    match x with
    | AValue v => v
    | ATensor (TDense a) => VDense a
    | ATensor (TSparse vs is sh) => VSparse (SparseT vs is sh)
    | ATensor (TRagged f s) => VRagged f s
    end.
  (** 132-140 [to_tensor_values] *)
  Fixpoint to_tensor_values (x : data anything) : data tvalue :=
    match x with
    | Leaf a => Leaf (to_tensor_value a)
    | Dict l => Dict (map (fun kv => (fst kv, to_tensor_values (snd kv))) l)
    end.

  (** tf.RaggedTensor.from_nested_row_splits checks each row partition: it begins with 0, does
      not fall, and ends with the number of what it splits. *)
  Fixpoint rising (l : list nat) : bool :=
    match l with a :: ((b :: _) as t) => Nat.leb a b && rising t | _ => true end.
  Fixpoint splits_fit (splits : list (list nat)) (n : nat) : bool :=
    match splits with
    | [] => true
    | s :: rest =>
        match s with
        | 0 :: _ => rising s && Nat.eqb (last s 0) (match rest with s' :: _ => length s' - 1 | [] => n end)
        | _ => false
        end && splits_fit rest n
    end.
  (** 151-173 [to_tensorflow_tensor].  tf.SparseTensor wants as many values as indices, each with
      one number for each axis. *)
  Definition to_tensorflow_tensor (v : tvalue) : res tensor :=
    let sparse_tensor vs is sh :=
      if Nat.eqb (length vs) (length is) && forallb (fun i => Nat.eqb (length i) (length sh)) is
      then Ok (TSparse vs is sh) else Err ValueError in
    match v with
    | VRagged f s => if splits_fit s (hd 0 (shape f)) then Ok (TRagged f s) else Err ValueError
    | VSparse s => sparse_tensor (sp_values s) (sp_indices s) (sp_shape s)
    | VVarLen t => sparse_tensor (vl_values t) (map (fun p => [fst p; snd p]) (vl_indices t)) (vl_shape t)
    | VDense a => if forallb known (items a) then Ok (TDense a) else Err RuntimeError
    end.

  (** tf.TypeSpec; a shape is None if its rank is unknown, and has None for unknown sizes. *)
  Definition tshape := option (list (option nat)).
  Inductive tspec := DenseSpec (s : tshape) | SparseSpec (s : tshape) | RaggedSpec (s : tshape).

  (** numpy reshape, one -1 (None) at most; nothing fits a -1 beside a 0
      (_fix_unknown_dimension). *)
  Definition known_product (l : list (option nat)) : nat :=
    fold_right (fun o p => match o with Some n => n * p | None => p end) 1 l.
  Definition count_unknown (l : list (option nat)) : nat := length (filter (fun o => match o with None => true | _ => false end) l).
  Definition reshape (a : arr V) (target : list (option nat)) : res (arr V) :=
    let n := length (items a) in let p := known_product target in
    match count_unknown target with
    | 0 => if Nat.eqb n p then Ok (Arr (map (fun o => match o with Some k => k | None => 0 end) target) (items a)) else Err ValueError
    | 1 => if Nat.eqb p 0 || negb (Nat.eqb (Nat.modulo n p) 0) then Err ValueError
           else Ok (Arr (map (fun o => match o with Some k => k | None => Nat.div n p end) target) (items a))
    | _ => Err ValueError
    end.
  (** 227-240; only arrays have a shape *)
  Definition reshape_to (s : tspec) (v : tvalue) : res tvalue :=
    match s, v with
    | DenseSpec (Some dims), VDense a =>
        match shape a with
        | [] => Ok v
        | n :: _ => let! b := reshape a (Some n :: tl dims) in Ok (VDense b)
        end
    | _, _ => Ok v
    end.

  (** 200-254 [to_tensors] without specs *)
  Fixpoint to_tensors_all (v : data tvalue) : res (data tensor) :=
    match v with
    | Leaf x => let! t := to_tensorflow_tensor x in Ok (Leaf t)
    | Dict l => let! r := mapM (fun kv => let! t := to_tensors_all (snd kv) in Ok (fst kv, t)) l in Ok (Dict r)
    end.
  (** 200-254 with specs; an empty dictionary of specs counts as none. *)
  Fixpoint to_tensors_of (s : data tspec) (v : data tvalue) {struct s} : res (data tensor) :=
    match s, v with
    | Leaf sp, Leaf x => let! y := reshape_to sp x in let! t := to_tensorflow_tensor y in Ok (Leaf t)
    | Dict [], Dict _ => to_tensors_all v
    | Dict ss, Dict l =>
        let! r := mapM (fun ks => match dget String.eqb l (fst ks) with
                                  | None => Err ValueError
                                  | Some x => let! t := to_tensors_of (snd ks) x in Ok (fst ks, t)
                                  end) ss in
        Ok (Dict r)
    | _, _ => Err ValueError
    end.
  (** 176-254 [to_tensorflow_tensors] *)
  Definition to_tensorflow_tensors (v : data tvalue) (s : option (data tspec)) : res (data tensor) :=
    match s with None => to_tensors_all v | Some s => to_tensors_of s v end.

  (** 257-280 [infer_tensor_specs].  The shape of a ragged tensor: its rows, an unknown size for
      each further axis that is split, and the rest of the shape of the flat values. *)
  Definition tensor_shape (t : tensor) : list (option nat) :=
    match t with
    | TDense a => map Some (shape a)
    | TSparse _ _ sh => map Some sh
    | TRagged f s => match s with
                     | [] => map Some (shape f)
                     | s0 :: _ => Some (length s0 - 1) :: map (fun _ => None) s ++ map Some (tl (shape f))
                     end
    end.
  Definition infer_spec (t : tensor) : res tspec :=
    match tensor_shape t with
    | [] => Err ValueError
    | _ :: rest => let s := Some (None :: rest) in
                   Ok (match t with TDense _ => DenseSpec s | TSparse _ _ _ => SparseSpec s | TRagged _ _ => RaggedSpec s end)
    end.
  Fixpoint infer_tensor_specs (t : data tensor) : res (data tspec) :=
    match t with
    | Leaf x => let! s := infer_spec x in Ok (Leaf s)
    | Dict l => let! r := mapM (fun kv => let! s := infer_tensor_specs (snd kv) in Ok (fst kv, s)) l in Ok (Dict r)
    end.

  (* ------------------------------------------------------------------ *)
  (** * Record batches: 283-390 *)

  (** A column of lists of values; None is a missing list.  Lists of lists are not modelled. *)
  Definition column := list (option (list V)).
  Definition record_batch := list (string * column).
  (** tfmd TensorRepresentation: the columns they read. *)
  Inductive representation :=
  | DenseRep (col : string) (dims : list nat) | VarLenRep (col : string)
  | SparseRep (index_cols : list string) (value_col : string) | RaggedRep (path : list string).
  (** What a column becomes: a tensor value, or an array of as many None. *)
  Inductive feature := Values (v : tvalue) | AllNone (n : nat).

  Definition olen_eqb (a b : option nat) : bool :=
    match a, b with Some x, Some y => Nat.eqb x y | None, None => true | _, _ => false end.
  (** value_lengths().unique(): a missing list has no length, which counts as a value. *)
  Definition lengths (c : column) : list (option nat) := dedup olen_eqb (map (option_map (@length V)) c).
  Definition present (o : option (list V)) : list V := match o with Some l => l | None => [] end.

  (** The TensorAdapter of tfx_bsl.  Dense: every list is there and has as many values as the
      shape.  Variable length: the lists one after the other, with row and position.  Ragged: with the
      row splits.  [sparse_of] stands for its sparse tensors. *)
  Definition list_indices (c : column) : list (nat * nat) :=
    concat (map (fun ir => map (pair (fst ir)) (seq 0 (length (present (snd ir))))) (combine (seq 0 (length c)) c)).
  Fixpoint splits_from (n : nat) (c : column) : list nat :=
    n :: match c with [] => [] | r :: t => splits_from (n + length (present r)) t end.
  Definition adapt (sparse_of : record_batch -> list string -> string -> res tvalue) (b : record_batch) (r : representation) : res tvalue :=
    let column_of name := match dget String.eqb b name with Some c => Ok c | None => Err ValueError end in
    match r with
    | DenseRep name dims =>
        let! c := column_of name in
        if forallb (fun o => match o with Some l => Nat.eqb (length l) (product dims) | None => false end) c
        then Ok (VDense (Arr (length c :: dims) (flat_map present c))) else Err ValueError
    | VarLenRep name =>
        let! c := column_of name in
        let! t := mk_varlen (flat_map present c) (list_indices c)
                    [length c; fold_right Nat.max 0 (map (fun o => length (present o)) c)] in Ok (VVarLen t)
    | RaggedRep [name] =>
        let! c := column_of name in
        Ok (VRagged (Arr [length (flat_map present c)] (flat_map present c)) [splits_from 0 c])
    | RaggedRep _ => Err ValueError
    | SparseRep is v => sparse_of b is v
    end.

  (** 315-320, 342-348: the shape of the first list *)
  Definition dims_of (c : column) : list nat :=
    match c with [] => [] | r :: _ => [length (present r)] end.
  (** 322-350: for each column its representation, or None if all its lists are missing *)
  Definition column_representation (reps : list (string * representation)) (nc : string * column) : option representation :=
    match dget String.eqb reps (fst nc) with
    | Some r => Some r
    | None => match lengths (snd nc) with
              | [_] => if forallb (fun o => match o with Some _ => true | None => false end) (snd nc)
                       then Some (DenseRep (fst nc) (dims_of (snd nc))) else None
              | _ => Some (VarLenRep (fst nc))
              end
    end.
  (** 351-361: of the other representations the sparse ones all whose columns are there *)
  Definition further (b : record_batch) (reps : list (string * representation)) : list (string * representation) :=
    filter (fun nr => negb (dmem String.eqb b (fst nr)) &&
                      match snd nr with
                      | SparseRep is v => forallb (dmem String.eqb b) (is ++ [v])
                      | _ => false
                      end) reps.
  (** 283-390 [record_batch_to_tensor_values]; whatever the adapter raises becomes ValueError. *)
  Definition record_batch_to_tensor_values (sparse_of : record_batch -> list string -> string -> res tvalue)
      (b : record_batch) (reps : list (string * representation)) : res (list (string * feature)) :=
    let missing := flat_map (fun nc => match column_representation reps nc with None => [(fst nc, AllNone (length (snd nc)))] | Some _ => [] end) b in
    let updated := flat_map (fun nc => match column_representation reps nc with None => [] | Some r => [(fst nc, r)] end) b ++ further b reps in
    match mapM (fun nr => let! v := adapt sparse_of b (snd nr) in Ok (fst nr, Values v)) updated with
    | Ok l => Ok (missing ++ l)
    | Err _ => Err ValueError
    end.

  (* ------------------------------------------------------------------ *)
  (** * model_util.py 607-634 [input_specs_to_tensor_representations] *)

  (** len() of a shape of unknown rank raises ValueError. *)
  Definition representation_of (name : string) (s : tspec) : res representation :=
    match s with
    | SparseSpec _ => Ok (VarLenRep name)
    | RaggedSpec _ => Ok (RaggedRep [name])
    | DenseSpec None => Err ValueError
    | DenseSpec (Some dims) =>
        let! ds := mapM (fun o => match o with Some n => Ok n | None => Err ValueError end) (tl dims) in
        Ok (DenseRep name ds)
    end.
  Definition input_specs_to_tensor_representations (specs : list (string * tspec)) : res (list (string * representation)) :=
    mapM (fun ns => let! r := representation_of (fst ns) (snd ns) in Ok (fst ns, r)) specs.
End Tensors.
