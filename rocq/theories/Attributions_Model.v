(* Model of metrics/attributions.py: totals and means of feature attributions. *)
From Coq Require Import String Ascii.
From Verif Require Import Base Beam Util_Model Keys_Model Inputs_Model Sums_Model Means_Model.
Local Open Scope string_scope.
Local Open Scope list_scope.

(** A numpy array of attributions of one feature: a number, a row or a table.
    Simplifications: numbers are finite, there are no further dimensions. *)
Inductive array := Scalar (x : Qc) | Row (l : list Qc) | Table (rows : list (list Qc)).

(** ndarray.size *)
Definition size (v : array) : nat :=
  match v with
  | Scalar _ => 1
  | Row l => length l
  | Table rows => length (concat rows)
  end.
(** v * example_weight *)
Definition times (v : array) (w : Qc) : array :=
  match v with
  | Scalar x => Scalar (x * w)%Qc
  | Row l => Row (map (fun x => x * w)%Qc l)
  | Table rows => Table (map (map (fun x => x * w)%Qc) rows)
  end.

(** abs(v) *)
Definition absolute_value (x : Qc) : Qc := if Qc_ltb x 0%Qc then (- x)%Qc else x.
(** abs(v) if self._absolute else v *)
Definition signed (absolute : bool) (x : Qc) : Qc := if absolute then absolute_value x else x.

(** 298-310 [_TotalAttributionsCombiner._sum].  An array of one number goes through the
    first branch.  Simplification: a row of a table is added as the number it holds; a
    wider row, which would turn the number it is added to into an array, is refused. *)
Definition sum (absolute : bool) (a : list Qc) (b : array) : res (list Qc) :=
  let add_all (l : list Qc) :=
    if negb (Nat.eqb (length a) (length l)) then Err ValueError
    else Ok (map (fun ab => fst ab + signed absolute (snd ab))%Qc (combine a l)) in
  match b with
  | Scalar x | Table [[x]] =>
      match a with [a0] => Ok [(a0 + signed absolute x)%Qc] | _ => Err ValueError end
  | Row l => add_all l
  | Table rows =>
      if negb (Nat.eqb (length a) (length rows)) then Err ValueError
      else let! l := mapM (fun r => match r with [x] => Ok x | _ => Err ValueError end) rows in
           add_all l
  end.

(** 380-384 [_scores_by_class_id]; len of a number is a TypeError. *)
Definition scores_by_class_id (class_id : Z) (scores : array) : res array :=
  match scores with
  | Scalar _ => Err TypeError
  | Row l =>
      if Z.ltb class_id 0 || Z.leb (Z.of_nat (length l)) class_id then Err ValueError
      else let! x := nth_ok l (Z.to_nat class_id) in Ok (Scalar x)
  | Table rows =>
      if Z.ltb class_id 0 || Z.leb (Z.of_nat (length rows)) class_id then Err ValueError
      else let! r := nth_ok rows (Z.to_nat class_id) in Ok (Row r)
  end.

(** x[np.argsort(-x)] *)
Fixpoint insert_desc (x : Qc) (l : list Qc) : list Qc :=
  match l with
  | [] => [x]
  | y :: t => if Qc_ltb x y then y :: insert_desc x t else x :: l
  end.
Definition sort_desc (l : list Qc) : list Qc := fold_right insert_desc [] l.

Section Combiner.
  (** np.argpartition, as in Inputs_Model. *)
  Variable argpartition : list num -> nat -> list nat.

  (** 387-399 [_scores_by_top_k].  The shape of a number has no last entry.
      Simplification: tables are refused (numpy would index them by rows and fail, unless
      they hold one number). *)
  Definition scores_by_top_k (top_k : nat) (scores : array) : res (list Qc) :=
    match scores with
    | Scalar _ => Err IndexError
    | Table _ => Err ValueError
    | Row l =>
        if Nat.ltb (length l) top_k then Err ValueError
        else let indices := skipn (length l - top_k) (argpartition (map Fin l) top_k) in
             let! xs := select_indices l indices in
             Ok (sort_desc xs)
    end.

  (** 343-351: the scores the sub key asks for *)
  Definition select_scores (sk : option sub_key) (v : array) : res array :=
    match sk with
    | None => Ok v
    | Some (SubKey (Some c) _ _) => scores_by_class_id c v
    | Some (SubKey None (Some k) _) =>
        let! xs := scores_by_top_k k v in
        let! x := nth_ok xs (k - 1) in Ok (Scalar x)
    | Some (SubKey None None (Some k)) =>
        let! xs := scores_by_top_k k v in Ok (Row xs)
    | Some (SubKey None None None) => Ok v
    end.

  (** An element of StandardMetricInputs with its "attributions" (None = missing). *)
  Record attributed := Attributed { a_inputs : inputs_dict; a_attributions : option (data array) }.

  (** metric_util.to_label_prediction_example_weight(allow_none=True, flatten=False) *)
  Definition attribution_options (sk : option sub_key) (weighted : bool) : options :=
    Options sk false None weighted false false true false.

  (** 342-354: one feature.  to_numpy of a dictionary leaves an object that cannot be
      multiplied. *)
  Definition add_feature (absolute : bool) (sk : option sub_key) (w : Qc)
      (acc : list (string * list Qc)) (kv : string * data array) : res (list (string * list Qc)) :=
    let (k, v) := kv in
    match v with
    | Dict _ => Err TypeError
    | Leaf v =>
        let! v := select_scores sk v in
        let a := match dget String.eqb acc k with Some a => a | None => repeat 0%Qc (size v) end in
        let! a := sum absolute a (times v w) in
        Ok (dset String.eqb acc k a)
    end.

  (** 315-356 [_TotalAttributionsCombiner.add_input]; label_key and prediction_key are
      those of the model spec. *)
  Definition add_input (absolute : bool) (sk : option sub_key) (weighted : bool)
      (label_key prediction_key model_name output_name : string)
      (acc : list (string * list Qc)) (e : attributed) : res (list (string * list Qc)) :=
    match a_attributions e with
    | None => Err ValueError
    | Some attributions =>
        let lookup v key :=
          if String.eqb key "" then Ok v
          else let! found := get_by_keys v [key] None false in
               match found with Some v => Ok v | None => Err ValueError end in
        let! attributions := lookup attributions model_name in
        let! attributions := lookup attributions output_name in
        let! ys := to_label_prediction_example_weight argpartition (attribution_options sk weighted)
                     label_key prediction_key model_name output_name (a_inputs e) in
        let! y := first_tuple ys in
        let! w := scalar (snd y) in
        match attributions with
        | Leaf _ => Err AttributeError
        | Dict d => foldM (add_feature absolute sk w) d acc
        end
    end.

  (** 363-368: one accumulator merged into the result *)
  Definition merge_one (absolute : bool) (result : list (string * list Qc))
      (accumulator : list (string * list Qc)) : res (list (string * list Qc)) :=
    foldM (fun r kv =>
             match dget String.eqb r (fst kv) with
             | Some a => let! a := sum absolute a (Row (snd kv)) in Ok (dset String.eqb r (fst kv) a)
             | None => Ok (dset String.eqb r (fst kv) (snd kv))
             end) accumulator result.

  (** Values of the result: a number or an array. *)
  Inductive attribution (A : Type) := One (x : A) | Many (xs : list A).
  Arguments One {A}.
  Arguments Many {A}.

  (** 285-377 [_TotalAttributionsCombiner] *)
  Definition total_combiner (absolute : bool) (key : metric_key) (label_key prediction_key : string)
    : combiner attributed (res (list (string * list Qc)))
        (res (list (metric_key * list (string * attribution Qc)))) :=
    {| c_create := Ok [];
       c_add := fun acc e =>
         let! a := acc in
         add_input absolute (k_sub key) (match k_weighted key with Some b => b | None => false end)
           label_key prediction_key (k_model key) (k_output key) a e;
       c_merge := fun l =>
         match l with
         | [] => Err StopIteration
         | a :: t => fold_left (fun acc b => let! x := acc in let! y := b in merge_one absolute x y) t a
         end;
       c_extract := fun acc =>
         let! a := acc in
         Ok [(key, map (fun kv => (fst kv, match snd kv with [x] => One x | xs => Many xs end)) a)] |}.
End Combiner.
Arguments One {A}.
Arguments Many {A}.

(** 262-273: the key of the totals, private to the computations *)
Definition total_key (absolute : bool) (model_name output_name : string) (sk : option sub_key)
    (weighted : bool) : metric_key :=
  MetricKey (if absolute then "_total_absolute_attributions" else "_total_attributions")
    model_name output_name sk None (Some weighted) false.
(** example_count.py 62-82 *)
Definition count_key (model_name output_name : string) (sk : option sub_key) (weighted : bool) : metric_key :=
  MetricKey "example_count" model_name output_name sk None (Some weighted) false.
(** 106-112, 207-213: the key of the metric *)
Definition attributions_key (name model_name output_name : string) (sk : option sub_key)
    (weighted : bool) : metric_key :=
  MetricKey name model_name output_name sk None (Some weighted) false.

(** Values in the dictionary of metrics that derived computations are given. *)
Inductive metric_value := Count (x : Qc) | Totals (d : list (string * attribution Qc)).

(** 95-152 [_mean_attributions]: result of the derived computation.  A feature whose
    total is an array is NaN as a whole when the count is close to 0. *)
Definition mean_attributions (absolute : bool) (name model_name output_name : string)
    (sk : option sub_key) (weighted : bool) (metrics : list (metric_key * metric_value))
  : res (list (metric_key * list (string * attribution num))) :=
  let! totals := match dget metric_key_eqb metrics (total_key absolute model_name output_name sk weighted) with
                 | Some (Totals d) => Ok d | Some (Count _) => Err AttributeError | None => Err KeyError end in
  let! count := match dget metric_key_eqb metrics (count_key model_name output_name sk weighted) with
                | Some (Count c) => Ok c | Some (Totals _) => Err TypeError | None => Err KeyError end in
  Ok [(attributions_key name model_name output_name sk weighted,
       map (fun kv => (fst kv,
              if isclose0 count then One NaN
              else match snd kv with
                   | One x => One (Fin (x / count)%Qc)
                   | Many xs => Many (map (fun x => Fin (x / count)%Qc) xs)
                   end)) totals)].

(** 197-236 [_total_attributions]: result of the derived computation *)
Definition total_attributions (absolute : bool) (name model_name output_name : string)
    (sk : option sub_key) (weighted : bool) (metrics : list (metric_key * metric_value))
  : res (list (metric_key * list (string * attribution Qc))) :=
  match dget metric_key_eqb metrics (total_key absolute model_name output_name sk weighted) with
  | Some (Totals d) => Ok [(attributions_key name model_name output_name sk weighted, d)]
  | Some (Count _) => Err TypeError
  | None => Err KeyError
  end.
