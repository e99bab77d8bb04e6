(* Model of metrics/ndcg.py.  Gains are finite numbers; discounts are real
   numbers, sums are exact. *)
From Coq Require Import String Ascii Reals Qreals.
From Verif Require Import Base Beam Util_Model Inputs_Model Sums_Model.
Local Open Scope string_scope.
Local Open Scope list_scope.

(** Python's sorted(l, key=...): stable; [before x y] = "x may stay in front of y"
    (key(x) <= key(y), or key(x) >= key(y) with reverse=True). *)
Section Sort.
  Context {A : Type} (before : A -> A -> bool).
  Fixpoint insert (x : A) (l : list A) : list A :=
    match l with
    | [] => [x]
    | y :: t => if before x y then x :: l else y :: insert x t
    end.
  Definition py_sorted (l : list A) : list A := fold_right insert [] l.
End Sort.

(* ------------------------------------------------------------------ *)
(** * The keys *)

(** ndcg.py 77-89 [_ndcg]: the sub keys of the reported metrics. *)
Definition add_top_k (sub_keys : list sub_key) (k : Z) : res (list sub_key) :=
  if existsb (fun s => match sk_top_k s with Some n => Z.eqb (Z.of_nat n) k | None => false end) sub_keys
  then Ok sub_keys
  else let! s := mk_sub_key None None (Some k) in Ok (sub_keys ++ [s]).
Definition ndcg_sub_keys (query_key : string) (sub_keys : option (list (option sub_key)))
    (top_k_list : option (list Z)) : res (list sub_key) :=
  if String.eqb query_key "" then Err ValueError else
  match sub_keys with
  | None => Err TypeError                       (* [k for k in None] *)
  | Some given =>
      let present := flat_map (fun s => match s with Some s => [s] | None => [] end) given in
      let! all := match top_k_list with
                  | Some ks => foldM add_top_k ks present
                  | None => Ok present
                  end in
      if (match all with [] => true | _ => false end)
         || existsb (fun s => match sk_top_k s with None => true | _ => false end) all
      then Err ValueError else Ok all
  end.

(* ------------------------------------------------------------------ *)
(** * One query *)

(** np.log2 *)
Definition log2 (n : nat) : R := (ln (INR n) / ln 2)%R.
Definition rsum_list (l : list R) : R := fold_right Rplus 0%R l.

(** ndcg.py 210-223 [_calculate_dcg_at_k]:
    np.sum(np.array(sorted_values)[:k] / np.log2(range(2, k + 2))); the caller
    passes k <= len(sorted_values). *)
Definition dcg_at_k (k : nat) (sorted_values : list Qc) : R :=
  rsum_list (map (fun vi : Qc * nat => Q2R (fst vi) / log2 (snd vi))%R (combine (firstn k sorted_values) (seq 2 k))).

(** ndcg.py 225-249 [_calculate_ndcg] *)
Definition calculate_ndcg (values : list (nat * Qc)) (k : nat) : R :=
  let max_rank := Nat.min k (length values) in
  let ranked_values := map snd (py_sorted (fun a b => Nat.leb (fst a) (fst b)) values) in
  let optimal_values := map snd (py_sorted (fun a b => Qc_leb (snd b) (snd a)) values) in
  let dcg := dcg_at_k max_rank ranked_values in
  let optimal_dcg := dcg_at_k max_rank optimal_values in
  if Rlt_dec 0 optimal_dcg then (dcg / optimal_dcg)%R else 0%R.

(** arr.max() *)
Definition np_max (l : list Qc) : res Qc :=
  match l with [] => Err ValueError | x :: t => Ok (fold_left Qcmax t x) end.

(** One combined element: the merged inputs of a query and its features
    (CombinedFeaturePreprocessor with query_key and gain_key, 109-113). *)
Record query_inputs := QueryInputs { q_inputs : inputs_dict; q_features : data (list Qc) }.

(** ndcg.py 182-191: the arguments of to_label_prediction_example_weight. *)
Definition ndcg_options (weighted : bool) : options := Options None false None weighted false false false true.

(** pairs as lists of running sums *)
Definition ndcg_acc := (list R * Qc)%type.

Section Query.
  (** np.argsort(predictions): an oracle (numpy's default sort is not stable), see
      [argsort_ok] in Ranking_Main; argpartition is not reached (no sub key). *)
  Variable argsort : list num -> list nat.
  Variable argpartition : list num -> nat -> list nat.

  (** ndcg.py 177-208 [_to_gains_example_weight]; float(example_weight) needs one
      element. *)
  Definition to_gains_example_weight (weighted : bool) (label_key prediction_key model_name output_name gain_key : string)
      (element : query_inputs) : res (list Qc * Qc) :=
    let! ys := to_label_prediction_example_weight argpartition (ndcg_options weighted) label_key prediction_key
                 model_name output_name (q_inputs element) in
    match ys with
    | [] => Err StopIteration
    | (_, predictions, weight) :: _ =>
        let! g := get_by_keys (q_features element) [gain_key] None false in
        match g with
        | Some (Leaf gains) =>
            if negb (Nat.eqb (length gains) (length predictions)) then Err ValueError else
            let! top := np_max gains in
            let! sorted := mapM (nth_ok gains) (rev (argsort predictions)) in
            let! w := if Qc_leb top 0%Qc then Ok 0%Qc else scalar weight in
            Ok (sorted, w)
        | _ => Err AttributeError
        end
    end.

  (** ndcg.py 254-268 [add_input]; the keys are given by their top_k. *)
  Definition ndcg_add (weighted : bool) (lk pk model_name output_name gain_key : string) (top_ks : list (option nat))
      (acc : ndcg_acc) (element : query_inputs) : res ndcg_acc :=
    let! gw := to_gains_example_weight weighted lk pk model_name output_name gain_key element in
    let (gains, w) := gw in
    let rank_gain := combine (seq 1 (length gains)) gains in
    let! terms := mapM (fun k => match k with
                                 | None => Err ValueError
                                 | Some k => Ok (calculate_ndcg rank_gain k * Q2R w)%R
                                 end) top_ks in
    Ok (map (fun ab => fst ab + snd ab)%R (combine (fst acc) terms), (snd acc + w)%Qc).

  (** ndcg.py 270-278 [merge_accumulators], one step. *)
  Definition ndcg_plus (a b : ndcg_acc) : ndcg_acc :=
    (map (fun xy => fst xy + snd xy)%R (combine (fst a) (fst b)), (snd a + snd b)%Qc).

  (** ndcg.py 280-288 [extract_output], in the order of the keys; None is NaN. *)
  Definition ndcg_extract (a : ndcg_acc) : list (option R) :=
    map (fun x => if Qc_ltb 0%Qc (snd a) then Some (x / Q2R (snd a))%R else None) (fst a).

  (** ndcg.py 129-288 [_NDCGCombiner] *)
  Definition ndcg_combiner (weighted : bool) (lk pk model_name output_name gain_key : string) (top_ks : list (option nat)) :=
    res_combiner (repeat 0%R (length top_ks), 0%Qc)
      (ndcg_add weighted lk pk model_name output_name gain_key top_ks)
      ndcg_plus (fun a => Ok (ndcg_extract a)).
End Query.
