(* Model of evaluators/legacy_poisson_bootstrap.py: metrics computed from replicas of the data, merged
   into values with a t distribution.  The metrics themselves are computed by a class that is given. *)
From Coq Require Import String Ascii.
From Verif Require Import Base Means_Model.
Local Open Scope string_scope.
Local Open Scope list_scope.

(** Values of metrics: numbers, lists or np.ndarrays (an array of more dimensions is a list of
    lists), and protos.  Simplification: arrays without dimensions are numbers, and other objects are
    left out. *)
Inductive value :=
| VNum (x : num)
| VList (l : list value)
| VMessage (text : string).
Definition metrics := list (string * value).

(** What is shown: api/types.py 377-415 [ValueWithTDistribution], lists of values and values as they
    are.  The standard deviation is kept as its square, which is exact. *)
Inductive shown :=
| TDist (mean variance : num) (degrees : Z) (unsampled : value)
| ShownList (l : list shown)
| AsIs (v : value).

(** data[index] *)
Definition at_index (i : nat) (v : value) : res value :=
  match v with
  | VList l => match nth_error l i with Some x => Ok x | None => Err IndexError end
  | _ => Err TypeError
  end.
Definition is_nan (x : num) : bool := match x with NaN => true | _ => false end.
(** 207-209: np.isnan of a list is an array, whose truth value is ambiguous (one element: taken as an
    error too), and of a proto a TypeError *)
Definition number (v : value) : res num :=
  match v with VNum x => Ok x | VList _ => Err ValueError | VMessage _ => Err TypeError end.
(** np.mean and np.std with ddof=1 of a list that is not empty; numpy divides 0 by 0 to NaN *)
Definition np_mean (l : list num) : num := num_div (fold_left num_plus l (Fin 0%Qc)) (Fin (qz (Z.of_nat (length l)))).
Definition np_var (l : list num) : num :=
  let mean := np_mean l in
  num_div (fold_left num_plus (map (fun x => num_sqr (num_sub x mean)) l) (Fin 0%Qc)) (Fin (qz (Z.of_nat (length l) - 1))).
(** 207-219, for numbers *)
Definition t_number (data : list value) (unsampled : value) : res shown :=
  let! xs := mapM number data in
  let xs := filter (fun x => negb (is_nan x)) xs in
  match xs with
  | [] => Ok (TDist NaN NaN (-1)%Z (VNum NaN))
  | _ => Ok (TDist (np_mean xs) (np_var xs) (Z.of_nat (length xs) - 1) unsampled)
  end.
(** 179-219 [_calculate_t_distribution] of the list first :: rest *)
Fixpoint t_distribution (first : value) (rest : list value) (unsampled : value) : res shown :=
  match first with
  | VList l =>
      let! items := (fix go (l : list value) (i : nat) : res (list shown) :=
                       match l with
                       | [] => Ok []
                       | x :: t =>
                           let! others := mapM (at_index i) rest in
                           let! u := at_index i unsampled in
                           let! y := t_distribution x others u in
                           let! ys := go t (S i) in
                           Ok (y :: ys)
                       end) l 0 in
      Ok (ShownList items)
  | _ => t_number (first :: rest) unsampled
  end.

(** 138-143: the values of each name *)
Definition group_names (l : list metrics) : list (string * list value) :=
  fold_left (fun d kv => dset String.eqb d (fst kv) (match dget String.eqb d (fst kv) with Some vs => vs | None => [] end ++ [snd kv])) (concat l) [].
Definition same_keys {A B} (d : list (string * A)) (e : list (string * B)) : bool :=
  forallb (fun kv => dmem String.eqb e (fst kv)) d && forallb (fun kv => dmem String.eqb d (fst kv)) e.
(** 109-176 [_MergeBootstrap.process] of the metrics [l] of the replicas of a slice; [unsampled]:
    the metrics without sampling, if the slice has any *)
Definition merge_bootstrap (l : list metrics) (unsampled : option metrics) : res (list (string * shown)) :=
  match l with
  | [m] => Ok (map (fun kv => (fst kv, AsIs (snd kv))) m)
  | _ =>
      let grouped := group_names l in
      let u := match unsampled with Some u => u | None => [] end in
      if negb (same_keys grouped u) then Err ValueError
      else mapM (fun kvs => match dget String.eqb u (fst kvs), snd kvs with
                            | Some (VMessage t), _ => Ok (fst kvs, AsIs (VMessage t))
                            | Some v, first :: rest => let! s := t_distribution first rest v in Ok (fst kvs, s)
                            | Some _, [] => Err IndexError
                            | None, _ => Err KeyError
                            end) grouped
  end.

(** 34-103 [ComputeWithConfidenceIntervals].  [compute None] has the metrics per slice without
    sampling, [compute (Some i)] those of the i-th replica, in the order of GroupByKey [shuffle]. *)
Section Compute.
  Context {K : Type} (keqb : K -> K -> bool) (compute : option nat -> list (K * metrics)) (shuffle : list (K * metrics) -> list (K * metrics)).
  Definition compute_with_intervals (num_samples : option Z) : res (list (K * list (string * shown))) :=
    let n := match num_samples with None => 1%Z | Some z => if Z.eqb z 0 then 1%Z else z end in
    if Z.ltb n 1 then Err ValueError
    else
      let unsampled := compute None in
      if Z.ltb 1 n then
        let all := shuffle (flat_map (fun i => compute (Some i)) (seq 0 (Z.to_nat n))) in
        mapM (fun k => let! m := merge_bootstrap (map snd (filter (fun kv => keqb k (fst kv)) all)) (dget keqb unsampled k) in
                       Ok (k, m)) (dedup keqb (map fst all))
      else Ok (map (fun km => (fst km, map (fun kv => (fst kv, AsIs (snd kv))) (snd km))) unsampled).
End Compute.
