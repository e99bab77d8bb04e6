(* The contract of Beam's CombineFn / CombinePerKey, as relied upon by
   /repo/tensorflow_model_analysis (all users go through beam.CombinePerKey or
   beam.CombineGlobally, e.g. evaluators/metrics_plots_and_validations_evaluator.py
   lines 763-962, evaluators/jackknife.py 186-291, evaluators/poisson_bootstrap.py
   157-243, writers/metrics_plots_and_validations_writer.py 755-951).
   Beam itself is not part of /repo: this file is the trusted statement of what a
   runner may do with a CombineFn. *)
From Verif Require Import Base.

(** A CombineFn: create_accumulator / add_input / merge_accumulators /
    extract_output.  Python CombineFns may mutate and return their first
    argument; since no caller keeps the mutated accumulator this is modelled by
    the returned value. *)
Record combiner (I A O : Type) := Combiner {
  c_create  : A;
  c_add     : A -> I -> A;
  c_merge   : list A -> A;
  c_extract : A -> O
}.
Arguments Combiner {I A O}.
Arguments c_create {I A O}.
Arguments c_add {I A O}.
Arguments c_merge {I A O}.
Arguments c_extract {I A O}.

(** A schedule of one combine: bundles of inputs folded into a fresh
    accumulator, merges of one or more accumulators, and adding further inputs
    to an accumulator that already exists (possibly merged).  This covers
    combiner lifting, hot key fanout and any merge tree. *)
Inductive sched (I : Type) :=
| Bundle (xs : list I)
| Merge (t : sched I) (ts : list (sched I))
| Then (t : sched I) (xs : list I).
Arguments Bundle {I}.
Arguments Merge {I}.
Arguments Then {I}.

(** The inputs a schedule consumes. *)
Fixpoint inputs {I} (s : sched I) : list I :=
  match s with
  | Bundle xs => xs
  | Merge t ts => inputs t ++ flat_map inputs ts
  | Then t xs => inputs t ++ xs
  end.

(** The accumulator a schedule produces. *)
Fixpoint run {I A O} (c : combiner I A O) (s : sched I) : A :=
  match s with
  | Bundle xs => fold_left (c_add c) xs (c_create c)
  | Merge t ts => c_merge c (run c t :: map (run c) ts)
  | Then t xs => fold_left (c_add c) xs (run c t)
  end.

(** What the runner reports. *)
Definition outcome {I A O} (c : combiner I A O) (s : sched I) : O := c_extract c (run c s).

(** CombinePerKey: exactly one output per distinct key; the values of a key are
    combined by some schedule that consumes them in some order. *)
Definition values_of {K I} (keqb : K -> K -> bool) (k : K) (input : list (K * I)) : list I :=
  map snd (filter (fun kv => keqb k (fst kv)) input).

Definition per_key {K I A O} (keqb : K -> K -> bool) (c : combiner I A O)
    (input : list (K * I)) (output : list (K * O)) : Prop :=
  NoDup (map fst output) /\
  (forall k, In k (map fst output) <-> In k (map fst input)) /\
  (forall k o, In (k, o) output ->
     exists s, Permutation (inputs s) (values_of keqb k input) /\ outcome c s = o).

(** Shape shared by most CombineFns of the code base: a Python exception in
    add_input aborts (accumulators live in [res]); merge_accumulators is
      result = next(iter(accumulators)); for a in rest: result += a. *)
Definition merge_next {A} (plus : A -> A -> A) (l : list (res A)) : res A :=
  match l with
  | [] => Err StopIteration
  | a :: t => fold_left (fun acc b => let! x := acc in let! y := b in Ok (plus x y)) t a
  end.

Definition res_combiner {I A O} (create : A) (add : A -> I -> res A) (plus : A -> A -> A)
    (extract : A -> res O) : combiner I (res A) (res O) :=
  {| c_create := Ok create;
     c_add := fun acc x => let! a := acc in add a x;
     c_merge := merge_next plus;
     c_extract := fun acc => let! a := acc in extract a |}.
