(* The path from examples to per-slice metrics:
   slice key extraction -> fan-out -> CombinePerKey
   (evaluators/metrics_plots_and_validations_evaluator.py 833-925 without
   confidence intervals, extractors/slice_key_extractor.py 98-157,
   slicer/slicer_lib.py 680-746). *)
From Coq Require Import String.
From Verif Require Import Base Beam Slicer_Model.

(** An example: transformed feature dictionaries, raw features, and the payload
    the metrics look at. *)
Record example (X : Type) := Example {
  ex_dicts : list fdict;
  ex_raw : option fdict;
  ex_data : X
}.
Arguments Example {X}.
Arguments ex_dicts {X}.
Arguments ex_raw {X}.
Arguments ex_data {X}.

(** Equality of encoded keys in Beam's GroupByKey: the coders keep int and float
    apart, so it is structural equality. *)
Definition fval_eqb (a b : fval) : bool :=
  match a, b with
  | VStr x, VStr y | VBytes x, VBytes y => String.eqb x y
  | VInt x, VInt y => Z.eqb x y
  | VFloat x, VFloat y => Qc_eqb x y
  | _, _ => false
  end.
Fixpoint skey_eqb (a b : skey) : bool :=
  match a, b with
  | [], [] => true
  | (n, v) :: t, (m, w) :: u => String.eqb n m && fval_eqb v w && skey_eqb t u
  | _, _ => false
  end.

Section Pipeline.
  Context (float_repr : Qc -> string) (valid_utf8 : string -> bool) {X : Type}.

  (** ExtractSliceKeys followed by FanoutSlices on one example. *)
  Definition fan_example (sps : list spec) (x : example X) : res (list (skey * example X)) :=
    let! ks := extract_slice_keys float_repr valid_utf8 (ex_dicts x) (ex_raw x) sps [] in
    Ok (fanout ks x).

  (** The keyed collection offered to CombinePerKey. *)
  Definition keyed_examples (sps : list spec) (xs : list (example X))
    : res (list (skey * example X)) :=
    let! l := mapM (fan_example sps) xs in Ok (concat l).
End Pipeline.

(** beam.combiners.Count.PerElement / PerKey: number of elements. *)
Definition count_combiner {I} : combiner I Z Z :=
  {| c_create := 0%Z;
     c_add := fun a _ => (a + 1)%Z;
     c_merge := fun l => fold_right Z.add 0%Z l;
     c_extract := fun a => a |}.
