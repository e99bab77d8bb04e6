(* Shared vocabulary of the model: Python results/exceptions, exact numbers,
   extended (IEEE-like) numbers, insertion-ordered dictionaries.
   No application code is modelled in this file. *)
From Coq Require Import String Ascii.
From Coq Require Export List Arith ZArith QArith Qcanon Bool Permutation Lia Lqa.
From Coq Require Import Sorting.Sorted.
Export ListNotations.
Open Scope nat_scope.
Open Scope list_scope.
Close Scope Qc_scope.
Close Scope Q_scope.

(* ------------------------------------------------------------------ *)
(** * Python control flow: exceptions as values *)

Inductive exn :=
| ValueError | TypeError | KeyError | IndexError | ZeroDivisionError
| AssertionError | NotImplementedError | AttributeError | RuntimeError
| StopIteration | UnboundLocalError.

Inductive res (A : Type) :=
| Ok (a : A)
| Err (e : exn).
Arguments Ok {A} a.
Arguments Err {A} e.

Definition bind {A B} (r : res A) (f : A -> res B) : res B :=
  match r with Ok a => f a | Err e => Err e end.
Notation "'let!' x ':=' r 'in' k" := (bind r (fun x => k))
  (at level 200, x pattern, r at level 100, k at level 200).

Section MapM.
  Context {A B S : Type} (f : A -> res B) (g : S -> A -> res S).
  Fixpoint mapM (l : list A) : res (list B) :=
    match l with
    | [] => Ok []
    | x :: t => let! y := f x in let! ys := mapM t in Ok (y :: ys)
    end.

  Fixpoint foldM (l : list A) (s : S) : res S :=
    match l with
    | [] => Ok s
    | x :: t => let! s' := g s x in foldM t s'
    end.
End MapM.

Definition is_ok {A} (r : res A) : bool := match r with Ok _ => true | Err _ => false end.

(* ------------------------------------------------------------------ *)
(** * Exact numbers *)

Definition Qc_leb (x y : Qc) : bool := Qle_bool (this x) (this y).
Definition Qc_ltb (x y : Qc) : bool := negb (Qc_leb y x).
Definition Qc_eqb (x y : Qc) : bool := Qeq_bool (this x) (this y).

Definition qz (z : Z) : Qc := Q2Qc (inject_Z z).
Definition qn (n : nat) : Qc := qz (Z.of_nat n).

Definition Qcmax (x y : Qc) : Qc := if Qc_leb x y then y else x.
Definition Qcmin (x y : Qc) : Qc := if Qc_leb x y then x else y.

(** Sum of a list. *)
Definition qsum (l : list Qc) : Qc := fold_right Qcplus 0%Qc l.

(* ------------------------------------------------------------------ *)
(** * Extended numbers with IEEE comparisons *)

Inductive num := NaN | NegInf | Fin (q : Qc) | PosInf.

Definition num_leb (a b : num) : bool :=
  match a, b with
  | NaN, _ | _, NaN => false
  | NegInf, _ => true
  | _, PosInf => true
  | Fin x, Fin y => Qc_leb x y
  | _, _ => false
  end.

Definition num_ltb (a b : num) : bool :=
  match a, b with
  | NaN, _ | _, NaN => false
  | Fin x, Fin y => Qc_ltb x y
  | NegInf, NegInf => false
  | NegInf, _ => true
  | PosInf, _ => false
  | Fin _, NegInf => false
  | Fin _, PosInf => true
  end.

Definition num_eqb (a b : num) : bool :=
  match a, b with
  | Fin x, Fin y => Qc_eqb x y
  | NegInf, NegInf | PosInf, PosInf => true
  | _, _ => false
  end.

(** IEEE addition, negation and scaling by a finite number. *)
Definition num_plus (a b : num) : num :=
  match a, b with
  | NaN, _ | _, NaN => NaN
  | Fin x, Fin y => Fin (x + y)%Qc
  | PosInf, NegInf | NegInf, PosInf => NaN
  | PosInf, _ | _, PosInf => PosInf
  | NegInf, _ | _, NegInf => NegInf
  end.
Definition num_opp (a : num) : num :=
  match a with NaN => NaN | Fin x => Fin (- x)%Qc | PosInf => NegInf | NegInf => PosInf end.
Definition num_scale (w : Qc) (a : num) : num :=
  match a with
  | Fin x => Fin (w * x)%Qc
  | NaN => NaN
  | _ => if Qc_eqb w 0%Qc then NaN else if Qc_ltb 0%Qc w then a else num_opp a
  end.

(** numpy division of two finite numbers (np.divide / float64 arithmetic). *)
Definition np_div (a b : Qc) : num :=
  if Qc_eqb b 0%Qc then
    (if Qc_eqb a 0%Qc then NaN else if Qc_ltb 0%Qc a then PosInf else NegInf)
  else Fin (a / b)%Qc.

(** Python float division: raises on zero. *)
Definition py_div (a b : Qc) : res Qc :=
  if Qc_eqb b 0%Qc then Err ZeroDivisionError else Ok (a / b)%Qc.

(* ------------------------------------------------------------------ *)
(** * Insertion-ordered dictionaries *)

Section Dict.
  Context {K V : Type} (eqb : K -> K -> bool).

  Fixpoint dget (d : list (K * V)) (k : K) : option V :=
    match d with
    | [] => None
    | (k', v) :: t => if eqb k k' then Some v else dget t k
    end.

  Definition dmem (d : list (K * V)) (k : K) : bool :=
    match dget d k with Some _ => true | None => false end.

  (** d[k] = v : overwrite in place or append. *)
  Fixpoint dset (d : list (K * V)) (k : K) (v : V) : list (K * V) :=
    match d with
    | [] => [(k, v)]
    | (k', v') :: t => if eqb k k' then (k', v) :: t else (k', v') :: dset t k v
    end.

  (** del d[k] (first and only occurrence). *)
  Fixpoint ddel (d : list (K * V)) (k : K) : list (K * V) :=
    match d with
    | [] => []
    | (k', v') :: t => if eqb k k' then t else (k', v') :: ddel t k
    end.

  (** d.update(e) *)
  Definition dupdate (d e : list (K * V)) : list (K * V) :=
    fold_left (fun acc kv => dset acc (fst kv) (snd kv)) e d.

  Definition dkeys (d : list (K * V)) : list K := map fst d.
End Dict.

(** Keep the first occurrence of every element, in order. *)
Section Dedup.
  Context {A : Type} (eqb : A -> A -> bool).
  Fixpoint memb (x : A) (l : list A) : bool :=
    match l with [] => false | y :: t => eqb x y || memb x t end.
  Fixpoint dedup_from (seen l : list A) : list A :=
    match l with
    | [] => []
    | x :: t => if memb x seen then dedup_from seen t
                else x :: dedup_from (x :: seen) t
    end.
  Definition dedup := dedup_from [].
End Dedup.
