(* Specification vocabulary for slicing, independent of the algorithms of
   Slicer_Model.v: only the data types (feature values, dictionaries, keys) are
   shared. *)
From Coq Require Import String Sorting.Sorted.
From Verif Require Import Base Slicer_Model.

(** The numeric value of a feature value, if it is a number. *)
Definition number_of (v : fval) : option Qc :=
  match v with VInt z => Some (qz z) | VFloat q => Some q | _ => None end.

(** The text of a feature value, if it is text. *)
Definition text_of (v : fval) : option string :=
  match v with VStr s | VBytes s => Some s | _ => None end.

(** Same value in the eyes of Python: identical, or the same number. *)
Definition same_value (a b : fval) : Prop :=
  a = b \/ exists q, number_of a = Some q /\ number_of b = Some q.

(** What is shown in a slice key for a raw value: text is decoded. *)
Definition shown (v : fval) : fval :=
  match text_of v with Some s => VStr s | None => v end.

(** Feature [n] of dictionary [d] holds the list of values [vs]. *)
Definition feat (d : fdict) (n : string) (vs : list fval) : Prop :=
  dget String.eqb d n = Some (Some vs).

(** The example (transformed feature dictionaries [ds], raw features [dflt])
    provides feature [n]. *)
Definition present (ds : list fdict) (dflt : option fdict) (n : string) : Prop :=
  (exists d vs, In d ds /\ feat d n vs) \/ (exists d vs, dflt = Some d /\ feat d n vs).

(** The example has value [v] for feature [n]: raw features are consulted only
    when no transformed dictionary provides the feature. *)
Definition has_value (ds : list fdict) (dflt : option fdict) (n : string) (v : fval) : Prop :=
  (exists d vs, In d ds /\ feat d n vs /\ In v vs)
  \/ ((forall d vs, In d ds -> ~ feat d n vs)
      /\ exists d vs, dflt = Some d /\ feat d n vs /\ In v vs).

(** Raw value [raw] satisfies the configured fixed value [v]: it is the same
    value, or the same text in bytes form, or the decimal text of the number.
    [render] gives the decimal text of a number as Python prints it. *)
Definition satisfies (render : fval -> string) (v raw : fval) : Prop :=
  same_value v raw
  \/ (exists s, v = VStr s /\ raw = VBytes s)
  \/ (exists q, number_of v = Some q /\ raw = VStr (render v)).

Definition name_lt (a b : string * fval) : Prop := String.ltb (fst a) (fst b) = true.

(** The set of slice keys of an example for columns [cols] and fixed values
    [fixed]: names ascending, exactly the names asked for, each column paired
    with one of the example's values, each fixed name with its fixed value. *)
Definition slice_of (cols : list string) (fixed : list (string * fval))
    (ds : list fdict) (dflt : option fdict) (k : skey) : Prop :=
  StronglySorted name_lt k
  /\ (forall n, In n (map fst k) <-> In n cols \/ In n (map fst fixed))
  /\ (forall n v, In (n, v) k ->
        In (n, v) fixed \/ (In n cols /\ exists raw, has_value ds dflt n raw /\ v = shown raw)).

(** All fixed values hold of the example. *)
Definition fixed_hold (render : fval -> string) (fixed : list (string * fval))
    (ds : list fdict) (dflt : option fdict) : Prop :=
  forall n v, In (n, v) fixed -> exists raw, has_value ds dflt n raw /\ satisfies render v raw.

(** Keys equal up to Python equality of values. *)
Definition same_entry (a b : string * fval) : Prop := fst a = fst b /\ same_value (snd a) (snd b).
Definition same_key (k k' : skey) : Prop := Forall2 same_entry k k'.
