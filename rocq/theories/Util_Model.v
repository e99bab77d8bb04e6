(* Model of utils/util.py: nested dictionaries, key lookup, filters, key names. *)
From Coq Require Import String Ascii.
From Verif Require Import Base Slicer_Model.
Local Open Scope string_scope.
Local Open Scope list_scope.

(** Possibly multi-level dictionaries (types.TensorValueMaybeMultiLevelDict):
    a leaf is anything that is not a Mapping. *)
Inductive data (A : Type) :=
| Leaf (a : A)
| Dict (d : list (string * data A)).
Arguments Leaf {A}.
Arguments Dict {A}.

Section Util.
  Context {A : Type}.

  (** str.startswith / slicing off a prefix. *)
  Fixpoint strip_prefix (p s : string) : option string :=
    match p, s with
    | EmptyString, _ => Some s
    | String a p', String b s' => if Ascii.eqb a b then strip_prefix p' s' else None
    | _, _ => None
    end.

  (** util.py 536-545: entries whose key starts with key + "/", prefix removed. *)
  Definition prefix_matches (key : string) (d : list (string * data A)) : list (string * data A) :=
    flat_map (fun kv => match strip_prefix (key ++ "/") (fst kv) with
                        | Some r => [(r, snd kv)]
                        | None => []
                        end) d.

  (** util.py 518-547: the walk; [None] = a key was not found (break).  Keys are
      never None here. *)
  Fixpoint walk (value : data A) (keys : list string) : res (option (data A)) :=
    match keys with
    | [] => Ok (Some value)
    | key :: t =>
        match value with
        | Leaf _ => Err ValueError
        | Dict d =>
            match dget String.eqb d key with
            | Some v => walk v t
            | None =>
                match prefix_matches key d with
                | [] => Ok None
                | pm => walk (Dict pm) t
                end
            end
        end
    end.

  (** util.py 486-558 [get_by_keys]; the result None is Python's None (optional). *)
  Definition get_by_keys (value : data A) (keys : list string)
      (default_value : option (data A)) (optional : bool) : res (option (data A)) :=
    match keys with
    | [] => Err ValueError
    | _ =>
        let! found := walk value keys in
        match found with
        | Some (Leaf a) => Ok (Some (Leaf a))
        | Some (Dict (e :: d)) => Ok (Some (Dict (e :: d)))
        | Some (Dict []) | None =>
            match default_value with
            | Some dv => Ok (Some dv)
            | None => if optional then Ok None else Err ValueError
            end
        end
    end.
End Util.

(* ------------------------------------------------------------------ *)
(** * Filters: util.py 658-748 *)

(** A filter: a dict of filters (empty dict = everything below). *)
Inductive filt := Filt (fs : list (string * filt)).
Definition subfilters (f : filt) := match f with Filt fs => fs end.

Section Filters.
  Context {A : Type}.

  (** util.py 658-685 [include_filter]; an empty sub filter keeps target[key], which
      is what the recursive call on an empty filter returns.  Simplification: leaves are never None;
      "key in target" on a leaf is not meaningful and modelled as TypeError. *)
  Fixpoint include_filter (f : filt) (t : data A) : res (data A) :=
    match f with
    | Filt [] => Ok t
    | Filt fs =>
        match t with
        | Leaf _ => Err TypeError
        | Dict d =>
            let! l := foldM (fun acc ks =>
              match dget String.eqb d (fst ks) with
              | None => Ok acc
              | Some v => let! r := include_filter (snd ks) v in Ok (dset String.eqb acc (fst ks) r)
              end) fs [] in
            Ok (Dict l)
        end
    end.

  (** util.py 688-712 [exclude_filter].  "if value": an empty dict is dropped; an
      array result cannot arise because exclude_filter returns dicts.
      target.items() on a leaf raises AttributeError. *)
  Fixpoint exclude_filter (f : filt) (t : data A) {struct t} : res (data A) :=
    match t with
    | Leaf _ => Err AttributeError
    | Dict d =>
        let! l := mapM (fun kv =>
          match dget String.eqb (subfilters f) (fst kv) with
          | None => Ok [kv]
          | Some (Filt []) => Ok []
          | Some sub =>
              let! r := exclude_filter sub (snd kv) in
              match r with
              | Dict [] => Ok []
              | _ => Ok [(fst kv, r)]
              end
          end) d in
        Ok (Dict (concat l))
    end.

  (** util.py 715-748 [merge_filters]; the union of the two key sets is iterated
      in the order keys of filter1, then the other keys of filter2. *)
  Fixpoint merge_filters (f1 f2 : filt) {struct f1} : filt :=
    match f1, f2 with
    | Filt [], _ => f1
    | _, Filt [] => f2
    | Filt fs1, Filt fs2 =>
        Filt (map (fun ks => (fst ks, match dget String.eqb fs2 (fst ks) with
                                      | Some s2 => merge_filters (snd ks) s2
                                      | None => snd ks
                                      end)) fs1
              ++ filter (fun kv => negb (dmem String.eqb fs1 (fst kv))) fs2)
    end.
End Filters.

(* ------------------------------------------------------------------ *)
(** * Names: util.py 439-473 *)

(** util.py 454-461 [unique_key]: the while loop, with [fuel] iterations; the
    theorem shows which fuel always suffices.  "%s_%d" % (key, index). *)
Definition suffixed (key : string) (index : nat) : string :=
  key ++ "_" ++ print_Z (Z.of_nat index).

Fixpoint unique_loop (fuel : nat) (key : string) (current : list string) (k : string) (index : nat)
  : option string :=
  if memb String.eqb k current then
    match fuel with
    | 0 => None
    | S f => unique_loop f key current (suffixed key index) (S index)
    end
  else Some k.
Definition unique_key (fuel : nat) (key : string) (current : list string) : option string :=
  unique_loop fuel key current key 1.

(** str.replace(sep, rep): leftmost, non-overlapping; [skip] characters belong to
    a separator that has just been replaced.  [sep] is not empty. *)
Fixpoint replace_from (skip : nat) (sep rep s : string) : string :=
  match s with
  | EmptyString => EmptyString
  | String c t =>
      match skip with
      | S n => replace_from n sep rep t
      | 0 => match strip_prefix sep s with
             | Some _ => rep ++ replace_from (String.length sep - 1) sep rep t
             | None => String c (replace_from 0 sep rep t)
             end
      end
  end.
Definition replace (sep rep s : string) : string := replace_from 0 sep rep s.
(** str.join *)
Fixpoint join (sep : string) (l : list string) : string :=
  match l with
  | [] => ""
  | [s] => s
  | s :: t => s ++ sep ++ join sep t
  end.

(** util.py 49 *)
Definition KEY_SEPARATOR : string := "__".
(** util.py 463-473 [compound_key] *)
Definition compound_key (sep : string) (keys : list string) : string :=
  join sep (map (replace sep (sep ++ sep)) keys).
