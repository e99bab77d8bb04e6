(* Model of slicer/slicer_lib.py, slicer/slice_accessor.py and
   extractors/slice_key_extractor.py. *)
From Coq Require Import String Ascii.
From Verif Require Import Base Beam.
Local Open Scope string_scope.
Local Open Scope list_scope.

(* ------------------------------------------------------------------ *)
(** * Feature values *)

(** Feature values: slicer_lib.py 43-49 (FeatureValueType = Union[str,int,float])
    plus the bytes values found in raw examples (slice_accessor.py 60).  Text is
    held as its UTF-8 encoding, so VStr s and VBytes s denote u"s" and b"s". *)
Inductive fval :=
| VStr (s : string)
| VBytes (s : string)
| VInt (z : Z)
| VFloat (q : Qc).

(** Python's == on such values: numbers compare across int/float, str and bytes
    are never equal. *)
Definition py_eqb (a b : fval) : bool :=
  match a, b with
  | VStr x, VStr y => String.eqb x y
  | VBytes x, VBytes y => String.eqb x y
  | VInt x, VInt y => Z.eqb x y
  | VFloat x, VFloat y => Qc_eqb x y
  | VInt x, VFloat y => Qc_eqb (qz x) y
  | VFloat x, VInt y => Qc_eqb x (qz y)
  | _, _ => false
  end.

(* ------------------------------------------------------------------ *)
(** * int(str), float(str), str(int) *)

Definition is_digit (c : ascii) : bool :=
  let n := nat_of_ascii c in Nat.leb 48 n && Nat.leb n 57.
Definition digit_val (c : ascii) : Z := Z.of_nat (nat_of_ascii c) - 48.
Definition is_space (c : ascii) : bool :=
  let n := nat_of_ascii c in Nat.eqb n 32 || (Nat.leb 9 n && Nat.leb n 13).

Fixpoint lstrip (s : list ascii) : list ascii :=
  match s with c :: t => if is_space c then lstrip t else s | [] => [] end.
Definition strip (s : list ascii) : list ascii := rev (lstrip (rev (lstrip s))).

Definition split_sign (s : list ascii) : Z * list ascii :=
  match s with
  | "-"%char :: t => (-1, t)%Z
  | "+"%char :: t => (1%Z, t)
  | _ => (1%Z, s)
  end.

(** Digits with single underscores between digits (PEP 515).
    [prev] tells whether the previous character was a digit.  Returns the value,
    the number of digits read and the rest. *)
Fixpoint read_digits (prev : bool) (s : list ascii) (acc : Z) (n : nat)
  : option (Z * nat * list ascii) :=
  match s with
  | c :: t =>
      if is_digit c then read_digits true t (acc * 10 + digit_val c)%Z (S n)
      else if Ascii.eqb c "_"%char then
        match t with
        | d :: _ => if prev && is_digit d then read_digits false t acc n else None
        | [] => None
        end
      else Some (acc, n, s)
  | [] => Some (acc, n, [])
  end.

(** Python int(str): optional whitespace, sign, ASCII digits.  Simplification:
    non-ASCII Unicode digits are not recognised. *)
Definition py_int (s : string) : option Z :=
  let (sg, b) := split_sign (strip (list_ascii_of_string s)) in
  match read_digits false b 0%Z 0 with
  | Some (v, S _, []) => Some (sg * v)%Z
  | _ => None
  end.

Definition pow10 (n : nat) : Z := (10 ^ Z.of_nat n)%Z.

(** Python float(str) for strings containing a "." (the only call site is
    slicer_lib.py 384-385): decimal notation with optional exponent.
    Simplification: the exact rational value is kept (no rounding to binary64). *)
Definition py_float (s : string) : option Qc :=
  let (sg, b) := split_sign (strip (list_ascii_of_string s)) in
  match read_digits false b 0%Z 0 with
  | None => None
  | Some (ip, ni, rest) =>
      let after_point :=
        match rest with
        | "."%char :: t => read_digits false t 0%Z 0
        | _ => Some (0%Z, 0, rest)
        end in
      match after_point with
      | None => None
      | Some (fp, nf, rest2) =>
          if Nat.eqb (ni + nf) 0 then None else
          let mant := (qz sg * (qz ip + qz fp / qz (pow10 nf)))%Qc in
          match rest2 with
          | [] => Some mant
          | c :: t =>
              if Ascii.eqb c "e"%char || Ascii.eqb c "E"%char then
                let (es, eb) := split_sign t in
                match read_digits false eb 0%Z 0 with
                | Some (ev, S _, []) =>
                    if Z.eqb es 1 then Some (mant * qz (10 ^ ev))%Qc
                    else Some (mant / qz (10 ^ ev))%Qc
                | _ => None
                end
              else None
          end
      end
  end.

Fixpoint has_dot (s : string) : bool :=
  match s with
  | EmptyString => false
  | String c t => Ascii.eqb c "."%char || has_dot t
  end.

(** Decimal printing of integers, str(int). *)
Fixpoint print_nat_fuel (fuel : nat) (n : Z) (acc : string) : string :=
  match fuel with
  | 0 => acc
  | S f =>
      let d := String (ascii_of_nat (48 + Z.to_nat (n mod 10))) acc in
      if Z.eqb (n / 10) 0 then d else print_nat_fuel f (n / 10) d
  end.
Definition print_Z (z : Z) : string :=
  let a := Z.abs z in
  let fuel := S (Z.to_nat (Z.log2 (Z.max a 1))) in
  let body := print_nat_fuel fuel a "" in
  if Z.ltb z 0 then String "-"%char body else body.

(* ------------------------------------------------------------------ *)
(** * The slicer *)

Definition skey := list (string * fval).

Section Slicer.
  (** Oracles of the Python runtime: repr of a float and UTF-8 validity. *)
  Context (float_repr : Qc -> string) (valid_utf8 : string -> bool).

  (** slicer_lib.py 378-389 [_to_type]. *)
  Definition to_type (v : fval) : fval :=
    match v with
    | VFloat _ | VInt _ => v
    | VStr s =>
        if has_dot s then match py_float s with Some q => VFloat q | None => VStr s end
        else match py_int s with Some z => VInt z | None => VStr s end
    | VBytes s => (* str(b"...") is the repr, which never parses as a number *)
        VStr ("b'" ++ s ++ "'")%string
    end.

  (** A SlicingSpec proto: feature_keys (repeated), feature_values (map). *)
  Record slicing_spec := SlicingSpec {
    sp_keys : list string;
    sp_values : list (string * string)
  }.

  (** slicer_lib.py 96-156, 133-156 [SingleSliceSpec.__init__] with spec=…:
      _columns / _features are frozensets; they are held as duplicate-free lists
      (iteration order of the Python set is immaterial, see theorems).
      _value_matches is sorted by name: the names of a proto map are unique so
      values never need comparing. *)
  Record spec := Spec {
    columns : list string;
    features : list (string * fval)
  }.

  Definition mk_spec (p : slicing_spec) : res spec :=
    let cols := dedup String.eqb (sp_keys p) in
    let feats := map (fun kv => (fst kv, to_type (VStr (snd kv)))) (sp_values p) in
    if existsb (fun kv => memb String.eqb (fst kv) cols) feats
    then Err ValueError
    else Ok (Spec cols feats).

  (** A features dictionary; a value may be None (slice_accessor.py 41-53). *)
  Definition fdict := list (string * option (list fval)).

  (** slice_accessor.py 41-53 [SliceAccessor.has_key]. *)
  Definition dict_has (d : fdict) (k : string) : bool :=
    match dget String.eqb d k with Some (Some _) => true | _ => false end.
  Definition has_key (ds : list fdict) (dflt : option fdict) (k : string) : bool :=
    existsb (fun d => dict_has d k) ds
    || match dflt with Some d => dict_has d k | None => false end.

  (** slice_accessor.py 55-113 [SliceAccessor.get].  Values are already the flat
      list of the feature.  np.unique is modelled as removal of duplicates; its
      sorting only affects the order in which slices are yielded. *)
  Definition dict_vals (d : fdict) (k : string) : option (list fval) :=
    match dget String.eqb d k with Some (Some v) => Some v | _ => None end.
  Definition acc_step (k : string) (acc : option (list fval)) (d : fdict) : option (list fval) :=
    match dict_vals d k, acc with
    | None, _ => acc
    | Some v, None => Some v
    | Some v, Some a => Some (a ++ v)
    end.
  Definition acc_get (ds : list fdict) (dflt : option fdict) (k : string) : res (list fval) :=
    let from_dicts := fold_left (acc_step k) ds None in
    let values := match from_dicts with
                  | Some v => Some v
                  | None => match dflt with Some d => dict_vals d k | None => None end
                  end in
    match values with
    | Some v => Ok (dedup py_eqb v)
    | None => Err KeyError
    end.

  (** slicer_lib.py 235-246: does the fixed feature match? *)
  Definition fixed_matches (value : fval) (vals : list fval) : bool :=
    memb py_eqb value vals
    || match value with
       | VStr s => memb py_eqb (VBytes s) vals
       | VInt z => memb py_eqb (VStr (print_Z z)) vals
       | VFloat q => memb py_eqb (VStr (float_repr q)) vals
       | VBytes _ => false
       end.

  Fixpoint check_fixed (ds : list fdict) (dflt : option fdict) (fs : list (string * fval))
    : res bool :=
    match fs with
    | [] => Ok true
    | (k, v) :: t =>
        if has_key ds dflt k then
          let! vals := acc_get ds dflt k in
          if fixed_matches v vals then check_fixed ds dflt t else Ok false
        else Ok false
    end.

  (** slicer_lib.py 263-274: bytes are converted to text. *)
  Definition column_entry (c : string) (v : fval) : res (string * fval) :=
    match v with
    | VBytes s => if valid_utf8 s then Ok (c, VStr s) else Err ValueError
    | _ => Ok (c, v)
    end.

  (** slicer_lib.py 256-275; None = a column is absent (return without slices). *)
  Fixpoint column_matches (ds : list fdict) (dflt : option fdict) (cols : list string)
    : res (option (list (list (string * fval)))) :=
    match cols with
    | [] => Ok (Some [])
    | c :: t =>
        if has_key ds dflt c then
          let! vals := acc_get ds dflt c in
          let! entries := mapM (column_entry c) vals in
          let! rest := column_matches ds dflt t in
          Ok (match rest with Some r => Some (entries :: r) | None => None end)
        else Ok None
    end.

  (** itertools.product *)
  Fixpoint product {A} (ls : list (list A)) : list (list A) :=
    match ls with
    | [] => [[]]
    | l :: t => flat_map (fun x => map (cons x) (product t)) l
    end.

  (** sorted() of (name, value) tuples; names within a key are distinct so the
      comparison is decided by the name (code point order = UTF-8 byte order). *)
  Definition name_leb (a b : string * fval) : bool := String.leb (fst a) (fst b).
  Fixpoint insert_sorted (x : string * fval) (l : skey) : skey :=
    match l with
    | [] => [x]
    | y :: t => if name_leb x y then x :: l else y :: insert_sorted x t
    end.
  Definition sort_key (l : skey) : skey := fold_right insert_sorted [] l.

  (** slicer_lib.py 202-282 [SingleSliceSpec.generate_slices]. *)
  Definition generate_slices (sp : spec) (ds : list fdict) (dflt : option fdict)
    : res (list skey) :=
    let! ok := check_fixed ds dflt (features sp) in
    if ok then
      let! cm := column_matches ds dflt (columns sp) in
      match cm with
      | None => Ok []
      | Some ms => Ok (map (fun part => sort_key (features sp ++ part)) (product ms))
      end
    else Ok [].

  (** list.remove: drop the first equal element. *)
  Fixpoint remove_first {A} (eqb : A -> A -> bool) (x : A) (l : list A) : list A :=
    match l with
    | [] => []
    | y :: t => if eqb x y then t else y :: remove_first eqb x t
    end.
  Definition pair_eqb (a b : string * fval) : bool :=
    String.eqb (fst a) (fst b) && py_eqb (snd a) (snd b).

  (** slicer_lib.py 174-200 [SingleSliceSpec.is_slice_applicable]. *)
  Fixpoint applicable_loop (cols : list string) (feats : list (string * fval)) (k : skey) : bool :=
    match k with
    | [] => match feats, cols with [], [] => true | _, _ => false end
    | (n, v) :: t =>
        let s := (n, to_type v) in
        if memb pair_eqb s feats then applicable_loop cols (remove_first pair_eqb s feats) t
        else if memb String.eqb n cols then applicable_loop (remove_first String.eqb n cols) feats t
        else false
    end.
  Definition is_slice_applicable (sp : spec) (k : skey) : bool :=
    applicable_loop (columns sp) (features sp) k.

  (** slicer_lib.py 642-663 [slice_key_matches_slice_specs]. *)
  Definition slice_key_matches_slice_specs (k : skey) (sps : list spec) : bool :=
    existsb (fun sp => is_slice_applicable sp k) sps.

  (** A CrossSlicingSpec proto: baseline_spec + slicing_specs, and slicer_lib.py
      560-575 [is_cross_slice_applicable].  SingleSliceSpec(spec=…) may raise. *)
  Record cross_spec := CrossSpec {
    cs_base : slicing_spec;
    cs_specs : list slicing_spec
  }.
  Fixpoint any_applicable (k : skey) (ps : list slicing_spec) : res bool :=
    match ps with
    | [] => Ok false
    | p :: t => let! sp := mk_spec p in
                if is_slice_applicable sp k then Ok true else any_applicable k t
    end.
  Definition is_cross_slice_applicable (bk ck : skey) (cs : cross_spec) : res bool :=
    let! b := mk_spec (cs_base cs) in
    if is_slice_applicable b bk then any_applicable ck (cs_specs cs) else Ok false.

  (** slicer_lib.py 456-482 [get_slices_for_features_dicts]. *)
  Fixpoint get_slices (ds : list fdict) (dflt : option fdict) (sps : list spec) : res (list skey) :=
    match sps with
    | [] => Ok []
    | sp :: t => let! a := generate_slices sp ds dflt in
                 let! b := get_slices ds dflt t in Ok (a ++ b)
    end.

  (** frozenset equality of two SingleSliceSpecs (slicer_lib.py 81-91). *)
  Definition subset {A} (eqb : A -> A -> bool) (l1 l2 : list A) : bool :=
    forallb (fun x => memb eqb x l2) l1.
  Definition spec_eqb (a b : spec) : bool :=
    subset String.eqb (columns a) (columns b) && subset String.eqb (columns b) (columns a)
    && subset pair_eqb (features a) (features b) && subset pair_eqb (features b) (features a).

  (** slice_key_extractor.py 59-75: the specs used for an eval config. *)
  Definition add_spec (acc : list spec) (sp : spec) : list spec :=
    if memb spec_eqb sp acc then acc else acc ++ [sp].
  Definition add_specM (acc : list spec) (p : slicing_spec) : res (list spec) :=
    let! sp := mk_spec p in Ok (add_spec acc sp).
  Definition add_cross (acc : list spec) (cs : cross_spec) : res (list spec) :=
    let! acc1 := add_specM acc (cs_base cs) in foldM add_specM (cs_specs cs) acc1.
  Definition config_specs (slicing : list slicing_spec) (cross : list cross_spec)
    : res (list spec) :=
    let! base := mapM mk_spec slicing in
    let! all := foldM add_cross cross base in
    Ok (match all with [] => [Spec [] []] | _ => all end).

  (** key equality used by Python sets of slice keys (tuple ==). *)
  Fixpoint key_eqb (a b : skey) : bool :=
    match a, b with
    | [], [] => true
    | x :: t, y :: u => pair_eqb x y && key_eqb t u
    | _, _ => false
    end.

  (** slice_key_extractor.py 98-157 [ExtractSliceKeysFn.process]: the keys stored
      with the example; [pre] are keys already present (SQL slicer).
      list(set(...)) is modelled as first-occurrence deduplication. *)
  Definition extract_slice_keys (ds : list fdict) (dflt : option fdict) (sps : list spec)
      (pre : list skey) : res (list skey) :=
    let! ks := get_slices ds dflt sps in Ok (dedup key_eqb (ks ++ pre)).

  (** slicer_lib.py 680-697 [_FanoutSlicesDoFn.process]; [keys] is the stored list
      or, after batching/grouping, the flattened values of several rows. *)
  Definition fanout {X} (keys : list skey) (x : X) : list (skey * X) :=
    map (fun k => (k, x)) (dedup key_eqb keys).
End Slicer.

(* ------------------------------------------------------------------ *)
(** * FilterOutSlices: slicer_lib.py 784-828 *)

Section FilterOut.
  Context {V : Type} (error_value : V).

  (** The DoFn after CoGroupByKey: [values] and [slices_count] are the lists of
      values grouped under the key (lines 807-821).  [is_overall]: not slice_key. *)
  Definition filter_small (min_size : Z) (is_overall : bool) (values : list V) (counts : list Z)
    : res (option V) :=
    match values with
    | [] => Ok None
    | v :: _ =>
        if is_overall then Ok (Some v)
        else match counts with
             | [] => Err IndexError
             | n :: _ => if Z.leb min_size n then Ok (Some v) else Ok (Some error_value)
             end
    end.
End FilterOut.

(** CoGroupByKey of two keyed collections, then the DoFn, for every key. *)
Definition filter_out_slices {K V} (keqb : K -> K -> bool) (is_overall : K -> bool)
    (error_value : V) (min_size : Z)
    (values : list (K * V)) (counts : list (K * Z)) : res (list (K * V)) :=
  let keys := dedup keqb (map fst values ++ map fst counts) in
  let step acc k :=
    let! o := filter_small error_value min_size (is_overall k)
                (map snd (filter (fun kv => keqb k (fst kv)) values))
                (map snd (filter (fun kv => keqb k (fst kv)) counts)) in
    Ok (match o with Some v => acc ++ [(k, v)] | None => acc end) in
  foldM step keys [].

(* ------------------------------------------------------------------ *)
(** * Slice key protos: slicer_lib.py 346-375, 392-453 *)

(** SingleSliceKey proto: column + oneof kind. *)
Inductive kind := BytesValue (s : string) | Int64Value (z : Z) | FloatValue (q : Qc).
Record single_slice_key := SingleSliceKey { ssk_column : string; ssk_kind : option kind }.

Section Serialize.
  (** float_value is a 32-bit float field; [f32] is the rounding. int64_value
      rejects out-of-range integers with ValueError. *)
  Context (f32 : Qc -> Qc).
  Definition int64_ok (z : Z) : bool := (Z.leb (- 2 ^ 63) z && Z.ltb z (2 ^ 63))%Z.

  Definition serialize_single (cv : string * fval) : res single_slice_key :=
    let (c, v) := cv in
    match v with
    | VStr s | VBytes s => Ok (SingleSliceKey c (Some (BytesValue s)))
    | VInt z => if int64_ok z then Ok (SingleSliceKey c (Some (Int64Value z))) else Err ValueError
    | VFloat q => Ok (SingleSliceKey c (Some (FloatValue (f32 q))))
    end.
  Definition serialize_slice_key (k : skey) : res (list single_slice_key) :=
    mapM serialize_single k.

  (** slicer_lib.py 418-431; as_text on the bytes (always the text here). *)
  Definition deserialize_single (s : single_slice_key) : res (string * fval) :=
    match ssk_kind s with
    | Some (BytesValue b) => Ok (ssk_column s, VStr b)
    | Some (Int64Value z) => Ok (ssk_column s, VInt z)
    | Some (FloatValue q) => Ok (ssk_column s, VFloat q)
    | None => Err TypeError
    end.
  Definition deserialize_slice_key (l : list single_slice_key) : res skey :=
    mapM deserialize_single l.

  Definition serialize_cross (ck : skey * skey) :=
    let! b := serialize_slice_key (fst ck) in
    let! c := serialize_slice_key (snd ck) in Ok (b, c).
  Definition deserialize_cross (p : list single_slice_key * list single_slice_key) :=
    let! b := deserialize_slice_key (fst p) in
    let! c := deserialize_slice_key (snd p) in Ok (b, c).
End Serialize.

(* ------------------------------------------------------------------ *)
(** * get_slice_key_type: slicer_lib.py 578-639 *)

(** Python objects that can be offered as slice keys: atoms and tuples. *)
Inductive pyobj :=
| PStr (s : string) | PBytes (s : string) | PInt (z : Z) | PFloat (q : Qc)
| PTup (l : list pyobj).

Inductive key_type := SingleKey | CrossKey.

(** Unpacking "a, b = x": tuples of length 2; a str/bytes of length 2 also
    unpacks (into characters / ints); int and float raise TypeError. *)
Definition unpack2 (o : pyobj) : res (pyobj * pyobj) :=
  match o with
  | PTup [a; b] => Ok (a, b)
  | PTup _ => Err ValueError
  | PStr (String a (String b EmptyString)) =>
      Ok (PStr (String a EmptyString), PStr (String b EmptyString))
  | PStr _ => Err ValueError
  | PBytes (String a (String b EmptyString)) =>
      Ok (PInt (Z.of_nat (nat_of_ascii a)), PInt (Z.of_nat (nat_of_ascii b)))
  | PBytes _ => Err ValueError
  | PInt _ | PFloat _ => Err TypeError
  end.

(** lines 595-607; a TypeError from unpacking propagates. *)
Definition is_singleton_slice_key_type (o : pyobj) : res bool :=
  match unpack2 o with
  | Ok (c, v) =>
      Ok (match c with
          | PStr _ | PBytes _ =>
              match v with PStr _ | PBytes _ | PInt _ | PFloat _ => true | PTup _ => false end
          | _ => false
          end)
  | Err ValueError => Ok false
  | Err e => Err e
  end.

(** Python truthiness and iteration of such an object (a str iterates over its
    characters, bytes over ints; numbers are not iterable). *)
Definition py_false (o : pyobj) : bool :=
  match o with
  | PTup [] | PStr EmptyString | PBytes EmptyString => true
  | PInt z => Z.eqb z 0
  | PFloat q => Qc_eqb q 0%Qc
  | _ => false
  end.
Definition iter (o : pyobj) : res (list pyobj) :=
  match o with
  | PTup l => Ok l
  | PStr s => Ok (map (fun c => PStr (String c EmptyString)) (list_ascii_of_string s))
  | PBytes s => Ok (map (fun c => PInt (Z.of_nat (nat_of_ascii c))) (list_ascii_of_string s))
  | _ => Err TypeError
  end.

(** lines 609-616 *)
Fixpoint all_singletons (l : list pyobj) : res bool :=
  match l with
  | [] => Ok true
  | o :: t => let! b := is_singleton_slice_key_type o in
              if b then all_singletons t else Ok false
  end.
Definition is_slice_key_type (o : pyobj) : res bool :=
  if py_false o then Ok true else let! l := iter o in all_singletons l.

(** lines 618-634 *)
Definition get_slice_key_type (o : pyobj) : res key_type :=
  let! b := is_slice_key_type o in
  if b then Ok SingleKey
  else match unpack2 o with
       | Err ValueError => Err TypeError
       | Err e => Err e
       | Ok (x, y) =>
           let! bx := is_slice_key_type x in
           if bx then let! by_ := is_slice_key_type y in
                      if by_ then Ok CrossKey else Err TypeError
           else Err TypeError
       end.

Definition is_cross_slice_key (o : pyobj) : res bool :=
  let! t := get_slice_key_type o in
  Ok (match t with CrossKey => true | SingleKey => false end).

(** A slice key / cross slice key as a Python tuple. *)
Definition val_obj (v : fval) : pyobj :=
  match v with VStr s => PStr s | VBytes s => PBytes s | VInt z => PInt z | VFloat q => PFloat q end.
Definition key_obj (k : skey) : pyobj :=
  PTup (map (fun nv => PTup [PStr (fst nv); val_obj (snd nv)]) k).
Definition cross_obj (ck : skey * skey) : pyobj := PTup [key_obj (fst ck); key_obj (snd ck)].
