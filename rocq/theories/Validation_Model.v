(* Model of validation: metrics/metric_specs.py 635-730 (thresholds of a config),
   evaluators/metrics_validator.py (verdict for a slice, merging of details, missing slices)
   and writers/metrics_plots_and_validations_writer.py 674-752 (CombineValidations). *)
From Coq Require Import String.
From Verif Require Import Base Beam Slicer_Model Inputs_Model Keys_Model Means_Model.
Local Open Scope string_scope.
Local Open Scope list_scope.

(* ------------------------------------------------------------------ *)
(** * Thresholds *)

(** config.proto 389-424.  Bounds are doubles; a missing wrapper field is None. *)
Inductive direction := UnknownDirection | LowerIsBetter | HigherIsBetter.
Inductive threshold :=
| ValueThreshold (lower upper : option num)
| ChangeThreshold (absolute relative : option num) (dir : direction).
Record metric_threshold := MetricThreshold {
  mt_value : option (option num * option num);
  mt_change : option (option num * option num * direction)
}.

(** A slicing spec or cross slicing spec a threshold is scoped to.  Simplification: specs
    are the SingleSliceSpec / CrossSliceSpec objects (slicer_lib.py 62-117, 285-316) instead of the
    messages they are built from; metric_thresholds_from_metrics_specs builds the object of
    every spec it meets, so an invalid one raises there already. *)
Inductive scope := SingleScope (sp : spec) | CrossScope (base : spec) (specs : list spec).

(** Equality of these objects: frozensets, and tuples of them. *)
Fixpoint specs_eqb (a b : list spec) : bool :=
  match a, b with
  | [], [] => true
  | x :: t, y :: u => spec_eqb x y && specs_eqb t u
  | _, _ => false
  end.
Definition scope_eqb (a b : scope) : bool :=
  match a, b with
  | SingleScope x, SingleScope y => spec_eqb x y
  | CrossScope x xs, CrossScope y ys => spec_eqb x y && specs_eqb xs ys
  | _, _ => false
  end.
Definition overall : spec := Spec [] [].

(** SerializeToString of a threshold: equal exactly if all fields are.  Doubles are
    exact and NaN is one value. *)
Definition same_num (a b : num) : bool :=
  match a, b with NaN, NaN => true | _, _ => num_eqb a b end.
Definition direction_eqb (a b : direction) : bool :=
  match a, b with
  | UnknownDirection, UnknownDirection | LowerIsBetter, LowerIsBetter | HigherIsBetter, HigherIsBetter => true
  | _, _ => false
  end.
Definition threshold_eqb (a b : threshold) : bool :=
  match a, b with
  | ValueThreshold l u, ValueThreshold l' u' => option_eqb same_num l l' && option_eqb same_num u u'
  | ChangeThreshold x r d, ChangeThreshold x' r' d' =>
      option_eqb same_num x x' && option_eqb same_num r r' && direction_eqb d d'
  | _, _ => false
  end.

(** metric_specs.py 635-730.  The entries are the (key, slicing spec, threshold) triples of the
    loops 685-728 in their order; a key maps to the thresholds added for it. *)
Definition thresholds := list (metric_key * list (option scope * threshold)).
Definition entry_eqb (a b : option scope * threshold) : bool :=
  option_eqb scope_eqb (fst a) (fst b) && threshold_eqb (snd a) (snd b).
(** 645-669 [add_if_not_exists]; result is a defaultdict of lists. *)
Definition add_if_not_exists (r : thresholds) (k : metric_key) (sc : option scope) (t : threshold) : thresholds :=
  match dget metric_key_eqb r k with
  | Some l => if memb entry_eqb (sc, t) l then r else dset metric_key_eqb r k (l ++ [(sc, t)])
  | None => dset metric_key_eqb r k [(sc, t)]
  end.
(** 671-683 [add_threshold] *)
Definition add_threshold (r : thresholds) (e : metric_key * option scope * metric_threshold) : thresholds :=
  let '(k, sc, t) := e in
  let r1 := match mt_value t with
            | Some (l, u) => add_if_not_exists r k sc (ValueThreshold l u)
            | None => r
            end in
  match mt_change t with
  | Some (a, rel, d) => add_if_not_exists r1 (make_diff_key k) sc (ChangeThreshold a rel d)
  | None => r1
  end.
Definition metric_thresholds (entries : list (metric_key * option scope * metric_threshold)) : thresholds :=
  fold_left add_threshold entries [].

(* ------------------------------------------------------------------ *)
(** * The verdict for one slice: metrics_validator.py 36-231 *)

(** What float(metric) does with a value: a number, a text (not the text of a number, so
    ValueError), anything else (TypeError). *)
Inductive mvalue := Number (x : num) | Text (s : string) | Structure.
Definition to_float (v : mvalue) : res num :=
  match v with Number x => Ok x | Text _ => Err ValueError | Structure => Err TypeError end.

Definition slice_key := (skey + skey * skey)%type.
Definition is_cross (k : slice_key) : bool := match k with inl _ => false | inr _ => true end.

(** 70-76, 92-98: the comparison with a change threshold. *)
Definition within (d : direction) (x bound : num) : res bool :=
  match d with
  | LowerIsBetter => Ok (num_leb x bound)
  | HigherIsBetter => Ok (num_leb bound x)
  | UnknownDirection => Err ValueError
  end.
(** math.isclose(b, 0.0) with rel_tol 1e-9: only for b = 0. *)
Definition is_zero (b : num) : bool := num_eqb b (Fin 0%Qc).

Section Slice.
  Context (baseline : option string) (slice : slice_key) (metrics : list (metric_key * mvalue)).

  (** 54-109 [_check_threshold].  Without baseline model the key of 80-82 has no model name
      and is not found. *)
  Definition baseline_value (k : metric_key) : res num :=
    match baseline with
    | None => Err KeyError
    | Some b => match dget metric_key_eqb metrics (make_baseline_key k b) with
                | Some v => to_float v
                | None => Err KeyError
                end
    end.
  Definition check_threshold (k : metric_key) (t : threshold) (v : mvalue) : res bool :=
    let! x := to_float v in
    match t with
    | ValueThreshold l u =>
        Ok (num_leb (match l with Some b => b | None => NegInf end) x
            && num_leb x (match u with Some b => b | None => PosInf end))
    | ChangeThreshold a r d =>
        let! abs_result := match a with Some b => within d x b | None => Ok true end in
        let! rel_result := match r with
                           | Some c => let! b := baseline_value k in
                                       within d (if is_zero b then NaN else num_div x b) c
                           | None => Ok true
                           end in
        Ok (abs_result && rel_result)
    end.

  (** 143-160: is the threshold skipped for the slice? *)
  Definition cross_applicable (b c : skey) (base : spec) (specs : list spec) : bool :=
    is_slice_applicable base b && existsb (fun s => is_slice_applicable s c) specs.
  Definition applicable (sc : option scope) : bool :=
    match sc, slice with
    | None, inl _ => true
    | None, inr _ => false
    | Some (SingleScope sp), inl k => is_slice_applicable sp k
    | Some (SingleScope _), inr _ => false
    | Some (CrossScope _ _), inl _ => false
    | Some (CrossScope base specs), inr (b, c) => cross_applicable b c base specs
    end.

  Inductive message := NoMessage | InvalidComparison | MetricNotFound.
  Record failure := Failure {
    f_key : metric_key; f_value : option num; f_threshold : threshold; f_message : message
  }.
  (** 189-197: the spec of a slicing_details entry; None becomes the empty SlicingSpec. *)
  Definition detail_scope (sc : option scope) : scope :=
    match sc with Some s => s | None => SingleScope overall end.

  (** 141-198, one metric.  [seen] is existing_failures. *)
  Fixpoint check_metric (k : metric_key) (v : mvalue) (seen : list threshold) (sts : list (option scope * threshold))
      : res (list failure * list scope) :=
    match sts with
    | [] => Ok ([], [])
    | (sc, t) :: rest =>
        if negb (applicable sc) then check_metric k v seen rest
        else
          let! cm := match check_threshold k t v with
                     | Ok b => Ok (b, NoMessage)
                     | Err ValueError => Ok (false, InvalidComparison)
                     | Err e => Err e
                     end in
          if fst cm then
            let! r := check_metric k v seen rest in Ok (fst r, detail_scope sc :: snd r)
          else if memb threshold_eqb t seen then check_metric k v seen rest
          else
            let! x := to_float v in
            let! r := check_metric k v (t :: seen) rest in
            Ok (Failure k (Some x) t (snd cm) :: fst r, detail_scope sc :: snd r)
    end.

  (** 199-220: a threshold whose metric is not there. *)
  Definition not_found_applicable (sc : option scope) : bool :=
    match sc, slice with
    | None, inl _ => true
    | None, inr _ => false
    | Some (SingleScope _), inl _ => true
    | Some (SingleScope _), inr _ => false
    | Some (CrossScope _ _), inl _ => false
    | Some (CrossScope base specs), inr (b, c) => cross_applicable b c base specs
    end.
  Fixpoint not_found (k : metric_key) (seen : list threshold) (sts : list (option scope * threshold)) : list failure :=
    match sts with
    | [] => []
    | (sc, t) :: rest =>
        if negb (not_found_applicable sc) then not_found k seen rest
        else if memb threshold_eqb t seen then not_found k seen rest
        else Failure k None t MetricNotFound :: not_found k (t :: seen) rest
    end.

  Definition is_baseline (k : metric_key) : bool :=
    match baseline with Some b => String.eqb (k_model k) b | None => false end.

  (** A ValidationResult: verdict, failures per slice, slicing_details with
      num_matching_slices. *)
  Record vresult := VResult {
    v_ok : bool; v_failures : list (slice_key * list failure); v_details : list (scope * Z)
  }.

  (** 128-231 *)
  Definition validate_metrics (ths : thresholds) : res vresult :=
    let! checked := mapM (fun kv =>
        match dget metric_key_eqb ths (fst kv) with
        | None => Ok ([], [])
        | Some sts => if is_baseline (fst kv) then Ok ([], []) else check_metric (fst kv) (snd kv) [] sts
        end) metrics in
    let unchecked := filter (fun ks => negb (dmem metric_key_eqb metrics (fst ks))) ths in
    let missing := flat_map (fun ks => if is_baseline (fst ks) then [] else not_found (fst ks) [] (snd ks)) unchecked in
    let fs := flat_map fst checked ++ missing in
    Ok (VResult (match fs with [] => true | _ => false end)
                (match fs with [] => [] | _ => [(slice, fs)] end)
                (map (fun sc => (sc, 1%Z)) (flat_map snd checked))).
End Slice.

(* ------------------------------------------------------------------ *)
(** * Merging: metrics_validator.py 234-275 *)

(** deserialize_slice_spec(details.slicing_spec): the slicing_spec field of the
    oneof; it is the empty SlicingSpec when cross_slicing_spec is set. *)
Definition slicing_spec_field (s : scope) : spec :=
  match s with SingleScope sp => sp | CrossScope _ _ => overall end.

(** 234-247 [_hashed_slicing_details] *)
Definition hashed_slicing_details (l : list (scope * Z)) : list (spec * (scope * Z)) :=
  fold_left (fun h d => let k := slicing_spec_field (fst d) in
                        if dmem spec_eqb h k then h else h ++ [(k, d)]) l [].

(** 250-275 [merge_details] *)
Fixpoint merge_loop (a : list (scope * Z)) (h : list (spec * (scope * Z)))
    : list (scope * Z) * list (spec * (scope * Z)) :=
  match a with
  | [] => ([], h)
  | (s, n) :: t =>
      match dget spec_eqb h (slicing_spec_field s) with
      | Some d => let r := merge_loop t (ddel spec_eqb h (slicing_spec_field s)) in
                  ((s, (n + snd d)%Z) :: fst r, snd r)
      | None => let r := merge_loop t h in ((s, n) :: fst r, snd r)
      end
  end.
Definition merge_details (a b : list (scope * Z)) : list (scope * Z) :=
  let r := merge_loop a (hashed_slicing_details b) in fst r ++ map snd (snd r).

(** 278-318 [get_missing_slices]; hashed_details is a set of specs here. *)
Definition missing_step (st : list scope * list scope) (sc : option scope) : list scope * list scope :=
  let s := detail_scope sc in
  if memb scope_eqb s (fst st) then st else (s :: fst st, snd st ++ [s]).
Definition get_missing_slices (baseline : option string) (ths : thresholds) (details : list (scope * Z)) : list scope :=
  let found := map (fun kd => SingleScope (fst kd)) (hashed_slicing_details details) in
  let scopes := flat_map (fun ks => if is_baseline baseline (fst ks) then [] else map fst (snd ks)) ths in
  snd (fold_left missing_step scopes (found, [])).

(* ------------------------------------------------------------------ *)
(** * CombineValidations: metrics_plots_and_validations_writer.py 674-752 *)

Record final := Final {
  fin_ok : bool; fin_failures : list (slice_key * list failure); fin_details : list (scope * Z);
  fin_missing : list spec; fin_missing_cross : list (spec * list spec);
  fin_missing_thresholds : bool; fin_rubber_stamp : bool
}.

(** 690-704, 706-720.  new_input is a ValidationResult, never None: the PCollection
    holds results of validate_metrics. *)
Definition fresh : vresult := VResult true [] [].
Definition absorb (acc : option vresult) (x : vresult) : option vresult :=
  let r := match acc with Some r => r | None => fresh end in
  Some (VResult (v_ok r && v_ok x) (v_failures r ++ v_failures x) (merge_details (v_details r) (v_details x))).

(** 722-752 *)
Definition extract_validation (baseline : option string) (ths : thresholds) (rubber_stamp : bool) (acc : option vresult) : final :=
  let r := match acc with Some r => r | None => VResult false [] [] end in
  let ok := match ths with [] => rubber_stamp | _ => v_ok r end in
  let missing := get_missing_slices baseline ths (v_details r) in
  Final (ok && match missing with [] => true | _ => false end) (v_failures r) (v_details r)
        (flat_map (fun s => match s with SingleScope sp => [sp] | CrossScope _ _ => [] end) missing)
        (flat_map (fun s => match s with SingleScope _ => [] | CrossScope b ss => [(b, ss)] end) missing)
        (match ths with [] => negb rubber_stamp | _ => false end)
        rubber_stamp.

Definition combine_validations (baseline : option string) (ths : thresholds) (rubber_stamp : bool)
    : combiner vresult (option vresult) final :=
  {| c_create := None;
     c_add := absorb;
     c_merge := fun l => match l with
                         | [] => None
                         | a :: t => fold_left (fun acc b => match b with None => acc | Some x => absorb acc x end) t a
                         end;
     c_extract := extract_validation baseline ths rubber_stamp |}.
