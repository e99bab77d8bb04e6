(* Model of contrib/aggregates/binary_confusion_matrices.py and of the exact
   (non histogram) part of metrics/binary_confusion_matrices.py, with the
   arithmetic on Matrices. *)
From Coq Require Import String Ascii.
From Verif Require Import Base Beam Util_Model Inputs_Model Sums_Model Histogram_Model.
Local Open Scope string_scope.
Local Open Scope list_scope.

(** contrib/aggregates/binary_confusion_matrices.py 21-33: [Matrix] and
    [_ThresholdEntry] have one field (pair) per cell; here a function of the cell. *)
Inductive cell := TP | TN | FP | FN.
Definition cell_eqb (a b : cell) : bool :=
  match a, b with TP, TP | TN, TN | FP, FP | FN, FN => true | _, _ => false end.
Record entry := Entry { en_count : cell -> Qc; en_ids : cell -> list string }.

(** Dictionary keys: a threshold object is equal to itself, also if it is NaN. *)
Definition key_eqb (a b : num) : bool :=
  match a, b with NaN, NaN => true | _, _ => num_eqb a b end.
Definition accumulator := list (num * entry).

(** 77-80 [_merge_example_ids] *)
Definition merge_ids (limit : nat) (l1 l2 : list string) : list string :=
  let result := firstn limit l1 in result ++ firstn (limit - length result) l2.

(** 82-110 [_merge_entry] *)
Definition merge_entry (limit : nat) (acc : accumulator) (t : num) (e : entry) : entry :=
  match dget key_eqb acc t with
  | None => e
  | Some a => Entry (fun c => en_count a c + en_count e c)%Qc
                    (fun c => merge_ids limit (en_ids a c) (en_ids e c))
  end.

(** 145-165: the cell of one tuple. *)
Definition cell_of (fractional : bool) (t : num) (label : Qc) (prediction : num) : cell :=
  if (if fractional then Qc_eqb label 1%Qc else num_ltb t (Fin label))
  then if num_ltb t prediction then TP else FN
  else if num_ltb t prediction then FP else TN.

(** 133-165: tp .. fn and tp_example .. fn_example after the loop over the tuples;
    an example id is kept as a list of at most one id, 170-177. *)
Definition entry_step (fractional : bool) (t : num) (id : option string) (e : entry)
    (x : Qc * num * Qc) : entry :=
  let '(l, p, w) := x in
  let here := cell_of fractional t l p in
  Entry (fun c => if cell_eqb c here then en_count e c + w else en_count e c)%Qc
        (fun c => if cell_eqb c here then match id with Some i => [i] | None => [] end else en_ids e c).
Definition zero_entry : entry := Entry (fun _ => 0%Qc) (fun _ => []).
Definition entry_of (fractional : bool) (t : num) (id : option string) (xs : list (Qc * num * Qc)) : entry :=
  fold_left (entry_step fractional t id) xs zero_entry.

(** 112-180 [add_input]: zip of labels, predictions, weights is the list of triples;
    absent weights are 1. *)
Definition bcm_add (thresholds : list num) (limit : nat) (fractional : bool) (acc : accumulator)
    (labels : list Qc) (predictions : list num) (weights : option (list Qc)) (id : option string) : accumulator :=
  let ws := match weights with Some ws => ws | None => map (fun _ => 1%Qc) labels end in
  let xs := combine (combine labels predictions) ws in
  fold_left (fun acc t => dset key_eqb acc t (merge_entry limit acc t (entry_of fractional t id xs))) thresholds acc.

(** 224-251 [merge_accumulators], one further accumulator. *)
Definition bcm_merge (thresholds : list num) (limit : nat) (acc other : accumulator) : accumulator :=
  fold_left (fun acc t => match dget key_eqb other t with
                          | Some e => dset key_eqb acc t (merge_entry limit acc t e)
                          | None => acc
                          end) thresholds acc.

(** 253-263 [extract_output] *)
Definition bcm_extract (thresholds : list num) (acc : accumulator) : accumulator :=
  fold_left (fun acc t => if dmem key_eqb acc t then acc else dset key_eqb acc t zero_entry) thresholds acc.

(** metrics/binary_confusion_matrices.py 46-65 [Examples]. *)
Record examples := Examples { x_thresholds : list num; x_tp : list (list string); x_tn : list (list string);
                              x_fp : list (list string); x_fn : list (list string) }.

(** 675-700 [_accumulator_to_matrices_and_examples] *)
Definition to_matrices_and_examples (thresholds : list num) (acc : accumulator) : res (matrices * examples) :=
  let! es := mapM (fun t => match dget key_eqb acc t with Some e => Ok e | None => Err KeyError end) thresholds in
  let count c := map (fun e => en_count e c) es in
  let ids c := map (fun e => en_ids e c) es in
  Ok (Matrices thresholds (count TP) (count TN) (count FP) (count FN),
      Examples thresholds (ids TP) (ids TN) (ids FP) (ids FN)).

(** metric_util.py 234-247 [safe_to_scalar]; 0.0 for an empty array. *)
Definition safe_to_scalar {A} (zero : A) (a : list A) : res A :=
  match a with [] => Ok zero | [x] => Ok x | _ => Err ValueError end.

Section Wrapper.
  Variable argpartition : list num -> nat -> list nat.

  (** 623-662 [_BinaryConfusionMatrixCombiner.add_input]; an element is paired with
      the value of its example id feature (None when no example_id_key is set or the
      feature is absent, 628-630). *)
  Definition confusion_add (thresholds : list num) (limit : nat) (o : options)
      (label_key prediction_key model_name output_name : string)
      (acc : accumulator) (element : option string * inputs_dict) : res accumulator :=
    let! ys := to_label_prediction_example_weight argpartition o label_key prediction_key
                 model_name output_name (snd element) in
    let! xs := mapM (fun y : yielded => let '(label, pred, weight) := y in
                       let! w := safe_to_scalar 0%Qc weight in
                       let! l := safe_to_scalar 0%Qc label in
                       let! p := safe_to_scalar (Fin 0%Qc) pred in
                       Ok (l, p, w)) ys in
    Ok (bcm_add thresholds limit (o_fractional o) acc (map (fun x => fst (fst x)) xs)
          (map (fun x => snd (fst x)) xs) (Some (map snd xs)) (fst element)).

  (** 589-672 [_BinaryConfusionMatrixCombiner] followed by [result], 478-485. *)
  Definition confusion_combiner (thresholds : list num) (limit : nat) (o : options)
      label_key prediction_key model_name output_name :=
    res_combiner [] (confusion_add thresholds limit o label_key prediction_key model_name output_name)
      (bcm_merge thresholds limit)
      (fun acc => to_matrices_and_examples thresholds (bcm_extract thresholds acc)).
End Wrapper.

(* ------------------------------------------------------------------ *)
(** * Arithmetic on Matrices *)

(** metrics/binary_confusion_matrices.py 89-139 [_apply_binary_op_elementwise]; the
    while loop runs on fuel, [None] if it does not suffice.  Line 126 compares
    other.thresholds[self_idx] with self.thresholds[other_idx]. *)
Section Elementwise.
  Variable op : Qc -> Qc -> Qc.

  (** merged_thresholds, tp, tn, fp, fn so far, latest first. *)
  Definition rows := list (num * (Qc * Qc * Qc * Qc)).
  Definition row_at (m : matrices) (i : nat) : res (Qc * Qc * Qc * Qc) :=
    let! a := nth_ok (m_tp m) i in let! b := nth_ok (m_tn m) i in
    let! c := nth_ok (m_fp m) i in let! d := nth_ok (m_fn m) i in Ok (a, b, c, d).
  Definition row_op (x y : Qc * Qc * Qc * Qc) : Qc * Qc * Qc * Qc :=
    let '(a, b, c, d) := x in let '(a', b', c', d') := y in (op a a', op b b', op c c', op d d').
  Definition zero_row : Qc * Qc * Qc * Qc := (0, 0, 0, 0)%Qc.

  Fixpoint elementwise_loop (fuel : nat) (self other : matrices) (i j : nat) (out : rows) : option (res rows) :=
    match fuel with
    | 0 => None
    | S f =>
        let s := m_thresholds self in let o := m_thresholds other in
        let in_s := Nat.ltb i (length s) in let in_o := Nat.ltb j (length o) in
        let si := nth i s NaN in let oj := nth j o NaN in
        if in_s && in_o && num_eqb si oj then
          match row_at self i, row_at other j with
          | Ok a, Ok b => elementwise_loop f self other (S i) (S j) ((si, row_op a b) :: out)
          | Err e, _ => Some (Err e)
          | _, Err e => Some (Err e)
          end
        else if in_s && (negb in_o || num_ltb si oj) then
          match row_at self i with
          | Ok a => elementwise_loop f self other (S i) j ((si, row_op a zero_row) :: out)
          | Err e => Some (Err e)
          end
        else
          match (if in_o then
                   if negb in_s then Ok true
                   else let! x := nth_ok o i in let! y := nth_ok s j in Ok (num_ltb x y)
                 else Ok false) with
          | Err e => Some (Err e)
          | Ok true =>
              match row_at other j with
              | Ok b => elementwise_loop f self other i (S j) ((oj, row_op zero_row b) :: out)
              | Err e => Some (Err e)
              end
          | Ok false => if negb in_s && negb in_o then Some (Ok out) else Some (Err AssertionError)
          end
    end.

  Definition to_matrices (r : rows) : matrices :=
    Matrices (map fst r) (map (fun x => fst (fst (fst (snd x)))) r) (map (fun x => snd (fst (fst (snd x)))) r)
             (map (fun x => snd (fst (snd x))) r) (map (fun x => snd (snd x)) r).

  Definition elementwise (fuel : nat) (self other : matrices) : option (res matrices) :=
    option_map (fun r => let! out := r in Ok (to_matrices (rev out))) (elementwise_loop fuel self other 0 0 []).

  (** 141-151 [_apply_binary_op_broadcast] *)
  Definition broadcast (self : matrices) (x : Qc) : matrices :=
    Matrices (m_thresholds self) (map (fun v => op v x) (m_tp self)) (map (fun v => op v x) (m_tn self))
             (map (fun v => op v x) (m_fp self)) (map (fun v => op v x) (m_fn self)).
End Elementwise.
