(* Model of metrics/metric_util.py: how a metric's (label, prediction, weight)
   inputs are prepared.  Arrays are one dimensional (a 0-d array is a list of
   length one, as lines 699-705 reshape it); string labels, label vocabularies,
   sparse tensors and 2-d arrays are not modelled. *)
From Coq Require Import String Ascii.
From Verif Require Import Base Util_Model.
Local Open Scope string_scope.
Local Open Scope list_scope.

Definition nth_ok {A} (l : list A) (i : nat) : res A :=
  match nth_error l i with Some x => Ok x | None => Err IndexError end.

(** int(q): truncation towards zero. *)
Definition Qc_trunc (q : Qc) : Z := Z.quot (Qnum (this q)) (Zpos (Qden (this q))).

(** metric_types.py 48-83 [SubKey.__new__]. *)
Record sub_key := SubKey { sk_class_id : option Z; sk_k : option nat; sk_top_k : option nat }.
Definition mk_sub_key (class_id : option Z) (k top_k : option Z) : res sub_key :=
  match k, top_k, class_id with
  | Some _, Some _, _ => Err ValueError
  | Some _, None, Some _ => Err ValueError
  | _, _, _ =>
      if match k with Some z => Z.ltb z 1 | None => false end then Err ValueError
      else if match top_k with Some z => Z.ltb z 1 | None => false end then Err ValueError
      else Ok (SubKey class_id (option_map Z.to_nat k) (option_map Z.to_nat top_k))
  end.

(** metric_util.py 51, 128-132 *)
Definition EPSILON : Qc := Q2Qc (1 # 10000000).
Definition within_interval (v left right : Qc) : bool :=
  Qc_leb (left - EPSILON)%Qc v && Qc_leb v (right + EPSILON)%Qc.

(** metric_util.py 1147-1174 [one_hot], 1-d target of length n: the row
    np.eye(n+1)[i] (negative indices count from the end, out of range raises)
    without its last column; reshaping needs exactly one row. *)
Definition eye_row (n : nat) (i : Z) : res (list Qc) :=
  let m := Z.of_nat (S n) in
  let j := if Z.ltb i 0 then (i + m)%Z else i in
  if Z.ltb j 0 || Z.leb m j then Err ValueError
  else Ok (map (fun c => if Nat.eqb c (Z.to_nat j) then 1%Qc else 0%Qc) (seq 0 n)).
Definition one_hot (label : list Qc) (n : nat) : res (list Qc) :=
  let! rows := mapM (fun l => eye_row n (Qc_trunc l)) label in
  match rows with [r] => Ok r | _ => Err ValueError end.

(** metric_util.py 1001-1082 [select_class_id], 1-d case; _verify_sparse_labels
    1085-1144 with sparse_labels=None: sparse iff the lengths differ. *)
Definition lookup_class {A} (class_id : Z) (arr : list A) : res A :=
  if Z.ltb class_id 0 || Z.leb (Z.of_nat (length arr)) class_id then Err ValueError
  else nth_ok arr (Z.to_nat class_id).
Definition select_class_id (class_id : Z) (labels : list Qc) (preds : list num)
  : res (list Qc * list num) :=
  match labels, preds with
  | [], _ | _, [] => Ok (labels, preds)
  | _, _ =>
      let! ls := if Nat.eqb (length labels) (length preds)
                 then let! l := lookup_class class_id labels in Ok [l]
                 else Ok (map (fun l => if Qc_eqb l (qz class_id) then 1%Qc else 0%Qc) labels) in
      let! p := lookup_class class_id preds in
      Ok (ls, [p])
  end.

Section Prepare.
  (** np.argpartition(scores, -k) on 1-d scores: an oracle, see [argpartition_ok]
      in Inputs_Main. *)
  Variable argpartition : list num -> nat -> list nat.

  (** metric_util.py 323-392 [top_k_indices] (1-d, sort=False):
      np.argpartition(scores, -top_k)[-top_k:].  top_k >= 1 by SubKey. *)
  Definition top_k_indices (top_k : nat) (scores : list num) : res (list nat) :=
    if Nat.ltb (length scores) top_k then Err ValueError
    else Ok (skipn (length scores - top_k) (argpartition scores top_k)).

  (** metric_util.py 395-429 [select_indices] (1-d): arr[indices]. *)
  Definition select_indices {A} (arr : list A) (indices : list nat) : res (list A) :=
    mapM (nth_ok arr) indices.

  (** metric_util.py 672-698: application of the sub key. *)
  Definition apply_sub_key (sk : sub_key) (aggregation : bool) (label : list Qc) (pred : list num)
    : res (list Qc * list num) :=
    match sk_k sk with
    | Some k =>
        let! idx := top_k_indices k pred in
        let! i := nth_ok idx 0 in
        let! label := if Nat.eqb (length label) (length pred) then Ok label
                      else one_hot label (length pred) in
        let! l := select_indices label [i] in
        let! p := select_indices pred [i] in
        Ok (l, p)
    | None =>
        let! lp :=
          match sk_top_k sk with
          | None => Ok (label, pred)
          | Some k =>
              let! idx := top_k_indices k pred in
              if aggregation then
                let! label := if Nat.eqb (length label) (length pred) then Ok label
                              else one_hot label (length pred) in
                let! l := select_indices label idx in
                let! p := select_indices pred idx in
                Ok (l, p)
              else
                (* np.full(-inf); top[indices] = prediction[indices] *)
                Ok (label, map (fun ip => if memb Nat.eqb (fst ip) idx then snd ip else NegInf)
                               (combine (seq 0 (length pred)) pred))
          end in
        match sk_class_id sk with
        | None => Ok lp
        | Some c => select_class_id c (fst lp) (snd lp)
        end
    end.
End Prepare.

(** One yielded tuple (label, prediction, example_weight). *)
Definition yielded := (list Qc * list num * list Qc)%type.

(** metric_util.py 741-781 [yield_results]. *)
Definition yield_results (flatten : bool) (label : list Qc) (pred : list num) (w : list Qc)
  : res (list yielded) :=
  let nl := length label in let np := length pred in let nw := length w in
  let zip3 l := map (fun lpw => ([fst (fst lpw)], [snd (fst lpw)], [snd lpw]))
                    (combine (combine l pred) w) in
  if negb flatten || (Nat.eqb nl 0 && Nat.eqb np 0)
     || (Nat.eqb nl 1 && Nat.eqb np 1 && Nat.eqb nw 1) then Ok [(label, pred, w)]
  else if Nat.eqb nl 0 then
    Ok (map (fun pw => (label, [fst pw], [snd pw])) (combine pred w))
  else if Nat.eqb np 0 then
    Ok (map (fun lw => ([fst lw], pred, [snd lw])) (combine label w))
  else if Nat.eqb nl np && Nat.eqb nl nw then Ok (zip3 label)
  else if Nat.eqb nl 1 && Nat.eqb np nw then
    let! l := one_hot label np in Ok (zip3 l)
  else Err ValueError.

(** metric_util.py 797-828 [_yield_fractional_labels]; float(label) and
    math.isclose need arrays of size one; isclose(w, 0.0) with the default
    abs_tol = 0 means w == 0. *)
Definition fractional (y : yielded) : res (list yielded) :=
  match y with
  | ([l], p, [w]) =>
      if within_interval l 0%Qc 1%Qc then
        Ok (filter (fun y => match snd y with [w] => negb (Qc_eqb w 0%Qc) | _ => true end)
              [([0%Qc], p, [(w * (1 - l))%Qc]); ([1%Qc], p, [(w * l)%Qc])])
      else Err ValueError
  | _ => Err TypeError
  end.

(** Arguments of to_label_prediction_example_weight (431-446) other than names. *)
Record options := Options {
  o_sub_key : option sub_key;
  o_aggregation : bool;                       (* aggregation_type is not None *)
  o_class_weights : option (list (nat * Qc));
  o_example_weighted : bool;
  o_fractional : bool;
  o_flatten : bool;
  o_allow_none : bool;
  o_single_weight : bool
}.

Section Tuples.
  Variable argpartition : list num -> nat -> list nat.

  (** metric_util.py 651-790: from arrays (None = missing) to the yielded tuples. *)
  Definition yield_tuples (o : options) (label : option (list Qc)) (pred : option (list num))
      (weight : list Qc) : res (list yielded) :=
    if negb (o_allow_none o) && (match label with None => true | _ => false end
                                 || match pred with None => true | _ => false end)
    then Err ValueError else
    let! weight :=
      if o_single_weight o && Nat.ltb 1 (length weight) then
        match weight with
        | w0 :: _ => if forallb (fun w => Qc_eqb w w0) weight then Ok [w0] else Err ValueError
        | [] => Ok weight
        end
      else Ok weight in
    let! lp :=
      match o_sub_key o, label, pred with
      | Some sk, Some l, Some p => apply_sub_key argpartition sk (o_aggregation o) l p
      | _, _, _ => Ok (match label with Some l => l | None => [] end,
                       match pred with Some p => p | None => [] end)
      end in
    let (label, pred) := lp in
    let flatten_size := match length pred with 0 => length label | n => n end in
    let! weight :=
      if o_flatten o then
        match weight with
        | [w] => Ok (repeat w flatten_size)
        | _ => if Nat.eqb (length weight) flatten_size then Ok weight else Err ValueError
        end
      else Ok weight in
    let! weight :=
      match o_class_weights o with
      | None | Some [] => Ok weight
      | Some cw =>
          if o_flatten o then
            Ok (map (fun iw => match dget Nat.eqb cw (fst iw) with
                               | Some c => (snd iw * c)%Qc
                               | None => 0%Qc
                               end) (combine (seq 0 flatten_size) weight))
          else Err ValueError
      end in
    let! ys := yield_results (o_flatten o) label pred weight in
    if o_fractional o && negb (Nat.eqb (length label) 0)
    then let! yss := mapM fractional ys in Ok (concat yss)
    else Ok ys.
End Tuples.

(* ------------------------------------------------------------------ *)
(** * Lookups: metric_util.py 586-650 *)

Definition is_dict {A} (d : data A) : bool := match d with Dict _ => true | Leaf _ => false end.

(** 586-596 [optionally_get_by_keys] with one key. *)
Definition optionally_get {A} (value : option (data A)) (key : string) : res (option (data A)) :=
  match value with
  | Some (Dict d) =>
      let! found := get_by_keys (Dict d) [key] None true in
      Ok (match found with Some v => Some v | None => value end)
  | _ => Ok value
  end.

(** 840-965 [prepare_labels_and_predictions]: choice of the prediction entry
    (lines 902-922); "scores"/"outputs" are tf.saved_model.CLASSIFY_OUTPUT_SCORES
    and REGRESS_OUTPUTS. *)
Definition default_prediction_keys : list string :=
  ["scores"; "outputs"; "predictions"; "logistic"; "probabilities"; "logits"].
Definition pick_prediction {A} (prediction_key : string) (p : data A) : data A :=
  match p with
  | Leaf _ => p
  | Dict d =>
      if String.eqb prediction_key "" then
        match find (fun k => dmem String.eqb d k) default_prediction_keys with
        | Some k => match dget String.eqb d k with Some v => v | None => p end
        | None => p
        end
      else match dget String.eqb d prediction_key with Some v => v | None => p end
  end.

Record inputs_dict := InputsDict {
  i_label : option (data (list Qc));
  i_prediction : option (data (list num));
  i_weight : option (data (list Qc))
}.

Section Full.
  Variable argpartition : list num -> nat -> list nat.

  (** metric_util.py 431-794 [to_label_prediction_example_weight]; label_key and
      prediction_key are those of the model spec found at 601-610. *)
  Definition to_label_prediction_example_weight (o : options)
      (label_key prediction_key model_name output_name : string) (inp : inputs_dict)
    : res (list yielded) :=
    let! label := if String.eqb label_key "" then Ok (i_label inp)
                  else optionally_get (i_label inp) label_key in
    let lookup_pred p key :=
      if String.eqb key "" then Ok p
      else match p with
           | None => Ok None
           | Some v => get_by_keys v [key] None false
           end in
    let lookup_opt (v : option (data (list Qc))) key :=
      if String.eqb key "" then Ok v else optionally_get v key in
    let! pred := lookup_pred (i_prediction inp) model_name in
    let! label := lookup_opt label model_name in
    let! weight := lookup_opt (i_weight inp) model_name in
    let! pred := lookup_pred pred output_name in
    let! label := lookup_opt label output_name in
    let! weight := lookup_opt weight output_name in
    let weight := if negb (o_example_weighted o) then Leaf [1%Qc]
                  else match weight with None => Leaf [1%Qc] | Some w => w end in
    match label, weight with
    | Some (Dict _), _ => Err ValueError
    | _, Dict _ => Err ValueError
    | _, Leaf w =>
        match option_map (pick_prediction prediction_key) pred with
        | Some (Dict _) => Err ValueError
        | pred =>
            yield_tuples argpartition o
              (match label with Some (Leaf l) => Some l | _ => None end)
              (match pred with Some (Leaf p) => Some p | _ => None end) w
        end
    end.
End Full.
