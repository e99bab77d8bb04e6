(* Model of metrics/calibration_histogram.py and of the histogram based part of
   metrics/binary_confusion_matrices.py. *)
From Coq Require Import String Ascii.
From Verif Require Import Base Beam Util_Model Inputs_Model Sums_Model.
Local Open Scope string_scope.
Local Open Scope list_scope.

(** calibration_histogram.py 30-45 [Bucket]: the three totals (the bucket id is
    the dictionary key; merge adds field by field). *)
Record totals := Totals { t_labels : Qc; t_predictions : num; t_examples : Qc }.
Definition totals_zero : totals := Totals 0%Qc (Fin 0%Qc) 0%Qc.
Definition totals_plus (a b : totals) : totals :=
  Totals (t_labels a + t_labels b)%Qc (num_plus (t_predictions a) (t_predictions b))
         (t_examples a + t_examples b)%Qc.
Definition bucket := (nat * totals)%type.

(** 182-189 [_bucket_index]; range_ = right - left. int(nan) raises ValueError;
    a zero range raises ZeroDivisionError. *)
Definition bucket_index (num_buckets : nat) (left range_ : Qc) (prediction : num) : res nat :=
  if Qc_eqb range_ 0%Qc then Err ZeroDivisionError
  else
    let index := num_plus (num_scale (qn num_buckets)
                             (num_scale (/ range_)%Qc (num_plus prediction (Fin (- left)%Qc))))
                          (Fin 1%Qc) in
    if num_ltb index (Fin 0%Qc) then Ok 0
    else if num_leb (Fin (qn num_buckets + 1)%Qc) index then Ok (num_buckets + 1)
    else match index with
         | Fin q => Ok (Z.to_nat (Qc_trunc q))
         | _ => Err ValueError
         end.

(** 233-241, 251-256: create the bucket or add to the existing one. *)
Definition add_bucket (acc : list bucket) (id : nat) (b : totals) : list bucket :=
  match dget Nat.eqb acc id with
  | None => dset Nat.eqb acc id b
  | Some e => dset Nat.eqb acc id (totals_plus e b)
  end.

(** 219-241: one yielded tuple. *)
Definition histogram_tuple (num_buckets : nat) (left range_ : Qc) (by_prediction : bool)
    (acc : list bucket) (y : yielded) : res (list bucket) :=
  let '(label, pred, weight) := y in
  let! w := scalar weight in
  let! l := scalar label in
  let! p := scalar pred in
  let! id := bucket_index num_buckets left range_ (if by_prediction then p else Fin l) in
  Ok (add_bucket acc id (Totals (l * w)%Qc (num_scale w p) w)).

(** Options of the call at 207-218. *)
Definition histogram_options (sk : option sub_key) (agg weighted fractional_labels : bool)
    (class_weights : option (list (nat * Qc))) : options :=
  Options sk agg class_weights weighted fractional_labels true false false.

(** 243-256 merge_accumulators; a new bucket is 0.0 fields merged with the other. *)
Definition merge_histogram (a b : list bucket) : list bucket :=
  fold_left (fun acc kb => match dget Nat.eqb acc (fst kb) with
                           | None => dset Nat.eqb acc (fst kb) (totals_plus totals_zero (snd kb))
                           | Some e => dset Nat.eqb acc (fst kb) (totals_plus e (snd kb))
                           end) b a.

(** 258-263: list sorted by bucket_id (list.sort is stable). *)
Fixpoint insert_bucket (b : bucket) (l : list bucket) : list bucket :=
  match l with
  | [] => [b]
  | c :: t => if Nat.leb (fst b) (fst c) then b :: l else c :: insert_bucket b t
  end.
Definition sort_buckets (l : list bucket) : list bucket := fold_right insert_bucket [] l.

Section Histogram.
  Variable argpartition : list num -> nat -> list nat.

  (** 198-242 add_input *)
  Definition histogram_add (num_buckets : nat) (left right : Qc) (by_prediction : bool) (o : options)
      (label_key prediction_key model_name output_name : string)
      (acc : list bucket) (element : inputs_dict) : res (list bucket) :=
    let! ys := to_label_prediction_example_weight argpartition o label_key prediction_key
                 model_name output_name element in
    foldM (histogram_tuple num_buckets left (right - left)%Qc by_prediction) ys acc.

  (** 155-263 [_CalibrationHistogramCombiner]. *)
  Definition histogram_combiner num_buckets left right by_prediction o label_key prediction_key model_name output_name :=
    res_combiner []
      (histogram_add num_buckets left right by_prediction o label_key prediction_key model_name output_name)
      merge_histogram (fun a => Ok (sort_buckets a)).
End Histogram.

(* ------------------------------------------------------------------ *)
(** * rebin: 266-336 *)

(** 299-304: the prediction standing for a bucket. *)
Definition bucket_pred (num_buckets : nat) (left right : Qc) (id : nat) : num :=
  if Nat.eqb id 0 then NegInf
  else if Nat.leb (num_buckets + 1) id then PosInf
  else Fin (qn (id - 1) / qn num_buckets * (right - left) + left)%Qc.

(** 318-320 / 333-335: empty buckets while the next threshold is passed / to the end. *)
Fixpoint fill (pred : num) (offset : nat) (rest : list num) : list bucket * nat * list num :=
  match rest with
  | t :: r => if num_leb t pred then
                let '(out, offset', r') := fill pred (S offset) r in
                ((offset, totals_zero) :: out, offset', r')
              else ([], offset, rest)
  | [] => ([], offset, rest)
  end.
Fixpoint pad (offset : nat) (rest : list num) : list bucket :=
  match rest with
  | [] => []
  | _ :: r => (offset, totals_zero) :: pad (S offset) r
  end.

(** 293-336; [rest] is thresholds[offset+1:], [cur] the running totals; buckets are
    returned in the order they are appended. *)
Fixpoint rebin_loop (pred_of : nat -> num) (hist : list bucket) (offset : nat) (cur : totals)
    (rest : list num) : list bucket :=
  match hist with
  | [] => (offset, cur) :: pad (S offset) rest
  | (id, b) :: t =>
      match rest with
      | t1 :: r =>
          if num_leb t1 (pred_of id) then
            let '(empties, offset', rest') := fill (pred_of id) (S offset) r in
            (offset, cur) :: empties ++
              rebin_loop pred_of t offset' (totals_plus totals_zero b) rest'
          else rebin_loop pred_of t offset (totals_plus cur b) rest
      | [] => rebin_loop pred_of t offset (totals_plus cur b) rest
      end
  end.
Definition rebin (thresholds : list num) (hist : list bucket) (num_buckets : nat) (left right : Qc)
  : list bucket :=
  rebin_loop (bucket_pred num_buckets left right) hist 0 totals_zero (tl thresholds).

(* ------------------------------------------------------------------ *)
(** * metrics/binary_confusion_matrices.py *)

(** 68-80 [Matrices]. *)
Record matrices := Matrices { m_thresholds : list num; m_tp : list Qc; m_tn : list Qc;
                              m_fp : list Qc; m_fn : list Qc }.

(** 499-517: tp/fp are suffix sums, tn/fn strict prefix sums of the per bucket
    positives / negatives. *)
Fixpoint suffix_sums (l : list Qc) : list Qc :=
  match l with [] => [] | x :: t => (match suffix_sums t with [] => x | s :: _ => s + x end)%Qc :: suffix_sums t end.
Fixpoint prefix_sums (acc : Qc) (l : list Qc) : list Qc :=
  match l with [] => [] | x :: t => acc :: prefix_sums (acc + x)%Qc t end.

(** l[i] = v *)
Fixpoint list_set {A} (l : list A) (i : nat) (v : A) : res (list A) :=
  match l, i with
  | [], _ => Err IndexError
  | _ :: t, 0 => Ok (v :: t)
  | x :: t, S j => let! t' := list_set t j v in Ok (x :: t')
  end.

(** 529-534: one iteration. *)
Definition BCM_EPS : Qc := Q2Qc (1 # 10000000).
Definition above_one (m : list Qc * list Qc * list Qc * list Qc) (it : nat * num)
  : res (list Qc * list Qc * list Qc * list Qc) :=
  let '(tp, tn, fp, fn) := m in
  if num_leb (Fin (1 + BCM_EPS)%Qc) (snd it) then
    let! tp := list_set tp (fst it) 0%Qc in
    let! fp := list_set fp (fst it) 0%Qc in
    let! tp0 := nth_ok tp 0 in
    let! fn := list_set fn (fst it) tp0 in
    let! fp0 := nth_ok fp 0 in
    let! tn := list_set tn (fst it) fp0 in
    Ok (tp, tn, fp, fn)
  else Ok (tp, tn, fp, fn).

(** 491-535 [_histogram_to_binary_confusion_matrices]. *)
Definition histogram_to_matrices (thresholds : list num) (hist : list bucket) : res matrices :=
  let pos := map (fun b => t_labels (snd b)) hist in
  let neg := map (fun b => t_examples (snd b) - t_labels (snd b))%Qc hist in
  let! t0 := nth_ok thresholds 0 in
  let offset := if (num_leb (Fin 0%Qc) t0 || Nat.eqb (length thresholds) 1)
                   && Nat.ltb 1 (length hist) then 1 else 0 in
  let slice l := firstn (length thresholds) (skipn offset l) in
  let! m := foldM above_one (combine (seq 0 (length thresholds)) thresholds)
              (slice (suffix_sums pos), slice (prefix_sums 0%Qc neg),
               slice (suffix_sums neg), slice (prefix_sums 0%Qc pos)) in
  let '(tp, tn, fp, fn) := m in
  Ok (Matrices thresholds tp tn fp fn).

(** 447-474 [result] with use_histogram; DEFAULT_NUM_BUCKETS = 10000 is a parameter
    of rebin here.  The rebinned histogram always comes from left=0, right=1. *)
Definition rebin_thresholds (thresholds : list num) : res (list num) :=
  let! t0 := nth_ok thresholds 0 in
  let r := map (fun t => if num_eqb t (Fin 0%Qc) then t else num_plus t (Fin BCM_EPS)) thresholds in
  let r := if num_leb (Fin 0%Qc) t0 then Fin (- BCM_EPS)%Qc :: r else r in
  Ok (if num_ltb (last thresholds NaN) (Fin 1%Qc) then r ++ [Fin (1 + BCM_EPS)%Qc] else r).
Definition histogram_result (thresholds : list num) (hist : list bucket) (num_buckets : nat) : res matrices :=
  let! t0 := nth_ok thresholds 0 in
  let! hist :=
    if Nat.eqb (length thresholds) 1 && num_ltb t0 (Fin 0%Qc) then Ok hist
    else let! r := rebin_thresholds thresholds in Ok (rebin r hist num_buckets 0%Qc 1%Qc) in
  histogram_to_matrices thresholds hist.
