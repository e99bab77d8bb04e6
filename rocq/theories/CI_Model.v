(* Model of confidence intervals: evaluators/confidence_intervals_util.py,
   evaluators/jackknife.py, evaluators/poisson_bootstrap.py, utils/beam_util.py and
   utils/math_util.py; metrics/metric_specs.py 613-624 (skipped metrics). *)
From Coq Require Import String Reals.
From Verif Require Import Base Beam Keys_Model Means_Model.
Local Open Scope string_scope.
Local Open Scope list_scope.

(* ------------------------------------------------------------------ *)
(** * Wrapped combiners *)

Section Wrapped.
  Context {I A O : Type} (c : combiner I A O).

  (** jackknife.py 33-57 [_AccumulateOnlyCombineFn] *)
  Definition accumulate_only : combiner I A A := Combiner (c_create c) (c_add c) (c_merge c) (fun a => a).

  (** jackknife.py 60-71 [_AccumulatorCombineFn] *)
  Definition of_accumulators : combiner A A O :=
    Combiner (c_create c) (fun a e => c_merge c [a; e]) (c_merge c) (c_extract c).

  (** poisson_bootstrap.py 33-49 [_BootstrapCombineFn].  An input carries the number its
      Poisson draw gives. *)
  Definition bootstrap : combiner (I * nat) A O :=
    Combiner (c_create c) (fun a xn => fold_left (c_add c) (repeat (fst xn) (snd xn)) a) (c_merge c) (c_extract c).
End Wrapped.

(** jackknife.py 228-279 without the derived metrics: every element of the input carries its
    partition.  [accs] has the accumulators of each partition, [full] the metrics of all
    partitions, [samples] those of all but one. *)
Definition partition_of {K I} (i : nat) (data : list (K * I * nat)) : list (K * I) :=
  map fst (filter (fun d => Nat.eqb (snd d) i) data).
Definition jackknife_samples {K I A O} (keqb : K -> K -> bool) (c : combiner I A O) (n : nat) (data : list (K * I * nat))
    (full : list (K * O)) (samples : list (list (K * O))) : Prop :=
  exists accs : list (list (K * A)),
    length accs = n /\ length samples = n /\
    (forall i a, nth_error accs i = Some a -> per_key keqb (accumulate_only c) (partition_of i data) a) /\
    per_key keqb (of_accumulators c) (concat accs) full /\
    (forall i m, nth_error samples i = Some m ->
       per_key keqb (of_accumulators c) (concat (map (fun ja => if Nat.eqb (fst ja) i then [] else snd ja) (combine (seq 0 n) accs))) m).

(* ------------------------------------------------------------------ *)
(** * Combining samples: confidence_intervals_util.py 28-198 *)

(** Values of metrics.  Simplification: numbers only; structured values and arrays behave like
    several numbers.  Anything else (text, ...) is opaque.  Messages are the texts of
    167-171 and 186-190. *)
Inductive mval :=
| Num (x : num)
| Opaque (s : string)
| TooFewSamples (got expected : nat)
| WrongCounts (counts : list (metric_key * nat)) (expected : nat).
Definition metrics_dict := list (metric_key * mval).

(** 28-30 [SampleMetrics]; no sample id is the full sample. *)
Record sample := Sample { s_metrics : metrics_dict; s_id : option nat }.

(** 33-69.  The standard deviation is kept as its square, which is exact. *)
Definition mean_and_var (values : list num) (ddof : nat) : res (num * num) :=
  match values with
  | [] => Err TypeError
  | v :: rest =>
      let total := fold_left num_plus rest v in
      let mean := num_div total (Fin (qz (Z.of_nat (length values)))) in
      let sqr := fun x => num_sqr (num_sub x mean) in
      let sq := fold_left (fun acc x => num_plus acc (sqr x)) rest (sqr v) in
      if Nat.eqb (length values) ddof then Err ZeroDivisionError
      else Ok (mean, num_div sq (Fin (qz (Z.of_nat (length values) - Z.of_nat ddof))))
  end.

(** 74-81 [SampleAccumulator] *)
Record sacc := SAcc {
  a_point : option metrics_dict;
  a_count : nat;
  a_samples : list (metric_key * list num)
}.
Definition extend (d : list (metric_key * list num)) (k : metric_key) (vs : list num) : list (metric_key * list num) :=
  dset metric_key_eqb d k (match dget metric_key_eqb d k with Some l => l | None => [] end ++ vs).

Section Samples.
  Context (num_samples : nat) (skip : list metric_key).

  (** 114-145 *)
  Definition sample_add (acc : sacc) (s : sample) : sacc :=
    match s_id s with
    | None => SAcc (Some (s_metrics s)) (a_count acc) (a_samples acc)
    | Some _ =>
        SAcc (a_point acc) (S (a_count acc))
          (fold_left (fun d kv => match snd kv with
                                  | Num x => if memb metric_key_eqb (fst kv) skip then d else extend d (fst kv) [x]
                                  | _ => d
                                  end) (s_metrics s) (a_samples acc))
    end.
  (** 147-159 *)
  Definition sample_plus (a b : sacc) : sacc :=
    SAcc (match a_point b with Some p => Some p | None => a_point a end) (a_count a + a_count b)
         (fold_left (fun d kv => extend d (fst kv) (snd kv)) (a_samples b) (a_samples a)).

  (** constants.ERROR_METRIC_NAME *)
  Definition error_key : metric_key := MetricKey "__ERROR__" "" "" None None None false.

  (** 161-191 [_validate_accumulator] *)
  Definition validate_accumulator (acc : sacc) : res (metrics_dict * list (metric_key * list num)) :=
    match a_point acc with
    | None => Err TypeError
    | Some point =>
        let few := Nat.ltb (a_count acc) num_samples in
        let point1 := if few then dset metric_key_eqb point error_key (TooFewSamples (a_count acc) num_samples) else point in
        let samples := if few then [] else a_samples acc in
        let wrong := flat_map (fun kv => match dget metric_key_eqb samples (fst kv) with
                                         | Some l => if Nat.eqb (length l) num_samples then [] else [(fst kv, length l)]
                                         | None => []
                                         end) point1 in
        let samples' := fold_left (fun d kl => ddel metric_key_eqb d (fst kl)) wrong samples in
        let point2 := match wrong with [] => point1 | _ => dset metric_key_eqb point1 error_key (WrongCounts wrong num_samples) end in
        Ok (point2, samples')
    end.

  (** A result: the point estimate as it is, or api/types.py 377-415
      [ValueWithTDistribution] with the square of the standard deviation. *)
  Inductive ci_value :=
  | Plain (v : mval)
  | TValue (mean var : num) (dof : nat) (unsampled : num).

  (** jackknife.py 97-136 and poisson_bootstrap.py 134-155 [extract_output] *)
  Inductive method := Jackknife | Bootstrap.
  Definition interval (m : method) (point : mval) (samples : list num) : res ci_value :=
    match point with
    | Num p =>
        match m with
        | Jackknife =>
            let pseudo := map (fun v => num_sub (num_scale (qz (Z.of_nat num_samples)) p) (num_scale (qz (Z.of_nat num_samples - 1)) v)) samples in
            let! mv := mean_and_var pseudo 1 in
            match samples with
            | [] => Err TypeError
            | v :: rest => Ok (TValue (num_div (fold_left num_plus rest v) (Fin (qz (Z.of_nat num_samples))))
                                      (num_div (snd mv) (Fin (qz (Z.of_nat num_samples)))) (num_samples - 1) p)
            end
        | Bootstrap =>
            let! mv := mean_and_var samples 1 in
            Ok (TValue (fst mv) (snd mv) (num_samples - 1) p)
        end
    | _ => Err TypeError
    end.
  Definition sample_extract (m : method) (acc : sacc) : res (list (metric_key * ci_value)) :=
    let! ps := validate_accumulator acc in
    mapM (fun kv => match dget metric_key_eqb (snd ps) (fst kv) with
                    | None => Ok (fst kv, Plain (snd kv))
                    | Some l => let! v := interval m (snd kv) l in Ok (fst kv, v)
                    end) (fst ps).

  Definition sample_combiner (m : method) : combiner sample sacc (res (list (metric_key * ci_value))) :=
    {| c_create := SAcc None 0 [];
       c_add := sample_add;
       c_merge := fun l => match l with [] => SAcc None 0 [] | a :: t => fold_left sample_plus t a end;
       c_extract := sample_extract m |}.
End Samples.

(* ------------------------------------------------------------------ *)
(** * The interval: utils/math_util.py 21-33 *)

(** [t_stat] is the 97.5% quantile of the t distribution, from scipy. *)
Definition confidence_interval (t_stat : R) (mean var : Qc) : R * R * R :=
  let std_err := sqrt (Q2R var) in
  (Q2R mean, (Q2R mean - std_err * t_stat)%R, (Q2R mean + std_err * t_stat)%R).

(* ------------------------------------------------------------------ *)
(** * Metrics without interval: metrics/metric_specs.py 613-624 *)

(** The keys of the configured metrics, with the compute_confidence_interval property of the
    metric.  They are never keys of differences between models. *)
Definition keys_to_skip (configured : list (metric_key * bool)) : list metric_key :=
  map fst (filter (fun kc => negb (snd kc)) configured).
