(* CI *)
From Coq Require Import String Reals.
From Verif Require Import Base BaseFacts Beam BeamFacts Keys_Model Keys_Main Means_Model CI_Model.
From Verif Require Import CI_Main.
Local Open Scope string_scope.
Local Open Scope list_scope.

(* ------------------------------------------------------------------ *)
(** ** Jackknife samples *)
(** With jackknife on, the unsampled metrics are metrics of all data and sample i has metrics of
    the data outside partition i, for every assignment of the data to partitions. *)
Theorem C21_jackknife_samples :
  forall K I A O (keqb : K -> K -> bool) (c : combiner I A O) n data full samples,
    (forall a b, keqb a b = true <-> a = b) -> Forall (fun d => snd d < n) data ->
    jackknife_samples keqb c n data full samples ->
    per_key keqb c (map fst data) full /\
    forall i m, nth_error samples i = Some m -> per_key keqb c (map fst (filter (fun d => negb (Nat.eqb (snd d) i)) data)) m.
Proof. exact C21_jackknife_samples_pf. Qed.

(** If the metric does not depend on how it is computed, this is the metric without confidence
    intervals. *)
Theorem C21_point_estimates :
  forall K I A O (keqb : K -> K -> bool) (c : combiner I A O) n data full samples plain,
    (forall a b, keqb a b = true <-> a = b) -> Forall (fun d => snd d < n) data ->
    (forall s s' : sched I, Permutation (inputs s) (inputs s') -> outcome c s = outcome c s') ->
    jackknife_samples keqb c n data full samples -> per_key keqb c (map fst data) plain ->
    forall k o, In (k, o) full <-> In (k, o) plain.
Proof. exact C21_point_estimates_pf. Qed.

Example C21_example :
  let data := [("a", 1%Z, 0); ("a", 2%Z, 1); ("b", 4%Z, 1); ("a", 8%Z, 1)] in
  jackknife_samples String.eqb sum_combiner 2 data [("a", 11%Z); ("b", 4%Z)] [[("a", 10%Z); ("b", 4%Z)]; [("a", 1%Z)]].
Proof.
  cbv zeta. exists [[("a", 1%Z)]; [("a", 10%Z); ("b", 4%Z)]]. split; [reflexivity|]. split; [reflexivity|].
  split; [|split].
  - intros [|[|[|i]]] a E; cbn in E; try discriminate; injection E as <-; (split; [cbn; repeat constructor; cbn; intuition discriminate|split; [intros k; cbn; tauto|]]).
    + intros k o [[= <- <-]|[]]. exists (Bundle [1%Z]). split; [apply Permutation_refl|reflexivity].
    + intros k o [[= <- <-]|[[= <- <-]|[]]].
      * exists (Merge (Bundle [2%Z]) [Bundle [8%Z]]). split; [apply Permutation_refl|reflexivity].
      * exists (Bundle [4%Z]). split; [apply Permutation_refl|reflexivity].
  - split; [cbn; repeat constructor; cbn; intuition discriminate|]. split; [intros k; cbn; tauto|].
    intros k o [[= <- <-]|[[= <- <-]|[]]].
    + exists (Bundle [1%Z; 10%Z]). split; [apply Permutation_refl|reflexivity].
    + exists (Bundle [4%Z]). split; [apply Permutation_refl|reflexivity].
  - intros [|[|[|i]]] m E; cbn in E; try discriminate; injection E as <-; (split; [cbn; repeat constructor; cbn; intuition discriminate|split; [intros k; cbn; tauto|]]).
    + intros k o [[= <- <-]|[[= <- <-]|[]]].
      * exists (Bundle [10%Z]). split; [apply Permutation_refl|reflexivity].
      * exists (Bundle [4%Z]). split; [apply Permutation_refl|reflexivity].
    + intros k o [[= <- <-]|[]]. exists (Bundle [1%Z]). split; [apply Permutation_refl|reflexivity].
Qed.

(* ------------------------------------------------------------------ *)
(** ** Bootstrap replicates *)
(** A replicate has the slices of the data; the value of a slice is the metric of its own
    examples, each repeated as often as drawn. *)
Theorem C24_replicates :
  forall K I A O (keqb : K -> K -> bool) (c : combiner I A O) (data : list (K * (I * nat))) out,
    per_key keqb (bootstrap c) data out ->
    NoDup (map fst out) /\ (forall k, In k (map fst out) <-> In k (map fst data)) /\
    forall k o, In (k, o) out ->
      exists s, Permutation (inputs s) (flat_map (fun xn => repeat (fst xn) (snd xn)) (values_of keqb k data)) /\ outcome c s = o.
Proof. exact C24_replicates_pf. Qed.

(** Drawing every example once gives the unsampled metrics. *)
Theorem C24_ones :
  forall K I A O (keqb : K -> K -> bool) (c : combiner I A O) (data : list (K * (I * nat))) out,
    Forall (fun d => snd (snd d) = 1) data -> per_key keqb (bootstrap c) data out ->
    per_key keqb c (map (fun d => (fst d, fst (snd d))) data) out.
Proof. exact C24_ones_pf. Qed.

Example C24_example :
  let s := Merge (Bundle [(1%Z, 2); (2%Z, 0)]) [Bundle [(4%Z, 3)]] in
  outcome (bootstrap sum_combiner) s = 14%Z /\ outcome (bootstrap sum_combiner) (Bundle [(1%Z, 1); (4%Z, 1)]) = outcome sum_combiner (Bundle [1%Z; 4%Z]).
Proof. split; reflexivity. Qed.

(* ------------------------------------------------------------------ *)
(** ** Combining samples *)
(** Whatever the order in which the samples arrive: the unsampled value is the point estimate; a
    metric has an interval iff it is not skipped and every one of the n samples has a number for it;
    and an error is added iff samples are missing, or only some of the samples have a number for
    a metric. *)
Theorem C22_intervals :
  forall n skip m (P : metrics_dict) (others : list (nat * metrics_dict)) (s : sched sample),
    2 <= n -> length others <= n -> NoDup (map fst P) -> ~ In error_key (map fst P) ->
    (forall o, In o others -> NoDup (map fst (snd o)) /\ ~ In error_key (map fst (snd o))) ->
    (forall k v, In (k, v) P -> length others = n -> Forall (fun o => numeric k (snd o)) others -> exists x, v = Num x) ->
    Permutation (inputs s) (Sample P None :: map as_sample others) ->
    exists out, outcome (sample_combiner n skip m) s = Ok out /\ NoDup (map fst out) /\
      (forall k, In k (map fst out) -> In k (map fst P) \/ k = error_key) /\
      (forall k v, In (k, v) P ->
         length others = n /\ ~ In k skip /\ Forall (fun o => numeric k (snd o)) others ->
         exists x mean var, v = Num x /\ In (k, TValue mean var (n - 1) x) out) /\
      (forall k v, In (k, v) P ->
         ~ (length others = n /\ ~ In k skip /\ Forall (fun o => numeric k (snd o)) others) -> In (k, Plain v) out) /\
      (In error_key (map fst out) <->
         length others < n \/
         exists k v, In (k, v) P /\ ~ In k skip /\ Exists (fun o => numeric k (snd o)) others /\ ~ Forall (fun o => numeric k (snd o)) others).
Proof. exact C22_intervals_pf. Qed.

Example C22_example :
  let auc := plain_key "auc" in let loss := plain_key "loss" in let count := plain_key "count" in let text := plain_key "text" in
  let P := [(auc, Num (Fin (qz 6))); (loss, Num (Fin (qz 1))); (count, Num (Fin (qz 3))); (text, Opaque "x")] in
  let s1 := [(auc, Num (Fin (qz 5))); (loss, Num (Fin (qz 1))); (count, Num (Fin (qz 2)))] in
  let s2 := [(count, Num (Fin (qz 1))); (auc, Num (Fin (qz 7)))] in
  let sched := Merge (Bundle [as_sample (1, s2)]) [Bundle [Sample P None]; Bundle [as_sample (0, s1)]] in
  outcome (sample_combiner 2 [count] Jackknife) sched =
    Ok [(auc, TValue (Fin (qz 6)) (Fin (qz 1)) 1 (Fin (qz 6))); (loss, Plain (Num (Fin (qz 1)))); (count, Plain (Num (Fin (qz 3)))); (text, Plain (Opaque "x"));
        (error_key, Plain (WrongCounts [(loss, 1)] 2))] /\
  outcome (sample_combiner 3 [count] Jackknife) sched =
    Ok (map (fun kv => (fst kv, Plain (snd kv))) P ++ [(error_key, Plain (TooFewSamples 2 3))]).
Proof. cbv zeta. split; qc_ex. Qed.

(* ------------------------------------------------------------------ *)
(** ** The values *)
(** Mean and standard error of the jackknife from n samples, whatever else is computed with
    them.  The variance is the square of the reported standard deviation. *)
Theorem C23_jackknife :
  forall n skip (P : metrics_dict) (others : list (nat * metrics_dict)) (s : sched sample) k p xs,
    2 <= n -> length others = n -> NoDup (map fst P) -> ~ In error_key (map fst P) ->
    (forall o, In o others -> NoDup (map fst (snd o)) /\ ~ In error_key (map fst (snd o))) ->
    (forall k v, In (k, v) P -> Forall (fun o => numeric k (snd o)) others -> exists x, v = Num x) ->
    Permutation (inputs s) (Sample P None :: map as_sample others) ->
    In (k, Num (Fin p)) P -> ~ In k skip -> Forall2 (fun o x => In (k, Num (Fin x)) (snd o)) others xs ->
    exists out mean var, outcome (sample_combiner n skip Jackknife) s = Ok out /\
      In (k, TValue (Fin mean) (Fin var) (n - 1) (Fin p)) out /\
      mean = (qsum xs / qz (Z.of_nat n))%Qc /\
      var = (qz (Z.of_nat n - 1) / qz (Z.of_nat n) * qsum (map (fun x => (x - mean) * (x - mean)) xs))%Qc /\
      (0 <= var)%Qc /\ (var = 0%Qc <-> forall x y, In x xs -> In y xs -> x = y).
Proof. exact C23_jackknife_pf. Qed.

(** The bootstrap reports the mean and the sample variance. *)
Theorem C23_bootstrap :
  forall n skip (P : metrics_dict) (others : list (nat * metrics_dict)) (s : sched sample) k p xs,
    2 <= n -> length others = n -> NoDup (map fst P) -> ~ In error_key (map fst P) ->
    (forall o, In o others -> NoDup (map fst (snd o)) /\ ~ In error_key (map fst (snd o))) ->
    (forall k v, In (k, v) P -> Forall (fun o => numeric k (snd o)) others -> exists x, v = Num x) ->
    Permutation (inputs s) (Sample P None :: map as_sample others) ->
    In (k, Num (Fin p)) P -> ~ In k skip -> Forall2 (fun o x => In (k, Num (Fin x)) (snd o)) others xs ->
    exists out mean, outcome (sample_combiner n skip Bootstrap) s = Ok out /\
      mean = (qsum xs / qz (Z.of_nat n))%Qc /\
      In (k, TValue (Fin mean) (Fin (qsum (map (fun x => (x - mean) * (x - mean)) xs) / qz (Z.of_nat n - 1))%Qc) (n - 1) (Fin p)) out.
Proof. exact C23_bootstrap_pf. Qed.

(** Adding a constant to the metric shifts the mean by it and leaves the standard error. *)
Theorem C23_shift :
  forall n skip (P P' : metrics_dict) (others others' : list (nat * metrics_dict)) (s s' : sched sample) k p c xs,
    2 <= n -> length others = n -> NoDup (map fst P) -> ~ In error_key (map fst P) ->
    (forall o, In o others -> NoDup (map fst (snd o)) /\ ~ In error_key (map fst (snd o))) ->
    (forall k v, In (k, v) P -> Forall (fun o => numeric k (snd o)) others -> exists x, v = Num x) ->
    NoDup (map fst P') -> ~ In error_key (map fst P') ->
    (forall o, In o others' -> NoDup (map fst (snd o)) /\ ~ In error_key (map fst (snd o))) ->
    (forall k v, In (k, v) P' -> Forall (fun o => numeric k (snd o)) others' -> exists x, v = Num x) ->
    Permutation (inputs s) (Sample P None :: map as_sample others) ->
    Permutation (inputs s') (Sample P' None :: map as_sample others') ->
    In (k, Num (Fin p)) P -> In (k, Num (Fin (p + c)%Qc)) P' -> ~ In k skip ->
    Forall2 (fun o x => In (k, Num (Fin x)) (snd o)) others xs ->
    Forall2 (fun o x => In (k, Num (Fin (x + c)%Qc)) (snd o)) others' xs ->
    exists out out' mean var,
      outcome (sample_combiner n skip Jackknife) s = Ok out /\ In (k, TValue (Fin mean) (Fin var) (n - 1) (Fin p)) out /\
      outcome (sample_combiner n skip Jackknife) s' = Ok out' /\ In (k, TValue (Fin (mean + c)%Qc) (Fin var) (n - 1) (Fin (p + c)%Qc)) out'.
Proof. exact C23_shift_pf. Qed.

Example C23_example :
  let auc := plain_key "auc" in
  let run m := outcome (sample_combiner 3 [] m) (Bundle [as_sample (0, [(auc, Num (Fin (qz 1)))]); Sample [(auc, Num (Fin (qz 3)))] None; as_sample (1, [(auc, Num (Fin (qz 2)))]); as_sample (2, [(auc, Num (Fin (qz 6)))])]) in
  run Jackknife = Ok [(auc, TValue (Fin (qz 3)) (Fin (qz 28 / qz 3)%Qc) 2 (Fin (qz 3)))] /\
  run Bootstrap = Ok [(auc, TValue (Fin (qz 3)) (Fin (qz 7)) 2 (Fin (qz 3)))].
Proof. cbv zeta. split; qc_ex. Qed.

(** The 95% interval is symmetric about the sample mean. *)
Theorem C23_interval :
  forall (t : R) (mean var : Qc), (0 <= t)%R ->
    let '(m, lower, upper) := confidence_interval t mean var in
    m = Q2R mean /\ (m - lower = upper - m)%R /\ (lower <= m <= upper)%R.
Proof. exact C23_interval_pf. Qed.

Example C23_interval_example : confidence_interval 2 (qz 3) (qz 4) = (3, -1, 7)%R.
Proof.
  unfold confidence_interval. assert (A : forall z, Q2R (qz z) = IZR z).
  { intros z. rewrite (Qreals.Qeq_eqR _ _ (qz_this z)). unfold Q2R, inject_Z. cbn [Qnum Qden]. field. }
  rewrite !A. replace (IZR 4) with (Rsqr 2) by (unfold Rsqr; ring). rewrite sqrt_Rsqr by Lra.lra. f_equal; [f_equal|]; Lra.lra.
Qed.

(* ------------------------------------------------------------------ *)
(** ** Counts *)
(** Jackknife of a metric that adds up over the partitions (a count of true positives, say):
    leaving partition i out gives the total without part i.  The mean is not centred on the
    reported value. *)
Theorem C91_additive_mean :
  forall n skip (P : metrics_dict) (others : list (nat * metrics_dict)) (s : sched sample) k parts,
    2 <= n -> length others = n -> NoDup (map fst P) -> ~ In error_key (map fst P) ->
    (forall o, In o others -> NoDup (map fst (snd o)) /\ ~ In error_key (map fst (snd o))) ->
    (forall k v, In (k, v) P -> Forall (fun o => numeric k (snd o)) others -> exists x, v = Num x) ->
    Permutation (inputs s) (Sample P None :: map as_sample others) ->
    In (k, Num (Fin (qsum parts))) P -> ~ In k skip ->
    Forall2 (fun o part => In (k, Num (Fin (qsum parts - part)%Qc)) (snd o)) others parts ->
    exists out var, outcome (sample_combiner n skip Jackknife) s = Ok out /\
      In (k, TValue (Fin (qz (Z.of_nat n - 1) / qz (Z.of_nat n) * qsum parts)%Qc) (Fin var) (n - 1) (Fin (qsum parts))) out.
Proof. exact C91_additive_mean_pf. Qed.

(** So an interval need not contain the value it is reported with: two partitions with the same
    count, for every quantile. *)
Theorem C91_interval_contains_value_refuted :
  exists (P : metrics_dict) (s0 s1 : metrics_dict) k mean var value,
    P = [(k, Num (Fin (qz 10 + qz 10)%Qc))] /\ s0 = [(k, Num (Fin (qz 10)))] /\ s1 = [(k, Num (Fin (qz 10)))] /\
    outcome (sample_combiner 2 [] Jackknife) (Bundle [Sample P None; as_sample (0, s0); as_sample (1, s1)])
      = Ok [(k, TValue (Fin mean) (Fin var) 1 (Fin value))] /\
    forall t : R, let '(_, lower, upper) := confidence_interval t mean var in ~ (lower <= Q2R value <= upper)%R.
Proof. exact C91_interval_contains_value_refuted_pf. Qed.

(* ------------------------------------------------------------------ *)
(** ** Metrics without interval *)
(** A metric configured without interval has none in the result, ... *)
Theorem C92_skipped_metrics :
  forall n configured m (P : metrics_dict) (others : list (nat * metrics_dict)) (s : sched sample) k v,
    2 <= n -> length others <= n -> NoDup (map fst P) -> ~ In error_key (map fst P) ->
    (forall o, In o others -> NoDup (map fst (snd o)) /\ ~ In error_key (map fst (snd o))) ->
    (forall k v, In (k, v) P -> length others = n -> Forall (fun o => numeric k (snd o)) others -> exists x, v = Num x) ->
    Permutation (inputs s) (Sample P None :: map as_sample others) ->
    In (k, false) configured -> In (k, v) P ->
    exists out, outcome (sample_combiner n (keys_to_skip configured) m) s = Ok out /\ In (k, Plain v) out.
Proof. exact C92_skipped_metrics_pf. Qed.

(** ... but the difference between two models does. *)
Theorem C92_skipped_differences_refuted :
  exists configured k base s out mean var,
    In (k, false) configured /\ In (base, false) configured /\ k_diff k = false /\
    outcome (sample_combiner 2 (keys_to_skip configured) Jackknife) s = Ok out /\
    (exists x, In (k, Plain (Num x)) out) /\ (exists x, In (base, Plain (Num x)) out) /\
    exists x, In (make_diff_key k, TValue mean var 1 x) out.
Proof. exact C92_skipped_differences_refuted_pf. Qed.

Example C92_example :
  keys_to_skip [(plain_key "auc", true); (plain_key "example_count", false)] = [plain_key "example_count"] /\
  outcome (sample_combiner 2 (keys_to_skip [(plain_key "auc", true); (plain_key "example_count", false)]) Jackknife)
    (Bundle [Sample [(plain_key "example_count", Num (Fin (qz 7)))] None; as_sample (0, [(plain_key "example_count", Num (Fin (qz 3)))]); as_sample (1, [(plain_key "example_count", Num (Fin (qz 4)))])])
  = Ok [(plain_key "example_count", Plain (Num (Fin (qz 7))))].
Proof. split; [reflexivity|qc_ex]. Qed.

Example C91_example :
  outcome (sample_combiner 3 [] Jackknife)
    (Bundle [Sample [(plain_key "tp", Num (Fin (qz 6)))] None; as_sample (0, [(plain_key "tp", Num (Fin (qz 5)))]); as_sample (1, [(plain_key "tp", Num (Fin (qz 4)))]); as_sample (2, [(plain_key "tp", Num (Fin (qz 3)))])])
  = Ok [(plain_key "tp", TValue (Fin (qz 4)) (Fin (qz 4 / qz 3)%Qc) 2 (Fin (qz 6)))].
Proof. qc_ex. Qed.

Print Assumptions C21_jackknife_samples.
Print Assumptions C21_point_estimates.
Print Assumptions C24_replicates.
Print Assumptions C24_ones.
Print Assumptions C22_intervals.
Print Assumptions C23_jackknife.
Print Assumptions C23_bootstrap.
Print Assumptions C23_shift.
Print Assumptions C23_interval.
Print Assumptions C91_additive_mean.
Print Assumptions C91_interval_contains_value_refuted.
Print Assumptions C92_skipped_metrics.
Print Assumptions C92_skipped_differences_refuted.
