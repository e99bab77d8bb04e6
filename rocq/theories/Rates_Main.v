(* Proofs of the theorems restated in Rates_Properties.v. *)
From Coq Require Import String Reals.
From Verif Require Import Base BaseFacts RealFacts Beam BeamFacts Inputs_Model Inputs_Main Means_Model Histogram_Model Histogram_Main Confusion_Model Confusion_Main Rates_Model.
Local Open Scope string_scope.
Local Open Scope list_scope.

(* C40 - C42, C93 - C100: metrics of confusion matrices. *)

Inductive rate := Accuracy | Precision | Recall | Specificity | FallOut | MissRate | NPV | FDR | FOR | Prevalence | ThreatScore | F1 | PredictedPositiveRate.

(** Which weight counts in the numerator and which in the denominator of a rate: an
    example has a positive part, a negative part, and is predicted positive or not. *)

Definition top (r : rate) (predicted : bool) (pos neg : Qc) : Qc :=
  match r with
  | Accuracy => if predicted then pos else neg
  | Precision | Recall | ThreatScore => if predicted then pos else 0%Qc
  | Specificity | NPV => if predicted then 0%Qc else neg
  | FallOut | FDR => if predicted then neg else 0%Qc
  | MissRate | FOR => if predicted then 0%Qc else pos
  | Prevalence => pos
  | F1 => if predicted then (qz 2 * pos)%Qc else 0%Qc
  | PredictedPositiveRate => if predicted then (pos + neg)%Qc else 0%Qc
  end.

Definition bottom (r : rate) (predicted : bool) (pos neg : Qc) : Qc :=
  match r with
  | Accuracy | Prevalence | PredictedPositiveRate => (pos + neg)%Qc
  | Precision | FDR => if predicted then (pos + neg)%Qc else 0%Qc
  | NPV | FOR => if predicted then 0%Qc else (pos + neg)%Qc
  | Recall | MissRate => pos
  | Specificity | FallOut => neg
  | ThreatScore => if predicted then (pos + neg)%Qc else pos
  | F1 => if predicted then (qz 2 * pos + neg)%Qc else pos
  end.

(** A fraction a/b of weights: NaN if there is no weight. *)

Definition fraction (a b : Qc) (v : num) : Prop :=
  (b = 0%Qc /\ v = NaN) \/ ((0 < b)%Qc /\ exists q, v = Fin q /\ (q * b = a)%Qc /\ (0 <= q <= 1)%Qc).

Definition reported (r : rate) (tp tn fp fn : Qc) : num :=
  match r with
  | Accuracy => binary_accuracy tp tn fp fn
  | Precision => precision tp fp
  | Recall => recall tp fn
  | Specificity => specificity tn fp
  | FallOut => fall_out tn fp
  | MissRate => miss_rate tp fn
  | NPV => negative_predictive_value tn fn
  | FDR => false_discovery_rate tp fp
  | FOR => false_omission_rate tn fn
  | Prevalence => prevalence tp tn fp fn
  | ThreatScore => threat_score tp fp fn
  | F1 => f1_score tp fp fn
  | PredictedPositiveRate => predicted_positive_rate tp tn fp fn
  end.

Lemma qz2 : qz 2 = (1 + 1)%Qc.
Proof. apply Qc_is_canon. reflexivity. Qed.

Lemma pos_div_fraction a b : (0 <= a)%Qc -> (a <= b)%Qc -> fraction a b (pos_div a b).
Proof.
  intros A B. unfold pos_div. destruct (Qc_ltb 0%Qc b) eqn:Z; qc_bool.
  - right. split; [exact Z|]. exists (a / b)%Qc. split; [reflexivity|]. split.
    + field. intros ->. revert Z. apply Qcle_not_lt, Qcle_refl.
    + split; [apply Qcdiv_nonneg; assumption|apply Qcdiv_le_1; assumption].
  - left. split; [apply Qcle_antisym; [exact Z|apply (Qcle_trans _ a); assumption]|reflexivity].
Qed.

Section Nonneg.
  Context (tp tn fp fn : Qc) (TP : (0 <= tp)%Qc) (TN : (0 <= tn)%Qc) (FP : (0 <= fp)%Qc) (FN : (0 <= fn)%Qc).

  Lemma reported_fraction r a b :
    (top r true tp fp + top r false fn tn = a)%Qc -> (bottom r true tp fp + bottom r false fn tn = b)%Qc ->
    fraction a b (reported r tp tn fp fn).
  Proof.
    intros A B.
    assert (E : exists x y, reported r tp tn fp fn = pos_div x y /\ x = a /\ y = b /\ (0 <= x)%Qc /\ (x <= y)%Qc).
    { destruct r; cbn [reported top bottom] in *; rewrite ?qz2 in A, B; unfold f1_score; rewrite ?qz2;
        (eexists; eexists; split; [reflexivity|]; split; [rewrite <- A; rewrite ?qz2; ring|]; split; [rewrite <- B; rewrite ?qz2; ring|]; split; rewrite ?qz2; qc_lra). }
    destruct E as (x & y & -> & <- & <- & X & Y). apply pos_div_fraction; assumption.
  Qed.

End Nonneg.

Lemma C40_rates_pf : forall r tp tn fp fn,
  (0 <= tp -> 0 <= tn -> 0 <= fp -> 0 <= fn ->
   fraction (top r true tp fp + top r false fn tn) (bottom r true tp fp + bottom r false fn tn) (reported r tp tn fp fn))%Qc.
Proof. intros. apply reported_fraction; auto. Qed.

(** Complementary rates. *)

Definition complementary (a b : num) : Prop :=
  (a = NaN /\ b = NaN) \/ exists p q, a = Fin p /\ b = Fin q /\ (p + q = 1)%Qc.

Lemma C40_complements_pf : forall tp tn fp fn,
  complementary (precision tp fp) (false_discovery_rate tp fp) /\
  complementary (recall tp fn) (miss_rate tp fn) /\
  complementary (specificity tn fp) (fall_out tn fp) /\
  complementary (negative_predictive_value tn fn) (false_omission_rate tn fn).
Proof.
  assert (K : forall a b, complementary (pos_div a (a + b)%Qc) (pos_div b (b + a)%Qc)).
  { intros a b. unfold pos_div. rewrite (Qcplus_comm b a). destruct (Qc_ltb 0%Qc (a + b)%Qc) eqn:Z; [|left; split; reflexivity].
    qc_bool. right. eexists; eexists. split; [reflexivity|]. split; [reflexivity|]. field. intros E. rewrite E in Z. revert Z. apply Qcle_not_lt, Qcle_refl. }
  intros. repeat split; apply K.
Qed.

Lemma C40_means_pf : forall tp tn fp fn,
  (0 <= tp -> 0 <= tn -> 0 <= fp -> 0 <= fn ->
   (forall p r, precision tp fp = Fin p -> recall tp fn = Fin r -> exists f, f1_score tp fp fn = Fin f /\ f * (p + r) = qz 2 * p * r /\ (p + r = 0 -> f = 0)) /\
   (forall r s, recall tp fn = Fin r -> specificity tn fp = Fin s -> exists b, balanced_accuracy tp tn fp fn = Fin b /\ qz 2 * b = r + s /\ 0 <= b <= 1) /\
   (recall tp fn = NaN \/ specificity tn fp = NaN -> balanced_accuracy tp tn fp fn = NaN))%Qc.
Proof.
  intros tp tn fp fn T1 T2 T3 T4.
  assert (D : forall a b v, pos_div a b = Fin v -> (0 < b)%Qc /\ v = (a / b)%Qc).
  { intros a b v E. unfold pos_div in E. destruct (Qc_ltb 0%Qc b) eqn:Z; [|discriminate]. qc_bool. injection E as <-. split; [exact Z|reflexivity]. }
  assert (N : forall b, (0 < b)%Qc -> b <> 0%Qc) by (intros b H ->; revert H; apply Qcle_not_lt, Qcle_refl).
  split; [|split].
  - intros p r P R. apply D in P. apply D in R. destruct P as [P1 ->], R as [R1 ->].
    unfold f1_score, pos_div.
    assert (Q : (0 < qz 2 * tp + fp + fn)%Qc) by (rewrite ?qz2 in *; qc_lra).
    rewrite (proj2 (Qc_ltb_lt _ _) Q). eexists. split; [reflexivity|]. split.
    + rewrite ?qz2 in *. field. repeat split; apply N; assumption.
    + intros Z. assert (T : tp = 0%Qc).
      { assert (A : (0 <= tp / (tp + fp))%Qc) by (apply Qcdiv_nonneg; assumption).
        assert (B : (0 <= tp / (tp + fn))%Qc) by (apply Qcdiv_nonneg; assumption).
        assert (C : (tp / (tp + fp) = 0)%Qc) by qc_lra.
        replace tp with ((tp / (tp + fp)) * (tp + fp))%Qc by (field; apply N; assumption). rewrite C. ring. }
      rewrite T. unfold Qcdiv. ring.
  - intros r s P R. apply D in P. apply D in R. destruct P as [P1 ->], R as [R1 ->].
    unfold balanced_accuracy. rewrite (proj2 (Qc_ltb_lt _ _) P1), (proj2 (Qc_ltb_lt _ _) R1). cbn [andb].
    assert (A : (0 <= tp / (tp + fn) <= 1)%Qc) by (split; [apply Qcdiv_nonneg; assumption|apply Qcdiv_le_1; [assumption|qc_lra|assumption]]).
    assert (B : (0 <= tn / (tn + fp) <= 1)%Qc) by (split; [apply Qcdiv_nonneg; assumption|apply Qcdiv_le_1; [assumption|qc_lra|assumption]]).
    eexists. split; [reflexivity|].
    set (x := (tp / (tp + fn))%Qc) in *. set (y := (tn / (tn + fp))%Qc) in *. clearbody x y.
    assert (H : (qz 2 * ((x + y) / qz 2) = x + y)%Qc) by (rewrite ?qz2; field; discriminate).
    split; [exact H|]. set (z := ((x + y) / qz 2)%Qc) in *. clearbody z. rewrite ?qz2 in H. split; qc_lra.
  - intros [H|H]; unfold balanced_accuracy, recall, specificity, pos_div in *.
    + destruct (Qc_ltb 0%Qc (tp + fn)%Qc); [discriminate|reflexivity].
    + destruct (Qc_ltb 0%Qc (tn + fp)%Qc); [discriminate|rewrite andb_false_r; reflexivity].
Qed.

(** From examples to the reported metric: at each threshold the rate is the fraction of the
    weight of the examples. *)

Definition data_fraction (r : rate) (t : num) (D : list scored) (v : num) : Prop :=
  fraction (qsum (map (fun x => top r (predicted t x) (sc_weight x * sc_label x)%Qc (sc_weight x * (1 - sc_label x))%Qc) D))
           (qsum (map (fun x => bottom r (predicted t x) (sc_weight x * sc_label x)%Qc (sc_weight x * (1 - sc_label x))%Qc) D)) v.

Definition at_threshold {A} (d : A) (v : value A) (n i : nat) (P : A -> Prop) : Prop :=
  match v with Single x => n = 1 /\ P x | Array xs => n <> 1 /\ length xs = n /\ P (nth i xs d) end.

Lemma metric_value_at {A} (d : A) (f : Qc -> Qc -> Qc -> Qc -> A) (m : matrices) n i (P : A -> Prop) :
  length (m_thresholds m) = n -> length (m_tp m) = n -> length (m_tn m) = n -> length (m_fp m) = n -> length (m_fn m) = n ->
  i < n -> P (f (tp_at m i) (tn_at m i) (fp_at m i) (fn_at m i)) -> at_threshold d (metric_value f m) n i P.
Proof.
  intros L0 L1 L2 L3 L4 I H. unfold metric_value.
  set (g := fun r => let '(a, b, c, e) := r in f a b c e).
  assert (LR : length (rows_of m) = n) by (unfold rows_of; rewrite !combine_length; lia).
  assert (NR : forall j, j < n -> nth j (map g (rows_of m)) d = f (tp_at m j) (tn_at m j) (fp_at m j) (fn_at m j)).
  { intros j J. rewrite (nth_indep _ d (g (0, 0, 0, 0)%Qc)) by (rewrite map_length; lia). rewrite map_nth. unfold rows_of.
    rewrite !combine_nth by (rewrite ?combine_length; lia). reflexivity. }
  assert (LM : length (map g (rows_of m)) = n) by (rewrite map_length; exact LR).
  destruct (Nat.eq_dec n 1) as [E|E].
  - subst n. rewrite E in *. destruct (m_thresholds m) as [|t0 [|]]; try discriminate.
    destruct (map g (rows_of m)) as [|v [|]]; try discriminate. split; [reflexivity|].
    assert (i = 0) by lia. subst i. rewrite <- NR in H by lia. exact H.
  - assert (X : match m_thresholds m, map g (rows_of m) with [_], [v] => Single v | _, _ => Array (map g (rows_of m)) end = Array (map g (rows_of m))).
    { destruct (m_thresholds m) as [|t0 [|]]; try reflexivity. cbn in L0. congruence. }
    rewrite X. cbn [at_threshold]. split; [exact E|]. split; [exact LM|]. rewrite NR by exact I. exact H.
Qed.

Lemma qsum_split_predicted (p : scored -> bool) (f g : bool -> Qc -> Qc -> Qc) (u v : scored -> Qc) D :
  (forall b x y, f b x y = g b x y) ->
  (forall b x y x' y', g b (x + x') (y + y') = g b x y + g b x' y')%Qc -> (forall b, g b 0%Qc 0%Qc = 0%Qc) ->
  qsum (map (fun x => f (p x) (u x) (v x)) D) =
  (g true (qsum (map u (filter p D))) (qsum (map v (filter p D))) + g false (qsum (map u (filter (fun x => negb (p x)) D))) (qsum (map v (filter (fun x => negb (p x)) D))))%Qc.
Proof.
  intros FG L Z. induction D as [|x D IH]; cbn [map filter].
  - cbn. rewrite !Z. ring.
  - change (qsum ((f (p x) (u x) (v x)) :: map (fun x => f (p x) (u x) (v x)) D)) with (f (p x) (u x) (v x) + qsum (map (fun x => f (p x) (u x) (v x)) D))%Qc.
    rewrite IH, FG. destruct (p x); cbn [negb map].
    + change (qsum (u x :: map u (filter p D))) with (u x + qsum (map u (filter p D)))%Qc.
      change (qsum (v x :: map v (filter p D))) with (v x + qsum (map v (filter p D)))%Qc. rewrite L. ring.
    + change (qsum (u x :: map u (filter (fun x => negb (p x)) D))) with (u x + qsum (map u (filter (fun x => negb (p x)) D)))%Qc.
      change (qsum (v x :: map v (filter (fun x => negb (p x)) D))) with (v x + qsum (map v (filter (fun x => negb (p x)) D)))%Qc. rewrite L. ring.
Qed.

Definition valid_example (x : scored) : Prop := (0 <= sc_weight x)%Qc /\ (0 <= sc_label x <= 1)%Qc.

Lemma positive_part_nonneg x : valid_example x -> (0 <= sc_weight x * sc_label x)%Qc /\ (0 <= sc_weight x * (1 - sc_label x))%Qc.
Proof. intros [W [L1 L2]]. split; apply Qcmult_nonneg; auto. qc_lra. Qed.

Lemma C40_on_data_pf : forall ap ths limit weighted lk pk m o s ex w,
  NoDup ths -> 1 <= limit ->
  (forall e, In e (inputs s) -> well_formed weighted true m o ex w (snd e)) ->
  let D := scored_of ex w (map snd (inputs s)) in
  (forall x, In x D -> valid_example x) ->
  exists cm xm,
    outcome (confusion_combiner ap ths limit (histogram_options None false weighted true None) lk pk m o) s = Ok (cm, xm) /\
    forall r i, i < length ths -> at_threshold NaN (metric_value (reported r) cm) (length ths) i (data_fraction r (nth i ths NaN) D).
Proof.
  intros ap ths limit weighted lk pk m o s ex w ND LIM WF D V.
  destruct (C14_confusion_counts_pf ap ths limit true weighted lk pk m o s ex w ND LIM WF) as (cm & xm & O & T & L1 & L2 & L3 & L4 & C).
  fold D in C. exists cm, xm. split; [exact O|]. intros r i I.
  apply metric_value_at; try assumption; [rewrite T; reflexivity|].
  specialize (C i I). cbv zeta in C. destruct C as (C1 & C2 & C3 & C4).
  set (t := nth i ths NaN) in *. clearbody t.
  assert (N : forall (p : scored -> bool), (0 <= qsum (map (positive_weight true t) (filter p D)))%Qc /\ (0 <= qsum (map (negative_weight true t) (filter p D)))%Qc).
  { intros p. split; apply qsum_nonneg; intros q Q; apply in_map_iff in Q; destruct Q as (x & <- & X); apply filter_In in X; destruct X as [X _];
      apply positive_part_nonneg; auto. }
  unfold data_fraction. apply reported_fraction; try (rewrite ?C1, ?C2, ?C3, ?C4; apply N).
  - rewrite C1, C2, C3, C4. symmetry. apply (qsum_split_predicted (predicted t) (top r) (top r)); [reflexivity| |].
    + intros [|] x y x' y'; destruct r; cbn [top]; ring.
    + intros [|]; destruct r; cbn [top]; ring.
  - rewrite C1, C2, C3, C4. symmetry. apply (qsum_split_predicted (predicted t) (bottom r) (bottom r)); [reflexivity| |].
    + intros [|] x y x' y'; destruct r; cbn [bottom]; ring.
    + intros [|]; destruct r; cbn [bottom]; ring.
Qed.

(** The confusion matrices of n thresholds, all weights non-negative. *)

Definition regular (m : matrices) (n : nat) : Prop :=
  length (m_thresholds m) = n /\ length (m_tp m) = n /\ length (m_tn m) = n /\ length (m_fp m) = n /\ length (m_fn m) = n /\
  forall i, i < n -> (0 <= tp_at m i /\ 0 <= tn_at m i /\ 0 <= fp_at m i /\ 0 <= fn_at m i)%Qc.

(** Does threshold i satisfy the constraint, and what is the quantity to be maximised
    there? *)

Definition satisfies (a : at_metric) (m : matrices) (s : Qc) (i : nat) : Prop :=
  (let tp := tp_at m i in let tn := tn_at m i in let fp := fp_at m i in let fn := fn_at m i in
   match a with
   | SensitivityAtSpecificity => 0 < tn + fp /\ s * (tn + fp) <= tn
   | SpecificityAtSensitivity | PrecisionAtRecall | ThresholdAtRecall => 0 < tp + fn /\ s * (tp + fn) <= tp
   | RecallAtPrecision => 0 < tp + fp /\ s * (tp + fp) <= tp
   | RecallAtFalsePositiveRate => 0 < fp + tn /\ fp <= s * (fp + tn)
   end)%Qc.

Definition quantity (a : at_metric) (m : matrices) (i : nat) (v : num) : Prop :=
  let tp := tp_at m i in let tn := tn_at m i in let fp := fp_at m i in let fn := fn_at m i in
  match a with
  | SensitivityAtSpecificity | RecallAtPrecision | RecallAtFalsePositiveRate => fraction tp (tp + fn)%Qc v
  | SpecificityAtSensitivity => fraction tn (tn + fp)%Qc v
  | PrecisionAtRecall => fraction tp (tp + fp)%Qc v
  | ThresholdAtRecall => v = nth i (m_thresholds m) NaN
  end.

(** 0 if no threshold satisfies the constraint; else attained at such a threshold and at
    least as large as the quantity at every other (NaN only if it is NaN everywhere). *)

Definition best (a : at_metric) (m : matrices) (n : nat) (s : Qc) (r : num) : Prop :=
  ((forall i, i < n -> ~ satisfies a m s i) /\ r = Fin 0%Qc) \/
  (exists i, i < n /\ satisfies a m s i /\ quantity a m i r /\
     forall j v, j < n -> satisfies a m s j -> quantity a m j v -> v = NaN \/ num_leb v r = true).

Lemma nanmax_from l : forall acc, let r := fold_left (fun acc x => match acc with NaN => x | _ => if num_ltb acc x then x else acc end) l acc in
  (r = acc \/ In r l) /\ (acc = NaN \/ num_leb acc r = true) /\ (forall x, In x l -> x = NaN \/ num_leb x r = true).
Proof.
  induction l as [|x l IH]; intros acc; cbn [fold_left].
  - split; [left; reflexivity|]. split; [destruct acc as [| |q|]; [left; reflexivity|right; reflexivity|right; apply Qc_leb_le, Qcle_refl|right; reflexivity]|intros x []].
  - set (acc' := match acc with NaN => x | _ => if num_ltb acc x then x else acc end).
    specialize (IH acc'). cbv zeta in IH |- *. set (r := fold_left _ l acc') in *. clearbody r.
    destruct IH as (A & B & C).
    assert (E : acc' = acc \/ acc' = x) by (unfold acc'; destruct acc; auto; destruct (num_ltb _ x); auto).
    assert (T : forall p q, num_leb p q = true -> num_leb q r = true -> num_leb p r = true).
    { intros [| |p|] [| |q|] U V; destruct r as [| |z|]; cbn in *; try reflexivity; try discriminate. qc_bool. exact (Qcle_trans _ _ _ U V). }
    assert (G1 : acc = NaN \/ num_leb acc acc' = true).
    { unfold acc'. destruct acc as [| |p|]; [left; reflexivity|right..]; destruct x as [| |q|]; cbn; try reflexivity;
        try (apply Qc_leb_le, Qcle_refl). destruct (Qc_ltb p q) eqn:Z; qc_bool; [apply Qclt_le_weak; exact Z|apply Qcle_refl]. }
    assert (G2 : x = NaN \/ num_leb x acc' = true).
    { unfold acc'. destruct x as [| |q|]; [left; reflexivity|right..]; destruct acc as [| |p|]; cbn; try reflexivity;
        try (apply Qc_leb_le, Qcle_refl). destruct (Qc_ltb p q) eqn:Z; qc_bool; [apply Qcle_refl|exact Z]. }
    split; [|split].
    + destruct A as [->|A]; [|right; right; exact A]. destruct E as [->| ->]; [left; reflexivity|right; left; reflexivity].
    + destruct G1 as [G1|G1]; [left; exact G1|]. destruct B as [B|B]; [rewrite B in G1; destruct acc; discriminate|]. right. exact (T _ _ G1 B).
    + intros y [<-|Y]; [|apply C; exact Y]. destruct G2 as [G2|G2]; [left; exact G2|].
      destruct B as [B|B]; [rewrite B in G2; destruct x; discriminate|]. right. exact (T _ _ G2 B).
Qed.

Lemma nanmax_spec l : l <> [] -> In (nanmax l) l /\ forall x, In x l -> x = NaN \/ num_leb x (nanmax l) = true.
Proof.
  intros N. destruct (nanmax_from l NaN) as (A & _ & C). fold (nanmax l) in A, C. split; [|exact C].
  destruct A as [A|A]; [|exact A]. rewrite A in *. destruct l as [|x l]; [congruence|]. left.
  destruct (C x (or_introl eq_refl)) as [E|E]; [exact E|]. destruct x; discriminate.
Qed.

Lemma find_max_spec op cs ds n v (F : nat -> Prop) :
  length cs = n -> length ds = n ->
  (forall i, i < n -> F i <-> op (nth i cs NaN) v = true) ->
  ((forall i, i < n -> ~ F i) /\ find_max op cs ds v = Fin 0%Qc) \/
  (exists i, i < n /\ F i /\ find_max op cs ds v = nth i ds NaN /\
     forall j, j < n -> F j -> nth j ds NaN = NaN \/ num_leb (nth j ds NaN) (find_max op cs ds v) = true).
Proof.
  intros L1 L2 FE. unfold find_max. set (l := filter _ (combine cs ds)).
  assert (M : forall x, In x l <-> exists i, i < n /\ F i /\ x = (nth i cs NaN, nth i ds NaN)).
  { intros x. unfold l. rewrite filter_In. split.
    - intros [X Y]. apply (In_nth _ _ (NaN, NaN)) in X. destruct X as (i & I & X). rewrite combine_length in I.
      rewrite combine_nth in X by congruence. exists i. split; [lia|]. split; [apply FE; [lia|]; rewrite <- X in Y; exact Y|symmetry; exact X].
    - intros (i & I & X & ->). split; [|apply FE in X; auto].
      rewrite <- combine_nth by congruence. apply nth_In. rewrite combine_length. lia. }
  destruct l as [|x0 l0] eqn:EL.
  - left. split; [|reflexivity]. intros i I X. apply (M (nth i cs NaN, nth i ds NaN)). exists i. auto.
  - right. rewrite <- EL in *. assert (NE : map snd l <> []) by (rewrite EL; discriminate). clear EL x0 l0.
    destruct (nanmax_spec _ NE) as (A & B). apply in_map_iff in A. destruct A as (x & E & X). apply M in X. destruct X as (i & I & X & ->).
    exists i. split; [exact I|]. split; [exact X|]. split; [symmetry; exact E|].
    intros j J Y. apply B. apply in_map_iff. exists (nth j cs NaN, nth j ds NaN). split; [reflexivity|]. apply M. exists j. auto.
Qed.

Lemma ratios_nth a b n i : length a = n -> length b = n -> i < n -> nth i (ratios a b) NaN = np_div (nth i a 0%Qc) (nth i a 0 + nth i b 0)%Qc.
Proof.
  intros A B I. unfold ratios. rewrite (nth_indep _ NaN (np_div (fst (0, 0)%Qc) (fst (0, 0) + snd (0, 0))%Qc)) by (rewrite map_length, combine_length; lia).
  rewrite (map_nth (fun xy : Qc * Qc => np_div (fst xy) (fst xy + snd xy)%Qc)). rewrite combine_nth by congruence. reflexivity.
Qed.

Lemma ratios_length a b n : length a = n -> length b = n -> length (ratios a b) = n.
Proof. intros A B. unfold ratios. rewrite map_length, combine_length. lia. Qed.

Lemma np_div_fraction a b : (0 <= a)%Qc -> (0 <= b)%Qc -> fraction a (a + b)%Qc (np_div a (a + b)%Qc).
Proof.
  intros A B. unfold np_div. destruct (Qc_eqb (a + b)%Qc 0%Qc) eqn:Z; qc_bool.
  - left. split; [exact Z|]. assert (a = 0%Qc) by qc_lra. subst a. reflexivity.
  - right. assert (P : (0 < a + b)%Qc) by (assert (0 <= a + b)%Qc by qc_lra; apply Qcle_lt_or_eq in H; destruct H as [H|H]; [exact H|congruence]).
    split; [exact P|]. exists (a / (a + b))%Qc. split; [reflexivity|]. split; [field; exact Z|].
    split; [apply Qcdiv_nonneg; assumption|apply Qcdiv_le_1; [assumption|qc_lra|assumption]].
Qed.

Lemma fraction_unique a b v w : fraction a b v -> fraction a b w -> v = w.
Proof.
  intros [[A ->]|[A (p & -> & P & _)]] [[B ->]|[B (q & -> & Q & _)]]; try reflexivity.
  - subst b. exfalso. revert B. apply Qcle_not_lt, Qcle_refl.
  - subst b. exfalso. revert A. apply Qcle_not_lt, Qcle_refl.
  - f_equal. rewrite <- Q in P. assert (NZ : b <> 0%Qc) by (intros ->; revert A; apply Qcle_not_lt, Qcle_refl).
    replace p with ((p * b) / b)%Qc by (field; exact NZ). rewrite P. field. exact NZ.
Qed.

Lemma ge_div a b s : (0 <= a)%Qc -> (0 <= b)%Qc -> ge (np_div a (a + b)%Qc) (Fin s) = true <-> (0 < a + b)%Qc /\ (s * (a + b) <= a)%Qc.
Proof.
  intros A B. destruct (np_div_fraction a b A B) as [[Z ->]|[P (q & -> & Q & _)]]; cbn.
  - split; [discriminate|]. intros [C _]. rewrite Z in C. exfalso. revert C. apply Qcle_not_lt, Qcle_refl.
  - rewrite Qc_leb_le. set (d := (a + b)%Qc) in *. clearbody d. subst a. split; [intros H; split; [exact P|apply Qcmult_le_compat_r; [exact H|apply Qclt_le_weak; exact P]]|].
    intros [_ H]. exact (Qcmult_lt_0_le_reg_r _ _ _ P H).
Qed.

Lemma le_div a b s : (0 <= a)%Qc -> (0 <= b)%Qc -> le (np_div a (a + b)%Qc) (Fin s) = true <-> (0 < a + b)%Qc /\ (a <= s * (a + b))%Qc.
Proof.
  intros A B. destruct (np_div_fraction a b A B) as [[Z ->]|[P (q & -> & Q & _)]]; cbn.
  - split; [discriminate|]. intros [C _]. rewrite Z in C. exfalso. revert C. apply Qcle_not_lt, Qcle_refl.
  - rewrite Qc_leb_le. set (d := (a + b)%Qc) in *. clearbody d. subst a. split; [intros H; split; [exact P|apply Qcmult_le_compat_r; [exact H|apply Qclt_le_weak; exact P]]|].
    intros [_ H]. exact (Qcmult_lt_0_le_reg_r _ _ _ P H).
Qed.

Definition constrained_of (a : at_metric) (m : matrices) : list num :=
  match a with
  | SensitivityAtSpecificity => ratios (m_tn m) (m_fp m)
  | SpecificityAtSensitivity | PrecisionAtRecall | ThresholdAtRecall => ratios (m_tp m) (m_fn m)
  | RecallAtPrecision => ratios (m_tp m) (m_fp m)
  | RecallAtFalsePositiveRate => ratios (m_fp m) (m_tn m)
  end.

Definition dependent_of (a : at_metric) (m : matrices) : list num :=
  match a with
  | SensitivityAtSpecificity | RecallAtPrecision | RecallAtFalsePositiveRate => ratios (m_tp m) (m_fn m)
  | SpecificityAtSensitivity => ratios (m_tn m) (m_fp m)
  | PrecisionAtRecall => ratios (m_tp m) (m_fp m)
  | ThresholdAtRecall => m_thresholds m
  end.

Definition operator_of (a : at_metric) : num -> num -> bool := match a with RecallAtFalsePositiveRate => le | _ => ge end.

Lemma find_max_best a m n s : regular m n -> best a m n s (find_max (operator_of a) (constrained_of a m) (dependent_of a m) (Fin s)).
Proof.
  intros (L0 & L1 & L2 & L3 & L4 & NN).
  destruct (find_max_spec (operator_of a) (constrained_of a m) (dependent_of a m) n (Fin s) (satisfies a m s)) as [A|(i & I & S1 & E & M)].
  - destruct a; apply ratios_length; assumption.
  - destruct a; try (apply ratios_length; assumption). exact L0.
  - intros i I. destruct (NN i I) as (N1 & N2 & N3 & N4).
    destruct a; cbn [satisfies operator_of constrained_of]; rewrite (ratios_nth _ _ n) by assumption; symmetry; first [apply ge_div | apply le_div]; assumption.
  - left. exact A.
  - right. assert (Q : forall j, j < n -> quantity a m j (nth j (dependent_of a m) NaN)).
    { intros j J. destruct (NN j J) as (N1 & N2 & N3 & N4).
      destruct a; cbn [quantity dependent_of]; try (rewrite (ratios_nth _ _ n) by assumption; apply np_div_fraction; assumption). reflexivity. }
    exists i. split; [exact I|]. split; [exact S1|]. split; [rewrite E; apply Q; exact I|].
    intros j v J SJ QV. assert (v = nth j (dependent_of a m) NaN); [|subst v; apply M; assumption].
    specialize (Q j J). destruct a; cbn [quantity] in *; try (apply (fraction_unique _ _ _ _ QV Q)). congruence.
Qed.

Lemma C42_best_under_constraint_pf : forall a m n, regular m n ->
  (forall s, exists r, compute a (Float (Fin s)) m = Ok (Single r) /\ best a m n s r) /\
  (forall ss, exists rs, compute a (Floats (map Fin ss)) m = Ok (Array rs) /\ Forall2 (best a m n) ss rs).
Proof.
  intros a m n R.
  assert (C : forall v, compute a v m = find_max_under_constraint (operator_of a) (constrained_of a m) (dependent_of a m) v) by (intros v; destruct a; reflexivity).
  split.
  - intros s. exists (find_max (operator_of a) (constrained_of a m) (dependent_of a m) (Fin s)). split; [rewrite C; reflexivity|apply find_max_best; exact R].
  - intros ss. eexists. split; [rewrite C; reflexivity|]. rewrite map_map.
    induction ss as [|s ss IH]; cbn [map]; constructor; [apply find_max_best; exact R|exact IH].
Qed.

(** Three thresholds; recall 1, 1/2, 0 and precision 1/2, 1, undefined. *)

Definition three : matrices := Matrices [Fin 0%Qc; Fin (Q2Qc (1#2)); Fin 1%Qc] [qz 2; 1%Qc; 0%Qc] [0%Qc; qz 2; qz 2] [qz 2; 0%Qc; 0%Qc] [0%Qc; 1%Qc; qz 2].

(** The documented forms of the constraint, "a scalar value or list of values in range
    [0, 1]", are all accepted and give a value. *)

Definition in_range (v : constraint) : Prop :=
  match v with
  | Float (Fin q) => (0 <= q <= 1)%Qc
  | Float _ => False
  | Int z => (0 <= z <= 1)%Z
  | Floats vs => forall v, In v vs -> exists q, v = Fin q /\ (0 <= q <= 1)%Qc
  end.

Definition accepted (a : at_metric) (v : constraint) (m : matrices) : res (value num) := let! _ := construct a v in compute a v m.

Lemma C95_constraint_forms_refuted_pf :
  (forall a z m, in_range (Int z) -> accepted a (Int z) m = Err TypeError) /\
  (forall vs m, accepted RecallAtPrecision (Floats vs) m = Err TypeError /\ accepted RecallAtFalsePositiveRate (Floats vs) m = Err TypeError) /\
  (exists v m r, ~ in_range v /\ accepted SensitivityAtSpecificity v m = Ok r).
Proof.
  split; [|split].
  - intros a z m [A B]. unfold accepted. destruct a; cbn [construct check_comparing check_iterating bind]; try reflexivity;
      (destruct (z <? 0)%Z eqn:E1; [apply Z.ltb_lt in E1; lia|]; destruct (1 <? z)%Z eqn:E2; [apply Z.ltb_lt in E2; lia|reflexivity]).
  - intros vs m. split; reflexivity.
  - exists (Float (Fin (qz 2))), three. eexists. split; [|reflexivity]. intros [_ H]. cbn in H. unfold Qcle in H. cbn in H. vm_compute in H. congruence.
Qed.

Lemma C95_constraint_forms_partial_pf : forall a q qs m,
  ((0 <= q <= 1)%Qc -> exists r, accepted a (Float (Fin q)) m = Ok (Single r)) /\
  (a <> RecallAtPrecision -> a <> RecallAtFalsePositiveRate -> (forall q, In q qs -> (0 <= q <= 1)%Qc) ->
   exists rs, accepted a (Floats (map Fin qs)) m = Ok (Array rs) /\ length rs = length qs).
Proof.
  intros a q qs m. assert (O : forall q, (0 <= q <= 1)%Qc -> outside (Fin q) = false).
  { intros p [A B]. unfold outside. cbn. apply Qcle_not_lt in A, B. apply orb_false_iff. split; destruct (Qc_ltb _ _) eqn:E; auto; qc_bool; contradiction. }
  split.
  - intros H. specialize (O q H). unfold accepted. destruct a; cbn [construct check_comparing check_iterating]; rewrite ?O; cbn [bind]; eexists; reflexivity.
  - intros A B H. assert (X : existsb outside (map Fin qs) = false).
    { induction qs as [|p qs IH]; [reflexivity|]. cbn [map existsb]. rewrite O by (apply H; left; reflexivity). apply IH. intros x X. apply H. right. exact X. }
    unfold accepted. destruct a; try congruence; cbn [construct check_comparing check_iterating]; rewrite ?X; cbn [bind]; (eexists; split; [reflexivity|rewrite !map_length; reflexivity]).
Qed.

Lemma Qclt_neq0 (b : Qc) : (0 < b)%Qc -> b <> 0%Qc.
Proof. intros H ->. revert H. apply Qcle_not_lt, Qcle_refl. Qed.

Lemma Qcmult_pos (a b : Qc) : (0 < a)%Qc -> (0 < b)%Qc -> (0 < a * b)%Qc.
Proof. intros A B. qc_nra. Qed.

Lemma Qc_pos_or_zero (a : Qc) : (0 <= a)%Qc -> a = 0%Qc \/ (0 < a)%Qc.
Proof. intros H. apply Qcle_lt_or_eq in H. destruct H as [H|H]; auto. Qed.

Lemma pos_sqrt_ok v : (0 <= v)%Qc -> pos_sqrt v = Ok (sqrt (Q2R v)).
Proof. intros H. unfold pos_sqrt. destruct (Qc_ltb v 0%Qc) eqn:E; [|reflexivity]. qc_bool. exfalso. revert E. apply Qcle_not_lt. exact H. Qed.

Section Correlation.
  Context (tp tn fp fn : Qc) (TP : (0 <= tp)%Qc) (TN : (0 <= tn)%Qc) (FP : (0 <= fp)%Qc) (FN : (0 <= fn)%Qc).

  Let det := (tp * tn - fp * fn)%Qc.
  Let margins := ((tp + fp) * (tp + fn) * (tn + fp) * (tn + fn))%Qc.

  Lemma margins_nonneg : (0 <= margins)%Qc.
  Proof. unfold margins. repeat apply Qcmult_nonneg; qc_lra. Qed.

  Lemma det_margins : (det * det <= margins)%Qc.
  Proof.
    unfold det, margins.
    assert (A : (0 <= tp * tn)%Qc) by (apply Qcmult_nonneg; assumption).
    assert (B : (0 <= fp * fn)%Qc) by (apply Qcmult_nonneg; assumption).
    assert (U : (0 <= tp * fn + fp * tn)%Qc) by (assert (0 <= tp * fn)%Qc by (apply Qcmult_nonneg; assumption); assert (0 <= fp * tn)%Qc by (apply Qcmult_nonneg; assumption); qc_lra).
    assert (V : (0 <= tp * fp + fn * tn)%Qc) by (assert (0 <= tp * fp)%Qc by (apply Qcmult_nonneg; assumption); assert (0 <= fn * tn)%Qc by (apply Qcmult_nonneg; assumption); qc_lra).
    replace ((tp + fp) * (tp + fn) * (tn + fp) * (tn + fn))%Qc
      with ((tp * tn + fp * fn + (tp * fn + fp * tn)) * (tp * tn + fp * fn + (tp * fp + fn * tn)))%Qc by ring.
    set (a := (tp * tn)%Qc) in *. set (b := (fp * fn)%Qc) in *. set (u := (tp * fn + fp * tn)%Qc) in *. set (v := (tp * fp + fn * tn)%Qc) in *. clearbody a b u v.
    assert (P1 : (0 <= a * b)%Qc) by (apply Qcmult_nonneg; assumption).
    assert (P2 : (0 <= (a + b) * (u + v))%Qc) by (apply Qcmult_nonneg; qc_lra).
    assert (P3 : (0 <= u * v)%Qc) by (apply Qcmult_nonneg; assumption).
    assert (E : ((a + b + u) * (a + b + v) = (a - b) * (a - b) + qz 2 * qz 2 * (a * b) + (a + b) * (u + v) + u * v)%Qc) by (rewrite qz2; ring).
    rewrite E, qz2. set (x := ((a - b) * (a - b))%Qc). set (y := (a * b)%Qc) in *. set (z := ((a + b) * (u + v))%Qc) in *. set (w := (u * v)%Qc) in *. clearbody x y z w. qc_lra.
  Qed.

  Lemma matthews_value :
    (margins = 0%Qc /\ matthews tp tn fp fn = Ok None) \/
    ((0 < margins)%Qc /\ exists r, matthews tp tn fp fn = Ok (Some r) /\ (r * sqrt (Q2R margins) = Q2R det)%R /\ (-1 <= r <= 1)%R).
  Proof.
    unfold matthews. fold margins det. rewrite (pos_sqrt_ok _ margins_nonneg). cbn [bind].
    destruct (Qc_ltb 0%Qc margins) eqn:Z; qc_bool.
    - right. split; [exact Z|]. eexists. split; [reflexivity|]. unfold real.
      assert (P : (0 < Q2R margins)%R) by (apply Q2R_pos; exact Z).
      pose proof (sqrt_lt_R0 _ P) as S0. pose proof (sqrt_sqrt _ (Rlt_le _ _ P)) as S1.
      pose proof det_margins as B. apply Q2R_le_c in B. rewrite Q2R_mult_c in B.
      set (d := Q2R det) in *. set (q := sqrt (Q2R margins)) in *. rewrite <- S1 in B. clearbody d q.
      assert (Q : (d / q * q = d)%R) by (field; Lra.lra). split; [exact Q|].
      set (r := (d / q)%R) in *. clearbody r. subst d.
      assert (R2 : (r * r <= 1)%R).
      { apply (Rmult_le_reg_r (q * q)); [Lra.nra|]. replace (r * r * (q * q))%R with (r * q * (r * q))%R by ring. Lra.lra. }
      split; Lra.nra.
    - left. split; [apply Qcle_antisym; [exact Z|apply margins_nonneg]|reflexivity].
  Qed.

End Correlation.

Lemma C93_matthews_pf : forall tp tn fp fn, (0 <= tp -> 0 <= tn -> 0 <= fp -> 0 <= fn ->
  ((tp + fp = 0 \/ tp + fn = 0 \/ tn + fp = 0 \/ tn + fn = 0) /\ matthews tp tn fp fn = Ok None) \/
  exists r i k, matthews tp tn fp fn = Ok (Some r) /\ (-1 <= r <= 1)%R /\
    informedness tp tn fp fn = Fin i /\ markedness tp tn fp fn = Fin k /\
    (r * r = Q2R (i * k)%Qc)%R /\ -(1) <= i <= 1 /\ -(1) <= k <= 1 /\
    ((0 <= r)%R <-> fp * fn <= tp * tn) /\ ((r <= 0)%R <-> tp * tn <= fp * fn))%Qc.
Proof.
  intros tp tn fp fn A B C D.
  destruct (matthews_value tp tn fp fn A B C D) as [[Z M]|[P (r & M & R & U)]].
  - left. split; [|exact M]. apply Qcmult_integral in Z. destruct Z as [Z|Z]; [|auto].
    apply Qcmult_integral in Z. destruct Z as [Z|Z]; [|auto]. apply Qcmult_integral in Z. destruct Z; auto.
  - right.
    assert (N1 : (0 < tp + fp)%Qc) by (destruct (Qc_pos_or_zero (tp + fp)%Qc) as [E|E]; [qc_lra| |exact E]; rewrite E in P; exfalso; revert P; apply Qcle_not_lt; replace (0 * (tp + fn) * (tn + fp) * (tn + fn))%Qc with 0%Qc by ring; apply Qcle_refl).
    assert (N2 : (0 < tp + fn)%Qc) by (destruct (Qc_pos_or_zero (tp + fn)%Qc) as [E|E]; [qc_lra| |exact E]; rewrite E in P; exfalso; revert P; apply Qcle_not_lt; replace ((tp + fp) * 0 * (tn + fp) * (tn + fn))%Qc with 0%Qc by ring; apply Qcle_refl).
    assert (N3 : (0 < tn + fp)%Qc) by (destruct (Qc_pos_or_zero (tn + fp)%Qc) as [E|E]; [qc_lra| |exact E]; rewrite E in P; exfalso; revert P; apply Qcle_not_lt; replace ((tp + fp) * (tp + fn) * 0 * (tn + fn))%Qc with 0%Qc by ring; apply Qcle_refl).
    assert (N4 : (0 < tn + fn)%Qc) by (destruct (Qc_pos_or_zero (tn + fn)%Qc) as [E|E]; [qc_lra| |exact E]; rewrite E in P; exfalso; revert P; apply Qcle_not_lt; replace ((tp + fp) * (tp + fn) * (tn + fp) * 0)%Qc with 0%Qc by ring; apply Qcle_refl).
    set (i := (tp / (tp + fn) + tn / (tn + fp) - 1)%Qc). set (k := (tp / (tp + fp) + tn / (tn + fn) - 1)%Qc).
    exists r, i, k. split; [exact M|]. split; [exact U|].
    split; [unfold informedness; rewrite (proj2 (Qc_ltb_lt _ _) N2), (proj2 (Qc_ltb_lt _ _) N3); reflexivity|].
    split; [unfold markedness; rewrite (proj2 (Qc_ltb_lt _ _) N1), (proj2 (Qc_ltb_lt _ _) N4); reflexivity|].
    assert (UN : forall a b, (0 <= a)%Qc -> (0 <= b)%Qc -> (0 < a + b)%Qc -> (0 <= a / (a + b) <= 1)%Qc)
      by (intros a b X Y Z; split; [apply Qcdiv_nonneg; assumption|apply Qcdiv_le_1; [assumption|qc_lra|assumption]]).
    assert (PR : (0 < Q2R ((tp + fp) * (tp + fn) * (tn + fp) * (tn + fn))%Qc)%R) by (apply Q2R_pos; exact P).
    pose proof (sqrt_lt_R0 _ PR) as S0. pose proof (sqrt_sqrt _ (Rlt_le _ _ PR)) as S1.
    split; [|split; [|split; [|split]]].
    + assert (E : (i * k * ((tp + fp) * (tp + fn) * (tn + fp) * (tn + fn)) = (tp * tn - fp * fn) * (tp * tn - fp * fn))%Qc)
        by (unfold i, k; field; repeat split; apply Qclt_neq0; assumption).
      apply (f_equal (fun q : Qc => Q2R q)) in E. rewrite (Q2R_mult_c (i * k)), (Q2R_mult_c (tp * tn - fp * fn)), <- R in E.
      set (q := sqrt _) in *. clearbody q. rewrite <- S1 in E. apply (Rmult_eq_reg_r (q * q)); [rewrite E; ring|Lra.nra].
    + pose proof (UN tp fn A D N2). pose proof (UN tn fp B C N3). unfold i. set (x := (tp / (tp + fn))%Qc) in *. set (y := (tn / (tn + fp))%Qc) in *. clearbody x y. split; qc_lra.
    + pose proof (UN tp fp A C N1). pose proof (UN tn fn B D N4). unfold k. set (x := (tp / (tp + fp))%Qc) in *. set (y := (tn / (tn + fn))%Qc) in *. clearbody x y. split; qc_lra.
    + rewrite Q2R_minus_c in R. rewrite Q2R_le_c. set (q := sqrt _) in *. clearbody q. split; intros H; Lra.nra.
    + rewrite Q2R_minus_c in R. rewrite Q2R_le_c. set (q := sqrt _) in *. clearbody q. split; intros H; Lra.nra.
Qed.

Lemma C93_fowlkes_mallows_pf : forall tp fp fn, (0 <= tp -> 0 <= fp -> 0 <= fn ->
  ((precision tp fp = NaN \/ recall tp fn = NaN) /\ fowlkes_mallows tp fp fn = Ok None) \/
  exists r p q, fowlkes_mallows tp fp fn = Ok (Some r) /\ precision tp fp = Fin p /\ recall tp fn = Fin q /\
    (r * r = Q2R (p * q)%Qc /\ 0 <= r <= 1)%R)%Qc.
Proof.
  intros tp fp fn A C D. unfold fowlkes_mallows, precision, recall, pos_div.
  destruct (Qc_ltb 0%Qc (tp + fp)%Qc) eqn:Z1; [|left; split; [left; reflexivity|reflexivity]].
  destruct (Qc_ltb 0%Qc (tp + fn)%Qc) eqn:Z2; [|left; split; [right; reflexivity|reflexivity]]. qc_bool. cbn [andb].
  right. set (p := (tp / (tp + fp))%Qc). set (q := (tp / (tp + fn))%Qc).
  assert (P : (0 <= p <= 1)%Qc) by (unfold p; split; [apply Qcdiv_nonneg; assumption|apply Qcdiv_le_1; [assumption|qc_lra|assumption]]).
  assert (Q : (0 <= q <= 1)%Qc) by (unfold q; split; [apply Qcdiv_nonneg; assumption|apply Qcdiv_le_1; [assumption|qc_lra|assumption]]).
  clearbody p q. destruct P as [P1 P2], Q as [Q1 Q2].
  assert (PQ : (0 <= p * q)%Qc) by (apply Qcmult_nonneg; assumption).
  exists (sqrt (Q2R (p * q)%Qc)), p, q. rewrite (pos_sqrt_ok _ PQ). cbn [bind]. repeat (split; [reflexivity|]).
  split; [apply sqrt_sqrt, Q2R_nonneg, PQ|]. split; [apply sqrt_pos|].
  rewrite <- sqrt_1. apply sqrt_le_1_alt. rewrite Q2R_mult_c. apply Q2R_le_c in P1, P2, Q1, Q2. rewrite Q2R_0_c in P1, Q1. rewrite Q2R_1_c in P2, Q2. Lra.nra.
Qed.

Lemma C94_likelihood_ratios_pf : forall tp tn fp fn, (0 <= tp -> 0 <= tn -> 0 <= fp -> 0 <= fn ->
  (forall l, positive_likelihood_ratio tp tn fp fn = Fin l <-> exists r f, recall tp fn = Fin r /\ fall_out tn fp = Fin f /\ f <> 0 /\ l * f = r) /\
  (forall l, negative_likelihood_ratio tp tn fp fn = Fin l <-> exists r f, miss_rate tp fn = Fin r /\ specificity tn fp = Fin f /\ f <> 0 /\ l * f = r) /\
  (forall d, diagnostic_odds_ratio tp tn fp fn = Fin d -> 0 <= d /\ d * (fp * fn) = tp * tn /\
     exists p q, positive_likelihood_ratio tp tn fp fn = Fin p /\ negative_likelihood_ratio tp tn fp fn = Fin q /\ 0 < q /\ d * q = p) /\
  (fp <> 0 -> fn <> 0 -> tn <> 0 -> exists d, diagnostic_odds_ratio tp tn fp fn = Fin d))%Qc.
Proof.
  assert (QP : forall a b, (0 <= a)%Qc -> (0 <= b)%Qc -> (0 < a + b)%Qc -> (a / (a + b) <> 0)%Qc <-> (0 < a)%Qc).
  { intros a b A B P. split.
    - intros H. destruct (Qc_pos_or_zero a A) as [->|Q]; [|exact Q]. exfalso. apply H. unfold Qcdiv. ring.
    - intros H E. apply (Qclt_neq0 a H). replace a with (a / (a + b) * (a + b))%Qc by (field; apply Qclt_neq0; exact P). rewrite E. ring. }
  assert (LR : forall a b c d, (0 <= a)%Qc -> (0 <= b)%Qc -> (0 <= c)%Qc -> (0 <= d)%Qc -> forall l,
    (if Qc_ltb 0%Qc (a + b)%Qc && Qc_ltb 0%Qc (c + d)%Qc && Qc_ltb 0%Qc c then Fin ((a / (a + b)) / (c / (c + d)))%Qc else NaN) = Fin l <->
    exists r f, pos_div a (a + b)%Qc = Fin r /\ pos_div c (c + d)%Qc = Fin f /\ (f <> 0)%Qc /\ (l * f = r)%Qc).
  { intros a b c d A B C D l. unfold pos_div.
    destruct (Qc_ltb 0%Qc (a + b)%Qc) eqn:Z1; [|split; [discriminate|intros (r & f & X & _); discriminate]].
    destruct (Qc_ltb 0%Qc (c + d)%Qc) eqn:Z2; [|split; [discriminate|intros (r & f & _ & X & _); discriminate]]. cbn [andb]. qc_bool.
    pose proof (QP c d C D Z2) as E. destruct (Qc_ltb 0%Qc c) eqn:Z3; qc_bool.
    - apply E in Z3. split.
      + intros H. injection H as <-. exists (a / (a + b))%Qc, (c / (c + d))%Qc. repeat (split; [reflexivity|]). split; [exact Z3|]. set (y := (c / (c + d))%Qc) in *. clearbody y. field. repeat split; first [exact Z3 | apply Qclt_neq0; assumption].
      + intros (r & f & X & Y & NZ & H). injection X as <-. injection Y as <-. f_equal. rewrite <- H. set (y := (c / (c + d))%Qc) in *. clearbody y. field. exact NZ.
    - split; [discriminate|]. intros (r & f & _ & Y & NZ & _). injection Y as <-. apply E in NZ. exfalso. revert NZ. apply Qcle_not_lt. exact Z3. }
  intros tp tn fp fn A B C D.
  assert (L1 := LR tp fn fp tn A D C B). assert (L2 := LR fn tp tn fp D A B C).
  split; [exact L1|]. split; [exact L2|].
  assert (DOR : forall d, diagnostic_odds_ratio tp tn fp fn = Fin d -> (0 < fn /\ 0 < fp /\ 0 < tn /\ d = (tp / fn) / (fp / tn))%Qc).
  { unfold diagnostic_odds_ratio. intros d. destruct (Qc_ltb 0%Qc fn) eqn:Z1; [|discriminate]. destruct (Qc_ltb 0%Qc fp) eqn:Z2; [|discriminate].
    destruct (Qc_ltb 0%Qc tn) eqn:Z3; [|discriminate]. cbn [andb]. qc_bool. intros H. injection H as <-. auto. }
  split.
  - intros d H. destruct (DOR d H) as (P1 & P2 & P3 & E).
    assert (X : (d * (fp * fn) = tp * tn)%Qc) by (rewrite E; field; repeat split; apply Qclt_neq0; assumption).
    assert (PP : (0 < fp * fn)%Qc) by (apply Qcmult_pos; assumption).
    assert (D0 : (0 <= d)%Qc).
    { assert (E2 : d = ((tp * tn) / (fp * fn))%Qc) by (rewrite <- X; field; split; apply Qclt_neq0; assumption). rewrite E2. apply Qcdiv_nonneg; [apply Qcmult_nonneg; assumption|exact PP]. }
    split; [exact D0|]. split; [exact X|].
    assert (S1 : (0 < tp + fn)%Qc) by qc_lra. assert (S2 : (0 < fp + tn)%Qc) by qc_lra. assert (S3 : (0 < fn + tp)%Qc) by qc_lra. assert (S4 : (0 < tn + fp)%Qc) by qc_lra.
    exists ((tp / (tp + fn)) / (fp / (fp + tn)))%Qc, ((fn / (fn + tp)) / (tn / (tn + fp)))%Qc.
    split; [unfold positive_likelihood_ratio; rewrite (proj2 (Qc_ltb_lt _ _) S1), (proj2 (Qc_ltb_lt _ _) S2), (proj2 (Qc_ltb_lt _ _) P2); reflexivity|].
    split; [unfold negative_likelihood_ratio; rewrite (proj2 (Qc_ltb_lt _ _) S3), (proj2 (Qc_ltb_lt _ _) S4), (proj2 (Qc_ltb_lt _ _) P3); reflexivity|].
    split.
    + destruct (Qc_pos_or_zero ((fn / (fn + tp)) / (tn / (tn + fp)))%Qc) as [Z|Z]; [| |exact Z].
      * apply Qcdiv_nonneg; [apply Qcdiv_nonneg; assumption|]. destruct (Qc_pos_or_zero (tn / (tn + fp))%Qc) as [Z|Z]; [apply Qcdiv_nonneg; assumption| |exact Z]. exfalso. revert Z. apply QP; assumption.
      * exfalso. apply (Qclt_neq0 fn P1). replace fn with (((fn / (fn + tp)) / (tn / (tn + fp))) * ((fn + tp) * (tn / (tn + fp))))%Qc by (field; repeat split; apply Qclt_neq0; assumption). rewrite Z. ring.
    + rewrite E. replace (fn + tp)%Qc with (tp + fn)%Qc by ring. replace (tn + fp)%Qc with (fp + tn)%Qc by ring. field. repeat split; apply Qclt_neq0; assumption.
  - intros N1 N2 N3. unfold diagnostic_odds_ratio.
    assert (W : forall a, (0 <= a)%Qc -> a <> 0%Qc -> Qc_ltb 0%Qc a = true) by (intros a Y1 Y2; apply Qc_ltb_lt; destruct (Qc_pos_or_zero a Y1); [contradiction|assumption]).
    rewrite !W by assumption. eexists. reflexivity.
Qed.

Lemma C99_prevalence_threshold_refuted_pf :
  (forall tp fp, (0 < tp -> 0 < fp -> prevalence_threshold tp 0 fp 0 = Err ZeroDivisionError)%Qc) /\
  (forall tn fn, (0 < tn -> 0 < fn -> prevalence_threshold 0 tn 0 fn = Err ZeroDivisionError)%Qc).
Proof.
  split.
  - intros tp fp P Q. unfold prevalence_threshold.
    assert (E1 : (tp + 0)%Qc = tp) by ring. assert (E2 : (0 + fp)%Qc = fp) by ring. rewrite E1, E2.
    rewrite (proj2 (Qc_ltb_lt _ _) P), (proj2 (Qc_ltb_lt _ _) Q). cbn [andb].
    assert (E3 : (tp / tp)%Qc = 1%Qc) by (field; apply Qclt_neq0; exact P). assert (E4 : (0 / fp)%Qc = 0%Qc) by (unfold Qcdiv; ring). rewrite E3, E4.
    rewrite pos_sqrt_ok by discriminate. reflexivity.
  - intros tn fn P Q. unfold prevalence_threshold.
    assert (E1 : (tn + 0)%Qc = tn) by ring. assert (E2 : (0 + fn)%Qc = fn) by ring. rewrite E1, E2.
    rewrite (proj2 (Qc_ltb_lt _ _) P), (proj2 (Qc_ltb_lt _ _) Q). cbn [andb].
    assert (E3 : (tn / tn)%Qc = 1%Qc) by (field; apply Qclt_neq0; exact P). assert (E4 : (0 / fn)%Qc = 0%Qc) by (unfold Qcdiv; ring). rewrite E3, E4.
    rewrite pos_sqrt_ok by discriminate. reflexivity.
Qed.

Lemma C99_prevalence_threshold_partial_pf : forall tp tn fp fn, (0 <= tp -> 0 <= tn -> 0 <= fp -> 0 <= fn ->
  ((recall tp fn = NaN \/ fall_out tn fp = NaN) /\ prevalence_threshold tp tn fp fn = Ok None) \/
  exists a b, recall tp fn = Fin a /\ fall_out tn fp = Fin b /\
    (a <> b -> exists r, prevalence_threshold tp tn fp fn = Ok (Some r) /\ (0 <= r <= 1)%R /\
       (r * (sqrt (Q2R a) + sqrt (Q2R b)) = sqrt (Q2R b))%R))%Qc.
Proof.
  intros tp tn fp fn A B C D. unfold prevalence_threshold, recall, fall_out, pos_div.
  destruct (Qc_ltb 0%Qc (tp + fn)%Qc) eqn:Z1; [|left; split; [left; reflexivity|reflexivity]].
  rewrite (Qcplus_comm fp tn).
  destruct (Qc_ltb 0%Qc (tn + fp)%Qc) eqn:Z2; [|left; split; [right; reflexivity|reflexivity]]. qc_bool. cbn [andb].
  right. set (p := (tp / (tp + fn))%Qc). set (q := (tn / (tn + fp))%Qc). exists p, (fp / (tn + fp))%Qc. do 2 (split; [reflexivity|]).
  assert (F : (fp / (tn + fp))%Qc = (1 - q)%Qc) by (unfold q; field; apply Qclt_neq0; exact Z2). rewrite F.
  assert (P : (0 <= p <= 1)%Qc) by (unfold p; split; [apply Qcdiv_nonneg; assumption|apply Qcdiv_le_1; [assumption|qc_lra|assumption]]).
  assert (Q : (0 <= q <= 1)%Qc) by (unfold q; split; [apply Qcdiv_nonneg; assumption|apply Qcdiv_le_1; [assumption|qc_lra|assumption]]).
  clearbody p q. clear F. intros NE. destruct P as [P1 P2], Q as [Q1 Q2].
  assert (F1 : (0 <= 1 - q)%Qc) by qc_lra.
  rewrite pos_sqrt_ok by (apply Qcmult_nonneg; assumption). cbn [bind].
  assert (ND : (p + q - 1)%Qc <> 0%Qc) by (intros E; apply NE; qc_lra).
  rewrite (proj2 (Qc_eqb_neq _ _) ND). eexists. split; [reflexivity|]. unfold real.
  assert (E : (p + q - 1 = p - (1 - q))%Qc) by ring. rewrite E. replace (Q2R q) with (1 - Q2R (1 - q)%Qc)%R by (rewrite Q2R_minus_c, Q2R_1_c; ring).
  rewrite Q2R_mult_c, (Q2R_minus_c p (1 - q)). rewrite sqrt_mult by (apply Q2R_nonneg; assumption).
  assert (NR : Q2R p <> Q2R (1 - q)%Qc) by (intros H; apply Q2R_inj_c in H; contradiction).
  apply Q2R_nonneg in P1. apply Q2R_nonneg in F1. set (a := Q2R p) in *. set (b := Q2R (1 - q)%Qc) in *. clearbody a b.
  pose proof (sqrt_sqrt a P1) as EA. pose proof (sqrt_sqrt b F1) as EB.
  pose proof (sqrt_pos a) as PA. pose proof (sqrt_pos b) as PB. set (x := sqrt a) in *. set (y := sqrt b) in *. clearbody x y. subst a b.
  assert (XY : (x - y <> 0)%R) by (intros H; apply NR; assert (x = y) by Lra.lra; subst; reflexivity).
  assert (SP : (0 < x + y)%R) by (destruct (Req_dec (x + y) 0) as [H|H]; [exfalso; apply XY; Lra.lra|Lra.lra]).
  assert (DD : (x * x - y * y <> 0)%R).
  { replace (x * x - y * y)%R with ((x - y) * (x + y))%R by ring. apply Rmult_integral_contrapositive_currified; [exact XY|Lra.lra]. }
  replace ((x * y + (1 - y * y) - 1) / (x * x - y * y))%R with (y / (x + y))%R by (field; split; [exact DD|Lra.lra]).
  split; [|field; Lra.lra]. split.
  - apply (Rmult_le_reg_r (x + y)); [exact SP|]. replace (y / (x + y) * (x + y))%R with y by (field; Lra.lra). Lra.lra.
  - apply (Rmult_le_reg_r (x + y)); [exact SP|]. replace (y / (x + y) * (x + y))%R with y by (field; Lra.lra). Lra.lra.
Qed.

(** The matrices of a family of predictors of the same data, from permissive to strict. *)

Definition same_data (m : matrices) (n : nat) (P N : Qc) : Prop :=
  forall i, i < n -> (tp_at m i + fn_at m i = P /\ fp_at m i + tn_at m i = N)%Qc.

Definition stricter (m : matrices) (n : nat) : Prop :=
  forall i j, i <= j < n -> (tp_at m j <= tp_at m i /\ fp_at m j <= fp_at m i)%Qc.

Definition part (v : num) : Qc := match v with Fin q => q | _ => 0%Qc end.

Definition unit_or_nan (v : num) : Prop := v = NaN \/ exists q, v = Fin q /\ (0 <= q <= 1)%Qc.

Lemma nansum_from l : forall q, (forall v, In v l -> v = NaN \/ exists x, v = Fin x) ->
  fold_left (fun acc x => match x with NaN => acc | _ => num_plus acc x end) l (Fin q) = Fin (q + qsum (map part l))%Qc.
Proof.
  induction l as [|v l IH]; intros q H; cbn [fold_left map].
  - change (qsum []) with 0%Qc. f_equal. ring.
  - destruct (H v (or_introl eq_refl)) as [->|(x & ->)]; cbn [num_plus]; rewrite IH by (intros u U; apply H; right; exact U);
      change (qsum (?a :: ?b)) with (a + qsum b)%Qc; cbn [part]; f_equal.
    + change (qsum (0%Qc :: map part l)) with (0 + qsum (map part l))%Qc. ring.
    + change (qsum (x :: map part l)) with (x + qsum (map part l))%Qc. ring.
Qed.

Lemma nansum_parts l : (forall v, In v l -> v = NaN \/ exists x, v = Fin x) -> nansum l = Fin (qsum (map part l)).
Proof. intros H. unfold nansum. rewrite nansum_from by exact H. f_equal. ring. Qed.

Lemma height_nan s v w : v = NaN \/ w = NaN -> (exists p, v = Fin p) \/ v = NaN -> (exists p, w = Fin p) \/ w = NaN -> height s (v, w) = NaN.
Proof. intros H [(p & ->)| ->] [(q & ->)| ->]; destruct H; try discriminate; destruct s; reflexivity. Qed.

(** The height of a step between two defined heights. *)

Definition step_height (s : summation) (p q : Qc) : Qc :=
  match s with
  | Interpolation => ((p + q) / qz 2)%Qc
  | Minoring => if Qc_leb p q then p else q
  | Majoring => if Qc_leb p q then q else p
  end.

Lemma height_fin s p q : height s (Fin p, Fin q) = Fin (step_height s p q).
Proof. destruct s; cbn; try reflexivity; destruct (Qc_leb p q); reflexivity. Qed.

Lemma half_sum p q : (qz 2 * ((p + q) / qz 2) = p + q)%Qc.
Proof. field. discriminate. Qed.

Lemma step_height_bounds p q : (0 <= p <= 1)%Qc -> (0 <= q <= 1)%Qc ->
  (0 <= step_height Minoring p q /\ step_height Minoring p q <= step_height Interpolation p q /\
   step_height Interpolation p q <= step_height Majoring p q /\ step_height Majoring p q <= 1)%Qc.
Proof.
  intros P Q. cbn [step_height]. pose proof (half_sum p q) as H. rewrite qz2 in *. set (h := ((p + q) / (1 + 1))%Qc) in *. clearbody h.
  destruct (Qc_leb p q) eqn:E; qc_bool; repeat split; qc_lra.
Qed.

(** The area of one step. *)

Definition step_area (s : summation) (x x' : Qc) (y y' : num) : Qc :=
  match y, y' with Fin p, Fin q => ((x - x') * step_height s p q)%Qc | _, _ => 0%Qc end.

Fixpoint steps_area (s : summation) (xs : list Qc) (ys : list num) : Qc :=
  match xs, ys with
  | x :: ((x' :: _) as xs'), y :: ((y' :: _) as ys') => (step_area s x x' y y' + steps_area s xs' ys')%Qc
  | _, _ => 0%Qc
  end.

Lemma area_steps s : forall xs ys, (forall y, In y ys -> unit_or_nan y) -> area s (map Fin xs) ys = Fin (steps_area s xs ys).
Proof.
  intros xs ys U. unfold area.
  set (f := fun p : num * num * (num * num) => num_mul (num_sub (fst (fst p)) (snd (fst p))) (height s (snd p))).
  assert (T : forall x x' y y', unit_or_nan y -> unit_or_nan y' ->
    (f ((Fin x, Fin x'), (y, y')) = NaN \/ exists z, f ((Fin x, Fin x'), (y, y')) = Fin z) /\ part (f ((Fin x, Fin x'), (y, y'))) = step_area s x x' y y').
  { intros x x' y y' [->|(p & -> & _)] [->|(q & -> & _)]; unfold f; cbn [fst snd].
    - rewrite height_nan by auto. split; [left; reflexivity|reflexivity].
    - rewrite height_nan by eauto. split; [left; reflexivity|reflexivity].
    - rewrite height_nan by eauto. split; [left; reflexivity|reflexivity].
    - rewrite height_fin. cbn [num_sub num_opp num_plus num_mul num_scale step_area part].
      split; [right; eexists; reflexivity|reflexivity]. }
  assert (G : forall xs ys, (forall y, In y ys -> unit_or_nan y) ->
    (forall v, In v (map f (combine (steps (map Fin xs)) (steps ys))) -> v = NaN \/ exists z, v = Fin z) /\
    qsum (map part (map f (combine (steps (map Fin xs)) (steps ys)))) = steps_area s xs ys).
  { clear xs ys U. induction xs as [|x xs IH]; intros ys U; [split; [intros v []|reflexivity]|].
    destruct ys as [|y ys]; [destruct xs; (split; [intros v []|reflexivity])|].
    destruct xs as [|x' xs]; [split; [intros v []|reflexivity]|].
    destruct ys as [|y' ys]; [split; [intros v []|reflexivity]|].
    destruct (IH (y' :: ys)) as (A & B); [intros z Z; apply U; right; exact Z|].
    destruct (T x x' y y') as (T1 & T2); [apply U; left; reflexivity|apply U; right; left; reflexivity|].
    change (combine (steps (map Fin (x :: x' :: xs))) (steps (y :: y' :: ys)))
      with (((Fin x, Fin x'), (y, y')) :: combine (steps (map Fin (x' :: xs))) (steps (y' :: ys))).
    cbn [map]. split.
    - intros v [<-|V]; [exact T1|apply A; exact V].
    - change (qsum (?a :: ?b)) with (a + qsum b)%Qc. rewrite T2.
      change (steps_area s (x :: x' :: xs) (y :: y' :: ys)) with (step_area s x x' y y' + steps_area s (x' :: xs) (y' :: ys))%Qc.
      rewrite <- B. reflexivity. }
  destruct (G xs ys U) as (A & B). rewrite nansum_parts by exact A. rewrite B. reflexivity.
Qed.

Lemma area_undefined s : forall xs ys, (forall x, In x xs -> x = NaN) -> area s xs ys = Fin 0%Qc.
Proof.
  intros xs ys U. unfold area. set (f := fun p : num * num * (num * num) => num_mul (num_sub (fst (fst p)) (snd (fst p))) (height s (snd p))).
  assert (G : forall v, In v (map f (combine (steps xs) (steps ys))) -> v = NaN).
  { intros v V. apply in_map_iff in V. destruct V as ([[a b] c] & <- & V). apply in_combine_l in V. apply in_combine_l in V. apply U in V. subst a. reflexivity. }
  rewrite nansum_parts by (intros v V; left; apply G; exact V). f_equal.
  apply qsum_map_zero. intros v V. apply G in V. subst v. reflexivity.
Qed.

(** Widths of the steps are non-negative. *)

Fixpoint descending (xs : list Qc) : Prop :=
  match xs with x :: ((x' :: _) as xs') => (x' <= x)%Qc /\ descending xs' | _ => True end.

Lemma steps_area_bounds : forall xs ys, descending xs -> (forall y, In y ys -> unit_or_nan y) ->
  (0 <= steps_area Minoring xs ys /\ steps_area Minoring xs ys <= steps_area Interpolation xs ys /\
   steps_area Interpolation xs ys <= steps_area Majoring xs ys /\ steps_area Majoring xs ys <= hd 0 xs - last xs 0)%Qc.
Proof.
  induction xs as [|x xs IH]; intros ys D U; [cbn; repeat split; discriminate|].
  destruct xs as [|x' xs]; [destruct ys; cbn; repeat split; qc_lra|].
  assert (D0 : (x' <= x)%Qc /\ descending (x' :: xs)) by exact D. destruct D0 as [D1 D2].
  change (last (x :: x' :: xs) 0%Qc) with (last (x' :: xs) 0%Qc). change (hd 0%Qc (x :: x' :: xs)) with x.
  destruct ys as [|y [|y' ys]].
  - specialize (IH [] D2 (fun _ F => match F with end)). replace (steps_area Majoring (x' :: xs) []) with 0%Qc in IH by (destruct xs; reflexivity).
    change (hd 0%Qc (x' :: xs)) with x' in IH. cbn [steps_area]. destruct IH as (_ & _ & _ & H). repeat split; qc_lra.
  - specialize (IH [] D2 (fun _ F => match F with end)). replace (steps_area Majoring (x' :: xs) []) with 0%Qc in IH by (destruct xs; reflexivity).
    change (hd 0%Qc (x' :: xs)) with x' in IH. cbn [steps_area]. destruct IH as (_ & _ & _ & H). repeat split; qc_lra.
  - specialize (IH (y' :: ys) D2 (fun z Z => U z (or_intror Z))). change (hd 0%Qc (x' :: xs)) with x' in IH.
    assert (E : forall s, steps_area s (x :: x' :: xs) (y :: y' :: ys) = (step_area s x x' y y' + steps_area s (x' :: xs) (y' :: ys))%Qc) by reflexivity.
    rewrite !E. clear E. set (a := steps_area Minoring (x' :: xs) (y' :: ys)) in *. set (b := steps_area Interpolation (x' :: xs) (y' :: ys)) in *. set (c := steps_area Majoring (x' :: xs) (y' :: ys)) in *.
    set (z := last (x' :: xs) 0%Qc) in *. clearbody a b c z.
    assert (K : (0 <= step_area Minoring x x' y y' /\ step_area Minoring x x' y y' <= step_area Interpolation x x' y y' /\ step_area Interpolation x x' y y' <= step_area Majoring x x' y y' /\ step_area Majoring x x' y y' <= x - x')%Qc).
    { assert (W : (0 <= x - x')%Qc) by qc_lra.
      destruct (U y (or_introl eq_refl)) as [->|(p & -> & P)]; [cbn [step_area]; repeat split; try apply Qcle_refl; exact W|].
      destruct (U y' (or_intror (or_introl eq_refl))) as [->|(q & -> & Q)]; [cbn [step_area]; repeat split; try apply Qcle_refl; exact W|].
      cbn [step_area]. destruct (step_height_bounds p q P Q) as (B1 & B2 & B3 & B4). set (w := (x - x')%Qc) in *.
      set (h1 := step_height Minoring p q) in *. set (h2 := step_height Interpolation p q) in *. set (h3 := step_height Majoring p q) in *. clearbody w h1 h2 h3. clear -B1 B2 B3 B4 W.
      repeat split; qc_nra. }
    set (k1 := step_area Minoring x x' y y') in *. set (k2 := step_area Interpolation x x' y y') in *. set (k3 := step_area Majoring x x' y y') in *. clearbody k1 k2 k3.
    repeat split; qc_lra.
Qed.

Lemma ratios_unit m n : regular m n ->
  (forall y, In y (ratios (m_tp m) (m_fn m)) -> unit_or_nan y) /\ (forall y, In y (ratios (m_tp m) (m_fp m)) -> unit_or_nan y).
Proof.
  intros (L0 & L1 & L2 & L3 & L4 & NN).
  assert (F : forall a b, fraction a b NaN \/ True) by auto.
  split; intros y Y; apply (In_nth _ _ NaN) in Y; destruct Y as (i & I & <-);
    rewrite (ratios_length _ _ n) in I by assumption; rewrite (ratios_nth _ _ n) by assumption; destruct (NN i I) as (N1 & N2 & N3 & N4).
  - destruct (np_div_fraction (tp_at m i) (fn_at m i) N1 N4) as [[_ E]|[_ (q & E & _ & Q)]]; unfold tp_at, fn_at in E; rewrite E; [left; reflexivity|right; exists q; auto].
  - destruct (np_div_fraction (tp_at m i) (fp_at m i) N1 N3) as [[_ E]|[_ (q & E & _ & Q)]]; unfold tp_at, fp_at in E; rewrite E; [left; reflexivity|right; exists q; auto].
Qed.

(** Rates with a constant denominator. *)

Lemma ratios_constant a b n D : length a = n -> length b = n -> (forall i, i < n -> (nth i a 0 + nth i b 0 = D)%Qc) ->
  (D <> 0%Qc -> ratios a b = map Fin (map (fun x => (x / D)%Qc) a)) /\ ((forall x, In x a -> (0 <= x)%Qc) -> (forall x, In x b -> (0 <= x)%Qc) -> D = 0%Qc -> forall x, In x (ratios a b) -> x = NaN).
Proof.
  intros LA LB C. split.
  - intros N. apply (nth_ext _ _ NaN NaN); [rewrite (ratios_length _ _ n), !map_length by assumption; congruence|].
    intros i I. rewrite (ratios_length _ _ n) in I by assumption. rewrite (ratios_nth _ _ n) by assumption. rewrite C by exact I.
    rewrite map_map, (nth_indep _ NaN (Fin (0 / D)%Qc)) by (rewrite map_length; lia). rewrite (map_nth (fun x => Fin (x / D)%Qc)).
    unfold np_div. rewrite (proj2 (Qc_eqb_neq _ _) N). reflexivity.
  - intros PA PB Z x X. apply (In_nth _ _ NaN) in X. destruct X as (i & I & <-). rewrite (ratios_length _ _ n) in I by assumption.
    rewrite (ratios_nth _ _ n) by assumption. rewrite C, Z by exact I. specialize (C i I).
    assert (H1 : (0 <= nth i a 0)%Qc) by (apply PA, nth_In; lia). assert (H2 : (0 <= nth i b 0)%Qc) by (apply PB, nth_In; lia).
    assert (E : nth i a 0%Qc = 0%Qc) by (rewrite Z in C; qc_lra). rewrite E. reflexivity.
Qed.

Lemma descending_nth xs : (forall i, S i < length xs -> (nth (S i) xs 0 <= nth i xs 0)%Qc) -> descending xs.
Proof.
  induction xs as [|x xs IH]; intros H; [exact I|]. destruct xs as [|x' xs]; [exact I|].
  change (descending (x :: x' :: xs)) with ((x' <= x)%Qc /\ descending (x' :: xs)). split; [apply (H 0); cbn; lia|].
  apply IH. intros i J. apply (H (S i)). cbn [length] in *. lia.
Qed.

Lemma hd_last_unit xs : descending xs -> (forall x, In x xs -> (0 <= x <= 1)%Qc) -> (hd 0 xs - last xs 0 <= 1)%Qc.
Proof.
  intros _ U. destruct xs as [|x xs]; [cbn; discriminate|].
  assert (A := U x (or_introl eq_refl)).
  assert (B : (0 <= last (x :: xs) 0)%Qc).
  { clear A. revert x U. induction xs as [|y xs IH]; intros x U; [apply U; left; reflexivity|]. change (last (x :: y :: xs) 0%Qc) with (last (y :: xs) 0%Qc). apply IH. intros z Z. apply U. right. exact Z. }
  change (hd 0%Qc (x :: xs)) with x. set (z := last (x :: xs) 0%Qc) in *. clearbody z. qc_lra.
Qed.

Lemma scaled_descending (a : list Qc) n D : length a = n -> (0 < D)%Qc -> (forall i j, i <= j < n -> (nth j a 0 <= nth i a 0)%Qc) -> descending (map (fun x => (x / D)%Qc) a).
Proof.
  intros L P M. apply descending_nth. intros i J. rewrite map_length in J.
  rewrite !(nth_indep (map _ a) 0%Qc (0 / D)%Qc) by (rewrite map_length; lia). rewrite !(map_nth (fun x => (x / D)%Qc)).
  apply Qcdiv_le_compat; [apply M; lia|exact P].
Qed.

(** The three sums over a curve whose first coordinate is a rate of constant denominator. *)

Lemma areas_ordered a b n D ys : length a = n -> length b = n -> (forall i, i < n -> (nth i a 0 + nth i b 0 = D)%Qc) ->
  (forall i, i < n -> (0 <= nth i a 0)%Qc /\ (0 <= nth i b 0)%Qc) -> (forall i j, i <= j < n -> (nth j a 0 <= nth i a 0)%Qc) ->
  (forall y, In y ys -> unit_or_nan y) ->
  exists u v w, area Minoring (ratios a b) ys = Fin u /\ area Interpolation (ratios a b) ys = Fin v /\ area Majoring (ratios a b) ys = Fin w /\
    (0 <= u /\ u <= v /\ v <= w /\ w <= 1)%Qc.
Proof.
  intros LA LB C NN M U. destruct (ratios_constant a b n D LA LB C) as (R1 & R2).
  assert (P1 : forall l, length l = n -> (forall i, i < n -> (0 <= nth i l 0)%Qc) -> forall x, In x l -> (0 <= x)%Qc).
  { intros l L H x X. apply (In_nth _ _ 0%Qc) in X. destruct X as (i & I & <-). apply H. lia. }
  destruct (Qc_eq_dec D 0%Qc) as [Z|Z].
  - assert (N : forall x, In x (ratios a b) -> x = NaN) by (apply R2; [apply P1; [exact LA|apply NN]|apply P1; [exact LB|apply NN]|exact Z]).
    exists 0%Qc, 0%Qc, 0%Qc. rewrite !area_undefined by exact N. repeat split; discriminate.
  - rewrite (R1 Z). rewrite !area_steps by exact U. eexists; eexists; eexists. do 3 (split; [reflexivity|]).
    destruct a as [|a0 a']; [cbn; repeat split; discriminate|].
    assert (P : (0 < D)%Qc).
    { destruct (Qc_pos_or_zero D) as [E|E]; [|contradiction|exact E]. rewrite <- (C 0) by (cbn in LA; lia). destruct (NN 0) as [X Y]; [cbn in LA; lia|]. qc_lra. }
    set (a := a0 :: a') in *. clearbody a.
    assert (DS : descending (map (fun x => (x / D)%Qc) a)) by (apply (scaled_descending a n); assumption).
    destruct (steps_area_bounds _ ys DS U) as (B1 & B2 & B3 & B4).
    assert (B5 : (hd 0 (map (fun x => (x / D)%Qc) a) - last (map (fun x => (x / D)%Qc) a) 0 <= 1)%Qc).
    { apply hd_last_unit; [exact DS|]. intros x X. apply in_map_iff in X. destruct X as (y & <- & Y). apply (In_nth _ _ 0%Qc) in Y. destruct Y as (i & I & <-).
      rewrite LA in I. destruct (NN i I) as [X1 X2]. specialize (C i I). split; [apply Qcdiv_nonneg; assumption|apply Qcdiv_le_1; [assumption|qc_lra|assumption]]. }
    repeat split; try assumption. exact (Qcle_trans _ _ _ B4 B5).
Qed.

Lemma C41_roc_auc_pf : forall m n P N, regular m n -> same_data m n P N -> stricter m n ->
  exists low mid high, auc ROC Minoring m = Exact (Fin low) /\ auc ROC Interpolation m = Exact (Fin mid) /\ auc ROC Majoring m = Exact (Fin high) /\
    (0 <= low /\ low <= mid /\ mid <= high /\ high <= 1)%Qc.
Proof.
  intros m n P N R S1 S2. destruct (ratios_unit m n R) as (U & _). destruct R as (L0 & L1 & L2 & L3 & L4 & NN).
  destruct (areas_ordered (m_fp m) (m_tn m) n N (ratios (m_tp m) (m_fn m)) L3 L2) as (u & v & w & E1 & E2 & E3 & B).
  - intros i I. apply (S1 i I).
  - intros i I. destruct (NN i I) as (N1 & N2 & N3 & N4). split; assumption.
  - intros i j I. apply (S2 i j I).
  - exact U.
  - exists u, v, w. cbn [auc]. rewrite E1, E2, E3. auto.
Qed.

(** For the matrices computed from data at ascending thresholds. *)

Definition ascending_thresholds (ths : list num) : Prop := forall i j, i <= j < length ths -> num_leb (nth i ths NaN) (nth j ths NaN) = true.

Lemma data_matrices : forall ap ths limit weighted lk pk m o s ex w,
  NoDup ths -> 1 <= limit ->
  (forall e, In e (inputs s) -> well_formed weighted true m o ex w (snd e)) ->
  let D := scored_of ex w (map snd (inputs s)) in
  (forall x, In x D -> valid_example x) ->
  exists cm xm,
    outcome (confusion_combiner ap ths limit (histogram_options None false weighted true None) lk pk m o) s = Ok (cm, xm) /\
    m_thresholds cm = ths /\ regular cm (length ths) /\
    same_data cm (length ths) (qsum (map (fun x => sc_weight x * sc_label x)%Qc D)) (qsum (map (fun x => sc_weight x * (1 - sc_label x))%Qc D)) /\
    (ascending_thresholds ths -> stricter cm (length ths)) /\
    forall i, i < length ths ->
      tp_at cm i = qsum (map (fun x => sc_weight x * sc_label x)%Qc (filter (predicted (nth i ths NaN)) D)) /\
      fp_at cm i = qsum (map (fun x => sc_weight x * (1 - sc_label x))%Qc (filter (predicted (nth i ths NaN)) D)).
Proof.
  intros ap ths limit weighted lk pk m o s ex w ND LIM WF D V.
  destruct (C14_confusion_counts_pf ap ths limit true weighted lk pk m o s ex w ND LIM WF) as (cm & xm & O & T & L1 & L2 & L3 & L4 & C).
  destruct (C15_confusion_conserved_monotone_pf ap ths limit weighted lk pk m o s ex w ND LIM WF) as (cm' & xm' & O' & CS & MO).
  rewrite O in O'. injection O' as <- <-. fold D in C, CS, MO. specialize (MO V). exists cm, xm. split; [exact O|]. split; [exact T|].
  split; [|split; [exact CS|split]].
  - split; [rewrite T; reflexivity|]. do 4 (split; [assumption|]). intros i I. specialize (C i I). cbv zeta in C. destruct C as (C1 & C2 & C3 & C4).
    rewrite C1, C2, C3, C4. repeat split; apply qsum_nonneg; intros q Q; apply in_map_iff in Q; destruct Q as (x & <- & X); apply filter_In in X; destruct X as [X _]; apply positive_part_nonneg; auto.
  - intros A i j I. destruct (MO i j) as (M1 & M2 & _); [lia|lia|apply A; exact I|]. split; assumption.
  - intros i I. specialize (C i I). cbv zeta in C. destruct C as (C1 & C2 & C3 & C4). split; assumption.
Qed.

Lemma C41_roc_auc_on_data_pf : forall ap ths limit weighted lk pk m o s ex w,
  NoDup ths -> ascending_thresholds ths -> 1 <= limit ->
  (forall e, In e (inputs s) -> well_formed weighted true m o ex w (snd e)) ->
  (forall x, In x (scored_of ex w (map snd (inputs s))) -> valid_example x) ->
  exists cm xm low mid high,
    outcome (confusion_combiner ap ths limit (histogram_options None false weighted true None) lk pk m o) s = Ok (cm, xm) /\
    auc ROC Minoring cm = Exact (Fin low) /\ auc ROC Interpolation cm = Exact (Fin mid) /\ auc ROC Majoring cm = Exact (Fin high) /\
    (0 <= low /\ low <= mid /\ mid <= high /\ high <= 1)%Qc.
Proof.
  intros ap ths limit weighted lk pk m o s ex w ND A LIM WF V.
  destruct (data_matrices ap ths limit weighted lk pk m o s ex w ND LIM WF V) as (cm & xm & O & T & R & SD & ST & _).
  destruct (C41_roc_auc_pf cm (length ths) _ _ R SD (ST A)) as (u & v & z & H). exists cm, xm, u, v, z. split; [exact O|exact H].
Qed.

(** Does some threshold lie between two scores, at or above the first and below the second? *)

Definition separates (ths : list num) (low high : num) : bool := existsb (fun t => negb (num_ltb t low) && num_ltb t high) ths.

Definition ind (b : bool) : Qc := if b then 1%Qc else 0%Qc.

(** Weight of the pairs of a positive x and a negative y with a relation. *)

Definition pairs (R : scored -> scored -> bool) (D : list scored) : Qc :=
  qsum (map (fun x => qsum (map (fun y => (sc_weight x * sc_label x) * (sc_weight y * (1 - sc_label y)) * ind (R x y))%Qc D)) D).

(** Every example of negative weight lies above the first and not above the last threshold. *)

Definition covered (ths : list num) (D : list scored) : Prop :=
  forall y, In y D -> (sc_weight y * (1 - sc_label y) <> 0)%Qc ->
    num_ltb (nth 0 ths NaN) (sc_score y) = true /\ num_ltb (last ths NaN) (sc_score y) = false.

Fixpoint ksum (f : num -> num -> Qc) (ths : list num) : Qc :=
  match ths with t :: ((t' :: _) as r) => (f t t' + ksum f r)%Qc | _ => 0%Qc end.

Fixpoint chain (ths : list num) : Prop :=
  match ths with t :: ((t' :: _) as r) => num_leb t t' = true /\ chain r | _ => True end.

Lemma chain_of ths : ascending_thresholds ths -> chain ths.
Proof.
  induction ths as [|t ths IH]; intros A; [exact I|]. destruct ths as [|t' ths]; [exact I|].
  split; [apply (A 0 1); cbn; lia|]. apply IH. intros i j H. apply (A (S i) (S j)). cbn [length] in *. lia.
Qed.

Lemma num_below t t' s : num_leb t t' = true -> num_ltb t' s = true -> num_ltb t s = true.
Proof.
  destruct t as [| |a|], t' as [| |b|], s as [| |c|]; cbn; intros A B; try reflexivity; try discriminate. qc_bool. exact (Qcle_lt_trans _ _ _ A B).
Qed.

Lemma num_leb_chain t t' u : num_leb t t' = true -> num_leb t' u = true -> num_leb t u = true.
Proof. destruct t as [| |a|], t' as [| |b|], u as [| |c|]; cbn; intros A B; try reflexivity; try discriminate. qc_bool. exact (Qcle_trans _ _ _ A B). Qed.

Lemma chain_below t r u : chain (t :: r) -> In u r -> num_leb t u = true.
Proof.
  revert t. induction r as [|t' r IH]; intros t C H; [destruct H|]. destruct C as [C1 C2]. destruct H as [<-|H]; [exact C1|].
  exact (num_leb_chain _ _ _ C1 (IH t' C2 H)).
Qed.

Lemma ksum_ext f g ths : (forall t t', num_leb t t' = true -> f t t' = g t t') -> chain ths -> ksum f ths = ksum g ths.
Proof.
  intros E. induction ths as [|t ths IH]; intros C; [reflexivity|]. destruct ths as [|t' ths]; [reflexivity|]. destruct C as [C1 C2].
  change (ksum f (t :: t' :: ths)) with (f t t' + ksum f (t' :: ths))%Qc. change (ksum g (t :: t' :: ths)) with (g t t' + ksum g (t' :: ths))%Qc. rewrite E, IH by assumption. reflexivity.
Qed.

Lemma ksum_qsum {A} (f : A -> num -> num -> Qc) (l : list A) ths : ksum (fun t t' => qsum (map (fun a => f a t t') l)) ths = qsum (map (fun a => ksum (f a) ths) l).
Proof.
  induction ths as [|t ths IH]; [symmetry; apply qsum_map_zero; reflexivity|]. destruct ths as [|t' ths]; [symmetry; apply qsum_map_zero; reflexivity|].
  change (ksum (fun t t' => qsum (map (fun a => f a t t') l)) (t :: t' :: ths)) with (qsum (map (fun a => f a t t') l) + ksum (fun t t' => qsum (map (fun a => f a t t') l)) (t' :: ths))%Qc.
  rewrite IH, <- qsum_map_plus. reflexivity.
Qed.

Lemma ksum_scale c f ths : ksum (fun t t' => c * f t t')%Qc ths = (c * ksum f ths)%Qc.
Proof.
  induction ths as [|t ths IH]; [cbn; ring|]. destruct ths as [|t' ths]; [cbn; ring|].
  change (ksum (fun t t' => c * f t t')%Qc (t :: t' :: ths)) with (c * f t t' + ksum (fun t t' => c * f t t')%Qc (t' :: ths))%Qc. rewrite IH.
  change (ksum f (t :: t' :: ths)) with (f t t' + ksum f (t' :: ths))%Qc. ring.
Qed.

(** One negative score y and one positive score x. *)

Definition crossing (y t t' : num) : Qc := (ind (num_ltb t y) - ind (num_ltb t' y))%Qc.

Lemma crossing_none y ths : chain ths -> num_ltb (nth 0 ths NaN) y = false -> forall f, ksum (fun t t' => crossing y t t' * f t t')%Qc ths = 0%Qc.
Proof.
  intros C H f. revert C H. induction ths as [|t ths IH]; intros C H; [reflexivity|]. destruct ths as [|t' ths]; [reflexivity|]. destruct C as [C1 C2].
  change (nth 0 (t :: t' :: ths) NaN) with t in H.
  assert (H' : num_ltb t' y = false) by (destruct (num_ltb t' y) eqn:E; [rewrite (num_below _ _ _ C1 E) in H; discriminate|reflexivity]).
  change (ksum (fun t t' => crossing y t t' * f t t')%Qc (t :: t' :: ths)) with (crossing y t t' * f t t' + ksum (fun t t' => crossing y t t' * f t t')%Qc (t' :: ths))%Qc.
  rewrite IH by assumption. unfold crossing. rewrite H, H'. cbn [ind]. ring.
Qed.

Lemma crossing_low y x ths : chain ths -> num_ltb (nth 0 ths NaN) y = true -> num_ltb (last ths NaN) y = false ->
  ksum (fun t t' => crossing y t t' * ind (num_ltb t' x))%Qc ths = ind (separates ths y x).
Proof.
  induction ths as [|t ths IH]; intros C A B; [cbn in A; destruct y; discriminate|]. destruct ths as [|t' ths]; [cbn in A, B; congruence|].
  destruct C as [C1 C2]. change (nth 0 (t :: t' :: ths) NaN) with t in A. change (last (t :: t' :: ths) NaN) with (last (t' :: ths) NaN) in B.
  change (ksum (fun t t' => crossing y t t' * ind (num_ltb t' x))%Qc (t :: t' :: ths)) with (crossing y t t' * ind (num_ltb t' x) + ksum (fun t t' => crossing y t t' * ind (num_ltb t' x))%Qc (t' :: ths))%Qc.
  unfold separates. cbn [existsb]. rewrite A. cbn [negb andb orb]. change (existsb (fun t0 => negb (num_ltb t0 y) && num_ltb t0 x) ths) with (separates ths y x).
  destruct (num_ltb t' y) eqn:E.
  - rewrite (IH C2 E B). unfold crossing. rewrite A, E. cbn [ind]. unfold separates at 1. cbn [existsb]. rewrite E. cbn [negb andb orb]. unfold separates. ring.
  - rewrite (crossing_none y (t' :: ths) C2 E (fun t t' => ind (num_ltb t' x))). unfold crossing. rewrite A, E. cbn [ind negb andb].
    destruct (num_ltb t' x) eqn:X; cbn [orb]; [cbn [ind]; ring|]. replace (separates ths y x) with false; [cbn [ind]; ring|].
    symmetry. unfold separates. destruct (existsb _ ths) eqn:Z; [|reflexivity]. apply existsb_exists in Z. destruct Z as (u & U & Z). apply andb_true_iff in Z. destruct Z as [_ Z].
    rewrite (num_below _ _ _ (chain_below _ _ _ C2 U) Z) in X. discriminate.
Qed.

Lemma crossing_high y x ths : chain ths -> num_ltb (nth 0 ths NaN) y = true -> num_ltb (last ths NaN) y = false ->
  ksum (fun t t' => crossing y t t' * ind (num_ltb t x))%Qc ths = ind (negb (separates ths x y)).
Proof.
  induction ths as [|t ths IH]; intros C A B; [cbn in A; destruct y; discriminate|]. destruct ths as [|t' ths]; [cbn in A, B; congruence|].
  destruct C as [C1 C2]. change (nth 0 (t :: t' :: ths) NaN) with t in A. change (last (t :: t' :: ths) NaN) with (last (t' :: ths) NaN) in B.
  change (ksum (fun t t' => crossing y t t' * ind (num_ltb t x))%Qc (t :: t' :: ths)) with (crossing y t t' * ind (num_ltb t x) + ksum (fun t t' => crossing y t t' * ind (num_ltb t x))%Qc (t' :: ths))%Qc.
  destruct (num_ltb t' y) eqn:E.
  - rewrite (IH C2 E B). unfold crossing. rewrite A, E. cbn [ind].
    replace (separates (t :: t' :: ths) x y) with (separates (t' :: ths) x y); [ring|].
    unfold separates. cbn [existsb]. rewrite A, E, !andb_true_r. destruct (num_ltb t x) eqn:X; [reflexivity|].
    replace (num_ltb t' x) with false; [reflexivity|]. symmetry. destruct (num_ltb t' x) eqn:Y; [rewrite (num_below _ _ _ C1 Y) in X; discriminate|reflexivity].
  - rewrite (crossing_none y (t' :: ths) C2 E (fun t t' => ind (num_ltb t x))). unfold crossing. rewrite A, E. cbn [ind].
    unfold separates. cbn [existsb]. rewrite A, E, andb_true_r, andb_false_r. cbn [orb].
    replace (existsb (fun t0 => negb (num_ltb t0 x) && num_ltb t0 y) ths) with false.
    + rewrite orb_false_r, negb_involutive. ring.
    + symmetry. destruct (existsb _ ths) eqn:Z; [|reflexivity]. apply existsb_exists in Z. destruct Z as (u & U & Z). apply andb_true_iff in Z. destruct Z as [_ Z].
      rewrite (num_below _ _ _ (chain_below _ _ _ C2 U) Z) in E. discriminate.
Qed.

Section Pairs.
  Context (D : list scored) (ths : list num) (V : forall x, In x D -> valid_example x) (C : chain ths) (COV : covered ths D).

  Let pos x : Qc := (sc_weight x * sc_label x)%Qc.
  Let neg x : Qc := (sc_weight x * (1 - sc_label x))%Qc.
  Let T t : Qc := qsum (map pos (filter (predicted t) D)).
  Let F t : Qc := qsum (map neg (filter (predicted t) D)).

  Lemma filtered_sum (g : scored -> Qc) t : qsum (map g (filter (predicted t) D)) = qsum (map (fun x => g x * ind (num_ltb t (sc_score x)))%Qc D).
  Proof.
    clear. induction D as [|x l IH]; [reflexivity|]. cbn [filter map]. unfold predicted at 1.
    change (qsum ((g x * ind (num_ltb t (sc_score x)))%Qc :: map (fun x => g x * ind (num_ltb t (sc_score x)))%Qc l)) with (g x * ind (num_ltb t (sc_score x)) + qsum (map (fun x => g x * ind (num_ltb t (sc_score x)))%Qc l))%Qc.
    destruct (num_ltb t (sc_score x)); cbn [ind map]; rewrite <- IH; [change (qsum (g x :: map g (filter (predicted t) l))) with (g x + qsum (map g (filter (predicted t) l)))%Qc|]; ring.
  Qed.

  Lemma T_antitone t t' : num_leb t t' = true -> (T t' <= T t)%Qc.
  Proof.
    intros H. unfold T. rewrite !filtered_sum. apply qsum_map_le. intros x X. pose proof (proj1 (positive_part_nonneg x (V x X))) as P. fold (pos x) in P.
    destruct (num_ltb t' (sc_score x)) eqn:E; [rewrite (num_below _ _ _ H E); apply Qcle_refl|]. destruct (num_ltb t (sc_score x)); cbn [ind]; set (p := pos x) in *; clearbody p; qc_lra.
  Qed.

  Lemma product_sum (f g : scored -> Qc) : (qsum (map f D) * qsum (map g D))%Qc = qsum (map (fun x => qsum (map (fun y => f y * g x)%Qc D)) D).
  Proof.
    transitivity (qsum (map (fun x => g x * qsum (map f D))%Qc D)).
    - transitivity (qsum (map (fun x => qsum (map f D) * g x)%Qc D)); [rewrite qsum_map_scale; reflexivity|apply qsum_map_ext; intros x _; ring].
    - apply qsum_map_ext. intros x _. rewrite <- qsum_map_scale. apply qsum_map_ext. intros y _. ring.
  Qed.

  Lemma pair_sum (h : num -> num -> num -> Qc) (R : scored -> scored -> bool) :
    (forall x y, In x D -> In y D -> neg y <> 0%Qc -> ksum (fun t t' => crossing (sc_score y) t t' * h (sc_score x) t t')%Qc ths = ind (R x y)) ->
    ksum (fun t t' => (F t - F t') * qsum (map (fun x => pos x * h (sc_score x) t t')%Qc D))%Qc ths = pairs R D.
  Proof.
    intros H.
    transitivity (ksum (fun t t' => qsum (map (fun x => qsum (map (fun y => (neg y * crossing (sc_score y) t t') * (pos x * h (sc_score x) t t'))%Qc D)) D)) ths).
    - apply ksum_ext; [|exact C]. intros t t' _.
      replace (F t - F t')%Qc with (qsum (map (fun y => neg y * crossing (sc_score y) t t')%Qc D)).
      + apply product_sum.
      + unfold F. rewrite !filtered_sum. set (g := fun t x => (neg x * ind (num_ltb t (sc_score x)))%Qc).
        transitivity (qsum (map (g t) D) + qsum (map (fun x => - (1) * g t' x)%Qc D))%Qc.
        * rewrite <- qsum_map_plus. apply qsum_map_ext. intros y _. unfold g, crossing. ring.
        * rewrite qsum_map_scale. unfold g. ring.
    - rewrite ksum_qsum. unfold pairs. apply qsum_map_ext. intros x X. rewrite ksum_qsum. apply qsum_map_ext. intros y Y.
      transitivity (ksum (fun t t' => (neg y * pos x) * (crossing (sc_score y) t t' * h (sc_score x) t t'))%Qc ths).
      + apply ksum_ext; [intros; ring|exact C].
      + rewrite ksum_scale. fold (pos x) (neg y). destruct (Qc_eq_dec (neg y) 0%Qc) as [E|E]; [rewrite E; ring|]. rewrite (H x y X Y E). ring.
  Qed.

  Lemma low_pairs : ksum (fun t t' => (F t - F t') * T t')%Qc ths = pairs (fun x y => separates ths (sc_score y) (sc_score x)) D.
  Proof.
    rewrite <- (pair_sum (fun s t t' => ind (num_ltb t' s))).
    - apply ksum_ext; [|exact C]. intros t t' _. unfold T. rewrite (filtered_sum pos t'). reflexivity.
    - intros x y X Y N. destruct (COV y Y N) as [A B]. apply crossing_low; assumption.
  Qed.
  Lemma high_pairs : ksum (fun t t' => (F t - F t') * T t)%Qc ths = pairs (fun x y => negb (separates ths (sc_score x) (sc_score y))) D.
  Proof.
    rewrite <- (pair_sum (fun s t t' => ind (num_ltb t s))).
    - apply ksum_ext; [|exact C]. intros t t' _. unfold T. rewrite (filtered_sum pos t). reflexivity.
    - intros x y X Y N. destruct (COV y Y N) as [A B]. apply crossing_high; assumption.
  Qed.

  Lemma steps_area_ksum s P N : P <> 0%Qc -> N <> 0%Qc ->
    steps_area s (map (fun x => (x / N)%Qc) (map F ths)) (map Fin (map (fun x => (x / P)%Qc) (map T ths))) =
    ksum (fun t t' => (F t / N - F t' / N) * step_height s (T t / P) (T t' / P))%Qc ths.
  Proof.
    intros _ _. clear. induction ths as [|t l IH]; [reflexivity|]. destruct l as [|t' l]; [reflexivity|].
    change (ksum (fun t t' => (F t / N - F t' / N) * step_height s (T t / P) (T t' / P))%Qc (t :: t' :: l))
      with ((F t / N - F t' / N) * step_height s (T t / P) (T t' / P) + ksum (fun t t' => (F t / N - F t' / N) * step_height s (T t / P) (T t' / P))%Qc (t' :: l))%Qc.
    rewrite <- IH. reflexivity.
  Qed.

  Lemma area_pairs P N : (0 < P)%Qc -> N <> 0%Qc ->
    let A s := steps_area s (map (fun x => (x / N)%Qc) (map F ths)) (map Fin (map (fun x => (x / P)%Qc) (map T ths))) in
    (A Minoring * (P * N))%Qc = pairs (fun x y => separates ths (sc_score y) (sc_score x)) D /\
    (A Majoring * (P * N))%Qc = pairs (fun x y => negb (separates ths (sc_score x) (sc_score y))) D /\
    (qz 2 * A Interpolation = A Minoring + A Majoring)%Qc.
  Proof.
    intros PP NN A. assert (PZ : P <> 0%Qc) by (apply Qclt_neq0; exact PP). unfold A. rewrite !(steps_area_ksum _ P N PZ NN).
    assert (LO : ksum (fun t t' => (F t / N - F t' / N) * step_height Minoring (T t / P) (T t' / P))%Qc ths = ksum (fun t t' => / (P * N) * ((F t - F t') * T t'))%Qc ths).
    { apply ksum_ext; [|exact C]. intros t t' H. pose proof (Qcdiv_le_compat _ _ P (T_antitone t t' H) PP) as L. cbn [step_height].
      replace (if Qc_leb (T t / P) (T t' / P) then T t / P else T t' / P)%Qc with (T t' / P)%Qc; [field; split; assumption|].
      destruct (Qc_leb (T t / P)%Qc (T t' / P)%Qc) eqn:E; [|reflexivity]. qc_bool. apply Qcle_antisym; assumption. }
    assert (HI : ksum (fun t t' => (F t / N - F t' / N) * step_height Majoring (T t / P) (T t' / P))%Qc ths = ksum (fun t t' => / (P * N) * ((F t - F t') * T t))%Qc ths).
    { apply ksum_ext; [|exact C]. intros t t' H. pose proof (Qcdiv_le_compat _ _ P (T_antitone t t' H) PP) as L. cbn [step_height].
      replace (if Qc_leb (T t / P) (T t' / P) then T t' / P else T t / P)%Qc with (T t / P)%Qc; [field; split; assumption|].
      destruct (Qc_leb (T t / P)%Qc (T t' / P)%Qc) eqn:E; [|reflexivity]. qc_bool. apply Qcle_antisym; assumption. }
    assert (PN : (P * N)%Qc <> 0%Qc) by (intros Z; apply Qcmult_integral in Z; destruct Z; contradiction).
    rewrite LO, HI, !ksum_scale, low_pairs, high_pairs. split; [field; split; assumption|]. split; [field; split; assumption|].
    rewrite <- low_pairs, <- high_pairs, <- !ksum_scale.
    clear -PZ NN. induction ths as [|t l IH]; [cbn; ring|]. destruct l as [|t' l]; [cbn; ring|].
    assert (K : forall f, ksum f (t :: t' :: l) = (f t t' + ksum f (t' :: l))%Qc) by reflexivity. rewrite !K.
    transitivity (qz 2 * ((F t / N - F t' / N) * step_height Interpolation (T t / P) (T t' / P)) + (/ (P * N) * ksum (fun t t' => (F t - F t') * T t')%Qc (t' :: l) + / (P * N) * ksum (fun t t' => (F t - F t') * T t)%Qc (t' :: l)))%Qc.
    - rewrite <- !ksum_scale, <- IH. ring.
    - rewrite !ksum_scale. cbn [step_height]. rewrite qz2. field. repeat split; try assumption. intros H. apply (f_equal (fun q : Qc => Qnum q)) in H. vm_compute in H. discriminate.
  Qed.

End Pairs.

Lemma C97_concordance_pf : forall ap ths limit weighted lk pk m o s ex w,
  NoDup ths -> ascending_thresholds ths -> 1 <= limit ->
  (forall e, In e (inputs s) -> well_formed weighted true m o ex w (snd e)) ->
  let D := scored_of ex w (map snd (inputs s)) in
  let P := qsum (map (fun x => sc_weight x * sc_label x)%Qc D) in
  let N := qsum (map (fun x => sc_weight x * (1 - sc_label x))%Qc D) in
  (forall x, In x D -> valid_example x) -> P <> 0%Qc -> N <> 0%Qc -> covered ths D ->
  exists cm xm low mid high,
    outcome (confusion_combiner ap ths limit (histogram_options None false weighted true None) lk pk m o) s = Ok (cm, xm) /\
    auc ROC Minoring cm = Exact (Fin low) /\ auc ROC Interpolation cm = Exact (Fin mid) /\ auc ROC Majoring cm = Exact (Fin high) /\
    (low * (P * N))%Qc = pairs (fun x y => separates ths (sc_score y) (sc_score x)) D /\
    (high * (P * N))%Qc = pairs (fun x y => negb (separates ths (sc_score x) (sc_score y))) D /\
    (qz 2 * mid = low + high)%Qc.
Proof.
  intros ap ths limit weighted lk pk m o s ex w ND A LIM WF D P N V PZ NZ COV.
  destruct (data_matrices ap ths limit weighted lk pk m o s ex w ND LIM WF V) as (cm & xm & O & T & R & SD & ST & C). fold D P N in SD, C.
  destruct (ratios_unit cm _ R) as (U & _). destruct R as (L0 & L1 & L2 & L3 & L4 & NN).
  destruct (ratios_constant (m_fp cm) (m_tn cm) _ N L3 L2) as (R1 & _); [intros i I; apply (SD i I)|].
  destruct (ratios_constant (m_tp cm) (m_fn cm) _ P L1 L4) as (R2 & _); [intros i I; apply (SD i I)|].
  assert (E1 : m_tp cm = map (fun t => qsum (map (fun x => sc_weight x * sc_label x)%Qc (filter (predicted t) D))) ths).
  { apply (nth_ext _ _ 0%Qc (qsum (map (fun x => sc_weight x * sc_label x)%Qc (filter (predicted NaN) D)))); [rewrite map_length; exact L1|].
    intros i I. rewrite (map_nth (fun t => qsum (map (fun x => sc_weight x * sc_label x)%Qc (filter (predicted t) D)))). apply (C i). rewrite <- L1. exact I. }
  assert (E2 : m_fp cm = map (fun t => qsum (map (fun x => sc_weight x * (1 - sc_label x))%Qc (filter (predicted t) D))) ths).
  { apply (nth_ext _ _ 0%Qc (qsum (map (fun x => sc_weight x * (1 - sc_label x))%Qc (filter (predicted NaN) D)))); [rewrite map_length; exact L3|].
    intros i I. rewrite (map_nth (fun t => qsum (map (fun x => sc_weight x * (1 - sc_label x))%Qc (filter (predicted t) D)))). apply (C i). rewrite <- L3. exact I. }
  assert (PP : (0 < P)%Qc).
  { destruct (Qc_pos_or_zero P) as [E|E]; [|contradiction|exact E]. apply qsum_nonneg. intros q Q. apply in_map_iff in Q. destruct Q as (x & <- & X). apply positive_part_nonneg, V, X. }
  destruct (area_pairs D ths V (chain_of ths A) COV P N PP NZ) as (B1 & B2 & B3).
  exists cm, xm. eexists; eexists; eexists. split; [exact O|]. cbn [auc].
  rewrite (R2 PZ) in *. rewrite (R1 NZ). rewrite !area_steps by exact U. rewrite E1, E2. do 3 (split; [reflexivity|]). auto.
Qed.

Lemma C97_mann_whitney_pf : forall ap ths limit weighted lk pk m o s ex w,
  NoDup ths -> ascending_thresholds ths -> 1 <= limit ->
  (forall e, In e (inputs s) -> well_formed weighted true m o ex w (snd e)) ->
  let D := scored_of ex w (map snd (inputs s)) in
  let P := qsum (map (fun x => sc_weight x * sc_label x)%Qc D) in
  let N := qsum (map (fun x => sc_weight x * (1 - sc_label x))%Qc D) in
  (forall x, In x D -> valid_example x) -> P <> 0%Qc -> N <> 0%Qc -> covered ths D ->
  let above := pairs (fun x y => num_ltb (sc_score y) (sc_score x)) D in
  let tied := pairs (fun x y => num_eqb (sc_score y) (sc_score x)) D in
  exists cm xm low mid high,
    outcome (confusion_combiner ap ths limit (histogram_options None false weighted true None) lk pk m o) s = Ok (cm, xm) /\
    auc ROC Minoring cm = Exact (Fin low) /\ auc ROC Interpolation cm = Exact (Fin mid) /\ auc ROC Majoring cm = Exact (Fin high) /\
    (low * (P * N) <= above)%Qc /\ (above + tied <= high * (P * N))%Qc /\
    ((forall x y, In x D -> In y D -> num_ltb (sc_score x) (sc_score y) = true -> separates ths (sc_score x) (sc_score y) = true) ->
     (qz 2 * (mid * (P * N)) = qz 2 * above + tied)%Qc).
Proof.
  intros ap ths limit weighted lk pk m o s ex w ND A LIM WF D P N V PZ NZ COV above tied.
  destruct (C97_concordance_pf ap ths limit weighted lk pk m o s ex w ND A LIM WF V PZ NZ COV) as (cm & xm & low & mid & high & O & E1 & E2 & E3 & B1 & B2 & B3).
  fold D P N in B1, B2. exists cm, xm, low, mid, high. do 4 (split; [assumption|]).
  assert (NEG : forall x y, In x D -> In y D -> (0 <= (sc_weight x * sc_label x) * (sc_weight y * (1 - sc_label y)))%Qc).
  { intros x y X Y. apply Qcmult_nonneg; apply positive_part_nonneg; apply V; assumption. }
  assert (LE : forall R S, (forall x y, In x D -> In y D -> (sc_weight y * (1 - sc_label y) <> 0)%Qc -> R x y = true -> S x y = true) -> (pairs R D <= pairs S D)%Qc).
  { intros R S0 H. unfold pairs. apply qsum_map_le. intros x X. apply qsum_map_le. intros y Y. specialize (NEG x y X Y).
    destruct (Qc_eq_dec (sc_weight y * (1 - sc_label y))%Qc 0%Qc) as [Z|Z].
    - rewrite Z. replace (sc_weight x * sc_label x * 0 * ind (R x y))%Qc with 0%Qc by ring. replace (sc_weight x * sc_label x * 0 * ind (S0 x y))%Qc with 0%Qc by ring. apply Qcle_refl.
    - specialize (H x y X Y Z). set (c := (sc_weight x * sc_label x * (sc_weight y * (1 - sc_label y)))%Qc) in *. clearbody c.
      destruct (R x y); [rewrite H by reflexivity; apply Qcle_refl|]. destruct (S0 x y); cbn [ind]; qc_lra. }
  assert (PL : forall R S T0, (forall x y, In x D -> In y D -> (sc_weight y * (1 - sc_label y) <> 0)%Qc -> ind (T0 x y) = (ind (R x y) + ind (S x y))%Qc) -> pairs T0 D = (pairs R D + pairs S D)%Qc).
  { intros R S0 T0 H. unfold pairs. rewrite <- qsum_map_plus. apply qsum_map_ext. intros x X. rewrite <- qsum_map_plus. apply qsum_map_ext. intros y Y.
    destruct (Qc_eq_dec (sc_weight y * (1 - sc_label y))%Qc 0%Qc) as [Z|Z]; [rewrite Z; ring|]. rewrite (H x y X Y Z). ring. }
  assert (NN : forall y, In y D -> (sc_weight y * (1 - sc_label y) <> 0)%Qc -> sc_score y <> NaN).
  { intros y Y Z E. destruct (COV y Y Z) as [K _]. rewrite E in K. destruct (nth 0 ths NaN); discriminate. }
  assert (NT : forall t, In t ths -> t <> NaN).
  { intros t I E. apply (In_nth _ _ NaN) in I. destruct I as (i & I & J). specialize (A i i (conj (le_n i) I)). rewrite J, E in A. discriminate. }
  (* a threshold between two scores orders them *)
  assert (SEP : forall u v, u <> NaN -> separates ths u v = true -> num_ltb u v = true).
  { intros u v U H. apply existsb_exists in H. destruct H as (t & I & H). apply andb_true_iff in H. destruct H as [H1 H2]. apply negb_true_iff in H1. specialize (NT t I).
    destruct t as [| |a|], u as [| |b|], v as [| |c|]; cbn in *; try reflexivity; try discriminate; try congruence. qc_bool. exact (Qcle_lt_trans _ _ _ H1 H2). }
  assert (LEQ : forall u v, (if num_ltb u v then true else num_eqb u v) = num_leb u v).
  { intros [| |b|] [| |c|]; cbn; try reflexivity. destruct (Qc_ltb b c) eqn:X, (Qc_eqb b c) eqn:Y, (Qc_leb b c) eqn:Z; try reflexivity; exfalso; qc_bool; first [apply Y; apply Qcle_antisym; assumption | qc_lra]. }
  assert (EXC : forall u v, num_ltb u v = true -> num_eqb u v = true -> False).
  { intros [| |b|] [| |c|]; cbn; try discriminate. intros X Y. qc_bool. subst. revert X. apply Qcle_not_lt, Qcle_refl. }
  (* the pairs not ranked wrongly *)
  assert (AT : (above + tied)%Qc = pairs (fun x y => num_leb (sc_score y) (sc_score x)) D).
  { symmetry. apply PL. intros x y X Y Z. rewrite <- LEQ. destruct (num_ltb (sc_score y) (sc_score x)) eqn:E; [|cbn [ind]; ring].
    destruct (num_eqb (sc_score y) (sc_score x)) eqn:F; [exfalso; exact (EXC _ _ E F)|cbn [ind]; ring]. }
  split; [|split].
  - rewrite B1. apply LE. intros x y X Y Z H. apply SEP; [apply NN; assumption|exact H].
  - rewrite B2, AT. apply LE. intros x y X Y Z H. apply negb_true_iff. destruct (separates ths (sc_score x) (sc_score y)) eqn:K; [|reflexivity]. exfalso.
    assert (XN : sc_score x <> NaN) by (intros E; rewrite E in H; destruct (sc_score y); discriminate).
    apply SEP in K; [|exact XN]. revert H K. destruct (sc_score x) as [| |b|], (sc_score y) as [| |c|]; cbn; try discriminate. intros H K. qc_bool. revert K. apply Qcle_not_lt. exact H.
  - intros SE. replace (qz 2 * (mid * (P * N)))%Qc with ((qz 2 * mid) * (P * N))%Qc by ring. rewrite B3.
    replace ((low + high) * (P * N))%Qc with (low * (P * N) + high * (P * N))%Qc by ring. rewrite B1, B2.
    assert (Q1 : pairs (fun x y => separates ths (sc_score y) (sc_score x)) D = above).
    { apply Qcle_antisym; apply LE; intros x y X Y Z H; [apply SEP; [apply NN; assumption|exact H]|apply SE; assumption]. }
    assert (Q2 : pairs (fun x y => negb (separates ths (sc_score x) (sc_score y))) D = (above + tied)%Qc).
    { rewrite AT. apply Qcle_antisym; apply LE; intros x y X Y Z H.
      - apply negb_true_iff in H. assert (XN : sc_score x <> NaN).
        { intros E. rewrite E in H. destruct (COV y Y Z) as [K _]. assert (NE : ths <> []) by (intros ->; cbn in K; destruct (sc_score y); discriminate).
          destruct ths as [|t0 r]; [congruence|]. unfold separates in H. cbn [existsb] in H. change (nth 0 (t0 :: r) NaN) with t0 in K. rewrite K in H.
          replace (num_ltb t0 NaN) with false in H by (destruct t0; reflexivity). discriminate. }
        pose proof (NN y Y Z) as YN. destruct (num_ltb (sc_score x) (sc_score y)) eqn:K; [rewrite (SE x y X Y K) in H; discriminate|].
        revert K XN YN. clear. destruct (sc_score x) as [| |b|], (sc_score y) as [| |c|]; cbn; try congruence; try discriminate. intros K _ _. qc_bool. exact K.
      - apply negb_true_iff. destruct (separates ths (sc_score x) (sc_score y)) eqn:K; [|reflexivity]. exfalso.
        assert (XN : sc_score x <> NaN) by (intros E; rewrite E in H; destruct (sc_score y); discriminate).
        apply SEP in K; [|exact XN]. revert H K. destruct (sc_score x) as [| |b|], (sc_score y) as [| |c|]; cbn; try discriminate. intros H K. qc_bool. revert K. apply Qcle_not_lt. exact H. }
    rewrite Q1, Q2. set (a := above). set (b := tied). clearbody a b. rewrite qz2. ring.
Qed.

(** A perfect predictor of one positive, at a threshold below and one above its score:
    the upper estimate of the area under the precision-recall curve is 0, the
    interpolated one 1. *)

Definition perfect : matrices := Matrices [Fin 0%Qc; Fin 1%Qc] [1%Qc; 0%Qc] [0%Qc; 0%Qc] [0%Qc; 0%Qc] [0%Qc; 1%Qc].

Lemma C96_pr_auc_ordered_refuted_pf :
  exists m n P N, regular m n /\ same_data m n P N /\ stricter m n /\ P <> 0%Qc /\
    auc PR Majoring m = Exact (Fin 0%Qc) /\ auc PR Interpolation m = Interpolated 1.
Proof.
  exists perfect, 2, 1%Qc, 0%Qc.
  split; [repeat (split; [reflexivity|]); intros [|[|]] I; try lia; repeat split; discriminate|].
  split; [intros [|[|]] I; try lia; split; apply Qc_is_canon; reflexivity|].
  split; [intros [|[|]] [|[|]] I; try lia; split; discriminate|]. split; [discriminate|]. split; [qc_ex|].
  cbn [auc]. f_equal. unfold pr_interpolated, perfect. cbn [m_tp m_fp m_fn combine steps tl fold_left fst snd].
  unfold pr_increment.
  assert (E1 : (1 - 0)%Qc = 1%Qc) by ring. assert (E2 : (1 + 0)%Qc = 1%Qc) by ring. assert (E3 : (0 + 0)%Qc = 0%Qc) by ring. assert (E4 : (0 + 1)%Qc = 1%Qc) by ring.
  rewrite E1, E2, E3, E4, E1. cbn. unfold real. assert (E5 : (1 / 1)%Qc = 1%Qc) by (field; discriminate). rewrite E5.
  assert (E6 : (0 - 1 * 0)%Qc = 0%Qc) by ring. rewrite E6, Q2R_0_c, Q2R_1_c, ln_1. field.
Qed.

(** Rows of counts, from permissive to strict, with P positives. *)

Definition row := (Qc * Qc * Qc)%type.

Definition r_tp (r : row) : Qc := fst (fst r).

Definition r_fp (r : row) : Qc := snd (fst r).

Definition r_fn (r : row) : Qc := snd r.

Definition good_row (P : Qc) (r : row) : Prop := (0 <= r_tp r /\ 0 <= r_fp r /\ 0 <= r_fn r /\ r_tp r + r_fn r = P)%Qc.

Fixpoint falling (l : list row) : Prop :=
  match l with a :: ((b :: _) as r) => ((r_tp b <= r_tp a)%Qc /\ (r_fp b <= r_fp a)%Qc) /\ falling r | _ => True end.

Definition inc (a b : row) : R := match pr_increment a b with Some x => x | None => 0%R end.

Fixpoint rsum (l : list row) : R := match l with a :: ((b :: _) as r) => (inc a b + rsum r)%R | _ => 0%R end.

Lemma pr_fold (l : list row) : forall acc, fold_left (fun acc p => match pr_increment (fst p) (snd p) with Some x => (acc + x)%R | None => acc end) (steps l) acc = (acc + rsum l)%R.
Proof.
  induction l as [|a l IH]; intros acc; [cbn; Lra.lra|]. destruct l as [|b l]; [cbn; Lra.lra|].
  change (steps (a :: b :: l)) with ((a, b) :: steps (b :: l)). cbn [fold_left fst snd]. rewrite IH.
  change (rsum (a :: b :: l)) with (inc a b + rsum (b :: l))%R. unfold inc. destruct (pr_increment a b); Lra.lra.
Qed.

Lemma log_bounds pa pb : (0 < pb)%R -> (pb <= pa)%R -> ((pa - pb) / pa <= ln (pa / pb) <= (pa - pb) / pb)%R.
Proof.
  intros B A. assert (PA : (0 < pa)%R) by Lra.lra. split.
  - assert (X : (0 < pb / pa)%R) by (apply Rdiv_lt_0_compat; assumption). pose proof (ln_le_minus_1 _ X) as H.
    replace (pa / pb)%R with (/ (pb / pa))%R by (field; Lra.lra). rewrite ln_Rinv by exact X. replace ((pa - pb) / pa)%R with (1 - pb / pa)%R by (field; Lra.lra). Lra.lra.
  - assert (X : (0 < pa / pb)%R) by (apply Rdiv_lt_0_compat; assumption). pose proof (ln_le_minus_1 _ X) as H.
    replace ((pa - pb) / pb)%R with (pa / pb - 1)%R by (field; Lra.lra). exact H.
Qed.

(** Between the two precisions times the gain in recall. *)

Lemma real_increment tb pb d dp P L : (0 < pb)%R -> (0 < dp)%R -> (0 <= d)%R -> (d <= dp)%R -> (0 < P)%R ->
  (dp / (pb + dp) <= L <= dp / pb)%R ->
  let lo := Rmin ((tb + d) / (pb + dp)) (tb / pb) in let hi := Rmax ((tb + d) / (pb + dp)) (tb / pb) in
  (lo * (d / P) <= d / dp * (d + (tb - d / dp * pb) * L) / P <= hi * (d / P))%R.
Proof.
  intros PB DP D1 D2 PP [L1 L2] lo hi.
  set (k := (d / dp)%R). assert (K : (d = k * dp)%R) by (unfold k; field; Lra.lra). assert (K0 : (0 <= k)%R) by (unfold k; apply Rmult_le_pos; [exact D1|apply Rlt_le, Rinv_0_lt_compat; exact DP]).
  clearbody k. subst d. set (i := (tb - k * pb)%R).
  assert (YA : ((tb + k * dp) / (pb + dp) = k + i / (pb + dp))%R) by (unfold i; field; Lra.lra).
  assert (YB : (tb / pb = k + i / pb)%R) by (unfold i; field; Lra.lra).
  assert (M : (lo * dp <= k * dp + i * L <= hi * dp)%R).
  { unfold lo, hi. rewrite YA, YB.
    assert (U : (0 < / (pb + dp) <= / pb)%R) by (split; [apply Rinv_0_lt_compat; Lra.lra|apply Rinv_le_contravar; Lra.lra]).
    unfold Rdiv in *. set (va := (/ (pb + dp))%R) in *. set (vb := (/ pb)%R) in *. clearbody va vb. clear YA YB.
    destruct (Rle_dec 0 i) as [I0|I0].
    - assert (C : (i * va <= i * vb)%R) by (apply Rmult_le_compat_l; Lra.lra).
      rewrite Rmin_left, Rmax_right by Lra.lra.
      assert (C1 : (i * (dp * va) <= i * L)%R) by (apply Rmult_le_compat_l; Lra.lra).
      assert (C2 : (i * L <= i * (dp * vb))%R) by (apply Rmult_le_compat_l; Lra.lra).
      split; Lra.nra.
    - assert (N0 : (0 <= - i)%R) by Lra.lra.
      assert (C : (- i * va <= - i * vb)%R) by (apply Rmult_le_compat_l; Lra.lra).
      rewrite Rmin_right, Rmax_left by Lra.lra.
      assert (C1 : (- i * (dp * va) <= - i * L)%R) by (apply Rmult_le_compat_l; Lra.lra).
      assert (C2 : (- i * L <= - i * (dp * vb))%R) by (apply Rmult_le_compat_l; Lra.lra).
      split; Lra.nra. }
  clearbody i lo hi. clear YA YB L1 L2.
  assert (KP : (0 <= k * / P)%R) by (apply Rmult_le_pos; [exact K0|apply Rlt_le, Rinv_0_lt_compat; exact PP]).
  replace (lo * (k * dp / P))%R with (k * / P * (lo * dp))%R by (field; Lra.lra).
  replace (hi * (k * dp / P))%R with (k * / P * (hi * dp))%R by (field; Lra.lra).
  replace (k * (k * dp + i * L) / P)%R with (k * / P * (k * dp + i * L))%R by (field; Lra.lra).
  split; apply Rmult_le_compat_l; try exact KP; Lra.lra.
Qed.

Definition r_precision (r : row) : num := np_div (r_tp r) (r_tp r + r_fp r)%Qc.

(** One step. *)

Lemma inc_bounds P a b : (0 < P)%Qc -> good_row P a -> good_row P b -> (r_tp b <= r_tp a)%Qc -> (r_fp b <= r_fp a)%Qc ->
  (0 <= inc a b <= Q2R (r_tp a / P - r_tp b / P)%Qc)%R /\
  ((0 < r_tp b + r_fp b)%Qc ->
   (Q2R (step_area Minoring (r_tp a / P) (r_tp b / P) (r_precision a) (r_precision b)) <= inc a b <=
    Q2R (step_area Majoring (r_tp a / P) (r_tp b / P) (r_precision a) (r_precision b)))%R).
Proof.
  destruct a as [[ta fa] na], b as [[tb fb] nb]. unfold good_row, inc, pr_increment, r_precision, r_tp, r_fp, r_fn. cbn [fst snd].
  intros PP (A1 & A2 & A3 & A4) (B1 & B2 & B3 & B4) T F.
  assert (PAB : (ta - tb <= (ta + fa) - (tb + fb))%Qc) by qc_lra. assert (PB0 : (tb <= tb + fb)%Qc) by qc_lra. assert (PA0 : (ta <= ta + fa)%Qc) by qc_lra.
  rewrite B4. set (pa := (ta + fa)%Qc) in *. set (pb := (tb + fb)%Qc) in *. clearbody pa pb.
  assert (D0 : Qc_ltb (pa - pb)%Qc 0%Qc = false) by (destruct (Qc_ltb (pa - pb)%Qc 0%Qc) eqn:E; [exfalso; qc_lra|reflexivity]). rewrite D0.
  assert (P0 : Qc_ltb P 0%Qc = false) by (destruct (Qc_ltb P 0%Qc) eqn:E; [exfalso; qc_lra|reflexivity]). rewrite P0.
  rewrite (proj2 (Qc_eqb_neq _ _) (Qclt_neq0 P PP)). rewrite orb_false_r.
  assert (PR : (0 < Q2R P)%R) by (apply Q2R_pos; exact PP).
  assert (W : Q2R (ta / P - tb / P)%Qc = ((Q2R ta - Q2R tb) / Q2R P)%R).
  { rewrite Q2R_minus_c, !Q2R_div_c by (apply Qclt_neq0; exact PP). field. Lra.lra. }
  rewrite W.
  destruct (Qc_eqb (pa - pb)%Qc 0%Qc) eqn:Z.
  - qc_bool. assert (TT : ta = tb) by qc_lra. subst ta. split.
    + unfold Rdiv. replace ((Q2R tb - Q2R tb) * / Q2R P)%R with 0%R by ring. Lra.lra.
    + intros _. assert (G : forall s x y y', Q2R (step_area s x x y y') = 0%R).
      { intros s x y y'. rewrite <- Q2R_0_c. apply Q2R_inj_c. unfold step_area. destruct y, y'; try reflexivity. ring. }
      rewrite !G. Lra.lra.
  - qc_bool. assert (DP : (0 < pa - pb)%Qc) by (destruct (Qc_pos_or_zero (pa - pb)%Qc) as [E|E]; [qc_lra|contradiction|exact E]).
    assert (DPN : (pa - pb <> 0)%Qc) by exact Z.
    assert (RD : (0 < Q2R (pa - pb)%Qc)%R) by (apply Q2R_pos; exact DP).
    assert (PAP : (0 < pa)%Qc) by qc_lra. rewrite (proj2 (Qc_ltb_lt _ _) PAP). cbn [andb].
    unfold real. rewrite (Q2R_div_c _ _ DPN), !Q2R_minus_c, Q2R_mult_c, (Q2R_div_c _ _ DPN), !Q2R_minus_c.
    assert (RT : (0 <= Q2R ta - Q2R tb <= Q2R pa - Q2R pb)%R) by (apply Q2R_le_c in T, PAB; rewrite !Q2R_minus_c in PAB; Lra.lra).
    rewrite Q2R_minus_c in RD. apply Q2R_nonneg in B1 as RB1. pose proof (proj1 (Q2R_le_c _ _) PB0) as RPB. pose proof (proj1 (Q2R_le_c _ _) PA0) as RPA.
    destruct (Qc_pos_or_zero pb) as [E|E]; [qc_lra| |].
    + (* nothing predicted at the stricter threshold *)
      subst pb. assert (tb = 0%Qc) by qc_lra. subst tb. assert (NP : Qc_ltb 0%Qc 0%Qc = false) by reflexivity. rewrite NP. split; [|intros X; exfalso; revert X; apply Qcle_not_lt, Qcle_refl].
      rewrite Q2R_0_c, Q2R_1_c, ln_1 in *.
      set (x := Q2R ta) in *. set (y := Q2R pa) in *. set (z := Q2R P) in *. clearbody x y z.
      replace ((x - 0) / (y - 0) * (x - 0 + (0 - (x - 0) / (y - 0) * 0) * 0) / z)%R with ((x / y) * (x / z))%R by (field; Lra.lra).
      assert (Q1 : (0 <= x / z)%R) by (apply Rmult_le_pos; [Lra.lra|apply Rlt_le, Rinv_0_lt_compat; Lra.lra]).
      assert (Q2 : (0 <= x / y)%R) by (apply Rmult_le_pos; [Lra.lra|apply Rlt_le, Rinv_0_lt_compat; Lra.lra]).
      assert (Q3 : (x / y <= 1)%R) by (apply (Rmult_le_reg_r y); [Lra.lra|]; replace (x / y * y)%R with x by (field; Lra.lra); Lra.lra).
      replace ((x - 0) / z)%R with (x / z)%R by (field; Lra.lra). set (u := (x / y)%R) in *. set (v := (x / z)%R) in *. clearbody u v. clear - Q1 Q2 Q3. split; Lra.nra.
    + rewrite (proj2 (Qc_ltb_lt _ _) E). rewrite (Q2R_div_c pa pb (Qclt_neq0 _ E)).
      assert (RB : (0 < Q2R pb)%R) by (apply Q2R_pos; exact E).
      pose proof (log_bounds (Q2R pa) (Q2R pb) RB ltac:(Lra.lra)) as LB.
      pose proof (real_increment (Q2R tb) (Q2R pb) (Q2R ta - Q2R tb) (Q2R pa - Q2R pb) (Q2R P) (ln (Q2R pa / Q2R pb)) RB RD (proj1 RT) (proj2 RT) PR) as RI.
      replace (Q2R pb + (Q2R pa - Q2R pb))%R with (Q2R pa) in RI by ring. specialize (RI LB). cbv zeta in RI.
      replace (Q2R tb + (Q2R ta - Q2R tb))%R with (Q2R ta) in RI by ring.
      assert (PAN : pa <> 0%Qc) by (apply Qclt_neq0; exact PAP). assert (PBN : pb <> 0%Qc) by (apply Qclt_neq0; exact E).
      set (X := ((Q2R ta - Q2R tb) / (Q2R pa - Q2R pb) * (Q2R ta - Q2R tb + (Q2R tb - (Q2R ta - Q2R tb) / (Q2R pa - Q2R pb) * Q2R pb) * ln (Q2R pa / Q2R pb)) / Q2R P)%R) in *. clearbody X.
      rewrite <- (Q2R_div_c ta pa PAN), <- (Q2R_div_c tb pb PBN), <- W in RI.
      assert (NA : np_div ta pa = Fin (ta / pa)%Qc) by (unfold np_div; rewrite (proj2 (Qc_eqb_neq _ _) PAN); reflexivity).
      assert (NB : np_div tb pb = Fin (tb / pb)%Qc) by (unfold np_div; rewrite (proj2 (Qc_eqb_neq _ _) PBN); reflexivity).
      assert (UA : (0 <= ta / pa <= 1)%Qc) by (split; [apply Qcdiv_nonneg; [exact A1|exact PAP]|apply Qcdiv_le_1; [exact A1|exact PA0|exact PAP]]).
      assert (UB : (0 <= tb / pb <= 1)%Qc) by (split; [apply Qcdiv_nonneg; [exact B1|exact E]|apply Qcdiv_le_1; [exact B1|exact PB0|exact E]]).
      assert (W0 : (0 <= Q2R (ta / P - tb / P)%Qc)%R) by (rewrite W; apply Rmult_le_pos; [Lra.lra|apply Rlt_le, Rinv_0_lt_compat; exact PR]).
      rewrite NA, NB. cbn [step_area]. rewrite !Q2R_mult_c. set (ya := (ta / pa)%Qc) in *. set (yb := (tb / pb)%Qc) in *. set (v := Q2R (ta / P - tb / P)%Qc) in *. clearbody ya yb v.
      assert (MN : Q2R (step_height Minoring ya yb) = Rmin (Q2R ya) (Q2R yb)).
      { cbn [step_height]. destruct (Qc_leb ya yb) eqn:Y; qc_bool; [rewrite Rmin_left; [reflexivity|apply Q2R_le_c; exact Y]|rewrite Rmin_right; [reflexivity|apply Q2R_le_c, Qclt_le_weak; exact Y]]. }
      assert (MX : Q2R (step_height Majoring ya yb) = Rmax (Q2R ya) (Q2R yb)).
      { cbn [step_height]. destruct (Qc_leb ya yb) eqn:Y; qc_bool; [rewrite Rmax_right; [reflexivity|apply Q2R_le_c; exact Y]|rewrite Rmax_left; [reflexivity|apply Q2R_le_c, Qclt_le_weak; exact Y]]. }
      rewrite MN, MX. destruct UA as [UA1 UA2], UB as [UB1 UB2]. apply Q2R_le_c in UA1, UA2, UB1, UB2. rewrite Q2R_0_c in UA1, UB1. rewrite Q2R_1_c in UA2, UB2.
      assert (R0 : (0 <= Rmin (Q2R ya) (Q2R yb))%R) by (apply Rmin_glb; assumption).
      assert (R1 : (Rmax (Q2R ya) (Q2R yb) <= 1)%R) by (apply Rmax_lub; assumption).
      set (mn := Rmin (Q2R ya) (Q2R yb)) in *. set (mx := Rmax (Q2R ya) (Q2R yb)) in *. clearbody mn mx. split; [split; Lra.nra|intros _; split; Lra.nra].
Qed.

Lemma rsum_bounds P l : (0 < P)%Qc -> (forall r, In r l -> good_row P r) -> falling l ->
  (0 <= rsum l <= Q2R (hd 0 (map (fun r => r_tp r / P) l) - last (map (fun r => r_tp r / P) l) 0)%Qc)%R /\
  ((forall r, In r l -> (0 < r_tp r + r_fp r)%Qc) ->
   (Q2R (steps_area Minoring (map (fun r => r_tp r / P)%Qc l) (map r_precision l)) <= rsum l <= Q2R (steps_area Majoring (map (fun r => r_tp r / P)%Qc l) (map r_precision l)))%R).
Proof.
  intros PP. induction l as [|a l IH]; intros G F.
  - cbn [rsum map steps_area hd last]. assert (E : (0 - 0)%Qc = 0%Qc) by ring. rewrite E, Q2R_0_c. split; [Lra.lra|intros _; Lra.lra].
  - destruct l as [|b l].
    + cbn [rsum map steps_area hd last]. assert (E : (r_tp a / P - r_tp a / P)%Qc = 0%Qc) by ring. rewrite E, Q2R_0_c. split; [Lra.lra|intros _; Lra.lra].
    + destruct F as [[F1 F2] F3]. destruct (IH (fun r R => G r (or_intror R)) F3) as (I1 & I2).
      destruct (inc_bounds P a b PP (G a (or_introl eq_refl)) (G b (or_intror (or_introl eq_refl))) F1 F2) as (J1 & J2).
      change (rsum (a :: b :: l)) with (inc a b + rsum (b :: l))%R. set (tail := rsum (b :: l)) in *. clearbody tail. set (i := inc a b) in *. clearbody i. split.
      * change (hd 0%Qc (map (fun r => (r_tp r / P)%Qc) (a :: b :: l))) with (r_tp a / P)%Qc. change (last (map (fun r => (r_tp r / P)%Qc) (a :: b :: l)) 0%Qc) with (last (map (fun r => (r_tp r / P)%Qc) (b :: l)) 0%Qc).
        change (hd 0%Qc (map (fun r => (r_tp r / P)%Qc) (b :: l))) with (r_tp b / P)%Qc in I1.
        set (z := last _ 0%Qc) in *. clearbody z. rewrite !Q2R_minus_c in *. Lra.lra.
      * intros H. specialize (I2 (fun r R => H r (or_intror R))). specialize (J2 (H b (or_intror (or_introl eq_refl)))).
        assert (K : forall s, steps_area s (map (fun r => r_tp r / P)%Qc (a :: b :: l)) (map r_precision (a :: b :: l)) =
          (step_area s (r_tp a / P) (r_tp b / P) (r_precision a) (r_precision b) + steps_area s (map (fun r => r_tp r / P)%Qc (b :: l)) (map r_precision (b :: l)))%Qc) by reflexivity.
        rewrite !K, !Q2R_plus_c. Lra.lra.
Qed.

Lemma rsum_none P l : P = 0%Qc -> (forall r, In r l -> good_row P r) -> rsum l = 0%R.
Proof.
  intros Z. induction l as [|a l IH]; intros G; [reflexivity|]. destruct l as [|b l]; [reflexivity|].
  change (rsum (a :: b :: l)) with (inc a b + rsum (b :: l))%R. rewrite IH by (intros r R; apply G; right; exact R).
  replace (inc a b) with 0%R; [Lra.lra|]. unfold inc, pr_increment. destruct a as [[ta fa] na], b as [[tb fb] nb].
  destruct (G _ (or_intror (or_introl eq_refl))) as (_ & _ & _ & E). unfold r_tp, r_fn in E. cbn [fst snd] in E. rewrite E, Z.
  replace (Qc_ltb 0%Qc 0%Qc) with false by reflexivity. replace (Qc_eqb 0%Qc 0%Qc) with true by reflexivity. rewrite orb_true_r. reflexivity.
Qed.

Lemma C96_pr_auc_partial_pf : forall m n P N, regular m n -> same_data m n P N -> stricter m n ->
  exists low high mid, auc PR Minoring m = Exact (Fin low) /\ auc PR Majoring m = Exact (Fin high) /\ auc PR Interpolation m = Interpolated mid /\
    (0 <= low /\ low <= high /\ high <= 1)%Qc /\ (0 <= mid <= 1)%R /\
    ((forall i, i < n -> (0 < tp_at m i + fp_at m i)%Qc) -> (Q2R low <= mid <= Q2R high)%R).
Proof.
  intros m n P N RG S1 S2. destruct (ratios_unit m n RG) as (_ & U). destruct RG as (L0 & L1 & L2 & L3 & L4 & NN).
  destruct (areas_ordered (m_tp m) (m_fn m) n P (ratios (m_tp m) (m_fp m)) L1 L4) as (u & v & w & E1 & E2 & E3 & B).
  - intros i I. apply (S1 i I).
  - intros i I. destruct (NN i I) as (N1 & N2 & N3 & N4). split; assumption.
  - intros i j I. apply (S2 i j I).
  - exact U.
  - exists u, w, (pr_interpolated m). cbn [auc]. rewrite E1, E3. do 3 (split; [reflexivity|]).
    destruct B as (B1 & B2 & B3 & B4). split; [split; [exact B1|split; [exact (Qcle_trans _ _ _ B2 B3)|exact B4]]|].
    unfold pr_interpolated. rewrite pr_fold. set (l := combine (combine (m_tp m) (m_fp m)) (m_fn m)). rewrite Rplus_0_l.
    assert (LL : length l = n) by (unfold l; rewrite !combine_length; lia).
    assert (NL : forall i, i < n -> nth i l (0, 0, 0)%Qc = (tp_at m i, fp_at m i, fn_at m i)) by (intros i I; unfold l; rewrite !combine_nth by (rewrite ?combine_length; lia); reflexivity).
    assert (G : forall r, In r l -> good_row P r).
    { intros r R. apply (In_nth _ _ (0, 0, 0)%Qc) in R. destruct R as (i & I & <-). rewrite LL in I. rewrite (NL i I). destruct (NN i I) as (N1 & N2 & N3 & N4).
      unfold good_row, r_tp, r_fp, r_fn. cbn [fst snd]. repeat split; try assumption. apply (S1 i I). }
    assert (FL : falling l).
    { assert (K : forall i, S i < length l -> ((r_tp (nth (S i) l (0, 0, 0)) <= r_tp (nth i l (0, 0, 0))) /\ (r_fp (nth (S i) l (0, 0, 0)) <= r_fp (nth i l (0, 0, 0))))%Qc).
      { intros i I. rewrite LL in I. rewrite !NL by lia. apply (S2 i (S i)). lia. }
      clear -K. revert K. induction l as [|a l IH]; intros K; [exact I|]. destruct l as [|b l]; [exact I|]. split; [apply (K 0); cbn; lia|]. apply IH. intros i J. apply (K (S i)). cbn [length] in *. lia. }
    destruct (Qc_eq_dec P 0%Qc) as [Z|Z].
    + rewrite (rsum_none P l Z G). split; [Lra.lra|]. intros _.
      assert (AU : forall s, area s (ratios (m_tp m) (m_fn m)) (ratios (m_tp m) (m_fp m)) = Fin 0%Qc).
      { intros s. apply area_undefined. apply (ratios_constant (m_tp m) (m_fn m) n P L1 L4).
        - intros i I. apply (S1 i I).
        - intros x X. apply (In_nth _ _ 0%Qc) in X. destruct X as (i & I & <-). apply (NN i). lia.
        - intros x X. apply (In_nth _ _ 0%Qc) in X. destruct X as (i & I & <-). apply (NN i). lia.
        - exact Z. }
      rewrite AU in E1, E3. injection E1 as <-. injection E3 as <-. rewrite Q2R_0_c. Lra.lra.
    + destruct n as [|n].
      { destruct l; [|discriminate LL]. cbn [rsum]. split; [Lra.lra|]. intros _. destruct (m_tp m); [|discriminate L1]. cbn in E1, E3. injection E1 as <-. injection E3 as <-. rewrite Q2R_0_c. Lra.lra. }
      assert (PP : (0 < P)%Qc).
      { destruct (Qc_pos_or_zero P) as [E|E]; [|contradiction|exact E]. rewrite <- (proj1 (S1 0 (Nat.lt_0_succ n))). destruct (NN 0 (Nat.lt_0_succ n)) as (N1 & _ & _ & N4). qc_lra. }
      destruct (rsum_bounds P l PP G FL) as (C1 & C2).
      assert (M1 : map (fun r => (r_tp r / P)%Qc) l = map (fun x => (x / P)%Qc) (m_tp m)).
      { apply (nth_ext _ _ (0 / P)%Qc (0 / P)%Qc); [rewrite !map_length; exact (eq_trans LL (eq_sym L1))|]. intros i I. rewrite map_length in I. assert (I' : i < S n) by (rewrite <- LL; exact I). clear I. rename I' into I.
        transitivity ((fun r : row => (r_tp r / P)%Qc) (nth i l (0, 0, 0)%Qc)); [exact (map_nth (fun r : row => (r_tp r / P)%Qc) l (0, 0, 0)%Qc i)|]. rewrite (NL i I).
        symmetry. exact (map_nth (fun x => (x / P)%Qc) (m_tp m) 0%Qc i). }
      assert (M2 : map r_precision l = ratios (m_tp m) (m_fp m)).
      { apply (nth_ext _ _ (r_precision (0, 0, 0)%Qc) NaN); [rewrite map_length, (ratios_length _ _ (S n)) by assumption; exact LL|]. intros i I. rewrite map_length in I. assert (I' : i < S n) by (rewrite <- LL; exact I). clear I. rename I' into I.
        transitivity (r_precision (nth i l (0, 0, 0)%Qc)); [exact (map_nth r_precision l (0, 0, 0)%Qc i)|]. rewrite (NL i I), (ratios_nth _ _ (S n)) by assumption. reflexivity. }
      destruct (ratios_constant (m_tp m) (m_fn m) (S n) P L1 L4) as (RC & _); [intros i I; apply (S1 i I)|].
      rewrite (RC Z), area_steps in E1, E3 by exact U. injection E1 as E1. injection E3 as E3. rewrite M1, M2, E1, E3 in C2. rewrite M1 in C1.
      assert (DS : descending (map (fun x => (x / P)%Qc) (m_tp m))) by (apply (scaled_descending _ (S n)); [exact L1|exact PP|]; intros i j I; apply (S2 i j I)).
      assert (B5 : (hd 0 (map (fun x => (x / P)%Qc) (m_tp m)) - last (map (fun x => (x / P)%Qc) (m_tp m)) 0 <= 1)%Qc).
      { apply hd_last_unit; [exact DS|]. intros x X. apply in_map_iff in X. destruct X as (y & <- & Y). apply (In_nth _ _ 0%Qc) in Y. destruct Y as (i & I & <-).
        rewrite L1 in I. destruct (NN i I) as (X1 & _ & _ & X2). pose proof (proj1 (S1 i I)) as XC. unfold tp_at, fn_at in *. split; [apply Qcdiv_nonneg; assumption|apply Qcdiv_le_1; [assumption|qc_lra|assumption]]. }
      apply Q2R_le_c in B5. rewrite Q2R_1_c in B5. split; [split; [apply C1|exact (Rle_trans _ _ _ (proj2 C1) B5)]|].
      intros H. apply C2. intros r R. apply (In_nth _ _ (0, 0, 0)%Qc) in R. destruct R as (i & I & <-). rewrite LL in I. rewrite (NL i I). apply (H i I).
Qed.

Lemma C98_auc_thresholds_refuted_pf :
  (forall ts, ts <> [] -> num_eqb (hd NaN ts) (Fin (- epsilon)%Qc) = false -> used_thresholds None (Some ts) = Ok ts) /\
  (forall k ts, ts <> [] -> k <> 0%Z -> Z.of_nat (length ts) <> (k - 2)%Z -> used_thresholds (Some k) (Some ts) = Err ValueError) /\
  (forall k ts, In k [200; 10000]%Z -> Z.of_nat (length ts) = (k - 2)%Z -> used_thresholds (Some k) (Some ts) = Ok (interpolated_thresholds k)) /\
  (forall cls k t, t <> 0%Z -> default_settings None (Some (RawKey cls k (Some t))) None None = Some [NegInf] /\ used_thresholds None (Some [NegInf]) = Ok [NegInf]) /\
  (forall c s t tp tn fp fn, auc c s (Matrices [t] [tp] [tn] [fp] [fn]) = Exact (Fin 0%Qc) \/ auc c s (Matrices [t] [tp] [tn] [fp] [fn]) = Interpolated 0).
Proof.
  assert (K : forall ts, ts <> [] -> num_eqb (hd NaN ts) (Fin (- epsilon)%Qc) = false -> used_thresholds None (Some ts) = Ok ts).
  { intros ts N H. unfold used_thresholds. destruct ts as [|t ts]; [congruence|].
    replace (thresholds_eqb (t :: ts) (interpolated_thresholds (Z.of_nat (length (t :: ts))))) with false; [reflexivity|].
    symmetry. unfold thresholds_eqb. cbn [hd] in H. unfold interpolated_thresholds. cbn [app combine forallb fst snd]. rewrite H. apply andb_false_r. }
  split; [exact K|]. split; [|split; [|split]].
  - intros k ts N Z L. unfold used_thresholds. destruct ts as [|t ts]; [congruence|]. rewrite (proj2 (Z.eqb_neq _ _) Z). cbn [andb].
    rewrite (proj2 (Z.eqb_neq _ _) L). rewrite andb_false_r. reflexivity.
  - intros k ts I L. unfold used_thresholds. destruct ts as [|t ts]; [cbn in L, I; lia|].
    assert (Z : k <> 0%Z) by (cbn in I; lia). rewrite (proj2 (Z.eqb_neq _ _) Z). cbn [andb]. rewrite (proj2 (Z.eqb_eq _ _) L).
    assert (E : ((k =? 10000) || (k =? 200))%Z = true) by (destruct I as [<-|[<-|[]]]; reflexivity). rewrite E. cbn [andb].
    destruct (k <=? 1)%Z eqn:W; [apply Z.leb_le in W; cbn in I; lia|reflexivity].
  - intros cls k t T. split; [|apply K; [discriminate|reflexivity]]. cbn. rewrite (proj2 (Z.eqb_neq _ _) T). reflexivity.
  - intros [|] [| |] t tp tn fp fn; try (left; reflexivity). right. reflexivity.
Qed.

Lemma C98_interpolated_thresholds_partial_pf : forall k, (2 <= k)%Z ->
  exists ts, used_thresholds (Some k) None = Ok ts /\ used_thresholds None (Some ts) = Ok ts /\
    Z.of_nat (length ts) = k /\ ascending_thresholds ts /\ NoDup ts /\
    (forall p, (0 <= p /\ p <= 1)%Qc -> num_ltb (nth 0 ts NaN) (Fin p) = true /\ num_ltb (last ts NaN) (Fin p) = false) /\
    (forall i, (0 < Z.of_nat i < k - 1)%Z -> exists q, nth i ts NaN = Fin q /\ (q * qz (k - 1) = qz (Z.of_nat i))%Qc).
Proof.
  intros k K. exists (interpolated_thresholds k).
  set (ts := interpolated_thresholds k).
  assert (KP : (0 < qz (k - 1))%Qc) by (apply (proj1 (qz_lt 0 _)); lia). assert (KN : qz (k - 1) <> 0%Qc) by (apply Qclt_neq0; exact KP).
  assert (EP : (0 < epsilon)%Qc) by reflexivity.
  assert (LEN : Z.of_nat (length ts) = k) by (unfold ts, interpolated_thresholds; rewrite !app_length, map_length, seq_length; cbn [length]; lia).
  set (q := fun i : nat => if Nat.eqb i 0 then (- epsilon)%Qc else if Nat.eqb i (Z.to_nat (k - 1)) then (1 + epsilon)%Qc else (qz (Z.of_nat i) / qz (k - 1))%Qc).
  assert (NT : forall i, i < length ts -> nth i ts NaN = Fin (q i)).
  { intros i I. unfold ts, interpolated_thresholds, q. destruct i as [|i]; [reflexivity|]. change (Nat.eqb (S i) 0) with false. cbn [app nth].
    destruct (Nat.eqb (S i) (Z.to_nat (k - 1))) eqn:E.
    - apply Nat.eqb_eq in E. rewrite app_nth2 by (rewrite map_length, seq_length; lia). rewrite map_length, seq_length. replace (i - Z.to_nat (k - 2)) with 0 by lia. reflexivity.
    - apply Nat.eqb_neq in E. rewrite app_nth1 by (rewrite map_length, seq_length; lia).
      rewrite (nth_indep _ NaN (Fin (qz (Z.of_nat 0 + 1) * 1 / qz (k - 1))%Qc)) by (rewrite map_length, seq_length; lia).
      rewrite (map_nth (fun i => Fin (qz (Z.of_nat i + 1) * 1 / qz (k - 1))%Qc)). rewrite seq_nth by lia. f_equal. replace (Z.of_nat (0 + i) + 1)%Z with (Z.of_nat (S i)) by lia. field. exact KN. }
  assert (INC : forall i j, i < j < length ts -> (q i < q j)%Qc).
  { assert (MID : forall i, 0 < i -> i < Z.to_nat (k - 1) -> (0 < qz (Z.of_nat i) / qz (k - 1) /\ qz (Z.of_nat i) / qz (k - 1) <= 1)%Qc).
    { intros i I J. assert (P0 : (0 < qz (Z.of_nat i))%Qc) by (apply (proj1 (qz_lt 0 _)); lia). split.
      - destruct (Qc_pos_or_zero (qz (Z.of_nat i) / qz (k - 1))%Qc) as [Z|Z]; [apply Qcdiv_nonneg; [apply Qclt_le_weak; exact P0|exact KP]| |exact Z].
        exfalso. apply (Qclt_neq0 _ P0). replace (qz (Z.of_nat i)) with (qz (Z.of_nat i) / qz (k - 1) * qz (k - 1))%Qc by (field; exact KN). rewrite Z. ring.
      - apply Qcdiv_le_1; [apply Qclt_le_weak; exact P0|apply (proj1 (qz_le _ _)); lia|exact KP]. }
    intros i j IJ. unfold q. destruct j as [|j]; [lia|]. change (Nat.eqb (S j) 0) with false. destruct i as [|i]; [change (Nat.eqb 0 0) with true|change (Nat.eqb (S i) 0) with false]; cbv iota.
    - destruct (Nat.eqb (S j) (Z.to_nat (k - 1))) eqn:E; [unfold epsilon; reflexivity|]. apply Nat.eqb_neq in E. destruct (MID (S j)) as [M _]; [lia|lia|]. set (z := (qz (Z.of_nat (S j)) / qz (k - 1))%Qc) in *. clearbody z. set (e := epsilon) in *. clearbody e. qc_lra.
    - destruct (Nat.eqb (S i) (Z.to_nat (k - 1))) eqn:E1; [apply Nat.eqb_eq in E1; lia|]. apply Nat.eqb_neq in E1. destruct (MID (S i)) as [M1 M2]; [lia|lia|].
      destruct (Nat.eqb (S j) (Z.to_nat (k - 1))) eqn:E2.
      + set (z := (qz (Z.of_nat (S i)) / qz (k - 1))%Qc) in *. clearbody z. set (e := epsilon) in *. clearbody e. qc_lra.
      + assert (L : (qz (Z.of_nat (S i)) < qz (Z.of_nat (S j)))%Qc) by (apply (proj1 (qz_lt _ _)); lia).
        assert (LE : (qz (Z.of_nat (S i)) / qz (k - 1) <= qz (Z.of_nat (S j)) / qz (k - 1))%Qc) by (apply Qcdiv_le_compat; [apply Qclt_le_weak; exact L|exact KP]).
        apply Qcle_lt_or_eq in LE. destruct LE as [LE|LE]; [exact LE|]. exfalso. revert L. apply Qcle_not_lt. replace (qz (Z.of_nat (S i))) with (qz (Z.of_nat (S i)) / qz (k - 1) * qz (k - 1))%Qc by (field; exact KN). rewrite LE.
        replace (qz (Z.of_nat (S j)) / qz (k - 1) * qz (k - 1))%Qc with (qz (Z.of_nat (S j))) by (field; exact KN). apply Qcle_refl. }
  assert (REF : thresholds_eqb ts ts = true).
  { unfold thresholds_eqb. rewrite Nat.eqb_refl. cbn [andb]. apply forallb_forall. intros [x y] H. apply (In_nth _ _ (NaN, NaN)) in H. destruct H as (i & I & H).
    rewrite combine_nth in H by reflexivity. rewrite combine_length in I. rewrite NT in H by lia. injection H as <- <-. cbn. apply Qc_eqb_eq. reflexivity. }
  split; [unfold used_thresholds; destruct (k <=? 1)%Z eqn:E; [apply Z.leb_le in E; lia|reflexivity]|].
  split.
  { unfold used_thresholds. destruct ts as [|t0 r] eqn:ET; [cbn in LEN; lia|]. rewrite <- ET in *. cbn [andb]. rewrite LEN. fold ts. rewrite REF.
    destruct (k <=? 1)%Z eqn:E; [apply Z.leb_le in E; lia|]. fold ts. reflexivity. }
  split; [exact LEN|].
  split; [intros i j [I J]; rewrite !NT by lia; cbn; apply Qc_leb_le; destruct (Nat.eq_dec i j) as [->|NE]; [apply Qcle_refl|apply Qclt_le_weak, INC; lia]|].
  split.
  { apply (NoDup_nth ts NaN). intros i j I J E. rewrite !NT in E by assumption. injection E as E. destruct (Nat.lt_trichotomy i j) as [H|[H|H]]; [|exact H|]; exfalso.
    - pose proof (INC i j (conj H J)) as X. rewrite E in X. revert X. apply Qcle_not_lt, Qcle_refl.
    - pose proof (INC j i (conj H I)) as X. rewrite E in X. revert X. apply Qcle_not_lt, Qcle_refl. }
  split.
  - intros p P. split.
    + rewrite NT by lia. unfold q. cbn [Nat.eqb num_ltb]. apply Qc_ltb_lt. set (e := epsilon) in *. clearbody e. qc_lra.
    + assert (EL : last ts NaN = Fin (1 + epsilon)%Qc) by (unfold ts, interpolated_thresholds; rewrite app_assoc; apply last_last). rewrite EL. cbn. destruct (Qc_ltb (1 + epsilon)%Qc p) eqn:E; [|reflexivity]. exfalso. set (e := epsilon) in *. clearbody e. qc_lra.
  - intros i I. exists (q i). split; [apply NT; lia|]. unfold q. destruct i as [|i]; [lia|]. change (Nat.eqb (S i) 0) with false. cbv iota. destruct (Nat.eqb (S i) (Z.to_nat (k - 1))) eqn:E; [apply Nat.eqb_eq in E; lia|]. field. exact KN.
Qed.

(** Combining the sub key of the spec with the settings of the metric gives a valid sub key
    or an error. *)

Definition valid_key (r : raw_key) : Prop :=
  (r_k r <> None -> r_top_k r = None /\ r_class_id r = None) /\
  (forall z, r_k r = Some z \/ r_top_k r = Some z -> (1 <= z)%Z).

Lemma C100_sub_key_refuted_pf :
  (forall k c, (1 <= k)%Z -> exists s r, new_sub_key None (Some k) None = Ok s /\ update_sub_key (Some s) None (Some c) = Ok (Some r) /\ ~ valid_key r) /\
  (forall t, (t < 1)%Z -> exists r, update_sub_key None (Some t) None = Ok (Some r) /\ ~ valid_key r).
Proof.
  split.
  - intros k c K. unfold new_sub_key, mk_sub_key. destruct (Z.ltb k 1) eqn:E; [apply Z.ltb_lt in E; lia|].
    eexists; eexists. split; [reflexivity|]. split; [reflexivity|]. intros [V _]. cbn in V. destruct V as [_ V]; discriminate.
  - intros t T. eexists. split; [reflexivity|]. intros [_ V]. specialize (V t (or_intror eq_refl)). lia.
Qed.

Lemma C100_sub_key_partial_pf : forall s top_k class_id,
  (match s with Some s => valid_key s /\ r_k s = None | None => True end) -> (forall t, top_k = Some t -> (1 <= t)%Z) ->
  (exists s0, s = Some s0 /\ ((r_top_k s0 <> None /\ top_k <> None) \/ (r_class_id s0 <> None /\ class_id <> None)) /\ update_sub_key s top_k class_id = Err ValueError) \/
  (exists r, update_sub_key s top_k class_id = Ok r /\
     (r = None <-> s = None /\ top_k = None /\ class_id = None) /\
     (forall r0, r = Some r0 -> valid_key r0 /\ r_k r0 = None /\
        (forall t, r_top_k r0 = Some t <-> top_k = Some t \/ exists s0, s = Some s0 /\ r_top_k s0 = Some t) /\
        (forall c, r_class_id r0 = Some c <-> class_id = Some c \/ exists s0, s = Some s0 /\ r_class_id s0 = Some c))).
Proof.
  intros s top_k class_id V T.
  destruct s as [[c k t]|].
  - destruct V as [[_ V] K]. cbn in K. subst k. cbn in V.
    destruct t as [t|], top_k as [t'|], c as [c|], class_id as [c'|]; cbn [update_sub_key r_top_k r_class_id r_k bind];
      try (left; eexists; split; [reflexivity|]; split; [|reflexivity]; cbn; first [left; split; discriminate | right; split; discriminate]);
      (right; eexists; split; [reflexivity|]; split; [split; [discriminate|intros (H & _); discriminate]|]; intros r0 H; injection H as <-; cbn;
       split; [split; [intros H; exfalso; apply H; reflexivity|cbn; intros z [H|H]; [discriminate|]; first [apply V; right; exact H | apply T; exact H | discriminate]]|];
       split; [reflexivity|]; split; intros x; (split; [intros H; first [discriminate | left; exact H | right; eexists; split; [reflexivity|exact H]]|
         intros [H|(s0 & H & H')]; [first [discriminate | exact H]|injection H as <-; cbn in H'; first [discriminate | exact H']]])).
  - destruct top_k as [t'|], class_id as [c'|]; cbn [update_sub_key r_top_k r_class_id r_k bind];
      (right; eexists; split; [reflexivity|]; split; [split; [intros H; first [discriminate | repeat split; reflexivity]|intros (_ & H & H'); first [discriminate | reflexivity]]|]; intros r0 H; first [discriminate|injection H as <-; cbn;
       split; [split; [intros H; exfalso; apply H; reflexivity|cbn; intros z [H|H]; [discriminate|]; first [apply T; exact H | discriminate]]|];
       split; [reflexivity|]; split; intros x; (split; [intros H; first [discriminate | left; exact H]|
         intros [H|(s0 & H & H')]; [first [discriminate | exact H]|discriminate]])]).
Qed.
