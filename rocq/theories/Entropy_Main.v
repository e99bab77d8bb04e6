(* Proofs of the theorems restated in Entropy_Properties.v. *)
From Coq Require Import String Ascii Reals Qreals.
From Verif Require Import Base BaseFacts RealFacts Beam BeamFacts Util_Model Util_Main Inputs_Model Inputs_Main Sums_Model Sums_Main Histogram_Model Confusion_Model Means_Model Means_Main Entropy_Model.
Local Open Scope string_scope.
Local Open Scope list_scope.

(* C141 - C146: cross entropy, squared logarithmic error, cosine similarity. *)

Lemma x_plus_assoc a b c : x_plus a (x_plus b c) = x_plus (x_plus a b) c.
Proof. destruct a, b, c; cbn [x_plus]; try reflexivity. f_equal. Lra.lra. Qed.

Lemma x_plus_comm a b : x_plus a b = x_plus b a.
Proof. destruct a, b; cbn [x_plus]; try reflexivity. f_equal. Lra.lra. Qed.

Lemma x_plus_0 a : x_plus a (XFin 0) = a.
Proof. destruct a; cbn [x_plus]; try reflexivity. f_equal. Lra.lra. Qed.

Lemma xtotal_assoc a b c : xtotal_plus a (xtotal_plus b c) = xtotal_plus (xtotal_plus a b) c.
Proof. unfold xtotal_plus; cbn [xt_weight xt_value]. f_equal; [ring|apply x_plus_assoc]. Qed.

Lemma xtotal_comm a b : xtotal_plus a b = xtotal_plus b a.
Proof. unfold xtotal_plus. f_equal; [ring|apply x_plus_comm]. Qed.

Lemma xtotal_e a : xtotal_plus a xtotal_zero = a.
Proof. destruct a as [w v]; unfold xtotal_plus, xtotal_zero; cbn [xt_weight xt_value]. f_equal; [ring|apply x_plus_0]. Qed.

Definition Rsum (l : list R) : R := fold_right Rplus 0%R l.

Lemma x_sum_fin l : x_sum (map XFin l) = XFin (Rsum l).
Proof. induction l as [|x l IH]; [reflexivity|]. unfold x_sum, Rsum in *. cbn [map fold_right]. rewrite IH. reflexivity. Qed.

Lemma x_div_fin a b : b <> 0%R -> x_div (XFin a) (XFin b) = XFin (a / b)%R.
Proof. intros H. cbn [x_div]. destruct (Req_EM_T b 0); [contradiction|reflexivity]. Qed.

Lemma Rsum_app l m : Rsum (l ++ m) = (Rsum l + Rsum m)%R.
Proof. unfold Rsum. induction l; cbn [app fold_right]; [Lra.lra|]. rewrite IHl. Lra.lra. Qed.

Lemma Rsum_scale {A} (f : A -> R) c l : Rsum (map (fun x => c * f x) l)%R = (c * Rsum (map f l))%R.
Proof. unfold Rsum. induction l; cbn [map fold_right]; [Lra.lra|]. rewrite IHl. Lra.lra. Qed.

Lemma Rsum_le {A} (f g : A -> R) l : (forall x, In x l -> (f x <= g x)%R) -> (Rsum (map f l) <= Rsum (map g l))%R.
Proof.
  unfold Rsum. induction l as [|x l IH]; intros H; cbn [map fold_right]; [Lra.lra|].
  pose proof (H x (or_introl eq_refl)). specialize (IH (fun y I => H y (or_intror I))). Lra.lra.
Qed.

Lemma Rsum_ext {A} (f g : A -> R) l : (forall x, In x l -> f x = g x) -> Rsum (map f l) = Rsum (map g l).
Proof. intros H. f_equal. apply map_ext_in. exact H. Qed.

Lemma Rsum_minus {A} (f g : A -> R) l : Rsum (map (fun x => f x - g x) l)%R = (Rsum (map f l) - Rsum (map g l))%R.
Proof. unfold Rsum. induction l; cbn [map fold_right]; [Lra.lra|]. rewrite IHl. Lra.lra. Qed.

Lemma Rsum_nonneg l : (forall x, In x l -> (0 <= x)%R) -> (0 <= Rsum l)%R.
Proof.
  unfold Rsum. induction l as [|x l IH]; intros H; cbn [fold_right]; [Lra.lra|].
  pose proof (H x (or_introl eq_refl)). specialize (IH (fun y I => H y (or_intror I))). Lra.lra.
Qed.

Lemma Rsum_pos l : l <> [] -> (forall x, In x l -> (0 < x)%R) -> (0 < Rsum l)%R.
Proof.
  destruct l as [|x l]; [congruence|]. intros _ H. unfold Rsum. cbn [fold_right].
  pose proof (H x (or_introl eq_refl)). assert (0 <= Rsum l)%R by (apply Rsum_nonneg; intros y Y; left; apply H; right; exact Y).
  unfold Rsum in *. Lra.lra.
Qed.

Lemma broadcast_same {A B C} (f : A -> B -> C) x y : length x = length y ->
  broadcast f x y = Ok (map (fun ab => f (fst ab) (snd ab)) (combine x y)).
Proof. intros H. unfold broadcast. rewrite H, Nat.eqb_refl. reflexivity. Qed.

Lemma combine_map_both {A B C D} (f : A -> C) (g : B -> D) l : forall m,
  combine (map f l) (map g m) = map (fun ab => (f (fst ab), g (snd ab))) (combine l m).
Proof. induction l as [|x l IH]; intros [|y m]; cbn [map combine]; try reflexivity. f_equal. apply IH. Qed.

(** The cross entropy of a label y relative to a predicted probability p, and the
    logistic function. *)

Definition bce (y p : R) : R := (- (y * ln p) - (1 - y) * ln (1 - p))%R.

Definition sigmoid (x : R) : R := (/ (1 + exp (- x)))%R.

Lemma sigmoid_range x : (0 < sigmoid x < 1)%R.
Proof.
  unfold sigmoid. pose proof (exp_pos (- x)). split; [apply Rinv_0_lt_compat; Lra.lra|].
  apply (Rmult_lt_reg_r (1 + exp (-x))); [Lra.lra|]. rewrite Rinv_l by Lra.lra. Lra.lra.
Qed.

Lemma ln_sigmoid x : ln (sigmoid x) = (- ln (1 + exp (- x)))%R.
Proof. unfold sigmoid. apply ln_Rinv. pose proof (exp_pos (- x)). Lra.lra. Qed.

Lemma one_minus_sigmoid x : (1 - sigmoid x)%R = sigmoid (- x).
Proof.
  unfold sigmoid. rewrite Ropp_involutive, exp_Ropp. pose proof (exp_pos x). field. split; Lra.lra.
Qed.

Lemma bce_logits_fin y x : bce_logits y (Fin x) = XFin (bce (Q2R y) (sigmoid (Q2R x))).
Proof.
  unfold bce_logits, x_qc. cbn [of_num x_max0 x_mult x_abs x_opp x_exp x_plus x_minus x_log].
  set (X := Q2R x). set (Y := Q2R y).
  assert (P : (0 < 1 + exp (- Rabs X))%R) by (pose proof (exp_pos (- Rabs X)); Lra.lra).
  destruct (Rlt_dec 0 (1 + exp (- Rabs X))); [|contradiction]. cbn [x_plus]. f_equal.
  unfold bce. rewrite one_minus_sigmoid, !ln_sigmoid, Ropp_involutive.
  assert (E : ln (1 + exp X) = (X + ln (1 + exp (- X)))%R).
  { pose proof (exp_pos X). pose proof (exp_pos (- X)).
    transitivity (ln (exp X * (1 + exp (- X)))); [f_equal; rewrite Rmult_plus_distr_l, <- exp_plus, Rplus_opp_r, exp_0; Lra.lra|].
    rewrite ln_mult by Lra.lra. rewrite ln_exp. reflexivity. }
  destruct (Rle_dec 0 X) as [L|L].
  - rewrite Rabs_pos_eq, Rmax_left by Lra.lra. rewrite E. Lra.lra.
  - rewrite Rabs_left, Rmax_right, Ropp_involutive by Lra.lra. rewrite E. Lra.lra.
Qed.

Lemma bce_probability_fin y p : (0 < p < 1)%Qc -> bce_probability y (Fin p) = XFin (bce (Q2R y) (Q2R p)).
Proof.
  intros (P0 & P1). apply Q2R_lt_c in P0, P1. rewrite Q2R_0_c in P0. rewrite Q2R_1_c in P1.
  unfold bce_probability, x_qc, x_minus. cbn [of_num x_opp x_plus x_log].
  destruct (Rlt_dec 0 (Q2R p)); [|Lra.lra]. destruct (Rlt_dec 0 (1 + - Q2R p)); [|Lra.lra].
  cbn [x_mult x_opp x_plus]. f_equal. unfold bce. rewrite Q2R_minus_c, Q2R_1_c.
  replace (1 + - Q2R p)%R with (1 - Q2R p)%R by Lra.lra. Lra.lra.
Qed.

(** The mean over the classes of the cross entropies of the smoothed labels; for
    logits the prediction is the logistic function of the logit. *)

Definition smoothed (s y : R) : R := (y * (1 - s) + s / 2)%R.

Lemma C141_binary_cross_entropy_pf :
  forall (from_logits : bool) smoothing labels preds,
    length labels = length preds -> preds <> [] ->
    (from_logits = false -> forall p, In p preds -> (0 < p < 1)%Qc) ->
    binary_cross_entropy from_logits smoothing labels (map Fin preds) =
    Ok (XFin (Rsum (map (fun yp : Qc * Qc => bce (smoothed (Q2R smoothing) (Q2R (fst yp)))
                                       (if from_logits then sigmoid (Q2R (snd yp)) else Q2R (snd yp)))
                        (combine labels preds)) / INR (length preds))%R).
Proof.
  intros fl sm ls ps L N H. unfold binary_cross_entropy.
  rewrite broadcast_same by (rewrite !map_length; exact L). cbn [bind]. f_equal.
  rewrite combine_map_both, map_map. cbn [fst snd]. unfold x_mean. rewrite map_length, combine_length, L, Nat.min_id.
  replace (map _ (combine ls ps)) with (map XFin (map (fun yp : Qc * Qc => bce (smoothed (Q2R sm) (Q2R (fst yp))) (if fl then sigmoid (Q2R (snd yp)) else Q2R (snd yp))) (combine ls ps))).
  - rewrite x_sum_fin, x_div_fin; [reflexivity|]. apply not_0_INR. destruct ps; [congruence|discriminate].
  - rewrite map_map. apply map_ext_in. intros [y p] I. cbn [fst snd].
    assert (E : Q2R (smooth_binary sm y) = smoothed (Q2R sm) (Q2R y)).
    { unfold smooth_binary, smoothed. rewrite Q2R_plus_c, !Q2R_mult_c, Q2R_minus_c, Q2R_1_c, Q2R_Q2Qc.
      replace (Q2R (1 # 2)) with (/ 2)%R by (unfold Q2R; cbn; Lra.lra). Lra.lra. }
    destruct fl.
    + rewrite bce_logits_fin, E. reflexivity.
    + rewrite bce_probability_fin, E; [reflexivity|]. apply (H eq_refl). apply in_combine_r in I. exact I.
Qed.

(** It is not negative for labels in [0,1], and smallest when the predicted
    probability is the label. *)

Lemma ln_neg p : (0 < p <= 1)%R -> (ln p <= 0)%R.
Proof. intros (A & B). rewrite <- ln_1. destruct B as [B| ->]; [left; apply ln_increasing; auto|right; reflexivity]. Qed.

Lemma gibbs y p : (0 < y)%R -> (0 < p)%R -> (y * ln p <= y * ln y + (p - y))%R.
Proof.
  intros Y P. pose proof (ln_le_minus_1 (p / y) ltac:(apply Rdiv_lt_0_compat; auto)) as H.
  unfold Rdiv in H. rewrite ln_mult, ln_Rinv in H by (auto; apply Rinv_0_lt_compat; auto).
  apply (Rmult_le_compat_l y) in H; [|Lra.lra]. rewrite !Rmult_minus_distr_l in H.
  replace (y * (p * / y))%R with p in H by (field; Lra.lra). Lra.lra.
Qed.

Lemma C141_least_at_label_pf :
  forall y p, (0 < p < 1)%R ->
    ((0 <= y <= 1)%R -> (0 <= bce y p)%R) /\ ((0 < y < 1)%R -> (bce y y <= bce y p)%R) /\
    (y = 1%R -> forall q, (0 < q <= p)%R -> (bce y p <= bce y q)%R).
Proof.
  intros y p P. split; [|split].
  - intros Y. unfold bce. pose proof (ln_neg p ltac:(Lra.lra)). pose proof (ln_neg (1 - p) ltac:(Lra.lra)). Lra.nra.
  - intros Y. unfold bce. pose proof (gibbs y p ltac:(Lra.lra) ltac:(Lra.lra)).
    pose proof (gibbs (1 - y) (1 - p) ltac:(Lra.lra) ltac:(Lra.lra)). Lra.lra.
  - intros -> q Q. unfold bce. assert (ln q <= ln p)%R by (destruct Q as (Q0 & [Q1| ->]); [left; apply ln_increasing; Lra.lra|Lra.lra]). Lra.nra.
Qed.

Lemma C141_perfect_prediction_refuted_pf :
  exists y, (y = 1%Qc \/ y = 0%Qc) /\ binary_cross_entropy false 0%Qc [y] [Fin y] = Ok XNaN.
Proof.
  exists 1%Qc. split; [auto|]. unfold binary_cross_entropy. cbn [map broadcast length Nat.eqb combine fst snd bind].
  unfold bce_probability. cbn [of_num]. unfold x_minus. cbn [x_opp x_plus x_log]. rewrite Q2R_1_c.
  destruct (Rlt_dec 0 1); [|Lra.lra]. destruct (Rlt_dec 0 (1 + - (1))); [Lra.lra|]. destruct (Rlt_dec (1 + - (1)) 0); [Lra.lra|].
  unfold x_qc. replace (1 - smooth_binary 0 1)%Qc with 0%Qc by (unfold smooth_binary; ring).
  rewrite Q2R_0_c. cbn [x_mult]. unfold x_signed. destruct (Rlt_dec 0 0); [Lra.lra|]. destruct (Rlt_dec 0 0); [Lra.lra|].
  reflexivity.
Qed.

(** Cross entropy of a distribution q relative to y; the share of each prediction;
    smoothing over n classes. *)

Definition cross_entropy (yq : list (R * R)) : R := (- Rsum (map (fun t => fst t * ln (snd t))%R yq))%R.

Definition shares (f : R -> R) (preds : list R) : list R := map (fun p => f p / Rsum (map f preds))%R preds.

Definition smoothed_class (s : R) (n : nat) (y : R) : R := (y * (1 - s) + s / INR n)%R.

Definition likelihood (from_logits : bool) : R -> R := if from_logits then exp else fun p => p.

Definition reals (l : list Qc) : list R := map (fun q : Qc => Q2R q) l.

Lemma distribution_fin fl preds : preds <> [] -> (fl = false -> forall p, In p preds -> (0 < p)%Qc) ->
  distribution fl (map Fin preds) = map XFin (shares (likelihood fl) (reals preds)) /\
  forall q, In q (shares (likelihood fl) (reals preds)) -> (0 < q)%R.
Proof.
  intros N H.
  assert (POS : (0 < Rsum (map (likelihood fl) (reals preds)))%R).
  { apply Rsum_pos; [destruct preds; [congruence|discriminate]|]. intros x Hx. unfold reals in Hx. rewrite map_map in Hx. apply in_map_iff in Hx.
    destruct Hx as (q & <- & Hq). destruct fl; cbn [likelihood]; [apply exp_pos|apply Q2R_pos, H; auto]. }
  split.
  - unfold distribution. cbv zeta. rewrite (map_map Fin).
    assert (E : map (fun x : Qc => if fl then x_exp (of_num (Fin x)) else of_num (Fin x)) preds = map XFin (map (likelihood fl) (reals preds))).
    { unfold reals. rewrite !map_map. apply map_ext. intros q. destruct fl; reflexivity. }
    rewrite E, x_sum_fin. unfold shares. rewrite !map_map. apply map_ext. intros q. rewrite x_div_fin by Lra.lra. reflexivity.
  - intros q Hq. unfold shares, reals in Hq. rewrite map_map in Hq. apply in_map_iff in Hq. destruct Hq as (p & <- & Hp). apply Rdiv_lt_0_compat; auto.
    destruct fl; cbn [likelihood]; [apply exp_pos|apply Q2R_pos, H; auto].
Qed.

Lemma C142_categorical_cross_entropy_pf :
  forall (from_logits : bool) smoothing labels preds,
    length labels = length preds -> preds <> [] ->
    (from_logits = false -> forall p, In p preds -> (0 < p)%Qc) ->
    categorical_cross_entropy from_logits smoothing labels (map Fin preds) =
    Ok (XFin (cross_entropy (combine (map (smoothed_class (Q2R smoothing) (length preds)) (reals labels))
                                     (shares (likelihood from_logits) (reals preds))))).
Proof.
  intros fl sm ls ps L N H. unfold categorical_cross_entropy.
  destruct (distribution_fin fl ps N H) as (D & POS).
  rewrite map_length. destruct (Nat.eqb (length ps) 0) eqn:Z; [apply Nat.eqb_eq in Z; destruct ps; [congruence|discriminate]|].
  rewrite D. rewrite broadcast_same by (rewrite !map_length; unfold shares, reals; rewrite !map_length; exact L).
  cbn [bind]. do 2 f_equal. unfold cross_entropy. f_equal. unfold Rsum. f_equal.
  rewrite combine_map_both, map_map. cbn [fst snd].
  assert (G : forall (ys : list Qc) qs, (forall q, In q qs -> (0 < q)%R) ->
     map (fun x : Qc * R => match ma_log (XFin (snd x)) with Some l => (Q2R (smooth_categorical sm (length ps) (fst x)) * l)%R | None => 0%R end) (combine ys qs) =
     map (fun t : R * R => (fst t * ln (snd t))%R) (combine (map (smoothed_class (Q2R sm) (length ps)) (reals ys)) qs)).
  { apply Nat.eqb_neq in Z. revert Z. clear. intros Z. unfold reals. induction ys as [|y ys IH]; intros [|q qs] P; cbn [map combine]; try reflexivity.
    f_equal; [|apply IH; intros; apply P; right; auto]. cbn [fst snd ma_log].
    destruct (Rlt_dec 0 q) as [|C]; [|destruct C; apply P; left; auto]. f_equal.
    unfold smooth_categorical, smoothed_class. rewrite Q2R_plus_c, Q2R_mult_c, Q2R_minus_c, Q2R_1_c.
    rewrite Q2R_div_c.
    - unfold qn. rewrite Q2R_qz, <- INR_IZR_INZ. reflexivity.
    - unfold qn. intros E. change 0%Qc with (qz 0) in E. apply qz_inj in E. lia. }
  apply G. exact POS.
Qed.

(** Positive predictions are taken relative to their sum, logits up to a constant. *)

Lemma shares_scale (f g : R -> R) c l : (forall x, f (g x) = (c * f x)%R) -> (0 < c)%R -> (0 < Rsum (map f l))%R ->
  shares f (map g l) = shares f l.
Proof.
  intros H C P. unfold shares. rewrite map_map.
  assert (E : Rsum (map f (map g l)) = (c * Rsum (map f l))%R).
  { rewrite map_map, <- Rsum_scale. apply Rsum_ext. intros x _. apply H. }
  rewrite E. apply map_ext. intros x. rewrite H. field. split; Lra.lra.
Qed.

Lemma likelihood_pos fl ps : ps <> [] -> (fl = false -> forall p, In p ps -> (0 < p)%Qc) -> (0 < Rsum (map (likelihood fl) (reals ps)))%R.
Proof.
  intros N H. apply Rsum_pos; [destruct ps; [congruence|discriminate]|]. intros x Hx. unfold reals in Hx. rewrite map_map in Hx.
  apply in_map_iff in Hx. destruct Hx as (q & <- & Hq). destruct fl; cbn [likelihood]; [apply exp_pos|apply Q2R_pos, H; auto].
Qed.

Lemma C142_scale_of_predictions_pf :
  forall smoothing labels preds c, length labels = length preds -> preds <> [] ->
    (0 < c)%Qc -> (forall p, In p preds -> (0 < p)%Qc) ->
    categorical_cross_entropy false smoothing labels (map (fun p => Fin (c * p)%Qc) preds) =
    categorical_cross_entropy false smoothing labels (map Fin preds).
Proof.
  intros sm ls ps c L N C P. rewrite <- (map_map (fun p => (c * p)%Qc) Fin).
  rewrite !C142_categorical_cross_entropy_pf; auto.
  - rewrite map_length. do 4 f_equal.
    replace (reals (map (fun p => (c * p)%Qc) ps)) with (map (fun x => (Q2R c * x)%R) (reals ps)).
    2:{ unfold reals. rewrite !map_map. apply map_ext. intros q. symmetry. apply Q2R_mult_c. }
    apply (shares_scale _ _ (Q2R c)); [reflexivity|apply Q2R_pos, C|apply (likelihood_pos false); auto].
  - rewrite map_length. exact L.
  - destruct ps; [congruence|discriminate].
  - intros _ p Hp. apply in_map_iff in Hp. destruct Hp as (q & <- & Hq). apply Q2R_lt_c. rewrite Q2R_0_c, Q2R_mult_c.
    apply Rmult_lt_0_compat; apply Q2R_pos; auto.
Qed.

Lemma C142_shift_of_logits_pf :
  forall smoothing labels preds c, length labels = length preds -> preds <> [] ->
    categorical_cross_entropy true smoothing labels (map (fun p => Fin (c + p)%Qc) preds) =
    categorical_cross_entropy true smoothing labels (map Fin preds).
Proof.
  intros sm ls ps c L N. rewrite <- (map_map (fun p => (c + p)%Qc) Fin).
  rewrite !C142_categorical_cross_entropy_pf; auto; try discriminate.
  - rewrite map_length. do 4 f_equal.
    replace (reals (map (fun p => (c + p)%Qc) ps)) with (map (fun x => (Q2R c + x)%R) (reals ps)).
    2:{ unfold reals. rewrite !map_map. apply map_ext. intros q. symmetry. apply Q2R_plus_c. }
    apply (shares_scale _ _ (exp (Q2R c))); [intros x; apply exp_plus|apply exp_pos|apply (likelihood_pos true); auto; discriminate].
  - rewrite map_length. exact L.
  - destruct ps; [congruence|discriminate].
Qed.

Lemma C142_least_at_label_pf :
  forall yq, (forall y q, In (y, q) yq -> (0 < y)%R /\ (0 < q)%R) -> Rsum (map fst yq) = 1%R -> Rsum (map snd yq) = 1%R ->
    (0 <= cross_entropy yq)%R /\ (cross_entropy (map (fun t => (fst t, fst t)) yq) <= cross_entropy yq)%R.
Proof.
  intros yq P SY SQ.
  assert (LE : (cross_entropy (map (fun t => (fst t, fst t)) yq) <= cross_entropy yq)%R).
  { unfold cross_entropy. rewrite map_map. cbn [fst snd]. apply Ropp_le_contravar.
    assert (H : (Rsum (map (fun t => fst t * ln (snd t)) yq) <= Rsum (map (fun t => fst t * ln (fst t) - (fst t - snd t)) yq))%R).
    { apply Rsum_le. intros [y q] I. destruct (P y q I) as (Y & Q). cbn [fst snd]. pose proof (gibbs y q Y Q). Lra.lra. }
    rewrite (Rsum_minus (fun t => fst t * ln (fst t))%R (fun t => fst t - snd t)%R) in H.
    rewrite (Rsum_minus fst snd) in H. rewrite SY, SQ in H. Lra.lra. }
  split; [|exact LE].
  unfold cross_entropy. assert (G : (Rsum (map (fun t => fst t * ln (snd t)) yq) <= Rsum (map (fun t => 0 * fst t) yq))%R).
  { apply Rsum_le. intros [y q] I. destruct (P y q I) as (Y & Q). cbn [fst snd].
    assert (Q1 : (q <= 1)%R).
    { rewrite <- SQ. clear -I P. induction yq as [|[a b] yq IH]; [destruct I|]. unfold Rsum in *. cbn [map fold_right snd].
      assert (T : (0 <= fold_right Rplus 0 (map snd yq))%R).
      { apply (Rsum_nonneg (map snd yq)). intros x Hx. apply in_map_iff in Hx. destruct Hx as ([a' b'] & <- & I'). left. apply (P a' b'). right; exact I'. }
      destruct I as [E|I].
      - injection E as -> ->. Lra.lra.
      - specialize (IH ltac:(intros; apply P; right; auto) I). destruct (P a b (or_introl eq_refl)). Lra.lra. }
    pose proof (ln_neg q ltac:(Lra.lra)). Lra.nra. }
  rewrite Rsum_scale in G. Lra.lra.
Qed.

Lemma C142_impossible_class_refuted_pf :
  exists labels wrong likely v, labels = [1%Qc; 0%Qc] /\ wrong = [0%Qc; 1%Qc] /\ likely = [Q2Qc (3#4); Q2Qc (1#4)] /\
    categorical_cross_entropy false 0%Qc labels (map Fin wrong) = Ok (XFin 0) /\
    categorical_cross_entropy false 0%Qc labels (map Fin likely) = Ok (XFin v) /\ (0 < v)%R.
Proof.
  exists [1%Qc; 0%Qc], [0%Qc; 1%Qc], [Q2Qc (3#4); Q2Qc (1#4)]. eexists.
  split; [reflexivity|]. split; [reflexivity|]. split; [reflexivity|]. split; [|split].
  - unfold categorical_cross_entropy, distribution. cbn [map length Nat.eqb broadcast combine fst snd bind of_num fold_right x_sum x_plus].
    rewrite Q2R_0_c, Q2R_1_c. rewrite !x_div_fin by Lra.lra. cbn [ma_log].
    destruct (Rlt_dec 0 (0 / (0 + (1 + 0)))); [Lra.lra|]. destruct (Rlt_dec 0 (1 / (0 + (1 + 0)))); [|Lra.lra].
    do 2 f_equal. replace (1 / (0 + (1 + 0)))%R with 1%R by Lra.lra. rewrite ln_1. Lra.lra.
  - apply C142_categorical_cross_entropy_pf; [reflexivity|discriminate|]. intros _ p [<-|[<-|[]]]; vm_compute; reflexivity.
  - unfold cross_entropy, Rsum, shares, reals, smoothed_class, likelihood. cbn [combine map fold_right fst snd length INR].
    unfold Rsum. cbn [fold_right]. rewrite Q2R_0_c, Q2R_1_c, !Q2R_Q2Qc.
    replace (Q2R (3#4)) with (3/4)%R by (unfold Q2R; cbn; Lra.lra). replace (Q2R (1#4)) with (1/4)%R by (unfold Q2R; cbn; Lra.lra).
    replace (3 / 4 / (3 / 4 + (1 / 4 + 0)))%R with (3/4)%R by Lra.lra.
    assert (ln (3/4) < 0)%R by (rewrite <- ln_1; apply ln_increasing; Lra.lra). Lra.lra.
Qed.

Lemma C142_sparse_label_refuted_pf :
  exists preds one_hot_label v, one_hot [0%Qc] (length preds) = Ok one_hot_label /\
    categorical_cross_entropy false 0%Qc [0%Qc] (map Fin preds) = Ok (XFin 0) /\
    categorical_cross_entropy false 0%Qc one_hot_label (map Fin preds) = Ok (XFin v) /\ (0 < v)%R.
Proof.
  exists [Q2Qc (1#4); Q2Qc (3#4)], [1%Qc; 0%Qc]. eexists. split; [reflexivity|]. split; [|split].
  - unfold categorical_cross_entropy. destruct (distribution_fin false [Q2Qc (1#4); Q2Qc (3#4)]) as (D & _); [discriminate| |].
    + intros _ p [<-|[<-|[]]]; vm_compute; reflexivity.
    + rewrite D. unfold shares, reals. cbn [map length Nat.eqb broadcast]. unfold broadcast. cbn [length Nat.eqb map bind fold_right].
      assert (E : forall n, Q2R (smooth_categorical 0 n 0) = 0%R).
      { intros n. unfold smooth_categorical. replace (0 * (1 - 0) + 0 / qn n)%Qc with 0%Qc; [apply Q2R_0_c|]. unfold Qcdiv. ring. }
      rewrite E. do 2 f_equal. destruct (ma_log _), (ma_log _); Lra.lra.
  - apply C142_categorical_cross_entropy_pf; [reflexivity|discriminate|]. intros _ p [<-|[<-|[]]]; vm_compute; reflexivity.
  - unfold cross_entropy, Rsum, shares, reals, smoothed_class, likelihood. cbn [combine map fold_right fst snd length INR].
    unfold Rsum. cbn [fold_right]. rewrite Q2R_0_c, Q2R_1_c, !Q2R_Q2Qc.
    replace (Q2R (3#4)) with (3/4)%R by (unfold Q2R; cbn; Lra.lra). replace (Q2R (1#4)) with (1/4)%R by (unfold Q2R; cbn; Lra.lra).
    replace (1 / 4 / (1 / 4 + (3 / 4 + 0)))%R with (1/4)%R by Lra.lra.
    assert (ln (1/4) < 0)%R by (rewrite <- ln_1; apply ln_increasing; Lra.lra). Lra.lra.
Qed.

Lemma C143_predictions_kept_partial_pf :
  forall (from_logits : bool) e preds, i_prediction e = Some (Leaf (map Fin preds)) ->
    from_logits = true \/ qsum preds = 1%Qc -> element_after from_logits e = e.
Proof.
  intros fl [il ip iw] ps E H. cbn [i_prediction] in E. subst ip. unfold element_after. cbn [i_prediction i_label i_weight]. do 2 f_equal.
  unfold prediction_after. destruct fl; [reflexivity|]. destruct H as [H|H]; [discriminate|].
  assert (T : fold_right num_plus (Fin 0%Qc) (map Fin ps) = Fin (qsum ps)).
  { clear. induction ps as [|p ps IH]; [reflexivity|]. cbn [map fold_right]. rewrite IH. reflexivity. }
  rewrite T, H, map_map. f_equal. apply map_ext. intros q. unfold num_div, np_div. change (Qc_eqb 1%Qc 0%Qc) with false. cbv iota. f_equal.
  unfold Qcdiv. replace (/ 1)%Qc with 1%Qc by (apply Qc_is_canon; reflexivity). ring.
Qed.

(** The other metrics of the same element see predictions divided by their sum: an
    error of zero is no longer zero. *)

Definition two_classes : inputs_dict := InputsDict (Some (Leaf [qz 1; qz 3])) (Some (Leaf [Fin (qz 1); Fin (qz 3)])) None.

Lemma C143_predictions_kept_refuted_pf :
  exists e, let mean_absolute := regression_combiner ap_sort absolute_error (regression_options None false None false) "" "" "" "" in
    (exists v, outcome (entropy_combiner ap_sort (categorical_cross_entropy false 0%Qc) (entropy_options None false None false) "" "" "" "") (Bundle [e]) = Ok v) /\
    outcome mean_absolute (Bundle [e]) = Ok (Fin 0%Qc) /\
    outcome mean_absolute (Bundle [element_after false e]) = Ok (Fin (Q2Qc (3#2))).
Proof.
  exists two_classes. cbv zeta. split; [|split; qc_ex].
  eexists. unfold outcome, two_classes. cbn [run entropy_combiner again_combiner c_add c_create c_extract fold_left bind].
  unfold tuple_add, to_label_prediction_example_weight. cbn. reflexivity.
Qed.

Lemma xtotal_sum {A} (v : A -> R) (w : A -> Qc) l :
  rsum xtotal_zero xtotal_plus (map (fun e => XTotal (w e) (XFin (v e * Q2R (w e)))) l) =
  XTotal (qsum (map w l)) (XFin (Rsum (map (fun e => v e * Q2R (w e))%R l))).
Proof.
  induction l as [|x l IH]; [reflexivity|]. cbn [map rsum fold_right] in *. unfold rsum in IH. rewrite IH. reflexivity.
Qed.

Lemma Q2R_qsum {A} (w : A -> Qc) l : Q2R (qsum (map w l)) = Rsum (map (fun e => Q2R (w e)) l).
Proof. induction l as [|x l IH]; [apply Q2R_0_c|]. cbn [map qsum fold_right]. unfold qsum in IH. rewrite Q2R_plus_c, IH. reflexivity. Qed.

Lemma qsum_zero_all {A} (w : A -> Qc) l : (forall x, In x l -> (0 <= w x)%Qc) -> qsum (map w l) = 0%Qc -> forall x, In x l -> w x = 0%Qc.
Proof.
  intros N E x I.
  assert (G : forall l, (forall x, In x l -> (0 <= w x)%Qc) -> (0 <= qsum (map w l))%Qc).
  { clear. induction l as [|x l IH]; intros H; [apply Qcle_refl|]. cbn [map qsum fold_right].
    pose proof (H x (or_introl eq_refl)). specialize (IH (fun y Y => H y (or_intror Y))). unfold qsum in IH. qc_lra. }
  revert E N I. induction l as [|y l IH]; intros E N I; [destruct I|]. cbn [map qsum fold_right] in E.
  pose proof (N y (or_introl eq_refl)) as Y. pose proof (G l (fun z Z => N z (or_intror Z))) as L. unfold qsum in L.
  assert (E1 : w y = 0%Qc) by qc_lra.
  destruct I as [->|I]; [exact E1|]. apply IH; auto; [|intros; apply N; right; auto]. unfold qsum. qc_lra.
Qed.

(** A weighted mean lies between bounds of the values. *)

Lemma mean_within {A} (v : A -> R) (w : A -> Qc) l lo hi :
  (forall x, In x l -> (0 <= w x)%Qc /\ (lo <= v x <= hi)%R) -> (0 < Q2R (qsum (map w l)))%R ->
  (lo <= Rsum (map (fun e => v e * Q2R (w e))%R l) / Q2R (qsum (map w l)) <= hi)%R.
Proof.
  intros H P. rewrite Q2R_qsum in *. set (W := Rsum _) in *.
  assert (A1 : (lo * W <= Rsum (map (fun e => v e * Q2R (w e))%R l))%R).
  { unfold W. rewrite <- Rsum_scale. apply Rsum_le. intros x I. destruct (H x I) as (N & B & _). apply Q2R_nonneg in N. Lra.nra. }
  assert (A2 : (Rsum (map (fun e => v e * Q2R (w e))%R l) <= hi * W)%R).
  { unfold W. rewrite <- Rsum_scale. apply Rsum_le. intros x I. destruct (H x I) as (N & _ & B). apply Q2R_nonneg in N. Lra.nra. }
  split; apply (Rmult_le_reg_r W); auto; unfold Rdiv; rewrite Rmult_assoc, Rinv_l by Lra.lra; Lra.lra.
Qed.

(** Element e has weight w and a loss of v. *)

Definition charged (loss : list Qc -> list num -> res xr) (weighted : bool) (m o : string) (v : R) (w : Qc) (e : inputs_dict) : Prop :=
  exists ls ps, carries weighted m o e (Reading ls ps [w]) /\ loss ls ps = Ok (XFin v).

Definition total_loss (v : inputs_dict -> R) (w : inputs_dict -> Qc) (l : list inputs_dict) : R := Rsum (map (fun e => v e * Q2R (w e))%R l).

Definition total_weight (w : inputs_dict -> Qc) (l : list inputs_dict) : Qc := qsum (map w l).

Lemma entropy_run ap loss weighted lk pk m o s v w :
  (forall e, In e (inputs s) -> charged loss weighted m o (v e) (w e) e) ->
  run (entropy_combiner ap loss (entropy_options None false None weighted) lk pk m o) s =
  Ok (XTotal (total_weight w (expand s)) (XFin (total_loss v w (expand s)))).
Proof.
  intros H. unfold entropy_combiner.
  rewrite (again_run xtotal_zero _ xtotal_plus _ (fun e => XTotal (w e) (XFin (v e * Q2R (w e)))) xtotal_assoc xtotal_comm xtotal_e).
  - rewrite xtotal_sum. reflexivity.
  - intros a e He. destruct (H e He) as (ls & ps & C & L). unfold tuple_add.
    rewrite (prepared ap (entropy_options None false None weighted) lk pk m o e (Reading ls ps [w e])) by exact C.
    unfold yield_tuples, entropy_options. cbn [o_allow_none o_single_weight o_sub_key o_flatten o_class_weights o_fractional negb andb orb bind r_labels r_scores r_weight].
    unfold yield_results. cbn [negb orb bind foldM]. unfold entropy_of. rewrite L. cbn [bind safe_to_scalar]. reflexivity.
Qed.

Lemma C144_mean_cross_entropy_partial_pf :
  forall ap loss weighted lk pk m o s v w,
    (forall e, In e (inputs s) -> charged loss weighted m o (v e) (w e) e) -> merge_free s ->
    total_weight w (inputs s) <> 0%Qc ->
    outcome (entropy_combiner ap loss (entropy_options None false None weighted) lk pk m o) s =
    Ok (XFin (total_loss v w (inputs s) / Q2R (total_weight w (inputs s)))).
Proof.
  intros ap loss weighted lk pk m o s v w H MF N. unfold outcome. rewrite (entropy_run ap loss weighted lk pk m o s v w H).
  cbn [entropy_combiner again_combiner c_extract bind]. rewrite (expand_merge_free s MF). unfold entropy_result, x_qc. cbn [xt_value xt_weight].
  rewrite x_div_fin; [reflexivity|]. rewrite <- Q2R_0_c. intros E. apply Q2R_inj_c in E. contradiction.
Qed.

Lemma C144_mean_cross_entropy_within_pf :
  forall ap loss weighted lk pk m o s v w lo hi,
    (forall e, In e (inputs s) -> charged loss weighted m o (v e) (w e) e /\ (0 <= w e)%Qc /\ (lo <= v e <= hi)%R) ->
    (exists e, In e (inputs s) /\ w e <> 0%Qc) ->
    exists r, outcome (entropy_combiner ap loss (entropy_options None false None weighted) lk pk m o) s = Ok (XFin r) /\ (lo <= r <= hi)%R.
Proof.
  intros ap loss weighted lk pk m o s v w lo hi H (e & I & NZ). unfold outcome.
  rewrite (entropy_run ap loss weighted lk pk m o s v w (fun e He => proj1 (H e He))).
  cbn [entropy_combiner again_combiner c_extract bind]. unfold entropy_result, x_qc. cbn [xt_value xt_weight].
  assert (NN : forall x, In x (expand s) -> (0 <= w x)%Qc) by (intros x X; apply H, expand_In, X).
  assert (P : (0 < Q2R (total_weight w (expand s)))%R).
  { unfold total_weight. rewrite Q2R_qsum. destruct (Rle_lt_or_eq_dec 0 (Rsum (map (fun e => Q2R (w e)) (expand s)))) as [L|E]; [|exact L|].
    - apply Rsum_nonneg. intros x X. apply in_map_iff in X. destruct X as (y & <- & Y). apply Q2R_nonneg, NN, Y.
    - exfalso. apply NZ. apply (qsum_zero_all w (expand s) NN); [|apply expand_In; exact I].
      apply Q2R_inj_c. rewrite Q2R_qsum, <- E, Q2R_0_c. reflexivity. }
  eexists. split; [rewrite x_div_fin by Lra.lra; reflexivity|].
  apply mean_within; [|exact P]. intros x X. split; [apply NN, X|]. apply H, expand_In, X.
Qed.

(** For predictions 1/2 and 1/4 of label 1. *)

Lemma ln_quarter : ln (/ 4) = (- (2 * ln 2))%R.
Proof. rewrite ln_Rinv by Lra.lra. replace 4%R with (2 * 2)%R by Lra.lra. rewrite ln_mult by Lra.lra. Lra.lra. Qed.

Lemma bce_one p : (0 < p < 1)%Qc -> binary_cross_entropy false 0%Qc [1%Qc] [Fin p] = Ok (XFin (- ln (Q2R p))).
Proof.
  intros P. change [Fin p] with (map Fin [p]). rewrite C141_binary_cross_entropy_pf; [|reflexivity|discriminate|intros _ q [<-|[]]; exact P].
  do 2 f_equal. cbn [combine map fst snd Rsum fold_right length INR]. unfold Rsum. cbn [fold_right]. unfold bce, smoothed.
  rewrite Q2R_0_c, Q2R_1_c. Lra.lra.
Qed.

Definition certain (p : Qc) : inputs_dict := InputsDict (Some (Leaf [1%Qc])) (Some (Leaf [Fin p])) None.

Definition certain_loss (e : inputs_dict) : R :=
  match i_prediction e with Some (Leaf [Fin p]) => (- ln (Q2R p))%R | _ => 0%R end.

Lemma certain_charged p : (0 < p < 1)%Qc -> charged (binary_cross_entropy false 0%Qc) true "" "" (certain_loss (certain p)) 1%Qc (certain p).
Proof.
  intros P. exists [1%Qc], [Fin p]. split; [|apply bce_one, P].
  split; [reflexivity|]. split; [|reflexivity]. exists (Leaf [Fin p]), (Leaf [Fin p]). auto.
Qed.

Definition half_quarter : list inputs_dict := [certain (Q2Qc (1#2)); certain (Q2Qc (1#4))].

Lemma half_quarter_charged e : In e half_quarter -> charged (binary_cross_entropy false 0%Qc) true "" "" (certain_loss e) 1%Qc e.
Proof. intros [<-|[<-|[]]]; apply certain_charged; split; vm_compute; reflexivity. Qed.

Lemma half_loss : certain_loss (certain (Q2Qc (1#2))) = ln 2.
Proof.
  unfold certain_loss, certain. cbn [i_prediction]. rewrite Q2R_Q2Qc. replace (Q2R (1#2)) with (/ 2)%R by (unfold Q2R; cbn; Lra.lra).
  rewrite ln_Rinv by Lra.lra. Lra.lra.
Qed.

Lemma quarter_loss : certain_loss (certain (Q2Qc (1#4))) = (2 * ln 2)%R.
Proof.
  unfold certain_loss, certain. cbn [i_prediction]. rewrite Q2R_Q2Qc. replace (Q2R (1#4)) with (/ 4)%R by (unfold Q2R; cbn; Lra.lra).
  rewrite ln_quarter. Lra.lra.
Qed.

Lemma half_quarter_mean :
  outcome (entropy_combiner ap_sort (binary_cross_entropy false 0%Qc) (entropy_options None false None true) "" "" "" "") (Bundle half_quarter)
  = Ok (XFin (3 / 2 * ln 2)).
Proof.
  rewrite (C144_mean_cross_entropy_partial_pf ap_sort _ true "" "" "" "" _ certain_loss (fun _ => 1%Qc)).
  - do 2 f_equal. unfold total_loss, total_weight, half_quarter. cbn [inputs map]. unfold Rsum, qsum. cbn [fold_right].
    rewrite half_loss, quarter_loss, !Q2R_plus_c, Q2R_0_c, Q2R_1_c. Lra.lra.
  - apply half_quarter_charged.
  - exact I.
  - vm_compute. discriminate.
Qed.

Lemma C144_schedule_refuted_pf :
  exists s1 s2, Permutation (inputs s1) (inputs s2) /\
    (forall e, In e (inputs s1) -> charged (binary_cross_entropy false 0%Qc) true "" "" (certain_loss e) 1%Qc e) /\
    outcome (entropy_combiner ap_sort (binary_cross_entropy false 0%Qc) (entropy_options None false None true) "" "" "" "") s1
      = Ok (XFin (3 / 2 * ln 2)) /\
    outcome (entropy_combiner ap_sort (binary_cross_entropy false 0%Qc) (entropy_options None false None true) "" "" "" "") s2
      = Ok (XFin (4 / 3 * ln 2)) /\ (3 / 2 * ln 2 <> 4 / 3 * ln 2)%R.
Proof.
  exists (Bundle half_quarter), (Merge (Bundle [certain (Q2Qc (1#2))]) [Bundle [certain (Q2Qc (1#4))]]).
  split; [apply Permutation_refl|]. split; [apply half_quarter_charged|]. split; [apply half_quarter_mean|]. split.
  - unfold outcome. rewrite (entropy_run ap_sort _ true "" "" "" "" _ certain_loss (fun _ => 1%Qc)) by apply half_quarter_charged.
    cbn [entropy_combiner again_combiner c_extract bind expand app flat_map]. unfold entropy_result, total_weight, total_loss, x_qc. cbn [xt_value xt_weight map].
    unfold Rsum, qsum. cbn [fold_right]. rewrite half_loss, quarter_loss, !Q2R_plus_c, Q2R_0_c, Q2R_1_c.
    rewrite x_div_fin by Lra.lra. do 2 f_equal. Lra.lra.
  - assert (0 < ln 2)%R by (rewrite <- ln_1; apply ln_increasing; Lra.lra). Lra.lra.
Qed.

Definition log_error (x : observed) : R :=
  (Rsqr (ln (1 + Q2R (ob_label x)) - ln (1 + Q2R (ob_score x))))%R.

Definition log_total (D : list observed) : R := Rsum (map (fun x => log_error x * Q2R (ob_weight x))%R D).

Definition log_weight (D : list observed) : Qc := qsum (map ob_weight D).

(** Element e holds these pairs of label and score, all above -1, and this weight. *)

Definition holds_above (weighted : bool) (m o : string) (ex : list (Qc * Qc)) (w : Qc) (e : inputs_dict) : Prop :=
  holds weighted m o ex w e /\ forall l p, In (l, p) ex -> (- qz 1 < l /\ - qz 1 < p)%Qc.

Definition log_one (x : observed) : xtotal :=
  match log_error_of ([ob_label x], [Fin (ob_score x)], [ob_weight x]) with Ok t => t | Err _ => xtotal_zero end.

Lemma log_one_fin x : (- qz 1 < ob_label x)%Qc -> (- qz 1 < ob_score x)%Qc ->
  log_one x = XTotal (ob_weight x) (XFin (log_error x * Q2R (ob_weight x))).
Proof.
  intros A B. apply Q2R_lt_c in A, B. rewrite Q2R_opp_c, Q2R_qz in A, B.
  unfold log_one, log_error_of, squared_log_error, broadcast. cbn [length Nat.eqb combine map fst snd bind].
  unfold x_qc, x_sqr, x_minus. cbn [num_plus of_num x_log]. rewrite !Q2R_plus_c, Q2R_1_c.
  destruct (Rlt_dec 0 (Q2R (ob_label x) + 1)); [|Lra.lra]. destruct (Rlt_dec 0 (Q2R (ob_score x) + 1)); [|Lra.lra].
  cbn [x_opp x_plus x_mult x_sum fold_right bind safe_to_scalar]. unfold log_error, Rsqr.
  rewrite (Rplus_comm 1 (Q2R (ob_label x))), (Rplus_comm 1 (Q2R (ob_score x))). do 2 f_equal. unfold Rminus. Lra.lra.
Qed.

Lemma log_run ap weighted lk pk m o s ex w :
  (forall e, In e (inputs s) -> holds_above weighted m o (ex e) (w e) e) ->
  run (log_error_combiner ap (regression_options None false None weighted) lk pk m o) s =
  Ok (XTotal (log_weight (observations ex w (expand s))) (XFin (log_total (observations ex w (expand s))))).
Proof.
  intros H. unfold log_error_combiner.
  rewrite (finite_again_run xtotal_zero xtotal_plus log_error_of log_one _ xtotal_assoc xtotal_comm xtotal_e) with (ex := ex) (w := w);
    try reflexivity; [|intros l p v|intros e He; apply H, He].
  - f_equal. unfold log_weight, log_total. rewrite <- xtotal_sum. f_equal. apply map_ext_in. intros x I.
    apply observations_In in I. destruct I as (e & I & J & _). apply expand_In in I. destruct (H e I) as (_ & B). destruct (B _ _ J).
    apply log_one_fin; auto.
  - unfold log_one, ob_label, ob_score, ob_weight. cbn [fst snd].
    unfold log_error_of, squared_log_error, broadcast. cbn [length Nat.eqb combine map fst snd bind]. destruct (x_sum _); reflexivity.
Qed.

Lemma C145_mean_log_error_partial_pf :
  forall ap weighted lk pk m o s ex w,
    (forall e, In e (inputs s) -> holds_above weighted m o (ex e) (w e) e) -> merge_free s ->
    let D := observations ex w (inputs s) in
    exists v, outcome (log_error_combiner ap (regression_options None false None weighted) lk pk m o) s = Ok v /\
      (log_weight D = 0%Qc -> v = XNaN) /\
      (log_weight D <> 0%Qc -> v = XFin (log_total D / Q2R (log_weight D))).
Proof.
  intros ap weighted lk pk m o s ex w H MF D. eexists.
  split; [unfold outcome; rewrite (log_run ap weighted lk pk m o s ex w H); reflexivity|].
  rewrite (expand_merge_free s MF). fold D. unfold log_error_result. cbn [xt_weight xt_value].
  destruct (Qc_eqb (log_weight D) 0%Qc) eqn:E; qc_bool; split; intro N; try contradiction; auto.
  unfold x_qc. rewrite x_div_fin; [reflexivity|]. rewrite <- Q2R_0_c. intros Z. apply Q2R_inj_c in Z. contradiction.
Qed.

Lemma sub_observations ex w s x : In x (observations ex w (expand s)) <-> In x (observations ex w (inputs s)).
Proof. unfold observations. rewrite !in_flat_map. split; intros (e & He & Hx); exists e; split; auto; apply expand_In; auto. Qed.

Lemma positive_total {A} (w : A -> Qc) l : (forall x, In x l -> (0 <= w x)%Qc) -> (exists x, In x l /\ w x <> 0%Qc) -> (0 < Q2R (qsum (map w l)))%R.
Proof.
  intros NN (x & I & NZ). rewrite Q2R_qsum. destruct (Rle_lt_or_eq_dec 0 (Rsum (map (fun e => Q2R (w e)) l))) as [L|E]; [|exact L|].
  - apply Rsum_nonneg. intros y X. apply in_map_iff in X. destruct X as (z & <- & Y). apply Q2R_nonneg, NN, Y.
  - exfalso. apply NZ. apply (qsum_zero_all w l NN); [|exact I]. apply Q2R_inj_c. rewrite Q2R_qsum, <- E, Q2R_0_c. reflexivity.
Qed.

Lemma positive_nonzero (q : Qc) : (0 < Q2R q)%R -> Qc_eqb q 0%Qc = false.
Proof. intros P. destruct (Qc_eqb q 0%Qc) eqn:E; auto. qc_bool. rewrite E, Q2R_0_c in P. Lra.lra. Qed.

Lemma C145_mean_log_error_within_pf :
  forall ap weighted lk pk m o s ex w lo hi,
    (forall e, In e (inputs s) -> holds_above weighted m o (ex e) (w e) e /\ (0 <= w e)%Qc) ->
    let D := observations ex w (inputs s) in
    (exists x, In x D /\ ob_weight x <> 0%Qc) ->
    (forall x, In x D -> (lo <= log_error x <= hi)%R) ->
    exists r, outcome (log_error_combiner ap (regression_options None false None weighted) lk pk m o) s = Ok (XFin r) /\ (lo <= r <= hi)%R.
Proof.
  intros ap weighted lk pk m o s ex w lo hi H D (x & I & NZ) B. unfold outcome.
  rewrite (log_run ap weighted lk pk m o s ex w (fun e He => proj1 (H e He))).
  cbn [log_error_combiner again_combiner c_extract bind]. unfold log_error_result. cbn [xt_weight xt_value].
  set (D' := observations ex w (expand s)).
  assert (NN : forall y, In y D' -> (0 <= ob_weight y)%Qc).
  { intros y Y. apply sub_observations in Y. apply observations_In in Y. destruct Y as (e & He & _ & ->). apply H, He. }
  assert (P : (0 < Q2R (log_weight D'))%R) by (apply positive_total; [exact NN|exists x; split; [apply sub_observations; exact I|exact NZ]]).
  rewrite (positive_nonzero _ P). unfold x_qc. eexists. split; [rewrite x_div_fin by Lra.lra; reflexivity|].
  apply (mean_within log_error ob_weight); [|exact P]. intros y Y. split; [apply NN, Y|apply B, sub_observations, Y].
Qed.

Lemma C145_zero_just_for_equal_pf :
  forall ap weighted lk pk m o s ex w,
    (forall e, In e (inputs s) -> holds_above weighted m o (ex e) (w e) e /\ (0 < w e)%Qc) -> inputs s <> [] ->
    exists r, outcome (log_error_combiner ap (regression_options None false None weighted) lk pk m o) s = Ok (XFin r) /\ (0 <= r)%R /\
      (r = 0%R <-> forall e l p, In e (inputs s) -> In (l, p) (ex e) -> l = p).
Proof.
  intros ap weighted lk pk m o s ex w H NE. unfold outcome.
  rewrite (log_run ap weighted lk pk m o s ex w (fun e He => proj1 (H e He))).
  cbn [log_error_combiner again_combiner c_extract bind]. unfold log_error_result. cbn [xt_weight xt_value].
  set (D' := observations ex w (expand s)).
  assert (NN : forall y, In y D' -> (0 < ob_weight y)%Qc).
  { intros y Y. apply sub_observations in Y. apply observations_In in Y. destruct Y as (e & He & _ & ->). apply H, He. }
  assert (SOME : exists x, In x D').
  { destruct (inputs s) as [|e l] eqn:E; [congruence|]. destruct (H e (or_introl eq_refl)) as (((_ & N) & _) & _).
    destruct (ex e) as [|[a b] t] eqn:X; [congruence|]. exists (a, b, w e). apply sub_observations. rewrite E. unfold observations. apply in_flat_map.
    exists e. split; [left; auto|]. rewrite X. left. reflexivity. }
  destruct SOME as (x0 & I0).
  assert (P : (0 < Q2R (log_weight D'))%R).
  { apply positive_total; [intros y Y; apply Qclt_le_weak, NN, Y|]. exists x0. split; [exact I0|]. intros Z. pose proof (NN x0 I0) as Q. rewrite Z in Q. discriminate Q. }
  rewrite (positive_nonzero _ P). unfold x_qc. eexists. split; [rewrite x_div_fin by Lra.lra; reflexivity|].
  assert (T0 : forall y, In y D' -> (0 <= log_error y * Q2R (ob_weight y))%R).
  { intros y Y. apply Rmult_le_pos; [apply Rle_0_sqr|]. apply Q2R_nonneg, Qclt_le_weak, NN, Y. }
  assert (TN : (0 <= log_total D')%R).
  { apply Rsum_nonneg. intros z Z. apply in_map_iff in Z. destruct Z as (y & <- & Y). apply T0, Y. }
  split; [apply Rmult_le_pos; [exact TN|left; apply Rinv_0_lt_compat, P]|]. split.
  - intros E e l p He Hp. assert (TZ : log_total D' = 0%R).
    { apply (Rmult_eq_reg_r (/ Q2R (log_weight D'))); [rewrite Rmult_0_l; exact E|]. apply Rinv_neq_0_compat. Lra.lra. }
    assert (I : In (l, p, w e) D').
    { apply sub_observations. unfold observations. apply in_flat_map. exists e. split; auto. apply in_map_iff. exists (l, p). auto. }
    assert (Z : (log_error (l, p, w e) * Q2R (w e))%R = 0%R).
    { clear -T0 TZ I. unfold log_total in TZ. revert T0 TZ I. induction D' as [|y D' IH]; intros T0 TZ I; [destruct I|].
      cbn [map Rsum fold_right] in TZ. unfold Rsum in TZ. cbn [fold_right] in TZ.
      assert (N : (0 <= Rsum (map (fun x : observed => log_error x * Q2R (ob_weight x)) D'))%R).
      { apply Rsum_nonneg. intros z Z. apply in_map_iff in Z. destruct Z as (u & <- & U). apply T0. right; auto. }
      pose proof (T0 y (or_introl eq_refl)) as Y. unfold Rsum in *. destruct I as [->|I].
      - unfold ob_weight in *. cbn [snd] in *. Lra.lra.
      - apply IH; auto; [intros; apply T0; right; auto|]. Lra.lra. }
    apply Rmult_integral in Z. destruct (H e He) as ((_ & AB) & W). destruct (AB l p Hp) as (AL & AP). destruct Z as [Z|Z].
    + unfold log_error in Z. apply Rsqr_0_uniq in Z. unfold ob_label, ob_score in Z. cbn [fst snd] in Z.
      apply Q2R_lt_c in AL, AP. rewrite Q2R_opp_c, Q2R_qz in AL, AP.
      assert (EQ : (1 + Q2R l)%R = (1 + Q2R p)%R) by (apply ln_inv; Lra.lra). apply Q2R_inj_c. Lra.lra.
    + apply Q2R_pos in W. Lra.lra.
  - intros E. assert (Z : log_total D' = 0%R).
    { unfold log_total. transitivity (Rsum (map (fun x : observed => (0 * 0)%R) D')).
      - apply Rsum_ext. intros y Y. apply sub_observations in Y. apply observations_In in Y. destruct Y as (e & He & Hp & _).
        unfold log_error. rewrite (E e _ _ He Hp). replace (ln (1 + Q2R (ob_score y)) - ln (1 + Q2R (ob_score y)))%R with 0%R by Lra.lra.
        rewrite Rsqr_0. Lra.lra.
      - rewrite (Rsum_scale (fun _ : observed => 0%R)). Lra.lra. }
    rewrite Z. unfold Rdiv. apply Rmult_0_l.
Qed.

Definition zero_label (p : Qc) : inputs_dict := InputsDict (Some (Leaf [0%Qc])) (Some (Leaf [Fin p])) None.

Definition zero_pair (e : inputs_dict) : list (Qc * Qc) :=
  match i_prediction e with Some (Leaf [Fin p]) => [(0%Qc, p)] | _ => [] end.

Lemma zero_holds p : (0 <= p)%Qc -> holds_above true "" "" (zero_pair (zero_label p)) 1%Qc (zero_label p).
Proof.
  intros P. split; [|intros l q [E|[]]; injection E as <- <-; split; [reflexivity|apply Qclt_le_trans with 0%Qc; [reflexivity|exact P]]].
  split; [|discriminate]. split; [reflexivity|]. split; [|reflexivity]. exists (Leaf [Fin p]), (Leaf [Fin p]). auto.
Qed.

Lemma ln_4 : ln 4 = (2 * ln 2)%R.
Proof. replace 4%R with (2 * 2)%R by Lra.lra. rewrite ln_mult by Lra.lra. Lra.lra. Qed.

Definition one_three : list inputs_dict := [zero_label (qz 1); zero_label (qz 3)].

Lemma one_three_holds e : In e one_three -> holds_above true "" "" (zero_pair e) 1%Qc e.
Proof. intros [<-|[<-|[]]]; apply zero_holds; vm_compute; discriminate. Qed.

Lemma C145_schedule_refuted_pf :
  exists s1 s2, Permutation (inputs s1) (inputs s2) /\
    (forall e, In e (inputs s1) -> holds_above true "" "" (zero_pair e) 1%Qc e) /\
    outcome (log_error_combiner ap_sort (regression_options None false None true) "" "" "" "") s1 = Ok (XFin (5 / 2 * Rsqr (ln 2))) /\
    outcome (log_error_combiner ap_sort (regression_options None false None true) "" "" "" "") s2 = Ok (XFin (2 * Rsqr (ln 2))) /\
    (5 / 2 * Rsqr (ln 2) <> 2 * Rsqr (ln 2))%R.
Proof.
  exists (Bundle one_three), (Merge (Bundle [zero_label (qz 1)]) [Bundle [zero_label (qz 3)]]).
  assert (L0 : forall p, log_error (0%Qc, qz p, 1%Qc) = Rsqr (ln (1 + IZR p))).
  { intros p. unfold log_error, ob_label, ob_score. cbn [fst snd]. rewrite Q2R_0_c, Q2R_qz, Rplus_0_r, ln_1.
    unfold Rsqr. Lra.lra. }
  split; [apply Permutation_refl|]. split; [apply one_three_holds|]. split; [|split].
  - unfold outcome. rewrite (log_run ap_sort true "" "" "" "" _ zero_pair (fun _ => 1%Qc)) by apply one_three_holds.
    cbn [log_error_combiner again_combiner c_extract bind expand]. unfold log_error_result, log_weight, log_total, observations, one_three, zero_label, zero_pair, x_qc.
    cbn [flat_map app i_prediction map xt_weight xt_value fst snd]. unfold Rsum, qsum. cbn [fold_right].
    match goal with |- context [Qc_eqb ?a ?b] => change (Qc_eqb a b) with false end. cbv iota.
    rewrite !L0. unfold ob_weight. cbn [snd]. rewrite !Q2R_plus_c, Q2R_0_c, Q2R_1_c, x_div_fin by Lra.lra. do 2 f_equal.
    replace (1 + 1)%R with 2%R by Lra.lra. replace (1 + 3)%R with 4%R by Lra.lra. rewrite ln_4. unfold Rsqr. Lra.lra.
  - unfold outcome. rewrite (log_run ap_sort true "" "" "" "" _ zero_pair (fun _ => 1%Qc)) by apply one_three_holds.
    cbn [log_error_combiner again_combiner c_extract bind expand]. unfold log_error_result, log_weight, log_total, observations, zero_label, zero_pair, x_qc.
    cbn [flat_map app i_prediction map xt_weight xt_value fst snd expand]. unfold Rsum, qsum. cbn [fold_right].
    match goal with |- context [Qc_eqb ?a ?b] => change (Qc_eqb a b) with false end. cbv iota.
    rewrite !L0. unfold ob_weight. cbn [snd]. rewrite !Q2R_plus_c, Q2R_0_c, Q2R_1_c, x_div_fin by Lra.lra. do 2 f_equal.
    replace (1 + 1)%R with 2%R by Lra.lra. replace (1 + 3)%R with 4%R by Lra.lra. rewrite ln_4. unfold Rsqr. Lra.lra.
  - assert (0 < ln 2)%R by (rewrite <- ln_1; apply ln_increasing; Lra.lra). unfold Rsqr. Lra.nra.
Qed.

Definition inner (ab : list (R * R)) : R := Rsum (map (fun t => fst t * snd t)%R ab).

Definition cosine (a b : list R) : R := (inner (combine a b) / (sqrt (inner (combine a a)) * sqrt (inner (combine b b))))%R.

Lemma combine_self {A} (l : list A) : combine l l = map (fun x => (x, x)) l.
Proof. induction l as [|x l IH]; [reflexivity|]. cbn [combine map]. f_equal. exact IH. Qed.

Lemma inner_fst (a b : list R) : length a = length b -> inner (combine a a) = Rsum (map (fun t => fst t * fst t)%R (combine a b)).
Proof.
  revert b. induction a as [|x a IH]; intros [|y b] L; try discriminate; [reflexivity|]. injection L as L. specialize (IH b L).
  unfold inner, Rsum in *. cbn [combine map fold_right fst snd]. rewrite IH. reflexivity.
Qed.

Lemma inner_snd (a b : list R) : length a = length b -> inner (combine b b) = Rsum (map (fun t => snd t * snd t)%R (combine a b)).
Proof.
  revert b. induction a as [|x a IH]; intros [|y b] L; try discriminate; [reflexivity|]. injection L as L. specialize (IH b L).
  unfold inner, Rsum in *. cbn [combine map fold_right fst snd]. rewrite IH. reflexivity.
Qed.

Lemma inner_pos a x : In x a -> x <> 0%R -> (0 < inner (combine a a))%R.
Proof.
  intros I N. rewrite combine_self. unfold inner. rewrite map_map. cbn [fst snd]. induction a as [|y a IH]; [destruct I|].
  cbn [map]. unfold Rsum in *. cbn [fold_right].
  assert (P : (0 <= fold_right Rplus 0 (map (fun x => x * x) a))%R).
  { apply (Rsum_nonneg (map (fun x => x * x)%R a)). intros z Z. apply in_map_iff in Z. destruct Z as (u & <- & _). Lra.nra. }
  destruct I as [->|I]; [assert (0 < x * x)%R by (apply Rsqr_pos_lt; exact N); Lra.lra|]. specialize (IH I). Lra.nra.
Qed.

Lemma cauchy_schwarz (a b : list R) : length a = length b ->
  (inner (combine a b) * inner (combine a b) <= inner (combine a a) * inner (combine b b))%R.
Proof.
  intros L. rewrite (inner_fst a b L), (inner_snd a b L). unfold inner. generalize (combine a b). clear.
  intros l. set (A := Rsum (map (fun t => fst t * fst t)%R l)). set (B := Rsum (map (fun t => snd t * snd t)%R l)). set (C := Rsum (map (fun t => fst t * snd t)%R l)).
  assert (Q : forall t, (0 <= t * t * A - 2 * t * C + B)%R).
  { intros t. replace (t * t * A - 2 * t * C + B)%R with (Rsum (map (fun p => Rsqr (t * fst p - snd p)) l)).
    - apply Rsum_nonneg. intros x X. apply in_map_iff in X. destruct X as (y & <- & _). apply Rle_0_sqr.
    - unfold A, B, C. clear. unfold Rsum. induction l as [|p l IH]; cbn [map fold_right]; [Lra.lra|]. rewrite IH. unfold Rsqr. Lra.lra. }
  assert (PA : (0 <= A)%R).
  { apply Rsum_nonneg. intros x X. apply in_map_iff in X. destruct X as (y & <- & _). Lra.nra. }
  destruct (Rle_lt_or_eq_dec 0 A PA) as [P|Z].
  - specialize (Q (C / A)%R).
    assert (H : (0 <= A * (C / A * (C / A) * A - 2 * (C / A) * C + B))%R) by (apply Rmult_le_pos; Lra.lra).
    replace (A * (C / A * (C / A) * A - 2 * (C / A) * C + B))%R with (A * B - C * C)%R in H by (field; Lra.lra). Lra.lra.
  - rewrite <- Z in *. assert (HC : C = 0%R).
    { destruct (Req_dec C 0) as [|N]; auto. exfalso. pose proof (Q ((B + 1) / (2 * C))%R) as H.
      replace ((B + 1) / (2 * C) * ((B + 1) / (2 * C)) * 0 - 2 * ((B + 1) / (2 * C)) * C + B)%R with (-1)%R in H by (field; exact N). Lra.lra. }
    rewrite HC. Lra.lra.
Qed.

Lemma C146_cosine_range_pf :
  forall a b, length a = length b -> (exists x, In x a /\ x <> 0%R) -> (exists y, In y b /\ y <> 0%R) -> (-1 <= cosine a b <= 1)%R.
Proof.
  intros a b L (x & Ia & Nx) (y & Ib & Ny). pose proof (cauchy_schwarz a b L) as H. unfold cosine.
  pose proof (sqrt_lt_R0 _ (inner_pos a x Ia Nx)) as PA. pose proof (sqrt_lt_R0 _ (inner_pos b y Ib Ny)) as PB.
  set (A := inner (combine a a)) in *. set (B := inner (combine b b)) in *. set (C := inner (combine a b)) in *.
  assert (D : (0 < sqrt A * sqrt B)%R) by (apply Rmult_lt_0_compat; auto).
  assert (S2 : (sqrt A * sqrt B * (sqrt A * sqrt B) = A * B)%R).
  { replace (sqrt A * sqrt B * (sqrt A * sqrt B))%R with (sqrt A * sqrt A * (sqrt B * sqrt B))%R by ring.
    rewrite !sqrt_sqrt; [reflexivity|left; apply (inner_pos b y Ib Ny)|left; apply (inner_pos a x Ia Nx)]. }
  set (N := (sqrt A * sqrt B)%R) in *.
  assert (U : (C <= N)%R) by (destruct (Rle_dec C N); auto; exfalso; Lra.nra).
  assert (W : (- N <= C)%R) by (destruct (Rle_dec (- N) C); auto; exfalso; Lra.nra).
  split; apply (Rmult_le_reg_r N); auto; unfold Rdiv; rewrite Rmult_assoc, Rinv_l by Lra.lra; Lra.lra.
Qed.

Lemma C146_cosine_direction_pf :
  forall a c, (exists x, In x a /\ x <> 0%R) ->
    ((0 < c)%R -> cosine a (map (Rmult c) a) = 1%R) /\ ((c < 0)%R -> cosine a (map (Rmult c) a) = (-1)%R).
Proof.
  intros a c (x & I & N). pose proof (inner_pos a x I N) as P. unfold cosine.
  assert (E1 : inner (combine a (map (Rmult c) a)) = (c * inner (combine a a))%R).
  { unfold inner. rewrite <- Rsum_scale, combine_self, map_map. f_equal. clear. induction a as [|x a IH]; [reflexivity|]. cbn [map combine fst snd]. f_equal; [ring|exact IH]. }
  assert (E2 : inner (combine (map (Rmult c) a) (map (Rmult c) a)) = (c * c * inner (combine a a))%R).
  { unfold inner. rewrite <- Rsum_scale, !combine_self, !map_map. apply Rsum_ext. intros y _. cbn [fst snd]. ring. }
  rewrite E1, E2. set (A := inner (combine a a)) in *. rewrite sqrt_mult by Lra.nra.
  assert (SQ : (sqrt A * sqrt A)%R = A) by (apply sqrt_sqrt; Lra.lra).
  assert (SP : (0 < sqrt A)%R) by (apply sqrt_lt_R0; exact P).
  split; intros C.
  - rewrite sqrt_square by Lra.lra. rewrite <- SQ at 1. field. split; Lra.lra.
  - replace (c * c)%R with (- c * - c)%R by ring. rewrite sqrt_square by Lra.lra. rewrite <- SQ at 1. field. split; Lra.lra.
Qed.

Lemma C146_cosine_symmetric_pf : forall a b, length a = length b -> cosine a b = cosine b a.
Proof.
  intros a b L. unfold cosine. rewrite (Rmult_comm (sqrt (inner (combine b b)))). f_equal. unfold inner.
  revert b L. induction a as [|x a IH]; intros [|y b] L; try discriminate; [reflexivity|]. injection L as L. specialize (IH b L).
  unfold Rsum in *. cbn [combine map fold_right fst snd]. rewrite IH. ring.
Qed.

(** Element e holds the outputs a of the baseline and b of the other model. *)

Definition outputs_of (base m o : string) (e : inputs_dict) (ab : list Qc * list Qc) : Prop :=
  carries_scores base o e (map Fin (fst ab)) /\ carries_scores m o e (map Fin (snd ab)) /\ length (fst ab) = length (snd ab) /\
  (exists x, In x (fst ab) /\ x <> 0%Qc) /\ (exists y, In y (snd ab) /\ y <> 0%Qc) /\
  match i_label e with Some (Dict _) => False | _ => True end /\ carries_weight false e [1%Qc].

Definition similarity (ab : list Qc * list Qc) : R := cosine (reals (fst ab)) (reals (snd ab)).

Lemma finite_part_fin l : finite_part (map Fin l) = Some l.
Proof. induction l as [|x l IH]; [reflexivity|]. cbn [map finite_part]. rewrite IH. reflexivity. Qed.

Lemma dot_inner (a b : list Qc) : dot a b = inner (combine (reals a) (reals b)).
Proof.
  unfold dot, inner, reals. rewrite Q2R_qsum, combine_map_both, map_map. apply Rsum_ext. intros [x y] _. cbn [fst snd]. apply Q2R_mult_c.
Qed.

Lemma reals_nonzero a : (exists x, In x a /\ x <> 0%Qc) -> exists x, In x (reals a) /\ x <> 0%R.
Proof.
  intros (x & I & N). exists (Q2R x). split; [apply in_map_iff; exists x; auto|]. rewrite <- Q2R_0_c. intros E. apply Q2R_inj_c in E. contradiction.
Qed.

Lemma one_output ap lk pk m o e p : carries_scores m o e p -> match i_label e with Some (Dict _) => False | _ => True end ->
  carries_weight false e [1%Qc] ->
  exists ys l w, to_label_prediction_example_weight ap cosine_options lk pk m o e = Ok ys /\ first_tuple ys = Ok (l, p, w).
Proof.
  intros C LB W. rewrite (prepared_opt ap cosine_options lk pk m o e (label_of e) p [1%Qc]); auto.
  - unfold yield_tuples, cosine_options. cbn [o_allow_none o_single_weight o_sub_key o_flatten o_class_weights o_fractional negb andb orb bind].
    unfold yield_results. cbn [negb orb bind]. eexists; eexists; eexists. split; reflexivity.
  - unfold label_of. destruct (i_label e) as [[|]|]; auto.
Qed.

Lemma cosine_run ap lb pb base lk pk m o s f :
  (forall e, In e (inputs s) -> outputs_of base m o e (f e)) ->
  run (cosine_combiner ap lb pb base lk pk m o) s =
  Ok (XTotal (total_weight (fun _ => 1%Qc) (expand s)) (XFin (total_loss (fun e => similarity (f e)) (fun _ => 1%Qc) (expand s)))).
Proof.
  intros H. unfold cosine_combiner.
  rewrite (again_run xtotal_zero _ xtotal_plus _ (fun e => XTotal 1%Qc (XFin (similarity (f e) * Q2R 1%Qc))) xtotal_assoc xtotal_comm xtotal_e).
  - rewrite (xtotal_sum (fun e => similarity (f e)) (fun _ => 1%Qc)). reflexivity.
  - intros a e He. destruct (H e He) as (CB & CM & L & NB & NM & LB & W). unfold cosine_add.
    destruct (one_output ap lb pb base o e _ CB LB W) as (ys & l & v & E1 & E2).
    destruct (one_output ap lk pk m o e _ CM LB W) as (ys' & l' & v' & E3 & E4).
    rewrite E1. cbn [bind]. rewrite E2. cbn [bind]. rewrite E3. cbn [bind]. rewrite E4. cbn [bind fst snd].
    unfold cosine_similarity. rewrite !map_length, L, Nat.eqb_refl. cbn [negb]. rewrite !finite_part_fin.
    rewrite x_div_fin.
    + cbn [bind]. do 4 f_equal. unfold similarity, cosine, norm. rewrite !dot_inner, Q2R_1_c. Lra.lra.
    + unfold norm. rewrite !dot_inner. destruct (reals_nonzero _ NB) as (x & Ix & Nx). destruct (reals_nonzero _ NM) as (y & Iy & Ny).
      pose proof (sqrt_lt_R0 _ (inner_pos _ x Ix Nx)). pose proof (sqrt_lt_R0 _ (inner_pos _ y Iy Ny)). Lra.nra.
Qed.

Lemma C146_mean_similarity_partial_pf :
  forall ap lb pb base lk pk m o s f,
    (forall e, In e (inputs s) -> outputs_of base m o e (f e)) -> merge_free s -> inputs s <> [] ->
    outcome (cosine_combiner ap lb pb base lk pk m o) s =
    Ok (XFin (Rsum (map (fun e => similarity (f e)) (inputs s)) / INR (length (inputs s)))).
Proof.
  intros ap lb pb base lk pk m o s f H MF NE. unfold outcome. rewrite (cosine_run ap lb pb base lk pk m o s f H).
  cbn [cosine_combiner again_combiner c_extract bind]. rewrite (expand_merge_free s MF). unfold log_error_result. cbn [xt_weight xt_value].
  assert (W : Q2R (total_weight (fun _ : inputs_dict => 1%Qc) (inputs s)) = INR (length (inputs s))).
  { unfold total_weight. rewrite Q2R_qsum. generalize (inputs s). clear. intros l. unfold Rsum. induction l as [|x l IH]; [reflexivity|].
    cbn [map fold_right]. rewrite IH, Q2R_1_c. change (length (x :: l)) with (S (length l)). rewrite S_INR. Lra.lra. }
  assert (P : (0 < INR (length (inputs s)))%R) by (apply lt_0_INR; destruct (inputs s); [congruence|cbn [length]; lia]).
  rewrite positive_nonzero by (rewrite W; exact P). unfold x_qc. rewrite W, x_div_fin by Lra.lra. do 3 f_equal.
  unfold total_loss. apply Rsum_ext. intros x _. rewrite Q2R_1_c. Lra.lra.
Qed.

Lemma C146_mean_similarity_within_pf :
  forall ap lb pb base lk pk m o s f lo hi,
    (forall e, In e (inputs s) -> outputs_of base m o e (f e) /\ (lo <= similarity (f e) <= hi)%R) -> inputs s <> [] ->
    exists r, outcome (cosine_combiner ap lb pb base lk pk m o) s = Ok (XFin r) /\ (lo <= r <= hi)%R /\ (-1 <= r <= 1)%R.
Proof.
  intros ap lb pb base lk pk m o s f lo hi H NE. unfold outcome. rewrite (cosine_run ap lb pb base lk pk m o s f (fun e He => proj1 (H e He))).
  cbn [cosine_combiner again_combiner c_extract bind]. unfold log_error_result. cbn [xt_weight xt_value].
  assert (P : (0 < Q2R (total_weight (fun _ : inputs_dict => 1%Qc) (expand s)))%R).
  { apply positive_total; [intros; discriminate|]. destruct (inputs s) as [|e l] eqn:E; [congruence|]. exists e. split; [|discriminate].
    apply expand_In. rewrite E. left. reflexivity. }
  rewrite (positive_nonzero _ P). unfold x_qc. eexists. split; [rewrite x_div_fin by Lra.lra; reflexivity|].
  split; apply mean_within; auto; intros x X; apply expand_In in X; (split; [discriminate|]).
  - apply H, X.
  - destruct (H x X) as ((_ & _ & L & NB & NM & _) & _). apply C146_cosine_range_pf; [unfold reals; rewrite !map_length; exact L|apply reals_nonzero, NB|apply reals_nonzero, NM].
Qed.

Definition two_models (a b : list Z) : inputs_dict :=
  InputsDict None (Some (Dict [("b", Leaf (map (fun z => Fin (qz z)) a)); ("m", Leaf (map (fun z => Fin (qz z)) b))])) None.

Definition model_outputs (e : inputs_dict) : list Qc * list Qc :=
  match i_prediction e with
  | Some (Dict [(_, Leaf [Fin a; Fin b]); (_, Leaf [Fin c; Fin d])]) => ([a; b], [c; d])
  | _ => ([], [])
  end.

Definition same_and_opposite : list inputs_dict := [two_models [3; 4]%Z [6; 8]%Z; two_models [1; 0]%Z [-1; 0]%Z].

Lemma same_and_opposite_outputs e : In e same_and_opposite -> outputs_of "b" "m" "" e (model_outputs e).
Proof.
  intros [<-|[<-|[]]].
  all: split; [eexists; eexists; repeat split; reflexivity|]; split; [eexists; eexists; repeat split; reflexivity|].
  all: split; [reflexivity|]; split; [eexists; split; [left; reflexivity|discriminate]|].
  all: split; [eexists; split; [left; reflexivity|discriminate]|]; split; [exact I|reflexivity].
Qed.

Lemma similarity_same : similarity (model_outputs (two_models [3; 4]%Z [6; 8]%Z)) = 1%R.
Proof.
  unfold similarity, model_outputs, two_models, reals. cbn [i_prediction map fst snd]. rewrite !Q2R_qz.
  destruct (C146_cosine_direction_pf [3; 4]%R 2) as (H & _); [exists 3%R; split; [left; reflexivity|Lra.lra]|].
  rewrite <- H by Lra.lra. cbn [map]. repeat f_equal; Lra.lra.
Qed.

Lemma similarity_opposite : similarity (model_outputs (two_models [1; 0]%Z [-1; 0]%Z)) = (-1)%R.
Proof.
  unfold similarity, model_outputs, two_models, reals. cbn [i_prediction map fst snd]. rewrite !Q2R_qz.
  destruct (C146_cosine_direction_pf [1; 0]%R (-1)) as (_ & H); [exists 1%R; split; [left; reflexivity|Lra.lra]|].
  etransitivity; [|apply H; Lra.lra]. cbn [map].
  replace (-1 * 1)%R with (-1)%R by Lra.lra. replace (-1 * 0)%R with 0%R by Lra.lra. reflexivity.
Qed.

Lemma same_and_opposite_mean :
  outcome (cosine_combiner ap_sort "" "" "b" "" "" "m" "") (Bundle same_and_opposite) = Ok (XFin 0).
Proof.
  rewrite (C146_mean_similarity_partial_pf _ _ _ _ _ _ _ _ _ model_outputs) by (try apply same_and_opposite_outputs; try exact I; discriminate).
  do 2 f_equal. unfold same_and_opposite. cbn [inputs map]. unfold Rsum. cbn [fold_right]. rewrite similarity_same, similarity_opposite. unfold Rdiv. Lra.lra.
Qed.

Lemma C146_schedule_refuted_pf :
  exists s1 s2, Permutation (inputs s1) (inputs s2) /\
    (forall e, In e (inputs s1) -> outputs_of "b" "m" "" e (model_outputs e)) /\
    outcome (cosine_combiner ap_sort "" "" "b" "" "" "m" "") s1 = Ok (XFin 0) /\
    outcome (cosine_combiner ap_sort "" "" "b" "" "" "m" "") s2 = Ok (XFin (1 / 3)).
Proof.
  exists (Bundle same_and_opposite), (Merge (Bundle [two_models [3; 4]%Z [6; 8]%Z]) [Bundle [two_models [1; 0]%Z [-1; 0]%Z]]).
  split; [apply Permutation_refl|]. split; [apply same_and_opposite_outputs|]. split; [apply same_and_opposite_mean|].
  unfold outcome. rewrite (cosine_run _ _ _ _ _ _ _ _ _ model_outputs) by apply same_and_opposite_outputs.
  cbn [cosine_combiner again_combiner c_extract bind expand app flat_map]. unfold log_error_result, total_weight, total_loss, x_qc. cbn [xt_value xt_weight map].
  unfold Rsum, qsum. cbn [fold_right].
  match goal with |- context [Qc_eqb ?a ?b] => change (Qc_eqb a b) with false end. cbv iota.
  rewrite similarity_same, similarity_opposite, !Q2R_plus_c, Q2R_0_c, Q2R_1_c.
  rewrite x_div_fin by Lra.lra. do 2 f_equal. Lra.lra.
Qed.
