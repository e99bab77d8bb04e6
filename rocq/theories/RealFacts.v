(* Rationals as real numbers. *)
From Coq Require Import Reals Qreals.
From Verif Require Import Base BaseFacts.

Lemma Q2R_Q2Qc q : Q2R (Q2Qc q) = Q2R q.
Proof. apply Qeq_eqR. apply Qred_correct. Qed.
Lemma Q2R_plus_c (a b : Qc) : Q2R (a + b)%Qc = (Q2R a + Q2R b)%R.
Proof. unfold Qcplus. rewrite Q2R_Q2Qc. apply Q2R_plus. Qed.
Lemma Q2R_mult_c (a b : Qc) : Q2R (a * b)%Qc = (Q2R a * Q2R b)%R.
Proof. unfold Qcmult. rewrite Q2R_Q2Qc. apply Q2R_mult. Qed.
Lemma Q2R_opp_c (a : Qc) : Q2R (- a)%Qc = (- Q2R a)%R.
Proof. unfold Qcopp. rewrite Q2R_Q2Qc. apply Q2R_opp. Qed.
Lemma Q2R_minus_c (a b : Qc) : Q2R (a - b)%Qc = (Q2R a - Q2R b)%R.
Proof. unfold Qcminus. rewrite Q2R_plus_c, Q2R_opp_c. reflexivity. Qed.
Lemma Q2R_0_c : Q2R 0%Qc = 0%R.
Proof. unfold Q2R. cbn. Lra.lra. Qed.
Lemma Q2R_1_c : Q2R 1%Qc = 1%R.
Proof. unfold Q2R. cbn. Lra.lra. Qed.
Lemma Q2R_qz z : Q2R (qz z) = IZR z.
Proof. rewrite (Qeq_eqR _ _ (qz_this z)). unfold Q2R, inject_Z. cbn [Qnum Qden]. field. Qed.
Lemma Q2R_le_c (a b : Qc) : (a <= b)%Qc <-> (Q2R a <= Q2R b)%R.
Proof. split; [apply Qle_Rle|apply Rle_Qle]. Qed.
Lemma Q2R_lt_c (a b : Qc) : (a < b)%Qc <-> (Q2R a < Q2R b)%R.
Proof. split; [apply Qlt_Rlt|apply Rlt_Qlt]. Qed.
Lemma Q2R_inj_c (a b : Qc) : Q2R a = Q2R b <-> a = b.
Proof. split; [intros H; apply Qc_is_canon, eqR_Qeq, H|intros ->; reflexivity]. Qed.
Lemma Q2R_div_c (a b : Qc) : b <> 0%Qc -> Q2R (a / b)%Qc = (Q2R a / Q2R b)%R.
Proof.
  intros N. assert (M : Q2R b <> 0%R) by (rewrite <- Q2R_0_c; intros H; apply Q2R_inj_c in H; contradiction).
  assert (E : (Q2R (a / b)%Qc * Q2R b = Q2R a)%R) by (rewrite <- Q2R_mult_c; f_equal; f_equal; field; exact N).
  rewrite <- E. field. exact M.
Qed.
Lemma Q2R_nonneg (a : Qc) : (0 <= a)%Qc -> (0 <= Q2R a)%R.
Proof. intros H. apply Q2R_le_c in H. rewrite Q2R_0_c in H. exact H. Qed.
Lemma Q2R_pos (a : Qc) : (0 < a)%Qc -> (0 < Q2R a)%R.
Proof. intros H. apply Q2R_lt_c in H. rewrite Q2R_0_c in H. exact H. Qed.

Lemma ln_le_minus_1 x : (0 < x)%R -> (ln x <= x - 1)%R.
Proof.
  intros X. destruct (Req_dec (ln x) 0) as [E|E].
  - rewrite E. assert (x = 1%R) by (rewrite <- (exp_ln x X), E; apply exp_0). Lra.lra.
  - pose proof (exp_ineq1 (ln x) E) as H. rewrite exp_ln in H by exact X. Lra.lra.
Qed.
