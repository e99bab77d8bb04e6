(* Proofs of the theorems restated in Plots_Properties.v. *)
From Coq Require Import String Ascii Sorting.Sorted.
From Verif Require Import Base BaseFacts Beam BeamFacts Util_Model Util_Main Inputs_Model Inputs_Main Sums_Model Sums_Main
  Histogram_Model Histogram_Main Confusion_Model Confusion_Main Means_Model Keys_Model Keys_Main Config_Model Evaluator_Model
  Detection_Model Rates_Model Rates_Main Plots_Model.
Local Open Scope string_scope.
Local Open Scope list_scope.

(* C180 - C186: plots of confusion matrices, score distributions and calibration. *)

Lemma mapM_pure {A B} (f : A -> res B) (g : A -> B) l : (forall x, In x l -> f x = Ok (g x)) -> mapM f l = Ok (map g l).
Proof.
  induction l as [|x l IH]; intro H; [reflexivity|]. cbn [mapM map]. rewrite (H x) by (left; auto). cbn [bind].
  rewrite IH by (intros; apply H; right; auto). reflexivity.
Qed.

Lemma nth_ok_at {A} (l : list A) i d : i < length l -> nth_ok l i = Ok (nth i l d).
Proof. intro H. unfold nth_ok. rewrite (nth_error_nth' l d H). reflexivity. Qed.

Lemma combine_seq_In {A} (l : list A) d : forall a i x, In (i, x) (combine (seq a (length l)) l) -> a <= i < a + length l /\ x = nth (i - a) l d.
Proof.
  induction l as [|y l IH]; intros a i x H; [contradiction|]. cbn [length seq combine] in H. destruct H as [H|H].
  - inversion H; subst. rewrite Nat.sub_diag. cbn [length nth]. split; [lia|reflexivity].
  - apply IH in H. destruct H as [L ->]. cbn [length]. split; [lia|]. replace (i - a) with (S (i - S a)) by lia. reflexivity.
Qed.

Lemma map_combine_seq {A B} (f : nat * A -> B) (l : list A) d : forall a,
  map f (combine (seq a (length l)) l) = map (fun i => f (a + i, nth i l d)) (seq 0 (length l)).
Proof.
  induction l as [|y l IH]; intro a; [reflexivity|]. cbn [length seq combine map]. rewrite Nat.add_0_r. cbn [nth]. f_equal.
  rewrite IH, <- seq_shift, map_map. apply map_ext. intro i. replace (S a + i) with (a + S i) by lia. reflexivity.
Qed.

(** As many numbers in every list as there are thresholds. *)

Definition same_lengths (m : matrices) (n : nat) : Prop :=
  length (m_thresholds m) = n /\ length (m_tp m) = n /\ length (m_tn m) = n /\ length (m_fp m) = n /\ length (m_fn m) = n.

Lemma to_proto_rows m n : same_lengths m n ->
  to_proto m = Ok (map (fun i => show_row (nth i (m_thresholds m) NaN) (tp_at m i) (tn_at m i) (fp_at m i) (fn_at m i)) (seq 0 n)).
Proof.
  intros (L0 & L1 & L2 & L3 & L4). unfold to_proto.
  rewrite (mapM_pure _ (fun it => show_row (snd it) (tp_at m (fst it)) (tn_at m (fst it)) (fp_at m (fst it)) (fn_at m (fst it)))).
  - rewrite (map_combine_seq _ _ NaN 0), L0. reflexivity.
  - intros [i t] I. apply (combine_seq_In _ NaN) in I. destruct I as [I _]. cbn [fst snd].
    rewrite (nth_ok_at (m_tp m) i 0%Qc), (nth_ok_at (m_tn m) i 0%Qc), (nth_ok_at (m_fp m) i 0%Qc), (nth_ok_at (m_fn m) i 0%Qc) by lia.
    reflexivity.
Qed.

(** Shown thresholds are rounded to six digits. *)

Lemma round_half_even_close q : (qz (round_half_even q) - Q2Qc (1 # 2) <= q <= qz (round_half_even q) + Q2Qc (1 # 2))%Qc.
Proof.
  unfold round_half_even. set (n := Qnum (this q)). set (d := Zpos (Qden (this q))). cbv zeta.
  pose proof (Z.div_mod n d ltac:(unfold d; lia)) as E. pose proof (Z.mod_pos_bound n d ltac:(unfold d; lia)) as B.
  set (f := Z.div n d) in *.
  assert (K : forall z, (- d <= 2 * (n - z * d) <= d)%Z -> (qz z - Q2Qc (1 # 2) <= q <= qz z + Q2Qc (1 # 2))%Qc).
  { intros z H. split.
    - unfold Qcle. rewrite this_minus, qz_this. change (this (Q2Qc (1 # 2))) with (1 # 2)%Q.
      unfold Qle, Qminus, Qplus, Qopp, inject_Z. cbn [Qnum Qden]. fold n. fold d. unfold d in *. nia.
    - unfold Qcle. rewrite this_plus, qz_this. change (this (Q2Qc (1 # 2))) with (1 # 2)%Q.
      unfold Qle, Qplus, inject_Z. cbn [Qnum Qden]. fold n. fold d. unfold d in *. nia. }
  apply K. destruct (Z.ltb_spec (2 * (n - f * d)) d); [nia|].
  destruct (Z.ltb_spec d (2 * (n - f * d))); [nia|]. destruct (Z.even f); nia.
Qed.

Lemma round_half_even_int z : round_half_even (qz z) = z.
Proof.
  pose proof (round_half_even_close (qz z)) as [A B].
  assert (H : (Q2Qc (1 # 2) + Q2Qc (1 # 2) = qz 1)%Qc) by (apply Qc_is_canon; reflexivity).
  destruct (Z.eq_dec (round_half_even (qz z)) z) as [E|E]; [exact E|]. exfalso.
  unfold round_half_even in *. rewrite ?qz_this in *.
  assert (NQ : Qnum (this (qz z)) = z /\ Qden (this (qz z)) = 1%positive).
  { unfold qz. cbn [this Q2Qc]. unfold inject_Z, Qred. 
    pose proof (Z.ggcd_correct_divisors z 1) as G. pose proof (Z.ggcd_gcd z 1) as G'. destruct (Z.ggcd z 1) as [g [a b]]. cbn [fst] in G'.
    rewrite Z.gcd_1_r in G'. subst g. destruct G as [G1 G2]. rewrite Z.mul_1_l in G1, G2. subst a b. split; reflexivity. }
  destruct NQ as [N D]. rewrite N, D in E. apply E. rewrite Z.div_1_r.
  replace (2 * (z - z * 1))%Z with 0%Z by lia. reflexivity.
Qed.

Lemma round_half_even_tie z : exists k, round_half_even (qz z + Q2Qc (1 # 2))%Qc = (2 * k)%Z.
Proof.
  assert (E : (this (qz z + Q2Qc (1 # 2))%Qc == (2 * z + 1) # 2)%Q).
  { rewrite this_plus, qz_this. change (this (Q2Qc (1 # 2))) with (1 # 2)%Q. unfold Qeq, Qplus, inject_Z. cbn [Qnum Qden]. lia. }
  unfold round_half_even. set (q := this (qz z + Q2Qc (1 # 2))%Qc) in *. unfold Qeq in E. cbn [Qnum Qden] in E.
  set (n := Qnum q) in *. set (d := Zpos (Qden q)) in *. assert (P : (0 < d)%Z) by (unfold d; lia). clearbody n d. cbv zeta.
  assert (F : (n / d)%Z = z) by (symmetry; apply (Z.div_unique n d z (n - z * d)%Z); [left; nia|lia]). rewrite F.
  assert (R : (2 * (n - z * d))%Z = d) by nia. rewrite R. rewrite Z.ltb_irrefl. destruct (Z.even z) eqn:EV.
  - apply Z.even_spec in EV. exact EV.
  - exists ((z + 1) / 2)%Z. assert (O : Z.odd z = true) by (rewrite <- Z.negb_even, EV; reflexivity). apply Z.odd_spec in O. destruct O as (k & ->).
    replace (2 * k + 1 + 1)%Z with ((k + 1) * 2)%Z by ring. rewrite Z.div_mul by lia. ring.
Qed.

(** q shown with six digits: the nearest such number, q itself if it has no more; halfway
    between two, the one whose last digit is even. *)

Definition six_digits (q shown : Qc) : Prop :=
  (exists z, shown = (qz z * Q2Qc (1 # 1000000))%Qc) /\
  (shown - Q2Qc (1 # 2000000) <= q <= shown + Q2Qc (1 # 2000000))%Qc /\
  (forall z, q = (qz z * Q2Qc (1 # 1000000))%Qc -> shown = q) /\
  (forall z, q = ((qz z + Q2Qc (1 # 2)) * Q2Qc (1 # 1000000))%Qc -> exists k, shown = (qz (2 * k) * Q2Qc (1 # 1000000))%Qc).

Lemma round6_spec q : exists q', round6 (Fin q) = Fin q' /\ six_digits q q'.
Proof.
  exists (qz (round_half_even (q * Q2Qc (1000000 # 1))%Qc) * Q2Qc (1 # 1000000))%Qc. split; [reflexivity|].
  split; [eexists; reflexivity|]. split; [|split].
  - pose proof (round_half_even_close (q * Q2Qc (1000000 # 1))%Qc) as [A B].
    set (k := qz (round_half_even (q * Q2Qc (1000000 # 1))%Qc)) in *. clearbody k.
    split; qc_lra.
  - intros z ->. replace (qz z * Q2Qc (1 # 1000000) * Q2Qc (1000000 # 1))%Qc with (qz z).
    + rewrite round_half_even_int. reflexivity.
    + rewrite <- Qcmult_assoc. replace (Q2Qc (1 # 1000000) * Q2Qc (1000000 # 1))%Qc with 1%Qc by (apply Qc_is_canon; reflexivity). ring.
  - intros z ->. destruct (round_half_even_tie z) as (k & E). exists k. rewrite <- E. f_equal. f_equal. f_equal.
    rewrite <- Qcmult_assoc. replace (Q2Qc (1 # 1000000) * Q2Qc (1000000 # 1))%Qc with 1%Qc by (apply Qc_is_canon; reflexivity). ring.
Qed.

(** A ratio of weights, with a value for the case that there is no weight. *)

Definition ratio (none : num) (part whole : Qc) : num :=
  if Qc_eqb whole 0%Qc then none else Fin (part / whole)%Qc.

Lemma np_div_ratio a b : (0 <= a)%Qc -> (a <= b)%Qc -> np_div a b = ratio NaN a b.
Proof.
  intros Ha Hb. unfold np_div, ratio. destruct (Qc_eqb b 0%Qc) eqn:E; [|reflexivity].
  apply Qc_eqb_eq in E. replace a with 0%Qc by (subst; apply Qcle_antisym; auto). reflexivity.
Qed.

Lemma positive_nonzero b : (0 <= b)%Qc -> Qc_ltb 0%Qc b = negb (Qc_eqb b 0%Qc).
Proof.
  intro H. destruct (Qc_eqb b 0%Qc) eqn:E.
  - apply Qc_eqb_eq in E. subst. reflexivity.
  - apply Qc_ltb_lt. apply Qcle_lt_or_eq in H. destruct H as [H|H]; [exact H|]. subst. rewrite (proj2 (Qc_eqb_eq 0 0)%Qc eq_refl) in E. discriminate.
Qed.

Lemma C181_shown_rows_pf :
  forall m n, regular m n ->
    exists rows, to_proto m = Ok rows /\ length rows = n /\
      forall i, i < n -> exists r, nth_error rows i = Some r /\
        let tp := tp_at m i in let tn := tn_at m i in let fp := fp_at m i in let fn := fn_at m i in
        (forall q, nth i (m_thresholds m) NaN = Fin q -> exists q', sr_threshold r = Fin q' /\ six_digits q q') /\
        sr_tp r = tp /\ sr_tn r = tn /\ sr_fp r = fp /\ sr_fn r = fn /\
        sr_precision r = ratio (Fin 1%Qc) tp (tp + fp) /\
        sr_recall r = ratio (Fin 0%Qc) tp (tp + fn) /\
        sr_fpr r = ratio NaN fp (fp + tn) /\ sr_for r = ratio NaN fn (fn + tn) /\
        sr_accuracy r = ratio NaN (tp + tn) (tp + tn + fp + fn).
Proof.
  intros m n (L0 & L1 & L2 & L3 & L4 & P).
  exists (map (fun i => show_row (nth i (m_thresholds m) NaN) (tp_at m i) (tn_at m i) (fp_at m i) (fn_at m i)) (seq 0 n)).
  split; [apply to_proto_rows; unfold same_lengths; auto|]. split; [rewrite map_length, seq_length; auto|].
  intros i Hi. exists (show_row (nth i (m_thresholds m) NaN) (tp_at m i) (tn_at m i) (fp_at m i) (fn_at m i)).
  split. { rewrite nth_error_map. replace (nth_error (seq 0 n) i) with (Some i); [reflexivity|].
           symmetry. rewrite (nth_error_nth' _ 0) by (rewrite seq_length; auto). rewrite seq_nth by auto. reflexivity. }
  destruct (P i Hi) as (Ptp & Ptn & Pfp & Pfn). revert Ptp Ptn Pfp Pfn.
  generalize (tp_at m i) (tn_at m i) (fp_at m i) (fn_at m i). intros tp tn fp fn Ptp Ptn Pfp Pfn. cbv zeta.
  unfold show_row. cbn [sr_threshold sr_tp sr_fp sr_tn sr_fn sr_precision sr_recall sr_fpr sr_for sr_f1 sr_accuracy].
  split. { intros q E. rewrite E. apply round6_spec. }
  do 4 (split; [reflexivity|]).
  assert (R : forall a b c, (0 <= a)%Qc -> (0 <= b)%Qc -> (if Qc_ltb 0%Qc (a + b)%Qc then np_div a (a + b)%Qc else Fin c) = ratio (Fin c) a (a + b)).
  { intros a b c Ha Hb. rewrite positive_nonzero by qc_lra. rewrite np_div_ratio by qc_lra. unfold ratio.
    destruct (Qc_eqb (a + b)%Qc 0%Qc); reflexivity. }
  split; [apply R; auto|]. split; [apply R; auto|].
  split. { rewrite (Qcplus_comm tn fp). apply np_div_ratio; qc_lra. }
  split. { rewrite (Qcplus_comm tn fn). apply np_div_ratio; qc_lra. }
  apply np_div_ratio; qc_lra.
Qed.

Lemma C181_f1_partial_pf :
  forall m n, regular m n ->
    exists rows, to_proto m = Ok rows /\
      forall i r, nth_error rows i = Some r -> (0 < tp_at m i)%Qc ->
        sr_f1 r = Fin (qz 2 * tp_at m i / (qz 2 * tp_at m i + fp_at m i + fn_at m i))%Qc /\
        sr_f1 r = f1_score (tp_at m i) (fp_at m i) (fn_at m i).
Proof.
  intros m n (L0 & L1 & L2 & L3 & L4 & P).
  exists (map (fun i => show_row (nth i (m_thresholds m) NaN) (tp_at m i) (tn_at m i) (fp_at m i) (fn_at m i)) (seq 0 n)).
  split; [apply to_proto_rows; unfold same_lengths; auto|].
  intros i r Hr T.
  assert (Hi : i < n).
  { assert (X : nth_error (map (fun i => show_row (nth i (m_thresholds m) NaN) (tp_at m i) (tn_at m i) (fp_at m i) (fn_at m i)) (seq 0 n)) i <> None) by congruence.
    apply nth_error_Some in X. rewrite map_length, seq_length in X. exact X. }
  rewrite nth_error_map in Hr. rewrite (nth_error_nth' _ 0) in Hr by (rewrite seq_length; auto). rewrite seq_nth in Hr by auto.
  cbn [option_map Nat.add] in Hr. inversion Hr; subst r; clear Hr.
  destruct (P i Hi) as (_ & _ & Pfp & Pfn). revert T Pfp Pfn.
  generalize (tp_at m i) (tn_at m i) (fp_at m i) (fn_at m i). intros tp tn fp fn T Pfp Pfn.
  assert (T2 : qz 2 = (1 + 1)%Qc) by (apply Qc_is_canon; reflexivity).
  assert (S0 : (0 < qz 2 * tp + fp + fn)%Qc) by (rewrite T2; qc_lra).
  assert (N0 : (qz 2 * tp + fp + fn)%Qc <> 0%Qc) by (apply Qcpos_neq; exact S0).
  assert (N1 : (tp + fp)%Qc <> 0%Qc) by (apply Qcpos_neq; qc_lra).
  assert (N2 : (tp + fn)%Qc <> 0%Qc) by (apply Qcpos_neq; qc_lra).
  assert (NT : tp <> 0%Qc) by (apply Qcpos_neq; exact T).
  assert (V : sr_f1 (show_row (nth i (m_thresholds m) NaN) tp tn fp fn) = Fin (qz 2 * tp / (qz 2 * tp + fp + fn))%Qc).
  { unfold show_row. cbn [sr_f1].
    replace (Qc_ltb 0%Qc (tp + fp)%Qc) with true by (symmetry; apply Qc_ltb_lt; qc_lra).
    replace (Qc_ltb 0%Qc (tp + fn)%Qc) with true by (symmetry; apply Qc_ltb_lt; qc_lra).
    unfold np_div. rewrite !(proj2 (Qc_eqb_neq _ _)) by auto. cbn [num_scale num_times num_plus num_div].
    assert (Q0 : (tp / (tp + fp) + tp / (tp + fn))%Qc <> 0%Qc).
    { apply Qcpos_neq. assert (0 < tp / (tp + fp))%Qc by (unfold Qcdiv; apply Qcmult_pos; auto; apply Qcinv_pos; qc_lra).
      assert (0 < tp / (tp + fn))%Qc by (unfold Qcdiv; apply Qcmult_pos; auto; apply Qcinv_pos; qc_lra).
      revert H H0. generalize (tp / (tp + fp))%Qc (tp / (tp + fn))%Qc. intros. qc_lra. }
    unfold np_div. rewrite (proj2 (Qc_eqb_neq _ _)) by auto. f_equal.
    assert (E : (tp / (tp + fp) + tp / (tp + fn) = tp * (qz 2 * tp + fp + fn) / ((tp + fp) * (tp + fn)))%Qc).
    { rewrite T2. field. auto. }
    rewrite E. rewrite T2 in N0 |- *. field. auto. }
  split; [exact V|]. rewrite V. unfold f1_score, pos_div.
  replace (Qc_ltb 0%Qc (qz 2 * tp + fp + fn)%Qc) with true by (symmetry; apply Qc_ltb_lt; exact S0). reflexivity.
Qed.

Lemma C181_f1_refuted_pf :
  exists m1 r1 m2 r2, regular m1 1 /\ regular m2 1 /\ to_proto m1 = Ok [r1] /\ to_proto m2 = Ok [r2] /\
    f1_score (tp_at m1 0) (fp_at m1 0) (fn_at m1 0) = Fin 0%Qc /\ sr_f1 r1 = NaN /\
    f1_score (tp_at m2 0) (fp_at m2 0) (fn_at m2 0) = NaN /\ sr_f1 r2 = Fin 0%Qc.
Proof.
  exists (Matrices [Fin (Q2Qc (1 # 2))] [0%Qc] [0%Qc] [1%Qc] [1%Qc]).
  exists (show_row (Fin (Q2Qc (1 # 2))) 0%Qc 0%Qc 1%Qc 1%Qc).
  exists (Matrices [Fin (Q2Qc (1 # 2))] [0%Qc] [1%Qc] [0%Qc] [0%Qc]).
  exists (show_row (Fin (Q2Qc (1 # 2))) 0%Qc 1%Qc 0%Qc 0%Qc).
  split. { unfold regular. cbn. do 5 (split; [reflexivity|]). intros i Hi. replace i with 0 by lia. repeat split; discriminate. }
  split. { unfold regular. cbn. do 5 (split; [reflexivity|]). intros i Hi. replace i with 0 by lia. repeat split; discriminate. }
  split; [reflexivity|]. split; [reflexivity|]. repeat split; qc_ex.
Qed.

Fixpoint smap1 {E X} (f : E -> X) (s : sched E) : sched X :=
  match s with
  | Bundle xs => Bundle (map f xs)
  | Merge t ts => Merge (smap1 f t) (map (smap1 f) ts)
  | Then t xs => Then (smap1 f t) (map f xs)
  end.

Lemma smap1_inputs {E X} (f : E -> X) s : inputs (smap1 f s) = map f (inputs s).
Proof.
  induction s using sched_ind'; cbn [smap1 inputs]; [reflexivity| |].
  - rewrite map_app, IHs. f_equal. induction H as [|t ts Ht _ IH]; [reflexivity|]. cbn [map flat_map]. rewrite map_app, Ht, IH. reflexivity.
  - rewrite map_app, IHs. reflexivity.
Qed.

Lemma fold_same {A E X} (f : A -> E -> A) (g : A -> X -> A) (h : E -> X) xs : (forall a x, In x xs -> f a x = g a (h x)) ->
  forall a, fold_left f xs a = fold_left g (map h xs) a.
Proof.
  induction xs as [|x xs IH]; intros H a; [reflexivity|]. cbn [map fold_left]. rewrite (H a x) by (left; auto).
  apply IH. intros; apply H; right; auto.
Qed.

(** Two combiners that differ in how an input is read. *)

Lemma run_smap1 {E X A O} (c : combiner E A O) (d : combiner X A O) (f : E -> X) s :
  c_create c = c_create d -> (forall l, c_merge c l = c_merge d l) -> (forall a x, In x (inputs s) -> c_add c a x = c_add d a (f x)) ->
  run c s = run d (smap1 f s).
Proof.
  intros C M. induction s using sched_ind'; cbn [smap1 run inputs]; intro H0.
  - rewrite C. apply fold_same. exact H0.
  - rewrite M. f_equal. rewrite IHs by (intros; apply H0; apply in_or_app; left; auto). f_equal. rewrite map_map.
    apply map_ext_in. intros t It. rewrite Forall_forall in H. apply H; auto. intros a x Ix. apply H0. apply in_or_app. right.
    apply in_flat_map. exists t. auto.
  - rewrite IHs by (intros; apply H0; apply in_or_app; left; auto). apply fold_same. intros; apply H0; apply in_or_app; right; auto.
Qed.

Lemma relabel_dict kvs : relabel (Dict kvs) = Dict (map (fun kv => (fst kv, relabel (snd kv))) kvs).
Proof. reflexivity. Qed.

Lemma dget_relabel (kvs : list (string * data (list num))) k :
  dget String.eqb (map (fun kv => (fst kv, relabel (snd kv))) kvs) k = option_map relabel (dget String.eqb kvs k).
Proof.
  induction kvs as [|[k' v] kvs IH]; [reflexivity|]. cbn [map dget fst snd]. destruct (String.eqb k k'); [reflexivity|exact IH].
Qed.

Lemma named_relabel name p q : named name p = Some q -> named name (relabel p) = Some (relabel q).
Proof.
  unfold named. destruct (String.eqb name ""); [intro H; inversion H; reflexivity|].
  destruct p as [|kvs]; [discriminate|]. intro H. rewrite relabel_dict, dget_relabel, H. reflexivity.
Qed.

Lemma relabel_not_empty d : d <> Dict [] -> relabel d <> Dict [].
Proof. destruct d as [|[|kv kvs]]; [discriminate|congruence|discriminate]. Qed.

Lemma optionally_named {A} name (p q : data A) : named name p = Some q -> q <> Dict [] ->
  (if String.eqb name "" then Ok (Some p) else optionally_get (Some p) name) = Ok (Some q).
Proof.
  unfold named. destruct (String.eqb name "") eqn:E; intros H N; [inversion H; reflexivity|].
  destruct p as [|kv]; [discriminate|]. unfold optionally_get, get_by_keys. cbn [walk]. rewrite H. cbn [walk bind].
  destruct q as [|[|]]; auto. congruence.
Qed.

(** The scores of an example, for a model and output or under a prediction key. *)

Definition has_scores (pk m o : string) (e : inputs_dict) (ps : list num) : Prop :=
  (pk = "" /\ carries_scores m o e ps) \/
  (pk <> "" /\ m = "" /\ o = "" /\
   (i_prediction e = Some (Leaf ps) \/ exists d, i_prediction e = Some (Dict d) /\ dget String.eqb d pk = Some (Leaf ps))).

Lemma extracted ap o pk m out e ps w : has_scores pk m out e ps -> carries_weight (o_example_weighted o) e w ->
  to_label_prediction_example_weight ap o pk pk m out (extract_prediction_and_weight e) =
  yield_tuples ap o (Some (map as_label ps)) (Some ps) w.
Proof.
  intros HS HW.
  assert (HW' : match i_weight e with Some (Dict _) => False | _ => True end)
    by (unfold carries_weight in HW; destruct (i_weight e) as [[|]|]; tauto).
  unfold to_label_prediction_example_weight, extract_prediction_and_weight.
  destruct HS as [[-> (p & q & EP & M & Q)]|(NK & -> & -> & [EP|(d & EP & G)])]; rewrite EP; cbn [i_label i_prediction i_weight].
  - assert (NQ : q <> Dict []).
    { intro E. subst q. unfold named in Q. destruct (String.eqb out ""); simpl in Q; discriminate. }
    rewrite String.eqb_refl. cbn [bind].
    rewrite (lookup_pred_named m p q M NQ). cbn [bind].
    rewrite (optionally_named m (relabel p) (relabel q) (named_relabel _ _ _ M) (relabel_not_empty _ NQ)). cbn [bind].
    rewrite (optionally_get_leaf m _ HW'). cbn [bind].
    rewrite (lookup_pred_named out q (Leaf ps) Q) by discriminate. cbn [bind].
    rewrite (optionally_named out (relabel q) (relabel (Leaf ps)) (named_relabel _ _ _ Q)) by discriminate. cbn [bind].
    rewrite (optionally_get_leaf out _ HW'). cbn [bind option_map pick_prediction relabel].
    unfold carries_weight in HW. destruct (i_weight e) as [[v|]|]; try tauto; subst w; destruct (o_example_weighted o); reflexivity.
  - assert (K : String.eqb pk "" = false) by (apply String.eqb_neq; exact NK).
    rewrite K. cbn [relabel optionally_get bind String.eqb option_map pick_prediction].
    unfold carries_weight in HW. destruct (i_weight e) as [[v|]|]; try tauto; subst w; destruct (o_example_weighted o); reflexivity.
  - assert (K : String.eqb pk "" = false) by (apply String.eqb_neq; exact NK).
    rewrite K. rewrite relabel_dict. unfold optionally_get at 1, get_by_keys at 1. cbn [walk]. rewrite dget_relabel, G. cbn [option_map relabel walk bind].
    cbn [String.eqb bind option_map pick_prediction]. rewrite K, G.
    unfold carries_weight in HW. destruct (i_weight e) as [[v|]|]; try tauto; subst w; destruct (o_example_weighted o); reflexivity.
Qed.

(** The thresholds of both plots. *)

Definition plot_threshold (n i : nat) : Qc := if Nat.eqb i 0 then (- Q2Qc (1 # 1000000))%Qc else (qn (i - 1) / qn n)%Qc.

Lemma plot_thresholds_eq n : 1 <= n -> plot_thresholds n = Ok (map (fun i => Fin (plot_threshold n i)) (seq 0 (n + 2))).
Proof.
  intro H. unfold plot_thresholds. destruct (Nat.eqb_spec n 0); [lia|]. f_equal.
  replace (n + 2) with (S (n + 1)) by lia. cbn [seq map]. f_equal. rewrite <- seq_shift, map_map. apply map_ext. intro i.
  unfold plot_threshold. cbn [Nat.eqb]. replace (S i - 1) with i by lia. reflexivity.
Qed.

Lemma plot_threshold_lt n i j : 1 <= n -> i < j -> (plot_threshold n i < plot_threshold n j)%Qc.
Proof.
  intros Hn H. unfold plot_threshold. destruct (Nat.eqb_spec j 0); [lia|].
  assert (P : (0 < / qn n)%Qc) by (apply Qcinv_pos, qn_pos; auto).
  assert (Q : (0 <= qn (j - 1))%Qc) by apply qn_nonneg.
  assert (R : (0 <= qn (j - 1) / qn n)%Qc) by (unfold Qcdiv; apply Qcmult_nonneg; [auto|apply Qclt_le_weak; auto]).
  destruct (Nat.eqb_spec i 0).
  - revert R. generalize (qn (j - 1) / qn n)%Qc. intros c R. eapply Qclt_le_trans; [|exact R]. reflexivity.
  - unfold Qcdiv. apply Qcmult_lt_compat_r; auto. apply qn_lt. lia.
Qed.

Lemma thresholds_NoDup n : 1 <= n -> NoDup (map (fun i => Fin (plot_threshold n i)) (seq 0 (n + 2))).
Proof.
  intro Hn. apply NoDup_map_inj; [|apply seq_NoDup]. intros x y _ _ E. inversion E as [E']. clear E.
  destruct (Nat.lt_trichotomy x y) as [L|[L|L]]; auto; apply (plot_threshold_lt n) in L; auto; rewrite E' in L; exfalso; eapply Qcle_not_lt; try exact L; apply Qcle_refl.
Qed.

(** Scores and their weights. *)

Definition weighted_scores (scores : inputs_dict -> list Qc) (w : inputs_dict -> Qc) (l : list inputs_dict) : list (Qc * Qc) :=
  flat_map (fun e => map (fun q => (q, w e)) (scores e)) l.

Definition as_triple (x : Qc * Qc) : scored := (fst x, Fin (fst x), snd x).

(** The example as a label prediction pair. *)

Definition self_labelled (scores : inputs_dict -> list Qc) (w : inputs_dict -> Qc) (e : inputs_dict) : option string * inputs_dict :=
  (None, InputsDict (Some (Leaf (scores e))) (Some (Leaf (map Fin (scores e)))) (Some (Leaf [w e]))).

Definition first_labels (e : inputs_dict) : list Qc := match i_label e with Some (Leaf l) => l | _ => [] end.

Definition first_weight (e : inputs_dict) : Qc := match i_weight e with Some (Leaf (x :: _)) => x | _ => 0%Qc end.

Lemma C182_score_distribution_pf :
  forall ap n weighted pk m o s scores w,
    1 <= n ->
    (forall e, In e (inputs s) ->
       has_scores pk m o e (map Fin (scores e)) /\ carries_weight weighted e [w e] /\ scores e <> [] /\
       forall q, In q (scores e) -> (0 <= q <= 1)%Qc) ->
    let D := weighted_scores scores w (inputs s) in
    exists rows,
      score_distribution_plot ap n None false None weighted pk m o s = Ok rows /\ length rows = n + 2 /\
      forall i, i < n + 2 -> exists r, nth_error rows i = Some r /\
        let t := plot_threshold n i in
        sr_tp r = qsum (map snd (filter (fun x => Qc_ltb t (fst x)) D)) /\
        sr_tn r = qsum (map snd (filter (fun x => Qc_leb (fst x) t) D)) /\
        sr_fp r = 0%Qc /\ sr_fn r = 0%Qc /\ sr_precision r = Fin 0%Qc /\ sr_recall r = Fin 0%Qc /\
        exists t', sr_threshold r = Fin t' /\ six_digits t t'.
Proof.
  intros ap n weighted pk m o s scores w Hn HG D.
  unfold score_distribution_plot. rewrite plot_thresholds_eq by auto. cbn [bind].
  set (ths := map (fun i => Fin (plot_threshold n i)) (seq 0 (n + 2))).
  set (f := self_labelled scores w). set (s' := smap1 f s).
  assert (LT : length ths = n + 2) by (unfold ths; rewrite map_length, seq_length; auto).
  set (c := res_combiner _ _ _ _).
  assert (RUN : outcome c s = outcome (confusion_combiner ap ths 1 (histogram_options None false weighted true None) "" "" "" "") s').
  { unfold outcome, s'. rewrite (run_smap1 c (confusion_combiner ap ths 1 (histogram_options None false weighted true None) "" "" "" "") f).
    - reflexivity.
    - reflexivity.
    - reflexivity.
    - intros a x Ix. unfold c, confusion_combiner, res_combiner. cbn [c_add]. destruct a as [a|]; [|reflexivity]. cbn [bind].
      unfold confusion_add. cbn [fst snd]. destruct (HG x Ix) as (S1 & W1 & _).
      rewrite (extracted ap (histogram_options None false weighted true None) pk m o x (map Fin (scores x)) [w x] S1 W1).
      rewrite (prepared ap _ "" "" "" "" (snd (f x)) (Reading (scores x) (map Fin (scores x)) [w x])).
      + cbn [r_labels r_scores r_weight]. rewrite map_map.
        replace (map (fun y => as_label (Fin y)) (scores x)) with (scores x) by (symmetry; apply map_id). reflexivity.
      + split; [reflexivity|]. split.
        * exists (Leaf (map Fin (scores x))), (Leaf (map Fin (scores x))). repeat split; reflexivity.
        * cbn. unfold carries_weight in W1. destruct weighted; [reflexivity|].
          destruct (i_weight x) as [[v|]|]; try tauto; auto. }
  rewrite RUN.
  set (ex := fun e => map (fun q => (q, Fin q)) (first_labels e)).
  destruct (C14_confusion_counts_pf ap ths 1 true weighted "" "" "" "" s' ex first_weight) as
    (cm & xm & E & MT & L1 & L2 & L3 & L4 & M).
  { unfold ths. apply thresholds_NoDup; auto. }
  { lia. }
  { intros e He. unfold s' in He. rewrite smap1_inputs in He. apply in_map_iff in He. destruct He as (x & <- & Ix).
    destruct (HG x Ix) as (_ & W1 & NE & U). unfold f, self_labelled. cbn [snd]. split; [|split].
    - unfold ex, first_labels. cbn [i_label]. rewrite !map_map. cbn [fst snd]. rewrite map_id. split; [reflexivity|]. split.
      + exists (Leaf (map Fin (scores x))), (Leaf (map Fin (scores x))). repeat split; reflexivity.
      + unfold first_weight. cbn. unfold carries_weight in W1. destruct weighted; [reflexivity|].
        destruct (i_weight x) as [[v|]|]; try tauto; auto.
    - unfold ex, first_labels. cbn [i_label]. destruct (scores x); [congruence|discriminate].
    - intros _ l p Hl. unfold ex, first_labels in Hl. cbn [i_label] in Hl. apply in_map_iff in Hl. destruct Hl as (q & Eq & Iq).
      inversion Eq; subst. destruct (U l Iq) as [U1 U2]. split.
      + eapply Qcle_trans; [|exact U1]. discriminate.
      + eapply Qcle_trans; [exact U2|]. discriminate. }
  rewrite E. cbn [bind fst].
  assert (DD : scored_of ex first_weight (map snd (inputs s')) = map as_triple D).
  { unfold s', D, weighted_scores. rewrite smap1_inputs, map_map. clear. induction (inputs s) as [|e l IH]; [reflexivity|].
    cbn [map flat_map]. unfold scored_of in *. cbn [map flat_map]. rewrite map_app, <- IH. f_equal.
    unfold ex, f, self_labelled, first_labels, first_weight. cbn [snd i_label i_weight]. rewrite !map_map. apply map_ext. reflexivity. }
  rewrite DD in M. rewrite LT in *.
  assert (SL : same_lengths cm (n + 2)) by (unfold same_lengths; rewrite MT; auto).
  rewrite (to_proto_rows cm (n + 2) SL). cbn [bind]. eexists. split; [reflexivity|]. split; [rewrite !map_length, seq_length; auto|].
  intros i Hi. rewrite map_map, nth_error_map, (nth_error_nth' _ 0) by (rewrite seq_length; auto). rewrite seq_nth by auto.
  cbn [option_map Nat.add]. eexists. split; [reflexivity|]. cbv zeta.
  assert (NT : nth i (m_thresholds cm) NaN = Fin (plot_threshold n i)).
  { rewrite MT. unfold ths. rewrite (nth_indep _ NaN (Fin (plot_threshold n 0))) by (rewrite map_length, seq_length; auto).
    rewrite (map_nth (fun i => Fin (plot_threshold n i))). rewrite seq_nth by auto. reflexivity. }
  specialize (M i Hi). cbv zeta in M. replace (nth i ths NaN) with (Fin (plot_threshold n i)) in M by (rewrite <- NT, MT; reflexivity).
  destruct M as (M1 & M2 & M3 & M4).
  unfold merge_row, show_row. cbn [sr_threshold sr_tp sr_fp sr_tn sr_fn sr_precision sr_recall].
  assert (SUM : forall (p : scored -> bool) (p' : Qc * Qc -> bool), (forall x, p (as_triple x) = p' x) ->
     (qsum (map (positive_weight true (Fin (plot_threshold n i))) (filter p (map as_triple D))) +
      qsum (map (negative_weight true (Fin (plot_threshold n i))) (filter p (map as_triple D))) = qsum (map snd (filter p' D)))%Qc).
  { intros p p' EP. rewrite <- (qsum_map_plus (positive_weight true (Fin (plot_threshold n i))) (negative_weight true (Fin (plot_threshold n i)))).
    clear - EP. induction D as [|x D IH]; [reflexivity|]. cbn [map filter]. rewrite EP. destruct (p' x); [|exact IH].
    cbn [map qsum fold_right]. fold qsum. unfold qsum in IH |- *. cbn [fold_right]. rewrite IH. f_equal. unfold positive_weight, negative_weight, as_triple, sc_weight, sc_label. cbn [fst snd]. ring. }
  split. { rewrite M1, M3. apply SUM. intros [q v]. reflexivity. }
  split. { rewrite M4, M2, Qcplus_comm. apply SUM. intros [q v]. unfold not_predicted, as_triple, sc_score. cbn [fst snd num_ltb].
           unfold Qc_ltb. rewrite negb_involutive. reflexivity. }
  do 4 (split; [reflexivity|]). rewrite NT. apply round6_spec.
Qed.

Lemma C183_score_distribution_refuted_pf :
  exists lk pk m s,
    (exists rows, confusion_matrix_plot (fun _ _ => []) 10 2 None false None false lk pk m "" s = Ok rows /\ length rows = 4) /\
    forall rows, score_distribution_plot (fun _ _ => []) 2 None false None false pk m "" s <> Ok rows.
Proof.
  exists "", "", "", (Bundle [InputsDict (Some (Leaf [1%Qc])) (Some (Leaf [Fin (Q2Qc (3 # 2))])) None]).
  split; [|intros rows; vm_compute; discriminate].
  eexists. split; [vm_compute; reflexivity|reflexivity].
Qed.

Lemma C183_probabilities_refuted_pf :
  exists s,
    (exists rows, confusion_matrix_plot (fun _ _ => []) 10 2 None false None false "" "" "" "" s = Ok rows /\ length rows = 4) /\
    forall rows, score_distribution_plot (fun _ _ => []) 2 None false None false "" "" "" s <> Ok rows.
Proof.
  exists (Bundle [InputsDict (Some (Leaf [1%Qc])) (Some (Dict [("probabilities", Leaf [Fin (Q2Qc (1 # 2))])])) None]).
  split; [|intros rows; vm_compute; discriminate].
  eexists. split; [vm_compute; reflexivity|reflexivity].
Qed.

Lemma C183_prediction_key_refuted_pf :
  exists s,
    (exists rows, confusion_matrix_plot (fun _ _ => []) 10 2 None false None false "" "p" "m1" "" s = Ok rows /\ length rows = 4) /\
    forall rows, score_distribution_plot (fun _ _ => []) 2 None false None false "p" "m1" "" s <> Ok rows.
Proof.
  exists (Bundle [InputsDict (Some (Leaf [1%Qc]))
                    (Some (Dict [("m1", Dict [("p", Leaf [Fin (Q2Qc (1 # 2))])]); ("m2", Dict [("p", Leaf [Fin (Q2Qc (1 # 4))])])])) None]).
  split; [|intros rows; vm_compute; discriminate].
  eexists. split; [vm_compute; reflexivity|reflexivity].
Qed.

Lemma SS_seq {A} (P : A -> A -> Prop) (f : nat -> A) n : forall a, (forall i j, a <= i -> i < j -> j < a + n -> P (f i) (f j)) -> StronglySorted P (map f (seq a n)).
Proof.
  induction n as [|n IH]; intros a H; cbn [seq map]; constructor.
  - apply IH. intros i j Hi Hj Hn. apply H; lia.
  - apply Forall_forall. intros x I. apply in_map_iff in I. destruct I as (j & <- & I). apply in_seq in I. apply H; lia.
Qed.

(** An edge of the buckets is reached by a score's bucket exactly if by the score. *)

Lemma edge_reached nb l r a p : 1 <= nb -> (l < r)%Qc -> a <= nb -> p <> NaN ->
  num_leb (Fin (edge nb l r a)) (lower_edge nb l r (bid nb l r p)) = num_leb (Fin (edge nb l r a)) p.
Proof.
  intros Hnb Hlr Ha Np.
  assert (Hle : (l <= r)%Qc) by (apply Qclt_le_weak; auto).
  destruct (bid_spec nb l r Hnb Hlr p Np) as (_ & B & _).
  set (j := bid nb l r p) in *. specialize (B j). rewrite Nat.eqb_refl in B. apply in_bucket_cases in B.
  pose proof (edge_mono nb l r 0 a Hnb Hle ltac:(lia)) as E0. rewrite edge_left in E0.
  pose proof (edge_mono nb l r a nb Hnb Hle Ha) as E1. rewrite edge_right in E1 by auto.
  unfold lower_edge. destruct B as [[E B]|[[E [B1 B2]]|[E B]]].
  - rewrite E. cbn [Nat.eqb num_leb]. symmetry. destruct p as [| |q|]; try discriminate; [reflexivity|].
    apply ltb_Fin in B. apply Qc_leb_gt. qc_lra.
  - destruct (Nat.eqb_spec j 0); [lia|]. destruct (Nat.leb_spec j nb); [|lia].
    destruct (Nat.le_gt_cases a (j - 1)) as [L|L].
    + pose proof (edge_mono nb l r a (j - 1) Hnb Hle L) as X. apply leb_Fin in X. rewrite X. symmetry.
      eapply num_leb_trans; [exact X|exact B1].
    + pose proof (edge_mono nb l r j a Hnb Hle ltac:(lia)) as X.
      destruct p as [| |q|]; try discriminate. apply ltb_Fin in B2. apply leb_Fin in B1.
      transitivity false; [|symmetry]; apply Qc_leb_gt; qc_lra.
  - rewrite E. destruct (Nat.eqb_spec (nb + 1) 0); [lia|]. destruct (Nat.leb_spec (nb + 1) nb); [lia|].
    cbn [num_leb]. symmetry. destruct p as [| |q|]; try discriminate; [|reflexivity].
    apply leb_Fin in B. apply Qc_leb_le. qc_lra.
Qed.

(** The edges of the plot. *)

Definition plot_edge (n : nat) (l r : Qc) (i : nat) : num := if Nat.eqb i 0 then NegInf else Fin (edge n l r (i - 1)).

Lemma calibration_thresholds_eq n l r : 1 <= n -> calibration_thresholds n l r = Ok (map (plot_edge n l r) (seq 0 (n + 2))).
Proof.
  intro H. unfold calibration_thresholds. destruct (Nat.eqb_spec n 0); [lia|]. f_equal.
  replace (n + 2) with (S (n + 1)) by lia. cbn [seq map]. f_equal. rewrite <- seq_shift, map_map. apply map_ext. intro i.
  unfold plot_edge. cbn [Nat.eqb]. replace (S i - 1) with i by lia. f_equal. unfold edge, Qcdiv. ring.
Qed.

Lemma nth_map_seq {A} (f : nat -> A) n i d : i < n -> nth i (map f (seq 0 n)) d = f i.
Proof. intro H. rewrite (nth_indep _ d (f 0)) by (rewrite map_length, seq_length; auto). rewrite map_nth, seq_nth by auto. reflexivity. Qed.

Lemma edges_sorted n l r : 1 <= n -> (l <= r)%Qc ->
  StronglySorted (fun a b => num_leb a b = true) (map (plot_edge n l r) (seq 0 (n + 2))).
Proof.
  intros Hn Hlr. apply SS_seq. intros i j _ Hij _. unfold plot_edge. destruct (Nat.eqb_spec j 0); [lia|].
  destruct (Nat.eqb_spec i 0); [reflexivity|]. apply leb_Fin. apply edge_mono; auto. lia.
Qed.

Lemma edges_NaN n l r : ~ In NaN (map (plot_edge n l r) (seq 0 (n + 2))).
Proof. intro I. apply in_map_iff in I. destruct I as (i & E & _). unfold plot_edge in E. destruct (Nat.eqb i 0); discriminate. Qed.

Lemma edge_coarse n k l r a : 1 <= n -> 1 <= k -> edge n l r a = edge (n * k) l r (a * k).
Proof.
  intros Hn Hk. unfold edge. f_equal. unfold Qcdiv.
  assert (M : forall x y, qn (x * y) = (qn x * qn y)%Qc).
  { intros x y. unfold qn. rewrite Nat2Z.inj_mul. unfold qz. apply Qc_is_canon. rewrite this_mult.
    unfold Q2Qc, this. rewrite !Qred_correct. unfold Qeq, Qmult, inject_Z. simpl. lia. }
  rewrite !M. field. split; apply Qcpos_neq, qn_pos; auto.
Qed.

(** Groups of buckets are the coarser buckets if the number of these is a divisor. *)

Lemma between_coarse n k l r i p : 1 <= n -> 1 <= k -> (l < r)%Qc -> p <> NaN -> i < n + 2 ->
  between (map (plot_edge n l r) (seq 0 (n + 2))) i (lower_edge (n * k) l r (bid (n * k) l r p)) = in_bucket n l r i p.
Proof.
  intros Hn Hk Hlr Np Hi. unfold between. rewrite map_length, seq_length.
  assert (Hnk : 1 <= n * k) by nia.
  assert (R : forall a, a <= n -> num_leb (Fin (edge n l r a)) (lower_edge (n * k) l r (bid (n * k) l r p)) = num_leb (Fin (edge n l r a)) p).
  { intros a Ha. rewrite (edge_coarse n k) by auto. apply edge_reached; auto. nia. }
  assert (L : forall a, a <= n -> num_ltb (lower_edge (n * k) l r (bid (n * k) l r p)) (Fin (edge n l r a)) = num_ltb p (Fin (edge n l r a))).
  { intros a Ha. specialize (R a Ha). rewrite !num_leb_gt in R by (auto using lower_edge_nan; discriminate).
    destruct (num_ltb _ _), (num_ltb p _); auto; discriminate. }
  rewrite nth_map_seq by auto. unfold in_bucket. destruct (Nat.eqb_spec i 0) as [->|Ni].
  - cbn [orb andb]. destruct (Nat.eqb_spec 1 (n + 2)); [lia|]. cbn [orb]. rewrite nth_map_seq by lia.
    unfold plot_edge. cbn [Nat.eqb Nat.sub]. rewrite L by lia. rewrite edge_left. reflexivity.
  - cbn [orb]. unfold plot_edge at 1. destruct (Nat.eqb_spec i 0); [lia|]. rewrite R by lia.
    destruct (Nat.leb_spec i n) as [Li|Li].
    + destruct (Nat.eqb_spec (S i) (n + 2)); [lia|]. cbn [orb]. rewrite nth_map_seq by lia.
      unfold plot_edge. cbn [Nat.eqb]. replace (S i - 1) with i by lia. rewrite L by auto. reflexivity.
    + replace i with (n + 1) by lia. destruct (Nat.eqb_spec (S (n + 1)) (n + 2)); [|lia]. rewrite Nat.eqb_refl. cbn [orb].
      rewrite andb_true_r. cbn [andb]. replace (n + 1 - 1) with n by lia. rewrite edge_right by auto. reflexivity.
Qed.

Lemma show_buckets_nth ths hist : forall a lo k b, nth_error hist k = Some b ->
  nth_error (show_buckets ths a lo hist) k = Some (ShownBucket
    (if Nat.eqb k 0 then lo else if Nat.leb (length ths - 1) (a + k - 1) then PosInf else nth (a + k) ths NaN)
    (if Nat.leb (length ths - 1) (a + k) then PosInf else nth (a + k + 1) ths NaN)
    (t_labels (snd b)) (t_predictions (snd b)) (t_examples (snd b))).
Proof.
  induction hist as [|h hist IH]; intros a lo k b H; [destruct k; discriminate|]. cbn [show_buckets]. cbv zeta.
  destruct k as [|k]; cbn [nth_error] in *.
  - inversion H; subst. rewrite Nat.add_0_r. reflexivity.
  - rewrite (IH _ _ k b H). f_equal. cbn [Nat.eqb]. replace (a + 1 + k) with (a + S k) by lia.
    replace (a + S k - 1) with (a + k) by lia. destruct k as [|k]; cbn [Nat.eqb].
    + rewrite Nat.add_0_r. reflexivity.
    + reflexivity.
Qed.

Lemma show_buckets_fields ths hist : forall a lo,
  length (show_buckets ths a lo hist) = length hist /\
  map sb_labels (show_buckets ths a lo hist) = map (fun b => t_labels (snd b)) hist /\
  map sb_predictions (show_buckets ths a lo hist) = map (fun b => t_predictions (snd b)) hist /\
  map sb_examples (show_buckets ths a lo hist) = map (fun b => t_examples (snd b)) hist.
Proof.
  induction hist as [|h hist IH]; intros a lo; [repeat split|]. cbn [show_buckets length map]. cbv zeta.
  destruct (IH (a + 1) (if Nat.leb (length ths - 1) a then PosInf else nth (a + 1) ths NaN)) as (-> & -> & -> & ->). repeat split.
Qed.

(** Where a plotted bucket starts and ends. *)

Definition starts (n : nat) (l r : Qc) (i : nat) : num := if Nat.eqb i 0 then NegInf else Fin (edge n l r (i - 1)).

Definition stops (n : nat) (l r : Qc) (i : nat) : num := if Nat.leb i n then Fin (edge n l r i) else PosInf.

(** Examples as read by the histogram. *)

Definition plottable (weighted unit : bool) (m o : string) (ex : inputs_dict -> list (Qc * num)) (w : inputs_dict -> Qc) (e : inputs_dict) : Prop :=
  carries weighted m o e (Reading (map fst (ex e)) (map snd (ex e)) [w e]) /\ ex e <> [] /\
  forall a p, In (a, p) (ex e) -> p <> NaN /\ (unit = true -> 0 <= a <= 1)%Qc.

Lemma unit_label_intro a : (0 <= a <= 1)%Qc -> unit_label a.
Proof.
  intros [A B]. split.
  - eapply Qcle_trans; [|exact A]. discriminate.
  - eapply Qcle_trans; [exact B|]. discriminate.
Qed.

Lemma C184_calibration_plot_pf :
  forall ap nb n left right c schema weighted lk pk m o s ex w l r,
    1 <= nb -> 1 <= n -> plot_ends left right c schema m o = Ok (l, r) -> (l < r)%Qc ->
    (forall e, In e (inputs s) -> plottable weighted (Qc_eqb l 0%Qc && Qc_eqb r 1%Qc) m o ex w e) ->
    let D := scored_of ex w (inputs s) in
    exists bs,
      calibration_plot ap nb n left right c schema None false None weighted lk pk m o s = Ok bs /\
      length bs = n + 2 /\
      (forall i, i < n + 2 -> exists b, nth_error bs i = Some b /\ sb_lower b = starts n l r i /\ sb_upper b = stops n l r i) /\
      qsum (map sb_labels bs) = qsum (map weighted_label D) /\
      qsum (map sb_examples bs) = qsum (map sc_weight D) /\
      ((forall x, In x D -> exists q, sc_score x = Fin q) ->
       fold_right num_plus (Fin 0%Qc) (map sb_predictions bs) = Fin (qsum (map weighted_score D))) /\
      (forall k, nb = n * k -> forall i, i < n + 2 -> exists b, nth_error bs i = Some b /\
         let E := filter (fun x => in_bucket n l r i (sc_score x)) D in
         sb_labels b = qsum (map weighted_label E) /\ sb_examples b = qsum (map sc_weight E) /\
         ((forall x, In x D -> exists q, sc_score x = Fin q) -> sb_predictions b = Fin (qsum (map weighted_score E)))).
Proof.
  intros ap nb n left right c schema weighted lk pk m o s ex w l r Hnb Hn PE Hlr HG D.
  assert (Hle : (l <= r)%Qc) by (apply Qclt_le_weak; auto).
  unfold calibration_plot. rewrite PE. cbn [bind].
  set (fr := Qc_eqb l 0%Qc && Qc_eqb r 1%Qc) in *.
  destruct (C12_histogram_conserves_pf ap nb l r true fr weighted lk pk m o s ex w Hnb Hlr) as
    (h & EH & AS & HB & HM & TL & TE & TP).
  { discriminate. }
  { intros e He. destruct (HG e He) as (C & N & G). split; auto. split; auto. intros a p Hl.
    destruct (G a p Hl) as [G1 G2]. split; auto. intro F. apply unit_label_intro; auto. }
  fold D in HB, HM, TL, TE, TP.
  rewrite EH. cbn [bind]. rewrite calibration_thresholds_eq by auto. cbn [bind].
  set (ths := map (plot_edge n l r) (seq 0 (n + 2))).
  assert (LT : length ths = n + 2) by (unfold ths; rewrite map_length, seq_length; auto).
  assert (NE : ths <> []) by (intro X; rewrite X in LT; simpl in LT; lia).
  assert (SO : StronglySorted (fun a b => num_leb a b = true) ths) by (apply edges_sorted; auto).
  assert (NN : ~ In NaN ths) by apply edges_NaN.
  assert (NH : NoDup (map fst h)).
  { clear - AS. unfold ascending in AS. induction AS as [|a l S IH F]; constructor; auto.
    intro I. rewrite Forall_forall in F. specialize (F a I). lia. }
  assert (ND : forall x, In x D -> bucketed_by true x <> NaN).
  { intros x Hx. apply in_flat_map in Hx. destruct Hx as (e & He & Hx). destruct (HG e He) as (_ & _ & G).
    apply in_map_iff in Hx. destruct Hx as ([l0 p0] & <- & Hx). apply (G l0 p0 Hx). }
  destruct (C13_rebin_pf ths h nb l r NE NN SO Hle AS) as (RF & _ & RL & RE & _).
  pose proof (rebin_total ths h nb l r NE Hle AS) as RT.
  destruct (show_buckets_fields ths (rebin ths h nb l r) 0 NegInf) as (SL & S1 & S2 & S3).
  assert (LG : length (rebin ths h nb l r) = n + 2) by (rewrite <- LT, <- (seq_length (length ths) 0), <- RF, map_length; reflexivity).
  assert (FIN : (forall x, In x D -> exists q, sc_score x = Fin q) -> forall b, In b h -> t_predictions (snd b) = Fin (finite_part (t_predictions (snd b)))).
  { intros F [i t] I. destruct (HB i t I) as (_ & _ & _ & _ & P). cbn [snd]. rewrite (P F). reflexivity. }
  assert (TPF : forall L, t_predictions (totals_sum L) = fold_right num_plus (Fin 0%Qc) (map t_predictions L)).
  { induction L as [|a0 L IH]; simpl; auto. fold (totals_sum L). rewrite IH. reflexivity. }
  eexists. split; [reflexivity|]. split; [rewrite SL; exact LG|]. split; [|split; [|split; [|split]]].
  - intros i Hi. assert (X : exists b, nth_error (rebin ths h nb l r) i = Some b).
    { destruct (nth_error (rebin ths h nb l r) i) eqn:X; [eauto|]. apply nth_error_None in X. lia. }
    destruct X as (b & X). eexists. split; [apply show_buckets_nth; exact X|]. cbn [sb_lower sb_upper Nat.add].
    rewrite LT. unfold starts, stops. split.
    + destruct (Nat.eqb_spec i 0); [auto|]. destruct (Nat.leb_spec (n + 2 - 1) (i - 1)); [lia|].
      unfold ths. rewrite nth_map_seq by auto. unfold plot_edge. destruct (Nat.eqb_spec i 0); [lia|reflexivity].
    + destruct (Nat.leb_spec (n + 2 - 1) i), (Nat.leb_spec i n); try lia; auto.
      unfold ths. rewrite nth_map_seq by lia. unfold plot_edge. destruct (Nat.eqb_spec (i + 1) 0); [lia|].
      replace (i + 1 - 1) with i by lia. reflexivity.
  - rewrite S1, RL. exact TL.
  - rewrite S3, RE. exact TE.
  - intro F. rewrite S2. rewrite <- (map_map snd t_predictions), <- TPF, RT, totals_sum_predictions.
    + rewrite map_map. f_equal. apply (TP F).
    + intros t I. apply in_map_iff in I. destruct I as (b & <- & I). apply (FIN F b I).
  - intros k Ek i Hi. assert (Hk : 1 <= k) by nia.
    set (P := fun id : nat => between ths i (lower_edge nb l r id)).
    set (T := totals_sum (map snd (filter (fun b => P (fst b)) h))).
    assert (X : nth_error (rebin ths h nb l r) i = Some (i, T)).
    { rewrite rebin_eq by auto. rewrite LT, nth_error_map, (nth_error_nth' _ 0) by (rewrite seq_length; auto).
      rewrite seq_nth by auto. reflexivity. }
    assert (FE : filter (fun x => P (bid nb l r (bucketed_by true x))) D = filter (fun x => in_bucket n l r i (sc_score x)) D).
    { apply filter_ext_in. intros x Ix. unfold P, ths. rewrite Ek. apply between_coarse; auto; apply (ND x Ix). }
    eexists. split; [apply show_buckets_nth; exact X|]. cbv zeta. cbn [sb_labels sb_examples sb_predictions snd]. rewrite <- FE.
    split; [|split].
    + unfold T. rewrite (proj1 (totals_sum_fields _)), map_map.
      apply (buckets_to_data nb l r true P D h t_labels weighted_label Hnb Hlr NH ND).
      * intros j u Hj. apply (HB j u Hj).
      * intros j x NI Ix. destruct (HM j x NI Ix) as [_ W]. unfold weighted_label. rewrite W. ring.
    + unfold T. rewrite (proj2 (totals_sum_fields _)), map_map.
      apply (buckets_to_data nb l r true P D h t_examples sc_weight Hnb Hlr NH ND).
      * intros j u Hj. apply (HB j u Hj).
      * intros j x NI Ix. apply (HM j x NI Ix).
    + intro F. unfold T. rewrite totals_sum_predictions.
      * f_equal. rewrite map_map.
        apply (buckets_to_data nb l r true P D h (fun t => finite_part (t_predictions t)) weighted_score Hnb Hlr NH ND).
        -- intros j u Hj. destruct (HB j u Hj) as (_ & _ & _ & _ & Q). rewrite (Q F). reflexivity.
        -- intros j x NI Ix. destruct (HM j x NI Ix) as [_ W]. unfold weighted_score. rewrite W. ring.
      * intros t I. apply in_map_iff in I. destruct I as (b & <- & I). apply filter_In in I. apply (FIN F b). tauto.
Qed.

Lemma C187_bucket_bounds_refuted_pf :
  exists n s bs b q,
    calibration_plot (fun _ _ => []) 10 n None None None None None false None false "" "" "" "" s = Ok bs /\
    map i_prediction (inputs s) = [Some (Leaf [Fin q])] /\
    In b bs /\ sb_examples b = 1%Qc /\ num_leb (sb_upper b) (Fin q) = true.
Proof.
  exists 3, (Bundle [plain 1 (35 # 100) 1]). eexists. eexists. exists (Q2Qc (35 # 100)).
  split; [vm_compute; reflexivity|]. split; [reflexivity|]. split; [right; left; reflexivity|]. split; qc_ex.
Qed.

Lemma C187_bucket_bounds_partial_pf :
  forall ap nb n left right c schema weighted lk pk m o s ex w l r,
    1 <= nb -> 1 <= n -> plot_ends left right c schema m o = Ok (l, r) -> (l < r)%Qc ->
    (forall e, In e (inputs s) -> plottable weighted (Qc_eqb l 0%Qc && Qc_eqb r 1%Qc) m o ex w e) ->
    let D := scored_of ex w (inputs s) in
    exists bs,
      calibration_plot ap nb n left right c schema None false None weighted lk pk m o s = Ok bs /\
      forall i, i < n + 2 -> exists b (into : nat -> bool), nth_error bs i = Some b /\
        sb_examples b = qsum (map sc_weight (filter (fun x => into (bid nb l r (sc_score x))) D)) /\
        sb_labels b = qsum (map weighted_label (filter (fun x => into (bid nb l r (sc_score x))) D)) /\
        forall x, In x D -> into (bid nb l r (sc_score x)) = true ->
          num_leb (sb_lower b) (sc_score x) = true /\
          forall q, sc_score x = Fin q -> (q < r)%Qc -> num_ltb (Fin (q - (r - l) / qn nb)%Qc) (sb_upper b) = true.
Proof.
  intros ap nb n left right c schema weighted lk pk m o s ex w l r Hnb Hn PE Hlr HG D.
  assert (Hle : (l <= r)%Qc) by (apply Qclt_le_weak; auto).
  unfold calibration_plot. rewrite PE. cbn [bind].
  set (fr := Qc_eqb l 0%Qc && Qc_eqb r 1%Qc) in *.
  destruct (C12_histogram_conserves_pf ap nb l r true fr weighted lk pk m o s ex w Hnb Hlr) as
    (h & EH & AS & HB & HM & TL & TE & TP).
  { discriminate. }
  { intros e He. destruct (HG e He) as (C & N & G). split; auto. split; auto. intros a p Hl.
    destruct (G a p Hl) as [G1 G2]. split; auto. intro F. apply unit_label_intro; auto. }
  fold D in HB, HM, TL, TE, TP.
  rewrite EH. cbn [bind]. rewrite calibration_thresholds_eq by auto. cbn [bind].
  set (ths := map (plot_edge n l r) (seq 0 (n + 2))).
  assert (LT : length ths = n + 2) by (unfold ths; rewrite map_length, seq_length; auto).
  assert (NE : ths <> []) by (intro X; rewrite X in LT; simpl in LT; lia).
  assert (SO : StronglySorted (fun a b => num_leb a b = true) ths) by (apply edges_sorted; auto).
  assert (NN : ~ In NaN ths) by apply edges_NaN.
  assert (NH : NoDup (map fst h)).
  { clear - AS. unfold ascending in AS. induction AS as [|a l S IH F]; constructor; auto.
    intro I. rewrite Forall_forall in F. specialize (F a I). lia. }
  assert (ND : forall x, In x D -> bucketed_by true x <> NaN).
  { intros x Hx. apply in_flat_map in Hx. destruct Hx as (e & He & Hx). destruct (HG e He) as (_ & _ & G).
    apply in_map_iff in Hx. destruct Hx as ([l0 p0] & <- & Hx). apply (G l0 p0 Hx). }
  eexists. split; [reflexivity|]. intros i Hi.
  set (P := fun id : nat => between ths i (lower_edge nb l r id)).
  set (T := totals_sum (map snd (filter (fun b => P (fst b)) h))).
  assert (X : nth_error (rebin ths h nb l r) i = Some (i, T)).
  { rewrite rebin_eq by auto. rewrite LT, nth_error_map, (nth_error_nth' _ 0) by (rewrite seq_length; auto).
    rewrite seq_nth by auto. reflexivity. }
  eexists. exists P. split; [apply show_buckets_nth; exact X|]. cbn [sb_labels sb_examples sb_lower sb_upper snd Nat.add].
  split; [|split].
  - unfold T. rewrite (proj2 (totals_sum_fields _)), map_map.
    apply (buckets_to_data nb l r true P D h t_examples sc_weight Hnb Hlr NH ND).
    + intros j u Hj. apply (HB j u Hj).
    + intros j x NI Ix. apply (HM j x NI Ix).
  - unfold T. rewrite (proj1 (totals_sum_fields _)), map_map.
    apply (buckets_to_data nb l r true P D h t_labels weighted_label Hnb Hlr NH ND).
    + intros j u Hj. apply (HB j u Hj).
    + intros j x NI Ix. destruct (HM j x NI Ix) as [_ W]. unfold weighted_label. rewrite W. ring.
  - intros x Ix Px. specialize (ND x Ix). unfold bucketed_by in ND. set (p := sc_score x) in *.
    unfold P, between in Px. apply andb_true_iff in Px. destruct Px as [P1 P2].
    destruct (bid_spec nb l r Hnb Hlr p ND) as (_ & B & _).
    set (j := bid nb l r p) in *. specialize (B j). rewrite Nat.eqb_refl in B. apply in_bucket_cases in B.
    rewrite LT in *. split.
    + destruct (Nat.eqb_spec i 0); [destruct p; auto; congruence|]. cbn [orb] in P1.
      destruct (Nat.leb_spec (n + 2 - 1) (i - 1)); [lia|].
      unfold ths in P1 |- *. rewrite nth_map_seq in P1 |- * by auto. unfold plot_edge in P1 |- *. destruct (Nat.eqb_spec i 0); [lia|].
      unfold lower_edge in P1. destruct B as [[E B]|[[E [B1 B2]]|[E B]]].
      * rewrite E in P1. cbn in P1. discriminate.
      * destruct (Nat.eqb_spec j 0); [lia|]. destruct (Nat.leb_spec j nb); [|lia]. eapply num_leb_trans; [exact P1|exact B1].
      * destruct p as [| |q|]; try discriminate; auto. apply leb_Fin in B. apply leb_Fin.
        pose proof (edge_mono n l r (i - 1) n Hn Hle ltac:(lia)) as E1. rewrite edge_right in E1 by auto. qc_lra.
    + intros q Eq Lq. rewrite Eq in *. destruct (Nat.leb_spec (n + 2 - 1) i); [reflexivity|].
      destruct (Nat.eqb_spec (S i) (n + 2)); [lia|]. cbn [orb] in P2.
      replace (i + 1) with (S i) by lia. unfold ths in P2 |- *. rewrite nth_map_seq in P2 |- * by lia. unfold plot_edge in P2 |- *. cbn [Nat.eqb] in P2 |- *.
      replace (S i - 1) with i in * by lia.
      assert (W : (0 <= (r - l) / qn nb)%Qc) by (apply Qcdiv_nonneg; [qc_lra|apply qn_pos; auto]).
      unfold lower_edge in P2. destruct B as [[E B]|[[E [B1 B2]]|[E B]]].
      * apply ltb_Fin in B. apply ltb_Fin. pose proof (edge_mono n l r 0 i Hn Hle ltac:(lia)) as E0. rewrite edge_left in E0.
        revert W. generalize ((r - l) / qn nb)%Qc. intros v W. qc_lra.
      * destruct (Nat.eqb_spec j 0); [lia|]. destruct (Nat.leb_spec j nb); [|lia].
        apply ltb_Fin in B2. apply ltb_Fin in P2. apply ltb_Fin.
        assert (SE : (edge nb l r j = edge nb l r (j - 1) + (r - l) / qn nb)%Qc).
        { unfold edge. replace j with (S (j - 1)) at 1 by lia. rewrite qn_S. ring. }
        rewrite SE in B2. revert B2 P2 W. generalize ((r - l) / qn nb)%Qc. intros v B2 P2 W. qc_lra.
      * apply leb_Fin in B. qc_lra.
Qed.

(** The label of a model in the schema. *)

Definition label_feature (c : eval_config) (schema : list feature) (m o : string) (f : feature) : Prop :=
  exists spec, get_model_spec c m = Some spec /\ get_label_key spec o = Ok (Some (f_name f)) /\ f_name f <> "" /\
    NoDup (map f_name schema) /\ In f schema.

Definition lowest (f : feature) : option Qc :=
  match f_domain f with IntDomain lo _ => option_map qz lo | FloatDomain lo _ => lo | NoDomain => None end.

Definition highest (f : feature) : option Qc :=
  match f_domain f with IntDomain _ hi => option_map qz hi | FloatDomain _ hi => hi | NoDomain => None end.

Lemma find_unique schema f : NoDup (map f_name schema) -> In f schema -> find (fun g => String.eqb (f_name g) (f_name f)) schema = Some f.
Proof.
  induction schema as [|g schema IH]; intros N I; [contradiction|]. cbn [map] in N. inversion N; subst. cbn [find].
  destruct (String.eqb_spec (f_name g) (f_name f)) as [E|E].
  - destruct I as [I|I]; [congruence|]. exfalso. apply H1. rewrite E. apply in_map. exact I.
  - destruct I as [I|I]; [congruence|]. auto.
Qed.

Lemma C185_ends_given_pf : forall l r c schema m o, plot_ends (Some l) (Some r) c schema m o = Ok (l, r).
Proof. reflexivity. Qed.

Lemma C185_ends_from_schema_pf :
  forall left right c schema m o f, label_feature c schema m o f ->
    exists l r, plot_ends left right (Some c) (Some schema) m o = Ok (l, r) /\
      (forall x, left = Some x -> l = x) /\ (forall x, right = Some x -> r = x) /\
      (left = None -> forall x, lowest f = Some x -> l = x) /\ (right = None -> forall x, highest f = Some x -> r = x) /\
      (left = None -> lowest f = None -> l = 0%Qc) /\ (right = None -> highest f = None -> r = 1%Qc).
Proof.
  intros left right c schema m o f (spec & G & K & NK & ND & I).
  assert (F : find_label_domain c schema m o = Ok (lowest f, highest f)).
  { unfold find_label_domain. rewrite G, K. cbn [bind]. destruct (String.eqb_spec (f_name f) ""); [contradiction|].
    rewrite find_unique by auto. unfold lowest, highest. destruct (f_domain f); reflexivity. }
  unfold plot_ends. rewrite F.
  destruct left as [l|], right as [r|]; cbn [bind fst snd]; eexists; eexists; (split; [reflexivity|]);
    repeat split; intros; try congruence;
    repeat match goal with H : lowest f = _ |- _ => rewrite H; clear H | H : highest f = _ |- _ => rewrite H; clear H end; congruence.
Qed.

Definition one_model : eval_config := EvalConfig [ModelSpec "" "label" [] "" [] "" [] false ""] [] false UnknownMethod "".

Lemma label_feature_ex : forall d, label_feature one_model [Feature "x" NoDomain; Feature "label" d] "" "" (Feature "label" d).
Proof.
  intro d. eexists. split; [reflexivity|]. split; [reflexivity|]. split; [discriminate|]. split; [|right; left; reflexivity].
  cbn [map f_name]. constructor; [intros [X|[]]; discriminate|]. constructor; [intros []|constructor].
Qed.

Lemma C185_usable_range_refuted_pf :
  (forall e, In e [plain 1 2 1; plain 3 (5 # 2) 1] ->
     calibration_plot (fun _ _ => []) 10 2 None None (Some one_model) (Some [Feature "label" (IntDomain (Some 1%Z) None)])
       None false None false "" "" "" "" (Bundle [e]) = Err ZeroDivisionError) /\
  exists bs b,
    calibration_plot (fun _ _ => []) 10 2 None None (Some one_model) (Some [Feature "label" (IntDomain (Some 2%Z) None)])
      None false None false "" "" "" "" (Bundle [plain 3 3 1]) = Ok bs /\
    In b bs /\ sb_lower b = NegInf /\ sb_upper b = Fin (qz 2) /\ sb_examples b = 1%Qc.
Proof.
  split.
  - intros e [<-|[<-|[]]]; vm_compute; reflexivity.
  - eexists. eexists. split; [vm_compute; reflexivity|]. split; [left; reflexivity|]. split; [reflexivity|]. split; qc_ex.
Qed.

Lemma C186_classes_refuted_pf :
  exists a b name sep,
    ma_class_id a <> ma_class_id b /\
    filter_and_separate_computations (detection_plot_computations a 1 name "" "" false ++ detection_plot_computations b 2 name "" "" false) = Ok sep /\
    map (fun c => cp_body (snd c)) (sp_base sep) = [CountHistogram a; CountHistogram b] /\
    map (fun c => cp_body (snd c)) (sp_derived sep) =
      [MatricesOf (plot_histogram_key a "" "" false); PlotOf (plot_matrices_key name "" "" false); PlotOf (plot_matrices_key name "" "" false)].
Proof.
  exists (MatchArguments "1" None None None None None None None false), (MatchArguments "2" None None None None None None None false), "object_detection_confusion_matrix_plot".
  eexists. split; [discriminate|]. split; [vm_compute; reflexivity|]. split; vm_compute; reflexivity.
Qed.

Lemma keys_apart a b : a <> b -> metric_key_eqb a b = false.
Proof. intro H. destruct (metric_key_eqb a b) eqn:E; auto. apply metric_key_eqb_eq in E. contradiction. Qed.

Lemma C186_names_apart_partial_pf :
  forall a b i j n1 n2 m o w, n1 <> n2 ->
    exists sep,
      filter_and_separate_computations (detection_plot_computations a i n1 m o w ++ detection_plot_computations b j n2 m o w) = Ok sep /\
      map (fun c => cp_body (snd c)) (sp_derived sep) =
        [MatricesOf (plot_histogram_key a m o w); PlotOf (plot_matrices_key n1 m o w);
         MatricesOf (plot_histogram_key b m o w); PlotOf (plot_matrices_key n2 m o w)].
Proof.
  intros a b i j n1 n2 m o w N.
  set (k1 := plot_matrices_key n1 m o w). set (k2 := plot_matrices_key n2 m o w).
  set (p1 := MetricKey n1 m o (Some (SubKey (Some i) None None)) None (Some w) false).
  set (p2 := MetricKey n2 m o (Some (SubKey (Some j) None None)) None (Some w) false).
  assert (H1 : metric_key_eqb p1 k1 = false) by (apply keys_apart; discriminate).
  assert (H2 : metric_key_eqb k2 k1 = false) by (apply keys_apart; intro E; injection E as E; congruence).
  assert (H3 : metric_key_eqb k2 p1 = false) by (apply keys_apart; discriminate).
  assert (H4 : metric_key_eqb p2 k1 = false) by (apply keys_apart; discriminate).
  assert (H5 : metric_key_eqb p2 p1 = false) by (apply keys_apart; intro E; injection E; congruence).
  assert (H6 : metric_key_eqb p2 k2 = false) by (apply keys_apart; discriminate).
  unfold detection_plot_computations. fold k1 k2 p1 p2. cbn [app].
  unfold filter_and_separate_computations.
  assert (ST : forall (s : separated plot_body) c l, foldM separate_step (c :: l) s = (let! s' := separate_step s c in foldM separate_step l s')) by reflexivity.
  assert (NW : forall l x (c : computation plot_body), existsb (fun ic => id_eqb x (fst ic)) l = false -> add_new l x c = l ++ [(x, c)]) by (intros l x c E; unfold add_new; rewrite E; reflexivity).
  do 6 (rewrite ST; unfold separate_step at 1, comp_id at 1, metric_computation_id, derived_computation_id; cbn [cp_kind cp_keys sorted bind sp_base sp_derived sp_cross sp_ci];
    try rewrite NW by (unfold id_eqb; cbn [existsb fst ci_class ci_keys ci_preprocessors list_eqb app]; rewrite ?H1, ?H2, ?H3, ?H4, ?H5, ?H6, ?andb_false_l, ?andb_false_r; reflexivity); cbn [app]).
  eexists. split; [reflexivity|]. cbn [sp_derived].
  unfold add_new, id_eqb. cbn [existsb fst ci_class ci_keys ci_preprocessors list_eqb app].
  rewrite H2, H3, ?andb_false_l, ?andb_false_r. cbn [orb app existsb fst ci_class ci_keys ci_preprocessors list_eqb].
  rewrite H4, H5, H6, ?andb_false_l, ?andb_false_r. reflexivity.
Qed.

(** The scores counted as positive at the i-th threshold of n over nb buckets. *)

Definition counted (nb n i : nat) (p : num) : bool :=
  if Nat.eqb i 0 then true
  else if Nat.eqb i 1 then num_leb (Fin 0%Qc) p
  else num_leb (Fin (qn (i - 1) / qn n + 1 / qn nb)%Qc) p || num_leb (Fin 1%Qc) p.

(** The thresholds the histogram is cut at. *)

Definition cut_at (n i : nat) : num :=
  if Nat.eqb i 1 then Fin 0%Qc else Fin (plot_threshold n i + BCM_EPS)%Qc.

Lemma plot_rebin_thresholds n : 1 <= n ->
  rebin_thresholds (map (fun i => Fin (plot_threshold n i)) (seq 0 (n + 2))) = Ok (map (cut_at n) (seq 0 (n + 2))).
Proof.
  intro Hn. unfold rebin_thresholds.
  assert (NK : nth_ok (map (fun i => Fin (plot_threshold n i)) (seq 0 (n + 2))) 0 = Ok (Fin (plot_threshold n 0))).
  { replace (n + 2) with (S (n + 1)) by lia. reflexivity. }
  rewrite NK. cbn [bind]. change (num_leb (Fin 0%Qc) (Fin (plot_threshold n 0))) with false. cbv iota.
  assert (LA : last (map (fun i => Fin (plot_threshold n i)) (seq 0 (n + 2))) NaN = Fin 1%Qc).
  { replace (n + 2) with (n + 1 + 1) by lia. rewrite seq_app, map_app. cbn [seq map]. rewrite last_last.
    unfold plot_threshold. destruct (Nat.eqb_spec (0 + (n + 1)) 0); [lia|]. replace (0 + (n + 1) - 1) with n by lia. f_equal.
    field. apply Qcpos_neq, qn_pos; auto. }
  rewrite LA. change (num_ltb (Fin 1%Qc) (Fin 1%Qc)) with false. cbv iota. f_equal. rewrite map_map. apply map_ext_in. intros i Hi.
  cbn [num_eqb num_plus]. unfold cut_at. destruct (Nat.eqb_spec i 1) as [->|N1].
  - replace (plot_threshold n 1) with 0%Qc; [reflexivity|]. unfold plot_threshold. cbn [Nat.eqb Nat.sub]. apply Qc_is_canon. reflexivity.
  - replace (Qc_eqb (plot_threshold n i) 0%Qc) with false; [reflexivity|]. symmetry. apply Qc_eqb_neq.
    unfold plot_threshold. destruct (Nat.eqb_spec i 0); [discriminate|]. apply Qcpos_neq. unfold Qcdiv. apply Qcmult_pos.
    + apply qn_pos. lia.
    + apply Qcinv_pos, qn_pos; auto.
Qed.

Lemma cuts_sorted n : 1 <= n -> StronglySorted (fun a b => num_leb a b = true) (map (cut_at n) (seq 0 (n + 2))).
Proof.
  intro Hn. apply SS_seq. intros i j _ Hij _. unfold cut_at.
  destruct (Nat.eqb_spec i 1) as [->|Ni]; destruct (Nat.eqb_spec j 1) as [->|Nj]; try lia; apply leb_Fin.
  - pose proof (plot_threshold_lt n 1 j Hn Hij) as X. replace (plot_threshold n 1) with 0%Qc in X.
    + assert (0 < BCM_EPS)%Qc by reflexivity. qc_lra.
    + unfold plot_threshold. cbn [Nat.eqb Nat.sub]. apply Qc_is_canon. reflexivity.
  - replace i with 0 by lia. discriminate.
  - pose proof (plot_threshold_lt n i j Hn Hij) as X. qc_lra.
Qed.

Lemma qn_mult x y : qn (x * y) = (qn x * qn y)%Qc.
Proof.
  unfold qn. rewrite Nat2Z.inj_mul. unfold qz. apply Qc_is_canon. rewrite this_mult.
  unfold Q2Qc, this. rewrite !Qred_correct. unfold Qeq, Qmult, inject_Z. simpl. lia.
Qed.

Lemma unit_edge nb j : edge nb 0%Qc 1%Qc j = (qn j / qn nb)%Qc.
Proof. unfold edge, Qcdiv. ring. Qed.

Lemma qn_div_le nb a b : 1 <= nb -> a <= b <-> (qn a / qn nb <= qn b / qn nb)%Qc.
Proof.
  intro Hnb. assert (P : (0 < qn nb)%Qc) by (apply qn_pos; auto). assert (I : (0 < / qn nb)%Qc) by (apply Qcinv_pos; auto).
  split; intro H.
  - unfold Qcdiv. apply Qcmult_le_compat_r; [apply qn_le; auto|apply Qclt_le_weak; auto].
  - apply qn_le. apply (Qcmult_le_compat_r _ _ (qn nb)) in H; [|apply Qclt_le_weak; auto].
    assert (E : forall x, (x / qn nb * qn nb = x)%Qc) by (intro; field; apply Qcpos_neq; auto). rewrite !E in H. exact H.
Qed.

(** Buckets narrower than 1e-7 aside, the shift of 1e-7 moves a cut at an edge to the
    next edge. *)

Lemma cut_reached n k i p : 1 <= n -> 1 <= k -> (qn (n * k) <= Q2Qc (10000000 # 1))%Qc -> p <> NaN -> 1 <= i < n + 2 ->
  num_leb (cut_at n i) (lower_edge (n * k) 0%Qc 1%Qc (bid (n * k) 0%Qc 1%Qc p)) = counted (n * k) n i p.
Proof.
  intros Hn Hk Hb Np Hi. set (nb := n * k) in *. assert (Hnb : 1 <= nb) by (unfold nb; nia).
  assert (LR : (0 < 1)%Qc) by reflexivity.
  unfold cut_at, counted. destruct (Nat.eqb_spec i 0); [lia|]. destruct (Nat.eqb_spec i 1) as [->|N1].
  - replace 0%Qc with (edge nb 0%Qc 1%Qc 0) at 1 4 by (rewrite edge_left; reflexivity). apply edge_reached; auto. lia.
  - unfold plot_threshold. destruct (Nat.eqb_spec i 0); [lia|].
    assert (PN : (0 < qn nb)%Qc) by (apply qn_pos; auto).
    assert (PI : (0 < / qn nb)%Qc) by (apply Qcinv_pos; auto).
    assert (EPS : (BCM_EPS <= 1 / qn nb)%Qc).
    { apply Qcmult_lt_0_le_reg_r with (qn nb); auto. replace (1 / qn nb * qn nb)%Qc with 1%Qc by (field; apply Qcpos_neq; auto).
      apply Qcle_trans with (BCM_EPS * Q2Qc (10000000 # 1))%Qc; [|discriminate].
      rewrite (Qcmult_comm BCM_EPS), (Qcmult_comm BCM_EPS). apply Qcmult_le_compat_r; [exact Hb|discriminate]. }
    set (a := (i - 1) * k).
    assert (EA : (qn (i - 1) / qn n = qn a / qn nb)%Qc).
    { unfold a, nb. rewrite !qn_mult. field. split; apply Qcpos_neq, qn_pos; auto. }
    rewrite EA. assert (E1 : (qn a / qn nb + 1 / qn nb = qn (S a) / qn nb)%Qc) by (rewrite qn_S; field; apply Qcpos_neq; auto).
    rewrite E1.
    assert (AL : a <= nb) by (unfold a, nb; nia).
    assert (STEP : forall j, j < nb -> Qc_leb (qn a / qn nb + BCM_EPS)%Qc (qn j / qn nb)%Qc = Nat.leb (S a) j).
    { intros j Hj. destruct (Nat.leb_spec (S a) j) as [L|L].
      - apply Qc_leb_le. apply (qn_div_le nb) in L; auto. rewrite <- E1 in L. revert L EPS. generalize (qn a / qn nb)%Qc (1 / qn nb)%Qc (qn j / qn nb)%Qc. intros. qc_lra.
      - apply Qc_leb_gt. assert (L' : j <= a) by lia. apply (qn_div_le nb) in L'; auto. assert (0 < BCM_EPS)%Qc by reflexivity.
        revert L' H. generalize (qn a / qn nb)%Qc (qn j / qn nb)%Qc. intros. qc_lra. }
    destruct (bid_spec nb 0%Qc 1%Qc Hnb LR p Np) as (_ & B & _).
    set (j := bid nb 0%Qc 1%Qc p) in *. specialize (B j). rewrite Nat.eqb_refl in B. apply in_bucket_cases in B.
    assert (NA : (0 <= qn (S a) / qn nb)%Qc) by (apply Qcdiv_nonneg; [apply qn_nonneg|auto]).
    unfold lower_edge. destruct B as [[E B]|[[E [B1 B2]]|[E B]]].
    + rewrite E. cbn [Nat.eqb num_leb]. symmetry. destruct p as [| |q|]; try discriminate; [reflexivity|]. apply ltb_Fin in B.
      apply orb_false_iff. split; apply Qc_leb_gt; [|qc_lra]. revert NA. generalize (qn (S a) / qn nb)%Qc. intros. qc_lra.
    + destruct (Nat.eqb_spec j 0); [lia|]. destruct (Nat.leb_spec j nb); [|lia]. rewrite unit_edge in *. cbn [num_leb]. rewrite STEP by lia.
      destruct p as [| |q|]; try discriminate. apply leb_Fin in B1. apply ltb_Fin in B2.
      assert (Q1 : Qc_leb 1%Qc q = false).
      { apply Qc_leb_gt. assert (JN : j <= nb) by lia. apply (qn_div_le nb) in JN; auto.
        replace (qn nb / qn nb)%Qc with 1%Qc in JN by (field; apply Qcpos_neq; auto).
        revert B2 JN. generalize (qn j / qn nb)%Qc. intros. qc_lra. }
      cbn [num_leb]. rewrite Q1, orb_false_r. symmetry. destruct (Nat.leb_spec (S a) (j - 1)) as [L|L].
      * apply (qn_div_le nb) in L; auto. apply Qc_leb_le. eapply Qcle_trans; [exact L|exact B1].
      * apply Qc_leb_gt. assert (L' : j <= S a) by lia. apply (qn_div_le nb) in L'; auto. eapply Qclt_le_trans; [exact B2|exact L'].
    + rewrite E. destruct (Nat.eqb_spec (nb + 1) 0); [lia|]. destruct (Nat.leb_spec (nb + 1) nb); [lia|].
      cbn [num_leb]. symmetry. apply orb_true_iff. right. exact B.
Qed.

Lemma C180_counts_partial_pf :
  forall ap nb n weighted lk pk m o s ex w,
    1 <= nb -> 1 <= n -> (forall e, In e (inputs s) -> plottable weighted true m o ex w e) ->
    let D := scored_of ex w (inputs s) in
    exists rows,
      confusion_matrix_plot ap nb n None false None weighted lk pk m o s = Ok rows /\ length rows = n + 2 /\
      forall i, i < n + 2 -> exists r, nth_error rows i = Some r /\
        (exists t, sr_threshold r = Fin t /\ six_digits (plot_threshold n i) t) /\
        (sr_tp r + sr_fn r = qsum (map weighted_label D))%Qc /\
        (sr_fp r + sr_tn r = qsum (map weighted_negative D))%Qc /\
        forall k, nb = n * k -> (qn nb <= Q2Qc (10000000 # 1))%Qc ->
          sr_tp r = qsum (map weighted_label (filter (fun x => counted nb n i (sc_score x)) D)) /\
          sr_fp r = qsum (map weighted_negative (filter (fun x => counted nb n i (sc_score x)) D)).
Proof.
  intros ap nb n weighted lk pk m o s ex w Hnb Hn HG D.
  assert (LR : (0 < 1)%Qc) by reflexivity. assert (LE : (0 <= 1)%Qc) by discriminate.
  unfold confusion_matrix_plot. rewrite plot_thresholds_eq by auto. cbn [bind].
  destruct (C12_histogram_conserves_pf ap nb 0%Qc 1%Qc true true weighted lk pk m o s ex w Hnb LR) as
    (h & EH & AS & HB & HM & TL & TE & _).
  { discriminate. }
  { intros e He. destruct (HG e He) as (C & N & G). split; auto. split; auto. intros a p Hl.
    destruct (G a p Hl) as [G1 G2]. split; auto. intro F. apply unit_label_intro; auto. }
  fold D in HB, HM, TL, TE. rewrite EH. cbn [bind].
  set (ths := map (fun i => Fin (plot_threshold n i)) (seq 0 (n + 2))).
  assert (LT : length ths = n + 2) by (unfold ths; rewrite map_length, seq_length; auto).
  assert (NE : ths <> []) by (intro X; rewrite X in LT; simpl in LT; lia).
  assert (T0 : nth 0 ths NaN = Fin (plot_threshold n 0)) by (unfold ths; rewrite nth_map_seq by lia; reflexivity).
  assert (NT : ~ In NaN ths) by (intro I; apply in_map_iff in I; destruct I as (i & X & _); discriminate).
  destruct (histogram_result_cells ths h nb NE NT AS) as (g & c & mm & E & MT & P & N & L1 & L2 & L3 & L4 & EG & EC & M).
  { right. right. lia. }
  { right. rewrite T0. reflexivity. }
  rewrite E. cbn [bind].
  assert (SL : same_lengths mm (n + 2)) by (unfold same_lengths; rewrite MT, <- LT; auto).
  rewrite (to_proto_rows mm (n + 2) SL). eexists. split; [reflexivity|]. split; [rewrite map_length, seq_length; auto|].
  replace (Nat.eqb (length ths) 1) with false in EG, EC by (symmetry; apply Nat.eqb_neq; lia). cbn [andb] in EG.
  unfold ths in EG at 1. rewrite plot_rebin_thresholds in EG by auto. fold ths in EG.
  rewrite T0 in EC. change (num_leb (Fin 0%Qc) (Fin (plot_threshold n 0))) with false in EC. cbn [orb andb] in EC. subst c.
  set (r := map (cut_at n) (seq 0 (n + 2))) in *.
  assert (RN : length r = n + 2) by (unfold r; rewrite map_length, seq_length; auto).
  assert (RE : r <> []) by (intro X; rewrite X in RN; simpl in RN; lia).
  assert (RS : StronglySorted (fun a b => num_leb a b = true) r) by (apply cuts_sorted; auto).
  assert (NH : NoDup (map fst h)).
  { clear - AS. unfold ascending in AS. induction AS as [|a l S IH F]; constructor; auto.
    intro I. rewrite Forall_forall in F. specialize (F a I). lia. }
  assert (ND : forall x, In x D -> bucketed_by true x <> NaN).
  { intros x Hx. apply in_flat_map in Hx. destruct Hx as (e & He & Hx). destruct (HG e He) as (_ & _ & G).
    apply in_map_iff in Hx. destruct Hx as ([l0 p0] & <- & Hx). apply (G l0 p0 Hx). }
  intros i Hi. rewrite nth_error_map, (nth_error_nth' _ 0) by (rewrite seq_length; auto). rewrite seq_nth by auto.
  cbn [option_map Nat.add]. eexists. split; [reflexivity|].
  unfold show_row. cbn [sr_threshold sr_tp sr_fp sr_tn sr_fn].
  assert (NI : nth i (m_thresholds mm) NaN = Fin (plot_threshold n i)) by (rewrite MT; unfold ths; rewrite nth_map_seq by auto; reflexivity).
  split. { rewrite NI. apply round6_spec. }
  specialize (M i ltac:(lia)). cbv zeta in M.
  replace (nth i ths NaN) with (Fin (plot_threshold n i)) in M by (rewrite <- NI, MT; reflexivity).
  replace (Histogram_Main.above (Fin (plot_threshold n i))) with false in M.
  2:{ symmetry. apply Qc_leb_gt. assert (0 < BCM_EPS)%Qc by reflexivity. unfold plot_threshold. destruct (Nat.eqb_spec i 0); [reflexivity|].
      assert (X : i - 1 <= n) by lia. apply (qn_div_le n) in X; auto.
      replace (qn n / qn n)%Qc with 1%Qc in X by (field; apply Qcpos_neq, qn_pos; auto).
      revert X. generalize (qn (i - 1) / qn n)%Qc. intros. qc_lra. }
  cbn [Nat.add] in M. destruct M as (M1 & M2 & M3 & M4).
  split. { rewrite M1, M2, positives_split, P. exact TL. }
  split. { rewrite M3, M4, negatives_split, N. unfold negatives.
           rewrite (qsum_map_minus (fun b => t_examples (snd b)) (fun b => t_labels (snd b))), TL, TE.
           rewrite <- (qsum_map_minus sc_weight weighted_label). apply qsum_map_ext. intros x _. unfold weighted_label, weighted_negative. ring. }
  intros k Ek Hb. assert (Hk : 1 <= k) by nia.
  set (PB := fun id : nat => if Nat.eqb i 0 then true else num_leb (cut_at n i) (lower_edge nb 0%Qc 1%Qc id)).
  assert (SUF : totals_sum (map snd (skipn i g)) = totals_sum (map snd (filter (fun b => PB (fst b)) h))).
  { rewrite EG. destruct i as [|i].
    - cbn [skipn]. rewrite rebin_total by auto. unfold PB. cbn [Nat.eqb]. rewrite filter_true. reflexivity.
    - rewrite rebin_suffix by (auto; lia). unfold PB. cbn [Nat.eqb]. unfold r. rewrite nth_map_seq by auto. reflexivity. }
  assert (FE : filter (fun x => PB (bid nb 0%Qc 1%Qc (bucketed_by true x))) D = filter (fun x => counted nb n i (sc_score x)) D).
  { apply filter_ext_in. intros x Ix. unfold PB. destruct (Nat.eqb_spec i 0) as [->|Ni]; [reflexivity|].
    rewrite Ek. apply cut_reached; [exact Hn|exact Hk|rewrite <- Ek; exact Hb|apply (ND x Ix)|lia]. }
  rewrite <- FE. split.
  - rewrite M1, totals_positives, SUF, (proj1 (totals_sum_fields _)), map_map.
    apply (buckets_to_data nb 0%Qc 1%Qc true PB D h t_labels weighted_label Hnb LR NH ND).
    + intros j u Hj. apply (HB j u Hj).
    + intros j x NIx Ix. destruct (HM j x NIx Ix) as [_ W]. unfold weighted_label. rewrite W. ring.
  - rewrite M3, totals_negatives, SUF.
    destruct (totals_sum_fields (map snd (filter (fun b => PB (fst b)) h))) as [-> ->]. rewrite !map_map.
    rewrite <- (qsum_map_minus (fun b => t_examples (snd b)) (fun b => t_labels (snd b))).
    apply (buckets_to_data nb 0%Qc 1%Qc true PB D h (fun u => t_examples u - t_labels u)%Qc weighted_negative Hnb LR NH ND).
    + intros j u Hj. destruct (HB j u Hj) as (_ & _ & L & X & _). rewrite L, X.
      rewrite <- (qsum_map_minus sc_weight weighted_label). apply qsum_map_ext. intros x _. unfold weighted_label, weighted_negative. ring.
    + intros j x NIx Ix. destruct (HM j x NIx Ix) as [_ W]. unfold weighted_negative. rewrite W. ring.
Qed.

Lemma C180_above_threshold_refuted_pf :
  exists s rows,
    confusion_matrix_plot (fun _ _ => []) 10 2 None false None false "" "" "" "" s = Ok rows /\
    map i_prediction (inputs s) = map (fun q => Some (Leaf [Fin (Q2Qc q)])) [(-5) # 1; 0 # 1; 11 # 20; 1 # 1]%Q /\
    map sr_tp rows = [qz 4; qz 3; 1%Qc; 1%Qc].
Proof.
  exists (Bundle [plain 1 (-5 # 1) 1; plain 1 0 1; plain 1 (11 # 20) 1; plain 1 1 1]). eexists.
  split; [vm_compute; reflexivity|]. split; [reflexivity|]. qc_ex.
Qed.
