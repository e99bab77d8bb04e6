(* Proofs of the theorems restated in Histogram_Properties.v. *)
From Coq Require Import String Ascii Sorting.Sorted.
From Verif Require Import Base BaseFacts Beam BeamFacts Util_Model Util_Main Inputs_Model Inputs_Main Sums_Model Sums_Main Histogram_Model.
Local Open Scope string_scope.
Local Open Scope list_scope.

(* C12, C13, C16, C64, C65: calibration histograms and confusion matrices from them. *)

Definition nat_eqb_eq := Nat.eqb_eq.

(** Edges of nb equal intervals of [left, right], and the interval of bucket i:
    0 is below left, nb+1 is right and above. *)

Definition edge (nb : nat) (left right : Qc) (j : nat) : Qc := (left + qn j * ((right - left) / qn nb))%Qc.

Definition in_bucket (nb : nat) (left right : Qc) (i : nat) (p : num) : bool :=
  if Nat.eqb i 0 then num_ltb p (Fin left)
  else if Nat.leb i nb then num_leb (Fin (edge nb left right (i - 1))) p &&
                            num_ltb p (Fin (edge nb left right i))
  else Nat.eqb i (nb + 1) && num_leb (Fin right) p.

Lemma in_bucket_cases nb left right i p :
  in_bucket nb left right i p = true <->
  (i = 0 /\ num_ltb p (Fin left) = true) \/
  (1 <= i <= nb /\ num_leb (Fin (edge nb left right (i - 1))) p = true /\
   num_ltb p (Fin (edge nb left right i)) = true) \/
  (i = nb + 1 /\ num_leb (Fin right) p = true).
Proof.
  unfold in_bucket. destruct (Nat.eqb_spec i 0); [|destruct (Nat.leb_spec i nb)].
  - subst. split; [auto|]. intros [[_ H]|[[H _]|[H _]]]; auto; lia.
  - rewrite andb_true_iff. split; [intro; right; left; split; [lia|auto]|].
    intros [[H1 _]|[[_ H1]|[H1 _]]]; auto; lia.
  - rewrite andb_true_iff, Nat.eqb_eq. split; [auto|]. intros [[H1 _]|[[H1 _]|H1]]; auto; lia.
Qed.

Lemma qn_pos n : 1 <= n -> (0 < qn n)%Qc.
Proof. intro H. unfold qn. apply (proj1 (qz_lt 0 _)). lia. Qed.

Lemma qn_nonneg n : (0 <= qn n)%Qc.
Proof. unfold qn. apply (proj1 (qz_le 0 _)). lia. Qed.

Lemma qn_plus a b : qn (a + b) = (qn a + qn b)%Qc.
Proof. unfold qn. rewrite Nat2Z.inj_add, qz_plus. reflexivity. Qed.

Lemma qn_S n : qn (S n) = (qn n + 1)%Qc.
Proof. rewrite <- Nat.add_1_r, qn_plus. reflexivity. Qed.

Lemma qn_le a b : a <= b <-> (qn a <= qn b)%Qc.
Proof. unfold qn. rewrite <- qz_le. lia. Qed.

Lemma qn_lt a b : a < b <-> (qn a < qn b)%Qc.
Proof. unfold qn. rewrite <- qz_lt. lia. Qed.

Lemma trunc_bounds q : (0 <= q)%Qc ->
  (qn (Z.to_nat (Qc_trunc q)) <= q)%Qc /\ (q < qn (Z.to_nat (Qc_trunc q)) + 1)%Qc.
Proof.
  intro H. unfold Qc_trunc.
  assert (N : (0 <= Qnum (this q))%Z).
  { unfold Qcle, Qle in H. simpl in H. lia. }
  pose proof (Z.quot_rem (Qnum (this q)) (Zpos (Qden (this q))) ltac:(lia)) as E.
  pose proof (Z.rem_bound_pos (Qnum (this q)) (Zpos (Qden (this q))) N ltac:(lia)) as B.
  pose proof (Z.quot_pos (Qnum (this q)) (Zpos (Qden (this q))) N ltac:(lia)) as P.
  set (k := Z.quot (Qnum (this q)) (Zpos (Qden (this q)))) in *.
  unfold qn. rewrite Z2Nat.id by auto. split.
  - unfold Qcle. rewrite qz_this. unfold Qle. simpl. lia.
  - change 1%Qc with (qz 1). rewrite <- qz_plus. unfold Qclt. rewrite qz_this. unfold Qlt. simpl. nia.
Qed.

Lemma Qcinv_pos x : (0 < x)%Qc -> (0 < / x)%Qc.
Proof. intro H. unfold Qclt. rewrite this_inv. apply Qinv_lt_0_compat. exact H. Qed.

Lemma Qcmult_pos x y : (0 < x)%Qc -> (0 < y)%Qc -> (0 < x * y)%Qc.
Proof. intros. qc_nra. Qed.

Lemma Qcpos_neq x : (0 < x)%Qc -> x <> 0%Qc.
Proof. intros H E. rewrite E in H. apply (Qclt_not_eq _ _ H). reflexivity. Qed.

Lemma num_scale_inf w p : (0 < w)%Qc -> p = NegInf \/ p = PosInf -> num_scale w p = p.
Proof.
  intros H [->| ->]; unfold num_scale;
    (replace (Qc_eqb w 0%Qc) with false by (symmetry; apply Qc_eqb_neq, Qcpos_neq; auto));
    (replace (Qc_ltb 0%Qc w) with true by (symmetry; apply Qc_ltb_lt; auto)); reflexivity.
Qed.

(** Position of a finite prediction, in interval widths from left. *)

Definition width_position (nb : nat) (left right q : Qc) : Qc := (qn nb * (/ (right - left) * (q + - left)))%Qc.

Lemma width_edge nb left right q j : 1 <= nb -> (left < right)%Qc ->
  ((edge nb left right j <= q)%Qc <-> (qn j <= width_position nb left right q)%Qc) /\
  ((q < edge nb left right j)%Qc <-> (width_position nb left right q < qn j)%Qc).
Proof.
  intros Hnb Hlr.
  assert (Hr : (0 < right - left)%Qc) by qc_lra.
  assert (Hn : (0 < qn nb)%Qc) by (apply qn_pos; auto).
  pose proof (Qcpos_neq _ Hr) as Hr0. pose proof (Qcpos_neq _ Hn) as Hn0.
  set (y := width_position nb left right q).
  set (d := ((right - left) / qn nb)%Qc).
  assert (Hd : (0 < d)%Qc) by (apply Qcmult_pos; auto; apply Qcinv_pos; auto).
  assert (E : (q = left + y * d)%Qc).
  { unfold y, d, width_position. field. split; auto. }
  unfold edge. fold d. rewrite E. clearbody y d. clear E q.
  generalize (qn j). intro n. split; split; intro; qc_nra.
Qed.

Lemma edge_left nb left right : edge nb left right 0 = left.
Proof. unfold edge. change (qn 0) with 0%Qc. ring. Qed.

Lemma edge_right nb left right : 1 <= nb -> edge nb left right nb = right.
Proof. intro H. unfold edge. field. apply Qcpos_neq, qn_pos. auto. Qed.

Lemma leb_Fin a b : num_leb (Fin a) (Fin b) = true <-> (a <= b)%Qc.
Proof. apply Qc_leb_le. Qed.

Lemma ltb_Fin a b : num_ltb (Fin a) (Fin b) = true <-> (a < b)%Qc.
Proof. apply Qc_ltb_lt. Qed.

Lemma C12_bucket_contains_pf :
  forall nb left right p, 1 <= nb -> (left < right)%Qc -> p <> NaN ->
    exists i, bucket_index nb left (right - left)%Qc p = Ok i /\
      forall j, in_bucket nb left right j p = true <-> j = i.
Proof.
  intros nb left right p Hnb Hlr Np.
  assert (Hr : (0 < right - left)%Qc) by qc_lra.
  assert (Hn : (0 < qn nb)%Qc) by (apply qn_pos; auto).
  pose proof (Qcpos_neq _ Hr) as Hr0. pose proof (Qcpos_neq _ Hn) as Hn0.
  assert (Hi : (0 < / (right - left))%Qc) by (apply Qcinv_pos; auto).
  pose proof (Qcpos_neq _ Hi) as Hi0.
  unfold bucket_index.
  replace (Qc_eqb (right - left) 0%Qc) with false by (symmetry; apply Qc_eqb_neq; auto).
  destruct p as [| |q|]; [congruence| | |]; cbn [num_plus].
  - rewrite (num_scale_inf (/ (right - left))%Qc), (num_scale_inf (qn nb)) by auto.
    exists 0. split; [reflexivity|]. intro j. rewrite in_bucket_cases. simpl. split; [|auto].
    intros [[E _]|[[E [F _]]|[E F]]]; [auto|discriminate|discriminate].
  - cbn [num_scale num_plus].
    fold (width_position nb left right q).
    pose proof (fun j => width_edge nb left right q j Hnb Hlr) as W.
    set (y := width_position nb left right q) in *.
    assert (SB : forall j, in_bucket nb left right j (Fin q) = true <->
               (j = 0 /\ (y < 0)%Qc) \/ (1 <= j <= nb /\ (qn (j - 1) <= y)%Qc /\ (y < qn j)%Qc) \/
               (j = nb + 1 /\ (qn nb <= y)%Qc)).
    { intro j. rewrite in_bucket_cases, !leb_Fin, !ltb_Fin.
      destruct (W j) as [_ W1]. destruct (W (j - 1)) as [W2 _].
      destruct (W 0) as [_ W3]. destruct (W nb) as [W4 _].
      rewrite edge_left in W3. rewrite edge_right in W4 by auto. change (qn 0) with 0%Qc in W3.
      rewrite W1, W2, W3, W4. reflexivity. }
    assert (U : forall i j, in_bucket nb left right i (Fin q) = true -> in_bucket nb left right j (Fin q) = true -> j = i).
    { intros i j Bi Bj. apply SB in Bi. apply SB in Bj.
      destruct Bi as [[-> I1]|[[I0 [I1 I2]]|[-> I1]]]; destruct Bj as [[-> J1]|[[J0 [J1 J2]]|[-> J1]]]; auto.
      - pose proof (qn_nonneg (j - 1)). exfalso. qc_lra.
      - exfalso. qc_lra.
      - pose proof (qn_nonneg (i - 1)). exfalso. qc_lra.
      - assert (qn (j - 1) < qn i)%Qc as A by qc_lra. assert (qn (i - 1) < qn j)%Qc as B by qc_lra.
        apply qn_lt in A. apply qn_lt in B. lia.
      - assert (qn nb < qn i)%Qc as A by qc_lra. apply qn_lt in A. lia.
      - exfalso. qc_lra.
      - assert (qn nb < qn j)%Qc as A by qc_lra. apply qn_lt in A. lia. }
    enough (exists i, (if num_ltb (Fin (y + 1)%Qc) (Fin 0%Qc) then Ok 0
                       else if num_leb (Fin (qn nb + 1)%Qc) (Fin (y + 1)%Qc) then Ok (nb + 1)
                       else Ok (Z.to_nat (Qc_trunc (y + 1)%Qc))) = Ok i /\ in_bucket nb left right i (Fin q) = true) as [i [E B]].
    { exists i. split; [exact E|]. intro j. split; [intro; apply U; auto|intros ->; auto]. }
    destruct (num_ltb (Fin (y + 1)%Qc) (Fin 0%Qc)) eqn:E1.
    { eexists. split; [reflexivity|]. apply SB. left. split; auto. apply ltb_Fin in E1. qc_lra. }
    destruct (num_leb (Fin (qn nb + 1)%Qc) (Fin (y + 1)%Qc)) eqn:E2.
    { eexists. split; [reflexivity|]. apply SB. right; right. split; auto. apply leb_Fin in E2. qc_lra. }
    simpl in E1, E2. apply Qc_ltb_ge in E1. apply Qc_leb_gt in E2.
    eexists. split; [reflexivity|]. apply SB.
    destruct (trunc_bounds _ E1) as [T1 T2].
    destruct (Z.to_nat (Qc_trunc (y + 1)%Qc)) as [|k].
    { left. split; auto. change (qn 0) with 0%Qc in T2. qc_lra. }
    right; left. rewrite qn_S in *.
    assert (K : (qn k < qn nb)%Qc) by qc_lra. apply qn_lt in K.
    split; [lia|]. replace (S k - 1) with k by lia. split; qc_lra.
  - rewrite (num_scale_inf (/ (right - left))%Qc), (num_scale_inf (qn nb)) by auto.
    exists (nb + 1). split; [reflexivity|]. intro j. rewrite in_bucket_cases. simpl. split; [|auto].
    intros [[_ E]|[[E [_ F]]|[E F]]]; [discriminate|discriminate|auto].
Qed.

(** Sums of bucket fields. *)

Definition totals_sum (l : list totals) : totals := fold_right totals_plus totals_zero l.

Lemma totals_assoc a b c : totals_plus a (totals_plus b c) = totals_plus (totals_plus a b) c.
Proof. unfold totals_plus; simpl. f_equal; try ring. apply num_plus_assoc. Qed.

Lemma totals_comm a b : totals_plus a b = totals_plus b a.
Proof. unfold totals_plus; simpl. f_equal; try ring. apply num_plus_comm. Qed.

Lemma totals_e a : totals_plus a totals_zero = a.
Proof. destruct a; unfold totals_plus, totals_zero; simpl. f_equal; try ring. apply num_plus_e. Qed.

Lemma totals_e_l a : totals_plus totals_zero a = a.
Proof. rewrite totals_comm. apply totals_e. Qed.

Lemma totals_sum_app l1 l2 : totals_sum (l1 ++ l2) = totals_plus (totals_sum l1) (totals_sum l2).
Proof.
  induction l1; simpl; [rewrite totals_e_l; auto|].
  fold (totals_sum (l1 ++ l2)). rewrite IHl1. apply totals_assoc.
Qed.

(** The accumulator holds exactly one entry per bucket hit, with the sum of what hit it. *)

Definition hits (C : list bucket) (i : nat) : list totals :=
  map snd (filter (fun b => Nat.eqb i (fst b)) C).

Definition maybe_sum (l : list totals) : option totals :=
  match l with [] => None | _ => Some (totals_sum l) end.

Lemma maybe_sum_Some l t : maybe_sum l = Some t -> l <> [] /\ t = totals_sum l.
Proof. destruct l; intro H; [discriminate|]. split; [discriminate|]. injection H. auto. Qed.

Definition tallies (a : list bucket) (C : list bucket) : Prop :=
  NoDup (map fst a) /\ forall i, dget Nat.eqb a i = maybe_sum (hits C i).

Lemma hits_app C1 C2 i : hits (C1 ++ C2) i = hits C1 i ++ hits C2 i.
Proof. unfold hits. rewrite filter_app, map_app. reflexivity. Qed.

Definition oplus (a b : option totals) : option totals :=
  match a, b with
  | None, x => x
  | x, None => x
  | Some x, Some y => Some (totals_plus x y)
  end.

Lemma maybe_sum_app l1 l2 : maybe_sum (l1 ++ l2) = oplus (maybe_sum l1) (maybe_sum l2).
Proof.
  destruct l1 as [|x l1]; [reflexivity|]. destruct l2 as [|y l2].
  - rewrite app_nil_r. reflexivity.
  - unfold maybe_sum. cbn [app oplus]. rewrite <- totals_sum_app. reflexivity.
Qed.

Lemma merge_bucket_get a k b i :
  dget Nat.eqb (match dget Nat.eqb a k with
                | None => dset Nat.eqb a k (totals_plus totals_zero b)
                | Some e => dset Nat.eqb a k (totals_plus e b)
                end) i = if Nat.eqb i k then oplus (dget Nat.eqb a k) (Some b) else dget Nat.eqb a i.
Proof.
  destruct (dget Nat.eqb a k) as [e|] eqn:E; rewrite (dget_dset _ Nat.eqb_eq);
    destruct (Nat.eqb i k); auto; simpl; rewrite ?totals_e_l; auto.
Qed.

Lemma add_bucket_merge a k b : add_bucket a k b =
  match dget Nat.eqb a k with
  | None => dset Nat.eqb a k (totals_plus totals_zero b)
  | Some e => dset Nat.eqb a k (totals_plus e b)
  end.
Proof. unfold add_bucket. rewrite totals_e_l. reflexivity. Qed.

Lemma merge_bucket_NoDup a k b : NoDup (map fst a) ->
  NoDup (map fst (match dget Nat.eqb a k with
                | None => dset Nat.eqb a k (totals_plus totals_zero b)
                | Some e => dset Nat.eqb a k (totals_plus e b)
                end)).
Proof. intro N. destruct (dget Nat.eqb a k); apply (dset_NoDup _ Nat.eqb_eq); auto. Qed.

Lemma tallies_add a C k b : tallies a C -> tallies (add_bucket a k b) (C ++ [(k, b)]).
Proof.
  intros [N H]. rewrite add_bucket_merge. split; [apply merge_bucket_NoDup; auto|].
  intro i. rewrite merge_bucket_get, hits_app, maybe_sum_app, <- !H. unfold hits. simpl.
  destruct (Nat.eqb_spec i k).
  - subst. simpl. rewrite totals_e. reflexivity.
  - simpl. destruct (dget Nat.eqb a i); reflexivity.
Qed.

Lemma merge_histogram_get b : forall a, NoDup (map fst a) -> NoDup (map fst b) ->
  NoDup (map fst (merge_histogram a b)) /\
  forall i, dget Nat.eqb (merge_histogram a b) i = oplus (dget Nat.eqb a i) (dget Nat.eqb b i).
Proof.
  unfold merge_histogram. induction b as [|[k t] b IH]; intros a Na Nb.
  - cbn [fold_left]. split; auto. intro i. simpl. destruct (dget Nat.eqb a i); reflexivity.
  - cbn [fold_left fst snd map] in *. inversion Nb; subst.
    destruct (IH _ (merge_bucket_NoDup a k t Na) H2) as [N E]. split; [exact N|].
    intro i. rewrite E, merge_bucket_get. cbn [dget]. destruct (Nat.eqb_spec i k).
    + subst. replace (dget Nat.eqb b k) with (@None totals)
        by (symmetry; apply (dget_None _ Nat.eqb_eq); auto).
      destruct (dget Nat.eqb a k); reflexivity.
    + reflexivity.
Qed.

Lemma tallies_merge a b C1 C2 : tallies a C1 -> tallies b C2 -> tallies (merge_histogram a b) (C1 ++ C2).
Proof.
  intros [N1 H1] [N2 H2]. destruct (merge_histogram_get b a N1 N2) as [N E].
  split; auto. intro i. rewrite E, hits_app, maybe_sum_app, H1, H2. reflexivity.
Qed.

(** Sorting. *)

Lemma insert_bucket_perm b l : Permutation (insert_bucket b l) (b :: l).
Proof.
  induction l as [|c t IH]; simpl; auto. destruct (Nat.leb (fst b) (fst c)); auto.
  rewrite IH. apply perm_swap.
Qed.

Lemma sort_buckets_perm l : Permutation (sort_buckets l) l.
Proof. induction l; simpl; auto. unfold sort_buckets in *. simpl. rewrite insert_bucket_perm, IHl. auto. Qed.

Definition ascending (h : list bucket) : Prop := StronglySorted lt (map fst h).

Lemma insert_bucket_sorted b l : ascending l -> ~ In (fst b) (map fst l) -> ascending (insert_bucket b l).
Proof.
  unfold ascending. induction l as [|c t IH]; intros S N; simpl.
  - constructor; constructor.
  - simpl in S. inversion S; subst. destruct (Nat.leb_spec (fst b) (fst c)).
    + simpl. constructor; auto. assert (fst b < fst c) by (simpl in N; lia).
      constructor; auto. rewrite Forall_forall in *. intros x Hx. specialize (H2 x Hx). lia.
    + simpl. constructor; [apply IH; simpl in N; auto|].
      rewrite Forall_forall in *. intros x Hx.
      apply (Permutation_in _ (Permutation_map fst (insert_bucket_perm b t))) in Hx.
      destruct Hx as [<-|Hx]; auto.
Qed.

Lemma sort_buckets_sorted l : NoDup (map fst l) -> ascending (sort_buckets l).
Proof.
  induction l as [|b l IH]; simpl; intro N; [constructor|]. inversion N; subst.
  unfold sort_buckets in *. simpl. apply insert_bucket_sorted; auto.
  intro H. apply H1. apply (Permutation_in _ (Permutation_map fst (sort_buckets_perm l))) in H. exact H.
Qed.

Lemma tallies_sorted a C : tallies a C -> tallies (sort_buckets a) C /\ ascending (sort_buckets a).
Proof.
  intros [N H]. pose proof (sort_buckets_perm a) as P.
  assert (N' : NoDup (map fst (sort_buckets a))).
  { eapply Permutation_NoDup; [|exact N]. apply Permutation_map. symmetry. exact P. }
  split; [split; auto|apply sort_buckets_sorted; auto].
  intro i. rewrite <- H. destruct (dget Nat.eqb a i) as [t|] eqn:E.
  - apply (dget_In_NoDup _ Nat.eqb_eq); auto. apply (dget_In _ Nat.eqb_eq) in E.
    eapply Permutation_in; [symmetry; exact P|exact E].
  - apply (dget_None _ Nat.eqb_eq). apply (dget_None _ Nat.eqb_eq) in E.
    intro X. apply E. eapply Permutation_in; [apply Permutation_map; exact P|exact X].
Qed.

(** One labelled score of an example: (label, score, weight). *)

Definition scored := (Qc * num * Qc)%type.

Definition sc_label (x : scored) : Qc := fst (fst x).

Definition sc_score (x : scored) : num := snd (fst x).

Definition sc_weight (x : scored) : Qc := snd x.

Definition as_tuple (x : scored) : yielded := ([sc_label x], [sc_score x], [sc_weight x]).

(** With fractional labels an example counts as a negative and a positive part. *)

Definition parts (fr : bool) (x : scored) : list scored :=
  if fr then filter (fun y => negb (Qc_eqb (sc_weight y) 0%Qc))
               [(0%Qc, sc_score x, (sc_weight x * (1 - sc_label x))%Qc);
                (1%Qc, sc_score x, (sc_weight x * sc_label x)%Qc)]
  else [x].

Definition unit_label (l : Qc) : Prop := (- Q2Qc (1 # 10000000) <= l)%Qc /\ (l <= 1 + Q2Qc (1 # 10000000))%Qc.

Lemma fractional_parts x : unit_label (sc_label x) ->
  fractional (as_tuple x) = Ok (map as_tuple (parts true x)).
Proof.
  intros [H1 H2]. destruct x as [[l p] w]. unfold as_tuple, parts. unfold sc_label, sc_score, sc_weight in *. cbn [fst snd] in *.
  unfold fractional.
  replace (within_interval l 0%Qc 1%Qc) with true.
  2:{ symmetry. unfold within_interval, EPSILON. rewrite andb_true_iff, !Qc_leb_le. split; [|exact H2].
      eapply Qcle_trans; [|exact H1]. ring_simplify. apply Qcle_refl. }
  cbn [filter snd]. destruct (negb (Qc_eqb (w * (1 - l))%Qc 0%Qc)), (negb (Qc_eqb (w * l)%Qc 0%Qc)); reflexivity.
Qed.

Definition no_fraction (o : options) : options :=
  Options (o_sub_key o) (o_aggregation o) (o_class_weights o) (o_example_weighted o) false
          (o_flatten o) (o_allow_none o) (o_single_weight o).

Lemma yield_fraction ap o ls ps w : o_fractional o = true -> o_sub_key o = None -> ls <> [] ->
  yield_tuples ap o (Some ls) (Some ps) w =
  (let! ys := yield_tuples ap (no_fraction o) (Some ls) (Some ps) w in
   let! yss := mapM fractional ys in Ok (concat yss)).
Proof.
  intros F K N. unfold yield_tuples, no_fraction. cbn [o_sub_key o_aggregation o_class_weights o_example_weighted
    o_fractional o_flatten o_allow_none o_single_weight]. rewrite F, K.
  destruct (negb (o_allow_none o) && (false || false)); [reflexivity|].
  match goal with |- bind ?r _ = bind (bind ?r _) _ => destruct r as [w1|]; cbn [bind]; auto end.
  match goal with |- bind ?r _ = bind (bind ?r _) _ => destruct r as [w2|]; cbn [bind]; auto end.
  match goal with |- bind ?r _ = bind (bind ?r _) _ => destruct r as [w3|]; cbn [bind]; auto end.
  destruct (yield_results (o_flatten o) ls ps w3); cbn [bind]; auto.
  destruct ls; [congruence|]. reflexivity.
Qed.

Lemma mapM_fractional xs : (forall x, In x xs -> unit_label (sc_label x)) ->
  mapM fractional (map as_tuple xs) = Ok (map (fun x => map as_tuple (parts true x)) xs).
Proof.
  induction xs as [|x xs IH]; intro H; [reflexivity|]. cbn [map mapM].
  rewrite fractional_parts by (apply H; left; auto). cbn [bind].
  rewrite IH by (intros; apply H; right; auto). reflexivity.
Qed.

Lemma flatten_parts ap o (ex : list (Qc * num)) w :
  o_flatten o = true -> o_sub_key o = None -> o_class_weights o = None ->
  o_single_weight o = false -> ex <> [] ->
  (o_fractional o = true -> forall x, In x ex -> unit_label (fst x)) ->
  yield_tuples ap o (Some (map fst ex)) (Some (map snd ex)) [w] =
  Ok (map as_tuple (flat_map (parts (o_fractional o)) (map (fun x => (fst x, snd x, w)) ex))).
Proof.
  intros F SK CW SW NE U.
  assert (B : forall o', o_flatten o' = true -> o_sub_key o' = None -> o_class_weights o' = None ->
            o_single_weight o' = false -> o_fractional o' = false ->
            yield_tuples ap o' (Some (map fst ex)) (Some (map snd ex)) [w] =
            Ok (map as_tuple (map (fun x => (fst x, snd x, w)) ex))).
  { intros. rewrite flatten_dense; auto.
    - f_equal. rewrite map_map. clear. induction ex as [|[l p] ex IH]; simpl; auto. rewrite IH. reflexivity.
    - rewrite !map_length. reflexivity.
    - destruct ex; [congruence|discriminate]. }
  destruct (o_fractional o) eqn:FR.
  - rewrite yield_fraction; auto; [|destruct ex; [congruence|discriminate]].
    rewrite B by (auto; reflexivity). cbn [bind].
    rewrite mapM_fractional.
    + cbn [bind]. f_equal. rewrite flat_map_concat_map, concat_map, !map_map. reflexivity.
    + intros x Hx. apply in_map_iff in Hx. destruct Hx as (y & <- & Hy). unfold sc_label. simpl. apply U; auto.
  - rewrite B; auto. f_equal. f_equal.
    generalize (map (fun x => (fst x, snd x, w)) ex). intro L.
    induction L as [|x L IH]; [reflexivity|]. cbn [flat_map]. rewrite <- IH. reflexivity.
Qed.

Section Tally.
  Context (nb : nat) (left right : Qc) (bp : bool).
  Hypothesis Hnb : 1 <= nb.
  Hypothesis Hlr : (left < right)%Qc.

  Definition bid (v : num) : nat :=
    match bucket_index nb left (right - left)%Qc v with Ok i => i | Err _ => 0 end.

  Lemma bid_spec v : v <> NaN ->
    bucket_index nb left (right - left)%Qc v = Ok (bid v) /\
    (forall j, in_bucket nb left right j v = Nat.eqb j (bid v)) /\ bid v <= nb + 1.
  Proof.
    intro N. destruct (C12_bucket_contains_pf nb left right v Hnb Hlr N) as (i & E & U).
    unfold bid. rewrite E. split; auto. split.
    - intro j. destruct (Nat.eqb_spec j i) as [H|H].
      + apply U. auto.
      + destruct (in_bucket nb left right j v) eqn:B; auto. apply U in B. contradiction.
    - assert (B : in_bucket nb left right i v = true) by (apply U; auto).
      apply in_bucket_cases in B. lia.
  Qed.

  (** What an example is bucketed by. *)
  Definition bucketed_by (x : scored) : num := if bp then sc_score x else Fin (sc_label x).

  Definition contribution (x : scored) : bucket :=
    (bid (bucketed_by x), Totals (sc_label x * sc_weight x)%Qc (num_scale (sc_weight x) (sc_score x)) (sc_weight x)).

  Lemma tuples_tallied xs : (forall x, In x xs -> sc_score x <> NaN) -> forall a C, tallies a C ->
    exists a', foldM (histogram_tuple nb left (right - left)%Qc bp) (map as_tuple xs) a = Ok a' /\
      tallies a' (C ++ map contribution xs).
  Proof.
    induction xs as [|x xs IH]; intros N a C T.
    - exists a. simpl. rewrite app_nil_r. auto.
    - cbn [map foldM].
      assert (E : histogram_tuple nb left (right - left)%Qc bp a (as_tuple x) =
                  Ok (add_bucket a (fst (contribution x)) (snd (contribution x)))).
      { unfold as_tuple, histogram_tuple. cbn [scalar bind].
        fold (bucketed_by x). destruct (bid_spec (bucketed_by x)) as (-> & _).
        - unfold bucketed_by. destruct bp; [apply N; left; auto|discriminate].
        - reflexivity. }
      rewrite E. cbn [bind].
      replace (C ++ contribution x :: map contribution xs) with ((C ++ [contribution x]) ++ map contribution xs)
        by (rewrite <- app_assoc; reflexivity).
      apply IH; [intros; apply N; right; auto|].
      destruct (contribution x) as [k t]. apply tallies_add; auto.
  Qed.

  Definition over (i : nat) (D : list scored) : list scored :=
    filter (fun x => in_bucket nb left right i (bucketed_by x)) D.

End Tally.

Lemma totals_sum_fields l :
  t_labels (totals_sum l) = qsum (map t_labels l) /\
  t_examples (totals_sum l) = qsum (map t_examples l).
Proof. induction l as [|a l [IH1 IH2]]; simpl; auto. fold (totals_sum l). rewrite IH1, IH2. auto. Qed.

Definition finite_part (v : num) : Qc := match v with Fin q => q | _ => 0%Qc end.

Lemma totals_sum_predictions l : (forall t, In t l -> t_predictions t = Fin (finite_part (t_predictions t))) ->
  t_predictions (totals_sum l) = Fin (qsum (map (fun t => finite_part (t_predictions t)) l)).
Proof.
  induction l as [|a l IH]; intro H; simpl; auto. fold (totals_sum l).
  rewrite IH by (intros; apply H; right; auto). rewrite (H a) by (left; auto). reflexivity.
Qed.

Lemma qsum_partition {A} (key : A -> nat) (g : A -> Qc) K C : NoDup K -> (forall c, In c C -> In (key c) K) ->
  qsum (map (fun k => qsum (map g (filter (fun c => Nat.eqb k (key c)) C))) K) = qsum (map g C).
Proof.
  intros N. revert C. induction K as [|k K IH]; intros C H.
  - destruct C as [|c C]; [reflexivity|]. exfalso. apply (H c). left; auto.
  - inversion N; subst. cbn [map qsum fold_right]. fold (qsum (map (fun k => qsum (map g (filter (fun c => Nat.eqb k (key c)) C))) K)).
    rewrite (qsum_filter_split g (fun c => Nat.eqb k (key c)) C). f_equal.
    rewrite <- IH; auto.
    + apply qsum_map_ext. intros j Hj. f_equal. f_equal.
      clear - H2 Hj. induction C as [|c C IH]; [reflexivity|]. cbn [filter].
      destruct (Nat.eqb_spec k (key c)); cbn [negb filter]; destruct (Nat.eqb_spec j (key c)); rewrite ?IH; auto.
      subst. contradiction.
    + intros c Hc. apply filter_In in Hc. destruct Hc as [Hc E]. apply negb_true_iff, Nat.eqb_neq in E.
      destruct (H c Hc); [congruence|auto].
Qed.

Lemma parts_same fr bp x y : (bp = false -> fr = false) -> In y (parts fr x) ->
  bucketed_by bp y = bucketed_by bp x /\ sc_score y = sc_score x.
Proof.
  intros H I. unfold parts in I. destruct fr.
  - destruct bp; [|specialize (H eq_refl); discriminate].
    apply filter_In in I. destruct I as [[<-|[<-|[]]] _]; auto.
  - destruct I as [<-|[]]; auto.
Qed.

Lemma parts_sum (g : scored -> Qc) fr x :
  (fr = true -> let n := (0%Qc, sc_score x, (sc_weight x * (1 - sc_label x))%Qc) in
                let p := (1%Qc, sc_score x, (sc_weight x * sc_label x)%Qc) in
     (g n + g p = g x)%Qc /\ (sc_weight n = 0%Qc -> g n = 0%Qc) /\ (sc_weight p = 0%Qc -> g p = 0%Qc)) ->
  qsum (map g (parts fr x)) = g x.
Proof.
  intro H. unfold parts. destruct fr; [|simpl; ring].
  destruct (H eq_refl) as (E & N & P). cbn [filter].
  set (n := (0%Qc, sc_score x, (sc_weight x * (1 - sc_label x))%Qc)) in *.
  set (p := (1%Qc, sc_score x, (sc_weight x * sc_label x)%Qc)) in *.
  rewrite <- E.
  destruct (Qc_eqb (sc_weight n) 0%Qc) eqn:E1; destruct (Qc_eqb (sc_weight p) 0%Qc) eqn:E2; cbn [negb map qsum fold_right];
    try apply Qc_eqb_eq in E1; try apply Qc_eqb_eq in E2;
    try rewrite (N E1); try rewrite (P E2); ring.
Qed.

Lemma parts_filter_sum (g : scored -> Qc) (P : num -> bool) fr bp D : (bp = false -> fr = false) ->
  (forall x, In x D -> qsum (map g (parts fr x)) = g x) ->
  qsum (map g (filter (fun y => P (bucketed_by bp y)) (flat_map (parts fr) D))) =
  qsum (map g (filter (fun y => P (bucketed_by bp y)) D)).
Proof.
  intros B. induction D as [|x D IH]; intro H; [reflexivity|].
  cbn [flat_map]. rewrite filter_app, map_app, qsum_app, IH by (intros; apply H; right; auto).
  assert (F : filter (fun y => P (bucketed_by bp y)) (parts fr x) = if P (bucketed_by bp x) then parts fr x else []).
  { assert (S : forall y, In y (parts fr x) -> bucketed_by bp y = bucketed_by bp x)
      by (intros y Hy; apply (parts_same fr); auto).
    revert S. generalize (parts fr x). clear. intro l. induction l as [|y l IHl]; intro S.
    - destruct (P (bucketed_by bp x)); reflexivity.
    - cbn [filter]. rewrite (S y) by (left; auto). rewrite IHl by (intros; apply S; right; auto).
      destruct (P (bucketed_by bp x)); reflexivity. }
  rewrite F. cbn [filter]. destruct (P (bucketed_by bp x)).
  - rewrite H by (left; auto). reflexivity.
  - cbn [map qsum fold_right]. ring.
Qed.

Lemma filter_true {A} (l : list A) : filter (fun _ => true) l = l.
Proof. induction l; simpl; congruence. Qed.

Definition weighted_label (x : scored) : Qc := (sc_weight x * sc_label x)%Qc.

Definition weighted_score (x : scored) : Qc := (sc_weight x * finite_part (sc_score x))%Qc.

Lemma parts_fields fr x :
  qsum (map weighted_label (parts fr x)) = weighted_label x /\
  qsum (map sc_weight (parts fr x)) = sc_weight x /\
  qsum (map weighted_score (parts fr x)) = weighted_score x.
Proof.
  split; [|split]; apply parts_sum; intros _; cbv zeta; unfold weighted_label, weighted_score, sc_label, sc_weight, sc_score; cbn [fst snd];
    (split; [ring|]); split; intro H; rewrite ?H; ring.
Qed.

Lemma contribution_fields nb left right bp x :
  t_labels (snd (contribution nb left right bp x)) = weighted_label x /\
  t_examples (snd (contribution nb left right bp x)) = sc_weight x /\
  ((exists q, sc_score x = Fin q) -> t_predictions (snd (contribution nb left right bp x)) = Fin (weighted_score x)).
Proof.
  unfold contribution, weighted_label, weighted_score. cbn [snd t_labels t_examples t_predictions].
  split; [ring|]. split; [reflexivity|]. intros [q ->]. reflexivity.
Qed.

(** The labelled scores of a data set: element e holds the (label, score) pairs
    [ex e] and the weight [w e]. *)

Definition scored_of (ex : inputs_dict -> list (Qc * num)) (w : inputs_dict -> Qc) (l : list inputs_dict) : list scored :=
  flat_map (fun e => map (fun x => (fst x, snd x, w e)) (ex e)) l.

Lemma tallies_total (f : totals -> Qc) a C : tallies a C -> f totals_zero = 0%Qc ->
  (forall i, In i (map fst C) -> f (totals_sum (hits C i)) = qsum (map f (hits C i))) ->
  qsum (map (fun b => f (snd b)) a) = qsum (map (fun c => f (snd c)) C).
Proof.
  intros [N T] Z H.
  rewrite <- (qsum_partition fst (fun c => f (snd c)) (map fst a) C N).
  - rewrite map_map. apply qsum_map_ext. intros [i t] I. cbn [fst snd].
    apply (dget_In_NoDup _ Nat.eqb_eq) in I; auto. rewrite T in I.
    unfold maybe_sum in I. destruct (hits C i) as [|c l] eqn:E; [discriminate|].
    replace t with (totals_sum (hits C i)) by (rewrite E; congruence). rewrite H.
    + unfold hits. rewrite map_map. reflexivity.
    + unfold hits in E. destruct (filter (fun b => Nat.eqb i (fst b)) C) as [|c0 l0] eqn:F; [discriminate|].
      assert (X : In c0 (filter (fun b => Nat.eqb i (fst b)) C)) by (rewrite F; left; auto).
      apply filter_In in X. destruct X as [X1 X2]. apply Nat.eqb_eq in X2. subst i. apply in_map; auto.
  - intros c Hc. destruct (dget Nat.eqb a (fst c)) as [t|] eqn:E.
    + apply (dget_In _ Nat.eqb_eq) in E. change (fst c) with (fst (fst c, t)). apply in_map; auto.
    + rewrite T in E. exfalso.
      assert (X : In (snd c) (hits C (fst c))).
      { unfold hits. apply in_map. apply filter_In. split; auto. apply Nat.eqb_refl. }
      destruct (hits C (fst c)); [destruct X|discriminate].
Qed.

Lemma C12_histogram_conserves_pf :
  forall ap nb left right bp fr weighted lk pk m o s ex w,
    1 <= nb -> (left < right)%Qc -> (bp = false -> fr = false) ->
    (forall e, In e (inputs s) ->
       carries weighted m o e (Reading (map fst (ex e)) (map snd (ex e)) [w e]) /\ ex e <> [] /\
       forall l p, In (l, p) (ex e) -> p <> NaN /\ (fr = true -> unit_label l)) ->
    let D := scored_of ex w (inputs s) in
    exists h,
      outcome (histogram_combiner ap nb left right bp (histogram_options None false weighted fr None) lk pk m o) s = Ok h /\
      ascending h /\
      (forall i t, In (i, t) h ->
         let E := over nb left right bp i D in
         i <= nb + 1 /\ E <> [] /\
         t_labels t = qsum (map weighted_label E) /\ t_examples t = qsum (map sc_weight E) /\
         ((forall x, In x D -> exists q, sc_score x = Fin q) -> t_predictions t = Fin (qsum (map weighted_score E)))) /\
      (forall i x, ~ In i (map fst h) -> In x (over nb left right bp i D) -> fr = true /\ sc_weight x = 0%Qc) /\
      qsum (map (fun b => t_labels (snd b)) h) = qsum (map weighted_label D) /\
      qsum (map (fun b => t_examples (snd b)) h) = qsum (map sc_weight D) /\
      ((forall x, In x D -> exists q, sc_score x = Fin q) ->
       qsum (map (fun b => finite_part (t_predictions (snd b))) h) = qsum (map weighted_score D)).
Proof.
  intros ap nb left right bp fr weighted lk pk m o s ex w Hnb Hlr HB HG D.
  set (oo := histogram_options None false weighted fr None).
  set (good := fun e => carries weighted m o e (Reading (map fst (ex e)) (map snd (ex e)) [w e]) /\ ex e <> [] /\
       forall l p, In (l, p) (ex e) -> p <> NaN /\ (fr = true -> unit_label l)).
  set (contrib := fun l => map (contribution nb left right bp) (flat_map (parts fr) (scored_of ex w l))).
  assert (R : exists a, run (histogram_combiner ap nb left right bp oo lk pk m o) s = Ok a /\
                        tallies a (contrib (inputs s))).
  { unfold histogram_combiner.
    apply (res_rel_run _ _ _ _ good (fun a l => tallies a (contrib l))).
    - split; [constructor|reflexivity].
    - intros a l e T (C & NE & G). unfold histogram_add.
      rewrite (prepared ap oo lk pk m o e _ C). cbn [r_labels r_scores r_weight].
      rewrite flatten_parts; auto.
      2:{ intros F x Hx. destruct x as [l0 p0]. apply (G l0 p0); auto. }
      cbn [bind o_fractional oo histogram_options].
      destruct (tuples_tallied nb left right bp Hnb Hlr
                  (flat_map (parts fr) (map (fun x => (fst x, snd x, w e)) (ex e)))) with (a := a) (C := contrib l)
        as (a' & E & T'); auto.
      { intros y Hy. apply in_flat_map in Hy. destruct Hy as (x & Hx & Hy).
        destruct (parts_same fr bp x y HB Hy) as [_ ->].
        apply in_map_iff in Hx. destruct Hx as ([l0 p0] & <- & Hx). apply (G l0 p0 Hx). }
      exists a'. split; [exact E|].
      replace (contrib (l ++ [e])) with
        (contrib l ++ map (contribution nb left right bp) (flat_map (parts fr) (map (fun x => (fst x, snd x, w e)) (ex e)))); auto.
      unfold contrib, scored_of. rewrite !flat_map_app, map_app. simpl. rewrite app_nil_r. reflexivity.
    - intros a b l1 l2 T1 T2. replace (contrib (l1 ++ l2)) with (contrib l1 ++ contrib l2).
      + apply tallies_merge; auto.
      + unfold contrib, scored_of. rewrite !flat_map_app, map_app. reflexivity.
    - apply Forall_forall. exact HG. }
  destruct R as (a & RA & T). unfold contrib in T. fold D in T. clear contrib.
  destruct (tallies_sorted a _ T) as [TS AS]. clear T. set (h := sort_buckets a) in *.
  exists h. unfold outcome. rewrite RA. split; [reflexivity|]. split; [exact AS|].
  assert (ND : forall x, In x D -> sc_score x <> NaN).
  { intros x Hx. apply in_flat_map in Hx. destruct Hx as (e & He & Hx). destruct (HG e He) as (_ & _ & G).
    apply in_map_iff in Hx. destruct Hx as ([l0 p0] & <- & Hx). apply (G l0 p0 Hx). }
  assert (NB : forall x, In x D -> bucketed_by bp x <> NaN).
  { intros x Hx. unfold bucketed_by. destruct bp; [auto|discriminate]. }
  assert (NP : forall x, In x (flat_map (parts fr) D) -> bucketed_by bp x <> NaN).
  { intros y Hy. apply in_flat_map in Hy. destruct Hy as (x & Hx & Hy).
    destruct (parts_same fr bp x y HB Hy) as [-> _]. auto. }
  (* the hits of a bucket are the parts it contains *)
  assert (HH : forall i, hits (map (contribution nb left right bp) (flat_map (parts fr) D)) i =
            map (fun x => snd (contribution nb left right bp x)) (over nb left right bp i (flat_map (parts fr) D))).
  { intro i. unfold hits, over. revert NP. generalize (flat_map (parts fr) D). intros L NP. induction L as [|x L IH]; [reflexivity|].
    cbn [map filter]. destruct (bid_spec nb left right Hnb Hlr (bucketed_by bp x)) as (_ & B & _); [apply NP; left; auto|].
    rewrite B. change (fst (contribution nb left right bp x)) with (bid nb left right (bucketed_by bp x)).
    destruct (Nat.eqb i (bid nb left right (bucketed_by bp x))); cbn [map]; rewrite IH by (intros; apply NP; right; auto); reflexivity. }
  assert (SUM : forall (f : totals -> Qc) g i,
            (forall x, f (snd (contribution nb left right bp x)) = g x) ->
            (forall x, In x D -> qsum (map g (parts fr x)) = g x) ->
            qsum (map f (hits (map (contribution nb left right bp) (flat_map (parts fr) D)) i)) =
            qsum (map g (over nb left right bp i D))).
  { intros f g i F G. rewrite HH, map_map. rewrite (map_ext _ g) by auto.
    apply (parts_filter_sum g (in_bucket nb left right i) fr bp D HB G). }
  assert (FP : (forall x, In x D -> exists q, sc_score x = Fin q) ->
     forall i t, In t (hits (map (contribution nb left right bp) (flat_map (parts fr) D)) i) ->
       t_predictions t = Fin (finite_part (t_predictions t))).
  { intros F i t Ht. rewrite HH in Ht. apply in_map_iff in Ht. destruct Ht as (y & <- & Hy).
    unfold over in Hy. apply filter_In in Hy. destruct Hy as [Hy _]. apply in_flat_map in Hy.
    destruct Hy as (x & Hx & Hy). destruct (contribution_fields nb left right bp y) as (_ & _ & P).
    rewrite P; [reflexivity|]. destruct (parts_same fr bp x y HB Hy) as [_ ->]. auto. }
  assert (SP : (forall x, In x D -> exists q, sc_score x = Fin q) -> forall i,
     qsum (map (fun t => finite_part (t_predictions t)) (hits (map (contribution nb left right bp) (flat_map (parts fr) D)) i)) =
     qsum (map weighted_score (over nb left right bp i D))).
  { intros F i. rewrite HH, map_map. unfold over.
    rewrite <- (parts_filter_sum weighted_score (in_bucket nb left right i) fr bp D HB) by (intros; apply parts_fields).
    apply qsum_map_ext. intros y Hy. apply filter_In in Hy. destruct Hy as [Hy _]. apply in_flat_map in Hy.
    destruct Hy as (x & Hx & Hy). destruct (contribution_fields nb left right bp y) as (_ & _ & P).
    rewrite P; [reflexivity|]. destruct (parts_same fr bp x y HB Hy) as [_ ->]. auto. }
  split; [|split; [|split; [|split]]].
  - intros i t I. cbv zeta. destruct TS as [N TS].
    apply (dget_In_NoDup _ Nat.eqb_eq) in I; auto. rewrite TS in I.
    apply maybe_sum_Some in I. destruct I as [NE ->].
    assert (X : exists x, In x D /\ in_bucket nb left right i (bucketed_by bp x) = true).
    { rewrite HH in NE.
      destruct (over nb left right bp i (flat_map (parts fr) D)) as [|y l] eqn:E; [exfalso; apply NE; reflexivity|].
      assert (Y : In y (over nb left right bp i (flat_map (parts fr) D))) by (rewrite E; left; auto).
      apply filter_In in Y. destruct Y as [Y1 Y2]. apply in_flat_map in Y1. destruct Y1 as (x & Hx & Hy).
      exists x. split; auto. destruct (parts_same fr bp x y HB Hy) as [<- _]. auto. }
    destruct X as (x & Hx & Bx).
    split; [|split; [|split; [|split]]].
    + apply in_bucket_cases in Bx. lia.
    + intro E. assert (Y : In x (over nb left right bp i D)) by (apply filter_In; auto). rewrite E in Y. destruct Y.
    + rewrite (proj1 (totals_sum_fields _)). apply SUM; intros; [apply contribution_fields|apply parts_fields].
    + rewrite (proj2 (totals_sum_fields _)). apply SUM; intros; [apply contribution_fields|apply parts_fields].
    + intro F. rewrite totals_sum_predictions by (intros; eapply FP; eauto). rewrite SP; auto.
  - intros i x NI Ix. destruct TS as [N TS].
    apply (dget_None _ Nat.eqb_eq) in NI. rewrite TS, HH in NI.
    apply filter_In in Ix. destruct Ix as [Ix Bx].
    assert (P0 : parts fr x = []).
    { destruct (parts fr x) as [|y l] eqn:E; auto. exfalso.
      assert (Y : In y (over nb left right bp i (flat_map (parts fr) D))).
      { apply filter_In. split; [apply in_flat_map; exists x; split; auto; rewrite E; left; auto|].
        destruct (parts_same fr bp x y HB) as [-> _]; auto. rewrite E. left; auto. }
      destruct (over nb left right bp i (flat_map (parts fr) D)); [destruct Y|discriminate]. }
    destruct fr; [|discriminate]. split; auto.
    destruct (parts_fields true x) as (_ & <- & _). rewrite P0. reflexivity.
  - rewrite (tallies_total t_labels _ _ TS); [|reflexivity|intros; apply totals_sum_fields].
    rewrite map_map. rewrite (map_ext _ weighted_label) by (intro; apply contribution_fields).
    pose proof (parts_filter_sum weighted_label (fun _ => true) fr bp D HB) as X.
    rewrite !filter_true in X. apply X. intros; apply parts_fields.
  - rewrite (tallies_total t_examples _ _ TS); [|reflexivity|intros; apply totals_sum_fields].
    rewrite map_map. rewrite (map_ext _ sc_weight) by (intro; apply contribution_fields).
    pose proof (parts_filter_sum sc_weight (fun _ => true) fr bp D HB) as X.
    rewrite !filter_true in X. apply X. intros; apply parts_fields.
  - intro F. rewrite (tallies_total (fun t => finite_part (t_predictions t)) _ _ TS); [|reflexivity|].
    2:{ intros i _. rewrite totals_sum_predictions; [reflexivity|]. intros; eapply FP; eauto. }
    pose proof (parts_filter_sum weighted_score (fun _ => true) fr bp D HB) as X.
    rewrite !filter_true in X. rewrite <- X by (intros; apply parts_fields).
    rewrite map_map. apply qsum_map_ext. intros y Hy. apply in_flat_map in Hy.
    destruct Hy as (x & Hx & Hy). destruct (contribution_fields nb left right bp y) as (_ & _ & P).
    rewrite P; [reflexivity|]. destruct (parts_same fr bp x y HB Hy) as [_ ->]. auto.
Qed.

(** Position of p among the thresholds: how many of them it has reached. *)

Fixpoint lead (rest : list num) (p : num) : nat :=
  match rest with
  | t :: r => if num_leb t p then S (lead r p) else 0
  | [] => 0
  end.

Lemma lead_le rest p : lead rest p <= length rest.
Proof. induction rest as [|t r IH]; simpl; [lia|]. destruct (num_leb t p); lia. Qed.

Lemma fill_eq p rest : forall off,
  fill p off rest = (map (fun i => (off + i, totals_zero)) (seq 0 (lead rest p)), off + lead rest p,
                     skipn (lead rest p) rest).
Proof.
  induction rest as [|t r IH]; intro off; cbn [fill lead].
  - simpl. rewrite Nat.add_0_r. reflexivity.
  - destruct (num_leb t p).
    + rewrite IH. cbn [seq map skipn]. rewrite Nat.add_0_r. f_equal. f_equal.
      * f_equal. rewrite <- seq_shift, map_map. apply map_ext. intro i. f_equal. lia.
      * lia.
    + simpl. rewrite Nat.add_0_r. reflexivity.
Qed.

Lemma pad_eq rest : forall off, pad off rest = map (fun i => (off + i, totals_zero)) (seq 0 (length rest)).
Proof.
  induction rest as [|t r IH]; intro off; cbn [pad]; [reflexivity|].
  rewrite IH. cbn [length seq map]. rewrite Nat.add_0_r. f_equal.
  rewrite <- seq_shift, map_map. apply map_ext. intro i. f_equal. lia.
Qed.

Lemma lead_skip rest p q : num_leb p q = true ->
  lead rest q = lead rest p + lead (skipn (lead rest p) rest) q.
Proof.
  intro H. induction rest as [|t r IH]; cbn [lead]; [reflexivity|].
  destruct (num_leb t p) eqn:E.
  - rewrite (num_leb_trans t p q E H). cbn [skipn]. rewrite IH at 1. reflexivity.
  - reflexivity.
Qed.

Lemma seq_split_map {A} (F : nat -> A) a n : map F (seq a n) = map (fun i => F (a + i)) (seq 0 n).
Proof.
  revert F a. induction n as [|n IH]; intros F a; [reflexivity|]. cbn [seq map]. rewrite Nat.add_0_r. f_equal.
  rewrite (IH F (S a)), (IH _ 1).
  apply map_ext. intro i. f_equal. lia.
Qed.

Lemma filter_none' {A} (p : A -> bool) l : (forall x, In x l -> p x = false) -> filter p l = [].
Proof.
  induction l as [|x l IH]; intro H; [reflexivity|]. cbn [filter]. rewrite H by (left; auto).
  apply IH. intros; apply H; right; auto.
Qed.

Definition in_group (pred_of : nat -> num) (rest : list num) (i : nat) (b : bucket) : bool :=
  Nat.eqb (lead rest (pred_of (fst b))) i.

Lemma rebin_loop_eq (pred_of : nat -> num) hist :
  forall off cur rest,
    StronglySorted (fun a b => num_leb (pred_of (fst a)) (pred_of (fst b)) = true) hist ->
    rebin_loop pred_of hist off cur rest =
    map (fun i => (off + i, totals_plus (if Nat.eqb i 0 then cur else totals_zero)
                              (totals_sum (map snd (filter (in_group pred_of rest i) hist)))))
        (seq 0 (S (length rest))).
Proof.
  induction hist as [|[id b] t IH]; intros off cur rest S.
  - cbn [rebin_loop]. rewrite pad_eq. cbn [seq map filter totals_sum fold_right Nat.eqb].
    rewrite totals_e, Nat.add_0_r. f_equal. rewrite <- seq_shift, map_map.
    apply map_ext. intro i. cbn [Nat.eqb]. rewrite totals_e. f_equal. lia.
  - inversion S as [|x l S' F]; subst. cbn [fst] in F.
    assert (K : lead rest (pred_of id) = 0 ->
      rebin_loop pred_of t off (totals_plus cur b) rest =
      map (fun i => (off + i, totals_plus (if Nat.eqb i 0 then cur else totals_zero)
                (totals_sum (map snd (filter (in_group pred_of rest i) ((id, b) :: t))))))
          (seq 0 (Datatypes.S (length rest)))).
    { intro L. rewrite IH by auto. apply map_ext. intro i. f_equal.
      cbn [filter]. unfold in_group at 2. cbn [fst]. rewrite L.
      destruct i as [|i]; cbn [Nat.eqb map totals_sum fold_right snd]; [symmetry; apply totals_assoc|reflexivity]. }
    cbn [rebin_loop]. destruct rest as [|t1 r]; [apply K; reflexivity|].
    destruct (num_leb t1 (pred_of id)) eqn:E.
    2:{ apply K. cbn [lead]. rewrite E. reflexivity. }
    clear K. rewrite fill_eq. set (k := lead r (pred_of id)).
    rewrite IH by auto. rewrite totals_e_l.
    assert (LS : length (skipn k r) + k = length r).
    { rewrite skipn_length. pose proof (lead_le r (pred_of id)). fold k in H. lia. }
    replace (Datatypes.S (length (t1 :: r))) with (1 + (k + Datatypes.S (length (skipn k r)))) by (cbn [length]; lia).
    generalize (Datatypes.S (length (skipn k r))). intro n'.
    rewrite (seq_app 1), (seq_app k), !map_app. cbn [Nat.add].
    (* which group the remaining buckets fall in *)
    assert (G : forall c, In c t -> lead (t1 :: r) (pred_of (fst c)) = Datatypes.S k + lead (skipn k r) (pred_of (fst c))).
    { intros c Hc. rewrite Forall_forall in F. specialize (F c Hc).
      cbn [lead]. rewrite (num_leb_trans _ _ _ E F). cbn [Nat.add]. f_equal. apply lead_skip; auto. }
    assert (L0 : lead (t1 :: r) (pred_of id) = Datatypes.S k) by (cbn [lead]; rewrite E; reflexivity).
    assert (NIL : forall i, i <= k -> filter (in_group pred_of (t1 :: r) i) ((id, b) :: t) = []).
    { intros i Hi. apply filter_none'. intros c [<-|Hc]; unfold in_group; cbn [fst].
      - rewrite L0. apply Nat.eqb_neq. lia.
      - rewrite G by auto. apply Nat.eqb_neq. lia. }
    cbn [app seq map]. f_equal; [|f_equal].
    + rewrite NIL by lia. cbn [Nat.eqb map totals_sum fold_right]. rewrite totals_e, Nat.add_0_r. reflexivity.
    + rewrite (seq_split_map _ 1 k). apply map_ext_in. intros i Hi. apply in_seq in Hi.
      rewrite NIL by lia. cbn [Nat.add Nat.eqb map totals_sum fold_right]. rewrite totals_e. f_equal. lia.
    + rewrite (seq_split_map _ (1 + k) n').
      apply map_ext. intro i. f_equal; [lia|].
      replace (Nat.eqb (1 + k + i) 0) with false by reflexivity. rewrite totals_e_l.
      cbn [filter]. unfold in_group at 2. cbn [fst]. rewrite L0.
      assert (FE : filter (in_group pred_of (t1 :: r) (1 + k + i)) t = filter (in_group pred_of (skipn k r) i) t).
      { apply filter_ext_in. intros c Hc. unfold in_group. rewrite G by auto.
        destruct (Nat.eqb_spec (lead (skipn k r) (pred_of (fst c))) i); [subst; apply Nat.eqb_refl|].
        apply Nat.eqb_neq. lia. }
      destruct i as [|i].
      * replace (Nat.eqb (Datatypes.S k) (1 + k + 0)) with true by (symmetry; apply Nat.eqb_eq; lia).
        cbn [Nat.eqb map totals_sum fold_right snd]. fold (totals_sum (map snd (filter (in_group pred_of (t1 :: r) (1 + k + 0)) t))).
        rewrite FE. reflexivity.
      * replace (Nat.eqb (Datatypes.S k) (1 + k + Datatypes.S i)) with false by (symmetry; apply Nat.eqb_neq; lia).
        cbn [Nat.eqb]. rewrite totals_e_l, FE. reflexivity.
Qed.

(** Where bucket i of nb buckets over [left, right] starts; the outer buckets stand
    for everything below and above the range. *)

Definition lower_edge (nb : nat) (left right : Qc) (i : nat) : num :=
  if Nat.eqb i 0 then NegInf else if Nat.leb i nb then Fin (edge nb left right (i - 1)) else PosInf.

(** p lies between threshold i and threshold i+1 (the first and last interval are
    open ended). *)

Definition between (ths : list num) (i : nat) (p : num) : bool :=
  (Nat.eqb i 0 || num_leb (nth i ths NaN) p) &&
  (Nat.eqb (S i) (length ths) || num_ltb p (nth (S i) ths NaN)).

Lemma bucket_pred_edge nb left right i : bucket_pred nb left right i = lower_edge nb left right i.
Proof.
  unfold bucket_pred, lower_edge. destruct (Nat.eqb_spec i 0); auto.
  destruct (Nat.leb_spec (nb + 1) i), (Nat.leb_spec i nb); try lia; auto.
  f_equal. unfold edge. field. apply Qcpos_neq, qn_pos. lia.
Qed.

Lemma edge_mono nb left right i j : 1 <= nb -> (left <= right)%Qc -> i <= j ->
  (edge nb left right i <= edge nb left right j)%Qc.
Proof.
  intros Hnb H L. unfold edge.
  assert (D : (0 <= (right - left) / qn nb)%Qc) by (apply Qcdiv_nonneg; [qc_lra|apply qn_pos; auto]).
  apply qn_le in L. revert D L. generalize ((right - left) / qn nb)%Qc (qn i) (qn j). intros. qc_nra.
Qed.

Lemma lower_edge_mono nb left right i j : (left <= right)%Qc -> i <= j ->
  num_leb (lower_edge nb left right i) (lower_edge nb left right j) = true.
Proof.
  intros H L. unfold lower_edge.
  destruct (Nat.eqb_spec i 0), (Nat.eqb_spec j 0), (Nat.leb_spec i nb), (Nat.leb_spec j nb); try lia; try reflexivity.
  apply leb_Fin. apply edge_mono; auto; lia.
Qed.

Lemma num_leb_gt a b : a <> NaN -> b <> NaN -> num_leb a b = negb (num_ltb b a).
Proof.
  intros Na Nb. destruct a, b; try congruence; try reflexivity. cbn [num_leb num_ltb]. unfold Qc_ltb.
  rewrite negb_involutive. reflexivity.
Qed.

Lemma num_ltb_trans_leb a b c : num_ltb a b = true -> num_leb b c = true -> num_ltb a c = true.
Proof.
  destruct a, b, c; cbn [num_ltb num_leb]; try congruence; auto. intros. qc_bool. qc_lra.
Qed.

Lemma num_ltb_nan a b : num_ltb a b = true -> a <> NaN /\ b <> NaN.
Proof. destruct a, b; cbn; try discriminate; split; discriminate. Qed.

Lemma lead_spec rest p i : ~ In NaN rest -> p <> NaN ->
  StronglySorted (fun a b => num_leb a b = true) rest -> i <= length rest ->
  Nat.eqb (lead rest p) i =
  (Nat.eqb i 0 || num_leb (nth (i - 1) rest NaN) p) && (Nat.eqb i (length rest) || num_ltb p (nth i rest NaN)).
Proof.
  intros N Np S. revert i. induction rest as [|t r IH]; intros i Hi.
  - destruct i; [reflexivity|simpl in Hi; lia].
  - inversion S as [|x l S' F]; subst. cbn [length] in Hi.
    assert (Nt : t <> NaN) by (intro; subst; apply N; left; auto).
    assert (Nr : ~ In NaN r) by (intro; apply N; right; auto).
    cbn [lead]. destruct (num_leb t p) eqn:E.
    + destruct i as [|i].
      * cbn [Nat.eqb orb nth andb length]. rewrite (num_leb_gt t p Nt Np), negb_true_iff in E. rewrite E. reflexivity.
      * cbn [Nat.eqb orb nth length]. rewrite IH by (auto; lia).
        replace (Datatypes.S i - 1) with i by lia.
        destruct i as [|i]; cbn [nth Nat.eqb orb].
        -- rewrite E. reflexivity.
        -- replace (Datatypes.S i - 1) with i by lia. reflexivity.
    + (* below t: nothing is reached *)
      assert (L : num_ltb p t = true).
      { rewrite (num_leb_gt t p Nt Np) in E. apply negb_false_iff in E. exact E. }
      destruct i as [|i].
      * cbn [Nat.eqb orb nth length andb]. rewrite L. reflexivity.
      * cbn [Nat.eqb orb nth length]. symmetry. apply andb_false_iff. left.
        replace (Datatypes.S i - 1) with i by lia. destruct i as [|i]; [exact E|].
        assert (I : In (nth i r NaN) r) by (apply nth_In; lia).
        rewrite Forall_forall in F. specialize (F _ I).
        pose proof (num_ltb_trans_leb _ _ _ L F) as X. cbn [nth].
        destruct (num_ltb_nan _ _ X). rewrite num_leb_gt, X by auto. reflexivity.
Qed.

Lemma lower_edge_nan nb left right i : lower_edge nb left right i <> NaN.
Proof. unfold lower_edge. destruct (Nat.eqb i 0), (Nat.leb i nb); discriminate. Qed.

Lemma lead_between ths p i : ~ In NaN ths -> p <> NaN -> i < length ths ->
  StronglySorted (fun a b => num_leb a b = true) ths ->
  Nat.eqb (lead (tl ths) p) i = between ths i p.
Proof.
  intros N Np Hi S. destruct ths as [|t r]; [simpl in Hi; lia|]. cbn [tl length] in *.
  inversion S; subst. rewrite lead_spec; auto; [|intro; apply N; right; auto|lia].
  unfold between. cbn [length nth]. f_equal.
  - destruct i as [|i]; [reflexivity|]. replace (Datatypes.S i - 1) with i by lia. reflexivity.
Qed.

Lemma SS_weaken {A} (P Q : A -> A -> Prop) l : (forall a b, P a b -> Q a b) -> StronglySorted P l -> StronglySorted Q l.
Proof.
  intros H S. induction S as [|a l S IH F]; constructor; auto. eapply Forall_impl; [|exact F]. auto.
Qed.

Lemma SS_map {A B} (f : A -> B) (P : B -> B -> Prop) l :
  StronglySorted P (map f l) <-> StronglySorted (fun a b => P (f a) (f b)) l.
Proof.
  induction l as [|a l IH]; cbn [map]; split; intro S; try constructor; inversion S; subst.
  - apply IH; auto.
  - rewrite Forall_forall in *. intros x Hx. apply H2. apply in_map; auto.
  - apply IH; auto.
  - rewrite Forall_forall in *. intros x Hx. apply in_map_iff in Hx. destruct Hx as (y & <- & Hy). auto.
Qed.

Lemma totals_groups_from {B} (val : B -> totals) (group : B -> nat) k n l :
  totals_sum (map (fun i => totals_sum (map val (filter (fun b => Nat.eqb (group b) i) l))) (seq k n)) =
  totals_sum (map val (filter (fun b => Nat.leb k (group b) && Nat.ltb (group b) (k + n)) l)).
Proof.
  induction l as [|b l IH].
  - cbn [filter map]. induction (seq k n) as [|i s IHs]; [reflexivity|].
    cbn [map totals_sum fold_right] in *. rewrite totals_e_l. exact IHs.
  - rewrite (map_ext _ (fun i => if Nat.eqb i (group b)
       then totals_plus (val b) (totals_sum (map val (filter (fun b => Nat.eqb (group b) i) l)))
       else totals_sum (map val (filter (fun b => Nat.eqb (group b) i) l)))).
    2:{ intro i. cbn [filter]. rewrite (Nat.eqb_sym (group b) i). destruct (Nat.eqb i (group b)); reflexivity. }
    assert (X : forall (g : nat -> totals) c a n,
      totals_sum (map (fun i => if Nat.eqb i c then totals_plus (val b) (g i) else g i) (seq a n)) =
      if Nat.leb a c && Nat.ltb c (a + n) then totals_plus (val b) (totals_sum (map g (seq a n)))
      else totals_sum (map g (seq a n))).
    { intros g c a m. revert a. induction m as [|m IHm]; intros a.
      - cbn [seq map]. rewrite Nat.add_0_r. destruct (Nat.leb_spec a c), (Nat.ltb_spec c a); try lia; reflexivity.
      - cbn [seq map totals_sum fold_right].
        fold totals_sum. unfold totals_sum in IHm. rewrite IHm. destruct (Nat.eqb_spec a c).
        + replace (Nat.leb (S a) c) with false by (symmetry; apply Nat.leb_gt; lia).
          replace (Nat.leb a c && Nat.ltb c (a + S m)) with true.
          * cbn [andb]. rewrite <- totals_assoc. reflexivity.
          * symmetry. apply andb_true_iff. rewrite Nat.leb_le, Nat.ltb_lt. lia.
        + replace (Nat.leb a c && Nat.ltb c (a + S m)) with (Nat.leb (S a) c && Nat.ltb c (S a + m)).
          * destruct (Nat.leb (S a) c && Nat.ltb c (S a + m)); [|reflexivity].
            rewrite !totals_assoc. f_equal. apply totals_comm.
          * destruct (Nat.leb_spec (S a) c), (Nat.leb_spec a c); try (exfalso; lia); [|reflexivity]. f_equal. f_equal. lia. }
    rewrite (X (fun i => totals_sum (map val (filter (fun b => Nat.eqb (group b) i) l)))). cbn [filter]. rewrite IH.
    destruct (Nat.leb k (group b) && Nat.ltb (group b) (k + n)); reflexivity.
Qed.

Lemma totals_groups {B} (val : B -> totals) (group : B -> nat) n l : (forall b, In b l -> group b < n) ->
  totals_sum (map (fun i => totals_sum (map val (filter (fun b => Nat.eqb (group b) i) l))) (seq 0 n)) =
  totals_sum (map val l).
Proof.
  intro H. rewrite totals_groups_from. f_equal. f_equal.
  induction l as [|b l IH]; [reflexivity|]. cbn [filter].
  replace (Nat.leb 0 (group b) && Nat.ltb (group b) (0 + n)) with true.
  - f_equal. apply IH. intros; apply H; right; auto.
  - symmetry. apply Nat.ltb_lt. apply H. left; auto.
Qed.

Lemma ascending_edges nb left right hist : (left <= right)%Qc -> ascending hist ->
  StronglySorted (fun a b => num_leb (bucket_pred nb left right (fst a)) (bucket_pred nb left right (fst b)) = true) hist.
Proof.
  intros LR AS. unfold ascending in AS. rewrite SS_map in AS. eapply SS_weaken; [|exact AS].
  intros a b L. cbv beta in L. rewrite !bucket_pred_edge. apply lower_edge_mono; auto. lia.
Qed.

Lemma rebin_groups ths hist nb left right : ths <> [] -> (left <= right)%Qc -> ascending hist ->
  rebin ths hist nb left right =
  map (fun i => (i, totals_sum (map snd (filter (fun b => Nat.eqb (lead (tl ths) (lower_edge nb left right (fst b))) i) hist))))
      (seq 0 (length ths)).
Proof.
  intros NE LR AS. unfold rebin. rewrite rebin_loop_eq by (apply ascending_edges; auto).
  replace (S (length (tl ths))) with (length ths) by (destruct ths; [congruence|reflexivity]).
  apply map_ext_in. intros i Hi. f_equal.
  replace (if Nat.eqb i 0 then totals_zero else totals_zero) with totals_zero by (destruct (Nat.eqb i 0); auto).
  rewrite totals_e_l. f_equal. f_equal. apply filter_ext. intro b. unfold in_group. rewrite bucket_pred_edge. reflexivity.
Qed.

Lemma rebin_total ths hist nb left right : ths <> [] -> (left <= right)%Qc -> ascending hist ->
  totals_sum (map snd (rebin ths hist nb left right)) = totals_sum (map snd hist).
Proof.
  intros NE LR AS. rewrite rebin_groups by auto. rewrite map_map. cbn [snd].
  apply (totals_groups snd (fun b => lead (tl ths) (lower_edge nb left right (fst b)))).
  intros b _. pose proof (lead_le (tl ths) (lower_edge nb left right (fst b))). destruct ths; [congruence|]. simpl in *. lia.
Qed.

Lemma rebin_eq ths hist nb left right :
  ths <> [] -> ~ In NaN ths -> StronglySorted (fun a b => num_leb a b = true) ths ->
  (left <= right)%Qc -> ascending hist ->
  rebin ths hist nb left right =
  map (fun i => (i, totals_sum (map snd (filter (fun b => between ths i (lower_edge nb left right (fst b))) hist))))
      (seq 0 (length ths)).
Proof.
  intros NE NN SS LR AS. rewrite rebin_groups by auto.
  apply map_ext_in. intros i Hi. apply in_seq in Hi. f_equal. f_equal. f_equal. apply filter_ext. intro b.
  apply lead_between; auto; [apply lower_edge_nan|lia].
Qed.

Lemma C13_rebin_pf :
  forall ths hist nb left right,
    ths <> [] -> ~ In NaN ths -> StronglySorted (fun a b => num_leb a b = true) ths ->
    (left <= right)%Qc -> ascending hist ->
    let out := rebin ths hist nb left right in
    map fst out = seq 0 (length ths) /\
    (forall i t, In (i, t) out ->
       let E := filter (fun b => between ths i (lower_edge nb left right (fst b))) hist in
       t_labels t = qsum (map (fun b => t_labels (snd b)) E) /\
       t_examples t = qsum (map (fun b => t_examples (snd b)) E) /\
       t_predictions t = fold_right num_plus (Fin 0%Qc) (map (fun b => t_predictions (snd b)) E)) /\
    qsum (map (fun b => t_labels (snd b)) out) = qsum (map (fun b => t_labels (snd b)) hist) /\
    qsum (map (fun b => t_examples (snd b)) out) = qsum (map (fun b => t_examples (snd b)) hist) /\
    fold_right num_plus (Fin 0%Qc) (map (fun b => t_predictions (snd b)) out) =
    fold_right num_plus (Fin 0%Qc) (map (fun b => t_predictions (snd b)) hist).
Proof.
  intros ths hist nb left right NE NN SS LR AS out.
  assert (O : out = map (fun i => (i, totals_sum (map snd (filter (fun b => between ths i (lower_edge nb left right (fst b))) hist))))
      (seq 0 (length ths))) by (apply rebin_eq; auto).
  assert (TP : forall l, t_predictions (totals_sum l) = fold_right num_plus (Fin 0%Qc) (map t_predictions l)).
  { induction l as [|a l IH]; simpl; auto. fold (totals_sum l). rewrite IH. reflexivity. }
  assert (T : totals_sum (map snd out) = totals_sum (map snd hist)) by (apply rebin_total; auto).
  split; [|split; [|split; [|split]]].
  - rewrite O, map_map. cbn [fst]. apply map_id.
  - intros i t I E. rewrite O in I. apply in_map_iff in I. destruct I as (j & J & _). inversion J; subst j t.
    fold E. destruct (totals_sum_fields (map snd E)) as [A B]. rewrite A, B, TP, !map_map. auto.
  - pose proof (proj1 (totals_sum_fields (map snd out))) as A. pose proof (proj1 (totals_sum_fields (map snd hist))) as B.
    rewrite map_map in A, B. rewrite <- A, <- B, T. reflexivity.
  - pose proof (proj2 (totals_sum_fields (map snd out))) as A. pose proof (proj2 (totals_sum_fields (map snd hist))) as B.
    rewrite map_map in A, B. rewrite <- A, <- B, T. reflexivity.
  - pose proof (TP (map snd out)) as A. pose proof (TP (map snd hist)) as B.
    rewrite map_map in A, B. rewrite <- A, <- B, T. reflexivity.
Qed.

Definition small_hist : list bucket :=
  [(0, Totals 0%Qc (Fin (- (1))%Qc) 1%Qc); (2, Totals 1%Qc (Fin (Q2Qc (1#2))) (qz 2)); (5, Totals (qz 3) (Fin (qz 6)) (qz 3))].

(** Total positive and negative weight of a histogram. *)

Definition positives (h : list bucket) : Qc := qsum (map (fun b => t_labels (snd b)) h).

Definition negatives (h : list bucket) : Qc := qsum (map (fun b => t_examples (snd b) - t_labels (snd b))%Qc h).

(** Cells at the i-th threshold. *)

Definition tp_at (m : matrices) (i : nat) : Qc := nth i (m_tp m) 0%Qc.

Definition tn_at (m : matrices) (i : nat) : Qc := nth i (m_tn m) 0%Qc.

Definition fp_at (m : matrices) (i : nat) : Qc := nth i (m_fp m) 0%Qc.

Definition fn_at (m : matrices) (i : nat) : Qc := nth i (m_fn m) 0%Qc.

Definition conserves (m : matrices) (h : list bucket) (i : nat) : Prop :=
  (tp_at m i + fn_at m i = positives h)%Qc /\ (fp_at m i + tn_at m i = negatives h)%Qc.

(** Refuted: with thresholds above 1 examples vanish.  One positive example of
    weight 1 scored 3/10: thresholds [3/2] lose it; thresholds [1/2, 3/2] lose it at 3/2. *)

Definition one_positive : list bucket := [(1, Totals 1%Qc (Fin (Q2Qc (3#10))) 1%Qc)].

Lemma C16_histogram_conserves_refuted_pf :
  (exists m, histogram_result [Fin (Q2Qc (3#2))] one_positive 1 = Ok m /\ ~ conserves m one_positive 0) /\
  (exists m, histogram_result [Fin (Q2Qc (1#2)); Fin (Q2Qc (3#2))] one_positive 1 = Ok m /\
     conserves m one_positive 0 /\ ~ conserves m one_positive 1).
Proof.
  split.
  - eexists. split; [vm_compute; reflexivity|]. intros [H _]. vm_compute in H. discriminate.
  - eexists. split; [vm_compute; reflexivity|]. split; [split; qc_ex|]. intros [H _]. vm_compute in H. discriminate.
Qed.

Lemma suffix_length l : length (suffix_sums l) = length l.
Proof. induction l; simpl; auto. Qed.

Lemma prefix_length l : forall a, length (prefix_sums a l) = length l.
Proof. induction l; simpl; intro; auto. Qed.

Lemma suffix_nth l : forall i, nth i (suffix_sums l) 0%Qc = qsum (skipn i l).
Proof.
  induction l as [|x t IH]; intro i.
  - destruct i; reflexivity.
  - cbn [suffix_sums]. destruct i as [|i]; [|cbn [nth skipn]; apply IH].
    cbn [nth skipn qsum fold_right]. fold (qsum t). specialize (IH 0). cbn [skipn] in IH. rewrite <- IH.
    destruct t as [|y t]; [cbn; ring|]. cbn [suffix_sums nth]. ring.
Qed.

Lemma prefix_nth l : forall a i, i < length l -> nth i (prefix_sums a l) 0%Qc = (a + qsum (firstn i l))%Qc.
Proof.
  induction l as [|x t IH]; intros a i H; [simpl in H; lia|]. cbn [prefix_sums length] in *.
  destruct i as [|i]; cbn [nth firstn qsum fold_right]; [ring|]. fold (qsum (firstn i t)). rewrite IH by lia. ring.
Qed.

Lemma nth_slice {A} (l : list A) off n i d : i < n -> nth i (firstn n (skipn off l)) d = nth (off + i) l d.
Proof.
  intro H. revert off l. induction off as [|off IH]; intro l.
  - cbn [skipn Nat.add]. revert l i H. induction n as [|n IHn]; intros l i H; [lia|].
    destruct l, i; cbn [firstn nth]; auto. apply IHn. lia.
  - destruct l; cbn [skipn Nat.add nth]; [destruct n, i; reflexivity|]. apply IH.
Qed.

Lemma list_set_ok {A} (l : list A) i v d : i < length l ->
  exists l', list_set l i v = Ok l' /\ length l' = length l /\ forall j, nth j l' d = if Nat.eqb j i then v else nth j l d.
Proof.
  revert i. induction l as [|x t IH]; intros i H; [simpl in H; lia|]. destruct i as [|i]; cbn [list_set].
  - exists (v :: t). split; auto. split; auto. intros [|j]; reflexivity.
  - cbn [length] in H. destruct (IH i ltac:(lia)) as (t' & -> & L & N). cbn [bind].
    exists (x :: t'). split; auto. split; [simpl; lia|]. intros [|j]; [reflexivity|]. cbn [nth Nat.eqb]. apply N.
Qed.

Definition above (t : num) : bool := num_leb (Fin (1 + BCM_EPS)%Qc) t.

Lemma above_fold (P N : Qc) ts : forall a tp tn fp fn,
  length tp = length tn -> length tp = length fp -> length tp = length fn ->
  a + length ts <= length tp ->
  (forall i, i < length ts -> above (nth i ts NaN) = true ->
     a + i <> 0 /\ nth 0 tp 0%Qc = P /\ nth 0 fp 0%Qc = N) ->
  exists tp' tn' fp' fn',
    foldM above_one (combine (seq a (length ts)) ts) (tp, tn, fp, fn) = Ok (tp', tn', fp', fn') /\
    length tp' = length tp /\ length tn' = length tp /\ length fp' = length tp /\ length fn' = length tp /\
    forall j, let hit := (Nat.leb a j && Nat.ltb j (a + length ts) && above (nth (j - a) ts NaN)) in
      nth j tp' 0%Qc = (if hit then 0%Qc else nth j tp 0%Qc) /\
      nth j tn' 0%Qc = (if hit then N else nth j tn 0%Qc) /\
      nth j fp' 0%Qc = (if hit then 0%Qc else nth j fp 0%Qc) /\
      nth j fn' 0%Qc = (if hit then P else nth j fn 0%Qc).
Proof.
  induction ts as [|t ts IH]; intros a tp tn fp fn L1 L2 L3 LA H.
  - exists tp, tn, fp, fn. split; [reflexivity|]. do 4 (split; [congruence|]).
    intro j. cbn [length]. rewrite Nat.add_0_r.
    replace (Nat.leb a j && Nat.ltb j a) with false; [cbn [andb]; auto|].
    symmetry. destruct (Nat.leb_spec a j), (Nat.ltb_spec j a); try lia; reflexivity.
  - cbn [length] in *. cbn [seq combine foldM].
    destruct (above t) eqn:E.
    + destruct (H 0 ltac:(lia) E) as (A0 & TP & FP).
      destruct (list_set_ok tp a 0%Qc 0%Qc ltac:(lia)) as (tp1 & Et & Lt & Nt).
      destruct (list_set_ok fp a 0%Qc 0%Qc ltac:(lia)) as (fp1 & Ef & Lf & Nf).
      destruct (list_set_ok fn a P 0%Qc ltac:(lia)) as (fn1 & En & Ln & Nn).
      destruct (list_set_ok tn a N 0%Qc ltac:(lia)) as (tn1 & Em & Lm & Nm).
      assert (T0 : nth_ok tp1 0 = Ok P).
      { unfold nth_ok. rewrite (nth_error_nth' tp1 0%Qc) by lia. f_equal. rewrite Nt.
        destruct (Nat.eqb_spec 0 a); [lia|auto]. }
      assert (F0 : nth_ok fp1 0 = Ok N).
      { unfold nth_ok. rewrite (nth_error_nth' fp1 0%Qc) by lia. f_equal. rewrite Nf.
        destruct (Nat.eqb_spec 0 a); [lia|auto]. }
      assert (S : above_one (tp, tn, fp, fn) (a, t) = Ok (tp1, tn1, fp1, fn1)).
      { unfold above_one. cbn [fst snd]. fold (above t). rewrite E, Et. cbn [bind]. rewrite Ef. cbn [bind].
        rewrite T0. cbn [bind]. rewrite En. cbn [bind]. rewrite F0. cbn [bind]. rewrite Em. reflexivity. }
      rewrite S. cbn [bind].
      destruct (IH (Datatypes.S a) tp1 tn1 fp1 fn1) as (tp' & tn' & fp' & fn' & R & M1 & M2 & M3 & M4 & M); try lia.
      { intros i Hi Ai. destruct (H (Datatypes.S i) ltac:(lia) Ai) as (_ & _ & _). split; [lia|].
        rewrite Nt, Nf. destruct (Nat.eqb_spec 0 a); [lia|]. auto. }
      exists tp', tn', fp', fn'. split; [exact R|]. do 4 (split; [lia|]).
      intro j. cbv zeta. specialize (M j). cbv zeta in M. rewrite Nt, Nf, Nn, Nm in M.
      destruct (Nat.eqb_spec j a) as [J|J].
      * subst j. replace (Nat.leb (Datatypes.S a) a) with false in M by (symmetry; apply Nat.leb_gt; lia). cbn [andb] in M.
        rewrite Nat.leb_refl, Nat.sub_diag. replace (Nat.ltb a (a + Datatypes.S (length ts))) with true by (symmetry; apply Nat.ltb_lt; lia).
        cbn [andb nth]. rewrite E. exact M.
      * replace (Nat.leb a j && Nat.ltb j (a + Datatypes.S (length ts)) && above (nth (j - a) (t :: ts) NaN))
          with (Nat.leb (Datatypes.S a) j && Nat.ltb j (Datatypes.S a + length ts) && above (nth (j - Datatypes.S a) ts NaN)); [exact M|].
        destruct (Nat.leb_spec (Datatypes.S a) j), (Nat.leb_spec a j); try (exfalso; lia); [|reflexivity].
        replace (j - a) with (Datatypes.S (j - Datatypes.S a)) by lia. cbn [nth]. do 3 f_equal. lia.
    + assert (S : above_one (tp, tn, fp, fn) (a, t) = Ok (tp, tn, fp, fn)).
      { unfold above_one. cbn [fst snd]. fold (above t). rewrite E. reflexivity. }
      rewrite S. cbn [bind].
      destruct (IH (Datatypes.S a) tp tn fp fn) as (tp' & tn' & fp' & fn' & R & M1 & M2 & M3 & M4 & M); try lia.
      { intros i Hi Ai. destruct (H (Datatypes.S i) ltac:(lia) Ai) as (_ & X & Y). split; [lia|auto]. }
      exists tp', tn', fp', fn'. split; [exact R|]. do 4 (split; [lia|]).
      intro j. cbv zeta. specialize (M j). cbv zeta in M.
      replace (Nat.leb a j && Nat.ltb j (a + Datatypes.S (length ts)) && above (nth (j - a) (t :: ts) NaN))
          with (Nat.leb (Datatypes.S a) j && Nat.ltb j (Datatypes.S a + length ts) && above (nth (j - Datatypes.S a) ts NaN)); [exact M|].
      destruct (Nat.leb_spec (Datatypes.S a) j), (Nat.leb_spec a j); try (exfalso; lia).
      * replace (j - a) with (Datatypes.S (j - Datatypes.S a)) by lia. cbn [nth]. do 3 f_equal. lia.
      * replace j with a by lia. rewrite Nat.sub_diag. cbn [nth]. rewrite E, andb_false_r. reflexivity.
      * reflexivity.
Qed.

Definition cut (ths : list num) (h : list bucket) : nat :=
  if (num_leb (Fin 0%Qc) (nth 0 ths NaN) || Nat.eqb (length ths) 1) && Nat.ltb 1 (length h) then 1 else 0.

Lemma matrices_cells ths h : ths <> [] -> cut ths h + length ths <= length h ->
  (forall i, i < length ths -> above (nth i ths NaN) = true -> i <> 0 /\ cut ths h = 0) ->
  exists m, histogram_to_matrices ths h = Ok m /\ m_thresholds m = ths /\
    length (m_tp m) = length ths /\ length (m_tn m) = length ths /\
    length (m_fp m) = length ths /\ length (m_fn m) = length ths /\
    forall i, i < length ths ->
      let up := above (nth i ths NaN) in let k := cut ths h + i in
      tp_at m i = (if up then 0%Qc else positives (skipn k h)) /\
      fn_at m i = (if up then positives h else positives (firstn k h)) /\
      fp_at m i = (if up then 0%Qc else negatives (skipn k h)) /\
      tn_at m i = (if up then negatives h else negatives (firstn k h)).
Proof.
  intros NE LH AB. unfold histogram_to_matrices.
  set (pos := map (fun b => t_labels (snd b)) h).
  set (neg := map (fun b => t_examples (snd b) - t_labels (snd b))%Qc h).
  replace (nth_ok ths 0) with (Ok (nth 0 ths NaN)) by (destruct ths; [congruence|reflexivity]).
  cbn [bind]. fold (cut ths h). set (c := cut ths h) in *.
  set (n := length ths) in *.
  assert (LP : length pos = length h) by apply map_length.
  assert (LN : length neg = length h) by apply map_length.
  assert (SL : forall l : list Qc, length l = length h -> length (firstn n (skipn c l)) = n).
  { intros l Hl. rewrite firstn_length, skipn_length. lia. }
  destruct (above_fold (positives h) (negatives h) ths 0
     (firstn n (skipn c (suffix_sums pos))) (firstn n (skipn c (prefix_sums 0%Qc neg)))
     (firstn n (skipn c (suffix_sums neg))) (firstn n (skipn c (prefix_sums 0%Qc pos))))
    as (tp & tn & fp & fn & R & L1 & L2 & L3 & L4 & M).
  - rewrite !SL; rewrite ?suffix_length, ?prefix_length; auto.
  - rewrite !SL; rewrite ?suffix_length, ?prefix_length; auto.
  - rewrite !SL; rewrite ?suffix_length, ?prefix_length; auto.
  - rewrite SL by (rewrite suffix_length; auto). fold n. lia.
  - intros i Hi Ai. destruct (AB i Hi Ai) as [I0 C0]. split; [lia|].
    rewrite !nth_slice by lia. rewrite C0, !suffix_nth. cbn [Nat.add skipn]. auto.
  - fold n in R. rewrite R. cbn [bind]. eexists. split; [reflexivity|]. cbn [m_thresholds m_tp m_tn m_fp m_fn].
    rewrite SL in L1, L2, L3, L4 by (rewrite suffix_length; auto).
    split; [reflexivity|]. do 4 (split; [auto|]).
    intros i Hi. cbv zeta. specialize (M i). cbv zeta in M. fold n in M.
    replace (Nat.leb 0 i) with true in M by reflexivity.
    replace (Nat.ltb i (0 + n)) with true in M by (symmetry; apply Nat.ltb_lt; lia).
    cbn [andb] in M. rewrite Nat.sub_0_r in M. unfold tp_at, tn_at, fp_at, fn_at. cbn [m_tp m_tn m_fp m_fn].
    destruct M as (M1 & M2 & M3 & M4). rewrite M1, M2, M3, M4.
    rewrite !nth_slice by lia. rewrite !suffix_nth, !prefix_nth by lia.
    unfold positives, negatives, pos, neg. rewrite !skipn_map, !firstn_map, !Qcplus_0_l. auto.
Qed.

Lemma positives_split k h : (positives (skipn k h) + positives (firstn k h))%Qc = positives h.
Proof.
  replace (positives h) with (positives (firstn k h ++ skipn k h)) by (rewrite firstn_skipn; auto).
  unfold positives. rewrite map_app, qsum_app. apply Qcplus_comm.
Qed.

Lemma negatives_split k h : (negatives (skipn k h) + negatives (firstn k h))%Qc = negatives h.
Proof.
  replace (negatives h) with (negatives (firstn k h ++ skipn k h)) by (rewrite firstn_skipn; auto).
  unfold negatives. rewrite map_app, qsum_app. apply Qcplus_comm.
Qed.

Lemma totals_positives h : positives h = t_labels (totals_sum (map snd h)).
Proof. rewrite (proj1 (totals_sum_fields _)), map_map. reflexivity. Qed.

Lemma qsum_map_minus {A} (f g : A -> Qc) l :
  qsum (map (fun x => f x - g x)%Qc l) = (qsum (map f l) - qsum (map g l))%Qc.
Proof. induction l; simpl; [ring | rewrite IHl; ring]. Qed.

Lemma totals_negatives h : negatives h = (t_examples (totals_sum (map snd h)) - t_labels (totals_sum (map snd h)))%Qc.
Proof.
  destruct (totals_sum_fields (map snd h)) as [-> ->]. rewrite !map_map. apply qsum_map_minus.
Qed.

Lemma rebin_thresholds_ok ths : ths <> [] ->
  exists r, rebin_thresholds ths = Ok r /\ r <> [] /\
    length r = (if num_leb (Fin 0%Qc) (nth 0 ths NaN) then 1 else 0) + length ths +
               (if num_ltb (last ths NaN) (Fin 1%Qc) then 1 else 0).
Proof.
  intro NE. unfold rebin_thresholds.
  replace (nth_ok ths 0) with (Ok (nth 0 ths NaN)) by (destruct ths; [congruence|reflexivity]).
  cbn [bind]. eexists. split; [reflexivity|].
  destruct (num_leb (Fin 0%Qc) (nth 0 ths NaN)), (num_ltb (last ths NaN) (Fin 1%Qc)); cbn [app length];
  rewrite ?app_length, ?map_length; cbn [length]; split; try lia; try discriminate.
  - destruct ths; [congruence|discriminate].
  - destruct ths; [congruence|discriminate].
Qed.

(** The cells come from a histogram with the same totals. *)

Lemma histogram_result_cells ths h nb : ths <> [] -> ~ In NaN ths -> ascending h ->
  h <> [] \/ num_leb (Fin 0%Qc) (nth 0 ths NaN) = true \/ length ths <> 1 ->
  (forall t, In t ths -> above t = false) \/ num_ltb (nth 0 ths NaN) (Fin 0%Qc) = true ->
  exists g c m, histogram_result ths h nb = Ok m /\ m_thresholds m = ths /\
    positives g = positives h /\ negatives g = negatives h /\
    length (m_tp m) = length ths /\ length (m_tn m) = length ths /\
    length (m_fp m) = length ths /\ length (m_fn m) = length ths /\
    (g = if Nat.eqb (length ths) 1 && num_ltb (nth 0 ths NaN) (Fin 0%Qc) then h
         else match rebin_thresholds ths with Ok r => rebin r h nb 0%Qc 1%Qc | Err _ => [] end) /\
    (c = if (num_leb (Fin 0%Qc) (nth 0 ths NaN) || Nat.eqb (length ths) 1) && Nat.ltb 1 (length g) then 1 else 0) /\
    forall i, i < length ths ->
      let up := above (nth i ths NaN) in let k := c + i in
      tp_at m i = (if up then 0%Qc else positives (skipn k g)) /\
      fn_at m i = (if up then positives g else positives (firstn k g)) /\
      fp_at m i = (if up then 0%Qc else negatives (skipn k g)) /\
      tn_at m i = (if up then negatives g else negatives (firstn k g)).
Proof.
  intros NE NN AS NH AB. unfold histogram_result.
  replace (nth_ok ths 0) with (Ok (nth 0 ths NaN)) by (destruct ths; [congruence|reflexivity]).
  cbn [bind]. set (t0 := nth 0 ths NaN) in *.
  assert (I0 : In t0 ths) by (destruct ths; [congruence|left; reflexivity]).
  assert (N0 : t0 <> NaN) by (intro E; rewrite E in I0; auto).
  assert (LT : num_ltb t0 (Fin 0%Qc) = negb (num_leb (Fin 0%Qc) t0)).
  { rewrite num_leb_gt by (auto; discriminate). rewrite negb_involutive. reflexivity. }
  assert (A0 : above t0 = false).
  { destruct AB as [AB|AB]; [apply AB; auto|]. unfold above.
    destruct t0 as [| |q|]; try discriminate; [reflexivity|]. apply Qc_leb_gt. apply Qc_ltb_lt in AB.
    unfold BCM_EPS. eapply Qclt_trans; [exact AB|]. reflexivity. }
  assert (ABI : forall i, i < length ths -> above (nth i ths NaN) = true ->
            i <> 0 /\ num_leb (Fin 0%Qc) t0 = false /\ Nat.eqb (length ths) 1 = false).
  { intros i Hi Ai. assert (i <> 0) by (intro; subst; unfold t0 in A0; congruence). split; auto.
    split; [|apply Nat.eqb_neq; lia].
    destruct AB as [AB|AB]; [rewrite AB in Ai by (apply nth_In; auto); discriminate|].
    rewrite LT in AB. apply negb_true_iff in AB. auto. }
  destruct (Nat.eqb (length ths) 1 && num_ltb t0 (Fin 0%Qc)) eqn:B.
  - cbn [bind]. apply andb_true_iff in B. destruct B as [B1 B2]. apply Nat.eqb_eq in B1.
    destruct (matrices_cells ths h) as (m & E & M0 & M1 & M2 & M3 & M4 & M); auto.
    + destruct NH as [NH|[NH|NH]]; [|rewrite LT, NH in B2; discriminate|congruence].
      unfold cut. rewrite B1. destruct h as [|b1 [|b2 l]]; [congruence| |].
      * cbn [length Nat.ltb Nat.leb]. rewrite andb_false_r. lia.
      * cbn [length]. destruct (_ && _); lia.
    + intros i Hi Ai. destruct (ABI i Hi Ai) as (X & _ & Y). apply Nat.eqb_neq in Y. lia.
    + exists h, (cut ths h), m. do 10 (split; [auto|]). exact M.
  - destruct (rebin_thresholds_ok ths NE) as (r & R & RN & RL). rewrite R. cbn [bind].
    set (g := rebin r h nb 0%Qc 1%Qc). fold t0 in RL.
    assert (LR : (0 <= 1)%Qc) by discriminate.
    assert (T : totals_sum (map snd g) = totals_sum (map snd h)) by (apply rebin_total; auto).
    assert (LG : length g = length r).
    { unfold g. rewrite rebin_groups by auto. rewrite map_length, seq_length. reflexivity. }
    destruct (matrices_cells ths g) as (m & E & M0 & M1 & M2 & M3 & M4 & M); auto.
    + unfold cut. fold t0. rewrite LG, RL.
      destruct (num_leb (Fin 0%Qc) t0) eqn:Z.
      * cbn [orb]. destruct (Nat.ltb 1 _); cbn [andb]; lia.
      * cbn [orb]. rewrite LT in B. cbn [negb] in B. rewrite andb_true_r in B. rewrite B. cbn [andb]. lia.
    + intros i Hi Ai. destruct (ABI i Hi Ai) as (X & Y & Z). split; auto. unfold cut. fold t0. rewrite Y, Z. reflexivity.
    + exists g, (cut ths g), m. split; [exact E|]. split; auto.
      split; [rewrite !totals_positives, T; auto|]. split; [rewrite !totals_negatives, T; auto|].
      do 6 (split; [auto|]). exact M.
Qed.

Lemma C16_histogram_conserves_partial_pf :
  forall ths h nb, ths <> [] -> ~ In NaN ths -> ascending h -> h <> [] ->
    (forall t, In t ths -> num_ltb t (Fin (1 + Q2Qc (1 # 10000000))%Qc) = true) \/
    num_ltb (nth 0 ths NaN) (Fin 0%Qc) = true ->
    exists m, histogram_result ths h nb = Ok m /\ m_thresholds m = ths /\
      forall i, i < length ths -> conserves m h i.
Proof.
  intros ths h nb NE NN AS NH H.
  destruct (histogram_result_cells ths h nb NE NN AS (or_introl NH)) as (g & c & m & E & MT & P & N & _ & _ & _ & _ & _ & _ & M).
  { destruct H as [H|H]; [left|right; exact H]. intros t It. unfold above. fold BCM_EPS in H.
    rewrite num_leb_gt by (try discriminate; intro; subst; auto). rewrite (H t It). reflexivity. }
  exists m. split; [exact E|]. split; [exact MT|]. intros i Hi.
  destruct (M i Hi) as (M1 & M2 & M3 & M4). unfold conserves. rewrite M1, M2, M3, M4, <- P, <- N.
  destruct (above (nth i ths NaN)); [split; ring|]. split; [apply positives_split|apply negatives_split].
Qed.

Lemma lead_ge rest p i : StronglySorted (fun a b => num_leb a b = true) rest -> i < length rest ->
  Nat.leb (S i) (lead rest p) = num_leb (nth i rest NaN) p.
Proof.
  intro S. revert i. induction S as [|t r S IH F]; intros i Hi; [simpl in Hi; lia|].
  cbn [lead length] in *. destruct (num_leb t p) eqn:E.
  - destruct i as [|i]; [cbn [nth]; rewrite E; reflexivity|]. cbn [nth]. rewrite <- IH by lia. reflexivity.
  - destruct i as [|i]; [cbn [nth]; rewrite E; reflexivity|]. cbn [nth].
    replace (Nat.leb (Datatypes.S (Datatypes.S i)) 0) with false by reflexivity. symmetry.
    destruct (num_leb (nth i r NaN) p) eqn:E2; auto.
    rewrite Forall_forall in F. assert (I : In (nth i r NaN) r) by (apply nth_In; lia).
    rewrite (num_leb_trans _ _ _ (F _ I) E2) in E. discriminate.
Qed.

Lemma skipn_seq k : forall a n, skipn k (seq a n) = seq (a + k) (n - k).
Proof.
  induction k as [|k IH]; intros a n; [cbn [skipn]; rewrite Nat.add_0_r, Nat.sub_0_r; reflexivity|].
  destruct n as [|n]; [reflexivity|]. cbn [seq skipn]. rewrite IH. f_equal; lia.
Qed.

(** Weight of the source buckets from the (i+1)-th threshold on. *)

Lemma rebin_suffix ths hist nb left right i : ths <> [] -> StronglySorted (fun a b => num_leb a b = true) ths ->
  (left <= right)%Qc -> ascending hist -> S i < length ths ->
  totals_sum (map snd (skipn (S i) (rebin ths hist nb left right))) =
  totals_sum (map snd (filter (fun b => num_leb (nth (S i) ths NaN) (lower_edge nb left right (fst b))) hist)).
Proof.
  intros NE SS LR AS Hi. rewrite rebin_groups by auto. rewrite skipn_map, skipn_seq, map_map. cbn [snd Nat.add].
  rewrite (totals_groups_from snd (fun b => lead (tl ths) (lower_edge nb left right (fst b)))).
  f_equal. f_equal. apply filter_ext. intro b.
  destruct ths as [|t r]; [congruence|]. cbn [tl length nth] in *. inversion SS; subst.
  rewrite lead_ge by (auto; lia).
  replace (Nat.ltb (lead r (lower_edge nb left right (fst b))) (S i + (S (length r) - S i))) with true; [apply andb_true_r|].
  symmetry. apply Nat.ltb_lt. pose proof (lead_le r (lower_edge nb left right (fst b))). lia.
Qed.

(** From bucket totals to data, for any set of buckets. *)

Lemma buckets_to_data nb left right bp (P : nat -> bool) (D : list scored) (h : list bucket) (f : totals -> Qc) (g : scored -> Qc) :
  1 <= nb -> (left < right)%Qc -> NoDup (map fst h) ->
  (forall x, In x D -> bucketed_by bp x <> NaN) ->
  (forall i t, In (i, t) h -> f t = qsum (map g (over nb left right bp i D))) ->
  (forall i x, ~ In i (map fst h) -> In x (over nb left right bp i D) -> g x = 0%Qc) ->
  qsum (map (fun b => f (snd b)) (filter (fun b => P (fst b)) h)) =
  qsum (map g (filter (fun x => P (bid nb left right (bucketed_by bp x))) D)).
Proof.
  intros Hnb Hlr N NB F Z.
  set (K := map fst (filter (fun b => P (fst b)) h)).
  assert (NK : NoDup K).
  { unfold K. clear - N. induction h as [|b h IH]; [constructor|]. cbn [map] in N. inversion N; subst. cbn [filter].
    destruct (P (fst b)); [|auto]. cbn [map]. constructor; auto. intro I. apply H1.
    apply in_map_iff in I. destruct I as (c & E & I). apply filter_In in I. rewrite <- E. apply in_map. tauto. }
  set (key := fun x => bid nb left right (bucketed_by bp x)).
  set (C := filter (fun x => P (key x)) D).
  change (qsum (map (fun b => f (snd b)) (filter (fun b => P (fst b)) h)) = qsum (map g C)).
  rewrite (qsum_filter_split g (fun x => memb Nat.eqb (key x) K) C).
  rewrite (qsum_map_zero g (filter (fun x => negb (memb Nat.eqb (key x) K)) C)).
  - rewrite <- (qsum_partition key g K (filter (fun x => memb Nat.eqb (key x) K) C) NK).
    + assert (MK : forall F : nat -> Qc, qsum (map F K) = qsum (map (fun b => F (fst b)) (filter (fun b => P (fst b)) h)))
        by (intro; unfold K; rewrite map_map; reflexivity).
      rewrite Qcplus_0_r, MK. apply qsum_map_ext. intros [i t] I.
      apply filter_In in I. cbn [fst snd] in *. destruct I as [I Pi].
      rewrite (F i t I). f_equal. f_equal. unfold over, C. clear F Z.
      assert (IK : In i K).
      { unfold K. change i with (fst (i, t)). apply in_map. apply filter_In. auto. }
      induction D as [|x D IH]; [reflexivity|]. cbn [filter].
      destruct (bid_spec nb left right Hnb Hlr (bucketed_by bp x)) as (_ & B & _); [apply NB; left; auto|].
      rewrite B. fold (key x). destruct (Nat.eqb_spec i (key x)).
      * subst i. rewrite Pi. cbn [filter]. rewrite (proj2 (memb_In _ Nat.eqb_eq (key x) K) IK). cbn [filter].
        rewrite Nat.eqb_refl. f_equal. apply IH. intros; apply NB; right; auto.
      * rewrite IH by (intros; apply NB; right; auto).
        destruct (P (key x)); [|reflexivity]. cbn [filter]. destruct (memb Nat.eqb (key x) K); [|reflexivity].
        cbn [filter]. destruct (Nat.eqb_spec i (key x)); [contradiction|reflexivity].
    + intros x Hx. apply filter_In in Hx. apply (memb_In _ Nat.eqb_eq). tauto.
  - intros x Hx. apply filter_In in Hx. destruct Hx as [Hx NI]. unfold C in Hx. apply filter_In in Hx. destruct Hx as [Hx Px].
    apply negb_true_iff, (memb_nIn _ Nat.eqb_eq) in NI.
    apply (Z (key x)).
    + intro I. apply NI. unfold K. apply in_map_iff in I. destruct I as (b & E & I). rewrite <- E.
      apply in_map. apply filter_In. rewrite E. auto.
    + apply filter_In. split; auto.
      destruct (bid_spec nb left right Hnb Hlr (bucketed_by bp x)) as (_ & B & _); [apply NB; auto|].
      rewrite B. apply Nat.eqb_refl.
Qed.

Lemma rebin_thresholds_unit qs : qs <> [] -> (forall q, In q qs -> (0 < q)%Qc /\ (q < 1)%Qc) ->
  rebin_thresholds (map Fin qs) =
  Ok (Fin (- BCM_EPS)%Qc :: map (fun q => Fin (q + BCM_EPS)%Qc) qs ++ [Fin (1 + BCM_EPS)%Qc]).
Proof.
  intros NE U. unfold rebin_thresholds. destruct qs as [|q0 qs]; [congruence|].
  replace (nth_ok (map Fin (q0 :: qs)) 0) with (Ok (Fin q0)) by reflexivity. cbn [bind].
  replace (num_leb (Fin 0%Qc) (Fin q0)) with true.
  2:{ symmetry. apply leb_Fin. apply Qclt_le_weak. apply U. left; auto. }
  replace (num_ltb (last (map Fin (q0 :: qs)) NaN) (Fin 1%Qc)) with true.
  2:{ symmetry. assert (I : exists q, In q (q0 :: qs) /\ last (map Fin (q0 :: qs)) NaN = Fin q).
      { clear. revert q0. induction qs as [|q qs IH]; intro q0.
        - exists q0. split; [left; auto|reflexivity].
        - destruct (IH q) as (x & Hx & E). exists x. split; [right; auto|exact E]. }
      destruct I as (q & Iq & ->). apply ltb_Fin. apply U; auto. }
  f_equal. cbn [app]. f_equal. f_equal. rewrite map_map. apply map_ext_in. intros q Iq.
  cbn [num_eqb num_plus]. destruct (Qc_eqb q 0%Qc) eqn:E; [|reflexivity].
  apply Qc_eqb_eq in E. subst. destruct (U _ Iq) as [X _]. exfalso. exact (Qclt_not_eq' _ _ X eq_refl).
Qed.

Lemma SS_unit qs : (forall q, In q qs -> (0 < q)%Qc /\ (q < 1)%Qc) -> StronglySorted Qcle qs ->
  StronglySorted (fun a b => num_leb a b = true)
    (Fin (- BCM_EPS)%Qc :: map (fun q => Fin (q + BCM_EPS)%Qc) qs ++ [Fin (1 + BCM_EPS)%Qc]).
Proof.
  intros U S. assert (E : (0 < BCM_EPS)%Qc) by reflexivity. revert E. generalize BCM_EPS. intros eps E.
  constructor.
  - induction qs as [|q qs IH]; [repeat constructor|]. inversion S as [|a l S' F]; subst. cbn [map app]. constructor.
    + apply IH; auto. intros; apply U; right; auto.
    + apply Forall_app. split.
      * rewrite Forall_forall in *. intros x Hx. apply in_map_iff in Hx. destruct Hx as (y & <- & Hy).
        apply leb_Fin. specialize (F y Hy). qc_lra.
      * constructor; [|constructor]. apply leb_Fin. destruct (U q ltac:(left; auto)). qc_lra.
  - apply Forall_app. split.
    + apply Forall_forall. intros x Hx. apply in_map_iff in Hx. destruct Hx as (y & <- & Hy).
      apply leb_Fin. destruct (U y Hy). qc_lra.
    + constructor; [|constructor]. apply leb_Fin. qc_lra.
Qed.

Lemma filter_sum_mono (g : scored -> Qc) (p q : scored -> bool) D : (forall x, In x D -> (0 <= g x)%Qc) ->
  (forall x, In x D -> p x = true -> q x = true) ->
  (qsum (map g (filter p D)) <= qsum (map g (filter q D)))%Qc.
Proof.
  intros G H. rewrite <- !qsum_map_if. apply qsum_map_le. intros x Hx. specialize (H x Hx).
  destruct (p x); [rewrite H by auto; apply Qcle_refl|]. destruct (q x); [auto|apply Qcle_refl].
Qed.

(** The lower edge of the bucket of a score is at most the score and less than one
    bucket width below it (or the score is beyond the range). *)

Lemma lower_edge_close nb t p : 1 <= nb -> (t < 1)%Qc -> p <> NaN ->
  (num_leb (Fin t) (lower_edge nb 0%Qc 1%Qc (bid nb 0%Qc 1%Qc p)) = true -> num_leb (Fin t) p = true) /\
  ((0 <= t)%Qc -> num_leb (Fin (t + / qn nb)%Qc) p = true ->
   num_leb (Fin t) (lower_edge nb 0%Qc 1%Qc (bid nb 0%Qc 1%Qc p)) = true).
Proof.
  intros Hnb T1 Np. assert (LR : (0 < 1)%Qc) by reflexivity.
  destruct (bid_spec nb 0%Qc 1%Qc Hnb LR p Np) as (_ & B & _).
  set (i := bid nb 0%Qc 1%Qc p) in *. specialize (B i). rewrite Nat.eqb_refl in B.
  apply in_bucket_cases in B.
  assert (I : (0 < / qn nb)%Qc) by (apply Qcinv_pos, qn_pos; auto).
  unfold lower_edge. destruct B as [[E B]|[[E [B1 B2]]|[E B]]].
  - rewrite E. cbn [Nat.eqb]. split; [discriminate|]. intros T0 H. exfalso.
    destruct p as [| |q|]; try discriminate. apply ltb_Fin in B. apply leb_Fin in H. qc_lra.
  - destruct (Nat.eqb_spec i 0); [lia|]. destruct (Nat.leb_spec i nb); [|lia]. split.
    + intro H1. eapply num_leb_trans; [exact H1|exact B1].
    + intros T0 H1. destruct p as [| |q|]; try discriminate. apply ltb_Fin in B2. apply leb_Fin in H1. apply leb_Fin.
      assert (S : (edge nb 0 1 i = edge nb 0 1 (i - 1) + / qn nb)%Qc).
      { unfold edge. replace i with (S (i - 1)) at 1 by lia. rewrite qn_S. unfold Qcdiv.
        replace (1 - 0)%Qc with 1%Qc by ring. ring. }
      rewrite S in B2. qc_lra.
  - rewrite E. destruct (Nat.eqb_spec (nb + 1) 0); [lia|]. destruct (Nat.leb_spec (nb + 1) nb); [lia|].
    split; [|reflexivity]. intros _. destruct p as [| |q|]; try discriminate; [|reflexivity].
    apply leb_Fin in B. apply leb_Fin. qc_lra.
Qed.

(** Scores strictly above t, and scores at least 1e-7 plus one bucket width above t. *)

Definition scores_above (t : Qc) (D : list scored) : list scored :=
  filter (fun x => num_ltb (Fin t) (sc_score x)) D.

Definition scores_clearly_above (nb : nat) (t : Qc) (D : list scored) : list scored :=
  filter (fun x => num_leb (Fin (t + Q2Qc (1 # 10000000) + / qn nb)%Qc) (sc_score x)) D.

Definition weighted_negative (x : scored) : Qc := (sc_weight x * (1 - sc_label x))%Qc.

Lemma C64_histogram_sandwich_partial_pf :
  forall ap nb fr weighted lk pk m o s ex w qs,
    1 <= nb -> qs <> [] -> StronglySorted Qcle qs ->
    (forall q, In q qs -> (0 < q)%Qc /\ (q + Q2Qc (1 # 10000000) < 1)%Qc) ->
    (forall e, In e (inputs s) ->
       carries weighted m o e (Reading (map fst (ex e)) (map snd (ex e)) [w e]) /\ ex e <> [] /\ (0 <= w e)%Qc /\
       forall l p, In (l, p) (ex e) -> p <> NaN /\ (0 <= l <= 1)%Qc) ->
    let D := scored_of ex w (inputs s) in
    exists h c,
      outcome (histogram_combiner ap nb 0%Qc 1%Qc true (histogram_options None false weighted fr None) lk pk m o) s = Ok h /\
      histogram_result (map Fin qs) h nb = Ok c /\
      forall i, i < length qs ->
        let t := nth i qs 0%Qc in
        (qsum (map weighted_label (scores_clearly_above nb t D)) <= tp_at c i)%Qc /\
        (tp_at c i <= qsum (map weighted_label (scores_above t D)))%Qc /\
        (qsum (map weighted_negative (scores_clearly_above nb t D)) <= fp_at c i)%Qc /\
        (fp_at c i <= qsum (map weighted_negative (scores_above t D)))%Qc /\
        (tp_at c i + fn_at c i = qsum (map weighted_label D))%Qc /\
        (fp_at c i + tn_at c i = qsum (map weighted_negative D))%Qc.
Proof.
  intros ap nb fr weighted lk pk m o s ex w qs Hnb NE SS U HG D.
  assert (LR : (0 < 1)%Qc) by reflexivity. assert (LE : (0 <= 1)%Qc) by discriminate.
  destruct (C12_histogram_conserves_pf ap nb 0%Qc 1%Qc true fr weighted lk pk m o s ex w Hnb LR) as
    (h & EH & AS & HB & HM & TL & TE & _).
  { discriminate. }
  { intros e He. destruct (HG e He) as (C & N & _ & G). split; auto. split; auto. intros l p Hl.
    destruct (G l p Hl) as [G1 [G2 G3]]. split; auto. intros _. split.
    - eapply Qcle_trans; [|exact G2]. discriminate.
    - eapply Qcle_trans; [exact G3|]. discriminate. }
  fold D in HB, HM, TL, TE.
  assert (ND : forall x, In x D -> bucketed_by true x <> NaN /\ (0 <= sc_weight x)%Qc /\ (0 <= sc_label x <= 1)%Qc).
  { intros x Hx. apply in_flat_map in Hx. destruct Hx as (e & He & Hx). destruct (HG e He) as (_ & _ & W & G).
    apply in_map_iff in Hx. destruct Hx as ([l0 p0] & <- & Hx). destruct (G l0 p0 Hx). auto. }
  assert (UU : forall q, In q qs -> (0 < q)%Qc /\ (q < 1)%Qc).
  { intros q Hq. destruct (U q Hq). split; auto. assert (0 < Q2Qc (1 # 10000000))%Qc by reflexivity. qc_lra. }
  assert (T0 : exists q0, nth 0 (map Fin qs) NaN = Fin q0 /\ (0 < q0)%Qc).
  { destruct qs as [|q0 l]; [congruence|]. exists q0. split; auto. apply UU. left; auto. }
  destruct T0 as (q0 & T0 & Q0).
  assert (L0 : num_leb (Fin 0%Qc) (nth 0 (map Fin qs) NaN) = true).
  { rewrite T0. apply leb_Fin. apply Qclt_le_weak; auto. }
  assert (NE' : map Fin qs <> []) by (destruct qs; [congruence|discriminate]).
  destruct (histogram_result_cells (map Fin qs) h nb NE') as (g & c & mm & E & MT & P & N & _ & _ & _ & _ & EG & EC & M).
  { intro I. apply in_map_iff in I. destruct I as (x & X & _). discriminate. }
  { exact AS. }
  { right. left. exact L0. }
  { left. intros t It. apply in_map_iff in It. destruct It as (q & <- & Iq). unfold above.
    apply Qc_leb_gt. destruct (UU q Iq). assert (0 < BCM_EPS)%Qc by reflexivity. qc_lra. }
  exists h, mm. split; [exact EH|]. split; [exact E|].
  set (r := Fin (- BCM_EPS)%Qc :: map (fun q => Fin (q + BCM_EPS)%Qc) qs ++ [Fin (1 + BCM_EPS)%Qc]) in *.
  assert (EG' : g = rebin r h nb 0%Qc 1%Qc).
  { rewrite EG, rebin_thresholds_unit by auto. rewrite T0.
    replace (num_ltb (Fin q0) (Fin 0%Qc)) with false; [rewrite andb_false_r; reflexivity|].
    symmetry. apply Qc_ltb_ge. apply Qclt_le_weak; auto. }
  assert (RN : r <> []) by discriminate.
  assert (RS : StronglySorted (fun a b => num_leb a b = true) r) by (apply SS_unit; auto).
  assert (C1 : c = 1).
  { rewrite EC, L0. cbn [orb andb].
    replace (Nat.ltb 1 (length g)) with true; [reflexivity|]. symmetry. apply Nat.ltb_lt.
    rewrite EG', rebin_groups by auto. rewrite map_length, seq_length. unfold r. cbn [length]. rewrite app_length. cbn [length]. lia. }
  assert (NH : NoDup (map fst h)).
  { clear - AS. unfold ascending in AS. induction AS as [|a l S IH F]; constructor; auto.
    intro I. rewrite Forall_forall in F. specialize (F a I). lia. }
  intros i Hi. cbv zeta. set (t := nth i qs 0%Qc).
  assert (It : In t qs) by (apply nth_In; auto).
  destruct (U t It) as [Ut1 Ut2]. fold BCM_EPS in Ut2.
  assert (RT : nth (S i) r NaN = Fin (t + BCM_EPS)%Qc).
  { unfold r. cbn [nth]. rewrite app_nth1 by (rewrite map_length; auto).
    rewrite (nth_indep _ NaN (Fin (0 + BCM_EPS)%Qc)) by (rewrite map_length; auto).
    rewrite (map_nth (fun q => Fin (q + BCM_EPS)%Qc)). reflexivity. }
  specialize (M i). rewrite map_length in M. specialize (M Hi). cbv zeta in M.
  replace (above (nth i (map Fin qs) NaN)) with false in M.
  2:{ rewrite (nth_indep _ NaN (Fin 0%Qc)) by (rewrite map_length; auto). rewrite map_nth. fold t. symmetry.
      apply Qc_leb_gt. assert (0 < BCM_EPS)%Qc by reflexivity. qc_lra. }
  rewrite C1 in M. destruct M as (M1 & M2 & M3 & M4).
  set (PB := fun id : nat => num_leb (Fin (t + BCM_EPS)%Qc) (lower_edge nb 0%Qc 1%Qc id)).
  assert (SUF : totals_sum (map snd (skipn (1 + i) g)) = totals_sum (map snd (filter (fun b => PB (fst b)) h))).
  { rewrite EG'. cbn [Nat.add]. rewrite rebin_suffix; auto.
    - rewrite RT. reflexivity.
    - unfold r. cbn [length]. rewrite app_length, map_length. cbn [length]. lia. }
  assert (TP : tp_at mm i = qsum (map weighted_label (filter (fun x => PB (bid nb 0%Qc 1%Qc (sc_score x))) D))).
  { rewrite M1, totals_positives, SUF, (proj1 (totals_sum_fields _)), map_map.
    apply (buckets_to_data nb 0%Qc 1%Qc true PB D h t_labels weighted_label Hnb LR NH).
    - intros x Hx. apply ND; auto.
    - intros j u Hj. apply (HB j u Hj).
    - intros j x NI Ix. destruct (HM j x NI Ix) as [_ W]. unfold weighted_label. rewrite W. ring. }
  assert (FP : fp_at mm i = qsum (map weighted_negative (filter (fun x => PB (bid nb 0%Qc 1%Qc (sc_score x))) D))).
  { rewrite M3, totals_negatives, SUF.
    destruct (totals_sum_fields (map snd (filter (fun b => PB (fst b)) h))) as [-> ->]. rewrite !map_map.
    rewrite <- (qsum_map_minus (fun b => t_examples (snd b)) (fun b => t_labels (snd b))).
    apply (buckets_to_data nb 0%Qc 1%Qc true PB D h (fun u => t_examples u - t_labels u)%Qc weighted_negative Hnb LR NH).
    - intros x Hx. apply ND; auto.
    - intros j u Hj. destruct (HB j u Hj) as (_ & _ & L & X & _). rewrite L, X.
      rewrite <- (qsum_map_minus sc_weight weighted_label). apply qsum_map_ext. intros x _. unfold weighted_label, weighted_negative. ring.
    - intros j x NI Ix. destruct (HM j x NI Ix) as [_ W]. unfold weighted_negative. rewrite W. ring. }
  assert (GL : forall x, In x D -> (0 <= weighted_label x)%Qc).
  { intros x Hx. destruct (ND x Hx) as (_ & A & [B _]). apply Qcmult_nonneg; auto. }
  assert (GN : forall x, In x D -> (0 <= weighted_negative x)%Qc).
  { intros x Hx. destruct (ND x Hx) as (_ & A & [_ B]). apply Qcmult_nonneg; auto. qc_lra. }
  assert (UP : forall x, In x D -> PB (bid nb 0%Qc 1%Qc (sc_score x)) = true -> num_ltb (Fin t) (sc_score x) = true).
  { intros x Hx Px. destruct (lower_edge_close nb (t + BCM_EPS)%Qc (sc_score x) Hnb Ut2) as [X _]; [apply (ND x Hx)|].
    specialize (X Px). destruct (sc_score x) as [| |q|]; try discriminate; [|reflexivity].
    apply leb_Fin in X. apply ltb_Fin. assert (0 < BCM_EPS)%Qc by reflexivity. qc_lra. }
  assert (LO : forall x, In x D -> num_leb (Fin (t + BCM_EPS + / qn nb)%Qc) (sc_score x) = true ->
                PB (bid nb 0%Qc 1%Qc (sc_score x)) = true).
  { intros x Hx Px. apply lower_edge_close; auto; [apply (ND x Hx)|]. assert (0 < BCM_EPS)%Qc by reflexivity. qc_lra. }
  unfold scores_clearly_above, scores_above. fold BCM_EPS.
  split; [rewrite TP; apply filter_sum_mono; auto|].
  split; [rewrite TP; apply filter_sum_mono; auto|].
  split; [rewrite FP; apply filter_sum_mono; auto|].
  split; [rewrite FP; apply filter_sum_mono; auto|].
  split.
  - rewrite M1, M2, positives_split, P. exact TL.
  - rewrite M3, M4, negatives_split, N. unfold negatives.
    rewrite (qsum_map_minus (fun b => t_examples (snd b)) (fun b => t_labels (snd b))), TL, TE.
    rewrite <- (qsum_map_minus sc_weight weighted_label). apply qsum_map_ext. intros x _. unfold weighted_label, weighted_negative. ring.
Qed.

Definition plain (l p w : Q) : inputs_dict :=
  InputsDict (Some (Leaf [Q2Qc l])) (Some (Leaf [Fin (Q2Qc p)])) (Some (Leaf [Q2Qc w])).

Lemma C64_histogram_exact_refuted_pf :
  (exists h c, outcome (histogram_combiner ap_sort 10 0%Qc 1%Qc true (histogram_options None false true true None) "" "" "" "")
      (Bundle [plain 1 (55#100) 1]) = Ok h /\ histogram_result [Fin (Q2Qc (1#2))] h 10 = Ok c /\ tp_at c 0 = 0%Qc) /\
  (exists h c, outcome (histogram_combiner ap_sort 10 0%Qc 1%Qc true (histogram_options None false true true None) "" "" "" "")
      (Bundle [plain 1 0 1]) = Ok h /\ histogram_result [Fin 0%Qc; Fin (Q2Qc (1#2))] h 10 = Ok c /\ tp_at c 0 = 1%Qc) /\
  (exists h c, outcome (histogram_combiner ap_sort 10 0%Qc 1%Qc true (histogram_options None false true true None) "" "" "" "")
      (Bundle [plain 1 1 1]) = Ok h /\ histogram_result [Fin (Q2Qc (1#2)); Fin 1%Qc] h 10 = Ok c /\ tp_at c 1 = 1%Qc).
Proof.
  split; [|split]; eexists; eexists; (split; [vm_compute; reflexivity|]); (split; [vm_compute; reflexivity|]); reflexivity.
Qed.

(** Top-k metrics use the single threshold -inf and a one bucket histogram; the
    classes outside the top k are scored -inf. *)

Definition two_class (l0 l1 p0 p1 : Q) : inputs_dict :=
  InputsDict (Some (Leaf [Q2Qc l0; Q2Qc l1])) (Some (Leaf [Fin (Q2Qc p0); Fin (Q2Qc p1)])) None.

Definition top_1_of_class_0 : options :=
  histogram_options (Some (SubKey (Some 0%Z) None (Some 1))) false true true None.

Lemma C65_top_k_positives_refuted_pf :
  (exists h c,
     outcome (histogram_combiner ap_sort 1 0%Qc 1%Qc true top_1_of_class_0 "" "" "" "")
       (Bundle [two_class 1 0 (1#5) (4#5)]) = Ok h /\
     histogram_result [NegInf] h 1 = Ok c /\ tp_at c 0 = 1%Qc /\ fn_at c 0 = 0%Qc) /\
  (exists h c,
     outcome (histogram_combiner ap_sort 1 0%Qc 1%Qc true top_1_of_class_0 "" "" "" "")
       (Bundle [two_class 1 0 (1#2) (1#5); two_class 1 0 2 (1#5)]) = Ok h /\
     histogram_result [NegInf] h 1 = Ok c /\ tp_at c 0 = 1%Qc /\ fn_at c 0 = 1%Qc).
Proof.
  split; eexists; eexists; (split; [vm_compute; reflexivity|]); (split; [vm_compute; reflexivity|]); split; reflexivity.
Qed.

Lemma C65_top_k_positives_partial_pf :
  forall h nb, ascending h -> In 0 (map fst h) -> 1 < length h ->
    exists c, histogram_result [NegInf] h nb = Ok c /\
      let sel := filter (fun b => negb (Nat.eqb (fst b) 0)) h in
      let uns := filter (fun b => Nat.eqb (fst b) 0) h in
      tp_at c 0 = positives sel /\ fp_at c 0 = negatives sel /\
      fn_at c 0 = positives uns /\ tn_at c 0 = negatives uns.
Proof.
  intros h nb AS I0 L.
  destruct (histogram_result_cells [NegInf] h nb) as (g & c & m & E & _ & _ & _ & _ & _ & _ & _ & EG & EC & M).
  { discriminate. } { intros [X|[]]; discriminate. } { exact AS. } { left. destruct h; [simpl in L; lia|discriminate]. }
  { right. reflexivity. }
  exists m. split; [exact E|]. cbv zeta.
  replace (Nat.eqb (length [NegInf]) 1 && num_ltb (nth 0 [NegInf] NaN) (Fin 0%Qc)) with true in EG by reflexivity. subst g.
  replace (Nat.ltb 1 (length h)) with true in EC by (symmetry; apply Nat.ltb_lt; auto).
  replace c with 1 in M by (rewrite EC; reflexivity).
  specialize (M 0 ltac:(simpl; lia)). cbv zeta in M.
  replace (above (nth 0 [NegInf] NaN)) with false in M by reflexivity. cbn [Nat.add] in M.
  destruct M as (M1 & M2 & M3 & M4). rewrite M1, M2, M3, M4.
  destruct h as [|b h]; [simpl in L; lia|]. cbn [skipn firstn map] in *. unfold ascending in AS. cbn [map] in AS.
  inversion AS as [|x l S F]; subst. rewrite Forall_forall in F.
  assert (B0 : fst b = 0).
  { destruct I0 as [X|X]; auto. specialize (F 0 X). lia. }
  assert (NZ : forall y, In y h -> Nat.eqb (fst y) 0 = false).
  { intros y Hy. apply Nat.eqb_neq. specialize (F (fst y) (in_map fst _ _ Hy)). lia. }
  cbn [filter]. rewrite B0. cbn [Nat.eqb negb].
  replace (filter (fun b0 => Nat.eqb (fst b0) 0) h) with (@nil bucket) by (symmetry; apply filter_none'; auto).
  replace (filter (fun b0 => negb (Nat.eqb (fst b0) 0)) h) with h; [auto|].
  clear - NZ. induction h as [|y h IH]; [reflexivity|]. cbn [filter]. rewrite NZ by (left; auto). cbn [negb]. f_equal.
  apply IH. intros; apply NZ; right; auto.
Qed.
