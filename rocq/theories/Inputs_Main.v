(* Proofs of the theorems restated in Inputs_Properties.v. *)
From Coq Require Import String Ascii Sorting.Sorted.
From Verif Require Import Base BaseFacts Beam BeamFacts Util_Model Inputs_Model.
Local Open Scope string_scope.
Local Open Scope list_scope.

(** Total weight and total weighted label of yielded tuples of size one. *)

Definition tuple_weight (y : yielded) : Qc := qsum (snd y).

Definition tuple_weighted_label (y : yielded) : Qc :=
  match y with ([l], _, [w]) => (w * l)%Qc | _ => 0%Qc end.

Lemma fractional_cases l p w ys :
  fractional ([l], p, [w]) = Ok ys ->
  ys = filter (fun y => match snd y with [w] => negb (Qc_eqb w 0%Qc) | _ => true end)
              [([0%Qc], p, [(w * (1 - l))%Qc]); ([1%Qc], p, [(w * l)%Qc])].
Proof. unfold fractional. destruct (within_interval l 0%Qc 1%Qc); congruence. Qed.

Lemma C52_fractional_split_conserves_pf :
  forall l p w,
    ((- EPSILON <= l)%Qc /\ (l <= 1 + EPSILON)%Qc ->
     exists ys, fractional ([l], p, [w]) = Ok ys /\
       (forall y, In y ys -> exists b v, y = ([b], p, [v]) /\ (b = 0%Qc \/ b = 1%Qc) /\ v <> 0%Qc) /\
       qsum (map tuple_weight ys) = w /\
       qsum (map tuple_weighted_label ys) = (w * l)%Qc /\
       ((0 <= l)%Qc -> (l <= 1)%Qc -> (0 <= w)%Qc -> forall y, In y ys -> (0 < tuple_weight y)%Qc) /\
       length ys <= 2) /\
    (~ ((- EPSILON <= l)%Qc /\ (l <= 1 + EPSILON)%Qc) -> fractional ([l], p, [w]) = Err ValueError).
Proof.
  intros l p w. split.
  - intros [H1 H2].
    assert (W : within_interval l 0%Qc 1%Qc = true).
    { unfold within_interval. apply andb_true_iff. split; apply Qc_leb_le; [|auto].
      replace (0 - EPSILON)%Qc with (- EPSILON)%Qc by ring. auto. }
    eexists. split; [unfold fractional; rewrite W; reflexivity|].
    set (w0 := (w * (1 - l))%Qc). set (w1 := (w * l)%Qc).
    split.
    { intros y Hy. apply filter_In in Hy. destruct Hy as [Hy N].
      destruct Hy as [Hy|[Hy|[]]]; subst y; simpl in N; apply negb_true_iff, Qc_eqb_neq in N; eauto 8. }
    assert (S : forall (f : yielded -> Qc) a b,
      f ([0%Qc], p, [w0]) = a -> f ([1%Qc], p, [w1]) = b ->
      (w0 = 0%Qc -> a = 0%Qc) -> (w1 = 0%Qc -> b = 0%Qc) ->
      qsum (map f (filter (fun y => match snd y with [w] => negb (Qc_eqb w 0%Qc) | _ => true end)
              [([0%Qc], p, [w0]); ([1%Qc], p, [w1])])) = (a + b)%Qc).
    { intros f a b Ha Hb Za Zb. cbn [filter snd].
      destruct (Qc_eqb w0 0%Qc) eqn:E0; destruct (Qc_eqb w1 0%Qc) eqn:E1; qc_bool;
        cbn [negb map qsum fold_right]; rewrite ?Ha, ?Hb, ?Za, ?Zb by auto; ring. }
    split; [|split; [|split]].
    + erewrite S; [|reflexivity|reflexivity| |]; unfold tuple_weight; simpl; unfold w0, w1; try (intro Z; rewrite Z); ring.
    + erewrite S; [|reflexivity|reflexivity| |]; simpl; unfold w0, w1; try (intro Z; rewrite Z); ring.
    + intros L0 L1 W0 y Hy. apply filter_In in Hy. destruct Hy as [Hy N].
      destruct Hy as [Hy|[Hy|[]]]; subst y; simpl in N; apply negb_true_iff, Qc_eqb_neq in N;
        unfold tuple_weight; simpl;
        (assert (P : forall x, (0 <= x)%Qc -> x <> 0%Qc -> (0 < x + 0)%Qc)
          by (intros x Hx Nx; destruct (Qclt_le_dec 0 x) as [?|?]; [qc_lra|exfalso; apply Nx; apply Qcle_antisym; auto]));
        apply P; auto; unfold w0, w1; apply Qcmult_nonneg; auto; qc_lra.
    + cbn [filter snd]. destruct (Qc_eqb w0 0%Qc); destruct (Qc_eqb w1 0%Qc); simpl; lia.
  - intro N. unfold fractional, within_interval.
    destruct (Qc_leb (0 - EPSILON)%Qc l) eqn:E1; destruct (Qc_leb l (1 + EPSILON)%Qc) eqn:E2; simpl; auto.
    exfalso. apply N. apply Qc_leb_le in E1, E2. split; auto.
Qed.

(** What numpy promises about argpartition(scores, -k): a permutation of the
    positions whose last k entries dominate the others, the first of these k
    being the smallest of them. *)

Definition argpartition_ok (ap : list num -> nat -> list nat) : Prop :=
  forall scores k, 1 <= k <= length scores -> ~ In NaN scores ->
    let n := length scores in
    let low := firstn (n - k) (ap scores k) in
    let high := skipn (n - k) (ap scores k) in
    Permutation (ap scores k) (seq 0 n) /\
    (forall i j, In i low -> In j high -> num_leb (nth i scores NaN) (nth j scores NaN) = true) /\
    (forall j, In j high -> num_leb (nth (nth 0 high 0) scores NaN) (nth j scores NaN) = true).

Lemma num_leb_total a b : a <> NaN -> b <> NaN -> num_leb a b = true \/ num_leb b a = true.
Proof.
  destruct a, b; simpl; intros; try congruence; auto.
  unfold Qc_leb. destruct (Qle_bool q q0) eqn:E; auto. right.
  apply Qle_bool_iff. assert (~ (q <= q0)%Q) by (rewrite <- Qle_bool_iff; congruence).
  apply Qlt_le_weak, Qnot_le_lt; auto.
Qed.

Lemma num_leb_refl a : a <> NaN -> num_leb a a = true.
Proof. intro. destruct (num_leb_total a a); auto. Qed.

Lemma num_leb_trans a b c : num_leb a b = true -> num_leb b c = true -> num_leb a c = true.
Proof.
  destruct a, b, c; simpl; intros; try congruence; auto. qc_bool.
  eapply Qcle_trans; eauto.
Qed.

Lemma num_ltb_leb a b : num_ltb a b = true -> num_leb b a = false.
Proof.
  destruct a, b; simpl; intros; try congruence; auto.
  apply Qc_leb_gt. apply Qc_ltb_lt in H. exact H.
Qed.

(** A sorting implementation of argpartition, to show the promise is satisfiable
    and to compute examples. *)

Fixpoint insert_idx (scores : list num) (i : nat) (l : list nat) : list nat :=
  match l with
  | [] => [i]
  | j :: t => if num_leb (nth i scores NaN) (nth j scores NaN) then i :: l
              else j :: insert_idx scores i t
  end.

Definition sorted_idx (scores : list num) : list nat :=
  fold_right (insert_idx scores) [] (seq 0 (length scores)).

Definition ap_sort (scores : list num) (k : nat) : list nat := sorted_idx scores.

Lemma insert_idx_perm sc i l : Permutation (insert_idx sc i l) (i :: l).
Proof.
  induction l as [|j l IH]; simpl; auto.
  destruct (num_leb (nth i sc NaN) (nth j sc NaN)); auto.
  rewrite IH. apply perm_swap.
Qed.

Lemma sorted_idx_perm sc : Permutation (sorted_idx sc) (seq 0 (length sc)).
Proof.
  unfold sorted_idx. induction (seq 0 (length sc)); simpl; auto.
  rewrite insert_idx_perm. auto.
Qed.

Definition le_idx (sc : list num) (i j : nat) : Prop := num_leb (nth i sc NaN) (nth j sc NaN) = true.

Lemma insert_idx_sorted sc i l :
  (forall j, In j (i :: l) -> nth j sc NaN <> NaN) ->
  StronglySorted (le_idx sc) l -> StronglySorted (le_idx sc) (insert_idx sc i l).
Proof.
  intros N S. induction S as [|j l S IH F]; simpl.
  - constructor; constructor.
  - destruct (num_leb (nth i sc NaN) (nth j sc NaN)) eqn:E.
    + constructor; [constructor; auto|]. constructor; auto.
      eapply Forall_impl; [|exact F]. intros a Ha. eapply num_leb_trans; eauto.
    + assert (Eji : le_idx sc j i).
      { unfold le_idx. destruct (num_leb_total (nth i sc NaN) (nth j sc NaN)); auto;
          try (apply N; simpl; auto). congruence. }
      constructor; [apply IH; intros; apply N; simpl in *; tauto|].
      rewrite Forall_forall in *. intros x Hx.
      apply (Permutation_in _ (insert_idx_perm sc i l)) in Hx. destruct Hx; subst; auto.
Qed.

Lemma nth_not_nan (sc : list num) j : ~ In NaN sc -> j < length sc -> nth j sc NaN <> NaN.
Proof. intros H L E. apply H. rewrite <- E. apply nth_In; auto. Qed.

Lemma sorted_idx_sorted sc : ~ In NaN sc -> StronglySorted (le_idx sc) (sorted_idx sc).
Proof.
  intro N. unfold sorted_idx.
  assert (H : forall l, (forall j, In j l -> j < length sc) ->
     StronglySorted (le_idx sc) (fold_right (insert_idx sc) [] l)).
  { induction l as [|i l IH]; simpl; intro H; [constructor|].
    apply insert_idx_sorted; [|apply IH; auto].
    assert (P : Permutation (fold_right (insert_idx sc) [] l) l).
    { clear. induction l; simpl; auto. rewrite insert_idx_perm. auto. }
    intros j Hj. apply nth_not_nan; auto. apply H. destruct Hj as [Hj|Hj]; [auto|].
    right. eapply Permutation_in; eauto. }
  apply H. intros j Hj. apply in_seq in Hj. lia.
Qed.

Lemma SS_split {A} (R : A -> A -> Prop) l1 : forall l2, StronglySorted R (l1 ++ l2) ->
  (forall x y, In x l1 -> In y l2 -> R x y) /\ StronglySorted R l2.
Proof.
  induction l1 as [|a l1 IH]; simpl; intros l2 H; [split; [tauto|auto]|].
  inversion H; subst. destruct (IH _ H2) as [X Y]. split; auto.
  intros x y [E|Hx] Hy; [subst|auto]. rewrite Forall_forall in H3. apply H3, in_or_app; auto.
Qed.

Lemma C53_argpartition_satisfiable_pf : argpartition_ok ap_sort.
Proof.
  intros sc k K N n low high. split; [apply sorted_idx_perm|].
  pose proof (sorted_idx_sorted sc N) as S.
  rewrite <- (firstn_skipn (n - k) (sorted_idx sc)) in S.
  apply SS_split in S. destruct S as [S1 S2]. split; [exact S1|].
  unfold high, ap_sort. intros j Hj.
  destruct (skipn (n - k) (sorted_idx sc)) as [|h t] eqn:E; [simpl in Hj; tauto|].
  simpl. inversion S2; subst. destruct Hj as [Hj|Hj].
  - subst. apply num_leb_refl. apply nth_not_nan; auto.
    assert (In j (sorted_idx sc)).
    { rewrite <- (firstn_skipn (n - k) (sorted_idx sc)), E. apply in_or_app; simpl; auto. }
    apply (Permutation_in _ (sorted_idx_perm sc)) in H. apply in_seq in H. lia.
  - rewrite Forall_forall in H2. apply H2; auto.
Qed.

Lemma select_indices_ok {A} (arr : list A) d idx :
  (forall i, In i idx -> i < length arr) ->
  select_indices arr idx = Ok (map (fun i => nth i arr d) idx).
Proof.
  intro H. unfold select_indices. apply mapM_ok. intros i Hi.
  unfold nth_ok. rewrite (nth_error_nth' _ d) by auto. reflexivity.
Qed.

Lemma combine_seq {A B} (l : list A) (p : list B) dl dp :
  length l = length p ->
  combine l p = map (fun i => (nth i l dl, nth i p dp)) (seq 0 (length p)).
Proof.
  revert p. induction l as [|a l IH]; intros [|b p] E; simpl in *; try discriminate; auto.
  f_equal. rewrite <- seq_shift, map_map. rewrite IH by lia. apply map_ext. reflexivity.
Qed.

Lemma top_k_ok ap pred k : 
  argpartition_ok ap -> ~ In NaN pred -> 1 <= k <= length pred ->
  exists low high, top_k_indices ap k pred = Ok high /\ length high = k /\
    Permutation (low ++ high) (seq 0 (length pred)) /\
    (forall i j, In i low -> In j high -> num_leb (nth i pred NaN) (nth j pred NaN) = true) /\
    (forall j, In j high -> num_leb (nth (nth 0 high 0) pred NaN) (nth j pred NaN) = true).
Proof.
  intros A N K. destruct (A pred k K N) as (P & D & M).
  exists (firstn (length pred - k) (ap pred k)), (skipn (length pred - k) (ap pred k)).
  split; [|split; [|split; [|split]]]; auto.
  - unfold top_k_indices. destruct (Nat.ltb_spec (length pred) k); [lia|reflexivity].
  - rewrite skipn_length, (Permutation_length P), seq_length. lia.
  - rewrite firstn_skipn. exact P.
Qed.

Lemma C53_top_k_keeps_best_pf :
  forall ap label pred k,
    argpartition_ok ap -> length label = length pred -> ~ In NaN pred -> 1 <= k <= length pred ->
    exists l p rest,
      apply_sub_key ap (SubKey None None (Some k)) true label pred = Ok (l, p) /\
      length l = k /\ length p = k /\
      Permutation (combine l p ++ rest) (combine label pred) /\
      forall x y, In x p -> In y (map snd rest) -> num_leb y x = true.
Proof.
  intros ap label pred k A EL N K.
  destruct (top_k_ok ap pred k A N K) as (low & high & T & LH & P & D & _).
  assert (R : forall i, In i high -> i < length pred).
  { intros i Hi. assert (X : In i (seq 0 (length pred))) by (eapply Permutation_in; [exact P|apply in_or_app; auto]).
    apply in_seq in X. lia. }
  exists (map (fun i => nth i label 0%Qc) high), (map (fun i => nth i pred NaN) high),
         (map (fun i => (nth i label 0%Qc, nth i pred NaN)) low).
  split.
  { unfold apply_sub_key. simpl. rewrite T. simpl. rewrite EL, Nat.eqb_refl. cbn [bind].
    rewrite (select_indices_ok label 0%Qc) by (intros; rewrite EL; auto). cbn [bind].
    rewrite (select_indices_ok pred NaN) by auto. reflexivity. }
  rewrite !map_length. repeat split; auto.
  - rewrite (combine_seq label pred 0%Qc NaN EL).
    assert (C : combine (map (fun i => nth i label 0%Qc) high) (map (fun i => nth i pred NaN) high) =
       map (fun i => (nth i label 0%Qc, nth i pred NaN)) high).
    { clear. induction high; simpl; congruence. }
    rewrite C, <- map_app. apply Permutation_map. rewrite Permutation_app_comm. exact P.
  - intros x y Hx Hy. apply in_map_iff in Hx. destruct Hx as (j & E & Hj). subst x.
    rewrite map_map in Hy. simpl in Hy. apply in_map_iff in Hy. destruct Hy as (i & E & Hi). subst y. auto.
Qed.

Definition count {A} (p : A -> bool) (l : list A) : nat := length (filter p l).

Lemma count_perm {A} (p : A -> bool) l1 l2 : Permutation l1 l2 -> count p l1 = count p l2.
Proof. intro P. apply Permutation_length, filter_perm, P. Qed.

Lemma count_app {A} (p : A -> bool) l1 l2 : count p (l1 ++ l2) = count p l1 + count p l2.
Proof. unfold count. rewrite filter_app', app_length. reflexivity. Qed.

Lemma count_none {A} (p : A -> bool) l : (forall x, In x l -> p x = false) -> count p l = 0.
Proof.
  intro H. unfold count. induction l as [|a l IH]; simpl; auto. rewrite H by (simpl; auto).
  apply IH. intros; apply H; simpl; auto.
Qed.

Lemma count_all {A} (p : A -> bool) l : (forall x, In x l -> p x = true) -> count p l = length l.
Proof.
  intro H. unfold count. induction l as [|a l IH]; simpl; auto. rewrite H by (simpl; auto). simpl.
  rewrite IH; auto. intros; apply H; simpl; auto.
Qed.

Lemma count_le {A} (p : A -> bool) l : count p l <= length l.
Proof. unfold count. induction l; simpl; [lia|]. destruct (p a); simpl; lia. Qed.

Lemma C53_kth_is_kth_largest_pf :
  forall ap label pred k,
    argpartition_ok ap -> length label = length pred -> ~ In NaN pred -> 1 <= k <= length pred ->
    exists l p,
      apply_sub_key ap (SubKey None (Some k) None) false label pred = Ok ([l], [p]) /\
      In (l, p) (combine label pred) /\
      count (fun y => num_ltb p y) pred < k /\ k <= count (fun y => num_leb p y) pred.
Proof.
  intros ap label pred k A EL N K.
  destruct (top_k_ok ap pred k A N K) as (low & high & T & LH & P & D & M).
  destruct high as [|h t]; [simpl in LH; lia|].
  assert (Hh : h < length pred).
  { assert (X : In h (seq 0 (length pred))) by (eapply Permutation_in; [exact P|apply in_or_app; simpl; auto]).
    apply in_seq in X. lia. }
  set (v := fun i => nth i pred NaN).
  assert (PP : Permutation (map v low ++ v h :: map v t) pred).
  { assert (E : pred = map v (seq 0 (length pred))).
    { unfold v. clear. induction pred as [|a l IH]; simpl; auto. f_equal.
      rewrite <- seq_shift, map_map. exact IH. }
    rewrite E at 1. change (v h :: map v t) with (map v (h :: t)). rewrite <- map_app.
    apply Permutation_map. exact P. }
  exists (nth h label 0%Qc), (nth h pred NaN). split; [|split; [|split]].
  - unfold apply_sub_key. cbn [sk_k sk_top_k sk_class_id]. rewrite T. cbn [bind].
    change (nth_ok (h :: t) 0) with (Ok h). cbn [bind].
    rewrite EL, Nat.eqb_refl. cbn [bind].
    rewrite (select_indices_ok label 0%Qc) by (intros i [Hi|[]]; subst; lia). cbn [bind].
    rewrite (select_indices_ok pred NaN) by (intros i [Hi|[]]; subst; lia). reflexivity.
  - rewrite (combine_seq label pred 0%Qc NaN EL).
    apply in_map_iff. exists h. split; auto. apply in_seq. lia.
  - rewrite <- (count_perm _ _ _ PP), count_app.
    change (v h :: map v t) with ([v h] ++ map v t). rewrite count_app.
    rewrite (count_none _ (map v low)).
    2:{ intros x Hx. apply in_map_iff in Hx. destruct Hx as (i & E & Hi). subst x.
        destruct (num_ltb (nth h pred NaN) (v i)) eqn:Q; auto. apply num_ltb_leb in Q.
        unfold v in Q. rewrite (D i h Hi (or_introl eq_refl)) in Q. discriminate. }
    rewrite (count_none _ [v h]).
    2:{ intros x [E|[]]. subst x. destruct (num_ltb (nth h pred NaN) (v h)) eqn:Q; auto.
        apply num_ltb_leb in Q. unfold v in Q. rewrite num_leb_refl in Q by (apply nth_not_nan; auto). discriminate. }
    pose proof (count_le (fun y => num_ltb (nth h pred NaN) y) (map v t)). rewrite map_length in H.
    simpl in LH. lia.
  - rewrite <- (count_perm _ _ _ PP), count_app.
    rewrite (count_all _ (v h :: map v t)).
    2:{ intros x Hx. change (v h :: map v t) with (map v (h :: t)) in Hx.
        apply in_map_iff in Hx. destruct Hx as (i & E & Hi). subst x. apply (M i Hi). }
    simpl in *. rewrite map_length. lia.
Qed.

Lemma C53_top_k_masks_rest_pf :
  forall ap label pred k,
    argpartition_ok ap -> ~ In NaN pred -> 1 <= k <= length pred ->
    exists kept p,
      apply_sub_key ap (SubKey None None (Some k)) false label pred = Ok (label, p) /\
      NoDup kept /\ length kept = k /\ (forall i, In i kept -> i < length pred) /\
      length p = length pred /\
      (forall i, i < length pred ->
         (In i kept -> nth i p NaN = nth i pred NaN) /\ (~ In i kept -> nth i p NaN = NegInf)) /\
      (forall i j, i < length pred -> ~ In i kept -> In j kept ->
         num_leb (nth i pred NaN) (nth j pred NaN) = true).
Proof.
  intros ap label pred k A N K.
  destruct (top_k_ok ap pred k A N K) as (low & high & T & LH & P & D & _).
  exists high. eexists. split.
  { unfold apply_sub_key. simpl. rewrite T. reflexivity. }
  assert (ND : NoDup (low ++ high)).
  { eapply Permutation_NoDup; [symmetry; exact P|]. apply seq_NoDup. }
  assert (NH : NoDup high).
  { clear - ND. induction low; simpl in ND; auto. inversion ND; auto. }
  split; [exact NH|]. split; [exact LH|]. split.
  { intros i Hi. assert (X : In i (seq 0 (length pred))) by (eapply Permutation_in; [exact P|apply in_or_app; auto]).
    apply in_seq in X. lia. }
  assert (LC : length (combine (seq 0 (length pred)) pred) = length pred).
  { rewrite combine_length, seq_length. lia. }
  split; [rewrite map_length; exact LC|]. split.
  - intros i Hi.
    set (f := fun ip : nat * num => if memb Nat.eqb (fst ip) high then snd ip else NegInf).
    assert (E : nth i (map f (combine (seq 0 (length pred)) pred)) NaN = f (i, nth i pred NaN)).
    { rewrite (nth_indep _ NaN (f (0, NaN))) by (rewrite map_length, LC; auto).
      rewrite map_nth, combine_nth by apply seq_length. rewrite seq_nth by auto. reflexivity. }
    rewrite E. unfold f. simpl. split; intro H.
    + apply (memb_In _ Nat.eqb_eq) in H. rewrite H. reflexivity.
    + apply (memb_nIn _ Nat.eqb_eq) in H. rewrite H. reflexivity.
  - intros i j Hi Ni Hj. apply D; auto.
    assert (X : In i (low ++ high)) by (eapply Permutation_in; [symmetry; exact P|apply in_seq; lia]).
    apply in_app_or in X. tauto.
Qed.

Lemma C53_too_few_classes_rejected_pf :
  forall ap label pred k agg, length pred < k ->
    apply_sub_key ap (SubKey None None (Some k)) agg label pred = Err ValueError /\
    apply_sub_key ap (SubKey None (Some k) None) agg label pred = Err ValueError.
Proof.
  intros ap label pred k agg H. unfold apply_sub_key, top_k_indices. simpl.
  destruct (Nat.ltb_spec (length pred) k); [|lia]. split; reflexivity.
Qed.

Definition ex_pred : list num := map Fin [Q2Qc (3#10); Q2Qc (6#10); Q2Qc (1#10); Q2Qc (5#10)].

(** The one-hot vector of class c among n classes. *)

Definition indicator (n c : nat) : list Qc :=
  map (fun i => if Nat.eqb i c then 1%Qc else 0%Qc) (seq 0 n).

Lemma trunc_qz z : Qc_trunc (qz z) = z.
Proof.
  unfold Qc_trunc, qz, Q2Qc. cbn [this].
  rewrite Qred_identity by (simpl; rewrite Z.gcd_1_r; reflexivity).
  simpl. apply Z.quot_1_r.
Qed.

Lemma one_hot_class n c : c < n -> one_hot [qz (Z.of_nat c)] n = Ok (indicator n c).
Proof.
  intro H. unfold one_hot. cbn [mapM]. rewrite trunc_qz. unfold eye_row.
  destruct (Z.ltb_spec (Z.of_nat c) 0); [lia|].
  destruct (Z.ltb_spec (Z.of_nat c) 0); [lia|].
  destruct (Z.leb_spec (Z.of_nat (S n)) (Z.of_nat c)); [lia|].
  cbn [orb bind]. rewrite Nat2Z.id. reflexivity.
Qed.

Lemma indicator_length n c : length (indicator n c) = n.
Proof. unfold indicator. rewrite map_length, seq_length. reflexivity. Qed.

Lemma indicator_nth n c i : i < n -> nth_error (indicator n c) i = Some (if Nat.eqb i c then 1%Qc else 0%Qc).
Proof.
  intro H. unfold indicator.
  rewrite nth_error_map. rewrite (nth_error_nth' _ 0) by (rewrite seq_length; auto).
  rewrite (seq_nth _ _ H). reflexivity.
Qed.

Lemma class_sparse_dense class_id n c pred :
  length pred = n -> 2 <= n -> c < n ->
  select_class_id class_id [qz (Z.of_nat c)] pred = select_class_id class_id (indicator n c) pred.
Proof.
  intros L N C. unfold select_class_id.
  destruct pred as [|p0 pr]; [simpl in L; lia|].
  destruct (indicator n c) as [|i0 ir] eqn:EI.
  { pose proof (indicator_length n c). rewrite EI in H. simpl in H. lia. }
  rewrite <- EI. rewrite indicator_length. rewrite L.
  destruct (Nat.eqb_spec (length [qz (Z.of_nat c)]) n); [simpl in *; lia|].
  rewrite Nat.eqb_refl. cbn [map].
  unfold lookup_class at 2. rewrite indicator_length.
  unfold lookup_class at 1. rewrite L.
  destruct (Z.ltb_spec class_id 0); simpl orb; [reflexivity|].
  destruct (Z.leb_spec (Z.of_nat n) class_id); [reflexivity|].
  unfold nth_ok at 2. rewrite indicator_nth by lia. cbn [bind].
  unfold lookup_class. rewrite L.
  destruct (Z.ltb_spec class_id 0); [lia|]. destruct (Z.leb_spec (Z.of_nat n) class_id); [lia|].
  cbn [orb].
  replace (Qc_eqb (qz (Z.of_nat c)) (qz class_id)) with (Nat.eqb (Z.to_nat class_id) c); [reflexivity|].
  destruct (Nat.eqb_spec (Z.to_nat class_id) c).
  - subst c. rewrite Z2Nat.id by lia. symmetry. apply Qc_eqb_refl.
  - symmetry. apply Qc_eqb_neq. intro E. apply qz_inj in E. lia.
Qed.

Lemma sub_key_sparse_dense ap sk agg n c pred :
  length pred = n -> 2 <= n -> c < n ->
  apply_sub_key ap sk agg [qz (Z.of_nat c)] pred = apply_sub_key ap sk agg (indicator n c) pred \/
  exists p, length p = n /\
    apply_sub_key ap sk agg [qz (Z.of_nat c)] pred = Ok ([qz (Z.of_nat c)], p) /\
    apply_sub_key ap sk agg (indicator n c) pred = Ok (indicator n c, p).
Proof.
  intros L N C. unfold apply_sub_key. rewrite indicator_length, L, Nat.eqb_refl.
  assert (E1 : Nat.eqb (length [qz (Z.of_nat c)]) n = false) by (apply Nat.eqb_neq; simpl; lia).
  rewrite E1, one_hot_class by auto.
  destruct (sk_k sk) as [k|]; [left; reflexivity|].
  destruct (sk_top_k sk) as [k|].
  - destruct (top_k_indices ap k pred) as [idx|e]; [|left; reflexivity]. cbn [bind].
    destruct agg; [left; reflexivity|]. cbn [bind fst snd].
    set (p := map _ (combine (seq 0 n) pred)).
    assert (Lp : length p = n).
    { unfold p. rewrite map_length, combine_length, seq_length. lia. }
    destruct (sk_class_id sk) as [z|].
    + left. apply class_sparse_dense; auto.
    + right. exists p. auto.
  - cbn [bind fst snd]. destruct (sk_class_id sk) as [z|].
    + left. apply class_sparse_dense; auto.
    + right. exists pred. auto.
Qed.

Lemma yield_results_sparse_dense n c p w :
  length p = n -> length w = n -> 2 <= n -> c < n ->
  yield_results true [qz (Z.of_nat c)] p w = yield_results true (indicator n c) p w.
Proof.
  intros Lp Lw N C. unfold yield_results. rewrite indicator_length, Lp, Lw.
  cbn [length negb orb].
  destruct n as [|[|n]]; try lia. cbn [Nat.eqb andb orb]. rewrite !Nat.eqb_refl. cbn [andb].
  rewrite one_hot_class by auto. reflexivity.
Qed.

Lemma C57_sparse_equals_one_hot_pf :
  forall ap o c pred w,
    o_flatten o = true -> c < length pred -> 2 <= length pred ->
    yield_tuples ap o (Some [qz (Z.of_nat c)]) (Some pred) w =
    yield_tuples ap o (Some (indicator (length pred) c)) (Some pred) w.
Proof.
  intros ap o c pred w F C N. unfold yield_tuples.
  rewrite F. rewrite !andb_false_r.
  destruct (if o_single_weight o && Nat.ltb 1 (length w)
            then match w with [] => Ok w | w0 :: _ => if forallb (fun w1 => Qc_eqb w1 w0) w then Ok [w0] else Err ValueError end
            else Ok w) as [w'|e]; [|reflexivity]. cbn [bind].
  assert (G : forall p, length p = length pred ->
    (let flatten_size := match length p with 0 => length [qz (Z.of_nat c)] | S n0 => S n0 end in
     let! weight := match w' with
                    | [w0] => Ok (repeat w0 flatten_size)
                    | _ => if Nat.eqb (length w') flatten_size then Ok w' else Err ValueError
                    end in
     let! weight := match o_class_weights o with
      | None | Some [] => Ok weight
      | Some cw => Ok (map (fun iw => match dget Nat.eqb cw (fst iw) with
                               | Some c => (snd iw * c)%Qc
                               | None => 0%Qc
                               end) (combine (seq 0 flatten_size) weight))
      end in
     let! ys := yield_results true [qz (Z.of_nat c)] p weight in
     if o_fractional o && negb (Nat.eqb (length [qz (Z.of_nat c)]) 0)
     then let! yss := mapM fractional ys in Ok (concat yss) else Ok ys) =
    (let flatten_size := match length p with 0 => length (indicator (length pred) c) | S n0 => S n0 end in
     let! weight := match w' with
                    | [w0] => Ok (repeat w0 flatten_size)
                    | _ => if Nat.eqb (length w') flatten_size then Ok w' else Err ValueError
                    end in
     let! weight := match o_class_weights o with
      | None | Some [] => Ok weight
      | Some cw => Ok (map (fun iw => match dget Nat.eqb cw (fst iw) with
                               | Some c => (snd iw * c)%Qc
                               | None => 0%Qc
                               end) (combine (seq 0 flatten_size) weight))
      end in
     let! ys := yield_results true (indicator (length pred) c) p weight in
     if o_fractional o && negb (Nat.eqb (length (indicator (length pred) c)) 0)
     then let! yss := mapM fractional ys in Ok (concat yss) else Ok ys)).
  { intros p Lp. cbv zeta. rewrite Lp, indicator_length. cbn [length].
    destruct (length pred) as [|n] eqn:En; [lia|]. rewrite <- En in *. clear n En.
    assert (W : forall r, match w' with
                    | [w0] => Ok (repeat w0 (length pred))
                    | _ => if Nat.eqb (length w') (length pred) then Ok w' else Err ValueError
                    end = Ok r -> length r = length pred).
    { intros r H. destruct w' as [|a [|b l]].
      - destruct (Nat.eqb_spec (length (@nil Qc)) (length pred)); inversion H; subst; auto.
      - inversion H. apply repeat_length.
      - destruct (Nat.eqb_spec (length (a :: b :: l)) (length pred)); inversion H; subst; auto. }
    destruct (match w' with
                    | [w0] => Ok (repeat w0 (length pred))
                    | _ => if Nat.eqb (length w') (length pred) then Ok w' else Err ValueError
                    end) as [r|e] eqn:Er; [|reflexivity]. cbn [bind].
    specialize (W r eq_refl).
    assert (Y : forall r', length r' = length pred ->
       (let! ys := yield_results true [qz (Z.of_nat c)] p r' in
        if o_fractional o && negb (Nat.eqb 1 0)
        then let! yss := mapM fractional ys in Ok (concat yss) else Ok ys) =
       (let! ys := yield_results true (indicator (length pred) c) p r' in
        if o_fractional o && negb (Nat.eqb (length pred) 0)
        then let! yss := mapM fractional ys in Ok (concat yss) else Ok ys)).
    { intros r' Lr. rewrite (yield_results_sparse_dense (length pred) c) by auto.
      destruct (Nat.eqb_spec (length pred) 0); [lia|]. reflexivity. }
    destruct (o_class_weights o) as [[|cw0 cw]|]; cbn [bind]; try (apply Y; exact W).
    apply Y. rewrite map_length, combine_length, seq_length. lia. }
  destruct (o_sub_key o) as [sk|].
  - destruct (sub_key_sparse_dense ap sk (o_aggregation o) (length pred) c pred eq_refl N C)
      as [E|(p & Lp & E1 & E2)].
    + rewrite E. reflexivity.
    + rewrite E1, E2. cbn [bind]. apply G. exact Lp.
  - cbn [bind]. apply G. reflexivity.
Qed.

Definition plain : options := Options None false None false false true false false.

Definition top2 : options := Options (Some (SubKey None None (Some 2))) true None false false true false false.

Lemma C58_invalid_class_rejected_refuted_pf :
  exists ap pred,
    length pred = 3 /\
    yield_tuples ap plain (Some [qz 3]) (Some pred) [1%Qc] =
      Ok (map (fun p => ([0%Qc], [p], [1%Qc])) pred) /\
    yield_tuples ap plain (Some [qz (-2)]) (Some pred) [1%Qc] =
      yield_tuples ap plain (Some [qz 2]) (Some pred) [1%Qc].
Proof.
  exists ap_sort, [Fin 0%Qc; Fin 1%Qc; Fin 0%Qc]. repeat split; qc_ex.
Qed.

Lemma C58_far_class_rejected_partial_pf :
  forall ap pred z w,
    2 <= length pred -> (Z.of_nat (length pred) < z \/ z < - Z.of_nat (S (length pred)))%Z ->
    yield_tuples ap plain (Some [qz z]) (Some pred) [w] = Err ValueError.
Proof.
  intros ap pred z w N H. unfold yield_tuples. cbn -[yield_results].
  destruct (length pred) as [|[|n]] eqn:E; try lia.
  unfold yield_results. rewrite E. cbn [length negb orb Nat.eqb andb]. rewrite repeat_length.
  rewrite Nat.eqb_refl. cbn [length].
  unfold one_hot. cbn [mapM]. rewrite trunc_qz. unfold eye_row.
  destruct (Z.ltb_spec z 0).
  - destruct (Z.ltb_spec (z + Z.of_nat (S (S (S n)))) 0); [reflexivity|lia].
  - destruct (Z.ltb_spec z 0); [lia|].
    destruct (Z.leb_spec (Z.of_nat (S (S (S n)))) z); [reflexivity|lia].
Qed.

Lemma C59_flatten_pairs_classes_pf :
  forall ap o label pred w,
    o_flatten o = true -> o_sub_key o = None -> o_class_weights o = None -> o_fractional o = false ->
    o_single_weight o = false ->
    length label = length pred -> pred <> [] -> (length w = 1 \/ length w = length pred) ->
    exists ys, yield_tuples ap o (Some label) (Some pred) w = Ok ys /\ length ys = length pred /\
      forall i, i < length pred ->
        nth_error ys i = Some ([nth i label 0%Qc], [nth i pred NaN],
                               [if Nat.eqb (length w) 1 then nth 0 w 0%Qc else nth i w 0%Qc]).
Proof.
  intros ap o label pred w F SK CW FR SW EL NE LW.
  unfold yield_tuples. rewrite F, SK, CW, FR, SW, !andb_false_r. cbn [andb bind].
  destruct pred as [|p0 pr] eqn:Ep; [congruence|]. rewrite <- Ep in *.
  assert (FS : match length pred with 0 => length label | S n0 => S n0 end = length pred)
    by (rewrite Ep; reflexivity).
  rewrite FS.
  set (w2 := if Nat.eqb (length w) 1 then repeat (nth 0 w 0%Qc) (length pred) else w).
  assert (EW : match w with
               | [w0] => Ok (repeat w0 (length pred))
               | _ => if Nat.eqb (length w) (length pred) then Ok w else Err ValueError
               end = Ok w2).
  { unfold w2. destruct w as [|a [|b l]]; simpl.
    - destruct LW as [LW|LW]; [simpl in LW; lia|]. rewrite <- LW. reflexivity.
    - reflexivity.
    - destruct LW as [LW|LW]; [simpl in LW; lia|]. rewrite <- LW. simpl. rewrite Nat.eqb_refl. reflexivity. }
  rewrite EW. cbn [bind].
  assert (L2 : length w2 = length pred).
  { unfold w2. destruct (Nat.eqb_spec (length w) 1); [apply repeat_length|lia]. }
  assert (N2 : forall i, i < length pred -> nth i w2 0%Qc = if Nat.eqb (length w) 1 then nth 0 w 0%Qc else nth i w 0%Qc).
  { intros i Hi. unfold w2. destruct (Nat.eqb (length w) 1); auto.
    rewrite (nth_indep _ 0%Qc (nth 0 w 0%Qc)) by (rewrite repeat_length; auto). apply nth_repeat. }
  set (zs := map (fun lpw : Qc * num * Qc => ([fst (fst lpw)], [snd (fst lpw)], [snd lpw])) (combine (combine label pred) w2)).
  assert (LC : length (combine label pred) = length pred) by (rewrite combine_length; lia).
  assert (EZ : yield_results true label pred w2 = Ok zs).
  { unfold yield_results. rewrite EL, L2, Nat.eqb_refl. cbn [negb orb].
    destruct (length pred) as [|[|n]] eqn:En.
    - rewrite Ep in En. simpl in En. discriminate.
    - cbn [Nat.eqb andb orb]. unfold zs.
      destruct label as [|l [|]]; simpl in EL; try discriminate.
      destruct pred as [|p [|]]; simpl in En; try discriminate.
      destruct w2 as [|v [|]]; simpl in L2; try discriminate. reflexivity.
    - cbn [Nat.eqb andb orb]. reflexivity. }
  rewrite EZ. exists zs. split; [reflexivity|]. split.
  - unfold zs. rewrite map_length, combine_length, LC, L2. lia.
  - intros i Hi. unfold zs. rewrite nth_error_map.
    erewrite nth_error_nth' with (d := ((0%Qc, NaN), 0%Qc)) by (rewrite combine_length, LC, L2; lia).
    rewrite combine_nth by lia. rewrite combine_nth by auto. simpl. rewrite N2 by auto. reflexivity.
Qed.

Lemma C59_class_weights_pf :
  forall ap o cw label pred w,
    o_flatten o = true -> o_sub_key o = None -> o_class_weights o = Some cw -> cw <> [] -> o_fractional o = false ->
    o_single_weight o = false ->
    length label = length pred -> pred <> [] -> (length w = 1 \/ length w = length pred) ->
    exists ys, yield_tuples ap o (Some label) (Some pred) w = Ok ys /\ length ys = length pred /\
      forall i, i < length pred ->
        let wi := if Nat.eqb (length w) 1 then nth 0 w 0%Qc else nth i w 0%Qc in
        exists v, nth_error ys i = Some ([nth i label 0%Qc], [nth i pred NaN], [v]) /\
          (forall c, (exists before after, cw = before ++ (i, c) :: after /\ ~ In i (map fst before)) -> v = (wi * c)%Qc) /\
          (~ In i (map fst cw) -> v = 0%Qc).
Proof.
  intros ap o cw label pred w F SK CW CN FR SW EL NE LW.
  unfold yield_tuples. rewrite F, SK, CW, FR, SW, !andb_false_r. cbn [andb bind].
  destruct pred as [|p0 pr] eqn:Ep; [congruence|]. rewrite <- Ep in *.
  assert (FS : match length pred with 0 => length label | S n0 => S n0 end = length pred)
    by (rewrite Ep; reflexivity).
  rewrite FS.
  set (w1 := if Nat.eqb (length w) 1 then repeat (nth 0 w 0%Qc) (length pred) else w).
  assert (EW : match w with
               | [w0] => Ok (repeat w0 (length pred))
               | _ => if Nat.eqb (length w) (length pred) then Ok w else Err ValueError
               end = Ok w1).
  { unfold w1. destruct w as [|a [|b l]]; simpl.
    - destruct LW as [LW|LW]; [simpl in LW; lia|]. rewrite <- LW. reflexivity.
    - reflexivity.
    - destruct LW as [LW|LW]; [simpl in LW; lia|]. rewrite <- LW. simpl. rewrite Nat.eqb_refl. reflexivity. }
  rewrite EW. cbn [bind].
  assert (L1 : length w1 = length pred).
  { unfold w1. destruct (Nat.eqb_spec (length w) 1); [apply repeat_length|lia]. }
  assert (N1 : forall i, i < length pred -> nth i w1 0%Qc = if Nat.eqb (length w) 1 then nth 0 w 0%Qc else nth i w 0%Qc).
  { intros i Hi. unfold w1. destruct (Nat.eqb (length w) 1); auto.
    rewrite (nth_indep _ 0%Qc (nth 0 w 0%Qc)) by (rewrite repeat_length; auto). apply nth_repeat. }
  set (f := fun iw : nat * Qc => match dget Nat.eqb cw (fst iw) with Some c => (snd iw * c)%Qc | None => 0%Qc end).
  set (w2 := map f (combine (seq 0 (length pred)) w1)).
  assert (E2 : match cw with [] => Ok w1 | _ :: _ => Ok w2 end = Ok w2) by (destruct cw; [congruence|reflexivity]).
  match goal with |- context [bind ?r _] => change r with (match cw with [] => Ok w1 | _ :: _ => Ok w2 end) end.
  rewrite E2. cbn [bind].
  assert (L2 : length w2 = length pred) by (unfold w2; rewrite map_length, combine_length, seq_length; lia).
  assert (N2 : forall i, i < length pred -> nth i w2 0%Qc = f (i, nth i w1 0%Qc)).
  { intros i Hi. unfold w2. rewrite (nth_indep _ 0%Qc (f (0, 0%Qc))) by (fold w2; lia). rewrite map_nth, combine_nth by (rewrite seq_length; lia).
    rewrite seq_nth by lia. reflexivity. }
  set (zs := map (fun lpw : Qc * num * Qc => ([fst (fst lpw)], [snd (fst lpw)], [snd lpw])) (combine (combine label pred) w2)).
  assert (LC : length (combine label pred) = length pred) by (rewrite combine_length; lia).
  assert (EZ : yield_results true label pred w2 = Ok zs).
  { clearbody w2. clear N2 E2 EW. unfold yield_results. rewrite EL, L2, Nat.eqb_refl. cbn [negb orb].
    destruct (length pred) as [|[|n]] eqn:En.
    - rewrite Ep in En. simpl in En. discriminate.
    - cbn [Nat.eqb andb orb]. unfold zs.
      destruct label as [|l [|]]; simpl in EL; try discriminate.
      destruct pred as [|p [|]]; simpl in En; try discriminate.
      destruct w2 as [|v [|]]; simpl in L2; try discriminate. reflexivity.
    - cbn [Nat.eqb andb orb]. reflexivity. }
  rewrite EZ. exists zs. split; [reflexivity|]. split.
  - unfold zs. rewrite map_length, combine_length, LC, L2. lia.
  - intros i Hi. cbv zeta. exists (nth i w2 0%Qc). split; [|split].
    + unfold zs. rewrite nth_error_map.
      erewrite nth_error_nth' with (d := ((0%Qc, NaN), 0%Qc)) by (rewrite combine_length, LC, L2; lia).
      rewrite combine_nth by lia. rewrite combine_nth by auto. reflexivity.
    + intros c (before & after & -> & NB). rewrite (N2 i Hi), <- (N1 i Hi). unfold f. cbn [fst snd].
      assert (D : dget Nat.eqb (before ++ (i, c) :: after) i = Some c).
      { clear -NB. induction before as [|[j x] b IH]; cbn [app dget]; [rewrite Nat.eqb_refl; reflexivity|].
        cbn [map fst In] in NB. destruct (Nat.eqb_spec i j); [subst; destruct NB; left; reflexivity|]. apply IH. tauto. }
      rewrite D. reflexivity.
    + intros NI. rewrite (N2 i Hi). unfold f. cbn [fst snd].
      assert (D : dget Nat.eqb cw i = None).
      { clear -NI. induction cw as [|[j x] b IH]; cbn [dget]; [reflexivity|]. cbn [map fst In] in NI. destruct (Nat.eqb_spec i j); [subst; tauto|]. apply IH. tauto. }
      rewrite D. reflexivity.
Qed.

Lemma C59_weight_never_empty_refuted_pf :
  exists ap o, o_allow_none o = true /\
    yield_tuples ap o None None [1%Qc] = Ok [([], [], [])].
Proof. exists ap_sort, (Options None false None true false true true false). split; reflexivity. Qed.
