(* Proofs of the theorems restated in Ranking_Properties.v. *)
From Coq Require Import String Ascii Reals Qreals Sorting.Sorted.
From Verif Require Import Base BaseFacts RealFacts Beam BeamFacts Util_Model Util_Main Inputs_Model Inputs_Main Sums_Model Sums_Main Ranking_Model.
Local Open Scope string_scope.
Local Open Scope list_scope.

(* C19, C139, C140: NDCG. *)

Section Sorting.
  Context {A : Type} (before : A -> A -> bool).
  Lemma insert_perm x l : Permutation (insert before x l) (x :: l).
  Proof.
    induction l as [|y l IH]; cbn [insert]; auto.
    destruct (before x y); auto. rewrite IH. apply perm_swap.
  Qed.
  Lemma py_sorted_perm l : Permutation (py_sorted before l) l.
  Proof. induction l; cbn [py_sorted fold_right]; auto. rewrite insert_perm. apply perm_skip, IHl. Qed.

  Hypothesis before_total : forall x y, before x y = false -> before y x = true.
  Hypothesis before_trans : forall x y z, before x y = true -> before y z = true -> before x z = true.
  Lemma insert_sorted x l : StronglySorted (fun a b => before a b = true) l ->
    StronglySorted (fun a b => before a b = true) (insert before x l).
  Proof.
    intros H. induction H as [|y l H IH F]; cbn [insert].
    - constructor; constructor.
    - destruct (before x y) eqn:E.
      + constructor; [constructor; auto|]. constructor; auto.
        eapply Forall_impl; [|exact F]. intros a Ha. eapply before_trans; eauto.
      + constructor; auto. rewrite Forall_forall in *. intros z Hz.
        apply (Permutation_in _ (insert_perm x l)) in Hz. destruct Hz as [<-|Hz]; auto.
  Qed.
  Lemma py_sorted_sorted l : StronglySorted (fun a b => before a b = true) (py_sorted before l).
  Proof. induction l; cbn [py_sorted fold_right]; [constructor|]. apply insert_sorted, IHl. Qed.

End Sorting.

Lemma insert_front {A} (before : A -> A -> bool) x l :
  (forall y, In y l -> before x y = true) -> insert before x l = x :: l.
Proof. destruct l as [|y l]; cbn [insert]; intros H; auto. rewrite H by (left; auto). reflexivity. Qed.

Lemma sorted_ranked (gs : list Qc) : forall m,
  py_sorted (fun a b : nat * Qc => Nat.leb (fst a) (fst b)) (combine (seq m (length gs)) gs) = combine (seq m (length gs)) gs.
Proof.
  induction gs as [|g gs IH]; intros m; [reflexivity|].
  cbn [length seq combine py_sorted fold_right]. unfold py_sorted in IH. rewrite IH. apply insert_front.
  intros [n q] H. apply in_combine_l, in_seq in H. apply Nat.leb_le. cbn [fst]. lia.
Qed.

Lemma map_snd_combine {A B} (l : list A) (m : list B) : length l = length m -> map snd (combine l m) = m.
Proof.
  revert m. induction l as [|x l IH]; intros [|y m] H; try discriminate; [reflexivity|].
  cbn [combine map snd]. f_equal. apply IH. injection H; auto.
Qed.

(** DCG@k of a ranking: the i-th gain (from 1) is divided by the binary logarithm
    of i+1; positions after the end of the list count nothing. *)

Definition DCG (k : nat) (l : list Qc) : R :=
  fold_right Rplus 0%R (map (fun i => Q2R (nth i l 0%Qc) / (ln (INR (i + 2)) / ln 2))%R (seq 0 k)).

(** The best that any ordering of the gains achieves. *)

Definition best_dcg (k : nat) (gains : list Qc) (b : R) : Prop :=
  (exists l, Permutation l gains /\ DCG k l = b) /\ forall l, Permutation l gains -> (DCG k l <= b)%R.

Definition weight_at (k i : nat) : R := if Nat.ltb i k then (/ log2 (i + 2))%R else 0%R.

Fixpoint wsum (w : nat -> R) (l : list Qc) : R :=
  match l with [] => 0%R | x :: t => (w 0%nat * Q2R x + wsum (fun i => w (S i)) t)%R end.

Lemma ln2_pos : (0 < ln 2)%R.
Proof. rewrite <- ln_1. apply ln_increasing; Lra.lra. Qed.

Lemma log2_pos n : (2 <= n)%nat -> (0 < log2 n)%R.
Proof.
  intros H. unfold log2. apply Rdiv_lt_0_compat; [|apply ln2_pos].
  rewrite <- ln_1. apply ln_increasing; [Lra.lra|]. apply (lt_INR 1 n). lia.
Qed.

Lemma log2_mono m n : (2 <= m)%nat -> (m <= n)%nat -> (log2 m <= log2 n)%R.
Proof.
  intros H L. unfold log2. apply Rmult_le_compat_r.
  - left. apply Rinv_0_lt_compat, ln2_pos.
  - destruct (Nat.eq_dec m n) as [->|N]; [Lra.lra|]. left. apply ln_increasing.
    + apply (lt_INR 0 m). lia.
    + apply lt_INR. lia.
Qed.

Lemma weight_nonneg k i : (0 <= weight_at k i)%R.
Proof.
  unfold weight_at. destruct (i <? k)%nat; [|Lra.lra]. left. apply Rinv_0_lt_compat, log2_pos. lia.
Qed.

Lemma weight_antitone k i : (weight_at k (S i) <= weight_at k i)%R.
Proof.
  unfold weight_at. destruct (S i <? k)%nat eqn:E.
  - apply Nat.ltb_lt in E. assert (E' : (i <? k)%nat = true) by (apply Nat.ltb_lt; lia). rewrite E'.
    apply Rinv_le_contravar; [apply log2_pos; lia|apply log2_mono; lia].
  - apply (weight_nonneg k i).
Qed.

Lemma wsum_ext w w' l : (forall i, w i = w' i) -> wsum w l = wsum w' l.
Proof.
  revert w w'. induction l as [|x l IH]; intros w w' H; [reflexivity|]. cbn [wsum].
  rewrite H, (IH (fun i => w (S i)) (fun i => w' (S i))); auto.
Qed.

Lemma wsum_zero l : wsum (fun _ => 0%R) l = 0%R.
Proof. induction l; cbn [wsum]; [reflexivity|]. rewrite IHl. Lra.lra. Qed.

Lemma rsum_zero {A} (f : A -> R) l : (forall x, In x l -> f x = 0%R) -> fold_right Rplus 0%R (map f l) = 0%R.
Proof.
  induction l as [|x l IH]; intros H; [reflexivity|]. cbn [map fold_right].
  rewrite H by (left; auto). rewrite IH by (intros; apply H; right; auto). Lra.lra.
Qed.

Lemma wsum_from l : forall k m,
  fold_right Rplus 0%R (map (fun i => Q2R (nth i l 0%Qc) / log2 (i + m + 2))%R (seq 0 k)) =
  wsum (fun i => if Nat.ltb i k then (/ log2 (i + m + 2))%R else 0%R) l.
Proof.
  induction l as [|x l IH]; intros k m.
  - cbn [wsum]. apply rsum_zero. intros i _. destruct i; cbn [nth]; rewrite Q2R_0_c; unfold Rdiv; Lra.lra.
  - destruct k as [|k].
    + cbn [seq map fold_right]. symmetry. etransitivity; [|apply (wsum_zero (x :: l))]. apply wsum_ext. intros i. reflexivity.
    + cbn [seq map fold_right nth wsum Nat.ltb Nat.leb]. change (0 <? S k)%nat with true. cbn iota.
      f_equal; [unfold Rdiv; rewrite Rmult_comm; reflexivity|].
      rewrite <- seq_shift, map_map. cbn [nth].
      specialize (IH k (S m)).
      etransitivity; [|etransitivity; [exact IH|]].
      * f_equal. apply map_ext. intros i. replace (S i + m + 2)%nat with (i + S m + 2)%nat by lia. reflexivity.
      * apply wsum_ext. intros i. change (S i <? S k)%nat with (i <? k)%nat.
        replace (S i + m + 2)%nat with (i + S m + 2)%nat by lia. reflexivity.
Qed.

Lemma DCG_wsum k l : DCG k l = wsum (weight_at k) l.
Proof.
  unfold DCG. pose proof (wsum_from l k 0) as H.
  etransitivity; [|etransitivity; [exact H|]].
  - f_equal. apply map_ext. intros i. unfold log2. rewrite Nat.add_0_r. reflexivity.
  - apply wsum_ext. intros i. unfold weight_at. rewrite Nat.add_0_r. reflexivity.
Qed.

(** The model's sum is DCG@k, also for k beyond the end. *)

Lemma dcg_at_k_from l : forall k m, (k <= length l)%nat ->
  rsum_list (map (fun vi : Qc * nat => Q2R (fst vi) / log2 (snd vi))%R (combine (firstn k l) (seq (m + 2) k))) =
  fold_right Rplus 0%R (map (fun i => Q2R (nth i l 0%Qc) / log2 (i + m + 2))%R (seq 0 k)).
Proof.
  induction l as [|x l IH]; intros [|k] m H; try reflexivity; [cbn [length] in H; lia|].
  cbn [firstn seq combine map]. unfold rsum_list. cbn [fold_right fst snd nth]. f_equal.
  rewrite <- (seq_shift k 0), map_map. cbn [nth]. cbn [length] in H.
  specialize (IH k (S m) ltac:(lia)). unfold rsum_list in IH.
  etransitivity; [|etransitivity; [exact IH|]].
  - reflexivity.
  - f_equal. apply map_ext. intros i. replace (S i + m + 2)%nat with (i + S m + 2)%nat by lia. reflexivity.
Qed.

Lemma DCG_beyond k l : DCG k l = DCG (Nat.min k (length l)) l.
Proof.
  rewrite !DCG_wsum.
  assert (G : forall l w w', (forall i, (i < length l)%nat -> w i = w' i) -> wsum w l = wsum w' l).
  { clear. induction l as [|x l IH]; intros w w' H; [reflexivity|]. cbn [wsum length] in *.
    rewrite (H 0%nat) by lia. f_equal. apply IH. intros i L. apply H. lia. }
  apply G. intros i L. unfold weight_at. destruct (i <? k)%nat eqn:E.
  - apply Nat.ltb_lt in E. assert (E' : (i <? Nat.min k (length l))%nat = true) by (apply Nat.ltb_lt; lia). rewrite E'. reflexivity.
  - apply Nat.ltb_ge in E. assert (E' : (i <? Nat.min k (length l))%nat = false) by (apply Nat.ltb_ge; lia). rewrite E'. reflexivity.
Qed.

Lemma dcg_at_k_DCG k l : dcg_at_k (Nat.min k (length l)) l = DCG k l.
Proof.
  rewrite DCG_beyond. unfold dcg_at_k.
  pose proof (dcg_at_k_from l (Nat.min k (length l)) 0 ltac:(lia)) as H.
  cbn [Nat.add] in H. etransitivity; [exact H|]. unfold DCG, log2. f_equal. apply map_ext. intros i. rewrite Nat.add_0_r. reflexivity.
Qed.

Definition antitone (w : nat -> R) : Prop := forall i, (w (S i) <= w i)%R.

Definition descending_gain (a b : Qc) : bool := Qc_leb b a.

Lemma wsum_insert l : forall w x, antitone w -> (wsum w (x :: l) <= wsum w (insert descending_gain x l))%R.
Proof.
  induction l as [|y l IH]; intros w x W; cbn [insert]; [Lra.lra|].
  unfold descending_gain at 1. destruct (Qc_leb y x) eqn:E; [Lra.lra|].
  apply Qc_leb_gt in E.
  assert (W' : antitone (fun i => w (S i))) by (intros i; apply W).
  specialize (IH (fun i => w (S i)) x W'). cbn [wsum] in *.
  assert (L : (Q2R x <= Q2R y)%R) by (apply Q2R_le_c; apply Qclt_le_weak, E).
  pose proof (W 0%nat). Lra.nra.
Qed.

Lemma wsum_sorted l : forall w, antitone w -> (wsum w l <= wsum w (py_sorted descending_gain l))%R.
Proof.
  induction l as [|x l IH]; intros w W; cbn [py_sorted fold_right]; [Lra.lra|].
  eapply Rle_trans; [|apply wsum_insert; exact W]. cbn [wsum].
  specialize (IH (fun i => w (S i)) ltac:(intros i; apply W)). unfold py_sorted in IH. Lra.lra.
Qed.

Lemma descending_total x y : descending_gain x y = false -> descending_gain y x = true.
Proof. unfold descending_gain. intros H. apply Qc_leb_gt in H. apply Qc_leb_le, Qclt_le_weak, H. Qed.

Lemma descending_trans x y z : descending_gain x y = true -> descending_gain y z = true -> descending_gain x z = true.
Proof. unfold descending_gain. rewrite !Qc_leb_le. intros; eapply Qcle_trans; eauto. Qed.

Lemma descending_antisym x y : descending_gain x y = true -> descending_gain y x = true -> x = y.
Proof. unfold descending_gain. rewrite !Qc_leb_le. intros; apply Qcle_antisym; auto. Qed.

Lemma sorted_unique {A} (R : A -> A -> Prop) (AS : forall x y, R x y -> R y x -> x = y) (RF : forall x, R x x) :
  forall l m, StronglySorted R l -> StronglySorted R m -> Permutation l m -> l = m.
Proof.
  induction l as [|x l IH]; intros [|y m] S1 S2 P; auto.
  - apply Permutation_nil in P. discriminate.
  - apply Permutation_sym, Permutation_nil in P. discriminate.
  - inversion S1 as [|? ? S1' F1]; inversion S2 as [|? ? S2' F2]; subst.
    assert (E : x = y).
    { apply AS.
      - assert (H : In y (x :: l)) by (apply (Permutation_in _ (Permutation_sym P)); left; auto).
        destruct H as [->|H]; auto. rewrite Forall_forall in F1. auto.
      - assert (H : In x (y :: m)) by (apply (Permutation_in _ P); left; auto).
        destruct H as [->|H]; auto. rewrite Forall_forall in F2. auto. }
    subst y. f_equal. apply IH; auto. apply Permutation_cons_inv in P. exact P.
Qed.

Lemma py_sorted_descending l m : Permutation l m -> py_sorted descending_gain l = py_sorted descending_gain m.
Proof.
  intros P. apply (sorted_unique (fun a b => descending_gain a b = true)).
  - apply descending_antisym.
  - intros x. unfold descending_gain. apply Qc_leb_le, Qcle_refl.
  - apply py_sorted_sorted; [apply descending_total|apply descending_trans].
  - apply py_sorted_sorted; [apply descending_total|apply descending_trans].
  - rewrite !py_sorted_perm. exact P.
Qed.

Lemma sorted_is_best k gs : best_dcg k gs (DCG k (py_sorted descending_gain gs)).
Proof.
  split.
  - exists (py_sorted descending_gain gs). split; [apply py_sorted_perm|reflexivity].
  - intros l P. rewrite <- (py_sorted_descending l gs P), !DCG_wsum. apply wsum_sorted. intros i. apply weight_antitone.
Qed.

Lemma best_unique k gs a b : best_dcg k gs a -> best_dcg k gs b -> a = b.
Proof.
  intros ((l & P & <-) & A) ((m & Q & <-) & B). apply Rle_antisym; auto.
Qed.

Lemma sorted_snd (l : list (nat * Qc)) :
  map snd (py_sorted (fun a b : nat * Qc => Qc_leb (snd b) (snd a)) l) = py_sorted descending_gain (map snd l).
Proof.
  assert (I : forall x l, map snd (insert (fun a b : nat * Qc => Qc_leb (snd b) (snd a)) x l) = insert descending_gain (snd x) (map snd l)).
  { clear. intros x. induction l as [|y l IH]; cbn [insert map]; [reflexivity|]. unfold descending_gain at 1.
    destruct (Qc_leb (snd y) (snd x)); cbn [map]; [reflexivity|]. f_equal. exact IH. }
  induction l as [|x l IH]; [reflexivity|]. cbn [py_sorted fold_right map] in *. rewrite I. f_equal. exact IH.
Qed.

Lemma calculate_spec gs k :
  calculate_ndcg (combine (seq 1 (length gs)) gs) k =
  (if Rlt_dec 0 (DCG k (py_sorted descending_gain gs)) then DCG k gs / DCG k (py_sorted descending_gain gs) else 0)%R.
Proof.
  unfold calculate_ndcg.
  rewrite sorted_ranked, sorted_snd. rewrite map_snd_combine by apply seq_length.
  rewrite combine_length, seq_length, Nat.min_id.
  rewrite dcg_at_k_DCG.
  assert (E : length (py_sorted descending_gain gs) = length gs) by (apply Permutation_length, py_sorted_perm).
  pose proof (dcg_at_k_DCG k (py_sorted descending_gain gs)) as D. rewrite E in D. rewrite D. reflexivity.
Qed.

(** What np.argsort promises. *)

Definition argsort_ok (argsort : list num -> list nat) : Prop :=
  forall scores, Permutation (argsort scores) (seq 0 (length scores)) /\
    (~ In NaN scores -> StronglySorted (fun i j => num_leb (nth i scores NaN) (nth j scores NaN) = true) (argsort scores)).

Lemma sorted_idx_ok : argsort_ok sorted_idx.
Proof. intros sc. split; [apply sorted_idx_perm|]. intros N. apply (sorted_idx_sorted sc N). Qed.

(** [l] lists the gains of the documents by falling score (ties in some order). *)

Definition by_score (scores : list num) (gains l : list Qc) : Prop :=
  exists order, Permutation order (seq 0 (length gains)) /\ l = map (fun i => nth i gains 0%Qc) order /\
    (~ In NaN scores -> StronglySorted (fun i j => num_leb (nth j scores NaN) (nth i scores NaN) = true) order).

(** NDCG@k: the DCG of the ranking by score relative to the best DCG; 0 if that is
    not positive. *)

Definition is_ndcg (k : nat) (scores : list num) (gains : list Qc) (v : R) : Prop :=
  exists l best, by_score scores gains l /\ best_dcg k gains best /\
    ((0 < best)%R -> v = (DCG k l / best)%R) /\ ((best <= 0)%R -> v = 0%R).

(** A query: scores and gains of its documents and its weight. *)

Record query := Query { qu_scores : list num; qu_gains : list Qc; qu_weight : Qc }.

Definition holds_query (weighted : bool) (m o gain_key : string) (q : query) (e : query_inputs) : Prop :=
  exists labels ws, carries weighted m o (q_inputs e) (Reading labels (qu_scores q) ws) /\
    (ws <> [] /\ forall w, In w ws -> w = qu_weight q) /\
    (exists kv, q_features e = Dict kv /\ dget String.eqb kv gain_key = Some (Leaf (qu_gains q))) /\
    length (qu_gains q) = length (qu_scores q) /\ qu_gains q <> [].

(** Queries none of whose gains is positive do not count. *)

Definition counted (q : query) : bool := existsb (fun g => Qc_ltb 0%Qc g) (qu_gains q).

Definition counted_weight (q : query) : Qc := if counted q then qu_weight q else 0%Qc.

Lemma map_nth_seq (gs : list Qc) : map (fun i => nth i gs 0%Qc) (seq 0 (length gs)) = gs.
Proof.
  induction gs as [|g gs IH]; [reflexivity|]. cbn [length seq map nth]. f_equal.
  rewrite <- seq_shift, map_map. exact IH.
Qed.

Section Run.
  Context (argsort : list num -> list nat) (argsort_fine : argsort_ok argsort).

  Definition ranking (q : query) : list Qc := map (fun i => nth i (qu_gains q) 0%Qc) (rev (argsort (qu_scores q))).
  Definition ndcg_of (k : nat) (q : query) : R :=
    calculate_ndcg (combine (seq 1 (length (ranking q))) (ranking q)) k.

  Lemma rev_sorted {A} (R : A -> A -> Prop) l : StronglySorted R l -> StronglySorted (fun a b => R b a) (rev l).
  Proof.
    intros H. induction H as [|x l H IH F]; cbn [rev]; [constructor|].
    assert (G : forall l, StronglySorted (fun a b => R b a) l -> Forall (fun b => R x b) l ->
              StronglySorted (fun a b => R b a) (l ++ [x])).
    { clear. intros l H. induction H as [|y l H IH F]; cbn [app]; intros G.
      - constructor; constructor.
      - inversion G; subst. constructor; [apply IH; auto|]. apply Forall_app. split; auto. }
    apply G; auto. rewrite Forall_forall in *. intros y Hy. apply F. apply in_rev. exact Hy.
  Qed.

  Lemma ranking_by_score q : length (qu_gains q) = length (qu_scores q) -> by_score (qu_scores q) (qu_gains q) (ranking q).
  Proof.
    intros L. destruct (argsort_fine (qu_scores q)) as (P & O).
    exists (rev (argsort (qu_scores q))). split; [|split].
    - rewrite L, <- Permutation_rev. exact P.
    - reflexivity.
    - intros N. apply (rev_sorted _ _ (O N)).
  Qed.

  Lemma by_score_perm sc gs l : by_score sc gs l -> Permutation l gs.
  Proof.
    intros (o & P & -> & _). eapply Permutation_trans; [apply Permutation_map; exact P|]. apply Permutation_refl'.
    apply map_nth_seq.
  Qed.

  Lemma ndcg_of_spec k q : length (qu_gains q) = length (qu_scores q) -> is_ndcg k (qu_scores q) (qu_gains q) (ndcg_of k q).
  Proof.
    intros L. pose proof (ranking_by_score q L) as B. pose proof (by_score_perm _ _ _ B) as P.
    exists (ranking q), (DCG k (py_sorted descending_gain (qu_gains q))).
    split; [exact B|]. split; [apply sorted_is_best|].
    unfold ndcg_of. rewrite calculate_spec, (py_sorted_descending _ _ P).
    destruct (Rlt_dec 0 (DCG k (py_sorted descending_gain (qu_gains q)))); split; intros; auto; Lra.lra.
  Qed.

  Lemma max_positive gs x : forall t, np_max (x :: t) = Ok gs -> Qc_leb gs 0%Qc = negb (existsb (fun g => Qc_ltb 0%Qc g) (x :: t)).
  Proof.
    intros t H. injection H as <-. revert x. induction t as [|y t IH]; intros x; cbn [fold_left existsb].
    - rewrite orb_false_r. unfold Qc_ltb. rewrite negb_involutive. reflexivity.
    - rewrite IH. cbn [existsb]. unfold Qcmax, Qc_ltb. destruct (Qc_leb x y) eqn:E.
      + destruct (Qc_leb y 0) eqn:Y; cbn [negb orb].
        * assert (X : Qc_leb x 0 = true) by (apply Qc_leb_le; eapply Qcle_trans; apply Qc_leb_le; eauto). rewrite X. reflexivity.
        * rewrite orb_true_r. reflexivity.
      + destruct (Qc_leb x 0) eqn:X; cbn [negb orb]; auto.
        assert (Y : Qc_leb y 0 = true).
        { apply Qc_leb_gt in E. apply Qc_leb_le. apply Qc_leb_le in X. eapply Qcle_trans; [apply Qclt_le_weak; exact E|exact X]. }
        rewrite Y. reflexivity.
  Qed.

  Lemma gains_of ap weighted lk pk m o gk e q : holds_query weighted m o gk q e ->
    to_gains_example_weight argsort ap weighted lk pk m o gk e = Ok (ranking q, counted_weight q).
  Proof.
    intros (ls & ws & C & (WN & W) & (kv & EF & EG) & L & N). unfold to_gains_example_weight.
    rewrite (prepared ap (ndcg_options weighted) lk pk m o (q_inputs e) _ C).
    cbn [r_labels r_scores r_weight]. unfold yield_tuples, ndcg_options.
    cbn [o_allow_none o_single_weight o_sub_key o_flatten o_class_weights o_fractional negb andb orb].
    assert (EW : exists w', (if (1 <? length ws)%nat then
               match ws with
               | [] => Ok ws
               | w0 :: _ => if forallb (fun w => Qc_eqb w w0) ws then Ok [w0] else Err ValueError
               end else Ok ws) = Ok w' /\ w' = [qu_weight q]).
    { destruct ws as [|w0 ws]; [congruence|]. rewrite (W w0) by (left; auto).
      destruct (1 <? length (qu_weight q :: ws))%nat eqn:E1.
      - assert (F : forallb (fun w => Qc_eqb w (qu_weight q)) (qu_weight q :: ws) = true).
        { apply forallb_forall. intros w Hw. apply Qc_eqb_eq. destruct Hw as [<-|Hw]; auto. apply W. right; auto. }
        rewrite F. eexists; split; reflexivity.
      - destruct ws; [eexists; split; reflexivity|discriminate]. }
    destruct EW as (w' & -> & ->). cbn [bind]. unfold yield_results. cbn [negb orb bind].
    rewrite EF. unfold get_by_keys. cbn [walk]. rewrite EG. cbn [bind walk].
    rewrite L, Nat.eqb_refl. cbn [negb].
    destruct (qu_gains q) as [|g gs] eqn:EQ; [congruence|].
    destruct (np_max (g :: gs)) as [top|] eqn:ET; [|discriminate]. cbn [bind].
    rewrite (mapM_ok _ (fun i => nth i (g :: gs) 0%Qc)).
    - cbn [bind]. rewrite (max_positive _ _ _ ET). unfold counted_weight, counted, ranking. rewrite EQ.
      destruct (existsb _ _); cbn [negb scalar bind]; reflexivity.
    - intros i Hi. apply in_rev in Hi. destruct (argsort_fine (qu_scores q)) as (P & _).
      apply (Permutation_in _ P), in_seq in Hi. unfold nth_ok. rewrite (nth_error_nth' _ 0%Qc) by lia. reflexivity.
  Qed.

  (** The accumulator of a list of queries. *)
  Definition ndcg_sums (ks : list nat) (l : list query) : ndcg_acc :=
    (map (fun k => fold_right Rplus 0%R (map (fun q => ndcg_of k q * Q2R (counted_weight q))%R l)) ks,
     qsum (map counted_weight l)).

  Lemma map_combine_map {A} (f g : A -> R) l :
    map (fun ab => fst ab + snd ab)%R (combine (map f l) (map g l)) = map (fun k => f k + g k)%R l.
  Proof. induction l; cbn [map combine]; [reflexivity|]. f_equal. exact IHl. Qed.

  Lemma rsum_app_R (l m : list R) : fold_right Rplus 0%R (l ++ m) = (fold_right Rplus 0%R l + fold_right Rplus 0%R m)%R.
  Proof. induction l; cbn [app fold_right]; [Lra.lra|]. rewrite IHl. Lra.lra. Qed.

  Lemma ndcg_run ap weighted lk pk m o gk ks s (r : query_inputs -> query) :
    (forall e, In e (inputs s) -> holds_query weighted m o gk (r e) e) ->
    run (ndcg_combiner argsort ap weighted lk pk m o gk (map Some ks)) s = Ok (ndcg_sums ks (map r (inputs s))).
  Proof.
    intros H. unfold ndcg_combiner.
    apply (res_fun_run _ _ _ _ (fun e => holds_query weighted m o gk (r e) e) (fun l => ndcg_sums ks (map r l))).
    - unfold ndcg_sums. cbn [map qsum fold_right]. f_equal. rewrite map_length.
      clear. induction ks; cbn [map length repeat]; [reflexivity|]. f_equal. exact IHks.
    - intros l x _ G. unfold ndcg_add. rewrite (gains_of ap weighted lk pk m o gk x (r x) G). cbn [bind].
      rewrite (mapM_ok _ (fun k => match k with Some k => ndcg_of k (r x) * Q2R (counted_weight (r x)) | None => 0 end)%R).
      + cbn [bind]. unfold ndcg_sums. cbn [fst snd]. rewrite map_map, map_combine_map. f_equal. f_equal.
        * apply map_ext. intros k. rewrite !map_app, rsum_app_R. cbn [map fold_right]. Lra.lra.
        * rewrite !map_app, qsum_app. cbn [map qsum fold_right]. ring.
      + intros k Hk. apply in_map_iff in Hk. destruct Hk as (k' & <- & _). reflexivity.
    - intros l1 l2 _ _. unfold ndcg_plus, ndcg_sums. cbn [fst snd]. rewrite map_combine_map. f_equal.
      + apply map_ext. intros k. rewrite !map_app, rsum_app_R. reflexivity.
      + rewrite !map_app, qsum_app. reflexivity.
    - apply Forall_forall. exact H.
  Qed.

End Run.

Lemma counted_sum_R (f : query -> R) l :
  fold_right Rplus 0%R (map (fun q => f q * Q2R (counted_weight q))%R l) =
  fold_right Rplus 0%R (map (fun q => f q * Q2R (qu_weight q))%R (filter counted l)).
Proof.
  induction l as [|q l IH]; [reflexivity|]. cbn [map fold_right filter]. unfold counted_weight at 1.
  destruct (counted q); cbn [map fold_right]; rewrite IH; [reflexivity|]. rewrite Q2R_0_c. Lra.lra.
Qed.

Lemma counted_sum l : qsum (map counted_weight l) = qsum (map qu_weight (filter counted l)).
Proof.
  induction l as [|q l IH]; [reflexivity|]. cbn [map qsum fold_right filter].
  change (fold_right Qcplus 0%Qc) with qsum. rewrite IH. unfold counted_weight.
  destruct (counted q); cbn [map qsum fold_right]; change (fold_right Qcplus 0%Qc) with qsum; ring.
Qed.

Lemma C19_ndcg_mean_pf :
  forall argsort, argsort_ok argsort ->
  exists v : nat -> query -> R,
    (forall k q, length (qu_gains q) = length (qu_scores q) -> is_ndcg k (qu_scores q) (qu_gains q) (v k q)) /\
    forall ap weighted lk pk m o gain_key ks s (r : query_inputs -> query),
      (forall e, In e (inputs s) -> holds_query weighted m o gain_key (r e) e) ->
      let D := filter counted (map r (inputs s)) in
      let W := qsum (map qu_weight D) in
      outcome (ndcg_combiner argsort ap weighted lk pk m o gain_key (map Some ks)) s =
      Ok (map (fun k => if Qc_ltb 0%Qc W
                        then Some (fold_right Rplus 0 (map (fun q => v k q * Q2R (qu_weight q)) D) / Q2R W)%R
                        else None) ks).
Proof.
  intros argsort OK. exists (ndcg_of argsort). split; [intros k q L; apply ndcg_of_spec; auto|].
  intros ap weighted lk pk m o gk ks s r H. cbv zeta. unfold outcome.
  rewrite (ndcg_run argsort OK ap weighted lk pk m o gk ks s r H).
  cbn [ndcg_combiner res_combiner c_extract bind]. unfold ndcg_extract, ndcg_sums. cbn [fst snd].
  rewrite counted_sum, map_map. f_equal. apply map_ext. intros k. rewrite counted_sum_R. reflexivity.
Qed.

Lemma rsum_perm_R (l m : list R) : Permutation l m -> fold_right Rplus 0%R l = fold_right Rplus 0%R m.
Proof. induction 1; cbn [fold_right]; Lra.lra. Qed.

Lemma C19_ndcg_schedule_pf :
  forall argsort ap weighted lk pk m o gain_key ks s1 s2 (r : query_inputs -> query),
    argsort_ok argsort -> (forall e, In e (inputs s1) -> holds_query weighted m o gain_key (r e) e) ->
    Permutation (inputs s1) (inputs s2) ->
    outcome (ndcg_combiner argsort ap weighted lk pk m o gain_key (map Some ks)) s1 =
    outcome (ndcg_combiner argsort ap weighted lk pk m o gain_key (map Some ks)) s2.
Proof.
  intros argsort ap weighted lk pk m o gk ks s1 s2 r OK H P.
  destruct (C19_ndcg_mean_pf argsort OK) as (v & _ & M).
  rewrite (M ap weighted lk pk m o gk ks s1 r H).
  rewrite (M ap weighted lk pk m o gk ks s2 r) by (intros e He; apply H; apply (Permutation_in _ (Permutation_sym P)); auto).
  assert (PD : Permutation (filter counted (map r (inputs s1))) (filter counted (map r (inputs s2)))) by (apply filter_perm, Permutation_map, P).
  rewrite (qsum_perm _ _ (Permutation_map qu_weight PD)). f_equal. apply map_ext. intros k.
  rewrite (rsum_perm_R _ _ (Permutation_map (fun q => v k q * Q2R (qu_weight q))%R PD)). reflexivity.
Qed.

Lemma wsum_nonneg l : forall w, (forall i, (0 <= w i)%R) -> (forall g, In g l -> (0 <= g)%Qc) -> (0 <= wsum w l)%R.
Proof.
  induction l as [|x l IH]; intros w W G; cbn [wsum]; [Lra.lra|].
  specialize (IH (fun i => w (S i)) ltac:(intros; apply W) ltac:(intros; apply G; right; auto)).
  pose proof (W 0%nat). pose proof (Q2R_nonneg x (G x (or_introl eq_refl))). Lra.nra.
Qed.

Lemma C19_ndcg_range_pf :
  forall k scores gains v, is_ndcg k scores gains v -> (forall g, In g gains -> (0 <= g)%Qc) -> (0 <= v <= 1)%R.
Proof.
  intros k sc gs v (l & b & B & BEST & V1 & V0) G. pose proof (by_score_perm _ _ _ B) as P.
  destruct (Rlt_dec 0 b) as [L|L].
  - rewrite (V1 L). destruct BEST as (_ & BEST). specialize (BEST l P).
    assert (N : (0 <= DCG k l)%R).
    { rewrite DCG_wsum. apply wsum_nonneg; [apply weight_nonneg|]. intros g Hg. apply G. apply (Permutation_in _ P), Hg. }
    split.
    + apply Rmult_le_pos; auto. left. apply Rinv_0_lt_compat, L.
    + apply (Rmult_le_reg_r b); auto. unfold Rdiv. rewrite Rmult_assoc, Rinv_l by Lra.lra. Lra.lra.
  - rewrite V0 by Lra.lra. Lra.lra.
Qed.

Lemma C19_perfect_ranking_pf :
  forall k scores gains v, is_ndcg k scores gains v -> 1 <= k -> length gains = length scores -> ~ In NaN scores ->
    (forall g, In g gains -> (0 <= g)%Qc) -> (exists g, In g gains /\ (0 < g)%Qc) ->
    (forall i j, i < length gains -> j < length gains -> (nth i gains 0 < nth j gains 0)%Qc ->
       num_ltb (nth i scores NaN) (nth j scores NaN) = true) ->
    v = 1%R.
Proof.
  intros k sc gs v (l & b & B & BEST & V1 & V0) K L N G (g & IG & PG) O. pose proof (by_score_perm _ _ _ B) as P.
  assert (SL : StronglySorted (fun a b => descending_gain a b = true) l).
  { destruct B as (o & PO & -> & SO). specialize (SO N).
    assert (BD : forall i, In i o -> i < length gs) by (intros i Hi; apply (Permutation_in _ PO), in_seq in Hi; lia).
    clear PO P BEST V1 V0. induction SO as [|i o SO IH F]; cbn [map]; constructor.
    - apply IH. intros j Hj. apply BD. right; auto.
    - apply Forall_forall. intros x Hx. apply in_map_iff in Hx. destruct Hx as (j & <- & Hj).
      rewrite Forall_forall in F. specialize (F j Hj). unfold descending_gain. apply Qc_leb_le.
      destruct (Qc_leb (nth j gs 0%Qc) (nth i gs 0%Qc)) eqn:E; [apply Qc_leb_le, E|]. apply Qc_leb_gt in E.
      pose proof (O i j ltac:(apply BD; left; auto) ltac:(apply BD; right; auto) E) as Q. exfalso.
      revert F Q. clear. destruct (nth j sc NaN), (nth i sc NaN); cbn [num_leb num_ltb]; try congruence.
      intros A B. apply Qc_leb_le in A. apply Qc_ltb_lt in B. exact (Qclt_not_le _ _ B A). }
  assert (E : l = py_sorted descending_gain gs).
  { apply (sorted_unique (fun a b => descending_gain a b = true)); auto.
    - apply descending_antisym.
    - intros x. unfold descending_gain. apply Qc_leb_le, Qcle_refl.
    - apply py_sorted_sorted; [apply descending_total|apply descending_trans].
    - rewrite py_sorted_perm. exact P. }
  assert (EB : b = DCG k l) by (rewrite E; apply (best_unique k gs); [exact BEST|apply sorted_is_best]).
  assert (PB : (0 < b)%R).
  { rewrite EB, DCG_wsum.
    assert (PL : In g l) by (apply (Permutation_in _ (Permutation_sym P)), IG).
    assert (GL : forall x, In x l -> (0 <= x)%Qc) by (intros x Hx; apply G, (Permutation_in _ P), Hx).
    destruct l as [|x l]; [destruct PL|]. cbn [wsum].
    assert (X : (0 < x)%Qc).
    { destruct PL as [->|PL]; auto. inversion SL; subst. rewrite Forall_forall in *.
      match goal with H : forall y, In y l -> _ |- _ => specialize (H g PL) end.
      eapply Qclt_le_trans; [exact PG|]. apply Qc_leb_le. assumption. }
    apply Q2R_pos in X.
    assert (W0 : (0 < weight_at k 0)%R).
    { unfold weight_at. assert (KK : (0 <? k)%nat = true) by (apply Nat.ltb_lt; lia). rewrite KK. apply Rinv_0_lt_compat, log2_pos. lia. }
    assert (T : (0 <= wsum (fun i => weight_at k (S i)) l)%R).
    { apply wsum_nonneg; [intros; apply weight_nonneg|]. intros y Hy. apply GL. right; auto. }
    Lra.nra. }
  rewrite (V1 PB), EB. field. Lra.lra.
Qed.

Lemma C19_mean_range_pf :
  forall argsort ap weighted lk pk m o gain_key ks s (r : query_inputs -> query) vs,
    argsort_ok argsort ->
    (forall e, In e (inputs s) -> holds_query weighted m o gain_key (r e) e /\ (0 <= qu_weight (r e))%Qc /\
       forall g, In g (qu_gains (r e)) -> (0 <= g)%Qc) ->
    outcome (ndcg_combiner argsort ap weighted lk pk m o gain_key (map Some ks)) s = Ok vs ->
    length vs = length ks /\ forall x, In (Some x) vs -> (0 <= x <= 1)%R.
Proof.
  intros argsort ap weighted lk pk m o gk ks s r vs OK H E.
  destruct (C19_ndcg_mean_pf argsort OK) as (v & V & M).
  rewrite (M ap weighted lk pk m o gk ks s r ltac:(intros e He; apply H, He)) in E. injection E as <-.
  split; [apply map_length|]. intros x Hx. apply in_map_iff in Hx. destruct Hx as (k & Hk & _).
  set (D := filter counted (map r (inputs s))) in *.
  destruct (Qc_ltb 0%Qc (qsum (map qu_weight D))) eqn:W; [|discriminate]. injection Hk as <-.
  apply Qc_ltb_lt, Q2R_pos in W.
  assert (HD : forall q, In q D -> (0 <= v k q <= 1)%R /\ (0 <= Q2R (qu_weight q))%R).
  { intros q Hq. unfold D in Hq. apply filter_In in Hq. destruct Hq as (Hq & _). apply in_map_iff in Hq.
    destruct Hq as (e & <- & He). destruct (H e He) as (Q & WN & G). split; [|apply Q2R_nonneg, WN].
    apply (C19_ndcg_range_pf k (qu_scores (r e)) (qu_gains (r e))); auto. apply V.
    destruct Q as (ls & ws & _ & _ & _ & L & _). exact L. }
  assert (B : (0 <= fold_right Rplus 0 (map (fun q => v k q * Q2R (qu_weight q)) D) <= Q2R (qsum (map qu_weight D)))%R).
  { clear -HD. induction D as [|q D IH]; cbn [map fold_right qsum]; [rewrite Q2R_0_c; Lra.lra|].
    change (fold_right Qcplus 0%Qc) with qsum. rewrite Q2R_plus_c.
    destruct (HD q (or_introl eq_refl)) as (A & B). specialize (IH ltac:(intros; apply HD; right; auto)). Lra.nra. }
  split.
  - apply Rmult_le_pos; [apply B|]. left. apply Rinv_0_lt_compat, W.
  - apply (Rmult_le_reg_r _ _ _ W). unfold Rdiv. rewrite Rmult_assoc, Rinv_l by Lra.lra. Lra.lra.
Qed.

Definition ex_query (scores gains : list Q) (w : Q) : query_inputs :=
  QueryInputs (InputsDict (Some (Leaf (map (fun _ => 0%Qc) scores))) (Some (Leaf (map (fun q => Fin (Q2Qc q)) scores))) (Some (Leaf [Q2Qc w])))
              (Dict [("gain", Leaf (map Q2Qc gains))]).

Lemma DCG_1 l : DCG 1 l = Q2R (nth 0 l 0%Qc).
Proof.
  unfold DCG. cbn [seq map fold_right Nat.add INR]. replace (1 + 1)%R with 2%R by Lra.lra.
  pose proof ln2_pos. field. Lra.lra.
Qed.

Lemma ndcg_1 x gs : (0 < hd 0%Qc (py_sorted descending_gain (x :: gs)))%Qc ->
  calculate_ndcg (combine (seq 1 (length (x :: gs))) (x :: gs)) 1 = (Q2R x / Q2R (hd 0%Qc (py_sorted descending_gain (x :: gs))))%R.
Proof.
  intros H. rewrite calculate_spec, !DCG_1. cbn [nth].
  replace (nth 0 (py_sorted descending_gain (x :: gs)) 0%Qc) with (hd 0%Qc (py_sorted descending_gain (x :: gs)))
    by (destruct (py_sorted descending_gain (x :: gs)); reflexivity).
  apply Q2R_pos in H. destruct (Rlt_dec 0 _); [reflexivity|contradiction].
Qed.

Definition present (given : list (option sub_key)) : list sub_key :=
  flat_map (fun s => match s with Some s => [s] | None => [] end) given.

Lemma present_In given sk : In sk (present given) <-> In (Some sk) given.
Proof.
  unfold present. rewrite in_flat_map. split.
  - intros ([x|] & H & I); cbn in I; [destruct I as [->|[]]; exact H|destruct I].
  - intros H. exists (Some sk). split; auto. left; auto.
Qed.

Definition cut (sk : sub_key) : option Z := option_map Z.of_nat (sk_top_k sk).

Lemma add_top_k_spec l k l' : add_top_k l k = Ok l' ->
  (forall j, (exists sk, In sk l' /\ cut sk = Some j) <-> (exists sk, In sk l /\ cut sk = Some j) \/ j = k) /\
  (NoDup (map cut l) -> NoDup (map cut l')) /\
  (forall sk, In sk l' -> In sk l \/ cut sk <> None) /\ (l' <> []) /\ (forall sk, In sk l -> In sk l').
Proof.
  unfold add_top_k. destruct (existsb _ l) eqn:E.
  - intros H. injection H as <-. apply existsb_exists in E. destruct E as (x & Hx & Ex).
    assert (CX : cut x = Some k).
    { unfold cut. destruct (sk_top_k x); [|discriminate]. apply Z.eqb_eq in Ex. cbn. congruence. }
    split; [|split; [auto|split; [auto|split; [intros ->; destruct Hx|auto]]]].
    intros j. split; [auto|]. intros [H| ->]; eauto.
  - destruct (mk_sub_key None None (Some k)) as [s|] eqn:M; cbn [bind]; [|discriminate]. intros H. injection H as <-.
    assert (CS : cut s = Some k).
    { unfold mk_sub_key in M. destruct (k <? 1)%Z eqn:K; [discriminate|]. injection M as <-. unfold cut. cbn.
      apply Z.ltb_ge in K. rewrite Z2Nat.id by lia. reflexivity. }
    split; [|split; [|split; [|split]]].
    + intros j. split.
      * intros (sk & H & C). apply in_app_iff in H. destruct H as [H|[<-|[]]]; [left; eauto|right; congruence].
      * intros [(sk & H & C)| ->]; [exists sk|exists s]; (split; [apply in_app_iff|]); auto. right; left; auto.
    + intros N. rewrite map_app. cbn [map]. apply NoDup_app; [exact N|constructor; [intros []|constructor]|].
      intros x H1 [H2|[]]. subst x. rewrite CS in H1. apply in_map_iff in H1. destruct H1 as (x & CX & Hx).
      assert (F : existsb (fun s => match sk_top_k s with Some n => Z.eqb (Z.of_nat n) k | None => false end) l = true).
      { apply existsb_exists. exists x. split; auto. unfold cut in CX. destruct (sk_top_k x); [|discriminate].
        injection CX as <-. apply Z.eqb_refl. }
      congruence.
    + intros sk H. apply in_app_iff in H. destruct H as [H|[<-|[]]]; auto. right. congruence.
    + destruct l; discriminate.
    + intros sk H. apply in_app_iff. auto.
Qed.

Lemma add_top_ks_spec ks : forall l l', foldM add_top_k ks l = Ok l' ->
  (forall j, (exists sk, In sk l' /\ cut sk = Some j) <-> (exists sk, In sk l /\ cut sk = Some j) \/ In j ks) /\
  (NoDup (map cut l) -> NoDup (map cut l')) /\
  (forall sk, In sk l -> In sk l').
Proof.
  induction ks as [|k ks IH]; intros l l' H; cbn [foldM] in H.
  - injection H as <-. split; [|auto]. intros j. split; [auto|]. intros [H|[]]; auto.
  - destruct (add_top_k l k) as [l1|] eqn:E; [|discriminate]. cbn [bind] in H.
    destruct (add_top_k_spec l k l1 E) as (A & B & _ & _ & C). destruct (IH l1 l' H) as (A' & B' & C').
    split; [|split; auto]. intros j. rewrite A', A. cbn [In]. intuition.
Qed.

Lemma C139_reported_cutoffs_pf :
  forall query_key given top_k_list all,
    ndcg_sub_keys query_key (Some given) top_k_list = Ok all ->
    query_key <> "" /\ all <> [] /\ (forall sk, In sk all -> cut sk <> None) /\
    (NoDup (map cut (present given)) -> NoDup (map cut all)) /\
    (forall sk, In (Some sk) given -> In sk all) /\
    (forall k, (exists sk, In sk all /\ cut sk = Some k) <->
       (exists sk, In (Some sk) given /\ cut sk = Some k) \/ (exists ks, top_k_list = Some ks /\ In k ks)).
Proof.
  intros qk given tl all H. unfold ndcg_sub_keys in H. destruct (String.eqb qk "") eqn:Q; [discriminate|].
  apply String.eqb_neq in Q. fold (present given) in H. cbv zeta in H.
  destruct (match tl with Some ks => foldM add_top_k ks (present given) | None => Ok (present given) end) as [l|] eqn:E; [|discriminate].
  cbn [bind] in H. destruct (_ || _) eqn:B; [discriminate|]. injection H as <-.
  apply orb_false_iff in B. destruct B as (B1 & B2).
  split; [exact Q|]. split; [destruct l; [discriminate|congruence]|]. split.
  { intros sk Hs C. apply not_true_iff_false in B2. apply B2, existsb_exists. exists sk. split; auto. unfold cut in C. destruct (sk_top_k sk); [discriminate|reflexivity]. }
  destruct tl as [ks|].
  - destruct (add_top_ks_spec ks _ _ E) as (A & N & I). split; [exact N|]. split; [intros sk Hs; apply I, present_In, Hs|].
    intros k. rewrite A. split; (intros [(sk & H & C)|H]; [left; exists sk; split; [apply present_In, H|exact C]|right]).
    + exists ks. auto.
    + destruct H as (ks' & X & Y). injection X as <-. exact Y.
  - injection E as <-. split; [auto|]. split; [intros sk Hs; apply present_In, Hs|]. intros k. split.
    + intros (sk & H & C). left. exists sk. split; [apply present_In, H|exact C].
    + intros [(sk & H & C)|(ks & X & _)]; [|discriminate]. exists sk. split; [apply present_In, H|exact C].
Qed.

Lemma C139_cutoffs_accepted_pf :
  forall query_key given ks,
    query_key <> "" -> (forall sk, In (Some sk) given -> cut sk <> None) -> (forall k, In k ks -> (1 <= k)%Z) ->
    ks <> [] -> exists all, ndcg_sub_keys query_key (Some given) (Some ks) = Ok all.
Proof.
  intros qk given ks Q G K N. unfold ndcg_sub_keys. apply String.eqb_neq in Q. rewrite Q. fold (present given). cbv zeta.
  assert (L : forall sk, In sk (present given) -> cut sk <> None) by (intros sk H; apply G, present_In, H).
  assert (R : forall ks l, (forall k, In k ks -> (1 <= k)%Z) -> (forall sk, In sk l -> cut sk <> None) ->
     exists l', foldM add_top_k ks l = Ok l' /\ (forall sk, In sk l' -> cut sk <> None)).
  { clear. induction ks as [|k ks IH]; intros l K L; cbn [foldM]; [eauto|].
    assert (E : exists l1, add_top_k l k = Ok l1).
    { unfold add_top_k. destruct (existsb _ l); [eauto|]. unfold mk_sub_key.
      assert (B : (k <? 1)%Z = false) by (apply Z.ltb_ge, K; left; auto). rewrite B. cbn [bind]. eauto. }
    destruct E as (l1 & E). rewrite E. cbn [bind]. apply IH; [intros; apply K; right; auto|].
    destruct (add_top_k_spec l k l1 E) as (_ & _ & C & _). intros sk H. destruct (C sk H); auto. }
  destruct (R ks (present given) K L) as (l' & E & C). rewrite E. cbn [bind].
  assert (NE : l' <> []).
  { destruct ks as [|k ks]; [congruence|]. destruct (add_top_ks_spec _ _ _ E) as (A & _). intros ->.
    destruct (proj2 (A k) (or_intror (or_introl eq_refl))) as (sk & [] & _). }
  replace (existsb _ l') with false.
  - destruct l'; [congruence|]. cbn [orb]. eauto.
  - symmetry. apply not_true_is_false. intros X. apply existsb_exists in X. destruct X as (sk & H & X).
    apply (C sk H). unfold cut. destruct (sk_top_k sk); [discriminate|reflexivity].
Qed.

Lemma C139_top_k_list_alone_refuted_pf :
  exists query_key ks, query_key <> "" /\ ks <> [] /\ (forall k, In k ks -> (1 <= k)%Z) /\
    ndcg_sub_keys query_key None (Some ks) = Err TypeError.
Proof.
  exists "query", [1%Z]. split; [discriminate|]. split; [discriminate|]. split; [|reflexivity]. intros k [<-|[]]. lia.
Qed.

Lemma C140_mixed_queries_refuted_pf :
  exists e kv x y, q_features e = Dict kv /\ dget String.eqb kv "query" = Some (Leaf [x; y]) /\ x <> y /\
    exists r, outcome (ndcg_combiner sorted_idx ap_sort true "" "" "" "" "gain" [Some 1]) (Bundle [e]) = Ok [Some r].
Proof.
  exists (QueryInputs (q_inputs (ex_query [1#5; 4#5]%Q [1; 1#2]%Q 1)) (Dict [("query", Leaf [qz 1; qz 2]); ("gain", Leaf [Q2Qc 1; Q2Qc (1#2)])])).
  exists [("query", Leaf [qz 1; qz 2]); ("gain", Leaf [Q2Qc 1; Q2Qc (1#2)])], (qz 1), (qz 2).
  split; [reflexivity|]. split; [reflexivity|]. split; [intros H; apply qz_inj in H; discriminate|].
  set (e := QueryInputs _ _).
  unfold outcome, ndcg_combiner. cbn [run res_combiner c_add c_create c_extract fold_left map length repeat bind]. unfold ndcg_add.
  replace (to_gains_example_weight sorted_idx ap_sort true "" "" "" "" "gain" e) with (Ok ([Q2Qc (1#2); Q2Qc 1], Q2Qc 1)) by (vm_compute; reflexivity).
  cbn [bind mapM fst snd combine map]. unfold ndcg_extract. cbn [fst snd combine map].
  replace (Qc_ltb 0 (0 + Q2Qc 1)%Qc) with true by (vm_compute; reflexivity). eexists. reflexivity.
Qed.
