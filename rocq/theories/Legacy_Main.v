(* Proofs of the theorems restated in Legacy_Properties.v. *)
From Coq Require Import String Ascii Reals Qreals Lra.
From Verif Require Import Base BaseFacts RealFacts Beam BeamFacts Util_Model Util_Main Ranking_Model Ranking_Main Keras_Main Classes_Main Legacy_Model.
Local Open Scope string_scope.
Local Open Scope list_scope.

(* C229 - C238: metrics of queries, and extractors, evaluators and validators of earlier versions. *)

(** The statistics of a list of queries when the smallest is compared with [top] *)

Lemma statistics_run s :
  run query_statistics s = Ok (QueryState (Z.of_nat (length (inputs s))) (Z.of_nat (length (concat (inputs s))))
    (fold_right Z.min LARGE_INT (map (fun q => Z.of_nat (length q)) (inputs s))) (fold_right Z.max 0%Z (map (fun q => Z.of_nat (length q)) (inputs s)))).
Proof.
  assert (FM : forall a l, fold_right Z.min a l = Z.min a (fold_right Z.min a l)).
  { intros a l. induction l as [|x l IH]; cbn [fold_right]; lia. }
  assert (FX : forall l, (0 <= fold_right Z.max 0 (map (fun q : query_fpl => Z.of_nat (length q)) l))%Z).
  { intros l. induction l as [|x l IH]; cbn [map fold_right]; lia. }
  assert (AM : forall l m, fold_right Z.min LARGE_INT (l ++ m) = Z.min (fold_right Z.min LARGE_INT l) (fold_right Z.min LARGE_INT m)).
  { intros l m. induction l as [|x l IH]; cbn [app fold_right]; [apply FM|]. rewrite IH. lia. }
  assert (AX : forall l m, fold_right Z.max 0%Z (map (fun q : query_fpl => Z.of_nat (length q)) (l ++ m)) =
      Z.max (fold_right Z.max 0%Z (map (fun q : query_fpl => Z.of_nat (length q)) l)) (fold_right Z.max 0%Z (map (fun q : query_fpl => Z.of_nat (length q)) m))).
  { intros l m. induction l as [|x l IH]; cbn [app map fold_right]; [pose proof (FX m); lia|]. rewrite IH. lia. }
  unfold query_statistics.
  apply (res_fun_run _ _ _ _ (fun _ : query_fpl => True) (fun l => QueryState (Z.of_nat (length l)) (Z.of_nat (length (concat l)))
    (fold_right Z.min LARGE_INT (map (fun q => Z.of_nat (length q)) l)) (fold_right Z.max 0%Z (map (fun q => Z.of_nat (length q)) l)))).
  - reflexivity.
  - intros l x _ _. unfold statistics_add. cbn [total_queries total_documents min_documents max_documents]. f_equal. f_equal.
    + rewrite app_length. cbn [length]. lia.
    + rewrite concat_app, app_length. cbn [concat]. rewrite app_nil_r. lia.
    + rewrite map_app, AM. cbn [map fold_right]. pose proof (FM LARGE_INT (map (fun q : query_fpl => Z.of_nat (length q)) l)) as K. revert K. generalize (fold_right Z.min LARGE_INT (map (fun q : list example_fpl => Z.of_nat (length q)) l)). intros z K. lia.
    + rewrite AX. cbn [map fold_right]. pose proof (FX l) as K. revert K. generalize (fold_right Z.max 0%Z (map (fun q : list example_fpl => Z.of_nat (length q)) l)). intros z K. lia.
  - intros l1 l2 _ _. unfold statistics_merge. cbn [total_queries total_documents min_documents max_documents]. f_equal.
    + rewrite app_length. lia.
    + rewrite concat_app, app_length. lia.
    + rewrite map_app, AM. reflexivity.
    + apply eq_sym, AX.
  - apply Forall_forall. intros; exact I.
Qed.

Lemma C229_totals_pf :
  forall s, exists st, outcome query_statistics s = Ok st /\
    total_queries st = Z.of_nat (length (inputs s)) /\
    total_documents st = fold_right Z.add 0%Z (map (fun q => Z.of_nat (length q)) (inputs s)).
Proof.
  intros s. unfold outcome. rewrite statistics_run. eexists. split; [reflexivity|]. cbn [total_queries total_documents].
  split; [reflexivity|]. induction (inputs s) as [|q l IH]; cbn [concat map fold_right length]; [reflexivity|]. rewrite app_length, Nat2Z.inj_add, IH. reflexivity.
Qed.

Lemma C229_smallest_and_largest_partial_pf :
  forall s, inputs s <> [] -> (forall q, In q (inputs s) -> (Z.of_nat (length q) <= 1000000000)%Z) ->
    exists st, outcome query_statistics s = Ok st /\
      (exists q, In q (inputs s) /\ min_documents st = Z.of_nat (length q)) /\
      (exists q, In q (inputs s) /\ max_documents st = Z.of_nat (length q)) /\
      forall q, In q (inputs s) -> (min_documents st <= Z.of_nat (length q) <= max_documents st)%Z.
Proof.
  intros s N B. unfold outcome. rewrite statistics_run. eexists. split; [reflexivity|]. cbn [min_documents max_documents].
  destruct (inputs s) as [|q0 l0]; [congruence|]. clear N. revert q0 B. induction l0 as [|q1 l IH]; intros q0 B.
  - cbn [map fold_right]. pose proof (B q0 (or_introl eq_refl)). unfold LARGE_INT. split; [|split].
    + exists q0. split; [left; reflexivity|]. lia.
    + exists q0. split; [left; reflexivity|]. lia.
    + intros q [<-|[]]. lia.
  - destruct (IH q1) as ((a & A & EA) & (b & D & EB) & H); [intros q I; apply B; right; exact I|].
    remember (q1 :: l) as m eqn:EM. cbn [map fold_right]. remember (fold_right Z.min LARGE_INT (map (fun q => Z.of_nat (length q)) m)) as u. remember (fold_right Z.max 0%Z (map (fun q => Z.of_nat (length q)) m)) as v.
    split; [|split].
    + destruct (Z.le_gt_cases (Z.of_nat (length q0)) u).
      * exists q0. split; [left; reflexivity|lia].
      * exists a. split; [right; exact A|]. rewrite <- EA. lia.
    + destruct (Z.le_gt_cases v (Z.of_nat (length q0))).
      * exists q0. split; [left; reflexivity|lia].
      * exists b. split; [right; exact D|]. rewrite <- EB. lia.
    + intros q [<-|I]; [lia|]. pose proof (H q I). lia.
Qed.

Lemma C229_without_queries_refuted_pf :
  exists s st, outcome query_statistics s = Ok st /\ inputs s = [] /\ (min_documents st > max_documents st)%Z /\ min_documents st = 1000000000%Z.
Proof. exists (Bundle []). eexists. split; [reflexivity|]. split; [reflexivity|]. split; [vm_compute; reflexivity|reflexivity]. Qed.

Definition plain_doc : example_fpl := ExampleFpl [] [].

(** A document's feature is one number. *)

Definition feature_is (key : string) (f : example_fpl) (x : Qc) : Prop := dget String.eqb (ef_features f) key = Some [x].

(** The weight of a query: 1 without a key or without documents, else what all its documents have. *)

Definition weight_is (weight_key : string) (q : query_fpl) (w : Qc) : Prop :=
  (weight_key = "" /\ w = 1%Qc) \/ (weight_key <> "" /\ q = [] /\ w = 1%Qc) \/
  (weight_key <> "" /\ q <> [] /\ forall f, In f q -> feature_is weight_key f w).

(** The NDCG@k of gains in the order of their list *)

Definition listed_ndcg (k : nat) (gains : list Qc) (v : R) : Prop :=
  exists best, best_dcg k gains best /\ ((0 < best)%R -> v = (DCG k gains / best)%R) /\ ((best <= 0)%R -> v = 0%R).

Lemma feature_get key f x : feature_is key f x -> get_feature_value f key = Ok x.
Proof. unfold feature_is, get_feature_value. intros ->. reflexivity. Qed.

Lemma weight_get wk q w : weight_is wk q w -> query_weight wk q = Ok w.
Proof.
  unfold query_weight. intros [[-> ->]|[(N & -> & ->)|(N & NE & H)]]; [reflexivity| |].
  - apply String.eqb_neq in N. rewrite N. reflexivity.
  - apply String.eqb_neq in N. rewrite N. rewrite (mapM_ok _ (fun _ => w)) by (intros f I; apply feature_get, H, I). cbn [bind].
    destruct q as [|f q]; [congruence|]. cbn [map].
    assert (M : fold_left Qcmin (map (fun _ : example_fpl => w) q) w = w /\ fold_left Qcmax (map (fun _ : example_fpl => w) q) w = w).
    { clear. induction q as [|g q IH]; cbn [map fold_left]; [split; reflexivity|]. unfold Qcmin, Qcmax. replace (Qc_leb w w) with true by (symmetry; apply Qc_leb_le, Qcle_refl). exact IH. }
    destruct M as [-> ->]. replace (Qc_eqb w w) with true by (symmetry; apply Qc_eqb_eq; reflexivity). reflexivity.
Qed.

Lemma min_max_same ws : forall w, fold_left Qcmin ws w = fold_left Qcmax ws w -> forall x, In x ws -> x = w.
Proof.
  assert (MN : forall ws w, (fold_left Qcmin ws w <= w)%Qc /\ forall x, In x ws -> (fold_left Qcmin ws w <= x)%Qc).
  { clear. induction ws as [|y ws IH]; intros w; cbn [fold_left]; [split; [apply Qcle_refl|intros x []]|].
    destruct (IH (Qcmin w y)) as [A B].
    assert (L : (Qcmin w y <= w)%Qc /\ (Qcmin w y <= y)%Qc).
    { unfold Qcmin. destruct (Qc_leb w y) eqn:E; [apply Qc_leb_le in E; split; [apply Qcle_refl|exact E]|apply Qc_leb_gt in E; split; [apply Qclt_le_weak, E|apply Qcle_refl]]. }
    split; [exact (Qcle_trans _ _ _ A (proj1 L))|]. intros x [<-|I]; [exact (Qcle_trans _ _ _ A (proj2 L))|apply B, I]. }
  assert (MX : forall ws w, (w <= fold_left Qcmax ws w)%Qc /\ forall x, In x ws -> (x <= fold_left Qcmax ws w)%Qc).
  { clear. induction ws as [|y ws IH]; intros w; cbn [fold_left]; [split; [apply Qcle_refl|intros x []]|].
    destruct (IH (Qcmax w y)) as [A B].
    assert (L : (w <= Qcmax w y)%Qc /\ (y <= Qcmax w y)%Qc).
    { unfold Qcmax. destruct (Qc_leb w y) eqn:E; [apply Qc_leb_le in E; split; [exact E|apply Qcle_refl]|apply Qc_leb_gt in E; split; [apply Qcle_refl|apply Qclt_le_weak, E]]. }
    split; [exact (Qcle_trans _ _ _ (proj1 L) A)|]. intros x [<-|I]; [exact (Qcle_trans _ _ _ (proj2 L) A)|apply B, I]. }
  intros w E x I. destruct (MN ws w) as [A B], (MX ws w) as [C D]. rewrite E in A, B. pose proof (Qcle_antisym _ _ A C) as K. rewrite K in B, D.
  apply Qcle_antisym; [apply D, I|apply B, I].
Qed.

(** What is read is a weight: otherwise there is an error. *)

Lemma weight_read wk q w : query_weight wk q = Ok w -> weight_is wk q w.
Proof.
  unfold query_weight. destruct (String.eqb wk "") eqn:N; [apply String.eqb_eq in N; intros E; injection E as <-; left; auto|].
  apply String.eqb_neq in N. destruct (mapM _ q) as [ws|] eqn:M; [|discriminate]. cbn [bind]. apply mapM_inv in M.
  destruct M as [|f x q ws F M].
  - intros E. injection E as <-. right. left. auto.
  - destruct (negb _) eqn:Q; [discriminate|]. intros E. injection E as <-. apply negb_false_iff, Qc_eqb_eq in Q.
    right. right. split; [exact N|]. split; [discriminate|]. pose proof (min_max_same ws x Q) as S.
    assert (G : forall g y, get_feature_value g wk = Ok y -> feature_is wk g y).
    { intros g y. unfold get_feature_value, feature_is. destruct (dget String.eqb (ef_features g) wk) as [[|z [|]]|]; try discriminate. intros K. injection K as ->. reflexivity. }
    intros g [<-|I]; [apply G, F|]. clear F Q. revert S I. induction M as [|f' x' q' ws' F' M' IH]; intros S; [intros []|]. intros [<-|I']; [rewrite <- (S x' (or_introl eq_refl)); apply G, F'|].
    apply IH; [|exact I']. intros y J. apply S. right. exact J.
Qed.

Definition ndcg_value (k : nat) (gains : list Qc) : R := calculate_ndcg (combine (seq 1 (length gains)) gains) k.

Lemma ndcg_value_spec k gains : listed_ndcg k gains (ndcg_value k gains).
Proof.
  exists (DCG k (py_sorted descending_gain gains)). split; [apply sorted_is_best|]. unfold ndcg_value. rewrite calculate_spec.
  destruct (Rlt_dec 0 (DCG k (py_sorted descending_gain gains))); split; intros; auto; Lra.lra.
Qed.

Lemma gains_get gk q gains : Forall2 (feature_is gk) q gains -> mapM (fun f => get_feature_value f gk) q = Ok gains.
Proof. induction 1 as [|f x q gs F H IH]; [reflexivity|]. cbn [mapM]. rewrite (feature_get gk f x F). cbn [bind]. rewrite IH. reflexivity. Qed.

(** What a query is read as: gains of its documents, and its weight *)

Definition query_reads (gain_key weight_key : string) (q : query_fpl) (r : list Qc * Qc) : Prop :=
  Forall2 (feature_is gain_key) q (fst r) /\ weight_is weight_key q (snd r).

Definition at_sums (ats : list nat) (l : list (list Qc * Qc)) : at_state :=
  (map (fun k => fold_right Rplus 0%R (map (fun r : list Qc * Qc => ndcg_value k (fst r) * Q2R (snd r))%R l)) ats, qsum (map snd l)).

Lemma legacy_run ats gk wk s (r : query_fpl -> list Qc * Qc) :
  (forall q, In q (inputs s) -> query_reads gk wk q (r q)) ->
  run (legacy_ndcg ats gk wk) s = Ok (at_sums ats (map r (inputs s))).
Proof.
  intros H. unfold legacy_ndcg.
  apply (res_fun_run _ _ _ _ (fun q => query_reads gk wk q (r q)) (fun l => at_sums ats (map r l))).
  - unfold at_sums. cbn [map qsum fold_right]. f_equal. clear. induction ats; cbn [map length repeat]; [reflexivity|]. f_equal. exact IHats.
  - intros l q _ [G W]. unfold at_add_input. rewrite (weight_get _ _ _ W). cbn [bind].
    rewrite (mapM_ok _ (fun k => ndcg_value k (fst (r q)) * Q2R (snd (r q)))%R).
    + cbn [bind]. unfold at_add, at_sums. cbn [fst snd]. rewrite map_combine_map. f_equal. f_equal.
      * apply map_ext. intros k. rewrite !map_app, rsum_app_R. cbn [map fold_right]. Lra.lra.
      * rewrite !map_app, qsum_app. cbn [map qsum fold_right]. ring.
    + intros k _. rewrite (gains_get _ _ _ G). reflexivity.
  - intros l1 l2 _ _. unfold at_add, at_sums. cbn [fst snd]. rewrite map_combine_map. f_equal.
    + apply map_ext. intros k. rewrite !map_app, rsum_app_R. reflexivity.
    + rewrite !map_app, qsum_app. reflexivity.
  - apply Forall_forall. exact H.
Qed.

Lemma set_all_get {V} (f : nat -> V) l : forall d k, dget Nat.eqb (fold_left (fun d kv => dset Nat.eqb d (fst kv) (snd kv)) (combine l (map f l)) d) k =
  if existsb (Nat.eqb k) l then Some (f k) else dget Nat.eqb d k.
Proof.
  induction l as [|x l IH]; intros d k; cbn [map combine fold_left existsb fst snd]; [reflexivity|]. rewrite IH.
  destruct (existsb (Nat.eqb k) l) eqn:E; [rewrite orb_true_r; reflexivity|]. rewrite orb_false_r. destruct (Nat.eqb k x) eqn:K.
  - apply Nat.eqb_eq in K. subst x. rewrite (dget_dset_eq _ Nat.eqb_eq). reflexivity.
  - apply Nat.eqb_neq in K. rewrite (dget_dset_neq _ Nat.eqb_eq) by congruence. reflexivity.
Qed.

Lemma C230_mean_by_weight_pf :
  exists v : nat -> list Qc -> R,
    (forall k gains, listed_ndcg k gains (v k gains)) /\
    forall ats gain_key weight_key s (r : query_fpl -> list Qc * Qc),
      (forall q, In q (inputs s) -> query_reads gain_key weight_key q (r q)) ->
      exists d, outcome (legacy_ndcg ats gain_key weight_key) s = Ok d /\
        let W := qsum (map (fun q => snd (r q)) (inputs s)) in
        forall k, (~ In k ats -> dget Nat.eqb d k = None) /\
          (In k ats -> dget Nat.eqb d k = Some (if Qc_ltb 0%Qc W
             then fold_right Rplus 0 (map (fun q => v k (fst (r q)) * Q2R (snd (r q))) (inputs s)) / Q2R W else 0)%R).
Proof.
  exists ndcg_value. split; [apply ndcg_value_spec|]. intros ats gk wk s r H. unfold outcome. rewrite (legacy_run ats gk wk s r H).
  eexists. split; [reflexivity|]. cbv zeta. intros k. unfold at_extract, at_sums. cbn [fst snd]. rewrite map_map, set_all_get. cbn [dget]. rewrite !map_map.
  split; intros I.
  - destruct (existsb (Nat.eqb k) ats) eqn:E; [|reflexivity]. apply existsb_exists in E. destruct E as (x & J & E). apply Nat.eqb_eq in E. subst x. tauto.
  - replace (existsb (Nat.eqb k) ats) with true; [reflexivity|]. symmetry. apply existsb_exists. exists k. split; [exact I|apply Nat.eqb_refl].
Qed.

Lemma listed_range k gains v : listed_ndcg k gains v -> (forall g, In g gains -> (0 <= g)%Qc) -> (0 <= v <= 1)%R.
Proof.
  intros (b & BEST & V1 & V0) G. destruct (Rlt_dec 0 b) as [L|L].
  - rewrite (V1 L). destruct BEST as (_ & BEST). specialize (BEST gains (Permutation_refl _)).
    assert (N : (0 <= DCG k gains)%R) by (rewrite DCG_wsum; apply wsum_nonneg; [apply weight_nonneg|exact G]).
    split.
    + apply Rmult_le_pos; auto. left. apply Rinv_0_lt_compat, L.
    + apply (Rmult_le_reg_r b); auto. unfold Rdiv. rewrite Rmult_assoc, Rinv_l by Lra.lra. Lra.lra.
  - rewrite V0 by Lra.lra. Lra.lra.
Qed.

Lemma weighted_range (v : list Qc -> R) (l : list (list Qc * Qc)) :
  (forall r, In r l -> (0 <= v (fst r) <= 1)%R /\ (0 <= snd r)%Qc) ->
  (0 <= fold_right Rplus 0 (map (fun r : list Qc * Qc => v (fst r) * Q2R (snd r)) l) <= Q2R (qsum (map snd l)))%R.
Proof.
  induction l as [|x l IH]; intros H; cbn [map fold_right qsum]; [rewrite Q2R_0_c; Lra.lra|].
  change (fold_right Qcplus 0%Qc (map snd l)) with (qsum (map snd l)).
  destruct (H x (or_introl eq_refl)) as [A B]. apply Q2R_nonneg in B. specialize (IH (fun r I => H r (or_intror I))).
  rewrite Q2R_plus_c. split; Lra.nra.
Qed.

Lemma C230_range_pf :
  forall ats gain_key weight_key s (r : query_fpl -> list Qc * Qc) d,
    (forall q, In q (inputs s) -> query_reads gain_key weight_key q (r q) /\ (0 <= snd (r q))%Qc /\ forall g, In g (fst (r q)) -> (0 <= g)%Qc) ->
    outcome (legacy_ndcg ats gain_key weight_key) s = Ok d ->
    forall k x, In (k, x) d -> In k ats /\ (0 <= x <= 1)%R.
Proof.
  intros ats gk wk s r d H E k x I. unfold outcome in E. rewrite (legacy_run ats gk wk s r) in E by (intros q J; apply H, J).
  cbn [legacy_ndcg res_combiner c_extract bind] in E. injection E as <-.
  assert (D : forall l d, (forall k y, In (k, y) d -> In k ats /\ (0 <= y <= 1)%R) -> (forall k y, In (k, y) l -> In k ats /\ (0 <= y <= 1)%R) ->
     forall k y, In (k, y) (fold_left (fun d kv => dset Nat.eqb d (fst kv) (snd kv)) l d) -> In k ats /\ (0 <= y <= 1)%R).
  { clear. induction l as [|[a y] l IH]; intros d Hd Hl; cbn [fold_left fst snd]; [exact Hd|]. apply IH; [|intros b z I; apply Hl; right; exact I].
    intros b z I. assert (K : In (b, z) d \/ (b, z) = (a, y)).
    { revert I. clear. induction d as [|[c w] d IH]; cbn [dset]; [intros [E|[]]; right; congruence|].
      destruct (Nat.eqb a c) eqn:E; intros [F|I].
      - apply Nat.eqb_eq in E. subst c. right. congruence.
      - left. right. exact I.
      - left. left. exact F.
      - destruct (IH I) as [J|J]; [left; right; exact J|right; exact J]. }
    destruct K as [K|K]; [apply Hd, K|]. injection K as -> ->. apply Hl. left. reflexivity. }
  unfold at_extract in I. revert k x I. apply D; [intros k y []|]. intros k y I. unfold at_sums in I. cbn [fst snd] in I. rewrite map_map in I.
  assert (G : forall (f : nat -> R) l, In (k, y) (combine l (map f l)) -> In k l /\ y = f k).
  { clear. intros f l. induction l as [|a l IH]; cbn [map combine]; [intros []|]. intros [E|I]; [injection E as <- <-; split; [left|]; reflexivity|]. destruct (IH I). split; [right|]; assumption. }
  apply G in I. destruct I as [I ->]. split; [exact I|]. rewrite !map_map.
  pose proof (weighted_range (ndcg_value k) (map r (inputs s))) as B. rewrite !map_map in B.
  specialize (B ltac:(intros z Z; apply in_map_iff in Z; destruct Z as (q & <- & Z); destruct (H q Z) as (_ & A & C); split; [apply (listed_range k _ _ (ndcg_value_spec k _) C)|exact A])).
  destruct (Qc_ltb 0 (qsum (map (fun x : query_fpl => snd (r x)) (inputs s)))) eqn:L; [|Lra.lra]. apply Qc_ltb_lt in L. apply Q2R_pos in L.
  remember (Q2R (qsum (map (fun x : query_fpl => snd (r x)) (inputs s)))) as W. split.
  - apply Rmult_le_pos; [apply B|]. left. apply Rinv_0_lt_compat, L.
  - apply (Rmult_le_reg_r W); [exact L|]. unfold Rdiv. rewrite Rmult_assoc, Rinv_l by Lra.lra. Lra.lra.
Qed.

Lemma C230_refused_pf :
  forall ats gain_key weight_key s q, In q (inputs s) ->
    ((weight_key <> "" /\ exists f, In f q /\ forall w, ~ feature_is weight_key f w) \/
     (weight_key <> "" /\ exists f g a b, In f q /\ In g q /\ feature_is weight_key f a /\ feature_is weight_key g b /\ a <> b) \/
     (ats <> [] /\ exists f, In f q /\ forall g, ~ feature_is gain_key f g)) ->
    is_ok (outcome (legacy_ndcg ats gain_key weight_key) s) = false.
Proof.
  intros ats gk wk s q I H. unfold legacy_ndcg. apply (res_run_refused _ _ _ _ q s); [|exact I]. intros a. unfold at_add_input.
  destruct (query_weight wk q) as [w|] eqn:W; [|reflexivity]. cbn [bind]. apply weight_read in W.
  destruct H as [(N & f & J & F)|[(N & f & g & x & y & J & K & F & G & NE)|(N & f & J & F)]].
  - exfalso. destruct W as [[W _]|[(_ & -> & _)|(_ & _ & W)]]; [tauto|destruct J|]. apply (F w), W, J.
  - exfalso. destruct W as [[W _]|[(_ & -> & _)|(_ & _ & W)]]; [tauto|destruct J|]. pose proof (W f J) as A. pose proof (W g K) as B. unfold feature_is in *. congruence.
  - destruct ats as [|k ats]; [congruence|]. cbn [mapM].
    destruct (mapM (fun f0 => get_feature_value f0 gk) q) as [gs|] eqn:M; [|reflexivity]. exfalso. apply mapM_inv in M.
    clear - M J F. revert J. induction M as [|g y q gs G M IH]; [intros []|]. intros [<-|J]; [|exact (IH J)].
    unfold get_feature_value in G. destruct (dget String.eqb (ef_features g) gk) as [[|z [|]]|] eqn:D; try discriminate. exact (F z D).
Qed.

Definition gain_doc (g w : Q) : example_fpl := ExampleFpl [("gain", [Q2Qc g]); ("weight", [Q2Qc w])] [].

Lemma C230_best_order_refuted_pf :
  exists s d x, outcome (legacy_ndcg [1] "gain" "") s = Ok d /\ dget Nat.eqb d 1 = Some x /\ (x <> 1)%R /\
    (exists q, In q (inputs s) /\ exists f, In f q /\ exists g, feature_is "gain" f g /\ (0 < g)%Qc) /\
    forall q, In q (inputs s) -> length q = 1.
Proof.
  exists (Bundle [[gain_doc 1 1]; [gain_doc 0 1]]). destruct C230_mean_by_weight_pf as (v & V & M).
  destruct (M [1] "gain" "" (Bundle [[gain_doc 1 1]; [gain_doc 0 1]])
     (fun q => (match q with f :: _ => match ef_features f with (_, g) :: _ => g | _ => [] end | [] => [] end, 1%Qc))) as (d & E & D).
  { intros q [<-|[<-|[]]]; (split; [repeat constructor|left; split; reflexivity]). }
  exists d. cbv zeta in D. destruct (D 1) as [_ D1]. specialize (D1 (or_introl eq_refl)). eexists. split; [exact E|]. split; [exact D1|]. split; [|split].
  - cbn [inputs map fst snd gain_doc ef_features].
    replace (Qc_ltb 0 (qsum [1%Qc; 1%Qc])) with true by reflexivity.
    destruct (V 1 [Q2Qc 0]) as (b & B & V1 & V0). assert (Z : v 1 [Q2Qc 0] = 0%R).
    { apply V0. destruct B as ((l & P & <-) & _). apply Permutation_sym, Permutation_length_1_inv in P. subst l. unfold DCG. cbn [seq map fold_right nth]. rewrite Q2R_0_c. unfold Rdiv. rewrite !Rmult_0_l. Lra.lra. }
    assert (O : (0 <= v 1%nat [Q2Qc 1] <= 1)%R) by (apply (listed_range 1 [Q2Qc 1] _ (V _ _)); intros g [<-|[]]; discriminate).
    cbn [fold_right]. rewrite Z. change (qsum [1%Qc; 1%Qc]) with (1 + (1 + 0))%Qc. rewrite !Q2R_plus_c, !Q2R_0_c.
    replace (Q2R 1%Qc) with 1%R by (symmetry; apply RMicromega.Q2R_1). change (Q2Qc 1) with 1%Qc in O. change (Q2Qc 1) with 1%Qc. intros C. Lra.lra.
  - exists [gain_doc 1 1]. split; [left; reflexivity|]. exists (gain_doc 1 1). split; [left; reflexivity|]. exists (Q2Qc 1). split; reflexivity.
  - intros q [<-|[<-|[]]]; reflexivity.
Qed.

(** The label of a document: 0 if there is none *)

Definition label_is (key : string) (f : example_fpl) (x : Qc) : Prop :=
  dget String.eqb (ef_labels f) key = Some x \/ (dget String.eqb (ef_labels f) key = None /\ x = 0%Qc).

Definition positive_label (key : string) (f : example_fpl) : Prop := exists x, label_is key f x /\ (0 < x)%Qc.

(** The position, from 1, of the first document with a positive label *)

Definition first_position (key : string) (q : query_fpl) (p : option nat) : Prop :=
  match p with
  | Some n => exists before f after, q = before ++ f :: after /\ n = length before + 1 /\ positive_label key f /\ (forall g, In g before -> ~ positive_label key g)
  | None => forall g, In g q -> ~ positive_label key g
  end.

(** The key of the labels, or that of labels that are not a dictionary *)

Definition labels_under (label_key key : string) : Prop := (label_key <> "" /\ key = label_key) \/ (label_key = "" /\ key = "__labels").

Lemma get_label_spec key f : label_is key f (get_label key f).
Proof. unfold label_is, get_label. destruct (dget String.eqb (ef_labels f) key); auto. Qed.

Lemma positive_spec key f : Qc_ltb 0%Qc (get_label key f) = true <-> positive_label key f.
Proof.
  rewrite Qc_ltb_lt. split; [intros H; exists (get_label key f); split; [apply get_label_spec|exact H]|]. intros (x & L & P).
  replace (get_label key f) with x; [exact P|]. unfold get_label. destruct L as [->|[-> ->]]; reflexivity.
Qed.

Lemma first_label_spec key q p : first_position key q p -> forall n, first_label key n q = option_map (fun k => (n + k)%nat) p.
Proof.
  destruct p as [k|]; cbn [first_position option_map].
  - intros (before & f & after & -> & -> & F & B). induction before as [|g before IH]; intros n; cbn [app first_label length].
    + apply positive_spec in F. rewrite F. reflexivity.
    + replace (Qc_ltb 0%Qc (get_label key g)) with false.
      * rewrite IH by (intros h I; apply B; right; exact I). f_equal. lia.
      * symmetry. apply not_true_iff_false. rewrite positive_spec. apply B. left. reflexivity.
  - intros H. induction q as [|g q IH]; intros n; cbn [first_label]; [reflexivity|].
    replace (Qc_ltb 0%Qc (get_label key g)) with false; [apply IH; intros h I; apply H; right; exact I|].
    symmetry. apply not_true_iff_false. rewrite positive_spec. apply H. left. reflexivity.
Qed.

Lemma label_key_spec lk key : labels_under lk key -> min_label_key lk = key.
Proof. unfold min_label_key. intros [[N ->]|[-> ->]]; [apply String.eqb_neq in N; rewrite N|]; reflexivity. Qed.

(** What a query is read as: the position, and the weight *)

Definition position_reads (label_key weight_key : string) (q : query_fpl) (r : option nat * Qc) : Prop :=
  exists key, labels_under label_key key /\ first_position key q (fst r) /\ weight_is weight_key q (snd r).

Definition pos_of (r : option nat * Qc) : Qc := match fst r with Some p => qz (Z.of_nat p) | None => 0%Qc end.

Definition pos_weight (r : option nat * Qc) : Qc := match fst r with Some _ => snd r | None => 0%Qc end.

Lemma position_run lk wk s (r : query_fpl -> option nat * Qc) :
  (forall q, In q (inputs s) -> position_reads lk wk q (r q)) ->
  run (min_label_position lk wk) s = Ok (qsum (map (fun q => pos_of (r q)) (inputs s)), qsum (map (fun q => pos_weight (r q)) (inputs s))).
Proof.
  intros H. unfold min_label_position.
  apply (res_fun_run _ _ _ _ (fun q => position_reads lk wk q (r q)) (fun l => (qsum (map (fun q => pos_of (r q)) l), qsum (map (fun q => pos_weight (r q)) l)))).
  - reflexivity.
  - intros l q _ (key & K & P & W). unfold pos_add_input. rewrite (weight_get _ _ _ W). cbn [bind]. rewrite (label_key_spec _ _ K), (first_label_spec _ _ _ P).
    unfold pos_add. cbn [fst snd]. rewrite !map_app, !qsum_app. cbn [map qsum fold_right]. unfold pos_of, pos_weight.
    destruct (fst (r q)) as [k|]; cbn [option_map fst snd Nat.add]; f_equal; f_equal; ring.
  - intros l1 l2 _ _. unfold pos_add. cbn [fst snd]. rewrite !map_app, !qsum_app. reflexivity.
  - apply Forall_forall. exact H.
Qed.

Lemma C231_positions_over_weights_pf :
  forall label_key weight_key s (r : query_fpl -> option nat * Qc),
    (forall q, In q (inputs s) -> position_reads label_key weight_key q (r q)) ->
    let found := flat_map (fun q => match fst (r q) with Some p => [(qz (Z.of_nat p), snd (r q))] | None => [] end) (inputs s) in
    outcome (min_label_position label_key weight_key) s =
    Ok (if Qc_ltb 0%Qc (qsum (map snd found)) then Some (qsum (map fst found) / qsum (map snd found))%Qc else None).
Proof.
  intros lk wk s r H. cbv zeta. unfold outcome. rewrite (position_run lk wk s r H). cbn [min_label_position res_combiner c_extract bind]. unfold pos_extract. cbn [fst snd]. clear H.
  assert (E : forall l, qsum (map (fun q => pos_of (r q)) l) = qsum (map fst (flat_map (fun q => match fst (r q) with Some p => [(qz (Z.of_nat p), snd (r q))] | None => [] end) l)) /\
    qsum (map (fun q => pos_weight (r q)) l) = qsum (map snd (flat_map (fun q => match fst (r q) with Some p => [(qz (Z.of_nat p), snd (r q))] | None => [] end) l))).
  { induction l as [|q l [IH1 IH2]]; [split; reflexivity|]. cbn [map flat_map]. rewrite !map_app, !qsum_app, <- IH1, <- IH2.
    cbn [map qsum fold_right]. unfold pos_of at 1, pos_weight at 1. destruct (fst (r q)); cbn [map qsum fold_right fst snd]; split; change (fold_right Qcplus 0%Qc) with qsum; ring. }
  destruct (E (inputs s)) as [-> ->]. reflexivity.
Qed.

Lemma C231_mean_position_partial_pf :
  forall label_key key s (p : query_fpl -> option nat),
    labels_under label_key key -> (forall q, In q (inputs s) -> first_position key q (p q)) ->
    let found := flat_map (fun q => match p q with Some n => [qz (Z.of_nat n)] | None => [] end) (inputs s) in
    outcome (min_label_position label_key "") s =
    Ok match found with [] => None | _ => Some (qsum found / qz (Z.of_nat (length found)))%Qc end.
Proof.
  intros lk key s p K H. cbv zeta.
  rewrite (C231_positions_over_weights_pf lk "" s (fun q => (p q, 1%Qc))) by (intros q I; exists key; split; [exact K|]; split; [apply H, I|left; split; reflexivity]).
  cbn [fst snd]. f_equal. clear H.
  assert (E : forall l, map fst (flat_map (fun q => match p q with Some n => [(qz (Z.of_nat n), 1%Qc)] | None => [] end) l) = flat_map (fun q => match p q with Some n => [qz (Z.of_nat n)] | None => [] end) l /\
     qsum (map snd (flat_map (fun q => match p q with Some n => [(qz (Z.of_nat n), 1%Qc)] | None => [] end) l)) = qz (Z.of_nat (length (flat_map (fun q => match p q with Some n => [qz (Z.of_nat n)] | None => [] end) l)))).
  { induction l as [|q l [IH1 IH2]]; [split; reflexivity|]. cbn [flat_map]. rewrite !map_app, qsum_app, app_length, IH1, IH2. destruct (p q); cbn [map fst snd app length qsum fold_right]; split; try reflexivity.
    - rewrite Nat2Z.inj_add, qz_plus. change (qz (Z.of_nat 1)) with 1%Qc. ring.
    - rewrite Nat.add_0_l. ring. }
  destruct (E (inputs s)) as [-> ->]. destruct (flat_map _ (inputs s)) as [|x l]; [reflexivity|].
  replace (Qc_ltb 0%Qc (qz (Z.of_nat (length (x :: l))))) with true; [reflexivity|]. symmetry. apply Qc_ltb_lt. apply (proj1 (qz_lt 0 _)). cbn [length]. apply Nat2Z.inj_lt with (n := 0%nat). apply Nat.lt_0_succ.
Qed.

Definition labelled_doc (l w : Q) : example_fpl := ExampleFpl [("weight", [Q2Qc w])] [("clicked", Q2Qc l)].

Definition two_docs : query_fpl := [labelled_doc 0 4; labelled_doc 1 4].

Lemma C231_mean_by_weight_refuted_pf :
  exists s q p w, inputs s = [q] /\ position_reads "clicked" "weight" q (Some p, w) /\ (1 <= p)%nat /\ (0 < w)%Qc /\
    outcome (min_label_position "clicked" "weight") s = Ok (Some (Q2Qc (1#2))) /\ ((qz (Z.of_nat p) * w) / w <> Q2Qc (1#2))%Qc.
Proof.
  exists (Bundle [two_docs]), two_docs, 2, (Q2Qc 4). split; [reflexivity|]. split; [|split; [lia|split; [reflexivity|split; [qc_ex|intros E; vm_compute in E; discriminate]]]].
  exists "clicked". split; [left; split; [discriminate|reflexivity]|]. split.
  - exists [labelled_doc 0 4], (labelled_doc 1 4), []. split; [reflexivity|]. split; [reflexivity|]. split; [exists (Q2Qc 1); split; [left; reflexivity|reflexivity]|].
    intros g [<-|[]] (x & L & P). destruct L as [L|[L _]]; [injection L as <-; discriminate|discriminate].
  - right. right. split; [discriminate|]. split; [discriminate|]. intros f [<-|[<-|[]]]; reflexivity.
Qed.

Lemma C231_refused_pf :
  forall label_key weight_key s q, In q (inputs s) -> weight_key <> "" ->
    (exists f, In f q /\ forall w, ~ feature_is weight_key f w) \/
    (exists f g a b, In f q /\ In g q /\ feature_is weight_key f a /\ feature_is weight_key g b /\ a <> b) ->
    is_ok (outcome (min_label_position label_key weight_key) s) = false.
Proof.
  intros lk wk s q I N H. unfold min_label_position. apply (res_run_refused _ _ _ _ q s); [|exact I]. intros a. unfold pos_add_input.
  destruct (query_weight wk q) as [w|] eqn:W; [|reflexivity]. exfalso. apply weight_read in W.
  destruct H as [(f & J & F)|(f & g & x & y & J & K & F & G & NE)].
  - destruct W as [[W _]|[(_ & -> & _)|(_ & _ & W)]]; [tauto|destruct J|]. apply (F w), W, J.
  - destruct W as [[W _]|[(_ & -> & _)|(_ & _ & W)]]; [tauto|destruct J|]. pose proof (W f J) as A. pose proof (W g K) as B. unfold feature_is in *. congruence.
Qed.

(** The name of the column of an item: the prefix alone for the item that is named like it (or like
    values that are not a dictionary), otherwise both, where a separator within the name of a feature,
    prediction or label is doubled. *)

Definition named (prefix name col : string) : Prop :=
  ((name = prefix \/ name = ("__" ++ prefix)%string) /\ col = prefix) \/
  (name <> prefix /\ name <> ("__" ++ prefix)%string /\
   ((In prefix ["features"; "predictions"; "labels"] /\ col = (prefix ++ "__" ++ replace "__" "____" name)%string) \/
    (~ In prefix ["features"; "predictions"; "labels"] /\ col = (prefix ++ "__" ++ name)%string))).

(** What a column holds: the values of a sparse tensor, or the first row of an array *)

Definition column_is {X} (v : node X) (c : column X) : Prop :=
  exists f, (v = UnderNode f \/ v = Plain f) /\
    ((exists l, f = Sparse l /\ c = ColumnValues l) \/ (exists r l, f = Rows (r :: l) /\ c = ColumnRow r) \/ (f = Rows [] /\ c = ColumnEmpty)).

Definition not_excluded {V} (excludes : option (list string)) (d : list (string * V)) : list (string * V) :=
  match excludes with
  | None => d
  | Some l => filter (fun nv => if in_dec string_dec (fst nv) l then false else true) d
  end.

(** The columns of a dictionary *)

Definition columns {X} (prefix : string) (excludes : option (list string)) (d : list (string * node X)) (cs : list (string * column X)) : Prop :=
  Forall2 (fun nv nc => named prefix (fst nv) (fst nc) /\ column_is (snd nv) (snd nc)) (not_excluded excludes d) cs.

Lemma named_eq prefix name col : named prefix name col -> column_name prefix name = col.
Proof.
  unfold column_name, named. change KEY_SEPARATOR with "__". intros [[[->| ->] ->]|(A & B & C)].
  - rewrite String.eqb_refl. reflexivity.
  - rewrite String.eqb_refl, orb_true_r. reflexivity.
  - apply String.eqb_neq in A, B. rewrite A, B. cbn [orb]. destruct C as [[I ->]|[N ->]].
    + replace (existsb (String.eqb prefix) ["features"; "predictions"; "labels"]) with true by (symmetry; apply existsb_exists; exists prefix; split; [exact I|apply String.eqb_refl]).
      cbn [negb]. destruct I as [<-|[<-|[<-|[]]]]; reflexivity.
    + replace (existsb (String.eqb prefix) ["features"; "predictions"; "labels"]) with false; [reflexivity|].
      symmetry. apply not_true_iff_false. intros E. apply existsb_exists in E. destruct E as (x & I & E). apply String.eqb_eq in E. subst x. tauto.
Qed.

Lemma column_eq {X} (v : node X) c : column_is v c -> column_of v = Ok c.
Proof. intros (f & [-> | ->] & [(l & -> & ->)|[(r & l & -> & ->)|[-> ->]]]); reflexivity. Qed.

Definition set_columns {X} (cs : list (string * column X)) (e : list (string * extracted X)) : list (string * extracted X) :=
  fold_left (fun e nc => dset String.eqb e (fst nc) (Column (fst nc) (snd nc))) cs e.

Lemma augment_columns {X} prefix excludes (d : list (string * node X)) cs e :
  columns prefix excludes d cs -> augment_extracts d prefix excludes e = Ok (set_columns cs e).
Proof.
  unfold columns, augment_extracts, set_columns. revert cs e. induction d as [|[n v] d IH]; intros cs e H.
  - assert (N : not_excluded excludes (@nil (string * node X)) = []) by (destruct excludes; reflexivity). rewrite N in H. inversion H. reflexivity.
  - cbn [foldM fst snd]. destruct excludes as [l|]; cbn [not_excluded filter fst] in H.
    + destruct (in_dec string_dec n l) as [I|I].
      * replace (existsb (String.eqb n) l) with true by (symmetry; apply existsb_exists; exists n; split; [exact I|apply String.eqb_refl]).
        cbn [bind]. apply IH. exact H.
      * replace (existsb (String.eqb n) l) with false by (symmetry; apply not_true_iff_false; intros E; apply existsb_exists in E; destruct E as (x & J & E); apply String.eqb_eq in E; subst x; tauto).
        inversion H as [|x [k c] xs cs' [N C] T]; subst. cbn [fst snd] in N, C. rewrite (column_eq v c C). cbn [bind]. rewrite (named_eq _ _ _ N). cbn [fold_left fst snd]. apply IH. exact T.
    + inversion H as [|x [k c] xs cs' [N C] T]; subst. cbn [fst snd] in N, C. rewrite (column_eq v c C). cbn [bind]. rewrite (named_eq _ _ _ N). cbn [fold_left fst snd]. apply IH. exact T.
Qed.

Lemma set_columns_other {X} (cs : list (string * column X)) : forall e k, ~ In k (map fst cs) -> dget String.eqb (set_columns cs e) k = dget String.eqb e k.
Proof.
  unfold set_columns. induction cs as [|[n c] cs IH]; intros e k N; cbn [fold_left fst snd]; [reflexivity|]. cbn [map fst] in N. rewrite IH by (intros I; apply N; right; exact I).
  apply (dget_dset_neq _ String.eqb_eq). intros E. apply N. left. congruence.
Qed.

Lemma set_columns_last {X} (before after : list (string * column X)) k c e :
  ~ In k (map fst after) -> dget String.eqb (set_columns (before ++ (k, c) :: after) e) k = Some (Column k c).
Proof.
  intros N. unfold set_columns. rewrite fold_left_app. cbn [fold_left fst snd]. change (fold_left _ after ?x) with (set_columns after x).
  rewrite (set_columns_other after _ k N). apply (dget_dset_eq _ String.eqb_eq).
Qed.

Lemma set_columns_app {X} (a b : list (string * column X)) e : set_columns (a ++ b) e = set_columns b (set_columns a e).
Proof. apply fold_left_app. Qed.

Lemma column_name_fpl {X} prefix excludes (d : list (string * node X)) cs : columns prefix excludes d cs -> prefix <> "fpl" -> ~ In "fpl" (map fst cs).
Proof.
  intros H N I. apply in_map_iff in I. destruct I as ([k c] & E & I). cbn [fst] in E. subst k. unfold columns in H.
  destruct (Forall2_In_r _ _ _ _ H I) as ([n v] & _ & M & _). cbn [fst] in M.
  destruct M as [[_ E]|(_ & _ & [[J E]|[_ E]])]; [congruence| |].
  - destruct J as [<-|[<-|[<-|[]]]]; discriminate.
  - clear - E. assert (L : String.length "fpl" = String.length (prefix ++ "__" ++ n)) by (rewrite <- E; reflexivity).
    destruct prefix as [|a [|b [|c p]]]; cbn [String.append] in E; try discriminate E. injection E as _ _ _ E. destruct p; discriminate E.
Qed.

Lemma C232_columns_pf :
  forall (X : Type) (row : list X -> X) e v excludes dest c1 c2 c3,
    dget String.eqb e "fpl" = Some (Fpl v) ->
    columns "features" excludes (fv_features v) c1 -> columns "predictions" excludes (fv_predictions v) c2 -> columns "labels" excludes (fv_labels v) c3 ->
    exists e', materialize_features row e [] excludes "fpl" dest = Ok e' /\
      (forall k, ~ In k (map fst (c1 ++ c2 ++ c3)) -> dget String.eqb e' k = dget String.eqb e k) /\
      (forall before k c after, c1 ++ c2 ++ c3 = before ++ (k, c) :: after -> ~ In k (map fst after) -> dget String.eqb e' k = Some (Column k c)).
Proof.
  intros X row e v ex dest c1 c2 c3 F C1 C2 C3. exists (set_columns (c1 ++ c2 ++ c3) e).
  split; [|split; [intros k N; apply set_columns_other, N|intros before k c after -> N; apply set_columns_last, N]].
  unfold materialize_features. cbn [foldM bind]. cbn [String.eqb Ascii.eqb Bool.eqb]. rewrite F.
  rewrite (augment_columns _ _ _ _ _ C1). cbn [bind]. rewrite (augment_columns _ _ _ _ _ C2). cbn [bind]. rewrite (augment_columns _ _ _ _ _ C3), !set_columns_app. reflexivity.
Qed.

Lemma C232_additional_columns_pf :
  forall (X : Type) (row : list X -> X) e key d v excludes dest c0 c1 c2 c3,
    key <> "fpl" -> dget String.eqb e key = Some (Data d) -> dget String.eqb e "fpl" = Some (Fpl v) -> columns key excludes d c0 ->
    columns "features" excludes (fv_features v) c1 -> columns "predictions" excludes (fv_predictions v) c2 -> columns "labels" excludes (fv_labels v) c3 ->
    exists e', materialize_features row e [key] excludes "fpl" dest = Ok e' /\
      (forall k, ~ In k (map fst (c0 ++ c1 ++ c2 ++ c3)) -> dget String.eqb e' k = dget String.eqb e k) /\
      (forall before k c after, c0 ++ c1 ++ c2 ++ c3 = before ++ (k, c) :: after -> ~ In k (map fst after) -> dget String.eqb e' k = Some (Column k c)).
Proof.
  intros X row e key d v ex dest c0 c1 c2 c3 NK K F C0 C1 C2 C3. exists (set_columns (c0 ++ c1 ++ c2 ++ c3) e).
  split; [|split; [intros k N; apply set_columns_other, N|intros before k c after -> N; apply set_columns_last, N]].
  unfold materialize_features. cbn [foldM]. rewrite K, (augment_columns _ _ _ _ _ C0). cbn [bind]. cbn [String.eqb Ascii.eqb Bool.eqb].
  rewrite (set_columns_other c0 e "fpl" (column_name_fpl _ _ _ _ C0 NK)), F.
  rewrite (augment_columns _ _ _ _ _ C1). cbn [bind]. rewrite (augment_columns _ _ _ _ _ C2). cbn [bind]. rewrite (augment_columns _ _ _ _ _ C3), !set_columns_app. reflexivity.
Qed.

Lemma C232_every_feature_refuted_pf :
  exists e v (a b : Qc), a <> b /\ dget String.eqb e "fpl" = Some (Fpl v) /\
    dget String.eqb (fv_features v) "features" = Some (UnderNode (Rows [a])) /\ dget String.eqb (fv_features v) "__features" = Some (UnderNode (Rows [b])) /\
    exists e', materialize_features (fun _ => 0%Qc) e [] None "fpl" true = Ok e' /\ forall k n, dget String.eqb e' k <> Some (Column n (ColumnRow a)).
Proof.
  pose (v := FplValue [("features", UnderNode (Rows [1%Qc])); ("__features", UnderNode (Rows [qz 2]))] [] []).
  exists [("fpl", Fpl v)], v, 1%Qc, (qz 2). split; [intros E; discriminate|]. split; [reflexivity|]. split; [reflexivity|]. split; [reflexivity|].
  exists [("fpl", Fpl v); ("features", Column "features" (ColumnRow (qz 2)))]. split; [reflexivity|]. intros k n E. apply (dget_In _ String.eqb_eq) in E.
  destruct E as [E|[E|[]]]; [discriminate|]. injection E as _ _ E. discriminate.
Qed.

Lemma C232_refused_pf :
  forall (X : Type) (row : list X -> X) e v excludes dest n x,
    dget String.eqb e "fpl" = Some (Fpl v) ->
    In (n, x) (not_excluded excludes (fv_features v)) \/ In (n, x) (not_excluded excludes (fv_predictions v)) \/ In (n, x) (not_excluded excludes (fv_labels v)) ->
    (forall c, ~ column_is x c) -> is_ok (materialize_features row e [] excludes "fpl" dest) = false.
Proof.
  intros X row e v ex dest n x F H N.
  assert (A : forall d p e, In (n, x) (not_excluded ex d) -> is_ok (augment_extracts d p ex e) = false).
  { assert (CX : is_ok (column_of x) = false).
    { destruct x as [[l|[|r l]|]|[l|[|r l]|]]; try reflexivity; exfalso.
      - apply (N (ColumnValues l)). exists (Sparse l). split; [auto|]. left. exists l. split; reflexivity.
      - apply (N ColumnEmpty). exists (Rows []). split; [auto|]. right. right. split; reflexivity.
      - apply (N (ColumnRow r)). exists (Rows (r :: l)). split; [auto|]. right. left. exists r, l. split; reflexivity.
      - apply (N (ColumnValues l)). exists (Sparse l). split; [auto|]. left. exists l. split; reflexivity.
      - apply (N ColumnEmpty). exists (Rows []). split; [auto|]. right. right. split; reflexivity.
      - apply (N (ColumnRow r)). exists (Rows (r :: l)). split; [auto|]. right. left. exists r, l. split; reflexivity. }
    unfold augment_extracts. induction d as [|[m y] d IH]; intros p e0 I; [destruct ex; destruct I|]. cbn [foldM fst snd].
    destruct ex as [l|]; cbn [not_excluded filter fst] in I.
    - destruct (in_dec string_dec m l) as [J|J].
      + replace (existsb (String.eqb m) l) with true by (symmetry; apply existsb_exists; exists m; split; [exact J|apply String.eqb_refl]). cbn [bind]. apply IH, I.
      + replace (existsb (String.eqb m) l) with false by (symmetry; apply not_true_iff_false; intros E; apply existsb_exists in E; destruct E as (z & K & E); apply String.eqb_eq in E; subst z; tauto).
        destruct I as [E|I]; [injection E as -> ->; destruct (column_of x); [discriminate|reflexivity]|]. destruct (column_of y); [|reflexivity]. cbn [bind]. apply IH, I.
    - destruct I as [E|I]; [injection E as -> ->; destruct (column_of x); [discriminate|reflexivity]|]. destruct (column_of y); [|reflexivity]. cbn [bind]. apply IH, I. }
  unfold materialize_features. cbn [foldM bind]. cbn [String.eqb Ascii.eqb Bool.eqb]. rewrite F.
  destruct (augment_extracts (fv_features v) "features" ex e) as [e1|] eqn:E1; [|reflexivity]. cbn [bind].
  destruct (augment_extracts (fv_predictions v) "predictions" ex e1) as [e2|] eqn:E2; [|reflexivity]. cbn [bind].
  destruct H as [H|[H|H]].
  - specialize (A _ "features" e H). rewrite E1 in A. discriminate.
  - specialize (A _ "predictions" e1 H). rewrite E2 in A. discriminate.
  - apply A, H.
Qed.

Lemma C232_no_fpl_refused_pf :
  forall (X : Type) (row : list X -> X) e excludes source dest,
    (source = "fpl" /\ forall v, dget String.eqb e "fpl" <> Some (Fpl v)) \/ (source <> "fpl" /\ source <> "input") ->
    is_ok (materialize_features row e [] excludes source dest) = false.
Proof.
  intros X row e ex source dest [[-> N]|[A B]]; unfold materialize_features; cbn [foldM bind].
  - cbn [String.eqb Ascii.eqb Bool.eqb]. destruct (dget String.eqb e "fpl") as [[n c|v|[] p|[|] |[]]|]; try reflexivity. exfalso. apply (N v). reflexivity.
  - apply String.eqb_neq in A, B. rewrite A, B. reflexivity.
Qed.

Definition example_fpl_value : fpl_value nat :=
  FplValue [("age", UnderNode (Rows [7; 8])); ("a__b", UnderNode (Sparse [1; 2])); ("skip", Plain OtherFetched)] [("predictions", Plain (Rows []))] [("__labels", UnderNode (Rows [1]))].

Definition with_kinds {X} (feats : list (string * list X)) : list (string * example_feature X) := map (fun nl => (fst nl, Some (snd nl))) feats.

Definition feature_column (name : string) : string := ("features__" ++ replace "__" "____" name)%string.

Lemma feature_key name : compound_key KEY_SEPARATOR ["features"; name] = feature_column name.
Proof. reflexivity. Qed.

Lemma parse_kinds {X} (row : list X -> X) m (feats : list (string * list X)) : forall values fs e,
  exists values' fs', foldM (parse_step row m) (with_kinds feats) (values, fs, e) =
    Ok (values', fs', if m then set_columns (map (fun nl => (feature_column (fst nl), ColumnValues (snd nl))) feats) e else e) /\
    (forall n, In n (map fst fs) \/ ~ In n (map fst feats) -> dget String.eqb fs' n = dget String.eqb fs n) /\
    (NoDup (map fst feats) -> forall n l, In (n, l) feats -> ~ In n (map fst fs) -> dget String.eqb fs' n = Some (UnderNode (Rows [row l]))).
Proof.
  induction feats as [|[n l] feats IH]; intros values fs e.
  - exists values, fs. cbn [with_kinds map foldM]. split; [destruct m; reflexivity|]. split; [reflexivity|]. intros _ n l [].
  - unfold with_kinds in *. cbn [map foldM fst snd parse_step].
    destruct (m || negb (dmem String.eqb fs n)) eqn:M.
    + cbn [bind]. rewrite feature_key.
      destruct (IH (Some l) (if dmem String.eqb fs n then fs else dset String.eqb fs n (UnderNode (Rows [row l])))
        (if m then dset String.eqb e (feature_column n) (Column (feature_column n) (ColumnValues l)) else e)) as (v' & fs' & E & K & A).
      exists v', fs'. rewrite E. split; [destruct m; reflexivity|]. clear E. destruct (dmem String.eqb fs n) eqn:D.
      * apply (dmem_In _ String.eqb_eq) in D. split.
        { intros k H. apply K. destruct H as [H|H]; [left; exact H|right; intros I; apply H; right; exact I]. }
        { intros ND k x [Q|I] N; [injection Q as -> ->; tauto|]. inversion ND; subst. apply A; assumption. }
      * assert (D' : ~ In n (map fst fs)) by (intros I; apply (dmem_In _ String.eqb_eq) in I; congruence). split.
        { intros k H. destruct (string_dec k n) as [->|NE].
          - destruct H as [H|H]; [tauto|]. exfalso. apply H. left. reflexivity.
          - rewrite K; [apply (dget_dset_neq _ String.eqb_eq); congruence|]. destruct H as [H|H].
            + left. apply (dset_keys_In _ String.eqb_eq). auto.
            + right. intros I. apply H. right. exact I. }
        { intros ND k x [Q|I] N.
          - injection Q as -> ->. rewrite K; [apply (dget_dset_eq _ String.eqb_eq)|]. left. apply (dset_keys_In _ String.eqb_eq). auto.
          - inversion ND; subst. apply A; [assumption|exact I|]. intros J. apply (dset_keys_In _ String.eqb_eq) in J. destruct J as [->|J]; [|tauto].
            match goal with H : ~ In n _ |- _ => apply H end. change n with (fst (n, x)). apply in_map, I. }
    + apply orb_false_iff in M. destruct M as [-> M]. apply negb_false_iff, (dmem_In _ String.eqb_eq) in M. cbn [bind].
      destruct (IH values fs e) as (v' & fs' & E & K & A). exists v', fs'. rewrite E. split; [reflexivity|]. split.
      * intros k H. apply K. destruct H as [H|H]; [left; exact H|right; intros I; apply H; right; exact I].
      * intros ND k x [Q|I] N; [injection Q as -> ->; tauto|]. inversion ND; subst. apply A; assumption.
Qed.

Lemma feature_column_fpl n : feature_column n <> "fpl".
Proof. discriminate. Qed.

Lemma C233_columns_partial_pf :
  forall (X : Type) (row : list X -> X) e feats excludes m,
    dget String.eqb e "input" = Some (Serialized false (Some (with_kinds feats))) ->
    (dget String.eqb e "fpl" = None \/ exists v, dget String.eqb e "fpl" = Some (Fpl v)) ->
    exists e', materialize_features row e [] excludes "input" m = Ok e' /\
      (forall k, k <> "fpl" -> m = false \/ ~ In k (map (fun nl => feature_column (fst nl)) feats) -> dget String.eqb e' k = dget String.eqb e k) /\
      (m = true -> forall before n l after, feats = before ++ (n, l) :: after -> ~ In (feature_column n) (map (fun nl => feature_column (fst nl)) after) ->
         dget String.eqb e' (feature_column n) = Some (Column (feature_column n) (ColumnValues l))).
Proof.
  intros X row e feats ex m I F. unfold materialize_features. cbn [foldM bind]. cbn [String.eqb Ascii.eqb Bool.eqb]. rewrite I. unfold parse_example.
  set (cs := map (fun nl : string * list X => (feature_column (fst nl), ColumnValues (snd nl))) feats).
  assert (NF : ~ In "fpl" (map fst cs)) by (unfold cs; rewrite map_map; cbn [fst]; intros J; apply in_map_iff in J; destruct J as (x & E & _); exact (feature_column_fpl _ E)).
  assert (R : (forall k, k <> "fpl" -> m = false \/ ~ In k (map (fun nl => feature_column (fst nl)) feats) -> dget String.eqb (if m then set_columns cs e else e) k = dget String.eqb e k) /\
     (m = true -> forall before n l after, feats = before ++ (n, l) :: after -> ~ In (feature_column n) (map (fun nl => feature_column (fst nl)) after) ->
         dget String.eqb (if m then set_columns cs e else e) (feature_column n) = Some (Column (feature_column n) (ColumnValues l)))).
  { split.
    - intros k _ H. destruct m; [|reflexivity]. destruct H as [H|H]; [discriminate|]. apply set_columns_other. unfold cs. rewrite map_map. exact H.
    - intros -> before n l after -> N. unfold cs. rewrite map_app. cbn [map fst snd]. apply set_columns_last. rewrite map_map. exact N. }
  destruct R as [R1 R2]. destruct F as [F|(v & F)]; rewrite F; cbn [bind].
  - destruct (parse_kinds row m feats None [] e) as (v' & fs' & -> & _). cbn [bind]. fold cs.
    replace (dget String.eqb (if m then set_columns cs e else e) "fpl") with (@None (extracted X)) by (destruct m; [rewrite (set_columns_other cs e "fpl" NF)|]; symmetry; exact F).
    eexists. split; [reflexivity|]. split; [exact R1|exact R2].
  - destruct (parse_kinds row m feats None (fv_features v) e) as (v' & fs' & -> & _). cbn [bind]. fold cs.
    replace (dget String.eqb (if m then set_columns cs e else e) "fpl") with (Some (Fpl v)) by (destruct m; [rewrite (set_columns_other cs e "fpl" NF)|]; symmetry; exact F).
    eexists. split; [reflexivity|]. split.
    + intros k N H. rewrite (dget_dset_neq _ String.eqb_eq) by congruence. apply R1; assumption.
    + intros M before n l after S N. rewrite (dget_dset_neq _ String.eqb_eq) by (intros E; exact (feature_column_fpl n (eq_sym E)) || exact (feature_column_fpl n E)). exact (R2 M before n l after S N).
Qed.

Lemma C233_added_to_fpl_partial_pf :
  forall (X : Type) (row : list X -> X) e feats v excludes m,
    dget String.eqb e "input" = Some (Serialized false (Some (with_kinds feats))) -> NoDup (map fst feats) ->
    dget String.eqb e "fpl" = Some (Fpl v) ->
    exists e' fs, materialize_features row e [] excludes "input" m = Ok e' /\
      dget String.eqb e' "fpl" = Some (Fpl (FplValue fs (fv_predictions v) (fv_labels v))) /\
      (forall n, In n (map fst (fv_features v)) \/ ~ In n (map fst feats) -> dget String.eqb fs n = dget String.eqb (fv_features v) n) /\
      (forall n l, In (n, l) feats -> ~ In n (map fst (fv_features v)) -> dget String.eqb fs n = Some (UnderNode (Rows [row l]))).
Proof.
  intros X row e feats v ex m I ND F. unfold materialize_features. cbn [foldM bind]. cbn [String.eqb Ascii.eqb Bool.eqb]. rewrite I. unfold parse_example. rewrite F. cbn [bind].
  destruct (parse_kinds row m feats None (fv_features v) e) as (v' & fs' & -> & K & A). cbn [bind].
  set (cs := map (fun nl : string * list X => (feature_column (fst nl), ColumnValues (snd nl))) feats).
  assert (NF : ~ In "fpl" (map fst cs)) by (unfold cs; rewrite map_map; cbn [fst]; intros J; apply in_map_iff in J; destruct J as (x & E & _); exact (feature_column_fpl _ E)).
  replace (dget String.eqb (if m then set_columns cs e else e) "fpl") with (Some (Fpl v)) by (destruct m; [rewrite (set_columns_other cs e "fpl" NF)|]; symmetry; exact F).
  eexists. exists fs'. split; [reflexivity|]. split; [apply (dget_dset_eq _ String.eqb_eq)|]. split; [exact K|]. apply A, ND.
Qed.

Lemma C233_empty_feature_refuted_pf :
  exists (feats : list (string * example_feature nat)) e',
    materialize_features (fun _ => 0) [("input", Serialized false (Some feats))] [] None "input" true = Ok e' /\
    dget String.eqb feats "clicks" = Some None /\ dget String.eqb e' "features__clicks" = Some (Column "features__clicks" (ColumnValues [18; 40])) /\
    materialize_features (fun _ => 0) [("input", Serialized false (Some [("clicks", None)]))] [] None "input" true = Err UnboundLocalError.
Proof. exists [("ages", Some [18; 40]); ("clicks", None)]. eexists. split; [reflexivity|]. split; [reflexivity|]. split; reflexivity. Qed.

Lemma C233_excludes_refuted_pf :
  exists e e', materialize_features (fun _ => 0) e [] (Some ["age"]) "input" true = Ok e' /\
    dget String.eqb e "features__age" = None /\ dget String.eqb e' "features__age" = Some (Column "features__age" (ColumnValues [18])).
Proof. exists [("input", Serialized false (Some [("age", Some [18])]))]. eexists. split; [reflexivity|]. split; reflexivity. Qed.

Lemma C233_other_destination_pf :
  forall (X : Type) (row : list X -> X) e feats excludes,
    dget String.eqb e "input" = Some (Serialized false (Some (with_kinds feats))) -> dget String.eqb e "fpl" = None ->
    materialize_features row e [] excludes "input" false = Ok e.
Proof.
  intros X row e feats ex I F. unfold materialize_features. cbn [foldM bind]. cbn [String.eqb Ascii.eqb Bool.eqb]. rewrite I. unfold parse_example. rewrite F. cbn [bind].
  destruct (parse_kinds row false feats None [] e) as (v' & fs' & -> & _). cbn [bind]. rewrite F. reflexivity.
Qed.

Lemma C233_other_destination_refuted_pf :
  exists (e : list (string * extracted nat)) feats, feats <> [] /\ dget String.eqb e "input" = Some (Serialized false (Some (with_kinds feats))) /\
    materialize_features (fun _ => 0) e [] None "input" false = Ok e.
Proof. exists [("input", Serialized false (Some (with_kinds [("age", [18])])))], [("age", [18])]. split; [discriminate|]. split; reflexivity. Qed.

Lemma C233_no_example_pf :
  forall (X : Type) (row : list X -> X) e excludes m,
    (dget String.eqb e "input" = None \/ (exists p, dget String.eqb e "input" = Some (Serialized true p)) -> is_ok (materialize_features row e [] excludes "input" m) = false) /\
    (dget String.eqb e "input" = Some (Serialized false None) -> dget String.eqb e "fpl" = None -> materialize_features row e [] excludes "input" m = Ok e).
Proof.
  intros X row e ex m. unfold materialize_features. cbn [foldM bind]. cbn [String.eqb Ascii.eqb Bool.eqb]. split.
  - intros [->|(p & ->)]; reflexivity.
  - intros -> F. unfold parse_example. rewrite F. cbn [bind foldM]. rewrite F. reflexivity.
Qed.

(** A new feature: arrays and sparse tensors as they are, another value as an array of one *)

Definition made_node {X} (v : new_value) (f : node X) : Prop :=
  (exists a, v = AsArray a /\ f = UnderNode a) \/ (exists x, v = AsOther x /\ f = UnderNode (Rows [x])).

Lemma update_new {X} (new : list (string * @new_value X)) : forall fs, NoDup (map fst new) -> (forall n, In n (map fst new) -> ~ In n (map fst fs)) ->
  exists fs', update_fpl_features fs new = Ok fs' /\ (forall n, ~ In n (map fst new) -> dget String.eqb fs' n = dget String.eqb fs n) /\
    (forall n v, In (n, v) new -> exists f, made_node v f /\ dget String.eqb fs' n = Some f).
Proof.
  unfold update_fpl_features. induction new as [|[n v] new IH]; intros fs ND H.
  - exists fs. split; [reflexivity|]. split; [reflexivity|]. intros n v [].
  - inversion ND as [|? ? NN ND']; subst. cbn [foldM fst snd].
    replace (dmem String.eqb fs n) with false by (symmetry; apply not_true_iff_false; intros D; apply (dmem_In _ String.eqb_eq) in D; exact (H n (or_introl eq_refl) D)).
    cbn [bind]. destruct (IH (set_feature_value fs n v) ND') as (fs' & E & K & A).
    { intros k I J. unfold set_feature_value in J. apply (dset_keys_In _ String.eqb_eq) in J. destruct J as [->|J]; [exact (NN I)|]. exact (H k (or_intror I) J). }
    exists fs'. split; [exact E|]. split.
    + intros k N. rewrite K by (intros I; apply N; right; exact I). apply (dget_dset_neq _ String.eqb_eq). intros Q. apply N. left. cbn [fst]. congruence.
    + intros k x [Q|I]; [|apply A, I]. injection Q as <- <-. rewrite (K n NN). unfold set_feature_value. rewrite (dget_dset_eq _ String.eqb_eq). eexists. split; [|reflexivity].
      destruct v as [a|x]; [left; exists a|right; exists x]; split; reflexivity.
Qed.

Lemma C234_features_added_pf :
  forall (X : Type) (fn : fpl_value X -> list (string * @new_value X)) e v,
    dget String.eqb e "fpl" = Some (Fpl v) -> NoDup (map fst (fn v)) -> (forall n, In n (map fst (fn v)) -> ~ In n (map fst (fv_features v))) ->
    exists e' fs, extract_meta_feature fn e = Ok e' /\
      dget String.eqb e' "fpl" = Some (Fpl (FplValue fs (fv_predictions v) (fv_labels v))) /\
      (forall k, k <> "fpl" -> dget String.eqb e' k = dget String.eqb e k) /\
      (forall n, ~ In n (map fst (fn v)) -> dget String.eqb fs n = dget String.eqb (fv_features v) n) /\
      (forall n x, In (n, x) (fn v) -> exists f, made_node x f /\ dget String.eqb fs n = Some f).
Proof.
  intros X fn e v F ND N. unfold extract_meta_feature. rewrite F. destruct (update_new (fn v) (fv_features v) ND N) as (fs & -> & K & A). cbn [bind].
  eexists. exists fs. split; [reflexivity|]. split; [apply (dget_dset_eq _ String.eqb_eq)|]. split; [intros k NE; apply (dget_dset_neq _ String.eqb_eq); congruence|]. split; assumption.
Qed.

Lemma C234_refused_pf :
  forall (X : Type) (fn : fpl_value X -> list (string * @new_value X)) e,
    (forall v, dget String.eqb e "fpl" <> Some (Fpl v)) \/ (exists v n, dget String.eqb e "fpl" = Some (Fpl v) /\ In n (map fst (fn v)) /\ In n (map fst (fv_features v))) ->
    is_ok (extract_meta_feature fn e) = false.
Proof.
  intros X fn e [N|(v & n & F & I & J)]; unfold extract_meta_feature.
  - destruct (dget String.eqb e "fpl") as [[?|v|?|?|?]|]; try reflexivity. exfalso. apply (N v). reflexivity.
  - rewrite F.
    assert (G : forall (new : list (string * @new_value X)) fs, In n (map fst new) -> In n (map fst fs) -> is_ok (update_fpl_features fs new) = false).
    { clear. unfold update_fpl_features. induction new as [|[k x] new IH]; intros fs I J; [destruct I|]. cbn [foldM fst snd]. destruct (dmem String.eqb fs k) eqn:D; [reflexivity|]. cbn [bind].
      destruct I as [E|I]; [cbn [fst] in E; subst k; apply (dmem_In _ String.eqb_eq) in J; congruence|]. apply IH; [exact I|]. unfold set_feature_value. apply (dset_keys_In _ String.eqb_eq). auto. }
    specialize (G (fn v) (fv_features v) I J). destruct (update_fpl_features (fv_features v) (fn v)); [discriminate|reflexivity].
Qed.

(** What is found in the features under a key, or under keys by output *)

Definition found_value {X} (key : string) (keys : list (string * string)) (features : list (string * X)) (v : xvalue X) : Prop :=
  (key <> "" /\ ((exists x, dget String.eqb features key = Some x /\ v = XArray x) \/ (dget String.eqb features key = None /\ v = XNone))) \/
  (key = "" /\ exists d, v = XDict d /\
     forall out w, dget String.eqb d out = Some w <-> exists k x, In (out, k) keys /\ dget String.eqb features k = Some x /\ w = XArray x).

Definition spec_key (kind : string) (s : input_spec) : string :=
  if String.eqb kind "labels" then is_label_key s else if String.eqb kind "example_weights" then is_weight_key s else is_prediction_key s.

Definition spec_keys (kind : string) (s : input_spec) : list (string * string) :=
  if String.eqb kind "labels" then is_label_keys s else if String.eqb kind "example_weights" then is_weight_keys s else is_prediction_keys s.

Definition kinds : list string := ["labels"; "example_weights"; "predictions"].

(** The specification says where to find the kind *)

Definition configured (kind : string) (s : input_spec) : Prop := spec_key kind s <> "" \/ spec_keys kind s <> [].

Definition unique_outputs (s : input_spec) : Prop := forall kind, In kind kinds -> NoDup (map fst (spec_keys kind s)).

Lemma found_keys {X} key keys (features : list (string * X)) : NoDup (map fst keys) -> found_value key keys features (keys_and_values key keys features).
Proof.
  intros ND. unfold found_value, keys_and_values. destruct (String.eqb key "") eqn:K.
  - apply String.eqb_eq in K. right. split; [exact K|]. eexists. split; [reflexivity|].
    set (step := fun (d : list (string * xvalue X)) (ok : string * string) => match dget String.eqb features (snd ok) with Some v => dset String.eqb d (fst ok) (XArray v) | None => d end).
    assert (G : forall l d, NoDup (map fst l) -> forall out w, dget String.eqb (fold_left step l d) out = Some w <->
       ((exists k x, In (out, k) l /\ dget String.eqb features k = Some x /\ w = XArray x) \/
        (dget String.eqb d out = Some w /\ forall k, In (out, k) l -> dget String.eqb features k = None))).
    { clear. induction l as [|[o k] l IH]; intros d ND out w; cbn [fold_left].
      - split; [intros E; right; split; [exact E|intros k []]|]. intros [(k & x & [] & _)|[E _]]. exact E.
      - inversion ND as [|? ? N ND']; subst. rewrite (IH _ ND'). unfold step at 1. cbn [fst snd].
        assert (NI : forall k', ~ In (o, k') l) by (intros k' I; apply N; change o with (fst (o, k')); apply in_map, I).
        destruct (dget String.eqb features k) as [x|] eqn:F; (destruct (string_dec o out) as [->|NE]).
        + rewrite (dget_dset_eq _ String.eqb_eq). split.
          * intros [(k' & y & I & _)|[E _]]; [destruct (NI _ I)|]. injection E as <-. left. exists k, x. split; [left; reflexivity|]. split; [exact F|reflexivity].
          * intros [(k' & y & [E|I] & G & ->)|[E H]].
            -- injection E as <-. rewrite F in G. injection G as <-. right. split; [reflexivity|]. intros k' I. destruct (NI _ I).
            -- destruct (NI _ I).
            -- rewrite (H k (or_introl eq_refl)) in F. discriminate.
        + rewrite (dget_dset_neq _ String.eqb_eq) by congruence. split.
          * intros [(k' & y & I & G)|[E H]]; [left; exists k', y; split; [right; exact I|exact G]|]. right. split; [exact E|]. intros k' [Q|I]; [congruence|exact (H _ I)].
          * intros [(k' & y & [Q|I] & G)|[E H]]; [congruence|left; exists k', y; split; [exact I|exact G]|]. right. split; [exact E|]. intros k' I. apply H. right. exact I.
        + split.
          * intros [(k' & y & I & _)|[E _]]; [destruct (NI _ I)|]. right. split; [exact E|]. intros k' [Q|I]; [injection Q as <-; exact F|destruct (NI _ I)].
          * intros [(k' & y & [Q|I] & G & _)|[E _]]; [injection Q as <-; congruence|destruct (NI _ I)|]. right. split; [exact E|]. intros k' I. destruct (NI _ I).
        + split.
          * intros [(k' & y & I & G)|[E H]]; [left; exists k', y; split; [right; exact I|exact G]|]. right. split; [exact E|]. intros k' [Q|I]; [congruence|exact (H _ I)].
          * intros [(k' & y & [Q|I] & G)|[E H]]; [congruence|left; exists k', y; split; [exact I|exact G]|]. right. split; [exact E|]. intros k' I. apply H. right. exact I. }
    intros out w. rewrite (G keys [] ND out w). cbn [dget]. split; [intros [H|[E _]]; [exact H|discriminate]|intros H; left; exact H].
  - apply String.eqb_neq in K. left. split; [exact K|]. destruct (dget String.eqb features key) as [x|]; [left; exists x|right]; split; reflexivity.
Qed.

Lemma add_kind_none {X} several kind name key keys (features : list (string * X)) s : ~ (key <> "" \/ keys <> []) -> add_kind several kind name key keys features s = Ok s.
Proof. intros N. destruct key; [|exfalso; apply N; left; discriminate]. destruct keys; [reflexivity|]. exfalso. apply N. right. discriminate. Qed.

Lemma add_kind_some {X} several kind name key keys (features : list (string * X)) s : key <> "" \/ keys <> [] ->
  add_kind several kind name key keys features s = add_to_extracts several kind name (keys_and_values key keys features) s.
Proof. intros N. destruct key; [|reflexivity]. destruct keys; [|reflexivity]. destruct N; congruence. Qed.

Lemma configured_dec kind s : configured kind s \/ ~ configured kind s.
Proof. unfold configured. destruct (string_dec (spec_key kind s) ""), (spec_keys kind s); [right; intros [A|A]; congruence|left; right; discriminate|left; left; assumption|left; left; assumption]. Qed.

Lemma add_spec_kinds {X} several (features : list (string * X)) st spec : add_spec several features st spec =
  foldM (fun st kind => add_kind several kind (is_name spec) (spec_key kind spec) (spec_keys kind spec) features st) kinds st.
Proof.
  unfold add_spec, kinds. cbn [foldM]. change (spec_key "labels" spec) with (is_label_key spec). change (spec_keys "labels" spec) with (is_label_keys spec).
  destruct (add_kind several "labels" _ _ _ _ _) as [s1|]; [|reflexivity]. cbn [bind]. change (spec_key "example_weights" spec) with (is_weight_key spec). change (spec_keys "example_weights" spec) with (is_weight_keys spec).
  destruct (add_kind several "example_weights" _ _ _ _ _) as [s2|]; [|reflexivity]. cbn [bind]. change (spec_key "predictions" spec) with (is_prediction_key spec). change (spec_keys "predictions" spec) with (is_prediction_keys spec).
  destruct (add_kind several "predictions" _ _ _ _ _); reflexivity.
Qed.

Lemma C235_one_model_pf :
  forall (X : Type) spec (features : list (string * X)) e, unique_outputs spec ->
    exists e', parse_inputs [spec] features e = Ok (e, e') /\
      (forall kind, In kind kinds -> configured kind spec -> exists v, dget String.eqb e' kind = Some v /\ found_value (spec_key kind spec) (spec_keys kind spec) features v) /\
      (forall key, key <> "features" -> (forall kind, In kind kinds -> configured kind spec -> key <> kind) -> dget String.eqb e' key = dget String.eqb e key) /\
      dget String.eqb e' "features" = Some (XDict (map (fun kv => (fst kv, XArray (snd kv))) features)).
Proof.
  intros X spec features e U. unfold parse_inputs. cbn [length Nat.ltb Nat.leb foldM].
  assert (G : forall ks (given : list (string * xvalue X)) e0, NoDup ks -> (forall k, In k ks -> In k kinds) ->
    exists e1, foldM (fun st kind => add_kind false kind (is_name spec) (spec_key kind spec) (spec_keys kind spec) features st) ks (given, e0) = Ok (given, e1) /\
      (forall kind, In kind ks -> configured kind spec -> exists v, dget String.eqb e1 kind = Some v /\ found_value (spec_key kind spec) (spec_keys kind spec) features v) /\
      (forall key, (forall kind, In kind ks -> configured kind spec -> key <> kind) -> dget String.eqb e1 key = dget String.eqb e0 key)).
  { induction ks as [|kind ks IH]; intros given e0 ND S.
    - exists e0. split; [reflexivity|]. split; [intros ? []|reflexivity].
    - inversion ND as [|? ? N ND']; subst. cbn [foldM]. destruct (configured_dec kind spec) as [C|C].
      + rewrite add_kind_some by exact C. cbn [add_to_extracts bind].
        destruct (IH given (dset String.eqb e0 kind (keys_and_values (spec_key kind spec) (spec_keys kind spec) features)) ND' (fun k I => S k (or_intror I))) as (e1 & E & A & B).
        exists e1. split; [exact E|]. split.
        * intros k [<-|I] CK; [|exact (A k I CK)]. rewrite (B kind) by (intros k' I _ ->; exact (N I)). rewrite (dget_dset_eq _ String.eqb_eq). eexists. split; [reflexivity|]. apply found_keys, U, S. left. reflexivity.
        * intros key K. rewrite B by (intros k I; apply K; right; exact I). apply (dget_dset_neq _ String.eqb_eq). intros Q. apply (K kind (or_introl eq_refl) C). congruence.
      + rewrite add_kind_none by exact C. cbn [bind]. destruct (IH given e0 ND' (fun k I => S k (or_intror I))) as (e1 & E & A & B). exists e1. split; [exact E|]. split.
        * intros k [<-|I] CK; [tauto|exact (A k I CK)].
        * intros key K. apply B. intros k I. apply K. right. exact I. }
  destruct (G kinds e e) as (e1 & E & A & B); [repeat constructor; cbn; intuition discriminate|auto|].
  rewrite add_spec_kinds, E. cbn [bind fst snd]. eexists. split; [reflexivity|]. split; [|split].
  - intros kind I C. destruct (A kind I C) as (v & D & F). exists v. split; [|exact F]. rewrite (dget_dset_neq _ String.eqb_eq); [exact D|]. intros Q. subst kind. destruct I as [I|[I|[I|[]]]]; discriminate.
  - intros key N K. rewrite (dget_dset_neq _ String.eqb_eq) by congruence. apply B, K.
  - apply (dget_dset_eq _ String.eqb_eq).
Qed.

(** The dictionary by models that an extract has for a kind *)

Definition by_model {X} (e : list (string * xvalue X)) (kind : string) : list (string * xvalue X) := match dget String.eqb e kind with Some (XDict d) => d | _ => [] end.

Definition model_ready {X} (e : list (string * xvalue X)) : Prop := forall kind, In kind kinds -> dget String.eqb e kind = None \/ exists d, dget String.eqb e kind = Some (XDict d).

Lemma add_kind_several {X} (features : list (string * X)) spec ks : forall given e0,
  NoDup ks -> (forall k, In k ks -> In k kinds) -> model_ready e0 -> (forall k, In k kinds -> dget String.eqb given k = None) ->
  exists e1, foldM (fun st kind => add_kind true kind (is_name spec) (spec_key kind spec) (spec_keys kind spec) features st) ks (given, e0) = Ok (given, e1) /\ model_ready e1 /\
    (forall kind, In kind ks -> configured kind spec -> dget String.eqb e1 kind = Some (XDict (dset String.eqb (by_model e0 kind) (is_name spec) (keys_and_values (spec_key kind spec) (spec_keys kind spec) features)))) /\
    (forall key, (forall kind, In kind ks -> configured kind spec -> key <> kind) -> dget String.eqb e1 key = dget String.eqb e0 key).
Proof.
  induction ks as [|kind ks IH]; intros given e0 ND S R GN.
  - exists e0. split; [reflexivity|]. split; [exact R|]. split; [intros ? []|reflexivity].
  - inversion ND as [|? ? N ND']; subst. cbn [foldM]. destruct (configured_dec kind spec) as [C|C].
    + rewrite add_kind_some by exact C.
      set (v := keys_and_values (spec_key kind spec) (spec_keys kind spec) features).
      assert (E0 : add_to_extracts true kind (is_name spec) v (given, e0) = Ok (given, dset String.eqb e0 kind (XDict (dset String.eqb (by_model e0 kind) (is_name spec) v)))).
      { unfold add_to_extracts, by_model. destruct (R kind (S kind (or_introl eq_refl))) as [Q|(d & Q)]; rewrite Q; [reflexivity|].
        unfold dmem. rewrite (GN kind (S kind (or_introl eq_refl))). reflexivity. }
      rewrite E0. cbn [bind].
      destruct (IH given (dset String.eqb e0 kind (XDict (dset String.eqb (by_model e0 kind) (is_name spec) v))) ND' (fun k I => S k (or_intror I))) as (e1 & E & R1 & A & B); [|exact GN|].
      { intros k I. destruct (string_dec k kind) as [->|NE]; [right; rewrite (dget_dset_eq _ String.eqb_eq); eexists; reflexivity|]. rewrite (dget_dset_neq _ String.eqb_eq) by congruence. apply R, I. }
      exists e1. split; [exact E|]. split; [exact R1|]. split.
      * intros k [<-|I] CK.
        { rewrite (B kind) by (intros k' I _ ->; exact (N I)). apply (dget_dset_eq _ String.eqb_eq). }
        { rewrite (A k I CK). unfold by_model. rewrite (dget_dset_neq _ String.eqb_eq); [reflexivity|]. intros Q. apply N. congruence. }
      * intros key K. rewrite B by (intros k I; apply K; right; exact I). apply (dget_dset_neq _ String.eqb_eq). intros Q. apply (K kind (or_introl eq_refl) C). congruence.
    + rewrite add_kind_none by exact C. cbn [bind]. destruct (IH given e0 ND' (fun k I => S k (or_intror I)) R GN) as (e1 & E & R1 & A & B). exists e1. split; [exact E|]. split; [exact R1|]. split.
      * intros k [<-|I] CK; [tauto|exact (A k I CK)].
      * intros key K. apply B. intros k I. apply K. right. exact I.
Qed.

Lemma add_specs_several {X} (features : list (string * X)) specs : forall given e0,
  NoDup (map is_name specs) -> (forall spec, In spec specs -> unique_outputs spec) -> model_ready e0 -> (forall k, In k kinds -> dget String.eqb given k = None) ->
  exists e1, foldM (add_spec true features) specs (given, e0) = Ok (given, e1) /\
    (forall kind spec, In kind kinds -> In spec specs -> configured kind spec ->
       exists d v, dget String.eqb e1 kind = Some (XDict d) /\ dget String.eqb d (is_name spec) = Some v /\ found_value (spec_key kind spec) (spec_keys kind spec) features v) /\
    (forall kind n w, In kind kinds -> ~ In n (map is_name specs) -> dget String.eqb (by_model e0 kind) n = Some w -> dget String.eqb (by_model e1 kind) n = Some w) /\
    (forall key, (forall kind spec, In kind kinds -> In spec specs -> configured kind spec -> key <> kind) -> dget String.eqb e1 key = dget String.eqb e0 key).
Proof.
  induction specs as [|spec specs IH]; intros given e0 ND U R GN.
  - exists e0. split; [reflexivity|]. split; [intros ? ? ? []|]. split; [auto|reflexivity].
  - cbn [map] in ND. inversion ND as [|? ? N ND']; subst. cbn [foldM]. rewrite add_spec_kinds.
    destruct (add_kind_several features spec kinds given e0) as (e1 & E & R1 & A & B); [repeat constructor; cbn; intuition discriminate|auto|exact R|exact GN|]. rewrite E. cbn [bind].
    destruct (IH given e1 ND' (fun s I => U s (or_intror I)) R1 GN) as (e2 & E2 & A2 & K2 & B2). exists e2. split; [exact E2|]. split; [|split].
    + intros kind s IK [<-|I] C; [|exact (A2 kind s IK I C)].
      pose proof (A kind IK C) as D.
      assert (K : dget String.eqb (by_model e2 kind) (is_name spec) = Some (keys_and_values (spec_key kind spec) (spec_keys kind spec) features)).
      { apply K2; [exact IK|exact N|]. unfold by_model at 1. rewrite D. apply (dget_dset_eq _ String.eqb_eq). }
      unfold by_model in K. destruct (dget String.eqb e2 kind) as [[|x|d]|]; try discriminate K. exists d. eexists. split; [reflexivity|]. split; [exact K|]. apply found_keys, U; [left; reflexivity|exact IK].
    + intros kind n w IK NI W. cbn [map] in NI. apply K2; [exact IK|intros I; apply NI; right; exact I|].
      destruct (configured_dec kind spec) as [C|C].
      * unfold by_model at 1. rewrite (A kind IK C). rewrite (dget_dset_neq _ String.eqb_eq); [exact W|]. intros Q. apply NI. left. exact Q || (left; congruence).
      * unfold by_model in *. rewrite B; [exact W|]. intros k I CK ->. tauto.
    + intros key K. rewrite B2 by (intros k s IK I; apply (K k s IK); right; exact I). apply B. intros k I C. exact (K k spec I (or_introl eq_refl) C).
Qed.

Lemma C235_several_models_partial_pf :
  forall (X : Type) specs (features : list (string * X)) e,
    (2 <= length specs)%nat -> NoDup (map is_name specs) -> (forall spec, In spec specs -> unique_outputs spec) -> (forall kind, In kind kinds -> dget String.eqb e kind = None) ->
    exists e', parse_inputs specs features e = Ok (e, e') /\
      (forall kind spec, In kind kinds -> In spec specs -> configured kind spec ->
         exists d v, dget String.eqb e' kind = Some (XDict d) /\ dget String.eqb d (is_name spec) = Some v /\ found_value (spec_key kind spec) (spec_keys kind spec) features v) /\
      (forall key, key <> "features" -> (forall kind spec, In kind kinds -> In spec specs -> configured kind spec -> key <> kind) -> dget String.eqb e' key = dget String.eqb e key) /\
      dget String.eqb e' "features" = Some (XDict (map (fun kv => (fst kv, XArray (snd kv))) features)).
Proof.
  intros X specs features e L ND U N. unfold parse_inputs. replace (Nat.ltb 1 (length specs)) with true by (symmetry; apply Nat.ltb_lt; lia).
  destruct (add_specs_several features specs e e ND U) as (e1 & E & A & _ & B); [intros k I; left; apply N, I|exact N|]. rewrite E. cbn [bind fst snd].
  eexists. split; [reflexivity|]. split; [|split].
  - intros kind spec IK I C. destruct (A kind spec IK I C) as (d & v & D & F). exists d, v. split; [|exact F]. rewrite (dget_dset_neq _ String.eqb_eq); [exact D|]. intros Q. subst kind. destruct IK as [IK|[IK|[IK|[]]]]; discriminate.
  - intros key NE K. rewrite (dget_dset_neq _ String.eqb_eq) by congruence. apply B, K.
  - apply (dget_dset_eq _ String.eqb_eq).
Qed.

Definition label_spec (name key : string) : input_spec := InputSpec name key [] "" [] "" [].

Lemma C235_given_changed_refuted_pf :
  exists specs (features : list (string * nat)) e given e', parse_inputs specs features e = Ok (given, e') /\ given <> e.
Proof.
  exists [label_spec "m1" "y"; label_spec "m2" "z"], [("y", 1); ("z", 2)], [("labels", XDict [])]. eexists. eexists. split; [reflexivity|]. discriminate.
Qed.

Lemma C235_merged_refuted_pf :
  exists specs (features : list (string * nat)) e, is_ok (parse_inputs specs features e) = false /\ dget String.eqb e "labels" = Some (XArray 1).
Proof. exists [label_spec "m1" "y"; label_spec "m2" "z"], [("y", 1); ("z", 2)], [("labels", XArray 1)]. split; reflexivity. Qed.

Lemma C235_popped_refuted_pf :
  exists spec (features : list (string * nat)) e', parse_inputs [spec] features [] = Ok ([], e') /\
    is_prediction_key spec = "p" /\ dget String.eqb e' "predictions" = Some (XArray 7) /\
    exists d, dget String.eqb e' "features" = Some (XDict d) /\ dget String.eqb d "p" = Some (XArray 7).
Proof.
  exists (InputSpec "" "" [] "" [] "p" []), [("p", 7); ("age", 3)]. eexists. split; [reflexivity|]. split; [reflexivity|]. split; [reflexivity|]. eexists. split; reflexivity.
Qed.

(** A list of keys is given, with something in it. *)

Definition lists (s : selection) (l : list string) : Prop := s = SelectList l /\ l <> [].

Lemma selected_list l : l <> [] -> selected (SelectList l) = true.
Proof. destruct l; [congruence|reflexivity]. Qed.

Lemma list_filter l k : dget String.eqb (map (fun k => (k, Filt [])) (dedup String.eqb l)) k = if in_dec string_dec k l then Some (Filt []) else None.
Proof.
  destruct (in_dec string_dec k l) as [I|I].
  - apply (dget_In_NoDup _ String.eqb_eq).
    + rewrite map_map. cbn [fst]. rewrite map_id. apply (dedup_NoDup _ String.eqb_eq).
    + apply in_map_iff. exists k. split; [reflexivity|]. apply (dedup_In _ String.eqb_eq), I.
  - apply (dget_None _ String.eqb_eq). rewrite map_map. cbn [fst]. rewrite map_id. intros J. rewrite (dedup_In _ String.eqb_eq) in J. exact (I J).
Qed.

Lemma exclude_list {A} l (d : list (string * data A)) :
  exclude_filter (Filt (map (fun k => (k, Filt [])) (dedup String.eqb l))) (Dict d) = Ok (Dict (filter (fun kv => if in_dec string_dec (fst kv) l then false else true) d)).
Proof.
  cbn [exclude_filter subfilters].
  rewrite (mapM_ok _ (fun kv : string * data A => if in_dec string_dec (fst kv) l then [] else [kv])).
  - cbn [bind]. f_equal. f_equal. induction d as [|kv d IH]; [reflexivity|]. cbn [map concat filter]. rewrite IH. destruct (in_dec string_dec (fst kv) l); reflexivity.
  - intros kv _. rewrite list_filter. destruct (in_dec string_dec (fst kv) l); reflexivity.
Qed.

Lemma C236_excluded_pf :
  forall (A : Type) key l (ds : list (list (string * data A))), l <> [] ->
    evaluate_extracts key NoSelection (SelectList l) (map Dict ds) =
    Ok [(key, map (fun d => Dict (filter (fun kv => if in_dec string_dec (fst kv) l then false else true) d)) ds)].
Proof.
  intros A key l ds N. unfold evaluate_extracts. cbn [selected orb]. destruct l as [|x l]; [congruence|]. unfold filter_extracts. cbn [selected andb bind].
  rewrite mapM_map. rewrite (mapM_ok _ (fun d => Dict (filter (fun kv => if in_dec string_dec (fst kv) (x :: l) then false else true) d))) by (intros d _; apply exclude_list). reflexivity.
Qed.

Lemma C236_default_pf :
  forall (A : Type) key (ds : list (list (string * data A))),
    evaluate_extracts key NoSelection NoSelection (map Dict ds) =
    Ok [(key, map (fun d => Dict (filter (fun kv => if string_dec (fst kv) "input" then false else true) d)) ds)].
Proof.
  intros A key ds. change (evaluate_extracts key NoSelection NoSelection (map Dict ds)) with (evaluate_extracts key NoSelection (SelectList ["input"]) (map (@Dict A) ds)).
  rewrite C236_excluded_pf by discriminate. f_equal. f_equal. f_equal. apply map_ext. intros d. f_equal. apply filter_ext. intros [k v]. cbn [fst].
  destruct (in_dec string_dec k ["input"]) as [[E|[]]|N], (string_dec k "input") as [E'|N']; try reflexivity; [congruence|]. subst k. exfalso. apply N. left. reflexivity.
Qed.

Lemma C236_included_pf :
  forall (A : Type) key l (ds : list (list (string * data A))), l <> [] ->
    exists outs, evaluate_extracts key (SelectList l) NoSelection (map Dict ds) = Ok [(key, map Dict outs)] /\
      Forall2 (fun d o => NoDup (map fst o) /\ forall k, dget String.eqb o k = if in_dec string_dec k l then dget String.eqb d k else None) ds outs.
Proof.
  intros A key l ds N. unfold evaluate_extracts. rewrite (selected_list l N). cbn [orb]. unfold filter_extracts. rewrite (selected_list l N). cbn [selected andb bind].
  set (fs := map (fun k => (k, Filt [])) (dedup String.eqb l)).
  assert (NE : fs <> []).
  { unfold fs. destruct l as [|x l]; [congruence|]. intros E. apply map_eq_nil in E. assert (I : In x (dedup String.eqb (x :: l))) by (apply (dedup_In _ String.eqb_eq); left; reflexivity). rewrite E in I. destruct I. }
  assert (F : forall d : list (string * data A), exists o, include_filter (Filt fs) (Dict d) = Ok (Dict o) /\ NoDup (map fst o) /\ forall k, dget String.eqb o k = if in_dec string_dec k l then dget String.eqb d k else None).
  { intros d. set (step := fun (acc : list (string * data A)) (ks : string * filt) => match dget String.eqb d (fst ks) with None => Ok acc | Some v => let! r := include_filter (snd ks) v in Ok (dset String.eqb acc (fst ks) r) end).
    assert (G : forall ks acc, NoDup (map fst acc) -> exists o, foldM step (map (fun k => (k, Filt [])) ks) acc = Ok o /\ NoDup (map fst o) /\
       forall k, dget String.eqb o k = if in_dec string_dec k ks then match dget String.eqb d k with Some v => Some v | None => dget String.eqb acc k end else dget String.eqb acc k).
    { induction ks as [|x ks IH]; intros acc ND.
      - exists acc. split; [reflexivity|]. split; [exact ND|]. intros k. reflexivity.
      - cbn [map foldM]. unfold step at 1. cbn [fst snd]. destruct (dget String.eqb d x) as [v|] eqn:D.
        + cbn [include_filter bind]. destruct (IH (dset String.eqb acc x v) (dset_NoDup _ String.eqb_eq _ _ _ ND)) as (o & E & NO & K). exists o. split; [exact E|]. split; [exact NO|].
          intros k. rewrite K. destruct (string_dec k x) as [->|NX].
          * rewrite D, (dget_dset_eq _ String.eqb_eq). destruct (in_dec string_dec x ks); (destruct (in_dec string_dec x (x :: ks)) as [_|Q]; [reflexivity|exfalso; apply Q; left; reflexivity]).
          * rewrite (dget_dset_neq _ String.eqb_eq) by congruence. destruct (in_dec string_dec k ks) as [I|I], (in_dec string_dec k (x :: ks)) as [J|J]; try reflexivity; exfalso; [apply J; right; exact I|destruct J; [congruence|tauto]].
        + cbn [bind]. destruct (IH acc ND) as (o & E & NO & K). exists o. split; [exact E|]. split; [exact NO|]. intros k. rewrite K. destruct (string_dec k x) as [->|NX].
          * rewrite D. destruct (in_dec string_dec x ks), (in_dec string_dec x (x :: ks)); reflexivity.
          * destruct (in_dec string_dec k ks) as [I|I], (in_dec string_dec k (x :: ks)) as [J|J]; try reflexivity; exfalso; [apply J; right; exact I|destruct J; [congruence|tauto]]. }
    destruct (G (dedup String.eqb l) [] (NoDup_nil _)) as (o & E & NO & K). exists o. split; [|split; [exact NO|]].
    - fold fs in E. clearbody fs. destruct fs as [|f fs]; [congruence|]. change (include_filter (Filt (f :: fs)) (Dict d)) with (let! l := foldM step (f :: fs) [] in Ok (Dict l)). rewrite E. reflexivity.
    - intros k. rewrite K. cbn [dget]. destruct (in_dec string_dec k (dedup String.eqb l)) as [I|I], (in_dec string_dec k l) as [J|J]; try reflexivity.
      + destruct (dget String.eqb d k); reflexivity.
      + exfalso. rewrite (dedup_In _ String.eqb_eq) in I. exact (J I).
      + exfalso. apply I, (dedup_In _ String.eqb_eq), J. }
  induction ds as [|d ds IH]; [exists []; split; [reflexivity|constructor]|]. destruct IH as (outs & E & H). destruct (F d) as (o & Eo & Ho).
  exists (o :: outs). split; [|constructor; assumption]. cbn [map mapM]. change (as_filter (SelectList l)) with (Filt fs) in *. rewrite Eo. cbn [bind].
  destruct (mapM _ (map Dict ds)) as [ys|]; [|discriminate]. cbn [bind] in *. injection E as E. rewrite E. reflexivity.
Qed.

Lemma C236_both_refused_pf :
  forall (A : Type) key include exclude (es : list (data A)), selected include = true -> selected exclude = true ->
    evaluate_extracts key include exclude es = Err ValueError.
Proof.
  intros A key i x es I X. unfold evaluate_extracts. replace (match i, x with NoSelection, NoSelection => SelectList ["input"] | _, _ => x end) with x by (destruct i; [discriminate|reflexivity|reflexivity]).
  rewrite I. cbn [orb]. unfold filter_extracts. rewrite I, X. reflexivity.
Qed.

Lemma C236_include_nothing_refuted_pf :
  exists (e : list (string * data nat)), dmem String.eqb e "input" = true /\ evaluate_extracts "analysis" (SelectList []) NoSelection [Dict e] = Ok [("analysis", [Dict e])].
Proof. exists [("input", Leaf 1); ("labels", Leaf 2)]. split; reflexivity. Qed.

Lemma update_get {W} (new : list (string * W)) : forall d k, NoDup (map fst new) -> dget String.eqb (dupdate String.eqb d new) k =
  match dget String.eqb new k with Some w => Some w | None => dget String.eqb d k end.
Proof.
  unfold dupdate. induction new as [|[n w] new IH]; intros d k ND; cbn [fold_left dget fst snd]; [reflexivity|]. inversion ND as [|? ? N ND']; subst. rewrite IH by exact ND'.
  destruct (string_dec k n) as [->|NE].
  - rewrite String.eqb_refl. replace (dget String.eqb new n) with (@None W) by (symmetry; apply (dget_None _ String.eqb_eq), N). apply (dget_dset_eq _ String.eqb_eq).
  - replace (String.eqb k n) with false by (symmetry; apply String.eqb_neq, NE). destruct (dget String.eqb new k); [reflexivity|]. apply (dget_dset_neq _ String.eqb_eq). congruence.
Qed.

Lemma C237_validations_pf :
  forall (E V W : Type) (extracts : E) (alternatives : list (string * (E -> V))) (validators : list (list (string * V) -> list (string * W))),
    NoDup (map fst alternatives) -> (forall v d, In v validators -> NoDup (map fst (v d))) ->
    exists evaluations, (forall n f, In (n, f) alternatives -> dget String.eqb evaluations n = Some (f extracts)) /\ map fst evaluations = map fst alternatives /\
      (forall before v after k w, validators = before ++ v :: after -> dget String.eqb (v evaluations) k = Some w ->
         (forall v', In v' after -> dget String.eqb (v' evaluations) k = None) -> dget String.eqb (validate extracts alternatives validators) k = Some w) /\
      (forall k, (forall v, In v validators -> dget String.eqb (v evaluations) k = None) -> dget String.eqb (validate extracts alternatives validators) k = None).
Proof.
  intros E V W x alts vs ND U. unfold validate. set (ev := fold_left (fun d kv => dset String.eqb d (fst kv) (snd kv x)) alts []).
  assert (EV : ev = map (fun kv => (fst kv, snd kv x)) alts).
  { unfold ev. assert (G : forall l (d : list (string * V)), NoDup (map fst l) -> (forall n, In n (map fst l) -> ~ In n (map fst d)) -> fold_left (fun d kv => dset String.eqb d (fst kv) (snd kv x)) l d = d ++ map (fun kv => (fst kv, snd kv x)) l).
    { clear. induction l as [|[n f] l IH]; intros d ND H; cbn [fold_left map fst snd]; [rewrite app_nil_r; reflexivity|]. inversion ND as [|? ? N ND']; subst.
      assert (S : dset String.eqb d n (f x) = d ++ [(n, f x)]).
      { assert (K : ~ In n (map fst d)) by (apply H; left; reflexivity). clear - K. induction d as [|[k y] d IH]; [reflexivity|]. cbn [dset]. cbn [map fst] in K. destruct (String.eqb n k) eqn:Q; [apply String.eqb_eq in Q; subst k; exfalso; apply K; left; reflexivity|]. cbn [app]. f_equal. apply IH. intros I. apply K. right. exact I. }
      rewrite S, IH; [rewrite <- app_assoc; reflexivity|exact ND'|]. intros k I J. rewrite map_app, in_app_iff in J. destruct J as [J|[<-|[]]]; [exact (H k (or_intror I) J)|exact (N I)]. }
    rewrite G; [reflexivity|exact ND|intros n _ []]. }
  exists ev. split; [|split; [|split]].
  - intros n f I. rewrite EV. apply (dget_In_NoDup _ String.eqb_eq); [rewrite map_map; exact ND|]. change (n, f x) with ((fun kv => (fst kv, snd kv x)) (n, f)). apply in_map, I.
  - rewrite EV, map_map. reflexivity.
  - assert (O : forall (l : list (list (string * V) -> list (string * W))) (d : list (string * W)) k, (forall v, In v l -> NoDup (map fst (v ev))) -> (forall v, In v l -> dget String.eqb (v ev) k = None) -> dget String.eqb (fold_left (fun d v => dupdate String.eqb d (v ev)) l d) k = dget String.eqb d k).
    { clear. induction l as [|v l IH]; intros d k N H; cbn [fold_left]; [reflexivity|]. rewrite IH; [|intros v' I; apply N; right; exact I|intros v' I; apply H; right; exact I]. rewrite update_get by (apply N; left; reflexivity). rewrite (H v (or_introl eq_refl)). reflexivity. }
    intros before v after k w -> H L. rewrite fold_left_app. cbn [fold_left]. rewrite O; [|intros v' I; apply U, in_or_app; right; right; exact I|exact L].
    rewrite update_get by (apply U, in_or_app; right; left; reflexivity). rewrite H. reflexivity.
  - intros k H. assert (O : forall (l : list (list (string * V) -> list (string * W))) (d : list (string * W)), (forall v, In v l -> In v vs) -> dget String.eqb d k = None -> dget String.eqb (fold_left (fun d v => dupdate String.eqb d (v ev)) l d) k = None).
    { induction l as [|v l IH]; intros d S D; cbn [fold_left]; [exact D|]. apply IH; [intros v' I; apply S; right; exact I|]. rewrite update_get by (apply U, S; left; reflexivity). rewrite (H v) by (apply S; left; reflexivity). exact D. }
    apply O; [auto|reflexivity].
Qed.

(** An estimate of values: their sizes, divided by the references to them beyond three, without
    fractions; in any order, and in any number of merged estimators. *)

Definition share (size references n : Z) : Prop := (1 <= references)%Z /\ (0 <= size)%Z /\ exists d, (d = Z.max 1 (references - 3))%Z /\ (d * n <= size < d * (n + 1))%Z.

Lemma C237_estimates_pf :
  forall threshold values (shares : list Z),
    Forall2 (fun v n => share (fst v) (snd v) n) values shares ->
    let s := fold_left (fun s v => estimator_update s (fst v) (snd v)) values (SizeEstimator threshold 0) in
    se_current s = fold_right Z.add 0%Z shares /\ (should_flush s = true <-> (threshold <= fold_right Z.add 0 shares)%Z) /\
    (forall o, se_current (estimator_add s o) = (se_current s + se_current o)%Z /\ se_threshold (estimator_add s o) = threshold) /\
    se_current (estimator_clear s) = 0%Z /\ se_threshold (estimator_clear s) = threshold.
Proof.
  intros t vs ns H. cbv zeta.
  assert (G : forall c, fold_left (fun s v => estimator_update s (fst v) (snd v)) vs (SizeEstimator t c) = SizeEstimator t (c + fold_right Z.add 0 ns)%Z).
  { induction H as [|[size refs] n vs ns (R & P & d & -> & L) H IH]; intros c; cbn [fold_left fold_right fst snd] in *; [f_equal; lia|].
    unfold estimator_update at 2. cbn [se_threshold se_current]. rewrite IH. f_equal. unfold amortized_size.
    assert (Q : Z.quot size (Z.max 1 (refs - 3)) = n) by (rewrite Z.quot_div_nonneg by lia; symmetry; apply (Z.div_unique_pos size (Z.max 1 (refs - 3)) n (size - Z.max 1 (refs - 3) * n)); lia). rewrite Q. lia. }
  rewrite G. cbn [se_current se_threshold estimator_add estimator_clear]. rewrite Z.add_0_l. split; [reflexivity|]. split; [unfold should_flush; cbn [se_threshold se_current]; apply Z.leb_le|]. split; [intros o; split; reflexivity|split; reflexivity].
Qed.

Lemma C237_never_flushed_refuted_pf :
  exists size references threshold, (0 < size)%Z /\ (0 < threshold)%Z /\
    forall n, should_flush (fold_left (fun s v => estimator_update s (fst v) (snd v)) (repeat (size, references) n) (SizeEstimator threshold 0)) = false.
Proof.
  exists 100%Z, 104%Z, 1%Z. split; [lia|]. split; [lia|]. intros n.
  assert (G : fold_left (fun s v => estimator_update s (fst v) (snd v)) (repeat (100, 104)%Z n) (SizeEstimator 1 0) = SizeEstimator 1 0) by (induction n as [|n IH]; [reflexivity|exact IH]).
  rewrite G. reflexivity.
Qed.

Definition counted_as (c : counters) (name : string) : Z := match dget String.eqb c name with Some n => n | None => 0%Z end.

Definition occurrences (name : string) (l : list string) : Z := Z.of_nat (count_occ string_dec l name).

Lemma increments l : forall c name, counted_as (fold_left increment l c) name = (counted_as c name + occurrences name l)%Z.
Proof.
  unfold occurrences. induction l as [|x l IH]; intros c name; cbn [fold_left count_occ]; [lia|]. rewrite IH. unfold increment, counted_as at 1.
  destruct (string_dec x name) as [->|N].
  - rewrite (dget_dset_eq _ String.eqb_eq). unfold counted_as. destruct (dget String.eqb c name); lia.
  - rewrite (dget_dset_neq _ String.eqb_eq) by congruence. unfold counted_as. destruct (dget String.eqb c name); lia.
Qed.

Lemma C238_metrics_counted_pf :
  forall specs types c name,
    counted_as (metrics_specs_counters specs types c) name =
    (counted_as c name + occurrences name (flat_map (fun t => map (fun m => "metric_computed_" ++ m ++ "_v2_" ++ t)%string (concat specs)) types))%Z.
Proof.
  intros specs types c name. rewrite <- increments. f_equal. unfold metrics_specs_counters. revert c. induction types as [|t types IH]; intros c; cbn [fold_left flat_map]; [reflexivity|].
  rewrite fold_left_app, IH. f_equal. clear IH. revert c. induction specs as [|s specs IH]; intros c; cbn [fold_left concat map]; [reflexivity|]. rewrite map_app, fold_left_app, IH. f_equal.
  revert c. clear IH. induction s as [|m s IH]; intros c; cbn [fold_left map]; [reflexivity|]. rewrite IH. reflexivity.
Qed.

Lemma C238_callbacks_counted_pf :
  forall callbacks t c name,
    counted_as (callbacks_counters callbacks t c) name =
    (counted_as c name + occurrences name (flat_map (fun n => match n with Some n => [("metric_computed_" ++ n ++ "_v1_" ++ t)%string] | None => [] end) callbacks))%Z.
Proof.
  intros cs t c name. rewrite <- increments. f_equal. unfold callbacks_counters. revert c. induction cs as [|[n|] cs IH]; intros c; cbn [fold_left flat_map app]; [reflexivity| |]; rewrite IH; reflexivity.
Qed.

Lemma C238_slices_counted_pf :
  forall slices c name,
    counted_as (slice_counters slices c) name = (counted_as c name + occurrences name (map (fun kv => "slice_computed_" ++ fst kv ++ "_" ++ snd kv)%string (concat slices)))%Z.
Proof.
  intros slices c name. rewrite <- increments. f_equal. unfold slice_counters. revert c. induction slices as [|s slices IH]; intros c; cbn [fold_left concat map]; [reflexivity|].
  rewrite map_app, fold_left_app, IH. f_equal. clear IH. revert c. induction s as [|kv s IH]; intros c; cbn [fold_left map]; [reflexivity|]. rewrite IH. reflexivity.
Qed.

Lemma C238_separate_counters_refuted_pf :
  exists a b, a <> b /\ forall name n, counted_as (slice_counters [[a]; [b]] []) name = n -> n <> 0%Z -> n = 2%Z.
Proof.
  exists ("age", "1_2"), ("age_1", "2"). split; [discriminate|]. intros name n. rewrite C238_slices_counted_pf. cbn [concat map app fst snd String.append]. unfold counted_as, occurrences. cbn [dget count_occ].
  destruct (string_dec "slice_computed_age_1_2" name); intros <- N; [reflexivity|]. exfalso. apply N. reflexivity.
Qed.
