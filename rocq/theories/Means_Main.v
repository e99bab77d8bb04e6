(* Proofs of the theorems restated in Means_Properties.v. *)
From Coq Require Import String Ascii.
From Verif Require Import Base BaseFacts Beam BeamFacts Util_Model Util_Main Inputs_Model Inputs_Main Sums_Model Sums_Main Histogram_Model Histogram_Main Confusion_Model Means_Model.
Local Open Scope string_scope.
Local Open Scope list_scope.

(* C17, C18, C68 - C75: metrics that average over the examples. *)

(** What a schedule makes of its inputs when every merge counts its first
    accumulator twice. *)

Fixpoint expand {I} (s : sched I) : list I :=
  match s with
  | Bundle xs => xs
  | Merge t ts => expand t ++ expand t ++ flat_map expand ts
  | Then t xs => expand t ++ xs
  end.

Fixpoint merge_free {I} (s : sched I) : Prop :=
  match s with Bundle _ => True | Merge _ _ => False | Then t _ => merge_free t end.

Lemma expand_In {I} (s : sched I) x : In x (expand s) <-> In x (inputs s).
Proof.
  induction s as [xs|t ts IHt IHs|t xs IHt] using sched_ind'; simpl.
  - reflexivity.
  - rewrite !in_app_iff, IHt.
    assert (E : In x (flat_map expand ts) <-> In x (flat_map inputs ts)).
    { clear -IHs. induction IHs as [|u us H HS IH]; simpl; [reflexivity|]. rewrite !in_app_iff, H, IH. reflexivity. }
    rewrite E. tauto.
  - rewrite !in_app_iff, IHt. reflexivity.
Qed.

Lemma expand_merge_free {I} (s : sched I) : merge_free s -> expand s = inputs s.
Proof. induction s using sched_ind'; simpl; intro M; auto; [tauto|]. rewrite IHs; auto. Qed.

Section Again.
  Context {I A O : Type} (create : A) (add : A -> I -> res A) (plus : A -> A -> A)
          (extract : A -> res O) (g : I -> A).
  Hypothesis plus_assoc : forall a b d, plus a (plus b d) = plus (plus a b) d.
  Hypothesis plus_comm : forall a b, plus a b = plus b a.
  Hypothesis plus_e : forall a, plus a create = a.

  Let adds_ (s : list I) : Prop := forall a x, In x s -> add a x = Ok (plus a (g x)).

  Lemma again_fold xs l : adds_ xs ->
    fold_left (fun acc x => let! a := acc in add a x) xs (Ok (rsum create plus (map g l))) =
    Ok (rsum create plus (map g (l ++ xs))).
  Proof.
    revert l. induction xs as [|x xs IH]; intros l H; cbn [fold_left].
    - rewrite app_nil_r. reflexivity.
    - cbn [bind]. rewrite H by (left; auto).
      replace (plus (rsum create plus (map g l)) (g x)) with (rsum create plus (map g (l ++ [x]))).
      + rewrite IH by (intros a y Hy; apply H; right; auto). rewrite <- app_assoc. reflexivity.
      + rewrite map_app, (rsum_app create plus plus_assoc plus_comm plus_e). cbn [map rsum fold_right]. rewrite plus_e. reflexivity.
  Qed.

  Theorem again_run s : (forall a x, In x (inputs s) -> add a x = Ok (plus a (g x))) ->
    run (again_combiner create add plus extract) s = Ok (rsum create plus (map g (expand s))).
  Proof.
    induction s as [xs|t ts IHt IHs|t xs IHt] using sched_ind'; intro H.
    - cbn [run again_combiner c_add c_create expand]. apply (again_fold xs []). exact H.
    - cbn [run again_combiner c_merge merge_again expand].
      rewrite IHt by (intros; apply H; simpl; rewrite in_app_iff; auto).
      cbn [fold_left bind].
      assert (G : forall us l, Forall (fun u => run (again_combiner create add plus extract) u = Ok (rsum create plus (map g (expand u)))) us ->
        fold_left (fun acc b => let! x := acc in let! y := b in Ok (plus x y))
          (map (run (again_combiner create add plus extract)) us) (Ok (rsum create plus (map g l))) =
        Ok (rsum create plus (map g (l ++ flat_map expand us)))).
      { induction us as [|u us IH]; intros l F; cbn [map fold_left flat_map].
        - rewrite app_nil_r. reflexivity.
        - inversion F as [|? ? F1 F2]; subst. rewrite F1. cbn [bind].
          rewrite <- (rsum_app create plus plus_assoc plus_comm plus_e), <- map_app, IH by auto.
          rewrite <- app_assoc. reflexivity. }
      rewrite <- (rsum_app create plus plus_assoc plus_comm plus_e), <- map_app.
      rewrite G; [rewrite <- app_assoc; reflexivity|].
      assert (H' : forall a x, In x (flat_map inputs ts) -> add a x = Ok (plus a (g x)))
        by (intros; apply H; simpl; rewrite in_app_iff; auto).
      clear -IHs H'. induction IHs as [|u us P HS IH]; constructor.
      + apply P. intros. apply H'. simpl. rewrite in_app_iff. auto.
      + apply IH. intros. apply H'. simpl. rewrite in_app_iff. auto.
    - cbn [run expand again_combiner c_add]. cbn [again_combiner] in IHt. rewrite IHt by (intros; apply H; simpl; rewrite in_app_iff; auto).
      apply again_fold. intros a x Hx. apply H. simpl. rewrite in_app_iff. auto.
  Qed.

End Again.

Definition labels_fit (e : inputs_dict) (n : nat) : Prop :=
  match i_label e with
  | None => True
  | Some (Leaf l) => length l = n
  | Some (Dict _) => False
  end.

Definition label_of (e : inputs_dict) : option (list Qc) :=
  match i_label e with Some (Leaf l) => Some l | _ => None end.

Lemma first_flat ap o lk pk m out e p ps w :
  o_sub_key o = None -> o_class_weights o = None -> o_fractional o = false -> o_flatten o = true ->
  o_single_weight o = false -> (o_allow_none o = false -> i_label e <> None) ->
  labels_fit e (S (length ps)) -> carries_scores m out e (p :: ps) -> carries_weight (o_example_weighted o) e [w] ->
  exists ys l, to_label_prediction_example_weight ap o lk pk m out e = Ok ys /\ first_tuple ys = Ok (l, [p], [w]).
Proof.
  intros SK CW FR FL SW AN LF CS WE.
  rewrite (prepared_opt ap o lk pk m out e (label_of e) (p :: ps) [w]); auto.
  2:{ unfold label_of, labels_fit in *. destruct (i_label e) as [[|]|]; auto. }
  assert (AN' : negb (o_allow_none o) && (match label_of e with None => true | _ => false end || false) = false).
  { destruct (o_allow_none o); auto. unfold label_of, labels_fit in *. destruct (i_label e) as [[|]|]; try reflexivity; exfalso; auto; apply AN; auto. }
  unfold yield_tuples. rewrite AN', SK, CW, FR, FL, SW. cbn [andb bind length].
  unfold labels_fit, label_of in *. destruct (i_label e) as [[l|]|]; [|tauto|].
  - cbn [bind]. unfold yield_results. cbn [negb orb].
    rewrite repeat_length. destruct l as [|l0 l]; [discriminate|]. injection LF as LF.
    cbn [length Nat.eqb andb]. rewrite LF, Nat.eqb_refl. cbn [andb].
    destruct (length ps =? 0)%nat eqn:Z.
    + apply Nat.eqb_eq in Z. destruct ps; [|discriminate]. destruct l; [|discriminate].
      eexists; eexists; split; reflexivity.
    + cbn [bind andb map combine repeat]. eexists; eexists; split; reflexivity.
  - cbn [bind]. unfold yield_results. cbn. eexists; eexists; split; reflexivity.
Qed.

Lemma flips_assoc a b c : flips_plus a (flips_plus b c) = flips_plus (flips_plus a b) c.
Proof. unfold flips_plus; simpl. f_equal; ring. Qed.

Lemma flips_comm a b : flips_plus a b = flips_plus b a.
Proof. unfold flips_plus; simpl. f_equal; ring. Qed.

Lemma flips_e a : flips_plus a flips_zero = a.
Proof. destruct a; unfold flips_plus, flips_zero; simpl. f_equal; ring. Qed.

(** Element e holds a baseline score b and a candidate score c (first class) and a
    weight w. *)

Record paired := Paired { pr_base : num; pr_cand : num; pr_weight : Qc }.

Definition pair_reading (weighted : bool) (base model out : string) (e : inputs_dict) (x : paired) : Prop :=
  exists bs cs, carries_scores base out e (pr_base x :: bs) /\ carries_scores model out e (pr_cand x :: cs) /\
    length bs = length cs /\ labels_fit e (S (length bs)) /\ carries_weight weighted e [pr_weight x].

Definition weight_where (P : paired -> bool) (l : list paired) : Qc := qsum (map pr_weight (filter P l)).

Section FlipKinds.
  Context (t : Qc).
  Definition base_pos (x : paired) : bool := num_ltb (Fin t) (pr_base x).
  Definition cand_pos (x : paired) : bool := num_ltb (Fin t) (pr_cand x).
  Definition flipped (x : paired) : bool := negb (Bool.eqb (base_pos x) (cand_pos x)).
  Definition stays_neg (x : paired) : bool := negb (base_pos x) && negb (cand_pos x).
  Definition turns_pos (x : paired) : bool := negb (base_pos x) && cand_pos x.
  Definition turns_neg (x : paired) : bool := base_pos x && negb (cand_pos x).
  Definition stays_pos (x : paired) : bool := base_pos x && cand_pos x.

End FlipKinds.

Definition flip_counts (t : Qc) (l : list paired) : flips :=
  Flips (qsum (map pr_weight l)) (weight_where (stays_neg t) l) (weight_where (turns_pos t) l)
        (weight_where (turns_neg t) l) (weight_where (stays_pos t) l).

Definition flip_one (t : Qc) (x : paired) : flips :=
  Flips (pr_weight x) (times_bool (pr_weight x) (stays_neg t x)) (times_bool (pr_weight x) (turns_pos t x))
        (times_bool (pr_weight x) (turns_neg t x)) (times_bool (pr_weight x) (stays_pos t x)).

Lemma weight_where_cons P x l : weight_where P (x :: l) = (times_bool (pr_weight x) (P x) + weight_where P l)%Qc.
Proof. unfold weight_where. simpl. destruct (P x); simpl; auto. unfold times_bool. ring. Qed.

Lemma flip_counts_sum t l : rsum flips_zero flips_plus (map (flip_one t) l) = flip_counts t l.
Proof.
  induction l as [|x l IH]; [reflexivity|]. cbn [map rsum fold_right].
  change (fold_right flips_plus flips_zero) with (rsum flips_zero flips_plus). rewrite IH.
  unfold flip_counts. rewrite !weight_where_cons. reflexivity.
Qed.

Lemma flips_run ap t weighted lb pb base lk pk m o s (r : inputs_dict -> paired) :
  (forall e, In e (inputs s) -> pair_reading weighted base m o e (r e)) ->
  outcome (flips_combiner ap t weighted lb pb base lk pk m o) s = Ok (flip_counts t (map r (expand s))).
Proof.
  intro H. unfold outcome, flips_combiner.
  rewrite (again_run flips_zero _ flips_plus _ (fun e => flip_one t (r e)) flips_assoc flips_comm flips_e).
  - cbn [again_combiner c_extract bind]. rewrite <- flip_counts_sum, map_map. reflexivity.
  - intros a e He. destruct (H e He) as (bs & cs & B & C & L & F & W).
    unfold flips_add.
    destruct (first_flat ap (flip_options weighted) lb pb base o e (pr_base (r e)) bs (pr_weight (r e)))
      as (ys & l & -> & E1); auto; try discriminate.
    cbn [bind]. rewrite E1. cbn [bind].
    destruct (first_flat ap (flip_options weighted) lk pk m o e (pr_cand (r e)) cs (pr_weight (r e)))
      as (zs & l' & -> & E2); auto; try discriminate.
    { rewrite <- L. exact F. }
    cbn [bind]. rewrite E2. reflexivity.
Qed.

(** Both models' scores, as in an evaluation with a baseline. *)

Definition two (b c w : Q) : inputs_dict :=
  InputsDict None (Some (Dict [("base", Leaf [Fin (Q2Qc b)]); ("cand", Leaf [Fin (Q2Qc c)])])) (Some (Leaf [Q2Qc w])).

Lemma C17_flip_rate_schedule_refuted_pf :
  exists ap t s1 s2 r f1 f2,
    (forall e, In e (inputs s1) -> pair_reading true "base" "cand" "" e (r e)) /\
    Permutation (inputs s1) (inputs s2) /\
    outcome (flips_combiner ap t true "" "" "base" "" "" "cand" "") s1 = Ok f1 /\
    outcome (flips_combiner ap t true "" "" "base" "" "" "cand" "") s2 = Ok f2 /\
    weight_where (flipped t) (map r (inputs s1)) = 1%Qc /\ qsum (map pr_weight (map r (inputs s1))) = qz 2 /\
    symmetric_flip_rate f1 = Ok (Q2Qc (1#2)) /\ symmetric_flip_rate f2 = Ok (Q2Qc (2#3)).
Proof.
  exists ap_sort, (Q2Qc (1#2)), (Bundle [two (1#4) (3#4) 1; two (1#4) (1#4) 1]),
    (Merge (Bundle [two (1#4) (3#4) 1]) [Bundle [two (1#4) (1#4) 1]]),
    (fun e => match i_prediction e with
              | Some (Dict [(_, Leaf [b]); (_, Leaf [c])]) => Paired b c 1%Qc
              | _ => Paired NaN NaN 0%Qc
              end),
    (Flips (qz 2) 1%Qc 1%Qc 0%Qc 0%Qc), (Flips (qz 3) 1%Qc (qz 2) 0%Qc 0%Qc).
  split; [|split; [apply Permutation_refl|split; [qc_ex|split; [qc_ex|split; [qc_ex|split; [qc_ex|split; qc_ex]]]]]].
  intros e [<-|[<-|[]]]; exists [], []; cbn [i_prediction two pr_base pr_cand pr_weight];
    (split; [eexists; eexists; repeat split; reflexivity|]; split; [eexists; eexists; repeat split; reflexivity|];
     split; [reflexivity|]; split; [exact I|]; cbn; qc_ex).
Qed.

Lemma C17_flip_rates_partial_pf :
  forall ap t weighted lb pb base lk pk m o s (r : inputs_dict -> paired),
    (forall e, In e (inputs s) -> pair_reading weighted base m o e (r e)) -> merge_free s ->
    let D := map r (inputs s) in
    let W := qsum (map pr_weight D) in
    W <> 0%Qc ->
    exists f, outcome (flips_combiner ap t weighted lb pb base lk pk m o) s = Ok f /\
      symmetric_flip_rate f = Ok (weight_where (flipped t) D / W)%Qc /\
      neg_to_neg_rate f = Ok (weight_where (stays_neg t) D / W)%Qc /\
      neg_to_pos_rate f = Ok (weight_where (turns_pos t) D / W)%Qc /\
      pos_to_neg_rate f = Ok (weight_where (turns_neg t) D / W)%Qc /\
      pos_to_pos_rate f = Ok (weight_where (stays_pos t) D / W)%Qc.
Proof.
  intros ap t weighted lb pb base lk pk m o s r H MF D W NZ.
  exists (flip_counts t D). split.
  { rewrite (flips_run ap t weighted lb pb base lk pk m o s r H). rewrite expand_merge_free; auto. }
  unfold symmetric_flip_rate, neg_to_neg_rate, neg_to_pos_rate, pos_to_neg_rate, pos_to_pos_rate, py_div.
  unfold flip_counts. cbn [f_examples f_nn f_np f_pn f_pp].
  fold W. apply Qc_eqb_neq in NZ. rewrite NZ.
  assert (E : (weight_where (turns_pos t) D + weight_where (turns_neg t) D)%Qc = weight_where (flipped t) D).
  { clear. induction D as [|x D IH]; [reflexivity|]. rewrite !weight_where_cons, <- IH.
    unfold flipped, turns_pos, turns_neg. destruct (base_pos t x), (cand_pos t x); unfold times_bool; simpl; ring. }
  rewrite E. auto.
Qed.

Lemma C18_flip_counts_partition_pf :
  forall ap t weighted lb pb base lk pk m o s (r : inputs_dict -> paired),
    (forall e, In e (inputs s) -> pair_reading weighted base m o e (r e) /\ (0 <= pr_weight (r e))%Qc) ->
    (exists e, In e (inputs s) /\ (0 < pr_weight (r e))%Qc) ->
    exists f nn np pn pp sym, outcome (flips_combiner ap t weighted lb pb base lk pk m o) s = Ok f /\
      neg_to_neg_rate f = Ok nn /\ neg_to_pos_rate f = Ok np /\ pos_to_neg_rate f = Ok pn /\
      pos_to_pos_rate f = Ok pp /\ symmetric_flip_rate f = Ok sym /\
      (0 <= nn)%Qc /\ (0 <= np)%Qc /\ (0 <= pn)%Qc /\ (0 <= pp)%Qc /\
      (nn + np + pn + pp)%Qc = 1%Qc /\ sym = (np + pn)%Qc /\ (0 <= sym <= 1)%Qc.
Proof.
  intros ap t weighted lb pb base lk pk m o s r H (e0 & I0 & P0).
  pose proof (flips_run ap t weighted lb pb base lk pk m o s r (fun e He => proj1 (H e He))) as R.
  set (D := map r (expand s)) in *.
  assert (ND : forall x, In x D -> (0 <= pr_weight x)%Qc).
  { intros x Hx. apply in_map_iff in Hx. destruct Hx as (e & <- & He). apply expand_In in He. apply H; auto. }
  assert (W : (0 < qsum (map pr_weight D))%Qc).
  { apply expand_In in I0. apply (in_map r) in I0. fold D in I0. clearbody D. clear -ND I0 P0.
    induction D as [|x D IH]; [destruct I0|]. cbn [map qsum fold_right].
    change (fold_right Qcplus (Q2Qc 0)) with qsum.
    assert (Z : (0 <= qsum (map pr_weight D))%Qc).
    { apply qsum_nonneg. intros y Hy. apply in_map_iff in Hy. destruct Hy as (z & <- & Hz). apply ND. right; auto. }
    destruct I0 as [->|I0].
    - qc_lra.
    - specialize (IH I0 (fun y Hy => ND y (or_intror Hy))). specialize (ND x (or_introl eq_refl)). qc_lra. }
  assert (NN : forall P, (0 <= weight_where P D)%Qc).
  { intro P. apply qsum_nonneg. intros y Hy. apply in_map_iff in Hy. destruct Hy as (z & <- & Hz).
    apply filter_In in Hz. apply ND. tauto. }
  assert (SUM : (weight_where (stays_neg t) D + weight_where (turns_pos t) D + weight_where (turns_neg t) D
                 + weight_where (stays_pos t) D)%Qc = qsum (map pr_weight D)).
  { clear. clearbody D. induction D as [|x D IH]; [reflexivity|]. rewrite !weight_where_cons. cbn [map qsum fold_right].
    change (fold_right Qcplus (Q2Qc 0)) with qsum. rewrite <- IH.
    unfold stays_neg, turns_pos, turns_neg, stays_pos. destruct (base_pos t x), (cand_pos t x); unfold times_bool; simpl; ring. }
  assert (NZ : Qc_eqb (qsum (map pr_weight D)) 0%Qc = false).
  { apply Qc_eqb_neq. intro E. rewrite E in W. qc_lra. }
  do 6 eexists. split; [exact R|].
  unfold symmetric_flip_rate, neg_to_neg_rate, neg_to_pos_rate, pos_to_neg_rate, pos_to_pos_rate, py_div, flip_counts.
  cbn [f_examples f_nn f_np f_pn f_pp]. rewrite NZ.
  do 5 (split; [reflexivity|]).
  do 4 (split; [apply Qcdiv_nonneg; auto|]).
  assert (NZ' : qsum (map pr_weight D) <> 0%Qc) by (apply Qc_eqb_neq; auto).
  split; [|split; [|split]].
  - rewrite <- SUM in *. field. exact NZ'.
  - field. exact NZ'.
  - apply Qcdiv_nonneg; auto. pose proof (NN (turns_pos t)). pose proof (NN (turns_neg t)). qc_lra.
  - apply Qcdiv_le_1; auto; pose proof (NN (turns_pos t)); pose proof (NN (turns_neg t));
      pose proof (NN (stays_neg t)); pose proof (NN (stays_pos t)); [qc_lra|]. rewrite <- SUM. qc_lra.
Qed.

Lemma parts_false D : flat_map (parts false) D = D.
Proof. induction D as [|x D IH]; [reflexivity|]. cbn [flat_map]. rewrite IH. reflexivity. Qed.

Section TupleSums.
  Context {A : Type} (zero : A) (plus : A -> A -> A) (f : yielded -> res A) (h : scored -> A).
  Hypothesis plus_assoc : forall a b d, plus a (plus b d) = plus (plus a b) d.
  Hypothesis plus_comm : forall a b, plus a b = plus b a.
  Hypothesis plus_e : forall a, plus a zero = a.

  Definition triples (ex : list (Qc * num)) (w : Qc) : list scored := map (fun x => (fst x, snd x, w)) ex.

  Lemma tuples_sum D acc : (forall x, In x D -> f (as_tuple x) = Ok (h x)) ->
    foldM (fun a y => let! d := f y in Ok (plus a d)) (map as_tuple D) acc = Ok (plus acc (rsum zero plus (map h D))).
  Proof.
    revert acc. induction D as [|x D IH]; intros acc H; cbn [map foldM].
    - cbn [rsum fold_right]. rewrite plus_e. reflexivity.
    - rewrite H by (left; auto). cbn [bind]. rewrite IH by (intros; apply H; right; auto).
      f_equal. cbn [map rsum fold_right]. rewrite plus_assoc. reflexivity.
  Qed.

  Lemma tuple_add_sum ap o lk pk m out acc e ex w :
    o_flatten o = true -> o_sub_key o = None -> o_class_weights o = None -> o_fractional o = false ->
    o_single_weight o = false -> ex <> [] ->
    carries (o_example_weighted o) m out e (Reading (map fst ex) (map snd ex) [w]) ->
    (forall x, In x (triples ex w) -> f (as_tuple x) = Ok (h x)) ->
    tuple_add ap f plus o lk pk m out acc e = Ok (plus acc (rsum zero plus (map h (triples ex w)))).
  Proof.
    intros FL SK CW FR SW NE C H. unfold tuple_add. rewrite (prepared ap o lk pk m out e _ C).
    cbn [r_labels r_scores r_weight].
    rewrite flatten_parts; auto; [|rewrite FR; discriminate].
    rewrite FR, parts_false. cbn [bind]. apply tuples_sum. exact H.
  Qed.

  Lemma rsum_scored (ex : inputs_dict -> list (Qc * num)) w l :
    rsum zero plus (map (fun e => rsum zero plus (map h (triples (ex e) (w e)))) l) =
    rsum zero plus (map h (scored_of ex w l)).
  Proof.
    induction l as [|e l IH]; [reflexivity|].
    unfold scored_of in *. cbn [map flat_map]. rewrite map_app, (rsum_app zero plus plus_assoc plus_comm plus_e).
    cbn [rsum fold_right]. f_equal. exact IH.
  Qed.

End TupleSums.

(** Examples with finite scores: (label, score, weight). *)

Definition observed := (Qc * Qc * Qc)%type.

Definition ob_label (x : observed) : Qc := fst (fst x).

Definition ob_score (x : observed) : Qc := snd (fst x).

Definition ob_weight (x : observed) : Qc := snd x.

Definition observations (ex : inputs_dict -> list (Qc * Qc)) (w : inputs_dict -> Qc) (l : list inputs_dict) : list observed :=
  flat_map (fun e => map (fun x => (fst x, snd x, w e)) (ex e)) l.

(** Element e holds these (label, score) pairs, one per class, and this weight. *)

Definition holds (weighted : bool) (m out : string) (ex : list (Qc * Qc)) (w : Qc) (e : inputs_dict) : Prop :=
  carries weighted m out e (Reading (map fst ex) (map (fun x => Fin (snd x)) ex) [w]) /\ ex <> [].

Definition finite_pairs (ex : inputs_dict -> list (Qc * Qc)) : inputs_dict -> list (Qc * num) :=
  fun e => map (fun x => (fst x, Fin (snd x))) (ex e).

Definition to_scored (x : observed) : scored := (ob_label x, Fin (ob_score x), ob_weight x).

Lemma scored_observations ex w l : scored_of (finite_pairs ex) w l = map to_scored (observations ex w l).
Proof.
  induction l as [|e l IH]; [reflexivity|].
  unfold scored_of, observations in *. cbn [flat_map]. rewrite map_app, IH. f_equal.
  unfold finite_pairs. rewrite !map_map. reflexivity.
Qed.

Lemma observations_In ex w l x : In x (observations ex w l) ->
  exists e, In e l /\ In (ob_label x, ob_score x) (ex e) /\ ob_weight x = w e.
Proof.
  intro H. apply in_flat_map in H. destruct H as (e & He & H). apply in_map_iff in H.
  destruct H as ([a b] & <- & H). exists e. auto.
Qed.

Section FiniteSums.
  Context {A O : Type} (zero : A) (plus : A -> A -> A) (f : yielded -> res A) (h : observed -> A) (ext : A -> res O).
  Hypothesis plus_assoc : forall a b d, plus a (plus b d) = plus (plus a b) d.
  Hypothesis plus_comm : forall a b, plus a b = plus b a.
  Hypothesis plus_e : forall a, plus a zero = a.
  Hypothesis f_h : forall l p w, f ([l], [Fin p], [w]) = Ok (h (l, p, w)).
  Context (ap : list num -> nat -> list nat) (o : options) (lk pk m out : string).
  Hypothesis FL : o_flatten o = true.
  Hypothesis SK : o_sub_key o = None.
  Hypothesis CW : o_class_weights o = None.
  Hypothesis FR : o_fractional o = false.
  Hypothesis SW : o_single_weight o = false.
  Context (ex : inputs_dict -> list (Qc * Qc)) (w : inputs_dict -> Qc).

  Lemma finite_add a e : holds (o_example_weighted o) m out (ex e) (w e) e ->
    tuple_add ap f plus o lk pk m out a e =
    Ok (plus a (rsum zero plus (map (fun x => h (ob_label x, ob_score x, ob_weight x)) (map (fun x => (fst x, snd x, w e)) (ex e))))).
  Proof.
    intros [C NE].
    rewrite (tuple_add_sum zero plus f (fun x => h (sc_label x, match sc_score x with Fin q => q | _ => 0%Qc end, sc_weight x))
               plus_assoc plus_e ap o lk pk m out a e (finite_pairs ex e) (w e) FL SK CW FR SW).
    - f_equal. f_equal. unfold triples, finite_pairs. rewrite !map_map. reflexivity.
    - unfold finite_pairs. destruct (ex e); [congruence|discriminate].
    - unfold finite_pairs. rewrite !map_map. exact C.
    - intros x Hx. unfold triples, finite_pairs in Hx. rewrite map_map in Hx. apply in_map_iff in Hx.
      destruct Hx as ([l p] & <- & _). unfold as_tuple, sc_label, sc_score, sc_weight. cbn [fst snd]. apply f_h.
  Qed.

  Lemma rsum_observations l :
    rsum zero plus (map (fun e => rsum zero plus (map (fun x => h (ob_label x, ob_score x, ob_weight x)) (map (fun x => (fst x, snd x, w e)) (ex e)))) l)
    = rsum zero plus (map h (observations ex w l)).
  Proof.
    induction l as [|e l IH]; [reflexivity|].
    unfold observations in *. cbn [map flat_map]. rewrite map_app, (rsum_app zero plus plus_assoc plus_comm plus_e).
    cbn [rsum fold_right]. f_equal; [|exact IH]. f_equal. apply map_ext. intros [[a b] c]. reflexivity.
  Qed.

  Lemma finite_again_run s :
    (forall e, In e (inputs s) -> holds (o_example_weighted o) m out (ex e) (w e) e) ->
    run (again_combiner zero (tuple_add ap f plus o lk pk m out) plus ext) s =
    Ok (rsum zero plus (map h (observations ex w (expand s)))).
  Proof.
    intro H.
    rewrite (again_run zero _ plus ext
       (fun e => rsum zero plus (map (fun x => h (ob_label x, ob_score x, ob_weight x)) (map (fun x => (fst x, snd x, w e)) (ex e))))
       plus_assoc plus_comm plus_e).
    - rewrite rsum_observations. reflexivity.
    - intros a e He. apply finite_add. auto.
  Qed.

  Lemma finite_run s :
    (forall e, In e (inputs s) -> holds (o_example_weighted o) m out (ex e) (w e) e) ->
    run (res_combiner zero (tuple_add ap f plus o lk pk m out) plus ext) s =
    Ok (rsum zero plus (map h (observations ex w (inputs s)))).
  Proof.
    intro H.
    assert (add_f : forall a e, tuple_add ap f plus o lk pk m out a e =
              (let! y := tuple_add ap f plus o lk pk m out zero e in Ok (plus a y))).
    { intros a e. unfold tuple_add. destruct (to_label_prediction_example_weight _ _ _ _ _ _ _); cbn [bind]; auto.
      apply (foldM_sum f zero plus plus_assoc plus_comm plus_e). }
    rewrite (res_run_ok zero _ plus ext (fun e => tuple_add ap f plus o lk pk m out zero e) plus_assoc plus_comm plus_e add_f) with
      (g := fun e => rsum zero plus (map (fun x => h (ob_label x, ob_score x, ob_weight x)) (map (fun x => (fst x, snd x, w e)) (ex e)))).
    - rewrite rsum_observations. reflexivity.
    - intros e He. rewrite finite_add by auto. rewrite plus_comm, plus_e. reflexivity.
  Qed.

End FiniteSums.

Inductive error_kind := Absolute | Squared | Percentage.

Definition error_of (k : error_kind) : list Qc -> list num -> res num :=
  match k with Absolute => absolute_error | Squared => squared_error | Percentage => percentage_error end.

Definition distance (a b : Qc) : Qc := Qcmax (a - b) (b - a).

(** The error of one example; a percentage error needs a label other than zero. *)

Definition error_spec (k : error_kind) (x : observed) : option Qc :=
  match k with
  | Absolute => Some (distance (ob_label x) (ob_score x))
  | Squared => Some (distance (ob_label x) (ob_score x) * distance (ob_label x) (ob_score x))%Qc
  | Percentage => if Qc_eqb (ob_label x) 0%Qc then None
                  else Some (qz 100 * (distance (ob_label x) (ob_score x) / distance (ob_label x) 0))%Qc
  end.

Definition error_weight (k : error_kind) (D : list observed) : Qc :=
  qsum (map (fun x => match error_spec k x with Some _ => ob_weight x | None => 0%Qc end) D).

Definition error_total (k : error_kind) (D : list observed) : Qc :=
  qsum (map (fun x => match error_spec k x with Some e => ob_weight x * e | None => 0 end)%Qc D).

Lemma total_assoc a b c : total_plus a (total_plus b c) = total_plus (total_plus a b) c.
Proof. unfold total_plus; simpl. f_equal; [ring|apply num_plus_assoc]. Qed.

Lemma total_comm a b : total_plus a b = total_plus b a.
Proof. unfold total_plus; simpl. f_equal; [ring|apply num_plus_comm]. Qed.

Lemma total_e a : total_plus a total_zero = a.
Proof. destruct a; unfold total_plus, total_zero; simpl. f_equal; [ring|apply num_plus_e]. Qed.

Lemma abs_distance x y : (if Qc_ltb (x - y) 0 then - (x - y) else x - y)%Qc = distance x y.
Proof.
  unfold distance, Qcmax. destruct (Qc_ltb (x - y) 0) eqn:A, (Qc_leb (x - y) (y - x)) eqn:B; qc_bool; try ring; qc_lra.
Qed.

Lemma distance_nonneg a b : (0 <= distance a b)%Qc.
Proof. unfold distance, Qcmax. destruct (Qc_leb (a - b) (b - a)) eqn:E; qc_lra. Qed.

Lemma Qcinv_pos x : (0 < x)%Qc -> (0 < / x)%Qc.
Proof.
  intro H. assert (x <> 0%Qc) by (intro E; rewrite E in H; qc_lra).
  assert (E : (x * / x)%Qc = 1%Qc) by (field; auto).
  destruct (Qclt_le_dec 0 (/ x)) as [L|L]; auto. exfalso.
  assert (0 <= x * - / x)%Qc by (apply Qcmult_nonneg; [qc_lra|qc_lra]).
  replace (x * - / x)%Qc with (- (x * / x))%Qc in H1 by ring. rewrite E in H1. qc_lra.
Qed.

Lemma abs_ratio l p : l <> 0%Qc ->
  (if Qc_ltb (/ l * (l - p)) 0 then - (/ l * (l - p)) else / l * (l - p))%Qc = (distance l p / distance l 0)%Qc.
Proof.
  intro NZ. rewrite <- !abs_distance.
  assert (E0 : (l - 0)%Qc = l) by ring. rewrite E0.
  destruct (Qc_ltb l 0) eqn:L; qc_bool.
  - assert (P : (0 < / - l)%Qc) by (apply Qcinv_pos; qc_lra).
    assert (I : (/ l)%Qc = (- / - l)%Qc) by (field; split; auto; intro H; apply NZ; qc_lra).
    rewrite I. unfold Qcdiv. set (i := (/ - l)%Qc) in *. clearbody i. clear I E0. destruct (Qc_ltb (l - p) 0) eqn:A.
    + destruct (Qc_ltb (_ * _) 0) eqn:B; qc_bool; [|ring].
      assert (0 <= i * (- (l - p)))%Qc by (apply Qcmult_nonneg; qc_lra).
      replace (- i * (l - p))%Qc with (i * (- (l - p)))%Qc in B by ring. qc_lra.
    + destruct (Qc_ltb (_ * _) 0) eqn:B; qc_bool; [ring|].
      assert (0 <= i * (l - p))%Qc by (apply Qcmult_nonneg; qc_lra).
      replace (- i * (l - p))%Qc with (- (i * (l - p)))%Qc in * by ring.
      assert (Z : (i * (l - p))%Qc = 0%Qc) by qc_lra.
      replace ((l - p) * i)%Qc with (i * (l - p))%Qc by ring. rewrite Z. ring.
  - assert (P : (0 < / l)%Qc).
    { apply Qcinv_pos. assert (l <> 0%Qc) by auto. destruct (Qclt_le_dec 0 l); auto. exfalso. apply NZ. qc_lra. }
    unfold Qcdiv. set (i := (/ l)%Qc) in *. clearbody i. destruct (Qc_ltb (l - p) 0) eqn:A.
    + destruct (Qc_ltb (_ * _) 0) eqn:B; qc_bool; [ring|].
      assert (0 <= i * (- (l - p)))%Qc by (apply Qcmult_nonneg; qc_lra).
      replace (i * (- (l - p)))%Qc with (- (i * (l - p)))%Qc in H by ring.
      assert (Z : (i * (l - p))%Qc = 0%Qc) by qc_lra.
      replace (- (l - p) * i)%Qc with (- (i * (l - p)))%Qc by ring. rewrite Z. ring.
    + destruct (Qc_ltb (_ * _) 0) eqn:B; qc_bool; [|ring].
      assert (0 <= i * (l - p))%Qc by (apply Qcmult_nonneg; qc_lra). qc_lra.
Qed.

Definition error_one (k : error_kind) (x : observed) : total :=
  match error_spec k x with
  | Some e => Total (ob_weight x) (Fin (ob_weight x * e)%Qc)
  | None => total_zero
  end.

Lemma regression_of_obs k l p w :
  regression_of (error_of k) ([l], [Fin p], [w]) = Ok (error_one k (l, p, w)).
Proof.
  unfold regression_of, error_one, error_spec, ob_label, ob_score, ob_weight. destruct k; cbn [fst snd error_of].
  - unfold absolute_error, broadcast. cbn -[Qcminus Qcopp Qcplus Qc_ltb Qcmult].
    change (l + - p)%Qc with (l - p)%Qc. rewrite abs_distance. reflexivity.
  - unfold squared_error, broadcast. cbn -[Qcminus Qcopp Qcplus Qc_ltb Qcmult].
    f_equal. f_equal. f_equal. change (l + - p)%Qc with (l - p)%Qc. rewrite <- abs_distance.
    destruct (Qc_ltb (l - p) 0); ring.
  - unfold percentage_error. destruct (Qc_eqb l 0) eqn:Z; [reflexivity|].
    unfold broadcast. cbn -[Qcminus Qcopp Qcplus Qc_ltb Qcmult Qcinv qz].
    change (l + - p)%Qc with (l - p)%Qc. apply Qc_eqb_neq in Z. rewrite (abs_ratio l p Z). reflexivity.
Qed.

Lemma error_sum k D : rsum total_zero total_plus (map (error_one k) D) = Total (error_weight k D) (Fin (error_total k D)).
Proof.
  induction D as [|x D IH]; [reflexivity|]. cbn [map rsum fold_right].
  change (fold_right total_plus total_zero) with (rsum total_zero total_plus). rewrite IH.
  unfold error_weight, error_total, error_one. cbn [map qsum fold_right].
  destruct (error_spec k x); unfold total_plus; cbn [t_weight t_value num_plus total_zero]; reflexivity.
Qed.

Lemma regression_run ap k weighted lk pk m o s ex w :
  (forall e, In e (inputs s) -> holds weighted m o (ex e) (w e) e) ->
  outcome (regression_combiner ap (error_of k) (regression_options None false None weighted) lk pk m o) s =
  Ok (regression_result (Total (error_weight k (observations ex w (expand s))) (Fin (error_total k (observations ex w (expand s)))))).
Proof.
  intro H. unfold outcome, regression_combiner.
  rewrite (finite_again_run total_zero total_plus (regression_of (error_of k)) (error_one k) _ total_assoc total_comm total_e
             (regression_of_obs k) ap (regression_options None false None weighted) lk pk m o eq_refl eq_refl eq_refl eq_refl eq_refl ex w s H).
  cbn [again_combiner c_extract bind]. rewrite error_sum. reflexivity.
Qed.

Lemma C68_mean_error_schedule_refuted_pf :
  exists ap s1 s2 ex w,
    (forall e, In e (inputs s1) -> holds true "cand" "" (ex e) (w e) e) /\
    Permutation (inputs s1) (inputs s2) /\
    error_total Absolute (observations ex w (inputs s1)) = 1%Qc /\
    error_weight Absolute (observations ex w (inputs s1)) = qz 2 /\
    outcome (regression_combiner ap absolute_error (regression_options None false None true) "" "" "cand" "") s1 = Ok (Fin (Q2Qc (1#2))) /\
    outcome (regression_combiner ap absolute_error (regression_options None false None true) "" "" "cand" "") s2 = Ok (Fin (Q2Qc (1#3))).
Proof.
  exists ap_sort, (Bundle [binary 1 1 1; binary 1 0 1]), (Merge (Bundle [binary 1 1 1]) [Bundle [binary 1 0 1]]),
    (fun e => match i_prediction e with
              | Some (Dict [_; (_, Leaf [Fin p])]) => [(1%Qc, p)]
              | _ => []
              end), (fun _ => 1%Qc).
  split; [|split; [apply Permutation_refl|split; [qc_ex|split; [qc_ex|split; qc_ex]]]].
  intros e [<-|[<-|[]]]; (split; [|discriminate]); (split; [reflexivity|split; [eexists; eexists; repeat split; reflexivity|reflexivity]]).
Qed.

Lemma C68_mean_error_partial_pf :
  forall ap k weighted lk pk m o s ex w,
    (forall e, In e (inputs s) -> holds weighted m o (ex e) (w e) e) -> merge_free s ->
    let D := observations ex w (inputs s) in
    exists v, outcome (regression_combiner ap (error_of k) (regression_options None false None weighted) lk pk m o) s = Ok v /\
      (error_weight k D = 0%Qc -> v = NaN) /\
      (error_weight k D <> 0%Qc -> v = Fin (error_total k D / error_weight k D)%Qc).
Proof.
  intros ap k weighted lk pk m o s ex w H MF D.
  eexists. split; [apply (regression_run ap k weighted lk pk m o s ex w H)|].
  rewrite (expand_merge_free s MF). fold D. unfold regression_result. cbn [t_weight t_value].
  destruct (Qc_eqb (error_weight k D) 0%Qc) eqn:E; qc_bool; split; intro N; try contradiction; auto.
  cbn [num_scale]. f_equal. unfold Qcdiv. ring.
Qed.

Lemma C68_mean_error_within_pf :
  forall ap k weighted lk pk m o s ex w lo hi,
    (forall e, In e (inputs s) -> holds weighted m o (ex e) (w e) e /\ (0 <= w e)%Qc) ->
    let D := observations ex w (inputs s) in
    (forall x err, In x D -> error_spec k x = Some err -> (lo <= err <= hi)%Qc) ->
    exists v, outcome (regression_combiner ap (error_of k) (regression_options None false None weighted) lk pk m o) s = Ok v /\
      ((v = NaN /\ error_weight k D = 0%Qc) \/ exists q, v = Fin q /\ (lo <= q <= hi)%Qc).
Proof.
  intros ap k weighted lk pk m o s ex w lo hi H D B.
  eexists. split; [apply (regression_run ap k weighted lk pk m o s ex w (fun e He => proj1 (H e He)))|].
  set (D' := observations ex w (expand s)).
  assert (SUB : forall x, In x D' <-> In x D).
  { intro x. unfold D', D, observations. rewrite !in_flat_map. split; intros (e & He & Hx); exists e; split; auto; apply expand_In; auto. }
  assert (NW : forall x, In x D' -> (0 <= ob_weight x)%Qc).
  { intros x Hx. apply SUB in Hx. apply observations_In in Hx. destruct Hx as (e & He & _ & ->). apply H; auto. }
  assert (WN : forall x, In x D' -> (0 <= match error_spec k x with Some _ => ob_weight x | None => 0%Qc end)%Qc).
  { intros x Hx. destruct (error_spec k x); auto. qc_lra. }
  unfold regression_result. cbn [t_weight t_value].
  destruct (Qc_eqb (error_weight k D') 0%Qc) eqn:E; qc_bool.
  - left. split; auto.
    (* all weights are zero *)
    assert (Z : forall x, In x D' -> match error_spec k x with Some _ => ob_weight x | None => 0%Qc end = 0%Qc).
    { clear -E WN. unfold error_weight in E. induction D' as [|y D' IH]; intros x Hx; [destruct Hx|].
      cbn [map qsum fold_right] in E. change (fold_right Qcplus (Q2Qc 0)) with qsum in E.
      assert (P : (0 <= qsum (map (fun x => match error_spec k x with Some _ => ob_weight x | None => 0%Qc end) D'))%Qc).
      { apply qsum_nonneg. intros z Hz. apply in_map_iff in Hz. destruct Hz as (u & <- & Hu). apply WN. right; auto. }
      pose proof (WN y (or_introl eq_refl)) as Wy.
      destruct Hx as [->|Hx]; [qc_lra|]. apply (IH (fun z Hz => WN z (or_intror Hz))); auto. qc_lra. }
    unfold error_weight. apply qsum_map_zero. intros x Hx. apply Z. apply SUB. exact Hx.
  - right. exists (/ error_weight k D' * error_total k D')%Qc. split; [reflexivity|].
    assert (P : (0 < error_weight k D')%Qc).
    { assert (0 <= error_weight k D')%Qc.
      { apply qsum_nonneg. intros z Hz. apply in_map_iff in Hz. destruct Hz as (u & <- & Hu). auto. }
      destruct (Qclt_le_dec 0 (error_weight k D')); auto. exfalso. apply E. qc_lra. }
    assert (L : (lo * error_weight k D' <= error_total k D' <= hi * error_weight k D')%Qc).
    { unfold error_weight, error_total. rewrite <- !qsum_map_scale.
      split; apply qsum_map_le; intros x Hx; pose proof (NW x Hx) as Wx; destruct (error_spec k x) as [err|] eqn:EX; try qc_lra;
        destruct (B x err (proj1 (SUB x) Hx) EX) as [B1 B2].
      - assert (0 <= ob_weight x * (err - lo))%Qc by (apply Qcmult_nonneg; qc_lra). qc_nra.
      - assert (0 <= ob_weight x * (hi - err))%Qc by (apply Qcmult_nonneg; qc_lra). qc_nra. }
    replace (/ error_weight k D' * error_total k D')%Qc with (error_total k D' / error_weight k D')%Qc by (unfold Qcdiv; ring).
    destruct L as [L1 L2]. split.
    + replace lo with (lo * error_weight k D' / error_weight k D')%Qc by (field; auto). apply Qcdiv_le_compat; auto.
    + replace hi with (hi * error_weight k D' / error_weight k D')%Qc by (field; auto). apply Qcdiv_le_compat; auto.
Qed.

(** The relative difference of two non-negative scores. *)

Definition relative_difference (b c : Qc) : Qc :=
  if Qc_ltb (qz 2 * distance b c) (Q2Qc (1 # 10000000)) && Qc_ltb (b + c) (Q2Qc (1 # 10000000)) then 0%Qc
  else (qz 2 * distance b c / (b + c))%Qc.

Definition difference_one (x : paired) : total :=
  Total (pr_weight x) (num_scale (pr_weight x) (sym_diff (pr_base x) (pr_cand x))).

Lemma difference_run ap weighted lb pb base lk pk m o s (r : inputs_dict -> paired) :
  (forall e, In e (inputs s) -> pair_reading weighted base m o e (r e) /\ i_label e <> None) ->
  outcome (difference_combiner ap weighted lb pb base lk pk m o) s =
  difference_result (rsum total_zero total_plus (map difference_one (map r (expand s)))).
Proof.
  intro H. unfold outcome, difference_combiner.
  rewrite (again_run total_zero _ total_plus _ (fun e => difference_one (r e)) total_assoc total_comm total_e).
  - cbn [again_combiner c_extract bind]. rewrite map_map. reflexivity.
  - intros a e He. destruct (H e He) as ((bs & cs & B & C & L & F & W) & NL).
    unfold difference_add.
    destruct (first_flat ap (difference_options weighted) lb pb base o e (pr_base (r e)) bs (pr_weight (r e)))
      as (ys & l & -> & E1); auto.
    cbn [bind]. rewrite E1. cbn [bind].
    destruct (first_flat ap (difference_options weighted) lk pk m o e (pr_cand (r e)) cs (pr_weight (r e)))
      as (zs & l' & -> & E2); auto.
    { rewrite <- L. exact F. }
    cbn [bind]. rewrite E2. reflexivity.
Qed.

(** Swapping the two models does not change the value. *)

Definition swap (x : paired) : paired := Paired (pr_cand x) (pr_base x) (pr_weight x).

Lemma num_abs_sub_comm a b : num_abs (num_sub a b) = num_abs (num_sub b a).
Proof.
  destruct a as [| |x|], b as [| |y|]; try reflexivity.
  unfold num_sub. cbn [num_opp num_plus num_abs]. f_equal.
  change (x + - y)%Qc with (x - y)%Qc. change (y + - x)%Qc with (y - x)%Qc.
  rewrite !abs_distance. unfold distance, Qcmax.
  destruct (Qc_leb (x - y) (y - x)) eqn:A, (Qc_leb (y - x) (x - y)) eqn:B; qc_lra.
Qed.

Lemma pair_reading_swap weighted base m o e x : pair_reading weighted base m o e x -> pair_reading weighted m base o e (swap x).
Proof.
  intros (bs & cs & B & C & L & F & W). exists cs, bs. repeat split; auto. rewrite <- L. exact F.
Qed.

Lemma C69_difference_symmetric_pf :
  forall ap weighted l1 p1 base l2 p2 m o s (r : inputs_dict -> paired),
    (forall e, In e (inputs s) -> pair_reading weighted base m o e (r e) /\ i_label e <> None) ->
    outcome (difference_combiner ap weighted l1 p1 base l2 p2 m o) s =
    outcome (difference_combiner ap weighted l2 p2 m l1 p1 base o) s.
Proof.
  intros ap weighted l1 p1 base l2 p2 m o s r H.
  rewrite (difference_run ap weighted l1 p1 base l2 p2 m o s r H).
  rewrite (difference_run ap weighted l2 p2 m l1 p1 base o s (fun e => swap (r e))).
  2:{ intros e He. destruct (H e He). split; auto. apply pair_reading_swap; auto. }
  f_equal. f_equal. rewrite !map_map. apply map_ext. intro e. unfold difference_one, swap. cbn [pr_weight pr_base pr_cand].
  f_equal. f_equal. unfold sym_diff. rewrite (num_abs_sub_comm (pr_cand (r e))), (num_plus_comm (pr_cand (r e))). reflexivity.
Qed.

Definition pair_finite (x : paired) (b c : Qc) : Prop := pr_base x = Fin b /\ pr_cand x = Fin c /\ (0 <= b)%Qc /\ (0 <= c)%Qc.

Definition difference_spec (x : paired) : Qc :=
  match pr_base x, pr_cand x with Fin b, Fin c => relative_difference b c | _, _ => 0%Qc end.

Lemma Qc_neq_pos x : (0 <= x)%Qc -> x <> 0%Qc -> (0 < x)%Qc.
Proof. intros H N. destruct (Qclt_le_dec 0 x); auto. exfalso. apply N. qc_lra. Qed.

Lemma sym_diff_finite b c : (0 <= b)%Qc -> (0 <= c)%Qc ->
  sym_diff (Fin b) (Fin c) = Fin (relative_difference b c) /\ (0 <= relative_difference b c <= qz 2)%Qc.
Proof.
  intros B C. unfold sym_diff, relative_difference.
  cbn [num_sub num_opp num_plus num_abs num_scale num_ltb num_div].
  change (b + - c)%Qc with (b - c)%Qc. rewrite abs_distance.
  assert (A : (if Qc_ltb (b + c) 0 then - (b + c) else b + c)%Qc = (b + c)%Qc).
  { destruct (Qc_ltb (b + c) 0) eqn:E; auto. qc_lra. }
  rewrite A. change EPSILON with (Q2Qc (1 # 10000000)).
  assert (D : (distance b c <= b + c)%Qc).
  { unfold distance, Qcmax. destruct (Qc_leb (b - c) (c - b)); qc_lra. }
  pose proof (distance_nonneg b c) as D0.
  assert (T : (qz 2 * distance b c)%Qc = (distance b c + distance b c)%Qc).
  { change (qz 2) with (1 + 1)%Qc. ring. }
  assert (Z2 : (0 <= qz 2)%Qc) by discriminate.
  destruct (Qc_ltb (qz 2 * distance b c) (Q2Qc (1 # 10000000)) && Qc_ltb (b + c) (Q2Qc (1 # 10000000))) eqn:E.
  - split; [reflexivity|]. split; [qc_lra|exact Z2].
  - assert (P : (0 < b + c)%Qc).
    { apply Qc_neq_pos; [qc_lra|]. intro Z. rewrite Z in *.
      assert (D1 : distance b c = 0%Qc) by qc_lra. rewrite D1 in E.
      replace (qz 2 * 0)%Qc with 0%Qc in E by ring. discriminate. }
    unfold np_div. replace (Qc_eqb (b + c) 0) with false.
    2:{ symmetry. apply Qc_eqb_neq. intro Z. rewrite Z in P. qc_lra. }
    split; [reflexivity|]. split.
    + apply Qcdiv_nonneg; auto. rewrite T. qc_lra.
    + replace (qz 2) with (qz 2 * (b + c) / (b + c))%Qc at 2.
      2:{ field. intro Z. rewrite Z in P. qc_lra. }
      apply Qcdiv_le_compat; auto. rewrite T. change (qz 2) with (1 + 1)%Qc.
      replace ((1 + 1) * (b + c))%Qc with ((b + c) + (b + c))%Qc by ring. qc_lra.
Qed.

Lemma difference_total l :
  (forall x, In x l -> exists b c, pair_finite x b c) ->
  rsum total_zero total_plus (map difference_one l) =
  Total (qsum (map pr_weight l)) (Fin (qsum (map (fun x => pr_weight x * difference_spec x)%Qc l))).
Proof.
  induction l as [|x l IH]; intro H; [reflexivity|].
  cbn [map rsum fold_right]. change (fold_right total_plus total_zero) with (rsum total_zero total_plus).
  rewrite IH by (intros; apply H; right; auto).
  destruct (H x (or_introl eq_refl)) as (b & c & E1 & E2 & B & C).
  unfold difference_one at 1. rewrite E1, E2. destruct (sym_diff_finite b c B C) as [-> _].
  unfold total_plus. cbn [num_scale t_weight t_value num_plus].
  unfold difference_spec at 2. rewrite E1, E2. reflexivity.
Qed.

Lemma C69_difference_partial_pf :
  forall ap weighted lb pb base lk pk m o s (r : inputs_dict -> paired),
    (forall e, In e (inputs s) -> pair_reading weighted base m o e (r e) /\ i_label e <> None /\
       exists b c, pair_finite (r e) b c) ->
    merge_free s ->
    let D := map r (inputs s) in
    let W := qsum (map pr_weight D) in
    W <> 0%Qc ->
    outcome (difference_combiner ap weighted lb pb base lk pk m o) s =
    Ok (Fin (qsum (map (fun x => pr_weight x * difference_spec x)%Qc D) / W)%Qc).
Proof.
  intros ap weighted lb pb base lk pk m o s r H MF D W NZ.
  rewrite (difference_run ap weighted lb pb base lk pk m o s r) by (intros e He; destruct (H e He) as (? & ? & _); auto).
  rewrite expand_merge_free by auto. fold D. rewrite difference_total.
  - unfold difference_result. cbn [t_weight t_value num_scale]. fold W.
    apply Qc_eqb_neq in NZ. rewrite NZ. unfold Qcdiv. f_equal. f_equal. ring.
  - intros x Hx. apply in_map_iff in Hx. destruct Hx as (e & <- & He). apply H; auto.
Qed.

Definition two_labelled (b c w : Q) : inputs_dict :=
  InputsDict (Some (Leaf [1%Qc])) (Some (Dict [("base", Leaf [Fin (Q2Qc b)]); ("cand", Leaf [Fin (Q2Qc c)])])) (Some (Leaf [Q2Qc w])).

Lemma C69_difference_range_pf :
  forall ap weighted lb pb base lk pk m o s (r : inputs_dict -> paired),
    (forall e, In e (inputs s) -> pair_reading weighted base m o e (r e) /\ i_label e <> None /\
       (0 <= pr_weight (r e))%Qc /\ exists b c, pair_finite (r e) b c) ->
    (exists e, In e (inputs s) /\ (0 < pr_weight (r e))%Qc) ->
    exists v, outcome (difference_combiner ap weighted lb pb base lk pk m o) s = Ok (Fin v) /\ (0 <= v <= qz 2)%Qc.
Proof.
  intros ap weighted lb pb base lk pk m o s r H (e0 & I0 & P0).
  rewrite (difference_run ap weighted lb pb base lk pk m o s r) by (intros e He; destruct (H e He) as (? & ? & _); auto).
  set (D := map r (expand s)).
  assert (HD : forall x, In x D -> (0 <= pr_weight x)%Qc /\ exists b c, pair_finite x b c).
  { intros x Hx. apply in_map_iff in Hx. destruct Hx as (e & <- & He). apply expand_In in He. destruct (H e He) as (_ & _ & ? & ?). auto. }
  rewrite difference_total by (intros x Hx; apply HD; auto).
  assert (W : (0 < qsum (map pr_weight D))%Qc).
  { apply expand_In, (in_map r) in I0. fold D in I0. apply in_split in I0. destruct I0 as (D1 & D2 & E). rewrite E in *.
    rewrite map_app, qsum_app. cbn [map qsum fold_right]. change (fold_right Qcplus (Q2Qc 0)) with qsum.
    assert (N1 : (0 <= qsum (map pr_weight D1))%Qc).
    { apply qsum_nonneg. intros z Hz. apply in_map_iff in Hz. destruct Hz as (u & <- & Hu). apply HD. apply in_app_iff. auto. }
    assert (N2 : (0 <= qsum (map pr_weight D2))%Qc).
    { apply qsum_nonneg. intros z Hz. apply in_map_iff in Hz. destruct Hz as (u & <- & Hu). apply HD. apply in_app_iff. right. right. auto. }
    qc_lra. }
  assert (NZ : qsum (map pr_weight D) <> 0%Qc) by (intro E; rewrite E in W; qc_lra).
  unfold difference_result. cbn [t_weight t_value num_scale].
  rewrite (proj2 (Qc_eqb_neq _ _) NZ). eexists. split; [reflexivity|].
  assert (B : forall x, In x D -> (0 <= difference_spec x <= qz 2)%Qc).
  { intros x Hx. destruct (HD x Hx) as (_ & b & c & E1 & E2 & B & C). unfold difference_spec. rewrite E1, E2.
    apply sym_diff_finite; auto. }
  assert (L : (0 <= qsum (map (fun x => pr_weight x * difference_spec x) D))%Qc).
  { apply qsum_nonneg. intros z Hz. apply in_map_iff in Hz. destruct Hz as (u & <- & Hu). apply Qcmult_nonneg; [apply HD|apply B]; auto. }
  assert (U : (qsum (map (fun x => pr_weight x * difference_spec x) D) <= qz 2 * qsum (map pr_weight D))%Qc).
  { rewrite <- qsum_map_scale. apply qsum_map_le. intros x Hx. destruct (B x Hx) as [_ B2].
    destruct (HD x Hx) as [Wx _]. assert (0 <= pr_weight x * (qz 2 - difference_spec x))%Qc by (apply Qcmult_nonneg; qc_lra). qc_nra. }
  replace (/ qsum (map pr_weight D) * qsum (map (fun x => pr_weight x * difference_spec x) D))%Qc
    with (qsum (map (fun x => pr_weight x * difference_spec x) D) / qsum (map pr_weight D))%Qc by (unfold Qcdiv; ring).
  split.
  - apply Qcdiv_nonneg; auto.
  - replace (qz 2) with (qz 2 * qsum (map pr_weight D) / qsum (map pr_weight D))%Qc by (field; auto).
    apply Qcdiv_le_compat; auto.
Qed.

Lemma C69_difference_schedule_refuted_pf :
  exists ap s1 s2 r,
    (forall e, In e (inputs s1) -> pair_reading true "base" "cand" "" e (r e) /\ i_label e <> None /\ exists b c, pair_finite (r e) b c) /\
    Permutation (inputs s1) (inputs s2) /\
    outcome (difference_combiner ap true "" "" "base" "" "" "cand" "") s1 = Ok (Fin 1%Qc) /\
    outcome (difference_combiner ap true "" "" "base" "" "" "cand" "") s2 = Ok (Fin (Q2Qc (4#3))).
Proof.
  exists ap_sort, (Bundle [two_labelled 0 1 1; two_labelled 1 1 1]),
    (Merge (Bundle [two_labelled 0 1 1]) [Bundle [two_labelled 1 1 1]]),
    (fun e => match i_prediction e with
              | Some (Dict [(_, Leaf [b]); (_, Leaf [c])]) => Paired b c 1%Qc
              | _ => Paired NaN NaN 0%Qc
              end).
  split; [|split; [apply Permutation_refl|split; qc_ex]].
  intros e [<-|[<-|[]]]; (split; [|split; [discriminate|]]);
    try (exists [], []; cbn [i_prediction two_labelled pr_base pr_cand pr_weight];
      (split; [eexists; eexists; repeat split; reflexivity|]; split; [eexists; eexists; repeat split; reflexivity|];
       split; [reflexivity|]; split; [reflexivity|]; cbn; qc_ex));
    cbn; eexists; eexists; (split; [reflexivity|split; [reflexivity|split; discriminate]]).
Qed.

Lemma pearson_assoc a b c : pearson_plus a (pearson_plus b c) = pearson_plus (pearson_plus a b) c.
Proof. unfold pearson_plus; simpl. f_equal; try ring; apply num_plus_assoc. Qed.

Lemma pearson_comm a b : pearson_plus a b = pearson_plus b a.
Proof. unfold pearson_plus; simpl. f_equal; try ring; apply num_plus_comm. Qed.

Lemma pearson_e a : pearson_plus a pearson_zero = a.
Proof. destruct a; unfold pearson_plus, pearson_zero; simpl. f_equal; try ring; apply num_plus_e. Qed.

(** Weighted sum of a quantity, mean, and weighted sum of products of deviations. *)

Definition wsum (f : observed -> Qc) (D : list observed) : Qc := qsum (map (fun x => ob_weight x * f x)%Qc D).

Definition weight_sum (D : list observed) : Qc := qsum (map ob_weight D).

Definition wmean (f : observed -> Qc) (D : list observed) : Qc := (wsum f D / weight_sum D)%Qc.

Definition covariation (f g : observed -> Qc) (D : list observed) : Qc :=
  wsum (fun x => (f x - wmean f D) * (g x - wmean g D))%Qc D.

Lemma wsum_plus f g D : wsum (fun x => f x + g x)%Qc D = (wsum f D + wsum g D)%Qc.
Proof. unfold wsum. rewrite <- qsum_map_plus. apply qsum_map_ext. intros. ring. Qed.

Lemma wsum_scale c f D : wsum (fun x => c * f x)%Qc D = (c * wsum f D)%Qc.
Proof. unfold wsum. rewrite <- qsum_map_scale. apply qsum_map_ext. intros. ring. Qed.

Lemma wsum_const c D : wsum (fun _ => c) D = (c * weight_sum D)%Qc.
Proof. unfold wsum, weight_sum. rewrite <- qsum_map_scale. apply qsum_map_ext. intros. ring. Qed.

Lemma wsum_ext f g D : (forall x, f x = g x) -> wsum f D = wsum g D.
Proof. intro H. unfold wsum. apply qsum_map_ext. intros. rewrite H. reflexivity. Qed.

Lemma covariation_sums f g D : weight_sum D <> 0%Qc ->
  covariation f g D = (wsum (fun x => f x * g x) D - wsum f D * wsum g D / weight_sum D)%Qc.
Proof.
  intro NZ. unfold covariation. set (a := wmean f D). set (b := wmean g D).
  rewrite (wsum_ext _ (fun x => f x * g x + ((- a) * g x + ((- b) * f x + a * b)))%Qc) by (intro; ring).
  rewrite wsum_plus, (wsum_plus (fun x => (- a) * g x)%Qc), (wsum_plus (fun x => (- b) * f x)%Qc), wsum_const, !wsum_scale.
  unfold a, b, wmean. field. exact NZ.
Qed.

(** Weighted Cauchy-Schwarz. *)

Lemma wsum_nonneg f D : (forall x, In x D -> 0 <= ob_weight x)%Qc -> (forall x, 0 <= f x)%Qc -> (0 <= wsum f D)%Qc.
Proof.
  intros W F. apply qsum_nonneg. intros z Hz. apply in_map_iff in Hz. destruct Hz as (u & <- & Hu). apply Qcmult_nonneg; auto.
Qed.

Lemma square_nonneg (x : Qc) : (0 <= x * x)%Qc.
Proof.
  destruct (Qclt_le_dec x 0).
  - replace (x * x)%Qc with (- x * - x)%Qc by ring. apply Qcmult_nonneg; qc_lra.
  - apply Qcmult_nonneg; auto.
Qed.

Lemma cauchy_schwarz f g D : (forall x, In x D -> 0 <= ob_weight x)%Qc ->
  (wsum (fun x => f x * g x) D * wsum (fun x => f x * g x) D <=
   wsum (fun x => f x * f x) D * wsum (fun x => g x * g x) D)%Qc.
Proof.
  induction D as [|x D IH]; intro H; [discriminate|].
  specialize (IH (fun y Hy => H y (or_intror Hy))).
  assert (E : forall u, wsum u (x :: D) = (ob_weight x * u x + wsum u D)%Qc) by reflexivity.
  rewrite !E.
  set (w := ob_weight x) in *. set (a := f x). set (b := g x).
  set (sab := wsum (fun x => f x * g x)%Qc D) in *. set (saa := wsum (fun x => f x * f x)%Qc D) in *.
  set (sbb := wsum (fun x => g x * g x)%Qc D) in *.
  assert (Q : (0 <= saa * (b * b) + sbb * (a * a) - (sab * (a * b) + sab * (a * b)))%Qc).
  { replace (saa * (b * b) + sbb * (a * a) - (sab * (a * b) + sab * (a * b)))%Qc
      with (wsum (fun x => (f x * b - g x * a) * (f x * b - g x * a))%Qc D).
    - apply wsum_nonneg; [intros; apply H; right; auto|intro; apply square_nonneg].
    - rewrite (wsum_ext _ (fun x => (b * b) * (f x * f x) + ((a * a) * (g x * g x) + (- (a * b + a * b)) * (f x * g x)))%Qc) by (intro; ring).
      rewrite wsum_plus, (wsum_plus (fun x => (a * a) * (g x * g x))%Qc), !wsum_scale. fold sab saa sbb. ring. }
  assert (W : (0 <= w)%Qc) by (apply H; left; reflexivity).
  pose proof (Qcmult_nonneg _ _ W Q) as P.
  assert (F : ((w * (a * a) + saa) * (w * (b * b) + sbb) - (w * (a * b) + sab) * (w * (a * b) + sab))%Qc =
    (w * (saa * (b * b) + sbb * (a * a) - (sab * (a * b) + sab * (a * b))) + (saa * sbb - sab * sab))%Qc) by ring.
  assert (G : (0 <= (w * (a * a) + saa) * (w * (b * b) + sbb) - (w * (a * b) + sab) * (w * (a * b) + sab))%Qc).
  { rewrite F. clear F. set (t := (w * _)%Qc) in *. clearbody t.
    assert (0 <= saa * sbb - sab * sab)%Qc.
    { clear -IH. set (u := (sab * sab)%Qc) in *. set (v := (saa * sbb)%Qc) in *. clearbody u v. qc_lra. }
    set (v := (saa * sbb - sab * sab)%Qc) in *. clearbody v. qc_lra. }
  clear -G. set (u := ((w * (a * a) + saa) * _)%Qc) in *. set (v := ((w * (a * b) + sab) * _)%Qc) in *. clearbody u v. qc_lra.
Qed.

Definition pearson_one (x : observed) : pearson :=
  Pearson (ob_weight x * ob_label x) (Fin (ob_weight x * ob_score x)) (ob_weight x * (ob_label x * ob_label x))
    (Fin (ob_weight x * (ob_score x * ob_score x))) (Fin (ob_weight x * ob_label x * ob_score x)) (ob_weight x).

Lemma pearson_of_obs l p w : pearson_of ([l], [Fin p], [w]) = Ok (pearson_one (l, p, w)).
Proof. reflexivity. Qed.

Lemma pearson_sum D : rsum pearson_zero pearson_plus (map pearson_one D) =
  Pearson (wsum ob_label D) (Fin (wsum ob_score D)) (wsum (fun x => ob_label x * ob_label x)%Qc D)
    (Fin (wsum (fun x => ob_score x * ob_score x)%Qc D)) (Fin (wsum (fun x => ob_label x * ob_score x)%Qc D)) (weight_sum D).
Proof.
  induction D as [|x D IH]; [reflexivity|].
  cbn [map rsum fold_right]. change (fold_right pearson_plus pearson_zero) with (rsum pearson_zero pearson_plus).
  rewrite IH. unfold pearson_plus, pearson_one. cbn [p_l p_p p_ll p_pp p_lp p_n num_plus].
  unfold wsum, weight_sum. cbn [map qsum fold_right]. f_equal. f_equal. f_equal. ring.
Qed.

Lemma C70_squared_pearson_pf :
  forall ap sk weighted lk pk m o s ex w,
    (forall e, In e (inputs s) -> holds weighted m o (ex e) (w e) e) ->
    let D := observations ex w (inputs s) in
    let vx := covariation ob_label ob_label D in
    let vy := covariation ob_score ob_score D in
    let c := covariation ob_label ob_score D in
    exists v, outcome (pearson_combiner ap sk false None weighted lk pk m o) s = Ok v /\
      ((0 < weight_sum D)%Qc -> (0 < vx * vy)%Qc -> v = Fin (c * c / (vx * vy))%Qc) /\
      (~ ((0 < weight_sum D)%Qc /\ (0 < vx * vy)%Qc) -> v = NaN) /\
      ((forall e, In e (inputs s) -> (0 <= w e)%Qc) -> v = NaN \/ exists q, v = Fin q /\ (0 <= q <= 1)%Qc).
Proof.
  intros ap sk weighted lk pk m o s ex w H D vx vy c.
  exists (if Qc_ltb 0 (weight_sum D) && Qc_ltb 0 (vx * vy) then Fin (c * c / (vx * vy))%Qc else NaN).
  split; [|split; [|split]].
  - unfold outcome, pearson_combiner.
    rewrite (finite_run pearson_zero pearson_plus pearson_of pearson_one _ pearson_assoc pearson_comm pearson_e pearson_of_obs
               ap (no_sub_key_options false None weighted) lk pk m o eq_refl eq_refl eq_refl eq_refl eq_refl ex w s H).
    fold D. rewrite pearson_sum. cbn [res_combiner c_extract bind]. f_equal.
    unfold pearson_result. cbn [p_l p_p p_ll p_pp p_lp p_n].
    destruct (Qc_ltb 0 (weight_sum D)) eqn:W; [|reflexivity].
    apply Qc_ltb_lt in W. assert (NZ : weight_sum D <> 0%Qc) by (intro E; rewrite E in W; qc_lra).
    cbn [num_sqr num_sub num_scale num_opp num_plus num_ltb num_div andb].
    assert (Ex : (wsum (fun x => ob_label x * ob_label x) D - wsum ob_label D * wsum ob_label D / weight_sum D)%Qc = vx)
      by (unfold vx; rewrite covariation_sums; auto).
    assert (Ey : (wsum (fun x => ob_score x * ob_score x) D + - (/ weight_sum D * (wsum ob_score D * wsum ob_score D)))%Qc = vy).
    { unfold vy. rewrite covariation_sums by auto. unfold Qcdiv. ring. }
    assert (Ec : (wsum (fun x => ob_label x * ob_score x) D + - (wsum ob_label D / weight_sum D * wsum ob_score D))%Qc = c).
    { unfold c. rewrite covariation_sums by auto. unfold Qcdiv. ring. }
    rewrite Ex, Ey, Ec. destruct (Qc_ltb 0 (vx * vy)) eqn:V; [|reflexivity].
    unfold np_div. replace (Qc_eqb (vx * vy) 0) with false; [reflexivity|].
    symmetry. apply Qc_eqb_neq. intro E. rewrite E in V. qc_bool. qc_lra.
  - intros W V. apply Qc_ltb_lt in W, V. rewrite W, V. reflexivity.
  - intro N. destruct (Qc_ltb 0 (weight_sum D)) eqn:W; [|reflexivity]. destruct (Qc_ltb 0 (vx * vy)) eqn:V; [|reflexivity].
    exfalso. apply N. qc_bool. auto.
  - intro NW. destruct (Qc_ltb 0 (weight_sum D) && Qc_ltb 0 (vx * vy)) eqn:E; [|left; reflexivity].
    right. apply andb_true_iff in E. destruct E as [W V]. apply Qc_ltb_lt in W, V.
    eexists. split; [reflexivity|]. split.
    + apply Qcdiv_nonneg; auto. apply square_nonneg.
    + apply Qcdiv_le_1; auto.
      * apply square_nonneg.
      * unfold c, vx, vy, covariation. apply cauchy_schwarz.
        intros x Hx. apply observations_In in Hx. destruct Hx as (e & He & _ & ->). auto.
Qed.

Lemma tjur_assoc a b c : tjur_plus a (tjur_plus b c) = tjur_plus (tjur_plus a b) c.
Proof. unfold tjur_plus; simpl. f_equal; try ring; apply num_plus_assoc. Qed.

Lemma tjur_comm a b : tjur_plus a b = tjur_plus b a.
Proof. unfold tjur_plus; simpl. f_equal; try ring; apply num_plus_comm. Qed.

Lemma tjur_e a : tjur_plus a tjur_zero = a.
Proof. destruct a; unfold tjur_plus, tjur_zero; simpl. f_equal; try ring; apply num_plus_e. Qed.

(** Mean score of the positives and of the negatives; a fractional label makes the
    example a positive to that extent. *)

Definition positives (D : list observed) : Qc := wsum ob_label D.

Definition negatives (D : list observed) : Qc := wsum (fun x => 1 - ob_label x)%Qc D.

Definition mean_positive (D : list observed) : Qc := (wsum (fun x => ob_label x * ob_score x) D / positives D)%Qc.

Definition mean_negative (D : list observed) : Qc := (wsum (fun x => (1 - ob_label x) * ob_score x) D / negatives D)%Qc.

Definition tjur_one (x : observed) : tjur :=
  Tjur ((1 - ob_label x) * ob_weight x) (Fin ((1 - ob_label x) * ob_weight x * ob_score x))
    (ob_label x * ob_weight x) (Fin (ob_label x * ob_weight x * ob_score x)).

Lemma tjur_sum D : rsum tjur_zero tjur_plus (map tjur_one D) =
  Tjur (negatives D) (Fin (wsum (fun x => (1 - ob_label x) * ob_score x)%Qc D)) (positives D)
    (Fin (wsum (fun x => ob_label x * ob_score x)%Qc D)).
Proof.
  induction D as [|x D IH]; [reflexivity|].
  cbn [map rsum fold_right]. change (fold_right tjur_plus tjur_zero) with (rsum tjur_zero tjur_plus).
  rewrite IH. unfold tjur_plus, tjur_one. cbn [j_nl j_np j_pl j_pp num_plus].
  unfold positives, negatives, wsum. cbn [map qsum fold_right]. change (fold_right Qcplus (Q2Qc 0)) with qsum.
  f_equal; try ring; f_equal; ring.
Qed.

Lemma wsum_le f g D : (forall x, In x D -> 0 <= ob_weight x)%Qc -> (forall x, In x D -> f x <= g x)%Qc -> (wsum f D <= wsum g D)%Qc.
Proof.
  intros W F. apply qsum_map_le. intros x Hx. specialize (W x Hx). specialize (F x Hx).
  assert (0 <= ob_weight x * (g x - f x))%Qc by (apply Qcmult_nonneg; qc_lra). qc_nra.
Qed.

Lemma C71_tjur_discrimination_pf :
  forall ap sk weighted lk pk m o s ex w,
    (forall e, In e (inputs s) -> holds weighted m o (ex e) (w e) e) ->
    let D := observations ex w (inputs s) in
    exists t, outcome (tjur_combiner ap sk false None weighted lk pk m o) s = Ok t /\
      (positives D = 0%Qc \/ negatives D = 0%Qc -> discrimination t = NaN /\ relative_discrimination t = NaN) /\
      (positives D <> 0%Qc -> negatives D <> 0%Qc ->
         discrimination t = Fin (mean_positive D - mean_negative D)%Qc /\
         (mean_negative D = 0%Qc -> relative_discrimination t = NaN) /\
         (mean_negative D <> 0%Qc -> relative_discrimination t = Fin (mean_positive D / mean_negative D)%Qc)) /\
      ((forall e, In e (inputs s) -> (0 <= w e)%Qc) ->
       (forall x, In x D -> (0 <= ob_label x <= 1)%Qc /\ (0 <= ob_score x <= 1)%Qc) ->
       discrimination t = NaN \/ exists q, discrimination t = Fin q /\ (- (1) <= q <= 1)%Qc).
Proof.
  intros ap sk weighted lk pk m o s ex w H D.
  exists (Tjur (negatives D) (Fin (wsum (fun x => (1 - ob_label x) * ob_score x)%Qc D)) (positives D)
    (Fin (wsum (fun x => ob_label x * ob_score x)%Qc D))).
  assert (DIS : positives D <> 0%Qc -> negatives D <> 0%Qc ->
     discrimination (Tjur (negatives D) (Fin (wsum (fun x => (1 - ob_label x) * ob_score x)%Qc D)) (positives D)
       (Fin (wsum (fun x => ob_label x * ob_score x)%Qc D))) = Fin (mean_positive D - mean_negative D)%Qc).
  { intros P N. unfold discrimination. cbn [j_nl j_np j_pl j_pp].
    rewrite (proj2 (Qc_eqb_neq _ _) P), (proj2 (Qc_eqb_neq _ _) N). cbn [orb].
    unfold num_sub. cbn [num_scale num_opp num_plus]. f_equal. unfold mean_positive, mean_negative, Qcdiv. ring. }
  split; [|split; [|split]].
  - unfold outcome, tjur_combiner.
    rewrite (finite_run tjur_zero tjur_plus tjur_of tjur_one _ tjur_assoc tjur_comm tjur_e (fun _ _ _ => eq_refl)
               ap (no_sub_key_options false None weighted) lk pk m o eq_refl eq_refl eq_refl eq_refl eq_refl ex w s H).
    fold D. rewrite tjur_sum. reflexivity.
  - intro Z. unfold discrimination, relative_discrimination. cbn [j_nl j_np j_pl j_pp].
    assert (E : Qc_eqb (negatives D) 0 || Qc_eqb (positives D) 0 = true).
    { apply orb_true_iff. destruct Z as [Z|Z]; [right|left]; apply Qc_eqb_eq; auto. }
    rewrite E. cbn [orb]. auto.
  - intros P N. split; [auto|].
    unfold relative_discrimination. cbn [j_nl j_np j_pl j_pp].
    rewrite (proj2 (Qc_eqb_neq _ _) P), (proj2 (Qc_eqb_neq _ _) N). cbn [orb num_eqb num_scale num_div].
    set (np := wsum (fun x => (1 - ob_label x) * ob_score x)%Qc D).
    assert (I : (/ negatives D <> 0)%Qc).
    { intro Z. assert (X : (negatives D * / negatives D)%Qc = 1%Qc) by (field; auto). rewrite Z in X.
      replace (negatives D * 0)%Qc with 0%Qc in X by ring. discriminate. }
    assert (MN : mean_negative D = (/ negatives D * np)%Qc) by (unfold mean_negative, Qcdiv, np; ring).
    split; intro Z.
    + assert (NP : np = 0%Qc).
      { rewrite MN in Z. apply Qcmult_integral in Z. tauto. }
      rewrite (proj2 (Qc_eqb_eq _ _) NP). reflexivity.
    + assert (NP : np <> 0%Qc) by (intro X; apply Z; rewrite MN, X; ring).
      rewrite (proj2 (Qc_eqb_neq _ _) NP). unfold np_div. rewrite <- MN. rewrite (proj2 (Qc_eqb_neq _ _) Z).
      f_equal. unfold mean_positive, Qcdiv. ring.
  - intros W R.
    assert (WD : forall x, In x D -> (0 <= ob_weight x)%Qc).
    { intros x Hx. apply observations_In in Hx. destruct Hx as (e & He & _ & ->). auto. }
    destruct (Qc_eqb (positives D) 0) eqn:P; [left|destruct (Qc_eqb (negatives D) 0) eqn:N; [left|right]].
    + unfold discrimination. cbn [j_nl j_np j_pl j_pp]. rewrite P, orb_true_r. reflexivity.
    + unfold discrimination. cbn [j_nl j_np j_pl j_pp]. rewrite N. reflexivity.
    + apply Qc_eqb_neq in P, N. eexists. split; [apply DIS; auto|].
      assert (UNIT : forall (f : observed -> Qc), (forall x, In x D -> (0 <= f x)%Qc) -> wsum f D <> 0%Qc ->
                (0 <= wsum (fun x => f x * ob_score x) D / wsum f D <= 1)%Qc).
      { intros f F NZ.
        assert (F0 : (0 <= wsum f D)%Qc).
        { apply qsum_nonneg. intros z Hz. apply in_map_iff in Hz. destruct Hz as (u & <- & Hu). apply Qcmult_nonneg; auto. }
        assert (G0 : (0 <= wsum (fun x => f x * ob_score x) D)%Qc).
        { apply qsum_nonneg. intros z Hz. apply in_map_iff in Hz. destruct Hz as (u & <- & Hu). apply Qcmult_nonneg; auto.
          apply Qcmult_nonneg; auto. apply R; auto. }
        assert (G1 : (wsum (fun x => f x * ob_score x) D <= wsum f D)%Qc).
        { apply wsum_le; auto. intros x Hx. destruct (R x Hx) as [_ [_ S1]]. specialize (F x Hx).
          assert (0 <= f x * (1 - ob_score x))%Qc by (apply Qcmult_nonneg; qc_lra). qc_nra. }
        split; [apply Qcdiv_nonneg|apply Qcdiv_le_1]; auto; apply Qc_neq_pos; auto. }
      assert (U1 : (0 <= mean_positive D <= 1)%Qc) by (apply (UNIT ob_label); auto; intros x Hx; apply R; auto).
      assert (U2 : (0 <= mean_negative D <= 1)%Qc).
      { apply (UNIT (fun x => 1 - ob_label x)%Qc); auto. intros x Hx. destruct (R x Hx) as [[_ L1] _]. qc_lra. }
      destruct U1, U2. split; qc_lra.
Qed.

Definition same_value (x : scored) : bool := num_eqb (sc_score x) (Fin (sc_label x)).

Lemma C72_exact_match_pf :
  forall ap sk weighted lk pk m o s ex w,
    (forall e, In e (inputs s) ->
       carries weighted m o e (Reading (map fst (ex e)) (map snd (ex e)) [w e]) /\ ex e <> []) ->
    let D := scored_of ex w (inputs s) in
    let W := qsum (map sc_weight D) in
    W <> 0%Qc ->
    exists v, outcome (match_combiner ap sk false None weighted lk pk m o) s = Ok v /\
      v = (qsum (map sc_weight (filter same_value D)) / W)%Qc /\
      ((forall e, In e (inputs s) -> (0 <= w e)%Qc) -> (0 <= v <= 1)%Qc).
Proof.
  intros ap sk weighted lk pk m o s ex w H D W NZ.
  set (h := fun x : scored => (sc_weight x, times_bool (sc_weight x) (same_value x))).
  set (oo := no_sub_key_options false None weighted).
  assert (R : run (match_combiner ap sk false None weighted lk pk m o) s = Ok (rsum (0%Qc, 0%Qc) plus2 (map h D))).
  { unfold match_combiner.
    assert (add_f : forall a e, tuple_add ap match_of plus2 oo lk pk m o a e =
              (let! y := tuple_add ap match_of plus2 oo lk pk m o (0%Qc, 0%Qc) e in Ok (plus2 a y))).
    { intros a e. unfold tuple_add. destruct (to_label_prediction_example_weight _ _ _ _ _ _ _); cbn [bind]; auto.
      apply (foldM_sum match_of _ plus2 plus2_assoc plus2_comm plus2_e). }
    rewrite (res_run_ok (0%Qc, 0%Qc) _ plus2 _ (fun e => tuple_add ap match_of plus2 oo lk pk m o (0%Qc, 0%Qc) e)
               plus2_assoc plus2_comm plus2_e add_f) with
      (g := fun e => rsum (0%Qc, 0%Qc) plus2 (map h (triples (ex e) (w e)))).
    - rewrite (rsum_scored (0%Qc, 0%Qc) plus2 h plus2_assoc plus2_comm plus2_e). reflexivity.
    - intros e He. destruct (H e He) as [C NE].
      rewrite (tuple_add_sum (0%Qc, 0%Qc) plus2 match_of h plus2_assoc plus2_e ap oo lk pk m o _ e (ex e) (w e)); auto.
      + rewrite plus2_comm, plus2_e. reflexivity.
      + intros [[l p] v] _. unfold as_tuple, match_of, h, same_value, sc_label, sc_score, sc_weight. cbn.
        rewrite andb_true_r. reflexivity. }
  assert (E : rsum (0%Qc, 0%Qc) plus2 (map h D) = (W, qsum (map sc_weight (filter same_value D)))).
  { unfold W. clear. induction D as [|x D IH]; [reflexivity|].
    cbn [map rsum fold_right]. change (fold_right plus2 (0%Qc, 0%Qc)) with (rsum (0%Qc, 0%Qc) plus2). rewrite IH.
    unfold plus2, h. cbn [fst snd filter]. destruct (same_value x); unfold times_bool; cbn [map qsum fold_right]; [reflexivity|].
    f_equal. ring. }
  eexists. split; [|split; [reflexivity|]].
  - unfold outcome. rewrite R, E. cbn [match_combiner res_combiner c_extract bind fst snd]. unfold py_div.
    rewrite (proj2 (Qc_eqb_neq _ _) NZ). reflexivity.
  - intro NW.
    assert (WD : forall x, In x D -> (0 <= sc_weight x)%Qc).
    { intros x Hx. apply in_flat_map in Hx. destruct Hx as (e & He & Hx). apply in_map_iff in Hx. destruct Hx as (y & <- & _).
      unfold sc_weight. cbn [snd]. auto. }
    assert (N0 : (0 <= qsum (map sc_weight (filter same_value D)))%Qc).
    { apply qsum_nonneg. intros z Hz. apply in_map_iff in Hz. destruct Hz as (u & <- & Hu). apply filter_In in Hu. apply WD. tauto. }
    assert (N1 : (0 <= qsum (map sc_weight (filter (fun x => negb (same_value x)) D)))%Qc).
    { apply qsum_nonneg. intros z Hz. apply in_map_iff in Hz. destruct Hz as (u & <- & Hu). apply filter_In in Hu. apply WD. tauto. }
    pose proof (qsum_filter_split sc_weight same_value D) as SP. fold W in SP.
    split; [apply Qcdiv_nonneg|apply Qcdiv_le_1]; auto; try apply Qc_neq_pos; auto; rewrite SP; qc_lra.
Qed.

Definition classes (ls ps : list Q) (w : Q) : inputs_dict :=
  InputsDict (Some (Leaf (map Q2Qc ls))) (Some (Leaf (map (fun p => Fin (Q2Qc p)) ps))) (Some (Leaf [Q2Qc w])).

Lemma C72_unlabelled_matches_refuted_pf :
  exists ap e, i_label e = Some (Leaf []) /\ carries_scores "" "" e [Fin 1%Qc] /\
    outcome (match_combiner ap None false None true "" "" "" "") (Bundle [e]) = Ok 1%Qc.
Proof.
  exists ap_sort, (classes []%Q [1]%Q 1). split; [reflexivity|]. split; [|qc_ex].
  exists (Leaf [Fin 1%Qc]), (Leaf [Fin 1%Qc]). repeat split; reflexivity.
Qed.

Lemma C73_zero_weight_refuted_pf :
  exists ap e r,
    pair_reading true "base" "cand" "" e r /\ pr_weight r = 0%Qc /\
    (forall t, exists f, outcome (flips_combiner ap t true "" "" "base" "" "" "cand" "") (Bundle [e]) = Ok f /\
               symmetric_flip_rate f = Err ZeroDivisionError) /\
    outcome (difference_combiner ap true "" "" "base" "" "" "cand" "") (Bundle [e]) = Err ZeroDivisionError /\
    outcome (match_combiner ap None false None true "" "" "cand" "") (Bundle [e]) = Err ZeroDivisionError /\
    outcome (regression_combiner ap absolute_error (regression_options None false None true) "" "" "cand" "") (Bundle [e]) = Ok NaN /\
    outcome (pearson_combiner ap None false None true "" "" "cand" "") (Bundle [e]) = Ok NaN.
Proof.
  exists ap_sort, (two_labelled (1#2) (1#2) 0), (Paired (Fin (Q2Qc (1#2))) (Fin (Q2Qc (1#2))) 0%Qc).
  split; [|split; [reflexivity|split; [|split; [qc_ex|split; [qc_ex|split; qc_ex]]]]].
  - exists [], []. split; [eexists; eexists; repeat split; reflexivity|]. split; [eexists; eexists; repeat split; reflexivity|].
    split; [reflexivity|]. split; reflexivity.
  - intro t. eexists. split.
    + rewrite (flips_run ap_sort t true "" "" "base" "" "" "cand" "" _ (fun _ => Paired (Fin (Q2Qc (1#2))) (Fin (Q2Qc (1#2))) 0%Qc)).
      * reflexivity.
      * intros e [<-|[]]. exists [], []. split; [eexists; eexists; repeat split; reflexivity|].
        split; [eexists; eexists; repeat split; reflexivity|]. split; [reflexivity|]. split; reflexivity.
    + reflexivity.
Qed.

(** A value reported for class 1 is not that of class 1. Two examples with two
    classes each: the scores of class 1 equal its labels (correlation 1, exact match
    1, discrimination 1), those of class 0 are constant. *)

Definition of_class (c : nat) (ex : inputs_dict -> list (Qc * Qc)) : inputs_dict -> list (Qc * Qc) :=
  fun e => match nth_error (ex e) c with Some x => [x] | None => [] end.

Definition class1 : option sub_key := Some (SubKey (Some 1%Z) None None).

Lemma C74_sub_key_ignored_refuted_pf :
  exists ap s ex w,
    (forall e, In e (inputs s) -> holds true "" "" (ex e) (w e) e) /\
    (let D := observations (of_class 1 ex) w (inputs s) in
     let c := covariation ob_label ob_score D in
     c <> 0%Qc /\ (c * c)%Qc = (covariation ob_label ob_label D * covariation ob_score ob_score D)%Qc /\
     (mean_positive D - mean_negative D)%Qc = 1%Qc /\
     (forall x, In x D -> ob_label x = ob_score x)) /\
    outcome (pearson_combiner ap class1 false None true "" "" "" "") s = Ok (Fin (Q2Qc (1#3))) /\
    (exists t, outcome (tjur_combiner ap class1 false None true "" "" "" "") s = Ok t /\ discrimination t = Fin (Q2Qc (1#2))) /\
    outcome (match_combiner ap class1 false None true "" "" "" "") s = Ok (Q2Qc (3#4)).
Proof.
  exists ap_sort, (Bundle [classes [0; 0]%Q [1; 0]%Q 1; classes [1; 1]%Q [1; 1]%Q 1]),
    (fun e => match i_label e with
              | Some (Leaf [a; b]) => [(a, 1%Qc); (b, b)]
              | _ => []
              end), (fun _ => 1%Qc).
  split; [|split; [|split; [qc_ex|split; [exists (Tjur (qz 2) (Fin 1%Qc) (qz 2) (Fin (qz 2))); split; qc_ex|qc_ex]]]].
  - intros e [<-|[<-|[]]]; (split; [|discriminate]); (split; [reflexivity|split; [eexists; eexists; repeat split; reflexivity|reflexivity]]).
  - cbv zeta. split; [vm_compute; discriminate|]. split; [qc_ex|]. split; [qc_ex|].
    intros x [<-|[<-|[]]]; reflexivity.
Qed.

(** Flip rates and prediction differences use the first class whatever the sub key
    (which their combiners do not receive at all): here class 1 flips. *)

Definition two_classes (b c : list Q) (w : Q) : inputs_dict :=
  InputsDict (Some (Leaf [1%Qc; 0%Qc]))
    (Some (Dict [("base", Leaf (map (fun q => Fin (Q2Qc q)) b)); ("cand", Leaf (map (fun q => Fin (Q2Qc q)) c))]))
    (Some (Leaf [Q2Qc w])).

Lemma C74_flips_first_class_refuted_pf :
  exists ap t e f,
    carries_scores "base" "" e [Fin (Q2Qc (1#4)); Fin (Q2Qc (3#4))] /\
    carries_scores "cand" "" e [Fin (Q2Qc (1#4)); Fin 0%Qc] /\ t = Q2Qc (1#2) /\
    outcome (flips_combiner ap t true "" "" "base" "" "" "cand" "") (Bundle [e]) = Ok f /\
    symmetric_flip_rate f = Ok 0%Qc /\
    outcome (difference_combiner ap true "" "" "base" "" "" "cand" "") (Bundle [e]) = Ok (Fin 0%Qc).
Proof.
  exists ap_sort, (Q2Qc (1#2)), (two_classes [1#4; 3#4]%Q [1#4; 0]%Q 1), (Flips 1%Qc 1%Qc 0%Qc 0%Qc 0%Qc).
  split; [eexists; eexists; repeat split; reflexivity|]. split; [eexists; eexists; repeat split; reflexivity|].
  split; [reflexivity|]. split; [qc_ex|]. split; qc_ex.
Qed.

Lemma C75_all_components_refuted_pf :
  exists ap e ls ps,
    carries true "" "" e (Reading ls (map Fin ps) [1%Qc]) /\ length ls = 2 /\ ls <> ps /\
    outcome (match_combiner ap None false None true "" "" "" "") (Bundle [e]) = Ok (Q2Qc (1#2)).
Proof.
  exists ap_sort, (classes [1; 0]%Q [1; 1]%Q 1), [1%Qc; 0%Qc], [1%Qc; 1%Qc].
  split; [|split; [reflexivity|split; [discriminate|qc_ex]]].
  split; [reflexivity|split; [eexists; eexists; repeat split; reflexivity|reflexivity]].
Qed.
