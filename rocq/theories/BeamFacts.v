(* Generic reasoning about schedules. *)
From Verif Require Import Base BaseFacts Beam.

Section SchedInd.
  Context {I : Type} (P : sched I -> Prop).
  Hypothesis HB : forall xs, P (Bundle xs).
  Hypothesis HM : forall t ts, P t -> Forall P ts -> P (Merge t ts).
  Hypothesis HT : forall t xs, P t -> P (Then t xs).
  Fixpoint sched_ind' (s : sched I) : P s :=
    match s with
    | Bundle xs => HB xs
    | Merge t ts => HM t ts (sched_ind' t)
        ((fix go l : Forall P l :=
            match l with
            | [] => Forall_nil _
            | x :: r => Forall_cons x (sched_ind' x) (go r)
            end) ts)
    | Then t xs => HT t xs (sched_ind' t)
    end.
End SchedInd.

(** The representation principle: if a relation "accumulator a summarises the
    multiset l" is established by create, kept by add and merge, and insensitive
    to order, then it holds of every schedule. *)
Section Represent.
  Context {I A O : Type} (c : combiner I A O) (Rel : A -> list I -> Prop).
  Hypothesis R_create : Rel (c_create c) [].
  Hypothesis R_add : forall a l x, Rel a l -> Rel (c_add c a x) (l ++ [x]).
  Hypothesis R_merge : forall a l ps,
    Rel a l -> Forall (fun p => Rel (fst p) (snd p)) ps ->
    Rel (c_merge c (a :: map fst ps)) (l ++ concat (map snd ps)).

  Lemma rel_fold xs : forall a l, Rel a l -> Rel (fold_left (c_add c) xs a) (l ++ xs).
  Proof.
    induction xs as [|x xs IH]; simpl; intros a l H.
    - rewrite app_nil_r; auto.
    - replace (l ++ x :: xs) with ((l ++ [x]) ++ xs) by (rewrite <- app_assoc; reflexivity).
      apply IH, R_add, H.
  Qed.

  Theorem rel_run s : Rel (run c s) (inputs s).
  Proof.
    induction s using sched_ind'; simpl.
    - change xs with ([] ++ xs) at 2. apply rel_fold, R_create.
    - replace (map (run c) ts) with (map fst (map (fun t => (run c t, inputs t)) ts))
        by (rewrite map_map; reflexivity).
      replace (flat_map inputs ts) with (concat (map snd (map (fun t => (run c t, inputs t)) ts)))
        by (rewrite map_map, flat_map_concat_map; reflexivity).
      apply R_merge; auto.
      induction H; simpl; constructor; auto.
    - apply rel_fold; auto.
  Qed.
End Represent.

(** Homomorphism principle: accumulators carry an abstraction into a commutative
    monoid (up to an equivalence). *)
Section Hom.
  Context {I A O M : Type} (c : combiner I A O).
  Context (eqv : M -> M -> Prop) (op : M -> M -> M) (e : M).
  Hypothesis eqv_equiv : Equivalence eqv.
  Hypothesis op_proper : forall a b x y, eqv a b -> eqv x y -> eqv (op a x) (op b y).
  Hypothesis op_assoc : forall a b d, eqv (op a (op b d)) (op (op a b) d).
  Hypothesis op_comm : forall a b, eqv (op a b) (op b a).
  Hypothesis op_e : forall a, eqv (op a e) a.
  Context (abs : A -> M) (f : I -> M).
  Hypothesis H_create : eqv (abs (c_create c)) e.
  Hypothesis H_add : forall a x, eqv (abs (c_add c a x)) (op (abs a) (f x)).
  Hypothesis H_merge : forall a l,
    eqv (abs (c_merge c (a :: l))) (fold_left (fun m b => op m (abs b)) l (abs a)).

  Definition msum (l : list M) : M := fold_right op e l.

  Lemma op_e_l a : eqv (op e a) a.
  Proof. etransitivity; [apply op_comm|apply op_e]. Qed.

  Lemma msum_app l1 l2 : eqv (msum (l1 ++ l2)) (op (msum l1) (msum l2)).
  Proof.
    induction l1; simpl.
    - symmetry. apply op_e_l.
    - etransitivity; [apply op_proper; [reflexivity|exact IHl1]|]. apply op_assoc.
  Qed.

  Lemma msum_perm l1 l2 : Permutation l1 l2 -> eqv (msum l1) (msum l2).
  Proof.
    induction 1; simpl.
    - reflexivity.
    - apply op_proper; [reflexivity|auto].
    - etransitivity; [apply op_assoc|].
      etransitivity; [apply op_proper; [apply op_comm|reflexivity]|].
      symmetry. apply op_assoc.
    - etransitivity; eauto.
  Qed.

  Theorem hom_run s : eqv (abs (run c s)) (msum (map f (inputs s))).
  Proof.
    apply (rel_run c (fun a l => eqv (abs a) (msum (map f l)))); simpl; auto.
    - intros a l x H. rewrite map_app. simpl.
      etransitivity; [apply H_add|].
      etransitivity; [apply op_proper; [exact H|reflexivity]|].
      symmetry. etransitivity; [apply msum_app|]. simpl.
      apply op_proper; [reflexivity|apply op_e].
    - intros a l ps Ha Hps.
      etransitivity; [apply H_merge|].
      rewrite map_app.
      assert (G : forall m, eqv m (msum (map f l)) ->
        eqv (fold_left (fun m b => op m (abs b)) (map fst ps) m)
            (msum (map f l ++ map f (concat (map snd ps))))).
      { clear Ha a. revert l. induction Hps as [|[b k] ps Hb Hps IH]; simpl; intros l m Hm.
        - rewrite app_nil_r. exact Hm.
        - rewrite map_app, app_assoc, <- map_app.
          apply IH. simpl in Hb. rewrite map_app.
          etransitivity; [apply op_proper; [exact Hm|exact Hb]|].
          symmetry. apply msum_app. }
      apply G. exact Ha.
  Qed.
End Hom.

(** Two schedules over the same multiset of inputs give the same result. *)
Theorem hom_schedule_independent {I A O} (c : combiner I A O) (spec : list I -> O) :
  (forall s, outcome c s = spec (inputs s)) ->
  (forall l1 l2, Permutation l1 l2 -> spec l1 = spec l2) ->
  forall s1 s2, Permutation (inputs s1) (inputs s2) -> outcome c s1 = outcome c s2.
Proof. intros H HP s1 s2 P. rewrite !H. apply HP, P. Qed.

Lemma mapM_app {A B} (f : A -> res B) l1 l2 :
  mapM f (l1 ++ l2) = (let! a := mapM f l1 in let! b := mapM f l2 in Ok (a ++ b)).
Proof.
  induction l1 as [|x l1 IH]; simpl.
  - destruct (mapM f l2); reflexivity.
  - destruct (f x); simpl; auto. rewrite IH. destruct (mapM f l1); simpl; auto.
    destruct (mapM f l2); reflexivity.
Qed.

Lemma mapM_ok {A B} (f : A -> res B) (g : A -> B) l :
  (forall x, In x l -> f x = Ok (g x)) -> mapM f l = Ok (map g l).
Proof.
  induction l as [|x l IH]; simpl; intro H; auto.
  rewrite H by auto. simpl. rewrite IH by auto. reflexivity.
Qed.

Lemma mapM_err {A B} (f : A -> res B) l x e :
  In x l -> f x = Err e -> exists e', mapM f l = Err e'.
Proof.
  induction l as [|y l IH]; simpl; intros H E; [tauto|].
  destruct H as [H|H].
  - subst. rewrite E. simpl. eauto.
  - destruct (f y); simpl; eauto. destruct (IH H E) as [e' E']. rewrite E'. simpl. eauto.
Qed.

(** Combiners built by [res_combiner] whose add is "plus the summary of the input". *)
Section ResHom.
  Context {I A O : Type} (create : A) (add : A -> I -> res A) (plus : A -> A -> A)
          (extract : A -> res O) (f : I -> res A).
  Hypothesis plus_assoc : forall a b d, plus a (plus b d) = plus (plus a b) d.
  Hypothesis plus_comm : forall a b, plus a b = plus b a.
  Hypothesis plus_e : forall a, plus a create = a.
  Hypothesis add_f : forall a x, add a x = (let! y := f x in Ok (plus a y)).

  Definition rsum (l : list A) : A := fold_right plus create l.

  Lemma rsum_app l1 l2 : rsum (l1 ++ l2) = plus (rsum l1) (rsum l2).
  Proof.
    induction l1; simpl.
    - rewrite plus_comm, plus_e. reflexivity.
    - rewrite IHl1. apply plus_assoc.
  Qed.
  Lemma rsum_perm l1 l2 : Permutation l1 l2 -> rsum l1 = rsum l2.
  Proof.
    induction 1; simpl; auto.
    - congruence.
    - rewrite !plus_assoc. f_equal. apply plus_comm.
    - congruence.
  Qed.

  Let summarises (a : res A) (l : list I) : Prop :=
    match mapM f l with Ok ys => a = Ok (rsum ys) | Err _ => exists e, a = Err e end.

  Theorem res_run s : summarises (run (res_combiner create add plus extract) s) (inputs s).
  Proof.
    apply rel_run; unfold summarises; simpl; auto.
    - intros a l x H. rewrite mapM_app. simpl.
      destruct (mapM f l) as [ys|].
      + subst a. simpl. rewrite add_f. destruct (f x); simpl; [|eauto].
        f_equal. rewrite rsum_app. simpl. rewrite plus_e. reflexivity.
      + destruct H as [e1 H]. subst a. simpl. eauto.
    - intros a l ps Ha Hps. rewrite mapM_app.
      revert a l Ha. induction Hps as [|[b k] ps Hb Hps IH]; simpl; intros a l Ha.
      + destruct (mapM f l); simpl; auto. rewrite app_nil_r. auto.
      + rewrite mapM_app. simpl in Hb.
        specialize (IH (let! x := a in let! y := b in Ok (plus x y)) (l ++ k)).
        rewrite mapM_app in IH.
        destruct (mapM f l) as [ys|]; simpl in *.
        * subst a. destruct (mapM f k) as [zs|]; simpl in *.
          -- subst b. simpl in *. rewrite rsum_app in IH. specialize (IH eq_refl).
             destruct (mapM f (concat (map snd ps))); simpl in *; auto.
             rewrite app_assoc. auto.
          -- destruct Hb as [e1 Hb]. subst b. simpl in *. apply IH. eauto.
        * destruct Ha as [e1 Ha]. subst a. simpl in *. apply IH. eauto.
  Qed.

  Corollary res_run_ok s (g : I -> A) :
    (forall x, In x (inputs s) -> f x = Ok (g x)) ->
    run (res_combiner create add plus extract) s = Ok (rsum (map g (inputs s))).
  Proof.
    intro H. pose proof (res_run s) as R. unfold summarises in R.
    rewrite (mapM_ok f g) in R by auto. exact R.
  Qed.

  Corollary res_run_err s x e :
    In x (inputs s) -> f x = Err e ->
    exists e', run (res_combiner create add plus extract) s = Err e'.
  Proof.
    intros H E. pose proof (res_run s) as R. unfold summarises in R.
    destruct (mapM_err f (inputs s) x e H E) as [e' M]. rewrite M in R. exact R.
  Qed.
End ResHom.

(** Same, for accumulators that are a function F of the (good) inputs seen so far,
    without asking for monoid laws outside the image of F. *)
Section ResFun.
  Context {I A O : Type} (create : A) (add : A -> I -> res A) (plus : A -> A -> A)
          (extract : A -> res O) (good : I -> Prop) (F : list I -> A).
  Hypothesis F_nil : F [] = create.
  Hypothesis F_add : forall l x, Forall good l -> good x -> add (F l) x = Ok (F (l ++ [x])).
  Hypothesis F_plus : forall l1 l2, Forall good l1 -> Forall good l2 -> plus (F l1) (F l2) = F (l1 ++ l2).

  Theorem res_fun_run s : Forall good (inputs s) ->
    run (res_combiner create add plus extract) s = Ok (F (inputs s)).
  Proof.
    apply (rel_run (res_combiner create add plus extract) (fun a l => Forall good l -> a = Ok (F l))).
    - intros _. cbn [res_combiner c_create]. rewrite F_nil. reflexivity.
    - intros a l x H G. apply Forall_app in G. destruct G as [G1 G2].
      rewrite (H G1). cbn [res_combiner c_add bind]. apply F_add; auto. inversion G2; auto.
    - intros a l ps Ha Hps. cbn [res_combiner c_merge merge_next].
      revert a l Ha. induction Hps as [|[b k] ps Hb Hps IH]; intros a l Ha G.
      + simpl in *. rewrite app_nil_r in *. auto.
      + cbn [map fst snd concat fold_left] in *.
        rewrite app_assoc in *.
        apply (IH (let! x := a in let! y := b in Ok (plus x y)) (l ++ k)); auto.
        intro G'. apply Forall_app in G'. destruct G' as [G1 G2].
        rewrite (Ha G1), (Hb G2). cbn [bind]. rewrite F_plus; auto.
  Qed.
End ResFun.

(** As [rel_run], for the common shape of combiners. *)
Section ResRel.
  Context {I A O : Type} (create : A) (add : A -> I -> res A) (plus : A -> A -> A)
    (extract : A -> res O) (good : I -> Prop) (Rel : A -> list I -> Prop).
  Hypothesis R_create : Rel create [].
  Hypothesis R_add : forall a l x, Rel a l -> good x -> exists a', add a x = Ok a' /\ Rel a' (l ++ [x]).
  Hypothesis R_plus : forall a b l1 l2, Rel a l1 -> Rel b l2 -> Rel (plus a b) (l1 ++ l2).

  Theorem res_rel_run s : Forall good (inputs s) ->
    exists a, run (res_combiner create add plus extract) s = Ok a /\ Rel a (inputs s).
  Proof.
    apply (rel_run (res_combiner create add plus extract)
             (fun a l => Forall good l -> exists x, a = Ok x /\ Rel x l)).
    - intros _. exists create. auto.
    - intros a l x H G. apply Forall_app in G. destruct G as [G1 G2]. inversion G2; subst.
      destruct (H G1) as (a' & -> & R). cbn [res_combiner c_add bind]. apply R_add; auto.
    - intros a l ps H HP. cbn [res_combiner c_merge merge_next].
      revert a l H. induction HP as [|[b l2] ps Hb HP IH]; intros a l H G; cbn [map concat fold_left fst snd] in *.
      + rewrite app_nil_r in *. auto.
      + rewrite app_assoc in *. apply IH; auto. intro G'. apply Forall_app in G'. destruct G' as [G1 G2].
        destruct (H G1) as (x & -> & R1). destruct (Hb G2) as (y & -> & R2). cbn [bind].
        exists (plus x y). auto.
  Qed.
End ResRel.
