(* Proofs of the theorems restated in Validation_Properties.v. *)
From Coq Require Import String.
From Verif Require Import Base BaseFacts Beam BeamFacts Slicer_Model Inputs_Model Keys_Model Keys_Main Means_Model Validation_Model.
Local Open Scope string_scope.
Local Open Scope list_scope.

(* C25 - C33, C87 - C90: validation. *)

(** Numbers compare as numbers. *)

Definition canon (v : fval) : fval := match v with VInt z => VFloat (qz z) | _ => v end.

Lemma py_eqb_canon a b : py_eqb a b = true <-> canon a = canon b.
Proof.
  destruct a, b; cbn [py_eqb canon]; try (split; discriminate);
    rewrite ?String.eqb_eq, ?Z.eqb_eq, ?Qc_eqb_eq.
  - split; congruence.
  - split; congruence.
  - split; [congruence|]. intros H. apply qz_inj. exact (f_equal (fun v => match v with VFloat q => q | _ => qz 0 end) H).
  - split; congruence.
  - split; congruence.
  - split; congruence.
Qed.

Definition canon_pair (f : string * fval) : string * fval := (fst f, canon (snd f)).

Lemma pair_eqb_canon a b : pair_eqb a b = true <-> canon_pair a = canon_pair b.
Proof.
  unfold pair_eqb, canon_pair. rewrite andb_true_iff, String.eqb_eq, py_eqb_canon. split; [intros [-> ->]; reflexivity|].
  intros [= ? ?]. auto.
Qed.

Lemma memb_exists {X} (eqb : X -> X -> bool) x l : memb eqb x l = true <-> exists y, In y l /\ eqb x y = true.
Proof.
  induction l as [|y l IH]; cbn [memb]; [split; [discriminate|intros (? & [] & _)]|]. rewrite orb_true_iff, IH. split.
  - intros [H|(z & ? & ?)]; [exists y; split; [left|]; auto|exists z; split; [right|]; auto].
  - intros (z & [<-|H] & E); [auto|right; exists z; auto].
Qed.

(** Two specs select the same: the same columns and the same values. *)

Definition same_spec (a b : spec) : Prop :=
  (forall c, In c (columns a) <-> In c (columns b)) /\
  (forall f, In f (map canon_pair (features a)) <-> In f (map canon_pair (features b))).

Lemma subset_cols a b : subset String.eqb a b = true <-> forall c, In c a -> In c b.
Proof.
  unfold subset. rewrite forallb_forall. split; intros H c C.
  - apply H in C. apply memb_exists in C. destruct C as (y & Y & E). apply String.eqb_eq in E. subst. exact Y.
  - apply memb_exists. exists c. split; [apply H, C|apply String.eqb_refl].
Qed.

Lemma subset_feats a b : subset pair_eqb a b = true <-> forall f, In f (map canon_pair a) -> In f (map canon_pair b).
Proof.
  unfold subset. rewrite forallb_forall. split.
  - intros H f F. apply in_map_iff in F. destruct F as (x & <- & X). apply H in X. apply memb_exists in X. destruct X as (y & Y & E).
    apply pair_eqb_canon in E. rewrite E. apply in_map, Y.
  - intros H x X. apply (in_map canon_pair) in X. apply H in X. apply in_map_iff in X. destruct X as (y & E & Y). apply memb_exists. exists y.
    split; [exact Y|]. apply pair_eqb_canon. congruence.
Qed.

Lemma spec_eqb_same a b : spec_eqb a b = true <-> same_spec a b.
Proof.
  unfold spec_eqb, same_spec. rewrite !andb_true_iff, !subset_cols, !subset_feats. firstorder.
Qed.

Lemma same_spec_refl a : same_spec a a.
Proof. split; reflexivity. Qed.

Lemma same_spec_sym a b : same_spec a b -> same_spec b a.
Proof. intros [A B]. split; intros x; [rewrite A|rewrite B]; reflexivity. Qed.

Lemma same_spec_trans a b c : same_spec a b -> same_spec b c -> same_spec a c.
Proof. intros [A B] [C D]. split; intros x; [rewrite A; apply C|rewrite B; apply D]. Qed.

(** Two scopes are the same. *)

Definition same_scope (a b : scope) : Prop :=
  match a, b with
  | SingleScope x, SingleScope y => same_spec x y
  | CrossScope x xs, CrossScope y ys => same_spec x y /\ Forall2 same_spec xs ys
  | _, _ => False
  end.

Lemma specs_eqb_same a : forall b, specs_eqb a b = true <-> Forall2 same_spec a b.
Proof.
  induction a as [|x a IH]; intros [|y b]; cbn [specs_eqb]; try (split; [discriminate|intros H; inversion H]); [split; [constructor|reflexivity]|].
  rewrite andb_true_iff, spec_eqb_same, IH. split; [intros [? ?]; constructor; auto|intros H; inversion H; auto].
Qed.

Lemma scope_eqb_same a b : scope_eqb a b = true <-> same_scope a b.
Proof.
  destruct a, b; cbn [scope_eqb same_scope]; rewrite ?andb_true_iff, ?spec_eqb_same, ?specs_eqb_same; try tauto; split; try discriminate; contradiction.
Qed.

Lemma same_scope_refl a : same_scope a a.
Proof. destruct a; cbn; [apply same_spec_refl|split; [apply same_spec_refl|]]. induction specs; constructor; auto using same_spec_refl. Qed.

Lemma same_scope_sym a b : same_scope a b -> same_scope b a.
Proof.
  destruct a, b; cbn; try tauto; [apply same_spec_sym|]. intros [A B]. split; [apply same_spec_sym, A|].
  induction B; constructor; auto using same_spec_sym.
Qed.

Lemma same_scope_trans a b c : same_scope a b -> same_scope b c -> same_scope a c.
Proof.
  destruct a, b, c; cbn; try tauto; [apply same_spec_trans|]. intros [A B] [C D]. split; [eapply same_spec_trans; eauto|].
  revert specs1 D. induction B; intros ss D; inversion D; subst; constructor; eauto using same_spec_trans.
Qed.

Lemma same_num_eq a b : same_num a b = true <-> a = b.
Proof. destruct a, b; cbn; try (split; congruence); rewrite Qc_eqb_eq; split; congruence. Qed.

Lemma option_eqb_iff {X} (eqb : X -> X -> bool) (H : forall x y, eqb x y = true <-> x = y) a b : option_eqb eqb a b = true <-> a = b.
Proof. destruct a, b; cbn [option_eqb]; rewrite ?H; split; congruence. Qed.

Lemma direction_eqb_eq a b : direction_eqb a b = true <-> a = b.
Proof. destruct a, b; cbn; split; congruence. Qed.

Lemma threshold_eqb_eq a b : threshold_eqb a b = true <-> a = b.
Proof.
  destruct a, b; cbn [threshold_eqb]; try (split; congruence);
    rewrite ?andb_true_iff, ?(option_eqb_iff same_num same_num_eq), ?direction_eqb_eq; split; [intros [-> ->]|intros [= -> ->]|intros [[-> ->] ->]|intros [= -> -> ->]]; auto.
Qed.

Lemma memb_threshold t l : memb threshold_eqb t l = true <-> In t l.
Proof. rewrite memb_exists. split; [intros (y & Y & E); apply threshold_eqb_eq in E; subst; exact Y|intros H; exists t; rewrite threshold_eqb_eq; auto]. Qed.

(** The slice a threshold constrains: every single slice without a scope, the slices of
    the slicing spec, or the pairs of the cross slicing spec. *)

Inductive applies : slice_key -> option scope -> Prop :=
| applies_all k : applies (inl k) None
| applies_single k sp : is_slice_applicable sp k = true -> applies (inl k) (Some (SingleScope sp))
| applies_cross b c base specs s : is_slice_applicable base b = true -> In s specs -> is_slice_applicable s c = true ->
    applies (inr (b, c)) (Some (CrossScope base specs)).

Lemma applicable_spec k sc : applicable k sc = true <-> applies k sc.
Proof.
  destruct k as [k|[b c]], sc as [[sp|base specs]|]; cbn [applicable]; try (split; [discriminate|intros H; inversion H]); try (split; [constructor|reflexivity]).
  - split; [intros H; constructor; exact H|intros H; inversion H; auto].
  - unfold cross_applicable. rewrite andb_true_iff, existsb_exists. split.
    + intros (H & s & ? & ?). econstructor; eauto.
    + intros H; inversion H; subst. split; eauto.
Qed.

(** x is at least as good as the bound. *)

Definition good (d : direction) (x bound : num) : Prop :=
  match d with
  | LowerIsBetter => num_leb x bound = true
  | HigherIsBetter => num_leb bound x = true
  | UnknownDirection => False
  end.

Section Passes.
  Context (baseline : option string) (metrics : list (metric_key * mvalue)).

  (** The value of the metric for the baseline model. *)
  Definition baseline_is (k : metric_key) (b : num) : Prop :=
    exists m, baseline = Some m /\
      In (MetricKey (k_name k) m (k_output k) (k_sub k) (k_agg k) (k_weighted k) false, Number b) metrics.

  Definition passes (k : metric_key) (t : threshold) (v : mvalue) : Prop :=
    exists x, v = Number x /\
      match t with
      | ValueThreshold l u =>
          x <> NaN /\ (forall b, l = Some b -> num_leb b x = true) /\ (forall b, u = Some b -> num_leb x b = true)
      | ChangeThreshold a r d =>
          (forall b, a = Some b -> good d x b) /\
          (forall c, r = Some c -> exists b, baseline_is k b /\ b <> Fin 0%Qc /\ good d (num_div x b) c)
      end.

  (** The keys of a dictionary are distinct. *)
  Hypothesis U : NoDup (map fst metrics).

  Lemma baseline_value_spec k b : baseline_value baseline metrics k = Ok b <-> baseline_is k b.
  Proof.
    unfold baseline_value, baseline_is. destruct baseline as [m|]; [|split; [discriminate|intros (? & ? & _); discriminate]].
    assert (G : forall v, dget metric_key_eqb metrics (make_baseline_key k m) = Some v <-> In (make_baseline_key k m, v) metrics).
    { intros v. apply dget_In_NoDup; [apply metric_key_eqb_eq|exact U]. }
    split.
    - destruct (dget metric_key_eqb metrics (make_baseline_key k m)) as [v|] eqn:D; [|discriminate]. pose proof (proj1 (G v) eq_refl) as I0.
      destruct v; try discriminate. intros [= <-]. exists m. auto.
    - intros (m' & [= <-] & I0). apply G in I0. rewrite I0. reflexivity.
  Qed.

  Lemma within_good d x b : within d x b = Ok true <-> good d x b.
  Proof. destruct d; cbn; split; congruence || contradiction || (intros [=]; auto) || (intros ->; auto). Qed.

  Lemma is_zero_spec b : is_zero b = true <-> b = Fin 0%Qc.
  Proof. unfold is_zero. destruct b; cbn; try (split; discriminate). rewrite Qc_eqb_eq. split; congruence. Qed.

  Lemma good_not_nan d c : ~ good d NaN c.
  Proof. destruct d, c; cbn; try discriminate; auto. Qed.

  Lemma check_passes k t v : check_threshold baseline metrics k t v = Ok true <-> passes k t v.
  Proof.
    unfold check_threshold, passes. destruct v as [x| |]; cbn [to_float bind]; try (split; [discriminate|intros (? & ? & _); discriminate]).
    destruct t as [l u|a r d].
    - split.
      + intros [= H]. apply andb_true_iff in H. destruct H as [H1 H2]. exists x. split; [reflexivity|]. split; [|split].
        * intros ->. destruct l as [[]|]; discriminate.
        * intros b ->. exact H1.
        * intros b ->. exact H2.
      + intros (y & [= <-] & N & L & R). f_equal. apply andb_true_iff. split.
        * destruct l as [b|]; [apply L; reflexivity|]. destruct x; congruence || reflexivity.
        * destruct u as [b|]; [apply R; reflexivity|]. destruct x; congruence || reflexivity.
    - split.
      + intros H.
        destruct (match a with Some b => within d x b | None => Ok true end) as [ar|] eqn:A; [|discriminate]. cbn [bind] in H.
        destruct (match r with Some c => _ | None => Ok true end) as [rr|] eqn:R; [|discriminate]. cbn [bind] in H. injection H as H.
        apply andb_true_iff in H. destruct H as [-> ->].
        exists x. split; [reflexivity|]. split.
        * intros b ->. apply within_good, A.
        * intros c ->. destruct (baseline_value baseline metrics k) as [b|] eqn:B; [|discriminate]. cbn [bind] in R. apply within_good in R.
          exists b. split; [apply baseline_value_spec, B|]. destruct (is_zero b) eqn:Z.
          -- destruct (good_not_nan _ _ R).
          -- split; [intros ->; discriminate|exact R].
      + intros (y & [= <-] & A & R).
        assert (A' : match a with Some b => within d x b | None => Ok true end = Ok true) by (destruct a as [b|]; [apply within_good, A|]; reflexivity).
        rewrite A'. cbn [bind].
        assert (R' : match r with Some c => let! b := baseline_value baseline metrics k in within d (if is_zero b then NaN else num_div x b) c | None => Ok true end = Ok true).
        { destruct r as [c|]; [|reflexivity]. destruct (R c eq_refl) as (b & B & N & G). apply baseline_value_spec in B. rewrite B. cbn [bind].
          destruct (is_zero b) eqn:Z; [apply is_zero_spec in Z; contradiction|]. apply within_good, G. }
        rewrite R'. reflexivity.
  Qed.

End Passes.

(** A missing metric is a failure for every threshold of the same kind of slice (single or
    pair); cross slicing specs have to match. *)

Inductive concerns : slice_key -> option scope -> Prop :=
| concerns_all k : concerns (inl k) None
| concerns_single k sp : concerns (inl k) (Some (SingleScope sp))
| concerns_cross b c base specs : applies (inr (b, c)) (Some (CrossScope base specs)) -> concerns (inr (b, c)) (Some (CrossScope base specs)).

Lemma not_found_applicable_spec k sc : not_found_applicable k sc = true <-> concerns k sc.
Proof.
  destruct k as [k|[b c]], sc as [[sp|base specs]|]; cbn [not_found_applicable]; try (split; [discriminate|intros H; inversion H]); try (split; [constructor|reflexivity]).
  rewrite (applicable_spec (inr (b, c)) (Some (CrossScope base specs))). split; [intros H; constructor; exact H|intros H; inversion H; auto].
Qed.

Definition of_baseline (baseline : option string) (k : metric_key) : Prop := baseline = Some (k_model k).

Lemma is_baseline_spec baseline k : is_baseline baseline k = true <-> of_baseline baseline k.
Proof. unfold is_baseline, of_baseline. destruct baseline; [rewrite String.eqb_eq; split; congruence|split; discriminate]. Qed.

(** Threshold t of metric k is violated by the results of a slice. *)

Definition violated (baseline : option string) (slice : slice_key) (metrics : list (metric_key * mvalue)) (ths : thresholds)
    (k : metric_key) (t : threshold) : Prop :=
  ~ of_baseline baseline k /\
  exists sts sc, In (k, sts) ths /\ In (sc, t) sts /\
    ((exists v, In (k, v) metrics /\ applies slice sc /\ ~ passes baseline metrics k t v) \/
     ((forall v, ~ In (k, v) metrics) /\ concerns slice sc)).

Lemma check_metric_spec baseline slice metrics (U : NoDup (map fst metrics)) k v : forall sts seen fs ds,
  check_metric baseline slice metrics k v seen sts = Ok (fs, ds) ->
  (forall f, In f fs -> f_key f = k) /\
  (forall t, (exists f, In f fs /\ f_threshold f = t) <->
     ~ In t seen /\ exists sc, In (sc, t) sts /\ applies slice sc /\ ~ passes baseline metrics k t v).
Proof.
  induction sts as [|[sc t] sts IH]; intros seen fs ds H; cbn [check_metric] in H.
  - injection H as <- <-. split; [intros ? []|]. intros t. split; [intros (? & [] & _)|intros (_ & ? & [] & _)].
  - destruct (applicable slice sc) eqn:A; cbn [negb] in H.
    2:{ destruct (IH _ _ _ H) as [I1 I2]. split; [exact I1|]. intros t'. rewrite I2. split; intros (N & sc' & S1 & S2 & S3); (split; [exact N|]).
        - exists sc'. split; [right; exact S1|auto].
        - destruct S1 as [[= -> ->]|S1]; [apply applicable_spec in S2; congruence|exists sc'; auto]. }
    apply applicable_spec in A.
    set (cm := match check_threshold baseline metrics k t v with Ok b => Ok (b, NoMessage) | Err ValueError => Ok (false, InvalidComparison) | Err e => Err e end) in H.
    destruct cm as [[b m]|] eqn:CM; [|discriminate]. cbn [bind fst snd] in H.
    assert (B : b = true <-> passes baseline metrics k t v).
    { rewrite <- (check_passes baseline metrics U). subst cm. destruct (check_threshold baseline metrics k t v) as [b'|[]]; try discriminate; injection CM as <- _; split; congruence. }
    destruct b.
    + destruct (check_metric baseline slice metrics k v seen sts) as [[fs' ds']|] eqn:R; [|discriminate]. cbn [bind fst snd] in H. injection H as <- <-.
      destruct (IH _ _ _ R) as [I1 I2]. split; [exact I1|]. intros t'. rewrite I2. split; intros (N & sc' & S1 & S2 & S3); (split; [exact N|]).
      * exists sc'. split; [right; exact S1|auto].
      * destruct S1 as [[= <- <-]|S1]; [destruct S3; apply B; reflexivity|exists sc'; auto].
    + assert (NP : ~ passes baseline metrics k t v) by (intros P; apply B in P; discriminate).
      destruct (memb threshold_eqb t seen) eqn:M.
      * apply memb_threshold in M. destruct (IH _ _ _ H) as [I1 I2]. split; [exact I1|]. intros t'. rewrite I2. split; intros (N & sc' & S1 & S2 & S3); (split; [exact N|]).
        -- exists sc'. split; [right; exact S1|auto].
        -- destruct S1 as [[= -> ->]|S1]; [contradiction|exists sc'; auto].
      * assert (M' : ~ In t seen) by (rewrite <- memb_threshold; congruence).
        destruct (to_float v) as [x|]; [|discriminate]. cbn [bind] in H.
        destruct (check_metric baseline slice metrics k v (t :: seen) sts) as [[fs' ds']|] eqn:R; [|discriminate]. cbn [bind fst snd] in H. injection H as <- <-.
        destruct (IH _ _ _ R) as [I1 I2]. split; [intros f [<-|F]; [reflexivity|apply I1, F]|].
        intros t'. split.
        -- intros (f & [<-|F] & T).
           ++ cbn [f_threshold] in T. subst t'. split; [exact M'|]. exists sc. split; [left; reflexivity|auto].
           ++ destruct (proj1 (I2 t') (ex_intro _ f (conj F T))) as (N & sc' & S1 & S2 & S3). split; [intros X; apply N; right; exact X|].
              exists sc'. split; [right; exact S1|auto].
        -- intros (N & sc' & S1 & S2 & S3).
           destruct (threshold_eqb t t') eqn:E.
           ++ apply threshold_eqb_eq in E. subst t'. exists (Failure k (Some x) t m). split; [left; reflexivity|reflexivity].
           ++ assert (NE : t <> t') by (rewrite <- threshold_eqb_eq; congruence).
              destruct S1 as [[= _ ->]|S1]; [contradiction|].
              destruct (proj2 (I2 t')) as (f & F & T); [|exists f; split; [right; exact F|exact T]].
              split; [intros [X|X]; contradiction|exists sc'; auto].
Qed.

Lemma not_found_spec slice k : forall sts seen,
  (forall f, In f (not_found slice k seen sts) -> f_key f = k) /\
  (forall t, (exists f, In f (not_found slice k seen sts) /\ f_threshold f = t) <-> ~ In t seen /\ exists sc, In (sc, t) sts /\ concerns slice sc).
Proof.
  induction sts as [|[sc t] sts IH]; intros seen; cbn [not_found].
  - split; [intros ? []|]. intros t. split; [intros (? & [] & _)|intros (_ & ? & [] & _)].
  - destruct (not_found_applicable slice sc) eqn:A; cbn [negb].
    2:{ destruct (IH seen) as [I1 I2]. split; [exact I1|]. intros t'. rewrite I2. split; intros (N & sc' & S1 & S2); (split; [exact N|]).
        - exists sc'. split; [right; exact S1|auto].
        - destruct S1 as [[= -> ->]|S1]; [apply not_found_applicable_spec in S2; congruence|exists sc'; auto]. }
    apply not_found_applicable_spec in A. destruct (memb threshold_eqb t seen) eqn:M.
    + apply memb_threshold in M. destruct (IH seen) as [I1 I2]. split; [exact I1|]. intros t'. rewrite I2. split; intros (N & sc' & S1 & S2); (split; [exact N|]).
      * exists sc'. split; [right; exact S1|auto].
      * destruct S1 as [[= -> ->]|S1]; [contradiction|exists sc'; auto].
    + assert (M' : ~ In t seen) by (rewrite <- memb_threshold; congruence).
      destruct (IH (t :: seen)) as [I1 I2]. split; [intros f [<-|F]; [reflexivity|apply I1, F]|].
      intros t'. split.
      * intros (f & [<-|F] & T).
        -- cbn [f_threshold] in T. subst t'. split; [exact M'|]. exists sc. split; [left; reflexivity|auto].
        -- destruct (proj1 (I2 t') (ex_intro _ f (conj F T))) as (N & sc' & S1 & S2). split; [intros X; apply N; right; exact X|].
           exists sc'. split; [right; exact S1|auto].
      * intros (N & sc' & S1 & S2).
        destruct (threshold_eqb t t') eqn:E.
        -- apply threshold_eqb_eq in E. subst t'. eexists. split; [left; reflexivity|reflexivity].
        -- assert (NE : t <> t') by (rewrite <- threshold_eqb_eq; congruence).
           destruct S1 as [[= _ ->]|S1]; [contradiction|].
           destruct (proj2 (I2 t')) as (f & F & T); [|exists f; split; [right; exact F|exact T]].
           split; [intros [X|X]; contradiction|exists sc'; auto].
Qed.

Lemma mapM_In {X Y} (f : X -> res Y) l : forall ys, mapM f l = Ok ys -> forall y, In y ys <-> exists x, In x l /\ f x = Ok y.
Proof.
  induction l as [|a l IH]; intros ys H y; cbn [mapM] in H.
  - injection H as <-. split; [intros []|intros (? & [] & _)].
  - destruct (f a) as [z|] eqn:F; [|discriminate]. cbn [bind] in H. destruct (mapM f l) as [zs|]; [|discriminate]. injection H as <-. cbn [In].
    rewrite (IH zs eq_refl). split.
    + intros [<-|(x & ? & ?)]; [exists a; auto|exists x; auto].
    + intros (x & [<-|?] & ?); [left; congruence|right; exists x; auto].
Qed.

Lemma mapM_In_l {X Y} (f : X -> res Y) l ys x : mapM f l = Ok ys -> In x l -> exists y, f x = Ok y /\ In y ys.
Proof.
  revert ys. induction l as [|a l IH]; intros ys H I0; [destruct I0|]. cbn [mapM] in H.
  destruct (f a) as [z|] eqn:F; [|discriminate]. cbn [bind] in H. destruct (mapM f l) as [zs|]; [|discriminate]. injection H as <-.
  destruct I0 as [->|I0]; [exists z; split; [exact F|left; reflexivity]|]. destruct (IH zs eq_refl I0) as (y & ? & ?). exists y. split; [auto|right; auto].
Qed.

Lemma dmem_key (m : list (metric_key * mvalue)) k : dmem metric_key_eqb m k = true <-> exists v, In (k, v) m.
Proof.
  unfold dmem. destruct (dget metric_key_eqb m k) as [v|] eqn:D.
  - split; [intros _; exists v; apply (dget_In metric_key_eqb metric_key_eqb_eq) in D; exact D|reflexivity].
  - split; [discriminate|]. intros (v & I0). apply (dget_None metric_key_eqb metric_key_eqb_eq) in D. destruct D. apply (in_map fst) in I0. exact I0.
Qed.

Lemma validate_failures baseline slice metrics ths r : NoDup (map fst metrics) -> NoDup (map fst ths) ->
  validate_metrics baseline slice metrics ths = Ok r ->
  exists fs, v_failures r = match fs with [] => [] | _ => [(slice, fs)] end /\
    v_ok r = match fs with [] => true | _ => false end /\
    forall k t, (exists f, In f fs /\ f_key f = k /\ f_threshold f = t) <-> violated baseline slice metrics ths k t.
Proof.
  intros UM UT H. unfold validate_metrics in H. destruct (mapM _ metrics) as [checked|] eqn:M; [|discriminate]. cbn [bind] in H. injection H as <-.
  set (missing := flat_map _ (filter _ ths)). exists (flat_map fst checked ++ missing). cbn [v_failures v_ok]. split; [reflexivity|]. split; [reflexivity|].
  intros k t. unfold violated. split.
  - intros (f & F & FK & FT). apply in_app_or in F. destruct F as [F|F].
    + apply in_flat_map in F. destruct F as ([fs ds] & C & F). cbn [fst] in F. apply (mapM_In _ _ _ M) in C. destruct C as ([k' v] & I0 & C). cbn [fst snd] in C.
      destruct (dget metric_key_eqb ths k') as [sts|] eqn:D; [|injection C as <- <-; destruct F].
      destruct (is_baseline baseline k') eqn:B; [injection C as <- <-; destruct F|].
      destruct (check_metric_spec _ _ _ UM _ _ _ _ _ _ C) as [C1 C2]. pose proof (C1 f F) as E. rewrite FK in E. subst k'.
      destruct (proj1 (C2 t) (ex_intro _ f (conj F FT))) as (_ & sc & S1 & S2 & S3).
      split; [rewrite <- is_baseline_spec; congruence|]. exists sts, sc. apply (dget_In metric_key_eqb metric_key_eqb_eq) in D.
      split; [exact D|]. split; [exact S1|]. left. exists v. auto.
    + unfold missing in F. apply in_flat_map in F. destruct F as ([k' sts] & I0 & F). apply filter_In in I0. destruct I0 as [I0 I1]. cbn [fst snd] in *.
      destruct (is_baseline baseline k') eqn:B; [destruct F|].
      destruct (not_found_spec slice k' sts []) as [N1 N2]. pose proof (N1 f F) as E. rewrite FK in E. subst k'.
      destruct (proj1 (N2 t) (ex_intro _ f (conj F FT))) as (_ & sc & S1 & S2).
      split; [rewrite <- is_baseline_spec; congruence|]. exists sts, sc. split; [exact I0|]. split; [exact S1|]. right. split; [|exact S2].
      intros v V. assert (X : dmem metric_key_eqb metrics k = true) by (apply dmem_key; eauto). rewrite X in I1. discriminate.
  - intros (NB & sts & sc & I0 & I1 & [(v & V & A & P)|(V & A)]).
    + destruct (mapM_In_l _ _ _ _ M V) as ([fs ds] & C & IC). cbn [fst snd] in C.
      rewrite (proj2 (dget_In_NoDup metric_key_eqb metric_key_eqb_eq ths k sts UT) I0) in C.
      destruct (is_baseline baseline k) eqn:B; [apply is_baseline_spec in B; contradiction|].
      destruct (check_metric_spec _ _ _ UM _ _ _ _ _ _ C) as [C1 C2].
      destruct (proj2 (C2 t)) as (f & F & FT); [split; [intros []|exists sc; auto]|].
      exists f. split; [apply in_or_app; left; apply in_flat_map; exists (fs, ds); auto|]. split; [apply C1, F|exact FT].
    + destruct (not_found_spec slice k sts []) as [N1 N2].
      destruct (proj2 (N2 t)) as (f & F & FT); [split; [intros []|exists sc; auto]|].
      exists f. split; [|split; [apply N1, F|exact FT]]. apply in_or_app. right. unfold missing. apply in_flat_map. exists (k, sts). cbn [fst snd]. split.
      * apply filter_In. split; [exact I0|]. cbn [fst]. destruct (dmem metric_key_eqb metrics k) eqn:D; [|reflexivity]. apply dmem_key in D. destruct D as (v & D). destruct (V v D).
      * destruct (is_baseline baseline k) eqn:B; [apply is_baseline_spec in B; contradiction|]. exact F.
Qed.

(** The failures of a result that are about metric k and threshold t. *)

Definition reports (r : vresult) (k : metric_key) (t : threshold) : Prop :=
  exists s fs f, In (s, fs) (v_failures r) /\ In f fs /\ f_key f = k /\ f_threshold f = t.

Lemma reports_iff baseline slice metrics ths r : NoDup (map fst metrics) -> NoDup (map fst ths) ->
  validate_metrics baseline slice metrics ths = Ok r -> forall k t, reports r k t <-> violated baseline slice metrics ths k t.
Proof.
  intros UM UT H k t. destruct (validate_failures _ _ _ _ _ UM UT H) as (fs & F & _ & V). rewrite <- V. unfold reports. rewrite F. split.
  - intros (s & l & f & I0 & ?). destruct fs; [destruct I0|]. destruct I0 as [[= <- <-]|[]]. exists f. auto.
  - intros (f & I0 & ?). destruct fs; [destruct I0|]. exists slice, (f0 :: fs), f. split; [left; reflexivity|auto].
Qed.

(** Data of the examples. *)

Definition auc (model : string) (diff : bool) : metric_key := MetricKey "auc" model "" None None None diff.

Definition n (z : Z) : mvalue := Number (Fin (qz z)).

Definition red : slice_key := inl [("c", VStr "red")].

Definition only_red : spec := Spec [] [("c", VStr "red")].

Lemma C25_value_threshold_pf :
  forall baseline slice metrics ths r k sts sc l u x,
    NoDup (map fst metrics) -> NoDup (map fst ths) -> validate_metrics baseline slice metrics ths = Ok r ->
    In (k, sts) ths -> In (sc, ValueThreshold l u) sts -> applies slice sc -> ~ of_baseline baseline k ->
    In (k, Number x) metrics ->
    (reports r k (ValueThreshold l u) <->
     x = NaN \/ (exists b, l = Some b /\ num_leb b x = false) \/ (exists b, u = Some b /\ num_leb x b = false)).
Proof.
  intros baseline slice metrics ths r k sts sc l u x UM UT H I0 I1 A NB V.
  assert (UV : forall v, In (k, v) metrics -> v = Number x).
  { intros v V'. apply (dget_In_NoDup metric_key_eqb metric_key_eqb_eq) in V; [|exact UM]. apply (dget_In_NoDup metric_key_eqb metric_key_eqb_eq) in V'; [|exact UM]. congruence. }
  rewrite (reports_iff _ _ _ _ _ UM UT H). split.
  - intros (_ & sts' & sc' & J0 & J1 & [(v & V' & _ & P)|(V' & _)]); [|destruct (V' _ V)].
    apply UV in V'. subst v.
    destruct (is_nan x) eqn:NX; [left; destruct x; discriminate || reflexivity|]. right.
    destruct (match l with Some b => num_leb b x | None => true end) eqn:L; [|left; destruct l as [b|]; [exists b; auto|discriminate]].
    destruct (match u with Some b => num_leb x b | None => true end) eqn:R; [|right; destruct u as [b|]; [exists b; auto|discriminate]].
    destruct P. exists x. split; [reflexivity|]. split; [intros ->; discriminate|]. split; [intros b ->; exact L|intros b ->; exact R].
  - intros F. split; [exact NB|]. exists sts, sc. split; [exact I0|]. split; [exact I1|]. left. exists (Number x). split; [exact V|]. split; [exact A|].
    intros (y & [= <-] & N & L & R). destruct F as [F|[(b & -> & F)|(b & -> & F)]]; [contradiction|rewrite (L b eq_refl) in F|rewrite (R b eq_refl) in F]; discriminate.
Qed.

Lemma C26_change_threshold_pf :
  forall bm slice metrics ths r k sts sc a rel d x b,
    NoDup (map fst metrics) -> NoDup (map fst ths) -> validate_metrics (Some bm) slice metrics ths = Ok r ->
    In (k, sts) ths -> In (sc, ChangeThreshold a rel d) sts -> applies slice sc -> k_model k <> bm -> d <> UnknownDirection ->
    In (k, Number x) metrics ->
    In (MetricKey (k_name k) bm (k_output k) (k_sub k) (k_agg k) (k_weighted k) false, Number b) metrics ->
    let enough y bound := match d with HigherIsBetter => num_leb bound y = true | _ => num_leb y bound = true end in
    (reports r k (ChangeThreshold a rel d) <->
     ~ ((forall c, a = Some c -> enough x c) /\ (forall c, rel = Some c -> b <> Fin 0%Qc /\ enough (num_div x b) c))).
Proof.
  intros bm slice metrics ths r k sts sc a rel d x b UM UT H I0 I1 A NB ND V VB enough.
  assert (UV : forall k v w, In (k, v) metrics -> In (k, w) metrics -> v = w).
  { intros k' v w V' W'. apply (dget_In_NoDup metric_key_eqb metric_key_eqb_eq) in V'; [|exact UM]. apply (dget_In_NoDup metric_key_eqb metric_key_eqb_eq) in W'; [|exact UM]. congruence. }
  assert (G : forall y bound, good d y bound <-> enough y bound) by (intros y bound; unfold enough; destruct d; cbn; tauto || contradiction).
  assert (P : passes (Some bm) metrics k (ChangeThreshold a rel d) (Number x) <->
    ((forall c, a = Some c -> enough x c) /\ (forall c, rel = Some c -> b <> Fin 0%Qc /\ enough (num_div x b) c))).
  { unfold passes. split.
    - intros (y & [= <-] & PA & PR). split; [intros c C; apply G, PA, C|]. intros c C. destruct (PR c C) as (b' & (m & [= <-] & B) & Z & GG).
      pose proof (UV _ _ _ VB B) as E. injection E as <-. split; [exact Z|apply G, GG].
    - intros [PA PR]. exists x. split; [reflexivity|]. split; [intros c C; apply G, PA, C|]. intros c C. destruct (PR c C) as [Z GG].
      exists b. split; [exists bm; auto|]. split; [exact Z|apply G, GG]. }
  rewrite (reports_iff _ _ _ _ _ UM UT H), <- P. split.
  - intros (_ & sts' & sc' & J0 & J1 & [(v & V' & _ & NP)|(V' & _)]); [|destruct (V' _ V)]. rewrite <- (UV _ _ _ V V') in NP. exact NP.
  - intros NP. split; [unfold of_baseline; congruence|]. exists sts, sc. split; [exact I0|]. split; [exact I1|]. left. exists (Number x). auto.
Qed.

Lemma C27_verdict_exact_pf :
  forall baseline slice metrics ths r,
    NoDup (map fst metrics) -> NoDup (map fst ths) -> validate_metrics baseline slice metrics ths = Ok r ->
    (v_ok r = true <-> forall k t, ~ violated baseline slice metrics ths k t) /\
    (forall k t, reports r k t <-> violated baseline slice metrics ths k t) /\
    (forall s fs, In (s, fs) (v_failures r) -> s = slice).
Proof.
  intros baseline slice metrics ths r UM UT H. destruct (validate_failures _ _ _ _ _ UM UT H) as (fs & F & OK & V).
  split; [|split; [apply reports_iff; auto|]].
  - rewrite OK. destruct fs as [|f fs].
    + split; [intros _ k t X; apply V in X; destruct X as (? & [] & _)|reflexivity].
    + split; [discriminate|]. intros X. destruct (X (f_key f) (f_threshold f)). apply V. exists f. split; [left; reflexivity|auto].
  - intros s l I0. rewrite F in I0. destruct fs; [destruct I0|]. destruct I0 as [[= <- _]|[]]. reflexivity.
Qed.

Lemma C28_missing_metric_any_slice_refuted_pf :
  exists slice metrics k sp t r,
    slice = inl [("c", VStr "blue")] /\ ~ applies slice (Some (SingleScope sp)) /\
    validate_metrics None slice metrics [(k, [(Some (SingleScope sp), t)])] = Ok r /\ v_ok r = false.
Proof.
  exists (inl [("c", VStr "blue")]), [], (auc "m" false), only_red, (ValueThreshold (Some (Fin 0%Qc)) None). eexists.
  split; [reflexivity|]. split; [intros H; inversion H; discriminate|]. split; vm_compute; reflexivity.
Qed.

Lemma C28_scoped_threshold_partial_pf :
  forall baseline slice metrics ths r k t v,
    NoDup (map fst metrics) -> NoDup (map fst ths) -> validate_metrics baseline slice metrics ths = Ok r ->
    In (k, v) metrics -> reports r k t ->
    exists sts sc, In (k, sts) ths /\ In (sc, t) sts /\ applies slice sc.
Proof.
  intros baseline slice metrics ths r k t v UM UT H V R. apply (reports_iff _ _ _ _ _ UM UT H) in R.
  destruct R as (_ & sts & sc & I0 & I1 & [(w & _ & A & _)|(X & _)]); [exists sts, sc; auto|destruct (X v V)].
Qed.

(** The slicing specs that were checked for a slice according to its result. *)

Lemma check_metric_details baseline slice metrics (U : NoDup (map fst metrics)) k v : forall sts seen fs ds,
  check_metric baseline slice metrics k v seen sts = Ok (fs, ds) ->
  (forall d, In d ds -> exists sc t, In (sc, t) sts /\ applies slice sc /\ d = detail_scope sc) /\
  (forall sc t, In (sc, t) sts -> applies slice sc ->
     (passes baseline metrics k t v \/ (~ In t seen /\ forall sc', In (sc', t) sts -> sc' = sc)) -> In (detail_scope sc) ds).
Proof.
  induction sts as [|[sc t] sts IH]; intros seen fs ds H; cbn [check_metric] in H.
  - injection H as <- <-. split; [intros ? []|intros ? ? []].
  - destruct (applicable slice sc) eqn:A; cbn [negb] in H.
    2:{ destruct (IH _ _ _ H) as [I1 I2]. split.
        - intros d D. destruct (I1 d D) as (sc' & t' & ? & ?). exists sc', t'. split; [right|]; auto.
        - intros sc' t' [[= -> ->]|S1] AP C; [apply applicable_spec in AP; congruence|]. apply (I2 sc' t'); auto.
          destruct C as [C|[C1 C2]]; [auto|right]. split; [exact C1|]. intros sc'' X. apply C2. right. exact X. }
    apply applicable_spec in A.
    set (cm := match check_threshold baseline metrics k t v with Ok b => Ok (b, NoMessage) | Err ValueError => Ok (false, InvalidComparison) | Err e => Err e end) in H.
    destruct cm as [[b m]|] eqn:CM; [|discriminate]. cbn [bind fst snd] in H.
    assert (B : b = true <-> passes baseline metrics k t v).
    { rewrite <- (check_passes baseline metrics U). subst cm. destruct (check_threshold baseline metrics k t v) as [b'|[]]; try discriminate; injection CM as <- _; split; congruence. }
    assert (SKIP : forall ds', (forall d, In d ds' -> exists sc' t', In (sc', t') sts /\ applies slice sc' /\ d = detail_scope sc') ->
      forall d, In d ds' -> exists sc' t', In (sc', t') ((sc, t) :: sts) /\ applies slice sc' /\ d = detail_scope sc').
    { intros ds' I1 d D. destruct (I1 d D) as (sc' & t' & ? & ?). exists sc', t'. split; [right|]; auto. }
    destruct b.
    + destruct (check_metric baseline slice metrics k v seen sts) as [[fs' ds']|] eqn:R; [|discriminate]. cbn [bind fst snd] in H. injection H as <- <-.
      destruct (IH _ _ _ R) as [I1 I2]. split.
      * intros d [<-|D]; [exists sc, t; split; [left; reflexivity|auto]|apply SKIP with (ds' := ds'); auto].
      * intros sc' t' [[= <- <-]|S1] AP C; [left; reflexivity|]. right. apply (I2 sc' t'); auto.
        destruct C as [C|[C1 C2]]; [auto|right]. split; [exact C1|]. intros sc'' X. apply C2. right. exact X.
    + assert (NP : ~ passes baseline metrics k t v) by (intros P; apply B in P; discriminate).
      destruct (memb threshold_eqb t seen) eqn:M.
      * apply memb_threshold in M. destruct (IH _ _ _ H) as [I1 I2]. split; [apply SKIP, I1|].
        intros sc' t' [[= <- <-]|S1] AP C; [destruct C as [C|[C1 C2]]; contradiction|]. apply (I2 sc' t'); auto.
        destruct C as [C|[C1 C2]]; [auto|right]. split; [exact C1|]. intros sc'' X. apply C2. right. exact X.
      * destruct (to_float v) as [x|]; [|discriminate]. cbn [bind] in H.
        destruct (check_metric baseline slice metrics k v (t :: seen) sts) as [[fs' ds']|] eqn:R; [|discriminate]. cbn [bind fst snd] in H. injection H as <- <-.
        destruct (IH _ _ _ R) as [I1 I2]. split.
        -- intros d [<-|D]; [exists sc, t; split; [left; reflexivity|auto]|apply SKIP with (ds' := ds'); auto].
        -- intros sc' t' [[= <- <-]|S1] AP C; [left; reflexivity|].
           destruct C as [C|[C1 C2]]; [right; apply (I2 sc' t'); auto|].
           destruct (threshold_eqb t t') eqn:E.
           ++ apply threshold_eqb_eq in E. subst t'. rewrite (C2 sc (or_introl eq_refl)). left. reflexivity.
           ++ assert (NE : t <> t') by (rewrite <- threshold_eqb_eq; congruence). right. apply (I2 sc' t'); auto. right. split; [intros [X|X]; contradiction|].
              intros sc'' X. apply C2. right. exact X.
Qed.

(** Threshold t of metric k is checked for the slice, because of scope sc. *)

Definition checked_for (baseline : option string) (slice : slice_key) (metrics : list (metric_key * mvalue)) (ths : thresholds) (sc : option scope) : Prop :=
  exists k sts t v, ~ of_baseline baseline k /\ In (k, sts) ths /\ In (sc, t) sts /\ In (k, v) metrics /\ applies slice sc.

Lemma validate_details baseline slice metrics ths r : NoDup (map fst metrics) -> NoDup (map fst ths) ->
  validate_metrics baseline slice metrics ths = Ok r ->
  (forall d n, In (d, n) (v_details r) -> n = 1%Z /\ exists sc, checked_for baseline slice metrics ths sc /\ d = detail_scope sc) /\
  ((v_ok r = true \/ (forall k sts sc sc' t, In (k, sts) ths -> In (sc, t) sts -> In (sc', t) sts -> sc = sc')) ->
   forall sc, checked_for baseline slice metrics ths sc -> In (detail_scope sc, 1%Z) (v_details r)).
Proof.
  intros UM UT H.
  assert (OK := proj1 (C27_verdict_exact_pf _ _ _ _ _ UM UT H)).
  unfold validate_metrics in H. destruct (mapM _ metrics) as [checked|] eqn:M; [|discriminate]. cbn [bind] in H. injection H as <-. cbn [v_details v_ok] in *.
  split.
  - intros d m I0. apply in_map_iff in I0. destruct I0 as (d' & [= <- <-] & I0). split; [reflexivity|].
    apply in_flat_map in I0. destruct I0 as ([fs ds] & C & D). cbn [snd] in D. apply (mapM_In _ _ _ M) in C. destruct C as ([k v] & I1 & C). cbn [fst snd] in C.
    destruct (dget metric_key_eqb ths k) as [sts|] eqn:G; [|injection C as <- <-; destruct D].
    destruct (is_baseline baseline k) eqn:B; [injection C as <- <-; destruct D|].
    destruct (check_metric_details _ _ _ UM _ _ _ _ _ _ C) as [C1 _]. destruct (C1 d' D) as (sc & t & S1 & S2 & ->).
    exists sc. split; [|reflexivity]. exists k, sts, t, v. split; [rewrite <- is_baseline_spec; congruence|].
    apply (dget_In metric_key_eqb metric_key_eqb_eq) in G. auto.
  - intros COND sc (k & sts & t & v & NB & I0 & I1 & V & A).
    destruct (mapM_In_l _ _ _ _ M V) as ([fs ds] & C & IC). cbn [fst snd] in C.
    rewrite (proj2 (dget_In_NoDup metric_key_eqb metric_key_eqb_eq ths k sts UT) I0) in C.
    destruct (is_baseline baseline k) eqn:B; [apply is_baseline_spec in B; contradiction|].
    destruct (check_metric_details _ _ _ UM _ _ _ _ _ _ C) as [_ C2].
    apply in_map_iff. exists (detail_scope sc). split; [reflexivity|]. apply in_flat_map. exists (fs, ds). split; [exact IC|]. cbn [snd].
    apply (C2 sc t); auto. destruct COND as [COND|COND].
    + left. destruct (check_threshold baseline metrics k t v) as [[]|e] eqn:CT.
      * apply (check_passes baseline metrics UM), CT.
      * exfalso. apply (proj1 OK COND k t). split; [exact NB|]. exists sts, sc. split; [exact I0|]. split; [exact I1|]. left. exists v. split; [exact V|]. split; [exact A|].
        rewrite <- (check_passes baseline metrics UM). congruence.
      * exfalso. apply (proj1 OK COND k t). split; [exact NB|]. exists sts, sc. split; [exact I0|]. split; [exact I1|]. left. exists v. split; [exact V|]. split; [exact A|].
        rewrite <- (check_passes baseline metrics UM). congruence.
    + right. split; [intros []|]. intros sc' X. apply (COND k sts sc' sc t); auto.
Qed.

(** The number recorded for a spec. *)

Definition lookup (l : list (scope * Z)) (sp : spec) : option Z :=
  option_map snd (find (fun d => spec_eqb sp (slicing_spec_field (fst d))) l).

Definition oplus (a b : option Z) : option Z :=
  match a, b with Some x, Some y => Some (x + y)%Z | Some x, None => Some x | None, b => b end.

Lemma oplus_assoc a b c : oplus (oplus a b) c = oplus a (oplus b c).
Proof. destruct a, b, c; cbn; f_equal; lia. Qed.

Lemma oplus_none a : oplus a None = a.
Proof. destruct a; reflexivity. Qed.

Definition osum (l : list (option Z)) : option Z := fold_right oplus None l.

Lemma osum_app a b : osum (a ++ b) = oplus (osum a) (osum b).
Proof. induction a as [|x a IH]; [reflexivity|]. cbn [osum fold_right app] in *. fold (osum (a ++ b)). fold (osum a). rewrite IH, oplus_assoc. reflexivity. Qed.

Lemma spec_eqb_l a b c : spec_eqb a b = true -> spec_eqb a c = spec_eqb b c.
Proof.
  intros E. apply spec_eqb_same in E. destruct (spec_eqb b c) eqn:F.
  - apply spec_eqb_same in F. apply spec_eqb_same. eapply same_spec_trans; eauto.
  - destruct (spec_eqb a c) eqn:G; [|reflexivity]. apply spec_eqb_same in G.
    assert (X : spec_eqb b c = true) by (apply spec_eqb_same; eapply same_spec_trans; [apply same_spec_sym, E|exact G]). congruence.
Qed.

Lemma spec_eqb_comm a b : spec_eqb a b = spec_eqb b a.
Proof.
  destruct (spec_eqb a b) eqn:E; symmetry.
  - apply spec_eqb_same in E. apply spec_eqb_same, same_spec_sym, E.
  - destruct (spec_eqb b a) eqn:F; [|reflexivity]. apply spec_eqb_same, same_spec_sym, spec_eqb_same in F. congruence.
Qed.

(** Entries of a table of details are kept under their own spec. *)

Definition own_key (h : list (spec * (scope * Z))) : Prop := forall k d, In (k, d) h -> k = slicing_spec_field (fst d).

Lemma hashed_fold l : forall h, own_key h ->
  let h' := fold_left (fun h d => let k := slicing_spec_field (fst d) in if dmem spec_eqb h k then h else h ++ [(k, d)]) l h in
  own_key h' /\ (forall sp, dget spec_eqb h' sp = match dget spec_eqb h sp with Some d => Some d | None => find (fun d => spec_eqb sp (slicing_spec_field (fst d))) l end) /\
  (ForallOrdPairs (fun a b => spec_eqb (fst a) (fst b) = false) h -> ForallOrdPairs (fun a b => spec_eqb (fst a) (fst b) = false) h').
Proof.
  assert (SNOC : forall h (k : spec) (d : scope * Z) sp, dget spec_eqb (h ++ [(k, d)]) sp = match dget spec_eqb h sp with Some x => Some x | None => if spec_eqb sp k then Some d else None end).
  { induction h as [|[k0 d0] h IHh]; intros k d sp; cbn [app dget]; [destruct (spec_eqb sp k); reflexivity|]. destruct (spec_eqb sp k0); [reflexivity|]. apply IHh. }
  induction l as [|d l IH]; intros h OK; cbn [fold_left].
  - split; [exact OK|]. split; [intros sp; destruct (dget spec_eqb h sp); reflexivity|auto].
  - cbv zeta. set (k := slicing_spec_field (fst d)). unfold dmem. destruct (dget spec_eqb h k) as [d0|] eqn:D.
    + destruct (IH h OK) as (I1 & I2 & I3). split; [exact I1|]. split; [|exact I3]. intros sp. cbv zeta in I2. rewrite I2. destruct (dget spec_eqb h sp) eqn:DS; [reflexivity|].
      cbn [find]. fold k. destruct (spec_eqb sp k) eqn:E; [|reflexivity].
      exfalso. clear - D DS E. induction h as [|[k1 d1] h IH]; [discriminate|]. cbn [dget] in *. rewrite (spec_eqb_l sp k k1 E) in DS. destruct (spec_eqb k k1); [discriminate|]. auto.
    + assert (OK' : own_key (h ++ [(k, d)])).
      { intros k' d' I0. apply in_app_or in I0. destruct I0 as [I0|[[= <- <-]|[]]]; [apply OK, I0|reflexivity]. }
      destruct (IH _ OK') as (I1 & I2 & I3). split; [exact I1|]. split.
      * intros sp. cbv zeta in I2. rewrite I2, SNOC. cbn [find]. fold k. destruct (dget spec_eqb h sp); [reflexivity|]. destruct (spec_eqb sp k); reflexivity.
      * intros F. apply I3. clear -F D. induction F as [|a h A F IHF]; cbn [app].
        -- repeat constructor.
        -- destruct a as [k1 d1]. cbn [dget] in D. destruct (spec_eqb k k1) eqn:E; [discriminate|]. constructor; [|apply IHF, D].
           apply Forall_app. split; [exact A|]. constructor; [|constructor]. cbn [fst]. rewrite spec_eqb_comm. exact E.
Qed.

Lemma merge_loop_lookup a : forall h, own_key h ->
  forall sp, lookup (fst (merge_loop a h) ++ map snd (snd (merge_loop a h))) sp = oplus (lookup a sp) (option_map snd (dget spec_eqb h sp)).
Proof.
  assert (ML : forall h sp, own_key h -> lookup (map snd h) sp = option_map snd (dget spec_eqb h sp)).
  { intros h sp OK. unfold lookup. induction h as [|[k d] h IH]; [reflexivity|]. cbn [map snd find dget].
    rewrite <- (OK k d (or_introl eq_refl)). destruct (spec_eqb sp k); [reflexivity|]. apply IH. intros k' d' X. apply OK. right. exact X. }
  induction a as [|[s m] a IH]; intros h OK sp; cbn [merge_loop].
  - cbn [fst snd app]. rewrite ML by exact OK. reflexivity.
  - destruct (dget spec_eqb h (slicing_spec_field s)) as [d|] eqn:D.
    + assert (OK' : own_key (ddel spec_eqb h (slicing_spec_field s))).
      { intros k e I0. apply OK. clear -I0. induction h as [|[k1 d1] h IH]; [destruct I0|]. cbn [ddel] in I0. destruct (spec_eqb _ k1); [right; exact I0|]. destruct I0 as [I0|I0]; [left; exact I0|right; apply IH, I0]. }
      cbn [fst snd app]. unfold lookup at 1. cbn [find fst]. destruct (spec_eqb sp (slicing_spec_field s)) eqn:E.
      * cbn [option_map snd]. unfold lookup. cbn [find fst]. rewrite E. cbn [option_map snd].
        assert (DS : dget spec_eqb h sp = Some d).
        { rewrite <- D. clear -E. induction h as [|[k1 d1] h IH]; [reflexivity|]. cbn [dget]. rewrite (spec_eqb_l _ _ k1 E). rewrite IH. reflexivity. }
        rewrite DS. reflexivity.
      * fold (lookup (fst (merge_loop a (ddel spec_eqb h (slicing_spec_field s))) ++ map snd (snd (merge_loop a (ddel spec_eqb h (slicing_spec_field s))))) sp).
        rewrite (IH _ OK'). unfold lookup at 2. cbn [find fst]. rewrite E. fold (lookup a sp). f_equal. f_equal.
        clear -E. induction h as [|[k1 d1] h IH]; [reflexivity|]. cbn [ddel]. destruct (spec_eqb (slicing_spec_field s) k1) eqn:F.
        -- cbn [dget]. rewrite spec_eqb_comm in E. rewrite (spec_eqb_comm sp k1). rewrite spec_eqb_comm in F. rewrite (spec_eqb_l _ _ sp F), E. reflexivity.
        -- cbn [dget]. destruct (spec_eqb sp k1); [reflexivity|exact IH].
    + cbn [fst snd app]. unfold lookup at 1. cbn [find fst]. destruct (spec_eqb sp (slicing_spec_field s)) eqn:E.
      * unfold lookup. cbn [find fst]. rewrite E. cbn [option_map snd].
        assert (DS : dget spec_eqb h sp = None).
        { rewrite <- D. clear -E. induction h as [|[k1 d1] h IH]; [reflexivity|]. cbn [dget]. rewrite (spec_eqb_l _ _ k1 E). rewrite IH. reflexivity. }
        rewrite DS. reflexivity.
      * fold (lookup (fst (merge_loop a h) ++ map snd (snd (merge_loop a h))) sp). rewrite (IH _ OK). unfold lookup at 2. cbn [find fst]. rewrite E. reflexivity.
Qed.

Lemma merge_details_lookup a b sp : lookup (merge_details a b) sp = oplus (lookup a sp) (lookup b sp).
Proof.
  unfold merge_details, hashed_slicing_details. destruct (hashed_fold b []) as (H1 & H2 & _); [intros ? ? []|]. cbv zeta in *.
  rewrite merge_loop_lookup by exact H1. rewrite H2. cbn [dget]. reflexivity.
Qed.

(** No spec occurs twice. *)

Definition distinct (l : list (scope * Z)) : Prop :=
  ForallOrdPairs (fun a b => spec_eqb (slicing_spec_field (fst a)) (slicing_spec_field (fst b)) = false) l.

Lemma merge_details_distinct a b : distinct a -> distinct (merge_details a b).
Proof.
  intros DA. unfold merge_details, hashed_slicing_details. destruct (hashed_fold b []) as (H1 & _ & H3); [intros ? ? []|]. cbv zeta in *.
  set (h := fold_left _ b []) in *. specialize (H3 (FOP_nil _)). clearbody h. clear b.
  assert (G : forall a h, distinct a -> own_key h -> ForallOrdPairs (fun x y => spec_eqb (fst x) (fst y) = false) h ->
    map (fun d => slicing_spec_field (fst d)) (fst (merge_loop a h)) = map (fun d => slicing_spec_field (fst d)) a /\
    own_key (snd (merge_loop a h)) /\ ForallOrdPairs (fun x y => spec_eqb (fst x) (fst y) = false) (snd (merge_loop a h)) /\
    (forall kd, In kd (snd (merge_loop a h)) -> In kd h) /\
    (forall s m kd, In (s, m) a -> In kd (snd (merge_loop a h)) -> spec_eqb (slicing_spec_field s) (fst kd) = false)).
  { clear a h DA H1 H3. induction a as [|[s m] a IH]; intros h DA OK FO; cbn [merge_loop].
    - cbn [fst snd]. split; [reflexivity|]. split; [exact OK|]. split; [exact FO|]. split; [auto|intros ? ? ? []].
    - inversion DA as [|? ? DA1 DA2]; subst. destruct (dget spec_eqb h (slicing_spec_field s)) as [d|] eqn:D.
      + assert (SUB : forall kd, In kd (ddel spec_eqb h (slicing_spec_field s)) -> In kd h).
        { intros kd I0. clear -I0. induction h as [|[k1 d1] h IH]; [destruct I0|]. cbn [ddel] in I0. destruct (spec_eqb _ k1); [right; exact I0|]. destruct I0 as [I0|I0]; [left; exact I0|right; apply IH, I0]. }
        assert (NO : forall kd, In kd (ddel spec_eqb h (slicing_spec_field s)) -> spec_eqb (slicing_spec_field s) (fst kd) = false).
        { clear -FO. intros kd I0. induction FO as [|[k1 d1] h A FO IH]; [destruct I0|]. cbn [ddel] in I0. destruct (spec_eqb (slicing_spec_field s) k1) eqn:E.
          - rewrite Forall_forall in A. specialize (A kd I0). cbn [fst] in A. rewrite (spec_eqb_l _ _ (fst kd) E). exact A.
          - destruct I0 as [<-|I0]; [exact E|apply IH, I0]. }
        destruct (IH (ddel spec_eqb h (slicing_spec_field s)) DA2) as (I1 & I2 & I3 & I4 & I5).
        { intros k e I0. apply OK, SUB, I0. }
        { clear -FO. induction FO as [|[k1 d1] h A FO IH]; [constructor|]. cbn [ddel]. destruct (spec_eqb _ k1); [exact FO|]. constructor; [|exact IH].
          rewrite Forall_forall in A |- *. intros x X. apply A. clear -X. induction h as [|[k2 d2] h IH]; [destruct X|]. cbn [ddel] in X. destruct (spec_eqb _ k2); [right; exact X|]. destruct X as [X|X]; [left; exact X|right; apply IH, X]. }
        cbn [fst snd map]. split; [f_equal; exact I1|]. split; [exact I2|]. split; [exact I3|]. split; [intros kd X; apply SUB, I4, X|].
        intros s' m' kd [[= <- <-]|X] Y; [apply NO, I4, Y|eapply I5; eauto].
      + destruct (IH h DA2 OK FO) as (I1 & I2 & I3 & I4 & I5). cbn [fst snd map]. split; [f_equal; exact I1|]. split; [exact I2|]. split; [exact I3|]. split; [exact I4|].
        intros s' m' kd [[= <- <-]|X] Y; [|eapply I5; eauto]. apply I4 in Y. clear -D Y. induction h as [|[k1 d1] h IH]; [destruct Y|]. cbn [dget] in D. destruct (spec_eqb _ k1) eqn:E; [discriminate|].
        destruct Y as [<-|Y]; [exact E|apply IH; auto]. }
  destruct (G a h DA H1 H3) as (G1 & G2 & G3 & _ & G5).
  set (x := fst (merge_loop a h)) in *. set (y := snd (merge_loop a h)) in *.
  assert (DX : forall l l' : list (scope * Z), map (fun d => slicing_spec_field (fst d)) l = map (fun d => slicing_spec_field (fst d)) l' -> distinct l' -> distinct l).
  { induction l as [|u l IH]; intros [|v l'] E D; try discriminate; [constructor|]. cbn [map] in E. injection E as E1 E2. inversion D as [|? ? D1 D2]; subst. constructor; [|eapply IH; eauto].
    clear -D1 E1 E2. revert l' E2 D1. induction l as [|w l IH]; intros [|w' l'] E2 D1; try discriminate; [constructor|]. cbn [map] in E2. injection E2 as E3 E4. inversion D1; subst. constructor; [congruence|eapply IH; eauto]. }
  assert (DXY : distinct x) by (eapply DX; eauto).
  clear DX DA H1 H3. assert (SEP : forall d kd, In d x -> In kd y -> spec_eqb (slicing_spec_field (fst d)) (fst kd) = false).
  { intros d kd I0 I1. assert (X : In (slicing_spec_field (fst d)) (map (fun d => slicing_spec_field (fst d)) a)) by (rewrite <- G1; apply (in_map (fun d => slicing_spec_field (fst d))), I0).
    apply in_map_iff in X. destruct X as ([s m] & E & X). rewrite <- E. eapply G5; eauto. }
  clearbody x y. clear G1 G5 a h. induction DXY as [|d x A D IH]; cbn [app].
  - clear SEP. induction G3 as [|[k d] y A F IH]; cbn [map]; [constructor|]. constructor.
    + apply Forall_map. rewrite Forall_forall in A |- *. intros kd I0. cbn [snd]. specialize (A kd I0). cbn [fst] in A.
      rewrite <- (G2 k d (or_introl eq_refl)). destruct kd as [k' d']. cbn [snd fst] in *. rewrite <- (G2 k' d' (or_intror I0)). exact A.
    + apply IH. intros k' d' X. apply G2. right. exact X.
  - constructor.
    + apply Forall_app. split; [exact A|]. apply Forall_map, Forall_forall. intros [k' d'] I0. cbn [snd]. rewrite <- (G2 k' d' I0). apply (SEP d (k', d')); [left; reflexivity|exact I0].
    + apply IH. intros u kd U0 K0. apply SEP; [right; exact U0|exact K0].
Qed.

Definition combined (acc : option vresult) (l : list vresult) : Prop :=
  match acc with
  | None => l = []
  | Some r => l <> [] /\ v_ok r = forallb v_ok l /\ v_failures r = flat_map v_failures l /\
              (forall sp, lookup (v_details r) sp = osum (map (fun x => lookup (v_details x) sp) l)) /\ distinct (v_details r)
  end.

Lemma absorb_combined acc l x k : combined acc l -> k <> [] -> v_ok x = forallb v_ok k -> v_failures x = flat_map v_failures k ->
  (forall sp, lookup (v_details x) sp = osum (map (fun y => lookup (v_details y) sp) k)) -> combined (absorb acc x) (l ++ k).
Proof.
  intros C K1 K2 K3 K4. unfold absorb. cbn [combined v_ok v_failures v_details].
  split; [destruct l; [exact K1|discriminate]|]. rewrite forallb_app, flat_map_app.
  destruct acc as [r|]; cbn [combined] in C.
  - destruct C as (_ & C2 & C3 & C4 & C5). rewrite C2, C3, K2, K3. split; [reflexivity|]. split; [reflexivity|]. split; [|apply merge_details_distinct, C5].
    intros sp. rewrite merge_details_lookup, map_app, osum_app, C4, K4. reflexivity.
  - subst l. cbn [fresh v_ok v_failures v_details forallb flat_map app]. rewrite K2, K3. split; [reflexivity|]. split; [reflexivity|]. split; [|apply merge_details_distinct; constructor].
    intros sp. rewrite merge_details_lookup, K4. reflexivity.
Qed.

Lemma combined_run baseline ths rubber s : combined (run (combine_validations baseline ths rubber) s) (inputs s).
Proof.
  apply (rel_run (combine_validations baseline ths rubber) combined).
  - reflexivity.
  - intros a l x C. cbn [combine_validations c_add]. apply absorb_combined; [exact C|discriminate|cbn; rewrite andb_true_r; reflexivity|cbn; rewrite app_nil_r; reflexivity|].
    intros sp. cbn. rewrite oplus_none. reflexivity.
  - intros a l ps C P. cbn [combine_validations c_merge]. revert a l C. induction P as [|[b k] ps B P IH]; intros a l C; cbn [map fst snd concat fold_left].
    + rewrite app_nil_r. exact C.
    + rewrite app_assoc. apply IH. cbn [fst snd] in B. destruct b as [x|].
      * cbn [combined] in B. destruct B as (B1 & B2 & B3 & B4 & _). apply absorb_combined; auto.
      * cbn [combined] in B. subst k. rewrite app_nil_r. exact C.
Qed.

Lemma missing_fold found0 : forall scopes F out,
  (forall s, (exists f, In f F /\ same_scope s f) <-> (exists f, In f (found0 ++ out) /\ same_scope s f)) ->
  ForallOrdPairs (fun a b => ~ same_scope a b) out ->
  let out' := snd (fold_left missing_step scopes (F, out)) in
  (forall s, In s out' -> In s out \/ (exists sc, In sc scopes /\ s = detail_scope sc /\ ~ exists f, In f found0 /\ same_scope s f)) /\
  (forall sc, In sc scopes -> exists f, In f (found0 ++ out') /\ same_scope (detail_scope sc) f) /\
  ForallOrdPairs (fun a b => ~ same_scope a b) out' /\ (forall s, In s out -> In s out').
Proof.
  induction scopes as [|sc scopes IH]; intros F out EQ DI; cbn [fold_left].
  - cbn [snd]. split; [auto|]. split; [intros ? []|auto].
  - unfold missing_step at 2 4 6 8. cbv zeta. cbn [fst snd]. destruct (memb scope_eqb (detail_scope sc) F) eqn:M.
    + destruct (IH F out EQ DI) as (I1 & I2 & I3 & I4). split; [|split; [|split; [exact I3|exact I4]]].
      * intros s X. destruct (I1 s X) as [Y|(sc' & Y & Z)]; [auto|right; exists sc'; split; [right; exact Y|exact Z]].
      * intros sc' [<-|X]; [|apply I2, X]. apply memb_exists in M. destruct M as (f & M1 & M2). apply scope_eqb_same in M2.
        destruct (proj1 (EQ _) (ex_intro _ f (conj M1 M2))) as (g & G1 & G2). exists g. split; [|exact G2].
        apply in_app_or in G1. apply in_or_app. destruct G1 as [G1|G1]; [left; exact G1|right; apply I4, G1].
    + assert (NO : ~ exists f, In f F /\ same_scope (detail_scope sc) f).
      { intros (f & F1 & F2). apply scope_eqb_same in F2. assert (X : memb scope_eqb (detail_scope sc) F = true) by (apply memb_exists; exists f; auto). congruence. }
      destruct (IH (detail_scope sc :: F) (out ++ [detail_scope sc])) as (I1 & I2 & I3 & I4).
      { intros s. split.
        - intros (f & [<-|F1] & F2); [exists (detail_scope sc); split; [apply in_or_app; right; apply in_or_app; right; left; reflexivity|exact F2]|].
          destruct (proj1 (EQ s) (ex_intro _ f (conj F1 F2))) as (g & G1 & G2). exists g. split; [rewrite app_assoc; apply in_or_app; left; exact G1|exact G2].
        - intros (f & F1 & F2). rewrite app_assoc in F1. apply in_app_or in F1. destruct F1 as [F1|[<-|[]]]; [|exists (detail_scope sc); split; [left; reflexivity|exact F2]].
          destruct (proj2 (EQ s) (ex_intro _ f (conj F1 F2))) as (g & G1 & G2). exists g. split; [right; exact G1|exact G2]. }
      { assert (SEP : forall s, In s out -> ~ same_scope s (detail_scope sc)).
        { intros s X Y. apply NO. apply EQ. exists s. split; [apply in_or_app; right; exact X|apply same_scope_sym, Y]. }
        clear -DI SEP. induction DI as [|a l A D IH]; cbn [app]; [repeat constructor|]. constructor.
        - apply Forall_app. split; [exact A|]. constructor; [apply SEP; left; reflexivity|constructor].
        - apply IH. intros s X. apply SEP. right. exact X. }
      split; [|split; [|split; [exact I3|intros s X; apply I4, in_or_app; left; exact X]]].
      * intros s X. destruct (I1 s X) as [Y|(sc' & Y & Z)].
        -- apply in_app_or in Y. destruct Y as [Y|[<-|[]]]; [auto|]. right. exists sc. split; [left; reflexivity|]. split; [reflexivity|].
           intros (f & F1 & F2). apply NO, EQ. exists f. split; [apply in_or_app; left; exact F1|exact F2].
        -- right. exists sc'. split; [right; exact Y|exact Z].
      * intros sc' [<-|X]; [|apply I2, X]. exists (detail_scope sc). split; [|apply same_scope_refl].
        apply in_or_app. right. apply I4, in_or_app. right. left. reflexivity.
Qed.

(** A spec mentioned by a threshold of a non-baseline metric; a threshold without spec
    counts as one for the overall spec. *)

Definition mentioned (baseline : option string) (ths : thresholds) (sc : option scope) : Prop :=
  exists k sts t, ~ of_baseline baseline k /\ In (k, sts) ths /\ In (sc, t) sts.

Lemma get_missing_spec baseline ths details :
  let ms := get_missing_slices baseline ths details in
  (forall s, In s ms -> (exists sc, mentioned baseline ths sc /\ s = detail_scope sc) /\
                        ~ exists sp, s = SingleScope sp /\ lookup details sp <> None) /\
  (forall sc, mentioned baseline ths sc ->
     (exists s, In s ms /\ same_scope (detail_scope sc) s) \/ (exists sp, detail_scope sc = SingleScope sp /\ lookup details sp <> None)) /\
  ForallOrdPairs (fun a b => ~ same_scope a b) ms.
Proof.
  cbv zeta. unfold get_missing_slices, hashed_slicing_details. cbv zeta.
  destruct (hashed_fold details []) as (_ & H2 & _); [intros ? ? []|]. cbv zeta in H2.
  set (h := fold_left _ details []) in *. clearbody h.
  set (found := map (fun kd => SingleScope (fst kd)) h).
  set (scopes := flat_map _ ths).
  assert (FND : forall s, (exists f, In f found /\ same_scope s f) <-> exists sp, s = SingleScope sp /\ lookup details sp <> None).
  { intros s. assert (DG : forall sp, dget spec_eqb h sp <> None <-> exists kd, In kd h /\ same_spec sp (fst kd)).
    { intros sp. clear. induction h as [|[k d] h IH]; cbn [dget]; [split; [congruence|intros (? & [] & _)]|]. destruct (spec_eqb sp k) eqn:E.
      - split; [intros _; exists (k, d); split; [left; reflexivity|apply spec_eqb_same, E]|discriminate].
      - rewrite IH. split; [intros (kd & A & B); exists kd; split; [right; exact A|exact B]|]. intros (kd & [<-|A] & B); [apply spec_eqb_same in B; cbn [fst] in B; congruence|exists kd; auto]. }
    unfold found. split.
    - intros (f & F1 & F2). apply in_map_iff in F1. destruct F1 as (kd & <- & F1). destruct s as [sp|]; [|destruct F2]. exists sp. split; [reflexivity|].
      assert (X : dget spec_eqb h sp <> None) by (apply DG; exists kd; auto). rewrite H2 in X. cbn [dget] in X. unfold lookup. destruct (find _ details); [discriminate|congruence].
    - intros (sp & -> & L). assert (X : dget spec_eqb h sp <> None) by (rewrite H2; cbn [dget]; unfold lookup in L; destruct (find _ details); [discriminate|cbn in L; congruence]).
      apply DG in X. destruct X as (kd & A & B). exists (SingleScope (fst kd)). split; [apply (in_map (fun kd => SingleScope (fst kd))), A|exact B]. }
  assert (SCO : forall sc, In sc scopes <-> mentioned baseline ths sc).
  { intros sc. unfold scopes, mentioned. rewrite in_flat_map. split.
    - intros ([k sts] & I0 & I1). cbn [fst snd] in I1. destruct (is_baseline baseline k) eqn:B; [destruct I1|]. apply in_map_iff in I1. destruct I1 as ([sc' t] & <- & I1).
      exists k, sts, t. split; [rewrite <- is_baseline_spec; congruence|auto].
    - intros (k & sts & t & NB & I0 & I1). exists (k, sts). split; [exact I0|]. cbn [fst snd]. destruct (is_baseline baseline k) eqn:B; [apply is_baseline_spec in B; contradiction|].
      apply in_map_iff. exists (sc, t). auto. }
  clearbody found scopes.
  destruct (missing_fold found scopes found []) as (M1 & M2 & M3 & _); [intros s; rewrite app_nil_r; reflexivity|constructor|]. cbv zeta in M1, M2, M3.
  split; [|split; [|exact M3]].
  - intros s X. destruct (M1 s X) as [[]|(sc & S1 & S2 & S3)]. split; [exists sc; split; [apply SCO, S1|exact S2]|]. rewrite <- FND. exact S3.
  - intros sc X. apply SCO, M2 in X. destruct X as (f & F1 & F2). apply in_app_or in F1. destruct F1 as [F1|F1]; [right|left; exists f; auto]. apply FND. exists f. auto.
Qed.

Lemma osum_none l : osum l = None <-> forall x, In x l -> x = None.
Proof.
  induction l as [|x l IH]; cbn; [split; [intros _ ? []|reflexivity]|]. fold (osum l). destruct x as [z|]; cbn [oplus].
  - split; [destruct (osum l); discriminate|]. intros H. specialize (H _ (or_introl eq_refl)). discriminate.
  - rewrite IH. split; [intros H x [<-|X]; auto|intros H x X; apply H; right; exact X].
Qed.

Lemma lookup_some l sp : lookup l sp <> None <-> exists d, In d l /\ same_spec sp (slicing_spec_field (fst d)).
Proof.
  unfold lookup. destruct (find _ l) as [d|] eqn:F.
  - apply find_some in F. destruct F as [F1 F2]. apply spec_eqb_same in F2. split; [exists d; auto|discriminate].
  - split; [cbn; congruence|]. intros (d & D1 & D2). apply spec_eqb_same in D2. pose proof (find_none _ _ F d D1) as X. cbv beta in X. congruence.
Qed.

Lemma merge_details_from a b d m : In (d, m) (merge_details a b) -> exists m', In (d, m') (a ++ b).
Proof.
  unfold merge_details, hashed_slicing_details.
  assert (H : forall l h kd, In kd (fold_left (fun (h : list (spec * (scope * Z))) (d : scope * Z) => let k := slicing_spec_field (fst d) in if dmem spec_eqb h k then h else h ++ [(k, d)]) l h) -> In kd h \/ In (snd kd) l).
  { induction l as [|e l IH]; intros h kd X; cbn [fold_left] in X; [auto|]. apply IH in X. cbv zeta in X. destruct X as [X|X]; [|right; right; exact X].
    destruct (dmem spec_eqb h _); [auto|]. apply in_app_or in X. destruct X as [X|[<-|[]]]; [auto|right; left; reflexivity]. }
  specialize (H b []). set (h := fold_left _ b []) in *. clearbody h. intros I0. apply in_app_or in I0.
  assert (G : forall a h, (forall d m, In (d, m) (fst (merge_loop a h)) -> exists m', In (d, m') a) /\ (forall kd, In kd (snd (merge_loop a h)) -> In kd h)).
  { clear. induction a as [|[s m] a IH]; intros h; cbn [merge_loop]; [split; [intros ? ? []|auto]|].
    destruct (dget spec_eqb h (slicing_spec_field s)) as [d|].
    - destruct (IH (ddel spec_eqb h (slicing_spec_field s))) as [I1 I2]. cbn [fst snd]. split.
      + intros d' m' [[= <- <-]|X]; [exists m; left; reflexivity|]. destruct (I1 _ _ X) as (m'' & Y). exists m''. right. exact Y.
      + intros kd X. apply I2 in X. clear -X. induction h as [|[k1 d1] h IH]; [destruct X|]. cbn [ddel] in X. destruct (spec_eqb _ k1); [right; exact X|]. destruct X as [X|X]; [left; exact X|right; apply IH, X].
    - destruct (IH h) as [I1 I2]. cbn [fst snd]. split; [|exact I2]. intros d' m' [[= <- <-]|X]; [exists m; left; reflexivity|]. destruct (I1 _ _ X) as (m'' & Y). exists m''. right. exact Y. }
  destruct (G a h) as [G1 G2]. destruct I0 as [I0|I0].
  - destruct (G1 _ _ I0) as (m' & X). exists m'. apply in_or_app. left. exact X.
  - apply in_map_iff in I0. destruct I0 as (kd & E & I0). apply G2, H in I0. destruct I0 as [[]|I0]. exists m. rewrite E in I0. apply in_or_app. right. exact I0.
Qed.

Lemma run_details_from baseline ths rubber s r : run (combine_validations baseline ths rubber) s = Some r ->
  forall d m, In (d, m) (v_details r) -> exists x m', In x (inputs s) /\ In (d, m') (v_details x).
Proof.
  assert (AB : forall acc l x k, (forall r d m, acc = Some r -> In (d, m) (v_details r) -> exists y m', In y l /\ In (d, m') (v_details y)) ->
    (forall d m, In (d, m) (v_details x) -> exists y m', In y k /\ In (d, m') (v_details y)) ->
    forall r d m, absorb acc x = Some r -> In (d, m) (v_details r) -> exists y m', In y (l ++ k) /\ In (d, m') (v_details y)).
  { intros acc l x k A X r0 d m [= <-] D. cbn [v_details] in D. apply merge_details_from in D. destruct D as (m' & D). apply in_app_or in D. destruct D as [D|D].
    - destruct acc as [r0|]; [|destruct D]. destruct (A _ _ _ eq_refl D) as (y & m'' & Y1 & Y2). exists y, m''. split; [apply in_or_app; left; exact Y1|exact Y2].
    - destruct (X _ _ D) as (y & m'' & Y1 & Y2). exists y, m''. split; [apply in_or_app; right; exact Y1|exact Y2]. }
  intros E d m D. revert r d m E D. apply (rel_run (combine_validations baseline ths rubber) (fun acc l => forall r d m, acc = Some r -> In (d, m) (v_details r) -> exists x m', In x l /\ In (d, m') (v_details x))).
  - intros; discriminate.
  - intros a l x A. cbn [combine_validations c_add]. apply AB; [exact A|]. intros d m D. exists x, m. split; [left; reflexivity|exact D].
  - intros a l ps A P. cbn [combine_validations c_merge]. revert a l A. induction P as [|[b k] ps B P IH]; intros a l A; cbn [map fst snd concat fold_left].
    + rewrite app_nil_r. exact A.
    + rewrite app_assoc. apply IH. cbn [fst snd] in B. destruct b as [x|].
      * apply AB; [exact A|]. intros d m. apply (B x d m eq_refl).
      * intros r d m E D. destruct (A r d m E D) as (x & m' & X1 & X2). exists x, m'. split; [apply in_or_app; left; exact X1|exact X2].
Qed.

(** A dictionary of metrics per slice. *)

Definition slice_results := list (slice_key * list (metric_key * mvalue)).

Definition validate_all (baseline : option string) (ths : thresholds) (all : slice_results) : res (list vresult) :=
  mapM (fun sm => validate_metrics baseline (fst sm) (snd sm) ths) all.

Definition no_cross (ths : thresholds) : Prop := forall k sts b ss t, In (k, sts) ths -> ~ In (Some (CrossScope b ss), t) sts.

Definition spec_of (sc : option scope) : spec := match sc with Some (SingleScope sp) => sp | _ => Spec [] [] end.

(** Some slice was checked against a threshold with a spec equal to that of sc. *)

Definition matched (baseline : option string) (ths : thresholds) (all : slice_results) (sc : option scope) : Prop :=
  exists slice metrics sc', In (slice, metrics) all /\ checked_for baseline slice metrics ths sc' /\ same_spec (spec_of sc') (spec_of sc).

Lemma detail_spec ths k sts sc t : no_cross ths -> In (k, sts) ths -> In (sc, t) sts -> detail_scope sc = SingleScope (spec_of sc).
Proof. intros NC I0 I1. destruct sc as [[sp|b ss]|]; [reflexivity| |reflexivity]. destruct (NC _ _ _ _ _ I0 I1). Qed.

Lemma fin_ok_spec baseline ths rubber (s : sched vresult) : ths <> [] ->
  fin_ok (outcome (combine_validations baseline ths rubber) s) = true <->
  inputs s <> [] /\ (forall r, In r (inputs s) -> v_ok r = true) /\
  (forall sc, mentioned baseline ths sc -> exists sp r d, detail_scope sc = SingleScope sp /\ In r (inputs s) /\ In d (v_details r) /\ same_spec sp (slicing_spec_field (fst d))).
Proof.
  intros NE. unfold outcome. pose proof (combined_run baseline ths rubber s) as C. cbn [combine_validations c_extract].
  destruct (run _ s) as [r|]; cbn [combined] in C.
  2:{ rewrite C. cbn [extract_validation fin_ok v_ok]. unfold extract_validation. cbn [fin_ok]. destruct ths; [congruence|]. cbn. split; [discriminate|]. intros (X & _). congruence. }
  destruct C as (C1 & C2 & _ & C4 & _). unfold extract_validation. cbn [fin_ok].
  assert (E : match ths with [] => rubber | _ => v_ok r end = v_ok r) by (destruct ths; [congruence|reflexivity]). rewrite E. clear E.
  rewrite andb_true_iff, C2, forallb_forall.
  destruct (get_missing_spec baseline ths (v_details r)) as (M1 & M2 & _). cbv zeta in *.
  assert (L : forall sp, lookup (v_details r) sp <> None <-> exists x d, In x (inputs s) /\ In d (v_details x) /\ same_spec sp (slicing_spec_field (fst d))).
  { intros sp. rewrite C4. split.
    - intros X. destruct (existsb (fun x => match lookup (v_details x) sp with Some _ => true | None => false end) (inputs s)) eqn:EX.
      + apply existsb_exists in EX. destruct EX as (x & X1 & X2). assert (X3 : lookup (v_details x) sp <> None) by (destruct (lookup _ sp); congruence).
        apply lookup_some in X3. destruct X3 as (d & D1 & D2). exists x, d. auto.
      + exfalso. apply X, osum_none. intros y Y. apply in_map_iff in Y. destruct Y as (x & <- & Y). destruct (lookup (v_details x) sp) eqn:LX; [|reflexivity].
        assert (existsb (fun x => match lookup (v_details x) sp with Some _ => true | None => false end) (inputs s) = true) by (apply existsb_exists; exists x; rewrite LX; auto). congruence.
    - intros (x & d & X1 & X2 & X3) N0. rewrite osum_none in N0. specialize (N0 _ (in_map _ _ _ X1)). cbv beta in N0. assert (lookup (v_details x) sp <> None) by (apply lookup_some; exists d; auto). congruence. }
  split.
  - intros [O MI]. split; [exact C1|]. split; [exact O|]. intros sc X. destruct (M2 sc X) as [(y & Y & _)|(sp & Y1 & Y2)].
    + destruct (get_missing_slices _ _ _); [destruct Y|discriminate].
    + apply L in Y2. destruct Y2 as (x & d & ?). exists sp, x, d. tauto.
  - intros (_ & O & A). split; [exact O|]. destruct (get_missing_slices baseline ths (v_details r)) as [|y ms]; [reflexivity|]. exfalso.
    destruct (M1 y (or_introl eq_refl)) as ((sc & S1 & S2) & NO). destruct (A sc S1) as (sp & x & d & E & X1 & X2 & X3). apply NO. exists sp. split; [congruence|]. apply L. exists x, d. auto.
Qed.

Lemma fin_failures_spec baseline ths rubber (s : sched vresult) :
  fin_failures (outcome (combine_validations baseline ths rubber) s) = flat_map v_failures (inputs s).
Proof.
  unfold outcome. pose proof (combined_run baseline ths rubber s) as C. cbn [combine_validations c_extract].
  destruct (run _ s) as [r|]; cbn [combined] in C; unfold extract_validation; cbn [fin_failures]; [|rewrite C; reflexivity]. tauto.
Qed.

Definition crossing (sc : option scope) : Prop := exists b ss, sc = Some (CrossScope b ss).

Lemma field_spec sc : slicing_spec_field (detail_scope sc) = spec_of sc.
Proof. destruct sc as [[sp|b ss]|]; reflexivity. Qed.

Lemma C29_final_verdict_pf :
  forall baseline ths rubber all rs s,
    ths <> [] -> NoDup (map fst ths) -> Forall (fun sm => NoDup (map fst (snd sm))) all ->
    validate_all baseline ths all = Ok rs -> Permutation (inputs s) rs ->
    let fin := outcome (combine_validations baseline ths rubber) s in
    (fin_ok fin = true <->
     all <> [] /\ (forall slice metrics k t, In (slice, metrics) all -> ~ violated baseline slice metrics ths k t) /\
     (forall sc, mentioned baseline ths sc -> ~ crossing sc /\ matched baseline ths all sc)) /\
    (forall slice metrics k t, In (slice, metrics) all ->
       violated baseline slice metrics ths k t -> exists fs f, In (slice, fs) (fin_failures fin) /\ In f fs /\ f_key f = k /\ f_threshold f = t) /\
    (forall slice fs f, In (slice, fs) (fin_failures fin) -> In f fs ->
       exists metrics, In (slice, metrics) all /\ violated baseline slice metrics ths (f_key f) (f_threshold f)).
Proof.
  intros baseline ths rubber all rs s NE UT UM V P. cbv zeta. unfold validate_all in V. rewrite Forall_forall in UM.
  assert (IN : forall r, In r (inputs s) <-> exists slice metrics, In (slice, metrics) all /\ validate_metrics baseline slice metrics ths = Ok r).
  { intros r. transitivity (In r rs); [split; [apply Permutation_in, P|apply Permutation_in, Permutation_sym, P]|].
    rewrite (mapM_In _ _ _ V). split; [intros ([sl m] & A & B); exists sl, m; auto|intros (sl & m & A & B); exists (sl, m); auto]. }
  assert (EX : forall slice metrics, In (slice, metrics) all -> exists r, validate_metrics baseline slice metrics ths = Ok r /\ In r (inputs s)).
  { intros sl m A. destruct (mapM_In_l _ _ _ _ V A) as (r & R1 & R2). exists r. split; [exact R1|]. apply (Permutation_in _ (Permutation_sym P)), R2. }
  split; [|rewrite fin_failures_spec; split].
  - rewrite fin_ok_spec by exact NE. split.
    + intros (N0 & O & A).
      assert (VI : forall slice metrics k t, In (slice, metrics) all -> ~ violated baseline slice metrics ths k t).
      { intros sl m k t I0. destruct (EX sl m I0) as (r & R1 & R2). apply (proj1 (proj1 (C27_verdict_exact_pf _ _ _ _ _ (UM _ I0) UT R1))), O, R2. }
      split; [|split; [exact VI|]].
      * destruct (inputs s) as [|r l]; [congruence|]. destruct (proj1 (IN r) (or_introl eq_refl)) as (sl & m & I0 & _). intros ->. destruct I0.
      * intros sc MN. destruct (A sc MN) as (sp & r & [d k0] & E & R & D & SS). apply IN in R. destruct R as (sl & m & I0 & R).
        destruct (proj1 (validate_details _ _ _ _ _ (UM _ I0) UT R) d k0 D) as (_ & sc' & CH & ->).
        split; [intros (b & ss & ->); discriminate E|]. exists sl, m, sc'. split; [exact I0|]. split; [exact CH|].
        assert (Q : sp = spec_of sc) by (rewrite <- field_spec, E; reflexivity). subst sp. cbn [fst] in SS. rewrite field_spec in SS. apply same_spec_sym, SS.
    + intros (N0 & VI & A).
      assert (O : forall r, In r (inputs s) -> v_ok r = true).
      { intros r R. apply IN in R. destruct R as (sl & m & I0 & R). apply (proj2 (proj1 (C27_verdict_exact_pf _ _ _ _ _ (UM _ I0) UT R))). intros k t. apply VI, I0. }
      split; [|split; [exact O|]].
      * destruct all as [|[sl m] all]; [congruence|]. destruct (EX sl m (or_introl eq_refl)) as (r & _ & R). destruct (inputs s); [destruct R|discriminate].
      * intros sc MN. destruct (A sc MN) as (NX & sl & m & sc' & I0 & CH & SS). destruct (EX sl m I0) as (r & R1 & R2).
        pose proof (proj2 (validate_details _ _ _ _ _ (UM _ I0) UT R1) (or_introl (O r R2)) sc' CH) as D.
        exists (spec_of sc), r, (detail_scope sc', 1%Z). split; [destruct sc as [[sp|b ss]|]; [reflexivity|destruct NX; exists b, ss; reflexivity|reflexivity]|]. split; [exact R2|]. split; [exact D|].
        cbn [fst]. rewrite field_spec. apply same_spec_sym, SS.
  - intros sl m k t I0 VI. destruct (EX sl m I0) as (r & R1 & R2). destruct (proj2 (reports_iff _ _ _ _ _ (UM _ I0) UT R1 k t) VI) as (sl' & fs & f & F1 & F2 & F3).
    assert (E : sl' = sl) by apply (proj2 (proj2 (C27_verdict_exact_pf _ _ _ _ _ (UM _ I0) UT R1)) _ _ F1). subst sl'. exists fs, f. split; [|auto]. apply in_flat_map. exists r. auto.
  - intros sl fs f I0 F. apply in_flat_map in I0. destruct I0 as (r & R & I0). apply IN in R. destruct R as (sl' & m & I1 & R).
    assert (E : sl = sl') by apply (proj2 (proj2 (C27_verdict_exact_pf _ _ _ _ _ (UM _ I1) UT R)) _ _ I0). subst sl'. exists m. split; [exact I1|].
    apply (reports_iff _ _ _ _ _ (UM _ I1) UT R). exists sl, fs, f. auto.
Qed.

Definition example_ths : thresholds :=
  [(auc "m" false, [(Some (SingleScope only_red), ValueThreshold (Some (Fin (qz 3))) None); (Some (SingleScope overall), ValueThreshold (Some (Fin (qz 5))) None)])].

Definition example_final (all : slice_results) (ths : thresholds) (shape : list vresult -> sched vresult) : option final :=
  match validate_all None ths all with Ok rs => Some (outcome (combine_validations None ths false) (shape rs)) | Err _ => None end.

Lemma C30_no_thresholds_pf :
  forall baseline rubber s,
    let fin := outcome (combine_validations baseline [] rubber) s in
    (fin_ok fin = true <-> rubber = true) /\ (fin_missing_thresholds fin = true <-> rubber = false) /\ fin_rubber_stamp fin = rubber.
Proof.
  intros baseline rubber s. cbv zeta. unfold outcome. cbn [combine_validations c_extract]. unfold extract_validation. cbn [fin_ok fin_missing_thresholds fin_rubber_stamp].
  assert (E : forall d, get_missing_slices baseline [] d = []) by reflexivity. rewrite E. destruct rubber; cbn; repeat split; discriminate || reflexivity.
Qed.

Lemma C31_slice_details_partial_pf :
  forall baseline slice metrics ths r,
    NoDup (map fst metrics) -> NoDup (map fst ths) -> no_cross ths ->
    (forall k sts sc sc' t, In (k, sts) ths -> In (sc, t) sts -> In (sc', t) sts -> sc = sc') ->
    validate_metrics baseline slice metrics ths = Ok r ->
    forall sp, (exists m, In (SingleScope sp, m) (v_details r)) <-> exists sc, checked_for baseline slice metrics ths sc /\ spec_of sc = sp.
Proof.
  intros baseline slice metrics ths r UM UT NC ONE V sp. destruct (validate_details _ _ _ _ _ UM UT V) as [D1 D2]. split.
  - intros (m & I0). destruct (D1 _ _ I0) as (_ & sc & CH & E). exists sc. split; [exact CH|]. destruct CH as (k & sts & t & v & _ & I1 & I2 & _).
    rewrite (detail_spec _ _ _ _ _ NC I1 I2) in E. injection E as ->. reflexivity.
  - intros (sc & CH & <-). exists 1%Z. pose proof (D2 (or_intror ONE) sc CH) as X. destruct CH as (k & sts & t & v & _ & I1 & I2 & _).
    rewrite (detail_spec _ _ _ _ _ NC I1 I2) in X. exact X.
Qed.

Lemma C31_counts_partial_pf :
  forall baseline ths rubber all rs s,
    NoDup (map fst ths) -> no_cross ths -> Forall (fun sm => NoDup (map fst (snd sm))) all ->
    validate_all baseline ths all = Ok rs -> Permutation (inputs s) rs ->
    let details := fin_details (outcome (combine_validations baseline ths rubber) s) in
    let having sp := filter (fun r => existsb (fun d => scope_eqb (SingleScope sp) (fst d)) (v_details r)) rs in
    (forall d m, In (d, m) details -> exists sp, d = SingleScope sp /\ m = Z.of_nat (length (having sp)) /\ (m > 0)%Z) /\
    (forall sp, having sp <> [] -> exists sp' m, In (SingleScope sp', m) details /\ same_spec sp sp') /\
    ForallOrdPairs (fun a b => ~ same_scope (fst a) (fst b)) details.
Proof.
  intros baseline ths rubber all rs s UT NC UM V P. cbv zeta. unfold validate_all in V. rewrite Forall_forall in UM.
  set (having := fun sp => filter (fun r => existsb (fun d => scope_eqb (SingleScope sp) (fst d)) (v_details r)) rs).
  assert (IN : forall r d m, In r rs -> In (d, m) (v_details r) -> m = 1%Z /\ exists sp, d = SingleScope sp).
  { intros r d m R D. rewrite (mapM_In _ _ _ V) in R. destruct R as ([sl ms] & I0 & R). cbn [fst snd] in R.
    destruct (proj1 (validate_details _ _ _ _ _ (UM _ I0) UT R) d m D) as (-> & sc & CH & ->). split; [reflexivity|].
    destruct CH as (k & sts & t & v & _ & I1 & I2 & _). rewrite (detail_spec _ _ _ _ _ NC I1 I2). eexists; reflexivity. }
  assert (ONE : forall r sp, In r rs -> lookup (v_details r) sp = if existsb (fun d => scope_eqb (SingleScope sp) (fst d)) (v_details r) then Some 1%Z else None).
  { intros r sp R. specialize (IN r). induction (v_details r) as [|[d m] l IH]; [reflexivity|]. unfold lookup in *. cbn [find existsb fst].
    destruct (IN d m R (or_introl eq_refl)) as (-> & sp' & ->). cbn [slicing_spec_field scope_eqb].
    destruct (spec_eqb sp sp'); [reflexivity|]. apply IH. intros d' m' _ X. apply (IN d' m' R). right. exact X. }
  assert (SUM : forall l sp, (forall r, In r l -> In r rs) -> osum (map (fun x => lookup (v_details x) sp) l) =
    let h := filter (fun r => existsb (fun d => scope_eqb (SingleScope sp) (fst d)) (v_details r)) l in match h with [] => None | _ => Some (Z.of_nat (length h)) end).
  { induction l as [|r l IH]; intros sp SUB; [reflexivity|]. cbn [map osum fold_right]. fold (osum (map (fun x => lookup (v_details x) sp) l)). rewrite IH by (intros; apply SUB; right; auto).
    rewrite (ONE r sp (SUB _ (or_introl eq_refl))). cbn [filter]. cbv zeta. destruct (existsb _ (v_details r)).
    - destruct (filter _ l) as [|y f]; [reflexivity|]. cbn [oplus length]. f_equal. lia.
    - destruct (filter _ l); reflexivity. }
  unfold outcome. pose proof (combined_run baseline ths rubber s) as C. cbn [combine_validations c_extract].
  destruct (run _ s) as [r|] eqn:RE; cbn [combined] in C; unfold extract_validation; cbn [fin_details].
  2:{ rewrite C in P. apply Permutation_nil in P. subst rs. cbn [v_details]. split; [intros ? ? []|]. split; [intros sp X; destruct X; reflexivity|constructor]. }
  destruct C as (C1 & _ & _ & C4 & C5).
  assert (LK : forall sp, lookup (v_details r) sp = match having sp with [] => None | _ => Some (Z.of_nat (length (having sp))) end).
  { intros sp. rewrite C4, SUM by (intros y Y; apply (Permutation_in _ P), Y). cbv zeta.
    assert (PH : Permutation (filter (fun r => existsb (fun d => scope_eqb (SingleScope sp) (fst d)) (v_details r)) (inputs s)) (having sp)) by (apply filter_perm, P).
    pose proof (Permutation_length PH) as L. destruct (filter _ (inputs s)), (having sp); try discriminate; [reflexivity|]. rewrite L. reflexivity. }
  assert (SG : forall d m, In (d, m) (v_details r) -> exists sp, d = SingleScope sp).
  { intros d m D. destruct (run_details_from _ _ _ _ _ RE d m D) as (x & m' & X1 & X2). apply (IN x d m'); [apply (Permutation_in _ P), X1|exact X2]. }
  split; [|split].
  - intros d m D. destruct (SG d m D) as (sp & ->). exists sp. split; [reflexivity|].
    assert (L : lookup (v_details r) sp = Some m).
    { clear -C5 D. induction C5 as [|[d' m'] l A F IH]; [destruct D|]. unfold lookup. cbn [find fst]. destruct D as [[= -> ->]|D].
      - cbn [slicing_spec_field]. rewrite (proj2 (spec_eqb_same sp sp) (same_spec_refl sp)). reflexivity.
      - rewrite Forall_forall in A. specialize (A _ D). cbn [fst slicing_spec_field] in A. rewrite spec_eqb_comm, A. apply IH, D. }
    rewrite LK in L. destruct (having sp) as [|y h] eqn:H; [discriminate|]. rewrite <- H in L. assert (EM : m = Z.of_nat (length (having sp))) by congruence. split; [exact EM|]. rewrite EM, H. cbn [length]. lia.
  - intros sp H. change (having sp <> []) in H. assert (L : lookup (v_details r) sp <> None) by (rewrite LK; destruct (having sp); [congruence|discriminate]).
    apply lookup_some in L. destruct L as ([d m] & D & SS). destruct (SG d m D) as (sp' & ->). exists sp', m. auto.
  - clear -C5 SG. induction C5 as [|[d m] l A F IH]; [constructor|]. constructor; [|apply IH; intros d' m' X; apply (SG d' m'); right; exact X].
    rewrite Forall_forall in A |- *. intros [d' m'] X. specialize (A _ X). cbn [fst] in *. destruct (SG d m (or_introl eq_refl)) as (sp & ->). destruct (SG d' m' (or_intror X)) as (sp' & ->).
    cbn [slicing_spec_field same_scope] in *. intros Y. apply spec_eqb_same in Y. congruence.
Qed.

Lemma C31_repeated_threshold_refuted_pf :
  exists ths slice metrics sc r,
    checked_for None slice metrics ths sc /\ validate_metrics None slice metrics ths = Ok r /\ (forall m, ~ In (detail_scope sc, m) (v_details r)) /\
    fin_missing (outcome (combine_validations None ths false) (Bundle [r])) = [spec_of sc].
Proof.
  exists [(auc "m" false, [(None, ValueThreshold (Some (Fin (qz 3))) None); (Some (SingleScope only_red), ValueThreshold (Some (Fin (qz 3))) None)])].
  exists red, [(auc "m" false, n 2)], (Some (SingleScope only_red)). eexists. split; [|split; [reflexivity|split]].
  - eexists _, _, _, _. split; [intros [=]|]. split; [left; reflexivity|]. split; [right; left; reflexivity|]. split; [left; reflexivity|]. constructor. reflexivity.
  - intros m [[=]|[]].
  - reflexivity.
Qed.

Lemma C31_cross_slice_as_overall_refuted_pf :
  exists ths slice1 slice2 metrics r1 r2,
    validate_metrics None (inr (slice1, slice2)) metrics ths = Ok r1 /\ validate_metrics None (inl []) metrics ths = Ok r2 /\
    fin_details (outcome (combine_validations None ths false) (Bundle [r1; r2])) = [(CrossScope overall [only_red], 2%Z)].
Proof.
  exists [(auc "m" false, [(None, ValueThreshold (Some (Fin (qz 3))) None); (Some (CrossScope overall [only_red]), ValueThreshold (Some (Fin (qz 3))) None)])].
  exists [], [("c", VStr "red")], [(auc "m" false, n 4)]. eexists _, _. split; [reflexivity|]. split; reflexivity.
Qed.

Lemma details_found baseline ths rubber s sp :
  lookup (fin_details (outcome (combine_validations baseline ths rubber) s)) sp <> None <->
  exists r d, In r (inputs s) /\ In d (v_details r) /\ same_spec sp (slicing_spec_field (fst d)).
Proof.
  unfold outcome. pose proof (combined_run baseline ths rubber s) as C. cbn [combine_validations c_extract].
  destruct (run _ s) as [r|]; cbn [combined] in C; unfold extract_validation; cbn [fin_details].
  2:{ rewrite C. cbn. split; [congruence|intros (? & ? & [] & _)]. }
  destruct C as (_ & _ & _ & C4 & _). rewrite C4. split.
  - intros X. destruct (existsb (fun x => match lookup (v_details x) sp with Some _ => true | None => false end) (inputs s)) eqn:EX.
    + apply existsb_exists in EX. destruct EX as (x & X1 & X2). assert (X3 : lookup (v_details x) sp <> None) by (destruct (lookup _ sp); congruence).
      apply lookup_some in X3. destruct X3 as (d & D1 & D2). exists x, d. auto.
    + exfalso. apply X, osum_none. intros y Y. apply in_map_iff in Y. destruct Y as (x & <- & Y). destruct (lookup (v_details x) sp) eqn:LX; [|reflexivity].
      assert (existsb (fun x => match lookup (v_details x) sp with Some _ => true | None => false end) (inputs s) = true) by (apply existsb_exists; exists x; rewrite LX; auto). congruence.
  - intros (x & d & X1 & X2 & X3) N0. rewrite osum_none in N0. specialize (N0 _ (in_map _ _ _ X1)). cbv beta in N0. assert (lookup (v_details x) sp <> None) by (apply lookup_some; exists d; auto). congruence.
Qed.

Lemma fin_missing_slices baseline ths rubber s :
  let fin := outcome (combine_validations baseline ths rubber) s in
  let ms := get_missing_slices baseline ths (fin_details fin) in
  fin_missing fin = flat_map (fun s => match s with SingleScope sp => [sp] | CrossScope _ _ => [] end) ms /\
  fin_missing_cross fin = flat_map (fun s => match s with SingleScope _ => [] | CrossScope b ss => [(b, ss)] end) ms /\
  (ms <> [] -> fin_ok fin = false).
Proof.
  cbv zeta. unfold outcome. cbn [combine_validations c_extract]. unfold extract_validation. cbn [fin_missing fin_missing_cross fin_ok fin_details].
  split; [reflexivity|]. split; [reflexivity|]. intros H. destruct (get_missing_slices _ _ _); [congruence|apply andb_false_r].
Qed.

Lemma C32_missing_slices_partial_pf :
  forall baseline ths rubber all rs s,
    NoDup (map fst ths) -> no_cross ths -> Forall (fun sm => NoDup (map fst (snd sm))) all ->
    (forall k sts sc sc' t, In (k, sts) ths -> In (sc, t) sts -> In (sc', t) sts -> sc = sc') ->
    validate_all baseline ths all = Ok rs -> Permutation (inputs s) rs ->
    let fin := outcome (combine_validations baseline ths rubber) s in
    (forall sp, In sp (fin_missing fin) -> exists sc, mentioned baseline ths sc /\ spec_of sc = sp /\ ~ matched baseline ths all sc) /\
    (forall sc, mentioned baseline ths sc -> ~ matched baseline ths all sc -> (exists sp, In sp (fin_missing fin) /\ same_spec (spec_of sc) sp) /\ fin_ok fin = false) /\
    ForallOrdPairs (fun a b => ~ same_spec a b) (fin_missing fin) /\ fin_missing_cross fin = [].
Proof.
  intros baseline ths rubber all rs s UT NC UM ONE V P. cbv zeta. unfold validate_all in V. rewrite Forall_forall in UM.
  set (fin := outcome (combine_validations baseline ths rubber) s).
  destruct (fin_missing_slices baseline ths rubber s) as (F1 & F2 & F3). fold fin in F1, F2, F3. cbv zeta in *.
  destruct (get_missing_spec baseline ths (fin_details fin)) as (M1 & M2 & M3). cbv zeta in *.
  set (ms := get_missing_slices baseline ths (fin_details fin)) in *. clearbody ms.
  assert (MT : forall sc, mentioned baseline ths sc -> detail_scope sc = SingleScope (spec_of sc)).
  { intros sc (k & sts & t & _ & I0 & I1). eapply detail_spec; eauto. }
  assert (FD : forall sc, mentioned baseline ths sc -> (lookup (fin_details fin) (spec_of sc) <> None <-> matched baseline ths all sc)).
  { intros sc MN. unfold fin. rewrite details_found. split.
    - intros (r & [d m] & R & D & SS). apply (Permutation_in _ P) in R. rewrite (mapM_In _ _ _ V) in R. destruct R as ([sl met] & I0 & R). cbn [fst snd] in R.
      destruct (proj1 (validate_details _ _ _ _ _ (UM _ I0) UT R) d m D) as (_ & sc' & CH & ->). exists sl, met, sc'. split; [exact I0|]. split; [exact CH|].
      destruct CH as (k & sts & t & v & NB & I1 & I2 & _). cbn [fst] in SS. rewrite MT in SS by (exists k, sts, t; auto). apply same_spec_sym, SS.
    - intros (sl & met & sc' & I0 & CH & SS). destruct (mapM_In_l _ _ _ _ V I0) as (r & R1 & R2). cbn [fst snd] in R1.
      exists r, (detail_scope sc', 1%Z). split; [apply (Permutation_in _ (Permutation_sym P)), R2|].
      split; [apply (proj2 (validate_details _ _ _ _ _ (UM _ I0) UT R1) (or_intror ONE) sc' CH)|].
      destruct CH as (k & sts & t & v & NB & I1 & I2 & _). cbn [fst]. rewrite MT by (exists k, sts, t; auto). apply same_spec_sym, SS. }
  split; [|split; [|split]].
  - intros sp I0. rewrite F1 in I0. apply in_flat_map in I0. destruct I0 as (x & X & I0). destruct x as [sp'|]; [|destruct I0]. destruct I0 as [<-|[]].
    destruct (M1 _ X) as ((sc & S1 & S2) & NO). exists sc. split; [exact S1|]. rewrite (MT sc S1) in S2. injection S2 as ->. split; [reflexivity|].
    rewrite <- (FD sc S1). intros Y. apply NO. exists (spec_of sc). auto.
  - intros sc MN NM. destruct (M2 sc MN) as [(x & X1 & X2)|(sp & X1 & X2)].
    + rewrite (MT sc MN) in X2. destruct x as [sp|]; [|destruct X2]. split.
      * exists sp. split; [|exact X2]. rewrite F1. apply in_flat_map. exists (SingleScope sp). split; [exact X1|left; reflexivity].
      * apply F3. destruct ms; [destruct X1|discriminate].
    + rewrite (MT sc MN) in X1. injection X1 as <-. apply (FD sc MN) in X2. contradiction.
  - rewrite F1. clear -M3. induction M3 as [|a l A F IH]; cbn [flat_map]; [constructor|]. destruct a as [sp|]; cbn [app]; [|exact IH]. constructor; [|exact IH].
    rewrite Forall_forall in A |- *. intros y Y. apply in_flat_map in Y. destruct Y as (x & X & Y). destruct x as [sp'|]; [|destruct Y]. destruct Y as [<-|[]]. apply (A _ X).
  - rewrite F2. assert (SI : forall x, In x ms -> exists sp, x = SingleScope sp).
    { intros x X. destruct (M1 x X) as ((sc & S1 & ->) & _). rewrite (MT sc S1). eexists; reflexivity. }
    clear -SI. induction ms as [|x ms IH]; [reflexivity|]. cbn [flat_map]. destruct (SI x (or_introl eq_refl)) as (sp & ->). apply IH. intros y Y. apply SI. right. exact Y.
Qed.

Lemma C32_checked_slice_missing_refuted_pf :
  exists ths slice metrics sc r,
    checked_for None slice metrics ths sc /\ validate_metrics None slice metrics ths = Ok r /\
    In (spec_of sc) (fin_missing (outcome (combine_validations None ths false) (Bundle [r]))).
Proof.
  destruct C31_repeated_threshold_refuted_pf as (ths & slice & metrics & sc & r & C & V & _ & M).
  exists ths, slice, metrics, sc, r. split; [exact C|]. split; [exact V|]. rewrite M. left. reflexivity.
Qed.

Lemma C32_overall_slice_not_missing_refuted_pf :
  exists ths slice metrics sc r,
    mentioned None ths (Some sc) /\ ~ applies slice (Some sc) /\ validate_metrics None slice metrics ths = Ok r /\
    fin_ok (outcome (combine_validations None ths false) (Bundle [r])) = true.
Proof.
  exists [(auc "m" false, [(None, ValueThreshold (Some (Fin (qz 3))) None); (Some (SingleScope overall), ValueThreshold (Some (Fin (qz 9))) None)])].
  exists red, [(auc "m" false, n 4)], (SingleScope overall). eexists. split; [|split; [|split; reflexivity]].
  - eexists _, _, _. split; [intros [=]|]. split; [left; reflexivity|]. right. left. reflexivity.
  - intros A. apply applicable_spec in A. discriminate.
Qed.

Lemma C33_never_ok_pf :
  forall baseline ths rubber s base specs,
    mentioned baseline ths (Some (CrossScope base specs)) ->
    let fin := outcome (combine_validations baseline ths rubber) s in
    fin_ok fin = false /\ fin_missing_cross fin <> [].
Proof.
  intros baseline ths rubber s base specs MN. cbv zeta.
  destruct (fin_missing_slices baseline ths rubber s) as (_ & F2 & F3). cbv zeta in *.
  destruct (get_missing_spec baseline ths (fin_details (outcome (combine_validations baseline ths rubber) s))) as (_ & M2 & _). cbv zeta in *.
  destruct (M2 _ MN) as [(x & X1 & X2)|(sp & X1 & _)]; [|discriminate X1]. cbn [detail_scope] in X2. destruct x as [|b' ss']; [destruct X2|].
  split; [apply F3; destruct (get_missing_slices _ _ _); [destruct X1|discriminate]|].
  rewrite F2. intros E. assert (Y : In (b', ss') []) by (rewrite <- E; apply in_flat_map; exists (CrossScope b' ss'); split; [exact X1|left; reflexivity]). destruct Y.
Qed.

Lemma C33_cross_threshold_refuted_pf :
  exists ths slice metrics r base specs,
    mentioned None ths (Some (CrossScope base specs)) /\ applies slice (Some (CrossScope base specs)) /\
    validate_metrics None slice metrics ths = Ok r /\ v_ok r = true /\
    fin_ok (outcome (combine_validations None ths false) (Bundle [r])) = false.
Proof.
  exists [(auc "m" false, [(Some (CrossScope overall [only_red]), ValueThreshold (Some (Fin (qz 3))) None)])].
  exists (inr ([], [("c", VStr "red")])), [(auc "m" false, n 4)]. eexists _, overall, [only_red]. split; [|split; [|split; [reflexivity|split; reflexivity]]].
  - eexists _, _, _. split; [intros [=]|]. split; [left; reflexivity|left; reflexivity].
  - apply applicable_spec. reflexivity.
Qed.

Definition same_place (a b : option scope) : Prop :=
  match a, b with None, None => True | Some x, Some y => same_scope x y | _, _ => False end.

Lemma entry_eqb_spec a b : entry_eqb a b = true <-> same_place (fst a) (fst b) /\ snd a = snd b.
Proof.
  unfold entry_eqb. rewrite andb_true_iff, threshold_eqb_eq. unfold option_eqb. destruct (fst a), (fst b); cbn; try rewrite scope_eqb_same; intuition congruence.
Qed.

Definition has (r : thresholds) (k : metric_key) (sc : option scope) (t : threshold) : Prop :=
  exists sts, In (k, sts) r /\ In (sc, t) sts.

Definition once (r : thresholds) : Prop :=
  NoDup (map fst r) /\ forall k sts, In (k, sts) r -> ForallOrdPairs (fun a b => ~ (same_place (fst a) (fst b) /\ snd a = snd b)) sts.

Lemma same_place_sym a b : same_place a b -> same_place b a.
Proof. destruct a, b; cbn; auto. apply same_scope_sym. Qed.

Lemma same_place_refl a : same_place a a.
Proof. destruct a; cbn; auto. apply same_scope_refl. Qed.

Lemma add_spec r k sc t : once r ->
  once (add_if_not_exists r k sc t) /\
  (forall k' sc' t', has (add_if_not_exists r k sc t) k' sc' t' -> has r k' sc' t' \/ (k' = k /\ sc' = sc /\ t' = t)) /\
  (forall k' sc' t', has r k' sc' t' -> has (add_if_not_exists r k sc t) k' sc' t') /\
  (exists sc', same_place sc sc' /\ has (add_if_not_exists r k sc t) k sc' t).
Proof.
  intros [U O].
  assert (SET : forall l, NoDup (map fst (dset metric_key_eqb r k l)) /\ (forall k' sts, In (k', sts) (dset metric_key_eqb r k l) <-> (k' = k /\ sts = l) \/ (k' <> k /\ In (k', sts) r))).
  { intros l. clear O. induction r as [|[k1 l1] r IH]; cbn [dset map].
    - split; [repeat constructor; intros []|]. intros k' sts. cbn. split; [intros [[= <- <-]|[]]; auto|intros [[-> ->]|[_ []]]; auto].
    - cbn [map fst] in U. inversion U as [|? ? U1 U2]; subst. destruct (metric_key_eqb k k1) eqn:E.
      + apply metric_key_eqb_eq in E. subst k1. cbn [map fst]. split; [constructor; auto|]. intros k' sts. cbn [In]. split.
        * intros [[= <- <-]|X]; [auto|]. right. split; [intros ->; apply U1; apply (in_map fst) in X; exact X|auto].
        * intros [[-> ->]|[N [[= X _]|X]]]; [auto|congruence|auto].
      + assert (NE : k <> k1) by (intros X; apply metric_key_eqb_eq in X; congruence).
        destruct (IH U2) as [I1 I2]. cbn [map fst]. split.
        * constructor; [|exact I1]. intros X. apply in_map_iff in X. destruct X as ([k2 l2] & <- & X). cbn [fst] in *. apply I2 in X. destruct X as [[-> _]|[_ X]]; [congruence|]. apply U1. apply (in_map fst) in X. exact X.
        * intros k' sts. cbn [In]. rewrite I2. split; [intros [[= <- <-]|[X|[X Y]]]; auto|intros [X|[X [Y|Y]]]; auto]. }
  unfold add_if_not_exists. destruct (dget metric_key_eqb r k) as [l|] eqn:D.
  - pose proof (dget_In metric_key_eqb metric_key_eqb_eq _ _ _ D) as I0.
    destruct (memb entry_eqb (sc, t) l) eqn:M.
    + split; [split; auto|]. split; [auto|]. split; [auto|]. apply memb_exists in M. destruct M as ([sc' t'] & M1 & M2). apply entry_eqb_spec in M2. cbn [fst snd] in M2. destruct M2 as [M2 <-].
      exists sc'. split; [exact M2|]. exists l. auto.
    + destruct (SET (l ++ [(sc, t)])) as [S1 S2]. split; [|split; [|split]].
      * split; [exact S1|]. intros k' sts X. apply S2 in X. destruct X as [[-> ->]|[_ X]]; [|eapply O; eauto]. specialize (O _ _ I0).
        assert (NO : forall e, In e l -> ~ (same_place (fst e) sc /\ snd e = t)).
        { intros e E [E1 E2]. assert (X : memb entry_eqb (sc, t) l = true) by (apply memb_exists; exists e; split; [exact E|]; apply entry_eqb_spec; cbn [fst snd]; split; [apply same_place_sym, E1|auto]). congruence. }
        clear -O NO. induction O as [|a l A F IH]; cbn [app]; [repeat constructor|]. constructor; [|apply IH; intros e E; apply NO; right; exact E].
        apply Forall_app. split; [exact A|]. constructor; [|constructor]. cbn [fst snd]. apply NO. left. reflexivity.
      * intros k' sc' t' (sts & X & Y). apply S2 in X. destruct X as [[-> ->]|[_ X]]; [|left; exists sts; auto]. apply in_app_or in Y. destruct Y as [Y|[[= <- <-]|[]]]; [left; exists l; auto|auto].
      * intros k' sc' t' (sts & X & Y). destruct (metric_key_eqb k' k) eqn:E.
        -- apply metric_key_eqb_eq in E. subst k'. pose proof (proj2 (dget_In_NoDup metric_key_eqb metric_key_eqb_eq r k sts U) X) as D'. rewrite D in D'. injection D' as ->.
           exists (sts ++ [(sc, t)]). split; [apply S2; auto|apply in_or_app; auto].
        -- exists sts. split; [|exact Y]. apply S2. right. split; [|exact X]. intros ->. rewrite (proj2 (metric_key_eqb_eq k k) eq_refl) in E. discriminate.
      * exists sc. split; [apply same_place_refl|]. exists (l ++ [(sc, t)]). split; [apply S2; auto|apply in_or_app; right; left; reflexivity].
  - destruct (SET [(sc, t)]) as [S1 S2]. split; [|split; [|split]].
    + split; [exact S1|]. intros k' sts X. apply S2 in X. destruct X as [[-> ->]|[_ X]]; [repeat constructor|eapply O; eauto].
    + intros k' sc' t' (sts & X & Y). apply S2 in X. destruct X as [[-> ->]|[_ X]]; [|left; exists sts; auto]. destruct Y as [[= <- <-]|[]]; auto.
    + intros k' sc' t' (sts & X & Y). exists sts. split; [|exact Y]. apply S2. right. split; [|exact X]. intros ->. rewrite (proj2 (dget_In_NoDup metric_key_eqb metric_key_eqb_eq r k sts U) X) in D. discriminate.
    + exists sc. split; [apply same_place_refl|]. exists [(sc, t)]. split; [apply S2; auto|left; reflexivity].
Qed.

(** What an entry of the configuration asks for: a bound on the metric, a bound on its
    difference to the baseline model. *)

Definition asks (e : metric_key * option scope * metric_threshold) (k : metric_key) (sc : option scope) (t : threshold) : Prop :=
  let '(k0, sc0, mt) := e in sc = sc0 /\
  ((exists l u, k = k0 /\ mt_value mt = Some (l, u) /\ t = ValueThreshold l u) \/
   (exists a r d, k = MetricKey (k_name k0) (k_model k0) (k_output k0) (k_sub k0) (k_agg k0) (k_weighted k0) true /\ mt_change mt = Some (a, r, d) /\ t = ChangeThreshold a r d)).

Lemma C87_thresholds_used_pf :
  forall es, let r := metric_thresholds es in
    (forall k sc t, has r k sc t -> exists e, In e es /\ asks e k sc t) /\
    (forall e k sc t, In e es -> asks e k sc t -> exists sc', same_place sc sc' /\ has r k sc' t) /\
    NoDup (map fst r) /\ forall k sts, In (k, sts) r -> ForallOrdPairs (fun a b => ~ (same_place (fst a) (fst b) /\ snd a = snd b)) sts.
Proof.
  intros es. cbv zeta. unfold metric_thresholds.
  assert (ST : forall r e, once r -> once (add_threshold r e) /\ (forall k sc t, has (add_threshold r e) k sc t -> has r k sc t \/ asks e k sc t) /\
    (forall k sc t, has r k sc t -> has (add_threshold r e) k sc t) /\ (forall k sc t, asks e k sc t -> exists sc', same_place sc sc' /\ has (add_threshold r e) k sc' t)).
  { intros r [[k0 sc0] mt] O. unfold add_threshold, asks. cbv zeta.
    assert (V : exists r1, r1 = match mt_value mt with Some (l, u) => add_if_not_exists r k0 sc0 (ValueThreshold l u) | None => r end /\ once r1 /\
      (forall k sc t, has r1 k sc t -> has r k sc t \/ (exists l u, k = k0 /\ sc = sc0 /\ mt_value mt = Some (l, u) /\ t = ValueThreshold l u)) /\
      (forall k sc t, has r k sc t -> has r1 k sc t) /\ (forall l u, mt_value mt = Some (l, u) -> exists sc', same_place sc0 sc' /\ has r1 k0 sc' (ValueThreshold l u))).
    { destruct (mt_value mt) as [[l u]|].
      - eexists. split; [reflexivity|]. destruct (add_spec r k0 sc0 (ValueThreshold l u) O) as (A1 & A2 & A3 & A4). split; [exact A1|]. split; [|split; [exact A3|]].
        + intros k sc t X. destruct (A2 _ _ _ X) as [Y|(-> & -> & ->)]; [auto|right; exists l, u; auto].
        + intros l' u' [= <- <-]. exact A4.
      - exists r. split; [reflexivity|]. split; [exact O|]. split; [auto|]. split; [auto|discriminate]. }
    destruct V as (r1 & <- & O1 & V1 & V2 & V3).
    destruct (mt_change mt) as [[[a rel] d]|].
    - destruct (add_spec r1 (make_diff_key k0) sc0 (ChangeThreshold a rel d) O1) as (A1 & A2 & A3 & A4). split; [exact A1|]. split; [|split].
      + intros k sc t X. destruct (A2 _ _ _ X) as [Y|(-> & -> & ->)].
        * destruct (V1 _ _ _ Y) as [Z|(l & u & -> & -> & Z1 & Z2)]; [auto|right; split; [reflexivity|left; exists l, u; auto]].
        * right. split; [reflexivity|]. right. exists a, rel, d. auto.
      + auto.
      + intros k sc t (-> & [(l & u & -> & X & ->)|(a' & r' & d' & -> & [= <- <- <-] & ->)]).
        * destruct (V3 l u X) as (sc' & Y1 & Y2). exists sc'. auto.
        * exact A4.
    - split; [exact O1|]. split; [|split; [exact V2|]].
      + intros k sc t X. destruct (V1 _ _ _ X) as [Z|(l & u & -> & -> & Z1 & Z2)]; [auto|right; split; [reflexivity|left; exists l, u; auto]].
      + intros k sc t (-> & [(l & u & -> & X & ->)|(a' & r' & d' & _ & X & _)]); [apply V3, X|discriminate]. }
  assert (G : forall es r, once r -> once (fold_left add_threshold es r) /\ (forall k sc t, has (fold_left add_threshold es r) k sc t -> has r k sc t \/ exists e, In e es /\ asks e k sc t) /\
    (forall k sc t, has r k sc t -> has (fold_left add_threshold es r) k sc t) /\ (forall e k sc t, In e es -> asks e k sc t -> exists sc', same_place sc sc' /\ has (fold_left add_threshold es r) k sc' t)).
  { clear es. induction es as [|e es IH]; intros r O; cbn [fold_left].
    - split; [exact O|]. split; [auto|]. split; [auto|intros ? ? ? ? []].
    - destruct (ST r e O) as (S1 & S2 & S3 & S4). destruct (IH _ S1) as (I1 & I2 & I3 & I4). split; [exact I1|]. split; [|split].
      + intros k sc t X. destruct (I2 _ _ _ X) as [Y|(e' & Y & Z)]; [|right; exists e'; split; [right; exact Y|exact Z]].
        destruct (S2 _ _ _ Y) as [Z|Z]; [auto|right; exists e; split; [left; reflexivity|exact Z]].
      + auto.
      + intros e' k sc t [<-|X] A; [|eapply I4; eauto]. destruct (S4 _ _ _ A) as (sc' & Y & Z). exists sc'. auto. }
  destruct (G es []) as (G1 & G2 & _ & G4); [split; [constructor|intros ? ? []]|]. destruct G1 as [G0 G1]. split; [|split; [exact G4|split; [exact G0|exact G1]]].
  intros k sc t X. destruct (G2 _ _ _ X) as [(? & [] & _)|Y]. exact Y.
Qed.

Lemma C88_incomparable_metric_refuted_pf :
  exists v w ths, (forall x, v <> Number x) /\ (forall x, w <> Number x) /\
    validate_metrics None red [(auc "m" false, v)] ths = Err ValueError /\
    validate_metrics None red [(auc "m" false, w)] ths = Err TypeError.
Proof.
  exists (Text "none"), Structure, [(auc "m" false, [(None, ValueThreshold (Some (Fin (qz 3))) None)])].
  split; [discriminate|]. split; [discriminate|]. split; reflexivity.
Qed.

Lemma C88_unknown_direction_partial_pf :
  forall bm slice k x a sc,
    applies slice sc -> k_model k <> bm ->
    validate_metrics (Some bm) slice [(k, Number x)] [(k, [(sc, ChangeThreshold (Some a) None UnknownDirection)])] =
    Ok (VResult false [(slice, [Failure k (Some x) (ChangeThreshold (Some a) None UnknownDirection) InvalidComparison])] [(detail_scope sc, 1%Z)]).
Proof.
  intros bm slice k x a sc A NB. unfold validate_metrics. cbn [mapM dget fst snd].
  rewrite (proj2 (metric_key_eqb_eq k k) eq_refl). unfold is_baseline.
  destruct (String.eqb (k_model k) bm) eqn:E; [apply String.eqb_eq in E; contradiction|].
  cbn [check_metric]. rewrite (proj2 (applicable_spec slice sc) A). cbn [negb].
  cbn [check_threshold to_float bind within fst snd memb existsb]. cbn [filter fst snd]. unfold dmem. cbn [dget]. rewrite (proj2 (metric_key_eqb_eq k k) eq_refl). reflexivity.
Qed.

Lemma C89_relative_is_ratio_refuted_pf :
  exists candidate base bound,
    num_leb bound (num_div (Fin candidate) (Fin base)) = true /\
    match validate_metrics (Some "base") red [(auc "m" true, Number (Fin (candidate - base)%Qc)); (auc "base" false, Number (Fin base))]
            [(auc "m" true, [(None, ChangeThreshold None (Some bound) HigherIsBetter)])] with
    | Ok r => v_ok r = false
    | Err _ => False
    end.
Proof. exists (qz 105), (qz 100), (num_div (Fin (qz 101)) (Fin (qz 100))). split; vm_compute; reflexivity. Qed.

Lemma C89_relative_change_partial_pf :
  forall slice k bm c b bound d r sc,
    b <> 0%Qc -> k_model k <> bm -> d <> UnknownDirection -> applies slice sc ->
    validate_metrics (Some bm) slice [(k, Number (Fin (c - b)%Qc)); (make_baseline_key k bm, Number (Fin b))] [(k, [(sc, ChangeThreshold None (Some (Fin bound)) d)])] = Ok r ->
    (v_ok r = true <-> match d with HigherIsBetter => (1 + bound <= c / b)%Qc | _ => (c / b <= 1 + bound)%Qc end).
Proof.
  intros slice k bm c b bound d r sc NZ NB ND A V.
  set (metrics := [(k, Number (Fin (c - b)%Qc)); (make_baseline_key k bm, Number (Fin b))]) in *.
  set (t := ChangeThreshold None (Some (Fin bound)) d) in *.
  assert (KN : k <> make_baseline_key k bm) by (intros E; apply NB; rewrite E at 1; reflexivity).
  assert (UM : NoDup (map fst metrics)) by (cbn; constructor; [intros [E|[]]; congruence|repeat constructor; intros []]).
  assert (UT : NoDup (map fst [(k, [(sc, t)])])) by (repeat constructor; intros []).
  assert (OK := proj1 (C27_verdict_exact_pf _ _ _ _ _ UM UT V)).
  assert (I0 : In (k, Number (Fin (c - b)%Qc)) metrics) by (left; reflexivity).
  assert (R := C26_change_threshold_pf bm slice metrics _ r k [(sc, t)] sc None (Some (Fin bound)) d (Fin (c - b)%Qc) (Fin b) UM UT V (or_introl eq_refl) (or_introl eq_refl) A NB ND I0 (or_intror (or_introl eq_refl))).
  cbv zeta in R. fold t in R.
  assert (Q : num_div (Fin (c - b)%Qc) (Fin b) = Fin ((c - b) / b)%Qc) by (unfold num_div; cbn; unfold np_div; destruct (Qc_eqb b 0) eqn:Z; [apply Qc_eqb_eq in Z; contradiction|reflexivity]).
  rewrite Q in R. clear Q.
  assert (QE : ((c - b) / b)%Qc = (c / b - 1)%Qc) by (field; exact NZ). rewrite QE in R. clear QE.
  assert (ALL : v_ok r = true <-> ~ reports r k t).
  { rewrite OK. split.
    - intros H X. apply (reports_iff _ _ _ _ _ UM UT V) in X. exact (H _ _ X).
    - intros H k' t' X. assert (X' := X). destruct X' as (_ & sts & sc' & [[= <- <-]|[]] & [[= <- <-]|[]] & _). apply H, (reports_iff _ _ _ _ _ UM UT V), X. }
  rewrite ALL, R. clear -ND NZ. destruct d; [congruence| |]; cbn [num_leb]; split.
  - intros H. destruct (Qc_leb (c / b - 1) bound) eqn:E; [apply Qc_leb_le in E|].
    + qc_lra.
    + exfalso. apply H. intros [_ X]. destruct (X (Fin bound) eq_refl) as [_ Y]. cbn in Y. congruence.
  - intros H X. apply X. split; [discriminate|]. intros c0 [= <-]. split; [congruence|]. cbn. apply Qc_leb_le. qc_lra.
  - intros H. destruct (Qc_leb bound (c / b - 1)) eqn:E; [apply Qc_leb_le in E|].
    + qc_lra.
    + exfalso. apply H. intros [_ X]. destruct (X (Fin bound) eq_refl) as [_ Y]. cbn in Y. congruence.
  - intros H X. apply X. split; [discriminate|]. intros c0 [= <-]. split; [congruence|]. cbn. apply Qc_leb_le. qc_lra.
Qed.

Lemma C90_improvement_refuted_pf :
  exists worse base better,
    (worse < base)%Qc /\ (base < better)%Qc /\
    let ths := [(auc "m" true, [(None, ChangeThreshold None (Some (Fin 0%Qc)) HigherIsBetter)])] in
    let verdict c := match validate_metrics (Some "base") red [(auc "m" true, Number (Fin (c - base)%Qc)); (auc "base" false, Number (Fin base))] ths with Ok r => Some (v_ok r) | Err _ => None end in
    verdict better = Some false /\ verdict worse = Some true.
Proof. exists (qz (-3)), (qz (-2)), (qz (-1)). split; [reflexivity|]. split; [reflexivity|]. split; reflexivity. Qed.

Lemma C90_improvement_partial_pf :
  forall slice k bm c b d r sc,
    (0 < b)%Qc -> k_model k <> bm -> d <> UnknownDirection -> applies slice sc ->
    validate_metrics (Some bm) slice [(k, Number (Fin (c - b)%Qc)); (make_baseline_key k bm, Number (Fin b))] [(k, [(sc, ChangeThreshold None (Some (Fin 0%Qc)) d)])] = Ok r ->
    (v_ok r = true <-> match d with HigherIsBetter => (b <= c)%Qc | _ => (c <= b)%Qc end).
Proof.
  intros slice k bm c b d r sc P NB ND A V.
  assert (NZ : b <> 0%Qc) by (intros ->; exact (Qclt_not_eq _ _ P eq_refl)).
  rewrite (C89_relative_change_partial_pf slice k bm c b 0%Qc d r sc NZ NB ND A V).
  assert (E : c = (c / b * b)%Qc) by (field; exact NZ). set (q := (c / b)%Qc) in *. clearbody q. subst c.
  destruct d; [congruence| |]; split; intros H; (qc_nra || idtac).
Qed.
