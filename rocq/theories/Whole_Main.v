(* Proofs of the theorems restated in Whole_Properties.v. *)
From Coq Require Import String Ascii Permutation.
From Verif Require Import Base BaseFacts Beam BeamFacts Slicer_Model Slicer_Spec Slicer_Proofs Pipeline_Model Pipeline_Proofs Util_Model Keys_Model Keys_Main Config_Model Keras_Main Classes_Main Evaluator_Model Evaluator_Main Whole_Model.
From Verif Require Validation_Model.
Local Open Scope string_scope.
Local Open Scope list_scope.

(* C264 - C271: evaluations as a whole. *)

Lemma add_to_group_spec {S} (query : S -> string) d s :
  NoDup (map fst d) ->
  NoDup (map fst (add_to_group query d s)) /\
  (forall q, In q (map fst (add_to_group query d s)) <-> q = query s \/ In q (map fst d)) /\
  forall q, dget String.eqb (add_to_group query d s) q =
    if String.eqb (query s) q then Some (match dget String.eqb d q with Some l => l | None => [] end ++ [s]) else dget String.eqb d q.
Proof.
  intros N. unfold add_to_group. split; [apply (dset_NoDup _ String.eqb_eq); exact N|]. split.
  - intros q. rewrite (dset_keys_In _ String.eqb_eq). tauto.
  - intros q. destruct (String.eqb (query s) q) eqn:E.
    + apply String.eqb_eq in E. subst q. rewrite (dget_dset_eq _ String.eqb_eq). reflexivity.
    + apply String.eqb_neq in E. rewrite (dget_dset_neq _ String.eqb_eq) by congruence. reflexivity.
Qed.

Lemma by_query_spec {S} (query : S -> string) specs :
  NoDup (map fst (by_query_key query specs)) /\
  (forall q, In q (map fst (by_query_key query specs)) <-> exists s, In s specs /\ query s = q) /\
  forall q l, In (q, l) (by_query_key query specs) -> l = filter (fun s => String.eqb (query s) q) specs.
Proof.
  assert (G : forall specs d, NoDup (map fst d) ->
    NoDup (map fst (fold_left (add_to_group query) specs d)) /\
    (forall q, In q (map fst (fold_left (add_to_group query) specs d)) <-> (exists s, In s specs /\ query s = q) \/ In q (map fst d)) /\
    forall q, dget String.eqb (fold_left (add_to_group query) specs d) q =
      match dget String.eqb d q, filter (fun s => String.eqb (query s) q) specs with
      | None, [] => None
      | None, l => Some l
      | Some l, l' => Some (l ++ l')
      end).
  { clear specs. induction specs as [|s specs IH]; intros d N; cbn [fold_left].
    - split; [exact N|]. split; [intros q; split; [auto|intros [(s & [] & _)|H]; exact H]|]. intros q. cbn [filter]. destruct (dget String.eqb d q); [rewrite app_nil_r|]; reflexivity.
    - destruct (add_to_group_spec query d s N) as (N1 & K1 & G1). destruct (IH _ N1) as (N2 & K2 & G2). split; [exact N2|]. split.
      + intros q. rewrite K2, K1. split.
        * intros [(t & I0 & E)|[->|I0]]; [left; exists t; split; [right; exact I0|exact E]|left; exists s; split; [left; reflexivity|reflexivity]|right; exact I0].
        * intros [(t & [->|I0] & E)|I0]; [right; left; congruence|left; exists t; auto|right; right; exact I0].
      + intros q. rewrite G2, G1. cbn [filter]. destruct (String.eqb (query s) q); [|reflexivity].
        destruct (dget String.eqb d q) as [l|]; [rewrite <- app_assoc; reflexivity|]. reflexivity. }
  destruct (G specs [] (NoDup_nil _)) as (N & K & D). unfold by_query_key. split; [exact N|]. split.
  - intros q. rewrite K. cbn [map In]. tauto.
  - intros q l I0. apply (dget_In_NoDup _ String.eqb_eq _ _ _ N) in I0. rewrite D in I0. cbn [dget] in I0. destruct (filter _ specs) eqn:F; [discriminate|]. congruence.
Qed.

Lemma C264_groups_pf :
  forall (S : Type) (query : S -> string) empty specs, specs <> [] ->
    NoDup (map fst (spec_groups query empty specs)) /\
    (forall q, In q (map fst (spec_groups query empty specs)) <-> exists s, In s specs /\ query s = q) /\
    (forall q l, In (q, l) (spec_groups query empty specs) -> l = filter (fun s => String.eqb (query s) q) specs).
Proof.
  intros S query empty specs N. unfold spec_groups. pose proof (by_query_spec query specs) as (A1 & A2 & A3).
  destruct (by_query_key query specs) as [|g d] eqn:E; [|repeat split; auto; apply A2].
  exfalso. destruct specs as [|s specs]; [contradiction|]. apply (proj2 (A2 (query s))). exists s. split; [left; reflexivity|reflexivity].
Qed.

Lemma C264_each_once_pf :
  forall (S : Type) (query : S -> string) empty specs,
    Permutation (concat (map snd (spec_groups query empty specs))) (match specs with [] => [empty] | _ => specs end).
Proof.
  intros S query empty specs. destruct specs as [|s0 specs0]; [reflexivity|]. set (specs := s0 :: specs0).
  destruct (C264_groups_pf S query empty specs) as (N & K & L); [discriminate|].
  set (g := spec_groups query empty specs) in *.
  assert (E : map snd g = map (fun q => filter (fun s => String.eqb (query s) q) specs) (map fst g)).
  { rewrite map_map. apply map_ext_in. intros [q l] I0. cbn [fst snd]. apply L. exact I0. }
  rewrite E. clear E L. assert (K' : forall s, In s specs -> In (query s) (map fst g)) by (intros s I0; apply K; eauto). clear K.
  clearbody g specs. revert N K'. generalize (map fst g). clear g. intros ks N K'.
  pose proof (Permutation_by_key query specs ks N K') as P. rewrite flat_map_concat_map in P.
  erewrite map_ext; [exact P|]. intros q. apply filter_ext. intros s. apply String.eqb_sym.
Qed.

Lemma C265_included_pf :
  forall (A S : Type) (to_computations : list S -> res (compiled A)) query empty specs option_value models m col,
    (forall l, exists c, to_computations l = Ok c) ->
    (specs = [] \/ exists s, In s specs /\ query s = "") -> option_value <> Some false ->
    In m models -> sm_include m = true -> sm_keras m = true -> In col (sm_columns m) ->
    exists g c, In g (spec_groups query empty specs) /\ group_computations to_computations option_value (Some models) g = Ok c /\ In col (cd_columns c).
Proof.
  intros A S tc query empty specs ov models m col T H O I1 I2 I3 I4.
  assert (G : exists l, In ("", l) (spec_groups query empty specs)).
  { destruct specs as [|s0 specs0]; [exists [empty]; left; reflexivity|]. destruct H as [H|H]; [discriminate|].
    destruct (C264_groups_pf S query empty (s0 :: specs0)) as (_ & K & _); [discriminate|]. apply K in H. apply in_map_iff in H. destruct H as ([q l] & E & I0). cbn in E. subst q. exists l. exact I0. }
  destruct G as (l & G). destruct (T l) as (c & Tc). exists ("", l), (Compiled (default_columns (Some models) ++ cd_columns c) (cd_derived c) (cd_compare c) (cd_ci c)).
  split; [exact G|]. split.
  - unfold group_computations, include_default_metrics. cbn [fst snd String.eqb negb]. destruct ov as [[|]|]; [|contradiction|]; unfold computations_of; rewrite Tc; reflexivity.
  - cbn [cd_columns]. apply in_app_iff. left. unfold default_columns. apply in_flat_map. exists m. split; [exact I1|]. rewrite I2, I3. exact I4.
Qed.

Lemma C265_not_included_pf :
  forall (A S : Type) (to_computations : list S -> res (compiled A)) option_value models g c c0,
    group_computations to_computations option_value (Some models) g = Ok c -> to_computations (snd g) = Ok c0 ->
    (fst g <> "" \/ option_value = Some false \/ forall m, In m models -> sm_include m = false \/ sm_keras m = false) -> c = c0.
Proof.
  intros A S tc ov models g c c0 E T H. unfold group_computations, computations_of in E. rewrite T in E. cbn [bind] in E. injection E as <-.
  assert (D : default_columns (if include_default_metrics ov (fst g) then Some models else None) = []).
  { unfold include_default_metrics. destruct (String.eqb_spec (fst g) "") as [Q|Q]; cbn [negb]; [|reflexivity].
    destruct H as [H|[H|H]]; [contradiction|subst ov; reflexivity|]. assert (Z : default_columns (Some models) = []).
    { unfold default_columns. clear - H. induction models as [|m models IH]; [reflexivity|]. cbn [flat_map]. rewrite IH by (intros x I0; apply H; right; exact I0).
      destruct (H m (or_introl eq_refl)) as [->| ->]; [reflexivity|destruct (sm_include m); reflexivity]. }
    destruct ov as [[|]|]; auto. }
  rewrite D. destruct c0. reflexivity.
Qed.

Definition model_tally : list (preprocessor nat) * column nat := ([], tally "loss" (fun _ => true)).

Lemma C265_only_queries_refuted_pf :
  exists (specs : list string) (to_computations : list string -> res (compiled nat)) (m : shared_model nat),
    specs <> [] /\ sm_include m = true /\ sm_keras m = true /\ sm_columns m <> [] /\
    forall g c, In g (spec_groups (fun q => q) "" specs) -> group_computations to_computations (Some true) (Some [m]) g = Ok c -> cd_columns c = [].
Proof.
  exists ["q"], (fun _ => Ok (Compiled [] [] [] [])), (SharedModel "" true true [model_tally]). split; [discriminate|]. split; [reflexivity|]. split; [reflexivity|]. split; [discriminate|].
  intros g c [<-|[]]. cbn. intros [= <-]. reflexivity.
Qed.

Lemma union_last (os : list metrics) : forall m i o k v, nth_error os i = Some o -> mlast o k = Some v ->
  (forall j p, nth_error os j = Some p -> i < j -> mlast p k = None) ->
  mget (fold_left (dupdate okey_eqb) os m) k = Some v.
Proof.
  assert (N : forall os m k, (forall j p, nth_error os j = Some p -> mlast p k = None) -> mget (fold_left (dupdate okey_eqb) os m) k = mget m k).
  { induction os0 as [|p os0 IH]; intros m k H; [reflexivity|]. cbn [fold_left]. rewrite IH, mget_dupdate, (H 0 p eq_refl); [reflexivity|]. intros j q Q. apply (H (S j) q Q). }
  induction os as [|p os IH]; intros m i o k v I0 V H; [destruct i; discriminate|]. cbn [fold_left]. destruct i as [|i].
  - cbn in I0. injection I0 as ->. rewrite N, mget_dupdate, V; [reflexivity|]. intros j q Q. apply (H (S j) q Q). lia.
  - apply (IH _ i o k v I0 V). intros j q Q J. apply (H (S j) q Q). lia.
Qed.

Lemma C265_spec_wins_pf :
  forall (A : Type) models (cols : list (list (preprocessor A) * column A)) s r i c o k v,
    outcome (computations_combine_fn (map snd (default_columns models ++ cols))) s = Ok r ->
    nth_error (map snd cols) i = Some c ->
    outcome (col_combiner c) (of_column (length (default_columns models) + i) s) = Ok o -> mlast o k = Some v ->
    (forall j d p, nth_error (map snd cols) j = Some d -> i < j ->
       outcome (col_combiner d) (of_column (length (default_columns models) + j) s) = Ok p -> mlast p k = None) ->
    mget r k = Some v.
Proof.
  intros A models cols s r i c o k v E I0 O V L. set (n := length (default_columns models)) in *.
  assert (LN : length (map snd (default_columns models)) = n) by apply map_length.
  assert (AT : forall j, nth_error (map snd (default_columns models ++ cols)) (n + j) = nth_error (map snd cols) j).
  { intros j. rewrite map_app, nth_error_app2 by lia. f_equal. lia. }
  apply C37_compound_is_union_of_parts_pf in E. destruct E as (os & LE & P & ->).
  destruct (P (n + i) c) as (o' & N1 & N2); [rewrite AT; exact I0|]. rewrite O in N2. injection N2 as <-.
  apply (union_last os [] (n + i) o k v N1 V). intros j p J LT.
  assert (JL : j < length (map snd (default_columns models ++ cols))) by (rewrite <- LE; apply nth_error_Some; congruence).
  destruct (nth_error (map snd (default_columns models ++ cols)) j) as [d|] eqn:D; [|apply nth_error_None in D; lia].
  destruct (P j d D) as (o' & X & Y). rewrite J in X. injection X as <-.
  replace j with (n + (j - n)) in D, Y by lia. rewrite AT in D. apply (L (j - n) d p D); [lia|exact Y].
Qed.

Section Fan.
  Context {X : Type}.
  Definition no_clash (ks : list skey) : Prop := forall a b, In a ks -> In b ks -> key_eqb a b = true -> a = b.
  Lemma dedup_fan ks : no_clash ks -> NoDup (dedup key_eqb ks) /\ forall k, In k (dedup key_eqb ks) <-> In k ks.
  Proof.
    intros C. assert (S : forall k, In k (dedup key_eqb ks) <-> In k ks).
    { intros k. split; [apply dedup_sub|]. intros I0. destruct (dedup_rep key_eqb key_eqb_refl ks k I0) as (k1 & H1 & E1).
      assert (k = k1) by (apply C; auto; apply dedup_sub in H1; exact H1). subst. exact H1. }
    split; [|exact S]. pose proof (dedup_pairs key_eqb ks) as P. revert P. generalize (dedup key_eqb ks). intros l P.
    induction P as [|a l Ha P IH]; constructor; auto. intros I0. rewrite Forall_forall in Ha. specialize (Ha a I0). rewrite key_eqb_refl in Ha. discriminate.
  Qed.
  Lemma values_of_map (ks : list skey) (x : X) k : NoDup ks ->
    values_of skey_eqb k (map (fun k => (k, x)) ks) = if memb skey_eqb k ks then [x] else [].
  Proof.
    unfold values_of. induction 1 as [|k' ks Hk N IH]; [reflexivity|]. cbn [map filter fst memb existsb]. change (existsb (skey_eqb k) ks) with (memb skey_eqb k ks). destruct (skey_eqb k k') eqn:E; cbn [map snd orb].
    - rewrite IH. apply skey_eqb_eq in E. subst k'. destruct (memb skey_eqb k ks) eqn:M; [|reflexivity]. apply (memb_In _ skey_eqb_eq) in M. contradiction.
    - exact IH.
  Qed.
  Lemma memb_same k ks ks' : (forall j, In j ks <-> In j ks') -> memb skey_eqb k ks = memb skey_eqb k ks'.
  Proof.
    intros H. destruct (memb skey_eqb k ks') eqn:E.
    - apply (memb_In _ skey_eqb_eq). apply H. apply (memb_In _ skey_eqb_eq). exact E.
    - destruct (memb skey_eqb k ks) eqn:F; [|reflexivity]. apply (memb_In _ skey_eqb_eq) in F. apply H in F. apply (memb_In _ skey_eqb_eq) in F. congruence.
  Qed.

End Fan.

(** The extracts of a slice. *)

Definition of_slice {A} (s : skey) (xs : list (list skey * data A)) : list (data A) := map snd (filter (fun x => memb skey_eqb s (fst x)) xs).

Lemma keyed_values {A} (c : compiled A) xs : forall kvs, keyed c xs = Ok kvs -> (forall ks d, In (ks, d) xs -> no_clash ks) ->
  (forall s, mapM (preprocess (map fst (cd_columns c))) (of_slice s xs) = Ok (values_of skey_eqb s kvs)) /\
  (forall s, In s (map fst kvs) <-> exists ks d, In (ks, d) xs /\ In s ks).
Proof.
  unfold keyed. induction xs as [|[ks d] xs IH]; intros kvs E C.
  - cbn [mapM bind concat] in E. injection E as <-. split; [reflexivity|]. intros s. split; [intros []|intros (ks & d & [] & _)].
  - cbn [mapM fst snd] in E. destruct (preprocess (map fst (cd_columns c)) d) as [e|] eqn:P; [|discriminate]. cbn [bind] in E.
    destruct (mapM _ xs) as [es|] eqn:M; [|discriminate]. cbn [bind concat] in E. injection E as <-.
    destruct (IH (concat es)) as (V & K); [reflexivity|intros ks' d' I0; apply (C ks' d'); right; exact I0|].
    destruct (dedup_fan ks (C ks d (or_introl eq_refl))) as (N & D).
    split.
    + intros s. unfold fanout. rewrite (values_of_app skey_eqb), values_of_map by exact N. rewrite (memb_same s _ _ D). unfold of_slice. cbn [filter fst].
      destruct (memb skey_eqb s ks); [cbn [map snd mapM]; rewrite P; cbn [bind]; fold (of_slice s xs); rewrite V; reflexivity|fold (of_slice s xs); rewrite V; reflexivity].
    + intros s. rewrite map_app, in_app_iff, K. unfold fanout. rewrite map_map. cbn [fst]. rewrite map_id, D. split.
      * intros [I0|(ks' & d' & I0 & I1)]; [exists ks, d; split; [left; reflexivity|exact I0]|exists ks', d'; split; [right; exact I0|exact I1]].
      * intros (ks' & d' & [[= <- <-]|I0] & I1); [left; exact I1|right; exists ks', d'; auto].
Qed.

Lemma each_spec {K X Y} (f : X -> res Y) (l : list (K * X)) : forall l', each f l = Ok l' ->
  map fst l' = map fst l /\ (forall k y, In (k, y) l' -> exists x, In (k, x) l /\ f x = Ok y) /\
  (forall k x, In (k, x) l -> exists y, In (k, y) l' /\ f x = Ok y).
Proof.
  unfold each. induction l as [|[k x] l IH]; intros l' E; cbn [mapM] in E.
  - injection E as <-. split; [reflexivity|]. split; intros ? ? [].
  - cbn [fst snd] in E. destruct (f x) as [y|] eqn:F; [|discriminate]. cbn [bind] in E. destruct (mapM _ l) as [t|]; [|discriminate]. cbn [bind] in E. injection E as <-.
    destruct (IH t eq_refl) as (A1 & A2 & A3). split; [cbn; congruence|]. split.
    + intros k' y' [[= <- <-]|I0]; [exists x; split; [left; reflexivity|exact F]|]. destruct (A2 k' y' I0) as (x' & ? & ?). exists x'. split; [right|]; auto.
    + intros k' x' [[= <- <-]|I0]; [exists y; split; [left; reflexivity|exact F]|]. destruct (A3 k' x' I0) as (y' & ? & ?). exists y'. split; [right|]; auto.
Qed.

(** What a slice is reported with, from the elements of its extracts. *)

Definition reported {A} (c : compiled A) (metric : list (element A) -> res metrics) baseline min_size (s : skey) (es : list (element A)) (r : results) : Prop :=
  exists m m', metric es = Ok m /\ finish_slice (cd_derived c) (cd_ci c) baseline m = Ok m' /\
    ((1 < min_size)%Z /\ s <> [] /\ (Z.of_nat (length es) < min_size)%Z /\ r = too_small \/
     ~ ((1 < min_size)%Z /\ s <> [] /\ (Z.of_nat (length es) < min_size)%Z) /\ r = of_metrics m').

Lemma slice_eqb_eq a b : slice_eqb a b = true <-> a = b.
Proof.
  destruct a as [x|[x u]], b as [y|[y v]]; cbn [slice_eqb]; try (split; discriminate).
  - rewrite skey_eqb_eq. split; congruence.
  - rewrite andb_true_iff, !skey_eqb_eq. split; [intros [-> ->]; reflexivity|intros [= -> ->]; auto].
Qed.

Lemma public_spec {A Spec} (applicable : Spec -> skey -> bool) (c : compiled A) baseline min_size combined counts out :
  NoDup (map fst combined) -> NoDup (map fst counts) -> (forall k, In k (map fst combined) <-> In k (map fst counts)) ->
  finish applicable c [] baseline min_size combined counts = Ok out ->
  NoDup (map fst out) /\
  (forall k, In k (map fst out) <-> exists s, k = inl s /\ In s (map fst combined)) /\
  forall s r, In (inl s, r) out -> exists m m' n, In (s, Ok m) combined /\ In (s, n) counts /\ finish_slice (cd_derived c) (cd_ci c) baseline m = Ok m' /\
    ((1 < min_size)%Z /\ s <> [] /\ (n < min_size)%Z /\ r = too_small \/
     ~ ((1 < min_size)%Z /\ s <> [] /\ (n < min_size)%Z) /\ r = of_metrics m').
Proof.
  intros N1 N2 KK. unfold finish. destruct (each (fun r => r) combined) as [base|] eqn:E1; [|discriminate]. cbn [bind].
  destruct (each (add_derived_metrics (cd_derived c)) base) as [derived|] eqn:E2; [|discriminate]. cbn [bind].
  unfold add_cross_slice_metrics. cbn [mapM bind concat map]. rewrite app_nil_r.
  destruct (each (add_diff_metrics baseline) _) as [diffs|] eqn:E3; [|discriminate]. cbn [bind].
  destruct (each (add_derived_metrics (cd_ci c)) diffs) as [cis|] eqn:E4; [|discriminate]. cbn [bind].
  apply each_spec in E1. apply each_spec in E2. apply each_spec in E3. apply each_spec in E4.
  destruct E1 as (K1 & B1 & F1), E2 as (K2 & B2 & F2), E3 as (K3 & B3 & F3), E4 as (K4 & B4 & F4).
  set (public := map (fun km => (fst km, of_metrics (remove_private_metrics (snd km)))) cis).
  assert (KP : map fst public = map inl (map fst combined)).
  { unfold public. rewrite map_map. cbn [fst]. change (map (fun x => fst x) cis) with (map fst cis). rewrite K4, K3, map_map. cbn [fst]. rewrite <- K1, <- K2, map_map. reflexivity. }
  assert (KP' : forall k : slice, In k (map fst public) <-> In k (map inl (map fst combined))) by (intros k; rewrite KP; tauto).
  assert (NP : NoDup (map fst public)).
  { rewrite KP. apply FinFun.Injective_map_NoDup; [intros a b [= ->]; reflexivity|exact N1]. }
  assert (VP : forall k r, In (k, r) public -> exists s m m', k = inl s /\ In (s, Ok m) combined /\ finish_slice (cd_derived c) (cd_ci c) baseline m = Ok m' /\ r = of_metrics m').
  { intros k r I0. unfold public in I0. apply in_map_iff in I0. destruct I0 as ([k4 m4] & [= <- <-] & I0). cbn [fst snd] in *.
    destruct (B4 _ _ I0) as (m3 & I3 & G4). destruct (B3 _ _ I3) as (m2 & I2 & G3). apply in_map_iff in I2. destruct I2 as ([s m2'] & [= <- <-] & I2). cbn [fst snd] in *.
    destruct (B2 _ _ I2) as (m1 & I1 & G2). destruct (B1 _ _ I1) as (m0 & I0' & G1). cbn in G1. subst m0. exists s, m1, (remove_private_metrics m4).
    split; [reflexivity|]. split; [exact I0'|]. split; [|reflexivity]. unfold finish_slice. rewrite G2. cbn [bind]. rewrite G3. cbn [bind]. rewrite G4. reflexivity. }
  assert (CN : forall s, In s (map fst combined) -> exists n, In (s, n) counts).
  { intros s I0. apply KK in I0. apply in_map_iff in I0. destruct I0 as ([s' n] & E & I0). cbn in E. subst s'. exists n. exact I0. }
  destruct (Z.ltb_spec 1 min_size) as [L|L].
  - intros E. destruct (filter_out_spec slice_eqb is_overall too_small min_size (fun a b => slice_eqb_eq a b) public (map (fun kn => (inl (fst kn), snd kn)) counts)) as (out' & E' & N' & S').
    + exact NP.
    + rewrite map_map. assert (EC : forall l : list (skey * Z), NoDup (map fst l) -> NoDup (map (fun x => fst ((inl (fst x), snd x) : slice * Z)) l)); [|apply EC; exact N2].
      intros l NL. apply (FinFun.Injective_map_NoDup (f := (inl : skey -> slice))) in NL; [rewrite map_map in NL; exact NL|intros a b [= ->]; reflexivity].
    + intros k v I0. destruct (VP k v I0) as (s & m & m' & -> & I1 & _). destruct (CN s) as (n & I2); [change s with (fst (s, Ok m)); apply in_map; exact I1|]. exists n. apply in_map_iff. exists (s, n). auto.
    + rewrite E in E'. injection E' as <-. split; [exact N'|]. split.
      * intros k. split.
        -- intros I0. apply in_map_iff in I0. destruct I0 as ([k' v] & <- & I0). apply S' in I0. destruct I0 as (v0 & n & I0 & _). destruct (VP _ _ I0) as (s & m & m' & -> & I1 & _). exists s. split; [reflexivity|]. change s with (fst (s, Ok m)); apply in_map; exact I1.
        -- intros (s & -> & I0). assert (IP : In (inl s) (map fst public)) by (rewrite KP; apply in_map; exact I0). apply in_map_iff in IP. destruct IP as ([k v0] & E0 & IP). cbn in E0. subst k. destruct (CN s I0) as (n & I1).
           apply in_map_iff. eexists (_, _). split; [reflexivity|]. apply S'. exists v0, n. split; [exact IP|]. split; [apply in_map_iff; exists (s, n); auto|reflexivity].
      * intros s r I0. apply S' in I0. destruct I0 as (v0 & n & I0 & I1 & ->). destruct (VP _ _ I0) as (s' & m & m' & [= <-] & I2 & F & ->). apply in_map_iff in I1. destruct I1 as ([s1 n1] & [= -> ->] & I1). cbn [fst snd] in I1.
        exists m, m', n. split; [exact I2|]. split; [exact I1|]. split; [exact F|]. unfold anonymised. destruct s as [|e s]; cbn [is_overall].
        -- right. split; [|reflexivity]. intros (_ & N & _). contradiction.
        -- destruct (Z.leb_spec min_size n); [right; split; [lia|reflexivity]|left]. split; [lia|]. split; [discriminate|]. split; [lia|reflexivity].
  - intros [= <-]. fold public. split; [exact NP|]. split.
    + intros k. transitivity (In k (map (inl : skey -> slice) (map fst combined))); [exact (KP' k)|]. rewrite in_map_iff. split; intros (s & A1 & A2); exists s; auto.
    + intros s r I0. destruct (VP _ _ I0) as (s' & m & m' & [= <-] & I1 & F & ->). destruct (CN s) as (n & I2); [change s with (fst (s, Ok m)); apply in_map; exact I1|].
      exists m, m', n. split; [exact I1|]. split; [exact I2|]. split; [exact F|]. right. split; [lia|reflexivity].
Qed.

Lemma C266_slices_pf :
  forall (A Spec : Type) (applicable : Spec -> skey -> bool) (c : compiled A) baseline min_size xs out metric,
    (forall s, outcome (computations_combine_fn (map snd (cd_columns c))) s = metric (inputs s)) ->
    (forall l l', Permutation l l' -> metric l = metric l') ->
    (forall ks d, In (ks, d) xs -> no_clash ks) ->
    computes applicable c [] baseline min_size xs (Ok out) ->
    NoDup (map fst out) /\
    (forall k, In k (map fst out) <-> exists s ks d, k = inl s /\ In (ks, d) xs /\ In s ks) /\
    (forall s r, In (inl s, r) out ->
       exists es, mapM (preprocess (map fst (cd_columns c))) (of_slice s xs) = Ok es /\ reported c metric baseline min_size s es r).
Proof.
  intros A Spec applicable c baseline min_size xs out metric HM HP C. unfold computes. destruct (keyed c xs) as [kvs|] eqn:K; [|discriminate].
  intros (combined & counts & (N1 & K1 & V1) & (N2 & K2 & V2) & E). destruct (keyed_values c xs kvs K C) as (KV & KK).
  destruct (public_spec applicable c baseline min_size combined counts out N1 N2) as (P1 & P2 & P3); [intros k; rewrite K1, K2; tauto|auto|].
  split; [exact P1|]. split.
  - intros k. rewrite P2. split.
    + intros (s & -> & I0). apply K1, KK in I0. destruct I0 as (ks & d & I1 & I2). exists s, ks, d. auto.
    + intros (s & ks & d & -> & I1 & I2). exists s. split; [reflexivity|]. apply K1, KK. exists ks, d. auto.
  - intros s r I0. destruct (P3 s r I0) as (m & m' & n & I1 & I2 & F & R). exists (values_of skey_eqb s kvs). split; [apply KV|].
    destruct (V1 _ _ I1) as (sc & PM & O). rewrite HM in O. rewrite (HP _ _ PM) in O.
    destruct (V2 _ _ I2) as (sc2 & PM2 & O2). rewrite count_spec in O2. rewrite (Permutation_length PM2) in O2. subst n.
    exists m, m'. auto.
Qed.

Lemma each_ok {K X Y} (f : X -> res Y) (l : list (K * X)) : (forall k x, In (k, x) l -> exists y, f x = Ok y) -> exists l', each f l = Ok l'.
Proof.
  unfold each. induction l as [|[k x] l IH]; intros H; [eexists; reflexivity|]. cbn [mapM fst snd]. destruct (H k x (or_introl eq_refl)) as (y & ->). cbn [bind].
  destruct IH as (l' & ->); [intros k' x' I0; apply (H k' x'); right; exact I0|]. eexists. reflexivity.
Qed.

Lemma C266_succeeds_pf :
  forall (A Spec : Type) (applicable : Spec -> skey -> bool) (c : compiled A) baseline min_size xs out metric,
    (forall s, outcome (computations_combine_fn (map snd (cd_columns c))) s = metric (inputs s)) ->
    (forall l l', Permutation l l' -> metric l = metric l') ->
    (forall ks d, In (ks, d) xs -> no_clash ks /\ exists e, preprocess (map fst (cd_columns c)) d = Ok e) ->
    (forall s es, of_slice s xs <> [] -> mapM (preprocess (map fst (cd_columns c))) (of_slice s xs) = Ok es ->
       exists m m', metric es = Ok m /\ finish_slice (cd_derived c) (cd_ci c) baseline m = Ok m') ->
    computes applicable c [] baseline min_size xs out -> exists l, out = Ok l.
Proof.
  intros A Spec applicable c baseline min_size xs out metric HM HP HX HS. unfold computes.
  destruct (keyed c xs) as [kvs|e] eqn:K.
  2:{ exfalso. unfold keyed in K. clear HS. revert e K. induction xs as [|[ks d] xs IH]; intros e K; [discriminate|]. cbn [mapM fst snd] in K.
      destruct (HX ks d (or_introl eq_refl)) as (_ & v & P). rewrite P in K. cbn [bind] in K. destruct (mapM _ xs) as [es|e'] eqn:M; [discriminate|].
      apply (IH (fun a b I0 => HX a b (or_intror I0)) e'). reflexivity. }
  intros (combined & counts & (N1 & K1 & V1) & (N2 & K2 & V2) & ->).
  destruct (keyed_values c xs kvs K (fun ks d I0 => proj1 (HX ks d I0))) as (KV & KK).
  assert (G : forall s o, In (s, o) combined -> exists m m', o = Ok m /\ finish_slice (cd_derived c) (cd_ci c) baseline m = Ok m').
  { intros s o I0. destruct (V1 _ _ I0) as (sc & PM & O). rewrite HM, (HP _ _ PM) in O.
    destruct (HS s (values_of skey_eqb s kvs)) as (m & m' & E1 & E2); [|apply KV|exists m, m'; split; [congruence|exact E2]].
    assert (I1 : In s (map fst combined)) by (change s with (fst (s, o)); apply in_map; exact I0). apply K1, KK in I1. destruct I1 as (ks & d & I1 & I2).
    unfold of_slice. intros Z. apply map_eq_nil in Z. assert (I3 : In (ks, d) (filter (fun x => memb skey_eqb s (fst x)) xs)) by (apply filter_In; split; [exact I1|apply (memb_In _ skey_eqb_eq); exact I2]). rewrite Z in I3. destruct I3. }
  unfold finish. destruct (each_ok (fun r => r) combined) as (base & E1); [intros k o I0; destruct (G k o I0) as (m & _ & -> & _); eexists; reflexivity|]. rewrite E1. cbn [bind].
  assert (C1 : forall s m, In (s, m) base -> exists m', finish_slice (cd_derived c) (cd_ci c) baseline m = Ok m').
  { intros s m I0. destruct (proj1 (proj2 (each_spec _ _ _ E1)) s m I0) as (o & I1 & E). cbn in E. subst o. destruct (G s _ I1) as (m0 & m' & [= <-] & F). exists m'. exact F. }
  destruct (each_ok (add_derived_metrics (cd_derived c)) base) as (derived & E2).
  { intros s m I0. destruct (C1 s m I0) as (m' & F). unfold finish_slice in F. destruct (add_derived_metrics (cd_derived c) m); [eexists; reflexivity|discriminate]. }
  rewrite E2. cbn [bind].
  assert (C2 : forall s d, In (s, d) derived -> exists m2 m3, add_diff_metrics baseline d = Ok m2 /\ add_derived_metrics (cd_ci c) m2 = Ok m3).
  { intros s d I0. destruct (proj1 (proj2 (each_spec _ _ _ E2)) s d I0) as (m & I1 & E). destruct (C1 s m I1) as (m' & F). unfold finish_slice in F. rewrite E in F. cbn [bind] in F.
    destruct (add_diff_metrics baseline d) as [m2|] eqn:F2; [|discriminate]. cbn [bind] in F. destruct (add_derived_metrics (cd_ci c) m2) as [m3|] eqn:F3; [|discriminate]. exists m2, m3. auto. }
  unfold add_cross_slice_metrics. cbn [mapM bind concat map]. rewrite app_nil_r.
  destruct (each_ok (add_diff_metrics baseline) (map (fun km : skey * metrics => (inl (fst km) : skey + skey * skey, snd km)) derived)) as (diffs & E3).
  { intros k d I0. apply in_map_iff in I0. destruct I0 as ([s d'] & [= <- <-] & I0). destruct (C2 s _ I0) as (m2 & _ & F & _). exists m2. exact F. }
  rewrite E3. cbn [bind].
  destruct (each_ok (add_derived_metrics (cd_ci c)) diffs) as (cis & E4).
  { intros k m2 I0. destruct (proj1 (proj2 (each_spec _ _ _ E3)) k m2 I0) as (d & I1 & F). apply in_map_iff in I1. destruct I1 as ([s d'] & [= <- <-] & I1). destruct (C2 s _ I1) as (m2' & m3 & F2 & F3). cbn [snd] in F. rewrite F2 in F. injection F as <-. exists m3. exact F3. }
  rewrite E4. cbn [bind]. destruct (Z.ltb 1 min_size); [|eexists; reflexivity].
  apply each_spec in E1. apply each_spec in E2. apply each_spec in E3. apply each_spec in E4.
  destruct E1 as (Ka & _), E2 as (Kb & _), E3 as (Kc & _), E4 as (Kd & _).
  assert (KP : forall B (h : metrics -> B), map fst (map (fun km => (fst km, h (snd km))) cis) = map (inl : skey -> slice) (map fst combined)).
  { intros B h. rewrite map_map. cbn [fst]. change (map (fun x => fst x) cis) with (map fst cis). rewrite Kd, Kc, map_map. cbn [fst]. rewrite <- Ka, <- Kb, map_map. reflexivity. }
  destruct (filter_out_spec slice_eqb is_overall too_small min_size (fun a b => slice_eqb_eq a b) (map (fun km => (fst km, of_metrics (remove_private_metrics (snd km)))) cis) (map (fun kn => (inl (fst kn), snd kn)) counts)) as (out' & E' & _).
  - specialize (KP _ (fun m => of_metrics (remove_private_metrics m))). cbv beta in KP. pose proof (FinFun.Injective_map_NoDup (f := (inl : skey -> slice)) (l := map fst combined)) as J. rewrite <- KP in J. apply J; [intros a b [= ->]; reflexivity|exact N1].
  - rewrite map_map. assert (EC : forall l : list (skey * Z), NoDup (map fst l) -> NoDup (map (fun x => fst ((inl (fst x), snd x) : slice * Z)) l)); [|apply EC; exact N2].
    intros l NL. apply (FinFun.Injective_map_NoDup (f := (inl : skey -> slice))) in NL; [rewrite map_map in NL; exact NL|intros a b [= ->]; reflexivity].
  - intros k v I0. assert (I1 : In k (map (inl : skey -> slice) (map fst combined))).
    { rewrite <- (KP _ (fun m => of_metrics (remove_private_metrics m))). change k with (fst (k, v)). apply in_map. exact I0. }
    apply in_map_iff in I1. destruct I1 as (s & <- & I1). apply K1, K2 in I1. apply in_map_iff in I1. destruct I1 as ([s' n] & E & I1). cbn in E. subst s'. exists n. apply in_map_iff. exists (s, n). auto.
  - exists out'. exact E'.
Qed.

(** Counting the extracts, privately, and a derived metric: twice the count. *)

Definition counted (name : string) : column nat := tally name (fun _ => true).

Definition inputs_of (l : list (element nat)) : Z := Z.of_nat (length (flat_map (fun e => item e 0) l)).

Lemma counted_outcome name s : outcome (computations_combine_fn [counted name]) s = Ok [(OKey IsMetric (plain name ""), Num (Fin (qz (inputs_of (inputs s)))))].
Proof.
  unfold outcome. assert (R : fst (run (computations_combine_fn [counted name]) s) = inputs_of (inputs s)).
  { apply (rel_run (computations_combine_fn [counted name]) (fun a l => fst a = inputs_of l)).
    - reflexivity.
    - intros a l x E. cbn [computations_combine_fn c_add tuple_add_input fst]. unfold add_inputs. rewrite E. unfold inputs_of. rewrite flat_map_app, app_length. cbn [flat_map]. rewrite app_nil_r.
      generalize (length (flat_map (fun e => item e 0) l)). generalize (item x 0). clear. induction l as [|y l IH]; intros n; cbn [fold_left length]; [f_equal; lia|].
      cbn [counted tally col_combiner c_add]. replace (Z.of_nat n + 1)%Z with (Z.of_nat (S n)) by lia. rewrite IH. f_equal. lia.
    - intros a l ps E F. cbn [computations_combine_fn c_merge tuple_merge fst map counted tally col_combiner fold_right].
      rewrite E. clear E a. unfold inputs_of. rewrite flat_map_app, app_length. assert (G : fold_right Z.add 0%Z (map fst (map fst ps)) = inputs_of (concat (map snd ps))).
      { induction F as [|[b k] ps B F IH]; [reflexivity|]. cbn [map fst snd fold_right concat]. cbn [fst snd] in B. rewrite B. unfold inputs_of in *. rewrite flat_map_app, app_length. cbn [map] in IH. rewrite IH. lia. }
      cbn [map] in G |- *. rewrite G. unfold inputs_of. lia. }
  rewrite <- R. reflexivity.
Qed.

Definition double (m : metrics) : res metrics :=
  match mget m (plain "_count" "") with Some (Num x) => Ok [(OKey IsMetric (plain "double" ""), Num (num_plus x x))] | _ => Err KeyError end.

Definition doubling : compiled nat := Compiled [([], counted "_count")] [double] [] [].

Definition red_slice : skey := [("colour", VStr "red")].

Definition blue_slice : skey := [("colour", VStr "blue")].

Definition plain_data : data nat := Dict [("labels", Leaf 1); ("predictions", Leaf 0); ("example_weights", Leaf 1)].

Definition three : list (list skey * data nat) := [([[]; red_slice], plain_data); ([[]; red_slice], plain_data); ([[]; blue_slice], plain_data)].

(** What tells keys of results apart. *)

Definition rid (k : rkey) : metric_key + string := match k with Key o => inl (ok_key o) | Text s => inr s end.

Definition runique (r : results) : Prop := NoDup (map (fun kv => rid (fst kv)) r).

Lemma rkey_eqb_rid a b : rkey_eqb a b = true <-> rid a = rid b.
Proof.
  destruct a as [x|s], b as [y|t]; cbn [rkey_eqb rid]; try (split; discriminate).
  - unfold okey_eqb. rewrite metric_key_eqb_eq. split; congruence.
  - rewrite String.eqb_eq. split; congruence.
Qed.

Lemma rmem (a : results) k : dmem rkey_eqb a k = true <-> In (rid k) (map (fun kv => rid (fst kv)) a).
Proof.
  unfold dmem. induction a as [|[j v] a IH]; [split; [discriminate|intros []]|]. cbn [dget map fst In]. destruct (rkey_eqb k j) eqn:E.
  - apply rkey_eqb_rid in E. split; [left; congruence|reflexivity].
  - rewrite IH. split; [right; assumption|]. intros [F|F]; [|exact F]. symmetry in F. apply rkey_eqb_rid in F. congruence.
Qed.

Lemma rset_new (a : results) k v : ~ In (rid k) (map (fun kv => rid (fst kv)) a) -> dset rkey_eqb a k v = a ++ [(k, v)].
Proof.
  induction a as [|[j w] a IH]; [reflexivity|]. cbn [dset map fst In app]. intros N. destruct (rkey_eqb k j) eqn:E.
  - apply rkey_eqb_rid in E. destruct N. left. congruence.
  - f_equal. apply IH. intros I0. apply N. right. exact I0.
Qed.

Lemma merge_results_spec a b : runique a -> runique b ->
  merge_results a b = Ok (a ++ b) /\ runique (a ++ b) \/ merge_results a b = Err ValueError /\ ~ runique (a ++ b).
Proof.
  intros UA UB. unfold merge_results. destruct (existsb _ b) eqn:E.
  - right. split; [reflexivity|]. apply existsb_exists in E. destruct E as (kv & I0 & I1). apply rmem in I1. intros N. unfold runique in N. rewrite map_app in N.
    apply in_split in I1. destruct I1 as (l1 & l2 & L). rewrite L, <- app_assoc in N. cbn [app] in N. apply NoDup_remove_2 in N. apply N. rewrite app_assoc. apply in_or_app. right.
    apply (in_map (fun kv : rkey * val => rid (fst kv)) b kv I0).
  - left. assert (NI : forall kv, In kv b -> ~ In (rid (fst kv)) (map (fun kv => rid (fst kv)) a)).
    { intros kv I0 X. apply rmem in X. assert (existsb (fun kv => dmem rkey_eqb a (fst kv)) b = true) by (apply existsb_exists; exists kv; auto). congruence. }
    assert (US : runique (a ++ b)).
    { unfold runique. rewrite map_app. apply NoDup_app; auto. intros q Q1 Q2. apply in_map_iff in Q2. destruct Q2 as (kv & <- & I0). apply (NI kv I0 Q1). }
    split; [|exact US]. f_equal. clear E NI UA. revert a US. induction b as [|[j v] b IH]; intros a US; [symmetry; apply app_nil_r|].
    unfold dupdate. cbn [fold_left fst snd]. rewrite rset_new.
    + replace (a ++ (j, v) :: b) with ((a ++ [(j, v)]) ++ b) in * by (rewrite <- app_assoc; reflexivity).
      unfold runique in UB. cbn [map fst] in UB. inversion UB; subst. apply IH; assumption.
    + unfold runique in US. rewrite map_app in US. cbn [map fst] in US. apply NoDup_remove_2 in US. intros X. apply US, in_or_app. auto.
Qed.

Definition rcombined (acc : res results) (l : list results) : Prop :=
  Forall runique l -> runique (concat l) /\ acc = Ok (concat l) \/ ~ runique (concat l) /\ acc = Err ValueError.

Lemma rcombined_merge a l b k : rcombined a l -> rcombined b k -> rcombined (let! x := a in let! y := b in merge_results x y) (l ++ k).
Proof.
  intros A B F. apply Forall_app in F. destruct F as [F1 F2]. rewrite concat_app. destruct (A F1) as [[U ->]|[U ->]]; cbn [bind].
  - destruct (B F2) as [[V ->]|[V ->]]; cbn [bind].
    + destruct (merge_results_spec _ _ U V) as [[-> ?]|[-> ?]]; auto.
    + right. split; [|reflexivity]. intros X. apply V. unfold runique in *. rewrite map_app in X. apply nodup_app_snd in X. exact X.
  - right. split; [|reflexivity]. intros X. apply U. unfold runique in *. rewrite map_app in X. apply nodup_app_fst in X. exact X.
Qed.

Lemma combine_results_run s : rcombined (outcome combine_results s) (inputs s).
Proof.
  unfold outcome. cbn [combine_results c_extract]. fold combine_results. apply (rel_run combine_results rcombined).
  - intros _. left. split; [constructor|reflexivity].
  - intros a l x H F. apply Forall_app in F. destruct F as [F1 F2]. inversion F2; subst.
    apply (rcombined_merge a l (Ok x) [x]); [exact H| |apply Forall_app; auto].
    intros _. cbn [concat]. rewrite app_nil_r. left. auto.
  - intros a l ps A P. cbn [combine_results c_merge]. revert a l A. induction P as [|[b k] ps B P IH]; intros a l A; cbn [map fst snd concat fold_left].
    + rewrite app_nil_r. exact A.
    + rewrite app_assoc. apply IH. apply rcombined_merge; assumption.
Qed.

(** The results of a kind that the groups have for a slice. *)

Definition parts (c : key_class) (k : slice) (ls : list (list (slice * results))) : list results :=
  map (fun kr => of_kind c (snd kr)) (filter (fun kr => slice_eqb k (fst kr)) (concat ls)).

Lemma parts_values c k ls : values_of slice_eqb k (map (fun kr => (fst kr, of_kind c (snd kr))) (concat ls)) = parts c k ls.
Proof.
  unfold values_of, parts. generalize (concat ls). intros l. induction l as [|[j r] l IH]; [reflexivity|]. cbn [map filter fst snd]. destruct (slice_eqb k j); cbn [map snd]; [f_equal|]; exact IH.
Qed.

Lemma C267_union_pf :
  forall c ls out, length ls <> 1 -> put_together c ls out ->
    NoDup (map fst out) /\
    (forall k, In k (map fst out) <-> exists r, In (k, r) (concat ls)) /\
    (forall k o, In (k, o) out -> Forall runique (parts c k ls) ->
       (runique (concat (parts c k ls)) -> exists r, o = Ok r /\ Permutation r (concat (parts c k ls))) /\
       (~ runique (concat (parts c k ls)) -> o = Err ValueError)).
Proof.
  intros c ls out L P. assert (PK : per_key slice_eqb combine_results (map (fun kr => (fst kr, of_kind c (snd kr))) (concat ls)) out).
  { destruct ls as [|l [|l' ls]]; [exact P|cbn in L; lia|exact P]. }
  destruct PK as (N & K & V). split; [exact N|]. split.
  - intros k. rewrite K, map_map. cbn [fst]. rewrite in_map_iff. split; [intros ([j r] & <- & I0); exists r; exact I0|intros (r & I0); exists (k, r); auto].
  - intros k o I0 U. destruct (V _ _ I0) as (s & PM & <-). rewrite parts_values in PM.
    assert (UI : Forall runique (inputs s)) by (rewrite Forall_forall in *; intros x X; apply U; apply (Permutation_in _ PM); exact X).
    assert (PC : Permutation (concat (inputs s)) (concat (parts c k ls))).
    { clear - PM. induction PM; cbn [concat]; [reflexivity|apply Permutation_app_head; assumption|rewrite !app_assoc; apply Permutation_app_tail, Permutation_app_comm|etransitivity; eassumption]. }
    assert (UU : runique (concat (inputs s)) <-> runique (concat (parts c k ls))).
    { unfold runique. split; apply Permutation_NoDup; apply Permutation_map; [exact PC|apply Permutation_sym; exact PC]. }
    destruct (combine_results_run s UI) as [[H1 H2]|[H1 H2]]; rewrite H2.
    + split; [intros _; exists (concat (inputs s)); auto|intros H; destruct H; apply UU; exact H1].
    + split; [intros H; destruct H1; apply UU; exact H|reflexivity].
Qed.

Lemma C267_one_group_pf :
  forall l ms ps ats, put_together IsMetric [l] ms -> put_together IsPlot [l] ps -> put_together IsAttributions [l] ats ->
    map fst ms = map fst l /\ map fst ps = map fst l /\ map fst ats = map fst l /\
    forall i k r, nth_error l i = Some (k, r) -> exists m p a, nth_error ms i = Some (k, Ok m) /\ nth_error ps i = Some (k, Ok p) /\ nth_error ats i = Some (k, Ok a) /\ Permutation (m ++ p ++ a) r.
Proof.
  intros l ms ps ats H1 H2 H3. cbn [put_together] in H1, H2, H3. subst ms ps ats. rewrite !map_map. cbn [fst]. split; [reflexivity|]. split; [reflexivity|]. split; [reflexivity|].
  intros i k r E. exists (of_kind IsMetric r), (of_kind IsPlot r), (of_kind IsAttributions r). split; [|split; [|split]]; [exact (map_nth_error _ i l E)..|].
  clear. induction r as [|[j v] r IH]; [reflexivity|]. unfold of_kind in *. cbn [filter fst]. destruct (kind_of j); cbn [class_eqb app].
  - apply perm_skip. exact IH.
  - etransitivity; [apply Permutation_sym, Permutation_middle|]. apply perm_skip. exact IH.
  - rewrite app_assoc. etransitivity; [apply Permutation_sym, Permutation_middle|]. rewrite <- app_assoc. apply perm_skip. exact IH.
Qed.

Lemma C267_small_twice_pf :
  forall l1 a l2 b l3 s out, In (s, too_small) a -> In (s, too_small) b ->
    (forall p, In p (parts IsMetric s (l1 ++ a :: l2 ++ b :: l3)) -> runique p) ->
    put_together IsMetric (l1 ++ a :: l2 ++ b :: l3) out -> In (s, Err ValueError) out.
Proof.
  intros l1 a l2 b l3 s out IA IB U P. set (ls := l1 ++ a :: l2 ++ b :: l3) in *.
  destruct (C267_union_pf IsMetric ls out) as (N & K & V); [unfold ls; rewrite app_length; cbn [length]; rewrite app_length; cbn [length]; lia|exact P|].
  assert (IK : In s (map fst out)).
  { apply K. exists too_small. unfold ls. rewrite concat_app. cbn [concat]. apply in_or_app. right. apply in_or_app. left. exact IA. }
  apply in_map_iff in IK. destruct IK as ([s' o] & E & IK). cbn in E. subst s'.
  destruct (V s o IK) as (_ & E); [apply Forall_forall; exact U|]. rewrite <- E; [exact IK|].
  intros Q. clear - Q IA IB. unfold runique, parts, ls in Q. rewrite concat_app in Q. cbn [concat] in Q. rewrite concat_app in Q. cbn [concat] in Q.
  rewrite !filter_app, !map_app, !concat_app, !map_app in Q. apply nodup_app_snd in Q.
  assert (H : forall l, In (s, too_small) l -> In (inr ERROR) (map (fun kv : rkey * val => rid (fst kv)) (concat (map (fun kr => of_kind IsMetric (snd kr)) (filter (fun kr : slice * results => slice_eqb s (fst kr)) l))))).
  { intros l I0. apply in_map_iff. exists (Text ERROR, snd (hd (Text "", Other "") too_small)). split; [reflexivity|]. apply in_concat. exists (of_kind IsMetric too_small). split; [|left; reflexivity].
    apply in_map_iff. exists (s, too_small). split; [reflexivity|]. apply filter_In. split; [exact I0|apply slice_eqb_eq; reflexivity]. }
  apply H in IA. apply H in IB. apply in_split in IA. destruct IA as (x & y & IA). rewrite IA in Q. rewrite <- app_assoc in Q. cbn [app] in Q. apply NoDup_remove_2 in Q. apply Q.
  apply in_or_app. right. apply in_or_app. right. apply in_or_app. right. apply in_or_app. left. exact IB.
Qed.

(** An example of two groups: the specs "" and "q", each counting under a name of its own. *)

Definition counting (specs : list string) : res (compiled nat) :=
  Ok (Compiled [([], counted (match specs with ["q"] => "queries" | _ => "examples" end))] [] [] []).

Definition first_of (l : list (data nat)) : res (data nat) := match l with d :: _ => Ok d | [] => Err IndexError end.

Definition one_red : list (qexample nat) := [QExample [[]; red_slice] (fun _ => Some "a") plain_data].

Lemma small_red name out :
  computes (fun (_ : unit) _ => true) (Compiled [([], counted name)] [] [] [] : compiled nat) [] "" 2%Z [([[]; red_slice], plain_data)] (Ok out) ->
  In (inl red_slice, too_small) out /\ forall r, In (inl red_slice, r) out -> r = too_small.
Proof.
  intros C. destruct (C266_slices_pf nat unit (fun _ _ => true) (Compiled [([], counted name)] [] [] []) "" 2%Z [([[]; red_slice], plain_data)] out (fun l => Ok [(OKey IsMetric (plain name ""), Num (Fin (qz (inputs_of l))))])) as (N & K & V).
  - apply counted_outcome.
  - intros l l' P. unfold inputs_of. rewrite (Permutation_length (Permutation_flat_map (fun e => item e 0) P)). reflexivity.
  - intros ks d [[= <- <-]|[]]. intros a b [<-|[<-|[]]] [<-|[<-|[]]]; vm_compute; intros H; try reflexivity; discriminate H.
  - exact C.
  - assert (E : forall r, In (inl red_slice, r) out -> r = too_small).
    { intros r I0. destruct (V _ _ I0) as (es & M & m & m' & _ & _ & [(_ & _ & _ & R)|(X & _)]); [exact R|]. destruct X. vm_compute in M. injection M as <-. split; [lia|]. split; [discriminate|cbn; lia]. }
    split; [|exact E]. assert (I0 : In (inl red_slice : slice) (map fst out)).
    { apply K. exists red_slice, [[]; red_slice], plain_data. split; [reflexivity|]. split; [left; reflexivity|right; left; reflexivity]. }
    apply in_map_iff in I0. destruct I0 as ([k r] & E0 & I0). cbn in E0. subst k. rewrite (E r I0) in I0. exact I0.
Qed.

Lemma small_red_group group out :
  In group [("", [""]); ("q", ["q"])] ->
  group_evaluates (fun (_ : unit) _ => true) counting first_of None None [] "" 2%Z one_red group out ->
  In (inl red_slice, too_small) out /\ forall r, In (inl red_slice, r) out -> r = too_small.
Proof.
  intros G (c & ys & E & X & C). assert (Y : ys = [([[]; red_slice], plain_data)]).
  { destruct G as [<-|[<-|[]]]; unfold extracts_of in X; cbn [fst String.eqb] in X; [injection X as ->; reflexivity|].
    cbn in X. destruct X as (gs & (N & K & V) & M). destruct gs as [|[q g] gs].
    - exfalso. destruct (proj2 (K "a") (or_introl eq_refl)).
    - assert (Q : q = "a") by (destruct (proj1 (K q) (or_introl eq_refl)) as [<-|[]]; reflexivity). subst q.
      assert (Z : gs = []).
      { destruct gs as [|[q' g'] gs]; [reflexivity|]. exfalso. inversion N; subst. apply H1. left. cbn. destruct (proj1 (K q') (or_intror (or_introl eq_refl))) as [<-|[]]. reflexivity. }
      subst gs. destruct (V "a" g (or_introl eq_refl)) as (s & P & O). rewrite to_list_inputs in O. subst g. apply Permutation_length_1_inv in P || apply Permutation_sym, Permutation_length_1_inv in P. rewrite P in M. cbn in M. injection M as ->. reflexivity. }
  subst ys. destruct G as [<-|[<-|[]]]; cbn in E; injection E as <-; eapply small_red; exact C.
Qed.

Lemma small_computes name :
  computes (fun (_ : unit) _ => true) (Compiled [([], counted name)] [] [] [] : compiled nat) [] "" 2%Z [([[]; red_slice], plain_data)]
    (Ok [(inl [], of_metrics (remove_private_metrics [(OKey IsMetric (plain name ""), Num (Fin (qz 1)))])); (inl red_slice, too_small)]).
Proof.
  unfold computes. vm_compute keyed.
  exists [([], Ok [(OKey IsMetric (plain name ""), Num (Fin (qz 1)))]); (red_slice, Ok [(OKey IsMetric (plain name ""), Num (Fin (qz 1)))])], [([], 1%Z); (red_slice, 1%Z)].
  set (E := ([None], [Dict [("labels", Leaf 1); ("predictions", Leaf 0); ("example_weights", Leaf 1)]]) : element nat).
  split; [|split; [|reflexivity]].
  - split; [repeat constructor; cbn; intuition discriminate|]. split; [intros k; cbn; intuition|].
    intros k o [[= <- <-]|[[= <- <-]|[]]]; exists (Bundle [E]); (split; [reflexivity|]); apply (counted_outcome name).
  - split; [repeat constructor; cbn; intuition discriminate|]. split; [intros k; cbn; intuition|].
    intros k o [[= <- <-]|[[= <- <-]|[]]]; exists (Bundle [E]); split; reflexivity.
Qed.

Definition two_groups_result : list (slice * res results) :=
  [(inl [], Ok [(Key (OKey IsMetric (plain "examples" "")), Num (Fin (qz 1))); (Key (OKey IsMetric (plain "queries" "")), Num (Fin (qz 1)))]);
   (inl red_slice, Err ValueError)].

Lemma two_groups_evaluate :
  evaluates (fun (_ : unit) _ => true) counting (fun s => s) "" first_of None None [] "" 2%Z [""; "q"] one_red IsMetric two_groups_result.
Proof.
  set (res name := [(inl [] : slice, of_metrics (remove_private_metrics [(OKey IsMetric (plain name ""), Num (Fin (qz 1)))])); (inl red_slice : slice, too_small)]).
  exists [res "examples"; res "queries"]. split.
  - vm_compute spec_groups. constructor; [|constructor; [|constructor]].
    + eexists. exists [([[]; red_slice], plain_data)]. split; [reflexivity|]. split; [reflexivity|]. apply (small_computes "examples").
    + eexists. exists [([[]; red_slice], plain_data)]. split; [reflexivity|]. split; [|apply (small_computes "queries")].
      exists [("a", one_red)]. split; [|reflexivity]. split; [repeat constructor; intros []|]. split; [intros k; cbn; tauto|].
      intros k v [[= <- <-]|[]]. exists (Bundle one_red). split; reflexivity.
  - split; [repeat constructor; cbn; intuition discriminate|]. split; [intros k; cbn; intuition|].
    intros k o [[= <- <-]|[[= <- <-]|[]]].
    + exists (Bundle [of_kind IsMetric (of_metrics (remove_private_metrics [(OKey IsMetric (plain "examples" ""), Num (Fin (qz 1)))])); of_kind IsMetric (of_metrics (remove_private_metrics [(OKey IsMetric (plain "queries" ""), Num (Fin (qz 1)))]))]). split; reflexivity.
    + exists (Bundle [too_small; too_small]). split; reflexivity.
Qed.

Lemma C267_hidden_slice_refuted_pf :
  exists specs xs min_size s,
    (exists out, evaluates (fun (_ : unit) _ => true) counting (fun s => s) "" first_of None None [] "" min_size specs xs IsMetric out /\ exists r, In (inl [], Ok r) out /\ length r = 2) /\
    forall out, evaluates (fun (_ : unit) _ => true) counting (fun s => s) "" first_of None None [] "" min_size specs xs IsMetric out -> In (inl s, Err ValueError) out.
Proof.
  exists [""; "q"], one_red, 2%Z, red_slice. split; [exists two_groups_result; split; [exact two_groups_evaluate|eexists; split; [left; reflexivity|reflexivity]]|].
  intros out (ls & F & P). vm_compute spec_groups in F. inversion F as [|g1 a gs1 ls1 A F1]; subst. inversion F1 as [|g2 b gs2 ls2 B F2]; subst. inversion F2; subst.
  apply small_red_group in A; [|left; reflexivity]. apply small_red_group in B; [|right; left; reflexivity]. destruct A as [A1 A2], B as [B1 B2].
  apply (C267_small_twice_pf [] a [] b [] (inl red_slice) out A1 B1); [|exact P].
  intros p I0. unfold parts in I0. apply in_map_iff in I0. destruct I0 as ([k r] & <- & I0). apply filter_In in I0. destruct I0 as [I0 E]. cbn [fst] in E. apply slice_eqb_eq in E. subst k.
  assert (R : r = too_small) by (cbn [app concat] in I0; rewrite app_nil_r in I0; apply in_app_or in I0; destruct I0; auto). subst r. repeat constructor. intros [].
Qed.

Lemma cross_unique mb mc r : cross_slice_metrics [] mb mc = Ok r -> unique r.
Proof.
  unfold cross_slice_metrics. set (f := fun acc kv => _).
  assert (G : forall mc acc r', unique acc -> foldM f mc acc = Ok r' -> unique r').
  { clear mc r. induction mc as [|[k v] mc IH]; intros acc r' U E; cbn [foldM] in E; [injection E as <-; exact U|].
    unfold f at 1 in E. cbn [fst snd] in E. destruct (dget okey_eqb mb k) as [b|]; [|cbn [bind] in E; apply (IH acc r' U E)].
    destruct (is_private k); [cbn [bind] in E; apply (IH acc r' U E)|]. destruct (ok_class k); [|cbn [bind] in E; apply (IH acc r' U E)|cbn [bind] in E; apply (IH acc r' U E)].
    destruct (val_sub b v) as [d|]; [|discriminate E]. cbn [bind] in E. apply (IH _ r' (dset_unique acc k d U) E). }
  destruct (foldM f mc []) as [r'|] eqn:E; [|discriminate]. cbn [bind foldM]. intros [= <-]. apply (G mc [] r'); [constructor|exact E].
Qed.

Lemma C268_difference_of_differences_pf :
  forall baseline (mb mc r d db dc : metrics) n mo o s a w x1 x2 y1 y2,
    baseline <> "" -> mo <> baseline -> ~ private_name n -> unique mb -> unique mc ->
    mget mb (MetricKey n mo o s a w false) = Some (Num (Fin x1)) -> mget mb (MetricKey n baseline o s a w false) = Some (Num (Fin x2)) ->
    In (OKey IsMetric (MetricKey n mo o s a w false), Num (Fin y1)) mc -> In (OKey IsMetric (MetricKey n baseline o s a w false), Num (Fin y2)) mc ->
    cross_slice_metrics [] mb mc = Ok r -> add_diff_metrics baseline r = Ok d ->
    add_diff_metrics baseline mb = Ok db -> add_diff_metrics baseline mc = Ok dc ->
    exists p q, mget db (MetricKey n mo o s a w true) = Some (Num (Fin p)) /\ mget dc (MetricKey n mo o s a w true) = Some (Num (Fin q)) /\
      mget d (MetricKey n mo o s a w true) = Some (Num (Fin (p - q)%Qc)).
Proof.
  intros baseline mb mc r d db dc n mo o s a w x1 x2 y1 y2 NB NM NP UB UC B1 B2 C1 C2 CR D DB DC.
  exists (x1 - x2)%Qc, (y1 - y2)%Qc.
  pose proof (fun k d0 => proj2 (C82_cross_slice_value_pf mb mc r k UC CR d0)) as CV.
  assert (R1 : mget r (MetricKey n mo o s a w false) = Some (Num (Fin (x1 - y1)%Qc))) by (apply CV; exists (Fin x1), (Fin y1); auto).
  assert (R2 : mget r (MetricKey n baseline o s a w false) = Some (Num (Fin (x2 - y2)%Qc))) by (apply CV; exists (Fin x2), (Fin y2); auto).
  split; [|split].
  - apply (C34_diff_is_candidate_minus_baseline_pf baseline mb db NB UB DB). split; [exact NM|]. split; [exact NP|]. exists (Fin x1), (Fin x2). auto.
  - apply (C34_diff_is_candidate_minus_baseline_pf baseline mc dc NB UC DC). split; [exact NM|]. split; [exact NP|]. exists (Fin y1), (Fin y2).
    split; [|split; [|reflexivity]]; [apply (In_mget mc _ _ UC C1)|apply (In_mget mc _ _ UC C2)].
  - apply (C34_diff_is_candidate_minus_baseline_pf baseline r d NB (cross_unique _ _ _ CR) D). split; [exact NM|]. split; [exact NP|]. exists (Fin (x1 - y1)%Qc), (Fin (x2 - y2)%Qc).
    split; [exact R1|]. split; [exact R2|]. cbn. f_equal. ring.
Qed.

(** The text an example's query has; none is the empty text. *)

Definition text_of (o : option string) : string := match o with Some q => q | None => "" end.

Lemma C269_queries_pf :
  forall (A : Type) (merge : list (data A) -> res (data A)) query_key xs ys, query_key <> "" ->
    extracts_of merge query_key xs (Ok ys) ->
    exists queries, NoDup queries /\
      (forall q, In q queries <-> exists x, In x xs /\ text_of (q_query x query_key) = q) /\
      Forall2 (fun q y => exists g, Permutation g (filter (fun x => String.eqb q (text_of (q_query x query_key))) xs) /\
                 merge (map q_data g) = Ok (snd y) /\
                 forall s, In s (fst y) <-> exists x, In x xs /\ text_of (q_query x query_key) = q /\ In s (q_slices x)) queries ys.
Proof.
  intros A merge query_key xs ys NQ X. unfold extracts_of in X. apply String.eqb_neq in NQ. rewrite NQ in X. destruct X as (gs & (N & K & V) & M).
  exists (map fst gs). split; [exact N|]. split.
  - intros q. rewrite K. unfold keyed_by_query. rewrite map_map, in_map_iff. cbn [fst]. split; intros (x & E & I0); exists x; auto.
  - assert (VO : forall q, values_of String.eqb q (keyed_by_query (fun x => q_query x query_key) xs) = filter (fun x => String.eqb q (text_of (q_query x query_key))) xs).
    { intros q. unfold values_of, keyed_by_query. clear. induction xs as [|x xs IH]; [reflexivity|]. cbn [map filter fst]. change (query_text (q_query x query_key)) with (text_of (q_query x query_key)). destruct (String.eqb q _); cbn [map snd]; rewrite IH; reflexivity. }
    clear N K. revert ys M. induction gs as [|[q g] gs IH]; intros ys M; cbn [mapM map fst snd] in *; [injection M as ->; constructor|].
    unfold merge_query at 1 in M. destruct (merge (map q_data g)) as [d|] eqn:E; [|discriminate M]. cbn [bind] in M. destruct (mapM _ gs) as [ys'|] eqn:M'; [|discriminate M]. cbn [bind] in M. injection M as ->.
    constructor; [|apply IH; [intros k v I0; apply V; right; exact I0|reflexivity]].
    destruct (V q g (or_introl eq_refl)) as (s & P & O). rewrite to_list_inputs in O. subst g. rewrite VO in P. exists (inputs s). split; [exact P|]. split; [exact E|].
    intros k. cbn [fst]. rewrite in_concat. split.
    + intros (l & I0 & I1). apply in_map_iff in I0. destruct I0 as (x & <- & I0). apply (Permutation_in _ P), filter_In in I0. destruct I0 as [I0 I2]. apply String.eqb_eq in I2. exists x. auto.
    + intros (x & I0 & I2 & I1). exists (q_slices x). split; [|exact I1]. apply in_map. apply (Permutation_in _ (Permutation_sym P)), filter_In. split; [exact I0|apply String.eqb_eq; auto].
Qed.

Lemma C269_slices_pf :
  forall (A : Type) (merge : list (data A) -> res (data A)) query_key xs ys s,
    extracts_of merge query_key xs (Ok ys) -> ((exists y, In y ys /\ In s (fst y)) <-> exists x, In x xs /\ In s (q_slices x)).
Proof.
  intros A merge query_key xs ys s X. destruct (string_dec query_key "") as [->|NQ].
  - injection X as ->. split; [intros (y & I0 & I1); apply in_map_iff in I0; destruct I0 as (x & <- & I0); exists x; auto|].
    intros (x & I0 & I1). exists (q_slices x, q_data x). split; [apply in_map_iff; exists x; auto|exact I1].
  - destruct (C269_queries_pf A merge query_key xs ys NQ X) as (qs & _ & Q & F). split.
    + intros (y & I0 & I1). destruct (Forall2_In_r _ _ _ _ F I0) as (q & _ & g & _ & _ & H). apply H in I1. destruct I1 as (x & I2 & _ & I1). exists x. auto.
    + intros (x & I0 & I1). assert (I2 : In (text_of (q_query x query_key)) qs) by (apply Q; exists x; auto).
      assert (L : exists y, In y ys /\ exists g, Permutation g (filter (fun z => String.eqb (text_of (q_query x query_key)) (text_of (q_query z query_key))) xs) /\ merge (map q_data g) = Ok (snd y) /\
                    forall s, In s (fst y) <-> exists z, In z xs /\ text_of (q_query z query_key) = text_of (q_query x query_key) /\ In s (q_slices z)).
      { clear - F I2. induction F as [|q y qs ys H F IH]; [destruct I2|]. destruct I2 as [->|I2]; [exists y; split; [left; reflexivity|exact H]|]. destruct (IH I2) as (y' & J & H'). exists y'. split; [right; exact J|exact H']. }
      destruct L as (y & J & _ & _ & _ & H). exists y. split; [exact J|]. apply H. exists x. auto.
Qed.

(** The labels of the examples of a query, one after the other. *)

Definition labels_in (d : data (list nat)) : list nat := match d with Dict [("labels", Leaf l)] => l | _ => [] end.

Definition join_labels (l : list (data (list nat))) : res (data (list nat)) := Ok (Dict [("labels", Leaf (flat_map labels_in l))]).

Lemma C269_only_the_slice_refuted_pf :
  exists (xs : list (qexample (list nat))) ys s, extracts_of join_labels "q" xs (Ok ys) /\
    flat_map labels_in (of_slice s ys) <> flat_map labels_in (map q_data (filter (fun x => memb skey_eqb s (q_slices x)) xs)) /\
    length (flat_map labels_in (of_slice s ys)) = 2 /\ length (filter (fun x => memb skey_eqb s (q_slices x)) xs) = 1.
Proof.
  set (one := QExample [red_slice] (fun _ => Some "a") (Dict [("labels", Leaf [1])])). set (two := QExample [blue_slice] (fun _ => Some "a") (Dict [("labels", Leaf [0])])).
  exists [one; two], [([red_slice; blue_slice], Dict [("labels", Leaf [1; 0])])], red_slice. split; [|split; [vm_compute; discriminate|split; reflexivity]].
  exists [("a", [one; two])]. split; [|reflexivity]. split; [repeat constructor; intros []|]. split; [intros k; cbn; tauto|].
  intros k v [[= <- <-]|[]]. exists (Bundle [one; two]). split; reflexivity.
Qed.

Lemma C270_requested_pf :
  forall c maybe_add maybe_remove has_baseline stamp c', update_eval_config_with_defaults c maybe_add maybe_remove has_baseline stamp = Ok c' ->
    ci_way (ci_samples (e_compute_ci c') (e_ci_method c')) =
    (if e_compute_ci c then match e_ci_method c with PoissonBootstrap => BootstrapWay 20 | _ => JackknifeWay 20 end else PlainWay).
Proof.
  intros c ma mr hb st c' E. unfold update_eval_config_with_defaults in E. destruct (_ && _ && _); [discriminate|]. destruct (is_true ma && is_true mr); [discriminate|]. destruct (_ && is_true hb); [discriminate|].
  destruct (fix_names _ _) as [ms ss]. injection E as <-. cbn [e_compute_ci e_ci_method]. destruct (e_compute_ci c); [destruct (e_ci_method c); reflexivity|reflexivity].
Qed.

Lemma C270_unset_method_refuted_pf :
  exists compute m, compute = true /\ ci_way (ci_samples compute m) = PlainWay.
Proof. exists true, UnknownMethod. split; reflexivity. Qed.

Lemma C271_hidden_fails_pf :
  forall baseline (ths : Validation_Model.thresholds) s k sts sc t, In (k, sts) ths -> In (sc, t) sts ->
    (forall b, baseline = Some b -> k_model k <> b) -> (forall b l, sc <> Some (Validation_Model.CrossScope b l)) ->
    exists v, validate_slice baseline ths (inl s, too_small) = Ok v /\ Validation_Model.v_ok v = false.
Proof.
  intros baseline ths s k sts sc t I0 I1 B C. unfold validate_slice, Validation_Model.validate_metrics. cbn [too_small for_validation flat_map fst snd app mapM bind map].
  eexists. split; [reflexivity|]. cbn [Validation_Model.v_ok].
  assert (NF : exists f, In f (flat_map (fun ks => if Validation_Model.is_baseline baseline (fst ks) then [] else Validation_Model.not_found (inl s) (fst ks) [] (snd ks)) (filter (fun ks => negb (dmem metric_key_eqb ([] : list (metric_key * Validation_Model.mvalue)) (fst ks))) ths))).
  { assert (F : exists f, In f (Validation_Model.not_found (inl s) k [] sts)).
    { clear I0. assert (A : Validation_Model.not_found_applicable (inl s) sc = true) by (destruct sc as [[sp|b l]|]; [reflexivity|destruct (C b l eq_refl)|reflexivity]).
      assert (G : forall seen, seen = [] -> exists f, In f (Validation_Model.not_found (inl s) k seen sts)); [|apply G; reflexivity].
      induction sts as [|[sc' t'] sts IH]; [destruct I1|]. intros seen ->. cbn [Validation_Model.not_found]. destruct I1 as [[= -> ->]|I1].
      - rewrite A. cbn [negb memb existsb]. eexists. left. reflexivity.
      - destruct (Validation_Model.not_found_applicable (inl s) sc'); cbn [negb memb existsb]; [eexists; left; reflexivity|apply IH; auto]. }
    destruct F as (f & F). exists f. apply in_flat_map. exists (k, sts). split; [apply filter_In; split; [exact I0|reflexivity]|]. cbn [fst snd].
    assert (NB : Validation_Model.is_baseline baseline k = false) by (unfold Validation_Model.is_baseline; destruct baseline as [b|]; [apply String.eqb_neq, (B b eq_refl)|reflexivity]).
    rewrite NB. exact F. }
  destruct NF as (f & NF). revert NF. generalize (flat_map (fun ks => if Validation_Model.is_baseline baseline (fst ks) then [] else Validation_Model.not_found (inl s) (fst ks) [] (snd ks)) (filter (fun ks => negb (dmem metric_key_eqb ([] : list (metric_key * Validation_Model.mvalue)) (fst ks))) ths)).
  intros l NF. destruct l; [destruct NF|reflexivity].
Qed.

Lemma C271_overall_threshold_refuted_pf :
  exists (ths : Validation_Model.thresholds) k r s v w,
    (forall j sts, In (j, sts) ths -> j = k /\ forall sc t, In (sc, t) sts -> sc = Some (Validation_Model.SingleScope Validation_Model.overall)) /\
    validate_slice None ths (inl [], r) = Ok v /\ Validation_Model.v_ok v = true /\
    validate_slice None ths (inl s, r) = Ok w /\ Validation_Model.v_ok w = true /\
    exists u, validate_slice None ths (inl s, too_small) = Ok u /\ Validation_Model.v_ok u = false.
Proof.
  exists [(plain "auc" "", [(Some (Validation_Model.SingleScope Validation_Model.overall), Validation_Model.ValueThreshold (Some (Fin (qz 1))) None)])], (plain "auc" ""),
    [(Key (OKey IsMetric (plain "auc" "")), Num (Fin (qz 2)))], red_slice. eexists. eexists.
  split; [intros j sts [[= <- <-]|[]]; split; [reflexivity|intros sc t [[= <- <-]|[]]; reflexivity]|].
  split; [reflexivity|]. split; [reflexivity|]. split; [reflexivity|]. split; [reflexivity|]. eexists. split; reflexivity.
Qed.
