From Coq Require Import String Sorting.Sorted.
From Verif Require Import Base BaseFacts Beam BeamFacts Slicer_Model Slicer_Spec Slicer_Proofs Pipeline_Model.

Lemma fval_eqb_eq a b : fval_eqb a b = true <-> a = b.
Proof.
  split.
  - destruct a, b; simpl; try discriminate; intro H.
    + apply String.eqb_eq in H; congruence.
    + apply String.eqb_eq in H; congruence.
    + apply Z.eqb_eq in H; congruence.
    + apply Qc_eqb_eq in H; congruence.
  - intro; subst. destruct b; simpl.
    + apply String.eqb_refl.
    + apply String.eqb_refl.
    + apply Z.eqb_refl.
    + apply Qc_eqb_refl.
Qed.
Lemma skey_eqb_eq a : forall b, skey_eqb a b = true <-> a = b.
Proof.
  induction a as [|[n v] a IH]; intros [|[m w] b]; simpl; try (split; congruence).
  rewrite !andb_true_iff, String.eqb_eq, fval_eqb_eq, IH. split.
  - intros [[? ?] ?]. congruence.
  - intro H. inversion H; auto.
Qed.

Section P.
  Context (float_repr : Qc -> string) (valid_utf8 : string -> bool) {X : Type}.
  Notation keyed := (keyed_examples float_repr valid_utf8 (X:=X)).

  (** Membership of an example in a slice, by the independent specification. *)
  Definition in_slice (sps : list spec) (x : example X) (k : skey) : Prop :=
    exists sp, In sp sps /\
      fixed_hold (render float_repr) (features sp) (ex_dicts x) (ex_raw x) /\
      slice_of (columns sp) (features sp) (ex_dicts x) (ex_raw x) k.

  (** Numbers in float form are not integers (so that 5 and 5.0, which Python
      identifies but Beam does not, never both occur). *)
  Definition plain (v : fval) : Prop :=
    match v with VFloat q => forall z, q <> qz z | _ => True end.

  Definition clean (sps : list spec) (x : example X) : Prop :=
    (forall n v, has_value (ex_dicts x) (ex_raw x) n v -> plain v) /\
    (forall sp c s, In sp sps -> In c (columns sp) ->
       has_value (ex_dicts x) (ex_raw x) c (VBytes s) -> valid_utf8 s = true).

  Lemma plain_same a b : plain a -> plain b -> same_value a b -> a = b.
  Proof.
    intros Ha Hb [H|[q [H1 H2]]]; auto.
    destruct a, b; simpl in *; try discriminate.
    - f_equal. apply qz_inj. congruence.
    - exfalso. inversion H1; inversion H2; subst. eapply Hb; eauto.
    - exfalso. inversion H1; inversion H2; subst. eapply Ha; eauto.
    - congruence.
  Qed.
  Lemma plain_key k : forall k', (forall n v, In (n, v) k -> plain v) -> (forall n v, In (n, v) k' -> plain v) ->
    same_key k k' -> k = k'.
  Proof.
    intros k' H1 H2 S. induction S as [|[n v] [m w] k k' [E1 E2] S IH]; auto.
    simpl in *. subst m. f_equal.
    - f_equal. apply plain_same; eauto.
    - apply IH; eauto.
  Qed.

  Lemma shown_plain v : plain v -> plain (shown v).
  Proof. destruct v; simpl; auto. Qed.

  Lemma fan_example_spec sps x :
    (forall sp, In sp sps -> wf_spec sp) ->
    (forall sp n v, In sp sps -> In (n, v) (features sp) -> plain v) ->
    clean sps x ->
    exists ks, fan_example float_repr valid_utf8 sps x = Ok (map (fun k => (k, x)) ks) /\
      NoDup ks /\ forall k, In k ks <-> in_slice sps x k.
  Proof.
    intros W PF [PV U]. unfold fan_example, extract_slice_keys.
    destruct (get_slices_ok float_repr valid_utf8 (ex_dicts x) (ex_raw x) sps) as [ks E].
    { intros sp Hs c s Hc Hv. eapply U; eauto. }
    rewrite E. simpl. rewrite app_nil_r.
    exists (dedup key_eqb (dedup key_eqb ks)). split; [reflexivity|].
    split; [apply dedup_gen_NoDup, key_eqb_refl|].
    intro k.
    assert (G : forall k', In k' ks <-> exists sp l, In sp sps /\ generate_slices float_repr valid_utf8 sp (ex_dicts x) (ex_raw x) = Ok l /\ In k' l)
      by (apply get_slices_app; auto).
    assert (PL : forall k', in_slice sps x k' -> forall n v, In (n, v) k' -> plain v).
    { intros k' [sp [Hs [_ [_ [_ HV]]]]] n v Hin. destruct (HV n v Hin) as [H|[_ [raw [H Er]]]].
      - eapply PF; eauto.
      - subst. apply shown_plain. eapply PV; eauto. }
    assert (SND : forall k', In k' ks -> in_slice sps x k').
    { intros k' Hk'. apply G in Hk'. destruct Hk' as [sp [l [Hs [Hg Hl]]]].
      exists sp. split; auto.
      apply (generate_sound float_repr valid_utf8 sp (ex_dicts x) (ex_raw x) l k' (W sp Hs)); auto.
      intros c s Hc Hv. eapply U; eauto. }
    split.
    - intro H. apply dedup_sub in H. apply dedup_sub in H. auto.
    - intro H. assert (H0 := H). destruct H as [sp [Hs [FH SO]]].
      destruct (generate_complete float_repr valid_utf8 sp (ex_dicts x) (ex_raw x) k (W sp Hs)) as [l [k' [Hg [Hk' SK]]]]; auto.
      { intros c s Hc Hv. eapply U; eauto. }
      assert (In k' ks) as Hk by (apply G; eauto).
      assert (k = k') by (apply plain_key; [apply PL; auto|apply PL; apply SND; auto|auto]). subst k'.
      destruct (dedup_rep key_eqb key_eqb_refl ks k Hk) as [k1 [H1 E1]].
      destruct (dedup_rep key_eqb key_eqb_refl _ k1 H1) as [k2 [H2 E2]].
      apply key_eqb_same in E1. apply key_eqb_same in E2.
      assert (k = k1).
      { apply plain_key; auto; [apply PL; auto|apply PL, SND]. eapply dedup_sub; eauto. }
      subst k1. assert (k = k2).
      { apply plain_key; auto; [apply PL; auto|apply PL, SND]. eapply dedup_sub. eapply dedup_sub. eauto. }
      subst k2. auto.
  Qed.

  Lemma values_of_app {K I} (e : K -> K -> bool) k (a b : list (K * I)) :
    values_of e k (a ++ b) = values_of e k a ++ values_of e k b.
  Proof. unfold values_of. rewrite filter_app', map_app. reflexivity. Qed.

  Lemma values_of_fan (ks : list skey) (x : example X) k :
    NoDup ks ->
    values_of skey_eqb k (map (fun k => (k, x)) ks) = if memb skey_eqb k ks then [x] else [].
  Proof.
    unfold values_of. induction 1 as [|k' ks Hk N IH]; simpl; auto.
    destruct (skey_eqb k k') eqn:E; simpl.
    - apply skey_eqb_eq in E. subst. rewrite IH.
      assert (memb skey_eqb k' ks = false) as M by (apply memb_nIn; [apply skey_eqb_eq|auto]).
      rewrite M. reflexivity.
    - exact IH.
  Qed.

  Lemma keyed_spec sps xs :
    (forall sp, In sp sps -> wf_spec sp) ->
    (forall sp n v, In sp sps -> In (n, v) (features sp) -> plain v) ->
    (forall x, In x xs -> clean sps x) ->
    exists kvs, keyed sps xs = Ok kvs /\
      (forall k, In k (map fst kvs) <-> exists x, In x xs /\ in_slice sps x k) /\
      (forall k, exists p : example X -> bool,
          (forall x, In x xs -> (p x = true <-> in_slice sps x k)) /\
          values_of skey_eqb k kvs = filter p xs).
  Proof.
    intros W PF. induction xs as [|x xs IH]; intro C.
    - exists []. unfold keyed_examples. simpl. split; auto. split.
      + intro k. split; [intros []|intros [? [[] _]]].
      + intro k. exists (fun _ => true). split; [intros ? []|reflexivity].
    - destruct IH as [kvs [E [HK HV]]]; [intros; apply C; right; auto|].
      destruct (fan_example_spec sps x W PF (C x (or_introl eq_refl))) as [ks [Ef [N Hk]]].
      unfold keyed_examples in *. simpl. rewrite Ef. simpl.
      destruct (mapM (fan_example float_repr valid_utf8 sps) xs) as [l|]; [|discriminate].
      simpl in *. inversion E; subst kvs. eexists. split; [reflexivity|]. split.
      + intro k. rewrite map_app, in_app_iff, HK, map_map, map_id, Hk. split.
        * intros [H|[y [? ?]]]; eauto.
        * intros [y [[?|?] ?]]; subst; eauto.
      + intro k. destruct (HV k) as [p [Hp Hf]].
        (* membership is decidable through the computed keys *)
        assert (DEC : forall y, In y (x :: xs) -> exists b : bool, b = true <-> in_slice sps y k).
        { intros y Hy. destruct (fan_example_spec sps y W PF (C y Hy)) as [ksy [_ [_ Hky]]].
          exists (memb skey_eqb k ksy). rewrite (memb_In skey_eqb skey_eqb_eq). apply Hky. }
        exists (fun y => match fan_example float_repr valid_utf8 sps y with
                 | Ok kv => memb skey_eqb k (map fst kv) | Err _ => false end).
        assert (Q : forall y, In y (x :: xs) ->
          (match fan_example float_repr valid_utf8 sps y with
                 | Ok kv => memb skey_eqb k (map fst kv) | Err _ => false end) = true <-> in_slice sps y k).
        { intros y Hy. destruct (fan_example_spec sps y W PF (C y Hy)) as [ksy [Ey [_ Hky]]].
          rewrite Ey, map_map, map_id. rewrite (memb_In skey_eqb skey_eqb_eq). apply Hky. }
        split; [exact Q|].
        rewrite values_of_app, values_of_fan by auto. rewrite Hf. simpl. rewrite Ef, map_map, map_id.
        assert (FE : filter p xs = filter (fun y => match fan_example float_repr valid_utf8 sps y with
                 | Ok kv => memb skey_eqb k (map fst kv) | Err _ => false end) xs).
        { apply filter_ext_in. intros y Hy.
          assert (p y = true <-> (match fan_example float_repr valid_utf8 sps y with
                 | Ok kv => memb skey_eqb k (map fst kv) | Err _ => false end) = true) as I.
          { rewrite Q by (right; auto). apply Hp; auto. }
          destruct (p y), (match fan_example float_repr valid_utf8 sps y with
                 | Ok kv => memb skey_eqb k (map fst kv) | Err _ => false end); auto; [symmetry|]; apply I; auto. }
        rewrite FE. destruct (memb skey_eqb k ks); reflexivity.
  Qed.

  (** Main pipeline lemma. *)
  Lemma pipeline_exact {A O} (c : combiner (example X) A O) (metric : list (example X) -> O) sps xs kvs out :
    (forall sp, In sp sps -> wf_spec sp) ->
    (forall sp n v, In sp sps -> In (n, v) (features sp) -> plain v) ->
    (forall x, In x xs -> clean sps x) ->
    (forall s, outcome c s = metric (inputs s)) ->
    (forall l l', Permutation l l' -> metric l = metric l') ->
    keyed sps xs = Ok kvs -> per_key skey_eqb c kvs out ->
    NoDup (map fst out) /\
    (forall k, In k (map fst out) <-> exists x, In x xs /\ in_slice sps x k) /\
    (forall k o, In (k, o) out ->
       exists p : example X -> bool,
         (forall x, In x xs -> (p x = true <-> in_slice sps x k)) /\ o = metric (filter p xs)).
  Proof.
    intros W PF C HM HP E [N [HK HO]].
    destruct (keyed_spec sps xs W PF C) as [kvs' [E' [HK' HV']]].
    rewrite E in E'. inversion E'; subst kvs'. clear E'.
    split; auto. split.
    - intro k. rewrite HK. apply HK'.
    - intros k o Ho. destruct (HO k o Ho) as [s [PS Es]].
      destruct (HV' k) as [p [Hp Hf]]. exists p. split; auto.
      rewrite <- Es, HM. rewrite Hf in PS. apply HP; auto.
  Qed.
End P.

Lemma count_spec {I} (s : sched I) : outcome count_combiner s = Z.of_nat (length (inputs s)).
Proof.
  unfold outcome. simpl.
  pose proof (rel_run (@count_combiner I) (fun a l => a = Z.of_nat (length l))) as R.
  apply R; simpl; auto.
  - intros a l x H. subst. rewrite app_length. simpl. lia.
  - intros a l ps H F. subst. rewrite app_length.
    assert (fold_right Z.add 0%Z (map fst ps) = Z.of_nat (length (concat (map snd ps)))) as G.
    { induction F as [|[b k] ps Hb F IH]; simpl; auto. rewrite IH, app_length. simpl in Hb. subst. lia. }
    rewrite G. lia.
Qed.
