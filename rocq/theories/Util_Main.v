(* Proofs of the theorems restated in Util_Properties.v. *)
From Coq Require Import String Ascii.
From Verif Require Import Base BaseFacts Slicer_Model Util_Model.
Local Open Scope string_scope.
Local Open Scope list_scope.

(** Specification vocabulary: the leaves of a nested dictionary and their paths. *)

Inductive leaf_at {A} : data A -> list string -> A -> Prop :=
| leaf_here a : leaf_at (Leaf a) [] a
| leaf_in d k v p a : In (k, v) d -> leaf_at v p a -> leaf_at (Dict d) (k :: p) a.

(** Python dicts have unique keys, at every level. *)

Inductive unique_keys {A} : data A -> Prop :=
| uk_leaf a : unique_keys (Leaf a)
| uk_dict d : NoDup (map fst d) -> (forall k v, In (k, v) d -> unique_keys v) -> unique_keys (Dict d).

Inductive unique_filter : filt -> Prop :=
| uf fs : NoDup (map fst fs) -> (forall k f, In (k, f) fs -> unique_filter f) -> unique_filter (Filt fs).

(** A path is covered by a filter if following it reaches an empty dict ("all"). *)

Inductive covered : filt -> list string -> Prop :=
| cov_all p : covered (Filt []) p
| cov_sub fs k sub p : In (k, sub) fs -> covered sub p -> covered (Filt fs) (k :: p).

(** The filter never asks for the inside of something that is not a dict. *)

Inductive fits {A} : filt -> data A -> Prop :=
| fits_all t : fits (Filt []) t
| fits_dict fs d :
    (forall k sub v, In (k, sub) fs -> In (k, v) d -> fits sub v) -> fits (Filt fs) (Dict d).

Section FInd.
  Context (P : filt -> Prop).
  Hypothesis HD : forall fs, (forall k v, In (k, v) fs -> P v) -> P (Filt fs).
  Fixpoint filt_ind' (t : filt) : P t.
  Proof.
    destruct t as [d]. apply HD.
    induction d as [|[k v] d IH]; simpl; intros k' v' H; [tauto|].
    pose proof (filt_ind' v) as Pv. clear filt_ind'.
    destruct H as [H|H]; [congruence|eapply IH; eauto].
  Defined.

End FInd.

Lemma dgetS_In {V} (d : list (string * V)) k v : dget String.eqb d k = Some v -> In (k, v) d.
Proof. apply dget_In, string_eqb_eq. Qed.

Lemma dgetS_In' {V} (d : list (string * V)) k v :
  NoDup (map fst d) -> In (k, v) d -> dget String.eqb d k = Some v.
Proof. intros N H. apply (dget_In_NoDup _ string_eqb_eq); auto. Qed.

Lemma dgetS_None {V} (d : list (string * V)) k v : dget String.eqb d k = None -> ~ In (k, v) d.
Proof.
  intros E H. apply (dget_None _ string_eqb_eq) in E. apply E.
  change k with (fst (k, v)). apply in_map, H.
Qed.

Lemma NoDup_fst_inj {V} (d : list (string * V)) k v w :
  NoDup (map fst d) -> In (k, v) d -> In (k, w) d -> v = w.
Proof.
  intros N H1 H2. apply (dgetS_In' _ _ _ N) in H1. apply (dgetS_In' _ _ _ N) in H2. congruence.
Qed.

Lemma include_spec {A} : forall f (t : data A),
  unique_keys t -> unique_filter f -> fits f t ->
  exists ti, include_filter f t = Ok ti /\ unique_keys ti /\
    forall p a, leaf_at ti p a <-> leaf_at t p a /\ covered f p.
Proof.
  induction f as [fs IH] using filt_ind'; intros t Ut Uf F.
  destruct fs as [|f0 fs0].
  { exists t. split; [reflexivity|]. split; [auto|]. intros; split; [intro; split; auto; constructor|tauto]. }
  inversion F as [|fs1 d Fs]; subst.
  inversion Ut as [|d1 Nd Ud]; subst. inversion Uf as [fs1 Nf Ufs]; subst.
  set (fs := f0 :: fs0) in *.
  set (step := fun (acc : list (string * data A)) ks =>
              match dget String.eqb d (fst ks) with
              | None => Ok acc
              | Some v => let! r := include_filter (snd ks) v in Ok (dset String.eqb acc (fst ks) r)
              end).
  assert (G : forall gs acc done,
    fs = done ++ gs -> NoDup (map fst acc) -> (forall k v, In (k, v) acc -> unique_keys v) ->
    (forall k v, In (k, v) acc -> In k (map fst done)) ->
    (forall p a, leaf_at (Dict acc) p a <-> leaf_at (Dict d) p a /\ exists k sub q, In (k, sub) done /\ p = k :: q /\ covered sub q) ->
    exists l, foldM step gs acc = Ok l /\ unique_keys (Dict l) /\
      forall p a, leaf_at (Dict l) p a <-> leaf_at (Dict d) p a /\ exists k sub q, In (k, sub) fs /\ p = k :: q /\ covered sub q).
  { induction gs as [|[k sub] gs IHgs]; intros acc done E Na Ua Ka La.
    - exists acc. rewrite app_nil_r in E. subst done. simpl. split; auto. split; [constructor; auto|auto].
    - assert (Hin : In (k, sub) fs) by (rewrite E; apply in_or_app; simpl; auto).
      assert (Hfresh : ~ In k (map fst done)).
      { intro H. rewrite E, map_app in Nf. simpl in Nf. apply NoDup_remove_2 in Nf.
        apply Nf. apply in_or_app; auto. }
      cbn [foldM]. unfold step at 1. cbn [fst snd].
      destruct (dget String.eqb d k) as [v|] eqn:Ev.
      + apply dgetS_In in Ev.
        destruct (IH k sub Hin v) as (r & Er & Ur & Lr); [eapply Ud; eauto|eapply Ufs; eauto|eapply Fs; eauto|].
        rewrite Er. cbn [bind].
        apply (IHgs _ (done ++ [(k, sub)])).
        * rewrite E, <- app_assoc. reflexivity.
        * apply (dset_NoDup _ string_eqb_eq); auto.
        * intros k' v' H.
          apply (dgetS_In' _ _ _ (dset_NoDup _ string_eqb_eq _ _ _ Na)) in H.
          rewrite (dget_dset _ string_eqb_eq) in H. destruct (String.eqb k' k) eqn:Ek.
          -- inversion H; subst; auto.
          -- apply dgetS_In in H. eauto.
        * intros k' v' H. rewrite map_app. apply in_or_app. simpl.
          apply (in_map fst) in H. simpl in H. apply (dset_keys_In _ string_eqb_eq) in H.
          destruct H as [H|H]; [auto|]. left. apply in_map_iff in H. destruct H as [[k2 v2] [? H]]. simpl in *; subst.
          eauto.
        * intros p a. split.
          -- intro H. inversion H as [|d0 k' v' q a' H1 H2]; subst.
             apply (dgetS_In' _ _ _ (dset_NoDup _ string_eqb_eq _ _ _ Na)) in H1.
             rewrite (dget_dset _ string_eqb_eq) in H1. destruct (String.eqb k' k) eqn:Ek.
             ++ apply String.eqb_eq in Ek. subst k'. inversion H1; subst v'.
                apply Lr in H2. destruct H2 as [H2 H3]. split; [econstructor; eauto|].
                exists k, sub, q. split; [apply in_or_app; simpl; auto|auto].
             ++ apply dgetS_In in H1.
                assert (X : leaf_at (Dict acc) (k' :: q) a) by (econstructor; eauto).
                apply La in X. destruct X as [X (k1 & s1 & q1 & X1 & X2 & X3)].
                split; auto. exists k1, s1, q1. split; [apply in_or_app; auto|auto].
          -- intros [H (k1 & s1 & q1 & H1 & H2 & H3)]. subst p. apply in_app_or in H1.
             destruct H1 as [H1|[H1|[]]].
             ++ assert (X : leaf_at (Dict acc) (k1 :: q1) a) by (apply La; split; eauto 6).
                inversion X as [|d0 k' v' q a' X1 X2]; subst.
                econstructor; [|exact X2].
                apply dgetS_In. rewrite (dget_dset _ string_eqb_eq).
                destruct (String.eqb k1 k) eqn:Ek.
                { apply String.eqb_eq in Ek. subst. exfalso. apply Hfresh. eapply Ka; eauto. }
                apply dgetS_In'; auto.
             ++ inversion H1; subst k1 s1.
                inversion H as [|d0 k' v' q a' X1 X2]; subst.
                pose proof (NoDup_fst_inj _ _ _ _ Nd Ev X1). subst v'.
                econstructor; [|apply Lr; split; eauto].
                apply dgetS_In. apply (dget_dset_eq _ string_eqb_eq).
      + apply (IHgs acc (done ++ [(k, sub)])); auto.
        * rewrite E, <- app_assoc. reflexivity.
        * intros k' v' H. rewrite map_app. apply in_or_app. left. eauto.
        * intros p a. rewrite La. split.
          -- intros [H (k1 & s1 & q1 & X1 & X2 & X3)]. split; auto.
             exists k1, s1, q1. split; [apply in_or_app; auto|auto].
          -- intros [H (k1 & s1 & q1 & X1 & X2 & X3)]. split; auto.
             exists k1, s1, q1. apply in_app_or in X1. destruct X1 as [X1|[X1|[]]]; auto.
             inversion X1; subst. inversion H; subst. exfalso. eapply dgetS_None; eauto. }
  destruct (G fs [] []) as (l & El & Ul & Ll); [reflexivity|constructor|simpl; tauto|simpl; tauto| |].
  - intros p a. split.
    + intro H. inversion H; subst. simpl in *; tauto.
    + intros [_ (k & s & q & [] & _)].
  - exists (Dict l). split.
    + change (include_filter (Filt fs) (Dict d)) with (let! l := foldM step fs [] in Ok (Dict l)). rewrite El. reflexivity.
    + split; auto. intros p a. rewrite Ll. split.
      * intros [H (k & s & q & H1 & H2 & H3)]. split; auto. subst. econstructor; eauto.
      * intros [H H1]. split; auto. inversion H1; subst. eauto 6.
Qed.

Lemma covered_nonempty_nil fs : fs <> [] -> ~ covered (Filt fs) [].
Proof. intros N H. inversion H; subst; congruence. Qed.

Lemma exclude_spec {A} : forall f (t : data A),
  unique_keys t -> unique_filter f -> fits f t -> f <> Filt [] ->
  exists te, exclude_filter f t = Ok te /\ unique_keys te /\
    forall p a, leaf_at te p a <-> leaf_at t p a /\ ~ covered f p.
Proof.
  induction f as [fs IH] using filt_ind'; intros t Ut Uf F N.
  assert (N' : fs <> []) by congruence.
  inversion F as [|fs1 d Fs]; subst; [congruence|].
  inversion Ut as [|d1 Nd Ud]; subst. inversion Uf as [fs1 Nf Ufs]; subst.
  set (step := fun kv : string * data A =>
          match dget String.eqb fs (fst kv) with
          | None => Ok [kv]
          | Some (Filt []) => Ok []
          | Some sub =>
              let! r := exclude_filter sub (snd kv) in
              match r with
              | Dict [] => Ok []
              | _ => Ok [(fst kv, r)]
              end
          end).
  assert (G : forall ds, incl ds d -> NoDup (map fst ds) ->
    exists l, mapM step ds = Ok l /\ NoDup (map fst (concat l)) /\ incl (map fst (concat l)) (map fst ds) /\
      (forall k v, In (k, v) (concat l) -> unique_keys v) /\
      forall p a, leaf_at (Dict (concat l)) p a <-> leaf_at (Dict ds) p a /\ ~ covered (Filt fs) p).
  { induction ds as [|[k v] ds IHds]; intros Hi Nds.
    - exists []. simpl. split; [auto|]. split; [constructor|]. split; [firstorder|]. split; [tauto|].
      intros p a. split; [intro H; inversion H; subst; simpl in *; tauto|intros [H _]; inversion H; subst; simpl in *; tauto].
    - simpl in Nds. inversion Nds as [|x y Nk Nds']; subst.
      destruct IHds as (l & El & Nl & Il & Ul & Ll); [intros x Hx; apply Hi; simpl; auto|auto|].
      assert (Hv : In (k, v) d) by (apply Hi; simpl; auto).
      (* the entry for k *)
      assert (X : exists e, step (k, v) = Ok e /\ (e = [] \/ exists r, e = [(k, r)] /\ unique_keys r) /\
        forall q a, (exists r, In (k, r) e /\ leaf_at r q a) <-> leaf_at v q a /\ ~ covered (Filt fs) (k :: q)).
      { unfold step. cbn [fst snd]. destruct (dget String.eqb fs k) as [sub|] eqn:Es.
        - apply dgetS_In in Es. destruct sub as [[|s0 ss]].
          + exists []. split; auto. split; auto. intros q a. split.
            * intros (r & [] & _).
            * intros [_ H]. exfalso. apply H. econstructor; eauto. constructor.
          + destruct (IH k _ Es v) as (r & Er & Ur & Lr); [eapply Ud; eauto|eapply Ufs; eauto|eapply Fs; eauto|congruence|].
            rewrite Er. cbn [bind].
            assert (Y : forall q a, leaf_at r q a <-> leaf_at v q a /\ ~ covered (Filt fs) (k :: q)).
            { intros q a. rewrite Lr. split; intros [H1 H2]; split; auto; intro C; apply H2.
              - inversion C; subst; [congruence|].
                replace (Filt (s0 :: ss)) with sub; auto. eapply NoDup_fst_inj; eauto.
              - econstructor; eauto. }
            destruct r as [b|[|e0 es]].
            * eexists. split; [reflexivity|]. split; [right; eauto|]. intros q a. rewrite <- Y. split.
              -- intros (r & [H|[]] & H2). inversion H; subst; auto.
              -- intro H. eexists; split; [left; reflexivity|auto].
            * eexists. split; [reflexivity|]. split; [left; auto|]. intros q a. rewrite <- Y. split.
              -- intros (r & [] & _).
              -- intro H. inversion H; subst. simpl in *; tauto.
            * eexists. split; [reflexivity|]. split; [right; eauto|]. intros q a. rewrite <- Y. split.
              -- intros (r & [H|[]] & H2). inversion H; subst; auto.
              -- intro H. eexists; split; [left; reflexivity|auto].
        - eexists. split; [reflexivity|]. split; [right; eexists; split; [reflexivity|eapply Ud; eauto]|].
          intros q a. split.
          + intros (r & [H|[]] & H2). inversion H; subst. split; auto.
            intro C. inversion C; subst; [congruence|]. eapply dgetS_None; eauto.
          + intros [H _]. exists v. simpl; auto. }
      destruct X as (e & Ee & He & Le).
      exists (e :: l). simpl mapM. rewrite Ee. simpl. rewrite El. split; [reflexivity|].
      assert (Ke : forall x, In x (map fst e) -> x = k).
      { destruct He as [He|(r & He & _)]; subst e; simpl; intuition. }
      split; [|split; [|split]].
      + rewrite map_app. apply NoDup_app; auto.
        * destruct He as [He|(r & He & _)]; subst e; simpl; repeat constructor; simpl; tauto.
        * intros x H1 H2. apply Ke in H1. subst x. apply Nk, Il, H2.
      + intros x. rewrite map_app. intro H. apply in_app_or in H. simpl.
        destruct H as [H|H]; [left; symmetry; auto|right; apply Il; auto].
      + intros k' v' H. apply in_app_or in H. destruct H as [H|H]; [|eauto].
        destruct He as [He|(r & He & Ur)]; subst e; simpl in H; [tauto|].
        destruct H as [H|[]]. inversion H; subst; auto.
      + intros p a. split.
        * intro H. inversion H as [|d0 k' v' q a' H1 H2]; subst. apply in_app_or in H1.
          destruct H1 as [H1|H1].
          -- assert (k' = k) by (apply Ke; change k' with (fst (k', v')); apply in_map; auto). subst k'.
             assert (Z : leaf_at v q a /\ ~ covered (Filt fs) (k :: q)) by (apply Le; eauto).
             destruct Z. split; auto. econstructor; [left; reflexivity|auto].
          -- assert (Z : leaf_at (Dict (concat l)) (k' :: q) a) by (econstructor; eauto).
             apply Ll in Z. destruct Z as [Z1 Z2]. split; auto.
             inversion Z1; subst. econstructor; [right; eauto|auto].
        * intros [H C]. inversion H as [|d0 k' v' q a' H1 H2]; subst. destruct H1 as [H1|H1].
          -- inversion H1; subst. destruct (proj2 (Le q a) (conj H2 C)) as (r & R1 & R2).
             econstructor; [apply in_or_app; left; eauto|auto].
          -- assert (Z : leaf_at (Dict (concat l)) (k' :: q) a) by (apply Ll; split; auto; econstructor; eauto).
             inversion Z; subst. econstructor; [apply in_or_app; right; eauto|auto]. }
  destruct (G d (incl_refl d) Nd) as (l & El & Nl & _ & Ul & Ll).
  exists (Dict (concat l)). split.
  - cbn [exclude_filter subfilters]. fold step. rewrite El. reflexivity.
  - split; [constructor; auto|auto].
Qed.

Lemma merge_covered : forall f1 f2,
  unique_filter f1 -> unique_filter f2 ->
  unique_filter (merge_filters f1 f2) /\
  forall p, covered (merge_filters f1 f2) p <-> covered f1 p \/ covered f2 p.
Proof.
  induction f1 as [fs1 IH] using filt_ind'; intros [fs2] U1 U2.
  destruct fs1 as [|a1 r1].
  { simpl. split; auto. intro p; split; intro H; [auto|]. constructor. }
  destruct fs2 as [|a2 r2].
  { simpl. split; auto. intro p; split; intro H; [auto|]. constructor. }
  set (fs1 := a1 :: r1) in *. set (fs2 := a2 :: r2) in *.
  assert (N1 : fs1 <> []) by (unfold fs1; congruence).
  assert (N2 : fs2 <> []) by (unfold fs2; congruence).
  set (m := fun ks : string * filt => (fst ks, match dget String.eqb fs2 (fst ks) with
                                      | Some s2 => merge_filters (snd ks) s2
                                      | None => snd ks
                                      end)).
  assert (E : merge_filters (Filt fs1) (Filt fs2) =
    Filt (map m fs1 ++ filter (fun kv => negb (dmem String.eqb fs1 (fst kv))) fs2)) by reflexivity.
  rewrite E. clear E. clearbody fs1 fs2. clear a1 r1 a2 r2.
  inversion U1 as [x Nf1 Us1]; inversion U2 as [y Nf2 Us2]; subst.
  assert (Km : map fst (map m fs1) = map fst fs1) by (rewrite map_map; apply map_ext; reflexivity).
  assert (Kf : forall k f, In (k, f) (filter (fun kv => negb (dmem String.eqb fs1 (fst kv))) fs2) <->
     In (k, f) fs2 /\ ~ In k (map fst fs1)).
  { intros k f. rewrite filter_In. simpl. rewrite negb_true_iff, (dmem_false _ string_eqb_eq). tauto. }
  split.
  - constructor.
    + rewrite map_app, Km. apply NoDup_app; auto.
      * clear - Nf2. induction fs2 as [|[k f] fs2 IHf]; simpl; [constructor|].
        simpl in Nf2; inversion Nf2; subst. destruct (negb (dmem String.eqb fs1 k)); simpl; auto.
        constructor; auto. intro H. apply in_map_iff in H. destruct H as [[k' f'] [? H]].
        simpl in *; subst. apply filter_In in H. destruct H as [H _]. apply H1.
        change k with (fst (k, f')). apply in_map; auto.
      * intros k H1 H2. apply in_map_iff in H2. destruct H2 as [[k' f'] [? H2]]. simpl in *; subst.
        apply Kf in H2. tauto.
    + intros k f H. apply in_app_or in H. destruct H as [H|H].
      * apply in_map_iff in H. destruct H as [[k1 s1] [E H]]. unfold m in E. simpl in E. inversion E; subst.
        destruct (dget String.eqb fs2 k) as [s2|] eqn:E2; [|eapply Us1; eauto].
        apply dgetS_In in E2. apply (IH k s1 H s2); [eapply Us1; eauto|eapply Us2; eauto].
      * apply Kf in H. eapply Us2; apply H.
  - intro p. split.
    + intro H. inversion H as [q E|fs k sub q H1 H2]; subst.
      { destruct fs1; [congruence|discriminate]. }
      apply in_app_or in H1. destruct H1 as [H1|H1].
      * apply in_map_iff in H1. destruct H1 as [[k1 s1] [E H1]]. unfold m in E. simpl in E. inversion E; subst.
        destruct (dget String.eqb fs2 k) as [s2|] eqn:E2.
        -- apply dgetS_In in E2. apply (IH k s1 H1 s2) in H2; [|eapply Us1; eauto|eapply Us2; eauto].
           destruct H2; [left|right]; econstructor; eauto.
        -- left; econstructor; eauto.
      * right. apply Kf in H1. econstructor; [apply H1|auto].
    + intros [H|H]; inversion H as [q E|fs k sub q H1 H2]; subst; try congruence.
      * econstructor; [apply in_or_app; left; apply in_map_iff; exists (k, sub); split; [reflexivity|auto]|].
        simpl. destruct (dget String.eqb fs2 k) as [s2|] eqn:E2; auto.
        apply dgetS_In in E2. apply (IH k sub H1 s2); [eapply Us1; eauto|eapply Us2; eauto|auto].
      * destruct (dget String.eqb fs1 k) as [s1|] eqn:E1.
        -- apply dgetS_In in E1.
           econstructor; [apply in_or_app; left; apply in_map_iff; exists (k, s1); split; [reflexivity|auto]|].
           simpl. rewrite (dgetS_In' _ _ _ Nf2 H1). apply (IH k s1 E1 sub); [eapply Us1; eauto|eapply Us2; eauto|auto].
        -- econstructor; [apply in_or_app; right; apply Kf; split; eauto|auto].
           apply (dget_None _ string_eqb_eq) in E1. auto.
Qed.

Lemma C45_include_exclude_partition_pf :
  forall (A : Type) f (t : data A),
    unique_keys t -> unique_filter f -> fits f t -> f <> Filt [] ->
    exists ti te,
      include_filter f t = Ok ti /\ exclude_filter f t = Ok te /\
      (forall p a, leaf_at ti p a <-> leaf_at t p a /\ covered f p) /\
      (forall p a, leaf_at te p a <-> leaf_at t p a /\ ~ covered f p) /\
      (forall p a, leaf_at t p a -> (leaf_at ti p a <-> ~ leaf_at te p a)).
Proof.
  intros A f t U F Ft N.
  destruct (include_spec f t U F Ft) as (ti & Ei & _ & Li).
  destruct (exclude_spec f t U F Ft N) as (te & Ee & _ & Le).
  exists ti, te. split; [auto|]. split; [auto|]. split; [exact Li|]. split; [exact Le|].
  intros p a Hl. split.
  - intros H1 H2. apply Li in H1. apply Le in H2. tauto.
  - intro H1. apply Li. split; auto.
    assert (D : forall f p, covered f p \/ ~ covered f p).
    { clear. induction f as [fs IH] using filt_ind'. intros [|k p].
      - destruct fs; [left; constructor|right; intro H; inversion H].
      - destruct (dget String.eqb fs k) as [s|] eqn:E.
        + destruct fs as [|e fs]; [discriminate|].
          assert (X : (exists s, In (k, s) (e :: fs) /\ covered s p) \/ ~ exists s, In (k, s) (e :: fs) /\ covered s p).
          { clear E. revert IH. generalize (e :: fs) as l. induction l as [|[k1 s1] l IHl]; intro IH.
            - right. intros (s' & [] & _).
            - destruct IHl as [Y|Y]; [intros; eapply IH; simpl; eauto|left|].
              + destruct Y as (s' & ? & ?). exists s'. simpl; auto.
              + destruct (string_dec k1 k) as [Ek|Ek].
                * subst. destruct (IH k s1 (or_introl eq_refl) p) as [Z|Z].
                  -- left. exists s1. simpl; auto.
                  -- right. intros (s' & [Hs|Hs] & C); [inversion Hs; subst; auto|apply Y; eauto].
                * right. intros (s' & [Hs|Hs] & C); [inversion Hs; subst; auto|apply Y; eauto]. }
          destruct X as [(s' & X1 & X2)|X]; [left; econstructor; eauto|].
          right. intro C. inversion C; subst. apply X; eauto.
        + destruct fs as [|e fs]; [left; constructor|right].
          intro C. inversion C; subst. eapply dgetS_None; eauto. }
    destruct (D f p); auto. exfalso. apply H1. apply Le; auto.
Qed.

Lemma C45_merge_is_union_pf :
  forall (A : Type) f1 f2 (t t1 t2 : data A),
    unique_keys t -> unique_filter f1 -> unique_filter f2 ->
    fits f1 t -> fits f2 t -> fits (merge_filters f1 f2) t ->
    include_filter f1 t = Ok t1 -> include_filter f2 t = Ok t2 ->
    exists t3, include_filter (merge_filters f1 f2) t = Ok t3 /\
      forall p a, leaf_at t3 p a <-> leaf_at t1 p a \/ leaf_at t2 p a.
Proof.
  intros A f1 f2 t t1 t2 U F1 F2 T1 T2 T3 E1 E2.
  destruct (merge_covered f1 f2 F1 F2) as [F3 C].
  destruct (include_spec f1 t U F1 T1) as (x1 & X1 & _ & L1).
  destruct (include_spec f2 t U F2 T2) as (x2 & X2 & _ & L2).
  destruct (include_spec _ t U F3 T3) as (x3 & X3 & _ & L3).
  rewrite E1 in X1; rewrite E2 in X2; inversion X1; inversion X2; subst.
  exists x3. split; auto. intros p a. rewrite L1, L2, L3, C. tauto.
Qed.

Lemma C45_empty_filter_refuted_pf :
  exists (t : data nat) p a,
    unique_keys t /\ leaf_at t p a /\
    include_filter (Filt []) t = Ok t /\ exclude_filter (Filt []) t = Ok t.
Proof.
  exists (Dict [("labels", Leaf 1)]), ["labels"], 1. repeat split.
  - constructor; [repeat constructor; simpl; tauto|]. intros k v [H|[]]. inversion H; constructor.
  - econstructor; [left; reflexivity|constructor].
Qed.

Definition ex_extracts : data nat :=
  Dict [("features", Dict [("age", Leaf 1); ("sex", Leaf 2)]); ("labels", Leaf 3)].

Definition ex_filter : filt := Filt [("features", Filt [("age", Filt [])]); ("weights", Filt [])].

Notation "a +++ b" := (String.append a b) (at level 60, right associativity).

(** Reading back a printed natural number. *)

Fixpoint dval (s : string) : Z :=
  match s with
  | EmptyString => 0
  | String c t => ((Z.of_nat (nat_of_ascii c) - 48) * 10 ^ Z.of_nat (String.length t) + dval t)%Z
  end.

Lemma dval_print fuel : forall n acc,
  (0 <= n < 2 ^ Z.of_nat fuel)%Z ->
  dval (print_nat_fuel fuel n acc) = (n * 10 ^ Z.of_nat (String.length acc) + dval acc)%Z.
Proof.
  induction fuel as [|f IH]; intros n acc H.
  - change (2 ^ Z.of_nat 0)%Z with 1%Z in H. assert (n = 0)%Z by lia. subst. simpl. reflexivity.
  - cbn [print_nat_fuel].
    pose proof (Z.mod_pos_bound n 10 ltac:(lia)) as B.
    assert (D : forall t, dval (String (ascii_of_nat (48 + Z.to_nat (n mod 10))) t) =
                ((n mod 10) * 10 ^ Z.of_nat (String.length t) + dval t)%Z).
    { intro t. cbn [dval]. rewrite nat_ascii_embedding by lia. f_equal. f_equal. lia. }
    pose proof (Z.div_mod n 10 ltac:(lia)) as DM.
    destruct (Z.eqb_spec (n / 10) 0).
    + rewrite D. rewrite e in DM. replace (n mod 10)%Z with n by lia. reflexivity.
    + rewrite IH.
      * rewrite D. cbn [String.length]. rewrite Nat2Z.inj_succ, Z.pow_succ_r by lia.
        transitivity ((10 * (n / 10) + n mod 10) * 10 ^ Z.of_nat (String.length acc) + dval acc)%Z;
          [ring|rewrite <- DM; reflexivity].
      * rewrite Nat2Z.inj_succ, Z.pow_succ_r in H by lia.
        split; [apply Z.div_pos; lia|]. apply Z.div_lt_upper_bound; lia.
Qed.

Lemma dval_print_Z n : dval (print_Z (Z.of_nat n)) = Z.of_nat n.
Proof.
  unfold print_Z. destruct (Z.ltb_spec (Z.of_nat n) 0); [lia|].
  rewrite dval_print.
  - simpl. lia.
  - split; [lia|]. rewrite Z.abs_eq by lia.
    rewrite Nat2Z.inj_succ, Z2Nat.id by apply Z.log2_nonneg.
    pose proof (Z.log2_spec (Z.max (Z.of_nat n) 1) ltac:(lia)). lia.
Qed.

Lemma append_inj_l s : forall a b, s +++ a = s +++ b -> a = b.
Proof. induction s; simpl; intros x y H; [auto|]. inversion H; auto. Qed.

Lemma append_length' s t : String.length (s +++ t) = String.length s + String.length t.
Proof. induction s; simpl; auto. Qed.

Lemma suffixed_inj key i j : suffixed key i = suffixed key j -> i = j.
Proof.
  unfold suffixed. intro H. apply append_inj_l in H. apply append_inj_l in H.
  apply (f_equal dval) in H. rewrite !dval_print_Z in H. lia.
Qed.

Lemma suffixed_neq key i : suffixed key i <> key.
Proof.
  unfold suffixed. intro H. apply (f_equal String.length) in H.
  rewrite !append_length' in H. simpl in H. lia.
Qed.

(** The sequence of names tried. *)

Definition candidate (key : string) (i : nat) : string :=
  match i with 0 => key | _ => suffixed key i end.

Lemma candidate_inj key i j : candidate key i = candidate key j -> i = j.
Proof.
  destruct i, j; simpl; intro H; auto.
  - symmetry in H. apply suffixed_neq in H. tauto.
  - apply suffixed_neq in H. tauto.
  - apply suffixed_inj in H. auto.
Qed.

Lemma unique_loop_spec fuel : forall key cur i,
  match unique_loop fuel key cur (candidate key i) (S i) with
  | Some k => exists j, i <= j <= i + fuel /\ k = candidate key j /\ ~ In k cur /\
                        forall m, i <= m < j -> In (candidate key m) cur
  | None => forall m, i <= m <= i + fuel -> In (candidate key m) cur
  end.
Proof.
  induction fuel as [|f IH]; intros key cur i.
  - cbn [unique_loop]. destruct (memb String.eqb (candidate key i) cur) eqn:E.
    + apply (memb_In _ string_eqb_eq) in E. intros m Hm. replace m with i by lia. auto.
    + apply (memb_nIn _ string_eqb_eq) in E. exists i. split; [lia|]. split; [auto|]. split; [auto|]. intros; lia.
  - cbn [unique_loop]. destruct (memb String.eqb (candidate key i) cur) eqn:E.
    + apply (memb_In _ string_eqb_eq) in E.
      change (suffixed key (S i)) with (candidate key (S i)).
      specialize (IH key cur (S i)).
      destruct (unique_loop f key cur (candidate key (S i)) (S (S i))).
      * destruct IH as (j & H1 & H2 & H3 & H4). exists j. split; [lia|]. split; [auto|]. split; [auto|].
        intros m Hm. destruct (Nat.eq_dec m i); [subst; auto|apply H4; lia].
      * intros m Hm. destruct (Nat.eq_dec m i); [subst; auto|apply IH; lia].
    + apply (memb_nIn _ string_eqb_eq) in E. exists i. split; [lia|]. split; [auto|]. split; [auto|]. intros; lia.
Qed.

Lemma C46_unique_key_fresh_pf :
  forall key current fuel, length current <= fuel ->
    exists k, unique_key fuel key current = Some k /\
      ~ In k current /\
      (~ In key current -> k = key) /\
      (In key current ->
         exists n, 1 <= n /\ k = key +++ "_" +++ print_Z (Z.of_nat n) /\
           forall m, 1 <= m < n -> In (key +++ "_" +++ print_Z (Z.of_nat m)) current).
Proof.
  intros key cur fuel L. unfold unique_key.
  pose proof (unique_loop_spec fuel key cur 0) as H. change (candidate key 0) with key in H.
  destruct (unique_loop fuel key cur key 1) as [k|].
  - destruct H as (j & H1 & H2 & H3 & H4). exists k. split; auto. split; auto. split.
    + intro N. destruct j; [auto|]. exfalso. apply N. apply (H4 0). lia.
    + intro Y. destruct j; [subst; simpl in H3; tauto|].
      exists (S j). split; [lia|]. split; [auto|]. intros m Hm.
      specialize (H4 m ltac:(lia)). destruct m; [lia|]. exact H4.
  - exfalso.
    assert (I : incl (map (candidate key) (seq 0 (S fuel))) cur).
    { intros x Hx. apply in_map_iff in Hx. destruct Hx as (m & E & Hm). subst.
      apply in_seq in Hm. apply H. lia. }
    apply NoDup_incl_length in I.
    + rewrite map_length, seq_length in I. lia.
    + apply NoDup_map_inj; [intros; eapply candidate_inj; eauto|apply seq_NoDup].
Qed.

Lemma Drep_other c t : c <> "_"%char ->
  replace "__" "____" (String c t) = String c (replace "__" "____" t).
Proof.
  intro N. unfold replace. simpl. destruct (Ascii.ascii_dec "_" c) as [E|E]; [congruence|].
  destruct c as [[] [] [] [] [] [] [] []]; try reflexivity; exfalso; apply N; reflexivity.
Qed.

Lemma Drep_one c t : c <> "_"%char ->
  replace "__" "____" (String "_" (String c t)) = String "_" (replace "__" "____" (String c t)).
Proof.
  intro N. unfold replace.
  destruct c as [[] [] [] [] [] [] [] []]; try reflexivity; exfalso; apply N; reflexivity.
Qed.

Lemma Drep_two t : replace "__" "____" ("__" +++ t) = "____" +++ replace "__" "____" t.
Proof. reflexivity. Qed.

(** What may follow an escaped key inside a compound key. *)

Definition follower (r : string) : Prop :=
  r = "" \/ exists c t, r = "__" +++ String c t /\ c <> "_"%char.

Definition no_trail (k : string) : Prop := forall t, k <> t +++ "_".

Lemma no_trail_tl c t : no_trail (String c t) -> no_trail t.
Proof. intros H u E. apply (H (String c u)). simpl. congruence. Qed.

Lemma no_trail_us : ~ no_trail "_".
Proof. intro H. apply (H ""). reflexivity. Qed.

Lemma Drep_head c t : exists t', replace "__" "____" (String c t) = String c t'.
Proof.
  destruct (Ascii.ascii_dec c "_") as [E|E].
  - subst. destruct t as [|c2 t]; [eexists; reflexivity|].
    destruct (Ascii.ascii_dec c2 "_") as [E2|E2].
    + subst. eexists. reflexivity.
    + rewrite Drep_one by auto. eauto.
  - rewrite Drep_other by auto. eauto.
Qed.

Lemma escaped_inj : forall n k1 k2 r1 r2,
  String.length k1 <= n -> no_trail k1 -> no_trail k2 -> follower r1 -> follower r2 ->
  replace "__" "____" k1 +++ r1 = replace "__" "____" k2 +++ r2 -> k1 = k2 /\ r1 = r2.
Proof.
  (* empty key against any other *)
  assert (Emp : forall k r1 r2, no_trail k -> follower r1 -> follower r2 ->
     r1 = replace "__" "____" k +++ r2 -> k = "" /\ r1 = r2).
  { intros k r1 r2 T F1 F2 E. destruct k as [|c t]; [auto|]. exfalso.
    destruct F1 as [F1|(c1 & t1 & F1 & N1)]; rewrite F1 in E; clear F1.
    - destruct (Drep_head c t) as [t' H]. rewrite H in E. discriminate.
    - destruct (Ascii.ascii_dec c "_") as [Ec|Ec].
      + subst c. destruct t as [|c2 t]; [apply no_trail_us; auto|].
        destruct (Ascii.ascii_dec c2 "_") as [E2|E2].
        * subst c2. change (String "_" (String "_" t)) with ("__" +++ t) in E.
          rewrite Drep_two in E. simpl in E. inversion E. congruence.
        * rewrite Drep_one, Drep_other in E by auto. simpl in E. inversion E. congruence.
      + rewrite Drep_other in E by auto. simpl in E. inversion E. congruence. }
  induction n as [|n IH]; intros k1 k2 r1 r2 L T1 T2 F1 F2 E.
  { destruct k1; [|simpl in L; lia]. simpl in E. destruct (Emp k2 r1 r2); auto. }
  destruct k1 as [|c1 t1]; [simpl in E; destruct (Emp k2 r1 r2); auto|].
  destruct k2 as [|c2 t2].
  { symmetry in E. simpl in E. destruct (Emp _ _ _ T1 F2 F1 E). auto. }
  assert (c1 = c2).
  { destruct (Drep_head c1 t1) as [u1 H1]. destruct (Drep_head c2 t2) as [u2 H2].
    rewrite H1, H2 in E. inversion E; auto. }
  subst c2. simpl in L.
  destruct (Ascii.ascii_dec c1 "_") as [Ec|Ec].
  - subst c1. destruct t1 as [|d1 t1]; [exfalso; apply no_trail_us; auto|].
    destruct t2 as [|d2 t2]; [exfalso; apply no_trail_us; auto|].
    destruct (Ascii.ascii_dec d1 "_") as [E1|E1]; destruct (Ascii.ascii_dec d2 "_") as [E2|E2].
    + subst. change (String "_" (String "_" t1)) with ("__" +++ t1) in E.
      change (String "_" (String "_" t2)) with ("__" +++ t2) in E.
      rewrite !Drep_two in E. simpl in E. inversion E as [E'].
      destruct (IH t1 t2 r1 r2) as [X Y]; auto; try (eapply no_trail_tl, no_trail_tl; eauto).
      * simpl in L; lia.
      * subst; auto.
    + exfalso. subst d1. change (String "_" (String "_" t1)) with ("__" +++ t1) in E.
      rewrite Drep_two, Drep_one, Drep_other in E by auto. simpl in E. inversion E. congruence.
    + exfalso. subst d2. change (String "_" (String "_" t2)) with ("__" +++ t2) in E.
      rewrite Drep_two, Drep_one, Drep_other in E by auto. simpl in E. inversion E. congruence.
    + rewrite !Drep_one in E by auto. cbn [String.append] in E. inversion E as [E'].
      destruct (IH (String d1 t1) (String d2 t2) r1 r2) as [X Y]; auto; try (eapply no_trail_tl; eauto).
      * simpl in *; lia.
      * rewrite X; auto.
  - rewrite !Drep_other in E by auto. cbn [String.append] in E. inversion E as [E'].
    destruct (IH t1 t2 r1 r2) as [X Y]; auto; try (eapply no_trail_tl; eauto); try lia.
    subst; auto.
Qed.

(** Keys that are not empty and neither start nor end with an underscore. *)

Definition clean_key (k : string) : Prop :=
  k <> "" /\ (forall t, k <> "_" +++ t) /\ (forall t, k <> t +++ "_").

Lemma append_nil_r' s : s +++ "" = s.
Proof. induction s; simpl; congruence. Qed.

Lemma compound_split k ks : exists r, compound_key "__" (k :: ks) = replace "__" "____" k +++ r /\
  (Forall clean_key ks -> follower r) /\ (ks = [] -> r = "") /\
  (ks <> [] -> r = "__" +++ compound_key "__" ks).
Proof.
  unfold compound_key. destruct ks as [|k2 ks].
  - exists "". simpl. rewrite append_nil_r'. repeat split; auto. intros; left; auto. congruence.
  - exists ("__" +++ compound_key "__" (k2 :: ks)). repeat split; auto; [|congruence].
    intro H. inversion H as [|? ? [N [S _]] _]; subst. right.
    destruct k2 as [|c t]; [congruence|].
    assert (c <> "_"%char) by (intro; subst; apply (S t); reflexivity).
    unfold compound_key. cbn [map].
    change ("__" +++ "__") with "____". rewrite Drep_other by auto.
    cbn [join]. destruct (map (replace "__" "____") ks).
    + eexists; eexists; split; [reflexivity|auto].
    + cbn [String.append]. eexists; eexists; split; [reflexivity|auto].
Qed.

Lemma C47_compound_key_injective_refuted_pf :
  exists ks1 ks2, ks1 <> ks2 /\
    compound_key KEY_SEPARATOR ks1 = compound_key KEY_SEPARATOR ks2.
Proof. exists ["a_"; "b"], ["a"; "_b"]. split; [congruence|reflexivity]. Qed.

Lemma C47_empty_part_collides_refuted_pf :
  exists ks1 ks2, ks1 <> ks2 /\
    compound_key KEY_SEPARATOR ks1 = compound_key KEY_SEPARATOR ks2 /\
    (forall k t, In k (ks1 ++ ks2) -> k <> "_" +++ t /\ k <> t +++ "_").
Proof.
  exists ["a__b"], ["a"; ""; "b"]. split; [congruence|]. split; [reflexivity|].
  intros k t H. simpl in H.
  assert (L : forall c, ~ (t +++ "_" = c) \/ t +++ "_" = c) by (intro c; destruct (string_dec (t +++ "_") c); auto).
  repeat match goal with H : _ \/ _ |- _ => destruct H end; try tauto; subst k; split; try discriminate;
    intro E; apply (f_equal list_ascii_of_string) in E;
    assert (A : forall s u, list_ascii_of_string (s +++ u) = (list_ascii_of_string s ++ list_ascii_of_string u))
      by (induction s; simpl; congruence);
    rewrite A in E; apply (f_equal (@rev ascii)) in E; rewrite rev_app_distr in E; simpl in E; discriminate.
Qed.

Lemma C47_compound_key_injective_partial_pf :
  forall ks1 ks2, Forall clean_key ks1 -> Forall clean_key ks2 ->
    compound_key KEY_SEPARATOR ks1 = compound_key KEY_SEPARATOR ks2 -> ks1 = ks2.
Proof.
  unfold KEY_SEPARATOR.
  induction ks1 as [|k1 ks1 IH]; intros [|k2 ks2] C1 C2 E; auto.
  - exfalso. destruct (compound_split k2 ks2) as (r & H & _). rewrite H in E.
    inversion C2 as [|? ? [N _] _]; subst. destruct k2 as [|c t]; [congruence|].
    destruct (Drep_head c t) as [t' H']. rewrite H' in E. discriminate.
  - exfalso. destruct (compound_split k1 ks1) as (r & H & _). rewrite H in E.
    inversion C1 as [|? ? [N _] _]; subst. destruct k1 as [|c t]; [congruence|].
    destruct (Drep_head c t) as [t' H']. rewrite H' in E. discriminate.
  - inversion C1 as [|? ? K1 C1']; subst. inversion C2 as [|? ? K2 C2']; subst.
    destruct (compound_split k1 ks1) as (r1 & H1 & F1 & N1 & M1).
    destruct (compound_split k2 ks2) as (r2 & H2 & F2 & N2 & M2).
    rewrite H1, H2 in E.
    destruct (escaped_inj _ k1 k2 r1 r2 (le_n _) (proj2 (proj2 K1)) (proj2 (proj2 K2)) (F1 C1') (F2 C2') E) as [X Y].
    subst k2. f_equal.
    destruct ks1 as [|a ks1], ks2 as [|b ks2]; auto.
    + rewrite N1 in Y by auto. rewrite M2 in Y by congruence. discriminate.
    + rewrite N2 in Y by auto. rewrite M1 in Y by congruence. discriminate.
    + rewrite M1, M2 in Y by congruence. apply append_inj_l in Y. apply IH; auto.
Qed.

(** Value stored under a path of a nested dictionary. *)

Inductive stored {A} : data A -> list string -> data A -> Prop :=
| stored_here v : stored v [] v
| stored_in d k v p w : In (k, v) d -> stored v p w -> stored (Dict d) (k :: p) w.

(** One dict holding the entries of all inner dicts under "outer/inner" names. *)

Definition flattened {A} (d : list (string * list (string * data A))) : list (string * data A) :=
  flat_map (fun kd => map (fun iv => (fst kd +++ "/" +++ fst iv, snd iv)) (snd kd)) d.

Definition no_slash (s : string) : Prop := ~ In "/"%char (list_ascii_of_string s).

Lemma strip_prefix_app p s : strip_prefix p (p +++ s) = Some s.
Proof. induction p; simpl; auto. rewrite Ascii.eqb_refl. auto. Qed.

Lemma strip_prefix_inv p : forall s r, strip_prefix p s = Some r -> s = p +++ r.
Proof.
  induction p as [|a p IH]; simpl; intros s r H; [congruence|].
  destruct s as [|b s]; [discriminate|]. destruct (Ascii.eqb_spec a b); [|discriminate].
  subst. f_equal. auto.
Qed.

Lemma no_slash_split k1 : forall k2 r1 r2, no_slash k1 -> no_slash k2 ->
  k1 +++ "/" +++ r1 = k2 +++ "/" +++ r2 -> k1 = k2 /\ r1 = r2.
Proof.
  induction k1 as [|a k1 IH]; intros [|b k2] r1 r2 N1 N2 E; simpl in E; inversion E; subst; auto.
  - exfalso. apply N2. simpl; auto.
  - exfalso. apply N1. simpl; auto.
  - destruct (IH k2 r1 r2); auto.
    + intro H; apply N1; simpl; auto.
    + intro H; apply N2; simpl; auto.
    + subst; auto.
Qed.

Lemma no_slash_key_neq k : forall k2 r, no_slash k -> k <> k2 +++ "/" +++ r.
Proof.
  intros k2 r N E. apply N. subst k.
  assert (A : forall s u, list_ascii_of_string (s +++ u) = (list_ascii_of_string s ++ list_ascii_of_string u))
    by (induction s; simpl; congruence).
  rewrite A. apply in_or_app. right. simpl. auto.
Qed.

Lemma walk_stored {A} keys : forall (t v : data A), unique_keys t -> stored t keys v -> walk t keys = Ok (Some v).
Proof.
  induction keys as [|k keys IH]; intros t v U H; inversion H; subst; simpl; auto.
  inversion U as [|d1 N1 U1]; subst. match goal with X : In (k, _) d |- _ => rewrite (dgetS_In' _ _ _ N1 X) end. apply IH; eauto.
Qed.

Lemma prefix_flat {A} (d : list (string * list (string * data A))) k :
  no_slash k -> (forall k' i, In (k', i) d -> no_slash k') -> NoDup (map fst d) ->
  prefix_matches k (flattened d) = match dget String.eqb d k with Some i => i | None => [] end.
Proof.
  intros Nk Nd N. unfold prefix_matches, flattened.
  induction d as [|[k1 i1] d IH]; [reflexivity|]. cbn [flat_map dget fst snd].
  rewrite flat_map_app. inversion N; subst. rewrite IH; [|intros; eapply Nd; simpl; eauto|auto].
  assert (X : flat_map (fun kv => match strip_prefix (k +++ "/") (fst kv) with
              | Some r => [(r, snd kv)] | None => [] end)
              (map (fun iv : string * data A => (k1 +++ "/" +++ fst iv, snd iv)) i1) =
            if String.eqb k k1 then i1 else []).
  { clear IH. assert (Nk1 : no_slash k1) by (eapply Nd; simpl; eauto). clear - Nk Nk1. induction i1 as [|[i v] l IHl]; cbn [flat_map map fst snd].
    - destruct (String.eqb k k1); auto.
    - change (match strip_prefix (k +++ "/") (k1 +++ String "/" i) with
         | Some r => [(r, v)] | None => [] end ++
         flat_map (fun kv => match strip_prefix (k +++ "/") (fst kv) with
              | Some r => [(r, snd kv)] | None => [] end)
              (map (fun iv : string * data A => (k1 +++ "/" +++ fst iv, snd iv)) l) =
         if String.eqb k k1 then (i, v) :: l else []).
      rewrite IHl. destruct (String.eqb_spec k k1).
      + subst. assert (E : k1 +++ String "/" i = (k1 +++ "/") +++ i).
        { clear. induction k1; simpl; congruence. }
        rewrite E, strip_prefix_app. reflexivity.
      + destruct (strip_prefix (k +++ "/") (k1 +++ String "/" i)) eqn:E; auto. exfalso.
        apply strip_prefix_inv in E.
        assert (E2 : (k +++ "/") +++ s = k +++ "/" +++ s) by (clear; induction k; simpl in *; congruence).
        rewrite E2 in E. apply (no_slash_split k1 k i s) in E; auto. destruct E. congruence. }
  rewrite X. destruct (String.eqb k k1) eqn:E.
  - apply String.eqb_eq in E. subst k1.
    destruct (dget String.eqb d k) eqn:E2; [|apply app_nil_r].
    exfalso. apply dgetS_In in E2. apply H1. change k with (fst (k, l)). apply in_map; auto.
  - reflexivity.
Qed.

Lemma C56_lookup_finds_stored_pf :
  forall (A : Type) (t v : data A) keys dflt opt,
    unique_keys t -> keys <> [] -> stored t keys v -> v <> Dict [] ->
    get_by_keys t keys dflt opt = Ok (Some v).
Proof.
  intros A t v keys dflt opt U N S E. unfold get_by_keys. destruct keys; [congruence|].
  rewrite (walk_stored _ _ _ U S). simpl. destruct v as [|[|]]; auto. congruence.
Qed.

Lemma C56_lookup_flattened_pf :
  forall (A : Type) (d : list (string * list (string * data A))) k1 k2 dflt opt,
    NoDup (map fst d) -> (forall k i, In (k, i) d -> no_slash k /\ i <> []) -> no_slash k1 ->
    get_by_keys (Dict (flattened d)) [k1; k2] dflt opt =
    get_by_keys (Dict (map (fun kd => (fst kd, Dict (snd kd))) d)) [k1; k2] dflt opt.
Proof.
  intros A d k1 k2 dflt opt N Nd N1. unfold get_by_keys. f_equal. cbn [walk].
  assert (E1 : dget String.eqb (flattened d) k1 = None).
  { apply (dget_None _ string_eqb_eq). intro H. apply in_map_iff in H.
    destruct H as [[k v] [E H]]. cbn [fst] in E; subst k. apply in_flat_map in H.
    destruct H as [[k' i] [H1 H2]]. apply in_map_iff in H2. destruct H2 as [[i1 v1] [E H2]].
    cbn [fst snd] in E. injection E as E3 E4. apply (no_slash_key_neq k1 k' i1 N1). symmetry. exact E3. }
  rewrite E1, (prefix_flat d k1 N1 (fun k' i H => proj1 (Nd k' i H)) N).
  assert (E2 : dget String.eqb (map (fun kd => (fst kd, Dict (snd kd))) d) k1 =
          option_map (@Dict A) (dget String.eqb d k1)).
  { clear. induction d as [|[k i] d IH]; simpl; auto. destruct (String.eqb k1 k); auto. }
  rewrite E2. destruct (dget String.eqb d k1) as [i|] eqn:Ei; cbn [option_map].
  - apply dgetS_In in Ei. destruct (Nd _ _ Ei) as [_ Ni]. destruct i as [|i0 il]; [congruence|].
    reflexivity.
  - destruct (prefix_matches k1 (map (fun kd => (fst kd, Dict (snd kd))) d)) as [|e l] eqn:Ep; auto.
    exfalso. assert (H : In e (prefix_matches k1 (map (fun kd => (fst kd, Dict (snd kd))) d)))
      by (rewrite Ep; simpl; auto).
    unfold prefix_matches in H. apply in_flat_map in H. destruct H as [[k v] [H1 H2]].
    apply in_map_iff in H1. destruct H1 as [[k' i'] [E H1]]. simpl in E. inversion E; subst.
    simpl in H2. destruct (strip_prefix (k1 +++ "/") k) eqn:Es; [|simpl in H2; tauto].
    apply strip_prefix_inv in Es.
    assert (E3 : (k1 +++ "/") +++ s = k1 +++ "/" +++ s) by (clear; induction k1; simpl in *; congruence).
    rewrite E3 in Es. eapply no_slash_key_neq; [|exact Es]. eapply Nd; eauto.
Qed.

(** Nothing is stored under the path, neither nested nor flattened: some key of it is neither
    a key of the dictionary reached so far nor the beginning ("key/...") of one. *)

Inductive absent {A} : data A -> list string -> Prop :=
| absent_here d k ks : (forall j v, In (j, v) d -> j <> k /\ forall r, j <> (k ++ "/" ++ r)%string) -> absent (Dict d) (k :: ks)
| absent_below d k v ks : In (k, v) d -> absent v ks -> absent (Dict d) (k :: ks).

Lemma C56_lookup_absent_pf :
  forall (A : Type) (t : data A) keys dflt opt,
    unique_keys t -> absent t keys ->
    get_by_keys t keys dflt opt = match dflt, opt with Some v, _ => Ok (Some v) | None, true => Ok None | None, false => Err ValueError end.
Proof.
  intros A t keys dflt opt U AB.
  assert (W : walk t keys = Ok None).
  { revert U. induction AB as [d k ks H|d k v ks I0 AB IH]; intros U; cbn [walk].
    - destruct (dget String.eqb d k) as [v|] eqn:D; [apply dgetS_In in D; apply H in D; destruct D as [D _]; destruct (D eq_refl)|].
      assert (P : prefix_matches k d = []); [|rewrite P; reflexivity].
      unfold prefix_matches. clear D U. induction d as [|[j v] d IH]; [reflexivity|]. cbn [flat_map fst].
      destruct (strip_prefix (k ++ "/")%string j) as [r|] eqn:S0.
      + destruct (H j v (or_introl eq_refl)) as [_ X]. destruct (X r).
        assert (SP : forall p s r, strip_prefix p s = Some r -> s = (p ++ r)%string).
        { clear. induction p as [|a p IH]; intros s r; cbn [strip_prefix]; [intros [= ->]; reflexivity|]. destruct s as [|b s]; [discriminate|].
          destruct (Ascii.eqb a b) eqn:E; [|discriminate]. apply Ascii.eqb_eq in E. subst b. intros H. apply IH in H. subst s. reflexivity. }
        apply SP in S0. rewrite S0. clear. induction k as [|a k IH]; [reflexivity|]. cbn [append]. f_equal. exact IH.
      + cbn [app]. apply IH. intros i w I0. apply (H i w). right. exact I0.
    - inversion U as [|? N V]; subst. rewrite (dgetS_In' d k v N I0). apply IH. eapply V, I0. }
  unfold get_by_keys. destruct keys as [|k ks]; [inversion AB|]. rewrite W. cbn [bind]. destruct dflt, opt; reflexivity.
Qed.
