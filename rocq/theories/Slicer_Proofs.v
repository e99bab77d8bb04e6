From Coq Require Import String Ascii Sorting.Sorted.
From Verif Require Import Base BaseFacts Beam BeamFacts Slicer_Model Slicer_Spec.
Local Open Scope list_scope.

(* ------------------------------------------------------------------ *)
(** * String order *)

Lemma ascii_compare_lt_trans a b c :
  Ascii.compare a b = Lt -> Ascii.compare b c = Lt -> Ascii.compare a c = Lt.
Proof. unfold Ascii.compare. rewrite !N.compare_lt_iff. apply N.lt_trans. Qed.
Lemma ascii_compare_eq a b : Ascii.compare a b = Eq -> a = b.
Proof.
  unfold Ascii.compare. intro H. apply N.compare_eq_iff in H.
  rewrite <- (ascii_N_embedding a), <- (ascii_N_embedding b), H. reflexivity.
Qed.
Lemma ascii_compare_refl a : Ascii.compare a a = Eq.
Proof. unfold Ascii.compare. apply N.compare_refl. Qed.

Lemma string_compare_refl s : String.compare s s = Eq.
Proof. induction s; simpl; auto. rewrite ascii_compare_refl. exact IHs. Qed.

Lemma string_lt_trans a : forall b c,
  String.compare a b = Lt -> String.compare b c = Lt -> String.compare a c = Lt.
Proof.
  induction a as [|x a IH]; intros [|y b] [|z c]; simpl; try congruence; auto.
  destruct (Ascii.compare x y) eqn:E1; destruct (Ascii.compare y z) eqn:E2; try congruence; intros H1 H2.
  - apply ascii_compare_eq in E1; apply ascii_compare_eq in E2; subst.
    rewrite ascii_compare_refl. eauto.
  - apply ascii_compare_eq in E1; subst. rewrite E2. reflexivity.
  - apply ascii_compare_eq in E2; subst. rewrite E1. reflexivity.
  - rewrite (ascii_compare_lt_trans _ _ _ E1 E2). reflexivity.
Qed.

Lemma ltb_lt a b : String.ltb a b = true <-> String.compare a b = Lt.
Proof. unfold String.ltb. destruct (String.compare a b); split; congruence. Qed.
Lemma leb_le a b : String.leb a b = true <-> String.compare a b = Lt \/ a = b.
Proof.
  unfold String.leb. destruct (String.compare a b) eqn:E; split; intro H; auto.
  - right. apply String.compare_eq_iff; auto.
  - discriminate.
  - destruct H as [H|H]; [discriminate|]. subst. rewrite string_compare_refl in E. discriminate.
Qed.
Lemma leb_false a b : String.leb a b = false -> String.compare b a = Lt.
Proof.
  unfold String.leb. rewrite (String.compare_antisym a b).
  destruct (String.compare b a) eqn:E; simpl; auto; try discriminate.
Qed.

(* ------------------------------------------------------------------ *)
(** * Python equality *)

Lemma py_eqb_same a b : py_eqb a b = true <-> same_value a b.
Proof.
  unfold same_value. split.
  - destruct a, b; simpl; intro H; try discriminate.
    + left. apply String.eqb_eq in H. congruence.
    + left. apply String.eqb_eq in H. congruence.
    + left. apply Z.eqb_eq in H. congruence.
    + right. apply Qc_eqb_eq in H. subst. eauto.
    + right. apply Qc_eqb_eq in H. subst. eauto.
    + left. apply Qc_eqb_eq in H. congruence.
  - intros [H|[q [H1 H2]]].
    + subst. destruct b; simpl.
      * apply String.eqb_refl.
      * apply String.eqb_refl.
      * apply Z.eqb_refl.
      * apply Qc_eqb_refl.
    + destruct a, b; simpl in *; try discriminate.
      * apply Z.eqb_eq. apply qz_inj. congruence.
      * apply Qc_eqb_eq. congruence.
      * apply Qc_eqb_eq. congruence.
      * apply Qc_eqb_eq. congruence.
Qed.

Lemma same_refl a : same_value a a.
Proof. left; reflexivity. Qed.
Lemma same_sym a b : same_value a b -> same_value b a.
Proof. intros [H|[q [? ?]]]; [left; auto|right; eauto]. Qed.
Lemma same_trans a b c : same_value a b -> same_value b c -> same_value a c.
Proof.
  intros [H|[q [H1 H2]]]; [subst; auto|]. intros [K|[r [K1 K2]]].
  - subst. right; eauto.
  - right. exists q. split; auto. congruence.
Qed.

(* ------------------------------------------------------------------ *)
(** * Deduplication for an arbitrary boolean equality *)

Section DedupGen.
  Context {A : Type} (eqb : A -> A -> bool).
  Lemma memb_ex x l : memb eqb x l = true <-> exists y, In y l /\ eqb x y = true.
  Proof.
    induction l; simpl.
    - split; [discriminate|intros [? [[] ?]]].
    - rewrite orb_true_iff, IHl. split.
      + intros [H|[y [? ?]]]; eauto.
      + intros [y [[?|?] ?]]; subst; eauto.
  Qed.
  Lemma memb_ex_false x l : memb eqb x l = false <-> forall y, In y l -> eqb x y = false.
  Proof.
    split.
    - intros H y Hy. destruct (eqb x y) eqn:E; auto.
      assert (memb eqb x l = true) by (apply memb_ex; eauto). congruence.
    - intro H. destruct (memb eqb x l) eqn:E; auto. apply memb_ex in E.
      destruct E as [y [? ?]]. rewrite H in *; auto.
  Qed.
  Lemma dedup_from_sub seen l x : In x (dedup_from eqb seen l) -> In x l.
  Proof.
    revert seen; induction l; simpl; intros seen H; auto.
    destruct (memb eqb a seen); simpl in H; [|destruct H; auto]; right; eauto.
  Qed.
  Lemma dedup_sub l x : In x (dedup eqb l) -> In x l.
  Proof. apply dedup_from_sub. Qed.
  Lemma dedup_from_rep (Hr : forall a, eqb a a = true) seen l x :
    In x l -> exists y, (In y seen \/ In y (dedup_from eqb seen l)) /\ eqb x y = true.
  Proof.
    revert seen; induction l as [|a l IH]; simpl; intros seen H; [tauto|].
    destruct (memb eqb a seen) eqn:E.
    - destruct H as [H|H]; [subst|auto].
      apply memb_ex in E. destruct E as [y [? ?]]. eauto.
    - destruct H as [H|H].
      + subst. exists x. split; [right; left|]; auto.
      + destruct (IH (a :: seen) H) as [y [[[?|?]|?] ?]]; subst; exists y; simpl; auto.
  Qed.
  Lemma dedup_rep (Hr : forall a, eqb a a = true) l x :
    In x l -> exists y, In y (dedup eqb l) /\ eqb x y = true.
  Proof.
    intro H. destruct (dedup_from_rep Hr [] l x H) as [y [[[]|?] ?]]; eauto.
  Qed.
  Lemma dedup_from_fresh seen l x :
    In x (dedup_from eqb seen l) -> forall y, In y seen -> eqb x y = false.
  Proof.
    revert seen; induction l as [|a l IH]; simpl; intros seen H y Hy; [tauto|].
    destruct (memb eqb a seen) eqn:E.
    - eapply IH; eauto.
    - destruct H as [H|H].
      + subst. eapply memb_ex_false in E; eauto.
      + eapply IH; eauto. right; auto.
  Qed.
  Lemma dedup_from_pairs seen l :
    ForallOrdPairs (fun a b => eqb b a = false) (dedup_from eqb seen l).
  Proof.
    revert seen; induction l as [|a l IH]; simpl; intro seen; [constructor|].
    destruct (memb eqb a seen); auto. constructor; auto.
    apply Forall_forall. intros x Hx. eapply dedup_from_fresh; eauto. left; auto.
  Qed.
  Lemma dedup_pairs l : ForallOrdPairs (fun a b => eqb b a = false) (dedup eqb l).
  Proof. apply dedup_from_pairs. Qed.
  Lemma dedup_gen_NoDup (Hr : forall a, eqb a a = true) l : NoDup (dedup eqb l).
  Proof.
    pose proof (dedup_pairs l) as H. induction H; constructor; auto.
    intro Hin. rewrite Forall_forall in H. specialize (H _ Hin). rewrite Hr in H. discriminate.
  Qed.
End DedupGen.

Lemma py_eqb_refl a : py_eqb a a = true.
Proof. apply py_eqb_same, same_refl. Qed.

(* ------------------------------------------------------------------ *)
(** * Accessor *)

Lemma dict_vals_feat d n vs : dict_vals d n = Some vs <-> feat d n vs.
Proof.
  unfold dict_vals, feat. destruct (dget String.eqb d n) as [[v|]|]; split; congruence.
Qed.

Lemma dict_has_feat d n : dict_has d n = true <-> exists vs, feat d n vs.
Proof.
  unfold dict_has, feat. destruct (dget String.eqb d n) as [[v|]|]; split; intro H;
    try discriminate; try (destruct H; discriminate); eauto.
Qed.

Lemma has_key_present ds dflt n : has_key ds dflt n = true <-> present ds dflt n.
Proof.
  unfold has_key, present. rewrite orb_true_iff, existsb_exists. split.
  - intros [[d [Hd H]]|H].
    + apply dict_has_feat in H. destruct H as [vs H]. left; eauto.
    + destruct dflt as [d|]; [|discriminate]. apply dict_has_feat in H. destruct H. right; eauto.
  - intros [[d [vs [Hd H]]]|[d [vs [Hd H]]]].
    + left. exists d. split; auto. apply dict_has_feat; eauto.
    + right. subst. apply dict_has_feat; eauto.
Qed.

Lemma acc_fold n ds : forall acc,
  fold_left (acc_step n) ds acc =
  match acc with
  | Some a => Some (a ++ flat_map (fun d => match dict_vals d n with Some v => v | None => [] end) ds)
  | None => if existsb (fun d => dict_has d n) ds
            then Some (flat_map (fun d => match dict_vals d n with Some v => v | None => [] end) ds)
            else None
  end.
Proof.
  induction ds as [|d ds IH]; simpl; intro acc.
  - destruct acc; [rewrite app_nil_r|]; reflexivity.
  - rewrite IH. unfold acc_step, dict_has, dict_vals.
    destruct (dget String.eqb d n) as [[v|]|]; destruct acc; simpl; auto.
    rewrite <- app_assoc. reflexivity.
Qed.

Lemma acc_get_spec ds dflt n :
  present ds dflt n ->
  exists vs, acc_get ds dflt n = Ok (dedup py_eqb vs) /\
    forall v, In v vs <-> has_value ds dflt n v.
Proof.
  intro P. unfold acc_get. rewrite acc_fold.
  destruct (existsb (fun d => dict_has d n) ds) eqn:E.
  - eexists; split; [reflexivity|]. intro v. rewrite in_flat_map.
    apply existsb_exists in E. destruct E as [d0 [Hd0 Hh]].
    apply dict_has_feat in Hh. destruct Hh as [vs0 Hh].
    unfold has_value. split.
    + intros [d [Hd H]]. destruct (dict_vals d n) eqn:Ev; [|destruct H].
      apply dict_vals_feat in Ev. left. exists d, l. auto.
    + intros [[d [vs [Hd [Hf Hv]]]]|[H _]].
      * exists d. split; auto. apply dict_vals_feat in Hf. rewrite Hf. auto.
      * exfalso. eapply H; eauto.
  - assert (NF : forall d vs, In d ds -> ~ feat d n vs).
    { intros d vs Hd Hf.
      assert (existsb (fun d => dict_has d n) ds = true); [|congruence].
      apply existsb_exists. exists d. split; auto. apply dict_has_feat; eauto. }
    destruct P as [[d [vs [Hd Hf]]]|[d [vs [Hd Hf]]]].
    + exfalso. eapply NF; eauto.
    + subst. assert (Hf' := Hf). apply dict_vals_feat in Hf'. rewrite Hf'.
      eexists; split; [reflexivity|]. intro v. unfold has_value. split.
      * intro Hv. right. split; auto. eauto.
      * intros [[d' [vs' [Hd' [Hf'' Hv]]]]|[_ [d' [vs' [Hd' [Hf'' Hv]]]]]].
        -- exfalso. eapply NF; eauto.
        -- inversion Hd'; subst. unfold feat in *. congruence.
Qed.

Lemma has_value_present ds dflt n v : has_value ds dflt n v -> present ds dflt n.
Proof.
  intros [[d [vs [? [? ?]]]]|[_ [d [vs [? [? ?]]]]]]; [left|right]; eauto.
Qed.

(* ------------------------------------------------------------------ *)
(** * Sorting *)

Lemma insert_perm x l : Permutation (x :: l) (insert_sorted x l).
Proof.
  induction l as [|y l IH]; simpl; auto.
  destruct (name_leb x y); auto.
  etransitivity; [apply perm_swap|]. constructor. exact IH.
Qed.
Lemma sort_perm l : Permutation l (sort_key l).
Proof.
  induction l as [|x l IH]; simpl; auto.
  etransitivity; [|apply insert_perm]. constructor; auto.
Qed.

Definition name_le (a b : string * fval) : Prop := String.compare (fst a) (fst b) = Lt \/ fst a = fst b.
Lemma name_le_trans a b c : name_le a b -> name_le b c -> name_le a c.
Proof.
  unfold name_le. intros [H|H] [K|K].
  - left. eapply string_lt_trans; eauto.
  - left. rewrite <- K; auto.
  - left. rewrite H; auto.
  - right; congruence.
Qed.
Lemma insert_ss x l : StronglySorted name_le l -> StronglySorted name_le (insert_sorted x l).
Proof.
  induction 1 as [|y l Hs IH Hf]; simpl.
  - repeat constructor.
  - destruct (name_leb x y) eqn:E.
    + apply leb_le in E. constructor; [constructor; auto|].
      constructor; [exact E|]. eapply Forall_impl; [|exact Hf].
      intros a Ha. eapply name_le_trans; eauto.
    + apply leb_false in E. constructor; auto.
      apply Forall_forall. intros z Hz.
      apply (Permutation_in _ (Permutation_sym (insert_perm x l))) in Hz.
      destruct Hz as [Hz|Hz]; [subst; left; auto|].
      rewrite Forall_forall in Hf. auto.
Qed.
Lemma sort_ss l : StronglySorted name_le (sort_key l).
Proof. induction l; simpl; [constructor|apply insert_ss; auto]. Qed.

Lemma ss_strict l : NoDup (map fst l) -> StronglySorted name_le l -> StronglySorted name_lt l.
Proof.
  intros N S. induction S as [|x l S IH F]; constructor.
  - apply IH. inversion N; auto.
  - simpl in N. inversion N as [|? ? Hn N']; subst. rewrite Forall_forall in *.
    intros y Hy. destruct (F y Hy) as [H|H].
    + unfold name_lt. apply ltb_lt; auto.
    + exfalso. apply Hn. rewrite H. apply in_map; auto.
Qed.

Lemma name_lt_irrefl a : ~ name_lt a a.
Proof. unfold name_lt. rewrite ltb_lt, string_compare_refl. discriminate. Qed.
Lemma name_lt_trans a b c : name_lt a b -> name_lt b c -> name_lt a c.
Proof. unfold name_lt. rewrite !ltb_lt. apply string_lt_trans. Qed.

Lemma ss_lt_NoDup k : StronglySorted name_lt k -> NoDup (map fst k).
Proof.
  induction 1 as [|x l S IH F]; simpl; constructor; auto.
  intro H. apply in_map_iff in H. destruct H as [y [E Hy]].
  rewrite Forall_forall in F. specialize (F y Hy). unfold name_lt in F.
  rewrite E, ltb_lt, string_compare_refl in F. discriminate.
Qed.

(** Strictly sorted keys with the same names line up. *)
Lemma ss_align k : StronglySorted name_lt k -> forall k', StronglySorted name_lt k' ->
  (forall n, In n (map fst k) <-> In n (map fst k')) ->
  (forall n v v', In (n, v) k -> In (n, v') k' -> same_value v v') ->
  same_key k k'.
Proof.
  induction 1 as [|[n v] k S IH F]; intros k' S' HN HV.
  - destruct k' as [|[n' v'] k']; [constructor|].
    exfalso. apply (proj2 (HN n')). left; reflexivity.
  - inversion S' as [E|[n' v'] k2 S2 F2]; subst.
    + exfalso. apply (proj1 (HN n)). left; reflexivity.
    + assert (n = n').
      { destruct (proj1 (HN n)) as [E|E]; [left; auto|simpl in E; auto|].
        destruct (proj2 (HN n')) as [E'|E']; [left; auto|simpl in E'; auto|].
        exfalso. simpl in *.
        apply in_map_iff in E. destruct E as [[a b] [Ea Eb]]. simpl in Ea; subst a.
        apply in_map_iff in E'. destruct E' as [[a' b'] [Ea' Eb']]. simpl in Ea'; subst a'.
        rewrite Forall_forall in F, F2.
        apply F2 in Eb. apply F in Eb'. unfold name_lt in *. simpl in *.
        rewrite ltb_lt in *. pose proof (string_lt_trans _ _ _ Eb Eb') as T.
        rewrite string_compare_refl in T. discriminate. }
      subst n'. constructor.
      * split; auto. simpl. eapply HV; left; reflexivity.
      * apply IH; auto.
        -- intro m. assert (Hk : ~ In n (map fst k)).
           { intro H. apply ss_lt_NoDup in S'. pose proof (SSorted_cons _ S F) as S0.
             apply ss_lt_NoDup in S0. simpl in S0. inversion S0; auto. }
           assert (Hk2 : ~ In n (map fst k2)).
           { apply ss_lt_NoDup in S'. simpl in S'. inversion S'; auto. }
           specialize (HN m). simpl in HN. split; intro H.
           ++ destruct (proj1 HN (or_intror H)) as [E|E]; auto. subst. contradiction.
           ++ destruct (proj2 HN (or_intror H)) as [E|E]; auto. subst. contradiction.
        -- intros. eapply HV; right; eauto.
Qed.

(* ------------------------------------------------------------------ *)
(** * Product *)

Lemma product_In {A} (ls : list (list A)) p :
  In p (product ls) <-> Forall2 (fun x l => In x l) p ls.
Proof.
  revert p; induction ls as [|l ls IH]; simpl; intro p.
  - split; [intros [H|[]]; subst; constructor|inversion 1; auto].
  - rewrite in_flat_map. split.
    + intros [x [Hx H]]. apply in_map_iff in H. destruct H as [q [E Hq]]. subst.
      constructor; auto. apply IH; auto.
    + inversion 1; subst. exists x. split; auto. apply in_map, IH; auto.
Qed.

Lemma product_NoDup {A} (ls : list (list A)) :
  Forall (fun l => NoDup l) ls -> NoDup (product ls).
Proof.
  induction 1 as [|l ls Hl Hls IH]; simpl.
  - constructor; [simpl; tauto|constructor].
  - induction Hl as [|x l Hx Hl IHl]; simpl; [constructor|].
    apply NoDup_app; auto.
    + apply NoDup_map_inj; auto. intros; congruence.
    + intros q Hq. apply in_map_iff in Hq. destruct Hq as [r [E Hr]]. subst.
      rewrite in_flat_map. intros [y [Hy H]]. apply in_map_iff in H.
      destruct H as [r' [E Hr']]. inversion E; subst. contradiction.
Qed.

(* ------------------------------------------------------------------ *)
(** * generate_slices *)

Section Gen.
  Context (float_repr : Qc -> string) (valid_utf8 : string -> bool).
  Notation generate := (generate_slices float_repr valid_utf8).

  Definition render (v : fval) : string :=
    match v with VInt z => print_Z z | VFloat q => float_repr q | VStr s | VBytes s => s end.

  Lemma fixed_matches_spec v vs l :
    vs = dedup py_eqb l ->
    (fixed_matches float_repr v vs = true <-> exists raw, In raw l /\ satisfies render v raw).
  Proof.
    intro E.
    assert (M : forall x, memb py_eqb x vs = true <-> exists raw, In raw l /\ same_value x raw).
    { intro x. rewrite memb_ex. split.
      - intros [y [Hy H]]. subst vs. apply dedup_sub in Hy. apply py_eqb_same in H. eauto.
      - intros [y [Hy H]]. destruct (dedup_rep py_eqb py_eqb_refl l y Hy) as [z [Hz Hyz]].
        exists z. subst vs. split; auto. apply py_eqb_same. apply py_eqb_same in Hyz.
        eapply same_trans; eauto. }
    unfold fixed_matches, satisfies. rewrite orb_true_iff, M.
    assert (S1 : forall s b, same_value (VStr s) b -> b = VStr s).
    { intros s b [H|[q [H _]]]; [auto|discriminate]. }
    assert (S2 : forall s b, same_value (VBytes s) b -> b = VBytes s).
    { intros s b [H|[q [H _]]]; [auto|discriminate]. }
    destruct v as [s|s|z|q]; simpl.
    - rewrite M. split.
      + intros [[r [? ?]]|[r [? H]]]; [eauto|]. apply S2 in H. subst.
        exists (VBytes s). split; auto. right; left; eauto.
      + intros [r [Hr [H|[[s' [H1 H2]]|[q [H1 H2]]]]]]; [left; eauto| |discriminate].
        right. exists r. split; auto. left. congruence.
    - split.
      + intros [[r [? ?]]|H]; [eauto|discriminate].
      + intros [r [Hr [H|[[s' [H1 H2]]|[q [H1 H2]]]]]]; [left; eauto|discriminate|discriminate].
    - rewrite M. split.
      + intros [[r [? ?]]|[r [? H]]]; [eauto|]. apply S1 in H. subst.
        exists (VStr (print_Z z)). split; auto. right; right; eauto.
      + intros [r [Hr [H|[[s' [H1 H2]]|[q [H1 H2]]]]]]; [left; eauto|discriminate|].
        right. exists r. split; auto. left. congruence.
    - rewrite M. split.
      + intros [[r [? ?]]|[r [? H]]]; [eauto|]. apply S1 in H. subst.
        exists (VStr (float_repr q)). split; auto. right; right; eauto.
      + intros [r [Hr [H|[[s' [H1 H2]]|[q' [H1 H2]]]]]]; [left; eauto|discriminate|].
        right. exists r. split; auto. left. congruence.
  Qed.

  Lemma check_fixed_spec ds dflt fs :
    exists b, check_fixed float_repr ds dflt fs = Ok b /\
      (b = true <-> fixed_hold render fs ds dflt).
  Proof.
    induction fs as [|[n v] fs [b [IHe IH]]]; simpl.
    - exists true. split; auto. split; auto. intros _ n v [].
    - destruct (has_key ds dflt n) eqn:Hk.
      + apply has_key_present in Hk. destruct (acc_get_spec _ _ _ Hk) as [vs [Hg Hv]].
        rewrite Hg. simpl.
        pose proof (fixed_matches_spec v _ vs eq_refl) as FM.
        destruct (fixed_matches float_repr v (dedup py_eqb vs)) eqn:Em.
        * exists b. split; auto. rewrite IH. split.
          -- intros H n' v' [E|Hin]; [|apply H; auto]. inversion E; subst.
             destruct (proj1 FM eq_refl) as [raw [Hr Hs]]. exists raw. split; auto. apply Hv; auto.
          -- intros H n' v' Hin. apply H. right; auto.
        * exists false. split; auto. split; [discriminate|]. intro H.
          destruct (H n v (or_introl eq_refl)) as [raw [Hr Hs]].
          apply FM. exists raw. split; auto. apply Hv; auto.
      + exists false. split; auto. split; [discriminate|]. intro H.
        destruct (H n v (or_introl eq_refl)) as [raw [Hr Hs]].
        apply has_value_present, has_key_present in Hr. congruence.
  Qed.

  (** Bytes values of the sliced columns are valid UTF-8. *)
  Definition columns_utf8 (cols : list string) ds dflt : Prop :=
    forall c s, In c cols -> has_value ds dflt c (VBytes s) -> valid_utf8 s = true.

  Lemma column_entries_spec c vs :
    (forall s, In (VBytes s) vs -> valid_utf8 s = true) ->
    mapM (column_entry valid_utf8 c) vs = Ok (map (fun v => (c, shown v)) vs).
  Proof.
    induction vs as [|v vs IH]; simpl; intro H; auto.
    assert (E : column_entry valid_utf8 c v = Ok (c, shown v)).
    { destruct v; simpl; auto. rewrite H; auto. }
    rewrite E. simpl. rewrite IH; auto.
  Qed.

  (** The list of raw (deduplicated) values of each column. *)
  Lemma column_matches_spec ds dflt cols :
    columns_utf8 cols ds dflt ->
    (exists c, In c cols /\ ~ present ds dflt c) /\ column_matches valid_utf8 ds dflt cols = Ok None
    \/ exists vss, column_matches valid_utf8 ds dflt cols
                   = Ok (Some (map (fun cv => map (fun v => (fst cv, shown v)) (snd cv)) (combine cols vss)))
         /\ Forall2 (fun c vs => exists l, vs = dedup py_eqb l /\ forall v, In v l <-> has_value ds dflt c v) cols vss.
  Proof.
    induction cols as [|c cols IH]; simpl; intro U.
    - right. exists []. split; auto.
    - destruct (has_key ds dflt c) eqn:Hk.
      + apply has_key_present in Hk. destruct (acc_get_spec _ _ _ Hk) as [l [Hg Hv]].
        rewrite Hg. simpl.
        rewrite column_entries_spec.
        2:{ intros s Hs. apply dedup_sub in Hs. apply Hv in Hs. eapply U; eauto. left; auto. }
        simpl. destruct IH as [[[c' [Hc' Hp]] E]|[vss [E F]]].
        { intros c' s Hc'. apply U. right; auto. }
        * rewrite E. simpl. left. split; auto. exists c'. auto.
        * rewrite E. simpl. right. exists (dedup py_eqb l :: vss). split; auto.
          constructor; eauto.
      + left. split; auto. exists c. split; auto.
        intro P. apply has_key_present in P. congruence.
  Qed.

  Lemma shown_same a b : same_value a b -> same_value (shown a) (shown b).
  Proof.
    intros [H|[q [H1 H2]]]; [subst; left; auto|].
    destruct a, b; simpl in *; try discriminate; right; eauto.
  Qed.

  Lemma generate_cases sp ds dflt :
    columns_utf8 (columns sp) ds dflt ->
    (generate sp ds dflt = Ok [] /\
       (~ fixed_hold render (features sp) ds dflt \/ exists c, In c (columns sp) /\ ~ present ds dflt c))
    \/ (fixed_hold render (features sp) ds dflt /\
        exists vss,
          Forall2 (fun c vs => exists l, vs = dedup py_eqb l /\ forall v, In v l <-> has_value ds dflt c v)
             (columns sp) vss /\
          generate sp ds dflt =
            Ok (map (fun part => sort_key (features sp ++ part))
                 (product (map (fun cv => map (fun v => (fst cv, shown v)) (snd cv))
                             (combine (columns sp) vss))))).
  Proof.
    intro U. unfold generate_slices.
    destruct (check_fixed_spec ds dflt (features sp)) as [b [Eb Hb]]. rewrite Eb. simpl.
    destruct b.
    - destruct (column_matches_spec ds dflt (columns sp) U) as [[[c [Hc Hp]] E]|[vss [E F]]]; rewrite E; simpl.
      + left. split; auto. right. eauto.
      + right. split; [apply Hb; auto|]. exists vss. auto.
    - left. split; auto. left. intro H. apply Hb in H. discriminate.
  Qed.

  Definition wf_spec (sp : spec) : Prop :=
    NoDup (columns sp) /\ NoDup (map fst (features sp)) /\
    forall n, In n (columns sp) -> ~ In n (map fst (features sp)).

  Lemma part_names cols vss part :
    Forall2 (fun x l => In x l) part
      (map (fun cv : string * list fval => map (fun v => (fst cv, shown v)) (snd cv)) (combine cols vss)) ->
    length cols = length vss -> map fst part = cols.
  Proof.
    revert vss part; induction cols as [|c cols IH]; intros [|vs vss] part; simpl; intros F L; try discriminate.
    - inversion F; auto.
    - inversion F as [|x ? part' ? Hx F']; subst. simpl. apply in_map_iff in Hx.
      destruct Hx as [v [E Hv]]. subst x. simpl. f_equal. eapply IH; eauto.
  Qed.

  Lemma part_values cols vss part n v :
    Forall2 (fun x l => In x l) part
      (map (fun cv : string * list fval => map (fun v => (fst cv, shown v)) (snd cv)) (combine cols vss)) ->
    In (n, v) part -> exists vs raw, In (n, vs) (combine cols vss) /\ In raw vs /\ v = shown raw.
  Proof.
    revert vss part; induction cols as [|c cols IH]; intros vss part; simpl; intros F H.
    - inversion F; subst. destruct H.
    - destruct vss as [|vs vss]; simpl in F.
      + inversion F; subst. destruct H.
      + inversion F as [|x ? part' ? Hx F']; subst. destruct H as [H|H].
        * subst x. apply in_map_iff in Hx. destruct Hx as [raw [E Hr]]. simpl in *.
          inversion E; subst. exists vs, raw. split; [left; auto|auto].
        * destruct (IH _ _ F' H) as [vs' [raw [? [? ?]]]]. exists vs', raw. split; [right; auto|auto].
  Qed.

  Lemma Forall2_combine_In {A B} (P : A -> B -> Prop) l1 l2 a b :
    Forall2 P l1 l2 -> In (a, b) (combine l1 l2) -> P a b.
  Proof.
    induction 1; simpl; [tauto|]. intros [E|H1]; [inversion E; subst; auto|auto].
  Qed.

  (** Soundness of slice generation. *)
  Lemma generate_sound sp ds dflt ks k :
    wf_spec sp -> columns_utf8 (columns sp) ds dflt ->
    generate sp ds dflt = Ok ks -> In k ks ->
    fixed_hold render (features sp) ds dflt /\ slice_of (columns sp) (features sp) ds dflt k.
  Proof.
    intros [NC [NF DJ]] U E Hk.
    destruct (generate_cases sp ds dflt U) as [[E0 _]|[FH [vss [F E1]]]].
    { rewrite E0 in E. inversion E; subst. destruct Hk. }
    split; auto. rewrite E1 in E. inversion E; subst ks. clear E.
    apply in_map_iff in Hk. destruct Hk as [part [Ek Hp]]. subst k.
    apply product_In in Hp.
    pose proof (part_names _ _ _ Hp (Forall2_length _ _ _ F)) as PN.
    assert (NoDup (map fst (features sp ++ part))) as ND.
    { rewrite map_app, PN. apply NoDup_app; auto. intros n H1 H2. apply (DJ n); auto. }
    pose proof (sort_perm (features sp ++ part)) as SP.
    split; [|split].
    - apply ss_strict; [|apply sort_ss].
      eapply Permutation_NoDup; [apply Permutation_map, SP|auto].
    - intro n. rewrite <- PN.
      assert (In n (map fst (sort_key (features sp ++ part))) <-> In n (map fst (features sp ++ part))) as X.
      { split; apply Permutation_in; [apply Permutation_sym|]; apply Permutation_map, SP. }
      rewrite X, map_app, in_app_iff. tauto.
    - intros n v Hin. apply (Permutation_in _ (Permutation_sym SP)) in Hin.
      apply in_app_iff in Hin. destruct Hin as [H|H]; auto.
      right. split; [rewrite <- PN; change n with (fst (n, v)); apply in_map; auto|].
      destruct (part_values _ _ _ _ _ Hp H) as [vs [raw [Hc [Hr Hv]]]].
      exists raw. split; auto.
      destruct (Forall2_combine_In _ _ _ _ _ F Hc) as [l [El Hl]].
      apply Hl. subst vs. eapply dedup_sub; eauto.
  Qed.

  Lemma pick_part cols : forall vss k ds dflt (fixed : list (string * fval)),
    Forall2 (fun c vs => exists l, vs = dedup py_eqb l /\ forall v, In v l <-> has_value ds dflt c v) cols vss ->
    (forall c, In c cols -> exists v raw, In (c, v) k /\ has_value ds dflt c raw /\ v = shown raw) ->
    exists part,
      Forall2 (fun x l => In x l) part
        (map (fun cv : string * list fval => map (fun v => (fst cv, shown v)) (snd cv)) (combine cols vss))
      /\ Forall (fun nv => exists v, In (fst nv, v) k /\ same_value v (snd nv)) part.
  Proof.
    induction cols as [|c cols IH]; intros vss k ds dflt fixed F H.
    - inversion F; subst. exists []. simpl. auto.
    - inversion F as [|? vs ? vss' [l [El Hl]] F']; subst.
      destruct (IH vss' k ds dflt fixed F') as [part [P1 P2]].
      { intros c' Hc'. apply H. right; auto. }
      destruct (H c (or_introl eq_refl)) as [v [raw [Hv [Hr E]]]].
      apply Hl in Hr. destruct (dedup_rep py_eqb py_eqb_refl l raw Hr) as [raw' [Hr' Hs]].
      exists ((c, shown raw') :: part). split; simpl.
      + constructor; auto. apply in_map_iff. exists raw'. auto.
      + constructor; auto. simpl. exists v. split; auto. subst v. apply shown_same.
        apply py_eqb_same; auto.
  Qed.

  (** Completeness of slice generation. *)
  Lemma generate_complete sp ds dflt k :
    wf_spec sp -> columns_utf8 (columns sp) ds dflt ->
    fixed_hold render (features sp) ds dflt ->
    slice_of (columns sp) (features sp) ds dflt k ->
    exists ks k', generate sp ds dflt = Ok ks /\ In k' ks /\ same_key k k'.
  Proof.
    intros [NC [NF DJ]] U FH [SS [HN HV]].
    assert (HC : forall c, In c (columns sp) -> exists v raw, In (c, v) k /\ has_value ds dflt c raw /\ v = shown raw).
    { intros c Hc. assert (In c (map fst k)) as H by (apply HN; auto).
      apply in_map_iff in H. destruct H as [[c' v] [E Hk]]. simpl in E. subst c'.
      destruct (HV c v Hk) as [H|[_ [raw [H1 H2]]]]; [|eauto].
      exfalso. apply (DJ c Hc). change c with (fst (c, v)). apply in_map; auto. }
    destruct (generate_cases sp ds dflt U) as [[E0 [X|[c [Hc X]]]]|[_ [vss [F E1]]]].
    - contradiction.
    - exfalso. apply X. destruct (HC c Hc) as [v [raw [_ [H _]]]]. eapply has_value_present; eauto.
    - destruct (pick_part _ _ k _ _ (features sp) F HC) as [part [P1 P2]].
      eexists; exists (sort_key (features sp ++ part)). split; [exact E1|]. split.
      { apply in_map_iff. exists part. split; auto. apply product_In; auto. }
      pose proof (part_names _ _ _ P1 (Forall2_length _ _ _ F)) as PN.
      pose proof (sort_perm (features sp ++ part)) as SP.
      assert (NoDup (map fst (features sp ++ part))) as ND.
      { rewrite map_app, PN. apply NoDup_app; auto. intros n H1 H2. apply (DJ n); auto. }
      apply ss_align; auto.
      + apply ss_strict; [|apply sort_ss].
        eapply Permutation_NoDup; [apply Permutation_map, SP|auto].
      + intro n. rewrite HN.
        assert (In n (map fst (sort_key (features sp ++ part))) <-> In n (map fst (features sp ++ part))) as X.
        { split; apply Permutation_in; [apply Permutation_sym|]; apply Permutation_map, SP. }
        rewrite X, map_app, in_app_iff, PN. tauto.
      + intros n v v' H1 H2. apply (Permutation_in _ (Permutation_sym SP)) in H2.
        pose proof (ss_lt_NoDup _ SS) as NK.
        assert (U1 : forall w, In (n, w) k -> w = v).
        { intros w Hw. eapply (dget_In_NoDup String.eqb string_eqb_eq) in Hw; auto.
          eapply (dget_In_NoDup String.eqb string_eqb_eq) in H1; auto. congruence. }
        apply in_app_iff in H2. destruct H2 as [H2|H2].
        * destruct (HV n v H1) as [H|[Hc _]].
          -- apply (dget_In_NoDup String.eqb string_eqb_eq) in H; auto.
             apply (dget_In_NoDup String.eqb string_eqb_eq) in H2; auto.
             left. congruence.
          -- exfalso. apply (DJ n Hc). change n with (fst (n, v')). apply in_map; auto.
        * rewrite Forall_forall in P2. destruct (P2 _ H2) as [w [Hw Hs]]. simpl in *.
          apply U1 in Hw. subst. auto.
  Qed.
  Lemma ForallOrdPairs_NoDup_shown l :
    ForallOrdPairs (fun a b => py_eqb b a = false) l ->
    (forall s, In (VStr s) l -> In (VBytes s) l -> False) ->
    forall c : string, NoDup (map (fun v => (c, shown v)) l).
  Proof.
    intros FP H c. apply NoDup_map_inj.
    - intros x y Hx Hy E. inversion E as [E'].
      destruct x, y; simpl in E'; inversion E'; subst; auto; exfalso; eauto.
    - induction FP as [|x l Hx FP IH]; constructor.
      + intro Hin. rewrite Forall_forall in Hx. apply Hx in Hin. rewrite py_eqb_refl in Hin. discriminate.
      + apply IH. intros s H1 H2. apply (H s); right; auto.
  Qed.

  Lemma sort_key_inj a b : Permutation (sort_key a) (sort_key b) -> Permutation a b.
  Proof.
    intro H. etransitivity; [apply sort_perm|]. etransitivity; [exact H|].
    apply Permutation_sym, sort_perm.
  Qed.

  Lemma parts_eq_perm (p p' : skey) : map fst p = map fst p' -> NoDup (map fst p) ->
    Permutation p p' -> p = p'.
  Proof.
    intros E N P.
    assert (N' : NoDup (map fst p')) by (rewrite <- E; auto).
    assert (forall x, In x p -> In x p') as HI by (intros; eapply Permutation_in; eauto).
    clear P. revert p' E N' HI. induction p as [|[n v] p IH]; intros [|[n' v'] p']; simpl; intros E N' HI; try discriminate; auto.
    inversion E; subst n'. inversion N; subst. inversion N'; subst.
    assert (v = v').
    { destruct (HI (n, v) (or_introl eq_refl)) as [X|X]; [congruence|].
      exfalso. apply H4. change n with (fst (n, v)). apply in_map; auto. }
    subst. f_equal. apply IH; auto.
    intros [m w] Hm. destruct (HI (m, w) (or_intror Hm)) as [X|X]; auto.
    inversion X; subst. exfalso. apply H2. change m with (fst (m, w)). apply in_map; auto.
  Qed.

  (** Every key is generated once, provided a column does not mix str and bytes. *)
  Lemma generate_NoDup sp ds dflt ks :
    wf_spec sp -> columns_utf8 (columns sp) ds dflt ->
    (forall c s, In c (columns sp) -> has_value ds dflt c (VStr s) -> has_value ds dflt c (VBytes s) -> False) ->
    generate sp ds dflt = Ok ks -> NoDup ks.
  Proof.
    intros [NC [NF DJ]] U M E.
    destruct (generate_cases sp ds dflt U) as [[E0 _]|[FH [vss [F E1]]]].
    { rewrite E0 in E. inversion E. constructor. }
    rewrite E1 in E. inversion E; subst ks. clear E.
    apply NoDup_map_inj.
    - intros p p' Hp Hp' EQ. apply product_In in Hp. apply product_In in Hp'.
      pose proof (part_names _ _ _ Hp (Forall2_length _ _ _ F)) as PN.
      pose proof (part_names _ _ _ Hp' (Forall2_length _ _ _ F)) as PN'.
      apply parts_eq_perm.
      + congruence.
      + rewrite PN; auto.
      + apply (Permutation_app_inv_l (features sp)).
        apply sort_key_inj. rewrite EQ. reflexivity.
    - apply product_NoDup. apply Forall_forall. intros l Hl.
      apply in_map_iff in Hl. destruct Hl as [[c vs] [El Hc]]. subst l. simpl.
      destruct (Forall2_combine_In _ _ _ _ _ F Hc) as [l [El Hv]]. subst vs.
      apply ForallOrdPairs_NoDup_shown; [apply dedup_pairs|].
      intros s H1 H2. apply dedup_sub in H1. apply dedup_sub in H2. apply Hv in H1. apply Hv in H2.
      eapply M; eauto. eapply in_combine_l; eauto.
  Qed.

  (* ---------------------------------------------------------------- *)
  (** * is_slice_applicable *)

  Definition disjoint_names (cols : list string) (feats : list (string * fval)) :=
    NoDup cols /\ NoDup (map fst feats) /\ forall n, In n cols -> ~ In n (map fst feats).

  Lemma pair_eqb_true a b : pair_eqb a b = true <-> same_entry a b.
  Proof.
    unfold pair_eqb, same_entry. rewrite andb_true_iff, String.eqb_eq, py_eqb_same. reflexivity.
  Qed.

  Lemma remove_first_perm {A} (eqb : A -> A -> bool) x l y :
    In y l -> eqb x y = true ->
    exists z, eqb x z = true /\ In z l /\ Permutation l (z :: remove_first eqb x l).
  Proof.
    induction l as [|a l IH]; simpl; [tauto|]. intros H E.
    destruct (eqb x a) eqn:Ea.
    - exists a. auto.
    - destruct H as [H|H]; [subst; congruence|].
      destruct (IH H E) as [z [? [? P]]]. exists z. repeat split; auto.
      etransitivity; [apply perm_skip, P|]. apply perm_swap.
  Qed.

  Lemma applicable_loop_spec k : forall cols feats,
    disjoint_names cols feats ->
    (applicable_loop cols feats k = true <->
     Permutation (map fst k) (cols ++ map fst feats) /\
     forall n v, In (n, v) k -> In n (map fst feats) ->
        exists w, In (n, w) feats /\ same_value (to_type v) w).
  Proof.
    induction k as [|[n v] k IH]; intros cols feats [NC [NF DJ]]; simpl.
    - split.
      + destruct feats, cols; try discriminate. intros _. split; [reflexivity|]. intros n v [].
      + intros [P _]. apply Permutation_nil in P. apply app_eq_nil in P. destruct P as [P1 P2].
        destruct cols; [|discriminate]. destruct feats; [|discriminate]. reflexivity.
    - destruct (memb pair_eqb (n, to_type v) feats) eqn:E1.
      + apply memb_ex in E1. destruct E1 as [y [Hy Ey]].
        destruct (remove_first_perm _ _ _ _ Hy Ey) as [z [Ez [Hz Pz]]].
        apply pair_eqb_true in Ez. destruct Ez as [Ez1 Ez2]. destruct z as [m w]. simpl in Ez1, Ez2. subst m.
        set (feats' := remove_first pair_eqb (n, to_type v) feats) in *.
        assert (NF' : NoDup (map fst ((n, w) :: feats'))).
        { eapply Permutation_NoDup; [apply Permutation_map, Pz|auto]. }
        simpl in NF'. inversion NF' as [|? ? Hn NF'']; subst.
        assert (D' : disjoint_names cols feats').
        { split; [|split]; auto. intros m Hm Hm'. apply (DJ m Hm).
          eapply Permutation_in; [apply Permutation_sym, Permutation_map, Pz|]. simpl. auto. }
        rewrite IH by auto.
        assert (PP : Permutation (cols ++ map fst feats) (n :: cols ++ map fst feats')).
        { rewrite (Permutation_map fst Pz). simpl. symmetry. apply Permutation_middle. }
        split.
        * intros [P H]. split.
          -- rewrite PP. constructor. auto.
          -- intros n' v' [X|X] Hin.
             ++ inversion X; subst. exists w. split; auto.
             ++ assert (In n' (map fst feats')) as Hin'.
                { assert (In n' (map fst ((n, w) :: feats'))) as Y
                    by (eapply Permutation_in; [apply Permutation_map, Pz|auto]).
                  destruct Y as [Y|Y]; auto. simpl in Y. subst n'. exfalso.
                  assert (In n (map fst k)) as Z by (change n with (fst (n, v')); apply in_map; auto).
                  eapply Permutation_in in Z; [|exact P]. apply in_app_iff in Z. destruct Z as [Z|Z]; auto.
                  apply (DJ n Z). change n with (fst (n, w)). apply in_map; auto. }
                destruct (H n' v' X Hin') as [w' [Hw' Hs]]. exists w'. split; auto.
                eapply Permutation_in; [apply Permutation_sym, Pz|]. right; auto.
        * intros [P H]. rewrite PP in P. apply Permutation_cons_inv in P. split; auto.
          intros n' v' X Hin.
          assert (Hin0 : In n' (map fst feats)).
          { eapply Permutation_in; [apply Permutation_sym, Permutation_map, Pz|]. right; auto. }
          destruct (H n' v' (or_intror X) Hin0) as [w' [Hw' Hs]]. exists w'. split; auto.
          eapply Permutation_in in Hw'; [|exact Pz]. destruct Hw' as [Y|Y]; auto.
          inversion Y; subst. exfalso. auto.
      + assert (NM : forall w, In (n, w) feats -> ~ same_value (to_type v) w).
        { intros w Hw Hs. assert (pair_eqb (n, to_type v) (n, w) = true) by (apply pair_eqb_true; split; auto).
          rewrite memb_ex_false in E1. rewrite E1 in H; auto. discriminate. }
        destruct (memb String.eqb n cols) eqn:E2.
        * apply (memb_In _ string_eqb_eq) in E2.
          destruct (remove_first_perm String.eqb n cols n E2 (String.eqb_refl n)) as [z [Ez [Hz Pz]]].
          apply String.eqb_eq in Ez. subst z.
          set (cols' := remove_first String.eqb n cols) in *.
          assert (NC' : NoDup (n :: cols')) by (eapply Permutation_NoDup; eauto).
          inversion NC' as [|? ? Hn NC'']; subst.
          assert (D' : disjoint_names cols' feats).
          { split; [|split]; auto. intros m Hm. apply DJ. eapply Permutation_in; [apply Permutation_sym, Pz|].
            right; auto. }
          rewrite IH by auto.
          assert (PP : Permutation (cols ++ map fst feats) (n :: cols' ++ map fst feats)).
          { apply (Permutation_app_tail (map fst feats)) in Pz. exact Pz. }
          split.
          -- intros [P H]. split; [rewrite PP; constructor; auto|].
             intros n' v' [X|X] Hin; auto. inversion X; subst. exfalso. apply (DJ n'); auto.
          -- intros [P H]. rewrite PP in P. apply Permutation_cons_inv in P. split; auto.
        * apply (memb_nIn _ string_eqb_eq) in E2. split; [discriminate|].
          intros [P H]. exfalso.
          assert (In n (cols ++ map fst feats)) as Hn by (eapply Permutation_in; [exact P|left; auto]).
          apply in_app_iff in Hn. destruct Hn as [Hn|Hn]; auto.
          destruct (H n v (or_introl eq_refl) Hn) as [w [Hw Hs]]. eapply NM; eauto.
  Qed.

  Lemma to_type_idem v : match v with VBytes _ => False | _ => True end ->
    to_type (to_type v) = to_type v.
  Proof.
    destruct v; simpl; try tauto; auto. intros _.
    destruct (has_dot s) eqn:E.
    - destruct (py_float s) eqn:F; simpl; auto. rewrite E, F. reflexivity.
    - destruct (py_int s) eqn:F; simpl; auto. rewrite E, F. reflexivity.
  Qed.

  Lemma mk_spec_wf p sp : NoDup (map fst (sp_values p)) -> mk_spec p = Ok sp ->
    wf_spec sp /\ forall n v, In (n, v) (features sp) -> to_type v = v.
  Proof.
    unfold mk_spec. intros N H.
    destruct (existsb _ _) eqn:E; [discriminate|]. inversion H; subst. clear H.
    split; [split; [|split]|]; simpl.
    - apply dedup_NoDup, string_eqb_eq.
    - rewrite map_map. simpl. exact N.
    - intros n Hn Hf. apply in_map_iff in Hf. destruct Hf as [[n' v] [En Hf]]. simpl in En. subst n'.
      assert (existsb (fun kv => memb String.eqb (fst kv) (dedup String.eqb (sp_keys p)))
        (map (fun kv => (fst kv, to_type (VStr (snd kv)))) (sp_values p)) = true); [|congruence].
      apply existsb_exists. eexists; split; [exact Hf|]. simpl. apply (memb_In _ string_eqb_eq). auto.
    - intros n v Hin. apply in_map_iff in Hin. destruct Hin as [[n' s] [E' _]].
      cbn [fst snd] in E'. injection E' as E1 E2. rewrite <- E2. apply (to_type_idem (VStr s)). simpl. exact I.
  Qed.

  (** Generated keys are applicable. *)
  Lemma generated_applicable sp ds dflt ks k :
    wf_spec sp -> (forall n v, In (n, v) (features sp) -> to_type v = v) ->
    columns_utf8 (columns sp) ds dflt ->
    generate sp ds dflt = Ok ks -> In k ks -> is_slice_applicable sp k = true.
  Proof.
    intros W T U E Hk.
    destruct (generate_sound sp ds dflt ks k W U E Hk) as [_ [SS [HN HV]]].
    destruct W as [NC [NF DJ]].
    apply applicable_loop_spec; [repeat split; auto|]. split.
    - apply NoDup_Permutation.
      + apply ss_lt_NoDup; auto.
      + apply NoDup_app; auto.
      + intro n. rewrite HN, in_app_iff. reflexivity.
    - intros n v Hin Hf. destruct (HV n v Hin) as [H|[H _]].
      + exists v. split; auto. rewrite (T n v H). apply same_refl.
      + exfalso. apply (DJ n); auto.
  Qed.
End Gen.

(* ------------------------------------------------------------------ *)
(** * Extraction and fan-out *)

Lemma key_eqb_same k : forall k', key_eqb k k' = true <-> same_key k k'.
Proof.
  induction k as [|x k IH]; intros [|y k']; simpl.
  - split; auto. constructor.
  - split; [discriminate|inversion 1].
  - split; [discriminate|inversion 1].
  - rewrite andb_true_iff, IH, pair_eqb_true. split.
    + intros [? ?]. constructor; auto.
    + inversion 1; auto.
Qed.
Lemma same_key_refl k : same_key k k.
Proof. induction k; constructor; auto. split; auto. apply same_refl. Qed.
Lemma key_eqb_refl k : key_eqb k k = true.
Proof. apply key_eqb_same, same_key_refl. Qed.

Section Fan.
  Context (float_repr : Qc -> string) (valid_utf8 : string -> bool).

  Lemma get_slices_app ds dflt sps ks :
    get_slices float_repr valid_utf8 ds dflt sps = Ok ks ->
    forall k, In k ks <-> exists sp l, In sp sps /\ generate_slices float_repr valid_utf8 sp ds dflt = Ok l /\ In k l.
  Proof.
    revert ks; induction sps as [|sp sps IH]; simpl; intros ks E k.
    - inversion E. simpl. split; [tauto|intros [? [? [[] _]]]].
    - destruct (generate_slices float_repr valid_utf8 sp ds dflt) as [a|] eqn:G; [|discriminate].
      simpl in E. destruct (get_slices float_repr valid_utf8 ds dflt sps) as [b|] eqn:G2; [|discriminate].
      simpl in E. inversion E; subst. rewrite in_app_iff. rewrite (IH b eq_refl). split.
      + intros [H|[sp' [l [? [? ?]]]]]; [exists sp, a; auto|exists sp', l; auto].
      + intros [sp' [l [[Hs|Hs] [Hg Hl]]]].
        * subst. rewrite G in Hg. inversion Hg; subst. auto.
        * right. eauto.
  Qed.

  Lemma get_slices_ok ds dflt sps :
    (forall sp, In sp sps -> columns_utf8 valid_utf8 (columns sp) ds dflt) ->
    exists ks, get_slices float_repr valid_utf8 ds dflt sps = Ok ks.
  Proof.
    induction sps as [|sp sps IH]; simpl; intro H; eauto.
    destruct IH as [b Hb]; [intros; apply H; auto|]. rewrite Hb.
    destruct (generate_cases float_repr valid_utf8 sp ds dflt (H sp (or_introl eq_refl))) as [[E _]|[_ [vss [_ E]]]];
      rewrite E; simpl; eauto.
  Qed.
End Fan.

Lemma fanout_keys {X} keys (x : X) : map fst (fanout keys x) = dedup key_eqb keys.
Proof. unfold fanout. rewrite map_map. simpl. apply map_id. Qed.

(* ------------------------------------------------------------------ *)
(** * Serialisation *)

Lemma serialize_round f32 k :
  (forall n z, In (n, VInt z) k -> int64_ok z = true) ->
  exists p, serialize_slice_key f32 k = Ok p /\
    deserialize_slice_key p =
      Ok (map (fun nv => (fst nv, match snd nv with
                                  | VStr s | VBytes s => VStr s
                                  | VInt z => VInt z
                                  | VFloat q => VFloat (f32 q) end)) k).
Proof.
  induction k as [|[n v] k IH]; intro H; simpl.
  - exists []. auto.
  - destruct IH as [p [E D]]; [intros; eapply H; right; eauto|].
    unfold serialize_slice_key, deserialize_slice_key in *. simpl.
    destruct v; simpl; try (rewrite (H n z (or_introl eq_refl))); simpl; rewrite E; simpl;
      eexists; (split; [reflexivity|]); simpl; rewrite D; reflexivity.
Qed.

(* ------------------------------------------------------------------ *)
(** * Key classification *)

Lemma all_singletons_key k :
  all_singletons (map (fun nv : string * fval => PTup [PStr (fst nv); val_obj (snd nv)]) k) = Ok true.
Proof.
  induction k as [|[n v] k IH]; simpl; auto. destruct v; simpl; exact IH.
Qed.
Lemma is_slice_key_key k : is_slice_key_type (key_obj k) = Ok true.
Proof.
  unfold is_slice_key_type, key_obj. destruct k as [|x k]; auto.
  change (py_false (PTup (map (fun nv : string * fval => PTup [PStr (fst nv); val_obj (snd nv)]) (x :: k)))) with false.
  simpl iter. unfold bind. apply (all_singletons_key (x :: k)).
Qed.
Lemma is_slice_key_cross ck : is_slice_key_type (cross_obj ck) = Ok false.
Proof.
  destruct ck as [[|[a v] [|[b w] [|z k]]] c]; simpl; reflexivity.
Qed.
Lemma key_type_single k : get_slice_key_type (key_obj k) = Ok SingleKey.
Proof. unfold get_slice_key_type. rewrite is_slice_key_key. reflexivity. Qed.
Lemma key_type_cross ck : get_slice_key_type (cross_obj ck) = Ok CrossKey.
Proof.
  unfold get_slice_key_type. rewrite is_slice_key_cross. simpl.
  rewrite !is_slice_key_key. reflexivity.
Qed.

(* ------------------------------------------------------------------ *)
(** * FilterOutSlices *)

Section FilterOutFacts.
  Context {K V : Type} (keqb : K -> K -> bool) (is_overall : K -> bool) (err : V) (min_size : Z).
  Hypothesis keqb_eq : forall a b, keqb a b = true <-> a = b.

  Lemma filter_key_none {W} (l : list (K * W)) k :
    ~ In k (map fst l) -> map snd (filter (fun kv => keqb k (fst kv)) l) = [].
  Proof.
    induction l as [|[k' w'] l IH]; simpl; auto. intro H.
    destruct (keqb k k') eqn:E; [apply keqb_eq in E; subst; exfalso; auto|auto].
  Qed.
  Lemma filter_key_single {W} (l : list (K * W)) k w :
    NoDup (map fst l) -> In (k, w) l -> map snd (filter (fun kv => keqb k (fst kv)) l) = [w].
  Proof.
    induction l as [|[k' w'] l IH]; simpl; [tauto|]. intros N H. inversion N as [|? ? Hn N']; subst.
    destruct H as [H|H].
    - inversion H; subst. rewrite (proj2 (keqb_eq k k) eq_refl). simpl. f_equal.
      apply filter_key_none; auto.
    - destruct (keqb k k') eqn:E; auto.
      apply keqb_eq in E; subst. exfalso. apply Hn. change k' with (fst (k', w)). apply in_map; auto.
  Qed.

  (** What the user should see for a key with value [v] and [n] examples. *)
  Definition anonymised (k : K) (v : V) (n : Z) : V :=
    if is_overall k then v else if Z.leb min_size n then v else err.

  Lemma fold_filter values counts :
    NoDup (map fst values) -> NoDup (map fst counts) ->
    (forall k v, In (k, v) values -> exists n, In (k, n) counts) ->
    forall keys acc, NoDup keys ->
    exists out,
      foldM (fun acc k =>
        let! o := filter_small err min_size (is_overall k)
                    (map snd (filter (fun kv => keqb k (fst kv)) values))
                    (map snd (filter (fun kv => keqb k (fst kv)) counts)) in
        Ok (match o with Some v => acc ++ [(k, v)] | None => acc end)) keys acc = Ok (acc ++ out) /\
      (forall k v, In (k, v) out <->
         In k keys /\ exists v0 n, In (k, v0) values /\ In (k, n) counts /\ v = anonymised k v0 n) /\
      NoDup (map fst out).
  Proof.
    intros NV NN HC keys. induction keys as [|k keys IH]; intros acc NK; simpl.
    - exists []. rewrite app_nil_r. split; auto. split; [|constructor].
      intros k v. split; [intros []|intros [[] _]].
    - inversion NK as [|? ? Hk NK']; subst.
      destruct (dget keqb values k) as [v0|] eqn:D.
      + apply (dget_In keqb keqb_eq) in D. destruct (HC k v0 D) as [n Hn].
        rewrite (filter_key_single values k v0 NV D), (filter_key_single counts k n NN Hn).
        assert (S : filter_small err min_size (is_overall k) [v0] [n] = Ok (Some (anonymised k v0 n))).
        { unfold filter_small, anonymised. destruct (is_overall k); auto. destruct (Z.leb min_size n); auto. }
        rewrite S. simpl. destruct (IH (acc ++ [(k, anonymised k v0 n)]) NK') as [out [E [H ND]]].
        exists ((k, anonymised k v0 n) :: out). split; [|split].
        * rewrite E. rewrite <- app_assoc. reflexivity.
        * intros k' v'. simpl. rewrite H. split.
          -- intros [X|[X Y]].
             ++ inversion X; subst. split; auto. exists v0, n. auto.
             ++ split; auto.
          -- intros [[X|X] Y].
             ++ subst k'. left. destruct Y as [v1 [n1 [Y1 [Y2 Y3]]]].
                apply (dget_In_NoDup keqb keqb_eq) in Y1; auto. apply (dget_In_NoDup keqb keqb_eq) in Y2; auto.
                apply (dget_In_NoDup keqb keqb_eq) in D; auto. apply (dget_In_NoDup keqb keqb_eq) in Hn; auto.
                congruence.
             ++ right; auto.
        * simpl. constructor; auto. intro X. apply in_map_iff in X. destruct X as [[k2 v2] [X1 X2]].
          simpl in X1. subst k2. apply H in X2. tauto.
      + apply (dget_None keqb keqb_eq) in D.
        rewrite (filter_key_none values k D). simpl.
        destruct (IH acc NK') as [out [E [H ND]]]. exists out. split; [|split]; auto.
        intros k' v'. rewrite H. split.
        * intros [X Y]. auto.
        * intros [[X|X] Y]; auto. subst k'. destruct Y as [v1 [n1 [Y1 _]]].
          exfalso. apply D. change k with (fst (k, v1)). apply in_map; auto.
  Qed.

  Lemma filter_out_spec values counts :
    NoDup (map fst values) -> NoDup (map fst counts) ->
    (forall k v, In (k, v) values -> exists n, In (k, n) counts) ->
    exists out, filter_out_slices keqb is_overall err min_size values counts = Ok out /\
      NoDup (map fst out) /\
      forall k v, In (k, v) out <->
        exists v0 n, In (k, v0) values /\ In (k, n) counts /\ v = anonymised k v0 n.
  Proof.
    intros NV NN HC. unfold filter_out_slices.
    destruct (fold_filter values counts NV NN HC (dedup keqb (map fst values ++ map fst counts)) [])
      as [out [E [H ND]]].
    { apply dedup_NoDup, keqb_eq. }
    exists out. split; [exact E|]. split; auto. intros k v. rewrite H. split; [tauto|].
    intros [v0 [n [H1 [H2 H3]]]]. split; [|eauto].
    apply dedup_In; auto. apply in_app_iff. left. change k with (fst (k, v0)). apply in_map; auto.
  Qed.
End FilterOutFacts.
