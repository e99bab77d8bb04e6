(* Proofs of the theorems restated in Aggregation_Properties.v. *)
From Coq Require Import String Ascii.
From Verif Require Import Base BaseFacts Beam BeamFacts Slicer_Model Util_Model Inputs_Model Inputs_Main Sums_Model Sums_Main Means_Model Keys_Model Keys_Main Evaluator_Model Evaluator_Main Validation_Model Aggregation_Model.
Local Open Scope string_scope.
Local Open Scope list_scope.

(* C48, C49, C101 - C107: aggregation over classes, top k and outputs. *)

(** The dictionary m reports the number x for the sub key s of a metric: under the metric's name
    or, if that is not there, under its private name. *)

Definition class_entry (name model output : string) (weighted : bool) (s : sub_key) : metric_key :=
  {| k_name := name; k_model := model; k_output := output; k_sub := Some s; k_agg := None;
     k_weighted := Some weighted; k_diff := false |}.

Definition reports (m : adict) (name model output : string) (weighted : bool) (s : sub_key) (x : Qc) : Prop :=
  In (class_entry name model output weighted s, ANum (Fin x)) m \/
  (~ In (class_entry name model output weighted s) (map fst m) /\
   In (class_entry (String "_" name) model output weighted s, ANum (Fin x)) m).

Definition macro_entry (name model output : string) (weighted : bool) (sk : option sub_key) : metric_key :=
  {| k_name := name; k_model := model; k_output := output; k_sub := sk; k_agg := Some (AggType None (Some true) None);
     k_weighted := Some weighted; k_diff := false |}.

(** Sum of weight times value over sum of weights; not a number if the weights sum to 0. *)

Definition weighted_mean {A} (w v : A -> Qc) (l : list A) : num :=
  if Qc_eqb (qsum (map w l)) 0%Qc then NaN else Fin (qsum (map (fun a => w a * v a) l) / qsum (map w l))%Qc.

Lemma mget_entry (m : adict) k v : NoDup (map fst m) -> In (k, v) m -> aget m k = Ok v.
Proof.
  intros N H. unfold aget. apply (dget_In_NoDup _ metric_key_eqb_eq m k v N) in H. rewrite H. reflexivity.
Qed.

Lemma child_value m name model output w s x :
  NoDup (map fst m) -> reports m name model output w s x ->
  aget m (child_key name model output w m s) = Ok (ANum (Fin x)).
Proof.
  intros N R. unfold child_key. cbv zeta.
  change (plain_key name model output (Some s) None w) with (class_entry name model output w s).
  destruct R as [R|[A R]].
  - assert (E : dmem metric_key_eqb m (class_entry name model output w s) = true)
      by (apply (dmem_In _ metric_key_eqb_eq); exact (in_map fst _ _ R)).
    rewrite E. apply mget_entry; assumption.
  - assert (E : dmem metric_key_eqb m (class_entry name model output w s) = false)
      by (apply (dmem_false _ metric_key_eqb_eq); exact A).
    rewrite E. apply mget_entry; assumption.
Qed.

Lemma average_fold {S} (step : num * Qc -> S -> res (num * Qc)) (wt v : S -> Qc) l :
  (forall s t, In s l -> step t s = Ok (accumulate t (Fin (v s)) (wt s))) ->
  forall a b, foldM step l (Fin a, b) = Ok (Fin (a + qsum (map (fun s => wt s * v s) l))%Qc, (b + qsum (map wt l))%Qc).
Proof.
  induction l as [|s l IH]; intros H a b; cbn [foldM map].
  - f_equal. f_equal; [f_equal|]; cbn [qsum fold_right]; ring.
  - rewrite H by (left; reflexivity). cbn [bind]. unfold accumulate. cbn [fst snd num_scale num_plus].
    rewrite IH by (intros s' t I; apply H; right; exact I).
    change (qsum (?x :: ?y)) with (x + qsum y)%Qc. f_equal. f_equal; [f_equal|]; ring.
Qed.

Lemma average_value {S} (wt v : S -> Qc) l :
  average_of (Fin (0 + qsum (map (fun s => wt s * v s) l))%Qc, (0 + qsum (map wt l))%Qc) = weighted_mean wt v l.
Proof.
  unfold average_of, weighted_mean. cbn [fst snd].
  replace (0 + qsum (map wt l))%Qc with (qsum (map wt l)) by ring.
  destruct (Qc_eqb _ _); [reflexivity|]. cbn [num_scale]. f_equal. unfold Qcdiv. ring.
Qed.

Lemma average_over_value name model output sks sk w weight m (wt v : sub_key -> Qc) :
  NoDup (map fst m) ->
  (forall s, In s sks -> reports m name model output w s (v s)) ->
  (forall s, In s sks -> weight s = Ok (wt s)) ->
  average_over name model output sks sk w weight m
  = Ok [(macro_entry name model output w sk, ANum (weighted_mean wt v sks))].
Proof.
  intros N R W. unfold average_over.
  rewrite (average_fold _ wt v).
  - cbn [bind]. unfold macro_key, macro_entry, plain_key, macro_type. rewrite average_value. reflexivity.
  - intros s t I. rewrite (W s I). cbn [bind]. rewrite (child_value m name model output w s (v s) N (R s I)).
    cbn [bind to_number]. reflexivity.
Qed.

(** The weight of a class for a configuration: its entry in class_weights; 1 without
    class_weights; 0 if class_weights leave it out.  The k-th prediction has weight 1. *)

Inductive configured_weight (cw : list (Z * Qc)) (s : sub_key) : Qc -> Prop :=
  | listed c x : sk_class_id s = Some c -> In (c, x) cw -> configured_weight cw s x
  | unlisted c : sk_class_id s = Some c -> cw <> [] -> ~ In c (map fst cw) -> configured_weight cw s 0
  | listed_kth k x : sk_class_id s = None -> sk_k s = Some k -> In (Z.of_nat k, x) cw -> configured_weight cw s x
  | unlisted_kth k : sk_class_id s = None -> sk_k s = Some k -> cw <> [] -> ~ In (Z.of_nat k) (map fst cw) -> configured_weight cw s 0
  | no_table : cw = [] -> configured_weight cw s 1.

Lemma C48_macro_average_is_weighted_mean_pf :
  forall name model output sks sk w cw m (wt v : sub_key -> Qc),
    NoDup (map fst m) -> NoDup (map fst cw) ->
    (forall s, In s sks -> reports m name model output w s (v s)) ->
    (forall s, In s sks -> configured_weight cw s (wt s)) ->
    macro_average name model output sks sk w (Some cw) m
    = Ok [(macro_entry name model output w sk, ANum (weighted_mean wt v sks))].
Proof.
  intros name model output sks sk w cw m wt v N NC R W. apply average_over_value; [exact N|exact R|].
  intros s I. unfold macro_weight, offset_of, start_weight.
  destruct (W s I) as [c x E L|c E NE L|k x E0 E L|k E0 E NE L|E].
  - rewrite E. apply (dget_In_NoDup _ Z.eqb_eq cw c x NC) in L. rewrite L. reflexivity.
  - rewrite E. apply (dget_None _ Z.eqb_eq) in L. rewrite L. destruct cw; [congruence|reflexivity].
  - rewrite E0, E. apply (dget_In_NoDup _ Z.eqb_eq cw _ x NC) in L. rewrite L. reflexivity.
  - rewrite E0, E. apply (dget_None _ Z.eqb_eq) in L. rewrite L. destruct cw; [congruence|reflexivity].
  - subst cw. destruct (sk_class_id s), (sk_k s); reflexivity.
Qed.

Lemma C48_macro_average_in_range_pf :
  forall name model output sks sk w cw m (wt v : sub_key -> Qc) lo hi,
    NoDup (map fst m) -> NoDup (map fst cw) ->
    (forall s, In s sks -> reports m name model output w s (v s)) ->
    (forall s, In s sks -> configured_weight cw s (wt s)) ->
    (forall s, In s sks -> (0 <= wt s)%Qc /\ (lo <= v s)%Qc /\ (v s <= hi)%Qc) ->
    (exists s, In s sks /\ (0 < wt s)%Qc) ->
    exists a, macro_average name model output sks sk w (Some cw) m = Ok [(macro_entry name model output w sk, ANum (Fin a))]
      /\ (lo <= a)%Qc /\ (a <= hi)%Qc.
Proof.
  intros name model output sks sk w cw m wt v lo hi N NC R W B (s0 & I0 & P0).
  rewrite (C48_macro_average_is_weighted_mean_pf name model output sks sk w cw m wt v N NC R W).
  assert (P : (0 < qsum (map wt sks))%Qc).
  { clear R W N NC. induction sks as [|s l IH]; [destruct I0|]. cbn [map]. change (qsum (?x :: ?y)) with (x + qsum y)%Qc.
    assert (G : (0 <= qsum (map wt l))%Qc).
    { apply qsum_nonneg. intros y Y. apply in_map_iff in Y. destruct Y as (s' & <- & I). apply B. right. exact I. }
    destruct I0 as [->|I0].
    - qc_lra.
    - assert (X := IH (fun s' I => B s' (or_intror I)) I0). assert (Y := proj1 (B s (or_introl eq_refl))). qc_lra. }
  assert (L : (lo * qsum (map wt sks) <= qsum (map (fun s => wt s * v s) sks))%Qc /\
              (qsum (map (fun s => wt s * v s) sks) <= hi * qsum (map wt sks))%Qc).
  { rewrite <- !qsum_map_scale. split; apply qsum_map_le; intros s I; destruct (B s I) as (A & L & H); qc_nra. }
  exists (qsum (map (fun s => wt s * v s) sks) / qsum (map wt sks))%Qc. unfold weighted_mean.
  assert (NZ : qsum (map wt sks) <> 0%Qc) by (intros E; rewrite E in P; exact (Qclt_not_eq' _ _ P eq_refl)).
  destruct (Qc_eqb (qsum (map wt sks)) 0%Qc) eqn:E; [apply Qc_eqb_eq in E; contradiction|].
  split; [reflexivity|]. destruct L as [L H].
  assert (E1 : forall c, c = (c * qsum (map wt sks) / qsum (map wt sks))%Qc) by (intros c; field; exact NZ).
  split; [rewrite (E1 lo)|rewrite (E1 hi)]; apply Qcdiv_le_compat; assumption.
Qed.

(** The weight of a class in a weighted macro average: its share of the labels times the
    configured weight.  The k-th prediction has weight 1. *)

Inductive share_weight (shares cw : list (Z * Qc)) (s : sub_key) : Qc -> Prop :=
  | class_share c x y : sk_class_id s = Some c -> In (c, x) shares -> In (c, y) cw -> share_weight shares cw s (x * y)
  | kth_share : sk_class_id s = None -> cw = [] -> share_weight shares cw s 1.

Lemma C48_weighted_macro_average_is_weighted_mean_pf :
  forall name model output sks sk w cw m shares (wt v : sub_key -> Qc),
    NoDup (map fst m) -> NoDup (map fst cw) -> NoDup (map fst shares) ->
    In ({| k_name := "_class_weights_from_labels"; k_model := model; k_output := output; k_sub := None; k_agg := None;
           k_weighted := Some w; k_diff := false |}, AWeights shares) m ->
    (forall s, In s sks -> reports m name model output w s (v s)) ->
    (forall s, In s sks -> share_weight shares cw s (wt s)) ->
    weighted_macro_average name model output sks sk w (Some cw) m
    = Ok [(macro_entry name model output w sk, ANum (weighted_mean wt v sks))].
Proof.
  intros name model output sks sk w cw m shares wt v N NC NS L R W. unfold weighted_macro_average.
  unfold label_weights_key, plain_key, label_weights_name. rewrite (mget_entry _ _ _ N L). cbn [bind].
  apply average_over_value; [exact N|exact R|].
  intros s I. unfold weighted_weight, start_weight.
  destruct (W s I) as [c x y E X Y|E Y].
  - rewrite E. apply (dget_In_NoDup _ Z.eqb_eq _ c x NS) in X. apply (dget_In_NoDup _ Z.eqb_eq _ c y NC) in Y.
    rewrite X, Y. reflexivity.
  - rewrite E, Y. reflexivity.
Qed.

Lemma foldM_stops {A S} (step : S -> A -> res S) l a : In a l -> (forall t t', step t a <> Ok t') -> forall t t', foldM step l t <> Ok t'.
Proof.
  induction l as [|b l IH]; [intros []|]. intros I H t t'. cbn [foldM]. destruct (step t b) as [u|] eqn:E; [|discriminate]. cbn [bind].
  destruct I as [<-|I]; [destruct (H t u E)|exact (IH I H u t')].
Qed.

Lemma C48_other_values_are_refused_pf :
  forall name model output sks sk w m s v cw outputs o x,
    NoDup (map fst m) -> (forall y, v <> ANum y) ->
    (In s sks -> In (class_entry name model output w s, v) m ->
       (forall r, macro_average name model output sks sk w cw m <> Ok r) /\
       (forall r, weighted_macro_average name model output sks sk w cw m <> Ok r)) /\
    (In (o, x) outputs ->
       In ({| k_name := name; k_model := model; k_output := o; k_sub := sk; k_agg := None; k_weighted := Some w; k_diff := false |}, v) m ->
       forall r, output_average name model outputs sk w m <> Ok r).
Proof.
  intros name model output sks sk w m s v cw outputs o x N NV.
  assert (T : forall y, to_number v <> Ok y) by (intros y; destruct v; [destruct (NV x0 eq_refl)|discriminate|discriminate]).
  split.
  - intros I E.
    assert (C : child_key name model output w m s = class_entry name model output w s).
    { unfold child_key. cbv zeta. change (plain_key name model output (Some s) None w) with (class_entry name model output w s).
      assert (D : dmem metric_key_eqb m (class_entry name model output w s) = true) by (apply (dmem_In _ metric_key_eqb_eq); exact (in_map fst _ _ E)).
      rewrite D. reflexivity. }
    assert (A : forall weight r, average_over name model output sks sk w weight m <> Ok r).
    { intros weight r H. unfold average_over in H. match type of H with bind ?f _ = _ => destruct f as [t|] eqn:F; [|discriminate] end. revert F. apply (foldM_stops _ _ s I).
      intros t0 t'. destruct (weight s); [|discriminate]. cbn [bind]. rewrite C, (mget_entry _ _ _ N E). cbn [bind]. destruct (to_number v) as [y|] eqn:Q; [destruct (T y eq_refl)|discriminate]. }
    split; [apply A|]. intros r H. unfold weighted_macro_average in H. destruct (aget m (label_weights_key model output w)) as [[]|]; cbn [bind] in H; try discriminate H. exact (A _ _ H).
  - intros I E r H. unfold output_average in H. match type of H with bind ?f _ = _ => destruct f as [t|] eqn:F; [|discriminate] end. revert F. apply (foldM_stops _ _ (o, x) I).
    intros t0 t'. cbn [fst]. unfold plain_key. rewrite (mget_entry _ _ _ N E). cbn [bind]. destruct (to_number v) as [y|] eqn:Q; [destruct (T y eq_refl)|discriminate].
Qed.

(** How much an example counts for class c: a single label is the class itself, a vector of labels
    has an entry per class. *)

Definition positive (label : list Qc) (c : Z) : Qc :=
  match label with
  | [x] => if Qc_eqb x (qz c) then 1%Qc else 0%Qc
  | _ => nth (Z.to_nat c) label 0%Qc
  end.

Definition class_total (lw : list (list Qc * Qc)) (c : Z) : Qc :=
  qsum (map (fun p => positive (fst p) c * snd p)%Qc lw).

(** A label that says something about each of the classes. *)

Definition covers (ids : list Z) (label : list Qc) : bool :=
  Nat.eqb (length label) 1 || forallb (fun c => Z.ltb c (Z.of_nat (length label))) ids.

Section Shares.
  Context (ap : list num -> nat -> list nat) (ids : list Z) (lk pk model output : string) (weighted : bool).
  Hypothesis ids_nodup : NoDup ids.
  Hypothesis ids_nonneg : forall c, In c ids -> (0 <= c)%Z.
  (** The example has this label and this weight (one for all classes, possibly repeated). *)
  Definition labelled (e : inputs_dict) (p : list Qc * Qc) : Prop :=
    exists ps ws, carries weighted model output e (Reading (fst p) ps ws) /\ ws <> [] /\ forall w, In w ws -> w = snd p.
  Lemma labelled_yields e p : labelled e p ->
    exists pred, to_label_prediction_example_weight ap (label_options weighted) lk pk model output e
                 = Ok [(fst p, pred, [snd p])].
  Proof.
    intros (ps & ws & C & N & A). exists ps.
    rewrite (prepared ap (label_options weighted) lk pk model output e (Reading (fst p) ps ws)) by exact C.
    unfold yield_tuples, label_options. cbn [o_allow_none o_single_weight o_sub_key o_flatten o_class_weights o_fractional negb andb orb bind r_labels r_scores r_weight].
    assert (W : (if Nat.ltb 1 (length ws)
                 then match ws with w0 :: _ => if forallb (fun w => Qc_eqb w w0) ws then Ok [w0] else Err ValueError | [] => Ok ws end
                 else Ok ws) = Ok [snd p]).
    { destruct ws as [|w0 ws]; [congruence|]. pose proof (A w0 (or_introl eq_refl)) as E0. destruct ws as [|w1 ws]; [cbn; rewrite E0; reflexivity|].
      cbn [length Nat.ltb Nat.leb]. replace (forallb (fun w => Qc_eqb w w0) (w0 :: w1 :: ws)) with true; [rewrite E0; reflexivity|].
      symmetry. apply forallb_forall. intros w Hw. rewrite (A w Hw), E0. apply Qc_eqb_eq. reflexivity. }
    rewrite W. cbn [bind]. unfold yield_results. reflexivity.
  Qed.

  Notation table f := (map (fun c => (c, f c)) ids).

  Lemma dget_table (f : Z -> Qc) l c : dget Z.eqb (map (fun c => (c, f c)) l) c = if memb Z.eqb c l then Some (f c) else None.
  Proof.
    induction l as [|d l IH]; cbn [map dget memb]; [reflexivity|]. destruct (Z.eqb c d) eqn:E; cbn [orb]; [|exact IH].
    apply Z.eqb_eq in E. subst. reflexivity.
  Qed.

  Lemma dset_table (f : Z -> Qc) l c x : In c l -> NoDup l ->
    dset Z.eqb (map (fun c => (c, f c)) l) c x = map (fun d => (d, if Z.eqb d c then x else f d)) l.
  Proof.
    induction l as [|d l IH]; cbn [map dset]; intros I N; [destruct I|]. inversion N as [|? ? N1 N2]; subst.
    destruct (Z.eqb c d) eqn:E.
    - apply Z.eqb_eq in E. subst d. rewrite Z.eqb_refl. f_equal. apply map_ext_in. intros d Id.
      destruct (Z.eqb d c) eqn:E; [|reflexivity]. apply Z.eqb_eq in E. subst. contradiction.
    - rewrite Z.eqb_sym, E. f_equal. apply IH; [|exact N2]. destruct I as [->|I]; [rewrite Z.eqb_refl in E; discriminate|exact I].
  Qed.

  Lemma bump_table (f : Z -> Qc) c x : In c ids ->
    bump (table f) c x = Ok (table (fun d => if Z.eqb d c then (f d + x)%Qc else f d)).
  Proof.
    intros I. unfold bump. rewrite dget_table. rewrite (proj2 (memb_In _ Z.eqb_eq c ids) I).
    rewrite dset_table by assumption. f_equal. apply map_ext. intros d. destruct (Z.eqb d c) eqn:E; [|reflexivity].
    apply Z.eqb_eq in E. subst. reflexivity.
  Qed.

  Lemma bump_all (g : Z -> Qc) l : NoDup l -> incl l ids -> forall f,
    foldM (fun a c => bump a c (g c)) l (table f) = Ok (table (fun d => if memb Z.eqb d l then (f d + g d)%Qc else f d)).
  Proof.
    induction l as [|c l IH]; intros N C f; cbn [foldM].
    - reflexivity.
    - inversion N as [|? ? N1 N2]; subst. rewrite bump_table by (apply C; left; reflexivity). cbn [bind].
      rewrite IH; [|exact N2|intros y Y; apply C; right; exact Y]. f_equal. apply map_ext. intros d. cbn [memb].
      destruct (Z.eqb d c) eqn:E; cbn [orb]; [|reflexivity]. apply Z.eqb_eq in E. subst d.
      rewrite (proj2 (memb_nIn _ Z.eqb_eq c l) N1). reflexivity.
  Qed.

  Lemma table_ext (f g : Z -> Qc) : (forall c, In c ids -> f c = g c) -> table f = table g.
  Proof. intros H. apply map_ext_in. intros c I. rewrite (H c I). reflexivity. Qed.

  Lemma bump_ids (g f : Z -> Qc) : foldM (fun a c => bump a c (g c)) ids (table f) = Ok (table (fun d => (f d + g d)%Qc)).
  Proof.
    rewrite bump_all; [|exact ids_nodup|apply incl_refl]. f_equal. apply table_ext. intros c I.
    rewrite (proj2 (memb_In _ Z.eqb_eq c ids) I). reflexivity.
  Qed.

  Lemma zero_table : label_weights_zero ids = table (fun _ => 0%Qc).
  Proof.
    unfold label_weights_zero.
    assert (G : forall l (d : list (Z * Qc)), NoDup l -> (forall c, In c l -> ~ In c (map fst d)) ->
      fold_left (fun d c => dset Z.eqb d c 0%Qc) l d = d ++ map (fun c => (c, 0%Qc)) l).
    { induction l as [|c l IH]; intros d N D; cbn [fold_left map]; [rewrite app_nil_r; reflexivity|].
      inversion N as [|? ? N1 N2]; subst.
      assert (E : dset Z.eqb d c 0%Qc = d ++ [(c, 0%Qc)]).
      { assert (X := D c (or_introl eq_refl)). clear - X. induction d as [|[k v] d IHd]; cbn [dset app map fst] in *; [reflexivity|].
        destruct (Z.eqb c k) eqn:E; [apply Z.eqb_eq in E; subst; exfalso; apply X; left; reflexivity|].
        rewrite IHd; [reflexivity|]. intros Y. apply X. right. exact Y. }
      rewrite E, IH; [rewrite <- app_assoc; reflexivity|exact N2|].
      intros y Y. rewrite map_app, in_app_iff. cbn [map fst In]. intros [Z|[<-|[]]]; [exact (D y (or_intror Y) Z)|contradiction]. }
    apply (G ids []); [exact ids_nodup|auto].
  Qed.

  Lemma label_value_ok label c : (0 <= c)%Z -> covers [c] label = true -> label_value label c = Ok (positive label c).
  Proof.
    intros P C. unfold covers in C. cbn [forallb] in C. unfold label_value, positive, py_index.
    destruct label as [|x [|y label]].
    - cbn [length Nat.eqb orb] in C. rewrite andb_true_r in C. apply Z.ltb_lt in C. cbn in C. lia.
    - reflexivity.
    - set (l := x :: y :: label) in *. change (Nat.eqb (length l) 1) with false in C. rewrite orb_false_l, andb_true_r in C.
      apply Z.ltb_lt in C. rewrite (proj2 (Z.leb_gt _ _) C), (proj2 (Z.leb_le _ _) P). unfold nth_ok.
      rewrite (nth_error_nth' l 0%Qc) by lia. reflexivity.
  Qed.

  Lemma label_value_err label c : (0 <= c)%Z -> covers [c] label = false -> label_value label c = Err ValueError.
  Proof.
    intros P C. unfold covers in C. cbn [forallb] in C. unfold label_value.
    destruct label as [|x [|y label]].
    - cbn [length]. rewrite (proj2 (Z.leb_le _ _)) by (cbn; lia). reflexivity.
    - discriminate.
    - set (l := x :: y :: label) in *. change (Nat.eqb (length l) 1) with false in C. rewrite orb_false_l, andb_true_r in C.
      apply Z.ltb_ge in C. rewrite (proj2 (Z.leb_le _ _) C). reflexivity.
  Qed.

  Lemma covers_all l label : covers l label = forallb (fun c => covers [c] label) l.
  Proof.
    unfold covers. destruct (Nat.eqb (length label) 1); cbn [orb].
    - symmetry. apply forallb_forall. reflexivity.
    - induction l as [|c l IH]; cbn [forallb]; [reflexivity|]. rewrite IH, andb_true_r. reflexivity.
  Qed.

  Lemma label_weights_of_spec f label pred w :
    label_weights_of ids (table f) (label, pred, [w])
    = if covers ids label then Ok (table (fun c => (f c + positive label c * w)%Qc)) else Err ValueError.
  Proof.
    unfold label_weights_of, scalar. cbn [bind].
    destruct (covers ids label) eqn:C.
    - rewrite <- bump_ids. rewrite covers_all in C. rewrite forallb_forall in C.
      assert (G : forall l a, incl l ids -> foldM (fun a c => let! lv := label_value label c in bump a c (lv * w)%Qc) l a
                          = foldM (fun a c => bump a c (positive label c * w)%Qc) l a).
      { induction l as [|c l IH]; intros a D; cbn [foldM]; [reflexivity|].
        rewrite label_value_ok by (first [apply ids_nonneg|apply C]; apply D; left; reflexivity). cbn [bind].
        destruct (bump a c _) as [b|e]; cbn [bind]; [|reflexivity]. apply IH. intros y Y. apply D. right. exact Y. }
      apply G, incl_refl.
    - rewrite covers_all in C.
      assert (G : forall l f, incl l ids -> forallb (fun c => covers [c] label) l = false ->
        foldM (fun a c => let! lv := label_value label c in bump a c (lv * w)%Qc) l (table f) = Err ValueError).
      { induction l as [|c l IH]; intros g D F; [discriminate|]. cbn [forallb foldM] in *.
        assert (I : In c ids) by (apply D; left; reflexivity).
        destruct (covers [c] label) eqn:E.
        - rewrite label_value_ok by auto. cbn [bind]. rewrite bump_table by exact I. cbn [bind].
          apply IH; [|exact F]. intros y Y. apply D. right. exact Y.
        - rewrite label_value_err by auto. reflexivity. }
      apply G; [apply incl_refl|exact C].
  Qed.

  Definition totals (lw : list (list Qc * Qc)) : res (list (Z * Qc)) :=
    if forallb (fun p => covers ids (fst p)) lw then Ok (table (class_total lw)) else Err ValueError.

  Lemma class_total_app a b c : class_total (a ++ b) c = (class_total a c + class_total b c)%Qc.
  Proof. unfold class_total. rewrite map_app, qsum_app. reflexivity. Qed.

  Lemma merge_tables f g : label_weights_merge (table f) (table g) = Ok (table (fun c => (f c + g c)%Qc)).
  Proof.
    unfold label_weights_merge. rewrite <- bump_ids.
    assert (G : forall l a, foldM (fun r kv => bump r (fst kv) (snd kv)) (map (fun c => (c, g c)) l) a = foldM (fun a c => bump a c (g c)) l a).
    { induction l as [|c l IH]; intros a; cbn [map foldM fst snd]; [reflexivity|]. destruct (bump a c (g c)); cbn [bind]; [apply IH|reflexivity]. }
    apply G.
  Qed.

  Lemma merge_totals a b :
    (let! x := totals a in let! y := totals b in label_weights_merge x y) = totals (a ++ b).
  Proof.
    unfold totals. rewrite forallb_app.
    destruct (forallb _ a); cbn [bind andb]; [|reflexivity]. destruct (forallb _ b); cbn [bind]; [|reflexivity].
    rewrite merge_tables. f_equal. apply table_ext. intros c _. symmetry. apply class_total_app.
  Qed.

  Lemma run_totals s : forall lw, Forall2 labelled (inputs s) lw ->
    run (label_weights_combiner ap ids lk pk model output weighted) s = totals lw.
  Proof.
    apply (rel_run (label_weights_combiner ap ids lk pk model output weighted)
             (fun a l => forall lw, Forall2 labelled l lw -> a = totals lw)).
    - intros lw H. inversion H; subst. cbn [c_create label_weights_combiner]. rewrite zero_table. reflexivity.
    - intros a l x IH lw H. apply Forall2_app_inv_l in H. destruct H as (l1 & l2 & H1 & H2 & ->).
      inversion H2 as [|? [label w] ? ? H3 H4]; subst. inversion H4; subst.
      cbn [c_add label_weights_combiner]. rewrite (IH _ H1). unfold totals. rewrite forallb_app. cbn [forallb fst].
      rewrite andb_true_r. destruct (forallb _ l1); cbn [bind andb]; [|reflexivity].
      unfold label_weights_add. apply labelled_yields in H3. destruct H3 as (pred & H3). rewrite H3. cbn [fst snd bind foldM].
      rewrite label_weights_of_spec. destruct (covers ids label); cbn [bind]; [|reflexivity].
      f_equal. apply table_ext. intros c _. rewrite class_total_app. unfold class_total at 3. cbn [map fst snd].
      change (qsum (?x :: [])) with (x + 0)%Qc. ring.
    - intros a l ps Ha Hps lw H. apply Forall2_app_inv_l in H. destruct H as (l1 & l2 & H1 & H2 & ->).
      cbn [c_merge label_weights_combiner]. rewrite (Ha _ H1). clear a Ha l H1. revert l1 l2 H2.
      induction Hps as [|[b k] ps Hb Hps IH]; intros l1 l2 H2; cbn [map fold_left fst snd concat] in *.
      + inversion H2; subst. rewrite app_nil_r. reflexivity.
      + apply Forall2_app_inv_l in H2. destruct H2 as (l3 & l4 & H3 & H4 & ->). rewrite (Hb _ H3), merge_totals.
        rewrite app_assoc. apply IH. exact H4.
  Qed.

  (** The share of class c in a list of (label, weight). *)
  Definition share (lw : list (list Qc * Qc)) (c : Z) : Qc :=
    if Qc_eqb (qsum (map (class_total lw) ids)) 0%Qc then 0%Qc
    else (class_total lw c / qsum (map (class_total lw) ids))%Qc.

  Lemma outcome_shares s lw : Forall2 labelled (inputs s) lw ->
    outcome (label_weights_combiner ap ids lk pk model output weighted) s
    = if forallb (fun p => covers ids (fst p)) lw then Ok (table (share lw)) else Err ValueError.
  Proof.
    intros H. unfold outcome. rewrite (run_totals s lw H). unfold totals. cbn [c_extract label_weights_combiner].
    destruct (forallb _ lw); cbn [bind]; [|reflexivity]. unfold label_weights_extract. cbv zeta. rewrite !map_map.
    cbn [fst snd]. reflexivity.
  Qed.

End Shares.

Lemma C48_class_weights_are_label_shares_pf :
  forall ap ids lk pk model output weighted s lw,
    NoDup ids -> (forall c, In c ids -> (0 <= c)%Z) ->
    Forall2 (labelled model output weighted) (inputs s) lw ->
    outcome (label_weights_combiner ap ids lk pk model output weighted) s
    = if forallb (fun p => covers ids (fst p)) lw then Ok (map (fun c => (c, share ids lw c)) ids) else Err ValueError.
Proof. intros ap ids lk pk model output weighted s lw N P H. apply outcome_shares; assumption. Qed.

Lemma C48_class_weights_sum_to_1_pf :
  forall ap ids lk pk model output weighted s lw r,
    NoDup ids -> (forall c, In c ids -> (0 <= c)%Z) ->
    Forall2 (labelled model output weighted) (inputs s) lw ->
    (forall p, In p lw -> (0 <= snd p)%Qc /\ forall l, In l (fst p) -> (0 <= l)%Qc) ->
    outcome (label_weights_combiner ap ids lk pk model output weighted) s = Ok r ->
    map fst r = ids /\ (forall c x, In (c, x) r -> (0 <= x)%Qc /\ (x <= 1)%Qc) /\
    (qsum (map snd r) = 1%Qc \/ forall c x, In (c, x) r -> x = 0%Qc).
Proof.
  intros ap ids lk pk model output weighted s lw r N P H NN E.
  rewrite (outcome_shares ap ids lk pk model output weighted N P s lw H) in E.
  destruct (forallb _ lw); [|discriminate]. injection E as <-.
  assert (T : forall c, (0 <= class_total lw c)%Qc).
  { intros c. apply qsum_nonneg. intros x X. apply in_map_iff in X. destruct X as ([l w] & <- & I). destruct (NN _ I) as (W & L).
    cbn [fst snd] in *. apply Qcmult_nonneg; [|exact W]. unfold positive.
    assert (G : (0 <= nth (Z.to_nat c) l 0)%Qc).
    { destruct (nth_in_or_default (Z.to_nat c) l 0%Qc) as [G|G]; [apply L; exact G|rewrite G; qc_lra]. }
    destruct l as [|x [|y l]]; [exact G| |exact G]. destruct (Qc_eqb x (qz c)); qc_lra. }
  split; [rewrite map_map; apply map_id|]. unfold share.
  destruct (Qc_eqb (qsum (map (class_total lw) ids)) 0%Qc) eqn:Z.
  - split; [|right]; intros c x I; apply in_map_iff in I; destruct I as (d & [= <- <-] & _); [split; qc_lra|reflexivity].
  - apply Qc_eqb_neq in Z. assert (S0 : (0 <= qsum (map (class_total lw) ids))%Qc).
    { apply qsum_nonneg. intros x X. apply in_map_iff in X. destruct X as (c & <- & _). apply T. }
    assert (Sp : (0 < qsum (map (class_total lw) ids))%Qc).
    { destruct (Qcle_lt_or_eq _ _ S0) as [G|G]; [exact G|congruence]. }
    split.
    + intros c x I. apply in_map_iff in I. destruct I as (d & [= <- <-] & I). split; [apply Qcdiv_nonneg; auto|].
      apply Qcdiv_le_1; [apply T| |exact Sp]. clear Z S0 Sp NN H N P. induction ids as [|e l IH]; [destruct I|]. cbn [map].
      change (qsum (?x :: ?y)) with (x + qsum y)%Qc.
      assert (G : (0 <= qsum (map (class_total lw) l))%Qc).
      { apply qsum_nonneg. intros y X. apply in_map_iff in X. destruct X as (c' & <- & _). apply T. }
      assert (Te := T e). destruct I as [->|I]; [qc_lra|]. assert (X := IH I). qc_lra.
    + left. rewrite map_map. cbn [snd]. unfold Qcdiv.
      transitivity (/ qsum (map (class_total lw) ids) * qsum (map (class_total lw) ids))%Qc.
      * rewrite <- qsum_map_scale. f_equal. apply map_ext. intros c. ring.
      * field. exact Z.
Qed.

(** The same label as a class id and as a vector with a single 1 (of at least two classes). *)

Definition one_hot_of (n : nat) (c : Z) : list Qc :=
  map (fun i => if Z.eqb (Z.of_nat i) c then 1%Qc else 0%Qc) (seq 0 n).

Definition same_class (n : nat) (a b : list Qc * Qc) : Prop :=
  snd a = snd b /\ exists c, (0 <= c)%Z /\ (c < Z.of_nat n)%Z /\ fst a = [qz c] /\ fst b = one_hot_of n c.

Lemma C101_label_encoding_does_not_matter_pf :
  forall ap ids lk pk model output weighted n s1 s2 lw1 lw2,
    NoDup ids -> (forall c, In c ids -> (0 <= c)%Z /\ (c < Z.of_nat n)%Z) -> 2 <= n ->
    Forall2 (labelled model output weighted) (inputs s1) lw1 ->
    Forall2 (labelled model output weighted) (inputs s2) lw2 ->
    Forall2 (same_class n) lw1 lw2 ->
    outcome (label_weights_combiner ap ids lk pk model output weighted) s1
    = outcome (label_weights_combiner ap ids lk pk model output weighted) s2
    /\ is_ok (outcome (label_weights_combiner ap ids lk pk model output weighted) s1) = true.
Proof.
  intros ap ids lk pk model output weighted n s1 s2 lw1 lw2 N R LN H1 H2 SC.
  assert (P : forall c, In c ids -> (0 <= c)%Z) by (intros c I; apply R, I).
  rewrite (outcome_shares ap ids lk pk model output weighted N P s1 lw1 H1).
  rewrite (outcome_shares ap ids lk pk model output weighted N P s2 lw2 H2).
  assert (LO : forall c, length (one_hot_of n c) = n) by (intros c; unfold one_hot_of; rewrite map_length, seq_length; reflexivity).
  assert (C1 : forallb (fun p => covers ids (fst p)) lw1 = true).
  { apply forallb_forall. intros p I. clear - SC I. induction SC as [|a b l1 l2 (_ & c & _ & _ & F & _) SC IH]; [destruct I|].
    destruct I as [<-|I]; [|apply IH; exact I]. rewrite F. reflexivity. }
  assert (C2 : forallb (fun p => covers ids (fst p)) lw2 = true).
  { apply forallb_forall. intros p I. clear - SC I LO R. induction SC as [|a b l1 l2 (_ & c & _ & _ & _ & F) SC IH]; [destruct I|].
    destruct I as [<-|I]; [|apply IH; exact I]. rewrite F. unfold covers. rewrite LO. apply orb_true_iff. right.
    apply forallb_forall. intros d D. apply Z.ltb_lt, R, D. }
  rewrite C1, C2. split; [|reflexivity]. f_equal. apply map_ext_in. intros c I.
  assert (T : forall c, In c ids -> class_total lw1 c = class_total lw2 c).
  { clear - SC R LN. intros c I. destruct (R c I) as (P & L). unfold class_total.
    induction SC as [|a b l1 l2 (W & d & D0 & Dn & F1 & F2) SC IH]; [reflexivity|]. cbn [map].
    change (qsum (?x :: ?y)) with (x + qsum y)%Qc. rewrite IH, W. f_equal. f_equal. rewrite F1, F2.
    assert (G : nth (Z.to_nat c) (one_hot_of n d) 0%Qc = if Z.eqb c d then 1%Qc else 0%Qc).
    { unfold one_hot_of. rewrite (nth_indep _ 0%Qc (if Z.eqb (Z.of_nat 0) d then 1%Qc else 0%Qc)) by (rewrite map_length, seq_length; lia).
      rewrite (map_nth (fun i => if Z.eqb (Z.of_nat i) d then 1%Qc else 0%Qc)). rewrite seq_nth by lia. cbn [Nat.add].
      rewrite Z2Nat.id by exact P. reflexivity. }
    assert (E : positive (one_hot_of n d) c = nth (Z.to_nat c) (one_hot_of n d) 0%Qc).
    { unfold one_hot_of. destruct n as [|[|n]]; [lia|lia|]. reflexivity. }
    rewrite E, G. unfold positive. destruct (Z.eqb c d) eqn:X.
    - apply Z.eqb_eq in X. subst. rewrite Qc_eqb_refl. reflexivity.
    - apply Z.eqb_neq in X. replace (Qc_eqb (qz d) (qz c)) with false; [reflexivity|]. symmetry. apply Qc_eqb_neq.
      intros Y. apply X. symmetry. apply qz_inj. exact Y. }
  unfold share. rewrite (T c I). replace (map (class_total lw1) ids) with (map (class_total lw2) ids); [reflexivity|].
  apply map_ext_in. intros d D. symmetry. apply T, D.
Qed.

Definition label_entry (k : metric_key) : Prop := k_name k = "_class_weights_from_labels" /\ k_sub k = None.

Definition public (n : string) : Prop := forall r, n <> String "_" r.

(** What a slice knows while averages are taken: a number under every key but the weights of
    classes, and a value for every base computation. *)

Definition good (cs : list (computation body)) (m : adict) : Prop :=
  (forall k v, dget metric_key_eqb m k = Some v ->
     (label_entry k -> exists w, v = AWeights w) /\ (~ label_entry k -> exists x, v = ANum x)) /\
  (forall c k, In c cs -> is_base c = true -> In k (cp_keys c) -> dget metric_key_eqb m k <> None).

Definition base_well (c : computation body) : Prop :=
  exists k cls, cp_keys c = [k] /\ cp_kind c = Combine cls [] /\
    ((cp_body c = OwnMetric /\ ~ label_entry k) \/ (exists ids, cp_body c = LabelWeights ids /\ label_entry k)).

Definition derived_well (cs : list (computation body)) (c : computation body) : Prop :=
  exists k f, cp_keys c = [k] /\ cp_kind c = Derive /\ cp_body c = Average f /\ ~ label_entry k /\
    forall m, good cs m -> exists x, f m = Ok [(k, ANum x)].

Definition sensible (value : computation body -> avalue) : Prop :=
  forall c, match cp_body c with
            | OwnMetric => exists x, value c = ANum x
            | LabelWeights _ => exists w, value c = AWeights w
            | Average _ => True
            end.

Lemma single_id (c : computation body) k : cp_keys c = [k] -> exists i, comp_id c = Ok i /\ ci_keys i = [k].
Proof.
  intros E. unfold comp_id. destruct (cp_kind c); unfold metric_computation_id, derived_computation_id; rewrite E;
    cbn [sorted bind]; eexists; split; reflexivity.
Qed.

Lemma dget_dupdate_set (d e : adict) k v :
  dget metric_key_eqb (dupdate metric_key_eqb d e) k = Some v ->
  dget metric_key_eqb d k = Some v \/ In (k, v) e.
Proof.
  unfold dupdate. revert d. induction e as [|[k1 v1] e IH]; intros d H; cbn [fold_left fst snd] in H; [auto|].
  destruct (IH _ H) as [G|G]; [|right; right; exact G]. rewrite (dget_dset _ metric_key_eqb_eq) in G.
  destruct (metric_key_eqb k k1) eqn:E; [|auto]. apply metric_key_eqb_eq in E. injection G as <-. subst. right. left. reflexivity.
Qed.

Lemma dget_dupdate_keep (d e : adict) k :
  dget metric_key_eqb d k <> None \/ In k (map fst e) -> dget metric_key_eqb (dupdate metric_key_eqb d e) k <> None.
Proof.
  unfold dupdate. revert d. induction e as [|[k1 v1] e IH]; intros d H; cbn [fold_left fst snd map In] in *; [tauto|].
  apply IH. rewrite (dget_dset _ metric_key_eqb_eq). destruct (metric_key_eqb k k1) eqn:E; [left; discriminate|].
  destruct H as [H|[H|H]]; auto. subst. rewrite (proj2 (metric_key_eqb_eq k k) eq_refl) in E. discriminate.
Qed.

Lemma evaluate_good value cs :
  sensible value -> (forall c, In c cs -> base_well c \/ derived_well cs c) ->
  exists m, evaluate value cs = Ok m /\ good cs m /\
    (forall c k, In c cs -> In k (cp_keys c) -> dget metric_key_eqb m k <> None) /\
    (forall k, dget metric_key_eqb m k <> None -> exists c, In c cs /\ In k (cp_keys c)).
Proof.
  intros SV W.
  assert (KK : forall c, In c cs -> exists k, cp_keys c = [k]).
  { intros c I. destruct (W c I) as [(k & ? & E & _)|(k & ? & E & _)]; exists k; exact E. }
  destruct (separate_total cs) as (sep & E).
  { intros c I. destruct (KK c I) as (k & E). destruct (single_id c k E) as (i & F & _). exists i. exact F. }
  unfold evaluate. rewrite E. cbn [bind]. unfold filter_and_separate_computations in E. apply separate_spec in E.
  destruct E as (ids & M & SS & EB & ED & _ & _). cbn [sp_base sp_derived map app] in EB, ED.
  assert (ID := with_ids cs ids M).
  assert (INC : forall ic, In ic ids -> In (snd ic) cs) by (intros ic I; rewrite <- SS; apply in_map; exact I).
  (* a computation of cs and the kept one of the same id have the same key *)
  assert (SAME : forall i c d k, In (i, c) ids -> In (i, d) ids -> In k (cp_keys c) -> In k (cp_keys d)).
  { intros i c d k I1 I2 K. destruct (KK c (INC _ I1)) as (k1 & E1). destruct (KK d (INC _ I2)) as (k2 & E2).
    destruct (single_id c k1 E1) as (i1 & F1 & G1). destruct (single_id d k2 E2) as (i2 & F2 & G2).
    assert (X1 := ID _ I1). assert (X2 := ID _ I2). cbn [fst snd] in X1, X2. rewrite F1 in X1. rewrite F2 in X2.
    injection X1 as ->. injection X2 as ->. rewrite G1 in G2. rewrite E1 in K. rewrite E2. rewrite <- G2. exact K. }
  assert (KEPT : forall p c k, In c cs -> p c = true -> In k (cp_keys c) ->
    exists ic, In ic (firsts [] (filter (fun ic => p (snd ic)) ids)) /\ In k (cp_keys (snd ic))).
  { intros p c k I P K. rewrite <- SS in I. apply in_map_iff in I. destruct I as ([i c'] & F & I). cbn [snd] in F. subst c'.
    destruct (firsts_covers [] (filter (fun ic => p (snd ic)) ids) (i, c)) as [[]|(d & D)]; [apply filter_In; auto|].
    cbn [fst] in D. exists (i, d). split; [exact D|]. cbn [snd]. apply firsts_In, filter_In in D. destruct D as [D _].
    apply (SAME i c d k I D K). }
  rewrite EB, ED. clear EB ED sep. set (FB := firsts [] (filter (fun ic => is_base (snd ic)) ids)) in *.
  set (FD := firsts [] (filter (fun ic => is_derived (snd ic)) ids)) in *.
  assert (HB : forall ic, In ic FB -> base_well (snd ic) /\ In (snd ic) cs).
  { intros ic I. apply firsts_In, filter_In in I. destruct I as [I P]. split; [|apply INC, I]. destruct (W _ (INC _ I)) as [G|G]; [exact G|].
    destruct G as (k & f & _ & K & _). unfold is_base in P. rewrite K in P. discriminate. }
  assert (HD : forall ic, In ic FD -> derived_well cs (snd ic) /\ In (snd ic) cs).
  { intros ic I. apply firsts_In, filter_In in I. destruct I as [I P]. split; [|apply INC, I]. destruct (W _ (INC _ I)) as [G|G]; [|exact G].
    destruct G as (k & cls & _ & K & _). unfold is_derived in P. rewrite K in P. discriminate. }
  assert (KB := KEPT is_base). assert (KD := KEPT is_derived). fold FB in KB. fold FD in KD. clear KEPT. clearbody FB FD.
  set (sofar := fun m : adict => forall k v, dget metric_key_eqb m k = Some v ->
     ((label_entry k -> exists w, v = AWeights w) /\ (~ label_entry k -> exists x, v = ANum x)) /\ exists c, In c cs /\ In k (cp_keys c)).
  (* base *)
  set (step := fun (m : adict) (ic : computation_id * computation body) =>
      dupdate metric_key_eqb m (map (fun k => (k, value (snd ic))) (cp_keys (snd ic)))).
  assert (B : forall l m, incl l FB -> sofar m -> sofar (fold_left step l m) /\
    (forall k, dget metric_key_eqb m k <> None -> dget metric_key_eqb (fold_left step l m) k <> None) /\
    (forall ic k, In ic l -> In k (cp_keys (snd ic)) -> dget metric_key_eqb (fold_left step l m) k <> None)).
  { induction l as [|ic l IH]; intros m I Sm; cbn [fold_left]; [split; [exact Sm|split; [auto|intros ? ? []]]|].
    assert (Sm' : sofar (step m ic)).
    { intros k v H. unfold step in H. apply dget_dupdate_set in H. destruct H as [H|H]; [apply Sm, H|].
      apply in_map_iff in H. destruct H as (k' & [= <- <-] & K). destruct (HB ic (I ic (or_introl eq_refl))) as ((k0 & cls & K0 & _ & BW) & C).
      split; [|exists (snd ic); auto]. rewrite K0 in K. destruct K as [<-|[]]. assert (SVc := SV (snd ic)).
      destruct BW as [[BW L]|(is & BW & L)]; rewrite BW in SVc; destruct SVc as (x & ->); split; try contradiction; intros _; exists x; reflexivity. }
    destruct (IH (step m ic)) as (S1 & S2 & S3); [intros x X; apply I; right; exact X|exact Sm'|]. split; [exact S1|]. split.
    - intros k H. apply S2. unfold step. apply dget_dupdate_keep. auto.
    - intros jc k [<-|J] K; [|apply (S3 jc); assumption]. apply S2. unfold step. apply dget_dupdate_keep. right.
      rewrite map_map. cbn [fst]. rewrite map_id. exact K. }
  destruct (B FB [] (incl_refl _)) as (B1 & _ & B3); [intros k v H; discriminate|].
  match goal with |- context [foldM _ FD ?X] => change X with (fold_left step FB []) end.
  set (m0 := fold_left step FB []) in *. clearbody m0. clear B step.
  assert (M0 : forall c k, In c cs -> is_base c = true -> In k (cp_keys c) -> dget metric_key_eqb m0 k <> None).
  { intros c k I P K. destruct (KB c k I P K) as (ic & J & K'). apply (B3 ic k J K'). }
  clear B3 KB HB.
  assert (D : forall l m, incl l FD -> sofar m -> (forall c k, In c cs -> is_base c = true -> In k (cp_keys c) -> dget metric_key_eqb m k <> None) ->
    exists m', foldM (fun m ic => match cp_body (snd ic) with Average f => let! d := f m in Ok (dupdate metric_key_eqb m d) | _ => Ok m end) l m = Ok m' /\
      sofar m' /\ (forall k, dget metric_key_eqb m k <> None -> dget metric_key_eqb m' k <> None) /\
      (forall ic k, In ic l -> In k (cp_keys (snd ic)) -> dget metric_key_eqb m' k <> None)).
  { induction l as [|ic l IH]; intros m I Sm Bm; cbn [foldM]; [exists m; split; [reflexivity|split; [exact Sm|split; [auto|intros ? ? []]]]|].
    destruct (HD ic (I ic (or_introl eq_refl))) as ((k & f & K & KD' & BD & NL & F) & C). rewrite BD.
    destruct (F m) as (x & Fx); [split; [intros k' v H; apply (Sm k' v H)|exact Bm]|]. rewrite Fx. cbn [bind].
    destruct (IH (dupdate metric_key_eqb m [(k, ANum x)])) as (m' & E & S1 & S2 & S3).
    - intros y Y. apply I. right. exact Y.
    - intros k' v H. apply dget_dupdate_set in H. destruct H as [H|[H|[]]]; [apply Sm, H|]. injection H as <- <-.
      split; [split; [intros L; contradiction|intros _; exists x; reflexivity]|]. exists (snd ic). split; [exact C|]. rewrite K. left. reflexivity.
    - intros c k' I1 P K1. apply dget_dupdate_keep. left. apply (Bm c); assumption.
    - exists m'. split; [exact E|]. split; [exact S1|]. split.
      + intros k' H. apply S2, dget_dupdate_keep. auto.
      + intros jc k' [<-|J] K'; [|apply (S3 jc); assumption]. apply S2, dget_dupdate_keep. right. rewrite K in K'. destruct K' as [<-|[]]. left. reflexivity. }
  destruct (D FD m0 (incl_refl _) B1 M0) as (m & E & S1 & S2 & S3). exists m. split; [exact E|]. split; [|split].
  - split; [intros k v H; apply (S1 k v H)|]. intros c k I P K. apply S2, (M0 c); assumption.
  - intros c k I K. destruct (is_base c) eqn:P; [apply S2, (M0 c); assumption|].
    destruct (KD c k I) as (ic & J & K'); [|exact K|apply (S3 ic); assumption].
    destruct (W c I) as [(? & ? & _ & Q & _)|(? & ? & _ & Q & _)]; unfold is_base, is_derived in *; rewrite Q in *; [discriminate|reflexivity].
  - intros k H. destruct (dget metric_key_eqb m k) as [v|] eqn:E'; [|contradiction]. apply (S1 k v E').
Qed.

Lemma mapM_from {A B} (f : A -> res B) l : forall ys, mapM f l = Ok ys -> forall y, In y ys -> exists x, In x l /\ f x = Ok y.
Proof.
  induction l as [|x l IH]; intros ys E y I; cbn [mapM] in E; [injection E as <-; destruct I|].
  destruct (f x) as [y0|] eqn:F; [|discriminate]. cbn [bind] in E. destruct (mapM f l) as [t|]; [|discriminate]. injection E as <-.
  destruct I as [<-|I]; [exists x; split; [left; reflexivity|exact F]|]. destruct (IH t eq_refl y I) as (z & Z & G). exists z. split; [right; exact Z|exact G].
Qed.

Lemma mapM_to {A B} (f : A -> res B) l : forall ys, mapM f l = Ok ys -> forall x, In x l -> exists y, f x = Ok y /\ In y ys.
Proof.
  induction l as [|x l IH]; intros ys E z I; cbn [mapM] in E; [destruct I|].
  destruct (f x) as [y0|] eqn:F; [|discriminate]. cbn [bind] in E. destruct (mapM f l) as [t|]; [|discriminate]. injection E as <-.
  destruct I as [<-|I]; [exists y0; split; [exact F|left; reflexivity]|]. destruct (IH t eq_refl z I) as (y & G & Z). exists y. split; [exact G|right; exact Z].
Qed.

Lemma bind_ok {A B} (r : res A) (f : A -> res B) y : bind r f = Ok y -> exists x, r = Ok x /\ f x = Ok y.
Proof. destruct r as [x|]; cbn [bind]; intros H; [exists x; auto|discriminate]. Qed.

Lemma opt_agg_eqb_eq a b : opt_agg_eqb a b = true <-> a = b.
Proof. unfold opt_agg_eqb. apply (option_eqb_eq _ agg_eqb_eq). Qed.

Definition known_type (t : option agg_type) : Prop :=
  t = None \/ t = Some (AggType (Some true) None None) \/ t = Some (AggType None (Some true) None) \/
  t = Some (AggType None None (Some true)).

Lemma dset_In_pair {K V} (eqb : K -> K -> bool) (d : list (K * V)) k v x : In x (dset eqb d k v) -> In x d \/ snd x = v.
Proof.
  induction d as [|[k1 v1] d IH]; cbn [dset]; [intros [<-|[]]; auto|]. destruct (eqb k k1); cbn [In]; intros [<-|H]; auto.
  destruct (IH H); auto.
Qed.

Lemma group_types s groups : create_sub_keys s = Ok groups ->
  forall agg sks, In (agg, sks) groups -> known_type agg /\
    (agg = None \/ exists a, ms_aggregate s = Some a /\ agg = aggregation_type a).
Proof.
  unfold create_sub_keys. intros E agg sks I. apply bind_ok in E. destruct E as (r1 & E1 & E). apply bind_ok in E. destruct E as (r2 & E2 & E).
  injection E as <-.
  assert (R1 : forall x, In x r1 -> fst x = None).
  { destruct (ms_binarize s) as [b|]; [|injection E1 as <-; intros ? []].
    apply bind_ok in E1. destruct E1 as (? & _ & E1). apply bind_ok in E1. destruct E1 as (? & _ & E1). apply bind_ok in E1. destruct E1 as (? & _ & E1).
    injection E1 as <-. destruct (_ ++ _ ++ _); [intros ? []|]. intros y [<-|[]]. reflexivity. }
  assert (KT : forall a, known_type (aggregation_type a)).
  { intros a. unfold known_type, aggregation_type. destruct (a_type a) as [[[| |] []]|]; auto. }
  assert (R2 : In (agg, sks) r2 -> known_type agg /\ (agg = None \/ exists a, ms_aggregate s = Some a /\ agg = aggregation_type a)).
  { destruct (ms_aggregate s) as [a|].
    - apply bind_ok in E2. destruct E2 as (ts & _ & E2). injection E2 as <-. intros J.
      assert (K : In agg (map fst (dset opt_agg_eqb r1 (aggregation_type a) (match ts with [] => [None] | _ => ts end)))) by exact (in_map fst _ _ J).
      apply (dset_keys_In _ opt_agg_eqb_eq) in K. destruct K as [->|K]; [split; [apply KT|right; exists a; auto]|].
      apply in_map_iff in K. destruct K as (x & <- & K). rewrite (R1 x K). split; [left|left]; reflexivity.
    - injection E2 as <-. intros J. assert (X := R1 _ J). cbn [fst] in X. subst. split; left; reflexivity. }
  destruct r2 as [|r2h r2t]; [|exact (R2 I)]. destruct I as [I|[]]. injection I as <- <-. split; left; reflexivity.
Qed.

Section Plan.
  Context (default : bool).

  Definition at_place (s : metrics_spec) (n m o : string) (w : bool) : Prop :=
    In n (ms_metrics s) /\ In m (or_blank (ms_models s)) /\ In o (or_blank (ms_outputs s)) /\ In w (example_weight_options default s).
  Definition own (n m o : string) (sk : option sub_key) (agg : option agg_type) (w : bool) : computation body :=
    Computation (Combine n []) [plain_key n m o sk agg w] OwnMetric.

  Lemma own_In n models outputs sks agg w c :
    In c (own_computations n models outputs sks agg w) <->
    exists m o sk, In m models /\ In o outputs /\ In sk sks /\ c = own n m o sk agg w.
  Proof.
    unfold own_computations, own. split.
    - intros H. apply in_flat_map in H. destruct H as (m & M & H). apply in_flat_map in H. destruct H as (o & O & H).
      apply in_map_iff in H. destruct H as (sk & <- & K). exists m, o, sk. auto.
    - intros (m & o & sk & M & O & K & ->). apply in_flat_map. exists m. split; [exact M|]. apply in_flat_map. exists o. split; [exact O|].
      apply in_map_iff. exists sk. auto.
  Qed.

  Lemma tfma_spec n s cs : tfma_computations default n s = Ok cs ->
    exists groups, create_sub_keys s = Ok groups /\
    (forall c, In c cs -> exists n' m o sk agg w, c = own n' m o sk agg w /\ known_type agg /\ is_macro agg = false /\ (n' = n \/ exists t, sk = Some t)) /\
    (forall m o w, In m (or_blank (ms_models s)) -> In o (or_blank (ms_outputs s)) -> In w (example_weight_options default s) ->
      (forall agg sks sk, In (agg, sks) groups -> In sk sks -> is_macro agg = false -> In (own n m o sk agg w) cs) /\
      (forall agg sks sk cw l c, In (agg, sks) groups -> In sk sks -> is_macro agg = true -> spec_class_weights s = Ok cw ->
         macro_average_sub_keys sk cw = Ok l -> In c l ->
         In (own n m o (Some c) None w) cs \/ In (own (private_name n) m o (Some c) None w) cs)).
  Proof.
    intros E. unfold tfma_computations in E. apply bind_ok in E. destruct E as (groups & G & E). apply bind_ok in E. destruct E as (ls & M & E).
    injection E as <-. exists groups. split; [exact G|].
    assert (GT := group_types s groups G). set (shared := match dget opt_agg_eqb groups None with Some l => l | None => [] end) in *.
    split.
    - intros c C. apply in_concat in C. destruct C as (l & L & C). destruct (mapM_from _ _ _ M l L) as ([agg sks] & I & F).
      cbv beta iota in F. apply bind_ok in F. destruct F as (cw & _ & F). destruct (is_macro agg) eqn:IM.
      + apply bind_ok in F. destruct F as (css & _ & F). destruct (filter _ (concat css)) as [|c0 cs0]; injection F as <-; [destruct C|].
        apply in_flat_map in C. destruct C as (w & W & C). apply own_In in C. destruct C as (m & o & sk & Mm & O & K & ->).
        change (In sk (map Some (c0 :: cs0))) in K. apply in_map_iff in K. destruct K as (t & <- & _). exists (private_name n), m, o, (Some t), None, w.
        split; [reflexivity|]. split; [left; reflexivity|]. split; [reflexivity|]. right. exists t. reflexivity.
      + injection F as <-. apply in_flat_map in C. destruct C as (w & W & C). apply own_In in C. destruct C as (m & o & sk & Mm & O & K & ->).
        exists n, m, o, sk, agg, w. split; [reflexivity|]. split; [apply (GT _ _ I)|]. split; [exact IM|left; reflexivity].
    - intros m o w Mm O W.
      assert (A : forall agg sks sk, In (agg, sks) groups -> In sk sks -> is_macro agg = false -> In (own n m o sk agg w) (concat ls)).
      { intros agg sks sk I K IM. destruct (mapM_to _ _ _ M (agg, sks) I) as (l & F & L). cbv beta iota in F.
        apply bind_ok in F. destruct F as (cw & _ & F). rewrite IM in F. injection F as <-. apply in_concat. eexists. split; [exact L|].
        apply in_flat_map. exists w. split; [exact W|]. apply own_In. exists m, o, sk. auto. }
      split; [exact A|]. intros agg sks sk cw l c I K IM CW ML C.
      destruct (sub_key_in c shared) eqn:SH.
      + left. unfold sub_key_in in SH. apply existsb_exists in SH. destruct SH as (t & T & EQ). apply (option_eqb_eq _ sub_key_eqb_eq) in EQ. subst t.
        unfold shared in T. destruct (dget opt_agg_eqb groups None) as [sh|] eqn:DG; [|destruct T]. apply (dget_In _ opt_agg_eqb_eq) in DG.
        apply (A None sh); auto.
      + right. destruct (mapM_to _ _ _ M (agg, sks) I) as (l' & F & L). cbv beta iota in F.
        apply bind_ok in F. destruct F as (cw' & CW' & F). rewrite IM in F.
        assert (cw' = cw) by (destruct agg; [congruence|discriminate]). subst cw'.
        apply bind_ok in F. destruct F as (css & MC & F). destruct (mapM_to _ _ _ MC sk K) as (l0 & ML' & L0).
        assert (l0 = l) by congruence. subst l0.
        assert (CF : In c (filter (fun c => negb (sub_key_in c shared)) (concat css))).
        { apply filter_In. split; [apply in_concat; exists l; auto|rewrite SH; reflexivity]. }
        destruct (filter _ (concat css)) as [|c0 cs0]; [destruct CF|]. injection F as <-. apply in_concat. eexists. split; [exact L|].
        apply in_flat_map. exists w. split; [exact W|]. apply own_In. exists m, o, (Some c). split; [exact Mm|]. split; [exact O|].
        split; [|reflexivity]. exact (in_map Some _ _ CF).
  Qed.

  (** The three kinds of averages. *)
  Definition macro_computation (n m o : string) (l : list sub_key) (sk : option sub_key) (w : bool) (cw : list (Z * Qc)) : computation body :=
    Computation Derive [macro_key n m o sk w] (Average (macro_average n m o l sk w (Some cw))).
  Definition weighted_computation (n m o : string) (l : list sub_key) (sk : option sub_key) (w : bool) (cw : list (Z * Qc)) : computation body :=
    Computation Derive [macro_key n m o sk w] (Average (weighted_macro_average n m o l sk w (Some cw))).
  Definition label_computation (m o : string) (l : list sub_key) (w : bool) : computation body :=
    Computation (Combine "_ClassWeightsFromLabelsCombiner" []) [label_weights_key m o w] (LabelWeights (class_ids_of l)).
  Definition output_computation (n m : string) (sk : option sub_key) (w : bool) (ow : list (string * Qc)) : computation body :=
    Computation Derive [output_average_key n m sk w] (Average (output_average n m ow sk w)).

  Definition same_weights (cw : option (list (Z * Qc))) (l : list (Z * Qc)) : Prop := l = match cw with Some x => x | None => [] end.

  Lemma sub_keys_same sk cw l : same_weights cw l -> macro_average_sub_keys sk (Some l) = macro_average_sub_keys sk cw.
  Proof. intros ->. unfold macro_average_sub_keys. destruct sk; [reflexivity|]. destruct cw as [[|? ?]|]; reflexivity. Qed.

  Lemma average_spec s cs : average_computations default s = Ok cs ->
    exists groups, (example_weight_options default s <> [] -> create_sub_keys s = Ok groups) /\
    (forall c, In c cs -> exists n m sk w agg sks, In n (ms_metrics s) /\ In m (or_blank (ms_models s)) /\ In w (example_weight_options default s) /\
      In (agg, sks) groups /\ In sk sks /\
      ((exists o cw wl l, is_macro agg = true /\ In o (or_blank (ms_outputs s)) /\ spec_class_weights s = Ok cw /\ same_weights cw wl /\ macro_average_sub_keys sk cw = Ok l /\
          (c = macro_computation n m o l sk w wl \/ c = label_computation m o l w \/
           (c = weighted_computation n m o l sk w wl /\ In (label_computation m o l w) cs))) \/
       (ms_output_weights s <> [] /\ (forall o, In o (map fst (ms_output_weights s)) -> In o (or_blank (ms_outputs s))) /\
        c = output_computation n m sk w (ms_output_weights s)))) /\
    (forall n m o w agg sks sk, at_place s n m o w -> In (agg, sks) groups -> In sk sks ->
      agg = Some macro_type -> exists l cw, In (macro_computation n m o l sk w cw) cs).
  Proof.
    intros E. unfold average_computations in E. apply bind_ok in E. destruct E as (ls & M & E). injection E as <-.
    destruct (example_weight_options default s) as [|w0 ws] eqn:EW.
    { exists []. injection M as <-. split; [congruence|]. split; [intros ? []|]. intros n m o w agg sks sk (_ & _ & _ & W) I. destruct I. }
    assert (GG : exists groups, create_sub_keys s = Ok groups).
    { cbn [mapM] in M. apply bind_ok in M. destruct M as (? & M & _). apply bind_ok in M. destruct M as (groups & G & _). exists groups. exact G. }
    destruct GG as (groups & G). exists groups. split; [intros _; exact G|]. rewrite <- EW in *. clear EW w0 ws. rewrite G in M. cbn [bind] in M. split.
    - intros c C. apply in_concat in C. destruct C as (lw & LW & C). destruct (mapM_from _ _ _ M lw LW) as (w & W & F).
      apply bind_ok in F. destruct F as (lg & MG & F). injection F as <-.
      apply in_concat in C. destruct C as (l1 & L1 & C). destruct (mapM_from _ _ _ MG l1 L1) as ([agg sks] & I & F). cbv beta iota in F.
      destruct (negb (forallb _ (ms_output_weights s))) eqn:OW; [discriminate|]. apply bind_ok in F. destruct F as (l2 & M2 & F). injection F as <-.
      apply in_concat in C. destruct C as (l3 & L3 & C). apply in_map_iff in L3. destruct L3 as (l4 & <- & L4).
      destruct (mapM_from _ _ _ M2 l4 L4) as (m & Mm & F). apply in_concat in C. destruct C as (l5 & L5 & C). apply in_map_iff in L5.
      destruct L5 as (l6 & <- & L6). destruct (mapM_from _ _ _ F l6 L6) as (sk & K & F2). apply in_concat in C. destruct C as (l7 & L7 & C).
      destruct (mapM_from _ _ _ F2 l7 L7) as (n & N & F3). apply bind_ok in F3. destruct F3 as (mac & F4 & F3). injection F3 as <-.
      exists n, m, sk, w, agg, sks. split; [exact N|]. split; [exact Mm|]. split; [exact W|]. split; [exact I|]. split; [exact K|].
      apply in_app_or in C. destruct C as [C|C].
      + left. destruct (is_macro agg) eqn:IM; [|injection F4 as <-; destruct C]. apply bind_ok in F4. destruct F4 as (cw & CW & F4).
        apply bind_ok in F4. destruct F4 as (lo & MO & F4). injection F4 as <-. apply in_concat in C. destruct C as (l8 & L8 & C).
        destruct (mapM_from _ _ _ MO l8 L8) as (o & O & F5). apply bind_ok in F5. destruct F5 as (l & ML & F5).
        set (wl := match cw with Some l => l | None => [] end) in *. exists o, cw, wl, l.
        split; [reflexivity|]. split; [exact O|]. split; [exact CW|]. split; [reflexivity|].
        split; [rewrite <- (sub_keys_same sk cw wl eq_refl); exact ML|].
        injection F5 as F5. rewrite <- F5 in C. destruct (match agg with Some a => truthy (ag_macro a) | None => false end).
        * destruct C as [<-|[]]. left. reflexivity.
        * destruct C as [<-|[<-|[]]]; [right; left; reflexivity|]. right. right. split; [reflexivity|].
          apply in_concat. exists (concat lg). split; [exact LW|]. apply in_concat. exists (concat (map (fun l => concat (map (fun l => concat l) l)) l2)). split; [exact L1|].
          apply in_concat. exists (concat (map (fun l => concat l) l4)). split; [exact (in_map (fun l => concat (map (fun l => concat l) l)) _ _ L4)|].
          apply in_concat. exists (concat l6). split; [exact (in_map (fun l => concat l) _ _ L6)|]. apply in_concat. eexists. split; [exact L7|].
          apply in_or_app. left. apply in_concat. exists l8. split; [exact L8|]. rewrite <- F5. left. reflexivity.
      + right. destruct (ms_output_weights s) as [|ow0 ows] eqn:OWE; [destruct C|]. destruct C as [<-|[]]. split; [discriminate|]. split; [|reflexivity].
        apply negb_false_iff in OW. rewrite forallb_forall in OW. intros o O. apply in_map_iff in O. destruct O as (x & <- & X).
        apply (memb_In _ String.eqb_eq). apply OW. exact X.
    - intros n m o w agg sks sk (N & Mm & O & W) I K ->.
      destruct (mapM_to _ _ _ M w W) as (lw & F & LW). apply bind_ok in F. destruct F as (lg & MG & F). injection F as <-.
      destruct (mapM_to _ _ _ MG _ I) as (l1 & F & L1). cbv beta iota in F. destruct (negb (forallb _ (ms_output_weights s))) eqn:OW; [discriminate|].
      apply bind_ok in F. destruct F as (l2 & M2 & F). injection F as <-. destruct (mapM_to _ _ _ M2 m Mm) as (l4 & F & L4).
      destruct (mapM_to _ _ _ F sk K) as (l6 & F2 & L6). destruct (mapM_to _ _ _ F2 n N) as (l7 & F3 & L7).
      apply bind_ok in F3. destruct F3 as (mac & F4 & F3). injection F3 as F3. change (is_macro (Some macro_type)) with true in F4. cbv iota in F4.
      apply bind_ok in F4. destruct F4 as (cw & CW & F4). apply bind_ok in F4. destruct F4 as (lo & MO & F4). injection F4 as <-.
      destruct (mapM_to _ _ _ MO o O) as (l8 & F5 & L8). apply bind_ok in F5. destruct F5 as (l & ML & F5). injection F5 as F5.
      exists l, (match cw with Some x => x | None => [] end).
      apply in_concat. exists (concat lg). split; [exact LW|]. apply in_concat. eexists. split; [exact L1|].
      apply in_concat. exists (concat (map (fun l => concat l) l4)). split; [exact (in_map (fun l => concat (map (fun l => concat l) l)) _ _ L4)|].
      apply in_concat. exists (concat l6). split; [exact (in_map (fun l => concat l) _ _ L6)|]. apply in_concat. exists l7. split; [exact L7|].
      rewrite <- F3. apply in_or_app. left. apply in_concat. exists l8. split; [exact L8|]. rewrite <- F5. left. reflexivity.
  Qed.

End Plan.

Lemma public_private n : public n -> private_name n = String "_" n.
Proof.
  intros P. unfold private_name. destruct (starts_with "_" n) eqn:E; [|reflexivity]. exfalso.
  unfold starts_with in E. destruct n as [|a n]; [discriminate|]. 
  destruct (Ascii.ascii_dec a "_"%char) as [->|A]; [exact (P n eq_refl)|]. revert E A. clear P.
  destruct a as [[] [] [] [] [] [] [] []]; cbn; intros E A; first [discriminate|apply A; reflexivity].
Qed.

Lemma average_total {S} (step : num * Qc -> S -> res (num * Qc)) l :
  (forall s t, In s l -> exists t', step t s = Ok t') -> forall t0, exists t', foldM step l t0 = Ok t'.
Proof.
  induction l as [|s l IH]; intros H t; cbn [foldM]; [exists t; reflexivity|].
  destruct (H s t (or_introl eq_refl)) as (t' & ->). cbn [bind]. apply IH. intros s' t2 I. apply H. right. exact I.
Qed.

(** A metrics spec whose output weights, if any, are not combined with an aggregation. *)

Definition no_clash (s : metrics_spec) : Prop :=
  ms_output_weights s = [] \/
  match ms_aggregate s with
  | None => True
  | Some a => match a_type a with Some (_, true) => False | _ => True end
  end.

Section Sound.
  Context (default : bool) (specs : list metrics_spec) (cs : list (computation body)).
  Hypothesis E : to_computations default specs = Ok cs.
  Hypothesis names : forall s n, In s specs -> In n (ms_metrics s) -> public n.
  Hypothesis clash : forall s, In s specs -> no_clash s.

  Lemma parts : exists ow av,
    mapM (fun s => let! ls := mapM (fun n => tfma_computations default n s) (ms_metrics s) in Ok (concat ls)) specs = Ok ow /\
    mapM (average_computations default) specs = Ok av /\ cs = concat ow ++ concat av.
  Proof.
    unfold to_computations in E. apply bind_ok in E. destruct E as (ow & H1 & H). apply bind_ok in H. destruct H as (av & H2 & H).
    injection H as <-. exists ow, av. auto.
  Qed.

  Lemma own_part s n : In s specs -> In n (ms_metrics s) -> exists l, tfma_computations default n s = Ok l /\ incl l cs.
  Proof.
    intros I N. destruct parts as (ow & av & H1 & H2 & ->). destruct (mapM_to _ _ _ H1 s I) as (l & F & L).
    apply bind_ok in F. destruct F as (ls & M & F). injection F as <-. destruct (mapM_to _ _ _ M n N) as (l1 & F & L1).
    exists l1. split; [exact F|]. intros c C. apply in_or_app. left. apply in_concat. exists (concat ls). split; [exact L|].
    apply in_concat. exists l1. auto.
  Qed.
  Lemma average_part s : In s specs -> exists l, average_computations default s = Ok l /\ incl l cs.
  Proof.
    intros I. destruct parts as (ow & av & H1 & H2 & ->). destruct (mapM_to _ _ _ H2 s I) as (l & F & L).
    exists l. split; [exact F|]. intros c C. apply in_or_app. right. apply in_concat. exists l. auto.
  Qed.
  Lemma from_parts c : In c cs -> exists s, In s specs /\
    ((exists n l, In n (ms_metrics s) /\ tfma_computations default n s = Ok l /\ In c l) \/
     (exists l, average_computations default s = Ok l /\ In c l)).
  Proof.
    destruct parts as (ow & av & H1 & H2 & ->). intros C. apply in_app_or in C. destruct C as [C|C]; apply in_concat in C; destruct C as (l & L & C).
    - destruct (mapM_from _ _ _ H1 l L) as (s & I & F). exists s. split; [exact I|]. left.
      apply bind_ok in F. destruct F as (ls & M & F). injection F as <-. apply in_concat in C. destruct C as (l1 & L1 & C).
      destruct (mapM_from _ _ _ M l1 L1) as (n & N & F). exists n, l1. auto.
    - destruct (mapM_from _ _ _ H2 l L) as (s & I & F). exists s. split; [exact I|]. right. exists l. auto.
  Qed.

  Lemma not_label n m o sk agg w : public n \/ (exists t, sk = Some t) -> ~ label_entry (plain_key n m o sk agg w).
  Proof.
    intros [P|(t & ->)] [L1 L2]; cbn [plain_key k_name k_sub] in *; [exact (P _ L1)|discriminate].
  Qed.

  (** The number a class has in a good dictionary. *)
  Lemma child_found n m o w c mm : public n -> good cs mm ->
    In (own n m o (Some c) None w) cs \/ In (own (private_name n) m o (Some c) None w) cs ->
    exists x, aget mm (child_key n m o w mm c) = Ok (ANum x).
  Proof.
    intros P (G1 & G2) H. rewrite (public_private n P) in H. unfold child_key, aget, dmem. cbv zeta.
    change ("_" ++ n)%string with (String "_" n).
    destruct (dget metric_key_eqb mm (plain_key n m o (Some c) None w)) as [v|] eqn:D.
    - rewrite D. destruct (G1 _ _ D) as [_ G]. destruct G as (x & ->); [apply not_label; left; exact P|]. exists x. reflexivity.
    - destruct H as [H|H].
      + exfalso. apply (G2 _ (plain_key n m o (Some c) None w) H); [reflexivity|left; reflexivity|exact D].
      + assert (X := G2 _ (plain_key (String "_" n) m o (Some c) None w) H eq_refl (or_introl eq_refl)).
        destruct (dget metric_key_eqb mm (plain_key (String "_" n) m o (Some c) None w)) as [v|] eqn:D2; [|congruence].
        destruct (G1 _ _ D2) as [_ G]. destruct G as (x & ->); [apply not_label; right; exists c; reflexivity|]. exists x. reflexivity.
  Qed.

  Lemma over_found n m o l sk w weight mm : public n -> good cs mm ->
    (forall c, In c l -> In (own n m o (Some c) None w) cs \/ In (own (private_name n) m o (Some c) None w) cs) ->
    (forall c, In c l -> exists x, weight c = Ok x) ->
    exists x, average_over n m o l sk w weight mm = Ok [(macro_key n m o sk w, ANum x)].
  Proof.
    intros P G C W. unfold average_over.
    match goal with |- context [foldM ?st l ?t] => destruct (average_total st l) with (t0 := t) as (t' & T) end.
    - intros s t I. destruct (W s I) as (x & ->). cbn [bind]. destruct (child_found n m o w s mm P G (C s I)) as (y & ->). cbn [bind to_number].
      eexists. reflexivity.
    - rewrite T. cbn [bind]. eexists. reflexivity.
  Qed.

  Lemma all_well c : In c cs -> base_well c \/ derived_well cs c.
  Proof.
    intros C. destruct (from_parts c C) as (s & I & [(n & l & N & F & Cl)|(l & F & Cl)]).
    - left. destruct (tfma_spec default n s l F) as (groups & _ & A & _). destruct (A c Cl) as (n' & m & o & sk & agg & w & -> & _ & _ & X).
      exists (plain_key n' m o sk agg w), n'. split; [reflexivity|]. split; [reflexivity|]. left. split; [reflexivity|].
      apply not_label. destruct X as [->|X]; [left; apply (names s n I N)|right; exact X].
    - destruct (average_spec default s l F) as (groups & G & A & _). destruct (A c Cl) as (n & m & sk & w & agg & sks & N & M & W & GI & K & X).
      assert (G' : create_sub_keys s = Ok groups) by (apply G; intros Z; rewrite Z in W; destruct W).
      assert (P := names s n I N). destruct (own_part s n I N) as (lo & Fo & INC).
      destruct (tfma_spec default n s lo Fo) as (groups' & G2 & _ & B). assert (groups' = groups) by congruence. subst groups'.
      destruct (average_part s I) as (l' & F' & INC'). assert (l' = l) by congruence. subst l'.
      destruct X as [(o & cw & wl & sl & IM & O & CW & SW & ML & X)|(OW & OI & ->)].
      + assert (CH : forall c, In c sl -> In (own n m o (Some c) None w) cs \/ In (own (private_name n) m o (Some c) None w) cs).
        { intros c' I'. destruct (proj2 (B m o w M O W) agg sks sk cw sl c' GI K IM CW ML I') as [Y|Y]; [left|right]; apply INC; exact Y. }
        destruct X as [->|[->|[-> LC]]].
        * right. exists (macro_key n m o sk w), (macro_average n m o sl sk w (Some wl)).
          split; [reflexivity|]. split; [reflexivity|]. split; [reflexivity|]. split; [apply not_label; left; exact P|].
          intros mm Gm. apply over_found; [exact P|exact Gm|exact CH|]. intros c' _. unfold macro_weight. destruct (offset_of c'); eexists; reflexivity.
        * left. exists (label_weights_key m o w), "_ClassWeightsFromLabelsCombiner". split; [reflexivity|]. split; [reflexivity|].
          right. exists (class_ids_of sl). split; [reflexivity|]. split; reflexivity.
        * right. exists (macro_key n m o sk w), (weighted_macro_average n m o sl sk w (Some wl)).
          split; [reflexivity|]. split; [reflexivity|]. split; [reflexivity|]. split; [apply not_label; left; exact P|].
          intros mm Gm. unfold weighted_macro_average, aget. destruct Gm as (G1 & G3).
          assert (Y := G3 _ (label_weights_key m o w) (INC' _ LC) eq_refl (or_introl eq_refl)).
          destruct (dget metric_key_eqb mm (label_weights_key m o w)) as [v|] eqn:D; [|congruence].
          destruct (G1 _ _ D) as [G4 _]. destruct G4 as (ws & ->); [split; reflexivity|]. cbn [bind].
          apply over_found; [exact P|split; [exact G1|exact G3]|exact CH|].
          intros c' _. unfold weighted_weight. destruct (sk_class_id c'); eexists; reflexivity.
      + right. exists (output_average_key n m sk w), (output_average n m (ms_output_weights s) sk w).
        split; [reflexivity|]. split; [reflexivity|]. split; [reflexivity|]. split; [apply not_label; left; exact P|].
        intros mm (G1 & G3). unfold output_average.
        match goal with |- context [foldM ?st ?l ?t] => destruct (average_total st l) with (t0 := t) as (t' & T) end.
        * intros [o x] t IO. cbn [fst snd]. destruct (group_types s groups G' agg sks GI) as (_ & GT).
          assert (AN : agg = None).
          { destruct GT as [->|(a & AE & ->)]; [reflexivity|]. destruct (clash s I) as [Z|Z]; [congruence|]. rewrite AE in Z.
            unfold aggregation_type. destruct (a_type a) as [[[| |] []]|]; try reflexivity; destruct Z. }
          subst agg. assert (Y := proj1 (B m o w M (OI o (in_map fst _ _ IO)) W) None sks sk GI K eq_refl).
          assert (Z := G3 _ (plain_key n m o sk None w) (INC _ Y) eq_refl (or_introl eq_refl)). unfold aget.
          destruct (dget metric_key_eqb mm (plain_key n m o sk None w)) as [v|] eqn:D; [|congruence]. cbn [bind].
          destruct (G1 _ _ D) as [_ G4]. destruct G4 as (y & ->); [apply not_label; left; exact P|]. cbn [to_number bind]. eexists. reflexivity.
        * rewrite T. cbn [bind]. eexists. reflexivity.
  Qed.

  Lemma keys_planned s ks k : In s specs -> keys_from_spec default s = Ok ks -> In k ks ->
    k_agg k <> Some (AggType None None (Some true)) -> exists c, In c cs /\ In k (cp_keys c).
  Proof.
    intros I KE KI NW. unfold keys_from_spec in KE. apply bind_ok in KE. destruct KE as (groups & G & KE). injection KE as <-.
    apply in_flat_map in KI. destruct KI as ([agg sks] & GI & KI). cbn [fst snd] in KI. apply in_flat_map in KI. destruct KI as (n & N & KI).
    unfold keys_for_metric in KI. apply in_flat_map in KI. destruct KI as (m & M & KI). apply in_flat_map in KI. destruct KI as (o & O & KI).
    apply in_flat_map in KI. destruct KI as (sk & K & KI). apply in_map_iff in KI. destruct KI as (w & <- & W). cbn [plain_key k_agg] in NW.
    destruct (group_types s groups G agg sks GI) as (KT & _).
    destruct (own_part s n I N) as (lo & Fo & INC). destruct (tfma_spec default n s lo Fo) as (groups' & G2 & _ & B).
    assert (groups' = groups) by congruence. subst groups'.
    destruct (average_part s I) as (l & F & INC'). destruct (average_spec default s l F) as (groups' & G3 & _ & A).
    rewrite G in G3. assert (groups' = groups) by (assert (Q : Ok groups = Ok groups') by (apply G3; intros Z; rewrite Z in W; destruct W); congruence). subst groups'.
    destruct (is_macro agg) eqn:IM.
    - assert (AM : agg = Some macro_type) by (destruct KT as [->|[->|[->| ->]]]; try discriminate; [reflexivity|contradiction]).
      destruct (A n m o w agg sks sk) as (l1 & cw & Y); [split; [exact N|split; [exact M|split; [exact O|exact W]]]|exact GI|exact K|exact AM|].
      exists (macro_computation n m o l1 sk w cw). split; [apply INC'; exact Y|]. left. rewrite AM. reflexivity.
    - exists (own n m o sk agg w). split; [apply INC, (proj1 (B m o w M O W) agg sks sk GI K IM)|left; reflexivity].
  Qed.

  Lemma no_weighted_key c k : In c cs -> In k (cp_keys c) -> k_agg k <> Some (AggType None None (Some true)).
  Proof.
    intros C K. destruct (from_parts c C) as (s & I & [(n & l & N & F & Cl)|(l & F & Cl)]).
    - destruct (tfma_spec default n s l F) as (groups & _ & A & _). destruct (A c Cl) as (n' & m & o & sk & agg & w & -> & _ & IM & _).
      destruct K as [<-|[]]. cbn [plain_key k_agg]. intros ->. discriminate.
    - destruct (average_spec default s l F) as (groups & G & A & _).
      destruct (A c Cl) as (n & m & sk & w & agg & sks & _ & _ & _ & _ & _ & [(o & cw & wl & sl & _ & _ & _ & _ & _ & [->|[->|[-> _]]])|(_ & _ & ->)]);
        destruct K as [<-|[]]; cbn; discriminate.
  Qed.

End Sound.

Lemma C103_configured_metrics_are_reported_partial_pf :
  forall default specs cs value,
    to_computations default specs = Ok cs ->
    (forall s n, In s specs -> In n (ms_metrics s) -> public n) ->
    (forall s, In s specs -> no_clash s) ->
    sensible value ->
    exists m, evaluate value cs = Ok m /\
      forall s ks k, In s specs -> keys_from_spec default s = Ok ks -> In k ks ->
        k_agg k <> Some (AggType None None (Some true)) -> exists x, In (k, ANum x) m.
Proof.
  intros default specs cs value E N C V.
  destruct (evaluate_good value cs V (all_well default specs cs E N C)) as (m & EM & (G1 & _) & H & _).
  exists m. split; [exact EM|]. intros s ks k I KE KI NW.
  destruct (keys_planned default specs cs E s ks k I KE KI NW) as (c & CI & CK). assert (X := H c k CI CK).
  destruct (dget metric_key_eqb m k) as [v|] eqn:D; [|congruence]. destruct (G1 _ _ D) as [_ G].
  destruct G as (x & ->); [|exists x; apply (dget_In _ metric_key_eqb_eq); exact D].
  unfold keys_from_spec in KE. apply bind_ok in KE. destruct KE as (groups & _ & KE). injection KE as <-.
  apply in_flat_map in KI. destruct KI as ([agg sks] & GI & KI). apply in_flat_map in KI. destruct KI as (n & Nn & KI).
  unfold keys_for_metric in KI. apply in_flat_map in KI. destruct KI as (mo & _ & KI). apply in_flat_map in KI. destruct KI as (o & _ & KI).
  apply in_flat_map in KI. destruct KI as (sk & _ & KI). apply in_map_iff in KI. destruct KI as (w & <- & _).
  apply not_label. left. apply (N s n I Nn).
Qed.

(** No result ever has the key of a weighted macro average. *)

Lemma weighted_key_never_reported :
  forall default specs cs value m,
    to_computations default specs = Ok cs ->
    (forall s n, In s specs -> In n (ms_metrics s) -> public n) ->
    (forall s, In s specs -> no_clash s) -> sensible value -> evaluate value cs = Ok m ->
    forall k v, In (k, v) m -> k_agg k <> Some (AggType None None (Some true)).
Proof.
  intros default specs cs value m E N C V EM k v I.
  destruct (evaluate_good value cs V (all_well default specs cs E N C)) as (m' & EM' & _ & _ & H).
  assert (m' = m) by congruence. subst m'. destruct (H k) as (c & CI & CK).
  { intros D. apply (dget_None _ metric_key_eqb_eq) in D. apply D. exact (in_map fst _ _ I). }
  apply (no_weighted_key default specs cs E c k CI CK).
Qed.

Definition ap0 : list num -> nat -> list nat := fun _ _ => [].

Definition class_sub (c : Z) : sub_key := SubKey (Some c) None None.

Definition kth_sub (k : nat) : sub_key := SubKey None (Some k) None.

Definition num_entry (n : string) (s : sub_key) (x : Qc) : metric_key * avalue :=
  (MetricKey n "" "" (Some s) None (Some false) false, ANum (Fin x)).

(** auc is 1 for class 0 and 0 for class 1; class 1 has no public entry. *)

Definition auc_metrics : adict := [num_entry "auc" (class_sub 0) 1%Qc; num_entry "_auc" (class_sub 1) 0%Qc].

Definition class_example (label : list Qc) : inputs_dict := InputsDict (Some (Leaf label)) (Some (Leaf [Fin 1%Qc])) None.

Definition label_run (ids : list Z) (es : list inputs_dict) : res (list (Z * Qc)) :=
  outcome (label_weights_combiner ap0 ids "" "" "" "" false) (Merge (Bundle es) [Bundle []]).

Lemma C102_unlabelled_examples_are_ignored_refuted_pf :
  exists ids e1 e2, i_label e2 = None /\
    label_run ids [e1] = Ok [(0%Z, 0%Qc); (1%Z, 1%Qc)] /\ label_run ids [e1; e2] = Err ValueError.
Proof.
  exists [0; 1]%Z, (class_example [qz 1]), (InputsDict None (Some (Leaf [Fin 1%Qc])) None).
  split; [reflexivity|]. split; qc_ex.
Qed.

Lemma C107_weighted_average_over_top_k_is_plain_pf :
  forall n m o s k w l shares d,
    sk_top_k s = Some k -> macro_average_sub_keys (Some s) None = Ok l ->
    aget d (label_weights_key m o w) = Ok (AWeights shares) ->
    weighted_macro_average n m o l (Some s) w (Some []) d = macro_average n m o l (Some s) w (Some []) d.
Proof.
  intros n m o s k w l shares d K L A. unfold weighted_macro_average, macro_average. rewrite A. cbn [bind].
  assert (LS : forall c, In c l -> sk_class_id c = None).
  { intros c C. unfold macro_average_sub_keys in L. rewrite K in L. destruct (Nat.eqb k 0); [discriminate|].
    destruct (mapM_from _ _ _ L c C) as (i & _ & E). unfold mk_sub_key in E.
    repeat match type of E with context [if ?b then _ else _] => destruct b end; try discriminate. injection E as <-. reflexivity. }
  clear L. unfold average_over. f_equal.
  generalize (Fin 0%Qc, 0%Qc). induction l as [|c l IH]; intros t; cbn [foldM]; [reflexivity|].
  assert (W : weighted_weight shares (Some []) c = macro_weight (Some []) c).
  { unfold weighted_weight, macro_weight, offset_of. rewrite (LS c (or_introl eq_refl)). destruct (sk_k c); reflexivity. }
  rewrite W. destruct (macro_weight (Some []) c) as [x|]; cbn [bind]; [|reflexivity].
  destruct (aget d (child_key n m o w d c)) as [v|]; cbn [bind]; [|reflexivity]. destruct (to_number v) as [y|]; cbn [bind]; [|reflexivity].
  apply IH. intros c' C'. apply LS. right. exact C'.
Qed.

(** A spec for one metric over classes. *)

Definition class_spec (n : string) (t : agg_field) (cs : list Z) : metrics_spec :=
  MetricsSpec [n] [] [] [] None (Some (Aggregate (Some (t, true)) (map (fun c => (c, 1%Qc)) cs) None)) None.

(** Class c has value 1/(c+1) for every metric; the labels are given. *)

Definition class_value (labels : list Z) (c : computation body) : avalue :=
  match cp_body c with
  | LabelWeights ids => match label_run ids (map (fun l => class_example [qz l]) labels) with Ok w => AWeights w | Err _ => AOther end
  | _ => match cp_keys c with
         | [k] => match k_sub k with
                  | Some s => match sk_class_id s with Some c => ANum (Fin (/ (qz c + 1))%Qc) | None => ANum NaN end
                  | None => ANum NaN
                  end
         | _ => ANum NaN
         end
  end.

Definition slice_result (labels : list Z) (specs : list metrics_spec) : res adict :=
  let! cs := to_computations false specs in evaluate (class_value labels) cs.

Definition auc_key (agg : agg_type) : metric_key := MetricKey "auc" "" "" None (Some agg) (Some false) false.

Lemma C49_both_averages_are_reported_refuted_pf :
  exists labels specs m,
    specs = [class_spec "auc" Macro [0; 1]%Z; class_spec "auc" WeightedMacro [0; 1]%Z] /\
    slice_result labels specs = Ok m /\
    ~ exists k1 k2 x1 x2, k1 <> k2 /\ k_name k1 = "auc" /\ k_name k2 = "auc" /\ k_sub k1 = None /\ k_sub k2 = None /\
        In (k1, ANum x1) m /\ In (k2, ANum x2) m.
Proof.
  exists [0; 0; 1]%Z. eexists. eexists. split; [reflexivity|]. split.
  - vm_compute. reflexivity.
  - intros (k1 & k2 & x1 & x2 & N & N1 & N2 & S1 & S2 & I1 & I2).
    repeat match goal with H : In _ (_ :: _) |- _ => destruct H as [H|H] | H : In _ [] |- _ => destruct H end;
      repeat match goal with H : (_, _) = (_, _) |- _ => injection H as ? ? end; subst;
      cbn in *; try discriminate; congruence.
Qed.

(** What validation sees of a slice: the metrics that are not private. *)

Definition seen_by_validation (m : adict) : list (metric_key * mvalue) :=
  map (fun kv => (fst kv, match snd kv with ANum x => Number x | _ => Structure end))
      (filter (fun kv => negb (starts_with "_" (k_name (fst kv)))) m).

Lemma not_found_fails sl ms k t :
  ~ In k (map fst ms) ->
  exists r, validate_metrics None (inl sl) ms [(k, [(None, t)])] = Ok r /\ v_ok r = false /\
    v_failures r = [(inl sl, [Failure k None t MetricNotFound])].
Proof.
  intros N. unfold validate_metrics.
  rewrite (mapM_ok _ (fun _ => ([], []))).
  2:{ intros [k' v] I. cbn [fst snd dget]. destruct (metric_key_eqb k' k) eqn:E; [|reflexivity]. apply metric_key_eqb_eq in E. subst.
      exfalso. apply N. exact (in_map fst _ _ I). }
  cbn [bind filter fst]. apply (dmem_false _ metric_key_eqb_eq) in N. rewrite N. cbn [negb flat_map fst snd].
  unfold is_baseline. cbn [not_found negb not_found_applicable memb]. cbn [app].
  assert (Z : flat_map fst (map (fun _ : metric_key * mvalue => (@nil failure, @nil scope)) ms) = []).
  { clear. induction ms as [|x ms IH]; [reflexivity|]. cbn [map flat_map fst app]. exact IH. }
  rewrite Z. cbn [app]. eexists. split; [reflexivity|]. split; reflexivity.
Qed.

Lemma C103_configured_metrics_are_reported_refuted_pf :
  exists s cs ks k,
    to_computations false [s] = Ok cs /\ (forall n, In n (ms_metrics s) -> public n) /\ no_clash s /\
    keys_from_spec false s = Ok ks /\ In k ks /\
    forall value, sensible value -> exists m, evaluate value cs = Ok m /\ forall v, ~ In (k, v) m.
Proof.
  set (s := class_spec "auc" WeightedMacro [0; 1]%Z).
  destruct (to_computations false [s]) as [cs|e] eqn:E; [|vm_compute in E; discriminate].
  exists s, cs, [auc_key (AggType None None (Some true))], (auc_key (AggType None None (Some true))). split; [exact E|].
  assert (PU : forall n, In n (ms_metrics s) -> public n) by (intros n [<-|[]] r; discriminate). split; [exact PU|].
  split; [left; reflexivity|]. split; [reflexivity|]. split; [left; reflexivity|]. intros value V.
  assert (NM : forall s' n, In s' [s] -> In n (ms_metrics s') -> public n) by (intros s' n [<-|[]]; apply PU).
  assert (NC : forall s', In s' [s] -> no_clash s') by (intros s' [<-|[]]; left; reflexivity).
  destruct (C103_configured_metrics_are_reported_partial_pf false [s] cs value E NM NC V) as (m & EM & _). exists m. split; [exact EM|].
  intros v I. exact (weighted_key_never_reported false [s] cs value m E NM NC V EM _ v I eq_refl).
Qed.

Lemma C104_weighted_average_thresholds_are_checked_refuted_pf :
  exists s cs k,
    ms_aggregate s = Some (Aggregate (Some (WeightedMacro, true)) [(0%Z, 1%Qc); (1%Z, 1%Qc)] None) /\
    to_computations false [s] = Ok cs /\ keys_from_spec false s = Ok [k] /\
    forall value lo hi sl, sensible value ->
      exists m r, evaluate value cs = Ok m /\
        validate_metrics None (inl sl) (seen_by_validation m)
          (metric_thresholds [(k, None, MetricThreshold (Some (lo, hi)) None)]) = Ok r /\
        v_ok r = false /\ v_failures r = [(inl sl, [Failure k None (ValueThreshold lo hi) MetricNotFound])].
Proof.
  set (s := class_spec "auc" WeightedMacro [0; 1]%Z).
  destruct (to_computations false [s]) as [cs|e] eqn:E; [|vm_compute in E; discriminate].
  exists s, cs, (auc_key (AggType None None (Some true))). split; [reflexivity|]. split; [exact E|]. split; [reflexivity|].
  intros value lo hi sl V.
  assert (NM : forall s' n, In s' [s] -> In n (ms_metrics s') -> public n).
  { intros s' n [<-|[]] [<-|[]] r. discriminate. }
  assert (NC : forall s', In s' [s] -> no_clash s') by (intros s' [<-|[]]; left; reflexivity).
  destruct (C103_configured_metrics_are_reported_partial_pf false [s] cs value E NM NC V) as (m & EM & _). exists m.
  assert (NW := weighted_key_never_reported false [s] cs value m E NM NC V EM).
  destruct (not_found_fails sl (seen_by_validation m) (auc_key (AggType None None (Some true))) (ValueThreshold lo hi)) as (r & R & R1 & R2).
  - intros I. unfold seen_by_validation in I. rewrite map_map in I. cbn [fst] in I. apply in_map_iff in I. destruct I as ([k v] & F & I).
    apply filter_In in I. destruct I as [I _]. cbn [fst] in F. apply (NW k v I). rewrite F. reflexivity.
  - exists r. split; [exact EM|]. split; [exact R|]. split; [exact R1|exact R2].
Qed.

Lemma C105_output_average_of_aggregates_refuted_pf :
  exists s cs,
    ms_outputs s = ["a"; "b"] /\ ms_output_weights s = [("a", 1%Qc); ("b", 1%Qc)] /\
    ms_aggregate s = Some (Aggregate (Some (Micro, true)) [] None) /\
    to_computations false [s] = Ok cs /\ forall value, evaluate value cs = Err KeyError.
Proof.
  exists (MetricsSpec ["auc"] [] ["a"; "b"] [("a", 1%Qc); ("b", 1%Qc)] None (Some (Aggregate (Some (Micro, true)) [] None)) None).
  eexists. split; [reflexivity|]. split; [reflexivity|]. split; [reflexivity|]. split; [vm_compute; reflexivity|].
  intros value. vm_compute. reflexivity.
Qed.

Lemma C106_specs_are_independent_refuted_pf :
  exists labels s1 s2 k m2 m12,
    ms_metrics s1 = ["auc"] /\ ms_metrics s2 = ["precision"] /\ k_name k = "precision" /\
    slice_result labels [s2] = Ok m2 /\ In (k, ANum (Fin (Q2Qc (7 # 24)))) m2 /\
    slice_result labels [s1; s2] = Ok m12 /\ In (k, ANum NaN) m12.
Proof.
  exists [0; 2; 3]%Z, (class_spec "auc" WeightedMacro [0; 1]%Z), (class_spec "precision" WeightedMacro [2; 3]%Z).
  exists (MetricKey "precision" "" "" None (Some (AggType None (Some true) None)) (Some false) false).
  eexists. eexists. split; [reflexivity|]. split; [reflexivity|]. split; [reflexivity|].
  split; [vm_compute; reflexivity|]. split; [right; right; right; left; f_equal; f_equal; f_equal; apply Qc_is_canon; reflexivity|].
  split; [vm_compute; reflexivity|]. repeat first [left; reflexivity|right].
Qed.

Lemma C136_output_average_is_weighted_mean_pf :
  forall name model weights sk w m (v : string -> Qc),
    NoDup (map fst m) ->
    (forall o x, In (o, x) weights ->
       In ({| k_name := name; k_model := model; k_output := o; k_sub := sk; k_agg := None; k_weighted := Some w; k_diff := false |},
           ANum (Fin (v o))) m) ->
    output_average name model weights sk w m =
    Ok [({| k_name := name; k_model := model; k_output := ""; k_sub := sk; k_agg := None; k_weighted := Some w; k_diff := false |},
         ANum (weighted_mean snd (fun ow => v (fst ow)) weights))].
Proof.
  intros name model weights sk w m v N H. unfold output_average.
  assert (G : forall l x y, (forall o q, In (o, q) l -> In (plain_key name model o sk None w, ANum (Fin (v o))) m) ->
    foldM (fun t ow => let! v := aget m (plain_key name model (fst ow) sk None w) in let! x := to_number v in Ok (accumulate t x (snd ow))) l (Fin x, y)
    = Ok (Fin (x + qsum (map (fun ow => snd ow * v (fst ow)) l))%Qc, (y + qsum (map snd l))%Qc)).
  { induction l as [|[o q] l IH]; intros x y Hl.
    - cbn [foldM map]. change (qsum []) with 0%Qc. do 2 f_equal; [f_equal|]; ring.
    - cbn [foldM fst snd]. rewrite (mget_entry m _ _ N (Hl o q (or_introl eq_refl))). cbn [bind to_number]. unfold accumulate. cbn [fst snd num_scale num_plus].
      rewrite IH by (intros o' q' I; exact (Hl o' q' (or_intror I))). cbn [map fst snd].
      change (qsum (?a :: ?b)) with (a + qsum b)%Qc. do 2 f_equal; [f_equal|]; ring. }
  rewrite (G weights 0%Qc 0%Qc H). cbn [bind]. unfold average_of, weighted_mean, output_average_key, plain_key. cbn [fst snd].
  rewrite !Qcplus_0_l. destruct (Qc_eqb (qsum (map snd weights)) 0); [reflexivity|]. cbn [num_scale]. unfold Qcdiv. do 5 f_equal. ring.
Qed.

Lemma C103_weighted_as_asked_pf :
  forall default s ks k, keys_from_spec default s = Ok ks -> In k ks ->
    match ms_example_weights s with
    | None => k_weighted k = Some default
    | Some (weighted, unweighted) => k_weighted k = Some true /\ weighted = true \/ k_weighted k = Some false /\ unweighted = true
    end.
Proof.
  intros default s ks k E I. unfold keys_from_spec in E. destruct (create_sub_keys s) as [groups|]; [|discriminate]. cbn [bind] in E. injection E as <-.
  apply in_flat_map in I. destruct I as (g & _ & I). apply in_flat_map in I. destruct I as (n & _ & I). unfold keys_for_metric in I.
  apply in_flat_map in I. destruct I as (m & _ & I). apply in_flat_map in I. destruct I as (o & _ & I). apply in_flat_map in I. destruct I as (sk & _ & I).
  apply in_map_iff in I. destruct I as (w & <- & I). cbn [k_weighted plain_key]. unfold example_weight_options in I. destruct (ms_example_weights s) as [[a b]|].
  - apply in_app_iff in I. destruct a, b; cbn in I; intuition; subst; auto.
  - destruct I as [<-|[]]. reflexivity.
Qed.

Lemma C103_all_weights_asked_for_pf :
  forall default s ks k, keys_from_spec default s = Ok ks -> In k ks ->
    forall w : bool, match ms_example_weights s with None => w = default | Some (a, b) => (if w then a else b) = true end ->
      In (MetricKey (k_name k) (k_model k) (k_output k) (k_sub k) (k_agg k) (Some w) (k_diff k)) ks.
Proof.
  intros default s ks k E I w H. unfold keys_from_spec in *. destruct (create_sub_keys s) as [groups|]; [|discriminate]. cbn [bind] in E. injection E as <-.
  apply in_flat_map in I. destruct I as (g & Ig & I). apply in_flat_map. exists g. split; [exact Ig|].
  apply in_flat_map in I. destruct I as (n & In_ & I). apply in_flat_map. exists n. split; [exact In_|]. unfold keys_for_metric in *.
  apply in_flat_map in I. destruct I as (m & Im & I). apply in_flat_map. exists m. split; [exact Im|].
  apply in_flat_map in I. destruct I as (o & Io & I). apply in_flat_map. exists o. split; [exact Io|].
  apply in_flat_map in I. destruct I as (sk & Is & I). apply in_flat_map. exists sk. split; [exact Is|].
  apply in_map_iff in I. destruct I as (w' & <- & I). apply in_map_iff. exists w. split; [reflexivity|].
  unfold example_weight_options in *. destruct (ms_example_weights s) as [[a b]|].
  - apply in_app_iff. destruct w; subst; cbn; auto.
  - subst w. left. reflexivity.
Qed.

Lemma mapM_some_err {A B} (f : A -> res B) l a x : (forall b y, In b l -> f b = Err y -> y = x) -> In a l -> f a = Err x -> mapM f l = Err x.
Proof.
  induction l as [|b l IH]; intros H I E; [destruct I|]. cbn [mapM]. destruct (f b) as [v|y] eqn:F.
  - cbn [bind]. destruct I as [->|I]; [congruence|]. rewrite IH; [reflexivity| |exact I|exact E]. intros c y Ic. exact (H c y (or_intror Ic)).
  - cbn [bind]. f_equal. exact (H b y (or_introl eq_refl) F).
Qed.

Lemma mapM_only_err {A B} (f : A -> res B) l x y : (forall b z, In b l -> f b = Err z -> z = x) -> mapM f l = Err y -> y = x.
Proof.
  induction l as [|b l IH]; intros H E; [discriminate|]. cbn [mapM] in E. destruct (f b) as [v|z] eqn:F; cbn [bind] in E.
  - destruct (mapM f l) as [vs|z] eqn:M; [discriminate|]. cbn [bind] in E. injection E as <-. apply IH; [|reflexivity]. intros c z' Ic. exact (H c z' (or_intror Ic)).
  - injection E as <-. exact (H b z (or_introl eq_refl) F).
Qed.

Lemma mk_sub_key_error c k t x : mk_sub_key c k t = Err x -> x = ValueError.
Proof.
  unfold mk_sub_key. intros H. repeat match type of H with
    | context [match ?y with _ => _ end] => destruct y
    end; congruence.
Qed.

(** Aggregations that cannot be computed are refused: class weights together with top k, and a
    macro average over nothing. *)

Definition averages (a : aggregate) : Prop := a_type a = Some (Macro, true) \/ a_type a = Some (WeightedMacro, true).

Lemma C137_bad_aggregations_are_refused_pf :
  forall default s a, ms_aggregate s = Some a -> ms_metrics s <> [] -> ms_binarize s = None ->
    (aggregation_type a <> None /\ a_top_k a <> None /\ a_class_weights a <> []) \/
    (averages a /\ a_class_weights a = [] /\ (a_top_k a = None \/ a_top_k a = Some [])) ->
    to_computations default [s] = Err ValueError.
Proof.
  intros default s a A M B H. destruct (ms_metrics s) as [|n0 names] eqn:NM; [congruence|].
  unfold to_computations. cbn [mapM bind]. rewrite NM. cbn [mapM bind].
  assert (X : tfma_computations default n0 s = Err ValueError); [|rewrite X; reflexivity].
  unfold tfma_computations. assert (CE : forall x, create_sub_keys s = Err x -> x = ValueError).
  { intros x E. unfold create_sub_keys in E. rewrite A, B in E. cbn [bind] in E.
    match type of E with context [mapM ?f ?l] => destruct (mapM f l) as [ts|y] eqn:MM end; [discriminate|]. cbn [bind] in E. injection E as <-.
    apply (mapM_only_err _ _ ValueError y) in MM; [exact MM|]. intros v z _ Z. destruct (mk_sub_key None None (Some v)) as [k|z'] eqn:K; [discriminate|].
    cbn [bind] in Z. injection Z as <-. exact (mk_sub_key_error _ _ _ _ K). }
  destruct (create_sub_keys s) as [groups|x] eqn:C; [|cbn [bind]; f_equal; exact (CE x eq_refl)]. cbn [bind].
  unfold create_sub_keys in C. rewrite A, B in C. cbn [bind] in C.
  match type of C with context [mapM ?f ?l] => destruct (mapM f l) as [ts|y] eqn:MM end; [|discriminate]. cbn [bind dset] in C. injection C as <-.
  cbn [mapM].
  destruct H as [(T & K & W)|(T & W & K)].
  - unfold spec_class_weights. rewrite A. destruct (a_top_k a) as [ks|]; [|congruence]. destruct (a_class_weights a) as [|cw cws]; [congruence|].
    destruct (aggregation_type a); [|congruence]. reflexivity.
  - assert (TS : ts = []) by (destruct K as [K|K]; rewrite K in MM; cbn in MM; congruence). rewrite TS.
    unfold spec_class_weights. rewrite A, W. unfold aggregation_type. destruct K as [K|K]; rewrite K; destruct T as [T|T]; rewrite T; reflexivity.
Qed.
