(* Proofs of the theorems restated in Thresholds_Properties.v. *)
From Coq Require Import String Ascii.
From Verif Require Import Base BaseFacts Beam BeamFacts Slicer_Model Slicer_Main Inputs_Model Keys_Model Keys_Main Means_Model Validation_Model Validation_Main Results_Model Results_Main Util_Model Sums_Model Evaluator_Model Aggregation_Model Aggregation_Main Thresholds_Model.
Local Open Scope string_scope.
Local Open Scope list_scope.

(* C294 - C296: the thresholds of a configuration. *)

(** The parts of the output a spec has its metrics for: an aggregation with its top k, the
    binarized classes and positions, or the whole. *)

Definition type_of (a : aggregate) : option agg_type :=
  match a_type a with
  | Some (Micro, true) => Some (AggType (Some true) None None)
  | Some (Macro, true) => Some (AggType None (Some true) None)
  | Some (WeightedMacro, true) => Some (AggType None None (Some true))
  | _ => None
  end.

Definition binarized (s : metrics_spec) : Prop :=
  exists b, ms_binarize s = Some b /\ (b_class_ids b <> [] \/ b_k b <> [] \/ b_top_k b <> []).

Inductive part (s : metrics_spec) : option agg_type -> option sub_key -> Prop :=
| part_class b c : ms_binarize s = Some b -> In c (b_class_ids b) -> part s None (Some (SubKey (Some c) None None))
| part_kth b k : ms_binarize s = Some b -> In k (b_k b) -> part s None (Some (SubKey None (Some (Z.to_nat k)) None))
| part_top b k : ms_binarize s = Some b -> In k (b_top_k b) -> part s None (Some (SubKey None None (Some (Z.to_nat k))))
| part_average a : ms_aggregate s = Some a -> (a_top_k a = None \/ a_top_k a = Some []) -> part s (type_of a) None
| part_average_top a l k : ms_aggregate s = Some a -> a_top_k a = Some l -> In k l ->
    part s (type_of a) (Some (SubKey None None (Some (Z.to_nat k))))
| part_whole : ~ binarized s -> ms_aggregate s = None -> part s None None.

(** An aggregation next to a binarization says what it is. *)

Definition clear_spec (s : metrics_spec) : Prop :=
  binarized s -> forall a, ms_aggregate s = Some a -> type_of a <> None.

Definition named_or_blank (l : list string) (x : string) : Prop := In x l \/ (l = [] /\ x = "").

Definition weighting (default : metrics_spec -> bool) (s : metrics_spec) (w : bool) : Prop :=
  match ms_example_weights s with
  | None => w = default s
  | Some (weighted, unweighted) => (w = true /\ weighted = true) \/ (w = false /\ unweighted = true)
  end.

(** A metric of a spec, for one of its models, outputs and parts. *)

Inductive key_of (s : metrics_spec) (name : string) (w : option bool) : metric_key -> Prop :=
| key_of_spec m o agg sk :
    named_or_blank (ms_models s) m -> named_or_blank (ms_outputs s) o -> part s agg sk ->
    key_of s name w {| k_name := name; k_model := m; k_output := o; k_sub := sk; k_agg := agg; k_weighted := w; k_diff := false |}.

(** Where a threshold is to hold: on all slices, on those of a slicing spec, or between slices. *)

Inductive place := Everywhere | On (s : slicing) | Between (c : cross_slicing).

(** Metric k has threshold t at a place. *)

Inductive configured (default : metrics_spec -> bool) (specs : list tspec) : metric_key -> place -> metric_threshold -> Prop :=
| named_everywhere s n t k : In s specs -> In (n, t) (ts_thresholds s) -> key_of (ts_spec s) n None k ->
    configured default specs k Everywhere t
| named_on s n l p sl k : In s specs -> In (n, l) (ts_per_slice s) -> In p l -> In sl (ps_specs p) -> key_of (ts_spec s) n None k ->
    configured default specs k (On sl) (ps_threshold p)
| named_between s n l p c k : In s specs -> In (n, l) (ts_cross s) -> In p l -> In c (xs_specs p) -> key_of (ts_spec s) n None k ->
    configured default specs k (Between c) (xs_threshold p)
| own_everywhere s m t w k : In s specs -> In m (ts_metrics s) -> mc_threshold m = Some t -> weighting default (ts_spec s) w ->
    key_of (ts_spec s) (mc_name m) (Some w) k -> configured default specs k Everywhere t
| own_on s m p sl w k : In s specs -> In m (ts_metrics s) -> In p (mc_per_slice m) -> In sl (ps_specs p) -> weighting default (ts_spec s) w ->
    key_of (ts_spec s) (mc_name m) (Some w) k -> configured default specs k (On sl) (ps_threshold p)
| own_between s m p c w k : In s specs -> In m (ts_metrics s) -> In p (mc_cross m) -> In c (xs_specs p) -> weighting default (ts_spec s) w ->
    key_of (ts_spec s) (mc_name m) (Some w) k -> configured default specs k (Between c) (xs_threshold p).

(** The spec objects of a place. *)

Inductive reads : place -> option scope -> Prop :=
| reads_everywhere : reads Everywhere None
| reads_on s sp : mk_spec (sl_spec s) = Ok sp -> reads (On s) (Some (SingleScope sp))
| reads_between c b ss : mk_spec (sl_spec (cs_base c)) = Ok b -> Forall2 (fun s sp => mk_spec (sl_spec s) = Ok sp) (cs_specs c) ss ->
    reads (Between c) (Some (CrossScope b ss)).

(** The bounds of a threshold on metric k: on its value, and on its difference to the baseline. *)

Definition bounds (k0 : metric_key) (mt : metric_threshold) (k : metric_key) (t : threshold) : Prop :=
  (exists l u, k = k0 /\ mt_value mt = Some (l, u) /\ t = ValueThreshold l u) \/
  (exists a r d, k = MetricKey (k_name k0) (k_model k0) (k_output k0) (k_sub k0) (k_agg k0) (k_weighted k0) true /\
                 mt_change mt = Some (a, r, d) /\ t = ChangeThreshold a r d).

Lemma gather_ok {X} (f : X -> res (list entry)) l es : gather f l = Ok es ->
  (forall x, In x l -> exists es', f x = Ok es') /\ (forall e, In e es <-> exists x es', In x l /\ f x = Ok es' /\ In e es').
Proof.
  unfold gather. revert es. induction l as [|x l IH]; intros es E; cbn [mapM bind] in E.
  - injection E as <-. split; [intros ? []|]. intros e. cbn. split; [intros []|intros (? & ? & [] & _)].
  - destruct (f x) as [ex|] eqn:F; [|discriminate]. cbn [bind] in E. destruct (mapM f l) as [ls|]; [|discriminate]. cbn [bind] in E. injection E as <-.
    destruct (IH _ eq_refl) as (I1 & I2). split.
    + intros y [<-|Y]; [eauto|exact (I1 y Y)].
    + intros e. cbn [concat]. rewrite in_app_iff, I2. split.
      * intros [I|(y & ey & Y & FY & I)]; [exists x, ex; split; [left; reflexivity|auto]|exists y, ey; split; [right; exact Y|auto]].
      * intros (y & ey & [<-|Y] & FY & I); [left; congruence|right; eauto].
Qed.

Lemma gather_total {X} (f : X -> res (list entry)) l : (forall x, In x l -> exists es, f x = Ok es) -> exists es, gather f l = Ok es.
Proof.
  unfold gather. induction l as [|x l IH]; intros H; cbn [mapM bind]; [eauto|]. destruct (H x (or_introl eq_refl)) as [ex ->]. cbn [bind].
  destruct IH as [es E]; [intros y Y; apply H; right; exact Y|]. destruct (mapM f l) as [ls|]; [|discriminate]. cbn [bind]. eauto.
Qed.

Definition bounded (t : metric_threshold) : Prop := mt_value t <> None \/ mt_change t <> None.

Lemma entry_of_ok k sc t es : entry_of k sc t = Ok es ->
  forall e, In e es <-> bounded t /\ exists x, sc = Ok x /\ e = (k, x, t).
Proof.
  unfold entry_of, bounded. intros E e.
  destruct (mt_value t) as [v|], (mt_change t) as [c|];
    try (destruct sc as [x|]; [|discriminate]; cbn [bind] in E; injection E as <-; cbn [In]; split;
         [intros [<-|[]]; split; [(left; discriminate) || (right; discriminate)|eauto]|intros (_ & y & [= <-] & ->); left; reflexivity]).
  injection E as <-. split; [intros []|intros ([N|N] & _); congruence].
Qed.

Lemma entry_of_total k sc t : (bounded t -> exists x, sc = Ok x) -> exists es, entry_of k sc t = Ok es.
Proof.
  unfold entry_of, bounded. intros H. destruct (mt_value t) as [v|], (mt_change t) as [c|]; try (destruct H as [x ->]; [(left; discriminate) || (right; discriminate)|]; cbn [bind]; eauto). eauto.
Qed.

Lemma mapM_Forall2 {X Y} (f : X -> res Y) l ys : mapM f l = Ok ys <-> Forall2 (fun x y => f x = Ok y) l ys.
Proof.
  revert ys. induction l as [|x l IH]; intros ys; cbn [mapM bind].
  - split; [intros [= <-]; constructor|intros H; inversion H; reflexivity].
  - split.
    + intros E. destruct (f x) as [y|] eqn:F; [|discriminate]. cbn [bind] in E. destruct (mapM f l) as [t|]; [|discriminate]. cbn [bind] in E. injection E as <-. constructor; [exact F|apply IH; reflexivity].
    + intros H. inversion H as [|? y ? t F T]; subst. rewrite F. cbn [bind]. apply IH in T. rewrite T. reflexivity.
Qed.

Lemma single_reads s sc : some_scope (single_scope s) = Ok sc <-> reads (On s) sc.
Proof.
  unfold some_scope, single_scope. split.
  - intros E. destruct (mk_spec (sl_spec s)) as [sp|] eqn:M; [|discriminate]. cbn [bind] in E. injection E as <-. constructor. exact M.
  - intros H. inversion H as [|? sp M|]; subst. rewrite M. reflexivity.
Qed.

Lemma cross_reads c sc : some_scope (cross_scope c) = Ok sc <-> reads (Between c) sc.
Proof.
  unfold some_scope, cross_scope. split.
  - intros E. destruct (mk_spec (sl_spec (cs_base c))) as [b|] eqn:M; [|discriminate]. cbn [bind] in E.
    destruct (mapM (fun s => mk_spec (sl_spec s)) (cs_specs c)) as [ss|] eqn:T; [|discriminate]. cbn [bind] in E. injection E as <-. constructor; [exact M|]. apply mapM_Forall2. exact T.
  - intros H. inversion H as [| |? b ss M T]; subst. rewrite M. cbn [bind]. apply mapM_Forall2 in T. rewrite T. reflexivity.
Qed.

Lemma slice_entries_ok k l es : slice_entries k l = Ok es ->
  forall e, In e es <-> exists p s sc, In p l /\ In s (ps_specs p) /\ bounded (ps_threshold p) /\ reads (On s) sc /\ e = (k, sc, ps_threshold p).
Proof.
  intros E e. destruct (gather_ok _ _ _ E) as (T & I). rewrite I. split.
  - intros (p & ep & P & F & X). destruct (gather_ok _ _ _ F) as (_ & I'). apply I' in X. destruct X as (s & es' & S & F' & X).
    apply (entry_of_ok _ _ _ _ F') in X. destruct X as (B & sc & R & ->). exists p, s, sc. repeat split; auto. apply single_reads. exact R.
  - intros (p & s & sc & P & S & B & R & ->). destruct (T p P) as [ep F]. exists p, ep. split; [exact P|]. split; [exact F|].
    destruct (gather_ok _ _ _ F) as (T' & I'). apply I'. destruct (T' s S) as [es' F']. exists s, es'. split; [exact S|]. split; [exact F'|].
    apply (entry_of_ok _ _ _ _ F'). split; [exact B|]. exists sc. split; [apply single_reads; exact R|reflexivity].
Qed.

Lemma cross_entries_ok k l es : cross_entries k l = Ok es ->
  forall e, In e es <-> exists p c sc, In p l /\ In c (xs_specs p) /\ bounded (xs_threshold p) /\ reads (Between c) sc /\ e = (k, sc, xs_threshold p).
Proof.
  intros E e. destruct (gather_ok _ _ _ E) as (T & I). rewrite I. split.
  - intros (p & ep & P & F & X). destruct (gather_ok _ _ _ F) as (_ & I'). apply I' in X. destruct X as (s & es' & S & F' & X).
    apply (entry_of_ok _ _ _ _ F') in X. destruct X as (B & sc & R & ->). exists p, s, sc. repeat split; auto. apply cross_reads. exact R.
  - intros (p & s & sc & P & S & B & R & ->). destruct (T p P) as [ep F]. exists p, ep. split; [exact P|]. split; [exact F|].
    destruct (gather_ok _ _ _ F) as (T' & I'). apply I'. destruct (T' s S) as [es' F']. exists s, es'. split; [exact S|]. split; [exact F'|].
    apply (entry_of_ok _ _ _ _ F'). split; [exact B|]. exists sc. split; [apply cross_reads; exact R|reflexivity].
Qed.

Lemma or_blank_In l x : In x (or_blank l) <-> named_or_blank l x.
Proof.
  unfold named_or_blank. destruct l; cbn [or_blank In]; [|intuition discriminate]. split; [intros [<-|[]]; auto|intros [[]|[_ ->]]; auto].
Qed.

Lemma keys_for_In n s agg sks ws k : In k (keys_for n s agg sks ws) <->
  exists m o sk w, named_or_blank (ms_models s) m /\ named_or_blank (ms_outputs s) o /\ In sk sks /\ In w ws /\ k = MetricKey n m o sk agg w false.
Proof.
  unfold keys_for. rewrite in_flat_map. split.
  - intros (m & M & X). apply in_flat_map in X. destruct X as (o & O & X). apply in_flat_map in X. destruct X as (sk & S & X). apply in_map_iff in X. destruct X as (w & <- & W).
    exists m, o, sk, w. rewrite <- !or_blank_In. auto.
  - intros (m & o & sk & w & M & O & S & W & ->). exists m. rewrite or_blank_In. split; [exact M|]. apply in_flat_map. exists o. rewrite or_blank_In. split; [exact O|].
    apply in_flat_map. exists sk. split; [exact S|]. apply in_map_iff. exists w. auto.
Qed.

Lemma weights_In default s w : In w (example_weight_options (default s) s) <-> weighting default s w.
Proof.
  unfold example_weight_options, weighting. destruct (ms_example_weights s) as [[a b]|]; [|cbn; split; [intros [<-|[]]; reflexivity|auto]].
  rewrite in_app_iff. destruct a, b; cbn [In]; intuition (subst; auto; congruence).
Qed.

(** The parts are those of the sub keys. *)

Lemma keys_In (mk : Z -> res sub_key) (l : list Z) ks : mapM (fun v => let! k := mk v in Ok (Some k)) l = Ok ks ->
  forall sk, In sk ks <-> exists v k, In v l /\ mk v = Ok k /\ sk = Some k.
Proof.
  revert ks. induction l as [|v l IH]; intros ks E sk; cbn [mapM] in E.
  - injection E as <-. cbn. split; [intros []|intros (? & ? & [] & _)].
  - destruct (mk v) as [k|] eqn:M; [|discriminate]. cbn [bind] in E. destruct (mapM _ l) as [t|]; [|discriminate]. cbn [bind] in E. injection E as <-.
    cbn [In]. rewrite (IH t eq_refl). split.
    + intros [<-|(v' & k' & V & M' & ->)]; [exists v, k; auto|exists v', k'; auto].
    + intros (v' & k' & [<-|V] & M' & ->); [left; congruence|right; eauto].
Qed.

Lemma keys_nil (mk : Z -> res sub_key) (l : list Z) ks : mapM (fun v => let! k := mk v in Ok (Some k)) l = Ok ks -> (ks = [] <-> l = []).
Proof. intros E. destruct l as [|v l]; [cbn in E; injection E as <-; tauto|]. split; [|discriminate]. intros ->. cbn [mapM] in E. destruct (mk v); [|discriminate]. cbn [bind] in E. destruct (mapM _ l); discriminate. Qed.

Lemma mk_class v k : mk_sub_key (Some v) None None = Ok k -> k = SubKey (Some v) None None.
Proof. cbn. congruence. Qed.

Lemma mk_kth v k : mk_sub_key None (Some v) None = Ok k -> k = SubKey None (Some (Z.to_nat v)) None.
Proof. cbn. destruct (Z.ltb v 1); [discriminate|]. congruence. Qed.

Lemma mk_top v k : mk_sub_key None None (Some v) = Ok k -> k = SubKey None None (Some (Z.to_nat v)).
Proof. cbn. destruct (Z.ltb v 1); [discriminate|]. congruence. Qed.

Lemma keys_all (mk : Z -> res sub_key) (shape : Z -> sub_key) (l : list Z) ks : (forall v k, mk v = Ok k -> k = shape v) ->
  mapM (fun v => let! k := mk v in Ok (Some k)) l = Ok ks -> ks = map (fun v => Some (shape v)) l.
Proof.
  intros H. revert ks. induction l as [|v l IH]; intros ks E; cbn [mapM] in E; [injection E as <-; reflexivity|].
  destruct (mk v) as [k|] eqn:M; [|discriminate]. cbn [bind] in E. destruct (mapM _ l) as [t|]; [|discriminate]. cbn [bind] in E. injection E as <-.
  rewrite (H _ _ M), (IH t eq_refl). reflexivity.
Qed.

Lemma parts_of s groups : clear_spec s -> create_sub_keys s = Ok groups ->
  forall agg sk, (exists sks, In (agg, sks) groups /\ In sk sks) <-> part s agg sk.
Proof.
  intros C E agg sk. unfold create_sub_keys in E. apply bind_ok in E. destruct E as (r1 & E1 & E). apply bind_ok in E. destruct E as (r2 & E2 & E). injection E as <-.
  (* the binarization *)
  assert (R1 : ((r1 = [] /\ ~ binarized s) \/ (exists l, r1 = [(None, l)]) /\ binarized s) /\
               forall a x, (exists l, In (a, l) r1 /\ In x l) <->
                 exists b, ms_binarize s = Some b /\ a = None /\
                   ((exists c, In c (b_class_ids b) /\ x = Some (SubKey (Some c) None None)) \/
                    (exists k, In k (b_k b) /\ x = Some (SubKey None (Some (Z.to_nat k)) None)) \/
                    (exists k, In k (b_top_k b) /\ x = Some (SubKey None None (Some (Z.to_nat k)))))).
  { unfold binarized. destruct (ms_binarize s) as [b|].
    - apply bind_ok in E1. destruct E1 as (cs & Ec & E1). apply bind_ok in E1. destruct E1 as (ks & Ek & E1). apply bind_ok in E1. destruct E1 as (ts & Et & E1). injection E1 as <-.
      apply (keys_all _ (fun v => SubKey (Some v) None None) _ _ mk_class) in Ec.
      apply (keys_all _ (fun v => SubKey None (Some (Z.to_nat v)) None) _ _ mk_kth) in Ek.
      apply (keys_all _ (fun v => SubKey None None (Some (Z.to_nat v))) _ _ mk_top) in Et. subst cs ks ts.
      set (l := map _ (b_class_ids b) ++ _). assert (L : l = [] <-> b_class_ids b = [] /\ b_k b = [] /\ b_top_k b = []).
      { unfold l. destruct (b_class_ids b), (b_k b), (b_top_k b); cbn; intuition discriminate. }
      assert (IN : forall x, In x l <-> (exists c, In c (b_class_ids b) /\ x = Some (SubKey (Some c) None None)) \/
                    (exists k, In k (b_k b) /\ x = Some (SubKey None (Some (Z.to_nat k)) None)) \/
                    (exists k, In k (b_top_k b) /\ x = Some (SubKey None None (Some (Z.to_nat k))))).
      { intros x. unfold l. rewrite !in_app_iff, !in_map_iff. clear. split; intros [(v & A & B)|[(v & A & B)|(v & A & B)]]; eauto 6. }
      clearbody l. split.
      + destruct l as [|y l].
        * left. split; [reflexivity|]. intros (b' & [= <-] & N). destruct (proj1 L eq_refl) as (? & ? & ?). intuition congruence.
        * right. split; [eauto|]. exists b. split; [reflexivity|].
          destruct (b_class_ids b) as [|]; [|left; discriminate]. destruct (b_k b) as [|]; [|right; left; discriminate]. destruct (b_top_k b) as [|]; [|right; right; discriminate]. discriminate (proj2 L ltac:(auto)).
      + intros a x. split.
        * intros (l' & I & X). assert (a = None /\ l' = l) as [-> ->]. { destruct l as [|y l]; [destruct I|]. destruct I as [[= <- <-]|[]]. auto. }
          exists b. split; [reflexivity|]. split; [reflexivity|]. apply IN. exact X.
        * intros (b' & [= <-] & -> & X). apply IN in X. exists l. split; [|exact X]. destruct l; [destruct X|left; reflexivity].
    - injection E1 as <-. split.
      + left. split; [reflexivity|]. intros (b & B & _). discriminate.
      + intros a x. split; [intros (l & [] & _)|intros (b & B & _); discriminate]. }
  destruct R1 as (S1 & I1).
  assert (TY : forall a, aggregation_type a = type_of a) by (intros a; reflexivity).
  assert (BIN : forall ag x, (exists l, In (ag, l) r1 /\ In x l) -> part s ag x).
  { intros ag x X. apply I1 in X. destruct X as (b & B & -> & [(c & I & ->)|[(c & I & ->)|(c & I & ->)]]); [eapply part_class|eapply part_kth|eapply part_top]; eauto. }
  destruct (ms_aggregate s) as [a|] eqn:A.
  - apply bind_ok in E2. destruct E2 as (ts & Et & E2). injection E2 as <-. apply (keys_all _ (fun v => SubKey None None (Some (Z.to_nat v))) _ _ mk_top) in Et.
    set (l := match ts with [] => [None] | _ => ts end).
    assert (IL : forall x, In x l <-> ((a_top_k a = None \/ a_top_k a = Some []) /\ x = None) \/ exists l' k, a_top_k a = Some l' /\ In k l' /\ x = Some (SubKey None None (Some (Z.to_nat k)))).
    { intros x. unfold l. rewrite Et. destruct (a_top_k a) as [[|v t]|].
      - cbn [map In]. split; [intros [<-|[]]; auto|intros [[_ ->]|(l' & k & [= <-] & [] & _)]; auto].
      - change (match map (fun v => Some (SubKey None None (Some (Z.to_nat v)))) (v :: t) with [] => [None] | _ => map (fun v => Some (SubKey None None (Some (Z.to_nat v)))) (v :: t) end) with (map (fun v => Some (SubKey None None (Some (Z.to_nat v)))) (v :: t)).
        rewrite in_map_iff. split.
        + intros (k & <- & K). right. exists (v :: t), k. auto.
        + intros [[[X|X] _]|(l' & k & [= <-] & K & ->)]; [discriminate|discriminate|eauto].
      - cbn [map In]. split; [intros [<-|[]]; auto|intros [[_ ->]|(l' & k & X & _)]; [auto|discriminate]]. }
    clearbody l.
    set (groups := dset opt_agg_eqb r1 (aggregation_type a) l).
    assert (G : (forall ag x, (exists l', In (ag, l') groups /\ In x l') <-> (ag = type_of a /\ In x l) \/ (exists l', In (ag, l') r1 /\ In x l')) /\ groups <> []).
    { unfold groups. rewrite TY. destruct S1 as [[-> _]|[(l1 & ->) B]].
      - cbn [dset]. split; [|discriminate]. intros ag x. cbn [In]. split; [intros (l' & [[= <- <-]|[]] & X); auto|intros [[-> X]|(l' & [] & _)]; eauto].
      - assert (T : type_of a <> None) by (apply C; [exact B|exact A]).
        cbn [dset]. destruct (type_of a) as [t|]; [|congruence]. cbn [opt_agg_eqb option_eqb]. split; [|discriminate]. intros ag x. cbn [In]. split.
        + intros (l' & [[= <- <-]|[[= <- <-]|[]]] & X); [right; exists l1; auto|left; auto].
        + intros [[-> X]|(l' & [[= <- <-]|[]] & X)]; [exists l; auto|exists l1; auto]. }
    destruct G as (G & GN). clearbody groups. assert (Q : (match groups with [] => [(None, [None])] | _ => groups end) = groups) by (destruct groups; congruence).
    rewrite Q, G. split.
    + intros [[-> X]|X]; [|exact (BIN _ _ X)]. apply IL in X. destruct X as [[T ->]|(l' & k & T & K & ->)]; [eapply part_average; eauto|eapply part_average_top; eauto].
    + intros P. inversion P as [b c B I|b c B I|b c B I|a' A' T|a' l' k A' T I|N A']; subst.
      * right. apply I1. exists b. eauto 6.
      * right. apply I1. exists b. eauto 7.
      * right. apply I1. exists b. eauto 7.
      * left. assert (a' = a) by congruence. subst a'. split; [reflexivity|]. apply IL. auto.
      * left. assert (a' = a) by congruence. subst a'. split; [reflexivity|]. apply IL. eauto 6.
      * congruence.
  - injection E2 as <-. destruct S1 as [[-> NB]|[(l1 & ->) B]].
    + split.
      * intros (sks & [[= <- <-]|[]] & [<-|[]]). constructor; auto.
      * intros P. inversion P as [b c B I|b c B I|b c B I|a' A' T|a' l' k A' T I|N A']; subst; try congruence.
        -- destruct (proj2 (I1 None (Some (SubKey (Some c) None None)))) as (? & [] & _). exists b. eauto 6.
        -- destruct (proj2 (I1 None (Some (SubKey None (Some (Z.to_nat c)) None)))) as (? & [] & _). exists b. eauto 7.
        -- destruct (proj2 (I1 None (Some (SubKey None None (Some (Z.to_nat c)))))) as (? & [] & _). exists b. eauto 7.
        -- exists [None]. split; left; reflexivity.
    + split; [apply BIN|]. intros P. inversion P as [b c B' I|b c B' I|b c B' I|a' A' T|a' l' k A' T I|N A']; subst; try congruence; try contradiction; apply I1; exists b; eauto 7.
Qed.

Lemma key_group s groups n ws k : clear_spec s -> create_sub_keys s = Ok groups ->
  ((exists g, In g groups /\ In k (keys_for n s (fst g) (snd g) ws)) <-> exists w, In w ws /\ key_of s n w k).
Proof.
  intros C E. assert (P := parts_of s groups C E). split.
  - intros ([agg sks] & G & K). cbn [fst snd] in K. apply keys_for_In in K. destruct K as (m & o & sk & w & M & O & S & W & ->).
    exists w. split; [exact W|]. constructor; [exact M|exact O|]. apply P. eauto.
  - intros (w & W & K). inversion K as [m o agg sk M O S]; subst. apply P in S. destruct S as (sks & G & S). exists (agg, sks). split; [exact G|]. cbn [fst snd].
    apply keys_for_In. exists m, o, sk, w. auto 6.
Qed.

Lemma named_ok s es : clear_spec (ts_spec s) -> named_entries s = Ok es ->
  forall k sc t, In (k, sc, t) es <->
    bounded t /\ exists n pl, key_of (ts_spec s) n None k /\ reads pl sc /\
      ((pl = Everywhere /\ In (n, t) (ts_thresholds s)) \/
       (exists l p sl, pl = On sl /\ In (n, l) (ts_per_slice s) /\ In p l /\ In sl (ps_specs p) /\ t = ps_threshold p) \/
       (exists l p c, pl = Between c /\ In (n, l) (ts_cross s) /\ In p l /\ In c (xs_specs p) /\ t = xs_threshold p)).
Proof.
  intros C E k sc t. unfold named_entries in E. apply bind_ok in E. destruct E as (groups & G & E).
  destruct (gather_ok _ _ _ E) as (T & I). rewrite I. clear I.
  assert (KG : forall n k, (exists g, In g groups /\ In k (keys_for n (ts_spec s) (fst g) (snd g) [None])) <-> key_of (ts_spec s) n None k).
  { intros n k'. rewrite (key_group _ _ _ _ _ C G). split; [intros (w & [<-|[]] & K); exact K|intros K; exists None; split; [left; reflexivity|exact K]]. }
  split.
  - intros (g & eg & GI & F & X). apply bind_ok in F. destruct F as (e1 & F1 & F). apply bind_ok in F. destruct F as (e2 & F2 & F). apply bind_ok in F. destruct F as (e3 & F3 & F). injection F as <-.
    apply in_app_or in X. destruct X as [X|X]; [|apply in_app_or in X; destruct X as [X|X]].
    + apply (gather_ok _ _ _ F1) in X. destruct X as ((n, t') & e4 & N & F4 & X). apply (gather_ok _ _ _ F4) in X. destruct X as (k' & e5 & K & F5 & X).
      apply (entry_of_ok _ _ _ _ F5) in X. destruct X as (B & x & [= <-] & [= -> -> ->]). split; [exact B|]. exists n, Everywhere. split; [apply KG; eauto|]. split; [constructor|]. left. auto.
    + apply (gather_ok _ _ _ F2) in X. destruct X as ((n, l) & e4 & N & F4 & X). apply (gather_ok _ _ _ F4) in X. destruct X as (k' & e5 & K & F5 & X).
      apply (slice_entries_ok _ _ _ F5) in X. destruct X as (p & sl & sc' & P & S & B & R & [= -> -> ->]). split; [exact B|]. exists n, (On sl). split; [apply KG; eauto|]. split; [exact R|]. right. left. exists l, p, sl. auto 6.
    + apply (gather_ok _ _ _ F3) in X. destruct X as ((n, l) & e4 & N & F4 & X). apply (gather_ok _ _ _ F4) in X. destruct X as (k' & e5 & K & F5 & X).
      apply (cross_entries_ok _ _ _ F5) in X. destruct X as (p & c & sc' & P & S & B & R & [= -> -> ->]). split; [exact B|]. exists n, (Between c). split; [apply KG; eauto|]. split; [exact R|]. right. right. exists l, p, c. auto 6.
  - intros (B & n & pl & K & R & H). apply KG in K. destruct K as (g & GI & K). destruct (T g GI) as [eg F]. exists g, eg. split; [exact GI|]. split; [exact F|].
    apply bind_ok in F. destruct F as (e1 & F1 & F). apply bind_ok in F. destruct F as (e2 & F2 & F). apply bind_ok in F. destruct F as (e3 & F3 & F). injection F as <-.
    apply in_or_app. destruct H as [[-> N]|[(l & p & sl & -> & N & P & S & ->)|(l & p & c & -> & N & P & S & ->)]].
    + left. destruct (gather_ok _ _ _ F1) as (T1 & I1). destruct (T1 _ N) as [e4 F4]. apply I1. exists (n, t), e4. split; [exact N|]. split; [exact F4|].
      destruct (gather_ok _ _ _ F4) as (T4 & I4). destruct (T4 _ K) as [e5 F5]. apply I4. exists k, e5. split; [exact K|]. split; [exact F5|].
      apply (entry_of_ok _ _ _ _ F5). split; [exact B|]. exists sc. inversion R; subst. auto.
    + right. apply in_or_app. left. destruct (gather_ok _ _ _ F2) as (T1 & I1). destruct (T1 _ N) as [e4 F4]. apply I1. exists (n, l), e4. split; [exact N|]. split; [exact F4|].
      destruct (gather_ok _ _ _ F4) as (T4 & I4). destruct (T4 _ K) as [e5 F5]. apply I4. exists k, e5. split; [exact K|]. split; [exact F5|].
      apply (slice_entries_ok _ _ _ F5). exists p, sl, sc. auto 6.
    + right. apply in_or_app. right. destruct (gather_ok _ _ _ F3) as (T1 & I1). destruct (T1 _ N) as [e4 F4]. apply I1. exists (n, l), e4. split; [exact N|]. split; [exact F4|].
      destruct (gather_ok _ _ _ F4) as (T4 & I4). destruct (T4 _ K) as [e5 F5]. apply I4. exists k, e5. split; [exact K|]. split; [exact F5|].
      apply (cross_entries_ok _ _ _ F5). exists p, c, sc. auto 6.
Qed.

Lemma own_ok default s es : clear_spec (ts_spec s) -> metric_entries default s = Ok es ->
  forall k sc t, In (k, sc, t) es <->
    bounded t /\ exists m w pl, In m (ts_metrics s) /\ weighting default (ts_spec s) w /\ key_of (ts_spec s) (mc_name m) (Some w) k /\ reads pl sc /\
      ((pl = Everywhere /\ mc_threshold m = Some t) \/
       (exists p sl, pl = On sl /\ In p (mc_per_slice m) /\ In sl (ps_specs p) /\ t = ps_threshold p) \/
       (exists p c, pl = Between c /\ In p (mc_cross m) /\ In c (xs_specs p) /\ t = xs_threshold p)).
Proof.
  intros C E k sc t. unfold metric_entries in E. apply bind_ok in E. destruct E as (groups & G & E).
  destruct (gather_ok _ _ _ E) as (T & I). rewrite I. clear I.
  assert (KG : forall n k, (exists g, In g groups /\ In k (keys_for n (ts_spec s) (fst g) (snd g) (map Some (example_weight_options (default (ts_spec s)) (ts_spec s))))) <->
    exists w, weighting default (ts_spec s) w /\ key_of (ts_spec s) n (Some w) k).
  { intros n k'. rewrite (key_group _ _ _ _ _ C G). split.
    - intros (w & W & K). apply in_map_iff in W. destruct W as (w' & <- & W). apply weights_In in W. eauto.
    - intros (w & W & K). exists (Some w). split; [|exact K]. apply in_map, weights_In. exact W. }
  split.
  - intros (g & eg & GI & F & X). apply (gather_ok _ _ _ F) in X. destruct X as (m & em & M & F' & X). apply (gather_ok _ _ _ F') in X. destruct X as (k' & ek & K & F0 & X).
    apply bind_ok in F0. destruct F0 as (e1 & F1 & F0). apply bind_ok in F0. destruct F0 as (e2 & F2 & F0). apply bind_ok in F0. destruct F0 as (e3 & F3 & F0). injection F0 as <-.
    assert (KW := proj1 (KG (mc_name m) k') (ex_intro _ g (conj GI K))). destruct KW as (w & W & KO).
    apply in_app_or in X. destruct X as [X|X]; [|apply in_app_or in X; destruct X as [X|X]].
    + destruct (mc_threshold m) as [t'|] eqn:TH; [|injection F1 as <-; destruct X]. apply (entry_of_ok _ _ _ _ F1) in X. destruct X as (B & x & [= <-] & [= -> -> ->]). split; [exact B|].
      exists m, w, Everywhere. split; [exact M|]. split; [exact W|]. split; [exact KO|]. split; [constructor|]. left. auto.
    + apply (slice_entries_ok _ _ _ F2) in X. destruct X as (p & sl & sc' & P & S & B & R & [= -> -> ->]). split; [exact B|].
      exists m, w, (On sl). split; [exact M|]. split; [exact W|]. split; [exact KO|]. split; [exact R|]. right. left. eauto 6.
    + apply (cross_entries_ok _ _ _ F3) in X. destruct X as (p & sl & sc' & P & S & B & R & [= -> -> ->]). split; [exact B|].
      exists m, w, (Between sl). split; [exact M|]. split; [exact W|]. split; [exact KO|]. split; [exact R|]. right. right. eauto 6.
  - intros (B & m & w & pl & M & W & KO & R & H). destruct (proj2 (KG (mc_name m) k) (ex_intro _ w (conj W KO))) as (g & GI & K). destruct (T g GI) as [eg F]. exists g, eg. split; [exact GI|]. split; [exact F|].
    destruct (gather_ok _ _ _ F) as (TF & IF). apply IF. destruct (TF m M) as [em F']. exists m, em. split; [exact M|]. split; [exact F'|].
    destruct (gather_ok _ _ _ F') as (TF' & IF'). apply IF'. destruct (TF' k K) as [ek F0]. exists k, ek. split; [exact K|]. split; [exact F0|].
    apply bind_ok in F0. destruct F0 as (e1 & F1 & F0). apply bind_ok in F0. destruct F0 as (e2 & F2 & F0). apply bind_ok in F0. destruct F0 as (e3 & F3 & F0). injection F0 as <-.
    apply in_or_app. destruct H as [[-> N]|[(p & sl & -> & P & S & ->)|(p & c & -> & P & S & ->)]].
    + left. rewrite N in F1. apply (entry_of_ok _ _ _ _ F1). split; [exact B|]. exists sc. inversion R; subst. auto.
    + right. apply in_or_app. left. apply (slice_entries_ok _ _ _ F2). exists p, sl, sc. auto 6.
    + right. apply in_or_app. right. apply (cross_entries_ok _ _ _ F3). exists p, c, sc. auto 6.
Qed.

(** The entries are what is configured. *)

Lemma entries_configured default specs named own : Forall (fun s => clear_spec (ts_spec s)) specs ->
  gather named_entries specs = Ok named -> gather (metric_entries default) specs = Ok own ->
  forall k sc t, In (k, sc, t) (named ++ own) <-> bounded t /\ exists pl, configured default specs k pl t /\ reads pl sc.
Proof.
  intros C E1 E2 k sc t. rewrite Forall_forall in C. destruct (gather_ok _ _ _ E1) as (T1 & I1). destruct (gather_ok _ _ _ E2) as (T2 & I2). rewrite in_app_iff, I1, I2. split.
  - intros [(s & es & S & F & X)|(s & es & S & F & X)].
    + apply (named_ok _ _ (C s S) F) in X. destruct X as (B & n & pl & K & R & H). split; [exact B|]. exists pl. split; [|exact R].
      destruct H as [[-> N]|[(l & p & sl & -> & N & P & SL & ->)|(l & p & c & -> & N & P & SL & ->)]]; [eapply named_everywhere|eapply named_on|eapply named_between]; eauto.
    + apply (own_ok _ _ _ (C s S) F) in X. destruct X as (B & m & w & pl & M & W & K & R & H). split; [exact B|]. exists pl. split; [|exact R].
      destruct H as [[-> N]|[(p & sl & -> & P & SL & ->)|(p & c & -> & P & SL & ->)]]; [eapply own_everywhere|eapply own_on|eapply own_between]; eauto.
  - intros (B & pl & H & R).
    destruct H as [s n t k S N K|s n l p sl k S N P SL K|s n l p c k S N P SL K|s m t w k S M N W K|s m p sl w k S M P SL W K|s m p c w k S M P SL W K].
    + left. destruct (T1 s S) as [es F]. exists s, es. split; [exact S|]. split; [exact F|]. apply (named_ok _ _ (C s S) F). split; [exact B|]. exists n, Everywhere. auto.
    + left. destruct (T1 s S) as [es F]. exists s, es. split; [exact S|]. split; [exact F|]. apply (named_ok _ _ (C s S) F). split; [exact B|]. exists n, (On sl). split; [exact K|]. split; [exact R|]. right. left. exists l, p, sl. auto 6.
    + left. destruct (T1 s S) as [es F]. exists s, es. split; [exact S|]. split; [exact F|]. apply (named_ok _ _ (C s S) F). split; [exact B|]. exists n, (Between c). split; [exact K|]. split; [exact R|]. right. right. exists l, p, c. auto 6.
    + right. destruct (T2 s S) as [es F]. exists s, es. split; [exact S|]. split; [exact F|]. apply (own_ok _ _ _ (C s S) F). split; [exact B|]. exists m, w, Everywhere. auto 7.
    + right. destruct (T2 s S) as [es F]. exists s, es. split; [exact S|]. split; [exact F|]. apply (own_ok _ _ _ (C s S) F). split; [exact B|]. exists m, w, (On sl). split; [exact M|]. split; [exact W|]. split; [exact K|]. split; [exact R|]. right. left. eauto 6.
    + right. destruct (T2 s S) as [es F]. exists s, es. split; [exact S|]. split; [exact F|]. apply (own_ok _ _ _ (C s S) F). split; [exact B|]. exists m, w, (Between c). split; [exact M|]. split; [exact W|]. split; [exact K|]. split; [exact R|]. right. right. eauto 6.
Qed.

Lemma bounds_bounded k0 mt k t : bounds k0 mt k t -> bounded mt.
Proof. unfold bounded. intros [(l & u & _ & E & _)|(a & r & d & _ & E & _)]; [left|right]; congruence. Qed.

Lemma C294_thresholds_used_pf :
  forall default specs r, Forall (fun s => clear_spec (ts_spec s)) specs -> thresholds_of default specs = Ok r ->
    (forall k sc t, Validation_Main.has r k sc t ->
       exists k0 pl mt, configured default specs k0 pl mt /\ reads pl sc /\ bounds k0 mt k t) /\
    (forall k0 pl mt k t, configured default specs k0 pl mt -> bounds k0 mt k t ->
       exists sc sc', reads pl sc /\ same_place sc sc' /\ Validation_Main.has r k sc' t).
Proof.
  intros default specs r C E. assert (E0 := E). unfold thresholds_of in E. apply bind_ok in E. destruct E as (named & E1 & E). apply bind_ok in E. destruct E as (own & E2 & E). injection E as <-.
  assert (IN := entries_configured default specs named own C E1 E2).
  destruct (C87_thresholds_used_pf (named ++ own)) as (U1 & U2 & _). split.
  - intros k sc t H. destruct (U1 _ _ _ H) as ([[k0 sc0] mt] & I & A). cbn [asks] in A. destruct A as (-> & A). apply IN in I. destruct I as (_ & pl & CF & R). exists k0, pl, mt. auto.
  - intros k0 pl mt k t CF B.
    assert (RD : exists sc, reads pl sc).
    { rewrite Forall_forall in C. destruct (gather_ok _ _ _ E1) as (T1 & _). destruct (gather_ok _ _ _ E2) as (T2 & _). assert (BD := bounds_bounded _ _ _ _ B).
      destruct CF as [s n t0 k0 S N K|s n l p sl k0 S N P SL K|s n l p c k0 S N P SL K|s m t0 w k0 S M N W K|s m p sl w k0 S M P SL W K|s m p c w k0 S M P SL W K];
        try (exists None; constructor).
      - destruct (T1 s S) as [es F]. unfold named_entries in F. apply bind_ok in F. destruct F as (groups & G & F). destruct (proj2 (key_group _ _ n [None] k0 (C s S) G)) as (g & GI & KI); [exists None; split; [left; reflexivity|exact K]|].
        destruct (proj1 (gather_ok _ _ _ F) g GI) as [eg F0]. apply bind_ok in F0. destruct F0 as (e1 & F1 & F0). apply bind_ok in F0. destruct F0 as (e2 & F2 & F0).
        destruct (proj1 (gather_ok _ _ _ F2) _ N) as [e4 F4]. destruct (proj1 (gather_ok _ _ _ F4) _ KI) as [e5 F5]. destruct (proj1 (gather_ok _ _ _ F5) _ P) as [e6 F6]. destruct (proj1 (gather_ok _ _ _ F6) _ SL) as [e7 F7].
        unfold entry_of in F7. cbn [fst snd] in F7. destruct BD as [BD|BD].
        + destruct (mt_value (ps_threshold p)); [|congruence]. apply bind_ok in F7. destruct F7 as (sc & F7 & _). exists sc. apply single_reads. exact F7.
        + destruct (mt_change (ps_threshold p)); [|congruence]. destruct (mt_value (ps_threshold p)); apply bind_ok in F7; destruct F7 as (sc & F7 & _); exists sc; apply single_reads; exact F7.
      - destruct (T1 s S) as [es F]. unfold named_entries in F. apply bind_ok in F. destruct F as (groups & G & F). destruct (proj2 (key_group _ _ n [None] k0 (C s S) G)) as (g & GI & KI); [exists None; split; [left; reflexivity|exact K]|].
        destruct (proj1 (gather_ok _ _ _ F) g GI) as [eg F0]. apply bind_ok in F0. destruct F0 as (e1 & F1 & F0). apply bind_ok in F0. destruct F0 as (e2 & F2 & F0). apply bind_ok in F0. destruct F0 as (e3 & F3 & F0).
        destruct (proj1 (gather_ok _ _ _ F3) _ N) as [e4 F4]. destruct (proj1 (gather_ok _ _ _ F4) _ KI) as [e5 F5]. destruct (proj1 (gather_ok _ _ _ F5) _ P) as [e6 F6]. destruct (proj1 (gather_ok _ _ _ F6) _ SL) as [e7 F7].
        unfold entry_of in F7. destruct BD as [BD|BD].
        + destruct (mt_value (xs_threshold p)); [|congruence]. apply bind_ok in F7. destruct F7 as (sc & F7 & _). exists sc. apply cross_reads. exact F7.
        + destruct (mt_change (xs_threshold p)); [|congruence]. destruct (mt_value (xs_threshold p)); apply bind_ok in F7; destruct F7 as (sc & F7 & _); exists sc; apply cross_reads; exact F7.
      - destruct (T2 s S) as [es F]. unfold metric_entries in F. apply bind_ok in F. destruct F as (groups & G & F). destruct (proj2 (key_group _ _ (mc_name m) (map Some (example_weight_options (default (ts_spec s)) (ts_spec s))) k0 (C s S) G)) as (g & GI & KI).
        { exists (Some w). split; [apply in_map, weights_In; exact W|exact K]. }
        destruct (proj1 (gather_ok _ _ _ F) g GI) as [eg F0]. destruct (proj1 (gather_ok _ _ _ F0) m M) as [em F1]. destruct (proj1 (gather_ok _ _ _ F1) k0 KI) as [ek F2].
        apply bind_ok in F2. destruct F2 as (e1 & _ & F2). apply bind_ok in F2. destruct F2 as (e2 & F5 & F2). destruct (proj1 (gather_ok _ _ _ F5) _ P) as [e6 F6]. destruct (proj1 (gather_ok _ _ _ F6) _ SL) as [e7 F7].
        unfold entry_of in F7. destruct BD as [BD|BD].
        + destruct (mt_value (ps_threshold p)); [|congruence]. apply bind_ok in F7. destruct F7 as (sc & F7 & _). exists sc. apply single_reads. exact F7.
        + destruct (mt_change (ps_threshold p)); [|congruence]. destruct (mt_value (ps_threshold p)); apply bind_ok in F7; destruct F7 as (sc & F7 & _); exists sc; apply single_reads; exact F7.
      - destruct (T2 s S) as [es F]. unfold metric_entries in F. apply bind_ok in F. destruct F as (groups & G & F). destruct (proj2 (key_group _ _ (mc_name m) (map Some (example_weight_options (default (ts_spec s)) (ts_spec s))) k0 (C s S) G)) as (g & GI & KI).
        { exists (Some w). split; [apply in_map, weights_In; exact W|exact K]. }
        destruct (proj1 (gather_ok _ _ _ F) g GI) as [eg F0]. destruct (proj1 (gather_ok _ _ _ F0) m M) as [em F1]. destruct (proj1 (gather_ok _ _ _ F1) k0 KI) as [ek F2].
        apply bind_ok in F2. destruct F2 as (e1 & _ & F2). apply bind_ok in F2. destruct F2 as (e2 & _ & F2). apply bind_ok in F2. destruct F2 as (e3 & F5 & F2). destruct (proj1 (gather_ok _ _ _ F5) _ P) as [e6 F6]. destruct (proj1 (gather_ok _ _ _ F6) _ SL) as [e7 F7].
        unfold entry_of in F7. destruct BD as [BD|BD].
        + destruct (mt_value (xs_threshold p)); [|congruence]. apply bind_ok in F7. destruct F7 as (sc & F7 & _). exists sc. apply cross_reads. exact F7.
        + destruct (mt_change (xs_threshold p)); [|congruence]. destruct (mt_value (xs_threshold p)); apply bind_ok in F7; destruct F7 as (sc & F7 & _); exists sc; apply cross_reads; exact F7. }
    destruct RD as (sc & R). destruct (U2 (k0, sc, mt) k sc t) as (sc' & SP & H).
    + apply IN. split; [exact (bounds_bounded _ _ _ _ B)|]. eauto.
    + cbn [asks]. split; [reflexivity|exact B].
    + exists sc, sc'. auto.
Qed.

(** Two metrics of a spec for two classes, weighted and not; one has a bound on all slices and one
    on a slice, and a metric of the model is bounded by name. *)

Definition low (z : Z) : metric_threshold := MetricThreshold (Some (Some (Fin (qz z)), None)) None.

Definition at_least (z : Z) : threshold := ValueThreshold (Some (Fin (qz z))) None.

Definition sliced_by (c : string) : slicing := Slicing (SlicingSpec [c] []) "".

(** Positions count from 1. *)

Definition positive_positions (s : metrics_spec) : Prop :=
  (forall b k, ms_binarize s = Some b -> In k (b_k b) \/ In k (b_top_k b) -> (1 <= k)%Z) /\
  (forall a l k, ms_aggregate s = Some a -> a_top_k a = Some l -> In k l -> (1 <= k)%Z).

Lemma keys_total (mk : Z -> res sub_key) l : (forall v, In v l -> exists k, mk v = Ok k) ->
  exists ks, mapM (fun v => let! k := mk v in Ok (Some k)) l = Ok ks.
Proof.
  induction l as [|v l IH]; intros H; cbn [mapM]; [eauto|]. destruct (H v (or_introl eq_refl)) as [k ->]. cbn [bind]. destruct IH as [ks ->]; [intros w W; apply H; right; exact W|]. cbn [bind]. eauto.
Qed.

Lemma ltb_1 k : (1 <= k)%Z -> Z.ltb k 1 = false.
Proof. intros H. apply Z.ltb_ge. exact H. Qed.

Lemma groups_total s : positive_positions s -> exists groups, create_sub_keys s = Ok groups.
Proof.
  intros [P1 P2]. unfold create_sub_keys.
  assert (E1 : exists r1, match ms_binarize s with
             | None => Ok []
             | Some b =>
                 let! cs := mapM (fun v => let! k := mk_sub_key (Some v) None None in Ok (Some k)) (b_class_ids b) in
                 let! ks := mapM (fun v => let! k := mk_sub_key None (Some v) None in Ok (Some k)) (b_k b) in
                 let! ts := mapM (fun v => let! k := mk_sub_key None None (Some v) in Ok (Some k)) (b_top_k b) in
                 Ok (match cs ++ ks ++ ts with [] => [] | l => [(@None agg_type, l)] end)
             end = Ok r1).
  { destruct (ms_binarize s) as [b|]; [|eauto].
    destruct (keys_total (fun v => mk_sub_key (Some v) None None) (b_class_ids b)) as [cs ->]; [intros v _; cbn; eauto|]. cbn [bind].
    destruct (keys_total (fun v => mk_sub_key None (Some v) None) (b_k b)) as [ks ->]; [intros v V; cbn; rewrite (ltb_1 v (P1 b v eq_refl (or_introl V))); eauto|]. cbn [bind].
    destruct (keys_total (fun v => mk_sub_key None None (Some v)) (b_top_k b)) as [ts ->]; [intros v V; cbn; rewrite (ltb_1 v (P1 b v eq_refl (or_intror V))); eauto|]. cbn [bind]. eauto. }
  destruct E1 as [r1 E1]. rewrite E1. cbn [bind]. destruct (ms_aggregate s) as [a|]; [|cbn [bind]; eauto].
  destruct (keys_total (fun v => mk_sub_key None None (Some v)) (match a_top_k a with Some l => l | None => [] end)) as [ts ->]; [|cbn [bind]; eauto].
  intros v V. destruct (a_top_k a) as [l|] eqn:T; [|destruct V]. cbn. rewrite (ltb_1 v (P2 a l v eq_refl T V)). eauto.
Qed.

Lemma C294_accepted_pf :
  forall default specs,
    Forall (fun s => clear_spec (ts_spec s) /\ positive_positions (ts_spec s)) specs ->
    (forall k pl mt, configured default specs k pl mt -> exists sc, reads pl sc) ->
    exists r, thresholds_of default specs = Ok r.
Proof.
  intros default specs C H. rewrite Forall_forall in C. unfold thresholds_of.
  assert (E1 : exists es, gather named_entries specs = Ok es).
  { apply gather_total. intros s S. destruct (C s S) as [CS PS]. unfold named_entries. destruct (groups_total _ PS) as [groups G]. rewrite G. cbn [bind]. apply gather_total. intros g GI.
    assert (K : forall n k, In k (keys_for n (ts_spec s) (fst g) (snd g) [None]) -> key_of (ts_spec s) n None k).
    { intros n k K. destruct (proj1 (key_group (ts_spec s) groups n [None] k CS G)) as (w & [<-|[]] & X); [eauto|exact X]. }
    destruct (gather_total (fun nt => gather (fun k => entry_of k (Ok None) (snd nt)) (keys_for (fst nt) (ts_spec s) (fst g) (snd g) [None])) (ts_thresholds s)) as [e1 ->].
    { intros nt _. apply gather_total. intros k _. apply entry_of_total. eauto. }
    cbn [bind].
    destruct (gather_total (fun nl => gather (fun k => slice_entries k (snd nl)) (keys_for (fst nl) (ts_spec s) (fst g) (snd g) [None])) (ts_per_slice s)) as [e2 ->].
    { intros [n l] N. apply gather_total. intros k KI. apply gather_total. intros p P. apply gather_total. intros sl SL. apply entry_of_total. intros _.
      destruct (H k (On sl) (ps_threshold p)) as [sc R]; [eapply named_on; eauto|]. exists sc. apply single_reads. exact R. }
    cbn [bind].
    destruct (gather_total (fun nl => gather (fun k => cross_entries k (snd nl)) (keys_for (fst nl) (ts_spec s) (fst g) (snd g) [None])) (ts_cross s)) as [e3 ->].
    { intros [n l] N. apply gather_total. intros k KI. apply gather_total. intros p P. apply gather_total. intros sl SL. apply entry_of_total. intros _.
      destruct (H k (Between sl) (xs_threshold p)) as [sc R]; [eapply named_between; eauto|]. exists sc. apply cross_reads. exact R. }
    cbn [bind]. eauto. }
  destruct E1 as [named ->]. cbn [bind].
  assert (E2 : exists es, gather (metric_entries default) specs = Ok es).
  { apply gather_total. intros s S. destruct (C s S) as [CS PS]. unfold metric_entries. destruct (groups_total _ PS) as [groups G]. rewrite G. cbn [bind]. apply gather_total. intros g GI. apply gather_total. intros m M. apply gather_total. intros k KI.
    assert (K : exists w, weighting default (ts_spec s) w /\ key_of (ts_spec s) (mc_name m) (Some w) k).
    { destruct (proj1 (key_group (ts_spec s) groups (mc_name m) _ k CS G) (ex_intro _ g (conj GI KI))) as (w & W & X). apply in_map_iff in W. destruct W as (w' & <- & W). exists w'. split; [apply weights_In; exact W|exact X]. }
    destruct K as (w & W & K).
    assert (E1 : exists e1, match mc_threshold m with Some t => entry_of k (Ok None) t | None => Ok [] end = Ok e1) by (destruct (mc_threshold m); [apply entry_of_total; eauto|eauto]).
    destruct E1 as [e1 ->]. cbn [bind].
    destruct (gather_total (fun p => gather (fun s => entry_of k (some_scope (single_scope s)) (ps_threshold p)) (ps_specs p)) (mc_per_slice m)) as [e2 E2].
    { intros p P. apply gather_total. intros sl SL. apply entry_of_total. intros _.
      destruct (H k (On sl) (ps_threshold p)) as [sc R]; [eapply own_on; eauto|]. exists sc. apply single_reads. exact R. }
    unfold slice_entries. rewrite E2. cbn [bind].
    destruct (gather_total (fun p => gather (fun s => entry_of k (some_scope (cross_scope s)) (xs_threshold p)) (xs_specs p)) (mc_cross m)) as [e3 E3].
    { intros p P. apply gather_total. intros sl SL. apply entry_of_total. intros _.
      destruct (H k (Between sl) (xs_threshold p)) as [sc R]; [eapply own_between; eauto|]. exists sc. apply cross_reads. exact R. }
    unfold cross_entries. rewrite E3. cbn [bind]. eauto. }
  destruct E2 as [own ->]. cbn [bind]. eauto.
Qed.

(** The slices at a place, by the features they are made of. *)

Definition at_place (pl : place) (slice : slice_key) : Prop :=
  match pl, slice with
  | Everywhere, inl _ => True
  | On s, inl k => selected_by (sl_spec s) (One k)
  | Between c, inr (b, k) => selected_by (sl_spec (cs_base c)) (One b) /\ exists s, In s (cs_specs c) /\ selected_by (sl_spec s) (One k)
  | _, _ => False
  end.

(** The feature values of a slicing spec are a map. *)

Definition is_map (s : slicing) : Prop := NoDup (map fst (sp_values (sl_spec s))).

Definition proper (pl : place) : Prop :=
  match pl with Everywhere => True | On s => is_map s | Between c => is_map (cs_base c) /\ Forall is_map (cs_specs c) end.

Lemma applicable_same s s' sp sp' k : is_map s -> is_map s' -> mk_spec (sl_spec s) = Ok sp -> mk_spec (sl_spec s') = Ok sp' ->
  same_spec sp sp' -> is_slice_applicable sp k = true -> is_slice_applicable sp' k = true.
Proof.
  intros M M' E E' [SC SF] A. apply (C02_applicable_characterised_pf _ _ k M E) in A. apply (C02_applicable_characterised_pf _ _ k M' E'). destruct A as [P V].
  destruct (Slicer_Proofs.mk_spec_wf no_repr all_utf8 (sl_spec s) sp M E) as [(N1 & N2 & D) _]. destruct (Slicer_Proofs.mk_spec_wf no_repr all_utf8 (sl_spec s') sp' M' E') as [(N1' & N2' & D') _].
  split.
  - rewrite P. apply Permutation_app; [apply NoDup_Permutation; auto|]. apply NoDup_Permutation; [exact N2|exact N2'|]. intros n. rewrite !in_map_iff. split.
    + intros ([n' v] & <- & I). apply (in_map canon_pair), SF, in_map_iff in I. destruct I as ([n2 v2] & Q & I). exists (n2, v2). split; [|exact I]. unfold canon_pair in Q. cbn [fst snd] in Q |- *. injection Q as Q _. exact Q.
    + intros ([n' v] & <- & I). apply (in_map canon_pair), SF, in_map_iff in I. destruct I as ([n2 v2] & Q & I). exists (n2, v2). split; [|exact I]. unfold canon_pair in Q. cbn [fst snd] in Q |- *. injection Q as Q _. exact Q.
  - intros n v w I J. apply (in_map canon_pair), SF, in_map_iff in J. destruct J as ([n2 v2] & Q & J). cbn in Q. injection Q as -> Q.
    specialize (V n v v2 I J). apply Slicer_Proofs.py_eqb_same, py_eqb_canon in V. apply Slicer_Proofs.py_eqb_same, py_eqb_canon. congruence.
Qed.

Lemma two_l {X Y} (R : X -> Y -> Prop) l l' : Forall2 R l l' -> forall x, In x l -> exists y, In y l' /\ R x y.
Proof. induction 1 as [|a b l l' H F IH]; intros x I; [destruct I|]. destruct I as [<-|I]; [exists b; split; [left; reflexivity|exact H]|]. destruct (IH x I) as (y & J & K). exists y. split; [right; exact J|exact K]. Qed.

Lemma two_r {X Y} (R : X -> Y -> Prop) l l' : Forall2 R l l' -> forall y, In y l' -> exists x, In x l /\ R x y.
Proof. induction 1 as [|a b l l' H F IH]; intros y I; [destruct I|]. destruct I as [<-|I]; [exists a; split; [left; reflexivity|exact H]|]. destruct (IH y I) as (x & J & K). exists x. split; [right; exact J|exact K]. Qed.

Lemma place_applies pl pl' sc sc' slice : proper pl -> proper pl' -> reads pl sc -> reads pl' sc' -> same_place sc sc' ->
  at_place pl slice -> applies slice sc'.
Proof.
  intros P P' R R' S A. destruct R as [|s sp E|c b ss E F]; destruct slice as [k|[kb kc]]; cbn [at_place] in A; try contradiction;
    destruct R' as [|s' sp' E'|c' b' ss' E' F']; cbn [same_place same_scope] in S; try contradiction.
  - constructor.
  - constructor. apply (applicable_same s s' sp sp' k P P' E E' S). apply (selected_iff _ _ k P E). exact A.
  - destruct P as [P1 P2], P' as [P1' P2'], S as [S1 S2], A as (A1 & x & X & A2).
    destruct (two_l _ _ _ F x X) as (sx & X' & EX).
    assert (Y : exists sy, In sy ss' /\ same_spec sx sy). { clear -S2 X'. induction S2 as [|u v us vs U US IH]; [destruct X'|]. destruct X' as [->|X']; [exists v; split; [left; reflexivity|exact U]|]. destruct (IH X') as (y & Y & Z). exists y. split; [right; exact Y|exact Z]. }
    destruct Y as (sy & Y & SY). destruct (two_r _ _ _ F' sy Y) as (y & Y' & EY). rewrite Forall_forall in P2, P2'.
    apply (applies_cross kb kc b' ss' sy); [|exact Y|].
    + apply (applicable_same (cs_base c) (cs_base c') b b' kb P1 P1' E E' S1). apply (selected_iff _ _ kb P1 E). exact A1.
    + apply (applicable_same x y sx sy kc (P2 x X) (P2' y Y') EX EY SY). apply (selected_iff _ _ kc (P2 x X) EX). exact A2.
Qed.

Lemma C295_ok_means_within_bounds_pf :
  forall default specs r baseline rubber all rs s,
    Forall (fun t => clear_spec (ts_spec t)) specs -> (forall k pl mt, configured default specs k pl mt -> proper pl) ->
    thresholds_of default specs = Ok r -> Forall (fun sm => NoDup (map fst (snd sm))) all ->
    validate_all baseline r all = Ok rs -> Permutation (inputs s) rs ->
    fin_ok (outcome (combine_validations baseline r rubber) s) = true ->
    forall k0 pl mt k t, configured default specs k0 pl mt -> bounds k0 mt k t -> ~ of_baseline baseline k ->
    forall slice metrics, In (slice, metrics) all -> at_place pl slice ->
      exists v, In (k, v) metrics /\ passes baseline metrics k t v.
Proof.
  intros default specs r baseline rubber all rs s C PR E ND VA PM OK k0 pl mt k t CF B NB slice metrics I A.
  destruct (C294_thresholds_used_pf default specs r C E) as (U1 & U2). destruct (U2 k0 pl mt k t CF B) as (sc & sc' & R & SP & H).
  destruct (U1 k sc' t H) as (k1 & pl' & mt' & CF' & R' & _).
  assert (AP := place_applies pl pl' sc sc' slice (PR _ _ _ CF) (PR _ _ _ CF') R R' SP A).
  assert (NR : NoDup (map fst r)). { unfold thresholds_of in E. apply bind_ok in E. destruct E as (named & _ & E). apply bind_ok in E. destruct E as (own & _ & E). injection E as <-. apply C87_thresholds_used_pf. }
  assert (NE : r <> []) by (destruct H as (sts & X & _); destruct r; [destruct X|discriminate]).
  apply (fin_ok_spec baseline r rubber s NE) in OK. destruct OK as (_ & OK & _).
  apply mapM_Forall2 in VA. destruct (two_l _ _ _ VA _ I) as (v & V & EV). cbn [fst snd] in EV.
  assert (VO : v_ok v = true) by (apply OK; apply (Permutation_in _ (Permutation_sym PM)); exact V).
  rewrite Forall_forall in ND. specialize (ND _ I). cbn [snd] in ND.
  destruct (C27_verdict_exact_pf baseline slice metrics r v ND NR EV) as (VX & _). assert (VO' := proj1 VX VO k t).
  destruct (dget metric_key_eqb metrics k) as [x|] eqn:D.
  - apply (dget_In_NoDup metric_key_eqb metric_key_eqb_eq _ _ _ ND) in D. exists x. split; [exact D|].
    assert (DP : passes baseline metrics k t x \/ ~ passes baseline metrics k t x). { rewrite <- (check_passes baseline metrics ND). destruct (check_threshold baseline metrics k t x) as [[]|]; [left; reflexivity|right; discriminate|right; discriminate]. }
    destruct DP as [P|NP]; [exact P|]. exfalso. apply VO'. split; [exact NB|]. destruct H as (sts & H1 & H2). exists sts, sc'. split; [exact H1|]. split; [exact H2|]. left. exists x. auto.
  - exfalso. apply VO'. split; [exact NB|]. destruct H as (sts & H1 & H2). exists sts, sc'. split; [exact H1|]. split; [exact H2|]. right. split.
    + intros x X. apply (dget_In_NoDup metric_key_eqb metric_key_eqb_eq _ _ _ ND) in X. congruence.
    + destruct AP; constructor; auto. econstructor; eauto.
Qed.

(** The metric is required to be at least 3 on the red slice; it is 4 there, then 2. *)

Definition one_metric (l : list per_slice) : tspec :=
  TSpec (MetricsSpec [] [] [] [] None None None) [MetricConfig "auc" None l []] [] [] [].

Definition auc_key : metric_key := MetricKey "auc" "" "" None None (Some false) false.

Definition red_slice : slice_key := inl [("c", VStr "red")].

Definition verdict (specs : list tspec) (all : slice_results) : option bool :=
  match thresholds_of (fun _ => false) specs with
  | Ok r => match validate_all None r all with
            | Ok rs => Some (fin_ok (outcome (combine_validations None r false) (Bundle rs)))
            | Err _ => None
            end
  | Err _ => None
  end.

Lemma C296_slices_of_queries_are_checked_refuted_pf :
  exists sl t all r, sl_sql sl = "SELECT STRUCT(c) FROM example.c" /\
    thresholds_of (fun _ => false) [one_metric [PerSlice [sl] t]] = Ok r /\
    r = [(auc_key, [(Some (SingleScope (Spec [] [])), at_least 3)])] /\
    In (red_slice, [(auc_key, Number (Fin (qz 2)))]) all /\
    verdict [one_metric [PerSlice [sl] t]] all = Some true.
Proof.
  exists (Slicing (SlicingSpec [] []) "SELECT STRUCT(c) FROM example.c"), (low 3),
    [(red_slice, [(auc_key, Number (Fin (qz 2)))]); (inl [], [(auc_key, Number (Fin (qz 4)))])].
  eexists. split; [reflexivity|]. split; [vm_compute; reflexivity|]. split; [vm_compute; reflexivity|]. split; [left; reflexivity|]. vm_compute. reflexivity.
Qed.

Lemma C296_queries_are_told_apart_refuted_pf :
  exists sl1 sl2 t, sl_sql sl1 <> sl_sql sl2 /\
    thresholds_of (fun _ => false) [one_metric [PerSlice [sl1; sl2] t]] = thresholds_of (fun _ => false) [one_metric [PerSlice [sl1] t]].
Proof.
  exists (Slicing (SlicingSpec [] []) "SELECT STRUCT(c) FROM example.c"), (Slicing (SlicingSpec [] []) "SELECT STRUCT(d) FROM example.d"), (low 3).
  split; [discriminate|]. vm_compute. reflexivity.
Qed.

Lemma C296_threshold_without_slicing_specs_refuted_pf :
  exists t all, t = low 3 /\ (forall slice metrics, In (slice, metrics) all -> metrics = [(auc_key, Number (Fin (qz 2)))]) /\
    thresholds_of (fun _ => false) [one_metric [PerSlice [] t]] = Ok [] /\
    verdict [one_metric [PerSlice [] t; PerSlice [Slicing (SlicingSpec [] []) ""] (low 1)]] all = Some true.
Proof.
  exists (low 3), [(inl [], [(auc_key, Number (Fin (qz 2)))])]. split; [reflexivity|]. split; [intros slice metrics [[= _ <-]|[]]; reflexivity|].
  split; vm_compute; reflexivity.
Qed.

Lemma C294_untyped_aggregation_refuted_pf :
  exists s m t k r, mc_threshold m = Some t /\ t = low 3 /\
    ts_metrics s = [m] /\ ms_binarize (ts_spec s) = Some (Binarize [3%Z] [] []) /\
    configured (fun _ => false) [s] k Everywhere t /\
    thresholds_of (fun _ => false) [s] = Ok r /\ ~ In k (map fst r).
Proof.
  exists (TSpec (MetricsSpec [] [] [] [] (Some (Binarize [3%Z] [] [])) (Some (Aggregate None [(3%Z, 1%Qc)] None)) None) [MetricConfig "auc" (Some (low 3)) [] []] [] [] []),
    (MetricConfig "auc" (Some (low 3)) [] []), (low 3), (MetricKey "auc" "" "" (Some (SubKey (Some 3%Z) None None)) None (Some false) false).
  eexists. split; [reflexivity|]. split; [reflexivity|]. split; [reflexivity|]. split; [reflexivity|]. split.
  - eapply own_everywhere; [left; reflexivity|left; reflexivity|reflexivity|reflexivity|]. constructor; [right; auto|right; auto|]. eapply part_class; [reflexivity|left; reflexivity].
  - split; [vm_compute; reflexivity|]. cbn. intros [X|[]]. discriminate.
Qed.
