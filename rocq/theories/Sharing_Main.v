(* Proofs of the theorems restated in Sharing_Properties.v. *)
From Coq Require Import String Ascii.
From Verif Require Import Base BaseFacts Beam BeamFacts Slicer_Model Util_Model Keys_Model Keys_Main Inputs_Model Inputs_Main CI_Model CI_Main Means_Model Sums_Model Validation_Model Validation_Main Aggregation_Model Thresholds_Model Thresholds_Main Histogram_Model Confusion_Model Evaluator_Model Evaluator_Main Detection_Model Detection_Main Sets_Model Sharing_Model.
From Verif Require Predict_Model.
Local Open Scope string_scope.
Local Open Scope list_scope.

(* C321 - C327: metrics that are computed together. *)

Definition recall_value (m : matrices) : num := set_match_recall m 0.

(** Recall over the two best classes: binarized, or as a micro average *)

Definition recall_top (k : nat) (agg : option agg_type) : matrix_metric :=
  MatrixMetric "recall" (default_thresholds (Some (SubKey None None (Some k))) (Fin (Q2Qc (1 # 2)))) "" ""
    (Some (SubKey None None (Some k))) agg false recall_value.

Definition three_classes (labels : list Qc) : inputs_dict :=
  InputsDict (Some (Leaf labels)) (Some (Leaf [Fin (Q2Qc (5 # 10)); Fin (Q2Qc (3 # 10)); Fin (Q2Qc (2 # 10))])) None.

Lemma C321_own_pairs_refuted_pf :
  exists s micro,
    forall show, show [NegInf] = "[-inf]" ->
      (exists d, evaluate_metrics ap_sort show "" "" s [recall_top 2 None] = Ok d /\
                 sget d (metric_key_of (recall_top 2 None)) = Some (VNumber (Fin (Q2Qc (1 # 2))))) /\
      (exists d, evaluate_metrics ap_sort show "" "" s [recall_top 2 (Some micro)] = Ok d /\
                 sget d (metric_key_of (recall_top 2 (Some micro))) = Some (VNumber (Fin 1%Qc))) /\
      (exists d, evaluate_metrics ap_sort show "" "" s [recall_top 2 None; recall_top 2 (Some micro)] = Ok d /\
                 sget d (metric_key_of (recall_top 2 (Some micro))) = Some (VNumber (Fin (Q2Qc (1 # 2))))).
Proof.
  exists (Bundle [three_classes [1; 0; 0]%Qc; three_classes [0; 0; 1]%Qc]), (AggType (Some true) None None).
  intros show E. unfold evaluate_metrics, metric_computations, matrices_computation, metric_computation, matrices_key, matrices_name.
  cbn [flat_map app mm_thresholds recall_top default_thresholds sk_top_k]. rewrite E. clear E.
  split; [|split]; (eexists; split; [vm_compute; reflexivity|vm_compute; reflexivity]).
Qed.

Lemma id_key c c' k k' p p' : ComputationId c [k] p = ComputationId c' [k'] p' -> k = k'.
Proof. intros E. injection E as _ E _. exact E. Qed.

Lemma entry_key {B} c c' k k' p p' (x y : B) : (ComputationId c [k] p, x) = (ComputationId c' [k'] p', y) -> k = k'.
Proof. intros E. injection E as _ E _ _. exact E. Qed.

Lemma pairs_without_top_k ap sk weighted lk pk m o x g g' : sk_top_k sk = None ->
  to_label_prediction_example_weight ap (histogram_options (Some sk) g weighted true None) lk pk m o x =
  to_label_prediction_example_weight ap (histogram_options (Some sk) g' weighted true None) lk pk m o x.
Proof.
  intros T.
  assert (Y : forall a b c, yield_tuples ap (histogram_options (Some sk) g weighted true None) a b c = yield_tuples ap (histogram_options (Some sk) g' weighted true None) a b c).
  { intros a b c. unfold yield_tuples. cbn [histogram_options o_sub_key o_aggregation o_class_weights o_example_weighted o_fractional o_flatten o_allow_none o_single_weight].
    assert (S : forall l p, apply_sub_key ap sk g l p = apply_sub_key ap sk g' l p) by (intros l p; unfold apply_sub_key; rewrite T; reflexivity).
    destruct a as [a|]; [|reflexivity]. destruct b as [b|]; [|reflexivity]. rewrite S. reflexivity. }
  unfold to_label_prediction_example_weight. cbn [histogram_options o_example_weighted].
  repeat match goal with |- bind ?r _ = bind ?r _ => destruct r; [|reflexivity]; cbn [bind] end.
  repeat match goal with |- context [match ?e with _ => _ end] => destruct e; try reflexivity end; apply Y.
Qed.

Lemma pairs_without_sub_key ap weighted lk pk m o x g g' :
  to_label_prediction_example_weight ap (histogram_options None g weighted true None) lk pk m o x =
  to_label_prediction_example_weight ap (histogram_options None g' weighted true None) lk pk m o x.
Proof. reflexivity. Qed.

Lemma outcome_same {I A O} (create : A) (add add' : A -> I -> res A) plus (extract : A -> res O) :
  (forall a x, add a x = add' a x) -> forall t, outcome (res_combiner create add plus extract) t = outcome (res_combiner create add' plus extract) t.
Proof.
  intros H t. unfold outcome. cbn [res_combiner c_extract]. f_equal.
  assert (F : forall xs acc, fold_left (fun (acc : res A) x => let! a := acc in add a x) xs acc = fold_left (fun (acc : res A) x => let! a := acc in add' a x) xs acc).
  { induction xs as [|x xs IH]; intros acc; [reflexivity|]. cbn [fold_left]. rewrite <- IH. f_equal. destruct acc as [a|]; [apply H|reflexivity]. }
  induction t as [xs|t ts IH IHs|t xs IH] using sched_ind'; cbn [run res_combiner c_add c_create c_merge].
  - apply F.
  - f_equal. f_equal; [exact IH|]. apply map_ext_in. intros u U. rewrite Forall_forall in IHs. exact (IHs u U).
  - rewrite <- F. f_equal. exact IH.
Qed.

Section Together.
  Variable ap : list num -> nat -> list nat.
  Variable show : list num -> string.
  Variables lk pk : string.
  Variable s : sched inputs_dict.
  Variable l : list matrix_metric.
  Hypothesis show_inj : forall a b, show a = show b -> a = b.
  Hypothesis public : forall a, In a l -> forall r, mm_name a <> ("_" ++ r)%string.
  Hypothesis own_keys : forall a b, In a l -> In b l -> metric_key_of a = metric_key_of b -> a = b.
  Hypothesis alike : forall a b sk k, In a l -> In b l -> mm_sub_key a = Some sk -> sk_top_k sk = Some k ->
    mm_model a = mm_model b -> mm_output a = mm_output b -> mm_sub_key a = mm_sub_key b -> mm_weighted a = mm_weighted b ->
    (mm_agg a = None <-> mm_agg b = None).

  Notation ival := (input_value ap lk pk s).
  Notation ikey := (input_key show).
  Notation mkey := (matrices_key show).
  Notation icomp := (input_computation ap show lk pk s).
  Notation mcomp := (matrices_computation show).
  Notation ncomp := (metric_computation show).
  Definition own_value (a : matrix_metric) : res shared_value := let! v := ival a in matrices_of a v.
  Definition own_number (a : matrix_metric) : res shared_value := let! v := own_value a in number_of a v.

  Lemma names_thresholds a b : matrices_name show a = matrices_name show b -> mm_thresholds a = mm_thresholds b.
  Proof.
    unfold matrices_name, Detection_Model.private_name. cbn [flat_map snd fst app String.concat]. intros E.
    apply append_cancel_l, append_cancel_l, append_cancel_l, append_cancel_l in E. apply append_cancel_l in E. apply show_inj. exact E.
  Qed.
  Lemma histogram_not_matrices a b : histogram_key_of a <> mkey b.
  Proof. intros E. unfold histogram_key_of, matrices_key, matrices_name, Detection_Model.private_name in E. cbn [flat_map snd fst app String.append] in E. discriminate E. Qed.
  Lemma histogram_not_counts a b : histogram_key_of a <> counts_key_of show b.
  Proof. intros E. unfold histogram_key_of, counts_key_of, matrices_name, Detection_Model.private_name in E. cbn [flat_map snd fst app String.append] in E. discriminate E. Qed.

  Lemma same_pairs a b : In a l -> In b l ->
    mm_model a = mm_model b -> mm_output a = mm_output b -> mm_sub_key a = mm_sub_key b -> mm_weighted a = mm_weighted b ->
    forall m o x, to_label_prediction_example_weight ap (pair_options a) lk pk m o x = to_label_prediction_example_weight ap (pair_options b) lk pk m o x.
  Proof.
    intros A B M O S W m o x.
    destruct (mm_sub_key a) as [sk|] eqn:SA.
    - destruct (sk_top_k sk) as [k|] eqn:T.
      + assert (E : pair_options a = pair_options b); [|rewrite E; reflexivity].
        unfold pair_options. rewrite SA, <- S, W. pose proof (alike a b sk k A B SA T M O) as G. rewrite SA in G. specialize (G S W).
        destruct (mm_agg a), (mm_agg b); try reflexivity; exfalso; destruct G as [G1 G2]; [discriminate (G2 eq_refl)|discriminate (G1 eq_refl)].
      + unfold pair_options. rewrite SA, <- S, W. apply pairs_without_top_k. exact T.
    - unfold pair_options. rewrite SA, <- S, W. apply pairs_without_sub_key.
  Qed.
  Lemma same_ival a b : In a l -> In b l ->
    mm_model a = mm_model b -> mm_output a = mm_output b -> mm_sub_key a = mm_sub_key b -> mm_weighted a = mm_weighted b ->
    (use_histogram (mm_thresholds a) = true /\ use_histogram (mm_thresholds b) = true \/ mm_thresholds a = mm_thresholds b) -> ival a = ival b.
  Proof.
    intros A B M O S W H. pose proof (same_pairs a b A B M O S W) as P. unfold input_value.
    assert (U : use_histogram (mm_thresholds a) = use_histogram (mm_thresholds b)) by (destruct H as [[-> ->]| ->]; reflexivity).
    rewrite U, M, O. destruct (use_histogram (mm_thresholds b)) eqn:HB.
    - unfold histogram_combiner. erewrite outcome_same; [reflexivity|]. intros acc x. unfold histogram_add. rewrite P. reflexivity.
    - destruct H as [[_ H]| ->]; [discriminate H|]. unfold confusion_combiner. erewrite outcome_same; [reflexivity|].
      intros acc x. unfold confusion_add. rewrite P. reflexivity.
  Qed.

  Lemma same_input a b : In a l -> In b l -> ikey a = ikey b -> ival a = ival b.
  Proof.
    intros A B E. unfold input_key, input_value in *.
    destruct (use_histogram (mm_thresholds a)) eqn:HA; destruct (use_histogram (mm_thresholds b)) eqn:HB.
    - injection E as M O S W. pose proof (same_ival a b A B M O S W (or_introl (conj HA HB))) as G. unfold input_value in G. rewrite HA, HB in G. exact G.
    - destruct (histogram_not_counts _ _ E).
    - symmetry in E. destruct (histogram_not_counts _ _ E).
    - injection E as N M O S _ W. apply show_inj in N. pose proof (same_ival a b A B M O S W (or_intror N)) as G. unfold input_value in G. rewrite HA, HB in G. exact G.
  Qed.
  Lemma same_matrices a b : In a l -> In b l -> mkey a = mkey b -> own_value a = own_value b.
  Proof.
    intros A B E. unfold matrices_key in E. injection E as N M O S W. apply show_inj in N.
    unfold own_value. assert (V : ival a = ival b) by (exact (same_ival a b A B M O S W (or_intror N))).
    rewrite V. destruct (ival b) as [v|]; [|reflexivity]. cbn [bind]. unfold matrices_of. rewrite N. reflexivity.
  Qed.
  Lemma input_is_matrices a b : In a l -> In b l -> ikey a = mkey b -> forall v, ival a = Ok v <-> own_value b = Ok v.
  Proof.
    intros A B E v. unfold input_key in E. destruct (use_histogram (mm_thresholds a)) eqn:HA; [destruct (histogram_not_matrices _ _ E)|].
    unfold counts_key_of, matrices_key in E. injection E as N M O S _ W. apply show_inj in N.
    unfold own_value. assert (V : ival a = ival b) by (exact (same_ival a b A B M O S W (or_intror N))).
    rewrite <- V. unfold input_value. rewrite HA.
    match goal with |- context [outcome ?c ?t] => destruct (outcome c t) as [r|] end; cbn [bind matrices_of]; split; intros H; exact H.
  Qed.
  Lemma starts a : exists r, matrices_name show a = ("_" ++ r)%string.
  Proof. unfold matrices_name, Detection_Model.private_name. eexists. reflexivity. Qed.
  Lemma input_not_metric a b : In b l -> ikey a <> metric_key_of b.
  Proof.
    intros B E. unfold input_key in E. destruct (use_histogram (mm_thresholds a)).
    - unfold histogram_key_of, metric_key_of, Detection_Model.private_name in E. injection E as N _ _ _ _ _. symmetry in N. exact (public b B _ N).
    - unfold counts_key_of, metric_key_of in E. injection E as N _ _ _ _ _. destruct (starts a) as [r R]. rewrite R in N. symmetry in N. exact (public b B _ N).
  Qed.
  Lemma matrices_not_metric a b : In b l -> mkey a <> metric_key_of b.
  Proof.
    intros B E. unfold matrices_key, metric_key_of in E. injection E as N _ _ _ _ _. destruct (starts a) as [r R]. rewrite R in N. symmetry in N. exact (public b B _ N).
  Qed.

  (** What a dictionary may hold *)
  Definition right (k : metric_key) (v : shared_value) : Prop :=
    forall a, In a l -> (k = ikey a -> ival a = Ok v) /\ (k = mkey a -> own_value a = Ok v) /\ (k = metric_key_of a -> own_number a = Ok v).
  Definition all_right (d : shared_dict) : Prop := forall k v, sget d k = Some v -> right k v.

  Lemma right_input a v : In a l -> ival a = Ok v -> right (ikey a) v.
  Proof.
    intros A E b B. split; [|split]; intros K.
    - rewrite <- (same_input a b A B K). exact E.
    - apply (input_is_matrices a b A B K). exact E.
    - destruct (input_not_metric a b B K).
  Qed.
  Lemma right_matrices a v : In a l -> own_value a = Ok v -> right (mkey a) v.
  Proof.
    intros A E b B. split; [|split]; intros K.
    - symmetry in K. apply (input_is_matrices b a B A K). exact E.
    - rewrite <- (same_matrices a b A B K). exact E.
    - destruct (matrices_not_metric a b B K).
  Qed.
  Lemma right_number a v : In a l -> own_number a = Ok v -> right (metric_key_of a) v.
  Proof.
    intros A E b B. split; [|split]; intros K.
    - symmetry in K. destruct (input_not_metric b a A K).
    - symmetry in K. destruct (matrices_not_metric b a A K).
    - rewrite <- (own_keys a b A B K). exact E.
  Qed.

  Lemma sget_update d k v k' : sget (dupdate metric_key_eqb d [(k, v)]) k' = if metric_key_eqb k k' then Some v else sget d k'.
  Proof.
    unfold sget. change (dupdate metric_key_eqb d [(k, v)]) with (dset metric_key_eqb d k v).
    destruct (metric_key_eqb k k') eqn:E.
    - apply metric_key_eqb_eq in E. subst k'. apply (dget_dset_eq metric_key_eqb metric_key_eqb_eq).
    - apply (dget_dset_neq metric_key_eqb metric_key_eqb_eq). intros ->. rewrite mk_eqb_refl in E. discriminate.
  Qed.
  Lemma all_right_update d k v : all_right d -> right k v -> all_right (dupdate metric_key_eqb d [(k, v)]).
  Proof.
    intros D R k' v' E. rewrite sget_update in E. destruct (metric_key_eqb k k') eqn:K; [|exact (D k' v' E)].
    apply metric_key_eqb_eq in K. subst k'. injection E as <-. exact R.
  Qed.
  Lemma present_update d k v k' : k' = k \/ sget d k' <> None -> sget (dupdate metric_key_eqb d [(k, v)]) k' <> None.
  Proof. intros H. rewrite sget_update. destruct (metric_key_eqb k k') eqn:K; [discriminate|]. destruct H as [->|H]; [rewrite mk_eqb_refl in K; discriminate|exact H]. Qed.

  (** The computations that are kept *)
  Notation entry := (computation_id * computation (shared_dict -> res shared_dict))%type.
  Definition base_entry (ic : entry) (a : matrix_metric) : Prop := ic = (ComputationId (input_class a) [ikey a] [], icomp a).
  Definition matrices_entry (ic : entry) (a : matrix_metric) : Prop := ic = (ComputationId "function" [mkey a] [], mcomp a).
  Definition number_entry (ic : entry) (a : matrix_metric) : Prop := ic = (ComputationId "function" [metric_key_of a] [], ncomp a).
  Definition bases (b : list entry) : Prop := forall ic, In ic b -> exists a, In a l /\ base_entry ic a.
  Definition ordered (D : list entry) : Prop := forall D1 ic D2, D = D1 ++ ic :: D2 ->
    exists a, In a l /\ (matrices_entry ic a \/ (number_entry ic a /\ exists ic' b, In ic' D1 /\ In b l /\ matrices_entry ic' b /\ mkey b = mkey a)).
  Definition kept_for (sep : separated (shared_dict -> res shared_dict)) (a : matrix_metric) : Prop :=
    (exists ic b, In ic (sp_base sep) /\ In b l /\ base_entry ic b /\ ikey b = ikey a) /\
    (exists ic b, In ic (sp_derived sep) /\ In b l /\ matrices_entry ic b /\ mkey b = mkey a) /\
    (exists ic, In ic (sp_derived sep) /\ number_entry ic a).

  Lemma add_new_cases (b : list entry) i c : (exists ic, In ic b /\ fst ic = i /\ add_new b i c = b) \/ add_new b i c = b ++ [(i, c)].
  Proof.
    unfold add_new. destruct (existsb (fun ic => id_eqb i (fst ic)) b) eqn:E; [left|right; reflexivity].
    apply existsb_exists in E. destruct E as (ic & I & E). apply id_eqb_eq in E. exists ic. auto.
  Qed.
  Lemma add_new_incl (b : list entry) i c ic : In ic b -> In ic (add_new b i c).
  Proof. intros H. destruct (add_new_cases b i c) as [(? & _ & _ & ->)| ->]; [exact H|apply in_or_app; left; exact H]. Qed.

  Lemma add_base b a : In a l -> bases b ->
    let b' := add_new b (ComputationId (input_class a) [ikey a] []) (icomp a) in
    bases b' /\ exists ic a', In ic b' /\ In a' l /\ base_entry ic a' /\ ikey a' = ikey a.
  Proof.
    intros A B. cbv zeta. destruct (add_new_cases b (ComputationId (input_class a) [ikey a] []) (icomp a)) as [(ic & I & F & ->)| ->].
    - split; [exact B|]. destruct (B ic I) as (a' & A' & E). exists ic, a'. repeat split; auto. rewrite E in F. cbn [fst] in F. apply id_key in F. exact F.
    - split.
      + intros ic I. apply in_app_or in I. destruct I as [I|[<-|[]]]; [exact (B ic I)|]. exists a. split; [exact A|reflexivity].
      + eexists. exists a. split; [apply in_or_app; right; left; reflexivity|]. repeat split; auto.
  Qed.

  Lemma ordered_snoc D x : ordered D ->
    (exists a, In a l /\ (matrices_entry x a \/ (number_entry x a /\ exists ic' b, In ic' D /\ In b l /\ matrices_entry ic' b /\ mkey b = mkey a))) ->
    ordered (D ++ [x]).
  Proof.
    intros O X D1 ic D2 E. destruct D2 as [|y D2] using rev_ind.
    - apply app_inj_tail in E. destruct E as [-> ->]. exact X.
    - clear IHD2. rewrite app_comm_cons, app_assoc in E. apply app_inj_tail in E. destruct E as [E _]. exact (O D1 ic D2 E).
  Qed.
  Lemma add_matrices D a : In a l -> ordered D ->
    let D' := add_new D (ComputationId "function" [mkey a] []) (mcomp a) in
    ordered D' /\ exists ic b, In ic D' /\ In b l /\ matrices_entry ic b /\ mkey b = mkey a.
  Proof.
    intros A O. cbv zeta. destruct (add_new_cases D (ComputationId "function" [mkey a] []) (mcomp a)) as [(ic & I & F & ->)| ->].
    - split; [exact O|]. apply in_split in I. destruct I as (D1 & D2 & E). destruct (O D1 ic D2 E) as (b & B & [M|[N _]]).
      + exists ic, b. split; [rewrite E; apply in_elt|]. repeat split; auto. rewrite M in F. cbn [fst] in F. apply id_key in F. exact F.
      + exfalso. rewrite N in F. cbn [fst] in F. apply id_key in F. symmetry in F. exact (matrices_not_metric a b B F).
    - split; [apply ordered_snoc; [exact O|]; exists a; split; [exact A|left; reflexivity]|].
      eexists. exists a. split; [apply in_or_app; right; left; reflexivity|]. repeat split; auto.
  Qed.
  Lemma add_number D a : In a l -> ordered D -> (exists ic b, In ic D /\ In b l /\ matrices_entry ic b /\ mkey b = mkey a) ->
    let D' := add_new D (ComputationId "function" [metric_key_of a] []) (ncomp a) in
    ordered D' /\ exists ic, In ic D' /\ number_entry ic a.
  Proof.
    intros A O X. cbv zeta. destruct (add_new_cases D (ComputationId "function" [metric_key_of a] []) (ncomp a)) as [(ic & I & F & ->)| ->].
    - split; [exact O|]. exists ic. split; [exact I|]. apply in_split in I. destruct I as (D1 & D2 & E). destruct (O D1 ic D2 E) as (b & B & [M|[N _]]).
      + exfalso. rewrite M in F. cbn [fst] in F. apply id_key in F. exact (matrices_not_metric b a A F).
      + rewrite N in F. cbn [fst] in F. apply id_key in F. assert (W : b = a) by (apply own_keys; auto). subst b. exact N.
    - split; [apply ordered_snoc; [exact O|]; exists a; split; [exact A|right; split; [reflexivity|exact X]]|].
      eexists. split; [apply in_or_app; right; left; reflexivity|reflexivity].
  Qed.

  Lemma separated_metrics l' : incl l' l -> forall s0, bases (sp_base s0) -> ordered (sp_derived s0) ->
    exists sep, foldM separate_step (flat_map (metric_computations ap show lk pk s) l') s0 = Ok sep /\ bases (sp_base sep) /\ ordered (sp_derived sep) /\
      incl (sp_base s0) (sp_base sep) /\ incl (sp_derived s0) (sp_derived sep) /\ forall a, In a l' -> kept_for sep a.
  Proof.
    induction l' as [|a l' IH]; intros I s0 B O.
    - exists s0. cbn. repeat split; auto; try apply incl_refl; contradiction.
    - assert (A : In a l) by (apply I; left; reflexivity). assert (I' : incl l' l) by (intros x X; apply I; right; exact X).
      destruct (add_base (sp_base s0) a A B) as [B1 K1]. destruct (add_matrices (sp_derived s0) a A O) as [O1 K2].
      destruct (add_number _ a A O1 K2) as [O2 K3].
      set (b1 := add_new (sp_base s0) (ComputationId (input_class a) [ikey a] []) (icomp a)) in *.
      set (d1 := add_new (sp_derived s0) (ComputationId "function" [mkey a] []) (mcomp a)) in *.
      set (d2 := add_new d1 (ComputationId "function" [metric_key_of a] []) (ncomp a)) in *.
      destruct (IH I' (Separated b1 d2 (sp_cross s0) (sp_ci s0)) B1 O2) as (sep & E & BS & OS & IB & ID & K). cbn [sp_base sp_derived] in IB, ID.
      exists sep. split; [exact E|]. split; [exact BS|]. split; [exact OS|].
      split; [intros x X; apply IB, add_new_incl; exact X|]. split; [intros x X; apply ID, add_new_incl, add_new_incl; exact X|].
      intros a' [<-|A']; [|exact (K a' A')]. split; [|split].
      + destruct K1 as (ic & b & X & Y). exists ic, b. split; [apply IB; exact X|exact Y].
      + destruct K2 as (ic & b & X & Y). exists ic, b. split; [apply ID, add_new_incl; exact X|exact Y].
      + destruct K3 as (ic & X & Y). exists ic. split; [apply ID; exact X|exact Y].
  Qed.

  Hypothesis defined : forall a, In a l -> exists v, own_number a = Ok v.

  Lemma run_base b : bases b -> forall d, all_right d ->
    exists d', foldM run_computation b d = Ok d' /\ all_right d' /\ (forall k, sget d k <> None -> sget d' k <> None) /\
      forall ic a, In ic b -> base_entry ic a -> sget d' (ikey a) <> None.
  Proof.
    induction b as [|ic b IH]; intros B d D.
    - exists d. split; [reflexivity|]. split; [exact D|]. split; [auto|]. intros ? ? [].
    - destruct (B ic (or_introl eq_refl)) as (a & A & E). destruct (defined a A) as (v & V). unfold own_number, own_value in V.
      destruct (ival a) as [x|] eqn:X; [|discriminate].
      assert (R : run_computation d ic = Ok (dupdate metric_key_eqb d [(ikey a, x)])).
      { unfold run_computation. rewrite E. unfold input_computation. cbn [snd cp_body]. rewrite X. reflexivity. }
      cbn [foldM]. rewrite R. cbn [bind].
      destruct (IH (fun ic' H => B ic' (or_intror H)) _ (all_right_update d (ikey a) x D (right_input a x A X))) as (d' & F & D' & P & K).
      exists d'. split; [exact F|]. split; [exact D'|]. split.
      + intros k H. apply P. apply present_update. right. exact H.
      + intros ic' a' [<-|I] E'.
        * rewrite E in E'. unfold base_entry in E'. apply entry_key in E'. rewrite <- E'. apply P. apply present_update. left. reflexivity.
        * exact (K ic' a' I E').
  Qed.

  Lemma run_derived D2 : forall D1 d, ordered (D1 ++ D2) -> all_right d -> (forall a, In a l -> sget d (ikey a) <> None) ->
    (forall ic b, In ic D1 -> matrices_entry ic b -> sget d (mkey b) <> None) ->
    (forall ic b, In ic D1 -> number_entry ic b -> sget d (metric_key_of b) <> None) ->
    exists d', foldM run_computation D2 d = Ok d' /\ all_right d' /\
      (forall ic b, In ic (D1 ++ D2) -> number_entry ic b -> sget d' (metric_key_of b) <> None).
  Proof.
    induction D2 as [|ic D2 IH]; intros D1 d O D PI PM PN.
    - exists d. rewrite app_nil_r. cbn. auto.
    - destruct (O D1 ic D2 eq_refl) as (a & A & C). destruct (defined a A) as (v & V). unfold own_number in V.
      destruct (own_value a) as [m|] eqn:M; [|discriminate]. cbn [bind] in V.
      assert (R : exists k x, run_computation d ic = Ok (dupdate metric_key_eqb d [(k, x)]) /\ right k x /\
        (forall b, matrices_entry ic b -> k = mkey b) /\ (forall b, number_entry ic b -> k = metric_key_of b)).
      { destruct C as [C|(C & ic' & b & I' & B & E' & K')].
        - exists (mkey a), m. split; [|split; [|split]].
          + unfold run_computation. rewrite C. unfold matrices_computation, derive_from. cbn [snd cp_body].
            destruct (sget d (ikey a)) as [y|] eqn:Y; [|destruct (PI a A Y)].
            pose proof (proj1 (D _ _ Y a A) eq_refl) as Z. unfold own_value in M. rewrite Z in M. cbn [bind] in M. rewrite M. reflexivity.
          + apply right_matrices; auto.
          + intros b E. rewrite C in E. unfold matrices_entry in E. apply entry_key in E. exact E.
          + intros b E. rewrite C in E. unfold number_entry in E. apply entry_key in E. exact E.
        - exists (metric_key_of a), v. split; [|split; [|split]].
          + unfold run_computation. rewrite C. unfold metric_computation, derive_from. cbn [snd cp_body].
            pose proof (PM ic' b I' E') as Y'. rewrite K' in Y'.
            destruct (sget d (mkey a)) as [y|] eqn:Y; [|destruct (Y' eq_refl)].
            pose proof (proj1 (proj2 (D _ _ Y a A)) eq_refl) as Z. rewrite M in Z. injection Z as <-. rewrite V. reflexivity.
          + apply right_number; auto. unfold own_number. rewrite M. exact V.
          + intros b' E. rewrite C in E. unfold matrices_entry in E. apply entry_key in E. exact E.
          + intros b' E. rewrite C in E. unfold number_entry in E. apply entry_key in E. exact E. }
      destruct R as (k & x & R & RX & KM & KN). cbn [foldM]. rewrite R. cbn [bind].
      destruct (IH (D1 ++ [ic]) (dupdate metric_key_eqb d [(k, x)])) as (d' & F & D' & P).
      + rewrite <- app_assoc. exact O.
      + apply all_right_update; auto.
      + intros b B. apply present_update. right. exact (PI b B).
      + intros ic' b I' E'. apply present_update. apply in_app_or in I'. destruct I' as [I'|[<-|[]]]; [right; exact (PM ic' b I' E')|left; symmetry; exact (KM b E')].
      + intros ic' b I' E'. apply present_update. apply in_app_or in I'. destruct I' as [I'|[<-|[]]]; [right; exact (PN ic' b I' E')|left; symmetry; exact (KN b E')].
      + exists d'. split; [exact F|]. split; [exact D'|]. intros ic' b I'. rewrite <- app_assoc in P. exact (P ic' b I').
  Qed.

  Lemma together_right : exists d, evaluate_metrics ap show lk pk s l = Ok d /\ forall a, In a l -> exists v, own_number a = Ok v /\ sget d (metric_key_of a) = Some v.
  Proof.
    unfold evaluate_metrics, run_shared, filter_and_separate_computations.
    destruct (separated_metrics l (incl_refl l) (Separated [] [] [] [])) as (sep & E & BS & OS & _ & _ & K).
    - intros ? [].
    - intros D1 ic D2 X. destruct D1; discriminate X.
    - rewrite E. cbn [bind].
      destruct (run_base (sp_base sep) BS []) as (d & F & D & _ & KB); [intros k v X; discriminate X|]. rewrite F. cbn [bind].
      destruct (run_derived (sp_derived sep) [] d OS D) as (d' & F' & D' & P); [|intros ? ? []|intros ? ? []|].
      + intros a A. destruct (K a A) as [(ic & b & I & B & EB & KE) _]. rewrite <- KE. exact (KB ic b I EB).
      + exists d'. split; [exact F'|]. intros a A. destruct (K a A) as (_ & _ & ic & I & N).
        pose proof (P ic a I N) as Q. destruct (sget d' (metric_key_of a)) as [v|] eqn:Y; [|destruct (Q eq_refl)].
        exists v. split; [|reflexivity]. exact (proj2 (proj2 (D' _ _ Y a A)) eq_refl).
  Qed.

End Together.

Lemma alone_number ap show lk pk s a d : (forall r, mm_name a <> ("_" ++ r)%string) ->
  evaluate_metrics ap show lk pk s [a] = Ok d -> exists v, own_number ap lk pk s a = Ok v.
Proof.
  intros N E. unfold evaluate_metrics, run_shared, filter_and_separate_computations in E. cbn [flat_map app metric_computations] in E.
  assert (NE : id_eqb (ComputationId "function" [metric_key_of a] []) (ComputationId "function" [matrices_key show a] []) = false).
  { destruct (id_eqb _ _) eqn:X; [|reflexivity]. apply id_eqb_eq in X. apply id_key in X. exfalso. destruct (starts show a) as [r R]. apply (N r). rewrite <- R. exact (f_equal k_name X). }
  assert (S : foldM separate_step [input_computation ap show lk pk s a; matrices_computation show a; metric_computation show a] (Separated [] [] [] []) =
    Ok (Separated [(ComputationId (input_class a) [input_key show a] [], input_computation ap show lk pk s a)]
          [(ComputationId "function" [matrices_key show a] [], matrices_computation show a); (ComputationId "function" [metric_key_of a] [], metric_computation show a)] [] [])).
  { cbn [foldM]. unfold separate_step at 1. cbn [comp_id input_computation cp_kind cp_keys metric_computation_id sorted bind sp_base sp_derived sp_cross sp_ci].
    unfold separate_step at 1. cbn [comp_id matrices_computation cp_kind cp_keys derived_computation_id sorted bind sp_base sp_derived sp_cross sp_ci].
    unfold separate_step at 1. cbn [comp_id metric_computation cp_kind cp_keys derived_computation_id sorted bind sp_base sp_derived sp_cross sp_ci].
    unfold add_new. cbn [existsb app fst]. rewrite NE. reflexivity. }
  rewrite S in E. cbn [bind sp_base sp_derived foldM] in E. unfold run_computation at 1 in E. cbn [snd input_computation cp_body] in E.
  unfold own_number, own_value. destruct (input_value ap lk pk s a) as [v|]; [|discriminate]. cbn [bind] in *.
  unfold run_computation at 1 in E. cbn [snd matrices_computation cp_body] in E. unfold derive_from at 1 in E. rewrite sget_update, mk_eqb_refl in E.
  destruct (matrices_of a v) as [m|]; [|discriminate]. cbn [bind] in *.
  unfold run_computation at 1 in E. cbn [snd metric_computation cp_body] in E. unfold derive_from at 1 in E. rewrite sget_update, mk_eqb_refl in E.
  destruct (number_of a m) as [n|]; [|discriminate]. exists n. reflexivity.
Qed.

Lemma C321_together_as_alone_partial_pf :
  forall ap show lk pk s l,
    (forall a b, show a = show b -> a = b) ->
    (forall a, In a l -> forall r, mm_name a <> ("_" ++ r)%string) ->
    (forall a b, In a l -> In b l -> metric_key_of a = metric_key_of b -> a = b) ->
    (forall a b sk k, In a l -> In b l -> mm_sub_key a = Some sk -> sk_top_k sk = Some k ->
       mm_model a = mm_model b -> mm_output a = mm_output b -> mm_sub_key a = mm_sub_key b -> mm_weighted a = mm_weighted b ->
       (mm_agg a = None <-> mm_agg b = None)) ->
    (forall a, In a l -> exists d, evaluate_metrics ap show lk pk s [a] = Ok d) ->
    exists d, evaluate_metrics ap show lk pk s l = Ok d /\
      forall a da, In a l -> evaluate_metrics ap show lk pk s [a] = Ok da ->
        sget d (metric_key_of a) = sget da (metric_key_of a) /\ sget da (metric_key_of a) <> None.
Proof.
  intros ap show lk pk s l INJ PUB OWN ALIKE OK.
  destruct (together_right ap show lk pk s l INJ PUB OWN ALIKE) as (d & E & G).
  { intros a A. destruct (OK a A) as (da & DA). exact (alone_number ap show lk pk s a da (PUB a A) DA). }
  exists d. split; [exact E|]. intros a da A DA. destruct (G a A) as (v & V & R).
  destruct (together_right ap show lk pk s [a] INJ) as (d1 & E1 & G1).
  - intros b [<-|[]]. exact (PUB a A).
  - intros b c [<-|[]] [<-|[]] _. reflexivity.
  - intros b c sk k [<-|[]] [<-|[]] _ _ _ _ _ _. reflexivity.
  - intros b [<-|[]]. exists v. exact V.
  - rewrite DA in E1. injection E1 as <-. destruct (G1 a (or_introl eq_refl)) as (v1 & V1 & R1). rewrite V1 in V. injection V as <-.
    rewrite R, R1. split; [reflexivity|discriminate].
Qed.

Definition micro_spec (metrics : list string) : metrics_spec :=
  MetricsSpec metrics [] [] [] None (Some (Aggregate (Some (Micro, true)) [(0%Z, 1%Qc); (1%Z, 0%Qc)] None)) None.

Lemma C322_bounds_are_checked_partial_pf :
  forall default s n t lo hi r ths value ms,
    mt_value t = Some (lo, hi) ->
    thresholds_of default [TSpec s [Thresholds_Model.MetricConfig n (Some t) [] []] [] [] []] = Ok r ->
    spec_metrics default s (fun m o sk agg w => MatrixMetric n ths m o sk agg w value) = Ok ms ->
    (forall a, In a ms -> Validation_Main.has r (metric_key_of a) None (ValueThreshold lo hi)) /\
    (forall k sc b, Validation_Main.has r k sc b -> k_diff k = false \/ mt_change t = None ->
       (forall g, k_agg k = Some g -> ag_macro g <> Some true /\ ag_weighted g <> Some true) ->
       sc = None /\ b = ValueThreshold lo hi /\ exists a, In a ms /\ metric_key_of a = k).
Proof.
  intros default s n t lo hi r ths value ms V E M. unfold thresholds_of in E.
  match type of E with bind ?x _ = _ => destruct x as [named|] eqn:N; [|discriminate] end. cbn [bind] in E.
  match type of E with bind ?x _ = _ => destruct x as [own|] eqn:G; [|discriminate] end. cbn [bind] in E. injection E as <-.
  split.
  - intros a A. assert (I : In (metric_key_of a, None, t) own).
  { destruct (gather_ok _ _ _ G) as (T & X). apply X. eexists. destruct (T _ (or_introl eq_refl)) as (es & F). exists es.
    split; [left; reflexivity|]. split; [exact F|]. unfold metric_entries in F. cbn [ts_spec ts_metrics] in F.
    unfold spec_metrics in M. destruct (create_sub_keys s) as [groups|]; [|discriminate]. cbn [bind] in F, M. injection M as <-.
    apply in_flat_map in A. destruct A as (g & HG & A). destruct (is_macro (fst g)); [destruct A|].
    apply in_flat_map in A. destruct A as (w & HW & A). apply in_flat_map in A. destruct A as (m & HM & A).
    apply in_flat_map in A. destruct A as (o & HO & A). apply in_map_iff in A. destruct A as (sk & <- & HS).
    destruct (gather_ok _ _ _ F) as (T1 & X1). apply X1. destruct (T1 g HG) as (e1 & F1). exists g, e1. split; [exact HG|]. split; [exact F1|].
    destruct (gather_ok _ _ _ F1) as (T2 & X2). apply X2. destruct (T2 _ (or_introl eq_refl)) as (e2 & F2). eexists. exists e2. split; [left; reflexivity|]. split; [exact F2|].
    cbn [mc_name mc_threshold mc_per_slice mc_cross] in F2. destruct (gather_ok _ _ _ F2) as (T3 & X3). apply X3.
    assert (K : In (MetricKey n m o sk (fst g) (Some w) false) (keys_for n s (fst g) (snd g) (map Some (example_weight_options (default s) s)))).
    { unfold keys_for. apply in_flat_map. exists m. split; [exact HM|]. apply in_flat_map. exists o. split; [exact HO|].
      apply in_flat_map. exists sk. split; [exact HS|]. apply in_map_iff. exists (Some w). split; [reflexivity|]. apply in_map. exact HW. }
    destruct (T3 _ K) as (e3 & F3). eexists. exists e3. split; [exact K|]. split; [exact F3|].
    cbn [mc_name mc_threshold mc_per_slice mc_cross] in F3. unfold Thresholds_Model.entry_of in F3. rewrite V in F3. cbn in F3. injection F3 as <-. left. reflexivity. }
    destruct (proj1 (proj2 (C87_thresholds_used_pf (named ++ own))) (metric_key_of a, None, t) (metric_key_of a) None (ValueThreshold lo hi)) as (sc & P & H).
    + apply in_or_app. right. exact I.
    + split; [reflexivity|]. left. exists lo, hi. auto.
    + destruct sc as [sc|]; [destruct P|exact H].
  - intros k sc b H KD KM. destruct (proj1 (C87_thresholds_used_pf (named ++ own)) k sc b H) as (e & I & A).
    apply in_app_or in I. destruct I as [I|I].
    + exfalso. apply (gather_ok _ _ _ N) in I. destruct I as (ts & es & [<-|[]] & F & I). unfold named_entries in F. cbn [ts_spec ts_thresholds ts_per_slice ts_cross] in F.
      destruct (create_sub_keys s) as [groups|]; [|discriminate]. cbn [bind] in F. apply (gather_ok _ _ _ F) in I. destruct I as (g & e1 & _ & F1 & I).
      cbn in F1. injection F1 as <-. destruct I.
    + apply (gather_ok _ _ _ G) in I. destruct I as (ts & es & [<-|[]] & F & I). unfold metric_entries in F. cbn [ts_spec ts_metrics] in F.
      unfold spec_metrics in M. destruct (create_sub_keys s) as [groups|]; [|discriminate]. cbn [bind] in F, M. injection M as <-.
      apply (gather_ok _ _ _ F) in I. destruct I as (g & e1 & HG & F1 & I). apply (gather_ok _ _ _ F1) in I. destruct I as (mc & e2 & [<-|[]] & F2 & I).
      cbn [mc_name mc_threshold mc_per_slice mc_cross] in F2. apply (gather_ok _ _ _ F2) in I. destruct I as (k0 & e3 & K & F3 & I).
      cbn [mc_name mc_threshold mc_per_slice mc_cross] in F3. unfold Thresholds_Model.entry_of in F3. rewrite V in F3. cbn in F3. injection F3 as <-.
      destruct I as [<-|[]]. destruct A as [-> [(l' & u' & -> & V' & ->)|(? & ? & ? & -> & CH & _)]]; [|destruct KD as [KD|KD]; [discriminate KD|congruence]].
      rewrite V in V'. injection V' as <- <-. split; [reflexivity|]. split; [reflexivity|].
      unfold keys_for in K. apply in_flat_map in K. destruct K as (m & HM & K). apply in_flat_map in K. destruct K as (o & HO & K).
      apply in_flat_map in K. destruct K as (sk & HS & K). apply in_map_iff in K. destruct K as (ow & <- & K). apply in_map_iff in K. destruct K as (w & <- & HW).
      exists (MatrixMetric n ths m o sk (fst g) w value). split; [|reflexivity]. apply in_flat_map. exists g. split; [exact HG|].
      assert (NM : is_macro (fst g) = false).
      { cbn [k_agg] in KM. unfold is_macro. destruct (fst g) as [ag|]; [|reflexivity]. destruct (KM ag eq_refl) as [K1 K2].
        destruct (ag_macro ag) as [[]|], (ag_weighted ag) as [[]|]; try reflexivity; congruence. }
      rewrite NM. apply in_flat_map. exists w. split; [exact HW|]. apply in_flat_map. exists m. split; [exact HM|]. apply in_flat_map. exists o. split; [exact HO|].
      apply in_map_iff. exists sk. split; [reflexivity|exact HS].
Qed.

Definition squared (m o : string) (sk : option sub_key) (agg : option agg_type) (w : bool) : mean_error :=
  MeanError "mean_squared_error" "_MeanSquaredErrorCombiner" squared_error m o sk agg None w.

Lemma C322_bounds_are_checked_refuted_pf :
  exists s t r ms, mt_value t <> None /\
    thresholds_of (fun _ => false) [TSpec s [Thresholds_Model.MetricConfig "mean_squared_error" (Some t) [] []] [] [] []] = Ok r /\
    spec_metrics (fun _ => false) s squared = Ok ms /\ ms <> [] /\ r <> [] /\
    forall a, In a ms -> dm_agg a = Some (AggType (Some true) None None) /\ ~ In (mean_error_key a) (map fst r).
Proof.
  exists (micro_spec []), (MetricThreshold (Some (None, Some (Fin 1%Qc))) None). do 2 eexists.
  split; [discriminate|]. split; [vm_compute; reflexivity|]. split; [cbv -[squared_error Q2Qc]; reflexivity|]. split; [discriminate|]. split; [discriminate|].
  intros a [<-|[]]. split; [reflexivity|]. cbn. intros [E|[]]. discriminate E.
Qed.

Lemma C322_both_are_reported_refuted_pf :
  exists s plain micro,
    dm_agg plain = None /\ dm_agg micro = Some (AggType (Some true) None None) /\ dm_name plain = dm_name micro /\
    evaluate_mean_errors ap_sort "" "" s [plain] = Ok [(mean_error_key plain, VNumber (Fin (Q2Qc (1 # 2))))] /\
    evaluate_mean_errors ap_sort "" "" s [micro] = Ok [(mean_error_key micro, VNumber (Fin 0%Qc))] /\
    evaluate_mean_errors ap_sort "" "" s [plain; micro] = Ok [(mean_error_key plain, VNumber (Fin (Q2Qc (1 # 2))))].
Proof.
  exists (Bundle [InputsDict (Some (Leaf [1; 0]%Qc)) (Some (Leaf [Fin 1%Qc; Fin 1%Qc])) None]),
    (squared "" "" None None false),
    (MeanError "mean_squared_error" "_MeanSquaredErrorCombiner" squared_error "" "" None (Some (AggType (Some true) None None)) (Some [(0%nat, 1%Qc); (1%nat, 0%Qc)]) false).
  do 3 (split; [reflexivity|]). split; [vm_compute; reflexivity|]. split; vm_compute; reflexivity.
Qed.

Definition error_value ap lk pk s (a : mean_error) : res num :=
  outcome (regression_combiner ap (dm_error a) (regression_options (dm_sub_key a) (match dm_agg a with Some _ => true | None => false end) (dm_class_weights a) (dm_weighted a)) lk pk (dm_model a) (dm_output a)) s.

Definition error_entry ap lk pk s (a : mean_error) := (ComputationId (dm_class a) [mean_error_key a] [], mean_error_computation ap lk pk s a).

Lemma separated_errors ap lk pk s l : forall s0, exists sep, foldM separate_step (map (mean_error_computation ap lk pk s) l) s0 = Ok sep /\
  sp_derived sep = sp_derived s0 /\ incl (sp_base s0) (sp_base sep) /\
  (forall ic, In ic (sp_base sep) -> In ic (sp_base s0) \/ exists a, In a l /\ ic = error_entry ap lk pk s a) /\
  (forall a, In a l -> exists ic, In ic (sp_base sep) /\ fst ic = fst (error_entry ap lk pk s a)).
Proof.
  induction l as [|a l IH]; intros s0.
  - exists s0. cbn. repeat split; auto; try apply incl_refl; contradiction.
  - cbn [map foldM]. unfold separate_step at 1. cbn [comp_id mean_error_computation cp_kind cp_keys metric_computation_id sorted bind].
    match goal with |- context [foldM _ _ ?x] => destruct (IH x) as (sep & E & D & I & O & K) end. cbn [sp_base sp_derived sp_cross sp_ci] in *.
    exists sep. split; [exact E|]. split; [exact D|].
    pose proof (add_new_cases (sp_base s0) (ComputationId (dm_class a) [mean_error_key a] []) (mean_error_computation ap lk pk s a)) as C.
    change (Computation (Combine (dm_class a) []) [mean_error_key a] _) with (mean_error_computation ap lk pk s a) in *.
    split; [|split].
    + intros ic X. apply I. apply add_new_incl. exact X.
    + intros ic X. destruct (O ic X) as [Y|(b & B & ->)]; [|right; exists b; split; [right; exact B|reflexivity]].
      destruct C as [(? & _ & _ & Z)|Z].
      * left. rewrite <- Z. exact Y.
      * rewrite Z in Y. apply in_app_or in Y. destruct Y as [Y|[<-|[]]]; [left; exact Y|right; exists a; split; [left; reflexivity|reflexivity]].
    + intros b [<-|B]; [|exact (K b B)]. destruct C as [(ic & X & Y & Z)|Z].
      * exists ic. split; [apply I; rewrite Z; exact X|exact Y].
      * eexists. split; [apply I; rewrite Z; apply in_or_app; right; left; reflexivity|reflexivity].
Qed.

Lemma run_errors ap lk pk s l (own : forall a b, In a l -> In b l -> mean_error_key a = mean_error_key b -> a = b) :
  forall b, (forall ic, In ic b -> exists a, In a l /\ ic = error_entry ap lk pk s a) ->
  forall d d', foldM run_computation b d = Ok d' -> forall a, In a l ->
  (exists x, sget d (mean_error_key a) = Some (VNumber x) /\ error_value ap lk pk s a = Ok x) \/
    (exists ic, In ic b /\ fst ic = fst (error_entry ap lk pk s a)) ->
  exists x, sget d' (mean_error_key a) = Some (VNumber x) /\ error_value ap lk pk s a = Ok x.
Proof.
  induction b as [|ic b IH]; intros B d d' F a A H.
  - injection F as <-. destruct H as [H|(? & [] & _)]. exact H.
  - cbn [foldM] in F. destruct (B ic (or_introl eq_refl)) as (c & C & ->). unfold run_computation at 1 in F. unfold error_entry at 1 in F.
    cbn [snd cp_body mean_error_computation] in F. fold (error_value ap lk pk s c) in F.
    destruct (error_value ap lk pk s c) as [y|] eqn:Y; [|discriminate]. cbn [bind] in F.
    apply (IH (fun ic I => B ic (or_intror I)) _ _ F a A). rewrite sget_update.
    destruct (metric_key_eqb (mean_error_key c) (mean_error_key a)) eqn:K.
    + apply metric_key_eqb_eq in K. rewrite <- (own c a C A K). left. exists y. auto.
    + destruct H as [H|(ic & [<-|I] & E)]; [left; exact H| |right; exists ic; auto].
      exfalso. cbn [fst error_entry] in E. apply id_key in E. rewrite E, mk_eqb_refl in K. discriminate.
Qed.

Lemma one_error ap lk pk s a : evaluate_mean_errors ap lk pk s [a] = let! x := error_value ap lk pk s a in Ok [(mean_error_key a, VNumber x)].
Proof.
  unfold evaluate_mean_errors, run_shared, filter_and_separate_computations. cbn [map foldM].
  unfold separate_step. cbn [comp_id mean_error_computation cp_kind cp_keys metric_computation_id sorted bind sp_base sp_derived sp_cross sp_ci foldM].
  unfold add_new. cbn [existsb app foldM]. unfold run_computation. cbn [snd cp_body mean_error_computation]. fold (error_value ap lk pk s a).
  destruct (error_value ap lk pk s a); reflexivity.
Qed.

Lemma C322_both_are_reported_partial_pf :
  forall ap lk pk s l,
    (forall a b, In a l -> In b l -> dm_name a = dm_name b -> dm_model a = dm_model b -> dm_output a = dm_output b ->
       dm_sub_key a = dm_sub_key b -> dm_weighted a = dm_weighted b -> a = b) ->
    (forall d, evaluate_mean_errors ap lk pk s l = Ok d ->
       (forall a, In a l -> exists x, evaluate_mean_errors ap lk pk s [a] = Ok [(mean_error_key a, VNumber x)] /\ sget d (mean_error_key a) = Some (VNumber x))) /\
    ((forall a, In a l -> exists d, evaluate_mean_errors ap lk pk s [a] = Ok d) -> exists d, evaluate_mean_errors ap lk pk s l = Ok d).
Proof.
  intros ap lk pk s l OWN0.
  assert (OWN : forall a b, In a l -> In b l -> mean_error_key a = mean_error_key b -> a = b).
  { intros a b A B E. unfold mean_error_key in E. injection E as N M O S W. apply OWN0; auto. }
  destruct (separated_errors ap lk pk s l (Separated [] [] [] [])) as (sep & E & D & _ & O & K). cbn [sp_base sp_derived] in D, O.
  assert (B : forall ic, In ic (sp_base sep) -> exists a, In a l /\ ic = error_entry ap lk pk s a) by (intros ic I; destruct (O ic I) as [[]|X]; exact X).
  split.
  - intros d F. unfold evaluate_mean_errors, run_shared, filter_and_separate_computations in F. rewrite E in F. cbn [bind] in F. rewrite D in F.
    destruct (foldM run_computation (sp_base sep) []) as [d0|] eqn:R; [|discriminate]. cbn [bind foldM] in F. injection F as <-.
    intros a A. destruct (run_errors ap lk pk s l OWN _ B _ _ R a A (or_intror (K a A))) as (x & X & V). exists x. split; [|exact X].
    rewrite one_error, V. reflexivity.
  - intros OK. unfold evaluate_mean_errors, run_shared, filter_and_separate_computations. rewrite E. cbn [bind]. rewrite D.
    assert (R : forall b, (forall ic, In ic b -> exists a, In a l /\ ic = error_entry ap lk pk s a) -> forall d, exists d', foldM run_computation b d = Ok d').
    { induction b as [|ic b IH]; intros H d; [exists d; reflexivity|]. destruct (H ic (or_introl eq_refl)) as (a & A & ->).
      destruct (OK a A) as (da & DA). rewrite one_error in DA. cbn [foldM]. unfold run_computation at 1. unfold error_entry at 1. cbn [snd cp_body mean_error_computation].
      fold (error_value ap lk pk s a). destruct (error_value ap lk pk s a) as [y|]; [|discriminate]. cbn [bind]. apply IH. intros ic I. apply H. right. exact I. }
    destruct (R _ B []) as (d & ->). exists d. reflexivity.
Qed.

Lemma C322_bounds_on_errors_partial_pf :
  forall default s n t lo hi r class error weights ms,
    mt_value t = Some (lo, hi) ->
    thresholds_of default [TSpec s [Thresholds_Model.MetricConfig n (Some t) [] []] [] [] []] = Ok r ->
    spec_metrics default s (fun m o sk agg w => MeanError n class error m o sk agg weights w) = Ok ms ->
    forall a, In a ms -> dm_agg a = None -> Validation_Main.has r (mean_error_key a) None (ValueThreshold lo hi).
Proof.
  intros default s n t lo hi r class error weights ms V E M a A N.
  destruct (spec_metrics default s (fun m o sk agg w => MatrixMetric n [] m o sk agg w recall_value)) as [ms'|] eqn:M'.
  2: { unfold spec_metrics in M, M'. destruct (create_sub_keys s) as [groups|]; [discriminate M'|discriminate M]. }
  destruct (C322_bounds_are_checked_partial_pf default s n t lo hi r [] recall_value ms' V E M') as [C _].
  specialize (C (MatrixMetric n [] (dm_model a) (dm_output a) (dm_sub_key a) (dm_agg a) (dm_weighted a) recall_value)).
  assert (I : In (MatrixMetric n [] (dm_model a) (dm_output a) (dm_sub_key a) (dm_agg a) (dm_weighted a) recall_value) ms' /\ dm_name a = n).
  { unfold spec_metrics in M, M'. destruct (create_sub_keys s) as [groups|]; [|discriminate]. cbn [bind] in M, M'. injection M as <-. injection M' as <-.
    apply in_flat_map in A. destruct A as (g & HG & A). destruct (is_macro (fst g)) eqn:MA; [destruct A|].
    apply in_flat_map in A. destruct A as (w & HW & A). apply in_flat_map in A. destruct A as (m & HM & A).
    apply in_flat_map in A. destruct A as (o & HO & A). apply in_map_iff in A. destruct A as (sk & <- & HS). cbn [dm_model dm_output dm_sub_key dm_agg dm_weighted dm_name].
    split; [|reflexivity]. apply in_flat_map. exists g. split; [exact HG|]. rewrite MA. apply in_flat_map. exists w. split; [exact HW|].
    apply in_flat_map. exists m. split; [exact HM|]. apply in_flat_map. exists o. split; [exact HO|]. apply in_map_iff. exists sk. split; [reflexivity|exact HS]. }
  destruct I as [I NM]. specialize (C I). unfold metric_key_of in C. cbn [mm_name mm_model mm_output mm_sub_key mm_agg mm_weighted] in C.
  unfold mean_error_key. rewrite NM. rewrite N in C. exact C.
Qed.

Definition class_spec : metrics_spec := MetricsSpec ["mean_squared_error"] [] [] [] (Some (Binarize [0%Z; 1%Z] [] [])) None None.

Lemma C323_own_totals_refuted_pf :
  exists s calibration micro,
    tm_agg calibration = None /\ tm_agg micro = Some (AggType (Some true) None None) /\ tm_name calibration <> tm_name micro /\
    (exists d, evaluate_totals ap_sort "" "" s [calibration] = Ok d /\ sget d (totals_metric_key calibration) = Some (VNumber (Fin (Q2Qc (1 # 2))))) /\
    (exists d, evaluate_totals ap_sort "" "" s [micro] = Ok d /\ sget d (totals_metric_key micro) = Some (VNumber (Fin 1%Qc))) /\
    (exists d, evaluate_totals ap_sort "" "" s [calibration; micro] = Ok d /\ sget d (totals_metric_key micro) = Some (VNumber (Fin (Q2Qc (1 # 2))))).
Proof.
  exists (Bundle [InputsDict (Some (Leaf [1; 1]%Qc)) (Some (Leaf [Fin 1%Qc; Fin 0%Qc])) None]),
    (TotalsMetric "calibration" calibration_result "" "" None None None false),
    (TotalsMetric "mean_prediction" mean_prediction_result "" "" None (Some (AggType (Some true) None None)) (Some [(0%nat, 1%Qc); (1%nat, 0%Qc)]) false).
  split; [reflexivity|]. split; [reflexivity|]. split; [discriminate|].
  split; [|split]; (eexists; split; [vm_compute; reflexivity|vm_compute; reflexivity]).
Qed.

Section OwnTotals.
  Variable ap : list num -> nat -> list nat.
  Variables lk pk : string.
  Variable s : sched inputs_dict.
  Variable l : list totals_metric.
  Definition totals_value (a : totals_metric) : res wlpe :=
    outcome (wlpe_combiner ap (calibration_options (tm_sub_key a) (match tm_agg a with Some _ => true | None => false end) (tm_weighted a) (tm_class_weights a)) lk pk (tm_model a) (tm_output a)) s.
  Definition totals_entry (a : totals_metric) := (ComputationId "_WeightedLabelsPredictionsExamplesCombiner" [totals_key a] [], totals_computation ap lk pk s a).
  Definition quotient_entry (a : totals_metric) := (ComputationId "function" [totals_metric_key a] [], quotient_computation a).
  Notation val := totals_value.

  Lemma add_new_entry (b : list (computation_id * computation (shared_dict -> res shared_dict))) i c :
    (forall ic, In ic (add_new b i c) -> In ic b \/ ic = (i, c)) /\ exists ic, In ic (add_new b i c) /\ fst ic = i.
  Proof.
    destruct (add_new_cases b i c) as [(ic & I & E & ->)| ->].
    - split; [auto|]. exists ic. auto.
    - split; [intros ic H; apply in_app_or in H; destruct H as [H|[<-|[]]]; auto|]. exists (i, c). split; [apply in_or_app; right; left; reflexivity|reflexivity].
  Qed.

  Lemma separated_totals l' : forall s0, exists sep,
    foldM separate_step (flat_map (fun a => [totals_computation ap lk pk s a; quotient_computation a]) l') s0 = Ok sep /\
    incl (sp_base s0) (sp_base sep) /\ incl (sp_derived s0) (sp_derived sep) /\
    (forall ic, In ic (sp_base sep) -> In ic (sp_base s0) \/ exists a, In a l' /\ ic = totals_entry a) /\
    (forall ic, In ic (sp_derived sep) -> In ic (sp_derived s0) \/ exists a, In a l' /\ ic = quotient_entry a) /\
    (forall a, In a l' -> (exists ic, In ic (sp_base sep) /\ fst ic = fst (totals_entry a)) /\ (exists ic, In ic (sp_derived sep) /\ fst ic = fst (quotient_entry a))).
  Proof.
    induction l' as [|a l' IH]; intros s0.
    - exists s0. cbn. split; [reflexivity|]. split; [apply incl_refl|]. split; [apply incl_refl|]. split; [auto|]. split; [auto|]. intros ? [].
    - destruct (add_new_entry (sp_base s0) (fst (totals_entry a)) (totals_computation ap lk pk s a)) as (B1 & B2).
      destruct (add_new_entry (sp_derived s0) (fst (quotient_entry a)) (quotient_computation a)) as (D1 & D2).
      destruct (IH (Separated (add_new (sp_base s0) (fst (totals_entry a)) (totals_computation ap lk pk s a))
        (add_new (sp_derived s0) (fst (quotient_entry a)) (quotient_computation a)) (sp_cross s0) (sp_ci s0))) as (sep & E & IB & ID & OB & OD & K).
      cbn [sp_base sp_derived] in *. exists sep. split; [exact E|].
      split; [intros x X; apply IB, add_new_incl; exact X|]. split; [intros x X; apply ID, add_new_incl; exact X|].
      split; [|split].
      + intros ic X. destruct (OB ic X) as [Y|(b & B & ->)]; [|right; exists b; split; [right; exact B|reflexivity]].
        destruct (B1 ic Y) as [Z| ->]; [left; exact Z|right; exists a; split; [left; reflexivity|reflexivity]].
      + intros ic X. destruct (OD ic X) as [Y|(b & B & ->)]; [|right; exists b; split; [right; exact B|reflexivity]].
        destruct (D1 ic Y) as [Z| ->]; [left; exact Z|right; exists a; split; [left; reflexivity|reflexivity]].
      + intros b [<-|B]; [|exact (K b B)]. destruct B2 as (x & X1 & X2), D2 as (y & Y1 & Y2).
        split; [exists x; split; [apply IB; exact X1|exact X2]|exists y; split; [apply ID; exact Y1|exact Y2]].
  Qed.

  Hypothesis public : forall a, In a l -> tm_name a <> "_weighted_labels_predictions_examples".
  Hypothesis own_names : forall a b, In a l -> In b l -> totals_metric_key a = totals_metric_key b -> a = b.
  Hypothesis alike : forall a b, In a l -> In b l -> totals_key a = totals_key b -> val a = val b.
  Hypothesis defined : forall a, In a l -> exists t, val a = Ok t.

  Definition totals_good (d : shared_dict) : Prop := forall a v, In a l -> sget d (totals_key a) = Some v -> exists t, val a = Ok t /\ v = VTotals t.
  Definition numbers_good (d : shared_dict) : Prop := forall a v, In a l -> sget d (totals_metric_key a) = Some v -> exists t, val a = Ok t /\ v = VNumber (tm_result a t).
  Lemma keys_apart a b : In b l -> totals_key a <> totals_metric_key b.
  Proof. intros B E. unfold totals_key, totals_metric_key in E. apply (f_equal k_name) in E. cbn [k_name] in E. symmetry in E. exact (public b B E). Qed.

  Lemma run_bases b : (forall ic, In ic b -> exists a, In a l /\ ic = totals_entry a) -> forall d, totals_good d -> numbers_good d ->
    exists d', foldM run_computation b d = Ok d' /\ totals_good d' /\ numbers_good d' /\
      forall a, In a l -> sget d (totals_key a) <> None \/ (exists ic, In ic b /\ fst ic = fst (totals_entry a)) -> sget d' (totals_key a) <> None.
  Proof.
    induction b as [|ic b IH]; intros B d G N.
    - exists d. split; [reflexivity|]. split; [exact G|]. split; [exact N|]. intros a _ [H|(? & [] & _)]. exact H.
    - destruct (B ic (or_introl eq_refl)) as (c & C & ->). destruct (defined c C) as (t & T).
      assert (R : run_computation d (totals_entry c) = Ok (dupdate metric_key_eqb d [(totals_key c, VTotals t)])).
      { unfold run_computation, totals_entry. cbn [snd totals_computation cp_body]. fold (val c). rewrite T. reflexivity. }
      destruct (IH (fun ic I => B ic (or_intror I)) (dupdate metric_key_eqb d [(totals_key c, VTotals t)])) as (d' & F & G' & N' & P).
      + intros a v A E. rewrite sget_update in E. destruct (metric_key_eqb (totals_key c) (totals_key a)) eqn:K; [|exact (G a v A E)].
        apply metric_key_eqb_eq in K. injection E as <-. exists t. split; [rewrite <- (alike c a C A K); exact T|reflexivity].
      + intros a v A E. rewrite sget_update in E. destruct (metric_key_eqb (totals_key c) (totals_metric_key a)) eqn:K; [|exact (N a v A E)].
        apply metric_key_eqb_eq in K. destruct (keys_apart c a A K).
      + exists d'. split; [cbn [foldM]; rewrite R; exact F|]. split; [exact G'|]. split; [exact N'|]. intros a A H. apply (P a A). rewrite sget_update.
        destruct (metric_key_eqb (totals_key c) (totals_key a)) eqn:K; [left; discriminate|].
        destruct H as [H|(ic & [<-|I] & E)]; [left; exact H| |right; exists ic; auto].
        exfalso. cbn [fst totals_entry] in E. apply id_key in E. rewrite E, mk_eqb_refl in K. discriminate.
  Qed.
  Lemma run_quotients b : (forall ic, In ic b -> exists a, In a l /\ ic = quotient_entry a) -> forall d, totals_good d -> numbers_good d ->
    (forall a, In a l -> sget d (totals_key a) <> None) ->
    exists d', foldM run_computation b d = Ok d' /\ numbers_good d' /\
      forall a, In a l -> sget d (totals_metric_key a) <> None \/ (exists ic, In ic b /\ fst ic = fst (quotient_entry a)) -> sget d' (totals_metric_key a) <> None.
  Proof.
    induction b as [|ic b IH]; intros B d G N T.
    - exists d. split; [reflexivity|]. split; [exact N|]. intros a _ [H|(? & [] & _)]. exact H.
    - destruct (B ic (or_introl eq_refl)) as (c & C & ->).
      destruct (sget d (totals_key c)) as [v|] eqn:V; [|destruct (T c C V)]. destruct (G c v C V) as (t & TV & ->).
      assert (R : run_computation d (quotient_entry c) = Ok (dupdate metric_key_eqb d [(totals_metric_key c, VNumber (tm_result c t))])).
      { unfold run_computation, quotient_entry. cbn [snd quotient_computation cp_body]. unfold derive_from. rewrite V. reflexivity. }
      destruct (IH (fun ic I => B ic (or_intror I)) (dupdate metric_key_eqb d [(totals_metric_key c, VNumber (tm_result c t))])) as (d' & F & N' & P).
      + intros a v A E. rewrite sget_update in E. destruct (metric_key_eqb (totals_metric_key c) (totals_key a)) eqn:K; [|exact (G a v A E)].
        apply metric_key_eqb_eq in K. symmetry in K. destruct (keys_apart a c C K).
      + intros a v A E. rewrite sget_update in E. destruct (metric_key_eqb (totals_metric_key c) (totals_metric_key a)) eqn:K; [|exact (N a v A E)].
        apply metric_key_eqb_eq in K. injection E as <-. rewrite <- (own_names c a C A K). exists t. auto.
      + intros a A. apply present_update. right. exact (T a A).
      + exists d'. split; [cbn [foldM]; rewrite R; exact F|]. split; [exact N'|]. intros a A H. apply (P a A). rewrite sget_update.
        destruct (metric_key_eqb (totals_metric_key c) (totals_metric_key a)) eqn:K; [left; discriminate|].
        destruct H as [H|(ic & [<-|I] & E)]; [left; exact H| |right; exists ic; auto].
        exfalso. cbn [fst quotient_entry] in E. apply id_key in E. rewrite E, mk_eqb_refl in K. discriminate.
  Qed.
  Lemma totals_together : exists d, evaluate_totals ap lk pk s l = Ok d /\
    forall a, In a l -> exists t, val a = Ok t /\ sget d (totals_metric_key a) = Some (VNumber (tm_result a t)).
  Proof.
    destruct (separated_totals l (Separated [] [] [] [])) as (sep & E & _ & _ & OB & OD & K). cbn [sp_base sp_derived] in *.
    unfold evaluate_totals, run_shared, filter_and_separate_computations. rewrite E. cbn [bind].
    destruct (run_bases (sp_base sep)) with (d := @nil (metric_key * shared_value)) as (d & F & G & N & P).
    - intros ic I. destruct (OB ic I) as [[]|X]; exact X.
    - intros a v _ X. discriminate X.
    - intros a v _ X. discriminate X.
    - rewrite F. cbn [bind]. destruct (run_quotients (sp_derived sep)) with (d := d) as (d' & F' & N' & P').
      + intros ic I. destruct (OD ic I) as [[]|X]; exact X.
      + exact G.
      + exact N.
      + intros a A. apply (P a A). right. exact (proj1 (K a A)).
      + exists d'. split; [exact F'|]. intros a A. pose proof (P' a A (or_intror (proj2 (K a A)))) as Q.
        destruct (sget d' (totals_metric_key a)) as [v|] eqn:Y; [|destruct (Q eq_refl)]. destruct (N' a v A Y) as (t & T & ->). exists t. auto.
  Qed.

End OwnTotals.

Lemma totals_alone ap lk pk s a d : tm_name a <> "_weighted_labels_predictions_examples" -> evaluate_totals ap lk pk s [a] = Ok d -> exists t, totals_value ap lk pk s a = Ok t.
Proof.
  intros N E. destruct (separated_totals ap lk pk s [a] (Separated [] [] [] [])) as (sep & S & _ & _ & OB & _ & K). cbn [sp_base sp_derived] in *.
  unfold evaluate_totals, run_shared, filter_and_separate_computations in E. rewrite S in E. cbn [bind] in E.
  destruct (K a (or_introl eq_refl)) as [(ic & I & _) _]. destruct (sp_base sep) as [|e b]; [destruct I|].
  destruct (OB e (or_introl eq_refl)) as [[]|(c & [<-|[]] & ->)]. cbn [foldM] in E. unfold run_computation at 1 in E. cbn [snd totals_entry totals_computation cp_body] in E.
  fold (totals_value ap lk pk s a) in E. destruct (totals_value ap lk pk s a) as [t|]; [exists t; reflexivity|discriminate].
Qed.

Lemma C323_totals_as_alone_partial_pf :
  forall ap lk pk s l,
    (forall a, In a l -> tm_name a <> "_weighted_labels_predictions_examples") ->
    (forall a b, In a l -> In b l -> tm_model a = tm_model b -> tm_output a = tm_output b -> tm_sub_key a = tm_sub_key b -> tm_weighted a = tm_weighted b ->
       (tm_agg a = None <-> tm_agg b = None) /\ tm_class_weights a = tm_class_weights b /\ (tm_name a = tm_name b -> a = b)) ->
    (forall a, In a l -> exists d, evaluate_totals ap lk pk s [a] = Ok d) ->
    exists d, evaluate_totals ap lk pk s l = Ok d /\
      forall a da, In a l -> evaluate_totals ap lk pk s [a] = Ok da ->
        sget d (totals_metric_key a) = sget da (totals_metric_key a) /\ sget da (totals_metric_key a) <> None.
Proof.
  intros ap lk pk s l PUB ALIKE OK.
  assert (G : forall l', incl l' l -> exists d, evaluate_totals ap lk pk s l' = Ok d /\
    forall a, In a l' -> exists t, totals_value ap lk pk s a = Ok t /\ sget d (totals_metric_key a) = Some (VNumber (tm_result a t))).
  { intros l' I. apply totals_together.
    - intros a A. apply PUB, I, A.
    - intros a b A B E. unfold totals_metric_key in E. injection E as N M O S W. apply (ALIKE a b (I a A) (I b B) M O S W). exact N.
    - intros a b A B E. unfold totals_key in E. injection E as M O S W. destruct (ALIKE a b (I a A) (I b B) M O S W) as (AG & CW & _).
      unfold totals_value. rewrite M, O, S, W, CW. destruct (tm_agg a), (tm_agg b); try reflexivity; exfalso; destruct AG as [G1 G2]; [discriminate (G2 eq_refl)|discriminate (G1 eq_refl)].
    - intros a A. destruct (OK a (I a A)) as (d & D). exact (totals_alone ap lk pk s a d (PUB a (I a A)) D). }
  destruct (G l (incl_refl l)) as (d & E & H). exists d. split; [exact E|]. intros a da A DA.
  destruct (G [a]) as (d1 & E1 & H1); [intros x [<-|[]]; exact A|]. rewrite DA in E1. injection E1 as <-.
  destruct (H a A) as (t & T & R). destruct (H1 a (or_introl eq_refl)) as (t1 & T1 & R1). rewrite T in T1. injection T1 as <-. rewrite R, R1. split; [reflexivity|discriminate].
Qed.

Lemma C324_counts_without_interval_partial_pf :
  forall default sp name metrics configured reported n m (P : CI_Model.metrics_dict) (others : list (nat * CI_Model.metrics_dict)) s agg k v,
    In (name, false) metrics ->
    configured_keys default sp metrics = Ok configured ->
    spec_metrics default sp (fun m o sk agg w => (agg, count_key name m o sk agg w)) = Ok reported ->
    2 <= n -> length others <= n -> NoDup (map fst P) -> ~ In error_key (map fst P) ->
    (forall o, In o others -> NoDup (map fst (snd o)) /\ ~ In error_key (map fst (snd o))) ->
    (forall k v, In (k, v) P -> length others = n -> Forall (fun o => numeric k (snd o)) others -> exists x, v = CI_Model.Num x) ->
    Permutation (inputs s) (Sample P None :: map as_sample others) ->
    In (agg, k) reported -> agg = None -> In (k, v) P ->
    exists out, outcome (sample_combiner n (keys_to_skip configured) m) s = Ok out /\ In (k, Plain v) out.
Proof.
  intros default sp name metrics configured reported n m P others s agg k v HN C R N2 LE NDP NEP OTH NUM PERM I -> IP.
  apply (C92_skipped_metrics_pf n configured m P others s k v N2 LE NDP NEP OTH NUM PERM); [|exact IP].
  unfold configured_keys in C. unfold spec_metrics in R. destruct (create_sub_keys sp) as [groups|]; [|discriminate]. cbn [bind] in C, R. injection C as <-. injection R as <-.
  apply in_flat_map in I. destruct I as (g & HG & A). destruct (is_macro (fst g)); [destruct A|].
  apply in_flat_map in A. destruct A as (w & HW & A). apply in_flat_map in A. destruct A as (mo & HM & A).
  apply in_flat_map in A. destruct A as (o & HO & A). apply in_map_iff in A. destruct A as (sk & E & HS). injection E as EG EK.
  apply in_flat_map. exists g. split; [exact HG|]. apply in_flat_map. exists (name, false). split; [exact HN|]. cbn [fst snd].
  apply in_map_iff. exists k. split; [reflexivity|]. rewrite <- EK. unfold keys_for. apply in_flat_map. exists mo. split; [exact HM|].
  apply in_flat_map. exists o. split; [exact HO|]. apply in_flat_map. exists sk. split; [exact HS|].
  apply in_map_iff. exists (Some w). split; [rewrite EG; reflexivity|apply in_map; exact HW].
Qed.

Lemma C324_counts_without_interval_refuted_pf :
  exists sp configured k s out mean var x,
    configured_keys (fun _ => false) sp [("example_count", false)] = Ok configured /\
    spec_metrics (fun _ => false) sp (count_key "example_count") = Ok [k] /\
    outcome (sample_combiner 2 (keys_to_skip configured) Jackknife) s = Ok out /\ In (k, TValue mean var 1 x) out.
Proof.
  set (k := MetricKey "example_count" "" "" None None (Some false) false).
  exists (micro_spec ["example_count"]), [(MetricKey "example_count" "" "" None (Some (AggType (Some true) None None)) (Some false) false, false)], k,
    (Bundle [Sample [(k, CI_Model.Num (Fin (qz 7)))] None; as_sample (0%nat, [(k, CI_Model.Num (Fin (qz 3)))]); as_sample (1%nat, [(k, CI_Model.Num (Fin (qz 3)))])]).
  do 4 eexists. split; [vm_compute; reflexivity|]. split; [vm_compute; reflexivity|]. split; [vm_compute; reflexivity|]. left. reflexivity.
Qed.

Lemma in_mapM {A B} (f : A -> res B) : forall l r, mapM f l = Ok r -> forall y, In y r <-> exists x, In x l /\ f x = Ok y.
Proof.
  induction l as [|a l IH]; intros r E y; cbn [mapM] in E.
  - injection E as <-. split; [intros []|intros (? & [] & _)].
  - destruct (f a) as [b|] eqn:F; [|discriminate]. cbn [bind] in E. destruct (mapM f l) as [r'|]; [|discriminate]. cbn [bind] in E. injection E as <-.
    cbn [In]. rewrite (IH r' eq_refl y). split.
    + intros [<-|(x & X & Y)]; [exists a; auto|exists x; auto].
    + intros (x & [<-|X] & Y); [left; congruence|right; exists x; auto].
Qed.

Lemma own_sub_key_none sk : own_sub_key sk None None = Ok sk.
Proof. destruct sk; reflexivity. Qed.

Lemma in_spec_metrics {K} default sp (make : string -> string -> option sub_key -> option agg_type -> bool -> K) ms l :
  spec_metrics default sp make = Ok ms -> spec_metrics default sp (fun m o sk agg w => (m, o, sk, agg, w)) = Ok l ->
  forall a, In a ms <-> exists m o sk agg w, In (m, o, sk, agg, w) l /\ a = make m o sk agg w.
Proof.
  unfold spec_metrics. destruct (create_sub_keys sp) as [groups|]; [|discriminate]. cbn [bind]. intros E E' a. injection E as <-. injection E' as <-. split.
  - intros A. apply in_flat_map in A. destruct A as (g & HG & A). destruct (is_macro (fst g)) eqn:MA; [destruct A|].
    apply in_flat_map in A. destruct A as (w & HW & A). apply in_flat_map in A. destruct A as (m & HM & A).
    apply in_flat_map in A. destruct A as (o & HO & A). apply in_map_iff in A. destruct A as (sk & <- & HS).
    exists m, o, sk, (fst g), w. split; [|reflexivity]. apply in_flat_map. exists g. split; [exact HG|]. rewrite MA. apply in_flat_map. exists w. split; [exact HW|].
    apply in_flat_map. exists m. split; [exact HM|]. apply in_flat_map. exists o. split; [exact HO|]. apply in_map_iff. exists sk. auto.
  - intros (m' & o' & sk' & agg' & w' & A & ->). apply in_flat_map in A. destruct A as (g & HG & A). destruct (is_macro (fst g)) eqn:MA; [destruct A|].
    apply in_flat_map in A. destruct A as (w & HW & A). apply in_flat_map in A. destruct A as (m & HM & A).
    apply in_flat_map in A. destruct A as (o & HO & A). apply in_map_iff in A. destruct A as (sk & E & HS).
    assert (Q : m = m' /\ o = o' /\ sk = sk' /\ fst g = agg' /\ w = w') by (repeat split; congruence). destruct Q as (-> & -> & -> & <- & ->).
    apply in_flat_map. exists g. split; [exact HG|]. rewrite MA. apply in_flat_map. exists w'. split; [exact HW|].
    apply in_flat_map. exists m'. split; [exact HM|]. apply in_flat_map. exists o'. split; [exact HO|]. apply in_map_iff. exists sk'. auto.
Qed.

Lemma C325_bounds_kept_partial_pf :
  forall default sp n t lo hi r ks slice metrics v,
    mt_value t = Some (lo, hi) -> mt_change t = None ->
    thresholds_of default [TSpec sp [Thresholds_Model.MetricConfig n (Some t) [] []] [] [] []] = Ok r ->
    reported_keys default sp n None None = Ok ks ->
    (forall k g, In k (map fst r) -> k_agg k = Some g -> ag_macro g <> Some true /\ ag_weighted g <> Some true) ->
    NoDup (map fst metrics) -> (forall k, In k ks -> In k (map fst metrics)) ->
    validate_metrics None (inl slice) metrics r = Ok v ->
    (v_ok v = true <->
     forall k x, In k ks -> In (k, x) metrics ->
       exists y, x = Number y /\ y <> NaN /\ (forall b, lo = Some b -> num_leb b y = true) /\ (forall b, hi = Some b -> num_leb y b = true)).
Proof.
  intros default sp n t lo hi r ks slice metrics v V CH E R NM ND PRES VR.
  destruct (spec_metrics default sp (fun m o sk agg w => MatrixMetric n [] m o sk agg w recall_value)) as [ms|] eqn:M.
  2: { unfold reported_keys in R. unfold spec_metrics in M, R. destruct (create_sub_keys sp); [discriminate M|discriminate R]. }
  destruct (C322_bounds_are_checked_partial_pf default sp n t lo hi r [] recall_value ms V E M) as [C1 C2].
  assert (KS : forall k, In k ks <-> exists a, In a ms /\ metric_key_of a = k).
  { intros k. unfold reported_keys in R. destruct (spec_metrics default sp (fun m o sk agg w => (m, o, sk, agg, w))) as [l|] eqn:L; [|discriminate]. cbn [bind] in R.
    rewrite (in_mapM _ _ _ R). split.
    - intros ([[[[m o] sk] agg] w] & I & F). rewrite own_sub_key_none in F. cbn [bind] in F. injection F as <-.
      exists (MatrixMetric n [] m o sk agg w recall_value). split; [|reflexivity]. apply (in_spec_metrics _ _ _ _ _ M L). exists m, o, sk, agg, w. auto.
    - intros (a & A & <-). apply (in_spec_metrics _ _ _ _ _ M L) in A. destruct A as (m & o & sk & agg & w & I & ->).
      exists (m, o, sk, agg, w). split; [exact I|]. rewrite own_sub_key_none. reflexivity. }
  assert (UT : NoDup (map fst r)).
  { unfold thresholds_of in E. match type of E with bind ?x _ = _ => destruct x as [named|]; [|discriminate] end. cbn [bind] in E.
    match type of E with bind ?x _ = _ => destruct x as [own|]; [|discriminate] end. cbn [bind] in E. injection E as <-. exact (proj1 (proj2 (proj2 (C87_thresholds_used_pf (named ++ own))))). }
  destruct (C27_verdict_exact_pf None (inl slice) metrics r v ND UT VR) as (OK & _). rewrite OK. split.
  - intros H k x K X. apply KS in K. destruct K as (a & A & <-). pose proof (C1 a A) as (sts & S1 & S2).
    destruct x as [y| |].
    2,3: exfalso; apply (H (metric_key_of a) (ValueThreshold lo hi)); split; [discriminate|]; exists sts, None; split; [exact S1|]; split; [exact S2|]; left; eexists; split; [exact X|]; split; [constructor|]; intros (? & ? & _); discriminate.
    exists y. split; [reflexivity|].
    assert (P : check_threshold None metrics (metric_key_of a) (ValueThreshold lo hi) (Number y) = Ok true).
    { destruct (check_threshold None metrics (metric_key_of a) (ValueThreshold lo hi) (Number y)) as [[]|] eqn:CT; [reflexivity| |discriminate CT].
      exfalso. apply (H (metric_key_of a) (ValueThreshold lo hi)). split; [discriminate|]. exists sts, None. split; [exact S1|]. split; [exact S2|]. left. eexists. split; [exact X|]. split; [constructor|].
      intros P. apply (check_passes None metrics ND) in P. congruence. }
    apply (check_passes None metrics ND) in P. destruct P as (y' & [= <-] & P). exact P.
  - intros H k b (_ & sts & sc & S1 & S2 & D).
    destruct (C2 k sc b) as (-> & -> & a & A & KA).
    + exists sts. auto.
    + right. exact CH.
    + intros g G. apply (NM k g); [|exact G]. apply in_map_iff. exists (k, sts). auto.
    + assert (K : In k ks) by (apply KS; exists a; auto). destruct D as [(x & X & _ & NP)|(ABS & _)].
      * apply NP. destruct (H k x K X) as (y & -> & P). exists y. split; [reflexivity|exact P].
      * pose proof (PRES k K) as P. apply in_map_iff in P. destruct P as ([k' x] & EK & X). cbn [fst] in EK. subst k'. exact (ABS x X).
Qed.

Definition plain_spec (metrics : list string) : metrics_spec := MetricsSpec metrics [] [] [] None None None.

Lemma C325_bounds_kept_refuted_pf :
  exists t r ks,
    mt_value t = Some (Some (Fin 0%Qc), None) /\ mt_change t = None /\
    thresholds_of (fun _ => false) [TSpec (plain_spec ["recall"]) [Thresholds_Model.MetricConfig "recall" (Some t) [] []] [] [] []] = Ok r /\
    reported_keys (fun _ => false) (plain_spec ["recall"]) "recall" (Some 2%nat) None = Ok ks /\ length ks = 1%nat /\
    forall slice metrics, map fst metrics = ks ->
      exists v, validate_metrics None (inl slice) metrics r = Ok v /\ v_ok v = false.
Proof.
  exists (MetricThreshold (Some (Some (Fin 0%Qc), None)) None). do 2 eexists. split; [reflexivity|]. split; [reflexivity|]. split; [vm_compute; reflexivity|].
  split; [vm_compute; reflexivity|]. split; [reflexivity|]. intros slice [|[k x] [|y metrics]] E; try discriminate E.
  apply (f_equal (hd k)) in E. cbn [hd map fst] in E. subst k. eexists. split; [vm_compute; reflexivity|reflexivity].
Qed.

Lemma C325_own_settings_partial_pf :
  forall default sp n t lo hi r top_k class_id ks slice metrics v,
    mt_value t = Some (lo, hi) ->
    thresholds_of default [TSpec sp [Thresholds_Model.MetricConfig n (Some t) [] []] [] [] []] = Ok r ->
    reported_keys default sp n top_k class_id = Ok ks -> ks <> [] ->
    top_k <> None \/ class_id <> None ->
    NoDup (map fst metrics) -> (forall k, In k (map fst metrics) -> k_name k = n -> In k ks) ->
    validate_metrics None (inl slice) metrics r = Ok v ->
    v_ok v = false.
Proof.
  intros default sp n t lo hi r top_k class_id ks slice metrics v V E R NE OWN ND PRES VR.
  destruct (spec_metrics default sp (fun m o sk agg w => MatrixMetric n [] m o sk agg w recall_value)) as [ms|] eqn:M.
  2: { unfold reported_keys in R. unfold spec_metrics in M, R. destruct (create_sub_keys sp); [discriminate M|discriminate R]. }
  destruct (C322_bounds_are_checked_partial_pf default sp n t lo hi r [] recall_value ms V E M) as [C1 _].
  unfold reported_keys in R. destruct (spec_metrics default sp (fun m o sk agg w => (m, o, sk, agg, w))) as [l|] eqn:L; [|discriminate]. cbn [bind] in R.
  pose proof (in_mapM _ _ _ R) as KS.
  assert (UT : NoDup (map fst r)).
  { unfold thresholds_of in E. match type of E with bind ?x _ = _ => destruct x as [named|]; [|discriminate] end. cbn [bind] in E.
    match type of E with bind ?x _ = _ => destruct x as [own|]; [|discriminate] end. cbn [bind] in E. injection E as <-. exact (proj1 (proj2 (proj2 (C87_thresholds_used_pf (named ++ own))))). }
  destruct (v_ok v) eqn:OKV; [|reflexivity]. exfalso. destruct (C27_verdict_exact_pf None (inl slice) metrics r v ND UT VR) as (OK & _).
  rewrite OK in OKV.
  assert (SK : forall sk sk', own_sub_key sk top_k class_id = Ok sk' ->
            (top_k <> None -> exists s, sk' = Some s /\ sk_top_k s = top_k /\ forall s0, sk = Some s0 -> sk_top_k s0 = None) /\
            (class_id <> None -> exists s, sk' = Some s /\ sk_class_id s = class_id /\ forall s0, sk = Some s0 -> sk_class_id s0 = None)).
  { intros sk sk' F. unfold own_sub_key in F. destruct sk as [[c k tk]|], top_k as [tp|], class_id as [cl|]; cbn [sk_top_k sk_class_id sk_k bind] in F;
      try destruct tk; try destruct c; cbn [sk_top_k sk_class_id sk_k bind] in F; try discriminate F; injection F as <-; (split; intros NN; try congruence);
      (eexists; split; [reflexivity|]; split; [reflexivity|]); intros s0 [= <-]; reflexivity. }
  destruct ks as [|k0 ks]; [congruence|]. destruct (proj1 (KS k0) (or_introl eq_refl)) as ([[[[m o] sk] agg] w] & I & F).
  destruct (own_sub_key sk top_k class_id) as [sk0|] eqn:S0; [|discriminate]. clear F.
  assert (A : In (MatrixMetric n [] m o sk agg w recall_value) ms) by (apply (in_spec_metrics _ _ _ _ _ M L); exists m, o, sk, agg, w; auto).
  destruct (C1 _ A) as (sts & S1 & S2). apply (OKV (metric_key_of (MatrixMetric n [] m o sk agg w recall_value)) (ValueThreshold lo hi)).
  split; [discriminate|]. exists sts, None. split; [exact S1|]. split; [exact S2|]. right. split; [|constructor].
  intros x X. assert (K : In (metric_key_of (MatrixMetric n [] m o sk agg w recall_value)) (k0 :: ks)).
  { apply PRES; [apply in_map_iff; eexists; split; [|exact X]; reflexivity|reflexivity]. }
  apply KS in K. destruct K as ([[[[m' o'] sk'] agg'] w'] & I' & F). destruct (own_sub_key sk' top_k class_id) as [sk1|] eqn:S'; [|discriminate]. cbn [bind] in F.
  injection F as _ _ Q _ _. subst sk1.
  destruct (SK _ _ S0) as [T0 C0]. destruct (SK _ _ S') as [T1 CC1]. destruct OWN as [O|O].
  - destruct (T0 O) as (_ & _ & _ & N). destruct (T1 O) as (s & -> & B & _). rewrite (N s eq_refl) in B. congruence.
  - destruct (C0 O) as (_ & _ & _ & N). destruct (CC1 O) as (s & -> & B & _). rewrite (N s eq_refl) in B. congruence.
Qed.

Lemma C325_bounds_of_metrics_partial_pf :
  forall default sp n t lo hi r slice metrics v,
    mt_value t = Some (lo, hi) -> mt_change t = None -> clear_spec sp ->
    thresholds_of default [TSpec sp [Thresholds_Model.MetricConfig n (Some t) [] []] [] [] []] = Ok r ->
    NoDup (map fst metrics) -> validate_metrics None (inl slice) metrics r = Ok v ->
    (v_ok v = true <->
     forall m o agg sk w, (In m (ms_models sp) \/ (ms_models sp = [] /\ m = "")) -> (In o (ms_outputs sp) \/ (ms_outputs sp = [] /\ o = "")) -> part sp agg sk -> weighting default sp w ->
       exists y, In (MetricKey n m o sk agg (Some w) false, Number y) metrics /\
         y <> NaN /\ (forall b, lo = Some b -> num_leb b y = true) /\ (forall b, hi = Some b -> num_leb y b = true)).
Proof.
  intros default sp n t lo hi r slice metrics v V CH CS E ND VR.
  assert (CL : Forall (fun s => clear_spec (ts_spec s)) [TSpec sp [Thresholds_Model.MetricConfig n (Some t) [] []] [] [] []]).
  { constructor; [|constructor]. exact CS. }
  destruct (C294_thresholds_used_pf default _ r CL E) as (U1 & U2).
  assert (UT : NoDup (map fst r)).
  { unfold thresholds_of in E. match type of E with bind ?x _ = _ => destruct x as [named|]; [|discriminate] end. cbn [bind] in E.
    match type of E with bind ?x _ = _ => destruct x as [own|]; [|discriminate] end. cbn [bind] in E. injection E as <-. exact (proj1 (proj2 (proj2 (C87_thresholds_used_pf (named ++ own))))). }
  destruct (C27_verdict_exact_pf None (inl slice) metrics r v ND UT VR) as (OK & _). rewrite OK.
  assert (HAS : forall k sc b, Validation_Main.has r k sc b -> sc = None /\ b = ValueThreshold lo hi /\
            exists m o agg sk w, named_or_blank (ms_models sp) m /\ named_or_blank (ms_outputs sp) o /\ part sp agg sk /\ weighting default sp w /\ k = MetricKey n m o sk agg (Some w) false).
  { intros k sc b H. destruct (U1 k sc b H) as (k0 & pl & mt & CF & RD & B).
    inversion CF as [s n0 t0 k1 S N K|s n0 l p sl k1 S N P SL K|s n0 l p c k1 S N P SL K|s m t0 w k1 S M N W K|s m p sl w k1 S M P SL W K|s m p c w k1 S M P SL W K]; subst;
      destruct S as [<-|[]]; cbn [ts_spec ts_thresholds ts_per_slice ts_cross ts_metrics] in *; try contradiction.
    2,3: destruct M as [<-|[]]; cbn [mc_per_slice mc_cross] in P; destruct P.
    destruct M as [<-|[]]. cbn [mc_threshold mc_name] in *. injection N as <-. inversion RD; subst. split; [reflexivity|].
    destruct B as [(l & u & -> & MV & ->)|(a0 & r0 & d0 & _ & MC & _)]; [|congruence]. rewrite V in MV. injection MV as <- <-. split; [reflexivity|].
    destruct K as [m o agg sk MM OO PT]. exists m, o, agg, sk, w. auto. }
  split.
  - intros H m o agg sk w MM OO PT WW.
    assert (CF : configured default [TSpec sp [Thresholds_Model.MetricConfig n (Some t) [] []] [] [] []] (MetricKey n m o sk agg (Some w) false) Everywhere t).
    { eapply own_everywhere; [left; reflexivity|left; reflexivity|reflexivity|exact WW|]. constructor; [exact MM|exact OO|exact PT]. }
    destruct (U2 _ _ _ _ (ValueThreshold lo hi) CF (or_introl (ex_intro _ lo (ex_intro _ hi (conj eq_refl (conj V eq_refl)))))) as (sc & sc' & RD & SP & HH).
    destruct (HAS _ _ _ HH) as (-> & _). destruct HH as (sts & S1 & S2).
    destruct (dget metric_key_eqb metrics (MetricKey n m o sk agg (Some w) false)) as [x|] eqn:G.
    + assert (X : In (MetricKey n m o sk agg (Some w) false, x) metrics) by (apply (dget_In _ metric_key_eqb_eq); exact G).
      destruct (check_threshold None metrics (MetricKey n m o sk agg (Some w) false) (ValueThreshold lo hi) x) as [[]|] eqn:CT.
      * apply (check_passes None metrics ND) in CT. destruct CT as (y & -> & P). exists y. split; [exact X|exact P].
      * exfalso. apply (H (MetricKey n m o sk agg (Some w) false) (ValueThreshold lo hi)). split; [discriminate|]. exists sts, None. split; [exact S1|]. split; [exact S2|]. left.
        exists x. split; [exact X|]. split; [constructor|]. rewrite <- (check_passes None metrics ND). congruence.
      * exfalso. apply (H (MetricKey n m o sk agg (Some w) false) (ValueThreshold lo hi)). split; [discriminate|]. exists sts, None. split; [exact S1|]. split; [exact S2|]. left.
        exists x. split; [exact X|]. split; [constructor|]. rewrite <- (check_passes None metrics ND). congruence.
    + exfalso. apply (H (MetricKey n m o sk agg (Some w) false) (ValueThreshold lo hi)). split; [discriminate|]. exists sts, None. split; [exact S1|]. split; [exact S2|]. right. split; [|constructor].
      intros x X. assert (G' : dget metric_key_eqb metrics (MetricKey n m o sk agg (Some w) false) = Some x) by (apply (dget_In_NoDup _ metric_key_eqb_eq _ _ _ ND); exact X). congruence.
  - intros H k b (_ & sts & sc & S1 & S2 & D). destruct (HAS k sc b (ex_intro _ sts (conj S1 S2))) as (-> & -> & m & o & agg & sk & w & MM & OO & PT & WW & ->).
    destruct (H m o agg sk w MM OO PT WW) as (y & Y & P). destruct D as [(x & X & _ & NP)|(ABS & _)]; [|exact (ABS _ Y)].
    apply NP. assert (XY : x = Number y). { apply (dget_In_NoDup _ metric_key_eqb_eq _ _ _ ND) in X. apply (dget_In_NoDup _ metric_key_eqb_eq _ _ _ ND) in Y. congruence. } subst x. exists y. split; [reflexivity|exact P].
Qed.

Lemma C326_bounds_of_model_metrics_partial_pf :
  forall default sp n t lo hi r slice metrics v,
    mt_value t = Some (lo, hi) -> mt_change t = None -> clear_spec sp ->
    thresholds_of default [TSpec sp [] [(n, t)] [] []] = Ok r ->
    NoDup (map fst metrics) -> validate_metrics None (inl slice) metrics r = Ok v ->
    (v_ok v = true <->
     forall m o agg sk, (In m (ms_models sp) \/ (ms_models sp = [] /\ m = "")) -> (In o (ms_outputs sp) \/ (ms_outputs sp = [] /\ o = "")) -> part sp agg sk ->
       exists y, In (MetricKey n m o sk agg None false, Number y) metrics /\
         y <> NaN /\ (forall b, lo = Some b -> num_leb b y = true) /\ (forall b, hi = Some b -> num_leb y b = true)).
Proof.
  intros default sp n t lo hi r slice metrics v V CH CS E ND VR.
  assert (CL : Forall (fun s => clear_spec (ts_spec s)) [TSpec sp [] [(n, t)] [] []]).
  { constructor; [|constructor]. exact CS. }
  destruct (C294_thresholds_used_pf default _ r CL E) as (U1 & U2).
  assert (UT : NoDup (map fst r)).
  { unfold thresholds_of in E. match type of E with bind ?x _ = _ => destruct x as [named|]; [|discriminate] end. cbn [bind] in E.
    match type of E with bind ?x _ = _ => destruct x as [own|]; [|discriminate] end. cbn [bind] in E. injection E as <-. exact (proj1 (proj2 (proj2 (C87_thresholds_used_pf (named ++ own))))). }
  destruct (C27_verdict_exact_pf None (inl slice) metrics r v ND UT VR) as (OK & _). rewrite OK.
  assert (HAS : forall k sc b, Validation_Main.has r k sc b -> sc = None /\ b = ValueThreshold lo hi /\
            exists m o agg sk, named_or_blank (ms_models sp) m /\ named_or_blank (ms_outputs sp) o /\ part sp agg sk /\ k = MetricKey n m o sk agg None false).
  { intros k sc b H. destruct (U1 k sc b H) as (k0 & pl & mt & CF & RD & B).
    inversion CF as [s n0 t0 k1 S N K|s n0 l p sl k1 S N P SL K|s n0 l p c k1 S N P SL K|s m t0 w k1 S M N W K|s m p sl w k1 S M P SL W K|s m p c w k1 S M P SL W K]; subst;
      destruct S as [<-|[]]; cbn [ts_spec ts_thresholds ts_per_slice ts_cross ts_metrics] in *; try contradiction.
    destruct N as [[= <- <-]|[]]. inversion RD; subst. split; [reflexivity|].
    destruct B as [(l & u & -> & MV & ->)|(a0 & r0 & d0 & _ & MC & _)]; [|congruence]. rewrite V in MV. injection MV as <- <-. split; [reflexivity|].
    destruct K as [m o agg sk MM OO PT]. exists m, o, agg, sk. auto. }
  split.
  - intros H m o agg sk MM OO PT.
    assert (CF : configured default [TSpec sp [] [(n, t)] [] []] (MetricKey n m o sk agg None false) Everywhere t).
    { eapply named_everywhere; [left; reflexivity|left; reflexivity|]. constructor; [exact MM|exact OO|exact PT]. }
    destruct (U2 _ _ _ _ (ValueThreshold lo hi) CF (or_introl (ex_intro _ lo (ex_intro _ hi (conj eq_refl (conj V eq_refl)))))) as (sc & sc' & RD & SP & HH).
    destruct (HAS _ _ _ HH) as (-> & _). destruct HH as (sts & S1 & S2).
    destruct (dget metric_key_eqb metrics (MetricKey n m o sk agg None false)) as [x|] eqn:G.
    + assert (X : In (MetricKey n m o sk agg None false, x) metrics) by (apply (dget_In _ metric_key_eqb_eq); exact G).
      destruct (check_threshold None metrics (MetricKey n m o sk agg None false) (ValueThreshold lo hi) x) as [[]|] eqn:CT.
      * apply (check_passes None metrics ND) in CT. destruct CT as (y & -> & P). exists y. split; [exact X|exact P].
      * exfalso. apply (H (MetricKey n m o sk agg None false) (ValueThreshold lo hi)). split; [discriminate|]. exists sts, None. split; [exact S1|]. split; [exact S2|]. left.
        exists x. split; [exact X|]. split; [constructor|]. rewrite <- (check_passes None metrics ND). congruence.
      * exfalso. apply (H (MetricKey n m o sk agg None false) (ValueThreshold lo hi)). split; [discriminate|]. exists sts, None. split; [exact S1|]. split; [exact S2|]. left.
        exists x. split; [exact X|]. split; [constructor|]. rewrite <- (check_passes None metrics ND). congruence.
    + exfalso. apply (H (MetricKey n m o sk agg None false) (ValueThreshold lo hi)). split; [discriminate|]. exists sts, None. split; [exact S1|]. split; [exact S2|]. right. split; [|constructor].
      intros x X. assert (G' : dget metric_key_eqb metrics (MetricKey n m o sk agg None false) = Some x) by (apply (dget_In_NoDup _ metric_key_eqb_eq _ _ _ ND); exact X). congruence.
  - intros H k b (_ & sts & sc & S1 & S2 & D). destruct (HAS k sc b (ex_intro _ sts (conj S1 S2))) as (-> & -> & m & o & agg & sk & MM & OO & PT & ->).
    destruct (H m o agg sk MM OO PT) as (y & Y & P). destruct D as [(x & X & _ & NP)|(ABS & _)]; [|exact (ABS _ Y)].
    apply NP. assert (XY : x = Number y). { apply (dget_In_NoDup _ metric_key_eqb_eq _ _ _ ND) in X. apply (dget_In_NoDup _ metric_key_eqb_eq _ _ _ ND) in Y. congruence. } subst x. exists y. split; [reflexivity|exact P].
Qed.

Lemma C326_metric_of_model_partial_pf :
  forall default sp km t lo hi r model outputs slice metrics x v,
    let k := Predict_Model.keras_key model outputs km in
    Predict_Model.km_class_id km = None -> Predict_Model.km_top_k km = None ->
    mt_value t = Some (lo, hi) -> mt_change t = None -> ms_binarize sp = None -> ms_aggregate sp = None ->
    (ms_models sp = [model] \/ (ms_models sp = [] /\ model = "")) -> (ms_outputs sp = [k_output k] \/ (ms_outputs sp = [] /\ k_output k = "")) ->
    thresholds_of default [TSpec sp [] [(k_name k, t)] [] []] = Ok r ->
    NoDup (map fst metrics) -> In (k, x) metrics -> validate_metrics None (inl slice) metrics r = Ok v ->
    (v_ok v = true <->
     exists y, x = Number y /\ y <> NaN /\ (forall b, lo = Some b -> num_leb b y = true) /\ (forall b, hi = Some b -> num_leb y b = true)).
Proof.
  intros default sp km t lo hi r model outputs slice metrics x v k NC NT V CH NB NA MO OU E ND X VR.
  assert (K : k = MetricKey (k_name k) model (k_output k) None None None false).
  { subst k. unfold Predict_Model.keras_key, Predict_Model.k_sub_key. rewrite NC, NT. destruct (find _ outputs); reflexivity. }
  assert (CS : clear_spec sp) by (intros (b & B & _); congruence).
  assert (PW : part sp None None) by (apply part_whole; [intros (b & B & _); congruence|exact NA]).
  rewrite (C326_bounds_of_model_metrics_partial_pf default sp (k_name k) t lo hi r slice metrics v V CH CS E ND VR). split.
  - intros H. destruct (H model (k_output k) None None) as (y & Y & P).
    + destruct MO as [->|[-> ->]]; [left; left; reflexivity|right; auto].
    + destruct OU as [->|[-> ->]]; [left; left; reflexivity|right; auto].
    + exact PW.
    + rewrite <- K in Y. exists y. split; [|exact P]. apply (dget_In_NoDup _ metric_key_eqb_eq _ _ _ ND) in X. apply (dget_In_NoDup _ metric_key_eqb_eq _ _ _ ND) in Y. congruence.
  - intros (y & -> & P) m o agg sk M O PT. exists y. split; [|exact P].
    assert (PE : agg = None /\ sk = None) by (inversion PT; subst; try congruence; auto). destruct PE as [-> ->].
    assert (m = model) as -> by (destruct MO as [MO|[MO ->]]; rewrite MO in M; destruct M as [[<-|[]]|[? ?]] || destruct M as [[]|[_ ->]]; congruence).
    assert (o = k_output k) as -> by (destruct OU as [OU|[OU ->]]; rewrite OU in O; destruct O as [[<-|[]]|[? ?]] || destruct O as [[]|[_ ->]]; congruence).
    rewrite <- K. exact X.
Qed.

Lemma C326_metric_with_top_k_refuted_pf :
  exists km t r,
    mt_value t = Some (Some (Fin 0%Qc), None) /\ Predict_Model.km_top_k km = Some 2%nat /\
    k_name (Predict_Model.keras_key "" [] km) = "recall" /\
    thresholds_of (fun _ => false) [TSpec (plain_spec []) [] [("recall", t)] [] []] = Ok r /\
    forall slice x, exists v, validate_metrics None (inl slice) [(Predict_Model.keras_key "" [] km, x)] r = Ok v /\ v_ok v = false.
Proof.
  exists (Predict_Model.KMetric "recall" None (Some 2%nat)), (MetricThreshold (Some (Some (Fin 0%Qc), None)) None). eexists. split; [reflexivity|]. split; [reflexivity|]. split; [reflexivity|].
  split; [vm_compute; reflexivity|]. intros slice x. eexists. split; [vm_compute; reflexivity|reflexivity].
Qed.

Lemma C326_binarized_refuted_pf :
  exists sp km t r,
    mt_value t = Some (Some (Fin 0%Qc), None) /\ ms_binarize sp = Some (Binarize [0%Z] [] []) /\ k_name (Predict_Model.keras_key "" [] km) = "accuracy" /\
    thresholds_of (fun _ => false) [TSpec sp [] [("accuracy", t)] [] []] = Ok r /\
    forall slice x, exists v, validate_metrics None (inl slice) [(Predict_Model.keras_key "" [] km, x)] r = Ok v /\ v_ok v = false.
Proof.
  exists (MetricsSpec ["recall"] [] [] [] (Some (Binarize [0%Z] [] [])) None None), (Predict_Model.KMetric "accuracy" None None), (MetricThreshold (Some (Some (Fin 0%Qc), None)) None).
  eexists. split; [reflexivity|]. split; [reflexivity|]. split; [reflexivity|].
  split; [vm_compute; reflexivity|]. intros slice x. eexists. split; [vm_compute; reflexivity|reflexivity].
Qed.

Lemma map_dset {A B} (g : A -> B) (d : list (metric_key * A)) k v :
  map (fun kv => (fst kv, g (snd kv))) (dset metric_key_eqb d k v) = dset metric_key_eqb (map (fun kv => (fst kv, g (snd kv))) d) k (g v).
Proof. induction d as [|[k' v'] d IH]; [reflexivity|]. cbn [dset map fst snd]. destruct (metric_key_eqb k k'); cbn [map fst snd]; [reflexivity|]. rewrite IH. reflexivity. Qed.

Lemma check_metric_same baseline slice A B k v :
  baseline_value baseline A k = baseline_value baseline B k ->
  forall sts seen, check_metric baseline slice A k v seen sts = check_metric baseline slice B k v seen sts.
Proof.
  intros H. assert (C : forall t, check_threshold baseline A k t v = check_threshold baseline B k t v).
  { intros t. unfold check_threshold. rewrite H. reflexivity. }
  induction sts as [|[sc t] sts IH]; intros seen; [reflexivity|]. cbn [check_metric]. rewrite C.
  destruct (negb (applicable slice sc)); [apply IH|]. destruct (check_threshold baseline B k t v) as [[]|[]]; cbn [bind fst]; try reflexivity; rewrite ?IH; try reflexivity;
    (destruct (memb threshold_eqb t seen); [apply IH|]; rewrite IH; reflexivity).
Qed.

(** A metric without thresholds of its name makes no difference. *)

Lemma validate_without_thresholds baseline slice metrics ths ek x :
  (forall k, In k (map fst ths) -> k_name k <> k_name ek) ->
  validate_metrics baseline slice (dset metric_key_eqb metrics ek x) ths = validate_metrics baseline slice metrics ths.
Proof.
  intros NT. unfold validate_metrics.
  set (f := fun (M : list (metric_key * mvalue)) (kv : metric_key * mvalue) => match dget metric_key_eqb ths (fst kv) with None => Ok ([], []) | Some sts => if is_baseline baseline (fst kv) then Ok ([], []) else check_metric baseline slice M (fst kv) (snd kv) [] sts end).
  assert (F : forall kv, f (dset metric_key_eqb metrics ek x) kv = f metrics kv).
  { intros [k v]. unfold f. cbn [fst snd]. destruct (dget metric_key_eqb ths k) as [sts|] eqn:D; [|reflexivity]. destruct (is_baseline baseline k); [reflexivity|].
    apply check_metric_same. unfold baseline_value. destruct baseline as [b|]; [|reflexivity]. rewrite (dget_dset_neq _ metric_key_eqb_eq); [reflexivity|].
    intros E. apply (NT k); [apply (dget_In _ metric_key_eqb_eq) in D; apply in_map_iff; exists (k, sts); auto|]. unfold make_baseline_key in E. apply (f_equal k_name) in E. cbn [k_name] in E. congruence. }
  assert (FE : forall y, f metrics (ek, y) = Ok ([], [])).
  { intros y. unfold f. cbn [fst]. destruct (dget metric_key_eqb ths ek) as [sts|] eqn:D; [|reflexivity]. exfalso. apply (NT ek); [|reflexivity]. apply (dget_In _ metric_key_eqb_eq) in D. apply in_map_iff. exists (ek, sts). auto. }
  assert (MM : forall l, match mapM (f metrics) l with
                         | Ok r => exists r', mapM (f metrics) (dset metric_key_eqb l ek x) = Ok r' /\ flat_map fst r' = flat_map fst r /\ flat_map snd r' = flat_map snd r
                         | Err e => mapM (f metrics) (dset metric_key_eqb l ek x) = Err e
                         end).
  { induction l as [|[k v] l IH]; cbn [dset mapM].
    - rewrite FE. cbn [bind]. eexists. split; [reflexivity|]. split; reflexivity.
    - destruct (metric_key_eqb ek k) eqn:Q.
      + apply metric_key_eqb_eq in Q. subst k. cbn [mapM]. rewrite !FE. cbn [bind]. destruct (mapM (f metrics) l) as [r|]; cbn [bind]; [|reflexivity]. eexists. split; [reflexivity|]. split; reflexivity.
      + cbn [mapM]. destruct (f metrics (k, v)) as [y|]; cbn [bind]; [|reflexivity]. destruct (mapM (f metrics) l) as [r|]; cbn [bind].
        * destruct IH as (r' & -> & I1 & I2). cbn [bind]. eexists. split; [reflexivity|]. cbn [flat_map]. rewrite I1, I2. split; reflexivity.
        * rewrite IH. reflexivity. }
  assert (MF : mapM (f (dset metric_key_eqb metrics ek x)) (dset metric_key_eqb metrics ek x) = mapM (f metrics) (dset metric_key_eqb metrics ek x)).
  { generalize (dset metric_key_eqb metrics ek x) at 2 3. intros l. induction l as [|kv l IH]; [reflexivity|]. cbn [mapM]. rewrite F, IH. reflexivity. }
  assert (FI : filter (fun ks : metric_key * list (option scope * threshold) => negb (dmem metric_key_eqb (dset metric_key_eqb metrics ek x) (fst ks))) ths = filter (fun ks => negb (dmem metric_key_eqb metrics (fst ks))) ths).
  { apply filter_ext_in. intros [k sts] I. cbn [fst]. unfold dmem. rewrite (dget_dset_neq _ metric_key_eqb_eq); [reflexivity|]. intros ->. apply (NT k); [apply in_map_iff; exists (k, sts); auto|reflexivity]. }
  rewrite FI. fold (f (dset metric_key_eqb metrics ek x)). fold (f metrics). rewrite MF. specialize (MM metrics). destruct (mapM (f metrics) metrics) as [r|].
  - destruct MM as (r' & M1 & M2 & M3). rewrite M1. cbn [bind]. cbv zeta. rewrite M2, M3. reflexivity.
  - rewrite MM. reflexivity.
Qed.

Lemma C327_intervals_and_verdicts_pf :
  forall n skip method point others s out baseline slice ths,
    Permutation (inputs s) (Sample point None :: map as_sample others) ->
    outcome (sample_combiner n skip method) s = Ok out ->
    (forall k, In k (map fst ths) -> k_name k <> "__ERROR__") ->
    validate_reported baseline slice out ths =
    validate_metrics baseline slice (map (fun kv => (fst kv, point_as_float (snd kv))) point) ths.
Proof.
  intros n skip method point others s out baseline slice ths PERM E NT.
  destruct (gathers_run n skip method s) as (G1 & _). unfold outcome in E. set (acc := run (sample_combiner n skip method) s) in *. clearbody acc.
  assert (FU : fulls (inputs s) = [point]).
  { assert (X : Permutation (fulls (inputs s)) [point]).
    { eapply Permutation_trans; [apply Permutation_flat_map, PERM|]. cbn [flat_map s_id s_metrics]. change [point] with ([point] ++ []). apply Permutation_app_head.
      clear. induction others; [constructor|]. exact IHothers. }
    apply Permutation_length_1_inv, Permutation_sym, X. }
  rewrite FU in G1. cbn in G1. cbn [sample_combiner c_extract] in E. unfold sample_extract, validate_accumulator in E. rewrite G1 in E. cbn [bind fst snd] in E.
  set (few := Nat.ltb (a_count acc) n) in *.
  set (point1 := if few then dset metric_key_eqb point error_key (TooFewSamples (a_count acc) n) else point) in *.
  match type of E with mapM _ (match ?w with [] => _ | _ => _ end) = _ => set (wrong := w) in * end.
  set (point2 := match wrong with [] => point1 | _ => dset metric_key_eqb point1 error_key (WrongCounts wrong n) end) in *.
  assert (OUT : map (fun kv => (fst kv, as_float (snd kv))) out = map (fun kv => (fst kv, point_as_float (snd kv))) point2).
  { clearbody point2. revert out E. induction point2 as [|[k v] l IH]; intros out E; cbn [mapM] in E; [injection E as <-; reflexivity|]. cbn [fst snd] in E.
    match type of E with bind ?x _ = _ => destruct x as [kv|] eqn:X; [|discriminate] end. cbn [bind] in E.
    match type of E with bind ?x _ = _ => destruct x as [out'|] eqn:Y; [|discriminate] end. cbn [bind] in E. injection E as <-. cbn [map fst snd]. rewrite (IH out' eq_refl). f_equal.
    match type of X with match ?d with _ => _ end = _ => destruct d as [samples|] end; [|injection X as <-; reflexivity].
    destruct v as [p| | |]; cbn [interval bind] in X; try discriminate X. destruct method.
    - match type of X with bind (bind ?d _) _ = _ => destruct d; [|discriminate X] end. cbn [bind] in X. destruct samples; [discriminate X|]. cbn [bind] in X. injection X as <-. reflexivity.
    - match type of X with bind (bind ?d _) _ = _ => destruct d; [|discriminate X] end. cbn [bind] in X. injection X as <-. reflexivity. }
  unfold validate_reported. rewrite OUT.
  assert (P1 : validate_metrics baseline slice (map (fun kv => (fst kv, point_as_float (snd kv))) point1) ths = validate_metrics baseline slice (map (fun kv => (fst kv, point_as_float (snd kv))) point) ths).
  { unfold point1. destruct few; [|reflexivity]. rewrite map_dset. apply validate_without_thresholds. exact NT. }
  rewrite <- P1. unfold point2. destruct wrong; [reflexivity|]. rewrite map_dset. apply validate_without_thresholds. exact NT.
Qed.
