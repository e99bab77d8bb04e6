(* Proofs of the theorems restated in Signatures_Properties.v. *)
From Coq Require Import String Ascii.
From Verif Require Import Base BaseFacts Specs_Model Setup_Main Ctors_Model Ctors_Main Signatures_Model.
Local Open Scope string_scope.
Local Open Scope list_scope.

(* C301 - C302: the functions of the registered metrics and the calls of them. *)

Definition top_params (c : ctor) : list string := match c with Root => [] | Sub l _ => map fst (lv_params l) end.

Lemma setting_origin c k : forall kw m, make c kw = Ok m -> dget String.eqb m k <> None -> In k (passed c) \/ (dget String.eqb kw k <> None /\ ~ In k (top_params c)).
Proof.
  intros kw m E D. destruct (in_dec string_dec k (passed c)) as [I|N]; [left; exact I|right]. split.
  - intros Q. exact (D (not_passed c k N kw m E Q)).
  - intros T. destruct c as [|l b]; [destruct T|]. cbn [top_params] in T. apply make_sub in E. destruct E as (env & kws & _ & _ & S & M). destruct (super_args_ok _ _ _ _ S) as (S1 & _). cbn [passed] in N. rewrite in_app_iff in N.
    apply D. apply (not_passed b k (fun I => N (or_intror I)) kws m M). rewrite S1. replace (dget String.eqb (lv_super l) k) with (@None expr) by (symmetry; apply dget_none_key; tauto).
    unfold extra. replace (is_param l k) with true by (symmetry; apply param_In; exact T). rewrite andb_false_r. reflexivity.
Qed.

Lemma filled_present dn s k : dget String.eqb (fill_name dn s) k <> None <-> dget String.eqb s k <> None.
Proof.
  rewrite fill_name_get. destruct (String.eqb k "name") eqn:Q; [|tauto]. apply seqb_true in Q. subst k. destruct (dget String.eqb s "name"); cbn; split; congruence.
Qed.

(** The function can be called with these keywords: it knows them all and misses none. *)

Definition takes {K} (sg : signature) (kw : kwargs K) : Prop :=
  (forall k, dget String.eqb kw k <> None -> In k (map fst (sg_params sg)) \/ sg_rest sg = true) /\
  (forall p, In (p, true) (sg_params sg) -> dget String.eqb kw p <> None).

Lemma takes_call {K C} sg (body : kwargs K -> res (list C)) kw : takes sg kw -> python_call sg body kw = body kw.
Proof.
  intros (T1 & T2). unfold python_call. destruct (negb (sg_rest sg) && existsb _ kw) eqn:Q.
  - exfalso. apply andb_prop in Q. destruct Q as [Q1 Q2]. apply existsb_exists in Q2. destruct Q2 as ([k v] & I & Q2). cbn [fst] in Q2. apply not_memb in Q2. destruct (T1 k) as [H|H]; [|contradiction|rewrite H in Q1; discriminate].
    intros N. apply dget_none_key in N. apply N. apply (in_map fst) in I. exact I.
  - clear Q. destruct (existsb _ (sg_params sg)) eqn:X; [|reflexivity]. exfalso. apply existsb_exists in X. destruct X as ([p []] & I & X); [|discriminate]. cbn [fst snd andb] in X. apply (T2 p I). unfold dmem in X. destruct (dget String.eqb kw p); [discriminate|reflexivity].
Qed.

Lemma mapM_same {A B} (f g : A -> res B) l : Forall (fun x => f x = g x) l -> mapM f l = mapM g l.
Proof. induction 1 as [|x l E F IH]; [reflexivity|]. cbn [mapM]. rewrite E, IH. reflexivity. Qed.

(** The names Metric.computations and merge_per_key_computations set themselves. *)

Definition key_args : list string := ["model_name"; "output_name"; "sub_key"].

Definition set_for (sg : signature) (k : string) : Prop := In k merge_args \/ (sg_per_key sg = true /\ In k key_args).

(** What a call gets for a metric with settings m: no other names than the function's or the metric's, all
    that is asked for, and the settings under the other names. *)

Definition call_of {K} (sg : signature) (m : settings) (kw : kwargs K) : Prop :=
  (forall k, dget String.eqb kw k <> None -> In k (map fst (sg_params sg)) \/ dget String.eqb m k <> None) /\
  (forall k, set_for sg k -> In k (map fst (sg_params sg)) -> dget String.eqb kw k <> None) /\
  (forall k, ~ set_for sg k -> dget String.eqb kw k = option_map Setting (dget String.eqb m k)).

Definition calls_made {K} (sg : signature) (r : request K) : nat := if sg_per_key sg then length (all_keys r) else 1.

Lemma settings_get {K} (m : settings) k : dget String.eqb (map (fun kv => (fst kv, @Setting K (snd kv))) m) k = option_map Setting (dget String.eqb m k).
Proof. apply (dget_map_snd (@Setting K)). Qed.

Lemma requested_keys {K} (r : request K) k : In k merge_args <-> exists v, In (k, v) (requested r).
Proof.
  unfold merge_args, requested. cbn [In]. split.
  - intros I. decompose [or] I; try contradiction; subst k; eexists; eauto 12.
  - intros (v & I). decompose [or] I; try contradiction; match goal with X : (_, _) = (k, v) |- _ => injection X as <- _ end; tauto.
Qed.

Lemma asked_keys {K} (r : request K) m o s k : In k merge_args \/ In k key_args <-> exists v, In (k, v) (asked_for r m o s).
Proof.
  unfold asked_for. split.
  - intros [I|I].
    + apply (requested_keys (Request (rq_eval_config r) (rq_schema r) (Some (or_else (rq_models r) [""])) (Some (or_else (rq_outputs r) [""])) (Some (or_else (rq_sub_keys r) [None])) (rq_aggregation r) (rq_class_weights r) (rq_example_weighted r) (rq_query_key r))) in I.
      destruct I as (v & I). exists v. apply in_app_iff. left. exact I.
    + cbn [key_args In] in I. decompose [or] I; try contradiction; subst k; eexists; apply in_app_iff; right; cbn [In]; eauto.
  - intros (v & I). apply in_app_iff in I. destruct I as [I|I].
    + left. eapply requested_keys. exists v. exact I.
    + right. cbn [In key_args] in *. decompose [or] I; try contradiction; match goal with X : (_, _) = (k, v) |- _ => injection X as <- _ end; tauto.
Qed.

Lemma gets_call {K} sg (asked : list (string * kwarg K)) own m kw :
  (forall k, set_for sg k <-> exists v, In (k, v) asked) -> (forall k, ~ set_for sg k -> dget String.eqb own k = option_map Setting (dget String.eqb m k)) ->
  (forall k, dget String.eqb own k <> None -> dget String.eqb m k <> None) ->
  gets (map fst (sg_params sg)) asked own kw -> call_of sg m kw.
Proof.
  intros A O P G. split; [|split].
  - intros k D. destruct (in_dec string_dec k (map fst (sg_params sg))) as [I|I]; [left; exact I|right]. apply P. rewrite <- (proj2 (G k) (or_introl I)). exact D.
  - intros k S I. destruct (proj1 (A k) S) as (v & J). rewrite (proj1 (G k) v I J). discriminate.
  - intros k S. rewrite <- (O k S). apply (proj2 (G k)). right. intros J. apply S, A. apply in_map_iff in J. destruct J as ([k' v] & <- & J). exists v. exact J.
Qed.

Lemma calls_are {K C} sg (body : kwargs K -> res (list C)) m r : ~ unsupported (map fst (sg_params sg)) r ->
  exists kws, Forall (call_of sg m) kws /\ length kws = calls_made sg r /\
    metric_computations sg body m r = let! parts := mapM (python_call sg body) kws in Ok (concat parts).
Proof.
  intros U. unfold metric_computations, calls_made. destruct (sg_per_key sg) eqn:PK.
  - destruct (C300_one_call_for_each_key_pf K C (map fst (sg_params sg)) (python_call sg body) m r U) as (kws & F & E). exists kws. split; [|split; [clear -F; induction F; cbn [length]; congruence|exact E]].
    clear E. revert F. generalize (all_keys r). intros l F. induction F as [|[mn [o s]] kw l kws G F IH]; constructor; [|exact IH]. cbn [fst snd] in G. revert G. apply gets_call.
    + intros k. unfold set_for. rewrite PK. rewrite <- asked_keys. tauto.
    + intros k N. unfold own_settings. rewrite (filter_get (fun n => negb (memb String.eqb n merge_args))), settings_get, memb_false; [reflexivity|]. intros I. apply N. left. exact I.
    + intros k. unfold own_settings. rewrite (filter_get (fun n => negb (memb String.eqb n merge_args))), settings_get. destruct (memb String.eqb k merge_args); cbn [negb]; [congruence|]. destruct (dget String.eqb m k); [discriminate|cbn; congruence].
  - destruct (proj2 (C300_arguments_pf K C (map fst (sg_params sg)) (python_call sg body) m r) U) as (kw & E & G). exists [kw]. split; [|split; [reflexivity|]].
    + constructor; [|constructor]. revert G. apply gets_call.
      * intros k. unfold set_for. rewrite PK, <- requested_keys. intuition discriminate.
      * intros k _. apply settings_get.
      * intros k. rewrite settings_get. destruct (dget String.eqb m k); [discriminate|cbn; congruence].
    + rewrite E. cbn [mapM bind]. destruct (python_call sg body kw) as [x|e]; cbn [bind]; [|reflexivity]. cbn [concat]. rewrite app_nil_r. reflexivity.
Qed.

(** An argument the constructor names, or that the function knows. *)

Definition known (c : metric_class) (sg : signature) (k : string) : Prop := In k (top_params (mc_ctor c)) \/ In k (map fst (sg_params sg)) \/ sg_rest sg = true.

Definition fits (c : metric_class) (sg : signature) : bool :=
  forallb (fun k => memb String.eqb k (map fst (sg_params sg)) || sg_rest sg) (passed (mc_ctor c)) &&
  forallb (fun pr => negb (snd pr) || memb String.eqb (fst pr) (merge_args ++ if sg_per_key sg then key_args else []) || surely (mc_ctor c) (fst pr) false) (sg_params sg).

Lemma fits_takes {K} c sg kw m (call : kwargs K) : fits c sg = true -> construct c kw = Ok m -> (forall k, In k (map fst kw) -> known c sg k) -> call_of sg m call -> takes sg call.
Proof.
  intros F E KN (C1 & C2 & C3). unfold fits in F. apply andb_prop in F. destruct F as [F1 F2]. rewrite forallb_forall in F1, F2. unfold construct in E. apply bind_ok in E. destruct E as (s & E & Q). injection Q as <-. split.
  - intros k D. destruct (C1 k D) as [I|I]; [left; exact I|]. apply filled_present in I. destruct (setting_origin _ _ _ _ E I) as [P|(P & NT)].
    + specialize (F1 k P). apply orb_true_iff in F1. destruct F1 as [F1|F1]; [left; apply memb_key; exact F1|right; exact F1].
    + destruct (KN k) as [H|H]; [|contradiction|exact H]. destruct (in_dec string_dec k (map fst kw)) as [J|J]; [exact J|]. apply (dget_none_key kw k) in J. contradiction.
  - intros p I. specialize (F2 _ I). cbn [fst snd negb orb] in F2. assert (IP : In p (map fst (sg_params sg))) by (apply (in_map fst) in I; exact I).
    destruct (in_dec string_dec p (merge_args ++ if sg_per_key sg then key_args else [])) as [S|S].
    + apply C2; [|exact IP]. apply in_app_iff in S. destruct S as [S|S]; [left; exact S|right]. destruct (sg_per_key sg); [auto|destruct S].
    + rewrite (memb_false _ _ S) in F2. cbn [orb] in F2. rewrite C3.
      * assert (D : dget String.eqb (fill_name (mc_default c) s) p <> None) by (apply filled_present; exact (surely_there _ _ _ kw s F2 (fun Q => match Bool.diff_false_true Q with end) E)).
        destruct (dget String.eqb (fill_name (mc_default c) s) p); [discriminate|congruence].
      * intros [X|(X & Y)]; apply S, in_app_iff; [left; exact X|right; rewrite X; exact Y].
Qed.

Lemma all_fit : forallb (fun c => match dget String.eqb functions (mc_class c) with Some sg => fits c sg | None => false end) classes = true.
Proof. vm_compute. reflexivity. Qed.

Lemma C301_functions_take_their_calls_pf : forall (K C : Type) c kw m r (body : kwargs K -> res (list C)), In c classes ->
  exists sg, dget String.eqb functions (mc_class c) = Some sg /\
    (construct c kw = Ok m -> (forall k, In k (map fst kw) -> known c sg k) -> ~ unsupported (map fst (sg_params sg)) r ->
     exists kws, Forall (fun call => call_of sg m call /\ takes sg call) kws /\ length kws = calls_made sg r /\
       metric_computations sg body m r = let! parts := mapM body kws in Ok (concat parts)).
Proof.
  intros K C c kw m r body I. assert (F := all_fit). rewrite forallb_forall in F. specialize (F c I). destruct (dget String.eqb functions (mc_class c)) as [sg|]; [|discriminate]. exists sg. split; [reflexivity|]. intros E KN U.
  destruct (calls_are sg body m r U) as (kws & CA & L & M). exists kws. assert (T : Forall (fun call => call_of sg m call /\ takes sg call) kws).
  { rewrite Forall_forall in *. intros x X. split; [auto|]. exact (fits_takes c sg kw m x F E KN (CA x X)). }
  split; [exact T|]. split; [exact L|]. rewrite M. rewrite (mapM_same (python_call sg body) body); [reflexivity|]. rewrite Forall_forall in *. intros x X. apply takes_call. exact (proj2 (T x X)).
Qed.

Lemma C301_unknown_settings_refused_pf : forall (K C : Type) sg (body : kwargs K -> res (list C)) m r k, ~ unsupported (map fst (sg_params sg)) r -> calls_made sg r <> 0 ->
  dget String.eqb m k <> None -> ~ set_for sg k -> ~ In k (map fst (sg_params sg)) -> sg_rest sg = false -> metric_computations sg body m r = Err TypeError.
Proof.
  intros K C sg body m r k U N D S P R. destruct (calls_are sg body m r U) as (kws & CA & L & M). rewrite M. destruct kws as [|call kws]; [cbn in L; congruence|]. inversion CA as [|x l (_ & _ & C3) F]; subst.
  cbn [mapM]. assert (Q : python_call sg body call = Err TypeError); [|rewrite Q; reflexivity]. unfold python_call. rewrite R. cbn [negb andb].
  replace (existsb (fun kv : string * kwarg K => negb (memb String.eqb (fst kv) (map fst (sg_params sg)))) call) with true; [reflexivity|]. symmetry. apply existsb_exists. specialize (C3 k S). destruct (dget String.eqb m k) as [v|] eqn:E; [|congruence].
  cbn [option_map] in C3. apply (dget_In String.eqb String.eqb_eq) in C3. exists (k, Setting v). split; [exact C3|]. cbn [fst]. rewrite (memb_false _ _ P). reflexivity.
Qed.

Definition plain {K} (models : list string) (ew : bool) : request K := Request None None (Some models) None None None None ew None.

Definition class_named (n : string) : metric_class := match find (fun c => String.eqb (mc_class c) n) classes with Some c => c | None => MetricClass "" Root None [] end.

Lemma class_named_In n : existsb (fun c => String.eqb (mc_class c) n) classes = true -> In (class_named n) classes.
Proof.
  intros E. unfold class_named. destruct (find (fun c => String.eqb (mc_class c) n) classes) as [c|] eqn:F; [exact (proj1 (find_some _ _ F))|].
  apply existsb_exists in E. destruct E as (c & I & Q). pose proof (find_none _ _ F c I) as N. cbv beta in N. congruence.
Qed.

Definition function_named (n : string) : signature := match dget String.eqb functions n with Some s => s | None => Signature false [] false end.

Definition computed_with (n : string) (kw : settings) (r : request nat) : res (list (kwargs nat)) :=
  let! m := construct (class_named n) kw in metric_computations (function_named n) (fun k => Ok [k]) m r.

Definition set_names (sg : signature) : list string := merge_args ++ if sg_per_key sg then key_args else [].

Lemma set_for_In sg k : set_for sg k <-> In k (set_names sg).
Proof. unfold set_for, set_names. rewrite in_app_iff. destruct (sg_per_key sg); cbn [In]; intuition discriminate. Qed.

Definition weighting : list string := ["COCOMeanAveragePrecision"; "COCOMeanAverageRecall"].

Lemma none_set : forallb (fun c => memb String.eqb (mc_class c) weighting || match dget String.eqb functions (mc_class c) with Some sg => forallb (fun k => negb (memb String.eqb k (set_names sg))) (passed (mc_ctor c)) | None => true end) classes = true.
Proof. vm_compute. reflexivity. Qed.

Lemma C302_settings_reach_function_partial_pf : forall (K C : Type) c sg kw m r (body : kwargs K -> res (list C)), In c classes -> ~ In (mc_class c) weighting ->
  dget String.eqb functions (mc_class c) = Some sg -> construct c kw = Ok m -> (forall k, In k (map fst kw) -> ~ set_for sg k) -> ~ unsupported (map fst (sg_params sg)) r ->
  exists kws, length kws = calls_made sg r /\ metric_computations sg body m r = (let! parts := mapM (python_call sg body) kws in Ok (concat parts)) /\
    Forall (fun call => forall k v, dget String.eqb m k = Some v -> dget String.eqb call k = Some (Setting v)) kws.
Proof.
  intros K C c sg kw m r body I NW E CO KN U. destruct (calls_are sg body m r U) as (kws & CA & L & M). exists kws. split; [exact L|]. split; [exact M|].
  assert (F := none_set). rewrite forallb_forall in F. specialize (F c I). rewrite E in F. rewrite (memb_false _ _ NW) in F. cbn [orb] in F. rewrite forallb_forall in F.
  rewrite Forall_forall in *. intros x X k v D. destruct (CA x X) as (_ & _ & C3). rewrite C3; [rewrite D; reflexivity|]. unfold construct in CO. apply bind_ok in CO. destruct CO as (s & CO & Q). injection Q as <-.
  assert (DS : dget String.eqb s k <> None) by (apply (filled_present (mc_default c)); congruence). intros SF. destruct (setting_origin _ _ _ _ CO DS) as [P|(P & _)].
  - specialize (F k P). apply not_memb in F. apply set_for_In in SF. contradiction.
  - apply (KN k); [|exact SF]. destruct (in_dec string_dec k (map fst kw)) as [J|J]; [exact J|]. apply (dget_none_key kw k) in J. contradiction.
Qed.

Lemma C302_settings_reach_function_refuted_pf : exists c sg kw m (r : request nat), In c classes /\ dget String.eqb functions (mc_class c) = Some sg /\
  map fst kw = ["class_weights"] /\ In "class_weights" (top_params (mc_ctor c)) /\ construct c kw = Ok m /\ dget String.eqb m "class_weights" = dget String.eqb kw "class_weights" /\
  exists call, metric_computations sg (fun k => Ok [k]) m r = Ok [call] /\ dget String.eqb call "class_weights" = Some (Weights None).
Proof.
  exists (class_named "COCOMeanAveragePrecision"), (function_named "COCOMeanAveragePrecision"), [("class_weights", JOther "{1: 2.0}")]. eexists. exists (plain ["a"] false).
  split; [apply class_named_In; vm_compute; reflexivity|]. split; [vm_compute; reflexivity|]. split; [reflexivity|]. split; [vm_compute; tauto|]. split; [vm_compute; reflexivity|]. split; [vm_compute; reflexivity|]. eexists. split; vm_compute; reflexivity.
Qed.

Definition outputless : list string := ["SetMatchPrecision"; "SetMatchRecall"].

Lemma named_keys : forallb (fun c => match dget String.eqb functions (mc_class c) with
    | Some sg => negb (sg_per_key sg) || (memb String.eqb "model_name" (map fst (sg_params sg)) && (memb String.eqb "output_name" (map fst (sg_params sg)) || memb String.eqb (mc_class c) outputless))
    | None => true end) classes = true.
Proof. vm_compute. reflexivity. Qed.

Lemma C303_calls_name_model_and_output_partial_pf : forall (K C : Type) c sg m r (body : kwargs K -> res (list C)), In c classes -> dget String.eqb functions (mc_class c) = Some sg ->
  sg_per_key sg = true -> ~ unsupported (map fst (sg_params sg)) r ->
  exists kws, metric_computations sg body m r = (let! parts := mapM (python_call sg body) kws in Ok (concat parts)) /\
    Forall2 (fun key call => dget String.eqb call "model_name" = Some (OneName (fst key)) /\ (~ In (mc_class c) outputless -> dget String.eqb call "output_name" = Some (OneName (fst (snd key))))) (all_keys r) kws.
Proof.
  intros K C c sg m r body I E PK U. assert (F := named_keys). rewrite forallb_forall in F. specialize (F c I). rewrite E, PK in F. cbn [negb orb] in F. apply andb_prop in F. destruct F as [F1 F2]. apply memb_key in F1.
  unfold metric_computations. rewrite PK. destruct (C300_one_call_for_each_key_pf K C (map fst (sg_params sg)) (python_call sg body) m r U) as (kws & F & Q). exists kws. split; [exact Q|].
  clear Q. revert F. generalize (all_keys r). intros l F. induction F as [|[mn [o s]] call l kws G F IH]; constructor; [|exact IH]. cbn [fst snd] in *. split.
  - apply (proj1 (G "model_name")); [exact F1|]. unfold asked_for. apply in_app_iff. right. left. reflexivity.
  - intros N. rewrite (memb_false _ _ N), orb_false_r in F2. apply (proj1 (G "output_name")); [apply memb_key; exact F2|]. unfold asked_for. apply in_app_iff. right. right. left. reflexivity.
Qed.

Lemma C303_calls_name_model_and_output_refuted_pf : exists c sg m (r : request nat) o1 o2 call, In c classes /\ dget String.eqb functions (mc_class c) = Some sg /\ construct c [] = Ok m /\
  sg_per_key sg = true /\ rq_outputs r = Some [o1; o2] /\ o1 <> o2 /\ metric_computations sg (fun k => Ok [k]) m r = Ok [call; call] /\ dget String.eqb call "output_name" = None.
Proof.
  exists (class_named "SetMatchPrecision"), (function_named "SetMatchPrecision"). eexists. exists (Request None None (Some ["a"]) (Some ["o1"; "o2"]) None None None false None), "o1", "o2". eexists.
  split; [apply class_named_In; vm_compute; reflexivity|]. split; [vm_compute; reflexivity|]. split; [vm_compute; reflexivity|]. split; [vm_compute; reflexivity|]. split; [reflexivity|]. split; [discriminate|]. split; vm_compute; reflexivity.
Qed.

Definition unweighted : list string := ["Bleu"; "ModelCosineSimilarity"; "Rouge"; "Mean"].

Definition weighs (n : string) : bool := match dget String.eqb functions n with Some sg => memb String.eqb "example_weighted" (map fst (sg_params sg)) | None => false end.

Lemma weighs_all : forallb (fun c => Bool.eqb (weighs (mc_class c)) (negb (memb String.eqb (mc_class c) unweighted))) classes = true.
Proof. vm_compute. reflexivity. Qed.

Lemma C304_example_weights_pf : forall (K C : Type) c sg m r (body : kwargs K -> res (list C)), In c classes -> dget String.eqb functions (mc_class c) = Some sg ->
  (In (mc_class c) unweighted -> rq_example_weighted r = true -> calls_made sg r <> 0 -> metric_computations sg body m r = Err ValueError) /\
  (~ In (mc_class c) unweighted -> rq_class_weights r = None ->
   exists kws, length kws = calls_made sg r /\ metric_computations sg body m r = (let! parts := mapM (python_call sg body) kws in Ok (concat parts)) /\
     Forall (fun call => dget String.eqb call "example_weighted" = Some (Flag (rq_example_weighted r))) kws).
Proof.
  intros K C c sg m r body I E. assert (F := weighs_all). rewrite forallb_forall in F. specialize (F c I). apply Bool.eqb_prop in F. unfold weighs in F. rewrite E in F. split.
  - intros W RW NZ. rewrite (proj2 (memb_key _ _) W) in F. cbn [negb] in F. assert (U : unsupported (map fst (sg_params sg)) r). { right. split; [|exact RW]. intros J. apply memb_key in J. congruence. }
    unfold metric_computations, calls_made in *. destruct (sg_per_key sg).
    + rewrite (C300_unsupported_pf K C (map fst (sg_params sg)) (python_call sg body) m r U). destruct (all_keys r); [cbn in NZ; congruence|reflexivity].
    + apply (proj1 (C300_arguments_pf K C (map fst (sg_params sg)) (python_call sg body) m r)). exact U.
  - intros W CW. rewrite (memb_false _ _ W) in F. cbn [negb] in F. apply memb_key in F. assert (U : ~ unsupported (map fst (sg_params sg)) r). { intros [(_ & w & ws & Q)|(Q & _)]; [congruence|contradiction]. }
    unfold metric_computations, calls_made. destruct (sg_per_key sg) eqn:PK.
    + destruct (C300_one_call_for_each_key_pf K C (map fst (sg_params sg)) (python_call sg body) m r U) as (kws & G & Q). exists kws. split; [clear -G; induction G; cbn [length]; congruence|]. split; [exact Q|]. clear Q.
      revert G. generalize (all_keys r). intros l G. induction G as [|key call l kws H G IH]; constructor; [|exact IH]. apply (proj1 (H "example_weighted")); [exact F|]. unfold asked_for, requested. apply in_app_iff. left. cbn [In rq_example_weighted]. tauto.
    + destruct (proj2 (C300_arguments_pf K C (map fst (sg_params sg)) (python_call sg body) m r) U) as (kw & Q & G). exists [kw]. split; [reflexivity|]. split.
      * rewrite Q. cbn [mapM bind]. destruct (python_call sg body kw) as [x|e]; cbn [bind]; [|reflexivity]. cbn [concat]. rewrite app_nil_r. reflexivity.
      * constructor; [|constructor]. apply (proj1 (G "example_weighted")); [exact F|]. unfold requested. cbn [In]. tauto.
Qed.

(** Metrics that take preprocessors hand them to their functions. *)

Definition with_preprocessors : list string :=
  ["ConfusionMatrixPlot"; "MeanAbsoluteError"; "MeanAbsolutePercentageError"; "MeanSquaredError"; "MeanSquaredLogarithmicError"].

Lemma C301_preprocessors_taken_pf : forall (K C : Type) n text r (body : kwargs K -> res (list C)), In n with_preprocessors ->
  exists c sg m, In c classes /\ mc_class c = n /\ dget String.eqb functions n = Some sg /\ construct c [("preprocessors", JOther text)] = Ok m /\
    (~ unsupported (map fst (sg_params sg)) r ->
     exists kws, length kws = calls_made sg r /\ Forall (fun call => dget String.eqb call "preprocessors" = Some (Setting (JOther text))) kws /\
       metric_computations sg body m r = let! parts := mapM body kws in Ok (concat parts)).
Proof.
  intros K C n text r body I.
  assert (G : forall c sg m, In c classes -> mc_class c = n -> dget String.eqb functions n = Some sg -> construct c [("preprocessors", JOther text)] = Ok m ->
    memb String.eqb "preprocessors" (map fst (sg_params sg)) = true -> dget String.eqb m "preprocessors" = Some (JOther text) ->
    (~ unsupported (map fst (sg_params sg)) r ->
     exists kws, length kws = calls_made sg r /\ Forall (fun call => dget String.eqb call "preprocessors" = Some (Setting (JOther text))) kws /\
       metric_computations sg body m r = let! parts := mapM body kws in Ok (concat parts))).
  { intros c sg m IC EN EF EC ME EM U. destruct (C301_functions_take_their_calls_pf K C c [("preprocessors", JOther text)] m r body IC) as (sg' & EF' & H).
    rewrite EN, EF in EF'. injection EF' as <-. destruct H as (kws & F & L & Q); [exact EC| |exact U|].
    - intros k [<-|[]]. unfold known. apply memb_key in ME. tauto.
    - exists kws. split; [exact L|]. split; [|exact Q]. eapply Forall_impl; [|exact F]. intros call [(_ & _ & C3) _].
      rewrite C3; [rewrite EM; reflexivity|]. intros S. unfold set_for, merge_args, key_args in S. cbn [In] in S. intuition discriminate. }
  cbn [In with_preprocessors] in I.
  repeat (destruct I as [<-|I]; [
    match goal with |- exists c sg m, _ /\ mc_class c = ?n /\ _ => exists (class_named n), (function_named n) end; eexists;
    match goal with |- In ?c classes /\ _ => assert (IC : In c classes) by (apply class_named_In; vm_compute; reflexivity) end;
    split; [exact IC|]; split; [vm_compute; reflexivity|]; split; [vm_compute; reflexivity|]; split; [vm_compute; reflexivity|];
    apply (G _ _ _ IC); vm_compute; reflexivity|]).
  destruct I.
Qed.
