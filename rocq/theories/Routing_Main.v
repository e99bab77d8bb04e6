(* Proofs of the theorems restated in Routing_Properties.v. *)
From Coq Require Import String Ascii Permutation Sorting.Sorted.
From Verif Require Import Base BaseFacts Util_Model Util_Main Inputs_Model Evaluator_Model Evaluator_Main Keys_Model Keys_Main Keras_Model Keras_Main Classes_Main Aggregation_Model Aggregation_Main Routing_Model.
Local Open Scope string_scope.
Local Open Scope list_scope.

(* C290 - C293: which side computes a metric of a spec, and the metrics of Keras. *)

(** Two lists laid into one another, each in its order. *)

Inductive shuffled {A} : list A -> list A -> list A -> Prop :=
| sh_nil : shuffled [] [] []
| sh_left x l r a : shuffled l r a -> shuffled (x :: l) r (x :: a)
| sh_right x l r a : shuffled l r a -> shuffled l (x :: r) (x :: a).

(** The class a configuration names by its module. *)

Definition named_by (import : string -> string -> res class_kind) (k : class_kind) (m : metric_config) (cl : cls) : Prop :=
  mc_module m <> "" /\ import (mc_module m) (mc_class m) = Ok k /\ cl = (mc_module m, mc_class m).

Section Good.
  Variable import : string -> string -> res class_kind.
  Variable registered : list (string * cls).
  Variable all : list metric_config.
  Definition named (k : class_kind) (n : string) (cl : cls) : Prop := exists m, In m all /\ mc_class m = n /\ named_by import k m cl.
  Record good (c : classes) : Prop := Good {
    g_metrics : forall n cl, dget String.eqb (cl_metrics c) n = Some cl -> named IsMetric n cl;
    g_losses : forall n cl, dget String.eqb (cl_losses c) n = Some cl -> named IsLoss n cl;
    g_tfma : forall n cl, dget String.eqb (cl_tfma c) n = Some cl ->
               dget String.eqb registered n = Some cl \/ dget String.eqb registered n = None /\ named IsOther n cl;
    g_kept : forall n cl, dget String.eqb registered n = Some cl -> dget String.eqb (cl_tfma c) n = Some cl
  }.
  Definition has (d : list (string * cls)) (n : string) : Prop := exists cl, dget String.eqb d n = Some cl.
  Definition grows (c c' : classes) : Prop :=
    forall n, (has (cl_metrics c) n -> has (cl_metrics c') n) /\ (has (cl_losses c) n -> has (cl_losses c') n) /\
              (has (cl_tfma c) n -> has (cl_tfma c') n).
  Definition is_tf (c : classes) (m : metric_config) : Prop :=
    dget String.eqb registered (mc_class m) = None /\
    (mc_module m = "" \/
     mc_module m <> "" /\ import (mc_module m) (mc_class m) = Ok IsMetric /\ has (cl_metrics c) (mc_class m) \/
     mc_module m <> "" /\ import (mc_module m) (mc_class m) = Ok IsLoss /\ has (cl_losses c) (mc_class m)).
  Definition is_tfma (c : classes) (m : metric_config) : Prop := has (cl_tfma c) (mc_class m).
  Lemma dget_dset_has d n m (cl : cls) : has d n -> has (dset String.eqb d m cl) n.
  Proof.
    intros [x X]. destruct (string_dec n m) as [->|NE].
    - exists cl. apply (dget_dset_eq _ String.eqb_eq).
    - exists x. rewrite (dget_dset_neq _ String.eqb_eq); [exact X|congruence].
  Qed.
  Lemma grows_refl c : grows c c. Proof. intros n. auto. Qed.
  Lemma grows_trans a b c : grows a b -> grows b c -> grows a c.
  Proof. intros G H n. destruct (G n) as (G1 & G2 & G3), (H n) as (H1 & H2 & H3). auto. Qed.
  Lemma is_tf_grows c c' m : grows c c' -> is_tf c m -> is_tf c' m.
  Proof. intros G [R H]. split; [exact R|]. destruct (G (mc_class m)) as (G1 & G2 & _). destruct H as [H|[(A & B & C)|(A & B & C)]]; auto 8. Qed.
  Lemma is_tfma_grows c c' m : grows c c' -> is_tfma c m -> is_tfma c' m.
  Proof. intros G. unfold is_tfma. apply (G (mc_class m)). Qed.
  Lemma route_good c m c' b : good c -> In m all -> route import c m = Ok (c', b) ->
    good c' /\ grows c c' /\ if b then is_tf c' m else is_tfma c' m.
  Proof.
    intros G I0. unfold route. destruct (dmem String.eqb (cl_tfma c) (mc_class m)) eqn:D.
    { intros [= <- <-]. split; [exact G|]. split; [apply grows_refl|]. unfold is_tfma, has. unfold dmem in D. destruct (dget String.eqb (cl_tfma c) (mc_class m)) as [cl|]; [exists cl; reflexivity|discriminate]. }
    assert (R : dget String.eqb registered (mc_class m) = None).
    { destruct (dget String.eqb registered (mc_class m)) as [cl|] eqn:E; [|reflexivity]. apply (g_kept c G) in E. unfold dmem in D. rewrite E in D. discriminate. }
    destruct (String.eqb_spec (mc_module m) "") as [E|NE].
    { intros [= <- <-]. split; [exact G|]. split; [apply grows_refl|]. split; auto. }
    destruct (import (mc_module m) (mc_class m)) as [k|e] eqn:EI; cbn [bind]; [|discriminate].
    destruct G as [G1 G2 G3 G4].
    assert (NB : forall k', k = k' -> named k' (mc_class m) (mc_module m, mc_class m)).
    { intros k' <-. exists m. repeat split; auto. }
    assert (DS : forall (P : string -> cls -> Prop) d, (forall n cl, dget String.eqb d n = Some cl -> P n cl) -> P (mc_class m) (mc_module m, mc_class m) ->
             forall n cl, dget String.eqb (dset String.eqb d (mc_class m) (mc_module m, mc_class m)) n = Some cl -> P n cl).
    { intros P d H Q n cl. destruct (string_dec n (mc_class m)) as [->|N2].
      - rewrite (dget_dset_eq _ String.eqb_eq). intros [= <-]. exact Q.
      - rewrite (dget_dset_neq _ String.eqb_eq); [apply H|congruence]. }
    destruct k; intros [= <- <-]; cbn [cl_metrics cl_losses cl_tfma].
    - split; [constructor; cbn [cl_metrics cl_losses cl_tfma]; auto; apply (DS (named IsMetric)); auto|]. split.
      + intros n. cbn [cl_metrics cl_losses cl_tfma]. split; [apply dget_dset_has|auto].
      + split; [exact R|]. right. left. split; [exact NE|]. split; [exact EI|]. eexists. cbn [cl_metrics]. apply (dget_dset_eq _ String.eqb_eq).
    - split; [constructor; cbn [cl_metrics cl_losses cl_tfma]; auto; apply (DS (named IsLoss)); auto|]. split.
      + intros n. cbn [cl_metrics cl_losses cl_tfma]. split; [auto|]. split; [apply dget_dset_has|auto].
      + split; [exact R|]. right. right. split; [exact NE|]. split; [exact EI|]. eexists. cbn [cl_losses]. apply (dget_dset_eq _ String.eqb_eq).
    - split; [constructor; cbn [cl_metrics cl_losses cl_tfma]; auto|split].
      + apply (DS (fun n cl => dget String.eqb registered n = Some cl \/ dget String.eqb registered n = None /\ named IsOther n cl)); auto.
      + intros n cl E. rewrite (dget_dset_neq _ String.eqb_eq); [apply G4; exact E|]. intros Q. rewrite Q in R. congruence.
      + intros n. cbn [cl_metrics cl_losses cl_tfma]. split; [auto|]. split; [auto|apply dget_dset_has].
      + eexists. cbn [cl_tfma]. apply (dget_dset_eq _ String.eqb_eq).
  Qed.
  Lemma split_good ms : incl ms all -> forall c a b c' tf tfma, good c ->
    foldM (fun st m =>
      let! r := route import (fst st) m in
      Ok (fst r, if snd r then (fst (snd st) ++ [m], snd (snd st)) else (fst (snd st), snd (snd st) ++ [m]))) ms (c, (a, b)) = Ok (c', (tf, tfma)) ->
    good c' /\ grows c c' /\ exists l r, tf = a ++ l /\ tfma = b ++ r /\ shuffled l r ms /\
      (forall m, In m l -> is_tf c' m) /\ (forall m, In m r -> is_tfma c' m).
  Proof.
    induction ms as [|m ms IH]; intros IN c a b c' tf tfma G; cbn [foldM].
    - intros [= <- <- <-]. split; [exact G|]. split; [apply grows_refl|]. exists [], []. rewrite !app_nil_r. split; [reflexivity|]. split; [reflexivity|]. split; [apply sh_nil|]. split; intros ? [].
    - cbn [fst snd]. destruct (route import c m) as [[c1 side]|e] eqn:E; cbn [bind]; [|discriminate]. cbn [fst snd].
      destruct (route_good _ _ _ _ G (IN m (or_introl eq_refl)) E) as (G1 & GR & S).
      assert (IN' : incl ms all) by (intros x X; apply IN; right; exact X).
      destruct side; intros R.
      + destruct (IH IN' _ _ _ _ _ _ G1 R) as (G2 & GR2 & l & r & -> & -> & SH & HL & HR). split; [exact G2|]. split; [apply (grows_trans _ _ _ GR GR2)|].
        exists (m :: l), r. rewrite <- app_assoc. split; [reflexivity|]. split; [reflexivity|]. split; [apply sh_left; exact SH|]. split; [|exact HR].
        intros x [<-|X]; [apply (is_tf_grows _ _ _ GR2 S)|apply HL; exact X].
      + destruct (IH IN' _ _ _ _ _ _ G1 R) as (G2 & GR2 & l & r & -> & -> & SH & HL & HR). split; [exact G2|]. split; [apply (grows_trans _ _ _ GR GR2)|].
        exists l, (m :: r). rewrite <- app_assoc. split; [reflexivity|]. split; [reflexivity|]. split; [apply sh_right; exact SH|]. split; [exact HL|].
        intros x [<-|X]; [apply (is_tfma_grows _ _ _ GR2 S)|apply HR; exact X].
  Qed.

End Good.

(** What the specs come to: for each spec the classes known by then. *)

Definition spec_split import bm bl lm registered (all : list metric_config)
    (ms : list metric_config) (r : list (metric_config * instance) * list (metric_config * instance)) : Prop :=
  exists c, good import registered all c /\ shuffled (map fst (fst r)) (map fst (snd r)) ms /\
    (forall m i, In (m, i) (fst r) -> is_tf import registered c m /\ tf_instance bm bl lm c m = Ok i) /\
    (forall m i, In (m, i) (snd r) -> is_tfma c m /\ tfma_instance c m = Ok i).

Lemma instances_of {B} (f : metric_config -> res B) l r :
  mapM (fun m => let! i := f m in Ok (m, i)) l = Ok r -> map fst r = l /\ forall m i, In (m, i) r -> In m l /\ f m = Ok i.
Proof.
  revert r. induction l as [|m l IH]; cbn [mapM]; intros r.
  - intros [= <-]. split; [reflexivity|intros ? ? []].
  - destruct (f m) as [i|] eqn:E; cbn [bind]; [|discriminate]. destruct (mapM _ l) as [r'|] eqn:ER; cbn [bind]; [|discriminate]. intros [= <-].
    destruct (IH _ eq_refl) as [<- H]. split; [reflexivity|]. intros m' i' [[= <- <-]|I0]; [split; [left; reflexivity|exact E]|].
    destruct (H _ _ I0). split; [right; assumption|assumption].
Qed.

Lemma split_specs_good import bm bl lm registered specs c rs :
  split_specs import bm bl lm registered specs = Ok (c, rs) -> Forall2 (spec_split import bm bl lm registered (concat specs)) specs rs.
Proof.
  unfold split_specs. set (all := concat specs).
  assert (X : forall sps, incl (concat sps) all -> forall c0 rs0 c rs, good import registered all c0 ->
    foldM (fun st ms =>
      let! r := split_spec import (fst st) ms in
      let! tf := mapM (fun m => let! i := tf_instance bm bl lm (fst r) m in Ok (m, i)) (fst (snd r)) in
      let! tfma := mapM (fun m => let! i := tfma_instance (fst r) m in Ok (m, i)) (snd (snd r)) in
      Ok (fst r, snd st ++ [(tf, tfma)])) sps (c0, rs0) = Ok (c, rs) ->
    exists new, rs = rs0 ++ new /\ Forall2 (spec_split import bm bl lm registered all) sps new).
  { clearbody all. clear. induction sps as [|ms sps IH]; intros IN c0 rs0 c rs G; cbn [foldM].
    - intros R. injection R as <- <-. exists []. rewrite app_nil_r. auto.
    - cbn [fst snd]. destruct (split_spec import c0 ms) as [[c1 [tf tfma]]|] eqn:E; cbn [bind]; [|discriminate]. cbn [fst snd].
      destruct (mapM (fun m => let! i := tf_instance bm bl lm c1 m in Ok (m, i)) tf) as [ti|] eqn:E1; cbn [bind]; [|discriminate].
      destruct (mapM (fun m => let! i := tfma_instance c1 m in Ok (m, i)) tfma) as [mi|] eqn:E2; cbn [bind]; [|discriminate]. intros R.
      cbn [concat] in IN. destruct (split_good import registered all ms (fun x X => IN x (in_or_app _ _ _ (or_introl X))) _ _ _ _ _ _ G E) as (G1 & _ & l & r & -> & -> & SH & HL & HR).
      cbn [app] in *. destruct (instances_of _ _ _ E1) as [F1 I1], (instances_of _ _ _ E2) as [F2 I2].
      destruct (IH (fun x X => IN x (in_or_app _ _ _ (or_intror X))) _ _ _ _ G1 R) as (new & -> & F). exists ((ti, mi) :: new). rewrite <- app_assoc. split; [reflexivity|].
      constructor; [|exact F]. exists c1. split; [exact G1|]. cbn [fst snd]. rewrite F1, F2. split; [exact SH|].
      split; intros m i I0; [destruct (I1 _ _ I0)|destruct (I2 _ _ I0)]; auto. }
  intros R. destruct (X specs (fun x X => X) (Classes [] [] registered) [] c rs) as (new & -> & F); [|exact R|exact F].
  constructor; cbn [cl_metrics cl_losses cl_tfma]; intros n cl; try discriminate; auto.
Qed.

Lemma C290_each_metric_on_one_side_pf :
  forall import bm bl lm registered specs c rs,
    split_specs import bm bl lm registered specs = Ok (c, rs) ->
    Forall2 (fun ms r =>
      shuffled (map fst (fst r)) (map fst (snd r)) ms /\
      (forall m i, In (m, i) (fst r) -> ~ In (mc_class m) (map fst registered) /\
         (mc_module m = "" \/ import (mc_module m) (mc_class m) = Ok IsMetric \/ import (mc_module m) (mc_class m) = Ok IsLoss)) /\
      (forall m i, In (m, i) (snd r) -> In (mc_class m) (map fst registered) \/
         exists m', In m' (concat specs) /\ mc_class m' = mc_class m /\ mc_module m' <> "" /\ import (mc_module m') (mc_class m') = Ok IsOther)) specs rs.
Proof.
  intros import bm bl lm registered specs c rs R. apply split_specs_good in R. eapply Forall2_weaken; [|exact R]. intros ms r (c1 & G & SH & HT & HM).
  split; [exact SH|]. split.
  - intros m i I0. destruct (HT m i I0) as [[N H] _]. split; [apply (dget_None _ String.eqb_eq); exact N|]. destruct H as [H|[(_ & H & _)|(_ & H & _)]]; auto.
  - intros m i I0. destruct (HM m i I0) as [[cl H] _]. destruct (g_tfma _ _ _ _ G _ _ H) as [E|[_ (m' & A & B & C & D & _)]].
    + left. apply (dget_In _ String.eqb_eq) in E. change (mc_class m) with (fst (mc_class m, cl)). apply in_map. exact E.
    + right. exists m'. auto.
Qed.

Definition ex_import (module name : string) : res class_kind :=
  if String.eqb module "keras.metrics" then Ok IsMetric else if String.eqb module "keras.losses" then Ok IsLoss
  else if String.eqb module "my.metrics" then Ok IsMetric else if String.eqb module "my.losses" then Ok IsLoss
  else if String.eqb module "my.tfma" then Ok IsOther else if String.eqb module "other.tfma" then Ok IsOther
  else if String.eqb module "other.metrics" then Ok IsMetric else Err AttributeError.

Definition ex_metrics (n : string) : option cls := if memb String.eqb n ["AUC"; "Precision"; "MeanSquaredError"] then Some ("keras.metrics", n) else None.

Definition ex_losses (n : string) : option cls := if memb String.eqb n ["Huber"; "MeanSquaredError"] then Some ("keras.losses", n) else None.

Definition ex_registered : list (string * cls) := [("ExampleCount", ("tfma", "ExampleCount")); ("Precision", ("tfma", "Precision"))].

Definition ex_split := split_specs ex_import ex_metrics ex_losses "keras.losses" ex_registered.

Lemma C290_registered_classes_pf :
  forall import bm bl lm registered specs c rs,
    split_specs import bm bl lm registered specs = Ok (c, rs) ->
    Forall (fun r =>
      (forall m i, In (m, i) (fst r ++ snd r) -> in_config i = mc_config m) /\
      (forall m i cl, In (m, i) (snd r) -> dget String.eqb registered (mc_class m) = Some cl -> in_class i = cl)) rs.
Proof.
  intros import bm bl lm registered specs c rs R. apply split_specs_good in R. apply Forall_forall. intros r I0.
  destruct (Forall2_In_r _ _ _ _ R I0) as (ms & _ & c1 & G & _ & HT & HM).
  assert (DC : forall scope b m i, deserialize scope b m = Ok i -> in_config i = mc_config m).
  { intros scope b m i. unfold deserialize. destruct (dget String.eqb scope (mc_class m)); [intros [= <-]; reflexivity|]. destruct (b (mc_class m)); [intros [= <-]; reflexivity|discriminate]. }
  split.
  - intros m i I1. apply in_app_iff in I1. destruct I1 as [I1|I1].
    + destruct (HT _ _ I1) as [_ E]. unfold tf_instance in E. destruct (String.eqb _ _); apply DC in E; exact E.
    + destruct (HM _ _ I1) as [_ E]. apply DC in E. exact E.
  - intros m i cl I1 E. destruct (HM _ _ I1) as [_ H]. apply (g_kept _ _ _ _ G) in E. unfold tfma_instance, deserialize in H. rewrite E in H. injection H as <-. reflexivity.
Qed.

(** Among the metrics that name a module, one class name goes with one module. *)

Definition one_module (all : list metric_config) : Prop :=
  forall m m', In m all -> In m' all -> mc_class m = mc_class m' -> mc_module m <> "" -> mc_module m' <> "" -> mc_module m = mc_module m'.

Lemma shuffled_in {A} (l r a : list A) : shuffled l r a -> forall x, In x l \/ In x r <-> In x a.
Proof. induction 1 as [|y l r a S IH|y l r a S IH]; intros x; cbn [In]; [tauto|..]; rewrite <- IH; tauto. Qed.

Lemma C290_class_of_the_module_partial_pf :
  forall import bm bl lm registered specs c rs,
    split_specs import bm bl lm registered specs = Ok (c, rs) -> one_module (concat specs) ->
    Forall (fun r =>
      forall m i, In (m, i) (fst r ++ snd r) -> mc_module m <> "" -> ~ In (mc_class m) (map fst registered) ->
        (import (mc_module m) (mc_class m) = Ok IsLoss <-> mc_module m = lm) ->
        in_class i = (mc_module m, mc_class m)) rs.
Proof.
  intros import bm bl lm registered specs c rs R OM. apply split_specs_good in R. apply Forall_forall. intros r I0 m i I1 NE NR LM.
  destruct (Forall2_In_r _ _ _ _ R I0) as (ms & IM & c1 & G & SH & HT & HM).
  assert (IA : In m (concat specs)).
  { apply in_concat. exists ms. split; [exact IM|]. apply (shuffled_in _ _ _ SH). apply in_app_iff in I1.
    destruct I1 as [I1|I1]; [left|right]; change m with (fst (m, i)); apply in_map; exact I1. }
  assert (NM : forall k cl, named import (concat specs) k (mc_class m) cl -> cl = (mc_module m, mc_class m)).
  { intros k cl (m' & A & B & C & D & ->). rewrite <- B. f_equal. symmetry. apply OM; auto. }
  apply in_app_iff in I1. destruct I1 as [I1|I1].
  - destruct (HT _ _ I1) as [[_ T] E]. unfold tf_instance in E. destruct T as [T|[(_ & T & cl & H)|(_ & T & cl & H)]]; [contradiction|..].
    + destruct (String.eqb_spec (mc_module m) lm) as [Q|Q]; [apply LM in Q; congruence|]. unfold deserialize in E. rewrite H in E. injection E as <-. cbn [in_class].
      apply (NM IsMetric). apply (g_metrics _ _ _ _ G). exact H.
    + destruct (String.eqb_spec (mc_module m) lm) as [Q|Q]; [|apply LM in T; contradiction]. unfold deserialize in E. rewrite H in E. injection E as <-. cbn [in_class].
      apply (NM IsLoss). apply (g_losses _ _ _ _ G). exact H.
  - destruct (HM _ _ I1) as [[cl H] E]. unfold tfma_instance, deserialize in E. rewrite H in E. injection E as <-. cbn [in_class].
    destruct (g_tfma _ _ _ _ G _ _ H) as [Q|[_ Q]].
    + exfalso. apply NR. apply (dget_In _ String.eqb_eq) in Q. change (mc_class m) with (fst (mc_class m, cl)). apply in_map. exact Q.
    + apply (NM IsOther). exact Q.
Qed.

Lemma C290_own_losses_refuted_pf :
  exists import bm bl lm registered m,
    import (mc_module m) (mc_class m) = Ok IsLoss /\ ~ In (mc_class m) (map fst registered) /\
    split_specs import bm bl lm registered [[m]] = Err ValueError.
Proof.
  exists ex_import, ex_metrics, ex_losses, "keras.losses", ex_registered, (MetricConfig "Mine" "my.losses" ""). split; [reflexivity|]. split; [|vm_compute; reflexivity].
  cbn. intros [E|[E|[]]]; discriminate.
Qed.

Lemma C290_own_losses_become_metrics_refuted_pf :
  exists import bm bl lm registered m c,
    import (mc_module m) (mc_class m) = Ok IsLoss /\
    split_specs import bm bl lm registered [[m]] = Ok (c, [([(m, Instance ("keras.metrics", "MeanSquaredError") "")], [])]).
Proof.
  exists ex_import, ex_metrics, ex_losses, "keras.losses", ex_registered, (MetricConfig "MeanSquaredError" "my.losses" ""). eexists. split; [reflexivity|]. vm_compute. reflexivity.
Qed.

Lemma C290_module_overruled_refuted_pf :
  exists import bm bl lm registered m c,
    import (mc_module m) (mc_class m) = Ok IsMetric /\ mc_module m = "keras.metrics" /\
    split_specs import bm bl lm registered [[m]] = Ok (c, [([], [(m, Instance ("tfma", mc_class m) (mc_config m))])]).
Proof.
  exists ex_import, ex_metrics, ex_losses, "keras.losses", ex_registered, (MetricConfig "Precision" "keras.metrics" "c"). eexists. split; [reflexivity|]. split; [reflexivity|]. vm_compute. reflexivity.
Qed.

Lemma C290_two_modules_refuted_pf :
  exists import bm bl lm registered a b x y c,
    mc_module a <> mc_module b /\ mc_module x <> mc_module y /\ mc_config a <> mc_config b /\
    split_specs import bm bl lm registered [[a; b; x; y]] =
      Ok (c, [([(a, Instance (mc_module b, mc_class b) (mc_config a)); (b, Instance (mc_module b, mc_class b) (mc_config b))],
               [(x, Instance (mc_module x, mc_class x) (mc_config x)); (y, Instance (mc_module x, mc_class x) (mc_config y))])]).
Proof.
  exists ex_import, ex_metrics, ex_losses, "keras.losses", ex_registered, (MetricConfig "M" "my.metrics" "a"), (MetricConfig "M" "other.metrics" "b"),
    (MetricConfig "N" "my.tfma" "x"), (MetricConfig "N" "other.tfma" "y"). eexists.
  repeat (split; [intros E; discriminate|]). vm_compute. reflexivity.
Qed.

(** The sub keys a spec asks for: those it binarizes by, those it averages over, or none. *)

Definition binarized (s : metrics_spec) (k : sub_key) : Prop :=
  exists b, ms_binarize s = Some b /\
    ((exists v, In v (b_class_ids b) /\ k = SubKey (Some v) None None) \/
     (exists v, In v (b_k b) /\ k = SubKey None (Some (Z.to_nat v)) None) \/
     (exists v, In v (b_top_k b) /\ k = SubKey None None (Some (Z.to_nat v)))).

Definition type_of (f : agg_field) : agg_type :=
  match f with
  | Micro => AggType (Some true) None None
  | Macro => AggType None (Some true) None
  | WeightedMacro => AggType None None (Some true)
  end.

Definition over (a : aggregate) (sk : option sub_key) : Prop :=
  match a_top_k a with
  | Some (v :: l) => exists v', In v' (v :: l) /\ sk = Some (SubKey None None (Some (Z.to_nat v')))
  | _ => sk = None
  end.

(** Aggregation options whose type is not set (or set to false) stand for no averaging at
    all, and take the place of the binarization. *)

Definition asks (s : metrics_spec) (agg : option agg_type) (sk : option sub_key) : Prop :=
  match agg with
  | Some t => exists a f, ms_aggregate s = Some a /\ a_type a = Some (f, true) /\ t = type_of f /\ over a sk
  | None =>
      (exists a, ms_aggregate s = Some a /\ (forall f, a_type a <> Some (f, true)) /\ over a sk) \/
      ((forall a, ms_aggregate s = Some a -> exists f, a_type a = Some (f, true)) /\
       ((exists k, sk = Some k /\ binarized s k) \/
        (sk = None /\ ms_aggregate s = None /\ forall k, ~ binarized s k)))
  end.

Lemma mk_keys (mk : Z -> res sub_key) (f : Z -> sub_key) l r :
  (forall v k, mk v = Ok k -> k = f v) -> mapM (fun v => let! k := mk v in Ok (Some k)) l = Ok r -> r = map (fun v => Some (f v)) l.
Proof.
  intros H. revert r. induction l as [|v l IH]; cbn [mapM map]; intros r; [intros [= <-]; reflexivity|].
  destruct (mk v) as [k|] eqn:E; cbn [bind]; [|discriminate]. destruct (mapM _ l) as [r'|]; cbn [bind]; [|discriminate]. intros [= <-].
  rewrite (H v k E), (IH r' eq_refl). reflexivity.
Qed.

Lemma mk_class v k : mk_sub_key (Some v) None None = Ok k -> k = SubKey (Some v) None None.
Proof. cbn. intros [= <-]. reflexivity. Qed.

Lemma mk_k v k : mk_sub_key None (Some v) None = Ok k -> k = SubKey None (Some (Z.to_nat v)) None.
Proof. unfold mk_sub_key. destruct (Z.ltb v 1); [discriminate|]. cbn. intros [= <-]. reflexivity. Qed.

Lemma mk_top v k : mk_sub_key None None (Some v) = Ok k -> k = SubKey None None (Some (Z.to_nat v)).
Proof. unfold mk_sub_key. cbn [orb]. destruct (Z.ltb v 1); [discriminate|]. cbn. intros [= <-]. reflexivity. Qed.

(** The entries of the dictionary. *)

Definition binarize_keys (s : metrics_spec) : list (option sub_key) :=
  match ms_binarize s with
  | None => []
  | Some b => map (fun v => Some (SubKey (Some v) None None)) (b_class_ids b) ++ map (fun v => Some (SubKey None (Some (Z.to_nat v)) None)) (b_k b) ++
              map (fun v => Some (SubKey None None (Some (Z.to_nat v)))) (b_top_k b)
  end.

Definition aggregate_keys (a : aggregate) : list (option sub_key) :=
  match a_top_k a with Some (v :: l) => map (fun v => Some (SubKey None None (Some (Z.to_nat v)))) (v :: l) | _ => [None] end.

Lemma groups_are s groups : create_sub_keys s = Ok groups ->
  groups = match ms_aggregate s with
           | None => match binarize_keys s with [] => [(None, [None])] | l => [(None, l)] end
           | Some a => dset opt_agg_eqb (match binarize_keys s with [] => [] | l => [(None, l)] end) (aggregation_type a) (aggregate_keys a)
           end.
Proof.
  unfold create_sub_keys. intros E. apply bind_ok in E. destruct E as (r1 & E1 & E). apply bind_ok in E. destruct E as (r2 & E2 & E). injection E as <-.
  assert (R1 : r1 = match binarize_keys s with [] => [] | l => [(None, l)] end).
  { unfold binarize_keys. destruct (ms_binarize s) as [b|]; [|injection E1 as <-; reflexivity].
    apply bind_ok in E1. destruct E1 as (cs & C & E1). apply bind_ok in E1. destruct E1 as (ks & K & E1). apply bind_ok in E1. destruct E1 as (ts & T & E1). injection E1 as <-.
    rewrite (mk_keys _ _ _ _ mk_class C), (mk_keys _ _ _ _ mk_k K), (mk_keys _ _ _ _ mk_top T). reflexivity. }
  rewrite R1 in E2. destruct (ms_aggregate s) as [a|].
  - apply bind_ok in E2. destruct E2 as (ts & T & E2). injection E2 as <-. rewrite (mk_keys _ _ _ _ mk_top T).
    assert (X : forall M, M = map (fun v => Some (SubKey None None (Some (Z.to_nat v)))) (match a_top_k a with Some l => l | None => [] end) ->
                match M with [] => [None] | _ => M end = aggregate_keys a).
    { intros M ->. unfold aggregate_keys. destruct (a_top_k a) as [[|v l]|]; reflexivity. }
    rewrite (X _ eq_refl). destruct (binarize_keys s); cbn [dset]; [reflexivity|]. destruct (opt_agg_eqb _ _); reflexivity.
  - injection E2 as <-. destruct (binarize_keys s); reflexivity.
Qed.

Lemma binarize_keys_in s k : In k (binarize_keys s) <-> exists b, k = Some b /\ binarized s b.
Proof.
  unfold binarize_keys, binarized. destruct (ms_binarize s) as [b|]; [|split; [intros []|intros (? & _ & ? & Q & _); discriminate]].
  rewrite !in_app_iff, !in_map_iff. split.
  - intros [(v & <- & I0)|[(v & <- & I0)|(v & <- & I0)]]; eexists; (split; [reflexivity|]); exists b; (split; [reflexivity|]); [left|right; left|right; right]; eauto.
  - intros (k0 & -> & b' & [= <-] & [(v & I0 & ->)|[(v & I0 & ->)|(v & I0 & ->)]]); eauto 6.
Qed.

Lemma aggregate_keys_in a sk : In sk (aggregate_keys a) <-> over a sk.
Proof.
  unfold aggregate_keys, over. destruct (a_top_k a) as [[|v l]|]; [cbn [In]; intuition congruence| |cbn [In]; intuition congruence].
  rewrite in_map_iff. split; intros (x & A & B); exists x; auto.
Qed.

Lemma aggregation_type_none a : aggregation_type a = None <-> forall f, a_type a <> Some (f, true).
Proof.
  unfold aggregation_type. destruct (a_type a) as [[f []]|]; [|split; [intros _ f' Q; discriminate|try destruct f; reflexivity]..].
  split; [destruct f; discriminate|intros H; exfalso; apply (H f); reflexivity].
Qed.

Lemma aggregation_type_some a t : aggregation_type a = Some t <-> exists f, a_type a = Some (f, true) /\ t = type_of f.
Proof.
  unfold aggregation_type. destruct (a_type a) as [[f []]|].
  - split; [intros E; exists f; split; [reflexivity|]; destruct f; injection E as <-; reflexivity|]. intros (f' & [= <-] & ->). destruct f; reflexivity.
  - split; [destruct f; discriminate|intros (? & ? & _); discriminate].
  - split; [discriminate|intros (? & ? & _); discriminate].
Qed.

Lemma asks_iff s groups : create_sub_keys s = Ok groups ->
  forall agg sk, (exists sks, In (agg, sks) groups /\ In sk sks) <-> asks s agg sk.
Proof.
  intros E agg sk. apply groups_are in E. subst groups. unfold asks. destruct (ms_aggregate s) as [a|] eqn:EA.
  - assert (BK := binarize_keys_in s). destruct (aggregation_type a) as [t|] eqn:ET.
    + assert (X : dset opt_agg_eqb (match binarize_keys s with [] => [] | l => [(None, l)] end) (Some t) (aggregate_keys a) =
                  (match binarize_keys s with [] => [] | l => [(None, l)] end) ++ [(Some t, aggregate_keys a)]) by (destruct (binarize_keys s); reflexivity).
      rewrite X. apply aggregation_type_some in ET. destruct ET as (f & EF & ET). split.
      * intros (sks & I0 & K). apply in_app_iff in I0. destruct I0 as [I0|[[= <- <-]|[]]].
        -- destruct (binarize_keys s) as [|b0 bs] eqn:EB; [contradiction|]. destruct I0 as [[= <- <-]|[]]. right. split; [intros a' [= <-]; exists f; exact EF|].
           left. destruct (proj1 (BK sk) K) as (k & -> & B). exists k. auto.
        -- exists a, f. split; [reflexivity|]. split; [exact EF|]. split; [exact ET|]. apply aggregate_keys_in. exact K.
      * destruct agg as [t'|].
        -- intros (a' & f' & [= <-] & EF' & -> & O). exists (aggregate_keys a). split; [|apply aggregate_keys_in; exact O]. apply in_app_iff. right. left. rewrite EF in EF'. injection EF' as <-. rewrite ET. reflexivity.
        -- intros [(a' & [= <-] & N & _)|[_ [(k & -> & B)|(_ & Q & _)]]]; [exfalso; apply (N f EF)| |discriminate].
           assert (K : In (Some k) (binarize_keys s)) by (apply BK; exists k; auto). exists (binarize_keys s). split; [|exact K]. apply in_app_iff. left.
           destruct (binarize_keys s); [contradiction|left; reflexivity].
    + assert (X : dset opt_agg_eqb (match binarize_keys s with [] => [] | l => [(None, l)] end) None (aggregate_keys a) = [(None, aggregate_keys a)]) by (destruct (binarize_keys s); reflexivity).
      rewrite X. pose proof (proj1 (aggregation_type_none a) ET) as N. split.
      * intros (sks & [[= <- <-]|[]] & K). left. exists a. split; [reflexivity|]. split; [exact N|]. apply aggregate_keys_in. exact K.
      * destruct agg as [t'|].
        -- intros (a' & f' & [= <-] & EF' & _). exfalso. apply (N f' EF').
        -- intros [(a' & [= <-] & _ & O)|[H _]]; [exists (aggregate_keys a); split; [left; reflexivity|apply aggregate_keys_in; exact O]|].
           destruct (H a eq_refl) as (f & EF). exfalso. apply (N f EF).
  - assert (BK := binarize_keys_in s). split.
    + intros (sks & I0 & K). assert (agg = None) as -> by (destruct (binarize_keys s); destruct I0 as [[= <- _]|[]]; reflexivity).
      right. split; [discriminate|]. destruct (binarize_keys s) as [|b0 bs] eqn:EB; destruct I0 as [[= <-]|[]].
      * destruct K as [<-|[]]. right. split; [reflexivity|]. split; [reflexivity|]. intros k B. apply (proj2 (BK (Some k))). exists k. auto.
      * left. apply (proj1 (BK sk)) in K. destruct K as (k & -> & B). exists k. auto.
    + destruct agg as [t'|]; [intros (a' & f' & Q & _); discriminate|]. intros [(a' & Q & _)|[_ [(k & -> & B)|(-> & _ & N)]]]; [discriminate|..].
      * assert (K : In (Some k) (binarize_keys s)) by (apply BK; exists k; auto). destruct (binarize_keys s) as [|b0 bs]; [contradiction|]. exists (b0 :: bs). split; [left; reflexivity|exact K].
      * destruct (binarize_keys s) as [|b0 bs] eqn:EB; [exists [None]; split; left; reflexivity|]. destruct (proj1 (BK b0) (or_introl eq_refl)) as (k & _ & B). exfalso. apply (N k B).
Qed.

(** The classes, or the ranks, a macro average is taken over. *)

Definition averaged_over (s : metrics_spec) (parent : option sub_key) (c : sub_key) : Prop :=
  match parent with
  | None => exists a v x, ms_aggregate s = Some a /\ In (v, x) (a_class_weights a) /\ c = SubKey (Some v) None None
  | Some p => exists n k, sk_top_k p = Some n /\ (1 <= k <= n)%nat /\ c = SubKey None (Some k) None
  end.

Lemma children_iff s parent cw cs : spec_class_weights s = Ok cw -> macro_average_sub_keys parent cw = Ok cs ->
  forall c, In c cs <-> averaged_over s parent c.
Proof.
  intros W. unfold macro_average_sub_keys, averaged_over. destruct parent as [p|].
  - destruct (sk_top_k p) as [n|]; [|discriminate]. destruct (Nat.eqb_spec n 0) as [->|NZ]; [discriminate|]. intros E c.
    assert (X : cs = map (fun i => SubKey None (Some (S i)) None) (seq 0 n)).
    { revert cs E. generalize (seq 0 n). clear. induction l as [|i l IH]; cbn [mapM map]; intros cs; [intros [= <-]; reflexivity|].
      destruct (mk_sub_key None (Some (Z.of_nat i + 1)%Z) None) as [k|] eqn:EK; cbn [bind]; [|discriminate]. destruct (mapM _ l) as [r|]; cbn [bind]; [|discriminate]. intros [= <-].
      rewrite (mk_k _ _ EK), (IH r eq_refl). f_equal. f_equal. f_equal. lia. }
    rewrite X, in_map_iff. split.
    + intros (i & <- & I0). apply in_seq in I0. exists n, (S i). split; [reflexivity|]. split; [lia|reflexivity].
    + intros (n' & k & [= <-] & B & ->). exists (k - 1)%nat. split; [do 2 f_equal; lia|]. apply in_seq. lia.
  - destruct (falsy cw) eqn:F; [discriminate|]. intros E c.
    assert (X : cs = map (fun kv => SubKey (Some (fst kv)) None None) (match cw with Some l => l | None => [] end)).
    { revert cs E. generalize (match cw with Some l => l | None => [] end). clear. induction l as [|i l IH]; cbn [mapM map]; intros cs; [intros [= <-]; reflexivity|].
      destruct (mk_sub_key (Some (fst i)) None None) as [k|] eqn:EK; cbn [bind]; [|discriminate]. destruct (mapM _ l) as [r|]; cbn [bind]; [|discriminate]. intros [= <-].
      rewrite (mk_class _ _ EK), (IH r eq_refl). reflexivity. }
    rewrite X, in_map_iff. unfold spec_class_weights in W. destruct (ms_aggregate s) as [a|]; [|injection W as <-; discriminate].
    assert (CW : cw = Some (a_class_weights a)).
    { destruct (a_top_k a), (a_class_weights a) eqn:EW; try discriminate; injection W as <-; try discriminate. reflexivity. }
    rewrite CW. split.
    + intros ([v x] & <- & I0). exists a, v, x. auto.
    + intros (a' & v & x & [= <-] & I0 & ->). exists (v, x). auto.
Qed.

(** What has been gathered for some arguments, weighted or not, and an output. *)

Definition holds (d : gathered) (a : unique_args) (w : bool) (o : string) : list tf_metric :=
  match dget unique_args_eqb d a with
  | Some e => match dget String.eqb (if w then fst e else snd e) o with Some l => l | None => [] end
  | None => []
  end.

Definition wf_outs (b : by_output) : Prop := NoDup (map fst b) /\ forall o l, In (o, l) b -> l <> [].

Definition wf (d : gathered) : Prop := NoDup (map fst d) /\ forall a e, In (a, e) d -> wf_outs (fst e) /\ wf_outs (snd e).

Definition rel := unique_args -> bool -> string -> tf_metric -> Prop.

(** [d'] has what [d] has and, after it, what is in [R]. *)

Definition adds (d d' : gathered) (R : rel) : Prop :=
  (wf d -> wf d') /\
  forall a w o, exists l, holds d' a w o = holds d a w o ++ l /\ forall m, In m l <-> R a w o m.

Lemma weight_eqb_eq a b : weight_eqb a b = true <-> a = b.
Proof.
  destruct a as [i x], b as [j y]. unfold weight_eqb. cbn [fst snd]. rewrite andb_true_iff, Z.eqb_eq. split.
  - intros [-> E]. f_equal. apply Qc_eq_bool_correct. exact E.
  - intros [= <- <-]. split; [reflexivity|]. unfold Qc_eq_bool. destruct (Qc_eq_dec x x); [reflexivity|contradiction].
Qed.

Lemma weights_eqb_eq a : forall b, weights_eqb a b = true <-> a = b.
Proof.
  induction a as [|x a IH]; intros [|y b]; cbn [weights_eqb]; [split; auto|split; discriminate|split; discriminate|].
  rewrite andb_true_iff, weight_eqb_eq, IH. split; [intros [-> ->]; reflexivity|intros [= -> ->]; auto].
Qed.

Lemma unique_args_eqb_eq a b : unique_args_eqb a b = true <-> a = b.
Proof.
  destruct a as [m s g l], b as [m' s' g' l']. unfold unique_args_eqb. cbn [ua_model ua_sub ua_agg ua_weights].
  rewrite !andb_true_iff, String.eqb_eq, osub_eqb_eq, opt_agg_eqb_eq, weights_eqb_eq.
  split; [intros (((-> & ->) & ->) & ->); reflexivity|intros [= -> -> -> ->]; auto].
Qed.

Lemma args_dec (a b : unique_args) : {a = b} + {a <> b}.
Proof. destruct (unique_args_eqb a b) eqn:E; [left; apply unique_args_eqb_eq; exact E|right; intros Q; apply unique_args_eqb_eq in Q; congruence]. Qed.

Lemma adds_trans d d1 d2 R S : adds d d1 R -> adds d1 d2 S -> adds d d2 (fun a w o m => R a w o m \/ S a w o m).
Proof.
  intros [W1 H1] [W2 H2]. split; [auto|]. intros a w o. destruct (H1 a w o) as (l1 & E1 & I1), (H2 a w o) as (l2 & E2 & I2).
  exists (l1 ++ l2). rewrite E2, E1, app_assoc. split; [reflexivity|]. intros m. rewrite in_app_iff, I1, I2. tauto.
Qed.

Lemma adds_iff d d' (R S : rel) : (forall a w o m, R a w o m <-> S a w o m) -> adds d d' R -> adds d d' S.
Proof. intros H [W A]. split; [exact W|]. intros a w o. destruct (A a w o) as (l & E & I0). exists l. split; [exact E|]. intros m. rewrite I0. apply H. Qed.

Lemma adds_none d : adds d d (fun _ _ _ _ => False).
Proof. split; [auto|]. intros a w o. exists []. rewrite app_nil_r. split; [reflexivity|]. intros m. split; [intros []|contradiction]. Qed.

Lemma adds_fold {X} (f : gathered -> X -> gathered) (R : X -> rel) l :
  (forall d x, In x l -> adds d (f d x) (R x)) -> forall d, adds d (fold_left f l d) (fun a w o m => exists x, In x l /\ R x a w o m).
Proof.
  induction l as [|x l IH]; intros H d; cbn [fold_left].
  - eapply adds_iff; [|apply adds_none]. intros a w o m. split; [contradiction|intros (? & [] & _)].
  - eapply adds_iff; [|eapply adds_trans; [apply (H d x (or_introl eq_refl))|apply (IH (fun d' x' I0 => H d' x' (or_intror I0)))]].
    intros a w o m. cbn [In]. split; [intros [A|(y & I0 & A)]; [exists x|exists y]; auto|]. intros (y & [<-|I0] & A); [left|right; exists y]; auto.
Qed.

Lemma adds_foldM {X} (f : gathered -> X -> res gathered) (R : X -> rel) l :
  (forall d d' x, In x l -> f d x = Ok d' -> adds d d' (R x)) -> forall d d', foldM f l d = Ok d' -> adds d d' (fun a w o m => exists x, In x l /\ R x a w o m).
Proof.
  induction l as [|x l IH]; intros H d d'; cbn [foldM].
  - intros [= <-]. eapply adds_iff; [|apply adds_none]. intros a w o m. split; [contradiction|intros (? & [] & _)].
  - destruct (f d x) as [d1|] eqn:E; cbn [bind]; [|discriminate]. intros R1.
    eapply adds_iff; [|eapply adds_trans; [apply (H d d1 x (or_introl eq_refl) E)|apply (IH (fun d0 d0' x' I0 => H d0 d0' x' (or_intror I0)) d1 d' R1)]].
    intros a w o m. cbn [In]. split; [intros [A|(y & I0 & A)]; [exists x|exists y]; auto|]. intros (y & [<-|I0] & A); [left|right; exists y]; auto.
Qed.

Lemma append_wf d o m : wf_outs d -> wf_outs (append_to d o m).
Proof.
  intros [N H]. unfold append_to. split; [apply (dset_NoDup _ String.eqb_eq); exact N|]. intros o' l I0. apply dset_In_pair in I0. destruct I0 as [I0|E]; [apply (H o' l I0)|].
  cbn [snd] in E. rewrite E. destruct (match dget String.eqb d o with Some l => l | None => [] end); discriminate.
Qed.

Definition put (d : gathered) (args : unique_args) (o : string) (m : tf_metric) (w : bool) : gathered :=
  let e := match dget unique_args_eqb d args with Some e => e | None => ([], []) end in
  dset unique_args_eqb d args (if w then (append_to (fst e) o m, snd e) else (fst e, append_to (snd e) o m)).

Lemma dset_wf d args e : wf_outs (fst e) -> wf_outs (snd e) -> wf d -> wf (dset unique_args_eqb d args e).
Proof.
  intros E1 E2 [N H]. split; [apply (dset_NoDup _ unique_args_eqb_eq); exact N|]. intros a e' I0. apply dset_In_pair in I0. destruct I0 as [I0|E]; [apply (H a e' I0)|].
  cbn [snd] in E. subst. auto.
Qed.

Lemma entry_wf d args : wf d -> let e := match dget unique_args_eqb d args with Some e => e | None => ([], []) end in wf_outs (fst e) /\ wf_outs (snd e).
Proof.
  intros [N H]. cbv zeta. destruct (dget unique_args_eqb d args) as [e|] eqn:E; [apply (H args e); apply (dget_In _ unique_args_eqb_eq); exact E|].
  split; (split; [constructor|intros ? ? []]).
Qed.

Lemma put_adds d args o m w : adds d (put d args o m w) (fun a w' o' m' => a = args /\ w' = w /\ o' = o /\ m' = m).
Proof.
  split.
  - intros W. destruct (entry_wf d args W) as [E1 E2]. unfold put. destruct w; apply dset_wf; cbn [fst snd]; try assumption; apply append_wf; assumption.
  - intros a w' o'. unfold put. set (e := match dget unique_args_eqb d args with Some e => e | None => ([], []) end).
    destruct (args_dec a args) as [->|NA].
    2:{ exists []. rewrite app_nil_r. split; [|intros m'; split; [intros []|intros [Q _]; contradiction]]. unfold holds. rewrite (dget_dset_neq _ unique_args_eqb_eq); [reflexivity|congruence]. }
    assert (H0 : forall w0 o0, holds d args w0 o0 = match dget String.eqb (if w0 then fst e else snd e) o0 with Some l => l | None => [] end).
    { intros w0 o0. unfold holds, e. destruct (dget unique_args_eqb d args); [reflexivity|]. destruct w0; reflexivity. }
    rewrite H0. unfold holds. rewrite (dget_dset_eq _ unique_args_eqb_eq). destruct (Bool.bool_dec w' w) as [->|NW].
    2:{ exists []. rewrite app_nil_r. split; [|intros m'; split; [intros []|intros (_ & Q & _); contradiction]]. destruct w, w'; cbn [fst snd]; congruence. }
    destruct (string_dec o' o) as [->|NO].
    + exists [m]. split; [|intros m'; cbn [In]; intuition congruence].
      destruct w; cbn [fst snd]; unfold append_to; rewrite (dget_dset_eq _ String.eqb_eq); reflexivity.
    + exists []. rewrite app_nil_r. split; [|intros m'; split; [intros []|intros (_ & _ & Q & _); contradiction]].
      destruct w; cbn [fst snd]; unfold append_to; rewrite (dget_dset_neq _ String.eqb_eq); congruence.
Qed.

Lemma touch_adds d args : adds d (if dmem unique_args_eqb d args then d else dset unique_args_eqb d args ([], [])) (fun _ _ _ _ => False).
Proof.
  destruct (dmem unique_args_eqb d args) eqn:D; [apply adds_none|]. split.
  - apply dset_wf; (split; [constructor|intros ? ? []]).
  - intros a w o. exists []. rewrite app_nil_r. split; [|intros m; split; [intros []|contradiction]]. unfold holds. destruct (args_dec a args) as [->|NA].
    + rewrite (dget_dset_eq _ unique_args_eqb_eq). unfold dmem in D. destruct (dget unique_args_eqb d args); [discriminate|]. destruct w; reflexivity.
    + rewrite (dget_dset_neq _ unique_args_eqb_eq); congruence.
Qed.

Lemma gather_adds options o instances d args :
  adds d (gather_instances options o instances d args) (fun a w o' m => a = args /\ o' = o /\ In w options /\ In m instances).
Proof.
  unfold gather_instances. cbv zeta. eapply adds_iff; [|eapply adds_trans; [apply touch_adds|]].
  2:{ apply (adds_fold _ (fun m a w o' m' => exists w0, In w0 options /\ (a = args /\ w = w0 /\ o' = o /\ m' = m))). intros d' m _.
      apply (adds_fold (fun d w => put d args o m w) (fun w0 a w o' m' => a = args /\ w = w0 /\ o' = o /\ m' = m)). intros d2 w _. apply put_adds. }
  intros a w o' m. split.
  - intros [[]|(m' & I0 & w0 & I1 & -> & -> & -> & ->)]. auto.
  - intros (-> & -> & I0 & I1). right. exists m. split; [exact I1|]. exists w. auto.
Qed.

(** A metric under another name: with "_" in front. *)

Definition hidden (m m' : tf_metric) : Prop :=
  m' = TfMetric (tm_class m) (tm_name m') (tm_is_loss m) (tm_class_id m) (tm_top_k m) (tm_thresholds m) (tm_num_thresholds m)
         (tm_configured_thresholds m) (tm_label_weights m) (tm_multi_label m) /\
  ((exists n, tm_name m = ("_" ++ n)%string) /\ tm_name m' = tm_name m \/
   (forall n, tm_name m <> ("_" ++ n)%string) /\ tm_name m' = ("_" ++ tm_name m)%string).

Lemma hidden_iff m m' : hidden m m' <-> m' = private_tf m.
Proof.
  unfold hidden, private_tf, private_name. destruct (starts_with "_" (tm_name m)) eqn:E.
  - assert (X : exists n, tm_name m = ("_" ++ n)%string).
    { unfold starts_with in E. destruct (strip_prefix "_" (tm_name m)) as [n|] eqn:S; [|discriminate]. exists n. apply strip_prefix_eq. exact S. }
    split; [intros [-> [[_ H]|[H _]]]; cbn [tm_name] in *; [rewrite H; reflexivity|destruct X as (n & X); exfalso; apply (H n X)]|].
    intros ->. cbn [tm_name]. split; [reflexivity|]. left. auto.
  - assert (X : forall n, tm_name m <> ("_" ++ n)%string).
    { intros n Q. rewrite Q in E. cbn in E. destruct n; discriminate. }
    split; [intros [-> [[[n H] _]|[_ H]]]; cbn [tm_name] in *; [exfalso; apply (X n H)|rewrite H; reflexivity]|].
    intros ->. cbn [tm_name]. split; [reflexivity|]. right. auto.
Qed.

(** A spec with metrics asks for [m] under some arguments, weighted or not, for an output. *)

Definition asked_weights (default : bool) (s : metrics_spec) (w : bool) : Prop :=
  match ms_example_weights s with None => w = default | Some (weighted, unweighted) => (if w then weighted else unweighted) = true end.

Definition one_of (l : list string) (x : string) : Prop := In x l \/ l = [] /\ x = "".

Definition sorted_weights (s : metrics_spec) (l : list (Z * Qc)) : Prop :=
  Permutation l (match ms_aggregate s with Some a => a_class_weights a | None => [] end) /\ StronglySorted (fun a b => (fst a < fst b)%Z) l.

Definition requested (default : bool) (sm : metrics_spec * list tf_metric) (a : unique_args) (w : bool) (o : string) (m : tf_metric) : Prop :=
  let '(s, ms) := sm in
  one_of (ms_outputs s) o /\ one_of (ms_models s) (ua_model a) /\ asked_weights default s w /\
  ((* as it is asked for *)
   asks s (ua_agg a) (ua_sub a) /\ ua_agg a <> Some (type_of Macro) /\ ua_agg a <> Some (type_of WeightedMacro) /\ In m ms /\
     match ua_agg a with None => ua_weights a = [] | Some _ => sorted_weights s (ua_weights a) end \/
   (* for the classes of a macro average *)
   exists f parent c m0, (f = Macro \/ f = WeightedMacro) /\ asks s (Some (type_of f)) parent /\ averaged_over s parent c /\ In m0 ms /\
     ua_agg a = None /\ ua_weights a = [] /\ ua_sub a = Some c /\
     (asks s None (Some c) /\ m = m0 \/ ~ asks s None (Some c) /\ hidden m0 m)).

Lemma one_of_iff l x : In x (or_blank l) <-> one_of l x.
Proof. unfold or_blank, one_of. destruct l; cbn [In]; intuition congruence. Qed.

Lemma options_iff default s w : In w (example_weight_options default s) <-> asked_weights default s w.
Proof.
  unfold example_weight_options, asked_weights. destruct (ms_example_weights s) as [[x y]|]; [|cbn [In]; intuition congruence].
  rewrite in_app_iff. destruct x, y, w; cbn [In]; intuition congruence.
Qed.

Lemma insert_perm w l : Permutation (insert_weight w l) (w :: l).
Proof. induction l as [|v l IH]; cbn [insert_weight]; [reflexivity|]. destruct (fst w <=? fst v)%Z; [reflexivity|]. rewrite IH. apply perm_swap. Qed.

Lemma sort_perm l : Permutation (sort_weights l) l.
Proof. induction l as [|v l IH]; cbn [sort_weights fold_right]; [reflexivity|]. change (fold_right insert_weight [] l) with (sort_weights l). rewrite insert_perm, IH. reflexivity. Qed.

Lemma insert_sorted w l : ~ In (fst w) (map fst l) -> StronglySorted (fun a b => (fst a < fst b)%Z) l -> StronglySorted (fun a b => (fst a < fst b)%Z) (insert_weight w l).
Proof.
  intros N S. induction S as [|v l S IH F]; cbn [insert_weight]; [repeat constructor|]. cbn [map In] in N.
  destruct (Z.leb_spec (fst w) (fst v)) as [L|L].
  - assert (LT : (fst w < fst v)%Z) by (assert (fst w <> fst v) by (intros Q; apply N; left; congruence); lia).
    constructor; [constructor; assumption|]. constructor; [exact LT|]. eapply Forall_impl; [|exact F]. cbn. intros x Q. lia.
  - constructor; [apply IH; tauto|]. apply Forall_forall. intros x I0. apply (Permutation_in _ (insert_perm w l)) in I0. destruct I0 as [<-|I0]; [lia|]. rewrite Forall_forall in F. apply F. exact I0.
Qed.

Lemma sort_sorted l : NoDup (map fst l) -> StronglySorted (fun a b => (fst a < fst b)%Z) (sort_weights l).
Proof.
  induction l as [|v l IH]; cbn [map]; intros N; [constructor|]. inversion N as [|? ? N1 N2]; subst. cbn [sort_weights fold_right]. change (fold_right insert_weight [] l) with (sort_weights l).
  apply insert_sorted; [|apply IH; exact N2]. intros C. apply N1. apply (Permutation_in _ (Permutation_map fst (sort_perm l))). exact C.
Qed.

Lemma sorted_same (l k : list (Z * Qc)) : StronglySorted (fun a b => (fst a < fst b)%Z) l -> StronglySorted (fun a b => (fst a < fst b)%Z) k -> Permutation l k -> l = k.
Proof.
  revert k. induction l as [|x l IH]; intros k S T P.
  - apply Permutation_nil in P. congruence.
  - destruct k as [|y k]; [symmetry in P; apply Permutation_nil in P; discriminate|]. inversion S as [|? ? S1 F1]; inversion T as [|? ? T1 F2]; subst.
    assert (x = y) as <-.
    { assert (IX : In x (y :: k)) by (apply (Permutation_in _ P); left; reflexivity). assert (IY : In y (x :: l)) by (apply (Permutation_in _ (Permutation_sym P)); left; reflexivity).
      destruct IX as [->|IX]; [reflexivity|]. destruct IY as [->|IY]; [reflexivity|]. rewrite Forall_forall in F1, F2. specialize (F1 y IY). specialize (F2 x IX). lia. }
    f_equal. apply IH; auto. apply (Permutation_cons_inv P).
Qed.

(** Class weights are a map. *)

Definition weights_map (s : metrics_spec) : Prop := forall a, ms_aggregate s = Some a -> NoDup (map fst (a_class_weights a)).

Lemma weights_of s cw : spec_class_weights s = Ok cw -> (match cw with Some l => l | None => [] end) = match ms_aggregate s with Some a => a_class_weights a | None => [] end.
Proof.
  unfold spec_class_weights. destruct (ms_aggregate s) as [a|]; [|intros [= <-]; reflexivity].
  destruct (a_top_k a), (a_class_weights a); try discriminate; intros [= <-]; reflexivity.
Qed.

Lemma sorted_iff s cw l : weights_map s -> spec_class_weights s = Ok cw -> sorted_weights s l <-> l = sort_weights (match cw with Some l => l | None => [] end).
Proof.
  intros M E. rewrite (weights_of s cw E). unfold sorted_weights. set (ws := match ms_aggregate s with Some a => a_class_weights a | None => [] end).
  assert (N : NoDup (map fst ws)) by (unfold ws; destruct (ms_aggregate s) as [a|] eqn:EA; [apply (M a EA)|constructor]).
  split.
  - intros [P S]. apply sorted_same; [exact S|apply sort_sorted; exact N|]. rewrite P. symmetry. apply sort_perm.
  - intros ->. split; [apply sort_perm|apply sort_sorted; exact N].
Qed.

Lemma is_macro_iff agg : is_macro agg = true -> known_type agg -> agg = Some (type_of Macro) \/ agg = Some (type_of WeightedMacro).
Proof. intros H K. unfold known_type in K. destruct K as [->|[->|[->| ->]]]; cbn in H; try discriminate; auto. Qed.

Lemma groups_nodup s groups : create_sub_keys s = Ok groups -> NoDup (map fst groups).
Proof.
  intros E. apply groups_are in E. subst groups. destruct (ms_aggregate s) as [a|].
  - apply (dset_NoDup _ opt_agg_eqb_eq). destruct (binarize_keys s); repeat constructor; cbn; auto.
  - destruct (binarize_keys s); repeat constructor; cbn; auto.
Qed.

Lemma shared_iff s groups : create_sub_keys s = Ok groups ->
  forall sk, existsb (osub_eqb sk) (match dget opt_agg_eqb groups None with Some l => l | None => [] end) = true <-> asks s None sk.
Proof.
  intros E sk. rewrite <- (asks_iff s groups E None sk), existsb_exists. split.
  - intros (x & I0 & Q). apply osub_eqb_eq in Q. subst x. destruct (dget opt_agg_eqb groups None) as [l|] eqn:D; [|contradiction]. exists l. split; [apply (dget_In _ opt_agg_eqb_eq); exact D|exact I0].
  - intros (sks & I0 & K). rewrite (proj2 (dget_In_NoDup _ opt_agg_eqb_eq _ _ _ (groups_nodup s groups E)) I0). exists sk. split; [exact K|]. apply osub_eqb_eq. reflexivity.
Qed.

Lemma gather_spec_adds default d d' sm : weights_map (fst sm) -> gather_spec default d sm = Ok d' -> adds d d' (requested default sm).
Proof.
  destruct sm as [s ms]. cbn [fst]. intros WM. unfold gather_spec. destruct (create_sub_keys s) as [groups|] eqn:E; cbn [bind]; [|discriminate].
  set (shared := match dget opt_agg_eqb groups None with Some l => l | None => [] end). intros R.
  set (F := fun (g : option agg_type * list (option sub_key)) (a : unique_args) (w : bool) (o : string) (m : tf_metric) =>
    one_of (ms_outputs s) o /\ one_of (ms_models s) (ua_model a) /\ asked_weights default s w /\
    exists parent, In parent (snd g) /\
    if is_macro (fst g) then
      exists c m0, averaged_over s parent c /\ In m0 ms /\ ua_agg a = None /\ ua_weights a = [] /\ ua_sub a = Some c /\
        m = (if existsb (osub_eqb (Some c)) shared then m0 else private_tf m0)
    else ua_sub a = parent /\ ua_agg a = fst g /\ In m ms /\ match fst g with None => ua_weights a = [] | Some _ => sorted_weights s (ua_weights a) end).
  assert (A : adds d d' (fun a w o m => exists g, In g groups /\ F g a w o m)).
  { refine (adds_foldM _ F groups _ d d' R). clear d d' R. intros d d' [agg sks] IG. cbn [fst snd]. 
    intros R. apply bind_ok in R. destruct R as (weights & EW & R).
    set (P := fun parent (a : unique_args) (w : bool) (o : string) (m : tf_metric) =>
      one_of (ms_outputs s) o /\ one_of (ms_models s) (ua_model a) /\ asked_weights default s w /\
      if is_macro agg then
        exists c m0, averaged_over s parent c /\ In m0 ms /\ ua_agg a = None /\ ua_weights a = [] /\ ua_sub a = Some c /\
          m = (if existsb (osub_eqb (Some c)) shared then m0 else private_tf m0)
      else ua_sub a = parent /\ ua_agg a = agg /\ In m ms /\ match agg with None => ua_weights a = [] | Some _ => sorted_weights s (ua_weights a) end).
    eapply adds_iff; [|refine (adds_foldM _ P sks _ d d' R)].
    { intros a w o m. unfold F, P. cbn [fst snd]. split; [intros (p & I0 & H1 & H2 & H3 & H4)|intros (H1 & H2 & H3 & p & I0 & H4)]; [repeat (split; [assumption|])|]; exists p; auto. }
    clear d d' R. intros d d' parent IP R. apply bind_ok in R. destruct R as (children & EC & R). injection R as <-.
    set (inst := fun sk => if is_macro agg && negb (existsb (osub_eqb sk) shared) then map private_tf ms else ms).
    set (uargs := fun model sk => UniqueArgs model sk (if is_macro agg then None else agg) (if is_macro agg then [] else weights)).
    eapply adds_iff; [|apply (adds_fold _ (fun o0 a w o m => exists sk, In sk children /\ exists model, In model (or_blank (ms_models s)) /\
                                (a = uargs model sk /\ o = o0 /\ In w (example_weight_options default s) /\ In m (inst sk))))].
    2:{ intros d1 o0 _. apply (adds_fold _ (fun sk a w o m => exists model, In model (or_blank (ms_models s)) /\
                                (a = uargs model sk /\ o = o0 /\ In w (example_weight_options default s) /\ In m (inst sk)))). intros d2 sk _.
        apply (adds_fold _ (fun model a w o m => a = uargs model sk /\ o = o0 /\ In w (example_weight_options default s) /\ In m (inst sk))). intros d3 model _. apply gather_adds. }
    intros a w o m. unfold P. destruct (is_macro agg) eqn:IM.
    - apply bind_ok in EC. destruct EC as (cw & CW & EC). apply bind_ok in EC. destruct EC as (cs & CS & EC). injection EC as <-. pose proof (children_iff s parent cw cs CW CS) as CI. split.
      + intros (o0 & IO & sk & ISK & model & IMO & -> & -> & IW & II). apply in_map_iff in ISK. destruct ISK as (c & <- & IC).
        split; [apply one_of_iff; exact IO|]. split; [apply one_of_iff; exact IMO|]. split; [apply options_iff; exact IW|]. cbn [uargs ua_agg ua_weights ua_sub]. unfold inst in II. cbn [andb] in II.
        destruct (existsb (osub_eqb (Some c)) shared) eqn:ES; cbn [negb] in II.
        * exists c, m. rewrite ES. split; [apply CI; exact IC|]. auto.
        * apply in_map_iff in II. destruct II as (m0 & <- & II). exists c, m0. rewrite ES. split; [apply CI; exact IC|]. auto.
      + intros (HO & HM & HW & c & m0 & AV & I0 & A1 & A2 & A3 & ->). exists o. split; [apply one_of_iff; exact HO|]. exists (Some c). split; [apply in_map, CI; exact AV|].
        exists (ua_model a). split; [apply one_of_iff; exact HM|]. split; [destruct a; cbn in *; subst; reflexivity|]. split; [reflexivity|]. split; [apply options_iff; exact HW|].
        unfold inst. cbn [andb]. destruct (existsb (osub_eqb (Some c)) shared); cbn [negb]; [exact I0|apply in_map; exact I0].
    - injection EC as <-.
      assert (WE : match agg with None => ua_weights a = [] | Some _ => sorted_weights s (ua_weights a) end <-> ua_weights a = weights).
      { destruct agg as [t|]; [|injection EW as <-; tauto]. apply bind_ok in EW. destruct EW as (cw & CW & EW). injection EW as <-. apply sorted_iff; assumption. }
      rewrite WE. split.
      + intros (o0 & IO & sk & [<-|[]] & model & IMO & -> & -> & IW & II). 
        split; [apply one_of_iff; exact IO|]. split; [apply one_of_iff; exact IMO|]. split; [apply options_iff; exact IW|]. cbn [uargs ua_agg ua_weights ua_sub]. unfold inst in II. cbn [andb] in II. auto.
      + intros (HO & HM & HW & A1 & A2 & I0 & A3). exists o. split; [apply one_of_iff; exact HO|]. exists parent. split; [left; reflexivity|].
        exists (ua_model a). split; [apply one_of_iff; exact HM|]. split; [destruct a; cbn in *; subst; reflexivity|]. split; [reflexivity|]. split; [apply options_iff; exact HW|]. exact I0. }
  eapply adds_iff; [|exact A]. intros a w o m. unfold F, requested. split.
  - intros ([agg sks] & IG & HO & HM & HW & parent & IP & H). cbn [fst snd] in *. split; [exact HO|]. split; [exact HM|]. split; [exact HW|].
    assert (AS : asks s agg parent) by (apply (asks_iff s groups E); exists sks; auto).
    destruct (group_types s groups E agg sks IG) as [KT _]. destruct (is_macro agg) eqn:IM.
    + right. destruct H as (c & m0 & AV & I0 & A1 & A2 & A3 & ->).
      assert (FF : exists f, (f = Macro \/ f = WeightedMacro) /\ agg = Some (type_of f)) by (destruct (is_macro_iff agg IM KT); [exists Macro|exists WeightedMacro]; auto).
      destruct FF as (f & FF & ->). exists f, parent, c, m0. repeat (split; [assumption|]). pose proof (shared_iff s groups E (Some c)) as SI. fold shared in SI.
      destruct (existsb (osub_eqb (Some c)) shared); [left; split; [apply SI; reflexivity|reflexivity]|]. right. split; [|apply hidden_iff; reflexivity]. intros Q. apply SI in Q. discriminate.
    + left. destruct H as (A1 & A2 & A3 & A4). rewrite A1, A2. split; [exact AS|]. split; [intros ->; discriminate|]. split; [intros ->; discriminate|]. auto.
  - intros (HO & HM & HW & [(AS & N1 & N2 & I0 & HWT)|(f & parent & c & m0 & FF & AS & AV & I0 & A1 & A2 & A3 & H)]).
    + apply (asks_iff s groups E) in AS. destruct AS as (sks & IG & IP). exists (ua_agg a, sks). split; [exact IG|]. cbn [fst snd]. split; [exact HO|]. split; [exact HM|]. split; [exact HW|].
      exists (ua_sub a). split; [exact IP|]. destruct (group_types s groups E _ _ IG) as [KT _]. destruct (is_macro (ua_agg a)) eqn:IM; [destruct (is_macro_iff _ IM KT); contradiction|]. auto.
    + apply (asks_iff s groups E) in AS. destruct AS as (sks & IG & IP). exists (Some (type_of f), sks). split; [exact IG|]. cbn [fst snd]. split; [exact HO|]. split; [exact HM|]. split; [exact HW|].
      exists parent. split; [exact IP|]. replace (is_macro (Some (type_of f))) with true by (destruct FF as [->| ->]; reflexivity).
      exists c, m0. repeat (split; [assumption|]). pose proof (shared_iff s groups E (Some c)) as SI. fold shared in SI.
      destruct H as [[Q ->]|[Q H]]; [apply SI in Q; rewrite Q; reflexivity|]. destruct (existsb (osub_eqb (Some c)) shared); [exfalso; apply Q, SI; reflexivity|apply hidden_iff; exact H].
Qed.

Lemma gathered_adds default specs d : Forall (fun sm => weights_map (fst sm)) specs -> forall d0, foldM (gather_spec default) specs d0 = Ok d ->
  adds d0 d (fun a w o m => exists sm, In sm specs /\ requested default sm a w o m).
Proof.
  intros W d0. apply (adds_foldM _ (requested default)). intros d1 d2 sm I0. rewrite Forall_forall in W. apply gather_spec_adds. apply (W sm I0).
Qed.

Lemma wf_nil : wf []. Proof. split; [constructor|intros ? ? []]. Qed.

Lemma calls_in d a w outs : In (a, w, outs) (calls d) <-> outs <> [] /\ exists e, In (a, e) d /\ outs = if w then fst e else snd e.
Proof.
  unfold calls. rewrite in_flat_map. split.
  - intros ([a0 [x y]] & I0 & H). apply in_app_iff in H.
    destruct H as [H|H]; [destruct x as [|x0 x]|destruct y as [|y0 y]]; try contradiction; destruct H as [[= <- <- <-]|[]]; (split; [discriminate|]); eexists; split; try exact I0; reflexivity.
  - intros (N & [x y] & I0 & ->). exists (a, (x, y)). split; [exact I0|]. apply in_app_iff. cbn [fst snd] in *.
    destruct w; [left; destruct x; [contradiction|left; reflexivity]|right; destruct y; [contradiction|left; reflexivity]].
Qed.

Lemma calls_holds d a w o l : wf d -> l <> [] ->
  ((exists outs, In (a, w, outs) (calls d) /\ In (o, l) outs) <-> holds d a w o = l).
Proof.
  intros [N W] NE. unfold holds. split.
  - intros (outs & I0 & I1). apply calls_in in I0. destruct I0 as (_ & e & I0 & ->). rewrite (proj2 (dget_In_NoDup _ unique_args_eqb_eq _ _ _ N) I0).
    destruct (W a e I0) as [[N1 _] [N2 _]]. destruct w; [rewrite (proj2 (dget_In_NoDup _ String.eqb_eq _ o l N1) I1)|rewrite (proj2 (dget_In_NoDup _ String.eqb_eq _ o l N2) I1)]; reflexivity.
  - destruct (dget unique_args_eqb d a) as [e|] eqn:D; [|congruence]. apply (dget_In _ unique_args_eqb_eq) in D.
    destruct (dget String.eqb (if w then fst e else snd e) o) as [l'|] eqn:D2; [|congruence]. intros ->. apply (dget_In _ String.eqb_eq) in D2.
    exists (if w then fst e else snd e). split; [|exact D2]. apply calls_in. split; [intros Q; destruct w; rewrite Q in D2; contradiction|]. exists e. auto.
Qed.

Lemma calls_nodup d : wf d -> NoDup (map fst (calls d)).
Proof.
  intros [N _]. unfold calls. induction d as [|[a [x y]] d IH]; cbn [flat_map map]; [constructor|]. cbn [map fst] in N. inversion N as [|? ? N1 N2]; subst.
  rewrite !map_app.
  assert (R : forall w, ~ In (a, w) (map fst (calls d))).
  { intros w C. apply in_map_iff in C. destruct C as ([[a' w'] outs] & Q & C). cbn [fst] in Q. injection Q as -> ->. apply calls_in in C. destruct C as (_ & e & C & _).
    apply N1. change a with (fst (a, e)). apply in_map. exact C. }
  specialize (IH N2). change (flat_map _ d) with (calls d) in *.
  destruct x, y; cbn [app map fst]; repeat (constructor; [|]); auto; cbn [In]; try apply R. intros [Q|Q]; [discriminate|apply (R _ Q)].
Qed.

Lemma C291_calls_pf :
  forall default specs d,
    Forall (fun sm => weights_map (fst sm)) specs -> foldM (gather_spec default) specs [] = Ok d ->
    NoDup (map fst (calls d)) /\
    (forall c, In c (calls d) -> NoDup (map fst (snd c))) /\
    forall a w o m, (exists outs l, In (a, w, outs) (calls d) /\ In (o, l) outs /\ In m l) <-> exists sm, In sm specs /\ requested default sm a w o m.
Proof.
  intros default specs d WM R. destruct (gathered_adds default specs d WM [] R) as [W A]. specialize (W wf_nil).
  split; [apply calls_nodup; exact W|]. split.
  - intros [[a w] outs] I0. apply calls_in in I0. destruct I0 as (_ & e & I0 & ->). cbn [snd]. destruct W as [_ W]. destruct (W a e I0) as [[W1 _] [W2 _]]. destruct w; assumption.
  - intros a w o m. destruct (A a w o) as (l & E & I0). rewrite <- I0. change (holds d a w o = l) in E. rewrite <- E. split.
    + intros (outs & l' & I1 & I2 & I3). assert (NE : l' <> []) by (intros Q; rewrite Q in I3; contradiction). rewrite (proj1 (calls_holds d a w o l' W NE) (ex_intro _ outs (conj I1 I2))). exact I3.
    + intros I1. assert (NE : holds d a w o <> []) by (intros Q; rewrite Q in I1; contradiction).
      destruct (proj2 (calls_holds d a w o _ W NE) eq_refl) as (outs & I2 & I3). exists outs, (holds d a w o). auto.
Qed.

Definition r_spec (models outputs : list string) (b : option binarize) (a : option aggregate) (w : option (bool * bool)) : metrics_spec := MetricsSpec [] models outputs [] b a w.

Definition mse : tf_metric := tf_simple "MeanSquaredError" "mse" false.

Definition huber : tf_metric := tf_simple "Huber" "h" true.

Lemma C291_later_specs_later_pf :
  forall default specs sm d d',
    Forall (fun sm => weights_map (fst sm)) (specs ++ [sm]) ->
    foldM (gather_spec default) specs [] = Ok d -> foldM (gather_spec default) (specs ++ [sm]) [] = Ok d' ->
    forall a w o outs l, In (a, w, outs) (calls d') -> In (o, l) outs ->
      exists before new, l = before ++ new /\ (forall m, In m new <-> requested default sm a w o m) /\
        (before = [] \/ exists outs, In (a, w, outs) (calls d) /\ In (o, before) outs).
Proof.
  intros default specs sm d d' WM R R' a w o outs l I0 I1. apply Forall_app in WM. destruct WM as [WM W1]. inversion W1 as [|? ? W2 _]; subst.
  rewrite foldM_app, R in R'. cbn [bind foldM] in R'. destruct (gather_spec default d sm) as [d1|] eqn:G; cbn [bind] in R'; [|discriminate]. injection R' as ->.
  destruct (gathered_adds default specs d WM [] R) as [W _]. specialize (W wf_nil). destruct (gather_spec_adds default d d' sm W2 G) as [W' A]. specialize (W' W).
  assert (NE : l <> []).
  { apply calls_in in I0. destruct I0 as (_ & e & I0 & ->). destruct W' as [_ W']. destruct (W' a e I0) as [[_ N1] [_ N2]]. destruct w; [apply (N1 o l I1)|apply (N2 o l I1)]. }
  pose proof (proj1 (calls_holds d' a w o l W' NE) (ex_intro _ outs (conj I0 I1))) as H. destruct (A a w o) as (new & E & IN). rewrite H in E.
  exists (holds d a w o), new. split; [exact E|]. split; [exact IN|]. destruct (holds d a w o) as [|m0 l0] eqn:HD; [left; reflexivity|]. right.
  apply (proj2 (calls_holds d a w o (m0 :: l0) W ltac:(discriminate))). exact HD.
Qed.

Lemma C291_binarization_lost_refuted_pf :
  exists default s ms d,
    ms_binarize s = Some (Binarize [1; 2]%Z [] []) /\ ms <> [] /\ foldM (gather_spec default) [(s, ms)] [] = Ok d /\
    forall a w outs, In (a, w, outs) (calls d) -> ua_sub a = None.
Proof.
  exists false, (r_spec [] [] (Some (Binarize [1; 2]%Z [] [])) (Some (Aggregate None [(1%Z, 1%Qc)] None)) None), [mse]. eexists.
  split; [reflexivity|]. split; [discriminate|]. split; [vm_compute; reflexivity|]. cbn. intros a w outs [[= <- _ _]|[]]. reflexivity.
Qed.

(** The sub key of a metric with a class or a top k of its own is that, else the one asked
    for. *)

Definition own_sub (sk : option sub_key) (m : tf_metric) : option sub_key :=
  match tm_class_id m, tm_top_k m with
  | Some c, _ => Some (SubKey (Some c) None None)
  | None, Some k => Some (SubKey None None (Some k))
  | None, None => sk
  end.

Lemma verify_own sk m s : verify_and_update_sub_key sk m = Ok s -> s = own_sub sk m.
Proof.
  unfold verify_and_update_sub_key, own_sub. destruct (tm_class_id m); [destruct sk as [k|]; [destruct (option_eqb _ _ _); [|discriminate]|]; intros [= <-]; reflexivity|].
  destruct (tm_top_k m); [destruct sk as [k|]; [destruct (option_eqb _ _ _); [|discriminate]|]; intros [= <-]; reflexivity|]. intros [= <-]. reflexivity.
Qed.

Definition call_keys (c : unique_args * bool * by_output) (k : metric_key) : Prop :=
  exists o l m, In (o, l) (snd c) /\ In m l /\
    k = MetricKey (tm_name m) (ua_model (fst (fst c))) o (own_sub (ua_sub (fst (fst c))) m) (ua_agg (fst (fst c))) (Some (snd (fst c))) false.

Lemma all_keys_concat ls : all_keys (concat ls) = flat_map all_keys ls.
Proof. unfold all_keys. induction ls as [|l ls IH]; cbn [concat flat_map]; [reflexivity|]. rewrite flat_map_app, IH. reflexivity. Qed.

Lemma process_parts default specs comps : Forall (fun sm => weights_map (fst sm)) specs -> process_tf_metrics_specs default specs = Ok comps ->
  exists d ls, foldM (gather_spec default) specs [] = Ok d /\ comps = concat ls /\
    Forall2 (fun c l => NoDup (all_keys l) /\ forall k, In k (all_keys l) <-> call_keys c k) (calls d) ls.
Proof.
  intros WM. unfold process_tf_metrics_specs. destruct (foldM (gather_spec default) specs []) as [d|] eqn:G; cbn [bind]; [|discriminate].
  intros Q. apply bind_ok in Q. destruct Q as (ls & E & Q). injection Q as <-. exists d, ls. split; [reflexivity|]. split; [reflexivity|].
  destruct (C291_calls_pf default specs d WM G) as (_ & NO & _). apply mapM_inv in E.
  assert (X : forall cs ls, (forall c, In c cs -> NoDup (map fst (snd c))) ->
    Forall2 (fun c l => (let '(args, w, outs) := c in tf_metric_computations outs (ua_model args) (ua_sub args) (ua_agg args) (weights_by_index (ua_weights args)) w) = Ok l) cs ls ->
    Forall2 (fun c l => NoDup (all_keys l) /\ forall k, In k (all_keys l) <-> call_keys c k) cs ls).
  { clear. intros cs ls H F. induction F as [|[[a w] outs] l cs ls E F IH]; constructor.
    - destruct (C174_every_metric_once_pf _ _ _ _ _ _ _ E (H _ (or_introl eq_refl))) as [N K]. split; [exact N|]. intros k. rewrite K. unfold call_keys. cbn [fst snd]. split.
      + intros (o & l0 & m & s & I0 & I1 & V & ->). exists o, l0, m. rewrite (verify_own _ _ _ V). auto.
      + intros (o & l0 & m & I0 & I1 & ->). destruct (verify_and_update_sub_key (ua_sub a) m) as [s|] eqn:V.
        * exists o, l0, m, s. rewrite <- (verify_own _ _ _ V). auto.
        * exfalso. pose proof (C175_conflicts_and_sparse_refused_pf outs (ua_model a) (ua_sub a) (ua_agg a) (weights_by_index (ua_weights a)) w) as C.
          rewrite C in E; [discriminate|]. exists o, l0, m. split; [exact I0|]. split; [exact I1|]. left. apply conflict_iff. rewrite (verify_errs _ _ _ V) in V. exact V.
    - apply IH. intros c I0. apply H. right. exact I0. }
  apply X; [exact NO|exact E].
Qed.

Lemma C292_declared_keys_pf :
  forall default specs comps,
    Forall (fun sm => weights_map (fst sm)) specs -> process_tf_metrics_specs default specs = Ok comps ->
    forall k, In k (all_keys comps) <->
      exists sm a w o m, In sm specs /\ requested default sm a w o m /\
        k = MetricKey (tm_name m) (ua_model a) o (own_sub (ua_sub a) m) (ua_agg a) (Some w) false.
Proof.
  intros default specs comps WM R k. destruct (process_parts default specs comps WM R) as (d & ls & G & -> & F). destruct (C291_calls_pf default specs d WM G) as (_ & _ & C).
  rewrite all_keys_concat, in_flat_map. split.
  - intros (l & I0 & I1). destruct (Forall2_In_r _ _ _ _ F I0) as ([[a w] outs] & I2 & _ & K). apply K in I1. destruct I1 as (o & l0 & m & I3 & I4 & ->). cbn [fst snd] in *.
    destruct (proj1 (C a w o m)) as (sm & I5 & RQ); [exists outs, l0; auto|]. exists sm, a, w, o, m. auto.
  - intros (sm & a & w & o & m & I0 & RQ & ->). destruct (proj2 (C a w o m)) as (outs & l & I1 & I2 & I3); [exists sm; auto|].
    destruct (Forall2_In_l _ _ _ _ F I1) as (l1 & I4 & _ & K). exists l1. split; [exact I4|]. apply K. exists o, l, m. auto.
Qed.

Lemma NoDup_flat {A B} (f : A -> list B) l : NoDup l -> (forall x, In x l -> NoDup (f x)) -> (forall x y b, In x l -> In y l -> In b (f x) -> In b (f y) -> x = y) -> NoDup (flat_map f l).
Proof.
  intros N. induction N as [|x l NI N IH]; intros H1 H2; cbn [flat_map]; [constructor|]. apply NoDup_join. split; [apply H1; left; reflexivity|]. split.
  - apply IH; [intros y Y; apply H1; right; exact Y|]. intros y z b Y Z. apply H2; right; assumption.
  - intros b B1 B2. apply in_flat_map in B2. destruct B2 as (y & Y & B2). apply NI. rewrite (H2 x y b (or_introl eq_refl) (or_intror Y) B1 B2). exact Y.
Qed.

Lemma paired_nodup {C B} (cs : list C) (ls : list (list B)) (P : C -> B -> Prop) :
  NoDup cs -> Forall2 (fun c l => NoDup l /\ forall k, In k l <-> P c k) cs ls -> (forall c c' k, In c cs -> In c' cs -> P c k -> P c' k -> c = c') -> NoDup (concat ls).
Proof.
  intros N F. induction F as [|c l cs ls [NL K] F IH]; intros H; cbn [concat]; [constructor|]. inversion N as [|? ? N1 N2]; subst. apply NoDup_join. split; [exact NL|]. split.
  - apply IH; [exact N2|]. intros c1 c2 k I1 I2. apply H; right; assumption.
  - intros k K1 K2. apply in_concat in K2. destruct K2 as (l' & I0 & K2). destruct (Forall2_In_r _ _ _ _ F I0) as (c' & I1 & _ & K'). apply N1.
    rewrite (H c c' k (or_introl eq_refl) (or_intror I1)); [exact I1|apply K; exact K1|apply K'; exact K2].
Qed.

Lemma C292_keys_once_pf :
  forall default specs comps,
    Forall (fun sm => weights_map (fst sm)) specs -> process_tf_metrics_specs default specs = Ok comps ->
    (forall sm m, In sm specs -> In m (snd sm) -> tm_class_id m = None /\ tm_top_k m = None) ->
    (forall sm sm' a a', In sm specs -> In sm' specs -> ms_aggregate (fst sm) = Some a -> ms_aggregate (fst sm') = Some a' ->
       Permutation (a_class_weights a) (a_class_weights a')) ->
    NoDup (all_keys comps).
Proof.
  intros default specs comps WM R NO SW. destruct (process_parts default specs comps WM R) as (d & ls & G & -> & F). destruct (C291_calls_pf default specs d WM G) as (N & _ & C).
  assert (RO : forall sm a w o m, In sm specs -> requested default sm a w o m -> own_sub (ua_sub a) m = ua_sub a).
  { intros [s ms] a w o m I0 (_ & _ & _ & H). unfold own_sub. assert (X : tm_class_id m = None /\ tm_top_k m = None).
    { destruct H as [(_ & _ & _ & I1 & _)|(f & p & c & m0 & _ & _ & _ & I1 & _ & _ & _ & [[_ ->]|[_ [-> _]]])]; [apply (NO _ _ I0 I1)| |cbn [tm_class_id tm_top_k]]; apply (NO _ _ I0 I1). }
    destruct X as [-> ->]. reflexivity. }
  assert (RW : forall sm sm' a a' w o m w' o' m', In sm specs -> In sm' specs -> requested default sm a w o m -> requested default sm' a' w' o' m' -> ua_agg a = ua_agg a' -> ua_weights a = ua_weights a').
  { assert (RW1 : forall sm a w o m, In sm specs -> requested default sm a w o m ->
       match ua_agg a with None => ua_weights a = [] | Some _ => sorted_weights (fst sm) (ua_weights a) /\ exists g, ms_aggregate (fst sm) = Some g end).
    { intros [s ms] a w o m I0 (_ & _ & _ & H). cbn [fst]. destruct H as [(AS & _ & _ & _ & H)|(f & p & c & m0 & _ & _ & _ & _ & E1 & E2 & _)]; [|rewrite E1; exact E2].
      destruct (ua_agg a) as [t|]; [|exact H]. split; [exact H|]. destruct AS as (g & f & AS & _). exists g. exact AS. }
    intros sm sm' a a' w o m w' o' m' I0 I1 Q1 Q2 E. apply RW1 in Q1, Q2; try assumption. rewrite E in Q1. destruct (ua_agg a'); [|congruence].
    destruct Q1 as [[P1 S1] [g1 G1]], Q2 as [[P2 S2] [g2 G2]]. rewrite G1 in P1. rewrite G2 in P2. apply sorted_same; [exact S1|exact S2|].
    rewrite P1, P2. exact (SW _ _ _ _ I0 I1 G1 G2). }
  rewrite all_keys_concat, flat_map_concat_map. apply (paired_nodup (calls d) _ call_keys).
  - apply (NoDup_map_inv _ _ N).
  - clear - F. induction F; cbn [map]; constructor; auto.
  - intros [[a w] outs] [[a' w'] outs'] k I0 I1 (o & l & m & L & M & E) (o' & l' & m' & L' & M' & E'). cbn [fst snd] in *.
    destruct (proj1 (C a w o m)) as (sm & S & Q); [exists outs, l; auto|]. destruct (proj1 (C a' w' o' m')) as (sm' & S' & Q'); [exists outs', l'; auto|].
    rewrite E in E'. injection E' as _ E1 _ E2 E3 E4. rewrite (RO _ _ _ _ _ S Q), (RO _ _ _ _ _ S' Q') in E2. pose proof (RW _ _ _ _ _ _ _ _ _ _ S S' Q Q' E3) as E5.
    assert (a = a') as <- by (destruct a, a'; cbn in *; congruence). subst w'.
    assert (X : outs = outs').
    { clear - N I0 I1. induction (calls d) as [|c cs IH]; [contradiction|]. cbn [map] in N. inversion N as [|? ? N1 N2]; subst.
      destruct I0 as [->|I0], I1 as [Q|I1]; [congruence|..]; [|subst c|apply IH; assumption]; exfalso; apply N1; cbn [fst].
      - change (a, w) with (fst (a, w, outs')). apply in_map. exact I1.
      - change (a, w) with (fst (a, w, outs)). apply in_map. exact I0. }
    rewrite X. reflexivity.
Qed.

Lemma C292_weights_not_in_keys_refuted_pf :
  exists default s1 s2 ms c1 c2 k w1 w2,
    process_tf_metrics_specs default [(s1, ms); (s2, ms)] = Ok [c1; c2] /\
    c1 = FromMatrices (tf_sub "Precision" "p" None None) k (Some [Fin (Q2Qc (1#2))]) None w1 /\
    c2 = FromMatrices (tf_sub "Precision" "p" None None) k (Some [Fin (Q2Qc (1#2))]) None w2 /\ w1 <> w2.
Proof.
  exists false, (r_spec [] [] None (Some (Aggregate (Some (Micro, true)) [(0%Z, 1%Qc)] None)) None), (r_spec [] [] None (Some (Aggregate (Some (Micro, true)) [(1%Z, 1%Qc)] None)) None), [tf_sub "Precision" "p" None None].
  do 5 eexists. split; [vm_compute; reflexivity|]. split; [reflexivity|]. split; [reflexivity|]. discriminate.
Qed.

Lemma C292_own_class_refuted_pf :
  exists default specs comps, process_tf_metrics_specs default specs = Ok comps /\ ~ NoDup (all_keys comps).
Proof.
  exists false, [(r_spec [] [] None None None, [tf_sub "Precision" "p" (Some 1%Z) None]); (r_spec [] [] (Some (Binarize [1%Z] [] [])) None None, [tf_sub "Precision" "p" None None])].
  eexists. split; [vm_compute; reflexivity|]. cbn. intros N. inversion N as [|? ? N1 _]; subst. apply N1. left. reflexivity.
Qed.

Lemma C293_classes_of_macro_averages_pf :
  forall default specs comps s ms f parent c m0 model o w,
    Forall (fun sm => weights_map (fst sm)) specs -> process_tf_metrics_specs default specs = Ok comps ->
    In (s, ms) specs -> f = Macro \/ f = WeightedMacro -> asks s (Some (type_of f)) parent -> averaged_over s parent c -> In m0 ms ->
    one_of (ms_models s) model -> one_of (ms_outputs s) o -> asked_weights default s w ->
    (forall n, tm_name m0 <> ("_" ++ n)%string) -> tm_class_id m0 = None -> tm_top_k m0 = None ->
    (binarized s c -> In (MetricKey (tm_name m0) model o (Some c) None (Some w) false) (all_keys comps)) /\
    (~ binarized s c -> In (MetricKey ("_" ++ tm_name m0) model o (Some c) None (Some w) false) (all_keys comps)).
Proof.
  intros default specs comps s ms f parent c m0 model o w WM R I0 FF AS AV I1 HM HO HW NU C1 C2. pose proof (C292_declared_keys_pf default specs comps WM R) as K.
  assert (AB : asks s None (Some c) <-> binarized s c).
  { destruct AS as (a & f' & EA & EF & _). split.
    - intros [(a' & EA' & N & _)|[_ [(k & [= <-] & B)|(Q & _)]]]; [exfalso; rewrite EA in EA'; injection EA' as <-; apply (N f' EF)|exact B|discriminate].
    - intros B. right. split; [intros a' EA'; rewrite EA in EA'; injection EA' as <-; exists f'; exact EF|]. left. exists c. auto. }
  split; intros B; apply K.
  - exists (s, ms), (UniqueArgs model (Some c) None []), w, o, m0. split; [exact I0|]. cbn [ua_model ua_sub ua_agg]. split; [|unfold own_sub; rewrite C1, C2; reflexivity].
    repeat (split; [assumption|]). right. exists f, parent, c, m0. repeat (split; [assumption || reflexivity|]). left. split; [apply AB; exact B|reflexivity].
  - exists (s, ms), (UniqueArgs model (Some c) None []), w, o, (private_tf m0). split; [exact I0|]. cbn [ua_model ua_sub ua_agg]. assert (H : hidden m0 (private_tf m0)) by (apply hidden_iff; reflexivity).
    split; [|unfold own_sub; cbn [private_tf tm_class_id tm_top_k]; rewrite C1, C2; f_equal].
    + repeat (split; [assumption|]). right. exists f, parent, c, m0. repeat (split; [assumption || reflexivity|]). right. split; [intros Q; apply B, AB; exact Q|exact H].
    + destruct H as [_ [[[n Q] _]|[_ Q]]]; [exfalso; apply (NU n Q)|symmetry; exact Q].
Qed.
