(* Proofs of the theorems restated in Setup_Properties.v. *)
From Coq Require Import String Ascii.
From Verif Require Import Base BaseFacts Beam BeamFacts Keys_Model Keras_Main Classes_Main Validation_Model Config_Model Setup_Model.
Local Open Scope string_scope.
Local Open Scope list_scope.

(* C247 - C254: the default model, extractors, evaluators and writers, and the runs made of them. *)

Lemma set_str_iff s : set_str s = true <-> s <> "".
Proof. unfold set_str. rewrite negb_true_iff, <- Bool.not_true_iff_false, String.eqb_eq. reflexivity. Qed.

Lemma set_str_not s : set_str s = false <-> s = "".
Proof. unfold set_str. rewrite negb_false_iff. apply String.eqb_eq. Qed.

Definition tagged (t : string) (tags : option (list string)) : Prop := exists l, tags = Some l /\ In t l.

Lemma has_tag_iff t tags : has_tag t tags = true <-> tagged t tags.
Proof.
  unfold has_tag, tagged. destruct tags as [l|]; [|split; [discriminate|intros (l & E & _); discriminate]].
  rewrite (memb_In _ String.eqb_eq). split; [intros I; eauto|intros (l' & E & I)]. injection E as <-. exact I.
Qed.

(** The tags of the model: those given, else a default *)

Definition or_tag (tags : option (list string)) (t : string) : list string := match tags with Some l => l | None => [t] end.

Definition or_loader (loader : option (option (list string))) (tags : list string) : option (option (list string)) :=
  match loader with Some l => Some l | None => Some (Some tags) end.

Lemma C247_no_config_pf :
  forall is_keras path callbacks dm w tags name loader stamp, exists type,
    default_eval_shared_model is_keras path callbacks dm w tags name None loader stamp =
      Ok (Model name type (Some path) callbacks dm w (or_loader loader (or_tag tags "eval")) stamp false) /\
    (type = "tf_estimator" <-> tagged "serve" tags /\ ~ tagged "eval" tags) /\ (type = "tf_estimator" \/ type = "tfma_eval").
Proof.
  intros. unfold default_eval_shared_model. cbn [bind].
  assert (L : forall ty, In ty ["tf_estimator"; "tfma_eval"] ->
     match loader with Some l => Some l | None => if memb String.eqb ty VALID_TF_MODEL_TYPES then Some (Some (or_tag tags "eval")) else None end =
     or_loader loader (or_tag tags "eval")) by (intros ty [<-|[<-|[]]]; destruct loader; reflexivity).
  unfold LEGACY_EVAL_TAG, SERVING.
  destruct (has_tag "eval" tags) eqn:E1; [|destruct (has_tag "serve" tags) eqn:E2].
  - exists "tfma_eval". split; [rewrite <- (L "tfma_eval") by (right; left; reflexivity); destruct tags, loader; reflexivity|].
    apply has_tag_iff in E1. split; [split; [discriminate|intros [_ N]; destruct (N E1)]|right; reflexivity].
  - exists "tf_estimator". split; [rewrite <- (L "tf_estimator") by (left; reflexivity); destruct tags, loader; reflexivity|].
    split; [|left; reflexivity]. split; [intros _|reflexivity]. split; [apply has_tag_iff, E2|]. rewrite <- has_tag_iff. congruence.
  - exists "tfma_eval". split; [rewrite <- (L "tfma_eval") by (right; left; reflexivity); destruct tags, loader; reflexivity|].
    split; [|right; reflexivity]. split; [discriminate|intros [A _]]. apply has_tag_iff in A. congruence.
Qed.

(** The spec of a name: the only one if the names agree or none is given, else the first of that name *)

Definition spec_of (c : config) (name : string) (s : model_spec) : Prop :=
  (e_models (c_eval c) = [s] /\ (name = "" \/ m_name s = name)) \/
  (length (e_models (c_eval c)) <> 1%nat /\ exists a b, e_models (c_eval c) = a ++ s :: b /\ m_name s = name /\ forall s', In s' a -> m_name s' <> name).

Lemma find_split {A} (f : A -> bool) l x : find f l = Some x -> exists a b, l = a ++ x :: b /\ f x = true /\ forall y, In y a -> f y = false.
Proof.
  induction l as [|y l IH]; [discriminate|]. cbn [find]. destruct (f y) eqn:E; intros H.
  - injection H as <-. exists [], l. split; [reflexivity|]. split; [exact E|intros z []].
  - destruct (IH H) as (a & b & -> & F & N). exists (y :: a), b. split; [reflexivity|]. split; [exact F|]. intros z [<-|I]; [exact E|apply N, I].
Qed.

Lemma find_first {A} (f : A -> bool) a x b : f x = true -> (forall y, In y a -> f y = false) -> find f (a ++ x :: b) = Some x.
Proof.
  intros F N. induction a as [|y a IH]; cbn [app find]; [rewrite F; reflexivity|]. rewrite (N y (or_introl eq_refl)). apply IH. intros z I. apply N. right. exact I.
Qed.

Lemma get_model_spec_iff c name s : get_model_spec (c_eval c) name = Some s <-> spec_of c name s.
Proof.
  unfold get_model_spec, spec_of.
  assert (G : forall l, find (fun m => String.eqb (m_name m) name) l = Some s <->
     exists a b, l = a ++ s :: b /\ m_name s = name /\ forall s', In s' a -> m_name s' <> name).
  { intros l. split.
    - intros H. destruct (find_split _ _ _ H) as (a & b & E & F & N). exists a, b. split; [exact E|]. split; [apply String.eqb_eq, F|].
      intros s' I. apply String.eqb_neq, N, I.
    - intros (a & b & -> & F & N). apply find_first; [apply String.eqb_eq, F|]. intros y I. apply String.eqb_neq, N, I. }
  destruct (e_models (c_eval c)) as [|m [|m' l]].
  - rewrite (G []). split; [intros H; right; split; [cbn; lia|exact H]|intros [[E _]|[_ H]]; [discriminate|exact H]].
  - destruct (set_str name) eqn:S.
    + apply set_str_iff in S. destruct (String.eqb (m_name m) name) eqn:E.
      * apply String.eqb_eq in E. split; [intros H; injection H as <-; left; auto|intros [[H _]|[H _]]; [injection H as <-; reflexivity|cbn in H; lia]].
      * apply String.eqb_neq in E. split; [discriminate|intros [[H [H'|H']]|[H _]]; [destruct (S H')|injection H as <-; destruct (E H')|cbn in H; lia]].
    + apply set_str_not in S. split; [intros H; injection H as <-; left; auto|intros [[H _]|[H _]]; [injection H as <-; reflexivity|cbn in H; lia]].
  - rewrite (G (m :: m' :: l)). split; [intros H; right; split; [cbn; lia|exact H]|intros [[E _]|[_ H]]; [discriminate|exact H]].
Qed.

(** With a config the type, weights and default metrics are those of the config, if it has any; a model
    without a type is one of Keras if it can be loaded as such, else a generic one. *)

Definition type_by_config (is_keras : string -> bool) (path : string) (s : model_spec) (type : string) : Prop :=
  (m_rest s <> "" /\ type = m_rest s) \/
  (m_rest s = "" /\ path <> "" /\ is_keras path = true /\ type = "tf_keras") \/
  (m_rest s = "" /\ (path = "" \/ is_keras path = false) /\ type = "tf_generic").

Definition weight_by_config (s : model_spec) (w w' : weight_key) : Prop :=
  (m_weight_key s <> "" /\ w' = OneWeight (m_weight_key s)) \/
  (m_weight_key s = "" /\ m_weight_keys s <> [] /\ w' = WeightPerOutput (m_weight_keys s)) \/
  (m_weight_key s = "" /\ m_weight_keys s = [] /\ w' = w).

Lemma C247_config_pf :
  forall is_keras path callbacks dm w tags name c loader stamp s, spec_of c name s -> exists type w' l,
    default_eval_shared_model is_keras path callbacks dm w tags name (Some c) loader stamp =
      Ok (Model name type (Some path) callbacks (match c_default_metrics c with Some b => Some b | None => dm end) w' l stamp (m_is_baseline s)) /\
    type_by_config is_keras path s type /\ weight_by_config s w w' /\
    (loader <> None -> l = loader) /\
    (loader = None -> In type ["tfma_eval"; "tf_generic"; "tf_estimator"; "tf_keras"; "tf_lite"; "tf_js"; "materialized_prediction"] ->
       l = Some (Some (or_tag tags (if String.eqb type "tfma_eval" then "eval" else "serve")))) /\
    (loader = None -> ~ In type ["tfma_eval"; "tf_generic"; "tf_estimator"; "tf_keras"; "tf_lite"; "tf_js"; "materialized_prediction"] -> l = None).
Proof.
  intros is_keras path callbacks dm w tags name c loader stamp s H. apply get_model_spec_iff in H.
  unfold default_eval_shared_model. rewrite H. cbn [bind].
  exists (get_model_type is_keras s path tags), (if set_str (m_weight_key s) then OneWeight (m_weight_key s) else if set_map (m_weight_keys s) then WeightPerOutput (m_weight_keys s) else w).
  eexists. split; [reflexivity|]. split; [|split; [|split; [|split]]].
  - unfold type_by_config, get_model_type, m_type. destruct (set_str (m_rest s)) eqn:E.
    + apply set_str_iff in E. left. auto.
    + apply set_str_not in E. right. destruct (set_str path) eqn:P; cbn [andb].
      * apply set_str_iff in P. destruct (is_keras path); [left|right]; auto.
      * apply set_str_not in P. right. auto.
  - unfold weight_by_config. destruct (set_str (m_weight_key s)) eqn:E; [apply set_str_iff in E; left; auto|apply set_str_not in E; right].
    destruct (m_weight_keys s) as [|kv d]; cbn [set_map]; [right; auto|left]. split; [exact E|]. split; [discriminate|reflexivity].
  - intros N. destruct loader; [reflexivity|destruct (N eq_refl)].
  - intros -> I. assert (M : memb String.eqb (get_model_type is_keras s path tags) VALID_TF_MODEL_TYPES = true) by (apply (memb_In _ String.eqb_eq), I).
    rewrite M. unfold or_tag, TFMA_EVAL, LEGACY_EVAL_TAG, SERVING. destruct tags; [reflexivity|]. destruct (String.eqb _ "tfma_eval"); reflexivity.
  - intros -> I. destruct (memb String.eqb (get_model_type is_keras s path tags) VALID_TF_MODEL_TYPES) eqn:M; [|reflexivity].
    apply (memb_In _ String.eqb_eq) in M. destruct (I M).
Qed.

Lemma C247_unknown_pf :
  forall is_keras path callbacks dm w tags name c loader stamp, (forall s, ~ spec_of c name s) ->
    default_eval_shared_model is_keras path callbacks dm w tags name (Some c) loader stamp = Err ValueError.
Proof.
  intros is_keras path callbacks dm w tags name c loader stamp H. unfold default_eval_shared_model. destruct (get_model_spec (c_eval c) name) as [s|] eqn:E; [|reflexivity].
  apply get_model_spec_iff in E. destruct (H s E).
Qed.

Lemma C247_tags_refuted_pf :
  exists c m, default_eval_shared_model (fun _ => false) "/model" None None NoWeight (Some ["eval"]) "" (Some c) None false = Ok m /\ es_type m = "tf_generic".
Proof. exists (Config (EvalConfig [ModelSpec "" "" [] "" [] "" [] false ""] [] false UnknownMethod "") [] [] None None). eexists. split; reflexivity. Qed.

Lemma bind_ok {A B} (r : res A) (f : A -> res B) b : bind r f = Ok b -> exists a, r = Ok a /\ f a = Ok b.
Proof. destruct r as [a|e]; cbn [bind]; [eauto|discriminate]. Qed.

(** The models of an argument *)

Definition members (x : models) : list model :=
  match x with Absent => [] | Single m => [m] | Listed l => l | Keyed l => map snd l end.

Definition types (x : models) : list string := map es_type (members x).

Lemma as_list_types x l : as_list x = Ok l -> map es_type l = types x.
Proof.
  unfold types. destruct x as [|m|l'|l']; cbn [as_list members]; try (intros H; injection H as <-; reflexivity).
  revert l. induction l' as [|[k v] l' IH]; intros l H; cbn [mapM] in H; [injection H as <-; reflexivity|].
  apply bind_ok in H. destruct H as (v' & E & H). apply bind_ok in H. destruct H as (r & E' & H). injection H as <-.
  cbn [map snd]. rewrite (IH r E'). f_equal. unfold keyed_model in E. destruct (_ && _ && _); [discriminate|]. injection E as <-.
  destruct (_ && _); reflexivity.
Qed.

Lemma verified_types x l : verified x = Ok l -> match l with None => members x = [] | Some l => l <> [] /\ map es_type l = types x end.
Proof.
  assert (G : forall y, as_list x = Ok y -> y <> [] -> match y with [m] => Ok (Some [named m ""]) | _ => if forallb (fun m => set_str (es_name m)) y then Ok (Some y) else Err ValueError end = Ok l ->
     match l with None => members x = [] | Some l => l <> [] /\ map es_type l = types x end).
  { intros y E N H. assert (T := as_list_types x y E). destruct y as [|m [|m' y]]; [destruct (N eq_refl)| |].
    - injection H as <-. split; [discriminate|exact T].
    - destruct (forallb _ _); [injection H as <-|discriminate]. split; [discriminate|exact T]. }
  assert (L : forall y, as_list x = Ok y -> members x <> [] -> y <> []).
  { intros y E N ->. apply N. assert (T := as_list_types x [] E). unfold types in T. destruct (members x); [reflexivity|discriminate]. }
  destruct x as [|m|[|m l']|[|kv l']]; cbn [verified]; intros H; try (injection H as <-; reflexivity);
    apply bind_ok in H; destruct H as (y & E & H); apply (G y E); try exact H; apply (L y E); discriminate.
Qed.

Lemma given_iff x : given x = true <-> members x <> [].
Proof. destruct x as [|m|[|m l]|[|kv l]]; cbn; split; congruence. Qed.

Lemma only_iff t ty : ty <> [] -> (only t (Some (dedup String.eqb ty)) = true <-> forall t', In t' ty -> t' = t).
Proof.
  intros N. assert (D := dedup_NoDup _ String.eqb_eq ty).
  assert (I : forall t', In t' (dedup String.eqb ty) <-> In t' ty) by (intros t'; apply (dedup_In _ String.eqb_eq)).
  revert D I. generalize (dedup String.eqb ty) as d. intros d D I. unfold only. destruct d as [|a [|b d]].
  - split; [discriminate|]. intros H. destruct ty as [|t' ty]; [destruct (N eq_refl)|]. destruct (proj2 (I t') (or_introl eq_refl)).
  - rewrite String.eqb_eq. split.
    + intros -> t' J. apply I in J. destruct J as [J|[]]. symmetry. exact J.
    + intros H. symmetry. apply H, I. left. reflexivity.
  - split; [discriminate|]. intros H. exfalso. assert (A := H a (proj1 (I a) (or_introl eq_refl))). assert (B := H b (proj1 (I b) (or_intror (or_introl eq_refl)))).
    subst a b. inversion D as [|? ? D1 _]. apply D1. left. reflexivity.
Qed.

(** The config with defaults *)

Definition updated (cfg : option config) (x : models) (cfg' : option config) : Prop :=
  match cfg with None => cfg' = None | Some c => exists c', with_defaults c x = Ok c' /\ cfg' = Some c' end.

Lemma updated_ok cfg x cfg' : updated cfg x cfg' ->
  match cfg with Some c => let! c := with_defaults c x in Ok (Some c) | None => Ok None end = Ok cfg'.
Proof. destruct cfg as [c|]; cbn [updated]; [intros (c' & E & ->); rewrite E; reflexivity|intros ->; reflexivity]. Qed.

Lemma updated_inv cfg x cfg' :
  match cfg with Some c => let! c := with_defaults c x in Ok (Some c) | None => Ok None end = Ok cfg' -> updated cfg x cfg'.
Proof.
  destruct cfg as [c|]; cbn [updated]; intros H; [|injection H as <-; reflexivity]. apply bind_ok in H. destruct H as (c' & E & H).
  injection H as <-. eauto.
Qed.

(** The extractors before those of slices, by the types of the models: with predictions that exist, of
    models of TFLite, of TFJS, and of other models *)

Definition or_own (custom : option ext) (k : kind) : kind := match custom with Some e => x_kind e | None => k end.

Inductive front : list string -> option ext -> list kind -> Prop :=
  | front_none : forall custom, front [] custom [Features; Labels; ExampleWeights; MaterializedPredictions]
  | front_materialized : forall types custom, types <> [] -> (forall t, In t types -> t = "materialized_prediction") ->
      front types custom [Features; Labels; ExampleWeights; MaterializedPredictions]
  | front_lite : forall types custom, types <> [] -> (forall t, In t types -> t = "tf_lite") ->
      front types custom [Features; TransformedFeatures; Labels; ExampleWeights; or_own custom TFLitePredictions]
  | front_js : forall types custom, types <> [] -> (forall t, In t types -> t = "tf_js") ->
      front types custom [Features; Labels; ExampleWeights; or_own custom TFJSPredictions]
  | front_tf : forall types, ~ In "tf_lite" types -> ~ In "tf_js" types -> (exists t, In t types /\ t <> "materialized_prediction") ->
      front types None [Features; TransformedFeatures; Labels; ExampleWeights; Predictions]
  | front_custom : forall types e, ~ In "tf_lite" types -> ~ In "tf_js" types -> (exists t, In t types /\ t <> "materialized_prediction") ->
      front types (Some e) [Features; Labels; ExampleWeights; x_kind e].

Definition sql_kinds (cfg : option config) (l : list kind) : Prop :=
  (l = [SqlSliceKeys] /\ exists c s, cfg = Some c /\ In s (c_slices c) /\ sl_sql s <> "") \/
  (l = [] /\ forall c s, cfg = Some c -> In s (c_slices c) -> sl_sql s = "").

Definition slices_of (cfg : option config) (l : list slicing) : Prop :=
  (exists c, cfg = Some c /\ c_slices c <> [] /\ l = c_slices c) \/ ((forall c, cfg = Some c -> c_slices c = []) /\ l = [Slicing [] [] ""]).

Lemma has_sql_iff cfg : sql_kinds cfg (if has_sql_slices cfg then [SqlSliceKeys] else []).
Proof.
  destruct (has_sql_slices cfg) eqn:E; [left|right]; (split; [reflexivity|]); unfold has_sql_slices in E.
  - destruct cfg as [c|]; [|discriminate]. apply existsb_exists in E. destruct E as (s & I & S). exists c, s. split; [reflexivity|]. split; [exact I|apply set_str_iff, S].
  - intros c s -> I. destruct (set_str (sl_sql s)) eqn:S; [|apply set_str_not, S]. exfalso.
    assert (existsb (fun s => set_str (sl_sql s)) (c_slices c) = true) by (apply existsb_exists; eauto). congruence.
Qed.

Lemma slice_keys_spec cfg mat : exists l, x_kind (slice_keys cfg mat) = SliceKeys l mat /\ slices_of cfg l.
Proof.
  unfold slice_keys. cbn [x_kind]. eexists. split; [reflexivity|]. unfold slices_of. destruct cfg as [c|]; [|right; split; [discriminate|reflexivity]].
  destruct (c_slices c) as [|s l] eqn:E; [right; split; [intros c' H; injection H as <-; exact E|reflexivity]|left].
  exists c. split; [reflexivity|]. rewrite E. split; [discriminate|reflexivity].
Qed.

Definition no_slices (slices : option (list slicing)) (cfg : option config) : Prop := slices = None \/ slices = Some [] \/ cfg = None.

Lemma no_slices_ok slices cfg : no_slices slices cfg <->
  match slices with Some (_ :: _) => true | _ => false end && match cfg with Some _ => true | None => false end = false.
Proof.
  unfold no_slices. destruct slices as [[|s l]|], cfg as [c|]; cbn; split; auto; try discriminate; intros [H|[H|H]]; discriminate.
Qed.

Definition or_false (b : option bool) : bool := match b with Some b => b | None => false end.

Lemma C248_extractors_pf :
  forall x cfg slices mat custom xs, default_extractors x cfg slices mat custom = Ok xs ->
    exists cfg' head sql sl, updated cfg x cfg' /\ front (types x) custom head /\ sql_kinds cfg' sql /\ slices_of cfg' sl /\
      map x_kind xs = head ++ sql ++ [Unbatched; SliceKeys sl (or_false mat)] /\
      (forall e, In e xs -> custom = Some e \/ x_kind e = Unbatched \/ x_config e = cfg') /\
      (forall e, In e xs -> In (x_kind e) [TransformedFeatures; TFLitePredictions; TFJSPredictions; Predictions] -> custom = Some e \/ x_models e = x).
Proof.
  intros x cfg slices mat custom xs H. unfold default_extractors in H.
  destruct (_ && _) eqn:S in H; [discriminate|]. apply bind_ok in H. destruct H as (cfg' & U & H). apply updated_inv in U.
  apply bind_ok in H. destruct H as (l & V & H). apply verified_types in V.
  destruct (slice_keys_spec cfg' (or_false mat)) as (sl & SK & SO).
  exists cfg'. cut (exists head, front (types x) custom head /\ exists pre, xs = pre ++ (if has_sql_slices cfg' then [Ext SqlSliceKeys cfg' Absent] else []) ++ [Ext Unbatched None Absent; slice_keys cfg' (or_false mat)] /\
     map x_kind pre = head /\ (forall e, In e pre -> custom = Some e \/ x_config e = cfg') /\
     (forall e, In e pre -> In (x_kind e) [TransformedFeatures; TFLitePredictions; TFJSPredictions; Predictions] -> custom = Some e \/ x_models e = x)).
  { intros (head & F & pre & -> & P & C & M). exists head, (if has_sql_slices cfg' then [SqlSliceKeys] else []), sl.
    split; [exact U|]. split; [exact F|]. split; [apply has_sql_iff|]. split; [exact SO|]. split; [|split].
    - rewrite !map_app, P. cbn [map x_kind]. rewrite SK. destruct (has_sql_slices cfg'); reflexivity.
    - intros e I. apply in_app_or in I. destruct I as [I|I]; [destruct (C e I); auto|]. right.
      apply in_app_or in I. destruct I as [I|I]; [right|].
      + destruct (has_sql_slices cfg'); [destruct I as [<-|[]]; reflexivity|destruct I].
      + destruct I as [<-|[<-|[]]]; [left|right]; reflexivity.
    - intros e I K. apply in_app_or in I. destruct I as [I|I]; [apply M; assumption|]. exfalso.
      apply in_app_or in I. destruct I as [I|I].
      + destruct (has_sql_slices cfg'); [destruct I as [<-|[]]; cbn in K; intuition discriminate|destruct I].
      + destruct I as [<-|[<-|[]]]; [cbn in K; intuition discriminate|]. rewrite SK in K. cbn in K. intuition discriminate. }
  assert (D : forall k, (forall e, In e [Ext Features cfg' Absent; Ext Labels cfg' Absent; Ext ExampleWeights cfg' Absent; Ext k cfg' Absent] -> custom = Some e \/ x_config e = cfg')).
  { intros k e [<-|[<-|[<-|[<-|[]]]]]; right; reflexivity. }
  destruct (given x) eqn:G.
  - apply given_iff in G. destruct l as [l|]; [|destruct (G V)]. destruct V as [N T].
    assert (TN : types x <> []) by (rewrite <- T; destruct l; [destruct (N eq_refl)|discriminate]).
    unfold model_types in H. destruct l as [|m0 l0] eqn:El; [destruct (N eq_refl)|]. rewrite <- El in *. clear El m0 l0.
    rewrite T in H. set (d := dedup String.eqb (types x)) in H.
    assert (I : forall t', memb String.eqb t' d = true <-> In t' (types x)) by (intros t'; rewrite (memb_In _ String.eqb_eq); unfold d; apply (dedup_In _ String.eqb_eq)).
    assert (O := fun t => only_iff t (types x) TN). fold d in O.
    destruct (_ && _) in H; [discriminate|].
    destruct (only MATERIALIZED_PREDICTION (Some d)) eqn:O1.
    { injection H as <-. eexists. split; [apply front_materialized; [exact TN|apply O, O1]|]. exists [Ext Features cfg' Absent; Ext Labels cfg' Absent; Ext ExampleWeights cfg' Absent; Ext MaterializedPredictions cfg' Absent]. split; [reflexivity|]. split; [reflexivity|].
      split; [apply D|]. intros e [<-|[<-|[<-|[<-|[]]]]] K; cbn in K; intuition discriminate. }
    destruct (only TF_LITE (Some d)) eqn:O2.
    { injection H as <-. eexists. split; [apply front_lite; [exact TN|apply O, O2]|]. exists [Ext Features cfg' Absent; Ext TransformedFeatures cfg' x; Ext Labels cfg' Absent; Ext ExampleWeights cfg' Absent; match custom with Some e => e | None => Ext TFLitePredictions cfg' x end]. split; [reflexivity|]. split; [destruct custom; reflexivity|].
      split.
      - intros e [<-|[<-|[<-|[<-|[E|[]]]]]]; try (right; reflexivity). destruct custom; [left; congruence|right; subst e; reflexivity].
      - intros e [<-|[<-|[<-|[<-|[E|[]]]]]] K; try (cbn in K; intuition discriminate); try (right; reflexivity).
        destruct custom; [left; congruence|right; subst e; reflexivity]. }
    destruct (memb String.eqb TF_LITE d) eqn:M2; [discriminate|].
    destruct (only TF_JS (Some d)) eqn:O3.
    { injection H as <-. eexists. split; [apply front_js; [exact TN|apply O, O3]|]. exists [Ext Features cfg' Absent; Ext Labels cfg' Absent; Ext ExampleWeights cfg' Absent; match custom with Some e => e | None => Ext TFJSPredictions cfg' x end]. split; [reflexivity|]. split; [destruct custom; reflexivity|].
      split.
      - intros e [<-|[<-|[<-|[E|[]]]]]; try (right; reflexivity). destruct custom; [left; congruence|right; subst e; reflexivity].
      - intros e [<-|[<-|[<-|[E|[]]]]] K; try (cbn in K; intuition discriminate).
        destruct custom; [left; congruence|right; subst e; reflexivity]. }
    destruct (memb String.eqb TF_JS d) eqn:M3; [discriminate|].
    assert (NL : ~ In "tf_lite" (types x)) by (rewrite <- (I TF_LITE); congruence).
    assert (NJ : ~ In "tf_js" (types x)) by (rewrite <- (I TF_JS); congruence).
    assert (X : exists t, In t (types x) /\ t <> "materialized_prediction").
    { destruct (existsb (fun t => negb (String.eqb t "materialized_prediction")) (types x)) eqn:E.
      - apply existsb_exists in E. destruct E as (t & J & E). exists t. split; [exact J|]. apply negb_true_iff, String.eqb_neq in E. exact E.
      - exfalso. apply Bool.not_true_iff_false in O1. apply O1, O. intros t J. destruct (String.eqb t MATERIALIZED_PREDICTION) eqn:F; [apply String.eqb_eq, F|].
        assert (existsb (fun t => negb (String.eqb t "materialized_prediction")) (types x) = true); [|congruence].
        apply existsb_exists. exists t. split; [exact J|]. unfold MATERIALIZED_PREDICTION in F. rewrite F. reflexivity. }
    destruct custom as [e0|]; injection H as <-.
    + eexists. split; [apply front_custom; assumption|]. exists [Ext Features cfg' Absent; Ext Labels cfg' Absent; Ext ExampleWeights cfg' Absent; e0]. split; [reflexivity|]. split; [reflexivity|]. split.
      * intros e [<-|[<-|[<-|[<-|[]]]]]; auto.
      * intros e [<-|[<-|[<-|[<-|[]]]]] K; auto; cbn in K; intuition discriminate.
    + eexists. split; [apply front_tf; assumption|]. exists [Ext Features cfg' Absent; Ext TransformedFeatures cfg' x; Ext Labels cfg' Absent; Ext ExampleWeights cfg' Absent; Ext Predictions cfg' x]. split; [reflexivity|]. split; [reflexivity|]. split.
      * intros e [<-|[<-|[<-|[<-|[<-|[]]]]]]; right; reflexivity.
      * intros e [<-|[<-|[<-|[<-|[<-|[]]]]]] K; try (right; reflexivity); cbn in K; intuition discriminate.
  - assert (E : members x = []). { destruct (members x) eqn:E; [reflexivity|]. assert (given x = true); [|congruence]. apply given_iff. congruence. }
    injection H as <-. exists [Features; Labels; ExampleWeights; MaterializedPredictions]. split; [unfold types; rewrite E; apply front_none|].
    exists [Ext Features cfg' Absent; Ext Labels cfg' Absent; Ext ExampleWeights cfg' Absent; Ext MaterializedPredictions cfg' Absent]. split; [reflexivity|]. split; [reflexivity|]. split; [apply D|]. intros e [<-|[<-|[<-|[<-|[]]]]] K; cbn in K; intuition discriminate.
Qed.

(** Refused are types TFMA does not know (unless there is an extractor of predictions), and models of
    TFLite or of TFJS together with others. *)

Definition unknown_type (x : models) : Prop :=
  exists t, In t (types x) /\ ~ In t ["tfma_eval"; "tf_generic"; "tf_estimator"; "tf_keras"; "tf_lite"; "tf_js"; "materialized_prediction"].

Definition mixed (x : models) : Prop :=
  exists t t', In t (types x) /\ In t' (types x) /\ t <> t' /\ (t = "tf_lite" \/ t = "tf_js").

Lemma C248_refused_pf :
  forall x cfg cfg' slices mat custom l, no_slices slices cfg -> updated cfg x cfg' -> verified x = Ok l ->
    (default_extractors x cfg slices mat custom = Err NotImplementedError <-> (unknown_type x /\ custom = None) \/ mixed x) /\
    (is_ok (default_extractors x cfg slices mat custom) = true <-> ~ ((unknown_type x /\ custom = None) \/ mixed x)).
Proof.
  intros x cfg cfg' slices mat custom l NS U V.
  cut (exists r, default_extractors x cfg slices mat custom = r /\
     ((r = Err NotImplementedError /\ ((unknown_type x /\ custom = None) \/ mixed x)) \/ (is_ok r = true /\ ~ ((unknown_type x /\ custom = None) \/ mixed x)))).
  { intros (r & -> & [[-> P]|[O P]]).
    - split; split; intros H; try reflexivity; try exact P; [discriminate|destruct (H P)].
    - split; split; intros H; try assumption; [subst r; discriminate|destruct (P H)]. }
  eexists. split; [reflexivity|]. unfold default_extractors. apply no_slices_ok in NS. rewrite NS, (updated_ok _ _ _ U). cbn [bind]. rewrite V. cbn [bind].
  apply verified_types in V. destruct (given x) eqn:G.
  - apply given_iff in G. destruct l as [l|]; [|destruct (G V)]. destruct V as [N T].
    assert (TN : types x <> []) by (rewrite <- T; destruct l; [destruct (N eq_refl)|discriminate]).
    unfold model_types. destruct l as [|m0 l0] eqn:El; [destruct (N eq_refl)|]. rewrite <- El in *. clear El m0 l0.
    rewrite T. set (d := dedup String.eqb (types x)).
    assert (I0 : forall t', In t' d <-> In t' (types x)) by (intros t'; unfold d; apply (dedup_In _ String.eqb_eq)).
    assert (I : forall t', memb String.eqb t' d = true <-> In t' (types x)) by (intros t'; rewrite (memb_In _ String.eqb_eq); apply I0).
    assert (O := fun t => only_iff t (types x) TN). fold d in O.
    assert (UT : forallb (fun t => memb String.eqb t VALID_TF_MODEL_TYPES) d = false <-> unknown_type x).
    { unfold unknown_type. split.
      - intros H. destruct (existsb (fun t => negb (memb String.eqb t VALID_TF_MODEL_TYPES)) d) eqn:E.
        + apply existsb_exists in E. destruct E as (t & J & E). exists t. split; [apply I0, J|]. apply negb_true_iff in E. intros K.
          apply (memb_In _ String.eqb_eq) in K. unfold VALID_TF_MODEL_TYPES, TFMA_EVAL, TF_GENERIC, TF_ESTIMATOR, TF_KERAS, TF_LITE, TF_JS, MATERIALIZED_PREDICTION in E. congruence.
        + exfalso. assert (forallb (fun t => memb String.eqb t VALID_TF_MODEL_TYPES) d = true); [|congruence]. apply forallb_forall. intros t J.
          destruct (memb String.eqb t VALID_TF_MODEL_TYPES) eqn:F; [reflexivity|]. assert (existsb (fun t => negb (memb String.eqb t VALID_TF_MODEL_TYPES)) d = true); [|congruence].
          apply existsb_exists. exists t. split; [exact J|]. rewrite F. reflexivity.
      - intros (t & J & K). apply Bool.not_true_iff_false. intros H. rewrite forallb_forall in H. apply K. apply I0 in J. apply (memb_In _ String.eqb_eq), (H t J). }
    destruct (negb (forallb (fun t => memb String.eqb t VALID_TF_MODEL_TYPES) d) && _) eqn:B.
    { left. split; [reflexivity|]. left. apply andb_true_iff in B. destruct B as [B1 B2]. apply negb_true_iff in B1. split; [apply UT, B1|]. destruct custom; [discriminate|reflexivity]. }
    assert (NU : ~ (unknown_type x /\ custom = None)). { intros [A ->]. apply UT in A. rewrite A in B. discriminate. }
    assert (NM : forall t, (forall t', In t' (types x) -> t' = t) -> ~ mixed x).
    { intros t H (a & b & A & A' & AB & _). apply AB. rewrite (H a A), (H b A'). reflexivity. }
    destruct (only MATERIALIZED_PREDICTION (Some d)) eqn:O1.
    { right. split; [reflexivity|]. assert (P := proj1 (O _) O1). intros [H|H]; [exact (NU H)|exact (NM _ P H)]. }
    destruct (only TF_LITE (Some d)) eqn:O2.
    { right. split; [reflexivity|]. assert (P := proj1 (O _) O2). intros [H|H]; [exact (NU H)|exact (NM _ P H)]. }
    assert (X : forall t, only t (Some d) = false -> exists t', In t' (types x) /\ t <> t').
    { intros t H. destruct (existsb (fun t' => negb (String.eqb t' t)) (types x)) eqn:E.
      - apply existsb_exists in E. destruct E as (t' & J & E). exists t'. split; [exact J|]. apply negb_true_iff, String.eqb_neq in E. congruence.
      - exfalso. apply Bool.not_true_iff_false in H. apply H, O. intros t' J. destruct (String.eqb t' t) eqn:F; [apply String.eqb_eq, F|].
        assert (existsb (fun t' => negb (String.eqb t' t)) (types x) = true); [|congruence]. apply existsb_exists. exists t'. split; [exact J|]. rewrite F. reflexivity. }
    destruct (memb String.eqb TF_LITE d) eqn:M2.
    { left. split; [reflexivity|]. right. apply I in M2. destruct (X _ O2) as (t' & J & K). exists TF_LITE, t'. split; [exact M2|]. split; [exact J|]. split; [exact K|left; reflexivity]. }
    destruct (only TF_JS (Some d)) eqn:O3.
    { right. split; [reflexivity|]. assert (P := proj1 (O _) O3). intros [H|H]; [exact (NU H)|exact (NM _ P H)]. }
    destruct (memb String.eqb TF_JS d) eqn:M3.
    { left. split; [reflexivity|]. right. apply I in M3. destruct (X _ O3) as (t' & J & K). exists TF_JS, t'. split; [exact M3|]. split; [exact J|]. split; [exact K|right; reflexivity]. }
    right. split; [reflexivity|]. intros [H|(a & b & A & _ & _ & [->| ->])]; [exact (NU H)| |].
    + apply I in A. unfold TF_LITE in M2. congruence.
    + apply I in A. unfold TF_JS in M3. congruence.
  - assert (E : types x = []). { unfold types. destruct (members x) eqn:E; [reflexivity|]. assert (given x = true); [|congruence]. apply given_iff. congruence. }
    right. split; [reflexivity|]. unfold unknown_type, mixed. rewrite E. intros [[(t & [] & _) _]|(a & b & [] & _)].
Qed.

Lemma C248_slices_refuted_pf :
  exists s xs, default_extractors Absent None (Some [s]) None None = Ok xs /\ s <> Slicing [] [] "" /\
    forall e l b, In e xs -> x_kind e = SliceKeys l b -> ~ In s l.
Proof.
  exists (Slicing ["country"] [] ""). eexists. split; [reflexivity|]. split; [discriminate|].
  intros e l b [<-|[<-|[<-|[<-|[<-|[<-|[]]]]]]] H; try discriminate. injection H as <- <-. intros [H|[]]. discriminate.
Qed.

Lemma C248_custom_refuted_pf :
  exists m e xs, es_type m = "materialized_prediction" /\ default_extractors (Single m) None None None (Some e) = Ok xs /\ ~ In e xs.
Proof.
  exists (Model "" "materialized_prediction" None None None NoWeight None false false), (Ext (Own "Mine") None Absent). eexists. split; [reflexivity|]. split; [reflexivity|].
  intros [H|[H|[H|[H|[H|[H|[]]]]]]]; discriminate.
Qed.

Definition all_disabled (cfg : option config) : Prop :=
  exists c, cfg = Some c /\ forall k, In k ["metrics"; "plots"; "attributions"] -> In k (c_disabled c).

Lemma with_defaults_options c x c' : with_defaults c x = Ok c' ->
  c_disabled c' = c_disabled c /\ c_slices c' = c_slices c /\ c_default_metrics c' = c_default_metrics c /\ c_min_slice c' = c_min_slice c.
Proof. unfold with_defaults. intros H. apply bind_ok in H. destruct H as (e & _ & H). injection H as <-. repeat split; reflexivity. Qed.

Lemma C249_evaluators_pf :
  forall x cfg cfg' l, verified x = Ok l -> updated cfg x cfg' ->
    (all_disabled cfg -> default_evaluators x cfg = Ok []) /\
    (~ all_disabled cfg -> exists v, default_evaluators x cfg = Ok [v] /\ v_after v = Some "ExtractSliceKeys" /\ v_config v = cfg' /\ v_models v = x /\
       forall k, In k (v_outputs v) <-> In k ["metrics"; "plots"; "attributions"; "validations"]).
Proof.
  intros x cfg cfg' l V U. unfold default_evaluators. rewrite V. cbn [bind]. rewrite (updated_ok _ _ _ U). cbn [bind].
  set (d := match cfg' with Some c => c_disabled c | None => [] end).
  assert (D : all_disabled cfg <-> memb String.eqb METRICS_KEY d && memb String.eqb PLOTS_KEY d && memb String.eqb ATTRIBUTIONS_KEY d = true).
  { unfold all_disabled, d. destruct cfg as [c|]; cbn [updated] in U.
    - destruct U as (c' & E & ->). apply with_defaults_options in E. destruct E as (E & _). rewrite E.
      rewrite !andb_true_iff, !(memb_In _ String.eqb_eq). split.
      + intros (c0 & H & I). injection H as <-. repeat split; apply I; cbn; auto.
      + intros [[A B] C]. exists c. split; [reflexivity|]. intros k [<-|[<-|[<-|[]]]]; assumption.
    - subst cfg'. split; [intros (c & H & _); discriminate|discriminate]. }
  split; intros H.
  - apply D in H. rewrite H. reflexivity.
  - rewrite D in H. apply Bool.not_true_iff_false in H. rewrite H. eexists. split; [reflexivity|]. repeat split; auto.
Qed.

Lemma C249_default_metrics_refuted_pf :
  exists m c v, es_type m = "tf_lite" /\ es_default_metrics m = Some true /\ default_evaluators (Single m) (Some c) = Ok [v] /\
    exists m', v_models v = Single m' /\ es_default_metrics m' = Some true.
Proof.
  exists (Model "" "tf_lite" None None (Some true) NoWeight None false false), (Config (EvalConfig [] [] false UnknownMethod "") [] [] None None).
  eexists. split; [reflexivity|]. split; [reflexivity|]. split; [reflexivity|]. eexists. split; reflexivity.
Qed.

(** The models by name: the name of an only model is "" *)

Definition entry (x : models) (k : string) (m : model) : Prop :=
  match x with
  | Absent => False
  | Single m' => k = "" /\ m = m'
  | Listed [m'] => k = "" /\ m = m'
  | Listed l => In m l /\ k = es_name m
  | Keyed [(_, m')] => k = "" /\ m = m'
  | Keyed l => exists k', In (k', m) l /\ ((es_name m <> "" /\ k = es_name m) \/ (es_name m = "" /\ k = k'))
  end.

Definition place (m : model) : string := match es_path m with Some p => p | None => "<unknown>" end.

Lemma keyed_entries l r : mapM keyed_model l = Ok r ->
  (forall m', In m' r -> exists k' m, In (k', m) l /\ es_path m' = es_path m /\ ((es_name m <> "" /\ es_name m' = es_name m) \/ (es_name m = "" /\ es_name m' = k'))) /\
  (forall k' m, In (k', m) l -> exists m', In m' r /\ es_path m' = es_path m /\ ((es_name m <> "" /\ es_name m' = es_name m) \/ (es_name m = "" /\ es_name m' = k'))).
Proof.
  assert (K : forall k v v', keyed_model (k, v) = Ok v' -> es_path v' = es_path v /\ ((es_name v <> "" /\ es_name v' = es_name v) \/ (es_name v = "" /\ es_name v' = k))).
  { intros k v v' H. unfold keyed_model in H. destruct (_ && _ && _); [discriminate|]. injection H as <-.
    destruct (set_str (es_name v)) eqn:S; cbn [negb andb].
    - apply set_str_iff in S. auto.
    - apply set_str_not in S. destruct (set_str k) eqn:T; [split; [reflexivity|right; auto]|]. apply set_str_not in T. split; [reflexivity|right]. rewrite S, T. auto. }
  revert r. induction l as [|[k v] l IH]; intros r H; cbn [mapM] in H.
  - injection H as <-. split; [intros m' []|intros k' m []].
  - apply bind_ok in H. destruct H as (v' & E & H). apply bind_ok in H. destruct H as (r' & E' & H). injection H as <-. destruct (IH r' E') as [A B].
    destruct (K k v v' E) as [P Q]. split.
    + intros m' [<-|I]; [exists k, v; split; [left; reflexivity|auto]|]. destruct (A m' I) as (k' & m & I' & R). exists k', m. split; [right; exact I'|exact R].
    + intros k' m [H|I]; [injection H as <- <-; exists v'; split; [left; reflexivity|auto]|]. destruct (B k' m I) as (m' & I' & R). exists m'. split; [right; exact I'|exact R].
Qed.

Lemma verified_entries x l : verified x = Ok (Some l) -> forall k p, (exists m', In m' l /\ es_name m' = k /\ place m' = p) <-> exists m, entry x k m /\ place m = p.
Proof.
  intros H k p. destruct x as [|m|[|m [|m2 l']]|[|[k1 m1] [|[k2 m2] l']]]; try discriminate.
  - injection H as <-. split; [intros (m' & [<-|[]] & <- & <-); exists m; repeat split|intros (m' & [-> ->] & <-); exists (named m ""); split; [left; reflexivity|split; reflexivity]].
  - injection H as <-. split; [intros (m' & [<-|[]] & <- & <-); exists m; repeat split|intros (m' & [-> ->] & <-); exists (named m ""); split; [left; reflexivity|split; reflexivity]].
  - cbn [verified as_list bind] in H. destruct (forallb _ _); [|discriminate]. injection H as <-. cbn [entry].
    split; [intros (m' & I & <- & <-); exists m'; auto|intros (m' & [I ->] & <-); exists m'; auto].
  - cbn [verified as_list] in H. apply bind_ok in H. destruct H as (r & E & H). cbn [mapM] in E. apply bind_ok in E. destruct E as (v' & E & E'). cbn [bind] in E'. injection E' as <-. injection H as <-.
    assert (P : es_path v' = es_path m1). { unfold keyed_model in E. destruct (_ && _ && _); [discriminate|]. injection E as <-. destruct (_ && _); reflexivity. }
    cbn [entry]. split.
    + intros (m' & [<-|[]] & <- & <-). exists m1. split; [auto|]. unfold place. cbn [named es_path]. rewrite P. reflexivity.
    + intros (m' & [-> ->] & <-). exists (named v' ""). split; [left; reflexivity|]. split; [reflexivity|]. unfold place. cbn [named es_path]. rewrite P. reflexivity.
  - cbn [verified as_list] in H. apply bind_ok in H. destruct H as (r & E & H). destruct (keyed_entries _ _ E) as [A B].
    assert (L : l = r).
    { destruct r as [|a [|b r]]; [| |].
      - destruct (B k1 m1 (or_introl eq_refl)) as (m' & [] & _).
      - exfalso. cbn [mapM] in E. apply bind_ok in E. destruct E as (? & _ & E). apply bind_ok in E. destruct E as (r & E & E'). apply bind_ok in E. destruct E as (? & _ & E). apply bind_ok in E. destruct E as (r' & _ & E).
        injection E as <-. injection E' as _ E'. discriminate.
      - destruct (forallb _ _); [injection H as <-; reflexivity|discriminate]. }
    subst r. cbn [entry]. split.
    + intros (m' & I & <- & <-). destruct (A m' I) as (k' & m & I' & P & Q). exists m. split; [exists k'; auto|unfold place; rewrite P; reflexivity].
    + intros (m & (k' & I & Q) & <-). destruct (B k' m I) as (m' & I' & P & R). exists m'. split; [exact I'|]. split; [|unfold place; rewrite P; reflexivity].
      destruct Q as [[N ->]|[N ->]], R as [[N' ->]|[N' ->]]; try reflexivity; contradiction.
Qed.

Lemma dset_fold_in {A} (name : A -> string) (val : A -> string) l : forall d k p,
  (forall a b, In a l -> In b l -> name a = name b -> val a = val b) -> (forall a k' p', In a l -> In (k', p') d -> name a = k' -> val a = p') -> NoDup (map fst d) ->
  (In (k, p) (fold_left (fun d a => dset String.eqb d (name a) (val a)) l d) <-> In (k, p) d \/ exists a, In a l /\ name a = k /\ val a = p) /\
  NoDup (map fst (fold_left (fun d a => dset String.eqb d (name a) (val a)) l d)).
Proof.
  induction l as [|a l IH]; intros d k p S D N; cbn [fold_left].
  - split; [|exact N]. split; [auto|intros [H|(a & [] & _)]; exact H].
  - assert (N' : NoDup (map fst (dset String.eqb d (name a) (val a)))) by (apply (dset_NoDup _ String.eqb_eq), N).
    assert (M : forall k' p', In (k', p') (dset String.eqb d (name a) (val a)) <-> In (k', p') d \/ (name a = k' /\ val a = p')).
    { intros k' p'. assert (G : forall d', NoDup (map fst d') -> (In (k', p') d' <-> dget String.eqb d' k' = Some p')).
      { intros d' Nd. split; [intros I; apply (dget_In_NoDup _ String.eqb_eq); assumption|apply (dget_In _ String.eqb_eq)]. }
      rewrite (G _ N'), (G _ N). destruct (String.eqb (name a) k') eqn:E.
      - apply String.eqb_eq in E. subst k'. rewrite (dget_dset_eq _ String.eqb_eq). split; [intros H; injection H as ->; auto|].
        intros [H|[_ ->]]; [|reflexivity]. apply (dget_In _ String.eqb_eq) in H. f_equal. apply (D a (name a) p' (or_introl eq_refl) H eq_refl).
      - apply String.eqb_neq in E. rewrite (dget_dset_neq _ String.eqb_eq) by congruence. split; [auto|intros [H|[H _]]; [exact H|destruct (E H)]]. }
    destruct (IH (dset String.eqb d (name a) (val a)) k p) as [IA IB].
    + intros b c I J. apply S; right; assumption.
    + intros b k' p' I J Hb. apply M in J. destruct J as [J|[<- <-]]; [apply (D b k' p' (or_intror I) J Hb)|]. apply S; [right; exact I|left; reflexivity|exact Hb].
    + exact N'.
    + split; [|exact IB]. rewrite IA, M. split.
      * intros [[H|H]|(b & I & H)]; [left; exact H|right; exists a; split; [left; reflexivity|exact H]|right; exists b; split; [right; exact I|exact H]].
      * intros [H|(b & [<-|I] & H)]; [left; left; exact H|left; right; exact H|right; exists b; auto].
Qed.

(** A path that is joined with a slash *)

Definition plain_path (p : string) : Prop := p <> "" /\ forall q, p <> (q ++ "/")%string.

Lemma ends_with_slash_iff p : ends_with_slash p = true -> exists q, p = (q ++ "/")%string.
Proof.
  induction p as [|c p IH]; [discriminate|]. destruct p as [|c' p].
  - cbn. intros H. apply Ascii.eqb_eq in H. subst c. exists "". reflexivity.
  - intros H. change (ends_with_slash (String c' p) = true) in H. destruct (IH H) as (q & ->). exists (String c q). reflexivity.
Qed.

Lemma join_plain p k : plain_path p -> join_path p k = (p ++ "/" ++ k)%string.
Proof.
  intros [N S]. unfold join_path. destruct (String.eqb p "") eqn:E; [apply String.eqb_eq in E; destruct (N E)|]. cbn [orb].
  destruct (ends_with_slash p) eqn:F; [|reflexivity]. destruct (ends_with_slash_iff p F) as (q & ->). destruct (S q eq_refl).
Qed.

Definition one_place (x : models) : Prop := forall k m m', entry x k m -> entry x k m' -> place m = place m'.

Lemma C250_writers_pf :
  forall path x cfg data format out callbacks l stamp, verified x = Ok l -> stamped l = Ok stamp -> plain_path path -> one_place x ->
    exists locations paths cbs,
      default_writers (Some path) x cfg data format out callbacks =
        Ok (match cfg with
            | Some c => [ConfigWriter path c (match data with Some d => d | None => "<user provided PCollection>" end) (match format with Some f => f | None => "<unknown>" end) locations]
            | None => [] end ++ [ResultsWriter paths (match cfg with Some c => c | None => Config (EvalConfig [] [] false UnknownMethod "") [] [] None None end) cbs out stamp]) /\
      NoDup (map fst locations) /\
      (forall k p, In (k, p) locations <-> (exists m, entry x k m /\ place m = p) \/ (members x = [] /\ k = "" /\ p = "<unknown>")) /\
      (forall k p, In (k, p) paths <-> In k ["metrics"; "plots"; "attributions"; "validations"] /\ p = (path ++ "/" ++ k)%string) /\
      (forall m, x = Single m -> cbs = es_callbacks m) /\
      ((forall m, x <> Single m) -> cbs = Some (match callbacks with Some l => l | None => [] end)).
Proof.
  intros path x cfg data format out callbacks l stamp V S P O. unfold default_writers. rewrite V. cbn [bind]. rewrite S. cbn [bind].
  eexists _, _, _. split; [destruct cfg; reflexivity|].
  assert (G : NoDup (map fst (match l with None => [("", "<unknown>")] | Some l => fold_left (fun d m => dset String.eqb d (es_name m) (place m)) l [] end)) /\
     forall k p, In (k, p) (match l with None => [("", "<unknown>")] | Some l => fold_left (fun d m => dset String.eqb d (es_name m) (place m)) l [] end) <->
       (exists m, entry x k m /\ place m = p) \/ (members x = [] /\ k = "" /\ p = "<unknown>")).
  { assert (VT := verified_types x l V). destruct l as [l|].
    - assert (E := verified_entries x l V). destruct VT as [N T].
      assert (M : members x <> []) by (intros M; unfold types in T; rewrite M in T; destruct l; [destruct (N eq_refl)|discriminate]).
      assert (C : forall a b, In a l -> In b l -> es_name a = es_name b -> place a = place b).
      { intros a b I J H. destruct (proj1 (E (es_name a) (place a)) (ex_intro _ a (conj I (conj eq_refl eq_refl)))) as (m & A1 & A2).
        destruct (proj1 (E (es_name a) (place b)) (ex_intro _ b (conj J (conj (eq_sym H) eq_refl)))) as (m' & B1 & B2). rewrite <- A2, <- B2. apply (O (es_name a)); assumption. }
      split.
      + apply (dset_fold_in es_name place l [] "" "" C); [intros a k p _ []|constructor].
      + intros k p. rewrite (proj1 (dset_fold_in es_name place l [] k p C (fun a k p _ (F : False) => match F with end) (NoDup_nil _))).
        split; [intros [[]|H]; left; apply E, H|intros [H|[H _]]; [right; apply E, H|destruct (M H)]].
    - split; [constructor; [intros []|constructor]|]. intros k p. split.
      + intros [H|[]]. injection H as <- <-. right. auto.
      + intros [(m & H & _)|(_ & -> & ->)]; [|left; reflexivity]. exfalso. destruct x as [|m'|[|m' l']|[|kv l']]; try discriminate; [exact H|destruct H as [[] _]|destruct H as (? & [] & _)]. }
  split; [exact (proj1 G)|]. split; [exact (proj2 G)|]. split; [|split].
  - intros k p. split.
    + intros I. apply in_map_iff in I. destruct I as (k' & H & I). injection H as <- <-. split; [exact I|apply join_plain, P].
    + intros [I ->]. apply in_map_iff. exists k. split; [rewrite (join_plain path k P); reflexivity|exact I].
  - intros m ->. reflexivity.
  - intros N. destruct x as [|m|l'|l']; [| destruct (N m eq_refl) | |]; destruct callbacks; reflexivity.
Qed.

Lemma C250_no_path_pf :
  forall x cfg data format out callbacks l, verified x = Ok l -> default_writers None x cfg data format out callbacks = Err TypeError.
Proof. intros x cfg data format out callbacks l V. unfold default_writers. rewrite V. reflexivity. Qed.

Lemma C250_callbacks_refuted_pf :
  exists m ws, default_writers (Some "/out") (Single m) None None None "tfrecord" (Some ["mine"]) = Ok ws /\
    forall w paths c cbs out stamp, In w ws -> w = ResultsWriter paths c cbs out stamp -> cbs = None.
Proof.
  exists (Model "" "tf_keras" None None None NoWeight None false false). eexists. split; [reflexivity|].
  intros w paths c cbs out stamp [<-|[]] H. injection H as _ _ <- _ _. reflexivity.
Qed.

Lemma is_ok_ex {A} (r : res A) : is_ok r = true -> exists a, r = Ok a.
Proof. destruct r as [a|e]; [eauto|discriminate]. Qed.

Lemma mapM_forall {A B} (f : A -> res B) l r : mapM f l = Ok r -> forall a, In a l -> exists b, f a = Ok b.
Proof.
  revert r. induction l as [|x l IH]; intros r H a; [intros []|]. cbn [mapM] in H. apply bind_ok in H. destruct H as (b & E & H). apply bind_ok in H. destruct H as (r' & E' & H).
  intros [<-|I]; [eauto|apply (IH r' E' a I)].
Qed.

Lemma mapM_first_err {A B} (f : A -> res B) l : (forall a, In a l -> (exists b, f a = Ok b) \/ f a = Err ValueError) -> (exists a, In a l /\ f a = Err ValueError) -> mapM f l = Err ValueError.
Proof.
  intros H (a & I & E). induction l as [|x l IH]; [destruct I|]. cbn [mapM]. destruct (H x (or_introl eq_refl)) as [(b & F)|F]; rewrite F; [|reflexivity]. cbn [bind].
  destruct I as [->|I]; [congruence|]. rewrite IH; [reflexivity|intros y J; apply H; right; exact J|exact I].
Qed.

(** An evaluator has its place: before all extractors, after the last one, or after one that is there *)

Definition has_place (v : evl) (xs : list ext) : Prop :=
  v_after v = None \/ v_after v = Some "" \/ v_after v = Some "<last-extractor>" \/ exists e, In e xs /\ v_after v = Some (stage (x_kind e)).

Lemma verify_evaluator_iff v xs : (verify_evaluator v xs = Ok tt <-> has_place v xs) /\ (verify_evaluator v xs = Err ValueError <-> ~ has_place v xs).
Proof.
  unfold verify_evaluator, Results_Model.verify_evaluator, has_place. cbn [Results_Model.v_after]. destruct (v_after v) as [a|].
  2: { split; split; intros H; try reflexivity; auto; [discriminate|]. exfalso. apply H. auto. }
  assert (E : existsb (fun x : Results_Model.extractor unit => String.eqb a (Results_Model.x_stage x)) (map (fun x => Results_Model.Extractor (stage (x_kind x)) (fun e : unit => e)) xs) = true <-> exists e, In e xs /\ Some a = Some (stage (x_kind e))).
  { rewrite existsb_exists. split.
    - intros (y & I & F). apply in_map_iff in I. destruct I as (e & <- & I). cbn in F. apply String.eqb_eq in F. exists e. split; [exact I|congruence].
    - intros (e & I & F). injection F as F. exists (Results_Model.Extractor (stage (x_kind e)) (fun e : unit => e)). split; [apply in_map_iff; eauto|]. cbn. apply String.eqb_eq, F. }
  cut ((if negb (String.eqb a "") && negb (String.eqb a Results_Model.LAST_EXTRACTOR_STAGE_NAME) && negb (existsb (fun x : Results_Model.extractor unit => String.eqb a (Results_Model.x_stage x)) (map (fun x => Results_Model.Extractor (stage (x_kind x)) (fun e : unit => e)) xs)) then Err ValueError else Ok tt) = Ok tt /\ (Some a = None \/ Some a = Some "" \/ Some a = Some "<last-extractor>" \/ exists e, In e xs /\ Some a = Some (stage (x_kind e))) \/
       (if negb (String.eqb a "") && negb (String.eqb a Results_Model.LAST_EXTRACTOR_STAGE_NAME) && negb (existsb (fun x : Results_Model.extractor unit => String.eqb a (Results_Model.x_stage x)) (map (fun x => Results_Model.Extractor (stage (x_kind x)) (fun e : unit => e)) xs)) then Err ValueError else Ok tt) = Err ValueError /\ ~ (Some a = None \/ Some a = Some "" \/ Some a = Some "<last-extractor>" \/ exists e, In e xs /\ Some a = Some (stage (x_kind e)))).
  { intros [[-> P]|[-> P]]; split; split; intros H; try reflexivity; try assumption; try discriminate; contradiction. }
  destruct (String.eqb a "") eqn:E1; cbn [negb andb]; [apply String.eqb_eq in E1; subst a; left; auto|].
  destruct (String.eqb a Results_Model.LAST_EXTRACTOR_STAGE_NAME) eqn:E2; cbn [negb andb]; [apply String.eqb_eq in E2; subst a; left; auto 6|].
  apply String.eqb_neq in E1. apply String.eqb_neq in E2.
  destruct (existsb _ _) eqn:E3; cbn [negb].
  - left. split; [reflexivity|]. right. right. right. apply E. reflexivity.
  - right. split; [reflexivity|]. intros [H|[H|[H|H]]]; [discriminate|congruence|injection H as H; exact (E2 H)|]. apply E in H. discriminate.
Qed.

Lemma C251_plan_pf :
  forall a p, extract_evaluate_and_write a = Ok p ->
    (a_extractors a <> [] -> p_extractors p = a_extractors a) /\
    (a_extractors a = [] -> default_extractors (a_models a) (Some (p_config p)) None None None = Ok (p_extractors p)) /\
    (a_evaluators a <> [] -> p_evaluators p = a_evaluators a) /\
    (a_evaluators a = [] -> default_evaluators (a_models a) (Some (p_config p)) = Ok (p_evaluators p)) /\
    (a_writers a <> [] -> p_writers p = a_writers a) /\
    (a_writers a = [] -> default_writers (a_path a) (a_models a) (Some (p_config p)) (a_data a) (a_format a) "tfrecord" None = Ok (p_writers p)) /\
    (forall v, In v (p_evaluators p) -> has_place v (p_extractors p)) /\ (exists v k, In v (p_evaluators p) /\ In k (v_outputs v)) /\
    verify_eval_config (c_eval (p_config p)) false = Ok tt /\
    (forall c, a_config a = Some c -> with_defaults c (a_models a) = Ok (p_config p)).
Proof.
  intros a p H. unfold extract_evaluate_and_write in H. apply bind_ok in H. destruct H as ([c version] & C & H).
  apply bind_ok in H. destruct H as ([] & VC & H). apply bind_ok in H. destruct H as (xs & X & H). apply bind_ok in H. destruct H as (vs & VS & H).
  apply bind_ok in H. destruct H as (u & M & H). apply bind_ok in H. destruct H as (ws & WS & H). apply bind_ok in H. destruct H as (b & B & H).
  destruct (concat (map v_outputs vs)) as [|k0 ks] eqn:O; [discriminate|]. injection H as <-. cbn [p_extractors p_config p_evaluators p_writers].
  split; [destruct (a_extractors a); [congruence|injection X as <-; reflexivity]|].
  split; [intros E; rewrite E in X; exact X|].
  split; [destruct (a_evaluators a); [congruence|injection VS as <-; reflexivity]|].
  split; [intros E; rewrite E in VS; exact VS|].
  split; [destruct (a_writers a); [congruence|injection WS as <-; reflexivity]|].
  split; [intros E; rewrite E in WS; exact WS|].
  split; [|split; [|split; [exact VC|]]].
  - intros v I. apply verify_evaluator_iff. destruct (mapM_forall _ _ _ M v I) as ([] & E). exact E.
  - assert (I : In k0 (concat (map v_outputs vs))) by (rewrite O; left; reflexivity). apply in_concat in I. destruct I as (l & I & J). apply in_map_iff in I. destruct I as (v & <- & I). eauto.
  - intros c0 E. unfold config_of in C. apply bind_ok in C. destruct C as (l & _ & C). rewrite E in C. apply bind_ok in C. destruct C as (c' & C & D). injection D as -> _. exact C.
Qed.

(** What the config asks of the models *)

Lemma as_list_plain x : model_list (plain_models x) = match as_list x with Ok l => Ok (map plain l) | Err e => Err e end.
Proof.
  destruct x as [|m|l|l]; try reflexivity. cbn [plain_models model_list as_list]. induction l as [|[k v] l IH]; [reflexivity|]. cbn [map mapM fst snd]. rewrite IH.
  assert (K : keyed_model (k, v) = if set_str (es_name v) && set_str k && negb (String.eqb k (es_name v)) then Err ValueError
    else Ok (if negb (set_str (es_name v)) && set_str k then named v k else v)) by reflexivity.
  cbn [plain sm_name]. rewrite K. destruct (set_str (es_name v) && set_str k && negb (String.eqb k (es_name v))); [reflexivity|]. cbn [bind].
  destruct (mapM keyed_model l) as [r|e]; cbn [bind map]; [|reflexivity]. destruct (negb (set_str (es_name v)) && set_str k); reflexivity.
Qed.

Lemma verified_plain x : verify_and_update_eval_shared_models (plain_models x) = match verified x with Ok l => Ok (option_map (map plain) l) | Err e => Err e end.
Proof.
  assert (G : forall l, match map plain l with [m] => Ok (Some [with_name m ""]) | _ => if forallb (fun m => set_str (sm_name m)) (map plain l) then Ok (Some (map plain l)) else Err ValueError end =
     match match l with [m] => Ok (Some [named m ""]) | _ => if forallb (fun m => set_str (es_name m)) l then Ok (Some l) else Err ValueError end with Ok l => Ok (option_map (map plain) l) | Err e => Err e end).
  { intros l. assert (F : forallb (fun m => set_str (sm_name m)) (map plain l) = forallb (fun m => set_str (es_name m)) l).
    { induction l as [|m l IH]; [reflexivity|]. cbn [map forallb]. rewrite IH. reflexivity. }
    rewrite F. clear F. destruct l as [|m [|m' l]]; [reflexivity|reflexivity|]. cbn [map]. destruct (forallb _ _); reflexivity. }
  assert (L := as_list_plain x). destruct x as [|m|[|m l]|[|[k v] l]]; try reflexivity.
  - cbn [plain_models] in *. unfold verify_and_update_eval_shared_models, verified. cbn [map model_list as_list bind]. apply (G (m :: l)).
  - unfold verify_and_update_eval_shared_models, verified. change (plain_models (Keyed ((k, v) :: l))) with (ModelDict ((k, plain v) :: map (fun kv => (fst kv, plain (snd kv))) l)) in *.
    rewrite L. destruct (as_list (Keyed ((k, v) :: l))) as [r|e]; cbn [bind]; [apply G|reflexivity].
Qed.

Lemma with_defaults_models c x c' : with_defaults c x = Ok c' -> exists l stamp, verified x = Ok l /\ stamped l = Ok stamp.
Proof.
  unfold with_defaults, update_for_models. intros H. apply bind_ok in H. destruct H as (e & H & _). rewrite verified_plain in H.
  destruct (verified x) as [l|] eqn:V; [|discriminate]. cbn [bind] in H. apply bind_ok in H. destruct H as (s & S & _). exists l, s. split; [reflexivity|exact S].
Qed.

Lemma C251_accepted_pf :
  forall x c c1 c2 path data format, with_defaults c x = Ok c1 -> with_defaults c1 x = Ok c2 -> verify_eval_config (c_eval c1) false = Ok tt ->
    ~ unknown_type x -> ~ mixed x -> ~ all_disabled (Some c) ->
    exists p, extract_evaluate_and_write (Args x (Some c) [] [] [] (Some path) data format None true false 1 None) = Ok p /\ p_batched p = true.
Proof.
  intros x c c1 c2 path data format D1 D2 VC NU NM ND. destruct (with_defaults_models _ _ _ D1) as (l & stamp & V & S).
  unfold extract_evaluate_and_write, config_of. cbn [a_models a_config a_slices a_write_config a_ci a_min_slice a_version a_extractors a_evaluators a_writers a_path a_data a_format].
  rewrite V. cbn [bind]. rewrite D1. cbn [bind]. rewrite VC. cbn [bind].
  assert (U : updated (Some c1) x (Some c2)) by (exists c2; auto).
  destruct (is_ok_ex _ (proj2 (proj2 (C248_refused_pf x (Some c1) (Some c2) None None None l (or_introl eq_refl) U V)) (fun H => match H with or_introl H => NU (proj1 H) | or_intror H => NM H end))) as (xs & X).
  rewrite X. cbn [bind].
  destruct (C249_evaluators_pf x (Some c1) (Some c2) l V U) as [_ E]. destruct E as (v & E & A & _ & _ & O).
  { intros (c0 & H & I). injection H as <-. apply ND. exists c. split; [reflexivity|]. destruct (with_defaults_options _ _ _ D1) as (W & _). rewrite <- W. exact I. }
  rewrite E. cbn [bind mapM].
  assert (P : has_place v xs).
  { right. right. right. destruct (C248_extractors_pf _ _ _ _ _ _ X) as (cfg' & head & sql & sl & _ & _ & _ & _ & K & _).
    assert (I : In (SliceKeys sl (or_false None)) (map x_kind xs)) by (rewrite K; apply in_or_app; right; apply in_or_app; right; right; left; reflexivity).
    apply in_map_iff in I. destruct I as (e & F & I). exists e. split; [exact I|]. rewrite F, A. reflexivity. }
  rewrite (proj2 (proj1 (verify_evaluator_iff v xs)) P). cbn [bind].
  assert (W : exists ws, default_writers (Some path) x (Some c1) data format "tfrecord" None = Ok ws). { unfold default_writers. rewrite V. cbn [bind]. rewrite S. cbn [bind]. eauto. }
  destruct W as (ws & W). rewrite W. cbn [bind]. unfold is_batched_input. rewrite V. cbn [bind].
  assert (K : In "metrics" (v_outputs v)) by (apply O; left; reflexivity).
  cbn [map concat]. rewrite app_nil_r. destruct (v_outputs v) as [|k0 ks]; [destruct K|]. eexists. split; [reflexivity|]. cbn [p_batched].
  unfold is_legacy_eval. cbn. destruct l as [[|m [|]]|]; reflexivity.
Qed.

Lemma C251_place_refused_pf :
  forall a c c1 v, a_config a = Some c -> with_defaults c (a_models a) = Ok c1 -> verify_eval_config (c_eval c1) false = Ok tt ->
    a_extractors a <> [] -> In v (a_evaluators a) -> ~ has_place v (a_extractors a) -> extract_evaluate_and_write a = Err ValueError.
Proof.
  intros a c c1 v C D VC X I P. destruct (with_defaults_models _ _ _ D) as (l & stamp & V & S). unfold extract_evaluate_and_write, config_of. rewrite V. cbn [bind]. rewrite C, D. cbn [bind]. rewrite VC. cbn [bind].
  destruct (a_extractors a) as [|e0 es] eqn:EX; [destruct (X eq_refl)|]. cbn [bind]. destruct (a_evaluators a) as [|v0 vs] eqn:EV; [destruct I|]. cbn [bind].
  rewrite mapM_first_err; [reflexivity| |].
  - intros v' _. destruct (verify_evaluator_iff v' (e0 :: es)) as [A B]. destruct (verify_evaluator v' (e0 :: es)) as [[]|e] eqn:E; [left; eauto|right].
    apply B. intros H. apply A in H. discriminate.
  - exists v. split; [exact I|]. apply verify_evaluator_iff, P.
Qed.

Lemma C251_disabled_refuted_pf :
  exists x c c1, with_defaults c x = Ok c1 /\ with_defaults c1 x = Ok c1 /\ verify_eval_config (c_eval c1) false = Ok tt /\ ~ unknown_type x /\ ~ mixed x /\ ~ In "validations" (c_disabled c) /\
    extract_evaluate_and_write (Args x (Some c) [] [] [] (Some "/out") None None None true false 1 None) = Err ValueError.
Proof.
  exists Absent, (Config (EvalConfig [] [] false UnknownMethod "") [] ["metrics"; "plots"; "attributions"] None None). eexists.
  split; [reflexivity|]. split; [reflexivity|]. split; [reflexivity|]. split; [intros (t & [] & _)|]. split; [intros (t & t' & [] & _)|]. split; [|reflexivity].
  intros [H|[H|[H|[]]]]; discriminate.
Qed.

Lemma C251_nothing_pf :
  forall xs vs ws path, extract_evaluate_and_write (Args Absent None xs vs ws path None None None true false 1 None) = Err TypeError.
Proof. reflexivity. Qed.

Lemma C252_extracts_pf :
  forall (V : Type) batched (d : list (string * V)), NoDup (map fst d) -> forall k, dget String.eqb (to_extracts batched (IsExtracts d)) k = dget String.eqb d k.
Proof.
  intros V batched d N k. cbn [to_extracts]. unfold dupdate.
  cut (forall acc, NoDup (map fst d) -> dget String.eqb (fold_left (fun d0 kv => dset String.eqb d0 (fst kv) (snd kv)) d acc) k = match dget String.eqb d k with Some v => Some v | None => dget String.eqb acc k end).
  { intros G. rewrite (G [] N). destruct (dget String.eqb d k); reflexivity. }
  clear N. induction d as [|[k' v] d IH]; intros acc N; [reflexivity|]. cbn [fold_left fst snd]. inversion N as [|? ? N1 N2]; subst. rewrite (IH _ N2). cbn [dget].
  destruct (String.eqb k k') eqn:E.
  - apply String.eqb_eq in E. subst k'. assert (D : dget String.eqb d k = None) by (apply (dget_None _ String.eqb_eq), N1). rewrite D. apply (dget_dset_eq _ String.eqb_eq).
  - apply String.eqb_neq in E. rewrite (dget_dset_neq _ String.eqb_eq) by congruence. reflexivity.
Qed.

Lemma C252_batches_pf :
  forall (V : Type) tmp a format s p r, a_config a <> None -> run_model_analysis tmp a format = Ok (s, p, r) ->
    s <> SerializedRecords /\ p_batched p = true /\ (forall v : V, features_accept (to_extracts (p_batched p) (IsValue v)) = true).
Proof.
  intros V tmp a format s p r C H. unfold run_model_analysis in H. apply bind_ok in H. destruct H as ([c version] & E & H). apply bind_ok in H. destruct H as (s' & R & H).
  apply bind_ok in H. destruct H as (p' & P & H). injection H as <- <- <-.
  assert (VE : version = 2%Z /\ exists l, verified (a_models a) = Ok l).
  { unfold config_of in E. apply bind_ok in E. destruct E as (l & V' & E). destruct (a_config a) as [c0|]; [|destruct (C eq_refl)]. apply bind_ok in E. destruct E as (c' & _ & E). injection E as _ <-. eauto. }
  destruct VE as (-> & l & VL).
  assert (B : forall c, is_batched_input (a_models a) (Some c) (Some 2%Z) = Ok true).
  { intros c'. unfold is_batched_input. rewrite VL. cbn [bind]. unfold is_legacy_eval. cbn. destruct l as [[|m [|]]|]; reflexivity. }
  assert (PB : p_batched p' = true).
  { unfold extract_evaluate_and_write in P. apply bind_ok in P. destruct P as ([c' version'] & E' & P). cbn [a_models a_config a_slices a_write_config a_ci a_min_slice a_version] in E'.
    assert (version' = 2%Z). { unfold config_of in E'. apply bind_ok in E'. destruct E' as (l' & _ & E'). apply bind_ok in E'. destruct E' as (c2 & _ & E'). injection E' as _ <-. reflexivity. }
    subst version'. apply bind_ok in P. destruct P as (? & _ & P). apply bind_ok in P. destruct P as (? & _ & P). apply bind_ok in P. destruct P as (? & _ & P). apply bind_ok in P. destruct P as (? & _ & P). apply bind_ok in P. destruct P as (? & _ & P).
    apply bind_ok in P. destruct P as (b & BI & P). cbn [a_models] in BI. rewrite B in BI. injection BI as <-. destruct (concat _); [discriminate|]. injection P as <-. reflexivity. }
  split; [|split; [exact PB|intros v; rewrite PB; reflexivity]].
  unfold read_data in R. destruct (String.eqb format "tfrecords"); [|destruct (String.eqb format "text"); [injection R as <-; discriminate|discriminate]].
  rewrite B in R. cbn [bind] in R. apply bind_ok in R. destruct R as (b & _ & R). injection R as <-. destruct b; discriminate.
Qed.

Lemma C252_formats_pf :
  forall tmp a format c version, config_of (a_models a) (a_config a) (a_slices a) (a_write_config a) (a_ci a) (a_min_slice a) None = Ok (c, version) ->
    format <> "tfrecords" -> format <> "text" -> run_model_analysis tmp a format = Err ValueError.
Proof.
  intros tmp a format c version C N1 N2. unfold run_model_analysis. rewrite C. cbn [bind]. unfold read_data. apply String.eqb_neq in N1. apply String.eqb_neq in N2. rewrite N1, N2. reflexivity.
Qed.

Lemma C252_unbatched_pf :
  forall x l cfg version, verified x = Ok l ->
    (is_batched_input x cfg version = Ok false <->
     version = Some 1%Z \/ cfg = None /\ exists m, l = Some [m] /\ es_type m = TFMA_EVAL) /\
    is_ok (is_batched_input x cfg version) = true.
Proof.
  intros x l cfg version E. unfold is_batched_input. rewrite E. cbn [bind is_ok]. split; [|reflexivity].
  transitivity (is_legacy_eval version l cfg = true); [destruct (is_legacy_eval version l cfg); cbn [negb]; split; congruence|].
  unfold is_legacy_eval. rewrite orb_true_iff. split.
  - intros [H|H].
    + left. destruct version as [v|]; [|discriminate]. apply Z.eqb_eq in H. subst v. reflexivity.
    + right. destruct l as [[|m [|m' l]]|]; try discriminate. destruct cfg; [discriminate|]. split; [reflexivity|]. exists m. split; [reflexivity|apply String.eqb_eq; exact H].
  - intros [-> |(-> & m & -> & H)]; [left; reflexivity|right; apply String.eqb_eq; exact H].
Qed.

Lemma C252_legacy_refuted_pf :
  exists a p, run_model_analysis "/tmp" a "tfrecords" = Ok (SerializedRecords, p, [None]) /\ a_extractors a = [] /\
    match p_extractors p with e :: _ => x_kind e = Features | [] => False end /\
    forall (V : Type) (v : V), features_accept (to_extracts (p_batched p) (IsValue v)) = false.
Proof.
  exists (Args (Single (Model "" "tfma_eval" (Some "/m") None None NoWeight (Some (Some ["eval"])) false false)) None [] [] [] None None None None true false 1 None).
  eexists. split; [vm_compute; reflexivity|]. split; [reflexivity|]. split; reflexivity.
Qed.

Lemma C252_text_refuted_pf :
  exists a p, run_model_analysis "/tmp" a "text" = Ok (TextRecordBatches, p, [None]) /\ batches_of TextRecordBatches = true /\
    forall (V : Type) (v : V), to_extracts (p_batched p) (IsValue v) = [("input", v)].
Proof.
  exists (Args (Single (Model "" "tfma_eval" (Some "/m") None None NoWeight (Some (Some ["eval"])) false false)) None [] [] [] None None None None true false 1 None).
  eexists. split; [vm_compute; reflexivity|]. split; reflexivity.
Qed.

(** The bytes processed are those of the record batches and, where there is none, of the inputs that are
    bytes. *)

Definition size_of {V} (nbytes : V -> Z) (len : V -> option Z) (d : list (string * V)) (n : Z) : Prop :=
  (exists v, dget String.eqb d "arrow_record_batch" = Some v /\ n = nbytes v) \/
  (dget String.eqb d "arrow_record_batch" = None /\ exists v, dget String.eqb d "input" = Some v /\ len v = Some n) \/
  (dget String.eqb d "arrow_record_batch" = None /\ n = 0%Z /\ forall v, dget String.eqb d "input" = Some v -> len v = None).

Lemma C252_bytes_pf :
  forall (V : Type) (nbytes : V -> Z) (len : V -> option Z) l ns, Forall2 (size_of nbytes len) l ns -> bytes_processed nbytes len l = fold_right Z.add 0%Z ns.
Proof.
  intros V nbytes len l ns F. unfold bytes_processed. rewrite <- fold_left_rev_right.
  assert (S : forall d n, size_of nbytes len d n -> num_bytes nbytes len d = n).
  { intros d n. unfold num_bytes, size_of, ARROW_RECORD_BATCH_KEY, INPUT_KEY. intros [(v & -> & ->)|[(-> & v & -> & ->)|(-> & -> & H)]]; try reflexivity.
    destruct (dget String.eqb d "input") as [v|]; [|reflexivity]. rewrite (H v eq_refl). reflexivity. }
  assert (M : map (num_bytes nbytes len) l = ns). { induction F as [|d n l ns A F IH]; [reflexivity|]. cbn [map]. rewrite (S d n A), IH. reflexivity. }
  rewrite M. clear. assert (G : forall a b, fold_right (fun y x => (x + y)%Z) a (rev b) = (a + fold_right Z.add 0 b)%Z).
  { intros a b. revert a. induction b as [|z b IH]; intros a; [cbn; lia|]. cbn [rev]. rewrite fold_right_app. cbn [fold_right]. rewrite IH. lia. }
  rewrite G. lia.
Qed.

Lemma C253_results_pf :
  forall tmp a format s p r, run_model_analysis tmp a format = Ok (s, p, r) ->
    exists c version, config_of (a_models a) (a_config a) (a_slices a) (a_write_config a) (a_ci a) (a_min_slice a) None = Ok (c, version) /\
      ((length (e_models (c_eval c)) <= 1)%nat -> r = [None]) /\ ((1 < length (e_models (c_eval c)))%nat -> r = map (fun m => Some (m_name m)) (e_models (c_eval c))).
Proof.
  intros tmp a format s p r H. unfold run_model_analysis in H. apply bind_ok in H. destruct H as ([c version] & E & H). apply bind_ok in H. destruct H as (s' & _ & H).
  apply bind_ok in H. destruct H as (p' & _ & H). injection H as _ _ <-. exists c, version. split; [exact E|]. unfold results_of.
  destruct (e_models (c_eval c)) as [|m [|m' l]]; cbn [length]; split; intros L; try reflexivity; lia.
Qed.

Lemma C253_default_config_pf :
  forall x l slices write ci min, verified x = Ok (Some l) -> exists c,
    config_of x None slices write ci min None = Ok (c, 1%Z) /\ map m_name (e_models (c_eval c)) = map es_name l /\
    (forall m s, In (m, s) (combine l (e_models (c_eval c))) -> weight_by_config s NoWeight (es_weight m) \/ es_weight m = OneWeight "" \/ es_weight m = WeightPerOutput []) /\
    (c_slices c = match slices with Some s => s | None => [] end) /\ e_compute_ci (c_eval c) = ci /\ c_min_slice c = Some min /\ (In "eval_config" (c_disabled c) <-> write = false).
Proof.
  intros x l slices write ci min V. unfold config_of. rewrite V. cbn [bind default_eval_config]. eexists. split; [reflexivity|]. cbn [c_eval e_models c_slices c_min_slice c_disabled e_compute_ci].
  split; [rewrite map_map; apply map_ext; intros m; unfold default_spec; destruct (es_weight m); reflexivity|]. split; [|split; [reflexivity|split; [reflexivity|split; [reflexivity|]]]].
  - intros m s I. assert (s = default_spec m). { clear V. induction l as [|a l IH]; [destruct I|]. destruct I as [H|I]; [injection H as <- <-; reflexivity|apply IH, I]. }
    subst s. unfold weight_by_config, default_spec. destruct (es_weight m) as [|k|d]; cbn.
    + left. right. right. auto.
    + destruct k; [right; left; reflexivity|left; left; split; [discriminate|reflexivity]].
    + destruct d; [right; right; reflexivity|left; right; left; split; [reflexivity|split; [discriminate|reflexivity]]].
  - destruct write; split; [intros []|discriminate|reflexivity|intros _; left; reflexivity].
Qed.

Lemma C253_multiple_pf :
  forall (A R : Type) (one : A -> res R) l rs, multiple_analysis one l = Ok rs -> Forall2 (fun a r => one a = Ok r) l rs.
Proof.
  intros A R one l. unfold multiple_analysis. induction l as [|a l IH]; intros rs H; cbn [mapM] in H; [injection H as <-; constructor|].
  apply bind_ok in H. destruct H as (r & E & H). apply bind_ok in H. destruct H as (rs' & E' & H). injection H as <-. constructor; [exact E|apply IH, E'].
Qed.

Lemma C253_slices_refused_pf :
  forall is_keras tmp location data path c s l, single_model_analysis is_keras tmp location data path (Some c) (Some (s :: l)) = Err ValueError.
Proof. reflexivity. Qed.

Lemma C253_type_refuted_pf :
  exists c s p r, map m_rest (e_models (c_eval c)) = ["tf_keras"] /\
    single_model_analysis (fun _ => true) "/tmp" "/m" "/data" None (Some c) None = Ok (s, p, r) /\
    (exists e m, In e (p_extractors p) /\ x_kind e = Predictions /\ x_models e = Single m /\ es_type m = "tfma_eval").
Proof.
  exists (Config (EvalConfig [ModelSpec "" "" [] "" [] "" [] false "tf_keras"] [] false UnknownMethod "") [] [] None None). eexists _, _, _.
  split; [reflexivity|]. split; [vm_compute; reflexivity|]. eexists _, _. split; [cbn [p_extractors]; do 4 right; left; reflexivity|]. split; [reflexivity|]. split; reflexivity.
Qed.

Definition or_name (k d : string) : string := if String.eqb k "" then d else k.

Lemma set_str_or k d : (if set_str k then k else d) = or_name k d.
Proof. unfold or_name, set_str. destruct (String.eqb k ""); reflexivity. Qed.

(** A spec whose columns are there *)

Definition found (columns : list string) (s : model_spec) : Prop :=
  In (or_name (m_prediction_key s) "prediction") columns /\ In (or_name (m_label_key s) "label") columns.

Lemma raw_spec_iff columns s : (found columns s /\ exists s', raw_spec columns s = Ok s' /\ m_prediction_key s' = or_name (m_prediction_key s) "prediction" /\ m_label_key s' = or_name (m_label_key s) "label") \/
  (~ found columns s /\ raw_spec columns s = Err KeyError).
Proof.
  unfold raw_spec, found. rewrite !set_str_or. destruct (memb String.eqb (or_name (m_prediction_key s) "prediction") columns) eqn:P; cbn [negb].
  - apply (memb_In _ String.eqb_eq) in P. destruct (memb String.eqb (or_name (m_label_key s) "label") columns) eqn:L; cbn [negb].
    + apply (memb_In _ String.eqb_eq) in L. left. split; [auto|]. eexists. split; [reflexivity|]. split; reflexivity.
    + right. split; [|reflexivity]. intros [_ H]. apply (memb_In _ String.eqb_eq) in H. congruence.
  - right. split; [|reflexivity]. intros [H _]. apply (memb_In _ String.eqb_eq) in H. congruence.
Qed.

Lemma C254_columns_pf :
  forall tmp columns c path xs vs ws cbs, (exists s, In s (e_models (c_eval c)) /\ ~ found columns s) ->
    analyze_raw_data tmp columns (Some c) path xs vs ws cbs = Err KeyError.
Proof.
  intros tmp columns c path xs vs ws cbs (s & I & N). unfold analyze_raw_data.
  assert (M : mapM (raw_spec columns) (e_models (c_eval c)) = Err KeyError).
  { revert I. induction (e_models (c_eval c)) as [|a l IH]; [intros []|]. intros I. cbn [mapM]. destruct (raw_spec_iff columns a) as [[F (a' & -> & _)]|[_ ->]]; [|reflexivity]. cbn [bind].
    destruct I as [->|I]; [destruct (N F)|]. rewrite (IH I). reflexivity. }
  rewrite M. reflexivity.
Qed.

Lemma C254_run_pf :
  forall tmp columns c path xs vs ws cbs, (forall s, In s (e_models (c_eval c)) -> found columns s) -> exists c' ws',
    analyze_raw_data tmp columns (Some c) path xs vs ws cbs =
      (let! ws := match ws with [] => default_writers (Some (match path with Some p => p | None => tmp end)) Absent (Some c') None None "tfrecord" cbs | _ => Ok ws' end in
       extract_evaluate_and_write (Args Absent (Some c') xs vs ws (Some (match path with Some p => p | None => tmp end)) None None None true false 1 None)) /\
    ws' = ws /\ c_slices c' = c_slices c /\ c_disabled c' = c_disabled c /\ e_specs (c_eval c') = e_specs (c_eval c) /\
    Forall2 (fun s s' => m_prediction_key s' = or_name (m_prediction_key s) "prediction" /\ m_label_key s' = or_name (m_label_key s) "label" /\ m_name s' = m_name s /\
                         m_weight_key s' = m_weight_key s /\ m_weight_keys s' = m_weight_keys s) (e_models (c_eval c)) (e_models (c_eval c')).
Proof.
  intros tmp columns c path xs vs ws cbs F. unfold analyze_raw_data.
  assert (M : exists l, mapM (raw_spec columns) (e_models (c_eval c)) = Ok l /\
     Forall2 (fun s s' => m_prediction_key s' = or_name (m_prediction_key s) "prediction" /\ m_label_key s' = or_name (m_label_key s) "label" /\ m_name s' = m_name s /\
                          m_weight_key s' = m_weight_key s /\ m_weight_keys s' = m_weight_keys s) (e_models (c_eval c)) l).
  { revert F. induction (e_models (c_eval c)) as [|a l IH]; intros F; [exists []; split; [reflexivity|constructor]|]. cbn [mapM].
    destruct (raw_spec_iff columns a) as [[_ (a' & E & P & L)]|[N _]]; [|destruct (N (F a (or_introl eq_refl)))]. rewrite E. cbn [bind]. destruct IH as (r & -> & G); [intros s I; apply F; right; exact I|].
    exists (a' :: r). split; [reflexivity|]. constructor; [|exact G]. split; [exact P|]. split; [exact L|]. unfold raw_spec in E. destruct (negb _); [discriminate|]. destruct (negb _); [discriminate|].
    injection E as <-. repeat split. }
  destruct M as (l & M & G). rewrite M. cbn [bind]. eexists _, ws. split; [destruct ws; reflexivity|]. split; [reflexivity|]. split; [reflexivity|]. split; [reflexivity|]. split; [reflexivity|exact G].
Qed.

Lemma C254_no_config_refuted_pf :
  exists columns, In "label" columns /\ In "prediction" columns /\ forall tmp path xs vs ws cbs, analyze_raw_data tmp columns None path xs vs ws cbs = Err AttributeError.
Proof. exists ["label"; "prediction"]. split; [left; reflexivity|]. split; [right; left; reflexivity|]. reflexivity. Qed.

Lemma C254_config_refuted_pf :
  exists tmp columns c p, analyze_raw_data tmp columns (Some c) None [] [] [] None = Ok p /\ In "label" columns /\ In "prediction" columns /\ e_models (c_eval c) = [] /\
     forall s, In s (e_models (c_eval (p_config p))) -> m_label_key s = "" /\ m_prediction_key s = "".
Proof.
  exists "/tmp", ["label"; "prediction"], (Config (EvalConfig [] [] false UnknownMethod "") [] [] None None). eexists. split; [vm_compute; reflexivity|].
  split; [left; reflexivity|]. split; [right; left; reflexivity|]. split; [reflexivity|]. intros s [<-|[]]. split; reflexivity.
Qed.
