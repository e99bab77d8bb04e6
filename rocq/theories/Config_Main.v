(* Proofs of the theorems restated in Config_Properties.v. *)
From Coq Require Import String.
From Verif Require Import Base BaseFacts Beam Slicer_Model Inputs_Model Keys_Model Means_Model Validation_Model Config_Model.
Local Open Scope string_scope.
Local Open Scope list_scope.

(* C50, C51, C109 - C116: verification and defaults of an evaluation config, its models. *)

Ltac dcase := match goal with
  | |- context [if ?b then _ else _] => destruct b eqn:?
  | H : context [if ?b then _ else _] |- _ => destruct b eqn:?
  end.

Lemma set_str_iff s : set_str s = true <-> s <> "".
Proof. unfold set_str. rewrite negb_true_iff. rewrite <- Bool.not_true_iff_false, String.eqb_eq. reflexivity. Qed.

Lemma set_map_iff {A} (l : list A) : set_map l = true <-> l <> [].
Proof. destruct l; cbn; split; congruence. Qed.

(** Each kind of key is given once, for all outputs or per output. *)

Definition keys_ok (m : model_spec) : Prop :=
  (m_label_key m = "" \/ m_label_keys m = []) /\
  (m_prediction_key m = "" \/ m_prediction_keys m = []) /\
  (m_weight_key m = "" \/ m_weight_keys m = []).

Definition baselines (l : list model_spec) : nat := length (filter m_is_baseline l).

(** Thresholds for slices in a config, of metrics and by name *)

Definition slice_thresholds (c : eval_config) : list scoped :=
  flat_map (fun s => flat_map mc_per_slice (s_metrics s) ++ flat_map snd (s_per_slice s)) (e_specs c).

Lemma key_iff s {A} (l : list A) : set_str s && set_map l = false <-> s = "" \/ l = [].
Proof.
  rewrite andb_false_iff. unfold set_str. destruct (String.eqb_spec s ""), l; cbn; split; intros [H|H]; auto; try discriminate; congruence.
Qed.

Lemma verify_models_spec l : forall names b,
  match verify_models l names b with
  | Ok (n, b') => (forall m, In m l -> keys_ok m) /\ (baselines l <= if b then 0 else 1) /\
      b' = b || existsb m_is_baseline l /\ (forall x, In x n <-> In x names \/ In x (map m_name l)) /\ (NoDup names -> NoDup n)
  | Err e => e = ValueError /\ ~ ((forall m, In m l -> keys_ok m) /\ (baselines l <= if b then 0 else 1))
  end.
Proof.
  induction l as [|m l IH]; intros names b; cbn [verify_models].
  - split; [intros m []|]. split; [cbn; destruct b; lia|]. cbn. rewrite orb_false_r. split; [reflexivity|].
    split; [intros x; tauto|auto].
  - destruct (set_str (m_label_key m) && set_map (m_label_keys m)) eqn:L.
    { split; [reflexivity|]. intros [H _]. destruct (H m (or_introl eq_refl)) as (A & _ & _). apply key_iff in A. congruence. }
    destruct (set_str (m_prediction_key m) && set_map (m_prediction_keys m)) eqn:P.
    { split; [reflexivity|]. intros [H _]. destruct (H m (or_introl eq_refl)) as (_ & A & _). apply key_iff in A. congruence. }
    destruct (set_str (m_weight_key m) && set_map (m_weight_keys m)) eqn:W.
    { split; [reflexivity|]. intros [H _]. destruct (H m (or_introl eq_refl)) as (_ & _ & A). apply key_iff in A. congruence. }
    assert (K : keys_ok m). { split; [apply key_iff; exact L|]. split; apply key_iff; assumption. }
    set (n' := if memb String.eqb (m_name m) names then names else names ++ [m_name m]).
    assert (N1 : forall x, In x n' <-> In x names \/ x = m_name m).
    { intros x. unfold n'. destruct (memb String.eqb (m_name m) names) eqn:E.
      - apply (memb_In _ String.eqb_eq) in E. split; [auto|]. intros [H| ->]; assumption.
      - rewrite in_app_iff. cbn [In]. split; intros [H|H]; auto. destruct H as [H|[]]; auto. }
    assert (N2 : NoDup names -> NoDup n').
    { intros N. unfold n'. destruct (memb String.eqb (m_name m) names) eqn:E; [exact N|].
      assert (A := Add_app (m_name m) names []). rewrite app_nil_r in A. apply (NoDup_Add A). split; [exact N|].
      intros X. apply (memb_In _ String.eqb_eq) in X. congruence. }
    clearbody n'. cbn [existsb]. unfold baselines. cbn [filter].
    assert (STEP : forall b2, match verify_models l n' b2 with
      | Ok (n, b') => (forall m0, In m0 (m :: l) -> keys_ok m0) /\ baselines l <= (if b2 then 0 else 1) /\
           b' = b2 || existsb m_is_baseline l /\ (forall x, In x n <-> In x names \/ In x (map m_name (m :: l))) /\ (NoDup names -> NoDup n)
      | Err e => e = ValueError /\ ~ ((forall m0, In m0 (m :: l) -> keys_ok m0) /\ baselines l <= (if b2 then 0 else 1))
      end).
    { intros b2. specialize (IH n' b2). destruct (verify_models l n' b2) as [[n b']|e].
      - destruct IH as (I1 & I2 & I3 & I4 & I5). split; [intros m0 [<-|X]; auto|]. split; [exact I2|]. split; [exact I3|]. split.
        + intros x. rewrite I4, N1. cbn [map In]. split; intros H; decompose [or] H; auto.
        + auto.
      - destruct IH as (I1 & I2). split; [exact I1|]. intros [A B]. apply I2. split; [|exact B]. intros m0 X. apply A. right. exact X. }
    unfold baselines in STEP.
    destruct (m_is_baseline m) eqn:B.
    + destruct b.
      * split; [reflexivity|]. intros [_ H]. cbn [length] in H. lia.
      * specialize (STEP true). destruct (verify_models l n' true) as [[n b']|e].
        -- destruct STEP as (I1 & I2 & I3 & I4 & I5). cbn [length orb] in *. split; [exact I1|]. split; [lia|]. split; [exact I3|]. split; assumption.
        -- destruct STEP as (I1 & I2). split; [exact I1|]. intros [A C]. apply I2. split; [exact A|]. cbn [length] in C. lia.
    + specialize (STEP b). cbn [orb]. exact STEP.
Qed.

Lemma existsb_false {A} (f : A -> bool) l : existsb f l = false <-> forall x, In x l -> f x = false.
Proof.
  split.
  - intros E x I. destruct (f x) eqn:F; [|reflexivity]. assert (existsb f l = true) by (apply existsb_exists; eauto). congruence.
  - intros H. destruct (existsb f l) eqn:E; [|reflexivity]. apply existsb_exists in E. destruct E as (x & I & F). rewrite H in F; [discriminate|exact I].
Qed.

(** All that verification establishes; names need not be different, only present if two of
    them are. *)

Definition acceptable (c : eval_config) (baseline_required : bool) : Prop :=
  e_models c <> [] /\ (forall m, In m (e_models c) -> keys_ok m) /\ baselines (e_models c) <= 1 /\
  (forall m m', In m (e_models c) -> In m' (e_models c) -> m_name m <> m_name m' -> m_name m <> "") /\
  (baseline_required = true -> exists m, In m (e_models c) /\ m_is_baseline m = true) /\
  (forall t, In t (slice_thresholds c) -> sc_specs t <> []).

Lemma C50_verification_partial_pf :
  forall c required,
    (acceptable c required -> verify_eval_config c required = Ok tt) /\
    (~ acceptable c required -> verify_eval_config c required = Err ValueError).
Proof.
  intros c req. unfold verify_eval_config, acceptable.
  destruct (e_models c) as [|m0 l0] eqn:EM.
  { split; [|reflexivity]. intros (H & _). congruence. }
  rewrite <- EM. assert (NE : e_models c <> []) by congruence. clear EM m0 l0.
  assert (X := verify_models_spec (e_models c) [] false). destruct (verify_models (e_models c) [] false) as [[names b]|e]; cbn [bind].
  2:{ destruct X as [-> X]. split; [|reflexivity]. intros (_ & A & B & _). exfalso. apply X. split; [exact A|]. exact B. }
  destruct X as (K & B & BE & N & ND). cbn [orb] in BE. specialize (ND (NoDup_nil _)).
  assert (TWO : Nat.ltb 1 (length names) && memb String.eqb "" names = true <->
                ~ (forall m m', In m (e_models c) -> In m' (e_models c) -> m_name m <> m_name m' -> m_name m <> "")).
  { rewrite andb_true_iff, Nat.ltb_lt, (memb_In _ String.eqb_eq). split.
    - intros [L I] H. apply N in I. destruct I as [[]|I]. apply in_map_iff in I. destruct I as (m & M1 & M2).
      assert (exists x, In x names /\ x <> "") as (x & X1 & X2).
      { destruct names as [|x [|y names]]; cbn [length] in L; try lia. destruct (String.eqb_spec x "") as [->|D].
        - exists y. split; [right; left; reflexivity|]. intros ->. inversion ND as [|? ? Q1 Q2]; subst. apply Q1. left. reflexivity.
        - exists x. split; [left; reflexivity|exact D]. }
      apply N in X1. destruct X1 as [[]|X1]. apply in_map_iff in X1. destruct X1 as (m' & M3 & M4).
      apply (H m m' M2 M4); congruence.
    - intros H. assert (exists m m', In m (e_models c) /\ In m' (e_models c) /\ m_name m <> m_name m' /\ m_name m = "") as (m & m' & I & I' & D & E).
      { destruct (existsb (fun m => String.eqb (m_name m) "" && existsb (fun m' => negb (String.eqb (m_name m') "")) (e_models c)) (e_models c)) eqn:F.
        - apply existsb_exists in F. destruct F as (m & I & F). apply andb_true_iff in F. destruct F as [F1 F2]. apply String.eqb_eq in F1.
          apply existsb_exists in F2. destruct F2 as (m' & I' & F2). exists m, m'. split; [exact I|]. split; [exact I'|].
          split; [|exact F1]. intros Q. rewrite <- Q, F1 in F2. discriminate.
        - exfalso. apply H. intros m m' I I' D E. rewrite existsb_false in F. specialize (F m I). rewrite E in F. cbn [String.eqb andb] in F.
          rewrite existsb_false in F. specialize (F m' I'). apply negb_false_iff in F. apply String.eqb_eq in F. congruence. }
      assert (In "" names) as I1. { apply N. right. rewrite <- E. apply in_map. exact I. }
      split; [|exact I1]. assert (In (m_name m') names) as I2. { apply N. right. apply in_map. exact I'. }
      destruct names as [|x [|y names]]; cbn [length]; [destruct I1| |lia]. exfalso.
      destruct I1 as [I1|[]], I2 as [I2|[]]. congruence. }
  assert (REQ : req && negb b = true <-> ~ (req = true -> exists m, In m (e_models c) /\ m_is_baseline m = true)).
  { rewrite BE. destruct req; cbn [andb].
    - rewrite negb_true_iff, existsb_false. split.
      + intros H X. destruct (X eq_refl) as (m & I & F). rewrite (H m I) in F. discriminate.
      + intros H m I. destruct (m_is_baseline m) eqn:F; [|reflexivity]. exfalso. apply H. eauto.
    - split; [discriminate|]. intros H. exfalso. apply H. discriminate. }
  assert (SL : existsb (fun s =>
                existsb (fun kv => existsb (fun t => negb (set_map (sc_specs t))) (snd kv)) (s_per_slice s) ||
                existsb (fun m => existsb (fun t => negb (set_map (sc_specs t))) (mc_per_slice m)) (s_metrics s)) (e_specs c) = false <->
              (forall t, In t (slice_thresholds c) -> sc_specs t <> [])).
  { unfold slice_thresholds. rewrite existsb_false. split.
    - intros H t I. apply in_flat_map in I. destruct I as (s & I1 & I2). specialize (H s I1). apply orb_false_iff in H. destruct H as [H1 H2].
      assert (G1 := proj1 (existsb_false _ _) H1). assert (G2 := proj1 (existsb_false _ _) H2). clear H1 H2. apply set_map_iff. apply negb_false_iff. apply in_app_iff in I2. destruct I2 as [I2|I2]; apply in_flat_map in I2; destruct I2 as (x & J1 & J2).
      + exact (proj1 (existsb_false _ _) (G2 x J1) t J2).
      + exact (proj1 (existsb_false _ _) (G1 x J1) t J2).
    - intros H s I. apply orb_false_iff. split; apply existsb_false; intros x X; apply existsb_false; intros t T; apply negb_false_iff; apply set_map_iff; apply H;
        apply in_flat_map; exists s; (split; [exact I|]); apply in_app_iff; [right|left]; apply in_flat_map; exists x; split; assumption. }
  destruct (Nat.ltb 1 (length names) && memb String.eqb "" names) eqn:E1.
  { split; [|reflexivity]. intros (_ & _ & _ & H & _). exfalso. apply TWO in H; [exact H|reflexivity]. }
  destruct (req && negb b) eqn:E2.
  { split; [|reflexivity]. intros (_ & _ & _ & _ & H & _). exfalso. apply REQ in H; [exact H|reflexivity]. }
  match goal with |- context [if ?x then _ else _] => destruct x eqn:E3 end.
  { split; [|reflexivity]. intros (_ & _ & _ & _ & _ & H). apply SL in H. congruence. }
  split; [reflexivity|]. intros H. exfalso. apply H. split; [exact NE|]. split; [exact K|]. split; [exact B|].
  assert (E4 := proj1 SL eq_refl). split; [|split; [|exact E4]].
  - intros m m' I I' D E.
    assert (Q : false = true); [|discriminate]. apply TWO. intros G. exact (G m m' I I' D E).
  - intros R. destruct (existsb m_is_baseline (e_models c)) eqn:F; [apply existsb_exists in F; exact F|].
    rewrite R, BE in E2. discriminate.
Qed.

Definition named (n : string) (baseline : bool) : model_spec := ModelSpec n "label" [] "" [] "" [] baseline "".

Definition models_only (l : list model_spec) : eval_config := EvalConfig l [] false UnknownMethod "".

Lemma C50_duplicate_names_rejected_refuted_pf :
  exists m1 m2, m_name m1 = m_name m2 /\ m_is_baseline m1 = false /\ m_is_baseline m2 = true /\
    verify_eval_config (models_only [m1; m2]) true = Ok tt.
Proof. exists (named "model" false), (named "model" true). repeat split. Qed.

(** The thresholds of a metrics spec, each with the metric or name it belongs to and the slices
    it is for. *)

Inductive kind := Whole | Slices (l : list scope) | CrossSlices (l : list scope).

Definition slice_entries (k : list scope -> kind) (owner : string) (l : list scoped) : list (string * kind * option metric_threshold) :=
  map (fun t => (owner, k (sc_specs t), sc_threshold t)) l.

Definition entries (s : metrics_spec) : list (string * kind * option metric_threshold) :=
  flat_map (fun m => [(mc_class m, Whole, mc_threshold m)] ++ slice_entries Slices (mc_class m) (mc_per_slice m) ++
                     slice_entries CrossSlices (mc_class m) (mc_cross_slice m)) (s_metrics s) ++
  map (fun kv => (fst kv, Whole, Some (snd kv))) (s_thresholds s) ++
  flat_map (fun kv => slice_entries Slices (fst kv) (snd kv)) (s_per_slice s) ++
  flat_map (fun kv => slice_entries CrossSlices (fst kv) (snd kv)) (s_cross_slice s).

(** What is said about absolute values. *)

Definition value_part (e : string * kind * option metric_threshold) :=
  (fst e, match snd e with Some t => mt_value t | None => None end).

Definition no_change (e : string * kind * option metric_threshold) : Prop :=
  forall t, snd e = Some t -> mt_change t = None.

Definition same_values (l l' : list (string * kind * option metric_threshold)) : Prop :=
  map value_part l' = map value_part l /\ forall e, In e l' -> no_change e.

Lemma same_values_app a a' b b' : same_values a a' -> same_values b b' -> same_values (a ++ b) (a' ++ b').
Proof.
  intros [A1 A2] [B1 B2]. split; [rewrite !map_app; congruence|]. intros e I. apply in_app_iff in I. destruct I; auto.
Qed.

Lemma same_values_flat {X} (f g : X -> list _) (l : list X) : (forall x, same_values (f x) (g x)) -> same_values (flat_map f l) (flat_map g l).
Proof.
  intros H. induction l as [|x l IH]; cbn [flat_map]; [split; [reflexivity|intros e []]|]. apply same_values_app; auto.
Qed.

Lemma flat_map_map {X Y Z} (g : X -> Y) (f : Y -> list Z) l : flat_map f (map g l) = flat_map (fun x => f (g x)) l.
Proof. induction l as [|x l IH]; cbn [map flat_map]; [reflexivity|]. rewrite IH. reflexivity. Qed.

Lemma clear_no_change t : mt_change (clear_change t) = None /\ mt_value (clear_change t) = mt_value t.
Proof. unfold clear_change, has_size. destruct t as [[v|] [c|]]; cbn; split; reflexivity. Qed.

Lemma one_same o k t : same_values [(o, k, t)] [(o, k, option_map clear_change t)].
Proof.
  split.
  - unfold value_part. destruct t as [t|]; cbn; [|reflexivity]. rewrite (proj2 (clear_no_change t)). reflexivity.
  - intros e [<-|[]] t' E. destruct t as [t|]; cbn in E; [|discriminate]. injection E as <-. apply clear_no_change.
Qed.

Lemma slice_same k o l : same_values (slice_entries k o l) (slice_entries k o (map clear_scoped l)).
Proof.
  unfold slice_entries. induction l as [|t l IH]; [split; [reflexivity|intros e []]|]. cbn [map].
  apply (same_values_app [_] [_]); [apply one_same|exact IH].
Qed.

Lemma clear_spec_same s : same_values (entries s) (entries (clear_spec s)).
Proof.
  unfold entries, clear_spec; cbn [s_metrics s_thresholds s_per_slice s_cross_slice].
  apply same_values_app; [|apply same_values_app; [|apply same_values_app]].
  - rewrite flat_map_map. apply same_values_flat. intros m. unfold clear_config. cbn [mc_class mc_threshold mc_per_slice mc_cross_slice].
    apply same_values_app; [apply one_same|]. apply same_values_app; apply slice_same.
  - induction (s_thresholds s) as [|[n t] l IH]; [split; [reflexivity|intros e []]|]. cbn [map fst snd].
    apply (same_values_app [_] [_]); [exact (one_same n Whole (Some t))|exact IH].
  - rewrite flat_map_map. apply same_values_flat. intros [n l]. apply slice_same.
  - rewrite flat_map_map. apply same_values_flat. intros [n l]. apply slice_same.
Qed.

Lemma entries_set_models s l : entries (set_models s l) = entries s.
Proof. reflexivity. Qed.

(** The settings of a model apart from its name. *)

Definition unnamed (m : model_spec) : model_spec := rename m "" (m_is_baseline m).

Lemma fix_names_spec l specs l' specs' : fix_names l specs = (l', specs') ->
  l' <> [] /\ map unnamed l' = match l with [] => [empty_model_spec] | _ => map unnamed l end /\
  (length l' = 1 -> forall m, In m l' -> m_name m = "") /\ (length l <> 1 -> l <> [] -> l' = l) /\
  specs' = map (fun s => match s_models s with
                    | [] => set_models s (map m_name l')
                    | _ => if Nat.eqb (length l') 1 then set_models s [""] else s
                    end) specs.
Proof.
  unfold fix_names. intros E. destruct l as [|m [|m2 l]]; injection E as <- <-.
  - split; [discriminate|]. split; [reflexivity|]. split; [intros _ m [<-|[]]; reflexivity|]. split; [congruence|]. reflexivity.
  - split; [discriminate|]. split; [reflexivity|]. split; [intros _ m' [<-|[]]; reflexivity|]. split; [intros H; exfalso; apply H; reflexivity|]. reflexivity.
  - split; [discriminate|]. split; [reflexivity|]. split; [intros H; cbn [length] in H; lia|]. split; [reflexivity|]. reflexivity.
Qed.

Lemma C51_removal_of_baseline_pf :
  forall c stamp c',
    update_eval_config_with_defaults c None None (Some false) stamp = Ok c' ->
    (forall m, In m (e_models c') -> m_is_baseline m = false) /\
    map unnamed (e_models c') = match filter (fun m => negb (m_is_baseline m)) (e_models c) with
                                | [] => [empty_model_spec]
                                | l => map unnamed l
                                end /\
    Forall2 (fun s s' => same_values (entries s) (entries s')) (e_specs c) (e_specs c').
Proof.
  intros c stamp c' E. unfold update_eval_config_with_defaults in E. cbn [is_true negb andb orb] in E.
  match type of E with (if ?b then _ else _) = _ => destruct b; [discriminate|] end.
  destruct (fix_names _ _) as [l specs] eqn:F. injection E as <-. cbn [e_models e_specs].
  apply fix_names_spec in F. destruct F as (F1 & F2 & F3 & F4 & ->). split; [|split].
  - intros m I. assert (I2 := in_map unnamed _ _ I). rewrite F2 in I2.
    assert (B : forall x, In x (match filter (fun m => negb (m_is_baseline m)) (e_models c) with [] => [empty_model_spec] | _ :: _ => map unnamed (filter (fun m => negb (m_is_baseline m)) (e_models c)) end) -> m_is_baseline x = false).
    { intros x X. destruct (filter _ _) as [|y t] eqn:G.
      - destruct X as [<-|[]]. reflexivity.
      - rewrite <- G in X. apply in_map_iff in X. destruct X as (z & <- & X). apply filter_In in X. cbn. destruct X as [_ X]. apply negb_true_iff in X. exact X. }
    specialize (B _ I2). exact B.
  - rewrite F2. destruct (filter _ _); reflexivity.
  - rewrite map_map. clear. induction (e_specs c) as [|s t IH]; constructor; [|exact IH].
    destruct (s_models (clear_spec s)); [|destruct (Nat.eqb _ _)]; rewrite ?entries_set_models; apply clear_spec_same.
Qed.

Definition th (change : bool) : metric_threshold :=
  MetricThreshold (Some (Some (Fin 0%Qc), None)) (if change then Some (Some (Fin 0%Qc), None, HigherIsBetter) else None).

Definition auc_spec (models : list string) (change : bool) : metrics_spec :=
  MetricsSpec [MetricConfig "AUC" "" (Some (th change)) [Scoped [SingleScope overall] (Some (th change))] []] models ""
    [("auc", th change)] [("auc", [Scoped [SingleScope overall] (Some (th change))])]
    [("auc", [Scoped [CrossScope overall [overall]] (Some (th change))])].

(** The thresholds that compare with a baseline *)

Definition change_thresholds (c : eval_config) : list (option num * option num * direction) :=
  flat_map (fun s => flat_map (fun e => match snd e with
                                        | Some t => match mt_change t with Some ch => [ch] | None => [] end
                                        | None => []
                                        end) (entries s)) (e_specs c).

Lemma C109_change_needs_baseline_refuted_pf :
  exists c c', change_thresholds c = [(None, None, UnknownDirection)] /\
    update_eval_config_with_defaults c None None (Some false) false = Ok c'.
Proof.
  exists (EvalConfig [named "" false] [MetricsSpec [] [] "" [("auc", MetricThreshold None (Some (None, None, UnknownDirection)))] [] []] false UnknownMethod "").
  eexists. split; reflexivity.
Qed.

Definition entry_change (e : string * kind * option metric_threshold) : bool :=
  match snd e with Some t => has_change t | None => false end.

Lemma existsb_flat_map {X Y} (f : X -> list Y) (g : Y -> bool) l : existsb g (flat_map f l) = existsb (fun x => existsb g (f x)) l.
Proof. induction l as [|x l IH]; cbn [flat_map existsb]; [reflexivity|]. rewrite existsb_app, IH. reflexivity. Qed.

Lemma existsb_map {X Y} (f : X -> Y) (g : Y -> bool) l : existsb g (map f l) = existsb (fun x => g (f x)) l.
Proof. induction l as [|x l IH]; cbn [map existsb]; [reflexivity|]. rewrite IH. reflexivity. Qed.

Lemma existsb_ext' {X} (f g : X -> bool) l : (forall x, f x = g x) -> existsb f l = existsb g l.
Proof. intros H. induction l as [|x l IH]; cbn [existsb]; [reflexivity|]. rewrite H, IH. reflexivity. Qed.

Lemma slice_change k o l : existsb entry_change (slice_entries k o l) = existsb scoped_change l.
Proof. unfold slice_entries. rewrite existsb_map. apply existsb_ext'. intros [s t]. reflexivity. Qed.

Lemma has_change_threshold_entries c : has_change_threshold c = existsb (fun s => existsb entry_change (entries s)) (e_specs c).
Proof.
  unfold has_change_threshold. apply existsb_ext'. intros s. unfold entries. rewrite !existsb_app, !existsb_flat_map, existsb_map.
  rewrite <- !orb_assoc. f_equal.
  - apply existsb_ext'. intros m. rewrite !existsb_app, !slice_change. cbn [existsb]. rewrite orb_false_r, orb_assoc. reflexivity.
  - f_equal. f_equal; apply existsb_ext'; intros [n l]; symmetry; apply slice_change.
Qed.

Lemma C109_change_needs_baseline_partial_pf :
  forall c add remove has_baseline stamp,
    update_eval_config_with_defaults c add remove has_baseline stamp = Err RuntimeError <->
    has_baseline <> Some true /\ stamp = false /\
    exists ch, In ch (change_thresholds c) /\ ch <> (None, None, UnknownDirection).
Proof.
  intros c add remove hb stamp.
  assert (HC : has_change_threshold c = true <-> exists ch, In ch (change_thresholds c) /\ ch <> (None, None, UnknownDirection)).
  { rewrite has_change_threshold_entries. unfold change_thresholds. rewrite existsb_exists. split.
    - intros (s & I & X). apply existsb_exists in X. destruct X as (e & J & X). unfold entry_change in X.
      destruct (snd e) as [t|] eqn:SE; [|discriminate]. unfold has_change in X. destruct (mt_change t) as [ch|] eqn:M; [|discriminate].
      exists ch. split; [|intros ->; discriminate]. apply in_flat_map. exists s. split; [exact I|]. apply in_flat_map. exists e. split; [exact J|].
      rewrite SE, M. left. reflexivity.
    - intros (ch & X & D). apply in_flat_map in X. destruct X as (s & I & X). apply in_flat_map in X. destruct X as (e & J & X).
      exists s. split; [exact I|]. apply existsb_exists. exists e. split; [exact J|]. unfold entry_change.
      destruct (snd e) as [t|]; [|destruct X]. unfold has_change. destruct (mt_change t) as [ch'|]; [|destruct X]. destruct X as [->|[]].
      destruct ch as [[[a|] [r|]] []]; try reflexivity. exfalso. apply D. reflexivity. }
  rewrite <- HC. unfold update_eval_config_with_defaults.
  destruct (negb (is_true hb) && has_change_threshold c && negb stamp) eqn:B.
  - apply andb_true_iff in B. destruct B as [B B3]. apply andb_true_iff in B. destruct B as [B1 B2].
    split; [intros _|reflexivity]. split; [intros ->; discriminate|]. split; [destruct stamp; [discriminate|reflexivity]|exact B2].
  - split.
    + intros E. repeat dcase; try discriminate; destruct (fix_names _ _); discriminate.
    + intros (H1 & -> & H3). rewrite H3 in B. destruct hb as [[]|]; cbn in B; try discriminate. congruence.
Qed.

Lemma C110_maybe_add_baseline_adds_refuted_pf :
  forall m, m_name m = "" ->
    exists c', update_eval_config_with_defaults (models_only [m]) (Some true) None (Some false) false = Ok c' /\
      forall m', In m' (e_models c') -> m_is_baseline m' = false.
Proof.
  intros m N. unfold update_eval_config_with_defaults. cbn [models_only e_models e_specs has_change_threshold existsb is_true negb andb orb].
  unfold add_baseline. rewrite N. cbn [set_str String.eqb negb filter rename m_is_baseline].
  destruct (m_is_baseline m) eqn:B; cbn [negb]; (eexists; split; [reflexivity|]); cbn [e_models]; intros m' [<-|[]]; reflexivity.
Qed.

Lemma C110_baseline_added_partial_pf :
  forall c add has_baseline stamp m c',
    e_models c = [m] -> m_name m = "" ->
    (has_baseline = Some true \/ (has_baseline = None /\ add = Some true)) ->
    update_eval_config_with_defaults c add None has_baseline stamp = Ok c' ->
    map m_name (e_models c') = ["candidate"; "baseline"] /\ map unnamed (e_models c') = [unnamed m; rename m "" true] /\
    Forall2 (fun s s' => entries s' = entries s /\ s_models s' = match s_models s with [] => ["candidate"; "baseline"] | l => l end) (e_specs c) (e_specs c').
Proof.
  intros c add hb stamp m c' M N H E. unfold update_eval_config_with_defaults in E.
  match type of E with (if ?b then _ else _) = _ => destruct b; [discriminate|] end.
  match type of E with (if ?b then _ else _) = _ => destruct b; [discriminate|] end.
  match type of E with (if ?b then _ else _) = _ => destruct b; [discriminate|] end.
  rewrite M in E. unfold add_baseline in E. rewrite N in E. cbn [set_str String.eqb negb] in E.
  destruct H as [->|[-> ->]]; cbn [is_true orb] in E; rewrite ?orb_true_r in E; injection E as <-; cbn [e_models e_specs];
    (split; [reflexivity|]); (split; [reflexivity|]);
    induction (e_specs c) as [|s t IH]; constructor; try exact IH; destruct (s_models s) eqn:S1; cbn; auto.
Qed.

(** The metrics of a spec and what belongs to them *)

Definition metric_settings (s : metrics_spec) := (map (fun m => (mc_class m, mc_rest m)) (s_metrics s), s_rest s, map value_part (entries s)).

Lemma clear_settings s : metric_settings (clear_spec s) = metric_settings s.
Proof.
  unfold metric_settings. rewrite (proj1 (clear_spec_same s)). unfold clear_spec. cbn [s_metrics s_rest]. rewrite map_map. reflexivity.
Qed.

Lemma C113_defaults_are_filled_in_pf :
  forall c add remove has_baseline stamp c',
    update_eval_config_with_defaults c add remove has_baseline stamp = Ok c' ->
    e_models c' <> [] /\ (length (e_models c') = 1 -> forall m, In m (e_models c') -> m_name m = "") /\
    Forall2 (fun s s' => metric_settings s' = metric_settings s /\
               s_models s' = if Nat.eqb (length (e_models c')) 1 then [""]
                             else match s_models s with [] => map m_name (e_models c') | l => l end)
            (e_specs c) (e_specs c') /\
    e_compute_ci c' = e_compute_ci c /\ e_rest c' = e_rest c /\
    (e_compute_ci c = true -> e_ci_method c' <> UnknownMethod) /\
    (e_ci_method c <> UnknownMethod \/ e_compute_ci c = false -> e_ci_method c' = e_ci_method c).
Proof.
  intros c add remove hb stamp c' E. unfold update_eval_config_with_defaults in E.
  match type of E with (if ?b then _ else _) = _ => destruct b; [discriminate|] end.
  match type of E with (if ?b then _ else _) = _ => destruct b; [discriminate|] end.
  match type of E with (if ?b then _ else _) = _ => destruct b; [discriminate|] end.
  destruct (fix_names _ _) as [l specs] eqn:F. injection E as <-. cbn [e_models e_specs e_compute_ci e_rest e_ci_method].
  apply fix_names_spec in F. destruct F as (F1 & _ & F3 & _ & ->). split; [exact F1|]. split; [exact F3|]. split.
  - match goal with |- context [if ?b then map clear_spec (e_specs c) else _] => destruct b end.
    + rewrite map_map. induction (e_specs c) as [|s t IH]; constructor; [|exact IH]. change (s_models (clear_spec s)) with (s_models s).
      destruct (s_models s) as [|n ns] eqn:S1.
      * split; [exact (clear_settings s)|]. cbn [set_models s_models]. destruct (Nat.eqb (length l) 1) eqn:L; [|reflexivity].
        apply Nat.eqb_eq in L. specialize (F3 L). destruct l as [|m [|? ?]]; cbn [length] in L; try lia. cbn [map]. rewrite (F3 m); [reflexivity|left; reflexivity].
      * destruct (Nat.eqb (length l) 1); split; try exact (clear_settings s); [reflexivity|exact S1].
    + induction (e_specs c) as [|s t IH]; constructor; [|exact IH].
      destruct (s_models s) as [|n ns] eqn:S1.
      * split; [reflexivity|]. cbn [set_models s_models]. destruct (Nat.eqb (length l) 1) eqn:L; [|reflexivity].
        apply Nat.eqb_eq in L. specialize (F3 L). destruct l as [|m [|? ?]]; cbn [length] in L; try lia. cbn [map]. rewrite (F3 m); [reflexivity|left; reflexivity].
      * destruct (Nat.eqb (length l) 1); split; try reflexivity. exact S1.
  - split; [reflexivity|]. split; [reflexivity|]. split.
    + intros H. rewrite H. destruct (e_ci_method c); discriminate.
    + intros [H|H]; [|rewrite H; reflexivity]. destruct (e_compute_ci c); [|reflexivity]. destruct (e_ci_method c); [congruence| |]; reflexivity.
Qed.

(** Every model named in a metrics spec should be one of the models, if it was before.  Not if
    the baseline is removed, and not if candidate and baseline are named. *)

Definition names_known (c : eval_config) : Prop :=
  forall s n, In s (e_specs c) -> In n (s_models s) -> In n (map m_name (e_models c)).

Lemma C112_named_models_exist_refuted_pf :
  (exists c c', names_known c /\ update_eval_config_with_defaults c None None (Some false) false = Ok c' /\ ~ names_known c') /\
    (exists c c', names_known c /\ update_eval_config_with_defaults c None None (Some true) false = Ok c' /\ ~ names_known c').
Proof.
  split.
  - exists (EvalConfig [named "a" false; named "b" false; named "base" true] [auc_spec ["base"] false] false UnknownMethod "").
    eexists. split; [|split; [reflexivity|]].
    + intros s n [<-|[]] [<-|[]]. right. right. left. reflexivity.
    + intros H. specialize (H _ "base" (or_introl eq_refl) (or_introl eq_refl)). cbn in H. decompose [or] H; try discriminate; assumption.
  - exists (EvalConfig [named "" false] [auc_spec [""] false] false UnknownMethod "").
    eexists. split; [|split; [reflexivity|]].
    + intros s n [<-|[]] [<-|[]]. left. reflexivity.
    + intros H. specialize (H _ "" (or_introl eq_refl) (or_introl eq_refl)). cbn in H. decompose [or] H; try discriminate; assumption.
Qed.

Lemma C112_named_models_exist_partial_pf :
  forall c add remove has_baseline stamp c',
    update_eval_config_with_defaults c add remove has_baseline stamp = Ok c' ->
    (forall s, In s (e_specs c) -> s_models s = []) \/ length (e_models c') = 1 \/
      (names_known c /\ map m_name (e_models c') = map m_name (e_models c)) ->
    names_known c'.
Proof.
  intros c add remove hb stamp c' E H s n I J. destruct (C113_defaults_are_filled_in_pf _ _ _ _ _ _ E) as (N & O & F & _).
  assert (X : exists s0, In s0 (e_specs c) /\ s_models s = (if Nat.eqb (length (e_models c')) 1 then [""] else match s_models s0 with [] => map m_name (e_models c') | l => l end)).
  { clear - F I. induction F as [|x y l l' [_ A] F IH]; [destruct I|]. destruct I as [->|I]; [exists x; split; [left; reflexivity|exact A]|].
    destruct (IH I) as (s0 & B & C). exists s0. split; [right; exact B|exact C]. }
  destruct X as (s0 & I0 & X). rewrite X in J. destruct (Nat.eqb (length (e_models c')) 1) eqn:L.
  - destruct J as [<-|[]]. apply Nat.eqb_eq in L. destruct (e_models c') as [|m t]; [congruence|]. left. apply (O L). left. reflexivity.
  - destruct H as [H|[H|[H1 H2]]].
    + rewrite (H s0 I0) in J. exact J.
    + apply Nat.eqb_neq in L. contradiction.
    + destruct (s_models s0) as [|n0 ns] eqn:S0; [exact J|]. rewrite H2. apply (H1 s0 n I0). rewrite S0. exact J.
Qed.

Lemma C111_defaults_idempotent_refuted_pf :
  exists c x c1 c2,
    update_for_models c x = Ok c1 /\ update_for_models c1 x = Ok c2 /\
    map m_name (e_models c1) = [""] /\ map m_name (e_models c2) = ["candidate"; "baseline"] /\
    forall s, In s (e_specs c2) -> s_models s = [""].
Proof.
  exists (EvalConfig [named "model" false] [auc_spec [] false] false UnknownMethod "").
  exists (ModelList [SharedModel "candidate" false false "/a"; SharedModel "baseline" true false "/b"]).
  eexists. eexists. split; [reflexivity|]. split; [reflexivity|]. split; [reflexivity|]. split; [reflexivity|]. intros s [<-|[]]. reflexivity.
Qed.

Lemma clear_idem t : clear_change (clear_change t) = clear_change t.
Proof. unfold clear_change, has_size. destruct t as [[v|] [ch|]]; reflexivity. Qed.

Lemma clear_scoped_idem t : clear_scoped (clear_scoped t) = clear_scoped t.
Proof. unfold clear_scoped. cbn [sc_specs sc_threshold]. destruct (sc_threshold t); cbn [option_map]; [rewrite clear_idem|]; reflexivity. Qed.

Lemma map_idem {X} (f : X -> X) l : (forall x, f (f x) = f x) -> map f (map f l) = map f l.
Proof. intros H. rewrite map_map. apply map_ext. exact H. Qed.

Lemma clear_spec_idem s : clear_spec (clear_spec s) = clear_spec s.
Proof.
  unfold clear_spec. cbn [s_metrics s_models s_rest s_thresholds s_per_slice s_cross_slice]. f_equal.
  - apply map_idem. intros m. unfold clear_config. cbn [mc_class mc_rest mc_threshold mc_per_slice mc_cross_slice].
    rewrite !(map_idem _ _ clear_scoped_idem). destruct (mc_threshold m); cbn [option_map]; [rewrite clear_idem|]; reflexivity.
  - rewrite map_map. apply map_ext. intros [n t]. cbn [fst snd]. rewrite clear_idem. reflexivity.
  - rewrite map_map. apply map_ext. intros [n t]. cbn [fst snd]. rewrite (map_idem _ _ clear_scoped_idem). reflexivity.
  - rewrite map_map. apply map_ext. intros [n t]. cbn [fst snd]. rewrite (map_idem _ _ clear_scoped_idem). reflexivity.
Qed.

Lemma fix_names_idem l specs l' specs' : fix_names l specs = (l', specs') -> fix_names l' specs' = (l', specs').
Proof.
  intros F. assert (G := fix_names_spec _ _ _ _ F). destruct G as (G1 & _ & G3 & _ & ->).
  destruct l' as [|m [|m2 t]]; [congruence| |].
  - assert (M : rename m "" (m_is_baseline m) = m). { assert (N := G3 eq_refl m (or_introl eq_refl)). destruct m; cbn in N; subst; reflexivity. }
    unfold fix_names. rewrite M. f_equal. rewrite map_map. apply map_ext. intros s. cbn [map length Nat.eqb].
    assert (N := G3 eq_refl m (or_introl eq_refl)). rewrite N. destruct (s_models s); reflexivity.
  - unfold fix_names. f_equal. rewrite map_map. apply map_ext. intros s. destruct (s_models s) eqn:S1; [reflexivity|].
    cbn [map length Nat.eqb]. rewrite S1. reflexivity.
Qed.

Lemma entries_no_change c : (forall s e, In s (e_specs c) -> In e (entries s) -> no_change e) -> has_change_threshold c = false.
Proof.
  intros H. rewrite has_change_threshold_entries. apply existsb_false. intros s I. apply existsb_false. intros e J. unfold entry_change.
  destruct (snd e) as [t|] eqn:T; [|reflexivity]. unfold has_change. rewrite (H s e I J t T). reflexivity.
Qed.

Lemma C111_defaults_idempotent_partial_pf :
  forall c has_baseline stamp c',
    update_eval_config_with_defaults c None None has_baseline stamp = Ok c' ->
    (has_baseline = Some true -> 2 <= length (e_models c) \/ exists m, e_models c = [m] /\ m_name m = "") ->
    update_eval_config_with_defaults c' None None has_baseline stamp = Ok c'.
Proof.
  intros c hb stamp c' E H. assert (C51 := fun s => C51_removal_of_baseline_pf c stamp s).
  assert (E0 := E). unfold update_eval_config_with_defaults in E.
  match type of E with (if ?b then _ else _) = _ => destruct b eqn:B; [discriminate|] end.
  cbn [is_true andb orb] in E. destruct (fix_names _ _) as [l specs] eqn:F. injection E as E.
  assert (I := fix_names_idem _ _ _ _ F). assert (G := fix_names_spec _ _ _ _ F). destruct G as (G1 & G2 & G3 & G4 & G5).
  unfold update_eval_config_with_defaults. cbn [is_true andb orb].
  assert (HC : negb (is_true hb) && has_change_threshold c' && negb stamp = false).
  { destruct hb as [[]|]; cbn [is_true negb andb] in *.
    - reflexivity.
    - destruct (C51 _ E0) as (_ & _ & D). rewrite entries_no_change; [reflexivity|]. intros s e X Y.
      clear - D X Y. induction D as [|a b x y [_ P] D IH]; [destruct X|]. destruct X as [->|X]; auto.
    - assert (P : has_change_threshold c' = has_change_threshold c).
      { rewrite !has_change_threshold_entries. rewrite <- E. cbn [e_specs]. rewrite G5. rewrite existsb_map. apply existsb_ext'. intros s.
        destruct (s_models s); [reflexivity|]. destruct (Nat.eqb _ _); reflexivity. }
      rewrite P. exact B. }
  rewrite HC. rewrite <- E. cbn [e_models e_specs e_compute_ci e_ci_method e_rest].
  destruct hb as [[]|]; cbn [is_true] in *.
  - assert (A : add_baseline l = l).
    { destruct (H eq_refl) as [L|(m & M & N)].
      - destruct (e_models c) as [|m1 [|m2 t]]; cbn [length] in L; try lia. cbn [add_baseline] in G4. rewrite G4; [reflexivity| |discriminate]. cbn [length]. lia.
      - rewrite M in F. unfold add_baseline in F. rewrite N in F. cbn [set_str String.eqb negb] in F. injection F as <- <-. reflexivity. }
    rewrite A, I. destruct (e_compute_ci c), (e_ci_method c); reflexivity.
  - assert (A : filter (fun m => negb (m_is_baseline m)) l = l).
    { destruct (C51 _ E0) as (D & _ & _). rewrite <- E in D. cbn [e_models] in D. clear - D. induction l as [|m l IH]; [reflexivity|]. cbn [filter].
      rewrite (D m (or_introl eq_refl)). cbn [negb]. f_equal. apply IH. intros m' X. apply D. right. exact X. }
    rewrite A. replace (map clear_spec specs) with specs; [rewrite I; destruct (e_compute_ci c), (e_ci_method c); reflexivity|]. rewrite G5, map_map, map_map. apply map_ext. intros s.
    change (s_models (clear_spec s)) with (s_models s). destruct (s_models s); [|destruct (Nat.eqb _ _)].
    + change (clear_spec (set_models (clear_spec s) (map m_name l))) with (set_models (clear_spec (clear_spec s)) (map m_name l)). rewrite clear_spec_idem. reflexivity.
    + change (clear_spec (set_models (clear_spec s) [""])) with (set_models (clear_spec (clear_spec s)) [""]). rewrite clear_spec_idem. reflexivity.
    + rewrite clear_spec_idem. reflexivity.
  - rewrite I. destruct (e_compute_ci c), (e_ci_method c); reflexivity.
Qed.

Lemma C114_model_names_differ_refuted_pf :
  exists x l, verify_and_update_eval_shared_models x = Ok (Some l) /\ ~ NoDup (map sm_name l).
Proof.
  exists (ModelList [SharedModel "m" false false "/a"; SharedModel "m" true false "/b"]). eexists. split; [reflexivity|].
  intros N. inversion N as [|? ? X _]. apply X. left. reflexivity.
Qed.

Lemma C114_models_are_normalized_partial_pf :
  forall x l, verify_and_update_eval_shared_models x = Ok (Some l) ->
    l <> [] /\
    map sm_path l = match x with NoModel => [] | OneModel m => [sm_path m] | ModelList t => map sm_path t | ModelDict t => map (fun kv => sm_path (snd kv)) t end /\
    (length l = 1 -> map sm_name l = [""]) /\ (length l <> 1 -> forall m, In m l -> sm_name m <> "") /\
    verify_and_update_eval_shared_models (ModelList l) = Ok (Some l) /\
    (forall d, x = ModelDict d -> length d <> 1 -> NoDup (map fst d) -> ~ In "" (map fst d) -> map sm_name l = map fst d /\ NoDup (map sm_name l)).
Proof.
  intros x l E.
  assert (Z : exists t, model_list x = Ok t /\ t <> [] /\ ((exists m, t = [m] /\ l = [with_name m ""]) \/ (length t <> 1 /\ l = t /\ forall m, In m t -> sm_name m <> ""))).
  { unfold verify_and_update_eval_shared_models in E.
    assert (E' : bind (model_list x) (fun l => match l with [m] => Ok (Some [with_name m ""]) | _ => if forallb (fun m => set_str (sm_name m)) l then Ok (Some l) else Err ValueError end) = Ok (Some l) /\
                 forall t, model_list x = Ok t -> t <> []).
    { destruct x as [|m|[|m0 t0]|[|m0 t0]]; try discriminate; (split; [exact E|]); intros t T.
      - injection T as <-. discriminate.
      - injection T as <-. discriminate.
      - intros ->. unfold model_list in T. cbn [mapM] in T. destruct m0 as [k v]. destruct (_ && _ && _) in T; [discriminate|]. cbn [bind] in T.
        destruct (mapM _ t0) in T; discriminate. }
    clear E. destruct E' as [E NE]. destruct (model_list x) as [t|]; [|discriminate]. cbn [bind] in E. exists t. split; [reflexivity|].
    split; [apply NE; reflexivity|]. specialize (NE t eq_refl). destruct t as [|m [|m2 t]]; [congruence| |].
    - left. exists m. split; [reflexivity|congruence].
    - right. split; [cbn [length]; lia|]. destruct (forallb _ _) eqn:F; [|discriminate]. split; [congruence|].
      intros m' I. rewrite forallb_forall in F. apply set_str_iff. exact (F m' I). }
  destruct Z as (t & T & NE & Z).
  assert (P : map sm_path t = match x with NoModel => [] | OneModel m => [sm_path m] | ModelList t => map sm_path t | ModelDict t => map (fun kv => sm_path (snd kv)) t end).
  { destruct x as [|m|u|u]; try (injection T as <-; reflexivity). clear - T. unfold model_list in T. revert t T.
    induction u as [|[k v] u IH]; intros t T; cbn [mapM] in T; [injection T as <-; reflexivity|].
    destruct (_ && _ && _) in T; [discriminate|]. cbn [bind] in T. destruct (mapM _ u) as [t'|]; [|discriminate]. cbn [bind] in T. injection T as <-.
    cbn [map snd]. rewrite (IH t' eq_refl). f_equal. destruct (_ && _); reflexivity. }
  split; [destruct Z as [(m & -> & ->)|(_ & -> & _)]; [discriminate|exact NE]|].
  split; [rewrite <- P; destruct Z as [(m & -> & ->)|(_ & -> & _)]; reflexivity|].
  split; [intros L; destruct Z as [(m & -> & ->)|(N & -> & _)]; [reflexivity|contradiction]|].
  split; [intros L; destruct Z as [(m & -> & ->)|(N & -> & Z)]; [exfalso; apply L; reflexivity|exact Z]|].
  split.
  - destruct Z as [(m & -> & ->)|(N & -> & Z)]; [reflexivity|]. destruct t as [|m [|m2 t]]; [congruence|exfalso; apply N; reflexivity|].
    unfold verify_and_update_eval_shared_models. cbn [model_list bind].
    assert (F : forallb (fun m0 => set_str (sm_name m0)) (m :: m2 :: t) = true) by (apply forallb_forall; intros m' I; apply set_str_iff; auto).
    rewrite F. reflexivity.
  - intros d -> L ND NB.
    assert (Q : map sm_name t = map fst d /\ length t = length d).
    { unfold model_list in T. clear - T NB. revert t T. induction d as [|[k v] d IH]; intros t T; cbn [mapM] in T; [injection T as <-; split; reflexivity|].
      destruct (set_str (sm_name v) && set_str k && negb (String.eqb k (sm_name v))) eqn:B; [discriminate|]. cbn [bind] in T.
      destruct (mapM _ d) as [t'|] eqn:M; [|discriminate]. cbn [bind] in T. injection T as <-. cbn [map fst length].
      destruct (IH (fun X => NB (or_intror X)) t' eq_refl) as [IH1 IH2]. rewrite IH1, IH2. split; [|reflexivity]. f_equal.
      assert (K : set_str k = true) by (apply set_str_iff; intros ->; apply NB; left; reflexivity). rewrite K in B |- *. rewrite andb_true_r in B |- *.
      destruct (set_str (sm_name v)) eqn:SN; cbn [negb andb] in *; [|reflexivity]. apply negb_false_iff in B. apply String.eqb_eq in B. congruence. }
    destruct Z as [(m & -> & ->)|(N & -> & Z)]; [destruct Q as [_ Q]; cbn [length] in Q; congruence|]. destruct Q as [Q _]. rewrite Q. split; [reflexivity|exact ND].
Qed.

Lemma C116_rubber_stamp_needs_all_candidates_pf :
  forall x, has_rubber_stamp x = Ok true <->
    exists l, x = Some l /\ (forall m, In m l -> sm_baseline m = false -> sm_stamp m = true) /\
      (forall m, l = [m] -> sm_baseline m = false).
Proof.
  intros x. destruct x as [[|m [|m2 t]]|]; cbn [has_rubber_stamp].
  - split; [intros _; exists []; split; [reflexivity|]; split; [intros m []|discriminate]|reflexivity].
  - destruct (sm_baseline m) eqn:B.
    + split; [discriminate|]. intros (l & E & _ & H). injection E as <-. rewrite (H m eq_refl) in B. discriminate.
    + split.
      * intros E. exists [m]. split; [reflexivity|]. split; [intros m' [<-|[]] _; congruence|intros m' X; injection X as <-; exact B].
      * intros (l & E & H & _). injection E as <-. f_equal. apply H; [left; reflexivity|exact B].
  - split.
    + intros E. injection E as E. exists (m :: m2 :: t). split; [reflexivity|]. split; [|discriminate]. rewrite andb_assoc in E.
      assert (F : forallb (fun m => if sm_baseline m then true else sm_stamp m) (m :: m2 :: t) = true) by (cbn [forallb]; rewrite andb_assoc; exact E).
      rewrite forallb_forall in F. intros m' I B. specialize (F m' I). cbv beta in F. rewrite B in F. exact F.
    + intros (l & E & H & _). injection E as <-. f_equal.
      change (forallb (fun m => if sm_baseline m then true else sm_stamp m) (m :: m2 :: t) = true). apply forallb_forall. intros m' I.
      destruct (sm_baseline m') eqn:B; [reflexivity|apply H; assumption].
  - split; [discriminate|]. intros (l & E & _). discriminate.
Qed.

(** What the result of several models holds for one of them. *)

Definition part_for {V} (r : @fresult V) (m : string) : option (@fvalue V) :=
  match r with PerModel d => dget String.eqb d m | _ => None end.

Lemma values_fold {V} features transformed allow field fields (ms : list model_spec) (d : list (string * @fvalue V)) n :
  NoDup (map m_name ms) ->
  dget String.eqb (fold_left (fun d m => match value_of_spec features transformed allow field fields m with
                                         | Some v => dset String.eqb d (m_name m) v
                                         | None => d
                                         end) ms d) n
  = match find (fun m => String.eqb (m_name m) n) ms with
    | Some m => match value_of_spec features transformed allow field fields m with Some v => Some v | None => dget String.eqb d n end
    | None => dget String.eqb d n
    end.
Proof.
  revert d. induction ms as [|m ms IH]; intros d ND; cbn [fold_left find]; [reflexivity|].
  cbn [map] in ND. inversion ND as [|? ? N1 N2]; subst. rewrite IH by exact N2.
  destruct (String.eqb_spec (m_name m) n) as [<-|D].
  - assert (F : find (fun m0 => String.eqb (m_name m0) (m_name m)) ms = None).
    { destruct (find _ ms) as [m'|] eqn:F; [|reflexivity]. apply find_some in F. destruct F as [F1 F2]. apply String.eqb_eq in F2.
      exfalso. apply N1. rewrite <- F2. apply in_map. exact F1. }
    rewrite F. destruct (value_of_spec _ _ _ _ _ m) as [v|]; [|reflexivity]. rewrite (dget_dset _ String.eqb_eq). rewrite String.eqb_refl. reflexivity.
  - assert (G : dget String.eqb (match value_of_spec features transformed allow field fields m with Some v => dset String.eqb d (m_name m) v | None => d end) n = dget String.eqb d n).
    { destruct (value_of_spec _ _ _ _ _ m) as [v|]; [|reflexivity]. rewrite (dget_dset _ String.eqb_eq).
      destruct (String.eqb_spec n (m_name m)); [congruence|reflexivity]. }
    rewrite G. reflexivity.
Qed.

Lemma C115_values_by_model_pf :
  forall V (features : list (string * V)) transformed allow field fields ms m v,
    NoDup (map m_name ms) -> 2 <= length ms -> In m ms -> v <> One None ->
    (part_for (get_feature_values features transformed allow field fields ms) (m_name m) = Some v <->
     get_feature_values features transformed allow field fields [m] = Single v).
Proof.
  intros V features transformed allow field fields ms m v ND L I NV.
  assert (F := values_fold features transformed allow field fields ms [] (m_name m) ND).
  assert (FM : find (fun m0 => String.eqb (m_name m0) (m_name m)) ms = Some m).
  { clear - ND I. induction ms as [|x ms IH]; [destruct I|]. cbn [map] in ND. inversion ND as [|? ? N1 N2]; subst. cbn [find].
    destruct (String.eqb_spec (m_name x) (m_name m)) as [E|D].
    - destruct I as [->|I]; [reflexivity|]. exfalso. apply N1. rewrite E. apply in_map. exact I.
    - destruct I as [->|I]; [congruence|apply IH; assumption]. }
  rewrite FM in F. unfold get_feature_values. cbn [fold_left length Nat.eqb].
  assert (LN : Nat.eqb (length ms) 1 = false) by (apply Nat.eqb_neq; lia). rewrite LN.
  set (d := fold_left _ ms []) in *. clearbody d.
  assert (P : part_for match d with [] => NoValues | (_, _) :: _ => PerModel d end (m_name m) = dget String.eqb d (m_name m)) by (destruct d as [|[? ?] ?]; reflexivity).
  rewrite P, F. destruct (value_of_spec features transformed allow field fields m) as [w|].
  - cbn [dset]. destruct w as [[w|]|w]; split; intros E; try discriminate; congruence.
  - cbn [dget]. split; discriminate.
Qed.

Definition two_heads : model_spec := ModelSpec "b" "" [("h1", "l1"); ("h2", "l2")] "" [] "" [] true "".

(** The value stored for a model under a key: of its own transformed features, else of the
    features. *)

Definition stored_value {V} (features : list (string * V)) (transformed : string -> list (string * V)) (m key : string) : option V :=
  match dget String.eqb (transformed m) key with Some v => Some v | None => dget String.eqb features key end.

Lemma C115_missing_values_are_none_pf :
  forall V (features : list (string * V)) transformed field fields ms m,
    NoDup (map m_name ms) -> 2 <= length ms -> In m ms ->
    part_for (get_feature_values features transformed true field fields ms) (m_name m) =
    Some (if String.eqb (field m) "" then
            match fields m with
            | [] => One None
            | l => PerOutput (map (fun ok => (fst ok, stored_value features transformed (m_name m) (snd ok))) l)
            end
          else One (stored_value features transformed (m_name m) (field m))).
Proof.
  intros V features transformed field fields ms m ND L I.
  assert (F := values_fold features transformed true field fields ms [] (m_name m) ND).
  assert (FM : find (fun m0 => String.eqb (m_name m0) (m_name m)) ms = Some m).
  { clear - ND I. induction ms as [|x ms IH]; [destruct I|]. cbn [map] in ND. inversion ND as [|? ? N1 N2]; subst. cbn [find].
    destruct (String.eqb_spec (m_name x) (m_name m)) as [E|D].
    - destruct I as [->|I]; [reflexivity|]. exfalso. apply N1. rewrite E. apply in_map. exact I.
    - destruct I as [->|I]; [congruence|apply IH; assumption]. }
  rewrite FM in F. unfold get_feature_values.
  assert (LN : Nat.eqb (length ms) 1 = false) by (apply Nat.eqb_neq; lia). rewrite LN.
  set (d := fold_left _ ms []) in *. clearbody d.
  assert (P : part_for match d with [] => NoValues | (_, _) :: _ => PerModel d end (m_name m) = dget String.eqb d (m_name m)) by (destruct d as [|[? ?] ?]; reflexivity).
  rewrite P, F.
  assert (LK : forall key, lookup features transformed true (m_name m) key = Some (stored_value features transformed (m_name m) key)).
  { intros key. unfold lookup, stored_value. destruct (dget String.eqb (transformed (m_name m)) key); [reflexivity|]. destruct (dget String.eqb features key); reflexivity. }
  unfold value_of_spec, set_str. destruct (String.eqb (field m) ""); cbn [negb].
  - destruct (fields m) as [|ok l]; [reflexivity|].
    assert (G : forall l, flat_map (fun ok : string * string => match lookup features transformed true (m_name m) (snd ok) with Some v => [(fst ok, v)] | None => [] end) l
              = map (fun ok => (fst ok, stored_value features transformed (m_name m) (snd ok))) l).
    { clear -LK. induction l as [|x l IH]; [reflexivity|]. cbn [flat_map map]. rewrite LK, IH. reflexivity. }
    rewrite G. reflexivity.
  - rewrite LK. reflexivity.
Qed.

(** The first of a list with a property. *)

Definition first_with {A} (P : A -> Prop) (l : list A) (a : A) : Prop :=
  exists before after, l = before ++ a :: after /\ P a /\ forall b, In b before -> ~ P b.

Lemma find_first {A} (f : A -> bool) (P : A -> Prop) l : (forall a, f a = true <-> P a) ->
  match find f l with Some a => first_with P l a | None => forall a, In a l -> ~ P a end.
Proof.
  intros H. induction l as [|x l IH]; [intros a []|]. cbn [find]. destruct (f x) eqn:F.
  - exists [], l. split; [reflexivity|]. split; [apply H; exact F|intros b []].
  - assert (N : ~ P x) by (intros C; apply H in C; congruence). destruct (find f l) as [a|].
    + destruct IH as (b & c & -> & B & C). exists (x :: b), c. split; [reflexivity|]. split; [exact B|]. intros y [<-|I]; [exact N|exact (C y I)].
    + intros a [<-|I]; [exact N|exact (IH a I)].
Qed.

Lemma C138_baseline_spec_pf : forall c,
  match get_baseline_model_spec c with
  | Some m => first_with (fun m => m_is_baseline m = true) (e_models c) m
  | None => forall m, In m (e_models c) -> m_is_baseline m = false
  end.
Proof.
  intros c. generalize (find_first m_is_baseline (fun m => m_is_baseline m = true) (e_models c) (fun a => conj (fun h => h) (fun h => h))).
  unfold get_baseline_model_spec. destruct (find m_is_baseline (e_models c)); [auto|]. intros H m I. specialize (H m I). destruct (m_is_baseline m); congruence.
Qed.

Lemma C138_spec_by_name_pf : forall c name,
  match get_model_spec c name with
  | Some m => (name = "" /\ e_models c = [m]) \/ first_with (fun m => m_name m = name) (e_models c) m
  | None => forall m, In m (e_models c) -> m_name m <> name /\ (name = "" -> length (e_models c) <> 1)
  end.
Proof.
  intros c name. unfold get_model_spec.
  assert (FF : forall l, match find (fun m => String.eqb (m_name m) name) l with
                         | Some m => first_with (fun m => m_name m = name) l m
                         | None => forall m, In m l -> m_name m <> name end).
  { intros l. apply (find_first (fun m => String.eqb (m_name m) name) (fun m => m_name m = name)). intros a. apply String.eqb_eq. }
  destruct (e_models c) as [|m [|m2 l]].
  - intros m [].
  - unfold set_str. destruct (String.eqb_spec name "") as [E|E]; cbn [negb]; [left; auto|]. destruct (String.eqb_spec (m_name m) name) as [E2|E2].
    + right. exists [], []. split; [reflexivity|]. split; [exact E2|intros b []].
    + intros m' [<-|[]]. split; [exact E2|congruence].
  - specialize (FF (m :: m2 :: l)). destruct (find _ (m :: m2 :: l)) as [x|]; [right; exact FF|]. intros m' I. split; [exact (FF m' I)|]. intros _. cbn. lia.
Qed.

Lemma C138_label_key_pf : forall m output,
  (m_label_key m <> "" -> get_label_key m output = Ok (Some (m_label_key m))) /\
  (m_label_key m = "" -> m_label_keys m = [] -> get_label_key m output = Ok None) /\
  (m_label_key m = "" -> m_label_keys m <> [] -> output = "" -> get_label_key m output = Err ValueError) /\
  (m_label_key m = "" -> output <> "" -> NoDup (map fst (m_label_keys m)) ->
     forall k, In (output, k) (m_label_keys m) -> get_label_key m output = Ok (Some k)).
Proof.
  intros m output. unfold get_label_key, set_str. repeat apply conj.
  - intros H. apply String.eqb_neq in H. rewrite H. reflexivity.
  - intros -> ->. reflexivity.
  - intros -> N ->. cbn. destruct (m_label_keys m); [congruence|reflexivity].
  - intros -> N ND k I. cbn [String.eqb negb]. apply String.eqb_neq in N. rewrite N. cbn [negb].
    apply (dget_In_NoDup _ String.eqb_eq _ output k ND) in I. destruct (m_label_keys m) as [|x l]; [discriminate|]. rewrite I. reflexivity.
Qed.

Lemma C138_unknown_output_refuted_pf : exists m output,
  m_label_keys m <> [] /\ ~ In output (map fst (m_label_keys m)) /\ get_label_key m output = Ok (Some "").
Proof. exists two_heads, "h3". repeat apply conj; [discriminate| |reflexivity]. cbn. intuition discriminate. Qed.

Lemma C138_model_by_name_pf : forall name d, NoDup (map fst d) ->
  (forall m, In (name, m) d -> get_eval_shared_model name d = Ok m) /\
  (~ In name (map fst d) -> forall m, d = [("", m)] -> get_eval_shared_model name d = Ok m) /\
  (~ In name (map fst d) -> (forall m, d <> [("", m)]) -> get_eval_shared_model name d = Err ValueError).
Proof.
  intros name d N. unfold get_eval_shared_model. repeat apply conj.
  - intros m I. apply (dget_In_NoDup _ String.eqb_eq d name m N) in I. rewrite I. reflexivity.
  - intros H m ->. apply (dget_None _ String.eqb_eq) in H. rewrite H. reflexivity.
  - intros H D. apply (dget_None _ String.eqb_eq) in H. rewrite H. destruct d as [|[k m] [|x d]]; try reflexivity.
    destruct (String.eqb_spec k "") as [->|]; [elim (D m eq_refl)|reflexivity].
Qed.

Lemma C51_one_model_has_no_baseline_pf :
  forall c m c', update_for_models c (OneModel m) = Ok c' ->
    sm_baseline m = false /\ (forall m, In m (e_models c') -> m_is_baseline m = false) /\
    Forall2 (fun s s' => same_values (entries s) (entries s')) (e_specs c) (e_specs c').
Proof.
  intros c m c' E. unfold update_for_models in E. cbn [verify_and_update_eval_shared_models model_list bind has_rubber_stamp with_name sm_baseline sm_stamp] in E.
  destruct (sm_baseline m); [discriminate|]. cbn [bind] in E. destruct (C51_removal_of_baseline_pf c (sm_stamp m) c' E) as (A & _ & B). auto.
Qed.
