(* Proofs of the theorems restated in Features_Properties.v. *)
From Coq Require Import String Ascii.
From Verif Require Import Base BaseFacts Slicer_Model Inputs_Model Sums_Model Util_Model Util_Main Evaluator_Model Evaluator_Main Features_Model.
Local Open Scope string_scope.
Local Open Scope list_scope.

(* C315 - C317: the extracts that computations ask for by name. *)

(** q starts with one of the names and goes on as P says; without names it is as P says *)

Definition inside (names : list string) (P : list string -> Prop) (q : list string) : Prop :=
  (names = [] /\ P q) \/ exists n r, In n names /\ q = n :: r /\ P r.

Definition anywhere (q : list string) : Prop := True.

(** The labels, predictions and example weights of the models and outputs named. *)

Definition default_input (models outputs : list string) (p : list string) : Prop :=
  exists s q, In s ["labels"; "predictions"; "example_weights"] /\ p = s :: q /\ inside models (inside outputs anywhere) q.

Definition below (s : string) (P : list string -> Prop) (p : list string) : Prop := exists q, p = s :: q /\ P q.

(** Of each example one extract, that has what is wanted of the example and nothing else. *)

Definition selects {A} (wanted : list string -> Prop) (e : data A) (l : list (data A)) : Prop :=
  exists x, l = [x] /\ forall p a, leaf_at x p a <-> leaf_at e p a /\ wanted p.

Lemma covered_nest names f p : covered (nest names f) p <-> inside names (covered f) p.
Proof.
  unfold inside. destruct names as [|n ns].
  - split; [intro H; left; auto|]. intros [[_ H]|(n & r & [] & _)]. exact H.
  - assert (E : nest (n :: ns) f = Filt (map (fun m => (m, f)) (n :: ns))) by reflexivity. rewrite E. clear E.
    assert (NE : map (fun m => (m, f)) (n :: ns) <> []) by discriminate.
    assert (I : forall k g, In (k, g) (map (fun m => (m, f)) (n :: ns)) <-> In k (n :: ns) /\ g = f).
    { intros k g. rewrite in_map_iff. split; [intros (m & E & H); injection E as -> <-; auto|intros [H ->]; exists k; auto]. }
    revert NE I. generalize (map (fun m => (m, f)) (n :: ns)). intros fs NE I. split.
    + intros H. right. inversion H as [|fs0 k sub q J C]; subst; [destruct (NE eq_refl)|].
      apply I in J. destruct J as [J ->]. exists k, q. auto.
    + intros [[E _]|(m & r & J & -> & C)]; [discriminate|].
      apply cov_sub with f; [apply I; auto|exact C].
Qed.

Lemma inside_ext names P Q q : (forall r, P r <-> Q r) -> (inside names P q <-> inside names Q q).
Proof.
  intros E. unfold inside. split; intros [[H1 H2]|(n & r & H1 & H2 & H3)];
    try (left; split; [exact H1|apply E; exact H2]); right; exists n, r; (split; [exact H1|]; split; [exact H2|apply E; exact H3]).
Qed.

Lemma dedup_nil (l : list string) : dedup String.eqb l = [] <-> l = [].
Proof.
  split; [|intros ->; reflexivity]. intros E. destruct l as [|x l]; [reflexivity|].
  assert (I : In x (dedup String.eqb (x :: l))) by (apply (dedup_In String.eqb String.eqb_eq); left; reflexivity).
  rewrite E in I. destruct I.
Qed.

Lemma covered_all p : covered (Filt []) p <-> anywhere p.
Proof. split; [constructor|intros; constructor]. Qed.

Lemma covered_keys keys p : covered (keys_filter keys) p <-> inside keys anywhere p.
Proof.
  unfold keys_filter. rewrite covered_nest. unfold inside. rewrite dedup_nil. split.
  - intros [[H1 H2]|(n & r & H1 & H2 & H3)]; [left; split; [exact H1|exact I]|]. right. exists n, r.
    split; [apply (dedup_In String.eqb String.eqb_eq); exact H1|]. split; [exact H2|exact I].
  - intros [[H1 H2]|(n & r & H1 & H2 & H3)]; [left; split; [exact H1|constructor]|]. right. exists n, r.
    split; [apply (dedup_In String.eqb String.eqb_eq); exact H1|]. split; [exact H2|constructor].
Qed.

Lemma unique_nest names f : NoDup names -> unique_filter f -> unique_filter (nest names f).
Proof.
  intros N U. unfold nest. destruct names as [|n ns]; [exact U|]. constructor.
  - rewrite map_map. cbn [fst]. rewrite map_id. exact N.
  - intros k g I. apply in_map_iff in I. destruct I as (m & E & _). injection E as _ <-. exact U.
Qed.

Lemma unique_all : unique_filter (Filt []).
Proof. constructor; [constructor|intros k f []]. Qed.

Lemma unique_keys_filter keys : unique_filter (keys_filter keys).
Proof. apply unique_nest; [apply dedup_NoDup, String.eqb_eq|apply unique_all]. Qed.

(** A filter that can be applied fits. *)

Lemma include_fits {A} : forall f (t x : data A), unique_keys t -> unique_filter f -> include_filter f t = Ok x -> fits f t.
Proof.
  induction f as [fs IH] using filt_ind'; intros t x Ut Uf E.
  destruct fs as [|f0 fs0]; [constructor|]. destruct t as [a|d]; [discriminate|].
  inversion Ut as [|d1 Nd Ud]; subst. inversion Uf as [fs1 Nf Ufs]; subst.
  set (fs := f0 :: fs0) in *.
  set (step := fun (acc : list (string * data A)) ks =>
              match dget String.eqb d (fst ks) with
              | None => Ok acc
              | Some v => let! r := include_filter (snd ks) v in Ok (dset String.eqb acc (fst ks) r)
              end).
  change (include_filter (Filt fs) (Dict d)) with (let! l := foldM step fs [] in Ok (Dict l)) in E.
  destruct (foldM step fs []) as [l|] eqn:EF; [|discriminate].
  assert (G : forall gs acc l0, foldM step gs acc = Ok l0 -> forall k sub v, In (k, sub) gs -> In (k, v) d -> exists r, include_filter sub v = Ok r).
  { induction gs as [|[k0 s0] gs IHg]; intros acc l0 EG k sub v I1 I2; [destruct I1|].
    cbn [foldM] in EG. unfold step at 1 in EG. cbn [fst snd] in EG. destruct I1 as [I1|I1].
    - injection I1 as -> ->. rewrite (dgetS_In' d k v Nd I2) in EG.
      destruct (include_filter sub v) as [r|]; [exists r; reflexivity|discriminate].
    - destruct (dget String.eqb d k0) as [v0|]; [destruct (include_filter s0 v0) as [r|]; [|discriminate]|]; cbn [bind] in EG;
        exact (IHg _ _ EG k sub v I1 I2). }
  constructor. intros k sub v I1 I2. destruct (G fs [] l EF k sub v I1 I2) as (r & ER).
  apply (IH k sub I1 v r); [eapply Ud; exact I2|eapply Ufs; exact I1|exact ER].
Qed.

Lemma process_selects {A} f (e : data A) l : f <> Filt [] -> unique_keys e -> unique_filter f -> standard_process f e = Ok l ->
  selects (covered f) e l.
Proof.
  intros N Ue Uf E. unfold standard_process in E. destruct (include_filter f e) as [x|] eqn:EI; [|discriminate]. cbn [bind] in E.
  destruct f as [[|f0 fs]]; [destruct (N eq_refl)|]. injection E as <-. exists x. split; [reflexivity|].
  destruct (include_spec _ e Ue Uf (include_fits _ _ _ Ue Uf EI)) as (x' & E' & _ & L). rewrite EI in E'. injection E' as <-. exact L.
Qed.

Lemma selects_ext {A} P Q (e : data A) l : (forall p, P p <-> Q p) -> selects P e l -> selects Q e l.
Proof. intros E (x & L & H). exists x. split; [exact L|]. intros p a. rewrite H, E. tauto. Qed.

Lemma covered_cons k f fs p : covered (Filt ((k, f) :: fs)) p <->
  below k (covered f) p \/ (fs <> [] /\ covered (Filt fs) p).
Proof.
  unfold below. split.
  - intros H. inversion H as [|fs0 k0 sub q I C]; subst. destruct I as [I|I].
    + injection I as -> ->. left. exists q. auto.
    + right. split; [intros ->; destruct I|]. apply cov_sub with sub; assumption.
  - intros [(q & -> & C)|[N C]].
    + apply cov_sub with f; [left; reflexivity|exact C].
    + inversion C as [q E|fs0 k0 sub q I C']; subst; [destruct (N eq_refl)|]. apply cov_sub with sub; [right; exact I|exact C'].
Qed.

Definition the_default (models outputs : list string) : list (string * filt) :=
  let d := nest models (nest outputs (Filt [])) in [("labels", d); ("predictions", d); ("example_weights", d)].

Lemma covered_default models outputs p : covered (Filt (the_default models outputs)) p <-> default_input models outputs p.
Proof.
  assert (N : forall q, covered (nest models (nest outputs (Filt []))) q <-> inside models (inside outputs anywhere) q).
  { intros q. rewrite covered_nest. apply inside_ext. intros r. rewrite covered_nest. apply inside_ext. intros s. apply covered_all. }
  unfold the_default, default_input. split.
  - intros H. inversion H as [|fs k sub q I C]; subst. exists k, q.
    destruct I as [I|[I|[I|[]]]]; injection I as <- <-; (split; [cbn [In]; tauto|]; split; [reflexivity|apply N; exact C]).
  - intros (s & q & I & -> & C). apply N in C. apply cov_sub with (nest models (nest outputs (Filt []))); [|exact C].
    destruct I as [<-|[<-|[<-|[]]]]; cbn [In]; tauto.
Qed.

Lemma unique_default models outputs s : NoDup models -> NoDup outputs -> In s (the_default models outputs) -> unique_filter (snd s).
Proof.
  intros M O I. assert (U : unique_filter (nest models (nest outputs (Filt [])))) by (apply unique_nest; [exact M|apply unique_nest; [exact O|apply unique_all]]).
  destruct I as [<-|[<-|[<-|[]]]]; exact U.
Qed.

(** One section beside the default inputs. *)

Lemma one_section {A} k f dflt models outputs (e : data A) l :
  ~ In k ["labels"; "predictions"; "example_weights"] -> NoDup models -> NoDup outputs -> unique_filter f -> unique_keys e ->
  standard_process (standard_filter [(k, f)] dflt models outputs) e = Ok l ->
  selects (fun p => (dflt = true /\ default_input models outputs p) \/ below k (covered f) p) e l.
Proof.
  intros NI M O U Ue E.
  assert (S : standard_filter [(k, f)] dflt models outputs = Filt ((k, f) :: (if dflt then the_default models outputs else []))).
  { unfold standard_filter, LABELS_KEY, PREDICTIONS_KEY, EXAMPLE_WEIGHTS_KEY. destruct dflt; [|reflexivity].
    unfold dupdate. cbn [fold_left fst snd dset].
    destruct (String.eqb "labels" k) eqn:E1; [apply String.eqb_eq in E1; destruct NI; cbn [In]; tauto|]. cbn [dset].
    destruct (String.eqb "predictions" k) eqn:E2; [apply String.eqb_eq in E2; destruct NI; cbn [In]; tauto|].
    destruct (String.eqb "example_weights" k) eqn:E3; [apply String.eqb_eq in E3; destruct NI; cbn [In]; tauto|].
    change (String.eqb "predictions" "labels") with false. cbv iota. cbn [dset]. rewrite E3. reflexivity. }
  rewrite S in E. apply process_selects in E; [|discriminate|exact Ue|].
  - revert E. apply selects_ext. intros p. rewrite covered_cons. destruct dflt.
    + rewrite covered_default. split; [intros [H|[_ H]]; tauto|]. intros [[_ H]|H]; [right; split; [discriminate|exact H]|left; exact H].
    + split; [intros [H|[H _]]; [right; exact H|destruct (H eq_refl)]|]. intros [[H _]|H]; [discriminate|left; exact H].
  - constructor.
    + destruct dflt; cbn [map fst the_default].
      * constructor; [cbn [In]; intros H; apply NI; cbn [In]; tauto|]. repeat (constructor; [cbn [In]; intuition discriminate|]). constructor.
      * constructor; [intros []|constructor].
    + intros k' g [I|I]; [injection I as _ <-; exact U|]. destruct dflt; [|destruct I].
      exact (unique_default models outputs (k', g) M O I).
Qed.

Ltac not_default := cbn [In]; unfold FEATURES_KEY, TRANSFORMED_FEATURES_KEY, ATTRIBUTIONS_KEY, INPUT_KEY; intuition discriminate.

Lemma C315_features_pf :
  forall (A : Type) keys dflt models outputs (e : data A) l, unique_keys e -> NoDup models -> NoDup outputs ->
    standard_process (feature_preprocessor keys dflt models outputs) e = Ok l ->
    selects (fun p => (dflt = true /\ default_input models outputs p) \/ below "features" (inside keys anywhere) p) e l.
Proof.
  intros A keys dflt models outputs e l Ue M O E. apply one_section in E; [|not_default|exact M|exact O|apply unique_keys_filter|exact Ue].
  revert E. apply selects_ext. intros p. unfold below. setoid_rewrite covered_keys. tauto.
Qed.

Lemma C315_transformed_features_pf :
  forall (A : Type) keys dflt models outputs (e : data A) l, unique_keys e -> NoDup models -> NoDup outputs ->
    standard_process (transformed_feature_preprocessor keys dflt models outputs) e = Ok l ->
    selects (fun p => (dflt = true /\ default_input models outputs p) \/ below "transformed_features" (inside models (inside keys anywhere)) p) e l.
Proof.
  intros A keys dflt models outputs e l Ue M O E.
  apply one_section in E; [|not_default|exact M|exact O|apply unique_nest; [exact M|apply unique_keys_filter]|exact Ue].
  revert E. apply selects_ext. intros p. unfold below. split; (intros [H|(q & -> & H)]; [left; exact H|right; exists q; split; [reflexivity|]]);
    [rewrite covered_nest in H|rewrite covered_nest]; (eapply inside_ext; [|exact H]); intros r; [symmetry|]; apply covered_keys.
Qed.

Lemma C315_attributions_pf :
  forall (A : Type) keys dflt models outputs (e : data A) l, unique_keys e -> NoDup models -> NoDup outputs ->
    standard_process (attribution_preprocessor keys dflt models outputs) e = Ok l ->
    selects (fun p => (dflt = true /\ default_input models outputs p) \/ below "attributions" (inside models (inside outputs (inside keys anywhere))) p) e l.
Proof.
  intros A keys dflt models outputs e l Ue M O E.
  apply one_section in E; [|not_default|exact M|exact O|apply unique_nest; [exact M|apply unique_nest; [exact O|apply unique_keys_filter]]|exact Ue].
  assert (N : forall q, covered (nest models (nest outputs (keys_filter keys))) q <-> inside models (inside outputs (inside keys anywhere)) q).
  { intros q. rewrite covered_nest. apply inside_ext. intros r. rewrite covered_nest. apply inside_ext. intros s. apply covered_keys. }
  revert E. apply selects_ext. intros p. unfold below. setoid_rewrite N. tauto.
Qed.

Lemma C315_input_pf :
  forall (A : Type) dflt (e : data A) l, unique_keys e -> standard_process (input_preprocessor dflt) e = Ok l ->
    selects (fun p => (dflt = true /\ default_input [] [] p) \/ below "input" anywhere p) e l.
Proof.
  intros A dflt e l Ue E. apply one_section in E; [|not_default|constructor|constructor|apply unique_all|exact Ue].
  revert E. apply selects_ext. intros p. unfold below. setoid_rewrite covered_all. tauto.
Qed.

Lemma C315_combined_partial_pf :
  forall (A : Type) keys dflt outputs (e : data A) l, unique_keys e -> NoDup outputs ->
    standard_process (combined_feature_preprocessor keys dflt [] outputs) e = Ok l ->
    selects (fun p => (dflt = true /\ default_input [] outputs p) \/
                      below "features" (inside keys anywhere) p \/ below "transformed_features" (inside keys anywhere) p) e l.
Proof.
  intros A keys dflt outputs e l Ue O E.
  assert (S : combined_feature_preprocessor keys dflt [] outputs =
    Filt (("transformed_features", keys_filter keys) :: ("features", keys_filter keys) :: (if dflt then the_default [] outputs else []))).
  { destruct dflt; reflexivity. }
  rewrite S in E. apply process_selects in E; [|discriminate|exact Ue|].
  - revert E. apply selects_ext. intros p. rewrite !covered_cons. unfold below. setoid_rewrite covered_keys. destruct dflt.
    + rewrite covered_default. split; [intros [H|[_ [H|[_ H]]]]; tauto|].
      intros [[_ H]|[H|H]]; [right; split; [discriminate|right; split; [discriminate|exact H]]|right; split; [discriminate|left; exact H]|left; exact H].
    + split; [intros [H|[_ [H|[H _]]]]; [tauto|tauto|destruct (H eq_refl)]|].
      intros [[H _]|[H|H]]; [discriminate|right; split; [discriminate|left; exact H]|left; exact H].
  - constructor.
    + destruct dflt; cbn [map fst the_default]; repeat (constructor; [cbn [In]; intuition discriminate|]); constructor.
    + intros k' g [I|[I|I]]; [injection I as _ <-; apply unique_keys_filter|injection I as _ <-; apply unique_keys_filter|].
      destruct dflt; [|destruct I]. exact (unique_default [] outputs (k', g) (NoDup_nil _) O I).
Qed.

(** Features are not kept by model, but with names of models they are looked up by model. *)

Definition two_models : data nat := Dict
  [("features", Dict [("query", Leaf 1); ("age", Leaf 2)]);
   ("transformed_features", Dict [("m1", Dict [("age", Leaf 3)]); ("m2", Dict [("age", Leaf 4)])]);
   ("labels", Dict [("m1", Leaf 5); ("m2", Leaf 5)]); ("predictions", Dict [("m1", Leaf 6); ("m2", Leaf 7)])].

Lemma C315_combined_refuted_pf :
  exists (keys models : list string) (e : data nat) (x : data nat),
    unique_keys e /\ NoDup models /\ standard_process (combined_feature_preprocessor keys true models []) e = Ok [x] /\
    In "query" keys /\ leaf_at e ["features"; "query"] 1 /\ ~ leaf_at x ["features"; "query"] 1.
Proof.
  exists ["query"; "age"], ["m1"], two_models. eexists. split.
  { unfold two_models. repeat (first [apply uk_leaf | apply uk_dict; [cbn [map fst]; repeat (constructor; [cbn [In]; intuition discriminate|]); constructor|]
      | match goal with |- forall k v, In (k, v) _ -> _ => let k := fresh "k" in let v := fresh "v" in intros k v H;
          cbn [In] in H; repeat (destruct H as [H|H]; [injection H as _ <-|]); [..|destruct H] end]). }
  split; [repeat constructor; intros []|]. split; [vm_compute; reflexivity|]. split; [left; reflexivity|]. split.
  - apply leaf_in with (Dict [("query", Leaf 1); ("age", Leaf 2)]); [left; reflexivity|].
    apply leaf_in with (Leaf 1); [left; reflexivity|constructor].
  - intros H. inversion H as [|d k v q a I L]; subst. cbn [In] in I.
    repeat (destruct I as [I|I]; [try discriminate I; injection I as <-; inversion L as [|d k v q a I L']; subst; destruct I|]). destruct I.
Qed.

Definition an_extract : data nat := Dict
  [("input", Leaf 0); ("features", Dict [("query", Leaf 1); ("age", Leaf 2)]);
   ("transformed_features", Dict [("age", Leaf 3)]); ("attributions", Dict [("age", Leaf 8); ("sex", Leaf 9)]);
   ("labels", Leaf 5); ("predictions", Leaf 6); ("example_weights", Leaf 7)].

(** Extracts of one model are accepted if their features are dictionaries. *)

Lemma fits_include {A} f (t : data A) : unique_keys t -> unique_filter f -> fits f t -> is_ok (standard_process f t) = true.
Proof.
  intros Ut Uf F. destruct (include_spec f t Ut Uf F) as (x & E & _). unfold standard_process. rewrite E. reflexivity.
Qed.

Lemma fits_keys {A} keys (d : list (string * data A)) : fits (keys_filter keys) (Dict d).
Proof.
  unfold keys_filter. destruct (dedup String.eqb keys) as [|k ks]; [constructor|].
  constructor. intros j sub v I _. change ((k, Filt []) :: map (fun n => (n, Filt [])) ks) with (map (fun n => (n, Filt [])) (k :: ks)) in I.
  apply in_map_iff in I. destruct I as (m & E & _). injection E as _ <-. constructor.
Qed.

Definition kinds (keys : list string) (dflt : bool) : list filt :=
  [input_preprocessor dflt; feature_preprocessor keys dflt [] []; transformed_feature_preprocessor keys dflt [] [];
   combined_feature_preprocessor keys dflt [] []; attribution_preprocessor keys dflt [] []].

Lemma C315_accepted_pf :
  forall (A : Type) keys dflt (d : list (string * data A)), unique_keys (Dict d) ->
    (forall s v, In s ["features"; "transformed_features"; "attributions"] -> In (s, v) d -> exists f, v = Dict f) ->
    forall f, In f (kinds keys dflt) -> is_ok (standard_process f (Dict d)) = true.
Proof.
  intros A keys dflt d U H f I.
  assert (G : forall f0, unique_filter (Filt f0) -> (forall s g, In (s, g) f0 -> g = Filt [] \/ (In s ["features"; "transformed_features"; "attributions"] /\ g = keys_filter keys)) ->
    is_ok (standard_process (Filt f0) (Dict d)) = true).
  { intros f0 UF HF. apply fits_include; [exact U|exact UF|]. destruct f0 as [|x f0]; [constructor|]. constructor.
    intros k sub v I1 I2. destruct (HF k sub I1) as [->|[I3 ->]]; [constructor|]. destruct (H k v I3 I2) as (f1 & ->). apply fits_keys. }
  assert (UK := unique_keys_filter keys). assert (UA := unique_all).
  unfold kinds in I. destruct dflt; cbn [In] in I;
    repeat (destruct I as [<-|I]; [
      match goal with |- is_ok (standard_process ?f _) = _ => let f' := eval cbv -[keys_filter] in f in change f with f' end;
      apply G; [constructor; [cbn [map fst]; repeat (constructor; [cbn [In]; intuition discriminate|]); constructor|]|];
      let k := fresh "k" in let g := fresh "g" in let J := fresh "J" in intros k g J; cbn [In] in J;
      repeat (destruct J as [J|J]; [injection J as <- <-; first [exact UK|exact UA|left; reflexivity|right; split; [cbn [In]; tauto|reflexivity]]|]); destruct J|]);
    destruct I.
Qed.

(** The features that evaluation of model m by Keras is given, if it is the only computation. *)

Definition evaluated {A} (m : string) (inputs : list string) (e : data A) : res (list (list (string * data A))) :=
  let! el := preprocess [[Standard (evaluate_filter m inputs)]] e in mapM evaluate_features (snd el).

Lemma evaluate_filter_eq m inputs : evaluate_filter m inputs =
  Filt [("features", keys_filter inputs); ("labels", Filt [(m, Filt [])]); ("predictions", Filt [(m, Filt [])]); ("example_weights", Filt [(m, Filt [])]);
        ("transformed_features", Filt [(m, keys_filter inputs)])].
Proof.
  assert (M : merge_filters (Filt [(m, Filt [])]) (Filt [(m, Filt [])]) = Filt [(m, Filt [])]).
  { cbn [merge_filters map fst snd dget]. rewrite String.eqb_refl. cbn [filter fst dmem dget]. unfold dmem. cbn [dget]. rewrite String.eqb_refl. reflexivity. }
  assert (E : evaluate_filter m inputs = Filt [("features", keys_filter inputs); ("labels", merge_filters (Filt [(m, Filt [])]) (Filt [(m, Filt [])]));
     ("predictions", merge_filters (Filt [(m, Filt [])]) (Filt [(m, Filt [])])); ("example_weights", merge_filters (Filt [(m, Filt [])]) (Filt [(m, Filt [])]));
     ("transformed_features", Filt [(m, keys_filter inputs)])]) by reflexivity.
  rewrite E, !M. reflexivity.
Qed.

Lemma unique_evaluate m inputs : unique_filter (evaluate_filter m inputs).
Proof.
  rewrite evaluate_filter_eq.
  assert (UM : forall f, unique_filter f -> unique_filter (Filt [(m, f)])).
  { intros f U. constructor; [repeat constructor; intros []|]. intros k g [I|[]]. injection I as _ <-. exact U. }
  constructor; [cbn [map fst]; repeat (constructor; [cbn [In]; intuition discriminate|]); constructor|].
  intros k g I. cbn [In] in I. repeat (destruct I as [I|I]; [injection I as _ <-; first [apply unique_keys_filter|apply UM; first [apply unique_all|apply unique_keys_filter]]|]). destruct I.
Qed.

Lemma preprocess_evaluate {A} m inputs (e : data A) el : unique_keys e ->
  preprocess [[Standard (evaluate_filter m inputs)]] e = Ok el ->
  exists x, snd el = [x] /\ include_filter (evaluate_filter m inputs) e = Ok x /\ forall p a, leaf_at x p a <-> leaf_at e p a /\ covered (evaluate_filter m inputs) p.
Proof.
  intros Ue E. unfold preprocess in E. cbn [mapM shared bind standard_filters] in E.
  replace (merged_filter [evaluate_filter m inputs]) with (evaluate_filter m inputs) in E.
  2:{ unfold merged_filter. cbn [fold_left]. reflexivity. }
  assert (US := unique_evaluate m inputs).
  destruct (standard_process (evaluate_filter m inputs) e) as [l|] eqn:EP; [|discriminate]. cbn [bind] in E.
  assert (EI : exists x, include_filter (evaluate_filter m inputs) e = Ok x /\ l = [x]).
  { unfold standard_process in EP. destruct (include_filter (evaluate_filter m inputs) e) as [x|]; [|discriminate]. exists x. split; [reflexivity|].
    cbn [bind] in EP. rewrite evaluate_filter_eq in EP. injection EP as <-. reflexivity. }
  assert (NE : evaluate_filter m inputs <> Filt []) by (rewrite evaluate_filter_eq; discriminate).
  destruct EI as (x & EI & ->). destruct (process_selects _ e _ NE Ue US EP) as (x' & X & L). injection X as <-.
  exists x. split; [|split; [exact EI|exact L]].
  cbn [mapM] in E. unfold to_standard_metric_inputs in E.
  repeat match type of E with context [if ?b then _ else _] => destruct b; [discriminate|] end.
  cbn [bind] in E. injection E as <-. reflexivity.
Qed.

Lemma include_get {A} fs (d : list (string * data A)) x : fs <> [] -> NoDup (map fst fs) -> include_filter (Filt fs) (Dict d) = Ok x ->
  exists acc, x = Dict acc /\ NoDup (map fst acc) /\
    forall k v, dget String.eqb acc k = Some v <-> exists sub w, In (k, sub) fs /\ dget String.eqb d k = Some w /\ include_filter sub w = Ok v.
Proof.
  intros NE ND E. destruct fs as [|f0 fs0]; [destruct (NE eq_refl)|].
  set (fs := f0 :: fs0) in *.
  set (step := fun (acc : list (string * data A)) ks =>
              match dget String.eqb d (fst ks) with
              | None => Ok acc
              | Some v => let! r := include_filter (snd ks) v in Ok (dset String.eqb acc (fst ks) r)
              end).
  change (include_filter (Filt fs) (Dict d)) with (let! l := foldM step fs [] in Ok (Dict l)) in E.
  destruct (foldM step fs []) as [l|] eqn:EF; [|discriminate]. injection E as <-. exists l. split; [reflexivity|].
  assert (G : forall gs acc l0, NoDup (map fst gs) -> NoDup (map fst acc) -> foldM step gs acc = Ok l0 ->
    NoDup (map fst l0) /\ forall k v, dget String.eqb l0 k = Some v <->
      (exists sub w, In (k, sub) gs /\ dget String.eqb d k = Some w /\ include_filter sub w = Ok v) \/
      (~ (exists sub w, In (k, sub) gs /\ dget String.eqb d k = Some w) /\ dget String.eqb acc k = Some v)).
  { induction gs as [|[k0 s0] gs IH]; intros acc l0 N1 N2 EG.
    - injection EG as <-. split; [exact N2|]. intros k v. split; [intros H; right; split; [intros (s & w & [] & _)|exact H]|].
      intros [(s & w & [] & _)|[_ H]]. exact H.
    - cbn [foldM] in EG. unfold step at 1 in EG. cbn [fst snd map] in EG, N1. apply NoDup_cons_iff in N1. destruct N1 as [N1 N3].
      destruct (dget String.eqb d k0) as [v0|] eqn:E0.
      + destruct (include_filter s0 v0) as [r|] eqn:ER; [|discriminate]. cbn [bind] in EG.
        destruct (IH _ _ N3 (dset_NoDup _ string_eqb_eq _ _ _ N2) EG) as [G1 G2]. split; [exact G1|]. intros k v. rewrite G2.
        destruct (String.eqb k k0) eqn:EK.
        * apply String.eqb_eq in EK. subst k0. rewrite (dget_dset_eq String.eqb String.eqb_eq).
          assert (NI : forall s, ~ In (k, s) gs) by (intros s I; apply N1, in_map_iff; exists (k, s); auto).
          split.
          -- intros [(s & w & I & _)|[_ H]]; [destruct (NI s I)|]. injection H as <-. left. exists s0, v0. split; [left; reflexivity|auto].
          -- intros [(s & w & [I|I] & H1 & H2)|[H _]]; [|destruct (NI s I)|].
             ++ injection I as <-. right. split; [intros (s & w' & I & _); destruct (NI s I)|]. congruence.
             ++ destruct H. exists s0, v0. split; [left; reflexivity|exact E0].
        * assert (NK : k <> k0) by (intros ->; rewrite String.eqb_refl in EK; discriminate).
          rewrite (dget_dset_neq String.eqb String.eqb_eq) by (intros X; apply NK; symmetry; exact X). split.
          -- intros [(s & w & I & H)|[H1 H2]]; [left; exists s, w; split; [right; exact I|exact H]|].
             right. split; [|exact H2]. intros (s & w & [I|I] & H); [injection I as <- _; destruct (NK eq_refl)|]. apply H1. exists s, w. auto.
          -- intros [(s & w & [I|I] & H)|[H1 H2]]; [injection I as <- _; destruct (NK eq_refl)|left; exists s, w; auto|].
             right. split; [|exact H2]. intros (s & w & I & H). apply H1. exists s, w. split; [right; exact I|exact H].
      + destruct (IH _ _ N3 N2 EG) as [G1 G2]. split; [exact G1|]. intros k v. rewrite G2. split.
        * intros [(s & w & I & H)|[H1 H2]]; [left; exists s, w; split; [right; exact I|exact H]|].
          right. split; [|exact H2]. intros (s & w & [I|I] & H); [injection I as <- _; congruence|]. apply H1. exists s, w. auto.
        * intros [(s & w & [I|I] & H)|[H1 H2]]; [injection I as <- _; destruct H; congruence|left; exists s, w; auto|].
          right. split; [|exact H2]. intros (s & w & I & H). apply H1. exists s, w. split; [right; exact I|exact H]. }
  destruct (G fs [] l ND (NoDup_nil _) EF) as [G1 G2]. split; [exact G1|]. intros k v. rewrite G2. split.
  - intros [H|[_ H]]; [exact H|discriminate].
  - intros H. left. exact H.
Qed.

Lemma include_keys {A} keys (d : list (string * data A)) x : NoDup (map fst d) -> include_filter (keys_filter keys) (Dict d) = Ok x ->
  exists f, x = Dict f /\ forall k v, In (k, v) f <-> In (k, v) d /\ (keys = [] \/ In k keys).
Proof.
  intros ND E. unfold keys_filter in E. destruct (dedup String.eqb keys) as [|k0 ks] eqn:EK.
  - apply (proj1 (dedup_nil keys)) in EK. subst keys. injection E as <-. exists d. split; [reflexivity|]. intros k v. tauto.
  - assert (E' : include_filter (Filt (map (fun n => (n, Filt [])) (k0 :: ks))) (Dict d) = Ok x) by exact E.
    apply include_get in E'; [|discriminate|].
    + destruct E' as (acc & -> & NA & G). exists acc. split; [reflexivity|]. intros k v.
      rewrite <- (dget_In_NoDup String.eqb String.eqb_eq acc k v NA), G.
      rewrite <- (dget_In_NoDup String.eqb String.eqb_eq d k v ND). split.
      * intros (s & w & I & H1 & H2). apply in_map_iff in I. destruct I as (n & EI & I). injection EI as -> <-. injection H2 as <-.
        split; [exact H1|]. right. apply (dedup_In String.eqb String.eqb_eq). rewrite EK. exact I.
      * intros [H1 [->|H2]]; [discriminate EK|]. exists (Filt []), v. split; [|split; [exact H1|reflexivity]].
        apply in_map_iff. exists k. split; [reflexivity|]. rewrite <- EK. apply (dedup_In String.eqb String.eqb_eq). exact H2.
    + rewrite map_map. cbn [fst]. rewrite map_id, <- EK. apply dedup_NoDup, String.eqb_eq.
Qed.

Lemma C316_features_partial_pf :
  forall (A : Type) m inputs (d ff : list (string * data A)) l, unique_keys (Dict d) ->
    In ("features", Dict ff) d -> ~ In "transformed_features" (map fst d) ->
    evaluated m inputs (Dict d) = Ok l ->
    exists fs, l = [fs] /\ forall k v, In (k, v) fs <-> In (k, v) ff /\ (inputs = [] \/ In k inputs).
Proof.
  intros A m inputs d ff l U I NT E. unfold evaluated in E.
  destruct (preprocess [[Standard (evaluate_filter m inputs)]] (Dict d)) as [el|] eqn:EP; [|discriminate]. cbn [bind] in E.
  destruct (preprocess_evaluate m inputs (Dict d) el U EP) as (x & X & EI & _). rewrite X in E. cbn [mapM] in E.
  inversion U as [|d0 ND UD]; subst. pose proof (unique_evaluate m inputs) as UF. rewrite evaluate_filter_eq in EI, UF.
  inversion UF as [fs0 NF _]; subst. apply include_get in EI; [|discriminate|exact NF]. destruct EI as (acc & -> & NA & G).
  assert (GF : dget String.eqb d "features" = Some (Dict ff)) by (apply (dget_In_NoDup String.eqb String.eqb_eq); assumption).
  assert (GT : dget String.eqb acc "transformed_features" = None).
  { destruct (dget String.eqb acc "transformed_features") as [v|] eqn:ET; [|reflexivity]. apply G in ET. destruct ET as (s & w & _ & H & _).
    apply (dget_In String.eqb String.eqb_eq) in H. destruct NT. apply in_map_iff. exists ("transformed_features", w). auto. }
  unfold evaluate_features in E. cbn [extract_of] in E. unfold TRANSFORMED_FEATURES_KEY, FEATURES_KEY in E. rewrite GT in E.
  destruct (dget String.eqb acc "features") as [v|] eqn:EF; [|discriminate]. apply G in EF. destruct EF as (s & w & IS & H1 & H2).
  rewrite GF in H1. injection H1 as <-.
  assert (s = keys_filter inputs) as ->.
  { cbn [In] in IS. destruct IS as [IS|IS]; [congruence|]. repeat (destruct IS as [IS|IS]; [discriminate IS|]). destruct IS. }
  assert (NFF : NoDup (map fst ff)) by (pose proof (UD _ _ I) as UFF; inversion UFF; assumption).
  destruct (include_keys inputs ff v NFF H2) as (f & -> & GFf). cbn [bind] in E. injection E as <-. exists f. split; [reflexivity|exact GFf].
Qed.

Lemma C316_inputs_of_model_pf :
  forall (A : Type) m inputs (e : data A) el, unique_keys e ->
    preprocess [[Standard (evaluate_filter m inputs)]] e = Ok el ->
    exists x, snd el = [x] /\
      forall s q a, In s ["labels"; "predictions"; "example_weights"] -> (leaf_at x (s :: m :: q) a <-> leaf_at e (s :: m :: q) a).
Proof.
  intros A m inputs e el U E. destruct (preprocess_evaluate m inputs e el U E) as (x & X & _ & L). exists x. split; [exact X|].
  intros s q a I. rewrite L. split; [tauto|]. intros H. split; [exact H|]. rewrite evaluate_filter_eq.
  apply cov_sub with (Filt [(m, Filt [])]); [destruct I as [<-|[<-|[<-|[]]]]; cbn [In]; tauto|].
  apply cov_sub with (Filt []); [left; reflexivity|constructor].
Qed.

(** One model (which is named ""), with two outputs and transformed features. *)

Definition one_model : data nat := Dict
  [("features", Dict [("age", Leaf 1)]); ("transformed_features", Dict [("age", Leaf 2)]);
   ("labels", Dict [("o1", Leaf 3); ("o2", Leaf 4)]); ("predictions", Dict [("o1", Leaf 5); ("o2", Leaf 6)])].

Lemma C316_one_model_refuted_pf :
  exists (inputs : list string) (e : data nat),
    (leaf_at e ["transformed_features"; "age"] 2 /\ leaf_at e ["labels"; "o1"] 3) /\
    evaluated "" inputs e = Ok [[("age", Leaf 1)]] /\
    preprocess [[Standard (evaluate_filter "" inputs)]] e =
      Ok ([None], [Dict [("features", Dict [("age", Leaf 1)]); ("labels", Dict []); ("predictions", Dict []); ("transformed_features", Dict [])]]).
Proof.
  exists ["age"], one_model. split; [|split; vm_compute; reflexivity].
  split; (eapply leaf_in; [cbn [In]; eauto 6|]; eapply leaf_in; [cbn [In]; eauto|constructor]).
Qed.

Lemma C316_two_models_refuted_pf :
  exists (inputs : list string) (e : data nat),
    leaf_at e ["transformed_features"; "m1"; "age"] 3 /\
    evaluated "m1" inputs e = Ok [[("query", Leaf 1); ("age", Leaf 2); ("m1", Dict [("age", Leaf 3)])]].
Proof.
  exists ["query"; "age"], two_models. split; [|vm_compute; reflexivity].
  eapply leaf_in; [cbn [In]; eauto|]. eapply leaf_in; [cbn [In]; eauto|]. eapply leaf_in; [cbn [In]; eauto|constructor].
Qed.

Lemma C316_transformed_first_pf :
  forall (A : Type) (d f t : list (string * data A)) fs, unique_keys (Dict d) ->
    In ("features", Dict f) d -> In ("transformed_features", Dict t) d ->
    evaluate_features (Dict d) = Ok fs ->
    forall k v, In (k, v) fs <-> In (k, v) t \/ (In (k, v) f /\ ~ In k (map fst t)).
Proof.
  intros A d f t fs U I1 I2 E k v. inversion U as [|d0 ND UD]; subst.
  assert (G1 : dget String.eqb d "features" = Some (Dict f)) by (apply (dget_In_NoDup String.eqb String.eqb_eq); assumption).
  assert (G2 : dget String.eqb d "transformed_features" = Some (Dict t)) by (apply (dget_In_NoDup String.eqb String.eqb_eq); assumption).
  assert (NF : NoDup (map fst f)) by (pose proof (UD _ _ I1) as X; inversion X; assumption).
  assert (NT : NoDup (map fst t)) by (pose proof (UD _ _ I2) as X; inversion X; assumption).
  unfold evaluate_features, extract_of, FEATURES_KEY, TRANSFORMED_FEATURES_KEY in E. rewrite G1, G2 in E.
  assert (F : forall l (g : list (string * data A)), NoDup (map fst l) -> NoDup (map fst g) ->
    NoDup (map fst (dupdate String.eqb g l)) /\
    forall j w, In (j, w) (dupdate String.eqb g l) <-> In (j, w) l \/ (In (j, w) g /\ ~ In j (map fst l))).
  { induction l as [|[k0 v0] l IH]; intros g NL NG.
    - split; [exact NG|]. intros j w. cbn [dupdate fold_left map In]. unfold dupdate. cbn [fold_left]. tauto.
    - cbn [map fst] in NL. apply NoDup_cons_iff in NL. destruct NL as [N0 NL].
      change (dupdate String.eqb g ((k0, v0) :: l)) with (dupdate String.eqb (dset String.eqb g k0 v0) l).
      pose proof (dset_NoDup _ string_eqb_eq g k0 v0 NG) as NS.
      destruct (IH (dset String.eqb g k0 v0) NL NS) as [A1 A2]. split; [exact A1|]. intros j w. rewrite A2. cbn [map fst In].
      rewrite <- (dget_In_NoDup String.eqb String.eqb_eq _ j w NS).
      destruct (String.eqb j k0) eqn:EJ.
      + apply String.eqb_eq in EJ. subst j. rewrite (dget_dset_eq String.eqb String.eqb_eq). split.
        * intros [H|[H _]]; [left; right; exact H|]. injection H as <-. left; left; reflexivity.
        * intros [[H|H]|[_ H]]; [|left; exact H|destruct H; left; reflexivity]. injection H as <-. right. split; [reflexivity|exact N0].
      + assert (NJ : k0 <> j) by (intros ->; rewrite String.eqb_refl in EJ; discriminate).
        rewrite (dget_dset_neq String.eqb String.eqb_eq) by exact NJ. rewrite (dget_In_NoDup String.eqb String.eqb_eq g j w NG).
        split; [intros [H|[H1 H2]]; [left; right; exact H|right; split; [exact H1|intros [H|H]; [exact (NJ H)|exact (H2 H)]]]|].
        intros [[H|H]|[H1 H2]]; [injection H as H _; destruct (NJ H)|left; exact H|right; split; [exact H1|intros H; apply H2; right; exact H]]. }
  destruct t as [|t0 ts].
  - injection E as <-. cbn [map In]. tauto.
  - injection E as <-. exact (proj2 (F (t0 :: ts) f NT NF) k v).
Qed.

(** The value under the keys of a path, one dictionary after the other. *)

Inductive value_at {A} : data A -> list string -> data A -> Prop :=
| value_here v : value_at v [] v
| value_in d k w p v : In (k, w) d -> value_at w p v -> value_at (Dict d) (k :: p) v.

Lemma value_walk {A} : forall p (e v : data A), unique_keys e -> value_at e p v -> walk e p = Ok (Some v).
Proof.
  induction p as [|k p IH]; intros e v U H; inversion H as [|d k' w q v' I H']; subst; [reflexivity|].
  inversion U as [|d0 ND UD]; subst. cbn [walk].
  rewrite (proj2 (dget_In_NoDup String.eqb String.eqb_eq d k w ND) I). apply IH; [eapply UD; exact I|exact H'].
Qed.

Lemma value_included {A} : forall p f (e x v : data A), unique_keys e -> unique_filter f -> include_filter f e = Ok x -> covered f p ->
  value_at e p v -> value_at x p v.
Proof.
  induction p as [|k p IH]; intros f e x v U UF E C H.
  - inversion C; subst. injection E as <-. exact H.
  - inversion C as [q|fs k' sub q I C']; subst; [injection E as <-; exact H|].
    inversion H as [|d k' w q v' J H']; subst. inversion U as [|d0 ND UD]; subst. inversion UF as [fs0 NF UFS]; subst.
    pose proof (include_fits _ _ _ U UF E) as FT. assert (NE : fs <> []) by (intros ->; destruct I).
    apply include_get in E; [|exact NE|exact NF]. destruct E as (acc & -> & NA & G).
    pose proof (proj2 (dget_In_NoDup String.eqb String.eqb_eq d k w ND) J) as GW.
    assert (FS : fits sub w) by (inversion FT as [|fs1 d1 FS]; subst; [destruct I|]; exact (FS k sub w I J)).
    destruct (include_spec sub w (UD _ _ J) (UFS _ _ I) FS) as (r & ER & _).
    assert (GA : dget String.eqb acc k = Some r) by (apply G; exists sub, w; auto).
    apply value_in with r; [apply (dget_In String.eqb String.eqb_eq); exact GA|].
    apply (IH sub w r v); [eapply UD; exact J|eapply UFS; exact I|exact ER|exact C'|exact H'].
Qed.

Lemma include_unique {A} f (e x : data A) : unique_keys e -> unique_filter f -> include_filter f e = Ok x -> unique_keys x.
Proof.
  intros U UF E. destruct (include_spec f e U UF (include_fits _ _ _ U UF E)) as (x' & E' & UX & _). rewrite E in E'. injection E' as <-. exact UX.
Qed.

Lemma covered_path p : covered (path_filter p) p.
Proof. induction p as [|k p IH]; [constructor|]. apply cov_sub with (path_filter p); [left; reflexivity|exact IH]. Qed.

Lemma unique_path p : unique_filter (path_filter p).
Proof.
  induction p as [|k p IH]; [apply unique_all|]. constructor; [repeat constructor; intros []|]. intros k' f [I|[]]. injection I as _ <-. exact IH.
Qed.

(** The paths a mean reads. *)

Definition reads (path : list string) (weights : option (list string)) (p : list string) : Prop := p = path \/ weights = Some p.

Lemma covered_mean path weights p : reads path weights p -> p <> [] -> covered (mean_filter path weights) p.
Proof.
  intros R N. unfold mean_filter. destruct weights as [[|k w]|].
  - destruct R as [->|R]; [apply covered_path|]. injection R as <-. destruct (N eq_refl).
  - apply (merge_covered _ _ (unique_path path) (unique_path (k :: w))). destruct R as [->|R]; [left|right; injection R as <-]; apply covered_path.
  - destruct R as [->|R]; [apply covered_path|discriminate].
Qed.

Lemma unique_mean path weights : unique_filter (mean_filter path weights).
Proof.
  unfold mean_filter. destruct weights as [[|k w]|]; [apply unique_path| |apply unique_path].
  apply (merge_covered _ _ (unique_path path) (unique_path (k :: w))).
Qed.

Lemma mean_filter_full path weights : path <> [] -> mean_filter path weights <> Filt [].
Proof.
  intros N. destruct path as [|k p]; [destruct (N eq_refl)|]. unfold mean_filter.
  destruct weights as [[|j w]|]; [discriminate| |discriminate]. intros E.
  assert (C : covered (merge_filters (path_filter (k :: p)) (path_filter (j :: w))) []) by (rewrite E; constructor).
  apply (merge_covered _ _ (unique_path (k :: p)) (unique_path (j :: w))) in C. destruct C as [C|C]; inversion C.
Qed.

Lemma C317_mean_reads_partial_pf :
  forall path weights (e : data (list Qc)) l acc, unique_keys e -> path <> [] -> weights <> Some [] ->
    (forall p, reads path weights p -> exists v, value_at e p v) ->
    standard_process (mean_filter path weights) e = Ok l ->
    exists x, l = [x] /\ mean_add path weights acc x = mean_add path weights acc e.
Proof.
  intros path weights e l acc U N NW V E. unfold standard_process in E.
  destruct (include_filter (mean_filter path weights) e) as [x|] eqn:EI; [|discriminate]. cbn [bind] in E.
  assert (EL : l = [x]).
  { destruct (mean_filter path weights) as [[|f fs]] eqn:EM; [destruct (mean_filter_full path weights N EM)|]. injection E as <-. reflexivity. }
  exists x. split; [exact EL|]. pose proof (include_unique _ _ _ U (unique_mean path weights) EI) as UX.
  assert (G : forall p, reads path weights p -> p <> [] -> get_by_keys x p None false = get_by_keys e p None false).
  { intros p R NP. destruct (V p R) as (v & HV). unfold get_by_keys. destruct p as [|k p]; [destruct (NP eq_refl)|].
    rewrite (value_walk _ _ _ U HV). rewrite (value_walk _ x v UX); [reflexivity|].
    apply (value_included _ (mean_filter path weights) e x v U (unique_mean path weights) EI); [apply covered_mean; assumption|exact HV]. }
  unfold mean_add. rewrite (G path) by (try (left; reflexivity); exact N).
  destruct weights as [w|]; [|reflexivity]. rewrite (G w); [reflexivity|right; reflexivity|intros ->; exact (NW eq_refl)].
Qed.

Lemma C317_mean_reads_refuted_pf :
  exists (path : list string) (e x : data (list Qc)),
    unique_keys e /\ path <> [] /\ standard_process (mean_filter path None) e = Ok [x] /\
    mean_add path None (0%Qc, 0%Qc) e = Ok (1%Qc, qz 3) /\ mean_add path None (0%Qc, 0%Qc) x = Err ValueError.
Proof.
  exists ["features"; "user"; "age"], (Dict [("features", Dict [("user/age", Leaf [qz 3])])]), (Dict [("features", Dict [])]).
  split.
  { apply uk_dict; [repeat constructor; intros []|]. intros k v [I|[]]. injection I as _ <-.
    apply uk_dict; [repeat constructor; intros []|]. intros k' v' [I|[]]. injection I as _ <-. apply uk_leaf. }
  split; [discriminate|]. split; [vm_compute; reflexivity|]. split; vm_compute; reflexivity.
Qed.
