(* Proofs of the theorems restated in Sets_Properties.v. *)
From Coq Require Import String Ascii Sorted Reals Lra.
From Verif Require Import Base BaseFacts Beam BeamFacts Util_Model Util_Main Keys_Model Inputs_Model Inputs_Main Sums_Model Sums_Main Batches_Model Histogram_Model Histogram_Main Confusion_Model Confusion_Main Rates_Model Evaluator_Model Evaluator_Main Keras_Main Classes_Main Text_Main Detection_Model Detection_Main Sets_Model.
Local Open Scope string_scope.
Local Open Scope list_scope.

(* C220 - C228: matching of sets of classes, and the preprocessors that invert logarithms and decode images. *)

(** What an extract holds under a key for a model: either by the name of the model, or for
    all models. *)

Definition stored {A} (e : list (string * data A)) (key m : string) (v : data A) : Prop :=
  (exists d, dget String.eqb e key = Some (Dict d) /\ dget String.eqb d m = Some v /\ v <> Dict []) \/
  (dget String.eqb e key = Some v /\ forall d, v = Dict d -> forall k x, In (k, x) d -> k <> m /\ forall r, k <> (m ++ "/" ++ r)%string).

Lemma strip_prefix_spec p : forall s r, strip_prefix p s = Some r <-> s = (p ++ r)%string.
Proof.
  induction p as [|a p IH]; intros s r; cbn [strip_prefix String.append].
  - split; [intros E; injection E as ->; reflexivity|intros ->; reflexivity].
  - destruct s as [|b s]; [split; discriminate|]. destruct (Ascii.eqb a b) eqn:E.
    + apply Ascii.eqb_eq in E. subst b. rewrite IH. split; [intros ->; reflexivity|intros H; injection H; auto].
    + split; [discriminate|]. intros H. injection H as H1 H2. subst b. rewrite Ascii.eqb_refl in E. discriminate.
Qed.

Lemma no_prefix_matches {A} m (d : list (string * data A)) :
  (forall k x, In (k, x) d -> forall r, k <> (m ++ "/" ++ r)%string) -> prefix_matches m d = [].
Proof.
  intros H. unfold prefix_matches. induction d as [|[k x] d IH]; [reflexivity|]. cbn [flat_map fst snd].
  destruct (strip_prefix (m ++ "/") k) as [r|] eqn:E.
  - exfalso. apply strip_prefix_spec in E. apply (H k x (or_introl eq_refl) r). rewrite E. clear. induction m as [|a m IH]; [reflexivity|]. cbn. f_equal. exact IH.
  - apply IH. intros k' x' I. apply (H k' x'). right. exact I.
Qed.

Lemma stored_get {A} (e : list (string * data A)) key m v : stored e key m v -> get_by_key e key (Some m) None = Ok (Some v).
Proof.
  unfold get_by_key. intros [(d & E & F & N)|(E & H)]; rewrite E.
  - unfold optionally_get_by_key, get_by_keys. cbn [walk]. rewrite F. cbn [bind]. destruct v as [a|[|x l]]; [reflexivity|congruence|reflexivity].
  - destruct v as [a|d]; [reflexivity|]. pose proof (H d eq_refl) as K. unfold optionally_get_by_key, get_by_keys. cbn [walk].
    assert (D : dget String.eqb d m = None).
    { apply (dget_None _ String.eqb_eq). intros I. apply in_map_iff in I. destruct I as ([k x] & <- & I). destruct (K k x I) as [X _]. apply X. reflexivity. }
    rewrite D, no_prefix_matches by (intros k x I; apply (K k x I)). cbn [bind]. unfold contains_key, dmem. rewrite D. reflexivity.
Qed.

Lemma get_one {A} (d : list (string * data A)) k v : dget String.eqb d k = Some v -> v <> Dict [] -> get_by_keys (Dict d) [k] None false = Ok (Some v).
Proof. intros E N. unfold get_by_keys. cbn [walk]. rewrite E. cbn [bind]. destruct v as [a|[|x l]]; [reflexivity|congruence|reflexivity]. Qed.

(** An example: its distinct labels, the classes predicted with their scores (a class that
    occurs twice has the score it has last), and its weights. *)

Record set_example := SetExample {
  se_labels : list string; se_classes : list string; se_scores : list num;
  se_weight : option Qc; se_class_weights : list (string * Qc)
}.

Definition distinct (l : list string) : list string := nodup string_dec l.

Definition latest {V} (l : list (string * V)) (default : V) (c : string) : V :=
  last (map snd (filter (fun kv => String.eqb c (fst kv)) l)) default.

(** The extract holds that example for the preprocessor. *)

Definition holds (st : set_match) (e : list (string * data tensor)) (x : set_example) : Prop :=
  let m := sm_model_name st in
  stored e "labels" m (Leaf (Strings (se_labels x))) /\
  (exists d k, stored e "predictions" m (Dict d) /\ sm_prediction_score_key st = Some k /\
     dget String.eqb d (sm_prediction_class_key st) = Some (Leaf (Strings (se_classes x))) /\
     dget String.eqb d k = Some (Leaf (Floats (se_scores x))) /\ length (se_scores x) = length (se_classes x)) /\
  match se_weight x with
  | None => dget String.eqb e "example_weights" = None
  | Some w => stored e "example_weights" m (Leaf (Floats [Fin w]))
  end /\
  match sm_weight_key st with
  | None => se_class_weights x = []
  | Some wk => exists f classes,
      dget String.eqb e "features" = Some (Dict f) /\
      dget String.eqb f wk = Some (Leaf (Floats (map (fun kv => Fin (snd kv)) (se_class_weights x)))) /\
      match sm_class_key st with Some k => dget String.eqb f k = Some (Leaf (Strings classes)) | None => classes = se_labels x end /\
      map fst (se_class_weights x) = classes
  end.

(** The predictions that are kept. *)

Definition kept {A} (top_k : option nat) (l : list A) : list A := match top_k with Some k => firstn k l | None => l end.

Definition kept_classes (k : option nat) (x : set_example) : list string := kept k (se_classes x).

Definition score_of (k : option nat) (x : set_example) (c : string) : num := latest (combine (kept k (se_classes x)) (kept k (se_scores x))) NegInf c.

(** The pairs one expects, without weights. *)

Definition expected_set_pairs (k : option nat) (x : set_example) : list (string * (Qc * num)) :=
  map (fun c => (c, (1%Qc, score_of k x c))) (distinct (se_labels x)) ++
  map (fun c => (c, (0%Qc, score_of k x c))) (filter (fun c => negb (existsb (String.eqb c) (se_labels x))) (distinct (kept_classes k x))).

(** The weight of a class: that of the example times that of the class, 1 for weights that
    are not there. *)

Definition weight_of (x : set_example) (c : string) : Qc :=
  ((match se_weight x with Some w => w | None => 1 end) * latest (se_class_weights x) 1 c)%Qc.

(* lemmas *)

Lemma dget_fold {V} k (l : list (string * V)) : forall d,
  dget String.eqb (fold_left (fun d kv => dset String.eqb d (fst kv) (snd kv)) l d) k =
  fold_left (fun r kv => if String.eqb k (fst kv) then Some (snd kv) else r) l (dget String.eqb d k).
Proof.
  induction l as [|[j v] l IH]; intros d; [reflexivity|]. cbn [fold_left fst snd]. rewrite IH. f_equal.
  destruct (String.eqb k j) eqn:E.
  - apply String.eqb_eq in E. subst j. apply (dget_dset_eq _ String.eqb_eq).
  - apply (dget_dset_neq _ String.eqb_eq). intros ->. rewrite String.eqb_refl in E. discriminate.
Qed.

Lemma fold_latest {V} k (l : list (string * V)) : forall r default,
  match fold_left (fun r kv => if String.eqb k (fst kv) then Some (snd kv) else r) l r with Some v => v | None => default end =
  last (map snd (filter (fun kv => String.eqb k (fst kv)) l)) (match r with Some v => v | None => default end).
Proof.
  induction l as [|[j v] l IH]; intros r default; [reflexivity|]. cbn [fold_left filter map fst snd]. rewrite IH.
  destruct (String.eqb k j); [|reflexivity]. cbn [map snd].
  generalize (map snd (filter (fun kv : string * V => String.eqb k (fst kv)) l)). intros q. destruct q as [|a q]; [reflexivity|].
  change (last (v :: a :: q) (match r with Some v0 => v0 | None => default end)) with (last (a :: q) (match r with Some v0 => v0 | None => default end)).
  clear. revert a. induction q as [|b q IH]; intros a; [reflexivity|]. cbn [last]. apply (IH b).
Qed.

Lemma dget_latest {V} k (l : list (string * V)) default :
  match dget String.eqb (fold_left (fun d kv => dset String.eqb d (fst kv) (snd kv)) l []) k with Some v => v | None => default end = latest l default k.
Proof. rewrite dget_fold. apply fold_latest. Qed.

Lemma dget_fold_some {V} k (l : list (string * V)) : In k (map fst l) ->
  exists v, dget String.eqb (fold_left (fun d kv => dset String.eqb d (fst kv) (snd kv)) l []) k = Some v.
Proof.
  rewrite dget_fold. generalize (dget String.eqb ([] : list (string * V)) k). induction l as [|[j v] l IH]; intros r I; [destruct I|]. cbn [fold_left map fst snd In] in *.
  destruct (String.eqb k j) eqn:E.
  - clear I. assert (G : forall r : option V, (exists v, r = Some v) -> exists v, fold_left (fun r kv => if String.eqb k (fst kv) then Some (snd kv) else r) l r = Some v).
    { clear. induction l as [|[j v] l IH]; intros r H; [exact H|]. cbn [fold_left fst snd]. apply IH. destruct (String.eqb k j); [exists v; reflexivity|exact H]. }
    apply G. exists v. reflexivity.
  - apply IH. destruct I as [->|I]; [rewrite String.eqb_refl in E; discriminate|exact I].
Qed.

Lemma map_fst_combine {A B} : forall (a : list A) (b : list B), length b = length a -> map fst (combine a b) = a.
Proof. induction a as [|x a IH]; intros [|y b] L; try discriminate; [reflexivity|]. cbn. f_equal. apply IH. cbn in L. lia. Qed.

Lemma latest_none {V} (l : list (string * V)) d c : ~ In c (map fst l) -> latest l d c = d.
Proof.
  unfold latest. intros N. induction l as [|[k v] l IH]; [reflexivity|]. cbn [filter fst]. destruct (String.eqb c k) eqn:E.
  - exfalso. apply N. left. symmetry. apply String.eqb_eq. exact E.
  - apply IH. intros I. apply N. right. exact I.
Qed.

Lemma kept_length {A B} k (a : list A) (b : list B) : length a = length b -> length (kept k a) = length (kept k b).
Proof. destruct k as [k|]; cbn [kept]; [rewrite !firstn_length; lia|auto]. Qed.

Lemma first_k_kept {A} (k : option nat) (l : list A) : first_k (option_map Z.of_nat k) l = kept k l.
Proof.
  destruct k as [k|]; [|reflexivity]. cbn [option_map first_k kept]. unfold slice_to.
  destruct (Z.ltb_spec (Z.min (Z.of_nat k) (Z.of_nat (length l))) 0) as [H|H]; [lia|].
  rewrite <- Nat2Z.inj_min, Nat2Z.id. destruct (Nat.min_spec k (length l)) as [[? ->]|[? ->]]; [reflexivity|]. rewrite firstn_all. symmetry. apply firstn_all2. exact H0.
Qed.

(** The weight that is computed. *)

Definition given_weight (x : set_example) (c : string) : option Qc :=
  let zero := match se_weight x with Some w => Qc_eqb w 0%Qc | None => true end in
  if zero && match se_class_weights x with [] => true | _ => false end then None
  else Some ((match se_weight x with Some w => if Qc_eqb w 0%Qc then 1 else w | None => 1 end) * latest (se_class_weights x) 1 c)%Qc.

Lemma calculate_given x c cw : (cw = None /\ se_class_weights x = [] \/ cw = Some (fold_left (fun d kv => dset String.eqb d (fst kv) (snd kv)) (se_class_weights x) [])) ->
  calculate_weights (option_map (fun w => [w]) (se_weight x)) cw c = Ok (given_weight x c).
Proof.
  intros H. unfold calculate_weights, given_weight.
  assert (W : match cw with Some (_ :: _) => true | _ => false end = negb (match se_class_weights x with [] => true | _ => false end)).
  { destruct H as [[-> ->]| ->]; [reflexivity|]. destruct (se_class_weights x) as [|[k v] l]; [reflexivity|]. cbn [negb].
    destruct (dget_fold_some k ((k, v) :: l) (or_introl eq_refl)) as [u U].
    destruct (fold_left _ ((k, v) :: l) []) as [|q r]; [discriminate U|reflexivity]. }
  assert (L : forall w, match cw with Some d => match dget String.eqb d c with Some v => (w * v)%Qc | None => w end | None => w end = (w * latest (se_class_weights x) 1%Qc c)%Qc).
  { intros w. destruct H as [[-> ->]| ->].
    - unfold latest. cbn [filter map last]. ring.
    - rewrite <- dget_latest. destruct (dget String.eqb _ c); [reflexivity|ring]. }
  destruct (se_weight x) as [w|]; cbn [option_map truth bind].
  - rewrite L, W, negb_involutive, negb_involutive. destruct (Qc_eqb w 0%Qc); cbn [negb andb].
    + destruct (se_class_weights x); reflexivity.
    + do 2 f_equal. f_equal. ring.
  - rewrite L, W, negb_involutive. cbn [negb andb]. destruct (se_class_weights x); reflexivity.
Qed.

Lemma finite_all l : mapM finite (map (fun kv : string * Qc => Fin (snd kv)) l) = Ok (map snd l).
Proof. induction l as [|[k v] l IH]; [reflexivity|]. cbn [map mapM finite snd bind]. rewrite IH. reflexivity. Qed.

Lemma combine_fst_snd {A B} (l : list (A * B)) : combine (map fst l) (map snd l) = l.
Proof. induction l as [|[a b] l IH]; [reflexivity|]. cbn. f_equal. exact IH. Qed.

Lemma existsb_In c l : existsb (String.eqb c) l = true <-> In c l.
Proof. rewrite existsb_exists. split; [intros (y & I & E); apply String.eqb_eq in E; subst y; exact I|intros I; exists c; split; [exact I|apply String.eqb_refl]]. Qed.

Lemma set_pairs_all order w f x k : (forall c, w c = Ok (f c)) -> (forall l, Permutation (order l) l) -> length (se_scores x) = length (se_classes x) ->
  exists ps, set_pairs order w (se_labels x) (kept k (se_classes x)) (kept k (se_scores x)) = Ok ps /\
    Permutation ps (map (fun cp => (fst (snd cp), snd (snd cp), f (fst cp))) (expected_set_pairs k x)).
Proof.
  intros W P L. unfold set_pairs.
  set (lc := dedup String.eqb (se_labels x)). set (pc := dedup String.eqb (kept k (se_classes x))).
  set (A := filter (fun c => memb String.eqb c pc) lc). set (B := filter (fun c => negb (memb String.eqb c pc)) lc).
  set (C := filter (fun c => negb (memb String.eqb c lc)) pc).
  assert (LK : length (kept k (se_scores x)) = length (kept k (se_classes x))) by (apply kept_length; exact L).
  assert (SC : forall c, In c (kept k (se_classes x)) ->
     dget String.eqb (fold_left (fun d kv => dset String.eqb d (fst kv) (snd kv)) (combine (kept k (se_classes x)) (kept k (se_scores x))) []) c = Some (score_of k x c)).
  { intros c I. destruct (dget_fold_some c (combine (kept k (se_classes x)) (kept k (se_scores x)))) as [v V]; [rewrite map_fst_combine by exact LK; exact I|].
    rewrite V. f_equal. unfold score_of. rewrite <- dget_latest. rewrite V. reflexivity. }
  assert (InA : forall c, In c A <-> In c (se_labels x) /\ In c (kept k (se_classes x))).
  { intros c. unfold A, lc, pc. rewrite filter_In, (memb_In _ String.eqb_eq), !(dedup_In _ String.eqb_eq). reflexivity. }
  assert (InB : forall c, In c B <-> In c (se_labels x) /\ ~ In c (kept k (se_classes x))).
  { intros c. unfold B, lc, pc. rewrite filter_In, negb_true_iff, (dedup_In _ String.eqb_eq). rewrite <- (dedup_In _ String.eqb_eq (kept k _) c).
    rewrite (memb_nIn _ String.eqb_eq). reflexivity. }
  assert (InC : forall c, In c C <-> In c (kept k (se_classes x)) /\ ~ In c (se_labels x)).
  { intros c. unfold C, lc, pc. rewrite filter_In, negb_true_iff, (dedup_In _ String.eqb_eq). rewrite <- (dedup_In _ String.eqb_eq (se_labels x) c).
    rewrite (memb_nIn _ String.eqb_eq). reflexivity. }
  rewrite (mapM_all_ok _ (fun c => (1%Qc, score_of k x c, f c)) (order A)).
  2: { intros c I. apply (Permutation_in _ (P A)), InA in I. rewrite (SC c (proj2 I)), W. reflexivity. }
  rewrite (mapM_all_ok _ (fun c => (1%Qc, score_of k x c, f c)) (order B)).
  2: { intros c I. apply (Permutation_in _ (P B)), InB in I. rewrite W. cbn [bind]. unfold score_of. rewrite latest_none; [reflexivity|]. rewrite map_fst_combine by exact LK. apply I. }
  rewrite (mapM_all_ok _ (fun c => (0%Qc, score_of k x c, f c)) (order C)).
  2: { intros c I. apply (Permutation_in _ (P C)), InC in I. rewrite (SC c (proj1 I)), W. reflexivity. }
  cbn [bind]. eexists. split; [reflexivity|].
  unfold expected_set_pairs. rewrite app_assoc, <- map_app, (map_app (fun cp : string * (Qc * num) => _)), !map_map. cbn [fst snd]. apply Permutation_app.
  - apply Permutation_map. rewrite (P A), (P B). apply NoDup_Permutation.
    + apply NoDup_app; [apply NoDup_filter, (dedup_NoDup _ String.eqb_eq)|apply NoDup_filter, (dedup_NoDup _ String.eqb_eq)|].
      intros c I J. apply InA in I. apply InB in J. tauto.
    + apply NoDup_nodup.
    + intros c. rewrite in_app_iff, InA, InB. unfold distinct. rewrite nodup_In. destruct (in_dec string_dec c (kept k (se_classes x))); tauto.
  - apply Permutation_map. rewrite (P C). apply NoDup_Permutation.
    + apply NoDup_filter, (dedup_NoDup _ String.eqb_eq).
    + apply NoDup_filter, NoDup_nodup.
    + intros c. rewrite InC, filter_In. unfold kept_classes, distinct. rewrite nodup_In, negb_true_iff.
      split; intros [I J]; (split; [exact I|]).
      * destruct (existsb (String.eqb c) (se_labels x)) eqn:E; [|reflexivity]. apply existsb_In in E. contradiction.
      * intros K. apply existsb_In in K. rewrite K in J. discriminate.
Qed.

Lemma holds_process order st e x k : holds st e x -> sm_top_k st = option_map Z.of_nat k -> (forall l, Permutation (order l) l) ->
  exists ps, set_match_process order st e = Ok ps /\
    Permutation ps (map (fun cp => (fst (snd cp), snd (snd cp), given_weight x (fst cp))) (expected_set_pairs k x)).
Proof.
  intros (HL & (d & sk & HP & HS & HC & HSc & Len) & HW & HCW) K P.
  unfold set_match_process, read_labels. change LABELS_KEY with "labels". rewrite (stored_get _ _ _ _ HL). cbn [bind is_one_dimensional tensor_shape length Nat.eqb].
  assert (CW : exists cw, read_class_weights st e (Strings (se_labels x)) = Ok cw /\
    (cw = None /\ se_class_weights x = [] \/ cw = Some (fold_left (fun d kv => dset String.eqb d (fst kv) (snd kv)) (se_class_weights x) []))).
  { unfold read_class_weights. destruct (sm_weight_key st) as [wk|].
    - destruct HCW as (f & classes & F & G & J & M). unfold get_by_key. change FEATURES_KEY with "features". rewrite F. cbn [bind].
      rewrite (get_one f wk _ G) by discriminate. cbn [bind].
      assert (Q : (match sm_class_key st with Some k0 => get_by_keys (Dict f) [k0] None false | None => Ok (Some (Leaf (Strings (se_labels x)))) end) = Ok (Some (Leaf (Strings classes)))).
      { destruct (sm_class_key st) as [ck|]; [apply get_one; [exact J|discriminate]|rewrite J; reflexivity]. }
      rewrite Q. cbn [bind tensor_shape shape_eqb]. rewrite map_length, <- M, map_length, Nat.eqb_refl. cbn [andb negb names_of weights_of bind].
      rewrite finite_all. cbn [bind]. rewrite combine_fst_snd. eexists. split; [reflexivity|]. right. reflexivity.
    - eexists. split; [reflexivity|]. left. split; [reflexivity|exact HCW]. }
  destruct CW as (cw & -> & CW). cbn [bind]. unfold read_predictions. change PREDICTIONS_KEY with "predictions". rewrite (stored_get _ _ _ _ HP). cbn [bind].
  rewrite (get_one d _ _ HC) by discriminate. rewrite HS, (get_one d _ _ HSc) by discriminate. cbn [bind tensor_shape shape_eqb]. rewrite Len, Nat.eqb_refl.
  cbn [andb negb is_one_dimensional tensor_shape length Nat.eqb names_of scores_of bind fst snd option_map].
  assert (EW : read_example_weight e (sm_model_name st) = Ok (option_map (fun w => [w]) (se_weight x))).
  { unfold read_example_weight. change EXAMPLE_WEIGHTS_KEY with "example_weights". destruct (se_weight x) as [w|].
    - rewrite (stored_get _ _ _ _ HW). reflexivity.
    - unfold get_by_key. rewrite HW. reflexivity. }
  rewrite EW. cbn [bind]. rewrite K, !first_k_kept. apply set_pairs_all; [|exact P|exact Len].
  intros c. apply calculate_given. exact CW.
Qed.

Lemma C220_set_pairs_pf order st e x k : holds st e x -> sm_top_k st = option_map Z.of_nat k -> (forall l, Permutation (order l) l) ->
  exists ps, set_match_process order st e = Ok ps /\ Permutation (map fst ps) (map snd (expected_set_pairs k x)).
Proof.
  intros H K P. destruct (holds_process order st e x k H K P) as (ps & E & Q). exists ps. split; [exact E|].
  apply (Permutation_map fst) in Q. rewrite map_map in Q. cbn [fst] in Q. rewrite Q. apply Permutation_refl'. apply map_ext. intros [c [l s]]. reflexivity.
Qed.

Definition by_scores (top_k : option Z) := SetMatch "classes" (Some "scores") None None top_k "".

Definition of_cats (labels classes : list string) (scores : list num) : list (string * data tensor) :=
  [("labels", Leaf (Strings labels)); ("predictions", Dict [("classes", Leaf (Strings classes)); ("scores", Leaf (Floats scores))])].

Lemma of_cats_holds labels classes scores k : length scores = length classes -> holds (by_scores k) (of_cats labels classes scores) (SetExample labels classes scores None []).
Proof.
  intros L. split; [|split; [|split]].
  - right. split; [reflexivity|]. intros d E. discriminate.
  - exists [("classes", Leaf (Strings classes)); ("scores", Leaf (Floats scores))], "scores". split; [|split; [reflexivity|split; [reflexivity|split; [reflexivity|exact L]]]].
    right. split; [reflexivity|]. intros d E k0 v I. injection E as <-. destruct I as [I|[I|[]]]; injection I as <- <-; (split; [discriminate|intros r; discriminate]).
  - reflexivity.
  - reflexivity.
Qed.

Lemma C221_weights_of_pairs_partial_pf order st e x k : holds st e x -> sm_top_k st = option_map Z.of_nat k -> (forall l, Permutation (order l) l) ->
  se_weight x <> Some 0%Qc ->
  exists ps, set_match_process order st e = Ok ps /\
    Permutation ps (map (fun cp => (fst (snd cp), snd (snd cp),
      if match se_weight x, se_class_weights x with None, [] => true | _, _ => false end then None else Some (weight_of x (fst cp))))
      (expected_set_pairs k x)).
Proof.
  intros H K P NZ. destruct (holds_process order st e x k H K P) as (ps & E & Q). exists ps. split; [exact E|]. rewrite Q. apply Permutation_refl'.
  apply map_ext. intros cp. f_equal. unfold given_weight, weight_of. destruct (se_weight x) as [w|].
  - destruct (Qc_eqb w 0%Qc) eqn:Z; [exfalso; apply NZ; f_equal; apply Qc_eqb_eq; exact Z|]. reflexivity.
  - cbn [andb]. destruct (se_class_weights x); reflexivity.
Qed.

(** "example weight": an example of weight 0 is counted as if it had no weight. *)

Definition weighted_cats (w : Qc) : list (string * data tensor) := of_cats ["cat"] ["cat"] [Fin (Q2Qc (3 # 4))] ++ [("example_weights", Leaf (Floats [Fin w]))].

Lemma weighted_cats_holds w : holds (by_scores None) (weighted_cats w) (SetExample ["cat"] ["cat"] [Fin (Q2Qc (3 # 4))] (Some w) []).
Proof.
  split; [|split; [|split]].
  - right. split; [reflexivity|]. intros d E. discriminate.
  - exists [("classes", Leaf (Strings ["cat"])); ("scores", Leaf (Floats [Fin (Q2Qc (3 # 4))]))], "scores". split; [|split; [reflexivity|split; [reflexivity|split; reflexivity]]].
    right. split; [reflexivity|]. intros d E k0 v I. injection E as <-. destruct I as [I|[I|[]]]; injection I as <- <-; (split; [discriminate|intros r; discriminate]).
  - right. split; [reflexivity|]. intros d E. discriminate.
  - reflexivity.
Qed.

Lemma C221_weight_zero_refuted_pf : exists st e x s,
  holds st e x /\ se_weight x = Some 0%Qc /\ weight_of x "cat" = 0%Qc /\
  set_match_process (fun l => l) st e = Ok [(1%Qc, s, None)] /\
  (* counted fully, whether or not weights are used *)
  forall ap, set_match_matrices ap [Fin (Q2Qc (1 # 2))] true "" "" "" (Bundle (map set_input [(1%Qc, s, None)])) =
    Ok (Matrices [Fin (Q2Qc (1 # 2))] [1%Qc] [0%Qc] [0%Qc] [0%Qc]).
Proof.
  exists (by_scores None), (weighted_cats 0%Qc), (SetExample ["cat"] ["cat"] [Fin (Q2Qc (3 # 4))] (Some 0%Qc) []), (Fin (Q2Qc (3 # 4))).
  split; [apply weighted_cats_holds|]. split; [reflexivity|]. split; [vm_compute; reflexivity|]. split; [vm_compute; reflexivity|].
  intros ap. vm_compute. reflexivity.
Qed.

Definition falling (l : list num) : Prop := StronglySorted (fun a b => num_ltb a b = false) l.

Lemma falling_firstn k : forall l, falling l -> forall a b, In a (firstn k l) -> In b (skipn k l) -> num_ltb a b = false.
Proof.
  induction k as [|k IH]; intros l F a b I J; [destruct I|]. destruct l as [|x l]; [destruct I|]. inversion F as [|? ? F1 F2]; subst.
  cbn [firstn skipn] in *. destruct I as [->|I]; [|apply (IH l F1 a b I J)].
  rewrite Forall_forall in F2. apply F2. rewrite <- (firstn_skipn k l). apply in_or_app. right. exact J.
Qed.

Lemma latest_distinct {V} (l : list (string * V)) d c v : NoDup (map fst l) -> In (c, v) l -> latest l d c = v.
Proof.
  unfold latest. induction l as [|[k w] l IH]; intros N I; [destruct I|]. inversion N as [|? ? N1 N2]; subst. cbn [filter fst]. destruct I as [I|I].
  - injection I as -> ->. rewrite String.eqb_refl. cbn [map snd]. clear IH. replace (filter (fun kv => String.eqb c (fst kv)) l) with (@nil (string * V)); [reflexivity|].
    symmetry. clear N. induction l as [|[j u] l IH]; [reflexivity|]. cbn [filter fst map In] in *. destruct (String.eqb c j) eqn:E; [apply String.eqb_eq in E; subst j; tauto|].
    apply IH; [tauto|]. inversion N2; assumption.
  - destruct (String.eqb c k) eqn:E; [|apply IH; assumption]. apply String.eqb_eq in E. subst k. exfalso. apply N1. change c with (fst (c, v)). apply in_map. exact I.
Qed.

Lemma combine_kept {A B} k : forall (a : list A) (b : list B), combine (kept k a) (kept k b) = kept k (combine a b).
Proof. destruct k as [k|]; [|reflexivity]. cbn [kept]. induction k as [|k IH]; intros [|x a] [|y b]; try reflexivity. cbn. f_equal. apply IH. Qed.

Lemma NoDup_kept {A} k (l : list A) : NoDup l -> NoDup (kept k l).
Proof. destruct k as [k|]; [|auto]. cbn [kept]. revert k. induction l as [|x l IH]; intros [|k] N; cbn; constructor; inversion N as [|? ? N1 N2]; subst; [|apply IH; exact N2].
  intros I. apply N1. rewrite <- (firstn_skipn k l). apply in_or_app. left. exact I. Qed.

Lemma kept_In {A} k (l : list A) x : In x (kept k l) -> In x l.
Proof. destruct k as [k|]; [|auto]. cbn [kept]. intros I. rewrite <- (firstn_skipn k l). apply in_or_app. left. exact I. Qed.

Lemma filter_map' {A B} (f : A -> B) p l : filter p (map f l) = map f (filter (fun x => p (f x)) l).
Proof. induction l as [|x l IH]; [reflexivity|]. cbn [map filter]. destruct (p (f x)); cbn [map]; rewrite IH; reflexivity. Qed.

Lemma expected_class k x c l s : In (c, (l, s)) (expected_set_pairs k x) <->
  s = score_of k x c /\ ((In c (se_labels x) /\ l = 1%Qc) \/ (In c (kept_classes k x) /\ ~ In c (se_labels x) /\ l = 0%Qc)).
Proof.
  unfold expected_set_pairs. rewrite in_app_iff, !in_map_iff. split.
  - intros [(d & E & I)|(d & E & I)]; injection E as <- <- <-; (split; [reflexivity|]).
    + left. split; [apply (nodup_In string_dec); exact I|reflexivity].
    + right. apply filter_In in I. destruct I as [I J]. split; [apply (nodup_In string_dec); exact I|]. split; [|reflexivity].
      intros K. apply existsb_In in K. rewrite K in J. discriminate.
  - intros (-> & [(I & ->)|(I & J & ->)]); [left|right]; exists c; (split; [reflexivity|]).
    + apply (nodup_In string_dec). exact I.
    + apply filter_In. split; [apply (nodup_In string_dec); exact I|]. destruct (existsb (String.eqb c) (se_labels x)) eqn:E; [|reflexivity]. apply existsb_In in E. contradiction.
Qed.

Lemma expected_classes_distinct k x : NoDup (map fst (expected_set_pairs k x)).
Proof.
  unfold expected_set_pairs. rewrite map_app, !map_map. cbn [fst]. rewrite !map_id. apply NoDup_app; [apply NoDup_nodup|apply NoDup_filter, NoDup_nodup|].
  intros c I J. apply filter_In in J. destruct J as [_ J]. unfold distinct in I. rewrite nodup_In in I. apply existsb_In in I. rewrite I in J. discriminate.
Qed.

Lemma NoDup_map_filter {A B} (f : A -> B) p l : NoDup (map f l) -> NoDup (map f (filter p l)).
Proof.
  induction l as [|x l IH]; intros N; [exact N|]. cbn [map filter] in *. inversion N as [|? ? N1 N2]; subst. destruct (p x); [|apply IH; exact N2].
  cbn [map]. constructor; [|apply IH; exact N2]. intros I. apply N1. apply in_map_iff in I. destruct I as (y & <- & I). apply in_map. apply filter_In in I. apply I.
Qed.

Lemma score_of_kept k x c : length (se_scores x) = length (se_classes x) -> NoDup (se_classes x) -> In c (kept_classes k x) ->
  In (c, score_of k x c) (combine (kept k (se_classes x)) (kept k (se_scores x))).
Proof.
  intros L N I. assert (LK : length (kept k (se_scores x)) = length (kept k (se_classes x))) by (apply kept_length; exact L).
  unfold kept_classes in I. rewrite <- (map_fst_combine (kept k (se_classes x)) (kept k (se_scores x)) LK) in I. apply in_map_iff in I. destruct I as ([c' s] & E & I). cbn in E. subst c'.
  unfold score_of. rewrite (latest_distinct _ NegInf c s); [exact I| |exact I]. rewrite map_fst_combine by exact LK. apply NoDup_kept. exact N.
Qed.

Lemma C222_highest_scores_partial_pf order st e x k : holds st e x -> sm_top_k st = Some (Z.of_nat k) -> (forall l, Permutation (order l) l) ->
  NoDup (se_classes x) -> falling (se_scores x) -> ~ In NegInf (se_scores x) ->
  exists ps, set_match_process order st e = Ok ps /\
    let listed := filter (fun p => negb (num_eqb (snd (fst p)) NegInf)) ps in
    length listed = Nat.min k (length (se_classes x)) /\
    forall c s, In (c, s) (combine (se_classes x) (se_scores x)) ->
      In ((if existsb (String.eqb c) (se_labels x) then 1 else 0)%Qc, s) (map fst listed) \/
      forall p, In p listed -> num_ltb (snd (fst p)) s = false.
Proof.
  intros H K P N F NI. assert (L : length (se_scores x) = length (se_classes x)) by (destruct H as (_ & (d & sk & _ & _ & _ & _ & L) & _); exact L).
  destruct (holds_process order st e x (Some k) H K P) as (ps & E & Q). exists ps. split; [exact E|]. cbn zeta.
  set (keep := fun cp : string * (Qc * num) => negb (num_eqb (snd (snd cp)) NegInf)).
  set (g := fun cp : string * (Qc * num) => (fst (snd cp), snd (snd cp), given_weight x (fst cp))) in *.
  assert (Q' : Permutation (filter (fun p => negb (num_eqb (snd (fst p)) NegInf)) ps) (map g (filter keep (expected_set_pairs (Some k) x)))).
  { rewrite (filter_perm _ _ _ Q), filter_map'. apply Permutation_refl. }
  assert (LK : length (kept (Some k) (se_scores x)) = length (kept (Some k) (se_classes x))) by (apply kept_length; exact L).
  assert (KS : forall c, keep (c, (0%Qc, score_of (Some k) x c)) = true <-> In c (kept_classes (Some k) x)).
  { intros c. unfold keep. cbn [snd]. split.
    - intros J. destruct (in_dec string_dec c (kept_classes (Some k) x)) as [I|I]; [exact I|]. unfold score_of in J. rewrite latest_none in J; [discriminate|].
      rewrite map_fst_combine by exact LK. exact I.
    - intros I. apply score_of_kept in I; [|exact L|exact N]. apply in_combine_r in I. apply kept_In in I. destruct (score_of (Some k) x c); try reflexivity. contradiction. }
  split.
  - rewrite (Permutation_length Q'), map_length, <- (map_length fst).
    transitivity (length (kept_classes (Some k) x)); [|unfold kept_classes; cbn [kept]; apply firstn_length].
    apply Permutation_length, NoDup_Permutation; [apply NoDup_map_filter, expected_classes_distinct|apply NoDup_kept; exact N|].
    intros c. rewrite in_map_iff. split.
    + intros ([c' [l s]] & <- & I). cbn [fst]. apply filter_In in I. destruct I as [I J]. apply expected_class in I. destruct I as [-> _]. apply KS. exact J.
    + intros I. exists (c, ((if existsb (String.eqb c) (se_labels x) then 1 else 0)%Qc, score_of (Some k) x c)). split; [reflexivity|]. apply filter_In. split.
      * apply expected_class. split; [reflexivity|]. destruct (existsb (String.eqb c) (se_labels x)) eqn:X.
        -- left. split; [apply existsb_In; exact X|reflexivity].
        -- right. split; [exact I|]. split; [|reflexivity]. intros J. apply existsb_In in J. rewrite J in X. discriminate.
      * apply KS in I. exact I.
  - intros c s I. rewrite <- (firstn_skipn k (combine (se_classes x) (se_scores x))) in I. apply in_app_or in I. destruct I as [I|I].
    + left. apply (Permutation_in _ (Permutation_sym (Permutation_map fst Q'))). rewrite map_map. apply in_map_iff.
      change (firstn k ?a) with (kept (Some k) a) in I. rewrite <- combine_kept in I.
      assert (S : score_of (Some k) x c = s) by (unfold score_of; apply latest_distinct; [rewrite map_fst_combine by exact LK; apply NoDup_kept; exact N|exact I]).
      assert (IC : In c (kept_classes (Some k) x)) by (apply in_combine_l in I; exact I).
      exists (c, ((if existsb (String.eqb c) (se_labels x) then 1 else 0)%Qc, s)). split; [reflexivity|]. apply filter_In. split.
      * apply expected_class. split; [symmetry; exact S|]. destruct (existsb (String.eqb c) (se_labels x)) eqn:X.
        -- left. split; [apply existsb_In; exact X|reflexivity].
        -- right. split; [exact IC|]. split; [|reflexivity]. intros J. apply existsb_In in J. rewrite J in X. discriminate.
      * apply KS in IC. rewrite S in IC. exact IC.
    + right. intros p J. apply (Permutation_in _ Q') in J. apply in_map_iff in J. destruct J as ([c' [l s']] & <- & J). cbn [g fst snd].
      apply filter_In in J. destruct J as [J M]. apply expected_class in J. destruct J as [-> _].
      assert (IC : In c' (kept_classes (Some k) x)) by (apply KS; exact M).
      apply (falling_firstn k (se_scores x) F).
      * apply score_of_kept in IC; [|exact L|exact N]. apply in_combine_r in IC. exact IC.
      * apply (in_map snd) in I. cbn [snd] in I. clear - I. revert I. generalize (se_classes x) as a, (se_scores x) as b. induction k as [|k IH]; intros a b I.
        -- cbn [skipn] in *. revert b I. induction a as [|u a IH]; intros [|v b] I; try (destruct I; fail). cbn in I. destruct I as [<-|I]; [left; reflexivity|right; apply IH; exact I].
        -- destruct a as [|u a], b as [|v b]; try (cbn in I; destruct I; fail). cbn [skipn combine] in *. apply (IH a b I).
Qed.

Lemma C222_highest_scores_refuted_pf : exists order e x ps,
  (forall l : list string, Permutation (order l) l) /\ holds (by_scores (Some 1%Z)) e x /\
  set_match_process order (by_scores (Some 1%Z)) e = Ok ps /\
  se_labels x = ["cat"] /\ score_of None x "dog" = Fin (Q2Qc (1 # 4)) /\ score_of None x "cat" = Fin (Q2Qc (3 # 4)) /\
  (* the label with the highest score counts as missed *)
  ps = [(1%Qc, NegInf, None); (0%Qc, Fin (Q2Qc (1 # 4)), None)].
Proof.
  exists (fun l => l), (of_cats ["cat"] ["dog"; "cat"] [Fin (Q2Qc (1 # 4)); Fin (Q2Qc (3 # 4))]), (SetExample ["cat"] ["dog"; "cat"] [Fin (Q2Qc (1 # 4)); Fin (Q2Qc (3 # 4))] None []). eexists.
  split; [intros l; apply Permutation_refl|]. split; [apply of_cats_holds; reflexivity|]. split; [vm_compute; reflexivity|].
  split; [reflexivity|]. split; [reflexivity|]. split; [reflexivity|]. reflexivity.
Qed.

Lemma stored_labels st e t : stored e "labels" (sm_model_name st) (Leaf t) -> length (tensor_shape t) = 1%nat -> read_labels e (sm_model_name st) = Ok t.
Proof. intros H L. unfold read_labels. change LABELS_KEY with "labels". rewrite (stored_get _ _ _ _ H). cbn [bind]. unfold is_one_dimensional. rewrite L. reflexivity. Qed.

Lemma shape_eqb_eq a : forall b, shape_eqb a b = true <-> a = b.
Proof.
  induction a as [|x a IH]; intros [|y b]; cbn; split; try discriminate; try reflexivity.
  - intros E. apply andb_prop in E. destruct E as [E1 E2]. apply Nat.eqb_eq in E1. apply IH in E2. congruence.
  - intros E. injection E as -> ->. rewrite Nat.eqb_refl. apply IH. reflexivity.
Qed.

Lemma shape_eqb_neq a b : a <> b -> shape_eqb a b = false.
Proof. intros N. destruct (shape_eqb a b) eqn:E; [apply shape_eqb_eq in E; contradiction|reflexivity]. Qed.

Lemma C223_refused_pf order st e : let m := sm_model_name st in
  (dget String.eqb e "labels" = None -> set_match_process order st e = Err ValueError) /\
  (forall t, stored e "labels" m (Leaf t) -> length (tensor_shape t) <> 1%nat -> set_match_process order st e = Err ValueError) /\
  forall t, stored e "labels" m (Leaf t) -> length (tensor_shape t) = 1%nat ->
    (sm_weight_key st <> None -> dget String.eqb e "features" = None -> set_match_process order st e = Err ValueError) /\
    (forall wk f c w, sm_weight_key st = Some wk -> dget String.eqb e "features" = Some (Dict f) -> dget String.eqb f wk = Some (Leaf w) ->
       match sm_class_key st with Some k => dget String.eqb f k = Some (Leaf c) | None => c = t end ->
       tensor_shape c <> tensor_shape w -> set_match_process order st e = Err ValueError) /\
    (sm_weight_key st = None ->
       (dget String.eqb e "predictions" = None \/ (exists a, stored e "predictions" m (Leaf a)) -> set_match_process order st e = Err TypeError) /\
       (forall d k c s, stored e "predictions" m (Dict d) -> sm_prediction_score_key st = Some k ->
          dget String.eqb d (sm_prediction_class_key st) = Some (Leaf c) -> dget String.eqb d k = Some (Leaf s) ->
          tensor_shape c <> tensor_shape s \/ length (tensor_shape c) <> 1%nat -> set_match_process order st e = Err ValueError)).
Proof.
  cbn zeta. split; [|split].
  - intros H. unfold set_match_process, read_labels, get_by_key. change LABELS_KEY with "labels". rewrite H. reflexivity.
  - intros t H N. unfold set_match_process, read_labels. change LABELS_KEY with "labels". rewrite (stored_get _ _ _ _ H). cbn [bind]. unfold is_one_dimensional.
    apply Nat.eqb_neq in N. rewrite N. reflexivity.
  - intros t H L. pose proof (stored_labels st e t H L) as R. unfold set_match_process. rewrite R. cbn [bind]. split; [|split].
    + intros W F. unfold read_class_weights. destruct (sm_weight_key st); [|congruence]. unfold get_by_key. change FEATURES_KEY with "features". rewrite F. reflexivity.
    + intros wk f c w W F G C S. unfold read_class_weights. rewrite W. unfold get_by_key. change FEATURES_KEY with "features". rewrite F. cbn [bind].
      rewrite (get_one f wk _ G) by discriminate. cbn [bind].
      assert (X : (match sm_class_key st with Some k0 => get_by_keys (Dict f) [k0] None false | None => Ok (Some (Leaf t)) end) = Ok (Some (Leaf c))).
      { destruct (sm_class_key st) as [ck|]; [apply get_one; [exact C|discriminate]|rewrite C; reflexivity]. }
      rewrite X. cbn [bind]. rewrite (shape_eqb_neq _ _ S). reflexivity.
    + intros W. unfold read_class_weights. rewrite W. cbn [bind]. unfold read_predictions. change PREDICTIONS_KEY with "predictions". split.
      * intros [D|(a & D)]; [unfold get_by_key; rewrite D; reflexivity|rewrite (stored_get _ _ _ _ D); reflexivity].
      * intros d k c s D K C S B. rewrite (stored_get _ _ _ _ D). cbn [bind]. rewrite (get_one d _ _ C) by discriminate. rewrite K, (get_one d _ _ S) by discriminate. cbn [bind].
        destruct (shape_eqb (tensor_shape c) (tensor_shape s)) eqn:E; cbn [negb]; [|reflexivity]. apply shape_eqb_eq in E. destruct B as [B|B]; [contradiction|].
        unfold is_one_dimensional. apply Nat.eqb_neq in B. rewrite B. reflexivity.
Qed.

Lemma C223_several_weights_pf order st e labels ws : (forall l, Permutation (order l) l) ->
  stored e "labels" (sm_model_name st) (Leaf (Strings labels)) -> labels <> [] ->
  stored e "example_weights" (sm_model_name st) (Leaf (Floats (map Fin ws))) -> (1 < length ws)%nat ->
  is_ok (set_match_process order st e) = false.
Proof.
  intros P L N W M. destruct (set_match_process order st e) as [ps|] eqn:E; [exfalso|reflexivity]. revert E. unfold set_match_process.
  rewrite (stored_labels st e _ L eq_refl). cbn [bind]. destruct (read_class_weights st e (Strings labels)) as [cw|]; [|discriminate]. cbn [bind].
  destruct (read_predictions st e) as [cs|]; [|discriminate]. cbn [bind]. unfold read_example_weight. change EXAMPLE_WEIGHTS_KEY with "example_weights". rewrite (stored_get _ _ _ _ W). cbn [bind weights_of].
  assert (F : mapM finite (map Fin ws) = Ok ws). { clear. induction ws as [|w ws IH]; [reflexivity|]. cbn [map mapM finite bind]. rewrite IH. reflexivity. }
  rewrite F. cbn [bind names_of]. destruct (option_map _ (snd cs)) as [scores|]; [|discriminate].
  assert (T : forall c, calculate_weights (Some ws) cw c = Err ValueError). { intros c. unfold calculate_weights. destruct ws as [|w [|w' ws]]; [cbn in M; lia|cbn in M; lia|reflexivity]. }
  revert T. generalize (calculate_weights (Some ws) cw). intros weight T. unfold set_pairs. set (pred := dedup String.eqb _).
  destruct labels as [|l0 labels]; [destruct (N eq_refl)|].
  assert (I : In l0 (dedup String.eqb (l0 :: labels))) by (apply (dedup_In _ String.eqb_eq); left; reflexivity).
  assert (B : forall (f : string -> res set_pair) l, In l0 l -> is_ok (f l0) = false -> is_ok (mapM f (order l)) = false).
  { intros f l Il Ef. apply (Permutation_in _ (Permutation_sym (P l))) in Il. induction (order l) as [|a r IH]; [destruct Il|]. cbn [mapM]. destruct Il as [->|Il].
    - destruct (f l0); [discriminate|reflexivity].
    - destruct (f a); [|reflexivity]. cbn [bind]. specialize (IH Il). destruct (mapM f r); [discriminate|reflexivity]. }
  destruct (memb String.eqb l0 pred) eqn:Mp.
  - match goal with |- context [mapM ?f (order (filter ?g ?l))] => assert (Q : is_ok (mapM f (order (filter g l))) = false) end.
    { apply B; [apply filter_In; split; assumption|]. destruct (match dget _ _ l0 with Some _ => _ | None => _ end); [|reflexivity]. cbn [bind]. rewrite T. reflexivity. }
    destruct (mapM _ (order (filter (fun c => memb String.eqb c pred) (dedup String.eqb (l0 :: labels))))); [discriminate Q|discriminate].
  - destruct (mapM _ (order (filter (fun c => memb String.eqb c pred) (dedup String.eqb (l0 :: labels))))) as [tp|]; [|discriminate]. cbn [bind].
    match goal with |- context [mapM ?f (order (filter (fun c => negb (memb String.eqb c pred)) ?l))] => assert (Q : is_ok (mapM f (order (filter (fun c => negb (memb String.eqb c pred)) l))) = false) end.
    { apply B; [apply filter_In; split; [assumption|rewrite Mp; reflexivity]|]. rewrite T. reflexivity. }
    destruct (mapM _ (order (filter (fun c => negb (memb String.eqb c pred)) (dedup String.eqb (l0 :: labels))))); [discriminate Q|discriminate].
Qed.

Lemma C223_classes_alone_refuted_pf : exists st e,
  sm_prediction_score_key st = None /\
  stored e "labels" (sm_model_name st) (Leaf (Strings ["cat"; "dog"])) /\
  stored e "predictions" (sm_model_name st) (Dict [(sm_prediction_class_key st, Leaf (Strings ["cat"]))]) /\
  (forall order, set_match_process order st e = Err TypeError) /\
  (forall order e', is_ok (set_match_process order st e') = false).
Proof.
  exists (SetMatch "classes" None None None None ""), [("labels", Leaf (Strings ["cat"; "dog"])); ("predictions", Dict [("classes", Leaf (Strings ["cat"]))])].
  split; [reflexivity|]. split; [right; split; [reflexivity|intros d E; discriminate]|]. split.
  - right. split; [reflexivity|]. intros d E k v I. injection E as <-. destruct I as [I|[]]. injection I as <- <-. split; [discriminate|intros r; discriminate].
  - split; [intros order; reflexivity|]. intros order e'. unfold set_match_process. destruct (read_labels e' _) as [t|]; [|reflexivity]. cbn [bind].
    destruct (read_class_weights _ e' t) as [cw|]; [|reflexivity]. cbn [bind].
    assert (R : match read_predictions (SetMatch "classes" None None None None "") e' with Ok cs => snd cs = None | Err _ => True end).
    { unfold read_predictions. destruct (get_by_key e' PREDICTIONS_KEY _ _) as [[[a|d]|]|]; cbn [bind]; try exact I.
      destruct (get_by_keys (Dict d) _ None false) as [c|]; cbn [bind sm_prediction_score_key]; [|exact I]. destruct c as [[a|d']|]; try exact I.
      destruct (negb (is_one_dimensional a)); [exact I|]. destruct (names_of a); [reflexivity|exact I]. }
    destruct (read_predictions _ e') as [cs|]; [|reflexivity]. cbn [bind]. destruct (read_example_weight e' _) as [w|]; [|reflexivity]. cbn [bind].
    destruct (names_of t); [|reflexivity]. cbn [bind]. rewrite R. reflexivity.
Qed.

(** The weight of a class of an example, where weights are used. *)

Definition class_weight_of (weighted : bool) (x : set_example) (c : string) : Qc := if weighted then weight_of x c else 1%Qc.

(** Labels predicted above a threshold, labels that are not, and other classes predicted above it or
    not, by weight. *)

Definition weight_of_classes weighted x (l : list string) : Qc := qsum (map (class_weight_of weighted x) l).

Definition above_threshold k x t (c : string) : bool := num_ltb t (score_of k x c).

Definition wrong_classes k x : list string := filter (fun c => negb (existsb (String.eqb c) (se_labels x))) (distinct (kept_classes k x)).

Definition hits_of weighted k t x := weight_of_classes weighted x (filter (above_threshold k x t) (distinct (se_labels x))).

Definition misses_of weighted k t x := weight_of_classes weighted x (filter (fun c => negb (above_threshold k x t c)) (distinct (se_labels x))).

Definition alarms_of weighted k t x := weight_of_classes weighted x (filter (above_threshold k x t) (wrong_classes k x)).

Definition silences_of weighted k t x := weight_of_classes weighted x (filter (fun c => negb (above_threshold k x t c)) (wrong_classes k x)).

Definition set_scored (weighted : bool) (p : Qc * num * option Qc) : scored :=
  (fst (fst p), snd (fst p), match snd p with Some w => if weighted then w else 1%Qc | None => 1%Qc end).

Lemma sets_scored weighted (l : list inputs_dict) ps : Permutation l (map set_input ps) ->
  Permutation (scored_of element_pairs (element_weight weighted) l) (map (set_scored weighted) ps).
Proof.
  intros P. unfold scored_of. rewrite (Permutation_flat_map _ P). apply Permutation_refl'.
  clear P. induction ps as [|[[a b] w] ps IH]; [reflexivity|]. cbn [map flat_map]. rewrite IH. destruct w as [w|]; reflexivity.
Qed.

(** What the pairs of examples come to. *)

Lemma sets_pairs order st es xs k : (forall l, Permutation (order l) l) -> sm_top_k st = option_map Z.of_nat k -> Forall2 (holds st) es xs ->
  (forall x, In x xs -> se_weight x <> Some 0%Qc) ->
  exists pairs, mapM (set_match_process order st) es = Ok pairs /\
    forall weighted, Permutation (map (set_scored weighted) (concat pairs))
      (flat_map (fun x => map (fun cp => (fst (snd cp), snd (snd cp), class_weight_of weighted x (fst cp))) (expected_set_pairs k x)) xs).
Proof.
  intros P K H. induction H as [|e x es xs H1 H2 IH]; intros NZ; [exists []; split; [reflexivity|intros; constructor]|].
  destruct IH as (pairs & E & Q); [intros y I; apply NZ; right; exact I|].
  destruct (C221_weights_of_pairs_partial_pf order st e x k H1 K P (NZ x (or_introl eq_refl))) as (ps & E1 & Q1).
  exists (ps :: pairs). split; [cbn [mapM]; rewrite E1; cbn [bind]; rewrite E; reflexivity|]. intros weighted. cbn [concat flat_map]. rewrite map_app. apply Permutation_app; [|apply Q].
  rewrite Q1, map_map. apply Permutation_refl'. apply map_ext. intros [c [l s]]. unfold set_scored, class_weight_of. cbn [fst snd].
  destruct (se_weight x) as [w|] eqn:Ew; [reflexivity|]. destruct (se_class_weights x) as [|a l0] eqn:Ec; [|reflexivity].
  unfold weight_of, latest. rewrite Ew, Ec. cbn [filter map last]. replace (1 * 1)%Qc with 1%Qc by ring. destruct weighted; reflexivity.
Qed.

Lemma qsum_flat {A} (f : A -> list Qc) l : qsum (flat_map f l) = qsum (map (fun x => qsum (f x)) l).
Proof. induction l as [|x l IH]; [reflexivity|]. cbn [flat_map map]. rewrite qsum_app, IH. reflexivity. Qed.

Lemma map_flat_map' {A B C} (g : B -> C) (f : A -> list B) l : map g (flat_map f l) = flat_map (fun x => map g (f x)) l.
Proof. induction l as [|x l IH]; [reflexivity|]. cbn [flat_map]. rewrite map_app, IH. reflexivity. Qed.

Lemma set_sum (f : scored -> Qc) weighted k xs :
  qsum (map f (flat_map (fun x => map (fun cp => (fst (snd cp), snd (snd cp), class_weight_of weighted x (fst cp))) (expected_set_pairs k x)) xs)) =
  qsum (map (fun x => qsum (map (fun c => f (1%Qc, score_of k x c, class_weight_of weighted x c)) (distinct (se_labels x))) +
                      qsum (map (fun c => f (0%Qc, score_of k x c, class_weight_of weighted x c)) (wrong_classes k x)))%Qc xs).
Proof.
  rewrite map_flat_map', qsum_flat. apply qsum_map_ext. intros x _. unfold expected_set_pairs, wrong_classes. rewrite !map_app, !map_map, qsum_app. reflexivity.
Qed.

Lemma map_sched_inputs {A B} (f : A -> B) s : inputs (map_sched f s) = map f (inputs s).
Proof.
  induction s using sched_ind'; cbn [map_sched inputs]; rewrite ?map_app.
  - reflexivity.
  - rewrite IHs. f_equal. induction H as [|t ts H1 H2 IH]; [reflexivity|]. cbn [map flat_map]. rewrite map_app, H1, IH. reflexivity.
  - rewrite IHs. reflexivity.
Qed.

Lemma C224_matrices_count_classes_pf order st es xs k ap ths weighted lk pk :
  (forall l, Permutation (order l) l) -> sm_top_k st = option_map Z.of_nat k -> Forall2 (holds st) es xs ->
  (forall x, In x xs -> se_weight x <> Some 0%Qc) ->
  NoDup ths -> (forall t, ths = [t] -> num_ltb t (Fin 0%Qc) = false) ->
  exists pairs, mapM (set_match_process order st) es = Ok pairs /\
    forall s, Permutation (inputs s) (map set_input (concat pairs)) ->
      exists cm, set_match_matrices ap ths weighted lk pk "" s = Ok cm /\
        m_thresholds cm = ths /\
        forall i, (i < length ths)%nat ->
          let t := nth i ths NaN in
          let tp := qsum (map (hits_of weighted k t) xs) in
          let fp := qsum (map (alarms_of weighted k t) xs) in
          let fn := qsum (map (misses_of weighted k t) xs) in
          let tn := qsum (map (silences_of weighted k t) xs) in
          nth i (m_tp cm) 0%Qc = tp /\ nth i (m_fp cm) 0%Qc = fp /\ nth i (m_fn cm) 0%Qc = fn /\ nth i (m_tn cm) 0%Qc = tn /\
          ((0 < tp + fp)%Qc -> set_match_precision cm i = Fin (tp / (tp + fp))%Qc) /\
          ((0 < tp + fn)%Qc -> set_match_recall cm i = Fin (tp / (tp + fn))%Qc).
Proof.
  intros P K H NZ N U. destruct (sets_pairs order st es xs k P K H NZ) as (pairs & E & Q). exists pairs. split; [exact E|]. intros s S.
  specialize (Q weighted). pose proof (sets_scored weighted _ _ S) as SC. rewrite Q in SC.
  assert (UH : use_histogram ths = false).
  { unfold use_histogram. destruct ths as [|t [|? ?]]; try reflexivity. apply U. reflexivity. }
  unfold set_match_matrices. rewrite UH.
  destruct (C14_confusion_counts_pf ap ths 1 true weighted lk pk "" "" (map_sched (fun x => (None, x)) s) element_pairs (element_weight weighted) N (le_n 1)) as (cm & xm & O & T & _ & _ & _ & _ & Cells).
  { intros e I. rewrite map_sched_inputs in I. apply in_map_iff in I. destruct I as (d & <- & I). cbn [snd].
    apply (Permutation_in _ S) in I. apply in_map_iff in I. destruct I as ([[l p] w] & <- & I). split; [|split].
    - split; [reflexivity|]. split; [exists (Leaf [p]), (Leaf [p]); repeat split|]. destruct w as [w|]; unfold carries_weight, element_weight; cbn; [destruct weighted; reflexivity|reflexivity].
    - discriminate.
    - intros _ l' p' [E'|[]]. injection E' as <- <-. apply (in_map (set_scored weighted)) in I. apply (Permutation_in _ Q) in I. apply in_flat_map in I.
      destruct I as (x & _ & I). apply in_map_iff in I. destruct I as ([c [l0 s0]] & E0 & I). apply expected_class in I. injection E0 as -> _ _.
      unfold unit_label. destruct I as [_ [(_ & ->)|(_ & _ & ->)]]; split; qc_lra. }
  rewrite map_sched_inputs, map_map, map_id in Cells. rewrite O. cbn [bind fst]. exists cm. split; [reflexivity|]. split; [exact T|].
  intros i Hi. cbn zeta. specialize (Cells i Hi). cbn zeta in Cells. set (t := nth i ths NaN) in *.
  rewrite <- !qsum_map_if in Cells.
  assert (SUM : forall f, qsum (map f (scored_of element_pairs (element_weight weighted) (inputs s))) =
    qsum (map f (flat_map (fun x => map (fun cp => (fst (snd cp), snd (snd cp), class_weight_of weighted x (fst cp))) (expected_set_pairs k x)) xs))).
  { intros f. apply qsum_perm, Permutation_map. exact SC. }
  rewrite !SUM, !set_sum in Cells. destruct Cells as (C1 & C2 & C3 & C4).
  assert (T1 : tp_at cm i = qsum (map (hits_of weighted k t) xs)).
  { rewrite C1. apply qsum_map_ext. intros x _. unfold hits_of, weight_of_classes. rewrite <- qsum_map_if.
    rewrite (qsum_map_zero _ (wrong_classes k x)).
    2: { intros c _. unfold predicted, positive_weight, sc_score, sc_weight, sc_label. cbn [fst snd]. destruct (num_ltb t _); ring. }
    rewrite Qcplus_0_r. apply qsum_map_ext. intros c _. unfold predicted, above_threshold, positive_weight, sc_score, sc_weight, sc_label. cbn [fst snd]. destruct (num_ltb t _); ring. }
  assert (T2 : fn_at cm i = qsum (map (misses_of weighted k t) xs)).
  { rewrite C2. apply qsum_map_ext. intros x _. unfold misses_of, weight_of_classes. rewrite <- qsum_map_if.
    rewrite (qsum_map_zero _ (wrong_classes k x)).
    2: { intros c _. unfold not_predicted, positive_weight, sc_score, sc_weight, sc_label. cbn [fst snd]. destruct (num_ltb t _); cbn [negb]; ring. }
    rewrite Qcplus_0_r. apply qsum_map_ext. intros c _. unfold not_predicted, above_threshold, positive_weight, sc_score, sc_weight, sc_label. cbn [fst snd]. destruct (num_ltb t _); cbn [negb]; ring. }
  assert (T3 : fp_at cm i = qsum (map (alarms_of weighted k t) xs)).
  { rewrite C3. apply qsum_map_ext. intros x _. unfold alarms_of, weight_of_classes. rewrite <- qsum_map_if.
    rewrite (qsum_map_zero _ (distinct (se_labels x))).
    2: { intros c _. unfold predicted, negative_weight, sc_score, sc_weight, sc_label. cbn [fst snd]. destruct (num_ltb t _); ring. }
    rewrite Qcplus_0_l. apply qsum_map_ext. intros c _. unfold predicted, above_threshold, negative_weight, sc_score, sc_weight, sc_label. cbn [fst snd]. destruct (num_ltb t _); ring. }
  assert (T4 : tn_at cm i = qsum (map (silences_of weighted k t) xs)).
  { rewrite C4. apply qsum_map_ext. intros x _. unfold silences_of, weight_of_classes. rewrite <- qsum_map_if.
    rewrite (qsum_map_zero _ (distinct (se_labels x))).
    2: { intros c _. unfold not_predicted, negative_weight, sc_score, sc_weight, sc_label. cbn [fst snd]. destruct (num_ltb t _); cbn [negb]; ring. }
    rewrite Qcplus_0_l. apply qsum_map_ext. intros c _. unfold not_predicted, above_threshold, negative_weight, sc_score, sc_weight, sc_label. cbn [fst snd]. destruct (num_ltb t _); cbn [negb]; ring. }
  unfold set_match_precision, set_match_recall, pos_div. unfold tp_at, fn_at, fp_at, tn_at in *. rewrite T1, T2, T3, T4.
  do 4 (split; [reflexivity|]).
  split; intros G; (replace (Qc_ltb 0%Qc _) with true by (symmetry; apply Qc_ltb_lt; exact G)); reflexivity.
Qed.

(** The thresholds and the use of weights follow from the options: one half if nothing else is said, and
    weights if they are asked for or there are class weights. *)

Definition thresholds_meant (given : option (list num)) (k : option nat) (ths : list num) : Prop :=
  match given with Some l => ths = l | None => k = None /\ ths = [Fin (Q2Qc (1 # 2))] end.

Definition weights_meant (st : set_match) (asked weighted : bool) : Prop := weighted = true <-> asked = true \/ sm_weight_key st <> None.

Lemma C224_options_pf order st es xs k ap given asked ths weighted lk pk :
  (forall l, Permutation (order l) l) -> sm_top_k st = option_map Z.of_nat k -> Forall2 (holds st) es xs ->
  (forall x, In x xs -> se_weight x <> Some 0%Qc) -> thresholds_meant given k ths -> weights_meant st asked weighted ->
  NoDup ths -> (forall t, ths = [t] -> num_ltb t (Fin 0%Qc) = false) ->
  exists pairs, mapM (set_match_process order st) es = Ok pairs /\
    forall s, Permutation (inputs s) (map set_input (concat pairs)) ->
      exists cm, set_match_matrices ap (set_match_thresholds given (sm_top_k st)) (set_match_weighted st asked) lk pk "" s = Ok cm /\
        m_thresholds cm = ths /\
        forall i, (i < length ths)%nat ->
          let t := nth i ths NaN in
          nth i (m_tp cm) 0%Qc = qsum (map (hits_of weighted k t) xs) /\ nth i (m_fp cm) 0%Qc = qsum (map (alarms_of weighted k t) xs) /\
          nth i (m_fn cm) 0%Qc = qsum (map (misses_of weighted k t) xs) /\ nth i (m_tn cm) 0%Qc = qsum (map (silences_of weighted k t) xs).
Proof.
  intros P K H NZ TM WM N U. destruct (C224_matrices_count_classes_pf order st es xs k ap ths weighted lk pk P K H NZ N U) as (pairs & E & G).
  exists pairs. split; [exact E|]. intros s S. destruct (G s S) as (cm & O & T & C).
  assert (ET : set_match_thresholds given (sm_top_k st) = ths). { unfold thresholds_meant in TM. destruct given; [auto|]. destruct TM as [-> ->]. rewrite K. reflexivity. }
  assert (EW : set_match_weighted st asked = weighted).
  { unfold set_match_weighted. destruct WM as [W1 W2]. destruct (sm_weight_key st) as [w|].
    - rewrite W2; [reflexivity|right; discriminate].
    - destruct weighted; [destruct (W1 eq_refl) as [A|A]; [exact A|congruence]|]. destruct asked; [symmetry; apply W2; left; reflexivity|reflexivity]. }
  rewrite ET, EW. exists cm. split; [exact O|]. split; [exact T|]. intros i Hi t. destruct (C i Hi) as (C1 & C2 & C3 & C4 & _). auto.
Qed.

(** With the scores of the first k between 0 and infinity, some label missed and some class
    predicted, the matrices are those of what is listed. *)

Definition listed_hits weighted k x := weight_of_classes weighted x (filter (fun c => existsb (String.eqb c) (kept_classes k x)) (distinct (se_labels x))).

Definition listed_misses weighted k x := weight_of_classes weighted x (filter (fun c => negb (existsb (String.eqb c) (kept_classes k x))) (distinct (se_labels x))).

Definition listed_alarms weighted k x := weight_of_classes weighted x (wrong_classes k x).

Lemma C225_nothing_listed_refuted_pf : exists e x, forall ap,
  holds (by_scores (Some 1%Z)) e x /\ se_labels x = ["cat"] /\ se_classes x = [] /\
  exists cm, set_match_process (fun l => l) (by_scores (Some 1%Z)) e = Ok [(1%Qc, NegInf, None)] /\
    set_match_matrices ap (set_match_thresholds None (Some 1%Z)) false "" "" "" (Bundle [set_input (1%Qc, NegInf, None)]) = Ok cm /\
    set_match_precision cm 0 = Fin 1%Qc /\ set_match_recall cm 0 = Fin 1%Qc.
Proof.
  exists (of_cats ["cat"] [] []), (SetExample ["cat"] [] [] None []). intros ap.
  split; [apply of_cats_holds; reflexivity|]. split; [reflexivity|]. split; [reflexivity|]. eexists. split; [vm_compute; reflexivity|split; [vm_compute; reflexivity|split; vm_compute; reflexivity]].
Qed.

Lemma C225_certain_and_uncertain_refuted_pf : exists x cm, forall ap,
  holds (by_scores (Some 2%Z)) (of_cats (se_labels x) (se_classes x) (se_scores x)) x /\
  se_labels x = ["cat"; "dog"] /\ se_classes x = ["cat"; "dog"] /\ se_scores x = [Fin 1%Qc; Fin (Q2Qc (3 # 4))] /\
  set_match_matrices ap (set_match_thresholds None (Some 2%Z)) false "" "" "" (Bundle (map set_input [(1%Qc, Fin 1%Qc, None); (1%Qc, Fin (Q2Qc (3 # 4)), None)])) = Ok cm /\
  set_match_process (fun l => l) (by_scores (Some 2%Z)) (of_cats (se_labels x) (se_classes x) (se_scores x)) = Ok [(1%Qc, Fin 1%Qc, None); (1%Qc, Fin (Q2Qc (3 # 4)), None)] /\
  set_match_recall cm 0 = Fin (Q2Qc (1 # 2)).
Proof.
  exists (SetExample ["cat"; "dog"] ["cat"; "dog"] [Fin 1%Qc; Fin (Q2Qc (3 # 4))] None []). eexists. intros ap.
  split; [apply of_cats_holds; reflexivity|]. do 3 (split; [reflexivity|]). split; [vm_compute; reflexivity|]. split; [vm_compute; reflexivity|]. vm_compute. reflexivity.
Qed.

Lemma C225_negative_scores_refuted_pf : exists x cm, forall ap,
  holds (by_scores (Some 2%Z)) (of_cats (se_labels x) (se_classes x) (se_scores x)) x /\
  se_labels x = ["cat"; "dog"] /\ se_classes x = ["cat"; "dog"] /\
  set_match_matrices ap (set_match_thresholds None (Some 2%Z)) false "" "" "" (Bundle (map set_input [(1%Qc, Fin (Q2Qc (1 # 2)), None); (1%Qc, Fin (Q2Qc (- 1 # 2)), None)])) = Ok cm /\
  set_match_process (fun l => l) (by_scores (Some 2%Z)) (of_cats (se_labels x) (se_classes x) (se_scores x)) = Ok [(1%Qc, Fin (Q2Qc (1 # 2)), None); (1%Qc, Fin (Q2Qc (- 1 # 2)), None)] /\
  set_match_recall cm 0 = Fin (Q2Qc (1 # 2)).
Proof.
  exists (SetExample ["cat"; "dog"] ["cat"; "dog"] [Fin (Q2Qc (1 # 2)); Fin (Q2Qc (- 1 # 2))] None []). eexists. intros ap.
  split; [apply of_cats_holds; reflexivity|]. do 2 (split; [reflexivity|]). split; [vm_compute; reflexivity|]. split; [vm_compute; reflexivity|]. vm_compute. reflexivity.
Qed.

Lemma one_zero_bucket (h : list bucket) t : ascending h -> In (0%nat, t) h -> filter (fun b => Nat.eqb (fst b) 0) h = [(0%nat, t)].
Proof.
  unfold ascending. induction h as [|[i u] h IH]; intros S I; [destruct I|]. cbn [map fst] in S. inversion S as [|? ? S1 S2]; subst. rewrite Forall_forall in S2.
  assert (Z : i = 0%nat -> filter (fun b => Nat.eqb (fst b) 0) h = []).
  { intros ->. clear - S2. induction h as [|[j v] h IH]; [reflexivity|]. cbn [filter fst map In] in *. pose proof (S2 j (or_introl eq_refl)). destruct (Nat.eqb_spec j 0) as [E|E]; [lia|]. apply IH. intros n I. apply S2. right. exact I. }
  cbn [filter fst]. destruct I as [I|I].
  - injection I as -> ->. rewrite Nat.eqb_refl. f_equal. apply Z. reflexivity.
  - destruct (Nat.eqb_spec i 0) as [E|E]; [|apply IH; assumption]. exfalso. apply (in_map fst) in I. cbn [fst] in I. apply S2 in I. lia.
Qed.

Lemma qsum_split {A} (f : A -> Qc) p l : (qsum (map f (filter p l)) + qsum (map f (filter (fun x => negb (p x)) l)) = qsum (map f l))%Qc.
Proof. induction l as [|x l IH]; [cbn; ring|]. cbn [map filter]. change (qsum (f x :: map f l)) with (f x + qsum (map f l))%Qc. rewrite <- IH. destruct (p x); cbn [negb map]; change (qsum (f x :: ?a)) with (f x + qsum a)%Qc; ring. Qed.

Lemma C225_matrices_of_listed_partial_pf order st es xs k ap weighted lk pk :
  (forall l, Permutation (order l) l) -> sm_top_k st = Some (Z.of_nat k) -> Forall2 (holds st) es xs ->
  (forall x, In x xs -> se_weight x <> Some 0%Qc) ->
  (* scores that are not negative *)
  (forall x s, In x xs -> In s (se_scores x) -> num_ltb s (Fin 0%Qc) = false /\ s <> NaN) ->
  (* a label that is missed, and a class that is listed *)
  (exists x c, In x xs /\ In c (se_labels x) /\ ~ In c (kept_classes (Some k) x) /\ class_weight_of weighted x c <> 0%Qc) ->
  (exists x c, In x xs /\ In c (kept_classes (Some k) x) /\ class_weight_of weighted x c <> 0%Qc) ->
  exists pairs, mapM (set_match_process order st) es = Ok pairs /\
    forall s, Permutation (inputs s) (map set_input (concat pairs)) ->
      exists cm, set_match_matrices ap (set_match_thresholds None (sm_top_k st)) weighted lk pk "" s = Ok cm /\
        let tp := qsum (map (listed_hits weighted (Some k)) xs) in
        let fp := qsum (map (listed_alarms weighted (Some k)) xs) in
        let fn := qsum (map (listed_misses weighted (Some k)) xs) in
        nth 0 (m_tp cm) 0%Qc = tp /\ nth 0 (m_fp cm) 0%Qc = fp /\ nth 0 (m_fn cm) 0%Qc = fn /\ nth 0 (m_tn cm) 0%Qc = 0%Qc /\
        ((0 < tp + fp)%Qc -> set_match_precision cm 0 = Fin (tp / (tp + fp))%Qc) /\
        ((0 < tp + fn)%Qc -> set_match_recall cm 0 = Fin (tp / (tp + fn))%Qc).
Proof.
  intros P K H NZ POS MISS SEEN. destruct (sets_pairs order st es xs (Some k) P K H NZ) as (pairs & E & Q). exists pairs. split; [exact E|]. intros s S.
  specialize (Q weighted). pose proof (sets_scored weighted _ _ S) as SC. rewrite Q in SC.
  rewrite K. cbn [set_match_thresholds]. unfold set_match_matrices. change (use_histogram [NegInf]) with true. cbn iota.
  assert (LEN : forall x, In x xs -> length (se_scores x) = length (se_classes x)).
  { clear - H. induction H as [|e x es xs H1 H2 IH]; intros y I; [destruct I|]. destruct I as [<-|I]; [|apply IH; exact I]. destruct H1 as (_ & (d & sk & _ & _ & _ & _ & L) & _). exact L. }
  assert (LISTED : forall x c, In x xs -> In c (kept_classes (Some k) x) -> num_ltb (score_of (Some k) x c) (Fin 0%Qc) = false /\ score_of (Some k) x c <> NaN).
  { intros x c Ix Ic. apply (POS x); [exact Ix|]. assert (LK : length (kept (Some k) (se_scores x)) = length (kept (Some k) (se_classes x))) by (apply kept_length, LEN; exact Ix).
    unfold kept_classes in Ic. rewrite <- (map_fst_combine _ _ LK) in Ic. unfold score_of, latest.
    apply (kept_In (Some k)).
    assert (G : forall (l : list (string * num)), In c (map fst l) -> In (last (map snd (filter (fun kv => String.eqb c (fst kv)) l)) NegInf) (map snd l)).
    { clear. intros l I. assert (J : forall q : list num, q <> [] -> In (last q NegInf) q).
      { induction q as [|a q IH]; [congruence|]. intros _. destruct q as [|b q]; [left; reflexivity|]. right. apply IH. discriminate. }
      assert (X : forall y, In y (map snd (filter (fun kv => String.eqb c (fst kv)) l)) -> In y (map snd l)).
      { intros y Y. apply in_map_iff in Y. destruct Y as (z & <- & Y). apply filter_In in Y. apply in_map, Y. }
      apply X, J. apply in_map_iff in I. destruct I as (z & <- & I). intros N. assert (Y : In (snd z) (map snd (filter (fun kv => String.eqb (fst z) (fst kv)) l))).
      { apply in_map, filter_In. split; [exact I|apply String.eqb_refl]. } rewrite N in Y. destruct Y. }
    specialize (G _ Ic). apply in_map_iff in G. destruct G as ([c' s'] & G1 & G2). rewrite <- G1. apply in_combine_r in G2. exact G2. }
  assert (MISSED : forall x c, In x xs -> ~ In c (kept_classes (Some k) x) -> score_of (Some k) x c = NegInf).
  { intros x c Ix Ic. unfold score_of. apply latest_none. rewrite map_fst_combine by (apply kept_length, LEN; exact Ix). exact Ic. }
  assert (BELOW : forall x c, In x xs -> num_ltb (score_of (Some k) x c) (Fin 0%Qc) = negb (existsb (String.eqb c) (kept_classes (Some k) x))).
  { intros x c Ix. destruct (existsb (String.eqb c) (kept_classes (Some k) x)) eqn:X.
    - apply (LISTED x c Ix). apply existsb_In. exact X.
    - rewrite (MISSED x c Ix); [reflexivity|]. intros I. apply existsb_In in I. rewrite I in X. discriminate. }
  destruct (C12_histogram_conserves_pf ap 1 0%Qc 1%Qc true true weighted lk pk "" "" s element_pairs (element_weight weighted)) as (h & O & AS & HB & HN & HL & HE & _).
  { lia. } { reflexivity. } { discriminate. }
  { intros d I. apply (Permutation_in _ S) in I. apply in_map_iff in I. destruct I as ([[l p] w] & <- & I). split; [|split].
    - split; [reflexivity|]. split; [exists (Leaf [p]), (Leaf [p]); repeat split|]. destruct w as [w|]; unfold carries_weight, element_weight; cbn; [destruct weighted; reflexivity|reflexivity].
    - discriminate.
    - intros l' p' [E'|[]]. injection E' as <- <-. apply (in_map (set_scored weighted)) in I. apply (Permutation_in _ Q) in I. apply in_flat_map in I.
      destruct I as (x & Ix & I). apply in_map_iff in I. destruct I as ([c [l0 s0]] & E0 & I). apply expected_class in I. injection E0 as -> -> _. destruct I as [-> I]. split.
      + destruct (in_dec string_dec c (kept_classes (Some k) x)) as [J|J]; [apply (LISTED x c Ix J)|rewrite (MISSED x c Ix J); discriminate].
      + intros _. unfold unit_label. destruct I as [(_ & ->)|(_ & _ & ->)]; split; qc_lra. }
  cbn zeta in HB, HN, HL, HE. set (D := scored_of element_pairs (element_weight weighted) (inputs s)) in *.
  assert (PAIR : forall x c l, In x xs -> In (c, (l, score_of (Some k) x c)) (expected_set_pairs (Some k) x) -> In (l, score_of (Some k) x c, class_weight_of weighted x c) D).
  { intros x c l Ix I. apply (Permutation_in _ (Permutation_sym SC)). apply in_flat_map. exists x. split; [exact Ix|]. apply in_map_iff. exists (c, (l, score_of (Some k) x c)). split; [reflexivity|exact I]. }
  assert (B0 : In 0%nat (map fst h)).
  { destruct (in_dec Nat.eq_dec 0%nat (map fst h)) as [I|I]; [exact I|]. destruct MISS as (x & c & Ix & Ic & Nc & W). exfalso.
    destruct (HN 0%nat (1%Qc, score_of (Some k) x c, class_weight_of weighted x c) I) as [_ Z]; [|exact (W Z)].
    apply filter_In. split; [apply PAIR; [exact Ix|apply expected_class; split; [reflexivity|left; split; [exact Ic|reflexivity]]]|].
    unfold bucketed_by, sc_score. cbn [fst snd]. rewrite (MISSED x c Ix Nc). reflexivity. }
  assert (BS : exists i, i <> 0%nat /\ In i (map fst h)).
  { destruct SEEN as (x & c & Ix & Ic & W). set (sc := score_of (Some k) x c). destruct (LISTED x c Ix Ic) as [G1 G2]. fold sc in G1, G2.
    assert (IB : exists i, i <> 0%nat /\ in_bucket 1 0%Qc 1%Qc i sc = true).
    { destruct (num_ltb sc (Fin 1%Qc)) eqn:L1.
      - exists 1%nat. split; [discriminate|]. apply in_bucket_cases. right. left. split; [lia|]. split.
        + replace (edge 1 0%Qc 1%Qc (1 - 1)) with 0%Qc by (vm_compute; reflexivity). unfold num_leb. destruct sc; try contradiction; try discriminate; try reflexivity. cbn in *. apply Qc_leb_le. apply Qc_ltb_ge in G1. exact G1.
        + replace (edge 1 0%Qc 1%Qc 1) with 1%Qc by (vm_compute; reflexivity). exact L1.
      - exists 2%nat. split; [discriminate|]. apply in_bucket_cases. right. right. split; [reflexivity|].
        destruct sc; try contradiction; try discriminate; try reflexivity. cbn in *. apply Qc_leb_le. apply Qc_ltb_ge in L1. exact L1. }
    destruct IB as (i & Ni & Bi). exists i. split; [exact Ni|]. destruct (in_dec Nat.eq_dec i (map fst h)) as [I|I]; [exact I|]. exfalso.
    destruct (HN i ((if existsb (String.eqb c) (se_labels x) then 1 else 0)%Qc, sc, class_weight_of weighted x c) I) as [_ Z]; [|exact (W Z)].
    apply filter_In. split; [|exact Bi]. apply PAIR; [exact Ix|]. apply expected_class. split; [reflexivity|]. destruct (existsb (String.eqb c) (se_labels x)) eqn:X.
    - left. split; [apply existsb_In; exact X|reflexivity].
    - right. split; [exact Ic|]. split; [|reflexivity]. intros J. apply existsb_In in J. rewrite J in X. discriminate. }
  assert (L2 : (1 < length h)%nat).
  { destruct BS as (i & Ni & Ii). assert (ML : length (map fst h) = length h) by apply map_length. rewrite <- ML. destruct (map fst h) as [|a [|b l]]; [destruct B0| |cbn; lia]. destruct B0 as [B0|[]], Ii as [Ii|[]]. congruence. }
  destruct (C65_top_k_positives_partial_pf h 1 AS B0 L2) as (cm & R & T1 & T2 & T3 & T4). cbn zeta in *.
  rewrite O. cbn [bind]. exists cm. split; [exact R|].
  apply in_map_iff in B0. destruct B0 as ([z t] & Ez & B0). cbn [fst] in Ez. subst z.
  destruct (HB 0%nat t B0) as (_ & _ & U1 & U2 & _).
  assert (UNS : filter (fun b : bucket => Nat.eqb (fst b) 0) h = [(0%nat, t)]) by (apply one_zero_bucket; assumption).
  assert (OV : over 1 0%Qc 1%Qc true 0 D = filter (fun x => num_ltb (sc_score x) (Fin 0%Qc)) D) by reflexivity.
  change (qsum (map (fun b : bucket => t_labels (snd b)) h) = qsum (map weighted_label D)) in HL.
  change (qsum (map (fun b : bucket => t_examples (snd b)) h) = qsum (map sc_weight D)) in HE.
  set (sel := filter (fun b : bucket => negb (Nat.eqb (fst b) 0)) h).
  change (tp_at cm 0 = positives sel) in T1. change (fp_at cm 0 = negatives sel) in T2.
  change (fn_at cm 0 = positives (filter (fun b : bucket => Nat.eqb (fst b) 0) h)) in T3. change (tn_at cm 0 = negatives (filter (fun b : bucket => Nat.eqb (fst b) 0) h)) in T4.
  rewrite OV in U1, U2. rewrite UNS in T3, T4. unfold positives, negatives in *. cbn [map snd qsum fold_right] in T3, T4.
  assert (S1 : forall f : scored -> Qc, qsum (map f (filter (fun x => num_ltb (sc_score x) (Fin 0%Qc)) D)) =
    qsum (map (fun x => qsum (map (fun c => f (1%Qc, score_of (Some k) x c, class_weight_of weighted x c)) (filter (fun c => negb (existsb (String.eqb c) (kept_classes (Some k) x))) (distinct (se_labels x))))) xs)).
  { intros f. rewrite <- qsum_map_if. rewrite (qsum_perm _ _ (Permutation_map _ SC)), set_sum. apply qsum_map_ext. intros x Ix.
    rewrite (qsum_map_zero _ (wrong_classes (Some k) x)).
    2: { intros c Ic. unfold sc_score at 1. cbn [fst snd]. rewrite BELOW by exact Ix. unfold wrong_classes in Ic. apply filter_In in Ic. destruct Ic as [Ic _].
         unfold distinct in Ic. rewrite nodup_In in Ic. apply existsb_In in Ic. rewrite Ic. reflexivity. }
    rewrite Qcplus_0_r, <- qsum_map_if. apply qsum_map_ext. intros c _. unfold sc_score at 1. cbn [fst snd]. rewrite BELOW by exact Ix. reflexivity. }
  assert (S2 : forall f : scored -> Qc, qsum (map f D) = qsum (map (fun x => qsum (map (fun c => f (1%Qc, score_of (Some k) x c, class_weight_of weighted x c)) (distinct (se_labels x))) + qsum (map (fun c => f (0%Qc, score_of (Some k) x c, class_weight_of weighted x c)) (wrong_classes (Some k) x)))%Qc xs)).
  { intros f. rewrite (qsum_perm _ _ (Permutation_map _ SC)), set_sum. reflexivity. }
  assert (FN : t_labels t = qsum (map (listed_misses weighted (Some k)) xs)).
  { rewrite U1, S1. apply qsum_map_ext. intros x _. unfold listed_misses, weight_of_classes. apply qsum_map_ext. intros c _. unfold weighted_label, sc_weight, sc_label. cbn [fst snd]. ring. }
  assert (EX : t_examples t = t_labels t).
  { rewrite U1, U2, !S1. apply qsum_map_ext. intros x _. apply qsum_map_ext. intros c _. unfold weighted_label, sc_weight, sc_label. cbn [fst snd]. ring. }
  assert (LAB : qsum (map weighted_label D) = (qsum (map (listed_hits weighted (Some k)) xs) + qsum (map (listed_misses weighted (Some k)) xs))%Qc).
  { rewrite S2, <- qsum_map_plus. apply qsum_map_ext. intros x _. unfold listed_hits, listed_misses, weight_of_classes. rewrite qsum_split.
    rewrite (qsum_map_zero _ (wrong_classes (Some k) x)) by (intros c _; unfold weighted_label, sc_weight, sc_label; cbn [fst snd]; ring).
    rewrite Qcplus_0_r. apply qsum_map_ext. intros c _. unfold weighted_label, sc_weight, sc_label. cbn [fst snd]. ring. }
  assert (ALL : qsum (map sc_weight D) = (qsum (map weighted_label D) + qsum (map (listed_alarms weighted (Some k)) xs))%Qc).
  { rewrite !S2, <- qsum_map_plus. apply qsum_map_ext. intros x _. unfold listed_alarms, weight_of_classes.
    rewrite (qsum_map_zero (fun c => weighted_label (0%Qc, _, _)) (wrong_classes (Some k) x)) by (intros c _; unfold weighted_label, sc_weight, sc_label; cbn [fst snd]; ring).
    rewrite Qcplus_0_r. f_equal. apply qsum_map_ext. intros c _. unfold weighted_label, sc_weight, sc_label. cbn [fst snd]. ring. }
  assert (TP : qsum (map (fun b => t_labels (snd b)) sel) = qsum (map (listed_hits weighted (Some k)) xs)).
  { pose proof (qsum_split (fun b : bucket => t_labels (snd b)) (fun b : bucket => Nat.eqb (fst b) 0) h) as X. rewrite UNS, HL, LAB in X. cbn [map snd qsum fold_right] in X. fold sel in X. rewrite FN in X.
    clear - X. assert (G : forall u v w : Qc, (u + 0 + v = w + u -> v = w)%Qc).
    { intros u v w Y. replace v with (u + 0 + v - u)%Qc by ring. rewrite Y. ring. }
    apply (G _ _ _ X). }
  assert (FP : qsum (map (fun b => t_examples (snd b) - t_labels (snd b))%Qc sel) = qsum (map (listed_alarms weighted (Some k)) xs)).
  { pose proof (qsum_split (fun b : bucket => t_examples (snd b) - t_labels (snd b))%Qc (fun b : bucket => Nat.eqb (fst b) 0) h) as X. rewrite UNS in X. cbn [map snd qsum fold_right] in X. fold sel in X.
    replace (qsum (map (fun x : bucket => t_examples (snd x) - t_labels (snd x))%Qc h)) with (qsum (map (fun b : bucket => t_examples (snd b)) h) - qsum (map (fun b : bucket => t_labels (snd b)) h))%Qc in X.
    2: { clear. induction h as [|b h IH]; [cbn; ring|]. cbn [map]. change (qsum (?a :: ?l)) with (a + qsum l)%Qc. rewrite <- IH. ring. }
    rewrite HL, HE, ALL, EX in X. replace (qsum (map weighted_label D) + qsum (map (listed_alarms weighted (Some k)) xs) - qsum (map weighted_label D))%Qc with (qsum (map (listed_alarms weighted (Some k)) xs)) in X by ring.
    clear - X. assert (G : forall u v w : Qc, (u - u + 0 + v = w -> v = w)%Qc).
    { intros u v w Y. rewrite <- Y. ring. }
    apply (G _ _ _ X). }
  unfold set_match_precision, set_match_recall, pos_div. unfold tp_at, fp_at, fn_at, tn_at in *. rewrite T1, T2, T3, T4, TP, FP, FN, EX.
  replace (qsum (map (listed_misses weighted (Some k)) xs) + 0)%Qc with (qsum (map (listed_misses weighted (Some k)) xs)) by ring.
  do 3 (split; [reflexivity|]). split; [rewrite FN; ring|].
  split; intros G; (replace (Qc_ltb 0%Qc _) with true by (symmetry; apply Qc_ltb_lt; exact G)); reflexivity.
Qed.

Lemma set_input_refused ap o lk pk m x : m <> "" -> is_ok (to_label_prediction_example_weight ap o lk pk m "" (set_input x)) = false.
Proof.
  intros H. destruct x as [[l p] w]. unfold to_label_prediction_example_weight, set_input. cbn [i_label i_prediction i_weight].
  assert (OG : forall k (v : list Qc), optionally_get (Some (Leaf v)) k = Ok (Some (Leaf v))) by (intros; reflexivity).
  assert (EL : (if String.eqb lk "" then Ok (Some (Leaf [l])) else optionally_get (Some (Leaf [l])) lk) = Ok (Some (Leaf [l]))) by (rewrite OG; destruct (String.eqb lk ""); reflexivity).
  rewrite EL. cbn [bind]. apply String.eqb_neq in H. rewrite H. reflexivity.
Qed.

Lemma C226_named_models_always_fail_pf ap ths weighted lk pk m s x : m <> "" -> In (set_input x) (inputs s) ->
  is_ok (set_match_matrices ap ths weighted lk pk m s) = false.
Proof.
  intros H I. unfold set_match_matrices. destruct (use_histogram ths).
  - set (o := histogram_options None false weighted true None).
    assert (R : is_ok (outcome (histogram_combiner ap 1 0%Qc 1%Qc true o lk pk m "") s) = false).
    { unfold histogram_combiner. apply (res_run_refused [] (histogram_add ap 1 0%Qc 1%Qc true o lk pk m "") merge_histogram (fun a => Ok (sort_buckets a)) (set_input x) s); [|exact I].
      intros a. unfold histogram_add. pose proof (set_input_refused ap o lk pk m x H) as F. destruct (to_label_prediction_example_weight _ _ _ _ _ _ _); [discriminate F|reflexivity]. }
    destruct (outcome _ s); [discriminate R|reflexivity].
  - set (o := histogram_options None false weighted true None).
    assert (R : is_ok (outcome (confusion_combiner ap ths 1 o lk pk m "") (map_sched (fun x => (None, x)) s)) = false).
    { unfold confusion_combiner. apply (res_run_refused [] (confusion_add ap ths 1 o lk pk m "") (bcm_merge ths 1)
        (fun acc => to_matrices_and_examples ths (bcm_extract ths acc)) (None, set_input x) (map_sched (fun x => (None, x)) s)).
      - intros a. unfold confusion_add. cbn [snd]. pose proof (set_input_refused ap o lk pk m x H) as F. destruct (to_label_prediction_example_weight _ _ _ _ _ _ _); [discriminate F|reflexivity].
      - rewrite map_sched_inputs. apply in_map_iff. exists (set_input x). split; [reflexivity|exact I]. }
    destruct (outcome _ _); [discriminate R|reflexivity].
Qed.

Lemma C226_several_models_refuted_pf : exists e x ps, let st := SetMatch "classes" (Some "scores") None None None "candidate" in
  holds st e x /\ set_match_process (fun l => l) st e = Ok ps /\ ps <> [] /\
  forall ap, is_ok (set_match_matrices ap [Fin (Q2Qc (1 # 2))] false "" "" "candidate" (Bundle (map set_input ps))) = false.
Proof.
  exists [("labels", Leaf (Strings ["cat"])); ("predictions", Dict [("candidate", Dict [("classes", Leaf (Strings ["cat"])); ("scores", Leaf (Floats [Fin 1%Qc]))])])],
         (SetExample ["cat"] ["cat"] [Fin 1%Qc] None []). eexists. cbn zeta. split; [|split; [vm_compute; reflexivity|split; [discriminate|]]].
  - split; [|split; [|split; reflexivity]].
    + right. split; [reflexivity|intros d E; discriminate].
    + exists [("classes", Leaf (Strings ["cat"])); ("scores", Leaf (Floats [Fin 1%Qc]))], "scores". split; [|repeat split]. left. eexists. split; [reflexivity|]. split; [reflexivity|discriminate].
  - intros ap. apply (C226_named_models_always_fail_pf ap _ _ _ _ _ _ (1%Qc, Fin 1%Qc, None)); [discriminate|left; reflexivity].
Qed.

Lemma C226_own_predictions_refuted_pf : exists show a b name1 name2 sep,
  (forall i j, show i = show j -> i = j) /\ sm_prediction_class_key a <> sm_prediction_class_key b /\ name1 <> name2 /\
  filter_and_separate_computations (set_match_computations show a "[0.5]" name1 false ++ set_match_computations show b "[0.5]" name2 false) = Ok sep /\
  map (fun c => cp_body (snd c)) (sp_base sep) = [CountSets a] /\
  map (fun c => (map k_name (cp_keys (snd c)), cp_body (snd c))) (sp_derived sep) =
    [([k_name (set_matrices_key show a "[0.5]" false)], AsSetMatrices (set_matrices_key show a "[0.5]" false));
     ([name1], SetRatio (set_matrices_key show a "[0.5]" false)); ([name2], SetRatio (set_matrices_key show a "[0.5]" false))].
Proof.
  assert (NI : exists show : Z -> string, forall i j, show i = show j -> i = j).
  { set (code := fun n => (fix go k := match k with O => EmptyString | S k => String "1" (go k) end) n).
    assert (C : forall n m, code n = code m -> n = m).
    { induction n as [|n IH]; intros [|m] E; try reflexivity; try discriminate. cbn in E. injection E as E. f_equal. apply IH. exact E. }
    exists (fun i => if Z.ltb i 0 then ("-" ++ code (Z.to_nat (- i)))%string else code (Z.to_nat i)).
    intros i j. destruct (Z.ltb_spec i 0), (Z.ltb_spec j 0); intros E.
    - cbn in E. injection E as E. apply C in E. lia.
    - exfalso. destruct (Z.to_nat j); discriminate E.
    - exfalso. destruct (Z.to_nat i); discriminate E.
    - apply C in E. lia. }
  destruct NI as (show & SI).
  exists show, (SetMatch "classes_of_a" (Some "scores_of_a") None None None ""), (SetMatch "classes_of_b" (Some "scores_of_b") None None None ""), "recall_a", "recall_b".
  eexists. split; [exact SI|]. split; [discriminate|]. split; [discriminate|]. split; [vm_compute; reflexivity|]. split; vm_compute; reflexivity.
Qed.

Lemma append_nil_r (a : string) : (a ++ "")%string = a.
Proof. induction a as [|c a IH]; [reflexivity|]. cbn. rewrite IH. reflexivity. Qed.

Lemma set_names show a b : (forall i j, show i = show j -> i = j) -> set_match_preprocessor_name show a = set_match_preprocessor_name show b -> sm_top_k a = sm_top_k b.
Proof.
  intros I E. unfold set_match_preprocessor_name, private_name in E. apply append_cancel_l, append_cancel_l, append_cancel_l in E.
  destruct (sm_top_k a) as [i|], (sm_top_k b) as [j|]; cbn [option_map flat_map snd fst app String.concat] in E; try discriminate; [|reflexivity].
  apply append_cancel_l, append_cancel_l in E. f_equal. apply I. exact E.
Qed.

Lemma C226_top_k_apart_partial_pf show a b n1 n2 ts w :
  (forall i j, show i = show j -> i = j) -> sm_top_k a <> sm_top_k b -> sm_model_name a = sm_model_name b -> n1 <> n2 ->
  (forall r, n1 <> String "_" r /\ n2 <> String "_" r) ->
  exists sep,
    filter_and_separate_computations (set_match_computations show a ts n1 w ++ set_match_computations show b ts n2 w) = Ok sep /\
    map (fun c => cp_body (snd c)) (sp_base sep) = [CountSets a; CountSets b] /\
    map (fun c => cp_body (snd c)) (sp_derived sep) =
      [AsSetMatrices (set_matrices_key show a ts w); SetRatio (set_matrices_key show a ts w); AsSetMatrices (set_matrices_key show b ts w); SetRatio (set_matrices_key show b ts w)].
Proof.
  intros I D M N U.
  assert (NE : set_match_preprocessor_name show b <> set_match_preprocessor_name show a) by (intros E; apply set_names in E; [congruence|exact I]).
  assert (P : String.eqb (set_match_preprocessor_name show b) (set_match_preprocessor_name show a) = false) by (apply String.eqb_neq; exact NE).
  assert (E1 : metric_key_eqb (set_matrices_key show b ts w) (set_matrices_key show a ts w) = false).
  { apply mk_eqb_neq. unfold set_matrices_key. generalize dependent (set_match_preprocessor_name show b). generalize (set_match_preprocessor_name show a). intros x y NE _ E. injection E as E. apply NE.
    unfold private_name in E. cbn [flat_map snd fst app String.concat] in E. repeat (apply append_cancel_l in E || rewrite !append_assoc' in E; cbn [String.append] in E; try injection E as E).
    apply append_cancel_r in E. exact E. }
  assert (E2 : forall m1 m2, metric_key_eqb (MetricKey n2 m1 "" None None (Some w) false) (MetricKey n1 m2 "" None None (Some w) false) = false).
  { intros m1 m2. apply mk_eqb_neq. intros E. injection E. intros; subst. congruence. }
  assert (E3 : forall n m x, (forall r, n <> String "_" r) -> metric_key_eqb (MetricKey n m "" None None (Some w) false) (set_matrices_key show x ts w) = false).
  { intros n m x H. apply mk_eqb_neq. unfold set_matrices_key. intros E. injection E as E _. cbn in E. exact (H _ E). }
  assert (E4 : forall n m x, (forall r, n <> String "_" r) -> metric_key_eqb (set_matrices_key show x ts w) (MetricKey n m "" None None (Some w) false) = false).
  { intros n m x H. apply mk_eqb_neq. unfold set_matrices_key. intros E. injection E as E _. cbn in E. exact (H _ (eq_sym E)). }
  assert (U1 : forall r, n1 <> String "_" r) by (intros r; apply U). assert (U2 : forall r, n2 <> String "_" r) by (intros r; apply U).
  apply (separate_two _ _ _ _ _ _ _ _ _ _ _ _ _ E1 (E2 _ _) (E3 _ _ a U1) (E3 _ _ a U2) (E3 _ _ b U2) (E4 _ _ b U1) P).
Qed.

Definition inverted (a : array R) : list R := map (fun x => Rpower 2 x - 1)%R (a_data a).

Lemma C227_inverted_logarithms_pf m limit e labels predictions :
  stored e "labels" m (Leaf labels) -> stored e "predictions" m (Leaf predictions) ->
  (a_shape labels <> a_shape predictions -> invert_process m limit e = Err ValueError) /\
  (a_shape labels = a_shape predictions ->
   exists before e', invert_process m limit e = Ok (before, e') /\
     dget String.eqb e' "labels" = Some (Leaf (Arr (a_shape labels) (inverted labels))) /\
     dget String.eqb e' "predictions" = Some (Leaf (Arr (a_shape predictions)
       (map (fun y => match limit with Some top => Rmin (Rmax y 0) top | None => y end) (inverted predictions)))) /\
     forall k, k <> "labels" -> k <> "predictions" -> dget String.eqb e' k = dget String.eqb e k).
Proof.
  intros HL HP. unfold invert_process, read_log2. change LABELS_KEY with "labels". change PREDICTIONS_KEY with "predictions". rewrite (stored_get _ _ _ _ HL). cbn [bind].
  set (e1 := dset String.eqb e "labels" (Leaf (invert_log2_values labels))).
  assert (HP' : stored e1 "predictions" m (Leaf predictions)).
  { assert (G : dget String.eqb e1 "predictions" = dget String.eqb e "predictions") by (apply (dget_dset_neq _ String.eqb_eq); discriminate).
    unfold stored. rewrite G. exact HP. }
  rewrite (stored_get _ _ _ _ HP'). cbn [bind].
  set (p := match limit with Some t => Arr _ _ | None => _ end).
  assert (Sp : a_shape p = a_shape predictions) by (unfold p; destruct limit; reflexivity).
  rewrite Sp. cbn [invert_log2_values a_shape]. split.
  - intros N. rewrite (shape_eqb_neq _ _ N). reflexivity.
  - intros E. rewrite (proj2 (shape_eqb_eq _ _) E). eexists _, _. split; [reflexivity|]. split; [|split].
    + rewrite (dget_dset_neq _ String.eqb_eq) by discriminate. unfold e1. rewrite (dget_dset_eq _ String.eqb_eq). reflexivity.
    + rewrite (dget_dset_eq _ String.eqb_eq). unfold p, inverted, invert_log2_values. destruct limit as [t|]; cbn [a_shape a_data]; [reflexivity|].
      rewrite map_id. reflexivity.
    + intros k K1 K2. rewrite (dget_dset_neq _ String.eqb_eq) by congruence. unfold e1. rewrite (dget_dset_neq _ String.eqb_eq) by congruence. reflexivity.
Qed.

Lemma C227_round_trip_pf m e a b sh :
  (forall y, In y (a ++ b) -> (-1 < y)%R) ->
  stored e "labels" m (Leaf (Arr sh (map (fun y => ln (y + 1) / ln 2)%R a))) -> stored e "predictions" m (Leaf (Arr sh (map (fun y => ln (y + 1) / ln 2)%R b))) ->
  exists before e', invert_process m None e = Ok (before, e') /\
    dget String.eqb e' "labels" = Some (Leaf (Arr sh a)) /\ dget String.eqb e' "predictions" = Some (Leaf (Arr sh b)).
Proof.
  intros G HL HP. destruct (C227_inverted_logarithms_pf m None e _ _ HL HP) as [_ H]. destruct (H eq_refl) as (before & e' & E & A & B & _).
  assert (L2 : (0 < ln 2)%R) by (rewrite <- ln_1; apply ln_increasing; Lra.lra).
  assert (RT : forall l, (forall y, In y l -> (-1 < y)%R) -> map (fun x => Rpower 2 x - 1)%R (map (fun y => ln (y + 1) / ln 2)%R l) = l).
  { intros l L. rewrite map_map. rewrite <- (map_id l) at 2. apply map_ext_in. intros y Y. specialize (L y Y). unfold Rpower.
    replace (ln (y + 1) / ln 2 * ln 2)%R with (ln (y + 1)) by (field; Lra.lra). rewrite exp_ln by Lra.lra. ring. }
  exists before, e'. split; [exact E|]. cbn [a_shape] in A, B. unfold inverted in A, B. cbn [a_data] in A, B. rewrite map_id in B.
  rewrite RT in A by (intros y Y; apply G, in_or_app; left; exact Y). rewrite RT in B by (intros y Y; apply G, in_or_app; right; exact Y). split; assumption.
Qed.

Lemma C227_extract_kept_refuted_pf : exists e e1 e2, 
  invert_process "" None e = Ok (e1, e1) /\ e1 <> e /\ invert_process "" None e1 = Ok (e2, e2) /\ e2 <> e1.
Proof.
  set (o := fun x : R => [("labels", Leaf (Arr [1%nat] [x])); ("predictions", Leaf (Arr [1%nat] [x]))]).
  assert (P : forall x y : R, x <> y -> o x <> o y) by (intros x y N E; unfold o in E; injection E as E; contradiction).
  exists (o 2%R), (o (Rpower 2 2 - 1)%R), (o (Rpower 2 (Rpower 2 2 - 1) - 1)%R).
  assert (E2 : Rpower 2 2 = 4%R) by (replace 2%R with (INR 2) at 2 by (cbn; Lra.lra); rewrite Rpower_pow by Lra.lra; cbn; Lra.lra).
  assert (E3 : Rpower 2 3 = 8%R) by (replace 3%R with (INR 3) by (cbn; Lra.lra); rewrite Rpower_pow by Lra.lra; cbn; Lra.lra).
  split; [reflexivity|]. split; [apply P; rewrite E2; Lra.lra|]. split; [reflexivity|]. apply P. rewrite E2. replace (4 - 1)%R with 3%R by Lra.lra. rewrite E3. Lra.lra.
Qed.

(** The dictionary under a key, if any. *)

Definition dict_under (e : list (string * data image_value)) (key m : string) (d : list (string * data image_value)) : Prop :=
  (dget String.eqb e key = None /\ d = []) \/ stored e key m (Dict d).

Definition features_under (e : list (string * data image_value)) (d : list (string * data image_value)) : Prop :=
  match dget String.eqb e "features" with None => d = [] | Some v => v = Dict d end.

(** The value that is meant: of the labels or predictions, else of the features, else of the
    transformed features. *)

Definition meant (one features transformed : list (string * data image_value)) (key : string) : option (data image_value) :=
  match dget String.eqb one key, dget String.eqb features key with
  | Some v, _ => Some v
  | None, Some v => Some v
  | None, None => dget String.eqb transformed key
  end.

(** The array of a value, decoded or as it is. *)

Definition shown (decode : string -> res (array Qc)) (decode_it : bool) (v : image_value) (a : array Qc) : Prop :=
  if decode_it then exists b, (v = Bytes b \/ exists sh, v = BytesArray sh [b]) /\ decode b = Ok a else v = Pixels a.

Lemma dict_under_get e key m d : dict_under e key m d -> (let! one := get_by_key e key (Some m) None in dict_or_empty one) = Ok d.
Proof. intros [[E ->]|H]; [unfold get_by_key; rewrite E; reflexivity|rewrite (stored_get _ _ _ _ H); reflexivity]. Qed.

Lemma read_image_meant decode st key where_ flag e one f t : dict_under e where_ (di_model_name st) one -> features_under e f -> dict_under e "transformed_features" (di_model_name st) t ->
  (meant one f t key = None -> read_image decode st key where_ flag e = Err ValueError) /\
  (forall v a, meant one f t key = Some (Leaf v) -> shown decode flag v a -> read_image decode st key where_ flag e = Ok a).
Proof.
  intros H1 H2 H3. unfold read_image.
  assert (A : forall (X : Type) (k : list (string * data image_value) -> res X) w d, dict_under e w (di_model_name st) d ->
    (let! o := get_by_key e w (Some (di_model_name st)) None in let! o := dict_or_empty o in k o) = k d).
  { intros X k w d H. pose proof (dict_under_get _ _ _ _ H) as G. destruct (get_by_key e w (Some (di_model_name st)) None) as [o|]; [|discriminate G]. cbn [bind] in *. rewrite G. reflexivity. }
  rewrite (A _ _ _ _ H1).
  assert (F : forall (X : Type) (k : list (string * data image_value) -> res X), (let! o := get_by_key e FEATURES_KEY None None in let! o := dict_or_empty o in k o) = k f).
  { intros X k. unfold get_by_key. change FEATURES_KEY with "features". unfold features_under in H2. destruct (dget String.eqb e "features") as [v|]; subst; reflexivity. }
  rewrite F. change TRANSFORMED_FEATURES_KEY with "transformed_features". rewrite (A _ _ _ _ H3).
  assert (C : chain_get [one; f; t] key = meant one f t key).
  { unfold chain_get, meant. cbn [fold_right]. destruct (dget String.eqb one key); [reflexivity|]. destruct (dget String.eqb f key); [reflexivity|]. destruct (dget String.eqb t key); reflexivity. }
  rewrite C. split.
  - intros ->. reflexivity.
  - intros v a -> S. unfold shown in S. destruct flag.
    + destruct S as (b & [->|(sh & ->)] & D); exact D.
    + subst v. reflexivity.
Qed.

Lemma C228_images_pf decode st e l p f t :
  dict_under e "labels" (di_model_name st) l -> dict_under e "predictions" (di_model_name st) p -> features_under e f -> dict_under e "transformed_features" (di_model_name st) t ->
  (meant l f t (di_ground_truth_key st) = None -> image_process decode st e = Err ValueError) /\
  forall v a, meant l f t (di_ground_truth_key st) = Some (Leaf v) -> shown decode (di_decode_ground_truth st) v a ->
    (meant p f t (di_prediction_key st) = None -> image_process decode st e = Err ValueError) /\
    forall u b, meant p f t (di_prediction_key st) = Some (Leaf u) -> shown decode (di_decode_prediction st) u b ->
      (a_shape a <> a_shape b -> image_process decode st e = Err ValueError) /\
      (a_shape a = a_shape b -> dget String.eqb e "example_weights" = None ->
       exists out, image_process decode st e = Ok out /\
         dget String.eqb out "labels" = Some (Leaf (Pixels a)) /\ dget String.eqb out "predictions" = Some (Leaf (Pixels b))).
Proof.
  intros HL HP HF HT. change "labels" with LABELS_KEY in HL. change "predictions" with PREDICTIONS_KEY in HP.
  destruct (read_image_meant decode st (di_ground_truth_key st) LABELS_KEY (di_decode_ground_truth st) e l f t HL HF HT) as [L1 L2].
  destruct (read_image_meant decode st (di_prediction_key st) PREDICTIONS_KEY (di_decode_prediction st) e p f t HP HF HT) as [P1 P2].
  unfold image_process. split; [intros N; rewrite (L1 N); reflexivity|]. intros v a V S. rewrite (L2 v a V S). cbn [bind].
  split; [intros N; rewrite (P1 N); reflexivity|]. intros u b U B. rewrite (P2 u b U B). cbn [bind]. split.
  - intros N. rewrite (shape_eqb_neq _ _ N). reflexivity.
  - intros E W. rewrite (proj2 (shape_eqb_eq _ _) E). change EXAMPLE_WEIGHTS_KEY with "example_weights". rewrite W. cbn [negb bind]. eexists. split; [reflexivity|]. split; reflexivity.
Qed.

Lemma C228_one_image_pf decode st e l p f t sh bs :
  dict_under e "labels" (di_model_name st) l -> dict_under e "predictions" (di_model_name st) p -> features_under e f -> dict_under e "transformed_features" (di_model_name st) t ->
  length bs <> 1%nat ->
  (meant l f t (di_ground_truth_key st) = Some (Leaf (BytesArray sh bs)) -> di_decode_ground_truth st = true -> image_process decode st e = Err AssertionError) /\
  (forall v a, meant l f t (di_ground_truth_key st) = Some (Leaf v) -> shown decode (di_decode_ground_truth st) v a ->
     meant p f t (di_prediction_key st) = Some (Leaf (BytesArray sh bs)) -> di_decode_prediction st = true -> image_process decode st e = Err AssertionError).
Proof.
  intros HL HP HF HT LB. change "labels" with LABELS_KEY in HL. change "predictions" with PREDICTIONS_KEY in HP.
  assert (R : forall where_ one key, dict_under e where_ (di_model_name st) one -> meant one f t key = Some (Leaf (BytesArray sh bs)) -> read_image decode st key where_ true e = Err AssertionError).
  { intros where_ one key H1 M. unfold read_image.
    assert (A : forall (X : Type) (k : list (string * data image_value) -> res X) w d, dict_under e w (di_model_name st) d ->
      (let! o := get_by_key e w (Some (di_model_name st)) None in let! o := dict_or_empty o in k o) = k d).
    { intros X k w d H. pose proof (dict_under_get _ _ _ _ H) as G. destruct (get_by_key e w (Some (di_model_name st)) None) as [o|]; [|discriminate G]. cbn [bind] in *. rewrite G. reflexivity. }
    rewrite (A _ _ _ _ H1).
    assert (F : forall (X : Type) (k : list (string * data image_value) -> res X), (let! o := get_by_key e FEATURES_KEY None None in let! o := dict_or_empty o in k o) = k f).
    { intros X k. unfold get_by_key. change FEATURES_KEY with "features". unfold features_under in HF. destruct (dget String.eqb e "features") as [v|]; subst; reflexivity. }
    rewrite F. change TRANSFORMED_FEATURES_KEY with "transformed_features". rewrite (A _ _ _ _ HT).
    assert (C : chain_get [one; f; t] key = meant one f t key).
    { unfold chain_get, meant. cbn [fold_right]. destruct (dget String.eqb one key); [reflexivity|]. destruct (dget String.eqb f key); [reflexivity|]. destruct (dget String.eqb t key); reflexivity. }
    rewrite C, M. destruct bs as [|b [|b' bs]]; [reflexivity|destruct (LB eq_refl)|reflexivity]. }
  unfold image_process. split.
  - intros M D. rewrite D, (R _ _ _ HL M). reflexivity.
  - intros v a V S M D. destruct (read_image_meant decode st (di_ground_truth_key st) LABELS_KEY (di_decode_ground_truth st) e l f t HL HF HT) as [_ L2].
    rewrite (L2 v a V S). cbn [bind]. rewrite D, (R _ _ _ HP M). reflexivity.
Qed.

Lemma C228_weighted_images_refuted_pf : exists st e, forall decode,
  image_process decode st [("labels", Dict [("mask", Leaf (Pixels (Arr [1]%nat [1%Qc])))]); ("predictions", Dict [("seen", Leaf (Pixels (Arr [1]%nat [1%Qc])))])] =
    Ok [("labels", Leaf (Pixels (Arr [1]%nat [1%Qc]))); ("predictions", Leaf (Pixels (Arr [1]%nat [1%Qc])))] /\
  e = [("labels", Dict [("mask", Leaf (Pixels (Arr [1]%nat [1%Qc])))]); ("predictions", Dict [("seen", Leaf (Pixels (Arr [1]%nat [1%Qc])))]); ("example_weights", Leaf (Pixels (Arr [1]%nat [1%Qc])))] /\
  image_process decode st e = Err AttributeError /\
  forall st' e' w, dget String.eqb e' "example_weights" = Some (Leaf w) -> is_ok (image_process decode st' e') = false.
Proof.
  exists (DecodeImage "mask" "seen" false false ""). eexists. intros decode. split; [reflexivity|]. split; [reflexivity|]. split; [reflexivity|].
  intros st' e' w W. unfold image_process. destruct (read_image decode st' _ LABELS_KEY _ e'); [|reflexivity]. cbn [bind].
  destruct (read_image decode st' _ PREDICTIONS_KEY _ e'); [|reflexivity]. cbn [bind]. destruct (negb _); [reflexivity|].
  change EXAMPLE_WEIGHTS_KEY with "example_weights". rewrite W. reflexivity.
Qed.
