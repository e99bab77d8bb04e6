(* Proofs of the theorems restated in Classes_Properties.v. *)
From Coq Require Import String Ascii Sorted.
From Verif Require Import Base BaseFacts Beam BeamFacts Util_Model Util_Main Keys_Model Keys_Main Inputs_Model Inputs_Main Sums_Model Sums_Main Histogram_Model Confusion_Model Means_Model Means_Main Evaluator_Model Evaluator_Main Ranking_Model Ranking_Main Classes_Model.
Local Open Scope string_scope.
Local Open Scope list_scope.

(* C147 - C155: multi-class and multi-label matrices, segmentation, set matching. *)

Section TableFacts.
  Context {K V : Type} (keqb : K -> K -> bool) (plus : V -> V -> V) (zero : V).
  Hypothesis keqb_eq : forall a b, keqb a b = true <-> a = b.
  Hypothesis plus_assoc : forall a b c, plus a (plus b c) = plus (plus a b) c.
  Hypothesis plus_0_l : forall a, plus zero a = a.
  Hypothesis plus_0_r : forall a, plus a zero = a.

  (** The value under a key, nothing counting as zero. *)
  Definition get (r : list (K * V)) (k : K) : V := match dget keqb r k with Some x => x | None => zero end.
  Definition entry (m : @table K V) (t : Qc) (k : K) : V := get (row m t) k.
  Definition vsum (l : list V) : V := fold_right plus zero l.

  Lemma vsum_app a b : vsum (a ++ b) = plus (vsum a) (vsum b).
  Proof. unfold vsum. induction a; cbn [app fold_right]; [rewrite plus_0_l; reflexivity|]. rewrite IHa. apply plus_assoc. Qed.

  Lemma get_bump r k v k' : get (row_bump keqb plus r k v) k' = if keqb k' k then plus (get r k') v else get r k'.
  Proof.
    unfold get, row_bump. rewrite (dget_dset keqb keqb_eq). destruct (keqb k' k) eqn:E; auto.
    apply keqb_eq in E. subst k'. destruct (dget keqb r k); auto.
  Qed.
  Lemma bump_keys r k v x : In x (map fst (row_bump keqb plus r k v)) <-> x = k \/ In x (map fst r).
  Proof. apply (dset_keys_In keqb keqb_eq). Qed.
  Lemma bump_NoDup r k v : NoDup (map fst r) -> NoDup (map fst (row_bump keqb plus r k v)).
  Proof. apply (dset_NoDup keqb keqb_eq). Qed.

  Definition row_value (l : list (K * V)) (k : K) : V := vsum (map snd (filter (fun kv => keqb k (fst kv)) l)).
  Lemma row_value_app a b k : row_value (a ++ b) k = plus (row_value a k) (row_value b k).
  Proof. unfold row_value. rewrite filter_app', map_app, vsum_app. reflexivity. Qed.
  Lemma row_value_cons kv l k : row_value (kv :: l) k = if keqb k (fst kv) then plus (snd kv) (row_value l k) else row_value l k.
  Proof. unfold row_value. cbn [filter]. destruct (keqb k (fst kv)); reflexivity. Qed.

  Lemma row_value_NoDup l k : NoDup (map fst l) -> row_value l k = get l k.
  Proof.
    induction l as [|[k1 v] l IH]; intros N; [reflexivity|]. rewrite row_value_cons. cbn [map fst] in *. inversion N; subst.
    unfold get in *. cbn [dget fst snd]. destruct (keqb k k1) eqn:E; [|auto].
    apply keqb_eq in E. subst k1. rewrite IH by auto. rewrite (proj2 (dget_None keqb keqb_eq l k)); auto.
  Qed.

  Lemma row_plus_facts l : forall r, NoDup (map fst r) ->
    NoDup (map fst (row_plus keqb plus r l)) /\
    (forall k, get (row_plus keqb plus r l) k = plus (get r k) (row_value l k)) /\
    (forall k, In k (map fst (row_plus keqb plus r l)) <-> In k (map fst r) \/ In k (map fst l)).
  Proof.
    induction l as [|[k1 v] l IH]; intros r N; unfold row_plus in *; cbn [fold_left map fst snd].
    - split; [exact N|]. split; [intros k; symmetry; apply plus_0_r|]. intros k. cbn [In]. tauto.
    - destruct (IH (row_bump keqb plus r k1 v) (bump_NoDup _ _ _ N)) as (A & B & C). split; [exact A|]. split.
      + intros k. rewrite B, get_bump, row_value_cons. cbn [fst snd]. destruct (keqb k k1); auto.
      + intros k. rewrite C, bump_keys. cbn [In]. split; intros H; repeat destruct H as [H|H]; subst; auto.
  Qed.

  (** Rows *)
  Definition wf (m : @table K V) : Prop := NoDup (map fst m) /\ forall t r, In (t, r) m -> NoDup (map fst r).

  Lemma row_NoDup m t : wf m -> NoDup (map fst (row m t)).
  Proof.
    intros [_ H]. unfold row. destruct (dget Qc_eqb m t) as [r|] eqn:E; [|constructor].
    apply (dget_In Qc_eqb Qc_eqb_eq) in E. eapply H. exact E.
  Qed.
  Lemma dset_wf m t r : wf m -> NoDup (map fst r) -> wf (dset Qc_eqb m t r).
  Proof.
    intros [N H] R. split; [apply (dset_NoDup Qc_eqb Qc_eqb_eq); exact N|].
    intros t' r' I. apply (dget_In_NoDup Qc_eqb Qc_eqb_eq) in I; [|apply (dset_NoDup Qc_eqb Qc_eqb_eq); exact N].
    rewrite (dget_dset Qc_eqb Qc_eqb_eq) in I. destruct (Qc_eqb t' t); [injection I as <-; exact R|].
    apply (dget_In Qc_eqb Qc_eqb_eq) in I. eapply H. exact I.
  Qed.
  Lemma row_dset (m : @table K V) t r t' : row (dset Qc_eqb m t r) t' = if Qc_eqb t' t then r else row m t'.
  Proof. unfold row. rewrite (dget_dset Qc_eqb Qc_eqb_eq). destruct (Qc_eqb t' t); reflexivity. Qed.
  Lemma open_row_row (m : @table K V) t t' : row (open_row m t) t' = row m t'.
  Proof.
    unfold open_row. destruct (dmem Qc_eqb m t) eqn:E; [reflexivity|]. rewrite row_dset.
    destruct (Qc_eqb t' t) eqn:E'; [|reflexivity]. apply Qc_eqb_eq in E'. subst t'.
    unfold row, dmem in *. destruct (dget Qc_eqb m t); [discriminate|reflexivity].
  Qed.
  Lemma open_row_wf (m : @table K V) t : wf m -> wf (open_row m t).
  Proof. intros H. unfold open_row. destruct (dmem Qc_eqb m t); [exact H|]. apply dset_wf; [exact H|constructor]. Qed.
  Lemma open_row_keys (m : @table K V) t x : In x (map fst (open_row m t)) <-> In x (map fst m) \/ x = t.
  Proof.
    unfold open_row. destruct (dmem Qc_eqb m t) eqn:E.
    - apply (dmem_In Qc_eqb Qc_eqb_eq) in E. split; [auto|]. intros [H|H]; subst; auto.
    - rewrite (dset_keys_In Qc_eqb Qc_eqb_eq). tauto.
  Qed.

  (** Everything the combiners do to a table is a sequence of these steps. *)
  Definition step : Type := Qc * option (K * V).
  Definition apply_step (m : @table K V) (s : step) : @table K V :=
    match snd s with None => open_row m (fst s) | Some kv => bump keqb plus m (fst s) (fst kv) (snd kv) end.
  Definition apply_steps (m : @table K V) (l : list step) : @table K V := fold_left apply_step l m.
  Definition step_entries (t : Qc) (l : list step) : list (K * V) :=
    flat_map (fun s => if Qc_eqb t (fst s) then match snd s with Some kv => [kv] | None => [] end else []) l.
  Definition value_at (l : list step) (t : Qc) (k : K) : V := row_value (step_entries t l) k.

  Lemma step_entries_app t a b : step_entries t (a ++ b) = step_entries t a ++ step_entries t b.
  Proof. apply flat_map_app. Qed.

  Lemma apply_steps_facts l : forall m, wf m ->
    wf (apply_steps m l) /\
    (forall t k, entry (apply_steps m l) t k = plus (entry m t k) (value_at l t k)) /\
    (forall t, In t (map fst (apply_steps m l)) <-> In t (map fst m) \/ In t (map fst l)) /\
    (forall t k, In k (map fst (row (apply_steps m l) t)) <-> In k (map fst (row m t)) \/ In k (map fst (step_entries t l))).
  Proof.
    induction l as [|[t1 o] l IH]; intros m W.
    - split; [exact W|]. split; [intros t k; symmetry; apply plus_0_r|]. cbn. tauto.
    - cbn [apply_steps fold_left]. assert (W' : wf (apply_step m (t1, o))).
      { destruct o as [[k v]|]; unfold apply_step; cbn [fst snd]; [|apply open_row_wf; exact W].
        apply dset_wf; [exact W|]. apply bump_NoDup, row_NoDup, W. }
      destruct (IH _ W') as (A & B & C & D). split; [exact A|]. split; [|split].
      + intros t k. unfold apply_steps in B. rewrite B. unfold value_at. cbn [step_entries flat_map fst snd]. fold (step_entries t l).
        rewrite row_value_app, plus_assoc. f_equal. unfold entry, apply_step. cbn [fst snd]. destruct o as [[k1 v]|].
        * unfold bump. rewrite row_dset. cbn [fst snd]. destruct (Qc_eqb t t1) eqn:E.
          -- apply Qc_eqb_eq in E. subst t1. rewrite get_bump, row_value_cons. cbn [fst snd].
             change (row_value [] k) with zero. rewrite !plus_0_r. destruct (keqb k k1); rewrite ?plus_0_r; reflexivity.
          -- symmetry. apply plus_0_r.
        * rewrite open_row_row. destruct (Qc_eqb t t1); symmetry; apply plus_0_r.
      + intros t. unfold apply_steps in C. rewrite C. cbn [map fst In]. unfold apply_step. cbn [fst snd]. destruct o as [[k1 v]|].
        * unfold bump. rewrite (dset_keys_In Qc_eqb Qc_eqb_eq). intuition.
        * rewrite open_row_keys. intuition.
      + intros t k. unfold apply_steps in D. rewrite D. cbn [step_entries flat_map fst snd]. fold (step_entries t l).
        rewrite map_app, in_app_iff. unfold apply_step. cbn [fst snd]. destruct o as [[k1 v]|].
        * unfold bump. rewrite row_dset. cbn [fst snd]. destruct (Qc_eqb t t1) eqn:E.
          -- apply Qc_eqb_eq in E. subst t1. rewrite bump_keys. cbn [map fst In]. intuition.
          -- cbn [map In]. tauto.
        * rewrite open_row_row. destruct (Qc_eqb t t1); cbn [map In]; tauto.
  Qed.

  Definition steps_of (m : @table K V) : list step :=
    flat_map (fun tr => (fst tr, None) :: map (fun kv => (fst tr, Some kv)) (snd tr)) m.
  Lemma table_plus_steps b : forall a, table_plus keqb plus a b = apply_steps a (steps_of b).
  Proof.
    induction b as [|[t r] b IH]; intros a; [reflexivity|]. unfold table_plus, steps_of, apply_steps in *.
    cbn [fold_left flat_map fst snd app]. rewrite fold_left_app. rewrite IH. f_equal.
    change (apply_step a (t, None)) with (open_row a t). generalize (open_row a t). induction r as [|kv r IHr]; intros m; [reflexivity|].
    cbn [map fold_left]. apply IHr.
  Qed.
  Lemma steps_of_keys m t : In t (map fst (steps_of m)) <-> In t (map fst m).
  Proof.
    unfold steps_of. induction m as [|[t1 r] m IH]; [reflexivity|]. cbn [flat_map map fst snd app In].
    rewrite map_app, in_app_iff, IH, map_map. cbn [fst]. split; [|tauto].
    intros [H|[H|H]]; auto. apply in_map_iff in H. destruct H as (x & H & _). auto.
  Qed.
  Lemma step_entries_of m t : NoDup (map fst m) -> step_entries t (steps_of m) = row m t.
  Proof.
    unfold row. induction m as [|[t1 r] m IH]; intros N; [reflexivity|]. cbn [map fst] in N. inversion N; subst.
    cbn [steps_of flat_map fst snd app]. fold (steps_of m). cbn [step_entries flat_map fst snd]. fold (step_entries t).
    change (flat_map _ (map (fun kv => (t1, Some kv)) r ++ steps_of m)) with (step_entries t (map (fun kv => (t1, Some kv)) r ++ steps_of m)).
    rewrite step_entries_app, IH by auto. cbn [dget fst]. destruct (Qc_eqb t t1) eqn:E.
    - apply Qc_eqb_eq in E. subst t1. rewrite (proj2 (dget_None Qc_eqb Qc_eqb_eq m t)) by auto.
      rewrite app_nil_r. cbn [app]. unfold step_entries. clear -r. induction r as [|kv r IH]; [reflexivity|].
      cbn [map flat_map fst snd]. rewrite Qc_eqb_refl. cbn [app]. f_equal. exact IH.
    - cbn [app]. replace (step_entries t (map (fun kv => (t1, Some kv)) r)) with (@nil (K * V)); [reflexivity|].
      unfold step_entries. clear -E. induction r as [|kv r IH]; [reflexivity|]. cbn [map flat_map fst snd]. rewrite E. exact IH.
  Qed.

  (** What a table holds after some inputs, each of which is a list of steps. *)
  Definition represents {I} (U : I -> list step) (m : @table K V) (l : list I) : Prop :=
    wf m /\
    (forall t k, entry m t k = value_at (flat_map U l) t k) /\
    (forall t, In t (map fst m) <-> In t (map fst (flat_map U l))) /\
    (forall t k, In k (map fst (row m t)) <-> In k (map fst (step_entries t (flat_map U l)))).

  Lemma represents_run {I O} (add : @table K V -> I -> res (@table K V)) (ext : @table K V -> res O) (U : I -> list step) s :
    (forall e, In e (inputs s) -> forall a, add a e = Ok (apply_steps a (U e))) ->
    exists m, run (res_combiner [] add (table_plus keqb plus) ext) s = Ok m /\ represents U m (inputs s).
  Proof.
    intros H. apply (res_rel_run [] add (table_plus keqb plus) ext
                       (fun e => forall a, add a e = Ok (apply_steps a (U e))) (represents U)).
    - split; [split; [constructor|intros t r []]|]. cbn. split; [reflexivity|]. split; intros; reflexivity.
    - intros a l x (W & A & B & C) G. eexists. split; [apply G|].
      destruct (apply_steps_facts (U x) a W) as (W' & A' & B' & C').
      split; [exact W'|]. rewrite flat_map_app. cbn [flat_map]. rewrite app_nil_r. split; [|split].
      + intros t k. rewrite A', A. unfold value_at. rewrite step_entries_app, row_value_app. reflexivity.
      + intros t. rewrite B', B, map_app, in_app_iff. reflexivity.
      + intros t k. rewrite C', C, step_entries_app, map_app, in_app_iff. reflexivity.
    - intros a b l1 l2 (W1 & A1 & B1 & C1) (W2 & A2 & B2 & C2). rewrite table_plus_steps.
      destruct (apply_steps_facts (steps_of b) a W1) as (W' & A' & B' & C').
      split; [exact W'|]. rewrite flat_map_app. split; [|split].
      + intros t k. rewrite A', A1. unfold value_at at 2. rewrite step_entries_of by apply W2.
        rewrite row_value_NoDup by (apply row_NoDup, W2). change (get (row b t) k) with (entry b t k). rewrite A2.
        unfold value_at. rewrite step_entries_app, row_value_app. reflexivity.
      + intros t. rewrite B', B1, steps_of_keys, B2, map_app, in_app_iff. reflexivity.
      + intros t k. rewrite C', C1, step_entries_of by apply W2. rewrite C2, step_entries_app, map_app, in_app_iff. reflexivity.
    - apply Forall_forall. exact H.
  Qed.

End TableFacts.

Lemma entry_key_eqb_eq a b : entry_key_eqb a b = true <-> a = b.
Proof.
  destruct a as [a1 a2], b as [b1 b2]. unfold entry_key_eqb. cbn [fst snd]. rewrite andb_true_iff, !Z.eqb_eq.
  split; [intros [-> ->]; reflexivity|intros E; injection E; auto].
Qed.

(** A table lists the value x for the key k under the threshold t. *)

Definition lists {K V} (m : list (Qc * list (K * V))) (t : Qc) (k : K) (x : V) : Prop :=
  exists r, In (t, r) m /\ In (k, x) r.

(** No threshold and no key within a threshold is listed twice. *)

Definition unambiguous {K V} (m : list (Qc * list (K * V))) : Prop :=
  NoDup (map fst m) /\ forall t r, In (t, r) m -> NoDup (map fst r).

Lemma lists_entry {K V} (keqb : K -> K -> bool) (zero : V) (keqb_eq : forall a b, keqb a b = true <-> a = b) (m : @table K V) t k x :
  wf m -> lists m t k x <-> In k (map fst (row m t)) /\ x = entry keqb zero m t k.
Proof.
  intros [N R]. unfold lists, entry, get, row. split.
  - intros (r & A & B). pose proof A as A'. apply (dget_In_NoDup Qc_eqb Qc_eqb_eq _ _ _ N) in A'. rewrite A'. pose proof B as B'.
    apply (dget_In_NoDup keqb keqb_eq _ _ _ (R t r A)) in B'. rewrite B'. split; [|reflexivity].
    apply in_map_iff. exists (k, x). auto.
  - destruct (dget Qc_eqb m t) as [r|] eqn:E; [|intros [[] _]]. intros [A ->]. exists r.
    split; [apply (dget_In Qc_eqb Qc_eqb_eq); exact E|].
    destruct (dget keqb r k) as [x|] eqn:E'; [apply (dget_In keqb keqb_eq); exact E'|].
    exfalso. apply (dget_None keqb keqb_eq) in E'. auto.
Qed.

Section ArgMaxFacts.
  Context {A : Type} (gtb : A -> A -> bool).
  Lemma argmax_keeps l : forall best b i, (forall y, In y l -> gtb y best = false) -> argmax_from gtb best b i l = b.
  Proof.
    induction l as [|y l IH]; intros best b i H; [reflexivity|]. cbn [argmax_from]. rewrite (H y (or_introl eq_refl)).
    apply IH. intros z Z. apply H. right. exact Z.
  Qed.
  Lemma argmax_finds l : forall best b i c x, nth_error l c = Some x -> gtb x best = true ->
    (forall j y, j < c -> nth_error l j = Some y -> gtb x y = true) ->
    (forall j y, c < j -> nth_error l j = Some y -> gtb y x = false) -> argmax_from gtb best b i l = i + c.
  Proof.
    induction l as [|y l IH]; intros best b i c x E G L R; [destruct c; discriminate|]. cbn [argmax_from]. destruct c as [|c].
    - injection E as ->. rewrite G, Nat.add_0_r. apply argmax_keeps. intros z Z.
      apply In_nth_error in Z. destruct Z as [j Z]. apply (R (S j)); [lia|exact Z].
    - cbn [nth_error] in E. replace (i + S c) with (S i + c) by lia.
      destruct (gtb y best); apply (IH _ _ _ c x E).
      + apply (L 0 y); [lia|reflexivity].
      + intros j z J Z. apply (L (S j)); [lia|exact Z].
      + intros j z J Z. apply (R (S j)); [lia|exact Z].
      + exact G.
      + intros j z J Z. apply (L (S j)); [lia|exact Z].
      + intros j z J Z. apply (R (S j)); [lia|exact Z].
  Qed.
  Lemma argmax_first l c x : nth_error l c = Some x ->
    (forall j y, j < c -> nth_error l j = Some y -> gtb x y = true) ->
    (forall j y, c < j -> nth_error l j = Some y -> gtb y x = false) -> argmax gtb l = Ok c.
  Proof.
    intros E L R. destruct l as [|y l]; [destruct c; discriminate|]. cbn [argmax]. f_equal. destruct c as [|c].
    - injection E as ->. apply argmax_keeps. intros z Z. apply In_nth_error in Z. destruct Z as [j Z].
      apply (R (S j)); [lia|exact Z].
    - cbn [nth_error] in E. replace (S c) with (1 + c) by lia. apply (argmax_finds l _ _ _ c x E).
      + apply (L 0 y); [lia|reflexivity].
      + intros j z J Z. apply (L (S j)); [lia|exact Z].
      + intros j z J Z. apply (R (S j)); [lia|exact Z].
  Qed.

End ArgMaxFacts.

(** What the labels and the scores of an example say: the labelled class (given by
    its number, or by the first largest entry of a vector), and the class with the
    largest score, the first of them if there are several. *)

Definition says_class (labels : list Qc) (a : Z) : Prop :=
  labels = [qz a] \/
  (1 < length labels /\ exists i x, a = Z.of_nat i /\ nth_error labels i = Some x /\
     forall j y, nth_error labels j = Some y -> (y <= x)%Qc /\ (j < i -> (y < x)%Qc)).

Definition top_scored (scores : list num) (c : nat) (x : Qc) : Prop :=
  nth_error scores c = Some (Fin x) /\
  forall j y, nth_error scores j = Some y -> num_leb y (Fin x) = true /\ (j < c -> num_ltb y (Fin x) = true).

(** One classified example. *)

Record classified := Classified { cl_actual : Z; cl_top : nat; cl_score : Qc; cl_weight : Qc }.

Definition classifies (weighted : bool) (m o : string) (e : inputs_dict) (x : classified) : Prop :=
  exists labels scores, carries weighted m o e (Reading labels scores [cl_weight x]) /\
    1 < length scores /\ says_class labels (cl_actual x) /\ top_scored scores (cl_top x) (cl_score x).

(** The class predicted at a threshold: none (-1) unless the best score exceeds it. *)

Definition predicted_at (t : Qc) (x : classified) : Z := if Qc_leb (cl_score x) t then (-1)%Z else Z.of_nat (cl_top x).

Definition counted (t : Qc) (a p : Z) (x : classified) : bool := Z.eqb (cl_actual x) a && Z.eqb (predicted_at t x) p.

Lemma qz_trunc z : Qc_trunc (qz z) = z.
Proof.
  unfold Qc_trunc. pose proof (qz_this z) as H. unfold Qeq, inject_Z in H. cbn [Qnum Qden] in H.
  rewrite Z.mul_1_r in H. rewrite H. apply Z.quot_mul. discriminate.
Qed.

Lemma says_class_argmax labels a : says_class labels a -> 1 < length labels ->
  (let! i := argmax (fun x y => Qc_ltb y x) labels in Ok (Z.of_nat i)) = Ok a.
Proof.
  intros [->|(_ & i & x & -> & E & H)] L; [cbn in L; lia|].
  rewrite (argmax_first _ labels i x E); [reflexivity| |].
  - intros j y J Y. apply Qc_ltb_lt. apply (H j y Y). exact J.
  - intros j y J Y. apply Qc_ltb_ge. apply (H j y Y).
Qed.

Lemma top_scored_argmax scores c x : top_scored scores c x -> argmax np_gtb scores = Ok c.
Proof.
  intros [E H]. apply (argmax_first _ scores c (Fin x) E).
  - intros j y J Y. destruct (H j y Y) as [_ L]. specialize (L J). destruct y; try discriminate L; try reflexivity. exact L.
  - intros j y J Y. destruct (H j y Y) as [L _]. destruct y; try discriminate L; try reflexivity. cbn in *.
    unfold Qc_ltb. rewrite L. reflexivity.
Qed.

Section Steps.
  Variables (preds : list num) (actual : Z) (w : Qc).
  Hypothesis two : 1 < length preds.

  Definition class_steps (p : Qc -> Z) (ts : list Qc) : list (step (K:=entry_key) (V:=Qc)) :=
    flat_map (fun t => [(t, None); (t, Some ((actual, p t), w))]) ts.

  Lemma py_nth_last : exists y, py_nth preds (-1) = Ok y.
  Proof.
    unfold py_nth, nth_ok. cbn [Z.ltb Z.compare]. destruct (-1 + Z.of_nat (length preds) <? 0)%Z eqn:E; [apply Z.ltb_lt in E; lia|].
    destruct (nth_error preds _) eqn:N; [eauto|]. apply nth_error_None in N. lia.
  Qed.
  Lemma py_nth_nat c : py_nth preds (Z.of_nat c) = nth_ok preds c.
  Proof.
    unfold py_nth. destruct (Z.of_nat c <? 0)%Z eqn:E; [apply Z.ltb_lt in E; lia|]. rewrite E, Nat2Z.id. reflexivity.
  Qed.

  Lemma steps_cons t ts acc p : foldM (multi_class_step preds actual w) (t :: ts) (acc, p) =
    let! score := py_nth preds p in
    let q := if num_leb score (Fin t) then (-1)%Z else p in
    foldM (multi_class_step preds actual w) ts (bump entry_key_eqb Qcplus (open_row acc t) t (actual, q) w, q).
  Proof. cbn [foldM]. unfold multi_class_step at 1. destruct (py_nth preds p); reflexivity. Qed.

  Lemma none_steps ts : forall acc,
    foldM (multi_class_step preds actual w) ts (acc, (-1)%Z) =
      Ok (apply_steps entry_key_eqb Qcplus acc (class_steps (fun _ => (-1)%Z) ts), (-1)%Z).
  Proof.
    induction ts as [|t ts IH]; intros acc; [reflexivity|]. rewrite steps_cons.
    destruct py_nth_last as [y E]. rewrite E. cbn [bind]. cbv zeta.
    replace (if num_leb y (Fin t) then (-1)%Z else (-1)%Z) with (-1)%Z by (destruct (num_leb y (Fin t)); reflexivity).
    rewrite IH. reflexivity.
  Qed.

  Lemma ascending_steps ts c x : nth_error preds c = Some (Fin x) -> StronglySorted Qclt ts -> forall acc,
    exists p, foldM (multi_class_step preds actual w) ts (acc, Z.of_nat c) =
      Ok (apply_steps entry_key_eqb Qcplus acc (class_steps (fun t => if Qc_leb x t then (-1)%Z else Z.of_nat c) ts), p).
  Proof.
    intros E. induction ts as [|t ts IH]; intros A acc; [eexists; reflexivity|]. inversion A as [|? ? A' F]; subst. rewrite steps_cons.
    rewrite py_nth_nat. unfold nth_ok. rewrite E. cbn [bind num_leb]. cbv zeta. destruct (Qc_leb x t) eqn:L; cbv iota.
    - rewrite none_steps. eexists. f_equal. f_equal.
      cbn [class_steps flat_map app]. rewrite L. unfold apply_steps. cbn [fold_left app]. f_equal.
      unfold class_steps. rewrite !flat_map_concat_map. f_equal. apply map_ext_in. intros t' T.
      rewrite Forall_forall in F. specialize (F t' T). replace (Qc_leb x t') with true; [reflexivity|].
      symmetry. apply Qc_leb_le. apply Qc_leb_le in L. qc_lra.
    - destruct (IH A' (bump entry_key_eqb Qcplus (open_row acc t) t (actual, Z.of_nat c) w)) as [p P].
      exists p. etransitivity; [exact P|]. f_equal. f_equal. cbn [class_steps flat_map app]. rewrite L. reflexivity.
  Qed.

End Steps.

Definition seen_steps (ts : list Qc) (x : classified) : list (step (K:=entry_key) (V:=Qc)) :=
  class_steps (cl_actual x) (cl_weight x) (fun t => predicted_at t x) ts.

Lemma matrix_tuple ap weighted lk pk m o e labels scores w : carries weighted m o e (Reading labels scores [w]) ->
  to_label_prediction_example_weight ap (matrix_options weighted) lk pk m o e = Ok [(labels, scores, [w])].
Proof.
  intros C. rewrite (prepared ap (matrix_options weighted) lk pk m o e _ C). reflexivity.
Qed.

Lemma multi_class_add_steps ap ts weighted lk pk m o e x a : StronglySorted Qclt ts -> classifies weighted m o e x ->
  multi_class_add ap ts weighted lk pk m o a e = Ok (apply_steps entry_key_eqb Qcplus a (seen_steps ts x)).
Proof.
  intros A (labels & scores & C & L & SC & TS). unfold multi_class_add. rewrite (matrix_tuple ap weighted lk pk m o e _ _ _ C).
  cbn [bind first_tuple multi_class_of]. destruct (Nat.leb (length scores) 1) eqn:B; [apply Nat.leb_le in B; lia|].
  assert (EA : match labels with [] => Err TypeError | [l] => Ok (Qc_trunc l)
               | _ => let! i := argmax (fun x y => Qc_ltb y x) labels in Ok (Z.of_nat i) end = Ok (cl_actual x)).
  { destruct labels as [|l [|l' t]].
    - destruct SC as [H|[H _]]; [discriminate|cbn in H; lia].
    - destruct SC as [H|[H _]]; [|cbn in H; lia]. injection H as ->. rewrite qz_trunc. reflexivity.
    - apply says_class_argmax; [exact SC|cbn; lia]. }
  rewrite EA. cbn [bind]. rewrite (top_scored_argmax _ _ _ TS). cbn [bind scalar].
  destruct (ascending_steps scores (cl_actual x) (cl_weight x) L ts (cl_top x) (cl_score x) (proj1 TS) A a) as [p P].
  rewrite P. reflexivity.
Qed.

Lemma step_entries_class a w p ts t : NoDup ts ->
  step_entries t (class_steps a w p ts) = if memb Qc_eqb t ts then [((a, p t), w)] else [].
Proof.
  induction ts as [|t1 ts IH]; intros N; [reflexivity|]. inversion N; subst. cbn [class_steps flat_map app step_entries fst snd memb].
  change (flat_map _ (flat_map _ ts)) with (step_entries t (class_steps a w p ts)). rewrite IH by auto.
  destruct (Qc_eqb t t1) eqn:E; cbn [app orb]; [|reflexivity]. apply Qc_eqb_eq in E. subst t1.
  rewrite (proj2 (memb_nIn Qc_eqb Qc_eqb_eq t ts)) by auto. reflexivity.
Qed.

Lemma ascending_NoDup ts : StronglySorted Qclt ts -> NoDup ts.
Proof.
  induction 1 as [|t ts A IH F]; constructor; auto. intros I. rewrite Forall_forall in F. specialize (F t I). qc_lra.
Qed.

Lemma step_entries_flat {K V I} (U : I -> list (@step K V)) t l :
  step_entries t (flat_map U l) = flat_map (fun e => step_entries t (U e)) l.
Proof. unfold step_entries. induction l; [reflexivity|]. cbn [flat_map]. rewrite flat_map_app. f_equal. exact IHl. Qed.

Lemma flat_map_single {A B} (f : A -> B) l : flat_map (fun x => [f x]) l = map f l.
Proof. induction l; [reflexivity|]. cbn [flat_map map app]. rewrite IHl. reflexivity. Qed.

Lemma class_keys a w p ts t : In t (map fst (class_steps a w p ts)) <-> In t ts.
Proof.
  unfold class_steps. induction ts as [|t1 ts IH]; [reflexivity|]. cbn [flat_map app map fst In]. rewrite IH. tauto.
Qed.

Lemma res_run_refused {I A O} (create : A) (add : A -> I -> res A) (plus : A -> A -> A) (ext : A -> res O) (e : I) s :
  (forall a, is_ok (add a e) = false) -> In e (inputs s) -> is_ok (outcome (res_combiner create add plus ext) s) = false.
Proof.
  intros H J.
  assert (G : forall x, run (res_combiner create add plus ext) s = Ok x -> ~ In e (inputs s)).
  { apply (rel_run (res_combiner create add plus ext) (fun a l => forall x, a = Ok x -> ~ In e l)).
    - intros x _ [].
    - intros a l x R y E. cbn [res_combiner c_add] in E. destruct a as [a|]; [|discriminate]. cbn [bind] in E. rewrite in_app_iff. intros [K|[K|[]]].
      + exact (R a eq_refl K).
      + subst x. specialize (H a). rewrite E in H. discriminate.
    - intros a l ps R RS. cbn [res_combiner c_merge merge_next]. revert a l R. induction RS as [|[b k] ps B RS IH]; intros a l R y E; cbn [map concat fold_left fst snd] in *.
      + rewrite app_nil_r. exact (R y E).
      + rewrite app_assoc. apply (IH (let! x := a in let! y := b in Ok (plus x y)) (l ++ k)) with (x := y); [|exact E].
        intros z Z. destruct a as [a|]; [|discriminate]. destruct b as [b|]; [|discriminate]. rewrite in_app_iff. intros [K|K]; [exact (R a eq_refl K)|exact (B b eq_refl K)]. }
  unfold outcome. destruct (run (res_combiner create add plus ext) s) as [x|x] eqn:E; [|reflexivity].
  exfalso. exact (G x eq_refl J).
Qed.

Lemma C147_multi_class_matrices_pf :
  forall ap ts weighted lk pk m o s x,
    StronglySorted Qclt ts -> inputs s <> [] ->
    (forall e, In e (inputs s) -> classifies weighted m o e (x e)) ->
    exists M, outcome (multi_class_combiner ap ts weighted lk pk m o) s = Ok M /\
      unambiguous M /\
      (forall t, In t (map fst M) <-> In t ts) /\
      forall t, In t ts -> forall a p v,
        lists M t (a, p) v <->
        let hits := filter (counted t a p) (map x (inputs s)) in
        hits <> [] /\ v = qsum (map cl_weight hits).
Proof.
  intros ap ts weighted lk pk m o s x A NE H.
  destruct (represents_run entry_key_eqb Qcplus 0%Qc entry_key_eqb_eq Qcplus_assoc Qcplus_0_l Qcplus_0_r
              (multi_class_add ap ts weighted lk pk m o) (fun a => Ok a) (fun e => seen_steps ts (x e)) s) as (M & R & W & E & KT & KR).
  { intros e He a. apply multi_class_add_steps; auto. }
  change (run (multi_class_combiner ap ts weighted lk pk m o) s = Ok M) in R.
  exists M. split; [unfold outcome; rewrite R; reflexivity|]. split; [exact W|]. split.
  - intros t. rewrite KT. rewrite in_map_iff. split.
    + intros (st & <- & I). apply in_flat_map in I. destruct I as (e & He & I).
      apply (class_keys (cl_actual (x e)) (cl_weight (x e)) (fun t => predicted_at t (x e)) ts). apply in_map. exact I.
    + intros I. destruct (inputs s) as [|e l]; [congruence|].
      apply (class_keys (cl_actual (x e)) (cl_weight (x e)) (fun t => predicted_at t (x e)) ts) in I. apply in_map_iff in I.
      destruct I as (st & F & I). exists st. split; [exact F|]. cbn [flat_map]. apply in_app_iff. left. exact I.
  - intros t T a p v.
    assert (SE : step_entries t (flat_map (fun e => seen_steps ts (x e)) (inputs s)) =
                 map (fun y => ((cl_actual y, predicted_at t y), cl_weight y)) (map x (inputs s))).
    { rewrite step_entries_flat, map_map, <- (flat_map_single (fun e => (cl_actual (x e), predicted_at t (x e), cl_weight (x e)))).
      rewrite !flat_map_concat_map. f_equal. apply map_ext. intros e. unfold seen_steps.
      rewrite step_entries_class by (apply ascending_NoDup; exact A).
      rewrite (proj2 (memb_In Qc_eqb Qc_eqb_eq t ts) T). reflexivity. }
    rewrite (lists_entry entry_key_eqb 0%Qc entry_key_eqb_eq M t (a, p) v W), E, KR. unfold value_at, row_value. rewrite SE.
    set (D := map x (inputs s)). cbn zeta.
    assert (F : filter (fun kv => entry_key_eqb (a, p) (fst kv)) (map (fun y => ((cl_actual y, predicted_at t y), cl_weight y)) D) =
                map (fun y => ((cl_actual y, predicted_at t y), cl_weight y)) (filter (counted t a p) D)).
    { clear. induction D as [|y D IH]; [reflexivity|]. cbn [map filter fst]. unfold counted at 1, entry_key_eqb at 1. cbn [fst snd].
      rewrite (Z.eqb_sym a), (Z.eqb_sym p). destruct (Z.eqb (cl_actual y) a && Z.eqb (predicted_at t y) p); cbn [map]; rewrite IH; reflexivity. }
    rewrite F, !map_map. cbn [snd fst].
    assert (I : In (a, p) (map (fun y => (cl_actual y, predicted_at t y)) D) <-> filter (counted t a p) D <> []).
    { clear. rewrite in_map_iff. split.
      - intros (y & Y & I) N. assert (J : In y (filter (counted t a p) D)); [|rewrite N in J; exact J].
        apply filter_In. split; [exact I|]. injection Y as <- <-. unfold counted. rewrite !Z.eqb_refl. reflexivity.
      - destruct (filter (counted t a p) D) as [|y l] eqn:Q; [congruence|]. intros _.
        assert (J : In y (filter (counted t a p) D)) by (rewrite Q; left; reflexivity). apply filter_In in J. destruct J as [J C].
        exists y. split; [|exact J]. unfold counted in C. apply andb_true_iff in C. destruct C as [C1 C2].
        apply Z.eqb_eq in C1. apply Z.eqb_eq in C2. congruence. }
    rewrite I. reflexivity.
Qed.

Lemma indicator_sum {K} (eqb : K -> K -> bool) (eqb_eq : forall a b, eqb a b = true <-> a = b) (v : Qc) k ks :
  NoDup ks -> In k ks -> qsum (map (fun k' => if eqb k k' then v else 0%Qc) ks) = v.
Proof.
  induction ks as [|k1 ks IH]; intros N I; [destruct I|]. inversion N as [|? ? NI N']; subst. unfold qsum in *. cbn [map fold_right].
  destruct (eqb k k1) eqn:E.
  - apply eqb_eq in E. subst k1. assert (Z : qsum (map (fun k' => if eqb k k' then v else 0%Qc) ks) = 0%Qc).
    { apply qsum_map_zero. intros k' I'. destruct (eqb k k') eqn:E; [|reflexivity]. apply eqb_eq in E. subst. contradiction. }
    unfold qsum in Z. rewrite Z. ring.
  - destruct I as [I|I]; [subst; rewrite (proj2 (eqb_eq k k) eq_refl) in E; discriminate|]. rewrite (IH N' I). ring.
Qed.

Lemma partition_sum {X K} (eqb : K -> K -> bool) (eqb_eq : forall a b, eqb a b = true <-> a = b) (key : X -> K) (w : X -> Qc) ks l :
  NoDup ks -> (forall x, In x l -> In (key x) ks) ->
  qsum (map (fun k => qsum (map w (filter (fun x => eqb (key x) k) l))) ks) = qsum (map w l).
Proof.
  intros N. induction l as [|x l IH]; intros H.
  - cbn [filter map]. apply qsum_map_zero. reflexivity.
  - change (qsum (map w (x :: l))) with (w x + qsum (map w l))%Qc.
    rewrite <- (IH (fun y I => H y (or_intror I))).
    rewrite <- (indicator_sum eqb eqb_eq (w x) (key x) ks N (H x (or_introl eq_refl))) at 1.
    rewrite <- qsum_map_plus. apply qsum_map_ext. intros k _. cbn [filter]. destruct (eqb (key x) k).
    + reflexivity.
    + ring.
Qed.

Lemma C147_each_example_once_pf :
  forall ap ts weighted lk pk m o s x t,
    StronglySorted Qclt ts -> In t ts -> inputs s <> [] ->
    (forall e, In e (inputs s) -> classifies weighted m o e (x e)) ->
    exists M r, outcome (multi_class_combiner ap ts weighted lk pk m o) s = Ok M /\ In (t, r) M /\
      qsum (map snd r) = qsum (map (fun e => cl_weight (x e)) (inputs s)).
Proof.
  intros ap ts weighted lk pk m o s x t A T NE H.
  destruct (C147_multi_class_matrices_pf ap ts weighted lk pk m o s x A NE H) as (M & E & [N NR] & KT & L).
  exists M. apply KT in T as T'. apply in_map_iff in T'. destruct T' as ([t' r] & E' & I). cbn in E'. subst t'.
  exists r. split; [exact E|]. split; [exact I|].
  specialize (L t T). specialize (NR t r I).
  assert (LR : forall k v, In (k, v) r <-> lists M t k v).
  { intros k v. split; [intros J; exists r; auto|]. intros (r' & I' & J).
    apply (dget_In_NoDup Qc_eqb Qc_eqb_eq _ _ _ N) in I. apply (dget_In_NoDup Qc_eqb Qc_eqb_eq _ _ _ N) in I'. congruence. }
  set (D := map x (inputs s)). set (key := fun y => (cl_actual y, predicted_at t y)).
  assert (CE : forall k, filter (fun y => entry_key_eqb (key y) k) D = filter (counted t (fst k) (snd k)) D) by reflexivity.
  rewrite <- (map_map x cl_weight (inputs s)). fold D.
  rewrite <- (partition_sum entry_key_eqb entry_key_eqb_eq key cl_weight (map fst r) D NR).
  - rewrite map_map. f_equal. apply map_ext_in. intros [[a p] v] J. cbn [fst snd]. apply LR, L in J. rewrite CE. apply J.
  - intros y Y. apply in_map_iff. set (hits := filter (counted t (cl_actual y) (predicted_at t y)) D).
    exists (key y, qsum (map cl_weight hits)). split; [reflexivity|]. apply LR, L. cbn zeta. fold D. fold hits. split; [|reflexivity].
    intros Z. assert (J : In y hits); [|rewrite Z in J; exact J]. apply filter_In. split; [exact Y|].
    unfold counted. rewrite !Z.eqb_refl. reflexivity.
Qed.

(** An example of class 0 whose best class is 1 with score 0.8, of weight 1. *)

Definition two_class_example : inputs_dict :=
  InputsDict (Some (Leaf [qz 0])) (Some (Leaf [Fin (Q2Qc (1#5)); Fin (Q2Qc (4#5))])) None.

Definition two_class_seen : classified := Classified 0 1 (Q2Qc (4#5)) 1%Qc.

Lemma two_class_classifies : classifies false "" "" two_class_example two_class_seen.
Proof.
  exists [qz 0], [Fin (Q2Qc (1#5)); Fin (Q2Qc (4#5))]. split; [|split; [cbn; lia|split; [left; reflexivity|]]].
  - split; [reflexivity|]. split; [|reflexivity]. eexists. eexists. split; [reflexivity|]. split; reflexivity.
  - split; [reflexivity|]. intros [|[|[|j]]] y E; cbn in E; try discriminate; injection E as <-; (split; [vm_compute; reflexivity|cbn [cl_top two_class_seen]; intros; (lia || (vm_compute; reflexivity))]).
Qed.

Lemma two_class_only e : In e (inputs (Bundle [two_class_example])) -> classifies false "" "" e two_class_seen.
Proof. cbn [inputs In]. intros [<-|[]]. exact two_class_classifies. Qed.

Lemma C147_single_score_refused_pf :
  forall ap ts weighted lk pk m o s e labels score w,
    In e (inputs s) -> carries weighted m o e (Reading labels [score] [w]) ->
    is_ok (outcome (multi_class_combiner ap ts weighted lk pk m o) s) = false.
Proof.
  intros ap ts weighted lk pk m o s e labels score w I C.
  apply (res_run_refused [] (multi_class_add ap ts weighted lk pk m o) (table_plus entry_key_eqb Qcplus) (fun a => Ok a) e s); [|exact I].
  intros a. unfold multi_class_add. rewrite (matrix_tuple ap weighted lk pk m o e _ _ _ C). reflexivity.
Qed.

Lemma C147_any_thresholds_refuted_pf :
  exists ts s t M x,
    NoDup ts /\ In t ts /\ (forall e, In e (inputs s) -> classifies false "" "" e (x e)) /\
    outcome (multi_class_combiner ap_sort ts false "" "" "" "") s = Ok M /\
    outcome (multi_class_combiner ap_sort [t] false "" "" "" "") s = Ok [(t, [((0%Z, 1%Z), 1%Qc)])] /\
    lists M t (0%Z, (-1)%Z) 1%Qc /\ ~ exists v, lists M t (0%Z, 1%Z) v.
Proof.
  exists [Q2Qc (9#10); Q2Qc (1#2)], (Bundle [two_class_example]), (Q2Qc (1#2)),
    [(Q2Qc (9#10), [((0%Z, (-1)%Z), 1%Qc)]); (Q2Qc (1#2), [((0%Z, (-1)%Z), 1%Qc)])], (fun _ => two_class_seen).
  assert (D : Q2Qc (9#10) <> Q2Qc (1#2)) by discriminate.
  split; [constructor; [intros [H|[]]; congruence|constructor; [intros []|constructor]]|].
  split; [right; left; reflexivity|]. split; [intros e He; exact (two_class_only e He)|].
  split; [qc_ex|]. split; [qc_ex|]. split.
  - eexists. split; [right; left; reflexivity|]. left. reflexivity.
  - intros (v & r & [E|[E|[]]] & J); injection E; intros; subst; try congruence. destruct J as [J|[]]. discriminate.
Qed.

Lemma C147_repeated_threshold_refuted_pf :
  exists ts s t M x,
    In t ts /\ (forall e, In e (inputs s) -> classifies false "" "" e (x e)) /\
    outcome (multi_class_combiner ap_sort ts false "" "" "" "") s = Ok M /\
    (exists e, inputs s = [e] /\ cl_weight (x e) = 1%Qc) /\ lists M t (0%Z, 1%Z) (qz 2).
Proof.
  exists [Q2Qc (1#2); Q2Qc (1#2)], (Bundle [two_class_example]), (Q2Qc (1#2)),
    [(Q2Qc (1#2), [((0%Z, 1%Z), qz 2)])], (fun _ => two_class_seen).
  split; [left; reflexivity|]. split; [intros e He; exact (two_class_only e He)|]. split; [qc_ex|].
  split; [eexists; split; reflexivity|]. eexists. split; [left; reflexivity|left; reflexivity].
Qed.

Lemma C148_own_thresholds_refuted_pf :
  exists ts1 ts2 name1 name2 sep,
    ts1 <> ts2 /\ name1 <> name2 /\
    filter_and_separate_computations (matrix_computations ts1 name1 "" "" false ++ matrix_computations ts2 name2 "" "" false) = Ok sep /\
    map (fun c => cp_body (snd c)) (sp_base sep) = [CombineMatrices ts1] /\
    map (fun c => (map k_name (cp_keys (snd c)), cp_body (snd c))) (sp_derived sep) =
      [([name1], CopyOf (matrices_key "" "" false)); ([name2], CopyOf (matrices_key "" "" false))].
Proof.
  exists [Q2Qc (1#2)], [Q2Qc (9#10)], "at_half", "at_nine_tenths". eexists. split; [discriminate|]. split; [discriminate|].
  split; [vm_compute; reflexivity|]. split; vm_compute; reflexivity.
Qed.

Lemma C148_separate_outputs_pf :
  forall ts1 ts2 n1 n2 m1 m2 o1 o2 w1 w2,
    (m1, o1, w1) <> (m2, o2, w2) -> n1 <> n2 ->
    exists sep,
      filter_and_separate_computations (matrix_computations ts1 n1 m1 o1 w1 ++ matrix_computations ts2 n2 m2 o2 w2) = Ok sep /\
      map (fun c => cp_body (snd c)) (sp_base sep) = [CombineMatrices ts1; CombineMatrices ts2] /\
      map (fun c => (map k_name (cp_keys (snd c)), cp_body (snd c))) (sp_derived sep) =
        [([n1], CopyOf (matrices_key m1 o1 w1)); ([n2], CopyOf (matrices_key m2 o2 w2))].
Proof.
  intros ts1 ts2 n1 n2 m1 m2 o1 o2 w1 w2 D N.
  assert (E1 : metric_key_eqb (matrices_key m2 o2 w2) (matrices_key m1 o1 w1) = false).
  { apply mk_eqb_neq. unfold matrices_key. intros E. injection E. intros; subst. congruence. }
  assert (E2 : metric_key_eqb (MetricKey n2 m2 o2 None None (Some w2) false) (MetricKey n1 m1 o1 None None (Some w1) false) = false).
  { apply mk_eqb_neq. intros E. injection E. intros; subst. congruence. }
  eexists. split; [|split].
  - unfold matrix_computations, filter_and_separate_computations. cbn [app foldM]. unfold separate_step, comp_id, metric_computation_id, derived_computation_id.
    cbn [cp_kind cp_keys sorted bind sp_base sp_derived sp_cross sp_ci]. unfold add_new. cbn [existsb]. unfold id_eqb. cbn [fst ci_class ci_keys ci_preprocessors list_eqb app].
    cbn [existsb fst ci_class ci_keys ci_preprocessors list_eqb app]. rewrite E1, E2. rewrite andb_false_l, andb_false_r. cbn [orb andb]. reflexivity.
  - reflexivity.
  - reflexivity.
Qed.

(** The value of an entry, an absent one being 0. *)

Definition amounts_to (m : list (Qc * list (entry_key * Qc))) (t : Qc) (k : entry_key) (x : Qc) : Prop :=
  lists m t k x \/ (x = 0%Qc /\ forall y, ~ lists m t k y).

Definition mentions (m : list (Qc * list (entry_key * Qc))) (t : Qc) (k : entry_key) : Prop := exists x, lists m t k x.

Lemma mapM_inv {A B} (f : A -> res B) l ys : mapM f l = Ok ys -> Forall2 (fun x y => f x = Ok y) l ys.
Proof.
  revert ys. induction l as [|x l IH]; intros ys E; cbn [mapM] in E.
  - injection E as <-. constructor.
  - destruct (f x) as [y|] eqn:F; [|discriminate]. cbn [bind] in E. destruct (mapM f l) as [ys'|]; [|discriminate].
    cbn [bind] in E. injection E as <-. constructor; auto.
Qed.

Lemma Forall2_In_r {A B} (P : A -> B -> Prop) l m y : Forall2 P l m -> In y m -> exists x, In x l /\ P x y.
Proof.
  induction 1; intros I; [destruct I|]. destruct I as [I|I]; [subst; eexists; split; [left; reflexivity|auto]|].
  destruct (IHForall2 I) as (z & Z & Q). exists z. split; [right|]; auto.
Qed.

Lemma Forall2_In_l {A B} (P : A -> B -> Prop) l m x : Forall2 P l m -> In x l -> exists y, In y m /\ P x y.
Proof.
  induction 1; intros I; [destruct I|]. destruct I as [I|I]; [subst; eexists; split; [left; reflexivity|auto]|].
  destruct (IHForall2 I) as (z & Z & Q). exists z. split; [right|]; auto.
Qed.

Lemma amounts_entry m t k x : unambiguous m -> amounts_to m t k x <-> x = entry_or_0 (row m t) k.
Proof.
  intros W. unfold amounts_to. change (entry_or_0 (row m t) k) with (entry entry_key_eqb 0%Qc m t k).
  pose proof (lists_entry entry_key_eqb 0%Qc entry_key_eqb_eq m t k) as L. split.
  - intros [H|[-> H]]; [apply (L x W) in H; apply H|].
    unfold entry, get. destruct (dget entry_key_eqb (row m t) k) as [y|] eqn:E; [|reflexivity]. exfalso. apply (H y). apply (L y W).
    unfold entry, get. rewrite E. split; [|reflexivity]. apply (dget_In entry_key_eqb entry_key_eqb_eq) in E. apply in_map_iff. exists (k, y). auto.
  - intros ->. destruct (dget entry_key_eqb (row m t) k) as [y|] eqn:E.
    + left. apply (L _ W). split; [|reflexivity]. apply (dget_In entry_key_eqb entry_key_eqb_eq) in E. apply in_map_iff. exists (k, y). auto.
    + right. split; [unfold entry, get; rewrite E; reflexivity|]. intros y H. apply (L y W) in H. destruct H as [H _].
      apply (dget_None entry_key_eqb entry_key_eqb_eq) in E. auto.
Qed.

Lemma mentions_keys m t k : unambiguous m -> mentions m t k <-> In k (map fst (row m t)).
Proof.
  intros W. unfold mentions. split.
  - intros (x & H). apply (lists_entry entry_key_eqb 0%Qc entry_key_eqb_eq m t k x W) in H. apply H.
  - intros H. eexists. apply (lists_entry entry_key_eqb 0%Qc entry_key_eqb_eq m t k _ W). split; [exact H|reflexivity].
Qed.

Lemma C149_elementwise_pf :
  forall (op : Qc -> Qc -> res Qc) a b M,
    unambiguous a -> unambiguous b -> matrices_elementwise op a b = Ok M ->
    unambiguous M /\
    (forall t, In t (map fst M) <-> In t (map fst a) \/ In t (map fst b)) /\
    forall t k v, lists M t k v <->
      (mentions a t k \/ mentions b t k) /\
      exists x y, amounts_to a t k x /\ amounts_to b t k y /\ op x y = Ok v.
Proof.
  intros op a b M Wa Wb E. unfold matrices_elementwise in E. apply mapM_inv in E.
  set (f := fun t => let! r := mapM (fun k => let! v := op (entry_or_0 (row a t) k) (entry_or_0 (row b t) k) in Ok (k, v))
                      (dedup entry_key_eqb (dkeys (row a t) ++ dkeys (row b t))) in Ok (t, r)) in *.
  assert (R : forall t r, f t = Ok r -> fst r = t /\
            Forall2 (fun k kv => fst kv = k /\ op (entry_or_0 (row a t) k) (entry_or_0 (row b t) k) = Ok (snd kv))
              (dedup entry_key_eqb (dkeys (row a t) ++ dkeys (row b t))) (snd r)).
  { intros t r F. unfold f in F. destruct (mapM _ _) as [kvs|] eqn:Q in F; [|discriminate]. cbn [bind] in F. injection F as <-.
    split; [reflexivity|]. apply mapM_inv in Q. cbn [snd]. induction Q as [|k kv ks kvs H Q IH]; constructor; [|exact IH].
    destruct (op _ _) as [v|] in *; [|discriminate]. cbn [bind] in H. injection H as <-. auto. }
  assert (KM : map fst M = dedup Qc_eqb (dkeys a ++ dkeys b)).
  { clear -E R. induction E as [|t r ts M H E IH]; [reflexivity|]. cbn [map]. rewrite IH. f_equal. apply (R t r H). }
  assert (ER : forall t r, In (t, r) M ->
            Forall2 (fun k kv => fst kv = k /\ op (entry_or_0 (row a t) k) (entry_or_0 (row b t) k) = Ok (snd kv))
              (dedup entry_key_eqb (dkeys (row a t) ++ dkeys (row b t))) r).
  { intros t r I. destruct (Forall2_In_r _ _ _ _ E I) as (t' & _ & F). apply R in F. cbn [fst snd] in F. destruct F as [<- F]. exact F. }
  assert (KR : forall t r, In (t, r) M -> map fst r = dedup entry_key_eqb (dkeys (row a t) ++ dkeys (row b t))).
  { intros t r I. specialize (ER t r I). clear -ER. induction ER as [|k kv ks r H E IH]; [reflexivity|]. cbn [map]. rewrite IH. f_equal. apply H. }
  assert (KIn : forall t, In t (map fst M) <-> In t (map fst a) \/ In t (map fst b)).
  { intros t. rewrite KM, (dedup_In Qc_eqb Qc_eqb_eq). unfold dkeys. rewrite in_app_iff. reflexivity. }
  split; [|split; [exact KIn|]].
  - split; [rewrite KM; apply (dedup_NoDup Qc_eqb Qc_eqb_eq)|]. intros t r I. rewrite (KR t r I). apply (dedup_NoDup entry_key_eqb entry_key_eqb_eq).
  - intros t k v. rewrite (mentions_keys a t k Wa), (mentions_keys b t k Wb). split.
    + intros (r & I & J). destruct (Forall2_In_r _ _ _ _ (ER t r I) J) as (k' & K & F & G). cbn [fst snd] in *. subst k'.
      rewrite (dedup_In entry_key_eqb entry_key_eqb_eq) in K. unfold dkeys in K. apply in_app_iff in K. split; [exact K|].
      eexists. eexists. rewrite !amounts_entry by assumption. split; [reflexivity|]. split; [reflexivity|exact G].
    + intros (K & x & y & X & Y & G). apply amounts_entry in X; [|exact Wa]. apply amounts_entry in Y; [|exact Wb]. subst x y.
      assert (T : In t (map fst M)).
      { apply KIn. destruct K as [K|K]; [left|right]; apply (dmem_In Qc_eqb Qc_eqb_eq); unfold dmem; unfold row in K;
          [destruct (dget Qc_eqb a t)|destruct (dget Qc_eqb b t)]; auto; destruct K. }
      apply in_map_iff in T. destruct T as ([t' r] & T & I). cbn [fst] in T. subst t'. exists r. split; [exact I|].
      assert (K' : In k (dedup entry_key_eqb (dkeys (row a t) ++ dkeys (row b t)))).
      { rewrite (dedup_In entry_key_eqb entry_key_eqb_eq). unfold dkeys. apply in_app_iff. exact K. }
      destruct (Forall2_In_l _ _ _ _ (ER t r I) K') as ([k' v'] & J & F & G'). cbn [fst snd] in *. subst k'. rewrite G in G'. injection G' as <-. exact J.
Qed.

Lemma C149_elementwise_defined_pf :
  forall (op : Qc -> Qc -> Qc) a b, exists M, matrices_elementwise (fun x y => Ok (op x y)) a b = Ok M.
Proof.
  intros op a b. unfold matrices_elementwise.
  erewrite mapM_ok; [eexists; reflexivity|]. intros t _. cbn [bind].
  erewrite mapM_ok with (g := fun k => (k, op (entry_or_0 (row a t) k) (entry_or_0 (row b t) k))); [cbn [bind]; reflexivity|]. intros k _. reflexivity.
Qed.

Lemma C149_broadcast_pf :
  forall (op : Qc -> Qc -> res Qc) a c M,
    unambiguous a -> matrices_broadcast op a c = Ok M ->
    unambiguous M /\ map fst M = map fst a /\
    forall t k v, lists M t k v <-> exists x, lists a t k x /\ op x c = Ok v.
Proof.
  intros op a c M [N R] E. unfold matrices_broadcast in E. apply mapM_inv in E.
  assert (E' : Forall2 (fun tr tr' => fst tr' = fst tr /\ Forall2 (fun kv kv' => fst kv' = fst kv /\ op (snd kv) c = Ok (snd kv')) (snd tr) (snd tr')) a M).
  { clear -E. induction E as [|tr tr' a M H E IH]; constructor; [|exact IH].
    destruct (mapM _ _) as [r|] eqn:Q in H; [|discriminate]. cbn [bind] in H. injection H as <-. split; [reflexivity|]. cbn [snd].
    apply mapM_inv in Q. induction Q as [|kv kv' l l' H Q IHQ]; constructor; [|exact IHQ].
    destruct (op (snd kv) c) as [v|] in *; [|discriminate]. cbn [bind] in H. injection H as <-. auto. }
  clear E. rename E' into E.
  assert (KR : forall r r', Forall2 (fun kv kv' : entry_key * Qc => fst kv' = fst kv /\ op (snd kv) c = Ok (snd kv')) r r' -> map fst r' = map fst r).
  { intros r r' F. induction F as [|? ? ? ? [H _]]; [reflexivity|]. cbn [map]. congruence. }
  assert (KM : map fst M = map fst a).
  { clear -E. induction E as [|? ? ? ? [H _]]; [reflexivity|]. cbn [map]. congruence. }
  split; [split|split; [exact KM|]].
  - rewrite KM. exact N.
  - intros t r I. destruct (Forall2_In_r _ _ _ _ E I) as ([t' r'] & I' & T & F). cbn [fst snd] in *. rewrite (KR _ _ F). eapply R. exact I'.
  - intros t k v. split.
    + intros (r & I & J). destruct (Forall2_In_r _ _ _ _ E I) as ([t' r'] & I' & T & F). cbn [fst snd] in *. subst t'.
      destruct (Forall2_In_r _ _ _ _ F J) as ([k' x] & J' & K & O). cbn [fst snd] in *. subst k'. exists x. split; [exists r'; auto|exact O].
    + intros (x & (r & I & J) & O). destruct (Forall2_In_l _ _ _ _ E I) as ([t' r'] & I' & T & F). cbn [fst snd] in *. subst t'.
      destruct (Forall2_In_l _ _ _ _ F J) as ([k' y] & J' & K & O'). cbn [fst snd] in *. subst k'. exists r'. split; [exact I'|].
      rewrite O in O'. injection O' as <-. exact J'.
Qed.

(** The epsilon used to widen the two end points. *)

Definition tiny : Qc := Q2Qc (1 # 10000000).

Definition displays (t shown : Qc) : Prop :=
  (t = - tiny /\ shown = 0 \/ t = 1 + tiny /\ shown = 1 \/ t <> - tiny /\ t <> 1 + tiny /\ shown = t)%Qc.

Definition key_before (a b : entry_key) : Prop := (fst a < fst b \/ fst a = fst b /\ snd a < snd b)%Z.

(** P lists the thresholds of m in ascending order, the entries of each in ascending
    order of (actual, predicted) class. *)

Definition renders {V} (m P : list (Qc * list (entry_key * V))) : Prop :=
  exists ts, Permutation ts (map fst m) /\ StronglySorted Qclt ts /\
    Forall2 (fun t out => displays t (fst out) /\ StronglySorted key_before (map fst (snd out)) /\
                          forall k v, In (k, v) (snd out) <-> lists m t k v) ts P.

Lemma shown_displays t : displays t (shown_threshold t).
Proof.
  unfold displays, shown_threshold, MATRIX_EPSILON. fold tiny. destruct (Qc_eqb t (- tiny)) eqn:A; [apply Qc_eqb_eq in A; auto|].
  apply Qc_eqb_neq in A. destruct (Qc_eqb t (1 + tiny)) eqn:B; [apply Qc_eqb_eq in B; auto|]. apply Qc_eqb_neq in B. auto.
Qed.

Lemma strict_sorted {A} (leb : A -> A -> bool) (lt : A -> A -> Prop) l :
  (forall a b, leb a b = true -> a <> b -> lt a b) -> NoDup l ->
  StronglySorted (fun a b => leb a b = true) l -> StronglySorted lt l.
Proof.
  intros H. induction l as [|x l IH]; intros N G; constructor; inversion N; inversion G; subst; auto.
  apply Forall_forall. intros y Y. rewrite Forall_forall in H7. apply H; [apply H7; exact Y|]. intros ->. contradiction.
Qed.

Lemma flat_map_lookup {V} (r : list (entry_key * V)) ks : (forall k, In k ks -> In k (map fst r)) ->
  map fst (flat_map (fun k => match dget entry_key_eqb r k with Some v => [(k, v)] | None => [] end) ks) = ks.
Proof.
  induction ks as [|k ks IH]; intros H; [reflexivity|]. cbn [flat_map]. destruct (dget entry_key_eqb r k) eqn:E.
  - cbn [app map fst]. rewrite IH; [reflexivity|]. intros k' K. apply H. right. exact K.
  - exfalso. apply (dget_None entry_key_eqb entry_key_eqb_eq) in E. apply E, H. left. reflexivity.
Qed.

Lemma C150_rendering_pf : forall V (m : list (Qc * list (entry_key * V))), unambiguous m -> renders m (table_to_proto m).
Proof.
  intros V m [N R]. exists (py_sorted Qc_leb (dkeys m)).
  assert (P : Permutation (py_sorted Qc_leb (dkeys m)) (map fst m)) by apply py_sorted_perm.
  split; [exact P|]. split.
  - apply (strict_sorted Qc_leb).
    + intros a b L D. apply Qc_leb_le in L. apply Qcle_lt_or_eq in L. destruct L as [L|L]; [exact L|contradiction].
    + apply (Permutation_NoDup (Permutation_sym P)). exact N.
    + apply py_sorted_sorted.
      * intros a b. rewrite Qc_leb_gt, Qc_leb_le. intros A. qc_lra.
      * intros a b c. rewrite !Qc_leb_le. intros A B. qc_lra.
  - unfold table_to_proto. generalize (py_sorted Qc_leb (dkeys m)). intros ts. induction ts as [|t ts IH]; constructor; [|exact IH]. cbn [fst snd].
    split; [apply shown_displays|]. set (r := row m t). set (ks := py_sorted entry_key_leb (dkeys r)).
    assert (RN : NoDup (map fst r)).
    { unfold r, row. destruct (dget Qc_eqb m t) as [r'|] eqn:E; [|constructor]. apply (dget_In Qc_eqb Qc_eqb_eq) in E. eapply R. exact E. }
    assert (KP : Permutation ks (map fst r)) by apply py_sorted_perm.
    assert (KI : forall k, In k ks <-> In k (map fst r)) by (intros k; split; [apply Permutation_in; exact KP|apply Permutation_in; symmetry; exact KP]).
    split.
    + rewrite flat_map_lookup by (intros k K; apply KI; exact K). apply (strict_sorted entry_key_leb).
      * intros [a1 a2] [b1 b2] L D. unfold entry_key_leb, key_before in *. cbn [fst snd] in *. rewrite orb_true_iff, andb_true_iff, Z.ltb_lt, Z.eqb_eq, Z.leb_le in L.
        destruct L as [L|[-> L]]; [auto|]. right. split; [reflexivity|]. assert (a2 <> b2) by congruence. lia.
      * apply (Permutation_NoDup (Permutation_sym KP)). exact RN.
      * apply py_sorted_sorted; unfold entry_key_leb.
        -- intros [a1 a2] [b1 b2]. cbn [fst snd]. rewrite orb_false_iff, andb_false_iff, orb_true_iff, andb_true_iff, !Z.ltb_lt, !Z.ltb_ge, !Z.eqb_eq, Z.eqb_neq, Z.leb_le, Z.leb_gt. lia.
        -- intros [a1 a2] [b1 b2] [c1 c2]. cbn [fst snd]. rewrite !orb_true_iff, !andb_true_iff, !Z.ltb_lt, !Z.eqb_eq, !Z.leb_le. lia.
    + intros k v. rewrite in_flat_map. split.
      * intros (k' & K & I). destruct (dget entry_key_eqb r k') as [v'|] eqn:E; [|destruct I]. destruct I as [I|[]]. injection I as -> ->.
        apply (dget_In entry_key_eqb entry_key_eqb_eq) in E. unfold r, row in E. destruct (dget Qc_eqb m t) as [r'|] eqn:E'; [|destruct E].
        exists r'. split; [apply (dget_In Qc_eqb Qc_eqb_eq); exact E'|exact E].
      * intros (r' & I & J). assert (r = r').
        { unfold r, row. apply (dget_In_NoDup Qc_eqb Qc_eqb_eq _ _ _ N) in I. rewrite I. reflexivity. }
        subst r'. exists k. split; [apply KI, in_map_iff; exists (k, v); auto|].
        apply (dget_In_NoDup entry_key_eqb entry_key_eqb_eq _ _ _ RN) in J. rewrite J. left. reflexivity.
Qed.

Lemma sorted_seq {A} (lt : A -> A -> Prop) (f : nat -> A) n : forall k,
  (forall i j, i < j -> lt (f i) (f j)) -> StronglySorted lt (map f (seq k n)).
Proof.
  induction n as [|n IH]; intros k H; cbn [seq map]; constructor; [apply IH; exact H|].
  apply Forall_forall. intros y Y. apply in_map_iff in Y. destruct Y as (i & <- & I). apply in_seq in I. apply H. lia.
Qed.

Lemma sorted_last {A} (lt : A -> A -> Prop) l z : StronglySorted lt l -> Forall (fun y => lt y z) l -> StronglySorted lt (l ++ [z]).
Proof.
  induction 1 as [|x l H IH F]; intros G; [constructor; constructor|]. inversion G; subst. cbn [app]. constructor; [apply IH; assumption|].
  apply Forall_app. split; [exact F|]. constructor; [assumption|constructor].
Qed.

Lemma C150_even_thresholds_pf :
  forall default n, 2 <= n ->
    exists ts, matrix_thresholds default None (Some n) = Ok ts /\ length ts = n /\ StronglySorted Qclt ts /\
      forall i t, nth_error ts i = Some t -> displays t (qn i / qn (n - 1))%Qc.
Proof.
  intros default n H. eexists. split; [reflexivity|]. unfold MATRIX_EPSILON. fold tiny.
  set (f := fun i => (qn (i + 1) / qn (n - 1))%Qc).
  assert (P : (0 < qn (n - 1))%Qc) by (apply (proj1 (qz_lt 0 (Z.of_nat (n - 1)))); lia).
  assert (U1 : (/ qn (n - 1) * qn (n - 1) = 1)%Qc) by (apply Qcmult_inv_l; apply Qclt_not_eq' in P; congruence).
  assert (U : (0 < / qn (n - 1))%Qc).
  { pose proof (Qcdiv_nonneg 1 (qn (n - 1)) ltac:(qc_lra) P) as Q. unfold Qcdiv in Q. rewrite Qcmult_1_l in Q.
    apply Qcle_lt_or_eq in Q. destruct Q as [Q|Q]; [exact Q|]. rewrite <- Q in U1. rewrite Qcmult_0_l in U1. discriminate. }
  assert (F : forall i j, i < j -> (qn i / qn (n - 1) < qn j / qn (n - 1))%Qc).
  { intros i j I. unfold Qcdiv. apply Qcmult_lt_compat_r; [exact U|]. apply (proj1 (qz_lt (Z.of_nat i) (Z.of_nat j))). lia. }
  assert (Z0 : (qn 0 / qn (n - 1) = 0)%Qc) by (unfold Qcdiv; change (qn 0) with 0%Qc; ring).
  assert (Z1 : (qn (n - 1) / qn (n - 1) = 1)%Qc) by (unfold Qcdiv; rewrite Qcmult_comm; exact U1).
  assert (T : (0 < tiny)%Qc) by reflexivity.
  assert (M : forall y, In y (map f (seq 0 (n - 2))) -> (0 < y /\ y < 1)%Qc).
  { intros y Y. apply in_map_iff in Y. destruct Y as (i & <- & I). apply in_seq in I. unfold f.
    pose proof (F 0 (i + 1) ltac:(lia)) as A. pose proof (F (i + 1) (n - 1) ltac:(lia)) as B. rewrite Z0 in A. rewrite Z1 in B. auto. }
  split; [|split].
  - rewrite !app_length, map_length, seq_length. cbn [length]. lia.
  - cbn [app]. constructor.
    + apply sorted_last; [apply sorted_seq; intros i j I; apply F; lia|]. apply Forall_forall. intros y Y. destruct (M y Y). qc_lra.
    + apply Forall_app. split; [apply Forall_forall; intros y Y; destruct (M y Y); qc_lra|]. constructor; [qc_lra|constructor].
  - intros i t E. destruct i as [|i]; cbn [app nth_error] in E.
    + injection E as <-. left. auto.
    + destruct (Nat.lt_ge_cases i (n - 2)) as [I|I].
      * rewrite nth_error_app1 in E by (rewrite map_length, seq_length; exact I).
        assert (Y : In t (map f (seq 0 (n - 2)))) by (eapply nth_error_In; exact E).
        rewrite nth_error_map, (nth_error_nth' (seq 0 (n - 2)) 0) in E by (rewrite seq_length; exact I). rewrite seq_nth in E by exact I. cbn [option_map] in E.
        injection E as E. unfold f in E. destruct (M t Y). right; right. split; [intros ->; qc_lra|]. split; [intros ->; qc_lra|].
        rewrite <- E. f_equal. f_equal. lia.
      * rewrite nth_error_app2 in E by (rewrite map_length, seq_length; exact I). rewrite map_length, seq_length in E.
        destruct (i - (n - 2)) as [|d] eqn:D; cbn [nth_error] in E; [|destruct d; discriminate]. injection E as <-. right; left.
        split; [reflexivity|]. replace (S i) with (n - 1) by lia. exact Z1.
Qed.

Lemma C150_one_threshold_refuted_pf :
  exists ts, matrix_thresholds 0%Qc None (Some 1) = Ok ts /\ length ts = 2.
Proof. eexists. split; reflexivity. Qed.

(** An example: which of the classes 0 .. n-1 apply, a score per class, its weight. *)

Record multilabel := MultiLabel { ml_has : nat -> bool; ml_scores : list Qc; ml_weight : Qc }.

Definition multilabelled (weighted : bool) (m o : string) (e : inputs_dict) (x : multilabel) : Prop :=
  exists labels, carries weighted m o e (Reading labels (map Fin (ml_scores x)) [ml_weight x]) /\
    1 < length (ml_scores x) /\
    (length labels = length (ml_scores x) /\ (forall i y, nth_error labels i = Some y -> (ml_has x i = true <-> y <> 0%Qc)) \/
     exists c, labels = [qn c] /\ c < length (ml_scores x) /\ forall i, i < length (ml_scores x) -> (ml_has x i = true <-> i = c)).

(** The example has class a; c is one of the classes; c applies or not; its score
    exceeds t or not. *)

Definition involves (a c : nat) (x : multilabel) : bool :=
  Nat.ltb a (length (ml_scores x)) && Nat.ltb c (length (ml_scores x)) && ml_has x a.

Definition picks (a c : nat) (t : Qc) (has exceeds : bool) (x : multilabel) : bool :=
  involves a c x && Bool.eqb (ml_has x c) has && Bool.eqb (Qc_ltb t (nth c (ml_scores x) 0%Qc)) exceeds.

Definition weight_where (P : multilabel -> bool) (D : list multilabel) : Qc := qsum (map ml_weight (filter P D)).

Lemma cell_assoc a b c : cell_plus a (cell_plus b c) = cell_plus (cell_plus a b) c.
Proof. unfold cell_plus. cbn [cell_fn cell_tn cell_fp cell_tp]. f_equal; ring. Qed.

Lemma cell_0_l a : cell_plus cell_zero a = a.
Proof. destruct a as [x1 x2 x3 x4]. unfold cell_plus, cell_zero. cbn [cell_fn cell_tn cell_fp cell_tp]. f_equal; ring. Qed.

Lemma cell_0_r a : cell_plus a cell_zero = a.
Proof. destruct a as [x1 x2 x3 x4]. unfold cell_plus, cell_zero. cbn [cell_fn cell_tn cell_fp cell_tp]. f_equal; ring. Qed.

Section LabelSteps.
  Variables (labels : list Qc) (preds : list num) (w : Qc).
  Definition pair_entries (t : Qc) : list (entry_key * cell) :=
    flat_map (fun a => map (fun c => ((Z.of_nat a, Z.of_nat c), label_cell (nth c labels 0%Qc) (nth c preds NaN) t w)) (seq 0 (length preds)))
      (filter (fun a => truthy (nth a labels 0%Qc)) (seq 0 (length labels))).
  Definition label_steps (ts : list Qc) : list (step (K:=entry_key) (V:=cell)) :=
    flat_map (fun t => (t, None) :: map (fun kv => (t, Some kv)) (pair_entries t)) ts.

  Lemma label_steps_apply ts : forall acc,
    fold_left (fun acc t => fold_left (multi_label_row labels preds w t)
        (filter (fun a => truthy (nth a labels 0%Qc)) (seq 0 (length labels))) (open_row acc t)) ts acc =
    apply_steps entry_key_eqb cell_plus acc (label_steps ts).
  Proof.
    induction ts as [|t ts IH]; intros acc; [reflexivity|]. cbn [fold_left]. rewrite IH. unfold label_steps at 2. cbn [flat_map app].
    unfold apply_steps. cbn [fold_left]. rewrite fold_left_app. fold (label_steps ts). f_equal.
    change (apply_step entry_key_eqb cell_plus acc (t, None)) with (open_row acc t). generalize (open_row acc t). unfold pair_entries. clear IH.
    induction (filter (fun a => truthy (nth a labels 0%Qc)) (seq 0 (length labels))) as [|a l IHl]; intros acc'; [reflexivity|].
    cbn [fold_left flat_map]. rewrite map_app, fold_left_app, IHl. f_equal. unfold multi_label_row. clear IHl. revert acc'.
    induction (seq 0 (length preds)) as [|c cs IHc]; intros acc''; [reflexivity|]. cbn [fold_left map]. apply IHc.
  Qed.

  Lemma label_entries ts t : NoDup ts ->
    step_entries t (label_steps ts) = if memb Qc_eqb t ts then pair_entries t else [].
  Proof.
    induction ts as [|t1 ts IH]; intros N; [reflexivity|]. inversion N; subst. unfold label_steps. cbn [flat_map app memb]. fold (label_steps ts).
    unfold step_entries. cbn [flat_map fst snd]. rewrite flat_map_app. fold (step_entries t (label_steps ts)). rewrite IH by auto.
    destruct (Qc_eqb t t1) eqn:E; cbn [app orb].
    - apply Qc_eqb_eq in E. subst t1. rewrite (proj2 (memb_nIn Qc_eqb Qc_eqb_eq t ts)) by auto. rewrite app_nil_r. clear.
      induction (pair_entries t) as [|kv l IHl]; [reflexivity|]. cbn [map flat_map fst snd]. rewrite Qc_eqb_refl. cbn [app]. rewrite IHl. reflexivity.
    - replace (flat_map _ (map (fun kv => (t1, Some kv)) (pair_entries t1))) with (@nil (entry_key * cell)); [reflexivity|]. clear -E.
      induction (pair_entries t1) as [|kv l IHl]; [reflexivity|]. cbn [map flat_map fst snd]. rewrite E. exact IHl.
  Qed.
  Lemma label_step_keys ts t : In t (map fst (label_steps ts)) <-> In t ts.
  Proof.
    unfold label_steps. induction ts as [|t1 ts IH]; [reflexivity|]. cbn [flat_map app map fst In]. rewrite map_app, in_app_iff, IH, map_map. cbn [fst].
    split; [|tauto]. intros [H|[H|H]]; auto. apply in_map_iff in H. destruct H as (? & H & _). auto.
  Qed.

  Lemma pair_entries_In t k v : In (k, v) (pair_entries t) <->
    exists a c, k = (Z.of_nat a, Z.of_nat c) /\ a < length labels /\ c < length preds /\ truthy (nth a labels 0%Qc) = true /\
      v = label_cell (nth c labels 0%Qc) (nth c preds NaN) t w.
  Proof.
    unfold pair_entries. rewrite in_flat_map. split.
    - intros (a & A & I). apply filter_In in A. destruct A as [A T]. apply in_seq in A. apply in_map_iff in I. destruct I as (c & E & C).
      apply in_seq in C. injection E as <- <-. exists a, c. repeat split; auto; lia.
    - intros (a & c & -> & A & C & T & ->). exists a. split; [apply filter_In; split; [apply in_seq; lia|exact T]|].
      apply in_map_iff. exists c. split; [reflexivity|]. apply in_seq. lia.
  Qed.
  Lemma pair_entries_NoDup t : NoDup (map fst (pair_entries t)).
  Proof.
    unfold pair_entries. assert (N : NoDup (filter (fun a => truthy (nth a labels 0%Qc)) (seq 0 (length labels)))) by (apply NoDup_filter, seq_NoDup).
    revert N. generalize (filter (fun a => truthy (nth a labels 0%Qc)) (seq 0 (length labels))). induction l as [|a l IH]; intros N; [constructor|].
    inversion N; subst. cbn [flat_map]. rewrite map_app, map_map. cbn [fst]. apply NoDup_app.
    - apply NoDup_map_inj; [|apply seq_NoDup]. intros c d _ _ E. injection E as E. lia.
    - apply IH. assumption.
    - intros k I J. apply in_map_iff in I. destruct I as (c & <- & _). apply in_map_iff in J. destruct J as ([k' v] & E & J). cbn [fst] in E. subst k'.
      apply in_flat_map in J. destruct J as (a' & A' & J). apply in_map_iff in J. destruct J as (c' & E & _). injection E as E _ _.
      apply Nat2Z.inj in E. subst a'. contradiction.
  Qed.

End LabelSteps.

Lemma truthy_iff y : truthy y = true <-> y <> 0%Qc.
Proof. unfold truthy. rewrite negb_true_iff, Qc_eqb_neq. reflexivity. Qed.

Lemma one_hot_class c n : c < n ->
  one_hot [qn c] n = Ok (map (fun i => if Nat.eqb i c then 1%Qc else 0%Qc) (seq 0 n)).
Proof.
  intros H. unfold one_hot. cbn [mapM]. unfold eye_row, qn. rewrite qz_trunc.
  destruct (Z.of_nat c <? 0)%Z eqn:A; [apply Z.ltb_lt in A; lia|]. rewrite A.
  destruct (Z.of_nat (S n) <=? Z.of_nat c)%Z eqn:B; [apply Z.leb_le in B; lia|]. cbn [orb bind]. rewrite Nat2Z.id. reflexivity.
Qed.

(** The labels the combiner works with. *)

Definition dense_labels (x : multilabel) : list Qc := map (fun i => if ml_has x i then 1%Qc else 0%Qc) (seq 0 (length (ml_scores x))).

Lemma dense_length x : length (dense_labels x) = length (ml_scores x).
Proof. unfold dense_labels. rewrite map_length, seq_length. reflexivity. Qed.

Lemma dense_truthy x i : i < length (dense_labels x) -> truthy (nth i (dense_labels x) 0%Qc) = ml_has x i.
Proof.
  rewrite dense_length. intros I. unfold dense_labels. rewrite (nth_indep _ 0%Qc (if ml_has x 0 then 1%Qc else 0%Qc)) by (rewrite map_length, seq_length; exact I).
  rewrite (map_nth (fun i => if ml_has x i then 1%Qc else 0%Qc)), seq_nth by exact I. cbn [Nat.add]. destruct (ml_has x i); reflexivity.
Qed.

Lemma pair_entries_truth labels labels' preds w t :
  length labels = length preds -> length labels' = length preds ->
  (forall i, i < length preds -> truthy (nth i labels 0%Qc) = truthy (nth i labels' 0%Qc)) ->
  pair_entries labels preds w t = pair_entries labels' preds w t.
Proof.
  intros A B H. unfold pair_entries. rewrite A, B.
  replace (filter (fun a => truthy (nth a labels 0%Qc)) (seq 0 (length preds))) with (filter (fun a => truthy (nth a labels' 0%Qc)) (seq 0 (length preds))).
  - rewrite !flat_map_concat_map. f_equal. apply map_ext. intros a. apply map_ext_in. intros c C. apply in_seq in C.
    unfold label_cell. rewrite (H c) by lia. reflexivity.
  - apply filter_ext_in. intros a I. apply in_seq in I. symmetry. apply H. lia.
Qed.

Lemma multi_label_add_steps ap ts weighted lk pk m o e x a : multilabelled weighted m o e x ->
  multi_label_add ap ts weighted lk pk m o a e =
  Ok (apply_steps entry_key_eqb cell_plus a (label_steps (dense_labels x) (map Fin (ml_scores x)) (ml_weight x) ts)).
Proof.
  intros (labels & C & L & H).
  assert (G : exists labels', length labels' = length (ml_scores x) /\
    (forall i, i < length labels' -> truthy (nth i labels' 0%Qc) = ml_has x i) /\
    multi_label_add ap ts weighted lk pk m o a e =
      Ok (apply_steps entry_key_eqb cell_plus a (label_steps labels' (map Fin (ml_scores x)) (ml_weight x) ts))).
  { unfold multi_label_add. rewrite (matrix_tuple ap weighted lk pk m o e _ _ _ C).
    cbn [bind first_tuple multi_label_of]. rewrite !map_length.
    destruct (Nat.leb (length (ml_scores x)) 1) eqn:B; [apply Nat.leb_le in B; lia|].
    destruct H as [[E H]|(c & -> & CL & H)].
    - exists labels. split; [exact E|]. split.
      + intros i I. destruct (nth_error labels i) as [y|] eqn:N; [|apply nth_error_None in N; lia].
        rewrite (nth_error_nth labels i 0%Qc N). specialize (H i y N). apply Bool.eq_true_iff_eq. rewrite truthy_iff. symmetry. exact H.
      + rewrite E, Nat.eqb_refl. cbn [bind scalar]. rewrite label_steps_apply. reflexivity.
    - set (l := map (fun i => if Nat.eqb i c then 1%Qc else 0%Qc) (seq 0 (length (ml_scores x)))).
      assert (LL : length l = length (ml_scores x)) by (unfold l; rewrite map_length, seq_length; reflexivity).
      exists l. split; [exact LL|]. split.
      + rewrite LL. intros i I. unfold l. rewrite (nth_indep _ 0%Qc (if Nat.eqb 0 c then 1%Qc else 0%Qc)) by (rewrite map_length, seq_length; exact I).
        rewrite (map_nth (fun i => if Nat.eqb i c then 1%Qc else 0%Qc)), seq_nth by exact I. cbn [Nat.add]. apply Bool.eq_true_iff_eq. rewrite (H i I), truthy_iff.
        destruct (Nat.eqb i c) eqn:Q; [apply Nat.eqb_eq in Q; subst; split; intros _; [reflexivity|exact Q_apart_0_1]|].
        apply Nat.eqb_neq in Q. split; [congruence|contradiction].
      + cbn [length]. destruct (Nat.eqb 1 (length (ml_scores x))) eqn:Q; [apply Nat.eqb_eq in Q; lia|].
        rewrite one_hot_class by exact CL. fold l. cbn [bind scalar]. rewrite label_steps_apply. reflexivity. }
  destruct G as (l & LL & T & ->). f_equal. f_equal. unfold label_steps. rewrite !flat_map_concat_map. f_equal. apply map_ext. intros t. f_equal. f_equal.
  apply pair_entries_truth; rewrite ?map_length; [exact LL|apply dense_length|]. intros i I. rewrite T by lia. rewrite dense_truthy by (rewrite dense_length; exact I). reflexivity.
Qed.

Lemma row_value_flat {K V I} keqb (plus : V -> V -> V) zero (assoc : forall a b c, plus a (plus b c) = plus (plus a b) c) (z_l : forall a, plus zero a = a)
    (f : I -> list (K * V)) l k :
  row_value keqb plus zero (flat_map f l) k = vsum plus zero (map (fun e => row_value keqb plus zero (f e) k) l).
Proof.
  induction l as [|e l IH]; [reflexivity|]. cbn [flat_map map]. rewrite (row_value_app keqb plus zero assoc z_l), IH. reflexivity.
Qed.

Lemma vsum_cell (l : list cell) : vsum cell_plus cell_zero l =
  Cell (qsum (map cell_fn l)) (qsum (map cell_tn l)) (qsum (map cell_fp l)) (qsum (map cell_tp l)).
Proof. induction l as [|x l IH]; [reflexivity|]. unfold vsum in *. cbn [fold_right map]. rewrite IH. reflexivity. Qed.

Lemma pair_value labels x a c t :
  length labels = length (ml_scores x) -> (forall i, i < length labels -> truthy (nth i labels 0%Qc) = ml_has x i) ->
  row_value entry_key_eqb cell_plus cell_zero (pair_entries labels (map Fin (ml_scores x)) (ml_weight x) t) (Z.of_nat a, Z.of_nat c) =
    Cell (if picks a c t true false x then ml_weight x else 0%Qc) (if picks a c t false false x then ml_weight x else 0%Qc)
         (if picks a c t false true x then ml_weight x else 0%Qc) (if picks a c t true true x then ml_weight x else 0%Qc).
Proof.
  intros E H. rewrite (row_value_NoDup entry_key_eqb cell_plus cell_zero entry_key_eqb_eq cell_0_r _ _ (pair_entries_NoDup _ _ _ t)).
  unfold get. destruct (dget entry_key_eqb _ _) as [v|] eqn:D.
  - apply (dget_In entry_key_eqb entry_key_eqb_eq) in D. apply pair_entries_In in D. destruct D as (a' & c' & K & A & C & T & ->).
    injection K as KA KC. apply Nat2Z.inj in KA. apply Nat2Z.inj in KC. subst a' c'. rewrite map_length in C.
    unfold picks, involves. rewrite <- E in *. rewrite (proj2 (Nat.ltb_lt _ _) A), (proj2 (Nat.ltb_lt _ _) C). rewrite (H a A) in T. rewrite T.
    cbn [andb]. rewrite <- (H c C). rewrite (nth_indep (map Fin (ml_scores x)) NaN (Fin 0%Qc)) by (rewrite map_length, <- E; exact C). rewrite (map_nth Fin).
    unfold label_cell, times_bool. cbn [num_leb num_ltb]. unfold Qc_ltb. destruct (truthy (nth c labels 0%Qc)), (Qc_leb (nth c (ml_scores x) 0%Qc) t); reflexivity.
  - assert (I : involves a c x = false).
    { destruct (involves a c x) eqn:I; [|reflexivity]. exfalso. unfold involves in I. rewrite !andb_true_iff, !Nat.ltb_lt in I. destruct I as [[A C] T].
      apply (dget_None entry_key_eqb entry_key_eqb_eq) in D. apply D. apply in_map_iff.
      exists ((Z.of_nat a, Z.of_nat c), label_cell (nth c labels 0%Qc) (nth c (map Fin (ml_scores x)) NaN) t (ml_weight x)). split; [reflexivity|].
      apply pair_entries_In. exists a, c. rewrite map_length, E. rewrite (H a) by (rewrite E; exact A). auto. }
    unfold picks. rewrite I. reflexivity.
Qed.

Lemma pair_keys labels x k t :
  length labels = length (ml_scores x) -> (forall i, i < length labels -> truthy (nth i labels 0%Qc) = ml_has x i) ->
  In k (map fst (pair_entries labels (map Fin (ml_scores x)) (ml_weight x) t)) <->
  exists a c, k = (Z.of_nat a, Z.of_nat c) /\ involves a c x = true.
Proof.
  intros E H. rewrite in_map_iff. split.
  - intros ([k' v] & <- & I). apply pair_entries_In in I. destruct I as (a & c & K & A & C & T & _). exists a, c. split; [exact K|].
    rewrite map_length in C. rewrite (H a A) in T. unfold involves. rewrite T, <- E in *. rewrite (proj2 (Nat.ltb_lt _ _) A), (proj2 (Nat.ltb_lt _ _) C). reflexivity.
  - intros (a & c & -> & I). unfold involves in I. rewrite !andb_true_iff, !Nat.ltb_lt in I. destruct I as [[A C] T].
    eexists (_, _). split; [reflexivity|]. apply pair_entries_In. exists a, c. rewrite map_length, E. rewrite (H a) by (rewrite E; exact A). auto.
Qed.

Lemma qsum_if {A} (f : A -> Qc) (p : A -> bool) l : qsum (map (fun x => if p x then f x else 0%Qc) l) = qsum (map f (filter p l)).
Proof. apply qsum_map_if. Qed.

Lemma C151_multi_label_matrices_pf :
  forall ap ts weighted lk pk m o s x,
    NoDup ts -> inputs s <> [] ->
    (forall e, In e (inputs s) -> multilabelled weighted m o e (x e)) ->
    exists M P, outcome (multi_label_combiner ap ts weighted lk pk m o) s = Ok P /\ renders M P /\
      unambiguous M /\
      (forall t, In t (map fst M) <-> In t ts) /\
      forall t, In t ts -> forall k v,
        lists M t k v <->
        exists a c, k = (Z.of_nat a, Z.of_nat c) /\
          let D := map x (inputs s) in
          (exists y, In y D /\ involves a c y = true) /\
          v = Cell (weight_where (picks a c t true false) D) (weight_where (picks a c t false false) D)
                   (weight_where (picks a c t false true) D) (weight_where (picks a c t true true) D).
Proof.
  intros ap ts weighted lk pk m o s x N NE H.
  set (U := fun e => label_steps (dense_labels (x e)) (map Fin (ml_scores (x e))) (ml_weight (x e)) ts).
  destruct (represents_run entry_key_eqb cell_plus cell_zero entry_key_eqb_eq cell_assoc cell_0_l cell_0_r
              (multi_label_add ap ts weighted lk pk m o) (fun a => Ok (table_to_proto a)) U s) as (M & R & W & E & KT & KR).
  { intros e He a. unfold U. exact (multi_label_add_steps ap ts weighted lk pk m o e (x e) a (H e He)). }
  change (run (multi_label_combiner ap ts weighted lk pk m o) s = Ok M) in R.
  exists M, (table_to_proto M). split; [unfold outcome; rewrite R; reflexivity|]. split; [apply C150_rendering_pf; exact W|]. split; [exact W|]. split.
  - intros t. rewrite KT, in_map_iff. split.
    + intros (st & <- & I). apply in_flat_map in I. destruct I as (e & He & I).
      apply (label_step_keys (dense_labels (x e)) (map Fin (ml_scores (x e))) (ml_weight (x e)) ts). apply in_map. exact I.
    + intros I. destruct (inputs s) as [|e l]; [congruence|].
      apply (label_step_keys (dense_labels (x e)) (map Fin (ml_scores (x e))) (ml_weight (x e)) ts) in I. apply in_map_iff in I.
      destruct I as (st & F & I). exists st. split; [exact F|]. cbn [flat_map]. apply in_app_iff. left. exact I.
  - intros t T k v.
    assert (SE : step_entries t (flat_map U (inputs s)) =
                 flat_map (fun e => pair_entries (dense_labels (x e)) (map Fin (ml_scores (x e))) (ml_weight (x e)) t) (inputs s)).
    { rewrite step_entries_flat, !flat_map_concat_map. f_equal. apply map_ext. intros e. unfold U. rewrite label_entries by exact N.
      rewrite (proj2 (memb_In Qc_eqb Qc_eqb_eq t ts) T). reflexivity. }
    rewrite (lists_entry entry_key_eqb cell_zero entry_key_eqb_eq M t k v W), E, KR. unfold value_at. rewrite SE.
    assert (KK : In k (map fst (flat_map (fun e => pair_entries (dense_labels (x e)) (map Fin (ml_scores (x e))) (ml_weight (x e)) t) (inputs s))) <->
                 exists a c, k = (Z.of_nat a, Z.of_nat c) /\ exists y, In y (map x (inputs s)) /\ involves a c y = true).
    { split.
      - intros I. apply in_map_iff in I. destruct I as (kv & F & I). apply in_flat_map in I. destruct I as (e & He & I).
        apply (in_map fst) in I. rewrite F in I. apply pair_keys in I; [|apply dense_length|apply dense_truthy].
        destruct I as (a & c & K & I). exists a, c. split; [exact K|]. exists (x e). split; [apply in_map; exact He|exact I].
      - intros (a & c & K & y & Y & I). apply in_map_iff in Y. destruct Y as (e & <- & He).
        assert (J : In k (map fst (pair_entries (dense_labels (x e)) (map Fin (ml_scores (x e))) (ml_weight (x e)) t))).
        { apply pair_keys; [apply dense_length|apply dense_truthy|]. exists a, c. auto. }
        apply in_map_iff in J. destruct J as (kv & F & J). apply in_map_iff. exists kv. split; [exact F|]. apply in_flat_map. exists e. auto. }
    assert (VV : forall a c, row_value entry_key_eqb cell_plus cell_zero
               (flat_map (fun e => pair_entries (dense_labels (x e)) (map Fin (ml_scores (x e))) (ml_weight (x e)) t) (inputs s)) (Z.of_nat a, Z.of_nat c) =
               Cell (weight_where (picks a c t true false) (map x (inputs s))) (weight_where (picks a c t false false) (map x (inputs s)))
                    (weight_where (picks a c t false true) (map x (inputs s))) (weight_where (picks a c t true true) (map x (inputs s)))).
    { intros a c. rewrite (row_value_flat entry_key_eqb cell_plus cell_zero cell_assoc cell_0_l), vsum_cell, !map_map.
      unfold weight_where. rewrite <- !qsum_if, !map_map.
      f_equal; f_equal; apply map_ext; intros e; rewrite pair_value by (apply dense_length || apply dense_truthy); reflexivity. }
    rewrite KK. split.
    + intros [(a & c & -> & Y) ->]. exists a, c. split; [reflexivity|]. cbn zeta. split; [exact Y|]. apply VV.
    + intros (a & c & -> & Y & ->). split; [exists a, c; auto|]. symmetry. apply VV.
Qed.

(** Two examples of three classes: the second gives its single class by its number. *)

Definition both_kinds : list inputs_dict :=
  [InputsDict (Some (Leaf [1%Qc; 0%Qc; 1%Qc])) (Some (Leaf [Fin (Q2Qc (9#10)); Fin (Q2Qc (6#10)); Fin (Q2Qc (2#10))])) None;
   InputsDict (Some (Leaf [qz 1])) (Some (Leaf [Fin (Q2Qc (1#10)); Fin (Q2Qc (7#10)); Fin (Q2Qc (3#10))])) None].

Definition one_cell (fn tn fp tp : Z) : cell := Cell (qz fn) (qz tn) (qz fp) (qz tp).

Lemma both_kinds_run :
  outcome (multi_label_combiner ap_sort [Q2Qc (1#2)] false "" "" "" "") (Merge (Bundle both_kinds) [Bundle both_kinds]) =
  Ok [(Q2Qc (1#2),
       [((0, 0)%Z, one_cell 0 0 0 2); ((0, 1)%Z, one_cell 0 0 2 0); ((0, 2)%Z, one_cell 2 0 0 0);
        ((1, 0)%Z, one_cell 0 2 0 0); ((1, 1)%Z, one_cell 0 0 0 2); ((1, 2)%Z, one_cell 0 2 0 0);
        ((2, 0)%Z, one_cell 0 0 0 2); ((2, 1)%Z, one_cell 0 0 2 0); ((2, 2)%Z, one_cell 2 0 0 0)])].
Proof. qc_ex. Qed.

Lemma C151_repeated_threshold_refuted_pf :
  exists ts e x t P,
    In t ts /\ multilabelled false "" "" e x /\ ml_weight x = 1%Qc /\
    outcome (multi_label_combiner ap_sort ts false "" "" "" "") (Bundle [e]) = Ok P /\
    lists P t (0, 0)%Z (one_cell 0 0 0 2).
Proof.
  exists [Q2Qc (1#2); Q2Qc (1#2)], (InputsDict (Some (Leaf [1%Qc; 0%Qc])) (Some (Leaf [Fin (Q2Qc (9#10)); Fin (Q2Qc (6#10))])) None),
    (MultiLabel (fun i => Nat.eqb i 0) [Q2Qc (9#10); Q2Qc (6#10)] 1%Qc), (Q2Qc (1#2)),
    [(Q2Qc (1#2), [((0, 0)%Z, one_cell 0 0 0 2); ((0, 1)%Z, one_cell 0 0 2 0)])].
  split; [left; reflexivity|]. split; [|split; [reflexivity|split; [qc_ex|]]].
  - exists [1%Qc; 0%Qc]. split; [|split; [cbn; lia|]].
    + split; [reflexivity|]. split; [|reflexivity]. eexists. eexists. split; [reflexivity|]. split; reflexivity.
    + left. split; [reflexivity|]. intros [|[|[|i]]] y E; cbn in E; try discriminate; injection E as <-; cbn [ml_has Nat.eqb].
      * split; [intros _; exact Q_apart_0_1|reflexivity].
      * split; [discriminate|contradiction].
  - eexists. split; [left; reflexivity|left; reflexivity].
Qed.

(** A refused input makes the whole combination fail. *)

(** Two images of the same size; the pixels at the same places: truth and prediction. *)

Definition same_size (g p : list (list Z)) : Prop := exists w, Forall2 (fun r r' => length r = w /\ length r' = w) g p.

Definition places (g p : list (list Z)) : list (Z * Z) := flat_map (fun rr => combine (fst rr) (snd rr)) (combine g p).

Definition segmented (e : segmentation) (D : list (Z * Z)) : Prop :=
  exists g p, s_truth e = Image g /\ s_predicted e = Image p /\ same_size g p /\ D = places g p.

Definition tally (f : Z -> Z -> bool) (D : list (Z * Z)) : nat := length (filter (fun gp => f (fst gp) (snd gp)) D).

Definition is_class (c z : Z) : bool := Z.eqb z c.

Definition ignored (ignore : option Z) (z : Z) : bool := match ignore with Some i => Z.eqb z i | None => false end.

Definition tallied (ignore : option Z) (c : Z) (v : pixels) (D : list (Z * Z)) : Prop :=
  p_tp v = tally (fun a b => is_class c a && is_class c b) D /\
  p_fn v = tally (fun a b => is_class c a && negb (is_class c b)) D /\
  p_fp v = tally (fun a b => negb (is_class c a) && is_class c b && negb (ignored ignore a)) D /\
  p_tn v = tally (fun a b => negb (is_class c a) && negb (is_class c b) && negb (ignored ignore a)) D.

Definition pixels_zero : pixels := Pixels 0 0 0 0.

Lemma pixels_assoc a b c : pixels_plus a (pixels_plus b c) = pixels_plus (pixels_plus a b) c.
Proof. unfold pixels_plus. cbn [p_tp p_tn p_fp p_fn]. f_equal; lia. Qed.

Lemma pixels_0_l a : pixels_plus pixels_zero a = a.
Proof. destruct a as [x1 x2 x3 x4]. reflexivity. Qed.

Lemma pixels_0_r a : pixels_plus a pixels_zero = a.
Proof. destruct a as [x1 x2 x3 x4]. unfold pixels_plus, pixels_zero. cbn [p_tp p_tn p_fp p_fn]. f_equal; lia. Qed.

Lemma places_flat g p : same_size g p -> combine (concat g) (concat p) = places g p.
Proof.
  intros [w H]. induction H as [|r r' g p [A B] H IH]; [reflexivity|]. unfold places in *. cbn [concat combine flat_map fst snd]. rewrite <- IH.
  clear IH H. assert (L : length r = length r') by congruence. clear A B. revert r' L. induction r as [|x r IH]; intros [|y r'] L; try discriminate; [reflexivity|].
  cbn [app combine]. f_equal. apply IH. injection L as L. exact L.
Qed.

Lemma same_size_shape g p : same_size g p -> shape g = shape p.
Proof.
  intros [w H]. unfold shape. f_equal; [induction H; cbn [length]; congruence|]. destruct H as [|r r' g p [A B] H]; congruence.
Qed.

Definition pixel_counts ignore D c : pixels :=
  Pixels (tally (fun a b => is_class c a && is_class c b) D) (tally (fun a b => negb (is_class c a) && negb (is_class c b) && negb (ignored ignore a)) D)
         (tally (fun a b => negb (is_class c a) && is_class c b && negb (ignored ignore a)) D) (tally (fun a b => is_class c a && negb (is_class c b)) D).

Lemma tally_app f a b : tally f (a ++ b) = tally f a + tally f b.
Proof. unfold tally. rewrite filter_app', app_length. reflexivity. Qed.

Lemma tally_ext f g D : (forall a b, f a b = g a b) -> tally f D = tally g D.
Proof. intros H. unfold tally. f_equal. apply filter_ext. intros x. apply H. Qed.

Lemma class_pixels_counts ignore g p c : same_size g p -> class_pixels ignore g p c = pixel_counts ignore (places g p) c.
Proof.
  intros H. unfold class_pixels, count_pixels. rewrite (places_flat g p H).
  assert (N : forall a, not_ignored ignore a = negb (ignored ignore a)) by (intros a; destruct ignore; reflexivity).
  unfold pixel_counts, tally, is_class. f_equal; f_equal; apply filter_ext; intros [a b]; cbn [fst snd]; rewrite ?N; reflexivity.
Qed.

Lemma pixel_counts_app ignore a b c : pixel_counts ignore (a ++ b) c = pixels_plus (pixel_counts ignore a c) (pixel_counts ignore b c).
Proof. unfold pixel_counts, pixels_plus. cbn [p_tp p_tn p_fp p_fn]. rewrite !tally_app. reflexivity. Qed.

Lemma segmentation_add_steps ids ignore e D a : segmented e D ->
  segmentation_add ids ignore a e = Ok (row_plus Z.eqb pixels_plus a (map (fun c => (c, pixel_counts ignore D c)) ids)).
Proof.
  intros (g & p & A & B & SS & ->). unfold segmentation_add. rewrite A, B, (same_size_shape g p SS), !Nat.eqb_refl. cbn [andb]. f_equal.
  unfold row_plus. revert a. induction ids as [|c ids IH]; intros a; [reflexivity|]. cbn [fold_left map fst snd]. rewrite (class_pixels_counts ignore g p c SS). apply IH.
Qed.

Definition seg_rep ids ignore (D : segmentation -> list (Z * Z)) (T : list (Z * pixels)) (l : list segmentation) : Prop :=
  NoDup (map fst T) /\ (forall c, In c (map fst T) <-> l <> [] /\ In c ids) /\
  forall c, In c ids -> get Z.eqb pixels_zero T c = pixel_counts ignore (flat_map D l) c.

Lemma row_value_ids ids (f : Z -> pixels) c : NoDup ids -> In c ids ->
  row_value Z.eqb pixels_plus pixels_zero (map (fun c => (c, f c)) ids) c = f c.
Proof.
  intros N I. rewrite (row_value_NoDup Z.eqb pixels_plus pixels_zero Z.eqb_eq pixels_0_r) by (rewrite map_map, map_id; exact N).
  unfold get. assert (J : In (c, f c) (map (fun c => (c, f c)) ids)) by (apply in_map_iff; exists c; auto).
  apply (dget_In_NoDup Z.eqb Z.eqb_eq) in J; [|rewrite map_map, map_id; exact N]. rewrite J. reflexivity.
Qed.

Lemma seg_run ids ignore s D : NoDup ids -> (forall e, In e (inputs s) -> segmented e (D e)) ->
  exists T, run (segmentation_combiner ids ignore) s = Ok T /\ seg_rep ids ignore D T (inputs s).
Proof.
  intros N H. apply (res_rel_run [] (segmentation_add ids ignore) (row_plus Z.eqb pixels_plus) (fun a => Ok a) (fun e => segmented e (D e)) (seg_rep ids ignore D)).
  - split; [constructor|]. split; [intros c; cbn; tauto|]. intros c _. reflexivity.
  - intros a l e (A & B & C) G. eexists. split; [apply segmentation_add_steps; exact G|].
    destruct (row_plus_facts Z.eqb pixels_plus pixels_zero Z.eqb_eq pixels_assoc pixels_0_l pixels_0_r (map (fun c => (c, pixel_counts ignore (D e) c)) ids) a A) as (A' & B' & C').
    split; [exact A'|]. split.
    + intros c. rewrite C', B, map_map, map_id. split; [|tauto]. intros J. split; [destruct l; discriminate|]. tauto.
    + intros c I. rewrite B', (C c I), (row_value_ids ids (pixel_counts ignore (D e)) c N I), flat_map_app. cbn [flat_map]. rewrite app_nil_r, pixel_counts_app. reflexivity.
  - intros a b l1 l2 (A & B & C) (A2 & B2 & C2).
    destruct (row_plus_facts Z.eqb pixels_plus pixels_zero Z.eqb_eq pixels_assoc pixels_0_l pixels_0_r b a A) as (A' & B' & C').
    split; [exact A'|]. split.
    + intros c. rewrite C', B, B2. split.
      * intros [[J K]|[J K]]; (split; [|exact K]); intros E; apply app_eq_nil in E; tauto.
      * intros [J K]. destruct l1; [right|left; split; [discriminate|exact K]]. auto.
    + intros c I. rewrite B', (C c I), (row_value_NoDup Z.eqb pixels_plus pixels_zero Z.eqb_eq pixels_0_r b c A2), (C2 c I), flat_map_app, pixel_counts_app. reflexivity.
  - apply Forall_forall. exact H.
Qed.

Lemma C152_pixel_counts_pf :
  forall ids ignore s D, NoDup ids -> inputs s <> [] ->
    (forall e, In e (inputs s) -> segmented e (D e)) ->
    exists T, outcome (segmentation_combiner ids ignore) s = Ok T /\ NoDup (map fst T) /\
      (forall c, In c (map fst T) <-> In c ids) /\
      forall c v, In (c, v) T -> tallied ignore c v (flat_map D (inputs s)).
Proof.
  intros ids ignore s D N NE H. destruct (seg_run ids ignore s D N H) as (T & R & A & B & C). exists T.
  split; [unfold outcome; rewrite R; reflexivity|]. split; [exact A|]. split; [intros c; rewrite B; tauto|].
  intros c v I. assert (J : In c ids) by (apply (B c); apply in_map_iff; exists (c, v); auto).
  specialize (C c J). unfold get in C. apply (dget_In_NoDup Z.eqb Z.eqb_eq _ _ _ A) in I. rewrite I in C. subst v. repeat split.
Qed.

Lemma C152_every_pixel_once_pf :
  forall ignore c v D, tallied ignore c v D -> ignore <> Some c ->
    p_tp v + p_fn v + p_fp v + p_tn v = tally (fun a _ => negb (ignored ignore a)) D.
Proof.
  intros ignore c v D (-> & -> & -> & ->) N. induction D as [|[a b] D IH]; [reflexivity|]. unfold tally in *. cbn [filter fst snd].
  assert (I : is_class c a = true -> ignored ignore a = false).
  { unfold is_class, ignored. intros E. apply Z.eqb_eq in E. subst a. destruct ignore as [i|]; [|reflexivity]. apply Z.eqb_neq. congruence. }
  destruct (is_class c a) eqn:CA; [rewrite (I eq_refl)|]; destruct (is_class c b) eqn:CB; cbn [andb negb]; try (destruct (ignored ignore a); cbn [negb]); cbn [length]; lia.
Qed.

Lemma C152_other_sizes_refused_pf :
  forall ids ignore s e, In e (inputs s) ->
    (s_truth e = NotAnImage \/ s_predicted e = NotAnImage \/
     exists g p, s_truth e = Image g /\ s_predicted e = Image p /\ (length g <> length p \/ exists r g' r' p', g = r :: g' /\ p = r' :: p' /\ length r <> length r')) ->
    is_ok (outcome (segmentation_combiner ids ignore) s) = false.
Proof.
  intros ids ignore s e I H. apply (res_run_refused [] (segmentation_add ids ignore) (row_plus Z.eqb pixels_plus) (fun a => Ok a) e s); [|exact I].
  intros a. unfold segmentation_add. destruct H as [->|[->|(g & p & -> & -> & H)]]; [reflexivity|destruct (s_truth e); reflexivity|].
  destruct (Nat.eqb (fst (shape g)) (fst (shape p)) && Nat.eqb (snd (shape g)) (snd (shape p))) eqn:Q; [|reflexivity].
  apply andb_true_iff in Q. rewrite !Nat.eqb_eq in Q. unfold shape in Q. cbn [fst snd] in Q. destruct H as [H|(r & g' & r' & p' & -> & -> & H)]; [tauto|]. cbn [length] in Q. tauto.
Qed.

Definition two_by_two : segmentation := Segmentation (Image [[1; 1]; [2; 0]]%Z) (Image [[1; 2]; [2; 1]]%Z).

Lemma two_by_two_segmented : segmented two_by_two [(1, 1); (1, 2); (2, 2); (0, 1)]%Z.
Proof. eexists. eexists. split; [reflexivity|]. split; [reflexivity|]. split; [|reflexivity]. exists 2. repeat constructor. Qed.

Lemma C152_ignored_class_refuted_pf :
  exists ids ignore e D T v, segmented e D /\ ids = [ignore] /\ tally (fun a _ => negb (Z.eqb a ignore)) D = 0 /\
    outcome (segmentation_combiner ids (Some ignore)) (Bundle [e]) = Ok T /\ In (ignore, v) T /\ p_tp v + p_fn v = 2.
Proof.
  exists [0%Z], 0%Z, (Segmentation (Image [[0; 0]%Z]) (Image [[0; 1]%Z])), [(0, 0); (0, 1)]%Z, [(0%Z, Pixels 1 0 0 1)], (Pixels 1 0 0 1).
  split; [|repeat split; left; reflexivity].
  eexists. eexists. split; [reflexivity|]. split; [reflexivity|]. split; [|reflexivity]. exists 2. repeat constructor.
Qed.

Lemma C152_repeated_class_refuted_pf :
  exists ids e D T v c, segmented e D /\ In c ids /\ outcome (segmentation_combiner ids None) (Bundle [e]) = Ok T /\ In (c, v) T /\
    p_tp v + p_fn v + p_fp v + p_tn v = 2 * length D /\ length D = 4.
Proof.
  exists [1%Z; 1%Z], two_by_two, [(1, 1); (1, 2); (2, 2); (0, 1)]%Z, [(1%Z, Pixels 2 2 2 2)], (Pixels 2 2 2 2), 1%Z.
  split; [exact two_by_two_segmented|]. repeat split; left; reflexivity.
Qed.

(** x is the value given last for c. *)

Definition last_for {V} (l : list (string * V)) (c : string) (x : V) : Prop :=
  exists before after, l = before ++ (c, x) :: after /\ ~ In c (map fst after).

Lemma dupdate_last {V} (l : list (string * V)) : forall d c,
  dget String.eqb (dupdate String.eqb d l) c =
  match dget String.eqb (rev l) c with Some x => Some x | None => dget String.eqb d c end.
Proof.
  induction l as [|[k v] l IH]; intros d c; [reflexivity|]. unfold dupdate in *. cbn [fold_left fst snd rev]. rewrite IH.
  rewrite (dget_dset String.eqb String.eqb_eq). clear IH. induction (rev l) as [|[k' v'] r IH]; cbn [app dget].
  - destruct (String.eqb c k); reflexivity.
  - destruct (String.eqb c k'); [reflexivity|exact IH].
Qed.

Lemma dict_of_last {V} (l : list (string * V)) c x : dget String.eqb (dict_of l) c = Some x <-> last_for l c x.
Proof.
  unfold dict_of. rewrite dupdate_last. cbn [dget].
  replace (match dget String.eqb (rev l) c with Some x => Some x | None => None end) with (dget String.eqb (rev l) c) by (destruct (dget _ _ _); reflexivity).
  induction l as [|[k v] l IH] using rev_ind.
  - split; [discriminate|]. intros (a & b & E & _). destruct a; discriminate.
  - rewrite rev_app_distr. cbn [rev app dget]. destruct (String.eqb c k) eqn:Q.
    + apply String.eqb_eq in Q. subst k. split.
      * intros E. injection E as <-. exists l, []. split; [reflexivity|intros []].
      * intros (a & b & E & N). destruct b as [|y b _] using rev_ind.
        -- apply app_inj_tail in E. destruct E as [_ E]. congruence.
        -- rewrite app_comm_cons, app_assoc in E. apply app_inj_tail in E. destruct E as [_ <-]. exfalso. apply N. rewrite map_app, in_app_iff. right. left. reflexivity.
    + apply String.eqb_neq in Q. rewrite IH. split.
      * intros (a & b & -> & N). exists a, (b ++ [(k, v)]). split; [rewrite <- app_assoc; reflexivity|]. rewrite map_app, in_app_iff. cbn [map fst In]. intros [J|[J|[]]]; [auto|congruence].
      * intros (a & b & E & N). destruct b as [|y b _] using rev_ind.
        -- apply app_inj_tail in E. destruct E as [_ E]. congruence.
        -- rewrite app_comm_cons, app_assoc in E. apply app_inj_tail in E. destruct E as [-> <-]. exists a, b. split; [reflexivity|]. intros J. apply N. rewrite map_app, in_app_iff. left. exact J.
Qed.

Lemma dict_of_none {V} (l : list (string * V)) c : dget String.eqb (dict_of l) c = None <-> ~ In c (map fst l).
Proof.
  unfold dict_of. rewrite dupdate_last. cbn [dget].
  replace (match dget String.eqb (rev l) c with Some x => Some x | None => None end) with (dget String.eqb (rev l) c) by (destruct (dget _ _ _); reflexivity).
  rewrite (dget_None String.eqb String.eqb_eq), map_rev, <- in_rev. reflexivity.
Qed.

(** The predictions that are considered: all, or the first k. *)

Definition considered (top_k : option nat) (e : set_example) (scores : list num) : list (string * num) :=
  match top_k with None => combine (se_classes e) scores | Some k => firstn k (combine (se_classes e) scores) end.

(** The weight of the example, one if it has none; the weight of the class, one if it
    has none. *)

Definition example_factor (e : set_example) (q : Qc) : Prop :=
  se_weight e = Some [q] \/ se_weight e = None /\ q = 1%Qc.

Definition class_factor (e : set_example) (c : string) (q : Qc) : Prop :=
  match se_weighted_classes e with
  | None => q = 1%Qc
  | Some (cs, ws) => last_for (combine cs ws) c q \/ ~ In c cs /\ q = 1%Qc
  end.

Definition unweighted (e : set_example) : Prop :=
  se_weight e = None /\ (se_weighted_classes e = None \/ se_weighted_classes e = Some ([], [])).

Definition pair_of (top_k : option nat) (e : set_example) (scores : list num) (c : string) (m : matched) : Prop :=
  (In c (se_labels e) -> m_label m = 1%Qc) /\ (~ In c (se_labels e) -> m_label m = 0%Qc) /\
  (In c (map fst (considered top_k e scores)) -> last_for (considered top_k e scores) c (m_prediction m)) /\
  (~ In c (map fst (considered top_k e scores)) -> m_prediction m = NegInf) /\
  (unweighted e -> m_weight m = None) /\
  (~ unweighted e -> exists q f, example_factor e q /\ class_factor e c f /\ m_weight m = Some (q * f)%Qc).

Definition weight_shape (e : set_example) : Prop :=
  (se_weight e = None \/ exists q, se_weight e = Some [q] /\ q <> 0%Qc) /\
  forall cs ws, se_weighted_classes e = Some (cs, ws) -> length cs = length ws.

Lemma combine_fst {A B} (a : list A) (b : list B) : length a = length b -> map fst (combine a b) = a.
Proof. revert b. induction a as [|x a IH]; intros [|y b] L; try discriminate; [reflexivity|]. cbn [combine map fst]. f_equal. apply IH. injection L as L. exact L. Qed.

Lemma combine_cut {A B} k : forall (a : list A) (b : list B), combine (firstn k a) (firstn k b) = firstn k (combine a b).
Proof. induction k as [|k IH]; intros [|x a] [|y b]; try reflexivity. cbn [firstn combine]. f_equal. apply IH. Qed.

Lemma dict_of_nil {V} (l : list (string * V)) : dict_of l = [] <-> l = [].
Proof.
  split; [|intros ->; reflexivity]. intros E. destruct l as [|[k v] l]; [reflexivity|]. exfalso.
  assert (N : dget String.eqb (dict_of ((k, v) :: l)) k = None) by (rewrite E; reflexivity). apply dict_of_none in N. apply N. left. reflexivity.
Qed.

Lemma py_prefix_cut {A} k (l : list A) : py_prefix (Z.min (Z.of_nat k) (Z.of_nat (length l))) l = firstn k l.
Proof.
  unfold py_prefix. destruct (Z.ltb _ 0) eqn:Q; [apply Z.ltb_lt in Q; lia|].
  destruct (Nat.le_gt_cases k (length l)) as [L|L].
  - rewrite Z.min_l by lia. rewrite Nat2Z.id. reflexivity.
  - rewrite Z.min_r by lia. rewrite Nat2Z.id, firstn_all. symmetry. apply firstn_all2. lia.
Qed.

(** The class weights the code looks up. *)

Definition weights_dict (e : set_example) : option (list (string * Qc)) :=
  match se_weighted_classes e with None => None | Some (cs, ws) => Some (dict_of (combine cs ws)) end.

Lemma calculate_weights_spec e c : weight_shape e ->
  exists w, calculate_weights (se_weight e) (weights_dict e) c = Ok w /\
    (unweighted e -> w = None) /\
    (~ unweighted e -> exists q f, example_factor e q /\ class_factor e c f /\ w = Some (q * f)%Qc).
Proof.
  intros [A B]. unfold calculate_weights, unweighted, example_factor, class_factor, weights_dict.
  assert (T : forall q, q <> 0%Qc -> truthy q = true) by (intros q; rewrite truthy_iff; auto).
  destruct (se_weighted_classes e) as [[cs ws]|].
  - specialize (B cs ws eq_refl).
    assert (F : exists f, (last_for (combine cs ws) c f \/ ~ In c cs /\ f = 1%Qc) /\
              forall w, match dget String.eqb (dict_of (combine cs ws)) c with Some x => (w * x)%Qc | None => w end = (w * f)%Qc).
    { destruct (dget String.eqb (dict_of (combine cs ws)) c) as [x|] eqn:D.
      - apply dict_of_last in D. exists x. split; [left; exact D|reflexivity].
      - apply dict_of_none in D. rewrite combine_fst in D by exact B. exists 1%Qc. split; [right; auto|]. intros w. ring. }
    destruct F as (f & F & FE).
    destruct A as [->|(q & -> & Q)]; cbn [array_truth bind].
    + destruct (dict_of (combine cs ws)) as [|kv d] eqn:DD; cbn [negb andb].
      * apply (proj1 (dict_of_nil (combine cs ws))) in DD. destruct cs as [|c0 cs]; [|destruct ws; (discriminate B || discriminate DD)]. destruct ws as [|w0 ws]; [|discriminate B].
        exists None. split; [reflexivity|]. split; [reflexivity|]. intros N. exfalso. apply N. auto.
      * eexists. split; [reflexivity|]. rewrite FE. split.
        -- intros [_ [X|X]]; [discriminate|]. injection X as -> ->. discriminate DD.
        -- intros _. exists 1%Qc, f. split; [right; auto|]. split; [exact F|reflexivity].
    + rewrite (T q Q). cbn [negb andb]. eexists. split; [reflexivity|]. rewrite FE. split; [intros [X _]; discriminate|].
      intros _. exists q, f. split; [left; reflexivity|]. split; [exact F|]. f_equal. ring.
  - destruct A as [->|(q & -> & Q)]; cbn [array_truth bind].
    + cbn [negb andb]. exists None. split; [reflexivity|]. split; [reflexivity|]. intros N. exfalso. apply N. auto.
    + rewrite (T q Q). cbn [negb andb]. eexists. split; [reflexivity|]. split; [intros [X _]; discriminate|].
      intros _. exists q, 1%Qc. split; [left; reflexivity|]. split; [reflexivity|]. f_equal. ring.
Qed.

Lemma mapM_pairs {A B} (f : A -> res B) (P : A -> B -> Prop) l :
  (forall x, In x l -> exists y, f x = Ok y /\ P x y) -> exists ys, mapM f l = Ok ys /\ Forall2 P l ys.
Proof.
  induction l as [|x l IH]; intros H; [exists []; split; [reflexivity|constructor]|].
  destruct (H x (or_introl eq_refl)) as (y & E & Y). destruct (IH (fun z I => H z (or_intror I))) as (ys & ES & YS).
  exists (y :: ys). cbn [mapM]. rewrite E. cbn [bind]. rewrite ES. split; [reflexivity|]. constructor; assumption.
Qed.

Lemma C153_set_match_pairs_pf :
  forall iter top_k e scores,
    (forall l, Permutation (iter l) l) ->
    se_scores e = Some scores -> length (se_classes e) = length scores -> weight_shape e ->
    exists cs out, set_match iter (option_map Z.of_nat top_k) e = Ok out /\ NoDup cs /\
      (forall c, In c cs <-> In c (se_labels e) \/ In c (map fst (considered top_k e scores))) /\
      Forall2 (pair_of top_k e scores) cs out.
Proof.
  intros iter top_k e scores IT SC L W. unfold set_match. rewrite SC, L, Nat.eqb_refl.
  assert (E1 : match se_weighted_classes e with
      | None => Ok None
      | Some (cs, ws) => if Nat.eqb (length cs) (length ws) then Ok (Some (dict_of (combine cs ws))) else Err ValueError
      end = Ok (weights_dict e)).
  { unfold weights_dict. destruct (se_weighted_classes e) as [[cs ws]|] eqn:Q; [|reflexivity]. destruct W as [_ W]. rewrite (W cs ws Q), Nat.eqb_refl. reflexivity. }
  rewrite E1. cbn [bind].
  set (n := Z.of_nat (length scores)).
  assert (CUT : combine (match option_map Z.of_nat top_k with None => se_classes e | Some k => py_prefix (Z.min k n) (se_classes e) end)
                        (match option_map Z.of_nat top_k with None => scores | Some k => py_prefix (Z.min k n) scores end) = considered top_k e scores /\
                (match option_map Z.of_nat top_k with None => se_classes e | Some k => py_prefix (Z.min k n) (se_classes e) end) = map fst (considered top_k e scores)).
  { unfold considered. destruct top_k as [k|]; cbn [option_map].
    - unfold n. rewrite py_prefix_cut, <- L, py_prefix_cut. rewrite <- combine_cut. split; [reflexivity|].
      rewrite combine_fst; [reflexivity|]. rewrite !firstn_length, L. reflexivity.
    - split; [reflexivity|]. symmetry. apply combine_fst. exact L. }
  destruct CUT as [-> ->]. set (P := considered top_k e scores).
  set (predicted := dedup String.eqb (map fst P)). set (labels := dedup String.eqb (se_labels e)).
  assert (IP : forall c, In c predicted <-> In c (map fst P)) by (intros c; apply (dedup_In String.eqb String.eqb_eq)).
  assert (IL : forall c, In c labels <-> In c (se_labels e)) by (intros c; apply (dedup_In String.eqb String.eqb_eq)).
  assert (SCORE : forall c, In c (map fst P) -> exists x, dget String.eqb (dict_of P) c = Some x /\ last_for P c x).
  { intros c I. destruct (dget String.eqb (dict_of P) c) as [x|] eqn:D; [exists x; split; [reflexivity|apply dict_of_last; exact D]|].
    apply dict_of_none in D. contradiction. }
  set (l1 := filter (fun c => memb String.eqb c predicted) labels).
  set (l2 := filter (fun c => negb (memb String.eqb c predicted)) labels).
  set (l3 := filter (fun c => negb (memb String.eqb c labels)) predicted).
  assert (I1 : forall c, In c l1 <-> In c (se_labels e) /\ In c (map fst P)).
  { intros c. unfold l1. rewrite filter_In, (memb_In String.eqb String.eqb_eq), IL, IP. reflexivity. }
  assert (I2 : forall c, In c l2 <-> In c (se_labels e) /\ ~ In c (map fst P)).
  { intros c. unfold l2. rewrite filter_In, negb_true_iff, (memb_nIn String.eqb String.eqb_eq), IL, IP. reflexivity. }
  assert (I3 : forall c, In c l3 <-> In c (map fst P) /\ ~ In c (se_labels e)).
  { intros c. unfold l3. rewrite filter_In, negb_true_iff, (memb_nIn String.eqb String.eqb_eq), IL, IP. reflexivity. }
  assert (II : forall l c, In c (iter l) <-> In c l).
  { intros l c. split; apply Permutation_in; [|apply Permutation_sym]; apply IT. }
  edestruct (mapM_pairs (fun c => let! s := match dget String.eqb (dict_of P) c with Some x => Ok x | None => Err KeyError end in
                               let! w := calculate_weights (se_weight e) (weights_dict e) c in Ok (Matched 1 s w)) (pair_of top_k e scores) (iter l1)) as (o1 & -> & F1).
  { intros c I. apply II, I1 in I. destruct I as [I J]. destruct (SCORE c J) as (x & -> & LF). destruct (calculate_weights_spec e c W) as (w & -> & WU & WW).
    cbn [bind]. eexists. split; [reflexivity|]. unfold pair_of. fold P. cbn [m_label m_prediction m_weight]. tauto. }
  edestruct (mapM_pairs (fun c => let! w := calculate_weights (se_weight e) (weights_dict e) c in Ok (Matched 1 NegInf w)) (pair_of top_k e scores) (iter l2)) as (o2 & -> & F2).
  { intros c I. apply II, I2 in I. destruct I as [I J]. destruct (calculate_weights_spec e c W) as (w & -> & WU & WW).
    cbn [bind]. eexists. split; [reflexivity|]. unfold pair_of. fold P. cbn [m_label m_prediction m_weight]. tauto. }
  edestruct (mapM_pairs (fun c => let! s := match dget String.eqb (dict_of P) c with Some x => Ok x | None => Err KeyError end in
                               let! w := calculate_weights (se_weight e) (weights_dict e) c in Ok (Matched 0 s w)) (pair_of top_k e scores) (iter l3)) as (o3 & -> & F3).
  { intros c I. apply II, I3 in I. destruct I as [I J]. destruct (SCORE c I) as (x & -> & LF). destruct (calculate_weights_spec e c W) as (w & -> & WU & WW).
    cbn [bind]. eexists. split; [reflexivity|]. unfold pair_of. fold P. cbn [m_label m_prediction m_weight]. tauto. }
  cbn [bind]. exists (iter l1 ++ iter l2 ++ iter l3). eexists. split; [reflexivity|].
  assert (ND : forall l, NoDup l -> NoDup (iter l)) by (intros l N; apply (Permutation_NoDup (Permutation_sym (IT l))); exact N).
  split; [|split].
  - apply NoDup_app; [apply ND, NoDup_filter, dedup_NoDup; exact String.eqb_eq| |].
    + apply NoDup_app; [apply ND, NoDup_filter, dedup_NoDup; exact String.eqb_eq|apply ND, NoDup_filter, dedup_NoDup; exact String.eqb_eq|].
      intros c. rewrite !II, I2, I3. tauto.
    + intros c. rewrite in_app_iff, !II, I1, I2, I3. tauto.
  - intros c. rewrite !in_app_iff, !II, I1, I2, I3. destruct (in_dec string_dec c (se_labels e)), (in_dec string_dec c (map fst P)); tauto.
  - apply Forall2_app; [exact F1|]. apply Forall2_app; assumption.
Qed.

(** The example of the documentation. *)

Definition sun_and_moon : set_example :=
  SetExample ["sun"; "moon"] ["sun"; "sea"; "light"] (Some [Fin 1%Qc; Fin (Q2Qc (7#10)); Fin (Q2Qc (3#10))])
    (Some [Q2Qc (1#10)]) (Some (["sun"; "moon"], [Q2Qc (3#10); Q2Qc (4#10)])).

Lemma C153_zero_weight_refuted_pf :
  exists e out, se_weight e = Some [0%Qc] /\ se_weighted_classes e = Some (["sun"], [1%Qc]) /\
    set_match (fun l => l) None e = Ok out /\ out = [Matched 1 (Fin 1%Qc) (Some 1%Qc)].
Proof.
  exists (SetExample ["sun"] ["sun"] (Some [Fin 1%Qc]) (Some [0%Qc]) (Some (["sun"], [1%Qc]))). eexists. split; [reflexivity|]. split; [reflexivity|]. split; [|reflexivity].
  qc_ex.
Qed.

Lemma C153_zero_weight_dropped_refuted_pf :
  exists e out, se_weight e = Some [0%Qc] /\ se_weighted_classes e = None /\
    set_match (fun l => l) None e = Ok out /\ out = [Matched 1 (Fin 1%Qc) None].
Proof.
  exists (SetExample ["sun"] ["sun"] (Some [Fin 1%Qc]) (Some [0%Qc]) None). eexists. split; [reflexivity|]. split; [reflexivity|]. split; [|reflexivity].
  qc_ex.
Qed.

Lemma C154_top_k_refuted_pf :
  exists e out, se_classes e = ["low"; "high"] /\ se_scores e = Some [Fin (Q2Qc (1#10)); Fin (Q2Qc (9#10))] /\
    set_match (fun l => l) (Some 1%Z) e = Ok out /\
    ~ In (Fin (Q2Qc (9#10))) (map m_prediction out) /\ In (Fin (Q2Qc (1#10))) (map m_prediction out).
Proof.
  exists (SetExample ["high"] ["low"; "high"] (Some [Fin (Q2Qc (1#10)); Fin (Q2Qc (9#10))]) None None).
  exists [Matched 1 NegInf None; Matched 0 (Fin (Q2Qc (1#10))) None]. split; [reflexivity|]. split; [reflexivity|]. split; [qc_ex|]. cbn [map m_prediction In]. split.
  - intros [E|[E|[]]]; discriminate E.
  - right. left. reflexivity.
Qed.

Lemma C154_ranked_predictions_pf :
  forall k e scores qs, scores = map Fin qs -> length (se_classes e) = length scores -> StronglySorted (fun a b => b <= a)%Qc qs ->
    forall c x c' x', In (c, Fin x) (considered (Some k) e scores) -> In (c', Fin x') (skipn k (combine (se_classes e) scores)) -> (x' <= x)%Qc.
Proof.
  intros k e scores qs -> L SS c x c' x' I J. cbn [considered] in I. rewrite map_length in L. revert k qs L SS I J. generalize (se_classes e). clear.
  intros cs k. revert cs. induction k as [|k IH]; intros [|d cs] [|q qs] L SS I J; try (destruct I; fail); try discriminate.
  inversion SS as [|? ? SS' F]; subst. cbn [map combine firstn skipn] in *. injection L as L. destruct I as [I|I].
  - injection I as -> ->. rewrite Forall_forall in F. apply F. clear -J.
    assert (K : In (c', Fin x') (combine cs (map Fin qs))) by (rewrite <- (firstn_skipn k); apply in_app_iff; right; exact J).
    apply in_combine_r in K. apply in_map_iff in K. destruct K as (y & E & K). injection E as <-. exact K.
  - apply (IH cs qs); auto.
Qed.

Lemma C155_no_scores_refuted_pf :
  exists e, se_scores e = None /\ se_labels e = ["sun"; "moon"] /\ se_classes e = ["sun"; "sea"; "light"] /\
    forall iter top_k, set_match iter top_k e = Err TypeError.
Proof.
  exists (SetExample ["sun"; "moon"] ["sun"; "sea"; "light"] None None None). split; [reflexivity|]. split; [reflexivity|]. split; reflexivity.
Qed.
