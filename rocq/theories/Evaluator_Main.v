(* Proofs of the theorems restated in Evaluator_Properties.v. *)
From Coq Require Import String Ascii.
From Verif Require Import Base BaseFacts Beam BeamFacts Slicer_Model Util_Model Inputs_Model Means_Model.
From Verif Require Import Keys_Model Keys_Main Util_Main Pipeline_Model Evaluator_Model.
Local Open Scope string_scope.
Local Open Scope list_scope.

(* C34 - C37, C79 - C85: from computations to the results of a slice. *)

Lemma mk_eqb_refl k : metric_key_eqb k k = true.
Proof. apply metric_key_eqb_eq. reflexivity. Qed.

Lemma mk_eqb_neq a b : metric_key_eqb a b = false <-> a <> b.
Proof.
  split; intros H.
  - intros E. apply metric_key_eqb_eq in E. congruence.
  - destruct (metric_key_eqb a b) eqn:E; [|reflexivity]. apply metric_key_eqb_eq in E. contradiction.
Qed.

Lemma mk_eq_dec (a b : metric_key) : {a = b} + {a <> b}.
Proof.
  destruct (metric_key_eqb a b) eqn:E; [left; apply metric_key_eqb_eq; auto|right; apply mk_eqb_neq; auto].
Qed.

Lemma dget_mget (m : metrics) k : dget okey_eqb m k = mget m (ok_key k).
Proof.
  unfold mget. induction m as [|[j v] m IH]; [reflexivity|]. cbn [dget]. unfold okey_eqb at 1 3. cbn [ok_key].
  destruct (metric_key_eqb (ok_key k) (ok_key j)); auto.
Qed.

Lemma mget_cons j v (m : metrics) k :
  mget ((j, v) :: m) k = if metric_key_eqb k (ok_key j) then Some v else mget m k.
Proof. reflexivity. Qed.

Lemma mget_dset (m : metrics) j v k :
  mget (dset okey_eqb m j v) k = if metric_key_eqb k (ok_key j) then Some v else mget m k.
Proof.
  induction m as [|[i w] m IH]; [reflexivity|]. cbn [dset]. unfold okey_eqb at 1.
  destruct (metric_key_eqb (ok_key j) (ok_key i)) eqn:E.
  - rewrite !mget_cons. apply metric_key_eqb_eq in E. rewrite E. destruct (metric_key_eqb k (ok_key i)); reflexivity.
  - rewrite !mget_cons, IH. destruct (metric_key_eqb k (ok_key i)) eqn:F; [|reflexivity].
    apply metric_key_eqb_eq in F. subst k. rewrite (proj2 (mk_eqb_neq (ok_key i) (ok_key j))); [reflexivity|].
    intros G. rewrite G, mk_eqb_refl in E. discriminate.
Qed.

Lemma mget_dset_eq (m : metrics) j v : mget (dset okey_eqb m j v) (ok_key j) = Some v.
Proof. rewrite mget_dset, mk_eqb_refl. reflexivity. Qed.

Lemma mget_dset_neq (m : metrics) j v k : k <> ok_key j -> mget (dset okey_eqb m j v) k = mget m k.
Proof. intros H. rewrite mget_dset, (proj2 (mk_eqb_neq _ _) H). reflexivity. Qed.

Lemma mget_app (a b : metrics) k : mget (a ++ b) k = match mget a k with Some v => Some v | None => mget b k end.
Proof.
  induction a as [|[j v] a IH]; [reflexivity|]. cbn [app]. rewrite !mget_cons. destruct (metric_key_eqb k (ok_key j)); auto.
Qed.

(** The value a dictionary literal ends up with: the last one given for the key. *)

Definition mlast (m : metrics) (k : metric_key) : option val := mget (rev m) k.

Lemma mget_dupdate (b a : metrics) k :
  mget (dupdate okey_eqb a b) k = match mlast b k with Some v => Some v | None => mget a k end.
Proof.
  revert a. induction b as [|[j v] b IH]; intros a; [reflexivity|].
  unfold dupdate. cbn [fold_left fst snd]. change (fold_left _ b ?x) with (dupdate okey_eqb x b).
  rewrite IH. unfold mlast. cbn [rev]. rewrite mget_app, mget_dset, mget_cons.
  destruct (mget (rev b) k); [reflexivity|]. destruct (metric_key_eqb k (ok_key j)); reflexivity.
Qed.

(** Python dictionaries have no repeated keys. *)

Definition unique (m : metrics) : Prop := NoDup (map (fun kv => ok_key (fst kv)) m).

Lemma mget_In (m : metrics) k v : mget m k = Some v -> exists j, In (j, v) m /\ ok_key j = k.
Proof.
  induction m as [|[i w] m IH]; [discriminate|]. rewrite mget_cons. destruct (metric_key_eqb k (ok_key i)) eqn:E.
  - intros [= <-]. apply metric_key_eqb_eq in E. exists i. cbn. auto.
  - intros H. destruct (IH H) as (j & ? & ?). exists j. cbn. auto.
Qed.

Lemma In_mget (m : metrics) j v : unique m -> In (j, v) m -> mget m (ok_key j) = Some v.
Proof.
  unfold unique. induction m as [|[i w] m IH]; [intros _ []|]. cbn [map fst]. intros N [H|H]; rewrite mget_cons.
  - injection H as -> ->. rewrite mk_eqb_refl. reflexivity.
  - inversion N as [|? ? N1 N2]; subst. rewrite (proj2 (mk_eqb_neq (ok_key j) (ok_key i))); auto.
    intros E. apply N1. rewrite <- E. apply in_map_iff. exists (j, v). auto.
Qed.

Lemma mget_None (m : metrics) k : mget m k = None <-> ~ In k (map (fun kv => ok_key (fst kv)) m).
Proof.
  induction m as [|[i w] m IH]; [cbn; tauto|]. rewrite mget_cons. cbn [map fst]. destruct (metric_key_eqb k (ok_key i)) eqn:E.
  - apply metric_key_eqb_eq in E. split; [discriminate|]. intros H. exfalso. apply H. left. auto.
  - apply mk_eqb_neq in E. rewrite IH. cbn. intuition.
Qed.

Lemma dset_unique (m : metrics) j v : unique m -> unique (dset okey_eqb m j v).
Proof.
  unfold unique. induction m as [|[i w] m IH]; intros N; [repeat constructor; auto|].
  cbn [dset]. unfold okey_eqb at 1. destruct (metric_key_eqb (ok_key j) (ok_key i)) eqn:E; [exact N|].
  cbn [map fst] in *. inversion N as [|? ? N1 N2]; subst. constructor; [|auto].
  apply mget_None. rewrite mget_dset. apply mk_eqb_neq in E. rewrite (proj2 (mk_eqb_neq _ _)) by congruence.
  apply mget_None. exact N1.
Qed.

Lemma mlast_unique (m : metrics) k : unique m -> mlast m k = mget m k.
Proof.
  intros N. unfold mlast. destruct (mget m k) eqn:E.
  - apply mget_In in E. destruct E as (j & I0 & <-). apply In_mget; [|apply -> in_rev; exact I0].
    unfold unique. rewrite map_rev. apply NoDup_rev. exact N.
  - apply mget_None. apply mget_None in E. rewrite map_rev. intros H. apply in_rev in H. contradiction.
Qed.

(** One leading underscore, not two. *)

Definition private_name (n : string) : Prop :=
  exists t, n = String "_" t /\ forall u, t <> String "_" u.

Lemma starts_one n : starts_with "_" n = true <-> exists t, n = String "_" t.
Proof.
  unfold starts_with. destruct n as [|c n]; cbn [strip_prefix].
  - split; [discriminate|]. intros (t & E). discriminate.
  - destruct (Ascii.eqb "_" c) eqn:E.
    + apply Ascii.eqb_eq in E. subst c. split; [eauto|reflexivity].
    + split; [discriminate|]. intros (t & [= -> ->]). discriminate E.
Qed.

Lemma starts_two n : starts_with "__" n = true <-> exists t, n = String "_" (String "_" t).
Proof.
  unfold starts_with. destruct n as [|c n]; cbn [strip_prefix].
  - split; [discriminate|]. intros (t & E). discriminate.
  - destruct (Ascii.eqb "_" c) eqn:E.
    + apply Ascii.eqb_eq in E. subst c. destruct n as [|d n]; cbn [strip_prefix].
      * split; [discriminate|]. intros (t & F). discriminate.
      * destruct (Ascii.eqb "_" d) eqn:F.
        -- apply Ascii.eqb_eq in F. subst d. split; [eauto|reflexivity].
        -- split; [discriminate|]. intros (t & [= -> ->]). discriminate F.
    + split; [discriminate|]. intros (t & [= -> ->]). discriminate E.
Qed.

Lemma is_private_spec k : is_private k = true <-> private_name (k_name (ok_key k)).
Proof.
  unfold is_private, private_name. rewrite andb_true_iff, negb_true_iff, starts_one. split.
  - intros [(t & E) H]. exists t. split; [exact E|]. intros u ->.
    assert (T : starts_with "__" (k_name (ok_key k)) = true) by (apply starts_two; eauto). congruence.
  - intros (t & E & H). split; [eauto|]. destruct (starts_with "__" (k_name (ok_key k))) eqn:T; [|reflexivity].
    apply starts_two in T. destruct T as (u & T). rewrite E in T. injection T as T. destruct (H u T).
Qed.

Lemma is_private_false k : is_private k = false <-> ~ private_name (k_name (ok_key k)).
Proof. rewrite <- is_private_spec. destruct (is_private k); intuition congruence. Qed.

(** The entry kv is the metric of a candidate model whose baseline value is also in m,
    and x is candidate minus baseline. *)

Definition compared (baseline : string) (m : metrics) (name model output : string) sub agg weighted (x : num) : Prop :=
  model <> baseline /\ ~ private_name name /\
  exists a b, mget m (MetricKey name model output sub agg weighted false) = Some (Num a) /\
              mget m (MetricKey name baseline output sub agg weighted false) = Some (Num b) /\
              x = num_sub a b.

Definition source (baseline : string) (m : metrics) (kv : okey * val) (v : val) : Prop :=
  is_private (fst kv) = false /\ k_diff (ok_key (fst kv)) = false /\ k_model (ok_key (fst kv)) <> baseline /\
  exists a b, snd kv = Num a /\ mget m (make_baseline_key (ok_key (fst kv)) baseline) = Some (Num b) /\ v = Num (num_sub a b).

Definition diff_step (baseline : string) (m acc : metrics) (kv : okey * val) : res metrics :=
  let k := fst kv in
  if is_private k then Ok acc
  else if k_diff (ok_key k) then Ok acc
  else if negb (String.eqb (k_model (ok_key k)) baseline) then
    match dget okey_eqb m (obaseline_key k baseline) with
    | Some b => if diffable (snd kv) then let! x := val_sub (snd kv) b in Ok (dset okey_eqb acc (odiff_key k) x)
                else Ok acc
    | None => Ok acc
    end
  else Ok acc.

Lemma diff_step_cases baseline m acc kv r : diff_step baseline m acc kv = Ok r ->
  (r = acc /\ forall v, ~ source baseline m kv v) \/
  (exists v, source baseline m kv v /\ r = dset okey_eqb acc (odiff_key (fst kv)) v).
Proof.
  unfold diff_step, source. destruct kv as [k w]. cbn [fst snd]. intros E.
  destruct (is_private k) eqn:P; [injection E as <-; left; split; [reflexivity|]; intros v (? & _); congruence|].
  destruct (k_diff (ok_key k)) eqn:D; [injection E as <-; left; split; [reflexivity|]; intros v (_ & ? & _); congruence|].
  destruct (String.eqb (k_model (ok_key k)) baseline) eqn:M; cbn [negb] in E.
  { injection E as <-. left. split; [reflexivity|]. intros v (_ & _ & H & _). apply String.eqb_eq in M. contradiction. }
  apply String.eqb_neq in M. rewrite dget_mget in E. cbn [ok_key obaseline_key] in E.
  destruct (mget m (make_baseline_key (ok_key k) baseline)) as [b|].
  - destruct w as [a|s]; cbn [diffable] in E.
    + destruct b as [b|s]; cbn [val_sub bind] in E; [|discriminate]. injection E as <-. right.
      exists (Num (num_sub a b)). split; [|reflexivity]. split; [auto|]. split; [auto|]. split; [auto|]. eauto.
    + injection E as <-. left. split; [reflexivity|]. intros v (_ & _ & _ & a & b' & H & _). discriminate.
  - injection E as <-. left. split; [reflexivity|]. intros v (_ & _ & _ & a & b' & _ & H & _). discriminate.
Qed.

Lemma diff_loop baseline m l : forall acc d, foldM (diff_step baseline m) l acc = Ok d ->
  (forall j v, mget d j = Some v -> mget acc j = Some v \/
     exists kv, In kv l /\ make_diff_key (ok_key (fst kv)) = j /\ source baseline m kv v) /\
  (forall j, mget acc j <> None -> mget d j <> None) /\
  (forall kv v, In kv l -> source baseline m kv v -> mget d (make_diff_key (ok_key (fst kv))) <> None) /\
  (unique acc -> unique d).
Proof.
  induction l as [|kv l IH]; intros acc d E.
  - injection E as <-. split; [auto|]. split; [auto|]. split; [intros ? ? []|auto].
  - cbn [foldM] in E. destruct (diff_step baseline m acc kv) as [r|] eqn:F; [|discriminate]. cbn [bind] in E.
    apply IH in E. destruct E as (E1 & E2 & E3 & E4). apply diff_step_cases in F.
    destruct F as [[-> F]|(v0 & S0 & ->)].
    + split; [intros j v H; destruct (E1 j v H) as [|(kv' & ? & ?)]; [auto|right; exists kv'; cbn; auto]|].
      split; [exact E2|]. split; [|exact E4]. intros kv' v [<-|H] S0; [destruct (F v S0)|eauto].
    + split.
      { intros j v H. destruct (E1 j v H) as [G|(kv' & ? & ?)]; [|right; exists kv'; cbn; auto].
        rewrite mget_dset in G. destruct (metric_key_eqb j (ok_key (odiff_key (fst kv)))) eqn:J; [|auto].
        apply metric_key_eqb_eq in J. injection G as <-. right. exists kv. cbn. auto. }
      split; [intros j H; apply E2; rewrite mget_dset; destruct (metric_key_eqb j (ok_key (odiff_key (fst kv)))); [discriminate|exact H]|].
      split; [|intros U; apply E4, dset_unique, U].
      intros kv' v [<-|H] S1; [|eauto]. apply E2. change (make_diff_key (ok_key (fst kv))) with (ok_key (odiff_key (fst kv))). rewrite mget_dset_eq. discriminate.
Qed.

Lemma make_diff_key_inj a b : k_diff a = false -> k_diff b = false -> make_diff_key a = make_diff_key b -> a = b.
Proof. destruct a, b. unfold make_diff_key. cbn. intros -> -> [= -> -> -> -> -> ->]. reflexivity. Qed.

Lemma make_diff_key_diff a : k_diff (make_diff_key a) = true.
Proof. reflexivity. Qed.

Lemma add_diff_unfold baseline m : add_diff_metrics baseline m =
  if String.eqb baseline "" then Ok m else let! d := foldM (diff_step baseline m) m [] in Ok (dupdate okey_eqb m d).
Proof. reflexivity. Qed.

Lemma diff_results baseline m r : baseline <> "" -> unique m -> add_diff_metrics baseline m = Ok r ->
  exists d, (forall k, mget r k = match mget d k with Some v => Some v | None => mget m k end) /\
    (forall k v, mget d k = Some v <-> exists kv, In kv m /\ make_diff_key (ok_key (fst kv)) = k /\ source baseline m kv v).
Proof.
  intros B U. rewrite add_diff_unfold. apply String.eqb_neq in B. rewrite B.
  destruct (foldM (diff_step baseline m) m []) as [d|] eqn:E; [|discriminate]. cbn [bind]. intros [= <-].
  apply diff_loop in E. destruct E as (E1 & _ & E3 & E4).
  assert (UD : unique d) by (apply E4; constructor).
  exists d. split; [intros k; rewrite mget_dupdate, (mlast_unique d k UD); reflexivity|].
  intros k v. split.
  - intros H. destruct (E1 k v H) as [G|G]; [discriminate|exact G].
  - intros (kv & I0 & <- & S0). destruct (mget d (make_diff_key (ok_key (fst kv)))) as [w|] eqn:G; [|destruct (E3 kv v I0 S0 G)].
    destruct (E1 _ _ G) as [|(kv' & I1 & J & S1)]; [discriminate|].
    destruct S0 as (_ & D0 & _ & a & b & A0 & B0 & ->). destruct S1 as (_ & D1 & _ & a' & b' & A1 & B1 & ->).
    apply make_diff_key_inj in J; [|auto|auto]. rewrite J in B1. rewrite B0 in B1. injection B1 as <-.
    destruct kv as [i x], kv' as [i' x']. cbn [fst snd] in *. subst x x'.
    apply (In_mget m i _ U) in I0. apply (In_mget m i' _ U) in I1. rewrite J, I0 in I1. injection I1 as <-. reflexivity.
Qed.

Lemma compared_source baseline m n mo o s a w x : unique m ->
  (compared baseline m n mo o s a w x <->
   exists kv, In kv m /\ ok_key (fst kv) = MetricKey n mo o s a w false /\ source baseline m kv (Num x)).
Proof.
  intros U. unfold compared, source. split.
  - intros (M & P & va & vb & A & B & ->). destruct (mget_In _ _ _ A) as (j & I0 & J). exists (j, Num va). cbn [fst snd].
    split; [exact I0|]. split; [exact J|]. rewrite J. cbn. split; [apply is_private_false; rewrite J; exact P|].
    split; [reflexivity|]. split; [exact M|]. exists va, vb. split; [reflexivity|]. split; [exact B|reflexivity].
  - intros ([j v] & I0 & J & P & D & M & va & vb & A & B & E). cbn [fst snd] in *. injection E as ->. subst v.
    apply is_private_false in P. rewrite J in *. cbn in M, P, B. split; [exact M|]. split; [exact P|].
    exists va, vb. split; [|split; [exact B|reflexivity]]. rewrite <- J. apply In_mget; auto.
Qed.

Lemma C34_diff_is_candidate_minus_baseline_pf :
  forall baseline m r, baseline <> "" -> unique m -> add_diff_metrics baseline m = Ok r ->
    (forall n mo o s a w x, compared baseline m n mo o s a w x ->
       mget r (MetricKey n mo o s a w true) = Some (Num x)) /\
    (forall n mo o s a w, (forall x, ~ compared baseline m n mo o s a w x) ->
       mget r (MetricKey n mo o s a w true) = mget m (MetricKey n mo o s a w true)) /\
    (forall n mo o s a w,
       mget r (MetricKey n mo o s a w false) = mget m (MetricKey n mo o s a w false)).
Proof.
  intros baseline m r B U E. destruct (diff_results baseline m r B U E) as (d & R & D). split; [|split].
  - intros n mo o s a w x C. rewrite R. apply (compared_source _ _ _ _ _ _ _ _ _ U) in C. destruct C as (kv & I0 & J & S0).
    assert (G : mget d (MetricKey n mo o s a w true) = Some (Num x)).
    { apply D. exists kv. rewrite J. auto. }
    rewrite G. reflexivity.
  - intros n mo o s a w N. rewrite R. destruct (mget d (MetricKey n mo o s a w true)) as [v|] eqn:G; [|reflexivity].
    apply D in G. destruct G as (kv & I0 & J & S0). pose proof S0 as (_ & K & _ & va & vb & _ & _ & V). subst v.
    exfalso. apply (N (num_sub va vb)). apply (compared_source _ _ _ _ _ _ _ _ _ U). exists kv. split; [exact I0|]. split; [|exact S0].
    destruct (ok_key (fst kv)) as [n' mo' o' s' a' w' d']. cbn in *. unfold make_diff_key in J. cbn in J. injection J as -> -> -> -> -> ->. rewrite K. reflexivity.
  - intros n mo o s a w. rewrite R. destruct (mget d (MetricKey n mo o s a w false)) as [v|] eqn:G; [|reflexivity].
    apply D in G. destruct G as (kv & _ & J & _). exfalso. apply (f_equal k_diff) in J. rewrite make_diff_key_diff in J. discriminate.
Qed.

Lemma C34_diffs_defined_pf :
  (forall m, add_diff_metrics "" m = Ok m) /\
  (forall baseline m,
    (forall j v, In (j, v) m -> diffable v = true -> ok_class j = IsMetric -> forall b,
       mget m (make_baseline_key (ok_key j) baseline) = Some b -> diffable b = true) ->
    (forall j v, In (j, v) m -> ok_class j <> IsMetric -> diffable v = false) ->
    exists r, add_diff_metrics baseline m = Ok r).
Proof.
  split; [reflexivity|]. intros baseline m H1 H2. rewrite add_diff_unfold. destruct (String.eqb baseline ""); [eexists; reflexivity|].
  assert (G : forall l acc, (forall kv, In kv l -> In kv m) -> exists d, foldM (diff_step baseline m) l acc = Ok d).
  { induction l as [|[k v] l IH]; intros acc HI; [eexists; reflexivity|]. cbn [foldM].
    assert (F : exists r, diff_step baseline m acc (k, v) = Ok r).
    { unfold diff_step. cbn [fst snd]. destruct (is_private k); [eexists; reflexivity|]. destruct (k_diff (ok_key k)); [eexists; reflexivity|].
      destruct (negb _); [|eexists; reflexivity]. rewrite dget_mget. cbn [ok_key obaseline_key].
      destruct (mget m (make_baseline_key (ok_key k) baseline)) as [b|] eqn:B; [|eexists; reflexivity].
      destruct (diffable v) eqn:V; [|eexists; reflexivity]. assert (I0 : In (k, v) m) by (apply HI; left; auto).
      assert (DB : diffable b = true).
      { apply (H1 k v I0 V); [|exact B]. destruct (ok_class k) eqn:C; [reflexivity| |]; (rewrite (H2 k v I0) in V; [discriminate|congruence]). }
      destruct v; [|discriminate]. destruct b; [|discriminate]. cbn. eexists. reflexivity. }
    destruct F as (r & ->). cbn [bind]. apply IH. intros; apply HI; right; auto. }
  destruct (G m [] (fun kv h => h)) as (d & ->). cbn [bind]. eexists. reflexivity.
Qed.

Definition plain (name model : string) : metric_key := MetricKey name model "" None None (Some true) false.

Lemma dset_has (m : metrics) j v k : mget m k <> None -> mget (dset okey_eqb m j v) k <> None.
Proof. rewrite mget_dset. destruct (metric_key_eqb k (ok_key j)); [discriminate|auto]. Qed.

Lemma dupdate_has (b a : metrics) k : mget a k <> None -> mget (dupdate okey_eqb a b) k <> None.
Proof. rewrite mget_dupdate. destruct (mlast b k); [discriminate|auto]. Qed.

Lemma add_derived_has fs m r k : add_derived_metrics fs m = Ok r -> mget m k <> None -> mget r k <> None.
Proof.
  unfold add_derived_metrics. revert m. induction fs as [|f fs IH]; intros m E H.
  - injection E as <-. exact H.
  - cbn [foldM] in E. destruct (f m) as [d|]; [|discriminate]. cbn [bind] in E. apply (IH _ E). apply dupdate_has, H.
Qed.

Lemma add_diff_has b m r k : add_diff_metrics b m = Ok r -> mget m k <> None -> mget r k <> None.
Proof.
  rewrite add_diff_unfold. destruct (String.eqb b ""); [intros [= <-]; auto|].
  destruct (foldM _ _ _) as [d|]; [|discriminate]. cbn [bind]. intros [= <-]. apply dupdate_has.
Qed.

Lemma remove_private_get m k : ~ private_name (k_name k) -> mget (remove_private_metrics m) k = mget m k.
Proof.
  intros P. unfold remove_private_metrics. induction m as [|[j v] m IH]; [reflexivity|].
  cbn [filter fst]. rewrite mget_cons. destruct (metric_key_eqb k (ok_key j)) eqn:E.
  - apply metric_key_eqb_eq in E. subst k. apply is_private_false in P. rewrite P. cbn [negb].
    rewrite mget_cons, mk_eqb_refl. reflexivity.
  - destruct (is_private j); cbn [negb]; [exact IH|]. rewrite mget_cons, E. exact IH.
Qed.

Lemma C35_private_metrics_hidden_pf :
  forall derived ci baseline m r, finish_slice derived ci baseline m = Ok r ->
    (forall k v, In (k, v) r -> ~ private_name (k_name (ok_key k))) /\
    (forall k, mget m k <> None -> ~ private_name (k_name k) -> mget r k <> None).
Proof.
  intros derived ci baseline m r. unfold finish_slice.
  destruct (add_derived_metrics derived m) as [m1|] eqn:E1; [|discriminate]. cbn [bind].
  destruct (add_diff_metrics baseline m1) as [m2|] eqn:E2; [|discriminate]. cbn [bind].
  destruct (add_derived_metrics ci m2) as [m3|] eqn:E3; [|discriminate]. cbn [bind]. intros [= <-]. split.
  - intros k v H. apply filter_In in H. destruct H as [_ H]. apply negb_true_iff in H. apply is_private_false. exact H.
  - intros k H P. rewrite (remove_private_get m3 k P).
    apply (add_derived_has ci m2 m3 k E3), (add_diff_has baseline m1 m2 k E2), (add_derived_has derived m m1 k E1), H.
Qed.

Lemma C35_public_values_kept_pf :
  forall m k, ~ private_name (k_name k) -> mget (remove_private_metrics m) k = mget m k.
Proof. exact remove_private_get. Qed.

Lemma id_eqb_eq a b : id_eqb a b = true <-> a = b.
Proof.
  destruct a as [c k p], b as [c' k' p']. unfold id_eqb. cbn.
  rewrite !andb_true_iff, String.eqb_eq, (list_eqb_eq metric_key_eqb metric_key_eqb_eq), (list_eqb_eq String.eqb string_eqb_eq).
  split; [intros [[-> ->] ->]; reflexivity|intros [= -> -> ->]; auto].
Qed.

Section Shared.
  Context {B : Type}.
  Implicit Types (c d : computation B).

  Definition is_base c : bool := match cp_kind c with Combine _ _ => true | _ => false end.
  Definition is_derived c : bool := match cp_kind c with Derive => true | _ => false end.
  Definition is_cross c : bool := match cp_kind c with CompareSlices => true | _ => false end.
  Definition is_ci c : bool := match cp_kind c with DeriveCI => true | _ => false end.

  (** The first computation of every id, in order. *)
  Fixpoint firsts (seen : list computation_id) (l : list (computation_id * computation B)) :=
    match l with
    | [] => []
    | ic :: t => if existsb (id_eqb (fst ic)) seen then firsts seen t else ic :: firsts (seen ++ [fst ic]) t
    end.

  Definition with_id c : res (computation_id * computation B) := let! i := comp_id c in Ok (i, c).

  Lemma existsb_fst i (b : list (computation_id * computation B)) :
    existsb (fun ic => id_eqb i (fst ic)) b = existsb (id_eqb i) (map fst b).
  Proof. induction b as [|x b IH]; [reflexivity|]. cbn. rewrite IH. reflexivity. Qed.

  Lemma firsts_add (p : computation B -> bool) seen b i c t :
    seen = map fst b ->
    b ++ firsts seen (filter (fun ic => p (snd ic)) ((i, c) :: t)) =
    (if p c then add_new b i c else b) ++
      firsts (map fst (if p c then add_new b i c else b)) (filter (fun ic => p (snd ic)) t).
  Proof.
    intros ->. cbn [filter snd]. destruct (p c); [|reflexivity]. unfold add_new. rewrite existsb_fst.
    cbn [firsts fst]. destruct (existsb (id_eqb i) (map fst b)); [reflexivity|].
    rewrite map_app, <- app_assoc. reflexivity.
  Qed.

  Lemma separate_spec l : forall s0 s, foldM separate_step l s0 = Ok s ->
    exists ids, mapM with_id l = Ok ids /\ map snd ids = l /\
      sp_base s = sp_base s0 ++ firsts (map fst (sp_base s0)) (filter (fun ic => is_base (snd ic)) ids) /\
      sp_derived s = sp_derived s0 ++ firsts (map fst (sp_derived s0)) (filter (fun ic => is_derived (snd ic)) ids) /\
      sp_cross s = sp_cross s0 ++ firsts (map fst (sp_cross s0)) (filter (fun ic => is_cross (snd ic)) ids) /\
      sp_ci s = sp_ci s0 ++ firsts (map fst (sp_ci s0)) (filter (fun ic => is_ci (snd ic)) ids).
  Proof.
    induction l as [|c l IH]; intros s0 s E.
    - injection E as <-. exists []. cbn. rewrite !app_nil_r. auto 10.
    - cbn [foldM] in E. unfold separate_step at 1 in E. cbn [mapM]. unfold with_id at 1. destruct (comp_id c) as [i|]; [|discriminate]. cbn [bind] in *.
      apply IH in E. destruct E as (ids & -> & M & E1 & E2 & E3 & E4). cbn [bind]. exists ((i, c) :: ids).
      split; [reflexivity|]. split; [cbn; rewrite M; reflexivity|].
      rewrite (firsts_add is_base _ (sp_base s0) i c ids eq_refl), (firsts_add is_derived _ (sp_derived s0) i c ids eq_refl),
              (firsts_add is_cross _ (sp_cross s0) i c ids eq_refl), (firsts_add is_ci _ (sp_ci s0) i c ids eq_refl).
      unfold is_base, is_derived, is_cross, is_ci in *. destruct (cp_kind c); cbn [sp_base sp_derived sp_cross sp_ci] in *; auto.
  Qed.

  Lemma firsts_NoDup seen l : NoDup (map fst (firsts seen l)) /\ (forall ic, In ic (firsts seen l) -> ~ In (fst ic) seen).
  Proof.
    revert seen. induction l as [|ic l IH]; intros seen; [split; [constructor|intros ? []]|]. cbn [firsts].
    destruct (existsb (id_eqb (fst ic)) seen) eqn:E; [apply IH|].
    destruct (IH (seen ++ [fst ic])) as [N H]. split.
    - cbn [map]. constructor; [|exact N]. intros I0. apply in_map_iff in I0. destruct I0 as (x & F & I0). apply (H x I0). rewrite F.
      apply in_or_app. right. left. auto.
    - intros x [<-|I0].
      + intros G. assert (existsb (id_eqb (fst ic)) seen = true); [|congruence]. apply existsb_exists. exists (fst ic). split; [auto|apply id_eqb_eq; auto].
      + intros G. apply (H x I0). apply in_or_app. auto.
  Qed.
  Lemma firsts_In seen l ic : In ic (firsts seen l) -> In ic l.
  Proof.
    revert seen. induction l as [|x l IH]; intros seen; [auto|]. cbn [firsts]. destruct (existsb _ seen); cbn; intuition eauto.
  Qed.
  Lemma firsts_covers seen l ic : In ic l -> In (fst ic) seen \/ exists d, In (fst ic, d) (firsts seen l).
  Proof.
    revert seen. induction l as [|x l IH]; intros seen; [intros []|]. cbn [firsts]. intros [<-|I0].
    - destruct (existsb _ seen) eqn:E.
      + left. apply existsb_exists in E. destruct E as (y & Y & E). apply id_eqb_eq in E. rewrite E. exact Y.
      + right. exists (snd x). left. destruct x; reflexivity.
    - destruct (existsb _ seen) eqn:E; [apply IH; auto|]. destruct (IH (seen ++ [fst x]) I0) as [G|(d & G)].
      + apply in_app_or in G. destruct G as [G|[G|[]]]; [auto|]. right. exists (snd x). left. rewrite <- G. destruct x; reflexivity.
      + right. exists d. right. exact G.
  Qed.

  Lemma firsts_app seen l1 l2 : exists seen', firsts seen (l1 ++ l2) = firsts seen l1 ++ firsts seen' l2.
  Proof.
    revert seen. induction l1 as [|x l1 IH]; intros seen; [exists seen; reflexivity|]. cbn [app firsts].
    destruct (existsb _ seen); [apply IH|]. destruct (IH (seen ++ [fst x])) as (s' & ->). exists s'. reflexivity.
  Qed.

End Shared.

Lemma filter_snd {X Y} (p : Y -> bool) (l : list (X * Y)) : map snd (filter (fun xy => p (snd xy)) l) = filter p (map snd l).
Proof. induction l as [|x l IH]; [reflexivity|]. cbn. destruct (p (snd x)); cbn; rewrite IH; reflexivity. Qed.

(** What one evaluation runs: the kept combiner computations, then the kept derived ones. *)

Definition body := metrics -> res metrics.

Definition kept (s : separated body) : list (computation body) := map snd (sp_base s) ++ map snd (sp_derived s).

Definition evaluate (l : list (computation body)) : res metrics :=
  let! s := filter_and_separate_computations l in add_derived_metrics (map cp_body (kept s)) [].

Lemma C36_computed_once_pf :
  forall (B : Type) (l : list (computation B)) s, filter_and_separate_computations l = Ok s ->
    forall bucket p, In (bucket, p) [(sp_base s, is_base); (sp_derived s, is_derived); (sp_cross s, is_cross); (sp_ci s, is_ci)] ->
      NoDup (map fst bucket) /\
      (forall i c, In (i, c) bucket -> p c = true /\ comp_id c = Ok i /\
         exists l1 l2, l = l1 ++ c :: l2 /\ forall d, In d l1 -> p d = true -> comp_id d <> Ok i) /\
      (forall c, In c l -> p c = true -> exists i d, comp_id c = Ok i /\ In (i, d) bucket).
Proof.
  intros B l s E bucket p HB. apply separate_spec in E. destruct E as (ids & M & S & E1 & E2 & E3 & E4).
  cbn [sp_base sp_derived sp_cross sp_ci map app] in *.
  assert (G : bucket = firsts [] (filter (fun ic => p (snd ic)) ids)).
  { cbn in HB. repeat (destruct HB as [HB|HB]; [injection HB as <- <-; assumption|]). destruct HB. }
  clear HB E1 E2 E3 E4 s.
  assert (ID : forall ic, In ic ids -> comp_id (snd ic) = Ok (fst ic)).
  { clear -M. revert ids M. induction l as [|c l IH]; intros ids M; [injection M as <-; intros ? []|].
    cbn [mapM] in M. unfold with_id at 1 in M. destruct (comp_id c) as [i|] eqn:F; [|discriminate]. cbn [bind] in M.
    destruct (mapM with_id l) as [t|]; [|discriminate]. cbn [bind] in M. injection M as <-. intros ic [<-|H]; [exact F|apply (IH t); auto]. }
  subst bucket. split; [apply firsts_NoDup|]. split.
  - intros i c I0. pose proof (firsts_In _ _ _ I0) as I1. apply filter_In in I1. destruct I1 as [I1 P]. cbn in P.
    split; [exact P|]. split; [apply (ID (i, c)); auto|]. clear M I1. subst l.
    assert (F : forall seen, In (i, c) (firsts seen (filter (fun ic => p (snd ic)) ids)) ->
      exists l1 l2, map snd ids = l1 ++ c :: l2 /\ forall d, In d l1 -> p d = true -> comp_id d <> Ok i).
    { clear I0. induction ids as [|[j d] ids IH]; intros seen I0; [destruct I0|]. cbn [map snd].
      cbn [filter snd] in I0. destruct (p d) eqn:PD.
      - cbn [firsts fst] in I0. destruct (existsb (id_eqb j) seen) eqn:X.
        + destruct (IH (fun ic h => ID ic (or_intror h)) seen I0) as (l1 & l2 & -> & H). exists (d :: l1), l2. split; [reflexivity|].
          intros d' [<-|H'] PD'; [|auto]. pose proof (ID (j, d) (or_introl eq_refl)) as K. cbn in K. rewrite K. intros [= ->].
          destruct (firsts_NoDup seen (filter (fun ic => p (snd ic)) ids)) as [_ N]. apply (N (i, c) I0). cbn.
          apply existsb_exists in X. destruct X as (y & Y & X). apply id_eqb_eq in X. subst y. exact Y.
        + destruct I0 as [I0|I0].
          * injection I0 as -> ->. exists [], (map snd ids). split; [reflexivity|]. intros d [].
          * destruct (IH (fun ic h => ID ic (or_intror h)) (seen ++ [j]) I0) as (l1 & l2 & -> & H). exists (d :: l1), l2. split; [reflexivity|].
            intros d' [<-|H'] PD'; [|auto]. pose proof (ID (j, d) (or_introl eq_refl)) as K. cbn in K. rewrite K. intros [= ->].
            destruct (firsts_NoDup (seen ++ [i]) (filter (fun ic => p (snd ic)) ids)) as [_ N]. apply (N (i, c) I0). apply in_or_app. right. left. auto.
      - destruct (IH (fun ic h => ID ic (or_intror h)) seen I0) as (l1 & l2 & -> & H). exists (d :: l1), l2. split; [reflexivity|].
        intros d' [<-|H'] PD'; [congruence|auto]. }
    apply (F [] I0).
  - intros c I0 P. rewrite <- S in I0. apply in_map_iff in I0. destruct I0 as ([i c'] & C' & I0). cbn in C'. subst c'.
    exists i. destruct (firsts_covers [] (filter (fun ic => p (snd ic)) ids) (i, c)) as [[]|(d & D)].
    { apply filter_In. auto. }
    exists d. split; [apply (ID (i, c) I0)|exact D].
Qed.

Definition comp := computation body.

(** A computation may output k; always outputs k when it succeeds. *)

Definition writes (c : comp) (k : metric_key) : Prop := exists m o, cp_body c m = Ok o /\ mlast o k <> None.

Definition always (c : comp) (k : metric_key) : Prop := forall m o, cp_body c m = Ok o -> mlast o k <> None.

Section Programs.
  Context (L : list comp) (needs : comp -> list metric_key).
  Hypothesis writer : forall c d k, In c L -> In d L -> writes c k -> writes d k -> c = d.
  Hypothesis local : forall c m m', In c L -> (forall k, In k (needs c) -> mget m k = mget m' k) -> cp_body c m = cp_body c m'.

  Definition ordered (P : list comp) : Prop :=
    forall P1 c P2, P = P1 ++ c :: P2 -> forall k, In k (needs c) -> exists d, In d P1 /\ always d k.
  Definition execute (P : list comp) : res metrics := add_derived_metrics (map cp_body P) [].

  Lemma execute_snoc P c : execute (P ++ [c]) = let! r := execute P in let! o := cp_body c r in Ok (dupdate okey_eqb r o).
  Proof.
    unfold execute, add_derived_metrics. generalize (@nil (okey * val)). induction P as [|d P IH]; intros m.
    - cbn [app map foldM bind]. destruct (cp_body c m); reflexivity.
    - cbn [app map foldM]. destruct (cp_body d m); [|reflexivity]. cbn [bind]. apply IH.
  Qed.

  Lemma ordered_prefix P Q : ordered (P ++ Q) -> ordered P.
  Proof. intros H P1 c P2 ->. apply (H P1 c (P2 ++ Q)). rewrite <- app_assoc. reflexivity. Qed.

  Lemma executed P : forall r, NoDup P -> incl P L -> ordered P -> execute P = Ok r ->
    (forall c, In c P -> exists o, cp_body c r = Ok o /\ forall k v, mlast o k = Some v -> mget r k = Some v) /\
    (forall k v, mget r k = Some v -> exists c o, In c P /\ cp_body c r = Ok o /\ mlast o k = Some v).
  Proof.
    induction P as [|c P IH] using rev_ind; intros r N I0 W E.
    - injection E as <-. split; [intros ? []|]. intros k v H. discriminate.
    - rewrite execute_snoc in E. destruct (execute P) as [r'|] eqn:E'; [|discriminate]. cbn [bind] in E.
      destruct (cp_body c r') as [o|] eqn:O; [|discriminate]. cbn [bind] in E. injection E as <-.
      assert (N' : NoDup P /\ ~ In c P).
      { apply NoDup_remove in N. rewrite app_nil_r in N. exact N. }
      destruct N' as [N' NC]. assert (I' : incl P L) by (intros x h; apply I0, in_or_app; auto).
      assert (CL : In c L) by (apply I0, in_or_app; right; left; auto).
      destruct (IH r' N' I' (ordered_prefix _ _ W) eq_refl) as [A B].
      assert (fresh : forall d od k, In d P -> cp_body d r' = Ok od -> mlast od k <> None -> mlast o k = None).
      { intros d od k D OD K. destruct (mlast o k) eqn:F; [|reflexivity]. exfalso. apply NC.
        replace c with d; [exact D|]. apply (writer d c k); [auto|auto|exists r', od; auto|exists r', o; split; [auto|congruence]]. }
      assert (same : forall d k, (In d P \/ d = c) -> In k (needs d) -> mget (dupdate okey_eqb r' o) k = mget r' k).
      { intros d k D K. assert (Q : exists e, In e P /\ always e k).
        { destruct D as [D| ->].
          - apply in_split in D. destruct D as (P1 & P2 & D). destruct (W P1 d (P2 ++ [c])) with (k := k) as (e & X & Y); auto.
            { rewrite D, <- app_assoc. reflexivity. } exists e. split; [|exact Y]. rewrite D. apply in_or_app. auto.
          - destruct (W P c []) with (k := k) as (e & X & Y); eauto. }
        destruct Q as (e & X & Y). destruct (A e X) as (oe & OE & _). rewrite mget_dupdate, (fresh e oe k X OE (Y _ _ OE)). reflexivity. }
      split.
      + intros d D. apply in_app_or in D. destruct D as [D|[<-|[]]].
        * destruct (A d D) as (od & OD & V). exists od. rewrite (local d (dupdate okey_eqb r' o) r'); [|auto|intros k K; apply (same d); auto].
          split; [exact OD|]. intros k v H. rewrite mget_dupdate, (fresh d od k D OD); [apply V, H|congruence].
        * exists o. rewrite (local c (dupdate okey_eqb r' o) r'); [|auto|intros k K; apply (same c); auto].
          split; [exact O|]. intros k v H. rewrite mget_dupdate, H. reflexivity.
      + intros k v H. rewrite mget_dupdate in H. destruct (mlast o k) as [w|] eqn:F.
        * injection H as ->. exists c, o. split; [apply in_or_app; right; left; auto|]. split; [|exact F].
          rewrite (local c (dupdate okey_eqb r' o) r'); [exact O|auto|intros k' K; apply (same c); auto].
        * destruct (B k v H) as (d & od & D & OD & V). exists d, od. split; [apply in_or_app; auto|]. split; [|exact V].
          rewrite (local d (dupdate okey_eqb r' o) r'); [exact OD|auto|intros k' K; apply (same d); auto].
  Qed.

  Lemma consistent P Q r q : NoDup P -> incl P L -> ordered P -> execute P = Ok r ->
    NoDup Q -> incl Q L -> ordered Q -> execute Q = Ok q ->
    (forall c, In c P -> In c Q -> cp_body c r = cp_body c q) /\
    (forall c, In c L -> (forall k, In k (needs c) -> exists d, In d P /\ always d k) ->
               (forall k, In k (needs c) -> exists d, In d Q /\ always d k) -> cp_body c r = cp_body c q).
  Proof.
    intros NP IP WP EP NQ IQ WQ EQ.
    destruct (executed P r NP IP WP EP) as [AP _]. destruct (executed Q q NQ IQ WQ EQ) as [AQ _].
    assert (step : forall c P', In c L -> (forall d, In d P' -> In d P) -> (forall d, In d P' -> In d Q -> cp_body d r = cp_body d q) ->
      (forall k, In k (needs c) -> exists d, In d P' /\ always d k) ->
      (forall k, In k (needs c) -> exists d, In d Q /\ always d k) -> cp_body c r = cp_body c q).
    { intros c P' CL SP H N1 N2. apply local; [exact CL|]. intros k K.
      destruct (N1 k K) as (d & D & DA). destruct (N2 k K) as (e & E & EA).
      destruct (AP d (SP d D)) as (od & OD & VD). destruct (AQ e E) as (oe & OE & VE).
      assert (d = e) by (apply (writer d e k); [auto|auto|exists r, od; split; [auto|apply (DA _ _ OD)]|exists q, oe; split; [auto|apply (EA _ _ OE)]]).
      subst e. rewrite (H d D E), OE in OD. injection OD as ->. destruct (mlast od k) as [v|] eqn:F; [|destruct (DA _ _ OE F)].
      rewrite (VD k v F), (VE k v F). reflexivity. }
    assert (first : forall c, In c P -> In c Q -> cp_body c r = cp_body c q).
    { assert (pre : forall P1 P2, P = P1 ++ P2 -> forall c, In c P1 -> In c Q -> cp_body c r = cp_body c q).
      { induction P1 as [|c P1 IH] using rev_ind; intros P2 E d D DQ; [destruct D|].
        apply in_app_or in D. rewrite <- app_assoc in E. cbn [app] in E. destruct D as [D|[<-|[]]]; [apply (IH _ E); auto|].
        apply (step c P1).
        - apply IQ, DQ.
        - intros x X. rewrite E. apply in_or_app. auto.
        - apply (IH _ E).
        - apply (WP P1 c P2 E).
        - apply in_split in DQ. destruct DQ as (Q1 & Q2 & DQ). intros k K. destruct (WQ Q1 c Q2 DQ k K) as (e & X & Y). exists e. split; [|exact Y]. rewrite DQ. apply in_or_app. auto. }
      intros c. apply (pre P []). rewrite app_nil_r. reflexivity. }
    split; [exact first|]. intros c CL N1 N2. apply (step c P); auto.
  Qed.

  (** A program all of whose computations occur in programs that succeed, succeeds. *)
  Lemma succeeds P : NoDup P -> incl P L -> ordered P ->
    (forall c, In c P -> exists Q q, In c Q /\ NoDup Q /\ incl Q L /\ ordered Q /\ execute Q = Ok q) ->
    exists r, execute P = Ok r.
  Proof.
    induction P as [|c P IH] using rev_ind; intros N I0 W H; [eexists; reflexivity|].
    assert (N' : NoDup P) by (apply NoDup_remove in N; rewrite app_nil_r in N; apply N).
    assert (I' : incl P L) by (intros x h; apply I0, in_or_app; auto).
    assert (W' := ordered_prefix _ _ W).
    destruct (IH N' I' W') as (r & E); [intros x X; apply H, in_or_app; auto|].
    rewrite execute_snoc, E. cbn [bind].
    destruct (H c) as (Q & q & CQ & NQ & IQ & WQ & EQ); [apply in_or_app; right; left; auto|].
    destruct (consistent P Q r q N' I' W' E NQ IQ WQ EQ) as [_ C2].
    rewrite (C2 c); [| apply I0, in_or_app; right; left; auto | |].
    - destruct (executed Q q NQ IQ WQ EQ) as [A _]. destruct (A c CQ) as (o & -> & _). cbn [bind]. eexists; reflexivity.
    - intros k K. apply (W P c []); auto.
    - apply in_split in CQ. destruct CQ as (Q1 & Q2 & CQ). intros k K. destruct (WQ Q1 c Q2 CQ k K) as (e & X & Y). exists e. split; [|exact Y]. rewrite CQ. apply in_or_app. auto.
  Qed.

End Programs.

Lemma firsts_split {B} (l : list (computation_id * computation B)) : forall seen b1 x b2, firsts seen l = b1 ++ x :: b2 ->
  exists l1 l2, l = l1 ++ x :: l2 /\ forall y, In y l1 -> In (fst y) (seen ++ map fst b1).
Proof.
  induction l as [|y l IH]; intros seen b1 x b2 E; [destruct b1; discriminate|]. cbn [firsts] in E.
  destruct (existsb (id_eqb (fst y)) seen) eqn:F.
  - destruct (IH _ _ _ _ E) as (l1 & l2 & -> & H). exists (y :: l1), l2. split; [reflexivity|]. intros z [<-|Z]; [|auto].
    apply existsb_exists in F. destruct F as (i & I0 & F). apply id_eqb_eq in F. rewrite F. apply in_or_app. auto.
  - destruct b1 as [|z b1]; cbn in E; injection E as -> E.
    + exists [], l. split; [reflexivity|]. intros ? [].
    + destruct (IH _ _ _ _ E) as (l1 & l2 & -> & H). exists (z :: l1), l2. split; [reflexivity|]. intros w [<-|Z].
      * apply in_or_app. right. left. auto.
      * specialize (H w Z). rewrite <- app_assoc in H. exact H.
Qed.

Lemma with_ids {B} (l : list (computation B)) ids : mapM with_id l = Ok ids -> forall ic, In ic ids -> comp_id (snd ic) = Ok (fst ic).
Proof.
  revert ids. induction l as [|c l IH]; intros ids M; [injection M as <-; intros ? []|].
  cbn [mapM] in M. unfold with_id at 1 in M. destruct (comp_id c) as [i|] eqn:F; [|discriminate]. cbn [bind] in M.
  destruct (mapM with_id l) as [t|]; [|discriminate]. cbn [bind] in M. injection M as <-. intros ic [<-|H]; [exact F|apply (IH t); auto].
Qed.

Lemma separate_total {B} (l : list (computation B)) : (forall c, In c l -> exists i, comp_id c = Ok i) ->
  exists s, filter_and_separate_computations l = Ok s.
Proof.
  unfold filter_and_separate_computations. generalize (@Separated B [] [] [] []). induction l as [|c l IH]; intros s H; [eexists; reflexivity|].
  cbn [foldM]. unfold separate_step at 1. destruct (H c (or_introl eq_refl)) as (i & ->). cbn [bind]. apply IH. intros d D. apply H. right. exact D.
Qed.

Section Kept.
  Context (L : list comp).
  Hypothesis ids_tell : forall c d i, In c L -> In d L -> is_base c = is_base d -> comp_id c = Ok i -> comp_id d = Ok i -> c = d.

  Lemma firsts_same (p : comp -> bool) l ids : incl l L -> (forall c d, p c = true -> p d = true -> is_base c = is_base d) ->
    mapM with_id l = Ok ids -> map snd ids = l ->
    NoDup (map snd (firsts [] (filter (fun ic => p (snd ic)) ids))) /\
    (forall c, In c (map snd (firsts [] (filter (fun ic => p (snd ic)) ids))) <-> In c l /\ p c = true).
  Proof.
    intros IL PB M S. pose proof (with_ids l ids M) as ID.
    set (F := firsts [] (filter (fun ic => p (snd ic)) ids)).
    assert (G : forall ic, In ic F -> comp_id (snd ic) = Ok (fst ic) /\ In (snd ic) l /\ p (snd ic) = true).
    { intros ic I0. apply firsts_In, filter_In in I0. destruct I0 as [I0 P]. split; [auto|]. split; [|auto]. rewrite <- S. apply in_map. exact I0. }
    split.
    - destruct (firsts_NoDup [] (filter (fun ic => p (snd ic)) ids)) as [N _]. fold F in N. clearbody F.
      induction F as [|ic F IH]; [constructor|]. cbn [map] in *. inversion N as [|? ? N1 N2]; subst. constructor.
      + intros I0. apply N1. apply in_map_iff in I0. destruct I0 as (jc & E & I0). apply in_map_iff. exists jc. split; [|exact I0].
        destruct (G ic (or_introl eq_refl)) as [G1 _]. destruct (G jc (or_intror I0)) as [G2 _]. rewrite E in G2. congruence.
      + apply IH; [intros; apply G; right; auto|exact N2].
    - intros c. split.
      + intros I0. apply in_map_iff in I0. destruct I0 as (ic & <- & I0). apply G. exact I0.
      + intros [I0 P]. pose proof I0 as I1. rewrite <- S in I0. apply in_map_iff in I0. destruct I0 as ([i c'] & E & I0). cbn in E. subst c'.
        destruct (firsts_covers [] (filter (fun ic => p (snd ic)) ids) (i, c)) as [[]|(d & D)]; [apply filter_In; auto|].
        fold F in D. cbn [fst] in D. destruct (G _ D) as (G1 & G2 & G3). cbn in *.
        replace c with d; [apply in_map_iff; exists (i, d); auto|].
        apply (ids_tell d c i); auto. apply (ID (i, c) I0).
  Qed.

  Context (needs : comp -> list metric_key).
  Hypothesis base_needs : forall c, In c L -> is_base c = true -> needs c = [].

  Definition closed (g : list comp) : Prop :=
    forall g1 c g2 k, g = g1 ++ c :: g2 -> In k (needs c) ->
      exists d, always d k /\ ((In d g1 /\ is_derived d = true) \/ (In d g /\ is_base d = true)).

  Lemma kept_spec l s : incl l L -> (forall c, In c l -> is_base c = true \/ is_derived c = true) -> closed l ->
    filter_and_separate_computations l = Ok s ->
    NoDup (kept s) /\ (forall c, In c (kept s) <-> In c l) /\ ordered needs (kept s).
  Proof.
    intros IL BD CL E. apply separate_spec in E. destruct E as (ids & M & S & E1 & E2 & _ & _). cbn [sp_base sp_derived map app] in *.
    assert (nb : forall c : comp, is_base c = true -> is_derived c = true -> False).
    { intros c. unfold is_base, is_derived. destruct (cp_kind c); discriminate. }
    assert (db : forall c : comp, is_derived c = true -> is_base c = false).
    { intros c. unfold is_base, is_derived. destruct (cp_kind c); [discriminate|reflexivity|discriminate|discriminate]. }
    destruct (firsts_same is_base l ids IL) as [NB HB]; [intros c d H1 H2; congruence|auto|auto|].
    destruct (firsts_same is_derived l ids IL) as [ND HD]; [intros c d H1 H2; rewrite (db c H1), (db d H2); reflexivity|auto|auto|].
    unfold kept. rewrite E1, E2. unfold comp in *.
    set (FB := firsts [] (filter (fun ic => is_base (snd ic)) ids)) in *.
    set (FD := firsts [] (filter (fun ic => is_derived (snd ic)) ids)) in *.
    assert (HI : forall c, In c (map snd FB ++ map snd FD) <-> In c l).
    { intros c. rewrite in_app_iff, HB, HD. split; [tauto|]. intros I0. destruct (BD c I0); auto. }
    split; [|split; [exact HI|]].
    - apply NoDup_app; [exact NB|exact ND|]. intros c C1 C2. apply HB in C1. apply HD in C2. apply (nb c); tauto.
    - intros P1 c P2 E k K. assert (CI : In c l) by (apply HI; rewrite E; apply in_or_app; right; left; auto).
      destruct (BD c CI) as [CB|CD].
      { rewrite (base_needs c (IL c CI) CB) in K. destruct K. }
      (* c is among the derived ones: P1 = base ++ earlier derived *)
      assert (Q : exists b1 b2 i, FD = b1 ++ (i, c) :: b2 /\ P1 = map snd FB ++ map snd b1).
      { clear -E HB nb CD. revert E. assert (HB' : forall d, In d (map snd FB) -> is_base d = true) by (intros d; rewrite HB; tauto). clear HB.
        revert P1. induction FB as [|x FB IH]; intros P1 E.
        - cbn [map app] in *. revert P1 E. induction FD as [|[i y] FD IHD]; intros P1 E; [destruct P1; discriminate|].
          destruct P1 as [|z P1]; cbn in E; injection E as E0 E1.
          + subst y. exists [], FD, i. auto.
          + subst z. destruct (IHD P1 E1) as (b1 & b2 & j & -> & ->). exists ((i, y) :: b1), b2, j. auto.
        - destruct P1 as [|z P1]; cbn in E; injection E as E0 E1.
          + exfalso. apply (nb c); [|auto]. apply HB'. left. exact E0.
          + subst z. destruct (IH (fun d h => HB' d (or_intror h)) P1 E1) as (b1 & b2 & j & X & ->). exists b1, b2, j. auto. }
      destruct Q as (b1 & b2 & i & FDE & ->).
      pose proof FDE as FDE0. unfold FD in FDE. apply firsts_split in FDE. destruct FDE as (f1 & f2 & FE & FH). cbn [app] in FH.
      (* the split of ids at c *)
      assert (T : exists i1 i2, ids = i1 ++ (i, c) :: i2 /\ filter (fun ic => is_derived (snd ic)) i1 = f1).
      { clear -FE. revert f1 FE. induction ids as [|x ids IH]; intros f1 FE; [destruct f1; discriminate|]. cbn [filter] in FE.
        destruct (is_derived (snd x)) eqn:D.
        - destruct f1 as [|y f1]; cbn in FE; injection FE as -> FE; [exists [], ids; auto|].
          destruct (IH f1 FE) as (i1 & i2 & -> & <-). exists (y :: i1), i2. split; [reflexivity|]. cbn [filter]. rewrite D. reflexivity.
        - destruct (IH f1 FE) as (i1 & i2 & -> & <-). exists (x :: i1), i2. split; [reflexivity|]. cbn [filter]. rewrite D. reflexivity. }
      destruct T as (i1 & i2 & IE & <-).
      assert (LE : l = map snd i1 ++ c :: map snd i2) by (rewrite <- S, IE, map_app; reflexivity).
      destruct (CL _ _ _ k LE K) as (d & DA & [[D1 DD]|[D1 DB]]); exists d; (split; [|exact DA]); apply in_or_app.
      + right. apply in_map_iff in D1. destruct D1 as ([j d'] & X & D1). cbn in X. subst d'.
        assert (J : In j (map fst b1)) by (apply (FH (j, d)); apply filter_In; auto).
        apply in_map_iff in J. destruct J as ([j' e] & X & J). cbn in X. subst j'.
        assert (EF : In (j, e) FD).
        { rewrite FDE0. apply in_or_app. auto. }
        apply in_map_iff. exists (j, e). split; [|exact J]. cbn [snd].
        apply firsts_In, filter_In in EF. destruct EF as [EF ED]. cbn in ED.
        apply (ids_tell e d j).
        * apply IL. rewrite <- S. apply in_map_iff. exists (j, e). auto.
        * apply IL. rewrite <- S, IE, map_app. apply in_or_app. left. apply in_map_iff. exists (j, d). auto.
        * rewrite (db e ED), (db d DD). reflexivity.
        * apply (with_ids l ids M (j, e) EF).
        * apply (with_ids l ids M (j, d)). rewrite IE. apply in_or_app. auto.
      + left. apply HB. split; [exact D1|exact DB].
  Qed.

End Kept.

Section Together.
  Context (asked : list (list comp)) (needs : comp -> list metric_key).
  Let L := concat asked.
  Hypothesis kinds : forall c, In c L -> is_base c = true \/ is_derived c = true.
  Hypothesis ids_tell : forall c d i, In c L -> In d L -> is_base c = is_base d -> comp_id c = Ok i -> comp_id d = Ok i -> c = d.
  Hypothesis writer : forall c d k, In c L -> In d L -> writes c k -> writes d k -> c = d.
  Hypothesis local : forall c m m', In c L -> (forall k, In k (needs c) -> mget m k = mget m' k) -> cp_body c m = cp_body c m'.
  Hypothesis base_needs : forall c, In c L -> is_base c = true -> needs c = [].
  Hypothesis closed_all : forall g, In g asked -> closed needs g.
  Hypothesis alone : forall g, In g asked -> exists r, evaluate g = Ok r.

  Lemma in_L g : In g asked -> incl g L.
  Proof. intros G c C. apply in_concat. eauto. Qed.

  Lemma closed_together : closed needs L.
  Proof.
    unfold L. clear -closed_all. induction asked as [|g gs IH]; intros g1 c g2 k E K; [destruct g1; discriminate|].
    cbn [concat] in E.
    assert (Q : (exists h, g = g1 ++ c :: h) \/ (exists h, g1 = g ++ h /\ concat gs = h ++ c :: g2)).
    { clear -E. revert g1 E. induction g as [|x g IHg]; intros g1 E; [right; exists g1; auto|].
      destruct g1 as [|y g1]; cbn in E; injection E as -> E; [left; exists g; reflexivity|].
      destruct (IHg g1 E) as [(h & ->)|(h & -> & H)]; [left; exists h; reflexivity|right; exists h; auto]. }
    destruct Q as [(h & Q)|(h & -> & Q)].
    - destruct (closed_all g (or_introl eq_refl) g1 c h k Q K) as (d & A & [H|[H1 H2]]); exists d; (split; [exact A|]); [left; exact H|right]. split; [|exact H2]. apply in_or_app. auto.
    - destruct (IH (fun x h => closed_all x (or_intror h)) h c g2 k Q K) as (d & A & [[H1 H2]|[H1 H2]]); exists d; (split; [exact A|]); [left|right]; (split; [|exact H2]); apply in_or_app; auto.
  Qed.

  Lemma evaluated g r : In g asked -> evaluate g = Ok r -> exists Q, NoDup Q /\ incl Q L /\ ordered needs Q /\ execute Q = Ok r /\ (forall c, In c Q <-> In c g).
  Proof.
    intros G E. unfold evaluate in E. destruct (filter_and_separate_computations g) as [s|] eqn:S; [|discriminate]. cbn [bind] in E.
    destruct (kept_spec L ids_tell needs base_needs g s (in_L g G) (fun c h => kinds c (in_L g G c h)) (closed_all g G) S) as (N & H & O).
    exists (kept s). split; [exact N|]. split; [intros c C; apply (in_L g G), H, C|]. split; [exact O|]. split; [exact E|exact H].
  Qed.

  Lemma together : exists r, evaluate L = Ok r /\
    (forall g rg k v, In g asked -> evaluate g = Ok rg -> mget rg k = Some v -> mget r k = Some v) /\
    (forall k v, mget r k = Some v -> exists g rg, In g asked /\ evaluate g = Ok rg /\ mget rg k = Some v).
  Proof.
    destruct (separate_total L) as (s & S).
    { intros c C. apply in_concat in C. destruct C as (g & G & C). destruct (alone g G) as (r & E). unfold evaluate in E.
      destruct (filter_and_separate_computations g) as [s|] eqn:S; [|discriminate]. apply separate_spec in S. destruct S as (ids & M & S & _).
      rewrite <- S in C. apply in_map_iff in C. destruct C as ([i c'] & X & C). cbn in X. subst c'. exists i. apply (with_ids g ids M (i, c) C). }
    destruct (kept_spec L ids_tell needs base_needs L s (incl_refl L) kinds closed_together S) as (N & H & O).
    assert (I0 : incl (kept s) L) by (intros c C; apply H, C).
    destruct (succeeds L needs writer local (kept s) N I0 O) as (r & E).
    { intros c C. apply H in C. apply in_concat in C. destruct C as (g & G & C). destruct (alone g G) as (q & E).
      destruct (evaluated g q G E) as (Q & Q1 & Q2 & Q3 & Q4 & Q5). exists Q, q. split; [apply Q5; exact C|]. auto. }
    exists r. split; [unfold evaluate; rewrite S; exact E|].
    destruct (executed L needs writer local (kept s) r N I0 O E) as [A B].
    split.
    - intros g rg k v G EG V. destruct (evaluated g rg G EG) as (Q & Q1 & Q2 & Q3 & Q4 & Q5).
      destruct (executed L needs writer local Q rg Q1 Q2 Q3 Q4) as [_ B']. destruct (B' k v V) as (c & o & C & OC & VO).
      destruct (consistent L needs writer local (kept s) Q r rg N I0 O E Q1 Q2 Q3 Q4) as [C1 _].
      assert (CK : In c (kept s)) by (apply H, Q2, C). destruct (A c CK) as (o' & OC' & W). rewrite (C1 c CK C), OC in OC'. injection OC' as <-. apply W, VO.
    - intros k v V. destruct (B k v V) as (c & o & C & OC & VO). apply H in C. pose proof C as C'. apply in_concat in C. destruct C as (g & G & C).
      destruct (alone g G) as (q & EQ). destruct (evaluated g q G EQ) as (Q & Q1 & Q2 & Q3 & Q4 & Q5).
      exists g, q. split; [exact G|]. split; [exact EQ|].
      destruct (consistent L needs writer local (kept s) Q r q N I0 O E Q1 Q2 Q3 Q4) as [C1 _].
      destruct (executed L needs writer local Q q Q1 Q2 Q3 Q4) as [A' _]. destruct (A' c (proj2 (Q5 c) C)) as (o' & OC' & W).
      rewrite <- (C1 c (proj2 (H c) C') (proj2 (Q5 c) C)), OC in OC'. injection OC' as <-. apply W, VO.
  Qed.

End Together.

Lemma C36_values_as_alone_partial_pf :
  forall (asked : list (list comp)) (needs : comp -> list metric_key),
    (forall c, In c (concat asked) -> is_base c = true \/ is_derived c = true) ->
    (forall c d i, In c (concat asked) -> In d (concat asked) -> is_base c = is_base d ->
       comp_id c = Ok i -> comp_id d = Ok i -> c = d) ->
    (forall c d k, In c (concat asked) -> In d (concat asked) -> writes c k -> writes d k -> c = d) ->
    (forall c m m', In c (concat asked) -> (forall k, In k (needs c) -> mget m k = mget m' k) -> cp_body c m = cp_body c m') ->
    (forall c, In c (concat asked) -> is_base c = true -> needs c = []) ->
    (forall g, In g asked -> forall g1 c g2 k, g = g1 ++ c :: g2 -> In k (needs c) ->
       exists d, always d k /\ ((In d g1 /\ is_derived d = true) \/ (In d g /\ is_base d = true))) ->
    (forall g, In g asked -> exists r, evaluate g = Ok r) ->
    exists r, evaluate (concat asked) = Ok r /\
      (forall g rg k v, In g asked -> evaluate g = Ok rg -> mget rg k = Some v -> mget r k = Some v) /\
      (forall k v, mget r k = Some v -> exists g rg, In g asked /\ evaluate g = Ok rg /\ mget rg k = Some v).
Proof. exact together. Qed.

Definition counts_key := plain "_counts" "".

Definition counts_comp : comp :=
  Computation (Combine "_BinaryConfusionMatrixCombiner" []) [counts_key] (fun _ => Ok [(OKey IsMetric counts_key, Num (Fin (qz 6)))]).

Definition half_comp (name : string) : comp :=
  Computation Derive [plain name ""] (fun m => match mget m counts_key with
    | Some v => let! d := val_sub v (Num (Fin (qz 2))) in Ok [(OKey IsMetric (plain name ""), d)] | None => Err KeyError end).

Lemma C36_feature_sampler_dropped_refuted_pf :
  exists base fp fn ex, fp <> fn /\
    let sampler k := feature_sampler k ex (fun v => v) in
    (exists r, evaluate [base; sampler fn] = Ok r /\ mget r fn <> None) /\
    (exists r, evaluate [base; sampler fp; base; sampler fn] = Ok r /\ mget r fp <> None /\ mget r fn = None).
Proof.
  exists counts_comp, (plain "false_positive_feature_sampler" ""), (plain "false_negative_feature_sampler" ""), counts_key.
  split; [discriminate|]. cbv zeta. split; eexists.
  - split; [vm_compute; reflexivity|vm_compute; discriminate].
  - split; [vm_compute; reflexivity|]. split; [vm_compute; discriminate|vm_compute; reflexivity].
Qed.

(** The same schedule with every element replaced by some inputs. *)

Fixpoint smap {E X} (f : E -> list X) (s : sched E) : sched X :=
  match s with
  | Bundle xs => Bundle (flat_map f xs)
  | Merge t ts => Merge (smap f t) (map (smap f) ts)
  | Then t xs => Then (smap f t) (flat_map f xs)
  end.

Lemma smap_inputs {E X} (f : E -> list X) s : inputs (smap f s) = flat_map f (inputs s).
Proof.
  induction s using sched_ind'; cbn [smap inputs]; [reflexivity| |].
  - rewrite flat_map_app, IHs. f_equal. induction H as [|u us H _ IH]; [reflexivity|]. cbn [map flat_map]. rewrite flat_map_app, H, IH. reflexivity.
  - rewrite flat_map_app, IHs. reflexivity.
Qed.

(** What the computation in position i sees of a schedule of elements. *)

Definition of_column {A} (i : nat) (s : sched (element A)) : sched (data A) :=
  smap (fun e => match nth_error (fst e) i with Some (Some l) => l | _ => snd e end) s.

Section Columns.
  Context {A : Type}.
  Definition tuple_at (cs : list (column A)) (i : nat) : combiner (element A) (accs cs) unit :=
    {| c_create := tuple_create cs; c_add := fun a e => tuple_add_input cs i e a; c_merge := tuple_merge cs; c_extract := fun _ => tt |}.

  Lemma tuple_at_run c cs i s :
    run (tuple_at (c :: cs) i) s = (run (col_combiner c) (of_column i s), run (tuple_at cs (S i)) s).
  Proof.
    assert (F : forall xs a, fold_left (c_add (tuple_at (c :: cs) i)) xs a =
      (fold_left (c_add (col_combiner c)) (flat_map (fun e => item e i) xs) (fst a), fold_left (c_add (tuple_at cs (S i))) xs (snd a))).
    { induction xs as [|x xs IH]; intros a; [destruct a; reflexivity|]. cbn [fold_left flat_map]. rewrite IH, fold_left_app. reflexivity. }
    induction s using sched_ind'; cbn [run of_column smap].
    - rewrite F. reflexivity.
    - change (c_merge (tuple_at (c :: cs) i)) with (tuple_merge (c :: cs)). cbn [tuple_merge]. rewrite IHs. cbn [map fst snd].
      f_equal.
      + f_equal. f_equal. rewrite !map_map. induction H as [|u us H _ IH]; [reflexivity|]. cbn [map]. rewrite H, IH. reflexivity.
      + change (c_merge (tuple_at cs (S i))) with (tuple_merge cs). f_equal. f_equal. rewrite map_map. induction H as [|u us H _ IH]; [reflexivity|]. cbn [map]. rewrite H, IH. reflexivity.
    - rewrite F, IHs. reflexivity.
  Qed.

  Lemma tuple_outcome cs : forall i s m r,
    tuple_extract cs (run (tuple_at cs i) s) m = Ok r <->
    exists os, length os = length cs /\
      (forall j c, nth_error cs j = Some c -> exists o, nth_error os j = Some o /\ outcome (col_combiner c) (of_column (i + j) s) = Ok o) /\
      r = fold_left (dupdate okey_eqb) os m.
  Proof.
    induction cs as [|c cs IH]; intros i s m r.
    - cbn [tuple_extract]. split.
      + intros [= <-]. exists []. split; [reflexivity|]. split; [intros [|j] c H; discriminate|reflexivity].
      + intros (os & L & _ & ->). destruct os; [reflexivity|discriminate].
    - rewrite tuple_at_run. cbn [tuple_extract fst snd].
      change (c_extract (col_combiner c) (run (col_combiner c) (of_column i s))) with (outcome (col_combiner c) (of_column i s)).
      destruct (outcome (col_combiner c) (of_column i s)) as [o|e] eqn:O.
      + cbn [bind]. rewrite IH. split.
        * intros (os & L & H & ->). exists (o :: os). split; [cbn; congruence|]. split; [|reflexivity].
          intros [|j] d D; cbn in D |- *.
          -- injection D as <-. exists o. split; [reflexivity|]. rewrite Nat.add_0_r. exact O.
          -- destruct (H j d D) as (od & ? & ?). exists od. split; [auto|]. rewrite <- Nat.add_succ_comm. auto.
        * intros (os & L & H & ->). destruct os as [|o' os]; [discriminate|].
          destruct (H 0 c eq_refl) as (o1 & O1 & O2). cbn in O1. injection O1 as <-. rewrite Nat.add_0_r, O in O2. injection O2 as <-.
          exists os. split; [cbn in L; congruence|]. split; [|reflexivity]. intros j d D. destruct (H (S j) d D) as (od & ? & ?). exists od. split; [auto|].
          rewrite Nat.add_succ_comm. auto.
      + cbn [bind]. split; [discriminate|]. intros (os & L & H & _). destruct (H 0 c eq_refl) as (o1 & _ & O2). rewrite Nat.add_0_r, O in O2. discriminate.
  Qed.

End Columns.

Lemma same_run {A} (cs : list (column A)) s : run (computations_combine_fn cs) s = run (tuple_at cs 0) s.
Proof.
  induction s using sched_ind'; cbn [run]; [reflexivity| |].
  - rewrite IHs. cbn [computations_combine_fn tuple_at c_merge]. f_equal. f_equal. induction H as [|u us H _ IH]; [reflexivity|]. cbn [map]. rewrite H, IH. reflexivity.
  - rewrite IHs. reflexivity.
Qed.

Lemma C37_compound_is_union_of_parts_pf :
  forall (A : Type) (cs : list (column A)) (s : sched (element A)) (r : metrics),
    outcome (computations_combine_fn cs) s = Ok r <->
    exists os, length os = length cs /\
      (forall i c, nth_error cs i = Some c -> exists o, nth_error os i = Some o /\ outcome (col_combiner c) (of_column i s) = Ok o) /\
      r = fold_left (dupdate okey_eqb) os [].
Proof. intros A cs s r. unfold outcome at 1. rewrite same_run. apply (tuple_outcome cs 0 s [] r). Qed.

Lemma C37_parts_see_their_inputs_pf :
  forall (A : Type) i (s : sched (element A)),
    inputs (of_column i s) = flat_map (fun e => match nth_error (fst e) i with Some (Some l) => l | _ => snd e end) (inputs s).
Proof. intros A i s. apply smap_inputs. Qed.

Lemma union_get (os : list metrics) : forall m i o k, nth_error os i = Some o ->
  (forall j p, nth_error os j = Some p -> j <> i -> mlast p k = None) ->
  mget (fold_left (dupdate okey_eqb) os m) k = match mlast o k with Some v => Some v | None => mget m k end.
Proof.
  assert (N : forall os m k, (forall j p, nth_error os j = Some p -> mlast p k = None) -> mget (fold_left (dupdate okey_eqb) os m) k = mget m k).
  { induction os0 as [|p os0 IH]; intros m k H; [reflexivity|]. cbn [fold_left]. rewrite IH, mget_dupdate, (H 0 p eq_refl); [reflexivity|]. intros j q Q. apply (H (S j) q Q). }
  induction os as [|p os IH]; intros m i o k I0 H; [destruct i; discriminate|]. cbn [fold_left]. destruct i as [|i].
  - cbn in I0. injection I0 as ->. rewrite N, mget_dupdate; [reflexivity|]. intros j q Q. apply (H (S j) q Q). discriminate.
  - rewrite (IH _ i o k I0), mget_dupdate, (H 0 p eq_refl); [reflexivity|discriminate|]. intros j q Q J. apply (H (S j) q Q). congruence.
Qed.

Lemma C37_value_as_alone_pf :
  forall (A : Type) (cs : list (column A)) (s : sched (element A)) r i c k,
    outcome (computations_combine_fn cs) s = Ok r -> nth_error cs i = Some c ->
    (forall j d o, nth_error cs j = Some d -> j <> i -> outcome (col_combiner d) (of_column j s) = Ok o -> mlast o k = None) ->
    exists o, outcome (col_combiner c) (of_column i s) = Ok o /\ mget r k = mlast o k.
Proof.
  intros A cs s r i c k E I0 H. apply C37_compound_is_union_of_parts_pf in E. destruct E as (os & L & P & ->).
  destruct (P i c I0) as (o & O1 & O2). exists o. split; [exact O2|].
  rewrite (union_get os [] i o k O1); [destruct (mlast o k); reflexivity|].
  intros j p J N. assert (JL : j < length cs) by (rewrite <- L; apply nth_error_Some; congruence).
  destruct (nth_error cs j) as [d|] eqn:D; [|apply nth_error_None in D; lia].
  destruct (P j d D) as (o' & X & Y). rewrite J in X. injection X as <-. apply (H j d p D N Y).
Qed.

(** Counting the inputs and the non-empty inputs of two bundles. *)

Definition tally {A} (name : string) (p : data A -> bool) : column A :=
  Column Z {| c_create := 0%Z; c_add := fun a x => (if p x then a + 1 else a)%Z; c_merge := fun l => fold_right Z.add 0%Z l;
              c_extract := fun a => Ok [(OKey IsMetric (plain name ""), Num (Fin (qz a)))] |}.

Definition has_data {A} (d : data A) : bool := match d with Dict [] => false | _ => true end.

Lemma fits_merge {A} : forall f1 f2 (t : data A), unique_filter f1 -> unique_filter f2 -> fits f1 t -> fits f2 t -> fits (merge_filters f1 f2) t.
Proof.
  induction f1 as [fs1 IH] using filt_ind'. intros [fs2] t U1 U2 H1 H2.
  destruct fs1 as [|x1 fs1]; [destruct fs2; exact H1|]. destruct fs2 as [|x2 fs2]; [exact H2|].
  inversion H1 as [|? d F1]; subst. inversion H2 as [|? d' F2]; subst.
  inversion U1 as [? N1 V1]; subst. inversion U2 as [? N2 V2]; subst.
  set (l1 := x1 :: fs1) in *. set (l2 := x2 :: fs2) in *.
  assert (E : merge_filters (Filt l1) (Filt l2) =
    Filt (map (fun ks => (fst ks, match dget String.eqb l2 (fst ks) with Some s2 => merge_filters (snd ks) s2 | None => snd ks end)) l1
          ++ filter (fun kv => negb (dmem String.eqb l1 (fst kv))) l2)) by reflexivity.
  rewrite E. clearbody l1 l2. constructor. intros k sub v I0 V. apply in_app_or in I0. destruct I0 as [I0|I0].
  - apply in_map_iff in I0. destruct I0 as ([k' s1] & X & I0). cbn [fst snd] in X. injection X as <- <-.
    destruct (dget String.eqb l2 k') as [s2|] eqn:D.
    + apply dgetS_In in D. apply (IH k' s1 I0); eauto.
    + eapply F1; eauto.
  - apply filter_In in I0. eapply F2; [apply I0|exact V].
Qed.

Lemma merged_filter_spec {A} (e : data A) fs : forall acc,
  (acc = Filt [] \/ unique_filter acc /\ fits acc e /\ acc <> Filt []) ->
  (forall f, In f fs -> unique_filter f /\ fits f e /\ f <> Filt []) ->
  let m := fold_left (fun acc f => match acc with Filt [] => f | _ => merge_filters acc f end) fs acc in
  (fs <> [] \/ acc <> Filt [] -> unique_filter m /\ fits m e /\ m <> Filt []) /\
  (acc <> Filt [] -> forall p, covered acc p -> covered m p) /\ (forall f p, In f fs -> covered f p -> covered m p).
Proof.
  induction fs as [|f fs IH]; intros acc HA H; cbn [fold_left].
  - cbv zeta. split; [|split; [auto|intros ? ? []]]. intros [X|X]; [destruct (X eq_refl)|]. destruct HA as [HA|HA]; [contradiction|exact HA].
  - set (acc' := match acc with Filt [] => f | _ => merge_filters acc f end).
    assert (Q : unique_filter acc' /\ fits acc' e /\ acc' <> Filt [] /\ (acc <> Filt [] -> forall p, covered acc p -> covered acc' p) /\ forall p, covered f p -> covered acc' p).
    { destruct (H f (or_introl eq_refl)) as (U & F & N). destruct HA as [->|(UA & FA & NA)].
      - cbn in acc'. subst acc'. split; [auto|]. split; [auto|]. split; [auto|]. split; [intros X; destruct (X eq_refl)|auto].
      - assert (EA : acc' = merge_filters acc f) by (unfold acc'; destruct acc as [[|? ?]]; [destruct (NA eq_refl)|reflexivity]).
        destruct (merge_covered acc f UA U) as [UM CM]. rewrite EA. split; [exact UM|]. split; [apply fits_merge; auto|].
        split; [|split; [intros _ p P; apply CM; auto|intros p P; apply CM; auto]].
        intros X. assert (C0 : covered (merge_filters acc f) []) by (rewrite X; constructor). apply CM in C0.
        destruct C0 as [C0|C0]; inversion C0; subst; [apply NA|apply N]; reflexivity. }
    destruct Q as (U & F & N & C1 & C2).
    destruct (IH acc') as (I1 & I2 & I3); [right; auto|intros g G; apply H; right; auto|]. cbv zeta.
    split; [intros _; apply I1; right; exact N|]. split; [intros X p P; apply I2; [exact N|]; apply C1; auto|].
    intros g p [<-|G] P; [apply I2; [exact N|]; apply C2; exact P|apply (I3 g); auto].
Qed.

(** The data a computation asks for: the default inputs, or a filter of its own. *)

Inductive asks {A} : list (preprocessor A) -> filt -> Prop :=
| asks_default : asks [] (Filt [("labels", Filt []); ("predictions", Filt []); ("example_weights", Filt [])])
| asks_own f : asks [Standard f] f.

Lemma asks_in {A} (comps : list (list (preprocessor A))) ps f : In ps comps -> asks ps f -> In f (standard_filters false comps).
Proof.
  assert (G : forall b, In ps comps -> asks ps f -> (b = true -> ps <> []) -> In f (standard_filters b comps)).
  { induction comps as [|qs comps IH]; intros b I0 AS B; [destruct I0|].
    destruct I0 as [->|I0].
    - inversion AS as [E|g E]; subst; cbn [standard_filters].
      + destruct b; [destruct (B eq_refl eq_refl)|]. left. reflexivity.
      + left. reflexivity.
    - destruct qs as [|[g|g] [|q qs]]; cbn [standard_filters].
      + destruct (match ps as l return {l = []} + {l <> []} with [] => left eq_refl | x :: t => right (fun h => eq_ind (x :: t) (fun l => match l with [] => False | _ => True end) I [] h) end) as [->|NE].
        * inversion AS; subst. destruct b; [destruct (B eq_refl eq_refl)|]. left. reflexivity.
        * apply in_or_app. right. apply IH; auto.
      + right. apply IH; auto.
      + apply IH; auto.
      + apply IH; auto.
      + apply IH; auto. }
  intros I0 AS. apply G; auto. discriminate.
Qed.

Lemma in_asks {A} (comps : list (list (preprocessor A))) : forall b f, In f (standard_filters b comps) -> exists ps, In ps comps /\ asks ps f.
Proof.
  induction comps as [|qs comps IH]; intros b f; [intros []|].
  assert (K : forall b, In f (standard_filters b comps) -> exists ps, In ps (qs :: comps) /\ asks ps f).
  { intros b' H. destruct (IH b' f H) as (ps & ? & ?). exists ps. split; [right|]; auto. }
  destruct qs as [|[g|g] [|q qs]]; cbn [standard_filters]; intros H; try (apply K in H; exact H).
  - apply in_app_or in H. destruct H as [H|H]; [|apply K in H; exact H]. destruct b; [destruct H|]. destruct H as [<-|[]].
    exists []. split; [left; reflexivity|]. constructor.
  - destruct H as [<-|H]; [|apply K in H; exact H]. exists [Standard g]. split; [left; reflexivity|constructor].
Qed.

Lemma mapM_nth {X Y} (f : X -> res Y) l : forall ys i x, mapM f l = Ok ys -> nth_error l i = Some x -> exists y, nth_error ys i = Some y /\ f x = Ok y.
Proof.
  induction l as [|a l IH]; intros ys i x H I0; [destruct i; discriminate|].
  cbn [mapM] in H. destruct (f a) as [y|] eqn:F; [|discriminate]. cbn [bind] in H. destruct (mapM f l) as [zs|] eqn:G; [|discriminate]. injection H as <-.
  destruct i as [|i]; cbn in I0 |- *; [injection I0 as ->; eauto|]. apply IH; auto.
Qed.

Lemma C79_inputs_asked_for_partial_pf :
  forall (A : Type) (comps : list (list (preprocessor A))) (e : data A) (el : element A),
    unique_keys e ->
    (forall ps f, In ps comps -> asks ps f -> unique_filter f /\ fits f e /\ f <> Filt []) ->
    preprocess comps e = Ok el ->
    forall i ps f, nth_error comps i = Some ps -> asks ps f ->
      exists x, (match nth_error (fst el) i with Some (Some l) => l | _ => snd el end) = [x] /\
        forall p a, covered f p -> (leaf_at x p a <-> leaf_at e p a).
Proof.
  intros A comps e el UE H P i ps f I0 AS. unfold preprocess in P.
  set (own := mapM _ comps) in P. destruct own as [os|] eqn:OW; [|discriminate]. cbn [bind] in P.
  assert (IN := asks_in comps ps f (nth_error_In _ _ I0) AS).
  destruct (merged_filter_spec e (standard_filters false comps) (Filt [])) as (M1 & _ & M3); [left; reflexivity| |].
  { intros g G. apply in_asks in G. destruct G as (qs & Q1 & Q2). apply (H qs); auto. }
  cbv zeta in M1, M3. fold (merged_filter (standard_filters false comps)) in M1, M3.
  set (fs := standard_filters false comps) in *.
  destruct fs as [|f0 fs']; [destruct IN|]. set (fs := f0 :: fs') in *.
  destruct M1 as (MU & MF & MN); [left; unfold fs; discriminate|].
  destruct (include_spec (merged_filter fs) e UE MU MF) as (x & X1 & X2 & X3).
  destruct (merged_filter fs) as [[|m ms]] eqn:ME; [destruct (MN eq_refl)|].
  assert (SP : standard_process (Filt (m :: ms)) e = Ok [x]) by (unfold standard_process; rewrite X1; reflexivity).
  rewrite SP in P. cbn [bind mapM] in P.
  destruct (to_standard_metric_inputs (Filt (m :: ms)) x) as [y|] eqn:T; [|discriminate]. cbn [bind] in P. injection P as <-.
  assert (TY : y = x).
  { unfold to_standard_metric_inputs in T. repeat match type of T with (if ?b then _ else _) = _ => destruct b; try discriminate end. congruence. }
  subst y. destruct (mapM_nth _ _ _ i ps OW I0) as (o & O1 & O2). cbn [fst snd]. rewrite O1.
  assert (SH : shared ps = Some f) by (inversion AS; subst; reflexivity). rewrite SH in O2. injection O2 as <-.
  exists x. split; [reflexivity|]. intros p a C. rewrite X3. split; [intros [L _]; exact L|]. intros L. split; [exact L|]. apply (M3 f); auto.
Qed.

(** The examples made from an example by preprocessors one after the other. *)

Inductive reaches {A} : list (data A -> res (list (data A))) -> data A -> data A -> Prop :=
| reaches_nil e : reaches [] e e
| reaches_cons g gs e l y x : g e = Ok l -> In y l -> reaches gs y x -> reaches (g :: gs) e x.

Lemma chain_reaches {A} gs : forall (es l : list (data A)),
  foldM (fun es p => let! ls := mapM (run_preprocessor p) es in Ok (concat ls)) (map Custom gs) es = Ok l ->
  forall x, In x l <-> exists y, In y es /\ reaches gs y x.
Proof.
  induction gs as [|g gs IH]; intros es l; cbn [map foldM].
  - intros [= <-] x. split; [intros H; exists x; split; [exact H|constructor]|]. intros (y & Y & R). inversion R; subst. exact Y.
  - destruct (mapM _ es) as [ls|] eqn:M; [|discriminate]. cbn [bind]. intros F x. rewrite (IH _ _ F).
    assert (Q : forall y, In y (concat ls) <-> exists z l', In z es /\ g z = Ok l' /\ In y l').
    { clear F IH. revert ls M. induction es as [|z es IH]; intros ls M.
      - injection M as <-. intros y. split; [intros []|intros (? & ? & [] & _)].
      - cbn [mapM] in M. cbn [run_preprocessor] in M. destruct (g z) as [l'|] eqn:G; [|discriminate]. cbn [bind] in M.
        destruct (mapM _ es) as [ls'|]; [|discriminate]. injection M as <-. intros y. cbn [concat]. rewrite in_app_iff, (IH ls' eq_refl). split.
        + intros [H|(w & l'' & W & ? & ?)]; [exists z, l'; split; [left; reflexivity|auto]|exists w, l''; split; [right; exact W|auto]].
        + intros (w & l'' & [<-|W] & G' & Y); [left; congruence|right; exists w, l''; auto]. }
    split.
    + intros (y & Y & R). apply Q in Y. destruct Y as (z & l' & Z & G & Y). exists z. split; [exact Z|]. econstructor; eauto.
    + intros (z & Z & R). inversion R as [|? ? ? l' y ? G Y R']; subst. exists y. split; [apply Q; exists z, l'; auto|exact R'].
Qed.

Lemma C79_own_preprocessors_pf :
  forall (A : Type) (comps : list (list (preprocessor A))) (e : data A) (el : element A) i gs,
    preprocess comps e = Ok el -> gs <> [] -> nth_error comps i = Some (map Custom gs) ->
    exists l, nth_error (fst el) i = Some (Some l) /\ forall x, In x l <-> reaches gs e x.
Proof.
  intros A comps e el i gs P N C. unfold preprocess in P.
  set (own := mapM _ comps) in P. destruct own as [os|] eqn:OW; [|discriminate]. cbn [bind] in P.
  assert (F : fst el = os).
  { destruct (standard_filters false comps); [injection P as <-; reflexivity|].
    destruct (standard_process _ e) as [es|]; [|discriminate]. cbn [bind] in P. destruct (mapM _ es); [|discriminate]. injection P as <-. reflexivity. }
  rewrite F. destruct (mapM_nth _ _ _ i _ OW C) as (o & O1 & O2).
  destruct gs as [|g gs]; [destruct (N eq_refl)|]. cbn [map shared] in O2.
  destruct (chain_preprocessors _ e) as [es|] eqn:CH; [|discriminate]. cbn [bind] in O2. injection O2 as <-. exists es. split; [exact O1|].
  intros x. rewrite (chain_reaches (g :: gs) [e] es CH). split; [intros (y & [<-|[]] & R); exact R|intros R; exists e; split; [left; reflexivity|exact R]].
Qed.

(** A labels and weights example with a feature; one computation doubles the examples. *)

Definition an_example : data nat :=
  Dict [("labels", Leaf 1); ("predictions", Leaf 2); ("example_weights", Leaf 3); ("features", Dict [("x", Leaf 4); ("y", Leaf 5)])].

Lemma C79_empty_filter_refuted_pf :
  exists (e : data nat) (all labels : list (preprocessor nat)),
    preprocess [all] e = Ok ([None], [Dict []; e]) /\
    preprocess [all; labels] e = Ok ([None; None], [Dict [("labels", Leaf 1)]]) /\
    e <> Dict [("labels", Leaf 1)].
Proof.
  exists an_example, [Standard (Filt [])], [Standard (Filt [("labels", Filt [])])].
  split; [reflexivity|]. split; [vm_compute; reflexivity|discriminate].
Qed.

(** A computation reporting a fixed value under a key. *)

Definition constant {A} (k : okey) (v : val) : column A :=
  Column unit {| c_create := tt; c_add := fun _ _ => tt; c_merge := fun _ => tt; c_extract := fun _ => Ok [(k, v)] |}.

Lemma C80_plot_replaces_metric_refuted_pf :
  exists (k : metric_key) (x y : val), x <> y /\
    forall (A : Type) (s : sched (element A)),
    exists r, outcome (computations_combine_fn [constant (OKey IsMetric k) x; constant (OKey IsPlot k) y]) s = Ok r /\
      filter_by_key_type IsMetric r = [(OKey IsMetric k, y)] /\ filter_by_key_type IsPlot r = [].
Proof.
  exists (plain "calibration" "m"), (Num (Fin 1%Qc)), (Other "plot"). split; [discriminate|]. intros A s.
  exists [(OKey IsMetric (plain "calibration" "m"), Other "plot")]. split; [|split; reflexivity].
  apply C37_compound_is_union_of_parts_pf.
  exists [[(OKey IsMetric (plain "calibration" "m"), Num (Fin 1%Qc))]; [(OKey IsPlot (plain "calibration" "m"), Other "plot")]].
  split; [reflexivity|]. split; [|reflexivity].
  intros [|[|i]] c C; cbn in C; [injection C as <-|injection C as <-|destruct i; discriminate]; eexists; (split; [reflexivity|]); reflexivity.
Qed.

Lemma C80_types_partition_results_partial_pf :
  forall (m : metrics) k v,
    In (k, v) m <-> In (k, v) (filter_by_key_type IsMetric m) \/ In (k, v) (filter_by_key_type IsPlot m) \/ In (k, v) (filter_by_key_type IsAttributions m).
Proof.
  intros m k v. unfold filter_by_key_type. rewrite !filter_In. cbn [fst]. destruct (ok_class k); cbn [class_eqb]; intuition congruence.
Qed.

Lemma mapM_In {X Y} (f : X -> res Y) l : forall ys, mapM f l = Ok ys -> forall y, In y ys <-> exists x, In x l /\ f x = Ok y.
Proof.
  induction l as [|a l IH]; intros ys H y; cbn [mapM] in H.
  - injection H as <-. split; [intros []|intros (? & [] & _)].
  - destruct (f a) as [z|] eqn:F; [|discriminate]. cbn [bind] in H. destruct (mapM f l) as [zs|]; [|discriminate]. injection H as <-. cbn [In].
    rewrite (IH zs eq_refl). split.
    + intros [<-|(x & ? & ?)]; [exists a; auto|exists x; auto].
    + intros (x & [<-|?] & ?); [left; congruence|right; exists x; auto].
Qed.

Lemma C81_pairs_compared_once_partial_pf :
  forall (S : Type) (applicable : S -> skey -> bool) compare base specs (sliced : list (skey * metrics)) out,
    NoDup (map fst sliced) ->
    cross_of applicable compare base specs sliced = Ok out ->
    NoDup (map fst out) /\
    forall b c m, In ((b, c), m) out <->
      exists mb mc, In (b, mb) sliced /\ In (c, mc) sliced /\ applicable base b = true /\
        (specs <> [] /\ (exists s, In s specs /\ applicable s c = true) \/ specs = [] /\ applicable base c = false) /\
        cross_slice_metrics compare mb mc = Ok m.
Proof.
  intros S applicable compare base specs sliced out ND E. unfold cross_of in E. cbv zeta in E.
  set (bases := filter (fun km => applicable base (fst km)) sliced) in E.
  set (comps := match specs with [] => _ | _ => _ end) in E.
  destruct (mapM _ bases) as [ls|] eqn:M; [|discriminate]. cbn [bind] in E. injection E as <-.
  assert (CO : forall c mc, In (c, mc) comps <-> In (c, mc) sliced /\
    (specs <> [] /\ (exists s, In s specs /\ applicable s c = true) \/ specs = [] /\ applicable base c = false)).
  { intros c mc. unfold comps. destruct specs as [|s0 specs'].
    - rewrite filter_In. cbn [fst]. rewrite negb_true_iff. intuition congruence.
    - rewrite filter_In. cbn [fst]. rewrite existsb_exists. intuition congruence. }
  assert (NC : NoDup (map fst comps)).
  { assert (G : forall p, NoDup (map fst (filter p sliced))).
    { intros p. clear -ND. induction sliced as [|x l IH]; [constructor|]. cbn [map] in ND. inversion ND; subst. cbn [filter].
      destruct (p x); auto. cbn [map]. constructor; auto. intros X. apply H1. apply in_map_iff in X. destruct X as (y & Y & Z). apply filter_In in Z. rewrite <- Y. apply in_map. apply Z. }
    unfold comps. destruct specs; apply G. }
  assert (NB : NoDup (map fst bases)).
  { unfold bases. clear -ND. induction sliced as [|x l IH]; [constructor|]. cbn [map] in ND. inversion ND; subst. cbn [filter].
    destruct (applicable base (fst x)); auto. cbn [map]. constructor; auto. intros X. apply H1. apply in_map_iff in X. destruct X as (y & Y & Z). apply filter_In in Z. rewrite <- Y. apply in_map. apply Z. }
  split.
  - clear CO. clearbody comps bases. revert ls M. induction bases as [|b bases IH]; intros ls M.
    + injection M as <-. constructor.
    + cbn [mapM] in M. destruct (mapM _ comps) as [l|] eqn:L; [|discriminate]. cbn [bind] in M.
      destruct (mapM _ bases) as [ls'|] eqn:M'; [|discriminate]. injection M as <-. cbn [concat]. rewrite map_app.
      cbn [map] in NB. inversion NB as [|? ? NB1 NB2]; subst. specialize (IH NB2 ls' eq_refl).
      assert (KL : map fst l = map (fun c => (fst b, fst c)) comps).
      { clear -L. revert l L. induction comps as [|c comps IH]; intros l L; [injection L as <-; reflexivity|].
        cbn [mapM] in L. destruct (cross_slice_metrics compare (snd b) (snd c)) as [m|]; [|discriminate]. cbn [bind] in L.
        destruct (mapM _ comps) as [l'|]; [|discriminate]. injection L as <-. cbn [map fst]. f_equal. apply IH. reflexivity. }
      apply NoDup_app; [|exact IH|].
      * rewrite KL. clear -NC. induction comps as [|c comps IH]; [constructor|]. cbn [map] in NC |- *. inversion NC; subst. constructor; auto.
        intros X. apply in_map_iff in X. destruct X as (y & Y & Z). apply H1. injection Y as Y. rewrite <- Y. apply in_map, Z.
      * intros q Q1 Q2. rewrite KL in Q1. apply in_map_iff in Q1. destruct Q1 as (c & <- & _).
        apply in_map_iff in Q2. destruct Q2 as ([[b' c'] m] & E & Q2). cbn [fst] in E. injection E as -> ->.
        apply in_concat in Q2. destruct Q2 as (l2 & L2 & Q2). apply (mapM_In _ _ _ M') in L2. destruct L2 as (b2 & B2 & L2).
        apply (mapM_In _ _ _ L2) in Q2. destruct Q2 as (c2 & _ & Q2). destruct (cross_slice_metrics compare (snd b2) (snd c2)); [|discriminate].
        injection Q2 as Q2 _ _. apply NB1. rewrite <- Q2. apply in_map, B2.
  - intros b c m. rewrite in_concat. split.
    + intros (l & L & I0). apply (mapM_In _ _ _ M) in L. destruct L as ([b' mb] & B & L). apply (mapM_In _ _ _ L) in I0.
      destruct I0 as ([c' mc] & C & I0). cbn [fst snd] in I0. destruct (cross_slice_metrics compare mb mc) as [m'|] eqn:X; [|discriminate]. injection I0 as -> -> ->.
      unfold bases in B. apply filter_In in B. apply CO in C. exists mb, mc. cbn [fst] in B. tauto.
    + intros (mb & mc & B & C & AB & AC & X).
      assert (B' : In (b, mb) bases) by (apply filter_In; auto). assert (C' : In (c, mc) comps) by (apply CO; auto).
      destruct (In_nth_error _ _ B') as (i & I0). destruct (mapM_nth _ _ _ i _ M I0) as (l & L1 & L2).
      exists l. split; [eapply nth_error_In, L1|]. apply (mapM_In _ _ _ L2). exists (c, mc). split; [exact C'|]. cbn [fst snd]. rewrite X. reflexivity.
Qed.

Definition red : skey := [("c", VStr "red")].

Definition blue : skey := [("c", VStr "blue")].

Definition acc_key : okey := OKey IsMetric (plain "accuracy" "").

Definition sliced_example : list (skey * metrics) :=
  [([], [(acc_key, Num (Fin (qz 3)))]); (red, [(acc_key, Num (Fin (qz 5)))]); (blue, [(acc_key, Num (Fin (qz 1)))])].

Lemma C81_overlapping_specs_refuted_pf :
  exists (cross_specs : list (spec * list spec)) (sliced : list (skey * metrics)) out,
    NoDup (map fst sliced) /\ NoDup cross_specs /\
    add_cross_slice_metrics is_slice_applicable [] cross_specs sliced = Ok out /\ ~ NoDup (map fst out).
Proof.
  exists [(Spec [] [], [Spec ["c"] []]); (Spec [] [], [Spec [] [("c", VStr "red")]])], sliced_example. eexists.
  split; [repeat constructor; cbn; intuition discriminate|]. split; [repeat constructor; cbn; intuition discriminate|].
  split; [vm_compute; reflexivity|]. cbn [map fst app]. intros N.
  inversion N as [|? ? _ N1]. inversion N1 as [|? ? _ N2]. inversion N2 as [|? ? _ N3]. inversion N3 as [|? ? X _]. apply X. cbn. auto.
Qed.

Lemma C82_cross_slice_value_pf :
  forall (mb mc r : metrics) (k : metric_key), unique mc ->
    cross_slice_metrics [] mb mc = Ok r ->
    (forall d, mget r k = Some d <->
       exists x y, mget mb k = Some (Num x) /\ In (OKey IsMetric k, Num y) mc /\
         ~ private_name (k_name k) /\ d = Num (num_sub x y)).
Proof.
  intros mb mc r k U E. unfold cross_slice_metrics in E. cbn [foldM] in E.
  assert (G : forall l acc r, unique l -> (forall j, In j l -> mget acc (ok_key (fst j)) = None) ->
    foldM (fun acc kv => match dget okey_eqb mb (fst kv) with None => Ok acc | Some b => if is_private (fst kv) then Ok acc else
      match ok_class (fst kv) with IsMetric => let! d := val_sub b (snd kv) in Ok (dset okey_eqb acc (fst kv) d) | _ => Ok acc end end) l acc = Ok r ->
    forall d, mget r k = Some d <-> mget acc k = Some d \/ exists x y, mget mb k = Some (Num x) /\ In (OKey IsMetric k, Num y) l /\ ~ private_name (k_name k) /\ d = Num (num_sub x y)).
  { clear E. induction l as [|[j v] l IH]; intros acc r0 UL F H d; cbn [foldM] in H.
    - injection H as <-. split; [auto|]. intros [H|(? & ? & _ & [] & _)]; auto.
    - unfold unique in UL. cbn [map fst] in UL. inversion UL as [|? ? N1 N2]; subst.
      assert (SKIP : forall d, (exists x y, mget mb k = Some (Num x) /\ In (OKey IsMetric k, Num y) l /\ ~ private_name (k_name k) /\ d = Num (num_sub x y)) ->
         (exists x y, mget mb k = Some (Num x) /\ In (OKey IsMetric k, Num y) ((j, v) :: l) /\ ~ private_name (k_name k) /\ d = Num (num_sub x y))).
      { intros d' (x & y & ? & ? & ? & ?). exists x, y. cbn [In]. auto. }
      cbn [fst snd] in H. change (dget okey_eqb mb j) with (dget okey_eqb mb j) in H.
      assert (GJ : dget okey_eqb mb j = mget mb (ok_key j)) by (apply dget_mget). rewrite GJ in H.
      assert (FL : forall i, In i l -> mget acc (ok_key (fst i)) = None) by (intros i I0; apply F; right; exact I0).
      destruct (mget mb (ok_key j)) as [b|] eqn:B; cbn [bind] in H.
      2:{ rewrite (IH acc r0 N2 FL H d). split; [intros [X|X]; [auto|right; apply SKIP, X]|].
          intros [X|(x & y & X1 & [X2|X2] & X3 & X4)]; [auto| |right; exists x, y; auto]. injection X2 as -> _. cbn [ok_key] in B. congruence. }
      destruct (is_private j) eqn:PJ.
      { rewrite (IH acc r0 N2 FL H d). split; [intros [X|X]; [auto|right; apply SKIP, X]|].
        intros [X|(x & y & X1 & [X2|X2] & X3 & X4)]; [auto| |right; exists x, y; auto]. injection X2 as -> _. apply is_private_spec in PJ. cbn [ok_key] in PJ. contradiction. }
      destruct (ok_class j) eqn:CJ; cbn [bind] in H.
      { destruct (val_sub b v) as [dv|] eqn:V; [|discriminate]. cbn [bind] in H.
        assert (FD : forall i, In i l -> mget (dset okey_eqb acc j dv) (ok_key (fst i)) = None).
        { intros i I0. rewrite mget_dset. destruct (metric_key_eqb (ok_key (fst i)) (ok_key j)) eqn:JK; [|apply FL, I0].
          apply metric_key_eqb_eq in JK. destruct (N1). rewrite <- JK. apply (in_map (fun kv : okey * val => ok_key (fst kv)) l i I0). }
        rewrite (IH _ r0 N2 FD H d). split.
        - intros [X|X]; [|right; apply SKIP, X]. rewrite mget_dset in X. 
          destruct (metric_key_eqb k (ok_key j)) eqn:JK; [|auto].
          right. apply metric_key_eqb_eq in JK. subst k. injection X as <-. destruct b as [x|], v as [y|]; try discriminate. injection V as <-.
          exists x, y. split; [exact B|]. split; [left; destruct j as [cj kj]; cbn in CJ |- *; subst cj; reflexivity|]. split; [|reflexivity].
          intros X. apply is_private_spec in X. congruence.
        - intros [X|(x & y & X1 & [X2|X2] & X3 & X4)].
          + left. rewrite mget_dset. destruct (metric_key_eqb k (ok_key j)) eqn:JK; [|exact X]. apply metric_key_eqb_eq in JK. subst k.
            pose proof (F (j, v) (or_introl eq_refl)) as Z. cbn [fst] in Z. congruence.
          + injection X2 as -> ->. cbn [ok_key] in *. rewrite X1 in B. injection B as <-. injection V as <-. left. rewrite mget_dset. cbn [ok_key].
            assert (R : metric_key_eqb k k = true) by (apply metric_key_eqb_eq; reflexivity). rewrite R. congruence.
          + right. exists x, y. auto. }
      all: rewrite (IH acc r0 N2 FL H d); (split; [intros [X|X]; [auto|right; apply SKIP, X]|];
        intros [X|(x & y & X1 & [X2|X2] & X3 & X4)]; [auto| |right; exists x, y; auto]; injection X2 as -> _; discriminate). }
  destruct (foldM _ mc []) as [r1|] eqn:F; [|discriminate]. cbn [bind] in E. injection E as <-.
  intros d. rewrite (G mc [] r1 U (fun _ _ => eq_refl) F d). split; [intros [X|X]; [discriminate|exact X]|auto].
Qed.

Lemma C82_structured_metric_refuted_pf :
  exists (sliced : list (skey * metrics)) (cross_specs : list (spec * list spec)),
    NoDup (map fst sliced) /\ (forall k m, In (k, m) sliced -> unique m) /\
    add_cross_slice_metrics is_slice_applicable [] [] sliced = Ok (map (fun km => (inl (fst km), snd km)) sliced) /\
    add_cross_slice_metrics is_slice_applicable [] cross_specs sliced = Err TypeError.
Proof.
  exists [([], [(acc_key, Num (Fin 1%Qc)); (OKey IsMetric (plain "matrix" ""), Other "m")]);
          (red, [(acc_key, Num (Fin 1%Qc)); (OKey IsMetric (plain "matrix" ""), Other "n")])], [(Spec [] [], [Spec ["c"] []])].
  split; [repeat constructor; cbn; intuition discriminate|].
  split; [intros k m [[= <- <-]|[[= <- <-]|[]]]; repeat constructor; cbn; intuition discriminate|].
  split; vm_compute; reflexivity.
Qed.

Lemma nodup_app_fst {X} (a b : list X) : NoDup (a ++ b) -> NoDup a.
Proof. induction a as [|x a IH]; intros N; [constructor|]. cbn in N. inversion N; subst. constructor; auto. intros I0. apply H1, in_or_app. auto. Qed.

Lemma nodup_app_snd {X} (a b : list X) : NoDup (a ++ b) -> NoDup b.
Proof. induction a as [|x a IH]; intros N; [exact N|]. cbn in N. inversion N; auto. Qed.

Lemma merge_dicts_spec a b : unique a -> unique b ->
  merge_dicts a b = Ok (a ++ b) /\ unique (a ++ b) \/ merge_dicts a b = Err ValueError /\ ~ unique (a ++ b).
Proof.
  intros UA UB. unfold merge_dicts.
  assert (D : forall j, dmem okey_eqb a j = true <-> In (ok_key j) (map (fun kv => ok_key (fst kv)) a)).
  { intros j. unfold dmem. rewrite dget_mget. destruct (mget a (ok_key j)) as [v|] eqn:M.
    - split; [intros _|reflexivity]. apply mget_In in M. destruct M as (i & I0 & I1). apply in_map_iff. exists (i, v). auto.
    - split; [discriminate|]. intros I0. apply in_map_iff in I0. destruct I0 as ([i v] & I1 & I2). cbn [fst] in I1. rewrite <- I1, (In_mget a i v UA I2) in M. discriminate. }
  destruct (existsb _ b) eqn:E.
  - right. split; [reflexivity|]. apply existsb_exists in E. destruct E as (kv & I0 & I1). apply D in I1. intros N. unfold unique in N. rewrite map_app in N.
    apply in_split in I1. destruct I1 as (l1 & l2 & L). rewrite L, <- app_assoc in N. cbn [app] in N. apply NoDup_remove_2 in N. apply N. rewrite app_assoc. apply in_or_app. right.
    apply (in_map (fun kv : okey * val => ok_key (fst kv)) b kv I0).
  - left. assert (NI : forall kv, In kv b -> ~ In (ok_key (fst kv)) (map (fun kv => ok_key (fst kv)) a)).
    { intros kv I0 X. apply D in X. assert (existsb (fun kv => dmem okey_eqb a (fst kv)) b = true) by (apply existsb_exists; exists kv; auto). congruence. }
    assert (US : unique (a ++ b)).
    { unfold unique. rewrite map_app. apply NoDup_app; auto. intros q Q1 Q2. apply in_map_iff in Q2. destruct Q2 as (kv & <- & I0). apply (NI kv I0 Q1). }
    split; [|exact US]. f_equal. clear E D NI. revert a UA US. induction b as [|[j v] b IH]; intros a UA US; [symmetry; apply app_nil_r|].
    unfold dupdate. cbn [fold_left fst snd].
    assert (S1 : dset okey_eqb a j v = a ++ [(j, v)]).
    { unfold unique in US. rewrite map_app in US. cbn [map fst] in US. apply NoDup_remove_2 in US.
      assert (NA : ~ In (ok_key j) (map (fun kv => ok_key (fst kv)) a)) by (intros X; apply US, in_or_app; auto).
      clear -NA. induction a as [|[i w] a IH]; [reflexivity|]. cbn [dset app map fst] in *. unfold okey_eqb at 1.
      destruct (metric_key_eqb (ok_key j) (ok_key i)) eqn:E; [apply metric_key_eqb_eq in E; destruct NA; left; auto|]. f_equal. apply IH. intros X. apply NA. right. exact X. }
    rewrite S1. replace (a ++ (j, v) :: b) with ((a ++ [(j, v)]) ++ b) in * by (rewrite <- app_assoc; reflexivity).
    unfold unique in UB. cbn [map fst] in UB. inversion UB; subst. apply IH; [assumption| |exact US].
    unfold unique in US |- *. rewrite map_app in US. apply nodup_app_fst in US. exact US.
Qed.

Lemma unique_app_l a b : unique (a ++ b) -> unique a.
Proof. unfold unique. rewrite map_app. apply nodup_app_fst. Qed.

Definition combined (acc : res metrics) (l : list metrics) : Prop :=
  Forall unique l -> unique (concat l) /\ acc = Ok (concat l) \/ ~ unique (concat l) /\ acc = Err ValueError.

Lemma combined_merge a l b k : combined a l -> combined b k -> combined (let! x := a in let! y := b in merge_dicts x y) (l ++ k).
Proof.
  intros A B F. apply Forall_app in F. destruct F as [F1 F2]. rewrite concat_app. destruct (A F1) as [[U ->]|[U ->]]; cbn [bind].
  - destruct (B F2) as [[V ->]|[V ->]]; cbn [bind].
    + destruct (merge_dicts_spec _ _ U V) as [[-> ?]|[-> ?]]; auto.
    + right. split; [|reflexivity]. intros X. apply V. unfold unique in *. rewrite map_app in X. apply nodup_app_snd in X. exact X.
  - right. split; [|reflexivity]. intros X. apply U. apply unique_app_l in X. exact X.
Qed.

Lemma C83_results_combined_partial_pf :
  forall s, Forall unique (inputs s) -> unique (concat (inputs s)) -> outcome combine_dictionaries s = Ok (concat (inputs s)).
Proof.
  assert (R : forall s, combined (run combine_dictionaries s) (inputs s)).
  { intros s. apply (rel_run combine_dictionaries combined).
    - intros _. left. split; [constructor|reflexivity].
    - intros a l x H F. apply Forall_app in F. destruct F as [F1 F2]. inversion F2; subst.
      apply (combined_merge a l (Ok x) [x]); [exact H| |apply Forall_app; auto].
      intros _. cbn [concat]. rewrite app_nil_r. left. auto.
    - intros a l ps A P. cbn [combine_dictionaries c_merge]. revert a l A. induction P as [|[b k] ps B P IH]; intros a l A; cbn [map fst snd concat fold_left].
      + rewrite app_nil_r. exact A.
      + rewrite app_assoc. apply IH. apply combined_merge; assumption. }
  intros s F U. unfold outcome. cbn [combine_dictionaries c_extract]. fold combine_dictionaries.
  destruct (R s F) as [[_ E]|[N _]]; [exact E|contradiction].
Qed.

Lemma same_metric_twice :
  forall s k v w, Permutation (inputs s) [[(k, v)]; [(k, w)]] -> outcome combine_dictionaries s = Err ValueError.
Proof.
  intros s k v w P.
  assert (R : combined (run combine_dictionaries s) (inputs s)).
  { apply (rel_run combine_dictionaries combined).
    - intros _. left. split; [constructor|reflexivity].
    - intros a l x H F. apply Forall_app in F. destruct F as [F1 F2]. inversion F2; subst.
      apply (combined_merge a l (Ok x) [x]); [exact H| |apply Forall_app; auto].
      intros _. cbn [concat]. rewrite app_nil_r. left. auto.
    - intros a l ps A B. cbn [combine_dictionaries c_merge]. revert a l A. induction B as [|[b l'] ps B Bs IH]; intros a l A; cbn [map fst snd concat fold_left].
      + rewrite app_nil_r. exact A.
      + rewrite app_assoc. apply IH. apply combined_merge; assumption. }
  assert (F : Forall unique (inputs s)).
  { apply Forall_forall. intros x X. apply (Permutation_in _ P) in X. destruct X as [<-|[<-|[]]]; repeat constructor; intros []. }
  unfold outcome. cbn [combine_dictionaries c_extract]. fold combine_dictionaries.
  destruct (R F) as [[U _]|[_ E]]; [|exact E].
  assert (C : exists x y, concat (inputs s) = [(k, x); (k, y)]).
  { apply Permutation_sym, Permutation_length_2_inv in P. destruct P as [->| ->]; [exists v, w|exists w, v]; reflexivity. }
  destruct C as (x & y & C). rewrite C in U. inversion U as [|? ? X _]. destruct X. left. reflexivity.
Qed.

Lemma C83_same_metric_twice_refuted_pf :
  exists (a b : metrics), unique a /\ unique b /\
    forall s, Permutation (inputs s) [a; b] -> outcome combine_dictionaries s = Err ValueError.
Proof.
  exists [(OKey IsMetric (plain "example_count" ""), Num (Fin (qz 2)))], [(OKey IsMetric (plain "example_count" ""), Num (Fin (qz 4)))].
  split; [repeat constructor; intros []|]. split; [repeat constructor; intros []|].
  intros s P. eapply same_metric_twice, P.
Qed.

Lemma to_list_inputs {X} (s : sched X) : outcome to_list_combiner s = inputs s.
Proof.
  unfold outcome. cbn [to_list_combiner c_extract]. apply (rel_run to_list_combiner (fun a l => a = l)).
  - reflexivity.
  - intros a l x ->. reflexivity.
  - intros a l ps -> P. cbn [to_list_combiner c_merge concat]. f_equal. f_equal. induction P as [|[b k] ps B P IH]; [reflexivity|]. cbn [map]. cbn in B. rewrite B, IH. reflexivity.
Qed.

Lemma Permutation_by_key {X} (key : X -> string) (xs : list X) : forall ks, NoDup ks -> (forall x, In x xs -> In (key x) ks) ->
  Permutation (flat_map (fun k => filter (fun x => String.eqb k (key x)) xs) ks) xs.
Proof.
  induction xs as [|x xs IH]; intros ks N H.
  - induction ks; [constructor|]. cbn [flat_map filter app]. apply IHks; [inversion N; auto|intros ? []].
  - destruct (in_split (key x) ks (H x (or_introl eq_refl))) as (l1 & l2 & ->).
    assert (S1 : forall l, ~ In (key x) l -> flat_map (fun k => filter (fun y => String.eqb k (key y)) (x :: xs)) l = flat_map (fun k => filter (fun y => String.eqb k (key y)) xs) l).
    { induction l as [|k l IHl]; intros NI; [reflexivity|]. cbn [flat_map filter]. destruct (String.eqb k (key x)) eqn:E.
      - apply String.eqb_eq in E. destruct NI. left. auto.
      - f_equal. apply IHl. intros X0. apply NI. right. exact X0. }
    rewrite flat_map_app. cbn [flat_map]. rewrite S1, S1.
    + cbn [filter]. rewrite String.eqb_refl. cbn [app]. rewrite <- Permutation_middle. constructor.
      specialize (IH (l1 ++ key x :: l2) N (fun y Y => H y (or_intror Y))). rewrite flat_map_app in IH. cbn [flat_map] in IH. exact IH.
    + apply NoDup_remove_2 in N. intros X0. apply N, in_or_app. auto.
    + apply NoDup_remove_2 in N. intros X0. apply N, in_or_app. auto.
Qed.

Lemma C84_queries_partition_examples_partial_pf :
  forall (X : Type) (query : X -> option string) (xs : list X) out,
    per_key String.eqb to_list_combiner (keyed_by_query query xs) out ->
    Permutation (concat (map snd out)) xs /\
    NoDup (map fst out) /\
    forall q g x, In (q, g) out -> In x g -> query x = Some q \/ query x = None /\ q = "".
Proof.
  intros X query xs out (N & K & V).
  assert (VO : forall q, values_of String.eqb q (keyed_by_query query xs) = filter (fun x => String.eqb q (query_text (query x))) xs).
  { intros q. unfold values_of, keyed_by_query. clear. induction xs as [|x xs IH]; [reflexivity|]. cbn [map filter fst]. destruct (String.eqb q _); cbn [map snd]; rewrite IH; reflexivity. }
  assert (G : forall q g, In (q, g) out -> Permutation g (filter (fun x => String.eqb q (query_text (query x))) xs)).
  { intros q g I0. destruct (V q g I0) as (s & P & O). rewrite to_list_inputs in O. subst g. rewrite VO in P. exact P. }
  split; [|split; [exact N|]].
  - transitivity (flat_map (fun k => filter (fun x => String.eqb k (query_text (query x))) xs) (map fst out)).
    + clear -G. induction out as [|[q g] out IH]; [constructor|]. cbn [map concat snd fst flat_map]. apply Permutation_app; [apply G; left; reflexivity|apply IH; intros ? ? ?; apply G; right; assumption].
    + apply Permutation_by_key; [exact N|]. intros x I0. apply K. unfold keyed_by_query. rewrite map_map. apply in_map_iff. exists x. auto.
  - intros q g x I0 I1. apply (Permutation_in _ (G q g I0)) in I1. apply filter_In in I1. destruct I1 as [_ I1]. apply String.eqb_eq in I1.
    destruct (query x); cbn [query_text] in I1; [left|right]; subst; auto.
Qed.

Lemma C84_missing_queries_merged_refuted_pf :
  exists (xs : list (nat * option string)),
    (exists x y z, In x xs /\ In y xs /\ In z xs /\ snd x = None /\ snd y = None /\ x <> y /\ snd z = Some "") /\
    forall out, per_key String.eqb to_list_combiner (keyed_by_query snd xs) out ->
      exists g, out = [("", g)] /\ Permutation g xs.
Proof.
  exists [(1, None); (2, None); (3, Some "")]. split.
  { exists (1, None), (2, None), (3, Some ""). repeat split; cbn; auto. discriminate. }
  intros out PK. destruct (C84_queries_partition_examples_partial_pf _ _ _ _ PK) as (P & _ & _). destruct PK as (N & K & _).
  assert (A : forall k, In k (map fst out) -> k = "") by (intros k I0; apply K in I0; cbn in I0; intuition).
  assert (I1 : In "" (map fst out)) by (apply K; cbn; auto).
  destruct out as [|[q g] out]; [destruct I1|]. pose proof (A q (or_introl eq_refl)). subst q.
  destruct out as [|[q' g'] out].
  - exists g. split; [reflexivity|]. cbn in P. rewrite app_nil_r in P. exact P.
  - pose proof (A q' (or_intror (or_introl eq_refl))). subst q'. cbn in N. inversion N as [|? ? X _]. destruct X. left. reflexivity.
Qed.

Lemma C85_slice_size_counts_queries_refuted_pf :
  exists (xs : list (list skey)) (min_size : Z) (counts : list (skey * Z)),
    (* every example is in the slice, there are enough of them, and they have the same query *)
    (forall ks, In ks xs -> In red ks) /\ Z.le min_size (Z.of_nat (length xs)) /\
    per_key skey_eqb count_combiner (fanout (concat xs) tt) counts /\
    filter_out_slices skey_eqb (fun k => match k with [] => true | _ => false end) (-1)%Z min_size [([], 7%Z); (red, 8%Z)] counts
      = Ok [([], 7%Z); (red, (-1)%Z)].
Proof.
  exists [[[]; red]; [[]; red]; [[]; red]], 2%Z, [([], 1%Z); (red, 1%Z)].
  split; [intros ks [<-|[<-|[<-|[]]]]; cbn; auto|]. split; [cbn; lia|]. split; [|vm_compute; reflexivity].
  change (fanout (concat [[[]; red]; [[]; red]; [[]; red]]) tt) with [(@nil (string * fval), tt); (red, tt)].
  split; [repeat constructor; cbn; intuition discriminate|]. split; [intros k; cbn; tauto|].
  intros k o [[= <- <-]|[[= <- <-]|[]]]; exists (Bundle [tt]); split; reflexivity.
Qed.
