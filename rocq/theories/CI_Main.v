(* Proofs of the theorems restated in CI_Properties.v. *)
From Coq Require Import String Reals.
From Verif Require Import Base BaseFacts Beam BeamFacts Keys_Model Keys_Main Means_Model CI_Model.
Local Open Scope string_scope.
Local Open Scope list_scope.

(* C21 - C24, C91, C92: confidence intervals. *)

(** A schedule over accumulators is a schedule over the inputs behind them. *)

Lemma of_accumulators_run {I A O} (c : combiner I A O) (t : sched A) : forall ss, map (run c) ss = inputs t ->
  exists u, run c u = run (of_accumulators c) t /\ inputs u = flat_map inputs ss.
Proof.
  apply (rel_run (of_accumulators c) (fun a l => forall ss, map (run c) ss = l -> exists u, run c u = a /\ inputs u = flat_map inputs ss)).
  - intros ss E. apply map_eq_nil in E. subst ss. exists (Bundle []). split; reflexivity.
  - intros a l x H ss E. apply map_eq_app in E. destruct E as (s1 & s2 & -> & E1 & E2).
    destruct s2 as [|s [|]]; try discriminate. cbn [map] in E2. injection E2 as <-.
    destruct (H s1 E1) as (u & <- & U). exists (Merge u [s]). split; [reflexivity|].
    cbn [inputs flat_map]. rewrite U, flat_map_app. reflexivity.
  - intros a l ps H F ss E. apply map_eq_app in E. destruct E as (s1 & s2 & -> & E1 & E2).
    destruct (H s1 E1) as (u & <- & U).
    assert (G : exists us, map (run c) us = map fst ps /\ flat_map inputs us = flat_map inputs s2).
    { clear -F E2. revert s2 E2. induction F as [|[b k] ps B F IH]; intros s2 E2; cbn [map snd concat] in E2.
      - apply map_eq_nil in E2. subst s2. exists []. split; reflexivity.
      - apply map_eq_app in E2. destruct E2 as (s3 & s4 & -> & E3 & E4). cbn [fst snd] in B. destruct (B s3 E3) as (v & <- & V).
        destruct (IH s4 E4) as (us & U1 & U2). exists (v :: us). cbn [map fst flat_map]. rewrite U1, V, U2, flat_map_app. split; reflexivity. }
    destruct G as (us & U1 & U2). exists (Merge u us). cbn [run inputs of_accumulators c_merge]. rewrite U1, U, U2, flat_map_app. split; reflexivity.
Qed.

Section PerKey.
  Context {K I A O : Type} (keqb : K -> K -> bool) (keqb_eq : forall a b, keqb a b = true <-> a = b) (c : combiner I A O).

  Lemma values_of_app {X} k (a b : list (K * X)) : values_of keqb k (a ++ b) = values_of keqb k a ++ values_of keqb k b.
  Proof. unfold values_of. rewrite filter_app', map_app. reflexivity. Qed.

  Lemma values_of_absent {X} k (l : list (K * X)) : ~ In k (map fst l) -> values_of keqb k l = [].
  Proof.
    unfold values_of. induction l as [|[k' x] l IH]; intros N; [reflexivity|]. cbn [map fst filter In] in *.
    destruct (keqb k k') eqn:E; [apply keqb_eq in E; subst; destruct N; left; reflexivity|]. apply IH. tauto.
  Qed.

  Lemma values_of_perm {X} k (a b : list (K * X)) : Permutation a b -> Permutation (values_of keqb k a) (values_of keqb k b).
  Proof. intros P. unfold values_of. apply Permutation_map, filter_perm, P. Qed.

  (** The accumulators of a key in a partition. *)
  Lemma partition_values data accs k : per_key keqb (accumulate_only c) data accs ->
    exists ss, map (run c) ss = values_of keqb k accs /\ Permutation (flat_map inputs ss) (values_of keqb k data).
  Proof.
    intros (ND & KEYS & OUT).
    assert (D : In k (map fst accs) \/ ~ In k (map fst accs)).
    { destruct (existsb (keqb k) (map fst accs)) eqn:E.
      - left. apply existsb_exists in E. destruct E as (k' & I0 & E). apply keqb_eq in E. subst. exact I0.
      - right. intros X. assert (Y : existsb (keqb k) (map fst accs) = true) by (apply existsb_exists; exists k; split; [exact X|apply keqb_eq; reflexivity]). congruence. }
    destruct D as [I0|NI].
    - apply in_map_iff in I0. destruct I0 as ([k' a] & E & I0). cbn [fst] in E. subst k'. destruct (OUT k a I0) as (s & P & E).
      exists [s]. cbn [map flat_map]. rewrite app_nil_r. split; [|exact P]. unfold outcome in E. cbn [accumulate_only c_extract] in E.
      assert (RS : forall s : sched I, run (accumulate_only c) s = run c s).
      { clear. induction s using sched_ind'; cbn [run accumulate_only c_add c_create c_merge]; auto.
        - rewrite IHs. f_equal. f_equal. induction H; cbn; congruence.
        - rewrite IHs. reflexivity. }
      rewrite RS in E. rewrite E. symmetry.
      clear -ND I0 keqb_eq. induction accs as [|[k1 a1] accs IH]; [destruct I0|]. cbn [map fst] in ND. inversion ND as [|? ? N1 N2]; subst.
      unfold values_of. cbn [filter fst]. destruct I0 as [[= -> ->]|I0].
      + rewrite (proj2 (keqb_eq k k) eq_refl). cbn [map snd]. f_equal. apply (values_of_absent k accs N1).
      + destruct (keqb k k1) eqn:E; [apply keqb_eq in E; subst; destruct N1; apply (in_map fst) in I0; exact I0|]. apply IH; auto.
    - exists []. rewrite values_of_absent by exact NI. split; [reflexivity|]. cbn [flat_map].
      rewrite values_of_absent; [constructor|]. intros X. apply NI, KEYS, X.
  Qed.

  (** Merging the accumulators of some of the partitions. *)
  Lemma merged_partitions n (data : list (K * I * nat)) accs (keep : nat -> bool) out :
    Forall (fun d => snd d < n) data -> length accs = n ->
    (forall i a, nth_error accs i = Some a -> per_key keqb (accumulate_only c) (partition_of i data) a) ->
    per_key keqb (of_accumulators c) (concat (map (fun ja => if keep (fst ja) then snd ja else []) (combine (seq 0 n) accs))) out ->
    per_key keqb c (map fst (filter (fun d => keep (snd d)) data)) out.
  Proof.
    intros LT LEN ACC (ND & KEYS & OUT).
    (* the partitions together are the data *)
    assert (SPLIT : forall m, m <= n -> Permutation (flat_map (fun i => if keep i then partition_of i data else []) (seq 0 m))
                                      (map fst (filter (fun d => keep (snd d) && Nat.ltb (snd d) m) data))).
    { intros m. induction m as [|m IH]; intros LE.
      - cbn [seq flat_map].
        assert (E : filter (fun d : K * I * nat => keep (snd d) && Nat.ltb (snd d) 0) data = []).
        { clear. induction data as [|d l IH]; [reflexivity|]. cbn [filter]. rewrite andb_false_r. exact IH. }
        rewrite E. constructor.
      - rewrite seq_S, flat_map_app. cbn [flat_map Nat.add]. rewrite app_nil_r.
        eapply Permutation_trans; [apply Permutation_app; [apply IH; lia|apply Permutation_refl]|].
        clear. unfold partition_of. induction data as [|d l IH]; cbn [filter map].
        + destruct (keep m); constructor.
        + destruct (lt_eq_lt_dec (snd d) m) as [[L|E]|G].
          * rewrite (proj2 (Nat.ltb_lt (snd d) m) L), (proj2 (Nat.ltb_lt (snd d) (S m))) by lia. rewrite (proj2 (Nat.eqb_neq (snd d) m)) by lia.
            destruct (keep (snd d)); cbn [andb map app]; [constructor|]; exact IH.
          * subst m. rewrite (proj2 (Nat.ltb_ge (snd d) (snd d))) by lia. rewrite (proj2 (Nat.ltb_lt (snd d) (S (snd d)))) by lia. rewrite Nat.eqb_refl, andb_false_r, andb_true_r.
            destruct (keep (snd d)); cbn [map]; [|exact IH]. apply Permutation_sym, Permutation_cons_app, Permutation_sym, IH.
          * rewrite (proj2 (Nat.ltb_ge (snd d) m)), (proj2 (Nat.ltb_ge (snd d) (S m))) by lia. rewrite (proj2 (Nat.eqb_neq (snd d) m)) by lia. rewrite !andb_false_r. exact IH. }
    assert (ALL : filter (fun d => keep (snd d) && Nat.ltb (snd d) n) data = filter (fun d => keep (snd d)) data).
    { apply filter_ext_in. intros d D. rewrite Forall_forall in LT. rewrite (proj2 (Nat.ltb_lt _ _) (LT d D)). apply andb_true_r. }
    specialize (SPLIT n (le_n n)). rewrite ALL in SPLIT. clear ALL.
    assert (SEG : forall l, (forall i a, In (i, a) l -> nth_error accs i = Some a) ->
      (forall k, In k (map fst (concat (map (fun ja => if keep (fst ja) then snd ja else []) l))) <-> In k (map fst (flat_map (fun i => if keep i then partition_of i data else []) (map fst l)))) /\
      (forall k, exists ss, map (run c) ss = values_of keqb k (concat (map (fun ja => if keep (fst ja) then snd ja else []) l)) /\
        Permutation (flat_map inputs ss) (values_of keqb k (flat_map (fun i => if keep i then partition_of i data else []) (map fst l))))).
    { induction l as [|[i a] l IH]; intros H; cbn [map fst snd concat flat_map].
      - split; [tauto|]. intros k. exists []. split; [reflexivity|constructor].
      - destruct (IH (fun i a X => H i a (or_intror X))) as [I1 I2]. pose proof (ACC i a (H i a (or_introl eq_refl))) as PK. split.
        + intros k. rewrite !map_app, !in_app_iff, I1. destruct (keep i); [|tauto]. destruct PK as (_ & KK & _). rewrite (KK k). tauto.
        + intros k. destruct (I2 k) as (ss & S1 & S2). rewrite !values_of_app. destruct (keep i).
          * destruct (partition_values _ _ k PK) as (s0 & T1 & T2). exists (s0 ++ ss). rewrite map_app, flat_map_app, T1, S1. split; [reflexivity|apply Permutation_app; auto].
          * exists ss. rewrite S1. split; [reflexivity|exact S2]. }
    assert (FST : map fst (combine (seq 0 n) accs) = seq 0 n).
    { clear -LEN. revert accs LEN. generalize 0. induction n as [|m IH]; intros z accs LEN; [reflexivity|]. destruct accs; [discriminate|]. cbn. f_equal. apply IH. injection LEN as LEN. exact LEN. }
    destruct (SEG (combine (seq 0 n) accs)) as [K1 K2].
    { intros i a X. clear -X. assert (G : forall z l m, In (i, a) (combine (seq z m) l) -> nth_error l (i - z) = Some a /\ z <= i).
      { intros z l. revert z. induction l as [|b l IH]; intros z [|m] Y; cbn [seq combine In] in Y; try contradiction.
        destruct Y as [[= -> ->]|Y]; [rewrite Nat.sub_diag; split; [reflexivity|lia]|].
        destruct (IH (S z) m Y) as [E L]. split; [|lia]. replace (i - z) with (S (i - S z)) by lia. exact E. }
      destruct (G 0 accs n X) as [E _]. rewrite Nat.sub_0_r in E. exact E. }
    rewrite FST in K1, K2.
    split; [exact ND|]. split.
    - intros k. rewrite KEYS, K1. split; apply Permutation_in, Permutation_map; [exact SPLIT|apply Permutation_sym, SPLIT].
    - intros k o I0. destruct (OUT k o I0) as (t & P & E). destruct (K2 k) as (ss & S1 & S2). rewrite <- S1 in P.
      apply Permutation_map_inv in P. destruct P as (ss' & E' & P').
      destruct (of_accumulators_run c t ss' (eq_sym E')) as (u & U1 & U2). exists u. split.
      + rewrite U2. eapply Permutation_trans; [|eapply Permutation_trans; [exact S2|apply values_of_perm, SPLIT]].
        apply Permutation_flat_map, Permutation_sym, P'.
      + rewrite <- E. unfold outcome. rewrite U1. reflexivity.
  Qed.

End PerKey.

Lemma C21_jackknife_samples_pf :
  forall K I A O (keqb : K -> K -> bool) (c : combiner I A O) n data full samples,
    (forall a b, keqb a b = true <-> a = b) -> Forall (fun d => snd d < n) data ->
    jackknife_samples keqb c n data full samples ->
    per_key keqb c (map fst data) full /\
    forall i m, nth_error samples i = Some m -> per_key keqb c (map fst (filter (fun d => negb (Nat.eqb (snd d) i)) data)) m.
Proof.
  intros K I A O keqb c n data full samples KE LT (accs & L1 & _ & ACC & FULL & SAM). split.
  - pose proof (merged_partitions keqb KE c n data accs (fun _ => true) full LT L1 ACC) as M.
    assert (E : concat (map (fun ja : nat * list (K * A) => snd ja) (combine (seq 0 n) accs)) = concat accs).
    { f_equal. clear -L1. revert accs L1. generalize 0. induction n as [|m IH]; intros z [|a accs] L1; try discriminate; [reflexivity|]. cbn. f_equal. apply IH. injection L1 as L1. exact L1. }
    cbn [fst snd] in M. rewrite E in M. specialize (M FULL).
    assert (F : filter (fun _ : K * I * nat => true) data = data) by (clear; induction data; cbn; congruence). rewrite F in M. exact M.
  - intros i m NE. apply (merged_partitions keqb KE c n data accs (fun j => negb (Nat.eqb j i)) m LT L1 ACC).
    specialize (SAM i m NE). erewrite map_ext; [exact SAM|]. intros [j a]. cbn [fst snd]. destruct (Nat.eqb j i); reflexivity.
Qed.

Lemma C21_point_estimates_pf :
  forall K I A O (keqb : K -> K -> bool) (c : combiner I A O) n data full samples plain,
    (forall a b, keqb a b = true <-> a = b) -> Forall (fun d => snd d < n) data ->
    (forall s s' : sched I, Permutation (inputs s) (inputs s') -> outcome c s = outcome c s') ->
    jackknife_samples keqb c n data full samples -> per_key keqb c (map fst data) plain ->
    forall k o, In (k, o) full <-> In (k, o) plain.
Proof.
  intros K I A O keqb c n data full samples plain KE LT IND J P.
  destruct (C21_jackknife_samples_pf K I A O keqb c n data full samples KE LT J) as [F _].
  assert (G : forall x y : list (K * O), per_key keqb c (map fst data) x -> per_key keqb c (map fst data) y -> forall k o, In (k, o) x -> In (k, o) y).
  { clear - IND. intros x y (_ & X2 & X3) (_ & Y2 & Y3) k o I0. destruct (X3 k o I0) as (s & S1 & S2).
    assert (IK : In k (map fst y)) by (apply Y2, X2; apply (in_map fst) in I0; exact I0).
    apply in_map_iff in IK. destruct IK as ([k' o'] & E & IK). cbn [fst] in E. subst k'. destruct (Y3 k o' IK) as (t & T1 & T2).
    rewrite <- S2, (IND s t), T2; [exact IK|]. eapply Permutation_trans; [exact S1|apply Permutation_sym, T1]. }
  intros k o. split; apply G; auto.
Qed.

Definition sum_combiner : combiner Z Z Z := Combiner 0%Z Z.add (fun l => fold_right Z.add 0%Z l) (fun a => a).

Fixpoint drawn {I} (s : sched (I * nat)) : sched I :=
  let each := flat_map (fun xn => repeat (fst xn) (snd xn)) in
  match s with
  | Bundle xs => Bundle (each xs)
  | Merge t ts => Merge (drawn t) (map drawn ts)
  | Then t xs => Then (drawn t) (each xs)
  end.

Lemma drawn_run {I A O} (c : combiner I A O) (s : sched (I * nat)) :
  run (bootstrap c) s = run c (drawn s) /\ inputs (drawn s) = flat_map (fun xn => repeat (fst xn) (snd xn)) (inputs s).
Proof.
  assert (F : forall xs a, fold_left (c_add (bootstrap c)) xs a = fold_left (c_add c) (flat_map (fun xn => repeat (fst xn) (snd xn)) xs) a).
  { induction xs as [|x xs IH]; intros a; [reflexivity|]. cbn [fold_left flat_map]. rewrite IH, fold_left_app. reflexivity. }
  induction s using sched_ind'; cbn [run drawn inputs].
  - split; [apply F|reflexivity].
  - destruct IHs as [I1 I2]. rewrite flat_map_app, I1, I2, map_map. split.
    + cbn [bootstrap c_merge]. f_equal. f_equal. induction H as [|x l [H1 _] H IH]; [reflexivity|]. cbn [map]. rewrite H1, IH. reflexivity.
    + f_equal. induction H as [|x l [_ H1] H IH]; [reflexivity|]. cbn [map flat_map]. rewrite H1, IH, flat_map_app. reflexivity.
  - destruct IHs as [I1 I2]. rewrite I1, F, I2, flat_map_app. split; reflexivity.
Qed.

Lemma C24_replicates_pf :
  forall K I A O (keqb : K -> K -> bool) (c : combiner I A O) (data : list (K * (I * nat))) out,
    per_key keqb (bootstrap c) data out ->
    NoDup (map fst out) /\ (forall k, In k (map fst out) <-> In k (map fst data)) /\
    forall k o, In (k, o) out ->
      exists s, Permutation (inputs s) (flat_map (fun xn => repeat (fst xn) (snd xn)) (values_of keqb k data)) /\ outcome c s = o.
Proof.
  intros K I A O keqb c data out (ND & KEYS & OUT). split; [exact ND|]. split; [exact KEYS|]. intros k o I0. destruct (OUT k o I0) as (s & P & E).
  destruct (drawn_run c s) as [R1 R2]. exists (drawn s). split; [rewrite R2; apply Permutation_flat_map, P|]. rewrite <- E. unfold outcome. rewrite R1. reflexivity.
Qed.

Lemma C24_ones_pf :
  forall K I A O (keqb : K -> K -> bool) (c : combiner I A O) (data : list (K * (I * nat))) out,
    Forall (fun d => snd (snd d) = 1) data -> per_key keqb (bootstrap c) data out ->
    per_key keqb c (map (fun d => (fst d, fst (snd d))) data) out.
Proof.
  intros K I A O keqb c data out ONE H. destruct (C24_replicates_pf K I A O keqb c data out H) as (ND & KEYS & OUT).
  split; [exact ND|]. split; [intros k; rewrite KEYS, map_map; reflexivity|]. intros k o I0. destruct (OUT k o I0) as (s & P & E). exists s. split; [|exact E].
  eapply Permutation_trans; [exact P|]. clear -ONE. unfold values_of. induction ONE as [|[k' [x n]] l E F IH]; [constructor|]. cbn [fst snd] in E. subst n.
  cbn [map filter fst]. destruct (keqb k k'); cbn [map flat_map snd fst repeat app]; [constructor|]; exact IH.
Qed.

(** The numbers the samples have for a metric. *)

Definition numbers (k : metric_key) (d : metrics_dict) : list num :=
  flat_map (fun kv => match snd kv with Num x => if metric_key_eqb (fst kv) k then [x] else [] | _ => [] end) d.

Definition sampled (skip : list metric_key) (k : metric_key) (s : sample) : list num :=
  match s_id s with
  | None => []
  | Some _ => if memb metric_key_eqb k skip then [] else numbers k (s_metrics s)
  end.

Definition fulls (l : list sample) : list metrics_dict :=
  flat_map (fun s => match s_id s with None => [s_metrics s] | Some _ => [] end) l.

Definition partial_samples (l : list sample) : list sample := filter (fun s => match s_id s with None => false | Some _ => true end) l.

Definition get (d : list (metric_key * list num)) (k : metric_key) : list num :=
  match dget metric_key_eqb d k with Some l => l | None => [] end.

Lemma mk_refl k : metric_key_eqb k k = true.
Proof. apply metric_key_eqb_eq. reflexivity. Qed.

Lemma extend_get d k vs k' : get (extend d k vs) k' = get d k' ++ (if metric_key_eqb k k' then vs else []).
Proof.
  unfold get, extend. destruct (metric_key_eqb k k') eqn:E.
  - apply metric_key_eqb_eq in E. subst k'. rewrite (dget_dset_eq metric_key_eqb metric_key_eqb_eq). reflexivity.
  - rewrite (dget_dset_neq metric_key_eqb metric_key_eqb_eq); [rewrite app_nil_r; reflexivity|].
    intros X. subst. rewrite mk_refl in E. discriminate.
Qed.

Definition proper (d : list (metric_key * list num)) : Prop := NoDup (map fst d) /\ forall k, dget metric_key_eqb d k <> Some [].

Lemma extend_proper d k vs : vs <> [] -> proper d -> proper (extend d k vs).
Proof.
  intros NE [ND NN]. split; [apply (dset_NoDup metric_key_eqb metric_key_eqb_eq), ND|]. intros k'.
  destruct (metric_key_eqb k k') eqn:E.
  - apply metric_key_eqb_eq in E. subst k'. unfold extend. rewrite (dget_dset_eq metric_key_eqb metric_key_eqb_eq). intros [= X]. apply app_eq_nil in X. tauto.
  - unfold extend. rewrite (dget_dset_neq metric_key_eqb metric_key_eqb_eq); [apply NN|]. intros X. subst. rewrite mk_refl in E. discriminate.
Qed.

Lemma extends (l : list (metric_key * list num)) d : (forall k v, In (k, v) l -> v <> []) -> proper d ->
  proper (fold_left (fun d kv => extend d (fst kv) (snd kv)) l d) /\
  forall k, get (fold_left (fun d kv => extend d (fst kv) (snd kv)) l d) k = get d k ++ flat_map (fun kv => if metric_key_eqb (fst kv) k then snd kv else []) l.
Proof.
  revert d. induction l as [|[k0 v0] l IH]; intros d NE P; cbn [fold_left fst snd flat_map].
  - split; [exact P|]. intros k. rewrite app_nil_r. reflexivity.
  - destruct (IH (extend d k0 v0)) as [I1 I2]; [intros; eapply NE; right; eauto|apply extend_proper; [eapply NE; left; reflexivity|exact P]|].
    split; [exact I1|]. intros k. rewrite I2, extend_get, <- app_assoc. reflexivity.
Qed.

Lemma get_all d k : NoDup (map fst d) -> flat_map (fun kv => if metric_key_eqb (fst kv) k then snd kv else []) d = get d k.
Proof.
  unfold get. induction d as [|[k0 v] d IH]; intros N; [reflexivity|]. cbn [map fst] in N. inversion N as [|? ? N1 N2]; subst.
  cbn [flat_map fst snd dget]. destruct (metric_key_eqb k0 k) eqn:E.
  - apply metric_key_eqb_eq in E. subst k0. rewrite mk_refl, IH by exact N2. rewrite (proj2 (dget_None metric_key_eqb metric_key_eqb_eq d k) N1). apply app_nil_r.
  - assert (E2 : metric_key_eqb k k0 = false). { destruct (metric_key_eqb k k0) eqn:X; [|reflexivity]. apply metric_key_eqb_eq in X. subst. rewrite mk_refl in E. discriminate. }
    rewrite E2. apply IH, N2.
Qed.

Section Combining.
  Context (n : nat) (skip : list metric_key) (m : method).

  Definition gathers (a : sacc) (l : list sample) : Prop :=
    a_point a = hd_error (rev (fulls l)) /\ a_count a = length (partial_samples l) /\ proper (a_samples a) /\
    forall k, get (a_samples a) k = flat_map (sampled skip k) l.

  Lemma gathers_plus a b l r : gathers a l -> gathers b r -> gathers (sample_plus a b) (l ++ r).
  Proof.
    intros (A1 & A2 & A3 & A4) (B1 & B2 & [B3 B3'] & B4). unfold sample_plus.
    destruct (extends (a_samples b) (a_samples a)) as [E1 E2]; [|exact A3|].
    { intros k v X Y. subst v. apply (B3' k). apply (dget_In_NoDup metric_key_eqb metric_key_eqb_eq); auto. }
    split; [|split; [|split]]; cbn [a_point a_count a_samples].
    - unfold fulls. rewrite flat_map_app, rev_app_distr. fold (fulls l). fold (fulls r). rewrite B1. destruct (rev (fulls r)); [exact A1|reflexivity].
    - unfold partial_samples. rewrite filter_app', app_length, A2, B2. reflexivity.
    - exact E1.
    - intros k. rewrite E2, get_all by exact B3. rewrite A4, B4, flat_map_app. reflexivity.
  Qed.

  Lemma gathers_run s : gathers (run (sample_combiner n skip m) s) (inputs s).
  Proof.
    apply (rel_run (sample_combiner n skip m) gathers).
    - cbn. split; [reflexivity|]. split; [reflexivity|]. split; [split; [constructor|discriminate]|]. reflexivity.
    - intros a l x (A1 & A2 & A3 & A4). destruct x as [d [i|]]; cbn [sample_combiner c_add sample_add s_id s_metrics].
      + set (one := fun kv : metric_key * mval => match snd kv with Num x => if memb metric_key_eqb (fst kv) skip then [] else [(fst kv, [x])] | _ => [] end).
        assert (F : forall (d : metrics_dict) acc, fold_left (fun (d0 : list (metric_key * list num)) kv => match snd kv with Num x => if memb metric_key_eqb (fst kv) skip then d0 else extend d0 (fst kv) [x] | _ => d0 end) d acc
                    = fold_left (fun d0 kv => extend d0 (fst kv) (snd kv)) (flat_map one d) acc).
        { clear. induction d as [|[k v] d IH]; intros acc; [reflexivity|]. cbn [fold_left flat_map fst snd]. rewrite fold_left_app, IH. f_equal.
          unfold one. cbn [fst snd]. destruct v; try reflexivity. destruct (memb metric_key_eqb k skip); reflexivity. }
        rewrite F. destruct (extends (flat_map one d) (a_samples a)) as [E1 E2]; [|exact A3|].
        { intros k v X Y. subst v. apply in_flat_map in X. destruct X as ([k0 v0] & _ & X). unfold one in X. cbn [fst snd] in X. destruct v0; try contradiction. destruct (memb metric_key_eqb k0 skip); [contradiction|]. destruct X as [X|[]]; discriminate. }
        split; [|split; [|split]]; cbn [a_point a_count a_samples].
        * unfold fulls. rewrite flat_map_app. cbn [flat_map s_id]. rewrite !app_nil_r. exact A1.
        * rewrite A2; unfold partial_samples; rewrite filter_app', app_length; cbn; lia.
        * exact E1.
        * intros k. rewrite E2, A4, flat_map_app. f_equal. cbn [flat_map]. rewrite app_nil_r. unfold sampled. cbn [s_id s_metrics]. unfold numbers.
          clear -skip. induction d as [|[k0 v0] d IH]; cbn [flat_map]; [destruct (memb metric_key_eqb k skip); reflexivity|].
          rewrite flat_map_app, IH. unfold one at 1. cbn [fst snd]. destruct v0; try (destruct (memb metric_key_eqb k skip); reflexivity).
          destruct (metric_key_eqb k0 k) eqn:E.
          -- apply metric_key_eqb_eq in E. subst k0. destruct (memb metric_key_eqb k skip); [reflexivity|]. cbn [flat_map fst snd]. rewrite mk_refl. reflexivity.
          -- destruct (memb metric_key_eqb k0 skip); cbn [flat_map fst snd]; rewrite ?E; destruct (memb metric_key_eqb k skip); reflexivity.
      + split; [|split; [|split]]; cbn [a_point a_count a_samples].
        * unfold fulls. rewrite flat_map_app. cbn [flat_map s_id s_metrics app]. rewrite rev_app_distr. reflexivity.
        * rewrite A2; unfold partial_samples; rewrite filter_app', app_length; cbn; lia.
        * exact A3.
        * intros k. rewrite A4, flat_map_app. cbn. rewrite app_nil_r. reflexivity.
    - intros a l ps A F. cbn [sample_combiner c_merge]. revert a l A. induction F as [|[b r] ps B F IH]; intros a l A; cbn [map fold_left fst snd concat].
      + rewrite app_nil_r. exact A.
      + rewrite app_assoc. apply IH. apply gathers_plus; assumption.
  Qed.

  Lemma interval_num p l : Nat.lt 1 (length l) -> exists mean var, interval n m (Num p) l = Ok (TValue mean var (n - 1) p).
  Proof.
    intros L. destruct l as [|a [|b l]]; cbn in L; try lia. unfold interval. destruct m; cbn [map mean_and_var length Nat.eqb]; eexists; eexists; reflexivity.
  Qed.

End Combining.

(** Does the dictionary have a number for the metric? *)

Definition numeric (k : metric_key) (d : metrics_dict) : Prop := exists x, In (k, Num x) d.

Lemma numbers_In k d x : In x (numbers k d) <-> In (k, Num x) d.
Proof.
  unfold numbers. rewrite in_flat_map. split.
  - intros ([k0 v] & I0 & X). cbn [fst snd] in X. destruct v; try contradiction. destruct (metric_key_eqb k0 k) eqn:E; [|contradiction].
    apply metric_key_eqb_eq in E. subst. destruct X as [->|[]]. exact I0.
  - intros I0. exists (k, Num x). split; [exact I0|]. cbn [fst snd]. rewrite mk_refl. left. reflexivity.
Qed.

Lemma numbers_length k d : NoDup (map fst d) -> length (numbers k d) <= 1.
Proof.
  unfold numbers. induction d as [|[k0 v] d IH]; intros N; [cbn; lia|]. cbn [map fst] in N. inversion N as [|? ? N1 N2]; subst. cbn [flat_map fst snd].
  assert (Z : metric_key_eqb k0 k = true -> numbers k d = []).
  { intros E. apply metric_key_eqb_eq in E. subst k0. destruct (numbers k d) as [|x t] eqn:Q; [reflexivity|].
    assert (X : In x (numbers k d)) by (rewrite Q; left; reflexivity). apply numbers_In, (in_map fst) in X. tauto. }
  specialize (IH N2). destruct v; cbn [app]; auto. destruct (metric_key_eqb k0 k); [|exact IH]. unfold numbers in Z. rewrite Z by reflexivity. cbn. lia.
Qed.

Lemma numeric_dec k d : {numeric k d} + {~ numeric k d}.
Proof.
  destruct (numbers k d) as [|x t] eqn:E; [right; intros [x X]; apply numbers_In in X; rewrite E in X; destruct X|].
  left. exists x. apply numbers_In. rewrite E. left. reflexivity.
Qed.

(** All or not all of the samples. *)

Lemma numbers_count k (others : list metrics_dict) : (forall o, In o others -> NoDup (map fst o)) ->
  length (flat_map (numbers k) others) <= length others /\
  (length (flat_map (numbers k) others) = length others <-> Forall (numeric k) others) /\
  (length (flat_map (numbers k) others) <> 0 <-> Exists (numeric k) others).
Proof.
  induction others as [|o l IH]; intros H; cbn [flat_map length].
  - split; [lia|]. split; [split; auto; constructor|]. split; [lia|]. intros X. inversion X.
  - destruct (IH (fun o X => H o (or_intror X))) as (I1 & I2 & I3). pose proof (numbers_length k o (H o (or_introl eq_refl))) as L. rewrite app_length.
    assert (Q : length (numbers k o) = 1 <-> numeric k o).
    { destruct (numbers k o) as [|x [|y t]] eqn:E; cbn [length] in *; [|split; auto; intros _; exists x; apply numbers_In; rewrite E; left; reflexivity|lia].
      split; [lia|]. intros [x X]. apply numbers_In in X. rewrite E in X. destruct X. }
    split; [lia|]. split.
    + rewrite Forall_cons_iff, <- I2, <- Q. lia.
    + rewrite Exists_cons, <- I3, <- Q. lia.
Qed.

(** A sample with its number. *)

Definition as_sample (io : nat * metrics_dict) : sample := Sample (snd io) (Some (fst io)).

Lemma fold_ddel_get (wrong : list (metric_key * nat)) (d : list (metric_key * list num)) k : NoDup (map fst d) ->
  dget metric_key_eqb (fold_left (fun d kl => ddel metric_key_eqb d (fst kl)) wrong d) k =
  if memb metric_key_eqb k (map fst wrong) then None else dget metric_key_eqb d k.
Proof.
  revert d. induction wrong as [|[k0 c] wrong IH]; intros d ND; cbn [fold_left map fst memb]; [reflexivity|].
  rewrite IH by (apply (ddel_NoDup metric_key_eqb metric_key_eqb_eq), ND). destruct (memb metric_key_eqb k (map fst wrong)); [destruct (metric_key_eqb k k0); reflexivity|].
  rewrite orb_false_r. destruct (metric_key_eqb k k0) eqn:E.
  - apply metric_key_eqb_eq in E. subst k0. apply (dget_None metric_key_eqb metric_key_eqb_eq). rewrite (ddel_keys_In metric_key_eqb metric_key_eqb_eq) by exact ND. tauto.
  - assert (NE : k <> k0) by (intros X; subst; rewrite mk_refl in E; discriminate).
    destruct (dget metric_key_eqb d k) as [v|] eqn:G.
    + apply (dget_In_NoDup metric_key_eqb metric_key_eqb_eq); [apply (ddel_NoDup metric_key_eqb metric_key_eqb_eq), ND|].
      apply (dget_In metric_key_eqb metric_key_eqb_eq) in G. apply (ddel_In metric_key_eqb metric_key_eqb_eq); tauto.
    + apply (dget_None metric_key_eqb metric_key_eqb_eq) in G. apply (dget_None metric_key_eqb metric_key_eqb_eq). rewrite (ddel_keys_In metric_key_eqb metric_key_eqb_eq) by exact ND. tauto.
Qed.

(** What the combination of samples does, metric by metric. *)

Lemma combined n skip m (P : metrics_dict) (others : list (nat * metrics_dict)) (s : sched sample) :
  2 <= n -> length others <= n -> NoDup (map fst P) -> ~ In error_key (map fst P) ->
  (forall o, In o others -> NoDup (map fst (snd o)) /\ ~ In error_key (map fst (snd o))) ->
  (forall k v, In (k, v) P -> length others = n -> Forall (fun o => numeric k (snd o)) others -> exists x, v = Num x) ->
  Permutation (inputs s) (Sample P None :: map as_sample others) ->
  exists out, outcome (sample_combiner n skip m) s = Ok out /\ NoDup (map fst out) /\
    (forall k, In k (map fst out) -> In k (map fst P) \/ k = error_key) /\
    (forall k v, In (k, v) P ->
       if memb metric_key_eqb k skip || Nat.ltb (length others) n || negb (Nat.eqb (length (flat_map (numbers k) (map snd others))) n)
       then In (k, Plain v) out
       else exists x l t, v = Num x /\ Permutation l (flat_map (numbers k) (map snd others)) /\ interval n m (Num x) l = Ok t /\ In (k, t) out) /\
    (In error_key (map fst out) <->
       length others < n \/
       exists k v, In (k, v) P /\ ~ In k skip /\ length (flat_map (numbers k) (map snd others)) <> 0 /\ length (flat_map (numbers k) (map snd others)) <> n).
Proof.
  intros N2 LE NDP NEP OTH NUMP PERM.
  destruct (gathers_run n skip m s) as (G1 & G2 & [G3 G3'] & G4). unfold outcome. set (acc := run (sample_combiner n skip m) s) in *. clearbody acc.
  (* the point estimates *)
  assert (FU : fulls (inputs s) = [P]).
  { assert (X : Permutation (fulls (inputs s)) [P]).
    { eapply Permutation_trans; [apply Permutation_flat_map, PERM|]. cbn [flat_map s_id s_metrics]. change [P] with ([P] ++ []). apply Permutation_app_head.
      clear. induction others; [constructor|]. exact IHothers. }
    apply Permutation_length_1_inv, Permutation_sym, X. }
  rewrite FU in G1. cbn in G1.
  assert (CO : a_count acc = length others).
  { rewrite G2. unfold partial_samples. rewrite (Permutation_length (filter_perm _ _ _ PERM)). cbn [filter s_id]; clear; induction others; [reflexivity|cbn; f_equal; assumption]. }
  assert (VA : forall k, Permutation (get (a_samples acc) k) (if memb metric_key_eqb k skip then [] else flat_map (numbers k) (map snd others))).
  { intros k. rewrite G4. eapply Permutation_trans; [apply Permutation_flat_map, PERM|]. cbn [flat_map]. unfold sampled at 1. cbn [s_id app].
    clear. induction others as [|o l IH]; cbn [map flat_map]; [destruct (memb metric_key_eqb k skip); constructor|].
    unfold sampled at 1. cbn [as_sample s_id s_metrics]. destruct (memb metric_key_eqb k skip); [exact IH|]. apply Permutation_app_head, IH. }
  assert (OND : forall o, In o (map snd others) -> NoDup (map fst o)).
  { intros o I0. apply in_map_iff in I0. destruct I0 as (io & <- & I0). apply (OTH io I0). }
  cbn [sample_combiner c_extract]. unfold sample_extract, validate_accumulator. rewrite G1, CO.
  assert (DG : forall (l : list (metric_key * list num)) k, proper l -> dget metric_key_eqb l k = match get l k with [] => None | v => Some v end).
  { intros l k [_ NN]. unfold get. specialize (NN k). destruct (dget metric_key_eqb l k) as [[|]|]; congruence. }
  destruct (Nat.ltb (length others) n) eqn:FEW.
  - (* samples are missing *)
    apply Nat.ltb_lt in FEW.
    assert (WR : forall pt : metrics_dict, flat_map (fun kv => match dget metric_key_eqb ([] : list (metric_key * list num)) (fst kv) with Some l => if Nat.eqb (length l) n then [] else [(fst kv, length l)] | None => [] end) pt = []).
    { induction pt; [reflexivity|exact IHpt]. }
    rewrite WR. cbn [fold_left bind fst snd]. set (pt := dset metric_key_eqb P error_key _).
    rewrite (mapM_ok _ (fun kv => (fst kv, Plain (snd kv)))) by (intros; reflexivity).
    exists (map (fun kv => (fst kv, Plain (snd kv))) pt). split; [reflexivity|]. rewrite !map_map. cbn [fst].
    split; [apply (dset_NoDup metric_key_eqb metric_key_eqb_eq), NDP|]. split; [|split].
    + intros k I0. apply (dset_keys_In metric_key_eqb metric_key_eqb_eq) in I0. tauto.
    + intros k v I0. rewrite orb_true_r. cbn [orb]. apply in_map_iff. exists (k, v). split; [reflexivity|].
      apply (dget_In metric_key_eqb metric_key_eqb_eq). unfold pt. rewrite (dget_dset_neq metric_key_eqb metric_key_eqb_eq).
      * apply (dget_In_NoDup metric_key_eqb metric_key_eqb_eq); assumption.
      * intros X. subst k. apply (in_map fst) in I0. contradiction.
    + split; [intros _; left; exact FEW|]. intros _. apply (dset_keys_In metric_key_eqb metric_key_eqb_eq). left. reflexivity.
  - apply Nat.ltb_ge in FEW. assert (LEN : length others = n) by lia. clear LE FEW.
    set (wrong := flat_map _ P). cbn [bind fst snd].
    assert (WIN : forall k c, In (k, c) wrong <-> c = length (get (a_samples acc) k) /\ c <> 0 /\ c <> n /\ In k (map fst P)).
    { intros k c. unfold wrong. rewrite in_flat_map. split.
      - intros ([k0 v] & I0 & X). cbn [fst] in X. rewrite DG in X by (split; assumption). destruct (get (a_samples acc) k0) as [|y t] eqn:E; [destruct X|].
        destruct (Nat.eqb (length (y :: t)) n) eqn:Q; [destruct X|]. destruct X as [X|[]]. injection X as <- <-. apply Nat.eqb_neq in Q. rewrite E.
        split; [reflexivity|]. split; [cbn; lia|]. split; [exact Q|]. apply (in_map fst) in I0. exact I0.
      - intros (-> & C1 & C2 & I0). apply in_map_iff in I0. destruct I0 as ([k0 v] & E & I0). cbn [fst] in E. subst k0. exists (k, v). split; [exact I0|]. cbn [fst].
        rewrite DG by (split; assumption). destruct (get (a_samples acc) k) as [|y t]; [cbn in C1; lia|]. apply Nat.eqb_neq in C2. rewrite C2. left. reflexivity. }
    clearbody wrong.
    set (sm := fold_left _ wrong (a_samples acc)).
    assert (SM : forall k, dget metric_key_eqb sm k = if memb metric_key_eqb k (map fst wrong) then None else dget metric_key_eqb (a_samples acc) k).
    { intros k. apply fold_ddel_get, G3. }
    clearbody sm.
    assert (LV : forall k, length (get (a_samples acc) k) = if memb metric_key_eqb k skip then 0 else length (flat_map (numbers k) (map snd others))).
    { intros k. rewrite (Permutation_length (VA k)). destruct (memb metric_key_eqb k skip); reflexivity. }
    (* which metrics have samples left *)
    assert (HAS : forall k, In k (map fst P) -> dget metric_key_eqb sm k = if memb metric_key_eqb k skip || negb (Nat.eqb (length (flat_map (numbers k) (map snd others))) n) then None else Some (get (a_samples acc) k)).
    { intros k I0. rewrite SM, DG by (split; assumption). specialize (LV k). destruct (memb metric_key_eqb k (map fst wrong)) eqn:W.
      - apply (memb_In metric_key_eqb metric_key_eqb_eq) in W. apply in_map_iff in W. destruct W as ([k0 c] & E & W). cbn [fst] in E. subst k0.
        apply WIN in W. destruct W as (-> & C1 & C2 & _). rewrite LV in C1, C2. destruct (memb metric_key_eqb k skip); [reflexivity|]. apply Nat.eqb_neq in C2. rewrite C2. reflexivity.
      - apply (memb_nIn metric_key_eqb metric_key_eqb_eq) in W. destruct (memb metric_key_eqb k skip); cbn [orb].
        + destruct (get (a_samples acc) k); [reflexivity|discriminate].
        + destruct (Nat.eqb (length (flat_map (numbers k) (map snd others))) n) eqn:Q; cbn [negb].
          * apply Nat.eqb_eq in Q. destruct (get (a_samples acc) k); [cbn in LV; lia|reflexivity].
          * apply Nat.eqb_neq in Q. destruct (get (a_samples acc) k) as [|y t] eqn:E; [reflexivity|]. exfalso. apply W.
            apply in_map_iff. exists (k, length (y :: t)). split; [reflexivity|]. apply WIN. rewrite E. split; [reflexivity|]. split; [cbn; lia|]. split; [lia|exact I0]. }
    assert (ERR : dget metric_key_eqb sm error_key = None).
    { rewrite SM. destruct (memb metric_key_eqb error_key (map fst wrong)); [reflexivity|]. rewrite DG by (split; assumption).
      assert (Z : get (a_samples acc) error_key = []).
      { apply length_zero_iff_nil. rewrite LV. destruct (memb metric_key_eqb error_key skip); [reflexivity|].
        destruct (numbers_count error_key (map snd others) OND) as (_ & _ & NE). destruct (Nat.eq_dec (length (flat_map (numbers error_key) (map snd others))) 0) as [|X]; [assumption|].
        apply NE in X. apply Exists_exists in X. destruct X as (o & I0 & x & X). apply in_map_iff in I0. destruct I0 as (io & <- & I0). apply (in_map fst) in X. destruct (OTH io I0); contradiction. }
      rewrite Z. reflexivity. }
    (* every metric gets a value *)
    set (value := fun kv : metric_key * mval => match dget metric_key_eqb sm (fst kv) with
                    | None => Ok (fst kv, Plain (snd kv))
                    | Some l => let! v := interval n m (snd kv) l in Ok (fst kv, v)
                    end).
    assert (VAL : forall k v, In (k, v) P ->
       if memb metric_key_eqb k skip || negb (Nat.eqb (length (flat_map (numbers k) (map snd others))) n)
       then value (k, v) = Ok (k, Plain v)
       else exists x l t, v = Num x /\ Permutation l (flat_map (numbers k) (map snd others)) /\ interval n m (Num x) l = Ok t /\ value (k, v) = Ok (k, t)).
    { intros k v I0. unfold value. cbn [fst snd]. rewrite HAS by (apply (in_map fst) in I0; exact I0).
      destruct (memb metric_key_eqb k skip) eqn:SK; cbn [orb]; [reflexivity|].
      destruct (Nat.eqb (length (flat_map (numbers k) (map snd others))) n) eqn:Q; cbn [negb]; [|reflexivity].
      apply Nat.eqb_eq in Q. destruct (NUMP k v I0 LEN) as [x ->].
      { destruct (numbers_count k (map snd others) OND) as (_ & AL & _). rewrite map_length in AL. apply Forall_map, AL. lia. }
      specialize (VA k). rewrite SK in VA. assert (L1 : 1 < length (get (a_samples acc) k)) by (rewrite (Permutation_length VA); lia).
      destruct (interval_num n m x _ L1) as (me & va & E). rewrite E. cbn [bind]. eauto 10. }
    set (P2 := match wrong with [] => P | _ :: _ => dset metric_key_eqb P error_key (WrongCounts wrong n) end).
    assert (P2N : NoDup (map fst P2)) by (unfold P2; destruct wrong; [exact NDP|apply (dset_NoDup metric_key_eqb metric_key_eqb_eq), NDP]).
    assert (P2I : forall k v, In (k, v) P2 -> In (k, v) P \/ k = error_key).
    { intros k v I0. unfold P2 in I0. destruct wrong; [left; exact I0|].
      apply (dget_In_NoDup metric_key_eqb metric_key_eqb_eq) in I0; [|apply (dset_NoDup metric_key_eqb metric_key_eqb_eq), NDP].
      destruct (metric_key_eqb k error_key) eqn:E; [right; apply metric_key_eqb_eq, E|]. left.
      rewrite (dget_dset_neq metric_key_eqb metric_key_eqb_eq) in I0; [apply (dget_In metric_key_eqb metric_key_eqb_eq), I0|].
      intros X. subst. rewrite mk_refl in E. discriminate. }
    assert (P2J : forall k v, In (k, v) P -> In (k, v) P2).
    { intros k v I0. unfold P2. destruct wrong; [exact I0|]. apply (dget_In metric_key_eqb metric_key_eqb_eq).
      rewrite (dget_dset_neq metric_key_eqb metric_key_eqb_eq); [apply (dget_In_NoDup metric_key_eqb metric_key_eqb_eq); assumption|].
      intros X. subst k. apply (in_map fst) in I0. contradiction. }
    assert (OK : forall kv, In kv P2 -> exists t, value kv = Ok (fst kv, t)).
    { intros [k v] I0. destruct (P2I k v I0) as [I1|X].
      - pose proof (VAL k v I1) as V. destruct (memb metric_key_eqb k skip || _); [eauto|]. destruct V as (x & l & t & _ & _ & _ & V). eauto.
      - subst k. unfold value. cbn [fst snd]. rewrite ERR. eauto. }
    set (g := fun kv => match value kv with Ok r => r | Err _ => (fst kv, Plain (snd kv)) end).
    exists (map g P2). split; [|split; [|split; [|split]]].
    + fold value. apply mapM_ok. intros kv I0. destruct (OK kv I0) as [t E]. unfold g. rewrite E. reflexivity.
    + rewrite map_map. erewrite map_ext_in; [exact P2N|]. intros kv I0. destruct (OK kv I0) as [t E]. unfold g. rewrite E. reflexivity.
    + intros k I0. rewrite map_map in I0. apply in_map_iff in I0. destruct I0 as (kv & E & I0). destruct (OK kv I0) as [t E']. unfold g in E. rewrite E' in E. cbn [fst] in E. subst k.
      destruct kv as [k v]. destruct (P2I k v I0) as [I1|X]; [left; apply (in_map fst) in I1; exact I1|right; exact X].
    + intros k v I0. rewrite orb_false_r. pose proof (VAL k v I0) as V. destruct (memb metric_key_eqb k skip || _).
      * apply in_map_iff. exists (k, v). split; [|apply P2J, I0]. unfold g. rewrite V. reflexivity.
      * destruct V as (x & l & t & V1 & V2 & V3 & V4). exists x, l, t. split; [exact V1|]. split; [exact V2|]. split; [exact V3|].
        apply in_map_iff. exists (k, v). split; [|apply P2J, I0]. unfold g. rewrite V4. reflexivity.
    + assert (KS : map fst (map g P2) = map fst P2).
      { rewrite map_map. apply map_ext_in. intros kv I0. destruct (OK kv I0) as [t E]. unfold g. rewrite E. reflexivity. }
      rewrite KS. unfold P2. split.
      * intros I0. right. destruct wrong as [|[k c] w]; [contradiction|]. destruct (proj1 (WIN k c) (or_introl eq_refl)) as (E & C1 & C2 & I1).
        apply in_map_iff in I1. destruct I1 as ([k0 v] & E1 & I1). cbn [fst] in E1. subst k0. exists k, v. rewrite LV in E. split; [exact I1|].
        destruct (memb metric_key_eqb k skip) eqn:SK; [lia|]. apply (memb_nIn metric_key_eqb metric_key_eqb_eq) in SK. rewrite <- E. auto.
      * intros [X|(k & v & I0 & SK & C1 & C2)]; [lia|]. apply (memb_nIn metric_key_eqb metric_key_eqb_eq) in SK.
        assert (W : In (k, length (get (a_samples acc) k)) wrong).
        { apply WIN. rewrite LV, SK. split; [reflexivity|]. split; [exact C1|]. split; [exact C2|]. apply (in_map fst) in I0. exact I0. }
        destruct wrong; [destruct W|]. apply (dset_keys_In metric_key_eqb metric_key_eqb_eq). left. reflexivity.
Qed.

Lemma C22_intervals_pf :
  forall n skip m (P : metrics_dict) (others : list (nat * metrics_dict)) (s : sched sample),
    2 <= n -> length others <= n -> NoDup (map fst P) -> ~ In error_key (map fst P) ->
    (forall o, In o others -> NoDup (map fst (snd o)) /\ ~ In error_key (map fst (snd o))) ->
    (forall k v, In (k, v) P -> length others = n -> Forall (fun o => numeric k (snd o)) others -> exists x, v = Num x) ->
    Permutation (inputs s) (Sample P None :: map as_sample others) ->
    exists out, outcome (sample_combiner n skip m) s = Ok out /\ NoDup (map fst out) /\
      (forall k, In k (map fst out) -> In k (map fst P) \/ k = error_key) /\
      (forall k v, In (k, v) P ->
         length others = n /\ ~ In k skip /\ Forall (fun o => numeric k (snd o)) others ->
         exists x mean var, v = Num x /\ In (k, TValue mean var (n - 1) x) out) /\
      (forall k v, In (k, v) P ->
         ~ (length others = n /\ ~ In k skip /\ Forall (fun o => numeric k (snd o)) others) -> In (k, Plain v) out) /\
      (In error_key (map fst out) <->
         length others < n \/
         exists k v, In (k, v) P /\ ~ In k skip /\ Exists (fun o => numeric k (snd o)) others /\ ~ Forall (fun o => numeric k (snd o)) others).
Proof.
  intros n skip m P others s N2 LE NDP NEP OTH NUMP PERM.
  destruct (combined n skip m P others s N2 LE NDP NEP OTH NUMP PERM) as (out & R1 & R2 & R3 & R4 & R5).
  exists out. split; [exact R1|]. split; [exact R2|]. split; [exact R3|].
  assert (OND : forall o, In o (map snd others) -> NoDup (map fst o)).
  { intros o I0. apply in_map_iff in I0. destruct I0 as (io & <- & I0). apply (OTH io I0). }
  split; [|split].
  - intros k v I0 (LEN & SK & AL). specialize (R4 k v I0). apply (memb_nIn metric_key_eqb metric_key_eqb_eq) in SK. rewrite SK in R4.
    rewrite (proj2 (Nat.ltb_ge (length others) n)) in R4 by lia.
    destruct (numbers_count k (map snd others) OND) as (_ & NC & _). rewrite map_length, LEN in NC. rewrite Forall_map in NC. rewrite (proj2 (Nat.eqb_eq _ _) (proj2 NC AL)) in R4. cbn [orb negb] in R4.
    destruct R4 as (x & l & t & -> & PL & IN & I1). assert (L1 : 1 < length l) by (rewrite (Permutation_length PL), (proj2 NC AL); lia).
    destruct (interval_num n m x l L1) as (me & va & E). rewrite E in IN. injection IN as <-. exists x, me, va. split; [reflexivity|exact I1].
  - intros k v I0 NE. specialize (R4 k v I0). destruct (memb metric_key_eqb k skip) eqn:SK; [exact R4|]. apply (memb_nIn metric_key_eqb metric_key_eqb_eq) in SK.
    destruct (Nat.ltb (length others) n) eqn:FEW; [exact R4|]. apply Nat.ltb_ge in FEW. assert (LEN : length others = n) by lia.
    destruct (numbers_count k (map snd others) OND) as (_ & NC & _). rewrite map_length, LEN in NC. rewrite Forall_map in NC.
    destruct (Nat.eqb (length (flat_map (numbers k) (map snd others))) n) eqn:Q; [|exact R4]. apply Nat.eqb_eq in Q. destruct NE. apply NC in Q. auto.
  - rewrite R5. destruct (Nat.lt_ge_cases (length others) n) as [L|G]; [tauto|]. assert (LEN : length others = n) by lia.
    split; intros [X|(k & v & X1 & X2 & X3 & X4)]; try lia; right; exists k, v; (split; [exact X1|]); (split; [exact X2|]);
      destruct (numbers_count k (map snd others) OND) as (_ & NC & NE); rewrite map_length, LEN in NC; rewrite Forall_map in NC; rewrite Exists_map in NE; tauto.
Qed.

Definition plain_key (name : string) : metric_key := MetricKey name "" "" None None None false.

Definition mean_of (xs : list Qc) : Qc := (qsum xs / qz (Z.of_nat (length xs)))%Qc.

(** Sum of the squared deviations from the mean. *)

Definition squared_deviations (xs : list Qc) : Qc := qsum (map (fun x => (x - mean_of xs) * (x - mean_of xs))%Qc xs).

Lemma fin_sum t a : fold_left num_plus (map Fin t) (Fin a) = Fin (a + qsum t)%Qc.
Proof.
  revert a. induction t as [|b t IH]; intros a; cbn [map fold_left]; [f_equal; change (qsum []) with 0%Qc; ring|].
  change (num_plus (Fin a) (Fin b)) with (Fin (a + b)%Qc). rewrite IH. f_equal. change (qsum (b :: t)) with (b + qsum t)%Qc. ring.
Qed.

Lemma fin_squares mean t a : fold_left (fun acc x => num_plus acc (num_sqr (num_sub x (Fin mean)))) (map Fin t) (Fin a) = Fin (a + qsum (map (fun x => (x - mean) * (x - mean)) t))%Qc.
Proof.
  revert a. induction t as [|b t IH]; intros a; cbn [map fold_left]; [f_equal; change (qsum []) with 0%Qc; ring|].
  change (num_plus (Fin a) (num_sqr (num_sub (Fin b) (Fin mean)))) with (Fin (a + (b - mean) * (b - mean))%Qc). rewrite IH. f_equal.
  change (qsum ((b - mean) * (b - mean) :: map (fun x => (x - mean) * (x - mean)) t)%Qc) with ((b - mean) * (b - mean) + qsum (map (fun x => (x - mean) * (x - mean)) t))%Qc. ring.
Qed.

Lemma fin_div a b : b <> 0%Qc -> num_div (Fin a) (Fin b) = Fin (a / b)%Qc.
Proof. intros N. cbn [num_div]. unfold np_div. apply Qc_eqb_neq in N. rewrite N. reflexivity. Qed.

Lemma qz_neq a : a <> 0%Z -> qz a <> 0%Qc.
Proof. intros N E. apply N, qz_inj. exact E. Qed.

Lemma fin_mean_and_var ys : 2 <= length ys ->
  mean_and_var (map Fin ys) 1 = Ok (Fin (mean_of ys), Fin (squared_deviations ys / qz (Z.of_nat (length ys) - 1))%Qc).
Proof.
  intros L. destruct ys as [|y t]; [cbn in L; lia|]. cbn [map]. unfold mean_and_var. change (Fin y :: map Fin t) with (map Fin (y :: t)). rewrite map_length.
  rewrite (proj2 (Nat.eqb_neq (length (y :: t)) 1)) by lia. rewrite fin_sum, fin_div by (apply qz_neq; lia).
  change ((y + qsum t) / qz (Z.of_nat (length (y :: t))))%Qc with (mean_of (y :: t)). set (mu := mean_of (y :: t)).
  change (num_sqr (num_sub (Fin y) (Fin mu))) with (Fin ((y - mu) * (y - mu))%Qc). rewrite fin_squares, fin_div by (apply qz_neq; lia). reflexivity.
Qed.

Lemma qsum_affine a b ys : qsum (map (fun x => a - b * x)%Qc ys) = (a * qz (Z.of_nat (length ys)) - b * qsum ys)%Qc.
Proof.
  induction ys as [|y t IH]; cbn [map length]; [change (qsum []) with 0%Qc; change (qz (Z.of_nat 0)) with 0%Qc; ring|].
  change (qsum ((a - b * y)%Qc :: map (fun x => (a - b * x)%Qc) t)) with (a - b * y + qsum (map (fun x => a - b * x) t))%Qc. rewrite IH.
  rewrite Nat2Z.inj_succ. replace (Z.succ (Z.of_nat (length t))) with (1 + Z.of_nat (length t))%Z by lia. rewrite qz_plus. change (qz 1) with 1%Qc.
  change (qsum (y :: t)) with (y + qsum t)%Qc. ring.
Qed.

(** Deviations of a - b x. *)

Lemma affine_deviations a b ys : ys <> [] -> squared_deviations (map (fun x => a - b * x)%Qc ys) = (b * b * squared_deviations ys)%Qc.
Proof.
  intros NE. unfold squared_deviations. rewrite map_map.
  assert (N0 : qz (Z.of_nat (length ys)) <> 0%Qc) by (apply qz_neq; destruct ys; [congruence|cbn; lia]).
  assert (M : mean_of (map (fun x => a - b * x)%Qc ys) = (a - b * mean_of ys)%Qc).
  { unfold mean_of. rewrite map_length, qsum_affine. field. exact N0. }
  rewrite M. rewrite <- (qsum_map_scale (fun x => (x - mean_of ys) * (x - mean_of ys))%Qc). apply qsum_map_ext. intros x _. ring.
Qed.

Lemma fin_jackknife p ys : 2 <= length ys ->
  interval (length ys) Jackknife (Num (Fin p)) (map Fin ys) =
  Ok (TValue (Fin (mean_of ys)) (Fin (qz (Z.of_nat (length ys) - 1) / qz (Z.of_nat (length ys)) * squared_deviations ys)%Qc) (length ys - 1) (Fin p)).
Proof.
  intros L. unfold interval.
  assert (PS : map (fun v => num_sub (num_scale (qz (Z.of_nat (length ys))) (Fin p)) (num_scale (qz (Z.of_nat (length ys) - 1)) v)) (map Fin ys)
               = map Fin (map (fun x => qz (Z.of_nat (length ys)) * p - qz (Z.of_nat (length ys) - 1) * x)%Qc ys)).
  { rewrite !map_map. apply map_ext. intros x. reflexivity. }
  rewrite PS, fin_mean_and_var by (rewrite map_length; exact L). cbn [bind snd]. rewrite map_length.
  destruct ys as [|y t]; [cbn in L; lia|]. rewrite affine_deviations by discriminate. cbn [map]. rewrite fin_sum.
  set (len := length (y :: t)) in *.
  assert (N0 : qz (Z.of_nat len) <> 0%Qc) by (apply qz_neq; lia). assert (N1 : qz (Z.of_nat len - 1) <> 0%Qc) by (apply qz_neq; lia).
  rewrite !fin_div by assumption. do 3 f_equal. field. auto.
Qed.

Lemma fin_bootstrap p ys : 2 <= length ys ->
  interval (length ys) Bootstrap (Num (Fin p)) (map Fin ys) =
  Ok (TValue (Fin (mean_of ys)) (Fin (squared_deviations ys / qz (Z.of_nat (length ys) - 1))%Qc) (length ys - 1) (Fin p)).
Proof. intros L. unfold interval. rewrite fin_mean_and_var by exact L. reflexivity. Qed.

Lemma mean_perm xs ys : Permutation xs ys -> mean_of xs = mean_of ys.
Proof. intros P. unfold mean_of. rewrite (qsum_perm _ _ P), (Permutation_length P). reflexivity. Qed.

Lemma deviations_perm xs ys : Permutation xs ys -> squared_deviations xs = squared_deviations ys.
Proof. intros P. unfold squared_deviations. rewrite (mean_perm _ _ P). apply qsum_perm, Permutation_map, P. Qed.

Lemma square_nonneg (x : Qc) : (0 <= x * x)%Qc.
Proof. qc_nra. Qed.

Lemma deviations_nonneg xs : (0 <= squared_deviations xs)%Qc.
Proof. apply qsum_nonneg. intros x I0. apply in_map_iff in I0. destruct I0 as (y & <- & _). apply square_nonneg. Qed.

Lemma qsum_zero_all l : (forall x, In x l -> 0 <= x)%Qc -> qsum l = 0%Qc -> forall x, In x l -> x = 0%Qc.
Proof.
  induction l as [|a l IH]; intros NN Z x I0; [destruct I0|]. change (qsum (a :: l)) with (a + qsum l)%Qc in Z.
  assert (A : (0 <= a)%Qc) by (apply NN; left; reflexivity). assert (B : (0 <= qsum l)%Qc) by (apply qsum_nonneg; intros; apply NN; right; assumption).
  assert (a = 0%Qc) by qc_lra. assert (qsum l = 0%Qc) by qc_lra. destruct I0 as [<-|I0]; [assumption|]. apply IH; auto. intros; apply NN; right; assumption.
Qed.

Lemma deviations_zero xs : squared_deviations xs = 0%Qc <-> (forall x y, In x xs -> In y xs -> x = y).
Proof.
  split.
  - intros Z x y I1 I2.
    assert (A : forall x, In x xs -> x = mean_of xs).
    { intros z IZ. assert (E : ((z - mean_of xs) * (z - mean_of xs) = 0)%Qc).
      { apply (qsum_zero_all (map (fun x => (x - mean_of xs) * (x - mean_of xs))%Qc xs)); [|exact Z|].
        - intros w IW. apply in_map_iff in IW. destruct IW as (v & <- & _). apply square_nonneg.
        - apply in_map_iff. exists z. auto. }
      apply Qcmult_integral in E. assert (z - mean_of xs = 0)%Qc by tauto. qc_lra. }
    rewrite (A x I1), (A y I2). reflexivity.
  - intros EQ. unfold squared_deviations. destruct xs as [|a t]; [reflexivity|].
    assert (AL : forall x, In x (a :: t) -> x = a) by (intros x I0; apply EQ; [exact I0|left; reflexivity]).
    assert (SU : forall l, (forall x, In x l -> x = a) -> qsum l = (qz (Z.of_nat (length l)) * a)%Qc).
    { clear. induction l as [|b l IH]; intros H; [change (qsum []) with 0%Qc; change (qz (Z.of_nat (@length Qc []))) with 0%Qc; ring|].
      change (qsum (b :: l)) with (b + qsum l)%Qc. rewrite IH by (intros; apply H; right; assumption). rewrite (H b (or_introl eq_refl)).
      cbn [length]. rewrite Nat2Z.inj_succ. replace (Z.succ (Z.of_nat (length l))) with (1 + Z.of_nat (length l))%Z by lia. rewrite qz_plus. change (qz 1) with 1%Qc. ring. }
    assert (M : mean_of (a :: t) = a).
    { unfold mean_of. rewrite (SU _ AL). field. apply qz_neq. cbn; lia. }
    rewrite M. apply qsum_map_zero. intros x I0. rewrite (AL x I0). ring.
Qed.

(** The samples of one metric, end to end. *)

Lemma values n skip m (P : metrics_dict) (others : list (nat * metrics_dict)) (s : sched sample) k p xs :
  2 <= n -> length others = n -> NoDup (map fst P) -> ~ In error_key (map fst P) ->
  (forall o, In o others -> NoDup (map fst (snd o)) /\ ~ In error_key (map fst (snd o))) ->
  (forall k v, In (k, v) P -> Forall (fun o => numeric k (snd o)) others -> exists x, v = Num x) ->
  Permutation (inputs s) (Sample P None :: map as_sample others) ->
  In (k, Num (Fin p)) P -> ~ In k skip -> Forall2 (fun o x => In (k, Num (Fin x)) (snd o)) others xs ->
  exists out ys t, outcome (sample_combiner n skip m) s = Ok out /\ Permutation ys xs /\ interval n m (Num (Fin p)) (map Fin ys) = Ok t /\ In (k, t) out.
Proof.
  intros N2 LEN NDP NEP OTH NUMP PERM IP SK F2.
  assert (NUMP' : forall k v, In (k, v) P -> length others = n -> Forall (fun o => numeric k (snd o)) others -> exists x, v = Num x) by (intros; eapply NUMP; eassumption).
  destruct (combined n skip m P others s N2 (Nat.eq_le_incl _ _ LEN) NDP NEP OTH NUMP' PERM) as (out & R1 & R2 & R3 & R4 & R5).
  specialize (R4 k (Num (Fin p)) IP). apply (memb_nIn metric_key_eqb metric_key_eqb_eq) in SK. rewrite SK in R4.
  assert (NB : flat_map (numbers k) (map snd others) = map Fin xs).
  { clear -F2 OTH. induction F2 as [|o x others xs H F IH]; [reflexivity|]. cbn [map flat_map]. rewrite IH by (intros; apply OTH; right; assumption).
    destruct (OTH o (or_introl eq_refl)) as [ND _]. pose proof (numbers_length k (snd o) ND) as L. apply numbers_In in H.
    assert (X : numbers k (snd o) = [Fin x]).
    { destruct (numbers k (snd o)) as [|a [|b t]]; cbn [In length] in H, L; [contradiction| |lia]. destruct H as [->|[]]. reflexivity. }
    exact (f_equal (fun z => z ++ map Fin xs) X). }
  rewrite NB in R4. assert (L2 : length others = length xs) by exact (Forall2_length _ _ _ F2). rewrite map_length, (proj2 (Nat.ltb_ge (length others) n)) in R4 by lia.
  rewrite (proj2 (Nat.eqb_eq (length xs) n)) in R4 by lia. cbn [orb negb] in R4. destruct R4 as (x & l & t & [= <-] & PL & IN & IO).
  apply Permutation_map_inv in PL. destruct PL as (ys & -> & PL). exists out, ys, t. split; [exact R1|]. split; [apply Permutation_sym, PL|]. split; assumption.
Qed.

Lemma C23_jackknife_pf :
  forall n skip (P : metrics_dict) (others : list (nat * metrics_dict)) (s : sched sample) k p xs,
    2 <= n -> length others = n -> NoDup (map fst P) -> ~ In error_key (map fst P) ->
    (forall o, In o others -> NoDup (map fst (snd o)) /\ ~ In error_key (map fst (snd o))) ->
    (forall k v, In (k, v) P -> Forall (fun o => numeric k (snd o)) others -> exists x, v = Num x) ->
    Permutation (inputs s) (Sample P None :: map as_sample others) ->
    In (k, Num (Fin p)) P -> ~ In k skip -> Forall2 (fun o x => In (k, Num (Fin x)) (snd o)) others xs ->
    exists out mean var, outcome (sample_combiner n skip Jackknife) s = Ok out /\
      In (k, TValue (Fin mean) (Fin var) (n - 1) (Fin p)) out /\
      mean = (qsum xs / qz (Z.of_nat n))%Qc /\
      var = (qz (Z.of_nat n - 1) / qz (Z.of_nat n) * qsum (map (fun x => (x - mean) * (x - mean)) xs))%Qc /\
      (0 <= var)%Qc /\ (var = 0%Qc <-> forall x y, In x xs -> In y xs -> x = y).
Proof.
  intros n skip P others s k p xs N2 LEN NDP NEP OTH NUMP PERM IP SK F2.
  destruct (values n skip Jackknife P others s k p xs N2 LEN NDP NEP OTH NUMP PERM IP SK F2) as (out & ys & t & R & PY & IN & IO).
  assert (L2 : length others = length xs) by exact (Forall2_length _ _ _ F2). pose proof (Permutation_length PY) as LY.
  assert (E : n = length ys) by lia. rewrite E in IN at 1. rewrite fin_jackknife in IN by lia. rewrite <- E in IN. injection IN as <-.
  exists out, (mean_of ys), (qz (Z.of_nat n - 1) / qz (Z.of_nat n) * squared_deviations ys)%Qc. split; [exact R|]. split; [exact IO|].
  split; [rewrite (mean_perm _ _ PY); unfold mean_of; rewrite <- LY, <- E; reflexivity|]. split; [rewrite (deviations_perm _ _ PY), (mean_perm _ _ PY); reflexivity|].
  assert (P0 : (0 < qz (Z.of_nat n))%Qc) by (apply (proj1 (qz_lt 0 _)); lia). assert (P1 : (0 < qz (Z.of_nat n - 1))%Qc) by (apply (proj1 (qz_lt 0 _)); lia).
  split.
  - apply Qcmult_nonneg; [apply Qcdiv_nonneg; [apply Qclt_le_weak, P1|exact P0]|apply deviations_nonneg].
  - rewrite (deviations_perm _ _ PY). rewrite <- deviations_zero. split; intros Z; [|rewrite Z; ring]. apply Qcmult_integral in Z. destruct Z as [Z|Z]; [|exact Z].
    exfalso. assert (X : qz (Z.of_nat n - 1) = (qz (Z.of_nat n - 1) / qz (Z.of_nat n) * qz (Z.of_nat n))%Qc) by (field; intros Q; rewrite Q in P0; discriminate P0).
    rewrite Z in X. rewrite X in P1. replace (0 * qz (Z.of_nat n))%Qc with 0%Qc in P1 by ring. discriminate P1.
Qed.

Lemma C23_bootstrap_pf :
  forall n skip (P : metrics_dict) (others : list (nat * metrics_dict)) (s : sched sample) k p xs,
    2 <= n -> length others = n -> NoDup (map fst P) -> ~ In error_key (map fst P) ->
    (forall o, In o others -> NoDup (map fst (snd o)) /\ ~ In error_key (map fst (snd o))) ->
    (forall k v, In (k, v) P -> Forall (fun o => numeric k (snd o)) others -> exists x, v = Num x) ->
    Permutation (inputs s) (Sample P None :: map as_sample others) ->
    In (k, Num (Fin p)) P -> ~ In k skip -> Forall2 (fun o x => In (k, Num (Fin x)) (snd o)) others xs ->
    exists out mean, outcome (sample_combiner n skip Bootstrap) s = Ok out /\
      mean = (qsum xs / qz (Z.of_nat n))%Qc /\
      In (k, TValue (Fin mean) (Fin (qsum (map (fun x => (x - mean) * (x - mean)) xs) / qz (Z.of_nat n - 1))%Qc) (n - 1) (Fin p)) out.
Proof.
  intros n skip P others s k p xs N2 LEN NDP NEP OTH NUMP PERM IP SK F2.
  destruct (values n skip Bootstrap P others s k p xs N2 LEN NDP NEP OTH NUMP PERM IP SK F2) as (out & ys & t & R & PY & IN & IO).
  assert (L2 : length others = length xs) by exact (Forall2_length _ _ _ F2). pose proof (Permutation_length PY) as LY.
  assert (E : n = length ys) by lia. rewrite E in IN at 1. rewrite fin_bootstrap in IN by lia. rewrite <- E in IN. injection IN as <-.
  exists out, (mean_of ys). split; [exact R|]. split; [rewrite (mean_perm _ _ PY); unfold mean_of; rewrite <- LY, <- E; reflexivity|].
  rewrite (deviations_perm _ _ PY) in IO. unfold squared_deviations in IO. rewrite <- (mean_perm _ _ PY) in IO. exact IO.
Qed.

Lemma C23_shift_pf :
  forall n skip (P P' : metrics_dict) (others others' : list (nat * metrics_dict)) (s s' : sched sample) k p c xs,
    2 <= n -> length others = n -> NoDup (map fst P) -> ~ In error_key (map fst P) ->
    (forall o, In o others -> NoDup (map fst (snd o)) /\ ~ In error_key (map fst (snd o))) ->
    (forall k v, In (k, v) P -> Forall (fun o => numeric k (snd o)) others -> exists x, v = Num x) ->
    NoDup (map fst P') -> ~ In error_key (map fst P') ->
    (forall o, In o others' -> NoDup (map fst (snd o)) /\ ~ In error_key (map fst (snd o))) ->
    (forall k v, In (k, v) P' -> Forall (fun o => numeric k (snd o)) others' -> exists x, v = Num x) ->
    Permutation (inputs s) (Sample P None :: map as_sample others) ->
    Permutation (inputs s') (Sample P' None :: map as_sample others') ->
    In (k, Num (Fin p)) P -> In (k, Num (Fin (p + c)%Qc)) P' -> ~ In k skip ->
    Forall2 (fun o x => In (k, Num (Fin x)) (snd o)) others xs ->
    Forall2 (fun o x => In (k, Num (Fin (x + c)%Qc)) (snd o)) others' xs ->
    exists out out' mean var,
      outcome (sample_combiner n skip Jackknife) s = Ok out /\ In (k, TValue (Fin mean) (Fin var) (n - 1) (Fin p)) out /\
      outcome (sample_combiner n skip Jackknife) s' = Ok out' /\ In (k, TValue (Fin (mean + c)%Qc) (Fin var) (n - 1) (Fin (p + c)%Qc)) out'.
Proof.
  intros n skip P P' others others' s s' k p c xs N2 LEN NDP NEP OTH NUMP NDP' NEP' OTH' NUMP' PERM PERM' IP IP' SK F2 F2'.
  assert (L2 : length others = length xs) by exact (Forall2_length _ _ _ F2). assert (L2' : length others' = length xs) by exact (Forall2_length _ _ _ F2').
  destruct (C23_jackknife_pf n skip P others s k p xs N2 LEN NDP NEP OTH NUMP PERM IP SK F2) as (out & mean & var & R & IO & E1 & E2 & _ & _).
  assert (F3 : Forall2 (fun o x => In (k, Num (Fin x)) (snd o)) others' (map (fun x => (c - - (1) * x)%Qc) xs)).
  { clear -F2'. induction F2'; cbn [map]; constructor; [|assumption]. replace (c - - (1) * y)%Qc with (y + c)%Qc by ring. assumption. }
  destruct (C23_jackknife_pf n skip P' others' s' k (p + c)%Qc _ N2 (eq_trans L2' (eq_trans (eq_sym L2) LEN)) NDP' NEP' OTH' NUMP' PERM' IP' SK F3) as (out' & mean' & var' & R' & IO' & E1' & E2' & _ & _).
  assert (NE : xs <> []) by (intros X; subst xs; cbn in L2; lia). assert (N0 : qz (Z.of_nat n) <> 0%Qc) by (apply qz_neq; lia).
  assert (M : mean = mean_of xs) by (rewrite E1; unfold mean_of; do 3 f_equal; lia).
  assert (M' : mean' = mean_of (map (fun x => (c - - (1) * x)%Qc) xs)) by (rewrite E1'; unfold mean_of; rewrite map_length; do 3 f_equal; lia).
  assert (MM : mean' = (mean + c)%Qc).
  { rewrite E1', E1, qsum_affine. replace (length xs) with n by lia. field. exact N0. }
  assert (VV : var' = var).
  { rewrite E2', E2. f_equal. rewrite M', M. fold (squared_deviations (map (fun x => (c - - (1) * x)%Qc) xs)). fold (squared_deviations xs). rewrite affine_deviations by exact NE. ring. }
  exists out, out', mean, var. rewrite MM, VV in IO'. auto.
Qed.

Lemma C23_interval_pf :
  forall (t : R) (mean var : Qc), (0 <= t)%R ->
    let '(m, lower, upper) := confidence_interval t mean var in
    m = Q2R mean /\ (m - lower = upper - m)%R /\ (lower <= m <= upper)%R.
Proof.
  intros t mean var T. unfold confidence_interval. split; [reflexivity|]. pose proof (sqrt_pos (Q2R var)) as S0. pose proof (Rmult_le_pos _ _ S0 T) as S1.
  split; [ring|]. split; Lra.lra.
Qed.

Lemma C91_additive_mean_pf :
  forall n skip (P : metrics_dict) (others : list (nat * metrics_dict)) (s : sched sample) k parts,
    2 <= n -> length others = n -> NoDup (map fst P) -> ~ In error_key (map fst P) ->
    (forall o, In o others -> NoDup (map fst (snd o)) /\ ~ In error_key (map fst (snd o))) ->
    (forall k v, In (k, v) P -> Forall (fun o => numeric k (snd o)) others -> exists x, v = Num x) ->
    Permutation (inputs s) (Sample P None :: map as_sample others) ->
    In (k, Num (Fin (qsum parts))) P -> ~ In k skip ->
    Forall2 (fun o part => In (k, Num (Fin (qsum parts - part)%Qc)) (snd o)) others parts ->
    exists out var, outcome (sample_combiner n skip Jackknife) s = Ok out /\
      In (k, TValue (Fin (qz (Z.of_nat n - 1) / qz (Z.of_nat n) * qsum parts)%Qc) (Fin var) (n - 1) (Fin (qsum parts))) out.
Proof.
  intros n skip P others s k parts N2 LEN NDP NEP OTH NUMP PERM IP SK F2.
  assert (L2 : length others = length parts) by exact (Forall2_length _ _ _ F2).
  set (th := qsum parts) in *.
  assert (F3 : Forall2 (fun o x => In (k, Num (Fin x)) (snd o)) others (map (fun x => (th - 1 * x)%Qc) parts)).
  { clearbody th. clear -F2. induction F2; cbn [map]; constructor; [|assumption]. replace (th - 1 * y)%Qc with (th - y)%Qc by ring. assumption. }
  destruct (C23_jackknife_pf n skip P others s k th _ N2 LEN NDP NEP OTH NUMP PERM IP SK F3) as (out & mean & var & R & IO & E1 & _).
  exists out, var. split; [exact R|].
  assert (M : mean = (qz (Z.of_nat n - 1) / qz (Z.of_nat n) * th)%Qc).
  { rewrite E1, qsum_affine. fold th. replace (length parts) with n by lia. replace (Z.of_nat n - 1)%Z with (Z.of_nat n + - (1))%Z by lia. rewrite qz_plus. change (qz (-(1))) with (- (1))%Qc. field. apply qz_neq. lia. }
  rewrite M in IO. exact IO.
Qed.

Lemma C91_interval_contains_value_refuted_pf :
  exists (P : metrics_dict) (s0 s1 : metrics_dict) k mean var value,
    P = [(k, Num (Fin (qz 10 + qz 10)%Qc))] /\ s0 = [(k, Num (Fin (qz 10)))] /\ s1 = [(k, Num (Fin (qz 10)))] /\
    outcome (sample_combiner 2 [] Jackknife) (Bundle [Sample P None; as_sample (0, s0); as_sample (1, s1)])
      = Ok [(k, TValue (Fin mean) (Fin var) 1 (Fin value))] /\
    forall t : R, let '(_, lower, upper) := confidence_interval t mean var in ~ (lower <= Q2R value <= upper)%R.
Proof.
  exists [(plain_key "true_positives", Num (Fin (qz 10 + qz 10)%Qc))], [(plain_key "true_positives", Num (Fin (qz 10)))], [(plain_key "true_positives", Num (Fin (qz 10)))],
    (plain_key "true_positives"), (qz 10), 0%Qc, (qz 20).
  split; [reflexivity|]. split; [reflexivity|]. split; [reflexivity|]. split; [qc_ex|].
  intros t. unfold confidence_interval. assert (A : forall z, Q2R (qz z) = IZR z).
  { intros z. rewrite (Qreals.Qeq_eqR _ _ (qz_this z)). unfold Q2R, inject_Z. cbn [Qnum Qden]. field. }
  change 0%Qc with (qz 0). rewrite !A, sqrt_0. Lra.lra.
Qed.

Lemma C92_skipped_metrics_pf :
  forall n configured m (P : metrics_dict) (others : list (nat * metrics_dict)) (s : sched sample) k v,
    2 <= n -> length others <= n -> NoDup (map fst P) -> ~ In error_key (map fst P) ->
    (forall o, In o others -> NoDup (map fst (snd o)) /\ ~ In error_key (map fst (snd o))) ->
    (forall k v, In (k, v) P -> length others = n -> Forall (fun o => numeric k (snd o)) others -> exists x, v = Num x) ->
    Permutation (inputs s) (Sample P None :: map as_sample others) ->
    In (k, false) configured -> In (k, v) P ->
    exists out, outcome (sample_combiner n (keys_to_skip configured) m) s = Ok out /\ In (k, Plain v) out.
Proof.
  intros n configured m P others s k v N2 LE NDP NEP OTH NUMP PERM IC IP.
  destruct (C22_intervals_pf n (keys_to_skip configured) m P others s N2 LE NDP NEP OTH NUMP PERM) as (out & R & _ & _ & _ & PL & _).
  exists out. split; [exact R|]. apply PL; [exact IP|]. intros (_ & X & _). apply X. unfold keys_to_skip. apply in_map_iff. exists (k, false).
  split; [reflexivity|]. apply filter_In. auto.
Qed.

Lemma C92_skipped_differences_refuted_pf :
  exists configured k base s out mean var,
    In (k, false) configured /\ In (base, false) configured /\ k_diff k = false /\
    outcome (sample_combiner 2 (keys_to_skip configured) Jackknife) s = Ok out /\
    (exists x, In (k, Plain (Num x)) out) /\ (exists x, In (base, Plain (Num x)) out) /\
    exists x, In (make_diff_key k, TValue mean var 1 x) out.
Proof.
  set (k := MetricKey "example_count" "candidate" "" None None None false). set (b := MetricKey "example_count" "baseline" "" None None None false).
  set (d x y := [(k, Num (Fin (qz x))); (b, Num (Fin (qz y))); (make_diff_key k, Num (Fin (qz x - qz y)%Qc))]).
  exists [(k, false); (b, false)], k, b, (Bundle [Sample (d 7 7)%Z None; as_sample (0, d 3%Z 3%Z); as_sample (1, d 4%Z 4%Z)]),
    [(k, Plain (Num (Fin (qz 7)))); (b, Plain (Num (Fin (qz 7)))); (make_diff_key k, TValue (Fin 0%Qc) (Fin 0%Qc) 1 (Fin 0%Qc))], (Fin 0%Qc), (Fin 0%Qc).
  split; [left; reflexivity|]. split; [right; left; reflexivity|]. split; [reflexivity|]. split; [qc_ex|].
  split; [eexists; left; reflexivity|]. split; [eexists; right; left; reflexivity|]. eexists. right; right; left; reflexivity.
Qed.
