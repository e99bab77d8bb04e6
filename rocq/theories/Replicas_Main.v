(* Proofs of the theorems restated in Replicas_Properties.v. *)
From Coq Require Import String Ascii Permutation.
From Verif Require Import Base BaseFacts Means_Model CI_Model CI_Main Setup_Main Replicas_Model.
Local Open Scope string_scope.
Local Open Scope list_scope.

(* C305 - C307: metrics from replicas of the data. *)

Fixpoint value_at (v : value) (p : list nat) : option value :=
  match p with
  | [] => Some v
  | i :: p => match v with VList l => match nth_error l i with Some x => value_at x p | None => None end | _ => None end
  end.

Fixpoint shown_at (s : shown) (p : list nat) : option shown :=
  match p with
  | [] => Some s
  | i :: p => match s with ShownList l => match nth_error l i with Some x => shown_at x p | None => None end | _ => None end
  end.

Definition numbers_at (p : list nat) (vs : list value) (xs : list num) : Prop := Forall2 (fun v x => value_at v p = Some (VNum x)) vs xs.

Definition kept (xs : list num) : list num := filter (fun x => match x with NaN => false | _ => true end) xs.

Definition is_message (v : value) : Prop := exists t, v = VMessage t.

(** Mean, square of the standard deviation and degrees of freedom of finite samples, those that are
    NaN left out. *)

Definition described (xs : list num) (mean variance : num) (degrees : Z) : Prop :=
  forall qs, kept xs = map Fin qs ->
    degrees = (Z.of_nat (length qs) - 1)%Z /\
    (qs = [] -> mean = NaN /\ variance = NaN) /\
    (forall q, qs = [q] -> mean = Fin q /\ variance = NaN) /\
    (2 <= length qs -> mean = Fin (mean_of qs) /\ variance = Fin (squared_deviations qs / qz (Z.of_nat (length qs) - 1))%Qc).

Lemma value_induction (P : value -> Prop) : (forall x, P (VNum x)) -> (forall l, Forall P l -> P (VList l)) -> (forall t, P (VMessage t)) -> forall v, P v.
Proof.
  intros A B C. fix IH 1. intros [x|l|t]; [apply A| |apply C]. apply B. induction l as [|v l IHl]; constructor; [apply IH|exact IHl].
Qed.

Definition items_of (rest : list value) (u : value) := fix go (l : list value) (i : nat) : res (list shown) :=
  match l with
  | [] => Ok []
  | x :: t => let! others := mapM (at_index i) rest in let! w := at_index i u in let! y := t_distribution x others w in let! ys := go t (S i) in Ok (y :: ys)
  end.

Lemma t_list l rest u : t_distribution (VList l) rest u = let! items := items_of rest u l 0 in Ok (ShownList items).
Proof. reflexivity. Qed.

Lemma mapM_F2 {A B} (f : A -> res B) l : forall ys, mapM f l = Ok ys <-> Forall2 (fun x y => f x = Ok y) l ys.
Proof.
  induction l as [|a l IH]; intros ys; cbn [mapM].
  - split; intros H; [injection H as <-; constructor|inversion H; reflexivity].
  - split; intros H.
    + apply bind_ok in H. destruct H as (y & E & H). apply bind_ok in H. destruct H as (t & E2 & H). injection H as <-. constructor; [exact E|]. apply IH. exact E2.
    + inversion H as [|? y ? t E F]; subst. rewrite E. cbn [bind]. rewrite (proj2 (IH t) F). reflexivity.
Qed.

Lemma index_ok i v x : at_index i v = Ok x -> exists l, v = VList l /\ nth_error l i = Some x.
Proof. destruct v as [y|l|t]; cbn [at_index]; try discriminate. destruct (nth_error l i) as [y|] eqn:E; [|discriminate]. intros [= <-]. eauto. Qed.

Lemma items_at rest u l : forall i items, items_of rest u l i = Ok items -> length items = length l /\
  forall j x, nth_error l j = Some x -> exists others w y, mapM (at_index (i + j)) rest = Ok others /\ at_index (i + j) u = Ok w /\ t_distribution x others w = Ok y /\ nth_error items j = Some y.
Proof.
  induction l as [|a l IH]; intros i items E; cbn [items_of] in E.
  - injection E as <-. split; [reflexivity|]. intros [|j] x H; discriminate.
  - apply bind_ok in E. destruct E as (others & E1 & E). apply bind_ok in E. destruct E as (w & E2 & E). apply bind_ok in E. destruct E as (y & E3 & E). apply bind_ok in E. destruct E as (ys & E4 & E). injection E as <-.
    destruct (IH _ _ E4) as (L & H). split; [cbn; congruence|]. intros [|j] x N.
    + injection N as <-. rewrite Nat.add_0_r. exists others, w, y. auto.
    + cbn [nth_error] in *. destruct (H j x N) as (o & w' & y' & A). exists o, w', y'. rewrite <- plus_n_Sm. exact A.
Qed.

Lemma number_F2 data xs : mapM number data = Ok xs <-> numbers_at [] data xs.
Proof.
  rewrite mapM_F2. unfold numbers_at. cbn [value_at]. split; intros H; induction H as [|v x l xs E F IH]; constructor; try assumption.
  - destruct v; cbn [number] in E; try discriminate. congruence.
  - injection E as ->. reflexivity.
Qed.

Lemma kept_filter xs : filter (fun x => negb (is_nan x)) xs = kept xs.
Proof. unfold kept. apply filter_ext. intros []; reflexivity. Qed.

Lemma index_path i vs others p xs : Forall2 (fun v y => at_index i v = Ok y) vs others -> (numbers_at p others xs <-> numbers_at (i :: p) vs xs).
Proof.
  intros F. unfold numbers_at. revert xs. induction F as [|v y vs others E F IH]; intros xs.
  - split; intros H; inversion H; constructor.
  - apply index_ok in E. destruct E as (l & -> & N). split; intros H; inversion H as [|? x ? t Q R]; subst; constructor.
    + cbn [value_at]. rewrite N. exact Q.
    + apply IH. exact R.
    + cbn [value_at] in Q. rewrite N in Q. exact Q.
    + apply IH. exact R.
Qed.

(** What is shown at a place where the first value has a number. *)

Definition leaf_shown (xs : list num) (w : value) : shown :=
  match kept xs with [] => TDist NaN NaN (-1)%Z (VNum NaN) | ys => TDist (np_mean ys) (np_var ys) (Z.of_nat (length ys) - 1) w end.

Lemma t_at first : forall rest u s, t_distribution first rest u = Ok s -> forall p x, value_at first p = Some (VNum x) ->
  exists xs w, numbers_at p (first :: rest) xs /\ value_at u p = Some w /\ shown_at s p = Some (leaf_shown xs w).
Proof.
  assert (NUM : forall v rest u s, t_number (v :: rest) u = Ok s -> forall p x, value_at v p = Some (VNum x) -> (forall l, v <> VList l) ->
    exists xs w, numbers_at p (v :: rest) xs /\ value_at u p = Some w /\ shown_at s p = Some (leaf_shown xs w)).
  { intros v rest u s E p x V NL. destruct p as [|i p]; [|destruct v; try discriminate; exfalso; eapply NL; reflexivity]. unfold t_number in E. apply bind_ok in E. destruct E as (xs & E & S). cbv zeta in S. rewrite kept_filter in S.
    exists xs, u. split; [apply number_F2; exact E|]. split; [reflexivity|]. cbn [shown_at]. unfold leaf_shown. destruct (kept xs); injection S as <-; reflexivity. }
  induction first as [y|l F|t] using value_induction; intros rest u s E p x V.
  - eapply NUM; [exact E|exact V|discriminate].
  - destruct p as [|i p]; [discriminate|]. cbn [value_at] in V. destruct (nth_error l i) as [v|] eqn:N; [|discriminate]. rewrite t_list in E. apply bind_ok in E. destruct E as (items & E & S). injection S as <-.
    destruct (items_at _ _ _ _ _ E) as (_ & H). destruct (H i v N) as (others & w & y & A & B & C & D). cbn [plus] in A, B. rewrite Forall_forall in F. destruct (F v (nth_error_In _ _ N) others w y C p x V) as (xs & w' & X1 & X2 & X3).
    apply index_ok in B. destruct B as (lu & -> & Nu). exists xs, w'. split; [|split].
    + apply (index_path i (VList l :: rest) (v :: others)); [|exact X1]. constructor; [cbn [at_index]; rewrite N; reflexivity|]. apply mapM_F2. exact A.
    + cbn [value_at]. rewrite Nu. exact X2.
    + cbn [shown_at]. rewrite D. exact X3.
  - eapply NUM; [exact E|exact V|discriminate].
Qed.

Lemma fin_fold qs a : fold_left num_plus (map Fin qs) (Fin a) = Fin (a + qsum qs)%Qc.
Proof. apply fin_sum. Qed.

Lemma np_mean_fin qs : qs <> [] -> np_mean (map Fin qs) = Fin (mean_of qs).
Proof.
  intros N. unfold np_mean. rewrite fin_fold, map_length, fin_div; [|apply qz_neq; destruct qs; [congruence|cbn; lia]]. f_equal. unfold mean_of. f_equal. ring.
Qed.

Lemma np_var_fin qs : 2 <= length qs -> np_var (map Fin qs) = Fin (squared_deviations qs / qz (Z.of_nat (length qs) - 1))%Qc.
Proof.
  intros L. unfold np_var. cbv zeta. rewrite np_mean_fin by (destruct qs; [cbn in L; lia|discriminate]). rewrite map_map.
  rewrite (map_ext (fun x => num_sqr (num_sub (Fin x) (Fin (mean_of qs)))) (fun x => Fin ((x - mean_of qs) * (x - mean_of qs))%Qc)) by (intros; reflexivity).
  rewrite <- (map_map (fun x => ((x - mean_of qs) * (x - mean_of qs))%Qc) Fin), fin_fold, map_length, fin_div by (apply qz_neq; lia). f_equal. unfold squared_deviations. f_equal. ring.
Qed.

Lemma mean_one q : mean_of [q] = q.
Proof. unfold mean_of. change (qsum [q]) with (q + 0)%Qc. change (qz (Z.of_nat (length [q]))) with 1%Qc. field. discriminate. Qed.

Lemma leaf_described xs w : exists m v d w', leaf_shown xs w = TDist m v d w' /\ described xs m v d /\ (kept xs <> [] -> w' = w).
Proof.
  unfold leaf_shown, described. destruct (kept xs) as [|y ys] eqn:K.
  - exists NaN, NaN, (-1)%Z, (VNum NaN). split; [reflexivity|]. split; [|congruence]. intros [|q qs] E; [|discriminate]. split; [reflexivity|]. split; [auto|]. split; [discriminate|]. cbn [length]. lia.
  - do 4 eexists. split; [reflexivity|]. split; [|reflexivity]. intros qs E. rewrite E, map_length. split; [reflexivity|]. split; [intros ->; discriminate|]. split.
    + intros q ->. split; [rewrite np_mean_fin by discriminate; f_equal; apply mean_one|]. unfold np_var. cbv zeta. rewrite np_mean_fin by discriminate. cbn [map length fold_left].
      change (num_sqr (num_sub (Fin q) (Fin (mean_of [q])))) with (Fin ((q - mean_of [q]) * (q - mean_of [q]))%Qc). cbn [num_plus]. rewrite mean_one.
      replace (0 + (q - q) * (q - q))%Qc with 0%Qc by ring. reflexivity.
    + intros L. split; [apply np_mean_fin; destruct qs; [discriminate|discriminate]|apply np_var_fin; exact L].
Qed.

Lemma kept_perm xs ys : Permutation xs ys -> Permutation (kept xs) (kept ys).
Proof.
  unfold kept. set (f := fun x : num => _). induction 1 as [|x l l' P IH|x y l|l l' l'' P1 IH1 P2 IH2]; cbn [filter].
  - constructor.
  - destruct (f x); [constructor|]; exact IH.
  - destruct (f x), (f y); try constructor; apply Permutation_refl.
  - eapply Permutation_trans; eassumption.
Qed.

Lemma described_perm xs ys m v d : Permutation xs ys -> described xs m v d -> described ys m v d.
Proof.
  intros P D qs E. pose proof (kept_perm _ _ P) as PK. rewrite E in PK. apply Permutation_map_inv in PK. destruct PK as (qs' & E' & PQ). destruct (D qs' E') as (A & B & C & F).
  assert (L : length qs = length qs') by (apply Permutation_length; exact PQ). rewrite L. split; [exact A|]. split; [intros ->; apply B; apply Permutation_nil; exact PQ|]. split.
  - intros q ->. apply C. apply Permutation_length_1_inv in PQ. exact PQ.
  - intros G. rewrite (mean_perm _ _ PQ), (deviations_perm _ _ PQ). apply F. exact G.
Qed.

Definition values_of (name : string) (reps : list metrics) : list value :=
  flat_map (fun m => match dget String.eqb m name with Some v => [v] | None => [] end) reps.

Definition look {A} (d : list (string * list A)) (k : string) : list A := match dget String.eqb d k with Some l => l | None => [] end.

Definition picks {A} (k : string) (l : list (string * A)) : list A := map snd (filter (fun kv => String.eqb k (fst kv)) l).

Definition put_one (d : list (string * list value)) (kv : string * value) := dset String.eqb d (fst kv) (match dget String.eqb d (fst kv) with Some vs => vs | None => [] end ++ [snd kv]).

Lemma group_look l : forall d k, look (fold_left put_one l d) k = look d k ++ picks k l.
Proof.
  induction l as [|[a v] l IH]; intros d k; cbn [fold_left]; [unfold picks; cbn; rewrite app_nil_r; reflexivity|]. rewrite IH. unfold put_one at 1, picks. cbn [fst snd filter]. unfold look at 1. destruct (String.eqb k a) eqn:Q.
  - apply String.eqb_eq in Q. subst a. rewrite (dget_dset_eq String.eqb String.eqb_eq). cbn [map snd]. rewrite <- app_assoc. reflexivity.
  - rewrite (dget_dset_neq String.eqb String.eqb_eq); [reflexivity|]. intros ->. rewrite String.eqb_refl in Q. discriminate.
Qed.

Lemma group_good l : forall d, NoDup (map fst d) -> (forall k vs, In (k, vs) d -> vs <> []) -> NoDup (map fst (fold_left put_one l d)) /\ (forall k vs, In (k, vs) (fold_left put_one l d) -> vs <> []).
Proof.
  induction l as [|[a v] l IH]; intros d N G; cbn [fold_left]; [auto|]. apply IH.
  - apply dset_NoDup; [exact String.eqb_eq|exact N].
  - intros k vs I. assert (N' : NoDup (map fst (put_one d (a, v)))) by (apply dset_NoDup; [exact String.eqb_eq|exact N]). apply (dget_In_NoDup String.eqb String.eqb_eq _ _ _ N') in I. unfold put_one in I. cbn [fst snd] in I.
    destruct (string_dec a k) as [->|NE].
    + rewrite (dget_dset_eq String.eqb String.eqb_eq) in I. injection I as <-. intros Q. apply app_eq_nil in Q. destruct Q; discriminate.
    + rewrite (dget_dset_neq String.eqb String.eqb_eq) in I by congruence. apply (dget_In String.eqb String.eqb_eq) in I. exact (G k vs I).
Qed.

Lemma picks_one k (m : metrics) : NoDup (map fst m) -> picks k m = match dget String.eqb m k with Some v => [v] | None => [] end.
Proof.
  unfold picks. induction m as [|[a v] m IH]; intros N; [reflexivity|]. cbn [map fst] in N. inversion N as [|? ? N1 N2]; subst. cbn [filter fst dget]. destruct (String.eqb k a) eqn:Q; [|exact (IH N2)].
  apply String.eqb_eq in Q. subst a. cbn [map snd]. f_equal. specialize (IH N2). replace (dget String.eqb m k) with (@None value) in IH; [exact IH|]. symmetry. destruct (dget String.eqb m k) eqn:E; [|reflexivity]. apply (dget_In String.eqb String.eqb_eq) in E. apply (in_map fst) in E. contradiction.
Qed.

Lemma picks_values k reps : Forall (fun m => NoDup (map fst m)) reps -> picks k (concat reps) = values_of k reps.
Proof.
  induction 1 as [|m reps N F IH]; [reflexivity|]. cbn [concat]. unfold picks in *. rewrite filter_app, map_app, IH. unfold values_of. cbn [flat_map]. f_equal. exact (picks_one k m N).
Qed.

Lemma group_names_spec reps : Forall (fun m => NoDup (map fst m)) reps -> NoDup (map fst (group_names reps)) /\ forall k vs, In (k, vs) (group_names reps) <-> vs = values_of k reps /\ vs <> [].
Proof.
  intros F. change (group_names reps) with (fold_left put_one (concat reps) []). destruct (group_good (concat reps) [] (NoDup_nil _) (fun k vs I => match I with end)) as (N & G). split; [exact N|].
  intros k vs. pose proof (group_look (concat reps) [] k) as L. cbn [look dget app] in L. rewrite (picks_values k reps F) in L. rewrite <- (dget_In_NoDup String.eqb String.eqb_eq _ k vs N). unfold look in L. split.
  - intros E. rewrite E in L. split; [exact L|]. apply (dget_In String.eqb String.eqb_eq) in E. exact (G k vs E).
  - intros (-> & NE). destruct (dget String.eqb (fold_left put_one (concat reps) []) k) as [vs'|]; [congruence|]. cbn in L. congruence.
Qed.

Lemma values_nonempty k reps : values_of k reps <> [] <-> exists m, In m reps /\ In k (map fst m).
Proof.
  split.
  - intros N. destruct (values_of k reps) as [|v t] eqn:E; [congruence|]. assert (I : In v (v :: t)) by (left; reflexivity). rewrite <- E in I. unfold values_of in I. apply in_flat_map in I. destruct I as (m & I & J). exists m. split; [exact I|]. destruct (dget String.eqb m k) eqn:D; [|destruct J]. apply (dget_In String.eqb String.eqb_eq) in D. exact (in_map fst _ _ D).
  - intros (m & I & J) E. apply (dmem_In String.eqb String.eqb_eq) in J. unfold dmem in J. destruct (dget String.eqb m k) as [v|] eqn:D; [|discriminate]. assert (X : In v []) by (rewrite <- E; unfold values_of; apply in_flat_map; exists m; split; [exact I|]; rewrite D; left; reflexivity). destruct X.
Qed.

Lemma same_keys_iff {A B} (d : list (string * A)) (e : list (string * B)) : same_keys d e = true <-> forall k, In k (map fst d) <-> In k (map fst e).
Proof.
  unfold same_keys. rewrite andb_true_iff, !forallb_forall. split.
  - intros (H1 & H2) k. split; intros I; apply in_map_iff in I; destruct I as (kv & <- & I); [specialize (H1 kv I); apply (dmem_In String.eqb String.eqb_eq) in H1; exact H1|specialize (H2 kv I); apply (dmem_In String.eqb String.eqb_eq) in H2; exact H2].
  - intros H. split; intros kv I; apply (dmem_In String.eqb String.eqb_eq); apply H; apply in_map; exact I.
Qed.

Lemma F2_In {A B} (P : A -> B -> Prop) l m y : Forall2 P l m -> In y m -> exists x, In x l /\ P x y.
Proof. induction 1 as [|a b l m H F IH]; intros I; [destruct I|]; destruct I as [<-|I]; [exists a; split; [left; reflexivity|exact H]|]. destruct (IH I) as (x & J & Q). exists x. split; [right; exact J|exact Q]. Qed.

(** The replicas of a slice, any number but one. *)

Lemma merge_ok reps u : length reps <> 1 -> Forall (fun m => NoDup (map fst m)) reps -> forall out, merge_bootstrap reps (Some u) = Ok out ->
  (forall k, In k (map fst out) <-> In k (map fst u)) /\ (forall k, In k (map fst u) <-> values_of k reps <> []) /\ NoDup (map fst out) /\
  forall k s, In (k, s) out -> exists v, dget String.eqb u k = Some v /\ (is_message v -> s = AsIs v) /\
    (~ is_message v -> exists first rest, values_of k reps = first :: rest /\ t_distribution first rest v = Ok s).
Proof.
  intros L1 F out E. assert (E' : (if negb (same_keys (group_names reps) u) then Err ValueError else mapM (fun kvs => match dget String.eqb u (fst kvs), snd kvs with
                            | Some (VMessage t), _ => Ok (fst kvs, AsIs (VMessage t))
                            | Some v, first :: rest => let! s := t_distribution first rest v in Ok (fst kvs, s)
                            | Some _, [] => Err IndexError
                            | None, _ => Err KeyError
                            end) (group_names reps)) = Ok out) by (destruct reps as [|a [|b t]]; [exact E|cbn in L1; congruence|exact E]). clear E. destruct (same_keys (group_names reps) u) eqn:SK; [|discriminate]. cbn [negb] in E'. apply mapM_F2 in E'. destruct (group_names_spec reps F) as (ND & GS).
  assert (FST : map fst out = map fst (group_names reps)).
  { clear -E'. induction E' as [|[k vs] [k' s] l out H E IH]; [reflexivity|]. cbn [map fst snd] in *. f_equal; [|exact IH]. destruct (dget String.eqb u k) as [[x|l0|t]|]; [| | |discriminate].
    - destruct vs; [discriminate|]. apply bind_ok in H. destruct H as (z & _ & H). injection H as <- _. reflexivity.
    - destruct vs; [discriminate|]. apply bind_ok in H. destruct H as (z & _ & H). injection H as <- _. reflexivity.
    - injection H as <- _. reflexivity. }
  pose proof (proj1 (same_keys_iff _ _) SK) as KEYS. rewrite FST. split; [exact KEYS|]. split; [|split; [exact ND|]].
  - intros k. rewrite <- KEYS. split.
    + intros I. apply in_map_iff in I. destruct I as ([k' vs] & <- & I). cbn [fst]. apply GS in I. destruct I as (<- & N). exact N.
    + intros N. apply (in_map fst (group_names reps) (k, values_of k reps)). apply GS. auto.
  - intros k s I. destruct (F2_In _ _ _ _ E' I) as ([k' vs] & J & H). cbn [fst snd] in H. apply GS in J. destruct J as (-> & NE).
    destruct (dget String.eqb u k') as [v|] eqn:D; [|discriminate]. destruct (values_of k' reps) as [|first rest] eqn:VS; [congruence|].
    destruct v as [x|l|t].
    + apply bind_ok in H. destruct H as (z & T & H). injection H as -> ->. exists (VNum x). split; [exact D|]. split; [intros (t & Q); discriminate|]. intros _. exists first, rest. auto.
    + apply bind_ok in H. destruct H as (z & T & H). injection H as -> ->. exists (VList l). split; [exact D|]. split; [intros (t & Q); discriminate|]. intros _. exists first, rest. auto.
    + injection H as -> <-. exists (VMessage t). split; [exact D|]. split; [reflexivity|]. intros N. exfalso. apply N. exists t. reflexivity.
Qed.

(** The metrics of the replicas of a slice. *)

Definition replicas_of {K} (keqb : K -> K -> bool) (compute : option nat -> list (K * metrics)) (n : Z) (k : K) : list metrics :=
  map snd (filter (fun kv => keqb k (fst kv)) (flat_map (fun i => compute (Some i)) (seq 0 (Z.to_nat n)))).

Definition num_at (p : list nat) (v : value) : num := match value_at v p with Some (VNum x) => x | _ => NaN end.

Lemma numbers_map p vs xs : numbers_at p vs xs -> xs = map (num_at p) vs.
Proof. induction 1 as [|v x vs xs E F IH]; [reflexivity|]. cbn [map]. unfold num_at at 1. rewrite E. f_equal. exact IH. Qed.

Lemma computed {K} keqb compute shuffle n (out : list (K * list (string * shown))) : (1 < n)%Z -> compute_with_intervals keqb compute shuffle (Some n) = Ok out ->
  Forall2 (fun k km => fst km = k /\ merge_bootstrap (map snd (filter (fun kv => keqb k (fst kv)) (shuffle (flat_map (fun i => compute (Some i)) (seq 0 (Z.to_nat n)))))) (dget keqb (compute None) k) = Ok (snd km))
    (dedup keqb (map fst (shuffle (flat_map (fun i => compute (Some i)) (seq 0 (Z.to_nat n)))))) out.
Proof.
  intros N E. unfold compute_with_intervals in E. cbv zeta in E. rewrite (proj2 (Z.eqb_neq n 0)) in E by lia. rewrite (proj2 (Z.ltb_ge n 1)) in E by lia. rewrite (proj2 (Z.ltb_lt 1 n) N) in E. apply mapM_F2 in E.
  induction E as [|k [k' ms] l out H E IH]; constructor; [|exact IH]. apply bind_ok in H. destruct H as (m & H & Q). injection Q as <- <-. split; [reflexivity|exact H].
Qed.

Lemma merge_none reps : merge_bootstrap reps None = merge_bootstrap reps (Some []).
Proof. destruct reps as [|a [|b t]]; reflexivity. Qed.

Lemma values_perm name a b : Permutation a b -> Permutation (values_of name a) (values_of name b).
Proof. intros P. apply Permutation_flat_map. exact P. Qed.

Lemma computed_slice {K} (keqb : K -> K -> bool) compute shuffle n out k ms : (forall l, Permutation (shuffle l) l) ->
  (1 < n)%Z -> compute_with_intervals keqb compute shuffle (Some n) = Ok out -> In (k, ms) out ->
  exists reps, Permutation reps (replicas_of keqb compute n k) /\ merge_bootstrap reps (Some match dget keqb (compute None) k with Some u => u | None => [] end) = Ok ms.
Proof.
  intros P N E I. destruct (F2_In _ _ _ _ (computed _ _ _ _ _ N E) I) as (k' & _ & Q & M). cbn [fst snd] in *. subst k'. eexists. split; [|destruct (dget keqb (compute None) k); [exact M|rewrite merge_none in M; exact M]].
  unfold replicas_of. apply Permutation_map, filter_perm, P.
Qed.

Definition proper_metrics {K} (compute : option nat -> list (K * metrics)) : Prop := forall i k m, In (k, m) (compute (Some i)) -> NoDup (map fst m).

Lemma replicas_proper {K} (keqb : K -> K -> bool) compute n k : proper_metrics compute -> Forall (fun m => NoDup (map fst m)) (replicas_of keqb compute n k).
Proof.
  intros PM. apply Forall_forall. intros m I. unfold replicas_of in I. apply in_map_iff in I. destruct I as ([k' m'] & <- & I). apply filter_In in I. destruct I as (I & _). apply in_flat_map in I. destruct I as (i & _ & I). exact (PM i k' m' I).
Qed.

Lemma slice_values {K} (keqb : K -> K -> bool) compute shuffle n out k ms : (forall l, Permutation (shuffle l) l) ->
  (1 < n)%Z -> compute_with_intervals keqb compute shuffle (Some n) = Ok out -> In (k, ms) out -> proper_metrics compute -> 2 <= length (replicas_of keqb compute n k) ->
  (forall name, In name (map fst ms) <-> exists m, In m (replicas_of keqb compute n k) /\ In name (map fst m)) /\
  forall name s, In (name, s) ms -> exists u v, dget keqb (compute None) k = Some u /\ dget String.eqb u name = Some v /\ (is_message v -> s = AsIs v) /\
    (~ is_message v -> forall p xs, numbers_at p (values_of name (replicas_of keqb compute n k)) xs ->
       exists m var d w w', value_at v p = Some w /\ shown_at s p = Some (TDist m var d w') /\ described xs m var d /\ (kept xs <> [] -> w' = w)).
Proof.
  intros P N E I PM L. destruct (computed_slice keqb compute shuffle n out k ms P N E I) as (reps & PR & M). pose proof (replicas_proper keqb compute n k PM) as RP.
  assert (RP' : Forall (fun m => NoDup (map fst m)) reps) by (rewrite Forall_forall in *; intros m J; apply RP; eapply Permutation_in; eassumption).
  assert (L' : length reps <> 1) by (rewrite (Permutation_length PR); lia). destruct (merge_ok reps _ L' RP' ms M) as (K1 & K2 & _ & V). split.
  - intros name. rewrite K1, K2, values_nonempty. split; intros (m & A & B); exists m; (split; [eapply Permutation_in; [|exact A]|exact B]); [exact PR|apply Permutation_sym, PR].
  - intros name s J. destruct (V name s J) as (v & D & M1 & M2). destruct (dget keqb (compute None) k) as [u|]; [|discriminate]. exists u, v. split; [reflexivity|]. split; [exact D|]. split; [exact M1|]. intros NM p xs NX.
    destruct (M2 NM) as (first & rest & VS & T). pose proof (values_perm name _ _ PR) as VP. rewrite VS in VP.
    assert (FN : exists x, value_at first p = Some (VNum x)).
    { assert (FI : In first (values_of name (replicas_of keqb compute n k))) by (eapply Permutation_in; [exact VP|left; reflexivity]). clear -NX FI. induction NX as [|a x l xs H F IH]; [destruct FI|]. destruct FI as [<-|FI]; [eauto|exact (IH FI)]. }
    destruct FN as (x & FN). destruct (t_at first rest v s T p x FN) as (xs' & w & N' & VA & SA). destruct (leaf_described xs' w) as (m & var & d & w' & LE & DE & KW). rewrite LE in SA.
    assert (PX : Permutation xs' xs) by (rewrite (numbers_map _ _ _ N'), (numbers_map _ _ _ NX); apply Permutation_map, VP).
    exists m, var, d, w, w'. split; [exact VA|]. split; [exact SA|]. split; [exact (described_perm _ _ _ _ _ PX DE)|]. intros KN. apply KW. intros Q. apply KN. pose proof (kept_perm _ _ PX) as PK. rewrite Q in PK. apply Permutation_nil in PK. exact PK.
Qed.

Lemma C305_values_pf : forall (K : Type) (keqb : K -> K -> bool) compute shuffle n out k ms, (forall l, Permutation (shuffle l) l) ->
  (1 < n)%Z -> compute_with_intervals keqb compute shuffle (Some n) = Ok out -> In (k, ms) out -> proper_metrics compute -> 2 <= length (replicas_of keqb compute n k) ->
  (forall name, In name (map fst ms) <-> exists m, In m (replicas_of keqb compute n k) /\ In name (map fst m)) /\
  forall name s, In (name, s) ms -> exists u v, dget keqb (compute None) k = Some u /\ dget String.eqb u name = Some v /\ (is_message v -> s = AsIs v) /\
    (~ is_message v -> forall p xs, numbers_at p (values_of name (replicas_of keqb compute n k)) xs ->
       exists m var d w, shown_at s p = Some (TDist m var d w) /\ described xs m var d).
Proof.
  intros K keqb compute shuffle n out k ms P N E I PM L. destruct (slice_values keqb compute shuffle n out k ms P N E I PM L) as (A & B). split; [exact A|].
  intros name s J. destruct (B name s J) as (u & v & C & D & F & G). exists u, v. split; [exact C|]. split; [exact D|]. split; [exact F|]. intros NM p xs NX. destruct (G NM p xs NX) as (m & var & d & w & w' & _ & H1 & H2 & _). exists m, var, d, w'. auto.
Qed.

(** Same structure: numbers, lists of a length and messages at the same places. *)

Inductive kind := KNum | KList (n : nat) | KMessage.

Definition kind_of (v : value) : kind := match v with VNum _ => KNum | VList l => KList (length l) | VMessage _ => KMessage end.

Definition alike (a b : value) : Prop := forall p, option_map kind_of (value_at a p) = option_map kind_of (value_at b p).

Definition messageless (v : value) : Prop := forall p t, value_at v p <> Some (VMessage t).

Lemma alike_item l b i x : alike (VList l) b -> nth_error l i = Some x -> exists y, at_index i b = Ok y /\ alike x y.
Proof.
  intros A N. pose proof (A []) as A0. cbn [value_at option_map kind_of] in A0. destruct b as [z|lb|t]; try discriminate. pose proof (A [i]) as A1. cbn [value_at] in A1. rewrite N in A1. cbn [at_index]. destruct (nth_error lb i) as [y|] eqn:NB; [|discriminate]. exists y. split; [reflexivity|].
  intros p. specialize (A (i :: p)). cbn [value_at] in A. rewrite N, NB in A. exact A.
Qed.

Lemma t_accepted first : forall rest u, messageless first -> Forall (alike first) rest -> alike first u -> is_ok (t_distribution first rest u) = true.
Proof.
  induction first as [x|l F|t] using value_induction; intros rest u M R U.
  - cbn [t_distribution]. unfold t_number. assert (Q : exists xs, mapM number (VNum x :: rest) = Ok xs).
    { assert (S : exists ys, mapM number rest = Ok ys). { clear -R. induction R as [|b rest A R IH]; [exists []; reflexivity|]. destruct IH as (ys & IH). specialize (A []). destruct b; try discriminate. cbn [mapM number bind]. rewrite IH. eexists. reflexivity. }
      destruct S as (ys & S). cbn [mapM number bind]. rewrite S. eexists. reflexivity. }
    destruct Q as (xs & Q). rewrite Q. cbn [bind]. destruct (filter _ xs); reflexivity.
  - rewrite t_list. assert (Q : forall t i, (forall j x, nth_error t j = Some x -> nth_error l (i + j) = Some x) -> exists items, items_of rest u t i = Ok items).
    { induction t as [|a t IH]; intros i H; [eexists; reflexivity|]. cbn [items_of]. assert (NA : nth_error l i = Some a) by (rewrite <- (Nat.add_0_r i); apply H; reflexivity).
      assert (O : exists others, mapM (at_index i) rest = Ok others /\ Forall (alike a) others).
      { clear -R NA. induction R as [|b rest A R IH]; [exists []; split; [reflexivity|constructor]|]. destruct IH as (others & O1 & O2). destruct (alike_item l b i a A NA) as (y & Y1 & Y2). exists (y :: others). cbn [mapM]. rewrite Y1. cbn [bind]. rewrite O1. split; [reflexivity|constructor; assumption]. }
      destruct O as (others & O1 & O2). destruct (alike_item l u i a U NA) as (w & W1 & W2). rewrite O1, W1. cbn [bind]. rewrite Forall_forall in F. assert (MA : messageless a) by (intros p t0; specialize (M (i :: p) t0); cbn [value_at] in M; rewrite NA in M; exact M).
      specialize (F a (nth_error_In _ _ NA) others w MA O2 W2). destruct (t_distribution a others w) as [y|e]; [|discriminate]. cbn [bind]. destruct (IH (S i)) as (ys & Y); [intros j x J; rewrite plus_Sn_m, plus_n_Sm; apply H; exact J|]. rewrite Y. eexists. reflexivity. }
    destruct (Q l 0 (fun j x J => J)) as (items & Q'). rewrite Q'. reflexivity.
  - exfalso. exact (M [] t eq_refl).
Qed.

Lemma C305_accepted_pf : forall (K : Type) (keqb : K -> K -> bool) compute shuffle n, (forall a b, keqb a b = true <-> a = b) -> (forall l, Permutation (shuffle l) l) -> (1 < n)%Z -> proper_metrics compute ->
  (forall k, 2 <= length (replicas_of keqb compute n k) -> exists u, dget keqb (compute None) k = Some u /\
     (forall name, In name (map fst u) <-> exists m, In m (replicas_of keqb compute n k) /\ In name (map fst m)) /\
     forall name v, dget String.eqb u name = Some v -> is_message v \/ messageless v /\ Forall (alike v) (values_of name (replicas_of keqb compute n k))) ->
  is_ok (compute_with_intervals keqb compute shuffle (Some n)) = true.
Proof.
  intros K keqb compute shuffle n KE P N PM H. unfold compute_with_intervals. cbv zeta. rewrite (proj2 (Z.eqb_neq n 0)) by lia. rewrite (proj2 (Z.ltb_ge n 1)) by lia. rewrite (proj2 (Z.ltb_lt 1 n) N).
  match goal with |- is_ok (mapM ?f ?l) = true => assert (Q : Forall (fun k => exists y, f k = Ok y) l) end.
  { apply Forall_forall. intros k J. rewrite (dedup_In keqb KE) in J. set (all := flat_map (fun i => compute (Some i)) (seq 0 (Z.to_nat n))) in *. set (reps := map snd (filter (fun kv => keqb k (fst kv)) (shuffle all))).
    assert (PR : Permutation reps (replicas_of keqb compute n k)) by (apply Permutation_map, filter_perm, P). assert (NE : reps <> []).
    { intros Z. apply in_map_iff in J. destruct J as ([k' m] & Q & J). cbn [fst] in Q. subst k'. assert (X : In m reps) by (apply (in_map snd _ (k, m)), filter_In; split; [exact J|apply KE; reflexivity]). rewrite Z in X. destruct X. }
    assert (RP : Forall (fun m => NoDup (map fst m)) reps) by (pose proof (replicas_proper keqb compute n k PM) as RP; rewrite Forall_forall in *; intros m X; apply RP; eapply Permutation_in; eassumption).
    assert (MO : is_ok (merge_bootstrap reps (dget keqb (compute None) k)) = true).
    { destruct (Nat.eq_dec (length reps) 1) as [L1|L1]; [destruct reps as [|a [|b t]]; try discriminate; reflexivity|].
      assert (L2 : 2 <= length (replicas_of keqb compute n k)) by (rewrite <- (Permutation_length PR); destruct reps as [|a [|b t]]; [congruence|cbn in L1; congruence|cbn; lia]).
      destruct (H k L2) as (u & U & NM & SH). rewrite U. destruct (group_names_spec reps RP) as (ND & GS).
      assert (VN : forall name, values_of name reps <> [] <-> In name (map fst u)). { intros name. rewrite values_nonempty, NM. split; intros (m & A & B); exists m; (split; [eapply Permutation_in; [|exact A]|exact B]); [exact PR|apply Permutation_sym, PR]. }
      assert (SK : same_keys (group_names reps) u = true).
      { apply same_keys_iff. intros name. rewrite <- VN. split.
        - intros X. apply in_map_iff in X. destruct X as ([a vs] & <- & X). apply GS in X. destruct X as (XE & X). cbn [fst]. rewrite <- XE. exact X.
        - intros X. apply (in_map fst (group_names reps) (name, values_of name reps)). apply GS. auto. }
      unfold merge_bootstrap. rewrite SK. cbn [negb]. destruct reps as [|a [|b t]] eqn:RR; [congruence|cbn in L1; congruence|]. rewrite <- RR in *. clear RR.
      match goal with |- is_ok (mapM ?f ?l) = true => assert (Q : Forall (fun k => exists y, f k = Ok y) l) end.
      { apply Forall_forall. intros [name vs] X. cbn [fst snd]. apply GS in X. destruct X as (-> & X). pose proof (proj1 (VN name) X) as IN. apply (dmem_In String.eqb String.eqb_eq) in IN. unfold dmem in IN. destruct (dget String.eqb u name) as [v|] eqn:D; [|discriminate].
        destruct (values_of name reps) as [|first rest] eqn:VS; [congruence|]. destruct (SH name v D) as [(t' & ->)|(ML & AL)]; [eexists; reflexivity|].
        assert (AL' : Forall (alike v) (first :: rest)). { rewrite <- VS, Forall_forall in *. intros z Z. apply AL. eapply Permutation_in; [apply values_perm, PR|exact Z]. }
        inversion AL' as [|? ? A1 A2]; subst. assert (T : is_ok (t_distribution first rest v) = true).
        { apply t_accepted.
          - intros p t' Q. specialize (A1 p). rewrite Q in A1. destruct (value_at v p) as [z|] eqn:VP; [|discriminate]. destruct z; try discriminate. exact (ML p _ VP).
          - rewrite Forall_forall in *. intros z Z p. rewrite <- (A1 p). apply (A2 z Z).
          - intros p. symmetry. apply A1. }
        destruct v; [| |exfalso; exact (ML [] _ eq_refl)]; destruct (t_distribution first rest _); try discriminate; eexists; reflexivity. }
      clear -Q. induction Q as [|z l (y & E) F IH]; [reflexivity|]. cbn [mapM]. rewrite E. cbn [bind]. destruct (mapM _ l); [reflexivity|discriminate]. }
    fold reps. destruct (merge_bootstrap reps _); [eexists; reflexivity|discriminate]. }
  clear -Q. induction Q as [|z l (y & E) F IH]; [reflexivity|]. cbn [mapM]. rewrite E. cbn [bind]. destruct (mapM _ l); [reflexivity|discriminate].
Qed.

Definition two_replicas (u a b : metrics) (i : option nat) : list (string * metrics) :=
  match i with None => [("all", u)] | Some 0 => [("all", a)] | Some _ => [("all", b)] end.

Lemma C306_unsampled_value_kept_partial_pf : forall (K : Type) (keqb : K -> K -> bool) compute shuffle n out k ms name s u v p xs, (forall l, Permutation (shuffle l) l) ->
  (1 < n)%Z -> compute_with_intervals keqb compute shuffle (Some n) = Ok out -> In (k, ms) out -> proper_metrics compute -> 2 <= length (replicas_of keqb compute n k) ->
  In (name, s) ms -> dget keqb (compute None) k = Some u -> dget String.eqb u name = Some v -> ~ is_message v -> numbers_at p (values_of name (replicas_of keqb compute n k)) xs -> kept xs <> [] ->
  exists m var d w, value_at v p = Some w /\ shown_at s p = Some (TDist m var d w).
Proof.
  intros K keqb compute shuffle n out k ms name s u v p xs P N E I PM L J U V NM NX KX. destruct (slice_values keqb compute shuffle n out k ms P N E I PM L) as (_ & B). destruct (B name s J) as (u' & v' & C & D & _ & G). rewrite U in C. injection C as <-. rewrite V in D. injection D as <-.
  destruct (G NM p xs NX) as (m & var & d & w & w' & H1 & H2 & _ & H4). rewrite (H4 KX) in H2. exists m, var, d, w. auto.
Qed.

Lemma C306_unsampled_value_kept_refuted_pf : exists (compute : option nat -> list (string * metrics)) out, proper_metrics compute /\
  compute None = [("all", [("auc", VNum (Fin (qz 3)))])] /\ (forall i, compute (Some i) = [("all", [("auc", VNum NaN)])]) /\
  compute_with_intervals String.eqb compute (fun l => l) (Some 20%Z) = Ok [("all", out)] /\ out = [("auc", TDist NaN NaN (-1)%Z (VNum NaN))].
Proof.
  exists (two_replicas [("auc", VNum (Fin (qz 3)))] [("auc", VNum NaN)] [("auc", VNum NaN)]). eexists. split; [|split; [reflexivity|split; [intros [|i]; reflexivity|split; [vm_compute; reflexivity|reflexivity]]]].
  intros i k m I. assert (Q : m = [("auc", VNum NaN)]) by (destruct i; cbn [two_replicas In] in I; destruct I as [I|[]]; injection I as <- <-; reflexivity). subst m. repeat constructor. intros [].
Qed.

Lemma C307_slices_pf : forall (K : Type) (keqb : K -> K -> bool) compute shuffle n out, (forall a b, keqb a b = true <-> a = b) -> (forall l, Permutation (shuffle l) l) ->
  (1 < n)%Z -> compute_with_intervals keqb compute shuffle (Some n) = Ok out ->
  NoDup (map fst out) /\ forall k, In k (map fst out) <-> exists i, (Z.of_nat i < n)%Z /\ In k (map fst (compute (Some i))).
Proof.
  intros K keqb compute shuffle n out KE P N E. pose proof (computed keqb compute shuffle n out N E) as F. set (all := flat_map (fun i => compute (Some i)) (seq 0 (Z.to_nat n))) in *.
  assert (FST : map fst out = dedup keqb (map fst (shuffle all))). { clear -F. induction F as [|k km l out (Q & _) F IH]; [reflexivity|]. cbn [map]. rewrite Q. f_equal. exact IH. }
  rewrite FST. split; [apply dedup_NoDup; exact KE|]. intros k. rewrite (dedup_In keqb KE). split.
  - intros I. apply in_map_iff in I. destruct I as ([k' m] & <- & I). apply (Permutation_in _ (P all)) in I. apply in_flat_map in I. destruct I as (i & S & I). apply in_seq in S. exists i. split; [lia|]. exact (in_map fst _ _ I).
  - intros (i & S & I). apply in_map_iff in I. destruct I as ([k' m] & <- & I). apply (in_map fst (shuffle all) (k', m)). apply (Permutation_in _ (Permutation_sym (P all))). apply in_flat_map. exists i. split; [apply in_seq; lia|exact I].
Qed.

Lemma C307_samples_pf : forall (K : Type) (keqb : K -> K -> bool) compute shuffle n,
  (n = None \/ n = Some 0%Z \/ n = Some 1%Z -> compute_with_intervals keqb compute shuffle n = Ok (map (fun km => (fst km, map (fun kv => (fst kv, AsIs (snd kv))) (snd km))) (compute None))) /\
  (forall z, n = Some z -> (z < 0)%Z -> compute_with_intervals keqb compute shuffle n = Err ValueError).
Proof.
  intros K keqb compute shuffle n. split.
  - intros [->|[->| ->]]; reflexivity.
  - intros z -> L. unfold compute_with_intervals. cbv zeta. rewrite (proj2 (Z.eqb_neq z 0)) by lia. rewrite (proj2 (Z.ltb_lt z 1)) by lia. reflexivity.
Qed.

Lemma C307_other_names_refused_pf : forall (K : Type) (keqb : K -> K -> bool) compute shuffle n k name, (forall a b, keqb a b = true <-> a = b) -> (forall l, Permutation (shuffle l) l) ->
  (1 < n)%Z -> proper_metrics compute -> 2 <= length (replicas_of keqb compute n k) ->
  ~ ((exists m, In m (replicas_of keqb compute n k) /\ In name (map fst m)) <-> (exists u, dget keqb (compute None) k = Some u /\ In name (map fst u))) ->
  is_ok (compute_with_intervals keqb compute shuffle (Some n)) = false.
Proof.
  intros K keqb compute shuffle n k name KE P N PM L NO. destruct (compute_with_intervals keqb compute shuffle (Some n)) as [out|e] eqn:E; [|reflexivity]. exfalso. apply NO.
  assert (IO : In k (map fst out)).
  { apply (proj2 (C307_slices_pf K keqb compute shuffle n out KE P N E)). unfold replicas_of in L. destruct (filter _ _) as [|[k' m] t] eqn:FI; [cbn in L; lia|]. assert (J : In (k', m) ((k', m) :: t)) by (left; reflexivity). rewrite <- FI in J. apply filter_In in J. destruct J as (J & Q). apply KE in Q. cbn [fst] in Q. subst k'.
    apply in_flat_map in J. destruct J as (i & S & J). apply in_seq in S. exists i. split; [lia|]. exact (in_map fst _ _ J). }
  apply in_map_iff in IO. destruct IO as ([k' ms] & Q & IO). cbn [fst] in Q. subst k'. destruct (computed_slice keqb compute shuffle n out k ms P N E IO) as (reps & PR & M). pose proof (replicas_proper keqb compute n k PM) as RP.
  assert (RP' : Forall (fun m => NoDup (map fst m)) reps) by (rewrite Forall_forall in *; intros m J; apply RP; eapply Permutation_in; eassumption).
  assert (L' : length reps <> 1) by (rewrite (Permutation_length PR); lia). destruct (merge_ok reps _ L' RP' ms M) as (_ & K2 & _). specialize (K2 name). rewrite values_nonempty in K2.
  assert (PX : (exists m, In m (replicas_of keqb compute n k) /\ In name (map fst m)) <-> (exists m, In m reps /\ In name (map fst m))) by (split; intros (m & A & B); exists m; (split; [eapply Permutation_in; [|exact A]|exact B]); [apply Permutation_sym, PR|exact PR]).
  rewrite PX, <- K2. destruct (dget keqb (compute None) k) as [u|]; split; intros H.
  - exists u. auto.
  - destruct H as (u' & [= <-] & H). exact H.
  - destruct H.
  - destruct H as (u' & Q & _). discriminate.
Qed.
