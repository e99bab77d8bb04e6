(* Proofs of the theorems restated in Batches_Properties.v. *)
From Coq Require Import String Ascii Permutation.
From Verif Require Import Base BaseFacts BeamFacts Slicer_Model Util_Model Inputs_Model Batches_Model.
Local Open Scope string_scope.
Local Open Scope list_scope.

(* C44, C127 - C135: batches of extracts. *)

Section VarLenRows.
  Context {V : Type}.

  Lemma nonzero_from k mask :
    map fst (filter snd (combine (seq k (length mask)) mask)) = map (plus k) (nonzero mask).
  Proof.
    unfold nonzero. revert k. induction mask as [|b mask IH]; intros k; [reflexivity|].
    cbn [length seq combine filter snd]. destruct b; cbn [map fst].
    - rewrite (IH (S k)), (IH 1), !map_map. f_equal; [lia|]. apply map_ext. intros; lia.
    - rewrite (IH (S k)), (IH 1), !map_map. apply map_ext. intros; lia.
  Qed.
  Lemma nonzero_cons b mask : nonzero (b :: mask) = (if b then [0] else []) ++ map S (nonzero mask).
  Proof. unfold nonzero at 1. cbn [length seq combine filter snd]. destruct b; cbn [map fst app]; rewrite nonzero_from; reflexivity. Qed.
  Lemma nonzero_false b : nonzero (repeat false b) = [].
  Proof. induction b; cbn [repeat]; [reflexivity|]. rewrite nonzero_cons, IHb. reflexivity. Qed.
  Lemma nonzero_true c b : nonzero (repeat true c ++ repeat false b) = seq 0 c.
  Proof.
    induction c; cbn [repeat app]; [apply nonzero_false|]. rewrite nonzero_cons, IHc. cbn [app seq].
    rewrite <- seq_shift. reflexivity.
  Qed.
  Lemma nonzero_block a c b : nonzero (repeat false a ++ repeat true c ++ repeat false b) = seq a c.
  Proof.
    induction a; cbn [repeat app]; [apply nonzero_true|]. rewrite nonzero_cons, IHa. cbn [app].
    rewrite seq_shift. reflexivity.
  Qed.

  (** Rows never go down. *)
  Fixpoint ascending (l : list nat) : Prop :=
    match l with a :: ((b :: _) as t) => a <= b /\ ascending t | _ => True end.
  Lemma ascending_ge a l : ascending (a :: l) -> Forall (fun b => a <= b) l.
  Proof.
    revert a. induction l as [|b l IH]; intros a; [constructor|]. cbn [ascending]. intros [H1 H2].
    constructor; [exact H1|]. eapply Forall_impl; [|apply IH; exact H2]. cbn. intros; lia.
  Qed.
  Lemma ascending_tl a l : ascending (a :: l) -> ascending l.
  Proof. destruct l; cbn; [auto|]. intros [_ H]. exact H. Qed.
  Lemma block i l : ascending l ->
    exists a c b, map (fun r => Nat.eqb r i) l = repeat false a ++ repeat true c ++ repeat false b.
  Proof.
    induction l as [|x l IH]; intros H.
    - exists 0, 0, 0. reflexivity.
    - destruct (IH (ascending_tl _ _ H)) as (a & c & b & E). cbn [map]. destruct (Nat.eqb_spec x i) as [->|N].
      + destruct a.
        * exists 0, (S c), b. rewrite E. reflexivity.
        * destruct l as [|y l]; [discriminate|]. cbn [map repeat app] in E. injection E as E1 E2.
          assert (L : Forall (fun r => i < r) (y :: l)).
          { pose proof (ascending_ge _ _ H) as G. apply Nat.eqb_neq in E1.
            pose proof (Forall_inv G) as Gy. cbn in Gy. constructor; [lia|].
            eapply Forall_impl; [|apply ascending_ge; exact (ascending_tl _ _ H)]. cbn. intros; lia. }
          exists 0, 1, (length (y :: l)). cbn [repeat app]. f_equal.
          clear -L. induction (y :: l) as [|z t IH]; [reflexivity|]. inversion L; subst. cbn [map length repeat].
          rewrite IH by assumption. f_equal. apply Nat.eqb_neq. lia.
      + exists (S a), c, b. cbn [repeat app]. rewrite E. reflexivity.
  Qed.

  Lemma row_major_ascending l : row_major l = true -> ascending (map fst l).
  Proof.
    induction l as [|a [|b l] IH]; intros H; [exact I|exact I|].
    cbn [row_major] in H. apply andb_true_iff in H. destruct H as [H1 H2]. cbn [map ascending]. split.
    - apply negb_true_iff, orb_false_iff in H1. destruct H1 as [H1 _]. apply Nat.ltb_ge in H1. exact H1.
    - exact (IH H2).
  Qed.

  (** The entries of a row, in order. *)
  Definition values_in_row (t : varlen V) (i : nat) : list V :=
    map snd (filter (fun iv => Nat.eqb (fst (fst iv)) i) (combine (vl_indices t) (vl_values t))).

  Lemma filter_block (l : list (nat * nat)) i a c b (vs : list V) : length l = length vs ->
    map (fun p => Nat.eqb (fst p) i) l = repeat false a ++ repeat true c ++ repeat false b ->
    map snd (filter (fun iv => Nat.eqb (fst (fst iv)) i) (combine l vs)) = firstn c (skipn a vs).
  Proof.
    revert a c b vs. induction l as [|p l IH]; intros a c b [|v vs]; cbn [length map]; intros L E; try discriminate.
    - destruct a, c; reflexivity.
    - injection L as L. cbn [combine filter fst]. destruct a as [|a].
      + cbn [repeat app] in E. destruct c as [|c].
        * cbn [repeat app] in E. destruct b as [|b]; [discriminate|]. cbn [repeat] in E. injection E as -> E.
          rewrite (IH 0 0 b vs L E). reflexivity.
        * cbn [repeat app] in E. injection E as -> E. cbn [map snd skipn firstn]. f_equal. apply (IH 0 c b vs L E).
      + cbn [repeat app] in E. injection E as -> E. cbn [skipn]. apply (IH a c b vs L E).
  Qed.

  Lemma dense_row_ok t i : length (vl_values t) = length (vl_indices t) -> row_major (vl_indices t) = true ->
    dense_row t i = Ok (Arr [length (values_in_row t i)] (values_in_row t i)).
  Proof.
    intros L R. destruct (block i _ (row_major_ascending _ R)) as (a & c & b & E). rewrite map_map in E.
    unfold dense_row, values_in_row. rewrite (filter_block _ _ _ _ _ _ (eq_sym L) E), E, nonzero_block.
    destruct c as [|c]; [reflexivity|]. cbn [seq]. rewrite seq_length.
    assert (La : last (seq (S a) c) a = a + c).
    { destruct c; [cbn; lia|]. rewrite seq_S, last_last. lia. }
    rewrite La. replace (S (a + c) - a) with (S c) by lia. rewrite Nat.eqb_refl. reflexivity.
  Qed.

End VarLenRows.

Lemma C127_rows_of_constructed_values_pf : forall (V : Type) (values : list V) (indices : list (nat * nat)) rows columns t,
  length values = length indices -> indices <> [] ->
  mk_varlen values indices [rows; columns] = Ok t ->
  exists l, dense_rows t = Ok l /\ length l = rows /\
    forall i row, nth_error l i = Some row ->
      row = Arr [length (values_in_row t i)] (values_in_row t i).
Proof.
  intros V values indices rows columns t L N H. unfold mk_varlen in H. cbn [length Nat.eqb negb] in H.
  destruct (row_major indices) eqn:R; cbn [negb] in H; [|discriminate]. injection H as <-.
  unfold dense_rows. cbn [vl_indices vl_shape hd]. destruct indices as [|p ps]; [congruence|].
  set (t := VarLen values (p :: ps) [rows; columns]).
  assert (G : forall l, mapM (dense_row t) l = Ok (map (fun i => Arr [length (values_in_row t i)] (values_in_row t i)) l)).
  { induction l as [|i l IH]; [reflexivity|]. cbn [mapM map]. rewrite (dense_row_ok t i L R). cbn [bind]. rewrite IH. reflexivity. }
  rewrite G. eexists. split; [reflexivity|]. split; [rewrite map_length, seq_length; reflexivity|].
  intros i row E. rewrite nth_error_map in E. destruct (nth_error (seq 0 rows) i) as [j|] eqn:J; [|discriminate].
  cbn in E. injection E as <-.
  assert (Hi : i < rows). { rewrite <- (seq_length rows 0). apply nth_error_Some. congruence. }
  apply (nth_error_nth _ _ 0) in J. rewrite seq_nth in J by exact Hi. cbn in J. subst j. reflexivity.
Qed.

(** Row by row, and by column within a row. *)

Definition not_after (a b : nat * nat) : Prop := fst a < fst b \/ (fst a = fst b /\ snd a <= snd b).

Lemma C127_constructor_accepts_pf : forall (V : Type) (values : list V) indices dense_shape,
  is_ok (mk_varlen values indices dense_shape) = true <->
  length dense_shape = 2 /\
  forall i a b, nth_error indices i = Some a -> nth_error indices (S i) = Some b -> not_after a b.
Proof.
  intros V values indices ds. unfold mk_varlen.
  assert (R : row_major indices = true <->
    forall i a b, nth_error indices i = Some a -> nth_error indices (S i) = Some b -> not_after a b).
  { induction indices as [|a [|b l] IH].
    - split; [intros _ [|i]; discriminate|reflexivity].
    - split; [intros _ [|[|i]]; discriminate|reflexivity].
    - cbn [row_major]. rewrite andb_true_iff, negb_true_iff, orb_false_iff, andb_false_iff. split.
      + intros [[H1 H2] H3] [|i] x y Hx Hy.
        * cbn in Hx, Hy. injection Hx as <-. injection Hy as <-. apply Nat.ltb_ge in H1.
          unfold not_after. destruct H2 as [H2|H2]; [apply Nat.eqb_neq in H2; lia|apply Nat.ltb_ge in H2].
          lia.
        * exact (proj1 IH H3 i x y Hx Hy).
      + intros H. split.
        * specialize (H 0 a b eq_refl eq_refl). unfold not_after in H. split; [apply Nat.ltb_ge; lia|].
          destruct (Nat.eqb_spec (fst b) (fst a)); [right; apply Nat.ltb_ge; lia|left; reflexivity].
        * apply IH. intros i x y Hx Hy. exact (H (S i) x y Hx Hy). }
  destruct (Nat.eqb_spec (length ds) 2) as [E|E]; cbn [negb].
  - destruct (row_major indices) eqn:Q; cbn [negb is_ok].
    + split; [intros _|reflexivity]. split; [exact E|]. apply R. reflexivity.
    + split; [discriminate|]. intros [_ H]. apply R in H. discriminate.
  - cbn. split; [discriminate|]. intros [H _]. contradiction.
Qed.

(** An array with one dimension. *)

Definition one_dim {V} (a : arr V) : Prop := shape a = [length (items a)].

Section Packing.
  Context {V : Type}.

  Definition entries_from (k : nat) (rows : list (list V)) : list (nat * nat) :=
    concat (map (fun ir => map (pair (fst ir)) (seq 0 (length (snd ir)))) (combine (seq k (length rows)) rows)).

  Lemma entries_cons k r rows : entries_from k (r :: rows) = map (pair k) (seq 0 (length r)) ++ entries_from (S k) rows.
  Proof. reflexivity. Qed.

  Lemma mapM_entries (rows : list (arr V)) k : Forall one_dim rows ->
    exists es, mapM (fun ir => row_entries (fst ir) (snd ir)) (combine (seq k (length rows)) rows) = Ok es /\
      concat (map fst es) = concat (map items rows) /\
      concat (map snd es) = entries_from k (map items rows).
  Proof.
    revert k. induction rows as [|r rows IH]; intros k F.
    - exists []. repeat apply conj; reflexivity.
    - inversion F as [|? ? F1 F2]; subst. destruct (IH (S k) F2) as (es & E1 & E2 & E3).
      cbn [length seq combine mapM fst snd]. rewrite E1.
      assert (E : row_entries k r = Ok (items r, map (pair k) (seq 0 (length (items r))))).
      { unfold row_entries. rewrite F1. cbn [length Nat.leb]. destruct (items r); reflexivity. }
      rewrite E. cbn [bind]. eexists. split; [reflexivity|]. cbn [map concat fst snd].
      rewrite E2, E3, entries_cons. split; reflexivity.
  Qed.

  Lemma row_major_cons a l : (forall b, hd_error l = Some b -> not_after a b) -> row_major l = true -> row_major (a :: l) = true.
  Proof.
    destruct l as [|b l]; [reflexivity|]. intros H R.
    change (negb (Nat.ltb (fst b) (fst a) || (Nat.eqb (fst b) (fst a) && Nat.ltb (snd b) (snd a))) && row_major (b :: l) = true).
    rewrite R, andb_true_r.
    specialize (H b eq_refl). unfold not_after in H. apply negb_true_iff, orb_false_iff. split; [apply Nat.ltb_ge; lia|].
    apply andb_false_iff. destruct (Nat.eqb_spec (fst b) (fst a)); [right; apply Nat.ltb_ge; lia|left; reflexivity].
  Qed.

  Lemma entries_rows k rows : Forall (fun p => k <= fst p < k + length rows) (entries_from k rows).
  Proof.
    revert k. induction rows as [|r rows IH]; intros k; [constructor|]. rewrite entries_cons. apply Forall_app. split.
    - apply Forall_forall. intros p H. apply in_map_iff in H. destruct H as (j & <- & _). cbn. lia.
    - eapply Forall_impl; [|apply IH]. cbn. intros; lia.
  Qed.

  Lemma row_major_block k j n l : Forall (fun p => k < fst p) l -> row_major l = true ->
    row_major (map (pair k) (seq j n) ++ l) = true.
  Proof.
    intros F R. revert j. induction n as [|n IH]; intros j; [exact R|]. cbn [seq map app]. apply row_major_cons; [|apply IH].
    intros b Hb. destruct n; cbn [seq map app hd_error] in Hb.
    - destruct l; [discriminate|]. injection Hb as ->. inversion F; subst. left. assumption.
    - injection Hb as <-. right. cbn. lia.
  Qed.

  Lemma entries_row_major k rows : row_major (entries_from k rows) = true.
  Proof.
    revert k. induction rows as [|r rows IH]; intros k; [reflexivity|]. rewrite entries_cons.
    apply row_major_block; [|apply IH]. eapply Forall_impl; [|apply entries_rows]. cbn. intros; lia.
  Qed.

  Lemma entries_length k rows : length (entries_from k rows) = length (concat rows).
  Proof.
    revert k. induction rows as [|r rows IH]; intros k; [reflexivity|]. rewrite entries_cons. cbn [concat].
    rewrite !app_length, map_length, seq_length, IH. reflexivity.
  Qed.

  Lemma combine_app' {A B} (a1 a2 : list A) (b1 b2 : list B) : length a1 = length b1 ->
    combine (a1 ++ a2) (b1 ++ b2) = combine a1 b1 ++ combine a2 b2.
  Proof.
    revert b1. induction a1 as [|x a1 IH]; intros [|y b1]; cbn; intros H; try discriminate; [reflexivity|].
    injection H as H. rewrite IH by exact H. reflexivity.
  Qed.

  Lemma skipn_tl {A} k (l : list A) : skipn (S k) l = tl (skipn k l).
  Proof. revert l. induction k as [|k IH]; intros [|x l]; try reflexivity. exact (IH l). Qed.

  Lemma row_values k rows i : nth_error rows i <> None ->
    map snd (filter (fun iv => Nat.eqb (fst (fst iv)) (k + i)) (combine (entries_from k rows) (concat rows))) = nth i rows [].
  Proof.
    revert k i. induction rows as [|r rows IH]; intros k i H; [exfalso; apply H; destruct i; reflexivity|]. rewrite entries_cons. cbn [concat].
    rewrite combine_app' by (rewrite map_length, seq_length; reflexivity). rewrite filter_app, map_app.
    destruct i as [|i].
    - cbn [nth]. rewrite Nat.add_0_r.
      assert (A : forall (l : list V) j, map snd (filter (fun iv => Nat.eqb (fst (fst iv)) k) (combine (map (pair k) (seq j (length l))) l)) = l).
      { induction l as [|x l IHl]; intros j; [reflexivity|]. cbn [length seq map combine filter fst]. rewrite Nat.eqb_refl.
        cbn [map snd]. rewrite IHl. reflexivity. }
      rewrite A. assert (B : forall (l : list (nat * nat)) (vs : list V), Forall (fun p => k < fst p) l ->
         filter (fun iv => Nat.eqb (fst (fst iv)) k) (combine l vs) = []).
      { induction l as [|p l IHl]; intros [|v vs] F; try reflexivity. inversion F; subst. cbn [combine filter fst].
        replace (Nat.eqb (fst p) k) with false by (symmetry; apply Nat.eqb_neq; lia). apply IHl. assumption. }
      rewrite B; [apply app_nil_r|]. eapply Forall_impl; [|apply entries_rows]. cbn. intros; lia.
    - cbn [nth]. assert (A : forall (l : list V) j, filter (fun iv => Nat.eqb (fst (fst iv)) (k + S i)) (combine (map (pair k) (seq j (length l))) l) = []).
      { induction l as [|x l IHl]; intros j; [reflexivity|]. cbn [length seq map combine filter fst].
        replace (Nat.eqb k (k + S i)) with false by (symmetry; apply Nat.eqb_neq; lia). apply IHl. }
      rewrite A. cbn [map app]. replace (k + S i) with (S k + i) by lia. apply IH. exact H.
  Qed.

  Lemma from_rows_ok (rows : list (arr V)) : Forall one_dim rows ->
    exists m, from_dense_rows rows = Ok (VarLen (concat (map items rows)) (entries_from 0 (map items rows)) [length rows; m]).
  Proof.
    intros F. destruct (mapM_entries rows 0 F) as (es & E1 & E2 & E3). unfold from_dense_rows. rewrite E1. cbn [bind].
    unfold mk_varlen. cbn [length Nat.eqb negb]. rewrite E2, E3, entries_row_major. cbn [negb].
    eexists. reflexivity.
  Qed.

  Lemma rows_of_entries (rows : list (arr V)) m : Forall one_dim rows -> concat (map items rows) <> [] ->
    dense_rows (VarLen (concat (map items rows)) (entries_from 0 (map items rows)) [length rows; m]) = Ok rows.
  Proof.
    intros F N. set (t := VarLen _ _ _).
    assert (L : length (vl_values t) = length (vl_indices t)) by (cbn; symmetry; apply entries_length).
    assert (R : row_major (vl_indices t) = true) by apply entries_row_major.
    unfold dense_rows. destruct (vl_indices t) as [|p ps] eqn:E.
    - exfalso. cbn in L. destruct (concat (map items rows)); [congruence|discriminate].
    - rewrite <- E in *. clear p ps E. change (hd 0 (vl_shape t)) with (length rows).
      assert (G : forall rs k, skipn k rows = rs -> mapM (dense_row t) (seq k (length rs)) = Ok rs).
      { induction rs as [|r rs IH]; intros k Hk; [reflexivity|]. cbn [length seq mapM].
        assert (K : nth_error rows k = Some r).
        { rewrite <- (firstn_skipn k rows), Hk, nth_error_app2; rewrite firstn_length.
          - assert (k < length rows). { apply Nat.lt_nge. intros Q. rewrite skipn_all2 in Hk by exact Q. discriminate. }
            replace (k - Nat.min k (length rows)) with 0 by lia. reflexivity.
          - lia. }
        rewrite (dense_row_ok t k L R). cbn [bind].
        assert (W : values_in_row t k = items r).
        { unfold values_in_row. subst t. cbn [vl_indices vl_values].
          assert (Hk' : nth_error (map items rows) k <> None) by (rewrite nth_error_map, K; discriminate).
          eapply eq_trans; [exact (row_values 0 (map items rows) k Hk')|].
          apply nth_error_nth. rewrite nth_error_map, K. reflexivity. }
        rewrite W. assert (D : Arr [length (items r)] (items r) = r).
        { apply nth_error_In in K. rewrite Forall_forall in F. specialize (F r K). unfold one_dim in F.
          destruct r as [s l]. cbn in *. rewrite F. reflexivity. }
        rewrite D, IH; [reflexivity|]. rewrite skipn_tl, Hk. reflexivity. }
      apply G. reflexivity.
  Qed.

End Packing.

Lemma C44_rows_round_trip_partial_pf : forall (V : Type) (rows : list (arr V)),
  Forall one_dim rows -> Exists (fun r => items r <> []) rows ->
  exists t, from_dense_rows rows = Ok t /\ dense_rows t = Ok rows /\
    vl_shape t = [length rows; list_max (map (fun r => length (items r)) rows)].
Proof.
  intros V rows F E. destruct (from_rows_ok rows F) as [m M]. exists (VarLen (concat (map items rows)) (entries_from 0 (map items rows)) [length rows; m]).
  split; [exact M|]. split.
  - apply rows_of_entries; [exact F|]. apply Exists_exists in E. destruct E as (r & I & H). intros C. apply H.
    destruct (items r) as [|x l] eqn:Ei; [reflexivity|]. exfalso.
    assert (X : In x (concat (map items rows))).
    { apply in_concat. exists (items r). split; [apply in_map; exact I|]. rewrite Ei. left. reflexivity. }
    rewrite C in X. exact X.
  - unfold from_dense_rows in M. destruct (mapM _ _) as [es|] eqn:Em; [|discriminate]. cbn [bind] in M. unfold mk_varlen in M.
    destruct (negb _); [discriminate|]. destruct (negb _); [discriminate|]. injection M as _ _ Q.
    cbn [vl_shape]. f_equal. rewrite <- Q. f_equal. clear.
    assert (G : forall l n, fold_left (fun m (r : arr V) => Nat.max m (length (items r))) l n
       = Nat.max n (list_max (map (fun r => length (items r)) l))).
    { induction l as [|r l IH]; intros n; cbn [fold_left map list_max fold_right].
      - cbn. lia.
      - rewrite IH. unfold list_max. cbn [fold_right]. lia. }
    rewrite G. lia.
Qed.

Lemma C44_rows_all_empty_lost_refuted_pf : exists rows : list (arr nat), Forall one_dim rows /\
  (exists t, from_dense_rows rows = Ok t /\ vl_shape t = [2; 0] /\ dense_rows t = Ok []) /\ length rows = 2.
Proof.
  exists [Arr [0] []; Arr [0] []]. split; [repeat constructor|]. split; [|reflexivity].
  exists (VarLen [] [] [2; 0]). repeat apply conj; reflexivity.
Qed.

(** Positions in row-major order. *)

Fixpoint offset (s idx : list nat) : nat :=
  match s, idx with
  | _ :: s, i :: idx => i * product s + offset s idx
  | _, _ => 0
  end.

Definition valid_index (s idx : list nat) : Prop := Forall2 (fun i n => i < n) idx s.

Definition element {V} (a : arr V) (idx : list nat) : option V := nth_error (items a) (offset (shape a) idx).

Definition wf_arr {V} (a : arr V) : Prop := length (items a) = product (shape a).

Definition entries {V} (s : sparse V) : list (list nat * V) := combine (sp_indices s) (sp_values s).

(** A batch of [n] examples. *)

Definition sized {V} (n : nat) (v : leaf V) : Prop :=
  match v with
  | Dense a => wf_arr a /\ exists rest, shape a = n :: rest
  | Var t => length (vl_values t) = length (vl_indices t) /\ row_major (vl_indices t) = true /\
             vl_indices t <> [] /\ exists m, vl_shape t = [n; m]
  | Sparse s => length (sp_values s) = length (sp_indices s) /\
                exists rest, sp_shape s = n :: rest /\
                  Forall (fun idx => length idx = S (length rest) /\ hd 0 idx < n) (sp_indices s)
  | PyNone => True
  end.

(** The shape of an example: scalars get one dimension if [expand_zero_dims], and a batch
    dimension comes first if [keep_batch_dim]. *)

Definition example_shape (keep_batch_dim expand_zero_dims : bool) (s : list nat) : list nat :=
  (if keep_batch_dim then [1] else []) ++ match s with [] => if expand_zero_dims then [1] else [] | _ => s end.

(** [w] is example [i] of the batch [v]. *)

Definition example_of {V} (keep_batch_dim expand_zero_dims : bool) (i : nat) (v w : leaf V) : Prop :=
  match v, w with
  | Dense a, Dense b =>
      shape b = example_shape keep_batch_dim expand_zero_dims (tl (shape a)) /\
      length (items b) = product (tl (shape a)) /\
      forall idx, valid_index (tl (shape a)) idx ->
        nth_error (items b) (offset (tl (shape a)) idx) = element a (i :: idx)
  | Var t, Dense b =>
      items b = values_in_row t i /\
      shape b = example_shape keep_batch_dim expand_zero_dims [length (values_in_row t i)]
  | Sparse s, Sparse u =>
      sp_shape u = tl (sp_shape s) /\ length (sp_values u) = length (sp_indices u) /\
      forall idx x, In (idx, x) (entries u) <-> In (i :: idx, x) (entries s)
  | PyNone, PyNone => True
  | _, _ => False
  end.

Section SplitLeaf.
  Context {V : Type}.

  Lemma product_cons n s : product (n :: s) = n * product s.
  Proof. reflexivity. Qed.
  Lemma offset_lt s idx : valid_index s idx -> offset s idx < product s.
  Proof.
    revert idx. induction s as [|n s IH]; intros idx H; inversion H as [|i m idx' s' H1 H2]; subst; cbn [offset].
    - cbn. lia.
    - rewrite product_cons. specialize (IH _ H2). nia.
  Qed.

  Lemma nth_error_firstn {A} n (l : list A) i : i < n -> nth_error (firstn n l) i = nth_error l i.
  Proof.
    revert l i. induction n as [|n IH]; intros l i H; [lia|]. destruct l; [destruct i; reflexivity|].
    destruct i; [reflexivity|]. cbn. apply IH. lia.
  Qed.
  Lemma nth_error_skipn {A} n (l : list A) i : nth_error (skipn n l) i = nth_error l (n + i).
  Proof. revert l. induction n as [|n IH]; intros l; [reflexivity|]. destruct l; [destruct i; reflexivity|]. cbn. apply IH. Qed.

  Lemma row_ok rest (l : list V) n i : length l = n * product rest -> i < n ->
    length (items (row_of rest l i)) = product rest.
  Proof. intros L H. cbn. rewrite firstn_length, skipn_length. nia. Qed.

  Lemma concat_rows rest (l : list V) n : length l = n * product rest ->
    concat (map (fun i => items (row_of rest l i)) (seq 0 n)) = l.
  Proof.
    cbn [row_of items]. set (p := product rest). clearbody p. intros L.
    assert (G : forall k j, (j + k) * p = length l -> concat (map (fun i => firstn p (skipn (i * p) l)) (seq j k)) = skipn (j * p) l).
    { induction k as [|k IH]; intros j E; cbn [seq map concat].
      - rewrite skipn_all2; [reflexivity|]. nia.
      - rewrite IH by (rewrite <- E; f_equal; lia). rewrite <- (firstn_skipn p (skipn (j * p) l)) at 2. f_equal.
        cbn [Nat.mul]. clear. generalize (j * p). intros q. revert q. induction l as [|x l IH]; intros q.
        + rewrite !skipn_nil. reflexivity.
        + destruct q as [|q]; [rewrite Nat.add_0_r; reflexivity|]. replace (p + S q) with (S (p + q)) by lia. cbn [skipn]. apply IH. }
    rewrite G; [reflexivity|lia].
  Qed.

  Definition same_size (v : leaf V) (n : nat) (vs : list (leaf V)) : Prop := length vs = n.

  Lemma split_ok keep expand n (v : leaf V) : sized n v -> is_none v = false ->
    exists vs, split_leaf keep expand v = Ok vs /\ length vs = n /\
      forall i w, nth_error vs i = Some w -> example_of keep expand i v w.
  Proof.
    intros Z N. destruct v as [a|t|s|]; [| | |discriminate]; cbn [split_leaf].
    - destruct Z as [W [rest E]]. rewrite E. eexists. split; [reflexivity|]. split; [rewrite !map_length, seq_length; reflexivity|].
      intros i w H. rewrite map_map in H. assert (Hi : i < n).
      { rewrite <- (seq_length n 0). rewrite <- (map_length (fun x => Dense (example_value keep expand (row_of rest (items a) x)))).
        apply nth_error_Some. congruence. }
      assert (H' : w = Dense (example_value keep expand (row_of rest (items a) i))).
      { rewrite nth_error_map in H. rewrite (nth_error_nth' _ 0) in H by (rewrite seq_length; exact Hi).
        rewrite seq_nth in H by exact Hi. cbn in H. congruence. }
      subst w. cbn [example_of]. rewrite E. cbn [tl]. unfold wf_arr in W. rewrite E, product_cons in W. split; [|split].
      + cbn. destruct keep, rest; reflexivity.
      + cbn. exact (row_ok rest (items a) n i W Hi).
      + intros idx Hv. cbn [example_value items row_of]. rewrite nth_error_firstn by (apply offset_lt; exact Hv).
        rewrite nth_error_skipn. unfold element. rewrite E. reflexivity.
    - destruct Z as (L & R & Ne & m & E). unfold dense_rows. rewrite E. cbn [hd].
      assert (G : forall l, mapM (dense_row t) l = Ok (map (fun i => Arr [length (values_in_row t i)] (values_in_row t i)) l)).
      { induction l as [|i l IH]; [reflexivity|]. cbn [mapM map]. rewrite (dense_row_ok t i L R). cbn [bind]. rewrite IH. reflexivity. }
      destruct (vl_indices t) eqn:Ei; [congruence|]. rewrite G. cbn [bind]. eexists. split; [reflexivity|].
      split; [rewrite !map_length, seq_length; reflexivity|]. intros i w H. rewrite map_map, nth_error_map in H.
      destruct (nth_error (seq 0 n) i) as [j|] eqn:J; [|discriminate]. cbn in H. injection H as <-.
      assert (Hi : i < n). { rewrite <- (seq_length n 0). apply nth_error_Some. congruence. }
      apply (nth_error_nth _ _ 0) in J. rewrite seq_nth in J by exact Hi. cbn in J. subst j. cbn. split; [reflexivity|].
      destruct keep; reflexivity.
    - destruct Z as (L & rest & E & F). unfold split_sparse_batch. rewrite E. cbn [bind].
      eexists. split; [reflexivity|]. split; [rewrite !map_length, seq_length; reflexivity|]. intros i w H.
      rewrite map_map, nth_error_map in H.
      destruct (nth_error (seq 0 n) i) as [j|] eqn:J; [|discriminate]. cbn in H. injection H as <-.
      assert (Hi : i < n). { rewrite <- (seq_length n 0). apply nth_error_Some. congruence. }
      apply (nth_error_nth _ _ 0) in J. rewrite seq_nth in J by exact Hi. cbn in J. subst j.
      cbn [example_of sp_shape sp_values sp_indices]. rewrite E. split; [reflexivity|]. split; [rewrite !map_length; reflexivity|].
      intros idx x. unfold entries. cbn [sp_indices sp_values].
      assert (C : forall l : list (list nat * V), combine (map (fun iv => tl (fst iv)) l) (map snd l) = map (fun iv => (tl (fst iv), snd iv)) l).
      { induction l as [|q l IH]; [reflexivity|]. cbn. rewrite IH. reflexivity. }
      rewrite C, in_map_iff. split.
      + intros ((idx' & x') & Q & I). cbn in Q. injection Q as Q1 Q2. subst idx x. apply filter_In in I. destruct I as [I Q]. cbn in Q.
        apply Nat.eqb_eq in Q. rewrite Forall_forall in F. destruct (F idx' (in_combine_l _ _ _ _ I)) as [F1 _].
        destruct idx' as [|k idx']; [discriminate|]. cbn in Q. subst k. exact I.
      + intros I. exists (i :: idx, x). split; [reflexivity|]. apply filter_In. split; [exact I|]. cbn. apply Nat.eqb_refl.
  Qed.

End SplitLeaf.

Section Leaves.
  Context {V : Type}.

  (** What comes back when the examples are merged: what is lost is the difference between
      (x, 1) and (x,) with the default options. *)
  Definition flatten_column (a : arr V) : arr V :=
    match shape a with [n; 1] => Arr [n] (items a) | _ => a end.

  (** Batches that keep their kind: variable length values whose rows differ in length and
      are numbered in order, and sparse values in the order of the examples. *)
  Definition regular (n : nat) (v : leaf V) : Prop :=
    match v with
    | Dense a => wf_arr a /\ exists rest, shape a = n :: rest
    | Var t => exists rows, length rows = n /\ Forall one_dim rows /\ from_dense_rows rows = Ok t /\
                            exists r r', In r rows /\ In r' rows /\ shape r <> shape r'
    | Sparse s => length (sp_values s) = length (sp_indices s) /\ ascending (map (hd 0) (sp_indices s)) /\
                  exists rest, sp_shape s = n :: rest /\
                    Forall (fun idx => length idx = S (length rest) /\ hd 0 idx < n) (sp_indices s)
    | PyNone => True
    end.

  Lemma all_dense_map (l : list (arr V)) : all_dense (map Dense l) = Some l.
  Proof. induction l as [|a l IH]; [reflexivity|]. cbn [map]. unfold all_dense in *. cbn [fold_right]. rewrite IH. reflexivity. Qed.
  Lemma all_sparse_map (l : list (sparse V)) : all_sparse (map Sparse l) = Some l.
  Proof. induction l as [|a l IH]; [reflexivity|]. cbn [map]. unfold all_sparse in *. cbn [fold_right]. rewrite IH. reflexivity. Qed.

  Definition merge_dense (sq : bool) (a : arr V) (t : list (arr V)) : res (leaf V) :=
    let arrays := a :: t in
    let data := concat (map items arrays) in
    if existsb (fun b => negb (nats_eqb (shape b) (shape a))) t
    then let! v := from_dense_rows (map squeeze arrays) in Ok (Var v)
    else match shape a with
         | [] => Ok (Dense (Arr [length arrays] data))
         | [1] => Ok (Dense (Arr (if sq then [length arrays] else [length arrays; 1]) data))
         | s => Ok (Dense (Arr (length arrays :: s) data))
         end.
  Lemma merge_leaf_dense sq a t : merge_leaf sq (map Dense (a :: t)) = merge_dense sq a t.
  Proof. unfold merge_leaf. cbn [map]. change (Dense a :: map Dense t) with (map Dense (a :: t)). rewrite all_dense_map. reflexivity. Qed.

  Lemma nats_eqb_eq a b : nats_eqb a b = true <-> a = b.
  Proof. unfold nats_eqb. destruct (list_eq_dec Nat.eq_dec a b); split; congruence. Qed.
  Lemma existsb_shapes (s : list nat) (t : list (arr V)) : Forall (fun b => shape b = s) t ->
    existsb (fun b => negb (nats_eqb (shape b) s)) t = false.
  Proof.
    induction 1 as [|b t Hb Ht IH]; [reflexivity|]. cbn [existsb]. rewrite IH, Hb.
    replace (nats_eqb s s) with true by (symmetry; apply nats_eqb_eq; reflexivity). reflexivity.
  Qed.

  (** merging arrays of one shape *)
  Lemma merge_same sq n s (rows : list (arr V)) : length rows = n -> 1 <= n -> Forall (fun b => shape b = s) rows ->
    merge_leaf sq (map Dense rows) =
    Ok (Dense (Arr (match s with [1] => if sq then [n] else [n; 1] | _ => n :: s end) (concat (map items rows)))).
  Proof.
    intros L N F. destruct rows as [|a t]; [cbn in L; lia|]. rewrite merge_leaf_dense. unfold merge_dense.
    inversion F as [|? ? F1 F2]; subst. rewrite existsb_shapes by exact F2.
    destruct (shape a) as [|[|[|k]] [|q s]]; reflexivity.
  Qed.

  Lemma squeeze_one_dim (a : arr V) : one_dim a -> items a <> [] -> length (items a) <> 1 -> squeeze a = a.
  Proof.
    intros H N O. destruct a as [s l]. unfold one_dim in H. cbn in *. subst s. unfold squeeze. cbn [shape items filter].
    replace (Nat.eqb (length l) 1) with false by (symmetry; apply Nat.eqb_neq; exact O). reflexivity.
  Qed.

  Lemma row_entries_squeeze k (a : arr V) : one_dim a -> row_entries k (squeeze a) = row_entries k a.
  Proof.
    intros H. destruct a as [s l]. unfold one_dim in H. cbn in H. subst s. unfold row_entries, squeeze. cbn [shape items filter].
    destruct l as [|x [|y l]]; reflexivity.
  Qed.
  Lemma from_rows_squeeze (rows : list (arr V)) : Forall one_dim rows -> from_dense_rows (map squeeze rows) = from_dense_rows rows.
  Proof.
    intros F. unfold from_dense_rows. rewrite map_length.
    assert (E : forall k, mapM (fun ir => row_entries (fst ir) (snd ir)) (combine (seq k (length rows)) (map squeeze rows))
              = mapM (fun ir => row_entries (fst ir) (snd ir)) (combine (seq k (length rows)) rows)).
    { induction rows as [|r rows IH]; intros k; [reflexivity|]. inversion F; subst. cbn [length seq map combine mapM fst snd].
      rewrite row_entries_squeeze by assumption. rewrite IH by assumption. reflexivity. }
    rewrite E. destruct (mapM _ _); [|reflexivity]. cbn [bind]. do 3 f_equal.
    generalize 0. clear. induction rows as [|r rows IH]; intros k; [reflexivity|]. cbn [map fold_left]. exact (IH _).
  Qed.

  (** merging rows of different lengths *)
  Lemma merge_rows sq (rows : list (arr V)) r r' : Forall one_dim rows -> In r rows -> In r' rows -> shape r <> shape r' ->
    merge_leaf sq (map Dense rows) = let! v := from_dense_rows rows in Ok (Var v).
  Proof.
    intros F I I' D. destruct rows as [|a t]; [destruct I|]. rewrite merge_leaf_dense. unfold merge_dense.
    rewrite (from_rows_squeeze _ F).
    assert (E : existsb (fun b : arr V => negb (nats_eqb (shape b) (shape a))) t = true).
    { destruct (existsb _ t) eqn:Q; [reflexivity|]. exfalso.
      assert (A : forall x, In x (a :: t) -> shape x = shape a).
      { intros x [<-|Ix]; [reflexivity|]. destruct (nats_eqb (shape x) (shape a)) eqn:Y; [apply nats_eqb_eq; exact Y|].
        exfalso. assert (X : existsb (fun b : arr V => negb (nats_eqb (shape b) (shape a))) t = true).
        { apply existsb_exists. exists x. split; [exact Ix|]. rewrite Y. reflexivity. }
        congruence. }
      apply D. rewrite (A r I), (A r' I'). reflexivity. }
    rewrite E. reflexivity.
  Qed.

  Lemma rows_not_empty (rows : list (arr V)) r r' : Forall one_dim rows -> In r rows -> In r' rows -> shape r <> shape r' ->
    concat (map items rows) <> [].
  Proof.
    intros F I I' D C. apply D. rewrite Forall_forall in F.
    assert (A : forall x, In x rows -> items x = []).
    { intros x Ix. destruct (items x) as [|y l] eqn:E; [reflexivity|]. exfalso.
      assert (X : In y (concat (map items rows))).
      { apply in_concat. exists (items x). split; [apply in_map; exact Ix|]. rewrite E. left. reflexivity. }
      rewrite C in X. exact X. }
    rewrite (F r I), (F r' I'), (A r I), (A r' I'). reflexivity.
  Qed.

  Lemma var_rows n t : regular n (Var t) -> exists rows, length rows = n /\ Forall one_dim rows /\ from_dense_rows rows = Ok t /\
     dense_rows t = Ok rows /\ exists r r', In r rows /\ In r' rows /\ shape r <> shape r'.
  Proof.
    intros (rows & L & F & E & r & r' & I & I' & D). exists rows. repeat apply conj; try assumption; [|exists r, r'; auto].
    destruct (from_rows_ok rows F) as [m M]. rewrite E in M. injection M as ->.
    apply rows_of_entries; [exact F|]. exact (rows_not_empty rows r r' F I I' D).
  Qed.

  (** sparse values *)
  Definition sparse_row (s : sparse V) (rest : list nat) (i : nat) : sparse V :=
    let mine := filter (fun iv => Nat.eqb (hd 0 (fst iv)) i) (combine (sp_indices s) (sp_values s)) in
    SparseT (map snd mine) (map (fun iv => tl (fst iv)) mine) rest.

  Lemma max_shape_same s : max_shape s s = s.
  Proof. induction s as [|x s IH]; [reflexivity|]. cbn. rewrite IH, Nat.max_id. reflexivity. Qed.

  Lemma concat_sparse_same s (l : list (sparse V)) : Forall (fun u => sp_shape u = s) l -> l <> [] ->
    concat_sparse l = Ok (Sparse (SparseT (concat (map sp_values l))
      (concat (map (fun iu => map (cons (fst iu)) (sp_indices (snd iu))) (combine (seq 0 (length l)) l))) (length l :: s))).
  Proof.
    intros F N. destruct l as [|u t]; [congruence|]. unfold concat_sparse. inversion F as [|? ? F1 F2]; subst.
    assert (A : forallb (fun w : sparse V => Nat.eqb (length (sp_shape w)) (length (sp_shape u))) t = true).
    { apply forallb_forall. intros x Ix. rewrite Forall_forall in F2. rewrite (F2 x Ix). apply Nat.eqb_refl. }
    rewrite A. do 4 f_equal. clear -F2. generalize (sp_shape u) F2. clear. intros s F.
    induction F as [|x t Hx F IH]; [reflexivity|]. cbn [map fold_left]. rewrite Hx, max_shape_same. exact IH.
  Qed.

  Definition rows_asc (l : list (list nat * V)) := ascending (map (fun iv => hd 0 (fst iv)) l).
  Lemma filter_hd_split (l : list (list nat * V)) k : rows_asc l -> Forall (fun iv => k <= hd 0 (fst iv)) l ->
    l = filter (fun iv => Nat.eqb (hd 0 (fst iv)) k) l ++ filter (fun iv => negb (Nat.eqb (hd 0 (fst iv)) k)) l.
  Proof.
    induction l as [|p l IH]; intros A F; [reflexivity|]. inversion F as [|? ? F1 F2]; subst.
    unfold rows_asc in A, IH. cbn [map] in A. pose proof (ascending_tl _ _ A) as A2. cbn [filter]. destruct (Nat.eqb_spec (hd 0 (fst p)) k) as [E|E]; cbn [negb app].
    - f_equal. apply IH; assumption.
    - assert (G : Forall (fun iv => k < hd 0 (fst iv)) l).
      { pose proof (ascending_ge _ _ A) as G. cbn in F1. rewrite Forall_map in G. eapply Forall_impl; [|exact G]. cbn. intros; lia. }
      assert (N1 : filter (fun iv : list nat * V => Nat.eqb (hd 0 (fst iv)) k) l = []).
      { clear -G. induction G as [|x l Hx G IH]; [reflexivity|]. cbn [filter].
        replace (Nat.eqb (hd 0 (fst x)) k) with false by (symmetry; apply Nat.eqb_neq; lia). exact IH. }
      assert (N2 : filter (fun iv : list nat * V => negb (Nat.eqb (hd 0 (fst iv)) k)) l = l).
      { clear -G. induction G as [|x l Hx G IH]; [reflexivity|]. cbn [filter].
        replace (Nat.eqb (hd 0 (fst x)) k) with false by (symmetry; apply Nat.eqb_neq; lia). cbn [negb]. rewrite IH. reflexivity. }
      rewrite N1, N2. reflexivity.
  Qed.

  Lemma asc_filter (p : list nat * V -> bool) l : rows_asc l -> rows_asc (filter p l).
  Proof.
    unfold rows_asc. induction l as [|x l IH]; intros A; [exact A|]. cbn [map] in A. pose proof (IH (ascending_tl _ _ A)) as A2. cbn [filter].
    destruct (p x); [|exact A2]. cbn [map].
    pose proof (ascending_ge _ _ A) as G. clear -A2 G.
    destruct (filter p l) as [|y t] eqn:E; [exact I|]. cbn [map ascending]. split; [|exact A2].
    rewrite Forall_map, Forall_forall in G. apply G. assert (In y (filter p l)) by (rewrite E; left; reflexivity).
    apply filter_In in H. tauto.
  Qed.

  Lemma rows_concat (l : list (list nat * V)) n k : rows_asc l -> Forall (fun iv => k <= hd 0 (fst iv) < k + n) l ->
    concat (map (fun i => filter (fun iv => Nat.eqb (hd 0 (fst iv)) i) l) (seq k n)) = l.
  Proof.
    revert l k. induction n as [|n IH]; intros l k A F; cbn [seq map concat].
    - destruct l as [|x l]; [reflexivity|]. inversion F; subst. lia.
    - assert (F' : Forall (fun iv : list nat * V => k <= hd 0 (fst iv)) l) by (eapply Forall_impl; [|exact F]; cbn; intros; lia).
      etransitivity; [|symmetry; exact (filter_hd_split l k A F')]. f_equal. set (l2 := filter (fun iv => negb (Nat.eqb (hd 0 (fst iv)) k)) l).
      assert (R : concat (map (fun i => filter (fun iv => Nat.eqb (hd 0 (fst iv)) i) l2) (seq (S k) n)) = l2).
      { apply IH; [apply asc_filter; exact A|]. apply Forall_forall. intros x Ix. apply filter_In in Ix. destruct Ix as [Ix Q].
        rewrite Forall_forall in F. specialize (F x Ix). cbn in F. apply negb_true_iff, Nat.eqb_neq in Q. lia. }
      etransitivity; [|exact R]. f_equal. apply map_ext_in. intros i Hi. apply in_seq in Hi. unfold l2. clear -Hi.
      induction l as [|x l IH]; [reflexivity|]. cbn [filter]. destruct (Nat.eqb_spec (hd 0 (fst x)) i) as [E|E].
      + replace (Nat.eqb (hd 0 (fst x)) k) with false by (symmetry; apply Nat.eqb_neq; lia). cbn [negb filter].
        rewrite E, Nat.eqb_refl. f_equal. exact IH.
      + destruct (Nat.eqb_spec (hd 0 (fst x)) k); cbn [negb filter]; [exact IH|].
        replace (Nat.eqb (hd 0 (fst x)) i) with false by (symmetry; apply Nat.eqb_neq; exact E). exact IH.
  Qed.

  Lemma map_fst_combine {A B} (a : list A) (b : list B) : length a = length b -> map fst (combine a b) = a.
  Proof. revert b. induction a as [|x a IH]; intros [|y b]; cbn; intros H; try discriminate; [reflexivity|]. rewrite IH by lia. reflexivity. Qed.
  Lemma map_snd_combine {A B} (a : list A) (b : list B) : length a = length b -> map snd (combine a b) = b.
  Proof. revert b. induction a as [|x a IH]; intros [|y b]; cbn; intros H; try discriminate; [reflexivity|]. rewrite IH by lia. reflexivity. Qed.

  Lemma sparse_round n (s : sparse V) rest : length (sp_values s) = length (sp_indices s) -> ascending (map (hd 0) (sp_indices s)) ->
    sp_shape s = n :: rest -> Forall (fun idx => length idx = S (length rest) /\ hd 0 idx < n) (sp_indices s) -> 1 <= n ->
    concat_sparse (map (sparse_row s rest) (seq 0 n)) = Ok (Sparse s).
  Proof.
    intros L A E F N.
    rewrite (concat_sparse_same rest).
    2:{ apply Forall_forall. intros u Iu. apply in_map_iff in Iu. destruct Iu as (i & <- & _). reflexivity. }
    2:{ destruct n; [lia|]. discriminate. }
    rewrite map_length, seq_length.
    set (all := combine (sp_indices s) (sp_values s)).
    assert (RA : rows_asc all).
    { unfold rows_asc. replace (map (fun iv : list nat * V => hd 0 (fst iv)) all) with (map (hd 0) (sp_indices s)); [exact A|].
      rewrite <- (map_fst_combine (sp_indices s) (sp_values s)) at 1 by congruence. rewrite map_map. reflexivity. }
    assert (RF : Forall (fun iv : list nat * V => 0 <= hd 0 (fst iv) < 0 + n) all).
    { apply Forall_forall. intros [idx x] I. apply in_combine_l in I. rewrite Forall_forall in F. destruct (F idx I) as [_ H]. cbn. lia. }
    pose proof (rows_concat all n 0 RA RF) as C.
    assert (C1 : concat (map sp_values (map (sparse_row s rest) (seq 0 n))) = sp_values s).
    { rewrite map_map. cbn [sparse_row sp_values]. fold all. rewrite <- (map_map (fun i => filter (fun iv => Nat.eqb (hd 0 (fst iv)) i) all) (map snd)).
      rewrite <- concat_map, C. apply map_snd_combine. congruence. }
    assert (C2 : concat (map (fun iu => map (cons (fst iu)) (sp_indices (snd iu))) (combine (seq 0 n) (map (sparse_row s rest) (seq 0 n)))) = sp_indices s).
    { assert (H : forall l, combine l (map (sparse_row s rest) l) = map (fun i => (i, sparse_row s rest i)) l).
      { induction l as [|x l IH]; [reflexivity|]. cbn. rewrite IH. reflexivity. }
      rewrite H, map_map. cbn [fst snd sparse_row sp_indices]. fold all.
      rewrite (map_ext_in _ (fun i => map fst (filter (fun iv => Nat.eqb (hd 0 (fst iv)) i) all))).
      - rewrite <- (map_map (fun i => filter (fun iv => Nat.eqb (hd 0 (fst iv)) i) all) (map fst)).
        rewrite <- concat_map, C. apply map_fst_combine. congruence.
      - intros i _. rewrite map_map. apply map_ext_in. intros [idx x] I. apply filter_In in I. destruct I as [I Q].
        apply Nat.eqb_eq in Q. cbn in Q |- *. apply in_combine_l in I. rewrite Forall_forall in F. destruct (F idx I) as [H1 _].
        destruct idx as [|k idx]; [discriminate|]. cbn in Q |- *. congruence. }
    rewrite C1, C2, <- E. destruct s; reflexivity.
  Qed.

  Lemma regular_sized n v : regular n v -> sized n v.
  Proof.
    destruct v as [a|t|s|]; cbn [regular sized]; auto.
    - intros H. destruct (var_rows n t H) as (rows & L & F & E & D & r & r' & I & I' & Q).
      destruct (from_rows_ok rows F) as [m M]. rewrite E in M. injection M as ->. cbn [vl_values vl_indices vl_shape].
      repeat apply conj.
      + symmetry. apply entries_length.
      + apply entries_row_major.
      + intros C. apply (rows_not_empty rows r r' F I I' Q). pose proof (entries_length 0 (map items rows)) as X.
        rewrite C in X. destruct (concat _); [reflexivity|discriminate].
      + exists m. rewrite L. reflexivity.
    - intros (L & _ & H). auto.
  Qed.

  (** the documented options *)
  Lemma leaf_round n (v : leaf V) : regular n v -> is_none v = false -> 1 <= n ->
    exists vs, split_leaf false false v = Ok vs /\ merge_leaf false vs = Ok v.
  Proof.
    intros R N P. destruct v as [a|t|s|]; [| | |discriminate]; cbn [split_leaf].
    - destruct R as [W [rest E]]. rewrite E. eexists. split; [reflexivity|]. unfold wf_arr in W. rewrite E, product_cons in W.
      rewrite map_map, <- (map_map (fun i => example_value false false (row_of rest (items a) i)) Dense).
      rewrite (merge_same false n rest).
      + rewrite map_map. f_equal. f_equal. destruct a as [s l]. cbn [shape items] in *. subst s.
        rewrite (map_ext _ (fun i => items (row_of rest l i))) by reflexivity. rewrite concat_rows by exact W.
        f_equal. destruct rest as [|[|[|k]] [|q r]]; reflexivity.
      + rewrite map_length, seq_length. reflexivity.
      + exact P.
      + apply Forall_forall. intros b Ib. apply in_map_iff in Ib. destruct Ib as (i & <- & _). cbn. destruct rest; reflexivity.
    - destruct (var_rows n t R) as (rows & L & F & E & D & r & r' & I & I' & Q). rewrite D. cbn [bind]. eexists. split; [reflexivity|].
      replace (map (fun a : arr V => Dense (example_value false false a)) rows) with (map Dense rows).
      + rewrite (merge_rows false rows r r' F I I' Q), E. reflexivity.
      + apply map_ext_in. intros a Ia. rewrite Forall_forall in F. specialize (F a Ia). destruct a as [s l]. unfold one_dim in F. cbn in F.
        subst s. reflexivity.
    - destruct R as (L & A & rest & E & F). unfold split_sparse_batch. rewrite E. cbn [bind]. eexists. split; [reflexivity|].
      change (map _ (seq 0 n)) with (map (sparse_row s rest) (seq 0 n)).
      assert (H : merge_leaf false (map Sparse (map (sparse_row s rest) (seq 0 n))) = concat_sparse (map (sparse_row s rest) (seq 0 n))).
      { destruct n as [|n]; [lia|]. cbn [seq map]. unfold merge_leaf. rewrite <- (map_cons Sparse), <- map_cons, all_sparse_map. reflexivity. }
      rewrite H. exact (sparse_round n s rest L A E F P).
  Qed.

  (** the default options *)
  Lemma leaf_round_default n (v : leaf V) : regular n v -> is_none v = false -> 1 <= n ->
    exists vs, split_leaf false true v = Ok vs /\
      merge_leaf true vs = Ok (match v with Dense a => Dense (flatten_column a) | _ => v end).
  Proof.
    intros R N P. destruct v as [a|t|s|]; [| | |discriminate]; cbn [split_leaf].
    - destruct R as [W [rest E]]. rewrite E. eexists. split; [reflexivity|]. unfold wf_arr in W. rewrite E, product_cons in W.
      rewrite map_map, <- (map_map (fun i => example_value false true (row_of rest (items a) i)) Dense).
      rewrite (merge_same true n (match rest with [] => [1] | _ => rest end)).
      + rewrite map_map. f_equal. f_equal. destruct a as [s l]. cbn [shape items] in *. subst s.
        rewrite (map_ext _ (fun i => items (row_of rest l i))) by reflexivity. rewrite concat_rows by exact W.
        unfold flatten_column. cbn [shape items]. destruct rest as [|[|[|k]] [|q r]]; reflexivity.
      + rewrite map_length, seq_length. reflexivity.
      + exact P.
      + apply Forall_forall. intros b Ib. apply in_map_iff in Ib. destruct Ib as (i & <- & _). cbn. destruct rest; reflexivity.
    - destruct (var_rows n t R) as (rows & L & F & E & D & r & r' & I & I' & Q). rewrite D. cbn [bind]. eexists. split; [reflexivity|].
      replace (map (fun a : arr V => Dense (example_value false true a)) rows) with (map Dense rows).
      + rewrite (merge_rows true rows r r' F I I' Q), E. reflexivity.
      + apply map_ext_in. intros a Ia. rewrite Forall_forall in F. specialize (F a Ia). destruct a as [s l]. unfold one_dim in F. cbn in F.
        subst s. reflexivity.
    - destruct R as (L & A & rest & E & F). unfold split_sparse_batch. rewrite E. cbn [bind]. eexists. split; [reflexivity|].
      change (map _ (seq 0 n)) with (map (sparse_row s rest) (seq 0 n)).
      assert (H : merge_leaf true (map Sparse (map (sparse_row s rest) (seq 0 n))) = concat_sparse (map (sparse_row s rest) (seq 0 n))).
      { destruct n as [|n]; [lia|]. cbn [seq map]. unfold merge_leaf. rewrite <- (map_cons Sparse), <- map_cons, all_sparse_map. reflexivity. }
      rewrite H. exact (sparse_round n s rest L A E F P).
  Qed.

End Leaves.

Fixpoint at_path {A} (e : data A) (p : list string) : option (data A) :=
  match p with
  | [] => Some e
  | k :: t => match e with
              | Dict d => match dget String.eqb d k with Some c => at_path c t | None => None end
              | Leaf _ => None
              end
  end.

Definition leaf_at {A} (e : data A) (p : list string) : option A :=
  match at_path e p with Some (Leaf v) => Some v | _ => None end.

(** [Some true]: a value; [Some false]: a dictionary *)

Definition kind_at {A} (e : data A) (p : list string) : option bool :=
  match at_path e p with Some (Leaf _) => Some true | Some (Dict _) => Some false | None => None end.

(** Python dictionaries: keys occur once. *)

Definition wf_data {A} (e : data A) : Prop := forall p d, at_path e p = Some (Dict d) -> NoDup (map fst d).

Section Trees.
  Context {A : Type}.

  Section Ind.
    Context (P : data A -> Prop) (HL : forall v, P (Leaf v)) (HD : forall d, Forall (fun kv => P (snd kv)) d -> P (Dict d)).
    Fixpoint data_induction (e : data A) : P e :=
      match e with
      | Leaf v => HL v
      | Dict d => HD d ((fix go l : Forall (fun kv => P (snd kv)) l :=
                           match l with
                           | [] => Forall_nil _
                           | kv :: t => Forall_cons kv (data_induction (snd kv)) (go t)
                           end) d)
      end.
  End Ind.

  Lemma at_cons (d : list (string * data A)) k p : at_path (Dict d) (k :: p) = match dget String.eqb d k with Some c => at_path c p | None => None end.
  Proof. reflexivity. Qed.
  Lemma leaf_cons (d : list (string * data A)) k p : leaf_at (Dict d) (k :: p) = match dget String.eqb d k with Some c => leaf_at c p | None => None end.
  Proof. unfold leaf_at. rewrite at_cons. destruct (dget _ d k); reflexivity. Qed.
  Lemma kind_cons (d : list (string * data A)) k p : kind_at (Dict d) (k :: p) = match dget String.eqb d k with Some c => kind_at c p | None => None end.
  Proof. unfold kind_at. rewrite at_cons. destruct (dget _ d k); reflexivity. Qed.
  Lemma leaf_kind (e : data A) p v : leaf_at e p = Some v -> kind_at e p = Some true.
  Proof. unfold leaf_at, kind_at. destruct (at_path e p) as [[]|]; congruence. Qed.
  Lemma kind_leaf (e : data A) p : kind_at e p = Some true -> exists v, leaf_at e p = Some v.
  Proof. unfold leaf_at, kind_at. destruct (at_path e p) as [[v|]|]; try discriminate. intros _. exists v. reflexivity. Qed.

  Lemma wf_child (d : list (string * data A)) k c : wf_data (Dict d) -> dget String.eqb d k = Some c -> wf_data c.
  Proof. intros W E p d' H. apply (W (k :: p)). rewrite at_cons, E. exact H. Qed.
  Lemma wf_keys (d : list (string * data A)) : wf_data (Dict d) -> NoDup (map fst d).
  Proof. intros W. apply (W []). reflexivity. Qed.
  Lemma wf_dict (d : list (string * data A)) : NoDup (map fst d) -> (forall k c, dget String.eqb d k = Some c -> wf_data c) -> wf_data (Dict d).
  Proof.
    intros N H [|k p] d' E.
    - injection E as <-. exact N.
    - rewrite at_cons in E. destruct (dget String.eqb d k) as [c|] eqn:G; [|discriminate]. exact (H k c G p d' E).
  Qed.
  Lemma wf_leaf (v : A) : wf_data (Leaf v).
  Proof. intros [|k p] d E; discriminate. Qed.
  Lemma wf_nil : wf_data (A := A) (Dict []).
  Proof. apply wf_dict; [constructor|]. intros k c; discriminate. Qed.

  Lemma kind_prefix (e : data A) p k q b : kind_at e (p ++ k :: q) = Some b -> kind_at e p = Some false.
  Proof.
    revert e. induction p as [|x p IH]; intros e H.
    - destruct e; [discriminate|reflexivity].
    - cbn [app] in H. destruct e as [v|d]; [discriminate|]. rewrite kind_cons in *. destruct (dget _ d x); [|discriminate]. exact (IH _ H).
  Qed.

End Trees.

Section SetPath.
  Context {V : Type}.
  Implicit Types (d : list (string * data (leaf V))).

  Lemma set_path_ok keys : keys <> [] -> forall d v,
    (forall q k r, keys = q ++ k :: r -> kind_at (Dict d) q <> Some true) -> kind_at (Dict d) keys <> Some false ->
    exists d', set_path d keys v = Ok d' /\ leaf_at (Dict d') keys = Some v /\
      (forall q, q <> keys -> leaf_at (Dict d') q = leaf_at (Dict d) q) /\
      (forall q b, kind_at (Dict d') q = Some b ->
         kind_at (Dict d) q = Some b \/ (b = true /\ q = keys) \/ (b = false /\ exists k r, keys = q ++ k :: r)) /\
      (wf_data (Dict d) -> wf_data (Dict d')).
  Proof.
    induction keys as [|k keys IH]; [congruence|]. intros _ d v HP HD. destruct keys as [|k2 keys].
    - exists (dset String.eqb d k (Leaf v)). split; [reflexivity|]. split.
      { rewrite leaf_cons, (dget_dset_eq _ String.eqb_eq). reflexivity. }
      split; [|split].
      + intros [|x q] N; [reflexivity|]. rewrite !leaf_cons, (dget_dset _ String.eqb_eq). destruct (String.eqb_spec x k) as [<-|E]; [|reflexivity].
        destruct q as [|y q]; [congruence|]. rewrite kind_cons in HD. destruct (dget String.eqb d x) as [[w|c]|]; try reflexivity. exfalso. apply HD. reflexivity.
      + intros [|x q] b H; [left; exact H|]. rewrite kind_cons, (dget_dset _ String.eqb_eq) in H. rewrite kind_cons.
        destruct (String.eqb_spec x k) as [<-|E]; [|left; exact H].
        destruct q as [|y q]; [|discriminate]. right. left. split; [|reflexivity]. cbn in H. congruence.
      + intros W. apply wf_dict; [apply (dset_NoDup _ String.eqb_eq); exact (wf_keys _ W)|]. intros x c H.
        rewrite (dget_dset _ String.eqb_eq) in H. destruct (String.eqb x k); [injection H as <-; apply wf_leaf|]. exact (wf_child _ _ _ W H).
    - set (c := match dget String.eqb d k with Some (Dict c) => c | _ => [] end).
      assert (NL : forall w, dget String.eqb d k <> Some (Leaf w)).
      { intros w E. apply (HP [k] k2 keys eq_refl). rewrite kind_cons, E. reflexivity. }
      assert (KC : forall q, q <> [] -> kind_at (Dict c) q = kind_at (Dict d) (k :: q)).
      { intros q N. rewrite kind_cons. unfold c. destruct (dget String.eqb d k) as [[w|c']|] eqn:E; [exfalso; apply (NL w); first [reflexivity|exact E]|reflexivity|].
        destruct q; [congruence|]. reflexivity. }
      assert (LC : forall q, q <> [] -> leaf_at (Dict c) q = leaf_at (Dict d) (k :: q)).
      { intros q N. rewrite leaf_cons. unfold c. destruct (dget String.eqb d k) as [[w|c']|] eqn:E; [exfalso; apply (NL w); first [reflexivity|exact E]|reflexivity|].
        destruct q; [congruence|]. reflexivity. }
      destruct (IH ltac:(discriminate) c v) as (c' & E1 & E2 & E3 & E4 & E5).
      { intros q x r E. destruct q as [|y q]; [discriminate|]. rewrite KC by discriminate. apply (HP (k :: y :: q) x r). rewrite E. reflexivity. }
      { rewrite KC by discriminate. exact HD. }
      assert (SP : set_path d (k :: k2 :: keys) v = Ok (dset String.eqb d k (Dict c'))).
      { change (set_path d (k :: k2 :: keys) v) with
          (match dget String.eqb d k with
           | None => let! c := set_path [] (k2 :: keys) v in Ok (dset String.eqb d k (Dict c))
           | Some (Dict c) => let! c := set_path c (k2 :: keys) v in Ok (dset String.eqb d k (Dict c))
           | Some (Leaf _) => Err TypeError
           end).
        unfold c in E1. destruct (dget String.eqb d k) as [[w|c0]|] eqn:E; [exfalso; apply (NL w); first [reflexivity|exact E]| |]; rewrite E1; reflexivity. }
      exists (dset String.eqb d k (Dict c')). split; [exact SP|]. split.
      { rewrite leaf_cons, (dget_dset_eq _ String.eqb_eq). exact E2. }
      split; [|split].
      + intros [|x q] N; [reflexivity|]. rewrite !leaf_cons, (dget_dset _ String.eqb_eq). destruct (String.eqb_spec x k) as [<-|E]; [|reflexivity].
        destruct q as [|y q].
        * destruct (dget String.eqb d x) as [[w|c0]|] eqn:E; [exfalso; apply (NL w); first [reflexivity|exact E]|reflexivity|reflexivity].
        * rewrite E3 by congruence. rewrite LC by discriminate. rewrite leaf_cons. reflexivity.
      + intros [|x q] b H; [left; exact H|]. rewrite kind_cons, (dget_dset _ String.eqb_eq) in H.
        destruct (String.eqb_spec x k) as [<-|E]; [|left; rewrite kind_cons; exact H].
        destruct q as [|y q].
        * cbn in H. injection H as <-. right. right. split; [reflexivity|]. exists k2, keys. reflexivity.
        * destruct (E4 _ _ H) as [K|[[-> K]|[-> (k' & r & K)]]].
          -- left. rewrite KC in K by discriminate. exact K.
          -- right. left. split; [reflexivity|]. rewrite K. reflexivity.
          -- right. right. split; [reflexivity|]. exists k', r. rewrite K. reflexivity.
      + intros W. apply wf_dict; [apply (dset_NoDup _ String.eqb_eq); exact (wf_keys _ W)|]. intros x c0 H.
        rewrite (dget_dset _ String.eqb_eq) in H. destruct (String.eqb x k); [|exact (wf_child _ _ _ W H)]. injection H as <-.
        apply E5. unfold c. destruct (dget String.eqb d k) as [[w|c1]|] eqn:E; [apply wf_nil|exact (wf_child _ _ _ W E)|apply wf_nil].
  Qed.

  (** Dictionaries whose structure is part of that of [e]. *)
  Definition within (e : data (leaf V)) d : Prop := forall q b, kind_at (Dict d) q = Some b -> kind_at e q = Some b.

  Definition set_many d (l : list (list string * leaf V)) : res (list (string * data (leaf V))) :=
    foldM (fun d kv => set_path d (fst kv) (snd kv)) l d.

  Lemma set_many_ok e l : Forall (fun kv => kind_at e (fst kv) = Some true) l -> Forall (fun kv => fst kv <> []) l ->
    NoDup (map fst l) -> kind_at e [] = Some false -> forall d, within e d ->
    exists d', set_many d l = Ok d' /\ within e d' /\ (wf_data (Dict d) -> wf_data (Dict d')) /\
      forall p w, leaf_at (Dict d') p = Some w <-> In (p, w) l \/ (~ In p (map fst l) /\ leaf_at (Dict d) p = Some w).
  Proof.
    unfold set_many. intros K NE ND R. induction l as [|[p v] l IH]; intros d WI.
    - exists d. split; [reflexivity|]. split; [exact WI|]. split; [auto|]. intros q w. cbn. tauto.
    - inversion K as [|? ? K1 K2]; subst. inversion NE as [|? ? N1 N2]; subst. inversion ND as [|? ? D1 D2]; subst. cbn [fst snd] in *.
      destruct (set_path_ok p N1 d v) as (d1 & E1 & E2 & E3 & E4 & E5).
      { intros q k r E C. apply WI in C. rewrite E in K1. apply kind_prefix in K1. congruence. }
      { intros C. apply WI in C. congruence. }
      assert (W1 : within e d1).
      { intros q b H. destruct (E4 _ _ H) as [G|[[-> ->]|[-> (k & r & G)]]]; [exact (WI _ _ G)|exact K1|]. rewrite G in K1. exact (kind_prefix _ _ _ _ _ K1). }
      destruct (IH K2 N2 D2 d1 W1) as (d' & F1 & F2 & F3 & F4). exists d'. cbn [foldM fst snd]. rewrite E1. cbn [bind].
      split; [exact F1|]. split; [exact F2|]. split; [auto|]. intros q w. rewrite F4. cbn [In map fst]. split.
      + intros [H|[H1 H2]]; [left; right; exact H|]. destruct (list_eq_dec string_dec q p) as [->|N].
        * left. left. congruence.
        * right. split; [intros [C|C]; [congruence|contradiction]|]. rewrite E3 in H2 by exact N. exact H2.
      + intros [[H|H]|[H1 H2]].
        * injection H as <- <-. right. split; [exact D1|exact E2].
        * left. exact H.
        * right. split; [tauto|]. rewrite E3; [exact H2|]. intros ->. apply H1. left. reflexivity.
  Qed.

End SetPath.

Section LeavesList.
  Context {V : Type}.

  Lemma leaves_dict keys (d : list (string * data (leaf V))) :
    leaves keys (Dict d) = flat_map (fun ke => leaves (keys ++ [fst ke]) (snd ke)) d.
  Proof. cbn [leaves]. induction d as [|[k e] d IH]; [reflexivity|]. cbn [flat_map fst snd]. rewrite <- IH. reflexivity. Qed.

  Lemma leaves_shift (e : data (leaf V)) : forall keys, leaves keys e = map (fun pv => (keys ++ fst pv, snd pv)) (leaves [] e).
  Proof.
    induction e as [v|d F] using data_induction; intros keys.
    - cbn. rewrite app_nil_r. reflexivity.
    - rewrite !leaves_dict. induction F as [|[k e] d He F IH]; [reflexivity|]. cbn [flat_map fst snd app] in *.
      rewrite map_app, IH, He, (He [k]), map_map. f_equal. apply map_ext. intros [p v]. cbn. rewrite <- app_assoc. reflexivity.
  Qed.

  Lemma In_leaves (e : data (leaf V)) : wf_data e -> forall p v, In (p, v) (leaves [] e) <-> leaf_at e p = Some v.
  Proof.
    induction e as [v|d F] using data_induction; intros W p x.
    - cbn [leaves In]. destruct p as [|k p]; cbn; split; intros H.
      + destruct H as [H|[]]. congruence.
      + left. congruence.
      + destruct H as [H|[]]. discriminate.
      + discriminate.
    - rewrite leaves_dict, in_flat_map. split.
      + intros ([k e] & I & H). cbn [fst snd app] in H. rewrite leaves_shift in H. apply in_map_iff in H. destruct H as ((q & y) & E & H).
        cbn in E. injection E as <- <-. assert (G : dget String.eqb d k = Some e) by (apply (dget_In_NoDup _ String.eqb_eq d k e (wf_keys _ W)); exact I).
        rewrite leaf_cons, G. rewrite Forall_forall in F. apply (F (k, e) I); [exact (wf_child _ _ _ W G)|exact H].
      + intros H. destruct p as [|k p]; [discriminate|]. rewrite leaf_cons in H. destruct (dget String.eqb d k) as [e|] eqn:G; [|discriminate].
        pose proof (dget_In _ String.eqb_eq _ _ _ G) as I. exists (k, e). split; [exact I|]. cbn [fst snd app]. rewrite leaves_shift.
        apply in_map_iff. exists (p, x). split; [reflexivity|]. rewrite Forall_forall in F. apply (F (k, e) I); [exact (wf_child _ _ _ W G)|exact H].
  Qed.

  Lemma NoDup_leaves (e : data (leaf V)) : wf_data e -> NoDup (map fst (leaves [] e)).
  Proof.
    induction e as [v|d F] using data_induction; intros W; [repeat constructor; intros []|].
    rewrite leaves_dict. pose proof (wf_keys _ W) as N.
    assert (WC : forall k e, In (k, e) d -> wf_data e).
    { intros k e I. apply (wf_child d k e W). apply (dget_In_NoDup _ String.eqb_eq d k e N). exact I. }
    clear W. induction F as [|[k e] d He F IH]; [constructor|]. cbn [flat_map fst snd app map] in *. inversion N as [|? ? N1 N2]; subst.
    rewrite map_app. rewrite leaves_shift, map_map. cbn [fst].
    assert (A : forall (l : list (list string * leaf V)), NoDup (map fst l) -> NoDup (map (fun x => [k] ++ fst x) l)).
    { intros l H. rewrite <- (map_map fst (fun q => [k] ++ q)). apply FinFun.Injective_map_NoDup; [|exact H]. intros a b Eab. cbn in Eab. congruence. }
    specialize (IH N2 (fun k' e' I' => WC k' e' (or_intror I'))).
    pose proof (A _ (He (WC k e (or_introl eq_refl)))) as A1.
    assert (Dis : forall p, In p (map (fun x => [k] ++ fst x) (leaves [] e)) -> ~ In p (map fst (flat_map (fun ke => leaves [fst ke] (snd ke)) d))).
    { intros p H C. apply in_map_iff in H. destruct H as (x & <- & _). apply in_map_iff in C. destruct C as ((q & v) & E & C).
      apply in_flat_map in C. destruct C as ([k' e'] & I' & C). cbn [fst snd] in *. rewrite leaves_shift in C. apply in_map_iff in C.
      destruct C as (y & Q & _). injection Q as Q1 Q2. cbn in E, Q1. rewrite <- Q1 in E. injection E as E _. subst k'. apply N1. apply in_map_iff. exists (k, e'). auto. }
    clear -A1 IH Dis. induction A1 as [|p l Hp A1 IHl]; [exact IH|]. cbn [app]. constructor.
    - intros C. apply in_app_or in C. destruct C as [C|C]; [contradiction|]. exact (Dis p (or_introl eq_refl) C).
    - apply IHl. intros q Hq. apply Dis. right. exact Hq.
  Qed.

End LeavesList.

Section Split.
  Context {V : Type} (keep expand : bool).

  Definition example_list (i : nat) (ls : list (list string * leaf V)) : list (list string * leaf V) :=
    flat_map (fun kv => if is_none (snd kv) then [] else
                        match split_leaf keep expand (snd kv) with
                        | Ok vs => match nth_error vs i with Some w => [(fst kv, w)] | None => [] end
                        | Err _ => []
                        end) ls.
  Definition none_list (ls : list (list string * leaf V)) : list (list string * leaf V) :=
    filter (fun kv => is_none (snd kv)) ls.
  Definition splits (n : nat) (v : leaf V) : Prop :=
    is_none v = false -> exists vs, split_leaf keep expand v = Ok vs /\ length vs = n.

  Definition add_leaf r (kv : list string * leaf V) :=
    if is_none (snd kv) then Ok r else let! vs := split_leaf keep expand (snd kv) in set_all r (fst kv) vs.

  Lemma set_all_ok keys (vs : list (leaf V)) r : length r = length vs ->
    (forall i v, nth_error vs i = Some v -> exists d, set_path (nth i r []) keys v = Ok d) ->
    exists r', set_all r keys vs = Ok r' /\ length r' = length vs /\
      forall i v, nth_error vs i = Some v -> set_path (nth i r []) keys v = Ok (nth i r' []).
  Proof.
    revert r. induction vs as [|v vs IH]; intros [|d r] L H; try discriminate.
    - exists []. repeat apply conj; try reflexivity. intros [|i] v; discriminate.
    - injection L as L. destruct (H 0 v eq_refl) as [d1 E1]. cbn [nth] in E1.
      destruct (IH r L (fun i x Hx => H (S i) x Hx)) as (r' & F1 & F2 & F3). exists (d1 :: r').
      cbn [set_all]. rewrite E1. cbn [bind]. rewrite F1. cbn [bind length]. split; [reflexivity|]. split; [congruence|].
      intros [|i] x Hx; cbn [nth_error nth] in *; [congruence|]. exact (F3 i x Hx).
  Qed.

  Lemma set_all_nil keys (vs : list (leaf V)) : set_all [] keys vs = set_all (repeat [] (length vs)) keys vs.
  Proof. induction vs as [|v vs IH]; [reflexivity|]. cbn [set_all length repeat]. rewrite IH. reflexivity. Qed.

  Lemma fold_ok n ls : Forall (fun kv => splits n (snd kv)) ls -> forall r, length r = n ->
    (forall i, i < n -> exists d, set_many (nth i r []) (example_list i ls) = Ok d) ->
    exists r', foldM add_leaf ls r = Ok r' /\ length r' = n /\
      forall i, i < n -> set_many (nth i r []) (example_list i ls) = Ok (nth i r' []).
  Proof.
    induction 1 as [|[p v] ls S1 F IH]; intros r L H.
    - exists r. repeat apply conj; [reflexivity|exact L|]. intros i _. reflexivity.
    - cbn [foldM]. unfold add_leaf at 1. unfold splits in S1. cbn [fst snd] in *. destruct (is_none v) eqn:N.
      + cbn [bind]. destruct (IH r L) as (r' & A1 & A2 & A3).
        { intros i Hi. specialize (H i Hi). unfold example_list in H. cbn [flat_map fst snd] in H. rewrite N in H. exact H. }
        exists r'. split; [exact A1|]. split; [exact A2|]. intros i Hi. unfold example_list. cbn [flat_map fst snd]. rewrite N. exact (A3 i Hi).
      + destruct (S1 eq_refl) as (vs & E & Lv). rewrite E. cbn [bind].
        assert (EL : forall i x, nth_error vs i = Some x -> example_list i ((p, v) :: ls) = (p, x) :: example_list i ls).
        { intros i x Hx. unfold example_list. cbn [flat_map fst snd]. rewrite N, E, Hx. reflexivity. }
        assert (EX : forall i, i < n -> exists x, nth_error vs i = Some x).
        { intros i Hi. destruct (nth_error vs i) as [x|] eqn:Q; [exists x; reflexivity|]. apply nth_error_None in Q. lia. }
        destruct (set_all_ok p vs r) as (r1 & B1 & B2 & B3).
        { congruence. }
        { intros i x Hx. assert (Hi : i < n) by (rewrite <- Lv; apply nth_error_Some; congruence).
          destruct (H i Hi) as [d Hd]. rewrite (EL i x Hx) in Hd. unfold set_many in Hd. cbn [foldM fst snd] in Hd.
          destruct (set_path (nth i r []) p x) as [d1|] eqn:Q; [exists d1; reflexivity|discriminate]. }
        rewrite B1. cbn [bind]. destruct (IH r1) as (r' & A1 & A2 & A3).
        { congruence. }
        { intros i Hi. destruct (EX i Hi) as [x Hx]. destruct (H i Hi) as [d Hd]. rewrite (EL i x Hx) in Hd. unfold set_many in Hd. cbn [foldM fst snd] in Hd.
          rewrite (B3 i x Hx) in Hd. exists d. exact Hd. }
        exists r'. split; [exact A1|]. split; [exact A2|]. intros i Hi. destruct (EX i Hi) as [x Hx]. rewrite (EL i x Hx). unfold set_many. cbn [foldM fst snd].
        rewrite (B3 i x Hx). cbn [bind]. exact (A3 i Hi).
  Qed.

  Lemma fold_start n ls : Forall (fun kv => splits n (snd kv)) ls -> Exists (fun kv => is_none (snd kv) = false) ls ->
    foldM add_leaf ls [] = foldM add_leaf ls (repeat [] n).
  Proof.
    induction 1 as [|[p v] ls S1 F IH]; intros E; [inversion E|]. cbn [foldM]. unfold add_leaf at 1 3. unfold splits in S1. cbn [fst snd] in *.
    destruct (is_none v) eqn:N.
    - cbn [bind]. apply IH. inversion E as [? ? H|? ? H]; subst; [cbn in H; congruence|exact H].
    - destruct (S1 eq_refl) as (vs & Ev & Lv). rewrite Ev. cbn [bind]. rewrite set_all_nil, Lv. reflexivity.
  Qed.

  Lemma none_fold (ls : list (list string * leaf V)) d :
    foldM (fun d kv => if is_none (snd kv) then set_path d (fst kv) PyNone else Ok d) ls d = set_many d (none_list ls).
  Proof.
    unfold set_many, none_list. revert d. induction ls as [|[p v] ls IH]; intros d; [reflexivity|]. cbn [foldM filter snd fst].
    destruct v; cbn [is_none bind]; try apply IH. cbn [foldM fst snd]. destruct (set_path d p PyNone); cbn [bind]; [apply IH|reflexivity].
  Qed.

  Lemma example_list_paths i ls : forall p, In p (map fst (example_list i ls)) -> In p (map fst (filter (fun kv => negb (is_none (snd kv))) ls)).
  Proof.
    intros p H. apply in_map_iff in H. destruct H as ((q & w) & E & H). cbn in E. subst q. unfold example_list in H. apply in_flat_map in H.
    destruct H as ((q & v) & I & H). cbn [fst snd] in H. destruct (is_none v) eqn:N; [destruct H|].
    destruct (split_leaf keep expand v) as [vs|]; [|destruct H]. destruct (nth_error vs i); [|destruct H]. destruct H as [H|[]]. injection H as -> _.
    apply in_map_iff. exists (p, v). split; [reflexivity|]. apply filter_In. split; [exact I|]. cbn. rewrite N. reflexivity.
  Qed.
  Lemma example_list_NoDup i ls : NoDup (map fst ls) -> NoDup (map fst (example_list i ls)).
  Proof.
    induction ls as [|[p v] ls IH]; intros N; [constructor|]. inversion N as [|? ? N1 N2]; subst. cbn [map fst] in N1. unfold example_list. cbn [flat_map fst snd].
    fold (example_list i ls). destruct (is_none v); [exact (IH N2)|]. destruct (split_leaf keep expand v) as [vs|]; [|exact (IH N2)].
    destruct (nth_error vs i); [|exact (IH N2)]. cbn [app map fst]. constructor; [|exact (IH N2)].
    intros C. apply example_list_paths in C. apply N1. apply in_map_iff in C. destruct C as (x & E & C). apply filter_In in C. apply in_map_iff. exists x. tauto.
  Qed.
  Lemma NoDup_filter_fst {B C} (f : B * C -> bool) (l : list (B * C)) : NoDup (map fst l) -> NoDup (map fst (filter f l)).
  Proof.
    induction l as [|x l IH]; intros N; [constructor|]. inversion N as [|? ? N1 N2]; subst. cbn [filter]. destruct (f x); [|exact (IH N2)].
    cbn [map]. constructor; [|exact (IH N2)]. intros C0. apply N1. apply in_map_iff in C0. destruct C0 as (y & E & C0). apply filter_In in C0.
    apply in_map_iff. exists y. tauto.
  Qed.

  Lemma split_extracts_ok n (e : list (string * data (leaf V))) : wf_data (Dict e) ->
    (forall p v, leaf_at (Dict e) p = Some v -> splits n v) -> (exists p v, leaf_at (Dict e) p = Some v /\ is_none v = false) ->
    exists rs, split_extracts e keep expand = Ok rs /\ length rs = n /\
      forall i d, nth_error rs i = Some d -> wf_data (Dict d) /\ within (Dict e) d /\
        forall p w, leaf_at (Dict d) p = Some w <->
          exists v, leaf_at (Dict e) p = Some v /\
            ((v = PyNone /\ w = PyNone) \/
             (is_none v = false /\ exists vs, split_leaf keep expand v = Ok vs /\ nth_error vs i = Some w)).
  Proof.
    intros W HS (p0 & v0 & L0 & N0). unfold split_extracts. set (ls := leaves [] (Dict e)).
    assert (IL : forall p v, In (p, v) ls <-> leaf_at (Dict e) p = Some v) by (apply In_leaves; exact W).
    assert (ND : NoDup (map fst ls)) by (apply NoDup_leaves; exact W).
    assert (FS : Forall (fun kv => splits n (snd kv)) ls).
    { apply Forall_forall. intros [p v] I. cbn. apply (HS p v). apply IL. exact I. }
    assert (EX : Exists (fun kv => is_none (snd kv) = false) ls).
    { apply Exists_exists. exists (p0, v0). split; [apply IL; exact L0|exact N0]. }
    match goal with |- context [foldM ?g ls []] => change g with add_leaf end.
    rewrite (fold_start n ls FS EX).
    assert (KE : forall p v, In (p, v) ls -> kind_at (Dict e) p = Some true /\ p <> []).
    { intros p v I. apply IL in I. split; [exact (leaf_kind _ _ _ I)|]. intros ->. discriminate. }
    assert (KL : forall i, Forall (fun kv => kind_at (Dict e) (fst kv) = Some true) (example_list i ls) /\ Forall (fun kv => fst kv <> []) (example_list i ls)).
    { intros i. assert (Q : forall kv, In kv (example_list i ls) -> exists v, In (fst kv, v) ls).
      { intros [p w] I. assert (H : In p (map fst (example_list i ls))) by (apply in_map_iff; exists (p, w); auto).
        apply example_list_paths in H. apply in_map_iff in H. destruct H as ((q & v) & E & H). cbn in E. subst q. apply filter_In in H. exists v. tauto. }
      split; apply Forall_forall; intros kv I; destruct (Q kv I) as [v Hv]; destruct (KE _ _ Hv); assumption. }
    assert (KN : Forall (fun kv => kind_at (Dict e) (fst kv) = Some true) (none_list ls) /\ Forall (fun kv => fst kv <> []) (none_list ls)).
    { split; apply Forall_forall; intros [p v] I; apply filter_In in I; destruct (KE p v (proj1 I)); assumption. }
    assert (W0 : within (Dict e) []). { intros [|k q] b H; [exact H|discriminate]. }
    destruct (fold_ok n ls FS (repeat [] n)) as (r & R1 & R2 & R3).
    { apply repeat_length. }
    { intros i Hi. rewrite nth_repeat. destruct (KL i) as [K1 K2].
      destruct (set_many_ok (Dict e) (example_list i ls) K1 K2 (example_list_NoDup i ls ND) eq_refl [] W0) as (d & E & _). exists d. exact E. }
    rewrite R1. cbn [bind].
    assert (ST : forall i, i < n -> exists d, set_many (nth i r []) (none_list ls) = Ok d /\ within (Dict e) d /\ wf_data (Dict d) /\
       forall p w, leaf_at (Dict d) p = Some w <-> In (p, w) (none_list ls) \/ In (p, w) (example_list i ls)).
    { intros i Hi. specialize (R3 i Hi). rewrite nth_repeat in R3. destruct (KL i) as [K1 K2].
      destruct (set_many_ok (Dict e) (example_list i ls) K1 K2 (example_list_NoDup i ls ND) eq_refl [] W0) as (d & E & Wd & Wf & Hd).
      rewrite R3 in E. injection E as E. rewrite E. clear E. destruct KN as [K3 K4].
      destruct (set_many_ok (Dict e) (none_list ls) K3 K4 (NoDup_filter_fst _ _ ND) eq_refl d Wd) as (d' & E' & Wd' & Wf' & Hd').
      exists d'. split; [exact E'|]. split; [exact Wd'|]. split; [exact (Wf' (Wf wf_nil))|]. intros p w. rewrite Hd', Hd. split.
      - intros [H|[_ [H|[_ H]]]]; [left; exact H|right; exact H|]. destruct p; discriminate.
      - intros [H|H]; [left; exact H|]. right. split; [|left; exact H]. intros C.
        assert (H' : In p (map fst (example_list i ls))) by (apply in_map_iff; exists (p, w); auto). apply example_list_paths in H'.
        apply in_map_iff in C. destruct C as ((q1 & v1) & E1 & C). apply in_map_iff in H'. destruct H' as ((q2 & v2) & E2 & H').
        cbn in E1, E2. subst q1 q2. apply filter_In in C. apply filter_In in H'. destruct C as [C1 C2]. destruct H' as [H1 H2]. cbn in C2, H2.
        apply IL in C1. apply IL in H1. rewrite C1 in H1. injection H1 as ->. rewrite C2 in H2. discriminate. }
    assert (MM : forall k rr, skipn k r = rr -> exists rs, mapM (fun d => foldM (fun d kv => if is_none (snd kv) then set_path d (fst kv) PyNone else Ok d) ls d) rr = Ok rs /\
       length rs = length rr /\ forall i d, nth_error rs i = Some d -> set_many (nth (k + i) r []) (none_list ls) = Ok d).
    { intros k rr. revert k. induction rr as [|d rr IH]; intros k Hk.
      - exists []. repeat apply conj; try reflexivity. intros [|i]; discriminate.
      - assert (Lk : k < length r). { apply Nat.lt_nge. intros Q. rewrite skipn_all2 in Hk by exact Q. discriminate. }
        assert (Dk : nth k r [] = d).
        { apply nth_error_nth. rewrite <- (Nat.add_0_r k), <- nth_error_skipn, Hk. reflexivity. }
        rewrite R2 in Lk. destruct (ST k Lk) as (d' & S1 & _). rewrite Dk in S1.
        destruct (IH (S k)) as (rs & A1 & A2 & A3).
        { rewrite skipn_tl, Hk. reflexivity. }
        exists (d' :: rs). cbn [mapM]. rewrite none_fold, S1. cbn [bind]. rewrite A1. cbn [bind length]. split; [reflexivity|]. split; [congruence|].
        intros [|i] x Hx; cbn [nth_error] in Hx.
        + rewrite Nat.add_0_r, Dk. congruence.
        + replace (k + S i) with (S k + i) by lia. exact (A3 i x Hx). }
    destruct (MM 0 r eq_refl) as (rs & M1 & M2 & M3). rewrite M1. exists rs. split; [reflexivity|]. split; [congruence|].
    intros i d Hd. assert (Hi : i < n) by (rewrite <- R2, <- M2; apply nth_error_Some; congruence).
    destruct (ST i Hi) as (d' & S1 & S2 & S3 & S4). pose proof (M3 i d Hd) as Q. cbn [plus] in Q. rewrite S1 in Q. injection Q as ->.
    split; [exact S3|]. split; [exact S2|]. intros p w. rewrite S4. split.
    - intros [H|H].
      + apply filter_In in H. destruct H as [H1 H2]. cbn in H2. destruct w; try discriminate. exists PyNone. split; [apply IL; exact H1|]. left. auto.
      + unfold example_list in H. apply in_flat_map in H. destruct H as ((q & v) & I & H). cbn [fst snd] in H. destruct (is_none v) eqn:N; [destruct H|].
        destruct (split_leaf keep expand v) as [vs|] eqn:E; [|destruct H]. destruct (nth_error vs i) as [x|] eqn:X; [|destruct H]. destruct H as [H|[]]. injection H as -> ->.
        exists v. split; [apply IL; exact I|]. right. split; [exact N|]. exists vs. auto.
    - intros (v & Lv & [[-> ->]|[N (vs & E & X)]]).
      + left. apply filter_In. split; [apply IL; exact Lv|reflexivity].
      + right. unfold example_list. apply in_flat_map. exists (p, v). split; [apply IL; exact Lv|]. cbn [fst snd]. rewrite N, E, X. left. reflexivity.
  Qed.

End Split.

Section Merge.
  Context {V : Type}.
  Implicit Types (value : data (leaf V)).

  Definition loop n index := fix go (l : list (string * data (leaf V))) (t : list (string * data (list (leaf V)))) : res (list (string * data (list (leaf V)))) :=
    match l with
    | [] => Ok t
    | (k, v) :: l => let! c := merge_with_lists n index v (dget String.eqb t k) in go l (dset String.eqb t k c)
    end.
  Lemma merge_dict n index d target : merge_with_lists n index (Dict d) target =
    (let! t := match target with None => Ok [] | Some (Dict t) => Ok t | Some (Leaf _) => Err TypeError end in
     let! t := loop n index d t in Ok (Dict t)).
  Proof. reflexivity. Qed.

  Lemma loop_ok n index d : NoDup (map fst d) -> forall t,
    (forall k v, In (k, v) d -> exists c, merge_with_lists n index v (dget String.eqb t k) = Ok c) ->
    exists t', loop n index d t = Ok t' /\ (NoDup (map fst t) -> NoDup (map fst t')) /\
      forall k, match dget String.eqb d k with
                | Some v => exists c, merge_with_lists n index v (dget String.eqb t k) = Ok c /\ dget String.eqb t' k = Some c
                | None => dget String.eqb t' k = dget String.eqb t k
                end.
  Proof.
    induction d as [|[k v] d IH]; intros N t H.
    - exists t. repeat apply conj; [reflexivity|auto|]. intros k. reflexivity.
    - inversion N as [|? ? N1 N2]; subst. cbn [map fst] in N1. destruct (H k v (or_introl eq_refl)) as [c Ec].
      destruct (IH N2 (dset String.eqb t k c)) as (t' & A1 & A2 & A3).
      { intros k' v' I. assert (K : k' <> k). { intros ->. apply N1. apply in_map_iff. exists (k, v'). auto. }
        rewrite (dget_dset _ String.eqb_eq). apply String.eqb_neq in K. rewrite K. apply H. right. exact I. }
      exists t'. cbn [loop]. rewrite Ec. cbn [bind]. split; [exact A1|]. split.
      { intros Nt. apply A2. apply (dset_NoDup _ String.eqb_eq). exact Nt. }
      intros k'. specialize (A3 k'). cbn [dget]. rewrite (dget_dset _ String.eqb_eq) in A3.
      destruct (String.eqb_spec k' k) as [E|K].
      + subst k'. exists c. split; [exact Ec|].
        assert (G : dget String.eqb d k = None) by (apply (dget_None _ String.eqb_eq); exact N1). rewrite G in A3. exact A3.
      + exact A3.
  Qed.

  Definition opt_leaf (target : option (data (list (leaf V)))) p := match target with Some t => leaf_at t p | None => None end.
  Definition opt_within {B} (K : list string -> option bool) (target : option (data B)) : Prop :=
    match target with Some t => forall q b, kind_at t q = Some b -> K q = Some b | None => True end.

  Lemma merge_with_ok n index value : forall K target, wf_data value ->
    opt_within K (Some value) -> opt_within K target -> (forall t, target = Some t -> wf_data t) ->
    exists t', merge_with_lists n index value target = Ok t' /\ opt_within K (Some t') /\ wf_data t' /\
      forall p, leaf_at t' p = match leaf_at value p with
                               | Some v => Some (set_nth (match opt_leaf target p with Some l => l | None => repeat missing n end) index v)
                               | None => opt_leaf target p
                               end.
  Proof.
    induction value as [v|d F] using data_induction; intros K target W KV KT WT.
    - assert (K0 : K [] = Some true) by (apply (KV []); reflexivity).
      assert (R : forall l, exists t', Ok (A := data (list (leaf V))) (Leaf l) = Ok t' /\ opt_within K (Some t') /\ wf_data t' /\ t' = Leaf l).
      { intros l. exists (Leaf l). split; [reflexivity|]. split; [|split; [apply wf_leaf|reflexivity]].
        intros [|x q] b H; cbn in H; [injection H as <-; exact K0|discriminate]. }
      cbn [merge_with_lists]. destruct target as [[l|c]|].
      + destruct (R (set_nth l index v)) as (t' & A1 & A2 & A3 & ->). exists (Leaf (set_nth l index v)). repeat apply conj; try assumption.
        intros [|x q]; reflexivity.
      + exfalso. specialize (KT [] false eq_refl). congruence.
      + destruct (R (set_nth (repeat missing n) index v)) as (t' & A1 & A2 & A3 & ->). exists (Leaf (set_nth (repeat missing n) index v)). repeat apply conj; try assumption.
        intros [|x q]; reflexivity.
    - rewrite merge_dict.
      assert (K0 : K [] = Some false) by (apply (KV []); reflexivity).
      set (t0 := match target with Some (Dict t) => t | _ => [] end).
      assert (E0 : match target with None => Ok [] | Some (Dict t) => Ok t | Some (Leaf _) => Err TypeError end = Ok t0).
      { destruct target as [[l|c]|]; try reflexivity. exfalso. specialize (KT [] true eq_refl). congruence. }
      rewrite E0. cbn [bind].
      assert (W0 : wf_data (Dict t0)).
      { unfold t0. destruct target as [[l|c]|]; try apply wf_nil. apply WT. reflexivity. }
      assert (L0 : forall p, p <> [] -> opt_leaf target p = leaf_at (Dict t0) p).
      { intros p N. unfold t0, opt_leaf. destruct target as [[l|c]|]; try reflexivity; destruct p; try congruence; reflexivity. }
      assert (KT0 : opt_within K (Some (Dict t0))).
      { unfold t0. destruct target as [[l|c]|]; try exact KT; intros [|x q] b H; try discriminate; cbn in H; injection H as <-; exact K0. }
      assert (CH : forall k v, dget String.eqb d k = Some v ->
        exists c, merge_with_lists n index v (dget String.eqb t0 k) = Ok c /\ opt_within (fun q => K (k :: q)) (Some c) /\ wf_data c /\
          forall p, leaf_at c p = match leaf_at v p with
                               | Some x => Some (set_nth (match opt_leaf (dget String.eqb t0 k) p with Some l => l | None => repeat missing n end) index x)
                               | None => opt_leaf (dget String.eqb t0 k) p
                               end).
      { intros k v G. pose proof (dget_In _ String.eqb_eq _ _ _ G) as I. rewrite Forall_forall in F. apply (F (k, v) I).
        - exact (wf_child _ _ _ W G).
        - intros q b H. apply KV. rewrite kind_cons, G. exact H.
        - destruct (dget String.eqb t0 k) as [c|] eqn:C; [|exact Coq.Init.Logic.I]. intros q b H. apply KT0. rewrite kind_cons, C. exact H.
        - intros t E. exact (wf_child _ _ _ W0 E). }
      destruct (loop_ok n index d (wf_keys _ W) t0) as (t' & A1 & A2 & A3).
      { intros k v I. destruct (CH k v) as (c & C & _); [|exists c; exact C]. apply (dget_In_NoDup _ String.eqb_eq d k v (wf_keys _ W)). exact I. }
      rewrite A1. cbn [bind]. exists (Dict t'). split; [reflexivity|].
      assert (CC : forall k c, dget String.eqb t' k = Some c -> opt_within (fun q => K (k :: q)) (Some c) /\ wf_data c).
      { intros k c G. specialize (A3 k). destruct (dget String.eqb d k) as [v|] eqn:D.
        - destruct A3 as (c' & B1 & B2). destruct (CH k v D) as (c2 & C1 & C2 & C3 & _). rewrite B1 in C1. rewrite B2 in G.
          injection C1 as <-. injection G as <-. auto.
        - rewrite A3 in G. split; [|exact (wf_child _ _ _ W0 G)]. intros q b H. apply KT0. rewrite kind_cons, G. exact H. }
      split; [|split].
      + intros [|k q] b H; [cbn in H; injection H as <-; exact K0|]. rewrite kind_cons in H. destruct (dget String.eqb t' k) as [c|] eqn:G; [|discriminate].
        exact (proj1 (CC k c G) q b H).
      + apply wf_dict; [apply A2; exact (wf_keys _ W0)|]. intros k c G. exact (proj2 (CC k c G)).
      + intros [|k p].
        * cbn. unfold opt_leaf. destruct target as [[l|c]|]; try reflexivity. exfalso. specialize (KT [] true eq_refl). congruence.
        * rewrite (L0 (k :: p)) by discriminate. rewrite !leaf_cons. specialize (A3 k). destruct (dget String.eqb d k) as [v|] eqn:D.
          -- destruct A3 as (c & B1 & B2). rewrite B2. destruct (CH k v D) as (c2 & C1 & _ & _ & C4). rewrite B1 in C1. injection C1 as <-.
             rewrite C4. unfold opt_leaf. reflexivity.
          -- rewrite A3. reflexivity.
  Qed.

  (** The values of the examples for a key path. *)
  Definition value_or_missing (d : list (string * data (leaf V))) p : leaf V :=
    match leaf_at (Dict d) p with Some v => v | None => missing end.

  Lemma set_nth_app {A} (l1 l2 : list A) x y : set_nth (l1 ++ x :: l2) (length l1) y = l1 ++ y :: l2.
  Proof. induction l1 as [|a l1 IH]; [reflexivity|]. cbn. rewrite IH. reflexivity. Qed.

  Lemma merge_all_ok (es : list (list (string * data (leaf V)))) K : K [] = Some false ->
    Forall (fun d => wf_data (Dict d) /\ opt_within K (Some (Dict d))) es ->
    exists t, foldM (fun t ie => merge_with_lists (length es) (fst ie) (Dict (snd ie)) (Some t)) (combine (seq 0 (length es)) es) (Dict []) = Ok t /\
      wf_data t /\
      forall p l, leaf_at t p = Some l <->
        (exists d v, In d es /\ leaf_at (Dict d) p = Some v) /\ l = map (fun d => value_or_missing d p) es.
  Proof.
    intros K0 F.
    assert (G : forall post pre t, es = pre ++ post -> wf_data t -> opt_within K (Some t) ->
      (forall p, leaf_at t p = if existsb (fun d => match leaf_at (Dict d) p with Some _ => true | None => false end) pre
                               then Some (map (fun d => value_or_missing d p) pre ++ repeat missing (length post)) else None) ->
      exists t', foldM (fun t ie => merge_with_lists (length es) (fst ie) (Dict (snd ie)) (Some t)) (combine (seq (length pre) (length post)) post) t = Ok t' /\
        wf_data t' /\ forall p, leaf_at t' p = if existsb (fun d => match leaf_at (Dict d) p with Some _ => true | None => false end) es
                               then Some (map (fun d => value_or_missing d p) es) else None).
    { induction post as [|d post IH]; intros pre t E W KT H.
      - exists t. split; [reflexivity|]. split; [exact W|]. intros p. rewrite H, E, app_nil_r. cbn [length repeat]. rewrite app_nil_r. reflexivity.
      - cbn [length seq combine foldM fst snd].
        assert (I : In d es) by (rewrite E; apply in_or_app; right; left; reflexivity).
        rewrite Forall_forall in F. destruct (F d I) as [Wd Kd].
        destruct (merge_with_ok (length es) (length pre) (Dict d) K (Some t) Wd Kd KT) as (t1 & A1 & A2 & A3 & A4).
        { intros t2 Q. injection Q as <-. exact W. }
        rewrite A1. cbn [bind]. destruct (IH (pre ++ [d]) t1) as (t' & B1 & B2 & B3).
        + rewrite <- app_assoc. exact E.
        + exact A3.
        + exact A2.
        + intros p. rewrite A4. cbn [opt_leaf]. rewrite H, existsb_app. cbn [existsb]. rewrite map_app. cbn [map].
          assert (VD : value_or_missing d p = match leaf_at (Dict d) p with Some v => v | None => missing end) by reflexivity.
          rewrite VD. clear VD. destruct (leaf_at (Dict d) p) as [v|] eqn:Lv.
          * rewrite orb_true_r. f_equal. destruct (existsb _ pre) eqn:X.
            -- cbn [length repeat]. rewrite <- app_assoc. cbn [app].
               pose proof (set_nth_app (map (fun d => value_or_missing d p) pre) (repeat missing (length post)) missing v) as S0. rewrite map_length in S0. exact S0.
            -- assert (M : map (fun d => value_or_missing d p) pre = repeat missing (length pre)).
               { clear -X. induction pre as [|a pre IH]; [reflexivity|]. cbn [existsb] in X. apply orb_false_iff in X. destruct X as [X1 X2].
                 cbn [map length repeat]. rewrite (IH X2). f_equal. unfold value_or_missing. destruct (leaf_at (Dict a) p); [discriminate|reflexivity]. }
               rewrite M, E, app_length. cbn [length]. rewrite repeat_app. cbn [repeat].
               pose proof (set_nth_app (repeat (@missing V) (length pre)) (repeat missing (length post)) missing v) as S0. rewrite repeat_length in S0.
               rewrite S0, <- app_assoc. reflexivity.
          * rewrite !orb_false_r. destruct (existsb _ pre); [|reflexivity]. f_equal. cbn [length repeat]. rewrite <- app_assoc. reflexivity.
        + exists t'. split; [|split; [exact B2|exact B3]]. rewrite app_length in B1. cbn [length] in B1. rewrite Nat.add_1_r in B1. exact B1. }
    destruct (G es [] (Dict []) eq_refl) as (t & A1 & A2 & A3).
    - apply wf_nil.
    - intros [|k q] b H; [cbn in H; injection H as <-; exact K0|discriminate].
    - intros [|k p]; reflexivity.
    - exists t. split; [exact A1|]. split; [exact A2|]. intros p l. rewrite A3.
      destruct (existsb _ es) eqn:X.
      + apply existsb_exists in X. destruct X as (d & I & X). destruct (leaf_at (Dict d) p) as [v|] eqn:L; [|discriminate]. split.
        * intros H. injection H as <-. split; [|reflexivity]. exists d, v. auto.
        * intros [_ ->]. reflexivity.
      + split; [discriminate|]. intros [(d & v & I & L) _]. exfalso.
        assert (Y : existsb (fun d => match leaf_at (Dict d) p with Some _ => true | None => false end) es = true).
        { apply existsb_exists. exists d. split; [exact I|]. rewrite L. reflexivity. }
        congruence.
  Qed.

  Definition merge_dict_loop sq := fix go (l : list (string * data (list (leaf V)))) : res (list (string * data (leaf V))) :=
    match l with
    | [] => Ok []
    | (k, e) :: t => let! v := wrap (merge_lists sq e) in let! r := go t in Ok ((k, v) :: r)
    end.

  Lemma merge_lists_ok sq (t : data (list (leaf V))) : wf_data t -> (forall p l, leaf_at t p = Some l -> exists v, merge_leaf sq l = Ok v) ->
    exists e, merge_lists sq t = Ok e /\ wf_data e /\
      forall p, match leaf_at t p with
                | Some l => exists v, merge_leaf sq l = Ok v /\ leaf_at e p = Some v
                | None => leaf_at e p = None
                end.
  Proof.
    induction t as [l|d F] using data_induction; intros W H.
    - destruct (H [] l eq_refl) as [v E]. exists (Leaf v). cbn [merge_lists]. rewrite E. cbn [bind]. split; [reflexivity|]. split; [apply wf_leaf|].
      intros [|k p]; cbn; [exists v; auto|reflexivity].
    - assert (CH : forall k c, In (k, c) d -> exists e, merge_lists sq c = Ok e /\ wf_data e /\
         forall p, match leaf_at c p with Some l => exists v, merge_leaf sq l = Ok v /\ leaf_at e p = Some v | None => leaf_at e p = None end).
      { intros k c I. pose proof (proj2 (dget_In_NoDup _ String.eqb_eq d k c (wf_keys _ W)) I) as G. rewrite Forall_forall in F.
        apply (F (k, c) I); [exact (wf_child _ _ _ W G)|]. intros p l L. apply (H (k :: p)). rewrite leaf_cons, G. exact L. }
      assert (LP : exists r, merge_dict_loop sq d = Ok r /\ map fst r = map fst d /\
         forall k, match dget String.eqb d k with
                   | Some c => exists e, merge_lists sq c = Ok e /\ dget String.eqb r k = Some e
                   | None => dget String.eqb r k = None
                   end).
      { clear F W H. induction d as [|[k c] d IH].
        - exists []. repeat apply conj; reflexivity.
        - destruct (CH k c (or_introl eq_refl)) as (e & E & _). destruct IH as (r & R1 & R2 & R3).
          { intros k' c' I. exact (CH k' c' (or_intror I)). }
          exists ((k, e) :: r). cbn [merge_dict_loop]. rewrite E. cbn [wrap bind]. rewrite R1. cbn [bind map fst]. split; [reflexivity|]. split; [congruence|].
          intros k'. cbn [dget]. destruct (String.eqb k' k) eqn:Q; [exists e; auto|]. exact (R3 k'). }
      destruct LP as (r & R1 & R2 & R3). exists (Dict r). cbn [merge_lists].
      change (match merge_dict_loop sq d with Ok l => Ok (Dict l) | Err x => Err x end = Ok (Dict r) /\ wf_data (Dict r) /\
         forall p, match leaf_at (Dict d) p with Some l => exists v, merge_leaf sq l = Ok v /\ leaf_at (Dict r) p = Some v | None => leaf_at (Dict r) p = None end).
      rewrite R1. split; [reflexivity|]. split.
      + apply wf_dict; [rewrite R2; exact (wf_keys _ W)|]. intros k e G. specialize (R3 k). destruct (dget String.eqb d k) as [c|] eqn:D; [|congruence].
        destruct R3 as (e' & E1 & E2). rewrite E2 in G. injection G as ->. destruct (CH k c (dget_In _ String.eqb_eq _ _ _ D)) as (e2 & B1 & B2 & _).
        rewrite E1 in B1. injection B1 as <-. exact B2.
      + intros [|k p]; [reflexivity|]. rewrite !leaf_cons. specialize (R3 k). destruct (dget String.eqb d k) as [c|] eqn:D; [|rewrite R3; reflexivity].
        destruct R3 as (e' & E1 & E2). rewrite E2. destruct (CH k c (dget_In _ String.eqb_eq _ _ _ D)) as (e2 & B1 & _ & B3).
        rewrite E1 in B1. injection B1 as <-. exact (B3 p).
  Qed.

  Lemma merge_extracts_ok sq (es : list (list (string * data (leaf V)))) K : K [] = Some false ->
    Forall (fun d => wf_data (Dict d) /\ opt_within K (Some (Dict d))) es ->
    (forall p, (exists d v, In d es /\ leaf_at (Dict d) p = Some v) -> exists v, merge_leaf sq (map (fun d => value_or_missing d p) es) = Ok v) ->
    exists e, merge_extracts es sq = Ok e /\ wf_data e /\
      forall p v, leaf_at e p = Some v <->
        (exists d w, In d es /\ leaf_at (Dict d) p = Some w) /\ merge_leaf sq (map (fun d => value_or_missing d p) es) = Ok v.
  Proof.
    intros K0 F H. destruct (merge_all_ok es K K0 F) as (t & A1 & A2 & A3). unfold merge_extracts. rewrite A1. cbn [bind].
    destruct (merge_lists_ok sq t A2) as (e & B1 & B2 & B3).
    { intros p l L. apply A3 in L. destruct L as [L ->]. exact (H p L). }
    exists e. split; [exact B1|]. split; [exact B2|]. intros p v. specialize (B3 p). destruct (leaf_at t p) as [l|] eqn:L.
    - apply A3 in L. destruct L as [L ->]. destruct B3 as (x & X1 & X2). split.
      + intros Q. split; [exact L|]. congruence.
      + intros [_ Q]. congruence.
    - split; [congruence|]. intros [X _]. assert (Y : leaf_at t p = Some (map (fun d => value_or_missing d p) es)) by (apply A3; auto). congruence.
  Qed.

End Merge.

(** A batch of [n] examples: dictionaries of values for [n] examples each, not all None. *)

Definition batch {V} (n : nat) (e : list (string * data (leaf V))) : Prop :=
  wf_data (Dict e) /\ (forall p v, leaf_at (Dict e) p = Some v -> sized n v) /\
  exists p v, leaf_at (Dict e) p = Some v /\ v <> PyNone.

Lemma C128_split_gives_examples_partial_pf : forall (V : Type) n (e : list (string * data (leaf V))) keep_batch_dim expand_zero_dims,
  batch n e ->
  exists rs, split_extracts e keep_batch_dim expand_zero_dims = Ok rs /\ length rs = n /\
    forall i d, nth_error rs i = Some d ->
      (forall p v, leaf_at (Dict e) p = Some v ->
         exists w, leaf_at (Dict d) p = Some w /\ example_of keep_batch_dim expand_zero_dims i v w) /\
      (forall p w, leaf_at (Dict d) p = Some w -> exists v, leaf_at (Dict e) p = Some v).
Proof.
  intros V n e keep expand (W & Z & p0 & v0 & L0 & N0).
  destruct (split_extracts_ok keep expand n e W) as (rs & E & L & H).
  { intros p v Lv N. destruct (split_ok keep expand n v (Z p v Lv) N) as (vs & A & B & _). exists vs. auto. }
  { exists p0, v0. split; [exact L0|]. destruct v0; [reflexivity|reflexivity|reflexivity|congruence]. }
  exists rs. split; [exact E|]. split; [exact L|]. intros i d Hd. destruct (H i d Hd) as (_ & _ & Hl). split.
  - intros p v Lv. destruct (is_none v) eqn:N.
    + destruct v; try discriminate. exists PyNone. split; [|exact I]. apply Hl. exists PyNone. auto.
    + destruct (split_ok keep expand n v (Z p v Lv) N) as (vs & A & B & C).
      assert (Hi : i < n) by (rewrite <- L; apply nth_error_Some; congruence).
      destruct (nth_error vs i) as [w|] eqn:X; [|apply nth_error_None in X; lia].
      exists w. split; [|exact (C i w X)]. apply Hl. exists v. split; [exact Lv|]. right. split; [exact N|]. exists vs. auto.
  - intros p w Lw. apply Hl in Lw. destruct Lw as (v & Lv & _). exists v. exact Lv.
Qed.

Lemma C128_empty_rows_are_lost_refuted_pf : exists (e : list (string * data (leaf nat))) t rs,
  leaf_at (Dict e) ["tags"] = Some (Var t) /\ from_dense_rows [Arr [0] []; Arr [0] []] = Ok t /\
  batch_size (Dict e) = Ok (Some 2) /\
  split_extracts e false true = Ok rs /\ length rs = 2 /\
  forall d, In d rs -> leaf_at (Dict d) ["tags"] = None.
Proof.
  exists [("x", Leaf (Dense (Arr [2] [4; 5]))); ("tags", Leaf (Var (VarLen [] [] [2; 0])))], (VarLen [] [] [2; 0]).
  exists [[("x", Leaf (Dense (Arr [1] [4])))]; [("x", Leaf (Dense (Arr [1] [5])))]].
  repeat apply conj; try reflexivity. intros d [<-|[<-|[]]]; reflexivity.
Qed.

Definition sample_batch : list (string * data (leaf nat)) :=
  [("features", Dict [("a", Leaf (Dense (Arr [2; 2] [1; 2; 3; 4])));
                      ("tags", Leaf (Var (VarLen [7; 8] [(1, 0); (1, 1)] [2; 2])))]);
   ("labels", Leaf (Dense (Arr [2] [5; 6])));
   ("weights", Leaf PyNone);
   ("s", Leaf (Sparse (SparseT [9; 10] [[0; 3]; [1; 1]] [2; 4])))].

Lemma sample_wf : wf_data (Dict sample_batch).
Proof.
  apply wf_dict; [repeat (constructor; [cbn; intuition discriminate|]); constructor|].
  intros k c H. apply (dget_In _ String.eqb_eq) in H. cbn in H.
  destruct H as [H|[H|[H|[H|[]]]]]; injection H as <- <-; try apply wf_leaf.
  apply wf_dict; [repeat (constructor; [cbn; intuition discriminate|]); constructor|].
  intros k c H. apply (dget_In _ String.eqb_eq) in H. cbn in H. destruct H as [H|[H|[]]]; injection H as <- <-; apply wf_leaf.
Qed.

Lemma sample_ok : batch 2 sample_batch.
Proof.
  split; [exact sample_wf|]. split.
  - intros p v H. apply In_leaves in H; [|exact sample_wf]. cbn in H.
    destruct H as [H|[H|[H|[H|[H|[]]]]]]; injection H as <- <-; cbn [sized].
    + split; [reflexivity|]. exists [2]. reflexivity.
    + repeat apply conj; try reflexivity; [discriminate|]. exists 2. reflexivity.
    + split; [reflexivity|]. exists []. reflexivity.
    + exact I.
    + split; [reflexivity|]. exists [4]. split; [reflexivity|]. repeat constructor.
  - exists ["labels"], (Dense (Arr [2] [5; 6])). split; [reflexivity|discriminate].
Qed.

(** Batches whose variable length values have rows of different lengths, and whose sparse
    values are listed example by example. *)

Definition regular_batch {V} (n : nat) (e : list (string * data (leaf V))) : Prop :=
  wf_data (Dict e) /\ (forall p v, leaf_at (Dict e) p = Some v -> regular n v) /\
  exists p v, leaf_at (Dict e) p = Some v /\ v <> PyNone.

Section RoundTrip.
  Context {V : Type}.

  Lemma map_values (rs : list (list (string * data (leaf V)))) p vs : length rs = length vs ->
    (forall i d w, nth_error rs i = Some d -> nth_error vs i = Some w -> leaf_at (Dict d) p = Some w) ->
    map (fun d => value_or_missing d p) rs = vs.
  Proof.
    revert vs. induction rs as [|d rs IH]; intros [|w vs] L H; try discriminate; [reflexivity|]. cbn [map]. f_equal.
    - unfold value_or_missing. rewrite (H 0 d w eq_refl eq_refl). reflexivity.
    - apply IH; [injection L as L; exact L|]. intros i d' w' Hd Hw. exact (H (S i) d' w' Hd Hw).
  Qed.

  Lemma merge_none sq n : 1 <= n -> merge_leaf sq (repeat (@PyNone V) n) = Ok PyNone.
  Proof.
    intros H. destruct n as [|n]; [lia|]. cbn [repeat]. unfold merge_leaf. cbn [all_dense fold_right].
    replace (forallb is_none (PyNone :: repeat (@PyNone V) n)) with true; [reflexivity|].
    symmetry. apply forallb_forall. intros x [<-|I]; [reflexivity|]. apply repeat_spec in I. subst x. reflexivity.
  Qed.

  Lemma round_trip expand sq (f : leaf V -> leaf V) n e : 1 <= n -> wf_data (Dict e) ->
    (forall p v, leaf_at (Dict e) p = Some v -> is_none v = false ->
       exists vs, split_leaf false expand v = Ok vs /\ length vs = n /\ merge_leaf sq vs = Ok (f v)) ->
    f PyNone = PyNone ->
    (exists p v, leaf_at (Dict e) p = Some v /\ v <> PyNone) ->
    exists rs e', split_extracts e false expand = Ok rs /\ merge_extracts rs sq = Ok e' /\ length rs = n /\
      forall p, leaf_at e' p = option_map f (leaf_at (Dict e) p).
  Proof.
    intros P W H FN (p0 & v0 & L0 & N0).
    destruct (split_extracts_ok false expand n e W) as (rs & E & L & Hs).
    { intros p v Lv N. destruct (H p v Lv N) as (vs & A & B & _). exists vs. auto. }
    { exists p0, v0. split; [exact L0|]. destruct v0; [reflexivity|reflexivity|reflexivity|congruence]. }
    exists rs.
    assert (VA : forall p v, leaf_at (Dict e) p = Some v -> merge_leaf sq (map (fun d => value_or_missing d p) rs) = Ok (f v)).
    { intros p v Lv. destruct (is_none v) eqn:N.
      - destruct v; try discriminate. rewrite FN, (map_values rs p (repeat PyNone n)); [apply merge_none; exact P|rewrite repeat_length; exact L|].
        intros i d w Hd Hw. destruct (Hs i d Hd) as (_ & _ & Hl). apply Hl. exists PyNone. split; [exact Lv|]. left. split; [reflexivity|].
        apply nth_error_In, repeat_spec in Hw. exact Hw.
      - destruct (H p v Lv N) as (vs & A & B & C). rewrite (map_values rs p vs); [exact C|congruence|].
        intros i d w Hd Hw. destruct (Hs i d Hd) as (_ & _ & Hl). apply Hl. exists v. split; [exact Lv|]. right. split; [exact N|]. exists vs. auto. }
    assert (PA : forall p, (exists d w, In d rs /\ leaf_at (Dict d) p = Some w) <-> exists v, leaf_at (Dict e) p = Some v).
    { intros p. split.
      - intros (d & w & I & Lw). apply In_nth_error in I. destruct I as [i Hd]. destruct (Hs i d Hd) as (_ & _ & Hl). apply Hl in Lw.
        destruct Lw as (v & Lv & _). exists v. exact Lv.
      - intros (v & Lv). destruct rs as [|d rs]; [cbn in L; lia|]. exists d. destruct (Hs 0 d eq_refl) as (_ & _ & Hl).
        destruct (is_none v) eqn:N.
        + destruct v; try discriminate. exists PyNone. split; [left; reflexivity|]. apply Hl. exists PyNone. auto.
        + destruct (H p v Lv N) as (vs & A & B & C). destruct vs as [|w vs]; [cbn in B; lia|]. exists w. split; [left; reflexivity|].
          apply Hl. exists v. split; [exact Lv|]. right. split; [exact N|]. exists (w :: vs). auto. }
    destruct (merge_extracts_ok sq rs (kind_at (Dict e)) eq_refl) as (e' & M1 & _ & M3).
    { apply Forall_forall. intros d I. apply In_nth_error in I. destruct I as [i Hd]. destruct (Hs i d Hd) as (A & B & _). split; [exact A|exact B]. }
    { intros p X. apply PA in X. destruct X as [v Lv]. exists (f v). exact (VA p v Lv). }
    exists e'. split; [exact E|]. split; [exact M1|]. split; [exact L|]. intros p. destruct (leaf_at (Dict e) p) as [v|] eqn:Lv; cbn [option_map].
    - apply M3. split; [apply PA; exists v; exact Lv|]. exact (VA p v Lv).
    - destruct (leaf_at e' p) as [x|] eqn:X; [|reflexivity]. apply M3 in X. destruct X as [X _]. apply PA in X. destruct X as [v X]. congruence.
  Qed.

End RoundTrip.

Lemma C129_split_merge_round_trip_partial_pf : forall (V : Type) n (e : list (string * data (leaf V))),
  1 <= n -> regular_batch n e ->
  exists rs e', split_extracts e false false = Ok rs /\ merge_extracts rs false = Ok e' /\ length rs = n /\
    forall p, leaf_at e' p = leaf_at (Dict e) p.
Proof.
  intros V n e P (W & R & X).
  destruct (round_trip false false (fun v => v) n e P W) as (rs & e' & A & B & C & D); [|reflexivity|exact X|].
  - intros p v Lv N. destruct (leaf_round n v (R p v Lv) N P) as (vs & A & B). exists vs.
    destruct (split_ok false false n v (regular_sized n v (R p v Lv)) N) as (vs' & A' & L & _). split; [exact A|]. split; [|exact B]. congruence.
  - exists rs, e'. repeat apply conj; try assumption. intros p. rewrite D. destruct (leaf_at (Dict e) p); reflexivity.
Qed.

Lemma C129_default_options_partial_pf : forall (V : Type) n (e : list (string * data (leaf V))),
  1 <= n -> regular_batch n e ->
  exists rs e', split_extracts e false true = Ok rs /\ merge_extracts rs true = Ok e' /\ length rs = n /\
    forall p, leaf_at e' p = match leaf_at (Dict e) p with
                             | Some (Dense (Arr [m; 1] l)) => Some (Dense (Arr [m] l))
                             | v => v
                             end.
Proof.
  intros V n e P (W & R & X).
  destruct (round_trip true true (fun v => match v with Dense a => Dense (flatten_column a) | _ => v end) n e P W) as (rs & e' & A & B & C & D); [|reflexivity|exact X|].
  - intros p v Lv N. destruct (leaf_round_default n v (R p v Lv) N P) as (vs & A & B). exists vs.
    destruct (split_ok false true n v (regular_sized n v (R p v Lv)) N) as (vs' & A' & L & _). split; [exact A|]. split; [|exact B]. congruence.
  - exists rs, e'. repeat apply conj; try assumption. intros p. rewrite D. destruct (leaf_at (Dict e) p) as [[[s l]|t|s|]|]; try reflexivity.
    cbn [option_map]. unfold flatten_column. cbn [shape items]. destruct s as [|m [|[|[|k]] [|q s]]]; reflexivity.
Qed.

Lemma C129_equal_rows_become_dense_refuted_pf : exists (e : list (string * data (leaf nat))) t rs e',
  from_dense_rows [Arr [2] [1; 2]; Arr [2] [3; 4]] = Ok t /\ leaf_at (Dict e) ["x"] = Some (Var t) /\
  split_extracts e false false = Ok rs /\ merge_extracts rs false = Ok e' /\
  leaf_at e' ["x"] = Some (Dense (Arr [2; 2] [1; 2; 3; 4])).
Proof.
  exists [("x", Leaf (Var (VarLen [1; 2; 3; 4] [(0, 0); (0, 1); (1, 0); (1, 1)] [2; 2])))].
  eexists _, _, _. repeat apply conj; reflexivity.
Qed.

Section MergeSplit.
  Context {V : Type}.

  Lemma rows_round (rows : list (arr V)) : 1 <= length rows -> Forall one_dim rows ->
    exists v, merge_leaf true (map Dense rows) = Ok v /\ is_none v = false /\ split_leaf false true v = Ok (map Dense rows).
  Proof.
    intros P F. destruct rows as [|a t]; [cbn in P; lia|].
    destruct (existsb (fun b => negb (nats_eqb (shape b) (shape a))) t) eqn:X.
    - apply existsb_exists in X. destruct X as (b & I & X). apply negb_true_iff in X.
      assert (D : shape b <> shape a). { intros C. apply nats_eqb_eq in C. congruence. }
      rewrite (merge_rows true (a :: t) b a F (or_intror I) (or_introl eq_refl) D).
      destruct (from_rows_ok (a :: t) F) as [m M]. rewrite M. cbn [bind]. eexists. split; [reflexivity|]. split; [reflexivity|].
      cbn [split_leaf]. rewrite rows_of_entries; [|exact F|exact (rows_not_empty (a :: t) b a F (or_intror I) (or_introl eq_refl) D)].
      cbn [bind]. f_equal. apply map_ext_in. intros r Ir. rewrite Forall_forall in F. specialize (F r Ir). destruct r as [s l]. unfold one_dim in F. cbn in F. subst s. reflexivity.
    - assert (S1 : Forall (fun b => shape b = shape a) (a :: t)).
      { constructor; [reflexivity|]. apply Forall_forall. intros b I. destruct (nats_eqb (shape b) (shape a)) eqn:Y; [apply nats_eqb_eq; exact Y|].
        assert (Z : existsb (fun b => negb (nats_eqb (shape b) (shape a))) t = true) by (apply existsb_exists; exists b; rewrite Y; auto). congruence. }
      rewrite (merge_same true (length (a :: t)) (shape a) (a :: t) eq_refl P S1). eexists. split; [reflexivity|]. split; [reflexivity|].
      inversion F as [|? ? Fa Ft]; subst. pose proof Fa as Fa'. unfold one_dim in Fa'. set (m := length (items a)) in *.
      assert (LM : forall b, In b (a :: t) -> b = Arr [m] (items b) /\ length (items b) = m).
      { intros b I. rewrite Forall_forall in F, S1. specialize (F b I). specialize (S1 b I). unfold one_dim in F. rewrite S1, Fa' in F.
        injection F as F. split; [|congruence]. destruct b as [s l]. cbn in *. congruence. }
      assert (RW : forall rest, product rest = m -> map (fun i => items (row_of rest (concat (map items (a :: t))) i)) (seq 0 (length (a :: t))) = map items (a :: t)).
      { intros rest PR. cbn [row_of items]. rewrite PR. clear -LM.
        assert (G : forall l k pre, (forall b, In b l -> length (items b) = m) -> length pre = k * m ->
           map (fun i => firstn m (skipn (i * m) (pre ++ concat (map items l)))) (seq k (length l)) = map (@items V) l).
        { induction l as [|b l IH]; intros k pre H Lp; [reflexivity|]. cbn [length seq map concat]. f_equal.
          - rewrite skipn_app, Lp, Nat.sub_diag, skipn_all2 by lia. cbn [skipn app]. rewrite firstn_app, (H b (or_introl eq_refl)), Nat.sub_diag. cbn [firstn].
            rewrite app_nil_r, firstn_all2 by (rewrite (H b (or_introl eq_refl)); lia). reflexivity.
          - rewrite app_assoc. apply IH; [intros c Ic; apply H; right; exact Ic|]. rewrite app_length, Lp, (H b (or_introl eq_refl)). cbn. lia. }
        apply (G (a :: t) 0 []); [|reflexivity]. intros b I. exact (proj2 (LM b I)). }
      assert (MR : forall g : list V -> leaf V, (forall b, In b (a :: t) -> g (items b) = Dense b) -> map g (map items (a :: t)) = map Dense (a :: t)).
      { intros g H. rewrite map_map. apply map_ext_in. exact H. }
      rewrite Fa'. destruct (Nat.eq_dec m 1) as [M1|M1].
      + rewrite M1. cbn [split_leaf shape]. f_equal. rewrite map_map.
        etransitivity; [|apply (MR (fun l => Dense (Arr [1] l)))].
        * etransitivity; [|apply f_equal, (RW []); cbn; congruence]. rewrite map_map. apply map_ext. intros i. reflexivity.
        * intros b I. destruct (LM b I) as [Eb _]. rewrite Eb at 2. rewrite M1. reflexivity.
      + replace (match [m] with [1] => [length (a :: t)] | _ => length (a :: t) :: [m] end) with [length (a :: t); m] by (destruct m as [|[|m]]; congruence).
        cbn [split_leaf shape]. f_equal. rewrite map_map.
        etransitivity; [|apply (MR (fun l => Dense (Arr [m] l)))].
        * etransitivity; [|apply f_equal, (RW [m]); cbn; lia]. rewrite map_map. apply map_ext. intros i. reflexivity.
        * intros b I. destruct (LM b I) as [Eb _]. rewrite Eb at 2. reflexivity.
  Qed.

End MergeSplit.

(** Examples that agree on which key paths hold dictionaries. *)

Definition same_structure {V} (es : list (list (string * data (leaf V)))) : Prop :=
  forall d d' p b b', In d es -> In d' es -> kind_at (Dict d) p = Some b -> kind_at (Dict d') p = Some b' -> b = b'.

Lemma C130_merge_split_round_trip_pf : forall (V : Type) (es : list (list (string * data (leaf V)))),
  (forall d, In d es -> wf_data (Dict d)) -> same_structure es ->
  (forall d p v, In d es -> leaf_at (Dict d) p = Some v -> exists l, v = Dense (Arr [length l] l)) ->
  (exists d p v, In d es /\ leaf_at (Dict d) p = Some v) ->
  exists e rs, merge_extracts es true = Ok (Dict e) /\ split_extracts e false true = Ok rs /\ length rs = length es /\
    forall i d r, nth_error es i = Some d -> nth_error rs i = Some r ->
      forall p, leaf_at (Dict r) p =
        if existsb (fun d' => match leaf_at (Dict d') p with Some _ => true | None => false end) es
        then Some (match leaf_at (Dict d) p with Some v => v | None => Dense (Arr [0] []) end)
        else None.
Proof.
  intros V es W SS A (d0 & p0 & v0 & I0 & L0).
  set (K := fun q => match find (fun d => match kind_at (Dict d) q with Some _ => true | None => false end) es with
                     | Some d => kind_at (Dict d) q | None => None end).
  assert (KK : forall d q b, In d es -> kind_at (Dict d) q = Some b -> K q = Some b).
  { intros d q b I H. unfold K. destruct (find _ es) as [d'|] eqn:Fd.
    - apply find_some in Fd. destruct Fd as [I' Q]. destruct (kind_at (Dict d') q) as [b'|] eqn:Kd; [|discriminate]. f_equal. symmetry. exact (SS d d' q b b' I I' H Kd).
    - exfalso. apply (find_none _ _ Fd) in I. rewrite H in I. discriminate. }
  assert (P : 1 <= length es) by (destruct es; [destruct I0|cbn; lia]).
  assert (RV : forall p, exists rows, map (fun d => value_or_missing d p) es = map Dense rows /\ Forall one_dim rows /\ length rows = length es).
  { intros p. clear -A. induction es as [|d es IH]; [exists []; repeat apply conj; constructor|].
    destruct IH as (rows & E & F & L). { intros d' q v I. apply A. right. exact I. }
    assert (X : exists a, value_or_missing d p = Dense a /\ one_dim a).
    { unfold value_or_missing. destruct (leaf_at (Dict d) p) as [v|] eqn:Lv.
      - destruct (A d p v (or_introl eq_refl) Lv) as [l ->]. exists (Arr [length l] l). split; reflexivity.
      - exists (Arr [0] []). split; reflexivity. }
    destruct X as (a & X1 & X2). exists (a :: rows). cbn [map length]. rewrite X1, E. repeat apply conj; [reflexivity|constructor; assumption|congruence]. }
  destruct (merge_extracts_ok true es K) as (e & M1 & M2 & M3).
  { exact (KK d0 [] false I0 eq_refl). }
  { apply Forall_forall. intros d I. split; [exact (W d I)|]. intros q b. exact (KK d q b I). }
  { intros p _. destruct (RV p) as (rows & E & F & L). destruct (rows_round rows) as (v & R1 & _); [congruence|exact F|]. exists v. rewrite E. exact R1. }
  assert (LE : forall p v, leaf_at e p = Some v -> is_none v = false /\ split_leaf false true v = Ok (map (fun d => value_or_missing d p) es)).
  { intros p v Lv. apply M3 in Lv. destruct Lv as [_ Lv]. destruct (RV p) as (rows & E & F & L). destruct (rows_round rows) as (v' & R1 & R2 & R3); [congruence|exact F|].
    rewrite E in *. rewrite R1 in Lv. injection Lv as <-. auto. }
  assert (V0 : exists v, leaf_at e p0 = Some v).
  { destruct (RV p0) as (rows & E & F & L). destruct (rows_round rows) as (v' & R1 & _); [congruence|exact F|]. exists v'. apply M3. split; [exists d0, v0; auto|]. rewrite E. exact R1. }
  destruct V0 as [v1 L1].
  destruct e as [x|e]. { exfalso. destruct p0 as [|k p0]; [discriminate|]. discriminate. }
  exists e. destruct (split_extracts_ok false true (length es) e M2) as (rs & S1 & S2 & S3).
  { intros p v Lv _. destruct (LE p v Lv) as [_ Q]. eexists. split; [exact Q|]. apply map_length. }
  { exists p0, v1. split; [exact L1|]. exact (proj1 (LE p0 v1 L1)). }
  exists rs. split; [exact M1|]. split; [exact S1|]. split; [exact S2|]. intros i d r Hd Hr p. destruct (S3 i r Hr) as (_ & _ & Hl).
  change (match leaf_at (Dict d) p with Some v => v | None => Dense (Arr [0] []) end) with (value_or_missing d p).
  destruct (existsb _ es) eqn:X.
  - apply existsb_exists in X. destruct X as (d' & I' & X). destruct (leaf_at (Dict d') p) as [w|] eqn:Lw; [|discriminate].
    assert (VP : exists v, leaf_at (Dict e) p = Some v).
    { destruct (RV p) as (rows & E & F & L). destruct (rows_round rows) as (v' & R1 & _); [congruence|exact F|]. exists v'. apply M3. split; [exists d', w; auto|]. rewrite E. exact R1. }
    destruct VP as [v Lv]. apply Hl. exists v. split; [exact Lv|]. right. destruct (LE p v Lv) as [N Q]. split; [exact N|]. eexists. split; [exact Q|].
    rewrite nth_error_map, Hd. reflexivity.
  - destruct (leaf_at (Dict r) p) as [w|] eqn:Lw; [|reflexivity]. apply Hl in Lw. destruct Lw as (v & Lv & _). apply M3 in Lv. destruct Lv as [(d' & w' & I' & Lw') _].
    exfalso. assert (Y : existsb (fun d' => match leaf_at (Dict d') p with Some _ => true | None => false end) es = true) by (apply existsb_exists; exists d'; rewrite Lw'; auto). congruence.
Qed.

(** The first dimension of a value: the number of examples it holds. *)

Definition first_dim {V} (v : leaf V) : nat :=
  match v with
  | Dense a => hd 0 (shape a)
  | Var t => hd 0 (vl_shape t)
  | Sparse s => hd 0 (sp_shape s)
  | PyNone => 0
  end.

Section Size.
  Context {V : Type}.

  Definition size_loop := fix go (l : list (string * data (leaf V))) result :=
    match l with
    | [] => Ok result
    | (_, e) :: t => let! sz := batch_size e in
                     match sz, result with
                     | None, _ => go t result
                     | Some n, None => go t (Some n)
                     | Some n, Some m => if Nat.eqb n m then go t result else Err ValueError
                     end
    end.
  Lemma batch_size_dict d : batch_size (Dict d) = size_loop d None.
  Proof. reflexivity. Qed.

  (** what is found out about a tree or a list of trees whose values are given by [M] *)
  Definition sizes (M : leaf V -> Prop) (r : res (option nat)) : Prop :=
    match r with
    | Ok (Some n) => (exists v, M v /\ v <> PyNone) /\ forall v, M v -> v <> PyNone -> first_dim v = n
    | Ok None => forall v, M v -> v = PyNone
    | Err x => x = ValueError /\ exists v w, M v /\ M w /\ v <> PyNone /\ w <> PyNone /\ first_dim v <> first_dim w
    end.

  Lemma sizes_ext (M N : leaf V -> Prop) r : (forall v, M v <-> N v) -> sizes M r -> sizes N r.
  Proof.
    intros E. destruct r as [[n|]|x]; cbn.
    - intros [(v & A & B) H]. split; [exists v; split; [apply E; exact A|exact B]|]. intros w Hw. apply H. apply E. exact Hw.
    - intros H v Hv. apply H, E, Hv.
    - intros (X & v & w & A & B & C). split; [exact X|]. exists v, w. split; [apply E; exact A|]. split; [apply E; exact B|exact C].
  Qed.

  Lemma size_loop_ok d : Forall (fun kv => sizes (fun v => exists p, leaf_at (snd kv) p = Some v) (batch_size (snd kv))) d ->
    forall (M : leaf V -> Prop) result, sizes M (Ok result) ->
    sizes (fun v => M v \/ exists k c p, In (k, c) d /\ leaf_at c p = Some v) (size_loop d result).
  Proof.
    induction d as [|[k c] d IH]; intros F M result HM.
    - cbn [size_loop]. revert HM. apply sizes_ext. intros v. split; [auto|]. intros [H|(k & c & p & [] & _)]; exact H.
    - inversion F as [|? ? F1 F2]; subst. cbn [snd] in F1. cbn [size_loop]. destruct (batch_size c) as [[n|]|x] eqn:B; cbn [bind].
      + assert (NX : forall r, sizes (fun v => M v \/ exists p, leaf_at c p = Some v) (Ok r) ->
                   sizes (fun v => M v \/ exists k0 c0 p, In (k0, c0) ((k, c) :: d) /\ leaf_at c0 p = Some v) (size_loop d r)).
        { intros r H. generalize (IH F2 _ r H). apply sizes_ext. intros v. split.
          - intros [[H1|[p H1]]|(k0 & c0 & p & I & H1)]; [left; exact H1|right; exists k, c, p; cbn; auto|right; exists k0, c0, p; cbn; auto].
          - intros [H1|(k0 & c0 & p & [I|I] & H1)]; [auto|injection I as <- <-; left; right; exists p; exact H1|right; exists k0, c0, p; auto]. }
        destruct F1 as [(v1 & (p1 & L1) & N1) F1]. destruct result as [m|].
        * destruct HM as [(v & Hv & Nv) HM]. destruct (Nat.eqb n m) eqn:E.
          -- apply Nat.eqb_eq in E. subst m. apply NX. split; [exists v; auto|]. intros w [Hw|(p & Hw)] Nw; [exact (HM w Hw Nw)|].
             apply F1; [exists p; exact Hw|exact Nw].
          -- apply Nat.eqb_neq in E. split; [reflexivity|]. exists v1, v. split; [right; exists k, c, p1; cbn; auto|].
             split; [left; exact Hv|]. split; [exact N1|]. split; [exact Nv|]. rewrite (HM v Hv Nv), (F1 v1 (ex_intro _ p1 L1) N1). exact E.
        * apply NX. split; [exists v1; split; [right; exists p1; exact L1|exact N1]|]. intros w [Hw|(p & Hw)] Nw; [specialize (HM w Hw); contradiction|].
          apply F1; [exists p; exact Hw|exact Nw].
      + assert (H : sizes (fun v => M v \/ exists p, leaf_at c p = Some v) (Ok result)).
        { cbn [sizes] in F1. destruct result as [m|]; cbn [sizes] in *.
          - destruct HM as [(v & Hv & Nv) HM]. split; [exists v; auto|]. intros w [Hw|Hw] Nw; [exact (HM w Hw Nw)|specialize (F1 w Hw); contradiction].
          - intros w [Hw|Hw]; [exact (HM w Hw)|exact (F1 w Hw)]. }
        generalize (IH F2 _ result H). apply sizes_ext. intros v. split.
        * intros [[H1|[p H1]]|(k0 & c0 & p & I & H1)]; [left; exact H1|right; exists k, c, p; cbn; auto|right; exists k0, c0, p; cbn; auto].
        * intros [H1|(k0 & c0 & p & [I|I] & H1)]; [auto|injection I as <- <-; left; right; exists p; exact H1|right; exists k0, c0, p; auto].
      + destruct F1 as (X & v & w & (p & Hv) & (q & Hw) & R). split; [exact X|]. exists v, w. split; [right; exists k, c, p; cbn; auto|].
        split; [right; exists k, c, q; cbn; auto|exact R].
  Qed.

  Lemma batch_size_ok (e : data (leaf V)) : wf_data e -> sizes (fun v => exists p, leaf_at e p = Some v) (batch_size e).
  Proof.
    induction e as [v|d IH] using data_induction; intros W.
    - cbn [batch_size]. destruct v as [a|t|s|]; cbn [leaf_size sizes].
      + split; [exists (Dense a); split; [exists []; reflexivity|discriminate]|]. intros v ([|k p] & H) _; [|discriminate]. injection H as <-.
        cbn. destruct (shape a); reflexivity.
      + split; [exists (Var t); split; [exists []; reflexivity|discriminate]|]. intros v ([|k p] & H) _; [|discriminate]. injection H as <-.
        cbn. destruct (vl_shape t); reflexivity.
      + split; [exists (Sparse s); split; [exists []; reflexivity|discriminate]|]. intros v ([|k p] & H) _; [|discriminate]. injection H as <-.
        cbn. destruct (sp_shape s); reflexivity.
      + intros v ([|k p] & H); [injection H as <-; reflexivity|discriminate].
    - rewrite batch_size_dict.
      assert (F : Forall (fun kv => sizes (fun v => exists p, leaf_at (snd kv) p = Some v) (batch_size (snd kv))) d).
      { rewrite Forall_forall in *. intros [k c] I. apply (IH (k, c) I). cbn [snd]. apply (wf_child d k c W). apply (dget_In_NoDup _ String.eqb_eq d k c (wf_keys _ W)). exact I. }
      generalize (size_loop_ok d F (fun _ => False) None). intros H.
      assert (H0 : sizes (fun _ => False) (Ok None)) by (intros v []). specialize (H H0). revert H. apply sizes_ext. intros v. split.
      + intros [[]|(k & c & p & I & L)]. exists (k :: p). rewrite leaf_cons. apply (dget_In_NoDup _ String.eqb_eq d k c (wf_keys _ W)) in I. rewrite I. exact L.
      + intros ([|k p] & L); [discriminate|]. rewrite leaf_cons in L. destruct (dget String.eqb d k) as [c|] eqn:G; [|discriminate]. right. exists k, c, p.
        split; [apply (dget_In _ String.eqb_eq); exact G|exact L].
  Qed.

End Size.

Lemma C131_batch_size_pf : forall (V : Type) (e : data (leaf V)), wf_data e ->
  match batch_size e with
  | Ok (Some n) => (exists p v, leaf_at e p = Some v /\ v <> PyNone) /\
                   forall p v, leaf_at e p = Some v -> v <> PyNone -> first_dim v = n
  | Ok None => forall p v, leaf_at e p = Some v -> v = PyNone
  | Err x => x = ValueError /\
             exists p v q w, leaf_at e p = Some v /\ leaf_at e q = Some w /\ v <> PyNone /\ w <> PyNone /\ first_dim v <> first_dim w
  end.
Proof.
  intros V e W. generalize (batch_size_ok e W). destruct (batch_size e) as [[n|]|x]; cbn [sizes].
  - intros [(v & (p & L) & N) H]. split; [exists p, v; auto|]. intros q w Lw. apply H. exists q. exact Lw.
  - intros H p v L. apply H. exists p. exact L.
  - intros (X & v & w & (p & L) & (q & Lw) & R). split; [exact X|]. exists p, v, q, w. auto.
Qed.

Lemma C131_size_is_number_of_examples_pf : forall (V : Type) n (e : list (string * data (leaf V))) keep_batch_dim expand_zero_dims rs,
  batch n e -> split_extracts e keep_batch_dim expand_zero_dims = Ok rs -> batch_size (Dict e) = Ok (Some (length rs)).
Proof.
  intros V n e keep expand rs B E. destruct (C128_split_gives_examples_partial_pf V n e keep expand B) as (rs' & E' & L & _).
  rewrite E in E'. injection E' as <-. rewrite L. destruct B as (W & Z & p0 & v0 & L0 & N0).
  assert (FD : forall p v, leaf_at (Dict e) p = Some v -> v <> PyNone -> first_dim v = n).
  { intros p v Lv N. specialize (Z p v Lv). destruct v as [a|t|s|]; cbn [sized first_dim] in *; [..|congruence].
    - destruct Z as [_ [rest ->]]. reflexivity.
    - destruct Z as (_ & _ & _ & m & ->). reflexivity.
    - destruct Z as (_ & rest & -> & _). reflexivity. }
  generalize (C131_batch_size_pf V (Dict e) W). destruct (batch_size (Dict e)) as [[m|]|x].
  - intros [_ H]. rewrite <- (H p0 v0 L0 N0), (FD p0 v0 L0 N0). reflexivity.
  - intros H. elim N0. exact (H p0 v0 L0).
  - intros (_ & p & v & q & w & A & B & C & D & F). elim F. rewrite (FD p v A C), (FD q w B D). reflexivity.
Qed.

Section Unbatch.
  Context {V : Type}.
  Implicit Types m : list (string * entry V).

  Lemma dget_combine (k : string) (rows : list (list (string * data (leaf V)))) l i :
    nth_error (map (fun rv => dset String.eqb (fst rv) k (snd rv)) (combine rows l)) i =
    match nth_error rows i, nth_error l i with Some r, Some v => Some (dset String.eqb r k v) | _, _ => None end.
  Proof.
    revert l i. induction rows as [|r rows IH]; intros [|v l] [|i]; cbn; try reflexivity; [destruct (nth_error rows i); reflexivity|]. apply IH.
  Qed.

  Definition frame_step := fun df (kv : string * entry V) =>
    match snd kv with Legacy l => add_column df (fst kv) l | Batched _ => Ok df end.
  Definition frame (df : option (list (list (string * data (leaf V))))) := match df with Some rows => rows | None => [] end.

  Lemma frame_ok n m : NoDup (map fst m) -> (forall k l, In (k, Legacy l) m -> length l = n) ->
    forall df, (forall rows, df = Some rows -> length rows = n) ->
    exists df', foldM frame_step m df = Ok df' /\
      (forall rows, df' = Some rows -> length rows = n /\ forall i r, nth_error rows i = Some r ->
         forall k, dget String.eqb r k = match dget String.eqb m k with
                                         | Some (Legacy l) => nth_error l i
                                         | _ => match nth_error (frame df) i with Some r0 => dget String.eqb r0 k | None => None end
                                         end) /\
      (df' = None <-> df = None /\ forall k l, ~ In (k, Legacy l) m).
  Proof.
    induction m as [|[k e] m IH]; intros N H df D.
    - exists df. split; [reflexivity|]. split.
      + intros rows E. split; [exact (D rows E)|]. intros i r R k. subst df. cbn [frame dget]. rewrite R. reflexivity.
      + split; [intros E; split; [exact E|intros k l []]|intros [E _]; exact E].
    - inversion N as [|? ? N1 N2]; subst. cbn [map fst] in N1. cbn [foldM]. unfold frame_step at 1. cbn [fst snd]. destruct e as [l|e].
      + assert (Ll : length l = n) by (apply (H k l); left; reflexivity).
        assert (X : exists rows1, add_column df k l = Ok (Some rows1) /\ length rows1 = n /\
                  forall i r, nth_error rows1 i = Some r -> forall k', dget String.eqb r k' =
                    if String.eqb k' k then nth_error l i else match nth_error (frame df) i with Some r0 => dget String.eqb r0 k' | None => None end).
        { destruct df as [rows|]; cbn [add_column frame].
          - specialize (D rows eq_refl). replace (Nat.eqb (length rows) (length l)) with true by (symmetry; apply Nat.eqb_eq; congruence).
            eexists. split; [reflexivity|]. split; [rewrite map_length, combine_length; lia|]. intros i r R k'. rewrite dget_combine in R.
            destruct (nth_error rows i) as [r0|]; [|discriminate]. destruct (nth_error l i) as [v|]; [|discriminate]. injection R as <-.
            rewrite (dget_dset _ String.eqb_eq). destruct (String.eqb k' k); reflexivity.
          - eexists. split; [reflexivity|]. split; [rewrite map_length; exact Ll|]. intros i r R k'. rewrite nth_error_map in R.
            destruct (nth_error l i) as [v|]; [|discriminate]. injection R as <-. cbn [dget]. destruct (String.eqb k' k); [reflexivity|]. destruct i; reflexivity. }
        destruct X as (rows1 & X1 & X2 & X3). rewrite X1. cbn [bind].
        destruct (IH N2 (fun k' l' I => H k' l' (or_intror I)) (Some rows1)) as (df' & A & B & C). { intros rows E. injection E as <-. exact X2. }
        exists df'. split; [exact A|]. split.
        * intros rows E. destruct (B rows E) as [B1 B2]. split; [exact B1|]. intros i r R k'. rewrite (B2 i r R k'). cbn [frame dget].
          assert (Hi : i < n) by (rewrite <- B1; apply nth_error_Some; congruence).
          destruct (nth_error rows1 i) as [r1|] eqn:R1; [|apply nth_error_None in R1; lia]. rewrite (X3 i r1 R1 k').
          destruct (String.eqb k' k) eqn:K; [|reflexivity]. apply String.eqb_eq in K. subst k'.
          assert (G : dget String.eqb m k = None) by (apply (dget_None _ String.eqb_eq); exact N1). rewrite G. reflexivity.
        * split; [intros E; apply C in E; destruct E; discriminate|]. intros [E1 E2]. elim (E2 k l). left. reflexivity.
      + cbn [bind]. destruct (IH N2 (fun k' l' I => H k' l' (or_intror I)) df D) as (df' & A & B & C).
        exists df'. split; [exact A|]. split.
        * intros rows E. destruct (B rows E) as [B1 B2]. split; [exact B1|]. intros i r R k'. rewrite (B2 i r R k'). cbn [dget].
          destruct (String.eqb k' k) eqn:K; [|reflexivity]. apply String.eqb_eq in K. subst k'.
          assert (G : dget String.eqb m k = None) by (apply (dget_None _ String.eqb_eq); exact N1). rewrite G. reflexivity.
        * rewrite C. split; intros [E1 E2]; (split; [exact E1|]); intros k' l'; [intros [I|I]; [discriminate|exact (E2 k' l' I)]|intros I; exact (E2 k' l' (or_intror I))].
  Qed.

  Definition batched_part m : list (string * data (leaf V)) :=
    flat_map (fun kv => match snd kv with Batched e => [(fst kv, e)] | Legacy _ => [] end) m.
  Lemma dget_batched m k : NoDup (map fst m) ->
    dget String.eqb (batched_part m) k = match dget String.eqb m k with Some (Batched e) => Some e | _ => None end.
  Proof.
    induction m as [|[k0 e0] m IH]; intros N; [reflexivity|]. inversion N as [|? ? N1 N2]; subst. cbn [map fst] in N1.
    cbn [batched_part flat_map fst snd]. fold (batched_part m). destruct e0 as [l|e0]; cbn [app dget].
    - rewrite (IH N2). destruct (String.eqb k k0) eqn:K; [|reflexivity]. apply String.eqb_eq in K. subst k0.
      apply (dget_None _ String.eqb_eq) in N1. rewrite N1. reflexivity.
    - destruct (String.eqb k k0); [reflexivity|]. exact (IH N2).
  Qed.
  Lemma batched_keys m : NoDup (map fst m) -> NoDup (map fst (batched_part m)).
  Proof.
    induction m as [|[k0 e0] m IH]; intros N; [constructor|]. inversion N as [|? ? N1 N2]; subst. cbn [map fst] in N1.
    cbn [batched_part flat_map fst snd]. fold (batched_part m). destruct e0 as [l|e0]; cbn [app map fst]; [exact (IH N2)|].
    constructor; [|exact (IH N2)]. intros I. apply N1. apply in_map_iff in I. destruct I as ([k e] & <- & I). apply in_flat_map in I.
    destruct I as ([k1 e1] & I1 & I2). cbn [fst snd] in I2. destruct e1 as [l|e1]; [destruct I2|]. destruct I2 as [I2|[]]. injection I2 as <- <-.
    apply in_map_iff. exists (k1, Batched e1). auto.
  Qed.
  Lemma kept_keys m f : NoDup (map fst m) -> NoDup (map fst (filter f m)).
  Proof.
    induction m as [|x m IH]; intros N; [constructor|]. inversion N as [|? ? N1 N2]; subst. cbn [filter]. destruct (f x); [|exact (IH N2)].
    cbn [map]. constructor; [|exact (IH N2)]. intros I. apply N1. apply in_map_iff in I. destruct I as (y & E & I). apply filter_In in I. apply in_map_iff. exists y. tauto.
  Qed.
  Lemma dget_kept m k : dget String.eqb (filter (fun kv => negb (String.eqb (fst kv) ARROW_RECORD_BATCH_KEY)) m) k =
    if String.eqb k ARROW_RECORD_BATCH_KEY then None else dget String.eqb m k.
  Proof.
    induction m as [|[k0 e0] m IH]; [destruct (String.eqb k ARROW_RECORD_BATCH_KEY); reflexivity|]. cbn [filter fst dget].
    destruct (String.eqb k0 ARROW_RECORD_BATCH_KEY) eqn:K0; cbn [negb].
    - rewrite IH. destruct (String.eqb k ARROW_RECORD_BATCH_KEY) eqn:K; [reflexivity|]. destruct (String.eqb k k0) eqn:E; [|reflexivity].
      apply String.eqb_eq in E. congruence.
    - cbn [dget]. rewrite IH. destruct (String.eqb k k0) eqn:E; [|reflexivity]. apply String.eqb_eq in E. subst k0. rewrite K0. reflexivity.
  Qed.
  Lemma dget_dupdate (a b : list (string * data (leaf V))) k : NoDup (map fst b) ->
    dget String.eqb (dupdate String.eqb a b) k = match dget String.eqb b k with Some v => Some v | None => dget String.eqb a k end.
  Proof.
    unfold dupdate. revert a. induction b as [|[k0 v0] b IH]; intros a N; [reflexivity|]. inversion N as [|? ? N1 N2]; subst. cbn [map fst] in N1.
    cbn [fold_left fst snd dget]. rewrite (IH _ N2), (dget_dset _ String.eqb_eq). destruct (String.eqb k k0) eqn:E.
    - apply String.eqb_eq in E. subst k0. apply (dget_None _ String.eqb_eq) in N1. rewrite N1. reflexivity.
    - reflexivity.
  Qed.
  Lemma nth_update (a b : list (list (string * data (leaf V)))) i :
    nth_error (map (fun lu => dupdate String.eqb (fst lu) (snd lu)) (combine a b)) i =
    match nth_error a i, nth_error b i with Some x, Some y => Some (dupdate String.eqb x y) | _, _ => None end.
  Proof.
    revert b i. induction a as [|r a IH]; intros [|v b] [|i]; cbn; try reflexivity; [destruct (nth_error a i); reflexivity|]. apply IH.
  Qed.

End Unbatch.

(** A mixed extract of [n] examples, with at least one batched value. *)

Definition mixed_batch {V} (n : nat) (m : list (string * entry V)) : Prop :=
  NoDup (map fst m) /\
  (forall k l, In (k, Legacy l) m -> k <> "arrow_record_batch" -> length l = n) /\
  (forall k e, In (k, Batched e) m -> k <> "arrow_record_batch" ->
     wf_data e /\ forall p v, leaf_at e p = Some v -> sized n v) /\
  exists k e p v, In (k, Batched e) m /\ k <> "arrow_record_batch" /\ leaf_at e p = Some v /\ v <> PyNone.

Lemma C132_unbatching_pf : forall (V : Type) n (m : list (string * entry V)), 1 <= n -> mixed_batch n m ->
  exists rs, extract_unbatched_inputs m = Ok rs /\ length rs = n /\
    forall i d, nth_error rs i = Some d ->
      dget String.eqb d "arrow_record_batch" = None /\
      (forall k, dget String.eqb m k = None -> dget String.eqb d k = None) /\
      forall k en, In (k, en) m -> k <> "arrow_record_batch" ->
        match en with
        | Legacy l => dget String.eqb d k = nth_error l i
        | Batched e => (forall p v, leaf_at e p = Some v ->
                          exists w, leaf_at (Dict d) (k :: p) = Some w /\ example_of false true i v w) /\
                       (forall p w, leaf_at (Dict d) (k :: p) = Some w -> exists v, leaf_at e p = Some v)
        end.
Proof.
  intros V n m P (N & HL & HB & k0 & e0 & p0 & v0 & I0 & K0 & L0 & V0).
  unfold extract_unbatched_inputs. set (kept := filter (fun kv : string * entry V => negb (String.eqb (fst kv) ARROW_RECORD_BATCH_KEY)) m).
  assert (NK : NoDup (map fst kept)) by (apply kept_keys; exact N).
  assert (IK : forall k en, In (k, en) kept <-> In (k, en) m /\ k <> "arrow_record_batch").
  { intros k en. unfold kept. rewrite filter_In. cbn [fst]. rewrite negb_true_iff, String.eqb_neq. reflexivity. }
  assert (GK : forall k en, In (k, en) kept <-> dget String.eqb kept k = Some en) by (intros k en; symmetry; apply (dget_In_NoDup _ String.eqb_eq); exact NK).
  destruct (frame_ok n kept NK) with (df := @None (list (list (string * data (leaf V))))) as (df & F1 & F2 & F3).
  { intros k l I. apply IK in I. exact (HL k l (proj1 I) (proj2 I)). } { discriminate. }
  change (foldM _ kept None) with (foldM frame_step kept None). rewrite F1. cbn [bind]. fold (batched_part kept). fold (frame df).
  assert (GB : forall k, dget String.eqb (batched_part kept) k = match dget String.eqb kept k with Some (Batched e) => Some e | _ => None end)
    by (intros k; apply dget_batched; exact NK).
  assert (WB : wf_data (Dict (batched_part kept))).
  { apply wf_dict; [apply batched_keys; exact NK|]. intros k c G. rewrite GB in G. destruct (dget String.eqb kept k) as [[l|e]|] eqn:D; try discriminate.
    injection G as <-. apply GK, IK in D. exact (proj1 (HB k e (proj1 D) (proj2 D))). }
  assert (B : batch n (batched_part kept)).
  { split; [exact WB|]. split.
    - intros [|k p] v L; [discriminate|]. rewrite leaf_cons, GB in L. destruct (dget String.eqb kept k) as [[l|e]|] eqn:D; try discriminate.
      apply GK, IK in D. exact (proj2 (HB k e (proj1 D) (proj2 D)) p v L).
    - exists (k0 :: p0), v0. split; [|exact V0]. rewrite leaf_cons, GB. replace (dget String.eqb kept k0) with (Some (Batched e0)); [exact L0|].
      symmetry. apply GK, IK. auto. }
  destruct (C128_split_gives_examples_partial_pf V n _ false true B) as (us & U1 & U2 & U3).
  destruct (split_extracts_ok false true n (batched_part kept) WB) as (us' & U1' & _ & U3').
  { intros p v Lv Nv. destruct B as (_ & Z & _). destruct (split_ok false true n v (Z p v Lv) Nv) as (vs & A1 & A2 & _). exists vs. auto. }
  { destruct B as (_ & _ & p & v & L & Nv). exists p, v. split; [exact L|]. destruct v; [reflexivity|reflexivity|reflexivity|congruence]. }
  rewrite U1 in U1'. injection U1' as <-. rewrite U1. cbn [bind].
  assert (UN : forall i u, nth_error us i = Some u -> forall k, (forall e, dget String.eqb kept k <> Some (Batched e)) -> dget String.eqb u k = None).
  { intros i u Hu k H. destruct (U3' i u Hu) as (_ & Wi & _). destruct (dget String.eqb u k) as [c|] eqn:G; [|reflexivity]. exfalso.
    assert (Y : exists b, kind_at (Dict u) [k] = Some b). { rewrite kind_cons, G. destruct c; cbn; eauto. }
    destruct Y as [b Y]. apply Wi in Y. rewrite kind_cons, GB in Y. destruct (dget String.eqb kept k) as [[l|e]|]; try discriminate. exact (H e eq_refl). }
  assert (AR : forall e, dget String.eqb kept "arrow_record_batch" <> Some e). { intros e G. apply GK, IK in G. destruct G as [_ G]. congruence. }
  assert (SN : forall k, dget String.eqb m k = None -> dget String.eqb kept k = None).
  { intros k G. unfold kept. rewrite dget_kept, G. destruct (String.eqb k ARROW_RECORD_BATCH_KEY); reflexivity. }
  assert (NE : us <> []) by (intros ->; cbn in U2; lia).
  destruct (frame df) as [|row rows] eqn:FR.
  - exists us. split; [destruct us; [congruence|reflexivity]|]. split; [exact U2|]. intros i u Hu. split; [apply (UN i u Hu); intros e; apply AR|].
    split; [intros k G; apply (UN i u Hu); intros e; rewrite (SN k G); discriminate|]. intros k en I K.
    assert (IK' : In (k, en) kept) by (apply IK; auto). destruct en as [l|e].
    + exfalso. destruct df as [rows|]; cbn [frame] in FR.
      * subst rows. destruct (F2 [] eq_refl) as [F2' _]. cbn in F2'. lia.
      * destruct F3 as [F3 _]. destruct (F3 eq_refl) as [_ F3']. exact (F3' k l IK').
    + apply GK in IK'. destruct (U3 i u Hu) as [H1 H2]. split.
      * intros p v L. apply H1. rewrite leaf_cons, GB, IK'. exact L.
      * intros p w L. apply H2 in L. destruct L as [v L]. exists v. rewrite leaf_cons, GB, IK' in L. exact L.
  - destruct df as [rows'|]; [|discriminate]. cbn [frame] in FR. subst rows'. destruct (F2 _ eq_refl) as [F2a F2b].
    assert (LE : Nat.eqb (length us) (length (row :: rows)) = true) by (apply Nat.eqb_eq; congruence).
    eexists. split; [destruct us; [congruence|]; rewrite LE; reflexivity|]. split; [rewrite map_length, combine_length; lia|].
    intros i d Hd. rewrite nth_update in Hd. destruct (nth_error (row :: rows) i) as [r|] eqn:Hr; [|discriminate].
    destruct (nth_error us i) as [u|] eqn:Hu; [|discriminate]. injection Hd as <-.
    assert (Wu : NoDup (map fst u)). { destruct (U3' i u Hu) as (Wu & _). exact (wf_keys _ Wu). }
    assert (RW : forall k, dget String.eqb r k = match dget String.eqb kept k with Some (Legacy l) => nth_error l i | _ => None end).
    { intros k. rewrite (F2b i r Hr k). cbn [frame]. destruct (dget String.eqb kept k) as [[l|e]|]; [reflexivity| |]; destruct i; reflexivity. }
    split; [|split].
    + rewrite dget_dupdate by exact Wu. rewrite (UN i u Hu), RW by (intros e; apply AR).
      destruct (dget String.eqb kept "arrow_record_batch") as [e|] eqn:G; [elim (AR e eq_refl)|reflexivity].
    + intros k G. rewrite dget_dupdate by exact Wu. rewrite RW, (SN k G), (UN i u Hu); [reflexivity|]. intros e. rewrite (SN k G). discriminate.
    + intros k en I K. assert (IK' : In (k, en) kept) by (apply IK; auto). apply GK in IK'. destruct en as [l|e].
      * rewrite dget_dupdate by exact Wu. rewrite (UN i u Hu), RW, IK' by (intros e; rewrite IK'; discriminate). reflexivity.
      * destruct (U3 i u Hu) as [H1 H2].
        assert (X : forall p, leaf_at (Dict (dupdate String.eqb r u)) (k :: p) = leaf_at (Dict u) (k :: p)).
        { intros p. rewrite !leaf_cons, dget_dupdate by exact Wu. rewrite RW, IK'. destruct (dget String.eqb u k); reflexivity. }
        split.
        -- intros p v L. rewrite X. apply H1. rewrite leaf_cons, GB, IK'. exact L.
        -- intros p w L. rewrite X in L. apply H2 in L. destruct L as [v L]. exists v. rewrite leaf_cons, GB, IK' in L. exact L.
Qed.

Lemma C132_columns_only_pf : forall (V : Type) n (m : list (string * entry V)), 1 <= n ->
  NoDup (map fst m) -> (forall k en, In (k, en) m -> k <> "arrow_record_batch" -> exists l, en = Legacy l /\ length l = n) ->
  (exists k en, In (k, en) m /\ k <> "arrow_record_batch") ->
  exists rs, extract_unbatched_inputs m = Ok rs /\ length rs = n /\
    forall i d, nth_error rs i = Some d -> forall k,
      dget String.eqb d k = if String.eqb k "arrow_record_batch" then None
                            else match dget String.eqb m k with Some (Legacy l) => nth_error l i | _ => None end.
Proof.
  intros V n m P N H (k0 & en0 & I0 & K0). unfold extract_unbatched_inputs.
  set (kept := filter (fun kv : string * entry V => negb (String.eqb (fst kv) ARROW_RECORD_BATCH_KEY)) m).
  assert (NK : NoDup (map fst kept)) by (apply kept_keys; exact N).
  assert (IK : forall k en, In (k, en) kept <-> In (k, en) m /\ k <> "arrow_record_batch").
  { intros k en. unfold kept. rewrite filter_In. cbn [fst]. rewrite negb_true_iff, String.eqb_neq. reflexivity. }
  destruct (frame_ok n kept NK) with (df := @None (list (list (string * data (leaf V))))) as (df & F1 & F2 & F3).
  { intros k l I. apply IK in I. destruct (H k (Legacy l) (proj1 I) (proj2 I)) as (l' & E & L). congruence. } { discriminate. }
  change (foldM _ kept None) with (foldM frame_step kept None). rewrite F1. cbn [bind]. fold (batched_part kept). fold (frame df).
  assert (BE : batched_part kept = []).
  { destruct (batched_part kept) as [|[k e] t] eqn:E; [reflexivity|]. exfalso. assert (I : In (k, e) (batched_part kept)) by (rewrite E; left; reflexivity).
    apply in_flat_map in I. destruct I as ([k1 e1] & I1 & I2). cbn [fst snd] in I2. apply IK in I1. destruct (H k1 e1 (proj1 I1) (proj2 I1)) as (l & -> & _). exact I2. }
  rewrite BE. assert (SE : split_extracts (@nil (string * data (leaf V))) false true = Ok []) by reflexivity. rewrite SE. cbn [bind].
  destruct df as [rows|].
  - exists rows. destruct (F2 rows eq_refl) as [F2a F2b]. split; [reflexivity|]. split; [exact F2a|]. intros i d Hd k. rewrite (F2b i d Hd k). cbn [frame].
    unfold kept. rewrite dget_kept. change ARROW_RECORD_BATCH_KEY with "arrow_record_batch". destruct (String.eqb k "arrow_record_batch"); [destruct i; reflexivity|].
    destruct (dget String.eqb m k) as [[l|e]|]; [reflexivity|destruct i; reflexivity|destruct i; reflexivity].
  - exfalso. destruct F3 as [F3 _]. destruct (F3 eq_refl) as [_ F3']. destruct (H k0 en0 I0 K0) as (l & -> & _). apply (F3' k0 l). apply IK. auto.
Qed.

(** Lists of different lengths are refused. *)

Lemma add_columns_same {V} kept : forall (df df' : option (list (list (string * data (leaf V))))),
  foldM (fun df kv => match snd kv with Legacy l => add_column df (fst kv) l | Batched _ => Ok df end) kept df = Ok df' ->
  match df with
  | Some rows => forall k l, In (k, Legacy l) kept -> length l = length rows
  | None => forall k l k' l', In (k, Legacy l) kept -> In (k', Legacy l') kept -> length l = length l'
  end.
Proof.
  induction kept as [|[k [l|b]] kept IH]; intros df df' H; cbn [foldM] in H.
  - destruct df; intros; contradiction.
  - cbn [fst snd] in H. destruct df as [rows|]; cbn [add_column bind] in H.
    + destruct (Nat.eqb (length rows) (length l)) eqn:E; [|discriminate]. cbn [bind] in H. apply Nat.eqb_eq in E. apply IH in H. cbn beta iota in H.
      intros k' l' [J|J]; [injection J as <- <-; auto|]. rewrite (H k' l' J), map_length, combine_length. lia.
    + apply IH in H. cbn beta iota in H. rewrite map_length in H. intros k1 l1 k2 l2 [J1|J1] [J2|J2].
      * injection J1 as <- <-. injection J2 as <- <-. reflexivity.
      * injection J1 as <- <-. symmetry. apply (H k2 l2 J2).
      * injection J2 as <- <-. apply (H k1 l1 J1).
      * rewrite (H k1 l1 J1), (H k2 l2 J2). reflexivity.
  - cbn [fst snd bind] in H. apply IH in H. destruct df as [rows|].
    + intros k' l' [J|J]; [discriminate|]. apply (H k' l' J).
    + intros k1 l1 k2 l2 [J1|J1] [J2|J2]; try discriminate. apply (H k1 l1 k2 l2 J1 J2).
Qed.

Lemma C132_unequal_columns_refused_pf : forall (V : Type) (m : list (string * entry V)) k l k' l',
  In (k, Legacy l) m -> k <> "arrow_record_batch" -> In (k', Legacy l') m -> k' <> "arrow_record_batch" ->
  length l <> length l' -> is_ok (extract_unbatched_inputs m) = false.
Proof.
  intros V m k l k' l' I1 K1 I2 K2 NE. unfold extract_unbatched_inputs.
  set (kept := filter (fun kv : string * entry V => negb (String.eqb (fst kv) ARROW_RECORD_BATCH_KEY)) m).
  assert (KEPT : forall k en, In (k, en) m -> k <> "arrow_record_batch" -> In (k, en) kept).
  { intros q en I K. apply filter_In. split; [exact I|]. cbn [fst]. unfold ARROW_RECORD_BATCH_KEY. apply String.eqb_neq in K. rewrite K. reflexivity. }
  destruct (foldM _ kept None) as [df|x] eqn:E; [|reflexivity]. exfalso. apply add_columns_same in E. cbn beta iota in E.
  apply NE. apply (E k l k' l'); auto.
Qed.

(** What lies under [q] once [value] was put under [path]: the rest of [q] is looked up in
    [value] if [q] starts with [path]. *)

Fixpoint rest_of (path q : list string) : option (list string) :=
  match path, q with
  | [], _ => Some q
  | k :: path, k' :: q => if String.eqb k' k then rest_of path q else None
  | _ :: _, [] => None
  end.

Definition looked_up {A} (root value : data A) (path q : list string) : option A :=
  match rest_of path q with Some r => leaf_at value r | None => leaf_at root q end.

(** No value is stored along the path (above its end). *)

Definition free {A} (root : data A) (path : list string) : Prop :=
  forall q k r, path = q ++ k :: r -> kind_at root q <> Some true.

Section SetPaths.
  Context {A : Type}.
  Implicit Types (root value : data A).

  Lemma free_cons (d : list (string * data A)) k k' t : free (Dict d) (k :: k' :: t) ->
    free (match dget String.eqb d k with None => Dict [] | Some c => c end) (k' :: t).
  Proof.
    intros F q x r E. destruct (dget String.eqb d k) as [c|] eqn:G.
    - specialize (F (k :: q) x r). cbn [app] in F. rewrite E in F. specialize (F eq_refl). rewrite kind_cons, G in F. exact F.
    - destruct q as [|y q]; [discriminate|]. rewrite kind_cons. discriminate.
  Qed.
  Lemma not_free (d : list (string * data A)) k k' t : ~ free (Dict d) (k :: k' :: t) ->
    ~ free (match dget String.eqb d k with None => Dict [] | Some c => c end) (k' :: t).
  Proof.
    intros N F. apply N. intros [|y q] x r E; [discriminate|]. cbn [app] in E. injection E as <- E. specialize (F q x r E).
    rewrite kind_cons. destruct (dget String.eqb d k); [exact F|discriminate].
  Qed.
  Lemma looked_child (d : list (string * data A)) k path value c q :
    (forall q', leaf_at c q' = looked_up (match dget String.eqb d k with None => Dict [] | Some c => c end) value path q') ->
    leaf_at (Dict (dset String.eqb d k c)) q = looked_up (Dict d) value (k :: path) q.
  Proof.
    intros H. destruct q as [|x q]; [reflexivity|]. rewrite leaf_cons, (dget_dset _ String.eqb_eq). unfold looked_up. cbn [rest_of].
    destruct (String.eqb x k) eqn:E.
    - apply String.eqb_eq in E. subst x. rewrite H. unfold looked_up. destruct (rest_of path q); [reflexivity|]. rewrite leaf_cons.
      destruct (dget String.eqb d k); [reflexivity|]. destruct q; reflexivity.
    - rewrite leaf_cons. reflexivity.
  Qed.
  Lemma looked_end (d : list (string * data A)) k value q :
    leaf_at (Dict (dset String.eqb d k value)) q = looked_up (Dict d) value [k] q.
  Proof.
    destruct q as [|x q]; [reflexivity|]. rewrite leaf_cons, (dget_dset _ String.eqb_eq). unfold looked_up. cbn [rest_of].
    destruct (String.eqb x k); [reflexivity|]. rewrite leaf_cons. reflexivity.
  Qed.

End SetPaths.

Lemma C133_copy_and_set_pf : forall (A : Type) (root value : data A) keypath, keypath <> [] ->
  (free root keypath -> exists r, copy_and_set_by_keys root keypath value = Ok r /\ at_path r keypath = Some value /\
     forall q, leaf_at r q = looked_up root value keypath q) /\
  (~ free root keypath -> copy_and_set_by_keys root keypath value = Err ValueError).
Proof.
  intros A root value keypath. revert root. induction keypath as [|k t IH]; intros root N; [congruence|]. clear N. destruct root as [v|d].
  - split; [intros F; elim (F [] k t eq_refl); reflexivity|]. intros _. destruct t; reflexivity.
  - destruct t as [|k' t].
    + split.
      * intros _. exists (Dict (dset String.eqb d k value)). split; [reflexivity|]. split; [|apply looked_end].
        cbn [at_path]. rewrite (dget_dset_eq _ String.eqb_eq). reflexivity.
      * intros NF. elim NF. intros [|y q] x r E; [discriminate|]. destruct q; discriminate.
    + specialize (IH (match dget String.eqb d k with None => Dict [] | Some c => c end)). destruct IH as [IH1 IH2]; [discriminate|]. split.
      * intros F. destruct (IH1 (free_cons d k k' t F)) as (c & E1 & E2 & E3). exists (Dict (dset String.eqb d k c)). split; [|split].
        -- change (copy_and_set_by_keys (Dict d) (k :: k' :: t) value) with
             (let! c := copy_and_set_by_keys (match dget String.eqb d k with None => Dict [] | Some c => c end) (k' :: t) value in Ok (Dict (dset String.eqb d k c))).
           rewrite E1. reflexivity.
        -- change (at_path (Dict (dset String.eqb d k c)) (k :: k' :: t)) with
             (match dget String.eqb (dset String.eqb d k c) k with Some c => at_path c (k' :: t) | None => None end).
           rewrite (dget_dset_eq _ String.eqb_eq). exact E2.
        -- intros q. apply looked_child. exact E3.
      * intros NF. change (copy_and_set_by_keys (Dict d) (k :: k' :: t) value) with
             (let! c := copy_and_set_by_keys (match dget String.eqb d k with None => Dict [] | Some c => c end) (k' :: t) value in Ok (Dict (dset String.eqb d k c))).
        rewrite (IH2 (not_free d k k' t NF)). reflexivity.
Qed.

(** The key path of a model and output. *)

Definition names (model_name output_name : option string) : list string :=
  (match model_name with Some m => [m] | None => [] end) ++ (match output_name with Some o => [o] | None => [] end).

Section Standard.
  Context {A : Type}.
  Implicit Types (e d : list (string * data A)).

  Lemma set_by_keys_ok root keys (value : data A) : keys <> [] -> free root keys ->
    exists r, set_by_keys root keys value = Ok r /\ at_path r keys = Some value /\ forall q, leaf_at r q = looked_up root value keys q.
  Proof.
    revert root. induction keys as [|k t IH]; intros root N F; [congruence|]. clear N. destruct root as [v|d].
    - elim (F [] k t eq_refl). reflexivity.
    - destruct t as [|k' t].
      + exists (Dict (dset String.eqb d k value)). split; [reflexivity|]. split; [|apply looked_end].
        cbn [at_path]. rewrite (dget_dset_eq _ String.eqb_eq). reflexivity.
      + specialize (IH (match dget String.eqb d k with None => Dict [] | Some c => c end)). destruct IH as (c & E1 & E2 & E3); [discriminate|exact (free_cons d k k' t F)|].
        exists (Dict (dset String.eqb d k c)). split; [|split].
        * change (set_by_keys (Dict d) (k :: k' :: t) value) with
            (match set_by_keys (match dget String.eqb d k with None => Dict [] | Some c => c end) (k' :: t) value with
             | Ok c => Ok (Dict (dset String.eqb d k c)) | Err _ => Err RuntimeError end). rewrite E1. reflexivity.
        * change (at_path (Dict (dset String.eqb d k c)) (k :: k' :: t)) with
            (match dget String.eqb (dset String.eqb d k c) k with Some c => at_path c (k' :: t) | None => None end).
          rewrite (dget_dset_eq _ String.eqb_eq). exact E2.
        * intros q. apply looked_child. exact E3.
  Qed.
  Lemma set_by_keys_err root keys (value : data A) : keys <> [] -> ~ free root keys ->
    exists x, set_by_keys root keys value = Err x /\ (forall d, root = Dict d -> x = RuntimeError).
  Proof.
    revert root. induction keys as [|k t IH]; intros root N F; [congruence|]. clear N. destruct root as [v|d].
    - exists ValueError. split; [reflexivity|discriminate].
    - destruct t as [|k' t].
      + elim F. intros [|y q] x r E; [discriminate|]. destruct q; discriminate.
      + specialize (IH (match dget String.eqb d k with None => Dict [] | Some c => c end)). destruct IH as (x & E1 & _); [discriminate|exact (not_free d k k' t F)|].
        exists RuntimeError. split; [|reflexivity].
        change (set_by_keys (Dict d) (k :: k' :: t) value) with
            (match set_by_keys (match dget String.eqb d k with None => Dict [] | Some c => c end) (k' :: t) value with
             | Ok c => Ok (Dict (dset String.eqb d k c)) | Err _ => Err RuntimeError end). rewrite E1. reflexivity.
  Qed.
  (** other keys of the extracts are as before *)
  Lemma set_by_keys_other d k t value r k' : set_by_keys (Dict d) (k :: t) value = Ok r -> k' <> k ->
    exists d', r = Dict d' /\ dget String.eqb d' k' = dget String.eqb d k'.
  Proof.
    intros E N. apply String.eqb_neq in N. destruct t as [|k2 t].
    - injection E as <-. eexists. split; [reflexivity|]. rewrite (dget_dset _ String.eqb_eq), N. reflexivity.
    - change (set_by_keys (Dict d) (k :: k2 :: t) value) with
            (match set_by_keys (match dget String.eqb d k with None => Dict [] | Some c => c end) (k2 :: t) value with
             | Ok c => Ok (Dict (dset String.eqb d k c)) | Err _ => Err RuntimeError end) in E.
      destruct (set_by_keys _ (k2 :: t) value) as [c|]; [|discriminate]. injection E as <-. eexists. split; [reflexivity|].
      rewrite (dget_dset _ String.eqb_eq), N. reflexivity.
  Qed.

  Lemma optionally_found d k v : dget String.eqb d k = Some v -> v <> Dict [] -> optionally_get_by_key (Some (Dict d)) k = Ok (Some v).
  Proof.
    intros G N. unfold optionally_get_by_key, get_by_keys. cbn [walk]. rewrite G. cbn [bind]. destruct v as [a|[|x l]]; [reflexivity|congruence|reflexivity].
  Qed.

  (** what is stored under the names of a model and an output is what is got *)
  Lemma get_by_key_stored e key m o v : at_path (Dict e) (key :: names m o) = Some v -> v <> Dict [] -> get_by_key e key m o = Ok (Some v).
  Proof.
    intros H N. unfold get_by_key. cbn [at_path] in H. destruct (dget String.eqb e key) as [c|]; [|discriminate].
    destruct m as [m|], o as [o|]; cbn [names app bind] in *.
    - destruct c as [a|d]; [discriminate|]. cbn [at_path] in H. destruct (dget String.eqb d m) as [c2|] eqn:G; [|discriminate].
      destruct c2 as [a|d2]; [discriminate|]. cbn [at_path] in H. destruct (dget String.eqb d2 o) as [c3|] eqn:G2; [|discriminate]. injection H as ->.
      rewrite (optionally_found d m (Dict d2) G) by (destruct d2; discriminate). cbn [bind]. exact (optionally_found d2 o v G2 N).
    - destruct c as [a|d]; [discriminate|]. cbn [at_path] in H. destruct (dget String.eqb d m) as [c2|] eqn:G; [|discriminate]. injection H as ->.
      rewrite (optionally_found d m v G N). reflexivity.
    - destruct c as [a|d]; [discriminate|]. cbn [at_path] in H. destruct (dget String.eqb d o) as [c2|] eqn:G; [|discriminate]. injection H as ->.
      exact (optionally_found d o v G N).
    - cbn [at_path] in H. injection H as ->. reflexivity.
  Qed.

End Standard.

(** Model and output names are not empty. *)

Definition named (n : option string) : Prop := n <> Some "".

Lemma C134_set_then_get_pf : forall (A : Type) (e : list (string * data A)) key value model_name output_name,
  named model_name -> named output_name ->
  (free (Dict e) (key :: names model_name output_name) ->
     exists e', set_by_key e key value model_name output_name = Ok (Dict e') /\
       (value <> Dict [] -> get_by_key e' key model_name output_name = Ok (Some value)) /\
       (forall k m o, k <> key -> get_by_key e' k m o = get_by_key e k m o) /\
       (forall q, leaf_at (Dict e') q = looked_up (Dict e) value (key :: names model_name output_name) q)) /\
  (~ free (Dict e) (key :: names model_name output_name) -> set_by_key e key value model_name output_name = Err RuntimeError).
Proof.
  intros A e key value m o Nm No.
  assert (E : set_by_key e key value m o = set_by_keys (Dict e) (key :: names m o) value).
  { unfold set_by_key, names. destruct m as [m|], o as [o|]; repeat match goal with
      | N : named (Some ?x) |- _ => assert (String.eqb x "" = false) by (apply String.eqb_neq; intros ->; apply N; reflexivity); clear N end;
      repeat match goal with H : String.eqb _ _ = false |- _ => rewrite H; clear H end; reflexivity. }
  rewrite E. split.
  - intros F. destruct (set_by_keys_ok (Dict e) (key :: names m o) value) as (r & R1 & R2 & R3); [discriminate|exact F|].
    destruct r as [a|e']; [discriminate|]. exists e'. split; [exact R1|]. split; [intros N; exact (get_by_key_stored e' key m o value R2 N)|]. split; [|exact R3].
    intros k m' o' N. destruct (set_by_keys_other e key _ value _ k R1 N) as (d' & D & G). injection D as <-. unfold get_by_key. rewrite G. reflexivity.
  - intros NF. destruct (set_by_keys_err (Dict e) (key :: names m o) value) as (x & X1 & X2); [discriminate|exact NF|]. rewrite X1, (X2 e eq_refl). reflexivity.
Qed.

Lemma C134_other_models_keep_theirs_pf : forall (A : Type) (e e' : list (string * data A)) key value m m' v,
  m <> "" -> m' <> m -> set_by_key e key value (Some m) None = Ok (Dict e') ->
  at_path (Dict e) [key; m'] = Some v -> v <> Dict [] -> get_by_key e' key (Some m') None = Ok (Some v).
Proof.
  intros A e e' key value m m' v Nm N E H Nv. apply get_by_key_stored; [|exact Nv]. cbn [names app].
  unfold set_by_key in E. apply String.eqb_neq in Nm. rewrite Nm in E. cbn [app set_by_keys] in E. cbn [at_path] in *.
  destruct (dget String.eqb e key) as [[a|d]|]; try discriminate. injection E as <-. rewrite (dget_dset_eq _ String.eqb_eq), (dget_dset _ String.eqb_eq).
  apply String.eqb_neq in N. rewrite N. exact H.
Qed.

(** A value stored without names is got for every model and output. *)

Definition unnamed {A} (d : list (string * data A)) (name : string) : Prop :=
  forall k v, In (k, v) d -> k <> name /\ forall r, k <> (name ++ "/" ++ r)%string.

Lemma strip_prefix_eq p : forall s r, strip_prefix p s = Some r -> s = (p ++ r)%string.
Proof.
  induction p as [|a p IH]; intros s r H; cbn [strip_prefix] in H; [injection H as <-; reflexivity|].
  destruct s as [|b s]; [discriminate|]. destruct (Ascii.eqb a b) eqn:E; [|discriminate]. apply Ascii.eqb_eq in E. subst b.
  cbn [append]. f_equal. apply IH, H.
Qed.

Lemma append_assoc_s (a b c : string) : ((a ++ b) ++ c)%string = (a ++ (b ++ c))%string.
Proof. induction a as [|x a IH]; cbn [append]; [reflexivity|]. f_equal. exact IH. Qed.

Lemma unnamed_walk {A} (d : list (string * data A)) name : unnamed d name -> optionally_get_by_key (Some (Dict d)) name = Ok (Some (Dict d)).
Proof.
  intros U. assert (N : dget String.eqb d name = None).
  { destruct (dget String.eqb d name) as [v|] eqn:E; auto. exfalso. apply (dget_In String.eqb String.eqb_eq) in E. destruct (U _ _ E) as (X & _). congruence. }
  unfold optionally_get_by_key, get_by_keys. cbn [walk]. rewrite N.
  replace (prefix_matches name d) with (@nil (string * data A)).
  - cbn [bind]. unfold contains_key, dmem. rewrite N. reflexivity.
  - symmetry. unfold prefix_matches. clear N. induction d as [|[k v] d IH]; [reflexivity|]. cbn [flat_map fst snd].
    destruct (strip_prefix (name ++ "/") k) as [r|] eqn:E.
    + exfalso. apply strip_prefix_eq in E. rewrite append_assoc_s in E. destruct (U k v (or_introl eq_refl)) as (_ & X). apply (X r), E.
    + apply IH. intros k' v' I. apply (U k' v'). right. exact I.
Qed.

Lemma C134_shared_value_pf : forall (A : Type) (e : list (string * data A)) key v m o,
  dget String.eqb e key = Some v ->
  match v with Leaf _ => True | Dict d => unnamed d m /\ unnamed d o end ->
  get_by_key e key (Some m) (Some o) = Ok (Some v).
Proof.
  intros A e key v m o E H. unfold get_by_key. rewrite E. destruct v as [x|d]; [reflexivity|]. destruct H as (Hm & Ho).
  rewrite (unnamed_walk d m Hm). cbn [bind]. apply (unnamed_walk d o Ho).
Qed.

Section Names.
  Context {A : Type}.
  Lemma In_get_keys levels : forall (d : list (string * data A)), wf_data (Dict d) -> forall p,
    In p (get_keys levels d) <-> (length p <= levels /\ exists v, leaf_at (Dict d) p = Some v).
  Proof.
    induction levels as [|levels IH]; intros d W p.
    - split; [intros []|]. intros [L (v & H)]. destruct p; [discriminate|cbn in L; lia].
    - cbn [get_keys]. rewrite in_flat_map. split.
      + intros ([k c] & I & H). cbn [fst snd] in H. apply (dget_In_NoDup _ String.eqb_eq d k c (wf_keys _ W)) in I. destruct c as [a|d'].
        * destruct H as [<-|[]]. split; [cbn; lia|]. exists a. rewrite leaf_cons, I. reflexivity.
        * apply in_map_iff in H. destruct H as (q & <- & H). apply (IH d' (wf_child _ _ _ W I)) in H. destruct H as [L (v & H)].
          split; [cbn; lia|]. exists v. rewrite leaf_cons, I. exact H.
      + intros [L (v & H)]. destruct p as [|k p]; [discriminate|]. rewrite leaf_cons in H. destruct (dget String.eqb d k) as [c|] eqn:G; [|discriminate].
        exists (k, c). split; [apply (dget_In _ String.eqb_eq); exact G|]. cbn [fst snd]. destruct c as [a|d'].
        * destruct p; [left; reflexivity|discriminate].
        * apply in_map. apply (IH d' (wf_child _ _ _ W G)). split; [cbn in L; lia|]. exists v. exact H.
  Qed.

End Names.

(** Is a single key the name of a model of the configuration?  Without model specs the only
    model is the one with the empty name. *)

Definition is_model_name (config : list string) (k : string) : Prop :=
  match config with [] => k = "" | _ => In k config end.

Lemma C135_listed_models_and_outputs_partial_pf : forall (A : Type) config (e d : list (string * data A)),
  dget String.eqb e "predictions" = Some (Dict d) -> wf_data (Dict d) ->
  forall m o, In (m, o) (get_model_and_output_names config e) <->
    exists p v, leaf_at (Dict d) p = Some v /\
      match p with
      | [k] => is_model_name config k /\ m = Some k /\ o = None \/ ~ is_model_name config k /\ m = None /\ o = Some k
      | [k; k'] => m = Some k /\ o = Some k'
      | _ => False
      end.
Proof.
  intros A config e d G W m o. unfold get_model_and_output_names. rewrite G, in_map_iff.
  assert (MN : forall k, memb String.eqb k (match config with [] => [""] | l => l end) = true <-> is_model_name config k).
  { intros k. rewrite (memb_In _ String.eqb_eq). destruct config; cbn [is_model_name]; [|reflexivity]. cbn. intuition. }
  split.
  - intros (p & E & I). apply In_get_keys in I; [|exact W]. destruct I as [L (v & H)]. exists p, v. split; [exact H|].
    destruct p as [|k [|k' [|k2 p]]]; [discriminate| | |cbn in L; lia].
    + destruct (memb String.eqb k _) eqn:M; injection E as <- <-; [left|right]; (split; [|split; reflexivity]).
      * apply MN. exact M.
      * intros C. apply MN in C. congruence.
    + injection E as <- <-. auto.
  - intros (p & v & H & C). exists p. destruct p as [|k [|k' [|k2 p]]]; try contradiction.
    + split; [|apply In_get_keys; [exact W|split; [cbn; lia|exists v; exact H]]]. destruct C as [(C & -> & ->)|(C & -> & ->)].
      * apply MN in C. rewrite C. reflexivity.
      * destruct (memb String.eqb k _) eqn:M; [apply MN in M; contradiction|reflexivity].
    + destruct C as [-> ->]. split; [reflexivity|]. apply In_get_keys; [exact W|]. split; [cbn; lia|exists v; exact H].
Qed.

Lemma C135_listed_can_be_got_pf : forall (A : Type) config (e d : list (string * data A)) m o,
  dget String.eqb e "predictions" = Some (Dict d) -> wf_data (Dict d) ->
  In (m, o) (get_model_and_output_names config e) ->
  exists v, leaf_at (Dict d) (names m o) = Some v /\ get_by_key e "predictions" m o = Ok (Some (Leaf v)).
Proof.
  intros A config e d m o G W I. apply (C135_listed_models_and_outputs_partial_pf A config e d G W) in I. destruct I as (p & v & H & C). exists v.
  assert (E : p = names m o). { destruct p as [|k [|k' [|k2 p]]]; try contradiction; [destruct C as [(_ & -> & ->)|(_ & -> & ->)]|destruct C as [-> ->]]; reflexivity. }
  rewrite <- E. split; [exact H|]. apply get_by_key_stored; [|discriminate]. rewrite <- E. cbn [at_path]. rewrite G.
  unfold leaf_at in H. destruct (at_path (Dict d) p) as [[a|]|]; congruence.
Qed.

Lemma C135_outputs_with_several_tensors_not_listed_refuted_pf : exists (e : list (string * data nat)) v,
  set_by_key [] "predictions" v (Some "model") (Some "output") = Ok (Dict e) /\
  get_by_key e "predictions" (Some "model") (Some "output") = Ok (Some v) /\
  get_model_and_output_names ["model"] e = [].
Proof.
  exists [("predictions", Dict [("model", Dict [("output", Dict [("probabilities", Leaf 1); ("classes", Leaf 2)])])])],
    (Dict [("probabilities", Leaf 1); ("classes", Leaf 2)]). repeat split.
Qed.

Lemma C128_scalars_refused_pf : forall (V : Type) (e : list (string * data (leaf V))) p a keep_batch_dim expand_zero_dims,
  wf_data (Dict e) -> leaf_at (Dict e) p = Some (Dense a) -> shape a = [] -> is_ok (split_extracts e keep_batch_dim expand_zero_dims) = false.
Proof.
  intros V e p a keep expand W L S. apply (In_leaves (Dict e) W) in L. unfold split_extracts. cbv zeta. generalize (leaves [] (Dict e)) at 2. intros rest. revert L. generalize (leaves [] (Dict e)) (@nil (list (string * data (leaf V)))).
  induction l as [|[q v] l IH]; intros r I; [destruct I|]. destruct I as [Q|I]; cbn [foldM fst snd].
  - injection Q as -> ->. cbn [is_none split_leaf]. rewrite S. reflexivity.
  - destruct (if is_none v then Ok r else _) as [r'|x]; cbn [bind]; [|reflexivity]. apply IH. exact I.
Qed.
