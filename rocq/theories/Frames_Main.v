(* Proofs of the theorems restated in Frames_Properties.v. *)
From Coq Require Import String Ascii Sorting.Sorted.
From Verif Require Import Base BaseFacts BeamFacts Classes_Main Keras_Main Util_Model Config_Model Frames_Model.
Local Open Scope string_scope.
Local Open Scope list_scope.

(* C212 - C219: data frames of metrics and plots, and the saved configuration. *)

(** The named leaves of a field without repetition.  With [inc] a message that is unset is a
    leaf, too. *)

Inductive reads {V} (inc : bool) : string -> fval V -> list (string * option V) -> Prop :=
| reads_unset n : reads inc n Unset (if inc then [(n, None)] else [])
| reads_prim n v : reads inc n (One (Prim v)) [(n, Some v)]
| reads_wrapper n v : reads inc n (One (Wrapper v)) [(n, Some v)]
| reads_message n fs ls : Forall2 (fun nf l => reads inc (fst nf) (snd nf) l) fs ls -> reads inc n (One (Message fs)) (concat ls).

(** The rows of a value: one, or one for each item of its only field. *)

Definition table_row {V} (r : list (string * option V)) : Prop := r <> [] /\ NoDup (map fst r).

Inductive tabulates {V} : string -> fval V -> list (list (string * option V)) -> Prop :=
| one_row n f r : reads false n f r -> table_row r -> tabulates n f [r]
| row_per_item n m items rows : Forall2 (fun p r => reads false m (One p) r /\ table_row r) items rows ->
                                tabulates n (One (Message [(m, Repeated items)])) rows.

(** A value of some type with its slice, key and rows. *)

Record entry {V} := Entry { e_slices : list (string * option V); e_key : list (string * option V); e_type : string; e_rows : list (list (string * option V)) }.

Arguments entry : clear implicits.

Arguments Entry {V}.

(** The fields of a value: those without a value have no entry. *)

Inductive describes_fields {V} (truthy : V -> bool) (sl k : list (string * option V)) : list (string * fval V) -> list (entry V) -> Prop :=
| no_fields : describes_fields truthy sl k [] []
| field_unset t fs es : describes_fields truthy sl k fs es -> describes_fields truthy sl k ((t, Unset) :: fs) es
| field_empty t v fs es : truthy v = false -> describes_fields truthy sl k fs es -> describes_fields truthy sl k ((t, One (Prim v)) :: fs) es
| field_set t f rows fs es : (forall v, f = One (Prim v) -> truthy v = true) -> tabulates t f rows ->
                             describes_fields truthy sl k fs es -> describes_fields truthy sl k ((t, f) :: fs) (Entry sl k t rows :: es).

Definition describes_value {V} (truthy : V -> bool) (inc : bool) (sl : list (string * option V)) (kv : fval V * list (string * fval V)) (es : list (entry V)) : Prop :=
  exists k, reads inc "key" (fst kv) k /\ NoDup (map fst k) /\ describes_fields truthy sl k (snd kv) es.

(** The slice: its columns, or Overall. *)

Definition slice_cells {V} (of_str : string -> V) (sl : list (string * V)) : list (string * option V) :=
  match sl with [] => [("Overall", Some (of_str ""))] | _ => map (fun cv => (fst cv, Some (snd cv))) sl end.

Definition describes_slice {V} (truthy : V -> bool) (of_str : string -> V) (inc : bool) (s : for_slice V) (es : list (entry V)) : Prop :=
  exists sl ess, fs_slicing s = SliceKey (map (fun cv => (fst cv, Some (snd cv))) sl) /\ NoDup (map fst sl) /\
    Forall2 (describes_value truthy inc (slice_cells of_str sl)) (fs_values s) ess /\ es = concat ess.

Definition describes {V} (truthy : V -> bool) (of_str : string -> V) (inc : bool) (l : list (for_slice V)) (es : list (entry V)) : Prop :=
  exists ess, Forall2 (describes_slice truthy of_str inc) l ess /\ es = concat ess.

(** All rows, numbered. *)

Notation row V := (nat * (entry V * list (string * option V)))%type (only parsing).

Fixpoint numbered {V} (i : nat) (es : list (entry V)) : list (row V) :=
  match es with
  | [] => []
  | e :: t => combine (seq i (length (e_rows e))) (map (pair e) (e_rows e)) ++ numbered (i + length (e_rows e)) t
  end.

Definition of_type {V} (t : string) (r : row V) : bool := String.eqb (e_type (fst (snd r))) t.

(** The cell of a row in a column. *)

Definition the_cells {V} (px : prefixes) (r : row V) (p : string) : list (string * option V) :=
  if String.eqb p (px_slices px) then e_slices (fst (snd r))
  else if String.eqb p (px_keys px) then e_key (fst (snd r))
  else if String.eqb p (px_values px) then snd (snd r) else [].

Definition the_cell {V} (px : prefixes) (r : row V) (c : string * string) : option V :=
  match dget String.eqb (the_cells px r (fst c)) (snd c) with Some v => v | None => None end.

(** The columns of the frame of a type. *)

Definition slice_column {V} (t : string) (es : list (entry V)) (c : string) : Prop := exists e, In e es /\ e_type e = t /\ In c (map fst (e_slices e)).

Definition key_column {V} (t : string) (es : list (entry V)) (c : string) : Prop := exists e, In e es /\ e_type e = t /\ In c (map fst (e_key e)).

Definition value_column {V} (t : string) (es : list (entry V)) (c : string) : Prop := exists e r, In e es /\ e_type e = t /\ In r (e_rows e) /\ In c (map fst r).

(* proofs *)

Lemma flat_message {V} inc n (l : list (string * fval V)) i :
  flat_value inc n (Message l) i = concat (map (fun nf => flat_field inc (fst nf) (snd nf) i) l).
Proof. cbn [flat_value]. induction l as [|[m f] l IH]; [reflexivity|]. cbn [map concat fst snd]. rewrite IH. reflexivity. Qed.

Fixpoint flat_items {V} inc n (l : list (pval V)) i : list (string * option V * nat) :=
  match l with [] => [] | p :: t => flat_value inc n p i ++ flat_items inc n t (S i) end.

Lemma flat_repeated {V} inc n (l : list (pval V)) : forall i, flat_field inc n (Repeated l) i = flat_items inc n l i.
Proof. induction l as [|p l IH]; intros i; [reflexivity|]. cbn [flat_items]. rewrite <- IH. reflexivity. Qed.

Fixpoint reads_flat {V} inc n (f : fval V) l (H : reads inc n f l) {struct H} :
  forall i, flat_field inc n f i = map (fun nv => (fst nv, snd nv, i)) l.
Proof.
  destruct H as [m|m v|m v|m fs ls H]; intros i.
  - destruct inc; reflexivity.
  - reflexivity.
  - reflexivity.
  - change (flat_value inc m (Message fs) i = map (fun nv => (fst nv, snd nv, i)) (concat ls)). rewrite flat_message. induction H as [|nf l fs ls R H IH]; [reflexivity|].
    cbn [map concat]. rewrite (reads_flat _ _ _ _ _ R i), IH, map_app. reflexivity.
Qed.

Definition row_leaves {V} (ir : nat * list (string * option V)) : list (string * option V * nat) := map (fun nv => (fst nv, snd nv, fst ir)) (snd ir).

Lemma tabulates_flat {V} n (f : fval V) rows (H : tabulates n f rows) i :
  flat_field false n f i = concat (map row_leaves (combine (seq i (length rows)) rows)) /\ Forall table_row rows.
Proof.
  destruct H as [m f r H W|m k items rows H].
  - cbn [length seq combine map concat]. rewrite app_nil_r. split; [apply (reads_flat _ _ _ _ H)|constructor; [exact W|constructor]].
  - change (flat_field false m (One (Message [(k, Repeated items)])) i) with (flat_value false m (Message [(k, Repeated items)]) i). rewrite flat_message. cbn [map concat fst snd]. rewrite app_nil_r, flat_repeated. revert i.
    induction H as [|p r items rows [R W] H IH]; intros i; [split; [reflexivity|constructor]|].
    cbn [flat_items length seq combine map concat]. destruct (IH (S i)) as [E F]. rewrite E. split; [|constructor; assumption]. f_equal.
    exact (reads_flat _ _ _ _ R i).
Qed.

Lemma index_end_app {V} (a b : list (string * option V * nat)) i : index_end (a ++ b) i = index_end b (index_end a i).
Proof. unfold index_end. apply fold_left_app. Qed.

Lemma index_end_row {V} (r : list (string * option V)) i j : r <> [] -> index_end (row_leaves (i, r)) j = S i.
Proof.
  intros N. destruct (exists_last N) as (r' & x & ->). unfold row_leaves. cbn [fst snd]. rewrite map_app, index_end_app. reflexivity.
Qed.

Lemma index_end_rows {V} (rows : list (list (string * option V))) : Forall table_row rows -> forall i,
  index_end (concat (map row_leaves (combine (seq i (length rows)) rows))) i = i + length rows.
Proof.
  induction 1 as [|r rows [N _] F IH]; intros i; [cbn; lia|]. cbn [length seq combine map concat].
  rewrite index_end_app, index_end_row by exact N. rewrite IH. lia.
Qed.

Notation cols V := (list (string * list (option V * nat))).

Lemma column_extend {V} (d : cols V) k l c : column (extend d k l) c = column d c ++ (if String.eqb k c then l else []).
Proof.
  unfold extend. destruct (String.eqb_spec k c) as [<-|N].
  - unfold column at 1. rewrite (dget_dset_eq _ String.eqb_eq). reflexivity.
  - unfold column at 1. rewrite (dget_dset_neq _ String.eqb_eq) by exact N. rewrite app_nil_r. reflexivity.
Qed.

Section Extends.
  Context {V A : Type} (nm : A -> string) (g : A -> list (option V * nat)).
  Definition extends (xs : list A) (d : cols V) : cols V := fold_left (fun c x => extend c (nm x) (g x)) xs d.
  Lemma column_extends xs : forall d c, column (extends xs d) c = column d c ++ concat (map g (filter (fun x => String.eqb (nm x) c) xs)).
  Proof.
    induction xs as [|x xs IH]; intros d c; [cbn; rewrite app_nil_r; reflexivity|].
    unfold extends. cbn [fold_left]. fold (extends xs (extend d (nm x) (g x))). rewrite IH, column_extend. cbn [filter].
    destruct (String.eqb (nm x) c); cbn [map concat]; [rewrite <- app_assoc; reflexivity|rewrite app_nil_r; reflexivity].
  Qed.
  Lemma extends_names xs : forall d c, In c (map fst (extends xs d)) <-> In c (map fst d) \/ In c (map nm xs).
  Proof.
    induction xs as [|x xs IH]; intros d c; [cbn; tauto|].
    unfold extends. cbn [fold_left]. fold (extends xs (extend d (nm x) (g x))). rewrite IH. unfold extend.
    rewrite (dset_keys_In _ String.eqb_eq). cbn [map In]. intuition.
  Qed.
  Lemma extends_NoDup xs : forall d, NoDup (map fst d) -> NoDup (map fst (extends xs d)).
  Proof.
    induction xs as [|x xs IH]; intros d N; [exact N|].
    unfold extends. cbn [fold_left]. fold (extends xs (extend d (nm x) (g x))). apply IH. unfold extend. apply (dset_NoDup _ String.eqb_eq). exact N.
  Qed.

End Extends.

(** Sorted labels *)

Lemma ssorted_seq n : forall i, StronglySorted lt (seq i n).
Proof.
  induction n as [|n IH]; intros i; [constructor|]. cbn [seq]. constructor; [apply IH|]. apply Forall_forall. intros x H. apply in_seq in H. lia.
Qed.

Lemma ssorted_filter {A} (f : A -> nat) p l : StronglySorted lt (map f l) -> StronglySorted lt (map f (filter p l)).
Proof.
  induction l as [|x l IH]; intros H; [constructor|]. cbn [map] in H. apply StronglySorted_inv in H. destruct H as [H F]. cbn [filter].
  destruct (p x); [|exact (IH H)]. cbn [map]. constructor; [exact (IH H)|]. rewrite Forall_forall in *. intros y I. apply F.
  apply in_map_iff in I. destruct I as (z & <- & I). apply filter_In in I. apply in_map. exact (proj1 I).
Qed.

Lemma ssorted_NoDup l : StronglySorted lt l -> NoDup l.
Proof.
  induction 1 as [|x l H IH F]; constructor; [|exact IH]. intros I. rewrite Forall_forall in F. specialize (F _ I). lia.
Qed.

Lemma ssorted_same a : forall b, StronglySorted lt a -> StronglySorted lt b -> (forall x, In x a <-> In x b) -> a = b.
Proof.
  induction a as [|x a IH]; intros [|y b] A B H.
  - reflexivity.
  - destruct (proj2 (H y) (or_introl eq_refl)).
  - destruct (proj1 (H x) (or_introl eq_refl)).
  - apply StronglySorted_inv in A, B. destruct A as [A FA], B as [B FB]. rewrite Forall_forall in FA, FB.
    assert (x = y) as <-.
    { destruct (proj1 (H x) (or_introl eq_refl)) as [->|I]; [reflexivity|]. destruct (proj2 (H y) (or_introl eq_refl)) as [<-|J]; [reflexivity|].
      specialize (FA _ J). specialize (FB _ I). lia. }
    f_equal. apply IH; [exact A|exact B|]. intros z. split; intros I.
    + destruct (proj1 (H z) (or_intror I)) as [<-|J]; [specialize (FA _ I); lia|exact J].
    + destruct (proj2 (H z) (or_intror I)) as [<-|J]; [specialize (FB _ I); lia|exact J].
Qed.

Lemma insert_nat_In x l y : In y (insert_nat x l) <-> y = x \/ In y l.
Proof. induction l as [|z l IH]; cbn [insert_nat In]; [intuition|]. destruct (Nat.leb x z); cbn [In]; [intuition|]. rewrite IH. intuition. Qed.

Lemma sort_nat_In l y : In y (sort_nat l) <-> In y l.
Proof. induction l as [|x l IH]; [reflexivity|]. cbn [sort_nat fold_right]. rewrite insert_nat_In, IH. cbn. intuition. Qed.

Lemma insert_nat_sorted x l : StronglySorted lt l -> ~ In x l -> StronglySorted lt (insert_nat x l).
Proof.
  induction 1 as [|y l H IH F]; intros N; cbn [insert_nat]; [constructor; constructor|].
  destruct (Nat.leb_spec x y) as [L|L].
  - constructor; [constructor; assumption|]. rewrite Forall_forall in *. intros z [<-|I]; [cbn in N; destruct (Nat.eq_dec x y); [subst; tauto|lia]|].
    specialize (F _ I). lia.
  - constructor; [apply IH; cbn in N; tauto|]. rewrite Forall_forall in *. intros z I. apply insert_nat_In in I. destruct I as [->|I]; [exact L|exact (F _ I)].
Qed.

Lemma sort_nat_sorted l : NoDup l -> StronglySorted lt (sort_nat l).
Proof. induction 1 as [|x l N H IH]; [constructor|]. cbn [sort_nat fold_right]. apply insert_nat_sorted; [exact IH|]. rewrite sort_nat_In. exact N. Qed.

Lemma nodup_NoDup l : nodup l = true <-> NoDup l.
Proof.
  induction l as [|x l IH]; cbn [nodup]; [split; [constructor|reflexivity]|]. rewrite andb_true_iff, negb_true_iff. split.
  - intros [H1 H2]. constructor; [|apply IH; exact H2]. intros I. apply (memb_In _ Nat.eqb_eq) in I. congruence.
  - inversion 1; subst. split; [|apply IH; assumption]. destruct (memb Nat.eqb x l) eqn:E; [|reflexivity]. apply (memb_In _ Nat.eqb_eq) in E. contradiction.
Qed.

Lemma nats_eqb_eq a : forall b, nats_eqb a b = true <-> a = b.
Proof.
  induction a as [|x a IH]; intros [|y b]; cbn [nats_eqb]; try (split; [discriminate|discriminate]); [tauto|].
  rewrite andb_true_iff, Nat.eqb_eq, IH. split; [intros [-> ->]; reflexivity|intros E; injection E; auto].
Qed.

Lemma filter_length_at_most {A} (p : A -> bool) l : length (filter p l) <= length l.
Proof. induction l as [|x l IH]; [reflexivity|]. cbn [filter]. destruct (p x); cbn [length]; lia. Qed.

Lemma find_none_all {A} (p : A -> bool) l : (forall x, In x l -> p x = false) -> find p l = None.
Proof.
  induction l as [|x l IH]; intros H; [reflexivity|]. cbn [find]. rewrite (H x (or_introl eq_refl)). apply IH. intros y I. apply H. right. exact I.
Qed.

Lemma filter_length_all {A} (p : A -> bool) l : length (filter p l) = length l -> filter p l = l /\ forall x, In x l -> p x = true.
Proof.
  intros H. enough (forall x, In x l -> p x = true) as E.
  { split; [|exact E]. clear H. induction l as [|x l IH]; [reflexivity|]. cbn [filter]. rewrite (E x (or_introl eq_refl)), IH; [reflexivity|]. intros y I. apply E. right. exact I. }
  induction l as [|x l IH]; [intros ? []|]. cbn [filter] in H. pose proof (filter_length_at_most p l) as L. destruct (p x) eqn:E.
  - cbn [length] in H. intros y [<-|I]; [exact E|]. apply IH; [lia|exact I].
  - cbn [length] in H. lia.
Qed.

Section MakeFrame.
  Context {V : Type} (get : string * string -> entry V * list (string * option V) -> option (option V)).
  Definition series (recs : list (row V)) (c : string * string) : list (option V * nat) :=
    flat_map (fun r => match get c (snd r) with Some v => [(v, fst r)] | None => [] end) recs.
  Definition has (c : string * string) (r : row V) : bool := match get c (snd r) with Some _ => true | None => false end.
  Definition got (c : string * string) (r : row V) : option V := match get c (snd r) with Some v => v | None => None end.
  Lemma series_filter recs c : series recs c = map (fun r => (got c r, fst r)) (filter (has c) recs).
  Proof.
    unfold series, has, got. induction recs as [|r recs IH]; [reflexivity|]. cbn [flat_map filter]. rewrite IH.
    destruct (get c (snd r)) eqn:E; cbn [map app]; [rewrite E; reflexivity|reflexivity].
  Qed.
  Lemma series_labels recs c : map snd (series recs c) = map fst (filter (has c) recs).
  Proof. rewrite series_filter, map_map. reflexivity. Qed.
  Lemma cell_at_series recs c r : NoDup (map fst recs) -> In r recs -> cell_at (series recs c) (fst r) = got c r.
  Proof.
    intros N I. unfold cell_at, series. induction recs as [|r0 recs IH]; [destruct I|]. cbn [map] in N. apply NoDup_cons_iff in N. destruct N as [N0 N].
    cbn [flat_map]. destruct I as [->|I].
    - unfold got. destruct (get c (snd r)) as [v|] eqn:E; cbn [app find].
      + cbn [snd]. rewrite Nat.eqb_refl. reflexivity.
      + rewrite (find_none_all _ (flat_map (fun r1 => match get c (snd r1) with Some v => [(v, fst r1)] | None => [] end) recs)); [reflexivity|].
        intros [v i] J. apply in_flat_map in J. destruct J as (r1 & J & K). destruct (get c (snd r1)); [|destruct K]. destruct K as [K|[]]. injection K as <- <-.
        cbn [snd]. apply Nat.eqb_neq. intros F. apply N0. rewrite <- F. apply in_map. exact J.
    - specialize (IH N I). destruct (get c (snd r0)) as [v|] eqn:E; cbn [app]; [|exact IH]. cbn [find snd].
      destruct (Nat.eqb_spec (fst r0) (fst r)) as [F|_]; [|exact IH]. destruct N0. rewrite F. apply in_map. exact I.
  Qed.
  Lemma make_frame_rows (recs : list (row V)) (names : list (string * string)) : names <> [] -> StronglySorted lt (map fst recs) ->
    (forall r, In r recs -> exists c, In c names /\ has c r = true) ->
    make_frame (map (fun c => (c, series recs c)) names) = Ok (Frame names (map (fun r => (fst r, map (fun c => got c r) names)) recs)).
  Proof.
    intros NE SS COV. set (cs := map (fun c => (c, series recs c)) names).
    assert (NM : map fst cs = names) by (unfold cs; rewrite map_map; apply map_id).
    destruct names as [|c0 names]; [contradiction NE; reflexivity|]. unfold make_frame. unfold cs at 1. cbn [map].
    destruct (forallb (fun c => nats_eqb (map snd (snd c)) (map snd (series recs c0))) cs) eqn:ALL.
    - rewrite forallb_forall in ALL. rewrite NM.
      assert (EQ : forall c, In c (c0 :: names) -> map snd (series recs c) = map snd (series recs c0)).
      { intros c I. apply (proj1 (nats_eqb_eq _ _)). apply (ALL (c, series recs c)). unfold cs. apply (in_map (fun c => (c, series recs c))). exact I. }
      assert (L0 : map snd (series recs c0) = map fst recs).
      { apply ssorted_same; [rewrite series_labels; apply ssorted_filter; exact SS|exact SS|]. intros i. split; intros I.
        - rewrite series_labels in I. apply in_map_iff in I. destruct I as (r & <- & I). apply filter_In in I. apply in_map. exact (proj1 I).
        - apply in_map_iff in I. destruct I as (r & <- & I). destruct (COV r I) as (c & J & H). rewrite <- (EQ c J), series_labels.
          apply in_map. apply filter_In. split; assumption. }
      assert (SE : forall c, In c (c0 :: names) -> series recs c = map (fun r => (got c r, fst r)) recs).
      { intros c I. rewrite series_filter. f_equal. apply filter_length_all. pose proof (EQ c I) as E. rewrite L0, series_labels in E.
        apply (f_equal (@length nat)) in E. rewrite !map_length in E. exact E. }
      rewrite L0. f_equal. f_equal. rewrite map_length. unfold cs. clear -SE.
      transitivity (map (fun j => (fst (nth j recs (0, (Entry [] [] "" [], []))), map (fun c => got c (nth j recs (0, (Entry [] [] "" [], [])))) (c0 :: names))) (seq 0 (length recs))).
      + apply map_ext_in. intros j J. apply in_seq in J. f_equal.
        * change 0 with (fst (0, (@Entry V [] [] "" [], @nil (string * option V)))) at 1. apply map_nth.
        * rewrite map_map. apply map_ext_in. intros c I. cbn [snd]. rewrite (SE c I), map_map. cbn [fst].
          rewrite (nth_indep _ None (got c (0, (Entry [] [] "" [], [])))) by (rewrite map_length; lia).
          rewrite (map_nth (fun x => got c x)). reflexivity.
      + set (d := (0, (Entry [] [] "" [], []))). generalize recs. intros l. rewrite <- (map_map (fun j => nth j l d) (fun r => (fst r, map (fun c => got c r) (c0 :: names)))).
        f_equal. clear. induction l as [|x l IH]; [reflexivity|]. cbn [length seq map]. f_equal. rewrite <- seq_shift, map_map. exact IH.
    - destruct (forallb (fun c => nodup (map snd (snd c))) cs) eqn:ND.
      + f_equal. rewrite NM. f_equal.
        assert (L : sort_nat (dedup Nat.eqb (concat (map (fun c => map snd (snd c)) cs))) = map fst recs).
        { apply ssorted_same; [apply sort_nat_sorted; apply dedup_NoDup; exact Nat.eqb_eq|exact SS|]. intros i. rewrite sort_nat_In, (dedup_In _ Nat.eqb_eq).
          unfold cs. rewrite map_map. cbn [snd]. rewrite in_concat. split.
          - intros (l & H & I). apply in_map_iff in H. destruct H as (c & <- & H). rewrite series_labels in I. apply in_map_iff in I. destruct I as (r & <- & I).
            apply filter_In in I. apply in_map. exact (proj1 I).
          - intros I. apply in_map_iff in I. destruct I as (r & <- & I). destruct (COV r I) as (c & J & H). exists (map snd (series recs c)).
            split; [apply (in_map (fun c => map snd (series recs c))); exact J|]. rewrite series_labels. apply in_map. apply filter_In. split; assumption. }
        rewrite L, map_map. apply map_ext_in. intros r I. f_equal. unfold cs. rewrite map_map. change (got c0 r :: map (fun c => got c r) names) with (map (fun c => got c r) (c0 :: names)). apply map_ext_in. intros c J. cbn [snd].
        apply cell_at_series; [apply ssorted_NoDup; exact SS|exact I].
      + exfalso. assert (T : forallb (fun c => nodup (map snd (snd c))) cs = true); [|congruence]. apply forallb_forall. intros [c s] I. unfold cs in I.
        apply in_map_iff in I. destruct I as (c' & E & I). injection E as <- <-. cbn [snd]. apply nodup_NoDup. rewrite series_labels. apply ssorted_NoDup, ssorted_filter. exact SS.
  Qed.

End MakeFrame.

(** Columns as they grow *)

Definition total {V} (es : list (entry V)) : nat := fold_right (fun e n => length (e_rows e) + n) 0 es.

Lemma numbered_app {V} (a b : list (entry V)) : forall i, numbered i (a ++ b) = numbered i a ++ numbered (i + total a) b.
Proof.
  induction a as [|e a IH]; intros i; cbn [numbered app total fold_right]; [rewrite Nat.add_0_r; reflexivity|].
  rewrite IH, <- app_assoc. fold (total a). rewrite Nat.add_assoc. reflexivity.
Qed.

Lemma total_app {V} (a b : list (entry V)) : total (a ++ b) = total a + total b.
Proof. induction a as [|e a IH]; [reflexivity|]. cbn [app total fold_right]. fold (total (a ++ b)) (total a). rewrite IH. lia. Qed.

Lemma numbered_labels {V} (es : list (entry V)) : forall i, map fst (numbered i es) = seq i (total es).
Proof.
  induction es as [|e es IH]; intros i; [reflexivity|]. cbn [numbered total fold_right]. fold (total es). rewrite map_app, IH, seq_app. f_equal.
  generalize i. induction (e_rows e) as [|r l IHl]; intros j; [reflexivity|]. cbn [length seq map combine]. rewrite IHl. reflexivity.
Qed.

Lemma numbered_In {V} (es : list (entry V)) : forall i r, In r (numbered i es) -> In (fst (snd r)) es /\ In (snd (snd r)) (e_rows (fst (snd r))).
Proof.
  induction es as [|e es IH]; intros i r H; [destruct H|]. cbn [numbered] in H. apply in_app_iff in H. destruct H as [H|H].
  - destruct r as [j [e' x]]. apply in_combine_r in H. apply in_map_iff in H. destruct H as (y & E & I). injection E as <- <-. split; [left; reflexivity|exact I].
  - destruct (IH _ _ H) as [A B]. split; [right; exact A|exact B].
Qed.

Definition col {V} (g : entry V * list (string * option V) -> list (string * option V)) (t c : string) (recs : list (row V)) : list (option V * nat) :=
  flat_map (fun r => match dget String.eqb (g (snd r)) c with Some v => [(v, fst r)] | None => [] end) (filter (of_type t) recs).

Lemma col_app {V} g t c (a b : list (row V)) : col g t c (a ++ b) = col g t c a ++ col g t c b.
Proof. unfold col. rewrite filter_app, flat_map_app. reflexivity. Qed.

Lemma filter_all_none {A} (b : bool) (p : A -> bool) l : (forall x, In x l -> p x = b) -> filter p l = if b then l else [].
Proof.
  induction l as [|x l IH]; intros H; [destruct b; reflexivity|]. cbn [filter]. rewrite (H x (or_introl eq_refl)), IH by (intros y I; apply H; right; exact I). destruct b; reflexivity.
Qed.

Lemma numbered_one {V} i (e : entry V) : numbered i [e] = combine (seq i (length (e_rows e))) (map (pair e) (e_rows e)).
Proof. cbn [numbered]. apply app_nil_r. Qed.

Lemma numbered_one_of_type {V} i (e : entry V) t : filter (of_type t) (numbered i [e]) = if String.eqb (e_type e) t then numbered i [e] else [].
Proof.
  apply filter_all_none. intros [j [e' r]] I. rewrite numbered_one in I. apply in_combine_r in I. apply in_map_iff in I. destruct I as (y & E & I).
  injection E as <- <-. reflexivity.
Qed.

Lemma filter_dget {A} (k : list (string * A)) c : NoDup (map fst k) ->
  filter (fun nv => String.eqb (fst nv) c) k = match dget String.eqb k c with Some v => [(c, v)] | None => [] end.
Proof.
  induction k as [|[n v] k IH]; intros N; [reflexivity|]. cbn [map fst] in N. apply NoDup_cons_iff in N. destruct N as [N0 N]. cbn [filter dget fst].
  destruct (String.eqb_spec n c) as [->|NE].
  - rewrite String.eqb_refl. f_equal. rewrite IH by exact N. destruct (dget String.eqb k c) as [w|] eqn:E; [|reflexivity].
    apply (dget_In _ String.eqb_eq) in E. destruct N0. apply in_map_iff. exists (c, w). split; [reflexivity|exact E].
  - destruct (String.eqb_spec c n) as [E|_]; [congruence|]. exact (IH N).
Qed.

(** a part that is the same for all rows *)

Lemma same_for_all {V} (k : list (string * option V)) (e : entry V) i c : NoDup (map fst k) ->
  concat (map (fun nv => map (fun j => (snd nv, j)) (seq i (length (e_rows e)))) (filter (fun nv => String.eqb (fst nv) c) k))
  = flat_map (fun r => match dget String.eqb k c with Some v => [(v, fst r)] | None => [] end) (numbered i [e]).
Proof.
  intros N. rewrite filter_dget by exact N. rewrite numbered_one. destruct (dget String.eqb k c) as [v|]; cbn [map concat snd].
  - rewrite app_nil_r. generalize i. induction (e_rows e) as [|r l IH]; intros j; [reflexivity|]. cbn [length seq map combine flat_map app]. rewrite IH. reflexivity.
  - generalize i. induction (e_rows e) as [|r l IH]; intros j; [reflexivity|]. cbn [length seq map combine flat_map app]. apply IH.
Qed.

(** the part of the values *)

Lemma by_row {V} (e : entry V) c : Forall table_row (e_rows e) -> forall i,
  concat (map (fun l => [(snd (fst l), snd l)]) (filter (fun l => String.eqb (fst (fst l)) c) (concat (map row_leaves (combine (seq i (length (e_rows e))) (e_rows e))))))
  = flat_map (fun r : row V => match dget String.eqb (snd (snd r)) c with Some v => [(v, fst r)] | None => [] end) (numbered i [e]).
Proof.
  intros F i. rewrite numbered_one. revert i. induction F as [|r l [_ N] F IH]; intros i; [reflexivity|].
  cbn [length seq map combine flat_map concat]. rewrite filter_app, map_app, concat_app, IH. f_equal. cbn [fst snd].
  transitivity (concat (map (fun nv : string * option V => [(snd nv, i)]) (filter (fun nv => String.eqb (fst nv) c) r))).
  - unfold row_leaves. cbn [fst snd]. clear. induction r as [|[n v] r IH]; [reflexivity|]. cbn [map filter fst snd].
    destruct (String.eqb n c); cbn [map concat fst snd]; rewrite IH; reflexivity.
  - rewrite filter_dget by exact N. destruct (dget String.eqb r c); reflexivity.
Qed.

Lemma fold_left_map {A B C} (f : A -> C -> A) (g : B -> C) l : forall a, fold_left f (map g l) a = fold_left (fun a x => f a (g x)) l a.
Proof. induction l as [|x l IH]; intros a; [reflexivity|]. apply IH. Qed.

Definition old {V} (data : list (string * column_data V)) (t : string) : column_data V :=
  match dget String.eqb data t with Some d => d | None => ColumnData [] [] [] end.

Lemma add_value_set {V} (truthy : V -> bool) (of_str : string -> V) inc sl key k data i t f rows :
  reads inc "key" key k -> (forall v, f = One (Prim v) -> truthy v = true) -> tabulates t f rows ->
  add_value truthy of_str inc sl key (data, i) (t, f) =
  (dset String.eqb data t
     (ColumnData (extends fst (fun nv => map (fun j => (snd nv, j)) (seq i (length rows))) (slice_cells of_str sl) (cd_slices (old data t)))
                 (extends fst (fun nv => map (fun j => (snd nv, j)) (seq i (length rows))) k (cd_keys (old data t)))
                 (extends (fun l => fst (fst l)) (fun l => [(snd (fst l), snd l)]) (concat (map row_leaves (combine (seq i (length rows)) rows))) (cd_values (old data t)))),
   i + length rows).
Proof.
  intros R PT T. unfold add_value. cbn [fst snd]. destruct (tabulates_flat _ _ _ T i) as [FL TR].
  assert (SK : skipped truthy f = false).
  { destruct T as [n g r Rd [NE _]|]; [|reflexivity]. destruct Rd as [m|m v|m v|m fs ls H]; cbn [skipped]; try reflexivity; [contradiction NE; reflexivity|].
    rewrite (PT v eq_refl). reflexivity. }
  rewrite SK, FL, (index_end_rows _ TR). fold (old data t). rewrite (reads_flat _ _ _ _ R i), fold_left_map.
  replace (i + length rows - i) with (length rows) by lia.
  assert (SL : match sl with
               | [] => extend (cd_slices (old data t)) OVERALL (map (fun i0 => (Some (of_str ""), i0)) (seq i (length rows)))
               | _ => fold_left (fun c s => extend c (fst s) (map (fun i0 => (Some (snd s), i0)) (seq i (length rows)))) sl (cd_slices (old data t))
               end = extends fst (fun nv => map (fun j => (snd nv, j)) (seq i (length rows))) (slice_cells of_str sl) (cd_slices (old data t))).
  { unfold slice_cells. destruct sl as [|s sl]; [reflexivity|]. unfold extends. rewrite fold_left_map. reflexivity. }
  rewrite SL. reflexivity.
Qed.

Definition part {V} t (es : list (entry V)) (names : string -> Prop) (d : cols V) (g : entry V * list (string * option V) -> list (string * option V)) : Prop :=
  NoDup (map fst d) /\ (forall c, column d c = col g t c (numbered 0 es)) /\ (forall c, In c (map fst d) <-> names c).

Definition inv {V} (es : list (entry V)) (st : list (string * column_data V) * nat) : Prop :=
  snd st = total es /\ NoDup (map fst (fst st)) /\
  forall t, (dmem String.eqb (fst st) t = true <-> exists e, In e es /\ e_type e = t) /\
    part t es (slice_column t es) (cd_slices (old (fst st) t)) (fun er => e_slices (fst er)) /\
    part t es (key_column t es) (cd_keys (old (fst st) t)) (fun er => e_key (fst er)) /\
    part t es (value_column t es) (cd_values (old (fst st) t)) snd.

Lemma inv_nil {V} : inv (V := V) [] ([], 0).
Proof.
  split; [reflexivity|]. split; [constructor|]. intros t. split; [split; [discriminate|intros (e & [] & _)]|].
  assert (P : forall g (names : string -> Prop), (forall c, ~ names c) -> part (V := V) t [] names [] g).
  { intros g names H. split; [constructor|]. split; [reflexivity|]. intros c. split; [intros []|apply H]. }
  split; [|split]; apply P; [intros c (e & [] & _)|intros c (e & [] & _)|intros c (e & r & [] & _)].
Qed.

Lemma part_other {V} t (es : list (entry V)) e names names' d g : e_type e <> t -> (forall c, names' c <-> names c) -> part t es names d g -> part t (es ++ [e]) names' d g.
Proof.
  intros N H (A & B & C). split; [exact A|]. split.
  - intros c. rewrite numbered_app, col_app, <- B. unfold col at 1. rewrite numbered_one_of_type. destruct (String.eqb_spec (e_type e) t); [contradiction|].
    cbn [flat_map]. rewrite app_nil_r. reflexivity.
  - intros c. rewrite C. symmetry. apply H.
Qed.

Lemma inv_step {V} (truthy : V -> bool) (of_str : string -> V) inc sl key k es st t f rows :
  reads inc "key" key k -> NoDup (map fst k) -> NoDup (map fst sl) -> (forall v, f = One (Prim v) -> truthy v = true) -> tabulates t f rows ->
  inv es st -> inv (es ++ [Entry (slice_cells of_str sl) k t rows]) (add_value truthy of_str inc sl key st (t, f)).
Proof.
  intros R NK NS PT T (I1 & I2 & I3). destruct st as [data i]. cbn [fst snd] in *. rewrite (add_value_set _ _ _ _ _ _ _ _ _ _ _ R PT T).
  set (e := Entry (slice_cells of_str sl) k t rows).
  assert (TR : Forall table_row (e_rows e)) by exact (proj2 (tabulates_flat _ _ _ T 0)).
  assert (NSC : NoDup (map fst (slice_cells of_str sl))).
  { unfold slice_cells. destruct sl as [|s sl']; [cbn; constructor; [intros []|constructor]|]. rewrite map_map. cbn [fst]. exact NS. }
  split; [cbn [snd]; rewrite I1, total_app; cbn [total fold_right e e_rows]; lia|]. split; [cbn [fst]; apply (dset_NoDup _ String.eqb_eq); exact I2|].
  cbn [fst]. intros t'. destruct (I3 t') as (M & P1 & P2 & P3). destruct (String.eqb_spec t t') as [<-|N].
  - split.
    { split; [intros _; exists e; split; [apply in_app_iff; right; left; reflexivity|reflexivity]|].
      intros _. unfold dmem. rewrite (dget_dset_eq _ String.eqb_eq). reflexivity. }
    set (cd := ColumnData _ _ _). assert (O : old (dset String.eqb data t cd) t = cd) by (unfold old; rewrite (dget_dset_eq _ String.eqb_eq); reflexivity).
    rewrite O. unfold cd. cbn [cd_slices cd_keys cd_values]. clear O cd.
    assert (ADD : forall g c, col g t c (numbered 0 (es ++ [e])) = col g t c (numbered 0 es) ++
              flat_map (fun r : row V => match dget String.eqb (g (snd r)) c with Some v => [(v, fst r)] | None => [] end) (numbered i [e])).
    { intros g c. rewrite numbered_app, col_app. f_equal. cbn [Nat.add]. rewrite <- I1. unfold col. rewrite numbered_one_of_type.
      cbn [e e_type]. rewrite String.eqb_refl. reflexivity. }
    assert (CONST : forall (g : entry V * list (string * option V) -> list (string * option V)) c, (forall r, g (e, r) = g (e, [])) ->
              flat_map (fun r : row V => match dget String.eqb (g (snd r)) c with Some v => [(v, fst r)] | None => [] end) (numbered i [e])
              = flat_map (fun r : row V => match dget String.eqb (g (e, [])) c with Some v => [(v, fst r)] | None => [] end) (numbered i [e])).
    { intros g c H. rewrite !flat_map_concat_map. f_equal. apply map_ext_in. intros [j [e' r]] I. rewrite numbered_one in I. apply in_combine_r in I.
      apply in_map_iff in I. destruct I as (y & E & _). injection E as <- <-. cbn [snd fst]. rewrite H. reflexivity. }
    split; [|split].
    + destruct P1 as (A & B & C). split; [apply extends_NoDup; exact A|]. split.
      * intros c. rewrite column_extends, B, ADD. f_equal. etransitivity; [apply (same_for_all _ e); exact NSC|]. symmetry. apply (CONST (fun er => e_slices (fst er))). reflexivity.
      * intros c. rewrite extends_names, C. split.
        -- intros [(e' & H1 & H2 & H3)|H]; [exists e'; split; [apply in_app_iff; left; exact H1|split; assumption]|].
           exists e. split; [apply in_app_iff; right; left; reflexivity|]. split; [reflexivity|exact H].
        -- intros (e' & H1 & H2 & H3). apply in_app_iff in H1. destruct H1 as [H1|[<-|[]]]; [left; exists e'; auto|right; exact H3].
    + destruct P2 as (A & B & C). split; [apply extends_NoDup; exact A|]. split.
      * intros c. rewrite column_extends, B, ADD. f_equal. etransitivity; [apply (same_for_all _ e); exact NK|]. symmetry. apply (CONST (fun er => e_key (fst er))). reflexivity.
      * intros c. rewrite extends_names, C. split.
        -- intros [(e' & H1 & H2 & H3)|H]; [exists e'; split; [apply in_app_iff; left; exact H1|split; assumption]|].
           exists e. split; [apply in_app_iff; right; left; reflexivity|]. split; [reflexivity|exact H].
        -- intros (e' & H1 & H2 & H3). apply in_app_iff in H1. destruct H1 as [H1|[<-|[]]]; [left; exists e'; auto|right; exact H3].
    + destruct P3 as (A & B & C). split; [apply extends_NoDup; exact A|]. split.
      * intros c. rewrite column_extends, B, ADD. f_equal. apply (by_row e). exact TR.
      * intros c. rewrite extends_names, C. split.
        -- intros [(e' & r & H1 & H2 & H3)|H]; [exists e', r; split; [apply in_app_iff; left; exact H1|split; assumption]|].
           apply in_map_iff in H. destruct H as (l & <- & H). apply in_concat in H. destruct H as (ls & H & J). apply in_map_iff in H. destruct H as ([j r] & <- & H).
           apply in_combine_r in H. unfold row_leaves in J. cbn [fst snd] in J. apply in_map_iff in J. destruct J as (nv & <- & J). cbn [fst].
           exists e, r. split; [apply in_app_iff; right; left; reflexivity|]. split; [reflexivity|]. split; [exact H|apply in_map; exact J].
        -- intros (e' & r & H1 & H2 & H3 & H4). apply in_app_iff in H1. destruct H1 as [H1|[<-|[]]]; [left; exists e', r; auto|right].
           cbn [e e_rows] in H3. apply in_map_iff in H4. destruct H4 as (nv & <- & H4).
           assert (exists j, In (j, r) (combine (seq i (length rows)) rows)) as (j & J).
           { clear -H3. generalize i. induction rows as [|r0 rows IH]; intros n; [destruct H3|]. cbn [length seq combine]. destruct H3 as [->|H3].
             - exists n. left. reflexivity.
             - destruct (IH H3 (S n)) as (j & J). exists j. right. exact J. }
           apply in_map_iff. exists (fst nv, snd nv, j). split; [reflexivity|]. apply in_concat. exists (row_leaves (j, r)).
           split; [apply in_map; exact J|]. unfold row_leaves. cbn [fst snd]. apply (in_map (fun nv => (fst nv, snd nv, j))). exact H4.
  - split.
    { unfold dmem. rewrite (dget_dset_neq _ String.eqb_eq) by exact N. fold (dmem String.eqb data t'). rewrite M. split.
      - intros (e' & H1 & H2). exists e'. split; [apply in_app_iff; left; exact H1|exact H2].
      - intros (e' & H1 & H2). apply in_app_iff in H1. destruct H1 as [H1|[<-|[]]]; [exists e'; auto|contradiction]. }
    unfold old. rewrite (dget_dset_neq _ String.eqb_eq) by exact N. fold (old data t').
    split; [|split]; (eapply part_other; [exact N| |eassumption]); intros c.
    + split; intros (e' & H1 & H2 & H3); exists e'; (split; [|split; assumption]).
      * apply in_app_iff in H1. destruct H1 as [H1|[<-|[]]]; [exact H1|contradiction].
      * apply in_app_iff. left. exact H1.
    + split; intros (e' & H1 & H2 & H3); exists e'; (split; [|split; assumption]).
      * apply in_app_iff in H1. destruct H1 as [H1|[<-|[]]]; [exact H1|contradiction].
      * apply in_app_iff. left. exact H1.
    + split; intros (e' & r & H1 & H2 & H3); exists e', r; (split; [|split; assumption]).
      * apply in_app_iff in H1. destruct H1 as [H1|[<-|[]]]; [exact H1|contradiction].
      * apply in_app_iff. left. exact H1.
Qed.

Lemma inv_fields {V} (truthy : V -> bool) (of_str : string -> V) inc sl key k : reads inc "key" key k -> NoDup (map fst k) -> NoDup (map fst sl) ->
  forall fs es', describes_fields truthy (slice_cells of_str sl) k fs es' -> forall es st, inv es st ->
  inv (es ++ es') (fold_left (add_value truthy of_str inc sl key) fs st).
Proof.
  intros R NK NS fs es' D. induction D as [|t fs es' D IH|t v fs es' E D IH|t f rows fs es' PT T D IH]; intros es st I; cbn [fold_left].
  - rewrite app_nil_r. exact I.
  - apply IH. destruct st. exact I.
  - apply IH. destruct st as [data i]. unfold add_value. cbn [snd skipped]. rewrite E. exact I.
  - rewrite <- (app_assoc es [_] es') || idtac. change (Entry (slice_cells of_str sl) k t rows :: es') with ([Entry (slice_cells of_str sl) k t rows] ++ es').
    rewrite app_assoc. apply IH. apply inv_step; assumption.
Qed.

Lemma inv_all {V} (truthy : V -> bool) (of_str : string -> V) inc l es : describes truthy of_str inc l es ->
  exists data, column_data_of truthy of_str inc l = Ok data /\ inv es (data, total es).
Proof.
  intros (ess & D & ->). unfold column_data_of. set (step := fun st s => let! slices := slices_of (fs_slicing s) in _).
  enough (H : forall es0 st, inv es0 st -> exists st', foldM step l st = Ok st' /\ inv (es0 ++ concat ess) st').
  { destruct (H [] ([], 0) inv_nil) as ([data n] & E & I). rewrite E. exists data. split; [reflexivity|]. destruct I as (I1 & I). cbn [snd] in I1. cbn [app] in *.
    split; [reflexivity|exact I]. }
  induction D as [|s es' l ess DS D IH]; intros es0 st I; [exists st; split; [reflexivity|rewrite app_nil_r; exact I]|].
  destruct DS as (sl & vss & E1 & E2 & E3 & ->). cbn [foldM concat].
  assert (SO : slices_of (fs_slicing s) = Ok sl).
  { rewrite E1. unfold slices_of. cbn [single_slice_keys]. clear. induction sl as [|[c v] sl IH]; [reflexivity|]. cbn [map mapM bind snd fst]. rewrite IH. reflexivity. }
  unfold step at 1. rewrite SO. cbn [bind]. rewrite app_assoc. apply IH. revert es0 st I. clear -E2 E3.
  induction E3 as [|kv es' kvs vss (k & R & NK & DF) E3 IH]; intros es0 st I; [cbn; rewrite app_nil_r; exact I|].
  cbn [fold_left concat]. rewrite app_assoc. apply IH. eapply inv_fields; eassumption.
Qed.

Definition get_cell {V} (px : prefixes) (c : string * string) (er : entry V * list (string * option V)) : option (option V) :=
  dget String.eqb (the_cells px (0, er) (fst c)) (snd c).

Lemma part_series {V} t (es : list (entry V)) names d g (px : prefixes) p : part t es names d g ->
  (forall er, the_cells px (0, er) p = g er) ->
  map (fun kv => ((p, fst kv), snd kv)) d = map (fun c => (c, series (get_cell px) (filter (of_type t) (numbered 0 es)) c)) (map (pair p) (map fst d)).
Proof.
  intros (A & B & C) H. rewrite !map_map. apply map_ext_in. intros [n l] I. cbn [fst snd]. f_equal.
  assert (E : column d n = l) by (unfold column; rewrite (proj2 (dget_In_NoDup _ String.eqb_eq _ _ _ A) I); reflexivity).
  rewrite <- E, B. unfold col, series, get_cell. cbn [fst snd]. rewrite !flat_map_concat_map. f_equal. apply map_ext. intros r. rewrite H. reflexivity.
Qed.

Lemma slices_nonempty {V} truthy (of_str : string -> V) inc l es e : describes truthy of_str inc l es -> In e es -> e_slices e <> [].
Proof.
  intros (ess & D & ->) I. apply in_concat in I. destruct I as (es' & I & J). destruct (Forall2_In_r _ _ _ _ D I) as (s & _ & sl & vss & _ & _ & F & ->).
  apply in_concat in J. destruct J as (es' & J & K). destruct (Forall2_In_r _ _ _ _ F J) as (kv & _ & k & _ & _ & DF).
  assert (NE : slice_cells of_str sl <> []) by (destruct sl; discriminate).
  clear -DF K NE. induction DF as [|t fs es' D IH|t v fs es' E D IH|t f rows fs es' PT T D IH]; [destruct K|exact (IH K)|exact (IH K)|].
  destruct K as [<-|K]; [exact NE|exact (IH K)].
Qed.

Lemma in_dget {A} (k : list (string * A)) c : In c (map fst k) -> exists v, dget String.eqb k c = Some v.
Proof.
  intros I. destruct (dget String.eqb k c) as [v|] eqn:E; [exists v; reflexivity|]. apply (dget_None _ String.eqb_eq) in E. contradiction.
Qed.

Lemma C212_rows_partial_pf V (truthy : V -> bool) (of_str : string -> V) px inc l es :
  NoDup [px_slices px; px_keys px; px_values px] -> describes truthy of_str inc l es ->
  exists dfs, to_dataframes truthy of_str px inc l = Ok dfs /\ NoDup (map fst dfs) /\
    (forall t, In t (map fst dfs) <-> exists e, In e es /\ e_type e = t) /\
    (forall t f, In (t, f) dfs -> exists slices keys values,
       fr_columns f = map (pair (px_slices px)) slices ++ map (pair (px_keys px)) keys ++ map (pair (px_values px)) values /\
       NoDup slices /\ NoDup keys /\ NoDup values /\
       (forall c, In c slices <-> slice_column t es c) /\ (forall c, In c keys <-> key_column t es c) /\ (forall c, In c values <-> value_column t es c) /\
       fr_rows f = map (fun r => (fst r, map (the_cell px r) (fr_columns f))) (filter (of_type t) (numbered 0 es))).
Proof.
  intros ND D. destruct (inv_all _ _ _ _ _ D) as (data & E & _ & ND2 & I). cbn [fst] in *. unfold to_dataframes. rewrite E. cbn [bind].
  set (names := fun cd : column_data V => map (pair (px_slices px)) (map fst (cd_slices cd)) ++ map (pair (px_keys px)) (map fst (cd_keys cd))
                   ++ map (pair (px_values px)) (map fst (cd_values cd))).
  assert (PXS : forall er : entry V * list (string * option V), the_cells px (0, er) (px_slices px) = e_slices (fst er)).
  { intros er. unfold the_cells. rewrite String.eqb_refl. reflexivity. }
  inversion ND as [|? ? N1 ND']; subst. inversion ND' as [|? ? N2 _]; subst. cbn [In] in N1, N2.
  assert (PXK : forall er : entry V * list (string * option V), the_cells px (0, er) (px_keys px) = e_key (fst er)).
  { intros er. unfold the_cells. destruct (String.eqb_spec (px_keys px) (px_slices px)); [intuition|]. rewrite String.eqb_refl. reflexivity. }
  assert (PXV : forall er : entry V * list (string * option V), the_cells px (0, er) (px_values px) = snd er).
  { intros er. unfold the_cells. destruct (String.eqb_spec (px_values px) (px_slices px)); [intuition|]. destruct (String.eqb_spec (px_values px) (px_keys px)); [intuition|].
    rewrite String.eqb_refl. reflexivity. }
  assert (FR : forall t cd, In (t, cd) data -> frame_of px cd = Ok (Frame (names cd) (map (fun r => (fst r, map (the_cell px r) (names cd))) (filter (of_type t) (numbered 0 es))))).
  { intros t cd H. pose proof (proj2 (dget_In_NoDup _ String.eqb_eq _ _ _ ND2) H) as G. destruct (I t) as (_ & P1 & P2 & P3). unfold old in *. rewrite G in *.
    unfold frame_of. rewrite (part_series _ _ _ _ _ px _ P1 PXS), (part_series _ _ _ _ _ px _ P2 PXK), (part_series _ _ _ _ _ px _ P3 PXV), <- !map_app.
    rewrite make_frame_rows.
    - reflexivity.
    - destruct (proj1 (proj1 (I t))) as (e & J & T); [unfold dmem; rewrite G; reflexivity|]. pose proof (slices_nonempty _ _ _ _ _ _ D J) as NE.
      destruct (e_slices e) as [|[c v] sl] eqn:ES; [contradiction NE; reflexivity|]. destruct P1 as (_ & _ & P1). specialize (P1 c).
      destruct (cd_slices cd) as [|x d]; [|discriminate]. destruct (proj2 P1). exists e. split; [exact J|]. split; [exact T|]. rewrite ES. left. reflexivity.
    - apply ssorted_filter. rewrite numbered_labels. apply ssorted_seq.
    - intros r J. apply filter_In in J. destruct J as [J T]. apply numbered_In in J. destruct J as [J _]. pose proof (slices_nonempty _ _ _ _ _ _ D J) as NE.
      destruct r as [j [e r]]. cbn [fst snd] in *. unfold of_type in T. cbn [fst snd] in T. apply String.eqb_eq in T.
      destruct (e_slices e) as [|[c v] sl] eqn:ES; [contradiction NE; reflexivity|]. exists (px_slices px, c). split.
      + apply in_app_iff. left. apply in_map. destruct P1 as (_ & _ & P1). apply P1. exists e. split; [exact J|]. split; [exact T|]. rewrite ES. left. reflexivity.
      + unfold has, get_cell. cbn [fst snd]. rewrite PXS. cbn [fst]. rewrite ES. cbn [dget]. rewrite String.eqb_refl. reflexivity. }
  exists (map (fun td => (fst td, Frame (names (snd td)) (map (fun r => (fst r, map (the_cell px r) (names (snd td)))) (filter (of_type (fst td)) (numbered 0 es))))) data).
  split.
  { clear -FR. revert FR. induction data as [|[t cd] data IH]; intros FR; [reflexivity|]. cbn [mapM fst snd]. rewrite (FR t cd (or_introl eq_refl)). cbn [bind].
    rewrite IH by (intros t' cd' J; apply FR; right; exact J). reflexivity. }
  rewrite map_map. cbn [fst]. split; [exact ND2|]. split.
  { intros t. rewrite <- (proj1 (I t)). change (map (fun x : string * column_data V => fst x) data) with (map fst data). rewrite (dmem_In _ String.eqb_eq). reflexivity. }
  intros t f H. apply in_map_iff in H. destruct H as ([t' cd] & H & J). cbn [fst snd] in H. injection H as -> <-. cbn [fr_columns fr_rows].
  pose proof (proj2 (dget_In_NoDup _ String.eqb_eq _ _ _ ND2) J) as G. destruct (I t) as (_ & P1 & P2 & P3). unfold old in *. rewrite G in *.
  exists (map fst (cd_slices cd)), (map fst (cd_keys cd)), (map fst (cd_values cd)). destruct P1 as (A1 & _ & C1), P2 as (A2 & _ & C2), P3 as (A3 & _ & C3).
  split; [reflexivity|]. repeat (split; [assumption|]). reflexivity.
Qed.

Definition metric_key (name : string) : fval string := One (Message [("name", One (Prim name)); ("sub_key", Unset); ("example_weighted", One (Wrapper "False"))]).

Definition double (v : string) : list (string * fval string) := [("double_value", One (Wrapper v)); ("confusion_matrix_at_thresholds", Unset)].

Definition matrix (th tp : string) : pval string := Message [("threshold", One (Prim th)); ("true_positives", One (Prim tp)); ("bounded_precision", Unset)].

Definition matrices (l : list (pval string)) : list (string * fval string) :=
  [("double_value", Unset); ("confusion_matrix_at_thresholds", One (Message [("matrices", Repeated l)]))].

(** Arrays of more dimensions than elements overlap with the next row, and the frames cannot be
    made. *)

Definition array (shape values : list string) : list (string * fval string) :=
  [("array_value", One (Message [("data_type", One (Prim "5")); ("shape", Repeated (map Prim shape)); ("float64_values", Repeated (map Prim values))]))].

Lemma C212_arrays_refuted_pf : exists a b, metrics_as_dataframes set_str (fun s => s) false [ForSlice (SliceKey []) [(metric_key "a", array ["1"; "1"; "1"] [a]); (metric_key "b", array ["1"; "1"; "1"] [b])]] = Err ValueError.
Proof. exists "0.5", "0.7". vm_compute. reflexivity. Qed.

(** So do the entries of a multi-class matrix at two thresholds. *)

Definition class_matrix (th : string) (entries : list (string * string * string)) : pval string :=
  Message [("threshold", One (Prim th));
           ("entries", Repeated (map (fun e => Message [("actual_class_id", One (Prim (fst (fst e)))); ("predicted_class_id", One (Prim (snd (fst e)))); ("num_weighted_examples", One (Prim (snd e)))]) entries))].

Lemma C212_class_matrices_refuted_pf : exists m1 m2, metrics_as_dataframes set_str (fun s => s) false
    [ForSlice (SliceKey []) [(metric_key "m", [("multi_class_confusion_matrix_at_thresholds", One (Message [("matrices", Repeated [class_matrix "0.2" m1; class_matrix "0.8" m2])]))])]] = Err ValueError.
Proof. exists [("0", "0", "4"); ("0", "1", "2")], [("0", "0", "3"); ("0", "1", "3")]. vm_compute. reflexivity. Qed.

Lemma C213_types_pf V (truthy : V -> bool) (of_str : string -> V) inc l es : describes truthy of_str inc l es ->
  ((exists dfs, metrics_as_dataframes truthy of_str inc l = Ok dfs) <->
   forall e, In e es -> In (e_type e) ["double_value"; "confusion_matrix_at_thresholds"; "multi_class_confusion_matrix_at_thresholds"; "bytes_value"; "array_value"]) /\
  ((exists dfs, plots_as_dataframes truthy of_str inc l = Ok dfs) <->
   forall e, In e es -> In (e_type e) ["calibration_histogram_buckets"; "confusion_matrix_at_thresholds"; "multi_class_confusion_matrix_at_thresholds";
                                       "multi_label_confusion_matrix_at_thresholds"; "debug_message"]) /\
  (metrics_as_dataframes truthy of_str inc l = Err TypeError \/ metrics_as_dataframes truthy of_str inc l = to_dataframes truthy of_str metric_columns inc l) /\
  (plots_as_dataframes truthy of_str inc l = Err TypeError \/ plots_as_dataframes truthy of_str inc l = to_dataframes truthy of_str plot_columns inc l).
Proof.
  intros D. unfold metrics_as_dataframes, plots_as_dataframes.
  assert (N1 : NoDup [px_slices metric_columns; px_keys metric_columns; px_values metric_columns]) by (repeat constructor; cbn; intuition discriminate).
  assert (N2 : NoDup [px_slices plot_columns; px_keys plot_columns; px_values plot_columns]) by (repeat constructor; cbn; intuition discriminate).
  destruct (C212_rows_partial_pf V truthy of_str _ inc l es N1 D) as (d1 & E1 & _ & T1 & _), (C212_rows_partial_pf V truthy of_str _ inc l es N2 D) as (d2 & E2 & _ & T2 & _).
  rewrite E1, E2. cbn [bind].
  assert (A : forall fields dfs, (forall t, In t (map fst dfs) <-> exists e, In e es /\ e_type e = t) ->
            ((exists r, as_fields (V := V) fields dfs = Ok r) <-> forall e, In e es -> In (e_type e) fields) /\
            (as_fields fields dfs = Err TypeError \/ as_fields fields dfs = Ok dfs)).
  { intros fields dfs T. unfold as_fields. destruct (forallb (fun tf => memb String.eqb (fst tf) fields) dfs) eqn:F.
    - split; [|right; reflexivity]. split; [|intros _; exists dfs; reflexivity]. intros _ e I. rewrite forallb_forall in F.
      assert (J : In (e_type e) (map fst dfs)) by (apply T; exists e; auto). apply in_map_iff in J. destruct J as (tf & <- & J). apply (memb_In _ String.eqb_eq). exact (F _ J).
    - split; [|left; reflexivity]. split; [intros (r & E); discriminate|]. intros H. exfalso. assert (X : forallb (fun tf => memb String.eqb (fst tf) fields) dfs = true); [|congruence].
      apply forallb_forall. intros tf J. apply (memb_In _ String.eqb_eq). destruct (proj1 (T (fst tf)) (in_map fst _ _ J)) as (e & I & <-). exact (H e I). }
  destruct (A METRIC_FRAMES d1 T1) as [A1 B1], (A PLOT_FRAMES d2 T2) as [A2 B2].
  split; [exact A1|]. split; [exact A2|]. split; assumption.
Qed.

(** One bounded value, and there are no frames at all. *)

Definition bounded (v : string) : list (string * fval string) :=
  [("double_value", Unset); ("bounded_value", One (Message [("lower_bound", Unset); ("upper_bound", Unset); ("value", One (Wrapper v)); ("methodology", One (Prim "2"))]))].

Lemma C213_bounded_values_refuted_pf : exists v w, metrics_as_dataframes set_str (fun s => s) false
    [ForSlice (SliceKey []) [(metric_key "mae", double v)]; ForSlice (SliceKey []) [(metric_key "auc", bounded w)]] = Err TypeError.
Proof. exists "0.1", "0.9". vm_compute. reflexivity. Qed.

Lemma C214_no_value_pf V (truthy : V -> bool) (of_str : string -> V) px inc a b l r kvs c : (forall s, In s a -> exists sl, fs_slicing s = SliceKey (map (fun cv => (fst cv, Some (snd cv))) sl)) ->
  to_dataframes truthy of_str px inc (a ++ ForSlice (SliceKey (map (fun cv => (fst cv, Some (snd cv))) l ++ (c, None) :: r)) kvs :: b) = Err NotImplementedError.
Proof.
  intros H. unfold to_dataframes, column_data_of. set (step := fun st s => let! slices := slices_of (fs_slicing s) in _).
  enough (E : forall st, foldM step (a ++ ForSlice (SliceKey (map (fun cv => (fst cv, Some (snd cv))) l ++ (c, None) :: r)) kvs :: b) st = Err NotImplementedError) by (rewrite E; reflexivity).
  induction a as [|s a IH]; intros st; cbn [app foldM].
  - unfold step at 1. cbn [fs_slicing]. unfold slices_of. cbn [single_slice_keys].
    assert (E : forall l, mapM (fun kv : string * option V => match snd kv with Some v => Ok (fst kv, v) | None => Err NotImplementedError end)
                (map (fun cv => (fst cv, Some (snd cv))) l ++ (c, None) :: r) = Err NotImplementedError).
    { clear. induction l as [|[n v] l IH]; [reflexivity|]. cbn [map app mapM snd fst bind]. rewrite IH. reflexivity. }
    rewrite E. reflexivity.
  - unfold step at 1. destruct (H s (or_introl eq_refl)) as (sl & E). rewrite E. unfold slices_of. cbn [single_slice_keys].
    assert (M : forall l, mapM (fun kv : string * option V => match snd kv with Some v => Ok (fst kv, v) | None => Err NotImplementedError end)
                (map (fun cv => (fst cv, Some (snd cv))) l) = Ok l).
    { clear. induction l as [|[n v] l IH]; [reflexivity|]. cbn [map app mapM snd fst bind]. rewrite IH. reflexivity. }
    rewrite M. cbn [bind]. apply IH. intros s' I. apply H. right. exact I.
Qed.

(** Rows of a frame that agree in all slice columns are of the same slice, if no feature is
    called Overall. *)

Lemma find_column {V} (cs : list (string * string)) (g : string * string -> option V) c :
  match find (fun cv => String.eqb (fst (fst cv)) (fst c) && String.eqb (snd (fst cv)) (snd c)) (combine cs (map g cs)) with Some (_, v) => v | None => None end
  = if existsb (fun d => String.eqb (fst d) (fst c) && String.eqb (snd d) (snd c)) cs then g c else None.
Proof.
  induction cs as [|d cs IH]; [reflexivity|]. cbn [map combine find existsb fst].
  destruct (String.eqb_spec (fst d) (fst c)) as [E1|N1]; cbn [andb]; [|exact IH]. destruct (String.eqb_spec (snd d) (snd c)) as [E2|N2]; cbn [orb]; [|exact IH].
  destruct d, c. cbn in *. subst. reflexivity.
Qed.

Lemma cell_of_row {V} (f : frame V) i (g : string * string -> option V) c :
  cell_of f (i, map g (fr_columns f)) c = if existsb (fun d => String.eqb (fst d) (fst c) && String.eqb (snd d) (snd c)) (fr_columns f) then g c else None.
Proof. unfold cell_of. apply find_column. Qed.

Lemma existsb_column (cs : list (string * string)) c : existsb (fun d => String.eqb (fst d) (fst c) && String.eqb (snd d) (snd c)) cs = true <-> In c cs.
Proof.
  rewrite existsb_exists. split.
  - intros (d & I & E). apply andb_true_iff in E. destruct E as [E1 E2]. apply String.eqb_eq in E1, E2. destruct d, c. cbn in *. subst. exact I.
  - intros I. exists c. rewrite !String.eqb_refl. split; [exact I|reflexivity].
Qed.

Lemma same_cells {V} (a b : list (string * V)) : NoDup (map fst a) -> NoDup (map fst b) -> (forall c, dget String.eqb a c = dget String.eqb b c) -> Permutation a b.
Proof.
  intros N1 N2 H. apply NoDup_Permutation; [apply (NoDup_map_inv fst); exact N1|apply (NoDup_map_inv fst); exact N2|]. intros [c v].
  rewrite <- (dget_In_NoDup _ String.eqb_eq _ _ _ N1), <- (dget_In_NoDup _ String.eqb_eq _ _ _ N2), H. reflexivity.
Qed.

Lemma C214_slices_partial_pf V (truthy : V -> bool) (of_str : string -> V) px inc l es dfs t f i j x y :
  NoDup [px_slices px; px_keys px; px_values px] -> describes truthy of_str inc l es -> to_dataframes truthy of_str px inc l = Ok dfs -> In (t, f) dfs ->
  nth_error (fr_rows f) i = Some x -> nth_error (fr_rows f) j = Some y -> (forall c, cell_of f x (px_slices px, c) = cell_of f y (px_slices px, c)) ->
  exists r1 r2, nth_error (filter (of_type t) (numbered 0 es)) i = Some r1 /\ nth_error (filter (of_type t) (numbered 0 es)) j = Some r2 /\
    forall sl1 sl2, e_slices (fst (snd r1)) = slice_cells of_str sl1 -> e_slices (fst (snd r2)) = slice_cells of_str sl2 ->
      NoDup (map fst sl1) -> NoDup (map fst sl2) -> ~ In "Overall" (map fst sl1) -> ~ In "Overall" (map fst sl2) -> Permutation sl1 sl2.
Proof.
  intros ND D E I X Y H. destruct (C212_rows_partial_pf V truthy of_str px inc l es ND D) as (dfs' & E' & _ & _ & R). rewrite E in E'. injection E' as <-.
  destruct (R t f I) as (a & b & c0 & FC & _ & _ & _ & SC & _ & _ & FR). revert X Y. rewrite FR, !nth_error_map.
  destruct (nth_error (filter (of_type t) (numbered 0 es)) i) as [r1|] eqn:X1; [|cbn [option_map]; intros X; discriminate X]. destruct (nth_error (filter (of_type t) (numbered 0 es)) j) as [r2|] eqn:Y1; [|cbn [option_map]; intros _ Y; discriminate Y].
  cbn [option_map]. intros X Y. injection X as X. injection Y as Y. rewrite <- X, <- Y in H. clear X Y. exists r1, r2. split; [reflexivity|]. split; [reflexivity|].
  intros sl1 sl2 E1 E2 N1 N2 O1 O2.
  assert (G : forall r, In r (filter (of_type t) (numbered 0 es)) -> forall c, cell_of f (fst r, map (the_cell px r) (fr_columns f)) (px_slices px, c)
                 = match dget String.eqb (e_slices (fst (snd r))) c with Some v => v | None => None end).
  { intros r J c. rewrite cell_of_row. assert (TC : the_cell px r (px_slices px, c) = match dget String.eqb (e_slices (fst (snd r))) c with Some v => v | None => None end).
    { unfold the_cell, the_cells. cbn [fst snd]. rewrite String.eqb_refl. reflexivity. }
    destruct (existsb _ (fr_columns f)) eqn:EX; [exact TC|]. rewrite <- TC. symmetry. rewrite TC. destruct (dget String.eqb (e_slices (fst (snd r))) c) as [v|] eqn:DG; [|reflexivity]. exfalso.
    assert (EXT : existsb (fun d => String.eqb (fst d) (fst (px_slices px, c)) && String.eqb (snd d) (snd (px_slices px, c))) (fr_columns f) = true); [|congruence].
    apply existsb_column. rewrite FC. apply in_app_iff. left. apply in_map. apply SC. apply filter_In in J. destruct J as [J T]. apply numbered_In in J.
    exists (fst (snd r)). split; [exact (proj1 J)|]. split; [apply String.eqb_eq; exact T|]. apply (dget_In _ String.eqb_eq) in DG. apply (in_map fst) in DG. exact DG. }
  assert (S : forall sl : list (string * V), forall c, match dget String.eqb (slice_cells of_str sl) c with Some v => v | None => None end
                 = match sl with [] => if String.eqb c "Overall" then Some (of_str "") else None | _ => dget String.eqb sl c end).
  { intros sl c. unfold slice_cells. destruct sl as [|s sl]; [cbn [dget]; destruct (String.eqb c "Overall"); reflexivity|].
    generalize (s :: sl). clear. induction l as [|[n v] l IH]; [reflexivity|]. cbn [map dget fst snd]. destruct (String.eqb c n); [reflexivity|exact IH]. }
  assert (H' : forall c, c <> "Overall" -> dget String.eqb sl1 c = dget String.eqb sl2 c).
  { intros c NC. specialize (H c). rewrite (G r1 (nth_error_In _ _ X1)), (G r2 (nth_error_In _ _ Y1)), E1, E2, !S in H.
    assert (NE : String.eqb c "Overall" = false) by (apply String.eqb_neq; exact NC). rewrite NE in H. destruct sl1, sl2; cbn [dget] in *; exact H. }
  apply same_cells; [exact N1|exact N2|]. intros c. destruct (String.eqb_spec c "Overall") as [->|NC]; [|exact (H' c NC)].
  rewrite (proj2 (dget_None _ String.eqb_eq _ _) O1), (proj2 (dget_None _ String.eqb_eq _ _) O2). reflexivity.
Qed.

Lemma C214_cross_slices_refuted_pf : exists baseline comparison, baseline <> comparison /\
  metrics_as_dataframes set_str (fun s => s) false [ForSlice (CrossSliceKey baseline comparison) [(metric_key "mae", double "-0.1")]]
  = metrics_as_dataframes set_str (fun s => s) false [ForSlice (SliceKey []) [(metric_key "mae", double "-0.1")]].
Proof. exists [("sex", Some "f")], [("sex", Some "m")]. split; [discriminate|reflexivity]. Qed.

Lemma C214_overall_feature_refuted_pf : exists kvs, metrics_as_dataframes set_str (fun s => s) false [ForSlice (SliceKey [("Overall", Some "")]) kvs]
  = metrics_as_dataframes set_str (fun s => s) false [ForSlice (SliceKey []) kvs] /\
  is_ok (metrics_as_dataframes set_str (fun s => s) false [ForSlice (SliceKey []) kvs]) = true /\ kvs <> [].
Proof. exists [(metric_key "mae", double "0.1")]. split; [reflexivity|]. split; [reflexivity|discriminate]. Qed.

(** With empty columns the frames have the same rows and cells; the columns they have more are
    those of the unset fields of keys. *)

Definition set_only {V} (k : list (string * option V)) : list (string * option V) := filter (fun nv => match snd nv with Some _ => true | None => false end) k.

Definition without_empty {V} (e : entry V) : entry V := Entry (e_slices e) (set_only (e_key e)) (e_type e) (e_rows e).

Lemma set_only_concat {V} (ls : list (list (string * option V))) : set_only (concat ls) = concat (map set_only ls).
Proof. unfold set_only. induction ls as [|l ls IH]; [reflexivity|]. cbn [concat map]. rewrite filter_app, IH. reflexivity. Qed.

Fixpoint reads_set_only {V} n (f : fval V) l (H : reads true n f l) {struct H} : reads false n f (set_only l).
Proof.
  destruct H as [m|m v|m v|m fs ls H].
  - exact (reads_unset false m).
  - exact (reads_prim false m v).
  - exact (reads_wrapper false m v).
  - rewrite set_only_concat. apply reads_message. induction H as [|nf l fs ls R H IH]; [constructor|]. constructor; [exact (reads_set_only _ _ _ _ R)|exact IH].
Qed.

Lemma set_only_NoDup {V} (k : list (string * option V)) : NoDup (map fst k) -> NoDup (map fst (set_only k)).
Proof.
  unfold set_only. induction k as [|[n v] k IH]; intros N; [constructor|]. cbn [map fst] in N. apply NoDup_cons_iff in N. destruct N as [N0 N]. cbn [filter snd].
  destruct v; [|exact (IH N)]. cbn [map fst]. constructor; [|exact (IH N)]. intros I. apply N0. apply in_map_iff in I. destruct I as (x & <- & I). apply filter_In in I. apply in_map. exact (proj1 I).
Qed.

Lemma set_only_dget {V} (k : list (string * option V)) c : NoDup (map fst k) ->
  match dget String.eqb (set_only k) c with Some v => v | None => None end = match dget String.eqb k c with Some v => v | None => None end.
Proof.
  unfold set_only. induction k as [|[n v] k IH]; intros N; [reflexivity|]. cbn [map fst] in N. apply NoDup_cons_iff in N. destruct N as [N0 N]. cbn [filter snd dget].
  destruct v as [v|]; cbn [dget]; destruct (String.eqb_spec c n) as [->|NE]; try reflexivity; try exact (IH N).
  rewrite IH by exact N. rewrite (proj2 (dget_None _ String.eqb_eq _ _) N0). reflexivity.
Qed.

Lemma describes_without_empty {V} truthy (of_str : string -> V) l es : describes truthy of_str true l es ->
  describes truthy of_str false l (map without_empty es) /\ forall e, In e es -> NoDup (map fst (e_key e)).
Proof.
  intros (ess & D & ->).
  assert (DF : forall sl k fs es, NoDup (map fst k) -> describes_fields truthy sl k fs es ->
             describes_fields truthy sl (set_only k) fs (map without_empty es) /\ forall e, In e es -> NoDup (map fst (e_key e))).
  { intros sl k fs es N H. induction H as [|t fs es D' IH|t v fs es E D' IH|t f rows fs es PT T D' IH].
    - split; [constructor|intros ? []].
    - destruct IH. split; [constructor; assumption|assumption].
    - destruct IH. split; [constructor; assumption|assumption].
    - destruct IH as [A B]. split; [apply field_set; assumption|]. intros e [<-|I]; [exact N|exact (B e I)]. }
  assert (DV : forall sl kvs ess, Forall2 (describes_value truthy true sl) kvs ess ->
             Forall2 (describes_value truthy false sl) kvs (map (map without_empty) ess) /\ forall e, In e (concat ess) -> NoDup (map fst (e_key e))).
  { intros sl kvs ess' H. induction H as [|kv es kvs ess' (k & R & N & F) H IH]; [split; [constructor|intros ? []]|]. destruct (DF _ _ _ _ N F) as [A B], IH as [C E].
    split; [constructor; [|exact C]; exists (set_only k); split; [exact (reads_set_only _ _ _ R)|]; split; [exact (set_only_NoDup _ N)|exact A]|].
    intros e I. cbn [concat] in I. apply in_app_iff in I. destruct I as [I|I]; [exact (B e I)|exact (E e I)]. }
  assert (H : Forall2 (describes_slice truthy of_str false) l (map (map without_empty) ess) /\ forall e, In e (concat ess) -> NoDup (map fst (e_key e))).
  { induction D as [|s es l ess DS D IH]; [split; [constructor|intros ? []]|]. destruct DS as (sl & vss & E1 & E2 & E3 & ->). destruct (DV _ _ _ E3) as [A B], IH as [C E].
    split; [constructor; [|exact C]; exists sl, (map (map without_empty) vss); split; [exact E1|]; split; [exact E2|]; split; [exact A|apply concat_map]|].
    intros e I. cbn [concat] in I. apply in_app_iff in I. destruct I as [I|I]; [exact (B e I)|exact (E e I)]. }
  destruct H as [H1 H2]. split; [|exact H2]. exists (map (map without_empty) ess). split; [exact H1|apply concat_map].
Qed.

Lemma numbered_without {V} (es : list (entry V)) : forall i, numbered i (map without_empty es) = map (fun r => (fst r, (without_empty (fst (snd r)), snd (snd r)))) (numbered i es).
Proof.
  induction es as [|e es IH]; intros i; [reflexivity|]. cbn [map numbered without_empty e_rows]. rewrite IH, map_app. f_equal. generalize i.
  induction (e_rows e) as [|r l IHl]; intros j; [reflexivity|]. cbn [length seq map combine fst snd]. rewrite IHl. reflexivity.
Qed.

Lemma C215_empty_columns_pf V (truthy : V -> bool) (of_str : string -> V) px l es :
  NoDup [px_slices px; px_keys px; px_values px] -> describes truthy of_str true l es ->
  exists dfs dfs', to_dataframes truthy of_str px false l = Ok dfs /\ to_dataframes truthy of_str px true l = Ok dfs' /\
    (forall t, In t (map fst dfs) <-> In t (map fst dfs')) /\
    forall t f f', In (t, f) dfs -> In (t, f') dfs' ->
      map fst (fr_rows f) = map fst (fr_rows f') /\
      (forall i x y c, nth_error (fr_rows f) i = Some x -> nth_error (fr_rows f') i = Some y -> cell_of f x c = cell_of f' y c) /\
      (forall p c, In (p, c) (fr_columns f') <-> In (p, c) (fr_columns f) \/ p = px_keys px /\ exists e, In e es /\ e_type e = t /\ In (c, None) (e_key e)).
Proof.
  intros ND D. destruct (describes_without_empty _ _ _ _ D) as [D' NK]. destruct (C212_rows_partial_pf V truthy of_str px false l _ ND D') as (dfs & E & _ & T & R).
  destruct (C212_rows_partial_pf V truthy of_str px true l _ ND D) as (dfs' & E' & _ & T' & R'). exists dfs, dfs'. split; [exact E|]. split; [exact E'|]. split.
  { intros t. rewrite T, T'. split.
    - intros (e & I & H). apply in_map_iff in I. destruct I as (e' & <- & I). exists e'. split; [exact I|exact H].
    - intros (e & I & H). exists (without_empty e). split; [apply in_map; exact I|exact H]. }
  intros t f f' I I'. destruct (R t f I) as (a & b & c0 & FC & _ & _ & _ & SC & KC & VC & FR), (R' t f' I') as (a' & b' & c0' & FC' & _ & _ & _ & SC' & KC' & VC' & FR').
  set (h := fun r : row V => (fst r, (without_empty (fst (snd r)), snd (snd r)))).
  assert (RE : filter (of_type t) (numbered 0 (map without_empty es)) = map h (filter (of_type t) (numbered 0 es))).
  { rewrite numbered_without. fold h. generalize (numbered 0 es). intros q. induction q as [|x q IH]; [reflexivity|]. cbn [map filter].
    assert (TE : of_type t (h x) = of_type t x) by reflexivity. rewrite TE. destruct (of_type t x); cbn [map]; rewrite IH; reflexivity. }
  rewrite RE in FR.
  inversion ND as [|? ? N1 ND']; subst. inversion ND' as [|? ? N2 _]; subst. cbn [In] in N1, N2.
  assert (COLS : forall p c, In (p, c) (fr_columns f') <-> In (p, c) (fr_columns f) \/ p = px_keys px /\ exists e, In e es /\ e_type e = t /\ In (c, None) (e_key e)).
  { intros p c. rewrite FC, FC', !in_app_iff.
    assert (IM : forall q l, In (p, c) (map (pair q) l) <-> p = q /\ In c l).
    { intros q l0. rewrite in_map_iff. split; [intros (x & X & J); injection X as -> ->; auto|intros [-> J]; exists c; auto]. }
    rewrite !IM, SC, KC, VC, SC', KC', VC'.
    assert (S1 : slice_column t es c <-> slice_column t (map without_empty es) c).
    { split; intros (e & J & X & Y).
      - exists (without_empty e). split; [apply in_map; exact J|]. split; assumption.
      - apply in_map_iff in J. destruct J as (e' & <- & J). exists e'. split; [exact J|]. split; assumption. }
    assert (S2 : key_column t es c <-> key_column t (map without_empty es) c \/ exists e, In e es /\ e_type e = t /\ In (c, None) (e_key e)).
    { split.
      - intros (e & J & X & Y). apply in_map_iff in Y. destruct Y as ([n v] & Z & Y). cbn [fst] in Z. subst n. destruct v as [v|].
        + left. exists (without_empty e). split; [apply in_map; exact J|]. split; [exact X|]. cbn [without_empty e_key]. apply in_map_iff. exists (c, Some v). split; [reflexivity|].
          apply filter_In. split; [exact Y|reflexivity].
        + right. exists e. auto.
      - intros [(e & J & X & Y)|(e & J & X & Y)].
        + apply in_map_iff in J. destruct J as (e' & <- & J). exists e'. split; [exact J|]. split; [exact X|]. cbn [without_empty e_key] in Y. apply in_map_iff in Y.
          destruct Y as (z & <- & Y). apply filter_In in Y. apply in_map. exact (proj1 Y).
        + exists e. split; [exact J|]. split; [exact X|]. apply (in_map fst) in Y. exact Y. }
    assert (S3 : value_column t es c <-> value_column t (map without_empty es) c).
    { split; intros (e & r & J & X & Y).
      - exists (without_empty e), r. split; [apply in_map; exact J|]. split; assumption.
      - apply in_map_iff in J. destruct J as (e' & <- & J). exists e', r. split; [exact J|]. split; assumption. }
    rewrite S1, S2, S3. tauto. }
  split; [rewrite FR, FR', !map_map; reflexivity|]. split; [|exact COLS].
  intros i x y c. rewrite FR, FR', !nth_error_map. destruct (nth_error (filter (of_type t) (numbered 0 es)) i) as [r|] eqn:X; [|intros Z; discriminate Z].
  cbn [option_map]. intros Z1 Z2. injection Z1 as <-. injection Z2 as <-. rewrite !cell_of_row.
  assert (CE : the_cell px (h r) c = the_cell px r c).
  { unfold the_cell, the_cells. destruct (String.eqb (fst c) (px_slices px)); [reflexivity|]. destruct (String.eqb (fst c) (px_keys px)); [|reflexivity].
    cbn [h fst snd without_empty e_key]. apply set_only_dget. apply NK. apply nth_error_In in X. apply filter_In in X. apply (numbered_In es 0 r). exact (proj1 X). }
  destruct (existsb _ (fr_columns f)) eqn:EX.
  - rewrite (proj2 (existsb_column _ _)); [exact CE|]. apply existsb_column in EX. destruct c as [p c]. apply COLS. left. exact EX.
  - destruct (existsb _ (fr_columns f')) eqn:EX'; [|reflexivity]. apply existsb_column in EX'. destruct c as [p c]. apply COLS in EX'. destruct EX' as [EX'|[-> (e & J & X' & Y)]].
    + apply existsb_column in EX'. congruence.
    + rewrite <- CE. unfold the_cell, the_cells. cbn [fst snd]. destruct (String.eqb_spec (px_keys px) (px_slices px)); [intuition|]. rewrite String.eqb_refl.
      destruct (dget String.eqb (e_key (fst (snd (h r)))) c) as [v|] eqn:DG; [|reflexivity]. exfalso. assert (F : existsb (fun d => String.eqb (fst d) (fst (px_keys px, c)) && String.eqb (snd d) (snd (px_keys px, c))) (fr_columns f) = true); [|congruence].
      apply existsb_column. rewrite FC. apply in_app_iff. right. apply in_app_iff. left. apply in_map. apply KC. exists (fst (snd (h r))).
      apply nth_error_In in X. apply filter_In in X. destruct X as [X X2]. split; [cbn [h snd fst]; apply in_map; apply (numbered_In es 0 r X)|].
      split; [apply String.eqb_eq; exact X2|]. apply (dget_In _ String.eqb_eq) in DG. apply (in_map fst) in DG. exact DG.
Qed.

(** A frame: distinct columns, and rows of cells of them. *)

Definition frame_shape {V} (f : frame V) : Prop := NoDup (fr_columns f) /\ forall r, In r (fr_rows f) -> length (snd r) = length (fr_columns f).

(** The slice of a row: the names and values of its cells that are not empty. *)

Definition slice_of {V} (f : frame V) (r : nat * list (option V)) : list (string * V) :=
  concat (map (fun c => if String.eqb (fst c) "slices" then match cell_of f r c with Some v => [(snd c, v)] | None => [] end else []) (fr_columns f)).

Definition slice_text {V} (str : V -> string) (l : list (string * V)) : string := join "; " (map (fun cv => (fst cv ++ ":" ++ str (snd cv))%string) l).

(* proofs *)

Lemma ascii_leb_trans a b c : Ascii.leb a b = true -> Ascii.leb b c = true -> Ascii.leb a c = true.
Proof.
  unfold Ascii.leb, Ascii.compare. destruct (N.compare_spec (N_of_ascii a) (N_of_ascii b)), (N.compare_spec (N_of_ascii b) (N_of_ascii c)), (N.compare_spec (N_of_ascii a) (N_of_ascii c)); try reflexivity; try discriminate; lia.
Qed.

Lemma string_leb_cons a b s t : String.leb (String a s) (String b t) = match Ascii.compare a b with Lt => true | Eq => String.leb s t | Gt => false end.
Proof. unfold String.leb. cbn [String.compare]. destruct (Ascii.compare a b); reflexivity. Qed.

Lemma string_leb_trans : forall a b c, String.leb a b = true -> String.leb b c = true -> String.leb a c = true.
Proof.
  induction a as [|x a IH]; intros [|y b] [|z c] H1 H2; try reflexivity; try discriminate.
  rewrite string_leb_cons in *. unfold Ascii.compare in *.
  destruct (N.compare_spec (N_of_ascii x) (N_of_ascii y)), (N.compare_spec (N_of_ascii y) (N_of_ascii z)), (N.compare_spec (N_of_ascii x) (N_of_ascii z)); try reflexivity; try discriminate; try lia.
  exact (IH _ _ H1 H2).
Qed.

Lemma combine_cells {V} (f : frame V) r : NoDup (fr_columns f) -> length (snd r) = length (fr_columns f) ->
  combine (fr_columns f) (snd r) = map (fun c => (c, cell_of f r c)) (fr_columns f).
Proof.
  unfold cell_of. generalize (snd r) as vs. generalize (fr_columns f) as cs. induction cs as [|c cs IH]; intros vs N L; [reflexivity|].
  destruct vs as [|v vs]; [discriminate|]. apply NoDup_cons_iff in N. destruct N as [N0 N]. cbn [combine map find fst]. rewrite !String.eqb_refl. cbn [andb].
  f_equal. rewrite (IH vs N) at 1 by (cbn in L; lia). apply map_ext_in. intros d I. cbn [fst snd].
  destruct (String.eqb (fst c) (fst d) && String.eqb (snd c) (snd d)) eqn:E; [|reflexivity].
  exfalso. apply andb_true_iff in E. destruct E as [E1 E2]. apply String.eqb_eq in E1, E2. apply N0. destruct c, d. cbn in *. subst. exact I.
Qed.

Lemma row_string_text {V} (str : V -> string) (f : frame V) r : frame_shape f -> In r (fr_rows f) -> row_string str f r = slice_text str (slice_of f r).
Proof.
  intros [N L] I. unfold row_string, slice_string, slice_text, under, slice_of. f_equal. rewrite (combine_cells f r N (L r I)). generalize (fr_columns f) at 1 2 as cs.
  induction cs as [|c cs IH]; [reflexivity|]. cbn [map filter fst snd concat]. destruct (String.eqb (fst c) "slices"); [|exact IH].
  cbn [map concat snd fst]. rewrite map_app, IH. destruct (cell_of f r c); reflexivity.
Qed.

Section SortRows.
  Context {V : Type} (str : V -> string) (f : frame V).
  Lemma insert_row_perm x l : Permutation (insert_row str f x l) (x :: l).
  Proof. induction l as [|y l IH]; [apply Permutation_refl|]. cbn [insert_row]. destruct String.leb; [apply Permutation_refl|]. rewrite IH. apply perm_swap. Qed.
  Lemma sort_rows_perm l : Permutation (fold_right (insert_row str f) [] l) l.
  Proof. induction l as [|x l IH]; [constructor|]. cbn [fold_right]. rewrite insert_row_perm. constructor. exact IH. Qed.
  Notation le_row := (fun a b => String.leb (row_string str f a) (row_string str f b) = true).
  Lemma insert_row_sorted x l : StronglySorted le_row l -> StronglySorted le_row (insert_row str f x l).
  Proof.
    induction 1 as [|y l S IH F]; [repeat constructor|]. cbn [insert_row]. destruct (String.leb (row_string str f x) (row_string str f y)) eqn:E.
    - constructor; [constructor; assumption|]. constructor; [exact E|]. apply Forall_forall. intros z I. rewrite Forall_forall in F. exact (string_leb_trans _ _ _ E (F z I)).
    - constructor; [exact IH|]. apply Forall_forall. intros z I. apply (Permutation_in _ (insert_row_perm x l)) in I. destruct I as [<-|I].
      + destruct (String.leb_total (row_string str f x) (row_string str f y)) as [X|X]; [congruence|exact X].
      + rewrite Forall_forall in F. exact (F z I).
  Qed.
  Lemma sort_rows_sorted l : StronglySorted le_row (fold_right (insert_row str f) [] l).
  Proof. induction l as [|x l IH]; [constructor|]. cbn [fold_right]. apply insert_row_sorted. exact IH. Qed.

End SortRows.

Lemma find_filter {A} (P Q : A -> bool) l : (forall x, P x = true -> Q x = true) -> find P (filter Q l) = find P l.
Proof.
  intros H. induction l as [|x l IH]; [reflexivity|]. cbn [filter find]. destruct (Q x) eqn:E; cbn [find].
  - rewrite IH. reflexivity.
  - destruct (P x) eqn:E2; [rewrite (H _ E2) in E; discriminate|exact IH].
Qed.

Definition kept (c : string * string) : bool := negb (String.eqb (fst c) "slices").

Lemma stringified_row {V} (of_str : string -> V) (str : V -> string) (f : frame V) r : frame_shape f -> In r (fr_rows f) ->
  forall (g : frame V) r', fr_columns g = ("slices", SLICE_STR) :: filter kept (fr_columns f) ->
  r' = (fst r, Some (of_str (row_string str f r)) :: map snd (filter (fun cv => kept (fst cv)) (combine (fr_columns f) (snd r)))) ->
  combine (fr_columns g) (snd r') = (("slices", SLICE_STR), Some (of_str (slice_text str (slice_of f r)))) :: filter (fun cv => kept (fst cv)) (combine (fr_columns f) (snd r))
  /\ length (snd r') = length (fr_columns g).
Proof.
  intros W I g r' -> ->. cbn [snd]. rewrite (row_string_text str f r W I). destruct W as [N L]. cbn [combine length].
  generalize (L r I). generalize (snd r) as vs. generalize (fr_columns f) as cs. induction cs as [|c cs IH]; intros vs E; [split; reflexivity|].
  destruct vs as [|v vs]; [discriminate|]. cbn [combine filter fst]. destruct (IH vs) as [A B]; [cbn in E; lia|]. injection A as A.
  destruct (kept c); cbn [map snd combine length]; [|split; [f_equal; exact A|exact B]]. split; [f_equal; f_equal; exact A|lia].
Qed.

Lemma C216_strings_pf V (of_str : string -> V) (str : V -> string) f : frame_shape f ->
  exists rows, Permutation rows (fr_rows f) /\ StronglySorted (fun a b => String.leb (slice_text str (slice_of f a)) (slice_text str (slice_of f b)) = true) rows /\
  let g := stringify_slices of_str str f "slices" in
  frame_shape g /\
  fr_columns g = ("slices", "stringified_slices") :: filter (fun c => negb (String.eqb (fst c) "slices")) (fr_columns f) /\
  Forall2 (fun r r' => fst r' = fst r /\ cell_of g r' ("slices", "stringified_slices") = Some (of_str (slice_text str (slice_of f r))) /\
                       forall c, fst c <> "slices" -> cell_of g r' c = cell_of f r c) rows (fr_rows g).
Proof.
  intros W. exists (fold_right (insert_row str f) [] (fr_rows f)). pose proof (sort_rows_perm str f (fr_rows f)) as P. split; [exact P|]. split.
  { assert (J : forall r, In r (fold_right (insert_row str f) [] (fr_rows f)) -> In r (fr_rows f)) by (intros r; apply Permutation_in; exact P).
    pose proof (sort_rows_sorted str f (fr_rows f)) as S. revert J S. clear P. generalize (fold_right (insert_row str f) [] (fr_rows f)) as rows. intros rows J S.
    induction S as [|x l S IH F]; [constructor|]. constructor; [apply IH; intros r I; apply J; right; exact I|].
    apply Forall_forall. intros y I. rewrite Forall_forall in F. rewrite <- (row_string_text str f x W) by (apply J; left; reflexivity).
    rewrite <- (row_string_text str f y W) by (apply J; right; exact I). exact (F y I). }
  cbv zeta. set (g := stringify_slices of_str str f "slices"). assert (C : fr_columns g = ("slices", SLICE_STR) :: filter kept (fr_columns f)) by reflexivity.
  split; [split|split; [exact C|]].
  - rewrite C. constructor; [|apply NoDup_filter; exact (proj1 W)]. intros I. apply filter_In in I. destruct I as [_ I]. discriminate I.
  - intros r' I. unfold g, stringify_slices in I. cbn [fr_rows] in I. apply in_map_iff in I. destruct I as (r & E & I). symmetry in E.
    exact (proj2 (stringified_row of_str str f r W (Permutation_in _ P I) g r' C E)).
  - unfold g at 3. unfold stringify_slices. cbn [fr_rows].
    assert (J : forall r, In r (fold_right (insert_row str f) [] (fr_rows f)) -> In r (fr_rows f)) by (intros r; apply Permutation_in; exact P).
    revert J. clear P. generalize (fold_right (insert_row str f) [] (fr_rows f)) as rows. induction rows as [|r l IH]; intros J; [constructor|]. cbn [map]. constructor.
    + match goal with |- _ /\ cell_of g ?q _ = _ /\ _ => destruct (stringified_row of_str str f r W (J r (or_introl eq_refl)) g q C eq_refl) as [A _] end. split; [reflexivity|]. split.
      * unfold cell_of. rewrite A. reflexivity.
      * intros c NC. unfold cell_of. rewrite A. cbn [find fst snd]. destruct (String.eqb_spec "slices" (fst c)) as [X|_]; [congruence|]. cbn [andb].
        rewrite find_filter; [reflexivity|]. intros x E. apply andb_true_iff in E. destruct E as [E _]. apply String.eqb_eq in E. unfold kept. rewrite E.
        destruct (String.eqb_spec (fst c) "slices"); [congruence|reflexivity].
    + apply IH. intros q I. apply J. right. exact I.
Qed.

(** Rows of different slices have different strings, if no name has a colon and no value a
    semicolon. *)

Fixpoint free_of (a : ascii) (s : string) : Prop := match s with "" => True | String b t => a <> b /\ free_of a t end.

Lemma split_at (a : ascii) x y : free_of a x -> free_of a y -> forall s t, (x ++ String a s = y ++ String a t)%string -> x = y /\ s = t.
Proof.
  revert y. induction x as [|c x IH]; intros y F G s t E.
  - destruct y as [|d y]; cbn [append] in E; [injection E as E2; auto|]. injection E as E1 E2. subst. destruct G as [G _]. congruence.
  - destruct F as [F0 F]. destruct y as [|d y]; cbn [append] in E; injection E as E1 E2; [congruence|]. subst. destruct G as [_ G]. destruct (IH y F G s t E2) as [-> ->]. auto.
Qed.

Lemma split_end (a : ascii) x y : free_of a x -> free_of a y -> forall t, x = (y ++ String a t)%string -> False.
Proof.
  revert y. induction x as [|c x IH]; intros y F G t E; destruct y as [|d y]; cbn [append] in E; try discriminate; injection E as E1 E2; rewrite <- ?E1 in *.
  - destruct F as [F _]. congruence.
  - destruct F as [_ F], G as [_ G]. exact (IH y F G t E2).
Qed.

Lemma append_assoc a b c : ((a ++ b) ++ c = a ++ (b ++ c))%string.
Proof. induction a as [|x a IH]; [reflexivity|]. cbn [append]. rewrite IH. reflexivity. Qed.

Lemma slice_text_inj {V} (str : V -> string) : (forall v w, str v = str w -> v = w) -> forall a b,
  (forall c v, In (c, v) a \/ In (c, v) b -> free_of ":" c /\ free_of ";" (str v)) -> slice_text str a = slice_text str b -> a = b.
Proof.
  intros SI. unfold slice_text.
  assert (HD : forall c v l, exists t, join "; " ((c ++ ":" ++ str v)%string :: map (fun cv : string * V => (fst cv ++ ":" ++ str (snd cv))%string) l) = (c ++ String ":" t)%string /\
             ((l = [] /\ t = str v) \/ exists d l', l = d :: l' /\ t = (str v ++ String ";" (String " " (join "; " (map (fun cv : string * V => (fst cv ++ ":" ++ str (snd cv))%string) l))))%string)).
  { intros c v [|d l]; cbn [map].
    - exists (str v). split; [reflexivity|left; auto].
    - eexists. split; [|right; exists d, l; split; reflexivity]. cbn [join]. rewrite append_assoc. reflexivity. }
  induction a as [|[c v] a IH]; intros [|[d w] b] F E; [reflexivity| | |].
  - cbn [map fst snd] in E. destruct (HD d w b) as (t & T & _). rewrite T in E. destruct d; discriminate E.
  - cbn [map fst snd] in E. destruct (HD c v a) as (t & T & _). rewrite T in E. destruct c; discriminate E.
  - cbn [map fst snd] in E. destruct (HD c v a) as (t & T & D1), (HD d w b) as (t' & T' & D2). rewrite T, T' in E.
    destruct (F c v (or_introl (or_introl eq_refl))) as [F1 F2], (F d w (or_intror (or_introl eq_refl))) as [G1 G2].
    destruct (split_at _ _ _ F1 G1 _ _ E) as [-> ET].
    assert (F' : forall c v, In (c, v) a \/ In (c, v) b -> free_of ":" c /\ free_of ";" (str v)) by (intros x y [I|I]; apply F; [left|right]; right; exact I).
    destruct D1 as [[-> ->]|(x & l & EA & ->)], D2 as [[-> ->]|(y & l' & EB & ->)].
    + rewrite (SI _ _ ET). reflexivity.
    + destruct (split_end _ _ _ F2 G2 _ ET).
    + symmetry in ET. destruct (split_end _ _ _ G2 F2 _ ET).
    + destruct (split_at _ _ _ F2 G2 _ _ ET) as [EV ER]. injection ER as ER. rewrite (SI _ _ EV), (IH b F' ER). reflexivity.
Qed.

Lemma slice_of_cells {V} (f : frame V) r c v : In (c, v) (slice_of f r) <-> In ("slices", c) (fr_columns f) /\ cell_of f r ("slices", c) = Some v.
Proof.
  unfold slice_of. rewrite in_concat. split.
  - intros (l & I & J). apply in_map_iff in I. destruct I as ([p d] & <- & I). cbn [fst snd] in J. destruct (String.eqb_spec p "slices") as [->|]; [|destruct J].
    destruct (cell_of f r ("slices", d)) eqn:E; [|destruct J]. destruct J as [X|[]]. injection X as -> ->. auto.
  - intros [I E]. exists [(c, v)]. split; [|left; reflexivity]. apply in_map_iff. exists ("slices", c). cbn [fst snd]. rewrite String.eqb_refl, E. auto.
Qed.

Lemma cell_of_outside {V} (f : frame V) r c : ~ In c (fr_columns f) -> cell_of f r c = None.
Proof.
  intros N. unfold cell_of. destruct (find _ _) as [[d v]|] eqn:E; [|reflexivity]. exfalso. apply find_some in E. destruct E as [I E]. cbn [fst] in E.
  apply andb_true_iff in E. destruct E as [E1 E2]. apply String.eqb_eq in E1, E2. apply in_combine_l in I. apply N. destruct c, d. cbn in *. subst. exact I.
Qed.

Lemma column_dec (a b : string * string) : {a = b} + {a <> b}.
Proof. decide equality; apply string_dec. Qed.

Lemma C216_distinct_partial_pf V (of_str : string -> V) (str : V -> string) f : (forall s t, of_str s = of_str t -> s = t) -> (forall v w, str v = str w -> v = w) -> frame_shape f ->
  (forall c, In ("slices", c) (fr_columns f) -> free_of ":" c) ->
  (forall r c v, In r (fr_rows f) -> cell_of f r ("slices", c) = Some v -> free_of ";" (str v)) ->
  exists rows, Permutation rows (fr_rows f) /\ Forall2 (fun r r' => fst r = fst r' /\
      forall q q', In (q, q') (combine rows (fr_rows (stringify_slices of_str str f "slices"))) ->
        (cell_of (stringify_slices of_str str f "slices") r' ("slices", "stringified_slices") = cell_of (stringify_slices of_str str f "slices") q' ("slices", "stringified_slices")
         <-> forall c, cell_of f r ("slices", c) = cell_of f q ("slices", c))) rows (fr_rows (stringify_slices of_str str f "slices")).
Proof.
  intros OI SI W FC FV. destruct (C216_strings_pf V of_str str f W) as (rows & P & _ & _ & _ & F). exists rows. split; [exact P|].
  assert (H : forall r q, In r rows -> In q rows -> slice_text str (slice_of f r) = slice_text str (slice_of f q) <-> forall c, cell_of f r ("slices", c) = cell_of f q ("slices", c)).
  { intros r q I J. split.
    - intros E. apply (slice_text_inj str SI) in E.
      + intros c. destruct (cell_of f r ("slices", c)) as [v|] eqn:E1.
        * assert (X : In (c, v) (slice_of f q)). { rewrite <- E. apply slice_of_cells. split; [|exact E1]. destruct (in_dec column_dec ("slices", c) (fr_columns f)) as [Y|Y]; [exact Y|]. rewrite cell_of_outside in E1 by exact Y. discriminate. }
          apply slice_of_cells in X. symmetry. exact (proj2 X).
        * destruct (cell_of f q ("slices", c)) as [v|] eqn:E2; [|reflexivity]. exfalso.
          assert (X : In (c, v) (slice_of f r)). { rewrite E. apply slice_of_cells. split; [|exact E2]. destruct (in_dec column_dec ("slices", c) (fr_columns f)) as [Y|Y]; [exact Y|]. rewrite cell_of_outside in E2 by exact Y. discriminate. }
          apply slice_of_cells in X. rewrite E1 in X. destruct X as [_ X]. discriminate.
      + intros c v [X|X]; apply slice_of_cells in X; destruct X as [X1 X2]; split; try exact (FC c X1).
        * exact (FV r c v (Permutation_in _ P I) X2).
        * exact (FV q c v (Permutation_in _ P J) X2).
    - intros E. f_equal. unfold slice_of. f_equal. apply map_ext. intros [p c]. cbn [fst snd]. destruct (String.eqb_spec p "slices") as [->|]; [|reflexivity]. rewrite E. reflexivity. }
  set (g := stringify_slices of_str str f "slices") in *.
  assert (G : forall l l', Forall2 (fun r r' => fst r' = fst r /\ cell_of g r' ("slices", "stringified_slices") = Some (of_str (slice_text str (slice_of f r))) /\ (forall c, fst c <> "slices" -> cell_of g r' c = cell_of f r c)) l l' ->
             forall q q', In (q, q') (combine l l') -> In q l /\ cell_of g q' ("slices", "stringified_slices") = Some (of_str (slice_text str (slice_of f q)))).
  { intros l l' K. induction K as [|x y l l' (_ & E & _) K IH]; intros q q' I; [destruct I|]. cbn [combine] in I. destruct I as [X|I]; [injection X as -> ->; split; [left; reflexivity|exact E]|].
    destruct (IH q q' I) as [A B]. split; [right; exact A|exact B]. }
  pose proof (G _ _ F) as GF.
  assert (K : forall l l', (forall r, In r l -> In r rows) -> Forall2 (fun r r' => fst r' = fst r /\ cell_of g r' ("slices", "stringified_slices") = Some (of_str (slice_text str (slice_of f r))) /\ (forall c, fst c <> "slices" -> cell_of g r' c = cell_of f r c)) l l' ->
             Forall2 (fun r r' => fst r = fst r' /\ forall q q', In (q, q') (combine rows (fr_rows g)) ->
                (cell_of g r' ("slices", "stringified_slices") = cell_of g q' ("slices", "stringified_slices") <-> forall c, cell_of f r ("slices", c) = cell_of f q ("slices", c))) l l').
  { intros l l' J K. induction K as [|x y l l' (E0 & E & _) K IH]; [constructor|]. constructor.
    - split; [symmetry; exact E0|]. intros q q' I. destruct (GF q q' I) as [A B]. rewrite E, B, <- H; [|apply J; left; reflexivity|exact A].
      split; [intros X; injection X as X; exact (OI _ _ X)|intros ->; reflexivity].
    - apply IH. intros r I. apply J. right. exact I. }
  exact (K rows (fr_rows g) (fun r I => I) F).
Qed.

Lemma C216_same_string_refuted_pf : exists a b r q, a <> b /\ fr_rows (Frame [("slices", "a"); ("slices", "b")] [(0, a); (1, b)]) = [r; q] /\
  fr_rows (stringify_slices (fun s => s) (fun s : string => s) (Frame [("slices", "a"); ("slices", "b")] [(0, a); (1, b)]) "slices") = [(0, [Some "a:1; b:2"]); (1, [Some "a:1; b:2"])].
Proof. exists [Some "1"; Some "2"], [Some "1; b:2"; None], (0, [Some "1"; Some "2"]), (1, [Some "1; b:2"; None]). split; [discriminate|]. split; reflexivity. Qed.

Lemma C216_overall_refuted_pf : exists kvs f, metrics_as_dataframes set_str (fun s => s) false [ForSlice (SliceKey []) kvs] = Ok [("double_value", f)] /\
  map (fun r => hd None (snd r)) (fr_rows (stringify_slices (fun s => s) (fun s => s) f "slices")) = [Some "Overall:"].
Proof. eexists [(metric_key "mae", double "0.1")], _. split; [vm_compute; reflexivity|reflexivity]. Qed.

(** [n] values are in a column. *)

Definition counts_values {V} (f : frame V) (c : string * string) (n : nat) : Prop :=
  exists vs, NoDup vs /\ (forall v, In v vs <-> exists r, In r (fr_rows f) /\ cell_of f r c = v) /\ length vs = n.

(** Columns are pivoted by most values, then by name. *)

Definition pivoted_before {V} (f : frame V) (a b : string * string) : Prop :=
  forall m n, counts_values f a m -> counts_values f b n -> n < m \/ n = m /\ String.leb (snd a) (snd b) = true.

(* proofs *)

Section Eqb.
  Context {V : Type} (veqb : V -> V -> bool) (VE : forall a b, veqb a b = true <-> a = b).
  Lemma cell_eqb_eq a b : cell_eqb veqb a b = true <-> a = b.
  Proof.
    destruct a as [a|], b as [b|]; cbn [cell_eqb]; split; intros H; try discriminate; try reflexivity.
    - rewrite (proj1 (VE a b) H). reflexivity.
    - injection H as ->. apply VE. reflexivity.
  Qed.
  Lemma cells_eqb_eq : forall a b, cells_eqb veqb a b = true <-> a = b.
  Proof.
    induction a as [|x a IH]; intros [|y b]; cbn [cells_eqb]; split; intros H; try discriminate; try reflexivity.
    - apply andb_true_iff in H. destruct H as [H1 H2]. apply cell_eqb_eq in H1. apply IH in H2. congruence.
    - injection H as -> ->. apply andb_true_iff. split; [apply cell_eqb_eq|apply IH]; reflexivity.
  Qed.
  Lemma labels_eqb_eq a b : labels_eqb veqb a b = true <-> a = b.
  Proof. destruct a, b. unfold labels_eqb. cbn [fst snd]. rewrite andb_true_iff, !cells_eqb_eq. split; [intros [-> ->]; reflexivity|intros X; injection X; auto]. Qed.
  Lemma name_eqb_eq a b : name_eqb a b = true <-> a = b.
  Proof. destruct a, b. unfold name_eqb. cbn [fst snd]. rewrite andb_true_iff, !String.eqb_eq. split; [intros [-> ->]; reflexivity|intros X; injection X; auto]. Qed.
  Lemma level_eqb_eq a b : level_eqb veqb a b = true <-> a = b.
  Proof.
    destruct a, b; cbn [level_eqb]; split; intros H; try discriminate.
    - apply name_eqb_eq in H. congruence.
    - injection H as ->. apply name_eqb_eq. reflexivity.
    - apply cell_eqb_eq in H. congruence.
    - injection H as ->. apply cell_eqb_eq. reflexivity.
  Qed.
  Lemma nunique_counts f c : counts_values f c (nunique veqb f c).
  Proof.
    exists (dedup (cell_eqb veqb) (map (fun r => cell_of f r c) (fr_rows f))). split; [apply dedup_NoDup; exact cell_eqb_eq|]. split; [|reflexivity].
    intros v. rewrite (dedup_In _ cell_eqb_eq), in_map_iff. split; intros (r & A & B); exists r; auto.
  Qed.

End Eqb.

Lemma counts_unique {V} (f : frame V) c m n : counts_values f c m -> counts_values f c n -> m = n.
Proof.
  intros (a & N & H & <-) (b & N' & H' & <-). apply Nat.le_antisymm; apply NoDup_incl_length; try assumption; intros v I; apply H', H || apply H, H'; exact I.
Qed.

Lemma insert_count_perm x l : Permutation (insert_count x l) (x :: l).
Proof. induction l as [|y l IH]; [apply Permutation_refl|]. cbn [insert_count]. destruct before; [apply Permutation_refl|]. rewrite IH. apply perm_swap. Qed.

Lemma sort_counts_perm l : Permutation (fold_right insert_count [] l) l.
Proof. induction l as [|x l IH]; [constructor|]. cbn [fold_right]. rewrite insert_count_perm. constructor. exact IH. Qed.

Lemma before_spec a b : before a b = true <-> snd b < snd a \/ snd b = snd a /\ String.leb (fst a) (fst b) = true.
Proof. unfold before. rewrite orb_true_iff, andb_true_iff, Nat.ltb_lt, Nat.eqb_eq. intuition. Qed.

Lemma before_trans a b c : before a b = true -> before b c = true -> before a c = true.
Proof.
  rewrite !before_spec. intros [A|[A A']] [B|[B B']]; try (left; lia). right. split; [lia|]. exact (string_leb_trans _ _ _ A' B').
Qed.

Lemma before_total a b : before a b = false -> before b a = true.
Proof.
  intros H. apply before_spec. destruct (Nat.lt_trichotomy (snd a) (snd b)) as [X|[X|X]]; [left; exact X| |].
  - right. split; [exact X|]. destruct (String.leb_total (fst b) (fst a)) as [Y|Y]; [exact Y|]. assert (before a b = true) by (apply before_spec; right; auto). congruence.
  - assert (before a b = true) by (apply before_spec; left; exact X). congruence.
Qed.

Lemma insert_count_sorted x l : StronglySorted (fun a b => before a b = true) l -> StronglySorted (fun a b => before a b = true) (insert_count x l).
Proof.
  induction 1 as [|y l S IH F]; [repeat constructor|]. cbn [insert_count]. destruct (before x y) eqn:E.
  - constructor; [constructor; assumption|]. constructor; [exact E|]. apply Forall_forall. intros z I. rewrite Forall_forall in F. exact (before_trans _ _ _ E (F z I)).
  - constructor; [exact IH|]. apply Forall_forall. intros z I. apply (Permutation_in _ (insert_count_perm x l)) in I. destruct I as [<-|I].
    + apply before_total. exact E.
    + rewrite Forall_forall in F. exact (F z I).
Qed.

Lemma sort_counts_sorted l : StronglySorted (fun a b => before a b = true) (fold_right insert_count [] l).
Proof. induction l as [|x l IH]; [constructor|]. cbn [fold_right]. apply insert_count_sorted. exact IH. Qed.

Lemma filter_ssorted {A} (R : A -> A -> Prop) P l : StronglySorted R l -> StronglySorted R (filter P l).
Proof.
  induction 1 as [|x l S IH F]; [constructor|]. cbn [filter]. destruct (P x); [|exact IH]. constructor; [exact IH|]. apply Forall_forall. intros y I. apply filter_In in I.
  rewrite Forall_forall in F. exact (F y (proj1 I)).
Qed.

Lemma names_under_In p cs c : In c (names_under p cs) <-> In (p, c) cs.
Proof.
  unfold names_under. rewrite in_map_iff. split.
  - intros ([q d] & <- & I). apply filter_In in I. destruct I as [I E]. cbn [fst] in E. apply String.eqb_eq in E. subst. exact I.
  - intros I. exists (p, c). split; [reflexivity|]. apply filter_In. split; [exact I|]. apply String.eqb_refl.
Qed.

Lemma names_under_pairs p cs : map (pair p) (names_under p cs) = filter (fun c => String.eqb (fst c) p) cs.
Proof.
  unfold names_under. induction cs as [|[q c] cs IH]; [reflexivity|]. cbn [filter fst]. destruct (String.eqb_spec q p) as [->|]; [cbn [map snd]; rewrite IH; reflexivity|exact IH].
Qed.

Lemma names_under_NoDup p cs : NoDup cs -> NoDup (names_under p cs).
Proof. intros N. apply (NoDup_map_inv (pair p)). rewrite names_under_pairs. apply NoDup_filter. exact N. Qed.

Lemma C217_pivot_columns_pf V (veqb : V -> V -> bool) f p : (forall a b, veqb a b = true <-> a = b) -> frame_shape f ->
  NoDup (pivot_columns veqb f p) /\
  (forall c, In c (pivot_columns veqb f p) <-> In c (fr_columns f) /\ fst c = p /\ exists r q, In r (fr_rows f) /\ In q (fr_rows f) /\ cell_of f r c <> cell_of f q c) /\
  StronglySorted (pivoted_before f) (pivot_columns veqb f p).
Proof.
  intros VE [N _]. unfold pivot_columns. set (l := map (fun c => (c, nunique veqb f (p, c))) (names_under p (fr_columns f))).
  assert (M : map fst l = names_under p (fr_columns f)) by (unfold l; rewrite map_map; apply map_id).
  assert (J : forall cn, In cn l <-> In (p, fst cn) (fr_columns f) /\ snd cn = nunique veqb f (p, fst cn)).
  { intros [c n]. unfold l. rewrite in_map_iff. cbn [fst snd]. split.
    - intros (d & X & I). injection X as -> <-. split; [apply names_under_In; exact I|reflexivity].
    - intros [I ->]. exists c. split; [reflexivity|apply names_under_In; exact I]. }
  pose proof (sort_counts_perm l) as P. split; [|split].
  - apply (NoDup_map_inv snd). rewrite map_map. cbn [snd].
    assert (X : NoDup (map fst (fold_right insert_count [] l))) by (rewrite P, M; apply names_under_NoDup; exact N).
    revert X. generalize (fold_right insert_count [] l). intros s. induction s as [|x s IH]; intros X; [constructor|]. cbn [map] in X. apply NoDup_cons_iff in X. destruct X as [X0 X].
    cbn [filter]. destruct (Nat.ltb 1 (snd x)); [|exact (IH X)]. cbn [map]. constructor; [|exact (IH X)]. intros I. apply X0. apply in_map_iff in I. destruct I as (y & <- & I).
    apply in_map. apply filter_In in I. exact (proj1 I).
  - intros [q c]. rewrite in_map_iff. split.
    + intros ([d n] & X & I). cbn [fst] in X. injection X as -> ->. apply filter_In in I. destruct I as [I L]. apply (Permutation_in _ P) in I. apply J in I. cbn [fst snd] in I, L.
      destruct I as [I ->]. split; [exact I|]. split; [reflexivity|]. apply Nat.ltb_lt in L. destruct (nunique_counts veqb VE f (q, c)) as (vs & NV & HV & LV). rewrite <- LV in L.
      destruct vs as [|a [|b vs]]; cbn [length] in L; [lia|lia|]. destruct (proj1 (HV a) (or_introl eq_refl)) as (r & R & RA), (proj1 (HV b) (or_intror (or_introl eq_refl))) as (s & S & SB).
      exists r, s. split; [exact R|]. split; [exact S|]. rewrite RA, SB. intros <-. apply NoDup_cons_iff in NV. apply (proj1 NV). left. reflexivity.
    + cbn [fst]. intros (I & -> & r & s & R & S & D). exists (c, nunique veqb f (p, c)). split; [reflexivity|]. apply filter_In. split.
      * apply (Permutation_in _ (Permutation_sym P)). apply J. split; [exact I|reflexivity].
      * apply Nat.ltb_lt. cbn [snd]. destruct (nunique_counts veqb VE f (p, c)) as (vs & NV & HV & <-).
        assert (X : incl [cell_of f r (p, c); cell_of f s (p, c)] vs) by (intros v [<-|[<-|[]]]; apply HV; [exists r|exists s]; auto).
        apply NoDup_incl_length in X; [cbn in X; lia|]. constructor; [intros [Y|[]]; congruence|]. constructor; [intros []|constructor].
  - pose proof (filter_ssorted _ (fun cn => Nat.ltb 1 (snd cn)) _ (sort_counts_sorted l)) as S.
    assert (K : forall cn, In cn (filter (fun cn => Nat.ltb 1 (snd cn)) (fold_right insert_count [] l)) -> snd cn = nunique veqb f (p, fst cn)).
    { intros cn I. apply filter_In in I. destruct I as [I _]. apply (Permutation_in _ P) in I. apply J in I. exact (proj2 I). }
    revert K S. generalize (filter (fun cn => Nat.ltb 1 (snd cn)) (fold_right insert_count [] l)). intros s K S. induction S as [|x s S IH F]; [constructor|]. cbn [map]. constructor.
    + apply IH. intros cn I. apply K. right. exact I.
    + apply Forall_forall. intros c I. apply in_map_iff in I. destruct I as (y & <- & I). rewrite Forall_forall in F. specialize (F y I). apply before_spec in F.
      intros m n A B. rewrite (counts_unique _ _ _ _ A (nunique_counts veqb VE f _)), (counts_unique _ _ _ _ B (nunique_counts veqb VE f _)).
      rewrite <- (K x (or_introl eq_refl)), <- (K y (or_intror I)). exact F.
Qed.

(** The columns of a pivot are those of each value and each key, and its rows those of each
    slice; a cell is that of the row of its slice and key. *)

Definition column_of {V} (f : frame V) (columns : list (string * string)) (v : string * string) (r : nat * list (option V)) : list (level V) :=
  ValueName v :: map (fun k => KeyCell (cell_of f r k)) columns.

Definition is_pivot {V} (f : frame V) (index : nat * list (option V) -> list (option V)) (columns values : list (string * string)) (p : pivoted V) : Prop :=
  NoDup (pv_columns p) /\ NoDup (map fst (pv_rows p)) /\
  (forall c, In c (pv_columns p) <-> exists v r, In v values /\ In r (fr_rows f) /\ c = column_of f columns v r) /\
  (forall i, In i (map fst (pv_rows p)) <-> exists r, In r (fr_rows f) /\ i = index r) /\
  forall row, In row (pv_rows p) -> length (snd row) = length (pv_columns p) /\
    forall n c x y, nth_error (pv_columns p) n = Some c -> nth_error (snd row) n = Some x ->
      (x = Some y <-> exists v r, In v values /\ In r (fr_rows f) /\ fst row = index r /\ c = column_of f columns v r /\ cell_of f r v = Some y).

(** The columns of a frame under a name, and those with two values. *)

Definition columns_under {V} (f : frame V) (p : string) : list (string * string) := filter (fun c => String.eqb (fst c) p) (fr_columns f).

Definition varies {V} (f : frame V) (c : string * string) : Prop := exists r q, In r (fr_rows f) /\ In q (fr_rows f) /\ cell_of f r c <> cell_of f q c.

Definition frame_with {V} (px : prefixes) (f : frame V) : Prop :=
  (forall c, In c (fr_columns f) -> In (fst c) [px_slices px; px_keys px; px_values px]) /\
  forall p, In p [px_slices px; px_keys px; px_values px] -> exists c, In (p, c) (fr_columns f).

(** No two rows have the same slice and key. *)

Definition one_row_each {V} (f : frame V) (px : prefixes) (index : nat * list (option V) -> list (option V)) : Prop :=
  NoDup (map (fun r => (index r, map (cell_of f r) (columns_under f (px_keys px)))) (fr_rows f)).

(* proofs *)

Lemma NoDup_map_in {A B} (g : A -> B) l : (forall x y, In x l -> In y l -> g x = g y -> x = y) -> NoDup l -> NoDup (map g l).
Proof.
  intros H N. induction N as [|x l N0 N IH]; [constructor|]. cbn [map]. constructor.
  - intros I. apply in_map_iff in I. destruct I as (y & E & I). apply N0. rewrite (H x y (or_introl eq_refl) (or_intror I) (eq_sym E)). exact I.
  - apply IH. intros a b I J. apply H; right; assumption.
Qed.

Lemma NoDup_of_map {A B} (g h : A -> B) l : (forall x y, In x l -> In y l -> h x = h y -> g x = g y) -> NoDup (map g l) -> NoDup (map h l).
Proof.
  intros H. induction l as [|x l IH]; intros N; [constructor|]. cbn [map] in *. apply NoDup_cons_iff in N. destruct N as [N0 N]. constructor.
  - intros I. apply in_map_iff in I. destruct I as (y & E & I). apply N0. rewrite (H x y (or_introl eq_refl) (or_intror I) (eq_sym E)). apply in_map. exact I.
  - apply IH; [|exact N]. intros a b I J. apply H; right; assumption.
Qed.

Lemma NoDup_prod {A B} (l : list A) (k : list B) : NoDup l -> NoDup k -> NoDup (list_prod l k).
Proof.
  intros N M. induction N as [|x l N0 N IH]; [constructor|]. cbn [list_prod].
  assert (NM : NoDup (map (fun y => (x, y)) k)) by (apply NoDup_map_in; [intros a b _ _ E; injection E; auto|exact M]).
  revert NM. assert (D : forall z, In z (map (fun y => (x, y)) k) -> ~ In z (list_prod l k)).
  { intros [a b] I J. apply in_map_iff in I. destruct I as (y & E & _). injection E as <- <-. apply in_prod_iff in J. exact (N0 (proj1 J)). }
  revert D. generalize (map (fun y => (x, y)) k). intros m. induction m as [|z m IHm]; intros D NM; [exact IH|]. apply NoDup_cons_iff in NM. destruct NM as [NM0 NM]. cbn [app]. constructor.
  - rewrite in_app_iff. intros [I|I]; [exact (NM0 I)|exact (D z (or_introl eq_refl) I)].
  - apply IHm; [|exact NM]. intros q I. apply D. right. exact I.
Qed.

Lemma concat_prod {A B C} (F : A -> B -> C) l k : concat (map (fun v => map (F v) k) l) = map (fun vk => F (fst vk) (snd vk)) (list_prod l k).
Proof. induction l as [|x l IH]; [reflexivity|]. cbn [map concat list_prod]. rewrite map_app, map_map, IH. reflexivity. Qed.

Section Pivot.
  Context {V : Type} (veqb : V -> V -> bool) (VE : forall a b, veqb a b = true <-> a = b).
  Lemma no_twice_NoDup l : no_twice (labels_eqb veqb) l = true <-> NoDup l.
  Proof.
    induction l as [|x l IH]; [cbn; split; [constructor|reflexivity]|]. cbn [no_twice]. rewrite andb_true_iff, negb_true_iff, (memb_nIn _ (labels_eqb_eq veqb VE)), IH.
    symmetry. apply NoDup_cons_iff.
  Qed.
  Lemma KeyCell_map (a b : list (option V)) : map KeyCell a = map KeyCell b -> a = b.
  Proof. revert b. induction a as [|x a IH]; intros [|y b] E; try discriminate; [reflexivity|]. cbn [map] in E. injection E as -> E. rewrite (IH b E). reflexivity. Qed.
  Lemma pivot_ok (f : frame V) index columns values p : columns <> [] -> pivot veqb f index columns values = Ok p ->
    NoDup (map (fun r => (cells f index r, cells f columns r)) (fr_rows f)) /\ pv_index p = index /\
    forall c, In c (pv_columns p) <-> exists v r, In v values /\ In r (fr_rows f) /\ c = column_of f columns v r.
  Proof.
    intros NE E. unfold pivot in E. destruct columns as [|c0 cs]; [congruence|]. set (columns := c0 :: cs) in *.
    destruct (no_twice _ _) eqn:T; [|discriminate E]. cbn [negb] in E. apply no_twice_NoDup in T. injection E as <-. split; [exact T|]. split; [reflexivity|].
    intros c. cbn [pv_columns]. rewrite concat_prod, in_map_iff. split.
    - intros ([v k] & <- & I). apply in_prod_iff in I. destruct I as [I J]. apply (proj1 (dedup_In _ (cells_eqb_eq veqb VE) _ _)) in J. apply in_map_iff in J. destruct J as (r & <- & J).
      exists v, r. split; [exact I|]. split; [exact J|]. unfold column_of, cells. cbn [fst snd]. rewrite map_map. reflexivity.
    - intros (v & r & I & J & ->). exists (v, cells f columns r). split; [unfold column_of, cells; cbn [fst snd]; rewrite map_map; reflexivity|]. apply in_prod_iff. split; [exact I|].
      apply (proj2 (dedup_In _ (cells_eqb_eq veqb VE) _ _)). apply in_map. exact J.
  Qed.
  Lemma pivot_is_pivot (f : frame V) index columns values : columns <> [] -> NoDup values -> NoDup (map (fun r => (cells f index r, cells f columns r)) (fr_rows f)) ->
    exists p, pivot veqb f index columns values = Ok p /\ is_pivot f (fun r => map (cell_of f r) index) columns values p.
  Proof.
    intros NE NV ND. destruct (pivot veqb f index columns values) as [p|e] eqn:E.
    2:{ exfalso. unfold pivot in E. destruct columns as [|c0 cs]; [congruence|]. rewrite (proj2 (no_twice_NoDup _) ND) in E. discriminate. }
    exists p. split; [reflexivity|]. pose proof (pivot_ok f index columns values p NE E) as (_ & _ & IC). unfold pivot in E. destruct columns as [|c0 cs] eqn:CE; [congruence|]. rewrite <- CE in *. clear c0 cs CE.
    rewrite (proj2 (no_twice_NoDup _) ND) in E. cbn [negb] in E. injection E as <-. set (rows := dedup (cells_eqb veqb) (map (cells f index) (fr_rows f))).
    set (cols := dedup (cells_eqb veqb) (map (cells f columns) (fr_rows f))). unfold is_pivot. cbn [pv_columns pv_rows] in *.
    assert (NC : NoDup cols) by (apply dedup_NoDup; apply (cells_eqb_eq veqb VE)). rewrite concat_prod in *.
    split; [|split; [|split; [exact IC|split]]].
    - apply NoDup_map_in; [|apply NoDup_prod; assumption]. intros [v k] [w l] _ _ X. cbn [fst snd] in X. injection X as -> X. apply KeyCell_map in X. subst. reflexivity.
    - rewrite map_map. cbn [fst]. rewrite map_id. apply dedup_NoDup. apply (cells_eqb_eq veqb VE).
    - intros i. rewrite map_map. cbn [fst]. rewrite map_id. unfold rows. rewrite (dedup_In _ (cells_eqb_eq veqb VE)), in_map_iff. split; intros (r & A & B); exists r; auto.
    - intros row I. apply in_map_iff in I. destruct I as (i & <- & I). cbn [fst snd]. rewrite concat_prod, !map_length. split; [reflexivity|].
      intros n c x y Hc Hx. rewrite nth_error_map in Hc, Hx. destruct (nth_error (list_prod values cols) n) as [[v k]|] eqn:L; [|discriminate Hc]. cbn [option_map fst snd] in Hc, Hx.
      injection Hc as <-. injection Hx as <-. apply nth_error_In in L. apply in_prod_iff in L. destruct L as [Lv Lk]. split.
      + intros X. destruct (find _ _) as [r|] eqn:F; [|discriminate X]. apply find_some in F. destruct F as [R F]. apply andb_true_iff in F. destruct F as [F1 F2]. apply (cells_eqb_eq veqb VE) in F1, F2.
        exists v, r. split; [exact Lv|]. split; [exact R|]. split; [symmetry; exact F1|]. split; [|exact X]. unfold column_of. rewrite <- F2. unfold cells. rewrite map_map. reflexivity.
      + intros (w & r & W & R & EI & EC & X). unfold column_of in EC. injection EC as <- EC. rewrite <- (map_map (cell_of f r) KeyCell) in EC. apply KeyCell_map in EC.
        destruct (find _ _) as [q|] eqn:F.
        * apply find_some in F. destruct F as [Q F]. apply andb_true_iff in F. destruct F as [F1 F2]. apply (cells_eqb_eq veqb VE) in F1, F2.
          assert (EQ : q = r); [|rewrite EQ; exact X]. assert (Y : (cells f index q, cells f columns q) = (cells f index r, cells f columns r)).
          { rewrite F1, F2. unfold cells. rewrite <- EC, <- EI. reflexivity. }
          clear -ND Q R Y. induction (fr_rows f) as [|z l IH]; [destruct Q|]. cbn [map] in ND. apply NoDup_cons_iff in ND. destruct ND as [N0 ND].
          destruct Q as [->|Q], R as [->|R]; [reflexivity| | |exact (IH ND R Q)]; exfalso; apply N0; apply in_map_iff; [exists r|exists q]; auto.
        * exfalso. apply (find_none _ _ F) in R. cbn in R. unfold cells in R. rewrite <- EI, <- EC in R. rewrite !(proj2 (cells_eqb_eq veqb VE _ _) eq_refl) in R. discriminate R.
  Qed.

End Pivot.

Lemma is_pivot_transfer {V} (f g : frame V) index index' columns values p :
  (forall r, In r (fr_rows f) -> exists r', In r' (fr_rows g) /\ index' r' = index r /\ forall c, In c columns \/ In c values -> cell_of g r' c = cell_of f r c) ->
  (forall r', In r' (fr_rows g) -> exists r, In r (fr_rows f) /\ index' r' = index r /\ forall c, In c columns \/ In c values -> cell_of g r' c = cell_of f r c) ->
  is_pivot g index' columns values p -> is_pivot f index columns values p.
Proof.
  intros H1 H2 (A & B & C & D & E). split; [exact A|]. split; [exact B|].
  assert (CO : forall r r' v, (forall c, In c columns \/ In c values -> cell_of g r' c = cell_of f r c) -> column_of g columns v r' = column_of f columns v r).
  { intros r r' v H. unfold column_of. f_equal. apply map_ext_in. intros c I. rewrite H by (left; exact I). reflexivity. }
  split; [|split].
  - intros c. rewrite C. split.
    + intros (v & r' & I & J & ->). destruct (H2 r' J) as (r & R & _ & H). exists v, r. split; [exact I|]. split; [exact R|]. apply CO. exact H.
    + intros (v & r & I & J & ->). destruct (H1 r J) as (r' & R & _ & H). exists v, r'. split; [exact I|]. split; [exact R|]. symmetry. apply CO. exact H.
  - intros i. rewrite D. split.
    + intros (r' & J & ->). destruct (H2 r' J) as (r & R & X & _). exists r. auto.
    + intros (r & J & ->). destruct (H1 r J) as (r' & R & X & _). exists r'. auto.
  - intros row I. destruct (E row I) as [L F]. split; [exact L|]. intros n c x y Hc Hx. rewrite (F n c x y Hc Hx). split.
    + intros (v & r' & Iv & J & K & M & N). destruct (H2 r' J) as (r & R & X & H). exists v, r. split; [exact Iv|]. split; [exact R|]. split; [congruence|].
      split; [rewrite M; apply CO; exact H|]. rewrite <- N. symmetry. apply H. right. exact Iv.
    + intros (v & r & Iv & J & K & M & N). destruct (H1 r J) as (r' & R & X & H). exists v, r'. split; [exact Iv|]. split; [exact R|]. split; [congruence|].
      split; [rewrite M; symmetry; apply CO; exact H|]. rewrite <- N. apply H. right. exact Iv.
Qed.

Lemma auto_pivot_prefixes {V} veqb (of_str : string -> V) str s c f px : px = metric_columns \/ px = plot_columns -> frame_with px f ->
  auto_pivot veqb of_str str s c f = auto_pivot_with veqb of_str str px s c f.
Proof.
  intros PX [A B]. unfold auto_pivot.
  assert (HP : forall p, has_prefix f p = true <-> exists c, In (p, c) (fr_columns f)).
  { intros p. unfold has_prefix. rewrite existsb_exists. split.
    - intros ([q d] & I & E). apply String.eqb_eq in E. cbn in E. subst. exists d. exact I.
    - intros (d & I). exists (p, d). split; [exact I|apply String.eqb_refl]. }
  destruct PX as [->| ->]; cbn [px_slices px_keys px_values metric_columns plot_columns] in A, B.
  - rewrite (proj2 (HP "slices")) by (apply B; cbn; auto). destruct (has_prefix f "plot_keys") eqn:E.
    + exfalso. apply HP in E. destruct E as (d & I). specialize (A _ I). cbn in A. intuition discriminate.
    + cbn [andb]. rewrite (proj2 (HP "metric_keys")), (proj2 (HP "metric_values")) by (apply B; cbn; auto). reflexivity.
  - rewrite (proj2 (HP "slices")), (proj2 (HP "plot_keys")), (proj2 (HP "plot_data")) by (apply B; cbn; auto). reflexivity.
Qed.

Lemma unvarying {V} (f : frame V) c r q : ~ varies f c -> In r (fr_rows f) -> In q (fr_rows f) -> (forall a b : option V, a = b \/ a <> b) -> cell_of f r c = cell_of f q c.
Proof. intros N R Q D. destruct (D (cell_of f r c) (cell_of f q c)) as [E|E]; [exact E|]. exfalso. apply N. exists r, q. auto. Qed.

Lemma pivot_frame {V} (veqb : V -> V -> bool) (VE : forall a b, veqb a b = true <-> a = b) (f : frame V) px :
  NoDup (fr_columns f) -> one_row_each f px (fun r => map (cell_of f r) (columns_under f (px_slices px))) ->
  (forall c, In c (pivot_columns veqb f (px_keys px)) <-> In c (fr_columns f) /\ fst c = px_keys px /\ varies f c) ->
  exists p, pivot veqb f (columns_under f (px_slices px)) (pivot_columns veqb f (px_keys px)) (columns_under f (px_values px)) = Ok p /\
    (pivot_columns veqb f (px_keys px) <> [] ->
     is_pivot f (fun r => map (cell_of f r) (columns_under f (px_slices px))) (pivot_columns veqb f (px_keys px)) (columns_under f (px_values px)) p) /\
    (pivot_columns veqb f (px_keys px) = [] ->
     pv_columns p = map (fun v => [ValueName v]) (columns_under f (px_values px)) /\
     pv_rows p = map (fun r => (map (cell_of f r) (columns_under f (px_slices px)), map (cell_of f r) (columns_under f (px_values px)))) (fr_rows f)).
Proof.
  intros N O PC. destruct (pivot_columns veqb f (px_keys px)) as [|c0 cs] eqn:E.
  - eexists. split; [reflexivity|]. split; [congruence|]. intros _. split; reflexivity.
  - rewrite <- E in *. assert (NE : pivot_columns veqb f (px_keys px) <> []) by (rewrite E; discriminate).
    destruct (pivot_is_pivot veqb VE f (columns_under f (px_slices px)) (pivot_columns veqb f (px_keys px)) (columns_under f (px_values px)) NE) as (p & P & IP).
    + apply NoDup_filter. exact N.
    + refine (NoDup_of_map _ _ _ _ O). intros r q R Q X. injection X as X1 X2. f_equal; [exact X1|]. apply map_ext_in. intros c I. apply filter_In in I. destruct I as [I K]. apply String.eqb_eq in K.
      assert (D : forall a b : option V, a = b \/ a <> b). { intros a b. destruct (cell_eqb veqb a b) eqn:Y; [left; apply (cell_eqb_eq veqb VE); exact Y|right; intros Z; apply (cell_eqb_eq veqb VE) in Z; congruence]. }
      destruct (D (cell_of f r c) (cell_of f q c)) as [Y|Y]; [exact Y|]. unfold cells in X2. assert (J : In c (pivot_columns veqb f (px_keys px))) by (apply PC; split; [exact I|]; split; [exact K|]; exists r, q; auto).
      clear -X2 J. induction (pivot_columns veqb f (px_keys px)) as [|d l IH]; [destruct J|]. cbn [map] in X2. injection X2 as X0 X2. destruct J as [->|J]; [exact X0|exact (IH X2 J)].
    + exists p. split; [exact P|]. split; [intros _; exact IP|congruence].
Qed.

Lemma C217_pivot_pf V (veqb : V -> V -> bool) of_str str f px : (forall a b, veqb a b = true <-> a = b) -> frame_shape f -> px = metric_columns \/ px = plot_columns -> frame_with px f ->
  one_row_each f px (fun r => map (cell_of f r) (columns_under f "slices")) ->
  exists p, auto_pivot veqb of_str str false false f = Ok p /\ pv_index p = columns_under f "slices" /\
    ((exists columns, columns <> [] /\ NoDup columns /\ (forall c, In c columns <-> In c (columns_under f (px_keys px)) /\ varies f c) /\
        is_pivot f (fun r => map (cell_of f r) (columns_under f "slices")) columns (columns_under f (px_values px)) p) \/
     ((forall c, In c (columns_under f (px_keys px)) -> ~ varies f c) /\ pv_columns p = map (fun v => [ValueName v]) (columns_under f (px_values px)) /\
        pv_rows p = map (fun r => (map (cell_of f r) (columns_under f "slices"), map (cell_of f r) (columns_under f (px_values px)))) (fr_rows f))).
Proof.
  intros VE W PX FW O. rewrite (auto_pivot_prefixes veqb of_str str false false f px PX FW). assert (SL : px_slices px = "slices") by (destruct PX as [->| ->]; reflexivity).
  destruct (C217_pivot_columns_pf V veqb f (px_keys px) VE W) as (N & PC & _). rewrite <- SL in O |- *.
  destruct (pivot_frame veqb VE f px (proj1 W) O PC) as (p & P & P1 & P2). unfold auto_pivot_with. rewrite !names_under_pairs. fold (columns_under f (px_slices px)) (columns_under f (px_values px)).
  rewrite P. cbn [bind andb]. exists p. split; [reflexivity|]. split.
  { unfold pivot in P. destruct (pivot_columns veqb f (px_keys px)); [injection P as <-; reflexivity|]. destruct (negb _); [discriminate|]. injection P as <-. reflexivity. }
  assert (CU : forall c, In c (columns_under f (px_keys px)) <-> In c (fr_columns f) /\ fst c = px_keys px) by (intros c; unfold columns_under; rewrite filter_In, String.eqb_eq; reflexivity).
  destruct (pivot_columns veqb f (px_keys px)) as [|c0 cs] eqn:E.
  - right. destruct (P2 eq_refl) as [A B]. split; [|split; assumption]. intros c I VA. destruct (proj2 (PC c)). apply CU in I. destruct I as [I J]. auto.
  - left. exists (c0 :: cs). split; [discriminate|]. split; [exact N|]. split; [|apply P1; discriminate]. intros c. rewrite PC, CU. unfold varies. tauto.
Qed.

Definition pivot_sample : frame string :=
  Frame [("slices", "sex"); ("slices", "age"); ("metric_keys", "name"); ("metric_keys", "example_weighted"); ("metric_values", "double_value")]
    [(0, [Some "m"; None; Some "mae"; Some "F"; Some "0.1"]); (1, [Some "m"; None; Some "mse"; Some "F"; Some "0.2"]); (2, [None; Some "38"; Some "mae"; Some "F"; Some "0.3"])].

(** With slices as strings, rows are labelled by the text of their slice. *)

Lemma Forall2_maps {A B C} (R : A -> B -> Prop) (F : A -> C) (G : B -> C) l m : Forall2 R l m -> (forall a b, R a b -> F a = G b) -> map F l = map G m.
Proof. intros H E. induction H as [|a b l m H _ IH]; [reflexivity|]. cbn [map]. rewrite (E a b H), IH. reflexivity. Qed.

Lemma columns_under_In {V} (f : frame V) p c : In c (columns_under f p) <-> In c (fr_columns f) /\ fst c = p.
Proof. unfold columns_under. rewrite filter_In, String.eqb_eq. reflexivity. Qed.

Lemma filter_filter_imp {A} (P Q : A -> bool) l : (forall x, P x = true -> Q x = true) -> filter P (filter Q l) = filter P l.
Proof.
  intros H. induction l as [|x l IH]; [reflexivity|]. cbn [filter]. destruct (Q x) eqn:E; cbn [filter]; rewrite IH; [reflexivity|]. destruct (P x) eqn:E2; [rewrite (H _ E2) in E; discriminate|reflexivity].
Qed.

Lemma stringified_frame {V} (of_str : string -> V) str f : frame_shape f ->
  let g := stringify_slices of_str str f "slices" in
  frame_shape g /\ columns_under g "slices" = [("slices", "stringified_slices")] /\ (forall p, p <> "slices" -> columns_under g p = columns_under f p) /\
  exists rows, Permutation rows (fr_rows f) /\ StronglySorted (fun a b => String.leb (slice_text str (slice_of f a)) (slice_text str (slice_of f b)) = true) rows /\
    Forall2 (fun r r' => cell_of g r' ("slices", "stringified_slices") = Some (of_str (slice_text str (slice_of f r))) /\ forall c, fst c <> "slices" -> cell_of g r' c = cell_of f r c) rows (fr_rows g).
Proof.
  intros W. destruct (C216_strings_pf V of_str str f W) as (rows & P & SO & GS & GC & F). cbv zeta. split; [exact GS|]. split; [|split].
  - unfold columns_under. rewrite GC. cbn [filter fst]. rewrite String.eqb_refl. f_equal. clear. generalize (fr_columns f). intros cs. induction cs as [|c l IH]; [reflexivity|]. cbn [filter]. destruct (String.eqb (fst c) "slices") eqn:E; cbn [negb]; [exact IH|]. cbn [filter]. rewrite E. exact IH.
  - intros p NP. unfold columns_under. rewrite GC. cbn [filter fst]. destruct (String.eqb_spec "slices" p) as [X|_]; [congruence|]. apply filter_filter_imp.
    intros c E. apply String.eqb_eq in E. destruct (String.eqb_spec (fst c) "slices"); [congruence|reflexivity].
  - exists rows. split; [exact P|]. split; [exact SO|]. clear -F. revert F. generalize (stringify_slices of_str str f "slices") at 1 2 4 5 as g. intros g F. induction F as [|r r' l m (_ & A & B) F IH]; constructor; auto.
Qed.

Lemma Forall2_left {A B} (R : A -> B -> Prop) l m : Forall2 R l m -> forall a, In a l -> exists b, In b m /\ R a b.
Proof. induction 1 as [|a b l m H _ IH]; intros x I; [destruct I|]. destruct I as [<-|I]; [exists b; cbn; auto|]. destruct (IH x I) as (y & Y & Z). exists y. cbn. auto. Qed.

Lemma Forall2_right {A B} (R : A -> B -> Prop) l m : Forall2 R l m -> forall b, In b m -> exists a, In a l /\ R a b.
Proof. induction 1 as [|a b l m H _ IH]; intros x I; [destruct I|]. destruct I as [<-|I]; [exists a; cbn; auto|]. destruct (IH x I) as (y & Y & Z). exists y. cbn. auto. Qed.

Lemma C217_stringified_pf V (veqb : V -> V -> bool) (of_str : string -> V) str f px : (forall a b, veqb a b = true <-> a = b) -> frame_shape f -> px = metric_columns \/ px = plot_columns -> frame_with px f ->
  one_row_each f px (fun r => [Some (of_str (slice_text str (slice_of f r)))]) ->
  exists p, auto_pivot veqb of_str str true false f = Ok p /\ pv_index p = [("slices", "")] /\
    ((exists columns, columns <> [] /\ NoDup columns /\ (forall c, In c columns <-> In c (columns_under f (px_keys px)) /\ varies f c) /\
        is_pivot f (fun r => [Some (of_str (slice_text str (slice_of f r)))]) columns (columns_under f (px_values px)) p) \/
     ((forall c, In c (columns_under f (px_keys px)) -> ~ varies f c) /\ pv_columns p = map (fun v => [ValueName v]) (columns_under f (px_values px)) /\
      exists rows, Permutation rows (fr_rows f) /\ StronglySorted (fun a b => String.leb (slice_text str (slice_of f a)) (slice_text str (slice_of f b)) = true) rows /\
        pv_rows p = map (fun r => ([Some (of_str (slice_text str (slice_of f r)))], map (cell_of f r) (columns_under f (px_values px)))) rows)).
Proof.
  intros VE W PX FW O. rewrite (auto_pivot_prefixes veqb of_str str true false f px PX FW). unfold auto_pivot_with.
  assert (SL : px_slices px = "slices") by (destruct PX as [->| ->]; reflexivity). assert (KN : px_keys px <> "slices") by (destruct PX as [->| ->]; discriminate).
  assert (VN : px_values px <> "slices") by (destruct PX as [->| ->]; discriminate). rewrite SL.
  destruct (stringified_frame of_str str f W) as (GS & G1 & G2 & rows & P & SO & F). set (g := stringify_slices of_str str f "slices") in *.
  destruct (C217_pivot_columns_pf V veqb g (px_keys px) VE GS) as (N & PC & _).
  assert (KC : forall r r', (forall c, fst c <> "slices" -> cell_of g r' c = cell_of f r c) -> forall p, p <> "slices" -> map (cell_of g r') (columns_under g p) = map (cell_of f r) (columns_under f p)).
  { intros r r' H p NP. rewrite (G2 p NP). apply map_ext_in. intros c I. apply columns_under_In in I. apply H. destruct I as [_ ->]. exact NP. }
  assert (OG : one_row_each g px (fun r => map (cell_of g r) (columns_under g (px_slices px)))).
  { unfold one_row_each in *. rewrite SL, G1. cbn [map].
    rewrite <- (Forall2_maps _ (fun r => ([Some (of_str (slice_text str (slice_of f r)))], map (cell_of f r) (columns_under f (px_keys px)))) _ _ _ F).
    - refine (Permutation_NoDup _ O). apply Permutation_map. apply Permutation_sym. exact P.
    - intros r r' [A B]. rewrite A, (KC r r' B _ KN). reflexivity. }
  destruct (pivot_frame veqb VE g px (proj1 GS) OG PC) as (p & PP & P1 & P2). rewrite SL in PP, P1, P2. rewrite !names_under_pairs. fold (columns_under g "slices") (columns_under g (px_values px)).
  rewrite PP. cbn [bind andb pv_columns pv_rows]. eexists. split; [reflexivity|]. cbn [pv_index pv_columns pv_rows]. split; [reflexivity|].
  assert (L1 : forall r, In r (fr_rows f) -> exists r', In r' (fr_rows g) /\ cell_of g r' ("slices", "stringified_slices") = Some (of_str (slice_text str (slice_of f r))) /\ forall c, fst c <> "slices" -> cell_of g r' c = cell_of f r c).
  { intros r I. apply (Forall2_left _ _ _ F). exact (Permutation_in _ (Permutation_sym P) I). }
  assert (L2 : forall r', In r' (fr_rows g) -> exists r, In r (fr_rows f) /\ cell_of g r' ("slices", "stringified_slices") = Some (of_str (slice_text str (slice_of f r))) /\ forall c, fst c <> "slices" -> cell_of g r' c = cell_of f r c).
  { intros r' I. destruct (Forall2_right _ _ _ F r' I) as (r & R & H). exists r. split; [exact (Permutation_in _ P R)|exact H]. }
  assert (VA : forall c, fst c <> "slices" -> varies g c <-> varies f c).
  { intros c NC. split.
    - intros (r' & q' & R & Q & D). destruct (L2 r' R) as (r & R1 & _ & H1), (L2 q' Q) as (q & Q1 & _ & H2). exists r, q. rewrite <- (H1 c NC), <- (H2 c NC). auto.
    - intros (r & q & R & Q & D). destruct (L1 r R) as (r' & R1 & _ & H1), (L1 q Q) as (q' & Q1 & _ & H2). exists r', q'. rewrite (H1 c NC), (H2 c NC). auto. }
  assert (PC' : forall c, In c (pivot_columns veqb g (px_keys px)) <-> In c (columns_under f (px_keys px)) /\ varies f c).
  { intros c. rewrite PC, <- (G2 _ KN), columns_under_In. fold (varies g c). split.
    - intros (A & B & C). split; [auto|]. apply VA; [congruence|exact C].
    - intros [[A B] C]. split; [exact A|]. split; [exact B|]. apply VA; [congruence|exact C]. }
  destruct (pivot_columns veqb g (px_keys px)) as [|c0 cs] eqn:E.
  - right. destruct (P2 eq_refl) as [A B]. split; [intros c I VC; destruct (proj2 (PC' c) (conj I VC))|]. split; [rewrite A, (G2 _ VN); reflexivity|].
    exists rows. split; [exact P|]. split; [exact SO|]. rewrite B. symmetry. apply (Forall2_maps _ _ _ _ _ F). intros r r' [X Y]. rewrite G1. cbn [map]. rewrite X, (KC r r' Y _ VN). reflexivity.
  - left. exists (c0 :: cs). split; [discriminate|]. split; [exact N|]. split; [exact PC'|]. specialize (P1 ltac:(discriminate)). rewrite G1, (G2 _ VN) in P1. cbn [map] in P1.
    assert (CO : forall c, In c (c0 :: cs) \/ In c (columns_under f (px_values px)) -> fst c <> "slices").
    { intros c [I|I]; [apply PC' in I; destruct I as [I _]|]; apply columns_under_In in I; destruct I as [_ I]; congruence. }
    refine (is_pivot_transfer f g _ _ (c0 :: cs) (columns_under f (px_values px)) _ _ _ P1).
    + intros r I. destruct (L1 r I) as (r' & R & X & Y). exists r'. split; [exact R|]. split; [rewrite X; reflexivity|]. intros c J. apply Y. exact (CO c J).
    + intros r' I. destruct (L2 r' I) as (r & R & X & Y). exists r. split; [exact R|]. split; [rewrite X; reflexivity|]. intros c J. apply Y. exact (CO c J).
Qed.

(** A frame with several rows for a key cannot be pivoted: that of a plot of two models. *)

Definition plot_key (model : string) : fval string := One (Message [("name", One (Prim "plot")); ("model_name", One (Prim model))]).

Lemma C217_plots_refuted_pf : exists kvs f, plots_as_dataframes set_str (fun s => s) false [ForSlice (SliceKey []) kvs] = Ok [("confusion_matrix_at_thresholds", f)] /\
  forall s c, auto_pivot String.eqb (fun s => s) (fun s => s) s c f = Err ValueError.
Proof.
  eexists [(plot_key "candidate", matrices [matrix "0.2" "7"; matrix "0.8" "3"]); (plot_key "baseline", matrices [matrix "0.2" "6"; matrix "0.8" "2"])], _.
  split; [vm_compute; reflexivity|]. intros [|] [|]; reflexivity.
Qed.

Lemma C217_other_frames_pf V (veqb : V -> V -> bool) of_str str s c f : (forall px, px = metric_columns \/ px = plot_columns ->
    exists p, In p [px_slices px; px_keys px; px_values px] /\ forall d, ~ In (p, d) (fr_columns f)) ->
  auto_pivot veqb of_str str s c f = Err NotImplementedError.
Proof.
  intros H. unfold auto_pivot.
  assert (HP : forall p, has_prefix f p = true -> exists c, In (p, c) (fr_columns f)).
  { intros p E. unfold has_prefix in E. apply existsb_exists in E. destruct E as ([q d] & I & E). apply String.eqb_eq in E. cbn in E. subst. exists d. exact I. }
  destruct (has_prefix f "slices") eqn:E1; [|reflexivity]. destruct (has_prefix f "plot_keys" && has_prefix f "plot_data") eqn:E2.
  { exfalso. apply andb_true_iff in E2. destruct E2 as [E2 E3]. destruct (H plot_columns (or_intror eq_refl)) as (p & I & N). destruct (HP _ E1) as (d1 & D1), (HP _ E2) as (d2 & D2), (HP _ E3) as (d3 & D3).
    destruct I as [<-|[<-|[<-|[]]]]; [exact (N _ D1)|exact (N _ D2)|exact (N _ D3)]. }
  destruct (has_prefix f "metric_keys" && has_prefix f "metric_values") eqn:E3; [|reflexivity].
  exfalso. apply andb_true_iff in E3. destruct E3 as [E3 E4]. destruct (H metric_columns (or_introl eq_refl)) as (p & I & N). destruct (HP _ E1) as (d1 & D1), (HP _ E3) as (d2 & D2), (HP _ E4) as (d3 & D3).
  destruct I as [<-|[<-|[<-|[]]]]; [exact (N _ D1)|exact (N _ D2)|exact (N _ D3)].
Qed.

Lemma map_nth_seq {A} (d : A) l : map (fun i => nth i l d) (seq 0 (length l)) = l.
Proof. induction l as [|x l IH]; [reflexivity|]. cbn [length seq map nth]. rewrite <- seq_shift, map_map. cbn [nth]. rewrite IH. reflexivity. Qed.

Lemma filter_all {A} (P : A -> bool) l : (forall x, In x l -> P x = true) -> filter P l = l.
Proof. induction l as [|x l IH]; intros H; [reflexivity|]. cbn [filter]. rewrite (H x (or_introl eq_refl)), IH; [reflexivity|]. intros y I. apply H. right. exact I. Qed.

Lemma constant_level_iff {V} (veqb : V -> V -> bool) (VE : forall a b, veqb a b = true <-> a = b) (l : list (list (level V))) i : l <> [] ->
  (constant_level veqb l i = true <-> forall c d, In c l -> In d l -> nth i c (KeyCell None) = nth i d (KeyCell None)).
Proof.
  intros NE. unfold constant_level. rewrite Nat.eqb_eq. set (m := map (fun c => nth i c (KeyCell None)) l).
  assert (I : forall x, In x (dedup (level_eqb veqb) m) <-> In x m) by (intros x; apply dedup_In; apply level_eqb_eq; exact VE).
  assert (N : NoDup (dedup (level_eqb veqb) m)) by (apply dedup_NoDup; apply level_eqb_eq; exact VE). split.
  - intros L. destruct (dedup (level_eqb veqb) m) as [|x [|y t]]; try discriminate L. intros c d J K.
    assert (A : forall c, In c l -> x = nth i c (KeyCell None)). { intros e Y. assert (Z : In (nth i e (KeyCell None)) [x]) by (apply I; apply (in_map (fun c => nth i c (KeyCell None))); exact Y). destruct Z as [Z|[]]. exact Z. }
    rewrite <- (A c J), <- (A d K). reflexivity.
  - intros H. destruct l as [|c0 l0]; [congruence|]. assert (A : forall x, In x (dedup (level_eqb veqb) m) -> x = nth i c0 (KeyCell None)).
    { intros x J. apply I in J. apply in_map_iff in J. destruct J as (d & <- & J). apply H; [exact J|left; reflexivity]. }
    destruct (dedup (level_eqb veqb) m) as [|x [|y t]]; [|reflexivity|].
    + exfalso. assert (Z : In (nth i c0 (KeyCell None)) m) by (left; reflexivity). apply I in Z. destruct Z.
    + exfalso. apply NoDup_cons_iff in N. apply (proj1 N). rewrite (A x (or_introl eq_refl)). rewrite <- (A y (or_intror (or_introl eq_refl))). left. reflexivity.
Qed.

Lemma collapse_pivot {V} (veqb : V -> V -> bool) (VE : forall a b, veqb a b = true <-> a = b) (f : frame V) columns values l :
  columns <> [] -> NoDup values -> values <> [] -> (forall c, In c columns -> varies f c) ->
  (forall c, In c l <-> exists v r, In v values /\ In r (fr_rows f) /\ c = column_of f columns v r) ->
  collapse_column_names veqb l = Ok (if Nat.eqb (length values) 1 then map (@tl _) l else l).
Proof.
  intros NC NV NE VA L. destruct columns as [|k0 ks]; [congruence|]. set (columns := k0 :: ks) in *. destruct values as [|v0 vs]; [congruence|].
  destruct (VA k0 (or_introl eq_refl)) as (r0 & _ & R0 & _ & _).
  assert (LE : forall c, In c l -> length c = S (length columns)). { intros c I. apply L in I. destruct I as (v & r & _ & _ & ->). unfold column_of. cbn [length]. rewrite map_length. reflexivity. }
  assert (NL : l <> []). { intros ->. destruct (proj2 (L (column_of f columns v0 r0))). exists v0, r0. cbn. auto. }
  assert (DE : depth l = S (length columns)). { destruct l as [|c l']; [congruence|]. cbn [depth]. apply LE. left. reflexivity. }
  assert (KL : forall j, j < length columns -> constant_level veqb l (S j) = false).
  { intros j J. destruct (constant_level veqb l (S j)) eqn:E; [|reflexivity]. exfalso. pose proof (proj1 (constant_level_iff veqb VE l _ NL) E) as E'. clear E.
    destruct (VA (nth j columns k0) (nth_In _ _ J)) as (r & q & R & Q & D).
    assert (C1 : In (column_of f columns v0 r) l) by (apply L; exists v0, r; cbn; auto). assert (C2 : In (column_of f columns v0 q) l) by (apply L; exists v0, q; cbn; auto).
    specialize (E' _ _ C1 C2). unfold column_of in E'. cbn [nth] in E'. rewrite !(nth_indep _ (KeyCell None) (KeyCell (cell_of f r k0))) in E' by (rewrite map_length; exact J).
    rewrite (map_nth (fun k => KeyCell (cell_of f r k))) in E'. rewrite (nth_indep _ _ (KeyCell (cell_of f q k0))) in E' by (rewrite map_length; exact J).
    rewrite (map_nth (fun k => KeyCell (cell_of f q k))) in E'. injection E' as E'. exact (D E'). }
  unfold collapse_column_names. rewrite DE. cbn [seq filter].
  assert (FS : filter (fun i => negb (constant_level veqb l i)) (seq 1 (length columns)) = seq 1 (length columns)).
  { apply filter_all. intros i I. apply in_seq in I. destruct i as [|j]; [lia|]. rewrite KL by lia. reflexivity. }
  rewrite FS. destruct vs as [|v1 vs].
  - assert (C0 : constant_level veqb l 0 = true). { apply (constant_level_iff veqb VE l _ NL). intros c d C D. apply L in C, D. destruct C as (v & r & [<-|[]] & _ & ->), D as (w & q & [<-|[]] & _ & ->). reflexivity. }
    rewrite C0. cbn [negb length Nat.eqb]. assert (RS : map (fun c => map (fun i => nth i c (KeyCell None)) (seq 1 (length columns))) l = map (@tl _) l).
    { apply map_ext_in. intros c C. specialize (LE c C). destruct c as [|x c]; [discriminate|]. cbn [length] in LE. injection LE as LE. cbn [tl]. rewrite <- seq_shift, map_map. cbn [nth].
      change (length c = length columns) in LE. rewrite <- LE. apply map_nth_seq. }
    unfold columns at 1. cbn [length seq]. change (1 :: seq 2 (length ks)) with (seq 1 (length columns)). rewrite RS. reflexivity.
  - assert (C0 : constant_level veqb l 0 = false). { destruct (constant_level veqb l 0) eqn:E; [|reflexivity]. exfalso. pose proof (proj1 (constant_level_iff veqb VE l _ NL) E) as E'. clear E.
      assert (C1 : In (column_of f columns v0 r0) l) by (apply L; exists v0, r0; cbn; auto). assert (C2 : In (column_of f columns v1 r0) l) by (apply L; exists v1, r0; cbn; auto).
      specialize (E' _ _ C1 C2). cbn in E'. injection E' as ->. apply NoDup_cons_iff in NV. apply (proj1 NV). left. reflexivity. }
    rewrite C0. cbn [negb length Nat.eqb]. f_equal. rewrite <- (map_id l) at 2. apply map_ext_in. intros c C. specialize (LE c C).
    change (map (fun i => nth i c (KeyCell None)) (seq 0 (S (length columns))) = c). rewrite <- LE. apply map_nth_seq.
Qed.

Lemma C218_collapsed_pf V (veqb : V -> V -> bool) (of_str : string -> V) str s f px p : (forall a b, veqb a b = true <-> a = b) -> frame_shape f -> px = metric_columns \/ px = plot_columns -> frame_with px f ->
  auto_pivot veqb of_str str s false f = Ok p ->
  exists p', auto_pivot veqb of_str str s true f = Ok p' /\ pv_index p' = pv_index p /\ pv_rows p' = pv_rows p /\
    ((exists c v, In c (columns_under f (px_keys px)) /\ varies f c /\ columns_under f (px_values px) = [v] /\ pv_columns p = map (cons (ValueName v)) (pv_columns p')) \/
     (((forall c, In c (columns_under f (px_keys px)) -> ~ varies f c) \/ 1 < length (columns_under f (px_values px))) /\ pv_columns p' = pv_columns p)).
Proof.
  intros VE W PX FW. rewrite !(auto_pivot_prefixes veqb of_str str s _ f px PX FW). unfold auto_pivot_with.
  assert (SL : px_slices px = "slices") by (destruct PX as [->| ->]; reflexivity). assert (KN : px_keys px <> "slices") by (destruct PX as [->| ->]; discriminate).
  assert (VN : px_values px <> "slices") by (destruct PX as [->| ->]; discriminate). rewrite SL.
  set (g := if s then stringify_slices of_str str f "slices" else f).
  assert (G : frame_shape g /\ columns_under g (px_keys px) = columns_under f (px_keys px) /\ columns_under g (px_values px) = columns_under f (px_values px) /\
              forall c, fst c <> "slices" -> varies g c <-> varies f c).
  { unfold g. destruct s; [|split; [exact W|]; split; [reflexivity|]; split; [reflexivity|]; intros; reflexivity].
    destruct (stringified_frame of_str str f W) as (GS & _ & G2 & rows & P & _ & F). split; [exact GS|]. split; [exact (G2 _ KN)|]. split; [exact (G2 _ VN)|].
    intros c NC. split.
    - intros (r' & q' & R & Q & D). destruct (Forall2_right _ _ _ F r' R) as (r & R1 & _ & H1), (Forall2_right _ _ _ F q' Q) as (q & Q1 & _ & H2).
      exists r, q. rewrite <- (H1 c NC), <- (H2 c NC). split; [exact (Permutation_in _ P R1)|]. split; [exact (Permutation_in _ P Q1)|exact D].
    - intros (r & q & R & Q & D). destruct (Forall2_left _ _ _ F r (Permutation_in _ (Permutation_sym P) R)) as (r' & R1 & _ & H1), (Forall2_left _ _ _ F q (Permutation_in _ (Permutation_sym P) Q)) as (q' & Q1 & _ & H2).
      exists r', q'. rewrite (H1 c NC), (H2 c NC). auto. }
  destruct G as (GS & GK & GV & GA). rewrite !names_under_pairs. fold (columns_under g "slices") (columns_under g (px_values px)).
  destruct (C217_pivot_columns_pf V veqb g (px_keys px) VE GS) as (N & PC & _).
  destruct (pivot veqb g (columns_under g "slices") (pivot_columns veqb g (px_keys px)) (columns_under g (px_values px))) as [r|e] eqn:E; [|discriminate].
  cbn [bind]. set (r' := if s then _ else r). assert (RC : pv_columns r' = pv_columns r) by (unfold r'; destruct s; reflexivity).
  cbn [andb]. intros X. injection X as <-.
  destruct (pivot_columns veqb g (px_keys px)) as [|c0 cs] eqn:CE.
  - cbn [andb]. exists r'. split; [reflexivity|]. split; [reflexivity|]. split; [reflexivity|]. right. split; [|reflexivity]. left. intros c I VC.
    rewrite <- GK in I. apply columns_under_In in I. destruct I as [I J]. destruct (proj2 (PC c)). split; [exact I|]. split; [exact J|]. fold (varies g c). apply GA; [congruence|exact VC].
  - cbn [andb]. assert (NE : c0 :: cs <> []) by discriminate. pose proof (pivot_ok veqb VE g _ (c0 :: cs) _ r NE E) as (_ & _ & IC). rewrite RC.
    rewrite (collapse_pivot veqb VE g (c0 :: cs) (columns_under g (px_values px)) (pv_columns r) NE).
    + cbn [bind]. eexists. split; [reflexivity|]. cbn [pv_index pv_rows pv_columns]. split; [reflexivity|]. split; [reflexivity|].
      destruct (columns_under g (px_values px)) as [|v [|w vs]] eqn:VS; cbn [length Nat.eqb].
      * exfalso. destruct FW as [_ B]. destruct (B (px_values px)) as (d & D); [cbn; auto|]. assert (Y : In (px_values px, d) (columns_under f (px_values px))) by (apply columns_under_In; auto). rewrite <- GV in Y. destruct Y.
      * left. destruct (proj1 (PC c0) (or_introl eq_refl)) as (A & B & C). exists c0, v. split; [rewrite <- GK; apply columns_under_In; auto|]. split; [apply GA; [congruence|exact C]|]. split; [congruence|].
        rewrite map_map. rewrite <- (map_id (pv_columns r)) at 1. apply map_ext_in. intros c I. apply IC in I. destruct I as (u & q & [<-|[]] & _ & ->). reflexivity.
      * right. split; [|reflexivity]. right. rewrite <- GV. cbn [length]. lia.
    + apply NoDup_filter. exact (proj1 GS).
    + rewrite GV. destruct FW as [_ B]. destruct (B (px_values px)) as (d & D); [cbn; auto|]. intros Y. assert (Z : In (px_values px, d) (columns_under f (px_values px))) by (apply columns_under_In; auto). rewrite Y in Z. destruct Z.
    + intros c I. apply PC in I. exact (proj2 (proj2 I)).
    + exact IC.
Qed.

Definition given {A} (d : A) (o : option A) : A := match o with Some x => x | None => d end.

Definition output_disabled (disabled : list string) : Prop := In "eval_config" disabled.

Definition no_slash_at_end (s : string) : Prop := forall t, s <> (t ++ "/")%string.

(* proofs *)

Lemma disabled_memb disabled : memb String.eqb "eval_config" disabled = true <-> output_disabled disabled.
Proof. apply (memb_In _ String.eqb_eq). Qed.

Lemma slash_last_false s : no_slash_at_end s -> slash_last s = false.
Proof.
  induction s as [|c s IH]; intros N; [reflexivity|]. destruct s as [|d s].
  - cbn. destruct (Ascii.eqb_spec c "/") as [->|]; [|reflexivity]. destruct (N ""). reflexivity.
  - change (slash_last (String d s) = false). apply IH. intros t E. apply (N (String c t)). rewrite E. reflexivity.
Qed.

Lemma has_slash_app s t : has_slash (s ++ String "/" t) = true.
Proof. induction s as [|c s IH]; [reflexivity|]. cbn [append has_slash]. rewrite IH. apply orb_true_r. Qed.

Lemma root_from_app s : forall b, root_from b (s ++ "/eval_config.json") = (s ++ "/eval_config")%string.
Proof.
  induction s as [|c s IH]; intros b; [destruct b; reflexivity|]. cbn [append root_from]. destruct (Ascii.eqb c "/"); [rewrite IH; reflexivity|].
  destruct (Ascii.eqb c "."); [|rewrite IH; reflexivity]. destruct b; [rewrite IH; reflexivity|]. rewrite has_slash_app. cbn [orb]. rewrite IH. reflexivity.
Qed.

Lemma default_path dir : dir <> "" -> no_slash_at_end dir -> path_join dir (file_name None "json") = (dir ++ "/eval_config.json")%string.
Proof.
  intros NE NS. unfold path_join. cbn [file_name append]. rewrite (slash_last_false dir NS). destruct (String.eqb_spec dir ""); [congruence|]. reflexivity.
Qed.

Lemma C219_round_trip_pf C O (convert : O -> C * string * string) disabled fs output_path cfg fmt data data_fmt models filename fs' :
  ~ output_disabled disabled -> write_eval_config disabled fs output_path cfg fmt data data_fmt models filename = Ok fs' ->
  load_eval_run convert fs' output_path fmt filename
  = Ok (Some cfg, given "<user provided PCollection>" data, given "<unknown>" data_fmt, given [("", "<unknown>")] models).
Proof.
  intros ND E. unfold write_eval_config in E. destruct (memb String.eqb "eval_config" disabled) eqn:M; [apply disabled_memb in M; destruct (ND M)|].
  destruct (set_str fmt && negb (String.eqb fmt "json")); [discriminate E|]. injection E as <-. unfold load_eval_run. rewrite (dget_dset_eq _ String.eqb_eq). reflexivity.
Qed.

Lemma C219_one_file_pf C O disabled fs dir (cfg : C) data data_fmt models : dir <> "" -> no_slash_at_end dir -> ~ output_disabled disabled ->
  exists fs', write_eval_config (O := O) disabled fs dir cfg "json" data data_fmt models None = Ok fs' /\
    (exists r, dget String.eqb fs' (dir ++ "/eval_config.json")%string = Some r) /\
    forall p, p <> (dir ++ "/eval_config.json")%string -> dget String.eqb fs' p = dget String.eqb fs p.
Proof.
  intros NE NS ND. unfold write_eval_config. destruct (memb String.eqb "eval_config" disabled) eqn:M; [apply disabled_memb in M; destruct (ND M)|].
  cbn [String.eqb Ascii.eqb Bool.eqb negb]. rewrite andb_false_r. eexists. split; [reflexivity|]. rewrite (default_path dir NE NS). split.
  - rewrite (dget_dset_eq _ String.eqb_eq). eexists. reflexivity.
  - intros p N. apply (dget_dset_neq _ String.eqb_eq). congruence.
Qed.

Lemma C219_formats_pf C O disabled (fs : list (string * content (C := C) (O := O))) output_path cfg fmt data data_fmt models filename :
  (output_disabled disabled -> write_eval_config disabled fs output_path cfg fmt data data_fmt models filename = Ok fs) /\
  (~ output_disabled disabled -> (fmt = "" \/ fmt = "json" -> is_ok (write_eval_config disabled fs output_path cfg fmt data data_fmt models filename) = true) /\
                                 (fmt <> "" -> fmt <> "json" -> write_eval_config disabled fs output_path cfg fmt data data_fmt models filename = Err ValueError)).
Proof.
  unfold write_eval_config. split.
  - intros D. apply disabled_memb in D. rewrite D. reflexivity.
  - intros ND. destruct (memb String.eqb "eval_config" disabled) eqn:M; [apply disabled_memb in M; destruct (ND M)|]. split.
    + intros [->| ->]; reflexivity.
    + intros N1 N2. destruct (String.eqb_spec fmt "json") as [->|_]; [congruence|]. destruct fmt; [congruence|]. reflexivity.
Qed.

Lemma C219_other_files_pf C O (convert : O -> C * string * string) fs dir : dir <> "" -> no_slash_at_end dir -> dget String.eqb fs (dir ++ "/eval_config.json")%string = None ->
  (dget String.eqb fs (dir ++ "/eval_config")%string = None -> load_eval_run convert fs dir "json" None = Ok (None, "", "", [])) /\
  (forall version o cfg data model, dget String.eqb fs (dir ++ "/eval_config")%string = Some (Pickled (Some version) (Some o)) -> convert o = (cfg, data, model) ->
     load_eval_run convert fs dir "json" None = Ok (Some cfg, data, "", [("", model)])).
Proof.
  intros NE NS N. unfold load_eval_run. rewrite (default_path dir NE NS), N. unfold path_root. rewrite root_from_app. split; [intros ->; reflexivity|]. intros version o cfg data model -> ->. reflexivity.
Qed.

Lemma C219_versions_pf C O (convert : O -> C * string * string) fs dir r : dir <> "" -> no_slash_at_end dir -> dget String.eqb fs (dir ++ "/eval_config.json")%string = Some (Json r) ->
  (load_eval_run convert fs dir "json" None = Err ValueError <-> er_version r = "").
Proof.
  intros NE NS N. unfold load_eval_run. rewrite (default_path dir NE NS), N. destruct (er_version r); cbn [set_str]; split; intros H; try reflexivity; discriminate H.
Qed.

Lemma C219_versions_refuted_pf : exists fs cfg, dget String.eqb fs "/o/eval_config" = Some (Pickled None (Some 5)) /\
  load_eval_run (C := nat) (fun n => (n, "d", "m")) fs "/o" "json" None = Ok (Some cfg, "d", "", [("", "m")]).
Proof. exists [("/o/eval_config", Pickled None (Some 5))], 5. split; reflexivity. Qed.
