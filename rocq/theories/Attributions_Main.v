(* Proofs of the theorems restated in Attributions_Properties.v. *)
From Coq Require Import String Ascii.
From Coq Require Import Qcabs Sorted.
From Verif Require Import Base BaseFacts Beam BeamFacts Util_Model Keys_Model Keys_Main Inputs_Model Inputs_Main Sums_Model Sums_Main Means_Model Attributions_Model.
Local Open Scope string_scope.
Local Open Scope list_scope.

(* C177 - C179: totals and means of attributions. *)

(** What an example says about its features: a list of numbers for each. *)

Definition claims := list (string * list Qc).

(** The numbers of an array: all of them; a table must have one column. *)

Inductive plain : array -> list Qc -> Prop :=
| plain_one x : plain (Scalar x) [x]
| plain_row l : plain (Row l) l
| plain_column l : plain (Table (map (fun x => [x]) l)) l.

(** [l] is [s] from the largest to the smallest. *)

Definition descending (s l : list Qc) : Prop :=
  Permutation s l /\ forall i j, i <= j < length l -> (nth j l 0 <= nth i l 0)%Qc.

(** The numbers the sub key asks for. *)

Inductive chosen : option sub_key -> array -> list Qc -> Prop :=
| chosen_all v l : plain v l -> chosen None v l
| chosen_all' v l : plain v l -> chosen (Some (SubKey None None None)) v l
| chosen_class c k t l x : nth_error l c = Some x -> chosen (Some (SubKey (Some (Z.of_nat c)) k t)) (Row l) [x]
| chosen_class_row c k t rows r : nth_error rows c = Some r -> chosen (Some (SubKey (Some (Z.of_nat c)) k t)) (Table rows) r
| chosen_kth k t l l' x : descending l l' -> nth_error l' k = Some x -> chosen (Some (SubKey None (Some (S k)) t)) (Row l) [x]
| chosen_top k l l' : descending l l' -> k <= length l -> chosen (Some (SubKey None None (Some k))) (Row l) (firstn k l').

(** The attributions of one model and output. *)

Definition part (key : string) (v v' : data array) : Prop :=
  if String.eqb key "" then v' = v else get_by_keys v [key] None false = Ok (Some v').

(** An example read as the claims about its features and its weight. *)

Definition says (ap : list num -> nat -> list nat) (key : metric_key) (lk pk : string)
    (e : attributed) (r : claims * Qc) : Prop :=
  exists v v1 d ys y,
    a_attributions e = Some v /\ part (k_model key) v v1 /\ part (k_output key) v1 (Dict d) /\
    to_label_prediction_example_weight ap
      (Options (k_sub key) false None (match k_weighted key with Some b => b | None => false end) false false true false)
      lk pk (k_model key) (k_output key) (a_inputs e) = Ok (y :: ys) /\
    snd y = [snd r] /\
    Forall2 (fun kv c => fst kv = fst c /\ exists a, snd kv = Leaf a /\ chosen (k_sub key) a (snd c)) d (fst r).

(** Every feature has the same number of attributions in all examples. *)

Definition same_sizes (rs : list (claims * Qc)) : Prop :=
  forall f c1 c2 l1 l2, In c1 rs -> In c2 rs -> In (f, l1) (fst c1) -> In (f, l2) (fst c2) -> length l1 = length l2.

(** The total of the [i]th attribution of feature [f]. *)

Definition total_of (absolute : bool) (f : string) (i : nat) (rs : list (claims * Qc)) : Qc :=
  qsum (map (fun r => qsum (map (fun c =>
    if String.eqb f (fst c) then
      let x := (nth i (snd c) 0 * snd r)%Qc in if absolute then Qcabs x else x
    else 0%Qc) (fst r))) rs).

Definition parts {A} (a : attribution A) : list A := match a with One x => [x] | Many xs => xs end.

(** A sorted list is determined by its elements, so the k largest are. *)

Lemma absolute_value_abs x : absolute_value x = Qcabs x.
Proof.
  unfold absolute_value. destruct (Qc_ltb x 0) eqn:E; qc_bool; symmetry.
  - apply Qcabs_neg. apply Qclt_le_weak, E.
  - apply Qcabs_pos, E.
Qed.

Lemma signed_abs b x : signed b x = if b then Qcabs x else x.
Proof. destruct b; cbn; [apply absolute_value_abs|reflexivity]. Qed.

(* sums of arrays *)

Definition singles (rows : list (list Qc)) : option (list Qc) :=
  if forallb (fun r => Nat.eqb (length r) 1) rows then Some (concat rows) else None.

Definition numbers (v : array) : option (list Qc) :=
  match v with Scalar x => Some [x] | Row l => Some l | Table rows => singles rows end.

Lemma singles_spec rows l : singles rows = Some l <-> rows = map (fun x => [x]) l.
Proof.
  unfold singles. revert l. induction rows as [|r rows IH]; intros l; cbn.
  - split; intro H; [inversion H; reflexivity|destruct l; [reflexivity|discriminate]].
  - destruct r as [|x [|]]; cbn.
    + split; [discriminate|destruct l; discriminate].
    + destruct (forallb _ rows) eqn:E; cbn.
      * split; intro H.
        -- inversion H; subst. cbn. f_equal. apply IH. reflexivity.
        -- destruct l as [|y l]; [discriminate|]. cbn in H. inversion H; subst.
           f_equal. f_equal. assert (Some (concat (map (fun x => [x]) l)) = Some l) as G by (apply IH; reflexivity).
           congruence.
      * split; [discriminate|]. destruct l as [|y l]; [discriminate|]. intro H. inversion H; subst.
        exfalso. assert (None = Some l) as G by (apply IH; reflexivity). discriminate.
    + split; [discriminate|destruct l; discriminate].
Qed.

Lemma numbers_plain v l : numbers v = Some l <-> plain v l.
Proof.
  split.
  - destruct v; cbn; intro H; [inversion H; constructor|inversion H; constructor|].
    apply singles_spec in H. subst. constructor.
  - destruct 1; cbn; auto. apply singles_spec. reflexivity.
Qed.

Lemma numbers_size v l : numbers v = Some l -> size v = length l.
Proof.
  destruct v; cbn; intro H; [inversion H; reflexivity|inversion H; reflexivity|].
  unfold singles in H. destruct (forallb _ _); congruence.
Qed.

Lemma numbers_times v w : numbers (times v w) = option_map (map (fun x => x * w)%Qc) (numbers v).
Proof.
  destruct v; cbn; auto. unfold singles. rewrite <- concat_map.
  replace (forallb _ (map _ rows)) with (forallb (fun r : list Qc => Nat.eqb (length r) 1) rows).
  - destruct (forallb _ _); reflexivity.
  - induction rows as [|r rows IH]; cbn; auto. rewrite map_length, IH. reflexivity.
Qed.

Definition add_list (absolute : bool) (a l : list Qc) : res (list Qc) :=
  if negb (Nat.eqb (length a) (length l)) then Err ValueError
  else Ok (map (fun ab => fst ab + signed absolute (snd ab))%Qc (combine a l)).

Lemma sum_numbers b a v :
  sum b a v = match numbers v with Some l => add_list b a l | None => Err ValueError end.
Proof.
  destruct v as [x|l|rows]; cbn [sum numbers].
  - destruct a as [|a0 [|]]; reflexivity.
  - reflexivity.
  - assert (G : forall rows, (if negb (Nat.eqb (length a) (length rows)) then Err ValueError
      else let! l := mapM (fun r : list Qc => match r with [x] => Ok x | _ => Err ValueError end) rows in add_list b a l)
      = match singles rows with Some l => add_list b a l | None => Err ValueError end).
    { clear rows. intro rows.
      assert (M : mapM (fun r : list Qc => match r with [x] => Ok x | _ => Err ValueError end) rows
                  = match singles rows with Some l => Ok l | None => Err ValueError end).
      { unfold singles. induction rows as [|r rows IH]; auto. cbn [mapM forallb].
        destruct r as [|x [|]]; cbn [bind length Nat.eqb andb]; auto. rewrite IH.
        destruct (forallb _ rows); reflexivity. }
      rewrite M. destruct (singles rows) as [l|] eqn:E; cbn [bind].
      - apply singles_spec in E. subst. rewrite map_length. unfold add_list.
        destruct (Nat.eqb (length a) (length l)); reflexivity.
      - destruct (Nat.eqb _ _); reflexivity. }
    rewrite <- G. destruct rows as [|[|x [|y r]] [|r2 rows]]; try reflexivity.
    cbn. destruct a as [|a0 [|]]; reflexivity.
Qed.

(* one named list of numbers added to the dictionary *)

Definition entry_add (absolute : bool) (acc : claims) (e : string * list Qc) : res claims :=
  let a := match dget String.eqb acc (fst e) with Some a => a | None => repeat 0%Qc (length (snd e)) end in
  let! a := add_list absolute a (snd e) in
  Ok (dset String.eqb acc (fst e) a).

Definition consistent (L : claims) : Prop :=
  forall f l1 l2, In (f, l1) L -> In (f, l2) L -> length l1 = length l2.

Definition at_ (absolute : bool) (f : string) (i : nat) (L : claims) : Qc :=
  qsum (map (fun e => if String.eqb f (fst e) then signed absolute (nth i (snd e) 0%Qc) else 0%Qc) L).

Definition Rep (absolute : bool) (d : claims) (L : claims) : Prop :=
  NoDup (map fst d) /\
  forall f, match dget String.eqb d f with
            | None => forall l, ~ In (f, l) L
            | Some v => (exists l, In (f, l) L) /\ (forall l, In (f, l) L -> length l = length v) /\
                        forall i, nth i v 0%Qc = at_ absolute f i L
            end.

Lemma signed_0 b : signed b 0%Qc = 0%Qc.
Proof. destruct b; reflexivity. Qed.

Lemma add_list_nth b a l l' i : add_list b a l = Ok l' ->
  length a = length l /\ length l' = length l /\ nth i l' 0%Qc = (nth i a 0 + signed b (nth i l 0))%Qc.
Proof.
  unfold add_list. destruct (Nat.eqb (length a) (length l)) eqn:E; cbn; [|discriminate].
  apply Nat.eqb_eq in E. intro H. inversion H; subst; clear H. split; auto. split.
  - rewrite map_length, combine_length. lia.
  - revert l i E. induction a as [|x a IH]; intros [|y l] i E; cbn in *; try discriminate.
    + destruct i; rewrite signed_0; ring.
    + destruct i; cbn; auto.
Qed.

Lemma at_app b f i L1 L2 : at_ b f i (L1 ++ L2) = (at_ b f i L1 + at_ b f i L2)%Qc.
Proof. unfold at_. rewrite map_app, qsum_app. reflexivity. Qed.

Lemma at_one b f i g l : at_ b f i [(g, l)] = if String.eqb f g then signed b (nth i l 0%Qc) else 0%Qc.
Proof. unfold at_. cbn. destruct (String.eqb f g); ring. Qed.

Lemma at_none b f i L : (forall l, ~ In (f, l) L) -> at_ b f i L = 0%Qc.
Proof.
  intro H. apply qsum_map_zero. intros [g l] I. cbn. destruct (String.eqb_spec f g); auto. subst.
  destruct (H l I).
Qed.

Lemma Rep_nil b : Rep b [] [].
Proof. split; [constructor|]. intro f. cbn. auto. Qed.

Lemma Rep_consistent b d L : Rep b d L -> consistent L.
Proof.
  intros [N R] f l1 l2 I1 I2. specialize (R f). destruct (dget String.eqb d f) as [v|].
  - destruct R as (_ & R & _). rewrite (R _ I1), (R _ I2). reflexivity.
  - destruct (R _ I1).
Qed.

Lemma nth_repeat0 i n : nth i (repeat 0%Qc n) 0%Qc = 0%Qc.
Proof. revert i; induction n; destruct i; cbn; auto. Qed.

Lemma Rep_add b d L f l :
  Rep b d L ->
  (exists d', entry_add b d (f, l) = Ok d' /\ Rep b d' (L ++ [(f, l)])) \/
  (exists x, entry_add b d (f, l) = Err x) /\ ~ consistent (L ++ [(f, l)]).
Proof.
  intros [N R]. unfold entry_add. cbn [fst snd].
  set (a := match dget String.eqb d f with Some a => a | None => _ end).
  destruct (add_list b a l) as [l'|x] eqn:E; cbn [bind].
  - left. eexists. split; [reflexivity|].
    pose proof (fun i => add_list_nth b a l l' i E) as G.
    assert (GL : length a = length l /\ length l' = length l) by (destruct (G 0) as (? & ? & _); auto).
    split; [apply dset_NoDup; auto; apply string_eqb_eq|].
    intro g. rewrite dget_dset by apply string_eqb_eq. specialize (R g). destruct (String.eqb_spec g f) as [e|ne].
    + subst g. split; [exists l; apply in_or_app; cbn; auto|]. split.
      * intros l0 I. apply in_app_or in I. destruct I as [I|[I|[]]].
        -- unfold a in GL. destruct (dget String.eqb d f) as [v|].
           ++ destruct R as (_ & R & _). rewrite (R _ I). lia.
           ++ destruct (R _ I).
        -- inversion I; subst. lia.
      * intro i. destruct (G i) as (_ & _ & Gi). rewrite Gi, at_app, at_one, String.eqb_refl. f_equal.
        unfold a. destruct (dget String.eqb d f) as [v|].
        -- destruct R as (_ & _ & R). apply R.
        -- rewrite nth_repeat0, at_none; auto.
    + destruct (dget String.eqb d g) as [v|].
      * destruct R as ((l0 & I0) & R1 & R2). split; [exists l0; apply in_or_app; auto|]. split.
        -- intros l1 I. apply in_app_or in I. destruct I as [I|[I|[]]]; auto. congruence.
        -- intro i. rewrite at_app, at_one. destruct (String.eqb_spec g f); [congruence|]. rewrite R2. ring.
      * intros l1 I. apply in_app_or in I. destruct I as [I|[I|[]]]; [apply (R l1 I)|congruence].
  - right. split; [eauto|]. intro C. specialize (R f). unfold a in E. destruct (dget String.eqb d f) as [v|].
    + destruct R as ((l0 & I0) & R & _).
      assert (length l0 = length l) by (apply (C f); apply in_or_app; cbn; auto).
      unfold add_list in E. rewrite <- (R _ I0), H, Nat.eqb_refl in E. discriminate.
    + unfold add_list in E. rewrite repeat_length, Nat.eqb_refl in E. discriminate.
Qed.

Lemma consistent_incl L1 L2 : incl L1 L2 -> consistent L2 -> consistent L1.
Proof. intros I C f l1 l2 H1 H2. apply (C f); auto. Qed.

Lemma Rep_fold b es : forall d L,
  Rep b d L ->
  (exists d', foldM (entry_add b) es d = Ok d' /\ Rep b d' (L ++ es)) \/
  (exists x, foldM (entry_add b) es d = Err x) /\ ~ consistent (L ++ es).
Proof.
  induction es as [|[f l] es IH]; intros d L R; cbn [foldM].
  - left. exists d. rewrite app_nil_r. auto.
  - destruct (Rep_add b d L f l R) as [(d' & E & R')|((x & E) & C)]; rewrite E; cbn [bind].
    + replace (L ++ (f, l) :: es) with ((L ++ [(f, l)]) ++ es) by (rewrite <- app_assoc; reflexivity).
      apply IH, R'.
    + right. split; [eauto|]. intro C'. apply C. apply (consistent_incl _ _) with (2 := C').
      intros z Z. apply in_app_or in Z. apply in_or_app. destruct Z as [Z|[Z|[]]]; cbn; auto.
Qed.

(* sorting *)

Definition ge_ (a b : Qc) : Prop := (b <= a)%Qc.

Lemma insert_perm x l : Permutation (x :: l) (insert_desc x l).
Proof.
  induction l as [|y l IH]; cbn; auto. destruct (Qc_ltb x y); auto.
  eapply perm_trans; [apply perm_swap|]. constructor. exact IH.
Qed.

Lemma sort_perm l : Permutation l (sort_desc l).
Proof.
  induction l as [|x l IH]; cbn; auto. eapply perm_trans; [constructor; exact IH|]. apply insert_perm.
Qed.

Lemma insert_sorted x l : StronglySorted ge_ l -> StronglySorted ge_ (insert_desc x l).
Proof.
  induction l as [|y l IH]; cbn; intro S0.
  - repeat constructor.
  - inversion S0; subst. destruct (Qc_ltb x y) eqn:E; qc_bool.
    + constructor; auto. rewrite Forall_forall in *. intros z Z.
      apply (Permutation_in _ (Permutation_sym (insert_perm x l))) in Z. destruct Z as [Z|Z]; auto.
      subst. unfold ge_. apply Qclt_le_weak, E.
    + constructor; auto. constructor; auto. rewrite Forall_forall in *. intros z Z. specialize (H2 z Z).
      unfold ge_ in *. eapply Qcle_trans; eauto.
Qed.

Lemma sort_sorted l : StronglySorted ge_ (sort_desc l).
Proof. induction l; cbn; [constructor|]. apply insert_sorted; auto. Qed.

Lemma sorted_unique l1 l2 : StronglySorted ge_ l1 -> StronglySorted ge_ l2 -> Permutation l1 l2 -> l1 = l2.
Proof.
  revert l2. induction l1 as [|x l1 IH]; intros l2 S1 S2 P.
  - apply Permutation_nil in P. auto.
  - destruct l2 as [|y l2]; [apply Permutation_sym, Permutation_nil in P; discriminate|].
    inversion S1; inversion S2; subst. rewrite Forall_forall in *.
    assert (x = y).
    { apply Qcle_antisym.
      - assert (I : In x (y :: l2)) by (eapply Permutation_in; [exact P|left; auto]).
        destruct I as [I|I]; [subst; apply Qcle_refl|]. apply (H6 x I).
      - assert (I : In y (x :: l1)) by (eapply Permutation_in; [apply Permutation_sym; exact P|left; auto]).
        destruct I as [I|I]; [subst; apply Qcle_refl|]. apply (H2 y I). }
    subst. f_equal. apply IH; auto. apply Permutation_cons_inv in P. exact P.
Qed.

Lemma descending_sorted s l : descending s l <-> Permutation s l /\ StronglySorted ge_ l.
Proof.
  unfold descending. split; intros [P H]; split; auto; clear P s.
  - induction l as [|x l IH]; constructor.
    + apply IH. intros i j Hj. apply (H (S i) (S j)). cbn. lia.
    + apply Forall_forall. intros y Y. destruct (In_nth _ _ 0%Qc Y) as (i & I & E). subst.
      apply (H 0 (S i)). cbn. lia.
  - induction H as [|x l H IH F]; intros i j Hj; cbn in Hj; [lia|].
    destruct i, j; cbn; [apply Qcle_refl| |lia|apply IH; lia].
    rewrite Forall_forall in F. apply F. apply nth_In. lia.
Qed.

Lemma sorted_app l1 l2 : StronglySorted ge_ l1 -> StronglySorted ge_ l2 ->
  (forall x y, In x l1 -> In y l2 -> (y <= x)%Qc) -> StronglySorted ge_ (l1 ++ l2).
Proof.
  induction l1 as [|x l1 IH]; cbn; intros S1 S2 D; auto. inversion S1; subst. constructor.
  - apply IH; auto.
  - rewrite Forall_forall in *. intros z Z. apply in_app_or in Z. destruct Z as [Z|Z]; [auto|].
    apply D; auto.
Qed.

Lemma nth_ok_nth {A} (l : list A) i d : i < length l -> nth_ok l i = Ok (nth i l d).
Proof. intro H. unfold nth_ok. rewrite (nth_error_nth' l d H). reflexivity. Qed.

Lemma nth_ok_error {A} (l : list A) i : nth_ok l i = match nth_error l i with Some x => Ok x | None => Err IndexError end.
Proof. unfold nth_ok. destruct (nth_error l i); reflexivity. Qed.

Lemma top_values ap l k :
  argpartition_ok ap -> 1 <= k <= length l ->
  exists xs rest, scores_by_top_k ap k (Row l) = Ok xs /\ length xs = k /\ descending l (xs ++ rest).
Proof.
  intros A K.
  destruct (top_k_ok ap (map Fin l) k A) as (low & high & T & LH & P & D & _).
  { intro I. apply in_map_iff in I. destruct I as (? & ? & _). discriminate. }
  { rewrite map_length. exact K. }
  rewrite map_length in P. unfold top_k_indices in T. rewrite map_length in T.
  unfold scores_by_top_k. destruct (Nat.ltb (length l) k); [discriminate|]. inversion T as [T']. clear T.
  assert (R : forall i, In i (low ++ high) -> i < length l).
  { intros i I. apply (Permutation_in _ P) in I. apply in_seq in I. lia. }
  rewrite T'. unfold select_indices.
  rewrite (mapM_ok _ (fun i => nth i l 0%Qc)).
  2: { intros i I. apply nth_ok_nth. apply R, in_or_app. auto. }
  cbn [bind]. exists (sort_desc (map (fun i => nth i l 0%Qc) high)), (sort_desc (map (fun i => nth i l 0%Qc) low)).
  split; [reflexivity|]. split.
  - rewrite <- (Permutation_length (sort_perm _)), map_length. exact LH.
  - apply descending_sorted. split.
    + assert (E : Permutation l (map (fun i => nth i l 0%Qc) (low ++ high))).
      { eapply perm_trans; [|apply Permutation_map, Permutation_sym, P].
        replace (map (fun i => nth i l 0%Qc) (seq 0 (length l))) with l; auto.
        clear. apply nth_ext with (d := 0%Qc) (d' := nth 0 l 0%Qc).
        - rewrite map_length, seq_length. reflexivity.
        - intros n H. rewrite (map_nth (fun i => nth i l 0%Qc)). rewrite seq_nth; auto. }
      eapply perm_trans; [exact E|]. rewrite map_app.
      eapply perm_trans; [apply Permutation_app_comm|]. apply Permutation_app; apply sort_perm.
    + apply sorted_app; [apply sort_sorted|apply sort_sorted|].
      intros x y X Y.
      apply (Permutation_in _ (Permutation_sym (sort_perm _))) in X.
      apply (Permutation_in _ (Permutation_sym (sort_perm _))) in Y.
      apply in_map_iff in X. apply in_map_iff in Y. destruct X as (i & X & I), Y as (j & Y & J). subst.
      specialize (D j i J I).
      rewrite (nth_indep _ NaN (Fin 0%Qc)) in D by (rewrite map_length; apply R, in_or_app; auto).
      rewrite (nth_indep (map Fin l) NaN (Fin 0%Qc)) in D by (rewrite map_length; apply R, in_or_app; auto).
      rewrite !map_nth in D. cbn in D. apply Qc_leb_le, D.
Qed.

Lemma top_values_all ap l k l' :
  argpartition_ok ap -> 1 <= k <= length l -> descending l l' -> scores_by_top_k ap k (Row l) = Ok (firstn k l').
Proof.
  intros A K D. destruct (top_values ap l k A K) as (xs & rest & E & L & D'). rewrite E. f_equal.
  apply descending_sorted in D. apply descending_sorted in D'. destruct D as [P S1], D' as [P' S2].
  assert (l' = xs ++ rest).
  { apply sorted_unique; auto. eapply perm_trans; [apply Permutation_sym, P|exact P']. }
  subst l'. rewrite firstn_app, L, Nat.sub_diag, <- L, firstn_all. cbn. rewrite app_nil_r. reflexivity.
Qed.

Lemma descending_exists l : exists l', descending l l'.
Proof. exists (sort_desc l). apply descending_sorted. split; [apply sort_perm|apply sort_sorted]. Qed.

Definition sub_key_ok (sk : option sub_key) : Prop :=
  match sk with
  | None => True
  | Some (SubKey _ k t) => k <> Some 0 /\ t <> Some 0
  end.

Lemma chosen_select ap sk v l :
  argpartition_ok ap -> sub_key_ok sk ->
  chosen sk v l <-> exists v', select_scores ap sk v = Ok v' /\ numbers v' = Some l.
Proof.
  intros A K. split.
  - destruct 1; cbn [select_scores].
    + exists v. split; auto. apply numbers_plain; auto.
    + exists v. split; auto. apply numbers_plain; auto.
    + exists (Scalar x). split; auto. cbn [scores_by_class_id].
      assert (c < length l) by (apply nth_error_Some; congruence).
      destruct (Z.ltb_spec (Z.of_nat c) 0); [lia|]. destruct (Z.leb_spec (Z.of_nat (length l)) (Z.of_nat c)); [lia|].
      cbn [orb]. rewrite Nat2Z.id, nth_ok_error, H. reflexivity.
    + exists (Row r). split; auto. cbn [scores_by_class_id].
      assert (c < length rows) by (apply nth_error_Some; congruence).
      destruct (Z.ltb_spec (Z.of_nat c) 0); [lia|]. destruct (Z.leb_spec (Z.of_nat (length rows)) (Z.of_nat c)); [lia|].
      cbn [orb]. rewrite Nat2Z.id, nth_ok_error, H. reflexivity.
    + assert (k < length l').
      { apply nth_error_Some. congruence. }
      assert (length l = length l') by (apply Permutation_length, H).
      rewrite (top_values_all ap l (S k) l') by (auto; lia). cbn [bind].
      exists (Scalar x). split; auto. rewrite nth_ok_error. replace (S k - 1) with k by lia.
      replace (nth_error (firstn (S k) l') k) with (nth_error l' k).
      * rewrite H0. reflexivity.
      * rewrite <- (firstn_skipn (S k) l') at 1. apply nth_error_app1.
        rewrite firstn_length. lia.
    + destruct K as [_ K]. assert (k <> 0) by congruence.
      rewrite (top_values_all ap l k l') by (auto; lia). cbn [bind]. eexists. split; reflexivity.
  - intros (v' & E & N). destruct sk as [[c k t]|]; cbn [select_scores] in E.
    2: { inversion E; subst. constructor. apply numbers_plain; auto. }
    destruct K as [K1 K2]. destruct c as [c|].
    + destruct v as [x|l0|rows]; cbn [scores_by_class_id] in E; [discriminate| |].
      * destruct (Z.ltb_spec c 0); [discriminate|]. destruct (Z.leb_spec (Z.of_nat (length l0)) c); [discriminate|].
        cbn [orb] in E. rewrite nth_ok_error in E. destruct (nth_error l0 (Z.to_nat c)) as [x|] eqn:X; [|discriminate].
        cbn in E. inversion E; subst. cbn in N. inversion N; subst.
        rewrite <- (Z2Nat.id c) by lia. constructor. exact X.
      * destruct (Z.ltb_spec c 0); [discriminate|]. destruct (Z.leb_spec (Z.of_nat (length rows)) c); [discriminate|].
        cbn [orb] in E. rewrite nth_ok_error in E. destruct (nth_error rows (Z.to_nat c)) as [x|] eqn:X; [|discriminate].
        cbn in E. inversion E; subst. cbn in N. inversion N; subst.
        rewrite <- (Z2Nat.id c) by lia. constructor. exact X.
    + assert (G : forall k xs, k <> 0 -> scores_by_top_k ap k v = Ok xs ->
                exists l0 l', v = Row l0 /\ k <= length l0 /\ descending l0 l' /\ xs = firstn k l').
      { intros k0 xs K E0. destruct v as [x|l0|rows]; try discriminate.
        destruct (Nat.ltb_spec (length l0) k0) as [L|L].
        { unfold scores_by_top_k in E0. destruct (Nat.ltb_spec (length l0) k0); [discriminate|lia]. }
        destruct (descending_exists l0) as (l' & D). exists l0, l'.
        rewrite (top_values_all ap l0 k0 l') in E0 by (auto; lia). inversion E0. auto. }
      destruct k as [k|].
      * destruct (scores_by_top_k ap k v) as [xs|] eqn:X; [|discriminate]. cbn [bind] in E.
        destruct (G k xs) as (l0 & l' & ? & L & D & ?); [congruence|exact X|]. subst v xs.
        destruct k as [|k]; [congruence|]. rewrite nth_ok_error in E. replace (S k - 1) with k in E by lia.
        assert (length l0 = length l') by (apply Permutation_length, D).
        replace (nth_error (firstn (S k) l') k) with (nth_error l' k) in E.
        2: { rewrite <- (firstn_skipn (S k) l') at 1. apply nth_error_app1. rewrite firstn_length. lia. }
        destruct (nth_error l' k) as [x|] eqn:Y; [|discriminate]. cbn in E. inversion E; subst.
        cbn in N. inversion N; subst. econstructor; eauto.
      * destruct t as [t|].
        -- destruct (scores_by_top_k ap t v) as [xs|] eqn:X; [|discriminate]. cbn [bind] in E.
           destruct (G t xs) as (l0 & l' & ? & L & D & ?); [congruence|exact X|]. subst v xs.
           inversion E; subst. cbn in N. inversion N; subst. constructor; auto.
        -- inversion E; subst. constructor. apply numbers_plain; auto.
Qed.

(* reading *)

Section Reading.
  Variable ap : list num -> nat -> list nat.
  Variable absolute : bool.
  Variable key : metric_key.
  Variables lk pk : string.
  Hypothesis A : argpartition_ok ap.
  Hypothesis K : sub_key_ok (k_sub key).
  Let weighted := match k_weighted key with Some b => b | None => false end.

  Definition feature_entry (sk : option sub_key) (w : Qc) (kv : string * data array) : res (string * list Qc) :=
    match snd kv with
    | Dict _ => Err TypeError
    | Leaf v => let! v := select_scores ap sk v in
                match numbers v with Some l => Ok (fst kv, map (fun x => x * w)%Qc l) | None => Err ValueError end
    end.
  Definition read (e : attributed) : res (list (string * data array) * Qc) :=
    match a_attributions e with
    | None => Err ValueError
    | Some attributions =>
        let lookup v key :=
          if String.eqb key "" then Ok v
          else let! found := get_by_keys v [key] None false in
               match found with Some v => Ok v | None => Err ValueError end in
        let! attributions := lookup attributions (k_model key) in
        let! attributions := lookup attributions (k_output key) in
        let! ys := to_label_prediction_example_weight ap (attribution_options (k_sub key) weighted)
                     lk pk (k_model key) (k_output key) (a_inputs e) in
        let! y := first_tuple ys in
        let! w := scalar (snd y) in
        match attributions with
        | Leaf _ => Err AttributeError
        | Dict d => Ok (d, w)
        end
    end.
  Definition entries_of (e : attributed) : res claims :=
    let! r := read e in mapM (feature_entry (k_sub key) (snd r)) (fst r).

  Lemma add_input_read acc e :
    add_input ap absolute (k_sub key) weighted lk pk (k_model key) (k_output key) acc e =
    let! r := read e in foldM (add_feature ap absolute (k_sub key) (snd r)) (fst r) acc.
  Proof.
    unfold add_input, read. destruct (a_attributions e) as [v|]; [|reflexivity]. cbv zeta.
    match goal with |- context [bind ?x _] => destruct x as [v1|] end; [|reflexivity]. cbn [bind].
    match goal with |- context [bind ?x _] => destruct x as [v2|] end; [|reflexivity]. cbn [bind].
    match goal with |- context [bind ?x _] => destruct x as [ys|] end; [|reflexivity]. cbn [bind].
    match goal with |- context [bind ?x _] => destruct x as [y|] end; [|reflexivity]. cbn [bind].
    match goal with |- context [bind ?x _] => destruct x as [w|] end; [|reflexivity]. cbn [bind].
    destruct v2; reflexivity.
  Qed.
  Lemma add_feature_entry w acc kv :
    (forall e, feature_entry (k_sub key) w kv = Ok e -> add_feature ap absolute (k_sub key) w acc kv = entry_add absolute acc e) /\
    (forall x, feature_entry (k_sub key) w kv = Err x -> exists y, add_feature ap absolute (k_sub key) w acc kv = Err y).
  Proof.
    destruct kv as [k v]. unfold feature_entry, add_feature. cbn [fst snd].
    destruct v as [v|d]; [|split; [discriminate|eauto]].
    destruct (select_scores ap (k_sub key) v) as [v'|x]; cbn [bind]; [|split; [discriminate|eauto]].
    destruct (numbers v') as [l|] eqn:N.
    - split; [|discriminate]. intros e E. inversion E; subst; clear E. unfold entry_add. cbn [fst snd].
      rewrite sum_numbers, numbers_times, N. cbn [option_map]. rewrite map_length, (numbers_size _ _ N). reflexivity.
    - split; [discriminate|]. intros x _. rewrite sum_numbers, numbers_times, N. cbn. eauto.
  Qed.
  Lemma add_features w d : forall acc,
    (forall es, mapM (feature_entry (k_sub key) w) d = Ok es ->
       foldM (add_feature ap absolute (k_sub key) w) d acc = foldM (entry_add absolute) es acc) /\
    (forall x, mapM (feature_entry (k_sub key) w) d = Err x ->
       exists y, foldM (add_feature ap absolute (k_sub key) w) d acc = Err y).
  Proof.
    induction d as [|kv d IH]; intros acc; cbn [mapM foldM].
    - split; [intros es E; inversion E; reflexivity|discriminate].
    - destruct (add_feature_entry w acc kv) as [H1 H2].
      destruct (feature_entry (k_sub key) w kv) as [e|x]; cbn [bind].
      + rewrite (H1 e eq_refl). split.
        * intros es E. destruct (mapM _ d) as [es'|]; [|discriminate]. cbn in E. inversion E; subst.
          cbn [foldM]. destruct (entry_add absolute acc e) as [acc'|]; cbn [bind]; [|reflexivity].
          apply IH. reflexivity.
        * intros x E. destruct (entry_add absolute acc e) as [acc'|]; cbn [bind]; [|eauto].
          destruct (mapM _ d) as [es'|x']; [discriminate|]. apply (proj2 (IH acc') x' eq_refl).
      + split; [discriminate|]. intros _ _. destruct (H2 x eq_refl) as [y Y]. rewrite Y. cbn. eauto.
  Qed.
  Lemma add_input_entries acc e :
    (forall es, entries_of e = Ok es ->
       add_input ap absolute (k_sub key) weighted lk pk (k_model key) (k_output key) acc e = foldM (entry_add absolute) es acc) /\
    (forall x, entries_of e = Err x ->
       exists y, add_input ap absolute (k_sub key) weighted lk pk (k_model key) (k_output key) acc e = Err y).
  Proof.
    rewrite add_input_read. unfold entries_of. destruct (read e) as [[d w]|x]; cbn [bind fst snd].
    - apply add_features.
    - split; [discriminate|eauto].
  Qed.

  (* merging *)
  Definition settled (d : claims) : Prop :=
    Forall (fun e => Forall (fun x => signed absolute x = x) (snd e)) d.
  Lemma dget_entry (d : claims) f l : NoDup (map fst d) -> In (f, l) d -> dget String.eqb d f = Some l.
  Proof. intros N I. apply dget_In_NoDup; auto. apply string_eqb_eq. Qed.
  Lemma signed_settled x y : (signed absolute x = x -> signed absolute y = y -> signed absolute (x + y) = x + y)%Qc.
  Proof.
    unfold signed, absolute_value. destruct absolute; auto.
    intros X Y. destruct (Qc_ltb x 0) eqn:E1; [exfalso; qc_lra|]. destruct (Qc_ltb y 0) eqn:E2; [exfalso; qc_lra|].
    destruct (Qc_ltb (x + y) 0) eqn:E3; auto. exfalso. qc_lra.
  Qed.
  Lemma signed_twice x : signed absolute (signed absolute x) = signed absolute x.
  Proof.
    unfold signed, absolute_value. destruct absolute; auto.
    destruct (Qc_ltb x 0) eqn:E1; [|rewrite E1; auto].
    destruct (Qc_ltb (- x) 0) eqn:E2; auto. exfalso. qc_lra.
  Qed.
  Lemma at_settled f i L : signed absolute (at_ absolute f i L) = at_ absolute f i L.
  Proof.
    unfold at_. induction L as [|e L IH]; cbn; [apply signed_0|].
    apply signed_settled; auto. destruct (String.eqb f (fst e)); [apply signed_twice|apply signed_0].
  Qed.
  Lemma Rep_settled d L : Rep absolute d L -> settled d.
  Proof.
    intros [N R]. apply Forall_forall. intros [f l] I. cbn. apply Forall_forall. intros x X.
    specialize (R f). rewrite (dget_entry d f l N I) in R. destruct R as (_ & _ & R).
    destruct (In_nth _ _ 0%Qc X) as (i & _ & E). subst. rewrite R. apply at_settled.
  Qed.
  Lemma merge_one_fold d2 : forall d1, settled d2 ->
    merge_one absolute d1 d2 = foldM (entry_add absolute) d2 d1.
  Proof.
    unfold merge_one. induction d2 as [|[f l] d2 IH]; intros d1 S0; [reflexivity|]. cbn [foldM].
    inversion S0 as [|? ? S1 S2]; subst. cbn [fst snd] in *.
    assert (E : (match dget String.eqb d1 f with
                 | Some a => let! a := sum absolute a (Row l) in Ok (dset String.eqb d1 f a)
                 | None => Ok (dset String.eqb d1 f l) end) = entry_add absolute d1 (f, l)).
    { unfold entry_add. cbn [fst snd]. destruct (dget String.eqb d1 f) as [a|]; [reflexivity|].
      unfold add_list. rewrite repeat_length, Nat.eqb_refl. cbn [negb bind]. f_equal. f_equal.
      clear - S1. induction S1 as [|x l X S1 IH]; cbn; auto. rewrite X, <- IH. f_equal. ring. }
    rewrite E. destruct (entry_add absolute d1 (f, l)) as [d|]; cbn [bind]; auto.
  Qed.
  Lemma at_cons b f i g l L :
    at_ b f i ((g, l) :: L) = ((if String.eqb f g then signed b (nth i l 0) else 0) + at_ b f i L)%Qc.
  Proof. reflexivity. Qed.
  Lemma at_rep f i d L : Rep absolute d L -> at_ absolute f i d = at_ absolute f i L.
  Proof.
    intros R. pose proof (Rep_settled d L R) as S0. destruct R as [N R]. specialize (R f).
    destruct (dget String.eqb d f) as [v|] eqn:E.
    - destruct R as (_ & _ & R). rewrite <- R. clear R. revert S0 E. induction d as [|[g l] d IH]; intros S0 E; [discriminate|].
      cbn [map fst] in N. inversion N; subst. inversion S0; subst.
      rewrite at_cons. cbn [dget] in E. destruct (String.eqb_spec f g).
      + subst. inversion E; subst. rewrite at_none.
        * cbn [snd] in H3. destruct (Nat.lt_ge_cases i (length v)) as [L1|L1].
          -- rewrite Forall_forall in H3. rewrite H3 by (apply nth_In; auto). ring.
          -- rewrite nth_overflow by auto. rewrite signed_0. ring.
        * intros l I. apply H1. apply in_map_iff. exists (g, l). auto.
      + rewrite IH; auto. ring.
    - rewrite (at_none absolute f i L); auto. apply at_none. intros l I.
      rewrite (dget_entry d f l N I) in E. discriminate.
  Qed.
  Lemma Rep_swap d d2 L1 L2 : Rep absolute d2 L2 -> Rep absolute d (L1 ++ d2) -> Rep absolute d (L1 ++ L2).
  Proof.
    intros R2 [N R]. split; auto. intro f. specialize (R f). pose proof (at_rep f) as AT.
    pose proof R2 as [N2 R2']. specialize (R2' f).
    destruct (dget String.eqb d f) as [v|].
    - destruct R as ((l & I) & R1 & R3). split; [|split].
      + apply in_app_or in I. destruct I as [I|I]; [exists l; apply in_or_app; auto|].
        rewrite (dget_entry d2 f l N2 I) in R2'. destruct R2' as ((l' & I') & _). exists l'. apply in_or_app; auto.
      + intros l0 I0. apply in_app_or in I0. destruct I0 as [I0|I0]; [apply R1; apply in_or_app; auto|].
        destruct (dget String.eqb d2 f) as [v2|] eqn:E.
        * destruct R2' as (_ & R2' & _). rewrite (R2' _ I0). apply R1. apply in_or_app. right.
          apply dget_In with (1 := string_eqb_eq) in E. exact E.
        * destruct (R2' _ I0).
      + intro i. rewrite R3, !at_app, (AT i d2 L2 R2). reflexivity.
    - intros l I. apply in_app_or in I. destruct I as [I|I]; [apply (R l); apply in_or_app; auto|].
      destruct (dget String.eqb d2 f) as [v2|] eqn:E.
      + apply (R v2). apply in_or_app. right. apply dget_In with (1 := string_eqb_eq) in E. exact E.
      + apply (R2' l I).
  Qed.
  Lemma consistent_swap d2 L1 L2 : Rep absolute d2 L2 -> consistent (L1 ++ L2) -> consistent (L1 ++ d2).
  Proof.
    intros [N R] C f l1 l2 I1 I2.
    assert (G : forall l, In (f, l) (L1 ++ d2) -> exists l', length l' = length l /\ In (f, l') (L1 ++ L2)).
    { intros l I. apply in_app_or in I. destruct I as [I|I]; [exists l; split; auto; apply in_or_app; auto|].
      specialize (R f). rewrite (dget_entry d2 f l N I) in R. destruct R as ((l' & I') & R & _).
      exists l'. split; auto. apply in_or_app; auto. }
    destruct (G l1 I1) as (m1 & <- & M1), (G l2 I2) as (m2 & <- & M2). apply (C f); auto.
  Qed.

  Definition Rel (acc : res claims) (l : list attributed) : Prop :=
    match acc with
    | Ok d => exists Ls, mapM entries_of l = Ok Ls /\ Rep absolute d (concat Ls)
    | Err _ => forall Ls, mapM entries_of l = Ok Ls -> ~ consistent (concat Ls)
    end.
  Lemma mapM_app_inv l1 l2 Ls : mapM entries_of (l1 ++ l2) = Ok Ls ->
    exists L1 L2, mapM entries_of l1 = Ok L1 /\ mapM entries_of l2 = Ok L2 /\ Ls = L1 ++ L2.
  Proof.
    rewrite mapM_app. destruct (mapM entries_of l1) as [L1|]; [|discriminate]. cbn [bind].
    destruct (mapM entries_of l2) as [L2|]; [|discriminate]. cbn [bind]. intro E. inversion E. eauto.
  Qed.
  Lemma Rel_err_app x l1 l2 : Rel (Err x) l1 -> Rel (Err x) (l1 ++ l2).
  Proof.
    intros H Ls E C. destruct (mapM_app_inv _ _ _ E) as (L1 & L2 & E1 & _ & ->).
    apply (H L1 E1). apply (consistent_incl _ _) with (2 := C). rewrite concat_app. intros z Z. apply in_or_app; auto.
  Qed.
  Lemma Rel_any x y l : Rel (Err x) l -> Rel (Err y) l.
  Proof. exact (fun H => H). Qed.
  Lemma Rel_merge acc1 acc2 l1 l2 : Rel acc1 l1 -> Rel acc2 l2 ->
    Rel (let! x := acc1 in let! y := acc2 in merge_one absolute x y) (l1 ++ l2).
  Proof.
    intros R1 R2. destruct acc1 as [d1|x]; cbn [bind].
    - destruct R1 as (Ls1 & E1 & R1). destruct acc2 as [d2|x]; cbn [bind].
      + destruct R2 as (Ls2 & E2 & R2). rewrite merge_one_fold by (eapply Rep_settled; eauto).
        destruct (Rep_fold absolute d2 d1 (concat Ls1) R1) as [(d & E & R)|((x & E) & C)]; rewrite E; cbn [Rel].
        * exists (Ls1 ++ Ls2). split; [rewrite mapM_app, E1, E2; reflexivity|]. rewrite concat_app.
          eapply Rep_swap; eauto.
        * intros Ls EL C'. rewrite mapM_app, E1, E2 in EL. cbn in EL. inversion EL; subst.
          apply C. rewrite concat_app in C'. eapply consistent_swap; eauto.
      + cbn [Rel]. intros Ls E C. destruct (mapM_app_inv _ _ _ E) as (L1 & L2 & _ & E2 & ->).
        apply (R2 L2 E2). apply (consistent_incl _ _) with (2 := C). rewrite concat_app. intros z Z. apply in_or_app; auto.
    - apply Rel_err_app. exact R1.
  Qed.
  Lemma total_run s : Rel (run (total_combiner ap absolute key lk pk) s) (inputs s).
  Proof.
    apply rel_run.
    - cbn. exists []. split; auto. apply Rep_nil.
    - intros acc l e R. cbn [total_combiner c_add]. destruct acc as [d|x]; cbn [bind].
      + destruct R as (Ls & E & R). destruct (add_input_entries d e) as [H1 H2].
        destruct (entries_of e) as [es|x] eqn:EE.
        * fold weighted. rewrite (H1 es eq_refl).
          assert (EM : mapM entries_of (l ++ [e]) = Ok (Ls ++ [es])).
          { rewrite mapM_app, E. cbn [mapM bind]. rewrite EE. reflexivity. }
          destruct (Rep_fold absolute es d (concat Ls) R) as [(d' & E' & R')|((x & E') & C)]; rewrite E'; cbn [Rel].
          -- exists (Ls ++ [es]). split; auto. rewrite concat_app. cbn. rewrite app_nil_r. exact R'.
          -- intros Ls' EL C'. rewrite EM in EL. inversion EL; subst. apply C.
             rewrite concat_app in C'. cbn in C'. rewrite app_nil_r in C'. exact C'.
        * fold weighted. destruct (H2 x eq_refl) as [y Y]. rewrite Y. cbn [Rel]. intros Ls' EL.
          rewrite mapM_app, E in EL. cbn [mapM bind] in EL. rewrite EE in EL. discriminate.
      + apply Rel_err_app. exact R.
    - intros a l ps Ra Hps. cbn [total_combiner c_merge].
      revert a l Ra. induction Hps as [|[b m] ps Hb Hps IH]; intros a l Ra; cbn [map fst snd fold_left concat].
      + rewrite app_nil_r. exact Ra.
      + rewrite app_assoc. apply IH. apply Rel_merge; auto.
  Qed.

End Reading.

Definition scaled (r : claims * Qc) : claims := map (fun c => (fst c, map (fun x => x * snd r)%Qc (snd c))) (fst r).

Lemma part_lookup key v v' :
  (if String.eqb key "" then Ok v
   else let! found := get_by_keys v [key] None false in
        match found with Some v => Ok v | None => Err ValueError end) = Ok v' <-> part key v v'.
Proof.
  unfold part. destruct (String.eqb key "").
  - split; intro H; [inversion H; auto|subst; auto].
  - destruct (get_by_keys v [key] None false) as [[x|]|]; cbn [bind]; split; intro H; try discriminate; inversion H; auto.
Qed.

Lemma says_read ap key lk pk e d w :
  read ap key lk pk e = Ok (d, w) <->
  exists v v1 ys y,
    a_attributions e = Some v /\ part (k_model key) v v1 /\ part (k_output key) v1 (Dict d) /\
    to_label_prediction_example_weight ap
      (Options (k_sub key) false None (match k_weighted key with Some b => b | None => false end) false false true false)
      lk pk (k_model key) (k_output key) (a_inputs e) = Ok (y :: ys) /\ snd y = [w].
Proof.
  unfold read. destruct (a_attributions e) as [v|].
  2: { split; [discriminate|]. intros (? & ? & ? & ? & ? & _). discriminate. }
  cbv zeta. split.
  - match goal with |- context [bind ?x _] => destruct x as [v1|] eqn:E1 end; [|discriminate]. cbn [bind].
    match goal with |- context [bind ?x _] => destruct x as [v2|] eqn:E2 end; [|discriminate]. cbn [bind].
    unfold attribution_options.
    match goal with |- context [bind ?x _] => destruct x as [ys|] eqn:E3 end; [|discriminate]. cbn [bind].
    destruct ys as [|y ys]; [discriminate|]. cbn [first_tuple bind].
    destruct (snd y) as [|w0 [|]] eqn:E4; try discriminate. cbn [scalar bind].
    destruct v2 as [|d2]; [discriminate|]. intro H. inversion H; subst.
    apply part_lookup in E1. apply part_lookup in E2. exists v, v1, ys, y. auto.
  - intros (v' & v1 & ys & y & E & P1 & P2 & T & W). inversion E; subst v'.
    apply part_lookup in P1. apply part_lookup in P2. rewrite P1. cbn [bind]. rewrite P2. cbn [bind].
    unfold attribution_options. rewrite T. cbn [bind first_tuple]. rewrite W. reflexivity.
Qed.

Lemma feature_chosen ap sk w kv c : argpartition_ok ap -> sub_key_ok sk ->
  (fst kv = fst c /\ exists a, snd kv = Leaf a /\ chosen sk a (snd c)) ->
  feature_entry ap sk w kv = Ok (fst c, map (fun x => x * w)%Qc (snd c)).
Proof.
  intros A K (E & a & L & C). apply (chosen_select ap) in C; auto. destruct C as (v' & S0 & N).
  unfold feature_entry. rewrite L, S0. cbn [bind]. rewrite N, E. reflexivity.
Qed.

Lemma feature_chosen_inv ap sk w kv e : argpartition_ok ap -> sub_key_ok sk ->
  feature_entry ap sk w kv = Ok e ->
  exists l, e = (fst kv, map (fun x => x * w)%Qc l) /\ exists a, snd kv = Leaf a /\ chosen sk a l.
Proof.
  intros A K H. unfold feature_entry in H. destruct (snd kv) as [v|]; [|discriminate].
  destruct (select_scores ap sk v) as [v'|] eqn:E; [|discriminate]. cbn [bind] in H.
  destruct (numbers v') as [l|] eqn:N; [|discriminate]. inversion H; subst. exists l. split; auto.
  exists v. split; auto. apply (chosen_select ap); eauto.
Qed.

Lemma says_entries ap key lk pk e r : argpartition_ok ap -> sub_key_ok (k_sub key) ->
  says ap key lk pk e r -> entries_of ap key lk pk e = Ok (scaled r).
Proof.
  intros A K (v & v1 & d & ys & y & E & P1 & P2 & T & W & F). unfold entries_of.
  assert (R : read ap key lk pk e = Ok (d, snd r)) by (apply says_read; exists v, v1, ys, y; auto).
  rewrite R. cbn [bind fst snd]. unfold scaled. clear - F A K. destruct r as [cs w]. cbn [fst snd] in *.
  induction F as [|kv c d cs H F IH]; cbn [mapM map]; auto.
  rewrite (feature_chosen ap _ w kv c A K H). cbn [bind]. rewrite IH. reflexivity.
Qed.

Lemma entries_says ap key lk pk e L : argpartition_ok ap -> sub_key_ok (k_sub key) ->
  entries_of ap key lk pk e = Ok L -> exists r, says ap key lk pk e r /\ L = scaled r.
Proof.
  intros A K H. unfold entries_of in H. destruct (read ap key lk pk e) as [[d w]|] eqn:R; [|discriminate].
  cbn [bind fst snd] in H. apply says_read in R. destruct R as (v & v1 & ys & y & E & P1 & P2 & T & W).
  assert (G : exists cs, Forall2 (fun kv c => fst kv = fst c /\ exists a, snd kv = Leaf a /\ chosen (k_sub key) a (snd c)) d cs /\ L = scaled (cs, w)).
  { clear - H A K. revert L H. induction d as [|kv d IH]; intros L H; cbn [mapM] in H.
    - inversion H. exists []. split; auto.
    - destruct (feature_entry ap (k_sub key) w kv) as [e|] eqn:E; [|discriminate]. cbn [bind] in H.
      destruct (mapM _ d) as [L'|]; [|discriminate]. cbn in H. inversion H; subst.
      destruct (IH L' eq_refl) as (cs & F & ->).
      apply feature_chosen_inv in E; auto. destruct E as (l & -> & X). exists ((fst kv, l) :: cs). split; [|reflexivity].
      constructor; auto. }
  destruct G as (cs & F & ->). exists (cs, w). split; auto. exists v, v1, d, ys, y. cbn [fst snd]. auto 10.
Qed.

Lemma mapM_says ap key lk pk l rs : argpartition_ok ap -> sub_key_ok (k_sub key) ->
  Forall2 (says ap key lk pk) l rs -> mapM (entries_of ap key lk pk) l = Ok (map scaled rs).
Proof.
  intros A K F. induction F as [|e r l rs H F IH]; cbn [mapM map]; auto.
  rewrite (says_entries ap key lk pk e r A K H). cbn [bind]. rewrite IH. reflexivity.
Qed.

Lemma mapM_says_inv ap key lk pk l : forall Ls, argpartition_ok ap -> sub_key_ok (k_sub key) ->
  mapM (entries_of ap key lk pk) l = Ok Ls -> exists rs, Forall2 (says ap key lk pk) l rs /\ Ls = map scaled rs.
Proof.
  induction l as [|e l IH]; intros Ls A K H; cbn [mapM] in H.
  - inversion H. exists []. auto.
  - destruct (entries_of ap key lk pk e) as [L|] eqn:E; [|discriminate]. cbn [bind] in H.
    destruct (mapM _ l) as [Ls'|]; [|discriminate]. cbn in H. inversion H; subst.
    destruct (IH Ls' A K eq_refl) as (rs & F & ->). destruct (entries_says _ _ _ _ _ _ A K E) as (r & S0 & ->).
    exists (r :: rs). split; [constructor; auto|reflexivity].
Qed.

Lemma In_scaled f l rs : In (f, l) (concat (map scaled rs)) <->
  exists r l0, In r rs /\ In (f, l0) (fst r) /\ l = map (fun x => x * snd r)%Qc l0.
Proof.
  rewrite in_concat. split.
  - intros (L & I & J). apply in_map_iff in I. destruct I as (r & <- & R). apply in_map_iff in J.
    destruct J as ([g l0] & E & C). cbn in E. inversion E; subst. eauto 6.
  - intros (r & l0 & R & I & ->). exists (scaled r). split; [apply in_map; auto|].
    apply in_map_iff. exists (f, l0). auto.
Qed.

Lemma consistent_sizes rs : consistent (concat (map scaled rs)) <-> same_sizes rs.
Proof.
  split.
  - intros C f r1 r2 l1 l2 R1 R2 I1 I2.
    rewrite <- (map_length (fun x => x * snd r1)%Qc l1), <- (map_length (fun x => x * snd r2)%Qc l2).
    apply (C f); apply In_scaled; eauto 6.
  - intros H f l1 l2 I1 I2. apply In_scaled in I1. apply In_scaled in I2.
    destruct I1 as (r1 & m1 & R1 & M1 & ->), I2 as (r2 & m2 & R2 & M2 & ->). rewrite !map_length. exact (H f r1 r2 m1 m2 R1 R2 M1 M2).
Qed.

Lemma nth_scale i w l : nth i (map (fun x => x * w)%Qc l) 0%Qc = (nth i l 0 * w)%Qc.
Proof. revert i. induction l as [|x l IH]; intros [|i]; cbn; auto; ring. Qed.

Lemma at_total b f i rs : at_ b f i (concat (map scaled rs)) = total_of b f i rs.
Proof.
  unfold total_of. induction rs as [|r rs IH]; [reflexivity|]. cbn [map concat qsum fold_right].
  rewrite at_app, IH. cbn [qsum]. f_equal. unfold at_, scaled. rewrite map_map. cbn [fst snd].
  apply qsum_map_ext. intros c _. rewrite nth_scale, signed_abs. reflexivity.
Qed.

Lemma C177_totals_pf : forall ap absolute key lk pk s rs,
  argpartition_ok ap -> sub_key_ok (k_sub key) ->
  Forall2 (says ap key lk pk) (inputs s) rs -> same_sizes rs ->
  exists d,
    outcome (total_combiner ap absolute key lk pk) s = Ok [(key, d)] /\
    NoDup (map fst d) /\
    (forall f, In f (map fst d) <-> exists r l, In r rs /\ In (f, l) (fst r)) /\
    (forall f a r l, In (f, a) d -> In r rs -> In (f, l) (fst r) -> length (parts a) = length l) /\
    (forall f a i, In (f, a) d -> nth i (parts a) 0%Qc = total_of absolute f i rs) /\
    (forall f a, In (f, a) d -> match a with One _ => True | Many xs => length xs <> 1 end).
Proof.
  intros ap absolute key lk pk s rs A K F C. unfold outcome.
  pose proof (total_run ap absolute key lk pk s) as R. apply (mapM_says ap key lk pk) in F; auto.
  destruct (run _ s) as [d|x]; cbn [Rel] in R.
  2: { exfalso. apply (R _ F). apply consistent_sizes, C. }
  destruct R as (Ls & E & N & R). rewrite F in E. inversion E; subst Ls; clear E.
  cbn [total_combiner c_extract bind].
  set (shape := fun l : list Qc => match l with [] => Many [] | [x] => One x | x :: y :: t => Many (x :: y :: t) end).
  assert (SP : forall l, parts (shape l) = l) by (intros [|x [|]]; reflexivity).
  assert (IN : forall f a, In (f, a) (map (fun kv : string * list Qc => (fst kv, shape (snd kv))) d) ->
                exists l, a = shape l /\ dget String.eqb d f = Some l).
  { intros f a I. apply in_map_iff in I. destruct I as ([g l] & E & I). cbn in E. inversion E; subst.
    exists l. split; auto. apply dget_In_NoDup; auto. apply string_eqb_eq. }
  exists (map (fun kv => (fst kv, shape (snd kv))) d). split; [reflexivity|].
  rewrite map_map. cbn [fst]. split; [exact N|]. split; [|split; [|split]].
  - intro f. specialize (R f). split.
    + intro I. apply in_map_iff in I. destruct I as ([g l] & <- & I). cbn [fst] in *.
      rewrite (proj2 (dget_In_NoDup _ string_eqb_eq d g l N) I) in R. destruct R as ((l' & I') & _).
      apply In_scaled in I'. destruct I' as (r & l0 & R1 & I1 & _). eauto.
    + intros (r & l & R1 & I1). destruct (dget String.eqb d f) as [v|] eqn:E.
      * apply dget_In with (1 := string_eqb_eq) in E. apply (in_map fst) in E. exact E.
      * exfalso. apply (R (map (fun x => x * snd r)%Qc l)). apply In_scaled. eauto 6.
  - intros f a r l I R1 I1. destruct (IN f a I) as (v & -> & E). rewrite SP. specialize (R f). rewrite E in R.
    destruct R as (_ & R & _). rewrite <- (R (map (fun x => x * snd r)%Qc l)).
    + apply map_length.
    + apply In_scaled. eauto 6.
  - intros f a i I. destruct (IN f a I) as (v & -> & E). rewrite SP. specialize (R f). rewrite E in R.
    destruct R as (_ & _ & R). rewrite R. apply at_total.
  - intros f a I. destruct (IN f a I) as (v & -> & E). destruct v as [|x [|]]; cbn; auto; discriminate.
Qed.

Lemma C177_refused_pf : forall ap absolute key lk pk s,
  argpartition_ok ap -> sub_key_ok (k_sub key) ->
  is_ok (outcome (total_combiner ap absolute key lk pk) s) = true <->
  exists rs, Forall2 (says ap key lk pk) (inputs s) rs /\ same_sizes rs.
Proof.
  intros ap absolute key lk pk s A K. split.
  - unfold outcome. pose proof (total_run ap absolute key lk pk s) as R.
    destruct (run _ s) as [d|x]; [|discriminate]. intros _. cbn [Rel] in R. destruct R as (Ls & E & R).
    destruct (mapM_says_inv ap key lk pk _ _ A K E) as (rs & F & ->). exists rs. split; auto.
    apply consistent_sizes. eapply Rep_consistent; eauto.
  - intros (rs & F & C). destruct (C177_totals_pf ap absolute key lk pk s rs A K F C) as (d & E & _). rewrite E. reflexivity.
Qed.

Lemma C177_absolute_pf : forall ap k1 k2 lk pk s1 s2 d1 d2 f a1 a2 i,
  argpartition_ok ap -> sub_key_ok (k_sub k1) ->
  k_model k2 = k_model k1 -> k_output k2 = k_output k1 -> k_sub k2 = k_sub k1 -> k_weighted k2 = k_weighted k1 ->
  Permutation (inputs s1) (inputs s2) ->
  outcome (total_combiner ap false k1 lk pk) s1 = Ok [(k1, d1)] ->
  outcome (total_combiner ap true k2 lk pk) s2 = Ok [(k2, d2)] ->
  In (f, a1) d1 -> In (f, a2) d2 ->
  (Qcabs (nth i (parts a1) 0) <= nth i (parts a2) 0)%Qc.
Proof.
  intros ap k1 k2 lk pk s1 s2 d1 d2 f a1 a2 i A K E1 E2 E3 E4 P O1 O2 I1 I2.
  assert (X1 : is_ok (outcome (total_combiner ap false k1 lk pk) s1) = true) by (rewrite O1; auto).
  apply C177_refused_pf in X1; auto. destruct X1 as (rs & F & C).
  assert (K2 : sub_key_ok (k_sub k2)) by (rewrite E3; auto).
  assert (F2 : exists rs2, Forall2 (says ap k2 lk pk) (inputs s2) rs2 /\ Permutation rs rs2).
  { assert (F' : Forall2 (says ap k2 lk pk) (inputs s1) rs).
    { clear - F E1 E2 E3 E4. induction F as [|e r l rs H F IH]; constructor; auto.
      unfold says in *. rewrite E1, E2, E3, E4. exact H. }
    clear - P F'. revert rs F'. induction P; intros rs F'.
    - inversion F'; subst. exists []. auto.
    - inversion F' as [|? r ? rs' H G]; subst. destruct (IHP rs' G) as (rs2 & G2 & P2).
      exists (r :: rs2). split; [constructor; auto|auto].
    - inversion F' as [|? r ? rs' H G]; subst. inversion G as [|? r2 ? rs'' H' G']; subst.
      exists (r2 :: r :: rs''). split; [repeat constructor; auto|apply perm_swap].
    - destruct (IHP1 rs F') as (rs2 & G2 & Q2). destruct (IHP2 rs2 G2) as (rs3 & G3 & Q3).
      exists rs3. split; auto. eapply perm_trans; eauto. }
  destruct F2 as (rs2 & F2 & PR).
  assert (C2 : same_sizes rs2).
  { intros g r1 r2 l1 l2 R1 R2. apply C; eapply Permutation_in; try (apply Permutation_sym; exact PR); auto. }
  destruct (C177_totals_pf ap false k1 lk pk s1 rs A K F C) as (d1' & O1' & _ & _ & _ & T1 & _).
  destruct (C177_totals_pf ap true k2 lk pk s2 rs2 A K2 F2 C2) as (d2' & O2' & _ & _ & _ & T2 & _).
  rewrite O1 in O1'. inversion O1'; subst d1'. rewrite O2 in O2'. inversion O2'; subst d2'.
  rewrite (T1 f a1 i I1), (T2 f a2 i I2).
  assert (PT : total_of true f i rs2 = total_of true f i rs).
  { unfold total_of. apply qsum_perm, Permutation_map, Permutation_sym, PR. }
  rewrite PT. unfold total_of. clear.
  assert (AB : forall {X} (g : X -> Qc) h l, (forall x, In x l -> (Qcabs (g x) <= h x)%Qc) -> (Qcabs (qsum (map g l)) <= qsum (map h l))%Qc).
  { intros X g h l H. induction l as [|x l IH]; cbn.
    - rewrite (Qcabs_pos 0%Qc) by apply Qcle_refl. apply Qcle_refl.
    - eapply Qcle_trans; [apply Qcabs_triangle|]. apply Qcplus_le_compat; [apply H; left; auto|].
      apply IH. intros y Y. apply H. right; auto. }
  apply AB. intros r _. apply AB. intros c _. cbn zeta. destruct (String.eqb f (fst c)); [apply Qcle_refl|].
  rewrite (Qcabs_pos 0%Qc) by apply Qcle_refl. apply Qcle_refl.
Qed.

(* examples *)

Definition ex_key (weighted : bool) (sk : option sub_key) : metric_key := attributions_key "a" "" "" sk weighted.

Definition ex_attributed (w : Qc) (fs : list (string * array)) : attributed :=
  Attributed (InputsDict (Some (Leaf [1%Qc])) (Some (Leaf [Fin 1%Qc])) (Some (Leaf [w])))
    (Some (Dict (map (fun fa => (fst fa, Leaf (snd fa))) fs))).

Lemma C178_class_pf : forall ap c k t,
  (forall l, (0 <= c < Z.of_nat (length l))%Z ->
     select_scores ap (Some (SubKey (Some c) k t)) (Row l) = Ok (Scalar (nth (Z.to_nat c) l 0%Qc))) /\
  (forall rows, (0 <= c < Z.of_nat (length rows))%Z ->
     select_scores ap (Some (SubKey (Some c) k t)) (Table rows) = Ok (Row (nth (Z.to_nat c) rows []))) /\
  (forall v, (match v with Scalar _ => True | Row l => c < 0 \/ Z.of_nat (length l) <= c
                         | Table rows => c < 0 \/ Z.of_nat (length rows) <= c end)%Z ->
     is_ok (select_scores ap (Some (SubKey (Some c) k t)) v) = false).
Proof.
  intros ap c k t. split; [|split].
  - intros l H. cbn [select_scores scores_by_class_id].
    destruct (Z.ltb_spec c 0); [lia|]. destruct (Z.leb_spec (Z.of_nat (length l)) c); [lia|]. cbn [orb].
    rewrite (nth_ok_nth l _ 0%Qc) by lia. reflexivity.
  - intros l H. cbn [select_scores scores_by_class_id].
    destruct (Z.ltb_spec c 0); [lia|]. destruct (Z.leb_spec (Z.of_nat (length l)) c); [lia|]. cbn [orb].
    rewrite (nth_ok_nth l _ []) by lia. reflexivity.
  - intros [x|l|rows] H; cbn [select_scores scores_by_class_id]; auto;
    destruct (Z.ltb_spec c 0); auto; match goal with |- context [Z.leb ?a ?b] => destruct (Z.leb_spec a b) end; auto; lia.
Qed.

Lemma C178_top_k_pf : forall ap k t, argpartition_ok ap -> 1 <= k ->
  (forall l, k <= length l -> exists best rest,
     select_scores ap (Some (SubKey None None (Some k))) (Row l) = Ok (Row best) /\
     select_scores ap (Some (SubKey None (Some k) t)) (Row l) = Ok (Scalar (nth (k - 1) best 0%Qc)) /\
     length best = k /\ Permutation l (best ++ rest) /\
     (forall i j, i <= j < k -> (nth j best 0 <= nth i best 0)%Qc) /\
     (forall x y, In x best -> In y rest -> (y <= x)%Qc)) /\
  (forall v, (match v with Row l => length l < k | _ => True end) ->
     is_ok (select_scores ap (Some (SubKey None None (Some k))) v) = false /\
     is_ok (select_scores ap (Some (SubKey None (Some k) t)) v) = false).
Proof.
  intros ap k t A K. split.
  - intros l L. destruct (top_values ap l k A (conj K L)) as (xs & rest & E & LX & D).
    exists xs, rest. cbn [select_scores]. rewrite E. cbn [bind]. split; [reflexivity|]. split.
    { rewrite (nth_ok_nth xs (k - 1) 0%Qc) by lia. reflexivity. }
    split; [exact LX|]. destruct D as [P D]. split; [exact P|]. split.
    + intros i j H. specialize (D i j). rewrite app_length in D. rewrite !app_nth1 in D by lia. apply D. lia.
    + intros x y X Y. destruct (In_nth _ _ 0%Qc X) as (i & I & <-). destruct (In_nth _ _ 0%Qc Y) as (j & J & <-).
      specialize (D i (length xs + j)). rewrite app_length in D. rewrite (@app_nth1 _ xs rest 0%Qc i) in D by lia. rewrite app_nth2 in D by lia.
      replace (length xs + j - length xs) with j in D by lia. apply D. lia.
  - intros [x|l|rows] H; try (split; reflexivity). cbn [select_scores]. unfold scores_by_top_k.
    destruct (Nat.ltb_spec (length l) k); [split; reflexivity|lia].
Qed.

Lemma C178_table_refused_pf : forall ap absolute key lk pk s e d f rows,
  argpartition_ok ap -> k_sub key = None -> k_model key = "" -> k_output key = "" ->
  In e (inputs s) -> a_attributions e = Some (Dict d) -> In (f, Leaf (Table rows)) d ->
  (exists r, In r rows /\ length r <> 1) ->
  is_ok (outcome (total_combiner ap absolute key lk pk) s) = false.
Proof.
  intros ap absolute key lk pk s e d f rows A K KM KO I E IF (r & IR & NR).
  destruct (is_ok _) eqn:X; auto. exfalso. apply C177_refused_pf in X; auto; [|rewrite K; exact Logic.I].
  destruct X as (rs & F & _).
  assert (G : exists r, says ap key lk pk e r).
  { clear - F I. induction F; [destruct I|]. destruct I as [->|I]; eauto. }
  destruct G as (c & v & v1 & d' & ys & y & E' & P1 & P2 & _ & _ & F').
  rewrite KM in P1. rewrite KO in P2. cbn in P1, P2. rewrite E in E'. inversion E' as [EV]. rewrite P1, <- EV in P2.
  inversion P2 as [ED]. rewrite ED in F'. clear - IF F' IR NR K.
  induction F' as [|kv c0 d cs (H1 & a & H2 & H3) F' IH]; [destruct IF|].
  destruct IF as [->|IF]; auto. cbn in H2. inversion H2; subst a. rewrite K in H3. inversion H3 as [v l PL| | | | |]; subst.
  inversion PL; subst. apply in_map_iff in IR. destruct IR as (x & <- & _). apply NR. reflexivity.
Qed.

Definition weighted_of (key : metric_key) : bool := match k_weighted key with Some b => b | None => false end.

(** The weight read beside the attributions is the one the example count adds up. *)

Lemma yielded_weight ap sk wt l p w y ys :
  yield_tuples ap (Options sk false None wt false false true false) l p w = Ok (y :: ys) -> snd y = w.
Proof.
  unfold yield_tuples. cbn [o_allow_none o_single_weight o_sub_key o_flatten o_class_weights o_fractional o_aggregation negb andb bind].
  match goal with |- context [bind ?x _] => destruct x as [[l' p']|] end; [|discriminate]. cbn [bind].
  unfold yield_results. cbn [bind]. intro H. inversion H. reflexivity.
Qed.

Lemma same_weight ap key lk pk e r :
  says ap key lk pk e r ->
  example_weight_of (weighted_of key) (k_model key) (k_output key) (i_weight (a_inputs e)) = Ok (snd r).
Proof.
  intros (v & v1 & d & ys & y & _ & _ & _ & T & W & _).
  fold (weighted_of key) in T. unfold to_label_prediction_example_weight in T. cbv zeta in T.
  repeat match type of T with
  | bind ?x ?f = _ => let E := fresh "E" in destruct x eqn:E; [cbn [bind] in T|discriminate T]
  end.
  cbn [o_example_weighted] in T.
  set (found := if negb (weighted_of key) then Leaf [1%Qc] else _) in T.
  assert (F : found = Leaf [snd r]).
  { clearbody found. destruct found as [w|dd]; [|destruct a4 as [[|]|]; discriminate].
    f_equal. rewrite <- W. symmetry.
    destruct a4 as [[|]|]; try discriminate; destruct (option_map _ a3) as [[|]|]; try discriminate;
    apply yielded_weight in T; exact T. }
  clear T W E E0 E1 E3 E4. subst found. unfold example_weight_of.
  assert (Q : forall q, qsum [q] = q) by (intro; cbn; ring).
  destruct (weighted_of key); cbn [negb] in *.
  2: { cbn [is_dict andb bind]. rewrite Q. congruence. }
  assert (ST : forall (w : data (list Qc)) key a, (if String.eqb key "" then Ok (Some w) else optionally_get (Some w) key) = Ok a ->
     exists w', a = Some w' /\
       ((is_dict w && negb (String.eqb key "") = true /\ exists o, get_by_keys w [key] None true = Ok o /\ w' = match o with Some x => x | None => w end)
        \/ (is_dict w && negb (String.eqb key "") = false /\ w' = w))).
  { clear. intros w key a H. destruct (String.eqb key "").
    - inversion H. exists w. split; auto. right. rewrite andb_false_r. auto.
    - destruct w as [x|dd]; cbn [optionally_get is_dict negb andb] in *.
      + inversion H. eauto.
      + destruct (get_by_keys (Dict dd) [key] None true) as [o|]; [|discriminate]. cbn [bind] in H.
        inversion H. exists (match o with Some x => x | None => Dict dd end). split; [destruct o; auto|].
        left. split; auto. exists o. auto. }
  destruct (i_weight (a_inputs e)) as [w0|].
  - apply ST in E2. destruct E2 as (w1 & -> & H1). apply ST in E5. destruct E5 as (w2 & -> & H2).
    subst w2. 
    assert (S1 : (if is_dict w0 && negb (String.eqb (k_model key) "") then
              let! v := get_by_keys w0 [k_model key] None true in Ok (match v with Some v => v | None => w0 end)
              else Ok w0) = Ok w1).
    { destruct H1 as [(-> & o & -> & ->)|(-> & ->)]; reflexivity. }
    rewrite S1. cbn [bind].
    destruct H2 as [(D & o & G & X)|(-> & <-)].
    + rewrite D. destruct o as [x|].
      * subst x. unfold get_by_keys in *.
        destruct (walk w1 [k_output key]) as [[[?|[|? ?]]|]|]; cbn [bind] in *; try discriminate;
        inversion G; subst; cbn [bind]; rewrite Q; reflexivity.
      * subst w1. destruct w0; discriminate.
    + cbn [bind]. rewrite Q. reflexivity.
  - assert (a2 = None) by (destruct (String.eqb (k_model key) ""); inversion E2; auto). subst a2.
    assert (a5 = None) by (destruct (String.eqb (k_output key) ""); inversion E5; auto). subst a5.
    cbn [is_dict andb bind]. rewrite Q. congruence.
Qed.

Lemma count_of ap key lk pk l rs s :
  Forall2 (says ap key lk pk) l rs ->
  Permutation (inputs s) (map (fun e => i_weight (a_inputs e)) l) ->
  outcome (example_count (weighted_of key) (k_model key) (k_output key)) s = Ok (qsum (map snd rs)).
Proof.
  intros F P. unfold outcome. cbn [example_count c_extract]. fold (example_count (weighted_of key) (k_model key) (k_output key)).
  rewrite count_run. unfold count_ref.
  set (ew := example_weight_of (weighted_of key) (k_model key) (k_output key)).
  assert (G : Forall2 (fun x r => ew x = Ok (snd r)) (map (fun e => i_weight (a_inputs e)) l) rs).
  { clear P. induction F; constructor; auto. eapply same_weight; eauto. }
  rewrite (res_run_ok 0%Qc _ Qcplus _ ew) with (g := fun x => match ew x with Ok w => w | Err _ => 0%Qc end).
  - rewrite rsum_qsum. f_equal. rewrite (qsum_perm _ _ (Permutation_map _ P)).
    clear - G. induction G as [|x r xs rs0 H G IH]; [reflexivity|]. cbn [map].
    rewrite H.
    match goal with |- qsum (?a :: ?b) = qsum (?c :: ?d) => change (a + qsum b = c + qsum d)%Qc end. rewrite IH. reflexivity.
  - intros; ring.
  - intros; ring.
  - intros; ring.
  - reflexivity.
  - intros x I. apply (Permutation_in _ P) in I.
    assert (exists w, ew x = Ok w) as (w & E).
    { clear - G I. induction G; [destruct I|]. destruct I as [->|I]; eauto. }
    rewrite E. reflexivity.
Qed.

Lemma isclose0_spec x : isclose0 x = true <-> (Qcabs x <= Q2Qc (1 # 100000000))%Qc.
Proof.
  unfold isclose0. rewrite andb_true_iff, !Qc_leb_le. change ATOL with (Q2Qc (1 # 100000000)). symmetry. apply Qcabs_Qcle_condition.
Qed.

Lemma C179_means_partial_pf : forall ap absolute name model output sk weighted lk pk s1 s2 rs metrics d c,
  argpartition_ok ap -> sub_key_ok sk ->
  Forall2 (says ap (total_key absolute model output sk weighted) lk pk) (inputs s1) rs ->
  outcome (total_combiner ap absolute (total_key absolute model output sk weighted) lk pk) s1 = Ok [(total_key absolute model output sk weighted, d)] ->
  Permutation (inputs s2) (map (fun e => i_weight (a_inputs e)) (inputs s1)) ->
  outcome (example_count weighted model output) s2 = Ok c ->
  dget metric_key_eqb metrics (total_key absolute model output sk weighted) = Some (Totals d) ->
  dget metric_key_eqb metrics (MetricKey "example_count" model output sk None (Some weighted) false) = Some (Count c) ->
  (Q2Qc (1 # 100000000) < Qcabs (qsum (map snd rs)))%Qc ->
  exists means,
    mean_attributions absolute name model output sk weighted metrics =
      Ok [(MetricKey name model output sk None (Some weighted) false, means)] /\
    NoDup (map fst means) /\
    (forall f, In f (map fst means) <-> exists r l, In r rs /\ In (f, l) (fst r)) /\
    (forall f a r l, In (f, a) means -> In r rs -> In (f, l) (fst r) -> length (parts a) = length l) /\
    (forall f a i, In (f, a) means -> i < length (parts a) ->
       nth i (parts a) NaN = Fin (total_of absolute f i rs / qsum (map snd rs))%Qc).
Proof.
  intros ap absolute name model output sk weighted lk pk s1 s2 rs metrics d c A K F O P OC M1 M2 B.
  pose proof (count_of ap (total_key absolute model output sk weighted) lk pk (inputs s1) rs s2 F P) as CC.
  cbn [total_key k_model k_output weighted_of k_weighted] in CC. rewrite OC in CC. inversion CC; subst c; clear CC.
  assert (C : same_sizes rs).
  { assert (X : is_ok (outcome (total_combiner ap absolute (total_key absolute model output sk weighted) lk pk) s1) = true) by (rewrite O; auto).
    apply C177_refused_pf in X; auto. destruct X as (rs' & F' & C').
    apply (mapM_says ap _ lk pk) in F; auto. apply (mapM_says ap _ lk pk) in F'; auto. rewrite F in F'. inversion F' as [E].
    apply consistent_sizes. rewrite E. apply consistent_sizes, C'. }
  destruct (C177_totals_pf ap absolute (total_key absolute model output sk weighted) lk pk s1 rs A K F C) as (d' & O' & N & KS & SZ & T & _).
  rewrite O in O'. inversion O'; subst d'; clear O'.
  unfold mean_attributions, count_key. rewrite M1, M2. cbn [bind].
  destruct (isclose0 (qsum (map snd rs))) eqn:IC.
  { exfalso. apply isclose0_spec in IC. apply (Qcle_not_lt _ _ IC B). }
  eexists. split; [reflexivity|].
  set (W := qsum (map snd rs)) in *.
  assert (IN : forall f a, In (f, a) (map (fun kv : string * attribution Qc => (fst kv, match snd kv with One x => One (Fin (x / W)%Qc) | Many xs => Many (map (fun x => Fin (x / W)%Qc) xs) end)) d) ->
     exists a0, In (f, a0) d /\ parts a = map (fun x => Fin (x / W)%Qc) (parts a0)).
  { intros f a I. apply in_map_iff in I. destruct I as ([g a0] & E & I). cbn in E. inversion E; subst. exists a0. split; auto. destruct a0; reflexivity. }
  rewrite map_map. cbn [fst]. split; [exact N|]. split; [exact KS|]. split.
  - intros f a r l I R1 I1. destruct (IN f a I) as (a0 & I0 & ->). rewrite map_length. eapply SZ; eauto.
  - intros f a i I L. destruct (IN f a I) as (a0 & I0 & E). rewrite E in *. rewrite map_length in L.
    rewrite (nth_indep _ NaN (Fin (0 / W)%Qc)) by (rewrite map_length; auto).
    rewrite (map_nth (fun x => Fin (x / W)%Qc)), (T f a0 i I0). reflexivity.
Qed.

Lemma C179_small_weights_refuted_pf : exists e rs d c,
  let key := total_key false "" "" None true in
  Forall2 (says ap_sort key "" "") [e] rs /\
  outcome (total_combiner ap_sort false key "" "") (Bundle [e]) = Ok [(key, d)] /\
  outcome (example_count true "" "") (Bundle [i_weight (a_inputs e)]) = Ok c /\
  qsum (map snd rs) <> 0%Qc /\ (total_of false "age" 0 rs / qsum (map snd rs))%Qc = qz 2 /\
  mean_attributions false "a" "" "" None true [(key, Totals d); (count_key "" "" None true, Count c)] =
    Ok [(ex_key true None, [("age", One NaN)])].
Proof.
  exists (ex_attributed (Q2Qc (1 # 1000000000)) [("age", Scalar (qz 2))]), [([("age", [qz 2])], Q2Qc (1 # 1000000000))].
  eexists _, _. cbv zeta. split; [|split; [reflexivity|split; [reflexivity|split; [|split]]]].
  - constructor; [|constructor]. eexists _, _, _, _, _. split; [reflexivity|]. split; [reflexivity|]. split; [reflexivity|].
    split; [reflexivity|]. split; [reflexivity|].
    repeat constructor; cbn [fst snd]; eexists; (split; [reflexivity|]); repeat constructor.
  - intro H. apply (f_equal this) in H. vm_compute in H. discriminate.
  - vm_compute. qc_ex.
  - vm_compute. qc_ex.
Qed.

Lemma C179_own_totals_pf : forall a1 m1 o1 s1 w1,
  (forall a2 m2 o2 s2 w2, total_key a1 m1 o1 s1 w1 = total_key a2 m2 o2 s2 w2 -> a1 = a2 /\ m1 = m2 /\ o1 = o2 /\ s1 = s2 /\ w1 = w2) /\
  (forall m2 o2 s2 w2, total_key a1 m1 o1 s1 w1 <> MetricKey "example_count" m2 o2 s2 None (Some w2) false) /\
  (forall name metrics d, dget metric_key_eqb metrics (total_key a1 m1 o1 s1 w1) = Some (Totals d) ->
     total_attributions a1 name m1 o1 s1 w1 metrics = Ok [(MetricKey name m1 o1 s1 None (Some w1) false, d)]) /\
  (forall name metrics, dget metric_key_eqb metrics (total_key a1 m1 o1 s1 w1) = None ->
     total_attributions a1 name m1 o1 s1 w1 metrics = Err KeyError /\
     mean_attributions a1 name m1 o1 s1 w1 metrics = Err KeyError).
Proof.
  intros a1 m1 o1 s1 w1. split; [|split; [|split]].
  - intros a2 m2 o2 s2 w2 H. unfold total_key in H. inversion H. destruct a1, a2; try discriminate; auto.
  - intros m2 o2 s2 w2 H. unfold total_key in H. inversion H. destruct a1; discriminate.
  - intros name metrics d H. unfold total_attributions. rewrite H. reflexivity.
  - intros name metrics H. unfold total_attributions, mean_attributions. rewrite H. auto.
Qed.
