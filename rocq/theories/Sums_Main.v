(* Proofs of the theorems restated in Sums_Properties.v. *)
From Coq Require Import String Ascii Sorting.Sorted.
From Verif Require Import Base BaseFacts Beam BeamFacts Util_Model Util_Main Inputs_Model Inputs_Main Sums_Model.
Local Open Scope string_scope.
Local Open Scope list_scope.

(* C10, C11, C20, C60-C63: counts, means, calibration, query statistics. *)

Lemma plus2_assoc a b c : plus2 a (plus2 b c) = plus2 (plus2 a b) c.
Proof. unfold plus2; simpl. f_equal; ring. Qed.

Lemma plus2_comm a b : plus2 a b = plus2 b a.
Proof. unfold plus2; simpl. f_equal; ring. Qed.

Lemma plus2_e a : plus2 a (0%Qc, 0%Qc) = a.
Proof. destruct a; unfold plus2; simpl. f_equal; ring. Qed.

Lemma rsum_plus2 {A} (f g : A -> Qc) l :
  rsum (0%Qc, 0%Qc) plus2 (map (fun x => (f x, g x)) l) = (qsum (map f l), qsum (map g l)).
Proof. induction l; simpl; auto. rewrite IHl. reflexivity. Qed.

Lemma num_plus_assoc a b c : num_plus a (num_plus b c) = num_plus (num_plus a b) c.
Proof. destruct a, b, c; simpl; auto. f_equal. ring. Qed.

Lemma num_plus_comm a b : num_plus a b = num_plus b a.
Proof. destruct a, b; simpl; auto. f_equal. ring. Qed.

Lemma num_plus_e a : num_plus a (Fin 0%Qc) = a.
Proof. destruct a; simpl; auto. f_equal. ring. Qed.

(** The weight an example contributes to the count of model m, output o: 1 if no
    weights are given, else the sum of the weight array found for m and o. *)

Inductive weight_for (m o : string) : option (data (list Qc)) -> Qc -> Prop :=
| wf_none : weight_for m o None 1%Qc
| wf_shared a : weight_for m o (Some (Leaf a)) (qsum a)
| wf_model d a : m <> "" -> In (m, Leaf a) d -> NoDup (map fst d) ->
    weight_for m o (Some (Dict d)) (qsum a)
| wf_output d a : m = "" -> o <> "" -> In (o, Leaf a) d -> NoDup (map fst d) ->
    weight_for m o (Some (Dict d)) (qsum a)
| wf_both d d2 a : m <> "" -> o <> "" -> In (m, Dict d2) d -> NoDup (map fst d) ->
    In (o, Leaf a) d2 -> NoDup (map fst d2) ->
    weight_for m o (Some (Dict d)) (qsum a).

Lemma get_by_keys_In {A} (d : list (string * data A)) k v dflt opt :
  NoDup (map fst d) -> In (k, v) d -> v <> Dict [] ->
  get_by_keys (Dict d) [k] dflt opt = Ok (Some v).
Proof.
  intros N H E. unfold get_by_keys. cbn [walk].
  rewrite (proj2 (dget_In_NoDup _ string_eqb_eq d k v N) H). cbn [walk bind].
  destruct v as [|[|]]; auto. congruence.
Qed.

Lemma neq_eqb s : s <> "" -> String.eqb s "" = false.
Proof. intro H. destruct (String.eqb_spec s ""); congruence. Qed.

Lemma weight_for_ok m o x w : weight_for m o x w -> example_weight_of true m o x = Ok w.
Proof.
  intro H. unfold example_weight_of. destruct H; cbn [negb is_dict andb bind].
  - reflexivity.
  - reflexivity.
  - rewrite (neq_eqb m H). cbn [negb].
    rewrite (get_by_keys_In d m (Leaf a)) by (auto; discriminate). reflexivity.
  - subst m. rewrite (neq_eqb o) by auto. cbn -[get_by_keys].
    rewrite (get_by_keys_In d o (Leaf a)) by (auto; discriminate). reflexivity.
  - rewrite (neq_eqb m), (neq_eqb o) by auto. cbn [negb].
    assert (D : Dict d2 <> Dict []) by (intro E; inversion E; subst; contradiction).
    rewrite (get_by_keys_In d m (Dict d2)) by auto. cbn [bind is_dict andb].
    rewrite (get_by_keys_In d2 o (Leaf a)) by (auto; discriminate). reflexivity.
Qed.

Definition count_ref weighted m o :=
  res_combiner (I := option (data (list Qc))) 0%Qc
    (fun a x => let! w := example_weight_of weighted m o x in Ok (a + w)%Qc) Qcplus (fun a => Ok a).

Lemma count_merge (l : list (res Qc)) (a : res Qc) :
  fold_left (fun acc b => let! x := acc in let! y := b in Ok (x + y)%Qc) (a :: l) (Ok 0%Qc) =
  merge_next Qcplus (a :: l).
Proof.
  simpl. f_equal. destruct a; simpl; auto. f_equal. ring.
Qed.

Lemma count_run weighted m o s : run (example_count weighted m o) s = run (count_ref weighted m o) s.
Proof.
  induction s using sched_ind'.
  - reflexivity.
  - cbn [run example_count c_merge count_ref res_combiner].
    fold (example_count weighted m o). fold (count_ref weighted m o).
    rewrite count_merge. rewrite IHs. f_equal. f_equal.
    apply map_ext_in. rewrite Forall_forall in H. auto.
  - cbn [run]. rewrite IHs. reflexivity.
Qed.

Lemma rsum_qsum l : rsum 0%Qc Qcplus l = qsum l.
Proof. reflexivity. Qed.

Lemma C10_example_count_pf :
  forall m o s, outcome (example_count false m o) s = Ok (qn (length (inputs s))).
Proof.
  intros m o s. unfold outcome. cbn [example_count c_extract]. fold (example_count false m o).
  rewrite count_run. unfold count_ref.
  rewrite (res_run_ok 0%Qc _ Qcplus _ (example_weight_of false m o)) with (g := fun _ => 1%Qc).
  - rewrite rsum_qsum. f_equal. induction (inputs s); [reflexivity|].
    cbn [map qsum fold_right length]. fold (qsum (map (fun _ => 1%Qc) l)). rewrite IHl.
    unfold qn. rewrite Nat2Z.inj_succ, <- Z.add_1_l, qz_plus. reflexivity.
  - intros; ring.
  - intros; ring.
  - intros; ring.
  - reflexivity.
  - intros x _. unfold example_weight_of. cbn. f_equal.
Qed.

Lemma C10_weighted_example_count_pf :
  forall m o s w,
    (forall x, In x (inputs s) -> weight_for m o x (w x)) ->
    outcome (example_count true m o) s = Ok (qsum (map w (inputs s))).
Proof.
  intros m o s w H. unfold outcome. cbn [example_count c_extract]. fold (example_count true m o).
  rewrite count_run. unfold count_ref.
  rewrite (res_run_ok 0%Qc _ Qcplus _ (example_weight_of true m o)) with (g := w).
  - rewrite rsum_qsum. reflexivity.
  - intros; ring.
  - intros; ring.
  - intros; ring.
  - reflexivity.
  - intros x Hx. apply weight_for_ok. auto.
Qed.

Lemma C10_ambiguous_weights_rejected_pf :
  forall s d, In (Some (Dict d)) (inputs s) ->
    exists e, outcome (example_count true "" "") s = Err e.
Proof.
  intros s d H. unfold outcome. cbn [example_count c_extract]. fold (example_count true "" "").
  rewrite count_run. unfold count_ref.
  apply (res_run_err 0%Qc _ Qcplus _ (example_weight_of true "" "")) with (x := Some (Dict d)) (e := ValueError);
    auto; intros; ring.
Qed.

Definition mixed_weights : list (string * data (list Qc)) := [("m1", Leaf [qz 2]); ("m2", Leaf [qz 5])].

Lemma C10_mean_pf :
  forall path wpath s x w,
    path <> [] ->
    (forall e, In e (inputs s) ->
       unique_keys e /\ stored e path (Leaf [x e]) /\
       match wpath with None => w e = 1%Qc | Some p => p <> [] /\ stored e p (Leaf [w e]) end) ->
    outcome (mean_combiner path wpath) s =
      Ok (let W := qsum (map w (inputs s)) in
          if Qc_eqb W 0%Qc then NaN else Fin (qsum (map (fun e => w e * x e)%Qc (inputs s)) / W)%Qc).
Proof.
  intros path wpath s x w NP H. unfold outcome, mean_combiner.
  set (f := fun e => mean_add path wpath (0%Qc, 0%Qc) e).
  rewrite (res_run_ok (0%Qc, 0%Qc) _ plus2 _ f) with (g := fun e => (w e, (w e * x e)%Qc)).
  - cbn [c_extract res_combiner bind]. rewrite rsum_plus2. unfold mean_result. cbn [fst snd]. reflexivity.
  - apply plus2_assoc.
  - apply plus2_comm.
  - apply plus2_e.
  - intros a e. unfold f, mean_add.
    destruct (get_by_keys e path None false) as [v|]; cbn [bind]; auto.
    destruct (single v); cbn [bind]; auto.
    destruct wpath as [p|]; cbn [bind].
    + destruct (get_by_keys e p None false) as [v2|]; cbn [bind]; auto.
      destruct (single v2); cbn [bind]; auto.
      rewrite (plus2_comm (0%Qc, 0%Qc)), plus2_e. reflexivity.
    + rewrite (plus2_comm (0%Qc, 0%Qc)), plus2_e. reflexivity.
  - intros e He. destruct (H e He) as (U & S & W). unfold f, mean_add.
    rewrite (C56_lookup_finds_stored_pf _ e (Leaf [x e]) path None false U NP S) by discriminate.
    cbn [bind single]. destruct wpath as [p|].
    + destruct W as [Np W].
      rewrite (C56_lookup_finds_stored_pf _ e (Leaf [w e]) p None false U Np W) by discriminate.
      cbn [bind single]. rewrite (plus2_comm (0%Qc, 0%Qc)), plus2_e. reflexivity.
    + rewrite W. cbn [bind]. rewrite (plus2_comm (0%Qc, 0%Qc)), plus2_e. reflexivity.
Qed.

Definition feat (x w : Z) : data (list Qc) :=
  Dict [("features", Dict [("age", Leaf [qz x])]); ("example_weights", Leaf [qz w])].

(** What an element holds for model m and output o (spec vocabulary of the
    remaining theorems): labels shared by all models, predictions possibly keyed by
    model and output name, weights shared or absent. *)

Definition named {A} (name : string) (d : data A) : option (data A) :=
  if String.eqb name "" then Some d
  else match d with Dict kv => dget String.eqb kv name | Leaf _ => None end.

Record reading := Reading { r_labels : list Qc; r_scores : list num; r_weight : list Qc }.

Definition carries_scores (m o : string) (e : inputs_dict) (ps : list num) : Prop :=
  exists p q, i_prediction e = Some p /\ named m p = Some q /\ named o q = Some (Leaf ps).

Definition carries_weight (weighted : bool) (e : inputs_dict) (w : list Qc) : Prop :=
  match i_weight e with
  | None => w = [1%Qc]
  | Some (Leaf v) => w = if weighted then v else [1%Qc]
  | Some (Dict _) => False
  end.

Definition carries (weighted : bool) (m o : string) (e : inputs_dict) (r : reading) : Prop :=
  i_label e = Some (Leaf (r_labels r)) /\ carries_scores m o e (r_scores r) /\
  carries_weight weighted e (r_weight r).

Lemma lookup_pred_named {A} name (p q : data A) :
  named name p = Some q -> q <> Dict [] ->
  (if String.eqb name "" then Ok (Some p)
   else match Some p with None => Ok None | Some v => get_by_keys v [name] None false end) = Ok (Some q).
Proof.
  unfold named. destruct (String.eqb name ""); intros H N.
  - inversion H; auto.
  - destruct p as [|kv]; [discriminate|]. unfold get_by_keys. cbn [walk]. rewrite H. cbn [walk bind].
    destruct q as [|[|]]; auto. congruence.
Qed.

Lemma optionally_get_leaf {A} name (v : option (data A)) :
  (match v with Some (Dict _) => False | _ => True end) ->
  (if String.eqb name "" then Ok v else optionally_get v name) = Ok v.
Proof. intro H. destruct (String.eqb name ""); auto. destruct v as [[|]|]; simpl in *; tauto. Qed.

Lemma prepared_opt ap o lk pk m out e l ps w :
  (match i_label e with Some (Dict _) => False | Some (Leaf a) => l = Some a | None => l = None end) ->
  carries_scores m out e ps -> carries_weight (o_example_weighted o) e w ->
  to_label_prediction_example_weight ap o lk pk m out e = yield_tuples ap o l (Some ps) w.
Proof.
  intros HL (p & q & EP & M & Q) HW. unfold to_label_prediction_example_weight.
  rewrite EP.
  assert (HL' : match i_label e with Some (Dict _) => False | _ => True end)
    by (destruct (i_label e) as [[|]|]; tauto).
  assert (HW' : match i_weight e with Some (Dict _) => False | _ => True end)
    by (unfold carries_weight in HW; destruct (i_weight e) as [[|]|]; tauto).
  rewrite (optionally_get_leaf lk _ HL'). cbn [bind].
  rewrite (lookup_pred_named m p q M).
  2:{ intro E. subst q. unfold named in Q. destruct (String.eqb out ""); simpl in Q; discriminate. }
  cbn [bind]. rewrite (optionally_get_leaf m _ HL'). cbn [bind].
  rewrite (optionally_get_leaf m _ HW'). cbn [bind].
  rewrite (lookup_pred_named out q (Leaf ps) Q) by discriminate. cbn [bind].
  rewrite (optionally_get_leaf out _ HL'). cbn [bind].
  rewrite (optionally_get_leaf out _ HW'). cbn [bind option_map pick_prediction].
  unfold carries_weight in HW.
  destruct (i_label e) as [[a|]|]; try tauto; subst l;
  destruct (i_weight e) as [[v|]|]; try tauto; subst w; destruct (o_example_weighted o); reflexivity.
Qed.

Lemma prepared ap o lk pk m out e r :
  carries (o_example_weighted o) m out e r ->
  to_label_prediction_example_weight ap o lk pk m out e =
  yield_tuples ap o (Some (r_labels r)) (Some (r_scores r)) (r_weight r).
Proof.
  intros (HL & HP & HW). apply prepared_opt; auto. rewrite HL. reflexivity.
Qed.

Lemma nth_error_all {A B} (f : A -> B) (d : A) (l : list A) (ys : list B) :
  length ys = length l -> (forall i, i < length l -> nth_error ys i = Some (f (nth i l d))) -> ys = map f l.
Proof.
  revert ys. induction l as [|a l IH]; intros [|y ys] L H; simpl in *; try discriminate; auto.
  f_equal.
  - specialize (H 0 (Nat.lt_0_succ _)). simpl in H. congruence.
  - apply IH; [lia|]. intros i Hi. apply (H (S i)). lia.
Qed.

Lemma flatten_dense ap o ls ps w :
  o_flatten o = true -> o_sub_key o = None -> o_class_weights o = None -> o_fractional o = false ->
  o_single_weight o = false -> length ls = length ps -> ps <> [] ->
  yield_tuples ap o (Some ls) (Some ps) [w] =
    Ok (map (fun lp => ([fst lp], [snd lp], [w])) (combine ls ps)).
Proof.
  intros F SK CW FR SW EL NE.
  destruct (C59_flatten_pairs_classes_pf ap o ls ps [w] F SK CW FR SW EL NE (or_introl eq_refl)) as (ys & E & L & N).
  rewrite E. f_equal. apply (nth_error_all _ (0%Qc, NaN)).
  - rewrite combine_length. lia.
  - intros i Hi. rewrite combine_length in Hi. rewrite N by lia.
    rewrite combine_nth by auto. reflexivity.
Qed.

Lemma wlpe_assoc a b c : wlpe_plus a (wlpe_plus b c) = wlpe_plus (wlpe_plus a b) c.
Proof. unfold wlpe_plus; simpl. f_equal; try ring. apply num_plus_assoc. Qed.

Lemma wlpe_comm a b : wlpe_plus a b = wlpe_plus b a.
Proof. unfold wlpe_plus; simpl. f_equal; try ring. apply num_plus_comm. Qed.

Lemma wlpe_e a : wlpe_plus a wlpe_zero = a.
Proof. destruct a; unfold wlpe_plus, wlpe_zero; simpl. f_equal; try ring. apply num_plus_e. Qed.

Lemma foldM_sum {Y A} (f : Y -> res A) (create : A) (plus : A -> A -> A)
  (assoc : forall a b c, plus a (plus b c) = plus (plus a b) c)
  (comm : forall a b, plus a b = plus b a) (unit : forall a, plus a create = a) ys :
  forall acc, foldM (fun a y => let! d := f y in Ok (plus a d)) ys acc =
    (let! z := foldM (fun a y => let! d := f y in Ok (plus a d)) ys create in Ok (plus acc z)).
Proof.
  induction ys as [|y t IH]; intro acc.
  - cbn [foldM bind]. rewrite unit. reflexivity.
  - cbn [foldM bind]. destruct (f y) as [d|]; cbn [bind]; auto.
    rewrite (IH (plus acc d)), (IH (plus create d)).
    destruct (foldM _ t create); cbn [bind]; auto.
    f_equal. rewrite !assoc. f_equal. f_equal. rewrite (comm acc create), <- ?assoc. rewrite comm. rewrite unit. reflexivity.
Qed.

Lemma wlpe_fold_dense k w ls ps : length ls = length ps -> k = None ->
  foldM (fun a y => let! d := wlpe_of k y in Ok (wlpe_plus a d))
    (map (fun lp => ([fst lp], [snd lp], [w])) (combine ls (map Fin ps))) wlpe_zero =
  Ok (Wlpe (w * qsum ls)%Qc (Fin (w * qsum ps)%Qc) (w * qn (length ls))%Qc).
Proof.
  intros L K. subst k. revert ps L. induction ls as [|l ls IH]; intros [|p ps] L; simpl in L; try discriminate.
  - cbn. f_equal. unfold wlpe_zero. f_equal; [ring|f_equal; ring|change (qn 0) with 0%Qc; ring].
  - cbn [map combine foldM].
    cbn [fst snd].
    replace (wlpe_of None ([l], [Fin p], [w])) with (Ok (Wlpe (l * w)%Qc (Fin (w * p)%Qc) w)) by reflexivity.
    cbn [bind].
    rewrite (foldM_sum (wlpe_of None) wlpe_zero wlpe_plus wlpe_assoc wlpe_comm wlpe_e).
    rewrite IH by lia. cbn [bind]. f_equal. unfold wlpe_plus. cbn [wl_labels wl_predictions wl_examples num_plus wlpe_zero].
    f_equal.
    + cbn [qsum fold_right]. fold (qsum ls). ring.
    + f_equal. cbn [qsum fold_right]. fold (qsum ps). ring.
    + cbn [length]. unfold qn. rewrite Nat2Z.inj_succ, <- Z.add_1_l, qz_plus. change (qz 1) with 1%Qc. ring.
Qed.

Lemma rsum_wlpe {A} (f g h : A -> Qc) l :
  rsum wlpe_zero wlpe_plus (map (fun x => Wlpe (f x) (Fin (g x)) (h x)) l) =
  Wlpe (qsum (map f l)) (Fin (qsum (map g l))) (qsum (map h l)).
Proof. induction l; simpl; auto. rewrite IHl. reflexivity. Qed.

Definition near_zero (x : Qc) : Prop := (- Q2Qc (1 # 100000000) <= x <= Q2Qc (1 # 100000000))%Qc.

(** A number that is NaN when the denominator is (almost) zero, else the quotient. *)

Definition ratio_of (v : num) (a b : Qc) : Prop :=
  (near_zero b /\ v = NaN) \/ (~ near_zero b /\ v = Fin (a / b)%Qc).

Lemma isclose0_near x : isclose0 x = true <-> near_zero x.
Proof. unfold isclose0, near_zero. rewrite andb_true_iff, !Qc_leb_le. reflexivity. Qed.

Lemma C11_calibration_pf :
  forall ap weighted lk pk m o s ls ps w,
    (forall e, In e (inputs s) ->
       carries weighted m o e (Reading (ls e) (map Fin (ps e)) [w e]) /\
       length (ls e) = length (ps e) /\ ls e <> []) ->
    exists r, outcome (wlpe_combiner ap (calibration_options None false weighted None) lk pk m o) s = Ok r /\
      let P := qsum (map (fun e => w e * qsum (ps e))%Qc (inputs s)) in
      let L := qsum (map (fun e => w e * qsum (ls e))%Qc (inputs s)) in
      let W := qsum (map (fun e => w e * qn (length (ls e)))%Qc (inputs s)) in
      ratio_of (calibration_result r) P L /\
      ratio_of (mean_label_result r) L W /\
      ratio_of (mean_prediction_result r) P W.
Proof.
  intros ap weighted lk pk m o s ls ps w H.
  set (oo := calibration_options None false weighted None).
  exists (Wlpe (qsum (map (fun e => w e * qsum (ls e))%Qc (inputs s)))
          (Fin (qsum (map (fun e => w e * qsum (ps e))%Qc (inputs s))))
          (qsum (map (fun e => w e * qn (length (ls e)))%Qc (inputs s)))).
  split.
  - unfold outcome, wlpe_combiner.
    rewrite (res_run_ok wlpe_zero _ wlpe_plus _ (wlpe_add ap oo lk pk m o wlpe_zero)) with
      (g := fun e => Wlpe (w e * qsum (ls e))%Qc (Fin (w e * qsum (ps e))%Qc) (w e * qn (length (ls e)))%Qc).
    + cbn [c_extract res_combiner bind]. rewrite rsum_wlpe. reflexivity.
    + apply wlpe_assoc.
    + apply wlpe_comm.
    + apply wlpe_e.
    + intros a e. unfold wlpe_add.
      destruct (to_label_prediction_example_weight _ _ _ _ _ _ _) as [ys|]; cbn [bind]; auto.
      apply (foldM_sum (wlpe_of _) wlpe_zero wlpe_plus wlpe_assoc wlpe_comm wlpe_e).
    + intros e He. destruct (H e He) as (C & L & N). unfold wlpe_add.
      rewrite (prepared ap oo lk pk m o e _ C). cbn [r_labels r_scores r_weight].
      rewrite flatten_dense; auto.
      * cbn [bind]. apply wlpe_fold_dense; auto.
      * rewrite map_length. auto.
      * destruct (ps e); [destruct (ls e); simpl in *; congruence|discriminate].
  - cbv zeta. unfold calibration_result, mean_label_result, mean_prediction_result.
    cbn [wl_labels wl_predictions wl_examples num_scale].
    split; [|split]; unfold ratio_of;
    match goal with |- context [isclose0 ?x] => destruct (isclose0 x) eqn:E end;
    [left|right|left|right|left|right]; (split; [| try reflexivity]);
    try (apply isclose0_near; exact E); try (rewrite <- isclose0_near, E; discriminate);
    unfold Qcdiv; f_equal; ring.
Qed.

Definition binary (l p w : Q) : inputs_dict :=
  InputsDict (Some (Leaf [Q2Qc l])) (Some (Dict [("base", Leaf [Fin 0%Qc]); ("cand", Leaf [Fin (Q2Qc p)])]))
             (Some (Leaf [Q2Qc w])).

Lemma C60_mean_prediction_unlabelled_refuted_pf :
  exists ap e p w r, p <> 0%Qc /\ w = 1%Qc /\
    i_label e = None /\ carries_scores "" "" e [Fin p] /\ carries_weight true e [w] /\
    outcome (wlpe_combiner ap (calibration_options None false true None) "" "" "" "") (Bundle [e]) = Ok r /\
    mean_prediction_result r = Fin 0%Qc.
Proof.
  exists ap_sort, (InputsDict None (Some (Leaf [Fin (Q2Qc (3#4))])) None), (Q2Qc (3#4)), 1%Qc,
         (Wlpe 0%Qc (Fin 0%Qc) 1%Qc).
  split; [discriminate|]. split; [reflexivity|]. split; [reflexivity|]. split.
  { exists (Leaf [Fin (Q2Qc (3#4))]), (Leaf [Fin (Q2Qc (3#4))]). repeat split; reflexivity. }
  split; [reflexivity|]. split; [qc_ex|qc_ex].
Qed.

Lemma C61_top_k_calibration_refuted_pf :
  exists ap e,
    carries true "" "" e (Reading [0%Qc; 1%Qc; 0%Qc] [Fin 0%Qc; Fin (Q2Qc (1#2)); Fin (Q2Qc (1#4))] [1%Qc]) /\
    outcome (wlpe_combiner ap (calibration_options (Some (SubKey None None (Some 2))) true true None) "" "" "" "")
      (Bundle [e]) = Err IndexError /\
    outcome (wlpe_combiner ap (calibration_options (Some (SubKey None None (Some 2))) false true None) "" "" "" "")
      (Bundle [e]) = Err IndexError.
Proof.
  exists ap_sort, (InputsDict (Some (Leaf [0%Qc; 1%Qc; 0%Qc]))
                     (Some (Leaf [Fin 0%Qc; Fin (Q2Qc (1#2)); Fin (Q2Qc (1#4))])) None).
  split; [|split; vm_compute; reflexivity].
  split; [reflexivity|]. split; [|reflexivity].
  exists (Leaf [Fin 0%Qc; Fin (Q2Qc (1#2)); Fin (Q2Qc (1#4))]), (Leaf [Fin 0%Qc; Fin (Q2Qc (1#2)); Fin (Q2Qc (1#4))]).
  repeat split; reflexivity.
Qed.

Lemma Qcmin_spec a b : (Qcmin a b <= a /\ Qcmin a b <= b)%Qc /\ (Qcmin a b = a \/ Qcmin a b = b).
Proof. unfold Qcmin. destruct (Qc_leb a b) eqn:E; qc_bool; split; auto; split; qc_lra. Qed.

Lemma Qcmax_spec a b : (a <= Qcmax a b /\ b <= Qcmax a b)%Qc /\ (Qcmax a b = a \/ Qcmax a b = b).
Proof. unfold Qcmax. destruct (Qc_leb a b) eqn:E; qc_bool; split; auto; split; qc_lra. Qed.

Lemma Qcmin_assoc a b c : Qcmin a (Qcmin b c) = Qcmin (Qcmin a b) c.
Proof.
  apply Qcle_antisym;
  destruct (Qcmin_spec a (Qcmin b c)) as [[] [|]], (Qcmin_spec b c) as [[] [|]],
    (Qcmin_spec (Qcmin a b) c) as [[] [|]], (Qcmin_spec a b) as [[] [|]]; qc_lra.
Qed.

Lemma Qcmin_comm a b : Qcmin a b = Qcmin b a.
Proof.
  apply Qcle_antisym; destruct (Qcmin_spec a b) as [[] [|]], (Qcmin_spec b a) as [[] [|]]; qc_lra.
Qed.

Lemma Qcmax_assoc a b c : Qcmax a (Qcmax b c) = Qcmax (Qcmax a b) c.
Proof.
  apply Qcle_antisym;
  destruct (Qcmax_spec a (Qcmax b c)) as [[] [|]], (Qcmax_spec b c) as [[] [|]],
    (Qcmax_spec (Qcmax a b) c) as [[] [|]], (Qcmax_spec a b) as [[] [|]]; qc_lra.
Qed.

Lemma Qcmax_comm a b : Qcmax a b = Qcmax b a.
Proof.
  apply Qcle_antisym; destruct (Qcmax_spec a b) as [[] [|]], (Qcmax_spec b a) as [[] [|]]; qc_lra.
Qed.

(** All weights given for the query agree (a single one in most cases). *)

Definition one_weight (ws : list Qc) (w : Qc) : Prop := ws <> [] /\ forall v, In v ws -> v = w.

Lemma yield_unflattened ap o l p ws w :
  o_flatten o = false -> o_sub_key o = None -> o_class_weights o = None -> o_fractional o = false ->
  o_single_weight o = true -> o_allow_none o = true \/ l <> None -> one_weight ws w ->
  yield_tuples ap o l (Some p) ws =
    Ok [((match l with Some l => l | None => [] end), p, [w])].
Proof.
  intros F SK CW FR SW AN [NW HW]. unfold yield_tuples. rewrite F, SK, CW, FR, SW. cbn [andb].
  replace (negb (o_allow_none o) && (match l with None => true | _ => false end || false)) with false.
  2:{ destruct AN as [AN|AN]; [rewrite AN; reflexivity|].
      destruct l; [|congruence]. rewrite andb_false_r. reflexivity. }
  assert (E : (if Nat.ltb 1 (length ws) then
        match ws with
        | w0 :: _ => if forallb (fun w => Qc_eqb w w0) ws then Ok [w0] else Err ValueError
        | [] => Ok ws
        end else Ok ws) = Ok [w]).
  { destruct ws as [|a [|b t]]; [congruence| |].
    - simpl. rewrite (HW a) by (left; reflexivity). reflexivity.
    - cbn [Nat.ltb Nat.leb length]. rewrite (HW a) by (left; reflexivity).
      replace (forallb (fun w1 => Qc_eqb w1 w) (w :: b :: t)) with true; [reflexivity|].
      symmetry. apply forallb_forall. intros x Hx. apply Qc_eqb_eq. apply HW.
      destruct Hx as [Hx|Hx]; [left|right]; auto. rewrite <- Hx. apply HW. left; reflexivity. }
  rewrite E. cbn [bind]. unfold yield_results. cbn [negb orb].
  destruct l; reflexivity.
Qed.

Section QueryStats.
  Variable docs w : inputs_dict -> Qc.
  Definition qs_min (l : list inputs_dict) : option Qc := fold_right (fun e => omin (Some (docs e))) None l.
  Definition qs_max (l : list inputs_dict) : Qc := fold_right (fun e => Qcmax (docs e)) 0%Qc l.
  Definition qs_fun (l : list inputs_dict) : qstats :=
    QStats (qsum (map w l)) (qsum (map docs l)) (qs_min l) (qs_max l).

  Lemma omin_assoc a b c : omin a (omin b c) = omin (omin a b) c.
  Proof. destruct a, b, c; simpl; auto. rewrite Qcmin_assoc. auto. Qed.
  Lemma omin_comm a b : omin a b = omin b a.
  Proof. destruct a, b; simpl; auto. rewrite Qcmin_comm. auto. Qed.
  Lemma omin_none a : omin a None = a.
  Proof. destruct a; reflexivity. Qed.
  Lemma qs_min_app l1 l2 : qs_min (l1 ++ l2) = omin (qs_min l1) (qs_min l2).
  Proof. induction l1; cbn [qs_min fold_right app]; [reflexivity|]. fold (qs_min (l1 ++ l2)). fold (qs_min l1).
    rewrite IHl1, omin_assoc. reflexivity. Qed.
  Lemma qs_max_nonneg l : (0 <= qs_max l)%Qc.
  Proof. induction l; cbn; [apply Qcle_refl|]. fold (qs_max l).
    destruct (Qcmax_spec (docs a) (qs_max l)) as [[_ H] _]. eapply Qcle_trans; eauto. Qed.
  Lemma Qcmax_zero x : (0 <= x)%Qc -> Qcmax 0%Qc x = x.
  Proof. intro H. unfold Qcmax. apply Qc_leb_le in H. rewrite H. reflexivity. Qed.
  Lemma qs_max_app l1 l2 : qs_max (l1 ++ l2) = Qcmax (qs_max l1) (qs_max l2).
  Proof. induction l1; cbn [qs_max fold_right app].
    - fold (qs_max l2). symmetry. apply Qcmax_zero, qs_max_nonneg.
    - fold (qs_max (l1 ++ l2)). fold (qs_max l1). rewrite IHl1, Qcmax_assoc. reflexivity. Qed.

  Lemma qs_fun_plus l1 l2 : qstats_plus (qs_fun l1) (qs_fun l2) = qs_fun (l1 ++ l2).
  Proof. unfold qstats_plus, qs_fun. cbn [q_queries q_documents q_min q_max].
    rewrite !map_app, !qsum_app, qs_min_app, qs_max_app. reflexivity. Qed.

  Lemma qs_min_spec l : match qs_min l with
    | None => l = []
    | Some x => (exists e, In e l /\ x = docs e) /\ forall e, In e l -> (x <= docs e)%Qc end.
  Proof.
    induction l as [|a l IH]; cbn [qs_min fold_right]; [reflexivity|]. fold (qs_min l).
    destruct (qs_min l) as [x|]; cbn [omin].
    - destruct IH as [(e & He & Ex) H]. destruct (Qcmin_spec (docs a) x) as [[H1 H2] H3]. split.
      + destruct H3 as [H3|H3]; rewrite H3; [exists a|exists e]; simpl; auto.
      + intros y [Hy|Hy]; [subst; auto|]. eapply Qcle_trans; eauto.
    - subst l. split; [exists a; simpl; auto|]. intros e [He|[]]. subst. apply Qcle_refl.
  Qed.
  Lemma qs_max_spec l : (forall e, In e l -> (docs e <= qs_max l)%Qc) /\
     (qs_max l = 0%Qc \/ exists e, In e l /\ qs_max l = docs e).
  Proof.
    induction l as [|a l IH]; cbn [qs_max fold_right]; [split; [intros e []|auto]|]. fold (qs_max l).
    destruct IH as [H1 H2]. destruct (Qcmax_spec (docs a) (qs_max l)) as [[M1 M2] M3]. split.
    - intros e [He|He]; [subst; auto|]. eapply Qcle_trans; eauto.
    - destruct M3 as [M3|M3]; rewrite M3; [right; exists a; simpl; auto|].
      destruct H2 as [H2|(e & He & H2)]; [left; auto|right; exists e; simpl; auto].
  Qed.

End QueryStats.

Lemma C20_query_statistics_pf :
  forall ap weighted lk pk s ls ps ws w,
    (forall e, In e (inputs s) ->
       carries weighted "" "" e (Reading (ls e) (ps e) (ws e)) /\
       i_prediction e = Some (Leaf (ps e)) /\ one_weight (ws e) (w e)) ->
    let docs e := (qn (length (ps e)) * w e)%Qc in
    exists r, outcome (qstats_combiner ap weighted lk pk "" "") s = Ok r /\
      q_queries r = qsum (map w (inputs s)) /\
      q_documents r = qsum (map docs (inputs s)) /\
      match q_min r with
      | None => inputs s = []
      | Some x => (exists e, In e (inputs s) /\ x = docs e) /\
                  forall e, In e (inputs s) -> (x <= docs e)%Qc
      end /\
      (forall e, In e (inputs s) -> (docs e <= q_max r)%Qc) /\
      (q_max r = 0%Qc \/ exists e, In e (inputs s) /\ q_max r = docs e).
Proof.
  intros ap weighted lk pk s ls ps ws w H docs.
  exists (qs_fun docs w (inputs s)). split.
  - unfold outcome, qstats_combiner.
    rewrite (res_fun_run qstats_zero _ qstats_plus _
      (fun e => carries weighted "" "" e (Reading (ls e) (ps e) (ws e)) /\
        i_prediction e = Some (Leaf (ps e)) /\ one_weight (ws e) (w e)) (qs_fun docs w)).
    + reflexivity.
    + reflexivity.
    + intros l e _ (C & EP & OW). unfold qstats_add.
      rewrite (prepared ap (query_options weighted) lk pk "" "" e _ C). cbn [r_labels r_scores r_weight].
      rewrite (yield_unflattened ap (query_options weighted) _ _ _ (w e)); auto; try (right; discriminate).
      cbn [bind foldM snd scalar]. rewrite EP. cbn [bind data_len]. f_equal.
      rewrite <- qs_fun_plus. unfold qstats_plus, qs_fun. cbn [q_queries q_documents q_min q_max map qsum fold_right qs_min qs_max omin].
      unfold docs. f_equal; try ring.
      rewrite Qcmax_assoc. symmetry. rewrite Qcmax_comm. apply Qcmax_zero.
      eapply Qcle_trans; [apply (qs_max_nonneg docs l)|].
      apply (proj1 (proj1 (Qcmax_spec _ _))).
    + intros l1 l2 _ _. apply qs_fun_plus.
    + apply Forall_forall. exact H.
  - cbn [qs_fun q_queries q_documents q_min q_max].
    split; [reflexivity|]. split; [reflexivity|]. split; [apply qs_min_spec|apply qs_max_spec].
Qed.

(** np.argsort: a permutation of the indices, ascending scores; ties in any order. *)

Definition argsort_ok (argsort : list num -> list nat) : Prop :=
  forall ps, ~ In NaN ps ->
    Permutation (argsort ps) (seq 0 (length ps)) /\
    StronglySorted (fun i j => num_leb (nth i ps NaN) (nth j ps NaN) = true) (argsort ps).

Lemma C20_argsort_satisfiable_pf : argsort_ok sorted_idx.
Proof. intros ps N. split; [apply sorted_idx_perm|apply sorted_idx_sorted; auto]. Qed.

(** Rank of the best positive document: m is the best score of a positive document;
    the rank counts all documents scored above m, plus at most those tied with m. *)

Definition rank_spec (ls : list Qc) (ps : list num) (rank : option nat) : Prop :=
  match rank with
  | None => forall l, In l ls -> (l <= 0)%Qc
  | Some r => exists l m, In (l, m) (combine ls ps) /\ (0 < l)%Qc /\
      (forall l' p, In (l', p) (combine ls ps) -> (0 < l')%Qc -> num_leb p m = true) /\
      1 + count (fun p => num_ltb m p) ps <= r <= count (fun p => num_leb m p) ps
  end.

Lemma first_positive_spec (l : list Qc) : forall i,
  match first_positive i l with
  | None => forall x, In x l -> (x <= 0)%Qc
  | Some r => exists a x b, l = a ++ x :: b /\ (forall y, In y a -> (y <= 0)%Qc) /\ (0 < x)%Qc /\ r = i + length a
  end.
Proof.
  induction l as [|x l IH]; intro i; simpl; [tauto|].
  destruct (Qc_ltb 0%Qc x) eqn:E; qc_bool.
  - exists [], x, l. simpl. repeat split; auto; try lia; try tauto.
  - specialize (IH (S i)). destruct (first_positive (S i) l).
    + destruct IH as (a & y & b & E1 & H1 & H2 & H3). exists (x :: a), y, b. subst l.
      repeat split; auto; [|simpl; lia]. intros z [Hz|Hz]; subst; auto.
    + intros y [Hy|Hy]; subst; auto.
Qed.

Lemma SS_rev {A} (R : A -> A -> Prop) l : StronglySorted R l -> StronglySorted (fun a b => R b a) (rev l).
Proof.
  induction 1 as [|x l S IH F]; simpl; [constructor|].
  rewrite Forall_forall in F.
  assert (G : forall l', StronglySorted (fun a b => R b a) l' -> (forall y, In y l' -> R x y) ->
    StronglySorted (fun a b => R b a) (l' ++ [x])).
  { induction 1 as [|y l' S' IH' F']; simpl; intro H; [repeat constructor|].
    constructor; [apply IH'; intros; apply H; simpl; auto|].
    rewrite Forall_forall in *. intros z Hz. apply in_app_or in Hz. destruct Hz as [Hz|[Hz|[]]]; auto.
    subst z. apply H. simpl; auto. }
  apply G; auto. intros y Hy. apply F. apply in_rev; auto.
Qed.

Lemma min_label_pos_spec argsort ls ps :
  argsort_ok argsort -> ~ In NaN ps -> length ls = length ps ->
  exists r, min_label_pos argsort ls ps = Ok r /\ rank_spec ls ps r.
Proof.
  intros AS N L. destruct (AS ps N) as [P S].
  set (ord := rev (argsort ps)).
  assert (PO : Permutation ord (seq 0 (length ps))) by (unfold ord; rewrite <- Permutation_rev; exact P).
  assert (SO : StronglySorted (fun i j => num_leb (nth j ps NaN) (nth i ps NaN) = true) ord)
    by (apply (SS_rev _ _ S)).
  assert (IO : forall i, In i ord -> i < length ps)
    by (intros i Hi; apply (Permutation_in _ PO) in Hi; apply in_seq in Hi; lia).
  unfold min_label_pos. fold ord.
  rewrite (select_indices_ok ls 0%Qc ord) by (intros i Hi; rewrite L; auto). cbn [bind].
  eexists. split; [reflexivity|].
  set (pair := fun i => (nth i ls 0%Qc, nth i ps NaN)).
  assert (PP : Permutation (map pair ord) (combine ls ps)).
  { rewrite (combine_seq ls ps 0%Qc NaN L). apply Permutation_map. exact PO. }
  assert (PS : Permutation (map (fun i => nth i ps NaN) ord) ps).
  { rewrite (Permutation_map _ PO). clear.
    enough (map (fun i => nth i ps NaN) (seq 0 (length ps)) = ps) as E by (rewrite E; auto).
    apply nth_ext with (d := NaN) (d' := NaN); [rewrite map_length, seq_length; auto|].
    intros i Hi. rewrite map_length, seq_length in Hi.
    rewrite (nth_indep _ NaN (nth 0 ps NaN)) by (rewrite map_length, seq_length; auto).
    rewrite (map_nth (fun i => nth i ps NaN) (seq 0 (length ps)) 0 i). rewrite seq_nth; auto. }
  pose proof (first_positive_spec (map (fun i => nth i ls 0%Qc) ord) 1) as FP.
  destruct (first_positive 1 (map (fun i => nth i ls 0%Qc) ord)) as [r|]; cbn [rank_spec].
  - destruct FP as (a & x & b & E & Ha & Hx & Er).
    apply map_eq_app in E. destruct E as (oa & ob & Eo & Ea & Eb).
    destruct ob as [|d ob]; [discriminate|]. simpl in Eb. injection Eb as Ex Eb.
    assert (Ha' : forall i, In i oa -> (nth i ls 0%Qc <= 0)%Qc).
    { intros i Hi. apply Ha. rewrite <- Ea. apply in_map_iff. eauto. }
    rewrite Eo in SO. destruct (SS_split _ oa (d :: ob) SO) as [S1 S2].
    inversion S2 as [|? ? S3 S4]; subst.
    rewrite Forall_forall in S4.
    assert (Ld : d < length ps) by (apply IO; rewrite Eo; apply in_or_app; right; left; reflexivity).
    assert (Nd : nth d ps NaN <> NaN) by (apply nth_not_nan; auto).
    assert (La : length (map (fun i => nth i ls 0%Qc) oa) = length oa) by apply map_length.
    exists (nth d ls 0%Qc), (nth d ps NaN). split; [|split; [exact Hx|split]].
    + apply (Permutation_in _ PP). apply in_map_iff. exists d. split; auto. rewrite Eo. apply in_or_app; right; left; reflexivity.
    + intros l' p HI HP. apply (Permutation_in _ (Permutation_sym PP)) in HI.
      apply in_map_iff in HI. destruct HI as (i & Ei & HI). inversion Ei; subst l' p. clear Ei.
      rewrite Eo in HI. apply in_app_or in HI. destruct HI as [HI|[HI|HI]].
      * exfalso. specialize (Ha' i HI). apply (Qclt_not_le _ _ HP). exact Ha'.
      * subst i. apply num_leb_refl; auto.
      * apply S4. exact HI.
    + rewrite La. split.
      * rewrite <- (count_perm _ _ _ PS), Eo, map_app, count_app. cbn [map].
        rewrite (count_none _ (nth d ps NaN :: map _ ob)).
        -- pose proof (count_le (fun p => num_ltb (nth d ps NaN) p) (map (fun i => nth i ps NaN) oa)) as C.
           rewrite map_length in C. lia.
        -- intros y [Hy|Hy].
           ++ subst y. destruct (num_ltb (nth d ps NaN) (nth d ps NaN)) eqn:T; auto.
              apply num_ltb_leb in T. rewrite num_leb_refl in T by auto. discriminate.
           ++ apply in_map_iff in Hy. destruct Hy as (i & Ei & Hi). subst y.
              destruct (num_ltb (nth d ps NaN) (nth i ps NaN)) eqn:T; auto.
              apply num_ltb_leb in T. rewrite (S4 i Hi) in T. discriminate.
      * rewrite <- (count_perm _ _ _ PS), Eo, map_app, count_app. cbn [map].
        rewrite (count_all _ (map _ oa)).
        -- rewrite map_length. unfold count. cbn [filter]. rewrite num_leb_refl by auto. simpl. lia.
        -- intros y Hy. apply in_map_iff in Hy. destruct Hy as (i & Ei & Hi). subst y.
           apply S1; simpl; auto.
  - intros l Hl. apply FP. apply In_nth with (d := 0%Qc) in Hl. destruct Hl as (i & Hi & El).
    apply in_map_iff. exists i. split; auto.
    apply (Permutation_in _ (Permutation_sym PO)). apply in_seq. lia.
Qed.

Lemma C20_min_label_position_pf :
  forall ap argsort weighted lk pk m o s ls ps ws w,
    argsort_ok argsort ->
    (forall e, In e (inputs s) ->
       carries weighted m o e (Reading (ls e) (ps e) (ws e)) /\
       length (ls e) = length (ps e) /\ ~ In NaN (ps e) /\ one_weight (ws e) (w e)) ->
    exists rank, (forall e, In e (inputs s) -> rank_spec (ls e) (ps e) (rank e)) /\
      let labelled := filter (fun e => match rank e with Some _ => true | None => false end) (inputs s) in
      let W := qsum (map w labelled) in
      let T := qsum (map (fun e => qn (match rank e with Some r => r | None => 0 end) * w e)%Qc labelled) in
      outcome (position_combiner ap argsort weighted lk pk m o) s =
        Ok (if Qc_ltb 0%Qc W then Fin (T / W)%Qc else NaN).
Proof.
  intros ap argsort weighted lk pk m o s ls ps ws w AS H.
  exists (fun e => match min_label_pos argsort (ls e) (ps e) with Ok r => r | Err _ => None end).
  split.
  - intros e He. destruct (H e He) as (_ & L & N & _).
    destruct (min_label_pos_spec argsort (ls e) (ps e) AS N L) as (r & E & R). rewrite E. exact R.
  - cbv zeta. set (rank := fun e => match min_label_pos argsort (ls e) (ps e) with Ok r => r | Err _ => None end).
    unfold outcome, position_combiner.
    set (g := fun e => match rank e with Some r => ((qn r * w e)%Qc, w e) | None => (0%Qc, 0%Qc) end).
    rewrite (res_fun_run (0%Qc, 0%Qc) _ plus2 _
      (fun e => In e (inputs s)) (fun l => rsum (0%Qc, 0%Qc) plus2 (map g l))).
    + cbn [c_extract res_combiner bind]. f_equal.
      assert (E : rsum (0%Qc, 0%Qc) plus2 (map g (inputs s)) =
        (qsum (map (fun e => qn (match rank e with Some r => r | None => 0 end) * w e)%Qc
                 (filter (fun e => match rank e with Some _ => true | None => false end) (inputs s))),
         qsum (map w (filter (fun e => match rank e with Some _ => true | None => false end) (inputs s))))).
      { induction (inputs s) as [|e l IH]; [reflexivity|]. cbn [map rsum fold_right filter].
        change (fold_right plus2 (0%Qc, 0%Qc) (map g l)) with (rsum (0%Qc, 0%Qc) plus2 (map g l)).
        rewrite IH by (intros; apply H; simpl; auto). unfold g. destruct (rank e) eqn:ER.
        - cbn [map qsum fold_right]. rewrite ER. reflexivity.
        - rewrite plus2_comm, plus2_e. reflexivity. }
      rewrite E. reflexivity.
    + reflexivity.
    + intros l e _ He. destruct (H e He) as (C & L & N & OW). unfold position_add.
      rewrite (prepared ap (position_options weighted) lk pk m o e _ C). cbn [r_labels r_scores r_weight].
      rewrite (yield_unflattened ap (position_options weighted) _ _ _ (w e)); auto; try (right; discriminate).
      cbn [bind].
      destruct (min_label_pos_spec argsort (ls e) (ps e) AS N L) as (r & E & _).
      rewrite E. cbn [bind]. rewrite map_app.
      rewrite (rsum_app (0%Qc,0%Qc) plus2 plus2_assoc plus2_comm plus2_e). cbn [map rsum fold_right].
      rewrite plus2_e. unfold g, rank. rewrite E. destruct r as [r|]; cbn [bind scalar].
      * reflexivity.
      * rewrite plus2_e. reflexivity.
    + intros l1 l2 _ _. rewrite map_app. symmetry. apply (rsum_app (0%Qc,0%Qc) plus2 plus2_assoc plus2_comm plus2_e).
    + apply Forall_forall. auto.
Qed.

Definition query (ls ps : list Q) (w : Z) : inputs_dict :=
  InputsDict (Some (Leaf (map Q2Qc ls))) (Some (Leaf (map (fun q => Fin (Q2Qc q)) ps))) (Some (Leaf [qz w])).

Lemma C62_documents_multi_model_refuted_pf :
  exists ap e ls ps r,
    carries true "cand" "" e (Reading ls ps [1%Qc]) /\ length ps = 3 /\
    outcome (qstats_combiner ap true "" "" "cand" "") (Bundle [e]) = Ok r /\
    q_documents r = qz 2 /\ q_max r = qz 2.
Proof.
  set (ps := [Fin (Q2Qc (1#2)); Fin 0%Qc; Fin 1%Qc]).
  exists ap_sort, (InputsDict (Some (Leaf [0%Qc; 1%Qc; 0%Qc]))
                     (Some (Dict [("cand", Leaf ps); ("base", Leaf ps)])) None),
         [0%Qc; 1%Qc; 0%Qc], ps, (QStats 1%Qc (qz 2) (Some (qz 2)) (qz 2)).
  split.
  { split; [reflexivity|]. split; [|reflexivity].
    exists (Dict [("cand", Leaf ps); ("base", Leaf ps)]), (Leaf ps). repeat split; reflexivity. }
  repeat split; qc_ex.
Qed.

Lemma C63_no_positive_is_zero_refuted_pf :
  exists ap argsort, argsort_ok argsort /\
    forall s, (forall e, In e (inputs s) -> e = query [0%Q;0%Q] [(1#2)%Q; (1#3)%Q] 1) ->
      outcome (position_combiner ap argsort true "" "" "" "") s = Ok NaN.
Proof.
  exists ap_sort, sorted_idx. split; [apply C20_argsort_satisfiable_pf|].
  intros s H.
  destruct (C20_min_label_position_pf ap_sort sorted_idx true "" "" "" "" s
    (fun _ => [0%Qc; 0%Qc]) (fun _ => [Fin (Q2Qc (1#2)); Fin (Q2Qc (1#3))]) (fun _ => [1%Qc]) (fun _ => 1%Qc))
    as (rank & R & E).
  - apply C20_argsort_satisfiable_pf.
  - intros e He. rewrite (H e He). split.
    { split; [reflexivity|]. split; [|reflexivity].
      exists (Leaf [Fin (Q2Qc (1#2)); Fin (Q2Qc (1#3))]), (Leaf [Fin (Q2Qc (1#2)); Fin (Q2Qc (1#3))]). repeat split; reflexivity. }
    split; [reflexivity|]. split; [intros [X|[X|[]]]; discriminate|].
    split; [discriminate|]. intros v [Hv|[]]; auto.
  - cbv zeta in E. rewrite E.
    assert (Z : forall e, In e (inputs s) -> rank e = None).
    { intros e He. specialize (R e He). destruct (rank e); auto.
      destruct R as (l0 & m & [X|[X|[]]] & P & _); inversion X; subst; exfalso; discriminate P. }
    replace (filter _ (inputs s)) with (@nil inputs_dict); [reflexivity|].
    clear E H R. symmetry. induction (inputs s) as [|e l IH]; [reflexivity|]. simpl.
    rewrite Z by (simpl; auto). apply IH. intros; apply Z; simpl; auto.
Qed.

Lemma position_add_sum ap argsort weighted lk pk m o a e :
  position_add ap argsort weighted lk pk m o a e =
  (let! y := position_add ap argsort weighted lk pk m o (0%Qc, 0%Qc) e in Ok (plus2 a y)).
Proof.
  unfold position_add. destruct (to_label_prediction_example_weight _ _ _ _ _ _ _) as [ys|]; cbn [bind]; auto.
  destruct ys as [|[[l p] w] ?]; cbn [bind]; auto.
  destruct (min_label_pos argsort l p) as [[i|]|]; cbn [bind]; auto.
  - destruct (scalar w); cbn [bind]; auto. rewrite (plus2_comm (0%Qc, 0%Qc)), plus2_e. reflexivity.
  - rewrite plus2_e. reflexivity.
Qed.

Lemma C63_unlabelled_skipped_refuted_pf :
  exists ap argsort e, argsort_ok argsort /\ i_label e = None /\
    forall s, In e (inputs s) ->
      exists x, outcome (position_combiner ap argsort true "" "" "" "") s = Err x.
Proof.
  exists ap_sort, sorted_idx, (InputsDict None (Some (Leaf [Fin 1%Qc; Fin 0%Qc])) None).
  split; [apply C20_argsort_satisfiable_pf|]. split; [reflexivity|].
  intros s H. unfold outcome, position_combiner.
  destruct (res_run_err (0%Qc, 0%Qc) _ plus2 (fun a => Ok (position_result a))
    (position_add ap_sort sorted_idx true "" "" "" "" (0%Qc, 0%Qc)) plus2_assoc plus2_comm plus2_e
    (position_add_sum ap_sort sorted_idx true "" "" "" "") s _ IndexError H) as [x E].
  - vm_compute. reflexivity.
  - rewrite E. simpl. eauto.
Qed.
