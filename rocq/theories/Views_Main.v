(* Proofs of the theorems restated in Views_Properties.v. *)
From Coq Require Import String Ascii Permutation.
From Verif Require Import Base BaseFacts Slicer_Model Slicer_Spec Slicer_Proofs Slicer_Main Inputs_Model Keys_Model Keys_Main Util_Main Keras_Main Classes_Main Validation_Model Config_Model Results_Model Results_Main Views_Model.
Local Open Scope string_scope.
Local Open Scope list_scope.

(* C280 - C289: what is displayed. *)

Definition free (c : ascii) (s : string) : Prop := ~ In c (list_ascii_of_string s).

Lemma chars_app a b : list_ascii_of_string (a ++ b) = list_ascii_of_string a ++ list_ascii_of_string b.
Proof. induction a as [|c a IH]; [reflexivity|]. cbn [String.append list_ascii_of_string app]. rewrite IH. reflexivity. Qed.

Lemma free_app c a b : free c (a ++ b) <-> free c a /\ free c b.
Proof. unfold free. rewrite chars_app, in_app_iff. tauto. Qed.

Lemma chars_inj a b : list_ascii_of_string a = list_ascii_of_string b -> a = b.
Proof. intros H. rewrite <- (string_of_list_ascii_of_string a), <- (string_of_list_ascii_of_string b), H. reflexivity. Qed.

Lemma append_assoc a b c : ((a ++ b) ++ c)%string = (a ++ (b ++ c))%string.
Proof. apply chars_inj. rewrite !chars_app, app_assoc. reflexivity. Qed.

Lemma append_inj_r a b c : (a ++ c)%string = (b ++ c)%string -> a = b.
Proof. intros H. apply chars_inj. apply (f_equal list_ascii_of_string) in H. rewrite !chars_app in H. apply app_inv_tail in H. exact H. Qed.

Lemma split_char c : forall a b r r', free c a -> free c b -> (a ++ String c r)%string = (b ++ String c r')%string -> a = b /\ r = r'.
Proof.
  induction a as [|x a IH]; intros [|y b] r r' Fa Fb E; cbn [String.append] in E.
  - injection E as <-. auto.
  - injection E as <- _. destruct Fb. left. reflexivity.
  - injection E as -> _. destruct Fa. left. reflexivity.
  - injection E as <- E. destruct (IH b r r') as [-> ->]; auto; [intros I0; apply Fa; right; exact I0|intros I0; apply Fb; right; exact I0].
Qed.

Lemma joined_cons x y l : joined "_X_" (x :: y :: l) = ((x ++ "_") ++ String "X" ("_" ++ joined "_X_" (y :: l)))%string.
Proof. change (joined "_X_" (x :: y :: l)) with (x ++ "_X_" ++ joined "_X_" (y :: l))%string. rewrite append_assoc. reflexivity. Qed.

Lemma joined_inj : forall l1 l2, l1 <> [] -> l2 <> [] -> Forall (free "X") l1 -> Forall (free "X") l2 -> joined "_X_" l1 = joined "_X_" l2 -> l1 = l2.
Proof.
  assert (U : forall s, free "X" s -> free "X" (s ++ "_")) by (intros s F; apply free_app; split; [exact F|intros [H|[]]; discriminate H]).
  assert (L : forall x y z l, free "X" x -> x <> joined "_X_" (y :: z :: l)).
  { intros x y z l F ->. rewrite joined_cons in F. apply free_app in F. destruct F as [_ F]. apply F. left. reflexivity. }
  induction l1 as [|x l1 IH]; intros [|y l2] N1 N2 F1 F2 E; try contradiction. inversion F1 as [|? ? Fx F1']; inversion F2 as [|? ? Fy F2']; subst.
  destruct l1 as [|x2 l1], l2 as [|y2 l2].
  - cbn in E. subst. reflexivity.
  - destruct (L _ _ _ _ Fx E).
  - destruct (L _ _ _ _ Fy (eq_sym E)).
  - rewrite !joined_cons in E. apply split_char in E; [|apply U; assumption|apply U; assumption]. destruct E as [E1 E2]. apply append_inj_r in E1. injection E2 as E2. f_equal; [exact E1|]. apply IH; auto; discriminate.
Qed.

Lemma joined_free c : forall l, free c "_X_" -> Forall (free c) l -> free c (joined "_X_" l).
Proof.
  induction l as [|x [|y l] IH]; intros S F; [intros []|inversion F; assumption|]. inversion F; subst. change (joined "_X_" (x :: y :: l)) with (x ++ "_X_" ++ joined "_X_" (y :: l))%string. rewrite !free_app. auto.
Qed.

Lemma C280_texts_pf :
  forall float_repr k1 k2,
    (forall n v, In (n, v) (k1 ++ k2) -> free ":" n /\ free "X" n /\ free "X" (value_text float_repr v)) ->
    stringify_slice_key float_repr k1 = stringify_slice_key float_repr k2 ->
    map (fun nv => (fst nv, value_text float_repr (snd nv))) k1 = map (fun nv => (fst nv, value_text float_repr (snd nv))) k2.
Proof.
  intros fr k1 k2 H E.
  assert (C : forall k, k <> [] -> stringify_slice_key fr k = (joined "_X_" (map fst k) ++ String ":" (joined "_X_" (map (fun cv => value_text fr (snd cv)) k)))%string) by (intros [|a k] N; [contradiction|reflexivity]).
  assert (O : forall k, k <> [] -> stringify_slice_key fr k <> "Overall").
  { intros k N Q. rewrite (C k N) in Q. apply (f_equal list_ascii_of_string) in Q. rewrite chars_app in Q.
    assert (I0 : In ":"%char (list_ascii_of_string "Overall")) by (rewrite <- Q; apply in_or_app; right; left; reflexivity). cbn in I0. repeat (destruct I0 as [I0|I0]; [discriminate I0|]). exact I0. }
  assert (D : k1 = [] \/ k1 <> []) by (destruct k1; [left; reflexivity|right; discriminate]). destruct D as [->|N1].
  - destruct k2 as [|a k2]; [reflexivity|]. destruct (O (a :: k2)); [discriminate|exact (eq_sym E)].
  - destruct k2 as [|a k2]; [destruct (O k1 N1 E)|]. set (k2' := a :: k2) in *. assert (N2 : k2' <> []) by discriminate. clearbody k2'. clear a k2. rename k2' into k2. rewrite (C k1 N1), (C k2 N2) in E.
    assert (M0 : forall (A B : Type) (f : A -> B) l, l <> [] -> map f l <> []) by (intros A B f [|? ?] N; [contradiction|discriminate]).
    apply split_char in E.
    + destruct E as [E1 E2]. apply joined_inj in E1; [|apply M0, N1|apply M0, N2| |].
      * apply joined_inj in E2; [|apply M0, N1|apply M0, N2| |].
        -- clear - E1 E2. revert k2 E1 E2. induction k1 as [|[n v] k1 IH]; intros [|[n' v'] k2] E1 E2; try discriminate; [reflexivity|]. cbn [map fst snd] in *. injection E1 as -> E1. injection E2 as -> E2. f_equal. apply IH; assumption.
        -- apply Forall_forall. intros x I0. apply in_map_iff in I0. destruct I0 as ([n v] & <- & I0). apply (H n v). apply in_or_app. auto.
        -- apply Forall_forall. intros x I0. apply in_map_iff in I0. destruct I0 as ([n v] & <- & I0). apply (H n v). apply in_or_app. auto.
      * apply Forall_forall. intros x I0. apply in_map_iff in I0. destruct I0 as ([n v] & <- & I0). apply (H n v). apply in_or_app. auto.
      * apply Forall_forall. intros x I0. apply in_map_iff in I0. destruct I0 as ([n v] & <- & I0). apply (H n v). apply in_or_app. auto.
    + apply joined_free; [intros I0; cbn in I0; repeat (destruct I0 as [I0|I0]; [discriminate I0|]); exact I0|]. apply Forall_forall. intros x I0. apply in_map_iff in I0. destruct I0 as ([n v] & <- & I0). apply (H n v). apply in_or_app. auto.
    + apply joined_free; [intros I0; cbn in I0; repeat (destruct I0 as [I0|I0]; [discriminate I0|]); exact I0|]. apply Forall_forall. intros x I0. apply in_map_iff in I0. destruct I0 as ([n v] & <- & I0). apply (H n v). apply in_or_app. auto.
Qed.

Lemma C280_same_text_refuted_pf :
  exists k1 k2 k3 k4, map fst k1 = map fst k2 /\ k1 <> k2 /\ (forall fr, stringify_slice_key fr k1 = stringify_slice_key fr k2) /\
    map fst k3 = map fst k4 /\ k3 <> k4 /\ Forall (fun nv => exists s, snd nv = VStr s) (k3 ++ k4) /\ forall fr, stringify_slice_key fr k3 = stringify_slice_key fr k4.
Proof.
  exists [("age", VInt 1)], [("age", VStr "1")], [("a", VStr "x_X_y"); ("b", VStr "z")], [("a", VStr "x"); ("b", VStr "y_X_z")].
  split; [reflexivity|]. split; [discriminate|]. split; [reflexivity|]. split; [reflexivity|]. split; [discriminate|]. split; [|reflexivity]. repeat constructor; eexists; reflexivity.
Qed.

Lemma spec_of_ok asked sp : match asked with Some p => mk_spec p = Ok sp | None => True end -> spec_of asked = Ok (option_map (fun _ => sp) asked).
Proof. destruct asked as [p|]; cbn; [|reflexivity]. intros ->. reflexivity. Qed.

Lemma C281_column_pf :
  forall (A : Type) float_repr c (results : list (any_key * A)) column asked weighted,
    (forall r, In r results -> exists k, fst r = One k) -> column <> "" -> (forall p, asked = Some p -> is_ok (mk_spec p) = true) ->
    let shown := flat_map (fun r => match fst r with
                                    | One [(n, v)] => if String.eqb n column then [((column ++ ":" ++ value_text float_repr v)%string, snd r)] else []
                                    | _ => []
                                    end) results in
    render_slicing_metrics float_repr c results column asked weighted =
      match shown with [] => Err ValueError | _ => Ok (shown, slicing_column c weighted) end.
Proof.
  intros A fr c results column asked weighted H1 NC HS shown. unfold render_slicing_metrics.
  assert (S : exists o, spec_of asked = Ok o). { destruct asked as [p|]; [|exists None; reflexivity]. specialize (HS p eq_refl). cbn. destruct (mk_spec p) as [s|]; [exists (Some s); reflexivity|discriminate]. }
  destruct S as (o & ->). cbn [bind]. unfold get_slicing_metrics. apply String.eqb_neq in NC. rewrite NC. cbn [negb]. rewrite (find_all_ones results (Spec [column] []) H1). cbn [bind].
  set (sel := filter _ results).
  assert (E : shown = map (fun r => (any_text fr (fst r), snd r)) sel).
  { unfold shown, sel. clear shown sel. induction results as [|[k m] results IH]; [reflexivity|]. cbn [flat_map filter fst snd]. rewrite IH by (intros r I0; apply H1; right; exact I0).
    destruct (H1 (k, m) (or_introl eq_refl)) as (k' & Q). cbn [fst] in Q. subst k. rename k' into k.
    pose proof (selected_iff (SlicingSpec [column] []) (Spec [column] []) k (NoDup_nil _) eq_refl) as X. cbn [sp_keys sp_values selected_by map] in X. rewrite app_nil_r in X.
    assert (D : dedup String.eqb [column] = [column]) by reflexivity. rewrite D in X.
    assert (Y : is_slice_applicable (Spec [column] []) k = match k with [(n, v)] => String.eqb n column | _ => false end).
    { destruct (is_slice_applicable (Spec [column] []) k) eqn:EA.
      - destruct (proj1 X eq_refl) as [P _]. apply Permutation_sym, Permutation_length_1_inv in P. destruct k as [|[n v] [|? ?]]; try discriminate P. cbn in P. injection P as ->. symmetry. apply String.eqb_refl.
      - destruct k as [|[n v] [|? ?]]; try reflexivity. destruct (String.eqb_spec n column) as [->|]; [|reflexivity]. exfalso. assert (T : false = true); [|discriminate T]. apply X. split; [reflexivity|]. intros ? ? ? _ []. }
    rewrite Y. destruct k as [|[n v] [|q k]]; try reflexivity. destruct (String.eqb_spec n column) as [->|]; reflexivity. }
  rewrite E. destruct sel as [|x [|y sel]]; destruct o; reflexivity.
Qed.

Lemma C281_overall_pf :
  forall (A : Type) float_repr c (results : list (any_key * A)) weighted,
    (forall r, In r results -> exists k, fst r = One k) ->
    render_slicing_metrics float_repr c results "" None weighted =
      match filter (fun r => match fst r with One [] => true | _ => false end) results with
      | [r] => Ok ([("Overall", snd r)], slicing_column c weighted)
      | _ => Err ValueError
      end.
Proof.
  intros A fr c results weighted H1. unfold render_slicing_metrics. cbn [spec_of bind]. unfold get_slicing_metrics. cbn [String.eqb negb]. rewrite (find_all_ones results (Spec [] []) H1). cbn [bind].
  assert (E : filter (fun r => match fst r with One k => is_slice_applicable (Spec [] []) k | Two _ _ => false end) results = filter (fun r => match fst r with One [] => true | _ => false end) results).
  { apply filter_ext_in. intros r I0. destruct (H1 r I0) as (k & ->). pose proof (selected_iff (SlicingSpec [] []) (Spec [] []) k (NoDup_nil _) eq_refl) as X. cbn [selected_by sp_keys sp_values map app] in X. change (dedup String.eqb (@nil string)) with (@nil string) in X.
    destruct (is_slice_applicable (Spec [] []) k) eqn:EA.
    - destruct (proj1 X eq_refl) as [P _]. apply Permutation_sym, Permutation_nil in P. destruct k; [reflexivity|discriminate P].
    - destruct k; [|reflexivity]. assert (T : false = true); [|discriminate T]. apply X. split; [constructor|intros ? ? ? []]. }
  rewrite E. clear E.
  assert (F : forall r, In r (filter (fun r : any_key * A => match fst r with One [] => true | _ => false end) results) -> fst r = One []).
  { intros r I0. apply filter_In in I0. destruct I0 as [_ I0]. destruct (fst r) as [[|? ?]|]; try discriminate. reflexivity. }
  revert F. generalize (filter (fun r : any_key * A => match fst r with One [] => true | _ => false end) results). intros [|x [|y l]] F; [reflexivity| |reflexivity]. cbn [bind map]. rewrite (F x (or_introl eq_refl)). reflexivity.
Qed.

Lemma C281_spec_pf :
  forall (A : Type) float_repr c (results : list (any_key * A)) p weighted,
    (forall r, In r results -> exists k, fst r = One k) -> NoDup (map fst (sp_values p)) -> is_ok (mk_spec p) = true ->
    exists choose, (forall r, In r results -> (choose r = true <-> selected_by p (fst r))) /\
      render_slicing_metrics float_repr c results "" (Some p) weighted =
        match filter choose results with
        | [] => Err ValueError
        | l => Ok (map (fun r => (match fst r with One k => stringify_slice_key float_repr k | Two _ _ => "" end, snd r)) l, slicing_column c weighted)
        end.
Proof.
  intros A fr c results p weighted H1 N S. destruct (mk_spec p) as [sp|] eqn:M; [|discriminate S].
  exists (fun r => match fst r with One k => is_slice_applicable sp k | Two _ _ => false end). split; [apply (chosen_slices results p sp N M H1)|].
  unfold render_slicing_metrics. cbn [spec_of]. rewrite M. cbn [bind]. unfold get_slicing_metrics. cbn [String.eqb negb]. rewrite (find_all_ones results sp H1). cbn [bind]. destruct (filter _ results) as [|x [|y l]]; reflexivity.
Qed.

Lemma C281_cross_slices_refuted_pf :
  exists (c : eval_config) (results : list (any_key * nat)), In (One [], 7) results /\ length results = 2 /\
    forall fr, render_slicing_metrics fr c results "" None "" = Err IndexError.
Proof. exists (EvalConfig [] [] false UnknownMethod ""), [(One [], 7); (Two [] [("age", VInt 5)], 8)]. split; [left; reflexivity|]. split; reflexivity. Qed.

Definition candidate_weighted (c : eval_config) : Prop :=
  exists before m after, e_models c = before ++ m :: after /\ Forall (fun b => m_is_baseline b = true) before /\ m_is_baseline m = false /\ m_weight_key m <> "".

Lemma C282_column_pf :
  forall c override, (override <> "" -> slicing_column c override = override) /\
    (override = "" -> candidate_weighted c -> slicing_column c override = match e_specs c with [] => "post_export_metrics/example_weight" | _ => "weighted_example_count" end) /\
    (override = "" -> ~ candidate_weighted c -> slicing_column c override = match e_specs c with [] => "post_export_metrics/example_count" | _ => "example_count" end).
Proof.
  intros c override. unfold slicing_column. split; [intros N; apply String.eqb_neq in N; rewrite N; reflexivity|].
  assert (B : match find (fun m => negb (m_is_baseline m)) (e_models c) with Some m => negb (String.eqb (m_weight_key m) "") | None => false end = true <-> candidate_weighted c).
  { unfold candidate_weighted. generalize (e_models c). intros l. induction l as [|x l IH]; cbn [find].
    - split; [discriminate|]. intros (b & m & a & E & _). destruct b; discriminate E.
    - destruct (m_is_baseline x) eqn:Bx; cbn [negb].
      + rewrite IH. split; intros (b & m & a & E & F & M & W).
        * exists (x :: b), m, a. split; [cbn; rewrite E; reflexivity|]. auto.
        * destruct b as [|x' b]; [cbn in E; injection E as -> _; congruence|]. cbn in E. injection E as -> E. inversion F; subst. exists b, m, a. auto.
      + rewrite negb_true_iff, String.eqb_neq. split.
        * intros W. exists [], x, l. auto.
        * intros (b & m & a & E & F & M & W). destruct b as [|x' b]; cbn in E; injection E as -> E; [exact W|]. inversion F; subst. congruence. }
  split; intros -> H; cbn [String.eqb negb].
  - apply B in H. rewrite H. destruct (e_specs c); reflexivity.
  - assert (F : match find (fun m => negb (m_is_baseline m)) (e_models c) with Some m => negb (String.eqb (m_weight_key m) "") | None => false end = false) by (apply not_true_is_false; intros T; apply H, B, T). rewrite F. destruct (e_specs c); reflexivity.
Qed.

Lemma C282_weights_by_output_refuted_pf :
  exists c m, e_models c = [m] /\ m_is_baseline m = false /\ m_weight_keys m <> [] /\ e_specs c <> [] /\ slicing_column c "" = "example_count".
Proof.
  eexists (EvalConfig [ModelSpec "" "" [] "" [] "" [("head", "w")] false ""] [_] false UnknownMethod ""). eexists. split; [reflexivity|]. split; [reflexivity|]. split; [discriminate|]. split; [discriminate|reflexivity].
  Unshelve. exact (MetricsSpec [] [] "" [] [] []).
Qed.

Definition asked_spec (asked : option slicing_spec) : slicing_spec := match asked with Some p => p | None => SlicingSpec [] [] end.

(** One and only one slice is the one asked for. *)

Definition only_slice {A} (p : slicing_spec) (results : list (any_key * A)) (key : skey) (d : A) : Prop :=
  exists before after, results = before ++ (One key, d) :: after /\ selected_by p (One key) /\ forall r, In r (before ++ after) -> ~ selected_by p (fst r).

Lemma spec_to_use_ok asked : (forall p, asked = Some p -> is_ok (mk_spec p) = true) -> exists sp, spec_to_use asked = Ok sp /\ mk_spec (asked_spec asked) = Ok sp.
Proof. destruct asked as [p|]; intros H; [|exists (Spec [] []); split; reflexivity]. specialize (H p eq_refl). cbn. destruct (mk_spec p) as [s|]; [exists s; auto|discriminate]. Qed.

Lemma filter_one {A} (f : A -> bool) b x a : f x = true -> (forall y, In y (b ++ a) -> f y = false) -> filter f (b ++ x :: a) = [x].
Proof.
  intros Fx H. assert (N : forall l, (forall y, In y l -> f y = false) -> filter f l = []).
  { induction l as [|y l IH]; intros Hl; [reflexivity|]. cbn [filter]. rewrite (Hl y (or_introl eq_refl)). apply IH. intros z I0. apply Hl. right. exact I0. }
  rewrite filter_app. cbn [filter]. rewrite Fx, (N b), (N a); [reflexivity| |]; intros y I0; apply H; apply in_or_app; auto.
Qed.

Lemma only_found {A} p sp (results : list (any_key * A)) key d : NoDup (map fst (sp_values p)) -> mk_spec p = Ok sp -> (forall r, In r results -> exists k, fst r = One k) ->
  only_slice p results key d -> find_all_slices results sp = Ok [(One key, d)].
Proof.
  intros N M H1 (before & after & E & S & O). rewrite (find_all_ones results sp H1). pose proof (chosen_slices results p sp N M H1) as C. f_equal. rewrite E. apply filter_one.
  - apply C; [rewrite E; apply in_or_app; right; left; reflexivity|exact S].
  - intros r I0. apply not_true_is_false. intros T. apply C in T; [apply (O r I0 T)|]. rewrite E. apply in_app_or in I0. apply in_or_app. cbn [In]. tauto.
Qed.

Lemma found_only {A} p sp (results : list (any_key * A)) r : NoDup (map fst (sp_values p)) -> mk_spec p = Ok sp -> (forall r, In r results -> exists k, fst r = One k) ->
  find_all_slices results sp = Ok [r] -> exists key, fst r = One key /\ only_slice p results key (snd r).
Proof.
  intros N M H1. rewrite (find_all_ones results sp H1). pose proof (chosen_slices results p sp N M H1) as C. intros [= F].
  assert (G : forall (f : any_key * A -> bool) (l : list (any_key * A)) x, filter f l = [x] -> exists b a, l = b ++ x :: a /\ f x = true /\ forall y, In y (b ++ a) -> f y = false).
  { clear. intros f. induction l as [|y l IH]; intros x E; [discriminate|]. cbn [filter] in E. destruct (f y) eqn:Fy.
    - injection E as -> E. exists [], l. split; [reflexivity|]. split; [exact Fy|]. cbn [app]. intros z I0. apply not_true_is_false. intros T. assert (I1 : In z (filter f l)) by (apply filter_In; auto). rewrite E in I1. exact I1.
    - destruct (IH x E) as (b & a & -> & Fx & O). exists (y :: b), a. split; [reflexivity|]. split; [exact Fx|]. intros z [<-|I0]; [exact Fy|apply O, I0]. }
  destruct (G _ _ _ F) as (b & a & E & Fx & O). assert (Ir : In r results) by (rewrite E; apply in_or_app; right; left; reflexivity). destruct (H1 r Ir) as (key & K). exists key. split; [exact K|]. exists b, a. split; [rewrite E; destruct r as [k d]; cbn [fst snd] in *; rewrite K; reflexivity|].
  split; [rewrite <- K; apply (C r Ir); exact Fx|]. intros y I0 S. assert (Iy : In y results) by (rewrite E; apply in_app_or in I0; apply in_or_app; cbn [In]; tauto). apply (C y Iy) in S. rewrite (O y I0) in S. discriminate.
Qed.

Definition supported_name (n : string) : Prop :=
  n = "calibrationHistogramBuckets" \/ n = "confusionMatrixAtThresholds" \/ n = "multiClassConfusionMatrixAtThresholds" \/ n = "multiLabelConfusionMatrixAtThresholds".

Definition at_most_one (class_id top_k k : option Z) : Prop :=
  match class_id, top_k, k with Some _, Some _, _ | Some _, _, Some _ | _, Some _, Some _ => False | _, _, _ => True end.

Lemma plot_sub_key_same class_id top_k k s : at_most_one class_id top_k k -> metrics_sub_key class_id k top_k = Ok s -> plot_sub_key class_id top_k k = Ok s.
Proof.
  destruct class_id as [c|], top_k as [t|], k as [q|]; cbn [at_most_one]; try contradiction; intros _; unfold metrics_sub_key, mk_sub_key, sub_key_text; cbn.
  - intros [= <-]. reflexivity.
  - destruct (Z.ltb_spec t 1); cbn; [discriminate|]. intros [= <-]. rewrite Z2Nat.id by lia. reflexivity.
  - destruct (Z.ltb_spec q 1); cbn; [discriminate|]. intros [= <-]. rewrite Z2Nat.id by lia. reflexivity.
  - intros [= <-]. reflexivity.
Qed.

Lemma supported_exists (d : list (string * json)) : existsb (fun kv => existsb (fun ns => String.eqb (fst ns) (fst kv)) supported_plots) d = true <-> exists n, In n (map fst d) /\ supported_name n.
Proof.
  rewrite existsb_exists. split.
  - intros ((n & j) & I0 & E). apply existsb_exists in E. destruct E as ((n' & s) & I1 & E). cbn [fst] in E. apply String.eqb_eq in E. subst n'. exists n. split; [apply in_map_iff; exists (n, j); auto|]. unfold supported_name. cbn in I1. intuition congruence.
  - intros (n & I0 & S). apply in_map_iff in I0. destruct I0 as ([n' j] & <- & I0). exists (n', j). split; [exact I0|]. cbn [fst] in *. apply existsb_exists. unfold supported_name in S. destruct S as [S|[S|[S|S]]]; rewrite S; [exists ("calibrationHistogramBuckets", "buckets")|exists ("confusionMatrixAtThresholds", "matrices")|exists ("multiClassConfusionMatrixAtThresholds", "matrices")|exists ("multiLabelConfusionMatrixAtThresholds", "matrices")]; (split; [cbn; tauto|reflexivity]).
Qed.

Lemma C283_plots_pf :
  forall float_repr results asked output class_id top_k k s key d subs plots,
    (forall r, In r results -> exists k, fst r = One k) -> NoDup (map fst (sp_values (asked_spec asked))) -> (forall p, asked = Some p -> is_ok (mk_spec p) = true) ->
    at_most_one class_id top_k k -> metrics_sub_key class_id k top_k = Ok s -> only_slice (asked_spec asked) results key d ->
    dget String.eqb d (match output with Some o => o | None => "" end) = Some subs -> dget String.eqb subs s = Some plots -> (exists n, In n (map fst plots) /\ supported_name n) ->
    render_plot float_repr results asked output class_id top_k k None =
      match replace_nan_with_none plots with Ok data => Ok (data, stringify_slice_key float_repr key) | Err e => Err e end.
Proof.
  intros fr results asked output class_id top_k k s key d subs plots H1 N HS A1 SK O G1 G2 SP. unfold render_plot. destruct (spec_to_use_ok asked HS) as (sp & -> & M). cbn [bind get_plot_data_and_config]. rewrite (plot_sub_key_same class_id top_k k s A1 SK). cbn [bind].
  rewrite (only_found (A := plots_view) (asked_spec asked) sp results key d N M H1 O). cbn [bind fst snd]. unfold sget. rewrite G1, G2. apply supported_exists in SP. rewrite SP. cbn [bind]. destruct (replace_nan_with_none plots); reflexivity.
Qed.

Lemma C283_refused_pf :
  forall float_repr results asked output class_id top_k k data name,
    (forall r, In r results -> exists k, fst r = One k) -> NoDup (map fst (sp_values (asked_spec asked))) ->
    render_plot float_repr results asked output class_id top_k k None = Ok (data, name) ->
    at_most_one class_id top_k k /\
    exists key d subs s plots, only_slice (asked_spec asked) results key d /\ name = stringify_slice_key float_repr key /\
      dget String.eqb d (match output with Some o => o | None => "" end) = Some subs /\ dget String.eqb subs s = Some plots /\
      (exists n, In n (map fst plots) /\ supported_name n) /\ replace_nan_with_none plots = Ok data /\
      match class_id, top_k, k with
      | None, None, None => s = ""
      | Some c, _, _ => s = ("classId:" ++ print_Z c)%string
      | _, Some t, _ => s = ("topK:" ++ print_Z t)%string
      | _, _, Some k => s = ("k:" ++ print_Z k)%string
      end.
Proof.
  intros fr results asked output class_id top_k k data name H1 N E. unfold render_plot in E. destruct (spec_to_use asked) as [sp|] eqn:SU; [|discriminate E]. cbn [bind] in E.
  assert (M : mk_spec (asked_spec asked) = Ok sp) by (destruct asked as [p|]; cbn in *; [exact SU|injection SU as <-; reflexivity]).
  cbn [get_plot_data_and_config] in E. destruct (plot_sub_key class_id top_k k) as [s|] eqn:PS; [|discriminate E]. cbn [bind] in E.
  destruct (find_all_slices results sp) as [l|] eqn:F; [|discriminate E]. cbn [bind] in E. destruct l as [|r [|? ?]]; try discriminate E.
  destruct (found_only (asked_spec asked) sp results r N M H1 F) as (key & K & O). unfold sget in E.
  destruct (dget String.eqb (snd r) match output with Some o => o | None => "" end) as [subs|] eqn:G1; [|discriminate E]. destruct (dget String.eqb subs s) as [plots|] eqn:G2; [|discriminate E].
  destruct (existsb _ plots) eqn:SP; [|discriminate E]. cbn [bind] in E. destruct (replace_nan_with_none plots) as [d'|] eqn:R; [|discriminate E]. cbn [bind] in E. injection E as <- <-.
  split; [destruct class_id, top_k, k; try discriminate PS; exact I|]. exists key, (snd r), subs, s, plots. split; [exact O|]. split; [rewrite K; reflexivity|]. split; [exact G1|]. split; [exact G2|]. split; [apply supported_exists, SP|]. split; [exact R|].
  destruct class_id, top_k, k; try discriminate PS; cbn in PS; injection PS as <-; reflexivity.
Qed.

Lemma C283_errors_pf :
  forall float_repr results asked output class_id top_k k e,
    (forall r, In r results -> exists k, fst r = One k) -> (forall p, asked = Some p -> is_ok (mk_spec p) = true) ->
    render_plot float_repr results asked output class_id top_k k None = Err e -> e = ValueError \/ exists plots, replace_nan_with_none plots = Err e.
Proof.
  intros fr results asked output class_id top_k k e H1 HS E. unfold render_plot in E. destruct (spec_to_use_ok asked HS) as (sp & SU & M). rewrite SU in E. cbn [bind get_plot_data_and_config] in E.
  destruct (plot_sub_key class_id top_k k) as [s|e'] eqn:PS; cbn [bind] in E; [|injection E as ->; left; destruct class_id, top_k, k; cbn in PS; congruence].
  rewrite (find_all_ones results sp H1) in E. cbn [bind] in E. destruct (filter _ results) as [|r [|? ?]]; try (left; congruence).
  destruct (sget (snd r) _) as [subs|]; [|left; congruence]. destruct (sget subs s) as [plots|]; [|left; congruence]. destruct (existsb _ plots); cbn [bind] in E; [|left; congruence].
  destruct (replace_nan_with_none plots) as [d|e'] eqn:R; cbn [bind] in E; [discriminate E|]. right. exists plots. congruence.
Qed.

Lemma C283_class_and_top_k_refuted_pf :
  exists results s d, metrics_sub_key (Some 1%Z) None (Some 2%Z) = Ok s /\ results = [(One [], [("", [(s, d)])])] /\ (exists n, In n (map fst d) /\ supported_name n) /\
    forall fr, render_plot fr results None None (Some 1%Z) (Some 2%Z) None None = Err ValueError.
Proof.
  eexists. eexists. exists [("confusionMatrixAtThresholds", JObj [])]. split; [reflexivity|]. split; [reflexivity|]. split; [exists "confusionMatrixAtThresholds"; split; [left; reflexivity|right; left; reflexivity]|]. reflexivity.
Qed.

(** An entry of a series and the same entry with null in place of NaN. *)

Definition nulled (a b : json) : Prop :=
  exists l l', a = JObj l /\ b = JObj l' /\
    Forall2 (fun x y => fst x = fst y /\ (snd x = JText "NaN" /\ snd y = JNull \/ snd x <> JText "NaN" /\ snd y = snd x)) l l'.

Definition series_of (n : string) : string := if String.eqb n "calibrationHistogramBuckets" then "buckets" else "matrices".

Definition shaped (d : list (string * json)) : Prop :=
  forall n, supported_name n -> dget String.eqb d n = None \/ exists p, dget String.eqb d n = Some (JObj p) /\
    (dget String.eqb p (series_of n) = None \/ exists es, dget String.eqb p (series_of n) = Some (JList es) /\ Forall (fun e => exists l, e = JObj l) es).

Lemma null_entry_spec a b : null_entry a = Ok b <-> nulled a b.
Proof.
  split.
  - destruct a; try discriminate. intros [= <-]. exists l. eexists. split; [reflexivity|]. split; [reflexivity|]. induction l as [|[n j] l IH]; cbn [map]; constructor; [|exact IH]. cbn [fst snd]. split; [reflexivity|].
    destruct j; cbn [null_nan]; try (right; split; [discriminate|reflexivity]). destruct (String.eqb_spec s "NaN") as [->|NE]; [left; auto|right; split; [congruence|reflexivity]].
  - intros (l & l' & -> & -> & F). cbn [null_entry]. f_equal. f_equal. induction F as [|[n x] [n' y] l l' (E1 & E2) F IH]; [reflexivity|]. cbn [map fst snd] in *. subst n'. rewrite IH. f_equal. f_equal.
    destruct E2 as [(-> & ->)|(NE & ->)]; [reflexivity|]. destruct x; try reflexivity. cbn [null_nan]. destruct (String.eqb_spec s "NaN") as [->|]; [congruence|reflexivity].
Qed.

Definition piece (d : list (string * json)) (ns : string * string) : res (list (string * json)) :=
  match sget d (fst ns) with
  | None => Ok []
  | Some (JObj p) =>
      match sget p (snd ns) with
      | None => Ok []
      | Some (JList es) => let! es' := mapM null_entry es in Ok [(fst ns, JObj [(snd ns, JList es')])]
      | Some _ => Err TypeError
      end
  | Some _ => Err TypeError
  end.

Lemma piece_keys d ns l : piece d ns = Ok l -> l = [] \/ exists j, l = [(fst ns, j)].
Proof.
  unfold piece. destruct (sget d (fst ns)) as [[| | | | |p]|]; try discriminate; [|intros [= <-]; auto]. destruct (sget p (snd ns)) as [[| | | |es|]|]; try discriminate; [|intros [= <-]; auto]. destruct (mapM null_entry es); [|discriminate]. cbn [bind]. intros [= <-]. right. eexists. reflexivity.
Qed.

Lemma replace_pieces d d' : replace_nan_with_none d = Ok d' -> NoDup (map fst d') /\
  forall n, supported_name n -> exists l, piece d (n, series_of n) = Ok l /\ dget String.eqb d' n = match l with [] => None | (_, j) :: _ => Some j end.
Proof.
  unfold replace_nan_with_none. change (fun ns : string * string => match sget d (fst ns) with None => Ok [] | Some (JObj p) => match sget p (snd ns) with None => Ok [] | Some (JList es) => let! es' := mapM null_entry es in Ok [(fst ns, JObj [(snd ns, JList es')])] | Some _ => Err TypeError end | Some _ => Err TypeError end) with (piece d).
  unfold supported_plots. cbn [mapM].
  destruct (piece d ("calibrationHistogramBuckets", "buckets")) as [l1|] eqn:P1; [|discriminate]. destruct (piece d ("confusionMatrixAtThresholds", "matrices")) as [l2|] eqn:P2; [|discriminate].
  destruct (piece d ("multiClassConfusionMatrixAtThresholds", "matrices")) as [l3|] eqn:P3; [|discriminate]. destruct (piece d ("multiLabelConfusionMatrixAtThresholds", "matrices")) as [l4|] eqn:P4; [|discriminate].
  cbn [bind concat app]. intros [= <-]. rewrite app_nil_r.
  pose proof (piece_keys _ _ _ P1) as K1. pose proof (piece_keys _ _ _ P2) as K2. pose proof (piece_keys _ _ _ P3) as K3. pose proof (piece_keys _ _ _ P4) as K4. cbn [fst] in *.
  split.
  - destruct K1 as [->|(j1 & ->)], K2 as [->|(j2 & ->)], K3 as [->|(j3 & ->)], K4 as [->|(j4 & ->)]; cbn [map app fst]; repeat (constructor; [cbn; intuition discriminate|]); constructor.
  - intros n S. assert (exists l, piece d (n, series_of n) = Ok l /\ (n = "calibrationHistogramBuckets" /\ l = l1 \/ n = "confusionMatrixAtThresholds" /\ l = l2 \/ n = "multiClassConfusionMatrixAtThresholds" /\ l = l3 \/ n = "multiLabelConfusionMatrixAtThresholds" /\ l = l4)) as (l & P & C).
    { destruct S as [S|[S|[S|S]]]; subst n; unfold series_of; cbn [String.eqb]; eexists; (split; [eassumption|tauto]). }
    exists l. split; [exact P|]. destruct C as [(-> & ->)|[(-> & ->)|[(-> & ->)|(-> & ->)]]]; destruct K1 as [->|(j1 & ->)], K2 as [->|(j2 & ->)], K3 as [->|(j3 & ->)], K4 as [->|(j4 & ->)]; reflexivity.
Qed.

Lemma C284_null_for_nan_pf :
  forall d d', replace_nan_with_none d = Ok d' -> NoDup (map fst d') /\
    (forall n, supported_name n -> forall p es, dget String.eqb d n = Some (JObj p) -> dget String.eqb p (series_of n) = Some (JList es) ->
       exists es', dget String.eqb d' n = Some (JObj [(series_of n, JList es')]) /\ Forall2 nulled es es') /\
    (forall n, supported_name n -> In n (map fst d') -> exists p es, dget String.eqb d n = Some (JObj p) /\ dget String.eqb p (series_of n) = Some (JList es)).
Proof.
  intros d d' E. destruct (replace_pieces d d' E) as [N H]. split; [exact N|]. split.
  - intros n S p es G1 G2. destruct (H n S) as (l & P & G). unfold piece, sget in P. cbn [fst snd] in P. rewrite G1, G2 in P. destruct (mapM null_entry es) as [es'|] eqn:M; [|discriminate P]. cbn [bind] in P. injection P as <-. exists es'. split; [exact G|].
    clear - M. revert es' M. induction es as [|e es IH]; intros es' M; cbn [mapM] in M; [injection M as <-; constructor|]. destruct (null_entry e) as [e'|] eqn:NE; [|discriminate M]. cbn [bind] in M. destruct (mapM null_entry es) as [l|] eqn:M'; [|discriminate M]. cbn [bind] in M. injection M as <-. constructor; [apply null_entry_spec, NE|apply IH; reflexivity].
  - intros n S I0. destruct (H n S) as (l & P & G). apply in_map_iff in I0. destruct I0 as ([n' j] & <- & I0). cbn [fst] in *. assert (G' : dget String.eqb d' n' = Some j) by (apply (dget_In_NoDup _ String.eqb_eq); assumption). rewrite G' in G.
    unfold piece, sget in P. cbn [fst snd] in P. destruct (dget String.eqb d n') as [[| | | | |p]|] eqn:G1; try discriminate P; [|injection P as <-; discriminate G]. destruct (dget String.eqb p (series_of n')) as [[| | | |es|]|] eqn:G2; try discriminate P; [|injection P as <-; discriminate G]. exists p, es. auto.
Qed.

Lemma C284_succeeds_pf : forall d, shaped d -> is_ok (replace_nan_with_none d) = true.
Proof.
  intros d H. assert (P : forall ns, In ns supported_plots -> is_ok (piece d ns) = true).
  { intros [n s] I0. assert (SN : supported_name n /\ s = series_of n).
    { cbn in I0. unfold supported_name, series_of. destruct I0 as [I0|[I0|[I0|[I0|[]]]]]; injection I0 as <- <-; cbn [String.eqb]; tauto. }
    destruct SN as [SN ->]. unfold piece, sget. cbn [fst snd]. destruct (H n SN) as [G|(p & G & [G2|(es & G2 & F)])]; rewrite G; try rewrite G2; try reflexivity.
    rewrite (mapM_all_ok _ (fun e => match e with JObj l => JObj (map (fun kv => (fst kv, null_nan (snd kv))) l) | _ => e end) es); [reflexivity|]. intros e Ie. rewrite Forall_forall in F. destruct (F e Ie) as (l & ->). reflexivity. }
  unfold replace_nan_with_none. change (fun ns : string * string => match sget d (fst ns) with None => Ok [] | Some (JObj p) => match sget p (snd ns) with None => Ok [] | Some (JList es) => let! es' := mapM null_entry es in Ok [(fst ns, JObj [(snd ns, JList es')])] | Some _ => Err TypeError end | Some _ => Err TypeError end) with (piece d).
  rewrite (mapM_all_ok _ (fun ns => match piece d ns with Ok l => l | Err _ => [] end) supported_plots); [reflexivity|]. intros ns I0. specialize (P ns I0). destruct (piece d ns); [reflexivity|discriminate].
Qed.

Lemma C284_nested_refuted_pf :
  exists d d', replace_nan_with_none d = Ok d' /\
    dget String.eqb d' "multiClassConfusionMatrixAtThresholds" = Some (JObj [("matrices", JList [JObj [("entries", JList [JObj [("numWeightedExamples", JText "NaN")]])]])]).
Proof. exists [("multiClassConfusionMatrixAtThresholds", JObj [("matrices", JList [JObj [("entries", JList [JObj [("numWeightedExamples", JText "NaN")]])]])])]. eexists. split; reflexivity. Qed.

Lemma prefix_iff l : forall k, String.prefix l k = true <-> exists b, k = (l ++ b)%string.
Proof.
  induction l as [|c l IH]; intros k; [split; [intros _; exists k; reflexivity|destruct k; reflexivity]|].
  destruct k as [|c' k]; [split; [discriminate|intros (b & H); discriminate H]|].
  change (String.prefix (String c l) (String c' k)) with (if ascii_dec c c' then String.prefix l k else false).
  destruct (ascii_dec c c') as [<-|N].
  - rewrite IH. cbn [String.append]. split; intros (b & H); exists b; [rewrite H; reflexivity|injection H as H; exact H].
  - split; [discriminate|]. intros (b & H). injection H as H _. congruence.
Qed.

Lemma occurs_iff l : forall k, occurs_in l k = true <-> exists a b, k = (a ++ l ++ b)%string.
Proof.
  induction k as [|c k IH]; cbn [occurs_in]; rewrite orb_true_iff, prefix_iff.
  - split; [intros [(b & H)|H]; [exists "", b; exact H|discriminate]|]. intros (a & b & H). left. destruct a as [|x a]; [exists b; exact H|discriminate H].
  - rewrite IH. split.
    + intros [(b & H)|(a & b & H)]; [exists "", b; exact H|exists (String c a), b; rewrite H; reflexivity].
    + intros (a & b & H). destruct a as [|x a]; [left; exists b; exact H|]. right. cbn [String.append] in H. injection H as _ H. exists a, b. exact H.
Qed.

Definition named {A} (label : string) (kv : string * A) : Prop := exists a b, fst kv = (a ++ label ++ b)%string.

Lemma labelled_none label d acc : (forall kv, In kv d -> ~ named label kv) ->
  foldM (fun acc kv => if occurs_in label (fst kv) then match acc with [] => match snd kv with JObj p => Ok p | _ => Err TypeError end | _ => Err ValueError end else Ok acc) d acc = Ok acc.
Proof.
  induction d as [|kv d IH]; intros H; [reflexivity|]. cbn [foldM]. replace (occurs_in label (fst kv)) with false; [cbn [bind]; apply IH; intros x I0; apply H; right; exact I0|].
  symmetry. apply not_true_is_false. intros T. apply occurs_iff in T. apply (H kv (or_introl eq_refl)). exact T.
Qed.

(** The one slice asked for, and its plots without output and sub key. *)

Definition labelled_plots (asked : option slicing_spec) (results : list (any_key * plots_view)) (key : skey) (plots : list (string * json)) : Prop :=
  exists d subs, (forall r, In r results -> exists k, fst r = One k) /\ NoDup (map fst (sp_values (asked_spec asked))) /\ (forall p, asked = Some p -> is_ok (mk_spec p) = true) /\
    only_slice (asked_spec asked) results key d /\ dget String.eqb d "" = Some subs /\ dget String.eqb subs "" = Some plots.

Lemma render_label fr results asked key plots label : labelled_plots asked results key plots ->
  render_plot fr results asked None None None None (Some label) =
    let! d := labelled label plots in let! d := replace_nan_with_none d in Ok (d, stringify_slice_key fr key).
Proof.
  intros (d & subs & H1 & N & HS & O & G1 & G2). unfold render_plot. destruct (spec_to_use_ok asked HS) as (sp & -> & M). cbn [bind get_plot_data_and_config plot_sub_key].
  rewrite (only_found (A := plots_view) (asked_spec asked) sp results key d N M H1 O). cbn [bind fst snd]. unfold sget. rewrite G1, G2. reflexivity.
Qed.

Lemma C285_label_pf :
  forall float_repr results asked key plots label before n p after,
    labelled_plots asked results key plots -> plots = before ++ (n, JObj p) :: after -> p <> [] -> named label (n, p) -> (forall kv, In kv (before ++ after) -> ~ named label kv) ->
    render_plot float_repr results asked None None None None (Some label) =
      match replace_nan_with_none p with Ok data => Ok (data, stringify_slice_key float_repr key) | Err e => Err e end.
Proof.
  intros fr results asked key plots label before n p after L -> NP NM H. rewrite (render_label _ _ _ _ _ _ L). unfold labelled.
  rewrite foldM_app, labelled_none by (intros kv I0; apply H; apply in_or_app; auto). cbn [bind foldM fst snd]. assert (T : occurs_in label n = true) by (apply occurs_iff; exact NM). rewrite T. cbn [bind]. rewrite labelled_none by (intros kv I0; apply H; apply in_or_app; auto).
  cbn [bind]. destruct p as [|x p]; [contradiction|]. cbn [bind]. destruct (replace_nan_with_none (x :: p)); reflexivity.
Qed.

Lemma C285_label_refused_pf :
  forall float_repr results asked key plots label, labelled_plots asked results key plots -> (forall kv, In kv plots -> exists p, snd kv = JObj p /\ p <> []) ->
    ((forall kv, In kv plots -> ~ named label kv) \/
     exists before x between y after, plots = before ++ x :: between ++ y :: after /\ named label x /\ named label y) ->
    render_plot float_repr results asked None None None None (Some label) = Err ValueError.
Proof.
  intros fr results asked key plots label L HO H. rewrite (render_label _ _ _ _ _ _ L). unfold labelled. destruct H as [H|(before & x & between & y & after & E & Nx & Ny)].
  - rewrite labelled_none by exact H. reflexivity.
  - set (f := fun acc kv => if occurs_in label (fst kv) then match acc with [] => match snd kv with JObj p => Ok p | _ => Err TypeError end | _ => Err ValueError end else Ok acc).
    assert (B : forall l acc, acc <> [] -> (exists kv, In kv l /\ named label kv) -> foldM f l acc = Err ValueError).
    { induction l as [|kv l IH]; intros acc NA (z & I0 & Nz); [destruct I0|]. cbn [foldM]. destruct (occurs_in label (fst kv)) eqn:T; unfold f at 1; rewrite T.
      - destruct acc; [contradiction|reflexivity].
      - cbn [bind]. apply IH; [exact NA|]. destruct I0 as [->|I0]; [|exists z; auto]. exfalso. apply occurs_iff in Nz. congruence. }
    assert (S : foldM f plots [] = Err ValueError).
    { assert (G : forall l, (forall kv, In kv l -> exists p, snd kv = JObj p /\ p <> []) -> (exists b x m y a, l = b ++ x :: m ++ y :: a /\ named label x /\ named label y) -> foldM f l [] = Err ValueError).
      { induction l as [|kv l IH]; intros HL (b & x' & m & y' & a & E' & N1 & N2); [destruct b; discriminate E'|]. destruct b as [|w b]; cbn [app] in E'; injection E' as -> E'.
        - cbn [foldM]. unfold f at 1. assert (T : occurs_in label (fst x') = true) by (apply occurs_iff; exact N1). rewrite T. destruct (HL x' (or_introl eq_refl)) as (p & -> & NP). cbn [bind]. apply B; [exact NP|]. exists y'. split; [rewrite E'; apply in_or_app; right; left; reflexivity|exact N2].
        - cbn [foldM]. destruct (occurs_in label (fst w)) eqn:T; unfold f at 1; rewrite T.
          + destruct (HL w (or_introl eq_refl)) as (p & -> & NP). cbn [bind]. apply B; [exact NP|]. exists x'. split; [rewrite E'; apply in_or_app; right; left; reflexivity|exact N1].
          + cbn [bind]. apply IH; [intros z I0; apply HL; right; exact I0|]. exists b, x', m, y', a. auto. }
      apply G; [exact HO|]. exists before, x, between, y, after. auto. }
    rewrite S. reflexivity.
Qed.

Lemma C285_label_alone_pf :
  forall float_repr results asked output class_id top_k k label, (forall p, asked = Some p -> is_ok (mk_spec p) = true) ->
    ~ (output = None /\ class_id = None /\ top_k = None /\ k = None) ->
    render_plot float_repr results asked output class_id top_k k (Some label) = Err ValueError.
Proof.
  intros fr results asked output class_id top_k k label HS N. unfold render_plot. destruct (spec_to_use_ok asked HS) as (sp & -> & _). cbn [bind get_plot_data_and_config]. destruct output, class_id, top_k, k; try reflexivity. destruct N. auto.
Qed.

Lemma C285_empty_refuted_pf :
  exists results label n1 n2 p data, results = [(One [], [("", [("", [(n1, JObj []); (n2, JObj p)])])])] /\ n1 <> n2 /\ named label (n1, p) /\ named label (n2, p) /\
    forall fr, render_plot fr results None None None None None (Some label) = Ok (data, "Overall").
Proof.
  eexists. exists "auc", "auc", "auc_plots", [("confusionMatrixAtThresholds", JObj [("matrices", JList [])])]. eexists. split; [reflexivity|]. split; [discriminate|]. split; [exists "", ""; reflexivity|]. split; [exists "", "_plots"; reflexivity|]. reflexivity.
Qed.

(** The attributions of one metric, or of the only one. *)

Definition of_metric {A} (metric : string) (d : list (string * A)) (x : A) : Prop :=
  (metric <> "" -> dget String.eqb d metric = Some x) /\ (metric = "" -> exists n, d = [(n, x)]).

Lemma pick_iff {A} metric (d : list (string * A)) x : pick metric d = Ok x <-> of_metric metric d x.
Proof.
  unfold pick, of_metric, sget. destruct (String.eqb_spec metric "") as [->|N]; cbn [negb].
  - split; [intros H; split; [congruence|]; intros _|intros [_ H]; destruct (H eq_refl) as (n & ->); reflexivity]. destruct d as [|[n y] [|? ?]]; try discriminate H. injection H as ->. exists n. reflexivity.
  - split; [intros H; split; [intros _|congruence]|intros [H _]; rewrite (H N); reflexivity]. destruct (dget String.eqb d metric); [congruence|discriminate H].
Qed.

Lemma pick_err {A} metric (d : list (string * A)) e : pick metric d = Err e -> e = ValueError.
Proof. unfold pick. destruct (negb _); [destruct (sget d metric)|destruct d as [|[? ?] [|? ?]]]; congruence. Qed.

Lemma mapM_pair_iff {K X Y} (f : X -> res Y) (P : X -> Y -> Prop) : (forall x y, f x = Ok y <-> P x y) ->
  forall (l : list (K * X)) l', mapM (fun kx => let! y := f (snd kx) in Ok (fst kx, y)) l = Ok l' <-> Forall2 (fun a b => fst a = fst b /\ P (snd a) (snd b)) l l'.
Proof.
  intros H. induction l as [|[k x] l IH]; intros l'; cbn [mapM fst snd].
  - split; [intros [= <-]; constructor|intros F; inversion F; reflexivity].
  - destruct (f x) as [y|e] eqn:E; cbn [bind].
    + destruct (mapM _ l) as [r|e]; cbn [bind].
      * split; [intros [= <-]; constructor; [split; [reflexivity|apply H; exact E]|apply IH; reflexivity]|]. intros F. inversion F as [|? [k' y'] ? ? [E1 E2] F']; subst. cbn [fst snd] in *. apply H in E2. rewrite E2 in E. injection E as <-. apply IH in F'. injection F' as ->. subst. reflexivity.
      * split; [discriminate|]. intros F. inversion F as [|? ? ? ? _ F']; subst. apply IH in F'. discriminate F'.
    + split; [discriminate|]. intros F. inversion F as [|? ? ? ? [_ E2] _]; subst. cbn [snd] in E2. apply H in E2. congruence.
Qed.

Lemma mapM_pair_err {K X Y} (f : X -> res Y) e0 : (forall x e, f x = Err e -> e = e0) -> forall (l : list (K * X)) e, mapM (fun kx => let! y := f (snd kx) in Ok (fst kx, y)) l = Err e -> e = e0.
Proof.
  intros H. induction l as [|[k x] l IH]; intros e E; [discriminate E|]. cbn [mapM fst snd] in E. destruct (f x) as [y|e'] eqn:F; cbn [bind] in E; [|injection E as <-; apply (H x), F]. destruct (mapM _ l) as [r|e']; cbn [bind] in E; [discriminate E|]. injection E as ->. apply IH. reflexivity.
Qed.

Definition of_metric_all {A} (metric : string) (d : nested A) (l : list (string * list (string * A))) : Prop :=
  Forall2 (fun o o' => fst o = fst o' /\ Forall2 (fun s s' => fst s = fst s' /\ of_metric metric (snd s) (snd s')) (snd o) (snd o')) d l.

Lemma pick_all_iff {A} metric (d : nested A) l : pick_all metric d = Ok l <-> of_metric_all metric d l.
Proof. unfold pick_all, of_metric_all. apply (mapM_pair_iff (fun x => mapM (fun s => let! x := pick metric (snd s) in Ok (fst s, x)) x)). intros x y. apply (mapM_pair_iff (pick metric)). apply pick_iff. Qed.

Lemma C286_attributions_pf :
  forall (A : Type) float_repr c (results : list (any_key * nested A)) column asked metric weighted l w,
    render_slicing_attributions float_repr c results column asked metric weighted = Ok (l, w) <->
    exists shown, render_slicing_metrics float_repr c results column asked weighted = Ok (shown, w) /\
      Forall2 (fun a b => fst a = fst b /\ of_metric_all metric (snd a) (snd b)) shown l.
Proof.
  intros A fr c results column asked metric weighted l w. unfold render_slicing_attributions, render_slicing_metrics. destruct (spec_of asked) as [sp|e]; cbn [bind]; [|split; [discriminate|intros (s & E & _); discriminate E]].
  destruct (get_slicing_metrics results column sp) as [data|e]; cbn [bind]; [|split; [discriminate|intros (s & E & _); discriminate E]].
  assert (Q : mapM (fun r => let! d := pick_all metric (snd r) in Ok (any_text fr (fst r), d)) data = mapM (fun r => let! d := pick_all metric (snd r) in Ok (fst r, d)) (map (fun r => (any_text fr (fst r), snd r)) data)) by (rewrite mapM_map; reflexivity).
  rewrite Q. set (shown := map (fun r => (any_text fr (fst r), snd r)) data). pose proof (mapM_pair_iff (pick_all metric) (of_metric_all metric) (pick_all_iff metric) shown) as PI. destruct (mapM _ shown) as [l'|e]; cbn [bind].
  - split; [intros [= -> <-]; exists shown; split; [reflexivity|apply PI; reflexivity]|]. intros (s & [= <- ->] & F). apply PI in F. injection F as ->. reflexivity.
  - split; [discriminate|]. intros (s & E & F). injection E as <- _. apply PI in F. discriminate F.
Qed.

Lemma C286_refused_pf :
  forall (A : Type) float_repr c (results : list (any_key * nested A)) column asked metric weighted shown w text d o subs s ms,
    render_slicing_metrics float_repr c results column asked weighted = Ok (shown, w) -> In (text, d) shown -> In (o, subs) d -> In (s, ms) subs -> (forall x, ~ of_metric metric ms x) ->
    render_slicing_attributions float_repr c results column asked metric weighted = Err ValueError.
Proof.
  intros A fr c results column asked metric weighted shown w text d o subs s ms R I1 I2 I3 N.
  destruct (render_slicing_attributions fr c results column asked metric weighted) as [[l w']|e] eqn:E.
  - exfalso. apply C286_attributions_pf in E. destruct E as (shown' & R' & F). rewrite R in R'. injection R' as <- <-.
    assert (G : forall (X Y : Type) (P : X -> Y -> Prop) l l', Forall2 P l l' -> forall x, In x l -> exists y, P x y) by (clear; intros X Y P l l' F; induction F as [|a b l l' H F IH]; intros x I0; [destruct I0|]; destruct I0 as [<-|I0]; [exists b; exact H|apply IH, I0]).
    destruct (G _ _ _ _ _ F _ I1) as (b & _ & F1). destruct (G _ _ _ _ _ F1 _ I2) as (b2 & _ & F2). destruct (G _ _ _ _ _ F2 _ I3) as (b3 & _ & F3). apply (N _ F3).
  - f_equal. unfold render_slicing_attributions in E. unfold render_slicing_metrics in R. destruct (spec_of asked) as [sp|]; [|discriminate R]. cbn [bind] in *. destruct (get_slicing_metrics results column sp) as [data|]; [|discriminate R]. cbn [bind] in *.
    destruct (mapM _ data) as [l|e'] eqn:M; cbn [bind] in E; [discriminate E|]. injection E as <-.
    assert (Q : mapM (fun r => let! d := pick_all metric (snd r) in Ok (any_text fr (fst r), d)) data = mapM (fun r => let! d := pick_all metric (snd r) in Ok (fst r, d)) (map (fun r => (any_text fr (fst r), snd r)) data)) by (rewrite mapM_map; reflexivity).
    rewrite Q in M. revert M. apply (mapM_pair_err (pick_all metric) ValueError). intros x e M. revert M. apply (mapM_pair_err (fun x => mapM (fun s => let! x := pick metric (snd s) in Ok (fst s, x)) x) ValueError). intros y e2 M. revert M. apply (mapM_pair_err (pick metric) ValueError). intros z e3. apply pick_err.
Qed.

Lemma same_entry_sym a b : same_entry a b -> same_entry b a.
Proof. intros [E [H|(q & H1 & H2)]]; split; auto; [left; auto|right; exists q; auto]. Qed.

Lemma same_key_sym k : forall k', same_key k k' -> same_key k' k.
Proof. induction k as [|x k IH]; intros k' H; inversion H; subst; constructor; [apply same_entry_sym; assumption|apply IH; assumption]. Qed.

Lemma same_slice_sym a b : same_slice a b -> same_slice b a.
Proof. destruct a, b; cbn; try tauto; [apply same_key_sym|intros [H1 H2]; split; apply same_key_sym; assumption]. Qed.

Lemma any_key_eqb_same a b : any_key_eqb a b = true <-> same_slice a b.
Proof. destruct a, b; cbn; try (split; [discriminate|tauto]); [apply key_eqb_same|rewrite andb_true_iff, !key_eqb_same; tauto]. Qed.

Lemma dset_new {K A} (eqb : K -> K -> bool) (d : list (K * A)) k v : (forall kv, In kv d -> eqb k (fst kv) = false) -> dset eqb d k v = d ++ [(k, v)].
Proof.
  induction d as [|[k' v'] d IH]; intros H; [reflexivity|]. cbn [dset app]. pose proof (H (k', v') (or_introl eq_refl)) as E. cbn [fst] in E. rewrite E, IH; [reflexivity|]. intros kv I0. apply H. right. exact I0.
Qed.

Lemma all_at_once {K X Y} (eqb : K -> K -> bool) (f : X -> res Y) :
  forall l acc, ForallOrdPairs (fun a b => eqb (fst b) (fst a) = false) l -> (forall a b, In a acc -> In b l -> eqb (fst b) (fst a) = false) ->
  foldM (fun acc m => let! y := f (snd m) in Ok (dset eqb acc (fst m) y)) l acc = let! r := mapM (fun m => let! y := f (snd m) in Ok (fst m, y)) l in Ok (acc ++ r).
Proof.
  induction l as [|[k x] l IH]; intros acc F H; cbn [foldM mapM fst snd bind]; [rewrite app_nil_r; reflexivity|]. inversion F as [|? ? F1 F2]; subst. destruct (f x) as [y|e]; cbn [bind]; [|reflexivity].
  rewrite dset_new by (intros kv I0; apply (H kv (k, x) I0); left; reflexivity). rewrite IH; [|exact F2|].
  - destruct (mapM _ l) as [r|e]; cbn [bind]; [rewrite <- app_assoc; reflexivity|reflexivity].
  - intros a b Ia Ib. apply in_app_or in Ia. destruct Ia as [Ia|[<-|[]]]; [apply H; [exact Ia|right; exact Ib]|]. rewrite Forall_forall in F1. apply (F1 b Ib).
Qed.

Lemma find_own {K X} (same : K -> K -> bool) (l : list (K * X)) : (forall k, same k k = true) -> ForallOrdPairs (fun a b => same (fst a) (fst b) = false) l ->
  forall m, In m l -> find (fun x => same (fst x) (fst m)) l = Some m.
Proof.
  intros R. induction l as [|x l IH]; intros F m I0; [destruct I0|]. inversion F as [|? ? F1 F2]; subst. cbn [find]. destruct I0 as [->|I0]; [rewrite R; reflexivity|]. rewrite Forall_forall in F1. rewrite (F1 m I0). apply IH; assumption.
Qed.

Lemma pairs_impl {X} (P Q : X -> X -> Prop) l : (forall a b, P a b -> Q a b) -> ForallOrdPairs P l -> ForallOrdPairs Q l.
Proof. intros H F. induction F as [|a l F1 F2 IH]; constructor; [eapply Forall_impl; [|exact F1]; apply H|exact IH]. Qed.

Lemma Forall2_impl_In {X Y} (P Q : X -> Y -> Prop) l : forall l', (forall a b, In a l -> P a b -> Q a b) -> Forall2 P l l' -> Forall2 Q l l'.
Proof. induction l as [|a l IH]; intros l' H F; inversion F; subst; constructor; [apply H; [left; reflexivity|assumption]|]. apply IH; [|assumption]. intros x0 y0 I0. apply H. right. exact I0. Qed.

Lemma fold_ext {S X} (f g : S -> X -> res S) : (forall a x, f a x = g a x) -> forall l a, foldM f l a = foldM g l a.
Proof. intros H. induction l as [|x l IH]; intros a; [reflexivity|]. cbn [foldM]. rewrite H. destruct (g a x); cbn [bind]; [apply IH|reflexivity]. Qed.

Lemma bind_assoc {X Y W} (a : res X) (b : X -> res Y) (c : Y -> res W) : (let! y := (let! x := a in b x) in c y) = (let! x := a in let! y := b x in c y).
Proof. destruct a; reflexivity. Qed.

Lemma C287_attributions_pf :
  forall r metric output class_id k top_k l, er_attributions r <> [] -> ForallOrdPairs (fun a b => ~ same_key (fst a) (fst b)) (er_attributions r) ->
    (get_attributions_for_all_slices r metric output class_id k top_k = Ok l <->
     Forall2 (fun m kv => fst m = fst kv /\ get_attributions_for_slice r (fst m) metric output class_id k top_k = Ok (Some (snd kv))) (er_attributions r) l).
Proof.
  intros r metric output class_id k top_k l NE F. unfold get_attributions_for_all_slices, get_attributions_for_slice. destruct (attributions_sub_key class_id k top_k) as [sub|e]; cbn [bind].
  - set (f := fun (d : option (nested (list (string * pb_value)))) => let! x := index2 d output sub in pick_attributions x metric).
    transitivity (mapM (fun m => let! y := f (snd m) in Ok (fst m, y)) (er_attributions r) = Ok l).
    + replace (foldM _ (er_attributions r) []) with (foldM (fun acc m => let! y := f (snd m) in Ok (dset key_eqb acc (fst m) y)) (er_attributions r) []).
      * rewrite (all_at_once key_eqb f); [destruct (mapM _ _); cbn; split; congruence| |intros a b []]. revert F. apply pairs_impl. intros a b N. apply not_true_is_false. intros T. apply key_eqb_same, same_key_sym in T. contradiction.
      * apply fold_ext. intros acc m. apply bind_assoc.
    + rewrite (mapM_pair_iff f (fun x y => f x = Ok y)) by tauto.
      assert (D : ForallOrdPairs (fun a b => equals_slice_name (One (fst a)) (One (fst b)) = false) (er_attributions r)).
      { revert F. apply pairs_impl. intros a b N. apply not_true_is_false. intros T. apply equals_slice_iff in T. apply N, T. }
      assert (Fo := find_own (fun a b => equals_slice_name (One a) (One b)) (er_attributions r) (fun k => proj2 (equals_slice_iff (One k) (One k)) (same_slice_refl (One k))) D).
      split; apply Forall2_impl_In; intros a b Ia [E H]; (split; [exact E|]); unfold f in *.
      * cbv beta in Fo. rewrite (Fo a Ia). unfold nested in *. destruct (index2 (snd a) output sub) as [x|]; cbn [bind] in *; [|discriminate H]. rewrite H. reflexivity.
      * cbv beta in Fo. rewrite (Fo a Ia) in H. unfold nested in *. destruct (index2 (snd a) output sub) as [x|]; cbn [bind] in *; [|discriminate H]. destruct (pick_attributions x metric); cbn [bind] in *; congruence.
  - split; [discriminate|]. intros H. destruct (er_attributions r); [contradiction|]. inversion H as [|? ? ? ? [_ E] _]. discriminate E.
Qed.

Lemma C287_metrics_pf :
  forall r output class_id k top_k l, er_metrics r <> [] -> ForallOrdPairs (fun a b => ~ same_slice (fst a) (fst b)) (er_metrics r) ->
    (get_metrics_for_all_slices r output class_id k top_k = Ok l <->
     Forall2 (fun m kv => fst m = fst kv /\ get_metrics_for_slice r (fst m) output class_id k top_k = Ok (Some (snd kv))) (er_metrics r) l).
Proof.
  intros r output class_id k top_k l NE F. unfold get_metrics_for_all_slices, get_metrics_for_slice. destruct (metrics_sub_key class_id k top_k) as [sub|e]; cbn [bind].
  - rewrite (all_at_once any_key_eqb (fun d => index2 d output sub)); [| |intros a b []].
    + transitivity (mapM (fun m => let! y := index2 (snd m) output sub in Ok (fst m, y)) (er_metrics r) = Ok l); [destruct (mapM _ _); cbn; split; congruence|].
      rewrite (mapM_pair_iff (fun d => index2 d output sub) (fun x y => index2 x output sub = Ok y)) by tauto.
      assert (D : ForallOrdPairs (fun a b => equals_slice_name (fst a) (fst b) = false) (er_metrics r)).
      { revert F. apply pairs_impl. intros a b N. apply not_true_is_false. intros T. apply equals_slice_iff in T. apply N, T. }
      assert (Fo := find_own equals_slice_name (er_metrics r) (fun k => proj2 (equals_slice_iff k k) (same_slice_refl k)) D).
      split; apply Forall2_impl_In; intros a b Ia [E H]; (split; [exact E|]).
      * rewrite (Fo a Ia). unfold nested in *. destruct (index2 (snd a) output sub) as [x|]; cbn [bind] in *; [congruence|discriminate H].
      * rewrite (Fo a Ia) in H. unfold nested in *. destruct (index2 (snd a) output sub); cbn [bind] in H; congruence.
    + revert F. apply pairs_impl. intros a b N. apply not_true_is_false. intros T. apply any_key_eqb_same, same_slice_sym in T. contradiction.
  - split; [discriminate|]. intros H. destruct (er_metrics r); [contradiction|]. inversion H as [|? ? ? ? [_ E] _]. discriminate E.
Qed.

Lemma C287_slice_names_pf :
  forall r name output, (exists n, In n (get_slice_names r) /\ same_slice n name) <-> get_metrics_for_slice r name output None None None <> Ok None.
Proof.
  intros r name output. unfold get_slice_names, get_metrics_for_slice. cbn [metrics_sub_key bind]. destruct (find _ (er_metrics r)) as [m|] eqn:Fd.
  - apply find_some in Fd. destruct Fd as [I0 E]. apply equals_slice_iff in E. split; [intros _|intros _; exists (fst m); split; [apply in_map; exact I0|exact E]]. destruct (index2 _ _ _); cbn [bind]; congruence.
  - split; [|congruence]. intros (n & I0 & S). apply in_map_iff in I0. destruct I0 as (m & <- & I0). apply (find_none _ _ Fd) in I0. apply equals_slice_iff in S. congruence.
Qed.

(** No slash in a text; what a path is shown as *)

Definition plain (s : string) : Prop := ~ In "/"%char (list_ascii_of_string s).

Definition identifies (full : bool) (path id : string) : Prop :=
  if full then id = path else plain id /\ exists dir, path = (dir ++ id)%string /\ (dir = "" \/ exists d, dir = (d ++ "/")%string).

Lemma has_slash_iff s : has_slash s = true <-> In "/"%char (list_ascii_of_string s).
Proof.
  induction s as [|c s IH]; cbn [has_slash list_ascii_of_string In]; [split; [discriminate|tauto]|]. rewrite orb_true_iff, IH, Ascii.eqb_eq. tauto.
Qed.

Lemma identifier_ok full path : identifies full path (get_identifier path full).
Proof.
  unfold identifies, get_identifier. destruct full; [reflexivity|]. induction path as [|c r IH]; cbn [basename]; [split; [intros []|exists ""; auto]|].
  destruct (has_slash r) eqn:S.
  - destruct IH as (P & dir & E & H). split; [exact P|]. exists (String c dir). cbn [String.append]. split; [congruence|]. right. destruct H as [->|(d & ->)].
    + exfalso. cbn [String.append] in E. apply P. rewrite <- E. apply has_slash_iff, S.
    + exists (String c d). reflexivity.
  - assert (P : plain r) by (intros I0; apply has_slash_iff in I0; congruence). destruct (Ascii.eqb_spec c "/") as [->|N].
    + split; [exact P|]. exists "/". split; [reflexivity|]. right. exists "". reflexivity.
    + split; [|exists ""; auto]. intros [E|I0]; [congruence|apply P, I0].
Qed.

Lemma identifies_unique full path a b : identifies full path a -> identifies full path b -> a = b.
Proof.
  unfold identifies. destruct full; [congruence|]. intros (Pa & da & Ea & Ha) (Pb & db & Eb & Hb). rewrite Ea in Eb. clear Ea path. revert db Eb Hb. induction da as [|c da IH]; intros db E Hb; cbn [String.append] in E.
  - destruct Hb as [->|(d & ->)]; [exact E|]. exfalso. apply Pa. rewrite E. rewrite append_assoc. rewrite chars_app. apply in_or_app. right. left. reflexivity.
  - destruct db as [|c' db]; cbn [String.append] in E.
    + exfalso. apply Pb. rewrite <- E. destruct Ha as [H|(d & H)]; [discriminate H|]. change (String c (da ++ a)) with (String c da ++ a)%string. rewrite H, append_assoc, chars_app. apply in_or_app. right. left. reflexivity.
    + injection E as <- E. apply (IH) with (db := db); [|exact E|].
      * destruct Ha as [H|(d & H)]; [discriminate H|]. destruct d as [|x d]; cbn [String.append] in H; injection H as _ H; [left; exact H|right; exists d; exact H].
      * destruct Hb as [H|(d & H)]; [discriminate H|]. destruct d as [|x d]; cbn [String.append] in H; injection H as _ H; [left; exact H|right; exists d; exact H].
Qed.

(** A point of the series *)

Definition point {A} (full : bool) (r : A * (string * string)) (shown : A * (string * string)) : Prop :=
  fst shown = fst r /\ identifies full (fst (snd r)) (fst (snd shown)) /\ identifies full (snd (snd r)) (snd (snd shown)).

Lemma C288_time_series_partial_pf :
  forall (A : Type) mode (runs : list (list (any_key * A) * (string * string))) asked full,
    (forall run r, In run runs -> In r (fst run) -> exists k, fst r = One k) -> NoDup (map fst (sp_values (asked_spec asked))) -> (forall p, asked = Some p -> is_ok (mk_spec p) = true) ->
    exists choose, (forall run r, In run runs -> In r (fst run) -> (choose r = true <-> selected_by (asked_spec asked) (fst r))) /\
      (mode <> "data_centric_mode" -> mode <> "model_centric_mode" -> render_time_series mode runs asked full = Err ValueError) /\
      ((exists run, In run runs /\ 2 <= length (filter choose (fst run))) -> render_time_series mode runs asked full = Err ValueError) /\
      ((forall run, In run runs -> filter choose (fst run) = []) -> render_time_series mode runs asked full = Err ValueError) /\
      ((forall run, In run runs -> length (filter choose (fst run)) <= 1) -> (exists run, In run runs /\ filter choose (fst run) <> []) ->
       mode = "data_centric_mode" \/ mode = "model_centric_mode" ->
       exists data b, render_time_series mode runs asked full = Ok (data, b) /\ (b = true <-> mode = "model_centric_mode") /\
         Forall2 (point full) (flat_map (fun run => map (fun r => (snd r, snd run)) (filter choose (fst run))) runs) data).
Proof.
  intros A mode runs asked full H1 N HS. unfold render_time_series. destruct (spec_to_use_ok asked HS) as (sp & -> & M). cbn [bind].
  set (runs' := map (fun r => (fst r, (get_identifier (fst (snd r)) full, get_identifier (snd (snd r)) full))) runs).
  destruct (C122_time_series_partial_pf A (string * string) runs' (asked_spec asked) sp) as (choose & Hc & T1 & T2 & T3); [|exact N|exact M|].
  { intros run r I0. unfold runs' in I0. apply in_map_iff in I0. destruct I0 as (x & <- & I0). cbn [fst]. apply H1, I0. }
  exists choose. split; [|split; [|split; [|split]]].
  - intros run r I0 I1. apply (Hc (fst run, (get_identifier (fst (snd run)) full, get_identifier (snd (snd run)) full))); [apply (in_map (fun r => (fst r, (get_identifier (fst (snd r)) full, get_identifier (snd (snd r)) full)))), I0|exact I1].
  - intros N1 N2. unfold mk_mode. apply String.eqb_neq in N1, N2. rewrite N1, N2. reflexivity.
  - intros (run & I0 & L). rewrite T1; [unfold mk_mode; destruct (String.eqb _ _); [reflexivity|destruct (String.eqb _ _); reflexivity]|]. eexists. split; [apply (in_map (fun r => (fst r, (get_identifier (fst (snd r)) full, get_identifier (snd (snd r)) full)))), I0|exact L].
  - intros L. rewrite T2; [unfold mk_mode; destruct (String.eqb _ _); [reflexivity|destruct (String.eqb _ _); reflexivity]|]. intros run I0. apply in_map_iff in I0. destruct I0 as (x & <- & I0). exact (L x I0).
  - intros L (run & I0 & NE) MD. rewrite T3; [| |eexists; split; [apply (in_map (fun r => (fst r, (get_identifier (fst (snd r)) full, get_identifier (snd (snd r)) full)))), I0|exact NE]].
    + cbn [bind]. eexists. exists (String.eqb mode "model_centric_mode"). split; [destruct MD as [-> | ->]; reflexivity|]. split; [apply String.eqb_eq|]. unfold runs'. clear. induction runs as [|run runs IH]; cbn [map flat_map]; [constructor|]. apply Forall2_app; [|exact IH]. cbn [fst snd]. induction (filter choose (fst run)) as [|r l IHl]; cbn [map]; constructor; [|exact IHl]. split; [reflexivity|]. split; apply identifier_ok.
    + intros x Ix. apply in_map_iff in Ix. destruct Ix as (y & <- & Iy). exact (L y Iy).
Qed.

Lemma C288_identifier_pf :
  forall full path id, identifies full path id <-> get_identifier path full = id.
Proof. intros full path id. split; [intros H; apply (identifies_unique full path); [apply identifier_ok|exact H]|intros <-; apply identifier_ok]. Qed.

Lemma C288_same_identifier_refuted_pf :
  exists p1 p2 p3 id, p1 <> p2 /\ get_identifier p1 false = id /\ get_identifier p2 false = id /\ id <> "" /\ p3 <> "" /\ get_identifier p3 false = "".
Proof. exists "/models/a/1", "/models/b/1", "/models/a/", "1". repeat split; discriminate. Qed.

(** base64 read back (RFC 4648): the number of a symbol, and the bytes of four symbols *)

Definition digit (c : ascii) : option nat :=
  let n := nat_of_ascii c in
  if (Nat.leb 65 n && Nat.leb n 90)%bool then Some (n - 65) else if (Nat.leb 97 n && Nat.leb n 122)%bool then Some (n - 71)
  else if (Nat.leb 48 n && Nat.leb n 57)%bool then Some (n + 4) else if Nat.eqb n 43 then Some 62 else if Nat.eqb n 47 then Some 63 else None.

Inductive decoded : list ascii -> list ascii -> Prop :=
| decoded_nil : decoded [] []
| decoded_one c1 c2 a b x : digit c1 = Some a -> digit c2 = Some b -> a * 64 + b = x * 16 -> decoded [c1; c2; "="%char; "="%char] [ascii_of_nat x]
| decoded_two c1 c2 c3 a b c x y : digit c1 = Some a -> digit c2 = Some b -> digit c3 = Some c -> (a * 64 + b) * 64 + c = (x * 256 + y) * 4 -> x < 256 -> y < 256 ->
    decoded [c1; c2; c3; "="%char] [ascii_of_nat x; ascii_of_nat y]
| decoded_three c1 c2 c3 c4 a b c d x y z l m : digit c1 = Some a -> digit c2 = Some b -> digit c3 = Some c -> digit c4 = Some d ->
    ((a * 64 + b) * 64 + c) * 64 + d = (x * 256 + y) * 256 + z -> x < 256 -> y < 256 -> z < 256 -> decoded l m -> decoded (c1 :: c2 :: c3 :: c4 :: l) (ascii_of_nat x :: ascii_of_nat y :: ascii_of_nat z :: m).

Lemma digit_symbol i : i < 64 -> digit (symbol i) = Some i.
Proof. intros H. do 64 (destruct i as [|i]; [reflexivity|]). lia. Qed.

Lemma encode_decoded : forall n l, length l <= n -> decoded (encode l) l.
Proof.
  induction n as [|n IH]; intros l H; [destruct l; [constructor|cbn in H; lia]|]. destruct l as [|a [|b [|c l]]]; [constructor| | |].
  - pose proof (nat_ascii_bounded a) as Ba. cbn [encode]. rewrite <- (ascii_nat_embedding a) at 3. pose proof (Nat.div_mod (nat_of_ascii a) 4 ltac:(lia)). pose proof (Nat.mod_upper_bound (nat_of_ascii a) 4 ltac:(lia)).
    eapply decoded_one; [apply digit_symbol; lia|apply digit_symbol; lia|lia].
  - pose proof (nat_ascii_bounded a) as Ba. pose proof (nat_ascii_bounded b) as Bb. cbn [encode]. rewrite <- (ascii_nat_embedding a) at 3. rewrite <- (ascii_nat_embedding b) at 3.
    pose proof (Nat.div_mod (nat_of_ascii a) 4 ltac:(lia)). pose proof (Nat.mod_upper_bound (nat_of_ascii a) 4 ltac:(lia)). pose proof (Nat.div_mod (nat_of_ascii b) 16 ltac:(lia)). pose proof (Nat.mod_upper_bound (nat_of_ascii b) 16 ltac:(lia)).
    eapply decoded_two; [apply digit_symbol; lia|apply digit_symbol; lia|apply digit_symbol; lia|lia|exact Ba|exact Bb].
  - pose proof (nat_ascii_bounded a) as Ba. pose proof (nat_ascii_bounded b) as Bb. pose proof (nat_ascii_bounded c) as Bc. cbn [encode].
    pose proof (Nat.div_mod (nat_of_ascii a) 4 ltac:(lia)). pose proof (Nat.mod_upper_bound (nat_of_ascii a) 4 ltac:(lia)). pose proof (Nat.div_mod (nat_of_ascii b) 16 ltac:(lia)). pose proof (Nat.mod_upper_bound (nat_of_ascii b) 16 ltac:(lia)).
    pose proof (Nat.div_mod (nat_of_ascii c) 64 ltac:(lia)). pose proof (Nat.mod_upper_bound (nat_of_ascii c) 64 ltac:(lia)).
    rewrite <- (ascii_nat_embedding a) at 3. rewrite <- (ascii_nat_embedding b) at 3. rewrite <- (ascii_nat_embedding c) at 3.
    eapply decoded_three; [apply digit_symbol; lia|apply digit_symbol; lia|apply digit_symbol; lia|apply digit_symbol; lia|lia|exact Ba|exact Bb|exact Bc|]. apply IH. cbn [length] in H. lia.
Qed.

Lemma decoded_safe l m : decoded l m -> forall c, In c l -> digit c <> None \/ c = "="%char.
Proof.
  intros D. induction D; intros c0 I0; cbn [In] in I0; repeat (destruct I0 as [<-|I0]; [try (right; reflexivity); left; congruence|]); try destruct I0. apply IHD, I0.
Qed.

Lemma C289_page_pf :
  forall count component trusted_html handlers, In component component_names ->
    exists before after st, forall json, exists payload,
      generate_html_for_tfma_component count component json trusted_html handlers = Ok ((before ++ "JSON.parse(atob('" ++ payload ++ "'));" ++ after)%string, st) /\
      decoded (list_ascii_of_string payload) (list_ascii_of_string json) /\
      (forall c, In c (list_ascii_of_string payload) -> digit c <> None \/ c = "="%char).
Proof.
  intros count component trusted handlers I0. unfold generate_html_for_tfma_component. assert (T : memb String.eqb component component_names = true) by (apply (memb_In _ String.eqb_eq), I0). rewrite T.
  set (js := make_trusted_event_handler_js count handlers). exists ("
    " ++ trusted ++ "
    <" ++ component ++ " id=""component""></" ++ component ++ ">
    <script>
    const element = document.getElementById('component');

    " ++ fst js ++ "

    const json = ")%string, ("
    element.config = json.config;
    element.data = json.data;
    </script>
    ")%string, (snd js). intros json. exists (b64encode json). split; [rewrite !append_assoc; reflexivity|].
  assert (D : decoded (list_ascii_of_string (b64encode json)) (list_ascii_of_string json)) by (unfold b64encode; rewrite list_ascii_of_string_of_list_ascii; apply (encode_decoded (length (list_ascii_of_string json))); lia). split; [exact D|apply (decoded_safe _ _ D)].
Qed.

Lemma C289_known_pf :
  forall count component json trusted_html handlers, component <> "tfma-nb-slicing-metrics" -> component <> "tfma-nb-time-series" -> component <> "tfma-nb-plot" ->
    generate_html_for_tfma_component count component json trusted_html handlers = Err ValueError.
Proof.
  intros count component json trusted handlers N1 N2 N3. unfold generate_html_for_tfma_component. replace (memb String.eqb component component_names) with false; [reflexivity|]. symmetry. apply (memb_nIn _ String.eqb_eq). intros [E|[E|[E|[]]]]; congruence.
Qed.

Definition handled (x : string * (string * (string * list string))) : bool := match snd (snd (snd x)) with [] => false | _ => true end.

Lemma js_cases count hs : make_trusted_event_handler_js count hs = match hs with [] => ("/** No event handlers needed. */", (count, [])) | _ =>
   (fst (make_trusted_event_handler_js count hs), (S count, [(("tfma_eventCallback" ++ print_Z (Z.of_nat count))%string, hs)])) end.
Proof. destruct hs; reflexivity. Qed.

Definition callback (i : nat) : string := ("tfma_eventCallback" ++ print_Z (Z.of_nat i))%string.

Lemma callback_inj i j : callback i = callback j -> i = j.
Proof. unfold callback. intros H. apply append_inj_l in H. apply (f_equal dval) in H. rewrite !dval_print_Z in H. lia. Qed.

Definition called_from (n : nat) (l : list (string * (string * (string * list string)))) : list (string * list string) :=
  map (fun ih => (callback (fst ih), snd ih)) (combine (seq n (length (filter handled l))) (map (fun x => snd (snd (snd x))) (filter handled l))).

Lemma render_from : forall l htmls n cbs r, 
  foldM (fun acc x => let! h := generate_html_for_tfma_component (fst (snd acc)) (fst x) (fst (snd x)) (fst (snd (snd x))) (snd (snd (snd x))) in
      Ok (fst acc ++ [fst h], (fst (snd h), snd (snd acc) ++ snd (snd h)))) l (htmls, (n, cbs)) = Ok r ->
  snd (snd r) = cbs ++ called_from n l /\ fst (snd r) = n + length (filter handled l) /\ length (fst r) = length htmls + length l.
Proof.
  induction l as [|x l IH]; intros htmls n cbs r H; cbn [foldM] in H.
  - injection H as <-. cbn. rewrite app_nil_r. split; [reflexivity|lia].
  - unfold generate_html_for_tfma_component in H at 1. destruct (memb _ _ _); cbn [bind fst snd] in H; [|discriminate H]. apply IH in H. destruct H as (E1 & E2 & E3). rewrite app_length in E3. cbn [length] in E3 |- *. rewrite E1, E2, E3. clear. unfold called_from. rewrite js_cases. cbn [filter].
    destruct (handled x) eqn:Hx; unfold handled in Hx; destruct (snd (snd (snd x))) as [|h hs] eqn:E; try discriminate Hx; cbn [fst snd length map seq combine]; rewrite ?E, <- ?app_assoc; cbn [app]; (split; [reflexivity|]); split; lia.
Qed.

Lemma C289_callbacks_pf :
  forall pages htmls n callbacks, render_all pages = Ok (htmls, (n, callbacks)) ->
    length htmls = length pages /\ NoDup (map fst callbacks) /\
    map snd callbacks = filter (fun hs => match hs with [] => false | _ => true end) (map (fun x => snd (snd (snd x))) pages).
Proof.
  intros pages htmls n callbacks H. unfold render_all in H. apply render_from in H. cbn [fst snd length app] in H. destruct H as (-> & _ & ->). split; [reflexivity|]. unfold called_from. rewrite !map_map. cbn [fst snd].
  assert (G : forall (X : Type) (a : list nat) (b : list X), length a = length b -> map fst (combine a b) = a /\ map snd (combine a b) = b).
  { clear. intros X. induction a as [|x a IH]; intros [|y b] L; try discriminate L; [split; reflexivity|]. cbn [combine map fst snd]. destruct (IH b) as [-> ->]; [injection L as L; exact L|]. split; reflexivity. }
  destruct (G _ (seq 0 (length (filter handled pages))) (map (fun x => snd (snd (snd x))) (filter handled pages))) as [E1 E2]; [rewrite seq_length, map_length; reflexivity|]. split.
  - rewrite <- (map_map fst callback), E1. apply FinFun.Injective_map_NoDup; [exact callback_inj|apply seq_NoDup].
  - change (map (fun x => snd x) ?l) with (map snd l). rewrite E2. clear. induction pages as [|x l IH]; [reflexivity|]. cbn [filter map]. unfold handled at 1. destruct (snd (snd (snd x))) eqn:E; cbn [map]; rewrite ?E, IH; reflexivity.
Qed.

Lemma C289_events_pf :
  forall count component json trusted_html handlers html st, handlers <> [] -> generate_html_for_tfma_component count component json trusted_html handlers = Ok (html, st) ->
    exists name before after, st = (S count, [(name, handlers)]) /\ html = (before ++ "invokeFunction(
                '" ++ name ++ "', [], {" ++ after)%string.
Proof.
  intros count component json trusted handlers html st N H. unfold generate_html_for_tfma_component in H. destruct (memb _ _ _); [|discriminate H]. destruct handlers as [|h hs]; [contradiction|]. cbn [make_trusted_event_handler_js fst snd] in H. injection H as <- <-. exists (callback count).
  exists ("
    " ++ trusted ++ "
    <" ++ component ++ " id=""component""></" ++ component ++ ">
    <script>
    const element = document.getElementById('component');

    " ++ "
          element.addEventListener('tfma-event', (event) => {
            google.colab.kernel.")%string. eexists. split; [reflexivity|]. rewrite !append_assoc. cbn [String.append]. reflexivity.
Qed.
