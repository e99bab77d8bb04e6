(* Proofs of the theorems restated in Workers_Properties.v. *)
From Coq Require Import String Ascii Permutation.
From Verif Require Import Base BaseFacts Util_Model Config_Model Batches_Model Extract_Model Specs_Model Setup_Main Plots_Main Workers_Model.
Local Open Scope string_scope.
Local Open Scope list_scope.

(* C308 - C311: metrics and models on workers, and names of metrics. *)

(** Parts of a name have no slash. *)

Definition no_slash (s : string) : Prop := ~ In "/"%char (list_ascii_of_string s).

Lemma string_app_nil s : (s ++ "")%string = s.
Proof. induction s; cbn [append]; congruence. Qed.

Lemma string_app_assoc a b c : ((a ++ b) ++ c)%string = (a ++ b ++ c)%string.
Proof. induction a; cbn [append]; congruence. Qed.

Lemma split_nonempty sep s : exists w ws, split_at sep s = w :: ws.
Proof.
  induction s as [|c t [w [ws IH]]]; cbn [split_at]; [eauto|].
  rewrite IH; destruct (Ascii.eqb c sep); eauto.
Qed.

Lemma split_plain sep s : ~ In sep (list_ascii_of_string s) -> split_at sep s = [s].
Proof.
  induction s as [|c t IH]; intro N; cbn [split_at]; [reflexivity|].
  rewrite IH by (intro H; apply N; right; exact H).
  destruct (Ascii.eqb c sep) eqn:E; [|reflexivity]. apply Ascii.eqb_eq in E; subst; exfalso; apply N; left; reflexivity.
Qed.

Lemma split_slash sep a b : split_at sep (a ++ String sep b) = split_at sep a ++ split_at sep b.
Proof.
  induction a as [|c t IH]; cbn [append split_at].
  - destruct (split_nonempty sep b) as [w [ws E]]; rewrite E, Ascii.eqb_refl; reflexivity.
  - rewrite IH; destruct (split_nonempty sep t) as [w [ws E]]; rewrite E; cbn [app].
    destruct (Ascii.eqb c sep); reflexivity.
Qed.

Lemma concat_cons a b l : String.concat "/" (a :: b :: l) = (a ++ String "/" (String.concat "/" (b :: l)))%string.
Proof. reflexivity. Qed.

Lemma split_parts l : l <> [] -> Forall no_slash l -> split_at "/" (String.concat "/" l) = l.
Proof.
  induction l as [|a l IH]; [congruence|]; intros _ F; inversion F as [|? ? Ha Hl]; subst.
  destruct l as [|b l]; [apply split_plain, Ha|].
  rewrite concat_cons, split_slash, (split_plain _ _ Ha), IH by (congruence || assumption); reflexivity.
Qed.

Lemma parts_split s : String.concat "/" (split_at "/" s) = s.
Proof.
  induction s as [|c t IH]; [reflexivity|]; cbn [split_at].
  destruct (split_nonempty "/" t) as [w [ws E]]; rewrite E in IH |- *.
  destruct (Ascii.eqb c "/") eqn:EC.
  - apply Ascii.eqb_eq in EC; subst c; rewrite concat_cons, IH; reflexivity.
  - destruct ws as [|v ws]; [cbn in *; congruence|]. rewrite concat_cons in *; cbn [append]; congruence.
Qed.

Lemma split_no_slash s : Forall no_slash (split_at "/" s).
Proof.
  induction s as [|c t IH]; cbn [split_at]; [constructor; [intros []|constructor]|].
  destruct (split_nonempty "/" t) as [w [ws E]]; rewrite E in IH |- *; inversion IH as [|? ? Hw Hws]; subst.
  destruct (Ascii.eqb c "/") eqn:EC; constructor; auto.
  - intros [].
  - intros [H|H]; [|exact (Hw H)]. subst; rewrite Ascii.eqb_refl in EC; congruence.
Qed.

Lemma C310_after_first_part_pf : forall first rest tag, no_slash first -> Forall no_slash rest ->
  tagged_key (String.concat "/" (first :: rest)) tag = String.concat "/" (first :: tag :: rest).
Proof.
  intros first rest tag Hf Hr; unfold tagged_key; rewrite split_parts by (congruence || (constructor; assumption)).
  destruct rest as [|r rest]; [reflexivity|]. reflexivity.
Qed.

Lemma tagged_split key tag first rest : split_at "/" key = first :: rest -> split_at "/" (tagged_key key tag) = first :: split_at "/" tag ++ rest.
Proof.
  intro E. pose proof (split_no_slash key) as F; rewrite E in F; inversion F as [|? ? Hf Hr]; subst.
  rewrite <- (parts_split key), E, C310_after_first_part_pf by assumption.
  rewrite concat_cons, split_slash, (split_plain _ _ Hf).
  cbn [app]; f_equal. destruct rest as [|r rest]; [rewrite app_nil_r; reflexivity|].
  rewrite concat_cons, split_slash, split_parts by (congruence || assumption); reflexivity.
Qed.

Lemma C310_distinct_keys_pf : forall k1 k2 tag, tagged_key k1 tag = tagged_key k2 tag -> k1 = k2.
Proof.
  intros k1 k2 tag E.
  destruct (split_nonempty "/" k1) as [a [r E1]], (split_nonempty "/" k2) as [b [s E2]].
  pose proof (f_equal (split_at "/") E) as H; rewrite (tagged_split _ _ _ _ E1), (tagged_split _ _ _ _ E2) in H.
  injection H as -> H; apply app_inv_head in H; subst.
  rewrite <- (parts_split k1), <- (parts_split k2), E1, E2; reflexivity.
Qed.

Lemma C310_distinct_tags_partial_pf : forall k1 k2 t1 t2, no_slash t1 -> no_slash t2 ->
  tagged_key k1 t1 = tagged_key k2 t2 -> k1 = k2 /\ t1 = t2.
Proof.
  intros k1 k2 t1 t2 N1 N2 E.
  destruct (split_nonempty "/" k1) as [a [r E1]], (split_nonempty "/" k2) as [b [s E2]].
  pose proof (f_equal (split_at "/") E) as H; rewrite (tagged_split _ _ _ _ E1), (tagged_split _ _ _ _ E2) in H.
  rewrite (split_plain _ _ N1), (split_plain _ _ N2) in H; cbn [app] in H; injection H as -> -> ->.
  split; [|reflexivity]. rewrite <- (parts_split k1), <- (parts_split k2), E1, E2; reflexivity.
Qed.

Lemma C310_distinct_tags_refuted_pf : exists k1 k2 t1 t2, k1 <> k2 /\ t1 <> t2 /\ tagged_key k1 t1 = tagged_key k2 t2.
Proof. exists "a/c", "a", "b", "b/c"; repeat split; discriminate. Qed.

(** C311: keys of plots are the four names of plots, under any prefix. *)

Definition plot_names : list string :=
  ["calibration_plot/matrices"; "calibration_plot/boundaries"; "auc_plots/matrices"; "auc_plots/thresholds"].

Definition plot_under (key : string) : Prop := exists name, In name plot_names /\ (key = name \/ exists prefix, key = (prefix ++ "/" ++ name)%string).

Lemma ends_app s t : ends_with s (t ++ s) = true.
Proof.
  induction t as [|c t IH]; cbn [append].
  - destruct s; cbn [ends_with]; rewrite String.eqb_refl; reflexivity.
  - cbn [ends_with]; rewrite IH; apply orb_true_r.
Qed.

Lemma ends_inv s k : ends_with s k = true -> exists t, k = (t ++ s)%string.
Proof.
  induction k as [|c k IH]; cbn [ends_with]; intro H; apply orb_true_iff in H; destruct H as [H|H].
  - exists ""; apply String.eqb_eq in H; exact H.
  - discriminate.
  - exists ""; apply String.eqb_eq in H; exact H.
  - destruct (IH H) as [t ->]; exists (String c t); reflexivity.
Qed.

Lemma plot_key_app name t : In name plot_names -> is_plot_key (t ++ name) = true.
Proof. intro H; apply existsb_exists; exists name; split; [exact H|apply ends_app]. Qed.

Lemma C311_plots_partial_pf : forall key, plot_under key -> is_plot_key key = true.
Proof.
  intros key [name [H [->|[prefix ->]]]].
  - apply (plot_key_app name "" H).
  - rewrite <- string_app_assoc; apply plot_key_app, H.
Qed.

Lemma C311_plots_refuted_pf : exists key, is_plot_key key = true /\ ~ plot_under key.
Proof.
  exists "post_export_metrics/my_auc_plots/matrices"; split; [reflexivity|].
  intros [name [H P]]. assert (N : no_slash "" ) by (intros []).
  assert (E : exists pre, "post_export_metrics/my_auc_plots/matrices" = (pre ++ String "/" name)%string).
  { destruct P as [<-|[prefix P]]; [|exists prefix; exact P]. cbn in H; destruct H as [H|[H|[H|[H|[]]]]]; discriminate H. }
  destruct E as [pre E]. apply (f_equal (split_at "/")) in E; rewrite split_slash in E; cbn in E.
  assert (S : exists a b, split_at "/" name = [a; b] /\ a <> "my_auc_plots").
  { cbn in H; destruct H as [<-|[<-|[<-|[<-|[]]]]]; cbn; eexists; eexists; (split; [reflexivity|discriminate]). }
  destruct S as [a [b [S NE]]]; rewrite S in E.
  destruct (split_at "/" pre) as [|w [|v [|u ws]]]; cbn in E; try discriminate; injection E; intros; subst; try congruence.
  destruct ws; discriminate.
Qed.

Lemma C311_tags_and_bounds_partial_pf : forall key name prefix tag, In name plot_names ->
  is_plot_key (tagged_key (prefix ++ "/" ++ name) tag) = true /\ is_plot_key (upper_bound_key key) = false /\ is_plot_key (lower_bound_key key) = false.
Proof.
  intros key name prefix tag H.
  assert (B : forall suffix, no_slash suffix -> suffix <> "matrices" -> suffix <> "boundaries" -> suffix <> "thresholds" ->
              is_plot_key (key ++ String "/" suffix) = false).
  { intros suffix N D1 D2 D3. destruct (is_plot_key (key ++ String "/" suffix)) eqn:E; [|reflexivity]; exfalso.
    apply existsb_exists in E; destruct E as [p [P E]]; apply ends_inv in E; destruct E as [t E].
    assert (S : exists a b, p = (a ++ String "/" b)%string /\ no_slash b /\ In b ["matrices"; "boundaries"; "thresholds"]).
    { assert (Q : forall b, In b ["matrices"; "boundaries"; "thresholds"] -> no_slash b).
      { intros b Hb; cbn in Hb; destruct Hb as [<-|[<-|[<-|[]]]]; unfold no_slash; cbn; intuition discriminate. }
      cbn in P; destruct P as [<-|[<-|[<-|[<-|[]]]]].
      - exists "calibration_plot", "matrices"; split; [reflexivity|split; [apply Q|]; cbn; tauto].
      - exists "calibration_plot", "boundaries"; split; [reflexivity|split; [apply Q|]; cbn; tauto].
      - exists "auc_plots", "matrices"; split; [reflexivity|split; [apply Q|]; cbn; tauto].
      - exists "auc_plots", "thresholds"; split; [reflexivity|split; [apply Q|]; cbn; tauto]. }
    destruct S as [a [b [-> [Nb Ib]]]]. rewrite <- string_app_assoc in E.
    apply (f_equal (split_at "/")) in E; rewrite !split_slash, (split_plain _ _ N), (split_plain _ _ Nb) in E.
    apply app_inj_tail in E; destruct E as [_ ->]. cbn in Ib; intuition congruence. }
  split; [|split].
  - destruct (split_nonempty "/" prefix) as [w [ws E]].
    assert (E' : split_at "/" (prefix ++ String "/" name) = w :: ws ++ split_at "/" name) by (rewrite split_slash, E; reflexivity).
    pose proof (split_no_slash (prefix ++ String "/" name)) as F; rewrite E' in F; inversion F as [|? ? Hf Hr]; subst.
    assert (K : exists t, tagged_key (prefix ++ "/" ++ name) tag = (t ++ name)%string).
    { change (prefix ++ "/" ++ name)%string with (prefix ++ String "/" name)%string.
      rewrite <- (parts_split (prefix ++ String "/" name)), E', C310_after_first_part_pf by assumption.
      assert (L : forall l, exists t, String.concat "/" (w :: tag :: l ++ split_at "/" name) = (t ++ name)%string).
      { intro l. assert (G : forall l x, exists t, String.concat "/" ((x :: l) ++ split_at "/" name) = (t ++ name)%string).
        { clear; induction l as [|y l IH]; intro x; cbn [app].
          - pose proof (parts_split name) as Q; destruct (split_nonempty "/" name) as [a [r R]]; rewrite R in Q |- *.
            rewrite concat_cons, Q; exists (x ++ "/")%string; rewrite string_app_assoc; reflexivity.
          - destruct (IH y) as [t T]; cbn [app] in T; rewrite concat_cons, T; exists (x ++ String "/" t)%string; rewrite string_app_assoc; reflexivity. }
        destruct (G (tag :: l) w) as [t T]; cbn [app] in T; exists t; exact T. }
      apply L. }
    destruct K as [t ->]; apply plot_key_app, H.
  - apply B; try discriminate; unfold no_slash; cbn; intuition discriminate.
  - apply B; try discriminate; unfold no_slash; cbn; intuition discriminate.
Qed.

Lemma C311_tags_refuted_pf : exists name tag, In name plot_names /\ is_plot_key name = true /\ is_plot_key (tagged_key name tag) = false.
Proof. exists "auc_plots/matrices", "head"; split; [cbn; tauto|split; reflexivity]. Qed.

(** The path of the model a name stands for: a model alone has any name. *)

Definition offers (shared : shared_models) (name path : string) : Prop :=
  match shared with
  | NoModel => False
  | OneModel m | ModelList [m] | ModelDict [(_, m)] => path = sm_path m
  | ModelList l => exists m, In m l /\ sm_name m = name /\ sm_path m = path
  | ModelDict l => exists k m, In (k, m) l /\ ((sm_name m <> "" /\ sm_name m = name) \/ (sm_name m = "" /\ k = name)) /\ sm_path m = path
  end.

Definition one_path (shared : shared_models) : Prop := forall name p q, offers shared name p -> offers shared name q -> p = q.

(** The signature run: that of the spec, else predict if the saved model has it, else serving_default. *)

Definition signature_run (graphs : list (list (string * unit))) (given run : string) : Prop :=
  (given <> "" /\ run = given) \/
  (given = "" /\ (exists g u, In g graphs /\ In ("predict", u) g) /\ run = "predict") \/
  (given = "" /\ (forall g u, In g graphs -> ~ In ("predict", u) g) /\ run = "serving_default").

Lemma find_both {A} (f : A -> bool) l k : find f (l ++ k) = match find f l with Some x => Some x | None => find f k end.
Proof. induction l as [|a l IH]; cbn [app find]; [reflexivity|]; destruct (f a); auto. Qed.

Lemma by_name_get l : forall d name, dget String.eqb (fold_left (fun d m => dset String.eqb d (sm_name m) m) l d) name =
  match find (fun m => String.eqb (sm_name m) name) (rev l) with Some m => Some m | None => dget String.eqb d name end.
Proof.
  induction l as [|a l IH]; intros d name; cbn [fold_left rev find]; [reflexivity|].
  rewrite IH, find_both; destruct (find _ (rev l)); [reflexivity|]. cbn [find].
  destruct (String.eqb (sm_name a) name) eqn:E.
  - apply String.eqb_eq in E; subst; apply (dget_dset_eq String.eqb String.eqb_eq).
  - rewrite (dget_dset_neq String.eqb String.eqb_eq); [reflexivity|]. intro H; rewrite H, String.eqb_refl in E; discriminate E.
Qed.

Lemma by_name_found l name m : dget String.eqb (by_name l) name = Some m -> In m l /\ sm_name m = name.
Proof.
  unfold by_name; rewrite by_name_get; destruct (find _ (rev l)) as [x|] eqn:F; [|discriminate].
  intro E; injection E as ->. apply find_some in F; destruct F as [I E]; apply in_rev in I; apply String.eqb_eq in E; auto.
Qed.

Lemma by_name_finds l m : In m l -> exists m', dget String.eqb (by_name l) (sm_name m) = Some m'.
Proof.
  intro I; unfold by_name; rewrite by_name_get; destruct (find _ (rev l)) as [x|] eqn:F; [eauto|].
  apply in_rev in I; pose proof (find_none _ _ F _ I) as N; cbn beta in N; rewrite String.eqb_refl in N; discriminate.
Qed.

(** The models of several *)

Lemma several_get l name m : forallb (fun m => set_str (sm_name m)) l = true ->
  get_eval_shared_model name (by_name l) = Ok m -> In m l /\ sm_name m = name.
Proof.
  intros S; unfold get_eval_shared_model. destruct (dget String.eqb (by_name l) name) as [x|] eqn:E.
  - intro H; injection H as ->; apply by_name_found, E.
  - destruct (by_name l) as [|[k x] [|? ?]] eqn:B; try discriminate.
    destruct (String.eqb k "") eqn:K; [|discriminate]; intros _; exfalso.
    apply String.eqb_eq in K; subst.
    assert (G : dget String.eqb (by_name l) "" = Some x) by (rewrite B; cbn [dget]; rewrite String.eqb_refl; reflexivity).
    apply by_name_found in G; destruct G as [I N]. rewrite forallb_forall in S; specialize (S _ I); rewrite N in S; discriminate S.
Qed.

Lemma model_list_offers shared l : model_list shared = Ok l -> (2 <= length l)%nat -> forallb (fun m => set_str (sm_name m)) l = true ->
  forall name path, offers shared name path <-> exists m, In m l /\ sm_name m = name /\ sm_path m = path.
Proof.
  destruct shared as [|m|ms|d]; cbn [model_list offers]; intros E L S name path.
  - injection E as <-; cbn in L; lia.
  - injection E as <-; cbn in L; lia.
  - injection E as <-; destruct ms as [|? [|? ?]]; cbn in L; try lia; reflexivity.
  - rewrite forallb_forall in S.
    assert (R : Forall2 (fun (kv : string * shared_model) m => sm_path m = sm_path (snd kv) /\
               sm_name m = if set_str (sm_name (snd kv)) then sm_name (snd kv) else fst kv) d l).
    { clear L S; revert l E; induction d as [|[k v] d IH]; cbn [mapM]; intros l E.
      - injection E as <-; constructor.
      - destruct (set_str (sm_name v) && set_str k && negb (String.eqb k (sm_name v))); [discriminate|]. cbn [bind] in E.
        apply bind_ok in E; destruct E as [t [E1 E2]]; injection E2 as <-; constructor; [|apply IH, E1].
        cbn [fst snd]. destruct (set_str (sm_name v)) eqn:SV; cbn [negb andb]; [auto|].
        destruct (set_str k) eqn:SK; cbn [with_name sm_path sm_name]; [auto|].
        split; [reflexivity|]. unfold set_str in SV, SK; apply negb_false_iff in SV, SK; apply String.eqb_eq in SV, SK; congruence. }
    assert (O : (exists k m, In (k, m) d /\ ((sm_name m <> "" /\ sm_name m = name) \/ (sm_name m = "" /\ k = name)) /\ sm_path m = path)
                <-> exists m, In m l /\ sm_name m = name /\ sm_path m = path).
    { assert (SS : forall s, set_str s = true <-> s <> "").
      { intro s; unfold set_str; rewrite negb_true_iff; split; [intros H ->; discriminate H|intro N; apply String.eqb_neq, N]. }
      split.
      - intros [k [m [I [N P]]]]. clear E L S. induction R as [|[k' v] y d l [Rp Rn] R IH]; [destruct I|].
        destruct I as [I|I].
        + injection I as -> ->; cbn [fst snd] in *. exists y; split; [left; reflexivity|]. split; [|congruence].
          rewrite Rn; destruct (set_str (sm_name m)) eqn:Sm.
          * apply SS in Sm; destruct N as [[_ N]|[N _]]; congruence.
          * destruct N as [[N _]|[_ N]]; [apply SS in N; congruence|exact N].
        + destruct (IH I) as [y' [I' Q]]; exists y'; split; [right; exact I'|exact Q].
      - intros [y [I [N P]]]. specialize (S y I). clear E L. induction R as [|[k' v] y' d l [Rp Rn] R IH]; [destruct I|].
        destruct I as [->|I].
        + cbn [fst snd] in *. exists k', v; split; [left; reflexivity|]. split; [|congruence].
          destruct (set_str (sm_name v)) eqn:Sv.
          * left; apply SS in Sv; split; congruence.
          * right. split; [|congruence]. unfold set_str in Sv; apply negb_false_iff, String.eqb_eq in Sv; exact Sv.
        + destruct (IH I) as [k [m [I' Q]]]; exists k, m; split; [right; exact I'|exact Q]. }
    destruct d as [|[? ?] [|[? ?] d]]; [inversion R; subst; cbn in L; lia| |exact O].
    inversion R as [|? ? ? ? ? R']; subst; inversion R'; subst; cbn in L; lia.
Qed.

(** What a name gets. *)

Lemma shared_get shared l : verify_and_update_eval_shared_models shared = Ok (Some l) -> forall name,
  (forall m, get_eval_shared_model name (by_name l) = Ok m -> offers shared name (sm_path m)) /\
  (forall path, offers shared name path -> exists m, get_eval_shared_model name (by_name l) = Ok m).
Proof.
  intros V name.
  assert (C : (exists m, l = [with_name m ""] /\ (forall path, offers shared name path <-> path = sm_path m)) \/
              (model_list shared = Ok l /\ (2 <= length l)%nat /\ forallb (fun m => set_str (sm_name m)) l = true)).
  { destruct shared as [|m|[|m1 [|m2 ms]]|[|[k1 m1] [|[k2 m2] ms]]]; cbn [verify_and_update_eval_shared_models] in V; try discriminate.
    - cbn [model_list bind] in V; injection V as <-; left; exists m; split; [reflexivity|intro; reflexivity].
    - cbn [model_list bind] in V; injection V as <-; left; exists m1; split; [reflexivity|intro; reflexivity].
    - right; cbn [model_list bind] in V |- *. destruct (forallb _ _) eqn:F in V; [|discriminate]; injection V as <-; split; [reflexivity|]; split; [cbn; lia|exact F].
    - left. cbn [model_list mapM] in V. destruct (_ && _ && _); cbn [bind] in V; [discriminate|]. injection V as <-.
      exists m1; split; [|intro; reflexivity]. destruct (negb (set_str (sm_name m1)) && set_str k1); reflexivity.
    - right. apply bind_ok in V; destruct V as [t [T V]]. assert (Lt : (2 <= length t)%nat).
      { cbn [model_list mapM] in T. apply bind_ok in T; destruct T as [a [_ T]]; apply bind_ok in T; destruct T as [b [T1 T]]; injection T as <-.
        apply bind_ok in T1; destruct T1 as [c [_ T1]]; apply bind_ok in T1; destruct T1 as [x [_ T1]]; injection T1 as <-; cbn; lia. }
      destruct t as [|x [|y t]]; cbn in Lt; try lia. destruct (forallb _ _) eqn:F in V; [|discriminate]; injection V as <-.
      split; [exact T|split; [cbn; lia|exact F]]. }
  destruct C as [[m [-> O]]|[M [L S]]].
  - assert (G : get_eval_shared_model name (by_name [with_name m ""]) = Ok (with_name m "")).
    { unfold by_name, get_eval_shared_model; cbn [fold_left dset with_name sm_name dget]. destruct (String.eqb name "") eqn:E; reflexivity. }
    split; [|eauto]. intros x E; rewrite G in E; injection E as <-; apply O; reflexivity.
  - pose proof (model_list_offers shared l M L S name) as O. split.
    + intros m G; apply (several_get _ _ _ S) in G; destruct G as [I N]; apply O; eauto.
    + intros path H; apply O in H; destruct H as [m [I [N P]]]; destruct (by_name_finds l m I) as [m' G]; rewrite N in G.
      exists m'; unfold get_eval_shared_model; rewrite G; reflexivity.
Qed.

(** C309: each spec is run with its model, and has its log. *)

Definition spec_run (tags_at : string -> list string) (graphs_at : string -> list (list (string * unit))) (shared : shared_models)
    (ms : bulk_model_spec) (s : inference_spec) : Prop :=
  offers shared (bm_name ms) (is_path s) /\ is_tags s = tags_at (is_path s) /\
  (exists run, signature_run (graphs_at (is_path s)) (bm_signature ms) run /\ is_signature s = [run]) /\
  is_min_batch s = bm_batch_size ms /\ is_max_batch s = bm_batch_size ms.

Lemma default_signature graphs : signature_run graphs "" (default_name_of_saved_model graphs).
Proof.
  unfold signature_run, default_name_of_saved_model. destruct (existsb _ graphs) eqn:E; right.
  - left; split; [reflexivity|split; [|reflexivity]]. apply existsb_exists in E; destruct E as [g [I D]].
    apply (dmem_In String.eqb String.eqb_eq), in_map_iff in D; destruct D as [[k u] [K D]]; cbn in K; subst; eauto.
  - right; split; [reflexivity|split; [|reflexivity]]. intros g u I D.
    assert (X : existsb (fun g => dmem String.eqb g "predict") graphs = true); [|congruence].
    apply existsb_exists; exists g; split; [exact I|]. apply (dmem_In String.eqb String.eqb_eq), in_map_iff; exists ("predict", u); auto.
Qed.

Lemma bulk_specs tags graphs shared l specs : verify_and_update_eval_shared_models shared = Ok (Some l) -> forall specs' nis,
  mapM (with_signature graphs (by_name l)) specs = Ok specs' -> mapM (inference_spec_of tags (by_name l)) specs' = Ok nis ->
  Forall2 (fun ms ns => fst ns = bm_name ms /\ spec_run tags graphs shared ms (snd ns)) specs nis.
Proof.
  intro V; induction specs as [|ms specs IH]; cbn [mapM]; intros specs' nis E1 E2.
  - injection E1 as <-; cbn [mapM] in E2; injection E2 as <-; constructor.
  - apply bind_ok in E1; destruct E1 as [a [A E1]]; apply bind_ok in E1; destruct E1 as [t [T E1]]; injection E1 as <-.
    cbn [mapM] in E2. apply bind_ok in E2; destruct E2 as [b [B E2]]; apply bind_ok in E2; destruct E2 as [r [R E2]]; injection E2 as <-.
    constructor; [|apply (IH _ _ T R)].
    assert (N : bm_name a = bm_name ms /\ bm_batch_size a = bm_batch_size ms /\
                forall m, get_eval_shared_model (bm_name ms) (by_name l) = Ok m -> signature_run (graphs (sm_path m)) (bm_signature ms) (bm_signature a)).
    { unfold with_signature in A; destruct (set_str (bm_signature ms)) eqn:S.
      - injection A as <-; split; [reflexivity|split; [reflexivity|]]. intros m _; left; split; [|reflexivity].
        unfold set_str in S; apply negb_true_iff, String.eqb_neq in S; exact S.
      - apply bind_ok in A; destruct A as [m [M A]]; injection A as <-; cbn [bm_name bm_batch_size bm_signature]; split; [reflexivity|split; [reflexivity|]].
        intros m' M'; rewrite M in M'; injection M' as <-. unfold set_str in S; apply negb_false_iff, String.eqb_eq in S; rewrite S; apply default_signature. }
    destruct N as [N1 [N2 N3]]. unfold inference_spec_of in B; apply bind_ok in B; destruct B as [m [M B]]; injection B as <-.
    rewrite N1 in M. cbn [fst snd]; split; [exact N1|]. unfold spec_run; cbn [is_path is_tags is_signature is_min_batch is_max_batch].
    split; [exact (proj1 (shared_get _ _ V _) _ M)|]. split; [reflexivity|]. split; [exists (bm_signature a); split; [apply N3, M|reflexivity]|auto].
Qed.

Lemma zip_dict {B} (l : list (string * B)) : forall d, NoDup (map fst l) -> (forall k, In k (map fst l) -> ~ In k (map fst d)) ->
  fold_left (fun d nl => dset String.eqb d (fst nl) (snd nl)) l d = d ++ l.
Proof.
  induction l as [|[k b] l IH]; intros d N D; cbn [fold_left fst snd]; [symmetry; apply app_nil_r|].
  inversion N as [|? ? Nk Nl]; subst; cbn [map fst] in *.
  assert (S : dset String.eqb d k b = d ++ [(k, b)]).
  { assert (Nd : ~ In k (map fst d)) by (apply D; left; reflexivity). clear -Nd; induction d as [|[k' b'] d IH]; [reflexivity|]; cbn [dset app].
    destruct (String.eqb k k') eqn:E; [apply String.eqb_eq in E; subst; exfalso; apply Nd; left; reflexivity|].
    rewrite IH; [reflexivity|]. intro H; apply Nd; right; exact H. }
  rewrite IH, S, <- app_assoc; [reflexivity|exact Nl|].
  intros x Ix; rewrite S, map_app, in_app_iff; cbn [map fst In]. intros [H|[H|[]]]; [apply (D x); [right; exact Ix|exact H]|subst; exact (Nk Ix)].
Qed.

Lemma C309_models_run_pf : forall tags graphs shared specs names runs, bulk_inference tags graphs shared specs = Ok (names, runs) ->
  names = map bm_name specs /\ Forall2 (spec_run tags graphs shared) specs runs.
Proof.
  intros tags graphs shared specs names runs E; unfold bulk_inference in E.
  apply bind_ok in E; destruct E as [[[|m l]|] [V E]]; try discriminate.
  apply bind_ok in E; destruct E as [specs' [E1 E]]; apply bind_ok in E; destruct E as [nis [E2 E]]; injection E as <- <-.
  pose proof (bulk_specs tags graphs shared _ _ V _ _ E1 E2) as F. clear -F; induction F as [|ms ns specs nis [N R] F [IH1 IH2]]; [split; constructor|].
  cbn [map]; split; [rewrite N, IH1; reflexivity|constructor; assumption].
Qed.

Lemma C309_logs_by_name_pf : forall I P tags graphs shared specs names runs (infer : inference_spec -> I -> P) x,
  bulk_inference tags graphs shared specs = Ok (names, runs) -> NoDup (map bm_name specs) ->
  map fst (logs_of infer names runs x) = map bm_name specs /\
  forall i ms, nth_error specs i = Some ms ->
    exists s, nth_error runs i = Some s /\ spec_run tags graphs shared ms s /\ dget String.eqb (logs_of infer names runs x) (bm_name ms) = Some (infer s x).
Proof.
  intros I P tags graphs shared specs names runs infer x E N.
  destruct (C309_models_run_pf _ _ _ _ _ _ E) as [-> F]; clear E.
  assert (L : length specs = length runs) by (eapply Forall2_length, F).
  assert (K : map fst (combine (map bm_name specs) (map (fun s => infer s x) runs)) = map bm_name specs).
  { clear -L; revert runs L; induction specs as [|a l IH]; intros [|r runs] L; cbn in *; try lia; [reflexivity|]; f_equal; apply IH; lia. }
  unfold logs_of; rewrite zip_dict; [|rewrite K; exact N|intros ? _ []]. cbn [app]. split; [exact K|].
  intros i ms M.
  assert (S : exists s, nth_error runs i = Some s /\ spec_run tags graphs shared ms s /\ In (bm_name ms, infer s x) (combine (map bm_name specs) (map (fun s => infer s x) runs))).
  { clear -F M; revert i M; induction F as [|a s specs runs R F IH]; intros [|i] M; cbn in M; try discriminate.
    - injection M as ->; exists s; split; [reflexivity|split; [exact R|left; reflexivity]].
    - destruct (IH _ M) as [s' [N1 [R' I']]]; exists s'; split; [exact N1|split; [exact R'|right; exact I']]. }
  destruct S as [s [N1 [R I']]]; exists s; split; [exact N1|split; [exact R|]].
  apply (dget_In_NoDup String.eqb String.eqb_eq); [rewrite K; exact N|exact I'].
Qed.

Lemma C309_accepted_pf : forall tags graphs shared specs l, verify_and_update_eval_shared_models shared = Ok (Some l) ->
  is_ok (bulk_inference tags graphs shared specs) = true <-> forall ms, In ms specs -> exists path, offers shared (bm_name ms) path.
Proof.
  intros tags graphs shared specs l V; split.
  - intros H ms I. destruct (bulk_inference tags graphs shared specs) as [[names runs]|] eqn:E; [|discriminate].
    destruct (C309_models_run_pf _ _ _ _ _ _ E) as [_ F]. clear -F I; induction F as [|a s specs runs R F IH]; [destruct I|].
    destruct I as [->|I]; [destruct R as [O _]; eauto|auto].
  - intro H. unfold bulk_inference; rewrite V; cbn [bind].
    assert (NE : l <> []).
    { intros ->. destruct shared as [|m|[|m1 [|m2 ms]]|[|[k1 m1] [|[k2 m2] ms]]]; cbn [verify_and_update_eval_shared_models model_list bind] in V; try discriminate.
      - destruct (forallb _ _) in V; discriminate.
      - cbn [mapM] in V; destruct (_ && _ && _) in V; discriminate.
      - cbn [mapM] in V. apply bind_ok in V; destruct V as [t [T V]].
        apply bind_ok in T; destruct T as [a [_ T]]; apply bind_ok in T; destruct T as [b [T1 T]]; injection T as <-.
        destruct b; [discriminate|]. destruct (forallb _ _) in V; discriminate. }
    destruct l as [|m l]; [congruence|].
    assert (A : exists specs', mapM (with_signature graphs (by_name (m :: l))) specs = Ok specs' /\ map bm_name specs' = map bm_name specs).
    { clear -H V; induction specs as [|a specs IH]; cbn [mapM]; [exists []; auto|].
      destruct IH as [t [T N]]; [intros ms I; apply H; right; exact I|].
      assert (B : exists a', with_signature graphs (by_name (m :: l)) a = Ok a' /\ bm_name a' = bm_name a).
      { unfold with_signature; destruct (set_str (bm_signature a)); [eauto|].
        destruct (H a (or_introl eq_refl)) as [path O]; destruct (proj2 (shared_get _ _ V _) _ O) as [x X]; rewrite X; cbn [bind]; eauto. }
      destruct B as [a' [B B']]; rewrite B; cbn [bind]; rewrite T; cbn [bind]; exists (a' :: t); split; [reflexivity|]. cbn [map]; congruence. }
    destruct A as [specs' [A N]]; rewrite A; cbn [bind].
    assert (B : exists nis, mapM (inference_spec_of tags (by_name (m :: l))) specs' = Ok nis).
    { assert (H' : forall n, In n (map bm_name specs') -> exists path, offers shared n path).
      { intros n I; rewrite N in I; apply in_map_iff in I; destruct I as [ms [<- I]]; apply H, I. }
      clear -H' V; induction specs' as [|a specs IH]; cbn [mapM]; [eauto|].
      destruct IH as [t T]; [intros n I; apply H'; right; exact I|].
      destruct (H' (bm_name a) (or_introl eq_refl)) as [path O]; destruct (proj2 (shared_get _ _ V _) _ O) as [x X].
      unfold inference_spec_of at 1; rewrite X; cbn [bind]; rewrite T; cbn [bind]; eauto. }
    destruct B as [nis B]; rewrite B; reflexivity.
Qed.

(** As it was made *)

Definition as_made (m : metric) : instance := Instance (mt_kind m) (mt_module m) (mt_class m) (mt_settings m).

Definition of_metrics (ms : list metric) : list metric := filter (fun m => match mt_kind m with KerasMetric => true | _ => false end) ms.

Definition of_losses (ms : list metric) : list metric := filter (fun m => match mt_kind m with KerasLoss => true | _ => false end) ms.

(** A class of its own: not a function in a wrapper of Keras, and not registered under another name.
    It can be imported: Keras's own by their name, others from their module. *)

Definition plain_class (m : metric) : Prop :=
  mt_registered m = mt_class m /\ mt_class m <> "MeanMetricWrapper" /\ mt_class m <> "LossFunctionWrapper".

Definition module_has (e : env) (module class : string) (k : kind) : Prop :=
  exists classes, dget String.eqb (env_modules e) module = Some classes /\ dget String.eqb classes class = Some k.

Definition importable (mn ln : string) (e : env) (losses : list (string * (kind * string))) (m : metric) : Prop :=
  (mt_module m <> mn /\ mt_module m <> ln /\ module_has e (mt_module m) (mt_class m) (mt_kind m)) \/
  ((mt_module m = mn \/ mt_module m = ln) /\
   ((mt_kind m = KerasMetric /\ dget String.eqb (env_keras e) (mt_class m) = Some (KerasMetric, mt_module m)) \/
    (mt_kind m = KerasLoss /\ dget String.eqb losses (mt_class m) = Some (KerasLoss, mt_module m)))).

Definition all_of (l : outputs_of) (m : metric) : Prop := exists o ms, In (o, ms) l /\ In m ms.

Lemma custom_In mn ln l mc : In mc (custom_objects mn ln l) <->
  exists m, all_of l m /\ mt_module m <> mn /\ mt_module m <> ln /\ mc = (mt_module m, mt_class m).
Proof.
  unfold custom_objects, all_of; rewrite in_flat_map; split.
  - intros [[o ms] [I H]]; cbn [snd] in H; apply in_flat_map in H; destruct H as [m [Im H]].
    destruct (String.eqb (mt_module m) mn) eqn:E1; cbn in H; [destruct H|].
    destruct (String.eqb (mt_module m) ln) eqn:E2; cbn in H; [destruct H|]. destruct H as [<-|[]].
    exists m; split; [eauto|]. apply String.eqb_neq in E1, E2; auto.
  - intros [m [[o [ms [I Im]]] [E1 [E2 ->]]]]; exists (o, ms); split; [exact I|]; cbn [snd]; apply in_flat_map; exists m; split; [exact Im|].
    apply String.eqb_neq in E1, E2; rewrite E1, E2; left; reflexivity.
Qed.

Definition class_in (e : env) (mc : string * string) : option kind :=
  dget String.eqb (match dget String.eqb (env_modules e) (fst mc) with Some x => x | None => [] end) (snd mc).

Lemma load_ok e l : forall d, (forall mc, In mc l -> class_in e mc <> None) ->
  exists d', foldM (fun d mc => match class_in e mc with Some k => Ok (dset String.eqb d (snd mc) (k, fst mc)) | None => Err AttributeError end) l d = Ok d' /\
  (forall c km, dget String.eqb d' c = Some km -> dget String.eqb d c = Some km \/ exists mc k, In mc l /\ snd mc = c /\ class_in e mc = Some k /\ km = (k, fst mc)) /\
  (forall c, (dget String.eqb d c <> None \/ In c (map snd l)) -> dget String.eqb d' c <> None).
Proof.
  induction l as [|mc l IH]; intros d H; cbn [foldM].
  - exists d; split; [reflexivity|split; [auto|]]. intros c [X|[]]; exact X.
  - destruct (class_in e mc) as [k|] eqn:E; [|exfalso; apply (H mc (or_introl eq_refl) E)]. cbn [bind].
    destruct (IH (dset String.eqb d (snd mc) (k, fst mc))) as [d' [F [A B]]]; [intros x I; apply H; right; exact I|].
    exists d'; split; [exact F|]; split.
    + intros c km G; destruct (A c km G) as [X|[mc' [k' [I Q]]]]; [|right; exists mc', k'; split; [right; exact I|exact Q]].
      destruct (string_dec (snd mc) c) as [<-|N].
      * rewrite (dget_dset_eq String.eqb String.eqb_eq) in X; injection X as <-; right; exists mc, k; split; [left; reflexivity|auto].
      * rewrite (dget_dset_neq String.eqb String.eqb_eq _ _ _ _ N) in X; left; exact X.
    + intros c Hc; apply B. destruct (string_dec (snd mc) c) as [<-|N].
      * left; rewrite (dget_dset_eq String.eqb String.eqb_eq); discriminate.
      * rewrite (dget_dset_neq String.eqb String.eqb_eq _ _ _ _ N). destruct Hc as [X|[X|X]]; [auto|congruence|auto].
Qed.

Lemma insert_perm {A} (o : string * A) l : Permutation (insert_sorted o l) (o :: l).
Proof.
  induction l as [|p l IH]; cbn [insert_sorted]; [reflexivity|]. destruct (String.leb (fst o) (fst p)); [reflexivity|].
  rewrite IH; apply perm_swap.
Qed.

Lemma sorted_perm {A} (l : list (string * A)) : Permutation (fold_right insert_sorted [] l) l.
Proof. induction l as [|o l IH]; cbn [fold_right]; [reflexivity|]. rewrite insert_perm, IH; reflexivity. Qed.

Lemma serialize_plain w m : plain_class m -> mt_class m <> w -> serialize w m = Ok (mt_class m, mt_settings m).
Proof. intros [R _] N; unfold serialize; rewrite R; apply String.eqb_neq in N; rewrite N; reflexivity. Qed.

Definition alike (mn ln : string) (e : env) (losses : list (string * (kind * string))) (all : outputs_of) : Prop :=
  (forall m, all_of all m -> (mt_kind m = KerasMetric \/ mt_kind m = KerasLoss) /\ plain_class m /\ importable mn ln e losses m).

Lemma C308_classes_partial_pf : forall mn ln e losses all group,
  alike mn ln e losses all -> (forall m, all_of group m -> all_of all m) -> NoDup (map fst group) ->
  (forall m m', all_of all m -> all_of all m' -> mt_class m = mt_class m' -> mt_module m = mt_module m') ->
  exists r, setup mn ln e losses all group = Ok r /\ Permutation (map fst r) (map fst group) /\
    forall o ms, In (o, ms) group -> dget String.eqb r o = Some (map as_made (of_metrics ms) ++ map as_made (of_losses ms)).
Proof.
  intros mn ln e losses all group AL SUB ND ONE. unfold setup.
  set (conf := fun m : metric => (mt_class m, mt_settings m)).
  assert (C : mapM configs_of_output group = Ok (map (fun om => (fst om, (map conf (of_metrics (snd om)), map conf (of_losses (snd om))))) group)).
  { apply mapM_pure; intros [o ms] I; unfold configs_of_output; cbn [fst snd].
    assert (P : forall m, In m ms -> plain_class m) by (intros m Im; apply AL, SUB; exists o, ms; auto).
    rewrite (mapM_pure _ conf), (mapM_pure _ conf); [reflexivity| |]; intros m Im; apply filter_In in Im; destruct Im as [Im _];
      destruct (P m Im) as [R [N1 N2]]; apply serialize_plain; auto; split; auto. }
  rewrite C; cbn [bind].
  destruct (load_ok e (custom_objects mn ln all) []) as [scope [L [SC SM]]].
  { intros mc I; apply custom_In in I; destruct I as [m [A [N1 [N2 ->]]]]; unfold class_in; cbn [fst snd].
    destruct (proj2 (proj2 (AL m A))) as [[_ [_ [cl [M D]]]]|[[M|M] _]]; [rewrite M, D; discriminate|congruence|congruence]. }
  unfold load_custom_objects. unfold class_in in L. rewrite L; cbn [bind]. fold (class_in e) in *.
  assert (DS : forall m, all_of all m -> deserialize (if is_metric m then env_keras e else losses) scope (conf m) = Ok (as_made m)).
  { intros m A; unfold deserialize, conf; cbn [fst snd]. destruct (dget String.eqb scope (mt_class m)) as [[k mo]|] eqn:G.
    - destruct (SC _ _ G) as [X|[mc [k' [I [E [K X]]]]]]; [discriminate|]. injection X as -> ->.
      apply custom_In in I; destruct I as [m' [A' [N1 [N2 ->]]]]; cbn [fst snd] in *.
      assert (M : mt_module m' = mt_module m) by (apply ONE; auto).
      unfold as_made; rewrite M; f_equal; f_equal.
      unfold class_in in K; cbn [fst snd] in K; rewrite M, E in K. rewrite M in N1, N2.
      destruct (proj2 (proj2 (AL m A))) as [[_ [_ [cl [Q D]]]]|[[Q|Q] _]]; [|congruence|congruence]. rewrite Q, D in K; congruence.
    - destruct (proj2 (proj2 (AL m A))) as [[N1 [N2 _]]|[_ [[K D]|[K D]]]].
      + exfalso; apply (SM (mt_class m)); [right|exact G]. apply in_map_iff; exists (mt_module m, mt_class m); split; [reflexivity|].
        apply custom_In; exists m; auto.
      + unfold is_metric; rewrite K, D; unfold as_made; rewrite K; reflexivity.
      + unfold is_metric; rewrite K, D; unfold as_made; rewrite K; reflexivity. }
  set (g := fun oc : string * (list (string * settings) * list (string * settings)) =>
              let! ms := mapM (deserialize (env_keras e) scope) (fst (snd oc)) in
              let! ls := mapM (deserialize losses scope) (snd (snd oc)) in Ok (fst oc, ms ++ ls)).
  set (entry := fun om : string * list metric => (fst om, (map conf (of_metrics (snd om)), map conf (of_losses (snd om))))).
  set (out := fun om : string * list metric => (fst om, map as_made (of_metrics (snd om)) ++ map as_made (of_losses (snd om)))).
  assert (G : forall om, In om group -> g (entry om) = Ok (out om)).
  { intros [o ms] I; unfold g, entry, out; cbn [fst snd].
    assert (P : forall m, In m ms -> all_of all m) by (intros m Im; apply SUB; exists o, ms; auto).
    assert (D1 : mapM (deserialize (env_keras e) scope) (map conf (of_metrics ms)) = Ok (map as_made (of_metrics ms))).
    { clear -DS P; assert (Q : forall m, In m (of_metrics ms) -> deserialize (env_keras e) scope (conf m) = Ok (as_made m)).
      { intros m Im; apply filter_In in Im; destruct Im as [Im K]; specialize (DS m (P m Im)); unfold is_metric in DS; rewrite K in DS; exact DS. }
      induction (of_metrics ms) as [|a l IH]; cbn [map mapM]; [reflexivity|].
      rewrite (Q a (or_introl eq_refl)); cbn [bind]; rewrite IH by (intros m Im; apply Q; right; exact Im); reflexivity. }
    assert (D2 : mapM (deserialize losses scope) (map conf (of_losses ms)) = Ok (map as_made (of_losses ms))).
    { clear -DS P; assert (Q : forall m, In m (of_losses ms) -> deserialize losses scope (conf m) = Ok (as_made m)).
      { intros m Im; apply filter_In in Im; destruct Im as [Im K]; specialize (DS m (P m Im)); unfold is_metric in DS; destruct (mt_kind m); try discriminate; exact DS. }
      induction (of_losses ms) as [|a l IH]; cbn [map mapM]; [reflexivity|].
      rewrite (Q a (or_introl eq_refl)); cbn [bind]; rewrite IH by (intros m Im; apply Q; right; exact Im); reflexivity. }
    rewrite D1; cbn [bind]; rewrite D2; reflexivity. }
  assert (H : exists r, mapM g (fold_right insert_sorted [] (map entry group)) = Ok r /\ Permutation r (map out group)).
  { assert (X : forall l, Permutation l (map entry group) -> exists r, mapM g l = Ok r /\ Permutation r (map out group)).
    { intros l P. apply Permutation_map_inv in P; destruct P as [k [-> P]]. exists (map out k); split; [|apply Permutation_map, Permutation_sym, P].
      assert (Q : forall om, In om k -> g (entry om) = Ok (out om)) by (intros om I; apply G; apply (Permutation_in _ (Permutation_sym P)), I).
      clear -Q; induction k as [|a k IH]; cbn [map mapM]; [reflexivity|].
      rewrite (Q a (or_introl eq_refl)); cbn [bind]; rewrite IH by (intros m Im; apply Q; right; exact Im); reflexivity. }
    apply X, sorted_perm. }
  destruct H as [r [H P]]; exists r; split; [exact H|].
  assert (PF : Permutation (map fst r) (map fst group)).
  { rewrite P, map_map; cbn [out fst]; reflexivity. }
  split; [exact PF|]. intros o ms I. apply (dget_In_NoDup String.eqb String.eqb_eq).
  - apply (Permutation_NoDup (Permutation_sym PF) ND).
  - apply (Permutation_in _ (Permutation_sym P)), in_map_iff; exists (o, ms); auto.
Qed.

Lemma C308_classes_refuted_pf : exists mn ln e losses group,
  alike mn ln e losses group /\ NoDup (map fst group) /\
  exists r o ms, setup mn ln e losses group group = Ok r /\ In (o, ms) group /\ dget String.eqb r o <> Some (map as_made (of_metrics ms) ++ map as_made (of_losses ms)).
Proof.
  set (a := Metric KerasMetric "Gain" "shop.metrics" "Gain" [("name", JStr "gain")]).
  set (b := Metric KerasMetric "Gain" "audio.metrics" "Gain" [("name", JStr "audio_gain")]).
  exists "metrics", "losses", (Env [] [] [("shop.metrics", [("Gain", KerasMetric)]); ("audio.metrics", [("Gain", KerasMetric)])]), [], [("", [a; b])].
  split; [|split].
  - intros m [o [ms [[E|[]] I]]]. injection E as <- <-. destruct I as [<-|[<-|[]]]; (split; [left; reflexivity|]);
      (split; [split; [reflexivity|split; discriminate]|]); left; (split; [discriminate|split; [discriminate|]]); exists [("Gain", KerasMetric)]; split; reflexivity.
  - constructor; [intros []|constructor].
  - eexists; exists "", [a; b]; split; [reflexivity|]. split; [left; reflexivity|]. cbn; discriminate.
Qed.

Lemma C308_local_classes_refused_pf : forall mn ln e losses all group m, all_of all m -> mt_module m <> mn -> mt_module m <> ln ->
  (forall k, ~ module_has e (mt_module m) (mt_class m) k) -> is_ok (setup mn ln e losses all group) = false.
Proof.
  intros mn ln e losses all group m A N1 N2 H. unfold setup. destruct (mapM configs_of_output group) as [cs|]; cbn [bind]; [|reflexivity].
  assert (L : forall l d, In (mt_module m, mt_class m) l ->
    is_ok (foldM (fun d mc => match class_in e mc with Some k => Ok (dset String.eqb d (snd mc) (k, fst mc)) | None => Err AttributeError end) l d) = false).
  { induction l as [|mc l IH]; intros d I; [destruct I|]; cbn [foldM]. destruct (class_in e mc) as [k|] eqn:E; [|reflexivity]. cbn [bind].
    destruct I as [->|I]; [|apply IH, I]. exfalso; unfold class_in in E; cbn [fst snd] in E.
    destruct (dget String.eqb (env_modules e) (mt_module m)) as [cl|] eqn:M; [|discriminate]. apply (H k); exists cl; auto. }
  assert (I : In (mt_module m, mt_class m) (custom_objects mn ln all)) by (apply custom_In; exists m; auto).
  assert (X : is_ok (load_custom_objects e (custom_objects mn ln all)) = false) by exact (L _ [] I).
  destruct (load_custom_objects e (custom_objects mn ln all)); [discriminate X|reflexivity].
Qed.
