(* Proofs of the theorems restated in Results_Properties.v. *)
From Coq Require Import String Ascii Permutation.
From Verif Require Import Base BaseFacts Beam BeamFacts Slicer_Model Slicer_Spec Slicer_Proofs Slicer_Main Inputs_Model Keys_Model Keys_Main Results_Model.
Local Open Scope string_scope.
Local Open Scope list_scope.

(* C54, C55, C117 - C126: writing, loading and viewing results; running evaluators. *)

Local Infix "+++" := String.append (right associativity, at level 60).

Fixpoint no_slash (s : string) : bool :=
  match s with "" => true | String c t => negb (Ascii.eqb c "/") && no_slash t end.

Lemma strip_app p s : strip_prefix p (p +++ s) = Some s.
Proof. induction p as [|a p IH]; cbn; [destruct s; reflexivity|]. rewrite Ascii.eqb_refl. exact IH. Qed.

Lemma strip_common p q s : strip_prefix (p +++ q) (p +++ s) = strip_prefix q s.
Proof. induction p as [|a p IH]; cbn; [reflexivity|]. rewrite Ascii.eqb_refl. exact IH. Qed.

Lemma sapp_assoc a b c : (a +++ b) +++ c = a +++ b +++ c.
Proof. induction a as [|x a IH]; cbn; [reflexivity|]. rewrite IH. reflexivity. Qed.

Lemma sapp_nil a : a +++ "" = a.
Proof. induction a as [|x a IH]; cbn; [reflexivity|]. rewrite IH. reflexivity. Qed.

Lemma star_ok m suffix : no_slash m = true -> star_then suffix (m +++ suffix) = true.
Proof.
  induction m as [|c m IH]; cbn [no_slash String.append].
  - intros _. destruct suffix; cbn; [reflexivity|]. rewrite Ascii.eqb_refl, String.eqb_refl. reflexivity.
  - intros H. apply andb_true_iff in H. destruct H as [H1 H2]. cbn [star_then].
    rewrite H1, (IH H2). cbn. apply orb_true_r.
Qed.

Lemma star_any m : no_slash m = true -> star_then "" m = true.
Proof. intros H. rewrite <- (sapp_nil m). apply star_ok. exact H. Qed.

Lemma join_split dir name : exists p, join dir name = p +++ name /\ forall other, join dir other = p +++ other.
Proof.
  unfold join. destruct (String.eqb dir "" || ends_with_slash dir).
  - exists dir. auto.
  - exists (dir +++ "/"). split; [|intros]; rewrite sapp_assoc; reflexivity.
Qed.

Lemma no_slash_app a b : no_slash (a +++ b) = no_slash a && no_slash b.
Proof. induction a as [|c a IH]; cbn; [reflexivity|]. rewrite IH, andb_assoc. reflexivity. Qed.

Section Files.
  Context {V : Type}.
  Implicit Types (fs : files V).

  Lemma glob_app fs1 fs2 p s : glob (fs1 ++ fs2) p s = glob fs1 p s ++ glob fs2 p s.
  Proof. unfold glob. rewrite filter_app, map_app. reflexivity. Qed.

  Definition contents (fmt : string) (l : list (record V)) : file V :=
    if String.eqb fmt "parquet" then ParquetRows (map convert_to_parquet_columns l) else TfRecords l.

  Lemma glob_all shard prefix fmt suffix shards : (forall i n, no_slash (shard i n) = true) -> no_slash fmt = true ->
    suffix = "" \/ suffix = "." +++ fmt ->
    glob (write_shards shard prefix fmt shards) prefix suffix = map (contents fmt) shards.
  Proof.
    intros N F S1. unfold glob, write_shards. set (n := length shards). change (length shards) with n.
    assert (G : forall l k, map snd (filter (fun pf : string * file V => glob_match prefix suffix (fst pf))
       (map (fun ir => (prefix +++ shard (fst ir) n +++ "." +++ fmt,
                    if String.eqb fmt "parquet" then ParquetRows (map convert_to_parquet_columns (snd ir))
                    else TfRecords (snd ir))) (combine (seq k (length l)) l))) = map (contents fmt) l).
    { induction l as [|x l IH]; intros k; cbn [length seq combine map filter]; [reflexivity|].
      assert (M : glob_match prefix suffix (prefix +++ shard k n +++ "." +++ fmt) = true).
      { unfold glob_match. rewrite strip_app. destruct S1 as [-> | ->].
        - apply star_any. rewrite no_slash_app, N. cbn. exact F.
        - apply star_ok. apply N. }
      cbn [fst]. rewrite M. cbn [map]. rewrite IH. reflexivity. }
    apply G.
  Qed.

  Lemma glob_none shard p name other fmt suffix shards :
    (forall s, strip_prefix name (other +++ s) = None) ->
    glob (write_shards (V := V) shard (p +++ other) fmt shards) (p +++ name) suffix = [].
  Proof.
    intros H. unfold glob, write_shards.
    assert (G : forall (l : list (nat * list (record V))) n, map snd (filter (fun pf : string * file V => glob_match (p +++ name) suffix (fst pf))
       (map (fun ir => ((p +++ other) +++ shard (fst ir) n +++ "." +++ fmt,
                    if String.eqb fmt "parquet" then ParquetRows (map convert_to_parquet_columns (snd ir))
                    else TfRecords (snd ir))) l)) = []).
    { induction l as [|x l IH]; intros n; cbn [map filter]; [reflexivity|]. cbn [fst].
      unfold glob_match at 1. rewrite sapp_assoc, strip_common, H. apply IH. }
    apply G.
  Qed.

  Lemma raw_contents fmt fmt' shards : supported fmt = true -> fmt' = fmt \/ fmt = "tfrecord" /\ fmt' = "" ->
    raw_values fmt' (map (contents fmt) shards) = Ok (concat shards).
  Proof.
    intros Sp H. unfold supported in Sp. apply orb_true_iff in Sp. unfold raw_values, contents.
    assert (T : forall l : list (list (record V)), mapM (fun f => match f with TfRecords rs => Ok rs | ParquetRows _ => Err RuntimeError end)
                  (map (fun l => TfRecords l) l) = Ok l).
    { induction l as [|x l IH]; cbn [map mapM]; [reflexivity|]. cbn [bind]. rewrite IH. reflexivity. }
    assert (P : forall l : list (list (record V)), mapM (fun f => match f with ParquetRows rows => Ok (map snd rows) | TfRecords _ => Err RuntimeError end)
                  (map (fun l => ParquetRows (map convert_to_parquet_columns l)) l) = Ok l).
    { induction l as [|x l IH]; cbn [map mapM]; [reflexivity|]. cbn [bind]. rewrite IH. cbn [bind]. do 2 f_equal.
      rewrite map_map. rewrite <- (map_id x) at 2. apply map_ext. intros []; reflexivity. }
    destruct Sp as [Sp|Sp]; apply String.eqb_eq in Sp; subst fmt.
    - destruct H as [->|[H _]]; [|discriminate]. cbn [String.eqb]. cbn. rewrite P. reflexivity.
    - destruct H as [->|[_ ->]]; cbn; rewrite T; reflexivity.
  Qed.

End Files.

Section RoundTrip.
  Context {V : Type}.
  Definition metrics_shards (l : list (list metrics_for_slice)) : list (list (record V)) := map (map RMetrics) l.
  Definition plots_shards (l : list (list plots_for_slice)) : list (list (record V)) := map (map RPlots) l.
  Definition attributions_shards (l : list (list attributions_for_slice)) : list (list (record V)) := map (map RAttributions) l.

  (** What an evaluation run leaves in a directory *)
  Definition stored (shard : nat -> nat -> string) (dir fmt : string)
      (ms : list (list metrics_for_slice)) (ps : list (list plots_for_slice)) (ats : list (list attributions_for_slice))
      (v : option V) (fs : files V) : Prop :=
    (forall i n, no_slash (shard i n) = true) /\ dir <> "" /\
    write_results shard dir fmt (Outputs (metrics_shards ms) (plots_shards ps) (attributions_shards ats) (option_map RValidation v)) = Ok fs.

  Lemma supported_facts fmt : supported fmt = true -> no_slash fmt = true /\ fmt <> "".
  Proof.
    unfold supported. intros H. apply orb_true_iff in H. destruct H as [H|H]; apply String.eqb_eq in H; subst; split; (reflexivity || discriminate).
  Qed.

  Lemma join_nonempty dir : dir <> "" -> exists p, p <> "" /\ forall other, join dir other = p +++ other.
  Proof.
    intros D. unfold join. apply String.eqb_neq in D. rewrite D. cbn [orb].
    destruct (ends_with_slash dir).
    - exists dir. split; [apply String.eqb_neq; exact D|reflexivity].
    - exists (dir +++ "/"). split.
      + destruct dir; cbn; discriminate.
      + intros. rewrite sapp_assoc. reflexivity.
  Qed.

  Section Store.
    Context shard dir fmt ms ps ats v fs (St : stored shard dir fmt ms ps ats v fs).

    Lemma stored_shape : exists p, (forall other, join dir other = p +++ other) /\ supported fmt = true /\
      fs = write_shards shard (p +++ "metrics") fmt (metrics_shards ms) ++ write_shards shard (p +++ "plots") fmt (plots_shards ps)
           ++ write_shards shard (p +++ "attributions") fmt (attributions_shards ats)
           ++ match v with None => [] | Some v => write_shards (fun _ _ => "") (p +++ "validations") fmt [[RValidation v]] end.
    Proof.
      destruct St as (N & D & W). destruct (join_nonempty dir D) as (p & _ & J). exists p. split; [exact J|].
      unfold write_results in W. destruct (supported fmt) eqn:Sp; [|discriminate]. cbn [negb] in W. split; [reflexivity|].
      inversion W. cbn. rewrite !J. destruct v; reflexivity.
    Qed.

    Lemma isdir_stored : fs <> [] -> isdir fs dir = true.
    Proof.
      intros H. destruct stored_shape as (p & J & _ & E). unfold isdir. destruct St as (_ & D & _).
      apply String.eqb_neq in D. rewrite D. cbn [negb andb].
      assert (P : forall pf, In pf fs -> exists s, fst pf = p +++ s).
      { intros pf I. rewrite E in I. rewrite !in_app_iff in I. unfold write_shards in I.
        destruct I as [I|[I|[I|I]]]; [| | |destruct v; [|destruct I]];
          apply in_map_iff in I; destruct I as (ir & Q & _); subst pf; cbn [fst]; rewrite !sapp_assoc; eauto. }
      destruct fs as [|pf t]; [congruence|]. destruct (P pf (or_introl eq_refl)) as (s & Q). cbn [existsb].
      rewrite Q, J, strip_common. cbn [strip_prefix]. destruct s; reflexivity.
    Qed.

    (** the files of one output *)
    Lemma files_of name suffix : suffix = "" \/ suffix = "." +++ fmt ->
      (name = "metrics" -> glob fs (join dir name) suffix = map (contents fmt) (metrics_shards ms)) /\
      (name = "plots" -> glob fs (join dir name) suffix = map (contents fmt) (plots_shards ps)) /\
      (name = "attributions" -> glob fs (join dir name) suffix = map (contents fmt) (attributions_shards ats)) /\
      (name = "validations" -> glob fs (join dir name) suffix =
         map (contents fmt) (match v with Some v => [[RValidation v]] | None => [] end)).
    Proof.
      intros S1. destruct stored_shape as (p & J & Sp & E). destruct St as (N & _ & _).
      destruct (supported_facts fmt Sp) as [F _]. rewrite J, E, !glob_app.
      assert (X : forall sh name other l, (forall s, strip_prefix name (other +++ s) = None) ->
                  glob (write_shards (V := V) sh (p +++ other) fmt l) (p +++ name) suffix = []).
      { intros. apply glob_none. assumption. }
      assert (Y : forall sh name l, (forall i n, no_slash (sh i n) = true) ->
                  glob (write_shards (V := V) sh (p +++ name) fmt l) (p +++ name) suffix = map (contents fmt) l).
      { intros. apply glob_all; assumption. }
      assert (Z : forall name, (forall s, strip_prefix name ("validations" +++ s) = None) ->
         glob match v with None => [] | Some v => write_shards (fun _ _ => "") (p +++ "validations") fmt [[RValidation v]] end
              (p +++ name) suffix = []).
      { intros nm H. destruct v; [apply X; exact H|reflexivity]. }
      repeat apply conj; intros ->.
      - rewrite (Y shard "metrics") by exact N.
        rewrite (X shard "metrics" "plots"), (X shard "metrics" "attributions"), Z by (intros; reflexivity).
        rewrite !app_nil_r. reflexivity.
      - rewrite (Y shard "plots") by exact N.
        rewrite (X shard "plots" "metrics"), (X shard "plots" "attributions"), Z by (intros; reflexivity).
        rewrite !app_nil_r. reflexivity.
      - rewrite (Y shard "attributions") by exact N.
        rewrite (X shard "attributions" "metrics"), (X shard "attributions" "plots"), Z by (intros; reflexivity).
        rewrite !app_nil_r. reflexivity.
      - rewrite (X shard "validations" "metrics"), (X shard "validations" "plots"), (X shard "validations" "attributions") by (intros; reflexivity).
        cbn [app]. destruct v; [|reflexivity]. apply Y. reflexivity.
    Qed.

    (** reading in the format written, or in any when written as records *)
    Definition readable (fmt' : string) : Prop := fmt' = fmt \/ fmt = "tfrecord" /\ fmt' = "".

    Lemma output_files_of fmt' name shards : readable fmt' ->
      (forall suffix, suffix = "" \/ suffix = "." +++ fmt -> glob fs (join dir name) suffix = map (contents fmt) shards) ->
      (fs = [] -> shards = []) ->
      raw_values fmt' (output_files fs dir name fmt') = Ok (concat shards).
    Proof.
      intros R G Em. destruct stored_shape as (p & J & Sp & E). unfold output_files.
      assert (D : fs = [] \/ fs <> []) by (clear; destruct fs; [left; reflexivity|right; discriminate]).
      destruct D as [Q|Q].
      - rewrite (Em Q), Q.
        destruct (String.eqb fmt' ""); cbn; destruct R as [->|[-> ->]];
        unfold supported in Sp; apply orb_true_iff in Sp; try (destruct Sp as [Sp|Sp]; apply String.eqb_eq in Sp; subst fmt); reflexivity.
      - rewrite isdir_stored by exact Q.
        assert (X : (if String.eqb fmt' "" then "" else "." +++ fmt') = "" \/ (if String.eqb fmt' "" then "" else "." +++ fmt') = "." +++ fmt).
        { destruct R as [->|[_ ->]]; [|auto]. destruct (supported_facts fmt Sp) as [_ F]. apply String.eqb_neq in F. rewrite F. auto. }
        rewrite (G _ X), (G "" (or_introl eq_refl)).
        assert (Y : match map (contents fmt) shards with [] => map (contents fmt) shards | _ :: _ => map (contents fmt) shards end = map (contents fmt) shards)
          by (destruct shards; reflexivity).
        rewrite Y. apply raw_contents; assumption.
    Qed.

    Lemma load_records_all {A} (select : record V -> option A) slice_of fmt' name shards (wrap : A -> record V) (l : list (list A)) :
      (forall a, select (wrap a) = Some a) -> shards = map (map wrap) l ->
      raw_values fmt' (output_files fs dir name fmt') = Ok (concat shards) ->
      load_records select slice_of fs dir name fmt' [] = Ok (concat l).
    Proof.
      intros W -> R. unfold load_records. rewrite R. cbn [bind].
      match goal with |- context [mapM ?g _] => set (f := g) end.
      assert (F : forall a, f (wrap a) = Ok [a]) by (intros a; unfold f; rewrite W; reflexivity).
      assert (X : forall xs, mapM f (map wrap xs) = Ok (map (fun a => [a]) xs)).
      { induction xs as [|x xs IH]; cbn [map mapM]; [reflexivity|]. rewrite F. cbn [bind]. rewrite IH. reflexivity. }
      replace (concat (map (map wrap) l)) with (map wrap (concat l)) by apply concat_map.
      rewrite X. cbn [bind]. f_equal. induction (concat l); cbn; [reflexivity|]. f_equal. assumption.
    Qed.

    Lemma empty_shards : fs = [] -> ms = [] /\ ps = [] /\ ats = [] /\ v = None.
    Proof.
      destruct stored_shape as (p & _ & _ & E). intros ->. symmetry in E.
      apply app_eq_nil in E. destruct E as [E1 E]. apply app_eq_nil in E. destruct E as [E2 E]. apply app_eq_nil in E. destruct E as [E3 E4].
      repeat apply conj.
      - destruct ms; [reflexivity|discriminate E1].
      - destruct ps; [reflexivity|discriminate E2].
      - destruct ats; [reflexivity|discriminate E3].
      - destruct v; [discriminate E4|reflexivity].
    Qed.

    Lemma raw_metrics fmt' : readable fmt' -> raw_values fmt' (output_files fs dir "metrics" fmt') = Ok (concat (metrics_shards ms)).
    Proof.
      intros R. apply output_files_of; [exact R|intros; apply (files_of "metrics" suffix); auto|].
      intros E. destruct (empty_shards E) as [-> _]. reflexivity.
    Qed.
    Lemma raw_plots fmt' : readable fmt' -> raw_values fmt' (output_files fs dir "plots" fmt') = Ok (concat (plots_shards ps)).
    Proof.
      intros R. apply output_files_of; [exact R|intros; apply (files_of "plots" suffix); auto|].
      intros E. destruct (empty_shards E) as (_ & -> & _). reflexivity.
    Qed.
    Lemma raw_attributions fmt' : readable fmt' -> raw_values fmt' (output_files fs dir "attributions" fmt') = Ok (concat (attributions_shards ats)).
    Proof.
      intros R. apply output_files_of; [exact R|intros; apply (files_of "attributions" suffix); auto|].
      intros E. destruct (empty_shards E) as (_ & _ & -> & _). reflexivity.
    Qed.
  End Store.

End RoundTrip.

Lemma C117_stored_results_are_loaded_pf :
  forall V shard dir fmt fmt' ms ps ats v (fs : files V),
    stored shard dir fmt ms ps ats v fs -> fmt' = fmt \/ fmt = "tfrecord" /\ fmt' = "" ->
    load_and_deserialize_metrics fs dir fmt' [] = Ok (concat ms) /\
    load_and_deserialize_plots fs dir fmt' [] = Ok (concat ps) /\
    load_and_deserialize_attributions fs dir fmt' [] = Ok (concat ats) /\
    (forall w, v = Some w -> load_and_deserialize_validation_result fs dir fmt' = Ok w) /\
    (v = None -> load_and_deserialize_validation_result fs dir fmt' = Err AssertionError).
Proof.
  intros V shard dir fmt fmt' ms ps ats v fs St R. repeat apply conj.
  - eapply load_records_all with (wrap := RMetrics); [reflexivity|reflexivity|]. eapply raw_metrics; eassumption.
  - eapply load_records_all with (wrap := RPlots); [reflexivity|reflexivity|]. eapply raw_plots; eassumption.
  - eapply load_records_all with (wrap := RAttributions); [reflexivity|reflexivity|]. eapply raw_attributions; eassumption.
  - intros w ->. unfold load_and_deserialize_validation_result.
    destruct (stored_shape _ _ _ _ _ _ _ _ St) as (p & J & Sp & E).
    rewrite (isdir_stored _ _ _ _ _ _ _ _ St).
    2:{ intros ->. destruct (empty_shards _ _ _ _ _ _ _ _ St eq_refl) as (_ & _ & _ & H). discriminate. }
    assert (X : (if String.eqb fmt' "" then "" else "." +++ fmt') = "" \/ (if String.eqb fmt' "" then "" else "." +++ fmt') = "." +++ fmt).
    { destruct R as [->|[_ ->]]; [|auto]. destruct (supported_facts fmt Sp) as [_ F]. apply String.eqb_neq in F. rewrite F. auto. }
    destruct (files_of _ _ _ _ _ _ _ _ St "validations" _ X) as (_ & _ & _ & G). rewrite (G eq_refl).
    rewrite raw_contents by assumption. reflexivity.
  - intros ->. unfold load_and_deserialize_validation_result.
    destruct (stored_shape _ _ _ _ _ _ _ _ St) as (p & J & Sp & E).
    assert (X : (if String.eqb fmt' "" then "" else "." +++ fmt') = "" \/ (if String.eqb fmt' "" then "" else "." +++ fmt') = "." +++ fmt).
    { destruct R as [->|[_ ->]]; [|auto]. destruct (supported_facts fmt Sp) as [_ F]. apply String.eqb_neq in F. rewrite F. auto. }
    assert (Y : glob fs (if isdir fs dir then join dir "validations" else dir) (if String.eqb fmt' "" then "" else "." +++ fmt') = []).
    { destruct fs as [|pf t] eqn:Q; [reflexivity|]. rewrite <- Q. rewrite <- Q in St.
      rewrite (isdir_stored _ _ _ _ _ _ _ _ St) by (rewrite Q; discriminate).
      destruct (files_of _ _ _ _ _ _ _ _ St "validations" _ X) as (_ & _ & _ & G). rewrite (G eq_refl). reflexivity. }
    rewrite Y. unfold supported in Sp. apply orb_true_iff in Sp.
    destruct R as [->|[-> ->]]; [|reflexivity]. destruct Sp as [Sp|Sp]; apply String.eqb_eq in Sp; subst fmt; reflexivity.
Qed.

Lemma C117_one_validation_result_pf :
  forall V (vs : list V) path, path = "out" \/ path = "out/validations" ->
    load_and_deserialize_validation_result [("out/validations", TfRecords (map (@RValidation V) vs))] path "" =
    match vs with [v] => Ok v | _ => Err AssertionError end.
Proof.
  intros V vs path P.
  assert (R : mapM (fun r : record V => match as_validation r with None => Err RuntimeError | Some v => Ok v end) (map (@RValidation V) vs) = Ok vs).
  { induction vs as [|v vs IH]; [reflexivity|]. cbn [map mapM as_validation bind]. rewrite IH. reflexivity. }
  assert (E : raw_values (V := V) "" [TfRecords (map (@RValidation V) vs)] = Ok (map (@RValidation V) vs)) by (cbn; rewrite app_nil_r; reflexivity).
  destruct P as [-> | ->]; unfold load_and_deserialize_validation_result.
  - change ((let! values := raw_values (V := V) "" [TfRecords (map (@RValidation V) vs)] in
            let! l := mapM (fun r : record V => match as_validation r with None => Err RuntimeError | Some v => Ok v end) values in
            match l with [v] => Ok v | _ => Err AssertionError end) = match vs with [v] => Ok v | _ => Err AssertionError end).
    rewrite E. cbn [bind]. rewrite R. reflexivity.
  - change ((let! values := raw_values (V := V) "" [TfRecords (map (@RValidation V) vs)] in
            let! l := mapM (fun r : record V => match as_validation r with None => Err RuntimeError | Some v => Ok v end) values in
            match l with [v] => Ok v | _ => Err AssertionError end) = match vs with [v] => Ok v | _ => Err AssertionError end).
    rewrite E. cbn [bind]. rewrite R. reflexivity.
Qed.

(** A slice key is selected by a spec: its columns are those of the spec, and the values
    the spec fixes are the configured ones. *)

Definition selected_by (p : slicing_spec) (k : any_key) : Prop :=
  match k with
  | Two _ _ => False
  | One k => Permutation (map fst k) (dedup String.eqb (sp_keys p) ++ map fst (sp_values p)) /\
             (forall n v w, In (n, v) k -> In (n, w) (sp_values p) -> same_value (to_type v) (to_type (VStr w)))
  end.

Lemma selected_iff p sp k : NoDup (map fst (sp_values p)) -> mk_spec p = Ok sp ->
  (is_slice_applicable sp k = true <-> selected_by p (One k)).
Proof.
  intros N E. rewrite (C02_applicable_characterised_pf p sp k N E). unfold selected_by. unfold mk_spec in E.
  destruct existsb in E; [discriminate|]. inversion E; subst sp; clear E. cbn [columns features]. rewrite map_map. cbn [fst].
  split; intros [H1 H2]; (split; [exact H1|]); intros n v w I1 I2.
  - apply (H2 n v); [exact I1|]. apply in_map_iff. exists (n, w). auto.
  - apply in_map_iff in I2. destruct I2 as ((n', w') & Q & I2). cbn in Q. inversion Q; subst. eapply H2; eassumption.
Qed.

Lemma matches_iff protos specs k : (forall p, In p protos -> NoDup (map fst (sp_values p))) -> mapM mk_spec protos = Ok specs ->
  (slice_key_matches_slice_specs k specs = true <-> exists p, In p protos /\ selected_by p (One k)).
Proof.
  revert specs. induction protos as [|p protos IH]; intros specs N E; cbn [mapM] in E.
  - inversion E; subst. cbn. split; [discriminate|]. intros (p & [] & _).
  - destruct (mk_spec p) as [sp|] eqn:M; [|discriminate]. cbn [bind] in E. destruct (mapM mk_spec protos) as [t|]; [|discriminate].
    inversion E; subst. unfold slice_key_matches_slice_specs. cbn [existsb]. rewrite orb_true_iff.
    rewrite (selected_iff p sp k (N p (or_introl eq_refl)) M).
    assert (X := IH t (fun q I => N q (or_intror I)) eq_refl). unfold slice_key_matches_slice_specs in X. rewrite X. clear.
    split.
    + intros [H|(q & I & H)]; [exists p; split; [left; reflexivity|exact H]|exists q; split; [right; exact I|exact H]].
    + intros (q & [->|I] & H); [left; exact H|right; eauto].
Qed.

Definition ex_single : metrics_for_slice := MetricsForSlice (PbOne [SingleSliceKey "country" (Some (BytesValue "fr"))]) [] [].

Definition ex_overall : metrics_for_slice := MetricsForSlice (PbOne []) [] [].

Definition ex_cross : metrics_for_slice := MetricsForSlice (PbTwo [] [SingleSliceKey "country" (Some (BytesValue "fr"))]) [] [].

Definition ex_shard (i n : nat) : string := nth i ["-00000-of-"; "-00001-of-"; "-00002-of-"] "" +++ nth n ["00000"; "00001"; "00002"; "00003"] "".

Definition ex_run (ms : list metrics_for_slice) : files unit :=
  write_shards (fun _ _ => "-00000-of-00001") "out/metrics" "tfrecord" [map RMetrics ms].

Lemma C54_cross_slices_match_overall_refuted_pf :
  exists (fs : files unit) r sp,
    stored (fun _ _ => "-00000-of-00001") "out" "tfrecord" [[r]] [] [] None fs /\ mk_spec (SlicingSpec [] []) = Ok sp /\
    load_and_deserialize_metrics fs "out" "tfrecord" [sp] = Ok [r] /\
    exists k, slice_from_proto (mf_slice r) = Ok k /\ ~ selected_by (SlicingSpec [] []) k.
Proof.
  exists (ex_run [ex_cross]), ex_cross, (Spec [] []). split.
  - split; [intros; reflexivity|]. split; [discriminate|]. reflexivity.
  - split; [reflexivity|]. split; [vm_compute; reflexivity|]. eexists. split; [reflexivity|]. intros [].
Qed.

Lemma C54_load_filter_partial_pf :
  forall V shard dir fmt ms ps ats v (fs : files V) protos specs,
    stored shard dir fmt ms ps ats v fs ->
    protos <> [] -> (forall p, In p protos -> NoDup (map fst (sp_values p))) -> mapM mk_spec protos = Ok specs ->
    let exact {A} (slice_of : A -> pb_slice) (all : list A) (loaded : res (list A)) :=
      (forall r, In r all -> exists k, slice_from_proto (slice_of r) = Ok (One k)) ->
      exists choose, loaded = Ok (filter choose all) /\
        forall r k, In r all -> slice_from_proto (slice_of r) = Ok k ->
          (choose r = true <-> exists p, In p protos /\ selected_by p k) in
    exact mf_slice (concat ms) (load_and_deserialize_metrics fs dir fmt specs) /\
    exact pf_slice (concat ps) (load_and_deserialize_plots fs dir fmt specs) /\
    exact af_slice (concat ats) (load_and_deserialize_attributions fs dir fmt specs).
Proof.
  intros V shard dir fmt ms ps ats v fs protos specs St NE N M exact_.
  assert (G : forall A (select : record V -> option A) slice_of name (wrap : A -> record V) (l : list (list A)),
     (forall a, select (wrap a) = Some a) ->
     raw_values fmt (output_files fs dir name fmt) = Ok (concat (map (map wrap) l)) ->
     exact_ A slice_of (concat l) (load_records select slice_of fs dir name fmt specs)).
  { intros A select slice_of name wrap l W R. unfold exact_. intros K.
    exists (fun r => match deserialize_slice_key (pb_slice_key (slice_of r)) with
                     | Ok k => slice_key_matches_slice_specs k specs | Err _ => false end).
    split.
    - unfold load_records. rewrite R. cbn [bind].
      replace (concat (map (map wrap) l)) with (map wrap (concat l)) by apply concat_map.
      match goal with |- context [mapM ?g _] => set (f := g) end.
      assert (NS : specs <> []). { destruct protos; [congruence|]. cbn [mapM] in M. destruct (mk_spec s); [|discriminate]. cbn [bind] in M.
        destruct (mapM mk_spec protos); [|discriminate]. inversion M. discriminate. }
      assert (X : forall xs, (forall r, In r xs -> exists k, slice_from_proto (slice_of r) = Ok (One k)) ->
         exists ls, mapM f (map wrap xs) = Ok ls /\ concat ls = filter (fun r => match deserialize_slice_key (pb_slice_key (slice_of r)) with
                     | Ok k => slice_key_matches_slice_specs k specs | Err _ => false end) xs).
      { induction xs as [|x xs IH]; intros Kx; cbn [map mapM]; [exists []; auto|].
        destruct (IH (fun r I => Kx r (or_intror I))) as (ls & E1 & E2). destruct (Kx x (or_introl eq_refl)) as (k & E).
        assert (F : f (wrap x) = Ok (if slice_key_matches_slice_specs k specs then [x] else []) /\
                    deserialize_slice_key (pb_slice_key (slice_of x)) = Ok k).
        { unfold f. rewrite W. unfold keep. destruct specs as [|sp t] eqn:Q; [congruence|]. rewrite <- Q.
          destruct (slice_of x) as [p|b c]; cbn [slice_from_proto pb_slice_key] in *.
          - destruct (deserialize_slice_key p) as [k'|]; [|discriminate]. cbn [bind] in E. inversion E; subst k'. auto.
          - destruct (deserialize_cross (b, c)); discriminate. }
        destruct F as [F1 F2]. rewrite F1. cbn [bind]. rewrite E1. cbn [bind]. eexists. split; [reflexivity|]. cbn [concat filter].
        rewrite F2, E2. destruct (slice_key_matches_slice_specs k specs); reflexivity. }
      destruct (X (concat l) K) as (ls & E1 & E2). rewrite E1. cbn [bind]. rewrite E2. reflexivity.
    - intros r k I E. destruct (K r I) as (k' & E'). rewrite E in E'. inversion E'; subst k.
      destruct (slice_of r) as [p|b c]; cbn [slice_from_proto pb_slice_key] in *.
      + destruct (deserialize_slice_key p) as [k|]; [|discriminate]. cbn [bind] in E. inversion E; subst k'. apply matches_iff; assumption.
      + destruct (deserialize_cross (b, c)); discriminate. }
  repeat apply conj.
  - apply G with (wrap := RMetrics); [reflexivity|]. eapply raw_metrics; [eassumption|left; reflexivity].
  - apply G with (wrap := RPlots); [reflexivity|]. eapply raw_plots; [eassumption|left; reflexivity].
  - apply G with (wrap := RAttributions); [reflexivity|]. eapply raw_attributions; [eassumption|left; reflexivity].
Qed.

Definition parquet_column (k : list single_slice_key) : option (list cell) :=
  fst (convert_to_parquet_columns (RMetrics (V := unit) (MetricsForSlice (PbOne k) [] []))).

Lemma C55_slice_key_column_refuted_pf :
  exists k k' p p', k <> k' /\ serialize_slice_key (fun q => q) k = Ok p /\ serialize_slice_key (fun q => q) k' = Ok p' /\
    parquet_column p = parquet_column p'.
Proof.
  exists [("country", VStr "fr")], [("language", VStr "fr")]. do 2 eexists.
  split; [discriminate|]. repeat split.
Qed.

Lemma C55_slice_key_column_partial_pf :
  forall f32 k k' p p', Slicer_Main.storable f32 k -> Slicer_Main.storable f32 k' ->
    serialize_slice_key f32 k = Ok p -> serialize_slice_key f32 k' = Ok p' ->
    (parquet_column p = parquet_column p' <-> map snd k = map snd k').
Proof.
  intros f32. 
  assert (G : forall k p, Slicer_Main.storable f32 k -> serialize_slice_key f32 k = Ok p ->
     convert_slice_key_to_parquet_dict p = map (fun nv => match snd nv with VStr s | VBytes s => CellBytes s | VInt z => CellInt z | VFloat q => CellFloat q end) k).
  { induction k as [|[n v] k IH]; intros p Sk E; cbn [serialize_slice_key mapM] in E; unfold serialize_slice_key in E; cbn [mapM] in E.
    - inversion E. reflexivity.
    - destruct (serialize_single f32 (n, v)) as [s|] eqn:E1; [|discriminate]. cbn [bind] in E.
      destruct (mapM (serialize_single f32) k) as [t|] eqn:E2; [|discriminate]. inversion E; subst p.
      cbn [convert_slice_key_to_parquet_dict flat_map map].
      specialize (IH t (fun m w I => Sk m w (or_intror I)) E2). unfold convert_slice_key_to_parquet_dict in IH. rewrite IH.
      specialize (Sk n v (or_introl eq_refl)). unfold serialize_single in E1. cbn [snd].
      destruct v; try contradiction.
      + inversion E1. reflexivity.
      + destruct (int64_ok z); [|discriminate]. inversion E1. reflexivity.
      + inversion E1. cbn. cbn in Sk. rewrite Sk. reflexivity. }
  intros k k' p p' S1 S2 E1 E2. unfold parquet_column. cbn [convert_to_parquet_columns fst record_slice mf_slice pb_slice_key].
  rewrite (G k p S1 E1), (G k' p' S2 E2).
  assert (H : forall k k', Slicer_Main.storable f32 k -> Slicer_Main.storable f32 k' ->
     map (fun nv : string * fval => match snd nv with VStr s | VBytes s => CellBytes s | VInt z => CellInt z | VFloat q => CellFloat q end) k =
     map (fun nv => match snd nv with VStr s | VBytes s => CellBytes s | VInt z => CellInt z | VFloat q => CellFloat q end) k' <->
     map snd k = map snd k').
  { clear. induction k as [|[n v] k IH]; intros [|[n' v'] k'] S1 S2; cbn [map]; [tauto|split; discriminate|split; discriminate|].
    cbn [snd]. specialize (IH k' (fun m w I => S1 m w (or_intror I)) (fun m w I => S2 m w (or_intror I))).
    specialize (S1 n v (or_introl eq_refl)). specialize (S2 n' v' (or_introl eq_refl)). cbn in S1, S2.
    split; intros H; inversion H as [[H1 H2]].
    - apply IH in H2. rewrite H2. f_equal. destruct v, v'; try contradiction; inversion H1; reflexivity.
    - apply IH in H2. rewrite H2. reflexivity. }
  split.
  - intros Q. inversion Q as [Q']. apply H in Q'; assumption.
  - intros Q. f_equal. apply H; assumption.
Qed.

Lemma sget_sset {A} (d : list (string * A)) k k' v : sget (sset d k v) k' = if String.eqb k' k then Some v else sget d k'.
Proof. apply (dget_dset _ String.eqb_eq). Qed.

Lemma sget_cons {A} (l : list (string * A)) k v k' : sget ((k, v) :: l) k' = if String.eqb k' k then Some v else sget l k'.
Proof. reflexivity. Qed.

Lemma child_sset {A} (d : list (string * list A)) k k' v : child (sset d k v) k' = if String.eqb k' k then v else child d k'.
Proof. unfold child. rewrite sget_sset. destruct (String.eqb k' k); reflexivity. Qed.

Definition same3 (o s n o' s' n' : string) : bool := String.eqb o' o && String.eqb s' s && String.eqb n' n.

Lemma look_put {A} (d : nested A) o s n v o' s' n' :
  look (put d o s n v) o' s' n' = if same3 o s n o' s' n' then Some v else look d o' s' n'.
Proof.
  unfold look, put, same3, child. rewrite sget_sset. destruct (String.eqb_spec o' o) as [->|]; [|reflexivity]. cbn [andb].
  rewrite sget_sset. destruct (String.eqb_spec s' s) as [->|].
  - cbn [andb]. rewrite sget_sset. destruct (String.eqb_spec n' n) as [->|]; [reflexivity|].
    destruct (sget d o) as [x|]; [|reflexivity]. destruct (sget x s); reflexivity.
  - cbn [andb]. destruct (sget d o); reflexivity.
Qed.

(** dictionaries have distinct keys, at each level *)

Definition wf1 {A} (d : list (string * A)) : Prop := NoDup (map fst d).

Definition wf2 {A} (d : flat A) : Prop := wf1 d /\ forall k x, In (k, x) d -> wf1 x.

Definition wf3 {A} (d : nested A) : Prop := wf1 d /\ forall k x, In (k, x) d -> wf2 x.

Lemma wf1_sset {A} (d : list (string * A)) k v : wf1 d -> wf1 (sset d k v).
Proof. apply (dset_NoDup _ String.eqb_eq). Qed.

Lemma sset_In {A} (d : list (string * A)) k v k' x : wf1 d -> In (k', x) (sset d k v) -> (k' = k /\ x = v) \/ In (k', x) d.
Proof.
  intros W I. apply (dget_In_NoDup _ String.eqb_eq) in I; [|apply wf1_sset; exact W].
  change (sget (sset d k v) k' = Some x) in I. rewrite sget_sset in I. destruct (String.eqb_spec k' k).
  - inversion I. auto.
  - right. apply (dget_In _ String.eqb_eq). exact I.
Qed.

Lemma child_In {A} (d : list (string * list A)) k : child d k = [] \/ In (k, child d k) d.
Proof.
  unfold child. destruct (sget d k) as [x|] eqn:E; [right|left; reflexivity]. apply (dget_In _ String.eqb_eq). exact E.
Qed.

Lemma wf2_child {A} (d : nested A) o : wf3 d -> wf2 (child d o).
Proof.
  intros [W1 W2]. destruct (child_In d o) as [E|I]; [rewrite E; split; [constructor|intros k x []]|]. eapply W2. exact I.
Qed.

Lemma wf1_child {A} (d : flat A) o : wf2 d -> wf1 (child d o).
Proof. intros [W1 W2]. destruct (child_In d o) as [E|I]; [rewrite E; constructor|]. eapply W2. exact I. Qed.

Lemma wf2_sset {A} (d : flat A) k v : wf2 d -> wf1 v -> wf2 (sset d k v).
Proof.
  intros [W1 W2] W. split; [apply wf1_sset; exact W1|]. intros k' x I. apply sset_In in I; [|exact W1].
  destruct I as [[_ ->]|I]; [exact W|]. eapply W2. exact I.
Qed.

Lemma wf3_sset {A} (d : nested A) k v : wf3 d -> wf2 v -> wf3 (sset d k v).
Proof.
  intros [W1 W2] W. split; [apply wf1_sset; exact W1|]. intros k' x I. apply sset_In in I; [|exact W1].
  destruct I as [[_ ->]|I]; [exact W|]. eapply W2. exact I.
Qed.

Lemma wf3_put {A} (d : nested A) o s n v : wf3 d -> wf3 (put d o s n v).
Proof.
  intros W. unfold put. apply wf3_sset; [exact W|]. apply wf2_sset; [apply wf2_child; exact W|].
  apply wf1_sset. apply wf1_child. apply wf2_child. exact W.
Qed.

Lemma look_add1 {A} (l : list (string * A)) o s o' s' n' : forall d, wf1 l ->
  look (fold_left (fun d n => put d o s (fst n) (snd n)) l d) o' s' n' =
  (if String.eqb o' o && String.eqb s' s then match sget l n' with Some v => Some v | None => look d o' s' n' end else look d o' s' n').
Proof.
  induction l as [|[n v] l IH]; intros d W; cbn [fold_left].
  - destruct (String.eqb o' o && String.eqb s' s); reflexivity.
  - inversion W as [|? ? NI W']; subst. rewrite IH by exact W'. rewrite !look_put. unfold same3. cbn [fst snd].
    destruct (String.eqb o' o && String.eqb s' s); cbn [andb]; [|reflexivity].
    rewrite sget_cons. destruct (String.eqb_spec n' n) as [->|].
    + destruct (sget l n) eqn:E; [|reflexivity]. exfalso. apply NI. apply (dget_In _ String.eqb_eq) in E.
      apply (in_map fst) in E. exact E.
    + reflexivity.
Qed.

Lemma look_add2 {A} (l : flat A) o o' s' n' : forall d, wf2 l ->
  look (fold_left (fun d s => fold_left (fun d n => put d o (fst s) (fst n) (snd n)) (snd s) d) l d) o' s' n' =
  (if String.eqb o' o then match sget l s' with
                           | Some x => match sget x n' with Some v => Some v | None => look d o' s' n' end
                           | None => look d o' s' n' end
   else look d o' s' n').
Proof.
  induction l as [|[s x] l IH]; intros d [W1 W2]; cbn [fold_left].
  - destruct (String.eqb o' o); reflexivity.
  - inversion W1 as [|? ? NI W1']; subst. rewrite IH by (split; [exact W1'|intros k y I; eapply W2; right; exact I]).
    cbn [fst snd]. rewrite look_add1 by (eapply W2; left; reflexivity).
    destruct (String.eqb o' o); cbn [andb]; [|reflexivity].
    rewrite sget_cons. destruct (String.eqb_spec s' s) as [->|].
    + destruct (sget l s) eqn:E; [|reflexivity]. exfalso. apply NI. apply (dget_In _ String.eqb_eq) in E. apply (in_map fst) in E. exact E.
    + reflexivity.
Qed.

Lemma look_independent {A} (l : nested A) o' s' n' : forall d, wf3 l ->
  look (add_independent d l) o' s' n' = match look l o' s' n' with Some v => Some v | None => look d o' s' n' end.
Proof.
  unfold add_independent. induction l as [|[o x] l IH]; intros d [W1 W2]; cbn [fold_left]; [reflexivity|].
  inversion W1 as [|? ? NI W1']; subst. rewrite IH by (split; [exact W1'|intros k y I; eapply W2; right; exact I]).
  cbn [fst snd]. rewrite look_add2 by (eapply W2; left; reflexivity).
  assert (C : look ((o, x) :: l) o' s' n' = if String.eqb o' o then match sget x s' with Some y => sget y n' | None => None end else look l o' s' n').
  { unfold look. rewrite sget_cons. destruct (String.eqb o' o); reflexivity. }
  rewrite C. destruct (String.eqb_spec o' o) as [->|]; [|reflexivity].
  assert (N : look l o s' n' = None).
  { unfold look. destruct (sget l o) eqn:E; [|reflexivity]. exfalso. apply NI. apply (dget_In _ String.eqb_eq) in E. apply (in_map fst) in E. exact E. }
  rewrite N. destruct (sget x s'); reflexivity.
Qed.

Record entry (A : Type) := Entry { e_model : string; e_output : string; e_sub : string; e_name : string; e_value : A }.

Arguments Entry {A}. Arguments e_model {A}. Arguments e_output {A}. Arguments e_sub {A}. Arguments e_name {A}. Arguments e_value {A}.

Definition add_entry {A} (d : by_model A) (e : entry A) : by_model A :=
  put_model d (e_model e) (e_output e) (e_sub e) (e_name e) (e_value e).

Definition build {A} (es : list (entry A)) : by_model A := fold_left add_entry es [].

Definition mlook {A} (d : by_model A) (m o s n : string) : option A :=
  match sget d m with None => None | Some x => look x o s n end.

Lemma build_snoc {A} (es : list (entry A)) e : build (es ++ [e]) = add_entry (build es) e.
Proof. unfold build. rewrite fold_left_app. reflexivity. Qed.

Lemma mlook_add {A} (d : by_model A) e m o s n :
  mlook (add_entry d e) m o s n =
  if String.eqb m (e_model e) && same3 (e_output e) (e_sub e) (e_name e) o s n then Some (e_value e) else mlook d m o s n.
Proof.
  unfold mlook, add_entry, put_model. rewrite sget_sset. destruct (String.eqb_spec m (e_model e)) as [->|]; cbn [andb]; [|reflexivity].
  rewrite look_put. destruct (same3 _ _ _ _ _ _); [reflexivity|]. unfold child, sget, by_model, nested in *. destruct (dget String.eqb d (e_model e)); reflexivity.
Qed.

Lemma same3_iff o s n o' s' n' : same3 o s n o' s' n' = true <-> o' = o /\ s' = s /\ n' = n.
Proof. unfold same3. rewrite !andb_true_iff, !String.eqb_eq. tauto. Qed.

Lemma build_facts {A} (es : list (entry A)) :
  (forall m o s n v, mlook (build es) m o s n = Some v -> In (Entry m o s n v) es) /\
  (forall e, In e es -> exists v, mlook (build es) (e_model e) (e_output e) (e_sub e) (e_name e) = Some v) /\
  wf1 (build es) /\ (forall m, In m (map fst (build es)) <-> exists e, In e es /\ e_model e = m) /\
  (forall m d, In (m, d) (build es) -> wf3 d).
Proof.
  induction es as [|e es IH] using rev_ind.
  - repeat apply conj.
    + discriminate. + intros e []. + constructor. + intros m. cbn. split; [tauto|]. intros (e & [] & _). + intros m d [].
  - destruct IH as (H1 & H2 & H3 & H4 & H5). rewrite build_snoc. repeat apply conj.
    + intros m o s n v. rewrite mlook_add, in_app_iff.
      destruct (String.eqb_spec m (e_model e)) as [->|]; cbn [andb].
      * destruct (same3 _ _ _ _ _ _) eqn:E.
        -- apply same3_iff in E. destruct E as (-> & -> & ->). intros Q. inversion Q. right. left. destruct e; reflexivity.
        -- intros Q. left. apply H1. exact Q.
      * intros Q. left. apply H1. exact Q.
    + intros e' I. rewrite mlook_add. destruct (_ && _) eqn:E; [eauto|]. apply in_app_iff in I. destruct I as [I|[<-|[]]]; [auto|].
      rewrite String.eqb_refl in E. cbn [andb] in E. assert (X : same3 (e_output e) (e_sub e) (e_name e) (e_output e) (e_sub e) (e_name e) = true)
        by (apply same3_iff; auto). congruence.
    + apply wf1_sset. exact H3.
    + intros m. unfold add_entry, put_model, sset. rewrite (dset_keys_In _ String.eqb_eq), H4. split.
      * intros [->|(e' & I & <-)]; [exists e|exists e']; (split; [apply in_app_iff; cbn; auto|reflexivity]).
      * intros (e' & I & <-). apply in_app_iff in I. destruct I as [I|[<-|[]]]; [right; eauto|left; reflexivity].
    + intros m d I. apply sset_In in I; [|exact H3]. destruct I as [[-> ->]|I]; [|eapply H5; exact I].
      apply wf3_put. destruct (child_In (build es) (e_model e)) as [E|I]; [rewrite E; split; [constructor|intros k x []]|]. eapply H5. exact I.
Qed.

(** Choosing a model *)

Lemma select_found {A} (es : list (entry A)) m : (exists e, In e es /\ e_model e = m) ->
  exists d, select_model true (build es) (Some m) = Some (Some d) /\
    forall o s n, look d o s n = match mlook (build es) "" o s n with
                                 | Some v => if String.eqb m "" then mlook (build es) m o s n else Some v
                                 | None => mlook (build es) m o s n end.
Proof.
  destruct (build_facts es) as (_ & _ & W & K & W3). intros X. apply K in X. unfold select_model, mlook.
  destruct (sget (build es) m) as [d|] eqn:E.
  2:{ apply (dget_None _ String.eqb_eq) in E. tauto. }
  destruct (String.eqb m "") eqn:M; cbn [negb andb].
  - exists d. split; [reflexivity|]. intros. destruct (sget (build es) ""); [|reflexivity]. destruct (look n0 o s n); reflexivity.
  - eexists. split; [reflexivity|]. intros o s n. destruct (sget (build es) "") as [sh|] eqn:Sh; [|reflexivity].
    apply look_independent. eapply W3. apply (dget_In _ String.eqb_eq). exact Sh.
Qed.

Lemma select_single {A} (es : list (entry A)) m i : es <> [] -> (forall e, In e es -> e_model e = m) ->
  exists d, build es = [(m, d)] /\ select_model i (build es) None = Some (Some d) /\ (forall o s n, look d o s n = mlook (build es) m o s n).
Proof.
  intros NE U. destruct (build_facts es) as (_ & _ & W & K & _).
  assert (A1 : forall x, In x (map fst (build es)) -> x = m). { intros x I. apply K in I. destruct I as (e & I & <-). apply U. exact I. }
  assert (A2 : In m (map fst (build es))). { destruct es as [|e es']; [congruence|]. apply K. exists e. split; [left; reflexivity|apply U; left; reflexivity]. }
  destruct (build es) as [|[m1 d] t] eqn:E; [destruct A2|]. assert (m1 = m) by (apply A1; left; reflexivity). subst m1.
  destruct t as [|[m2 d2] t].
  - exists d. split; [reflexivity|]. split; [reflexivity|]. intros. unfold mlook, sget. cbn [dget]. rewrite String.eqb_refl. reflexivity.
  - exfalso. assert (m2 = m) by (apply A1; right; left; reflexivity). subst m2. unfold wf1 in W. cbn [map fst] in W. inversion W as [|? ? NI _]; subst.
    apply NI. left. reflexivity.
Qed.

Lemma select_missing {A} (es : list (entry A)) m i : es <> [] -> m <> "" -> (forall e, In e es -> e_model e <> m) ->
  select_model i (build es) (Some m) = None.
Proof.
  intros NE M U. destruct (build_facts es) as (_ & _ & W & K & _). unfold select_model.
  destruct (sget (build es) m) as [d|] eqn:E.
  - exfalso. apply (dget_In _ String.eqb_eq) in E. apply (in_map fst) in E. apply K in E. destruct E as (e & I & Q). exact (U e I Q).
  - assert (A2 : build es <> []). { destruct es as [|e es']; [congruence|]. intros Z. assert (X : In (e_model e) (map fst (build (e :: es')))).
      { apply K. exists e. split; [left; reflexivity|reflexivity]. } rewrite Z in X. destruct X. }
    destruct m; [congruence|]. destruct (build es) as [|[x y] [|]]; [congruence|reflexivity|reflexivity].
Qed.

(** How a sub key, an aggregation and a metric appear in the results *)

Definition sub_label (s : option sub_key) : string :=
  match s with
  | None => ""
  | Some s =>
      match sk_class_id s, sk_k s, sk_top_k s with
      | _, Some k, _ => "k:" +++ print_Z (Z.of_nat k)
      | Some c, None, Some t => "classId:" +++ print_Z c +++ " topK:" +++ print_Z (Z.of_nat t)
      | Some c, None, None => "classId:" +++ print_Z c
      | None, None, Some t => "topK:" +++ print_Z (Z.of_nat t)
      | None, None, None => ""
      end
  end.

Definition agg_label (a : agg_type) : string :=
  match ag_micro a, ag_macro a, ag_weighted a with
  | Some _, _, _ => "micro_average"
  | _, Some _, _ => "macro_average"
  | _, _, _ => "weighted_macro_average"
  end.

Definition shown_name (k : metric_key) : string :=
  if k_diff k then k_name k +++ "_diff"
  else match k_agg k with
       | Some a => agg_label a +++ ": true" +++ String (ascii_of_nat 10) "_" +++ k_name k
       | None => k_name k
       end.

Definition place (k : metric_key) : string * string * string := (k_output k, sub_label (k_sub k), shown_name k).

(** The value stored for a metric *)

Definition dtype_is (d : dtype) (p : pb_dtype) : Prop :=
  match d, p with Int32, PbInt32 | Int64, PbInt64 | Float32, PbFloat32 | Float64, PbFloat64 | OtherType, PbBytesType => True | _, _ => False end.

Definition stored_item (as_text : num -> string) (i : item) (w : pb_value) : Prop :=
  match i, w with
  | INum x, PbDouble y => x = y
  | IBytes s, PbBytes t => s = t
  | IStr s, PbBytes t => s = t
  | IStructured s, PbStructured t => s = t
  | IOther t e, PbUnknown t' e' => t = t' /\ e = e'
  | IArray a, PbArray b =>
      ar_shape a = pr_shape b /\ dtype_is (ar_dtype a) (pr_type b) /\
      (if match ar_dtype a with OtherType => true | _ => false end
       then pr_numbers b = [] /\ pr_bytes b = map as_text (ar_items a)
       else pr_numbers b = ar_items a /\ pr_bytes b = [])
  | _, _ => False
  end.

Definition shows (as_text : num -> string) (v : mvalue) (w : pb_value) : Prop :=
  match v with
  | Plain i => stored_item as_text i w
  | Bounded x l h => w = PbBounded x l h
  | WithInterval (INum x) (INum l) (INum h) _ _ => w = PbBounded x l h
  | WithInterval (INum x) _ _ _ _ => exists l h, w = PbBounded x l h (* bounds that are not numbers *)
  | WithInterval u _ _ _ _ => stored_item as_text u w
  end.

Definition readable_key (f32 : Qc -> Qc) (k : any_key) : Prop :=
  match k with One k => Slicer_Main.storable f32 k | Two b c => Slicer_Main.storable f32 b /\ Slicer_Main.storable f32 c end.

Lemma slice_round f32 k : readable_key f32 k -> exists p, slice_to_proto f32 k = Ok p /\ slice_from_proto p = Ok k.
Proof.
  destruct C09_key_types_never_confused_pf as [S1 S2]. unfold slice_to_proto, readable_key. destruct k as [k|b c]; cbn [any_obj]; intros H.
  - rewrite S1. cbn [bind]. destruct (C08_slice_key_round_trip_pf f32 k H) as (p & E & D). rewrite E. cbn [bind].
    eexists. split; [reflexivity|]. cbn. rewrite D. reflexivity.
  - rewrite S2. cbn [bind]. destruct H as [H1 H2]. destruct (C08_cross_slice_key_round_trip_pf f32 b c H1 H2) as ([p1 p2] & E & D). rewrite E. cbn [bind].
    eexists. split; [reflexivity|]. cbn [slice_from_proto fst snd]. rewrite D. reflexivity.
Qed.

Lemma sub_id_label o p : (forall s, o = Some s -> made_sub s /\ storable_sub s) -> opt_sub_to_proto o = Ok p -> sub_key_id p = Ok (sub_label o).
Proof.
  intros H E. destruct o as [s|]; cbn in E.
  - destruct (H s eq_refl) as [M [Ne _]]. destruct (sub_key_to_proto s) as [q|] eqn:Q; [|discriminate]. cbn in E. inversion E; subst p.
    apply sub_to_proto_ok in Q. destruct Q as (-> & _). cbn [sub_key_id]. rewrite sub_from_proto_set.
    2:{ destruct s as [c k t]; cbn in *. destruct Ne as [N|[N|N]]; [left; exact N|right; left|right; right]; [destruct k|destruct t]; (discriminate || congruence). }
    rewrite (made_sub_again s M). cbn [bind]. unfold sub_key_text, sub_label. destruct s as [c k t]; cbn in *.
    destruct k; [destruct c; reflexivity|]. destruct c, t; try reflexivity. exfalso. destruct Ne as [N|[N|N]]; congruence.
  - inversion E. reflexivity.
Qed.

Lemma key_entry key p : made key -> storable key -> key_to_proto key = Ok p ->
  pb_model p = k_model key /\ pb_output p = k_output key /\ sub_key_id (pb_sub p) = Ok (sub_label (k_sub key)) /\
  metric_name p = shown_name key /\ pb_diff p = k_diff key.
Proof.
  intros [M1 M2] [S1 S2] E. unfold key_to_proto in E. destruct (opt_sub_to_proto (k_sub key)) as [s|] eqn:Es; [|discriminate].
  cbn [bind] in E. inversion E; subst p; clear E. cbn [pb_model pb_output pb_sub pb_diff]. repeat apply conj; try reflexivity.
  - apply sub_id_label; [|exact Es]. intros x Hx. split; [apply M1|apply S1]; exact Hx.
  - unfold metric_name, shown_name. cbn [pb_diff pb_name pb_aggregation]. destruct (k_diff key); [reflexivity|].
    destruct (k_agg key) as [a|]; [|reflexivity]. cbn [option_map]. specialize (S2 a eq_refl).
    destruct S2 as [<-|[<-|[<-|[]]]]; reflexivity.
Qed.

Lemma shows_stored as_text p v :
  shows as_text v (metric_value_with_ci (kv_value (convert_value as_text p v)) (kv_interval (convert_value as_text p v))).
Proof.
  assert (I : forall i, stored_item as_text i (convert_metric_value_to_proto as_text i)).
  { destruct i as [x|s|s|[sh d xs]|s|t e]; cbn; try reflexivity; [|split; reflexivity].
    destruct d; cbn; repeat split. }
  destruct v as [i|u l h e df|x l h]; cbn.
  - apply I.
  - destruct u; try apply (I _). destruct l; cbn; try (eexists; eexists; reflexivity). destruct h; cbn; try (eexists; eexists; reflexivity).
  - reflexivity.
Qed.

(** entries of a record *)

Definition entry_for (kv : metric_kv) (e : entry pb_value) : Prop :=
  e_model e = pb_model (kv_key kv) /\ e_output e = pb_output (kv_key kv) /\ sub_key_id (pb_sub (kv_key kv)) = Ok (e_sub e) /\
  e_name e = metric_name (kv_key kv) /\ e_value e = metric_value_with_ci (kv_value kv) (kv_interval kv).

Definition default_of (kvs : list metric_kv) (d : option string) : option string :=
  fold_left (fun d kv => next_default (pb_diff (kv_key kv)) (pb_model (kv_key kv)) d) kvs d.

Lemma fold_entries kvs es : Forall2 entry_for kvs es -> forall acc d,
  foldM add_kv kvs (acc, d) = Ok (fold_left add_entry es acc, default_of kvs d).
Proof.
  induction 1 as [|kv e kvs es (E1 & E2 & E3 & E4 & E5) _ IH]; intros acc d; cbn [foldM fold_left]; [reflexivity|].
  unfold add_kv at 1. rewrite E3. cbn [bind fst snd]. rewrite IH. f_equal. f_equal. f_equal.
  unfold add_entry. rewrite E1, E2, E4, E5. reflexivity.
Qed.

Lemma default_none kvs : (forall kv, In kv kvs -> pb_diff (kv_key kv) = false) -> forall d, default_of kvs d = d.
Proof.
  unfold default_of. induction kvs as [|kv kvs IH]; intros H d; cbn [fold_left]; [reflexivity|].
  rewrite (H kv (or_introl eq_refl)). cbn [next_default]. apply IH. intros x I. apply H. right. exact I.
Qed.

Lemma default_same kvs m : (forall kv, In kv kvs -> pb_diff (kv_key kv) = true -> pb_model (kv_key kv) = m) ->
  default_of kvs (Some m) = Some m.
Proof.
  unfold default_of. induction kvs as [|kv kvs IH]; intros H; cbn [fold_left]; [reflexivity|].
  assert (X : next_default (pb_diff (kv_key kv)) (pb_model (kv_key kv)) (Some m) = Some m).
  { unfold next_default. destruct (pb_diff (kv_key kv)) eqn:D; [|reflexivity]. rewrite (H kv (or_introl eq_refl) D), String.eqb_refl. reflexivity. }
  rewrite X. apply IH. intros x I. apply H. right. exact I.
Qed.

Lemma default_some kvs m : (exists kv, In kv kvs /\ pb_diff (kv_key kv) = true) ->
  (forall kv, In kv kvs -> pb_diff (kv_key kv) = true -> pb_model (kv_key kv) = m) -> default_of kvs None = Some m.
Proof.
  induction kvs as [|kv kvs IH]; intros (x & I & D) H; [destruct I|]. unfold default_of. cbn [fold_left].
  destruct (pb_diff (kv_key kv)) eqn:Dk; cbn [next_default].
  - rewrite (H kv (or_introl eq_refl) Dk). apply default_same. intros y Iy. apply H. right. exact Iy.
  - apply IH; [|intros y Iy; apply H; right; exact Iy]. destruct I as [->|I]; [congruence|]. eauto.
Qed.

(** The request: the model named; or with no name, the model of the differences between
    models; or, without differences, the only model there is. *)

Definition asks (keys : list metric_key) (model_name : option string) (m : string) : Prop :=
  (model_name = Some m /\ m <> "" /\ exists k, In k keys /\ k_model k = m) \/
  ((model_name = None \/ model_name = Some "") /\ (exists k, In k keys /\ k_diff k = true) /\
   (forall k, In k keys -> k_diff k = true -> k_model k = m)) \/
  ((model_name = None \/ model_name = Some "") /\ keys <> [] /\ (forall k, In k keys -> k_diff k = false) /\
   (forall k, In k keys -> k_model k = m)).

Definition visible (m : string) (k : metric_key) : Prop := k_model k = m \/ k_model k = "".

Lemma dget_items (items : list (metric_key * mvalue)) k v : NoDup (map fst items) -> In (k, v) items -> dget metric_key_eqb items k = Some v.
Proof. intros N I. apply (dget_In_NoDup _ metric_key_eqb_eq); assumption. Qed.

Lemma record_entries f32 as_text k items r :
  convert_slice_metrics_to_proto f32 as_text k (SliceMetrics None items) = Ok r ->
  NoDup (map fst items) -> (forall key, In key (map fst items) -> made key /\ storable key) ->
  slice_to_proto f32 k = Ok (mf_slice r) /\ mf_metrics r = [] /\
  exists es, Forall2 entry_for (mf_kvs r) es /\
    Forall2 (fun kv (e : metric_key * mvalue) => k_model (fst e) = pb_model (kv_key kv) /\ k_diff (fst e) = pb_diff (kv_key kv)) (mf_kvs r) items /\
    Forall2 (fun (e : entry pb_value) (kv : metric_key * mvalue) =>
       e_model e = k_model (fst kv) /\ (e_output e, e_sub e, e_name e) = place (fst kv) /\ shows as_text (snd kv) (e_value e)) es items.
Proof.
  unfold convert_slice_metrics_to_proto. cbn [sm_error sm_items]. destruct (slice_to_proto f32 k) as [s|]; [|discriminate]. cbn [bind].
  destruct (sorted key_lt (map fst items)) as [keys|] eqn:Q; [|discriminate]. cbn [bind]. apply C77_sorting_is_listing_order_pf in Q. subst keys.
  match goal with |- context [mapM ?g _] => set (f := g) end. intros E N H.
  destruct (mapM f (map fst items)) as [kvs|] eqn:M; [|discriminate]. cbn [bind] in E. inversion E; subst r; clear E. cbn [mf_slice mf_metrics mf_kvs].
  split; [reflexivity|]. split; [reflexivity|].
  assert (G : forall l kvs, (forall kv, In kv l -> In kv items) -> mapM f (map fst l) = Ok kvs ->
    exists es, Forall2 entry_for kvs es /\
    Forall2 (fun kv (e : metric_key * mvalue) => k_model (fst e) = pb_model (kv_key kv) /\ k_diff (fst e) = pb_diff (kv_key kv)) kvs l /\
    Forall2 (fun (e : entry pb_value) (kv : metric_key * mvalue) =>
       e_model e = k_model (fst kv) /\ (e_output e, e_sub e, e_name e) = place (fst kv) /\ shows as_text (snd kv) (e_value e)) es l).
  { clear kvs M. induction l as [|[key v] l IH]; intros kvs I M; cbn [map mapM] in M.
    - inversion M. exists []. repeat split; constructor.
    - destruct (f (fst (key, v))) as [kv|] eqn:F; [|discriminate]. cbn [bind] in M.
      destruct (mapM f (map fst l)) as [kvs'|]; [|discriminate]. inversion M; subst kvs; clear M.
      destruct (IH kvs' (fun x J => I x (or_intror J)) eq_refl) as (es & I1 & I2 & I3).
      unfold f in F. cbn [fst] in F. rewrite (dget_items items key v N (I _ (or_introl eq_refl))) in F.
      destruct (key_to_proto key) as [p|] eqn:P; [|discriminate]. cbn [bind] in F. inversion F; subst kv; clear F.
      destruct (H key (in_map fst _ _ (I _ (or_introl eq_refl)))) as [Mk Sk].
      destruct (key_entry key p Mk Sk P) as (K1 & K2 & K3 & K4 & K5).
      assert (Kp : kv_key (convert_value as_text p v) = p) by (destruct v; reflexivity).
      exists (Entry (k_model key) (k_output key) (sub_label (k_sub key)) (shown_name key)
                (metric_value_with_ci (kv_value (convert_value as_text p v)) (kv_interval (convert_value as_text p v))) :: es).
      repeat apply conj; (constructor; [|assumption]).
      + unfold entry_for. rewrite Kp. cbn. rewrite K1, K2, K4. repeat split. exact K3.
      + rewrite Kp. cbn. auto.
      + cbn. repeat apply conj; [reflexivity|reflexivity|]. apply shows_stored. }
  apply G; auto.
Qed.

Lemma Forall2_In_l {A B} (P : A -> B -> Prop) l l' x : Forall2 P l l' -> In x l -> exists y, In y l' /\ P x y.
Proof. induction 1; intros []; subst; [eexists; split; [left; reflexivity|assumption]|]. destruct IHForall2 as (z & I & Q); [assumption|]. exists z. split; [right; exact I|exact Q]. Qed.

Lemma Forall2_In_r {A B} (P : A -> B -> Prop) l l' y : Forall2 P l l' -> In y l' -> exists x, In x l /\ P x y.
Proof. induction 1; intros []; subst; [eexists; split; [left; reflexivity|assumption]|]. destruct IHForall2 as (z & I & Q); [assumption|]. exists z. split; [right; exact I|exact Q]. Qed.

Section Shown.
  Context (f32 : Qc -> Qc) (as_text : num -> string) (k : any_key) (items : list (metric_key * mvalue)) (r : metrics_for_slice).
  Context (W : convert_slice_metrics_to_proto f32 as_text k (SliceMetrics None items) = Ok r).
  Context (R : readable_key f32 k) (N : NoDup (map fst items)) (H : forall key, In key (map fst items) -> made key /\ storable key).

  Lemma shown_metrics model_name m :
    asks (map fst items) model_name m ->
    (forall k1 k2, In k1 (map fst items) -> In k2 (map fst items) -> visible m k1 -> visible m k2 -> place k1 = place k2 -> k1 = k2) ->
    exists d, convert_metrics_proto_to_dict r model_name = Ok (Some (k, Some d)) /\
      (forall key v, In (key, v) items -> visible m key ->
         exists w, look d (k_output key) (sub_label (k_sub key)) (shown_name key) = Some w /\ shows as_text v w) /\
      (forall o s n w, look d o s n = Some w -> exists key, In key (map fst items) /\ visible m key /\ place key = (o, s, n)).
  Proof.
    intros A D. destruct (record_entries f32 as_text k items r W N H) as (Es & Em & es & F1 & F2 & F3).
    destruct (slice_round f32 k R) as (p & P1 & P2). rewrite P1 in Es. inversion Es; subst p; clear Es P1.
    unfold convert_metrics_proto_to_dict. rewrite Em. rewrite (fold_entries _ _ F1). cbn [bind fst snd].
    change (fold_left add_entry es []) with (build es).
    assert (Key : forall key, In key (map fst items) -> exists e, In e es /\ e_model e = k_model key).
    { intros key I. apply in_map_iff in I. destruct I as (kv & <- & I). destruct (Forall2_In_r _ _ _ _ F3 I) as (e & Ie & Q & _). eauto. }
    assert (Key' : forall e, In e es -> exists key, In key (map fst items) /\ e_model e = k_model key).
    { intros e I. destruct (Forall2_In_l _ _ _ _ F3 I) as (kv & Ik & Q & _). exists (fst kv). split; [apply in_map; exact Ik|exact Q]. }
    (* what is chosen, and what it holds *)
    assert (S1 : exists d, select_model true (build es) (chosen_model model_name (default_of (mf_kvs r) None)) = Some (Some d) /\
              forall o s n, look d o s n = match mlook (build es) "" o s n with
                                 | Some v => if String.eqb m "" then mlook (build es) m o s n else Some v
                                 | None => mlook (build es) m o s n end).
    { destruct A as [(-> & M & X)|[(X & (kd & Ikd & Dkd) & Y)|(X & NE & ND & U)]].
      - assert (C : chosen_model (Some m) (default_of (mf_kvs r) None) = Some m).
        { unfold chosen_model. apply String.eqb_neq in M. rewrite M. reflexivity. }
        rewrite C. apply select_found. destruct X as (key & I & <-). apply Key. exact I.
      - assert (Df : default_of (mf_kvs r) None = Some m).
        { apply default_some.
          - apply in_map_iff in Ikd. destruct Ikd as (kv & <- & I). destruct (Forall2_In_r _ _ _ _ F2 I) as (x & Ix & Q1 & Q2).
            exists x. split; [exact Ix|]. rewrite <- Q2. exact Dkd.
          - intros kv I Dk. destruct (Forall2_In_l _ _ _ _ F2 I) as (y & Iy & Q1 & Q2). rewrite <- Q1. apply Y; [apply in_map; exact Iy|]. congruence. }
        assert (C : chosen_model model_name (default_of (mf_kvs r) None) = Some m) by (destruct X as [-> | ->]; cbn; exact Df).
        rewrite C. apply select_found. rewrite <- (Y kd Ikd Dkd). apply Key. exact Ikd.
      - assert (Df : default_of (mf_kvs r) None = None).
        { apply default_none. intros kv I. destruct (Forall2_In_l _ _ _ _ F2 I) as (y & Iy & Q1 & Q2). rewrite <- Q2. apply ND. apply in_map. exact Iy. }
        assert (C : chosen_model model_name (default_of (mf_kvs r) None) = None) by (destruct X as [-> | ->]; cbn; exact Df).
        rewrite C. destruct (select_single es m true) as (d & B & Sd & L).
        + destruct items; [exfalso; apply NE; reflexivity|]. inversion F3; subst. discriminate.
        + intros e I. destruct (Key' e I) as (key & Ik & ->). apply U. exact Ik.
        + exists d. split; [exact Sd|]. intros o s n. rewrite L. rewrite B. unfold mlook. rewrite !sget_cons.
          destruct (String.eqb_spec "" m) as [<-|Mn]; cbn [String.eqb].
          * destruct (look d o s n); reflexivity.
          * reflexivity. }
    destruct S1 as (d & S1 & L). exists d. rewrite S1, P2. cbn [bind]. split; [reflexivity|].
    destruct (build_facts es) as (B1 & B2 & _).
    assert (Only : forall o s n w, look d o s n = Some w -> exists e, In e es /\ (e_output e, e_sub e, e_name e) = (o, s, n) /\ e_value e = w /\ (e_model e = m \/ e_model e = "")).
    { intros o s n w E. rewrite L in E. destruct (mlook (build es) "" o s n) eqn:E0.
      - destruct (String.eqb_spec m "").
        + apply B1 in E. exists (Entry m o s n w). cbn. auto.
        + inversion E; subst. apply B1 in E0. exists (Entry "" o s n w). cbn. auto.
      - apply B1 in E. exists (Entry m o s n w). cbn. auto. }
    assert (All : forall e, In e es -> (e_model e = m \/ e_model e = "") -> exists w, look d (e_output e) (e_sub e) (e_name e) = Some w).
    { intros e I M. rewrite L. destruct (B2 e I) as (v & E). destruct (mlook (build es) "" (e_output e) (e_sub e) (e_name e)) eqn:E0.
      - destruct (String.eqb_spec m ""); [|eauto]. rewrite e0, E0. eauto.
      - destruct M as [M|M]; rewrite M in E; [eauto|congruence]. }
    split.
    - intros key v I V. destruct (Forall2_In_r _ _ _ _ F3 I) as (e & Ie & Q1 & Q2 & Q3). cbn [fst snd] in *. unfold place in Q2. injection Q2 as Z1 Z2 Z3.
      destruct (All e Ie) as (w & Ew); [unfold visible in V; rewrite Q1; exact V|]. rewrite Z1, Z2, Z3 in Ew. exists w. split; [exact Ew|].
      destruct (Only _ _ _ _ Ew) as (e' & Ie' & P & <- & V'). destruct (Forall2_In_l _ _ _ _ F3 Ie') as ([key' v'] & I' & Q1' & Q2' & Q3'). cbn [fst snd] in *.
      assert (key = key').
      { apply D; [apply (in_map fst) in I; exact I|apply (in_map fst) in I'; exact I'|exact V|unfold visible; rewrite <- Q1'; exact V'|]. unfold place at 1. rewrite <- P. exact Q2'. }
      subst key'. assert (v = v') by (apply (dget_items items key) in I; [|exact N]; apply (dget_items items key) in I'; [|exact N]; congruence). subst v'. exact Q3'.
    - intros o s n w E. destruct (Only _ _ _ _ E) as (e & Ie & P & _ & V). destruct (Forall2_In_l _ _ _ _ F3 Ie) as ([key v] & I & Q1 & Q2 & _). cbn [fst] in *.
      exists key. split; [apply (in_map fst) in I; exact I|]. split; [unfold visible; rewrite <- Q1; exact V|]. congruence.
  Qed.

  Lemma no_such_model m : m <> "" -> items <> [] -> (forall key, In key (map fst items) -> k_model key <> m) ->
    convert_metrics_proto_to_dict r (Some m) = Ok None.
  Proof.
    intros M NE U. destruct (record_entries f32 as_text k items r W N H) as (Es & Em & es & F1 & F2 & F3).
    unfold convert_metrics_proto_to_dict. rewrite Em. rewrite (fold_entries _ _ F1). cbn [bind fst snd].
    change (fold_left add_entry es []) with (build es).
    assert (C : chosen_model (Some m) (default_of (mf_kvs r) None) = Some m).
    { unfold chosen_model. apply String.eqb_neq in M. rewrite M. reflexivity. }
    rewrite C, select_missing; [reflexivity| |exact M|].
    - destruct items; [congruence|]. inversion F3; subst. discriminate.
    - intros e I. destruct (Forall2_In_l _ _ _ _ F3 I) as (kv & Ik & -> & _). apply U. apply in_map. exact Ik.
  Qed.

End Shown.

Lemma C118_metrics_are_shown_partial_pf :
  forall f32 as_text k items r,
    convert_slice_metrics_to_proto f32 as_text k (SliceMetrics None items) = Ok r -> readable_key f32 k ->
    NoDup (map fst items) -> (forall key, In key (map fst items) -> made key /\ storable key) ->
    (forall model_name m,
       asks (map fst items) model_name m ->
       (* missing: metrics that share output, sub key and shown name, which replace each other *)
       (forall k1 k2, In k1 (map fst items) -> In k2 (map fst items) -> visible m k1 -> visible m k2 -> place k1 = place k2 -> k1 = k2) ->
       exists d, convert_metrics_proto_to_dict r model_name = Ok (Some (k, Some d)) /\
         (forall key v, In (key, v) items -> visible m key ->
            exists w, look d (k_output key) (sub_label (k_sub key)) (shown_name key) = Some w /\ shows as_text v w) /\
         (forall o s n w, look d o s n = Some w -> exists key, In key (map fst items) /\ visible m key /\ place key = (o, s, n))) /\
    (forall m, m <> "" -> items <> [] -> (forall key, In key (map fst items) -> k_model key <> m) ->
       convert_metrics_proto_to_dict r (Some m) = Ok None).
Proof.
  intros f32 as_text k items r W R N H. split.
  - intros. eapply shown_metrics; eassumption.
  - intros. eapply no_such_model; eassumption.
Qed.

Definition mkey (name model : string) (weighted : option bool) : metric_key := MetricKey name model "" None None weighted false.

Definition mk_sub (c : Z) : option sub_key := Some (SubKey (Some c) None None).

Definition plainly (z : Z) : mvalue := Plain (INum (Fin (qz z))).

Definition ex_text (x : num) : string := "?".

Lemma C118_weighted_metrics_collide_refuted_pf :
  exists items r d, convert_slice_metrics_to_proto (fun q => q) ex_text (One []) (SliceMetrics None items) = Ok r /\
    NoDup (map fst items) /\ (forall key, In key (map fst items) -> made key /\ storable key /\ k_model key = "") /\
    convert_metrics_proto_to_dict r None = Ok (Some (One [], Some d)) /\
    In (mkey "mean_label" "" (Some true), plainly 1) items /\
    forall o s n, look d o s n <> Some (PbDouble (Fin (qz 1))).
Proof.
  exists [(mkey "mean_label" "" (Some true), plainly 1); (mkey "mean_label" "" (Some false), plainly 2)]. eexists.
  exists [("", [("", [("mean_label", PbDouble (Fin (qz 2)))])])].
  split; [reflexivity|]. split; [repeat constructor; cbn; intuition discriminate|]. split.
  - intros key [<-|[<-|[]]]; (split; [split; intros ? Q; discriminate Q|split; [split; intros ? Q; discriminate Q|reflexivity]]).
  - split; [reflexivity|]. split; [left; reflexivity|].
    intros o s n. unfold look, sget. cbn [dget]. destruct (String.eqb o ""); cbn [dget]; [|discriminate].
    destruct (String.eqb s ""); cbn [dget]; [|discriminate]. destruct (String.eqb n "mean_label"); [|discriminate].
    intros Q. apply (f_equal (fun w => match w with Some (PbDouble (Fin q)) => QArith_base.Qnum (this q) | _ => 0%Z end)) in Q. discriminate Q.
Qed.

Definition same_slice (a b : any_key) : Prop :=
  match a, b with
  | One x, One y => same_key x y
  | Two x y, Two x' y' => same_key x x' /\ same_key y y'
  | _, _ => False
  end.

Lemma equals_slice_iff a b : equals_slice_name a b = true <-> same_slice a b.
Proof.
  unfold equals_slice_name, any_key_eqb, same_slice. destruct a as [[|x t]|x y]; destruct b as [b|x' y'].
  - destruct b; split; intros H; try discriminate; [constructor|reflexivity|inversion H].
  - split; intros H; [discriminate|destruct H].
  - apply key_eqb_same.
  - split; intros H; [discriminate|destruct H].
  - split; intros H; [discriminate|destruct H].
  - rewrite andb_true_iff, !key_eqb_same. tauto.
Qed.

Lemma same_slice_refl a : same_slice a a.
Proof.
  assert (R : forall k, same_key k k).
  { induction k as [|x k IH]; constructor; [|exact IH]. split; [reflexivity|left; reflexivity]. }
  destruct a; cbn; auto.
Qed.

(** the arguments class_id, k and top_k that ask for a sub key *)

Definition asks_sub (class_id k top_k : option Z) (s : option sub_key) : Prop :=
  match s with
  | None => class_id = None /\ k = None /\ top_k = None
  | Some s => mk_sub_key class_id k top_k = Ok s /\ (class_id <> None \/ k <> None \/ top_k <> None)
  end.

Lemma mk_sub_fields c k t s : mk_sub_key c k t = Ok s ->
  sk_class_id s = c /\ option_map Z.of_nat (sk_k s) = k /\ option_map Z.of_nat (sk_top_k s) = t.
Proof.
  intros E. assert (P : forall z, Z.ltb z 1 = false -> Z.of_nat (Z.to_nat z) = z) by (intros z Hz; apply Z.ltb_ge in Hz; lia).
  unfold mk_sub_key in E.
  destruct k as [k|], t as [t|], c as [c|]; try discriminate E; cbn [option_map] in E;
    repeat match type of E with context [Z.ltb ?z 1] => destruct (Z.ltb z 1) eqn:?; cbn [orb andb negb] in E; try discriminate E end;
    inversion E; cbn; rewrite ?P by assumption; auto.
Qed.

Lemma asks_sub_label c k t s : asks_sub c k t s -> metrics_sub_key c k t = Ok (sub_label s).
Proof.
  destruct s as [s|]; cbn.
  - intros [E Ne]. destruct (mk_sub_fields _ _ _ _ E) as (F1 & F2 & F3).
    assert (X : metrics_sub_key c k t = (let! s := mk_sub_key c k t in sub_key_text s)).
    { unfold metrics_sub_key. destruct c, k, t; try reflexivity. exfalso. destruct Ne as [H|[H|H]]; congruence. }
    rewrite X, E. cbn [bind]. unfold sub_key_text. destruct s as [c' k' t']; cbn in *. subst c'.
    destruct k'; [destruct c; reflexivity|]. destruct c, t'; try reflexivity. exfalso. cbn in *. subst. destruct Ne as [H|[H|H]]; congruence.
  - intros (-> & -> & ->). reflexivity.
Qed.

Lemma look_index {A} (d : nested A) o s n w : look d o s n = Some w ->
  exists x, index2 (Some d) o s = Ok x /\ sget x n = Some w.
Proof.
  unfold look, index2, index. destruct (sget d o) as [x|]; [|discriminate]. cbn [bind]. destruct (sget x s) as [y|]; [|discriminate]. eauto.
Qed.

Lemma mapM_In {A B} (f : A -> res B) l l' : mapM f l = Ok l' -> Forall2 (fun a b => f a = Ok b) l l'.
Proof.
  revert l'. induction l as [|a l IH]; intros l' E; cbn [mapM] in E; [inversion E; constructor|].
  destruct (f a) as [b|] eqn:F; [|discriminate]. cbn [bind] in E. destruct (mapM f l) as [t|]; [|discriminate]. inversion E. constructor; auto.
Qed.

(** One slice per key, written by the evaluation *)

Definition written (f32 : Qc -> Qc) (as_text : num -> string) (slices : list (any_key * list (metric_key * mvalue)))
    (rs : list metrics_for_slice) : Prop :=
  Forall2 (fun s r => convert_slice_metrics_to_proto f32 as_text (fst s) (SliceMetrics None (snd s)) = Ok r) slices rs /\
  (forall s, In s slices -> readable_key f32 (fst s) /\ NoDup (map fst (snd s)) /\
                            forall key, In key (map fst (snd s)) -> made key /\ storable key).

Lemma C119_metrics_of_a_slice_are_found_pf :
  forall V shard dir fmt ms ps ats v (fs : files V) locations model_name er f32 as_text slices m,
    stored shard dir fmt ms ps ats v fs -> load_eval_result locations fs dir fmt model_name = Ok er ->
    written f32 as_text slices (concat ms) ->
    ForallOrdPairs (fun s s' => ~ same_slice (fst s) (fst s')) slices ->
    (forall s, In s slices -> asks (map fst (snd s)) model_name m) ->
    (forall s k1 k2, In s slices -> In k1 (map fst (snd s)) -> In k2 (map fst (snd s)) -> visible m k1 -> visible m k2 ->
       place k1 = place k2 -> k1 = k2) ->
    (forall s key x c k t, In s slices -> In (key, x) (snd s) -> visible m key -> asks_sub c k t (k_sub key) ->
       exists d w, get_metrics_for_slice er (fst s) (k_output key) c k t = Ok (Some d) /\
         sget d (shown_name key) = Some w /\ shows as_text x w) /\
    (forall name o c k t sub, asks_sub c k t sub -> (forall s, In s slices -> ~ same_slice (fst s) name) ->
       get_metrics_for_slice er name o c k t = Ok None).
Proof.
  intros V shard dir fmt ms ps ats v fs locations model_name er f32 as_text slices m St L [W Ok_] ND As Di.
  unfold load_eval_result in L.
  destruct (C117_stored_results_are_loaded_pf V shard dir fmt fmt ms ps ats v fs St (or_introl eq_refl)) as (Lm & _). rewrite Lm in L. cbn [bind] in L.
  destruct (mapM (fun m => convert_metrics_proto_to_dict m model_name) (concat ms)) as [shown|] eqn:Sh; [|discriminate]. cbn [bind] in L.
  destruct (load_and_deserialize_plots fs dir fmt []) as [pl|]; [|discriminate]. cbn [bind] in L.
  destruct (mapM _ pl) as [plots|]; [|discriminate]. cbn [bind] in L.
  destruct (load_and_deserialize_attributions fs dir fmt []) as [al|]; [|discriminate]. cbn [bind] in L.
  destruct (mapM _ al) as [attrs|]; [|discriminate]. cbn [bind] in L. inversion L as [Er]; clear L. apply mapM_In in Sh.
  (* the loaded slices, in order *)
  assert (G : exists views, somes shown = views /\
    Forall2 (fun s (w : any_key * option (nested pb_value)) => fst w = fst s /\ exists d, snd w = Some d /\
        forall key x, In (key, x) (snd s) -> visible m key ->
          exists y, look d (k_output key) (sub_label (k_sub key)) (shown_name key) = Some y /\ shows as_text x y) slices views).
  { eexists. split; [reflexivity|]. clear - W Ok_ As Di Sh. revert shown Sh. induction W as [|s r slices rs Wr Ws IH]; intros shown Sh; inversion Sh; subst.
    - constructor.
    - destruct (Ok_ s (or_introl eq_refl)) as (R1 & R2 & R3).
      destruct (shown_metrics f32 as_text (fst s) (snd s) r Wr R1 R2 R3 model_name m (As s (or_introl eq_refl))) as (d & E & F & _).
      { intros k1 k2. apply (Di s k1 k2). left. reflexivity. }
      match goal with X : convert_metrics_proto_to_dict r model_name = Ok ?y |- _ => rewrite E in X; inversion X; subst y; clear X end.
      cbn [somes flat_map app]. constructor; [cbn; split; [reflexivity|]; exists d; auto|].
      apply IH; [intros x I; apply Ok_; right; exact I|intros x I; apply As; right; exact I|intros x k1 k2 I; apply (Di x k1 k2); right; exact I|assumption]. }
  destruct G as (views & Ev & G). subst views. set (views := somes shown) in *.
  assert (Fd : forall s, In s slices -> exists w, find (fun x => equals_slice_name (fst x) (fst s)) views = Some w /\
      exists d, snd w = Some d /\
        forall key x, In (key, x) (snd s) -> visible m key ->
          exists y, look d (k_output key) (sub_label (k_sub key)) (shown_name key) = Some y /\ shows as_text x y).
  { clear - G ND. induction G as [|s w slices views (E & d & D1 & D2) _ IH]; intros s0 I; [destruct I|]. inversion ND as [|? ? Hd Tl]; subst. cbn [find].
    destruct (equals_slice_name (fst w) (fst s0)) eqn:Q.
    - exists w. split; [reflexivity|]. destruct I as [<-|I]; [eauto|]. exfalso. apply equals_slice_iff in Q. rewrite E in Q.
      rewrite Forall_forall in Hd. exact (Hd s0 I Q).
    - destruct I as [<-|I]; [|apply IH; assumption]. exfalso. rewrite E in Q.
      assert (X := proj2 (equals_slice_iff (fst s) (fst s)) (same_slice_refl _)). congruence. }
  split.
  - intros s key x c k t I Ik Vk A. destruct (Fd s I) as (w & Ew & d & Dw & Hd). destruct (Hd key x Ik Vk) as (y & Ly & Sy).
    destruct (look_index _ _ _ _ _ Ly) as (z & Iz & Sz). exists z, y. split; [|auto].
    unfold get_metrics_for_slice. rewrite (asks_sub_label _ _ _ _ A). cbn [bind er_metrics]. rewrite Ew, Dw, Iz. reflexivity.
  - intros name o c k t sub A Nn. unfold get_metrics_for_slice. rewrite (asks_sub_label _ _ _ _ A). cbn [bind er_metrics].
    assert (X : find (fun m0 => equals_slice_name (fst m0) name) views = None).
    { clear - G Nn. induction G as [|s w slices views (E & _) _ IH]; [reflexivity|]. cbn [find].
      destruct (equals_slice_name (fst w) name) eqn:Q.
      - apply equals_slice_iff in Q. rewrite E in Q. exfalso. exact (Nn s (or_introl eq_refl) Q).
      - apply IH. intros x I. apply Nn. right. exact I. }
    rewrite X. reflexivity.
Qed.

Definition attribution_shown (k : metric_key) : string := if k_diff k then k_name k +++ "_diff" else k_name k.

Definition attribution_place (k : metric_key) : string * string * string := (k_output k, sub_label (k_sub k), attribution_shown k).

Definition attribution_value (as_text : num -> string) (i : item) (w : pb_value) : Prop :=
  match i with
  | IArray a => match ar_items a with [x] => w = PbDouble x | _ => stored_item as_text i w end
  | _ => stored_item as_text i w
  end.

Lemma attribution_entries f32 as_text k items r :
  convert_slice_attributions_to_proto f32 as_text k items = Ok r ->
  NoDup (map fst items) -> (forall key, In key (map fst items) -> made key /\ storable key) ->
  slice_to_proto f32 k = Ok (af_slice r) /\
  exists es d, foldM (fun acc kv =>
      let k := fst kv in
      let! id := sub_key_id (pa_sub k) in
      Ok (put_model (fst acc) (pa_model k) (pa_output k) id (attribution_name k) (snd kv),
          next_default (pa_diff k) (pa_model k) (snd acc))) (af_kvs r) ([], None) = Ok (build es, d) /\
    ((exists key, In key (map fst items) /\ k_diff key = true) \/ d = None) /\
    Forall2 (fun (e : entry (list (string * pb_value))) (kv : metric_key * list (string * item)) =>
       e_model e = k_model (fst kv) /\ (e_output e, e_sub e, e_name e) = attribution_place (fst kv) /\
       Forall2 (fun fv gw => fst fv = fst gw /\ attribution_value as_text (snd fv) (snd gw)) (snd kv) (e_value e)) es items.
Proof.
  unfold convert_slice_attributions_to_proto. destruct (slice_to_proto f32 k) as [s|]; [|discriminate]. cbn [bind].
  destruct (sorted key_lt (map fst items)) as [keys|] eqn:Q; [|discriminate]. cbn [bind]. apply C77_sorting_is_listing_order_pf in Q. subst keys.
  match goal with |- context [mapM ?g (map fst items)] => set (f := g) end. intros E N H.
  destruct (mapM f (map fst items)) as [kvs|] eqn:M; [|discriminate]. cbn [bind] in E. inversion E; subst r; clear E. cbn [af_slice af_kvs].
  split; [reflexivity|].
  match goal with |- context [foldM ?g kvs _] => set (step := g) end.
  assert (G : forall l kvs acc d0, (forall kv, In kv l -> In kv items) -> mapM f (map fst l) = Ok kvs ->
    exists es d, foldM step kvs (acc, d0) = Ok (fold_left add_entry es acc, d) /\
      ((exists key, In key (map fst l) /\ k_diff key = true) \/ d = d0) /\
      Forall2 (fun (e : entry (list (string * pb_value))) (kv : metric_key * list (string * item)) =>
       e_model e = k_model (fst kv) /\ (e_output e, e_sub e, e_name e) = attribution_place (fst kv) /\
       Forall2 (fun fv gw => fst fv = fst gw /\ attribution_value as_text (snd fv) (snd gw)) (snd kv) (e_value e)) es l).
  { clear kvs M. induction l as [|[key v] l IH]; intros kvs acc d0 I M; cbn [map mapM] in M.
    - inversion M. exists [], d0. split; [reflexivity|]. split; [right; reflexivity|constructor].
    - destruct (f (fst (key, v))) as [kv|] eqn:F; [|discriminate]. cbn [bind] in M.
      destruct (mapM f (map fst l)) as [kvs'|]; [|discriminate]. inversion M; subst kvs; clear M.
      unfold f in F. cbn [fst] in F. rewrite (proj2 (dget_In_NoDup _ metric_key_eqb_eq items key v N) (I _ (or_introl eq_refl))) in F.
      unfold attributions_key_to_proto in F. destruct (opt_sub_to_proto (k_sub key)) as [ps|] eqn:Ps; [|discriminate]. cbn [bind] in F.
      match type of F with context [mapM ?g v] => set (conv := g) in F end.
      destruct (mapM conv v) as [vs|] eqn:Mv; [|discriminate]. cbn [bind] in F. inversion F; subst kv; clear F.
      destruct (H key (in_map fst _ _ (I _ (or_introl eq_refl)))) as [[M1 _] [S1 _]].
      assert (Id : sub_key_id ps = Ok (sub_label (k_sub key))).
      { apply sub_id_label; [|exact Ps]. intros x Hx. split; [apply M1|apply S1]; exact Hx. }
      set (e := Entry (k_model key) (k_output key) (sub_label (k_sub key)) (attribution_shown key) vs).
      destruct (IH kvs' (add_entry acc e) (next_default (k_diff key) (k_model key) d0) (fun x J => I x (or_intror J)) eq_refl)
        as (es & d & I1 & I2 & I3).
      exists (e :: es), d. split.
      + cbn [foldM]. unfold step at 1. cbn [fst snd pa_sub pa_model pa_output pa_diff]. rewrite Id. cbn [bind]. exact I1.
      + split.
        * cbn [map]. destruct I2 as [(k' & Ik & Dk)|I2]; [left; exists k'; split; [right; exact Ik|exact Dk]|].
          destruct (k_diff key) eqn:Dk; [left; exists key; split; [left; reflexivity|exact Dk]|]. right. rewrite I2. reflexivity.
        * constructor; [|exact I3]. cbn. repeat apply conj; [reflexivity|reflexivity|].
          apply mapM_In in Mv. clear - Mv. induction Mv as [|[n i] [n' w] vt ws C _ IHv]; constructor; [|exact IHv].
          unfold conv in C. cbn [fst snd] in C |- *. destruct (convert_attribution as_text i) as [w'|] eqn:Cw; [|discriminate].
          cbn [bind] in C. inversion C; subst n' w'. split; [reflexivity|].
          destruct i as [x|s|s|[sh dt xs]|s|t e]; cbn in Cw; inversion Cw; subst; cbn; try reflexivity.
          destruct xs as [|x [|y xs]]; inversion Cw; subst; cbn; try reflexivity; destruct dt; cbn; repeat split. }
  destruct (G items kvs [] None (fun _ I => I) M) as (es & d & G1 & G2 & G3). exists es, d. auto.
Qed.

Lemma C120_attributions_are_shown_partial_pf :
  forall f32 as_text k items r m model_name,
    convert_slice_attributions_to_proto f32 as_text (One k) items = Ok r -> Slicer_Main.storable f32 k ->
    NoDup (map fst items) -> (forall key, In key (map fst items) -> made key /\ storable key) ->
    (model_name = Some m /\ m <> "" /\ (exists key, In key (map fst items) /\ k_model key = m) \/
     (model_name = None \/ model_name = Some "") /\ items <> [] /\
       (forall key, In key (map fst items) -> k_model key = m /\ k_diff key = false)) ->
    (forall k1 k2, In k1 (map fst items) -> In k2 (map fst items) -> k_model k1 = m -> k_model k2 = m ->
       attribution_place k1 = attribution_place k2 -> k1 = k2) ->
    exists d, convert_attributions_proto_to_dict r model_name = Ok (k, Some d) /\
      (forall key fs, In (key, fs) items -> k_model key = m ->
         exists ws, look d (k_output key) (sub_label (k_sub key)) (attribution_shown key) = Some ws /\
           Forall2 (fun fv gw => fst fv = fst gw /\ attribution_value as_text (snd fv) (snd gw)) fs ws) /\
      (forall o s n w, look d o s n = Some w -> exists key, In key (map fst items) /\ k_model key = m /\ attribution_place key = (o, s, n)).
Proof.
  intros f32 as_text k items r m model_name W R N H A D.
  destruct (attribution_entries f32 as_text (One k) items r W N H) as (Es & es & df & Fo & Df & F3).
  destruct (slice_round f32 (One k) R) as (p & P1 & P2). rewrite P1 in Es. inversion Es; subst p; clear Es.
  assert (Ps : exists q, af_slice r = PbOne q /\ deserialize_slice_key q = Ok k).
  { destruct (af_slice r) as [q|b c]; cbn in P2.
    - exists q. split; [reflexivity|]. destruct (deserialize_slice_key q) as [k'|]; [|discriminate]. inversion P2. reflexivity.
    - destruct (deserialize_cross (b, c)); discriminate. }
  destruct Ps as (q & Eq & Dq).
  unfold convert_attributions_proto_to_dict.
  match goal with |- context [foldM ?g (af_kvs r) ?i] => assert (Fo' : foldM g (af_kvs r) i = Ok (build es, df)) by exact Fo end.
  rewrite Fo'. cbn [bind fst snd].
  assert (S1 : exists d, select_model false (build es) (chosen_model model_name df) = Some (Some d) /\
            forall o s n, look d o s n = mlook (build es) m o s n).
  { destruct (build_facts es) as (_ & _ & Wf & K & _). destruct A as [(-> & M & key & I & Km)|(X & NE & U)].
    - unfold chosen_model. apply String.eqb_neq in M. rewrite M. unfold select_model, mlook.
      destruct (sget (build es) m) as [d|] eqn:E.
      + exists d. split; [reflexivity|]. reflexivity.
      + exfalso. apply (dget_None _ String.eqb_eq) in E. apply E. apply K. apply in_map_iff in I. destruct I as (kv & Q & I). subst key.
        destruct (Forall2_In_r _ _ _ _ F3 I) as (e & Ie & Qe & _). exists e. split; [exact Ie|]. congruence.
    - assert (df = None). { destruct Df as [(kd & I & Dk)|Df]; [|exact Df]. destruct (U kd I). congruence. } subst df.
      assert (C : chosen_model model_name None = None) by (destruct X as [-> | ->]; reflexivity). rewrite C.
      destruct (select_single es m false) as (d & B & Sd & L).
      + destruct items; [congruence|]. inversion F3; subst. discriminate.
      + intros e I. destruct (Forall2_In_l _ _ _ _ F3 I) as (kv & Ik & -> & _). apply U. apply in_map. exact Ik.
      + exists d. auto. }
  destruct S1 as (d & S1 & L). exists d. rewrite S1, Eq. cbn [pb_slice_key]. rewrite Dq. cbn [bind]. split; [reflexivity|].
  destruct (build_facts es) as (B1 & B2 & _). split.
  - intros key fs I V. destruct (Forall2_In_r _ _ _ _ F3 I) as (e & Ie & Q1 & Q2 & Q3). cbn [fst snd] in *. unfold attribution_place in Q2. injection Q2 as Z1 Z2 Z3.
    destruct (B2 e Ie) as (w & Ew). rewrite Q1, V, Z1, Z2, Z3 in Ew. exists w. rewrite L. split; [exact Ew|].
    apply B1 in Ew. destruct (Forall2_In_l _ _ _ _ F3 Ew) as ([key' fs'] & I' & Q1' & Q2' & Q3'). cbn in Q1', Q2', Q3'.
    assert (key = key').
    { apply D; [apply (in_map fst) in I; exact I|apply (in_map fst) in I'; exact I'|exact V|congruence|exact Q2']. }
    subst key'. assert (fs = fs') by (apply (dget_In_NoDup _ metric_key_eqb_eq) in I; [|exact N]; apply (dget_In_NoDup _ metric_key_eqb_eq) in I'; [|exact N]; congruence).
    subst fs'. exact Q3'.
  - intros o s n w E. rewrite L in E. apply B1 in E. destruct (Forall2_In_l _ _ _ _ F3 E) as ([key fs] & I & Q1 & Q2 & _). cbn in Q1, Q2.
    exists key. split; [apply (in_map fst) in I; exact I|]. split; [congruence|]. congruence.
Qed.

Lemma C120_class_zero_refuted_pf :
  exists er x y, get_attributions_for_slice er [] "total" "" (Some 0%Z) None None = Ok (Some x) /\ x <> y /\
    exists d, er_attributions er = [([], Some d)] /\ look d "" "classId:0" "total" = Some y /\ look d "" "" "total" = Some x.
Proof.
  exists (EvalResult [] [] [([], Some [("", [("", [("total", [("all", PbBytes "all")])]); ("classId:0", [("total", [("age", PbBytes "zero")])])])])] "").
  exists [("all", PbBytes "all")], [("age", PbBytes "zero")]. split; [reflexivity|]. split; [discriminate|]. eexists. repeat split.
Qed.

Lemma C120_cross_slice_is_overall_refuted_pf :
  exists b c items r d, convert_slice_attributions_to_proto (fun q => q) ex_text (Two b c) items = Ok r /\ c <> [] /\
    convert_attributions_proto_to_dict r None = Ok ([], Some d).
Proof.
  exists [], [("country", VStr "fr")], [(mkey "total" "" None, [("age", INum (Fin (qz 2)))])]. do 2 eexists.
  split; [reflexivity|]. split; [discriminate|reflexivity].
Qed.

Lemma C120_sub_key_lookup_partial_pf :
  forall er name metric output c k t sub d,
    (* missing: class 0 *) c <> Some 0%Z ->
    asks_sub c k t sub -> metric <> "" ->
    In (name, d) (er_attributions er) -> (forall n x, In (n, x) (er_attributions er) -> same_key n name -> x = d) ->
    get_attributions_for_slice er name metric output c k t =
    match d with
    | None => Err TypeError
    | Some d => match look d output (sub_label sub) metric with Some x => Ok (Some x) | None => Err KeyError end
    end.
Proof.
  intros er name metric output c k t sub d C0 A Mn I U. unfold get_attributions_for_slice.
  assert (L : attributions_sub_key c k t = Ok (sub_label sub)).
  { rewrite <- (asks_sub_label _ _ _ _ A). unfold attributions_sub_key, metrics_sub_key. destruct sub as [s|]; cbn in A.
    - destruct A as [E Ne]. destruct (mk_sub_fields _ _ _ _ E) as (F1 & F2 & F3).
      assert (T : truthy_Z c || truthy_Z k || truthy_Z t = true).
      { assert (P : forall o z, option_map Z.of_nat o = Some z -> mk_sub_key c k t = Ok s -> True) by auto. clear P.
        rewrite !orb_true_iff. destruct c as [c|].
        - left. left. cbn. destruct (Z.eqb_spec c 0); [subst; congruence|reflexivity].
        - destruct Ne as [X|[X|X]]; [congruence| |].
          + left. right. destruct k as [k|]; [|congruence]. cbn. destruct (Z.eqb_spec k 0); [|reflexivity]. subst k. unfold mk_sub_key in E.
            destruct t; discriminate E.
          + right. destruct t as [t|]; [|congruence]. cbn. destruct (Z.eqb_spec t 0); [|reflexivity]. subst t. unfold mk_sub_key in E.
            destruct k as [k|]; [|discriminate E]. destruct (Z.ltb k 1); discriminate E. }
      rewrite T. destruct c, k, t; try reflexivity. discriminate T.
    - destruct A as (-> & -> & ->). reflexivity. }
  rewrite L. cbn [bind].
  destruct (find (fun m => equals_slice_name (One (fst m)) (One name)) (er_attributions er)) as [[n x]|] eqn:F.
  - apply find_some in F. destruct F as [If Q]. apply equals_slice_iff in Q. cbn in Q. rewrite (U n x If Q). cbn [snd].
    destruct d as [d|]; [|reflexivity]. unfold index2, look, index. destruct (sget d output) as [x1|]; [|reflexivity]. cbn [bind].
    destruct (sget x1 (sub_label sub)) as [x2|]; [|reflexivity]. cbn [bind]. unfold pick_attributions, index.
    apply String.eqb_neq in Mn. rewrite Mn. destruct (sget x2 metric); reflexivity.
  - exfalso. apply find_none with (x := (name, d)) in F; [|exact I]. cbn [fst] in F.
    assert (X := proj2 (equals_slice_iff (One name) (One name)) (same_slice_refl _)). congruence.
Qed.

(** The kind and content of a plot, and what a stored record holds of a kind *)

Definition plot_content (v : plot) : nat * string :=
  match v with Calibration s => (0, s) | ConfusionPlot s => (1, s) | MultiClass s => (2, s) | MultiLabel s => (3, s) | NotAPlot => (4, "") end.

Definition plot_of_kind (d : plot_data) (n : nat) : option string :=
  match n with 0 => pd_calibration d | 1 => pd_confusion d | 2 => pd_multi_class d | 3 => pd_multi_label d | _ => None end.

Definition default_plot (k : metric_key) : Prop := k_name k = "confusion_matrix_plot" \/ k_name k = "calibration_plot".

Definition plot_place (k : metric_key) : string * string * string := (k_model k, k_output k, sub_label (k_sub k)).

(** plots stored together: the two default plots of one model, output, sub key, aggregation
    and weighting *)

Definition together (k k' : metric_key) : Prop :=
  default_plot k /\ default_plot k' /\ k_model k = k_model k' /\ k_output k = k_output k' /\ k_sub k = k_sub k' /\
  k_agg k = k_agg k' /\ k_weighted k = k_weighted k' /\ k_diff k = k_diff k'.

Lemma parent_default k : default_plot k \/ ~ default_plot k.
Proof. unfold default_plot. destruct (string_dec (k_name k) "confusion_matrix_plot"); destruct (string_dec (k_name k) "calibration_plot"); tauto. Qed.

Lemma parent_of_default k : default_plot k -> parent_key k = (true, MetricKey "" (k_model k) (k_output k) (k_sub k) (k_agg k) (k_weighted k) (k_diff k)).
Proof. unfold parent_key. intros [-> | ->]; reflexivity. Qed.

Lemma parent_of_other k : ~ default_plot k -> parent_key k = (false, k).
Proof.
  intros H. unfold parent_key. destruct (memb _ _ _) eqn:E; [|reflexivity]. exfalso. apply H.
  apply (memb_In _ String.eqb_eq) in E. destruct E as [E|[E|[]]]; [left|right]; symmetry; exact E.
Qed.

Lemma parent_same k k' : parent_key k = parent_key k' <-> k = k' \/ together k k'.
Proof.
  destruct (parent_default k) as [D|D], (parent_default k') as [D'|D'];
    rewrite ?(parent_of_default _ D), ?(parent_of_default _ D'), ?(parent_of_other _ D), ?(parent_of_other _ D'); split; intros H.
  - inversion H. right. repeat split; assumption.
  - destruct H as [->|(_ & _ & -> & -> & -> & -> & -> & ->)]; reflexivity.
  - discriminate.
  - destruct H as [->|(_ & X & _)]; contradiction.
  - discriminate.
  - destruct H as [->|(X & _)]; contradiction.
  - inversion H. left. reflexivity.
  - destruct H as [->|(X & _)]; [reflexivity|contradiction].
Qed.

Lemma parent_eqb_eq a b : parent_eqb a b = true <-> a = b.
Proof.
  unfold parent_eqb. destruct a as [x k], b as [y k']. cbn [fst snd]. rewrite andb_true_iff, Bool.eqb_true_iff, metric_key_eqb_eq.
  split; [intros [-> ->]; reflexivity|intros [= -> ->]; auto].
Qed.

Lemma parent_place k : plot_place (snd (parent_key k)) = plot_place k.
Proof. destruct (parent_default k) as [D|D]; [rewrite (parent_of_default _ D)|rewrite (parent_of_other _ D)]; reflexivity. Qed.

Lemma parent_sub k : k_sub (snd (parent_key k)) = k_sub k.
Proof. destruct (parent_default k) as [D|D]; [rewrite (parent_of_default _ D)|rewrite (parent_of_other _ D)]; reflexivity. Qed.

Lemma set_plot_kind v d : v <> NotAPlot -> plot_of_kind (set_plot v d) (fst (plot_content v)) = Some (snd (plot_content v)).
Proof. destruct v; cbn; congruence. Qed.

Lemma set_plot_other v d n : n <> fst (plot_content v) -> plot_of_kind (set_plot v d) n = plot_of_kind d n.
Proof. destruct v; cbn; intros H; destruct n as [|[|[|[|n]]]]; cbn; congruence. Qed.

(** the plots of all models *)

Definition build3 (es : list (string * string * string * plot_view)) : list (string * flat plot_view) :=
  fold_left (fun d e => put_plot d (fst (fst (fst e))) (snd (fst (fst e))) (snd (fst e)) (snd e)) es [].

Lemma build3_facts es :
  (forall m o s v, look (build3 es) m o s = Some v -> In (m, o, s, v) es) /\
  (forall m o s v, In (m, o, s, v) es -> exists w, look (build3 es) m o s = Some w) /\
  wf1 (build3 es) /\ (forall m, In m (map fst (build3 es)) <-> exists o s v, In (m, o, s, v) es).
Proof.
  induction es as [|[[[m0 o0] s0] v0] es IH] using rev_ind.
  - repeat apply conj; [discriminate|intros ? ? ? ? []|constructor|]. intros m. cbn. split; [tauto|]. intros (o & s & v & []).
  - destruct IH as (H1 & H2 & H3 & H4). unfold build3 in *. rewrite fold_left_app. cbn [fold_left fst snd].
    change (put_plot ?d ?m ?o ?s ?v) with (put d m o s v). repeat apply conj.
    + intros m o s v. rewrite look_put, in_app_iff. destruct (same3 _ _ _ _ _ _) eqn:E.
      * apply same3_iff in E. destruct E as (-> & -> & ->). intros [= ->]. right. left. reflexivity.
      * intros Q. left. apply H1. exact Q.
    + intros m o s v I. rewrite look_put. destruct (same3 _ _ _ _ _ _) eqn:E; [eauto|]. apply in_app_iff in I. destruct I as [I|[[= -> -> -> ->]|[]]]; [eauto|].
      assert (X : same3 m o s m o s = true) by (apply same3_iff; auto). congruence.
    + apply wf1_sset. exact H3.
    + intros m. unfold put, sset. rewrite (dset_keys_In _ String.eqb_eq), H4. split.
      * intros [->|(o & s & v & I)]; [exists o0, s0, v0|exists o, s, v]; apply in_app_iff; cbn; auto.
      * intros (o & s & v & I). apply in_app_iff in I. destruct I as [I|[[= -> -> -> ->]|[]]]; [right; eauto|left; reflexivity].
Qed.

Lemma NoDup_snoc {A} (l : list A) x : NoDup l -> ~ In x l -> NoDup (l ++ [x]).
Proof. intros N I. apply (Permutation_NoDup (l := x :: l)); [apply Permutation_cons_append|constructor; assumption]. Qed.

Section Plots.
  Context (f32 : Qc -> Qc) (k : skey) (items : list (metric_key * plot)) (r : plots_for_slice).
  Context (W : convert_slice_plots_to_proto f32 (One k) None items = Ok r).
  Context (R : Slicer_Main.storable f32 k) (N : NoDup (map fst items)).
  Context (H : forall key, In key (map fst items) -> made key /\ storable key).

  Lemma plot_records :
    (* one kind once in a record *)
    (forall k1 v1 k2 v2, In (k1, v1) items -> In (k2, v2) items -> together k1 k2 -> fst (plot_content v1) = fst (plot_content v2) -> k1 = k2) ->
    slice_to_proto f32 (One k) = Ok (pf_slice r) /\ pf_plots r = [] /\
    exists acc : list ((bool * metric_key) * (pb_plot_key * plot_data)), pf_kvs r = map snd acc /\ NoDup (map fst acc) /\
      (forall par p d, In (par, (p, d)) acc -> exists key, In key (map fst items) /\ parent_key key = par /\ plot_key_to_proto (snd par) = Ok p) /\
      (forall key v, In (key, v) items -> exists p d, In (parent_key key, (p, d)) acc /\
          plot_of_kind d (fst (plot_content v)) = Some (snd (plot_content v))).
  Proof.
    intros One_. revert W. unfold convert_slice_plots_to_proto. destruct (slice_to_proto f32 (One k)) as [s|]; [|discriminate]. cbn [bind].
    destruct (sorted key_lt (map fst items)) as [keys|] eqn:Q; [|discriminate]. cbn [bind]. apply C77_sorting_is_listing_order_pf in Q. subst keys.
    match goal with |- context [foldM ?g (map fst items) []] => set (step := g) end.
    destruct (foldM step (map fst items) []) as [acc|] eqn:F; [|discriminate]. cbn [bind].
    destruct (existsb _ items) eqn:X; [discriminate|]. intros E. inversion E; subst r; clear E. cbn [pf_slice pf_plots pf_kvs].
    split; [reflexivity|]. split; [reflexivity|]. exists acc. split; [reflexivity|].
    assert (Real : forall key v, In (key, v) items -> v <> NotAPlot).
    { intros key v I ->. assert (Y : existsb (fun kv : metric_key * plot => match snd kv with NotAPlot => true | _ => false end) items = true).
      { apply existsb_exists. exists (key, NotAPlot). auto. } congruence. }
    assert (G : forall post pre acc0 acc1, pre ++ post = items -> foldM step (map fst post) acc0 = Ok acc1 ->
      NoDup (map fst acc0) ->
      (forall par p d, In (par, (p, d)) acc0 -> exists key, In key (map fst pre) /\ parent_key key = par /\ plot_key_to_proto (snd par) = Ok p) ->
      (forall key v, In (key, v) pre -> exists p d, In (parent_key key, (p, d)) acc0 /\
          plot_of_kind d (fst (plot_content v)) = Some (snd (plot_content v))) ->
      NoDup (map fst acc1) /\
      (forall par p d, In (par, (p, d)) acc1 -> exists key, In key (map fst items) /\ parent_key key = par /\ plot_key_to_proto (snd par) = Ok p) /\
      (forall key v, In (key, v) items -> exists p d, In (parent_key key, (p, d)) acc1 /\
          plot_of_kind d (fst (plot_content v)) = Some (snd (plot_content v)))).
    { induction post as [|[key v] post IH]; intros pre acc0 acc1 Sp Fo I1 I2 I3; cbn [map foldM] in Fo.
      - rewrite app_nil_r in Sp. inversion Fo; subst. auto.
      - assert (Ik : In (key, v) items) by (rewrite <- Sp; apply in_app_iff; right; left; reflexivity).
        assert (Sp' : (pre ++ [(key, v)]) ++ post = items) by (rewrite <- app_assoc; exact Sp).
        assert (Up : forall kv, In kv (map fst pre) -> In kv (map fst (pre ++ [(key, v)]))) by (intros kv J; rewrite map_app; apply in_app_iff; left; exact J).
        assert (Me : In key (map fst (pre ++ [(key, v)]))) by (rewrite map_app; apply in_app_iff; right; left; reflexivity).
        destruct (step acc0 (fst (key, v))) as [acc'|] eqn:St; [|discriminate]. cbn [bind] in Fo.
        unfold step in St. cbn [fst] in St. rewrite (proj2 (dget_In_NoDup _ metric_key_eqb_eq items key v N) Ik) in St.
        destruct (dget parent_eqb acc0 (parent_key key)) as [[p d]|] eqn:G0.
        + inversion St; subst acc'; clear St. apply (dget_In _ parent_eqb_eq) in G0.
          assert (Dn : NoDup (map fst (dset parent_eqb acc0 (parent_key key) (p, set_plot v d)))) by (apply (dset_NoDup _ parent_eqb_eq); exact I1).
          assert (Dg : forall par x, In (par, x) (dset parent_eqb acc0 (parent_key key) (p, set_plot v d)) <->
                    (if parent_eqb par (parent_key key) then x = (p, set_plot v d) else In (par, x) acc0)).
          { intros par x. rewrite <- (dget_In_NoDup _ parent_eqb_eq _ _ _ Dn), (dget_dset _ parent_eqb_eq).
            destruct (parent_eqb par (parent_key key)) eqn:Pe; [|apply (dget_In_NoDup _ parent_eqb_eq); exact I1].
            split; [intros [= <-]; reflexivity|intros ->; reflexivity]. }
          apply (IH (pre ++ [(key, v)]) _ _ Sp' Fo Dn).
          * intros par p' d' J. apply Dg in J. destruct (parent_eqb par (parent_key key)) eqn:Pe.
            -- apply parent_eqb_eq in Pe. subst par. inversion J; subst p' d'. destruct (I2 _ _ _ G0) as (key' & _ & _ & Pr). exists key. auto.
            -- destruct (I2 _ _ _ J) as (key' & J' & Pr). exists key'. auto.
          * intros key' v' J. apply in_app_iff in J. destruct J as [J|[[= <- <-]|[]]].
            -- destruct (I3 key' v' J) as (p' & d' & J1 & J2). destruct (parent_eqb (parent_key key') (parent_key key)) eqn:Pe.
               ++ exists p, (set_plot v d). split; [apply Dg; rewrite Pe; reflexivity|].
                  apply parent_eqb_eq in Pe. rewrite Pe in J1.
                  assert (Z : (p', d') = (p, d)).
                  { apply (dget_In_NoDup _ parent_eqb_eq _ _ _ I1) in J1. apply (dget_In_NoDup _ parent_eqb_eq _ _ _ I1) in G0. congruence. }
                  inversion Z; subst p' d'. rewrite set_plot_other; [exact J2|]. intros Kd.
                  assert (Ne : key' <> key).
                  { intros ->. rewrite <- Sp, map_app in N. cbn [map fst] in N. apply NoDup_remove_2 in N. apply N. apply in_app_iff. left.
                    apply (in_map fst) in J. exact J. }
                  apply parent_same in Pe. destruct Pe as [Pe|Pe]; [contradiction|]. apply Ne. eapply One_; [|exact Ik|exact Pe|exact Kd].
                  rewrite <- Sp. apply in_app_iff. left. exact J.
               ++ exists p', d'. split; [apply Dg; rewrite Pe; exact J1|exact J2].
            -- exists p, (set_plot v d). split; [apply Dg; rewrite (proj2 (parent_eqb_eq _ _) eq_refl); reflexivity|].
               apply set_plot_kind. eapply Real. exact Ik.
        + destruct (plot_key_to_proto (snd (parent_key key))) as [p|] eqn:Pk; [|discriminate]. cbn [bind] in St. inversion St; subst acc'; clear St.
          apply (dget_None _ parent_eqb_eq) in G0.
          apply (IH (pre ++ [(key, v)]) _ _ Sp' Fo).
          * rewrite map_app. cbn [map fst]. apply NoDup_snoc; assumption.
          * intros par p' d' J. apply in_app_iff in J. destruct J as [J|[[= <- <- <-]|[]]].
            -- destruct (I2 _ _ _ J) as (key' & J' & Pr). exists key'. auto.
            -- exists key. auto.
          * intros key' v' J. apply in_app_iff in J. destruct J as [J|[[= <- <-]|[]]].
            -- destruct (I3 key' v' J) as (p' & d' & J1 & J2). exists p', d'. split; [apply in_app_iff; left; exact J1|exact J2].
            -- exists p, (set_plot v no_plots). split; [apply in_app_iff; right; left; reflexivity|]. apply set_plot_kind. eapply Real. exact Ik. }
    apply (G items [] [] acc eq_refl F); [constructor|intros ? ? ? []|intros ? ? []].
  Qed.

End Plots.

Lemma C121_plots_are_shown_partial_pf :
  forall f32 k items r m model_name,
    convert_slice_plots_to_proto f32 (One k) None items = Ok r -> Slicer_Main.storable f32 k ->
    NoDup (map fst items) -> (forall key, In key (map fst items) -> made key /\ storable key) ->
    (model_name = Some m /\ (exists key, In key (map fst items) /\ k_model key = m) \/
     (model_name = None \/ model_name = Some "") /\ items <> [] /\ (forall key, In key (map fst items) -> k_model key = m)) ->
    (forall k1 v1 k2 v2, In (k1, v1) items -> In (k2, v2) items -> plot_place k1 = plot_place k2 ->
       k1 = k2 \/ together k1 k2 /\ fst (plot_content v1) <> fst (plot_content v2)) ->
    exists d, convert_plots_proto_to_dict r model_name = Ok (Some (k, Some d)) /\
      (forall key v, In (key, v) items -> k_model key = m ->
         exists x p, sget d (k_output key) = Some x /\ sget x (sub_label (k_sub key)) = Some (PlotOf p) /\
           plot_of_kind p (fst (plot_content v)) = Some (snd (plot_content v))) /\
      (forall o s x p, sget d o = Some x -> sget x s = Some p ->
         exists key, In key (map fst items) /\ k_model key = m /\ k_output key = o /\ sub_label (k_sub key) = s).
Proof.
  intros f32 k items r m model_name W R N H A D.
  destruct (plot_records f32 k items r W N) as (Es & Ep & acc & Ek & Nd & I2 & I3).
  { intros k1 v1 k2 v2 J1 J2 T Kd. destruct (D k1 v1 k2 v2 J1 J2) as [->|[_ X]]; [|reflexivity|contradiction].
    destruct T as (_ & _ & T1 & T2 & T3 & _). unfold plot_place. rewrite T1, T2, T3. reflexivity. }
  destruct (slice_round f32 (One k) R) as (p & P1 & P2). rewrite P1 in Es. inversion Es; subst p; clear Es.
  assert (Ps : exists q, pf_slice r = PbOne q /\ deserialize_slice_key q = Ok k).
  { destruct (pf_slice r) as [q|b c]; cbn in P2.
    - exists q. split; [reflexivity|]. destruct (deserialize_slice_key q) as [k'|]; [|discriminate]. inversion P2. reflexivity.
    - destruct (deserialize_cross (b, c)); discriminate. }
  destruct Ps as (q & Eq & Dq).
  unfold convert_plots_proto_to_dict. rewrite Ep, Ek. cbv beta iota zeta.
  match goal with |- context [foldM ?g (map snd acc) ?i] => set (step := g) end.
  set (es := map (fun a : (bool * metric_key) * (pb_plot_key * plot_data) => (plot_place (snd (fst a)), PlotOf (snd (snd a)))) acc).
  assert (Fo : foldM step (map snd acc) [] = Ok (build3 es)).
  { unfold build3, es. clear - I2 H. 
    assert (G : forall l st, (forall x, In x l -> In x acc) -> foldM step (map snd l) st =
       Ok (fold_left (fun d e => put_plot d (fst (fst (fst e))) (snd (fst (fst e))) (snd (fst e)) (snd e))
            (map (fun a : (bool * metric_key) * (pb_plot_key * plot_data) => (plot_place (snd (fst a)), PlotOf (snd (snd a)))) l) st)).
    { induction l as [|[par [p d]] l IH]; intros st I; cbn [map foldM fold_left]; [reflexivity|].
      destruct (I2 par p d (I _ (or_introl eq_refl))) as (key & Ik & Pk & Pp).
      unfold step at 1. cbn [fst snd]. unfold plot_key_to_proto in Pp. destruct (opt_sub_to_proto (k_sub (snd par))) as [ps|] eqn:Ps; [|discriminate].
      cbn [bind] in Pp. inversion Pp; subst p; clear Pp. cbn [pp_sub pp_model pp_output]. destruct (H key Ik) as [[M1 _] [S1 _]].
      rewrite (sub_id_label (k_sub (snd par)) ps); [|subst par; rewrite parent_sub; intros x Hx; split; [apply M1|apply S1]; exact Hx|exact Ps].
      cbn [bind]. apply IH. intros x J. apply I. right. exact J. }
    apply G. auto. }
  match goal with |- context [foldM step (map snd acc) ?i] => assert (Fo' : foldM step (map snd acc) i = Ok (build3 es)) by exact Fo end.
  rewrite Fo'. cbn [bind]. destruct (build3_facts es) as (B1 & B2 & Wf & K).
  assert (Ks : forall m, In m (map fst (build3 es)) <-> exists key, In key (map fst items) /\ k_model key = m).
  { intros m'. rewrite K. unfold es. split.
    - intros (o & s & v & I). apply in_map_iff in I. destruct I as ([par [p d]] & Q & I). cbn [fst snd] in Q. inversion Q; subst.
      destruct (I2 _ _ _ I) as (key & Ik & <- & _). exists key. split; [exact Ik|].
      pose proof (parent_place key) as Pp. unfold plot_place in Pp. inversion Pp. congruence.
    - intros (key & Ik & Q). subst m'. apply in_map_iff in Ik. destruct Ik as ([key' v] & Q & Ik). cbn in Q. subst key'.
      destruct (I3 key v Ik) as (p & d & J & _). exists (k_output key), (sub_label (k_sub key)), (PlotOf d). apply in_map_iff. eexists. split; [|exact J].
      cbn [fst snd]. rewrite parent_place. reflexivity. }
  assert (S1 : exists d, sget (build3 es) m = Some d /\
     match match model_name with Some m => sget (build3 es) m | None => None end, build3 es with
     | Some d, _ => Some (Some d)
     | None, [] => Some None
     | None, [(_, d)] => match model_name with None | Some "" => Some (Some d) | _ => None end
     | None, _ => None
     end = Some (Some d)).
  { destruct A as [(-> & X)|(X & NE & U)].
    - apply Ks in X. destruct (sget (build3 es) m) as [d|] eqn:E; [exists d; auto|]. apply (dget_None _ String.eqb_eq) in E. contradiction.
    - assert (A1 : forall x, In x (map fst (build3 es)) -> x = m). { intros x I. apply Ks in I. destruct I as (key & I & <-). apply U. exact I. }
      assert (A2 : In m (map fst (build3 es))).
      { destruct items as [|[key v] t]; [congruence|]. apply Ks. exists key. split; [left; reflexivity|apply U; left; reflexivity]. }
      destruct (build3 es) as [|[m1 d] t] eqn:E; [destruct A2|]. assert (m1 = m) by (apply A1; left; reflexivity). subst m1.
      assert (T : t = []).
      { destruct t as [|[m2 d2] t]; [reflexivity|]. exfalso. assert (m2 = m) by (apply A1; right; left; reflexivity). subst m2.
        unfold wf1 in Wf. cbn [map fst] in Wf. inversion Wf as [|? ? NI _]; subst. apply NI. left. reflexivity. }
      subst t. exists d. rewrite sget_cons, String.eqb_refl. split; [reflexivity|].
      destruct X as [-> | ->]; [reflexivity|]. rewrite sget_cons. destruct (String.eqb "" m); reflexivity. }
  destruct S1 as (d & Sd & Sel). exists d.
  match goal with |- context [match ?c with None => Ok None | Some _ => _ end] =>
    assert (Sel' : c = Some (Some d)) by exact Sel; rewrite Sel' end. rewrite Eq. cbn [pb_slice_key]. rewrite Dq. cbn [bind]. split; [reflexivity|].
  assert (Lk : forall o s, look (build3 es) m o s = match sget d o with None => None | Some x => sget x s end) by
    (intros; exact (f_equal (fun z => match z with None => None | Some x => match sget x o with None => None | Some y => sget y s end end) Sd)).
  split.
  - intros key v I V. destruct (I3 key v I) as (p & dt & J & Pc).
    assert (Ie : In (k_model key, k_output key, sub_label (k_sub key), PlotOf dt) es).
    { apply in_map_iff. eexists. split; [|exact J]. cbn [fst snd]. rewrite parent_place. reflexivity. }
    rewrite V in Ie. destruct (B2 _ _ _ _ Ie) as (w & L). assert (L' := L). apply B1 in L'. apply in_map_iff in L'.
    destruct L' as ([par' [p' d']] & Q & J'). cbn [fst snd] in Q. inversion Q as [[Q1 Q2 Q3 Q4]]. destruct (I2 _ _ _ J') as (key' & Ik' & Pk' & _).
    assert (Par : parent_key key' = parent_key key).
    { apply in_map_iff in Ik'. destruct Ik' as ([k2 v2] & E2 & Ik2). cbn in E2. subst k2. apply parent_same.
      destruct (D key' v2 key v Ik2 I) as [->|[T _]]; [|auto|auto]. rewrite <- (parent_place key'), Pk'. unfold plot_place. congruence. }
    assert (Z : (p', d') = (p, dt)).
    { rewrite <- Pk', Par in J'. apply (dget_In_NoDup _ parent_eqb_eq _ _ _ Nd) in J'. apply (dget_In_NoDup _ parent_eqb_eq _ _ _ Nd) in J. congruence. }
    inversion Z; subst p' d'. rewrite Lk in L. destruct (sget d (k_output key)) as [x|] eqn:Ex; [|discriminate]. exists x, dt. subst w. rewrite Q2, Q3. auto.
  - intros o s x p E1 E2. assert (L : look (build3 es) m o s = Some p) by (rewrite Lk, E1; exact E2). apply B1 in L.
    apply in_map_iff in L. destruct L as ([par' [p' d']] & Q & J'). cbn [fst snd] in Q. inversion Q as [[Q1 Q2 Q3 Q4]].
    destruct (I2 _ _ _ J') as (key' & Ik' & Pk' & _). exists key'. split; [exact Ik'|].
    pose proof (parent_place key') as Pp. rewrite Pk' in Pp. unfold plot_place in Pp. injection Pp as Pa Pb Pc. repeat split; congruence.
Qed.

Lemma C121_plots_replace_each_other_refuted_pf :
  exists items r d, convert_slice_plots_to_proto (fun q => q) (One []) None items = Ok r /\
    NoDup (map fst items) /\ (forall key, In key (map fst items) -> made key /\ storable key) /\
    convert_plots_proto_to_dict r None = Ok (Some ([], Some d)) /\
    In (mkey "confusion_matrix_plot" "" None, ConfusionPlot "binary") items /\
    forall o s x p, sget d o = Some x -> sget x s = Some (PlotOf p) -> pd_confusion p = None.
Proof.
  exists [(mkey "confusion_matrix_plot" "" None, ConfusionPlot "binary"); (mkey "multi_class_confusion_matrix_plot" "" None, MultiClass "multi")].
  eexists. exists [("", [("", PlotOf (PlotData None None (Some "multi") None))])].
  split; [reflexivity|]. split; [repeat constructor; cbn; intuition discriminate|]. split.
  - intros key [<-|[<-|[]]]; (split; split; intros ? Q; discriminate Q).
  - split; [reflexivity|]. split; [left; reflexivity|]. intros o s x p. rewrite sget_cons. destruct (String.eqb o ""); [|discriminate].
    intros [= <-]. rewrite sget_cons. destruct (String.eqb s ""); [|discriminate]. intros [= <-]. reflexivity.
Qed.

Lemma C121_cross_slice_is_overall_refuted_pf :
  exists b c items r d, convert_slice_plots_to_proto (fun q => q) (Two b c) None items = Ok r /\ c <> [] /\
    convert_plots_proto_to_dict r None = Ok (Some ([], Some d)).
Proof.
  exists [], [("country", VStr "fr")], [(mkey "calibration_plot" "" None, Calibration "x")]. do 2 eexists.
  split; [reflexivity|]. split; [discriminate|reflexivity].
Qed.

Lemma find_all_ones {A} (results : list (any_key * A)) sp : (forall r, In r results -> exists k, fst r = One k) ->
  find_all_slices results sp = Ok (filter (fun r => match fst r with One k => is_slice_applicable sp k | Two _ _ => false end) results).
Proof.
  intros H. unfold find_all_slices. match goal with |- context [mapM ?g _] => set (f := g) end.
  assert (X : exists ls, mapM f results = Ok ls /\ concat ls = filter (fun r => match fst r with One k => is_slice_applicable sp k | Two _ _ => false end) results).
  { induction results as [|[k a] results IH]; cbn [mapM]; [exists []; auto|].
    destruct (IH (fun r I => H r (or_intror I))) as (ls & E1 & E2). destruct (H _ (or_introl eq_refl)) as (k' & Q). cbn [fst] in Q. subst k.
    unfold f at 1. cbn [fst applicable_any bind]. rewrite E1. cbn [bind]. eexists. split; [reflexivity|]. cbn [concat filter fst]. rewrite E2.
    destruct (is_slice_applicable sp k'); reflexivity. }
  destruct X as (ls & E & Q). rewrite E. cbn [bind]. rewrite Q. reflexivity.
Qed.

Lemma chosen_slices {A} (results : list (any_key * A)) p sp :
  NoDup (map fst (sp_values p)) -> mk_spec p = Ok sp -> (forall r, In r results -> exists k, fst r = One k) ->
  forall r, In r results -> (match fst r with One k => is_slice_applicable sp k | Two _ _ => false end = true <-> selected_by p (fst r)).
Proof. intros N M H r I. destruct (H r I) as (k & Q). rewrite Q. apply selected_iff; assumption. Qed.

Lemma C122_cross_slices_refuted_pf :
  exists (results : list (any_key * nat)) sp, mk_spec (SlicingSpec [] []) = Ok sp /\
    In (One [], 7) results /\ selected_by (SlicingSpec [] []) (One []) /\
    find_all_slices results sp = Err IndexError /\ get_slicing_metrics results "" None = Err IndexError /\
    get_time_series [(results, "now")] sp = Err IndexError.
Proof.
  exists [(One [], 7); (Two [] [("country", VStr "fr")], 8)], (Spec [] []). split; [reflexivity|]. split; [left; reflexivity|].
  split; [split; [constructor|intros ? ? ? []]|]. repeat split.
Qed.

Lemma C122_slices_to_display_partial_pf :
  forall A (results : list (any_key * A)) column asked,
    (forall r, In r results -> exists k, fst r = One k) ->
    (forall p, asked = Some p -> NoDup (map fst (sp_values p))) ->
    let wanted := if String.eqb column "" then match asked with Some p => p | None => SlicingSpec [] [] end else SlicingSpec [column] [] in
    forall sp, match asked with Some p => mk_spec p = Ok sp | None => True end ->
    exists choose, (forall r, In r results -> (choose r = true <-> selected_by wanted (fst r))) /\
      get_slicing_metrics results column (option_map (fun _ => sp) asked) =
      match filter choose results with
      | [] => Err ValueError
      | [x] => Ok [x]
      | l => if String.eqb column "" then match asked with Some _ => Ok l | None => Err ValueError end else Ok l
      end.
Proof.
  intros A results column asked H N wanted sp M.
  assert (W : exists sw, mk_spec wanted = Ok sw /\ NoDup (map fst (sp_values wanted)) /\
    sw = (if negb (String.eqb column "") then Spec [column] [] else match option_map (fun _ => sp) asked with None => Spec [] [] | Some sp => sp end)).
  { unfold wanted. destruct (String.eqb column ""); cbn [negb].
    - destruct asked as [p|]; cbn [option_map].
      + exists sp. split; [exact M|]. split; [apply N; reflexivity|reflexivity].
      + eexists. split; [reflexivity|]. split; [constructor|reflexivity].
    - eexists. split; [reflexivity|]. split; [constructor|reflexivity]. }
  destruct W as (sw & Mw & Nw & Ew). eexists. split; [exact (chosen_slices results wanted sw Nw Mw H)|].
  unfold get_slicing_metrics. rewrite <- Ew, (find_all_ones results sw H). cbn [bind].
  destruct (filter _ results) as [|x [|y l]]; [reflexivity|destruct asked; reflexivity|]. destruct asked; cbn [option_map]; [destruct (String.eqb column ""); reflexivity|].
  reflexivity.
Qed.

Lemma C122_time_series_partial_pf :
  forall A L (runs : list (list (any_key * A) * L)) p sp,
    (forall run r, In run runs -> In r (fst run) -> exists k, fst r = One k) -> NoDup (map fst (sp_values p)) -> mk_spec p = Ok sp ->
    exists choose, (forall run r, In run runs -> In r (fst run) -> (choose r = true <-> selected_by p (fst r))) /\
      ((exists run, In run runs /\ 2 <= length (filter choose (fst run))) -> get_time_series runs sp = Err ValueError) /\
      ((forall run, In run runs -> filter choose (fst run) = []) -> get_time_series runs sp = Err ValueError) /\
      ((forall run, In run runs -> length (filter choose (fst run)) <= 1) -> (exists run, In run runs /\ filter choose (fst run) <> []) ->
       get_time_series runs sp = Ok (flat_map (fun run => map (fun r => (snd r, snd run)) (filter choose (fst run))) runs)).
Proof.
  intros A L runs p sp H N M.
  exists (fun r => match fst r with One k => is_slice_applicable sp k | Two _ _ => false end).
  split; [intros run r I J; exact (chosen_slices (fst run) p sp N M (fun x Jx => H run x I Jx) r J)|].
  set (choose := fun r : any_key * A => match fst r with One k => is_slice_applicable sp k | Two _ _ => false end).
  unfold get_time_series. match goal with |- context [foldM ?g _ _] => set (step := g) end.
  assert (St : forall run acc, In run runs -> step acc run =
     match filter choose (fst run) with [] => Ok acc | [x] => Ok (acc ++ [(snd x, snd run)]) | _ => Err ValueError end).
  { intros run acc I. unfold step. rewrite (find_all_ones (fst run) sp (fun x Jx => H run x I Jx)). cbn [bind]. reflexivity. }
  clearbody step. clear H M N.
  assert (Good : forall l acc, (forall run, In run l -> In run runs) -> (forall run, In run l -> length (filter choose (fst run)) <= 1) ->
     foldM step l acc = Ok (acc ++ flat_map (fun run => map (fun r => (snd r, snd run)) (filter choose (fst run))) l)).
  { induction l as [|run l IH]; intros acc I Le; cbn [foldM flat_map]; [rewrite app_nil_r; reflexivity|].
    rewrite St by (apply I; left; reflexivity). specialize (Le run (or_introl eq_refl)) as Lr.
    destruct (filter choose (fst run)) as [|x [|y t]]; cbn [length] in Lr; [| |lia]; cbn [bind map app].
    - apply IH; intros; first [apply I; right; assumption|apply Le; right; assumption].
    - rewrite IH by (intros; first [apply I; right; assumption|apply Le; right; assumption]). rewrite <- app_assoc. reflexivity. }
  repeat apply conj.
  - intros (run & I & Le).
    assert (Bad : forall l acc, (forall x, In x l -> In x runs) -> In run l -> foldM step l acc = Err ValueError).
    { induction l as [|x l IH]; intros acc Ix J; [destruct J|]. cbn [foldM]. rewrite St by (apply Ix; left; reflexivity).
      destruct J as [->|J].
      - destruct (filter choose (fst run)) as [|a [|b t]]; cbn [length] in Le; [lia|lia|reflexivity].
      - destruct (filter choose (fst x)) as [|a [|b t]]; cbn [bind]; [| |reflexivity]; apply IH; auto; intros; apply Ix; right; assumption. }
    rewrite (Bad runs [] (fun _ J => J) I). reflexivity.
  - intros Z. rewrite (Good runs []) by (auto; intros run I; rewrite (Z run I); cbn; lia). cbn [bind app].
    assert (E : flat_map (fun run => map (fun r => (snd r, snd run)) (filter choose (fst run))) runs = []).
    { clear - Z. induction runs as [|run l IH]; cbn [flat_map]; [reflexivity|]. rewrite (Z run (or_introl eq_refl)). cbn [map app].
      apply IH. intros; apply Z; right; assumption. }
    rewrite E. reflexivity.
  - intros Le (run & I & Ne). rewrite (Good runs []) by auto. cbn [bind app].
    destruct (flat_map _ runs) as [|a t] eqn:E; [|reflexivity]. exfalso.
    destruct (filter choose (fst run)) as [|x t] eqn:F; [congruence|].
    assert (J : In (snd x, snd run) (flat_map (fun run => map (fun r => (snd r, snd run)) (filter choose (fst run))) runs)).
    { apply in_flat_map. exists run. split; [exact I|]. rewrite F. left. reflexivity. }
    rewrite E in J. destruct J.
Qed.

Lemma C123_models_of_later_runs_refuted_pf :
  exists locations paths (load : string -> option string -> res (string * option string)) rs,
    (forall path name, load path name = Ok (path, name)) /\
    load_eval_results locations load paths None = Ok rs /\
    exists path name, In path paths /\ In name (map fst (locations path)) /\ ~ In (path, Some name) rs.
Proof.
  exists (fun path => if String.eqb path "run1" then [("baseline", "/b"); ("candidate", "/c")] else [("baseline", "/b2"); ("candidate", "/c2")]),
         ["run1"; "run2"], (fun p n => Ok (p, n)), [("run1", Some "baseline"); ("run1", Some "candidate"); ("run2", Some "candidate")].
  split; [reflexivity|]. split; [reflexivity|]. exists "run2", "baseline". split; [right; left; reflexivity|]. split; [left; reflexivity|].
  cbn. intuition discriminate.
Qed.

Lemma C123_all_results_are_loaded_partial_pf :
  forall R locations (load : string -> option string -> res R) paths,
    (forall m, load_eval_results locations load paths (Some m) = mapM (fun path => load path (Some m)) paths) /\
    (forall path, paths = [path] ->
       load_eval_results locations load paths None = mapM (fun name => load path (Some name)) (map fst (locations path))) /\
    (forall m, (forall path, In path paths -> map fst (locations path) = [m]) ->
       load_eval_results locations load paths None = mapM (fun path => load path (Some m)) paths).
Proof.
  intros R locations load.
  assert (Nm : forall m paths acc,
     (let! a := foldM (fun acc path =>
        let names := match snd acc with None => map fst (locations path) | Some m => [m] end in
        foldM (fun acc name => let! r := load path (Some name) in Ok (fst acc ++ [r], Some name)) names acc) paths (acc, Some m) in Ok (fst a))
     = (let! l := mapM (fun path => load path (Some m)) paths in Ok (acc ++ l))).
  { induction paths as [|path paths IH]; intros acc; cbn [foldM mapM snd]; [cbn; rewrite app_nil_r; reflexivity|].
    destruct (load path (Some m)) as [r|e]; cbn [bind fst]; [|reflexivity]. rewrite IH.
    destruct (mapM (fun path0 => load path0 (Some m)) paths) as [l|e]; cbn [bind]; [|reflexivity]. rewrite <- app_assoc. reflexivity. }
  assert (Z : forall m paths, load_eval_results locations load paths (Some m) = mapM (fun path => load path (Some m)) paths).
  { intros m paths. unfold load_eval_results. rewrite Nm. destruct (mapM _ paths); reflexivity. }
  intros paths. repeat apply conj.
  - intros m. apply Z.
  - intros path ->. unfold load_eval_results. cbn [foldM snd].
    assert (G : forall names acc o, (let! s := (let! s' := foldM (fun acc name => let! r := load path (Some name) in Ok (fst acc ++ [r], Some name)) names (acc, o) in Ok s') in Ok (fst s))
       = (let! l := mapM (fun name => load path (Some name)) names in Ok (acc ++ l))).
    { induction names as [|n names IH]; intros acc o; cbn [foldM mapM]; [cbn; rewrite app_nil_r; reflexivity|].
      destruct (load path (Some n)) as [r|e]; cbn [bind fst]; [|reflexivity]. rewrite IH.
      destruct (mapM (fun name => load path (Some name)) names); cbn [bind]; [|reflexivity]. rewrite <- app_assoc. reflexivity. }
    rewrite G. destruct (mapM _ _); reflexivity.
  - intros m U. destruct paths as [|path paths]; [reflexivity|]. unfold load_eval_results. cbn [foldM snd].
    rewrite (U path (or_introl eq_refl)). cbn [foldM mapM fst]. destruct (load path (Some m)) as [r|e]; cbn [bind app]; [|reflexivity].
    rewrite Nm. destruct (mapM (fun path0 => load path0 (Some m)) paths); reflexivity.
Qed.

(** What an evaluator sees: the extracts before any extractor, after a stage, or after all. *)

Section Running.
  Context {E A : Type}.
  Implicit Types (xs : list (extractor E)) (v : evaluator E A).

  Definition extracts_after (e : E) xs : E := fold_left (fun e x => x_run x e) xs e.
  Definition sees (e : E) xs v (e' : E) : Prop :=
    match v_after v with
    | None | Some "" => e' = e
    | Some a => a = "<last-extractor>" /\ e' = extracts_after e xs \/
                exists pre x post, xs = pre ++ x :: post /\ x_stage x = a /\ e' = extracts_after e (pre ++ [x])
    end.

  Definition outputs_for (k : string) (out : list (string * A)) : list A :=
    flat_map (fun kv => if String.eqb (fst kv) k then [snd kv] else []) out.

  Lemma child_update ev new k : child (update ev new) k = child ev k ++ outputs_for k new.
  Proof.
    unfold update. revert ev. induction new as [|[k' a] new IH]; intros ev; cbn [fold_left outputs_for flat_map]; [rewrite app_nil_r; reflexivity|].
    rewrite IH. cbn [fst snd]. change (dset String.eqb ev k' (child ev k' ++ [a])) with (sset ev k' (child ev k' ++ [a])). rewrite child_sset.
    rewrite (String.eqb_sym k k'). destruct (String.eqb_spec k' k) as [->|]; [|reflexivity]. rewrite <- app_assoc. reflexivity.
  Qed.

  Lemma child_run_those p (vs : list (evaluator E A)) e ev k :
    child (run_those p vs e ev) k = child ev k ++ flat_map (fun v => if p v then outputs_for k (v_run v e) else []) vs.
  Proof.
    unfold run_those. revert ev. induction vs as [|v vs IH]; intros ev; cbn [fold_left flat_map]; [rewrite app_nil_r; reflexivity|].
    rewrite IH. destruct (p v); [rewrite child_update, <- app_assoc; reflexivity|reflexivity].
  Qed.

  Fixpoint staged k (vs : list (evaluator E A)) e xs : list A :=
    match xs with
    | [] => []
    | x :: t => flat_map (fun v => if runs_after v (x_stage x) then outputs_for k (v_run v (x_run x e)) else []) vs ++ staged k vs (x_run x e) t
    end.
  Fixpoint at_stage k v e xs : list A :=
    match xs with
    | [] => []
    | x :: t => if runs_after v (x_stage x) then outputs_for k (v_run v (x_run x e)) else at_stage k v (x_run x e) t
    end.

  Lemma flat_map_eq_in {B C} (f g : B -> list C) l : (forall x, In x l -> f x = g x) -> flat_map f l = flat_map g l.
  Proof.
    induction l as [|x l IH]; intros H; cbn [flat_map]; [reflexivity|]. rewrite (H x (or_introl eq_refl)), IH; [reflexivity|].
    intros y I. apply H. right. exact I.
  Qed.

  Lemma child_stages xs (vs : list (evaluator E A)) k : forall e ev,
    let s := fold_left (fun s x => let e := x_run x (fst s) in (e, run_those (fun v => runs_after v (x_stage x)) vs e (snd s))) xs (e, ev) in
    fst s = extracts_after e xs /\
    child (snd s) k = child ev k ++ staged k vs e xs.
  Proof.
    induction xs as [|x xs IH]; intros e ev; cbn [fold_left fst snd]; [split; [reflexivity|rewrite app_nil_r; reflexivity]|].
    destruct (IH (x_run x e) (run_those (fun v => runs_after v (x_stage x)) vs (x_run x e) ev)) as [I1 I2]. split; [exact I1|].
    etransitivity; [exact I2|]. rewrite child_run_those, <- app_assoc. reflexivity.
  Qed.

  Lemma Permutation_flat_map_app {B C} (f g : B -> list C) l : Permutation (flat_map f l ++ flat_map g l) (flat_map (fun x => f x ++ g x) l).
  Proof.
    induction l as [|x l IH]; cbn [flat_map]; [constructor|]. rewrite <- IH, <- !app_assoc. apply Permutation_app_head.
    rewrite !app_assoc. apply Permutation_app_tail. apply Permutation_app_comm.
  Qed.

End Running.

Lemma C124_evaluators_run_once_pf :
  forall E A (e : E) (xs : list (extractor E)) (vs : list (evaluator E A)) (input : evaluator E A -> E) k,
    NoDup (map x_stage xs) -> ~ In "" (map x_stage xs) -> ~ In "<last-extractor>" (map x_stage xs) ->
    (forall v, In v vs -> verify_evaluator v xs = Ok tt) -> (forall v, In v vs -> sees e xs v (input v)) ->
    Permutation (child (extract_and_evaluate e xs vs) k) (flat_map (fun v => outputs_for k (v_run v (input v))) vs).
Proof.
  intros E A e xs vs input k N N1 N2 Ver Se. unfold extract_and_evaluate. rewrite child_run_those.
  destruct (child_stages xs vs k e (run_those runs_first vs e [])) as [Fs Ch]. cbn zeta in Fs, Ch. rewrite Fs, Ch, child_run_those. cbn [child sget dget app].
  assert (G : forall l (e0 : E), NoDup (map x_stage l) ->
    Permutation (staged k vs e0 l) (flat_map (fun v => at_stage k v e0 l) vs)).
  { induction l as [|x l IH]; intros e0 Nd; cbn [staged at_stage].
    - clear. induction vs; cbn; auto.
    - cbn [map] in Nd. inversion Nd as [|? ? NI Nd']; subst. rewrite (IH (x_run x e0) Nd'). etransitivity; [apply Permutation_flat_map_app|].
      apply Permutation_refl', flat_map_eq_in. intros v _. destruct (runs_after v (x_stage x)) eqn:Ra; [|reflexivity].
      assert (Z : forall l' e1, (forall y, In y l' -> In y l) -> at_stage k v e1 l' = []).
      { induction l' as [|y l' IHl]; intros e1 Sub; [reflexivity|]. cbn [at_stage].
        destruct (runs_after v (x_stage y)) eqn:Ry.
        - exfalso. unfold runs_after in Ra, Ry. destruct (v_after v) as [a|]; [|discriminate]. apply String.eqb_eq in Ra. apply String.eqb_eq in Ry.
          apply NI. rewrite <- Ra, Ry. apply in_map. apply Sub. left. reflexivity.
        - apply IHl. intros z Iz. apply Sub. right. exact Iz. }
      rewrite Z by auto. apply app_nil_r. }
  rewrite (G xs e N). rewrite Permutation_app_comm.
  etransitivity; [apply Permutation_app_head; apply Permutation_flat_map_app|]. etransitivity; [apply Permutation_flat_map_app|].
  apply Permutation_refl', flat_map_eq_in. intros v Iv. specialize (Ver v Iv). specialize (Se v Iv). unfold verify_evaluator in Ver. unfold sees in Se.
  (* the stages *)
  assert (At_none : forall l e0, (forall x, In x l -> runs_after v (x_stage x) = false) -> at_stage k v e0 l = []).
  { induction l as [|x l IH]; intros e0 H; [reflexivity|]. cbn [at_stage]. rewrite (H x (or_introl eq_refl)). apply IH. intros y I. apply H. right. exact I. }
  assert (At_some : forall pre x post e0, runs_after v (x_stage x) = true -> (forall y, In y pre -> runs_after v (x_stage y) = false) ->
       at_stage k v e0 (pre ++ x :: post)
       = outputs_for k (v_run v (extracts_after e0 (pre ++ [x])))).
  { induction pre as [|y pre IH]; intros x post e0 Hx Hp; cbn [app at_stage].
    - rewrite Hx. reflexivity.
    - rewrite (Hp y (or_introl eq_refl)). rewrite IH; [reflexivity|exact Hx|]. intros z I. apply Hp. right. exact I. }
  unfold runs_first, runs_after in *.
  remember (v_after v) as va eqn:Eva. clear Eva. destruct va as [a|].
  - destruct (string_dec a "") as [Qa|Na].
    + rewrite Qa in *. rewrite Se. cbn [String.eqb].
      match goal with |- context [at_stage k v ?x ?y] => rewrite (At_none y x) end.
      2:{ intros x I. apply String.eqb_neq. intros Q. apply N1. rewrite Q. apply in_map. exact I. }
      cbn. rewrite ?app_nil_r. reflexivity.
    + rewrite (proj2 (String.eqb_neq a "") Na). assert (Se' : a = "<last-extractor>" /\ input v = extracts_after e xs \/
                exists pre x post, xs = pre ++ x :: post /\ x_stage x = a /\ input v = extracts_after e (pre ++ [x])) by (destruct a; [congruence|exact Se]).
      destruct Se' as [(-> & ->)|(pre & x & post & Ex & Sx & ->)].
      * match goal with |- context [at_stage k v ?x ?y] => rewrite (At_none y x) end.
        2:{ intros x I. apply String.eqb_neq. intros Q. apply N2. rewrite Q. apply in_map. exact I. }
        unfold LAST_EXTRACTOR_STAGE_NAME. rewrite String.eqb_refl. cbn. rewrite ?app_nil_r. reflexivity.
      * assert (Nl : String.eqb a LAST_EXTRACTOR_STAGE_NAME = false).
        { apply String.eqb_neq. intros Q. apply N2. unfold LAST_EXTRACTOR_STAGE_NAME in Q. rewrite <- Q, <- Sx, Ex. apply in_map. apply in_app_iff. right. left. reflexivity. }
        rewrite Nl. rewrite Ex at 1. rewrite At_some.
        -- rewrite ?app_nil_r. reflexivity.
        -- rewrite Sx. apply String.eqb_refl.
        -- intros y I. apply String.eqb_neq. intros Q. rewrite Ex, map_app in N. cbn [map] in N. apply NoDup_remove_2 in N. apply N. apply in_app_iff. left.
           rewrite Sx, Q. apply in_map. exact I.
  - subst. match goal with |- context [at_stage k v ?x ?y] => rewrite (At_none y x) end; [|reflexivity]. cbn. rewrite ?app_nil_r. reflexivity.
Qed.

Lemma C124_verification_pf :
  forall E A (xs : list (extractor E)) (v : evaluator E A),
    verify_evaluator v xs = Ok tt <->
    (v_after v = None \/ v_after v = Some "" \/ v_after v = Some "<last-extractor>" \/ exists x, In x xs /\ v_after v = Some (x_stage x)).
Proof.
  intros E A xs v. unfold verify_evaluator. destruct (v_after v) as [a|]; [|split; auto].
  destruct (String.eqb_spec a "") as [->|N1]; cbn [negb andb]; [split; auto|].
  destruct (String.eqb_spec a LAST_EXTRACTOR_STAGE_NAME) as [->|N2]; cbn [negb andb]; [split; auto|].
  destruct (existsb (fun x => String.eqb a (x_stage x)) xs) eqn:Ex; cbn [negb].
  - split; auto. intros _. apply existsb_exists in Ex. destruct Ex as (x & I & Q). apply String.eqb_eq in Q. subst a. right. right. right. eauto.
  - split; [discriminate|]. intros [Q|[Q|[Q|(x & I & Q)]]]; [discriminate|injection Q as Q; contradiction|injection Q as Q; contradiction|]. injection Q as Q.
    assert (X : existsb (fun y => String.eqb a (x_stage y)) xs = true) by (apply existsb_exists; exists x; split; [exact I|apply String.eqb_eq; exact Q]). congruence.
Qed.

Lemma C125_errors_are_shown_partial_pf :
  forall f32 as_text k e items r model_name,
    convert_slice_metrics_to_proto f32 as_text k (SliceMetrics (Some e) items) = Ok r -> readable_key f32 k ->
    model_name = None \/ model_name = Some "" ->
    exists d, convert_metrics_proto_to_dict r model_name = Ok (Some (k, Some d)) /\
      forall o s n w, look d o s n = Some w <-> (o, s, n, w) = ("", "", "__ERROR__", PbDebug e).
Proof.
  intros f32 as_text k e items r model_name W R X. unfold convert_slice_metrics_to_proto in W. destruct (slice_round f32 k R) as (p & P1 & P2).
  rewrite P1 in W. cbn [bind sm_error] in W. inversion W; subst r; clear W.
  exists [("", [("", [("__ERROR__", PbDebug e)])])]. split.
  - unfold convert_metrics_proto_to_dict. cbn [mf_metrics mf_kvs mf_slice foldM bind fst snd].
    assert (C : chosen_model model_name None = None) by (destruct X as [-> | ->]; reflexivity). rewrite C. cbn [select_model]. rewrite P2. reflexivity.
  - intros o s n w. unfold look. rewrite sget_cons. destruct (String.eqb_spec o "") as [->|No].
    2:{ split; [discriminate|]. intros Q. inversion Q. congruence. }
    rewrite sget_cons. destruct (String.eqb_spec s "") as [->|Ns].
    2:{ split; [discriminate|]. intros Q. inversion Q. congruence. }
    rewrite sget_cons. destruct (String.eqb_spec n "__ERROR__") as [->|Nn].
    2:{ split; [discriminate|]. intros Q. inversion Q. congruence. }
    split; [intros [= <-]; reflexivity|intros [= <-]; reflexivity].
Qed.

Lemma C125_errors_of_named_models_refuted_pf :
  exists f32 as_text k e items r, convert_slice_metrics_to_proto f32 as_text k (SliceMetrics (Some e) items) = Ok r /\
    forall m, m <> "" -> convert_metrics_proto_to_dict r (Some m) = Ok None.
Proof.
  exists (fun q => q), ex_text, (One [("country", VStr "fr")]), "too few examples", []. eexists. split; [reflexivity|].
  intros m M. unfold convert_metrics_proto_to_dict. cbn [mf_metrics mf_kvs foldM bind fst snd].
  unfold chosen_model. rewrite (proj2 (String.eqb_neq m "") M). unfold select_model. rewrite sget_cons, (proj2 (String.eqb_neq m "") M).
  cbn [sget dget]. unfold sget. cbn [dget]. destruct m; [congruence|reflexivity].
Qed.

Lemma C126_metric_names_pf :
  forall r, (forall k d, In (k, d) (er_metrics r) -> exists x, d = Some x) ->
    exists names, get_metric_names r = Ok names /\ NoDup names /\
      forall n, In n names <-> exists k d o x s y w, In (k, Some d) (er_metrics r) /\ In (o, x) d /\ In (s, y) x /\ In (n, w) y.
Proof.
  intros r H. unfold get_metric_names. match goal with |- context [mapM ?g _] => set (f := g) end.
  assert (G : forall l, (forall k d, In (k, d) l -> exists x, d = Some x) -> exists ls, mapM f l = Ok ls /\
     forall n, In n (concat ls) <-> exists k d o x s y w, In (k, Some d) l /\ In (o, x) d /\ In (s, y) x /\ In (n, w) y).
  { induction l as [|[k od] l IH]; intros Hl; cbn [mapM].
    - exists []. split; [reflexivity|]. intros n. split; [intros []|]. intros (? & ? & ? & ? & ? & ? & ? & [] & _).
    - destruct (Hl k od (or_introl eq_refl)) as (d & ->). destruct (IH (fun k d I => Hl k d (or_intror I))) as (ls & E & I0).
      unfold f at 1. cbn [snd bind]. rewrite E. cbn [bind]. eexists. split; [reflexivity|]. intros n. cbn [concat]. rewrite in_app_iff, I0, in_flat_map. split.
      + intros [((o & x) & I1 & I2)|(k' & d' & o & x & s & y & w & I1 & I2)].
        * cbn [snd] in I2. apply in_flat_map in I2. destruct I2 as ((s & y) & I2 & I3). cbn [snd] in I3. apply in_map_iff in I3. destruct I3 as ((n' & w) & Q & I3).
          cbn in Q. subst n'. exists k, d, o, x, s, y, w. split; [left; reflexivity|]. auto.
        * exists k', d', o, x, s, y, w. split; [right; exact I1|exact I2].
      + intros (k' & d' & o & x & s & y & w & I1 & I2 & I3 & I4). destruct I1 as [[= <- <-]|I1].
        * left. exists (o, x). split; [exact I2|]. cbn [snd]. apply in_flat_map. exists (s, y). split; [exact I3|]. cbn [snd]. apply in_map_iff. exists (n, w). auto.
        * right. exists k', d', o, x, s, y, w. auto. }
  destruct (G (er_metrics r) H) as (ls & E & I0). rewrite E. cbn [bind]. eexists. split; [reflexivity|]. split.
  - apply (dedup_NoDup _ String.eqb_eq).
  - intros n. rewrite (dedup_In _ String.eqb_eq). apply I0.
Qed.
