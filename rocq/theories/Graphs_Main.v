(* Proofs of the theorems restated in Graphs_Properties.v. *)
From Coq Require Import String Ascii.
From Verif Require Import Base BaseFacts Graphs_Model.
Local Open Scope string_scope.
Local Open Scope list_scope.

(* C312 - C314: metrics in a TensorFlow graph. *)

(** Metrics are registered on a graph without any, once or more. *)

Inductive built {V X R : Type} (initial : nat -> V) : @graph V X R -> Prop :=
| built_first coll cs s g s' :
    register_callbacks initial cs (Graph [] [] [] coll [] None None None) s = ((g, s'), None) -> built initial g
| built_more g0 cs s g s' : built initial g0 -> register_callbacks initial cs g0 s = ((g, s'), None) -> built initial g.

Section Facts.
  Context {V X R : Type}.
  Variable initial : nat -> V.
  Notation graph := (@graph V X R).

  Definition complete (g : graph) : Prop :=
    g_nodes g = g_collection g /\ g_reset g = Some (g_collection g) /\ g_assigned g = Some (g_collection g) /\
    g_update_fn g = Some (g_update_ops g).
  Definition sound (g : graph) : Prop :=
    NoDup (g_names g) /\ length (g_names g) = length (g_value_ops g) /\ exists more, g_collection g = g_nodes g ++ more.

  Lemma append_none ops : forall (g g' : graph), append_ops ops g = (g', None) ->
    g_names g' = g_names g ++ map fst ops /\ g_value_ops g' = g_value_ops g ++ map (fun o => fst (snd o)) ops /\
    g_update_ops g' = g_update_ops g ++ map (fun o => snd (snd o)) ops /\ g_collection g' = g_collection g /\ g_nodes g' = g_nodes g /\
    (NoDup (g_names g) -> NoDup (g_names g')).
  Proof.
    induction ops as [|[n [v u]] ops IH]; intros g g'; cbn [append_ops map fst snd].
    - intro E; injection E as <-; rewrite !app_nil_r; auto 10.
    - destruct (memb String.eqb n (g_names g)) eqn:M; [discriminate|]. intro E; apply IH in E; cbn [g_names g_value_ops g_update_ops g_collection g_nodes] in E.
      destruct E as [E1 [E2 [E3 [E4 [E5 E6]]]]]. rewrite <- app_assoc in E1, E2, E3; cbn [app] in E1, E2, E3. repeat (split; [assumption|]).
      intro N. apply E6, NoDup_app; [exact N|constructor; [intros []|constructor]|].
      intros x I [<-|[]]. apply (memb_nIn String.eqb String.eqb_eq) in M. exact (M I).
  Qed.

  Lemma register_complete ops (g g' : graph) s s' : sound g -> register initial ops g s = ((g', s'), None) ->
    sound g' /\ complete g' /\ g_names g' = g_names g ++ map fst ops /\ g_collection g' = g_collection g /\
    g_value_ops g' = g_value_ops g ++ map (fun o => fst (snd o)) ops /\ g_update_ops g' = g_update_ops g ++ map (fun o => snd (snd o)) ops /\
    s' = map (fun n => (n, initial n)) (g_collection g).
  Proof.
    intros [S1 [S2 [more S3]]] E; unfold register in E. destruct (append_ops ops g) as [g1 [f|]] eqn:A; [discriminate|].
    apply append_none in A; destruct A as [A1 [A2 [A3 [A4 [A5 A6]]]]].
    injection E as <- <-. unfold sound, complete; cbn [g_names g_value_ops g_update_ops g_collection g_nodes g_reset g_assigned g_update_fn].
    assert (C : g_nodes g1 ++ skipn (length (g_nodes g1)) (g_collection g1) = g_collection g1).
    { rewrite A4, A5, S3, skipn_app, skipn_all, Nat.sub_diag; reflexivity. }
    rewrite C. split; [split; [apply A6, S1|split; [rewrite A1, A2, !app_length, !map_length, S2; reflexivity|exists []; symmetry; apply app_nil_r]]|].
    split; [auto|]. rewrite A1, A2, A3, A4. auto 10.
  Qed.

  Lemma callbacks_run cs : forall (g : graph) ops g' r, run_callbacks cs g ops = (g', r) ->
    g_names g' = g_names g /\ g_value_ops g' = g_value_ops g /\ g_update_ops g' = g_update_ops g /\ g_nodes g' = g_nodes g /\
    g_reset g' = g_reset g /\ g_assigned g' = g_assigned g /\ g_update_fn g' = g_update_fn g /\
    exists more, g_collection g' = g_collection g ++ more.
  Proof.
    induction cs as [|c cs IH]; intros g ops g' r; cbn [run_callbacks].
    - intro E; injection E as <- <-; repeat (split; [reflexivity|]); exists []; symmetry; apply app_nil_r.
    - destruct (c g) as [new vars]. destruct (existsb _ _).
      + intro E; injection E as <- <-; cbn; repeat (split; [reflexivity|]); eauto.
      + intro E; apply IH in E; cbn in E. destruct E as [E1 [E2 [E3 [E4 [E5 [E6 [E7 [more E8]]]]]]]].
        repeat (split; [assumption|]). rewrite <- app_assoc in E8; eauto.
  Qed.

  Lemma callbacks_complete cs (g g' : graph) s s' : sound g -> register_callbacks initial cs g s = ((g', s'), None) ->
    sound g' /\ complete g' /\ s' = map (fun n => (n, initial n)) (g_collection g').
  Proof.
    intros S E; unfold register_callbacks in E. destruct (run_callbacks cs g []) as [g1 [ops|f]] eqn:C; [|discriminate].
    apply callbacks_run in C; destruct C as [C1 [C2 [C3 [C4 [_ [_ [_ [more C8]]]]]]]].
    destruct S as [S1 [S2 [m S3]]]. apply register_complete in E.
    - destruct E as [E1 [E2 [_ [E4 [_ [_ E7]]]]]]. rewrite E4; auto.
    - split; [rewrite C1; exact S1|split; [rewrite C1, C2; exact S2|]]. exists (m ++ more); rewrite C8, C4, S3, <- app_assoc; reflexivity.
  Qed.

  Lemma built_ok (g : graph) : built initial g -> sound g /\ complete g.
  Proof.
    intro B; induction B as [coll cs s g s' E|g0 cs s g s' B [S _] E].
    - apply callbacks_complete in E; [tauto|]. split; [constructor|split; [reflexivity|exists coll; reflexivity]].
    - apply callbacks_complete in E; tauto.
  Qed.

End Facts.

(** The update ops run with examples, one after the other; a whole list at once, or one by one. *)

Inductive updated {V X : Type} : list (@update_op V X) -> list X -> session -> session -> Prop :=
| updated_nil xs s : updated [] xs s s
| updated_cons u us xs s s1 s2 : u xs s = (s1, None) -> updated us xs s1 s2 -> updated (u :: us) xs s s2.

Inductive updated_each {V X : Type} (us : list (@update_op V X)) : list X -> session -> session -> Prop :=
| each_nil s : updated_each us [] s s
| each_cons x xs s s1 s2 : updated us [x] s s1 -> updated_each us xs s1 s2 -> updated_each us (x :: xs) s s2.

(** An update op fails, the ones before do not. *)

Inductive refused {V X : Type} : list (@update_op V X) -> list X -> session -> failure -> Prop :=
| refused_here u us xs s s1 f : u xs s = (s1, Some f) -> refused (u :: us) xs s f
| refused_later u us xs s s1 f : u xs s = (s1, None) -> refused us xs s1 f -> refused (u :: us) xs s f.

Definition has_values {V} (s : @session V) (nodes : list nat) (vs : list V) : Prop := Forall2 (fun n v => dget Nat.eqb s n = Some v) nodes vs.

(** The variables of a graph at the start *)

Definition at_start {V X R} (initial : nat -> V) (g : @graph V X R) : session := map (fun n => (n, initial n)) (g_collection g).

Lemma updated_run {V X} (us : list (@update_op V X)) xs s s' : updated us xs s s' -> run_updates us xs s = (s', None).
Proof. induction 1 as [|u us xs s s1 s2 E H IH]; cbn [run_updates]; [reflexivity|]. rewrite E; exact IH. Qed.

Lemma refused_run {V X} (us : list (@update_op V X)) xs s f : refused us xs s f -> exists s', run_updates us xs s = (s', Some f).
Proof. induction 1 as [u us xs s s1 f E|u us xs s s1 f E H [s' IH]]; cbn [run_updates]; rewrite E; eauto. Qed.

Lemma read_values {V} (s : @session V) nodes vs : has_values s nodes vs -> read nodes s = Good vs.
Proof. induction 1 as [|n v nodes vs E H IH]; cbn [read]; [reflexivity|]. rewrite E, IH; reflexivity. Qed.

Lemma C312_batches_pf : forall V X R (initial : nat -> V) (g : @graph V X R) xs s s' vs, built initial g ->
  updated (g_update_ops g) xs (at_start initial g) s' -> has_values s' (g_collection g) vs ->
  snd (reset_update_get initial g xs s) = Good vs.
Proof.
  intros V X R initial g xs s s' vs B U H. destruct (built_ok initial g B) as [_ [C1 [C2 [C3 C4]]]].
  unfold reset_update_get, reset; rewrite C2. unfold perform_update; rewrite C4.
  change (initialised initial (g_collection g)) with (at_start initial g). rewrite (updated_run _ _ _ _ U); cbn [option_map snd].
  unfold get_variables; rewrite C1; apply read_values, H.
Qed.

Lemma C312_one_by_one_partial_pf : forall V X R (initial : nat -> V) (g : @graph V X R) xs s s' vs, built initial g ->
  refused (g_update_ops g) xs (at_start initial g) (Raised ValueError true) ->
  updated_each (g_update_ops g) xs (at_start initial g) s' -> has_values s' (g_collection g) vs ->
  snd (reset_update_get initial g xs s) = Good vs.
Proof.
  intros V X R initial g xs s s' vs B F U H. destruct (built_ok initial g B) as [_ [C1 [C2 [C3 C4]]]].
  unfold reset_update_get, reset; rewrite C2. unfold perform_update at 1; rewrite C4.
  change (initialised initial (g_collection g)) with (at_start initial g). destruct (refused_run _ _ _ _ F) as [s1 E]; rewrite E.
  cbn [option_map augmented reraise goes_on].
  assert (O : forall xs s, updated_each (g_update_ops g) xs s s' -> one_by_one g xs s = (s', None)).
  { clear -C4; induction xs as [|x xs IH]; intros s U; inversion U as [|? ? ? s1 ? U1 U2]; subst; cbn [one_by_one]; [reflexivity|].
    unfold perform_update; rewrite C4, (updated_run _ _ _ _ U1); cbn [option_map]; apply IH, U2. }
  rewrite (O _ _ U); cbn [snd]. unfold get_variables; rewrite C1; apply read_values, H.
Qed.

(** An example with a sum in one variable, and a batch of at most [limit] examples *)

Definition sum_op (fails : failure) (limit : nat) : @update_op nat nat :=
  fun xs s => if Nat.ltb limit (length xs) then (dset Nat.eqb s 0 99, Some fails)
              else (dset Nat.eqb s 0 (match dget Nat.eqb s 0 with Some v => v | None => 0 end + list_sum xs), None).

Definition sum_value : @value_op nat nat := fun s => match dget Nat.eqb s 0 with Some v => Good v | None => Failed OtherOpError end.

Definition sum_callback (fails : failure) (limit : nat) : callback := fun _ => ([("sum", (sum_value, sum_op fails limit))], [0]).

Definition sum_graph (fails : failure) (limit : nat) : @graph nat nat nat :=
  fst (fst (register_callbacks (fun _ => 0) [sum_callback fails limit] (Graph [] [] [] [] [] None None None) [])).

Lemma sum_built fails limit : built (fun _ => 0) (sum_graph fails limit).
Proof. apply (built_first _ [] [sum_callback fails limit] [] _ [(0, 0)]). reflexivity. Qed.

Lemma C312_one_by_one_refuted_pf : exists f (g : @graph nat nat nat) xs s s' vs, f = ResourceExhausted /\ built (fun _ => 0) g /\
  refused (g_update_ops g) xs (at_start (fun _ => 0) g) f /\
  updated_each (g_update_ops g) xs (at_start (fun _ => 0) g) s' /\ has_values s' (g_collection g) vs /\
  snd (reset_update_get (fun _ => 0) g xs s) = Failed (Raised RuntimeError true).
Proof.
  exists ResourceExhausted, (sum_graph ResourceExhausted 1), [1; 2], [], [(0, 3)], [3]. split; [reflexivity|]. split; [apply sum_built|]. split; [|split; [|split; [|reflexivity]]].
  - eapply refused_here; reflexivity.
  - eapply each_cons; [eapply updated_cons; [reflexivity|constructor]|]. eapply each_cons; [eapply updated_cons; [reflexivity|constructor]|]. constructor.
  - constructor; [reflexivity|constructor].
Qed.

Lemma set_all {V} (vs : list V) : forall nodes (s : @session V), NoDup nodes -> length vs = length nodes -> 
  has_values (fold_left (fun s nv => dset Nat.eqb s (fst nv) (snd nv)) (combine nodes vs) s) nodes vs /\
  (forall n, ~ In n nodes -> dget Nat.eqb (fold_left (fun s nv => dset Nat.eqb s (fst nv) (snd nv)) (combine nodes vs) s) n = dget Nat.eqb s n).
Proof.
  induction vs as [|v vs IH]; intros [|n nodes] s N L; cbn in L; try discriminate; cbn [combine fold_left].
  - split; [constructor|auto].
  - inversion N as [|? ? Nn Nl]; subst. cbn [fst snd]. destruct (IH nodes (dset Nat.eqb s n v) Nl) as [A B]; [lia|].
    split; [constructor; [|exact A]|].
    + rewrite (B n Nn). apply (dget_dset_eq Nat.eqb Nat.eqb_eq).
    + intros m Hm; rewrite B by (intro H; apply Hm; right; exact H). apply (dget_dset_neq Nat.eqb Nat.eqb_eq); intros ->; apply Hm; left; reflexivity.
Qed.

Lemma C313_set_variables_pf : forall V X R (initial : nat -> V) (g : @graph V X R) vs s, built initial g -> NoDup (g_collection g) ->
  length vs = length (g_collection g) -> exists s', set_variables g vs s = (s', None) /\ has_values s' (g_collection g) vs /\ get_variables g s' = Good vs.
Proof.
  intros V X R initial g vs s B N L. destruct (built_ok initial g B) as [_ [C1 [C2 [C3 C4]]]].
  unfold set_variables; rewrite C3. replace (Nat.ltb (length vs) (length (g_collection g))) with false by (symmetry; apply Nat.ltb_ge; lia).
  eexists; split; [reflexivity|]. pose proof (proj1 (set_all vs _ s N L)) as H; split; [exact H|].
  unfold get_variables; rewrite C1; apply read_values, H.
Qed.

Lemma C313_too_few_pf : forall V X R (initial : nat -> V) (g : @graph V X R) vs s, built initial g ->
  (length vs < length (g_collection g))%nat -> exists f, set_variables g vs s = (s, Some f).
Proof.
  intros V X R initial g vs s B L. destruct (built_ok initial g B) as [_ [C1 [C2 [C3 C4]]]].
  unfold set_variables; rewrite C3. apply Nat.ltb_lt in L; rewrite L; eauto.
Qed.

Lemma C313_values_pf : forall V X R (initial : nat -> V) (g : @graph V X R) vs s, built initial g -> NoDup (g_collection g) ->
  length vs = length (g_collection g) -> exists s', has_values s' (g_collection g) vs /\
    forall rs, Forall2 (fun v r => v s' = Good r) (g_value_ops g) rs ->
    exists d, snd (set_and_get g vs s) = Good d /\ map fst d = g_names g /\ map snd d = rs.
Proof.
  intros V X R initial g vs s B N L. destruct (C313_set_variables_pf _ _ _ _ _ _ s B N L) as [s' [E [H _]]].
  destruct (built_ok initial g B) as [[S1 [S2 _]] _]. exists s'; split; [exact H|]. intros rs F.
  unfold set_and_get; rewrite E; cbn [snd]. unfold get_values.
  assert (RV : run_values (g_value_ops g) s' = Good rs).
  { clear -F; induction F as [|v r l rs E F IH]; cbn [run_values]; [reflexivity|]. rewrite E, IH; reflexivity. }
  rewrite RV. assert (LR : length (g_names g) = length rs) by (rewrite S2; eapply Forall2_length, F).
  exists (combine (g_names g) rs).
  assert (Z : forall (l : list string) (k : list R) d, NoDup l -> (forall x, In x l -> ~ In x (map fst d)) -> length l = length k ->
     fold_left (fun d nr => dset String.eqb d (fst nr) (snd nr)) (combine l k) d = d ++ combine l k).
  { clear; induction l as [|a l IH]; intros [|b k] d N D L; cbn in L; try discriminate; cbn [combine fold_left fst snd]; [symmetry; apply app_nil_r|].
    inversion N as [|? ? Na Nl]; subst.
    assert (S : dset String.eqb d a b = d ++ [(a, b)]).
    { assert (Nd : ~ In a (map fst d)) by (apply D; left; reflexivity). clear -Nd; induction d as [|[k' b'] d IH]; [reflexivity|]; cbn [dset app].
      destruct (String.eqb a k') eqn:E; [apply String.eqb_eq in E; subst; exfalso; apply Nd; left; reflexivity|].
      rewrite IH; [reflexivity|]. intro H; apply Nd; right; exact H. }
    rewrite IH, S, <- app_assoc; [reflexivity|exact Nl| |lia].
    intros x Ix; rewrite S, map_app, in_app_iff; cbn [map fst In]. intros [H|[H|[]]]; [apply (D x); [right; exact Ix|exact H]|subst; exact (Na Ix)]. }
  split; [rewrite Z; [reflexivity|exact S1|intros ? _ []|exact LR]|].
  clear -LR; revert rs LR; induction (g_names g) as [|a l IH]; intros [|r rs] L; cbn in *; try discriminate; [auto|].
  destruct (IH rs) as [A B]; [lia|]. rewrite A, B; auto.
Qed.

(** C314: callbacks that give names no other has are registered, after what there is; all variables
    are at their start. *)

Definition plain_callback {V X R} (ops : @metric_ops V X R) (vars : list nat) : callback := fun _ => (ops, vars).

Lemma callbacks_names {V X R} (l : list (@metric_ops V X R * list nat)) : forall g ops, NoDup (map fst ops ++ flat_map (fun c => map fst (fst c)) l) ->
  exists g', run_callbacks (map (fun c => plain_callback (fst c) (snd c)) l) g ops = (g', inl (ops ++ flat_map fst l)) /\ g_collection g' = g_collection g ++ flat_map snd l.
Proof.
  induction l as [|[new vars] l IH]; intros g ops N; cbn [map run_callbacks flat_map fst snd].
  - exists g; rewrite !app_nil_r; auto.
  - unfold plain_callback at 1. cbn [flat_map fst] in N. rewrite app_assoc in N.
    assert (O : existsb (fun n => memb String.eqb n (map fst ops)) (map fst new) = false).
    { destruct (existsb _ _) eqn:E; [|reflexivity]. exfalso. apply existsb_exists in E; destruct E as [n [I M]]. apply (memb_In String.eqb String.eqb_eq) in M.
      rewrite <- app_assoc in N. clear -N I M; induction (map fst ops) as [|a k IH]; [destruct M|]. cbn [app] in N; inversion N as [|? ? Na Nk]; subst.
      destruct M as [->|M]; [apply Na, in_or_app; right; apply in_or_app; left; exact I|apply IH; assumption]. }
    rewrite O. destruct (IH (Graph (g_names g) (g_value_ops g) (g_update_ops g) (g_collection g ++ vars) (g_nodes g) (g_reset g) (g_assigned g) (g_update_fn g)) (ops ++ new)) as [g' [E C]].
    { rewrite map_app; exact N. }
    exists g'; rewrite E, C; cbn [g_collection]; rewrite <- !app_assoc; auto.
Qed.

Lemma append_fresh {V X R} (ops : @metric_ops V X R) : forall g, NoDup (g_names g ++ map fst ops) -> snd (append_ops ops g) = None.
Proof.
  induction ops as [|[n [v u]] ops IH]; intros g N; cbn [append_ops map fst] in *; [reflexivity|].
  assert (M : memb String.eqb n (g_names g) = false).
  { apply (memb_nIn String.eqb String.eqb_eq); intro I. apply NoDup_remove_2 in N; apply N, in_or_app; left; exact I. }
  rewrite M; apply IH; cbn [g_names]. rewrite <- app_assoc; exact N.
Qed.

Lemma C314_registered_pf : forall V X R (initial : nat -> V) (g : @graph V X R) (l : list (@metric_ops V X R * list nat)) s, built initial g ->
  NoDup (g_names g ++ flat_map (fun c => map fst (fst c)) l) ->
  exists g', register_callbacks initial (map (fun c => plain_callback (fst c) (snd c)) l) g s = ((g', at_start initial g'), None) /\
    g_names g' = g_names g ++ map fst (flat_map fst l) /\ g_value_ops g' = g_value_ops g ++ map (fun o => fst (snd o)) (flat_map fst l) /\
    g_update_ops g' = g_update_ops g ++ map (fun o => snd (snd o)) (flat_map fst l) /\ g_collection g' = g_collection g ++ flat_map snd l.
Proof.
  intros V X R initial g l s B N. destruct (built_ok initial g B) as [[S1 [S2 [m S3]]] _].
  assert (FN : map fst (flat_map fst l) = flat_map (fun c => map fst (fst c)) l).
  { clear; induction l as [|a l IH]; cbn [flat_map]; [reflexivity|]. rewrite map_app, IH; reflexivity. }
  destruct (callbacks_names l g []) as [g1 [E C]].
  { cbn [map app]. clear -N; induction (g_names g) as [|a k IH]; [exact N|]. cbn [app] in N; inversion N; auto. }
  pose proof (callbacks_run _ _ _ _ _ E) as [C1 [C2 [C3 [C4 [_ [_ [_ _]]]]]]].
  unfold register_callbacks; rewrite E. cbn [app].
  assert (R1 : exists g' s', register initial (flat_map fst l) g1 s = ((g', s'), None)).
  { pose proof (append_fresh (flat_map fst l) g1) as A. rewrite C1, FN in A. specialize (A N).
    unfold register; destruct (append_ops (flat_map fst l) g1) as [g2 [f|]]; [discriminate|]. eauto. }
  destruct R1 as [g' [s' R1]]. exists g'. rewrite R1. apply register_complete in R1.
  - destruct R1 as [_ [_ [R3 [R4 [R5 [R6 R7]]]]]]. rewrite R7, R3, R5, R6, C1, C2, C3. unfold at_start; rewrite R4, C. auto.
  - split; [rewrite C1; exact S1|split; [rewrite C1, C2; exact S2|]]. exists (m ++ flat_map snd l); rewrite C, C4, S3, <- app_assoc; reflexivity.
Qed.

Lemma C314_taken_names_refused_pf : forall V X R (initial : nat -> V) (g : @graph V X R) (l : list (@metric_ops V X R * list nat)) s,
  (forall c, In c l -> NoDup (map fst (fst c))) -> NoDup (g_names g) ->
  snd (register_callbacks initial (map (fun c => plain_callback (fst c) (snd c)) l) g s) = None ->
  NoDup (g_names g ++ flat_map (fun c => map fst (fst c)) l).
Proof.
  intros V X R initial g l s D N H. unfold register_callbacks in H.
  assert (A : forall l (g : graph) ops g' r, (forall c, In c l -> NoDup (map fst (fst c))) -> NoDup (map fst ops) ->
     run_callbacks (map (fun c : @metric_ops V X R * list nat => plain_callback (fst c) (snd c)) l) g ops = (g', inl r) ->
     NoDup (map fst r) /\ map fst r = map fst ops ++ flat_map (fun c => map fst (fst c)) l).
  { clear; induction l as [|[new vars] l IH]; intros g ops g' r D N; cbn [map run_callbacks flat_map fst snd].
    - intro E; injection E as _ <-; rewrite app_nil_r; auto.
    - unfold plain_callback at 1. destruct (existsb _ _) eqn:O; [discriminate|]. intro E; apply IH in E.
      + rewrite map_app, <- app_assoc in E; exact E.
      + intros c I; apply D; right; exact I.
      + rewrite map_app; apply NoDup_app; [exact N|apply (D (new, vars)); left; reflexivity|].
        intros x I1 I2. assert (T : existsb (fun n => memb String.eqb n (map fst ops)) (map fst new) = true); [|congruence].
        apply existsb_exists; exists x; split; [exact I2|apply (memb_In String.eqb String.eqb_eq), I1]. }
  destruct (run_callbacks _ g []) as [g1 [ops|f]] eqn:E; [|discriminate].
  pose proof (callbacks_run _ _ _ _ _ E) as [C1 _]. apply A in E; [|exact D|constructor]. destruct E as [_ E]; cbn [map app] in E.
  unfold register in H. destruct (append_ops ops g1) as [g2 [f|]] eqn:P; [discriminate|].
  apply append_none in P; destruct P as [P1 [_ [_ [_ [_ P6]]]]]. rewrite <- E, <- C1, <- P1; apply P6; rewrite C1; exact N.
Qed.

Lemma C314_refused_unchanged_partial_pf : forall V X R (initial : nat -> V) (g g' : @graph V X R) cs s s' f g1 s1,
  run_callbacks cs g [] = (g1, inr f) -> register_callbacks initial cs g s = ((g', s'), s1) ->
  s1 = Some f /\ s' = s /\ g_names g' = g_names g /\ get_values g' s' = get_values g s /\ get_variables g' s' = get_variables g s.
Proof.
  intros V X R initial g g' cs s s' f g1 s1 E H; unfold register_callbacks in H; rewrite E in H; injection H as <- <- <-.
  apply callbacks_run in E; destruct E as [C1 [C2 [C3 [C4 _]]]]. unfold get_values, get_variables; rewrite C1, C2, C4; auto.
Qed.

Lemma C314_refused_unchanged_refuted_pf : exists (g g' : @graph nat nat nat) cs s s' f, built (fun _ => 0) g /\
  register_callbacks (fun _ => 0) cs g s = ((g', s'), Some f) /\ g_names g' <> g_names g /\
  get_values g s = Good [("sum", 3)] /\ get_values g' s' = Failed OtherOpError.
Proof.
  exists (sum_graph InvalidArgument 5). eexists. exists [plain_callback [("new", (fun s => match dget Nat.eqb s 1 with Some v => Good v | None => Failed OtherOpError end, sum_op InvalidArgument 5)); ("sum", (sum_value, sum_op InvalidArgument 5))] [1]].
  exists [(0, 3)]. eexists; eexists. split; [apply sum_built|]. split; [reflexivity|]. split; [discriminate|split; reflexivity].
Qed.
