(* Proofs of the theorems restated in Keras_Properties.v. *)
From Coq Require Import String Ascii.
From Verif Require Import Base BaseFacts Beam BeamFacts Util_Model Util_Main Keys_Model Keys_Main Inputs_Model Inputs_Main Sums_Model Sums_Main Histogram_Model Histogram_Main Evaluator_Model Evaluator_Main Classes_Main Keras_Model.
Local Open Scope string_scope.
Local Open Scope list_scope.

(* C169 - C176: Keras metrics and losses computed in batches. *)

(** The sum, entry by entry, of what each tuple contributes. *)

Definition total (n : nat) (f : yielded -> list Qc) (l : list yielded) : list Qc :=
  map (fun i => qsum (map (fun y => nth i (f y) 0%Qc) l)) (seq 0 n).

(** A metric whose weights are sums: after a batch of fitting tuples they are the sum
    of [n] contributions [f] of each. *)

Definition sums_up (fits : yielded -> Prop) (m : keras_metric) (n : nat) (f : yielded -> list Qc) : Prop :=
  forall l, l <> [] -> Forall fits l -> km_update m l = Ok (total n f l).

(** Tuples of one shape can be stacked into arrays. *)

Definition one_shape (fits : yielded -> Prop) : Prop :=
  forall y z, fits y -> fits z ->
    length (fst (fst y)) = length (fst (fst z)) /\ length (snd (fst y)) = length (snd (fst z)) /\ length (snd y) = length (snd z).

(** The values a metric reports, under the metric's name or under names of their own. *)

Definition reported (m : keras_metric) (w : list Qc) : list (string * num) :=
  match km_result m w with
  | OneValue x => [(km_name m, x)]
  | NamedValues l => map (fun nx => (km_name m ++ "/" ++ fst nx, snd nx)%string) l
  end.

(** Weights for the examples: a mean of squared errors over the last dimension. *)

Definition fval (x : num) : Qc := match x with Fin q => q | _ => 0%Qc end.

Definition squared_error (y : yielded) : Qc :=
  let '(label, pred, _) := y in
  (qsum (map (fun lp => (fst lp - fval (snd lp)) * (fst lp - fval (snd lp))) (combine label pred)) / qn (length pred))%Qc.

Definition mse_part (y : yielded) : list Qc := [(squared_error y * qsum (snd y))%Qc; qsum (snd y)].

Definition mean_of (w : list Qc) : keras_result :=
  match w with [a; b] => OneValue (Fin (if Qc_eqb b 0%Qc then 0 else a / b)%Qc) | _ => OneValue NaN end.

Definition mse : keras_metric := KerasMetric "mse" (fun l => Ok (total 2 mse_part l)) [0%Qc; 0%Qc] mean_of.

Definition ex_example (label : list Qc) (pred : list Qc) (w : Qc) : inputs_dict :=
  InputsDict (Some (Leaf label)) (Some (Leaf (map Fin pred))) (Some (Leaf [w])).

Definition ex_opts (sk : option sub_key) (weighted : bool) : options := Options sk false None weighted false false false false.

Lemma total_length n f l : length (total n f l) = n.
Proof. unfold total. rewrite map_length. apply seq_length. Qed.

Lemma total_app n f l k : total n f (l ++ k) = vadd (total n f l) (total n f k).
Proof.
  unfold total, vadd. generalize (seq 0 n). intros s. induction s as [|i s IH]; [reflexivity|].
  cbn [map combine fst snd]. rewrite map_app, qsum_app, IH. reflexivity.
Qed.

Lemma total_perm n f l k : Permutation l k -> total n f l = total n f k.
Proof. intros P. unfold total. apply map_ext. intros i. apply qsum_perm, Permutation_map, P. Qed.

Lemma same_length_all {A} (l : list (list A)) : (forall x y, In x l -> In y l -> length x = length y) -> same_length l = true.
Proof.
  intros H. destruct l as [|x t]; [reflexivity|]. cbn [same_length]. apply forallb_forall. intros y Y. apply Nat.eqb_eq, H; [right; exact Y|left; reflexivity].
Qed.

(** An example that can be read gives at least one tuple. *)

Lemma combine_ne {A B} (a : list A) (b : list B) : a <> [] -> length b = length a -> combine a b <> [].
Proof. destruct a, b; cbn; congruence. Qed.

Lemma map_ne {A B} (f : A -> B) l : l <> [] -> map f l <> [].
Proof. destruct l; cbn; congruence. Qed.

Lemma len_ne {A} (l : list A) : length l <> 0%nat -> l <> [].
Proof. destruct l; cbn; congruence. Qed.

Lemma yield_ne fl label pred w ys : yield_results fl label pred w = Ok ys ->
  (fl = true -> length w = match length pred with 0 => length label | n => n end) -> ys <> [].
Proof.
  unfold yield_results. intros Y W.
  destruct (negb fl || (Nat.eqb (length label) 0 && Nat.eqb (length pred) 0) || (Nat.eqb (length label) 1 && Nat.eqb (length pred) 1 && Nat.eqb (length w) 1)) eqn:E1;
    [injection Y as <-; discriminate|].
  apply orb_false_elim in E1. destruct E1 as [E1 _]. apply orb_false_elim in E1. destruct E1 as [E1 E0]. apply negb_false_iff in E1.
  specialize (W E1).
  destruct (Nat.eqb (length label) 0) eqn:EL.
  { cbn [andb] in E0. apply Nat.eqb_neq in E0. injection Y as <-. apply map_ne, combine_ne; [apply len_ne; exact E0|].
    rewrite W. destruct (length pred) eqn:LP; [contradiction|reflexivity]. }
  destruct (Nat.eqb (length pred) 0) eqn:EP.
  { apply Nat.eqb_neq in EL. apply Nat.eqb_eq in EP. injection Y as <-. apply map_ne, combine_ne; [apply len_ne; exact EL|].
    rewrite W, EP. reflexivity. }
  apply Nat.eqb_neq in EL, EP.
  destruct (Nat.eqb (length label) (length pred) && Nat.eqb (length label) (length w)) eqn:E2.
  { apply andb_prop in E2. destruct E2 as [E2 E3]. apply Nat.eqb_eq in E2, E3. injection Y as <-.
    apply map_ne, combine_ne; [apply combine_ne; [apply len_ne; exact EL|congruence]|].
    rewrite combine_length, <- E2, Nat.min_id. congruence. }
  destruct (Nat.eqb (length label) 1 && Nat.eqb (length pred) (length w)) eqn:E3; [|discriminate].
  apply andb_prop in E3. destruct E3 as [_ E3]. apply Nat.eqb_eq in E3.
  destruct (one_hot label (length pred)) as [h|] eqn:OH; cbn [bind] in Y; [|discriminate]. injection Y as <-.
  assert (LH : length h = length pred).
  { unfold one_hot in OH. destruct (mapM _ label) as [rows|] eqn:MM; cbn [bind] in OH; [|discriminate].
    destruct rows as [|r [|]]; try discriminate. injection OH as <-.
    destruct label as [|a [|]]; cbn [mapM] in MM.
    - discriminate.
    - destruct (eye_row (length pred) (Qc_trunc a)) as [r'|] eqn:ER; cbn [bind] in MM; [|discriminate]. injection MM as <-.
      unfold eye_row in ER. cbv zeta in ER. match type of ER with (if ?c then _ else _) = _ => destruct c end; [discriminate|]. injection ER as <-.
      rewrite map_length, seq_length. reflexivity.
    - destruct (eye_row (length pred) (Qc_trunc a)); cbn [bind] in MM; [|discriminate].
      destruct (eye_row (length pred) (Qc_trunc q)); cbn [bind] in MM; [|discriminate].
      match type of MM with (bind (bind ?x _) _) = _ => destruct x end; cbn [bind] in MM; discriminate. }
  apply map_ne, combine_ne; [apply combine_ne; [apply len_ne; rewrite LH; exact EP|congruence]|].
  rewrite combine_length, LH, Nat.min_id. congruence.
Qed.

Lemma yield_tuples_ne ap o l p w ys : o_fractional o = false -> yield_tuples ap o l p w = Ok ys -> ys <> [].
Proof.
  intros F. unfold yield_tuples. rewrite F. cbn [andb].
  destruct (negb (o_allow_none o) && _); [discriminate|].
  match goal with |- bind ?x _ = _ -> _ => destruct x as [w1|] eqn:?; cbn [bind]; [|discriminate] end.
  match goal with |- bind ?x _ = _ -> _ => destruct x as [[label pred]|] eqn:?; cbn [bind]; [|discriminate] end.
  match goal with |- bind ?x _ = _ -> _ => destruct x as [w2|] eqn:W2; cbn [bind]; [|discriminate] end.
  match goal with |- bind ?x _ = _ -> _ => destruct x as [w3|] eqn:W3; cbn [bind]; [|discriminate] end.
  destruct (yield_results _ _ _ _) as [ys'|] eqn:Y; cbn [bind]; [|discriminate]. intros H. injection H as <-.
  apply (yield_ne _ _ _ _ _ Y). intros FL. rewrite FL in W2, W3.
  assert (L2 : length w2 = match length pred with 0%nat => length label | n => n end).
  { destruct w1 as [|a [|]]; [| |].
    - match type of W2 with (if Nat.eqb ?x ?y then _ else _) = _ => destruct (Nat.eqb x y) eqn:E end; [|discriminate]. injection W2 as <-. apply Nat.eqb_eq. exact E.
    - injection W2 as <-. apply repeat_length.
    - match type of W2 with (if Nat.eqb ?x ?y then _ else _) = _ => destruct (Nat.eqb x y) eqn:E end; [|discriminate]. injection W2 as <-. apply Nat.eqb_eq. exact E. }
  destruct (o_class_weights o) as [[|c cw]|]; [injection W3 as <-; exact L2| |injection W3 as <-; exact L2].
  injection W3 as <-. rewrite map_length, combine_length, seq_length, L2. apply Nat.min_id.
Qed.

Section Reading.
  Variable ap : list num -> nat -> list nat.
  Variable opts : options.
  Variable in_config : bool.
  Variables lk pk model : string.
  Lemma keras_tuples_ne o e ys : keras_tuples ap opts in_config lk pk model o e = Ok ys -> ys <> [].
  Proof.
    unfold keras_tuples. destruct (to_label_prediction_example_weight _ _ _ _ _ _ _) as [y|] eqn:Y; cbn [bind]; [|discriminate].
    intros MM. apply mapM_inv in MM. intros ->. inversion MM as [H|]; subst.
    revert Y. unfold to_label_prediction_example_weight.
    repeat match goal with |- bind ?x _ = _ -> _ => destruct x; cbn [bind]; [|discriminate] end.
    cbv zeta.
    repeat match goal with |- match ?x with _ => _ end = _ -> _ => destruct x end; try discriminate;
    intros Y; refine (yield_tuples_ne _ _ _ _ _ _ _ Y eq_refl); reflexivity.
  Qed.

End Reading.

Lemma combine_map_r {A B} (f : A -> B) l : combine l (map f l) = map (fun x => (x, f x)) l.
Proof. induction l; cbn [map combine]; congruence. Qed.

Lemma combine_map_both {A B C} (f : A -> B) (g : A -> C) l : combine (map f l) (map g l) = map (fun x => (f x, g x)) l.
Proof. induction l; cbn [map combine]; congruence. Qed.

Lemma combine_map_3 {A B C} (f : A -> B) (g : A -> C) l : combine (combine l (map f l)) (map g l) = map (fun x => (x, f x, g x)) l.
Proof. induction l; cbn [map combine]; congruence. Qed.

Lemma mapM_map {A B C} (f : A -> B) (g : B -> res C) l : mapM g (map f l) = mapM (fun x => g (f x)) l.
Proof. induction l as [|x l IH]; cbn [map mapM]; [reflexivity|]. destruct (g (f x)); cbn [bind]; [|reflexivity]. rewrite IH. reflexivity. Qed.

Lemma mapM_all_ok {A B} (f : A -> res B) (g : A -> B) l : (forall x, In x l -> f x = Ok (g x)) -> mapM f l = Ok (map g l).
Proof.
  induction l as [|x l IH]; intros H; cbn [mapM map]; [reflexivity|]. rewrite (H x (or_introl eq_refl)). cbn [bind].
  rewrite IH; [reflexivity|]. intros y Y. apply H. right. exact Y.
Qed.

(** Building a dictionary from fresh keys. *)

Lemma dset_fresh {K V} (eqb : K -> K -> bool) (EQ : forall a b, eqb a b = true <-> a = b) (d : list (K * V)) k v :
  ~ In k (map fst d) -> dset eqb d k v = d ++ [(k, v)].
Proof.
  induction d as [|[a b] d IH]; intros N; cbn [dset app]; [reflexivity|].
  destruct (eqb k a) eqn:E; [apply EQ in E; subst; exfalso; apply N; left; reflexivity|].
  rewrite IH; [reflexivity|]. intros C. apply N. right. exact C.
Qed.

Lemma dset_all {K V} (eqb : K -> K -> bool) (EQ : forall a b, eqb a b = true <-> a = b) (l : list (K * V)) : forall d,
  NoDup (map fst (d ++ l)) -> fold_left (fun d kv => dset eqb d (fst kv) (snd kv)) l d = d ++ l.
Proof.
  induction l as [|[k v] l IH]; intros d N; cbn [fold_left fst snd]; [rewrite app_nil_r; reflexivity|].
  rewrite (dset_fresh eqb EQ).
  - rewrite IH; [rewrite <- app_assoc; reflexivity|]. rewrite <- app_assoc. exact N.
  - rewrite map_app in N. apply NoDup_remove_2 in N. intros C. apply N, in_or_app. left. exact C.
Qed.

Lemma fold_flat_map {A B S} (f : S -> B -> S) (g : A -> list B) l : forall s,
  fold_left f (flat_map g l) s = fold_left (fun s x => fold_left f (g x) s) l s.
Proof. induction l as [|x l IH]; intros s; cbn [flat_map fold_left]; [reflexivity|]. rewrite fold_left_app. apply IH. Qed.

Lemma fold_map {A B S} (f : S -> B -> S) (g : A -> B) l : forall s, fold_left f (map g l) s = fold_left (fun s x => f s (g x)) l s.
Proof. induction l as [|x l IH]; intros s; cbn [map fold_left]; [reflexivity|]. apply IH. Qed.

Lemma fold_ext {A S} (f g : S -> A -> S) l : (forall s x, In x l -> f s x = g s x) -> forall s, fold_left f l s = fold_left g l s.
Proof.
  induction l as [|x l IH]; intros H s; cbn [fold_left]; [reflexivity|]. rewrite H by (left; reflexivity). apply IH. intros; apply H; right; assumption.
Qed.

Section Batches.
  Variable ap : list num -> nat -> list nat.
  Variable outputs : list (string * list keras_metric).
  Variable padding : option padding_options.
  Variables label_is_int prediction_is_int : bool.
  Variable desired : option Z.
  Variable too_big : list (list yielded) -> bool.
  Variable opts : options.
  Variable in_config : bool.
  Variables lk pk model : string.
  Variable fits : string -> yielded -> Prop.
  Variable width : keras_metric -> nat.
  Variable part : keras_metric -> yielded -> list Qc.
  Hypothesis some_output : outputs <> [].
  Hypothesis shapes : forall o, In o outputs -> one_shape (fits (fst o)).
  Hypothesis sums : forall o m, In o outputs -> In m (snd o) -> sums_up (fits (fst o)) m (width m) (part m).
  Variable pad_dim : nat.
  Hypothesis padded : match padding with
                      | None => pad_dim = 0%nat
                      | Some p => is_ok (pad_value label_is_int (label_padding p)) = true /\
                                  is_ok (pad_value prediction_is_int (prediction_padding p)) = true /\
                                  forall o y, In o outputs -> fits (fst o) y -> length (fst (fst y)) = pad_dim /\ length (snd (fst y)) = pad_dim
                      end.

  Let C := keras_combiner ap outputs padding label_is_int prediction_is_int desired too_big opts in_config lk pk model.
  Definition readable (e : inputs_dict) : Prop :=
    forall o, In o outputs -> exists ys, keras_tuples ap opts in_config lk pk model (fst o) e = Ok ys /\ Forall (fits (fst o)) ys.
  Definition tuples_of (o : string) (e : inputs_dict) : list yielded :=
    match keras_tuples ap opts in_config lk pk model o e with Ok ys => ys | Err _ => [] end.
  Definition tuples (o : string) (l : list inputs_dict) : list yielded := concat (map (tuples_of o) l).
  Definition weights_of (o : string) (m : keras_metric) (d : list inputs_dict) : option (list Qc) :=
    match d with [] => None | _ => Some (total (width m) (part m) (tuples o d)) end.
  Let acc_of (d p : list inputs_dict) : keras_acc :=
    KerasAcc (map (fun o => tuples (fst o) p) outputs) (map (fun o => map (fun m => weights_of (fst o) m d) (snd o)) outputs)
      (match p with [] => 0%nat | _ => pad_dim end).

  Lemma tuples_app o l k : tuples o (l ++ k) = tuples o l ++ tuples o k.
  Proof. unfold tuples. rewrite map_app, concat_app. reflexivity. Qed.
  Lemma readable_tuples e o : readable e -> In o outputs ->
    keras_tuples ap opts in_config lk pk model (fst o) e = Ok (tuples_of (fst o) e) /\ tuples_of (fst o) e <> [] /\ Forall (fits (fst o)) (tuples_of (fst o) e).
  Proof.
    intros R O. destruct (R o O) as (ys & Y & F). unfold tuples_of. rewrite Y. split; [reflexivity|]. split; [|exact F].
    exact (keras_tuples_ne _ _ _ _ _ _ _ _ _ Y).
  Qed.
  Lemma tuples_fit o l : Forall readable l -> In o outputs -> Forall (fits (fst o)) (tuples (fst o) l).
  Proof.
    intros R O. unfold tuples. induction R as [|e l E R IH]; cbn [map concat]; [constructor|]. apply Forall_app. split; [|exact IH].
    apply (readable_tuples e o E O).
  Qed.
  Lemma tuples_ne o l : Forall readable l -> In o outputs -> l <> [] -> tuples (fst o) l <> [].
  Proof.
    intros R O N. destruct R as [|e l E R]; [contradiction|]. unfold tuples. cbn [map concat]. intros X. apply app_eq_nil in X.
    apply (proj1 (proj2 (readable_tuples e o E O))), X.
  Qed.
  Lemma weights_app o m d p : p <> [] ->
    add_weights (weights_of o m d) (total (width m) (part m) (tuples o p)) = weights_of o m (d ++ p).
  Proof.
    intros N. destruct d as [|e d]; cbn [weights_of app add_weights].
    - destruct p; [contradiction|]. reflexivity.
    - change (e :: d ++ p) with ((e :: d) ++ p). rewrite tuples_app, total_app. reflexivity.
  Qed.

  Lemma same_pad {A} (l : list A) n v : length l = n -> pad l n v = l.
  Proof. intros H. unfold pad. rewrite H, Nat.eqb_refl. reflexivity. Qed.

  Lemma inputs_ok o l : In o outputs -> Forall (fits (fst o)) l -> get_inputs padding label_is_int prediction_is_int pad_dim l = Ok l.
  Proof.
    intros O F. rewrite Forall_forall in F.
    assert (P : match padding with
                | None => Ok l
                | Some p => mapM (fun y => let '(label, pred, w) := y in
                      let! v := pad_value label_is_int (label_padding p) in
                      let! u := pad_value prediction_is_int (prediction_padding p) in
                      Ok (pad label pad_dim v, pad pred pad_dim (Fin u), w)) l
                end = Ok l).
    { destruct padding as [p|]; [|reflexivity]. destruct padded as (PV & PU & W).
      rewrite (mapM_all_ok _ (fun y => y)); [rewrite map_id; reflexivity|]. intros [[a b] c] Y.
      destruct (pad_value label_is_int (label_padding p)) as [v|]; [|discriminate].
      destruct (pad_value prediction_is_int (prediction_padding p)) as [u|]; [|discriminate]. cbn [bind].
      destruct (W o _ O (F _ Y)) as [W1 W2]. cbn [fst snd] in W1, W2. rewrite !same_pad by assumption. reflexivity. }
    unfold get_inputs. rewrite P. cbn [bind].
    assert (SH : forall y z, In y l -> In z l ->
      length (fst (fst y)) = length (fst (fst z)) /\ length (snd (fst y)) = length (snd (fst z)) /\ length (snd y) = length (snd z))
      by (intros y z Y Z; apply (shapes o O); apply F; assumption).
    rewrite !same_length_all; [reflexivity| | |];
      intros x y X Y; apply in_map_iff in X, Y; destruct X as (x0 & <- & X), Y as (y0 & <- & Y); apply (SH x0 y0 X Y).
  Qed.

  Lemma len_acc d p : Forall readable p -> (Nat.eqb (len_inputs (acc_of d p)) 0 = true <-> p = []).
  Proof.
    intros R. unfold len_inputs, acc_of. cbn [ka_inputs]. destruct outputs as [|o os] eqn:EO; [contradiction|]. cbn [map nth].
    rewrite <- EO in *. assert (O : In o outputs) by (rewrite EO; left; reflexivity).
    rewrite Nat.eqb_eq. split; [|intros ->; reflexivity]. intros L. destruct p as [|e p]; [reflexivity|]. exfalso.
    apply (tuples_ne o (e :: p) R O); [discriminate|]. apply length_zero_iff_nil. exact L.
  Qed.

  Lemma process_ok d p : Forall readable p ->
    process_batch outputs padding label_is_int prediction_is_int (acc_of d p) = Ok (acc_of (d ++ p) []).
  Proof.
    intros R. unfold process_batch. destruct (Nat.eqb (len_inputs (acc_of d p)) 0) eqn:E.
    { apply len_acc in E; [|exact R]. subst p. rewrite app_nil_r. reflexivity. }
    assert (N : p <> []) by (intros ->; rewrite (proj2 (len_acc d [] R) eq_refl) in E; discriminate).
    unfold acc_of at 1 2 3 4. cbn [ka_inputs ka_weights ka_pad_to_dim]. rewrite combine_map_3, mapM_map.
    rewrite (mapM_all_ok _ (fun o => map (fun m => weights_of (fst o) m (d ++ p)) (snd o))).
    - cbn [bind]. unfold acc_of. rewrite map_map. reflexivity.
    - intros o O. replace (match p with [] => 0%nat | _ => pad_dim end) with pad_dim by (destruct p; [contradiction|reflexivity]).
      rewrite (inputs_ok o) by (try assumption; apply tuples_fit; assumption). cbn [bind].
      rewrite combine_map_r, mapM_map. apply mapM_all_ok. intros m M. cbn [fst snd].
      rewrite (sums o m O M); [|apply tuples_ne; assumption|apply tuples_fit; assumption].
      rewrite weights_app by exact N. reflexivity.
  Qed.

  Lemma merge_ok d k : merge_weights (acc_of d []) (acc_of k []) = acc_of (d ++ k) [].
  Proof.
    unfold merge_weights, acc_of. cbn [ka_inputs ka_weights ka_pad_to_dim]. f_equal. rewrite combine_map_both, map_map.
    apply map_ext. intros o. cbn [fst snd]. rewrite combine_map_both, map_map. apply map_ext. intros m. cbn [fst snd].
    destruct k as [|e k]; [cbn [weights_of]; rewrite app_nil_r; reflexivity|].
    change (weights_of (fst o) m (e :: k)) with (Some (total (width m) (part m) (tuples (fst o) (e :: k)))). cbv iota.
    rewrite weights_app by discriminate. reflexivity.
  Qed.

  Lemma widest_const l : (forall y, In y l -> length (fst (fst y)) = pad_dim /\ length (snd (fst y)) = pad_dim) -> forall d,
    l <> [] -> (d <= pad_dim)%nat -> widest d l = pad_dim.
  Proof.
    induction l as [|y l IH]; intros H d N D; [contradiction|]. unfold widest. cbn [fold_left].
    destruct (H y (or_introl eq_refl)) as [W1 W2].
    replace (Nat.max d (Nat.max (length (fst (fst y))) (length (snd (fst y))))) with pad_dim by lia.
    destruct l as [|z l]; [reflexivity|]. apply IH; [intros; apply H; right; assumption|discriminate|lia].
  Qed.

  Lemma add_ok d p e : Forall readable p -> readable e ->
    exists d' p', keras_add ap outputs padding label_is_int prediction_is_int desired too_big opts in_config lk pk model (acc_of d p) e = Ok (acc_of d' p') /\
                  Forall readable p' /\ Permutation (d' ++ p') ((d ++ p) ++ [e]).
  Proof.
    intros R E. unfold keras_add.
    rewrite (mapM_all_ok _ (fun o => tuples_of (fst o) e)) by (intros o O; apply (readable_tuples e o E O)). cbn [bind].
    assert (R' : Forall readable (p ++ [e])) by (apply Forall_app; split; [exact R|constructor; [exact E|constructor]]).
    assert (A : KerasAcc (map (fun iy => fst iy ++ snd iy) (combine (ka_inputs (acc_of d p)) (map (fun o => tuples_of (fst o) e) outputs)))
                  (ka_weights (acc_of d p))
                  (match padding with None => ka_pad_to_dim (acc_of d p)
                   | Some _ => fold_left widest (map (fun o => tuples_of (fst o) e) outputs) (ka_pad_to_dim (acc_of d p)) end)
                = acc_of d (p ++ [e])).
    { unfold acc_of. cbn [ka_inputs ka_weights ka_pad_to_dim]. f_equal.
      - rewrite combine_map_both, map_map. apply map_ext. intros o. cbn [fst snd]. rewrite tuples_app. unfold tuples at 3. cbn [map concat].
        rewrite app_nil_r. reflexivity.
      - replace (match p ++ [e] with [] => 0%nat | _ => pad_dim end) with pad_dim by (destruct p; reflexivity).
        destruct padding as [po|] eqn:EP.
        + destruct padded as (_ & _ & W).
          assert (G : forall os d0, (forall o, In o os -> In o outputs) -> os <> [] -> (d0 <= pad_dim)%nat ->
                    fold_left widest (map (fun o => tuples_of (fst o) e) os) d0 = pad_dim).
          { induction os as [|o os IH]; intros d0 I N D; [contradiction|]. cbn [map fold_left].
            assert (O : In o outputs) by (apply I; left; reflexivity).
            destruct (readable_tuples e o E O) as (_ & NE & F). rewrite Forall_forall in F.
            rewrite widest_const; [|intros y Y; apply (W o y O (F y Y))|exact NE|exact D].
            destruct os as [|o2 os]; [reflexivity|]. apply IH; [intros; apply I; right; assumption|discriminate|lia]. }
          apply G; [auto|exact some_output|destruct p; lia].
        + rewrite padded. destruct p; reflexivity. }
    rewrite A. destruct (should_flush desired too_big (acc_of d (p ++ [e]))).
    - exists (d ++ (p ++ [e])), []. rewrite process_ok by exact R'. split; [reflexivity|]. split; [constructor|].
      rewrite app_nil_r, app_assoc. reflexivity.
    - exists d, (p ++ [e]). split; [reflexivity|]. split; [exact R'|]. rewrite app_assoc. reflexivity.
  Qed.

  Definition holds (a : res keras_acc) (l : list inputs_dict) : Prop :=
    Forall readable l -> exists d p, a = Ok (acc_of d p) /\ Forall readable p /\ Permutation (d ++ p) l.

  Lemma holds_create : holds (Ok (keras_create outputs)) [].
  Proof. intros _. exists [], []. split; [reflexivity|]. split; constructor. Qed.
  Lemma holds_add a l e : holds a l ->
    holds (let! a := a in keras_add ap outputs padding label_is_int prediction_is_int desired too_big opts in_config lk pk model a e) (l ++ [e]).
  Proof.
    intros H R. apply Forall_app in R. destruct R as [R1 R2]. inversion R2; subst.
    destruct (H R1) as (d & p & -> & RP & PM). cbn [bind].
    destruct (add_ok d p e RP) as (d' & p' & -> & RP' & PM'); [assumption|]. exists d', p'. split; [reflexivity|]. split; [exact RP'|].
    rewrite PM', PM. reflexivity.
  Qed.
  Lemma holds_compact a l : holds a l -> holds (keras_compact outputs padding label_is_int prediction_is_int a) l.
  Proof.
    intros H R. destruct (H R) as (d & p & -> & RP & PM). unfold keras_compact. cbn [bind]. rewrite process_ok by exact RP.
    exists (d ++ p), []. split; [reflexivity|]. split; [constructor|]. rewrite app_nil_r. exact PM.
  Qed.
  Lemma holds_merge a l ps : holds a l -> Forall (fun q => holds (fst q) (snd q)) ps ->
    holds (keras_merge outputs padding label_is_int prediction_is_int (a :: map fst ps)) (l ++ concat (map snd ps)).
  Proof.
    intros H HP. cbn [keras_merge].
    assert (G : forall r l, (Forall readable l -> exists d, r = Ok (acc_of d []) /\ Permutation d l) ->
              Forall readable (l ++ concat (map snd ps)) ->
              exists d, fold_left (fun acc b => let! x := acc in let! b := b in let! y := process_batch outputs padding label_is_int prediction_is_int b in Ok (merge_weights x y))
                (map fst ps) r = Ok (acc_of d []) /\ Permutation d (l ++ concat (map snd ps))).
    { clear H. induction HP as [|[b k] ps Hb HP IH]; intros r l0 Hr R; cbn [map fold_left fst snd concat] in *.
      - rewrite app_nil_r in *. apply Hr, R.
      - rewrite app_assoc in R |- *. apply IH; [|exact R]. intros R'. apply Forall_app in R'. destruct R' as [R1 R2].
        destruct (Hr R1) as (d & -> & PM). destruct (Hb R2) as (d2 & p2 & -> & RP & PM2). cbn [bind].
        rewrite process_ok by exact RP. cbn [bind]. rewrite merge_ok. exists (d ++ (d2 ++ p2)). split; [reflexivity|]. rewrite PM, PM2. reflexivity. }
    intros R. edestruct (G (let! a0 := a in process_batch outputs padding label_is_int prediction_is_int a0) l) as (d & -> & PM); [|exact R|].
    - intros R1. destruct (H R1) as (d & p & -> & RP & PM). cbn [bind]. rewrite process_ok by exact RP. exists (d ++ p). split; [reflexivity|exact PM].
    - exists d, []. split; [reflexivity|]. split; [constructor|]. rewrite app_nil_r. exact PM.
  Qed.

  (** What should be reported: every metric of every output, over all tuples. *)
  Definition expected (l : list inputs_dict) : list (metric_key * num) :=
    flat_map (fun o => flat_map (fun m =>
      map (fun nx => (MetricKey (fst nx) model (fst o) (o_sub_key opts) None (Some (o_example_weighted opts)) false, snd nx))
          (reported m (match l with [] => km_zero m | _ => total (width m) (part m) (tuples (fst o) l) end))) (snd o)) outputs.

  Lemma expected_perm l k : Permutation l k -> expected l = expected k.
  Proof.
    intros P. unfold expected. apply flat_map_ext. intros o. apply flat_map_ext. intros m. f_equal. f_equal.
    destruct l as [|x l]; [apply Permutation_nil in P; subst; reflexivity|].
    destruct k as [|y k]; [apply Permutation_sym, Permutation_nil in P; discriminate|].
    apply total_perm. unfold tuples. rewrite <- !flat_map_concat_map. apply Permutation_flat_map, P.
  Qed.

  Lemma extract_ok d p : Forall readable p -> NoDup (map fst (expected (d ++ p))) ->
    keras_extract outputs padding label_is_int prediction_is_int opts model (acc_of d p) = Ok (expected (d ++ p)).
  Proof.
    intros R N. unfold keras_extract. rewrite process_ok by exact R. cbn [bind]. f_equal.
    etransitivity; [|exact (dset_all metric_key_eqb metric_key_eqb_eq (expected (d ++ p)) [] N)]. unfold expected. rewrite fold_flat_map.
    unfold acc_of. cbn [ka_weights]. rewrite combine_map_r, fold_map. apply fold_ext. intros s o _. cbn [fst snd].
    rewrite combine_map_r, fold_map, fold_flat_map. apply fold_ext. intros s2 m _. cbn [fst snd]. rewrite fold_map.
    unfold weights_of, reported. destruct (d ++ p) as [|e l]; cbv iota;
      (match goal with |- context [km_result m ?w] => destruct (km_result m w) as [x|nv] end;
       [reflexivity|rewrite fold_map; reflexivity]).
  Qed.

  Theorem batches s : Forall readable (inputs s) -> NoDup (map fst (expected (inputs s))) -> outcome C s = Ok (expected (inputs s)).
  Proof.
    intros R N. unfold outcome.
    assert (H : holds (run C s) (inputs s)) by (apply (rel_run C holds); [exact holds_create|intros a l x H; exact (holds_add a l x H)|exact holds_merge]).
    destruct (H R) as (d & p & -> & RP & PM). unfold C. cbn [keras_combiner c_extract bind].
    rewrite <- (expected_perm _ _ PM) in N |- *. apply extract_ok; assumption.
  Qed.

  Theorem batches_compacted (s : sched (option inputs_dict)) :
    let l := flat_map (fun x => match x with Some e => [e] | None => [] end) (inputs s) in
    Forall readable l -> NoDup (map fst (expected l)) ->
    outcome (Combiner (c_create C) (fun a x => match x with Some e => c_add C a e | None => keras_compact outputs padding label_is_int prediction_is_int a end)
                      (c_merge C) (c_extract C)) s = Ok (expected l).
  Proof.
    intros l R N. unfold outcome.
    set (keep := fun l : list (option inputs_dict) => flat_map (fun x => match x with Some e => [e] | None => [] end) l).
    match goal with |- context [run ?c s] => set (C' := c) end.
    assert (H : holds (run C' s) (keep (inputs s))).
    { apply (rel_run C' (fun a l => holds a (keep l))).
      - exact holds_create.
      - intros a k x H. unfold keep. rewrite flat_map_app. cbn [flat_map]. rewrite app_nil_r. destruct x as [e|].
        + exact (holds_add a (keep k) e H).
        + rewrite app_nil_r. exact (holds_compact a (keep k) H).
      - intros a k ps H HP. unfold keep. rewrite flat_map_app.
        replace (flat_map (fun x => match x with Some e => [e] | None => [] end) (concat (map snd ps)))
          with (concat (map snd (map (fun q => (fst q, keep (snd q))) ps))).
        2:{ rewrite map_map. cbn [snd]. clear. induction ps as [|q ps IH]; cbn [map concat]; [reflexivity|]. rewrite flat_map_app, IH. reflexivity. }
        replace (map fst ps) with (map fst (map (fun q : res keras_acc * list (option inputs_dict) => (fst q, keep (snd q))) ps)) by (rewrite map_map; reflexivity).
        apply (holds_merge a (keep k) _ H). apply Forall_map. exact HP. }
    destruct (H R) as (d & p & -> & RP & PM). unfold C', C. cbn [keras_combiner c_extract bind].
    change (keep (inputs s)) with l in PM.
    rewrite <- (expected_perm _ _ PM) in N |- *. apply extract_ok; assumption.
  Qed.

End Batches.

Lemma C169_batches_pf :
  forall ap outputs li pi desired too_big opts in_config lk pk model fits width part s,
    outputs <> [] ->
    (forall o, In o outputs -> one_shape (fits (fst o))) ->
    (forall o m, In o outputs -> In m (snd o) -> sums_up (fits (fst o)) m (width m) (part m)) ->
    Forall (readable ap outputs opts in_config lk pk model fits) (inputs s) ->
    NoDup (map fst (expected ap outputs opts in_config lk pk model width part (inputs s))) ->
    outcome (keras_combiner ap outputs None li pi desired too_big opts in_config lk pk model) s =
    Ok (expected ap outputs opts in_config lk pk model width part (inputs s)).
Proof.
  intros ap outputs li pi desired too_big opts in_config lk pk model fits width part s O SH SU R N.
  apply (batches ap outputs None li pi desired too_big opts in_config lk pk model fits width part O SH SU 0 eq_refl s R N).
Qed.

Definition ex_key (name : string) (sk : option sub_key) (agg : option agg_type) (weighted : bool) : metric_key :=
  MetricKey name "" "" sk agg (Some weighted) false.

Definition ex_keras (padding : option padding_options) (desired : option Z) (ms : list keras_metric) (opts : options) (in_config : bool) :=
  keras_combiner ap_sort [("", ms)] padding false false desired (fun _ => false) opts in_config "" "" "".

Lemma C169_compaction_pf :
  forall ap outputs li pi desired too_big opts in_config lk pk model fits width part (s : sched (option inputs_dict)),
    let c := keras_combiner ap outputs None li pi desired too_big opts in_config lk pk model in
    let l := flat_map (fun x => match x with Some e => [e] | None => [] end) (inputs s) in
    outputs <> [] ->
    (forall o, In o outputs -> one_shape (fits (fst o))) ->
    (forall o m, In o outputs -> In m (snd o) -> sums_up (fits (fst o)) m (width m) (part m)) ->
    Forall (readable ap outputs opts in_config lk pk model fits) l ->
    NoDup (map fst (expected ap outputs opts in_config lk pk model width part l)) ->
    outcome (Combiner (c_create c) (fun a x => match x with Some e => c_add c a e | None => keras_compact outputs None li pi a end) (c_merge c) (c_extract c)) s =
    Ok (expected ap outputs opts in_config lk pk model width part l).
Proof.
  intros ap outputs li pi desired too_big opts in_config lk pk model fits width part s c l O SH SU R N.
  apply (batches_compacted ap outputs None li pi desired too_big opts in_config lk pk model fits width part O SH SU 0 eq_refl s R N).
Qed.

Section Refused.
  Variable ap : list num -> nat -> list nat.
  Variable outputs : list (string * list keras_metric).
  Variable padding : option padding_options.
  Variables li pi : bool.
  Variable desired : option Z.
  Variable too_big : list (list yielded) -> bool.
  Variable opts : options.
  Variable in_config : bool.
  Variables lk pk model : string.
  Let C := keras_combiner ap outputs padding li pi desired too_big opts in_config lk pk model.

  Lemma merge_err (Rel : res keras_acc -> list inputs_dict -> Prop) ps : forall (r : res keras_acc),
    (exists q, In q ps /\ is_ok (let! b := fst q in process_batch outputs padding li pi b) = false) \/ is_ok r = false ->
    is_ok (fold_left (fun acc b => let! x := acc in let! b := b in let! y := process_batch outputs padding li pi b in Ok (merge_weights x y))
             (map (@fst _ (list inputs_dict)) ps) r) = false.
  Proof.
    induction ps as [|q ps IH]; intros r H; cbn [map fold_left].
    - destruct H as [(q & [] & _)|H]; exact H.
    - apply IH. destruct H as [(q' & [<-|I] & E)|H].
      + right. destruct r; cbn [bind]; [|reflexivity]. destruct (fst q); cbn [bind] in *; [|reflexivity].
        destruct (process_batch _ _ _ _ _); [discriminate|reflexivity].
      + left. exists q'. auto.
      + right. destruct r; [discriminate|reflexivity].
  Qed.
  Lemma merge_refused a (ps : list (res keras_acc * list inputs_dict)) :
    is_ok (let! b := a in process_batch outputs padding li pi b) = false \/
    (exists q, In q ps /\ is_ok (let! b := fst q in process_batch outputs padding li pi b) = false) ->
    is_ok (keras_merge outputs padding li pi (a :: map fst ps)) = false.
  Proof. intros H. cbn [keras_merge]. apply (merge_err (fun _ _ => True)). destruct H; auto. Qed.

  Definition unreadable (e : inputs_dict) : Prop :=
    exists o, In o outputs /\ is_ok (keras_tuples ap opts in_config lk pk model (fst o) e) = false.
  Lemma unreadable_run s : Exists unreadable (inputs s) -> is_ok (run C s) = false.
  Proof.
    apply (rel_run C (fun a l => Exists unreadable l -> is_ok a = false)).
    - intros H. inversion H.
    - intros a l e H E. apply Exists_app in E. unfold C. cbn [keras_combiner c_add]. destruct a as [a|]; cbn [bind]; [|reflexivity].
      destruct E as [E|E]; [specialize (H E); discriminate|]. inversion E as [? ? U|? ? U]; subst; [|inversion U].
      destruct U as (o & O & U). unfold keras_add.
      assert (M : is_ok (mapM (fun o => keras_tuples ap opts in_config lk pk model (fst o) e) outputs) = false).
      { clear - O U. induction outputs as [|o' os IH]; [contradiction|]. cbn [mapM]. destruct O as [->|O].
        - destruct (keras_tuples _ _ _ _ _ _ (fst o) e); [discriminate|reflexivity].
        - destruct (keras_tuples _ _ _ _ _ _ (fst o') e); cbn [bind]; [|reflexivity].
          specialize (IH O). destruct (mapM _ os); [discriminate|reflexivity]. }
      destruct (mapM _ outputs); [discriminate|reflexivity].
    - intros a l ps H HP E. apply merge_refused. apply Exists_app in E. destruct E as [E|E].
      + left. specialize (H E). destruct a; [discriminate|reflexivity].
      + right. apply Exists_exists in E. destruct E as (e & I & U). apply in_concat in I. destruct I as (k & K & I). apply in_map_iff in K.
        destruct K as (q & <- & Q). exists q. split; [exact Q|]. rewrite Forall_forall in HP.
        assert (E : is_ok (fst q) = false) by (apply (HP q Q), Exists_exists; exists e; auto). destruct (fst q); [discriminate|reflexivity].
  Qed.

  (** Wrong kinds of padding: nothing is computed as soon as there is an example. *)
  Hypothesis some_output : outputs <> [].
  Hypothesis bad_padding : exists p, padding = Some p /\
    (is_ok (pad_value li (label_padding p)) = false \/ is_ok (pad_value pi (prediction_padding p)) = false).
  Lemma bad_process a : (0 < len_inputs a)%nat -> length (ka_inputs a) = length outputs -> length (ka_weights a) = length outputs ->
    is_ok (process_batch outputs padding li pi a) = false.
  Proof.
    intros L LI LW. unfold process_batch. replace (Nat.eqb (len_inputs a) 0) with false by (symmetry; apply Nat.eqb_neq; lia).
    destruct bad_padding as (p & -> & B). unfold len_inputs in L. destruct outputs as [|o os]; [contradiction|].
    destruct (ka_inputs a) as [|i is]; [discriminate|]. destruct (ka_weights a) as [|w ws]; [discriminate|]. cbn [combine mapM nth] in *.
    destruct i as [|[[x y] z] i]; [cbn in L; lia|]. unfold get_inputs. cbn [mapM].
    destruct B as [B|B].
    - destruct (pad_value li (label_padding p)); [discriminate|]. reflexivity.
    - destruct (pad_value li (label_padding p)); [|reflexivity]. cbn [bind]. destruct (pad_value pi (prediction_padding p)); [discriminate|]. reflexivity.
  Qed.
  Let fine (a : res keras_acc) (l : list inputs_dict) : Prop :=
    match a with
    | Ok a => length (ka_inputs a) = length outputs /\ length (ka_weights a) = length outputs /\ (l <> [] -> (0 < len_inputs a)%nat)
    | Err _ => True
    end.
  Lemma process_lengths a b : process_batch outputs padding li pi a = Ok b -> length (ka_inputs a) = length outputs -> length (ka_weights a) = length outputs ->
    length (ka_inputs b) = length outputs /\ length (ka_weights b) = length outputs.
  Proof.
    unfold process_batch. destruct (Nat.eqb (len_inputs a) 0).
    { intros H. injection H as <-. auto. }
    destruct (mapM _ _) as [ws|] eqn:E; cbn [bind]; [|discriminate]. intros H LI LW. injection H as <-. cbn [ka_inputs ka_weights].
    rewrite map_length. split; [exact LI|]. apply mapM_inv, Forall2_length in E. rewrite <- E, !combine_length, LI, LW. lia.
  Qed.
  Lemma bad_run s : inputs s <> [] -> is_ok (outcome C s) = false.
  Proof.
    intros N. unfold outcome.
    assert (H : fine (run C s) (inputs s)).
    { apply (rel_run C fine).
      - unfold C. cbn. rewrite !map_length. split; [reflexivity|]. split; [reflexivity|]. intros X. contradiction.
      - intros a l e H. unfold C. cbn [keras_combiner c_add]. destruct a as [a|]; cbn [bind]; [|exact I]. cbn [fine] in H. destruct H as (LI & LW & _).
        unfold keras_add. destruct (mapM _ outputs) as [yss|] eqn:E; cbn [bind]; [|exact I].
        match goal with |- context [should_flush _ _ ?x] => set (a' := x) end.
        assert (L' : (0 < len_inputs a')%nat /\ length (ka_inputs a') = length outputs /\ length (ka_weights a') = length outputs).
        { unfold a', len_inputs. cbn [ka_inputs ka_weights]. apply mapM_inv in E.
          split; [|rewrite map_length, combine_length, LI, <- (Forall2_length _ _ _ E); split; [lia|exact LW]].
          destruct outputs as [|o os]; [contradiction|]. destruct (ka_inputs a) as [|i is]; [discriminate|].
          inversion E as [|? ys ? yss' E1 E2]; subst. cbn [combine map nth fst snd]. apply keras_tuples_ne in E1.
          rewrite app_length. destruct ys; [contradiction|cbn; lia]. }
        destruct L' as (L1 & L2 & L3).
        destruct (should_flush desired too_big a').
        + pose proof (bad_process a' L1 L2 L3) as B. destruct (process_batch outputs padding li pi a'); [discriminate|exact I].
        + cbn [fine]. auto.
      - intros a l ps H HP.
        destruct (is_ok (keras_merge outputs padding li pi (a :: map fst ps))) eqn:OKM.
        2:{ unfold C. cbn [keras_combiner c_merge]. destruct (keras_merge _ _ _ _ _); [discriminate|exact I]. }
        assert (LN : l ++ concat (map snd ps) = []).
        { destruct l as [|e l].
          - cbn [app]. destruct (concat (map snd ps)) as [|e k] eqn:EC; [reflexivity|]. exfalso.
            assert (I : In e (concat (map snd ps))) by (rewrite EC; left; reflexivity).
            apply in_concat in I. destruct I as (x & X & I). apply in_map_iff in X. destruct X as (q & <- & Q).
            rewrite merge_refused in OKM; [discriminate|]. right. exists q. split; [exact Q|]. rewrite Forall_forall in HP. specialize (HP q Q).
            destruct (fst q) as [b|]; cbn [fine bind] in *; [|reflexivity]. destruct HP as (? & ? & HP). apply bad_process; auto. apply HP.
            intros Z. rewrite Z in I. contradiction.
          - exfalso. rewrite merge_refused in OKM; [discriminate|]. left. destruct a as [b|]; cbn [fine bind] in *; [|reflexivity].
            destruct H as (? & ? & HP'). apply bad_process; auto. apply HP'. discriminate. }
        rewrite LN. unfold C. cbn [keras_combiner c_merge].
        assert (G : forall r, fine r [] -> fine (fold_left (fun acc b => let! x := acc in let! b := b in let! y := process_batch outputs padding li pi b in Ok (merge_weights x y)) (map fst ps) r) []).
        { clear - HP some_output. induction HP as [|q ps Hq HP IH]; intros r F; cbn [map fold_left]; [exact F|]. apply IH.
          destruct r as [x|]; cbn [bind]; [|exact I]. destruct (fst q) as [b|]; cbn [bind]; [|exact I].
          destruct (process_batch outputs padding li pi b) as [y|] eqn:PB; cbn [bind]; [|exact I]. cbn [fine] in F, Hq |- *.
          destruct F as (F1 & F2 & _). destruct Hq as (Q1 & Q2 & _). destruct (process_lengths b y PB Q1 Q2) as [Y1 Y2].
          unfold merge_weights. cbn [ka_inputs ka_weights]. rewrite map_length, combine_length, F2, Y2. split; [exact F1|]. split; [lia|]. intros Z. contradiction. }
        cbn [keras_merge]. apply G. destruct a as [b|]; cbn [bind]; [|exact I].
        destruct (process_batch outputs padding li pi b) as [y|] eqn:PB; [|exact I]. cbn [fine] in H |- *. destruct H as (Q1 & Q2 & _).
        destruct (process_lengths b y PB Q1 Q2) as [Y1 Y2]. split; [exact Y1|]. split; [exact Y2|]. intros Z. contradiction. }
    unfold C. cbn [keras_combiner c_extract]. fold C. destruct (run C s) as [a|]; cbn [bind]; [|reflexivity]. cbn [fine] in H. destruct H as (H1 & H2 & H3).
    unfold keras_extract. pose proof (bad_process a (H3 N) H1 H2) as B. destruct (process_batch outputs padding li pi a); [discriminate|reflexivity].
  Qed.

End Refused.

Lemma C169_unreadable_refused_pf :
  forall ap outputs padding li pi desired too_big opts in_config lk pk model s e o,
    In e (inputs s) -> In o outputs -> is_ok (keras_tuples ap opts in_config lk pk model (fst o) e) = false ->
    is_ok (outcome (keras_combiner ap outputs padding li pi desired too_big opts in_config lk pk model) s) = false.
Proof.
  intros ap outputs padding li pi desired too_big opts in_config lk pk model s e o E O U. unfold outcome.
  pose proof (unreadable_run ap outputs padding li pi desired too_big opts in_config lk pk model s) as H.
  cbn [keras_combiner c_extract]. rewrite Exists_exists in H. destruct (run _ s); [|reflexivity].
  discriminate H. exists e. split; [exact E|]. exists o. auto.
Qed.

(** C170 is false: a metric taken over the last dimension depends on which examples
    happen to share a batch, since each batch is padded to its own greatest width. *)

Definition zeros : padding_options := PaddingOptions None None.

Lemma C170_padding_refuted_pf :
  exists m part es s1 s2,
    (forall l, l <> [] -> km_update m l = Ok (total 2 part l)) /\ inputs s1 = es /\ inputs s2 = es /\
    is_ok (outcome (ex_keras (Some zeros) None [m] (ex_opts None true) false) s1) = true /\
    is_ok (outcome (ex_keras (Some zeros) None [m] (ex_opts None true) false) s2) = true /\
    outcome (ex_keras (Some zeros) None [m] (ex_opts None true) false) s1 <> outcome (ex_keras (Some zeros) None [m] (ex_opts None true) false) s2.
Proof.
  exists mse, mse_part, [ex_example [1%Qc] [0%Qc] 1%Qc; ex_example [0%Qc; 0%Qc] [0%Qc; 0%Qc] 1%Qc],
    (Bundle [ex_example [1%Qc] [0%Qc] 1%Qc; ex_example [0%Qc; 0%Qc] [0%Qc; 0%Qc] 1%Qc]),
    (Merge (Bundle [ex_example [1%Qc] [0%Qc] 1%Qc]) [Bundle [ex_example [0%Qc; 0%Qc] [0%Qc; 0%Qc] 1%Qc]]).
  split; [reflexivity|]. split; [reflexivity|]. split; [reflexivity|]. split; [reflexivity|]. split; [reflexivity|]. vm_compute. discriminate.
Qed.

(** What is filled in for a configured value: 0 without one, whole numbers in arrays of
    whole numbers only, others in floating point arrays only. *)

Definition padding_for (is_int : bool) (c : option padding_value) (v : Qc) : Prop :=
  match c with
  | None => v = 0%Qc
  | Some (IntPadding z) => is_int = true /\ v = qz z
  | Some (FloatPadding q) => is_int = false /\ v = q
  end.

Lemma padding_for_value b c v : padding_for b c v -> pad_value b c = Ok v.
Proof. unfold padding_for, pad_value. destruct c as [[z|q]|]; [intros [-> ->]|intros [-> ->]|intros ->]; reflexivity. Qed.

Lemma C170_equal_widths_partial_pf :
  forall ap outputs p li pi desired too_big opts in_config lk pk model fits width part s n,
    outputs <> [] ->
    (exists v u, padding_for li (label_padding p) v /\ padding_for pi (prediction_padding p) u) ->
    (forall o, In o outputs -> one_shape (fits (fst o))) ->
    (forall o y, In o outputs -> fits (fst o) y -> length (fst (fst y)) = n /\ length (snd (fst y)) = n) ->
    (forall o m, In o outputs -> In m (snd o) -> sums_up (fits (fst o)) m (width m) (part m)) ->
    Forall (readable ap outputs opts in_config lk pk model fits) (inputs s) ->
    NoDup (map fst (expected ap outputs opts in_config lk pk model width part (inputs s))) ->
    outcome (keras_combiner ap outputs (Some p) li pi desired too_big opts in_config lk pk model) s =
    outcome (keras_combiner ap outputs None li pi desired too_big opts in_config lk pk model) s.
Proof.
  intros ap outputs p li pi desired too_big opts in_config lk pk model fits width part s n O (v & u & PL & PP) SH W SU R N.
  apply padding_for_value in PL, PP.
  rewrite (batches ap outputs None li pi desired too_big opts in_config lk pk model fits width part O SH SU 0 eq_refl s R N).
  apply (batches ap outputs (Some p) li pi desired too_big opts in_config lk pk model fits width part O SH SU n); auto.
  cbn. rewrite PL, PP. auto.
Qed.

Lemma C170_filled_pf :
  forall p li pi n l v u,
    padding_for li (label_padding p) v -> padding_for pi (prediction_padding p) u ->
    (forall y, In y l -> (length (fst (fst y)) <= n)%nat /\ (length (snd (fst y)) <= n)%nat /\ length (snd y) = 1%nat) ->
    exists l', get_inputs (Some p) li pi n l = Ok l' /\
      Forall2 (fun y z => length (fst (fst z)) = n /\ length (snd (fst z)) = n /\ snd z = snd y /\
        forall i, (i < n)%nat ->
          nth i (fst (fst z)) 0%Qc = (if Nat.ltb i (length (fst (fst y))) then nth i (fst (fst y)) 0%Qc else v) /\
          nth i (snd (fst z)) NaN = (if Nat.ltb i (length (snd (fst y))) then nth i (snd (fst y)) NaN else Fin u)) l l'.
Proof.
  intros p li pi n l v u V U H. apply padding_for_value in V, U.
  assert (PL : forall (A : Type) (a : list A) x, (length a <= n)%nat -> length (pad a n x) = n).
  { intros A a x L. unfold pad. destruct (Nat.eqb (length a) n) eqn:E; [apply Nat.eqb_eq; exact E|]. rewrite app_length, repeat_length. lia. }
  assert (PN : forall (A : Type) (a : list A) x d i, (length a <= n)%nat -> (i < n)%nat -> nth i (pad a n x) d = if Nat.ltb i (length a) then nth i a d else x).
  { intros A a x d i L I. unfold pad. destruct (Nat.eqb (length a) n) eqn:E.
    - apply Nat.eqb_eq in E. destruct (Nat.ltb_spec i (length a)); [reflexivity|lia].
    - destruct (Nat.ltb_spec i (length a)); [apply app_nth1; assumption|]. rewrite app_nth2 by assumption.
      apply (repeat_spec (n - length a) x). apply nth_In. rewrite repeat_length. lia. }
  unfold get_inputs. rewrite V, U. cbn [bind].
  rewrite (mapM_all_ok _ (fun y => (pad (fst (fst y)) n v, pad (snd (fst y)) n (Fin u), snd y))) by (intros [[a b] c] _; reflexivity). cbn [bind].
  rewrite !same_length_all.
  - eexists. split; [reflexivity|]. clear V U. induction l as [|y l IH]; cbn [map]; constructor; [|apply IH; intros; apply H; right; assumption].
    cbn [fst snd]. destruct (H y (or_introl eq_refl)) as (H1 & H2 & H3). split; [apply PL; exact H1|]. split; [apply PL; exact H2|]. split; [reflexivity|].
    intros i I. split; apply PN; assumption.
  - intros x y X Y. rewrite map_map in X, Y. apply in_map_iff in X, Y. destruct X as (x0 & <- & X), Y as (y0 & <- & Y).
    cbn [snd]. destruct (H x0 X) as (_ & _ & ->), (H y0 Y) as (_ & _ & ->). reflexivity.
  - intros x y X Y. rewrite map_map in X, Y. apply in_map_iff in X, Y. destruct X as (x0 & <- & X), Y as (y0 & <- & Y).
    cbn [fst snd]. rewrite !PL; [reflexivity| |]; [apply (H y0 Y)|apply (H x0 X)].
  - intros x y X Y. rewrite map_map in X, Y. apply in_map_iff in X, Y. destruct X as (x0 & <- & X), Y as (y0 & <- & Y).
    cbn [fst snd]. rewrite !PL; [reflexivity| |]; [apply (H y0 Y)|apply (H x0 X)].
Qed.

Lemma C170_wrong_kind_refused_pf :
  forall ap outputs p li pi desired too_big opts in_config lk pk model s,
    outputs <> [] -> inputs s <> [] ->
    (exists z, (li = false /\ label_padding p = Some (IntPadding z)) \/ (pi = false /\ prediction_padding p = Some (IntPadding z))) \/
    (exists q, (li = true /\ label_padding p = Some (FloatPadding q)) \/ (pi = true /\ prediction_padding p = Some (FloatPadding q))) ->
    is_ok (outcome (keras_combiner ap outputs (Some p) li pi desired too_big opts in_config lk pk model) s) = false.
Proof.
  intros ap outputs p li pi desired too_big opts in_config lk pk model s O N H. apply bad_run; [exact O| |exact N].
  exists p. split; [reflexivity|].
  destruct H as [(z & [[-> E]|[-> E]])|(q & [[-> E]|[-> E]])]; rewrite E; [left|right|left|right]; reflexivity.
Qed.

Section Keys.
  Variable ap : list num -> nat -> list nat.
  Variable outputs : list (string * list keras_metric).
  Variable padding : option padding_options.
  Variables li pi : bool.
  Variable desired : option Z.
  Variable too_big : list (list yielded) -> bool.
  Variable opts : options.
  Variable in_config : bool.
  Variables lk pk model : string.
  Let C := keras_combiner ap outputs padding li pi desired too_big opts in_config lk pk model.
  Let formed (a : res keras_acc) : Prop :=
    match a with
    | Ok a => length (ka_inputs a) = length outputs /\ Forall2 (fun o ws => length ws = length (snd o)) outputs (ka_weights a)
    | Err _ => True
    end.

  Lemma weights_formed (g : string * list keras_metric -> list yielded -> list (option (list Qc)) -> res (list (option (list Qc)))) :
    (forall o i ws vs, length ws = length (snd o) -> g o i ws = Ok vs -> length vs = length (snd o)) ->
    forall (is : list (list yielded)) wss vss, length is = length outputs -> Forall2 (fun o ws => length ws = length (snd o)) outputs wss ->
      mapM (fun oiw => let '(o, i, ws) := oiw in g o i ws) (combine (combine outputs is) wss) = Ok vss ->
      Forall2 (fun o ws => length ws = length (snd o)) outputs vss.
  Proof.
    intros G. induction outputs as [|o os IH]; intros is wss vss LI F M; inversion F; subst.
    - destruct is; [|discriminate]. cbn in M. injection M as <-. constructor.
    - destruct is as [|i is]; [discriminate|]. cbn [combine mapM] in M.
      destruct (g o i y) as [v|] eqn:E; cbn [bind] in M; [|discriminate].
      destruct (mapM _ (combine (combine os is) l')) as [vs|] eqn:E2; cbn [bind] in M; [|discriminate]. injection M as <-.
      constructor; [apply (G o i y); assumption|]. apply (IH is l' vs); [cbn in LI; lia|assumption|exact E2].
  Qed.

  Lemma process_formed a : formed (Ok a) -> formed (process_batch outputs padding li pi a).
  Proof.
    intros [LI F]. unfold process_batch. destruct (Nat.eqb (len_inputs a) 0); [split; assumption|].
    match goal with |- context [mapM ?f ?l] => destruct (mapM f l) as [ws|] eqn:E end; cbn [bind]; [|exact I].
    split; cbn [ka_inputs ka_weights]; [rewrite map_length; exact LI|].
    apply (weights_formed _) in E; [exact E| |exact LI|exact F].
    intros o i ws0 vs L. destruct (get_inputs _ _ _ _ _); cbn [bind]; [|discriminate]. intros M. apply mapM_inv, Forall2_length in M.
    rewrite <- M, combine_length, L. lia.
  Qed.

  Lemma run_formed s : formed (run C s).
  Proof.
    apply (rel_run C (fun a _ => formed a)).
    - cbn. rewrite map_length. split; [reflexivity|]. clear C formed. induction outputs as [|o os IH]; cbn [map]; constructor; [apply map_length|exact IH].
    - intros a _ e H. unfold C. cbn [keras_combiner c_add]. destruct a as [a|]; cbn [bind]; [|exact I]. unfold keras_add.
      destruct (mapM _ outputs) as [yss|] eqn:E; cbn [bind]; [|exact I].
      match goal with |- context [should_flush _ _ ?x] => set (a' := x) end.
      assert (F : formed (Ok a')).
      { destruct H as [LI F]. split; [|exact F]. unfold a'. cbn [ka_inputs]. rewrite map_length, combine_length, LI.
        apply mapM_inv, Forall2_length in E. lia. }
      destruct (should_flush desired too_big a'); [apply process_formed; exact F|exact F].
    - intros a _ ps H HP. unfold C. cbn [keras_combiner c_merge keras_merge].
      assert (G : forall r, formed r -> formed (fold_left (fun acc b => let! x := acc in let! b := b in let! y := process_batch outputs padding li pi b in Ok (merge_weights x y)) (map fst ps) r)).
      { clear H. induction HP as [|q ps Hq HP IH]; intros r F; cbn [map fold_left]; [exact F|]. apply IH.
        destruct r as [x|]; cbn [bind]; [|exact I]. destruct (fst q) as [b|]; cbn [bind]; [|exact I].
        pose proof (process_formed b Hq) as P. destruct (process_batch outputs padding li pi b) as [y|]; cbn [bind]; [|exact I].
        destruct F as [F1 F2], P as [_ P2]. split; [exact F1|]. unfold merge_weights. cbn [ka_weights].
        clear - F2 P2. revert P2. generalize (ka_weights y). induction F2 as [|o ws os wss L F2 IH]; intros vss P2; inversion P2; subst; cbn [combine map]; constructor.
        - rewrite map_length, combine_length. cbn [fst snd]. lia.
        - apply IH. assumption. }
      apply G. destruct a as [b|]; cbn [bind]; [|exact I]. apply process_formed, H.
  Qed.

  Hypothesis single : forall o m w, In o outputs -> In m (snd o) -> exists x, km_result m w = OneValue x.
  Lemma dset_keys_in {V} (d : list (metric_key * V)) k v x : In x (map fst (dset metric_key_eqb d k v)) <-> x = k \/ In x (map fst d).
  Proof.
    induction d as [|[a b] d IH]; cbn [dset map fst In]; [intuition|]. destruct (metric_key_eqb k a) eqn:E; cbn [map fst In].
    - apply metric_key_eqb_eq in E. subst. intuition.
    - rewrite IH. intuition.
  Qed.
  Lemma outcome_keys s d : outcome C s = Ok d ->
    forall k, In k (map fst d) <-> exists o m, In o outputs /\ In m (snd o) /\ k = result_key opts model (km_name m) (fst o).
  Proof.
    unfold outcome, C. cbn [keras_combiner c_extract]. pose proof (run_formed s) as F. unfold C in F.
    destruct (run _ s) as [a|]; cbn [bind]; [|discriminate]. unfold keras_extract. pose proof (process_formed a F) as P.
    destruct (process_batch outputs padding li pi a) as [b|]; cbn [bind]; [|discriminate]. destruct P as [_ P]. intros H. injection H as <-. intros k.
    match goal with |- In k (map fst (fold_left ?f _ _)) <-> _ => set (F1 := f) end.
    assert (G : forall os wss, Forall2 (fun o ws => length ws = length (snd o)) os wss -> (forall o, In o os -> In o outputs) ->
              forall d0, In k (map fst (fold_left F1 (combine os wss) d0)) <->
                In k (map fst d0) \/ exists o m, In o os /\ In m (snd o) /\ k = result_key opts model (km_name m) (fst o)).
    { induction 1 as [|o ws os wss L HF IH]; intros I0 d0; cbn [combine fold_left].
      - split; [auto|]. intros [X|(o & m & [] & _)]. exact X.
      - rewrite IH by (intros; apply I0; right; assumption). unfold F1 at 1. cbn [fst snd].
        match goal with |- context [fold_left ?f (combine (snd o) ws) d0] => set (F2 := f) end.
        assert (G2 : forall ms vs, length vs = length ms -> (forall m, In m ms -> In m (snd o)) -> forall d1,
                  In k (map fst (fold_left F2 (combine ms vs) d1)) <-> In k (map fst d1) \/ exists m, In m ms /\ k = result_key opts model (km_name m) (fst o)).
        { induction ms as [|m ms IHm]; intros vs LV I1 d1; cbn [combine fold_left].
          - split; [auto|]. intros [X|(m & [] & _)]. exact X.
          - destruct vs as [|v vs]; [discriminate|]. cbn [fold_left]. rewrite IHm; [|cbn in LV; lia|intros; apply I1; right; assumption].
            unfold F2 at 1. cbn [fst snd].
            destruct (single o m (match v with Some w => w | None => km_zero m end) (I0 o (or_introl eq_refl)) (I1 m (or_introl eq_refl))) as (x & ->).
            rewrite dset_keys_in. split.
            + intros [[->|X]|(m' & M & E)]; [right; exists m; split; [left; reflexivity|reflexivity]|auto|right; exists m'; split; [right; exact M|exact E]].
            + intros [X|(m' & [->|M] & E)]; [auto|left; left; exact E|right; exists m'; auto]. }
        rewrite G2; [|exact L|auto]. split.
        + intros [[X|(m & M & E)]|(o' & m & O & M & E)]; [auto|right; exists o, m; split; [left; reflexivity|auto]|right; exists o', m; split; [right; exact O|auto]].
        + intros [X|(o' & m & [->|O] & M & E)]; [auto|left; right; exists m; auto|right; exists o', m; auto]. }
    rewrite (G outputs (ka_weights b) P) by auto. cbn [map In]. split; [intros [[]|X]; exact X|auto].
  Qed.

End Keys.

(** Grouping by a key, keeping the order. *)

Lemma filter_app_one {A} (f : A -> bool) l x : filter f (l ++ [x]) = filter f l ++ (if f x then [x] else []).
Proof. rewrite filter_app. cbn [filter]. destruct (f x); reflexivity. Qed.

Lemma group_by {A K V} (eqb : K -> K -> bool) (EQ : forall a b, eqb a b = true <-> a = b) (key : A -> K) (upd : V -> A -> V) (init : V) l :
  let d := fold_left (fun d x => dset eqb d (key x) (upd (match dget eqb d (key x) with Some v => v | None => init end) x)) l [] in
  NoDup (map fst d) /\
  forall k, dget eqb d k = match filter (fun x => eqb (key x) k) l with [] => None | l' => Some (fold_left upd l' init) end.
Proof.
  cbv zeta. induction l as [|x l [IH1 IH2]] using rev_ind; [split; [constructor|reflexivity]|].
  rewrite fold_left_app. cbn [fold_left]. set (d := fold_left _ l []) in *. split; [apply (dset_NoDup _ EQ), IH1|]. intros k.
  rewrite (dget_dset _ EQ), filter_app_one.
  replace (eqb k (key x)) with (eqb (key x) k).
  2:{ destruct (eqb (key x) k) eqn:E1, (eqb k (key x)) eqn:E2; try reflexivity;
      [apply EQ in E1; subst; rewrite (proj2 (EQ _ _) eq_refl) in E2; discriminate|apply EQ in E2; subst; rewrite (proj2 (EQ _ _) eq_refl) in E1; discriminate]. }
  destruct (eqb (key x) k) eqn:E.
  - apply EQ in E. subst k. rewrite IH2. destruct (filter (fun x0 => eqb (key x0) (key x)) l) as [|y l']; [reflexivity|].
    cbn [app]. change (y :: l' ++ [x]) with ((y :: l') ++ [x]). rewrite fold_left_app. reflexivity.
  - rewrite app_nil_r. apply IH2.
Qed.

(** All metrics with the output they are asked for. *)

Definition asked (metrics : list (string * list tf_metric)) : list (string * tf_metric) :=
  flat_map (fun om => map (fun m => (fst om, m)) (snd om)) metrics.

Lemma asked_in metrics o m : In (o, m) (asked metrics) <-> exists l, In (o, l) metrics /\ In m l.
Proof.
  unfold asked. rewrite in_flat_map. split.
  - intros ([o' l] & O & M). cbn [fst snd] in M. apply in_map_iff in M. destruct M as (m' & E & M). injection E as -> ->. exists l. auto.
  - intros (l & O & M). exists (o, l). split; [exact O|]. apply in_map_iff. exists m. auto.
Qed.

Lemma foldM_app {A S} (f : S -> A -> res S) l k s : foldM f (l ++ k) s = let! s := foldM f l s in foldM f k s.
Proof. revert s. induction l as [|x l IH]; intros s; cbn [app foldM bind]; [reflexivity|]. destruct (f s x); cbn [bind]; [apply IH|reflexivity]. Qed.

Lemma foldM_ok {A S} (f : S -> A -> res S) (g : S -> A -> S) (ok : A -> Prop) :
  (forall s x t, f s x = Ok t -> t = g s x /\ ok x) -> (forall s x, ok x -> f s x = Ok (g s x)) ->
  forall l s t, foldM f l s = Ok t <-> Forall ok l /\ t = fold_left g l s.
Proof.
  intros H1 H2. induction l as [|x l IH]; intros s t; cbn [foldM fold_left].
  - split; [intros E; injection E as <-; auto|intros [_ ->]; reflexivity].
  - split.
    + destruct (f s x) as [s'|] eqn:E; cbn [bind]; [|discriminate]. intros E2. apply IH in E2. destruct E2 as [F ->]. apply H1 in E.
      destruct E as [-> O]. auto.
    + intros [F ->]. inversion F; subst. rewrite H2 by assumption. cbn [bind]. apply IH. auto.
Qed.

Section Groups.
  Variable sk : option sub_key.
  Definition sub_of (m : tf_metric) : option sub_key := match verify_and_update_sub_key sk m with Ok s => s | Err _ => None end.
  Definition sub_ok (m : tf_metric) : Prop := is_ok (verify_and_update_sub_key sk m) = true.
  Lemma sub_of_ok m : sub_ok m -> verify_and_update_sub_key sk m = Ok (sub_of m).
  Proof. unfold sub_ok, sub_of. destruct (verify_and_update_sub_key sk m); [reflexivity|discriminate]. Qed.

  Variable model : string.
  Variable agg : option agg_type.
  Variable weighted : bool.
  Definition declared (p : string * tf_metric) : metric_key := MetricKey (tm_name (snd p)) model (fst p) (sub_of (snd p)) agg (Some weighted) false.

  Lemma groups_flat metrics groups : keys_and_configs metrics model sk agg weighted = Ok groups <->
    Forall (fun p => sub_ok (snd p)) (asked metrics) /\
    groups = fold_left (fun d p => add_to_group model (fst p) agg weighted (sub_of (snd p)) d (snd p)) (asked metrics) [].
  Proof.
    rewrite <- (foldM_ok (fun d p => let! s := verify_and_update_sub_key sk (snd p) in Ok (add_to_group model (fst p) agg weighted s d (snd p)))
                  (fun d p => add_to_group model (fst p) agg weighted (sub_of (snd p)) d (snd p)) (fun p => sub_ok (snd p))).
    - unfold keys_and_configs. generalize (@nil (option sub_key * group)). induction metrics as [|[o l] ms IH]; intros d; cbn [asked flat_map foldM]; [reflexivity|].
      change (flat_map _ ms) with (asked ms). rewrite foldM_app. cbn [fst snd].
      assert (E : forall l d, foldM (fun d m => let! s := verify_and_update_sub_key sk m in Ok (add_to_group model o agg weighted s d m)) l d =
                foldM (fun d p => let! s := verify_and_update_sub_key sk (snd p) in Ok (add_to_group model (fst p) agg weighted s d (snd p))) (map (fun m => (o, m)) l) d).
      { clear. induction l as [|m l IH]; intros d; cbn [map foldM fst snd]; [reflexivity|]. destruct (verify_and_update_sub_key sk m); cbn [bind]; [apply IH|reflexivity]. }
      rewrite E. match goal with |- context [foldM ?f (map ?g l) d] => destruct (foldM f (map g l) d) end; cbn [bind]; [apply IH|reflexivity].
    - intros s x t. unfold sub_ok, sub_of. destruct (verify_and_update_sub_key sk (snd x)); cbn [bind]; [|discriminate]. intros E. injection E as <-. auto.
    - intros s x O. rewrite (sub_of_ok _ O). reflexivity.
  Qed.

  Definition gather (ml : list tf_metric * list tf_metric) (p : string * tf_metric) :=
    if tm_is_loss (snd p) then (fst ml, snd ml ++ [snd p]) else (fst ml ++ [snd p], snd ml).
  Definition gather_outs (d : list (string * (list tf_metric * list tf_metric))) (p : string * tf_metric) :=
    dset String.eqb d (fst p) (gather (match dget String.eqb d (fst p) with Some v => v | None => ([], []) end) p).
  Lemma gather_spec l : forall ml, fold_left gather l ml =
    (fst ml ++ map snd (filter (fun p => negb (tm_is_loss (snd p))) l), snd ml ++ map snd (filter (fun p => tm_is_loss (snd p)) l)).
  Proof.
    induction l as [|p l IH]; intros [a b]; cbn [fold_left filter map fst snd]; [rewrite !app_nil_r; reflexivity|].
    rewrite IH. unfold gather. destruct (tm_is_loss (snd p)); cbn [fst snd negb map]; rewrite <- ?app_assoc; reflexivity.
  Qed.
  Lemma group_spec l : forall g : group,
    fold_left (fun (g : group) p => (fst g ++ [declared p], gather_outs (snd g) p)) l g = (fst g ++ map declared l, fold_left gather_outs l (snd g)).
  Proof.
    induction l as [|p l IH]; intros [a b]; cbn [fold_left map fst snd]; [rewrite app_nil_r; reflexivity|]. rewrite IH. cbn [fst snd].
    rewrite <- app_assoc. reflexivity.
  Qed.

  Lemma osub_eqb_eq a b : osub_eqb a b = true <-> a = b.
  Proof. apply option_eqb_eq, sub_key_eqb_eq. Qed.
  Definition with_sub (s : option sub_key) (l : list (string * tf_metric)) := filter (fun p => osub_eqb (sub_of (snd p)) s) l.

  (** The groups: by sub key, in order; within, the outputs with their metrics and losses. *)
  Lemma groups_of metrics groups : keys_and_configs metrics model sk agg weighted = Ok groups ->
    NoDup (map fst groups) /\
    (forall s keys outs, In (s, (keys, outs)) groups ->
      with_sub s (asked metrics) <> [] /\ keys = map declared (with_sub s (asked metrics)) /\ NoDup (map fst outs) /\
      forall o ml, In (o, ml) outs <->
        let l := filter (fun p => String.eqb (fst p) o) (with_sub s (asked metrics)) in
        l <> [] /\ ml = (map snd (filter (fun p => negb (tm_is_loss (snd p))) l), map snd (filter (fun p => tm_is_loss (snd p)) l))) /\
    (forall p, In p (asked metrics) -> exists keys outs, In (sub_of (snd p), (keys, outs)) groups).
  Proof.
    intros G. apply groups_flat in G. destruct G as [F ->].
    pose proof (group_by osub_eqb osub_eqb_eq (fun p : string * tf_metric => sub_of (snd p))
                  (fun (g : group) p => (fst g ++ [declared p], gather_outs (snd g) p)) ([], []) (asked metrics)) as H.
    cbv zeta in H. match type of H with NoDup (map fst ?d) /\ _ => set (D := d) in H end.
    replace (fold_left _ (asked metrics) []) with D.
    2:{ unfold D. apply fold_ext. intros d p _. unfold add_to_group, group_of, declared, gather_outs, gather.
        destruct (dget osub_eqb d (sub_of (snd p))) as [g|]; [reflexivity|]. reflexivity. }
    destruct H as [ND H]. split; [exact ND|]. split.
    - intros s keys outs I0. assert (G : dget osub_eqb D s = Some (keys, outs)) by (apply (dget_In_NoDup _ osub_eqb_eq); assumption).
      rewrite H in G. fold (with_sub s (asked metrics)) in G. destruct (with_sub s (asked metrics)) as [|p l] eqn:EL; [discriminate|]. rewrite <- EL in *.
      split; [rewrite EL; discriminate|]. rewrite group_spec in G. cbn [fst snd app] in G. injection G as <- <-. split; [reflexivity|].
      pose proof (group_by String.eqb String.eqb_eq (fun p : string * tf_metric => fst p) gather ([], []) (with_sub s (asked metrics))) as H2.
      cbv zeta in H2. destruct H2 as [ND2 H2]. split; [exact ND2|]. intros o ml. cbv zeta. split.
      + intros O. apply (dget_In_NoDup _ String.eqb_eq) in O; [|exact ND2].
        unfold gather_outs in O. rewrite H2 in O. destruct (filter (fun p0 => String.eqb (fst p0) o) (with_sub s (asked metrics))) as [|q k]; [discriminate|].
        rewrite gather_spec in O. injection O as <-. split; [discriminate|reflexivity].
      + intros [N ->]. apply (dget_In _ String.eqb_eq). unfold gather_outs. rewrite H2.
        destruct (filter (fun p0 => String.eqb (fst p0) o) (with_sub s (asked metrics))) as [|q k]; [contradiction|]. rewrite gather_spec. reflexivity.
    - intros p P. assert (G : with_sub (sub_of (snd p)) (asked metrics) <> []).
      { intros E. assert (X : In p (with_sub (sub_of (snd p)) (asked metrics))) by (apply filter_In; split; [exact P|apply osub_eqb_eq; reflexivity]).
        rewrite E in X. contradiction. }
      assert (E : exists g, dget osub_eqb D (sub_of (snd p)) = Some g).
      { rewrite H. fold (with_sub (sub_of (snd p)) (asked metrics)). destruct (with_sub _ _); [contradiction|]. eexists. reflexivity. }
      destruct E as ([keys outs] & E). exists keys, outs. apply (dget_In _ osub_eqb_eq). exact E.
  Qed.

  (** The members of a group. *)
  Lemma group_members metrics groups s keys outs : keys_and_configs metrics model sk agg weighted = Ok groups -> In (s, (keys, outs)) groups ->
    forall o m, (exists ml, In (o, ml) outs /\ In m (fst ml ++ snd ml)) <-> In (o, m) (asked metrics) /\ sub_of m = s.
  Proof.
    intros G I0 o m. destruct (groups_of _ _ G) as (_ & H & _). destruct (H s keys outs I0) as (_ & _ & _ & O). clear H.
    split.
    - intros (ml & OM & M). apply O in OM. destruct OM as [_ ->]. cbn [fst snd] in M. apply in_app_or in M.
      assert (M' : exists p, In p (with_sub s (asked metrics)) /\ fst p = o /\ snd p = m).
      { destruct M as [M|M]; apply in_map_iff in M; destruct M as (p & <- & M); apply filter_In in M; destruct M as [M _]; apply filter_In in M;
          destruct M as [M E]; apply String.eqb_eq in E; exists p; auto. }
      destruct M' as ([o' m'] & M' & E1 & E2). cbn [fst snd] in E1, E2. subst. apply filter_In in M'. destruct M' as [M1 M2]. cbn [snd] in M2.
      apply osub_eqb_eq in M2. auto.
    - intros [A E]. eexists. split.
      + apply O. cbv zeta. split; [|reflexivity]. intros X.
        assert (Y : In (o, m) (filter (fun p => String.eqb (fst p) o) (with_sub s (asked metrics))))
          by (apply filter_In; split; [apply filter_In; split; [exact A|apply osub_eqb_eq; exact E]|apply String.eqb_refl]).
        rewrite X in Y. contradiction.
      + cbn [fst snd]. apply in_or_app.
        assert (Y : In (o, m) (filter (fun p => String.eqb (fst p) o) (with_sub s (asked metrics))))
          by (apply filter_In; split; [apply filter_In; split; [exact A|apply osub_eqb_eq; exact E]|apply String.eqb_refl]).
        destruct (tm_is_loss m) eqn:L; [right|left]; apply in_map_iff; exists (o, m); (split; [reflexivity|]); apply filter_In; split; auto; cbn [snd]; rewrite L; reflexivity.
  Qed.

End Groups.

Lemma insert_output_in {A} (o p : string * A) l : In p (insert_output o l) <-> p = o \/ In p l.
Proof. induction l as [|q l IH]; cbn [insert_output In]; [intuition|]. destruct (String.leb (fst o) (fst q)); cbn [In]; [intuition|]. rewrite IH. intuition. Qed.

Lemma batch_outputs_in build outs p :
  In p (batch_outputs build outs) <-> exists o ml, In (o, ml) outs /\ p = (o, map build (fst ml ++ snd ml)).
Proof.
  unfold batch_outputs. induction outs as [|[o ml] outs IH]; cbn [map fold_right].
  - split; [intros []|intros (? & ? & [] & _)].
  - rewrite insert_output_in, IH. cbn [fst snd]. split.
    + intros [->|(o' & ml' & I0 & ->)]; [exists o, ml|exists o', ml']; (split; [|reflexivity]); [left; reflexivity|right; exact I0].
    + intros (o' & ml' & [E|I0] & ->); [injection E as -> ->; left; reflexivity|right; exists o', ml'; auto].
Qed.

Lemma C171_declared_keys_partial_pf :
  forall metrics model sk weighted groups s keys outs build ap padding li pi desired too_big in_config cw lk pk sch d,
    keys_and_configs metrics model sk None weighted = Ok groups -> In (s, (keys, outs)) groups ->
    (forall m, km_name (build m) = tm_name m) -> (forall m w, exists x, km_result (build m) w = OneValue x) ->
    outcome (keras_combiner ap (batch_outputs build outs) padding li pi desired too_big (batch_options s None cw weighted) in_config lk pk model) sch = Ok d ->
    forall k, In k (map fst d) <-> In k keys.
Proof.
  intros metrics model sk weighted groups s keys outs build ap padding li pi desired too_big in_config cw lk pk sch d G I0 NM ONE R k.
  assert (SG : forall o m w, In o (batch_outputs build outs) -> In m (snd o) -> exists x, km_result m w = OneValue x).
  { intros o m w O M. apply batch_outputs_in in O. destruct O as (n & ml & _ & ->). cbn [snd] in M. apply in_map_iff in M. destruct M as (t & <- & _). apply ONE. }
  rewrite (outcome_keys _ _ _ _ _ _ _ _ _ _ _ _ SG sch d R k).
  destruct (groups_of _ _ _ _ _ _ G) as (_ & H & _). destruct (H s keys outs I0) as (_ & -> & _). clear H.
  pose proof (group_members _ _ _ _ _ _ _ _ _ G I0) as M. split.
  - intros (p & m & P & PM & ->). apply batch_outputs_in in P. destruct P as (o & ml & OM & ->). cbn [fst snd] in *.
    apply in_map_iff in PM. destruct PM as (t & <- & T). destruct (proj1 (M o t) (ex_intro _ ml (conj OM T))) as [A E].
    apply in_map_iff. exists (o, t). split; [|apply filter_In; split; [exact A|apply osub_eqb_eq; exact E]].
    unfold declared, result_key. cbn [fst snd]. rewrite NM, E. reflexivity.
  - intros D. apply in_map_iff in D. destruct D as ([o t] & <- & D). apply filter_In in D. destruct D as [A E]. cbn [snd] in E. apply osub_eqb_eq in E.
    destruct (proj2 (M o t) (conj A E)) as (ml & OM & T). exists (o, map build (fst ml ++ snd ml)), (build t).
    split; [apply batch_outputs_in; exists o, ml; auto|]. split; [apply in_map; exact T|]. unfold declared, result_key. cbn [fst snd]. rewrite NM, E. reflexivity.
Qed.

Definition tf_simple (class name : string) (loss : bool) : tf_metric := TfMetric class name loss None None None None false [] false.

Definition ex_build (m : tf_metric) : keras_metric := KerasMetric (tm_name m) (km_update mse) (km_zero mse) (km_result mse).

(** C171 is false with an aggregation: the results of a micro average are kept under the
    keys of the plain metric, which are not among the declared ones. *)

Definition micro : agg_type := AggType (Some true) None None.

Lemma C171_aggregated_refuted_pf :
  exists metrics groups s keys outs build sch d k,
    keys_and_configs metrics "" None (Some micro) false = Ok groups /\ In (s, (keys, outs)) groups /\
    (forall m, km_name (build m) = tm_name m) /\ (forall m w, exists x, km_result (build m) w = OneValue x) /\
    outcome (keras_combiner ap_sort (batch_outputs build outs) None false false None (fun _ => false) (batch_options s (Some micro) [] false) false "" "" "") sch = Ok d /\
    In k (map fst d) /\ ~ In k keys /\ k = ex_key "mse" None None false.
Proof.
  exists [("", [tf_simple "MeanSquaredError" "mse" false])]. eexists. exists None. eexists. eexists.
  exists (fun m => KerasMetric (tm_name m) (km_update mse) (km_zero mse) (fun w => match mean_of w with OneValue x => OneValue x | NamedValues _ => OneValue NaN end)), (Bundle [ex_example [1%Qc; 0%Qc] [0%Qc; 0%Qc] 1%Qc]). eexists. eexists.
  split; [reflexivity|]. split; [left; reflexivity|]. split; [reflexivity|]. split; [intros m w; cbn [km_result]; destruct (mean_of w); eexists; reflexivity|].
  split; [vm_compute; reflexivity|]. split; [left; reflexivity|]. split; [|reflexivity]. intros [E|[]]. discriminate E.
Qed.

Lemma qsum_const {A} (l : list A) (w : Qc) : qsum (map (fun _ => w) l) = (qn (length l) * w)%Qc.
Proof.
  induction l as [|x l IH]; cbn [map length]; [cbn; change (qn 0) with 0%Qc; ring|].
  change (qsum (w :: map (fun _ => w) l)) with (w + qsum (map (fun _ => w) l))%Qc. rewrite IH.
  replace (qn (S (length l))) with (qn (length l) + 1)%Qc; [ring|].
  unfold qn. rewrite Nat2Z.inj_succ, <- Z.add_1_r, qz_plus. reflexivity.
Qed.

Lemma qn_ne {A} (l : list A) : l <> [] -> qn (length l) <> 0%Qc.
Proof. destruct l; [contradiction|]. intros _ E. change 0%Qc with (qn 0) in E. unfold qn in E. apply qz_inj in E. cbn in E. lia. Qed.

Lemma match_ne {A B} (l : list A) (a b : B) : l <> [] -> match l with [] => a | _ => b end = b.
Proof. destruct l; [contradiction|reflexivity]. Qed.

Lemma C172_loss_equal_weights_partial_pf :
  forall ap li pi desired too_big opts in_config lk pk model name loss o w a b s,
    w <> 0%Qc -> inputs s <> [] ->
    (forall e, In e (inputs s) -> exists ys, keras_tuples ap opts in_config lk pk model o e = Ok ys /\
       forall y, In y ys -> length (fst (fst y)) = a /\ length (snd (fst y)) = b /\ snd y = [w]) ->
    let l := tuples ap opts in_config lk pk model o (inputs s) in
    outcome (keras_combiner ap [(o, [loss_metric name loss])] None li pi desired too_big opts in_config lk pk model) s =
    Ok [(MetricKey name model o (o_sub_key opts) None (Some (o_example_weighted opts)) false, Fin (qsum (map loss l) / qn (length l)))%Qc].
Proof.
  intros ap li pi desired too_big opts in_config lk pk model name loss o w a b s W N R l.
  set (fits := fun (_ : string) (y : yielded) => length (fst (fst y)) = a /\ length (snd (fst y)) = b /\ snd y = [w]).
  set (part := fun (_ : keras_metric) (y : yielded) => [(loss y * w)%Qc; w]).
  assert (BW : forall k, Forall (fits o) k -> batch_weight k = (qn (length k) * w)%Qc).
  { intros k F. rewrite <- qsum_const. unfold batch_weight. f_equal. apply map_ext_in. intros y Y. rewrite Forall_forall in F.
    destruct (F y Y) as (_ & _ & ->). cbn. ring. }
  assert (LW : forall k, qsum (map (fun y => loss y * w)%Qc k) = (qsum (map loss k) * w)%Qc).
  { induction k as [|y k IH]; cbn [map]; [cbn; ring|]. rewrite !qsum_cons || (change (qsum ((loss y * w)%Qc :: map (fun y => (loss y * w)%Qc) k)) with ((loss y * w) + qsum (map (fun y => (loss y * w)%Qc) k))%Qc;
      change (qsum (loss y :: map loss k)) with (loss y + qsum (map loss k))%Qc). rewrite IH. ring. }
  assert (SU : forall o' m, In o' [(o, [loss_metric name loss])] -> In m (snd o') -> sums_up (fits (fst o')) m 2 (part m)).
  { intros o' m [<-|[]] [<-|[]] k K F. cbn [loss_metric km_update fst] in *. unfold total, part. cbn [seq map nth]. rewrite (BW k F), LW, qsum_const.
    f_equal. f_equal. pose proof (qn_ne k K). field. assumption. }
  assert (RD : Forall (readable ap [(o, [loss_metric name loss])] opts in_config lk pk model fits) (inputs s)).
  { apply Forall_forall. intros e E o' [<-|[]]. destruct (R e E) as (ys & Y & F). exists ys. split; [exact Y|]. apply Forall_forall. exact F. }
  assert (NE : l <> []).
  { unfold l. apply (tuples_ne ap [(o, [loss_metric name loss])] opts in_config lk pk model fits (o, [loss_metric name loss])); [exact RD|left; reflexivity|exact N]. }
  assert (EX : expected ap [(o, [loss_metric name loss])] opts in_config lk pk model (fun _ => 2%nat) part (inputs s) =
    [(MetricKey name model o (o_sub_key opts) None (Some (o_example_weighted opts)) false, Fin (qsum (map loss l) / qn (length l)))%Qc]).
  { unfold expected. cbn [flat_map fst snd app]. rewrite (match_ne (inputs s)) by exact N. fold l.
    unfold reported, total, part. cbn [seq map nth loss_metric km_result km_name]. rewrite LW, qsum_const.
    pose proof (qn_ne l NE). assert (Z : (qn (length l) * w)%Qc <> 0%Qc).
    { intros E. apply Qcmult_integral in E. destruct E; contradiction. }
    apply Qc_eqb_neq in Z. rewrite Z. cbn [map fst snd app]. f_equal. f_equal. f_equal. field. split; assumption. }
  rewrite <- EX.
  apply (batches ap [(o, [loss_metric name loss])] None li pi desired too_big opts in_config lk pk model fits (fun _ => 2%nat) part) with (pad_dim := 0%nat).
  - discriminate.
  - intros o' _ y z (Y1 & Y2 & Y3) (Z1 & Z2 & Z3). rewrite Y1, Y2, Y3, Z1, Z2, Z3. auto.
  - exact SU.
  - reflexivity.
  - exact RD.
  - rewrite EX. cbn [map fst]. constructor; [intros []|constructor].
Qed.

Definition ex_loss (y : yielded) : Qc := squared_error y.

Lemma C172_loss_weights_refuted_pf :
  exists loss es s1 s2 x1 x2,
    inputs s1 = es /\ inputs s2 = es /\
    outcome (ex_keras None None [loss_metric "loss" loss] (ex_opts None true) false) s1 = Ok [(ex_key "loss" None None true, Fin x1)] /\
    outcome (ex_keras None None [loss_metric "loss" loss] (ex_opts None true) false) s2 = Ok [(ex_key "loss" None None true, Fin x2)] /\
    x1 <> x2 /\
    let ys := tuples ap_sort (ex_opts None true) false "" "" "" "" es in
    x1 <> (qsum (map (fun y => loss y * qsum (snd y)) ys) / qsum (map (fun y => qsum (snd y)) ys))%Qc.
Proof.
  exists ex_loss, [ex_example [0%Qc] [0%Qc] 1%Qc; ex_example [1%Qc] [0%Qc] (qz 3)], (Bundle [ex_example [0%Qc] [0%Qc] 1%Qc; ex_example [1%Qc] [0%Qc] (qz 3)]),
    (Merge (Bundle [ex_example [0%Qc] [0%Qc] 1%Qc]) [Bundle [ex_example [1%Qc] [0%Qc] (qz 3)]]).
  eexists. eexists. split; [reflexivity|]. split; [reflexivity|]. split; [vm_compute; reflexivity|]. split; [vm_compute; reflexivity|].
  split; vm_compute; discriminate.
Qed.

(** The keys a list of computations declares. *)

Definition all_keys (l : list tf_computation) : list metric_key :=
  flat_map (fun c => match c with FromMatrices _ k _ _ _ => [k] | InBatches ks _ _ _ => ks end) l.

(** The last metric of a list with its name and sub key. *)

Definition last_of (sk : option sub_key) (l : list tf_metric) (m : tf_metric) : Prop :=
  exists l1 l2, l = l1 ++ m :: l2 /\ forall m', In m' l2 -> ~ (tm_name m' = tm_name m /\ sub_of sk m' = sub_of sk m).

Lemma dup_key_eqb_eq a b : dup_key_eqb a b = true <-> a = b.
Proof.
  unfold dup_key_eqb. destruct a as [n s], b as [n' s']. cbn [fst snd]. rewrite Bool.andb_true_iff, String.eqb_eq.
  rewrite (option_eqb_eq _ sub_key_eqb_eq). split; [intros [-> ->]; reflexivity|intros E; injection E as -> ->; auto].
Qed.

Lemma dup_flat sk l d0 d : foldM (fun d m => let! s := verify_and_update_sub_key sk m in Ok (dset dup_key_eqb d (tm_name m, s) m)) l d0 = Ok d <->
  Forall (sub_ok sk) l /\ d = fold_left (fun d m => dset dup_key_eqb d (tm_name m, sub_of sk m) m) l d0.
Proof.
  apply foldM_ok.
  - intros s x t. unfold sub_ok, sub_of. destruct (verify_and_update_sub_key sk x); cbn [bind]; [|discriminate]. intros E. injection E as <-. auto.
  - intros s x O. rewrite (sub_of_ok sk _ O). reflexivity.
Qed.

Lemma dup_dict sk l : let d := fold_left (fun d m => dset dup_key_eqb d (tm_name m, sub_of sk m) m) l [] in
  NoDup (map fst d) /\ (forall k m, In (k, m) d <-> k = (tm_name m, sub_of sk m) /\ last_of sk l m).
Proof.
  cbv zeta. induction l as [|x l [IH1 IH2]] using rev_ind.
  - split; [constructor|]. intros k m. split; [intros []|]. intros (_ & l1 & l2 & E & _). destruct l1; discriminate.
  - rewrite fold_left_app. cbn [fold_left]. set (d := fold_left _ l []) in *.
    assert (ND : NoDup (map fst (dset dup_key_eqb d (tm_name x, sub_of sk x) x))) by (apply (dset_NoDup _ dup_key_eqb_eq), IH1).
    split; [exact ND|]. intros k m.
    assert (IN : forall (D : list (dup_key * tf_metric)), NoDup (map fst D) -> (In (k, m) D <-> dget dup_key_eqb D k = Some m)).
    { intros D N. split; [intros I0; apply (dget_In_NoDup _ dup_key_eqb_eq); assumption|apply (dget_In _ dup_key_eqb_eq)]. }
    rewrite (IN _ ND), (dget_dset _ dup_key_eqb_eq). destruct (dup_key_eqb k (tm_name x, sub_of sk x)) eqn:E.
    + apply dup_key_eqb_eq in E. subst k. split.
      * intros Q. injection Q as <-. split; [reflexivity|]. exists l, []. split; [reflexivity|]. intros m' [].
      * intros (Q & l1 & l2 & L & H). destruct l2 as [|y l2 _] using rev_ind.
        -- apply app_inj_tail in L. destruct L as [_ ->]. reflexivity.
        -- exfalso. change (l1 ++ m :: l2 ++ [y]) with (l1 ++ (m :: l2) ++ [y]) in L. rewrite app_assoc in L. apply app_inj_tail in L. destruct L as [_ <-].
           injection Q as Q1 Q2. apply (H x); [apply in_or_app; right; left; reflexivity|]. auto.
    + rewrite <- (IN d IH1), IH2. split.
      * intros (-> & l1 & l2 & -> & H). split; [reflexivity|]. exists l1, (l2 ++ [x]). split; [rewrite <- app_assoc; reflexivity|].
        intros m' M. apply in_app_or in M. destruct M as [M|[<-|[]]]; [apply H, M|]. intros [Q1 Q2]. rewrite <- Q1, <- Q2 in E.
        rewrite (proj2 (dup_key_eqb_eq _ _) eq_refl) in E. discriminate.
      * intros (-> & l1 & l2 & L & H). split; [reflexivity|]. destruct l2 as [|y l2 _] using rev_ind.
        -- apply app_inj_tail in L. destruct L as [_ ->]. rewrite (proj2 (dup_key_eqb_eq _ _) eq_refl) in E. discriminate.
        -- change (l1 ++ m :: l2 ++ [y]) with (l1 ++ (m :: l2) ++ [y]) in L. rewrite app_assoc in L. apply app_inj_tail in L. destruct L as [-> <-].
           exists l1, l2. split; [reflexivity|]. intros m' M. apply H, in_or_app. left. exact M.
Qed.

Lemma filter_duplicates_spec sk l k : filter_duplicates sk l = Ok k ->
  Forall (sub_ok sk) l /\ NoDup (map (fun m => (tm_name m, sub_of sk m)) k) /\ (forall m, In m k <-> last_of sk l m).
Proof.
  unfold filter_duplicates. destruct (foldM _ l []) as [d|] eqn:E; cbn [bind]; [|discriminate]. intros H. injection H as <-.
  apply dup_flat in E. destruct E as [F ->]. split; [exact F|]. destruct (dup_dict sk l) as [ND H]. set (d := fold_left _ l []) in *. split.
  - rewrite map_map. replace (map (fun x => (tm_name (snd x), sub_of sk (snd x))) d) with (map fst d); [exact ND|].
    apply map_ext_in. intros [kk m] I0. apply H in I0. destruct I0 as [-> _]. reflexivity.
  - intros m. rewrite in_map_iff. split.
    + intros ([kk m'] & E & I0). cbn [snd] in E. subst. apply H in I0. apply I0.
    + intros L. exists ((tm_name m, sub_of sk m), m). split; [reflexivity|]. apply H. auto.
Qed.

Lemma filter_duplicates_ok sk l : Forall (sub_ok sk) l -> exists k, filter_duplicates sk l = Ok k.
Proof. intros F. unfold filter_duplicates. rewrite (proj2 (dup_flat sk l [] _) (conj F eq_refl)). cbn [bind]. eexists. reflexivity. Qed.

(** Each name and sub key has a last metric. *)

Lemma last_of_exists sk l m : In m l -> exists m', last_of sk l m' /\ tm_name m' = tm_name m /\ sub_of sk m' = sub_of sk m.
Proof.
  intros M. destruct (dup_dict sk l) as [ND H]. set (d := fold_left _ l []) in *.
  assert (K : In (tm_name m, sub_of sk m) (map fst d)).
  { unfold d. clear - M. induction l as [|x l IH] using rev_ind; [contradiction|]. rewrite fold_left_app. cbn [fold_left].
    apply (dset_keys_In _ dup_key_eqb_eq). apply in_app_or in M. destruct M as [M|[->|[]]]; auto. }
  apply in_map_iff in K. destruct K as ([k m'] & E & I0). cbn [fst] in E. subst k. apply H in I0. destruct I0 as [E L]. injection E as E1 E2. exists m'. auto.
Qed.

Lemma last_of_in sk l m : last_of sk l m -> In m l.
Proof. intros (l1 & l2 & -> & _). apply in_or_app. right. left. reflexivity. Qed.

Lemma mapM_map_ok {A B} (f : A -> res B) l k : mapM f l = Ok k -> forall y, In y k <-> exists x, In x l /\ f x = Ok y.
Proof.
  intros M. apply mapM_inv in M. intros y. induction M as [|a b l k E M IH]; cbn [In].
  - split; [intros []|intros (x & [] & _)].
  - rewrite IH. split.
    + intros [->|(x & X & E2)]; [exists a; auto|exists x; auto].
    + intros (x & [->|X] & E2); [left; congruence|right; exists x; auto].
Qed.

Lemma Forall2_weaken {A B} (P Q : A -> B -> Prop) : (forall a b, P a b -> Q a b) -> forall l k, Forall2 P l k -> Forall2 Q l k.
Proof. intros H l k F. induction F; constructor; auto. Qed.

Section Computations.
  Variable metrics : list (string * list tf_metric).
  Variable model : string.
  Variable sk : option sub_key.
  Variable agg : option agg_type.
  Variable cw : list (nat * Qc).
  Variable weighted : bool.
  Variable comps : list tf_computation.
  Hypothesis R : tf_metric_computations metrics model sk agg cw weighted = Ok comps.

  (** What remains of the metrics, and how the result is put together. *)
  Lemma shape_of : exists kept matrices groups,
    Forall2 (fun om om' => fst om' = fst om /\ filter_duplicates sk (snd om) = Ok (snd om')) metrics kept /\
    (agg <> None -> forall o m, In (o, m) (asked metrics) -> is_sparse m = false) /\
    Forall2 (fun om cs => Forall2 (fun m c => exists w tn, auc_class_weights m cw = Ok w /\ choose_thresholds (sub_of sk m) m = tn /\ sub_ok sk m /\
        c = FromMatrices m (declared sk model agg weighted (fst om, m)) (fst tn) (snd tn) w) (filter is_confusion_based (snd om)) cs) kept matrices /\
    keys_and_configs (filter (fun om => match snd om with [] => false | _ => true end)
       (map (fun om => (fst om, filter (fun m => negb (is_confusion_based m)) (snd om))) kept)) model sk agg weighted = Ok groups /\
    comps = concat matrices ++ map (fun sg => InBatches (fst (snd sg)) (fst sg) (snd (snd sg)) (sub_key_in_config (fst sg) (snd (snd sg)))) groups.
  Proof.
    revert R. unfold tf_metric_computations.
    destruct (match agg with Some _ => _ | None => false end) eqn:SP; [discriminate|].
    destruct (mapM _ metrics) as [kept|] eqn:EK; cbn [bind]; [|discriminate].
    destruct (mapM _ kept) as [matrices|] eqn:EM; cbn [bind]; [|discriminate].
    destruct (keys_and_configs _ _ _ _ _) as [groups|] eqn:EG; cbn [bind]; [|discriminate]. intros H. injection H as <-.
    exists kept, matrices, groups. split; [|split; [|split; [|split; [exact EG|reflexivity]]]].
    - apply mapM_inv in EK. eapply Forall2_weaken; [|exact EK]. intros [o l] [o' l']. cbn [fst snd].
      destruct (filter_duplicates sk l); cbn [bind]; [|discriminate]. intros E. injection E as <- <-. auto.
    - intros A o m M. destruct agg; [|contradiction]. apply asked_in in M. destruct M as (l & L & M).
      destruct (is_sparse m) eqn:E; [|reflexivity]. exfalso. apply Bool.not_true_iff_false in SP. apply SP.
      apply existsb_exists. exists (o, l). split; [exact L|]. apply existsb_exists. exists m. auto.
    - apply mapM_inv in EM. eapply Forall2_weaken; [|exact EM]. intros [o l] cs. cbn [fst snd]. intros E. apply mapM_inv in E.
      eapply Forall2_weaken; [|exact E]. intros m c. cbv beta.
      destruct (auc_class_weights m cw) as [w|]; cbn [bind]; [|discriminate].
      unfold sub_ok, declared, sub_of. cbn [fst snd]. destruct (verify_and_update_sub_key sk m) as [s|]; cbn [bind]; [|discriminate]. cbv zeta. intros Q. injection Q as <-.
      exists w, (choose_thresholds s m). auto.
  Qed.

  Lemma shape_asked : exists kept groups,
    Forall2 (fun om om' => fst om' = fst om /\ filter_duplicates sk (snd om) = Ok (snd om')) metrics kept /\
    (forall c, In c comps <->
       (exists o m w, In (o, m) (asked kept) /\ is_confusion_based m = true /\ auc_class_weights m cw = Ok w /\
          c = FromMatrices m (declared sk model agg weighted (o, m)) (fst (choose_thresholds (sub_of sk m) m)) (snd (choose_thresholds (sub_of sk m) m)) w) \/
       (exists s keys outs, In (s, (keys, outs)) groups /\ c = InBatches keys s outs (sub_key_in_config s outs))) /\
    keys_and_configs (filter (fun om => match snd om with [] => false | _ => true end)
       (map (fun om => (fst om, filter (fun m => negb (is_confusion_based m)) (snd om))) kept)) model sk agg weighted = Ok groups /\
    (forall o m, In (o, m) (asked kept) -> is_confusion_based m = true -> exists w, auc_class_weights m cw = Ok w) /\
    all_keys comps = map (declared sk model agg weighted) (filter (fun p => is_confusion_based (snd p)) (asked kept)) ++ flat_map (fun sg => fst (snd sg)) groups.
  Proof.
    destruct shape_of as (kept & matrices & groups & K & SP & M & G & ->). exists kept, groups. split; [exact K|].
    assert (MI : forall c, In c (concat matrices) <-> exists o m w, In (o, m) (asked kept) /\ is_confusion_based m = true /\ auc_class_weights m cw = Ok w /\
          c = FromMatrices m (declared sk model agg weighted (o, m)) (fst (choose_thresholds (sub_of sk m) m)) (snd (choose_thresholds (sub_of sk m) m)) w).
    { clear - M. intros c. induction M as [|[o l] cs kept matrices E M IH]; cbn [concat asked flat_map].
      - split; [intros []|intros (o & m & w & [] & _)].
      - change (flat_map _ kept) with (asked kept). rewrite in_app_iff, IH. cbn [fst snd] in *. split.
        + intros [C|(o' & m & w & A & B)].
          * assert (X : exists m, In m (filter is_confusion_based l) /\ exists w tn, auc_class_weights m cw = Ok w /\ choose_thresholds (sub_of sk m) m = tn /\ sub_ok sk m /\ c = FromMatrices m (declared sk model agg weighted (o, m)) (fst tn) (snd tn) w).
            { clear - E C. induction E as [|m c' l' cs E1 E IH]; [contradiction|]. destruct C as [->|C]; [exists m; split; [left; reflexivity|exact E1]|].
              destruct (IH C) as (m' & I0 & H). exists m'. split; [right; exact I0|exact H]. }
            destruct X as (m & I0 & w & tn & W & <- & _ & ->). apply filter_In in I0. exists o, m, w. split; [apply in_or_app; left; apply in_map_iff; exists m; split; [reflexivity|apply I0]|].
            split; [apply I0|]. auto.
          * right || idtac. exists o', m, w. split; [apply in_or_app; right; exact A|exact B].
        + intros (o' & m & w & A & B & W & ->). apply in_app_or in A. destruct A as [A|A]; [left|right; exists o', m, w; auto].
          apply in_map_iff in A. destruct A as (m' & Q & A). injection Q as <- ->.
          assert (I0 : In m (filter is_confusion_based l)) by (apply filter_In; auto).
          clear - E I0 W. induction E as [|m' c' l' cs E1 E IH]; [contradiction|]. destruct I0 as [->|I0]; [left|right; apply IH; exact I0].
          destruct E1 as (w' & tn & W' & <- & _ & ->). congruence. }
    split; [|split; [exact G|split]].
    - intros c. rewrite in_app_iff, MI, in_map_iff. apply or_iff_compat_l. split.
      + intros ([s [keys outs]] & <- & I0). exists s, keys, outs. auto.
      + intros (s & keys & outs & I0 & ->). exists (s, (keys, outs)). auto.
    - intros o m A C. clear - M A C. induction M as [|[o' l] cs kept matrices E M IH]; [contradiction|]. cbn [asked flat_map fst snd] in A. change (flat_map _ kept) with (asked kept) in A.
      apply in_app_or in A. destruct A as [A|A]; [|apply IH; exact A]. apply in_map_iff in A. destruct A as (m' & Q & A). injection Q as <- ->. cbn [snd] in E.
      assert (I0 : In m (filter is_confusion_based l)) by (apply filter_In; auto).
      clear - E I0. induction E as [|m' c' l' cs E1 E IH]; [contradiction|]. destruct I0 as [->|I0]; [|apply IH; exact I0]. destruct E1 as (w & tn & W & _). exists w. exact W.
    - unfold all_keys. rewrite flat_map_app. f_equal.
      + clear - M. induction M as [|[o l] cs kept matrices E M IH]; cbn [concat asked flat_map]; [reflexivity|]. change (flat_map _ kept) with (asked kept).
        rewrite flat_map_app, filter_app, map_app, IH. f_equal. cbn [fst snd] in E |- *. clear - E.
        revert cs E. induction l as [|m l IH]; intros cs E; cbn [filter map] in *; [inversion E; reflexivity|].
        cbn [snd]. destruct (is_confusion_based m); [|apply IH; exact E]. inversion E as [|? c ? cs' E1 E2]; subst. destruct E1 as (w & tn & _ & _ & _ & ->).
        cbn [flat_map map app]. rewrite (IH cs' E2). reflexivity.
      + clear. induction groups as [|[s [keys outs]] groups IH]; cbn [map flat_map]; [reflexivity|]. rewrite IH. reflexivity.
  Qed.

End Computations.

Lemma strip_prefix_eq p : forall s r, strip_prefix p s = Some r -> s = (p ++ r)%string.
Proof.
  induction p as [|a p IH]; intros s r E; cbn [strip_prefix] in E.
  - injection E as ->. reflexivity.
  - destruct s as [|b s]; [discriminate|]. destruct (Ascii.eqb_spec a b); [|discriminate]. subst. cbn [append]. f_equal. apply IH, E.
Qed.

Lemma NoDup_map_same {A B} (f : A -> B) l : NoDup (map f l) -> forall p q, In p l -> In q l -> f p = f q -> p = q.
Proof.
  induction l as [|x l IH]; intros N p q P Q E; [contradiction|]. cbn [map] in N. inversion N as [|? ? X Y]; subst.
  destruct P as [<-|P], Q as [<-|Q]; [reflexivity| | |apply IH; assumption]; exfalso; apply X; [rewrite E|rewrite <- E]; apply in_map; assumption.
Qed.

Lemma NoDup_join {A} (a b : list A) : NoDup a /\ NoDup b /\ (forall x, In x a -> In x b -> False) -> NoDup (a ++ b).
Proof.
  intros (N & M & D). induction a as [|x a IH]; cbn [app]; [exact M|]. inversion N as [|? ? X Y]; subst. constructor.
  - intros C. apply in_app_or in C. destruct C as [C|C]; [contradiction|]. apply (D x); [left; reflexivity|exact C].
  - apply IH; [exact Y|]. intros y A1 A2. apply (D y); [right; exact A1|exact A2].
Qed.

Lemma kept_asked sk metrics kept :
  Forall2 (fun om om' => fst om' = fst om /\ filter_duplicates sk (snd om) = Ok (snd om')) metrics kept ->
  forall o m, In (o, m) (asked kept) <-> exists l, In (o, l) metrics /\ last_of sk l m.
Proof.
  intros K o m. rewrite asked_in. induction K as [|[o1 l1] [o2 l2] metrics kept [E D] K IH]; cbn [In].
  - split; intros (l & [] & _).
  - cbn [fst snd] in E, D. subst o2. destruct (filter_duplicates_spec _ _ _ D) as (_ & _ & H). split.
    + intros (l & [Q|I0] & M); [injection Q as <- <-; exists l1; split; [left; reflexivity|apply H; exact M]|].
      destruct (proj1 IH (ex_intro _ l (conj I0 M))) as (l' & I1 & L). exists l'. auto.
    + intros (l & [Q|I0] & M); [injection Q as <- <-; exists l2; split; [left; reflexivity|apply H; exact M]|].
      destruct (proj2 IH (ex_intro _ l (conj I0 M))) as (l' & I1 & L). exists l'. auto.
Qed.

Lemma kept_nodup sk model agg weighted metrics kept : NoDup (map fst metrics) ->
  Forall2 (fun om om' => fst om' = fst om /\ filter_duplicates sk (snd om) = Ok (snd om')) metrics kept ->
  NoDup (map (declared sk model agg weighted) (asked kept)).
Proof.
  intros N K. induction K as [|[o1 l1] [o2 l2] metrics kept [E D] K IH]; [constructor|]. cbn [fst snd] in E, D. subst o2. cbn [map fst] in N. inversion N as [|? ? N1 N2]; subst.
  cbn [asked flat_map fst snd]. change (flat_map _ kept) with (asked kept). rewrite map_app, map_map. apply NoDup_join. split; [|split; [apply IH; exact N2|]].
  - destruct (filter_duplicates_spec _ _ _ D) as (_ & ND & _). clear - ND. induction l2 as [|m l IH]; cbn [map] in *; [constructor|]. inversion ND as [|? ? X Y]; subst. constructor; [|apply IH; exact Y].
    intros C. apply X. apply in_map_iff in C. destruct C as (m' & Q & M). unfold declared in Q. cbn [fst snd] in Q. injection Q as Q1 Q2. apply in_map_iff. exists m'. split; [congruence|exact M].
  - intros k K1 K2. apply in_map_iff in K1, K2. destruct K1 as (m & <- & _), K2 as ([o m'] & Q & A). unfold declared in Q. cbn [fst snd] in Q. injection Q as _ -> _.
    apply (kept_asked sk metrics kept K) in A. destruct A as (l & I0 & _). apply N1. change o1 with (fst (o1, l)). apply in_map. exact I0.
Qed.

Lemma others_asked (kept : list (string * list tf_metric)) f :
  asked (filter (fun om => match snd om with [] => false | _ => true end) (map (fun om => (fst om, filter f (snd om))) kept)) = filter (fun p => f (snd p)) (asked kept).
Proof.
  induction kept as [|[o l] kept IH]; cbn [map filter asked flat_map fst snd]; [reflexivity|]. change (flat_map _ kept) with (asked kept).
  rewrite filter_app, <- IH.
  assert (E : filter (fun p => f (snd p)) (map (fun m => (o, m)) l) = map (fun m => (o, m)) (filter f l)).
  { clear. induction l as [|m l IH]; cbn [map filter snd]; [reflexivity|]. destruct (f m); cbn [map]; rewrite IH; reflexivity. }
  rewrite E. destruct (filter f l) eqn:EF; cbn [app]; [reflexivity|]. cbn [asked flat_map fst snd]. reflexivity.
Qed.

Lemma NoDup_map_filter {A B} (f : A -> B) p l : NoDup (map f l) -> NoDup (map f (filter p l)).
Proof.
  induction l as [|x l IH]; cbn [map filter]; intros N; [constructor|]. inversion N as [|? ? X Y]; subst. destruct (p x); cbn [map]; [|apply IH; exact Y].
  constructor; [|apply IH; exact Y]. intros C. apply X. apply in_map_iff in C. destruct C as (y & E & I0). apply filter_In in I0. apply in_map_iff. exists y. split; [exact E|apply I0].
Qed.

Lemma C174_every_metric_once_pf :
  forall metrics model sk agg cw weighted comps,
    tf_metric_computations metrics model sk agg cw weighted = Ok comps -> NoDup (map fst metrics) ->
    NoDup (all_keys comps) /\
    forall k, In k (all_keys comps) <->
      exists o l m s, In (o, l) metrics /\ In m l /\ verify_and_update_sub_key sk m = Ok s /\ k = MetricKey (tm_name m) model o s agg (Some weighted) false.
Proof.
  intros metrics model sk agg cw weighted comps R N.
  destruct (shape_asked metrics model sk agg cw weighted comps R) as (kept & groups & K & _ & G & _ & ->).
  pose proof (kept_nodup sk model agg weighted metrics kept N K) as ND. pose proof (others_asked kept (fun m => negb (is_confusion_based m))) as OA.
  destruct (groups_of _ _ _ _ _ _ G) as (NG & GS & GE). rewrite OA in GS, GE. set (Q := filter (fun p => negb (is_confusion_based (snd p))) (asked kept)) in *.
  assert (INJ : forall p q, In p (asked kept) -> In q (asked kept) -> declared sk model agg weighted p = declared sk model agg weighted q -> p = q)
    by (intros p q; apply (NoDup_map_same _ _ ND)).
  assert (SUBK : forall s keys outs k, In (s, (keys, outs)) groups -> In k keys -> k_sub k = s /\ exists p, In p Q /\ k = declared sk model agg weighted p).
  { intros s keys outs k I0 K0. destruct (GS s keys outs I0) as (_ & -> & _). apply in_map_iff in K0. destruct K0 as (p & <- & P). apply filter_In in P. destruct P as [P E].
    apply osub_eqb_eq in E. split; [exact E|]. exists p. auto. }
  assert (QI : forall p, In p Q -> In p (asked kept) /\ is_confusion_based (snd p) = false).
  { intros p P. apply filter_In in P. destruct P as [P E]. apply negb_true_iff in E. auto. }
  split.
  - apply NoDup_join. split; [apply NoDup_map_filter; exact ND|]. split.
    + assert (X : forall gs, NoDup (map fst gs) -> (forall g, In g gs -> In g groups) -> NoDup (flat_map (fun sg : option sub_key * group => fst (snd sg)) gs)).
      { induction gs as [|[s [keys outs]] gs IH]; intros NN I0; cbn [flat_map]; [constructor|]. cbn [map fst] in NN. inversion NN as [|? ? N1 N2]; subst. cbn [fst snd].
        apply NoDup_join. split; [|split].
        - destruct (GS s keys outs (I0 _ (or_introl eq_refl))) as (_ & -> & _). unfold with_sub, Q. apply NoDup_map_filter, NoDup_map_filter, ND.
        - apply IH; [exact N2|]. intros g I1. apply I0. right. exact I1.
        - intros k K1 K2. apply in_flat_map in K2. destruct K2 as ([s' [keys' outs']] & I1 & K2). cbn [fst snd] in K2.
          destruct (SUBK _ _ _ _ (I0 _ (or_introl eq_refl)) K1) as [E1 _]. destruct (SUBK _ _ _ _ (I0 _ (or_intror I1)) K2) as [E2 _].
          apply N1. rewrite <- E1, E2. change s' with (fst (s', (keys', outs'))). apply in_map. exact I1. }
      apply X; [exact NG|auto].
    + intros k K1 K2. apply in_map_iff in K1. destruct K1 as (p & <- & P). apply filter_In in P. destruct P as [P C]. apply in_flat_map in K2.
      destruct K2 as ([s [keys outs]] & I0 & K2). cbn [fst snd] in K2. destruct (SUBK _ _ _ _ I0 K2) as (_ & q & QQ & E). destruct (QI q QQ) as [Q1 Q2].
      apply INJ in E; [|exact P|exact Q1]. subst. congruence.
  - intros k.
    assert (A : In k (map (declared sk model agg weighted) (filter (fun p => is_confusion_based (snd p)) (asked kept)) ++ flat_map (fun sg => fst (snd sg)) groups) <->
                exists p, In p (asked kept) /\ k = declared sk model agg weighted p).
    { rewrite in_app_iff. split.
      - intros [I0|I0].
        + apply in_map_iff in I0. destruct I0 as (p & <- & P). apply filter_In in P. exists p. split; [apply P|reflexivity].
        + apply in_flat_map in I0. destruct I0 as ([s [keys outs]] & I0 & K0). destruct (SUBK _ _ _ _ I0 K0) as (_ & p & P & E). exists p. split; [apply (QI p P)|exact E].
      - intros (p & P & ->). destruct (is_confusion_based (snd p)) eqn:C; [left; apply in_map_iff; exists p; split; [reflexivity|apply filter_In; auto]|right].
        assert (PQ : In p Q) by (apply filter_In; split; [exact P|rewrite C; reflexivity]). destruct (GE p PQ) as (keys & outs & I0). apply in_flat_map. eexists. split; [exact I0|]. cbn [fst snd].
        destruct (GS _ _ _ I0) as (_ & -> & _). apply in_map. apply filter_In. split; [exact PQ|]. apply osub_eqb_eq. reflexivity. }
    rewrite A. split.
    + intros ([o m] & P & ->). apply (kept_asked sk metrics kept K) in P. destruct P as (l & L & LO). exists o, l, m, (sub_of sk m). split; [exact L|]. split; [apply (last_of_in sk), LO|].
      split; [|reflexivity]. apply sub_of_ok. assert (F : Forall (sub_ok sk) l).
      { clear - K L. induction K as [|[o1 l1] om metrics kept [E D] K IH]; [contradiction|]. destruct L as [Q|L]; [injection Q as -> ->; apply (filter_duplicates_spec _ _ _ D)|apply IH; exact L]. }
      rewrite Forall_forall in F. apply F, (last_of_in sk), LO.
    + intros (o & l & m & s & L & M & V & ->). destruct (last_of_exists sk l m M) as (m' & LO & E1 & E2). exists (o, m').
      split; [apply (kept_asked sk metrics kept K); exists l; auto|]. unfold declared. cbn [fst snd]. rewrite E1, E2. unfold sub_of. rewrite V. reflexivity.
Qed.

Definition tf_sub (class name : string) (c : option Z) (k : option nat) : tf_metric := TfMetric class name false c k (Some [Fin (Q2Qc (1#2))]) None false [] false.

Lemma C174_last_wins_and_separated_pf :
  forall metrics model sk agg cw weighted comps,
    tf_metric_computations metrics model sk agg cw weighted = Ok comps ->
    (forall m k ths n w, In (FromMatrices m k ths n w) comps ->
       exists l, In (k_output k, l) metrics /\ last_of sk l m /\ k_name k = tm_name m /\
         In (tm_class m) ["AUC"; "SpecificityAtSensitivity"; "SensitivityAtSpecificity"; "TruePositives"; "FalsePositives"; "TrueNegatives"; "FalseNegatives"; "Precision"; "Recall"] /\
         tm_top_k m = None) /\
    (forall keys s outs b o ms ls, In (InBatches keys s outs b) comps -> In (o, (ms, ls)) outs ->
       (forall m, In m (ms ++ ls) -> exists l, In (o, l) metrics /\ last_of sk l m /\ verify_and_update_sub_key sk m = Ok s /\
          ~ (In (tm_class m) ["AUC"; "SpecificityAtSensitivity"; "SensitivityAtSpecificity"; "TruePositives"; "FalsePositives"; "TrueNegatives"; "FalseNegatives"; "Precision"; "Recall"] /\ tm_top_k m = None)) /\
       (forall m, In m ms -> tm_is_loss m = false) /\ (forall m, In m ls -> tm_is_loss m = true)).
Proof.
  intros metrics model sk agg cw weighted comps R.
  destruct (shape_asked metrics model sk agg cw weighted comps R) as (kept & groups & K & C & G & _ & _).
  assert (CB : forall m, is_confusion_based m = true <->
    In (tm_class m) ["AUC"; "SpecificityAtSensitivity"; "SensitivityAtSpecificity"; "TruePositives"; "FalsePositives"; "TrueNegatives"; "FalseNegatives"; "Precision"; "Recall"] /\ tm_top_k m = None).
  { intros m. unfold is_confusion_based. rewrite Bool.andb_true_iff, (memb_In _ String.eqb_eq). unfold confusion_classes. apply and_iff_compat_l. destruct (tm_top_k m); split; congruence. }
  split.
  - intros m k ths n w I0. apply C in I0. destruct I0 as [(o & m' & w' & A & B & _ & E)|(s & keys & outs & _ & E)]; [|discriminate].
    injection E as <- -> -> -> _. apply (kept_asked sk metrics kept K) in A. destruct A as (l & L & LO). exists l. cbn [declared k_output k_name fst snd].
    split; [exact L|]. split; [exact LO|]. split; [reflexivity|]. apply CB, B.
  - intros keys s outs b o ms ls I0 O. apply C in I0. destruct I0 as [(o' & m' & w' & _ & _ & _ & E)|(s' & keys' & outs' & I0 & E)]; [discriminate|]. injection E as -> -> -> _.
    split; [|split].
    + intros m M. pose proof (group_members _ _ _ _ _ _ _ _ _ G I0 o m) as GM. destruct (proj1 GM) as [A E]; [exists (ms, ls); auto|].
      rewrite others_asked in A. apply filter_In in A. destruct A as [A NC]. cbn [snd] in NC. apply (kept_asked sk metrics kept K) in A. destruct A as (l & L & LO). exists l.
      split; [exact L|]. split; [exact LO|]. split.
      * rewrite <- E. apply sub_of_ok. assert (F : Forall (sub_ok sk) l).
        { clear - K L. induction K as [|[o1 l1] om metrics kept [E D] K IH]; [contradiction|]. destruct L as [Q|L]; [injection Q as -> ->; apply (filter_duplicates_spec _ _ _ D)|apply IH; exact L]. }
        rewrite Forall_forall in F. apply F, (last_of_in sk), LO.
      * rewrite <- CB. apply negb_true_iff in NC. congruence.
    + intros m M. destruct (groups_of _ _ _ _ _ _ G) as (_ & GS & _). destruct (GS _ _ _ I0) as (_ & _ & _ & OS). apply OS in O. destruct O as [_ E]. injection E as -> _.
      apply in_map_iff in M. destruct M as (p & <- & M). apply filter_In in M. apply negb_true_iff. apply M.
    + intros m M. destruct (groups_of _ _ _ _ _ _ G) as (_ & GS & _). destruct (GS _ _ _ I0) as (_ & _ & _ & OS). apply OS in O. destruct O as [_ E]. injection E as _ ->.
      apply in_map_iff in M. destruct M as (p & <- & M). apply filter_In in M. apply M.
Qed.

(** The class or the k of the metric itself is not that of the sub key. *)

Definition conflict (sk : option sub_key) (m : tf_metric) : Prop :=
  exists s, sk = Some s /\
    ((exists c, tm_class_id m = Some c /\ sk_class_id s <> Some c) \/
     (tm_class_id m = None /\ exists k, tm_top_k m = Some k /\ sk_top_k s <> Some k)).

Lemma conflict_iff sk m : conflict sk m <-> verify_and_update_sub_key sk m = Err ValueError.
Proof.
  unfold conflict, verify_and_update_sub_key.
  assert (OZ : forall a b : option Z, option_eqb Z.eqb a b = true <-> a = b) by (apply option_eqb_eq, Z.eqb_eq).
  assert (ON : forall a b : option nat, option_eqb Nat.eqb a b = true <-> a = b) by (apply option_eqb_eq, Nat.eqb_eq).
  split.
  - intros (s & -> & [(c & C & D)|(C & k & T & D)]); rewrite C; [|rewrite T].
    + destruct (option_eqb Z.eqb (sk_class_id s) (Some c)) eqn:E; [apply OZ in E; contradiction|reflexivity].
    + destruct (option_eqb Nat.eqb (sk_top_k s) (Some k)) eqn:E; [apply ON in E; contradiction|reflexivity].
  - destruct (tm_class_id m) as [c|].
    + destruct sk as [s|]; [|discriminate]. destruct (option_eqb Z.eqb (sk_class_id s) (Some c)) eqn:E; [discriminate|]. intros _. exists s. split; [reflexivity|]. left. exists c.
      split; [reflexivity|]. intros X. apply OZ in X. congruence.
    + destruct (tm_top_k m) as [k|]; [|discriminate]. destruct sk as [s|]; [|discriminate]. destruct (option_eqb Nat.eqb (sk_top_k s) (Some k)) eqn:E; [discriminate|]. intros _.
      exists s. split; [reflexivity|]. right. split; [reflexivity|]. exists k. split; [reflexivity|]. intros X. apply ON in X. congruence.
Qed.

Lemma verify_errs sk m e : verify_and_update_sub_key sk m = Err e -> e = ValueError.
Proof.
  unfold verify_and_update_sub_key. destruct (tm_class_id m), (tm_top_k m), sk; try discriminate;
    match goal with |- (if ?b then _ else _) = _ -> _ => destruct b end; try discriminate; intros E; injection E as <-; reflexivity.
Qed.

Lemma sub_ok_iff sk m : sub_ok sk m <-> ~ conflict sk m.
Proof.
  rewrite conflict_iff. unfold sub_ok. destruct (verify_and_update_sub_key sk m) as [s|e] eqn:E; cbn [is_ok].
  - split; [discriminate|reflexivity].
  - apply verify_errs in E as ->. split; [discriminate|]. intros H. contradiction H; reflexivity.
Qed.

Lemma C175_conflicts_and_sparse_refused_pf :
  forall metrics model sk agg cw weighted,
    (exists o l m, In (o, l) metrics /\ In m l /\ (conflict sk m \/ (agg <> None /\ exists n, tm_class m = ("Sparse" ++ n)%string))) ->
    tf_metric_computations metrics model sk agg cw weighted = Err ValueError.
Proof.
  intros metrics model sk agg cw weighted (o & l & m & O & M & H). unfold tf_metric_computations.
  destruct (match agg with Some _ => existsb (fun om => existsb is_sparse (snd om)) metrics | None => false end) eqn:SP; [reflexivity|].
  destruct H as [H|(A & n & E)].
  - assert (X : mapM (fun om => let! l := filter_duplicates sk (snd om) in Ok (fst om, l)) metrics = Err ValueError).
    { assert (FE : forall k d e, foldM (fun d m => let! s := verify_and_update_sub_key sk m in Ok (dset dup_key_eqb d (tm_name m, s) m)) k d = Err e -> e = ValueError).
      { induction k as [|x k IH]; intros d e; cbn [foldM]; [discriminate|]. destruct (verify_and_update_sub_key sk x) eqn:V; cbn [bind]; [apply IH|]. intros Q. injection Q as <-.
        apply (verify_errs _ _ _ V). }
      assert (FD : forall k, match filter_duplicates sk k with Ok _ => Forall (sub_ok sk) k | Err e => e = ValueError end).
      { intros k. destruct (filter_duplicates sk k) as [k'|e] eqn:EF; [apply (filter_duplicates_spec _ _ _ EF)|]. unfold filter_duplicates in EF.
        destruct (foldM _ k []) as [d|e'] eqn:EF2; cbn [bind] in EF; [discriminate|]. injection EF as <-. apply (FE _ _ _ EF2). }
      clear SP. induction metrics as [|[o1 l1] ms IH]; [contradiction|]. cbn [mapM fst snd]. specialize (FD l1). destruct (filter_duplicates sk l1); cbn [bind]; [|subst; reflexivity].
      destruct O as [Q|O]; [injection Q as -> ->; exfalso; rewrite Forall_forall in FD; apply (sub_ok_iff sk m) in H; [exact H|apply FD; exact M]|].
      rewrite (IH O). reflexivity. }
    rewrite X. reflexivity.
  - exfalso. destruct agg; [|contradiction]. apply Bool.not_true_iff_false in SP. apply SP. apply existsb_exists. exists (o, l). split; [exact O|].
    apply existsb_exists. exists m. split; [exact M|]. unfold is_sparse. rewrite E. cbn. destruct n; reflexivity.
Qed.

(** An AUC with weights of its own while there are class weights, or with multi_label. *)

Definition auc_fine (cw : list (nat * Qc)) (m : tf_metric) : Prop :=
  tm_class m = "AUC" -> tm_multi_label m = false /\ (tm_label_weights m = [] \/ cw = []).

Lemma auc_fine_iff cw m : auc_fine cw m <-> is_ok (auc_class_weights m cw) = true.
Proof.
  unfold auc_fine, auc_class_weights. destruct (String.eqb_spec (tm_class m) "AUC") as [E|E]; [|split; [reflexivity|intros _ X; contradiction]].
  destruct (tm_label_weights m) as [|q ws] eqn:EL, cw as [|c cw], (tm_multi_label m); cbn [bind is_ok]; split; try reflexivity; try discriminate;
    try (intros H; destruct (H E) as [H1 H2]; try discriminate H1; destruct H2; discriminate); try (intros _ _; split; [reflexivity|auto]).
Qed.

Lemma C175_auc_refused_pf :
  forall metrics model sk agg cw weighted o l m,
    In (o, l) metrics -> last_of sk l m -> tm_class m = "AUC" -> tm_top_k m = None ->
    tm_multi_label m = true \/ (tm_label_weights m <> [] /\ cw <> []) ->
    is_ok (tf_metric_computations metrics model sk agg cw weighted) = false.
Proof.
  intros metrics model sk agg cw weighted o l m O L A T H. destruct (tf_metric_computations metrics model sk agg cw weighted) as [comps|] eqn:R; [|reflexivity]. exfalso.
  destruct (shape_asked metrics model sk agg cw weighted comps R) as (kept & groups & K & _ & _ & W & _).
  destruct (W o m) as (w & E).
  - apply (kept_asked sk metrics kept K). exists l. auto.
  - unfold is_confusion_based. rewrite A, T. reflexivity.
  - assert (F : auc_fine cw m) by (apply auc_fine_iff; rewrite E; reflexivity). destruct (F A) as [F1 F2]. destruct H as [H|[H1 H2]]; [congruence|]. destruct F2; contradiction.
Qed.

Definition tf_auc (name : string) (ws : list Qc) (multi : bool) : tf_metric := TfMetric "AUC" name false None None (Some [Fin 0%Qc]) (Some 3%Z) true ws multi.

Lemma C175_accepted_pf :
  forall metrics model sk agg cw weighted,
    (forall o l m, In (o, l) metrics -> In m l ->
       ~ conflict sk m /\ (agg = None \/ forall n, tm_class m <> ("Sparse" ++ n)%string) /\ auc_fine cw m) ->
    exists comps, tf_metric_computations metrics model sk agg cw weighted = Ok comps.
Proof.
  intros metrics model sk agg cw weighted H. unfold tf_metric_computations.
  replace (match agg with Some _ => existsb (fun om => existsb is_sparse (snd om)) metrics | None => false end) with false.
  2:{ symmetry. destruct agg as [a|] eqn:EA; [|reflexivity]. destruct (existsb _ metrics) eqn:E; [|reflexivity]. exfalso. apply existsb_exists in E. destruct E as ([o l] & O & E).
      apply existsb_exists in E. destruct E as (m & M & E). destruct (H o l m O M) as (_ & [X|X] & _); [discriminate|].
      unfold is_sparse, starts_with in E. destruct (strip_prefix "Sparse" (tm_class m)) as [n|] eqn:EP; [|discriminate].
      apply (X n). apply strip_prefix_eq. exact EP. }
  assert (KE : exists kept, mapM (fun om => let! l := filter_duplicates sk (snd om) in Ok (fst om, l)) metrics = Ok kept).
  { clear - H. induction metrics as [|[o l] ms IH]; cbn [mapM fst snd]; [eexists; reflexivity|].
    destruct (filter_duplicates_ok sk l) as (k & ->).
    - apply Forall_forall. intros m M. apply sub_ok_iff. apply (H o l m (or_introl eq_refl) M).
    - cbn [bind]. destruct IH as (kept & ->); [intros o' l' m' I0; apply (H o' l' m'); right; exact I0|]. cbn [bind]. eexists. reflexivity. }
  destruct KE as (kept & KE). rewrite KE. cbn [bind].
  assert (K : Forall2 (fun om om' => fst om' = fst om /\ filter_duplicates sk (snd om) = Ok (snd om')) metrics kept).
  { apply mapM_inv in KE. eapply Forall2_weaken; [|exact KE]. intros [o l] [o' l']. cbn [fst snd]. destruct (filter_duplicates sk l); cbn [bind]; [|discriminate]. intros E. injection E as <- <-. auto. }
  assert (HK : forall o m, In (o, m) (asked kept) -> sub_ok sk m /\ is_ok (auc_class_weights m cw) = true).
  { intros o m A. apply (kept_asked sk metrics kept K) in A. destruct A as (l & O & L). destruct (H o l m O (last_of_in sk l m L)) as (H1 & _ & H3). split; [apply sub_ok_iff; exact H1|apply auc_fine_iff; exact H3]. }
  assert (ME : exists matrices, mapM (fun om => mapM (fun m =>
       let! cw := auc_class_weights m cw in
       let! s := verify_and_update_sub_key sk m in
       let tn := choose_thresholds s m in
       Ok (FromMatrices m (MetricKey (tm_name m) model (fst om) s agg (Some weighted) false) (fst tn) (snd tn) cw))
     (filter is_confusion_based (snd om))) kept = Ok matrices).
  { clear - HK. induction kept as [|[o l] kept IH]; cbn [mapM fst snd]; [eexists; reflexivity|].
    assert (X : exists cs, mapM (fun m =>
       let! cw := auc_class_weights m cw in
       let! s := verify_and_update_sub_key sk m in
       let tn := choose_thresholds s m in
       Ok (FromMatrices m (MetricKey (tm_name m) model o s agg (Some weighted) false) (fst tn) (snd tn) cw)) (filter is_confusion_based l) = Ok cs).
    { assert (HL : forall m, In m (filter is_confusion_based l) -> sub_ok sk m /\ is_ok (auc_class_weights m cw) = true).
      { intros m M. apply filter_In in M. apply (HK o m). apply asked_in. exists l. split; [left; reflexivity|apply M]. }
      revert HL. generalize (filter is_confusion_based l). intros ms. induction ms as [|m ms IHm]; intros HL; cbn [mapM]; [eexists; reflexivity|].
      destruct (HL m (or_introl eq_refl)) as [H1 H2]. destruct (auc_class_weights m cw); [|discriminate]. rewrite (sub_of_ok sk m H1). cbn [bind].
      destruct IHm as (cs & IHm); [intros; apply HL; right; assumption|]. cbv zeta in IHm |- *. rewrite IHm. cbn [bind]. eexists. reflexivity. }
    destruct X as (cs & X). cbv zeta in X, IH |- *. rewrite X. cbn [bind]. destruct IH as (ms & IH); [|rewrite IH; cbn [bind]; eexists; reflexivity].
    intros o' m' A. apply (HK o' m'). apply asked_in in A. destruct A as (l' & I0 & M). apply asked_in. exists l'. split; [right; exact I0|exact M]. }
  destruct ME as (matrices & ME). cbv zeta in ME |- *. rewrite ME. cbn [bind].
  match goal with |- context [keys_and_configs ?x] => assert (GE : exists groups, keys_and_configs x model sk agg weighted = Ok groups) end.
  { eexists. apply groups_flat. split; [|reflexivity]. rewrite others_asked. apply Forall_forall. intros [o m] A. apply filter_In in A. destruct A as [A _]. apply (HK o m A). }
  destruct GE as (groups & ->). cbn [bind]. eexists. reflexivity.
Qed.

Lemma C173_metrics_partial_pf :
  forall metrics model sk agg cw weighted comps keys s outs b o ms ls,
    tf_metric_computations metrics model sk agg cw weighted = Ok comps ->
    In (InBatches keys s outs b) comps -> In (o, (ms, ls)) outs ->
    (b = true -> exists k, s = Some (SubKey None None (Some k)) \/ (exists t, s = Some t /\ s = sk /\ sk_top_k t = Some k)) /\
    (b = true -> forall m, In m ms -> exists k, tm_top_k m = Some k /\ s = Some (SubKey None None (Some k))) /\
    (b = false -> (exists t k, s = Some t /\ sk_top_k t = Some k) -> exists o' ms' ls' m, In (o', (ms', ls')) outs /\ In m ms' /\ tm_top_k m = None).
Proof.
  intros metrics model sk agg cw weighted comps keys s outs b o ms ls R I0 O.
  destruct (C174_last_wins_and_separated_pf metrics model sk agg cw weighted comps R) as [_ H].
  assert (EB : b = sub_key_in_config s outs).
  { destruct (shape_asked metrics model sk agg cw weighted comps R) as (kept & groups & _ & C & _). apply C in I0.
    destruct I0 as [(o' & m' & w' & _ & _ & _ & E)|(s' & keys' & outs' & _ & E)]; [discriminate|]. injection E as -> -> -> ->. reflexivity. }
  assert (SH : forall m, In m (ms ++ ls) -> s = match tm_class_id m with Some c => Some (SubKey (Some c) None None) | None => match tm_top_k m with Some k => Some (SubKey None None (Some k)) | None => sk end end).
  { intros m M. destruct (H keys s outs b o ms ls I0 O) as [H1 _]. destruct (H1 m M) as (l & _ & _ & V & _). revert V. unfold verify_and_update_sub_key.
    destruct (tm_class_id m), (tm_top_k m), sk; try (match goal with |- (if ?x then _ else _) = _ -> _ => destruct x end); intros E; try discriminate; injection E as <-; reflexivity. }
  split; [|split].
  - intros ->. unfold sub_key_in_config in EB. symmetry in EB. apply andb_prop in EB. destruct EB as [EB _]. destruct s as [t|]; [|discriminate]. destruct (sk_top_k t) as [k|] eqn:ET; [|discriminate].
    exists k.
    assert (X : exists m, In m (ms ++ ls)).
    { destruct (shape_asked metrics model sk agg cw weighted comps R) as (kept & groups & _ & C & G & _). apply C in I0.
      destruct I0 as [(o' & m' & w' & _ & _ & _ & E)|(s' & keys' & outs' & I0 & E)]; [discriminate|]. injection E as <- <- <- _.
      destruct (groups_of _ _ _ _ _ _ G) as (_ & GS & _). destruct (GS _ _ _ I0) as (_ & _ & _ & OS). apply OS in O. destruct O as [N E]. cbv zeta in N, E. injection E as -> ->.
      destruct (filter (fun p => String.eqb (fst p) o) (with_sub sk (Some t) _)) as [|[o1 m] r]; [contradiction|]. exists m. apply in_or_app.
      cbn [filter snd]. destruct (tm_is_loss m) eqn:EL; [right|left]; left; reflexivity. }
    destruct X as (m & M). pose proof (SH m M) as E. destruct (tm_class_id m); [injection E as ->; discriminate|]. destruct (tm_top_k m) as [k'|]; [injection E as ->; cbn in ET; injection ET as ->; left; reflexivity|].
    right. exists t. auto.
  - intros -> m M. unfold sub_key_in_config in EB. symmetry in EB. apply andb_prop in EB. destruct EB as [ET EB].
    rewrite forallb_forall in EB. specialize (EB m). assert (IM : In m (flat_map (fun o => fst (snd o)) outs)) by (apply in_flat_map; exists (o, (ms, ls)); auto).
    specialize (EB IM). destruct (tm_top_k m) as [k|] eqn:EK; [|discriminate]. exists k. split; [reflexivity|].
    rewrite (SH m (in_or_app _ _ _ (or_introl M))), EK. destruct (tm_class_id m) eqn:EC; [|reflexivity]. exfalso.
    pose proof (SH m (in_or_app _ _ _ (or_introl M))) as E. rewrite EC in E. subst s. discriminate.
  - intros -> (t & k & -> & T). unfold sub_key_in_config in EB. rewrite T in EB. cbn [andb] in EB. symmetry in EB. apply Bool.not_true_iff_false in EB.
    assert (X : exists m, In m (flat_map (fun o => fst (snd o)) outs) /\ tm_top_k m = None).
    { revert EB. generalize (flat_map (fun o0 : string * (list tf_metric * list tf_metric) => fst (snd o0)) outs). intros l. induction l as [|m l IH]; intros EB; [exfalso; apply EB; reflexivity|].
      cbn [forallb] in EB. destruct (tm_top_k m) eqn:E; [|exists m; split; [left; reflexivity|exact E]].
      destruct IH as (m' & M & E'); [exact EB|]. exists m'. split; [right; exact M|exact E']. }
    destruct X as (m & M & E). apply in_flat_map in M. destruct M as ([o' [ms' ls']] & O' & M). exists o', ms', ls', m. auto.
Qed.

Lemma C173_tuples_pf :
  forall ap opts in_config lk pk model output e ls ps w,
    o_flatten opts = false -> o_class_weights opts = None ->
    carries (o_example_weighted opts) model output e (Reading ls ps [w]) ->
    (in_config = true -> length ls = length ps ->
       keras_tuples ap opts in_config lk pk model output e = Ok [(ls, ps, [w])]) /\
    (in_config = true -> forall c, ls = [qz (Z.of_nat c)] -> (c < length ps)%nat -> length ps <> 1%nat ->
       keras_tuples ap opts in_config lk pk model output e = Ok [(indicator (length ps) c, ps, [w])]) /\
    (in_config = false -> o_sub_key opts = None -> keras_tuples ap opts in_config lk pk model output e = Ok [(ls, ps, [w])]).
Proof.
  intros ap opts in_config lk pk model output e ls ps w F CW C.
  assert (Y : forall sk, sk = None -> to_label_prediction_example_weight ap
                 (Options sk (o_aggregation opts) (o_class_weights opts)
                          (o_example_weighted opts) false (o_flatten opts) false false) lk pk model output e = Ok [(ls, ps, [w])]).
  { intros sk ->. rewrite (prepared ap _ lk pk model output e (Reading ls ps [w])) by exact C.
    cbn [r_labels r_scores r_weight]. unfold yield_tuples. cbn. rewrite F, CW. reflexivity. }
  split; [|split].
  - intros -> L. unfold keras_tuples. rewrite Y by reflexivity. cbn [bind mapM]. rewrite L, Nat.eqb_refl. reflexivity.
  - intros -> c E L N. unfold keras_tuples. rewrite Y by reflexivity. subst ls. cbn [bind mapM length andb].
    destruct (Nat.eqb_spec 1 (length ps)); [congruence|]. cbn [negb]. rewrite Inputs_Main.one_hot_class by exact L. reflexivity.
  - intros -> SK. unfold keras_tuples. rewrite Y by exact SK. reflexivity.
Qed.

Lemma C173_loss_top_k_refuted_pf :
  exists loss metric s e keys outs keys' outs',
    tm_is_loss loss = true /\
    tf_metric_computations [("", [loss])] "" (Some s) None [] false = Ok [InBatches keys (Some s) outs true] /\
    tf_metric_computations [("", [loss; metric])] "" (Some s) None [] false = Ok [InBatches keys' (Some s) outs' false] /\
    sk_top_k s = Some 1%nat /\
    keras_tuples ap_sort (batch_options (Some s) None [] false) true "" "" "" "" e = Ok [([0%Qc; 1%Qc], [Fin (Q2Qc (3#10)); Fin (Q2Qc (7#10))], [1%Qc])] /\
    keras_tuples ap_sort (batch_options (Some s) None [] false) false "" "" "" "" e = Ok [([0%Qc; 1%Qc], [NegInf; Fin (Q2Qc (7#10))], [1%Qc])].
Proof.
  exists (tf_simple "Huber" "h" true), (tf_simple "MeanSquaredError" "mse" false), (SubKey None None (Some 1%nat)),
    (InputsDict (Some (Leaf [0%Qc; 1%Qc])) (Some (Leaf [Fin (Q2Qc (3#10)); Fin (Q2Qc (7#10))])) None).
  eexists. eexists. eexists. eexists. split; [reflexivity|]. split; [vm_compute; reflexivity|]. split; [vm_compute; reflexivity|]. split; [reflexivity|]. split; vm_compute; reflexivity.
Qed.

Lemma C173_class_and_top_k_refuted_pf :
  exists m e keys s outs ys,
    tm_class m = "Precision" /\ tm_class_id m = Some 1%Z /\ tm_top_k m = Some 2%nat /\
    tf_metric_computations [("", [m])] "" None None [] false = Ok [InBatches keys s outs false] /\
    i_prediction e = Some (Leaf [Fin 0%Qc; Fin 1%Qc; Fin 1%Qc]) /\
    keras_tuples ap_sort (batch_options s None [] false) false "" "" "" "" e = Ok ys /\
    forall y, In y ys -> length (snd (fst y)) = 1%nat.
Proof.
  exists (tf_sub "Precision" "p" (Some 1%Z) (Some 2%nat)), (InputsDict (Some (Leaf [0%Qc; 1%Qc; 0%Qc])) (Some (Leaf [Fin 0%Qc; Fin 1%Qc; Fin 1%Qc])) None).
  eexists. eexists. eexists. eexists. split; [reflexivity|]. split; [reflexivity|]. split; [reflexivity|]. split; [vm_compute; reflexivity|]. split; [reflexivity|].
  split; [vm_compute; reflexivity|]. intros y [<-|[]]. reflexivity.
Qed.

Lemma C176_thresholds_pf :
  forall metrics model sk agg cw weighted comps m k ths n w,
    tf_metric_computations metrics model sk agg cw weighted = Ok comps ->
    In (FromMatrices m k ths n w) comps ->
    ((exists t j, sk = Some t /\ sk_top_k t = Some j) -> tm_class_id m = None -> tm_configured_thresholds m = false ->
       exists t, ths = Some [t] /\ n = None /\ forall q, num_ltb t (Fin q) = true) /\
    (((forall t, sk = Some t -> sk_top_k t = None) \/ tm_configured_thresholds m = true \/ tm_class_id m <> None) ->
       ths = tm_thresholds m /\ n = (if tm_thresholds m then None else tm_num_thresholds m)) /\
    (w = cw \/ (tm_class m = "AUC" /\ cw = [] /\ w = combine (seq 0 (length (tm_label_weights m))) (tm_label_weights m))).
Proof.
  intros metrics model sk agg cw weighted comps m k ths n w R I0.
  destruct (shape_asked metrics model sk agg cw weighted comps R) as (kept & groups & K & C & _). apply C in I0.
  destruct I0 as [(o & m' & w' & A & B & W & E)|(s & keys & outs & _ & E)]; [|discriminate]. injection E as <- _ -> -> <-.
  assert (TK : tm_top_k m = None) by (unfold is_confusion_based in B; apply andb_prop in B; destruct B as [_ B]; destruct (tm_top_k m); [discriminate|reflexivity]).
  assert (SB : sub_of sk m = match tm_class_id m with Some c => Some (SubKey (Some c) None None) | None => sk end).
  { assert (OK : sub_ok sk m).
    { apply (kept_asked sk metrics kept K) in A. destruct A as (l & L & LO). assert (F : Forall (sub_ok sk) l).
      { clear - K L. induction K as [|[o1 l1] om metrics kept [E D] K IH]; [contradiction|]. destruct L as [Q|L]; [injection Q as -> ->; apply (filter_duplicates_spec _ _ _ D)|apply IH; exact L]. }
      rewrite Forall_forall in F. apply F, (last_of_in sk), LO. }
    revert OK. unfold sub_ok, sub_of, verify_and_update_sub_key. rewrite TK. destruct (tm_class_id m); [|reflexivity]. destruct sk; [|reflexivity].
    match goal with |- context [if ?x then _ else _] => destruct x end; [reflexivity|discriminate]. }
  unfold choose_thresholds. rewrite TK, SB. split; [|split].
  - intros (t & j & -> & T) -> ->. rewrite T. cbn [andb negb fst snd]. exists NegInf. split; [reflexivity|]. split; [reflexivity|]. intros q. reflexivity.
  - intros H.
    match goal with |- context [if ?x then Some [NegInf] else _] => replace x with false end; [cbn [fst snd]; split; [reflexivity|destruct (tm_thresholds m); reflexivity]|].
    symmetry. destruct (tm_class_id m); [reflexivity|]. destruct sk as [t|]; [|reflexivity]. destruct H as [H|[H|H]]; [rewrite (H t eq_refl); reflexivity| |contradiction].
    rewrite H. cbn [negb]. rewrite Bool.andb_false_r. reflexivity.
  - revert W. unfold auc_class_weights. destruct (String.eqb_spec (tm_class m) "AUC") as [EA|EA]; [|intros Q; injection Q as <-; auto].
    destruct (tm_label_weights m) as [|q ws]; cbn [bind].
    + destruct (tm_multi_label m); [discriminate|]. intros Q. injection Q as <-. auto.
    + destruct cw; cbn [bind]; [|discriminate]. destruct (tm_multi_label m); [discriminate|]. intros Q. injection Q as <-. right. auto.
Qed.
