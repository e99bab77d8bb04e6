(* Proofs of the theorems restated in Native_Properties.v. *)
From Coq Require Import String Ascii Permutation.
From Verif Require Import Base BaseFacts Util_Model Keys_Model Inputs_Model Ranking_Model Ranking_Main Batches_Model Batches_Main Keras_Model Predict_Model Native_Model.
Local Open Scope string_scope.
Local Open Scope list_scope.

(* C318 - C320: Keras models evaluated on batches of examples. *)

(** Labels and weights are needed for the outputs of metrics that have names, and for a single output. *)

Definition asked (keys : list metric_key) (o : string) : Prop :=
  In o (map k_output keys) /\ (o <> "" \/ forall k, In k keys -> k_output k = "").

(** The argument for an output; arguments of models with one output are not in dictionaries. *)

Definition arg_for {A} (a : arg A) (o : string) (x : A) : Prop :=
  match a with Single y => x = y | ByOutput d => In (o, x) d end.

(** The weights of the j-th example. *)

Definition weights_at (w : weights) (j : nat) (ws : list Qc) : Prop :=
  match w with
  | PerExample l => exists q, ws = [q] /\ nth_error l j = Some q
  | PerItem l => nth_error l j = Some ws
  end.

Lemma F2_ok {A B} (f : A -> res B) l : forall ys, mapM f l = Ok ys -> Forall2 (fun x y => f x = Ok y) l ys.
Proof.
  induction l as [|x l IH]; intros ys E; cbn [mapM] in E; [injection E as <-; constructor|].
  destruct (f x) as [y|] eqn:F; [|discriminate]. cbn [bind] in E. destruct (mapM f l) as [r|]; [|discriminate]. injection E as <-.
  constructor; [exact F|apply IH; reflexivity].
Qed.

Lemma F2_len {A B} (P : A -> B -> Prop) l m : Forall2 P l m -> length l = length m.
Proof. induction 1; cbn [length]; congruence. Qed.

Lemma F2_nth {A B} (P : A -> B -> Prop) l m : Forall2 P l m -> forall j x, nth_error l j = Some x -> exists y, nth_error m j = Some y /\ P x y.
Proof.
  induction 1 as [|a b l m H F IH]; intros [|j] x E; try discriminate; cbn [nth_error] in *; [injection E as <-; eauto|exact (IH _ _ E)].
Qed.

Lemma first_tuples (skip : string -> bool) (f : string -> res (list yielded)) : forall l rows, NoDup l ->
  mapM (fun o => if skip o then Ok [] else let! ys := f o in match ys with y :: _ => Ok [(o, y)] | [] => Err StopIteration end) l = Ok rows ->
  forall o, In o l -> skip o = false -> exists y ys, f o = Ok (y :: ys) /\ dget String.eqb (concat rows) o = Some y.
Proof.
  induction l as [|a l IH]; intros rows ND E o I S; [destruct I|]. inversion ND as [|? ? NI ND']; subst. cbn [mapM] in E.
  destruct I as [->|I].
  - rewrite S in E. destruct (f o) as [[|y ys]|]; try discriminate. cbn [bind] in E.
    destruct (mapM _ l) as [r|]; [|discriminate]. injection E as <-. exists y, ys. split; [reflexivity|].
    cbn [concat app dget]. rewrite String.eqb_refl. reflexivity.
  - assert (N : a <> o) by (intros ->; contradiction).
    destruct (if skip a then Ok [] else _) as [r|] eqn:R; [|discriminate]. cbn [bind] in E.
    destruct (mapM _ l) as [rs|] eqn:M; [|discriminate]. injection E as <-.
    destruct (IH rs ND' eq_refl o I S) as (y & ys & F & G). exists y, ys. split; [exact F|]. cbn [concat].
    destruct (skip a); [injection R as <-; exact G|]. destruct (f a) as [[|z zs]|]; try discriminate. injection R as <-.
    cbn [app dget]. destruct (String.eqb_spec o a) as [->|_]; [destruct (N eq_refl)|exact G].
Qed.

Lemma dget_under {A B} (g : A -> B) (d : list (string * A)) o :
  dget String.eqb (map (fun kv => (fst kv, g (snd kv))) d) o = option_map g (dget String.eqb d o).
Proof. induction d as [|[k v] d IH]; [reflexivity|]. cbn [map dget fst snd]. destruct (String.eqb o k); [reflexivity|exact IH]. Qed.

Lemma outputs_In keys o : In o (k_outputs keys) <-> In o (map k_output keys).
Proof.
  unfold k_outputs. rewrite <- (dedup_In String.eqb String.eqb_eq (map k_output keys) o).
  pose proof (py_sorted_perm String.leb (dedup String.eqb (map k_output keys))) as P.
  split; intros I; [exact (Permutation_in _ P I)|exact (Permutation_in _ (Permutation_sym P) I)].
Qed.

Lemma outputs_NoDup keys : NoDup (k_outputs keys).
Proof.
  apply (Permutation_NoDup (Permutation_sym (py_sorted_perm String.leb (dedup String.eqb (map k_output keys))))).
  apply (dedup_NoDup String.eqb String.eqb_eq).
Qed.

(** Which outputs are left out *)

Lemma left_out keys o : In o (map k_output keys) ->
  (asked keys o <-> (String.eqb o "" && Nat.ltb 1 (length (k_outputs keys)))%bool = false).
Proof.
  intros I. unfold asked. destruct (String.eqb_spec o "") as [->|N]; cbn [andb].
  - split.
    + intros [_ [N|A]]; [destruct (N eq_refl)|]. apply Nat.ltb_ge.
      assert (S : forall x, In x (k_outputs keys) -> x = "").
      { intros x J. apply outputs_In in J. apply in_map_iff in J. destruct J as (k & <- & J). apply A, J. }
      pose proof (outputs_NoDup keys) as ND. destruct (k_outputs keys) as [|a [|b t]]; cbn [length]; [lia|lia|].
      exfalso. rewrite (S a) in ND by (left; reflexivity). rewrite (S b) in ND by (right; left; reflexivity).
      inversion ND as [|? ? NI _]; subst. apply NI. left. reflexivity.
    + intros L. apply Nat.ltb_ge in L. split; [exact I|]. right. intros k J.
      assert (A : In (k_output k) (k_outputs keys)) by (apply outputs_In, in_map, J). apply outputs_In in I.
      destruct (k_outputs keys) as [|a [|b t]]; cbn [length] in L; [destruct I| |lia]. destruct A as [<-|[]], I as [E|[]]. exact E.
  - split; [reflexivity|]. intros _. split; [exact I|left; exact N].
Qed.

Lemma stacked l r : np_array l = Ok r -> r = l /\ forall a b, In a l -> In b l -> length a = length b.
Proof.
  unfold np_array. destruct l as [|a t]; [intros E; injection E as <-; split; [reflexivity|intros ? ? []]|].
  destruct (forallb _ t) eqn:F; [|discriminate]. intros E. injection E as <-. split; [reflexivity|].
  assert (H : forall x, In x (a :: t) -> length x = length a).
  { intros x [<-|I]; [reflexivity|]. rewrite forallb_forall in F. apply Nat.eqb_eq, F, I. }
  intros x y I J. rewrite (H _ I), (H _ J). reflexivity.
Qed.

Lemma concat_ones {A} : forall (l : list (list A)), (forall a, In a l -> length a = 1) -> forall j ws, nth_error l j = Some ws ->
  exists q, ws = [q] /\ nth_error (concat l) j = Some q.
Proof.
  induction l as [|a l IH]; intros H j ws E; [destruct j; discriminate|].
  assert (L : length a = 1) by (apply H; left; reflexivity). destruct a as [|q [|]]; try discriminate.
  destruct j as [|j]; cbn [nth_error] in E; [injection E as <-; exists q; auto|].
  destruct (IH (fun b I => H b (or_intror I)) j ws E) as (q' & -> & G). exists q'. split; [reflexivity|exact G].
Qed.

Lemma squeezed l j ws : (forall a b, In a l -> In b l -> length a = length b) -> nth_error l j = Some ws -> weights_at (squeeze_weights l) j ws.
Proof.
  intros S E. unfold squeeze_weights. destruct l as [|[|q [|q' a]] t]; try exact E.
  cbn [weights_at]. apply concat_ones; [|exact E]. intros b I. rewrite (S b [q] I (or_introl eq_refl)). reflexivity.
Qed.

Section Evaluate.
  Context {V X : Type}.
  Variable argpartition : list num -> nat -> list nat.
  Variables (label_key prediction_key model_name : string) (keys : list metric_key).
  Variable get_inputs : data (leaf V) -> res (option X).
  Notation row_of := (evaluate_row (V := V) argpartition label_key prediction_key model_name keys).
  Notation call_of := (evaluate_call (V := V) (X := X) keys get_inputs).
  (** The labels, prediction and weights of an example for an output. *)
  Notation tuples o e := (to_label_prediction_example_weight argpartition (Options None false None true false false false false)
                            label_key prediction_key model_name o (el_inputs e)).

  Lemma row_output e r o : row_of e = Ok r -> asked keys o -> exists l p w ys, tuples o e = Ok ((l, p, w) :: ys) /\
    dget String.eqb (r_outputs r) o = Some (l, w).
  Proof.
    intros E A. unfold evaluate_row, compiled_row in E. destruct (mapM _ (k_outputs keys)) as [rows|] eqn:M; [|discriminate].
    cbn [bind] in E. injection E as <-. cbn [r_outputs].
    destruct (first_tuples _ _ _ _ (outputs_NoDup keys) M o) as ([[l p] w] & ys & T & G).
    - apply outputs_In, A.
    - apply left_out; [apply A|exact A].
    - exists l, p, w, ys. split; [exact T|]. rewrite (dget_under (fun y : yielded => (fst (fst y), snd y))), G. reflexivity.
  Qed.

  (** The columns of a call *)
  Lemma column_rows es rows o inputs labels ws : mapM row_of es = Ok rows -> asked keys o -> inputs_of o rows = Ok inputs ->
    np_array (map fst inputs) = Ok labels -> np_array (map snd inputs) = Ok ws ->
    length labels = length es /\
    forall j e, nth_error es j = Some e -> exists l p w ys, tuples o e = Ok ((l, p, w) :: ys) /\
      nth_error labels j = Some l /\ weights_at (squeeze_weights ws) j w.
  Proof.
    intros M A I L W. apply stacked in L, W. destruct L as [-> _], W as [-> SW].
    apply F2_ok in M, I. split.
    - rewrite map_length. rewrite <- (F2_len _ _ _ I), <- (F2_len _ _ _ M). reflexivity.
    - intros j e N. destruct (F2_nth _ _ _ M _ _ N) as (r & NR & ER). destruct (F2_nth _ _ _ I _ _ NR) as (v & NV & EV).
      destruct (row_output e r o ER A) as (l & p & w & ys & T & G). rewrite G in EV. injection EV as <-.
      exists l, p, w, ys. split; [exact T|]. split; [rewrite nth_error_map, NV; reflexivity|].
      apply squeezed; [exact SW|]. rewrite nth_error_map, NV. reflexivity.
  Qed.

  Lemma call_rows es rows c : mapM row_of es = Ok rows -> call_of rows = Ok c ->
    (forall o, asked keys o -> exists L W, arg_for (c_y c) o L /\ arg_for (c_sample_weight c) o W /\ length L = length es /\
       forall j e, nth_error es j = Some e -> exists l p w ys, tuples o e = Ok ((l, p, w) :: ys) /\
         nth_error L j = Some l /\ weights_at W j w) /\
    ((exists o, forall x, In x (map k_output keys) <-> x = o) <-> exists L, c_y c = Single L) /\
    (forall d, c_y c = ByOutput d -> NoDup (map fst d) /\ forall o, In o (map fst d) -> asked keys o).
  Proof.
    intros M E. unfold evaluate_call in E. destruct (merge_extracts _ _) as [merged|]; [|discriminate]. cbn [bind] in E.
    destruct (mapM _ (filter _ (k_outputs keys))) as [cols|] eqn:C; [|discriminate]. cbn [bind] in E.
    destruct (if Nat.eqb _ 1 then _ else _) as [[y w]|] eqn:YW; [|discriminate]. cbn [bind fst snd] in E.
    destruct (get_inputs merged) as [[x|]|]; try discriminate. cbn [bind] in E.
    destruct (Batches_Model.batch_size merged) as [n|]; [|discriminate]. injection E as <-. cbn [c_y c_sample_weight].
    apply F2_ok in C.
    assert (K : forall o, asked keys o <-> In o (filter (fun o => negb (String.eqb o "" && Nat.ltb 1 (length (k_outputs keys)))) (k_outputs keys))).
    { intros o. rewrite filter_In, outputs_In, Bool.negb_true_iff. split.
      - intros A. split; [apply A|apply left_out; [apply A|exact A]].
      - intros [I S]. apply left_out; assumption. }
    assert (COL : forall o, asked keys o -> exists L W, In (o, (L, W)) cols /\ length L = length es /\
       forall j e, nth_error es j = Some e -> exists l p w ys, tuples o e = Ok ((l, p, w) :: ys) /\
         nth_error L j = Some l /\ weights_at W j w).
    { intros o A. apply K in A as I. destruct (In_nth_error _ _ I) as (i & NI). destruct (F2_nth _ _ _ C _ _ NI) as (col & NC & EC).
      destruct (inputs_of o rows) as [inputs|] eqn:IO; [|discriminate]. cbn [bind] in EC.
      destruct (np_array (map fst inputs)) as [labels|] eqn:NL; [|discriminate]. cbn [bind] in EC.
      destruct (np_array (map snd inputs)) as [ws|] eqn:NW; [|discriminate]. cbn [bind] in EC. injection EC as <-.
      exists labels, (squeeze_weights ws). split; [apply nth_error_In with i; exact NC|]. exact (column_rows es rows o inputs labels ws M A IO NL NW). }
    assert (FST : map fst cols = filter (fun o => negb (String.eqb o "" && Nat.ltb 1 (length (k_outputs keys)))) (k_outputs keys)).
    { clear -C. induction C as [|o col l m H F IH]; [reflexivity|]. cbn [map]. rewrite IH. f_equal.
      destruct (inputs_of o rows) as [inputs|]; [|discriminate]. cbn [bind] in H.
      destruct (np_array _) as [labels|]; [|discriminate]. cbn [bind] in H. destruct (np_array _) as [ws|]; [|discriminate]. cbn [bind] in H.
      injection H as <-. reflexivity. }
    assert (ONE : length (k_outputs keys) = 1 <-> exists o, forall x, In x (map k_output keys) <-> x = o).
    { pose proof (outputs_NoDup keys) as ND. split.
      - intros L. destruct (k_outputs keys) as [|o [|]] eqn:KO; try discriminate. exists o. intros z. rewrite <- outputs_In, KO. cbn [In]. split; [intros [->|[]]; reflexivity|auto].
      - intros (o & H). assert (S : forall z, In z (k_outputs keys) <-> z = o) by (intros z; rewrite outputs_In; apply H).
        destruct (k_outputs keys) as [|a [|b t]]; [|reflexivity|].
        + destruct (proj2 (S o) eq_refl).
        + exfalso. rewrite (proj1 (S a)) in ND by (left; reflexivity). rewrite (proj1 (S b)) in ND by (right; left; reflexivity).
          inversion ND as [|? ? NI _]; subst. apply NI. left. reflexivity. }
    destruct (Nat.eqb_spec (length (k_outputs keys)) 1) as [L1|L1].
    - destruct cols as [|[o' [L' W']] cols]; [discriminate|]. injection YW as <- <-.
      destruct (k_outputs keys) as [|o1 [|]] eqn:KO; try discriminate.
      split; [|split].
      + intros o A. destruct (COL o A) as (L & W & I & REST). exists L, W. cbn [arg_for].
        assert (Z : cols = []).
        { cbn [map filter length Nat.ltb Nat.leb] in FST. rewrite Bool.andb_false_r in FST. cbn [negb] in FST. destruct cols; [reflexivity|discriminate]. }
        subst cols. destruct I as [I|[]]. injection I as _ -> ->. auto.
      + split; [intros _; exists L'; reflexivity|intros _; apply ONE; reflexivity].
      + discriminate.
    - injection YW as <- <-. split; [|split].
      + intros o A. destruct (COL o A) as (L & W & I & REST). exists L, W. cbn [arg_for].
        split; [apply (in_map (fun c => (fst c, fst (snd c)))) in I; exact I|]. split; [apply (in_map (fun c => (fst c, snd (snd c)))) in I; exact I|exact REST].
      + split; [intros H; destruct (L1 (proj2 ONE H))|intros (L & H); discriminate].
      + intros d H. injection H as <-. rewrite map_map. cbn [fst]. change (map (fun x : string * (list (list Qc) * weights) => fst x) cols) with (map fst cols). rewrite FST.
        split; [apply NoDup_filter, outputs_NoDup|]. intros o I. apply K. exact I.
  Qed.

End Evaluate.

Lemma C318_own_labels_and_weights_pf :
  forall (V X : Type) argpartition label_key prediction_key model_name keys (get_inputs : data (leaf V) -> res (option X)) es rows c,
    mapM (evaluate_row argpartition label_key prediction_key model_name keys) es = Ok rows ->
    evaluate_call keys get_inputs rows = Ok c ->
    forall o, asked keys o ->
      exists L W, arg_for (c_y c) o L /\ arg_for (c_sample_weight c) o W /\ length L = length es /\
        forall j e, nth_error es j = Some e ->
          exists l p w ys,
            to_label_prediction_example_weight argpartition (Options None false None true false false false false)
              label_key prediction_key model_name o (el_inputs e) = Ok ((l, p, w) :: ys) /\
            nth_error L j = Some l /\ weights_at W j w.
Proof. intros V X ap lk pk mn keys gi es rows c M E. exact (proj1 (call_rows ap lk pk mn keys gi es rows c M E)). Qed.

Lemma C318_outputs_pf :
  forall (V X : Type) argpartition label_key prediction_key model_name keys (get_inputs : data (leaf V) -> res (option X)) es rows c,
    mapM (evaluate_row argpartition label_key prediction_key model_name keys) es = Ok rows ->
    evaluate_call keys get_inputs rows = Ok c ->
    ((exists o, forall x, In x (map k_output keys) <-> x = o) <-> exists L, c_y c = Single L) /\
    (forall d, c_y c = ByOutput d -> NoDup (map fst d) /\ forall o, In o (map fst d) -> asked keys o).
Proof. intros V X ap lk pk mn keys gi es rows c M E. exact (proj2 (call_rows ap lk pk mn keys gi es rows c M E)). Qed.

Section Sizes.
  Context {V : Type}.
  (** One value per example at every leaf. *)
  Inductive sized (n : nat) : data (list (leaf V)) -> Prop :=
  | sized_leaf l : length l = n -> sized n (Leaf l)
  | sized_dict d : (forall k v, In (k, v) d -> sized n v) -> sized n (Dict d).
  Inductive batched (n : nat) : data (leaf V) -> Prop :=
  | batched_leaf v : leaf_size v = Some n \/ leaf_size v = None -> batched n (Leaf v)
  | batched_dict d : (forall k v, In (k, v) d -> batched n v) -> batched n (Dict d).

  Lemma set_nth_length {A} (l : list A) : forall i x, length (set_nth l i x) = length l.
  Proof. induction l as [|a l IH]; intros [|i] x; cbn [set_nth length]; auto. Qed.

  Lemma dset_from {A} (d : list (string * A)) k x : forall k' v, In (k', v) (dset String.eqb d k x) -> In (k', v) d \/ v = x.
  Proof.
    induction d as [|[a b] d IH]; intros k' v I; cbn [dset] in I.
    - destruct I as [I|[]]. injection I as _ <-. auto.
    - destruct (String.eqb k a).
      + destruct I as [I|I]; [injection I as _ <-; auto|left; right; exact I].
      + destruct I as [I|I]; [left; left; exact I|]. destruct (IH _ _ I); [left; right; assumption|auto].
  Qed.

  Lemma merge_sized n index value : forall target t,
    (forall x, target = Some x -> sized n x) -> merge_with_lists n index value target = Ok t -> sized n t.
  Proof.
    induction value as [v|d F] using data_induction; intros target t ST E.
    - cbn [merge_with_lists] in E. destruct target as [[l|d]|].
      + injection E as <-. constructor. rewrite set_nth_length. specialize (ST _ eq_refl). inversion ST; subst. reflexivity.
      + discriminate.
      + injection E as <-. constructor. rewrite set_nth_length. apply repeat_length.
    - rewrite merge_dict in E. destruct (match target with None => Ok [] | _ => _ end) as [t0|] eqn:T0; [|discriminate]. cbn [bind] in E.
      destruct (loop n index d t0) as [t1|] eqn:L; [|discriminate]. injection E as <-.
      assert (S0 : forall k v, In (k, v) t0 -> sized n v).
      { destruct target as [[l|d0]|]; [discriminate| |injection T0 as <-; intros ? ? []]. injection T0 as <-.
        specialize (ST _ eq_refl). inversion ST; subst. assumption. }
      clear T0 ST. constructor. revert t0 t1 L S0. induction d as [|[k v] d IH]; intros t0 t1 L S0.
      + injection L as <-. exact S0.
      + inversion F as [|? ? F1 F2]; subst. cbn [snd] in F1. cbn [loop] in L.
        destruct (merge_with_lists n index v (dget String.eqb t0 k)) as [c|] eqn:M; [|discriminate]. cbn [bind] in L.
        apply (IH F2 _ _ L). intros k' v' I. destruct (dset_from _ _ _ _ _ I) as [J| ->]; [exact (S0 _ _ J)|].
        apply (F1 _ _) with (2 := M). intros x G. apply (S0 k x). apply (dget_In String.eqb String.eqb_eq). exact G.
  Qed.

  Lemma all_dense_length (l : list (leaf V)) : forall a, all_dense l = Some a -> length a = length l.
  Proof.
    unfold all_dense. induction l as [|v l IH]; intros a E; cbn [fold_right] in E; [injection E as <-; reflexivity|].
    destruct v as [b| | |]; try discriminate. destruct (fold_right _ _ l) as [r|]; [|discriminate]. injection E as <-. cbn [length]. f_equal. apply IH. reflexivity.
  Qed.
  Lemma all_sparse_length (l : list (leaf V)) : forall a, all_sparse l = Some a -> length a = length l.
  Proof.
    unfold all_sparse. induction l as [|v l IH]; intros a E; cbn [fold_right] in E; [injection E as <-; reflexivity|].
    destruct v as [| |b|]; try discriminate. destruct (fold_right _ _ l) as [r|]; [|discriminate]. injection E as <-. cbn [length]. f_equal. apply IH. reflexivity.
  Qed.

  Lemma leaf_sized sq (l : list (leaf V)) v : merge_leaf sq l = Ok v -> leaf_size v = Some (length l) \/ leaf_size v = None.
  Proof.
    assert (D : forall (l : list (leaf V)) v, match all_dense l with
        | Some ((a :: t) as arrays) =>
            let data := concat (map Batches_Model.items arrays) in
            if existsb (fun b => negb (nats_eqb (shape b) (shape a))) t
            then let! v := from_dense_rows (map Batches_Model.squeeze arrays) in Ok (Var v)
            else match shape a with
                 | [] => Ok (Dense (Batches_Model.Arr [length arrays] data))
                 | [1] => Ok (Dense (Batches_Model.Arr (if sq then [length arrays] else [length arrays; 1]) data))
                 | s => Ok (Dense (Batches_Model.Arr (length arrays :: s) data))
                 end
        | _ => if forallb Batches_Model.is_none l then Ok PyNone else Err NotImplementedError
        end = Ok v -> leaf_size v = Some (length l) \/ @leaf_size V v = None).
    { clear l v. intros l v E. destruct (all_dense l) as [[|a t]|] eqn:AD; try (destruct (forallb Batches_Model.is_none l); [injection E as <-; auto|discriminate]).
      apply all_dense_length in AD. cbn zeta in E. destruct (existsb _ t).
      - destruct (from_dense_rows (map Batches_Model.squeeze (a :: t))) as [w|] eqn:FR; [|discriminate]. injection E as <-. left. cbn [leaf_size].
        unfold from_dense_rows, mk_varlen in FR. destruct (mapM _ _) as [es|]; [|discriminate]. cbn [bind] in FR.
        destruct (negb (Nat.eqb _ 2)); [discriminate|]. destruct (negb (row_major _)); [discriminate|]. injection FR as <-.
        cbn [vl_shape map length] in *. rewrite map_length. rewrite AD. reflexivity.
      - left. rewrite <- AD. destruct (shape a) as [|[|[|m]] [|s ss]]; try (injection E as <-; reflexivity). destruct sq; injection E as <-; reflexivity. }
    intros E. unfold merge_leaf in E. destruct l as [|x l]; [exact (D [] v E)|].
    destruct x as [a|w|s|]; [exact (D (Dense a :: l) v E)|exact (D (Var w :: l) v E)| |exact (D (PyNone :: l) v E)].
    destruct (all_sparse (Sparse s :: l)) as [ss|] eqn:AS; [|discriminate]. apply all_sparse_length in AS. rewrite <- AS.
    unfold concat_sparse in E. destruct ss as [|s0 ss]; [discriminate|]. destruct (forallb _ ss); [|discriminate]. injection E as <-. left. reflexivity.
  Qed.

  Lemma lists_batched sq n t : forall m, sized n t -> merge_lists sq t = Ok m -> batched n m.
  Proof.
    induction t as [l|d F] using data_induction; intros m S E; cbn [merge_lists] in E; inversion S as [l0 L|d0 SD]; subst.
    - destruct (merge_leaf sq l) as [v|] eqn:M; [|discriminate]. injection E as <-. constructor. apply (leaf_sized sq). exact M.
    - match type of E with bind ?go _ = _ => destruct go as [r|] eqn:G; [|discriminate] end. injection E as <-. constructor.
      clear S. revert r G. induction d as [|[k v] d IH]; intros r G; [injection G as <-; intros ? ? []|].
      inversion F as [|? ? F1 F2]; subst. cbn [snd] in F1.
      destruct (merge_lists sq v) as [mv|[]] eqn:MV; try discriminate. cbn [wrap bind] in G.
      match type of G with bind ?go _ = _ => destruct go as [r'|] eqn:G'; [|discriminate] end. injection G as <-.
      intros k' v' [I|I]; [injection I as _ <-; apply F1; [apply (SD k); left; reflexivity|reflexivity]|].
      apply (IH F2 (fun k0 v0 J => SD k0 v0 (or_intror J)) r' eq_refl k' v' I).
  Qed.

  Lemma merge_batched (es : list (list (string * data (leaf V)))) sq m : merge_extracts es sq = Ok m -> batched (length es) m.
  Proof.
    unfold merge_extracts. destruct (foldM _ _ _) as [t|] eqn:FM; [|discriminate]. cbn [bind]. intros E.
    apply (lists_batched sq _ t); [|exact E]. clear E.
    assert (S0 : sized (length es) (Dict (A := list (leaf V)) [])) by (constructor; intros ? ? []).
    revert FM S0. generalize (Dict (A := list (leaf V)) []) as t0. generalize (length es) at 1 3 4 as n. intros n.
    generalize (combine (seq 0 (length es)) es) as l. induction l as [|ie l IH]; intros t0 FM S0; cbn [foldM] in FM; [injection FM as <-; exact S0|].
    destruct (merge_with_lists n (fst ie) (Dict (snd ie)) (Some t0)) as [t1|] eqn:M; [|discriminate]. cbn [bind] in FM.
    apply (IH _ FM). apply (merge_sized _ _ _ _ _) with (2 := M). intros x G. injection G as <-. exact S0.
  Qed.

  Lemma batched_size n (m : data (leaf V)) : batched n m -> Batches_Model.batch_size m = Ok (Some n) \/ Batches_Model.batch_size m = Ok None.
  Proof.
    induction m as [v|d F] using data_induction; intros B; inversion B as [v0 S|d0 S]; subst; cbn [Batches_Model.batch_size].
    - destruct S as [-> | ->]; auto.
    - clear B.
      assert (H : forall result, (result = Some n \/ result = None) ->
        forall r, r = (fix go l result := match l with
                            | [] => Ok result
                            | (_, e) :: t =>
                                let! sz := Batches_Model.batch_size e in
                                match sz, result with
                                | None, _ => go t result
                                | Some n, None => go t (Some n)
                                | Some n, Some m => if Nat.eqb n m then go t result else Err ValueError
                                end
                            end) d result -> r = Ok (Some n) \/ r = Ok None).
      { induction d as [|[k e] d IH]; intros result HR r ->; [destruct HR as [-> | ->]; auto|].
        inversion F as [|? ? F1 F2]; subst. cbn [snd] in F1.
        assert (S' : forall k v, In (k, v) d -> batched n v) by (intros k0 v0 J; apply (S k0); right; exact J).
        destruct (F1 (S k e (or_introl eq_refl))) as [-> | ->]; cbn [bind].
        - destruct HR as [-> | ->]; [rewrite Nat.eqb_refl|]; apply (IH F2 S' (Some n)); auto.
        - apply (IH F2 S' result); auto. }
      apply (H None); auto.
  Qed.

End Sizes.

Lemma C319_features_pf :
  forall (V X : Type) argpartition label_key prediction_key model_name keys (get_inputs : data (leaf V) -> res (option X)) es rows c,
    mapM (evaluate_row argpartition label_key prediction_key model_name keys) es = Ok rows ->
    evaluate_call keys get_inputs rows = Ok c ->
    exists fs merged, length fs = length es /\ merge_extracts fs true = Ok merged /\ get_inputs merged = Ok (Some (c_x c)) /\
      forall j e f, nth_error es j = Some e -> nth_error fs j = Some f ->
        (el_transformed e = None -> f = el_features e) /\
        forall t k, el_transformed e = Some t -> NoDup (map fst t) ->
          dget String.eqb f k = match dget String.eqb t k with Some v => Some v | None => dget String.eqb (el_features e) k end.
Proof.
  intros V X ap lk pk mn keys gi es rows c M E. apply F2_ok in M.
  unfold evaluate_call in E. destruct (merge_extracts _ _) as [merged|] eqn:ME; [|discriminate]. cbn [bind] in E.
  destruct (mapM _ _) as [cols|]; [|discriminate]. cbn [bind] in E. destruct (if Nat.eqb _ 1 then _ else _) as [[y w]|]; [|discriminate]. cbn [bind] in E.
  destruct (gi merged) as [[x|]|] eqn:GI; try discriminate. cbn [bind] in E. destruct (Batches_Model.batch_size merged) as [n|]; [|discriminate]. injection E as <-.
  exists (map r_features rows), merged. split; [rewrite map_length; symmetry; exact (F2_len _ _ _ M)|]. split; [exact ME|]. split; [exact GI|].
  intros j e f NE NF. destruct (F2_nth _ _ _ M _ _ NE) as (r & NR & ER). rewrite nth_error_map, NR in NF. injection NF as <-.
  unfold evaluate_row in ER. destruct (compiled_row _ _ _ _ _ _) as [ts|]; [|discriminate]. injection ER as <-. cbn [r_features]. unfold features_of.
  split; [intros ->; reflexivity|]. intros t k -> ND. destruct t as [|t0 t]; [reflexivity|]. apply dget_dupdate. exact ND.
Qed.

Lemma C319_one_batch_pf :
  forall (V X : Type) argpartition label_key prediction_key model_name keys (get_inputs : data (leaf V) -> res (option X)) es rows c,
    mapM (evaluate_row argpartition label_key prediction_key model_name keys) es = Ok rows ->
    evaluate_call keys get_inputs rows = Ok c ->
    c_batch_size c = Some (length es) \/ c_batch_size c = None.
Proof.
  intros V X ap lk pk mn keys gi es rows c M E. apply F2_ok in M.
  unfold evaluate_call in E. destruct (merge_extracts _ _) as [merged|] eqn:ME; [|discriminate]. cbn [bind] in E.
  destruct (mapM _ _) as [cols|]; [|discriminate]. cbn [bind] in E. destruct (if Nat.eqb _ 1 then _ else _) as [[y w]|]; [|discriminate]. cbn [bind] in E.
  destruct (gi merged) as [[x|]|] eqn:GI; try discriminate. cbn [bind] in E.
  apply merge_batched, batched_size in ME. rewrite map_length, <- (F2_len _ _ _ M) in ME.
  destruct ME as [B|B]; rewrite B in E; injection E as <-; auto.
Qed.

Lemma C319_missing_inputs_pf :
  forall (V X : Type) keys (get_inputs : data (leaf V) -> res (option X)) rows merged c,
    merge_extracts (map r_features rows) true = Ok merged -> get_inputs merged = Ok None -> evaluate_call keys get_inputs rows <> Ok c.
Proof.
  intros V X keys gi rows merged c ME N E. unfold evaluate_call in E. rewrite ME in E. cbn [bind] in E.
  destruct (mapM _ _) as [cols|]; [|discriminate]. cbn [bind] in E. destruct (if Nat.eqb _ 1 then _ else _) as [[y w]|]; [|discriminate]. cbn [bind] in E.
  rewrite N in E. discriminate.
Qed.

(** A model with two outputs and a metric over both; two examples. *)

Definition two_keys : list metric_key :=
  [MetricKey "loss" "" "" None None None false; MetricKey "mse" "" "left" None None None false; MetricKey "mse" "" "right" None None None false].

Definition two_outputs (a b : Z) : inputs_dict :=
  InputsDict (Some (Dict [("left", Leaf [qz a]); ("right", Leaf [qz b])]))
    (Some (Dict [("left", Leaf [Fin (qz a)]); ("right", Leaf [Fin (qz b)])])) (Some (Leaf [qz (a + b)])).

Definition two_examples : list (element (V := nat)) :=
  [Element (two_outputs 1 2) [("x", Leaf (Dense (Batches_Model.Arr [1] [5]))); ("y", Leaf (Dense (Batches_Model.Arr [1] [6])))] None;
   Element (two_outputs 3 4) [("x", Leaf (Dense (Batches_Model.Arr [1] [7]))); ("y", Leaf (Dense (Batches_Model.Arr [1] [8])))] (Some [("x", Leaf (Dense (Batches_Model.Arr [1] [9])))])].

(** The value that arrays are padded with. *)

Definition pad_of (p : option padding_value) : Qc :=
  match p with None => 0%Qc | Some (IntPadding z) => qz z | Some (FloatPadding q) => q end.

(** y' is y, padded to a width if padding is configured. *)

Definition row_for (padding : option padding_options) (width : nat) (y y' : yielded) : Prop :=
  match padding with
  | None => y' = y
  | Some p =>
      fst (fst y') = fst (fst y) ++ repeat (pad_of (label_padding p)) (width - length (fst (fst y))) /\
      snd (fst y') = snd (fst y) ++ repeat (Fin (pad_of (prediction_padding p))) (width - length (snd (fst y))) /\
      snd y' = snd y
  end.

(** The longest of some arrays. *)

Definition longest (P : nat -> Prop) (width : nat) : Prop := (forall n, P n -> n <= width) /\ (width = 0 \/ P width).

Lemma first_from (skip : string -> bool) (f : string -> res (list yielded)) : forall l rows,
  mapM (fun o => if skip o then Ok [] else let! ys := f o in match ys with y :: _ => Ok [(o, y)] | [] => Err StopIteration end) l = Ok rows ->
  forall o y, In (o, y) (concat rows) -> In o l /\ skip o = false /\ exists ys, f o = Ok (y :: ys).
Proof.
  induction l as [|a l IH]; intros rows E o y I; cbn [mapM] in E; [injection E as <-; destruct I|].
  destruct (if skip a then Ok [] else _) as [r|] eqn:R; [|discriminate]. cbn [bind] in E.
  destruct (mapM _ l) as [rs|] eqn:M; [|discriminate]. injection E as <-. cbn [concat] in I. apply in_app_iff in I. destruct I as [I|I].
  - destruct (skip a) eqn:S; [injection R as <-; destruct I|]. destruct (f a) as [[|z zs]|] eqn:F; try discriminate. injection R as <-.
    destruct I as [I|[]]. injection I as <- <-. split; [left; reflexivity|]. split; [exact S|exists zs; exact F].
  - destruct (IH rs eq_refl o y I) as (A & B & C). split; [right; exact A|auto].
Qed.

Lemma fold_longest {A} (f : A -> nat) (l : list A) : forall m,
  (forall x, In x l -> f x <= fold_left (fun m x => Nat.max m (f x)) l m) /\ m <= fold_left (fun m x => Nat.max m (f x)) l m /\
  (fold_left (fun m x => Nat.max m (f x)) l m = m \/ exists x, In x l /\ fold_left (fun m x => Nat.max m (f x)) l m = f x).
Proof.
  induction l as [|a l IH]; intros m; cbn [fold_left]; [split; [intros ? []|split; [lia|auto]]|].
  destruct (IH (Nat.max m (f a))) as (U & L & AT). split; [|split].
  - intros x [<-|I]; [lia|exact (U x I)].
  - lia.
  - destruct AT as [AT|(x & I & AT)]; [|right; exists x; split; [right; exact I|exact AT]].
    destruct (Nat.max_spec m (f a)) as [[_ MX]|[_ MX]]; rewrite MX in *; [right; exists a; split; [left; reflexivity|exact AT]|left; exact AT].
Qed.

Lemma padded_rows padding li pi D l r : Keras_Model.get_inputs padding li pi D l = Ok r -> Forall2 (row_for padding D) l r.
Proof.
  unfold Keras_Model.get_inputs. intros E. destruct padding as [p|].
  - match type of E with bind ?m _ = _ => destruct m as [l'|] eqn:M; [|discriminate] end. cbn [bind] in E. match type of E with (if ?b then _ else _) = _ => destruct b; [|discriminate] end. injection E as <-.
    apply F2_ok in M. induction M as [|[[lb pr] w] y' l l' H F IH]; constructor; [|exact IH].
    destruct (pad_value li (label_padding p)) as [v|] eqn:PV; [|discriminate]. cbn [bind] in H.
    destruct (pad_value pi (prediction_padding p)) as [u|] eqn:PU; [|discriminate]. cbn [bind] in H. injection H as <-. cbn [row_for fst snd].
    assert (PO : forall b o q, pad_value b o = Ok q -> q = pad_of o).
    { intros b o q. unfold pad_value, pad_of. destruct o as [[z|z]|], b; intros H; try discriminate; injection H as <-; reflexivity. }
    apply PO in PV, PU. subst v u. unfold Keras_Model.pad. repeat split.
    + destruct (Nat.eqb_spec (length lb) D) as [EQ|]; [|reflexivity]. rewrite EQ, Nat.sub_diag. symmetry. apply app_nil_r.
    + destruct (Nat.eqb_spec (length pr) D) as [EQ|]; [|reflexivity]. rewrite EQ, Nat.sub_diag. symmetry. apply app_nil_r.
  - cbn [bind] in E. match type of E with (if ?b then _ else _) = _ => destruct b; [|discriminate] end. injection E as <-. clear. induction l as [|y l IH]; constructor; [reflexivity|exact IH].
Qed.

Section Compiled.
  Variable argpartition : list num -> nat -> list nat.
  Variables (label_key prediction_key model_name : string) (keys : list metric_key).
  Notation row_of := (compiled_row argpartition label_key prediction_key model_name keys).
  Notation tuples o e := (to_label_prediction_example_weight argpartition (Options None false None true false false false false)
                            label_key prediction_key model_name o e).
  (** The lengths of labels and predictions. *)
  Definition lengths_of (outputs : string -> Prop) (es : list inputs_dict) (n : nat) : Prop :=
    exists o e l p w ys, outputs o /\ In e es /\ tuples o e = Ok ((l, p, w) :: ys) /\ (n = length l \/ n = length p).

  Lemma row_tuple e r o : row_of e = Ok r -> asked keys o -> exists y ys, tuples o e = Ok (y :: ys) /\ dget String.eqb r o = Some y.
  Proof.
    intros E A. unfold compiled_row in E. destruct (mapM _ (k_outputs keys)) as [rows|] eqn:M; [|discriminate]. cbn [bind] in E. injection E as <-.
    apply (first_tuples _ _ _ _ (outputs_NoDup keys) M o); [apply outputs_In, A|apply left_out; [apply A|exact A]].
  Qed.
  Lemma row_from e r o y : row_of e = Ok r -> In (o, y) r -> asked keys o /\ exists ys, tuples o e = Ok (y :: ys).
  Proof.
    intros E I. unfold compiled_row in E. destruct (mapM _ (k_outputs keys)) as [rows|] eqn:M; [|discriminate]. cbn [bind] in E. injection E as <-.
    destruct (first_from _ _ _ _ M o y I) as (J & S & T). split; [|exact T]. apply outputs_In in J. apply left_out; assumption.
  Qed.

  Lemma width_longest es rows : mapM row_of es = Ok rows -> longest (lengths_of (asked keys) es) (pad_to_dim rows).
  Proof.
    intros M. apply F2_ok in M. unfold pad_to_dim.
    pose (f := fun oy : string * yielded => Nat.max (length (fst (fst (snd oy)))) (length (snd (fst (snd oy))))).
    destruct (fold_longest f (concat rows) 0) as (U & _ & AT). split.
    - intros n (o & e & l & p & w & ys & A & I & T & N). destruct (In_nth_error _ _ I) as (j & NJ). destruct (F2_nth _ _ _ M _ _ NJ) as (r & NR & ER).
      destruct (row_tuple e r o ER A) as (y & ys' & T' & G). rewrite T in T'. injection T' as <- _.
      apply (dget_In String.eqb String.eqb_eq) in G.
      assert (J : In (o, (l, p, w)) (concat rows)) by (apply in_concat; exists r; split; [apply nth_error_In with j; exact NR|exact G]).
      apply U in J. assert (K : n <= f (o, (l, p, w))) by (unfold f; cbn [fst snd]; lia). exact (Nat.le_trans _ _ _ K J).
    - destruct AT as [AT|((o & [[l p] w]) & I & AT)]; [left; exact AT|right].
      apply in_concat in I. destruct I as (r & IR & I).
      assert (exists e, In e es /\ row_of e = Ok r) as (e & IE & ER).
      { clear -M IR. induction M as [|e r' es rows H F IH]; [destruct IR|]. destruct IR as [<-|IR]; [exists e; split; [left; reflexivity|exact H]|].
        destruct (IH IR) as (e' & I & H'). exists e'. split; [right; exact I|exact H']. }
      destruct (row_from e r o (l, p, w) ER I) as (A & ys & T). assert (H : lengths_of (asked keys) es (f (o, (l, p, w)))).
      { exists o, e, l, p, w, ys. split; [exact A|]. split; [exact IE|]. split; [exact T|]. unfold f. cbn [fst snd].
        destruct (Nat.max_spec (length l) (length p)) as [[_ X]|[_ X]]; [right|left]; exact X. }
      exact (eq_ind_r (lengths_of (asked keys) es) H AT).
  Qed.

  Lemma compiled_rows padding li pi es rows a : mapM row_of es = Ok rows -> compiled_call keys padding li pi rows = Ok a ->
    forall o, asked keys o -> exists col, arg_for a o col /\ length col = length es /\
      forall j e, nth_error es j = Some e -> exists y ys y', tuples o e = Ok (y :: ys) /\ nth_error col j = Some y' /\ row_for padding (pad_to_dim rows) y y'.
  Proof.
    intros M E o A. unfold compiled_call in E.
    assert (COL : forall ys col, tuples_of o rows = Ok ys -> Keras_Model.get_inputs padding li pi (pad_to_dim rows) ys = Ok col ->
      length col = length es /\ forall j e, nth_error es j = Some e -> exists y ys y', tuples o e = Ok (y :: ys) /\ nth_error col j = Some y' /\ row_for padding (pad_to_dim rows) y y').
    { intros ys col T G. apply padded_rows in G. apply F2_ok in T, M. split.
      - rewrite <- (F2_len _ _ _ G), <- (F2_len _ _ _ T), <- (F2_len _ _ _ M). reflexivity.
      - intros j e NE. destruct (F2_nth _ _ _ M _ _ NE) as (r & NR & ER). destruct (F2_nth _ _ _ T _ _ NR) as (y & NY & EY).
        destruct (F2_nth _ _ _ G _ _ NY) as (y' & NY' & RF). destruct (row_tuple e r o ER A) as (y0 & ys0 & T0 & G0). rewrite G0 in EY. injection EY as <-.
        exists y0, ys0, y'. auto. }
    assert (MANY : forall cols, mapM (fun o => let! ys := (let! ys := tuples_of o rows in Keras_Model.get_inputs padding li pi (pad_to_dim rows) ys) in Ok (o, ys))
                 (filter (fun o => negb (String.eqb o "")) (k_outputs keys)) = Ok cols -> o <> "" -> exists col, In (o, col) cols /\ length col = length es /\
      forall j e, nth_error es j = Some e -> exists y ys y', tuples o e = Ok (y :: ys) /\ nth_error col j = Some y' /\ row_for padding (pad_to_dim rows) y y').
    { intros cols C N. apply F2_ok in C.
      assert (I : In o (filter (fun o => negb (String.eqb o "")) (k_outputs keys))).
      { apply filter_In. split; [apply outputs_In, A|]. apply Bool.negb_true_iff, String.eqb_neq, N. }
      destruct (In_nth_error _ _ I) as (i & NI). destruct (F2_nth _ _ _ C _ _ NI) as (c & NC & EC).
      destruct (tuples_of o rows) as [ys|] eqn:T; [|discriminate]. cbn [bind] in EC.
      destruct (Keras_Model.get_inputs padding li pi (pad_to_dim rows) ys) as [col|] eqn:G; [|discriminate]. cbn [bind] in EC. injection EC as <-.
      exists col. split; [apply nth_error_In with i; exact NC|exact (COL ys col eq_refl G)]. }
    assert (I : In o (k_outputs keys)) by (apply outputs_In, A).
    assert (NM : 1 < length (k_outputs keys) -> o <> "").
    { intros L ->. apply (left_out keys "" (proj1 A)) in A. rewrite String.eqb_refl in A. cbn [andb] in A. apply Nat.ltb_ge in A. lia. }
    destruct (k_outputs keys) as [|o1 [|o2 t]]; [destruct I| |].
    - destruct I as [->|[]]. cbn zeta in E. destruct (tuples_of o rows) as [ys|] eqn:T; [|discriminate]. cbn [bind] in E.
      destruct (Keras_Model.get_inputs padding li pi (pad_to_dim rows) ys) as [col|] eqn:G; [|discriminate]. injection E as <-.
      exists col. split; [reflexivity|exact (COL ys col eq_refl G)].
    - cbn zeta in E. match type of E with bind ?m _ = _ => destruct m as [cols|] eqn:C; [|discriminate] end. cbn [bind] in E. injection E as <-.
      apply (MANY cols eq_refl). apply NM. cbn [length]. lia.
  Qed.

End Compiled.

Lemma C320_rows_partial_pf :
  forall argpartition label_key prediction_key model_name keys padding label_is_int prediction_is_int es rows a,
    mapM (compiled_row argpartition label_key prediction_key model_name keys) es = Ok rows ->
    compiled_call keys padding label_is_int prediction_is_int rows = Ok a ->
    exists width, longest (lengths_of argpartition label_key prediction_key model_name (asked keys) es) width /\
      forall o, asked keys o -> exists col, arg_for a o col /\ length col = length es /\
        forall j e, nth_error es j = Some e -> exists y ys y',
          to_label_prediction_example_weight argpartition (Options None false None true false false false false)
            label_key prediction_key model_name o e = Ok (y :: ys) /\
          nth_error col j = Some y' /\ row_for padding width y y'.
Proof.
  intros ap lk pk mn keys padding li pi es rows a M E. exists (pad_to_dim rows). split; [exact (width_longest ap lk pk mn keys es rows M)|].
  exact (compiled_rows ap lk pk mn keys padding li pi es rows a M E).
Qed.

(** A model with an output of one value and an output of two values. *)

Definition uneven : inputs_dict :=
  InputsDict (Some (Dict [("left", Leaf [qz 4]); ("right", Leaf [1%Qc; qz 2])]))
    (Some (Dict [("left", Leaf [Fin (qz 6)]); ("right", Leaf [Fin 1%Qc; Fin 0%Qc])])) None.

Lemma C320_own_width_refuted_pf :
  exists argpartition label_key prediction_key model_name keys padding es rows d o col y,
    mapM (compiled_row argpartition label_key prediction_key model_name keys) es = Ok rows /\
    compiled_call keys (Some padding) false false rows = Ok (ByOutput d) /\
    asked keys o /\ In (o, col) d /\ In y col /\
    longest (lengths_of argpartition label_key prediction_key model_name (fun x => x = o) es) 1 /\ length (fst (fst y)) = 2.
Proof.
  exists (fun _ _ => []), "", "", "", two_keys, (PaddingOptions None None), [uneven],
    [[("left", ([qz 4], [Fin (qz 6)], [1%Qc])); ("right", ([1%Qc; qz 2], [Fin 1%Qc; Fin 0%Qc], [1%Qc]))]],
    [("left", [([qz 4; 0%Qc], [Fin (qz 6); Fin 0%Qc], [1%Qc])]); ("right", [([1%Qc; qz 2], [Fin 1%Qc; Fin 0%Qc], [1%Qc])])],
    "left", [([qz 4; 0%Qc], [Fin (qz 6); Fin 0%Qc], [1%Qc])], ([qz 4; 0%Qc], [Fin (qz 6); Fin 0%Qc], [1%Qc]).
  split; [vm_compute; reflexivity|]. split; [vm_compute; reflexivity|].
  split; [split; [right; left; reflexivity|left; discriminate]|]. split; [left; reflexivity|]. split; [left; reflexivity|]. split; [|reflexivity].
  split.
  - intros n (o & e & l & p & w & ys & -> & [<-|[]] & T & N). vm_compute in T. injection T as <- <- _ _. destruct N as [-> | ->]; apply Nat.le_refl.
  - right. exists "left", uneven, [qz 4], [Fin (qz 6)], [1%Qc], []. split; [reflexivity|]. split; [left; reflexivity|]. split; [vm_compute; reflexivity|left; reflexivity].
Qed.

Lemma one_output keys : length (k_outputs keys) = 1 <-> exists o, forall x, In x (map k_output keys) <-> x = o.
Proof.
  pose proof (outputs_NoDup keys) as ND. split.
  - intros L. destruct (k_outputs keys) as [|o [|]] eqn:KO; try discriminate. exists o. intros z. rewrite <- outputs_In, KO. cbn [In]. split; [intros [->|[]]; reflexivity|auto].
  - intros (o & H). assert (S : forall z, In z (k_outputs keys) <-> z = o) by (intros z; rewrite outputs_In; apply H).
    destruct (k_outputs keys) as [|a [|b t]]; [|reflexivity|].
    + destruct (proj2 (S o) eq_refl).
    + exfalso. rewrite (proj1 (S a)) in ND by (left; reflexivity). rewrite (proj1 (S b)) in ND by (right; left; reflexivity).
      inversion ND as [|? ? NI _]; subst. apply NI. left. reflexivity.
Qed.

Lemma C320_outputs_pf :
  forall keys padding label_is_int prediction_is_int rows a,
    compiled_call keys padding label_is_int prediction_is_int rows = Ok a ->
    ((exists o, forall x, In x (map k_output keys) <-> x = o) <-> exists c, a = Single c) /\
    (forall d, a = ByOutput d -> NoDup (map fst d) /\ forall o, In o (map fst d) -> asked keys o).
Proof.
  intros keys padding li pi rows a E. rewrite <- one_output. unfold compiled_call in E.
  pose proof (outputs_NoDup keys) as ND. pose proof (outputs_In keys) as OI.
  assert (MANY : forall (f : string -> res (list yielded)) cols, mapM (fun o => let! ys := f o in Ok (o, ys)) (filter (fun o => negb (String.eqb o "")) (k_outputs keys)) = Ok cols ->
    NoDup (map fst cols) /\ forall o, In o (map fst cols) -> asked keys o).
  { intros f cols C. apply F2_ok in C.
    assert (FST : map fst cols = filter (fun o => negb (String.eqb o "")) (k_outputs keys)).
    { clear -C. induction C as [|o c l m H F IH]; [reflexivity|]. cbn [map]. rewrite IH. f_equal.
      destruct (f o); [|discriminate]. injection H as <-. reflexivity. }
    rewrite FST. split; [apply NoDup_filter, ND|]. intros o I. apply filter_In in I. destruct I as [I N].
    split; [apply OI, I|left]. apply Bool.negb_true_iff, String.eqb_neq in N. exact N. }
  destruct (k_outputs keys) as [|o1 [|o2 t]]; cbn zeta in E.
  - injection E as <-. split; [split; [discriminate|intros (c & H); discriminate]|]. intros d H. injection H as <-. split; [constructor|intros ? []].
  - match type of E with bind ?m _ = _ => destruct m as [ys|]; [|discriminate] end. injection E as <-.
    split; [split; [intros _; exists ys; reflexivity|reflexivity]|discriminate].
  - match type of E with bind ?m _ = _ => destruct m as [cols|] eqn:C; [|discriminate] end. cbn [bind] in E. injection E as <-.
    split; [split; [discriminate|intros (c & H); discriminate]|]. intros d H. injection H as <-.
    exact (MANY (fun o => let! ys := tuples_of o rows in Keras_Model.get_inputs padding li pi (pad_to_dim rows) ys) cols C).
Qed.
