(* Proofs of the theorems restated in Tensors_Properties.v. *)
From Coq Require Import String Ascii Permutation.
From Verif Require Import Base BaseFacts Util_Model Batches_Model Batches_Main Keras_Main Classes_Main Tensors_Model.
Local Open Scope string_scope.
Local Open Scope list_scope.

(* C272 - C279: tensors, their values and record batches. *)

Fixpoint on_leaves {A B} (f : A -> B) (d : data A) : data B :=
  match d with Leaf a => Leaf (f a) | Dict l => Dict (map (fun kv => (fst kv, on_leaves f (snd kv))) l) end.

(** The leaves of nested dictionaries with their paths. *)

Fixpoint at_paths {A} (d : data A) : list (list string * A) :=
  match d with
  | Leaf a => [([], a)]
  | Dict l => flat_map (fun kv => map (fun pa => (fst kv :: fst pa, snd pa)) (at_paths (snd kv))) l
  end.

Definition all_leaves {A} (P : A -> Prop) (d : data A) : Prop := forall p a, In (p, a) (at_paths d) -> P a.

Lemma all_leaves_cons {A} (P : A -> Prop) k (v : data A) l : all_leaves P (Dict ((k, v) :: l)) <-> all_leaves P v /\ all_leaves P (Dict l).
Proof.
  unfold all_leaves. cbn [at_paths flat_map fst snd]. split.
  - intros H. split; [intros p a I0; apply (H (k :: p)); apply in_or_app; left; apply in_map_iff; exists (p, a); auto|intros p a I0; apply (H p); apply in_or_app; right; exact I0].
  - intros [H1 H2] p a I0. apply in_app_or in I0. destruct I0 as [I0|I0]; [|apply (H2 p a I0)]. apply in_map_iff in I0. destruct I0 as ([p' a'] & [= <- <-] & I0). apply (H1 p' a' I0).
Qed.

Lemma on_leaves_same {A} (f : A -> A) (d : data A) : all_leaves (fun a => f a = a) d -> on_leaves f d = d.
Proof.
  induction d as [a|l F] using data_induction; intros H; cbn [on_leaves]; [f_equal; apply (H [] a); left; reflexivity|]. f_equal.
  induction F as [|[k v] l E F IH]; [reflexivity|]. apply all_leaves_cons in H. destruct H as [H1 H2]. cbn [map fst snd] in *. rewrite (E H1), (IH H2). reflexivity.
Qed.

Lemma to_tensors_all_shape {V} (known : V -> bool) : forall d t, to_tensors_all known d = Ok t ->
  Forall2 (fun a b => fst a = fst b /\ to_tensorflow_tensor known (snd a) = Ok (snd b)) (at_paths d) (at_paths t).
Proof.
  induction d as [x|l F] using data_induction; intros t E; cbn [to_tensors_all] in E.
  - destruct (to_tensorflow_tensor known x) as [y|] eqn:T; [|discriminate]. cbn [bind] in E. injection E as <-. repeat constructor. exact T.
  - destruct (mapM _ l) as [r|] eqn:M; [|discriminate]. cbn [bind] in E. injection E as <-. cbn [at_paths]. revert r M.
    induction F as [|[k v] l H F IH]; intros r M; cbn [mapM fst snd] in *; [injection M as <-; constructor|].
    destruct (to_tensors_all known v) as [t|] eqn:T; [|discriminate M]. cbn [bind] in M. destruct (mapM _ l) as [r'|] eqn:M'; [|discriminate M]. cbn [bind] in M. injection M as <-.
    cbn [flat_map fst snd]. apply Forall2_app; [|apply IH; reflexivity]. specialize (H t eq_refl). clear - H. induction H as [|a b la lb [E1 E2] H IH]; cbn [map]; constructor; [|exact IH]. cbn [fst snd]. split; [congruence|exact E2].
Qed.

Lemma round_trip {V} (known : V -> bool) (f : tvalue -> tvalue) :
  (forall v t, to_tensorflow_tensor known v = Ok t -> to_tensor_value (ATensor t) = f v) ->
  forall d t, to_tensors_all known d = Ok t -> to_tensor_values (on_leaves ATensor t) = on_leaves f d.
Proof.
  intros HF. induction d as [x|l F] using data_induction; intros t E; cbn [to_tensors_all] in E.
  - destruct (to_tensorflow_tensor known x) as [y|] eqn:T; [|discriminate]. cbn [bind] in E. injection E as <-. cbn [on_leaves to_tensor_values]. f_equal. apply HF. exact T.
  - destruct (mapM _ l) as [r|] eqn:M; [|discriminate]. cbn [bind] in E. injection E as <-. cbn [on_leaves to_tensor_values]. f_equal. rewrite map_map. cbn [fst snd]. revert r M.
    induction F as [|[k v] l H F IH]; intros r M; cbn [mapM fst snd] in *; [injection M as <-; reflexivity|].
    destruct (to_tensors_all known v) as [t|] eqn:T; [|discriminate M]. cbn [bind] in M. destruct (mapM _ l) as [r'|] eqn:M'; [|discriminate M]. cbn [bind] in M. injection M as <-.
    cbn [map fst snd]. rewrite (H t eq_refl), (IH r' eq_refl). reflexivity.
Qed.

Lemma C272_round_trip_pf :
  forall (V : Type) (known : V -> bool) d t, to_tensorflow_tensors known d None = Ok t ->
    all_leaves (fun v => forall x, v <> VVarLen x) d -> to_tensor_values (on_leaves ATensor t) = d.
Proof.
  intros V known d t E NV.
  rewrite (round_trip known (fun v => match v with VVarLen x => VSparse (SparseT (vl_values x) (map (fun p => [fst p; snd p]) (vl_indices x)) (vl_shape x)) | v => v end)) with (d := d).
  - apply on_leaves_same. intros p a I0. specialize (NV p a I0). destruct a; try reflexivity. destruct (NV t0 eq_refl).
  - intros v t' T. destruct v; cbn in T; repeat match type of T with (if ?c then _ else _) = _ => destruct c; [|discriminate T] end; injection T as <-; try reflexivity. destruct s; reflexivity.
  - exact E.
Qed.

Lemma C272_variable_length_pf :
  forall (V : Type) (known : V -> bool) (x : varlen V) t, to_tensorflow_tensors known (Leaf (VVarLen x)) None = Ok t ->
    exists s, to_tensor_values (on_leaves ATensor t) = Leaf (VSparse s) /\
      combine (sp_indices s) (sp_values s) = combine (map (fun p => [fst p; snd p]) (vl_indices x)) (vl_values x) /\ sp_shape s = vl_shape x /\ length (vl_values x) = length (vl_indices x).
Proof.
  intros V known x t E. cbn in E. destruct (Nat.eqb (length (vl_values x)) _) eqn:L; [|discriminate E]. cbn [andb] in E. destruct (forallb _ _); [|discriminate E]. cbn in E. injection E as <-.
  eexists. split; [reflexivity|]. split; [reflexivity|]. split; [reflexivity|]. apply Nat.eqb_eq in L. rewrite map_length in L. exact L.
Qed.

Lemma C272_variable_length_refuted_pf :
  exists (d : data (tvalue (V := nat))) t, to_tensorflow_tensors (fun _ => true) d None = Ok t /\ to_tensor_values (on_leaves ATensor t) <> d.
Proof.
  exists (Leaf (VVarLen (VarLen [5; 6] [(0, 0); (1, 0)] [2; 1]))). eexists. split; [reflexivity|]. discriminate.
Qed.

Lemma C272_values_kept_pf :
  forall (V : Type) (d : data (tvalue (V := V))), to_tensor_values (on_leaves AValue d) = d.
Proof.
  intros V d. induction d as [x|l F] using data_induction; [reflexivity|]. cbn [on_leaves to_tensor_values]. f_equal. rewrite map_map. cbn [fst snd].
  induction F as [|[k v] l H F IH]; [reflexivity|]. cbn [map fst snd] in *. rewrite H, IH. reflexivity.
Qed.

(** No empty dictionaries among the specs *)

Fixpoint no_empty {A} (d : data A) : Prop :=
  match d with
  | Leaf _ => True
  | Dict l => l <> [] /\ fold_right (fun kv P => no_empty (snd kv) /\ P) True l
  end.

Lemma no_empty_all {A} (l : list (string * data A)) : fold_right (fun kv P => no_empty (snd kv) /\ P) True l <-> forall k v, In (k, v) l -> no_empty v.
Proof.
  induction l as [|[k v] l IH]; cbn [fold_right snd]; [split; [intros _ ? ? []|auto]|]. rewrite IH. split.
  - intros [H1 H2] k' v' [[= <- <-]|I0]; eauto.
  - intros H. split; [apply (H k); left; reflexivity|intros k' v' I0; apply (H k'); right; exact I0].
Qed.

Lemma C273_tensors_of_specs_pf :
  forall (V : Type) (known : V -> bool) s v t, no_empty s -> to_tensorflow_tensors known v (Some s) = Ok t ->
    Forall2 (fun ps pt => fst ps = fst pt /\ exists x, at_path v (fst ps) = Some (Leaf x) /\
               to_tensorflow_tensors known (Leaf x) (Some (Leaf (snd ps))) = Ok (Leaf (snd pt))) (at_paths s) (at_paths t).
Proof.
  intros V known s. cbn [to_tensorflow_tensors]. induction s as [sp|ss F] using data_induction; intros v t NE E.
  - destruct v as [x|l]; [|discriminate E]. pose proof E as E'. cbn [to_tensors_of] in E. destruct (reshape_to sp x) as [y|]; [|discriminate E]. cbn [bind] in E. destruct (to_tensorflow_tensor known y) as [z|]; [|discriminate E]. cbn [bind] in E. injection E as <-.
    repeat constructor. exists x. split; [reflexivity|exact E'].
  - destruct NE as [N0 NE]. destruct ss as [|ks ss]; [contradiction|]. set (all := ks :: ss) in *. destruct v as [x|l]; [discriminate E|]. cbn [to_tensors_of] in E.
    assert (E' : (let! r := mapM (fun ks => match dget String.eqb l (fst ks) with None => Err ValueError | Some x => let! t := to_tensors_of known (snd ks) x in Ok (fst ks, t) end) all in Ok (Dict r)) = Ok t) by exact E.
    clear E N0. clearbody all. clear ks ss. destruct (mapM _ all) as [r|] eqn:M; [|discriminate E']. cbn [bind] in E'. injection E' as <-. cbn [at_paths]. revert r M.
    induction F as [|[k s] ss H F IH]; intros r M; cbn [mapM fst snd] in *; [injection M as <-; constructor|]. cbn [fold_right snd] in NE. destruct NE as [NE1 NE2].
    destruct (dget String.eqb l k) as [x|] eqn:G; [|discriminate M]. destruct (to_tensors_of known s x) as [t|] eqn:T; [|discriminate M]. cbn [bind] in M. destruct (mapM _ ss) as [r'|] eqn:M'; [|discriminate M]. cbn [bind] in M. injection M as <-.
    cbn [flat_map fst snd]. apply Forall2_app; [|apply (IH NE2 r' eq_refl)]. specialize (H x t NE1 T). clear - H G. induction H as [|a b la lb (E1 & y & E2 & E3) H IH]; cbn [map]; constructor; [|exact IH].
    cbn [fst snd]. split; [congruence|]. exists y. split; [|exact E3]. cbn [at_path]. rewrite G. exact E2.
Qed.

Lemma C273_missing_pf :
  forall (V : Type) (known : V -> bool) s v p sp, no_empty s -> In (p, sp) (at_paths s) ->
    (forall x, at_path v p <> Some (Leaf x)) -> is_ok (to_tensorflow_tensors known v (Some s)) = false.
Proof.
  intros V known s v p sp NE I0 N. destruct (to_tensorflow_tensors known v (Some s)) as [t|] eqn:E; [|reflexivity]. exfalso.
  pose proof (C273_tensors_of_specs_pf V known s v t NE E) as F. clear E NE. induction F as [|a b la lb (E1 & x & E2 & _) F IH]; [destruct I0|]. destruct I0 as [->|I0]; [apply (N x E2)|apply (IH I0)].
Qed.

Lemma C273_empty_specs_refuted_pf :
  exists (v : data (tvalue (V := nat))) t, to_tensorflow_tensors (fun _ => true) v (Some (Dict [])) = Ok t /\ at_paths t <> [].
Proof. exists (Dict [("a", Leaf (VDense (Arr [1] [3])))]). eexists. split; [reflexivity|]. discriminate. Qed.

Lemma known_product_map (g : option nat -> nat) l : (forall n, g (Some n) = n) -> count_unknown l = 0 -> product (map g l) = known_product l.
Proof.
  intros G. unfold count_unknown, product, known_product. induction l as [|[n|] l IH]; cbn [filter length map fold_right]; intros C; [reflexivity| |discriminate]. rewrite G, (IH C). reflexivity.
Qed.

Lemma known_product_one (g : option nat -> nat) l : (forall n, g (Some n) = n) -> count_unknown l = 1 -> product (map g l) = g None * known_product l.
Proof.
  intros G. unfold count_unknown, product, known_product. induction l as [|[n|] l IH]; cbn [filter length map fold_right]; intros C; [discriminate| |].
  - rewrite G, (IH C). ring.
  - f_equal. injection C as C. apply (known_product_map g l G C).
Qed.

Lemma reshape_spec {V} (a : arr V) target b : reshape a target = Ok b ->
  items b = items a /\ Forall2 (fun o k => o = None \/ o = Some k) target (shape b) /\ product (shape b) = length (items b).
Proof.
  unfold reshape. destruct (count_unknown target) as [|[|c]] eqn:C; [| |discriminate].
  - destruct (Nat.eqb_spec (length (items a)) (known_product target)) as [E|]; [|discriminate]. intros [= <-]. cbn [items shape]. split; [reflexivity|]. split.
    + clear E. unfold count_unknown in C. induction target as [|[n|] l IH]; cbn [map filter length] in *; [constructor| |discriminate]. constructor; [right; reflexivity|apply IH; exact C].
    + rewrite E. apply known_product_map; [reflexivity|exact C].
  - destruct (Nat.eqb_spec (known_product target) 0) as [|P]; [discriminate|]. destruct (Nat.eqb_spec (Nat.modulo (length (items a)) (known_product target)) 0) as [M|]; [|discriminate]. intros [= <-]. cbn [items shape]. split; [reflexivity|]. split.
    + clear. generalize (Nat.div (length (items a)) (known_product target)). intros q. induction target as [|[n|] l IH]; cbn [map]; constructor; auto.
    + rewrite known_product_one; [|reflexivity|exact C]. pose proof (Nat.div_mod (length (items a)) (known_product target) P). lia.
Qed.

Lemma C274_reshaped_pf :
  forall (V : Type) (known : V -> bool) (a b : arr V) dims n rest, shape a = n :: rest -> product (shape a) = length (items a) ->
    to_tensorflow_tensors known (Leaf (VDense a)) (Some (Leaf (DenseSpec (Some dims)))) = Ok (Leaf (TDense b)) ->
    items b = items a /\ exists rest', shape b = n :: rest' /\ Forall2 (fun o k => o = None \/ o = Some k) (tl dims) rest' /\
      forall i, i < n -> items (row_of rest' (items b) i) = items (row_of rest (items a) i).
Proof.
  intros V known a b dims n rest S W E. cbn [to_tensorflow_tensors to_tensors_of reshape_to] in E. rewrite S in E. destruct (reshape a (Some n :: tl dims)) as [b'|] eqn:R; [|discriminate E]. cbn [bind to_tensorflow_tensor] in E.
  destruct (forallb known (items b')); [|discriminate E]. cbn [bind] in E. injection E as <-. destruct (reshape_spec _ _ _ R) as (I0 & F & P). split; [exact I0|].
  inversion F as [|o k t rest' O F' E1 E2]; subst. destruct O as [O|O]; [discriminate|injection O as <-]. exists rest'. split; [reflexivity|]. split; [exact F'|].
  intros i L. rewrite <- E2, S in *. rewrite I0 in P. unfold row_of. cbn [items]. rewrite I0. change (product (n :: rest')) with (n * product rest') in P. change (product (n :: rest)) with (n * product rest) in W.
  assert (PP : product rest' = product rest) by nia. rewrite PP. reflexivity.
Qed.

Lemma C274_fits_pf :
  forall (V : Type) (known : V -> bool) (a : arr V) dims n rest, shape a = n :: rest -> product (shape a) = length (items a) -> Forall (fun x => known x = true) (items a) ->
    (count_unknown (tl dims) = 0 /\ known_product (tl dims) = product rest \/
     count_unknown (tl dims) = 1 /\ n <> 0 /\ known_product (tl dims) <> 0 /\ exists q, product rest = q * known_product (tl dims)) ->
    is_ok (to_tensorflow_tensors known (Leaf (VDense a)) (Some (Leaf (DenseSpec (Some dims))))) = true.
Proof.
  intros V known a dims n rest S W K H. cbn [to_tensorflow_tensors to_tensors_of reshape_to]. rewrite S. change (product (shape a)) with (fold_right Nat.mul 1 (shape a)) in W. rewrite S in W. cbn [fold_right] in W. fold (product rest) in W.
  assert (R : exists b, reshape a (Some n :: tl dims) = Ok b /\ items b = items a).
  { unfold reshape. change (count_unknown (Some n :: tl dims)) with (count_unknown (tl dims)). change (known_product (Some n :: tl dims)) with (n * known_product (tl dims)). rewrite <- W.
    destruct H as [(C & P)|(C & N & P & q & Q)]; rewrite C.
    - rewrite P, Nat.eqb_refl. eexists. split; reflexivity.
    - rewrite Q. assert (D : n * (q * known_product (tl dims)) = q * (n * known_product (tl dims))) by ring. rewrite D.
      destruct (Nat.eqb_spec (n * known_product (tl dims)) 0) as [Z|Z]; [exfalso; apply Nat.eq_mul_0 in Z; tauto|]. rewrite Nat.mod_mul by exact Z. cbn [Nat.eqb negb orb]. eexists. split; reflexivity. }
  destruct R as (b & -> & I0). cbn [bind to_tensorflow_tensor]. rewrite I0. replace (forallb known (items a)) with true; [reflexivity|]. symmetry. apply forallb_forall. rewrite Forall_forall in K. exact K.
Qed.

Lemma C274_empty_batch_refuted_pf :
  exists (a : arr nat) dims, shape a = [0; 3] /\ product (shape a) = length (items a) /\ dims = [None; None] /\
    to_tensorflow_tensors (fun _ => true) (Leaf (VDense a)) (Some (Leaf (DenseSpec (Some dims)))) = Err ValueError /\
    is_ok (to_tensorflow_tensors (fun _ => true) (Leaf (VDense a)) None) = true.
Proof. exists (Arr [0; 3] []), [None; None]. repeat split; reflexivity. Qed.

Definition wf_dense {V} (v : tvalue (V := V)) : Prop := match v with VDense a => product (shape a) = length (items a) | _ => True end.

Lemma all_known {V} (a : arr V) l : product l = length (items a) -> reshape a (map Some l) = Ok (Arr l (items a)).
Proof.
  intros P. unfold reshape. assert (C : count_unknown (map Some l) = 0) by (clear P; induction l as [|x l IH]; [reflexivity|exact IH]).
  rewrite C. assert (K : known_product (map Some l) = product l) by (clear; unfold known_product, product; induction l as [|x l IH]; [reflexivity|cbn [map fold_right]; rewrite IH; reflexivity]).
  rewrite K, P, Nat.eqb_refl. rewrite map_map, map_id. reflexivity.
Qed.

Lemma C275_fit_pf :
  forall (V : Type) (known : V -> bool) d t s, wf_data d -> all_leaves wf_dense d ->
    to_tensorflow_tensors known d None = Ok t -> infer_tensor_specs t = Ok s -> to_tensorflow_tensors known d (Some s) = Ok t.
Proof.
  intros V known. cbn [to_tensorflow_tensors]. induction d as [x|l F] using data_induction; intros t s WD W E I0; cbn [to_tensors_all] in E.
  - destruct (to_tensorflow_tensor known x) as [y|] eqn:T; [|discriminate]. cbn [bind] in E. injection E as <-. cbn [infer_tensor_specs] in I0. unfold infer_spec in I0. destruct (tensor_shape y) as [|n rest] eqn:S; [discriminate|]. cbn [bind] in I0. injection I0 as <-.
    cbn [to_tensors_of]. assert (R : reshape_to (match y with TDense _ => DenseSpec (Some (None :: rest)) | TSparse _ _ _ => SparseSpec (Some (None :: rest)) | TRagged _ _ => RaggedSpec (Some (None :: rest)) end) x = Ok x).
    { specialize (W [] x (or_introl eq_refl)). destruct x as [a| | |]; cbn in T;
        repeat match type of T with (if ?c then _ else _) = _ => destruct c; [|discriminate T] end; injection T as <-; try reflexivity.
      cbn [tensor_shape] in S. cbn [reshape_to]. destruct a as [sh its]. cbn [shape items] in *. destruct sh as [|m sh]; [reflexivity|]. cbn [map] in S. injection S as _ <-. cbn [tl].
      pose proof (all_known (Arr (m :: sh) its) (m :: sh) W) as A. cbn [map items] in A. rewrite A. reflexivity. }
    rewrite R. cbn [bind]. rewrite T. reflexivity.
  - destruct (mapM _ l) as [r|] eqn:M; [|discriminate]. cbn [bind] in E. injection E as <-. cbn [infer_tensor_specs] in I0. destruct (mapM _ r) as [ss|] eqn:MS; [|discriminate]. cbn [bind] in I0. injection I0 as <-.
    pose proof (WD [] l eq_refl) as N. apply mapM_inv in M. apply mapM_inv in MS.
    assert (WDv : forall k v, In (k, v) l -> wf_data v) by (intros k v I1 p d' A; apply (WD (k :: p) d'); rewrite at_cons, (proj2 (dget_In_NoDup _ String.eqb_eq l k v N) I1); exact A).
    assert (Wv : forall k v, In (k, v) l -> all_leaves wf_dense v).
    { intros k v I1 p a A. apply (W (k :: p) a). cbn [at_paths]. apply in_flat_map. exists (k, v). split; [exact I1|]. apply in_map_iff. exists (p, a). auto. }
    assert (G : forall l1 r ss, Forall2 (fun x y => (let! t := to_tensors_all known (snd x) in Ok (fst x, t)) = Ok y) l1 r ->
              Forall2 (fun x y => (let! s := infer_tensor_specs (snd x) in Ok (fst x, s)) = Ok y) r ss -> (forall kv, In kv l1 -> In kv l) ->
              mapM (fun ks => match dget String.eqb l (fst ks) with None => Err ValueError | Some x => let! t := to_tensors_of known (snd ks) x in Ok (fst ks, t) end) ss = Ok r).
    { clear M MS r ss WD W. rewrite Forall_forall in F. intros l1 r ss M. revert ss. induction M as [|[k v] [k' t] l1 r EM M IH]; intros ss MS SUB.
      - inversion MS; subst. reflexivity.
      - inversion MS as [|? [k'' s] ? ss' ES MS']; subst. cbn [fst snd] in *. pose proof (SUB _ (or_introl eq_refl)) as I1.
        destruct (to_tensors_all known v) as [t0|] eqn:T0; [|discriminate EM]. cbn [bind] in EM. injection EM as <- <-. destruct (infer_tensor_specs t0) as [s0|] eqn:S0; [|discriminate ES]. cbn [bind] in ES. injection ES as <- <-.
        cbn [mapM fst snd]. rewrite (proj2 (dget_In_NoDup _ String.eqb_eq l k v N) I1). pose proof (F (k, v) I1 t0 s0 (WDv k v I1) (Wv k v I1) T0 S0) as FF. cbn [snd] in FF. rewrite FF. cbn [bind].
        rewrite (IH ss' MS' (fun kv I2 => SUB kv (or_intror I2))). reflexivity. }
    specialize (G l r ss M MS (fun kv I1 => I1)).
    destruct ss as [|ks ss]; [|cbn [to_tensors_of]; cbn [mapM] in G |- *; rewrite G; reflexivity].
    inversion MS; subst. inversion M; subst. reflexivity.
Qed.

Lemma C275_other_batches_pf :
  forall (V : Type) (known : V -> bool) (a b : arr V) n m rest s, shape a = n :: rest -> shape b = m :: rest -> product (shape b) = length (items b) -> Forall (fun x => known x = true) (items b) ->
    infer_tensor_specs (Leaf (TDense a)) = Ok s -> to_tensorflow_tensors known (Leaf (VDense b)) (Some s) = Ok (Leaf (TDense b)).
Proof.
  intros V known a b n m rest s SA SB W K E. cbn [infer_tensor_specs infer_spec tensor_shape] in E. unfold infer_spec in E. cbn [tensor_shape] in E. rewrite SA in E. cbn [map bind] in E. injection E as <-.
  cbn [to_tensorflow_tensors to_tensors_of reshape_to tl]. rewrite SB. rewrite SB in W. pose proof (all_known b (m :: rest) W) as A. cbn [map] in A. rewrite A. cbn [bind to_tensorflow_tensor items].
  replace (forallb known (items b)) with true by (symmetry; apply forallb_forall; rewrite Forall_forall in K; exact K). cbn [bind]. destruct b as [sh its]. cbn [shape items] in *. subst sh. reflexivity.
Qed.

Lemma C275_ragged_axes_pf :
  forall (V : Type) (f : arr V) splits s, splits <> [] -> infer_tensor_specs (Leaf (TRagged f splits)) = Ok s ->
    exists sh, s = Leaf (RaggedSpec (Some sh)) /\ (forall i, i <= length splits -> nth_error sh i = Some None) /\
      forall j, 0 < j -> nth_error sh (length splits + j) = option_map Some (nth_error (shape f) j).
Proof.
  intros V f splits s N E. cbn [infer_tensor_specs] in E. unfold infer_spec in E. destruct splits as [|s0 r]; [destruct (N eq_refl)|]. cbn [tensor_shape bind] in E. injection E as <-.
  exists (None :: map (fun _ => None) (s0 :: r) ++ map Some (tl (shape f))). split; [reflexivity|]. remember (s0 :: r) as sp eqn:SP. clear SP N s0 r. split.
  - intros i L. destruct i as [|i]; [reflexivity|]. cbn [nth_error]. rewrite nth_error_app1 by (rewrite map_length; lia). rewrite nth_error_map. destruct (nth_error sp i) eqn:Q; [reflexivity|]. apply nth_error_None in Q. lia.
  - intros j L. destruct j as [|j]; [lia|]. rewrite Nat.add_succ_r. cbn [nth_error]. rewrite nth_error_app2 by (rewrite map_length; lia). rewrite map_length. replace (length sp + j - length sp) with j by lia.
    rewrite nth_error_map. destruct (shape f); [destruct j; reflexivity|reflexivity].
Qed.

Lemma C275_sparse_axes_pf :
  forall (V : Type) (vs : list V) idx n sh s, infer_tensor_specs (Leaf (TSparse vs idx (n :: sh))) = Ok s -> s = Leaf (SparseSpec (Some (None :: map Some sh))).
Proof. intros V vs idx n sh s E. cbn in E. injection E as <-. reflexivity. Qed.

Lemma C275_scalars_refused_pf :
  forall (V : Type) (x : V), infer_tensor_specs (Leaf (TDense (Arr [] [x]))) = Err ValueError.
Proof. reflexivity. Qed.

(** What lists of values become: all there and of one length, all missing, or anything else. *)

Definition same_length {V} (c : column (V := V)) (k : nat) : Prop := c <> [] /\ Forall (fun o => exists l, o = Some l /\ length l = k) c.

Definition all_missing {V} (c : column (V := V)) : Prop := c <> [] /\ Forall (fun o => o = None) c.

(** The value at a position of a list, by row *)

Definition value_at {V} (c : column (V := V)) (i j : nat) : option V :=
  match nth_error c i with Some (Some l) => nth_error l j | _ => None end.

Definition var_entries {V} (t : varlen V) (i j : nat) (v : V) : Prop := In ((i, j), v) (combine (vl_indices t) (vl_values t)).

Definition column_value {V} (c : column (V := V)) (x : feature) : Prop :=
  (forall k, same_length c k -> exists a, x = Values (VDense a) /\ shape a = [length c; k] /\ length (items a) = length c * k /\
     forall i j, i < length c -> j < k -> nth_error (items a) (i * k + j) = value_at c i j) /\
  (all_missing c -> x = AllNone (length c)) /\
  ((forall k, ~ same_length c k) -> ~ all_missing c ->
     exists t m, x = Values (VVarLen t) /\ vl_shape t = [length c; m] /\ length (vl_values t) = length (vl_indices t) /\
       NoDup (vl_indices t) /\ (forall i j v, var_entries t i j v <-> value_at c i j = Some v) /\ forall i j v, value_at c i j = Some v -> j < m).

Lemma olen_eqb_eq a b : olen_eqb a b = true <-> a = b.
Proof. destruct a as [x|], b as [y|]; cbn; try (split; congruence). rewrite Nat.eqb_eq. split; congruence. Qed.

Lemma lengths_one {V} (c : column (V := V)) : (exists x, lengths c = [x]) <-> (exists k, same_length c k) \/ all_missing c.
Proof.
  unfold lengths. pose proof (dedup_In _ olen_eqb_eq (map (option_map (@length V)) c)) as D. pose proof (dedup_NoDup _ olen_eqb_eq (map (option_map (@length V)) c)) as N.
  destruct c as [|o c].
  - split; [intros (x & E); discriminate E|intros [(k & H & _)|(H & _)]; destruct (H eq_refl)].
  - split.
    + intros (x & E). rewrite E in D. destruct x as [k|].
      * left. exists k. split; [discriminate|]. apply Forall_forall. intros o' I0. assert (I1 : In (option_map (@length V) o') [Some k]) by (apply D, in_map, I0). destruct I1 as [I1|[]]. destruct o' as [l|]; [|discriminate]. injection I1 as ->. exists l. auto.
      * right. split; [discriminate|]. apply Forall_forall. intros o' I0. assert (I1 : In (option_map (@length V) o') [None]) by (apply D, in_map, I0). destruct I1 as [I1|[]]. destruct o'; [discriminate|reflexivity].
    + intros H. assert (A : exists x, forall y, In y (map (option_map (@length V)) (o :: c)) -> y = x).
      { destruct H as [(k & _ & F)|(_ & F)]; rewrite Forall_forall in F; [exists (Some k)|exists None]; intros y I0; apply in_map_iff in I0; destruct I0 as (o' & <- & I0); specialize (F o' I0).
        - destruct F as (l & -> & <-). reflexivity.
        - rewrite F. reflexivity. }
      destruct A as (x & A). exists x. destruct (dedup olen_eqb (map (option_map (@length V)) (o :: c))) as [|y [|z l]] eqn:E.
      * exfalso. apply (proj2 (D (option_map (@length V) o))). left. reflexivity.
      * rewrite (A y); [reflexivity|]. apply D. left. reflexivity.
      * exfalso. inversion N; subst. apply H2. left. rewrite (A y), (A z); [reflexivity| |]; apply D; [right; left|left]; reflexivity.
Qed.

Lemma all_there {V} (c : column (V := V)) : forallb (fun o => match o with Some _ => true | None => false end) c = true <-> forall o, In o c -> o <> None.
Proof. rewrite forallb_forall. split; intros H o I0; specialize (H o I0); destruct o; congruence. Qed.

Lemma same_not_missing {V} (c : column (V := V)) k : same_length c k -> ~ all_missing c.
Proof. intros (N & F) (_ & G). destruct c as [|o c]; [contradiction|]. inversion F as [|? ? (l & E & _) _]; subst. inversion G; subst. discriminate. Qed.

Lemma dense_items {V} (c : column (V := V)) k : Forall (fun o => exists l, o = Some l /\ length l = k) c ->
  length (flat_map present c) = length c * k /\ forall i j, i < length c -> j < k -> nth_error (flat_map present c) (i * k + j) = value_at c i j.
Proof.
  induction 1 as [|o c (l & -> & L) F [IH1 IH2]]; [split; [reflexivity|intros; cbn in *; lia]|]. cbn [flat_map present length]. split; [rewrite app_length, IH1; lia|].
  intros [|i] j I0 J.
  - cbn [Nat.mul Nat.add]. rewrite nth_error_app1 by lia. reflexivity.
  - rewrite nth_error_app2 by (cbn; nia). replace (S i * k + j - length l) with (i * k + j) by (cbn; lia). rewrite IH2 by lia. reflexivity.
Qed.

Lemma list_indices_from {V} (c : column (V := V)) : forall k, concat (map (fun ir => map (pair (fst ir)) (seq 0 (length (present (snd ir))))) (combine (seq k (length c)) c)) = entries_from k (map present c).
Proof. induction c as [|o c IH]; intros k; [reflexivity|]. cbn [length seq combine map concat fst snd]. rewrite entries_cons, IH. reflexivity. Qed.

Lemma combine_two {A B} (a a' : list A) (b b' : list B) : length a = length b -> combine (a ++ a') (b ++ b') = combine a b ++ combine a' b'.
Proof. revert b. induction a as [|x a IH]; intros [|y b] L; try discriminate; [reflexivity|]. cbn [app combine]. rewrite IH by (injection L as L; exact L). reflexivity. Qed.

Lemma entries_spec {V} (c : column (V := V)) : forall n i j v, In ((i, j), v) (combine (entries_from n (map present c)) (flat_map present c)) <-> n <= i /\ value_at c (i - n) j = Some v.
Proof.
  induction c as [|o c IH]; intros n i j v.
  - cbn. split; [intros []|intros (_ & H)]. unfold value_at in H. destruct (i - n); discriminate H.
  - cbn [map flat_map]. rewrite entries_cons. rewrite combine_two by (rewrite map_length, seq_length; reflexivity). rewrite in_app_iff, IH.
    assert (B : forall l b, In (i, j, v) (combine (map (pair n) (seq b (length l))) l) <-> i = n /\ b <= j /\ nth_error l (j - b) = Some v).
    { clear. induction l as [|x l IHl]; intros b; [cbn; split; [intros []|intros (_ & _ & H); destruct (j - b); discriminate H]|].
      cbn [length seq map combine In]. rewrite IHl. split.
      - intros [[= <- <- <-]|(-> & L & E)]; [split; [reflexivity|]; split; [lia|]; rewrite Nat.sub_diag; reflexivity|]. split; [reflexivity|]. split; [lia|]. replace (j - b) with (S (j - S b)) by lia. exact E.
      - intros (-> & L & E). destruct (Nat.eq_dec j b) as [->|NE]; [left; rewrite Nat.sub_diag in E; injection E as ->; reflexivity|right]. split; [reflexivity|]. split; [lia|]. replace (j - b) with (S (j - S b)) in E by lia. exact E. }
    rewrite B. unfold value_at. split.
    + intros [(-> & _ & E)|(L & E)].
      * split; [lia|]. rewrite Nat.sub_diag. cbn [nth_error]. rewrite Nat.sub_0_r in E. destruct o as [l|]; [exact E|destruct j; discriminate E].
      * split; [lia|]. replace (i - n) with (S (i - S n)) by lia. exact E.
    + intros (L & E). destruct (Nat.eq_dec i n) as [->|NE].
      * left. rewrite Nat.sub_diag in E. cbn [nth_error] in E. split; [reflexivity|]. split; [lia|]. rewrite Nat.sub_0_r. destruct o as [l|]; [exact E|discriminate E].
      * right. split; [lia|]. replace (i - n) with (S (i - S n)) in E by lia. exact E.
Qed.

Lemma entries_nodup {V} (rows : list (list V)) : forall n, NoDup (entries_from n rows).
Proof.
  induction rows as [|r rows IH]; intros n; [constructor|]. rewrite entries_cons. apply NoDup_app; [|apply IH|].
  - apply FinFun.Injective_map_NoDup; [intros a b [= ->]; reflexivity|apply seq_NoDup].
  - intros p I0 I1. apply in_map_iff in I0. destruct I0 as (j & <- & _). pose proof (entries_rows (S n) rows) as F. rewrite Forall_forall in F. specialize (F _ I1). cbn in F. lia.
Qed.

Lemma adapt_varlen {V} sparse_of (b : record_batch (V := V)) name c : dget String.eqb b name = Some c ->
  exists t m, adapt sparse_of b (VarLenRep name) = Ok (VVarLen t) /\ vl_shape t = [length c; m] /\ length (vl_values t) = length (vl_indices t) /\
       NoDup (vl_indices t) /\ (forall i j v, var_entries t i j v <-> value_at c i j = Some v) /\ forall i j v, value_at c i j = Some v -> j < m.
Proof.
  intros G. cbn [adapt]. rewrite G. cbn [bind]. unfold mk_varlen. cbn [length Nat.eqb negb]. unfold list_indices. rewrite list_indices_from, entries_row_major. cbn [negb bind].
  eexists. exists (fold_right Nat.max 0 (map (fun o => length (present o)) c)). split; [reflexivity|]. cbn [vl_shape vl_values vl_indices]. split; [reflexivity|]. split; [rewrite entries_length, flat_map_concat_map; reflexivity|]. split; [apply entries_nodup|]. split.
  - intros i j v. unfold var_entries. cbn [vl_indices vl_values]. rewrite entries_spec, Nat.sub_0_r. intuition lia.
  - intros i j v E. unfold value_at in E. destruct (nth_error c i) as [[l|]|] eqn:N; try discriminate. apply nth_error_In in N. assert (J : j < length l) by (apply nth_error_Some; congruence).
    clear - N J. induction c as [|o c IH]; [destruct N|]. cbn [map fold_right]. destruct N as [->|N]; [cbn [present]; lia|specialize (IH N); lia].
Qed.

Lemma adapt_dense {V} sparse_of (b : record_batch (V := V)) name c dims : dget String.eqb b name = Some c -> Forall (fun o => exists l, o = Some l /\ length l = product dims) c ->
  adapt sparse_of b (DenseRep name dims) = Ok (VDense (Arr (length c :: dims) (flat_map present c))).
Proof.
  intros G F. cbn [adapt]. rewrite G. cbn [bind]. replace (forallb _ c) with true; [reflexivity|]. symmetry. apply forallb_forall. intros o I0. rewrite Forall_forall in F. destruct (F o I0) as (l & -> & ->). apply Nat.eqb_refl.
Qed.

(** One column without a representation. *)

Lemma default_column {V} sparse_of (b : record_batch (V := V)) name c : dget String.eqb b name = Some c ->
  match column_representation [] (name, c) with
  | None => column_value c (AllNone (length c))
  | Some r => exists v, adapt sparse_of b r = Ok v /\ column_value c (Values v)
  end.
Proof.
  intros G. unfold column_representation. cbn [dget fst snd]. pose proof (lengths_one c) as L.
  assert (VL : (forall x, lengths c <> [x]) -> exists v, adapt sparse_of b (VarLenRep name) = Ok v /\ column_value c (Values v)).
  { intros H. destruct (adapt_varlen sparse_of b name c G) as (t & m & E & R). exists (VVarLen t). split; [exact E|]. assert (NL : ~ ((exists k, same_length c k) \/ all_missing c)) by (rewrite <- L; intros (x & X); apply (H x X)).
    split; [intros k S; destruct NL; left; exists k; exact S|]. split; [intros A; destruct NL; right; exact A|]. intros _ _. exists t, m. split; [reflexivity|exact R]. }
  destruct (lengths c) as [|x [|y l]] eqn:E; [apply VL; intros x H; discriminate H| |apply VL; intros z H; discriminate H].
  destruct (proj1 L (ex_intro _ x eq_refl)) as [(k & S)|A].
  - assert (T : forallb (fun o => match o with Some _ => true | None => false end) c = true).
    { apply all_there. intros o I0. destruct S as (_ & F). rewrite Forall_forall in F. destruct (F o I0) as (l & -> & _). discriminate. }
    rewrite T. assert (D : dims_of c = [k]) by (destruct S as (N & F); destruct c as [|o c]; [contradiction|]; inversion F as [|? ? (l & -> & Q) _]; subst; reflexivity). rewrite D.
    assert (F : Forall (fun o => exists l, o = Some l /\ length l = product [k]) c) by (destruct S as (_ & F); eapply Forall_impl; [|exact F]; intros o (l & ? & ?); exists l; split; [assumption|cbn; lia]).
    eexists. split; [apply (adapt_dense sparse_of b name c [k] G F)|]. split; [|split; [intros A; destruct (same_not_missing c k S A)|intros H; destruct (H k S)]].
    intros k' S'. assert (k' = k). { destruct S as (N & FA), S' as (_ & FB). destruct c as [|o c]; [contradiction|]. inversion FA as [|? ? (l & E1 & Q1) _]; inversion FB as [|? ? (l' & E2 & Q2) _]; subst. congruence. } subst k'.
    destruct (dense_items c k (proj2 S)) as (P1 & P2). eexists. split; [reflexivity|]. cbn [shape items]. auto.
  - assert (T : forallb (fun o => match o with Some _ => true | None => false end) c = false).
    { apply not_true_is_false. intros T. rewrite all_there in T. destruct A as (N & F). destruct c as [|o c]; [contradiction|]. inversion F; subst. apply (T None (or_introl eq_refl) eq_refl). }
    rewrite T. split; [intros k S; destruct (same_not_missing c k S A)|]. split; [reflexivity|]. intros _ H. destruct (H A).
Qed.

Lemma further_nil {V} (b : record_batch (V := V)) : further b [] = [].
Proof. reflexivity. Qed.

Lemma dget_app {A} (l k : list (string * A)) x : dget String.eqb (l ++ k) x = match dget String.eqb l x with Some v => Some v | None => dget String.eqb k x end.
Proof. induction l as [|[y v] l IH]; [reflexivity|]. cbn [app dget]. destruct (String.eqb x y); [reflexivity|exact IH]. Qed.

Lemma C276_columns_pf :
  forall (V : Type) sparse_of (b : record_batch (V := V)), NoDup (map fst b) ->
    exists f, record_batch_to_tensor_values sparse_of b [] = Ok f /\ Permutation (map fst f) (map fst b) /\
      forall name c, In (name, c) b -> exists x, dget String.eqb f name = Some x /\ column_value c x.
Proof.
  intros V sparse_of b N. unfold record_batch_to_tensor_values. rewrite further_nil, app_nil_r.
  assert (H : forall name c, In (name, c) b -> dget String.eqb b name = Some c) by (intros name c I0; apply (dget_In_NoDup _ String.eqb_eq); assumption).
  set (val (nr : string * representation) := match adapt sparse_of b (snd nr) with Ok v => v | Err _ => VDense (Arr [] []) end).
  set (rs := flat_map (fun nc : string * column => match column_representation [] nc with None => [] | Some r => [(fst nc, r)] end) b).
  assert (RO : forall n r, In (n, r) rs -> exists c, In (n, c) b /\ column_representation [] (n, c) = Some r).
  { intros n r I0. unfold rs in I0. apply in_flat_map in I0. destruct I0 as ([n' c] & I0 & I1). destruct (column_representation [] (n', c)) as [r'|] eqn:E; [|destruct I1]. destruct I1 as [[= <- <-]|[]]. exists c. auto. }
  rewrite (mapM_all_ok _ (fun nr => (fst nr, Values (val nr))) rs).
  2:{ intros [n r] I0. destruct (RO n r I0) as (c & I1 & E). pose proof (default_column sparse_of b n c (H n c I1)) as D. rewrite E in D. destruct D as (v & A & _). unfold val. cbn [fst snd]. rewrite A. reflexivity. }
  eexists. split; [reflexivity|]. set (ms := flat_map (fun nc : string * column => match column_representation [] nc with None => [(fst nc, AllNone (length (snd nc)))] | Some _ => [] end) b).
  assert (P : Permutation (map fst (ms ++ map (fun nr => (fst nr, Values (val nr))) rs)) (map fst b)).
  { rewrite map_app, map_map. cbn [fst]. unfold ms, rs. clear. induction b as [|[n c] b IH]; [reflexivity|]. cbn [flat_map map fst snd]. destruct (column_representation [] (n, c)); cbn [app map fst].
    - etransitivity; [apply Permutation_sym, Permutation_middle|]. apply perm_skip. exact IH.
    - apply perm_skip. exact IH. }
  split; [exact P|]. intros n c I0. assert (NF : NoDup (map fst (ms ++ map (fun nr => (fst nr, Values (val nr))) rs))) by (apply (Permutation_NoDup (Permutation_sym P)), N).
  pose proof (default_column sparse_of b n c (H n c I0)) as D. destruct (column_representation [] (n, c)) as [r|] eqn:E.
  - destruct D as (v & A & CV). exists (Values v). split; [|exact CV]. apply (dget_In_NoDup _ String.eqb_eq); [exact NF|]. apply in_or_app. right. apply in_map_iff. exists (n, r). cbn [fst snd]. unfold val. cbn [snd]. rewrite A. split; [reflexivity|]. unfold rs. apply in_flat_map. exists (n, c). split; [exact I0|]. rewrite E. left. reflexivity.
  - exists (AllNone (length c)). split; [|exact D]. apply (dget_In_NoDup _ String.eqb_eq); [exact NF|]. apply in_or_app. left. unfold ms. apply in_flat_map. exists (n, c). split; [exact I0|]. rewrite E. left. reflexivity.
Qed.

Lemma C276_some_missing_refuted_pf :
  exists (c c' : column (V := nat)) f f', In None c /\ ~ In None c' /\
    record_batch_to_tensor_values (fun _ _ _ => Err ValueError) [("a", c)] [] = Ok f /\
    record_batch_to_tensor_values (fun _ _ _ => Err ValueError) [("a", c')] [] = Ok f' /\ f = f'.
Proof.
  exists [Some [1]; None], [Some [1]; Some []]. eexists. eexists. split; [right; left; reflexivity|]. split; [intros [H|[H|[]]]; discriminate H|]. split; [reflexivity|]. split; reflexivity.
Qed.

(** A value of one column as a representation says. *)

Definition represented {V} (sparse_of : record_batch -> list string -> string -> res tvalue) (b : record_batch (V := V)) (r : representation) (x : feature) : Prop :=
  match r with
  | DenseRep col dims => exists c a, In (col, c) b /\ x = Values (VDense a) /\ shape a = length c :: dims /\ length (items a) = length c * product dims /\
      (forall o, In o c -> exists l, o = Some l /\ length l = product dims) /\
      forall i j, i < length c -> j < product dims -> nth_error (items a) (i * product dims + j) = value_at c i j
  | VarLenRep col => exists c t m, In (col, c) b /\ x = Values (VVarLen t) /\ vl_shape t = [length c; m] /\ length (vl_values t) = length (vl_indices t) /\
      NoDup (vl_indices t) /\ (forall i j v, var_entries t i j v <-> value_at c i j = Some v) /\ forall i j v, value_at c i j = Some v -> j < m
  | RaggedRep path => exists col c vals splits, path = [col] /\ In (col, c) b /\ x = Values (VRagged (Arr [length vals] vals) [splits]) /\ length splits = S (length c) /\
      forall i o, nth_error c i = Some o -> exists from to, nth_error splits i = Some from /\ nth_error splits (S i) = Some to /\
        firstn (to - from) (skipn from vals) = match o with Some l => l | None => [] end
  | SparseRep is v => exists y, sparse_of b is v = Ok y /\ x = Values y
  end.

Lemma splits_length {V} (c : column (V := V)) : forall n, length (splits_from n c) = S (length c).
Proof. induction c as [|r c IH]; intros n; [reflexivity|]. cbn [splits_from length]. rewrite IH. reflexivity. Qed.

Lemma splits_rows {V} (c : column (V := V)) : forall n i o, nth_error c i = Some o ->
  exists from to, nth_error (splits_from n c) i = Some (n + from) /\ nth_error (splits_from n c) (S i) = Some (n + to) /\ firstn (to - from) (skipn from (flat_map present c)) = present o.
Proof.
  induction c as [|r c IH]; intros n i o E; [destruct i; discriminate E|]. destruct i as [|i].
  - injection E as <-. exists 0, (length (present r)). cbn [splits_from nth_error]. rewrite Nat.add_0_r. split; [reflexivity|]. split; [destruct c; reflexivity|]. cbn [skipn flat_map]. rewrite Nat.sub_0_r, firstn_app, Nat.sub_diag, firstn_all, firstn_O, app_nil_r. reflexivity.
  - cbn [nth_error] in E. destruct (IH (n + length (present r)) i o E) as (from & to & E1 & E2 & E3). exists (length (present r) + from), (length (present r) + to).
    change (nth_error (splits_from n (r :: c)) (S i)) with (nth_error (splits_from (n + length (present r)) c) i). change (nth_error (splits_from n (r :: c)) (S (S i))) with (nth_error (splits_from (n + length (present r)) c) (S i)).
    rewrite E1, E2, !Nat.add_assoc. split; [reflexivity|]. split; [reflexivity|]. cbn [flat_map]. rewrite skipn_app, skipn_all2 by lia. cbn [app]. replace (length (present r) + from - length (present r)) with from by lia. replace (length (present r) + to - (length (present r) + from)) with (to - from) by lia. exact E3.
Qed.

Lemma adapt_represented {V} sparse_of (b : record_batch (V := V)) r v : adapt sparse_of b r = Ok v -> represented sparse_of b r (Values v).
Proof.
  destruct r as [col dims|col|is vc|path]; cbn [adapt represented]; intros E.
  - destruct (dget String.eqb b col) as [c|] eqn:G; [|discriminate E]. cbn [bind] in E. destruct (forallb _ c) eqn:F; [|discriminate E]. injection E as <-.
    assert (FA : forall o, In o c -> exists l, o = Some l /\ length l = product dims).
    { intros o I0. rewrite forallb_forall in F. specialize (F o I0). destruct o as [l|]; [|discriminate F]. exists l. split; [reflexivity|apply Nat.eqb_eq; exact F]. }
    destruct (dense_items c (product dims) (proj2 (Forall_forall _ _) FA)) as (P1 & P2). exists c. eexists. split; [apply (dget_In _ String.eqb_eq _ _ _ G)|]. split; [reflexivity|]. cbn [shape items]. auto.
  - destruct (dget String.eqb b col) as [c|] eqn:G; [|discriminate E]. destruct (adapt_varlen sparse_of b col c G) as (t & m & A & R). cbn [adapt] in A. rewrite G in A. cbn [bind] in A, E. rewrite E in A. injection A as ->. exists c, t, m. split; [apply (dget_In _ String.eqb_eq _ _ _ G)|]. split; [reflexivity|exact R].
  - exists v. auto.
  - destruct path as [|col [|? ?]]; try discriminate E. destruct (dget String.eqb b col) as [c|] eqn:G; [|discriminate E]. cbn [bind] in E. injection E as <-.
    exists col, c. eexists. eexists. split; [reflexivity|]. split; [apply (dget_In _ String.eqb_eq _ _ _ G)|]. split; [reflexivity|]. split; [apply splits_length|]. intros i o N. destruct (splits_rows c 0 i o N) as (from & to & E1 & E2 & E3). exists from, to. auto.
Qed.

Definition complete {V} (b : record_batch (V := V)) (reps : list (string * representation)) (name : string) : Prop :=
  ~ In name (map fst b) /\ exists is v, In (name, SparseRep is v) reps /\ In v (map fst b) /\ forall i, In i is -> In i (map fst b).

Lemma further_In {V} (b : record_batch (V := V)) reps n r : In (n, r) (further b reps) <-> In (n, r) reps /\ ~ In n (map fst b) /\ exists is v, r = SparseRep is v /\ In v (map fst b) /\ forall i, In i is -> In i (map fst b).
Proof.
  unfold further. rewrite filter_In, andb_true_iff, negb_true_iff. cbn [fst snd].
  assert (M : forall x, dmem String.eqb b x = true <-> In x (map fst b)) by (intros x; apply (dmem_In _ String.eqb_eq)).
  assert (MF : dmem String.eqb b n = false <-> ~ In n (map fst b)) by (rewrite <- M; destruct (dmem String.eqb b n); split; intros; congruence). rewrite MF.
  split; intros (I0 & N & H); (split; [exact I0|]); (split; [exact N|]).
  - destruct r as [? ?|?|is v|?]; try discriminate. exists is, v. split; [reflexivity|]. rewrite forallb_app, andb_true_iff in H. destruct H as (H1 & H2). cbn [forallb] in H2. rewrite andb_true_r in H2. split; [apply M; exact H2|]. intros i Ii. rewrite forallb_forall in H1. apply M, H1, Ii.
  - destruct H as (is & v & -> & V0 & IS). rewrite forallb_app, andb_true_iff. split; [apply forallb_forall; intros i Ii; apply M, IS, Ii|]. cbn [forallb]. rewrite andb_true_r. apply M, V0.
Qed.

Lemma default_same {V} reps (nc : string * column (V := V)) : dget String.eqb reps (fst nc) = None -> column_representation reps nc = column_representation [] nc.
Proof. intros E. unfold column_representation. rewrite E. reflexivity. Qed.

Lemma filter_NoDup {A B} (f : A * B -> bool) l : NoDup (map fst l) -> NoDup (map fst (filter f l)).
Proof.
  induction l as [|a l IH]; [constructor|]. cbn [map filter]. intros N. inversion N as [|? ? NI N']; subst. destruct (f a); [|apply IH, N']. cbn [map]. constructor; [|apply IH, N']. intros I0. apply NI. apply in_map_iff in I0. destruct I0 as (y & E & I0). apply filter_In in I0. apply in_map_iff. exists y. tauto.
Qed.

Section Features.
  Context {V : Type} (sparse_of : record_batch (V := V) -> list string -> string -> res (tvalue (V := V))) (b : record_batch (V := V)) (reps : list (string * representation)).
  Let missing := flat_map (fun nc => match column_representation reps nc with None => [(fst nc, AllNone (V := V) (length (snd nc)))] | Some _ => [] end) b.
  Let updated := flat_map (fun nc => match column_representation reps nc with None => [] | Some r => [(fst nc, r)] end) b.
  Lemma features_keys : NoDup (map fst b) -> NoDup (map fst reps) ->
    Permutation (map fst missing ++ map fst updated) (map fst b) /\ NoDup ((map fst missing ++ map fst updated) ++ map fst (further b reps)).
  Proof.
    intros N NR. assert (P : Permutation (map fst missing ++ map fst updated) (map fst b)).
    { unfold missing, updated. clear. induction b as [|[n c] l IH]; [reflexivity|]. cbn [flat_map map fst snd]. destruct (column_representation reps (n, c)); cbn [app map fst].
      - etransitivity; [apply Permutation_sym, Permutation_middle|]. apply perm_skip. exact IH.
      - apply perm_skip. exact IH. }
    split; [exact P|]. apply NoDup_app; [apply (Permutation_NoDup (Permutation_sym P)), N|apply filter_NoDup, NR|].
    intros x I0 I1. apply (Permutation_in _ P) in I0. apply in_map_iff in I1. destruct I1 as ([n r] & <- & I1). apply further_In in I1. apply (proj1 (proj2 I1)), I0.
  Qed.
  Lemma features_inv f : NoDup (map fst b) -> NoDup (map fst reps) -> record_batch_to_tensor_values sparse_of b reps = Ok f ->
    NoDup (map fst f) /\ (forall name, In name (map fst f) <-> In name (map fst b) \/ complete b reps name) /\
    (forall nc, In nc b -> column_representation reps nc = None -> In (fst nc, AllNone (length (snd nc))) f) /\
    (forall n r, In (n, r) (updated ++ further b reps) -> exists v, adapt sparse_of b r = Ok v /\ In (n, Values v) f).
  Proof.
    intros N NR E. destruct (features_keys N NR) as (P & ND). unfold record_batch_to_tensor_values in E. fold missing updated in E. destruct (mapM _ (updated ++ further b reps)) as [l|] eqn:M; [|discriminate E]. injection E as <-.
    assert (K : map fst l = map fst updated ++ map fst (further b reps)).
    { rewrite <- map_app. generalize dependent l. generalize (updated ++ further b reps). intros u. induction u as [|[n r] u IH]; intros l M; cbn [mapM fst snd] in M; [injection M as <-; reflexivity|].
      destruct (adapt sparse_of b r) as [v|]; [|discriminate M]. cbn [bind] in M. destruct (mapM _ u) as [l'|] eqn:M'; [|discriminate M]. cbn [bind] in M. injection M as <-. cbn [map fst]. f_equal. apply IH. reflexivity. }
    assert (KF : map fst (missing ++ l) = (map fst missing ++ map fst updated) ++ map fst (further b reps)) by (rewrite map_app, K, app_assoc; reflexivity).
    rewrite KF. split; [exact ND|]. split; [|split].
    - intros name. rewrite in_app_iff. split.
      + intros [I0|I0]; [left; apply (Permutation_in _ P), I0|right]. apply in_map_iff in I0. destruct I0 as ([n r] & <- & I0). apply further_In in I0. destruct I0 as (I0 & NI & is & v & -> & V0 & IS). split; [exact NI|]. exists is, v. auto.
      + intros [I0|(NI & is & v & I0 & V0 & IS)]; [left; apply (Permutation_in _ (Permutation_sym P)), I0|right]. apply in_map_iff. exists (name, SparseRep is v). split; [reflexivity|]. apply further_In. split; [exact I0|]. split; [exact NI|]. exists is, v. auto.
    - intros nc I0 C. apply in_or_app. left. unfold missing. apply in_flat_map. exists nc. split; [exact I0|]. rewrite C. left. reflexivity.
    - intros n r I0. revert l M I0 K KF. generalize (updated ++ further b reps). intros u l M I0 _ _.
      assert (H : exists v, adapt sparse_of b r = Ok v /\ In (n, Values v) l); [|destruct H as (v & A & H); exists v; split; [exact A|apply in_or_app; right; exact H]].
      revert l M. induction u as [|[n' r'] u IH]; intros l M; [destruct I0|]. cbn [mapM fst snd] in M. destruct (adapt sparse_of b r') as [v|] eqn:A; [|discriminate M]. cbn [bind] in M. destruct (mapM _ u) as [l'|] eqn:M'; [|discriminate M]. cbn [bind] in M. injection M as <-.
      destruct I0 as [[= -> ->]|I0]; [exists v; split; [exact A|left; reflexivity]|]. destruct (IH I0 l' eq_refl) as (w & W1 & W2). exists w. split; [exact W1|right; exact W2].
  Qed.
  Lemma features_ok : NoDup (map fst b) -> (forall n r, In (n, r) reps -> In n (map fst b) \/ complete b reps n -> is_ok (adapt sparse_of b r) = true) ->
    is_ok (record_batch_to_tensor_values sparse_of b reps) = true.
  Proof.
    intros N H. unfold record_batch_to_tensor_values. fold missing updated.
    rewrite (mapM_all_ok _ (fun nr => (fst nr, Values match adapt sparse_of b (snd nr) with Ok v => v | Err _ => VDense (Arr [] []) end)) (updated ++ further b reps)); [reflexivity|].
    intros [n r] I0. cbn [fst snd]. assert (A : is_ok (adapt sparse_of b r) = true); [|destruct (adapt sparse_of b r); [reflexivity|discriminate A]].
    apply in_app_or in I0. destruct I0 as [I0|I0].
    - unfold updated in I0. apply in_flat_map in I0. destruct I0 as ([n' c] & I0 & I1). destruct (dget String.eqb reps n') as [r'|] eqn:G.
      + unfold column_representation in I1. cbn [fst] in I1. rewrite G in I1. destruct I1 as [[= <- <-]|[]]. apply (H n' r'); [apply (dget_In _ String.eqb_eq _ _ _ G)|left; apply in_map_iff; exists (n', c); auto].
      + rewrite (default_same reps (n', c) G) in I1. assert (GB : dget String.eqb b n' = Some c) by (apply (dget_In_NoDup _ String.eqb_eq); assumption).
        pose proof (default_column sparse_of b n' c GB) as D. destruct (column_representation [] (n', c)) as [r'|]; [|destruct I1]. destruct I1 as [[= <- <-]|[]]. destruct D as (v & -> & _). reflexivity.
    - apply further_In in I0. destruct I0 as (I0 & NI & is & v & -> & V0 & IS). apply (H n (SparseRep is v) I0). right. split; [exact NI|]. exists is, v. auto.
  Qed.

End Features.

Lemma C277_representations_pf :
  forall (V : Type) sparse_of (b : record_batch (V := V)) reps f, NoDup (map fst b) -> NoDup (map fst reps) ->
    record_batch_to_tensor_values sparse_of b reps = Ok f ->
    NoDup (map fst f) /\ (forall name, In name (map fst f) <-> In name (map fst b) \/ complete b reps name) /\
    (forall name r, In (name, r) reps -> In name (map fst f) -> exists x, dget String.eqb f name = Some x /\ represented sparse_of b r x) /\
    forall name c, In (name, c) b -> ~ In name (map fst reps) -> exists x, dget String.eqb f name = Some x /\ column_value c x.
Proof.
  intros V sparse_of b reps f N NR E. destruct (features_inv sparse_of b reps f N NR E) as (NF & K & M & U). split; [exact NF|]. split; [exact K|].
  assert (G : forall n x, In (n, x) f -> dget String.eqb f n = Some x) by (intros n x I0; apply (dget_In_NoDup _ String.eqb_eq); assumption). split.
  - intros name r I0 IF. assert (GR : dget String.eqb reps name = Some r) by (apply (dget_In_NoDup _ String.eqb_eq); assumption).
    assert (A : exists v, adapt sparse_of b r = Ok v /\ In (name, Values v) f); [|destruct A as (v & A & I1); exists (Values v); split; [apply G, I1|apply adapt_represented, A]].
    apply U. apply in_or_app. apply K in IF. destruct IF as [IB|(NI & is & v & I1 & V0 & IS)].
    + left. apply in_map_iff in IB. destruct IB as ([n c] & <- & IB). apply in_flat_map. exists (n, c). split; [exact IB|]. unfold column_representation. cbn [fst] in *. rewrite GR. left. reflexivity.
    + right. apply further_In. split; [exact I0|]. split; [exact NI|]. exists is, v. split; [|auto]. assert (GR' : dget String.eqb reps name = Some (SparseRep is v)) by (apply (dget_In_NoDup _ String.eqb_eq); assumption). congruence.
  - intros name c I0 NI. assert (GN : dget String.eqb reps name = None) by (apply (dget_None _ String.eqb_eq); exact NI).
    assert (GB : dget String.eqb b name = Some c) by (apply (dget_In_NoDup _ String.eqb_eq); assumption).
    pose proof (default_column sparse_of b name c GB) as D. pose proof (default_same reps (name, c) GN) as S. destruct (column_representation [] (name, c)) as [r|].
    + destruct D as (v & A & CV). destruct (U name r) as (v' & A' & I1); [apply in_or_app; left; apply in_flat_map; exists (name, c); split; [exact I0|]; rewrite S; left; reflexivity|]. rewrite A in A'. injection A' as <-. exists (Values v). split; [apply G, I1|exact CV].
    + exists (AllNone (length c)). split; [apply G; apply (M (name, c) I0 S)|exact D].
Qed.

Lemma C277_misfit_pf :
  forall (V : Type) sparse_of (b : record_batch (V := V)) reps name col dims c o, NoDup (map fst b) -> NoDup (map fst reps) ->
    In (name, DenseRep col dims) reps -> In name (map fst b) -> In (col, c) b -> In o c -> (forall l, o = Some l -> length l <> product dims) ->
    record_batch_to_tensor_values sparse_of b reps = Err ValueError.
Proof.
  intros V sparse_of b reps name col dims c o N NR I0 IN IC IO H. destruct (record_batch_to_tensor_values sparse_of b reps) as [f|e] eqn:E.
  - exfalso. destruct (C277_representations_pf V sparse_of b reps f N NR E) as (_ & K & R & _). destruct (R name (DenseRep col dims) I0) as (x & _ & c' & a & I1 & _ & _ & _ & F & _); [apply K; left; exact IN|].
    assert (GA : dget String.eqb b col = Some c) by (apply (dget_In_NoDup _ String.eqb_eq); assumption). assert (GB : dget String.eqb b col = Some c') by (apply (dget_In_NoDup _ String.eqb_eq); assumption).
    assert (c' = c) by congruence. subst c'. destruct (F o IO) as (l & -> & L). apply (H l eq_refl L).
  - unfold record_batch_to_tensor_values in E. destruct (mapM _ _); [discriminate E|]. injection E as <-. reflexivity.
Qed.

Lemma C277_renamed_refuted_pf :
  exists (b : record_batch (V := nat)) name col dims f, In col (map fst b) /\
    record_batch_to_tensor_values (fun _ _ _ => Err ValueError) b [(name, DenseRep col dims)] = Ok f /\ dget String.eqb f name = None.
Proof. exists [("a", [Some [1]])], "x", "a", [1]. eexists. split; [left; reflexivity|]. split; reflexivity. Qed.

Definition spec_fits (s : tspec) (name : string) (r : representation) : Prop :=
  match s with
  | DenseSpec (Some dims) => exists ds, tl dims = map Some ds /\ r = DenseRep name ds
  | DenseSpec None => False
  | SparseSpec _ => r = VarLenRep name
  | RaggedSpec _ => r = RaggedRep [name]
  end.

Lemma C278_representations_pf :
  forall specs reps, input_specs_to_tensor_representations specs = Ok reps <->
    Forall2 (fun s r => fst s = fst r /\ spec_fits (snd s) (fst s) (snd r)) specs reps.
Proof.
  assert (O : forall name s r, representation_of name s = Ok r <-> spec_fits s name r).
  { intros name s r. destruct s as [[dims|]|?|?]; cbn [representation_of spec_fits]; try (split; [intros [= <-]; reflexivity|intros ->; reflexivity]); [|split; [discriminate|intros []]].
    assert (MM : forall l ds, mapM (fun o => match o with Some n => Ok n | None => Err ValueError end) l = Ok ds <-> l = map (@Some nat) ds).
    { induction l as [|[n|] l IH]; intros ds; cbn [mapM].
      - split; [intros [= <-]; reflexivity|destruct ds; [reflexivity|discriminate]].
      - cbn [bind]. destruct (mapM _ l) as [ds'|e] eqn:M; cbn [bind].
        + split; [intros [= <-]; cbn [map]; f_equal; apply IH; reflexivity|]. destruct ds as [|d ds]; [discriminate|]. cbn [map]. intros [= -> H]. apply IH in H. injection H as ->. reflexivity.
        + split; [discriminate|]. destruct ds as [|d ds]; [discriminate|]. cbn [map]. intros [= -> H]. apply IH in H. discriminate H.
      - cbn [bind]. split; [discriminate|destruct ds; discriminate]. }
    destruct (mapM _ (tl dims)) as [ds|e] eqn:M; cbn [bind].
    - apply MM in M. split; [intros [= <-]; exists ds; auto|]. intros (ds' & E & ->). rewrite M in E. f_equal. f_equal. clear - E. revert ds' E. induction ds as [|d ds IH]; intros [|d' ds'] E; try discriminate; [reflexivity|]. cbn [map] in E. injection E as -> E. f_equal. apply IH, E.
    - split; [discriminate|]. intros (ds & E & _). apply MM in E. rewrite E in M. discriminate M. }
  unfold input_specs_to_tensor_representations. induction specs as [|[n s] specs IH]; intros reps; cbn [mapM fst snd].
  - split; [intros [= <-]; constructor|intros F; inversion F; reflexivity].
  - pose proof (O n s) as On. destruct (representation_of n s) as [r|e]; cbn [bind].
    + destruct (mapM _ specs) as [rs|e]; cbn [bind].
      * split; [intros [= <-]; constructor; [split; [reflexivity|apply On; reflexivity]|apply IH; reflexivity]|]. intros F. inversion F as [|? [n' r'] ? ? (E1 & E2) F']; subst. cbn [fst snd] in *. subst n'. apply On in E2. injection E2 as ->. apply IH in F'. injection F' as ->. reflexivity.
      * split; [discriminate|]. intros F. inversion F as [|? ? ? ? _ F']; subst. apply IH in F'. discriminate F'.
    + split; [discriminate|]. intros F. inversion F as [|? [n' r'] ? ? (E1 & E2) F']; subst. cbn [fst snd] in *. apply On in E2. discriminate E2.
Qed.

Lemma C278_unknown_sizes_pf :
  forall specs name dims, In (name, DenseSpec dims) specs -> (forall ds, dims <> Some ds \/ In None (tl ds)) ->
    input_specs_to_tensor_representations specs = Err ValueError.
Proof.
  intros specs name dims I0 H. destruct (input_specs_to_tensor_representations specs) as [reps|e] eqn:E.
  - exfalso. apply C278_representations_pf in E. induction E as [|s r ss rs (E1 & E2) F IH]; [destruct I0|]. destruct I0 as [->|I0]; [|apply IH, I0]. cbn [fst snd spec_fits] in E2. destruct dims as [dims|]; [|exact E2]. destruct E2 as (ds & E2 & _).
    destruct (H dims) as [H'|H']; [apply H'; reflexivity|]. rewrite E2 in H'. apply in_map_iff in H'. destruct H' as (x & D & _). discriminate D.
  - assert (X : forall n s e', representation_of n s = Err e' -> e' = ValueError).
    { intros n s e'. destruct s as [[ds|]|?|?]; cbn [representation_of]; try congruence. destruct (mapM _ (tl ds)) as [r|e''] eqn:M; cbn [bind]; [congruence|]. intros [= <-]. revert M. generalize (tl ds). clear. intros l. induction l as [|[n|] l IH]; cbn [mapM bind]; [discriminate| |congruence]. destruct (mapM _ l) as [r|e]; cbn [bind]; [discriminate|]. intros [= ->]. apply IH. reflexivity. }
    unfold input_specs_to_tensor_representations in E. clear I0 H. induction specs as [|[n s] specs IH]; [discriminate E|]. cbn [mapM fst snd] in E. destruct (representation_of n s) as [r|e'] eqn:R; cbn [bind] in E.
    + destruct (mapM _ specs) as [rs|e']; [discriminate E|]. cbn [bind] in E. injection E as ->. apply IH. reflexivity.
    + injection E as <-. rewrite (X n s e' R). reflexivity.
Qed.

Lemma C278_sparse_rank_refuted_pf :
  exists specs reps f dims t, specs = [("a", SparseSpec (Some dims))] /\ length dims = 3 /\ input_specs_to_tensor_representations specs = Ok reps /\
    record_batch_to_tensor_values (V := nat) (fun _ _ _ => Err ValueError) [("a", [Some [1; 2]])] reps = Ok f /\ dget String.eqb f "a" = Some (Values (VVarLen t)) /\ length (vl_shape t) = 2.
Proof.
  exists [("a", SparseSpec (Some [None; Some 2; Some 2]))], [("a", VarLenRep "a")]. eexists. exists [None; Some 2; Some 2]. eexists. split; [reflexivity|]. split; [reflexivity|]. split; [reflexivity|]. split; [reflexivity|]. split; reflexivity.
Qed.

Lemma C279_inputs_pf :
  forall (V : Type) (known : V -> bool) sparse_of (b : record_batch (V := V)) (inputs : list (string * list nat)) specs,
    NoDup (map fst b) -> NoDup (map fst inputs) -> inputs <> [] -> specs = map (fun nd => (fst nd, DenseSpec (Some (None :: map Some (snd nd))))) inputs ->
    (forall name dims, In (name, dims) inputs -> exists c, In (name, c) b /\
       forall o, In o c -> exists l, o = Some l /\ length l = product dims /\ forall x, In x l -> known x = true) ->
    exists reps f, input_specs_to_tensor_representations specs = Ok reps /\ record_batch_to_tensor_values sparse_of b reps = Ok f /\
      forall values, (forall name v, dget String.eqb f name = Some (Values v) -> dget String.eqb values name = Some (Leaf v)) ->
        exists t, to_tensorflow_tensors known (Dict values) (Some (Dict (map (fun ns => (fst ns, Leaf (snd ns))) specs))) = Ok (Dict t) /\
          map fst t = map fst inputs /\
          forall name dims c, In (name, dims) inputs -> In (name, c) b -> exists a, dget String.eqb t name = Some (Leaf (TDense a)) /\
            shape a = length c :: dims /\ length (items a) = length c * product dims /\
            forall i j, i < length c -> j < product dims -> nth_error (items a) (i * product dims + j) = value_at c i j.
Proof.
  intros V known sparse_of b inputs specs N NI NE -> H. set (reps := map (fun nd : string * list nat => (fst nd, DenseRep (fst nd) (snd nd))) inputs).
  assert (HC : forall name dims c, In (name, dims) inputs -> In (name, c) b -> forall o, In o c -> exists l, o = Some l /\ length l = product dims /\ forall x, In x l -> known x = true).
  { intros name dims c I0 IC. destruct (H name dims I0) as (c' & IC' & R). assert (GA : dget String.eqb b name = Some c) by (apply (dget_In_NoDup _ String.eqb_eq); assumption). assert (GB : dget String.eqb b name = Some c') by (apply (dget_In_NoDup _ String.eqb_eq); assumption). assert (c = c') by congruence. subst c'. exact R. }
  assert (KR : map fst reps = map fst inputs) by (unfold reps; rewrite map_map; reflexivity).
  assert (AD : forall name dims c, In (name, dims) inputs -> In (name, c) b -> adapt sparse_of b (DenseRep name dims) = Ok (VDense (Arr (length c :: dims) (flat_map present c)))).
  { intros name dims c I0 IC. apply adapt_dense; [apply (dget_In_NoDup _ String.eqb_eq); assumption|]. apply Forall_forall. intros o IO. destruct (HC name dims c I0 IC o IO) as (l & E1 & E2 & _). exists l. auto. }
  assert (OKF : is_ok (record_batch_to_tensor_values sparse_of b reps) = true).
  { apply features_ok; [exact N|]. intros n r I0 _. unfold reps in I0. apply in_map_iff in I0. destruct I0 as ([name dims] & [= <- <-] & I0). cbn [fst snd]. destruct (H name dims I0) as (c & IC & _). rewrite (AD name dims c I0 IC). reflexivity. }
  destruct (record_batch_to_tensor_values sparse_of b reps) as [f|] eqn:EF; [|discriminate OKF]. exists reps, f. split.
  { apply C278_representations_pf. unfold reps. clear. induction inputs as [|[n d] l IH]; cbn [map]; constructor; [|exact IH]. cbn [fst snd spec_fits]. split; [reflexivity|]. exists d. auto. }
  split; [exact EF|]. intros values HV.
  assert (NR : NoDup (map fst reps)) by (rewrite KR; exact NI). destruct (features_inv sparse_of b reps f N NR EF) as (NF & K & _ & U).
  assert (GV : forall name dims c, In (name, dims) inputs -> In (name, c) b -> dget String.eqb values name = Some (Leaf (VDense (Arr (length c :: dims) (flat_map present c))))).
  { intros name dims c I0 IC. apply HV. assert (IR : In (name, DenseRep name dims) reps) by (unfold reps; apply in_map_iff; exists (name, dims); auto).
    destruct (U name (DenseRep name dims)) as (v & A & I1).
    - apply in_or_app. left. apply in_flat_map. exists (name, c). split; [exact IC|]. unfold column_representation. cbn [fst]. assert (GR : dget String.eqb reps name = Some (DenseRep name dims)) by (apply (dget_In_NoDup _ String.eqb_eq); assumption). rewrite GR. left. reflexivity.
    - rewrite (AD name dims c I0 IC) in A. injection A as <-. apply (dget_In_NoDup _ String.eqb_eq); assumption. }
  set (col name := match dget String.eqb b name with Some c => c | None => [] end).
  exists (map (fun nd => (fst nd, Leaf (TDense (Arr (length (col (fst nd)) :: snd nd) (flat_map present (col (fst nd))))))) inputs). split; [|split].
  - cbn [to_tensorflow_tensors]. rewrite map_map. cbn [fst snd].
    assert (M : mapM (fun ks => match dget String.eqb values (fst ks) with None => Err ValueError | Some x => let! t := to_tensors_of known (snd ks) x in Ok (fst ks, t) end) (map (fun nd : string * list nat => (fst nd, Leaf (DenseSpec (Some (None :: map Some (snd nd)))))) inputs) =
                Ok (map (fun nd => (fst nd, Leaf (TDense (Arr (length (col (fst nd)) :: snd nd) (flat_map present (col (fst nd))))))) inputs)).
    { rewrite mapM_map. apply mapM_all_ok. intros [name dims] I0. cbn [fst snd]. destruct (H name dims I0) as (c & IC & _).
      assert (C : col name = c) by (unfold col; assert (GB : dget String.eqb b name = Some c) by (apply (dget_In_NoDup _ String.eqb_eq); assumption); rewrite GB; reflexivity).
      rewrite C, (GV name dims c I0 IC). cbn [to_tensors_of reshape_to shape tl].
      assert (F : Forall (fun o => exists l, o = Some l /\ length l = product dims) c) by (apply Forall_forall; intros o IO; destruct (HC name dims c I0 IC o IO) as (l & E1 & E2 & _); exists l; auto).
      destruct (dense_items c (product dims) F) as (P1 & _).
      assert (CU : count_unknown (map Some dims) = 0) by (clear; unfold count_unknown; induction dims as [|d dims IH]; [reflexivity|exact IH]).
      assert (KP : known_product (map Some dims) = product dims) by (clear; unfold known_product, product; induction dims as [|d dims IH]; [reflexivity|]; cbn [map fold_right]; rewrite IH; reflexivity).
      assert (RS : reshape (Arr (length c :: dims) (flat_map present c)) (Some (length c) :: map Some dims) = Ok (Arr (length c :: dims) (flat_map present c))).
      { unfold reshape. change (count_unknown (Some (length c) :: map Some dims)) with (count_unknown (map Some dims)). change (known_product (Some (length c) :: map Some dims)) with (length c * known_product (map Some dims)).
        rewrite CU, KP. cbn [items]. rewrite P1, Nat.eqb_refl. f_equal. f_equal. cbn [map]. f_equal. rewrite map_map. apply map_id. }
      rewrite RS. cbn [bind to_tensorflow_tensor items]. assert (KN : forallb known (flat_map present c) = true).
      { apply forallb_forall. intros x Ix. apply in_flat_map in Ix. destruct Ix as (o & IO & Ix). destruct (HC name dims c I0 IC o IO) as (l & -> & _ & KL). apply KL, Ix. }
      rewrite KN. reflexivity. }
    destruct inputs as [|nd inputs]; [contradiction|]. cbn [map] in M |- *. cbn [to_tensors_of]. rewrite M. reflexivity.
  - rewrite map_map. reflexivity.
  - intros name dims c I0 IC. assert (C : col name = c) by (unfold col; assert (GB : dget String.eqb b name = Some c) by (apply (dget_In_NoDup _ String.eqb_eq); assumption); rewrite GB; reflexivity).
    exists (Arr (length c :: dims) (flat_map present c)). split; [|].
    + apply (dget_In_NoDup _ String.eqb_eq); [rewrite map_map; exact NI|]. apply in_map_iff. exists (name, dims). cbn [fst snd]. rewrite C. auto.
    + assert (F : Forall (fun o => exists l, o = Some l /\ length l = product dims) c) by (apply Forall_forall; intros o IO; destruct (HC name dims c I0 IC o IO) as (l & E1 & E2 & _); exists l; auto).
      destruct (dense_items c (product dims) F) as (P1 & P2). cbn [shape items]. auto.
Qed.
