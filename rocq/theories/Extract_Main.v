(* Proofs of the theorems restated in Extract_Properties.v. *)
From Coq Require Import String Ascii.
From Verif Require Import Base BaseFacts BeamFacts Classes_Main Keras_Main Util_Model Config_Model Config_Main Batches_Model Batches_Main Extract_Model.
Local Open Scope string_scope.
Local Open Scope list_scope.

(* C200 - C211: extractors. *)

(** The feature for an input: the one of the same name, or else the one whose name followed by
    "_input" is the input's. *)

Definition feature_for {A} (features : list (string * A)) (name : string) (v : A) : Prop :=
  dget String.eqb features name = Some v \/
  dget String.eqb features name = None /\ exists base, name = (base ++ "_input")%string /\ dget String.eqb features base = Some v.

Definition no_feature_for {A} (features : list (string * A)) (name : string) : Prop := forall v, ~ feature_for features name v.

Lemma strip_suffix_app p : forall s r, strip_suffix p s = Some r -> s = (r ++ p)%string.
Proof.
  induction s as [|c s IH]; intros r; cbn [strip_suffix].
  - destruct (String.eqb_spec "" p) as [<-|]; intros E; [injection E as <-; reflexivity|discriminate].
  - destruct (String.eqb_spec (String c s) p) as [<-|N]; intros E; [injection E as <-; reflexivity|].
    destruct (strip_suffix p s) as [t|] eqn:Q; [|discriminate]. injection E as <-. cbn. rewrite (IH t eq_refl) at 1. reflexivity.
Qed.

Lemma str_length_app (a b : string) : String.length (a ++ b) = String.length a + String.length b.
Proof. induction a as [|c a IH]; cbn; [reflexivity|]. rewrite IH. reflexivity. Qed.

Lemma strip_suffix_of p : forall r, strip_suffix p (r ++ p) = Some r.
Proof.
  induction r as [|c r IH]; cbn [String.append].
  - destruct p; cbn [strip_suffix]; rewrite String.eqb_refl; reflexivity.
  - cbn [strip_suffix]. destruct (String.eqb_spec (String c (r ++ p)) p) as [E|N].
    + exfalso. apply (f_equal String.length) in E. cbn in E. rewrite str_length_app in E. lia.
    + rewrite IH. reflexivity.
Qed.

Lemma dkeys_mem {A} (d : list (string * A)) k : memb String.eqb k (dkeys d) = true <-> exists v, dget String.eqb d k = Some v.
Proof.
  rewrite (memb_In _ String.eqb_eq). unfold dkeys. split.
  - intros I. destruct (dget String.eqb d k) as [v|] eqn:G; [eauto|]. apply (dget_None _ String.eqb_eq) in G. contradiction.
  - intros (v & G). apply in_map_iff. exists (k, v). split; [reflexivity|]. exact (dget_In _ String.eqb_eq _ _ _ G).
Qed.

Lemma find_input {A} (d : list (string * A)) name v :
  feature_for d name v <-> exists n, find_input_name_in_features (dkeys d) name = Some n /\ dget String.eqb d n = Some v.
Proof.
  unfold find_input_name_in_features, feature_for. destruct (memb String.eqb name (dkeys d)) eqn:M.
  - split.
    + intros [G|[G _]]; [exists name; auto|]. apply dkeys_mem in M. destruct M as [x X]. congruence.
    + intros (n & E & G). injection E as <-. left. exact G.
  - assert (N : dget String.eqb d name = None).
    { destruct (dget String.eqb d name) as [x|] eqn:G; [|reflexivity]. assert (memb String.eqb name (dkeys d) = true) by (apply dkeys_mem; eauto). congruence. }
    split.
    + intros [G|[_ (base & -> & G)]]; [congruence|]. unfold KERAS_INPUT_SUFFIX. rewrite strip_suffix_of.
      assert (B : memb String.eqb base (dkeys d) = true) by (apply dkeys_mem; eauto). rewrite B. exists base. auto.
    + intros (n & E & G). right. split; [exact N|]. destruct (strip_suffix KERAS_INPUT_SUFFIX name) as [b|] eqn:Q; [|discriminate].
      destruct (memb String.eqb b (dkeys d)); [|discriminate]. injection E as <-. apply strip_suffix_app in Q. exists b. auto.
Qed.

Lemma find_input_none {A} (d : list (string * A)) name : no_feature_for d name <-> find_input_name_in_features (dkeys d) name = None.
Proof.
  split.
  - intros H. destruct (find_input_name_in_features (dkeys d) name) as [n|] eqn:E; [|reflexivity]. exfalso.
    assert (X : exists v, dget String.eqb d n = Some v).
    { unfold find_input_name_in_features in E. apply dkeys_mem. destruct (memb String.eqb name (dkeys d)) eqn:M; [congruence|].
      destruct (strip_suffix _ name); [|discriminate]. destruct (memb String.eqb s (dkeys d)) eqn:B; [congruence|discriminate]. }
    destruct X as [v X]. apply (H v). apply find_input. exists n. auto.
  - intros E v F. apply find_input in F. destruct F as (n & F & _). congruence.
Qed.

Lemma feature_dec {A} (d : list (string * A)) name : (exists v, feature_for d name v) \/ no_feature_for d name.
Proof.
  destruct (find_input_name_in_features (dkeys d) name) as [n|] eqn:E.
  - left. assert (N : ~ no_feature_for d name) by (intros H; apply find_input_none in H; congruence).
    destruct (dget String.eqb d n) as [v|] eqn:G; [exists v; apply find_input; exists n; auto|].
    exfalso. unfold find_input_name_in_features in E.
    destruct (memb String.eqb name (dkeys d)) eqn:M.
    + injection E as <-. apply dkeys_mem in M. destruct M as [x X]. congruence.
    + destruct (strip_suffix _ name); [|discriminate]. destruct (memb String.eqb s (dkeys d)) eqn:B; [|discriminate]. injection E as <-. apply dkeys_mem in B. destruct B as [x X]. congruence.
  - right. apply find_input_none. exact E.
Qed.

(** The values for inputs, in order. *)

Definition named_inputs {A} (features : list (string * A)) (names : list string) (d : list (string * A)) : Prop :=
  Forall2 (fun n kv => fst kv = n /\ feature_for features n (snd kv)) names d.

Lemma dset_new {A} (d : list (string * A)) k v : ~ In k (map fst d) -> dset String.eqb d k v = d ++ [(k, v)].
Proof.
  induction d as [|[k' v'] d IH]; intros N; [reflexivity|]. cbn [dset]. destruct (String.eqb_spec k k') as [->|NE].
  - elim N. left. reflexivity.
  - cbn [app]. rewrite IH; [reflexivity|]. intros I. apply N. right. exact I.
Qed.

Lemma fold_none {A} (d : list (string * A)) names :
  fold_left (fun result name =>
           match result, find_input_name_in_features (dkeys d) name with
           | Some r, Some n => match dget String.eqb d n with Some v => Some (dset String.eqb r name v) | None => None end
           | _, _ => None
           end) names None = None.
Proof. induction names as [|n names IH]; [reflexivity|exact IH]. Qed.

Lemma fold_inputs {A} (d : list (string * A)) names : forall (acc : list (string * A)) r, NoDup (map fst acc ++ names) ->
  (fold_left (fun result name =>
           match result, find_input_name_in_features (dkeys d) name with
           | Some r, Some n => match dget String.eqb d n with Some v => Some (dset String.eqb r name v) | None => None end
           | _, _ => None
           end) names (Some acc) = Some r <-> exists t, r = acc ++ t /\ named_inputs d names t).
Proof.
  induction names as [|n names IH]; intros acc r ND; cbn [fold_left].
  - split.
    + intros E. injection E as <-. exists []. rewrite app_nil_r. split; [reflexivity|constructor].
    + intros (t & -> & F). inversion F. rewrite app_nil_r. reflexivity.
  - destruct (feature_dec d n) as [(v & F)|F].
    + pose proof (proj1 (find_input d n v) F) as (x & X1 & X2). rewrite X1, X2.
      assert (NI : ~ In n (map fst acc)) by (intros I; apply NoDup_remove_2 in ND; apply ND; apply in_or_app; left; exact I).
      rewrite dset_new by exact NI. rewrite IH.
      * split.
        -- intros (t & -> & T). exists ((n, v) :: t). rewrite <- app_assoc. split; [reflexivity|]. constructor; [split; [reflexivity|exact F]|exact T].
        -- intros (t & -> & T). inversion T as [|? [k w] ? t' [K W] T']; subst. cbn [fst snd] in *. exists t'. rewrite <- app_assoc. split; [|exact T'].
           apply find_input in W. destruct W as (y & Y1 & Y2). rewrite X1 in Y1. injection Y1 as <-. rewrite X2 in Y2. injection Y2 as <-. reflexivity.
      * rewrite map_app. cbn [map fst]. rewrite <- app_assoc. exact ND.
    + rewrite (proj1 (find_input_none d n) F). rewrite fold_none. split; [discriminate|]. intros (t & _ & T). inversion T as [|? [k w] ? t' [K W] T']; subst. elim (F w). exact W.
Qed.

Lemma get_inputs_some {V} (features d : list (string * data (leaf V))) (specs : list (string * bool)) : NoDup (map fst specs) ->
  (get_inputs features specs = Some d <-> specs <> [] /\ named_inputs features (map fst specs) d).
Proof.
  intros ND. unfold get_inputs.
  set (ser := match specs with [(name, is_string)] => _ | _ => false end).
  assert (S : ser = true -> exists n b, specs = [(n, b)] /\ no_feature_for features n).
  { unfold ser. destruct specs as [|[n b] [|]]; try discriminate. intros E. exists n, b. split; [reflexivity|]. apply find_input_none.
    destruct (find_input_name_in_features (dkeys features) n); [rewrite andb_false_r in E; discriminate|reflexivity]. }
  destruct ser.
  - destruct (S eq_refl) as (n & b & -> & F). split; [discriminate|]. intros [_ T]. inversion T as [|? [k w] ? t' [K W] T']; subst. elim (F w W).
  - assert (G : filter_by_input_names features (map fst specs) = Some d <-> specs <> [] /\ named_inputs features (map fst specs) d).
    { unfold filter_by_input_names. destruct (map fst specs) as [|n names] eqn:M.
      - destruct specs; [|discriminate]. split; [discriminate|]. intros [N _]. congruence.
      - rewrite fold_inputs by exact ND. cbn [app]. split.
        + intros (t & -> & T). split; [intros ->; discriminate|exact T].
        + intros [_ T]. exists d. auto. }
    destruct (filter_by_input_names features (map fst specs)) as [[|x t]|] eqn:Q.
    + split; [discriminate|]. intros H. exfalso. pose proof (proj2 G H) as E. injection E as <-. destruct H as [H1 H2]. destruct specs; [congruence|]. inversion H2.
    + exact G.
    + exact G.
Qed.

Lemma named_or_not {A} (features : list (string * A)) (names : list string) :
  (exists d, named_inputs features names d) \/ exists n, In n names /\ no_feature_for features n.
Proof.
  induction names as [|n names IH].
  - left. exists []. constructor.
  - destruct (feature_dec features n) as [(v & F)|F]; [|right; exists n; split; [left; reflexivity|exact F]].
    destruct IH as [(d & D)|(m & I & M)].
    + left. exists ((n, v) :: d). constructor; [split; [reflexivity|exact F]|exact D].
    + right. exists m. split; [right; exact I|exact M].
Qed.

Lemma C200_inputs_are_named_features_pf : forall (V : Type) (features d : list (string * data (leaf V))) (specs : list (string * bool)), NoDup (map fst specs) ->
  (get_inputs features specs = Some d <-> specs <> [] /\ named_inputs features (map fst specs) d).
Proof. intros V features d specs ND. apply get_inputs_some. exact ND. Qed.

Lemma C200_examples_otherwise_pf : forall (V : Type) (features : list (string * data (leaf V))) (specs : list (string * bool)), NoDup (map fst specs) ->
  (get_inputs features specs = None <-> specs = [] \/ exists n, In n (map fst specs) /\ no_feature_for features n).
Proof.
  intros V features specs ND. split.
  - intros E. destruct specs as [|s specs]; [left; reflexivity|]. right. destruct (named_or_not features (map fst (s :: specs))) as [(d & D)|H]; [|exact H].
    assert (X : get_inputs features (s :: specs) = Some d) by (apply get_inputs_some; [exact ND|split; [discriminate|exact D]]). congruence.
  - intros H. destruct (get_inputs features specs) as [d|] eqn:E; [|reflexivity]. exfalso. apply get_inputs_some in E; [|exact ND]. destruct E as [N T].
    destruct H as [H|(n & I & F)]; [contradiction|]. destruct (Forall2_In_l _ _ _ n T I) as ([k w] & _ & K & W). elim (F w W).
Qed.

(** The function of a model with a name: a signature, or else an attribute. *)

Definition function_of {V} (m : @model V) (name : string) (f : @found V) : Prop :=
  exists sigs, md_signatures m = Some sigs /\
    match dget String.eqb sigs name with
    | Some s => f = FoundSignature s
    | None => exists l, dget String.eqb (md_layers m) name = Some l /\ f = FoundLayer l
    end.

(** The inputs it has names for. *)

Definition input_names {V} (f : @found V) : list string :=
  match f with
  | FoundSignature s => match sg_specs s with Some l => map fst l | None => [] end
  | FoundLayer l => map fst (ly_specs l)
  end.

Definition called_with {V} (f : @found V) (x : @call_input V) : res (@call_output V) :=
  match f with FoundSignature s => sg_call s x | FoundLayer l => ly_call l x end.

(** What it is called with: its inputs by name if there is a feature for each, or else the
    serialized examples. *)

Definition given {V} (features : list (string * data (leaf V))) (xs : list V) (f : @found V) (x : @call_input V) : Prop :=
  match x with
  | Keywords d => (exists s, f = FoundSignature s) /\ input_names f <> [] /\ named_inputs features (input_names f) d
  | Dictionary d => (exists l, f = FoundLayer l) /\ input_names f <> [] /\ named_inputs features (input_names f) d
  | Positional _ => False
  | Examples l => l = xs /\ (input_names f = [] \/ exists n, In n (input_names f) /\ no_feature_for features n)
  end.

(** Its outputs by name: each has one row per example. *)

Definition outputs_by_name {V} (n : nat) (name : string) (out : @call_output V) (o : list (string * arr V)) : Prop :=
  o = match out with Tensor a => [(name, a)] | Tensors l => l end /\ Forall (fun ka => hd_error (shape (snd ka)) = Some n) o.

Lemma check_shape_ok {V} n (a : arr V) : check_shape (Some n) a = Ok tt <-> hd_error (shape a) = Some n.
Proof.
  unfold check_shape. destruct (shape a) as [|m s]; [split; discriminate|]. cbn [hd_error]. destruct (Nat.eqb_spec m n) as [->|N].
  - split; reflexivity.
  - split; [discriminate|]. intros E. injection E as ->. congruence.
Qed.

Lemma mapM_check {V} n (l : list (string * arr V)) :
  (exists u, mapM (fun kv => check_shape (Some n) (snd kv)) l = Ok u) <-> Forall (fun ka => hd_error (shape (snd ka)) = Some n) l.
Proof.
  induction l as [|x l IH]; cbn [mapM].
  - split; [constructor|]. intros _. eexists. reflexivity.
  - destruct (check_shape (Some n) (snd x)) as [[]|e] eqn:C; cbn [bind].
    + apply check_shape_ok in C. destruct (mapM _ l) as [u|e] eqn:M; cbn [bind].
      * split; [|intros _; eexists; reflexivity]. intros _. constructor; [exact C|]. apply IH. eexists. reflexivity.
      * split; [intros (u & U); discriminate|]. intros F. inversion F; subst. destruct (proj2 IH H2) as (u & U). discriminate.
    + split; [intros (u & U); discriminate|]. intros F. inversion F; subst. apply check_shape_ok in H1. congruence.
Qed.

Lemma to_dense_ok {V} n name (out : @call_output V) o : to_dense_outputs out (Some n) name = Ok o <-> outputs_by_name n name out o.
Proof.
  unfold to_dense_outputs, outputs_by_name. destruct out as [a|l].
  - destruct (check_shape (Some n) a) as [[]|e] eqn:C; cbn [bind].
    + apply check_shape_ok in C. split.
      * intros E. injection E as <-. split; [reflexivity|]. repeat constructor. exact C.
      * intros [-> _]. reflexivity.
    + split; [discriminate|]. intros [-> F]. inversion F; subst. cbn [snd] in H1. apply check_shape_ok in H1. congruence.
  - pose proof (mapM_check n l) as M. destruct (mapM _ l) as [u|e]; cbn [bind].
    + split; [|intros [-> _]; reflexivity]. intros E. injection E as <-. split; [reflexivity|]. apply M. eexists. reflexivity.
    + split; [discriminate|]. intros [-> F]. apply M in F. destruct F as (u & U). discriminate.
Qed.

Definition chosen {V} (features : list (string * data (leaf V))) (f : @found V) : option (list (string * data (leaf V))) :=
  match f with
  | FoundSignature s => match sg_specs s with Some (a :: t) => get_inputs features (a :: t) | _ => None end
  | FoundLayer l => match ly_specs l with a :: t => get_inputs features (a :: t) | [] => None end
  end.

Lemma given_call {V} (features : list (string * data (leaf V))) xs f : NoDup (input_names f) ->
  exists x, given features xs f x /\
    (forall y, given features xs f y -> y = x) /\
    match (chosen features f) with
    | Some d => x = match f with FoundSignature _ => Keywords d | FoundLayer _ => Dictionary d end
    | None => x = Examples xs
    end.
Proof.
  intros ND.
  assert (SP : exists specs, input_names f = map fst specs /\
    (chosen features f) = get_inputs features specs).
  { destruct f as [s|l]; cbn [input_names chosen].
    - destruct (sg_specs s) as [sp|]; [exists sp|exists []]; (split; [reflexivity|]); [destruct sp|]; reflexivity.
    - exists (ly_specs l). split; [reflexivity|]. destruct (ly_specs l); reflexivity. }
  destruct SP as (specs & N & ->). rewrite N in ND. destruct (get_inputs features specs) as [d|] eqn:G.
  - pose proof (proj1 (get_inputs_some _ _ _ ND) G) as [NE T].
    assert (U : forall d', named_inputs features (map fst specs) d' -> d' = d).
    { intros d' T'. assert (X : get_inputs features specs = Some d') by (apply get_inputs_some; auto). congruence. }
    assert (NN : map fst specs <> []) by (intros E; apply map_eq_nil in E; contradiction).
    assert (NX : ~ (map fst specs = [] \/ exists n, In n (map fst specs) /\ no_feature_for features n)).
    { intros H. destruct H as [H|(n & I & F)]; [contradiction|]. destruct (Forall2_In_l _ _ _ n T I) as ([k w] & _ & K & W). elim (F w W). }
    exists (match f with FoundSignature _ => Keywords d | FoundLayer _ => Dictionary d end). split; [|split; [|reflexivity]].
    + destruct f; cbn [given]; rewrite N; (split; [eexists; reflexivity|split; assumption]).
    + intros y Y. destruct y as [d'|d'|p|l]; cbn [given] in Y; try rewrite N in Y.
      * destruct Y as [(s & ->) [_ Y]]. rewrite (U d' Y). reflexivity.
      * destruct Y as [(s & ->) [_ Y]]. rewrite (U d' Y). reflexivity.
      * destruct Y.
      * destruct Y as [_ Y]. contradiction.
  - apply C200_examples_otherwise_pf in G; [|exact ND].
    assert (NT : forall d', map fst specs <> [] -> named_inputs features (map fst specs) d' -> False).
    { intros d' NE T. destruct G as [->|(n & I & F)]; [elim NE; reflexivity|]. destruct (Forall2_In_l _ _ _ n T I) as ([k w] & _ & K & W). elim (F w W). }
    exists (Examples xs). split; [|split; [|reflexivity]].
    + cbn [given]. rewrite N. split; [reflexivity|]. destruct G as [->|G]; [left; reflexivity|right; exact G].
    + intros y Y. destruct y as [d'|d'|p|l]; cbn [given] in Y; try rewrite N in Y.
      * destruct Y as [_ [A B]]. elim (NT d' A B).
      * destruct Y as [_ [A B]]. elim (NT d' A B).
      * destruct Y.
      * destruct Y as [-> _]. reflexivity.
Qed.

Lemma call_errors_ok {A} (r : res A) x : call_errors r = Ok x <-> r = Ok x.
Proof. destruct r as [a|[]]; cbn [call_errors]; split; congruence. Qed.

Section Runs.
  Context {V : Type} (pre : list (string * @preprocessing_fn V)).
  Implicit Types (features : list (string * data (leaf V))) (xs : list V) (m : @model V) (f : @found V).

  Lemma callable_of m name f req : name <> "" -> function_of m name f ->
    get_callable m name req = Ok (Some f) /\
    get_input_specs m name req = Ok (match f with FoundSignature s => sg_specs s | FoundLayer l => Some (ly_specs l) end).
  Proof.
    intros NE (sigs & S & H). unfold get_callable, get_input_specs. rewrite S.
    assert (B : set_str name = true) by (destruct name; [congruence|reflexivity]). rewrite B.
    destruct (dget String.eqb sigs name) as [s|].
    - subst f. split; reflexivity.
    - destruct H as (l & H & ->). rewrite H. split; reflexivity.
  Qed.

  (** The call and what becomes of its result. *)
  Definition runs features xs n (f : found) (label : string) o : Prop :=
    exists x out, given features xs f x /\ called_with f x = Ok out /\ outputs_by_name n label out o.

  Lemma finish features xs n f (d : option (list (string * data (leaf V)))) label o : NoDup (input_names f) ->
    (chosen features f) = d ->
    ((let! outputs := call_errors (match d with Some d => call_named (OfModel f) d | None => call_examples (OfModel f) xs end) in
      let! o := to_dense_outputs outputs (Some n) label in Ok (Some o)) = Ok (Some o) <-> runs features xs n f label o).
  Proof.
    intros ND E. destruct (given_call features xs f ND) as (x & G & U & X). rewrite E in X.
    assert (C : (match d with Some d => call_named (OfModel f) d | None => call_examples (OfModel f) xs end) = called_with f x).
    { destruct d as [d|]; rewrite X; destruct f; reflexivity. }
    rewrite C. unfold runs. split.
    - intros H. destruct (call_errors (called_with f x)) as [out|e] eqn:CE; cbn [bind] in H; [|discriminate]. apply (proj1 (call_errors_ok _ _)) in CE.
      destruct (to_dense_outputs out (Some n) label) as [o'|e] eqn:T; cbn [bind] in H; [|discriminate]. injection H as <-. apply to_dense_ok in T. exists x, out. auto.
    - intros (y & out & Gy & Cy & Oy). rewrite (U y Gy) in Cy. rewrite (proj2 (call_errors_ok _ out) Cy). cbn [bind]. rewrite (proj2 (to_dense_ok _ _ _ _) Oy). reflexivity.
  Qed.
  Lemma inputs_of_found features f :
    match (match f with FoundSignature s => sg_specs s | FoundLayer l => Some (ly_specs l) end) with Some (x :: t) => get_inputs features (x :: t) | _ => None end =
    (chosen features f).
  Proof. destruct f; reflexivity. Qed.

  Lemma run_named m name f features xs n req o : has_at name = false -> name <> "" -> function_of m name f -> NoDup (input_names f) ->
    (run_signature pre m features (Some xs) (Some n) req name = Ok (Some o) <-> runs features xs n f name o).
  Proof.
    intros HA NE FO ND. destruct (callable_of m name f req NE FO) as [C I]. unfold run_signature. rewrite HA. cbn [bind fst snd]. rewrite I. cbn [bind].
    rewrite inputs_of_found. assert (B : set_str name = true) by (destruct name; [congruence|reflexivity]).
    destruct (chosen features f) as [d|] eqn:E.
    - cbn [bind]. rewrite C. cbn [bind]. pose proof (finish features xs n f (Some d) name o ND E) as FI. cbn [bind] in FI. exact FI.
    - rewrite B. cbn [bind]. rewrite C. cbn [bind]. pose proof (finish features xs n f None name o ND E) as FI. cbn [bind] in FI. exact FI.
  Qed.

End Runs.

(** Names without @. *)

Definition plain (name : string) : Prop := ~ In "@"%char (list_ascii_of_string name).

Lemma split_plain sep s : ~ In sep (list_ascii_of_string s) -> split_at sep s = [s].
Proof.
  induction s as [|c s IH]; intros N; [reflexivity|]. cbn [list_ascii_of_string] in N. cbn [split_at]. rewrite IH by (intros I; apply N; right; exact I).
  destruct (Ascii.eqb_spec c sep) as [->|NE]; [elim N; left; reflexivity|reflexivity].
Qed.

Lemma plain_no_at name : plain name -> has_at name = false.
Proof. intros P. unfold has_at. rewrite (split_plain _ _ P). reflexivity. Qed.

Lemma C201_named_function_pf : forall (V : Type) pre (m : @model V) name f features xs n required o,
  plain name -> name <> "" -> function_of m name f -> NoDup (input_names f) ->
  (run_signature pre m features (Some xs) (Some n) required name = Ok (Some o) <->
   exists x out, given features xs f x /\ called_with f x = Ok out /\ outputs_by_name n name out o).
Proof. intros V pre m name f features xs n req o HA NE FO ND. apply run_named; try assumption. apply plain_no_at. exact HA. Qed.

Definition default_name {V} (m : @model V) (name : string) : Prop :=
  match md_signatures m with
  | Some sigs => if in_dec string_dec "predict" (map fst sigs) then name = "predict" else name = "serving_default"
  | None => name = "serving_default"
  end.

Lemma default_name_ok {V} (m : @model V) : default_name m (get_default_signature_name_from_model m).
Proof.
  unfold default_name, get_default_signature_name_from_model. destruct (md_signatures m) as [sigs|]; [|reflexivity].
  destruct (in_dec string_dec "predict" (map fst sigs)) as [I|N].
  - apply (dmem_In _ String.eqb_eq) in I. rewrite I. reflexivity.
  - apply (dmem_false _ String.eqb_eq) in N. rewrite N. reflexivity.
Qed.

Lemma default_name_is {V} (m : @model V) name : default_name m name -> name = get_default_signature_name_from_model m.
Proof.
  pose proof (default_name_ok m) as D. unfold default_name in *. destruct (md_signatures m) as [sigs|]; [|congruence].
  destruct (in_dec string_dec "predict" (map fst sigs)); congruence.
Qed.

Lemma default_no_at {V} (m : @model V) name : default_name m name -> name <> "" /\ has_at name = false.
Proof. unfold default_name. destruct (md_signatures m) as [sigs|]; [destruct (in_dec string_dec "predict" (map fst sigs))|]; intros ->; split; (discriminate || reflexivity). Qed.

Lemma C201_default_signature_pf : forall (V : Type) pre (m : @model V) name f features xs n required o,
  md_self m = None -> default_name m name -> function_of m name f -> NoDup (input_names f) ->
  (run_signature pre m features (Some xs) (Some n) required "" = Ok (Some o) <->
   exists x out label, given features xs f x /\ called_with f x = Ok out /\ outputs_by_name n label out o /\
     label = match x with Examples _ => name | _ => "" end).
Proof.
  intros V pre m name f features xs n req o SF DN FO ND. destruct (default_no_at m name DN) as [NE HA]. pose proof (default_name_is m name DN) as DE.
  destruct (callable_of m name f req NE FO) as [C I]. unfold run_signature. cbn [has_at split_at length Nat.ltb Nat.leb bind fst snd].
  assert (I0 : get_input_specs m "" req = get_input_specs m name req).
  { unfold get_input_specs. rewrite SF. cbn [set_str]. rewrite <- DE. destruct name; [congruence|]. reflexivity. }
  assert (C0 : get_callable m "" req = get_callable m name req).
  { unfold get_callable. rewrite SF. cbn [set_str]. rewrite <- DE. destruct name; [congruence|]. reflexivity. }
  rewrite I0, I. cbn [bind]. rewrite inputs_of_found.
  destruct (given_call features xs f ND) as (x & G & U & X).
  destruct (chosen features f) as [d|] eqn:E.
  - cbn [bind]. rewrite C0, C. cbn [bind]. pose proof (finish features xs n f (Some d) "" o ND E) as FI. cbn [bind] in FI.
    rewrite FI. unfold runs. split.
    + intros (y & out & Gy & H1 & H2). exists y, out, "". split; [exact Gy|]. split; [exact H1|]. split; [exact H2|]. rewrite (U y Gy), X. destruct f; reflexivity.
    + intros (y & out & lb & Gy & H1 & H2 & H3). exists y, out. rewrite (U y Gy), X in H3. replace lb with "" in H2 by (destruct f; congruence). auto.
  - change (set_str "") with false. cbv iota. cbn [bind]. rewrite <- DE, C. cbn [bind]. pose proof (finish features xs n f None name o ND E) as FI. cbn [bind] in FI.
    rewrite FI. unfold runs. split.
    + intros (y & out & Gy & H1 & H2). exists y, out, name. split; [exact Gy|]. split; [exact H1|]. split; [exact H2|]. rewrite (U y Gy), X. reflexivity.
    + intros (y & out & lb & Gy & H1 & H2 & H3). exists y, out. rewrite (U y Gy), X in H3. subst lb. auto.
Qed.

Lemma C201_callable_model_pf : forall (V : Type) pre (m : @model V) l features d xs n required o,
  md_self m = Some l -> NoDup (map fst (ly_specs l)) -> ly_specs l <> [] -> named_inputs features (map fst (ly_specs l)) d ->
  (run_signature pre m features (Some xs) (Some n) required "" = Ok (Some o) <->
   exists out, ly_call l (Dictionary d) = Ok out /\ outputs_by_name n "" out o).
Proof.
  intros V pre m l features d xs n req o SF ND NE T. unfold run_signature. cbn [has_at split_at length Nat.ltb Nat.leb bind fst snd].
  assert (G : get_inputs features (ly_specs l) = Some d) by (apply get_inputs_some; auto).
  assert (I0 : get_input_specs m "" req = Ok (Some (ly_specs l))) by (unfold get_input_specs; rewrite SF; destruct (md_signatures m); reflexivity).
  assert (C0 : get_callable m "" req = Ok (Some (FoundLayer l))) by (unfold get_callable; rewrite SF; destruct (md_signatures m); reflexivity).
  rewrite I0. cbn [bind]. destruct (ly_specs l) as [|a t] eqn:L; [congruence|]. rewrite G. cbn [bind]. rewrite C0. cbn [bind call_named]. split.
  - intros H. destruct (call_errors (ly_call l (Dictionary d))) as [out|e] eqn:CE; cbn [bind] in H; [|discriminate]. apply (proj1 (call_errors_ok _ _)) in CE.
    destruct (to_dense_outputs out (Some n) "") as [o'|e] eqn:D; cbn [bind] in H; [|discriminate]. injection H as <-. apply to_dense_ok in D. exists out. auto.
  - intros (out & H1 & H2). rewrite (proj2 (call_errors_ok _ out) H1). cbn [bind]. rewrite (proj2 (to_dense_ok _ _ _ _) H2). reflexivity.
Qed.

Lemma C201_callable_model_on_examples_pf : forall (V : Type) pre (m : @model V) l name f features k xs n required o,
  md_self m = Some l -> NoDup (map fst (ly_specs l)) -> In k (map fst (ly_specs l)) -> no_feature_for features k ->
  default_name m name -> function_of m name f ->
  (run_signature pre m features (Some xs) (Some n) required "" = Ok (Some o) <->
   exists out, called_with f (Examples xs) = Ok out /\ outputs_by_name n name out o).
Proof.
  intros V pre m l name f features k xs n req o SF ND IK NF DN FO. destruct (default_no_at m name DN) as [NE HA]. pose proof (default_name_is m name DN) as DE.
  destruct (callable_of m name f req NE FO) as [C _]. unfold run_signature. cbn [has_at split_at length Nat.ltb Nat.leb bind fst snd].
  assert (G : get_inputs features (ly_specs l) = None) by (apply C200_examples_otherwise_pf; [exact ND|right; exists k; auto]).
  assert (I0 : get_input_specs m "" req = Ok (Some (ly_specs l))) by (unfold get_input_specs; rewrite SF; destruct (md_signatures m); reflexivity).
  rewrite I0. cbn [bind]. destruct (ly_specs l) as [|a t] eqn:L; [destruct IK|]. rewrite G. change (set_str "") with false. cbv iota. cbn [bind]. rewrite <- DE, C. cbn [bind].
  assert (CE : call_examples (OfModel f) xs = called_with f (Examples xs)) by (destruct f; reflexivity). rewrite CE. split.
  - intros H. destruct (call_errors (called_with f (Examples xs))) as [out|e] eqn:Q; cbn [bind] in H; [|discriminate]. apply (proj1 (call_errors_ok _ _)) in Q.
    destruct (to_dense_outputs out (Some n) name) as [o'|e] eqn:D; cbn [bind] in H; [|discriminate]. injection H as <-. apply to_dense_ok in D. exists out. auto.
  - intros (out & H1 & H2). rewrite (proj2 (call_errors_ok _ out) H1). cbn [bind]. rewrite (proj2 (to_dense_ok _ _ _ _) H2). reflexivity.
Qed.

Lemma C201_missing_function_pf : forall (V : Type) pre (m : @model V) sigs name features xs n required,
  plain name -> name <> "" -> md_signatures m = Some sigs -> ~ In name (map fst sigs) -> ~ In name (map fst (md_layers m)) ->
  run_signature pre m features (Some xs) n required name = if required then Err ValueError else Ok None.
Proof.
  intros V pre m sigs name features xs n req HA NE S N1 N2. unfold run_signature. rewrite (plain_no_at name HA). cbn [bind fst snd].
  assert (B : set_str name = true) by (destruct name; [congruence|reflexivity]).
  apply (dget_None _ String.eqb_eq) in N1, N2.
  unfold get_input_specs, get_callable. rewrite S, B, N1, N2. destruct req; [reflexivity|]. cbn [bind]. rewrite B. cbn [bind]. rewrite N1, N2. reflexivity.
Qed.

Definition sum_of (l : list nat) : nat := fold_right plus 0 l.

(** A model that adds the values of x and y, whose signatures count examples. *)

Definition adder : @layer nat :=
  Layer [("x", false); ("y", false)]
    (fun x => match x with Dictionary [(_, Leaf (Dense a)); (_, Leaf (Dense b))] => Ok (Tensor (Arr (shape a) (map (fun p => fst p + snd p) (combine (items a) (items b))))) | _ => Err TypeError end).

Definition echo (k : nat) : @signature nat :=
  Signature (Some [("examples", true)]) (fun x => match x with Examples l => Ok (Tensors [("out", Arr [length l] (map (plus k) l))]) | _ => Err TypeError end).

Definition sample_model : @model nat := Model (Some [("serving_default", echo 100); ("other", echo 200)]) [("adder", adder)] (Some adder).

Definition sample_features : list (string * data (leaf nat)) := [("x", Leaf (Dense (Arr [2] [1; 2]))); ("y", Leaf (Dense (Arr [2] [3; 4])))].

Lemma C201_no_examples_pf : forall (V : Type) pre (f : @signatures_fn V) e n features mn m models name names g,
  sf_models f = (mn, m) :: models -> dget String.eqb (sf_signature_names f) mn = Some (name :: names) ->
  batch_size (Dict e) = Ok n -> dget String.eqb e "features" = Some (Dict features) -> dget String.eqb e "input" = Some (Leaf PyNone) ->
  plain name -> name <> "" -> function_of m name g -> NoDup (input_names g) ->
  input_names g = [] \/ (exists k, In k (input_names g) /\ no_feature_for features k) ->
  run_models pre f e = Err AssertionError.
Proof.
  intros V pre f e n features mn m models name names g M S B F I HA NE FO ND NI. unfold run_models, outputs_per_model. rewrite B. cbn [bind].
  unfold get_features_from_extracts, FEATURES_KEY. rewrite F. cbn [bind]. unfold get_serialized_examples, INPUT_KEY. rewrite I, M. cbn [bind foldM fst snd].
  unfold names_to_run. rewrite S. cbn [bind foldM fst snd]. destruct (callable_of m name g true NE FO) as [C IS]. unfold run_signature. rewrite (plain_no_at name HA). cbn [bind fst snd].
  rewrite IS. cbn [bind]. rewrite inputs_of_found. assert (CH : chosen features g = None).
  { destruct (chosen features g) as [d|] eqn:E; [|reflexivity]. exfalso. unfold chosen, input_names in *. destruct g as [s|l].
    - destruct (sg_specs s) as [[|x t]|]; try discriminate E. destruct NI as [NI|NI]; [discriminate NI|]. rewrite (proj2 (C200_examples_otherwise_pf V features (x :: t) ND)) in E by (right; exact NI). discriminate E.
    - destruct (ly_specs l) as [|x t]; [discriminate E|]. destruct NI as [NI|NI]; [discriminate NI|]. rewrite (proj2 (C200_examples_otherwise_pf V features (x :: t) ND)) in E by (right; exact NI). discriminate E. }
  rewrite CH. reflexivity.
Qed.

(** A single output is stored as such, several by name. *)

Definition stored {V} (o : list (string * arr V)) : data (leaf V) :=
  match o with [(_, a)] => Leaf (Dense a) | _ => Dict (map (fun ka => (fst ka, Leaf (Dense (snd ka)))) o) end.

(** A batch of [n] examples with their features and serialized examples. *)

Definition holds {V} (e : list (string * data (leaf V))) (n : nat) (features : list (string * data (leaf V))) (xs : list V) : Prop :=
  batch_size (Dict e) = Ok (Some n) /\
  (dget String.eqb e "features" = Some (Dict features) \/ dget String.eqb e "features" = None /\ features = []) /\
  exists s, dget String.eqb e "input" = Some (Leaf (Dense (Arr s xs))).

Lemma holds_features {V} (e : list (string * data (leaf V))) n fs xs : holds e n fs xs -> get_features_from_extracts e = Ok fs.
Proof. intros (_ & [H|[H ->]] & _); unfold get_features_from_extracts, FEATURES_KEY; rewrite H; reflexivity. Qed.

Lemma holds_examples {V} (e : list (string * data (leaf V))) n fs xs : holds e n fs xs -> get_serialized_examples e = Ok (Some xs).
Proof. intros (_ & _ & s & H). unfold get_serialized_examples, INPUT_KEY. rewrite H. reflexivity. Qed.

Lemma fold_dset_new {A B} (k : A -> string) (v : A -> B) (l : list A) : forall acc, NoDup (map k l) -> (forall x, In x l -> ~ In (k x) (map fst acc)) ->
  fold_left (fun d x => dset String.eqb d (k x) (v x)) l acc = acc ++ map (fun x => (k x, v x)) l.
Proof.
  induction l as [|x l IH]; intros acc ND H; cbn [fold_left map]; [rewrite app_nil_r; reflexivity|].
  rewrite dset_new by (apply H; left; reflexivity). inversion ND as [|? ? N1 N2]; subst. rewrite IH; [rewrite <- app_assoc; reflexivity|exact N2|].
  intros y I. rewrite map_app. cbn [map fst]. rewrite in_app_iff. intros [J|[J|[]]].
  - exact (H y (or_intror I) J).
  - apply N1. rewrite J. apply in_map. exact I.
Qed.

Lemma dupdate_new {A} (o : list (string * A)) : forall acc, NoDup (map fst o) -> (forall x, In x (map fst o) -> ~ In x (map fst acc)) -> dupdate String.eqb acc o = acc ++ o.
Proof.
  intros acc ND H. unfold dupdate. etransitivity; [|apply (f_equal (app acc)); apply map_id].
  transitivity (acc ++ map (fun x => (fst x, snd x)) o); [|f_equal; apply map_ext; intros []; reflexivity].
  rewrite <- (fold_dset_new fst snd o acc ND); [|intros x I; apply H; apply in_map; exact I].
  reflexivity.
Qed.

Lemma dget_app_new {A} (d : list (string * A)) k v : ~ In k (map fst d) -> dget String.eqb (d ++ [(k, v)]) k = Some v.
Proof.
  induction d as [|[k' v'] d IH]; intros N; cbn [app dget]; [rewrite String.eqb_refl; reflexivity|].
  destruct (String.eqb_spec k k') as [->|NE]; [elim N; left; reflexivity|]. apply IH. intros I. apply N. right. exact I.
Qed.

Lemma dset_app_new {A} (d : list (string * A)) k v w : ~ In k (map fst d) -> dset String.eqb (d ++ [(k, v)]) k w = d ++ [(k, w)].
Proof.
  induction d as [|[k' v'] d IH]; intros N; cbn [app dset]; [rewrite String.eqb_refl; reflexivity|].
  destruct (String.eqb_spec k k') as [->|NE]; [elim N; left; reflexivity|]. rewrite IH; [reflexivity|]. intros I. apply N. right. exact I.
Qed.

Lemma dget_map_in {A B} (k : A -> string) (v : A -> B) (l : list A) x : NoDup (map k l) -> In x l -> dget String.eqb (map (fun y => (k y, v y)) l) (k x) = Some (v x).
Proof.
  intros ND I. apply (dget_In_NoDup _ String.eqb_eq); [rewrite map_map; exact ND|]. apply in_map_iff. exists x. split; [reflexivity|exact I].
Qed.

Section Models.
  Context {V : Type} (pre : list (string * @preprocessing_fn V)).

  (** The outputs found for one model, in the order of its functions. *)
  Definition present (os : list (option (list (string * arr V)))) : list (list (string * arr V)) :=
    flat_map (fun o => match o with Some o => [o] | None => [] end) os.
  Definition merged (os : list (option (list (string * arr V)))) : list (string * arr V) := fold_left (dupdate String.eqb) (present os) [].
  Definition entry_of (name : string) (os : list (option (list (string * arr V)))) : list (string * list (string * arr V)) :=
    match present os with [] => [] | _ => [(name, merged os)] end.

  Lemma inner (m : @model V) fs xs n req name sigs os : forall out, Forall2 (fun s o => run_signature pre m fs (Some xs) (Some n) req s = Ok o) sigs os ->
    ~ In name (map fst out) ->
    foldM (fun out s =>
             let! o := run_signature pre m fs (Some xs) (Some n) req s in
             match o with
             | None => Ok out
             | Some o => let old := match dget String.eqb out name with Some x => x | None => [] end in
                         Ok (dset String.eqb out name (dupdate String.eqb old o))
             end) sigs out = Ok (out ++ entry_of name os).
  Proof.
    intros out F N.
    set (step := fun (out : list (string * list (string * arr V))) s => _).
    assert (ST : forall x s o, run_signature pre m fs (Some xs) (Some n) req s = Ok o -> step x s =
      match o with None => Ok x | Some o => Ok (dset String.eqb x name (dupdate String.eqb (match dget String.eqb x name with Some x => x | None => [] end) o)) end).
    { intros x s o H. unfold step. rewrite H. reflexivity. }
    assert (SF : forall x s sigs, foldM step (s :: sigs) x = (let! y := step x s in foldM step sigs y)) by reflexivity.
    clearbody step.
    assert (G : forall sigs os acc, Forall2 (fun s o => run_signature pre m fs (Some xs) (Some n) req s = Ok o) sigs os ->
      foldM step sigs (out ++ [(name, acc)]) = Ok (out ++ [(name, fold_left (dupdate String.eqb) (present os) acc)])).
    { clear F. intros s' o' acc F. revert acc. induction F as [|s o sigs' os' H F IH]; intros acc; [reflexivity|]. rewrite SF, (ST _ _ _ H). destruct o as [o|].
      - rewrite (dget_app_new _ _ _ N), (dset_app_new _ _ _ _ N). cbn [bind]. rewrite IH. reflexivity.
      - cbn [bind]. rewrite IH. reflexivity. }
    revert F. revert os. induction sigs as [|s sigs IH]; intros os F; inversion F as [|? o ? os' H F']; subst.
    - unfold entry_of. cbn. rewrite app_nil_r. reflexivity.
    - rewrite SF, (ST _ _ _ H). destruct o as [o|].
      + rewrite (proj2 (dget_None _ String.eqb_eq _ _) N), (dset_new _ _ _ N). cbn [bind]. rewrite (G sigs os' _ F'). reflexivity.
      + cbn [bind]. rewrite (IH os' F'). reflexivity.
  Qed.

  Lemma entries_keys name os : map fst (entry_of name os) = if present os then [] else [name].
  Proof. unfold entry_of. destruct (present os); reflexivity. Qed.

  Lemma all_outputs (f : signatures_fn) e n fs xs oss : holds e n fs xs -> sf_models f <> [] -> NoDup (map fst (sf_models f)) ->
    Forall2 (fun nm os => exists req sigs, names_to_run f (fst nm) = Ok (req, sigs) /\
               Forall2 (fun s o => run_signature pre (snd nm) fs (Some xs) (Some n) req s = Ok o) sigs os) (sf_models f) oss ->
    outputs_per_model pre f e = Ok (concat (map (fun no => entry_of (fst no) (snd no)) (combine (map fst (sf_models f)) oss))).
  Proof.
    intros HO NE ND F. unfold outputs_per_model. rewrite (proj1 HO). cbn [bind]. rewrite (holds_features _ _ _ _ HO). cbn [bind]. rewrite (holds_examples _ _ _ _ HO). cbn [bind].
    set (step := fun (out : list (string * list (string * arr V))) (nm : string * model) => _).
    assert (ST : forall out nm os req sigs, names_to_run f (fst nm) = Ok (req, sigs) -> Forall2 (fun s o => run_signature pre (snd nm) fs (Some xs) (Some n) req s = Ok o) sigs os ->
      ~ In (fst nm) (map fst out) -> step out nm = Ok (out ++ entry_of (fst nm) os)).
    { intros out nm os req sigs R H NI. unfold step. rewrite R. exact (inner (snd nm) fs xs n req (fst nm) sigs os out H NI). }
    assert (SF : forall x s sigs, foldM step (s :: sigs) x = (let! y := step x s in foldM step sigs y)) by reflexivity.
    clearbody step.
    assert (G : forall models oss out, NoDup (map fst models) -> (forall nm, In nm models -> ~ In (fst nm) (map fst out)) ->
      Forall2 (fun nm os => exists req sigs, names_to_run f (fst nm) = Ok (req, sigs) /\
               Forall2 (fun s o => run_signature pre (snd nm) fs (Some xs) (Some n) req s = Ok o) sigs os) models oss ->
      foldM step models out = Ok (out ++ concat (map (fun no => entry_of (fst no) (snd no)) (combine (map fst models) oss)))).
    { clear -ST SF. intros models. induction models as [|nm models IH]; intros oss out ND NI F; inversion F as [|? os ? oss' (req & sigs & R & H) F']; subst.
      - cbn. rewrite app_nil_r. reflexivity.
      - cbn [map combine concat fst snd]. rewrite SF, (ST out nm os req sigs R H (NI nm (or_introl eq_refl))).
        cbn [bind]. inversion ND as [|? ? N1 N2]; subst. rewrite (IH oss'); [rewrite app_assoc; reflexivity|exact N2| |exact F'].
        intros x I. rewrite map_app, in_app_iff. intros [J|J]; [exact (NI x (or_intror I) J)|]. rewrite entries_keys in J.
        destruct (present os); [destruct J|]. destruct J as [J|[]]. apply N1. rewrite J. apply in_map. exact I. }
    destruct (sf_models f) as [|nm models] eqn:M; [congruence|]. exact (G (nm :: models) oss [] ND (fun _ _ X => X) F).
  Qed.

End Models.

Section Predictions.
  Context {V : Type} (pre : list (string * @preprocessing_fn V)) (signature_name : model_spec -> string) (load : string -> @model V).

  Lemma loaded_is (l : list shared_model) : NoDup (map sm_name l) -> loaded_models load l = map (fun m => (sm_name m, load (sm_path m))) l.
  Proof. intros ND. unfold loaded_models. rewrite (fold_dset_new sm_name (fun m => load (sm_path m)) l [] ND); [reflexivity|]. intros x _ []. Qed.

  Lemma setup_one (name : string) (m : @model V) : setup [name] [("", m)] = Ok [("", m)].
  Proof. reflexivity. Qed.
  Lemma setup_many (names : list string) (loaded : list (string * @model V)) (ms : list (@model V)) : 2 <= length names -> NoDup names ->
    Forall2 (fun n m => dget String.eqb loaded n = Some m) names ms -> setup names loaded = Ok (combine names ms).
  Proof.
    intros L ND F. unfold setup. assert (B : Nat.ltb 1 (length names) = true) by (apply Nat.ltb_lt; lia). rewrite B. clear B.
    assert (NL : loaded <> []) by (intros ->; inversion F; subst; [cbn in L; lia|discriminate]).
    set (step := fun (d : list (string * model)) (n : string) => _).
    assert (ST : forall d n m, dget String.eqb loaded n = Some m -> step d n = Ok (dset String.eqb d n m)).
    { intros d n m H. unfold step. rewrite H. destruct loaded; [congruence|reflexivity]. }
    clearbody step.
    assert (G : forall names ms acc, NoDup names -> (forall x, In x names -> ~ In x (map fst acc)) -> Forall2 (fun n m => dget String.eqb loaded n = Some m) names ms ->
      foldM step names acc = Ok (acc ++ combine names ms)).
    { clear -ST. intros names. induction names as [|n names IH]; intros ms acc ND NI F; inversion F as [|? m ? ms' H F']; subst.
      - cbn. rewrite app_nil_r. reflexivity.
      - cbn [foldM combine]. rewrite (ST _ _ _ H), (dset_new _ _ _ (NI n (or_introl eq_refl))). cbn [bind].
        inversion ND; subst. rewrite (IH ms' (acc ++ [(n, m)])); [rewrite <- app_assoc; reflexivity|assumption| |assumption].
        intros x I. rewrite map_app, in_app_iff. intros [J|[J|[]]]; [exact (NI x (or_intror I) J)|]. cbn in J. congruence. }
    exact (G names ms [] ND (fun _ _ X => X) F).
  Qed.

  Lemma merged_one (o : list (string * arr V)) : NoDup (map fst o) -> merged [Some o] = o.
  Proof. intros ND. unfold merged. cbn [present flat_map app fold_left]. rewrite (dupdate_new o [] ND); [reflexivity|]. intros x _ []. Qed.
  Lemma model_value_stored (o : list (string * arr V)) : model_value false o = stored o.
  Proof. destruct o as [|[k a] [|]]; reflexivity. Qed.

  Lemma run_one_model spec (m : @model V) keypath e n fs xs o v : holds e n fs xs -> NoDup (map fst o) ->
    run_signature pre m fs (Some xs) (Some n) true (signature_name spec) = Ok (Some o) ->
    copy_and_set_by_keys (Dict e) keypath (stored o) = Ok (Dict v) ->
    process (run_models pre (SignaturesFn [("", m)] keypath [("", [signature_name spec])] None false)) e = Ok [v].
  Proof.
    intros HO ND R CS. unfold process. rewrite (proj1 HO). cbn [bind]. unfold run_models.
    rewrite (all_outputs pre (SignaturesFn [("", m)] keypath [("", [signature_name spec])] None false) e n fs xs [[Some o]] HO); cbn [sf_models sf_output_keypath].
    - cbn [bind map combine concat fst snd app]. unfold entry_of. cbn [present flat_map app concat]. unfold models_value. cbn [map fst snd sf_prefer_dict_outputs].
      rewrite (merged_one o ND), model_value_stored, CS. reflexivity.
    - discriminate.
    - repeat constructor. intros [].
    - constructor; [|constructor]. exists true, [signature_name spec]. split; [reflexivity|]. constructor; [exact R|constructor].
  Qed.
  Lemma predictions_fn_one spec m keypath :
    predictions_fn signature_name load [spec] (OneModel m) keypath = Ok (SignaturesFn [("", load (sm_path m))] keypath [("", [signature_name spec])] None false).
  Proof. reflexivity. Qed.

End Predictions.

Lemma C202_one_model_pf : forall (V : Type) pre signature_name (load : string -> @model V) spec m e n features xs o,
  holds e n features xs -> NoDup (map fst o) ->
  run_signature pre (load (sm_path m)) features (Some xs) (Some n) true (signature_name spec) = Ok (Some o) ->
  extract_with pre (predictions_fn signature_name load [spec] (OneModel m) ["predictions"]) e = Ok [dset String.eqb e "predictions" (stored o)].
Proof.
  intros V pre sn load spec m e n fs xs o HO ND R. rewrite predictions_fn_one. cbn [extract_with bind].
  apply (run_one_model pre sn spec _ _ _ n fs xs o); [exact HO|exact ND|exact R|reflexivity].
Qed.

Lemma several_names (l : list shared_model) : 2 <= length l -> Forall (fun m => sm_name m <> "") l -> verify_and_update_eval_shared_models (ModelList l) = Ok (Some l).
Proof.
  intros L F. unfold verify_and_update_eval_shared_models. destruct l as [|a [|b l]]; cbn in L; try lia. cbn [model_list bind].
  assert (B : forallb (fun m => set_str (sm_name m)) (a :: b :: l) = true).
  { apply forallb_forall. intros x I. rewrite Forall_forall in F. specialize (F x I). destruct (sm_name x); [congruence|reflexivity]. }
  rewrite B. reflexivity.
Qed.

Lemma key_of_many ms spec : 2 <= length ms -> key_of_spec ms spec = m_name spec.
Proof. destruct ms as [|a [|b ms]]; cbn; intros; try lia; reflexivity. Qed.

Lemma fold_names {A} (f : model_spec -> A) ms : 2 <= length ms -> NoDup (map m_name ms) ->
  fold_left (fun d m => dset String.eqb d (key_of_spec ms m) (f m)) ms [] = map (fun m => (m_name m, f m)) ms.
Proof.
  intros L ND. transitivity (fold_left (fun d m => dset String.eqb d (m_name m) (f m)) ms []).
  - assert (G : forall l acc, fold_left (fun d m => dset String.eqb d (key_of_spec ms m) (f m)) l acc = fold_left (fun d m => dset String.eqb d (m_name m) (f m)) l acc).
    { induction l as [|x l IH]; intros acc; cbn [fold_left]; [reflexivity|]. rewrite (key_of_many ms x L). apply IH. }
    apply G.
  - rewrite (fold_dset_new m_name f ms [] ND); [reflexivity|]. intros x _ [].
Qed.

Lemma Forall2_map_fst {A B C} (P : A -> B -> Prop) (f : A -> C) (Q : C -> B -> Prop) l m : (forall a b, P a b -> Q (f a) b) -> Forall2 P l m -> Forall2 Q (map f l) m.
Proof. intros H F. induction F; constructor; auto. Qed.

Lemma C202_several_models_pf : forall (V : Type) pre signature_name (load : string -> @model V) specs models e n features xs outs,
  2 <= length specs -> NoDup (map m_name specs) -> 2 <= length models -> NoDup (map sm_name models) -> Forall (fun m => sm_name m <> "") models ->
  holds e n features xs ->
  Forall2 (fun spec o => NoDup (map fst o) /\ exists m, In m models /\ sm_name m = m_name spec /\
             run_signature pre (load (sm_path m)) features (Some xs) (Some n) true (signature_name spec) = Ok (Some o)) specs outs ->
  extract_with pre (predictions_fn signature_name load specs (ModelList models) ["predictions"]) e =
    Ok [dset String.eqb e "predictions" (Dict (combine (map m_name specs) (map stored outs)))].
Proof.
  intros V pre sn load ms l e n fs xs outs Lms NDms Ll NDl NEl HO F. unfold extract_with, predictions_fn. rewrite (several_names l Ll NEl). cbn [bind].
  destruct l as [|a l]; [cbn in Ll; lia|]. set (models := a :: l) in *. rewrite (loaded_is load models NDl), (fold_names _ ms Lms NDms).
  assert (EX : exists ls, Forall2 (fun spec m => dget String.eqb (map (fun m => (sm_name m, load (sm_path m))) models) (m_name spec) = Some m) ms ls /\
    Forall2 (fun (sm : string * model) o => NoDup (map fst o) /\ exists spec, In spec ms /\ m_name spec = fst sm /\ run_signature pre (snd sm) fs (Some xs) (Some n) true (sn spec) = Ok (Some o)) (combine (map m_name ms) ls) outs).
  { assert (G : forall sub, incl sub ms -> forall outs, Forall2 (fun spec o => NoDup (map fst o) /\ exists m, In m models /\ sm_name m = m_name spec /\
             run_signature pre (load (sm_path m)) fs (Some xs) (Some n) true (sn spec) = Ok (Some o)) sub outs ->
      exists ls, Forall2 (fun spec m => dget String.eqb (map (fun m => (sm_name m, load (sm_path m))) models) (m_name spec) = Some m) sub ls /\
    Forall2 (fun (sm : string * model) o => NoDup (map fst o) /\ exists spec, In spec ms /\ m_name spec = fst sm /\ run_signature pre (snd sm) fs (Some xs) (Some n) true (sn spec) = Ok (Some o)) (combine (map m_name sub) ls) outs).
    { induction sub as [|s sub IH]; intros IN outs' F'; inversion F' as [|? o ? outs2 (NO & m & I & E & R) F2]; subst.
      - exists []. split; constructor.
      - destruct (IH (fun x J => IN x (or_intror J)) outs2 F2) as (ls & A & B). exists (load (sm_path m) :: ls). split.
        + constructor; [|exact A]. rewrite <- E. exact (dget_map_in sm_name (fun m => load (sm_path m)) models m NDl I).
        + cbn [map combine]. constructor; [|exact B]. split; [exact NO|]. exists s. split; [apply IN; left; reflexivity|]. split; [reflexivity|exact R]. }
    exact (G ms (fun x J => J) outs F). }
  destruct EX as (ls & A & B).
  rewrite (setup_many (map m_name ms) _ ls); [|rewrite map_length; exact Lms|exact NDms|exact (Forall2_map_fst _ m_name _ ms ls (fun _ _ H => H) A)].
  cbn [bind]. set (f := SignaturesFn _ _ _ _ _).
  assert (Ln : length (map m_name ms) = length ls) by (rewrite map_length; exact (Forall2_length _ _ _ A)).
  assert (FST : map fst (combine (map m_name ms) ls) = map m_name ms).
  { revert Ln. generalize (map m_name ms). clear. intros names. revert ls. induction names as [|x names IH]; intros [|y ls] L; cbn in L |- *; try lia; [reflexivity|]. f_equal. apply IH. lia. }
  unfold process. rewrite (proj1 HO). cbn [bind]. unfold run_models.
  rewrite (all_outputs pre f e n fs xs (map (fun o => [Some o]) outs) HO); unfold f; cbn [sf_models sf_output_keypath]; try rewrite FST.
  - assert (Lo : length (map m_name ms) = length outs) by (rewrite map_length; exact (Forall2_length _ _ _ F)).
    assert (VAL : concat (map (fun no => entry_of (fst no) (snd no)) (combine (map m_name ms) (map (fun o => [Some o]) outs))) = combine (map m_name ms) outs).
    { assert (NO : Forall (fun o => NoDup (map fst o)) outs) by (apply Forall_forall; intros o I; destruct (Forall2_In_r _ _ _ o F I) as (s & _ & Q & _); exact Q).
      revert Lo NO. generalize (map m_name ms). clear. intros names. revert outs. induction names as [|x names IH]; intros [|y outs] L NO; cbn in L; try lia; [reflexivity|].
      cbn [map combine concat fst snd]. inversion NO; subst. unfold entry_of at 1. cbn [present flat_map app]. rewrite (merged_one y) by assumption. cbn [app]. f_equal. apply IH; [lia|assumption]. }
    rewrite VAL. cbn [bind]. unfold models_value. cbn [sf_prefer_dict_outputs].
    assert (MV : map (fun no : string * list (string * arr V) => (fst no, model_value false (snd no))) (combine (map m_name ms) outs) = combine (map m_name ms) (map stored outs)).
    { generalize (map m_name ms). clear. intros names. revert outs. induction names as [|x names IH]; intros [|y outs]; cbn [map combine fst snd]; try reflexivity. rewrite model_value_stored, IH. reflexivity. }
    rewrite MV. destruct ms as [|s1 [|s2 ms]]; cbn in Lms; try lia. destruct outs as [|o1 [|o2 outs]]; cbn in Lo; try lia. cbn [map combine copy_and_set_by_keys bind as_dict]. reflexivity.
  - intros E. destruct ms as [|s ms]; [cbn in Lms; lia|]. destruct ls; [discriminate|discriminate].
  - exact NDms.
  - assert (G : forall sms outs', Forall2 (fun (sm : string * model) o => NoDup (map fst o) /\ exists spec, In spec ms /\ m_name spec = fst sm /\ run_signature pre (snd sm) fs (Some xs) (Some n) true (sn spec) = Ok (Some o)) sms outs' ->
      Forall2 (fun nm os => exists req sigs, names_to_run (SignaturesFn (combine (map m_name ms) ls) ["predictions"] (map (fun m => (m_name m, [sn m])) ms) None false) (fst nm) = Ok (req, sigs) /\
               Forall2 (fun s o => run_signature pre (snd nm) fs (Some xs) (Some n) req s = Ok o) sigs os) sms (map (fun o => [Some o]) outs')).
    { intros sms outs' H. induction H as [|sm o sms outs' (NO & spec & I & E & R) H IH]; [constructor|]. cbn [map]. constructor; [|exact IH].
      exists true, [sn spec]. split; [|constructor; [exact R|constructor]]. unfold names_to_run. cbn [sf_signature_names]. rewrite <- E.
      rewrite (dget_map_in m_name (fun m => [sn m]) ms spec NDms I). reflexivity. }
    exact (G _ _ B).
Qed.

Definition sample_extract : list (string * data (leaf nat)) := [("features", Dict sample_features); ("input", Leaf (Dense (Arr [2] [7; 8])))].

Definition sample_spec (name : string) : model_spec := ModelSpec name "" [] "" [] "" [] false "".

Definition sample_load (path : string) : @model nat := if String.eqb path "keras" then sample_model else Model (Some [("serving_default", echo 300)]) [] None.

Lemma C203_whole_or_each_partial_pf : forall (V : Type) (run : list (string * data (leaf V)) -> res (list (string * data (leaf V)))) n e l,
  batch n e -> process run e = Ok l ->
  (exists r, run e = Ok r /\ l = [r]) \/
  (exists x es, run e = Err x /\ In x [ValueError; RuntimeError; NotImplementedError] /\ length es = n /\ Forall2 (fun d r => run d = Ok r) es l /\
     forall i d, nth_error es i = Some d ->
       (forall p v, leaf_at (Dict e) p = Some v -> exists w, leaf_at (Dict d) p = Some w /\ example_of true true i v w) /\
       (forall p w, leaf_at (Dict d) p = Some w -> exists v, leaf_at (Dict e) p = Some v)).
Proof.
  intros V run n e l B P. unfold process in P. destruct (batch_size (Dict e)) as [z|x]; cbn [bind] in P; [|discriminate].
  destruct (run e) as [r|x] eqn:R.
  - left. exists r. injection P as <-. auto.
  - right. destruct (retried x) eqn:Q; [|discriminate]. destruct (C128_split_gives_examples_partial_pf V n e true true B) as (es & S & L & H).
    rewrite S in P. cbn [bind] in P. exists x, es. split; [reflexivity|]. split; [destruct x; try discriminate Q; cbn; auto|]. split; [exact L|]. split; [|exact H].
    exact (mapM_inv _ _ _ P).
Qed.

Lemma C203_other_errors_pf : forall (V : Type) (run : list (string * data (leaf V)) -> res (list (string * data (leaf V)))) e n x,
  batch_size (Dict e) = Ok n -> run e = Err x -> ~ In x [ValueError; RuntimeError; NotImplementedError] -> process run e = Err x.
Proof. intros V run e n x B R N. unfold process. rewrite B, R. cbn [bind]. destruct x; try reflexivity; elim N; cbn; auto. Qed.

Section Large.
  Context {V : Type} (pre : list (string * @preprocessing_fn V)) (m : @model V) (name : string) (s : @signature V) (input : string).
  Hypothesis PL : plain name.
  Hypothesis NE : name <> "".
  Hypothesis FO : function_of m name (FoundSignature s).
  Hypothesis SP : sg_specs s = Some [(input, true)].

  Lemma run_on_examples features xs n : no_feature_for features input ->
    run_signature pre m features (Some xs) (Some n) true name =
      (let! out := call_errors (sg_call s (Examples xs)) in let! o := to_dense_outputs out (Some n) name in Ok (Some o)).
  Proof.
    intros NF. destruct (callable_of m name _ true NE FO) as [C I]. unfold run_signature. rewrite (plain_no_at name PL). cbn [bind fst snd]. rewrite I, SP. cbn [bind].
    assert (G : get_inputs features [(input, true)] = None).
    { apply C200_examples_otherwise_pf; [repeat constructor; intros []|]. right. exists input. split; [left; reflexivity|exact NF]. }
    rewrite G. assert (B : set_str name = true) by (destruct name; [congruence|reflexivity]). rewrite B. cbn [bind]. rewrite C. reflexivity.
  Qed.

End Large.

(** What is predicted by an extract. *)

Definition predicted {V} (r : list (string * data (leaf V))) : list V :=
  match dget String.eqb r "predictions" with Some (Leaf (Dense a)) => items a | _ => [] end.

Lemma predicted_dset {V} (e : list (string * data (leaf V))) a : predicted (dset String.eqb e "predictions" (Leaf (Dense a))) = items a.
Proof. unfold predicted. rewrite (dget_dset_eq _ String.eqb_eq). reflexivity. Qed.

Lemma each_example {V} (run : list (string * data (leaf V)) -> res (list (string * data (leaf V)))) (g : V -> V) (rs : list (list (string * data (leaf V)))) : forall xs,
  length rs = length xs ->
  (forall i d x, nth_error rs i = Some d -> nth_error xs i = Some x -> run d = Ok (dset String.eqb d "predictions" (Leaf (Dense (Arr [1] [g x]))))) ->
  exists l, mapM run rs = Ok l /\ concat (map predicted l) = map g xs.
Proof.
  induction rs as [|d rs IH]; intros [|x xs] L H; cbn in L; try lia.
  - exists []. split; reflexivity.
  - destruct (IH xs) as (l & A & B); [lia|intros i d' x'; exact (H (S i) d' x')|].
    exists (dset String.eqb d "predictions" (Leaf (Dense (Arr [1] [g x]))) :: l). cbn [mapM]. rewrite (H 0 d x eq_refl eq_refl). cbn [bind]. rewrite A. cbn [bind map concat].
    rewrite predicted_dset, B. split; reflexivity.
Qed.

Lemma dget_kind {A} (d : list (string * data A)) k c : dget String.eqb d k = Some c -> kind_at (Dict d) [k] = Some (match c with Leaf _ => true | Dict _ => false end).
Proof. intros G. unfold kind_at. cbn [at_path]. rewrite G. destruct c; reflexivity. Qed.

Lemma kind_dget {A} (d : list (string * data A)) k b : kind_at (Dict d) [k] = Some b -> exists c, dget String.eqb d k = Some c /\ b = match c with Leaf _ => true | Dict _ => false end.
Proof. unfold kind_at. cbn [at_path]. destruct (dget String.eqb d k) as [[v|c]|]; intros E; try discriminate; injection E as <-; eexists; split; reflexivity. Qed.

Lemma C203_large_batches_partial_pf : forall (V : Type) pre (m : @model V) name s input limit g e n features xs,
  plain name -> name <> "" -> function_of m name (FoundSignature s) -> sg_specs s = Some [(input, true)] ->
  (forall l, sg_call s (Examples l) = if Nat.leb (length l) limit then Ok (Tensor (Arr [length l] (map g l))) else Err ValueError) -> 1 <= limit ->
  batch n e -> (forall p v, leaf_at (Dict e) p <> Some (Sparse v)) ->
  dget String.eqb e "input" = Some (Leaf (Dense (Arr [n] xs))) ->
  (dget String.eqb e "features" = Some (Dict features) \/ dget String.eqb e "features" = None /\ features = []) -> no_feature_for features input ->
  exists l, process (run_models pre (SignaturesFn [("", m)] ["predictions"] [("", [name])] None false)) e = Ok l /\ concat (map predicted l) = map g xs.
Proof.
  intros V pre m name s input limit g e n fs xs PL NE FO SP CALL LIM B DN IN FE NF.
  assert (BS : batch_size (Dict e) = Ok (Some n)).
  { destruct (C128_split_gives_examples_partial_pf V n e true true B) as (es & S & L & _). rewrite (C131_size_is_number_of_examples_pf V n e true true es B S), L. reflexivity. }
  assert (LX : length xs = n).
  { destruct B as (_ & Z & _). assert (LA : leaf_at (Dict e) ["input"] = Some (Dense (Arr [n] xs))) by (unfold leaf_at; cbn [at_path]; rewrite IN; reflexivity).
    destruct (Z _ _ LA) as [W _]. unfold wf_arr in W. cbn in W. lia. }
  assert (HO : holds e n fs xs) by (split; [exact BS|split; [exact FE|exists [n]; exact IN]]).
  assert (ONE : forall d k ys gs, holds d k gs ys -> length ys = k -> k <= limit -> no_feature_for gs input ->
    run_models pre (SignaturesFn [("", m)] ["predictions"] [("", [name])] None false) d = Ok (dset String.eqb d "predictions" (Leaf (Dense (Arr [k] (map g ys)))))).
  { intros d k ys gs HD LY LK NG.
    assert (R : run_signature pre m gs (Some ys) (Some k) true name = Ok (Some [(name, Arr [k] (map g ys))])).
    { rewrite (run_on_examples pre m name s input PL NE FO SP gs ys k NG), CALL, LY. rewrite (proj2 (Nat.leb_le k limit) LK). cbn [call_errors bind to_dense_outputs check_shape shape]. rewrite Nat.eqb_refl. reflexivity. }
    pose proof (run_one_model pre (fun _ => name) empty_model_spec m ["predictions"] d k gs ys [(name, Arr [k] (map g ys))] (dset String.eqb d "predictions" (Leaf (Dense (Arr [k] (map g ys))))) HD) as X.
    unfold process in X. rewrite (proj1 HD) in X. cbn [bind] in X.
    destruct (run_models pre (SignaturesFn [("", m)] ["predictions"] [("", [name])] None false) d) as [r|x] eqn:RM.
    - specialize (X ltac:(repeat constructor; intros []) R eq_refl). congruence.
    - unfold run_models in RM. rewrite (all_outputs pre _ d k gs ys [[Some [(name, Arr [k] (map g ys))]]] HD) in RM; [discriminate RM|discriminate|repeat constructor; intros []|].
      constructor; [|constructor]. exists true, [name]. split; [reflexivity|]. constructor; [exact R|constructor]. }
  destruct (Nat.le_gt_cases n limit) as [LE|GT].
  - exists [dset String.eqb e "predictions" (Leaf (Dense (Arr [n] (map g xs))))]. unfold process. rewrite BS. cbn [bind]. rewrite (ONE e n xs fs HO LX LE NF).
    split; [reflexivity|]. cbn [map concat]. rewrite predicted_dset. cbn [items]. apply app_nil_r.
  - assert (BAD : run_models pre (SignaturesFn [("", m)] ["predictions"] [("", [name])] None false) e = Err ValueError).
    { unfold run_models, outputs_per_model. rewrite BS. cbn [bind]. rewrite (holds_features _ _ _ _ HO). cbn [bind]. rewrite (holds_examples _ _ _ _ HO). cbn [bind sf_models foldM fst snd names_to_run sf_signature_names dget String.eqb].
      rewrite (run_on_examples pre m name s input PL NE FO SP fs xs n NF), CALL, LX. rewrite (proj2 (Nat.leb_gt n limit) GT). reflexivity. }
    unfold process. rewrite BS. cbn [bind]. rewrite BAD. cbn [retried].
    destruct B as (W & Z & p0 & v0 & L0 & N0).
    destruct (split_extracts_ok true true n e W) as (rs & E & L & H).
    { intros p v Lv N. destruct (split_ok true true n v (Z p v Lv) N) as (vs & A & B & _). exists vs. auto. }
    { exists p0, v0. split; [exact L0|]. destruct v0; [reflexivity|reflexivity|reflexivity|congruence]. }
    rewrite E. cbn [bind]. apply each_example; [congruence|]. intros i d x Hd Hx. destruct (H i d Hd) as (Wd & In & Hl).
    assert (DI : dget String.eqb d "input" = Some (Leaf (Dense (Arr [1; 1] [x])))).
    { assert (LA : leaf_at (Dict d) ["input"] = Some (Dense (Arr [1; 1] [x]))).
      { apply Hl. exists (Dense (Arr [n] xs)). split; [unfold leaf_at; cbn [at_path]; rewrite IN; reflexivity|]. right. split; [reflexivity|].
        eexists. split; [reflexivity|]. rewrite map_map, nth_error_map.
        assert (i < n) by (rewrite <- L; apply nth_error_Some; congruence).
        rewrite (nth_error_nth' (seq 0 n) 0) by (rewrite seq_length; lia). rewrite seq_nth by lia. cbn [option_map Nat.add].
        unfold example_value, row_of. cbn [shape items product fold_right]. do 3 f_equal. rewrite Nat.mul_1_r. apply nth_error_split in Hx. destruct Hx as (l1 & l2 & -> & <-).
        rewrite skipn_app, skipn_all, Nat.sub_diag. reflexivity. }
      unfold leaf_at in LA. cbn [at_path] in LA. destruct (dget String.eqb d "input") as [[v|c]|]; try discriminate. congruence. }
    assert (FD : exists gs, (dget String.eqb d "features" = Some (Dict gs) \/ dget String.eqb d "features" = None /\ gs = []) /\ no_feature_for gs input).
    { destruct (dget String.eqb d "features") as [c|] eqn:DF.
      - pose proof (In _ _ (dget_kind d "features" c DF)) as K. apply kind_dget in K. destruct K as (c' & K1 & K2). destruct FE as [FE|[FE ->]]; [|congruence].
        rewrite FE in K1. injection K1 as <-. destruct c as [v|gs]; [discriminate|]. exists gs. split; [left; reflexivity|].
        assert (SUB : forall k c, dget String.eqb gs k = Some c -> exists c', dget String.eqb fs k = Some c').
        { intros k c G. assert (KK : kind_at (Dict d) ["features"; k] = Some (match c with Leaf _ => true | Dict _ => false end)).
          { unfold kind_at. cbn [at_path]. rewrite DF, G. destruct c; reflexivity. }
          apply In in KK. unfold kind_at in KK. cbn [at_path] in KK. rewrite FE in KK. destruct (dget String.eqb fs k) as [c'|]; [eauto|discriminate]. }
        intros v [G|[G0 (base & EQ & G)]].
        + destruct (SUB _ _ G) as [c' C]. apply (NF c'). left. exact C.
        + destruct (SUB _ _ G) as [c' C]. destruct (dget String.eqb fs input) as [c2|] eqn:C2; [apply (NF c2); left; exact C2|]. apply (NF c'). right. split; [exact C2|]. exists base. auto.
      - exists []. split; [right; auto|]. intros v [G|[_ (b & _ & G)]]; discriminate. }
    destruct FD as (gs & FD & NG).
    assert (HD : holds d 1 gs [x]).
    { split; [|split; [exact FD|exists [1; 1]; exact DI]].
      generalize (C131_batch_size_pf V (Dict d) Wd). destruct (batch_size (Dict d)) as [[k|]|ex].
      - intros [_ Q]. f_equal. f_equal. symmetry. assert (LA : leaf_at (Dict d) ["input"] = Some (Dense (Arr [1; 1] [x]))) by (unfold leaf_at; cbn [at_path]; rewrite DI; reflexivity).
        rewrite <- (Q _ _ LA) by discriminate. reflexivity.
      - intros Q. exfalso. assert (LA : leaf_at (Dict d) ["input"] = Some (Dense (Arr [1; 1] [x]))) by (unfold leaf_at; cbn [at_path]; rewrite DI; reflexivity).
        specialize (Q _ _ LA). discriminate.
      - assert (ONEDIM : forall p w, leaf_at (Dict d) p = Some w -> w <> PyNone -> first_dim w = 1).
        { intros p w Lw Nw. apply Hl in Lw. destruct Lw as (v & Lv & [[-> ->]|(Nv & vs & SV & NV)]); [congruence|].
          destruct v as [a|t|u|]; [| |elim (DN p u Lv)|discriminate]; cbn [split_leaf] in SV.
          - destruct (shape a) as [|k rest]; [discriminate|]. injection SV as <-. apply nth_error_In in NV. apply in_map_iff in NV. destruct NV as (j & <- & _). reflexivity.
          - destruct (dense_rows t) as [rows|]; cbn [bind] in SV; [|discriminate]. injection SV as <-. apply nth_error_In in NV. apply in_map_iff in NV. destruct NV as (j & <- & _). reflexivity. }
        intros (_ & p & v & q & w & A & C & D1 & D2 & F). elim F. rewrite (ONEDIM p v A D1), (ONEDIM q w C D2). reflexivity. }
    exact (ONE d 1 [x] gs HD eq_refl LIM NG).
Qed.

(* examples and refutations for C203 *)

Definition small (k limit : nat) : @signature nat :=
  Signature (Some [("examples", true)]) (fun x => match x with Examples l => if Nat.leb (length l) limit then Ok (Tensor (Arr [length l] (map (plus k) l))) else Err ValueError | _ => Err TypeError end).

Definition small_model : @model nat := Model (Some [("serving_default", small 100 1)]) [] None.

Definition small_fn : @signatures_fn nat := SignaturesFn [("", small_model)] ["predictions"] [("", ["serving_default"])] None false.

Definition two_examples : list (string * data (leaf nat)) :=
  [("features", Dict [("a", Leaf (Var (VarLen [4; 5; 6] [(0, 0); (0, 1); (1, 0)] [2; 2])))]); ("input", Leaf (Dense (Arr [2] [7; 8])))].

Lemma wf_two {A} (a : data A) (f : string) (v : data A) : (forall p d, at_path v p <> Some (Dict d)) -> (forall p d, at_path a p <> Some (Dict d)) ->
  wf_data (Dict [("features", Dict [(f, v)]); ("input", a)]).
Proof.
  intros Hv Ha p d. destruct p as [|k p]; cbn [at_path].
  - intros E. injection E as <-. cbn [map fst]. constructor; [intros [E|[]]; discriminate|]. constructor; [intros []|constructor].
  - cbn [dget]. destruct (String.eqb k "features").
    + destruct p as [|k2 p]; cbn [at_path].
      * intros E. injection E as <-. cbn. repeat constructor. intros [].
      * cbn [dget]. destruct (String.eqb k2 f); [|discriminate]. intros E. elim (Hv _ _ E).
    + destruct (String.eqb k "input"); [|discriminate]. intros E. elim (Ha _ _ E).
Qed.

Lemma leaf_no_dict {A} (v : A) p d : at_path (Leaf v) p <> Some (Dict d).
Proof. destruct p; discriminate. Qed.

Lemma two_ok : batch 2 two_examples.
Proof.
  split; [|split].
  - apply wf_two; intros; apply leaf_no_dict.
  - intros p v. unfold leaf_at. destruct p as [|k p]; [discriminate|]. cbn [at_path dget two_examples]. destruct (String.eqb k "features"); [|destruct (String.eqb k "input"); [|discriminate]].
    + destruct p as [|k2 p]; [discriminate|]. cbn [at_path dget]. destruct (String.eqb k2 "a"); [|discriminate]. destruct p; [|discriminate]. cbn [at_path]. intros E. injection E as <-. cbn [sized].
      repeat apply conj; try reflexivity; [discriminate|]. exists 2. reflexivity.
    + destruct p; [|discriminate]. cbn [at_path]. intros E. injection E as <-. split; [reflexivity|]. exists []. reflexivity.
  - exists ["input"], (Dense (Arr [2] [7; 8])). split; [reflexivity|discriminate].
Qed.

Lemma C203_sparse_values_refuted_pf : exists (f : @signatures_fn nat) e xs s l,
  e = [("features", Dict [("s", Leaf (Sparse s))]); ("input", Leaf (Dense (Arr [2] xs)))] /\ batch 2 e /\
  process (run_models [] f) [("features", Dict []); ("input", Leaf (Dense (Arr [2] xs)))] = Ok l /\ length l = 2 /\
  process (run_models [] f) e = Err ValueError.
Proof.
  exists small_fn. eexists. exists [7; 8]. exists (SparseT [9; 10] [[0; 3]; [1; 1]] [2; 4]). eexists. split; [reflexivity|]. split; [|split; [reflexivity|split; reflexivity]].
  split; [|split].
  - apply wf_two; intros; apply leaf_no_dict.
  - intros p v. unfold leaf_at. destruct p as [|k p]; [discriminate|]. cbn [at_path dget]. destruct (String.eqb k "features"); [|destruct (String.eqb k "input"); [|discriminate]].
    + destruct p as [|k2 p]; [discriminate|]. cbn [at_path dget]. destruct (String.eqb k2 "s"); [|discriminate]. destruct p; [|discriminate]. cbn [at_path]. intros E. injection E as <-. cbn [sized].
      split; [reflexivity|]. exists [4]. split; [reflexivity|]. repeat constructor.
    + destruct p; [|discriminate]. cbn [at_path]. intros E. injection E as <-. split; [reflexivity|]. exists []. reflexivity.
  - exists ["input"], (Dense (Arr [2] [7; 8])). split; [reflexivity|discriminate].
Qed.

(** The examples of a batch that was refused reach the model with one dimension more than a
    batch of one example has: it refuses them although it accepts each in a batch of its own. *)

Definition vector_of_one : @layer nat :=
  Layer [("x", false)] (fun x => match x with Dictionary [(_, Leaf (Dense a))] => match shape a with [1] => Ok (Tensor a) | _ => Err ValueError end | _ => Err TypeError end).

Definition batch_of (xs : list nat) : list (string * data (leaf nat)) := [("features", Dict [("x", Leaf (Dense (Arr [length xs] xs)))]); ("input", Leaf (Dense (Arr [length xs] xs)))].

Lemma C203_more_dimensions_refuted_pf : exists (f : @signatures_fn nat),
  process (run_models [] f) (batch_of [7]) = Ok [batch_of [7] ++ [("predictions", Leaf (Dense (Arr [1] [7])))]] /\
  process (run_models [] f) (batch_of [8]) = Ok [batch_of [8] ++ [("predictions", Leaf (Dense (Arr [1] [8])))]] /\
  process (run_models [] f) (batch_of [7; 8]) = Err ValueError.
Proof. exists (SignaturesFn [("", Model (Some []) [("f", vector_of_one)] None)] ["predictions"] [("", ["f"])] None false). repeat apply conj; reflexivity. Qed.

(** Of several outputs with the same name the last counts. *)

Fixpoint last_with {A} (k : string) (os : list (list (string * A))) : option A :=
  match os with
  | [] => None
  | o :: t => match last_with k t with Some v => Some v | None => dget String.eqb o k end
  end.

Lemma dget_dupdate_str {A} (o d : list (string * A)) k : NoDup (map fst o) ->
  dget String.eqb (dupdate String.eqb d o) k = match dget String.eqb o k with Some v => Some v | None => dget String.eqb d k end.
Proof.
  revert d. unfold dupdate. induction o as [|[k' v'] o IH]; intros d ND; [reflexivity|]. cbn [fold_left fst snd]. inversion ND as [|? ? N1 N2]; subst. rewrite (IH _ N2). cbn [dget].
  destruct (String.eqb_spec k k') as [->|NE].
  - rewrite (proj2 (dget_None _ String.eqb_eq o k') N1). apply (dget_dset_eq _ String.eqb_eq).
  - destruct (dget String.eqb o k); [reflexivity|]. apply (dget_dset_neq _ String.eqb_eq). congruence.
Qed.

Lemma fold_dupdate_get {A} (os : list (list (string * A))) k : Forall (fun o => NoDup (map fst o)) os -> forall d,
  dget String.eqb (fold_left (dupdate String.eqb) os d) k = match last_with k os with Some v => Some v | None => dget String.eqb d k end.
Proof.
  intros F. induction F as [|o os H F IH]; intros d; [reflexivity|]. cbn [fold_left last_with]. rewrite IH, (dget_dupdate_str _ _ _ H).
  destruct (last_with k os); reflexivity.
Qed.

Lemma dget_map_leaf {A B} (g : A -> B) (o : list (string * A)) k : dget String.eqb (map (fun ka => (fst ka, g (snd ka))) o) k = option_map g (dget String.eqb o k).
Proof. induction o as [|[k' v'] o IH]; [reflexivity|]. cbn [map dget fst snd]. destruct (String.eqb k k'); [reflexivity|exact IH]. Qed.

Section Transformed.
  Context {V : Type} (pre : list (string * @preprocessing_fn V)) (functions : model_spec -> list string) (load : string -> @model V).

  (** What a model's functions are: those it names, or else two that it need not have. *)
  Definition outputs_of (spec : model_spec) (m : @model V) features xs n (os : list (option (list (string * arr V)))) : Prop :=
    let required := if functions spec then false else true in
    let names := match functions spec with [] => ["transformed_features"; "transformed_labels"] | l => l end in
    Forall2 (fun s o => run_signature pre m features (Some xs) (Some n) required s = Ok o) names os /\
    Forall (fun o => match o with Some o => NoDup (map fst o) | None => True end) os.
  Definition found_outputs (os : list (option (list (string * arr V)))) : list (list (string * arr V)) :=
    concat (map (fun o => match o with Some o => [o] | None => [] end) os).
  (** The transformed features of one model. *)
  Definition transformed_dict (os : list (option (list (string * arr V)))) (c : list (string * data (leaf V))) : Prop :=
    forall k, dget String.eqb c k = option_map (fun a => Leaf (Dense a)) (last_with k (found_outputs os)).

  Lemma merged_get os k : Forall (fun o : option (list (string * arr V)) => match o with Some o => NoDup (map fst o) | None => True end) os ->
    dget String.eqb (merged os) k = last_with k (found_outputs os).
  Proof.
    intros F. unfold merged. assert (P : present os = found_outputs os) by (unfold present, found_outputs; apply flat_map_concat_map). rewrite P.
    rewrite fold_dupdate_get; [destruct (last_with k (found_outputs os)); reflexivity|].
    clear P. unfold found_outputs. induction F as [|[o|] os H F IH]; cbn [map concat app]; [constructor|constructor; assumption|exact IH].
  Qed.
  Lemma merged_dict os : Forall (fun o : option (list (string * arr V)) => match o with Some o => NoDup (map fst o) | None => True end) os ->
    exists c, model_value true (merged os) = Dict c /\ transformed_dict os c.
  Proof.
    intros F. exists (map (fun ka => (fst ka, Leaf (Dense (snd ka)))) (merged os)). split; [destruct (merged os) as [|[k a] [|]]; reflexivity|].
    intros k. rewrite (dget_map_leaf (fun a => Leaf (Dense a))), (merged_get os k F). reflexivity.
  Qed.
  Lemma names_of (f : @signatures_fn V) spec m fs xs n os name : outputs_of spec m fs xs n os -> dget String.eqb (sf_signature_names f) name = Some (functions spec) ->
    sf_defaults f = Some ["transformed_features"; "transformed_labels"] ->
    exists req sigs, names_to_run f name = Ok (req, sigs) /\ Forall2 (fun s o => run_signature pre m fs (Some xs) (Some n) req s = Ok o) sigs os.
  Proof.
    intros (O & _) G D. unfold names_to_run. rewrite G. destruct (functions spec) as [|x l].
    - rewrite D. do 2 eexists. split; [reflexivity|exact O].
    - do 2 eexists. split; [reflexivity|exact O].
  Qed.

End Transformed.

Lemma C204_one_model_pf : forall (V : Type) pre functions (load : string -> @model V) spec m e n features xs os,
  holds e n features xs -> outputs_of pre functions spec (load (sm_path m)) features xs n os ->
  exists c, extract_with pre (transformed_features_fn functions load [spec] (OneModel m)) e = Ok [dset String.eqb e "transformed_features" (Dict c)] /\ transformed_dict os c.
Proof.
  intros V pre functions load spec m e n fs xs os HO O.
  assert (FN : transformed_features_fn functions load [spec] (OneModel m) = Ok (SignaturesFn [("", load (sm_path m))] ["transformed_features"] [("", functions spec)] (Some ["transformed_features"; "transformed_labels"]) true)) by reflexivity.
  rewrite FN. cbn [extract_with bind]. unfold process. rewrite (proj1 HO). cbn [bind]. unfold run_models.
  rewrite (all_outputs pre _ e n fs xs [os] HO); cbn [sf_models sf_output_keypath].
  - destruct (merged_dict os (proj2 O)) as (c & C1 & C2). exists c. split; [|exact C2].
    cbn [bind map combine concat fst snd app]. rewrite app_nil_r. unfold models_value. cbn [sf_prefer_dict_outputs]. unfold entry_of.
    destruct (present os) eqn:P; cbn [map fst snd].
    + assert (c = []) as ->; [|reflexivity]. unfold merged in C1. rewrite P in C1. cbn in C1. congruence.
    + rewrite C1. reflexivity.
  - discriminate.
  - repeat constructor. intros [].
  - constructor; [|constructor]. cbn [fst snd]. eapply names_of; [exact O|reflexivity|reflexivity].
Qed.

Lemma C204_several_models_partial_pf : forall (V : Type) pre functions (load : string -> @model V) specs models e n features xs oss,
  2 <= length specs -> NoDup (map m_name specs) -> 2 <= length models -> NoDup (map sm_name models) -> Forall (fun m => sm_name m <> "") models ->
  holds e n features xs ->
  Forall2 (fun spec os => (exists o, In (Some o) os) /\ exists m, In m models /\ sm_name m = m_name spec /\ outputs_of pre functions spec (load (sm_path m)) features xs n os) specs oss ->
  exists cs, extract_with pre (transformed_features_fn functions load specs (ModelList models)) e = Ok [dset String.eqb e "transformed_features" (Dict (combine (map m_name specs) (map (fun c => Dict c) cs)))] /\
    Forall2 transformed_dict oss cs.
Proof.
  intros V pre functions load specs models e n fs xs oss L ND L2 ND2 NE HO F.
  assert (MS : exists ms, Forall2 (fun spec m => In m models /\ sm_name m = m_name spec) specs ms /\
     Forall2 (fun (sm : model_spec * shared_model) os => (exists o, In (Some o) os) /\ outputs_of pre functions (fst sm) (load (sm_path (snd sm))) fs xs n os) (combine specs ms) oss).
  { clear -F. induction F as [|spec os specs oss (P & m & I & N & O) F (ms & A & B)]; [exists []; split; constructor|]. exists (m :: ms). split; [constructor; auto|]. cbn [combine]. constructor; auto. }
  destruct MS as (ms & M1 & M2).
  assert (LD : loaded_models load models = map (fun m => (sm_name m, load (sm_path m))) models) by (apply loaded_is; exact ND2).
  assert (SU : setup (map m_name specs) (loaded_models load models) = Ok (combine (map m_name specs) (map (fun m => load (sm_path m)) ms))).
  { apply setup_many; [rewrite map_length; exact L|exact ND|]. rewrite LD. clear -M1 ND2. induction M1 as [|spec m specs ms (I & N) M1 IH]; cbn [map]; constructor; [|exact IH].
    rewrite <- N. apply (dget_map_in sm_name (fun m => load (sm_path m)) models m ND2 I). }
  assert (FN : transformed_features_fn functions load specs (ModelList models) =
    Ok (SignaturesFn (combine (map m_name specs) (map (fun m => load (sm_path m)) ms)) ["transformed_features"] (map (fun m => (m_name m, functions m)) specs) (Some ["transformed_features"; "transformed_labels"]) true)).
  { unfold transformed_features_fn. rewrite (several_names models L2 NE). cbn [bind]. rewrite SU. cbn [bind]. rewrite (fold_names functions specs L ND). reflexivity. }
  rewrite FN. cbn [extract_with bind]. unfold process. rewrite (proj1 HO). cbn [bind]. unfold run_models.
  assert (LM : length specs = length ms) by (apply (Forall2_length _ _ _ M1)).
  assert (KS : map fst (combine (map m_name specs) (map (fun m => load (sm_path m)) ms)) = map m_name specs).
  { clear -LM. revert ms LM. induction specs as [|s specs IH]; intros [|m ms] LM; cbn in *; try discriminate; [reflexivity|]. rewrite IH by lia. reflexivity. }
  rewrite (all_outputs pre _ e n fs xs oss HO); cbn [sf_models sf_output_keypath].
  - rewrite KS. cbn [bind].
    assert (CS : exists cs, Forall2 (fun os c => present os <> [] /\ model_value true (merged os) = Dict c /\ transformed_dict os c) oss cs).
    { clear -M2. induction M2 as [|sm os sms oss ((o & P) & _ & O) M2 (cs & C)]; [exists []; constructor|]. destruct (merged_dict os O) as (c & C1 & C2). exists (c :: cs). constructor; [|exact C].
      split; [|split; assumption]. intros E. assert (I : In o (present os)) by (unfold present; apply in_flat_map; exists (Some o); split; [exact P|left; reflexivity]). rewrite E in I. destruct I. }
    destruct CS as (cs & CS). exists cs. split; [|clear -CS; induction CS as [|? ? ? ? (_ & _ & T) CS IH]; constructor; assumption].
    assert (LO : length specs = length oss) by (exact (Forall2_length _ _ _ F)).
    assert (EQ : map (fun no => (fst no, model_value true (snd no))) (concat (map (fun no => entry_of (fst no) (snd no)) (combine (map m_name specs) oss))) = combine (map m_name specs) (map (fun c => Dict c) cs)).
    { clear -CS LO. revert specs LO. induction CS as [|os c oss cs (P & C & _) CS IH]; intros [|s specs] LO; cbn [length] in LO; try lia; [reflexivity|].
      cbn [map combine concat fst snd]. rewrite map_app, IH by lia. unfold entry_of. destruct (present os) eqn:PE; [congruence|]. cbn [map fst snd app]. rewrite C. reflexivity. }
    unfold models_value. cbn [sf_prefer_dict_outputs]. rewrite EQ.
    assert (LC : length (combine (map m_name specs) (map (fun c => Dict c) cs)) = length specs).
    { rewrite combine_length, !map_length, <- (Forall2_length _ _ _ CS), <- LO. lia. }
    destruct (combine (map m_name specs) (map (fun c => Dict c) cs)) as [|[k1 v1] [|[k2 v2] rest]]; cbn [length] in LC; try lia.
    cbn [copy_and_set_by_keys bind as_dict]. reflexivity.
  - destruct specs as [|s specs]; [cbn in L; lia|]. destruct ms; [discriminate|]. discriminate.
  - rewrite KS. exact ND.
  - match goal with |- Forall2 (fun nm os => exists req sigs, names_to_run ?g _ = _ /\ _) _ _ => set (f := g) end.
    assert (Q : forall spec, In spec specs -> dget String.eqb (sf_signature_names f) (m_name spec) = Some (functions spec)) by (intros spec I; exact (dget_map_in m_name functions specs spec ND I)).
    assert (D : sf_defaults f = Some ["transformed_features"; "transformed_labels"]) by reflexivity. clearbody f. clear -M1 M2 Q D.
    revert oss M2. induction M1 as [|spec m specs ms (I & N) M1 IH]; intros oss M2; cbn [combine map] in *; inversion M2 as [|? os ? oss' (_ & O) M2']; subst; constructor.
    + cbn [fst snd] in *. eapply names_of; [exact O|apply Q; left; reflexivity|exact D].
    + apply IH; [|exact M2']. intros s J. apply Q. right. exact J.
Qed.

Definition tft (k : nat) (name : string) : @signature nat :=
  Signature (Some [("examples", true)]) (fun x => match x with Examples l => Ok (Tensors [(name, Arr [length l] (map (plus k) l))]) | _ => Err TypeError end).

Definition transforming (path : string) : @model nat :=
  if String.eqb path "first" then Model (Some [("transformed_features", tft 100 "label"); ("transformed_labels", tft 200 "y")]) [] None
  else if String.eqb path "second" then Model (Some [("transformed_features", tft 300 "label"); ("again", tft 400 "label")]) [] None
  else Model (Some []) [] None.

Definition labelled (name : string) : model_spec := ModelSpec name "label" [] "" [] "" [] false "".

Definition labels_batch : list (string * data (leaf nat)) := [("features", Dict [("label", Leaf (Dense (Arr [2] [1; 2])))]); ("input", Leaf (Dense (Arr [2] [7; 8])))].

Lemma C204_labels_partial_pf : forall (V : Type) specs (e : list (string * data (leaf V))) features d spec c,
  NoDup (map m_name specs) -> 2 <= length specs -> In spec specs -> m_label_key spec <> "" ->
  dget String.eqb e "features" = Some (Dict features) -> dget String.eqb e "transformed_features" = Some (Dict d) -> dget String.eqb d (m_name spec) = Some (Dict c) ->
  exists labels, dget String.eqb (extract_labels specs e) "labels" = Some (Dict labels) /\
    dget String.eqb labels (m_name spec) =
      Some (match dget String.eqb c (m_label_key spec) with
            | Some v => v
            | None => match dget String.eqb features (m_label_key spec) with Some v => v | None => Leaf PyNone end
            end) /\
    forall k, k <> "labels" -> dget String.eqb (extract_labels specs e) k = dget String.eqb e k.
Proof.
  intros V specs e features d spec c ND L I LK FE TE DN.
  pose proof (C115_missing_values_are_none_pf _ (features_of e) (transformed_of e) m_label_key m_label_keys specs spec ND L I) as P.
  unfold extract_labels, spec_field. destruct (get_feature_values (features_of e) (transformed_of e) true m_label_key m_label_keys specs) as [|v|l]; cbn [part_for] in P; try discriminate.
  cbn [opt_value]. eexists. split; [apply (dget_dset_eq _ String.eqb_eq)|]. split.
  - rewrite (dget_map_leaf field_value), P. cbn [option_map]. f_equal. destruct (String.eqb_spec (m_label_key spec) "") as [E|_]; [congruence|]. cbn [field_value].
    unfold stored_value. unfold transformed_of, features_of, FEATURES_KEY, TRANSFORMED_FEATURES_KEY. rewrite FE, TE, DN.
    destruct (dget String.eqb c (m_label_key spec)); [reflexivity|]. destruct (dget String.eqb features (m_label_key spec)); reflexivity.
  - intros k N. apply (dget_dset_neq _ String.eqb_eq). intros E. apply N. symmetry. exact E.
Qed.

Lemma C204_other_models_labels_refuted_pf : exists (load : string -> @model nat) a b specs e r both alone,
  let f := fun _ : model_spec => [] in
  specs = [labelled "a"; labelled "b"] /\
  extract_with [] (transformed_features_fn f load specs (ModelList [a; b])) e = Ok [both] /\
  extract_with [] (transformed_features_fn f load [labelled "b"] (OneModel b)) e = Ok [alone] /\
  dget String.eqb (extract_labels specs both) "labels" = Some (Dict r) /\
  dget String.eqb r "b" = Some (Leaf (Dense (Arr [2] [107; 108]))) /\
  dget String.eqb (extract_labels [labelled "b"] alone) "labels" = Some (Leaf (Dense (Arr [2] [1; 2]))).
Proof.
  exists transforming, (SharedModel "a" false false "first"), (SharedModel "b" true false "none"), [labelled "a"; labelled "b"], labels_batch.
  do 3 eexists. repeat apply conj; reflexivity.
Qed.

Lemma split_two sep a b : ~ In sep (list_ascii_of_string a) -> ~ In sep (list_ascii_of_string b) -> split_at sep (a ++ String sep b) = [a; b].
Proof.
  intros Ha Hb. induction a as [|c a IH]; cbn [String.append split_at].
  - rewrite (split_plain _ _ Hb), Ascii.eqb_refl. reflexivity.
  - rewrite IH by (intros I; apply Ha; right; exact I). destruct (Ascii.eqb_spec c sep) as [->|NE]; [elim Ha; left; reflexivity|reflexivity].
Qed.

Definition at_feature (name feature : string) : string := (name ++ "@" ++ feature)%string.

Lemma at_split name feature : plain name -> plain feature -> split_at "@" (at_feature name feature) = [name; feature].
Proof. intros A B. apply split_two; assumption. Qed.

Lemma C205_function_of_feature_pf : forall (V : Type) pre (m : @model V) name feature f kind features v xs n required o,
  plain name -> plain feature -> dget String.eqb pre name = Some f -> pf_specs f = [kind] -> feature_for features feature v ->
  (run_signature pre m features xs (Some n) required (at_feature name feature) = Ok (Some o) <->
   exists out, pf_call f (Positional [v]) = Ok out /\ outputs_by_name n name out o).
Proof.
  intros V pre m name feature f kind features v xs n req o PN PF G SP FF. unfold run_signature.
  assert (H : has_at (at_feature name feature) = true) by (unfold has_at; rewrite (at_split _ _ PN PF); reflexivity).
  assert (GP : get_preprocessing_signature (at_feature name feature) = Ok (name, [feature])) by (unfold get_preprocessing_signature; rewrite (at_split _ _ PN PF); reflexivity).
  rewrite H, GP. cbn [bind fst snd]. rewrite G. cbn [option_map snd fst]. rewrite SP. cbn [combine bind].
  assert (GI : get_inputs features [(feature, kind)] = Some [(feature, v)]).
  { apply get_inputs_some; [repeat constructor; intros []|]. split; [discriminate|]. constructor; [split; [reflexivity|exact FF]|constructor]. }
  rewrite GI. cbn [bind call_named map snd].
  split.
  - intros E. destruct (call_errors (pf_call f (Positional [v]))) as [out|] eqn:C; cbn [bind] in E; [|discriminate]. apply (proj1 (call_errors_ok _ _)) in C. exists out. split; [exact C|].
    destruct (to_dense_outputs out (Some n) name) as [o'|] eqn:T; cbn [bind] in E; [|discriminate]. injection E as <-. apply to_dense_ok. exact T.
  - intros (out & C & O). rewrite C. cbn [call_errors bind]. rewrite (proj2 (to_dense_ok _ _ _ _) O). reflexivity.
Qed.

Lemma C205_several_features_pf : forall (V : Type) pre (m : @model V) name a b features xs n required,
  plain name -> plain a -> run_signature pre m features xs n required (at_feature name (at_feature a b)) = Err NotImplementedError.
Proof.
  intros V pre m name a b features xs n req PN PA.
  assert (S1 : exists w ws, split_at "@" b = w :: ws).
  { clear. induction b as [|c b (w & ws & E)]; [do 2 eexists; reflexivity|]. cbn [split_at]. rewrite E. destruct (Ascii.eqb c "@"); do 2 eexists; reflexivity. }
  destruct S1 as (w & ws & E).
  assert (GEN : forall x y z zs, plain x -> split_at "@" y = z :: zs -> split_at "@" (x ++ String "@" y) = x :: z :: zs).
  { clear. intros x y z zs. induction x as [|c x IH]; intros P H; cbn [String.append split_at].
    - rewrite H, Ascii.eqb_refl. reflexivity.
    - rewrite IH; [|intros I; apply P; right; exact I|exact H]. destruct (Ascii.eqb_spec c "@") as [->|NE]; [elim P; left; reflexivity|reflexivity]. }
  assert (SP : split_at "@" (at_feature name (at_feature a b)) = name :: a :: w :: ws).
  { unfold at_feature. change ("@" ++ b)%string with (String "@" b). apply (GEN name (a ++ String "@" b)%string a (w :: ws) PN). apply (GEN a b w ws PA E). }
  unfold run_signature, has_at, get_preprocessing_signature. rewrite SP. reflexivity.
Qed.

Lemma C205_function_of_model_pf : forall (V : Type) pre (m : @model V) name feature features xs n required,
  plain name -> plain feature -> dget String.eqb pre name = None ->
  run_signature pre m features xs n required (at_feature name feature) = run_signature pre m features xs n required name.
Proof.
  intros V pre m name feature features xs n req PN PF G. unfold run_signature.
  assert (H : has_at (at_feature name feature) = true) by (unfold has_at; rewrite (at_split _ _ PN PF); reflexivity).
  assert (GP : get_preprocessing_signature (at_feature name feature) = Ok (name, [feature])) by (unfold get_preprocessing_signature; rewrite (at_split _ _ PN PF); reflexivity).
  rewrite H, GP, (plain_no_at name PN). cbn [bind fst snd]. rewrite G. reflexivity.
Qed.

Definition age : @preprocessing_fn nat := PreprocessingFn [false] (fun x => match x with
  | Positional [Leaf (Dense a)] => Ok (Tensor (Arr (shape a) (map (plus 10) (items a))))
  | Examples l => Ok (Tensor (Arr [length l] (map (plus 1000) l)))
  | _ => Err TypeError end).

Lemma C205_missing_feature_refuted_pf : exists pre (m : @model nat) features xs f out,
  no_feature_for features "z" /\ dget String.eqb pre "age" = Some f /\ pf_call f (Examples xs) = Ok (Tensor out) /\
  run_signature pre m features (Some xs) (Some 2) true "age@z" = Ok (Some [("age", out)]).
Proof.
  exists [("age", age)], sample_model, sample_features, [7; 8], age, (Arr [2] [1007; 1008]). repeat apply conj; try reflexivity.
  apply find_input_none. reflexivity.
Qed.

Lemma C205_two_features_refuted_pf : exists pre (load : string -> @model nat) spec m e r a,
  extract_with pre (transformed_features_fn (fun _ => ["age@x"; "age@y"]) load [spec] (OneModel m)) e = Ok [r] /\
  dget String.eqb r "transformed_features" = Some (Dict [("age", Leaf (Dense a))]) /\
  run_signature pre (load (sm_path m)) sample_features None (Some 2) true "age@y" = Ok (Some [("age", a)]) /\
  run_signature pre (load (sm_path m)) sample_features None (Some 2) true "age@x" <> Ok (Some [("age", a)]).
Proof.
  exists [("age", age)], sample_load, (labelled "a"), (SharedModel "" false false "keras"), sample_extract. do 2 eexists.
  split; [reflexivity|]. split; [reflexivity|]. split; [reflexivity|discriminate].
Qed.

(** The value of a feature; one that is not there is empty. *)

Definition feature_of {F} (empty : F) (x : list (string * F)) (k : string) : F := match dget String.eqb x k with Some f => f | None => empty end.

(** No entry reads what an earlier one has written. *)

Definition independent (config : list (string * string)) : Prop :=
  forall earlier dst src later, config = earlier ++ (dst, src) :: later -> ~ In src (map fst earlier).

Section Cf.
  Context {F : Type} (empty : F).

  Lemma feature_of_dset x k k' (f : F) : feature_of empty (dset String.eqb x k f) k' = if String.eqb k k' then f else feature_of empty x k'.
  Proof.
    unfold feature_of. destruct (String.eqb_spec k k') as [->|N].
    - rewrite (dget_dset_eq _ String.eqb_eq). reflexivity.
    - rewrite (dget_dset_neq _ String.eqb_eq) by congruence. reflexivity.
  Qed.
  Lemma read_feature_of x k k' : feature_of empty (read_feature empty x k) k' = feature_of empty x k'.
  Proof.
    unfold read_feature. destruct (dmem String.eqb x k) eqn:M; [reflexivity|]. rewrite feature_of_dset. destruct (String.eqb_spec k k') as [->|N]; [|reflexivity].
    apply (dmem_false _ String.eqb_eq) in M. apply (dget_None _ String.eqb_eq) in M. unfold feature_of. rewrite M. reflexivity.
  Qed.
  Lemma read_feature_keys x k k' : In k' (map fst (read_feature empty x k)) <-> k' = k \/ In k' (map fst x).
  Proof.
    unfold read_feature. destruct (dmem String.eqb x k) eqn:M.
    - apply (dmem_In _ String.eqb_eq) in M. split; [auto|]. intros [->|I]; assumption.
    - apply (dset_keys_In _ String.eqb_eq).
  Qed.
  Lemma cf_step x dst src : exists y, cf_example empty [(dst, src)] x = y /\
    (forall k, feature_of empty y k = if String.eqb dst k then feature_of empty x src else feature_of empty x k) /\
    (forall k, In k (map fst y) <-> k = dst \/ k = src \/ In k (map fst x)).
  Proof.
    eexists. split; [reflexivity|]. cbn [cf_example fold_left fst snd]. set (z := read_feature empty (read_feature empty x dst) src).
    assert (I : In src (map fst z)) by (apply read_feature_keys; auto).
    assert (E : feature_of empty z src = feature_of empty x src) by (unfold z; rewrite !read_feature_of; reflexivity).
    destruct (dget String.eqb z src) as [f|] eqn:G; [|apply (dget_None _ String.eqb_eq) in G; contradiction].
    assert (Ef : f = feature_of empty x src) by (rewrite <- E; unfold feature_of; rewrite G; reflexivity).
    split.
    - intros k. rewrite feature_of_dset, Ef. destruct (String.eqb dst k); [reflexivity|]. unfold z. rewrite !read_feature_of. reflexivity.
    - intros k. rewrite (dset_keys_In _ String.eqb_eq). unfold z. rewrite !read_feature_keys. tauto.
  Qed.
  Lemma cf_cons x ds config : cf_example empty (ds :: config) x = cf_example empty config (cf_example empty [ds] x).
  Proof. reflexivity. Qed.

End Cf.

Lemma C206_sources_to_destinations_partial_pf : forall (F : Type) (empty : F) config x k, NoDup (map fst config) -> independent config ->
  feature_of empty (cf_example empty config x) k =
    match dget String.eqb config k with Some src => feature_of empty x src | None => feature_of empty x k end.
Proof.
  intros F empty config. induction config as [|[dst src] config IH]; intros x k ND IN; [reflexivity|]. rewrite cf_cons.
  destruct (cf_step empty x dst src) as (y & -> & Y & _). cbn [map fst] in ND. inversion ND as [|? ? N1 N2]; subst.
  rewrite IH; [|exact N2|].
  - cbn [dget]. rewrite !Y. destruct (String.eqb_spec k dst) as [->|NE].
    + rewrite (proj2 (dget_None _ String.eqb_eq config dst) N1), String.eqb_refl. reflexivity.
    + destruct (dget String.eqb config k) as [s|] eqn:G.
      * rewrite Y. destruct (String.eqb_spec dst s) as [->|]; [|reflexivity]. exfalso. apply (dget_In _ String.eqb_eq _ _ _) in G. apply in_split in G. destruct G as (l1 & l2 & ->).
        apply (IN ((s, src) :: l1) k s l2 eq_refl). left. reflexivity.
      * destruct (String.eqb_spec dst k); [congruence|reflexivity].
  - intros earlier d s later E I. apply (IN ((dst, src) :: earlier) d s later); [rewrite E; reflexivity|]. right. exact I.
Qed.

Lemma C206_features_there_pf : forall (F : Type) (empty : F) config x k,
  In k (map fst (cf_example empty config x)) <-> In k (map fst x) \/ In k (map fst config) \/ In k (map snd config).
Proof.
  intros F empty config. induction config as [|[dst src] config IH]; intros x k; [cbn; tauto|]. rewrite cf_cons.
  destruct (cf_step empty x dst src) as (y & -> & _ & Y). rewrite IH, Y. cbn [map fst snd In]. intuition congruence.
Qed.

Lemma C206_swap_refuted_pf : exists (x : list (string * nat)), let y := cf_example 0 [("a", "b"); ("b", "a")] x in
  feature_of 0 x "a" <> feature_of 0 x "b" /\ feature_of 0 y "a" = feature_of 0 x "b" /\ feature_of 0 y "b" = feature_of 0 x "b".
Proof. exists [("a", 1); ("b", 2)]. repeat apply conj; [discriminate|reflexivity|reflexivity]. Qed.

Lemma dget_ddel {A} (d : list (string * A)) k x : NoDup (map fst d) -> dget String.eqb (ddel String.eqb d k) x = if String.eqb k x then None else dget String.eqb d x.
Proof.
  intros ND. destruct (String.eqb_spec k x) as [->|N].
  - apply (dget_None _ String.eqb_eq). rewrite (ddel_keys_In _ String.eqb_eq) by exact ND. tauto.
  - destruct (dget String.eqb d x) as [v|] eqn:G.
    + apply (dget_In_NoDup _ String.eqb_eq); [apply (ddel_NoDup _ String.eqb_eq); exact ND|]. apply (ddel_In _ String.eqb_eq); [exact ND|]. split; [congruence|].
      exact (dget_In _ String.eqb_eq _ _ _ G).
    + apply (dget_None _ String.eqb_eq) in G. apply (dget_None _ String.eqb_eq). rewrite (ddel_keys_In _ String.eqb_eq) by exact ND. tauto.
Qed.

Lemma set_two_ok {A} (e : list (string * data A)) a b v : (dget String.eqb e a = None \/ exists c0, dget String.eqb e a = Some (Dict c0)) ->
  copy_and_set_by_keys (Dict e) [a; b] v = Ok (Dict (dset String.eqb e a (Dict (dset String.eqb (match dget String.eqb e a with Some (Dict c) => c | _ => [] end) b v)))).
Proof. intros [E|[c E]]; cbn [copy_and_set_by_keys]; rewrite E; reflexivity. Qed.

(** A well formed batch all of whose values are for [n] examples. *)

Definition of_size {V} (n : nat) (e : list (string * data (leaf V))) : Prop :=
  wf_data (Dict e) /\ (forall p v, leaf_at (Dict e) p = Some v -> v <> PyNone -> first_dim v = n).

Lemma of_size_batch {V} n (e : list (string * data (leaf V))) k v : of_size n e -> dget String.eqb e k = Some (Leaf v) -> v <> PyNone -> batch_size (Dict e) = Ok (Some n).
Proof.
  intros (W & S) G N. assert (LA : leaf_at (Dict e) [k] = Some v) by (unfold leaf_at; cbn [at_path]; rewrite G; reflexivity).
  generalize (C131_batch_size_pf V (Dict e) W). destruct (batch_size (Dict e)) as [[m|]|x].
  - intros [_ H]. rewrite <- (H _ _ LA N), (S _ _ LA N). reflexivity.
  - intros H. elim N. exact (H _ _ LA).
  - intros (_ & p & v1 & q & v2 & A & B & C & D & E). elim E. rewrite (S _ _ A C), (S _ _ B D). reflexivity.
Qed.

Lemma wf_keys {A} (e : list (string * data A)) : wf_data (Dict e) -> NoDup (map fst e).
Proof. intros W. exact (W [] e eq_refl). Qed.

Lemma wf_dset {A} (e : list (string * data A)) k c : wf_data (Dict e) -> wf_data c -> wf_data (Dict (dset String.eqb e k c)).
Proof.
  intros W Wc [|k' p] d; cbn [at_path].
  - intros E. injection E as <-. apply (dset_NoDup _ String.eqb_eq). apply wf_keys. exact W.
  - destruct (String.eqb_spec k k') as [->|N].
    + rewrite (dget_dset_eq _ String.eqb_eq). apply Wc.
    + rewrite (dget_dset_neq _ String.eqb_eq) by congruence. exact (W (k' :: p) d).
Qed.

Lemma leaf_dset {A} (e : list (string * data A)) k c q v : leaf_at (Dict (dset String.eqb e k c)) q = Some v -> (exists p, leaf_at c p = Some v) \/ leaf_at (Dict e) q = Some v.
Proof.
  unfold leaf_at. destruct q as [|k' p]; [discriminate|]. cbn [at_path]. destruct (String.eqb_spec k k') as [->|N].
  - rewrite (dget_dset_eq _ String.eqb_eq). intros H. left. exists p. exact H.
  - rewrite (dget_dset_neq _ String.eqb_eq) by congruence. auto.
Qed.

Lemma of_size_dset {V} n (e : list (string * data (leaf V))) k c : of_size n e -> wf_data c -> (forall p v, leaf_at c p = Some v -> v <> PyNone -> first_dim v = n) -> of_size n (dset String.eqb e k c).
Proof.
  intros (W & S) Wc Sc. split; [apply wf_dset; assumption|]. intros p v L N. apply leaf_dset in L. destruct L as [(q & L)|L]; [exact (Sc _ _ L N)|exact (S _ _ L N)].
Qed.

Lemma wf_leaf {A} (v : A) : wf_data (Leaf v).
Proof. intros [|k p] d; discriminate. Qed.

Lemma leaf_leaf {A} (v : A) p w : leaf_at (Leaf v) p = Some w -> w = v.
Proof. destruct p; cbn; [intros E; injection E as ->; reflexivity|discriminate]. Qed.

Lemma wf_child {A} (e : list (string * data A)) k c : wf_data (Dict e) -> dget String.eqb e k = Some c -> wf_data c.
Proof. intros W G p d E. apply (W (k :: p) d). cbn [at_path]. rewrite G. exact E. Qed.

Lemma of_size_child {V} n (e : list (string * data (leaf V))) k c : of_size n e -> dget String.eqb e k = Some (Dict c) -> of_size n c.
Proof.
  intros (W & S) G. split; [exact (wf_child e k _ W G)|]. intros p v L. apply (S (k :: p) v). unfold leaf_at in *. cbn [at_path]. rewrite G. exact L.
Qed.

Lemma run_shapes {V} pre (m : @model V) fs xs n req name o : run_signature pre m fs xs (Some n) req name = Ok (Some o) -> Forall (fun ka => hd_error (shape (snd ka)) = Some n) o.
Proof.
  unfold run_signature. intros H.
  repeat match type of H with
  | bind (to_dense_outputs _ _ _) _ = _ => fail 1
  | bind ?r _ = _ => destruct r; cbn [bind] in H; [|discriminate]
  | match ?c with Some _ => _ | None => _ end = _ => destruct c; [|discriminate]
  end.
  destruct (to_dense_outputs _ _ _) as [o'|] eqn:T in H; cbn [bind] in H; [|discriminate]. injection H as <-. apply (proj1 (to_dense_ok _ _ _ _)) in T. exact (proj2 T).
Qed.

Lemma stored_size {V} n (o : list (string * arr V)) : NoDup (map fst o) -> Forall (fun ka => hd_error (shape (snd ka)) = Some n) o ->
  wf_data (stored o) /\ forall p v, leaf_at (stored o) p = Some v -> v <> PyNone -> first_dim v = n.
Proof.
  intros ND F. assert (H : forall a, hd_error (shape a) = Some n -> first_dim (Dense (a : arr V)) = n) by (intros a; cbn; destruct (shape a); cbn; congruence).
  assert (D : wf_data (Dict (map (fun ka => (fst ka, Leaf (Dense (snd ka)))) o)) /\
     forall p v, leaf_at (Dict (map (fun ka => (fst ka, Leaf (Dense (snd ka)))) o)) p = Some v -> v <> PyNone -> first_dim v = n).
  { split.
    - intros [|k p] d; cbn [at_path].
      + intros E. injection E as <-. rewrite map_map. exact ND.
      + rewrite (dget_map_leaf (fun a => Leaf (Dense a))). destruct (dget String.eqb o k); [|discriminate]. apply wf_leaf.
    - intros [|k p] v; unfold leaf_at; cbn [at_path]; [discriminate|]. rewrite (dget_map_leaf (fun a => Leaf (Dense a))). destruct (dget String.eqb o k) as [a|] eqn:G; [|discriminate].
      cbn [option_map]. intros L _. apply (leaf_leaf (Dense a) p v) in L. subst v. apply H. apply (dget_In _ String.eqb_eq _ _ _) in G. rewrite Forall_forall in F. exact (F _ G). }
  unfold stored. destruct o as [|[k a] [|b o]]; try exact D. split; [apply wf_leaf|]. intros p v L _. apply leaf_leaf in L. subst v. apply H. inversion F; assumption.
Qed.

(** Where predictions go: into the dictionary of those of other models, if any. *)

Definition with_prediction {V} (e : list (string * data (leaf V))) (name : string) (v : data (leaf V)) (r : list (string * data (leaf V))) : Prop :=
  exists c, dget String.eqb r "predictions" = Some (Dict c) /\ (forall k, k <> "predictions" -> dget String.eqb r k = dget String.eqb e k) /\
    dget String.eqb c name = Some v /\
    forall k, k <> name -> dget String.eqb c k = match dget String.eqb e "predictions" with Some (Dict c0) => dget String.eqb c0 k | _ => None end.

Definition no_prediction_value {V} (e : list (string * data (leaf V))) : Prop := dget String.eqb e "predictions" = None \/ exists c, dget String.eqb e "predictions" = Some (Dict c).

Section Counter.
  Context {V F : Type} (pre : list (string * @preprocessing_fn V)) (signature_name : model_spec -> string) (load : string -> @model V)
    (empty : F) (parse : V -> res (list (string * F))) (serialize : list (string * F) -> V).

  (** The serialized examples [ys] are the counterfactuals of [xs]. *)
  Definition counterfactuals (config : list (string * string)) (xs ys : list V) : Prop :=
    Forall2 (fun s t => exists x, parse s = Ok x /\ t = serialize (cf_example empty config x)) xs ys.

  Lemma cf_mapM config xs ys : counterfactuals config xs ys -> mapM (fun s => let! x := parse s in Ok (serialize (cf_example empty config x))) xs = Ok ys.
  Proof. intros H. induction H as [|s t xs ys (x & P & ->) H IH]; [reflexivity|]. cbn [mapM]. rewrite P. cbn [bind]. rewrite IH. reflexivity. Qed.

  Lemma cf_one config spec m name e n fs xs ys o : of_size n e -> dget String.eqb e "non_counterfactual_input" = None ->
    (dget String.eqb e "features" = Some (Dict fs) \/ dget String.eqb e "features" = None /\ fs = []) -> dget String.eqb e "input" = Some (Leaf (Dense (Arr [n] xs))) -> length xs = n ->
    no_prediction_value e -> counterfactuals config xs ys -> NoDup (map fst o) ->
    run_signature pre (load (sm_path m)) fs (Some ys) (Some n) true (signature_name spec) = Ok (Some o) ->
    exists r, extract_counterfactual empty parse serialize config (extract_with pre (predictions_fn signature_name load [spec] (OneModel m) ["predictions"; name])) e = Ok [r] /\
      with_prediction e name (stored o) r /\ of_size n r.
  Proof.
    intros Z NT FE IN LX NP CF ND R. unfold extract_counterfactual, cf_preprocess, INPUT_KEY, TEMP_ORIG_INPUT_KEY. rewrite IN. cbn [items]. rewrite (cf_mapM _ _ _ CF). cbn [bind].
    set (e' := dset String.eqb (dset String.eqb e "non_counterfactual_input" (Leaf (Dense (Arr [n] xs)))) "input" (Leaf (Dense (Arr [length ys] ys)))).
    assert (LY : length ys = n) by (rewrite <- LX; symmetry; exact (Forall2_length _ _ _ CF)).
    assert (G : forall k, dget String.eqb e' k = if String.eqb k "input" then Some (Leaf (Dense (Arr [n] ys))) else if String.eqb k "non_counterfactual_input" then Some (Leaf (Dense (Arr [n] xs))) else dget String.eqb e k).
    { intros k. unfold e'. rewrite LY. destruct (String.eqb_spec k "input") as [->|N1]; [apply (dget_dset_eq _ String.eqb_eq)|]. rewrite (dget_dset_neq _ String.eqb_eq) by congruence.
      destruct (String.eqb_spec k "non_counterfactual_input") as [->|N2]; [apply (dget_dset_eq _ String.eqb_eq)|]. apply (dget_dset_neq _ String.eqb_eq). congruence. }
    assert (Z' : of_size n e').
    { unfold e'. apply of_size_dset; [apply of_size_dset; [exact Z|apply wf_leaf|]|apply wf_leaf|]; intros p v L _; apply leaf_leaf in L; subst v; [reflexivity|exact LY]. }
    assert (HO : holds e' n fs ys).
    { split; [|split].
      - apply (of_size_batch n e' "input" (Dense (Arr [n] ys)) Z' (G "input")). discriminate.
      - rewrite (G "features"). exact FE.
      - exists [n]. exact (G "input"). }
    set (c := dset String.eqb (match dget String.eqb e "predictions" with Some (Dict c) => c | _ => [] end) name (stored o)).
    assert (SET : copy_and_set_by_keys (Dict e') ["predictions"; name] (stored o) = Ok (Dict (dset String.eqb e' "predictions" (Dict c)))).
    { rewrite set_two_ok; [rewrite (G "predictions"); reflexivity|]. rewrite (G "predictions"). exact NP. }
    rewrite predictions_fn_one. cbn [extract_with bind].
    rewrite (run_one_model pre signature_name spec (load (sm_path m)) ["predictions"; name] e' n fs ys o _ HO ND R SET). cbn [bind mapM]. unfold cf_postprocess, INPUT_KEY, TEMP_ORIG_INPUT_KEY.
    set (d := dset String.eqb e' "predictions" (Dict c)).
    assert (GD : forall k, dget String.eqb d k = if String.eqb k "predictions" then Some (Dict c) else dget String.eqb e' k).
    { intros k. unfold d. destruct (String.eqb_spec k "predictions") as [->|N]; [apply (dget_dset_eq _ String.eqb_eq)|apply (dget_dset_neq _ String.eqb_eq); congruence]. }
    rewrite (GD "non_counterfactual_input"). cbn [String.eqb Ascii.eqb Bool.eqb]. rewrite (G "non_counterfactual_input"). cbn [String.eqb Ascii.eqb Bool.eqb bind].
    destruct (stored_size n o ND (run_shapes _ _ _ _ _ _ _ _ R)) as [W1 W2].
    assert (ZC : of_size n c).
    { unfold c. apply of_size_dset; [|exact W1|exact W2]. destruct NP as [->|[c0 NP]]; [|rewrite NP; exact (of_size_child n e _ _ Z NP)].
      split; [intros [|k p] x; [intros E; injection E as <-; constructor|discriminate]|]. intros [|k p] v; discriminate. }
    assert (ZD : of_size n d).
    { unfold d. destruct ZC as [A B]. apply of_size_dset; assumption. }
    eexists. split; [reflexivity|].
    set (d' := dset String.eqb d "input" (Leaf (Dense (Arr [n] xs)))).
    assert (ZD' : of_size n d').
    { unfold d'. apply of_size_dset; [exact ZD|apply wf_leaf|]. intros p v L _. apply leaf_leaf in L. subst v. reflexivity. }
    assert (NDd : NoDup (map fst d')) by (apply wf_keys; exact (proj1 ZD')).
    assert (GR : forall k, dget String.eqb (ddel String.eqb d' "non_counterfactual_input") k = if String.eqb k "predictions" then Some (Dict c) else dget String.eqb e k).
    { intros k. rewrite (dget_ddel _ _ _ NDd). destruct (String.eqb_spec "non_counterfactual_input" k) as [<-|N1]; [symmetry; exact NT|].
      unfold d'. destruct (String.eqb_spec k "input") as [->|N2]; [rewrite (dget_dset_eq _ String.eqb_eq); symmetry; exact IN|]. rewrite (dget_dset_neq _ String.eqb_eq) by congruence.
      rewrite GD. destruct (String.eqb k "predictions"); [reflexivity|]. rewrite G. destruct (String.eqb_spec k "input"); [congruence|]. destruct (String.eqb_spec k "non_counterfactual_input"); [congruence|reflexivity]. }
    split.
    - exists c. split; [exact (GR "predictions")|]. split; [|split].
      + intros k N. rewrite GR. destruct (String.eqb_spec k "predictions"); [contradiction|reflexivity].
      + unfold c. apply (dget_dset_eq _ String.eqb_eq).
      + intros k N. unfold c. rewrite (dget_dset_neq _ String.eqb_eq) by congruence. destruct (dget String.eqb e "predictions") as [[|]|]; reflexivity.
    - split.
      + intros [|k p] x; cbn [at_path].
        * intros E. injection E as <-. apply (ddel_NoDup _ String.eqb_eq). exact NDd.
        * rewrite (dget_ddel _ _ _ NDd). destruct (String.eqb "non_counterfactual_input" k); [discriminate|]. exact (proj1 ZD' (k :: p) x).
      + intros [|k p] v; unfold leaf_at; cbn [at_path]; [discriminate|]. rewrite (dget_ddel _ _ _ NDd). destruct (String.eqb "non_counterfactual_input" k); [discriminate|].
        exact (proj2 ZD' (k :: p) v).
  Qed.

End Counter.

Lemma C207_one_model_partial_pf : forall (V F : Type) pre signature_name (load : string -> @model V) (empty : F) parse serialize supported spec m which config e n features xs ys o,
  m_name spec = "" -> supported (with_name m "") = true -> config <> [] ->
  of_size n e -> dget String.eqb e "non_counterfactual_input" = None ->
  (dget String.eqb e "features" = Some (Dict features) \/ dget String.eqb e "features" = None /\ features = []) -> dget String.eqb e "input" = Some (Leaf (Dense (Arr [n] xs))) -> length xs = n ->
  no_prediction_value e -> counterfactuals empty parse serialize config xs ys -> NoDup (map fst o) ->
  run_signature pre (load (sm_path m)) features (Some ys) (Some n) true (signature_name spec) = Ok (Some o) ->
  exists r, counterfactual_predictions pre signature_name load empty parse serialize supported [spec] (OneModel m) [(which, config)] e = Ok [r] /\ with_prediction e "" (stored o) r.
Proof.
  intros V F pre sn load empty parse serialize supported spec m which config e n fs xs ys o SN SU CN Z NT FE IN LX NP CF ND R.
  destruct (cf_one pre sn load empty parse serialize config spec (with_name m "") "" e n fs xs ys o Z NT FE IN LX NP CF ND R) as (r & A & B & _).
  exists r. split; [|exact B]. unfold counterfactual_predictions, validate_and_update_models_and_configs.
  assert (VER : verify_and_update_eval_shared_models (OneModel m) = Ok (Some [with_name m ""])) by reflexivity. rewrite VER. clear VER R.
  assert (N : sm_name (with_name m "") = "") by reflexivity. set (w := with_name m "") in *. clearbody w.
  cbn [bind forallb]. rewrite SU. cbn [negb andb bind map forallb fst]. rewrite N. cbn [memb existsb String.eqb orb andb bind].
  assert (CO : config_of [("", config)] w = config) by (unfold config_of; rewrite N; reflexivity).
  cbn [filter fold_left]. rewrite CO. destruct config as [|dc config]; [congruence|]. cbn [is_nil bind dset foldM]. unfold filter_model_specs. cbn [filter map memb existsb]. rewrite SN, N. cbn [String.eqb orb].
  unfold and_then. cbn [mapM bind]. unfold PREDICTIONS_KEY. rewrite A. reflexivity.
Qed.

Lemma C207_original_and_counterfactual_pf : forall (V F : Type) pre signature_name (load : string -> @model V) (empty : F) parse serialize supported s1 s2 m1 m2 config e n features xs ys o1 o2,
  m_name s1 = sm_name m1 -> m_name s2 = sm_name m2 -> sm_name m1 <> sm_name m2 -> sm_name m1 <> "" -> sm_name m2 <> "" ->
  supported m1 = true -> supported m2 = true -> config <> [] ->
  of_size n e -> dget String.eqb e "non_counterfactual_input" = None ->
  (dget String.eqb e "features" = Some (Dict features) \/ dget String.eqb e "features" = None /\ features = []) -> dget String.eqb e "input" = Some (Leaf (Dense (Arr [n] xs))) -> length xs = n ->
  dget String.eqb e "predictions" = None -> counterfactuals empty parse serialize config xs ys -> NoDup (map fst o1) -> NoDup (map fst o2) ->
  run_signature pre (load (sm_path m1)) features (Some xs) (Some n) true (signature_name s1) = Ok (Some o1) ->
  run_signature pre (load (sm_path m2)) features (Some ys) (Some n) true (signature_name s2) = Ok (Some o2) ->
  exists r c, counterfactual_predictions pre signature_name load empty parse serialize supported [s1; s2] (ModelList [m1; m2]) [(sm_name m2, config)] e = Ok [r] /\
    dget String.eqb r "predictions" = Some (Dict c) /\ dget String.eqb c (sm_name m1) = Some (stored o1) /\ dget String.eqb c (sm_name m2) = Some (stored o2) /\
    (forall k, k <> sm_name m1 -> k <> sm_name m2 -> dget String.eqb c k = None) /\
    forall k, k <> "predictions" -> dget String.eqb r k = dget String.eqb e k.
Proof.
  intros V F pre sn load empty parse serialize supported s1 s2 m1 m2 config e n fs xs ys o1 o2 S1 S2 NE NE1 NE2 U1 U2 CN Z NT FE IN LX NP CF ND1 ND2 R1 R2.
  set (e1 := dset String.eqb e "predictions" (Dict [(sm_name m1, stored o1)])).
  assert (HO : holds e n fs xs).
  { split; [|split; [exact FE|exists [n]; exact IN]]. apply (of_size_batch n e "input" _ Z IN). discriminate. }
  assert (ST : extract_with pre (predictions_fn sn load [s1] (ModelList [m1]) ["predictions"; sm_name m1]) e = Ok [e1]).
  { assert (PF : predictions_fn sn load [s1] (ModelList [m1]) ["predictions"; sm_name m1] = Ok (SignaturesFn [("", load (sm_path m1))] ["predictions"; sm_name m1] [("", [sn s1])] None false)) by reflexivity.
    rewrite PF. cbn [extract_with bind]. apply (run_one_model pre sn s1 (load (sm_path m1)) _ e n fs xs o1 e1 HO ND1 R1).
    rewrite set_two_ok by (left; exact NP). rewrite NP. reflexivity. }
  destruct (stored_size n o1 ND1 (run_shapes _ _ _ _ _ _ _ _ R1)) as [W1 W2].
  assert (G1 : forall k, k <> "predictions" -> dget String.eqb e1 k = dget String.eqb e k) by (intros k N; apply (dget_dset_neq _ String.eqb_eq); congruence).
  assert (GP : dget String.eqb e1 "predictions" = Some (Dict [(sm_name m1, stored o1)])) by apply (dget_dset_eq _ String.eqb_eq).
  assert (Z1 : of_size n e1).
  { unfold e1. assert (ZC : of_size n [(sm_name m1, stored o1)]).
    { apply (of_size_dset n [] (sm_name m1) (stored o1)); [|exact W1|exact W2]. split; [intros [|k p] x; [intros E; injection E as <-; constructor|discriminate]|]. intros [|k p] v; discriminate. }
    destruct ZC. apply of_size_dset; assumption. }
  destruct (cf_one pre sn load empty parse serialize config s2 m2 (sm_name m2) e1 n fs xs ys o2 Z1) as (r & A & (c & B1 & B2 & B3 & B4) & _); try assumption.
  { rewrite G1 by discriminate. exact NT. }
  { rewrite !G1 by discriminate. exact FE. }
  { rewrite G1 by discriminate. exact IN. }
  { right. eexists. exact GP. }
  exists r, c. split; [|split; [exact B1|split; [|split; [exact B3|split]]]].
  - unfold counterfactual_predictions, validate_and_update_models_and_configs.
    rewrite (several_names [m1; m2]) by (cbn; try lia; repeat constructor; assumption). cbn [bind forallb]. rewrite U1, U2. cbn [negb andb bind].
    assert (M : memb String.eqb (sm_name m2) (map sm_name [m1; m2]) = true) by (apply (memb_In _ String.eqb_eq); right; left; reflexivity).
    assert (Q1 : String.eqb (sm_name m1) (sm_name m2) = false) by (apply String.eqb_neq; exact NE).
    assert (Q2 : String.eqb (sm_name m2) (sm_name m1) = false) by (apply String.eqb_neq; congruence).
    cbn [bind forallb fst]. rewrite M. cbn [andb bind].
    assert (C1 : config_of [(sm_name m2, config)] m1 = []) by (unfold config_of; cbn [dget]; rewrite Q1; reflexivity).
    assert (C2 : config_of [(sm_name m2, config)] m2 = config) by (unfold config_of; cbn [dget]; rewrite String.eqb_refl; reflexivity).
    cbn [filter fold_left]. rewrite C1, C2. destruct config as [|dc config]; [congruence|]. cbn [is_nil dset].
    assert (F1 : filter_model_specs [s1; s2] [m1] = [s1]) by (unfold filter_model_specs; cbn [filter map memb existsb]; rewrite S1, S2, String.eqb_refl, Q2; reflexivity).
    assert (F2 : filter_model_specs [s1; s2] [m2] = [s2]) by (unfold filter_model_specs; cbn [filter map memb existsb]; rewrite S1, S2, String.eqb_refl, Q1; reflexivity).
    rewrite F1. unfold PREDICTIONS_KEY. rewrite ST. cbn [bind foldM]. unfold and_then. cbn [mapM]. rewrite F2, A. reflexivity.
  - rewrite B4 by exact NE. rewrite GP. cbn [dget]. rewrite String.eqb_refl. reflexivity.
  - intros k K1 K2. rewrite B4 by exact K2. rewrite GP. cbn [dget]. destruct (String.eqb_spec k (sm_name m1)); [contradiction|reflexivity].
  - intros k N. rewrite B2 by exact N. apply G1. exact N.
Qed.

(** Examples of one feature x and another y, as a number. *)

Definition parse_xy (v : nat) : res (list (string * nat)) := Ok [("x", Nat.modulo v 10); ("y", Nat.div v 10)].

Definition write_xy (x : list (string * nat)) : nat := feature_of 0 x "x" + 10 * feature_of 0 x "y".

Definition cf_batch : list (string * data (leaf nat)) := [("features", Dict [("x", Leaf (Dense (Arr [2] [3; 4])))]); ("input", Leaf (Dense (Arr [2] [73; 84])))].

Definition named_spec (name : string) : model_spec := ModelSpec name "" [] "" [] "" [] false "".

Lemma cf_batch_ok : of_size 2 cf_batch.
Proof.
  split; [apply wf_two; intros; apply leaf_no_dict|]. intros p v. unfold leaf_at. destruct p as [|k p]; [discriminate|]. cbn [at_path dget cf_batch].
  destruct (String.eqb k "features"); [|destruct (String.eqb k "input"); [|discriminate]].
  - destruct p as [|k2 p]; [discriminate|]. cbn [at_path dget]. destruct (String.eqb k2 "x"); [|discriminate]. intros E _. apply leaf_leaf in E. subst v. reflexivity.
  - intros E _. apply leaf_leaf in E. subst v. reflexivity.
Qed.

Lemma C207_named_spec_refuted_pf : exists (load : string -> @model nat) spec m e config r,
  let sn := fun _ : model_spec => "serving_default" in
  m_name spec = sm_name m /\ sm_name m <> "" /\
  extract_with [] (predictions_fn sn load [spec] (OneModel m) ["predictions"]) e = Ok [r] /\
  counterfactual_predictions [] sn load 0 parse_xy write_xy (fun _ => true) [spec] (OneModel m) [(sm_name m, config)] e = Err ValueError.
Proof.
  exists sample_load, (named_spec "m"), (SharedModel "m" false false "keras"), cf_batch, [("x", "y")]. eexists. repeat apply conj; try reflexivity; discriminate.
Qed.

(** A model with named inputs gets the original features: its predictions are the same with
    counterfactuals and without. *)

Definition reads_x : @model nat := Model (Some [("serving_default", Signature (Some [("x", false)])
  (fun i => match i with Keywords [(_, Leaf (Dense a))] => Ok (Tensor a) | _ => Err TypeError end))]) [] None.

Lemma C207_named_inputs_refuted_pf : exists (load : string -> @model nat) spec m e config c v,
  let sn := fun _ : model_spec => "serving_default" in
  extract_with [] (predictions_fn sn load [spec] (OneModel m) ["predictions"]) e = Ok [e ++ [("predictions", v)]] /\
  counterfactual_predictions [] sn load 0 parse_xy write_xy (fun _ => true) [spec] (OneModel m) [("", config)] e = Ok [e ++ [("predictions", Dict c)]] /\
  dget String.eqb c "" = Some v /\ In ("x", "y") config /\
  exists xs, dget String.eqb e "input" = Some (Leaf (Dense (Arr [2] xs))) /\
    Forall (fun s => exists x, parse_xy s = Ok x /\ feature_of 0 x "x" <> feature_of 0 x "y") xs.
Proof.
  exists (fun _ => reads_x), (named_spec ""), (SharedModel "" false false "any"), cf_batch, [("x", "y")]. do 2 eexists.
  split; [reflexivity|]. split; [reflexivity|]. split; [reflexivity|]. split; [left; reflexivity|]. eexists. split; [reflexivity|].
  repeat constructor; eexists; (split; [reflexivity|discriminate]).
Qed.

Definition tensor_of {V} (c : @column V) : option (data (leaf V)) :=
  match c with Supported v | BinaryList _ v => Some v | Unsupported => None end.

Lemma columns_fold {V} (columns : list (string * @column V)) : NoDup (map fst columns) -> forall acc raw r, NoDup (map fst acc ++ map fst columns) ->
  foldM (fun acc nc =>
             if String.eqb (fst nc) "__raw_record__"
             then match snd nc with
                  | BinaryList l _ => Ok (fst acc, Some l)
                  | _ => Err AssertionError
                  end
             else match snd nc with
                  | Supported v | BinaryList _ v => Ok (fst acc ++ [(fst nc, v)], snd acc)
                  | Unsupported => Ok acc
                  end) columns (acc, raw) = Ok r ->
  NoDup (map fst (fst r)) /\ (forall k, ~ In k (map fst columns) -> dget String.eqb (fst r) k = dget String.eqb acc k) /\
  (forall k c, In (k, c) columns -> dget String.eqb (fst r) k = if String.eqb k "__raw_record__" then None else tensor_of c) /\
  match dget String.eqb columns "__raw_record__" with
  | Some c => exists l v, c = BinaryList l v /\ snd r = Some l
  | None => snd r = raw
  end.
Proof.
  intros ND. induction columns as [|[k c] columns IH]; intros acc raw r NDA E.
  - cbn [foldM] in E. injection E as <-. cbn [map] in NDA. rewrite app_nil_r in NDA. cbn. repeat apply conj; try reflexivity; [exact NDA|]. intros k c [].
  - cbn [map fst] in ND. inversion ND as [|? ? N1 N2]; subst. specialize (IH N2).
    assert (NK : ~ In k (map fst acc)) by (intros I; cbn [map fst] in NDA; apply NoDup_remove_2 in NDA; apply NDA; apply in_or_app; left; exact I).
    assert (NDA' : NoDup (map fst acc ++ map fst columns)) by (cbn [map fst] in NDA; apply NoDup_remove_1 in NDA; exact NDA).
    cbn [foldM bind fst snd] in E. cbn [dget]. destruct (String.eqb_spec k "__raw_record__") as [->|NR].
    + rewrite String.eqb_refl. destruct c as [v| |l v]; try discriminate. cbn [bind] in E. destruct (IH acc (Some l) r NDA' E) as (A & B & C & D).
      assert (NG : dget String.eqb columns "__raw_record__" = None) by (apply (dget_None _ String.eqb_eq); exact N1). rewrite NG in D.
      split; [exact A|]. split; [|split].
      * intros k' NI. apply B. intros I. apply NI. right. exact I.
      * intros k' c' [I|I]; [|exact (C k' c' I)]. injection I as <- <-. cbn [String.eqb Ascii.eqb Bool.eqb]. rewrite (B _ N1). apply (dget_None _ String.eqb_eq). exact NK.
      * exists l, v. auto.
    + assert (Q : String.eqb "__raw_record__" k = false) by (apply String.eqb_neq; congruence). rewrite Q.
      destruct (tensor_of c) as [v|] eqn:T.
      * assert (E' : foldM (fun acc nc =>
             if String.eqb (fst nc) "__raw_record__"
             then match snd nc with
                  | BinaryList l _ => Ok (fst acc, Some l)
                  | _ => Err AssertionError
                  end
             else match snd nc with
                  | Supported v | BinaryList _ v => Ok (fst acc ++ [(fst nc, v)], snd acc)
                  | Unsupported => Ok acc
                  end) columns (acc ++ [(k, v)], raw) = Ok r) by (destruct c as [w| |l w]; cbn [tensor_of] in T; try discriminate; injection T as <-; exact E).
        assert (NDB : NoDup (map fst (acc ++ [(k, v)]) ++ map fst columns)).
        { rewrite map_app. cbn [map fst]. rewrite <- app_assoc. exact NDA. }
        destruct (IH _ _ r NDB E') as (A & B & C & D). split; [exact A|]. split; [|split; [|exact D]].
        -- intros k' NI. rewrite B by (intros I; apply NI; right; exact I). assert (k' <> k) by (intros ->; apply NI; left; reflexivity).
           clear -H. induction acc as [|[x y] acc IHa]; cbn [app dget]; [destruct (String.eqb_spec k' k); [contradiction|reflexivity]|]. rewrite IHa. reflexivity.
        -- intros k' c' [I|I]; [|exact (C k' c' I)]. injection I as <- <-. rewrite (proj2 (String.eqb_neq k _) NR), T, (B k N1). apply dget_app_new. exact NK.
      * assert (c = Unsupported) as -> by (destruct c; [discriminate|reflexivity|discriminate]). cbn [bind] in E. destruct (IH _ _ r NDA' E) as (A & B & C & D).
        split; [exact A|]. split; [|split; [|exact D]].
        -- intros k' NI. apply B. intros I. apply NI. right. exact I.
        -- intros k' c' [I|I]; [|exact (C k' c' I)]. injection I as <- <-. rewrite (proj2 (String.eqb_neq k _) NR). cbn [tensor_of]. rewrite (B k N1). apply (dget_None _ String.eqb_eq). exact NK.
Qed.

Lemma C208_columns_become_features_pf : forall (V : Type) columns (e : list (string * data (leaf V))) r, NoDup (map fst columns) ->
  extract_features (Some columns) e = Ok r ->
  (exists fs, dget String.eqb r "features" = Some (Dict fs) /\
     forall k, dget String.eqb fs k =
       match dget String.eqb columns k with
       | Some c => match (if String.eqb k "__raw_record__" then None else tensor_of c) with
                   | Some v => Some v
                   | None => match dget String.eqb e "features" with Some (Dict d) => dget String.eqb d k | _ => None end
                   end
       | None => match dget String.eqb e "features" with Some (Dict d) => dget String.eqb d k | _ => None end
       end) /\
  (exists v, dget String.eqb r "input" = Some (Leaf v) /\
     match dget String.eqb columns "__raw_record__" with
     | Some c => exists l w, c = BinaryList l w /\ v = Dense (Arr [length l] l)
     | None => v = PyNone
     end) /\
  forall k, k <> "features" -> k <> "input" -> dget String.eqb r k = dget String.eqb e k.
Proof.
  intros V columns e r ND E. unfold extract_features in E. destruct (drop_unsupported columns) as [[fs raw]|x] eqn:D; cbn [bind] in E; [|discriminate].
  destruct (columns_fold columns ND [] None (fs, raw) ND D) as (A & B & C & R). cbn [fst snd] in *.
  set (old := match dget String.eqb e FEATURES_KEY with Some (Dict d) => Ok d | Some (Leaf _) => Err AttributeError | None => Ok [] end) in E.
  destruct old as [d|] eqn:O; cbn [bind] in E; [|discriminate].
  assert (OLD : forall k, dget String.eqb d k = match dget String.eqb e "features" with Some (Dict d) => dget String.eqb d k | _ => None end).
  { intros k. unfold old, FEATURES_KEY in O. destruct (dget String.eqb e "features") as [[v|d']|]; try discriminate; injection O as <-; reflexivity. }
  injection E as <-. unfold FEATURES_KEY, INPUT_KEY. split; [|split].
  - eexists. split; [rewrite (dget_dset_neq _ String.eqb_eq) by discriminate; apply (dget_dset_eq _ String.eqb_eq)|]. intros k. rewrite (dget_dupdate_str _ _ _ A), OLD.
    destruct (dget String.eqb columns k) as [c|] eqn:G.
    + rewrite (C k c (dget_In _ String.eqb_eq _ _ _ G)). reflexivity.
    + apply (dget_None _ String.eqb_eq) in G. rewrite (B k G). reflexivity.
  - eexists. split; [apply (dget_dset_eq _ String.eqb_eq)|]. destruct (dget String.eqb columns "__raw_record__") as [c|].
    + destruct R as (l & w & -> & ->). exists l, w. auto.
    + rewrite R. reflexivity.
  - intros k N1 N2. rewrite !(dget_dset_neq _ String.eqb_eq) by congruence. reflexivity.
Qed.

Lemma C208_no_record_batch_pf : forall (V : Type) (e : list (string * data (leaf V))) r,
  (extract_features None e = Ok r <-> r = e /\ In "features" (map fst e)) /\ (~ In "features" (map fst e) -> extract_features None e = Err ValueError).
Proof.
  intros V e r. unfold extract_features. split.
  - destruct (dmem String.eqb e FEATURES_KEY) eqn:M.
    + apply (dmem_In _ String.eqb_eq) in M. split; [intros E; injection E as <-; auto|]. intros [-> _]. reflexivity.
    + apply (dmem_false _ String.eqb_eq) in M. split; [discriminate|]. intros [_ I]. contradiction.
  - intros N. apply (dmem_false _ String.eqb_eq) in N. unfold FEATURES_KEY. rewrite N. reflexivity.
Qed.

Lemma C208_examples_lost_refuted_pf : exists (columns : list (string * @column nat)) e v r, dget String.eqb e "input" = Some (Leaf (Dense v)) /\
  extract_features (Some columns) e = Ok r /\ dget String.eqb r "input" = Some (Leaf PyNone).
Proof. exists [("a", Supported (Leaf (Dense (Arr [2] [1; 2]))))], [("input", Leaf (Dense (Arr [2] [7; 8])))]. do 2 eexists. repeat apply conj; reflexivity. Qed.

(** A feature as the query sees it: the transformed feature of the first model that has it, or
    else the feature. *)

Fixpoint first_with {V} (names : list string) (t features : list (string * data (leaf V))) (k : string) : option (data (leaf V)) :=
  match names with
  | [] => dget String.eqb features k
  | n :: names => match dget String.eqb t n with
                  | Some (Dict c) => match dget String.eqb c k with Some v => Some v | None => first_with names t features k end
                  | _ => first_with names t features k
                  end
  end.

Definition seen {V} (specs : list model_spec) (e features : list (string * data (leaf V))) (k : string) : option (data (leaf V)) :=
  match dget String.eqb e "transformed_features" with
  | Some (Dict t) => match specs with
                     | [_] => match dget String.eqb t k with Some v => Some v | None => dget String.eqb features k end
                     | _ => first_with (map m_name specs) t features k
                     end
  | _ => dget String.eqb features k
  end.

Lemma sql_fold {V} (t : list (string * data (leaf V))) : wf_data (Dict t) -> forall specs fs r,
  foldM (fun fs m => match dget String.eqb t (m_name m) with
                     | None => Ok fs
                     | Some (Dict c) => Ok (dupdate String.eqb fs c)
                     | Some (Leaf _) => Err TypeError
                     end) (rev specs) fs = Ok r ->
  forall k, dget String.eqb r k = first_with (map m_name specs) t fs k.
Proof.
  intros W specs. induction specs as [|m specs IH]; intros fs r E k.
  - injection E as <-. reflexivity.
  - cbn [rev] in E. rewrite foldM_app in E. destruct (foldM _ (rev specs) fs) as [r0|] eqn:E0 in E; cbn [bind] in E; [|discriminate]. cbn [foldM] in E.
    cbn [map first_with]. destruct (dget String.eqb t (m_name m)) as [[v|c]|] eqn:G; cbn [bind] in E; try discriminate.
    + injection E as <-. rewrite (dget_dupdate_str c r0 k (wf_keys _ (wf_child _ _ _ W G))). rewrite (IH fs r0 E0). reflexivity.
    + injection E as <-. exact (IH fs r0 E0 k).
Qed.

Lemma C209_query_sees_transformed_features_pf : forall (V : Type) specs query (e r : list (string * data (leaf V))), wf_data (Dict e) ->
  sql_slice_keys specs query e = Ok r ->
  exists features fs keys, dget String.eqb e "features" = Some (Dict features) /\ query fs = Ok keys /\ (forall k, dget String.eqb fs k = seen specs e features k) /\
    dget String.eqb r "_slice_key_types" = Some (Leaf keys) /\
    forall k, k <> "features" -> k <> "_slice_key_types" -> dget String.eqb r k = dget String.eqb e k.
Proof.
  intros V specs query e r W E. unfold sql_slice_keys, FEATURES_KEY, TRANSFORMED_FEATURES_KEY, SLICE_KEY_TYPES_KEY in E.
  destruct (dget String.eqb e "features") as [[v|features]|] eqn:FE; cbn [bind] in E; try discriminate.
  set (tf := match dget String.eqb e "transformed_features" with None => _ | Some _ => _ end) in E.
  destruct tf as [fs|] eqn:T; cbn [bind] in E; [|discriminate]. destruct (query fs) as [keys|] eqn:Q; cbn [bind] in E; [|discriminate]. injection E as <-.
  exists features, fs, keys. split; [reflexivity|]. split; [exact Q|]. split; [|split].
  - intros k. unfold seen. unfold tf in T. destruct (dget String.eqb e "transformed_features") as [[v|t]|] eqn:TE.
    + destruct v; try discriminate. injection T as <-. reflexivity.
    + assert (WT : wf_data (Dict t)) by exact (wf_child _ _ _ W TE). destruct specs as [|s [|s2 specs]].
      * injection T as <-. reflexivity.
      * injection T as <-. apply dget_dupdate_str. apply wf_keys. exact WT.
      * exact (sql_fold t WT (s :: s2 :: specs) features fs T k).
    + injection T as <-. reflexivity.
  - apply (dget_dset_eq _ String.eqb_eq).
  - intros k N1 N2. rewrite !(dget_dset_neq _ String.eqb_eq) by congruence. reflexivity.
Qed.

Lemma C209_only_slice_keys_partial_pf : forall (V : Type) specs query (e r : list (string * data (leaf V))),
  dget String.eqb e "transformed_features" = None -> sql_slice_keys specs query e = Ok r -> forall k, k <> "_slice_key_types" -> dget String.eqb r k = dget String.eqb e k.
Proof.
  intros V specs query e r NT E k N. unfold sql_slice_keys, FEATURES_KEY, TRANSFORMED_FEATURES_KEY, SLICE_KEY_TYPES_KEY in E. rewrite NT in E.
  destruct (dget String.eqb e "features") as [[v|features]|] eqn:FE; cbn [bind] in E; try discriminate. destruct (query features) as [keys|]; cbn [bind] in E; [|discriminate]. injection E as <-.
  rewrite (dget_dset_neq _ String.eqb_eq) by congruence. destruct (String.eqb_spec k "features") as [->|N2]; [rewrite (dget_dset_eq _ String.eqb_eq); symmetry; exact FE|].
  apply (dget_dset_neq _ String.eqb_eq). congruence.
Qed.

Definition query_x (fs : list (string * data (leaf nat))) : res (leaf nat) := match dget String.eqb fs "x" with Some (Leaf v) => Ok v | _ => Err KeyError end.

Definition sql_batch : list (string * data (leaf nat)) :=
  [("features", Dict [("x", Leaf (Dense (Arr [2] [1; 2])))]); ("transformed_features", Dict [("a", Dict [("x", Leaf (Dense (Arr [2] [3; 4])))]); ("b", Dict [("x", Leaf (Dense (Arr [2] [5; 6])))])])].

Lemma C209_features_overwritten_refuted_pf : exists specs (query : list (string * data (leaf nat)) -> res (leaf nat)) e r,
  sql_slice_keys specs query e = Ok r /\ dget String.eqb e "features" <> dget String.eqb r "features" /\
  exists spec, In spec specs /\ let labels := fun e => match dget String.eqb (extract_labels specs e) "labels" with Some (Dict d) => dget String.eqb d (m_name spec) | _ => None end in
    labels e <> labels r.
Proof.
  exists [labelled "a"; labelled "b"], (fun _ => Ok PyNone), (labels_batch ++ [("transformed_features", Dict [("a", Dict [("label", Leaf (Dense (Arr [2] [3; 4])))]); ("b", Dict [])])]).
  eexists. split; [reflexivity|]. split; [discriminate|]. exists (labelled "b"). split; [right; left; reflexivity|]. discriminate.
Qed.

(** What a log predicts. *)

Inductive log_holds {T} (stack : list T -> T) : @prediction_log T -> data T -> Prop :=
  | holds_classes : forall pairs classes scores, pairs = combine classes scores -> length classes = length scores ->
      log_holds stack (Classify [pairs]) (Dict [("classes", Leaf (stack classes)); ("scores", Leaf (stack scores))])
  | holds_regressions : forall values, log_holds stack (Regress values) (Leaf (stack values))
  | holds_output : forall name t, log_holds stack (Predict [(name, t)]) (Leaf t)
  | holds_outputs : forall outputs d, length outputs <> 1 -> Forall2 (fun nt nd => fst nd = fst nt /\ snd nd = Leaf (snd nt)) outputs d ->
      log_holds stack (Predict outputs) (Dict d).

Lemma parse_holds {T} (stack : list T -> T) p v : parse_prediction_log stack p = Ok v <-> log_holds stack p v.
Proof.
  split.
  - destruct p as [[|c [|c2 l]]|l|[|[n t] [|x l]]| | |]; cbn [parse_prediction_log]; intros E; try discriminate; injection E as <-.
    + apply holds_classes; [|rewrite !map_length; reflexivity]. clear. induction c as [|[a b] c IH]; [reflexivity|]. cbn [map combine fst snd]. rewrite <- IH. reflexivity.
    + constructor.
    + apply holds_outputs; [discriminate|constructor].
    + constructor.
    + apply holds_outputs; [discriminate|]. change ((n, Leaf t) :: _) with (map (fun kv : string * T => (fst kv, Leaf (snd kv))) ((n, t) :: x :: l)). generalize ((n, t) :: x :: l). intros k. induction k as [|[a b] k IH]; constructor; [split; reflexivity|exact IH].
  - intros H. destruct H as [pairs classes scores -> L|values|name t|outputs d L F]; cbn [parse_prediction_log]; try reflexivity.
    + assert (A : map fst (combine classes scores) = classes /\ map snd (combine classes scores) = scores).
      { clear -L. revert scores L. induction classes as [|c classes IH]; intros [|s scores] L; cbn in L; try lia; [split; reflexivity|].
        destruct (IH scores) as [A B]; [lia|]. cbn [combine map fst snd]. rewrite A, B. split; reflexivity. }
      destruct A as [-> ->]. reflexivity.
    + assert (E : d = map (fun kv => (fst kv, Leaf (snd kv))) outputs).
      { clear -F. induction F as [|[a b] [c e] o d (P & Q) F IH]; [reflexivity|]. cbn [fst snd map] in *. subst. reflexivity. }
      subst d. destruct outputs as [|[n t] [|x l]]; [reflexivity|cbn in L; lia|reflexivity].
Qed.

(** What goes into the extract for the models: by name if there are several. *)

Definition by_name {A} (l : list (string * data A)) (v : data A) : Prop :=
  (length l = 1 /\ exists n, l = [(n, v)]) \/ (length l <> 1 /\ v = Dict l).

Lemma unwrap_by_name {A} (l : list (string * data A)) v : unwrap l = v <-> by_name l v.
Proof.
  unfold by_name, unwrap. destruct l as [|[n w] [|y l]].
  - split; [intros <-; right; split; [discriminate|reflexivity]|]. intros [[L _]|[_ ->]]; [discriminate L|reflexivity].
  - split; [intros <-; left; split; [reflexivity|exists n; reflexivity]|]. intros [[_ [m E]]|[L _]]; [congruence|cbn in L; congruence].
  - split; [intros <-; right; split; [discriminate|reflexivity]|]. intros [[L _]|[_ ->]]; [discriminate L|reflexivity].
Qed.

Lemma C210_predictions_inserted_pf : forall (T : Type) stack keep (e : list (string * data T)) logs vs v w log_key,
  Forall2 (fun nl nv => fst nv = fst nl /\ log_holds stack (snd nl) (snd nv)) logs vs -> by_name vs v ->
  by_name (map (fun nl => (fst nl, Leaf (keep (snd nl)))) logs) w ->
  insert_predictions stack keep e logs ["predictions"] [] = Ok (Dict (dset String.eqb e "predictions" v)) /\
  insert_predictions stack keep e logs ["predictions"] [log_key] = Ok (Dict (dset String.eqb (dset String.eqb e "predictions" v) log_key w)).
Proof.
  intros T stack keep e logs vs v w lk F V W. apply unwrap_by_name in V, W. unfold insert_predictions.
  assert (M : mapM (fun nl => let! v := parse_prediction_log stack (snd nl) in Ok (fst nl, v)) logs = Ok vs).
  { clear -F. induction F as [|[n l] [m x] logs vs (N & P) F IH]; [reflexivity|]. cbn [mapM fst snd] in *. apply parse_holds in P. rewrite P. cbn [bind]. rewrite IH, N. reflexivity. }
  rewrite M. cbn [bind copy_and_set_by_keys]. rewrite V, W. split; reflexivity.
Qed.

Lemma C210_other_logs_pf : forall (T : Type) stack keep (e : list (string * data T)) logs keypath log_keypath n p,
  In (n, p) logs -> (forall v, ~ log_holds stack p v) -> is_ok (insert_predictions stack keep e logs keypath log_keypath) = false.
Proof.
  intros T stack keep e logs kp lkp n p I N. unfold insert_predictions.
  assert (M : exists x, mapM (fun nl => let! v := parse_prediction_log stack (snd nl) in Ok (fst nl, v)) logs = Err x).
  { clear -I N. induction logs as [|[m q] logs IH]; [destruct I|]. cbn [mapM fst snd]. destruct (parse_prediction_log stack q) as [v|x] eqn:P; cbn [bind]; [|eauto].
    destruct I as [I|I]; [injection I as -> ->; apply parse_holds in P; elim (N v P)|]. destruct (IH I) as [x X]. rewrite X. exists x. reflexivity. }
  destruct M as [x M]. rewrite M. reflexivity.
Qed.

(** The model a spec is about: the one with its name, or the only one. *)

Definition model_for (l : list shared_model) (name : string) (m : shared_model) : Prop :=
  (In m l /\ sm_name m = name) \/ (l = [m] /\ sm_name m = "").

(** The signature with a name in the first graph that has it. *)

Definition first_graph {L} (graphs : list (list (string * L))) (name : string) (d : L) : Prop :=
  exists before g after, graphs = before ++ g :: after /\ (forall h, In h before -> ~ In name (map fst h)) /\ dget String.eqb g name = Some d.

Definition bulk_name {L} (given : string) (graphs : list (list (string * L))) : string -> Prop := fun name =>
  (given <> "" /\ name = given) \/
  (given = "" /\ ((exists g, In g graphs /\ In "predict" (map fst g)) /\ name = "predict" \/ (forall g, In g graphs -> ~ In "predict" (map fst g)) /\ name = "serving_default")).

Lemma find_graph {L} (graphs : list (list (string * L))) name d : signature_def name graphs = Ok d <-> first_graph graphs name d.
Proof.
  unfold signature_def, first_graph. induction graphs as [|g graphs IH].
  - cbn. split; [discriminate|]. intros (b & g & a & E & _). destruct b; discriminate.
  - cbn [concat]. assert (FG : forall rest, find (fun nd => String.eqb name (fst nd)) (g ++ rest) = match dget String.eqb g name with Some d => Some (name, d) | None => find (fun nd => String.eqb name (fst nd)) rest end).
    { intros rest. clear. induction g as [|[k v] g IH]; [reflexivity|]. cbn [app find fst dget]. destruct (String.eqb_spec name k) as [->|N]; [reflexivity|exact IH]. }
    rewrite FG. destruct (dget String.eqb g name) as [d'|] eqn:G.
    + split.
      * intros E. injection E as <-. exists [], g, graphs. split; [reflexivity|]. split; [intros h []|exact G].
      * intros (b & g' & a & E & NB & G'). destruct b as [|h b].
        -- injection E as E1 E2; subst. rewrite G in G'. injection G' as <-. reflexivity.
        -- injection E as E1 E2; subst. elim (NB h (or_introl eq_refl)). apply (dget_In _ String.eqb_eq _ _ _) in G. apply in_map_iff. exists (name, d'). auto.
    + rewrite IH. split.
      * intros (b & g' & a & -> & NB & G'). exists (g :: b), g', a. split; [reflexivity|]. split; [|exact G']. intros h [<-|I]; [|exact (NB h I)]. apply (dget_None _ String.eqb_eq). exact G.
      * intros (b & g' & a & E & NB & G'). destruct b as [|h b]; [injection E as E1 E2; subst; congruence|]. injection E as E1 E2; subst. exists b, g', a. split; [reflexivity|]. split; [|exact G'].
        intros h' I. apply NB. right. exact I.
Qed.

Lemma bulk_name_ok {L} given (graphs : list (list (string * L))) name : bulk_name given graphs name <-> name = if set_str given then given else default_name_of_saved_model graphs.
Proof.
  unfold bulk_name, set_str, default_name_of_saved_model. destruct (String.eqb_spec given "") as [->|N]; cbn [negb].
  - assert (X : existsb (fun g => dmem String.eqb g "predict") graphs = true <-> exists g, In g graphs /\ In "predict" (map fst g)).
    { rewrite existsb_exists. split; intros (g & I & H); exists g; split; try exact I; [apply (dmem_In _ String.eqb_eq) in H; exact H|apply (dmem_In _ String.eqb_eq); exact H]. }
    destruct (existsb (fun g => dmem String.eqb g "predict") graphs) eqn:EX.
    + destruct (proj1 X eq_refl) as (g & I & H). split; [intros [[? _]|[_ [[_ E]|[N _]]]]; [contradiction|exact E|elim (N g I H)]|]. intros ->. right. split; [reflexivity|]. left. split; [exists g; auto|reflexivity].
    + assert (Y : forall g, In g graphs -> ~ In "predict" (map fst g)) by (intros g I H; assert (false = true) by (apply X; exists g; auto); discriminate).
      split; [intros [[? _]|[_ [[(g & I & H) _]|[_ E]]]]; [contradiction|elim (Y g I H)|exact E]|]. intros ->. right. split; [reflexivity|]. right. split; [exact Y|reflexivity].
  - split; [intros [[_ E]|[E _]]; [exact E|contradiction]|]. intros ->. left. auto.
Qed.

Lemma shared_lookup (l : list shared_model) name s : NoDup (map sm_name l) ->
  (get_eval_shared_model name (fold_left (fun d m => dset String.eqb d (sm_name m) m) l []) = Ok s <-> model_for l name s).
Proof.
  intros ND. rewrite (fold_dset_new sm_name (fun m => m) l [] ND) by (intros x _ []). cbn [app]. unfold get_eval_shared_model.
  destruct (dget String.eqb (map (fun x => (sm_name x, x)) l) name) as [m|] eqn:G.
  - assert (GI := G). apply (dget_In _ String.eqb_eq _ _ _) in GI. apply in_map_iff in GI. destruct GI as (m' & E & I). injection E as <- <-.
    split.
    + intros E. injection E as <-. left. auto.
    + intros [[I2 E]|[-> E]].
      * pose proof (dget_map_in sm_name (fun m => m) l s ND I2) as G2. rewrite E in G2. congruence.
      * destruct I as [->|[]]. reflexivity.
  - assert (NI : forall m, In m l -> sm_name m <> name).
    { intros m I E. apply (dget_None _ String.eqb_eq) in G. apply G. rewrite map_map. apply in_map_iff. exists m. auto. }
    destruct l as [|m [|m2 l]]; cbn [map].
    + split; [discriminate|]. intros [[[] _]|[E _]]. discriminate.
    + destruct (String.eqb_spec (sm_name m) "") as [E|N].
      * split; [intros H; injection H as <-; right; auto|]. intros [[[<-|[]] H]|[H _]]; [elim (NI m (or_introl eq_refl) H)|congruence].
      * split; [discriminate|]. intros [[[<-|[]] H]|[H H2]]; [elim (NI m (or_introl eq_refl) H)|congruence].
    + split; [discriminate|]. intros [[I H]|[H _]]; [elim (NI s I H)|discriminate].
Qed.

Lemma C210_bulk_inference_pf : forall supported graphs_of signature_name specs shared l,
  verify_and_update_eval_shared_models shared = Ok (Some l) -> NoDup (map sm_name l) ->
  (valid_for_bulk_inference supported graphs_of signature_name specs shared = Ok true <->
   (forall m, In m l -> supported m = true) /\
   forall spec, In spec specs -> exists m name, model_for l (m_name spec) m /\ bulk_name (signature_name spec) (graphs_of m) name /\ first_graph (graphs_of m) name [true]).
Proof.
  intros supported graphs sn specs shared l VE ND. unfold valid_for_bulk_inference. rewrite VE. cbn [bind].
  destruct (forallb supported l) eqn:SU; cbn [negb].
  2:{ split; [discriminate|]. intros [H _]. apply forallb_forall in H. congruence. }
  assert (SA : forall m, In m l -> supported m = true) by (apply forallb_forall; exact SU).
  set (d := fold_left (fun d m => dset String.eqb d (sm_name m) m) l []).
  assert (LK : forall name s, get_eval_shared_model name d = Ok s <-> model_for l name s) by (intros; apply shared_lookup; exact ND). clearbody d.
  split.
  - intros E. split; [exact SA|]. induction specs as [|spec specs IH]; [intros s []|].
    destruct (get_eval_shared_model (m_name spec) d) as [m|] eqn:G; cbn [bind] in E; [|discriminate]. cbn zeta in E.
    set (name := if set_str (sn spec) then sn spec else default_name_of_saved_model (graphs m)) in E.
    destruct (signature_def name (graphs m)) as [[|[] [|? ?]]|] eqn:SD; try discriminate.
    intros s [<-|I]; [|exact (IH E s I)]. exists m, name. split; [apply LK; exact G|]. split; [apply bulk_name_ok; reflexivity|]. apply find_graph. exact SD.
  - intros [_ H]. induction specs as [|spec specs IH]; [reflexivity|]. destruct (H spec (or_introl eq_refl)) as (m & name & A & B & C). apply LK in A. rewrite A. cbn [bind]. cbn zeta.
    apply bulk_name_ok in B. rewrite <- B. apply find_graph in C. rewrite C. apply IH. intros s I. apply H. right. exact I.
Qed.

(** The value a spec names by a key: of the transformed features of its model, else of the features. *)

Definition value_for {V} (e : list (string * data (leaf V))) (name key : string) : option (data (leaf V)) :=
  let features := match dget String.eqb e "features" with Some (Dict d) => dget String.eqb d key | _ => None end in
  match dget String.eqb e "transformed_features" with
  | Some (Dict d) => match dget String.eqb d name with
                     | Some (Dict c) => match dget String.eqb c key with Some v => Some v | None => features end
                     | Some (Leaf _) => features
                     | None => match dget String.eqb d key with Some v => Some v | None => features end
                     end
  | _ => features
  end.

Lemma value_for_ok {V} (e : list (string * data (leaf V))) name key : lookup (features_of e) (transformed_of e) false name key = option_map Some (value_for e name key).
Proof.
  unfold lookup, value_for, features_of, transformed_of, FEATURES_KEY, TRANSFORMED_FEATURES_KEY.
  destruct (dget String.eqb e "transformed_features") as [[|d]|]; [|destruct (dget String.eqb d name) as [[|c]|]; [|destruct (dget String.eqb c key)|destruct (dget String.eqb d key)]|];
    destruct (dget String.eqb e "features") as [[|f]|]; cbn [dget option_map]; try reflexivity; destruct (dget String.eqb f key); reflexivity.
Qed.

Lemma C211_weights_of_one_model_pf : forall (V : Type) spec (e : list (string * data (leaf V))), m_weight_key spec <> "" ->
  extract_example_weights [spec] e = match value_for e (m_name spec) (m_weight_key spec) with Some v => dset String.eqb e "example_weights" v | None => e end.
Proof.
  intros V spec e N. unfold extract_example_weights, spec_field, get_feature_values. cbn [fold_left]. unfold value_of_spec.
  assert (B : set_str (m_weight_key spec) = true) by (destruct (m_weight_key spec); [congruence|reflexivity]). rewrite B, value_for_ok.
  destruct (value_for e (m_name spec) (m_weight_key spec)); reflexivity.
Qed.

Lemma C211_weights_by_model_pf : forall (V : Type) specs (e : list (string * data (leaf V))), NoDup (map m_name specs) -> 2 <= length specs -> Forall (fun s => m_weight_key s <> "") specs ->
  (forall k, k <> "example_weights" -> dget String.eqb (extract_example_weights specs e) k = dget String.eqb e k) /\
  ((forall s, In s specs -> value_for e (m_name s) (m_weight_key s) = None) -> extract_example_weights specs e = e) /\
  ((exists s v, In s specs /\ value_for e (m_name s) (m_weight_key s) = Some v) ->
   exists d, dget String.eqb (extract_example_weights specs e) "example_weights" = Some (Dict d) /\
     forall s, In s specs -> dget String.eqb d (m_name s) = value_for e (m_name s) (m_weight_key s)).
Proof.
  intros V specs e ND L F. unfold extract_example_weights, spec_field, EXAMPLE_WEIGHTS_KEY.
  set (vs := fold_left (fun d m => match value_of_spec (features_of e) (transformed_of e) false m_weight_key m_weight_keys m with Some v => dset String.eqb d (m_name m) v | None => d end) specs []).
  assert (VS : forall s, In s specs -> dget String.eqb vs (m_name s) = option_map (fun v => One (Some v)) (value_for e (m_name s) (m_weight_key s))).
  { intros s I. unfold vs. rewrite values_fold by exact ND.
    assert (FM : find (fun m0 => String.eqb (m_name m0) (m_name s)) specs = Some s).
    { clear - ND I. induction specs as [|x ms IH]; [destruct I|]. cbn [map] in ND. inversion ND as [|? ? N1 N2]; subst. cbn [find].
      destruct (String.eqb_spec (m_name x) (m_name s)) as [E|D].
      - destruct I as [->|I]; [reflexivity|]. exfalso. apply N1. rewrite E. apply in_map. exact I.
      - destruct I as [->|I]; [congruence|apply IH; assumption]. }
    rewrite FM. unfold value_of_spec. rewrite Forall_forall in F. assert (B : set_str (m_weight_key s) = true) by (specialize (F s I); destruct (m_weight_key s); [congruence|reflexivity]).
    rewrite B, value_for_ok. destruct (value_for e (m_name s) (m_weight_key s)); reflexivity. }
  assert (EMPTY : (forall s, In s specs -> value_for e (m_name s) (m_weight_key s) = None) -> vs = []).
  { intros H. unfold vs. assert (G : forall l acc, (forall s, In s l -> value_of_spec (features_of e) (transformed_of e) false m_weight_key m_weight_keys s = None) ->
      fold_left (fun d m => match value_of_spec (features_of e) (transformed_of e) false m_weight_key m_weight_keys m with Some v => dset String.eqb d (m_name m) v | None => d end) l acc = acc).
    { induction l as [|x l IH]; intros acc Hl; [reflexivity|]. cbn [fold_left]. rewrite (Hl x (or_introl eq_refl)). apply IH. intros s I. apply Hl. right. exact I. }
    apply G. intros s I. unfold value_of_spec. rewrite Forall_forall in F. assert (B : set_str (m_weight_key s) = true) by (specialize (F s I); destruct (m_weight_key s); [congruence|reflexivity]).
    rewrite B, value_for_ok, (H s I). reflexivity. }
  assert (LN : Nat.eqb (length specs) 1 = false) by (apply Nat.eqb_neq; lia).
  assert (GV : get_feature_values (features_of e) (transformed_of e) false m_weight_key m_weight_keys specs = match vs with [] => NoValues | _ => PerModel vs end).
  { unfold get_feature_values. change (fold_left _ specs []) with vs. rewrite LN. destruct vs as [|[k v] vs']; reflexivity. }
  rewrite GV. clear GV. split; [|split].
  - intros k N. destruct vs; [reflexivity|]. apply (dget_dset_neq _ String.eqb_eq). congruence.
  - intros H. rewrite (EMPTY H). reflexivity.
  - intros (s & v & I & E). pose proof (VS s I) as VI. rewrite E in VI. cbn [option_map] in VI. destruct vs as [|x vs']; [discriminate|].
    eexists. split; [apply (dget_dset_eq _ String.eqb_eq)|]. intros s' I'. rewrite (dget_map_leaf field_value), (VS s' I').
    destruct (value_for e (m_name s') (m_weight_key s')); reflexivity.
Qed.

Lemma C211_stored_predictions_pf : forall (V : Type) spec (e : list (string * data (leaf V))), m_prediction_key spec <> "" ->
  rekey_predictions [spec] ["predictions"] e = Ok (match value_for e (m_name spec) (m_prediction_key spec) with Some v => dset String.eqb e "predictions" v | None => e end).
Proof.
  intros V spec e N. unfold rekey_predictions, spec_field, get_feature_values. cbn [fold_left]. unfold value_of_spec.
  assert (B : set_str (m_prediction_key spec) = true) by (destruct (m_prediction_key spec); [congruence|reflexivity]). rewrite B, value_for_ok.
  destruct (value_for e (m_name spec) (m_prediction_key spec)); reflexivity.
Qed.

Definition weighted (name : string) : model_spec := ModelSpec name "" [] "p" [] "w" [] false "".

Definition weights_batch : list (string * data (leaf nat)) :=
  [("features", Dict [("p", Leaf (Dense (Arr [2] [1; 2])))]); ("transformed_features", Dict [("a", Dict [("w", Leaf (Dense (Arr [2] [3; 4])))]); ("b", Dict [])])].
